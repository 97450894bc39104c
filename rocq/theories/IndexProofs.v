(** Proofs about indexing. *)
From Coq Require Import Lia ZifyBool Sorted.
From Verif Require Import Base ModelBound ModelRanges ModelSets ModelValue ModelStep ModelConv ModelIndex
  Spec SpecStep SpecIndex StepProofs StepLemmas IterProofs ConvProofs.
Open Scope Z_scope.

(** ** Lists *)
Lemma to_nat_of n : Z.to_nat (Z.of_nat n) = n. Proof. lia. Qed.

Lemma nth_seq {A : Type} (v : list A) (n s : nat) : (s + n <= length v)%nat ->
  map (fun i => nth_error v (Z.to_nat i)) (zseq (Z.of_nat s) n) = map Some (firstn n (skipn s v)).
Proof.
  revert s. induction n as [|n IH]; intros s H; [reflexivity|].
  cbn [zseq map]. rewrite to_nat_of.
  replace (Z.of_nat s + 1) with (Z.of_nat (S s)) by lia. rewrite IH by lia.
  clear IH. revert v H. induction s as [|s IHs]; intros v H.
  - destruct v; [cbn in H; lia|]. cbn. reflexivity.
  - destruct v; [cbn in H; lia|]. cbn [skipn nth_error]. apply IHs. cbn in H. lia.
Qed.

Lemma part_picks {A : Type} (P : Z -> Prop) (v : list A) s e :
  0 <= s <= e -> e <= Z.of_nat (length v) ->
  (forall i, 0 <= i < Z.of_nat (length v) -> (P i <-> s <= i < e)) -> picks P v (part v (s, e)).
Proof.
  intros S E H. exists (zseq s (Z.to_nat (e - s))). split; [apply zseq_sorted|]. split.
  - intros i. rewrite zseq_in. split.
    + intros K. split; [lia|]. apply H; lia.
    + intros [K1 K2]. apply H in K2; lia.
  - unfold part. cbn [fst snd]. rewrite <- nth_seq by lia. f_equal. f_equal. lia.
Qed.

Lemma sorted_unique (l k : list Z) : StronglySorted Z.lt l -> StronglySorted Z.lt k -> (forall i, In i l <-> In i k) -> l = k.
Proof.
  revert k. induction l as [|a l IH]; intros k L K H.
  - destruct k as [|b k]; [reflexivity|]. exfalso. apply (H b). left; reflexivity.
  - destruct k as [|b k]; [exfalso; apply (H a); left; reflexivity|].
    inversion L as [|? ? L' La]; inversion K as [|? ? K' Kb]; subst. rewrite Forall_forall in La, Kb.
    assert (a = b) as <-.
    { destruct (proj1 (H a) (or_introl eq_refl)) as [->|Ia]; [reflexivity|].
      destruct (proj2 (H b) (or_introl eq_refl)) as [->|Ib]; [reflexivity|].
      specialize (La _ Ib). specialize (Kb _ Ia). lia. }
    f_equal. apply IH; [assumption|assumption|]. intros i. split; intros Hi.
    + destruct (proj1 (H i) (or_intror Hi)) as [->|X]; [|exact X]. specialize (La _ Hi). lia.
    + destruct (proj2 (H i) (or_intror Hi)) as [->|X]; [|exact X]. specialize (Kb _ Hi). lia.
Qed.
Lemma picks_unique {A : Type} (P : Z -> Prop) (v w x : list A) : picks P v w -> picks P v x -> w = x.
Proof.
  intros (ps & S1 & H1 & M1) (qs & S2 & H2 & M2).
  assert (ps = qs) by (apply sorted_unique; [assumption|assumption|]; intros i; rewrite H1, H2; reflexivity).
  subst qs. rewrite M1 in M2. clear -M2. revert x M2. induction w as [|a w IH]; intros [|b x] E; try discriminate; [reflexivity|].
  cbn in E. injection E as -> E. f_equal. auto.
Qed.

Lemma skipn_twice {A : Type} (a b : nat) (v : list A) : skipn a (skipn b v) = skipn (a + b) v.
Proof.
  revert v. induction b as [|b IH]; intros v; [rewrite Nat.add_0_r; reflexivity|].
  rewrite <- plus_n_Sm. destruct v as [|x v]; [rewrite !skipn_nil; reflexivity|]. cbn [skipn]. apply IH.
Qed.
Lemma part_length {A : Type} (v : list A) s e : 0 <= s <= e -> e <= Z.of_nat (length v) -> Z.of_nat (length (part v (s, e))) = e - s.
Proof. intros. unfold part. cbn. rewrite firstn_length, skipn_length. lia. Qed.
Lemma split_at {A : Type} (v : list A) s e : 0 <= s <= e -> e <= Z.of_nat (length v) ->
  v = firstn (Z.to_nat s) v ++ part v (s, e) ++ skipn (Z.to_nat e) v.
Proof.
  intros S E. rewrite <- (firstn_skipn (Z.to_nat s) v) at 1. f_equal. unfold part. cbn.
  rewrite <- (firstn_skipn (Z.to_nat (e - s)) (skipn (Z.to_nat s) v)) at 1. f_equal.
  rewrite skipn_twice. f_equal. lia.
Qed.
Lemma put_spec {A : Type} (v w : list A) s e :
  0 <= s <= e -> e <= Z.of_nat (length v) -> Z.of_nat (length w) = e - s ->
  length (put v (s, e) w) = length v /\ part (put v (s, e) w) (s, e) = w /\
  (forall i, ~ s <= i < e -> nth_error (put v (s, e) w) (Z.to_nat i) = nth_error v (Z.to_nat i) \/ i < 0).
Proof.
  intros S E W. unfold put. cbn [fst snd].
  assert (F : length (firstn (Z.to_nat s) v) = Z.to_nat s) by (rewrite firstn_length; lia).
  split; [|split].
  - rewrite !app_length, F, skipn_length. lia.
  - unfold part. cbn [fst snd]. rewrite skipn_app, F, Nat.sub_diag, skipn_all2 by lia. cbn [skipn app].
    rewrite firstn_app. replace (Z.to_nat (e - s) - length w)%nat with 0%nat by lia.
    cbn [firstn]. rewrite app_nil_r. apply firstn_all2. lia.
  - intros i N. destruct (Z.ltb_spec i 0); [right; lia|left].
    destruct (Z.ltb_spec i s).
    + rewrite nth_error_app1 by lia. symmetry. rewrite <- (firstn_skipn (Z.to_nat s) v) at 1. apply nth_error_app1. lia.
    + rewrite nth_error_app2 by lia. rewrite nth_error_app2 by lia. rewrite F.
      symmetry. rewrite <- (firstn_skipn (Z.to_nat e) v) at 1.
      assert (F' : length (firstn (Z.to_nat e) v) = Z.to_nat e) by (rewrite firstn_length; lia).
      rewrite nth_error_app2 by lia. rewrite F'. f_equal. lia.
Qed.

(** ** Positions *)
Section Positions.
Context {PF : Platform}.
Notation usize := (mint Usize).

Lemma usize_ends (t : usize) : 0 <= mval t <= usize_max.
Proof. pose proof (mint_range Usize t) as B. unfold imin, imax in B. cbn in B. unfold usize_max. exact B. Qed.
Lemma usize_of z : 0 <= z <= usize_max -> exists t : usize, mval t = z.
Proof.
  intros H. destruct (of_z_fits Usize z) as (t & _ & E); [|eauto]. unfold imin, imax. cbn. unfold usize_max in H. exact H.
Qed.

Lemma fwd_usize (t : usize) :
  (exists b, forward Debug t 1 = Ret b /\ mval b = mval t + 1) \/ (forward Debug t 1 = Panic /\ mval t = usize_max).
Proof.
  destruct (fwd_cases t 1 one_ok) as [(b & E & I)|[E I]].
  - left. exists b. split; [exact E|exact I].
  - right. split; [exact E|]. pose proof (usize_ends t). destruct (Z.eq_dec (mval t) usize_max); [assumption|].
    destruct (usize_of (mval t + 1)) as [u U]; [lia|]. exfalso. specialize (I u). cbn in I. lia.
Qed.

Lemma slice_positions_debug len r : 0 <= len <= usize_max ->
  slice_positions Debug len r =
  if (ix_first r <=? ix_stop len r) && (ix_stop len r <=? len) then Ret (ix_first r, ix_stop len r) else Panic.
Proof.
  intros L. destruct r as [[[[s|s]] [[e|e]]]|[[[s|s]]]|[[[e|e]]]|[]|[]];
    unfold slice_positions, range_from_br, range_from_from_lbr, range_to_from_ubr;
    cbn [lb_to_bound ub_to_bound lb_bound ub_bound
         br_start br_end lbr_start ubr_end ix_first ix_stop first_pos stop_pos bind];
    try pose proof (usize_ends s); try pose proof (usize_ends e);
    try (destruct (fwd_usize s) as [(b & -> & Eb)|[-> Eb]]; cbn [bind]);
    try (destruct (fwd_usize e) as [(c & -> & Ec)|[-> Ec]]; cbn [bind]);
    unfold std_slice_range, std_slice_range_from, std_slice_range_to, std_slice_range_full; cbn [rg_start rg_end rf_start rt_end];
    rewrite ?Eb, ?Ec.
  all: try reflexivity.
  all: try match goal with |- Panic = _ => destruct (_ && _) eqn:K; [exfalso; lia|reflexivity] end.
  all: rewrite ?Z.leb_refl, ?andb_true_r; try reflexivity.
  all: try (rewrite (proj2 (Z.leb_le 0 _)) by lia; cbn [andb]; reflexivity).
  change (mval (rg_start (range_from_empty mkEmptyRange))) with (mval (default : usize)).
  change (mval (rg_end (range_from_empty mkEmptyRange))) with (mval (default : usize)). rewrite (zero_default Usize). reflexivity.
Qed.

Lemma selects_iff r i : selects r i <-> 0 <= i <= usize_max /\
  match r with
  | IxLower _ | IxUnbounded _ => ix_first r <= i
  | _ => ix_first r <= i < ix_stop 0 r
  end.
Proof.
  unfold selects. split.
  - intros (t & <- & M). unfold ix_value, mem, in_range in M. pose proof (usize_ends t) as B. split; [exact B|].
    destruct r as [[[[s|s]] [[e|e]]]|[[[s|s]]]|[[[e|e]]]|[]|[]]; cbn in *; try match type of M with _ /\ _ => destruct M as [M1 M2]; cbn in M1, M2 end; try contradiction;
      repeat match goal with
      | H : le _ _ |- _ => apply le_idx in H; cbn in H
      | H : lt _ _ |- _ => apply lt_idx in H; cbn in H
      end; lia || tauto.
  - intros [B M]. destruct (usize_of i B) as [t <-]. exists t. split; [reflexivity|].
    destruct r as [[[[s|s]] [[e|e]]]|[[[s|s]]]|[[[e|e]]]|[]|[]]; cbn in *; unfold in_range; cbn; try split;
      try (apply le_idx; cbn; lia); try (apply lt_idx; cbn; lia); lia || tauto.
Qed.
Lemma selects_in len r i : 0 <= i < len -> len <= usize_max -> (selects r i <-> ix_first r <= i < ix_stop len r).
Proof.
  intros I L. rewrite selects_iff.
  destruct r as [[[[s|s]] [[e|e]]]|[[[s|s]]]|[[[e|e]]]|[]|[]]; cbn; lia.
Qed.
Lemma selects_below len r : 0 <= len <= usize_max -> ix_stop len r <= len ->
  match r with IxLower _ | IxUnbounded _ => True | _ => forall i, selects r i -> i < len end.
Proof.
  intros L S. destruct r as [r|r|r|r|r]; try exact I; intros i Hi; apply selects_iff in Hi; cbn in *; lia.
Qed.
Lemma ix_first_nonneg r : 0 <= ix_first r.
Proof.
  destruct r as [[[[s|s]] [[e|e]]]|[[[s|s]]]|[[[e|e]]]|[]|[]]; cbn; try pose proof (usize_ends s); lia.
Qed.

Lemma slice_positions_ret len r s e : 0 <= len <= usize_max -> slice_positions Debug len r = Ret (s, e) ->
  0 <= s <= e /\ e <= len /\ s = ix_first r /\ e = ix_stop len r.
Proof.
  intros L. rewrite slice_positions_debug by exact L. destruct (_ && _) eqn:K; [|discriminate]. intros E. injection E as <- <-.
  pose proof (ix_first_nonneg r). lia.
Qed.
Lemma slice_positions_agree len r p : slice_positions Debug len r = Ret p -> slice_positions Release len r = Ret p.
Proof.
  destruct r as [r|r|r|r|r]; cbn [slice_positions]; intros E; try exact E; inv_bind E.
  - rewrite (range_of_br_agree _ _ E0). exact E.
  - rewrite (range_from_of_lbr_agree _ _ E0). exact E.
  - rewrite (range_to_of_ubr_agree _ _ E0). exact E.
Qed.

Lemma fwd_usize_release (t : usize) b : mval t < usize_max -> (forward Release t 1 = Ret b <-> forward Debug t 1 = Ret b).
Proof.
  intros B. destruct (fwd_usize t) as [(c & E & _)|[_ E]]; [|lia]. rewrite E, (fwd_agree _ _ _ one_ok E). tauto.
Qed.
Lemma slice_positions_release len r : convertible r -> slice_positions Release len r = slice_positions Debug len r.
Proof.
  intros [F S]. destruct r as [[[[s|s]] [[e|e]]]|[[[s|s]]]|[[[e|e]]]|[]|[]]; cbn in F, S;
    unfold slice_positions, range_from_br, range_from_from_lbr, range_to_from_ubr;
    cbn [lb_to_bound ub_to_bound lb_bound ub_bound
         br_start br_end lbr_start ubr_end bind]; try reflexivity;
    try (destruct (fwd_usize s) as [(b & Eb & _)|[_ Eb]]; [rewrite Eb, (fwd_agree _ _ _ one_ok Eb)|lia]; cbn [bind]);
    try (destruct (fwd_usize e) as [(c & Ec & _)|[_ Ec]]; [rewrite Ec, (fwd_agree _ _ _ one_ok Ec)|lia]; cbn [bind]); reflexivity.
Qed.

(** ** Slices *)
Lemma slice_index_debug {A : Type} (v w : list A) r : Z.of_nat (length v) <= usize_max ->
  (slice_index Debug v r = Ret w <->
   ix_first r <= ix_stop (Z.of_nat (length v)) r <= Z.of_nat (length v) /\ picks (selects r) v w).
Proof.
  intros L. assert (L' : 0 <= Z.of_nat (length v) <= usize_max) by lia. pose proof (ix_first_nonneg r) as F.
  assert (K : ix_first r <= ix_stop (Z.of_nat (length v)) r <= Z.of_nat (length v) ->
              picks (selects r) v (part v (ix_first r, ix_stop (Z.of_nat (length v)) r))).
  { intros K. apply part_picks; [lia|lia|]. intros i Hi. apply selects_in; lia. }
  unfold slice_index. rewrite slice_positions_debug by exact L'. destruct (_ && _) eqn:E; cbn [bind].
  - assert (B : ix_first r <= ix_stop (Z.of_nat (length v)) r <= Z.of_nat (length v)) by lia. specialize (K B). split.
    + intros X. injection X as <-. split; assumption.
    + intros [_ P]. f_equal. exact (picks_unique _ _ _ _ K P).
  - split; [discriminate|]. intros [B _]. lia.
Qed.
Lemma slice_index_panics {A : Type} (v : list A) r : Z.of_nat (length v) <= usize_max ->
  (slice_index Debug v r = Panic <->
   ~ (ix_first r <= ix_stop (Z.of_nat (length v)) r <= Z.of_nat (length v))) /\ slice_index Debug v r <> Diverge.
Proof.
  intros L. unfold slice_index. rewrite slice_positions_debug by lia. destruct (_ && _) eqn:E; cbn [bind].
  - split; [|discriminate]. split; [discriminate|]. intros H. exfalso. apply H. lia.
  - split; [|discriminate]. split; [|reflexivity]. intros _ H. lia.
Qed.

Lemma slice_mut_debug {A : Type} (v v' : list A) r f : Z.of_nat (length v) <= usize_max ->
  (forall w, length (f w) = length w) -> slice_index_mut Debug v r f = Ret v' ->
  exists w, slice_index Debug v r = Ret w /\ slice_index Debug v' r = Ret (f w) /\ length v' = length v /\
    forall i, 0 <= i -> ~ selects r i -> nth_error v' (Z.to_nat i) = nth_error v (Z.to_nat i).
Proof.
  intros L Fl E. unfold slice_index_mut in E. inv_bind E. injection E as <-. destruct a as [s e].
  assert (L' : 0 <= Z.of_nat (length v) <= usize_max) by lia. pose proof (slice_positions_ret _ _ _ _ L' E0) as (S & B & S1 & B1).
  pose proof (part_length v s e S B) as PL.
  destruct (put_spec v (f (part v (s, e))) s e S B) as (P1 & P2 & P3); [rewrite Fl; exact PL|].
  exists (part v (s, e)). unfold slice_index. rewrite P1, E0. cbn [bind]. rewrite P2. repeat split; try reflexivity.
  intros i I N. destruct (Z.ltb_spec i (Z.of_nat (length v))).
  - destruct (P3 i) as [X|X]; [|exact X|lia]. intros K. apply N. apply (selects_in (Z.of_nat (length v))); [lia|lia|]. subst. exact K.
  - rewrite !(proj2 (nth_error_None _ _)) by (rewrite ?P1; lia). reflexivity.
Qed.
End Positions.
