(** Proofs about string indexing. *)
From Coq Require Import Lia ZifyBool Sorted.
From Verif Require Import Base ModelBound ModelRanges ModelSets ModelValue ModelStep ModelConv ModelIndex
  Spec SpecStep SpecIndex StepProofs StepLemmas IterProofs ConvProofs IndexProofs.
Open Scope Z_scope.

Local Ltac Zify.zify_post_hook ::= Z.to_euclidean_division_equations.

(** ** UTF-8 *)
Lemma utf8_shape c : exists h t, utf8_char c = h :: t /\ (0 <= h < 0x80 \/ 0xC0 <= h < 0x100) /\
  Forall (fun b => 0x80 <= b < 0xC0) t.
Proof.
  pose proof (chr_range c) as B. unfold utf8_char.
  destruct (Z.ltb_spec (cval c) 0x80); [|destruct (Z.ltb_spec (cval c) 0x800); [|destruct (Z.ltb_spec (cval c) 0x10000)]];
    eexists; eexists; (split; [reflexivity|]); (split; [lia|]); repeat (apply Forall_cons; [lia|]); apply Forall_nil.
Qed.
Lemma cons_eq {A : Type} (a b : A) x y : a :: x = b :: y -> a = b /\ x = y.
Proof. intros E. inversion E. auto. Qed.
Lemma utf8_char_inj c d x y : utf8_char c ++ x = utf8_char d ++ y -> c = d /\ x = y.
Proof.
  pose proof (chr_range c) as B. pose proof (chr_range d) as C. unfold utf8_char.
  destruct (Z.ltb_spec (cval c) 0x80); [|destruct (Z.ltb_spec (cval c) 0x800); [|destruct (Z.ltb_spec (cval c) 0x10000)]];
  (destruct (Z.ltb_spec (cval d) 0x80); [|destruct (Z.ltb_spec (cval d) 0x800); [|destruct (Z.ltb_spec (cval d) 0x10000)]]);
    cbn [app]; intros E; repeat match goal with H : _ :: _ = _ :: _ |- _ => apply cons_eq in H; destruct H end; first [exfalso; lia|(split; [apply chr_eq; lia|assumption])].
Qed.
Lemma utf8_inj cs ds : utf8 cs = utf8 ds -> cs = ds.
Proof.
  revert ds. induction cs as [|c cs IH]; intros [|d ds] E; [reflexivity| | |].
  - exfalso. cbn in E. destruct (utf8_shape d) as (h & t & S & _). rewrite S in E. discriminate.
  - exfalso. cbn in E. destruct (utf8_shape c) as (h & t & S & _). rewrite S in E. discriminate.
  - cbn in E. apply utf8_char_inj in E. destruct E as [<- E]. f_equal. auto.
Qed.
Lemma utf8_app cs ds : utf8 (cs ++ ds) = utf8 cs ++ utf8 ds.
Proof. apply flat_map_app. Qed.

(** ** Boundaries *)
Lemma boundary_iff s i : 0 <= i ->
  (is_char_boundary s i = true <->
   i = 0 \/ i = Z.of_nat (length s) \/
   exists b, nth_error s (Z.to_nat i) = Some b /\ ~ 0x80 <= b < 0xC0).
Proof.
  intros I. unfold is_char_boundary. destruct (Z.eqb_spec i 0) as [->|N]; [tauto|].
  destruct (Z.leb_spec (Z.of_nat (length s)) i) as [L|L].
  - split; [lia|]. intros [H|[H|(b & H & _)]]; [lia|lia|].
    assert (X : (Z.to_nat i < length s)%nat) by (apply nth_error_Some; congruence). lia.
  - destruct (nth_error s (Z.to_nat i)) as [b|] eqn:E.
    + split.
      * intros H. right. right. exists b. split; [reflexivity|lia].
      * intros [H|[H|(b' & H & K)]]; [lia|lia|]. injection H as <-. lia.
    + apply nth_error_None in E. lia.
Qed.
Lemma boundary_cons c cs i : 0 <= i ->
  (is_char_boundary (utf8 (c :: cs)) i = true <->
   i = 0 \/ (Z.of_nat (length (utf8_char c)) <= i /\ is_char_boundary (utf8 cs) (i - Z.of_nat (length (utf8_char c))) = true)).
Proof.
  intros I. destruct (utf8_shape c) as (h & t & S & Hh & Ht). cbn [utf8 flat_map]. fold (utf8 cs).
  rewrite boundary_iff by exact I. destruct (Z.eq_dec i 0) as [->|N]; [tauto|].
  destruct (Z.ltb_spec i (Z.of_nat (length (utf8_char c)))) as [L|L].
  - split; [|lia]. intros [H|[H|(b & H & K)]]; [lia|rewrite app_length in H; lia|].
    rewrite nth_error_app1 in H by lia. rewrite S in H. destruct (Z.to_nat i) as [|k] eqn:Ek; [lia|]. cbn in H.
    apply nth_error_In in H. rewrite Forall_forall in Ht. specialize (Ht _ H). lia.
  - rewrite boundary_iff by lia. rewrite app_length, nth_error_app2 by lia.
    replace (Z.to_nat i - length (utf8_char c))%nat with (Z.to_nat (i - Z.of_nat (length (utf8_char c)))) by lia.
    set (j := i - Z.of_nat (length (utf8_char c))). split.
    + intros [H|[H|H]]; right; (split; [lia|]); [lia|right; left; subst j; lia|right; right; exact H].
    + intros [H|[_ [H|[H|H]]]]; [lia| |right; left; subst j; lia|right; right; exact H].
      destruct cs as [|d cs]; [cbn; right; left; subst j; lia|].
      right. right. destruct (utf8_shape d) as (h' & t' & S' & Hh' & _). exists h'. rewrite H. cbn. rewrite S'. cbn. split; [reflexivity|lia].
Qed.
Lemma boundary_split cs i : 0 <= i ->
  (is_char_boundary (utf8 cs) i = true <-> exists a b, cs = a ++ b /\ Z.of_nat (length (utf8 a)) = i).
Proof.
  revert i. induction cs as [|c cs IH]; intros i I.
  - rewrite boundary_iff by exact I. cbn. split.
    + intros [->|[->|(b & H & _)]]; try (exists [], []; split; reflexivity). destruct (Z.to_nat i); discriminate.
    + intros (a & b & E & L). destruct a; [|discriminate]. cbn in L. lia.
  - rewrite boundary_cons by exact I. split.
    + intros [->|[L H]]; [exists [], (c :: cs); split; reflexivity|].
      apply IH in H; [|lia]. destruct H as (a & b & -> & H). exists (c :: a), b. split; [reflexivity|].
      cbn. rewrite app_length. fold (utf8 a). lia.
    + intros ([|x a] & b & E & L); [left; cbn in L; lia|]. right. cbn in E. injection E as <- ->.
      cbn in L. rewrite app_length in L. fold (utf8 a) in L. split; [lia|]. apply IH; [lia|]. exists a, b. split; [reflexivity|lia].
Qed.
Lemma boundary_le s i : 0 <= i -> is_char_boundary s i = true -> i <= Z.of_nat (length s).
Proof.
  intros I B. apply boundary_iff in B; [|exact I]. destruct B as [->|[->|(b & H & _)]]; [lia|lia|].
  assert (X : (Z.to_nat i < length s)%nat) by (apply nth_error_Some; congruence). lia.
Qed.
Lemma boundary_0 s : is_char_boundary s 0 = true. Proof. reflexivity. Qed.
Lemma boundary_len s : is_char_boundary s (Z.of_nat (length s)) = true.
Proof. apply boundary_iff; [lia|tauto]. Qed.

(** Between two boundaries lie whole characters. *)
Lemma part_utf8 cs s e : 0 <= s <= e -> is_char_boundary (utf8 cs) s = true -> is_char_boundary (utf8 cs) e = true ->
  exists a b c, cs = a ++ b ++ c /\ Z.of_nat (length (utf8 a)) = s /\ Z.of_nat (length (utf8 a ++ utf8 b)) = e /\
    part (utf8 cs) (s, e) = utf8 b.
Proof.
  intros S Bs Be. apply boundary_split in Bs; [|lia]. apply boundary_split in Be; [|lia].
  destruct Bs as (a & x & Ea & La). destruct Be as (y & c & Ey & Ly).
  assert (P : exists b, y = a ++ b).
  { subst cs. clear - La Ly Ey S. revert y s e Ey La Ly S. induction a as [|k a IH]; intros y s e Ey La Ly S; [exists y; reflexivity|].
    destruct y as [|k' y].
    - cbn in Ly. cbn in La. destruct (utf8_shape k) as (h & t & Sh & _). rewrite Sh in La. cbn in La. lia.
    - cbn in Ey. injection Ey as <- Ey. cbn in La, Ly. rewrite app_length in La, Ly. fold (utf8 a) in La. fold (utf8 y) in Ly.
      destruct (IH y (s - Z.of_nat (length (utf8_char k))) (e - Z.of_nat (length (utf8_char k))) Ey) as [b ->]; [lia|lia|lia|].
      exists b. reflexivity. }
  destruct P as [b ->]. exists a, b, c. rewrite <- app_assoc in Ey. split; [exact Ey|]. split; [exact La|].
  split; [rewrite <- utf8_app; exact Ly|]. rewrite Ey. rewrite utf8_app in Ly. rewrite app_length in Ly. unfold part. cbn [fst snd].
  rewrite !utf8_app. rewrite skipn_app. rewrite skipn_all2 by lia.
  replace (Z.to_nat s - length (utf8 a))%nat with 0%nat by lia. cbn [skipn app].
  rewrite firstn_app. replace (Z.to_nat (e - s) - length (utf8 b))%nat with 0%nat by lia. cbn [firstn]. rewrite app_nil_r.
  apply firstn_all2. lia.
Qed.

Section Str.
Context {PF : Platform}.
Notation usize := (mint Usize).

(** In any build, the positions are in order, in range and on boundaries. *)
Lemma str_positions_ok m s r a b : str_positions m s r = Ret (a, b) ->
  0 <= a <= b /\ b <= Z.of_nat (length s) /\ is_char_boundary s a = true /\ is_char_boundary s b = true.
Proof.
  destruct r as [r|r|r|r|r]; unfold str_positions; intros E; try inv_bind E.
  - unfold std_str_range in E. destruct (_ && _) eqn:K; [|discriminate]. injection E as <- <-.
    apply andb_true_iff in K. destruct K as [K K2]. apply andb_true_iff in K. destruct K as [K K1].
    pose proof (usize_ends (rg_start a0)). pose proof (usize_ends (rg_end a0)). rewrite K1, K2.
    apply boundary_le in K2; [|lia]. lia.
  - unfold std_str_range_from in E. destruct (is_char_boundary _ _) eqn:K; [|discriminate]. injection E as <- <-.
    pose proof (usize_ends (rf_start a0)). rewrite boundary_len, K. apply boundary_le in K; lia.
  - unfold std_str_range_to in E. destruct (is_char_boundary _ _) eqn:K; [|discriminate]. injection E as <- <-.
    pose proof (usize_ends (rt_end a0)). rewrite boundary_0, K. apply boundary_le in K; lia.
  - injection E as <- <-. rewrite boundary_0, boundary_len. lia.
  - unfold std_str_range in E.
    change (mval (rg_start (range_from_empty r))) with (mval (default : usize)) in E.
    change (mval (rg_end (range_from_empty r))) with (mval (default : usize)) in E. rewrite (zero_default Usize), boundary_0 in E.
    injection E as <- <-. rewrite boundary_0. lia.
Qed.

Lemma str_positions_debug s r : Z.of_nat (length s) <= usize_max ->
  str_positions Debug s r =
  if (ix_first r <=? ix_stop (Z.of_nat (length s)) r) && is_char_boundary s (ix_first r)
     && is_char_boundary s (ix_stop (Z.of_nat (length s)) r)
  then Ret (ix_first r, ix_stop (Z.of_nat (length s)) r) else Panic.
Proof.
  intros L. assert (Over : forall i, usize_max < i -> is_char_boundary s i = false).
  { intros i Hi. pose proof usize_max_ge. destruct (is_char_boundary s i) eqn:E; [|reflexivity]. apply boundary_le in E; lia. }
  destruct r as [[[[a|a]] [[e|e]]]|[[[a|a]]]|[[[e|e]]]|[]|[]];
    unfold str_positions, range_from_br, range_from_from_lbr, range_to_from_ubr;
    cbn [lb_to_bound ub_to_bound lb_bound ub_bound br_start br_end lbr_start ubr_end ix_first ix_stop first_pos stop_pos bind];
    try pose proof (usize_ends a); try pose proof (usize_ends e);
    try (destruct (fwd_usize a) as [(b & -> & Eb)|[-> Eb]]; cbn [bind]);
    try (destruct (fwd_usize e) as [(c & -> & Ec)|[-> Ec]]; cbn [bind]);
    unfold std_str_range, std_str_range_from, std_str_range_to, std_str_range_full; cbn [rg_start rg_end rf_start rt_end];
    rewrite ?boundary_0, ?boundary_len, ?Eb, ?Ec, ?andb_true_r.
  all: try reflexivity.
  all: try (rewrite (Over (usize_max + 1)) by lia; rewrite ?andb_false_r; try reflexivity).
  all: try match goal with |- (if is_char_boundary ?s ?i then _ else _) = (if (?a <=? ?b) && _ then _ else _) =>
     destruct (is_char_boundary s i) eqn:K; [apply boundary_le in K; [|lia]; rewrite (proj2 (Z.leb_le a b)) by lia|rewrite andb_false_r]; reflexivity end.
  all: try (rewrite (proj2 (Z.leb_le 0 _)) by lia; reflexivity).
  all: change (mval (rg_start (range_from_empty mkEmptyRange))) with (mval (default : usize));
    change (mval (rg_end (range_from_empty mkEmptyRange))) with (mval (default : usize)); rewrite (zero_default Usize), boundary_0; reflexivity.
Qed.
Lemma str_positions_agree s r p : str_positions Debug s r = Ret p -> str_positions Release s r = Ret p.
Proof.
  destruct r as [r|r|r|r|r]; unfold str_positions; intros E; try exact E; inv_bind E.
  - rewrite (range_of_br_agree _ _ E0). exact E.
  - rewrite (range_from_of_lbr_agree _ _ E0). exact E.
  - rewrite (range_to_of_ubr_agree _ _ E0). exact E.
Qed.

Lemma str_positions_release s r : convertible r -> str_positions Release s r = str_positions Debug s r.
Proof.
  intros [F S]. destruct r as [[[[a|a]] [[e|e]]]|[[[a|a]]]|[[[e|e]]]|[]|[]]; cbn in F, S;
    unfold str_positions, range_from_br, range_from_from_lbr, range_to_from_ubr;
    cbn [lb_to_bound ub_to_bound lb_bound ub_bound br_start br_end lbr_start ubr_end bind]; try reflexivity;
    try (destruct (fwd_usize a) as [(b & Eb & _)|[_ Eb]]; [rewrite Eb, (fwd_agree _ _ _ one_ok Eb)|lia]; cbn [bind]);
    try (destruct (fwd_usize e) as [(c & Ec & _)|[_ Ec]]; [rewrite Ec, (fwd_agree _ _ _ one_ok Ec)|lia]; cbn [bind]); reflexivity.
Qed.
Lemma stop_nonneg len r : 0 <= len -> 0 <= ix_stop len r.
Proof.
  intros L. destruct r as [[[[s|s]] [[e|e]]]|[[[s|s]]]|[[[e|e]]]|[]|[]]; cbn; try pose proof (usize_ends e); lia.
Qed.
Lemma str_index_debug cs w r : let n := Z.of_nat (length (utf8 cs)) in n <= usize_max ->
  (str_index Debug (utf8 cs) r = Ret w <->
   ix_first r <= ix_stop n r /\ on_boundary cs (ix_first r) /\ on_boundary cs (ix_stop n r) /\ picks (selects r) (utf8 cs) w).
Proof.
  intros n L. unfold str_index. rewrite str_positions_debug by exact L. fold n.
  pose proof (ix_first_nonneg r) as F. assert (Sn : 0 <= ix_stop n r) by (apply stop_nonneg; lia).
  unfold on_boundary. rewrite <- !boundary_split by assumption.
  assert (K : ix_first r <= ix_stop n r -> is_char_boundary (utf8 cs) (ix_stop n r) = true ->
              picks (selects r) (utf8 cs) (part (utf8 cs) (ix_first r, ix_stop n r))).
  { intros K1 K2. apply boundary_le in K2; [|lia]. apply part_picks; [lia|lia|]. intros i Hi. apply selects_in; lia. }
  destruct (_ && _) eqn:E; cbn [bind].
  - apply andb_true_iff in E. destruct E as [E B3]. apply andb_true_iff in E. destruct E as [B1 B2]. apply Z.leb_le in B1. specialize (K B1 B3). split.
    + intros X. injection X as <-. auto.
    + intros (_ & _ & _ & P). f_equal. exact (picks_unique _ _ _ _ K P).
  - split; [discriminate|]. intros (H1 & H2 & H3 & _). apply Z.leb_le in H1. rewrite H1, H2, H3 in E. discriminate.
Qed.
Lemma str_index_panics cs r : let n := Z.of_nat (length (utf8 cs)) in n <= usize_max ->
  (str_index Debug (utf8 cs) r = Panic <->
   ~ (ix_first r <= ix_stop n r /\ on_boundary cs (ix_first r) /\ on_boundary cs (ix_stop n r))) /\
  str_index Debug (utf8 cs) r <> Diverge.
Proof.
  intros n L. unfold str_index. rewrite str_positions_debug by exact L. fold n.
  pose proof (ix_first_nonneg r) as F. assert (Sn : 0 <= ix_stop n r) by (apply stop_nonneg; lia).
  unfold on_boundary. rewrite <- !boundary_split by assumption.
  destruct (_ && _) eqn:E; cbn [bind]; (split; [|discriminate]).
  - split; [discriminate|]. intros H. exfalso. apply H.
    apply andb_true_iff in E. destruct E as [E B3]. apply andb_true_iff in E. destruct E as [B1 B2]. apply Z.leb_le in B1. auto.
  - split; [|reflexivity]. intros _ (H1 & H2 & H3). apply Z.leb_le in H1. rewrite H1, H2, H3 in E. discriminate.
Qed.
(** In any build, what comes back is whole characters. *)
Lemma str_index_chars m cs r w : str_index m (utf8 cs) r = Ret w -> exists a b c, cs = a ++ b ++ c /\ w = utf8 b.
Proof.
  unfold str_index. intros E. inv_bind E. destruct a as [s e]. injection E as <-. apply str_positions_ok in E0.
  destruct E0 as (S & _ & B1 & B2). destruct (part_utf8 cs s e S B1 B2) as (a & b & c & -> & _ & _ & ->). exists a, b, c. auto.
Qed.
(** Writing valid UTF-8 of the same length keeps the whole valid. *)
Lemma str_index_mut_valid m cs r f s' :
  (forall b, exists d, f (utf8 b) = utf8 d) -> (forall w, length (f w) = length w) -> str_index_mut m (utf8 cs) r f = Ret s' ->
  length s' = length (utf8 cs) /\
  exists a b c d, cs = a ++ b ++ c /\ f (utf8 b) = utf8 d /\ s' = utf8 (a ++ d ++ c) /\ str_index m (utf8 cs) r = Ret (utf8 b).
Proof.
  intros V Fl. unfold str_index_mut, str_index. intros E. inv_bind E. destruct a as [s e]. injection E as <-. rewrite E0. cbn [bind].
  apply str_positions_ok in E0. destruct E0 as (S & L & B1 & B2).
  split.
  - apply put_spec; [exact S|exact L|]. rewrite Fl. apply part_length; assumption.
  - destruct (part_utf8 cs s e S B1 B2) as (a & b & c & -> & La & Lb & P). rewrite P. destruct (V b) as [d D].
    exists a, b, c, d. split; [reflexivity|]. split; [exact D|]. split; [|reflexivity].
    unfold put. cbn [fst snd]. rewrite D, !utf8_app. rewrite app_length in Lb. f_equal; [|f_equal].
    + rewrite firstn_app. replace (Z.to_nat s - length (utf8 a))%nat with 0%nat by lia. cbn [firstn]. rewrite app_nil_r. apply firstn_all2. lia.
    + rewrite app_assoc, skipn_app. rewrite app_length. rewrite skipn_all2 by (rewrite app_length; lia).
      replace (Z.to_nat e - (length (utf8 a) + length (utf8 b)))%nat with 0%nat by lia. reflexivity.
Qed.
Lemma str_mut_debug s s' r f : Z.of_nat (length s) <= usize_max ->
  (forall w, length (f w) = length w) -> str_index_mut Debug s r f = Ret s' ->
  exists w, str_index Debug s r = Ret w /\ picks (selects r) s w /\ picks (selects r) s' (f w) /\ length s' = length s /\
    forall i, 0 <= i -> ~ selects r i -> nth_error s' (Z.to_nat i) = nth_error s (Z.to_nat i).
Proof.
  intros L Fl E. unfold str_index_mut in E. inv_bind E. injection E as <-. destruct a as [a e].
  pose proof (str_positions_ok _ _ _ _ _ E0) as (S & B & _ & _).
  pose proof E0 as E1. rewrite str_positions_debug in E1 by exact L. destruct (_ && _); [|discriminate]. injection E1 as X Y.
  pose proof (part_length s a e S B) as PL.
  destruct (put_spec s (f (part s (a, e))) a e S B) as (P1 & P2 & P3); [rewrite Fl; exact PL|].
  assert (In' : forall i, 0 <= i < Z.of_nat (length s) -> (selects r i <-> a <= i < e)).
  { intros i Hi. subst a e. apply selects_in; [exact Hi|exact L]. }
  exists (part s (a, e)). unfold str_index. rewrite E0. cbn [bind]. split; [reflexivity|]. split; [apply part_picks; assumption|].
  split; [|split; [exact P1|]].
  - pose proof (part_picks (selects r) (put s (a, e) (f (part s (a, e)))) a e S) as Q. rewrite P1, P2 in Q. exact (Q B In').
  - intros i I N. destruct (Z.ltb_spec i (Z.of_nat (length s))).
    + destruct (P3 i) as [Q|Q]; [|exact Q|lia]. intros K. apply N. apply In'; [lia|exact K].
    + rewrite !(proj2 (nth_error_None _ _)) by (rewrite ?P1; lia). reflexivity.
Qed.

(** ** [CStr] *)
Lemma cstr_index_debug v w (r : LowerBoundedRange usize) : Z.of_nat (length v) < usize_max ->
  (cstr_index Debug v r = Ret w <-> first_pos (lbr_start r) <= Z.of_nat (length v) /\ picks (selects (IxLower r)) v w) /\
  (cstr_index Debug v r = Panic <-> Z.of_nat (length v) < first_pos (lbr_start r)) /\
  cstr_index Debug v r <> Diverge.
Proof.
  intros L. pose proof (ix_first_nonneg (IxLower r)) as F. cbn in F.
  assert (C : cstr_index Debug v r =
    if first_pos (lbr_start r) <=? Z.of_nat (length v) then Ret (part v (first_pos (lbr_start r), Z.of_nat (length v) + 1)) else Panic).
  { unfold cstr_index, range_from_from_lbr, std_cstr_range_from. destruct r as [[[s|s]]]; cbn [lb_to_bound lb_bound lbr_start first_pos bind].
    - destruct (fwd_usize s) as [(b & -> & Eb)|[-> Eb]]; cbn [bind rf_start]; [rewrite Eb|].
      + destruct (Z.ltb_spec (mval s + 1) (Z.of_nat (length v) + 1)); destruct (Z.leb_spec (mval s + 1) (Z.of_nat (length v))); try lia; reflexivity.
      + destruct (Z.leb_spec (mval s + 1) (Z.of_nat (length v))); [lia|reflexivity].
    - cbn [rf_start]. destruct (Z.ltb_spec (mval s) (Z.of_nat (length v) + 1)); destruct (Z.leb_spec (mval s) (Z.of_nat (length v))); try lia; reflexivity. }
  rewrite C. set (a := first_pos (lbr_start r)) in *. destruct (Z.leb_spec a (Z.of_nat (length v))) as [K|K].
  - assert (P : picks (selects (IxLower r)) v (part v (a, Z.of_nat (length v) + 1))).
    { replace (part v (a, Z.of_nat (length v) + 1)) with (part v (a, Z.of_nat (length v))).
      - apply part_picks; [lia|lia|]. intros i Hi. exact (selects_in (Z.of_nat (length v)) (IxLower r) i Hi (Z.lt_le_incl _ _ L)).
      - unfold part. cbn [fst snd]. rewrite !firstn_all2; [reflexivity|rewrite skipn_length; lia|rewrite skipn_length; lia]. }
    split; [|split; [split; [discriminate|lia]|discriminate]]. split.
    + intros X. injection X as <-. split; [exact K|exact P].
    + intros [_ Q]. f_equal. exact (picks_unique _ _ _ _ P Q).
  - split; [split; [discriminate|lia]|]. split; [split; [lia|reflexivity]|discriminate].
Qed.
End Str.
