(** Lower-bounded iterators: when they panic, agreement of builds.  Exact panic
    conditions of [nth]; loops that never end. *)
From Coq Require Import Lia ZifyBool Sorted.
From Verif Require Import Base ModelBound ModelRanges ModelSets ModelValue ModelStep ModelIter
  Spec SpecStep SpecIter StepProofs StepLemmas IterProofs IterProofs2 IterProofs3.
Open Scope Z_scope.

Section Up.
Context {T : Type} {PF : Platform} {OT : Ord T} {ST : Step T} {NU : Numbered T} {SL : StepLaws T}.

Lemma passed_nonneg cs : Forall up_call_ok cs -> 0 <= passed cs.
Proof. induction 1 as [|[|n] cs H _ IH]; cbn [passed up_call_ok] in *; lia. Qed.

(** An element exists at every index between two. *)
Lemma exists_below (a b : T) z : idx a <= z <= idx b -> exists t : T, idx t = z.
Proof. apply idx_convex. Qed.

Lemma lbri_call_total it c : up_call_ok c ->
  let n := match c with UpNext => 0 | UpNth n => n end in
  (exists b : T, idx b = idx (lbri_current it) + n + 1) -> exists x, lbri_call Debug it c = Ret x.
Proof.
  intros O k (b & Hb). destruct c; cbn [lbri_call up_call_ok] in *; subst k; unfold lbri_nth, lbri_next.
  - rewrite (proj2 (fwd_ret (lbri_current it) b 1 one_ok)) by lia. cbn [bind]. eauto.
  - destruct (idx_convex (lbri_current it) b (idx (lbri_current it) + n)) as [a Ha]; [lia|].
    rewrite (proj2 (fwd_ret (lbri_current it) a n O)) by lia. cbn [bind lbri_current].
    rewrite (proj2 (fwd_ret a b 1 one_ok)) by lia. cbn [bind]. eauto.
Qed.
Lemma lbri_run_total cs it : Forall up_call_ok cs ->
  (exists b : T, idx b = idx (lbri_current it) + passed cs) <-> (exists x, run (lbri_call Debug) it cs = Ret x).
Proof.
  intros O. revert it. induction O as [|c cs Oc O IH]; intros it; cbn [run passed].
  - split; [eauto|]. intros _. exists (lbri_current it). lia.
  - pose proof (passed_nonneg cs O) as P. split.
    + intros (b & Hb).
      destruct (lbri_call_total it c Oc) as [[o it'] E].
      { destruct c; cbn [up_call_ok] in *; apply (idx_convex (lbri_current it) b); lia. }
      rewrite E. cbn [bind fst snd]. destruct (lbri_call_spec it c o it' Oc E) as (e & _ & _ & I).
      destruct (proj1 (IH it')) as [x ->]; [|cbn [bind]; eauto].
      exists b. rewrite I. destruct c; lia.
    + intros (x & E). inv_bind E. inv_bind E. destruct a as [o it'].
      destruct (lbri_call_spec it c o it' Oc E0) as (e & _ & _ & I).
      destruct (proj2 (IH it')) as [b Hb]; [eauto|]. exists b. cbn [snd] in *. rewrite I in Hb. destruct c; lia.
Qed.
Lemma lbri_call_not_diverge it c : up_call_ok c -> lbri_call Debug it c <> Diverge.
Proof.
  intros O. destruct c; cbn [lbri_call up_call_ok] in *; unfold lbri_nth, lbri_next.
  - destruct (fwd_cases (lbri_current it) 1 one_ok) as [(b & -> & Hb)|[-> Hb]]; discriminate.
  - destruct (fwd_cases (lbri_current it) n O) as [(b & -> & Hb)|[-> Hb]]; [|discriminate]. cbn [bind lbri_current].
    destruct (fwd_cases b 1 one_ok) as [(b' & -> & Hb')|[-> Hb']]; discriminate.
Qed.

Lemma lbsi_call_total l0 c0 p it c : at_pos l0 c0 p it -> up_call_ok c ->
  Z.of_nat (length l0) <= usize_max -> (forall t, In t l0 -> idx t < idx c0) ->
  let n := match c with UpNext => 0 | UpNth n => n end in
  (exists b : T, idx b = idx c0 + Z.max 0 (p + n + 1 - Z.of_nat (length l0))) ->
  exists x, lbsi_call Debug it c = Ret x.
Proof.
  intros (Hp & Hs & Hc) O L B k (b & Hb).
  assert (NG : forall t, In t (skipn (Z.to_nat p) l0) -> ~ greatest t).
  { intros t I G. apply in_skipn, B in I. specialize (G c0). apply le_idx in G. lia. }
  destruct c; cbn [lbsi_call up_call_ok] in *; subst k.
  - unfold lbsi_next. destruct (bsi_next_cases _ _ Hs) as [(it1 & -> & K & _)|[_ (x & l' & EQ & G)]].
    + cbn [bind fst snd]. rewrite <- nth_error_hd. destruct (nth_error l0 (Z.to_nat p)) eqn:NE; [eauto|].
      apply nth_error_None in NE.
      destruct (lbri_call_total (lbsi_range_iter it) UpNext I) as [x E].
      { exists b. lia. }
      cbn [lbri_call] in E. rewrite E. cbn [bind]. eauto.
    + exfalso. apply (NG x); [rewrite EQ; now left|exact G].
  - unfold lbsi_nth. rewrite (bsi_len_spec _ _ Hs).
    assert (SL' : Z.of_nat (length (skipn (Z.to_nat p) l0)) <= usize_max) by (rewrite skipn_length; lia).
    destruct (_ <=? _) eqn:C; [|lia]. cbn [bind].
    destruct (bsi_nth_total _ _ n Hs O NG) as [[o i] E]. rewrite E. cbn [bind fst snd].
    destruct (bsi_nth_refines _ _ _ _ _ Hs O E) as [-> K].
    destruct (nth_error (skipn (Z.to_nat p) l0) (Z.to_nat n)) eqn:NE; [eauto|].
    apply nth_error_None in NE. rewrite skipn_length in *.
    unfold usize_sub. destruct (0 <=? n - Z.of_nat (length l0 - Z.to_nat p)) eqn:D; [|lia]. cbn [bind].
    destruct (lbri_call_total (lbsi_range_iter it) (UpNth (n - Z.of_nat (length l0 - Z.to_nat p)))) as [x Ex];
      [cbn [up_call_ok]; lia| |cbn [lbri_call] in Ex; rewrite Ex; cbn [bind]; eauto].
    exists b. lia.
Qed.
Lemma lbsi_run_total l0 c0 cs p it : at_pos l0 c0 p it -> Forall up_call_ok cs ->
  Z.of_nat (length l0) <= usize_max -> (forall t, In t l0 -> idx t < idx c0) ->
  (exists b : T, idx b = idx c0 + Z.max 0 (p + passed cs - Z.of_nat (length l0))) <->
  (exists x, run (lbsi_call Debug) it cs = Ret x).
Proof.
  intros A O L B. revert p it A. induction O as [|c cs Oc O IH]; intros p it A; cbn [run passed].
  - split; [eauto|]. intros _. exists (lbri_current (lbsi_range_iter it)). destruct A as (_ & _ & ->). f_equal. f_equal. lia.
  - pose proof (passed_nonneg cs O) as P. split.
    + intros (b & Hb).
      destruct (lbsi_call_total l0 c0 p it c A Oc L B) as [[o it'] E].
      { destruct A as (Hp & _ & _). destruct c; cbn [up_call_ok] in *; apply (idx_convex c0 b); lia. }
      rewrite E. cbn [bind fst snd]. destruct (lbsi_call_spec l0 c0 p it c o it' A Oc E) as (e & _ & _ & A').
      destruct (proj1 (IH _ it' A')) as [x ->]; [|cbn [bind]; eauto].
      exists b. rewrite Hb. f_equal. f_equal. destruct c; lia.
    + intros (x & E). inv_bind E. inv_bind E. destruct a as [o it'].
      destruct (lbsi_call_spec l0 c0 p it c o it' A Oc E0) as (e & _ & _ & A').
      destruct (proj2 (IH _ it' A')) as [b Hb]; [eauto|]. exists b. rewrite Hb. f_equal. f_equal. destruct c; lia.
Qed.

(** ** Agreement of builds *)
Lemma lbs_into_iter_agree s it : lbs_into_iter Debug s = Ret it -> lbs_into_iter Release s = Ret it.
Proof.
  unfold lbs_into_iter. intros E. inv_bind E. inv_bind E. rewrite (bs_into_iter_agree _ _ E0). cbn [bind].
  rewrite (lbr_into_iter_agree _ _ E1). exact E.
Qed.
Lemma lens_nonneg its acc n : 0 <= acc -> sum_lens Debug its acc = Ret n -> 0 <= n.
Proof.
  revert acc; induction its as [|i its IH]; intros acc Ha E; cbn [sum_lens] in E.
  - injection E as <-. exact Ha.
  - inv_bind E. inv_bind E. apply usize_add_debug in E1. destruct E1 as [-> E1].
    destruct (holds_exists i) as [l Hl]. rewrite (len_spec _ _ Hl) in E0.
    destruct (_ <=? _); [injection E0 as <-; eapply IH; [|exact E]; lia|].
    destruct (_ =? _); [discriminate|]. injection E0 as <-. eapply IH; [|exact E]. lia.
Qed.
Lemma lbsi_call_agree it c x : up_call_ok c -> lbsi_call Debug it c = Ret x -> lbsi_call Release it c = Ret x.
Proof.
  intros O E. destruct c; cbn [lbsi_call up_call_ok] in *.
  - unfold lbsi_next in *. inv_bind E. rewrite (bsi_next_agree _ _ E0). cbn [bind]. destruct (fst a); [exact E|].
    inv_bind E. pose proof (lbri_call_agree (lbsi_range_iter it) UpNext _ I E1) as E2. cbn [lbri_call] in E2.
    rewrite E2. exact E.
  - unfold lbsi_nth in *. inv_bind E. inv_bind E. rewrite (bsi_len_agree _ _ E0). cbn [bind].
    rewrite (bsi_nth_agree _ _ _ O E1). cbn [bind]. destruct (fst a0); [exact E|].
    inv_bind E. inv_bind E.
    assert (B : 0 <= a1 <= usize_max /\ usize_sub Release n a = Ret a1).
    { unfold usize_sub in *. destruct (0 <=? n - a) eqn:D; [|discriminate]. injection E2 as <-.
      split; [|reflexivity]. unfold bsi_len, bsi_size_hint in E0. inv_bind E0. inv_bind E2. injection E2 as <-.
      unfold exact_len in E0. cbn [fst snd] in E0. rewrite Z.eqb_refl in E0. injection E0 as <-.
      apply lens_nonneg in E4; lia. }
    destruct B as [B ->]. cbn [bind].
    pose proof (lbri_call_agree (lbsi_range_iter it) (UpNth a1) _ B E3) as E4. cbn [lbri_call] in E4. rewrite E4. exact E.
Qed.
Lemma drains_agree' {S : Type} (f g : S -> outcome (option T * S)) :
  (forall s x, f s = Ret x -> g s = Ret x) -> forall s l, drains f s (Ret l) -> drains g s (Ret l).
Proof.
  intros A. assert (K : forall s o, drains f s o -> forall l, o = Ret l -> drains g s (Ret l)).
  { intros s o D. induction D; intros l E.
    - injection E as <-. eapply drains_done. apply A. eassumption.
    - inv_bind E. injection E as <-. subst o. change (Ret (x :: a)) with (k <- Ret a ;; Ret (x :: k)).
      eapply drains_item; [apply A; eassumption|]. apply IHD. reflexivity.
    - discriminate. }
  intros s l D. eapply K; [exact D|reflexivity].
Qed.

(** ** [last] of a set iterator has one outcome *)
Lemma bsi_last_det m it o1 o2 : bsi_last m it o1 -> bsi_last m it o2 -> o1 = o2.
Proof.
  unfold bsi_last. destruct (trim m (rev (bsi_range_iters it))) as [[|i its]| |]; try congruence.
  intros (d1 & D1 & ->) (d2 & D2 & ->). rewrite (drains_det _ _ _ _ D1 D2). reflexivity.
Qed.

(** ** When [nth] panics *)
Lemma nth_panics it n : 0 <= n <= usize_max ->
  (bri_nth Debug it n = Panic <->
   (~ exists b, apart (bri_current it) b n) \/
   (exists b, apart (bri_current it) b n /\ greatest b /\ le b (bri_last_field it))).
Proof.
  intros Hn. unfold bri_nth. destruct (fwd_cases (bri_current it) n Hn) as [(b & -> & Hb)|[-> Hb]]; cbn [bind].
  - unfold bri_next. cbn [bri_current bri_last_field]. rewrite t_gt_idx.
    assert (U : forall b', apart (bri_current it) b' n -> b' = b).
    { intros b' A. apply apart_idx in A. apply idx_inj. lia. }
    assert (Ab : apart (bri_current it) b n) by (apply apart_idx; lia).
    destruct (idx (bri_last_field it) <? idx b) eqn:C.
    + split; [discriminate|]. intros [N|(b' & A & _ & L)]; [exfalso; eauto|].
      apply U in A. subst. apply le_idx in L. lia.
    + destruct (fwd_cases b 1 one_ok) as [(b1 & -> & Hb1)|[-> Hb1]]; cbn [bind].
      * split; [discriminate|]. intros [N|(b' & A & G & L)]; [exfalso; eauto|].
        apply U in A. subst. specialize (G b1). apply le_idx in G. lia.
      * split; [|reflexivity]. intros _. right. exists b. repeat split; auto; [apply Ab..| |apply le_idx; lia].
        intros u. apply le_idx. specialize (Hb1 u). lia.
  - split; [|reflexivity]. intros _. left. intros (b & A). apply apart_idx in A. specialize (Hb b). lia.
Qed.
Lemma nth_back_panics it n : 0 <= n <= usize_max ->
  (bri_nth_back Debug it n = Panic <->
   (~ exists b, apart b (bri_last_field it) n) \/
   (exists b, apart b (bri_last_field it) n /\ least b /\ le (bri_current it) b)).
Proof.
  intros Hn. unfold bri_nth_back. destruct (bwd_cases (bri_last_field it) n Hn) as [(b & -> & Hb)|[-> Hb]]; cbn [bind].
  - unfold bri_next_back. cbn [bri_current bri_last_field]. rewrite t_gt_idx.
    assert (U : forall b', apart b' (bri_last_field it) n -> b' = b).
    { intros b' A. apply apart_idx in A. apply idx_inj. lia. }
    assert (Ab : apart b (bri_last_field it) n) by (apply apart_idx; lia).
    destruct (idx b <? idx (bri_current it)) eqn:C.
    + split; [discriminate|]. intros [N|(b' & A & _ & L)]; [exfalso; eauto|].
      apply U in A. subst. apply le_idx in L. lia.
    + destruct (bwd_cases b 1 one_ok) as [(b1 & -> & Hb1)|[-> Hb1]]; cbn [bind].
      * split; [discriminate|]. intros [N|(b' & A & G & L)]; [exfalso; eauto|].
        apply U in A. subst. specialize (G b1). apply le_idx in G. lia.
      * split; [|reflexivity]. intros _. right. exists b. repeat split; auto; [apply Ab..| |apply le_idx; lia].
        intros u. apply le_idx. specialize (Hb1 u). lia.
  - split; [|reflexivity]. intros _. left. intros (b & A). apply apart_idx in A. specialize (Hb b). lia.
Qed.

(** Listings exist. *)
Lemma range_listing r : exists l, lists (in_range r) l.
Proof.
  destruct (br_into_iter Debug r) as [it| |] eqn:E.
  - destruct (holds_exists it) as [l H]. exists l. apply (into_iter_holds r it l E). exact H.
  - exists []. split; [constructor|]. intros t. split; [intros []|]. intros I.
    destruct (into_iter_inhabited r t I) as [it E']. congruence.
  - exfalso. exact (into_iter_not_diverge r E).
Qed.
Lemma set_listing rs : ForallOrdPairs (fun a b => precedes (br_end a) (br_start b)) rs -> exists l, lists (in_pieces rs) l.
Proof.
  intros F. assert (exists ls, Forall2 (fun r l => lists (in_range r) l) rs ls) as [ls H].
  { clear F. induction rs as [|r rs [ls H]]; [exists []; constructor|]. destruct (range_listing r) as [l L].
    exists (l :: ls). constructor; assumption. }
  exists (concat ls). apply pieces_list; assumption.
Qed.
End Up.

(** A release-mode loop over an integer range that reaches [MAX] never ends. *)
Lemma int_forward_release (PF : Platform) (ty : ity) (x : mint ty) : exists y, forward Release x 1 = Ret y.
Proof.
  destruct (proj1 (int_release_wraps ty x 1 one_ok)) as (y & E & _). eauto.
Qed.
Lemma never_ends (PF : Platform) (ty : ity) (it : BoundedRangeIter (mint ty)) o :
  mval (bri_last_field it) = imax ty -> ~ drains (bri_next Release) it o.
Proof.
  intros M D. induction D as [s s' E|s s' x o E D IH|s E].
  - unfold bri_next in E. destruct (t_gt _ _) eqn:C; [|destruct (int_forward_release PF ty (bri_current s)) as [y Ey]; rewrite Ey in E; discriminate].
    rewrite t_gt_idx in C. cbn [idx NumberedMint] in C. pose proof (mint_range _ (bri_current s)). lia.
  - apply IH. unfold bri_next in E. destruct (t_gt _ _); [discriminate|].
    destruct (int_forward_release PF ty (bri_current s)) as [y Ey]; rewrite Ey in E. injection E as _ <-. exact M.
  - unfold bri_next in E. destruct (t_gt _ _); [discriminate|].
    destruct (int_forward_release PF ty (bri_current s)) as [y Ey]; rewrite Ey in E. discriminate.
Qed.

Section More.
Context {T : Type} {PF : Platform} {OT : Ord T} {ST : Step T} {NU : Numbered T} {SL : StepLaws T}.

Lemma sorted_nodup (l : list T) : StronglySorted lt l -> NoDup l.
Proof.
  induction 1 as [|x l S IH F]; constructor; auto. rewrite Forall_forall in F. intros I.
  apply F, lt_idx in I. lia.
Qed.
Lemma lists_length (P Q : T -> Prop) l k : lists P l -> lists Q k -> (forall t, P t -> Q t) -> (length l <= length k)%nat.
Proof.
  intros [S I] [S' I'] H. apply NoDup_incl_length; [apply sorted_nodup; exact S|]. intros t J. apply I', H, I, J.
Qed.
Lemma small_pieces rs : ForallOrdPairs (fun a b => precedes (br_end a) (br_start b)) rs -> small (in_pieces rs) ->
  forall r, In r rs -> small (in_range r).
Proof.
  intros F S r I l L. destruct (set_listing rs F) as [k K]. specialize (S k K).
  assert (length l <= length k)%nat; [|lia]. eapply lists_length; eauto. intros t J. exists r. auto.
Qed.

(** Ranks are unique. *)
Lemma ranked_unique P (e : T) p q : ranked P e p -> ranked P e q -> p = q.
Proof. intros (_ & l & L & <-) (_ & k & K & <-). rewrite (lists_unique _ _ _ L K). reflexivity. Qed.
Lemma ranked_nonneg P (e : T) p : ranked P e p -> 0 <= p.
Proof. intros (_ & l & L & <-). lia. Qed.
Lemma ranked_enum_iff (P Q : T -> Prop) l0 c0 e p :
  lists Q l0 -> (forall t, P t <-> Q t \/ idx c0 <= idx t) -> (forall t, Q t -> idx t < idx c0) -> 0 <= p ->
  (ranked P e p <-> enum l0 c0 e p).
Proof.
  intros L HP HQ Hp. split; [|apply (ranked_enum P Q); assumption]. intros R.
  assert (exists p', 0 <= p' /\ enum l0 c0 e p') as (p' & Hp' & En).
  { destruct R as [Pe _]. apply HP in Pe. destruct Pe as [Qe|G].
    - apply (proj2 L) in Qe. apply In_nth_error in Qe. destruct Qe as [k E].
      assert (k < length l0)%nat by (apply nth_error_Some; congruence).
      exists (Z.of_nat k). split; [lia|]. unfold enum. destruct (_ <? _) eqn:C; [|lia]. rewrite Nat2Z.id. exact E.
    - exists (Z.of_nat (length l0) + (idx e - idx c0)). split; [lia|]. unfold enum. destruct (_ <? _) eqn:C; lia. }
  rewrite (ranked_unique P e p p'); [exact En|exact R|]. eapply ranked_enum; eassumption.
Qed.
Lemma enum_exists l0 (c0 : T) p : 0 <= p ->
  ((exists e, enum l0 c0 e p) <-> exists b : T, idx b = idx c0 + Z.max 0 (p - Z.of_nat (length l0))).
Proof.
  intros Hp. unfold enum. destruct (p <? Z.of_nat (length l0)) eqn:C.
  - split; [intros _; exists c0; lia|]. intros _. destruct (nth_error l0 (Z.to_nat p)) eqn:N; [eauto|].
    apply nth_error_None in N. lia.
  - split; intros [b Hb]; exists b; lia.
Qed.
End More.

(** Types narrower than [usize] have no range too big to be counted. *)
Lemma zrange_small {T : Type} {PF : Platform} {OT : Ord T} {ST : Step T} {NU : Numbered T} {SL : StepLaws T} (a b : Z) (P : T -> Prop) :
  (forall t, a <= idx t <= b) -> 0 <= b - a + 1 <= usize_max -> small P.
Proof.
  intros H B l [S I]. assert (L : (length (map idx l) <= length (zseq a (Z.to_nat (b - a + 1))))%nat).
  { apply NoDup_incl_length.
    - apply sorted_nodup in S. clear - S SL. induction S as [|x l N S IH]; simpl; constructor; auto.
      intros J. apply in_map_iff in J. destruct J as (y & E & J). apply idx_inj in E. subst. auto.
    - intros z J. apply in_map_iff in J. destruct J as (y & <- & J). apply zseq_in. specialize (H y). lia. }
  rewrite map_length, zseq_length in L. lia.
Qed.
Lemma narrow_small (PF : Platform) (ty : ity) (P : mint ty -> Prop) : bits ty < usize_bits -> small P.
Proof.
  intros B. apply (zrange_small (imin ty) (imax ty)); [intros t; apply mint_range|].
  assert (B0 : 0 < bits ty) by (destruct ty; cbn; unfold usize_bits; try destruct ptr_width; lia).
  assert (0 < 2 ^ bits ty) by (apply Z.pow_pos_nonneg; lia).
  assert (2 ^ bits ty < 2 ^ usize_bits) by (apply Z.pow_lt_mono_r; lia).
  assert (imax ty - imin ty + 1 = 2 ^ bits ty).
  { unfold imin, imax. destruct (signed ty) eqn:S; [|lia].
    replace (bits ty) with (Z.succ (bits ty - 1)) at 3 by lia. rewrite Z.pow_succ_r; lia. }
  unfold usize_max. lia.
Qed.
Lemma char_small (PF : Platform) (P : chr -> Prop) : 32 <= usize_bits -> small P.
Proof.
  intros B. assert (2 ^ 32 <= 2 ^ usize_bits) by (apply Z.pow_le_mono_r; lia).
  apply (zrange_small 0 0x10FFFF); [|unfold usize_max; lia].
  intros t. pose proof (cok t) as K. cbn. unfold cidx, scalar in *. destruct (_ <? _) eqn:?; lia.
Qed.
