(** Collecting [skip] and [step_by] of the crate's iterators. *)
From Coq Require Import Lia ZifyBool.
From Verif Require Import Base ModelBound ModelRanges ModelSets ModelValue ModelStep ModelIter ModelAdapt ModelCollect Reach
  Spec SpecStep SpecIter SpecAdapt SpecCollect StepProofs StepLemmas IterProofs IterProofs2 IterProofs3 IterLemmas AdaptProofs AdaptProofs2
  CollectProofs.
Open Scope Z_scope.

(** An iterator that behaves like the queue [l], as far as it answers. *)
Section Queue.
Context {PF : Platform} {A S : Type}.
Variable next : S -> outcome (option A * S).
Variable nth : S -> Z -> outcome (option A * S).
Variable hint : S -> outcome (Z * option Z).
Variable H : S -> list A -> Prop.
Hypothesis Hnext : forall s l o s', H s l -> next s = Ret (o, s') -> o = hd_error l /\ H s' (tl l).
Hypothesis Hnth : forall s l n o s', H s l -> 0 <= n <= usize_max -> nth s n = Ret (o, s') ->
  o = nth_error l (Z.to_nat n) /\ H s' (skipn (Datatypes.S (Z.to_nat n)) l).
Hypothesis Hhint : forall s l, H s l -> Z.of_nat (length l) <= usize_max -> hint s = Ret (Z.of_nat (length l), Some (Z.of_nat (length l))).

Lemma queue_drains s k : drains next s (Ret k) -> forall l, H s l -> k = l.
Proof.
  intros D. remember (Ret k) as o eqn:E. revert k E. induction D as [s s' N|s s' x o N D IH|s N]; intros k E l Hs; try discriminate.
  - injection E as <-. destruct (Hnext _ _ _ _ Hs N) as [Q _]. destruct l; [reflexivity|discriminate].
  - inv_bind E. injection E as <-. subst o. destruct (Hnext _ _ _ _ Hs N) as [Q Hs']. destruct l as [|y l]; [discriminate|].
    injection Q as ->. f_equal. apply (IH a eq_refl). exact Hs'.
Qed.
Lemma skip_zero s k : drains (sk_next next nth) (SK s 0) (Ret k) -> forall l, H s l -> k = l.
Proof.
  intros D. remember (SK s 0) as st eqn:Es. remember (Ret k) as o eqn:E. revert s Es k E.
  induction D as [st s' N|st s' x o N D IH|st N]; intros s -> k E l Hs; try discriminate; unfold sk_next in N; cbn [sk_n sk_iter] in N;
    rewrite Z.ltb_irrefl in N.
  - injection E as <-. inv_bind N. destruct a as [o1 s1]. cbn [fst snd] in N. injection N as -> <-.
    destruct (Hnext _ _ _ _ Hs E) as [Q _]. destruct l; [reflexivity|discriminate].
  - inv_bind E. injection E as <-. subst o. inv_bind N. destruct a0 as [o1 s1]. cbn [fst snd] in N. injection N as -> <-.
    destruct (Hnext _ _ _ _ Hs E) as [Q Hs']. destruct l as [|y l]; [discriminate|]. injection Q as ->. f_equal.
    exact (IH s1 eq_refl a eq_refl _ Hs').
Qed.
Lemma skip_collects sz s l n w : 0 < sz -> 0 <= n <= usize_max -> H s l -> Z.of_nat (length l) <= usize_max ->
  (collects (sk_next next nth) (sk_size_hint hint) sz (SK s n) (Ret w) <->
   drains (sk_next next nth) (SK s n) (Ret w) /\ fits_memory sz w).
Proof.
  intros Hs Hn Q U. apply collects_iff; [exact Hs|]. intros x st k N D _. unfold sk_next in N. cbn [sk_n sk_iter] in N.
  inv_bind N. destruct a as [o s1]. cbn [fst snd] in N. injection N as -> <-.
  assert (X : exists l', H s1 l' /\ (length l' <= length l)%nat).
  { destruct (0 <? n) eqn:Z0.
    - destruct (Hnth _ _ _ _ _ Q Hn E) as [_ Q']. eexists. split; [exact Q'|]. rewrite skipn_length. lia.
    - destruct (Hnext _ _ _ _ Q E) as [_ Q']. eexists. split; [exact Q'|]. destruct l; simpl; lia. }
  destruct X as (l' & Q' & L). rewrite (skip_zero s1 k D l' Q'). unfold sk_size_hint. cbn [sk_iter sk_n].
  rewrite (Hhint s1 l' Q') by lia. cbn [bind fst snd]. rewrite Z.sub_0_r, Z.max_r by lia. eauto.
Qed.

Lemma step_length j w : 0 <= j <= usize_max -> forall s l, H s l -> drains (sb_next nth) (SB s j false) (Ret w) ->
  Z.of_nat (length w) = Z.of_nat (length l) / (j + 1).
Proof.
  intros Hj. induction w as [|x w IH]; intros s l Q D; inversion D as [s0 s' N|s0 s' y o N D'|]; subst;
    unfold sb_next in N; cbn [sb_iter sb_first_take sb_step_minus_one] in N; try (inv_bind N; destruct a as [o1 s1]; cbn [fst snd] in N; injection N as -> <-).
  - destruct (Hnth _ _ _ _ _ Q Hj E) as [X _]. symmetry in X. apply nth_error_None in X. cbn [length]. symmetry. apply Z.div_small. lia.
  - exfalso. match goal with B : bind _ _ = Ret _ |- _ => inv_bind B; discriminate end.
  - match goal with B : bind _ _ = Ret _ |- _ => inv_bind B; injection B as <- <-; subst o end.
    destruct (Hnth _ _ _ _ _ Q Hj E) as [X Q']. symmetry in X.
    assert (L : (Z.to_nat j < length l)%nat) by (apply nth_error_Some; congruence).
    cbn [length]. rewrite Nat2Z.inj_succ, (IH s1 _ Q' D'), skipn_length.
    replace (Z.of_nat (length l)) with (Z.of_nat (length l - Datatypes.S (Z.to_nat j)) + 1 * (j + 1)) by lia.
    rewrite Z.div_add by lia. lia.
Qed.
Lemma step_collects sz s l k w : 0 < sz -> 1 <= k <= usize_max -> H s l -> Z.of_nat (length l) <= usize_max ->
  (collects (sb_next nth) (sb_size_hint hint) sz (SB s (k - 1) true) (Ret w) <->
   drains (sb_next nth) (SB s (k - 1) true) (Ret w) /\ fits_memory sz w).
Proof.
  intros Hs Hk Q U. apply collects_iff; [exact Hs|]. intros x st v N D _.
  unfold sb_next in N. cbn [sb_iter sb_first_take sb_step_minus_one] in N. inv_bind N. destruct a as [o s1]. cbn [fst snd] in N. injection N as -> <-.
  destruct (Hnth s l 0 _ _ Q ltac:(lia) E) as [_ Q'].
  unfold sb_size_hint. cbn [sb_iter sb_first_take sb_step_minus_one].
  rewrite (step_length (k - 1) v ltac:(lia) s1 _ Q' D).
  rewrite (Hhint s1 _ Q') by (rewrite skipn_length; lia). cbn [bind fst snd]. eauto.
Qed.
End Queue.

(** What the hints announce. *)
Lemma strided_length {A : Type} k (l w : list A) : 1 <= k -> strided (Z.to_nat k) l w ->
  Z.of_nat (length w) = if Z.of_nat (length l) =? 0 then 0 else 1 + (Z.of_nat (length l) - 1) / k.
Proof.
  intros Hk W.
  assert (I : forall i, (i < length w <-> i * Z.to_nat k < length l)%nat).
  { intros i. rewrite <- !nth_error_Some, W. reflexivity. }
  pose proof (I (length w)) as I1. destruct (Z.of_nat (length l) =? 0) eqn:Z0.
  - destruct w as [|x w]; [reflexivity|]. pose proof (I O) as I0. cbn [length] in *. lia.
  - destruct w as [|x w]; [pose proof (I O); cbn [length] in *; lia|]. pose proof (I (length w)) as I2. cbn [length] in *.
    assert (B1 : (length w * Z.to_nat k < length l)%nat) by (apply I2; lia).
    assert (B2 : (length l <= Datatypes.S (length w) * Z.to_nat k)%nat) by (destruct (Nat.le_gt_cases (length l) (Datatypes.S (length w) * Z.to_nat k)); [assumption|]; apply I1 in H; lia).
    assert (Q : Z.of_nat (length w) = (Z.of_nat (length l) - 1) / k); [|lia].
    apply Z.div_unique with (r := Z.of_nat (length l) - 1 - k * Z.of_nat (length w)); [|lia]. left.
    apply inj_lt in B1. apply inj_le in B2. rewrite !Nat2Z.inj_mul, Z2Nat.id in * by lia. lia.
Qed.
Lemma adaptor_hints {A S : Type} (hint : S -> outcome (Z * option Z)) (it : S) (l : list A) :
  hint it = Ret (Z.of_nat (length l), Some (Z.of_nat (length l))) ->
  let says (h : outcome (Z * option Z)) (w : list A) := h = Ret (Z.of_nat (length w), Some (Z.of_nat (length w))) in
  (forall n, 0 <= n -> says (tk_size_hint hint (TK it n)) (firstn (Z.to_nat n) l)) /\
  (forall n, 0 <= n -> says (sk_size_hint hint (SK it n)) (skipn (Z.to_nat n) l)) /\
  (forall k w, 1 <= k -> strided (Z.to_nat k) l w -> says (sb_size_hint hint (SB it (k - 1) true)) w).
Proof.
  intros E says. split; [|split].
  - intros n Hn. unfold says, tk_size_hint. cbn [tk_n tk_iter]. rewrite firstn_length, E. cbn [bind fst snd].
    destruct (n =? 0) eqn:Z0; [replace n with 0 by lia; reflexivity|].
    replace (Z.of_nat (Nat.min (Z.to_nat n) (length l))) with (Z.min (Z.of_nat (length l)) n) by lia. do 2 f_equal.
    destruct (_ <? _) eqn:C; f_equal; lia.
  - intros n Hn. unfold says, sk_size_hint. cbn [sk_n sk_iter]. rewrite skipn_length, E. cbn [bind fst snd option_map].
    replace (Z.of_nat (length l - Z.to_nat n)) with (Z.max 0 (Z.of_nat (length l) - n)) by lia. reflexivity.
  - intros k w Hk W. unfold says, sb_size_hint. cbn [sb_iter sb_step_minus_one sb_first_take]. rewrite E. cbn [bind fst snd option_map].
    rewrite (strided_length k l w Hk W). replace (k - 1 + 1) with k by lia. reflexivity.
Qed.

Section Instances.
Context {T : Type} {PF : Platform} {OT : Ord T} {ST : Step T} {NU : Numbered T} {SL : StepLaws T}.
Variable sz : Z.
Hypothesis Hsz : 0 < sz.

Lemma range_skip_collects (it : BoundedRangeIter T) l n w : holds it l -> Z.of_nat (length l) <= usize_max -> 0 <= n <= usize_max ->
  (collects (sk_next (bri_next Debug) (bri_nth Debug)) (sk_size_hint (bri_size_hint Debug)) sz (SK it n) (Ret w) <->
   drains (sk_next (bri_next Debug) (bri_nth Debug)) (SK it n) (Ret w) /\ fits_memory sz w) /\
  (collects (sk_next (bri_next_back Debug) (bri_nth_back Debug)) (sk_size_hint (bri_size_hint Debug)) sz (SK it n) (Ret w) <->
   drains (sk_next (bri_next_back Debug) (bri_nth_back Debug)) (SK it n) (Ret w) /\ fits_memory sz w).
Proof.
  intros H U Hn. split.
  - apply (skip_collects (bri_next Debug) (bri_nth Debug) (bri_size_hint Debug) holds) with (l := l); auto.
    + intros s k o s' K E. exact (next_refines s k o s' K E).
    + intros s k i o s' K B E. exact (nth_refines s k i o s' K B E).
    + intros s k K V. apply (size_reported s k K V).
  - apply (skip_collects (bri_next_back Debug) (bri_nth_back Debug) (bri_size_hint Debug) (fun s k => holds s (rev k))) with (l := rev l); auto.
    + intros s k o s' K E. destruct (next_back_refines s _ o s' K E) as [X Y]. rewrite rev_involutive in *. auto.
    + intros s k i o s' K B E. destruct (nth_back_refines s _ i o s' K B E) as [X Y]. rewrite rev_involutive in *. auto.
    + intros s k K V. rewrite <- (rev_length k) in *. apply (size_reported s _ K V).
    + rewrite rev_involutive. exact H.
    + rewrite rev_length. exact U.
Qed.
Lemma range_step_collects (it : BoundedRangeIter T) l k w : holds it l -> Z.of_nat (length l) <= usize_max -> 1 <= k <= usize_max ->
  (collects (sb_next (bri_nth Debug)) (sb_size_hint (bri_size_hint Debug)) sz (SB it (k - 1) true) (Ret w) <->
   drains (sb_next (bri_nth Debug)) (SB it (k - 1) true) (Ret w) /\ fits_memory sz w) /\
  (collects (sb_next (bri_nth_back Debug)) (sb_size_hint (bri_size_hint Debug)) sz (SB it (k - 1) true) (Ret w) <->
   drains (sb_next (bri_nth_back Debug)) (SB it (k - 1) true) (Ret w) /\ fits_memory sz w).
Proof.
  intros H U Hn. split.
  - apply (step_collects (bri_nth Debug) (bri_size_hint Debug) holds) with (l := l); auto.
    + intros s j i o s' K B E. exact (nth_refines s j i o s' K B E).
    + intros s j K V. apply (size_reported s j K V).
  - apply (step_collects (bri_nth_back Debug) (bri_size_hint Debug) (fun s k => holds s (rev k))) with (l := rev l); auto.
    + intros s j i o s' K B E. destruct (nth_back_refines s _ i o s' K B E) as [X Y]. rewrite rev_involutive in *. auto.
    + intros s j K V. rewrite <- (rev_length j) in *. apply (size_reported s _ K V).
    + rewrite rev_involutive. exact H.
    + rewrite rev_length. exact U.
Qed.
Lemma set_skip_collects (it : BoundedSetIter T) l n w : holds_set it l -> Z.of_nat (length l) <= usize_max -> 0 <= n <= usize_max ->
  (collects (sk_next (bsi_next Debug) (bsi_nth Debug)) (sk_size_hint (bsi_size_hint Debug)) sz (SK it n) (Ret w) <->
   drains (sk_next (bsi_next Debug) (bsi_nth Debug)) (SK it n) (Ret w) /\ fits_memory sz w) /\
  (collects (sk_next (bsi_next_back Debug) (bsi_nth_back Debug)) (sk_size_hint (bsi_size_hint Debug)) sz (SK it n) (Ret w) <->
   drains (sk_next (bsi_next_back Debug) (bsi_nth_back Debug)) (SK it n) (Ret w) /\ fits_memory sz w).
Proof.
  intros H U Hn. split.
  - apply (skip_collects (bsi_next Debug) (bsi_nth Debug) (bsi_size_hint Debug) holds_set) with (l := l); auto.
    + intros s k o s' K E. destruct (bsi_next_cases s k K) as [(i2 & E2 & H' & _)|[E2 _]]; [|congruence].
      rewrite E in E2. injection E2 as -> ->. auto.
    + intros s k i o s' K B E. exact (bsi_nth_refines s k i o s' K B E).
    + intros s k K V. apply (set_size_reported s k K V).
  - apply (skip_collects (bsi_next_back Debug) (bsi_nth_back Debug) (bsi_size_hint Debug) (fun s k => holds_set s (rev k))) with (l := rev l); auto.
    + intros s k o s' K E. destruct (bsi_next_back_cases' s k K) as [(i2 & E2 & H' & _)|[E2 _]]; [|congruence].
      rewrite E in E2. injection E2 as -> ->. auto.
    + intros s k i o s' K B E. destruct (bsi_nth_back_refines s _ i o s' K B E) as [X Y]. rewrite rev_involutive in *. auto.
    + intros s k K V. rewrite <- (rev_length k) in *. apply (set_size_reported s _ K V).
    + rewrite rev_involutive. exact H.
    + rewrite rev_length. exact U.
Qed.
Lemma set_step_collects (it : BoundedSetIter T) l k w : holds_set it l -> Z.of_nat (length l) <= usize_max -> 1 <= k <= usize_max ->
  (collects (sb_next (bsi_nth Debug)) (sb_size_hint (bsi_size_hint Debug)) sz (SB it (k - 1) true) (Ret w) <->
   drains (sb_next (bsi_nth Debug)) (SB it (k - 1) true) (Ret w) /\ fits_memory sz w) /\
  (collects (sb_next (bsi_nth_back Debug)) (sb_size_hint (bsi_size_hint Debug)) sz (SB it (k - 1) true) (Ret w) <->
   drains (sb_next (bsi_nth_back Debug)) (SB it (k - 1) true) (Ret w) /\ fits_memory sz w).
Proof.
  intros H U Hn. split.
  - apply (step_collects (bsi_nth Debug) (bsi_size_hint Debug) holds_set) with (l := l); auto.
    + intros s j i o s' K B E. exact (bsi_nth_refines s j i o s' K B E).
    + intros s j K V. apply (set_size_reported s j K V).
  - apply (step_collects (bsi_nth_back Debug) (bsi_size_hint Debug) (fun s k => holds_set s (rev k))) with (l := rev l); auto.
    + intros s j i o s' K B E. destruct (bsi_nth_back_refines s _ i o s' K B E) as [X Y]. rewrite rev_involutive in *. auto.
    + intros s j K V. rewrite <- (rev_length j) in *. apply (set_size_reported s _ K V).
    + rewrite rev_involutive. exact H.
    + rewrite rev_length. exact U.
Qed.
End Instances.
