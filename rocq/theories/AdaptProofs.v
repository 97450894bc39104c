(** The adaptors over any iterator, then over the crate's. *)
From Coq Require Import Lia ZifyBool Sorted.
From Verif Require Import Base ModelBound ModelRanges ModelSets ModelValue ModelStep ModelIter ModelAdapt
  Spec SpecStep SpecIter SpecAdapt StepProofs StepLemmas IterProofs IterProofs2 IterProofs3 IterProofs4.
Open Scope Z_scope.

(** ** Lists *)
Lemma nth_error_skipn' {A} (l : list A) n i : nth_error (skipn n l) i = nth_error l (n + i).
Proof. revert n. induction l as [|x l IH]; intros [|n]; simpl; auto. destruct i; reflexivity. Qed.
Lemma nth_error_eq {A} (l w : list A) : (forall i, nth_error l i = nth_error w i) -> l = w.
Proof.
  revert w. induction l as [|x l IH]; intros [|y w] H; auto; try (specialize (H O); discriminate).
  pose proof (H O) as H0. injection H0 as ->. f_equal. apply IH. intros i. apply (H (S i)).
Qed.

(** [w] is every [j+1]-th element of [l], the first [j] skipped. *)
Definition strided_from {A} (j : nat) (l w : list A) : Prop :=
  forall i, nth_error w i = nth_error l (i * S j + j).
Lemma from_nil {A} j (l : list A) : nth_error l j = None -> strided_from j l [].
Proof.
  intros E i. apply nth_error_None in E. rewrite (proj2 (nth_error_None l _)) by nia. destruct i; reflexivity.
Qed.
Lemma from_cons {A} j (l w : list A) x :
  nth_error l j = Some x -> strided_from j (skipn (S j) l) w -> strided_from j l (x :: w).
Proof.
  intros E F [|i]; cbn [nth_error]; [rewrite Nat.mul_0_l; cbn; congruence|].
  rewrite F, nth_error_skipn'. f_equal. lia.
Qed.
Lemma strided_of {A} j (l w : list A) x :
  nth_error l 0 = Some x -> strided_from j (skipn 1 l) w -> strided (S j) l (x :: w).
Proof.
  intros E F [|i]; cbn [nth_error]; [rewrite Nat.mul_0_l; congruence|].
  rewrite F, nth_error_skipn'. f_equal. lia.
Qed.
Lemma strided_unique {A} k (l v w : list A) : strided k l v -> strided k l w -> v = w.
Proof. intros V W. apply nth_error_eq. intros i. rewrite V, W. reflexivity. Qed.
Lemma strided_in {A} k (l w : list A) t : strided k l w -> (In t w <-> exists i, nth_error l (i * k) = Some t).
Proof.
  intros W. split.
  - intros I. apply In_nth_error in I. destruct I as [i E]. exists i. rewrite <- W. exact E.
  - intros [i E]. rewrite <- W in E. eapply nth_error_In. exact E.
Qed.

(** ** [step_by], by [nth] that can overshoot *)
Section Overshoot.
Context {A S : Type} (nth : S -> Z -> outcome (option A * S)) (H : S -> list A -> Prop) (f : A -> Z) (pos : S -> Z)
  (max : Z).
Hypothesis cases : forall s l n, H s l -> 0 <= n <= max ->
  (nth s n = Panic /\ ((forall b, f b < pos s + n) \/ exists b, nth_error l (Z.to_nat n) = Some b /\ forall u, f u <= f b)) \/
  (exists s', (exists b, f b = pos s + n) /\ nth s n = Ret (nth_error l (Z.to_nat n), s') /\
    H s' (skipn (Datatypes.S (Z.to_nat n)) l) /\
    (forall t, nth_error l (Z.to_nat n) = Some t -> pos s' = f t + 1 /\ exists b, f b = f t + 1)).

Lemma overshoot_from j : 0 <= j <= max -> forall n s l, (length l <= n)%nat -> H s l ->
  (drains (sb_next nth) (SB s j false) Panic /\
   ((forall b, f b < pos s + j) \/
    exists i t, nth_error l (i * Datatypes.S (Z.to_nat j) + Z.to_nat j) = Some t /\ forall b, f b < f t + (j + 1))) \/
  (exists w, drains (sb_next nth) (SB s j false) (Ret w) /\ strided_from (Z.to_nat j) l w /\
   (exists b, f b = pos s + j) /\ forall t, In t w -> exists b, f b = f t + (j + 1)).
Proof.
  intros Hj n. induction n as [|n IH]; intros s l Hl Hs;
    destruct (cases s l j Hs Hj) as [[E B]|(s' & R & E & H' & P)].
  1, 3: left; split; [apply drains_panic; unfold sb_next; cbn [sb_iter sb_first_take sb_step_minus_one]; rewrite E; reflexivity|];
    destruct B as [B|(b & Eb & G)]; [left; exact B|right; exists O, b; split; [exact Eb|intros u; specialize (G u); lia]].
  all: assert (E' : sb_next nth (SB s j false) = Ret (nth_error l (Z.to_nat j), SB s' j false))
    by (unfold sb_next; cbn [sb_iter sb_first_take sb_step_minus_one]; rewrite E; reflexivity).
  - assert (l = []) as -> by (destruct l; [reflexivity|simpl in Hl; lia]).
    right. exists []. replace (nth_error [] (Z.to_nat j)) with (@None A) in * by (destruct (Z.to_nat j); reflexivity).
    split; [eapply drains_done; exact E'|]. split; [apply from_nil; destruct (Z.to_nat j); reflexivity|].
    split; [exact R|intros t []].
  - destruct (nth_error l (Z.to_nat j)) as [x|] eqn:N.
    2:{ right. exists []. split; [eapply drains_done; exact E'|]. split; [apply from_nil; exact N|].
        split; [exact R|intros t []]. }
    destruct (P x eq_refl) as [Px Rx].
    destruct (IH s' (skipn (Datatypes.S (Z.to_nat j)) l)) as [[D B]|(w & D & F & R' & G)].
    + rewrite skipn_length. destruct l; [destruct (Z.to_nat j); discriminate|]. simpl in *. lia.
    + exact H'.
    + left. split; [apply (drains_item _ _ _ x Panic E' D)|]. right. destruct B as [B|(i & t & Et & B)].
      * exists O, x. split; [exact N|]. intros b. specialize (B b). lia.
      * exists (Datatypes.S i), t. split; [|exact B]. rewrite nth_error_skipn' in Et. rewrite <- Et. f_equal. lia.
    + right. exists (x :: w). split; [apply (drains_item _ _ _ x (Ret w) E' D)|].
      split; [apply from_cons; assumption|]. split; [exact R|].
      intros t [<-|I]; [|exact (G t I)]. destruct R' as [b Hb]. exists b. lia.
Qed.

Lemma overshoot k s l : 1 <= k <= max -> H s l -> (exists b, f b = pos s) ->
  (drains (sb_next nth) (SB s (k - 1) true) Panic /\
   exists i t, nth_error l (i * Z.to_nat k) = Some t /\ forall b, f b < f t + k) \/
  (exists w, drains (sb_next nth) (SB s (k - 1) true) (Ret w) /\ strided (Z.to_nat k) l w /\
   forall t, In t w -> exists b, f b = f t + k).
Proof.
  intros Hk Hs [b0 Hb0]. destruct (cases s l 0 Hs) as [[E B]|(s' & _ & E & H' & P)]; [lia| |].
  - left. split; [apply drains_panic; unfold sb_next; cbn [sb_iter sb_first_take]; rewrite E; reflexivity|].
    destruct B as [B|(b & Eb & G)]; [specialize (B b0); lia|]. exists O, b. split; [exact Eb|].
    intros u. specialize (G u). lia.
  - change (Z.to_nat 0) with O in *.
    assert (E' : sb_next nth (SB s (k - 1) true) = Ret (nth_error l 0, SB s' (k - 1) false))
      by (unfold sb_next; cbn [sb_iter sb_first_take sb_step_minus_one]; rewrite E; reflexivity).
    assert (K : Z.to_nat k = Datatypes.S (Z.to_nat (k - 1))) by lia.
    destruct (nth_error l 0) as [x|] eqn:N.
    2:{ right. exists []. split; [eapply drains_done; exact E'|]. destruct l; [|discriminate]. split; [|intros t []].
        intros i. transitivity (@None A); [destruct i; reflexivity|symmetry; apply nth_error_None; simpl; lia]. }
    destruct (P x eq_refl) as [Px Rx].
    destruct (overshoot_from (k - 1) ltac:(lia) (length (skipn 1 l)) s' (skipn 1 l) (Nat.le_refl _) H')
      as [[D B]|(w & D & F & R' & G)].
    + left. split; [apply (drains_item _ _ _ x Panic E' D)|]. destruct B as [B|(i & t & Et & B)].
      * exists O, x. split; [exact N|]. intros b. specialize (B b). lia.
      * exists (Datatypes.S i), t. split; [|intros b; specialize (B b); lia].
        rewrite nth_error_skipn' in Et. rewrite <- Et. f_equal. lia.
    + right. exists (x :: w). split; [apply (drains_item _ _ _ x (Ret w) E' D)|].
      split; [rewrite K; apply strided_of; assumption|].
      intros t [<-|I].
      * destruct R' as [b Hb]. exists b. lia.
      * destruct (G t I) as [b Hb]. exists b. lia.
Qed.
End Overshoot.

(** ** [step_by], by [nth] that cannot *)
Section Exact.
Context {A S : Type} (nth : S -> Z -> outcome (option A * S)) (H : S -> list A -> Prop) (top : A -> Prop) (max : Z).
Hypothesis cases : forall s l n, H s l -> 0 <= n <= max ->
  (nth s n = Panic /\ exists b, nth_error l (Z.to_nat n) = Some b /\ top b) \/
  (exists s', nth s n = Ret (nth_error l (Z.to_nat n), s') /\ H s' (skipn (Datatypes.S (Z.to_nat n)) l) /\
    forall b, nth_error l (Z.to_nat n) = Some b -> ~ top b).

Lemma exact_from j : 0 <= j <= max -> forall n s l, (length l <= n)%nat -> H s l ->
  (drains (sb_next nth) (SB s j false) Panic /\
    exists i t, nth_error l (i * Datatypes.S (Z.to_nat j) + Z.to_nat j) = Some t /\ top t) \/
  (exists w, drains (sb_next nth) (SB s j false) (Ret w) /\ strided_from (Z.to_nat j) l w /\
   forall t, In t w -> ~ top t).
Proof.
  intros Hj n. induction n as [|n IH]; intros s l Hl Hs;
    destruct (cases s l j Hs Hj) as [[E (b & Eb & B)]|(s' & E & H' & P)].
  1, 3: left; split; [apply drains_panic; unfold sb_next; cbn [sb_iter sb_first_take sb_step_minus_one]; rewrite E; reflexivity|];
    exists O, b; auto.
  all: assert (E' : sb_next nth (SB s j false) = Ret (nth_error l (Z.to_nat j), SB s' j false))
    by (unfold sb_next; cbn [sb_iter sb_first_take sb_step_minus_one]; rewrite E; reflexivity).
  - assert (l = []) as -> by (destruct l; [reflexivity|simpl in Hl; lia]).
    right. exists []. replace (nth_error [] (Z.to_nat j)) with (@None A) in * by (destruct (Z.to_nat j); reflexivity).
    split; [eapply drains_done; exact E'|]. split; [apply from_nil; destruct (Z.to_nat j); reflexivity|intros t []].
  - destruct (nth_error l (Z.to_nat j)) as [x|] eqn:N.
    2:{ right. exists []. split; [eapply drains_done; exact E'|]. split; [apply from_nil; exact N|intros t []]. }
    destruct (IH s' (skipn (Datatypes.S (Z.to_nat j)) l)) as [[D (i & t & Et & B)]|(w & D & F & G)].
    + rewrite skipn_length. destruct l; [destruct (Z.to_nat j); discriminate|]. simpl in *. lia.
    + exact H'.
    + left. split; [apply (drains_item _ _ _ x Panic E' D)|].
      exists (Datatypes.S i), t. split; [|exact B]. rewrite nth_error_skipn' in Et. rewrite <- Et. f_equal. lia.
    + right. exists (x :: w). split; [apply (drains_item _ _ _ x (Ret w) E' D)|].
      split; [apply from_cons; assumption|]. intros t [<-|I]; auto.
Qed.

Lemma exact k s l : 1 <= k <= max -> H s l ->
  (drains (sb_next nth) (SB s (k - 1) true) Panic /\
   exists i t, nth_error l (i * Z.to_nat k) = Some t /\ top t) \/
  (exists w, drains (sb_next nth) (SB s (k - 1) true) (Ret w) /\ strided (Z.to_nat k) l w /\
   forall t, In t w -> ~ top t).
Proof.
  intros Hk Hs. destruct (cases s l 0 Hs) as [[E (b & Eb & B)]|(s' & E & H' & P)]; [lia| |].
  - left. split; [apply drains_panic; unfold sb_next; cbn [sb_iter sb_first_take]; rewrite E; reflexivity|].
    exists O, b. auto.
  - change (Z.to_nat 0) with O in *.
    assert (E' : sb_next nth (SB s (k - 1) true) = Ret (nth_error l 0, SB s' (k - 1) false))
      by (unfold sb_next; cbn [sb_iter sb_first_take sb_step_minus_one]; rewrite E; reflexivity).
    assert (K : Z.to_nat k = Datatypes.S (Z.to_nat (k - 1))) by lia.
    destruct (nth_error l 0) as [x|] eqn:N.
    2:{ right. exists []. split; [eapply drains_done; exact E'|]. destruct l; [|discriminate]. split; [|intros t []].
        intros i. transitivity (@None A); [destruct i; reflexivity|symmetry; apply nth_error_None; simpl; lia]. }
    destruct (exact_from (k - 1) ltac:(lia) (length (skipn 1 l)) s' (skipn 1 l) (Nat.le_refl _) H')
      as [[D (i & t & Et & B)]|(w & D & F & G)].
    + left. split; [apply (drains_item _ _ _ x Panic E' D)|].
      exists (Datatypes.S i), t. split; [|exact B]. rewrite nth_error_skipn' in Et. rewrite <- Et. f_equal. lia.
    + right. exists (x :: w). split; [apply (drains_item _ _ _ x (Ret w) E' D)|].
      split; [rewrite K; apply strided_of; assumption|]. intros t [<-|I]; auto.
Qed.
End Exact.

(** ** [skip] and [take] *)
Section SkipTake.
Context {A S : Type} (next : S -> outcome (option A * S)) (nth : S -> Z -> outcome (option A * S)).

Lemma skip_rest s o : drains next s o -> drains (sk_next next nth) (SK s 0) o.
Proof.
  induction 1 as [s s' E|s s' x o E D IH|s E].
  - apply (drains_done _ _ (SK s' 0)). unfold sk_next. cbn. rewrite E. reflexivity.
  - eapply drains_item; [|exact IH]. unfold sk_next. cbn. rewrite E. reflexivity.
  - apply drains_panic. unfold sk_next. cbn. rewrite E. reflexivity.
Qed.
Lemma skip_first s n x s' o : 0 < n -> nth s n = Ret (Some x, s') -> drains next s' o ->
  drains (sk_next next nth) (SK s n) (l <- o ;; Ret (x :: l)).
Proof.
  intros Hn E D. eapply drains_item; [|apply skip_rest; exact D].
  unfold sk_next. cbn [sk_n sk_iter]. rewrite (proj2 (Z.ltb_lt 0 n) Hn), E. reflexivity.
Qed.
Lemma skip_none s n s' : 0 < n -> nth s n = Ret (None, s') -> drains (sk_next next nth) (SK s n) (Ret []).
Proof.
  intros Hn E. apply (drains_done _ _ (SK s' 0)). unfold sk_next. cbn [sk_n sk_iter].
  rewrite (proj2 (Z.ltb_lt 0 n) Hn), E. reflexivity.
Qed.
Lemma skip_panic s n : 0 < n -> nth s n = Panic -> drains (sk_next next nth) (SK s n) Panic.
Proof.
  intros Hn E. apply drains_panic. unfold sk_next. cbn [sk_n sk_iter].
  rewrite (proj2 (Z.ltb_lt 0 n) Hn), E. reflexivity.
Qed.

Context (H : S -> list A -> Prop) (top : A -> Prop).
Hypothesis next_cases : forall s l, H s l ->
  (exists s', next s = Ret (hd_error l, s') /\ H s' (tl l) /\ (forall x l', l = x :: l' -> ~ top x)) \/
  (next s = Panic /\ exists x l', l = x :: l' /\ top x).
Lemma take_drains n : forall s l, H s l ->
  (drains (tk_next next) (TK s (Z.of_nat n)) Panic /\ exists t, In t (firstn n l) /\ top t) \/
  (drains (tk_next next) (TK s (Z.of_nat n)) (Ret (firstn n l)) /\ forall t, In t (firstn n l) -> ~ top t).
Proof.
  induction n as [|n IH]; intros s l Hs.
  - right. split; [|intros t []]. eapply drains_done. reflexivity.
  - assert (Nz : (Z.of_nat (Datatypes.S n) =? 0) = false) by lia.
    assert (Pr : Z.of_nat (Datatypes.S n) - 1 = Z.of_nat n) by lia.
    destruct (next_cases s l Hs) as [(s' & E & H' & P)|[E (x & l' & -> & G)]].
    + assert (E' : tk_next next (TK s (Z.of_nat (Datatypes.S n))) = Ret (hd_error l, TK s' (Z.of_nat n)))
        by (unfold tk_next; cbn [tk_n tk_iter]; rewrite Nz, E; cbn [bind fst snd]; rewrite Pr; reflexivity).
      destruct l as [|x l]; cbn [hd_error tl firstn] in *.
      * right. split; [eapply drains_done; exact E'|intros t []].
      * destruct (IH s' l H') as [[D (t & I & G)]|[D G]].
        -- left. split; [apply (drains_item _ _ _ x Panic E' D)|]. exists t. split; [now right|exact G].
        -- right. split; [apply (drains_item _ _ _ x (Ret _) E' D)|].
           intros t [<-|I]; [exact (P x l eq_refl)|exact (G t I)].
    + left. split; [apply drains_panic; unfold tk_next; cbn [tk_n tk_iter]; rewrite Nz, E; reflexivity|].
      exists x. split; [now left|exact G].
Qed.
End SkipTake.

(** ** The crate's iterators *)
Section Iters.
Context {T : Type} {PF : Platform} {OT : Ord T} {ST : Step T} {NU : Numbered T} {SL : StepLaws T}.

Lemma not_greatest (t : T) : ~ greatest t -> exists b : T, idx b = idx t + 1.
Proof.
  intros G. destruct (fwd_cases t 1 one_ok) as [(b & _ & Hb)|[_ B]]; [exists b; exact Hb|].
  exfalso. apply G. intros u. apply le_idx. specialize (B u). lia.
Qed.
Lemma not_least (t : T) : ~ least t -> exists b : T, idx b = idx t - 1.
Proof.
  intros G. destruct (bwd_cases t 1 one_ok) as [(b & _ & Hb)|[_ B]]; [exists b; exact Hb|].
  exfalso. apply G. intros u. apply le_idx. specialize (B u). lia.
Qed.

Lemma bri_nth_cases (s : BoundedRangeIter T) l n : holds s l -> 0 <= n <= usize_max ->
  (bri_nth Debug s n = Panic /\ ((forall b : T, idx b < idx (bri_current s) + n) \/
     exists b, nth_error l (Z.to_nat n) = Some b /\ forall u, idx u <= idx b)) \/
  (exists s', (exists b : T, idx b = idx (bri_current s) + n) /\ bri_nth Debug s n = Ret (nth_error l (Z.to_nat n), s') /\
    holds s' (skipn (S (Z.to_nat n)) l) /\
    (forall t, nth_error l (Z.to_nat n) = Some t -> idx (bri_current s') = idx t + 1 /\ exists b : T, idx b = idx t + 1)).
Proof.
  intros Hs Hn. pose proof (fun o s' => nth_refines s l n o s' Hs Hn) as R. unfold bri_nth in *.
  destruct (fwd_cases (bri_current s) n Hn) as [(b & Ef & Hb)|[Ef B]]; rewrite Ef in *; cbn [bind] in *.
  2:{ left. split; [reflexivity|]. left. exact B. }
  unfold bri_next in *. cbn [bri_current bri_last_field] in *. rewrite t_gt_idx in *.
  assert (K : holds (BRI b (bri_last_field s)) (skipn (Z.to_nat n) l))
    by (unfold holds; cbn [bri_current bri_last_field]; rewrite Hb; apply span_skipn; [exact Hs|lia]).
  destruct (idx (bri_last_field s) <? idx b) eqn:C.
  - destruct (R _ _ eq_refl) as [<- H']. right. eexists. split; [eauto|]. split; [reflexivity|].
    split; [exact H'|]. intros t N. discriminate.
  - destruct (span_hd _ _ _ b K) as [l' El]; [cbn [bri_current bri_last_field]; lia|reflexivity|].
    assert (N : nth_error l (Z.to_nat n) = Some b) by (rewrite nth_error_hd, El; reflexivity).
    destruct (fwd_cases b 1 one_ok) as [(c & Ec & Hc)|[Ec B]]; rewrite Ec in *; cbn [bind] in *.
    + destruct (R _ _ eq_refl) as [E H']. right. eexists. split; [eauto|]. rewrite <- E. split; [reflexivity|].
      split; [exact H'|]. intros t Et. injection Et as <-. cbn [bri_current]. eauto.
    + left. split; [reflexivity|]. right. exists b. split; [exact N|]. intros u. specialize (B u). lia.
Qed.
Lemma bri_nth_back_cases (s : BoundedRangeIter T) l n : holds s (rev l) -> 0 <= n <= usize_max ->
  (bri_nth_back Debug s n = Panic /\ ((forall b : T, - idx b < - idx (bri_last_field s) + n) \/
     exists b, nth_error l (Z.to_nat n) = Some b /\ forall u, - idx u <= - idx b)) \/
  (exists s', (exists b : T, - idx b = - idx (bri_last_field s) + n) /\
    bri_nth_back Debug s n = Ret (nth_error l (Z.to_nat n), s') /\
    holds s' (rev (skipn (S (Z.to_nat n)) l)) /\
    (forall t, nth_error l (Z.to_nat n) = Some t -> - idx (bri_last_field s') = - idx t + 1 /\ exists b : T, - idx b = - idx t + 1)).
Proof.
  intros Hs Hn. pose proof (fun o s' => nth_back_refines s (rev l) n o s' Hs Hn) as R. rewrite rev_involutive in R.
  unfold bri_nth_back in *.
  destruct (bwd_cases (bri_last_field s) n Hn) as [(b & Ef & Hb)|[Ef B]]; rewrite Ef in *; cbn [bind] in *.
  2:{ left. split; [reflexivity|]. left. intros u. specialize (B u). lia. }
  unfold bri_next_back in *. cbn [bri_current bri_last_field] in *. rewrite t_gt_idx in *.
  assert (K : holds (BRI (bri_current s) b) (rev (skipn (Z.to_nat n) l))).
  { unfold holds. cbn [bri_current bri_last_field]. rewrite Hb. rewrite <- (rev_involutive l).
    apply span_skipn_back; [exact Hs|lia]. }
  destruct (idx b <? idx (bri_current s)) eqn:C.
  - destruct (R _ _ eq_refl) as [<- H']. right. eexists. split; [exists b; lia|]. split; [reflexivity|].
    split; [exact H'|]. intros t N. discriminate.
  - destruct (span_last _ _ _ b K) as [l' El]; [cbn [bri_current bri_last_field]; lia|reflexivity|].
    rewrite rev_involutive in El.
    assert (N : nth_error l (Z.to_nat n) = Some b) by (rewrite nth_error_hd, El; reflexivity).
    destruct (bwd_cases b 1 one_ok) as [(c & Ec & Hc)|[Ec B]]; rewrite Ec in *; cbn [bind] in *.
    + destruct (R _ _ eq_refl) as [E H']. right. eexists. split; [exists b; lia|]. rewrite <- E. split; [reflexivity|].
      split; [exact H'|]. intros t Et. injection Et as <-. cbn [bri_last_field]. split; [lia|exists c; lia].
    + left. split; [reflexivity|]. right. exists b. split; [exact N|]. intros u. specialize (B u). lia.
Qed.

Lemma bsi_nth_cases (s : BoundedSetIter T) l n : holds_set s l -> 0 <= n <= usize_max ->
  (bsi_nth Debug s n = Panic /\ exists b, nth_error l (Z.to_nat n) = Some b /\ greatest b) \/
  (exists s', bsi_nth Debug s n = Ret (nth_error l (Z.to_nat n), s') /\ holds_set s' (skipn (S (Z.to_nat n)) l) /\
    forall b, nth_error l (Z.to_nat n) = Some b -> ~ greatest b).
Proof.
  intros Hs Hn. pose proof (fun o s' => bsi_nth_refines s l n o s' Hs Hn) as R.
  destruct Hs as (ls & H & ->). unfold bsi_nth in *.
  destruct (skip_spec _ _ (shows_lens _ _ H) n) as (k & n' & Ek & B & C & N); [lia|]. rewrite Ek in *. cbn [bind fst snd] in *.
  rewrite !nth_error_hd, C in *.
  pose proof (Forall2_skipn _ k _ _ H) as H'.
  revert H' N R. generalize (skipn k (bsi_range_iters s)) (skipn k ls).
  intros its' ls' H' N R. destruct H' as [|i l its' ls' Hi H']; cbn [on_front bind fst snd] in *.
  - right. eexists. destruct (R _ _ eq_refl) as [E Q]. rewrite <- E. split; [reflexivity|]. split; [exact Q|]. intros b. discriminate.
  - destruct Hi as [_ Hi]. match type of Hi with ?l <> [] -> _ => assert (Ne : l <> []) by (intros ->; simpl in N; lia); specialize (Hi Ne) end. cbn [concat] in *.
    destruct (nth_error l (Z.to_nat n')) as [x|] eqn:Ex; [|apply nth_error_None in Ex; lia].
    assert (Hd : hd_error (skipn (Z.to_nat n') (l ++ concat ls')) = Some x).
    { rewrite <- nth_error_hd, nth_error_app1 by lia. exact Ex. }
    rewrite Hd in *.
    destruct (bri_nth_cases i l n' Hi) as [[E Bad]|(i' & _ & E & _ & P)]; [lia| |]; rewrite E in *; cbn [bind fst snd] in *.
    + left. split; [reflexivity|]. exists x. split; [reflexivity|].
      destruct Bad as [Bad|(b & Eb & G)].
      * exfalso. pose proof (span_in _ _ _ x Hi) as I. apply nth_error_In in Ex. apply I in Ex.
        pose proof (span_length _ _ _ Hi). destruct (idx_convex (bri_current i) (bri_last_field i) (idx (bri_current i) + n')) as [b Hb]; [lia|].
        specialize (Bad b). lia.
      * rewrite Ex in Eb. injection Eb as <-. intros u. apply le_idx. apply G.
    + rewrite Ex in *. right. eexists. destruct (R _ _ eq_refl) as [_ Q]. split; [reflexivity|]. split; [exact Q|].
      intros b Eb G. injection Eb as <-. destruct (P x eq_refl) as [_ [c Hc]]. specialize (G c). apply le_idx in G. lia.
Qed.
Lemma bsi_nth_back_cases (s : BoundedSetIter T) l n : holds_set s (rev l) -> 0 <= n <= usize_max ->
  (bsi_nth_back Debug s n = Panic /\ exists b, nth_error l (Z.to_nat n) = Some b /\ least b) \/
  (exists s', bsi_nth_back Debug s n = Ret (nth_error l (Z.to_nat n), s') /\ holds_set s' (rev (skipn (S (Z.to_nat n)) l)) /\
    forall b, nth_error l (Z.to_nat n) = Some b -> ~ least b).
Proof.
  intros Hs Hn. pose proof (fun o s' => bsi_nth_back_refines s (rev l) n o s' Hs Hn) as R. rewrite rev_involutive in R.
  destruct Hs as (ls & H & El). assert (El' : l = rev (concat ls)) by (rewrite <- El, rev_involutive; reflexivity).
  clear El. unfold bsi_nth_back in *.
  destruct (skip_spec _ _ (shows_lens_rev _ _ H) n) as (k & n' & Ek & B & C & N); [lia|]. rewrite Ek in *. cbn [bind fst snd] in *.
  rewrite rev_concat in El'. subst l. rewrite !nth_error_hd, C in *.
  pose proof (Forall2_skipn _ k _ _ (Forall2_rev _ _ _ H)) as H'.
  rewrite <- map_skipn' in *.
  revert H' N R. generalize (skipn k (rev (bsi_range_iters s))) (skipn k (rev ls)).
  intros its' ls' H' N R. destruct H' as [|i l its' ls' Hi H']; cbn [on_front bind fst snd map] in *.
  - right. eexists. destruct (R _ _ eq_refl) as [E Q]. rewrite <- E. split; [reflexivity|]. split; [exact Q|]. intros b. discriminate.
  - destruct Hi as [_ Hi]. match type of Hi with ?l <> [] -> _ => assert (Ne : l <> []) by (intros ->; simpl in N; lia); specialize (Hi Ne) end. cbn [concat] in *. rewrite rev_length in N.
    destruct (nth_error (rev l) (Z.to_nat n')) as [x|] eqn:Ex; [|apply nth_error_None in Ex; rewrite rev_length in Ex; lia].
    assert (Hd : hd_error (skipn (Z.to_nat n') (rev l ++ concat (map (@rev T) ls'))) = Some x).
    { rewrite <- nth_error_hd, nth_error_app1 by (rewrite rev_length; lia). exact Ex. }
    rewrite Hd in *.
    assert (Hi' : holds i (rev (rev l))) by (rewrite rev_involutive; exact Hi).
    destruct (bri_nth_back_cases i (rev l) n' Hi') as [[E Bad]|(i' & _ & E & _ & P)]; [lia| |]; rewrite E in *; cbn [bind fst snd] in *.
    + left. split; [reflexivity|]. exists x. split; [reflexivity|].
      destruct Bad as [Bad|(b & Eb & G)].
      * exfalso. pose proof (span_in _ _ _ x Hi) as I. apply nth_error_In in Ex. apply in_rev, I in Ex.
        pose proof (span_length _ _ _ Hi). destruct (idx_convex (bri_current i) (bri_last_field i) (idx (bri_last_field i) - n')) as [b Hb]; [lia|].
        specialize (Bad b). lia.
      * rewrite Ex in Eb. injection Eb as <-. intros u. apply le_idx. specialize (G u). lia.
    + rewrite Ex in *. right. eexists. destruct (R _ _ eq_refl) as [_ Q]. split; [reflexivity|]. split; [exact Q|].
      intros b Eb G. injection Eb as <-. destruct (P x eq_refl) as [_ [c Hc]]. specialize (G c). apply le_idx in G. lia.
Qed.
End Iters.

(** ** Putting the outcome of a loop together *)
Section Outcome.
Context {A S : Type} (next : S -> outcome (option A * S)).
(** A loop known to end with [v] while [good] or to panic while [bad], which exclude each other. *)
Lemma outcome_iff s (is : list A -> Prop) (good bad : Prop) :
  (forall v w, is v -> is w -> v = w) -> (good -> bad -> False) ->
  (drains next s Panic /\ bad) \/ (exists w, drains next s (Ret w) /\ is w /\ good) ->
  (forall w, drains next s (Ret w) <-> is w /\ good) /\ (drains next s Panic <-> bad) /\ exists o, drains next s o.
Proof.
  intros U X [[D B]|(v & D & V & G)]; (split; [intros w|]; [|split]); eauto.
  - split; [intros D'; pose proof (drains_det _ _ _ _ D D'); discriminate|]. intros [_ G]. destruct (X G B).
  - split; auto.
  - split; [intros D'; pose proof (drains_det _ _ _ _ D D') as Q; injection Q as <-; auto|].
    intros [W _]. rewrite (U w v W V). exact D.
  - split; [intros D'; pose proof (drains_det _ _ _ _ D D'); discriminate|]. intros B. destruct (X G B).
Qed.
End Outcome.

Section Iters2.
Context {T : Type} {PF : Platform} {OT : Ord T} {ST : Step T} {NU : Numbered T} {SL : StepLaws T}.

Lemma none_apart (t : T) k : 0 <= k -> ((~ exists b, apart t b k) <-> forall b : T, idx b < idx t + k).
Proof.
  intros K. split.
  - intros N b. destruct (Z_lt_le_dec (idx b) (idx t + k)) as [L|L]; [exact L|]. exfalso. apply N.
    destruct (idx_convex t b (idx t + k)) as [c Hc]; [lia|]. exists c. apply apart_idx. lia.
  - intros B [b Hb]. apply apart_idx in Hb. specialize (B b). lia.
Qed.
Lemma none_apart_back (t : T) k : 0 <= k -> ((~ exists b, apart b t k) <-> forall b : T, idx t - k < idx b).
Proof.
  intros K. split.
  - intros N b. destruct (Z_lt_le_dec (idx t - k) (idx b)) as [L|L]; [exact L|]. exfalso. apply N.
    destruct (idx_convex b t (idx t - k)) as [c Hc]; [lia|]. exists c. apply apart_idx. lia.
  - intros B [b Hb]. apply apart_idx in Hb. specialize (B b). lia.
Qed.

Lemma range_step_by (it : BoundedRangeIter T) l k : holds it l -> 1 <= k <= usize_max ->
  let s := SB it (k - 1) true in
  (forall w, drains (sb_next (bri_nth Debug)) s (Ret w) <->
     strided (Z.to_nat k) l w /\ forall i t, nth_error l (i * Z.to_nat k) = Some t -> exists b, apart t b k) /\
  (drains (sb_next (bri_nth Debug)) s Panic <->
     exists i t, nth_error l (i * Z.to_nat k) = Some t /\ ~ exists b, apart t b k) /\
  exists o, drains (sb_next (bri_nth Debug)) s o.
Proof.
  intros H Hk s. apply outcome_iff; [apply strided_unique|intros G (i & t & E & B); exact (B (G i t E))|].
  destruct (overshoot (bri_nth Debug) holds (@idx T NU) (fun s => idx (bri_current s)) usize_max bri_nth_cases k it l Hk H)
    as [[D (i & t & E & B)]|(w & D & W & G)]; [eauto| |].
  - left. split; [exact D|]. exists i, t. split; [exact E|]. apply none_apart; [lia|exact B].
  - right. exists w. split; [exact D|]. split; [exact W|]. intros i t E.
    destruct (G t) as [b Hb]; [apply (strided_in _ _ _ _ W); eauto|]. exists b. apply apart_idx. lia.
Qed.
Lemma range_step_by_back (it : BoundedRangeIter T) l k : holds it (rev l) -> 1 <= k <= usize_max ->
  let s := SB it (k - 1) true in
  (forall w, drains (sb_next (bri_nth_back Debug)) s (Ret w) <->
     strided (Z.to_nat k) l w /\ forall i t, nth_error l (i * Z.to_nat k) = Some t -> exists b, apart b t k) /\
  (drains (sb_next (bri_nth_back Debug)) s Panic <->
     exists i t, nth_error l (i * Z.to_nat k) = Some t /\ ~ exists b, apart b t k) /\
  exists o, drains (sb_next (bri_nth_back Debug)) s o.
Proof.
  intros H Hk s. apply outcome_iff; [apply strided_unique|intros G (i & t & E & B); exact (B (G i t E))|].
  destruct (overshoot (bri_nth_back Debug) (fun s l => holds s (rev l)) (fun t : T => - idx t) (fun s => - idx (bri_last_field s))
    usize_max bri_nth_back_cases k it l Hk H) as [[D (i & t & E & B)]|(w & D & W & G)]; [eauto| |].
  - left. split; [exact D|]. exists i, t. split; [exact E|]. apply none_apart_back; [lia|]. intros b. specialize (B b). lia.
  - right. exists w. split; [exact D|]. split; [exact W|]. intros i t E.
    destruct (G t) as [b Hb]; [apply (strided_in _ _ _ _ W); eauto|]. exists b. apply apart_idx. lia.
Qed.
Lemma set_step_by (it : BoundedSetIter T) l k : holds_set it l -> 1 <= k <= usize_max ->
  let s := SB it (k - 1) true in
  (forall w, drains (sb_next (bsi_nth Debug)) s (Ret w) <->
     strided (Z.to_nat k) l w /\ forall i t, nth_error l (i * Z.to_nat k) = Some t -> ~ greatest t) /\
  (drains (sb_next (bsi_nth Debug)) s Panic <-> exists i t, nth_error l (i * Z.to_nat k) = Some t /\ greatest t) /\
  exists o, drains (sb_next (bsi_nth Debug)) s o.
Proof.
  intros H Hk s. apply outcome_iff; [apply strided_unique|intros G (i & t & E & B); exact (G i t E B)|].
  destruct (exact (bsi_nth Debug) holds_set greatest usize_max bsi_nth_cases k it l Hk H) as [K|(w & D & W & G)]; [left; exact K|].
  right. exists w. split; [exact D|]. split; [exact W|]. intros i t E. apply G. apply (strided_in _ _ _ _ W). eauto.
Qed.
Lemma set_step_by_back (it : BoundedSetIter T) l k : holds_set it (rev l) -> 1 <= k <= usize_max ->
  let s := SB it (k - 1) true in
  (forall w, drains (sb_next (bsi_nth_back Debug)) s (Ret w) <->
     strided (Z.to_nat k) l w /\ forall i t, nth_error l (i * Z.to_nat k) = Some t -> ~ least t) /\
  (drains (sb_next (bsi_nth_back Debug)) s Panic <-> exists i t, nth_error l (i * Z.to_nat k) = Some t /\ least t) /\
  exists o, drains (sb_next (bsi_nth_back Debug)) s o.
Proof.
  intros H Hk s. apply outcome_iff; [apply strided_unique|intros G (i & t & E & B); exact (G i t E B)|].
  destruct (exact (bsi_nth_back Debug) (fun s l => holds_set s (rev l)) least usize_max bsi_nth_back_cases k it l Hk H)
    as [K|(w & D & W & G)]; [left; exact K|].
  right. exists w. split; [exact D|]. split; [exact W|]. intros i t E. apply G. apply (strided_in _ _ _ _ W). eauto.
Qed.

(** The end of a loop over [l] panicking at [top] elements. *)
Definition loops (S : Type) (next : S -> outcome (option T * S)) (top : T -> Prop) (s : S) (l : list T) : Prop :=
  ((forall t, In t l -> ~ top t) -> drains next s (Ret l)) /\ ((exists t, In t l /\ top t) -> drains next s Panic).

Lemma skip_loops (S : Type) (next : S -> outcome (option T * S)) (nth : S -> Z -> outcome (option T * S)) (top : T -> Prop)
  (H : S -> list T -> Prop) (reach : Prop) (max n : Z) s l :
  (forall s l, H s l -> loops S next top s l) ->
  (forall k : list T, (exists t, In t k /\ top t) \/ forall t, In t k -> ~ top t) ->
  ((nth s n = Panic /\ (~ reach \/ exists b, nth_error l (Z.to_nat n) = Some b /\ top b)) \/
   (exists s', nth s n = Ret (nth_error l (Z.to_nat n), s') /\ reach /\ H s' (skipn (Datatypes.S (Z.to_nat n)) l) /\
     forall b, nth_error l (Z.to_nat n) = Some b -> ~ top b)) ->
  H s l -> 0 <= n <= max -> (n = 0 -> reach) ->
  (forall w, drains (sk_next next nth) (SK s n) (Ret w) <->
     w = skipn (Z.to_nat n) l /\ (reach /\ forall t, In t (skipn (Z.to_nat n) l) -> ~ top t)) /\
  (drains (sk_next next nth) (SK s n) Panic <-> ~ reach \/ exists t, In t (skipn (Z.to_nat n) l) /\ top t) /\
  exists o, drains (sk_next next nth) (SK s n) o.
Proof.
  intros L D C Hs Hn R0.
  apply (outcome_iff _ _ (fun w => w = skipn (Z.to_nat n) l)); [congruence|intros [G1 G2] [B|(t & I & B)]; [exact (B G1)|exact (G2 t I B)]|].
  destruct (Z.eq_dec n 0) as [->|Nz].
  { change (skipn (Z.to_nat 0) l) with l. destruct (L s l Hs) as [L1 L2]. destruct (D l) as [B|G].
    - left. split; [apply skip_rest, L2; exact B|auto].
    - right. exists l. split; [apply skip_rest, L1; exact G|auto]. }
  assert (Hp : 0 < n) by lia.
  destruct C as [[E B]|(s' & E & R & H' & P)].
  - left. split; [apply skip_panic; [lia|exact E]|]. destruct B as [B|(b & Eb & B)]; [auto|]. right. exists b. split; [|exact B].
    rewrite nth_error_hd in Eb. destruct (skipn (Z.to_nat n) l); [discriminate|]. injection Eb as ->. now left.
  - rewrite nth_error_hd in *. rewrite skipn_S in H'. destruct (skipn (Z.to_nat n) l) as [|x l'] eqn:Q; cbn [hd_error tl] in *.
    + right. exists []. split; [eapply skip_none; [lia|exact E]|]. split; [reflexivity|]. split; [exact R|intros t []].
    + destruct (L s' l' H') as [L1 L2]. destruct (D l') as [B|G].
      * left. split; [apply (skip_first _ _ _ _ _ _ Panic Hp E (L2 B))|]. right. destruct B as (t & I & B). exists t. split; [now right|exact B].
      * right. exists (x :: l'). split; [apply (skip_first _ _ _ _ _ _ (Ret l') Hp E (L1 G))|].
        split; [reflexivity|]. split; [exact R|]. intros t [<-|I]; [exact (P x eq_refl)|exact (G t I)].
Qed.
End Iters2.
