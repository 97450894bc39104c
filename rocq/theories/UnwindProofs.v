(** Lemmas about calls whose panics are caught. *)
From Coq Require Import Lia ZifyBool Sorted.
From Verif Require Import Base ModelBound ModelRanges ModelSets ModelValue ModelStep ModelIter ModelUnwind
  Spec Reach SpecStep SpecIter SpecUnwind StepProofs StepLemmas IterProofs IterProofs2 IterProofs3 IterProofs4 IterLemmas.
Open Scope Z_scope.

(** ** Forgetting the state after a panic *)
Lemma uncaught_attempt {A B S : Type} (s : S) (x : outcome A) (k : A -> landing B S) :
  uncaught (attempt s x k) = (a <- x ;; uncaught (k a)).
Proof. destruct x; reflexivity. Qed.
Lemma uncaught_after {A B S : Type} (x : landing A S) (k : A -> S -> landing B S) :
  uncaught (after x k) = (p <- uncaught x ;; uncaught (k (fst p) (snd p))).
Proof. destruct x; reflexivity. Qed.
Lemma uncaught_part {A S S' : Type} (c : S -> S') (x : landing A S) :
  uncaught (within_part c x) = (p <- uncaught x ;; Ret (fst p, c (snd p))).
Proof. destruct x; reflexivity. Qed.
Lemma uncaught_back {A S : Type} (x : landing A S) a s : uncaught x = Ret (a, s) <-> x = Back a s.
Proof. destruct x; simpl; split; try discriminate; injection 1 as -> ->; reflexivity. Qed.

Section Same.
Context {T : Type} {PF : Platform} {OT : Ord T} {ST : Step T}.

Lemma same_next m (it : BoundedRangeIter T) : uncaught (bri_next_u m it) = bri_next m it.
Proof. unfold bri_next_u, bri_next. destruct (t_gt _ _); [reflexivity|]. rewrite uncaught_attempt. reflexivity. Qed.
Lemma same_next_back m (it : BoundedRangeIter T) : uncaught (bri_next_back_u m it) = bri_next_back m it.
Proof. unfold bri_next_back_u, bri_next_back. destruct (t_gt _ _); [reflexivity|]. rewrite uncaught_attempt. reflexivity. Qed.
Lemma same_nth m (it : BoundedRangeIter T) n : uncaught (bri_nth_u m it n) = bri_nth m it n.
Proof. unfold bri_nth_u, bri_nth. rewrite uncaught_attempt. destruct (forward _ _ _); cbn [bind]; auto using same_next. Qed.
Lemma same_nth_back m (it : BoundedRangeIter T) n : uncaught (bri_nth_back_u m it n) = bri_nth_back m it n.
Proof. unfold bri_nth_back_u, bri_nth_back. rewrite uncaught_attempt. destruct (backward _ _ _); cbn [bind]; auto using same_next_back. Qed.
Lemma same_trim m (its : list (BoundedRangeIter T)) : uncaught (trim_u m its) = (x <- trim m its ;; Ret (tt, x)).
Proof.
  induction its as [|i its IH]; [reflexivity|]. cbn [trim_u trim]. rewrite uncaught_attempt.
  destruct (bri_len m i) as [n| |]; [|reflexivity..]. cbn [bind]. destruct (n =? 0); [exact IH|reflexivity].
Qed.
Lemma same_skip m (its : list (BoundedRangeIter T)) : forall n, uncaught (skip_u m its n) = (x <- skip m its n ;; Ret (snd x, fst x)).
Proof.
  induction its as [|i its IH]; intros n; [reflexivity|]. cbn [skip_u skip]. rewrite uncaught_attempt.
  destruct (bri_len m i) as [k| |]; [|reflexivity..]. cbn [bind]. destruct (k <=? n); [apply IH|reflexivity].
Qed.
Lemma same_front (f : BoundedRangeIter T -> landing (option T) (BoundedRangeIter T)) g its :
  (forall i, uncaught (f i) = g i) -> uncaught (on_front_u f its) = on_front g its.
Proof. intros H. destruct its; [reflexivity|]. cbn [on_front_u on_front]. rewrite uncaught_part, H. reflexivity. Qed.
Lemma same_set_next m (it : BoundedSetIter T) : uncaught (bsi_next_u m it) = bsi_next m it.
Proof.
  unfold bsi_next_u, bsi_next. rewrite uncaught_part, uncaught_after, same_trim.
  destruct (trim m _) as [x| |]; [|reflexivity..]. cbn [bind fst snd]. rewrite (same_front _ (bri_next m)) by apply same_next. reflexivity.
Qed.
Lemma same_set_next_back m (it : BoundedSetIter T) : uncaught (bsi_next_back_u m it) = bsi_next_back m it.
Proof.
  unfold bsi_next_back_u, bsi_next_back. rewrite uncaught_part, uncaught_after, same_trim.
  destruct (trim m _) as [x| |]; [|reflexivity..]. cbn [bind fst snd]. rewrite (same_front _ (bri_next_back m)) by apply same_next_back. reflexivity.
Qed.
Lemma same_set_nth m (it : BoundedSetIter T) n : uncaught (bsi_nth_u m it n) = bsi_nth m it n.
Proof.
  unfold bsi_nth_u, bsi_nth. rewrite uncaught_part, uncaught_after, same_skip.
  destruct (skip m _ _) as [x| |]; [|reflexivity..]. cbn [bind fst snd].
  rewrite (same_front _ (fun i => bri_nth m i (snd x))) by (intros i; apply same_nth). reflexivity.
Qed.
Lemma same_set_nth_back m (it : BoundedSetIter T) n : uncaught (bsi_nth_back_u m it n) = bsi_nth_back m it n.
Proof.
  unfold bsi_nth_back_u, bsi_nth_back. rewrite uncaught_part, uncaught_after, same_skip.
  destruct (skip m _ _) as [x| |]; [|reflexivity..]. cbn [bind fst snd].
  rewrite (same_front _ (fun i => bri_nth_back m i (snd x))) by (intros i; apply same_nth_back). reflexivity.
Qed.
Lemma same_item {S : Type} (x : landing (option T) S) : uncaught (item_u x) = item (uncaught x).
Proof. destruct x; reflexivity. Qed.
Lemma same_call m (it : BoundedRangeIter T) c : uncaught (bri_call_u m it c) = bri_call m it c.
Proof.
  destruct c; cbn [bri_call_u bri_call];
    rewrite ?same_item, ?same_next, ?same_next_back, ?same_nth, ?same_nth_back; try reflexivity. rewrite uncaught_attempt. reflexivity.
Qed.
Lemma same_set_call m (it : BoundedSetIter T) c : uncaught (bsi_call_u m it c) = bsi_call m it c.
Proof.
  destruct c; cbn [bsi_call_u bsi_call];
    rewrite ?same_item, ?same_set_next, ?same_set_next_back, ?same_set_nth, ?same_set_nth_back; try reflexivity. rewrite uncaught_attempt. reflexivity.
Qed.
Lemma same_lower_call m (it : LowerBoundedRangeIter T) c : uncaught (lbri_call_u m it c) = lbri_call m it c.
Proof.
  destruct c; cbn [lbri_call_u lbri_call]; [unfold lbri_next_u, lbri_next; rewrite uncaught_attempt; reflexivity|]. unfold lbri_nth_u, lbri_nth.
  rewrite uncaught_attempt. destruct (forward _ _ _); cbn [bind]; auto. unfold lbri_next_u, lbri_next; rewrite uncaught_attempt; reflexivity.
Qed.
Lemma same_lower_set_call m (it : LowerBoundedSetIter T) c : uncaught (lbsi_call_u m it c) = lbsi_call m it c.
Proof.
  destruct c; cbn [lbsi_call_u lbsi_call]; unfold lbsi_next_u, lbsi_next, lbsi_nth_u, lbsi_nth.
  - rewrite uncaught_after, uncaught_part, same_set_next. destruct (bsi_next m _) as [[[t|] s]| |]; try reflexivity.
    cbn [bind fst snd lbsi_set_iter lbsi_range_iter]. rewrite uncaught_part. rewrite (same_lower_call m _ UpNext : uncaught (lbri_next_u m _) = lbri_next m _). reflexivity.
  - rewrite uncaught_attempt. destruct (bsi_len m _) as [k| |]; try reflexivity. cbn [bind].
    rewrite uncaught_after, uncaught_part, same_set_nth. destruct (bsi_nth m _ n) as [[[t|] s]| |]; try reflexivity.
    cbn [bind fst snd lbsi_set_iter lbsi_range_iter]. rewrite uncaught_attempt. destruct (usize_sub m n k) as [j| |]; try reflexivity.
    cbn [bind]. rewrite uncaught_part. rewrite (same_lower_call m _ (UpNth j) : uncaught (lbri_nth_u m _ j) = lbri_nth m _ j). reflexivity.
Qed.
End Same.

(** ** Subsequences *)
Inductive subseq {A : Type} : list A -> list A -> Prop :=
| sub_nil : subseq [] []
| sub_keep x l k : subseq l k -> subseq (x :: l) (x :: k)
| sub_skip x l k : subseq l k -> subseq l (x :: k).
Lemma sub_refl {A} (l : list A) : subseq l l.
Proof. induction l; constructor; assumption. Qed.
Lemma sub_trans {A} (b c : list A) : subseq b c -> forall a, subseq a b -> subseq a c.
Proof.
  induction 1 as [|x b c H IH|x b c H IH]; intros a S; [exact S| |constructor; auto].
  inversion S; subst; [apply sub_keep; auto|apply sub_skip; auto].
Qed.
Lemma sub_app {A} (a b c d : list A) : subseq a b -> subseq c d -> subseq (a ++ c) (b ++ d).
Proof. intros H K. induction H; simpl; [exact K|constructor; assumption..]. Qed.
Lemma sub_skipn {A} n (l : list A) : subseq (skipn n l) l.
Proof. revert n. induction l; intros [|n]; simpl; try constructor; auto using sub_refl. Qed.
Lemma sub_nil_l {A} (l : list A) : subseq [] l.
Proof. induction l; constructor; assumption. Qed.
Lemma sub_firstn {A} n (l : list A) : subseq (firstn n l) l.
Proof. revert n. induction l; intros [|n]; simpl; try constructor; auto using sub_nil_l. Qed.
Lemma sub_in {A} (k l : list A) : subseq k l -> forall t, In t k -> In t l.
Proof. induction 1; simpl; intros t I; [exact I|destruct I; auto|auto]. Qed.
Lemma sub_sorted {A} (R : A -> A -> Prop) (k l : list A) : subseq k l -> StronglySorted R l -> StronglySorted R k.
Proof.
  induction 1 as [|x k l H IH|x k l H IH]; intros S; [exact S| |]; inversion S; subst; [|auto].
  constructor; [auto|]. rewrite Forall_forall in *. intros t I. apply H3. eapply sub_in; eassumption.
Qed.
Lemma rev_cons_split {A} (l : list A) x r : rev l = x :: r -> l = rev r ++ [x].
Proof. intros E. rewrite <- (rev_involutive l), E. reflexivity. Qed.

(** ** Histories *)
(** What a call that unwinds leaves of the list [l]. *)
Definition left_by {T : Type} (c : call) (l l' : list T) : Prop :=
  match c with
  | Next | NextBack | Len => l' = l
  | Nth n => l' = l \/ l' = skipn (Z.to_nat n) l
  | NthBack n => l' = l \/ l' = rev (skipn (Z.to_nat n) (rev l))
  end.

Section Machine.
Context {T S : Type}.
Variable step : S -> call -> landing (reply T) S.
Variable inv : S -> list T -> Prop.
Variable ok : call -> Prop.
Hypothesis spec : forall s l c, inv s l -> ok c ->
  match step s c with
  | Back r s' => r = fst (deque_call l c) /\ inv s' (snd (deque_call l c))
  | Unwound s' => exists l', inv s' l' /\ left_by c l l'
  | Gone => False
  end.

Lemma left_sub c (l l' : list T) : left_by c l l' -> subseq l' l.
Proof.
  destruct c; simpl; [intros ->; apply sub_refl|intros ->; apply sub_refl| | |intros ->; apply sub_refl];
    intros [->| ->]; try apply sub_refl; [apply sub_skipn|].
  rewrite skipn_rev, rev_involutive. apply sub_firstn.
Qed.
Lemma left_plain c (l l' : list T) : plain c -> left_by c l l' -> l' = l.
Proof. destruct c; simpl; tauto. Qed.

Lemma caught_total cs : forall s l, inv s l -> Forall ok cs -> exists rs s', run_caught step s cs = Ret (rs, s').
Proof.
  induction cs as [|c cs IH]; intros s l I O; cbn [run_caught]; [eauto|]. inversion O; subst.
  pose proof (spec s l c I H1) as Sp. destruct (step s c) as [r s1|s1|]; [| |destruct Sp].
  - destruct Sp as [_ I1]. destruct (IH s1 _ I1 H2) as (rs & s' & ->). cbn [bind]. eauto.
  - destruct Sp as (l' & I1 & _). destruct (IH s1 _ I1 H2) as (rs & s' & ->). cbn [bind]. eauto.
Qed.

Lemma caught_history cs : forall s l rs s', inv s l -> Forall ok cs -> run_caught step s cs = Ret (rs, s') ->
  exists k, inv s' k /\ subseq (from_front cs rs ++ k ++ rev (from_back cs rs)) l /\
    (Forall plain cs -> from_front cs rs ++ k ++ rev (from_back cs rs) = l).
Proof.
  induction cs as [|c cs IH]; intros s l rs s' I O E; cbn [run_caught] in E.
  - injection E as <- <-. exists l. cbn. rewrite app_nil_r. auto using sub_refl.
  - inversion O; subst. pose proof (spec s l c I H1) as Sp. destruct (step s c) as [r s1|s1|]; [| |destruct Sp].
    + inv_bind E. injection E as <- <-. destruct a as [rs s']. cbn [fst snd]. destruct Sp as [-> I1].
      destruct (IH s1 _ rs s' I1 H2 E0) as (k & Ik & Sb & Pl). exists k. split; [exact Ik|].
      assert (P2 : Forall plain (c :: cs) -> Forall plain cs) by (inversion 1; assumption).
      destruct c as [| |n|n|]; cbn [from_front from_back deque_call fst snd] in *.
      * destruct l as [|x l]; cbn [hd_error tl] in *; [split; [exact Sb|auto]|].
        split; [apply sub_keep; exact Sb|]. intros P. simpl. f_equal. auto.
      * destruct (rev l) as [|x q] eqn:R; cbn [hd_error tl] in *.
        -- apply (f_equal (@rev T)) in R. rewrite rev_involutive in R. simpl in R. subst l. split; [exact Sb|auto].
        -- apply rev_cons_split in R. subst l. cbn [rev]. rewrite !app_assoc in *. rewrite <- (app_assoc (from_front cs rs)) in *.
           split; [apply sub_app; [exact Sb|apply sub_refl]|]. intros P. rewrite <- (Pl (P2 P)), !app_assoc. reflexivity.
      * split; [|intros P; inversion P; subst; contradiction].
        destruct (nth_error l (Z.to_nat n)) as [x|] eqn:N.
        -- apply nth_error_split in N. destruct N as (l1 & l2 & -> & Ln).
           rewrite <- Ln, skipn_app, skipn_all2 in Sb by lia. replace (_ - _)%nat with 1%nat in Sb by lia. cbn [skipn app] in Sb.
           eapply sub_trans; [apply (sub_app [] l1 _ _ (sub_nil_l l1) (sub_refl (x :: l2)))|]. simpl. apply sub_keep. exact Sb.
        -- eapply sub_trans; [apply sub_skipn|exact Sb].
      * split; [|intros P; inversion P; subst; contradiction].
        destruct (nth_error (rev l) (Z.to_nat n)) as [x|] eqn:N.
        -- apply nth_error_split in N. destruct N as (l1 & l2 & R & Ln). rewrite R in Sb.
           rewrite <- Ln, skipn_app, skipn_all2 in Sb by lia. replace (_ - _)%nat with 1%nat in Sb by lia. cbn [skipn app] in Sb.
           apply (f_equal (@rev T)) in R. rewrite rev_involutive, rev_app_distr in R. cbn [rev] in R. subst l.
           cbn [rev]. rewrite <- (app_nil_r (_ ++ k ++ _)). rewrite !app_assoc in *. 
           apply sub_app; [|apply sub_nil_l]. rewrite <- (app_assoc (from_front cs rs)) in *. rewrite <- app_assoc.
           rewrite app_assoc. apply sub_app; [exact Sb|apply sub_refl].
        -- eapply sub_trans; [|exact Sb]. rewrite skipn_rev, rev_involutive. apply sub_firstn.
      * split; [exact Sb|auto].
    + inv_bind E. injection E as <- <-. destruct a as [rs s']. cbn [fst snd]. destruct Sp as (l' & I1 & Lb).
      destruct (IH s1 _ rs s' I1 H2 E0) as (k & Ik & Sb & Pl). exists k. split; [exact Ik|].
      assert (F : forall B, from_front (c :: cs) (@None (reply T) :: rs) = B -> from_front cs rs = B) by (intros B <-; destruct c; reflexivity).
      rewrite <- (F _ eq_refl). 
      assert (G : from_back (c :: cs) (@None (reply T) :: rs) = from_back cs rs) by (destruct c; reflexivity). rewrite G.
      split; [eapply sub_trans; [apply (left_sub _ _ _ Lb)|exact Sb]|]. intros P. inversion P; subst.
      rewrite <- (left_plain _ _ _ H3 Lb). auto.
Qed.
End Machine.
