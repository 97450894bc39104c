(** The iterators refine double-ended queues. *)
From Coq Require Import Lia ZifyBool Sorted.
From Verif Require Import Base ModelBound ModelRanges ModelSets ModelValue ModelStep ModelIter
  Spec SpecStep SpecIter StepProofs StepLemmas.
Open Scope Z_scope.

(** ** Outcomes *)
Lemma bind_ret {A B : Type} (m : outcome A) (k : A -> outcome B) b :
  (x <- m ;; k x) = Ret b -> exists a, m = Ret a /\ k a = Ret b.
Proof. destruct m; simpl; try discriminate. intros H. exists a. auto. Qed.

Ltac inv_bind H :=
  let a := fresh "a" in let E := fresh "E" in
  apply bind_ret in H; destruct H as (a & E & H).

Section Deque.
Context {T : Type}.
Lemma nth_error_hd (l : list T) n : nth_error l n = hd_error (skipn n l).
Proof. revert n; induction l; intros [|n]; simpl; auto. Qed.
Lemma skipn_S (l : list T) n : skipn (S n) l = tl (skipn n l).
Proof. revert n; induction l; intros [|n]; simpl; auto. apply (IHl n). Qed.
Lemma deque_call_length (l : list T) c : (length (snd (deque_call l c)) <= length l)%nat.
Proof.
  destruct c; cbn [deque_call snd].
  - destruct l; simpl; lia.
  - rewrite rev_length. destruct (rev l) eqn:E; simpl; [lia|].
    apply (f_equal (@length T)) in E. rewrite rev_length in E. simpl in E. lia.
  - rewrite skipn_length. lia.
  - rewrite rev_length, skipn_length, rev_length. lia.
  - lia.
Qed.
End Deque.

Section Bri.
Context {T : Type} {PF : Platform} {OT : Ord T} {ST : Step T} {NU : Numbered T} {SL : StepLaws T}.

(** ** Stepping in debug builds *)
Lemma fwd_ret (a b : T) n : 0 <= n <= usize_max -> (forward Debug a n = Ret b <-> idx b = idx a + n).
Proof.
  intros H. rewrite forward_debug by exact H. rewrite <- fc_iff by exact H.
  destruct (forward_checked a n); split; congruence.
Qed.
Lemma bwd_ret (a b : T) n : 0 <= n <= usize_max -> (backward Debug a n = Ret b <-> idx b = idx a - n).
Proof.
  intros H. rewrite backward_debug by exact H. rewrite <- bc_iff by exact H.
  destruct (backward_checked a n); split; congruence.
Qed.
Lemma fwd_cases (a : T) n : 0 <= n <= usize_max ->
  (exists b, forward Debug a n = Ret b /\ idx b = idx a + n) \/
  (forward Debug a n = Panic /\ forall b : T, idx b < idx a + n).
Proof.
  intros H. destruct (forward_checked a n) as [b|] eqn:E.
  - left. exists b. rewrite forward_debug, E by exact H. split; [reflexivity|]. apply fc_iff; assumption.
  - right. rewrite forward_debug, E by exact H. split; [reflexivity|]. apply fc_none; assumption.
Qed.
Lemma bwd_cases (a : T) n : 0 <= n <= usize_max ->
  (exists b, backward Debug a n = Ret b /\ idx b = idx a - n) \/
  (backward Debug a n = Panic /\ forall b : T, idx a - n < idx b).
Proof.
  intros H. destruct (backward_checked a n) as [b|] eqn:E.
  - left. exists b. rewrite backward_debug, E by exact H. split; [reflexivity|]. apply bc_iff; assumption.
  - right. rewrite backward_debug, E by exact H. split; [reflexivity|]. apply bc_none; assumption.
Qed.
Lemma fwd_agree (a b : T) n : 0 <= n <= usize_max -> forward Debug a n = Ret b -> forward Release a n = Ret b.
Proof.
  intros H E. apply forward_release; [exact H|]. rewrite forward_debug in E by exact H.
  destruct (forward_checked a n); congruence.
Qed.
Lemma bwd_agree (a b : T) n : 0 <= n <= usize_max -> backward Debug a n = Ret b -> backward Release a n = Ret b.
Proof.
  intros H E. apply backward_release; [exact H|]. rewrite backward_debug in E by exact H.
  destruct (backward_checked a n); congruence.
Qed.

(** ** Spans *)
Lemma zseq_skipn a n k : skipn k (zseq a n) = zseq (a + Z.of_nat k) (n - k).
Proof.
  revert a k; induction n; intros a [|k]; cbn [zseq skipn Nat.sub]; auto.
  - rewrite Z.add_0_r. reflexivity.
  - rewrite IHn. f_equal. lia.
Qed.
Lemma zseq_firstn a n k : (k <= n)%nat -> firstn k (zseq a n) = zseq a k.
Proof.
  revert a k; induction n; intros a [|k] H; simpl; auto; try lia.
  f_equal. apply IHn. lia.
Qed.
Lemma map_skipn' {A B} (f : A -> B) k l : map f (skipn k l) = skipn k (map f l).
Proof. revert k; induction l; intros [|k]; simpl; auto. Qed.
Lemma map_firstn' {A B} (f : A -> B) k l : map f (firstn k l) = firstn k (map f l).
Proof. revert k; induction l; intros [|k]; simpl; auto. f_equal. apply IHl. Qed.

Lemma span_skipn lo hi (l : list T) n : span lo hi l -> 0 <= n -> span (lo + n) hi (skipn (Z.to_nat n) l).
Proof.
  unfold span. intros H Hn. rewrite map_skipn', H, zseq_skipn. f_equal; lia.
Qed.
Lemma span_skipn_back lo hi (l : list T) n :
  span lo hi l -> 0 <= n -> span lo (hi - n) (rev (skipn (Z.to_nat n) (rev l))).
Proof.
  intros H Hn. pose proof (span_length _ _ _ H) as L. unfold span in *.
  rewrite skipn_rev, rev_involutive, map_firstn', H.
  rewrite zseq_firstn by lia. f_equal. lia.
Qed.
Lemma span_nil lo hi (l : list T) : span lo hi l -> hi < lo -> l = [].
Proof. intros H G. apply span_length in H. destruct l; [reflexivity|simpl in H; lia]. Qed.
Lemma span_hd lo hi (l : list T) (a : T) : span lo hi l -> lo <= hi -> idx a = lo -> exists l', l = a :: l'.
Proof.
  intros H G E. unfold span in H. destruct (Z.to_nat (hi - lo + 1)) as [|n] eqn:N; [lia|].
  simpl in H. destruct l as [|x l]; [discriminate|]. injection H as H _.
  exists l. f_equal. apply idx_inj. congruence.
Qed.
Lemma span_last lo hi (l : list T) (b : T) : span lo hi l -> lo <= hi -> idx b = hi -> exists l', rev l = b :: l'.
Proof.
  intros H G E.
  assert (K : span lo hi (rev (skipn 0 (rev l)) )) by (simpl; rewrite rev_involutive; exact H).
  destruct (rev l) as [|x l'] eqn:R.
  - apply (f_equal (@length T)) in R. rewrite rev_length in R. simpl in R. apply span_length in H. lia.
  - exists l'. f_equal. apply idx_inj. rewrite E.
    assert (P : l = rev l' ++ [x]) by (rewrite <- (rev_involutive l), R; reflexivity).
    unfold span in H. rewrite P, map_app in H. simpl in H.
    replace (Z.to_nat (hi - lo + 1)) with (Z.to_nat (hi - lo) + 1)%nat in H by lia.
    rewrite zseq_app in H. simpl in H. apply app_inj_tail in H. destruct H as [_ H]. lia.
Qed.

(** The elements an iterator still holds. *)
Definition holds (it : BoundedRangeIter T) (l : list T) : Prop :=
  span (idx (bri_current it)) (idx (bri_last_field it)) l.

Lemma holds_exists it : exists l, holds it l.
Proof. apply (span_exists (bri_current it) (bri_last_field it)); lia. Qed.
Lemma holds_unique it l1 l2 : holds it l1 -> holds it l2 -> l1 = l2.
Proof. intros A B. eapply lists_unique; eapply span_lists; eassumption. Qed.

(** One call, debug build: the reply and the new contents are the queue's. *)
Lemma next_refines it l o it' : holds it l -> bri_next Debug it = Ret (o, it') ->
  o = hd_error l /\ holds it' (tl l).
Proof.
  unfold bri_next. rewrite t_gt_idx. intros H E.
  destruct (idx (bri_last_field it) <? idx (bri_current it)) eqn:C.
  - injection E as <- <-. pose proof (span_nil _ _ _ H ltac:(lia)) as N. subst l. split; [reflexivity|exact H].
  - inv_bind E. injection E as <- <-. apply fwd_ret in E0; [|apply one_ok].
    destruct (span_hd _ _ _ (bri_current it) H) as [l' ->]; [lia|reflexivity|].
    split; [reflexivity|]. unfold holds. simpl. rewrite E0.
    exact (span_skipn _ _ _ 1 H ltac:(lia)).
Qed.
Lemma next_back_refines it l o it' : holds it l -> bri_next_back Debug it = Ret (o, it') ->
  o = hd_error (rev l) /\ holds it' (rev (tl (rev l))).
Proof.
  unfold bri_next_back. rewrite t_gt_idx. intros H E.
  destruct (idx (bri_last_field it) <? idx (bri_current it)) eqn:C.
  - injection E as <- <-. pose proof (span_nil _ _ _ H ltac:(lia)) as N. subst l. split; [reflexivity|exact H].
  - inv_bind E. injection E as <- <-. apply bwd_ret in E0; [|apply one_ok].
    destruct (span_last _ _ _ (bri_last_field it) H) as [l' R]; [lia|reflexivity|].
    rewrite R. split; [reflexivity|]. unfold holds. cbn [bri_current bri_last_field]. rewrite E0.
    pose proof (span_skipn_back _ _ _ 1 H ltac:(lia)) as K. rewrite R in K. exact K.
Qed.
Lemma nth_refines it l n o it' : holds it l -> 0 <= n <= usize_max -> bri_nth Debug it n = Ret (o, it') ->
  o = nth_error l (Z.to_nat n) /\ holds it' (skipn (S (Z.to_nat n)) l).
Proof.
  unfold bri_nth. intros H Hn E. inv_bind E. apply fwd_ret in E0; [|exact Hn].
  rewrite nth_error_hd, skipn_S. eapply next_refines; [|exact E].
  unfold holds. cbn [bri_current bri_last_field]. rewrite E0. apply span_skipn; [exact H|lia].
Qed.
Lemma nth_back_refines it l n o it' : holds it l -> 0 <= n <= usize_max -> bri_nth_back Debug it n = Ret (o, it') ->
  o = nth_error (rev l) (Z.to_nat n) /\ holds it' (rev (skipn (S (Z.to_nat n)) (rev l))).
Proof.
  unfold bri_nth_back. intros H Hn E. inv_bind E. apply bwd_ret in E0; [|exact Hn].
  rewrite nth_error_hd, skipn_S.
  rewrite <- (rev_involutive (skipn _ (rev l))). eapply next_back_refines; [|exact E].
  unfold holds. cbn [bri_current bri_last_field]. rewrite E0. apply span_skipn_back; [exact H|lia].
Qed.

Lemma usize_add_debug a b n : usize_add Debug a b = Ret n <-> n = a + b /\ a + b <= usize_max.
Proof.
  unfold usize_add. destruct (a + b <=? usize_max) eqn:C; split; try discriminate; try lia.
  - injection 1 as <-. lia.
  - intros [-> _]. reflexivity.
Qed.
Lemma usize_add_agree a b n : usize_add Debug a b = Ret n -> usize_add Release a b = Ret n.
Proof. unfold usize_add. destruct (a + b <=? usize_max); [auto|discriminate]. Qed.

(** What [len] returns, exactly. *)
Lemma len_spec it l : holds it l ->
  bri_len Debug it =
  if Z.of_nat (length l) <=? usize_max then Ret (Z.of_nat (length l))
  else if Z.of_nat (length l) =? usize_max + 1 then Panic else Ret 0.
Proof.
  intros H. pose proof (span_length _ _ _ H) as L. pose proof usize_max_ge as U.
  unfold bri_len, bri_size_hint. rewrite steps_between_spec.
  destruct ((idx (bri_current it) <=? idx (bri_last_field it)) &&
            (idx (bri_last_field it) - idx (bri_current it) <=? usize_max)) eqn:C.
  - unfold usize_add.
    destruct (idx (bri_last_field it) - idx (bri_current it) + 1 <=? usize_max) eqn:D.
    + cbn [bind]. unfold exact_len. cbn [fst snd]. rewrite Z.eqb_refl.
      replace (Z.of_nat (length l)) with (idx (bri_last_field it) - idx (bri_current it) + 1) by lia.
      rewrite D. reflexivity.
    + cbn [bind]. destruct (Z.of_nat (length l) <=? usize_max) eqn:D1; [lia|].
      destruct (Z.of_nat (length l) =? usize_max + 1) eqn:D2; [reflexivity|lia].
  - cbn [bind]. unfold exact_len. cbn [fst snd]. rewrite Z.eqb_refl.
    destruct (Z.of_nat (length l) <=? usize_max) eqn:D1.
    + f_equal. lia.
    + destruct (Z.of_nat (length l) =? usize_max + 1) eqn:D2; [lia|reflexivity].
Qed.
Lemma len_small it l : holds it l -> Z.of_nat (length l) <= usize_max -> bri_len Debug it = Ret (Z.of_nat (length l)).
Proof.
  intros H S. rewrite (len_spec it l H). destruct (Z.of_nat (length l) <=? usize_max) eqn:D; [reflexivity|lia].
Qed.

Lemma bri_call_refines it l c rep it' :
  holds it l -> call_ok c -> (c = Len -> Z.of_nat (length l) <= usize_max) ->
  bri_call Debug it c = Ret (rep, it') ->
  rep = fst (deque_call l c) /\ holds it' (snd (deque_call l c)).
Proof.
  intros H O S E. destruct c; unfold bri_call, item in E; inv_bind E; injection E as <- <-;
    cbn [deque_call fst snd]; try (destruct a as [o i]; cbn [fst snd]).
  - destruct (next_refines it l o i H E0) as [-> ?]. auto.
  - destruct (next_back_refines it l o i H E0) as [-> ?]. auto.
  - destruct (nth_refines it l n o i H O E0) as [-> ?]. auto.
  - destruct (nth_back_refines it l n o i H O E0) as [-> ?]. auto.
  - rewrite (len_small it l H (S eq_refl)) in E0. injection E0 as <-. auto.
Qed.

(** Histories. *)
Lemma bri_run_refines cs it l reps it' :
  holds it l -> Forall call_ok cs -> (In Len cs -> Z.of_nat (length l) <= usize_max) ->
  run (bri_call Debug) it cs = Ret (reps, it') ->
  reps = fst (deque_run l cs) /\ holds it' (snd (deque_run l cs)).
Proof.
  revert it l reps; induction cs as [|c cs IH]; intros it l reps H O S E; cbn [run deque_run] in *.
  - injection E as <- <-. auto.
  - inv_bind E. inv_bind E. injection E as <- <-. destruct a as [rep i]. destruct a0 as [reps i'].
    inversion O; subst. cbn [fst snd] in *.
    destruct (bri_call_refines it l c rep i H H2) as [-> K]; [intros ->; apply S; now left|exact E0|].
    destruct (IH i (snd (deque_call l c)) reps K H3) as [-> K']; [|exact E1|auto].
    intros I. pose proof (deque_call_length l c). specialize (S (or_intror I)). lia.
Qed.

(** ** Release agrees *)
Lemma next_agree it x : bri_next Debug it = Ret x -> bri_next Release it = Ret x.
Proof.
  unfold bri_next. destruct (t_gt _ _); [auto|]. intros E. inv_bind E.
  rewrite (fwd_agree _ _ _ one_ok E0). exact E.
Qed.
Lemma next_back_agree it x : bri_next_back Debug it = Ret x -> bri_next_back Release it = Ret x.
Proof.
  unfold bri_next_back. destruct (t_gt _ _); [auto|]. intros E. inv_bind E.
  rewrite (bwd_agree _ _ _ one_ok E0). exact E.
Qed.
Lemma nth_agree it n x : 0 <= n <= usize_max -> bri_nth Debug it n = Ret x -> bri_nth Release it n = Ret x.
Proof.
  unfold bri_nth. intros Hn E. inv_bind E. rewrite (fwd_agree _ _ _ Hn E0). apply next_agree. exact E.
Qed.
Lemma nth_back_agree it n x : 0 <= n <= usize_max -> bri_nth_back Debug it n = Ret x -> bri_nth_back Release it n = Ret x.
Proof.
  unfold bri_nth_back. intros Hn E. inv_bind E. rewrite (bwd_agree _ _ _ Hn E0). apply next_back_agree. exact E.
Qed.
Lemma len_agree it n : bri_len Debug it = Ret n -> bri_len Release it = Ret n.
Proof.
  unfold bri_len, bri_size_hint. intros E. inv_bind E. inv_bind E0.
  destruct (steps_between _ _).
  - rewrite (usize_add_agree _ _ _ E1). cbn [bind]. injection E0 as <-. exact E.
  - injection E1 as <-. injection E0 as <-. exact E.
Qed.
Lemma bri_call_agree it c x : call_ok c -> bri_call Debug it c = Ret x -> bri_call Release it c = Ret x.
Proof.
  intros O E. destruct c; unfold bri_call, item in *; inv_bind E.
  - rewrite (next_agree _ _ E0). exact E.
  - rewrite (next_back_agree _ _ E0). exact E.
  - rewrite (nth_agree _ _ _ O E0). exact E.
  - rewrite (nth_back_agree _ _ _ O E0). exact E.
  - rewrite (len_agree _ _ E0). exact E.
Qed.
Lemma run_agree {S C R : Type} (f g : S -> C -> outcome (R * S)) (ok : C -> Prop) :
  (forall s c x, ok c -> f s c = Ret x -> g s c = Ret x) ->
  forall cs s x, Forall ok cs -> run f s cs = Ret x -> run g s cs = Ret x.
Proof.
  intros A. induction cs as [|c cs IH]; intros s x O E; cbn [run] in *; [exact E|].
  inversion O; subst. inv_bind E. inv_bind E. rewrite (A s c _ H1 E0). cbn [bind].
  rewrite (IH _ _ H2 E1). exact E.
Qed.

(** ** Creating the iterator *)
Lemma into_iter_agree r it : br_into_iter Debug r = Ret it -> br_into_iter Release r = Ret it.
Proof.
  unfold br_into_iter. intros E. inv_bind E. inv_bind E.
  destruct (br_start r) as [[s|s]]; destruct (br_end r) as [[e|e]];
    try rewrite (fwd_agree _ _ _ one_ok E0); try rewrite (bwd_agree _ _ _ one_ok E1);
    try (injection E0 as <-); try (injection E1 as <-); exact E.
Qed.
(** It holds the elements of the range. *)
Lemma into_iter_holds r it l : br_into_iter Debug r = Ret it -> (holds it l <-> lists (in_range r) l).
Proof.
  intros E. assert (K : forall t, idx (bri_current it) <= idx t <= idx (bri_last_field it) <-> in_range r t).
  { unfold br_into_iter in E. inv_bind E. inv_bind E. injection E as <-.
    unfold in_range. cbn [bri_current bri_last_field].
    destruct (br_start r) as [[s|s]]; destruct (br_end r) as [[e|e]]; cbn [above below];
      try (apply fwd_ret in E0; [|apply one_ok]); try (apply bwd_ret in E1; [|apply one_ok]);
      try (injection E0 as <-); try (injection E1 as <-);
      intros t; rewrite ?lt_idx, ?le_idx; lia. }
  split; intros H.
  - eapply lists_ext; [exact K|]. apply span_lists. exact H.
  - destruct (holds_exists it) as [l' H']. replace l with l'; [exact H'|].
    eapply lists_unique; [|exact H]. eapply lists_ext; [exact K|]. apply span_lists. exact H'.
Qed.
Lemma into_iter_panics r :
  br_into_iter Debug r = Panic <->
  (exists t, br_start r = LB (Excluded t) /\ greatest t) \/ (exists t, br_end r = UB (Excluded t) /\ least t).
Proof.
  assert (G : forall t : T, (forall b : T, idx b < idx t + 1) <-> greatest t).
  { intros t. unfold greatest. split; intros H b; specialize (H b); rewrite ?le_idx in *; lia. }
  assert (L : forall t : T, (forall b : T, idx t - 1 < idx b) <-> least t).
  { intros t. unfold least. split; intros H b; specialize (H b); rewrite ?le_idx in *; lia. }
  assert (Fs : forall s : T, forward Debug s 1 = Panic <-> greatest s).
  { intros s. rewrite <- G. destruct (fwd_cases s 1 one_ok) as [(b & -> & Hb)|[-> Hb]]; split; try discriminate; auto.
    intros K. specialize (K b). lia. }
  assert (Bs : forall s : T, backward Debug s 1 = Panic <-> least s).
  { intros s. rewrite <- L. destruct (bwd_cases s 1 one_ok) as [(b & -> & Hb)|[-> Hb]]; split; try discriminate; auto.
    intros K. specialize (K b). lia. }
  transitivity ((match br_start r with LB (Excluded t) => forward Debug t 1 | LB (Included t) => Ret t end = Panic) \/
                (match br_end r with UB (Excluded t) => backward Debug t 1 | UB (Included t) => Ret t end = Panic)).
  - unfold br_into_iter.
    assert (X : match br_start r with LB (Excluded t) => forward Debug t 1 | LB (Included t) => Ret t end <> Diverge).
    { destruct (br_start r) as [[s|s]]; [|discriminate].
      destruct (fwd_cases s 1 one_ok) as [(b & -> & Hb)|[-> Hb]]; discriminate. }
    destruct (match br_start r with LB (Excluded t) => forward Debug t 1 | LB (Included t) => Ret t end); cbn [bind].
    + destruct (match br_end r with UB (Excluded t) => backward Debug t 1 | UB (Included t) => Ret t end); cbn [bind];
        split; try discriminate; auto; intros [|]; congruence.
    + tauto.
    + congruence.
  - destruct (br_start r) as [[s|s]], (br_end r) as [[e|e]]; rewrite ?Fs, ?Bs; split;
      (intros [K|K]; [left|right]); try discriminate K; eauto;
      destruct K as (t & E & K); try discriminate E; injection E as <-; exact K.
Qed.
Lemma into_iter_not_diverge r : br_into_iter Debug r <> Diverge.
Proof.
  unfold br_into_iter.
  destruct (br_start r) as [[s|s]]; [destruct (fwd_cases s 1 one_ok) as [(s' & -> & Hs)|[-> Hs]]|]; cbn [bind]; try discriminate;
    (destruct (br_end r) as [[e|e]]; [destruct (bwd_cases e 1 one_ok) as [(e' & -> & He)|[-> He]]|]; cbn [bind]; discriminate).
Qed.
Lemma into_iter_inhabited r t : in_range r t -> exists it, br_into_iter Debug r = Ret it.
Proof.
  intros [A B]. destruct (br_into_iter Debug r) as [it| |] eqn:E.
  - eauto.
  - exfalso. apply into_iter_panics in E. destruct E as [(s & E & G)|(e & E & L)].
    + rewrite E in A. cbn [above] in A. specialize (G t). rewrite lt_idx in A. rewrite le_idx in G. lia.
    + rewrite E in B. cbn [below] in B. specialize (L t). rewrite lt_idx in B. rewrite le_idx in L. lia.
  - exfalso. exact (into_iter_not_diverge r E).
Qed.

(** ** When calls panic *)
Lemma next_panics it l : holds it l ->
  (bri_next Debug it = Panic <-> exists x l', l = x :: l' /\ greatest x).
Proof.
  intros H. unfold bri_next. rewrite t_gt_idx.
  destruct (idx (bri_last_field it) <? idx (bri_current it)) eqn:C.
  - rewrite (span_nil _ _ _ H) by lia. split; [discriminate|]. intros (x & l' & E & _). discriminate.
  - destruct (span_hd _ _ _ (bri_current it) H) as [l' ->]; [lia|reflexivity|].
    destruct (fwd_cases (bri_current it) 1 one_ok) as [(b & -> & Hb)|[-> Hb]]; cbn [bind]; split.
    + discriminate.
    + intros (x & k & E & G). injection E as <- <-. specialize (G b). apply le_idx in G. lia.
    + intros _. exists (bri_current it), l'. split; [reflexivity|]. intros u. apply le_idx. specialize (Hb u). lia.
    + reflexivity.
Qed.
Lemma next_back_panics it l : holds it l ->
  (bri_next_back Debug it = Panic <-> exists x l', rev l = x :: l' /\ least x).
Proof.
  intros H. unfold bri_next_back. rewrite t_gt_idx.
  destruct (idx (bri_last_field it) <? idx (bri_current it)) eqn:C.
  - rewrite (span_nil _ _ _ H) by lia. split; [discriminate|]. intros (x & l' & E & _). discriminate.
  - destruct (span_last _ _ _ (bri_last_field it) H) as [l' R]; [lia|reflexivity|]. rewrite R.
    destruct (bwd_cases (bri_last_field it) 1 one_ok) as [(b & -> & Hb)|[-> Hb]]; cbn [bind]; split.
    + discriminate.
    + intros (x & k & E & G). injection E as <- <-. specialize (G b). apply le_idx in G. lia.
    + intros _. exists (bri_last_field it), l'. split; [reflexivity|]. intros u. apply le_idx. specialize (Hb u). lia.
    + reflexivity.
Qed.
Lemma next_not_diverge it : bri_next Debug it <> Diverge.
Proof.
  unfold bri_next. destruct (t_gt _ _); [discriminate|].
  destruct (fwd_cases (bri_current it) 1 one_ok) as [(b & -> & Hb)|[-> Hb]]; discriminate.
Qed.
Lemma next_back_not_diverge it : bri_next_back Debug it <> Diverge.
Proof.
  unfold bri_next_back. destruct (t_gt _ _); [discriminate|].
  destruct (bwd_cases (bri_last_field it) 1 one_ok) as [(b & -> & Hb)|[-> Hb]]; discriminate.
Qed.

(** ** Draining *)
Lemma drains_det {A S : Type} (next : S -> outcome (option A * S)) s o1 o2 :
  drains next s o1 -> drains next s o2 -> o1 = o2.
Proof.
  intros H. revert o2. induction H; intros o2 H2; inversion H2; subst; try congruence.
  rewrite H in H1. injection H1 as <- <-. f_equal. apply IHdrains. assumption.
Qed.
Lemma greatest_idx (x : T) : greatest x <-> forall u, idx u <= idx x.
Proof. unfold greatest. split; intros H u; apply le_idx; apply H. Qed.

Lemma drains_forward l it : holds it l ->
  ((forall t, In t l -> ~ greatest t) -> drains (bri_next Debug) it (Ret l)) /\
  ((exists t, In t l /\ greatest t) -> drains (bri_next Debug) it Panic).
Proof.
  revert it. induction l as [|x l IH]; intros it H.
  - destruct (bri_next Debug it) as [[o it']| |] eqn:E.
    + destruct (next_refines it [] o it' H E) as [-> _]. split.
      * intros _. eapply drains_done. exact E.
      * intros (t & [] & _).
    + apply (next_panics it [] H) in E. destruct E as (? & ? & E & _). discriminate.
    + exfalso. exact (next_not_diverge _ E).
  - destruct (bri_next Debug it) as [[o it']| |] eqn:E.
    + pose proof E as E'. destruct (next_refines it _ o it' H E') as [-> K]. cbn [tl hd_error] in *.
      destruct (IH it' K) as [I1 I2]. split.
      * intros G. eapply (drains_item _ it it' x (Ret l) E). apply I1. intros t I. apply G. now right.
      * intros (t & [->|I] & G).
        -- exfalso. assert (P : bri_next Debug it = Panic) by (apply (next_panics it _ H); eauto). congruence.
        -- change (@Panic (list T)) with (k <- @Panic (list T) ;; Ret (x :: k)).
           eapply drains_item; [exact E|]. apply I2. eauto.
    + split.
      * intros G. apply (next_panics it _ H) in E. destruct E as (y & k & E & Gy).
        injection E as <- <-. exfalso. apply (G x); [now left|exact Gy].
      * intros _. apply drains_panic. exact E.
    + exfalso. exact (next_not_diverge _ E).
Qed.
Lemma drains_backward l it : holds it (rev l) ->
  ((forall t, In t l -> ~ least t) -> drains (bri_next_back Debug) it (Ret l)) /\
  ((exists t, In t l /\ least t) -> drains (bri_next_back Debug) it Panic).
Proof.
  revert it. induction l as [|x l IH]; intros it H.
  - destruct (bri_next_back Debug it) as [[o it']| |] eqn:E.
    + destruct (next_back_refines it [] o it' H E) as [-> _]. split.
      * intros _. eapply drains_done. exact E.
      * intros (t & [] & _).
    + apply (next_back_panics it [] H) in E. destruct E as (? & ? & E & _). discriminate.
    + exfalso. exact (next_back_not_diverge _ E).
  - destruct (bri_next_back Debug it) as [[o it']| |] eqn:E.
    + pose proof E as E'. destruct (next_back_refines it _ o it' H E') as [-> K].
      rewrite rev_involutive in *. cbn [tl hd_error] in *.
      destruct (IH it' K) as [I1 I2]. split.
      * intros G. eapply (drains_item _ it it' x (Ret l) E). apply I1. intros t I. apply G. now right.
      * intros (t & [->|I] & G).
        -- exfalso. assert (P : bri_next_back Debug it = Panic)
             by (apply (next_back_panics it _ H); rewrite rev_involutive; eauto). congruence.
        -- change (@Panic (list T)) with (k <- @Panic (list T) ;; Ret (x :: k)).
           eapply drains_item; [exact E|]. apply I2. eauto.
    + split.
      * intros G. apply (next_back_panics it _ H) in E. rewrite rev_involutive in E.
        destruct E as (y & k & E & Gy). injection E as <- <-. exfalso. apply (G x); [now left|exact Gy].
      * intros _. apply drains_panic. exact E.
    + exfalso. exact (next_back_not_diverge _ E).
Qed.
Lemma drains_agree (f g : BoundedRangeIter T -> outcome (option T * BoundedRangeIter T)) :
  (forall s x, f s = Ret x -> g s = Ret x) ->
  forall s o, drains f s o -> forall l, o = Ret l -> drains g s (Ret l).
Proof.
  intros A s o D. induction D; intros l E.
  - injection E as <-. eapply drains_done. apply A. eassumption.
  - inv_bind E. injection E as <-. subst o. change (Ret (x :: a)) with (k <- Ret a ;; Ret (x :: k)).
    eapply drains_item; [apply A; eassumption|]. apply IHD. reflexivity.
  - discriminate.
Qed.

(** ** No panics away from the extremes *)
Lemma next_total it l : holds it l -> (forall t, In t l -> ~ greatest t) -> exists x, bri_next Debug it = Ret x.
Proof.
  intros H G. destruct (bri_next Debug it) as [x| |] eqn:E; [eauto| |exfalso; exact (next_not_diverge _ E)].
  exfalso. apply (next_panics it l H) in E. destruct E as (x & l' & -> & K). apply (G x); [now left|exact K].
Qed.
Lemma next_back_total it l : holds it l -> (forall t, In t l -> ~ least t) -> exists x, bri_next_back Debug it = Ret x.
Proof.
  intros H G. destruct (bri_next_back Debug it) as [x| |] eqn:E; [eauto| |exfalso; exact (next_back_not_diverge _ E)].
  exfalso. apply (next_back_panics it l H) in E. destruct E as (x & l' & R & K).
  apply (G x); [|exact K]. rewrite in_rev, R. now left.
Qed.
Lemma in_skipn {A} k (l : list A) x : In x (skipn k l) -> In x l.
Proof. revert k; induction l; intros [|k]; simpl; auto. intros I. right. eapply IHl. exact I. Qed.
Lemma deque_call_in (l : list T) c t : In t (snd (deque_call l c)) -> In t l.
Proof.
  destruct c; cbn [deque_call snd]; auto.
  - destruct l; simpl; auto.
  - rewrite <- in_rev. intros I. apply in_rev. destruct (rev l); simpl in *; auto.
  - apply in_skipn.
  - rewrite <- in_rev. intros I. apply in_rev. apply in_skipn in I. exact I.
Qed.
Lemma nth_total it l n : holds it l -> 0 <= n <= usize_max -> n <= Z.of_nat (length l) ->
  (forall t, In t l -> ~ greatest t) -> exists x, bri_nth Debug it n = Ret x.
Proof.
  intros H Hn Hl G. unfold bri_nth. pose proof (span_length _ _ _ H) as L.
  destruct (fwd_cases (bri_current it) n Hn) as [(b & -> & Hb)|[_ Hb]]; cbn [bind].
  - apply (next_total _ (skipn (Z.to_nat n) l)).
    + unfold holds. cbn [bri_current bri_last_field]. rewrite Hb. apply span_skipn; [exact H|lia].
    + intros t I. apply G. eapply in_skipn. exact I.
  - exfalso. destruct l as [|x l'].
    + simpl in Hl. specialize (Hb (bri_current it)). lia.
    + simpl in L, Hl. apply (G (bri_last_field it)).
      * apply (span_in _ _ _ _ H). lia.
      * intros u. apply le_idx. specialize (Hb u). lia.
Qed.
Lemma nth_back_total it l n : holds it l -> 0 <= n <= usize_max -> n <= Z.of_nat (length l) ->
  (forall t, In t l -> ~ least t) -> exists x, bri_nth_back Debug it n = Ret x.
Proof.
  intros H Hn Hl G. unfold bri_nth_back. pose proof (span_length _ _ _ H) as L.
  destruct (bwd_cases (bri_last_field it) n Hn) as [(b & -> & Hb)|[_ Hb]]; cbn [bind].
  - apply (next_back_total _ (rev (skipn (Z.to_nat n) (rev l)))).
    + unfold holds. cbn [bri_current bri_last_field]. rewrite Hb. apply span_skipn_back; [exact H|lia].
    + intros t I. apply G. rewrite <- in_rev in I. apply in_rev. eapply in_skipn. exact I.
  - exfalso. destruct l as [|x l'].
    + simpl in Hl. specialize (Hb (bri_last_field it)). lia.
    + simpl in L, Hl. apply (G (bri_current it)).
      * apply (span_in _ _ _ _ H). lia.
      * intros u. apply le_idx. specialize (Hb u). lia.
Qed.
Lemma bri_run_total cs it l :
  holds it l -> (forall t, In t l -> ~ greatest t /\ ~ least t) -> Z.of_nat (length l) <= usize_max ->
  within l cs -> exists x, run (bri_call Debug) it cs = Ret x.
Proof.
  revert it l. induction cs as [|c cs IH]; intros it l H G S W; cbn [run]; [eauto|].
  destruct W as [Wc W].
  assert (O : call_ok c) by (destruct c; cbn [call_ok]; auto; lia).
  assert (exists x, bri_call Debug it c = Ret x) as [[rep it'] E].
  { destruct c; cbn [bri_call]; unfold item.
    - destruct (next_total it l H) as [x ->]; [firstorder|]. cbn [bind]. eauto.
    - destruct (next_back_total it l H) as [x ->]; [firstorder|]. cbn [bind]. eauto.
    - destruct (nth_total it l n H) as [x ->]; [assumption|lia|firstorder|]. cbn [bind]. eauto.
    - destruct (nth_back_total it l n H) as [x ->]; [assumption|lia|firstorder|]. cbn [bind]. eauto.
    - rewrite (len_small it l H S). cbn [bind]. eauto. }
  rewrite E. cbn [bind fst snd].
  destruct (bri_call_refines it l c rep it' H O (fun _ => S) E) as [-> K].
  destruct (IH it' (snd (deque_call l c)) K) as [x ->].
  - intros t I. apply G. eapply deque_call_in. exact I.
  - pose proof (deque_call_length l c). lia.
  - exact W.
  - cbn [bind]. eauto.
Qed.

(** ** Fused *)
Lemma next_none m it it' : bri_next m it = Ret (None, it') -> it' = it /\ t_gt (bri_current it) (bri_last_field it) = true.
Proof.
  unfold bri_next. destruct (t_gt _ _); [injection 1 as <-; auto|]. intros E. inv_bind E. discriminate.
Qed.
Lemma next_back_none m it it' : bri_next_back m it = Ret (None, it') -> it' = it /\ t_gt (bri_current it) (bri_last_field it) = true.
Proof.
  unfold bri_next_back. destruct (t_gt _ _); [injection 1 as <-; auto|]. intros E. inv_bind E. discriminate.
Qed.
End Bri.
