(** Loops that do not end: [last] of a set in release builds, and the iterators of
    lower-bounded ranges and sets. *)
From Coq Require Import Lia ZifyBool Sorted.
From Verif Require Import Base ModelBound ModelRanges ModelSets ModelValue ModelStep ModelIter Reach
  Spec SpecStep SpecIter StepProofs StepLemmas InstancesStep IterProofs IterProofs2 IterProofs3 IterProofs4 IterLemmas IterBig IterRelease.
Open Scope Z_scope.

Section Last.
Context {PF : Platform} {ty : ity}.
Notation T := (mint ty).
Lemma bsi_last_release (it : BoundedSetIter T) l o : rholds it l -> StronglySorted lt l ->
  (bsi_last Release it o <-> o = Ret (hd_error (rev l)) /\ forall t, In t l -> ~ greatest t).
Proof.
  intros (ls & H & ->) Srt. unfold bsi_last.
  assert (Lst : forall x r t, rev (concat ls) = x :: r -> In t (concat ls) -> idx t <= idx x)
    by (intros x r t; apply sorted_last; exact Srt).
  rewrite rev_concat in Lst.
  assert (HR : Forall2 rshows (rev (bsi_range_iters it)) (map (@rev T) (map (@rev T) (rev ls)))).
  { rewrite map_map. rewrite (map_ext _ (fun x => x)) by apply rev_involutive. rewrite map_id. apply Forall2_rev, H. }
  rewrite map_map in HR. rewrite (map_ext _ (fun x => x)) in HR by apply rev_involutive. rewrite map_id in HR.
  destruct (trim_release _ _ HR) as (k & -> & C & N).
  pose proof (Forall2_skipn _ k _ _ HR) as H'.
  assert (C' : concat (map (@rev T) (skipn k (rev ls))) = concat (map (@rev T) (rev ls))).
  { revert C. generalize (rev ls). clear. intros ls C. revert k C. induction ls as [|a ls IH]; intros [|k] C; try reflexivity.
    cbn [skipn map concat] in *. assert (La : length a = O).
    { apply (f_equal (@length _)) in C. rewrite app_length in C.
      assert (length (concat (skipn k ls)) <= length (concat ls))%nat.
      { clear. revert k; induction ls as [|b ls IH]; intros [|k]; cbn [skipn concat]; try lia. rewrite app_length. specialize (IH k). lia. }
      lia. }
    destruct a; [|discriminate]. cbn [rev app] in *. now apply IH. }
  rewrite rev_concat, <- C'. rewrite <- C' in Lst.
  assert (M : forall t, In t (concat ls) <-> In t (concat (skipn k (rev ls)))).
  { intros t. rewrite (in_rev (concat ls)), rev_concat, <- C', !in_concat.
    setoid_rewrite in_map_iff. split.
    - intros (x & (y & <- & I) & J). exists y. split; [exact I|]. apply in_rev. exact J.
    - intros (y & I & J). exists (rev y). split; [eauto|]. apply in_rev. rewrite rev_involutive. exact J. }
  setoid_rewrite M. setoid_rewrite M in Lst. clear M C C'.
  revert H' N Lst. generalize (skipn k (rev (bsi_range_iters it))) (skipn k (rev ls)).
  intros its' ls' H' N Lst. destruct H' as [|i l its' ls' Hi H'].
  - split; [intros ->; split; [reflexivity|intros t []]|]. now intros [-> _].
  - destruct Hi as [_ Hi]. specialize (Hi N). cbn [map concat] in *.
    assert (Hd : hd_error (rev l ++ concat (map (@rev T) ls')) = hd_error (rev l)).
    { destruct (rev l) eqn:R; [|reflexivity]. apply (f_equal (@rev T)) in R. rewrite rev_involutive in R. contradiction. }
    rewrite Hd.
    assert (G : (forall t, In t (l ++ concat ls') -> ~ greatest t) <-> forall t, In t l -> ~ greatest t).
    { split; intros G t I; [apply G, in_or_app; now left|]. intros Gt.
      destruct (rev l) as [|x r] eqn:R; [apply (f_equal (@rev T)) in R; rewrite rev_involutive in R; contradiction|].
      assert (L : In x l) by (apply in_rev; rewrite R; now left).
      apply (G x L). specialize (Lst x (r ++ concat (map (@rev T) ls')) t eq_refl I).
      intros u. specialize (Gt u). apply le_idx. apply le_idx in Gt. lia. }
    rewrite G. split.
    + intros (d & D & ->). apply (proj1 (range_release i l d Hi)) in D. destruct D as [-> Gt]. split; [reflexivity|exact Gt].
    + intros [-> Gt]. exists (Ret l). split; [|reflexivity]. apply (proj1 (range_release i l (Ret l) Hi)). auto.
Qed.
Lemma set_last_release (s : BoundedSet T) it l o : valid (VBS s) -> bs_into_iter Release s = Ret it ->
  lists (in_small_pieces (bs_ranges s)) l ->
  (bsi_last Release it o <-> o = Ret (hd_error (rev l)) /\ forall t, In t l -> ~ greatest t).
Proof.
  intros V E L. destruct (bs_into_iter_rshows s V) as (it' & k & E' & H & K). rewrite E in E'. injection E' as <-.
  rewrite (lists_unique _ _ _ L K) in *. apply bsi_last_release; [exact H|exact (proj1 K)].
Qed.
End Last.

Section Lower.
Context {T : Type} {PF : Platform} {OT : Ord T} {ST : Step T}.
Lemma lbri_panics m (i : LowerBoundedRangeIter T) o : drains (lbri_next m) i o -> o = Panic.
Proof.
  induction 1 as [s s' E|s s' x o E D IH|s E]; [|now subst|reflexivity].
  unfold lbri_next in E. destruct (forward m (lbri_current s) 1); discriminate.
Qed.
Lemma lbsi_panics m (i : LowerBoundedSetIter T) o : drains (lbsi_next m) i o -> o = Panic.
Proof.
  induction 1 as [s s' E|s s' x o E D IH|s E]; [|now subst|reflexivity].
  unfold lbsi_next in E. inv_bind E. destruct (fst a) as [t|]; [discriminate|]. unfold lbri_next in E.
  destruct (forward m _ 1); discriminate.
Qed.
Context {NU : Numbered T} {SL : StepLaws T}.
Lemma bsi_none m (i i' : BoundedSetIter T) : bsi_next m i = Ret (None, i') -> i' = BSI [].
Proof.
  unfold bsi_next. intros E. inv_bind E. apply trim_front in E0. destruct a as [|x l].
  - cbn in E. injection E as <-. reflexivity.
  - cbn [on_front] in E. inv_bind E. inv_bind E1. unfold bri_next in E2. rewrite E0 in E2. destruct (forward m _ 1); try discriminate.
    cbn [bind] in E2. injection E2 as <-. injection E1 as <-. cbn in E. discriminate.
Qed.
Lemma drains_lbsi_tail m j (e : outcome (list T)) : drains (lbri_next m) j e -> drains (lbsi_next m) (LBSI (BSI []) j) e.
Proof.
  induction 1 as [s s' E|s s' x o E D IH|s E].
  - apply (drains_done _ _ (LBSI (BSI []) s')). unfold lbsi_next. cbn. now rewrite E.
  - apply (drains_item _ _ (LBSI (BSI []) s')); [|exact IH]. unfold lbsi_next. cbn. now rewrite E.
  - apply drains_panic. unfold lbsi_next. cbn. now rewrite E.
Qed.
(** A loop over a lower-bounded set is one over its bounded part, then one over its half-line. *)
Lemma drains_lbsi m (i : BoundedSetIter T) d : drains (bsi_next m) i d ->
  forall j e, drains (lbri_next m) j e -> drains (lbsi_next m) (LBSI i j) (l <- d ;; k <- e ;; Ret (l ++ k)).
Proof.
  induction 1 as [s s' E|s s' x o E D IH|s E]; intros j e J.
  - pose proof (bsi_none _ _ _ E) as ->. cbn [bind app].
    replace (k <- e ;; Ret k) with e by now destruct e.
    destruct J as [t t' F|t t' x o F D|t F].
    + apply (drains_done _ _ (LBSI (BSI []) t')). unfold lbsi_next. cbn [lbsi_set_iter]. rewrite E. cbn. now rewrite F.
    + apply (drains_item _ _ (LBSI (BSI []) t')); [|now apply drains_lbsi_tail].
      unfold lbsi_next. cbn [lbsi_set_iter]. rewrite E. cbn. now rewrite F.
    + apply drains_panic. unfold lbsi_next. cbn [lbsi_set_iter]. rewrite E. cbn. now rewrite F.
  - replace (l <- l <- o ;; Ret (x :: l) ;; k <- e ;; Ret (l ++ k)) with (l <- l <- o ;; k <- e ;; Ret (l ++ k) ;; Ret (x :: l)).
    + apply (drains_item _ _ (LBSI s' j)); [|now apply IH]. unfold lbsi_next. cbn [lbsi_set_iter]. now rewrite E.
    + destruct o; [|reflexivity|reflexivity]. cbn [bind]. now destruct e.
  - apply drains_panic. unfold lbsi_next. cbn [lbsi_set_iter]. now rewrite E.
Qed.
Lemma lbri_reaches (g : T) : greatest g -> forall i : LowerBoundedRangeIter T, drains (lbri_next Debug) i Panic.
Proof.
  intros G i. remember (Z.to_nat (idx g - idx (lbri_current i))) as n eqn:E. revert i E. induction n as [n IH] using lt_wf_ind. intros i E.
  assert (B : forall t : T, idx t <= idx g) by (intros t; specialize (G t); now apply le_idx).
  destruct (fwd_cases (lbri_current i) 1 one_ok) as [(b & F & Hb)|[F _]].
  - apply (drains_item _ _ (LBRI b) (lbri_current i) Panic); [unfold lbri_next; now rewrite F|].
    apply (IH (Z.to_nat (idx g - idx b))); [|reflexivity]. specialize (B b). lia.
  - apply drains_panic. unfold lbri_next. now rewrite F.
Qed.
End Lower.
Section LowerRelease.
Context {PF : Platform} {ty : ity}.
Lemma lbri_release (i : LowerBoundedRangeIter (mint ty)) o : ~ drains (lbri_next Release) i o.
Proof.
  intros D. pose proof (lbri_panics _ _ _ D) as P. induction D as [s s' E|s s' x o E D IH|s E]; [discriminate| |].
  - apply IH. destruct o; try discriminate; auto.
  - unfold lbri_next in E. destruct (rel_fwd (lbri_current s) 1 one_ok) as [y F]. rewrite F in E. discriminate.
Qed.
Lemma lbsi_release (i : LowerBoundedSetIter (mint ty)) o : ~ drains (lbsi_next Release) i o.
Proof.
  intros D. pose proof (lbsi_panics _ _ _ D) as P. induction D as [s s' E|s s' x o E D IH|s E]; [discriminate| |].
  - apply IH. destruct o; try discriminate; auto.
  - destruct (rel_up_call s UpNext I) as [y F]. cbn [lbsi_call] in F. rewrite F in E. discriminate.
Qed.
End LowerRelease.
