(** Properties of the std adaptors that run on the crate's [nth]. *)
From Coq Require Import Lia ZifyBool Sorted.
From Verif Require Import Base ModelBound ModelRanges ModelSets ModelValue ModelStep ModelIter ModelAdapt Reach
  Spec SpecStep SpecIter SpecAdapt StepProofs StepLemmas InstancesStep IterProofs IterProofs2 IterProofs3 IterProofs4 IterLemmas
  IterBig IterRelease AdaptProofs AdaptProofs2 PropertiesIter.
Open Scope Z_scope.

(** Running a loop for at most [fuel] calls; for the examples only. *)
Fixpoint drain {A S : Type} (fuel : nat) (next : S -> outcome (option A * S)) (s : S) : option (outcome (list A)) :=
  match fuel with
  | O => None
  | S fuel' =>
    match next s with
    | Ret (None, _) => Some (Ret [])
    | Ret (Some x, s') => match drain fuel' next s' with Some o => Some (l <- o ;; Ret (x :: l)) | None => None end
    | Panic => Some Panic
    | Diverge => None
    end
  end.
Lemma drain_drains {A S : Type} fuel (next : S -> outcome (option A * S)) s o : drain fuel next s = Some o -> drains next s o.
Proof.
  revert s o. induction fuel as [|fuel IH]; intros s o E; [discriminate|]. cbn [drain] in E.
  destruct (next s) as [[[x|] s']| |] eqn:N; try discriminate.
  - destruct (drain fuel next s') as [o'|] eqn:D; [|discriminate]. injection E as <-. eapply drains_item; [exact N|]. apply IH. exact D.
  - injection E as <-. eapply drains_done. exact N.
  - injection E as <-. apply drains_panic. exact N.
Qed.

Lemma drains_not_diverge {A S : Type} (next : S -> outcome (option A * S)) s : ~ drains next s Diverge.
Proof.
  intros D. remember Diverge as o eqn:E. induction D as [| s s' x o N D IH|]; try discriminate.
  destruct o; try discriminate. apply IH. reflexivity.
Qed.

Section Into.
Context {T : Type} {PF : Platform} {OT : Ord T} {ST : Step T} {NU : Numbered T} {SL : StepLaws T}.
Lemma into_iter_ends (r : BoundedRange T) it : br_into_iter Debug r = Ret it ->
  forall t, (above (br_start r) t <-> idx (bri_current it) <= idx t) /\ (below (br_end r) t <-> idx t <= idx (bri_last_field it)).
Proof.
  intros E t. unfold br_into_iter in E. inv_bind E. inv_bind E. injection E as <-. cbn [bri_current bri_last_field].
  destruct (br_start r) as [[s|s]]; destruct (br_end r) as [[e|e]]; cbn [above below];
    try (apply fwd_ret in E0; [|apply one_ok]); try (apply bwd_ret in E1; [|apply one_ok]);
    try (injection E0 as <-); try (injection E1 as <-); rewrite ?lt_idx, ?le_idx; lia.
Qed.
Lemma first_current (r : BoundedRange T) it x l : br_into_iter Debug r = Ret it -> lists (in_range r) (x :: l) -> bri_current it = x.
Proof.
  intros E L. pose proof (proj2 (into_iter_holds r it _ E) L) as H. pose proof (span_length _ _ _ H) as N. cbn [length] in N.
  destruct (span_hd _ _ _ (bri_current it) H) as [l' Q]; [lia|reflexivity|]. congruence.
Qed.
Lemma last_current (r : BoundedRange T) it x l : br_into_iter Debug r = Ret it -> lists (in_range r) (rev (x :: l)) -> bri_last_field it = x.
Proof.
  intros E L. pose proof (proj2 (into_iter_holds r it _ E) L) as H. pose proof (span_length _ _ _ H) as N.
  rewrite rev_length in N. cbn [length] in N.
  destruct (span_last _ _ _ (bri_last_field it) H) as [l' Q]; [lia|reflexivity|]. rewrite rev_involutive in Q. congruence.
Qed.
End Into.

(** ** C56 *)
(** [step_by(0)] panics; otherwise the adaptor is made. *)
Theorem C56_step_by_new (S : Type) (it : S) (k : Z) :
  0 <= k -> (sb_new it k = Panic <-> k = 0) /\ (k <> 0 -> exists s, sb_new it k = Ret s).
Proof.
  intros _. unfold sb_new. destruct (k =? 0) eqn:E.
  - apply Z.eqb_eq in E. split; [split; auto|contradiction].
  - apply Z.eqb_neq in E. split; [split; [discriminate|contradiction]|eauto].
Qed.
Print Assumptions C56_step_by_new.

(** Bounded ranges with overflow checks: [step_by(k)] gives every [k]-th element,
    exactly when from each of these another step of [k] stays inside the element
    {e type} - the range may have ended long before - and panics otherwise
    ([C56_refuted]).  [.rev().step_by(k)] likewise downwards. *)
Theorem C56_range_step_by_partial (T : Type) (PF : Platform) (OT : Ord T) (ST : Step T) (NU : Numbered T) (SL : StepLaws T)
  (r : BoundedRange T) (it : BoundedRangeIter T) (l : list T) (k : Z) (s : StepBy (BoundedRangeIter T)) :
  br_into_iter Debug r = Ret it -> k <= usize_max -> 0 <= k -> sb_new it k = Ret s ->
  (lists (in_range r) l ->
   (forall w, drains (sb_next (bri_nth Debug)) s (Ret w) <->
      strided (Z.to_nat k) l w /\ forall i t, nth_error l (i * Z.to_nat k) = Some t -> exists b, apart t b k) /\
   (drains (sb_next (bri_nth Debug)) s Panic <->
      exists i t, nth_error l (i * Z.to_nat k) = Some t /\ ~ exists b, apart t b k) /\
   exists o, drains (sb_next (bri_nth Debug)) s o) /\
  (lists (in_range r) (rev l) ->
   (forall w, drains (sb_next (bri_nth_back Debug)) s (Ret w) <->
      strided (Z.to_nat k) l w /\ forall i t, nth_error l (i * Z.to_nat k) = Some t -> exists b, apart b t k) /\
   (drains (sb_next (bri_nth_back Debug)) s Panic <->
      exists i t, nth_error l (i * Z.to_nat k) = Some t /\ ~ exists b, apart b t k) /\
   exists o, drains (sb_next (bri_nth_back Debug)) s o).
Proof.
  intros E K1 K0 N. unfold sb_new in N. destruct (k =? 0) eqn:Z0; [discriminate|]. injection N as <-. split; intros L.
  - apply range_step_by; [apply (into_iter_holds r it l E); exact L|lia].
  - apply range_step_by_back; [apply (into_iter_holds r it _ E); exact L|lia].
Qed.
Print Assumptions C56_range_step_by_partial.

(** [skip(n)] drops the first [n] elements, exactly when the element type goes
    on for [n] steps after the first one - again however short the range is -
    and the rest does not reach the end of the type. *)
Theorem C56_range_skip_partial (T : Type) (PF : Platform) (OT : Ord T) (ST : Step T) (NU : Numbered T) (SL : StepLaws T)
  (r : BoundedRange T) (it : BoundedRangeIter T) (x : T) (l : list T) (n : Z) :
  br_into_iter Debug r = Ret it -> 0 <= n <= usize_max ->
  (lists (in_range r) (x :: l) ->
   let next := sk_next (bri_next Debug) (bri_nth Debug) in
   (forall w, drains next (SK it n) (Ret w) <->
      w = skipn (Z.to_nat n) (x :: l) /\ (exists b, apart x b n) /\ forall t, In t (skipn (Z.to_nat n) (x :: l)) -> ~ greatest t) /\
   (drains next (SK it n) Panic <->
      (~ exists b, apart x b n) \/ exists t, In t (skipn (Z.to_nat n) (x :: l)) /\ greatest t) /\
   exists o, drains next (SK it n) o) /\
  (lists (in_range r) (rev (x :: l)) ->
   let next := sk_next (bri_next_back Debug) (bri_nth_back Debug) in
   (forall w, drains next (SK it n) (Ret w) <->
      w = skipn (Z.to_nat n) (x :: l) /\ (exists b, apart b x n) /\ forall t, In t (skipn (Z.to_nat n) (x :: l)) -> ~ least t) /\
   (drains next (SK it n) Panic <->
      (~ exists b, apart b x n) \/ exists t, In t (skipn (Z.to_nat n) (x :: l)) /\ least t) /\
   exists o, drains next (SK it n) o).
Proof.
  intros E Hn. split; intros L.
  - pose proof (range_skip it (x :: l) n (proj2 (into_iter_holds r it _ E) L) Hn) as Q.
    rewrite (first_current r it x l E L) in Q. exact Q.
  - pose proof (range_skip_back it (x :: l) n (proj2 (into_iter_holds r it _ E) L) Hn) as Q.
    rewrite (last_current r it x l E L) in Q. exact Q.
Qed.
Print Assumptions C56_range_skip_partial.
(** From an empty range [skip] gets nothing or panics. *)
Theorem C56_range_skip_empty (T : Type) (PF : Platform) (OT : Ord T) (ST : Step T) (NU : Numbered T) (SL : StepLaws T)
  (r : BoundedRange T) (it : BoundedRangeIter T) (n : Z) (o : outcome (list T)) :
  br_into_iter Debug r = Ret it -> 0 <= n <= usize_max -> (forall t, ~ in_range r t) ->
  drains (sk_next (bri_next Debug) (bri_nth Debug)) (SK it n) o \/
  drains (sk_next (bri_next_back Debug) (bri_nth_back Debug)) (SK it n) o -> o = Ret [] \/ o = Panic.
Proof.
  intros E Hn N D. assert (L : lists (in_range r) []).
  { split; [constructor|]. intros t. split; [intros []|intros I; destruct (N t I)]. }
  pose proof (proj2 (into_iter_holds r it _ E) L) as H.
  assert (S : skipn (Z.to_nat n) (@nil T) = []) by (destruct (Z.to_nat n); reflexivity).
  destruct (range_skip it [] n H Hn) as (A1 & _). destruct (range_skip_back it [] n H Hn) as (A2 & _).
  destruct o as [w| |]; auto.
  - left. f_equal. destruct D as [D|D]; [apply A1 in D|apply A2 in D]; rewrite S in D; apply D.
  - exfalso. destruct D as [D|D]; exact (drains_not_diverge _ _ D).
Qed.
Print Assumptions C56_range_skip_empty.

(** [take(n)] gives the first [n] elements and stops there: an extreme of the
    type beyond them does no harm. *)
Theorem C56_range_take (T : Type) (PF : Platform) (OT : Ord T) (ST : Step T) (NU : Numbered T) (SL : StepLaws T)
  (r : BoundedRange T) (it : BoundedRangeIter T) (l : list T) (n : Z) :
  br_into_iter Debug r = Ret it -> 0 <= n ->
  (lists (in_range r) l ->
   (forall w, drains (tk_next (bri_next Debug)) (TK it n) (Ret w) <->
      w = firstn (Z.to_nat n) l /\ forall t, In t (firstn (Z.to_nat n) l) -> ~ greatest t) /\
   (drains (tk_next (bri_next Debug)) (TK it n) Panic <-> exists t, In t (firstn (Z.to_nat n) l) /\ greatest t) /\
   exists o, drains (tk_next (bri_next Debug)) (TK it n) o) /\
  (lists (in_range r) (rev l) ->
   (forall w, drains (tk_next (bri_next_back Debug)) (TK it n) (Ret w) <->
      w = firstn (Z.to_nat n) l /\ forall t, In t (firstn (Z.to_nat n) l) -> ~ least t) /\
   (drains (tk_next (bri_next_back Debug)) (TK it n) Panic <-> exists t, In t (firstn (Z.to_nat n) l) /\ least t) /\
   exists o, drains (tk_next (bri_next_back Debug)) (TK it n) o).
Proof.
  intros E Hn. split; intros L.
  - apply (take_outcome _ _ holds greatest bri_next_cases); [apply (into_iter_holds r it _ E); exact L|exact Hn].
  - apply (take_outcome _ _ (fun s l => holds s (rev l)) least bri_next_back_cases); [apply (into_iter_holds r it _ E); exact L|exact Hn].
Qed.
Print Assumptions C56_range_take.

(** Bounded sets: overshooting is harmless, only an extreme of the type among
    the elements given panics. *)
Theorem C56_set_adaptors (T : Type) (PF : Platform) (OT : Ord T) (ST : Step T) (NU : Numbered T) (SL : StepLaws T)
  (s : BoundedSet T) (it : BoundedSetIter T) (l : list T) (n : Z) :
  api (VBS s) -> small (mem (VBS s)) -> bs_into_iter Debug s = Ret it -> 0 <= n <= usize_max ->
  (lists (mem (VBS s)) l ->
   (1 <= n -> forall st, sb_new it n = Ret st ->
     (forall w, drains (sb_next (bsi_nth Debug)) st (Ret w) <->
        strided (Z.to_nat n) l w /\ forall i t, nth_error l (i * Z.to_nat n) = Some t -> ~ greatest t) /\
     (drains (sb_next (bsi_nth Debug)) st Panic <-> exists i t, nth_error l (i * Z.to_nat n) = Some t /\ greatest t)) /\
   (forall w, drains (sk_next (bsi_next Debug) (bsi_nth Debug)) (SK it n) (Ret w) <->
      w = skipn (Z.to_nat n) l /\ forall t, In t (skipn (Z.to_nat n) l) -> ~ greatest t) /\
   (drains (sk_next (bsi_next Debug) (bsi_nth Debug)) (SK it n) Panic <->
      exists t, In t (skipn (Z.to_nat n) l) /\ greatest t) /\
   (forall w, drains (tk_next (bsi_next Debug)) (TK it n) (Ret w) <->
      w = firstn (Z.to_nat n) l /\ forall t, In t (firstn (Z.to_nat n) l) -> ~ greatest t) /\
   (drains (tk_next (bsi_next Debug)) (TK it n) Panic <-> exists t, In t (firstn (Z.to_nat n) l) /\ greatest t)) /\
  (lists (mem (VBS s)) (rev l) ->
   (1 <= n -> forall st, sb_new it n = Ret st ->
     (forall w, drains (sb_next (bsi_nth_back Debug)) st (Ret w) <->
        strided (Z.to_nat n) l w /\ forall i t, nth_error l (i * Z.to_nat n) = Some t -> ~ least t) /\
     (drains (sb_next (bsi_nth_back Debug)) st Panic <-> exists i t, nth_error l (i * Z.to_nat n) = Some t /\ least t)) /\
   (forall w, drains (sk_next (bsi_next_back Debug) (bsi_nth_back Debug)) (SK it n) (Ret w) <->
      w = skipn (Z.to_nat n) l /\ forall t, In t (skipn (Z.to_nat n) l) -> ~ least t) /\
   (drains (sk_next (bsi_next_back Debug) (bsi_nth_back Debug)) (SK it n) Panic <->
      exists t, In t (skipn (Z.to_nat n) l) /\ least t) /\
   (forall w, drains (tk_next (bsi_next_back Debug)) (TK it n) (Ret w) <->
      w = firstn (Z.to_nat n) l /\ forall t, In t (firstn (Z.to_nat n) l) -> ~ least t) /\
   (drains (tk_next (bsi_next_back Debug)) (TK it n) Panic <-> exists t, In t (firstn (Z.to_nat n) l) /\ least t)).
Proof.
  intros A S E Hn. pose proof (api_valid _ A) as V.
  assert (Hs : forall k, lists (mem (VBS s)) k -> holds_set it k).
  { intros k K. apply (bs_into_iter_holds' s it k V); auto. apply small_pieces; [apply V|exact S]. }
  split; intros L; (split; [intros N st Q; unfold sb_new in Q; destruct (n =? 0); [discriminate|]; injection Q as <-|]).
  - destruct (set_step_by it l n (Hs l L) ltac:(lia)) as (X & Y & _). auto.
  - destruct (set_skip it l n (Hs l L) Hn) as (X & Y & _).
    destruct (take_outcome _ _ holds_set greatest bsi_next_cases it l n (Hs l L) ltac:(lia)) as (X' & Y' & _). auto.
  - destruct (set_step_by_back it l n (Hs _ L) ltac:(lia)) as (X & Y & _). auto.
  - destruct (set_skip_back it l n (Hs _ L) Hn) as (X & Y & _).
    destruct (take_outcome _ _ (fun s l => holds_set s (rev l)) least bsi_next_back_cases' it l n (Hs _ L) ltac:(lia)) as (X' & Y' & _). auto.
Qed.
Print Assumptions C56_set_adaptors.

(** [.step_by(k).take(m)] over lower-bounded ranges and sets: [m] elements, the
    [i]-th being the element number [i * k]; exactly when there is an element
    after the last of them. *)
Theorem C56_lower_step_by_take (T : Type) (PF : Platform) (OT : Ord T) (ST : Step T) (NU : Numbered T) (SL : StepLaws T)
  (k : Z) (m : nat) :
  1 <= k <= usize_max ->
  (forall (r : LowerBoundedRange T) it st, lbr_into_iter Debug r = Ret it -> sb_new it k = Ret st ->
   let next := tk_next (sb_next (lbri_nth Debug)) in
   (forall w, drains next (TK st (Z.of_nat m)) (Ret w) ->
      length w = m /\ forall i e, nth_error w i = Some e -> ranked (mem (VLBR r)) e (Z.of_nat i * k)) /\
   (forall m', m = S m' -> ((exists w, drains next (TK st (Z.of_nat m)) (Ret w)) <->
      exists e, ranked (mem (VLBR r)) e (Z.of_nat m' * k + 1)))) /\
  (forall (s : LowerBoundedSet T) it st, api (VLBS s) -> small (in_pieces (bs_ranges (lbs_ranges s))) ->
   lbs_into_iter Debug s = Ret it -> sb_new it k = Ret st ->
   let next := tk_next (sb_next (lbsi_nth Debug)) in
   (forall w, drains next (TK st (Z.of_nat m)) (Ret w) ->
      length w = m /\ forall i e, nth_error w i = Some e -> ranked (mem (VLBS s)) e (Z.of_nat i * k)) /\
   (forall m', m = S m' -> ((exists w, drains next (TK st (Z.of_nat m)) (Ret w)) <->
      exists e, ranked (mem (VLBS s)) e (Z.of_nat m' * k + 1)))).
Proof.
  intros Hk. split.
  - intros r it st E N. unfold sb_new in N. destruct (k =? 0); [discriminate|]. injection N as <-.
    apply (stride_spec _ (lbri_call Debug) (mem (VLBR r)) it).
    + intros s c o s'. apply lbri_call_some.
    + intros cs reps s' O R. exact (lbr_history r it cs reps s' E O R).
    + intros cs O. exact (lbr_returns r it cs E O).
    + exact Hk.
  - intros s it st A Sm E N. unfold sb_new in N. destruct (k =? 0); [discriminate|]. injection N as <-.
    apply (stride_spec _ (lbsi_call Debug) (mem (VLBS s)) it).
    + intros s0 c o s'. apply lbsi_call_some.
    + intros cs reps s' O R. refine (lbs_history s it cs reps s' A _ E O R).
      apply small_pieces; [apply api_valid in A; apply A|exact Sm].
    + intros cs O. exact (lbs_returns s it cs A Sm E O).
    + exact Hk.
Qed.
Print Assumptions C56_lower_step_by_take.

(** Whatever a loop over an adaptor gives with overflow checks it gives without. *)
Theorem C56_release_agrees (T : Type) (PF : Platform) (OT : Ord T) (ST : Step T) (NU : Numbered T) (SL : StepLaws T)
  (n : Z) (w : list T) :
  0 <= n <= usize_max ->
  (forall (it : BoundedRangeIter T) st, sb_new it n = Ret st ->
   (drains (sb_next (bri_nth Debug)) st (Ret w) -> drains (sb_next (bri_nth Release)) st (Ret w)) /\
   (drains (sb_next (bri_nth_back Debug)) st (Ret w) -> drains (sb_next (bri_nth_back Release)) st (Ret w))) /\
  (forall (it : BoundedSetIter T) st, sb_new it n = Ret st ->
   (drains (sb_next (bsi_nth Debug)) st (Ret w) -> drains (sb_next (bsi_nth Release)) st (Ret w)) /\
   (drains (sb_next (bsi_nth_back Debug)) st (Ret w) -> drains (sb_next (bsi_nth_back Release)) st (Ret w))) /\
  (forall it : BoundedRangeIter T,
   (drains (sk_next (bri_next Debug) (bri_nth Debug)) (SK it n) (Ret w) -> drains (sk_next (bri_next Release) (bri_nth Release)) (SK it n) (Ret w)) /\
   (drains (sk_next (bri_next_back Debug) (bri_nth_back Debug)) (SK it n) (Ret w) ->
    drains (sk_next (bri_next_back Release) (bri_nth_back Release)) (SK it n) (Ret w))) /\
  (forall it : BoundedSetIter T,
   (drains (sk_next (bsi_next Debug) (bsi_nth Debug)) (SK it n) (Ret w) -> drains (sk_next (bsi_next Release) (bsi_nth Release)) (SK it n) (Ret w)) /\
   (drains (sk_next (bsi_next_back Debug) (bsi_nth_back Debug)) (SK it n) (Ret w) ->
    drains (sk_next (bsi_next_back Release) (bsi_nth_back Release)) (SK it n) (Ret w))).
Proof.
  intros Hn.
  assert (SBA : forall S (f g : S -> Z -> outcome (option T * S)),
    (forall s k x, 0 <= k <= usize_max -> f s k = Ret x -> g s k = Ret x) ->
    forall st v, 0 <= sb_step_minus_one st <= usize_max -> drains (sb_next f) st (Ret v) -> drains (sb_next g) st (Ret v)).
  { clear. intros S f g A st v B D. revert B. remember (Ret v) as o eqn:Eo. revert v Eo.
    induction D as [s s' E|s s' x o E D IH|s E]; intros v Eo B; [| |discriminate].
    - injection Eo as <-. unfold sb_next in E. inv_bind E. injection E as Q <-.
      apply (drains_done _ _ (SB (snd a) (sb_step_minus_one s) false)). unfold sb_next.
      rewrite (A _ _ a) by (exact E0 || (pose proof usize_max_ge; destruct (sb_first_take s); lia)). cbn [bind]. congruence.
    - destruct o as [v'| |]; try discriminate. injection Eo as <-.
      assert (Q : sb_next g s = Ret (Some x, s') /\ sb_step_minus_one s' = sb_step_minus_one s).
      { unfold sb_next in E. inv_bind E. injection E as Q <-. split; [|reflexivity]. unfold sb_next.
        rewrite (A _ _ a) by (exact E0 || (pose proof usize_max_ge; destruct (sb_first_take s); lia)). cbn [bind]. congruence. }
      destruct Q as [Q J]. apply (drains_item _ _ _ x (Ret v') Q). apply (IH v' eq_refl). rewrite J. exact B. }
  assert (SKA : forall S (f g : S -> outcome (option T * S)) (f' g' : S -> Z -> outcome (option T * S)),
    (forall s x, f s = Ret x -> g s = Ret x) -> (forall s k x, 0 <= k <= usize_max -> f' s k = Ret x -> g' s k = Ret x) ->
    forall st v, 0 <= sk_n st <= usize_max -> drains (sk_next f f') st (Ret v) -> drains (sk_next g g') st (Ret v)).
  { clear. intros S f g f' g' A A' st v B D.
    assert (One : forall s o s', 0 <= sk_n s <= usize_max -> sk_next f f' s = Ret (o, s') -> sk_next g g' s = Ret (o, s') /\ sk_n s' = 0).
    { intros s o s' B0 E. unfold sk_next in *. inv_bind E. injection E as Q <-. split; [|reflexivity].
      destruct (0 <? sk_n s); [rewrite (A' _ _ _ B0 E0)|rewrite (A _ _ E0)]; cbn [bind]; congruence. }
    revert B. remember (Ret v) as o eqn:Eo. revert v Eo.
    induction D as [s s' E|s s' x o E D IH|s E]; intros v Eo B; [| |discriminate].
    - injection Eo as <-. destruct (One _ _ _ B E) as [Q _]. eapply drains_done. exact Q.
    - destruct o as [v'| |]; try discriminate. injection Eo as <-. destruct (One _ _ _ B E) as [Q J].
      apply (drains_item _ _ _ x (Ret v') Q). apply (IH v' eq_refl). rewrite J. pose proof usize_max_ge. lia. }
  assert (J : forall S (it : S) st, sb_new it n = Ret st -> 0 <= sb_step_minus_one st <= usize_max).
  { intros S it st N. unfold sb_new in N. destruct (n =? 0) eqn:Z0; [discriminate|]. injection N as <-. cbn. lia. }
  repeat split.
  - apply SBA; [|exact (J _ _ _ H)]. intros s k x. apply nth_agree.
  - apply SBA; [|exact (J _ _ _ H)]. intros s k x. apply nth_back_agree.
  - apply SBA; [|exact (J _ _ _ H)]. intros s k x. apply bsi_nth_agree.
  - apply SBA; [|exact (J _ _ _ H)]. intros s k x. apply bsi_nth_back_agree.
  - apply SKA; [exact next_agree|intros s k x; apply nth_agree|exact Hn].
  - apply SKA; [exact next_back_agree|intros s k x; apply nth_back_agree|exact Hn].
  - apply SKA; [exact bsi_next_agree|intros s k x; apply bsi_nth_agree|exact Hn].
  - apply SKA; [exact bsi_next_back_agree|intros s k x; apply bsi_nth_back_agree|exact Hn].
Qed.
Print Assumptions C56_release_agrees.

(** Without overflow checks, exactly: [step_by(k)] walks modulo [2^bits] from the
    first element and stops at the first value beyond the end of the range; if
    it never meets one, it never stops.  The start of the range is forgotten. *)
Theorem C56_release_exact (PF : Platform) (ty : ity) (r : BoundedRange (mint ty)) (it : BoundedRangeIter (mint ty))
  (x : mint ty) (l : list (mint ty)) (k : Z) (st : StepBy (BoundedRangeIter (mint ty))) (o : outcome (list (mint ty))) :
  br_into_iter Debug r = Ret it -> 0 <= k <= usize_max -> sb_new it k = Ret st ->
  let same (e : mint ty) (z : Z) := mval e mod 2 ^ bits ty = z mod 2 ^ bits ty in
  (lists (in_range r) (x :: l) ->
   (drains (sb_next (bri_nth Release)) st o <-> exists w, o = Ret w /\
     (forall i e, nth_error w i = Some e -> same e (mval x + Z.of_nat i * k) /\ below (br_end r) e) /\
     (forall e, same e (mval x + Z.of_nat (length w) * k) -> ~ below (br_end r) e))) /\
  (lists (in_range r) (rev (x :: l)) ->
   (drains (sb_next (bri_nth_back Release)) st o <-> exists w, o = Ret w /\
     (forall i e, nth_error w i = Some e -> same e (mval x - Z.of_nat i * k) /\ above (br_start r) e) /\
     (forall e, same e (mval x - Z.of_nat (length w) * k) -> ~ above (br_start r) e))).
Proof.
  intros E Hk N same. unfold sb_new in N. destruct (k =? 0) eqn:Z0; [discriminate|]. injection N as <-.
  pose proof (into_iter_ends r it E) as En.
  assert (Hj : 0 <= k - 1 <= usize_max) by lia.
  assert (Kk : k - 1 + 1 = k) by lia.
  split; intros L.
  - pose proof (first_current r it x l E L) as Cx.
    assert (C : congr (bri_current it) (mval x)) by (rewrite Cx; reflexivity).
    assert (P : forall w, drains (sb_next (bri_nth Release)) (SB it (k - 1) true) (Ret w) <->
      (forall i e, nth_error w i = Some e -> same e (mval x + Z.of_nat i * k) /\ below (br_end r) e) /\
      (forall e, same e (mval x + Z.of_nat (length w) * k) -> ~ below (br_end r) e)).
    { intros w. rewrite (rel_stride (k - 1) Hj w it true (mval x) C). unfold congr. rewrite Kk, Z.add_0_r. split; intros [A B]; (split;
        [intros i e Ei; destruct (A i e Ei) as [S U]; split; [exact S|]|intros e S; specialize (B e S)]).
      - apply En. apply le_idx. exact U.
      - intros U. apply En in U. apply lt_idx in B. lia.
      - apply le_idx. apply En. exact U.
      - apply lt_idx. destruct (Z_le_gt_dec (idx e) (idx (bri_last_field it))) as [Q|Q]; [|lia]. exfalso. apply B, En. exact Q. }
    split.
    + intros D. destruct (never_panics_sb (bri_nth Release) (k - 1) Hj rel_nth (SB it (k - 1) true) o eq_refl D) as [w ->].
      exists w. split; [reflexivity|]. apply P. exact D.
    + intros (w & -> & Q). apply P. exact Q.
  - pose proof (last_current r it x l E L) as Cx.
    assert (C : congr (bri_last_field it) (mval x)) by (rewrite Cx; reflexivity).
    assert (P : forall w, drains (sb_next (bri_nth_back Release)) (SB it (k - 1) true) (Ret w) <->
      (forall i e, nth_error w i = Some e -> same e (mval x - Z.of_nat i * k) /\ above (br_start r) e) /\
      (forall e, same e (mval x - Z.of_nat (length w) * k) -> ~ above (br_start r) e)).
    { intros w. rewrite (rel_stride_back (k - 1) Hj w it true (mval x) C). unfold congr. rewrite Kk, Z.sub_0_r. split; intros [A B]; (split;
        [intros i e Ei; destruct (A i e Ei) as [S U]; split; [exact S|]|intros e S; specialize (B e S)]).
      - apply En. apply le_idx. exact U.
      - intros U. apply En in U. apply lt_idx in B. lia.
      - apply le_idx. apply En. exact U.
      - apply lt_idx. destruct (Z_le_gt_dec (idx (bri_current it)) (idx e)) as [Q|Q]; [|lia]. exfalso. apply B, En. exact Q. }
    split.
    + intros D. destruct (never_panics_sb (bri_nth_back Release) (k - 1) Hj rel_nth_back (SB it (k - 1) true) o eq_refl D) as [w ->].
      exists w. split; [reflexivity|]. apply P. exact D.
    + intros (w & -> & Q). apply P. exact Q.
Qed.
Print Assumptions C56_release_exact.

#[local] Existing Instance pf64.
(** [(0u8..200).step_by(128)] panics with overflow checks after 0 and 128, and
    never ends without; [(0u8..250).step_by(100)] then gives 44, which is not
    the 4th hundred; [(250u8..253).skip(10)] panics, or begins with 4. *)
Theorem C56_refuted :
  (exists (r : BoundedRange (@mint pf64 U8)) it st, br_into_iter Debug r = Ret it /\ sb_new it 128 = Ret st /\
     drains (sb_next (bri_nth Debug)) st Panic /\
     (forall o, ~ drains (sb_next (bri_nth Release)) st o) /\
     in_range r (u8 128) /\ ~ greatest (u8 128) /\ forall t, in_range r t -> mval t < 200) /\
  (exists (r : BoundedRange (@mint pf64 U8)) it st, br_into_iter Debug r = Ret it /\ sb_new it 100 = Ret st /\
     drains (tk_next (sb_next (bri_nth Release))) (TK st 4) (Ret [u8 0; u8 100; u8 200; u8 44])) /\
  (exists (r : BoundedRange (@mint pf64 U8)) it x w, br_into_iter Debug r = Ret it /\
     drains (sk_next (bri_next Debug) (bri_nth Debug)) (SK it 10) Panic /\
     drains (sk_next (bri_next Release) (bri_nth Release)) (SK it 10) (Ret (x :: w)) /\ ~ in_range r x).
Proof.
  split; [|split].
  - exists (excl (u8 0) (u8 200)), (BRI (u8 0) (u8 199)), (SB (BRI (u8 0) (u8 199)) 127 true).
    assert (E : br_into_iter Debug (excl (u8 0) (u8 200)) = Ret (BRI (u8 0) (u8 199))) by (vm_compute; reflexivity).
    split; [exact E|]. split; [reflexivity|]. split; [apply (drain_drains 5); vm_compute; reflexivity|].
    assert (R : forall t : @mint pf64 U8, in_range (excl (u8 0) (u8 200)) t <-> 0 <= mval t < 200).
    { intros t. unfold in_range, excl. cbn [br_start br_end above below]. rewrite (le_idx (SL := StepLawsMint (PF := pf64) U8)), (lt_idx (SL := StepLawsMint (PF := pf64) U8)).
      change (idx t) with (mval t). change (idx (u8 0)) with 0. change (idx (u8 200)) with 200. reflexivity. }
    split.
    + intros o D.
      destruct (range_listing (T := @mint pf64 U8) (excl (u8 0) (u8 200))) as [l L].
      pose proof (proj2 (into_iter_holds _ _ l E) L) as H.
      destruct (span_hd _ _ _ (u8 0) H) as [l' ->]; [vm_compute; discriminate|reflexivity|].
      destruct (proj1 (C56_release_exact pf64 U8 (excl (u8 0) (u8 200)) (BRI (u8 0) (u8 199)) (u8 0) l' 128 _ o E
        ltac:(vm_compute; split; discriminate) eq_refl) L) as [F _].
      destruct (F D) as (w & -> & _ & B). change (mval (u8 0)) with 0 in B.
      assert (Q : exists e : @mint pf64 U8, mval e mod 2 ^ bits U8 = (0 + Z.of_nat (length w) * 128) mod 2 ^ bits U8 /\ mval e < 200).
      { change (2 ^ bits U8) with 256.
        destruct (Z.Even_or_Odd (Z.of_nat (length w))) as [[q Eq]|[q Eq]]; rewrite Eq.
        - exists (u8 0). split; [|vm_compute; reflexivity]. change (mval (u8 0)) with 0.
          replace (0 + 2 * q * 128) with (q * 256) by lia. rewrite Z_mod_mult. reflexivity.
        - exists (u8 128). split; [|vm_compute; reflexivity]. change (mval (u8 128)) with 128.
          replace (0 + (2 * q + 1) * 128) with (128 + q * 256) by lia. rewrite Z_mod_plus_full. reflexivity. }
      destruct Q as (e & Ce & Le). apply (B e Ce). unfold excl. cbn [br_end below]. apply lt_idx. exact Le.
    + split; [apply R; vm_compute; split; [discriminate|reflexivity]|]. split; [|intros t I; exact (proj2 (proj1 (R t) I))].
      intros G. specialize (G (u8 255)). vm_compute in G. apply G. reflexivity.
  - exists (excl (u8 0) (u8 250)), (BRI (u8 0) (u8 249)), (SB (BRI (u8 0) (u8 249)) 99 true).
    split; [vm_compute; reflexivity|]. split; [reflexivity|]. apply (drain_drains 6). vm_compute. reflexivity.
  - assert (exists w, drains (sk_next (bri_next Release) (bri_nth Release)) (SK (BRI (u8 250) (u8 252)) 10) (Ret (u8 4 :: w))) as [w D].
    { assert (N : sk_next (bri_next Release) (bri_nth Release) (SK (BRI (u8 250) (u8 252)) 10)
        = Ret (Some (u8 4), SK (BRI (u8 5) (u8 252)) 0)) by (vm_compute; reflexivity).
      destruct (holds_exists (T := @mint pf64 U8) (BRI (u8 5) (u8 252))) as [l H].
      exists l. apply (drains_item _ _ _ (u8 4) (Ret l) N). apply skip_rest.
      apply (range_release (BRI (u8 5) (u8 252)) l (Ret l) H). split; [reflexivity|].
      intros t I G. apply (span_in _ _ _ t H) in I. specialize (G (u8 255)). apply le_idx in G.
      change (idx (u8 255)) with 255 in G. cbn [bri_last_field] in I. change (idx (u8 252)) with 252 in I. lia. }
    exists (incl (u8 250) (u8 252)), (BRI (u8 250) (u8 252)), (u8 4), w.
    split; [vm_compute; reflexivity|]. split; [apply (drain_drains 5); vm_compute; reflexivity|]. split; [exact D|].
    intros [A _]. vm_compute in A. apply A. reflexivity.
Qed.
Print Assumptions C56_refuted.
Example C56_ex :
  drains (sb_next (bri_nth Debug)) (SB (BRI (u8 3) (u8 20)) 6 true) (Ret [u8 3; u8 10; u8 17]) /\
  drains (sb_next (bri_nth_back Debug)) (SB (BRI (u8 13) (u8 20)) 6 true) (Ret [u8 20; u8 13]) /\
  drains (sb_next (bsi_nth Debug)) (SB (BSI [BRI (u8 1) (u8 3); BRI (u8 250) (u8 254)]) 99 true) (Ret [u8 1]) /\
  drains (sk_next (bsi_next Debug) (bsi_nth Debug)) (SK (BSI [BRI (u8 1) (u8 3); BRI (u8 6) (u8 7)]) 2) (Ret [u8 3; u8 6; u8 7]) /\
  drains (tk_next (bri_next Debug)) (TK (BRI (u8 252) (u8 255)) 3) (Ret [u8 252; u8 253; u8 254]) /\
  drains (tk_next (sb_next (lbri_nth Debug))) (TK (SB (LBRI (u8 5)) 99 true) 3) (Ret [u8 5; u8 105; u8 205]) /\
  strided 7 [u8 3; u8 4; u8 5; u8 6; u8 7; u8 8; u8 9; u8 10; u8 11] [u8 3; u8 10].
Proof.
  repeat split; try (apply (drain_drains 10); vm_compute; reflexivity).
  intros [|[|[|i]]]; cbn; try reflexivity; destruct i; reflexivity.
Qed.
