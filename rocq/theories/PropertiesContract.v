(** Property theorems C66: iterating over any type whose [Step] meets its
    documentation, whatever [forward] and [backward] do on overflow
    ([StepContract], SpecContract.v), in every build. *)
From Coq Require Import Lia ZifyBool Sorted.
From Verif Require Import Base ModelBound ModelRanges ModelSets ModelAlgebra ModelValue ModelStep ModelIter
  Spec Reach SpecStep SpecIter SpecContract StepProofs StepLemmas InstancesStep
  IterProofs IterProofs2 IterProofs3 IterProofs4 IterLemmas PropertiesIter ContractProofs.
Open Scope Z_scope.

(** The documented contract asks less than [StepLaws]. *)
Theorem C66_weaker (T : Type) (PF : Platform) (OT : Ord T) (ST : Step T) (NU : Numbered T) :
  StepLaws T -> StepContract T.
Proof.
  intros SL. constructor; try apply SL.
  - intros [|] a b n Hn E; [rewrite forward_debug, E by exact Hn; reflexivity|exact (forward_release a b n Hn E)].
  - intros [|] a b n Hn E; [rewrite backward_debug, E by exact Hn; reflexivity|exact (backward_release a b n Hn E)].
Qed.
Print Assumptions C66_weaker.

(** Ranges: the loops, and histories away from the extreme values. *)
Theorem C66_ranges (T : Type) (PF : Platform) (OT : Ord T) (ST : Step T) (NU : Numbered T) (SC : StepContract T)
  (m : mode) (r : BoundedRange T) (l : list T) :
  lists (in_range r) l ->
  (forall t, br_start r = LB (Excluded t) -> ~ greatest t) -> (forall t, br_end r = UB (Excluded t) -> ~ least t) ->
  exists it, br_into_iter m r = Ret it /\
    ((forall t, in_range r t -> ~ greatest t) -> drains (bri_next m) it (Ret l)) /\
    ((forall t, in_range r t -> ~ least t) -> drains (bri_next_back m) it (Ret (rev l))) /\
    (forall cs, (forall t, in_range r t -> ~ greatest t /\ ~ least t) -> Z.of_nat (length l) <= usize_max ->
       Forall call_ok cs -> within l cs -> exists it', run (bri_call m) it cs = Ret (fst (deque_run l cs), it')).
Proof.
  intros L Hs He.
  assert (E : exists it, br_into_iter (ST := strict) Debug r = Ret it).
  { destruct (C32_range_panics_exact T PF OT strict NU strict_laws r) as [P D].
    destruct (br_into_iter (ST := strict) Debug r) as [it| |]; [eauto| |congruence].
    destruct (proj1 P eq_refl) as [(t & A & B)|(t & A & B)]; [destruct (Hs t A B)|destruct (He t A B)]. }
  destruct E as [it E]. exists it. split; [exact (c_into_iter m _ _ E)|]. split; [|split].
  - intros G. apply (drains_agree' _ _ (c_next m)).
    apply (proj1 (C23_collect_exact T PF OT strict NU strict_laws r it l E)). auto.
  - intros G. apply (drains_agree' _ _ (c_next_back m)).
    apply (proj1 (C23_collect_reversed_exact T PF OT strict NU strict_laws r it (rev l) E)). rewrite rev_involutive. auto.
  - intros cs G S O W.
    destruct (C25_no_panic_partial T PF OT strict NU strict_laws r it l cs E L G S W) as (reps & it' & R).
    exists it'. rewrite <- (C24_histories_partial T PF OT strict NU strict_laws r it it' l cs reps E L O (fun _ => S) R).
    exact (run_agree _ _ call_ok (c_call m) cs it _ O R).
Qed.
Print Assumptions C66_ranges.

(** Sets of the public API. *)
Theorem C66_sets (T : Type) (PF : Platform) (OT : Ord T) (ST : Step T) (NU : Numbered T) (SC : StepContract T)
  (m : mode) (s : BoundedSet T) (l : list T) :
  api (VBS s) -> small (mem (VBS s)) -> lists (mem (VBS s)) l ->
  exists it, bs_into_iter m s = Ret it /\
    ((forall t, mem (VBS s) t -> ~ greatest t) -> drains (bsi_next m) it (Ret l)) /\
    ((forall t, mem (VBS s) t -> ~ least t) -> drains (bsi_next_back m) it (Ret (rev l))) /\
    (forall cs, (forall t, mem (VBS s) t -> ~ greatest t /\ ~ least t) ->
       Forall call_ok cs -> exists it', run (bsi_call m) it cs = Ret (fst (deque_run l cs), it')).
Proof.
  intros A S L. pose proof strict_laws as SL.
  destruct (C32_set_returns T PF OT strict NU SL s A) as (it & E & _).
  assert (P : forall r, In r (bs_ranges s) -> small (in_range r))
    by (apply (small_pieces (ST := strict)); [apply (api_valid (ST := strict) _ A)|exact S]).
  exists it. split; [exact (c_bs_into_iter m _ _ E)|]. split; [|split].
  - intros G. apply (drains_agree' _ _ (c_bsi_next m)).
    apply (proj1 (C29_collect_set_exact T PF OT strict NU SL s it l A P E)). auto.
  - intros G. apply (drains_agree' _ _ (c_bsi_next_back m)).
    apply (proj1 (C29_collect_set_reversed_exact T PF OT strict NU SL s it (rev l) A P E)). rewrite rev_involutive. auto.
  - intros cs G O.
    destruct (C30_set_histories_return T PF OT strict NU SL s cs A S G O) as (it0 & reps & it' & E' & R).
    rewrite E in E'. injection E' as <-.
    exists it'. rewrite <- (C30_set_histories T PF OT strict NU SL s it it' l cs reps A S E L O R).
    exact (run_agree _ _ call_ok (c_bsi_call m) cs it _ O R).
Qed.
Print Assumptions C66_sets.

(** Lower-bounded ranges and sets, as long as an element is left after those passed. *)
Theorem C66_lower_bounded (T : Type) (PF : Platform) (OT : Ord T) (ST : Step T) (NU : Numbered T) (SC : StepContract T)
  (m : mode) (cs : list up_call) :
  Forall up_call_ok cs ->
  (forall (r : LowerBoundedRange T) e, ranked (mem (VLBR r)) e (passed cs) ->
     exists it reps it', lbr_into_iter m r = Ret it /\ run (lbri_call m) it cs = Ret (reps, it') /\
       Forall2 (fun o p => exists e, o = Some e /\ ranked (mem (VLBR r)) e p) reps (positions 0 cs)) /\
  (forall (s : LowerBoundedSet T) e, api (VLBS s) -> small (in_pieces (bs_ranges (lbs_ranges s))) ->
     (forall t, lbr_start (lbs_lbr s) = LB (Excluded t) -> ~ greatest t) ->
     ranked (mem (VLBS s)) e (passed cs) ->
     exists it reps it', lbs_into_iter m s = Ret it /\ run (lbsi_call m) it cs = Ret (reps, it') /\
       Forall2 (fun o p => exists e, o = Some e /\ ranked (mem (VLBS s)) e p) reps (positions 0 cs)).
Proof.
  intros O. pose proof strict_laws as SL.
  destruct (C31_returns_exact T PF OT strict NU SL cs O) as [Rr Rs].
  destruct (C32_lower_bounded_panics_exact T PF OT strict NU SL) as [Pr Ps]. split.
  - intros r e K.
    assert (E : exists it, lbr_into_iter (ST := strict) Debug r = Ret it).
    { pose proof (Pr r) as P. unfold lbr_into_iter in *. destruct (lbr_start r) as [[t|t]] eqn:Et; [|cbn; eauto].
      cbn in *. unfold forward_default, unwrap in *. destruct (forward_checked t 1); cbn in *; [eauto|].
      destruct (proj1 P eq_refl) as (u & Eu & G). injection Eu as <-. destruct K as [K _]. cbn in K. rewrite Et in K. cbn in K.
      apply (lt_idx (SL := SL)) in K. specialize (G e). apply (le_idx (SL := SL)) in G. lia. }
    destruct E as [it E]. destruct (proj2 (Rr r it E)) as [[reps it'] R]; [eauto|].
    exists it, reps, it'. split; [exact (c_lbr_into_iter m _ _ E)|].
    split; [exact (run_agree _ _ up_call_ok (c_lbri_call m) cs it _ O R)|].
    exact (C31_range_ascends_partial T PF OT strict NU SL r it it' cs reps E O R).
  - intros s e A S G K.
    assert (E : exists it, lbs_into_iter (ST := strict) Debug s = Ret it).
    { pose proof (Ps s A) as P. pose proof (Pr (lbs_lbr s)) as P'. unfold lbs_into_iter in *.
      assert (A' : valid (VBS (lbs_ranges s))) by (apply (api_valid (ST := strict)) in A; apply A).
      destruct (bs_into_iter_total (ST := strict) (lbs_ranges s) A') as [bi Eb]. rewrite Eb in *. cbn [bind] in *.
      destruct (lbr_into_iter (ST := strict) Debug (lbs_lbr s)) as [li| |] eqn:El; cbn [bind] in *; [eauto| |].
      - destruct (proj1 P eq_refl) as (t & Et & Gt). destruct (G t Et Gt).
      - exfalso. unfold lbr_into_iter in El. destruct (lbr_start (lbs_lbr s)) as [[t|t]]; cbn in El; [|discriminate].
        unfold forward_default, unwrap in El. destruct (forward_checked t 1); discriminate. }
    destruct E as [it E]. destruct (proj2 (Rs s it A S E)) as [[reps it'] R]; [eauto|].
    exists it, reps, it'. split; [exact (c_lbs_into_iter m _ _ E)|].
    split; [exact (run_agree _ _ up_call_ok (c_lbsi_call m) cs it _ O R)|].
    apply (C31_set_ascends_partial T PF OT strict NU SL s it it' cs reps A); auto.
    intros r I l Ll. apply (small_pieces (ST := strict) (bs_ranges (lbs_ranges s))) with (r := r); auto.
    apply (api_valid (ST := strict)) in A. apply A.
Qed.
Print Assumptions C66_lower_bounded.

(** And no further: whatever the overflow does, no loop over a range containing
    the greatest value ends otherwise than by a panic; nor over a set, when all
    ranges of the type fit [usize].  Likewise backwards and the least value. *)
Theorem C66_never_ends (T : Type) (PF : Platform) (OT : Ord T) (ST : Step T) (NU : Numbered T) (SC : StepContract T)
  (m : mode) (g : T) (l : list T) :
  (greatest g -> forall (r : BoundedRange T) it, in_range r g -> br_into_iter m r = Ret it -> ~ drains (bri_next m) it (Ret l)) /\
  (least g -> forall (r : BoundedRange T) it, in_range r g -> br_into_iter m r = Ret it -> ~ drains (bri_next_back m) it (Ret l)) /\
  ((forall r : BoundedRange T, small (in_range r)) ->
   (greatest g -> forall (s : BoundedSet T) it, mem (VBS s) g -> bs_into_iter m s = Ret it -> ~ drains (bsi_next m) it (Ret l)) /\
   (least g -> forall (s : BoundedSet T) it, mem (VBS s) g -> bs_into_iter m s = Ret it -> ~ drains (bsi_next_back m) it (Ret l))).
Proof.
  assert (Sp : forall (rs : list (BoundedRange T)) its, Forall2 (fun r i => br_into_iter m r = Ret i) rs its ->
    in_pieces rs g -> exists i1 i i2 r, its = i1 ++ i :: i2 /\ in_range r g /\ br_into_iter m r = Ret i).
  { intros rs its F. induction F as [|r i rs its E F IH]; intros (r' & I & R).
    - destruct I.
    - destruct I as [<-|I]; [exists [], i, its, r; auto|].
      destruct IH as (i1 & j & i2 & q & -> & Q); [exists r'; auto|]. exists (i :: i1), j, i2, q. auto. }
  split; [|split].
  - intros G r [c e] I E. pose proof (ends_at_greatest m _ _ _ E I G) as K. cbn in K. subst e. exact (endless m g c l G).
  - intros G r [c e] I E. pose proof (starts_at_least m _ _ _ E I G) as K. cbn in K. subst c. exact (endless_back m g e l G).
  - intros S.
    assert (F : forall a b : T, idx b - idx a < usize_max).
    { intros a b. destruct (holds_exists (SL := strict_laws) (BRI a b)) as [k H].
      pose proof (span_length _ _ _ H) as N. cbn in N.
      assert (K : lists (in_range (incl a b)) k) by (apply (into_iter_holds (SL := strict_laws) (incl a b) (BRI a b)); auto).
      specialize (S _ k K). pose proof (one_ok (PF := PF)). lia. }
    split; intros G s it M E; unfold bs_into_iter in E; inv_bind E; injection E as <-; apply mapM_Forall2 in E0;
      destruct (Sp _ _ E0 M) as (i1 & i & i2 & r & -> & I & Ei).
    + apply (endless_set m F). rewrite (ends_at_greatest m _ _ _ Ei I G). exact G.
    + apply (endless_set_back m F). rewrite (starts_at_least m _ _ _ Ei I G). exact G.
Qed.
Print Assumptions C66_never_ends.

(** [u8] stepping with saturation in every build. *)
Definition sat8 : Step (@mint pf64 U8) := {|
  steps_between := steps_between;
  forward_checked := forward_checked;
  backward_checked := backward_checked;
  forward := fun _ a n => Ret (match forward_checked a n with Some b => b | None => u8 255 end);
  backward := fun _ a n => Ret (match backward_checked a n with Some b => b | None => u8 0 end)
|}.
Example C66_ex :
  StepContract (@mint pf64 U8) (PF := pf64) (ST := sat8) /\
  run (bri_call (PF := pf64) (ST := sat8) Debug) (BRI (u8 10) (u8 14)) [Next; NthBack 1; Len; Next; Nth 1; Next]
  = Ret ([Item (Some (u8 10)); Item (Some (u8 13)); Count 2; Item (Some (u8 11)); Item None; Item None], BRI (u8 13) (u8 12)) /\
  bri_next (ST := sat8) Debug (BRI (u8 255) (u8 255)) = Ret (Some (u8 255), BRI (u8 255) (u8 255)) /\
  bri_next Debug (BRI (u8 255) (u8 255)) = Panic.
Proof.
  split; [|repeat split; vm_compute; reflexivity].
  pose proof (C66_weaker _ pf64 _ _ _ (StepLawsMint (PF := pf64) U8)) as C.
  constructor; try apply C; intros m a b n _ E; cbn in E |- *; rewrite E; reflexivity.
Qed.
