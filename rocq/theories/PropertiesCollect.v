(** Properties of collecting into a [Vec]. *)
From Coq Require Import Lia ZifyBool.
From Verif Require Import Base ModelBound ModelRanges ModelSets ModelValue ModelStep ModelIter ModelAdapt ModelCollect Reach
  Spec SpecStep SpecIter SpecAdapt SpecCollect StepProofs StepLemmas InstancesStep IterProofs IterProofs2 IterProofs3 IterProofs4 IterLemmas IterBig
  IterRelease CollectProofs CollectProofs2 CollectProofs3 PropertiesIter PropertiesAdapt.
Open Scope Z_scope.

(** ** C60 *)
(** For any iterator at all and any hint, however wrong: what is collected is
    what the loop over [next] sees, and it fits in memory. *)
Theorem C60_same_as_loop (PF : Platform) (A S : Type) (next : S -> outcome (option A * S)) (hint : S -> outcome (Z * option Z))
  (sz : Z) (s : S) (l : list A) :
  0 < sz -> collects next hint sz s (Ret l) -> drains next s (Ret l) /\ fits_memory sz l.
Proof. intros P H. split; [exact (collects_drains next hint sz s l H)|exact (collects_memory next hint sz P s l H)]. Qed.
Print Assumptions C60_same_as_loop.
(** Collecting ends, even where the loop does not. *)
Theorem C60_always_ends (PF : Platform) (A S : Type) (next : S -> outcome (option A * S)) (hint : S -> outcome (Z * option Z))
  (sz : Z) :
  0 < sz -> (forall s, next s <> Diverge) -> (forall s, hint s <> Diverge) ->
  forall s, exists o, (o = Panic \/ exists l, o = Ret l) /\ forall o', collects next hint sz s o' <-> o' = o.
Proof.
  intros P N H s. destruct (collects_total next hint sz P N H s) as (o & C & D). exists o. split.
  - destruct o; eauto. congruence.
  - intros o'. split; [intros C'; exact (collects_det next hint sz s _ _ C' C)|intros ->; exact C].
Qed.
Print Assumptions C60_always_ends.

(** If the hints never promise more than is left, however little they promise,
    a vector at most half as long as memory allows is always collected. *)
Theorem C60_truthful_hint (PF : Platform) (A S : Type) (next : S -> outcome (option A * S)) (hint : S -> outcome (Z * option Z))
  (sz : Z) (s : S) (l : list A) :
  0 < sz ->
  (forall s k, drains next s (Ret k) -> exists lo u, hint s = Ret (lo, u) /\ 0 <= lo <= Z.of_nat (length k)) ->
  drains next s (Ret l) -> fits_memory (2 * sz) l -> collects next hint sz s (Ret l).
Proof.
  intros P Tr D F. apply (collects_truthful next hint sz P Tr s l D). unfold fits_memory in F. unfold isize_max. lia.
Qed.
Print Assumptions C60_truthful_hint.

(** A bounded range: its elements in order, unless they include the greatest
    value or do not fit in memory; then a panic. *)
Theorem C60_range_exact (T : Type) (PF : Platform) (OT : Ord T) (ST : Step T) (NU : Numbered T) (SL : StepLaws T)
  (sz : Z) (r : BoundedRange T) (it : BoundedRangeIter T) (l : list T) (o : outcome (list T)) :
  0 < sz -> br_into_iter Debug r = Ret it -> lists (in_range r) l ->
  let fine := (forall t, in_range r t -> ~ greatest t) /\ fits_memory sz l in
  let fine_back := (forall t, in_range r t -> ~ least t) /\ fits_memory sz l in
  (collects (bri_next Debug) (bri_size_hint Debug) sz it o <-> (o = Ret l /\ fine) \/ (o = Panic /\ ~ fine)) /\
  (collects (bri_next_back Debug) (bri_size_hint Debug) sz it o <-> (o = Ret (rev l) /\ fine_back) \/ (o = Panic /\ ~ fine_back)).
Proof.
  intros P E L fine fine_back. pose proof (proj2 (into_iter_holds r it l E) L) as H.
  assert (H' : holds it (rev (rev l))) by (rewrite rev_involutive; exact H). destruct L as [_ I].
  rewrite (collect_forward sz it l P H), (collect_backward sz it (rev l) P H').
  assert (Q1 : ((forall t, In t l -> ~ greatest t) /\ fits_memory sz l) <-> fine).
  { unfold fine. split; intros [G F]; (split; [|exact F]); intros t J; apply G, I, J. }
  assert (Q2 : ((forall t, In t (rev l) -> ~ least t) /\ fits_memory sz (rev l)) <-> fine_back).
  { unfold fine_back, fits_memory. rewrite rev_length. split; intros [G F]; (split; [|exact F]); intros t J; apply G.
    - apply -> in_rev. apply I. exact J.
    - apply I. apply in_rev. exact J. }
  rewrite Q1, Q2. split; reflexivity.
Qed.
Print Assumptions C60_range_exact.
(** The same without overflow checks, where the loop itself need not end. *)
Theorem C60_range_release (PF : Platform) (ty : ity)
  (sz : Z) (r : BoundedRange (mint ty)) (it : BoundedRangeIter (mint ty)) (o : outcome (list (mint ty))) :
  0 < sz -> br_into_iter Debug r = Ret it ->
  (collects (bri_next Release) (bri_size_hint Release) sz it o <-> collects (bri_next Debug) (bri_size_hint Debug) sz it o) /\
  (collects (bri_next_back Release) (bri_size_hint Release) sz it o <-> collects (bri_next_back Debug) (bri_size_hint Debug) sz it o).
Proof.
  intros P E. destruct (holds_exists it) as [l H]. assert (H' : holds it (rev (rev l))) by (rewrite rev_involutive; exact H).
  rewrite (collect_forward sz it l P H), (collect_backward sz it (rev l) P H'), (release_forward sz it l P H),
    (release_backward sz it (rev l) P H'). split; reflexivity.
Qed.
Print Assumptions C60_range_release.

(** A bounded set of pieces that fit [usize]. *)
Theorem C60_set_exact (T : Type) (PF : Platform) (OT : Ord T) (ST : Step T) (NU : Numbered T) (SL : StepLaws T)
  (sz : Z) (s : BoundedSet T) (it : BoundedSetIter T) (l : list T) (o : outcome (list T)) :
  0 < sz -> api (VBS s) -> (forall r, In r (bs_ranges s) -> small (in_range r)) -> bs_into_iter Debug s = Ret it -> lists (mem (VBS s)) l ->
  let fine := (forall t, mem (VBS s) t -> ~ greatest t) /\ fits_memory sz l in
  let fine_back := (forall t, mem (VBS s) t -> ~ least t) /\ fits_memory sz l in
  (collects (bsi_next Debug) (bsi_size_hint Debug) sz it o <-> (o = Ret l /\ fine) \/ (o = Panic /\ ~ fine)) /\
  (collects (bsi_next_back Debug) (bsi_size_hint Debug) sz it o <-> (o = Ret (rev l) /\ fine_back) \/ (o = Panic /\ ~ fine_back)).
Proof.
  intros P A S E L fine fine_back. destruct (bs_into_iter_holds s (api_valid _ A) S) as (it0 & l0 & E0 & H & L0).
  rewrite E in E0. injection E0 as <-. rewrite <- (lists_unique _ _ _ L L0) in H. clear l0 L0.
  assert (H' : holds_set it (rev (rev l))) by (rewrite rev_involutive; exact H). destruct L as [_ I].
  rewrite (set_collect_forward sz it l P H), (set_collect_backward sz it (rev l) P H').
  assert (Q1 : ((forall t, In t l -> ~ greatest t) /\ fits_memory sz l) <-> fine).
  { unfold fine. split; intros [G F]; (split; [|exact F]); intros t J; apply G, I, J. }
  assert (Q2 : ((forall t, In t (rev l) -> ~ least t) /\ fits_memory sz (rev l)) <-> fine_back).
  { unfold fine_back, fits_memory. rewrite rev_length. split; intros [G F]; (split; [|exact F]); intros t J; apply G.
    - apply -> in_rev. apply I. exact J.
    - apply I. apply in_rev. exact J. }
  rewrite Q1, Q2. split; reflexivity.
Qed.
Print Assumptions C60_set_exact.
(** Pieces of other sizes, short of exactly [usize::MAX + 1] elements: those too
    long for [usize] are passed over, as in the loop (C29). *)
Theorem C60_set_visible (T : Type) (PF : Platform) (OT : Ord T) (ST : Step T) (NU : Numbered T) (SL : StepLaws T)
  (sz : Z) (s : BoundedSet T) (it : BoundedSetIter T) (l : list T) (o : outcome (list T)) :
  0 < sz -> api (VBS s) -> (forall r, In r (bs_ranges s) -> ~ brimful (in_range r)) -> bs_into_iter Debug s = Ret it ->
  lists (in_small_pieces (bs_ranges s)) l ->
  let fine := (forall t, In t l -> ~ greatest t) /\ fits_memory sz l in
  let fine_back := (forall t, In t l -> ~ least t) /\ fits_memory sz l in
  (collects (bsi_next Debug) (bsi_size_hint Debug) sz it o <-> (o = Ret l /\ fine) \/ (o = Panic /\ ~ fine)) /\
  (collects (bsi_next_back Debug) (bsi_size_hint Debug) sz it o <-> (o = Ret (rev l) /\ fine_back) \/ (o = Panic /\ ~ fine_back)).
Proof.
  intros P A S E L fine fine_back. destruct (bs_into_iter_shows s (api_valid _ A) S) as (it0 & l0 & E0 & H & L0).
  rewrite E in E0. injection E0 as <-. rewrite <- (lists_unique _ _ _ L L0) in H. clear l0 L0.
  assert (H' : holds_set it (rev (rev l))) by (rewrite rev_involutive; exact H).
  rewrite (set_collect_forward sz it l P H), (set_collect_backward sz it (rev l) P H').
  assert (Q2 : ((forall t, In t (rev l) -> ~ least t) /\ fits_memory sz (rev l)) <-> fine_back).
  { unfold fine_back, fits_memory. rewrite rev_length. split; intros [G F]; (split; [|exact F]); intros t J; apply G.
    - apply -> in_rev. exact J.
    - apply in_rev. exact J. }
  rewrite Q2. split; reflexivity.
Qed.
Print Assumptions C60_set_visible.

(** Without overflow checks collecting a set, from any state of its iterator,
    returns what the loop sees ([C29_release_narrow], [C29_release_wide]) if
    the loop ends and memory suffices, and panics otherwise. *)
Theorem C60_set_release (PF : Platform) (ty : ity) (sz : Z) (it : BoundedSetIter (mint ty)) :
  0 < sz ->
  (exists o, (o = Panic \/ exists l, o = Ret l) /\ forall o', collects (bsi_next Release) (bsi_size_hint Release) sz it o' <-> o' = o) /\
  (forall l, collects (bsi_next Release) (bsi_size_hint Release) sz it (Ret l) <->
     drains (bsi_next Release) it (Ret l) /\ fits_memory sz l) /\
  (exists o, (o = Panic \/ exists l, o = Ret l) /\ forall o', collects (bsi_next_back Release) (bsi_size_hint Release) sz it o' <-> o' = o) /\
  (forall l, collects (bsi_next_back Release) (bsi_size_hint Release) sz it (Ret l) <->
     drains (bsi_next_back Release) it (Ret l) /\ fits_memory sz l).
Proof.
  intros P. destruct (release_set_ends sz it P) as [(o1 & C1 & N1) (o2 & C2 & N2)].
  split; [|split; [|split]].
  - exists o1. split; [destruct o1; eauto; congruence|]. intros o'. split; [intros C; exact (collects_det _ _ _ _ _ _ C C1)|intros ->; exact C1].
  - intros l. exact (release_set_forward sz it l P).
  - exists o2. split; [destruct o2; eauto; congruence|]. intros o'. split; [intros C; exact (collects_det _ _ _ _ _ _ C C2)|intros ->; exact C2].
  - intros l. exact (release_set_backward sz it l P).
Qed.
Print Assumptions C60_set_release.

(** Lower-bounded iterators announce [usize::MAX] elements: collecting one
    panics at the first element, in every build and every state. *)
Theorem C60_lower_bounded_panics (T : Type) (PF : Platform) (OT : Ord T) (ST : Step T) (m : mode) (sz : Z) (o : outcome (list T)) :
  0 < sz ->
  (forall it : LowerBoundedRangeIter T, collects (lbri_next m) (fun i => Ret (lbri_size_hint i)) sz it o -> o = Panic) /\
  (forall it : LowerBoundedSetIter T, collects (lbsi_next m) (fun i => Ret (lbsi_size_hint i)) sz it o -> o = Panic).
Proof.
  intros P. split; intros it; apply collects_huge; try exact P; try (intros s; eexists; reflexivity).
  - intros x it' E. exact (lbri_call_some m it UpNext x it' E).
  - intros x it' E. exact (lbsi_call_some m it UpNext x it' E).
Qed.
Print Assumptions C60_lower_bounded_panics.
(** And the panic does come, even from a state a thousand elements from the end. *)
Theorem C60_lower_bounded_outcome (PF : Platform) (ty : ity) (m : mode) (sz : Z) (o : outcome (list (mint ty))) :
  0 < sz ->
  (forall it : LowerBoundedRangeIter (mint ty), collects (lbri_next m) (fun i => Ret (lbri_size_hint i)) sz it o <-> o = Panic) /\
  (forall it : LowerBoundedSetIter (mint ty), collects (lbsi_next m) (fun i => Ret (lbsi_size_hint i)) sz it o <-> o = Panic).
Proof.
  intros P.
  assert (Fw : forall x : mint ty, forward m x 1 <> Diverge).
  { intros x. destruct m; [|destruct (rel_fwd x 1 one_ok) as [y ->]; discriminate].
    destruct (fwd_cases x 1 one_ok) as [(b & -> & _)|[-> _]]; discriminate. }
  assert (N1 : forall it : LowerBoundedRangeIter (mint ty), lbri_next m it <> Diverge).
  { intros it. unfold lbri_next. pose proof (Fw (lbri_current it)) as F. destruct (forward m (lbri_current it) 1); cbn [bind]; congruence. }
  assert (N2 : forall it : LowerBoundedSetIter (mint ty), lbsi_next m it <> Diverge).
  { intros it. unfold lbsi_next.
    assert (B : bsi_next m (lbsi_set_iter it) <> Diverge).
    { destruct m; [apply set_next_ends|]. destruct (rel_set_call (lbsi_set_iter it) Next I) as [x E]. cbn [bsi_call] in E. unfold item in E.
      destruct (bsi_next Release (lbsi_set_iter it)); discriminate. }
    destruct (bsi_next m (lbsi_set_iter it)) as [[[x|] s]| |]; cbn [bind fst snd]; try congruence.
    pose proof (N1 (lbsi_range_iter it)). destruct (lbri_next m (lbsi_range_iter it)); cbn [bind]; congruence. }
  destruct (C60_lower_bounded_panics (mint ty) PF _ _ m sz o P) as [A B]. split; intros it; (split; [first [exact (A it)|exact (B it)]|intros ->]).
  - destruct (collects_total (lbri_next m) (fun i => Ret (lbri_size_hint i)) sz P N1 ltac:(discriminate) it) as (o' & C & _).
    rewrite (proj1 (C60_lower_bounded_panics (mint ty) PF _ _ m sz o' P) it C) in C. exact C.
  - destruct (collects_total (lbsi_next m) (fun i => Ret (lbsi_size_hint i)) sz P N2 ltac:(discriminate) it) as (o' & C & _).
    rewrite (proj2 (C60_lower_bounded_panics (mint ty) PF _ _ m sz o' P) it C) in C. exact C.
Qed.
Print Assumptions C60_lower_bounded_outcome.
(** Limiting it first makes it collectable: [take(n)] then [collect] returns the
    [n] smallest elements, provided one more is left after them. *)
Theorem C60_take_exact (T : Type) (PF : Platform) (OT : Ord T) (ST : Step T) (NU : Numbered T) (SL : StepLaws T)
  (sz n : Z) (w : list T) :
  0 < sz -> 0 <= n <= usize_max ->
  let first (M : T -> Prop) := Z.of_nat (length w) = n /\ (exists e, ranked M e n) /\
    (forall i e, nth_error w i = Some e -> ranked M e (Z.of_nat i)) /\ fits_memory sz w in
  (forall (r : LowerBoundedRange T) it, lbr_into_iter Debug r = Ret it ->
     (collects (tk_next (lbri_next Debug)) (tk_size_hint (fun i => Ret (lbri_size_hint i))) sz (TK it n) (Ret w) <-> first (mem (VLBR r)))) /\
  (forall (s : LowerBoundedSet T) it, api (VLBS s) -> small (in_pieces (bs_ranges (lbs_ranges s))) -> lbs_into_iter Debug s = Ret it ->
     (collects (tk_next (lbsi_next Debug)) (tk_size_hint (fun i => Ret (lbsi_size_hint i))) sz (TK it n) (Ret w) <-> first (mem (VLBS s)))).
Proof.
  intros P B first. split.
  - intros r it E. rewrite (take_collects (lbri_next Debug) (fun s o s' => lbri_call_some Debug s UpNext o s')) by
      (try assumption; intros s; eexists; reflexivity).
    pose proof (take_ranked (lbri_call Debug) (mem (VLBR r)) it n w (fun s c o s' => lbri_call_some Debug s c o s')
      (fun cs reps it' O R => lbr_history r it cs reps it' E O R) (fun cs O => lbr_returns r it cs E O) (proj1 B)) as Q.
    change (fun s => lbri_call Debug s UpNext) with (lbri_next (T := T) Debug) in Q. rewrite Q. unfold first. tauto.
  - intros s it A S E. rewrite (take_collects (lbsi_next Debug) (fun s o s' => lbsi_call_some Debug s UpNext o s')) by
      (try assumption; intros s'; eexists; reflexivity).
    pose proof (small_pieces _ (proj2 (proj1 (api_valid _ A))) S) as Sm.
    pose proof (take_ranked (lbsi_call Debug) (mem (VLBS s)) it n w (fun s c o s' => lbsi_call_some Debug s c o s')
      (fun cs reps it' O R => lbs_history s it cs reps it' A Sm E O R) (fun cs O => lbs_returns s it cs A S E O) (proj1 B)) as Q.
    change (fun s => lbsi_call Debug s UpNext) with (lbsi_next (T := T) Debug) in Q. rewrite Q. unfold first. tauto.
Qed.
Print Assumptions C60_take_exact.
(** [skip(n)] and [step_by(k)] of a range or set of at most [usize::MAX]
    elements, forwards and after [rev()]: collected is what the loop sees
    ([C56_range_skip_partial], [C56_range_step_by_partial], [C56_set_adaptors]),
    if it fits in memory. *)
Theorem C60_skip_exact (T : Type) (PF : Platform) (OT : Ord T) (ST : Step T) (NU : Numbered T) (SL : StepLaws T)
  (sz n : Z) (w : list T) :
  0 < sz -> 0 <= n <= usize_max ->
  (forall (r : BoundedRange T) it, br_into_iter Debug r = Ret it -> small (in_range r) ->
     let next := sk_next (bri_next Debug) (bri_nth Debug) in let back := sk_next (bri_next_back Debug) (bri_nth_back Debug) in
     (collects next (sk_size_hint (bri_size_hint Debug)) sz (SK it n) (Ret w) <-> drains next (SK it n) (Ret w) /\ fits_memory sz w) /\
     (collects back (sk_size_hint (bri_size_hint Debug)) sz (SK it n) (Ret w) <-> drains back (SK it n) (Ret w) /\ fits_memory sz w)) /\
  (forall (s : BoundedSet T) it, api (VBS s) -> small (mem (VBS s)) -> bs_into_iter Debug s = Ret it ->
     let next := sk_next (bsi_next Debug) (bsi_nth Debug) in let back := sk_next (bsi_next_back Debug) (bsi_nth_back Debug) in
     (collects next (sk_size_hint (bsi_size_hint Debug)) sz (SK it n) (Ret w) <-> drains next (SK it n) (Ret w) /\ fits_memory sz w) /\
     (collects back (sk_size_hint (bsi_size_hint Debug)) sz (SK it n) (Ret w) <-> drains back (SK it n) (Ret w) /\ fits_memory sz w)).
Proof.
  intros P Hn. split.
  - intros r it E S. destruct (holds_exists it) as [l H]. pose proof (proj1 (into_iter_holds r it l E) H) as L.
    exact (range_skip_collects sz P it l n w H (S l L) Hn).
  - intros s it A S E. destruct (bs_into_iter_holds s (api_valid _ A)) as (it0 & l & E0 & _ & L).
    { apply small_pieces; [apply api_valid in A; apply A|exact S]. }
    destruct (set_iter_small s it l A S E L) as [H U]. exact (set_skip_collects sz P it l n w H U Hn).
Qed.
Print Assumptions C60_skip_exact.
Theorem C60_step_by_exact (T : Type) (PF : Platform) (OT : Ord T) (ST : Step T) (NU : Numbered T) (SL : StepLaws T)
  (sz k : Z) (w : list T) :
  0 < sz -> 0 <= k <= usize_max ->
  (forall (r : BoundedRange T) it st, br_into_iter Debug r = Ret it -> small (in_range r) -> sb_new it k = Ret st ->
     let next := sb_next (bri_nth Debug) in let back := sb_next (bri_nth_back Debug) in
     (collects next (sb_size_hint (bri_size_hint Debug)) sz st (Ret w) <-> drains next st (Ret w) /\ fits_memory sz w) /\
     (collects back (sb_size_hint (bri_size_hint Debug)) sz st (Ret w) <-> drains back st (Ret w) /\ fits_memory sz w)) /\
  (forall (s : BoundedSet T) it st, api (VBS s) -> small (mem (VBS s)) -> bs_into_iter Debug s = Ret it -> sb_new it k = Ret st ->
     let next := sb_next (bsi_nth Debug) in let back := sb_next (bsi_nth_back Debug) in
     (collects next (sb_size_hint (bsi_size_hint Debug)) sz st (Ret w) <-> drains next st (Ret w) /\ fits_memory sz w) /\
     (collects back (sb_size_hint (bsi_size_hint Debug)) sz st (Ret w) <-> drains back st (Ret w) /\ fits_memory sz w)).
Proof.
  intros P Hk.
  assert (New : forall (S : Type) (it : S) st, sb_new it k = Ret st -> 1 <= k <= usize_max /\ st = SB it (k - 1) true).
  { intros S it st N. unfold sb_new in N. destruct (k =? 0) eqn:Z0; [discriminate|]. injection N as <-. split; [lia|reflexivity]. }
  split.
  - intros r it st E S N. destruct (New _ _ _ N) as [Hk' ->].
    destruct (holds_exists it) as [l H]. pose proof (proj1 (into_iter_holds r it l E) H) as L.
    exact (range_step_collects sz P it l k w H (S l L) Hk').
  - intros s it st A S E N. destruct (New _ _ _ N) as [Hk' ->]. destruct (bs_into_iter_holds s (api_valid _ A)) as (it0 & l & E0 & _ & L).
    { apply small_pieces; [apply api_valid in A; apply A|exact S]. }
    destruct (set_iter_small s it l A S E L) as [H U]. exact (set_step_collects sz P it l k w H U Hk').
Qed.
Print Assumptions C60_step_by_exact.
(** The hints of the adaptors announce exactly what they are to produce. *)
Theorem C60_adaptor_hints (T : Type) (PF : Platform) (OT : Ord T) (ST : Step T) (NU : Numbered T) (SL : StepLaws T)
  (r : BoundedRange T) (it : BoundedRangeIter T) (l : list T) :
  br_into_iter Debug r = Ret it -> lists (in_range r) l -> Z.of_nat (length l) <= usize_max ->
  let says (h : outcome (Z * option Z)) (w : list T) := h = Ret (Z.of_nat (length w), Some (Z.of_nat (length w))) in
  (forall n, 0 <= n -> says (tk_size_hint (bri_size_hint Debug) (TK it n)) (firstn (Z.to_nat n) l)) /\
  (forall n, 0 <= n -> says (sk_size_hint (bri_size_hint Debug) (SK it n)) (skipn (Z.to_nat n) l)) /\
  (forall k w st, 0 <= k -> sb_new it k = Ret st -> strided (Z.to_nat k) l w -> says (sb_size_hint (bri_size_hint Debug) st) w).
Proof.
  intros E L U says. pose proof (proj2 (into_iter_holds r it l E) L) as H. destruct (size_reported it l H U) as [Q _].
  destruct (adaptor_hints (bri_size_hint Debug) it l Q) as (A & B & C). split; [exact A|split; [exact B|]].
  intros k w st Hk N W. unfold sb_new in N. destruct (k =? 0) eqn:Z0; [discriminate|]. injection N as <-. apply C; [lia|exact W].
Qed.
Print Assumptions C60_adaptor_hints.

(** Running for at most [fuel] elements; for the examples only. *)
Fixpoint extend {PF : Platform} {A S : Type} (next : S -> outcome (option A * S)) (hint : S -> outcome (Z * option Z)) (sz : Z)
  (fuel : nat) (len cap : Z) (s : S) : option (list A) :=
  match fuel with
  | O => None
  | Datatypes.S fuel' =>
    match next s with
    | Ret (None, _) => Some []
    | Ret (Some x, s') =>
      match room hint sz len cap s' with
      | Ret cap' => option_map (cons x) (extend next hint sz fuel' (len + 1) cap' s')
      | _ => None
      end
    | _ => None
    end
  end.
Definition collect {PF : Platform} {A S : Type} (next : S -> outcome (option A * S)) (hint : S -> outcome (Z * option Z)) (sz : Z)
  (fuel : nat) (s : S) : option (list A) :=
  match next s with
  | Ret (None, _) => Some []
  | Ret (Some x, s') =>
    match first_cap hint sz s' with Ret cap => option_map (cons x) (extend next hint sz fuel 1 cap s') | _ => None end
  | _ => None
  end.
Lemma extend_extends {PF : Platform} {A S : Type} (next : S -> outcome (option A * S)) hint sz fuel :
  forall len cap s l, extend next hint sz fuel len cap s = Some l -> extends next hint sz len cap s (Ret l).
Proof.
  induction fuel as [|fuel IH]; intros len cap s l E; [discriminate|]. cbn [extend] in E.
  destruct (next s) as [[[x|] s']| |] eqn:N; try discriminate.
  - destruct (room hint sz len cap s') as [cap'| |] eqn:R; try discriminate.
    destruct (extend next hint sz fuel (len + 1) cap' s') as [k|] eqn:X; [|discriminate]. injection E as <-.
    change (Ret (x :: k)) with (j <- Ret k ;; Ret (x :: j)). eapply extends_item; [exact N|exact R|exact (IH _ _ _ _ X)].
  - injection E as <-. eapply extends_done. exact N.
Qed.
Lemma collect_collects {PF : Platform} {A S : Type} (next : S -> outcome (option A * S)) hint sz fuel s l :
  collect next hint sz fuel s = Some l -> collects next hint sz s (Ret l).
Proof.
  unfold collect. intros E. destruct (next s) as [[[x|] s']| |] eqn:N; try discriminate.
  - destruct (first_cap hint sz s') as [cap| |] eqn:R; try discriminate.
    destruct (extend next hint sz fuel 1 cap s') as [k|] eqn:X; [|discriminate]. injection E as <-.
    change (Ret (x :: k)) with (j <- Ret k ;; Ret (x :: j)). eapply collects_item; [exact N|exact R|exact (extend_extends _ _ _ _ _ _ _ _ X)].
  - injection E as <-. eapply collects_empty. exact N.
Qed.

#[local] Existing Instance pf64.
(** [(0u128..=1 << 64).take(3).collect()] on a 64-bit target: the loop sees 0, 1
    and 2, but collecting asks how many are left, [usize::MAX + 1], and the
    answer overflows. *)
Theorem C60_take_hint_panics :
  exists it : BoundedRangeIter (@mint pf64 U128), br_into_iter Debug (incl (lit U128 0) (lit U128 (2 ^ 64))) = Ret it /\
    drains (tk_next (bri_next Debug)) (TK it 3) (Ret [lit U128 0; lit U128 1; lit U128 2]) /\
    collects (tk_next (bri_next Debug)) (tk_size_hint (bri_size_hint Debug)) 16 (TK it 3) Panic.
Proof.
  exists (BRI (lit U128 0) (lit U128 (2 ^ 64))). split; [reflexivity|]. split.
  - apply (drain_drains 5). vm_compute. reflexivity.
  - apply (collects_full _ _ _ _ (TK (BRI (lit U128 1) (lit U128 (2 ^ 64))) 2) (lit U128 0)); vm_compute; reflexivity.
Qed.
Print Assumptions C60_take_hint_panics.

(** [{5..=6, 9..=2^70, 2^80..=2^80+1}]: the middle piece is passed over. *)
Example C60_visible_ex :
  collects (bsi_next Debug) (bsi_size_hint Debug) 16
    (BSI [BRI (lit U128 5) (lit U128 6); BRI (lit U128 9) (lit U128 (2 ^ 70)); BRI (lit U128 (2 ^ 80)) (lit U128 (2 ^ 80 + 1))])
    (Ret [lit U128 5; lit U128 6; lit U128 (2 ^ 80); lit U128 (2 ^ 80 + 1)]).
Proof. apply (collect_collects _ _ _ 10). vm_compute. reflexivity. Qed.
(** [(3u8..=9).step_by(3)] and [.rev().skip(5)]. *)
Example C60_adaptors_ex :
  sb_new (BRI (u8 3) (u8 9)) 3 = Ret (SB (BRI (u8 3) (u8 9)) 2 true) /\
  sb_size_hint (bri_size_hint Debug) (SB (BRI (u8 3) (u8 9)) 2 true) = Ret (3, Some 3) /\
  collects (sb_next (bri_nth Debug)) (sb_size_hint (bri_size_hint Debug)) 1 (SB (BRI (u8 3) (u8 9)) 2 true) (Ret [u8 3; u8 6; u8 9]) /\
  sk_size_hint (bri_size_hint Debug) (SK (BRI (u8 3) (u8 9)) 5) = Ret (2, Some 2) /\
  collects (sk_next (bri_next_back Debug) (bri_nth_back Debug)) (sk_size_hint (bri_size_hint Debug)) 1 (SK (BRI (u8 3) (u8 9)) 5) (Ret [u8 4; u8 3]).
Proof.
  split; [vm_compute; reflexivity|]. split; [vm_compute; reflexivity|].
  split; [apply (collect_collects _ _ _ 10); vm_compute; reflexivity|].
  split; [vm_compute; reflexivity|apply (collect_collects _ _ _ 10); vm_compute; reflexivity].
Qed.
(** Hints that promise nothing are truthful. *)
Example C60_truthful_ex :
  (forall s k, drains (bri_next Debug) s (Ret k) ->
     exists lo u, (fun _ : BoundedRangeIter (mint U8) => Ret (0, @None Z)) s = Ret (lo, u) /\ 0 <= lo <= Z.of_nat (length k)) /\
  fits_memory (2 * 2000) [u8 3; u8 4; u8 5; u8 6; u8 7].
Proof. split; [intros s k _; exists 0, None; split; [reflexivity|lia]|vm_compute; reflexivity]. Qed.

(** A range, a set and a limited lower-bounded range; a hint of 0 all along
    (as for too long a range) only costs reallocations; 2^61 [u32]s do not fit. *)
Example C60_ex :
  collects (bri_next Debug) (bri_size_hint Debug) 1 (BRI (u8 3) (u8 7)) (Ret [u8 3; u8 4; u8 5; u8 6; u8 7]) /\
  collects (bsi_next Release) (bsi_size_hint Release) 1 (BSI [BRI (u8 1) (u8 2); BRI (u8 250) (u8 251)]) (Ret [u8 1; u8 2; u8 250; u8 251]) /\
  collects (tk_next (lbri_next Debug)) (tk_size_hint (fun i => Ret (lbri_size_hint i))) 1 (TK (LBRI (u8 5)) 3) (Ret [u8 5; u8 6; u8 7]) /\
  collects (lbri_next Debug) (fun i => Ret (lbri_size_hint i)) 1 (LBRI (u8 5)) Panic /\
  collects (bri_next Debug) (fun _ => Ret (0, None)) 2000 (BRI (u8 3) (u8 7)) (Ret [u8 3; u8 4; u8 5; u8 6; u8 7]) /\
  collects (bri_next Release) (bri_size_hint Release) 4 (BRI (lit U64 0) (lit U64 (2 ^ 61))) Panic /\
  fits_memory 4 [u8 3; u8 4].
Proof.
  split; [apply (collect_collects _ _ _ 10); vm_compute; reflexivity|].
  split; [apply (collect_collects _ _ _ 10); vm_compute; reflexivity|].
  split; [apply (collect_collects _ _ _ 10); vm_compute; reflexivity|].
  split; [apply (collects_full _ _ _ _ (LBRI (u8 6)) (u8 5)); vm_compute; reflexivity|].
  split; [apply (collect_collects _ _ _ 10); vm_compute; reflexivity|].
  split; [apply (collects_full _ _ _ _ (BRI (lit U64 1) (lit U64 (2 ^ 61))) (lit U64 0)); vm_compute; reflexivity|vm_compute; reflexivity].
Qed.
