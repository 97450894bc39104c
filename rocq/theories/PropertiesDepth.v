(** How deep [BoundedSet::add_range] calls itself. *)
From Coq Require Import Lia ZifyBool.
From Verif Require Import Base ModelBound ModelRanges ModelSets ModelAlgebra ModelValue Spec Reach
  Order Cuts SetProofs CombineProofs AlgebraProofs ValueProofs Laws Instances PropertiesAlgebra PropertiesSets.
Open Scope Z_scope.

Section Depth.
Context {T : Type} {OT : Ord T} {OL : OrdLaws T}.

Lemma depth_meets (fuel : nat) : forall (ranges : list (BoundedRange T)) (r : BoundedRange T),
  wfl ranges = true -> room r = true ->
  (bs_add_range_fuel fuel ranges r = Diverge <-> (fuel <= length (filter (fun x => meets x r) ranges))%nat).
Proof.
  induction fuel as [|fuel IH]; intros ranges r W Hr; [cbn; intuition lia|].
  cbn [bs_add_range_fuel]. rewrite br_is_empty_room, negb_involutive, Hr.
  destruct (position (fun range => br_intersects_br range r) ranges) as [i|] eqn:P.
  - apply position_some in P as (l1 & x & l2 & -> & -> & Hx & _).
    rewrite vd_index_mid, vd_remove_mid. cbn [bind snd].
    rewrite intersects_room in Hx. pose proof Hx as Hx'. rewrite inter_room_sym in Hx'.
    rewrite combine_hull by exact Hx'. cbn [bind].
    assert (M : forall y, In y (l1 ++ l2) -> meets y (hull r x) = meets y r).
    { intros y I. apply meets_hull; [|apply (wfl_apart l1 x l2 y W I)|exact Hx].
      apply (wfl_room _ y W). apply in_app_or in I as [I|I]; apply in_or_app; simpl; auto. }
    rewrite IH; [|apply wfl_remove with (x := x); exact W|apply hull_room, Hr].
    rewrite (filter_ext_in _ _ _ M), !filter_app. cbn [filter]. change (room (br_inter_br x r)) with (meets x r) in Hx. rewrite Hx.
    rewrite !app_length. cbn [length]. lia.
  - apply position_none in P.
    assert (F : filter (fun x => meets x r) ranges = []).
    { clear -P OL. induction ranges as [|y l IH]; [reflexivity|]. cbn [forallb] in P. apply andb_prop in P as [P1 P2].
      cbn [filter]. rewrite intersects_room in P1. unfold meets at 1. destruct (room (br_inter_br y r)); [discriminate P1|]. auto. }
    rewrite F. cbn [length].
    assert (I : exists l, vd_insert ranges (match position (fun range => lb_gt (br_start range) (br_start r)) ranges with Some i => i | None => length ranges end) r = Ret l).
    { unfold vd_insert. destruct (position (fun range => lb_gt (br_start range) (br_start r)) ranges) as [i|] eqn:Q.
      - apply position_some in Q as (l1 & x & l2 & -> & -> & _). rewrite (proj2 (Nat.leb_le _ _)); [eauto|]. rewrite app_length. lia.
      - rewrite Nat.leb_refl. eauto. }
    destruct I as [l ->]. split; [discriminate|lia].
Qed.
Lemma wfl_filter_nodup (f : BoundedRange T -> bool) l : wfl l = true -> NoDup (filter f l).
Proof.
  intros W. apply NoDup_filter. induction l as [|x l IH]; constructor.
  - intros I. pose proof (wfl_apart [] x l x W I) as A. pose proof (wfl_room _ x W (or_introl eq_refl)) as R.
    unfold room in R. unfold sep in A. apply orb_prop in A. destruct A as [A|A]; rewrite negb_true_iff in *; congruence || auto.
  - apply IH. apply (wfl_remove [] x l). exact W.
Qed.
End Depth.

(** ** C65 *)
(** Taking a range into a well-formed set needs exactly one nested call more than
    there are pieces overlapping it: with at most [frames] nested calls it fails
    to finish exactly when [frames] is no more than their number. *)
Theorem C65_depth (T : Type) (OT : Ord T) (OL : OrdLaws T) (s : BoundedSet T) (r : BoundedRange T) (hit : list (BoundedRange T)) :
  valid (VBS s) -> has_room r -> NoDup hit -> (forall x, In x hit <-> In x (bs_ranges s) /\ ~ clear_of x r) ->
  forall frames, bs_add_range_fuel frames (bs_ranges s) r = Diverge <-> (frames <= length hit)%nat.
Proof.
  intros V R N H frames.
  assert (W : wfl (bs_ranges s) = true) by (apply pieces_ok_wfl; exact V).
  rewrite depth_meets by (try apply has_room_cut; assumption).
  assert (E : length hit = length (filter (fun x => meets x r) (bs_ranges s))).
  { apply Nat.le_antisymm; apply NoDup_incl_length; auto using wfl_filter_nodup; intros x I.
    - apply filter_In. apply H in I as [I C]. split; [exact I|].
      rewrite <- meets_clear in C; [apply not_false_is_true; exact C|apply (proj1 (Forall_forall _ _) (proj1 V) x I)|exact R].
    - apply filter_In in I as [I C]. apply H. split; [exact I|].
      rewrite <- meets_clear; [congruence|apply (proj1 (Forall_forall _ _) (proj1 V) x I)|exact R]. }
  rewrite E. reflexivity.
Qed.
Print Assumptions C65_depth.

(** An empty range is not stored, whatever the set holds: one call, and the set as before. *)
Theorem C65_empty_range (T : Type) (OT : Ord T) (OL : OrdLaws T) (s : BoundedSet T) (r : BoundedRange T) :
  ~ has_room r -> bs_add_range s r = Ret s /\ bs_add_range_fuel 1 (bs_ranges s) r = Ret (bs_ranges s).
Proof.
  intros N. assert (R : room r = false) by (apply not_true_is_false; rewrite <- has_room_cut; exact N).
  unfold bs_add_range. cbn [bs_add_range_fuel]. rewrite br_is_empty_room, R. destruct s. split; reflexivity.
Qed.
Print Assumptions C65_empty_range.
Example C65_empty_ex :
  ~ has_room (pc 7 3) /\ bs_add_range (BS [pc 1 5; pc 6 9]) (pc 7 3) = Ret (BS [pc 1 5; pc 6 9]).
Proof. split; [intros A; vm_compute in A; apply A; discriminate|vm_compute; reflexivity]. Qed.

Lemma position_miss {A : Type} (f : A -> bool) l : (forall x, In x l -> f x = false) -> position f l = None.
Proof.
  induction l as [|x l IH]; intros H; [reflexivity|]. cbn [position]. rewrite (H x) by (left; reflexivity).
  rewrite IH by (intros y I; apply H; right; exact I). reflexivity.
Qed.
(** [n] pieces of one number each, two apart. *)
Fixpoint comb (a : Z) (n : nat) : list (BoundedRange Z) :=
  match n with O => [] | S n' => pc a (a + 1) :: comb (a + 2) n' end.
Lemma comb_length a n : length (comb a n) = n.
Proof. revert a; induction n as [|n IH]; intros a; cbn; auto. Qed.
Lemma comb_in a n x : In x (comb a n) -> exists b, x = pc b (b + 1) /\ a <= b < a + 2 * Z.of_nat n.
Proof.
  revert a; induction n as [|n IH]; intros a; cbn [comb In]; [tauto|]. intros [<-|I]; [exists a; split; [reflexivity|lia]|].
  destruct (IH _ I) as (b & -> & B). exists b. split; [reflexivity|lia].
Qed.
Lemma le_z (a b : Z) : le a b <-> a <= b.
Proof. unfold le. cbn. destruct (Z.compare_spec a b); intuition (congruence || lia). Qed.
Lemma pc_room a b : has_room (pc a b) <-> a < b.
Proof. unfold has_room, pc, precedes. cbn. rewrite le_z. lia. Qed.
Lemma pc_clear a b c d : clear_of (pc a b) (pc c d) <-> b <= c \/ d <= a.
Proof. unfold clear_of, pc, precedes. cbn. rewrite !le_z. tauto. Qed.
Lemma comb_api n : forall a, api (VBS (BS (comb a n))).
Proof.
  induction n as [|n IH]; intros a; [apply api_bs_empty|].
  apply (api_union (VBS (BS (comb (a + 2) n))) (VBR (pc a (a + 1)))); [apply IH|apply api_br|].
  assert (R : room (pc a (a + 1)) = true) by (apply has_room_cut, pc_room; lia).
  assert (B : bs_from_br (pc a (a + 1)) = BS [pc a (a + 1)]) by (unfold bs_from_br; rewrite br_is_empty_room, R; reflexivity).
  unfold union, bs_union. cbn [to_set]. rewrite B. unfold bs_union_bs, bs_add_set, ret_bs. cbn [bs_ranges foldM].
  unfold bs_add_range. cbn [bs_ranges bs_add_range_fuel]. rewrite br_is_empty_room, negb_involutive, R.
  rewrite position_miss.
  2: { intros x I. destruct (comb_in _ _ _ I) as (b & -> & Hb). rewrite intersects_room.
       change (meets (pc b (b + 1)) (pc a (a + 1)) = false). apply meets_clear; [apply pc_room; lia..|]. apply pc_clear. lia. }
  destruct n as [|n]; [reflexivity|]. cbn [comb position].
  replace (lb_gt (br_start (pc (a + 2) (a + 2 + 1))) (br_start (pc a (a + 1)))) with true; [reflexivity|].
  unfold lb_gt, lb_partial_cmp, pc. cbn. destruct (Z.compare_spec (a + 2) a); lia || reflexivity.
Qed.
Lemma comb_nodup n : forall a, NoDup (comb a n).
Proof.
  induction n as [|n IH]; intros a; constructor; [|apply IH]. intros I. destruct (comb_in _ _ _ I) as (b & E & B).
  injection E as E _. lia.
Qed.
(** No stack is deep enough for every set: sets of any number [n] of pieces can
    be built through the API, and the range covering them all needs [n + 1]
    nested calls. *)
Theorem C65_unbounded (n : nat) :
  exists (s : BoundedSet Z) (r : BoundedRange Z), api (VBS s) /\ length (bs_ranges s) = n /\ has_room r /\
    bs_add_range_fuel n (bs_ranges s) r = Diverge /\ exists h, bs_add_range_fuel (S n) (bs_ranges s) r = Ret [h].
Proof.
  pose proof (comb_api n 0) as A. pose proof (C05_sets_well_formed Z _ _ _ A) as V.
  assert (R : has_room (pc 0 (2 * Z.of_nat n + 1))) by (apply pc_room; lia).
  assert (C : forall x, In x (comb 0 n) -> ~ clear_of x (pc 0 (2 * Z.of_nat n + 1))).
  { intros x I. destruct (comb_in _ _ _ I) as (b & -> & B). rewrite pc_clear. lia. }
  exists (BS (comb 0 n)), (pc 0 (2 * Z.of_nat n + 1)). split; [exact A|]. split; [apply comb_length|]. split; [exact R|]. split.
  - apply (C65_depth Z _ _ (BS (comb 0 n)) _ (comb 0 n) V R (comb_nodup n 0)); [|rewrite comb_length; apply le_n].
    intros x. cbn [bs_ranges]. split; [|tauto]. intros I. split; [exact I|apply C; exact I].
  - destruct (add_range_fuel_pieces (S n) (comb 0 n) (pc 0 (2 * Z.of_nat n + 1))) as (l & h & E & _ & _ & L).
    + rewrite comb_length. apply le_n.
    + apply pieces_ok_wfl. exact V.
    + apply has_room_cut. exact R.
    + cbn [bs_ranges]. rewrite E. assert (F : filter (fun x => negb (meets x (pc 0 (2 * Z.of_nat n + 1)))) (comb 0 n) = []).
      { destruct (filter _ _) as [|x k] eqn:F; [reflexivity|exfalso].
        assert (I : In x (x :: k)) by (left; reflexivity). rewrite <- F in I. apply filter_In in I as [I M].
        specialize (C x I). rewrite <- meets_clear in C; [|destruct (comb_in _ _ _ I) as (b & -> & B); apply pc_room; lia|exact R].
        destruct (meets x _); [discriminate M|apply C; reflexivity]. }
      rewrite F in L. destruct l as [|x [|y l]]; try discriminate L. eauto.
Qed.
Print Assumptions C65_unbounded.
(** Three of five pieces overlap the new range. *)
Example C65_ex :
  let s := BS [pc 0 1; pc 2 5; pc 6 7; pc 8 20; pc 30 31] in
  valid (VBS s) /\ has_room (pc 4 9) /\
  NoDup [pc 2 5; pc 6 7; pc 8 20] /\ (forall x, In x [pc 2 5; pc 6 7; pc 8 20] <-> In x (bs_ranges s) /\ ~ clear_of x (pc 4 9)) /\
  bs_add_range_fuel 3 (bs_ranges s) (pc 4 9) = Diverge /\
  bs_add_range_fuel 4 (bs_ranges s) (pc 4 9) = Ret [pc 0 1; pc 2 20; pc 30 31].
Proof.
  cbn zeta. split; [apply valid_wf; reflexivity|]. split; [apply pc_room; lia|]. split.
  { repeat constructor; cbn; unfold pc; intuition discriminate. }
  split; [|split; reflexivity]. intros x. cbn [In bs_ranges]. split.
  - intros [<-|[<-|[<-|[]]]]; rewrite pc_clear; split; auto 8; lia.
  - intros [[<-|[<-|[<-|[<-|[<-|[]]]]]] N]; rewrite pc_clear in N; auto; lia.
Qed.
