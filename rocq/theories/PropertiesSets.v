(** Property theorems C57-C58: how a set takes in a range; ill-formed sets. *)
From Verif Require Import Base ModelBound ModelRanges ModelSets ModelAlgebra ModelValue Spec
  Order Cuts SetProofs CombineProofs AlgebraProofs ValueProofs Laws Laws2 Instances.
Open Scope Z_scope.

(** ** C57: [combine] and [add_range] *)
(** One range ends at or before the place where the other starts. *)
Definition clear_of {T : Type} {OT : Ord T} (a b : BoundedRange T) : Prop :=
  precedes (br_end a) (br_start b) \/ precedes (br_end b) (br_start a).

Lemma meets_clear {T : Type} {OT : Ord T} {OL : OrdLaws T} (a b : BoundedRange T) :
  has_room a -> has_room b -> (meets a b = false <-> clear_of a b).
Proof.
  unfold clear_of. rewrite !has_room_cut, !precedes_cut. intros A B. rewrite meets_sep by assumption.
  unfold sep. destruct (cle _ _), (cle _ _); cbn; intuition congruence.
Qed.
Lemma in_range_place {T : Type} {OT : Ord T} {OL : OrdLaws T} (a : BoundedRange T) (t : T) :
  in_range a t <-> br_in a (at_elt t) = true.
Proof. exact (mem_v_in (VBR a) t I). Qed.

(** [combine], for all arguments (src/bounded_range.rs:140-152): an empty range
    gives way to the other; two overlapping ranges give their union; two ranges
    clear of each other are refused. *)
Theorem C57_combine (T : Type) (OT : Ord T) (OL : OrdLaws T) (a b : BoundedRange T) :
  (~ has_room b -> br_combine a b = Ret a) /\
  (has_room b -> ~ has_room a -> br_combine a b = Ret b) /\
  (has_room a -> has_room b -> clear_of a b -> br_combine a b = Panic) /\
  (has_room a -> has_room b -> ~ clear_of a b -> exists c, br_combine a b = Ret c /\ has_room c /\
     forall t, in_range c t <-> in_range a t \/ in_range b t).
Proof.
  rewrite combine_cases. repeat apply conj.
  - rewrite has_room_cut. intros H. apply Bool.not_true_is_false in H. rewrite H. reflexivity.
  - rewrite !has_room_cut. intros H K. apply Bool.not_true_is_false in K. rewrite H, K. reflexivity.
  - intros A B C. apply meets_clear in C; [|assumption..]. rewrite has_room_cut in A, B. rewrite A, B, C. reflexivity.
  - intros A B C. rewrite <- meets_clear in C by assumption. apply Bool.not_false_is_true in C.
    rewrite has_room_cut in A, B. rewrite A, B, C. exists (hull a b). split; [reflexivity|]. split.
    + apply has_room_cut, hull_room, A.
    + intros t. rewrite !in_range_place, hull_in by exact C. apply Bool.orb_true_iff.
Qed.
Print Assumptions C57_combine.
Example C57_combine_ex : br_combine (pc 0 5) (pc 3 9) = Ret (pc 0 9) /\ br_combine (pc 0 5) (pc 5 9) = Panic
  /\ br_combine (pc 4 4) (pc 5 9) = Ret (pc 5 9) /\ br_combine (pc 0 1) (pc 9 5) = Ret (pc 0 1).
Proof. repeat split. Qed.
(** [add_range], for all sets, well-formed or not: returns, and the contents are
    the union. *)
Theorem C57_add_range_contents (T : Type) (OT : Ord T) (OL : OrdLaws T) (s : BoundedSet T) (r : BoundedRange T) :
  exists k, bs_add_range s r = Ret k /\
    forall t, in_pieces (bs_ranges k) t <-> in_range r t \/ in_pieces (bs_ranges s) t.
Proof.
  destruct (bs_add_range_ok s r) as (k & E & H & _). exists k. split; [exact E|]. intros t.
  rewrite in_range_place. change (in_pieces (bs_ranges k) t) with (mem (VBS k) t).
  change (in_pieces (bs_ranges s) t) with (mem (VBS s) t). rewrite !mem_v_in by exact I.
  unfold v_in. cbn [to_inner i_in]. rewrite <- Bool.orb_true_iff, <- H. reflexivity.
Qed.
Print Assumptions C57_add_range_contents.
(** [add_range] on a well-formed set, piece by piece: the pieces clear of the new
    range stay as they are, those overlapping it become one piece together with it. *)
Theorem C57_add_range_pieces (T : Type) (OT : Ord T) (OL : OrdLaws T) (s : BoundedSet T) (r : BoundedRange T) :
  valid (VBS s) -> has_room r ->
  exists k h, bs_add_range s r = Ret k /\ valid (VBS k) /\
    (forall x, In x (bs_ranges k) <-> x = h \/ In x (bs_ranges s) /\ clear_of x r) /\
    (forall t, in_range h t <-> in_range r t \/ exists x, In x (bs_ranges s) /\ ~ clear_of x r /\ in_range x t).
Proof.
  intros V R. destruct (bs_add_range_ok s r) as (k & E & _ & W & _).
  assert (V' : wfl (bs_ranges s) = true) by (apply pieces_ok_wfl; exact V).
  unfold bs_add_range in E.
  destruct (add_range_fuel_pieces (S (length (bs_ranges s))) (bs_ranges s) r) as (l & h & F & Hi & Hh & _);
    [apply le_n|exact V'|apply has_room_cut, R|].
  rewrite F in E. cbn in E. injection E as <-.
  assert (C : forall x, In x (bs_ranges s) -> (meets x r = false <-> clear_of x r)).
  { intros x I. apply meets_clear; [|exact R]. apply (proj1 (Forall_forall _ _) (proj1 V) x I). }
  exists (BS l), h. split; [unfold bs_add_range; rewrite F; reflexivity|]. split; [apply valid_wf, W, V'|]. split.
  - intros x. cbn [bs_ranges]. rewrite Hi. split; (intros [X|[X Y]]; [left; exact X|]); right; (split; [exact X|]);
      apply (C x X); exact Y.
  - intros t. rewrite !in_range_place, Hh. split; (intros [X|(x & X & Y & Z)]; [left; exact X|]); right; exists x;
      (split; [exact X|]).
    + rewrite <- (C x X), in_range_place. split; [congruence|exact Z].
    + rewrite in_range_place in Z. split; [|exact Z]. rewrite <- (C x X) in Y. apply Bool.not_false_is_true, Y.
Qed.
Print Assumptions C57_add_range_pieces.
Example C57_ex : valid (VBS (BS [pc 0 3; pc 5 8; pc 9 12; pc 20 21])) /\ has_room (pc 6 10) /\
  bs_add_range (BS [pc 0 3; pc 5 8; pc 9 12; pc 20 21]) (pc 6 10) = Ret (BS [pc 0 3; pc 5 12; pc 20 21]).
Proof.
  split; [apply valid_wf; reflexivity|]. split; [|reflexivity]. apply has_room_cut. reflexivity.
Qed.

(** ** C58: sets that do not meet the invariant (read from outside, C43) *)
(** Complements are well-formed whatever the operand, so two complements repair
    any set. *)
Theorem C58_complement_repairs (T : Type) (OT : Ord T) (OL : OrdLaws T) (a : value T) :
  exists c d, complement a = Ret c /\ complement c = Ret d /\ valid c /\ valid d /\
    (fresh a -> forall t, contains d t = true <-> mem a t).
Proof.
  destruct (complement_ok a) as (c & E & Hc & Wc & Fc & _).
  destruct (complement_ok c) as (d & E2 & Hd & Wd & Fd & _).
  exists c, d. split; [exact E|]. split; [exact E2|].
  split; [apply valid_wf, Wc|]. split; [apply valid_wf, Wd|]. intros Fa t.
  rewrite contains_v_in, Hd, Hc, Bool.negb_involutive by exact Fd. symmetry. apply mem_v_in, Fa.
Qed.
Print Assumptions C58_complement_repairs.
(** So does adding a bounded set to the empty set, in this order. *)
Theorem C58_union_repairs (T : Type) (OT : Ord T) (OL : OrdLaws T) (s : BoundedSet T) :
  exists k, union (VBS bs_empty) (VBS s) = Ret (VBS k) /\ valid (VBS k) /\
    forall t, contains (VBS k) t = true <-> mem (VBS s) t.
Proof.
  destruct (bs_add_set_ok bs_empty s) as (k & E & H & W & _). exists k.
  split; [cbn; unfold bs_union_bs; rewrite E; reflexivity|]. split; [apply valid_wf, W; reflexivity|].
  intros t. rewrite contains_v_in, mem_v_in by exact I. unfold v_in. cbn. rewrite H. reflexivity.
Qed.
Print Assumptions C58_union_repairs.
(** In the other order the ill-formed pieces stay. *)
Theorem C58_union_order_matters :
  exists s : BoundedSet Z, union (VBS s) (VBS bs_empty) = Ret (VBS s) /\ ~ valid (VBS s).
Proof.
  exists (BS [pc 3 5; pc 2 4]). split; [reflexivity|]. rewrite valid_wf. discriminate.
Qed.
Print Assumptions C58_union_order_matters.
Example C58_ex : union (VBS bs_empty) (VBS (BS [pc 3 5; pc 2 4; pc 9 9])) = Ret (VBS (BS [pc 2 5])) /\
  complement (VBS (BS [pc 3 5; pc 2 4; pc 9 9]))
  = Ret (VUS (Piecewise (PUS (UBR (UB (Excluded 2))) (BS [pc 5 9]) (LBR (LB (Included 9)))))).
Proof. split; reflexivity. Qed.
