(** Property theorems C01-C17, C44-C46: the algebra of ranges and sets.

    Reading guide: [mem v t] (Spec.v) says what elements a value stands for;
    [contains], [union], [intersection], [complement], [is_empty], [disjoint],
    [intersects], [to_inner], [to_set] are the model of the API (ModelValue.v);
    [Ret r] means the call returned [r] without panicking or looping.
    [value T] ranges over all fifteen operand types; [fresh] excludes only a
    [RangeInclusive] that has itself been iterated to exhaustion (see C37). *)
From Coq Require Import QArith Permutation.
From Verif Require Import Base ModelBound ModelRanges ModelSets ModelAlgebra ModelValue ModelEq Spec Reach
  Canon Laws Laws2 Instances ValueProofs.
Open Scope Z_scope.

(** [contains] of every type returns what the specification says. *)
Theorem C00_contains_spec (T : Type) (OT : Ord T) (OL : OrdLaws T) (v : value T) (t : T) :
  contains v t = true <-> mem v t.
Proof. exact (contains_mem v t). Qed.
Print Assumptions C00_contains_spec.
Example C00_ex : contains (VUS (Piecewise (PUS (UBR (UB (Excluded 0))) (BS [pc 3 5]) (LBR (LB (Excluded 9)))))) 4 = true
  /\ contains (VUS (Piecewise (PUS (UBR (UB (Excluded 0))) (BS [pc 3 5]) (LBR (LB (Excluded 9)))))) 9 = false.
Proof. split; reflexivity. Qed.

(** ** C01: union *)
Theorem C01_union_contains (T : Type) (OT : Ord T) (OL : OrdLaws T) (a b : value T) :
  fresh a -> fresh b ->
  exists r, union a b = Ret r /\ forall t, contains r t = true <-> mem a t \/ mem b t.
Proof. exact (union_fresh_exact a b). Qed.
Print Assumptions C01_union_contains.
(** The same without [fresh]: the operation reads an exhausted [RangeInclusive]
    as if the flag were clear. *)
Theorem C01_union_any_state (T : Type) (OT : Ord T) (OL : OrdLaws T) (a b : value T) :
  exists r, union a b = Ret r /\ forall t, mem (refreshed r) t <-> mem (refreshed a) t \/ mem (refreshed b) t.
Proof. exact (union_any_state a b). Qed.
Print Assumptions C01_union_any_state.
Example C01_ex : union (rng 0 3) (rngi 5 8) = Ret (VBS (BS [pc 0 3; BR (LB (Included 5)) (UB (Included 8))]))
  /\ union (VLBS s1) (rto 1) = Ret (VUS Full).
Proof. split; reflexivity. Qed.

(** Uniting any number of values in a loop. *)
Theorem C01_union_all (T : Type) (OT : Ord T) (OL : OrdLaws T) (l : list (value T)) (v : value T) :
  fresh v -> Forall fresh l ->
  exists r, union_all l v = Ret r /\ forall t, contains r t = true <-> mem v t \/ exists x, In x l /\ mem x t.
Proof. exact (union_all_contents l v). Qed.
Print Assumptions C01_union_all.
Example C01_all_ex : union_all [rng 4 6; rng 0 1; rngi 5 9] (VBS bs_empty)
  = Ret (VBS (BS [pc 0 1; BR (LB (Included 4)) (UB (Included 9))])).
Proof. reflexivity. Qed.

(** ** C02: intersection *)
(** Full statement: for all [a b], [intersection a b = Ret r] with
    [contains r t = true <-> mem a t /\ mem b t].  False for two
    [LowerBoundedSet]s ([C02_refuted]); proved for every other pair of types. *)
Theorem C02_intersection_contains_partial (T : Type) (OT : Ord T) (OL : OrdLaws T) (a b : value T) :
  fresh a -> fresh b -> ~ (kind_of a = KLowerBoundedSet /\ kind_of b = KLowerBoundedSet) ->
  exists r, intersection a b = Ret r /\ forall t, contains r t = true <-> mem a t /\ mem b t.
Proof. exact (inter_mem' a b). Qed.
Print Assumptions C02_intersection_contains_partial.
Example C02_ex : intersection (VLBS s1) (VUS (Piecewise (PUS (UBR (UB (Excluded (-4)))) (BS []) (LBR (LB (Included 2))))))
  = Ret (VLBS (LBS (BS [pc (-5) (-4)]) (LBR (LB (Included 2))))).
Proof. reflexivity. Qed.
(** What two [LowerBoundedSet]s really give: the elements common to the first
    set's half-line and the second set's bounded pieces are lost. *)
Theorem C02_lbs_lbs_exact (T : Type) (OT : Ord T) (OL : OrdLaws T) (a b : LowerBoundedSet T) :
  exists r, intersection (VLBS a) (VLBS b) = Ret r /\ forall t, contains r t = true <->
    (mem (VLBS a) t /\ mem (VLBS b) t)
    /\ (above (lbr_start (lbs_lbr b)) t \/ in_pieces (bs_ranges (lbs_ranges a)) t).
Proof. exact (lbs_lbs_mem a b). Qed.
Print Assumptions C02_lbs_lbs_exact.
Example C02_lbs_ex : intersection (VLBS s1) (VLBS s2) = Ret (VLBS (LBS (BS []) (LBR (LB (Included 10))))).
Proof. reflexivity. Qed.
(** For all types the result is contained in both operands. *)
Theorem C02_intersection_subset (T : Type) (OT : Ord T) (OL : OrdLaws T) (a b : value T) :
  fresh a -> fresh b ->
  exists r, intersection a b = Ret r /\ forall t, contains r t = true -> mem a t /\ mem b t.
Proof. exact (inter_subset a b). Qed.
Print Assumptions C02_intersection_subset.
Theorem C02_refuted :
  exists (a b r : value Z) (t : Z),
    api a /\ api b /\ intersection a b = Ret r /\ mem a t /\ mem b t /\ contains r t = false.
Proof. exact inter_refuted. Qed.
Print Assumptions C02_refuted.

(** ** C03: complement *)
Theorem C03_complement_contains (T : Type) (OT : Ord T) (OL : OrdLaws T) (a : value T) :
  fresh a -> exists r, complement a = Ret r /\ forall t, contains r t = true <-> ~ mem a t.
Proof. exact (compl_mem a). Qed.
Print Assumptions C03_complement_contains.
Theorem C03_complement_any_state (T : Type) (OT : Ord T) (OL : OrdLaws T) (a : value T) :
  exists r, complement a = Ret r /\ forall t, contains r t = true <-> ~ mem (refreshed a) t.
Proof. exact (compl_any_state a). Qed.
Print Assumptions C03_complement_any_state.
Example C03_ex : complement (VBS (BS [pc 0 3; pc 5 8]))
  = Ret (VUS (Piecewise (PUS (UBR (UB (Excluded 0))) (BS [pc 3 5]) (LBR (LB (Included 8)))))).
Proof. reflexivity. Qed.

(** ** C04: no panic, no divergence *)
Theorem C04_operations_return (T : Type) (OT : Ord T) (OL : OrdLaws T) (a b : value T) :
  (exists r, union a b = Ret r) /\ (exists r, intersection a b = Ret r) /\ (exists r, complement a = Ret r)
  /\ (exists d, disjoint a b = Ret d) /\ (exists d, intersects a b = Ret d).
Proof. exact (total_all a b). Qed.
Print Assumptions C04_operations_return.
Theorem C04_programs_return (T : Type) (OT : Ord T) (OL : OrdLaws T) (e : expr T) :
  exists v, eval e = Ret v /\ kind_of v = expr_kind e.
Proof. exact (eval_returns e). Qed.
Print Assumptions C04_programs_return.
Example C04_ex : eval (ECompl (EInter (EUnion (EVal (rng 0 3)) (EVal (rfrom 5))) (ECompl (EVal (rngi 6 7)))))
  = Ret (VUBS (UBS (UBR (UB (Excluded 0))) (BS [pc 3 5; BR (LB (Included 6)) (UB (Included 7))]))).
Proof. reflexivity. Qed.

(** ** C05: representation invariant *)
Theorem C05_sets_well_formed (T : Type) (OT : Ord T) (OL : OrdLaws T) (v : value T) : api v -> valid v.
Proof. exact (api_valid v). Qed.
Print Assumptions C05_sets_well_formed.
Example C05_ex : api (VLBS s2) /\ ~ valid (VBS (BS [pc 0 5; pc 3 8])).
Proof. exact (conj s2_api overlap_not_valid). Qed.

(** ** C06: expressions *)
(** Full statement: for every expression.  False when a sub-expression
    intersects two [LowerBoundedSet]s (C02), or starts from an exhausted
    [RangeInclusive] (C37); [good_expr] excludes exactly these. *)
Theorem C06_expressions_partial (T : Type) (OT : Ord T) (OL : OrdLaws T) (e : expr T) :
  good_expr e -> exists v, eval e = Ret v /\ forall t, contains v t = true <-> denote e t.
Proof. exact (eval_denote e). Qed.
Print Assumptions C06_expressions_partial.
Example C06_ex :
  good_expr (ECompl (EInter (EUnion (EVal (rng 0 3)) (EVal (rfrom 5))) (ECompl (EVal (rngi 6 7))))).
Proof. exact (conj (conj I I) (conj eq_refl eq_refl)). Qed.
(** Any nesting of unions and intersections of bounded values is right. *)
Theorem C06_bounded_expressions (T : Type) (OT : Ord T) (OL : OrdLaws T) (e : expr T) :
  bounded_expr e -> exists v, eval e = Ret v /\ forall t, contains v t = true <-> denote e t.
Proof. exact (eval_bounded e). Qed.
Print Assumptions C06_bounded_expressions.
Example C06_bounded_ex : bounded_expr (EInter (EUnion (EVal (rng 0 3)) (EVal (rngi 7 9))) (EUnion (EVal (rng 2 8)) (EVal (rng 1 2)))).
Proof. repeat split. Qed.

(** ** C07: is_empty *)
Theorem C07_is_empty_exact (T : Type) (OT : Ord T) (OL : OrdLaws T) (v : value T) :
  fresh v -> ((forall t, ~ mem v t) <-> is_empty v = true \/ degenerate v).
Proof. exact (empty_exact v). Qed.
Print Assumptions C07_is_empty_exact.
Theorem C07_is_empty_sound (T : Type) (OT : Ord T) (OL : OrdLaws T) (v : value T) (t : T) :
  is_empty v = true -> ~ mem v t.
Proof. exact (is_empty_no_mem v t). Qed.
Print Assumptions C07_is_empty_sound.
Theorem C07_is_empty_dense (T : Type) (OT : Ord T) (OL : OrdLaws T) (DO : DenseOrd T) (v : value T) :
  fresh v -> is_empty v = false -> exists t, mem v t.
Proof. exact (dense_nonempty v). Qed.
Print Assumptions C07_is_empty_dense.
Example C07_ex : is_empty (VBR (BR (LB (Excluded 3)) (UB (Excluded 3)))) = true
  /\ is_empty (rng 3 4) = false /\ is_empty (VBS bs_empty : value Z) = true.
Proof. repeat split. Qed.
Example C07_degenerate_ex : degenerate (VBR (BR (LB (Excluded 3)) (UB (Excluded 4)))).
Proof. exact (conj eq_refl open_gap_no_int). Qed.
Example C07_dense_ex : is_empty (VBR (BR (LB (Excluded 3%Q)) (UB (Excluded 4%Q)))) = false.
Proof. reflexivity. Qed.

(** ** C08: disjoint and intersects against elements *)
Theorem C08_disjoint_sound (T : Type) (OT : Ord T) (OL : OrdLaws T) (a b : value T) (t : T) :
  fresh a -> fresh b -> disjoint a b = Ret true -> ~ (mem a t /\ mem b t).
Proof. exact (disjoint_sound a b t). Qed.
Print Assumptions C08_disjoint_sound.
Example C08_ex : disjoint (VBS (BS [pc 0 3; pc 5 8])) (rng 3 5) = Ret true.
Proof. reflexivity. Qed.
(** Full converse: [intersects a b = Ret true -> exists t, mem a t /\ mem b t].
    False in general ([C08_refuted]); it holds on dense orders, for std ranges
    with a lower bound, and up to degenerate results. *)
Theorem C08_intersects_dense_partial (T : Type) (OT : Ord T) (OL : OrdLaws T) (DO : DenseOrd T) (a b : value T) :
  fresh a -> fresh b -> intersects a b = Ret true -> exists t, mem a t /\ mem b t.
Proof. exact (intersects_dense a b). Qed.
Print Assumptions C08_intersects_dense_partial.
Example C08_dense_ex : intersects (VBR (BR (LB (Excluded 3%Q)) (UB (Excluded 4%Q)))) (VLBR (LBR (LB (Excluded 3%Q)))) = Ret true.
Proof. reflexivity. Qed.
Theorem C08_intersects_std_partial (T : Type) (OT : Ord T) (OL : OrdLaws T) (a b : value T) :
  fresh a -> fresh b -> std_kind (kind_of a) = true -> std_kind (kind_of b) = true ->
  has_lower (kind_of a) || has_lower (kind_of b) = true ->
  (intersects a b = Ret true <-> exists t, mem a t /\ mem b t).
Proof. exact (intersects_std a b). Qed.
Print Assumptions C08_intersects_std_partial.
Example C08_std_ex : intersects (rng 0 5) (rto 1) = Ret true /\ intersects (rng 0 5) (rto 0) = Ret false.
Proof. split; reflexivity. Qed.
Theorem C08_disjoint_exact (T : Type) (OT : Ord T) (OL : OrdLaws T) (a b : value T) :
  fresh a -> fresh b -> both_lbs (kind_of a) (kind_of b) = false ->
  exists r, intersection a b = Ret r
    /\ ((forall t, ~ (mem a t /\ mem b t)) <-> disjoint a b = Ret true \/ degenerate r).
Proof. exact (disjoint_exact a b). Qed.
Print Assumptions C08_disjoint_exact.
Theorem C08_refuted :
  exists a b : value Z, api a /\ api b /\ intersects a b = Ret true /\ forall t, ~ (mem a t /\ mem b t).
Proof. exact intersects_refuted. Qed.
Print Assumptions C08_refuted.

(** ** C09: intersects = not disjoint; both symmetric *)
Theorem C09_disjoint_intersects (T : Type) (OT : Ord T) (OL : OrdLaws T) (a b : value T) :
  exists d, disjoint a b = Ret d /\ disjoint b a = Ret d
    /\ intersects a b = Ret (negb d) /\ intersects b a = Ret (negb d).
Proof. exact (disjoint_facts a b). Qed.
Print Assumptions C09_disjoint_intersects.
Example C09_ex : disjoint (VLBS s1) (rng (-3) 0) = Ret true /\ intersects (rngi (-3) 0) (VLBS s1) = Ret true.
Proof. split; reflexivity. Qed.

(** ** C10: order independence *)
Theorem C10_union_order_irrelevant (T : Type) (OT : Ord T) (OL : OrdLaws T) (l l' : list (BoundedRange T)) :
  Permutation l l' ->
  ret_eq (union_all (map VBR l) (VBS bs_empty)) (union_all (map VBR l') (VBS bs_empty)).
Proof. exact (br_union_perm l l'). Qed.
Print Assumptions C10_union_order_irrelevant.
(** The same for any mixture of the fifteen types and any starting set. *)
Theorem C10_union_order_irrelevant_any (T : Type) (OT : Ord T) (OL : OrdLaws T) (l l' : list (value T)) (v : value T) :
  is_set (kind_of v) = true -> valid v -> Forall valid l -> Permutation l l' ->
  ret_eq (union_all l v) (union_all l' v).
Proof. exact (valid_union_perm l l' v). Qed.
Print Assumptions C10_union_order_irrelevant_any.
Example C10_ex : union_all (map VBR [pc 4 6; pc 0 5; pc 8 9]) (VBS bs_empty) = Ret (VBS (BS [pc 0 6; pc 8 9]))
  /\ union_all (map VBR [pc 8 9; pc 0 5; pc 4 6]) (VBS bs_empty) = Ret (VBS (BS [pc 0 6; pc 8 9])).
Proof. split; reflexivity. Qed.

(** ** C11: laws of union up to [==] *)
Theorem C11_union_commutative (T : Type) (OT : Ord T) (OL : OrdLaws T) (a b : value T) :
  valid a -> valid b -> ret_eq (union a b) (union b a).
Proof. exact (valid_union_comm a b). Qed.
Print Assumptions C11_union_commutative.
Theorem C11_union_associative (T : Type) (OT : Ord T) (OL : OrdLaws T) (a b c : value T) :
  valid a -> valid b -> valid c ->
  ret_eq (x <- union a b ;; union x c) (y <- union b c ;; union a y).
Proof. exact (valid_union_assoc a b c). Qed.
Print Assumptions C11_union_associative.
Theorem C11_union_idempotent (T : Type) (OT : Ord T) (OL : OrdLaws T) (a : value T) :
  is_set (kind_of a) = true -> valid a -> ret_eq (union a a) (Ret a).
Proof. exact (valid_union_idem a). Qed.
Print Assumptions C11_union_idempotent.
Example C11_ex : valid (VLBS s1) /\ valid (VLBS s2)
  /\ union (VLBS s1) (VLBS s2) = Ret (VLBS (LBS (BS [pc (-5) (-3)]) (LBR (LB (Included 0))))).
Proof. exact (conj (api_valid _ s1_api) (conj (api_valid _ s2_api) eq_refl)). Qed.

(** ** C12: Boolean algebra *)
Theorem C12_de_morgan_union (T : Type) (OT : Ord T) (OL : OrdLaws T) (a b : expr T) :
  good_expr (EInter (ECompl a) (ECompl b)) ->
  same_contents (ECompl (EUnion a b)) (EInter (ECompl a) (ECompl b)).
Proof. exact (de_morgan_union a b). Qed.
Print Assumptions C12_de_morgan_union.
Theorem C12_de_morgan_intersection (T : Type) (OT : Ord T) (OL : OrdLaws T) (a b : expr T) :
  good_expr (EInter a b) -> same_contents (ECompl (EInter a b)) (EUnion (ECompl a) (ECompl b)).
Proof. exact (de_morgan_inter a b). Qed.
Print Assumptions C12_de_morgan_intersection.
Theorem C12_double_complement (T : Type) (OT : Ord T) (OL : OrdLaws T) (a : expr T) :
  good_expr a -> same_contents (ECompl (ECompl a)) a.
Proof. exact (double_complement a). Qed.
Print Assumptions C12_double_complement.
Theorem C12_distributivity (T : Type) (OT : Ord T) (OL : OrdLaws T) (a b c : expr T) :
  good_expr (EInter a (EUnion b c)) -> good_expr (EUnion (EInter a b) (EInter a c)) ->
  same_contents (EInter a (EUnion b c)) (EUnion (EInter a b) (EInter a c)).
Proof. exact (distrib_inter a b c). Qed.
Print Assumptions C12_distributivity.
Theorem C12_distributivity_dual (T : Type) (OT : Ord T) (OL : OrdLaws T) (a b c : expr T) :
  good_expr (EUnion a (EInter b c)) -> good_expr (EInter (EUnion a b) (EUnion a c)) ->
  same_contents (EUnion a (EInter b c)) (EInter (EUnion a b) (EUnion a c)).
Proof. exact (distrib_union a b c). Qed.
Print Assumptions C12_distributivity_dual.
Theorem C12_absorption_union (T : Type) (OT : Ord T) (OL : OrdLaws T) (a b : expr T) :
  good_expr (EInter a b) -> same_contents (EUnion a (EInter a b)) a.
Proof. exact (absorb_union a b). Qed.
Print Assumptions C12_absorption_union.
Theorem C12_absorption_intersection (T : Type) (OT : Ord T) (OL : OrdLaws T) (a b : expr T) :
  good_expr (EInter a (EUnion a b)) -> same_contents (EInter a (EUnion a b)) a.
Proof. exact (absorb_inter a b). Qed.
Print Assumptions C12_absorption_intersection.
Theorem C12_units (T : Type) (OT : Ord T) (OL : OrdLaws T) (a : expr T) :
  good_expr a ->
  same_contents (EUnion a nothing) a /\ same_contents (EInter a nothing) nothing
  /\ same_contents (EUnion a whole) whole /\ same_contents (EInter a whole) a
  /\ same_contents (EUnion a (ECompl a)) whole
  /\ (both_lbs (expr_kind a) (expr_kind (ECompl a)) = false -> same_contents (EInter a (ECompl a)) nothing).
Proof. exact (units a). Qed.
Print Assumptions C12_units.
Example C12_ex : good_expr (EInter (ECompl (EUnion (EVal (rng 0 3)) (EVal (rfrom 5)))) (ECompl (EVal (rngi 1 7))))
  /\ good_expr (EUnion (EInter (EVal (VLBS s1)) (EVal (rng 0 2))) (EInter (EVal (VLBS s1)) (EVal (rto 9)))).
Proof. repeat split. Qed.

(** ** C13: commutativity of intersection *)
(** Full statement: for all pairs.  False for two [LowerBoundedSet]s. *)
Theorem C13_intersection_commutative_partial (T : Type) (OT : Ord T) (OL : OrdLaws T) (a b : value T) :
  fresh a -> fresh b -> both_lbs (kind_of a) (kind_of b) = false ->
  exists x y, intersection a b = Ret x /\ intersection b a = Ret y /\ forall t, contains x t = contains y t.
Proof. exact (inter_same_contents a b). Qed.
Print Assumptions C13_intersection_commutative_partial.
(** Even up to [==]. *)
Theorem C13_intersection_commutative_eq_partial (T : Type) (OT : Ord T) (OL : OrdLaws T) (a b : value T) :
  valid a -> valid b -> both_lbs (kind_of a) (kind_of b) = false ->
  ret_eq (intersection a b) (intersection b a).
Proof. exact (valid_inter_comm a b). Qed.
Print Assumptions C13_intersection_commutative_eq_partial.
Example C13_ex : ret_eq (intersection (VLBS s1) (rng (-4) 7)) (Ret (VBS (BS [pc (-4) (-3); pc 0 7]))).
Proof. eexists. eexists. repeat split. Qed.
Theorem C13_refuted :
  exists (a b x y : value Z) (t : Z),
    api a /\ api b /\ intersection a b = Ret x /\ intersection b a = Ret y /\ contains x t = false /\ contains y t = true.
Proof. exact inter_comm_refuted. Qed.
Print Assumptions C13_refuted.

(** ** C14: to_inner and to_set *)
Theorem C14_conversions (T : Type) (OT : Ord T) (OL : OrdLaws T) (v : value T) (t : T) :
  (mem (value_of_inner (to_inner v)) t <-> mem (refreshed v) t)
  /\ (mem (value_of_set (to_set v)) t <-> mem (refreshed v) t)
  /\ to_inner (value_of_inner (to_inner v)) = to_inner v
  /\ to_set (value_of_set (to_set v)) = to_set v.
Proof. exact (conversions_ok v t). Qed.
Print Assumptions C14_conversions.
Theorem C14_empty_to_set (T : Type) (OT : Ord T) (OL : OrdLaws T) (r : BoundedRange T) :
  is_empty (VBR r) = true <-> value_of_set (to_set (VBR r)) = VBS (BS []).
Proof. exact (empty_to_set r). Qed.
Print Assumptions C14_empty_to_set.
Example C14_ex : to_set (rng 5 3) = SBS (BS []) /\ to_set (rng 3 5) = SBS (BS [pc 3 5]) /\ to_inner (rfrom 2) = ILBR (LBR (LB (Included 2))).
Proof. repeat split. Qed.

(** ** C15: bounds *)
Theorem C15_lower_bounds_ordered (T : Type) (OT : Ord T) (OL : OrdLaws T) (x y z : LowerBound T) :
  lb_cmp y x = CompOpp (lb_cmp x y)
  /\ (lb_cmp x y <> Gt -> lb_cmp y z <> Gt -> lb_cmp x z <> Gt)
  /\ (lb_cmp x y = Eq <-> lb_eqb x y = true)
  /\ lb_partial_cmp x y = Some (lb_cmp x y).
Proof. exact (lb_order x y z). Qed.
Print Assumptions C15_lower_bounds_ordered.
Theorem C15_upper_bounds_ordered (T : Type) (OT : Ord T) (OL : OrdLaws T) (x y z : UpperBound T) :
  ub_cmp y x = CompOpp (ub_cmp x y)
  /\ (ub_cmp x y <> Gt -> ub_cmp y z <> Gt -> ub_cmp x z <> Gt)
  /\ (ub_cmp x y = Eq <-> ub_eqb x y = true)
  /\ ub_partial_cmp x y = Some (ub_cmp x y).
Proof. exact (ub_order x y z). Qed.
Print Assumptions C15_upper_bounds_ordered.
Theorem C15_lower_half_lines (T : Type) (OT : Ord T) (OL : OrdLaws T) (x y : LowerBound T) (t : T) :
  (lb_cmp x y <> Gt -> above y t -> above x t)
  /\ (above (lb_max x y) t <-> above x t /\ above y t)
  /\ (above (lb_min x y) t <-> above x t \/ above y t).
Proof. exact (lb_halflines x y t). Qed.
Print Assumptions C15_lower_half_lines.
Theorem C15_upper_half_lines (T : Type) (OT : Ord T) (OL : OrdLaws T) (x y : UpperBound T) (t : T) :
  (ub_cmp x y <> Gt -> below x t -> below y t)
  /\ (below (ub_min x y) t <-> below x t /\ below y t)
  /\ (below (ub_max x y) t <-> below x t \/ below y t).
Proof. exact (ub_halflines x y t). Qed.
Print Assumptions C15_upper_half_lines.
Example C15_ex : lb_cmp (LB (Included 3)) (LB (Excluded 3)) = Lt /\ ub_cmp (UB (Included 3)) (UB (Excluded 3)) = Gt
  /\ lb_max (LB (Included 3)) (LB (Excluded 3)) = LB (Excluded 3).
Proof. repeat split. Qed.

(** ** C16: equality and contents *)
Theorem C16_equal_sets_same_contents (T : Type) (OT : Ord T) (OL : OrdLaws T) (a b : value T) (t : T) :
  value_eqb a b = true -> (mem a t <-> mem b t).
Proof. exact (valid_same_places_eq a b t). Qed.
Print Assumptions C16_equal_sets_same_contents.
Example C16_ex : value_eqb (VBS (BS [pc 0 3])) (VBS (BS [pc 0 3])) = true.
Proof. reflexivity. Qed.
(** Full converse: well-formed sets of one type with the same contents are
    [==].  It fails, because touching pieces are not merged: *)
Theorem C16_refuted :
  exists a b : value Z, api a /\ api b /\ kind_of a = KBoundedSet /\ kind_of b = KBoundedSet
    /\ (forall t, contains a t = contains b t) /\ value_eqb a b = false.
Proof. exact eq_refuted. Qed.
Print Assumptions C16_refuted.

(** ** C17: result types *)
Theorem C17_result_types (T : Type) (OT : Ord T) (OL : OrdLaws T) (a b r : value T) :
  (union a b = Ret r -> kind_of r = union_kind (kind_of a) (kind_of b))
  /\ (intersection a b = Ret r -> kind_of r = inter_kind (kind_of a) (kind_of b))
  /\ (complement a = Ret r -> kind_of r = compl_kind (kind_of a))
  /\ kind_of (value_of_inner (to_inner a)) = inner_kind (kind_of a)
  /\ kind_of (value_of_set (to_set a)) = set_kind (kind_of a).
Proof. exact (kinds_ok a b r). Qed.
Print Assumptions C17_result_types.
Theorem C17_bounded_below_iterable (T : Type) (OT : Ord T) (OL : OrdLaws T) (v : value T) :
  has_lower (kind_of v) = true <-> iterable (kind_of v) = true.
Proof. exact (lower_iterable v). Qed.
Print Assumptions C17_bounded_below_iterable.
Example C17_ex : union_kind KRange KRangeFrom = KLowerBoundedSet /\ inter_kind KRangeFrom KRangeTo = KBoundedRange
  /\ compl_kind KRange = KUnboundedSet /\ inter_kind KUnboundedSet KRangeFull = KUnboundedSet.
Proof. repeat split. Qed.

(** ** C44: flipping and mapping *)
Theorem C44_flipped (T : Type) (OT : Ord T) (OL : OrdLaws T) (b : Bound T) (t : T) :
  flipped (flipped b) = b
  /\ (below (UB (flipped b)) t <-> ~ above (LB b) t)
  /\ (above (LB (flipped b)) t <-> ~ below (UB b) t).
Proof. exact (flipped_ok b t). Qed.
Print Assumptions C44_flipped.
Theorem C44_map_functor (A B C : Type) (f : A -> B) (g : B -> C) (l : LowerBound A) (u : UpperBound A) :
  lb_map (fun x => x) l = l /\ ub_map (fun x => x) u = u
  /\ lb_map g (lb_map f l) = lb_map (fun x => g (f x)) l
  /\ ub_map g (ub_map f u) = ub_map (fun x => g (f x)) u.
Proof. exact (map_functor A B C f g l u). Qed.
Print Assumptions C44_map_functor.
Theorem C44_map_monotone (T U : Type) (OT : Ord T) (OL : OrdLaws T) (OU : Ord U) (OLU : OrdLaws U) (f : T -> U) :
  (forall a b, cmp a b = Lt -> cmp (f a) (f b) = Lt) -> (forall a b, cmp a b = Eq -> cmp (f a) (f b) = Eq) ->
  (forall (l : LowerBound T) (t : T), above (lb_map f l) (f t) <-> above l t)
  /\ (forall (u : UpperBound T) (t : T), below (ub_map f u) (f t) <-> below u t)
  /\ (forall x y : LowerBound T, lb_cmp (lb_map f x) (lb_map f y) = lb_cmp x y)
  /\ (forall x y : UpperBound T, ub_cmp (ub_map f x) (ub_map f y) = ub_cmp x y).
Proof. exact (map_monotone f). Qed.
Print Assumptions C44_map_monotone.
Example C44_ex : flipped (Included 3) = Excluded 3 /\ lb_map (fun x => 2 * x) (LB (Excluded 3)) = LB (Excluded 6)
  /\ (forall a b : Z, cmp a b = Lt -> cmp (2 * a) (2 * b) = Lt).
Proof. exact (conj eq_refl (conj eq_refl double_mono)). Qed.

(** ** C45: piece counts and endpoints *)
Theorem C45_union_pieces (T : Type) (OT : Ord T) (OL : OrdLaws T) (l : list (BoundedRange T)) :
  exists s, union_all (map VBR l) (VBS bs_empty) = Ret (VBS s)
    /\ (length (bs_ranges s) <= length l)%nat
    /\ (forall r, In r (bs_ranges s) ->
          In (br_start r) (map br_start l) /\ In (br_end r) (map br_end l)).
Proof. exact (unite_pieces l). Qed.
Print Assumptions C45_union_pieces.
Example C45_ex : union_all (map VBR [pc 4 6; pc 0 5; pc 8 9; pc 7 2]) (VBS bs_empty) = Ret (VBS (BS [pc 0 6; pc 8 9])).
Proof. reflexivity. Qed.

(** ** C46: union is the least upper bound *)
Theorem C46_union_least (T : Type) (OT : Ord T) (OL : OrdLaws T) (a b : value T) :
  fresh a -> fresh b ->
  exists r, union a b = Ret r
    /\ (forall t, mem a t -> mem r t) /\ (forall t, mem b t -> mem r t)
    /\ (forall P : T -> Prop, (forall t, mem a t -> P t) -> (forall t, mem b t -> P t) -> forall t, mem r t -> P t).
Proof. exact (union_least a b). Qed.
Print Assumptions C46_union_least.
Theorem C46_union_monotone (T : Type) (OT : Ord T) (OL : OrdLaws T) (a a' b b' r r' : value T) :
  fresh a -> fresh b -> fresh a' -> fresh b' ->
  (forall t, mem a t -> mem a' t) -> (forall t, mem b t -> mem b' t) ->
  union a b = Ret r -> union a' b' = Ret r' -> forall t, mem r t -> mem r' t.
Proof. exact (union_monotone a a' b b' r r'). Qed.
Print Assumptions C46_union_monotone.
Example C46_ex : union (rng 0 3) (rng 5 6) = Ret (VBS (BS [pc 0 3; pc 5 6])) /\ union (rng 0 4) (rng 3 6) = Ret (VBS (BS [pc 0 6])).
Proof. split; reflexivity. Qed.
