(** Property theorems C61 and C62 and the exact form of C16: what [==] on values
    means, that it is respected by everything, and that the endpoints matter
    only through how they compare.

    Reading guide: [map_value f] / [map_expr f] replace the endpoints written in
    a value / a program, [onto] does so in the answer of a computation,
    [keeps_order f] says that [f] keeps every comparison (SpecMap.v).
    [joined v b]: somewhere in [v] one part ends exactly where another begins,
    with the lower bound [b] (SpecBounds.v). *)
From Coq Require Import QArith Lia.
From Verif Require Import Base ModelBound ModelRanges ModelSets ModelAlgebra ModelValue ModelEq
  Spec SpecBounds SpecMap Instances ValueProofs SpecFill Canon EqProofs JointProofs NaturalProofs CongProofs FillProofs.
Open Scope Z_scope.

(** ** C16: exactly when two sets are [==] *)
(** Same contents and the same touching places, when the bounds are half-open or
    the order is dense.  Without either, [3..=4] and [3..5] differ. *)
Theorem C16_exact_half_open (T : Type) (OT : Ord T) (OL : OrdLaws T) (a b : value T) :
  is_set (kind_of a) = true -> kind_of a = kind_of b -> valid a -> valid b -> half_open a -> half_open b ->
  (value_eqb a b = true <-> (forall t, mem a t <-> mem b t) /\ (forall x, joined a x <-> joined b x)).
Proof. exact (exact_half_open a b). Qed.
Print Assumptions C16_exact_half_open.
Theorem C16_exact_dense (T : Type) (OT : Ord T) (OL : OrdLaws T) (DO : DenseOrd T) (a b : value T) :
  is_set (kind_of a) = true -> kind_of a = kind_of b -> valid a -> valid b ->
  (value_eqb a b = true <-> (forall t, mem a t <-> mem b t) /\ (forall x, joined a x <-> joined b x)).
Proof. exact (exact_dense a b). Qed.
Print Assumptions C16_exact_dense.
(** [(2..4).union(4..6)] and [2..6] as sets: the same contents, told apart by
    the place where the first is joined. *)
Example C16_exact_ex :
  valid (VBS (BS [pc 2 4; pc 4 6])) /\ valid (VBS (BS [pc 2 6]))
  /\ half_open (VBS (BS [pc 2 4; pc 4 6])) /\ half_open (VBS (BS [pc 2 6]))
  /\ (forall t, mem (VBS (BS [pc 2 4; pc 4 6])) t <-> mem (VBS (BS [pc 2 6])) t)
  /\ joined (VBS (BS [pc 2 4; pc 4 6])) (Included 4) /\ ~ joined (VBS (BS [pc 2 6])) (Included 4)
  /\ value_eqb (VBS (BS [pc 2 4; pc 4 6])) (VBS (BS [pc 2 6])) = false.
Proof.
  split; [apply valid_wf; reflexivity|]. split; [apply valid_wf; reflexivity|].
  split; [split; intros x Hx; simpl in Hx; repeat (destruct Hx as [<-|Hx]; [eexists; reflexivity|]); destruct Hx|].
  split; [split; intros x Hx; simpl in Hx; repeat (destruct Hx as [<-|Hx]; [eexists; reflexivity|]); destruct Hx|].
  split; [|split; [|split; [|reflexivity]]].
  - intros t. rewrite <- !contains_mem. cbn [contains]. unfold bs_contains, br_contains. cbn [existsb bs_ranges pc br_start br_end lb_bound ub_bound].
    unfold t_gt, t_ge, t_lt, t_le, t_partial_cmp. cbn [cmp OrdZ].
    destruct (Z.compare_spec t 2), (Z.compare_spec t 4), (Z.compare_spec t 6); cbn; split; intros; try reflexivity; try discriminate; lia.
  - exists (UB (Excluded 4)), (LB (Included 4)). simpl. auto.
  - intros (u & l & Hu & Hl & T1 & T2). simpl in Hu, Hl. destruct Hu as [<-|[]], Hl as [<-|[]]. discriminate T1.
Qed.

(** ** C61: [==] is an equivalence that everything respects *)
Theorem C61_equivalence (T : Type) (OT : Ord T) (OL : OrdLaws T) (a b c : value T) :
  value_eqb a a = true
  /\ (value_eqb a b = true -> value_eqb b a = true)
  /\ (value_eqb a b = true -> value_eqb b c = true -> value_eqb a c = true).
Proof. exact (conj (value_eqb_refl a) (conj (value_eqb_sym a b) (value_eqb_trans a b c))). Qed.
Print Assumptions C61_equivalence.
(** No invariant is assumed: also for sets that deserialising made ill-formed. *)
Theorem C61_congruence (T : Type) (OT : Ord T) (OL : OrdLaws T) (a a' b b' : value T) (t t' : T) :
  value_eqb a a' = true -> value_eqb b b' = true -> teq t t' = true ->
  same_answer (union a b) (union a' b')
  /\ same_answer (intersection a b) (intersection a' b')
  /\ same_answer (complement a) (complement a')
  /\ disjoint a b = disjoint a' b'
  /\ intersects a b = intersects a' b'
  /\ contains a t = contains a' t'
  /\ is_empty a = is_empty a'.
Proof.
  intros A B E. split; [apply cong_union; assumption|]. split; [apply cong_intersection; assumption|]. split; [apply cong_complement; assumption|].
  split; [apply cong_disjoint; assumption|]. split; [unfold intersects; rewrite (cong_disjoint a a' b b' A B); reflexivity|].
  split; [apply cong_contains; assumption|]. apply cong_is_empty; assumption.
Qed.
Print Assumptions C61_congruence.
Theorem C61_programs (T : Type) (OT : Ord T) (OL : OrdLaws T) (e e' : expr T) :
  same_program e e' -> same_answer (eval e) (eval e').
Proof. exact (cong_eval e e'). Qed.
Print Assumptions C61_programs.
(** Rationals written differently, in [(1/2..3).union(4..=5)] without [1..9/2],
    and a set with an overlap, which no program makes. *)
Definition e61 (half four : Q) : expr Q :=
  EInter (EUnion (EVal (VRange (mkRange half 3%Q))) (EVal (VRangeInclusive (mkRangeInclusive four 5%Q false))))
         (ECompl (EVal (VRange (mkRange 1%Q (9 # 2))))).
Example C61_ex :
  same_program (e61 (1 # 2) 4) (e61 (2 # 4) (8 # 2))
  /\ eval (e61 (1 # 2) 4) = Ret (VBS (BS [BR (LB (Included (1 # 2)%Q)) (UB (Excluded 1%Q)); BR (LB (Included (9 # 2)%Q)) (UB (Included 5%Q))]))
  /\ eval (e61 (2 # 4) (8 # 2)) = Ret (VBS (BS [BR (LB (Included (2 # 4)%Q)) (UB (Excluded 1%Q)); BR (LB (Included (9 # 2)%Q)) (UB (Included 5%Q))]))
  /\ value_eqb (VBS (BS [BR (LB (Included (1 # 2)%Q)) (UB (Excluded 3%Q)); BR (LB (Excluded 1%Q)) (UB (Excluded 2%Q))]))
               (VBS (BS [BR (LB (Included (2 # 4)%Q)) (UB (Excluded (6 # 2)%Q)); BR (LB (Excluded (3 # 3)%Q)) (UB (Excluded 2%Q))])) = true.
Proof. repeat split; reflexivity. Qed.

(** ** C62: endpoints matter only through comparisons *)
(** For any [cmp] and [==] whatsoever. *)
Theorem C62_operations (T U : Type) (OT : Ord T) (OU : Ord U) (f : T -> U) (a b : value T) (t : T) :
  keeps_order f ->
  union (map_value f a) (map_value f b) = onto (map_value f) (union a b)
  /\ intersection (map_value f a) (map_value f b) = onto (map_value f) (intersection a b)
  /\ complement (map_value f a) = onto (map_value f) (complement a)
  /\ disjoint (map_value f a) (map_value f b) = disjoint a b
  /\ intersects (map_value f a) (map_value f b) = intersects a b
  /\ contains (map_value f a) (f t) = contains a t
  /\ is_empty (map_value f a) = is_empty a
  /\ value_eqb (map_value f a) (map_value f b) = value_eqb a b.
Proof.
  intros K. repeat split; [apply n_union|apply n_intersection|apply n_complement|apply n_disjoint|apply n_intersects|apply n_contains|apply n_is_empty|apply n_eqb]; exact K.
Qed.
Print Assumptions C62_operations.
Theorem C62_programs (T U : Type) (OT : Ord T) (OU : Ord U) (f : T -> U) (e : expr T) :
  keeps_order f -> eval (map_expr f e) = onto (map_value f) (eval e).
Proof. intros K. exact (n_eval f K e). Qed.
Print Assumptions C62_programs.
(** Every program, over any type, does what it does when its endpoints are
    replaced by the integers [0 .. n-1] in the same order, and an element is in
    its result if and only if its place among the endpoints is in the result on
    integers.  [l] lists the endpoints and the elements asked about. *)
Theorem C62_small_integers (T : Type) (OT : Ord T) (OL : OrdLaws T) (e : expr T) (l : list T) :
  (forall v t, In v (leaves e) -> In t (endpoints v) -> In t l) ->
  (forall t, In t l -> 0 <= rank_in l t < Z.of_nat (length l))
  /\ eval (map_expr (rank_in l) e) = onto (map_value (rank_in l)) (eval e)
  /\ forall v t, eval e = Ret v -> In t l -> contains (map_value (rank_in l) v) (rank_in l t) = contains v t.
Proof. intros H. split; [intros t I; apply (rank_small l t I)|]. exact (small_eval l e H). Qed.
Print Assumptions C62_small_integers.
Example C62_ex :
  keeps_order (fun x : Z => inject_Z (2 * x + 1))
  /\ union (map_value (fun x => inject_Z (2 * x + 1)) (VBS (BS [pc 0 3; pc 5 6]))) (map_value (fun x => inject_Z (2 * x + 1)) (VRange (mkRange 2 5)))
     = Ret (VBS (BS [BR (LB (Included 1%Q)) (UB (Excluded 11%Q)); BR (LB (Included 11%Q)) (UB (Excluded 13%Q))])).
Proof.
  split; [|reflexivity]. intros a b. cbn [cmp teq OrdZ OrdQ]. unfold Qcompare, Qeq_bool, inject_Z. cbn [Qnum Qden]. rewrite !Z.mul_1_r. split.
  - destruct (Z.compare_spec a b); [subst; apply Z.compare_refl|apply Z.compare_lt_iff; lia|apply Z.compare_gt_iff; lia].
  - destruct (Z.eqb_spec a b) as [->|N]; [apply Zeq_is_eq_bool; reflexivity|]. destruct (Zeq_bool _ _) eqn:Q; [|reflexivity]. apply Zeq_bool_eq in Q. lia.
Qed.
Example C62_small_ex :
  map_expr (rank_in [(1 # 2)%Q; 4%Q; 3%Q; 5%Q; 1%Q; (9 # 2)%Q]) (e61 (1 # 2) 4)
  = EInter (EUnion (EVal (VRange (mkRange 0 2))) (EVal (VRangeInclusive (mkRangeInclusive 3 5 false)))) (ECompl (EVal (VRange (mkRange 1 4))))
  /\ onto (map_value (rank_in [(1 # 2)%Q; 4%Q; 3%Q; 5%Q; 1%Q; (9 # 2)%Q])) (eval (e61 (1 # 2) 4))
     = Ret (VBS (BS [pc 0 1; BR (LB (Included 4)) (UB (Included 5))])).
Proof. split; reflexivity. Qed.

(** ** C06, C07, C08, C16: exactly what happens on orders with gaps *)
(** Every type is treated as if there were further points between any two of
    its elements and beyond its extremes ([covers], [denotes]: SpecFill.v).  On
    those points the answers are exactly right; what is wrong on discrete types
    is wrong because such points do not exist there. *)
Theorem C06_filled (T : Type) (OT : Ord T) (OL : OrdLaws T) (e : expr T) :
  good_expr e -> exists v, eval e = Ret v /\ forall p, covers v p <-> denotes e p.
Proof. exact (eval_filled e). Qed.
Print Assumptions C06_filled.
Theorem C07_filled_exact (T : Type) (OT : Ord T) (OL : OrdLaws T) (t0 : T) (v : value T) :
  fresh v -> (is_empty v = true <-> forall p, ~ covers v p).
Proof. exact (is_empty_filled t0 v). Qed.
Print Assumptions C07_filled_exact.
Theorem C08_filled_exact (T : Type) (OT : Ord T) (OL : OrdLaws T) (t0 : T) (a b : value T) :
  fresh a -> fresh b -> (intersects a b = Ret true <-> exists p, covers a p /\ covers b p).
Proof. exact (intersects_filled t0 a b). Qed.
Print Assumptions C08_filled_exact.
(** With C16_refuted this settles [==] for all sets on all orders. *)
Theorem C16_filled_exact (T : Type) (OT : Ord T) (OL : OrdLaws T) (t0 : T) (a b : value T) :
  is_set (kind_of a) = true -> kind_of a = kind_of b -> valid a -> valid b ->
  (value_eqb a b = true <-> (forall p, covers a p <-> covers b p) /\ (forall x, joined a x <-> joined b x)).
Proof. exact (eq_filled t0 a b). Qed.
Print Assumptions C16_filled_exact.
(** The points that are elements are those of [mem]. *)
Theorem C08_filled_elements (T : Type) (OT : Ord T) (OL : OrdLaws T) (v : value T) (t : T) : covers v (point t) <-> mem v t.
Proof. exact (covers_point v t). Qed.
Print Assumptions C08_filled_elements.
(** Between 3 and 4 there is no integer, but [(3, 1)], just after 3, is a point;
    so [3..=4] and [3..5] differ at the point just after 4. *)
Example C08_filled_ex :
  covers (VBR (BR (LB (Excluded 3)) (UB (Excluded 4)))) (3, 1%Q)
  /\ is_empty (VBR (BR (LB (Excluded 3)) (UB (Excluded 4)))) = false
  /\ intersects (VBR (BR (LB (Excluded 3)) (UB (Excluded 4)))) (rng 2 9) = Ret true
  /\ covers (VBS (BS [pc 3 5])) (4, 1%Q) /\ ~ covers (VBS (BS [BR (LB (Included 3)) (UB (Included 4))])) (4, 1%Q)
  /\ value_eqb (VBS (BS [pc 3 5])) (VBS (BS [BR (LB (Included 3)) (UB (Included 4))])) = false.
Proof.
  split; [split; reflexivity|]. split; [reflexivity|]. split; [reflexivity|].
  split; [eexists; split; [left; reflexivity|split; [discriminate|reflexivity]]|]. split; [|reflexivity].
  intros (r & [<-|[]] & _ & H). apply H. reflexivity.
Qed.
