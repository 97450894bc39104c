(** Property theorems C47-C52 and more on C08 and C16: the bounds that occur in
    results, hashing, and iterating the results of programs.

    Reading guide: [lows v] / [highs v] are the lower / upper bounds written in
    a value, [endpoints v] the elements at those bounds, [leaves e] the values a
    program starts from (SpecBounds.v, SpecMore.v). *)
From Coq Require Import QArith Lia.
From Verif Require Import Base ModelBound ModelRanges ModelSets ModelAlgebra ModelValue ModelEq ModelHash ModelStep ModelIter
  Spec SpecBounds Reach SpecStep SpecIter SpecMore Instances Laws2 Provenance BoundsProofs HashProofs MoreProofs
  StepProofs InstancesStep StepLemmas IterProofs4 IterLemmas.
Open Scope Z_scope.

(** ** C06, programs that intersect two [LowerBoundedSet]s *)
(** That intersection omits elements and never adds any.  So below an even
    number of complements it leaves results without wrong elements, and below
    an odd number without missing ones. *)
Theorem C06_nothing_too_much (T : Type) (OT : Ord T) (OL : OrdLaws T) (e : expr T) :
  one_sided true e -> exists v, eval e = Ret v /\ forall t, contains v t = true -> denote e t.
Proof. intros G. destruct (eval_one_sided e true G) as (v & E & _ & _ & H). exists v. exact (conj E H). Qed.
Print Assumptions C06_nothing_too_much.
Theorem C06_nothing_missing (T : Type) (OT : Ord T) (OL : OrdLaws T) (e : expr T) :
  one_sided false e -> exists v, eval e = Ret v /\ forall t, denote e t -> contains v t = true.
Proof. intros G. destruct (eval_one_sided e false G) as (v & E & _ & _ & H). exists v. exact (conj E H). Qed.
Print Assumptions C06_nothing_missing.
(** Beyond all the endpoints a program is written with its result is right,
    whatever it intersects. *)
Theorem C06_beyond_endpoints (T : Type) (OT : Ord T) (OL : OrdLaws T) (e : expr T) (t : T) :
  (forall x, In x (leaves e) -> fresh x) ->
  (forall x a, In x (leaves e) -> In a (endpoints x) -> lt a t) ->
  exists v, eval e = Ret v /\ (contains v t = true <-> denote e t).
Proof. intros F A. destruct (eval_above e t F A) as (v & E & _ & _ & H). exists v. exact (conj E H). Qed.
Print Assumptions C06_beyond_endpoints.
(** The program of [C02_refuted], and its complement: 6 is lost, then gained. *)
Example C06_one_sided_ex :
  let e := EInter (ESet (EVal (rfrom 5))) (EUnion (EVal (rng 6 7)) (EVal (rfrom 9))) in
  one_sided true e /\ ~ one_sided false e /\ one_sided false (ECompl e)
  /\ (denote e 6 /\ exists v, eval e = Ret v /\ contains v 6 = false /\ contains v 10 = true)
  /\ (~ denote (ECompl e) 6 /\ exists v, eval (ECompl e) = Ret v /\ contains v 6 = true).
Proof.
  simpl. split; [|split; [|split; [|split]]].
  - repeat split; discriminate.
  - intros (_ & _ & N). discriminate (N eq_refl).
  - repeat split; discriminate.
  - split; [|eexists; repeat split]. vm_compute. intuition discriminate.
  - split; [|eexists; repeat split]. vm_compute. intuition discriminate.
Qed.

(** Writing every intersection out both ways round repairs every program,
    whatever the types it intersects. *)
Theorem C06_both_ways (T : Type) (OT : Ord T) (OL : OrdLaws T) (e : expr T) :
  (forall x, In x (leaves e) -> fresh x) ->
  exists v, eval (both_ways e) = Ret v /\ forall t, contains v t = true <-> denote e t.
Proof. intros F. destruct (eval_both_ways e F) as (v & E & _ & H). exists v. exact (conj E H). Qed.
Print Assumptions C06_both_ways.
Example C06_both_ways_ex :
  let e := EInter (ESet (EVal (rfrom 5))) (EUnion (EVal (rng 6 7)) (EVal (rfrom 9))) in
  eval e = Ret (VLBS (LBS (BS []) (LBR (LB (Included 9)))))
  /\ eval (both_ways e) = Ret (VLBS (LBS (BS [pc 6 7]) (LBR (LB (Included 9))))).
Proof. split; reflexivity. Qed.

(** ** C02, C13: which order of two [LowerBoundedSet]s to choose *)
(** The one that calls [intersection] on the set whose half-line starts later;
    and the two orders together always give everything. *)
Theorem C02_later_start_first (T : Type) (OT : Ord T) (OL : OrdLaws T) (a b : LowerBoundedSet T) :
  lb_cmp (lbr_start (lbs_lbr b)) (lbr_start (lbs_lbr a)) <> Gt ->
  exists r, intersection (VLBS a) (VLBS b) = Ret r /\ forall t, contains r t = true <-> mem (VLBS a) t /\ mem (VLBS b) t.
Proof. intros L. destruct (lbs_lbs_order a b) as (x & y & E & _ & H & _). exists x. exact (conj E (H L)). Qed.
Print Assumptions C02_later_start_first.
(** So the two orders have the same contents only if both are right. *)
Theorem C13_lbs_lbs_exact (T : Type) (OT : Ord T) (OL : OrdLaws T) (a b : LowerBoundedSet T) :
  exists x y, intersection (VLBS a) (VLBS b) = Ret x /\ intersection (VLBS b) (VLBS a) = Ret y
  /\ (forall t, contains x t = true \/ contains y t = true <-> mem (VLBS a) t /\ mem (VLBS b) t)
  /\ ((forall t, contains x t = contains y t) <->
      forall t, mem (VLBS a) t -> mem (VLBS b) t ->
        (above (lbr_start (lbs_lbr b)) t \/ in_pieces (bs_ranges (lbs_ranges a)) t)
        /\ (above (lbr_start (lbs_lbr a)) t \/ in_pieces (bs_ranges (lbs_ranges b)) t)).
Proof.
  destruct (lbs_lbs_order a b) as (x & y & Ex & Ey & _ & _ & U & H). exists x, y.
  exact (conj Ex (conj Ey (conj U H))).
Qed.
Print Assumptions C13_lbs_lbs_exact.
(** [{6..7, 9..}] and [{5..}]: from the left 6 is kept, from the right lost. *)
Example C13_lbs_ex :
  let a := LBS (BS [pc 6 7]) (LBR (LB (Included 9))) in let b := LBS (BS []) (LBR (LB (Included 5))) in
  lb_cmp (lbr_start (lbs_lbr b)) (lbr_start (lbs_lbr a)) = Lt
  /\ (exists x, intersection (VLBS a) (VLBS b) = Ret x /\ contains x 6 = true)
  /\ (exists y, intersection (VLBS b) (VLBS a) = Ret y /\ contains y 6 = false).
Proof. split; [reflexivity|split; eexists; split; reflexivity]. Qed.

(** ** C08, for ranges and sets whose starts are inclusive *)
(** Missing for the full claim: operands with excluded starts (C08_refuted) or
    both without a lower bound, as [..0u8] with itself.  Includes the
    intersection of two lower-bounded sets. *)
Theorem C08_intersects_inclusive_partial (T : Type) (OT : Ord T) (OL : OrdLaws T) (a b : value T) :
  fresh a -> fresh b -> closed_below a -> closed_below b ->
  has_lower (kind_of a) || has_lower (kind_of b) = true ->
  (intersects a b = Ret true <-> exists t, mem a t /\ mem b t).
Proof. exact (intersects_closed a b). Qed.
Print Assumptions C08_intersects_inclusive_partial.
Example C08_inclusive_ex :
  closed_below (VBS (BS [pc 0 3; BR (LB (Included 5)) (UB (Included 8))]))
  /\ intersects (VBS (BS [pc 0 3; BR (LB (Included 5)) (UB (Included 8))])) (VUBR (UBR (UB (Excluded 0)))) = Ret false
  /\ intersects (VBS (BS [pc 0 3; BR (LB (Included 5)) (UB (Included 8))])) (rngi 8 9) = Ret true.
Proof. split; [|split; reflexivity]. intros l [<-|[<-|[]]]; eexists; reflexivity. Qed.

(** ** C16, the converse *)
(** Missing for the full converse: sets with touching pieces (C16_refuted), and
    on discrete orders bounds that are not half-open: [3..=4] and [3..5]. *)
Theorem C16_same_contents_half_open_partial (T : Type) (OT : Ord T) (OL : OrdLaws T) (a b : value T) :
  is_set (kind_of a) = true -> kind_of a = kind_of b -> valid a -> valid b -> separated a -> separated b ->
  half_open a -> half_open b ->
  (forall t, mem a t <-> mem b t) -> value_eqb a b = true.
Proof. exact (same_value_half_open a b). Qed.
Print Assumptions C16_same_contents_half_open_partial.
Theorem C16_same_contents_dense_partial (T : Type) (OT : Ord T) (OL : OrdLaws T) (DO : DenseOrd T) (a b : value T) :
  is_set (kind_of a) = true -> kind_of a = kind_of b -> valid a -> valid b -> separated a -> separated b ->
  (forall t, mem a t <-> mem b t) -> value_eqb a b = true.
Proof. exact (same_value_dense a b). Qed.
Print Assumptions C16_same_contents_dense_partial.
Example C16_half_open_ex :
  separated (VUBS (UBS (UBR (UB (Excluded 0))) (BS [pc 2 3; pc 4 6]))) /\ half_open (VUBS (UBS (UBR (UB (Excluded 0))) (BS [pc 2 3; pc 4 6])))
  /\ ~ separated (VBS (BS [pc 2 4; pc 4 6])).
Proof.
  split; [|split; [split|]].
  - intros u l Hu Hl T. simpl in Hu, Hl. destruct Hu as [<-|[<-|[<-|[]]]], Hl as [<-|[<-|[]]]; discriminate T.
  - intros l [<-|[<-|[]]]; eexists; reflexivity.
  - intros l [<-|[<-|[<-|[]]]]; eexists; reflexivity.
  - intros S. apply (S (UB (Excluded 4)) (LB (Included 4))); simpl; auto.
Qed.
Example C16_dense_ex : separated (VBS (BS [BR (LB (Excluded 0%Q)) (UB (Excluded 1%Q)); BR (LB (Excluded 1%Q)) (UB (Included 2%Q))])).
Proof. intros u l Hu Hl T. simpl in Hu, Hl. destruct Hu as [<-|[<-|[]]], Hl as [<-|[<-|[]]]; try discriminate T; exact T. Qed.

(** ** C26, iterators without an end *)
(** They report at least [usize::MAX] elements and no upper limit; no call ever
    answers [None], and in release builds of the integer types every sequence of
    [next] calls is answered, so that is never more than there is. *)
Theorem C26_lower_bounded_hint (T : Type) (PF : Platform) (OT : Ord T) (ST : Step T)
  (it : LowerBoundedRangeIter T) (its : LowerBoundedSetIter T) :
  lbri_size_hint it = (usize_max, None) /\ lbsi_size_hint its = (usize_max, None)
  /\ (forall m n o k, run (lbri_call m) it (repeat UpNext n) = Ret (o, k) -> length o = n /\ ~ In None o)
  /\ (forall m n o k, run (lbsi_call m) its (repeat UpNext n) = Ret (o, k) -> length o = n /\ ~ In None o).
Proof. exact (unending_hint it its). Qed.
Print Assumptions C26_lower_bounded_hint.
Theorem C26_release_unending (PF : Platform) (ty : ity) (it : LowerBoundedRangeIter (mint ty)) (n : nat) :
  exists o k, run (lbri_call Release) it (repeat UpNext n) = Ret (o, k) /\ length o = n /\ ~ In None o.
Proof. exact (release_unending it n). Qed.
Print Assumptions C26_release_unending.
Example C26_unending_ex :
  run (lbri_call Release) (LBRI (u8 254)) (repeat UpNext 3)
  = Ret ([Some (u8 254); Some (u8 255); Some (u8 0)], LBRI (u8 1)).
Proof. vm_compute. reflexivity. Qed.

(** ** C47: equal values hash equally *)
(** [hash v] is the sequence of words [v] feeds to the hasher.  No law of the
    order is needed; the hypothesis is the contract of [T: Hash]. *)
Theorem C47_equal_hash (T W : Type) (OT : Ord T) (HT : Hash T W) (a b : value T) :
  (forall x y : T, teq x y = true -> hash_elem x = hash_elem y) ->
  value_eqb a b = true -> hash a = hash b.
Proof. intros H. exact (hash_eq H a b). Qed.
Print Assumptions C47_equal_hash.
(** Unequal values of a type never feed the same words, when the element type
    is self-delimiting (integers feed a fixed number of bytes). *)
Theorem C47_unequal_distinct (T W : Type) (OT : Ord T) (HT : Hash T W) (a b : value T) :
  (forall (x y : T) (u w : list W), hash_elem x ++ u = hash_elem y ++ w -> teq x y = true /\ u = w) ->
  kind_of a = kind_of b -> hash a = hash b -> value_eqb a b = true.
Proof. intros H. exact (hash_det H a b). Qed.
Print Assumptions C47_unequal_distinct.
(** Nor do the words of one begin another's, so that composite keys
    (tuples of ranges, say) do not collide either: the recommendation on prefix
    collisions of std's [Hash]. *)
Theorem C47_no_prefix (T W : Type) (OT : Ord T) (HT : Hash T W) (a b : value T) (u w : list (word W)) :
  (forall (x y : T) (u w : list W), hash_elem x ++ u = hash_elem y ++ w -> teq x y = true /\ u = w) ->
  kind_of a = kind_of b -> hash a ++ u = hash b ++ w -> value_eqb a b = true /\ u = w.
Proof. intros H. exact (hash_prefix H a b u w). Qed.
Print Assumptions C47_no_prefix.
(** Not code of the crate: integers feed themselves; rationals, which have equal
    representations that differ, feed their canonical form. *)
#[local] Instance HashZ : Hash Z Z := { hash_elem z := [z] }.
#[local] Instance HashQ : Hash Q Z := { hash_elem q := [Qnum (Qred q); Zpos (Qden (Qred q))] }.
Example C47_ex :
  (forall x y : Q, teq x y = true -> hash_elem x = hash_elem y)
  /\ value_eqb (VLBR (LBR (LB (Excluded (1 # 2)%Q)))) (VLBR (LBR (LB (Excluded (2 # 4)%Q)))) = true
  /\ hash (VLBR (LBR (LB (Excluded (2 # 4)%Q)))) = [HDisc 0; HElem 1; HElem 2]
  /\ hash (VBS (BS [pc 0 3; pc 5 6])) = [HLen 2; HDisc 1; HElem 0; HDisc 0; HElem 3; HDisc 1; HElem 5; HDisc 0; HElem 6].
Proof.
  split; [|repeat split]. intros x y E. simpl in *. apply Qeq_bool_iff in E. apply Qred_complete in E. rewrite E. reflexivity.
Qed.
Example C47_distinct_ex :
  (forall (x y : Z) (u w : list Z), hash_elem x ++ u = hash_elem y ++ w -> teq x y = true /\ u = w)
  /\ hash (VBS (BS [pc 0 3; pc 3 6])) <> hash (VBS (BS [pc 0 6]))
  /\ hash (VUS (Full (T := Z))) ++ hash (VBS (BS [pc 0 3])) <> hash (VUS Full) ++ hash (VBS (BS [pc 0 3; pc 3 6])).
Proof. split; [|split; discriminate]. simpl. intros x y u w E. injection E as -> ->. split; [apply Z.eqb_refl|reflexivity]. Qed.

(** ** C48: no new bounds *)
(** For any [Ord], lawful or not. *)
Theorem C48_union_bounds (T : Type) (OT : Ord T) (a b r : value T) :
  union a b = Ret r -> incl (lows r) (lows a ++ lows b) /\ incl (highs r) (highs a ++ highs b).
Proof. exact (bounds_union a b r). Qed.
Print Assumptions C48_union_bounds.
Theorem C48_intersection_bounds (T : Type) (OT : Ord T) (a b r : value T) :
  intersection a b = Ret r -> incl (lows r) (lows a ++ lows b) /\ incl (highs r) (highs a ++ highs b).
Proof. exact (bounds_intersection a b r). Qed.
Print Assumptions C48_intersection_bounds.
(** A complement starts where the operand ended and ends where it started, with
    included and excluded exchanged. *)
Theorem C48_complement_bounds (T : Type) (OT : Ord T) (a r : value T) :
  complement a = Ret r ->
  incl (lows r) (map (fun u => LB (opposite (ub_bound u))) (highs a))
  /\ incl (highs r) (map (fun l => UB (opposite (lb_bound l))) (lows a)).
Proof. exact (bounds_complement a r). Qed.
Print Assumptions C48_complement_bounds.
Theorem C48_conversion_bounds (T : Type) (OT : Ord T) (a : value T) :
  lows (value_of_inner (to_inner a)) = lows a /\ highs (value_of_inner (to_inner a)) = highs a
  /\ incl (lows (value_of_set (to_set a))) (lows a) /\ incl (highs (value_of_set (to_set a))) (highs a).
Proof. exact (conj (proj1 (bounds_inner a)) (conj (proj2 (bounds_inner a)) (bounds_set a))). Qed.
Print Assumptions C48_conversion_bounds.
Theorem C48_program_endpoints (T : Type) (OT : Ord T) (e : expr T) (v : value T) (t : T) :
  eval e = Ret v -> In t (endpoints v) -> exists l, In l (leaves e) /\ In t (endpoints l).
Proof. exact (eval_endpoints e v t). Qed.
Print Assumptions C48_program_endpoints.
Example C48_ex :
  eval (ECompl (EUnion (EVal (rng 0 3)) (EInter (EVal (rngi 5 9)) (EVal (rto 8)))))
  = Ret (VUS (Piecewise (PUS (UBR (UB (Excluded 0))) (BS [pc 3 5]) (LBR (LB (Included 8))))))
  /\ endpoints (VUS (Piecewise (PUS (UBR (UB (Excluded 0))) (BS [pc 3 5]) (LBR (LB (Included 8)))))) = [3; 8; 0; 5].
Proof. split; reflexivity. Qed.

(** ** C49: half-open ranges stay half-open *)
Theorem C49_half_open (T : Type) (OT : Ord T) (e : expr T) (v : value T) :
  (forall l, In l (leaves e) -> half_open l) -> eval e = Ret v -> half_open v.
Proof. exact (eval_half_open e v). Qed.
Print Assumptions C49_half_open.
(** There, and wherever all starts are inclusive, [is_empty] is exact. *)
Theorem C49_is_empty_exact (T : Type) (OT : Ord T) (OL : OrdLaws T) (v : value T) :
  fresh v -> closed_below v -> has_lower (kind_of v) = true ->
  (is_empty v = true <-> forall t, ~ mem v t).
Proof. exact (is_empty_closed v). Qed.
Print Assumptions C49_is_empty_exact.
Example C49_ex :
  (forall l, In l (leaves (ECompl (EUnion (EVal (rng 0 3)) (EVal (rto 8))))) -> half_open l)
  /\ eval (ECompl (EUnion (EVal (rng 0 3)) (EVal (rto 8)))) = Ret (VLBS (LBS (BS []) (LBR (LB (Included 8)))))
  /\ is_empty (VBS (BS [pc 3 3])) = true.
Proof.
  split; [|split; reflexivity]. intros l [<-|[<-|[]]]; split; intros x Hx; simpl in Hx;
    repeat (destruct Hx as [<-|Hx]; [eexists; reflexivity|]); destruct Hx.
Qed.

(** ** C50: results do not grow beyond their operands *)
Theorem C50_union_size (T : Type) (OT : Ord T) (OL : OrdLaws T) (a b r : value T) :
  valid a -> valid b -> union a b = Ret r ->
  (length (lows r) <= length (lows a) + length (lows b) /\ length (highs r) <= length (highs a) + length (highs b))%nat.
Proof. exact (size_union a b r). Qed.
Print Assumptions C50_union_size.
Theorem C50_intersection_size (T : Type) (OT : Ord T) (OL : OrdLaws T) (a b r : value T) :
  valid a -> valid b -> intersection a b = Ret r ->
  (length (lows r) <= length (lows a) + length (lows b) /\ length (highs r) <= length (highs a) + length (highs b))%nat.
Proof. exact (size_intersection a b r). Qed.
Print Assumptions C50_intersection_size.
Theorem C50_complement_size (T : Type) (OT : Ord T) (OL : OrdLaws T) (a r : value T) :
  complement a = Ret r ->
  (length (lows r) <= length (highs a) /\ length (highs r) <= length (lows a))%nat.
Proof. exact (size_complement a r). Qed.
Print Assumptions C50_complement_size.
Theorem C50_program_size (T : Type) (OT : Ord T) (OL : OrdLaws T) (e : expr T) (v : value T) :
  (forall l, In l (leaves e) -> valid l) -> eval e = Ret v -> (nbounds v <= total e)%nat.
Proof. exact (size_eval e v). Qed.
Print Assumptions C50_program_size.
Example C50_ex :
  total (EInter (EVal (VBS (BS [pc 0 3; pc 5 9]))) (EVal (VBS (BS [pc 1 2; pc 6 7; pc 8 20])))) = 10%nat
  /\ eval (EInter (EVal (VBS (BS [pc 0 3; pc 5 9]))) (EVal (VBS (BS [pc 1 2; pc 6 7; pc 8 20]))))
     = Ret (VBS (BS [pc 1 2; pc 6 7; pc 8 9])).
Proof. split; reflexivity. Qed.

(** ** C51: iterating the result of a program *)
(** [denote e] is what the program means as a set, [collects m v o]: the loop
    over [v] in build [m] ends in [o]. *)
Theorem C51_collect_program (T : Type) (PF : Platform) (OT : Ord T) (ST : Step T) (NU : Numbered T) (SL : StepLaws T)
  (e : expr T) :
  (forall l, In l (leaves e) -> api l) -> good_expr e -> near e -> interior e ->
  expr_kind e = KBoundedRange \/ expr_kind e = KBoundedSet ->
  exists v l, eval e = Ret v /\ lists (denote e) l /\ collects Debug v (Ret l) /\ collects Release v (Ret l).
Proof. exact (collect_program e). Qed.
Print Assumptions C51_collect_program.
(** Results without an upper bound: each reply is the element of the denoted
    set at the position the calls have reached. *)
Theorem C51_ascend_program (T : Type) (PF : Platform) (OT : Ord T) (ST : Step T) (NU : Numbered T) (SL : StepLaws T)
  (e : expr T) (v : value T) (cs : list up_call) (reps : list (option T)) :
  (forall l, In l (leaves e) -> api l) -> good_expr e -> near e ->
  expr_kind e = KLowerBoundedRange \/ expr_kind e = KLowerBoundedSet ->
  eval e = Ret v -> Forall up_call_ok cs -> ascends Debug v cs reps ->
  Forall2 (fun o p => exists t, o = Some t /\ ranked (denote e) t p) reps (positions 0 cs).
Proof. intros A G S. exact (ascend_program e A G S v cs reps). Qed.
Print Assumptions C51_ascend_program.
(** Two programs with the same meaning iterate identically. *)
Theorem C51_same_meaning (T : Type) (PF : Platform) (OT : Ord T) (ST : Step T) (NU : Numbered T) (SL : StepLaws T)
  (e1 e2 : expr T) :
  (forall l, In l (leaves e1 ++ leaves e2) -> api l) -> good_expr e1 -> good_expr e2 ->
  near e1 -> near e2 -> interior e1 -> interior e2 ->
  expr_kind e1 = KBoundedRange \/ expr_kind e1 = KBoundedSet ->
  expr_kind e2 = KBoundedRange \/ expr_kind e2 = KBoundedSet ->
  (forall t, denote e1 t <-> denote e2 t) ->
  exists v1 v2 l, eval e1 = Ret v1 /\ eval e2 = Ret v2 /\ collects Debug v1 (Ret l) /\ collects Debug v2 (Ret l).
Proof.
  intros A G1 G2 N1 N2 I1 I2 K1 K2 M.
  destruct (collect_program e1) as (v1 & l1 & E1 & L1 & C1 & _); auto; [intros; apply A, in_or_app; auto|].
  destruct (collect_program e2) as (v2 & l2 & E2 & L2 & C2 & _); auto; [intros; apply A, in_or_app; auto|].
  apply (lists_ext _ _ _ M) in L1. rewrite (lists_unique _ _ _ L1 L2) in C1. exists v1, v2, l2. auto.
Qed.
Print Assumptions C51_same_meaning.

(** Programs on [u8]: [(1..5).union(7..=9).intersection(..9)], and
    [(1..3).union((..=200).complement())]. *)
Definition e51 : expr (@mint pf64 U8) :=
  EInter (EUnion (EVal (VRange (mkRange (u8 1) (u8 5)))) (EVal (VRangeInclusive (mkRangeInclusive (u8 7) (u8 9) false))))
         (EVal (VRangeTo (mkRangeTo (u8 9)))).
Definition e51' : expr (@mint pf64 U8) :=
  EUnion (EVal (VRange (mkRange (u8 1) (u8 3)))) (ECompl (EVal (VRangeToInclusive (mkRangeToInclusive (u8 200))))).
Example C51_ex :
  (forall l, In l (leaves e51) -> api l) /\ good_expr e51 /\ near (PF := pf64) e51 /\ interior e51 /\ expr_kind e51 = KBoundedSet
  /\ eval e51 = Ret (VBS (BS [BR (LB (Included (u8 1))) (UB (Excluded (u8 5))); BR (LB (Included (u8 7))) (UB (Excluded (u8 9)))]))
  /\ run (bsi_call (PF := pf64) Debug) (BSI [BRI (u8 1) (u8 4); BRI (u8 7) (u8 8)]) [Next; Next; Next; Next; Next; Next; Next]
     = Ret ([Item (Some (u8 1)); Item (Some (u8 2)); Item (Some (u8 3)); Item (Some (u8 4)); Item (Some (u8 7)); Item (Some (u8 8)); Item None], BSI []).
Proof.
  split; [intros l [<-|[<-|[<-|[]]]]; constructor|]. split; [repeat split|]. split.
  { intros x y a b _ _ _ _. apply (narrow_small pf64 U8). reflexivity. }
  split; [|split; [reflexivity|split; vm_compute; reflexivity]].
  intros x t Hx Ht. split; intros G.
  - specialize (G (u8 255)). revert G. simpl in Hx. destruct Hx as [<-|[<-|[<-|[]]]]; simpl in Ht;
      repeat (destruct Ht as [<-|Ht]; [intros G; apply G; reflexivity|]); destruct Ht.
  - specialize (G (u8 0)). revert G. simpl in Hx. destruct Hx as [<-|[<-|[<-|[]]]]; simpl in Ht;
      repeat (destruct Ht as [<-|Ht]; [intros G; apply G; reflexivity|]); destruct Ht.
Qed.
Example C51_ascend_ex :
  (forall l, In l (leaves e51') -> api l) /\ good_expr e51' /\ near (PF := pf64) e51' /\ expr_kind e51' = KLowerBoundedSet
  /\ match eval e51' with
     | Ret (VLBS s) => exists it', lbs_into_iter Debug s = Ret (LBSI (BSI [BRI (u8 1) (u8 2)]) (LBRI (u8 201)))
         /\ run (lbsi_call (PF := pf64) Debug) (LBSI (BSI [BRI (u8 1) (u8 2)]) (LBRI (u8 201))) [UpNext; UpNth 1; UpNext]
            = Ret ([Some (u8 1); Some (u8 201); Some (u8 202)], it')
     | _ => False
     end.
Proof.
  split; [intros l [<-|[<-|[]]]; constructor|]. split; [repeat split|]. split.
  { intros x y a b _ _ _ _. apply (narrow_small pf64 U8). reflexivity. }
  split; [reflexivity|]. vm_compute. eexists. split; reflexivity.
Qed.

(** ** C52: no operation hangs *)
(** For any [cmp] whatsoever: not transitive, not antisymmetric, [==] unrelated. *)
Theorem C52_no_hang (T : Type) (OT : Ord T) (a b : value T) :
  union a b <> Diverge /\ intersection a b <> Diverge /\ complement a <> Diverge
  /\ disjoint a b <> Diverge /\ intersects a b <> Diverge.
Proof. exact (no_divergence a b). Qed.
Print Assumptions C52_no_hang.
Theorem C52_programs_no_hang (T : Type) (OT : Ord T) (e : expr T) : eval e <> Diverge.
Proof. exact (eval_no_divergence e). Qed.
Print Assumptions C52_programs_no_hang.
(** A panic takes two non-empty ranges of which the first intersects the second but not the other way round. *)
Theorem C52_panic (T : Type) (OT : Ord T) (e : expr T) : eval e = Panic ->
  exists a b : BoundedRange T, is_empty (VBR a) = false /\ is_empty (VBR b) = false /\
    intersects (VBR a) (VBR b) = Ret true /\ intersects (VBR b) (VBR a) = Ret false.
Proof.
  apply eval_panic_excuse. intros b a Eb Ea H1 H2. exists a, b. cbn. rewrite Ea, Eb. cbn.
  unfold br_intersects_br in *. cbn. rewrite H1, H2. auto.
Qed.
Print Assumptions C52_panic.
(** Nor does any operation panic, provided [cmp] is antisymmetric and consistent with [==], which is identity;
    it need not be transitive. *)
Theorem C52_no_panic (T : Type) (OT : Ord T) (e : expr T) :
  (forall a b : T, cmp b a = CompOpp (cmp a b)) -> (forall a b : T, teq a b = true <-> cmp a b = Eq) ->
  (forall a b : T, cmp a b = Eq -> a = b) ->
  exists v, eval e = Ret v.
Proof.
  intros OPP EQ ID. apply eval_no_panic. intros a b _ _ H1 H2.
  assert (TR : forall x y : T, teq x y = false -> cmp x y = Lt \/ cmp x y = Gt).
  { intros x y H. pose proof (EQ x y) as Q. destruct (cmp x y); auto. rewrite (proj2 Q eq_refl) in H. discriminate. }
  assert (TS : forall x y : T, teq x y = teq y x).
  { intros x y. apply Bool.eq_iff_eq_true. rewrite !EQ, (OPP y x). destruct (cmp y x); cbn; split; congruence. }
  assert (M1 : forall x y : LowerBound T, lb_max x y = lb_max y x).
  { intros [[x|x]] [[y|y]]; unfold lb_max, lb_cmp, lb_partial_cmp, t_partial_cmp; cbn [lb_bound]; rewrite ?(TS y x), (OPP x y);
      try (destruct (teq x y) eqn:E; [reflexivity|apply TR in E as [E|E]; rewrite E; reflexivity]);
      destruct (cmp x y) eqn:E; cbn; try reflexivity; apply ID in E; subst; reflexivity. }
  assert (M2 : forall x y : UpperBound T, ub_min x y = ub_min y x).
  { intros [[x|x]] [[y|y]]; unfold ub_min, ub_cmp, ub_partial_cmp, t_partial_cmp; cbn [ub_bound]; rewrite ?(TS y x), (OPP x y);
      try (destruct (teq x y) eqn:E; [reflexivity|apply TR in E as [E|E]; rewrite E; reflexivity]);
      destruct (cmp x y) eqn:E; cbn; try reflexivity; apply ID in E; subst; reflexivity. }
  unfold br_intersects_br, br_inter_br in H1, H2. rewrite (M1 (br_start a)), (M2 (br_end a)) in H2. congruence.
Qed.
Print Assumptions C52_no_panic.
(** Without antisymmetry, or with ties that are not identity and no transitivity, the assertion in [combine] can fail. *)
Theorem C52_no_panic_refuted :
  (exists (OZ : Ord Z) (a b : value Z), union a b = Panic) /\
  exists (OZ : Ord Z) (a b : value Z),
    (forall a b : Z, cmp b a = CompOpp (cmp a b)) /\ (forall a b : Z, teq a b = true <-> cmp a b = Eq) /\ union a b = Panic.
Proof.
  split.
  - exists {| cmp := fun x y => if (x =? 2) && (y =? 1) then Gt else Lt; teq := fun _ _ => false |}.
    exists (VBS (BS [pc 2 3])), (VBS (BS [pc 0 1])). reflexivity.
  - exists {| cmp := fun x y => if (x + y =? 1) && (0 <=? x) && (0 <=? y) then Eq else if (x =? 1) && (y =? 2) then Gt else if (x =? 2) && (y =? 1) then Lt else x ?= y;
              teq := fun x y => ((x + y =? 1) && (0 <=? x) && (0 <=? y)) || (x =? y) |}.
    exists (VBS (BS [pc 1 3])), (VBS (BS [pc 0 2])). cbn [cmp teq]. split; [|split; [|reflexivity]].
    + intros x y. rewrite (Z.add_comm y x).
      destruct (Z.eqb_spec (x + y) 1), (Z.leb_spec 0 x), (Z.leb_spec 0 y); cbn; try reflexivity;
        destruct (Z.eqb_spec x 1), (Z.eqb_spec y 2), (Z.eqb_spec x 2), (Z.eqb_spec y 1); cbn; subst; try lia; try reflexivity; apply Z.compare_antisym.
    + intros x y.
      destruct (Z.eqb_spec (x + y) 1), (Z.leb_spec 0 x), (Z.leb_spec 0 y); cbn; try (split; reflexivity);
        destruct (Z.eqb_spec x 1), (Z.eqb_spec y 2), (Z.eqb_spec x 2), (Z.eqb_spec y 1); cbn; subst; try lia;
        rewrite ?Z.eqb_eq, ?Z.compare_eq_iff; split; try discriminate; try lia; try reflexivity.
Qed.
Print Assumptions C52_no_panic_refuted.
(** Rock, paper, scissors: not transitive, so not lawful, but no panic. *)
Example C52_no_panic_ex :
  let OR := {| cmp := fun x y : Z => if x =? y then Eq else if (y - x) mod 3 =? 1 then Lt else if (y - x) mod 3 =? 2 then Gt else x ?= y; teq := Z.eqb |} in
  cmp (Ord := OR) 0 1 = Lt /\ cmp (Ord := OR) 1 2 = Lt /\ cmp (Ord := OR) 0 2 = Gt /\
  (forall a b : Z, cmp (Ord := OR) b a = CompOpp (cmp (Ord := OR) a b)) /\ (forall a b : Z, teq (Ord := OR) a b = true <-> cmp (Ord := OR) a b = Eq) /\
  (forall a b : Z, cmp (Ord := OR) a b = Eq -> a = b) /\
  @union Z OR (VBS (BS [pc 0 1])) (VBS (BS [pc 1 2; pc 2 0])) = Ret (VBS (BS [pc 2 0; pc 0 1; pc 1 2])).
Proof.
  cbn zeta. repeat match goal with |- _ /\ _ => split end; try reflexivity; cbn [cmp teq]; intros a b.
  - destruct (Z.eqb_spec b a) as [->|N]; [rewrite Z.eqb_refl; reflexivity|]. destruct (Z.eqb_spec a b) as [->|_]; [congruence|].
    destruct (Z.eqb_spec ((a - b) mod 3) 1), (Z.eqb_spec ((b - a) mod 3) 1), (Z.eqb_spec ((a - b) mod 3) 2), (Z.eqb_spec ((b - a) mod 3) 2);
      try reflexivity; try apply Z.compare_antisym; exfalso; Z.div_mod_to_equations; lia.
  - destruct (Z.eqb_spec a b) as [->|N]; [tauto|]. split; [discriminate|].
    destruct (_ =? 1); [discriminate|]. destruct (_ =? 2); [discriminate|]. rewrite Z.compare_eq_iff. congruence.
  - destruct (Z.eqb_spec a b) as [->|N]; [tauto|].
    destruct (_ =? 1); [discriminate|]. destruct (_ =? 2); [discriminate|]. rewrite Z.compare_eq_iff. congruence.
Qed.
(** An [Ord] in which everything is less than everything. *)
Example C52_ex :
  let OZ := {| cmp := fun _ _ : Z => Lt; teq := fun _ _ => false |} in
  @union Z OZ (VBS (BS [pc 0 3; pc 5 6])) (VBS (BS [pc 2 5])) = Ret (VBS (BS [pc 2 6]))
  /\ ~ @OrdLaws Z OZ.
Proof. split; [reflexivity|]. intros L. pose proof (@cmp_opp _ _ L 0 0) as H. discriminate H. Qed.
