(** Model of src/implementations/{intersection,union,complement}: one
    definition per pair of crate types that has code of its own.  The
    dispatch on the operand type (trait resolution) is in ModelValue.v. *)
From Verif Require Import Base ModelBound ModelRanges ModelSets.

Section Algebra.
Context {T : Type} {OT : Ord T}.

(** [ranges.retain(|r| !r.is_empty())] *)
Definition retain_nonempty (l : list (BoundedRange T)) : list (BoundedRange T) :=
  filter (fun r => negb (br_is_empty r)) l.

(** ** Intersections: BoundedSet with ranges *)

(** src/implementations/intersection/bounded_set.rs:7-21. *)
Definition bs_inter_br (self : BoundedSet T) (other : BoundedRange T) : BoundedSet T :=
  BS (retain_nonempty (map (fun range => br_inter_br range other) (bs_ranges self))).
(** src/implementations/intersection/bounded_set.rs:38-52. *)
Definition bs_inter_lbr (self : BoundedSet T) (other : LowerBoundedRange T) : BoundedSet T :=
  BS (retain_nonempty (map (fun range => br_inter_lbr range other) (bs_ranges self))).
(** src/implementations/intersection/bounded_set.rs:72-86. *)
Definition bs_inter_ubr (self : BoundedSet T) (other : UpperBoundedRange T) : BoundedSet T :=
  BS (retain_nonempty (map (fun range => br_inter_ubr range other) (bs_ranges self))).
(** src/implementations/intersection/bounded_range.rs:18-27. *)
Definition br_inter_bs (self : BoundedRange T) (other : BoundedSet T) : BoundedSet T :=
  bs_inter_br other self.
(** src/implementations/intersection/lower_bounded_range.rs:17-26. *)
Definition lbr_inter_bs (self : LowerBoundedRange T) (other : BoundedSet T) : BoundedSet T :=
  bs_inter_lbr other self.
(** src/implementations/intersection/upper_bounded_range.rs:17-26. *)
Definition ubr_inter_bs (self : UpperBoundedRange T) (other : BoundedSet T) : BoundedSet T :=
  bs_inter_ubr other self.

(** src/implementations/intersection/bounded_set.rs:23-36. *)
Definition bs_inter_bs (self other : BoundedSet T) : outcome (BoundedSet T) :=
  foldM (fun set range => bs_add_set set (br_inter_bs range other)) (bs_ranges self) bs_empty.

(** ** Intersections: LowerBoundedSet, UpperBoundedSet with ranges and sets *)

(** src/implementations/intersection/lower_bounded_set.rs:7-20. *)
Definition lbs_inter_br (self : LowerBoundedSet T) (other : BoundedRange T) : outcome (BoundedSet T) :=
  let set := bs_from_br (lbr_inter_br (lbs_lbr self) other) in
  bs_add_set set (bs_inter_br (lbs_ranges self) other).
(** src/implementations/intersection/bounded_range.rs:40-49. *)
Definition br_inter_lbs (self : BoundedRange T) (other : LowerBoundedSet T) : outcome (BoundedSet T) :=
  lbs_inter_br other self.
(** src/implementations/intersection/bounded_set.rs:54-70. *)
Definition bs_inter_lbs (self : BoundedSet T) (other : LowerBoundedSet T) : outcome (BoundedSet T) :=
  let set := bs_inter_lbr self (lbs_lbr other) in
  foldM (fun set range => s <- br_inter_lbs range other ;; bs_add_set set s) (bs_ranges self) set.
(** src/implementations/intersection/lower_bounded_set.rs:22-31. *)
Definition lbs_inter_bs (self : LowerBoundedSet T) (other : BoundedSet T) : outcome (BoundedSet T) :=
  bs_inter_lbs other self.

(** src/implementations/intersection/upper_bounded_set.rs:7-20. *)
Definition ubs_inter_br (self : UpperBoundedSet T) (other : BoundedRange T) : outcome (BoundedSet T) :=
  let set := bs_from_br (ubr_inter_br (ubs_ubr self) other) in
  let set := BS (retain_nonempty (bs_ranges set)) in
  bs_add_set set (bs_inter_br (ubs_ranges self) other).
(** src/implementations/intersection/bounded_range.rs:62-71. *)
Definition br_inter_ubs (self : BoundedRange T) (other : UpperBoundedSet T) : outcome (BoundedSet T) :=
  ubs_inter_br other self.
(** src/implementations/intersection/bounded_set.rs:88-104. *)
Definition bs_inter_ubs (self : BoundedSet T) (other : UpperBoundedSet T) : outcome (BoundedSet T) :=
  let set := bs_inter_ubr self (ubs_ubr other) in
  foldM (fun set range => s <- br_inter_ubs range other ;; bs_add_set set s) (bs_ranges self) set.
(** src/implementations/intersection/upper_bounded_set.rs:22-31. *)
Definition ubs_inter_bs (self : UpperBoundedSet T) (other : BoundedSet T) : outcome (BoundedSet T) :=
  bs_inter_ubs other self.

(** src/implementations/intersection/lower_bounded_set.rs:33-45. *)
Definition lbs_inter_lbr (self : LowerBoundedSet T) (other : LowerBoundedRange T) : LowerBoundedSet T :=
  LBS (bs_inter_lbr (lbs_ranges self) other) (lbr_inter_lbr (lbs_lbr self) other).
(** src/implementations/intersection/lower_bounded_range.rs:39-48. *)
Definition lbr_inter_lbs (self : LowerBoundedRange T) (other : LowerBoundedSet T) : LowerBoundedSet T :=
  lbs_inter_lbr other self.
(** src/implementations/intersection/lower_bounded_set.rs:47-61. *)
Definition lbs_inter_lbs (self other : LowerBoundedSet T) : outcome (LowerBoundedSet T) :=
  let set := lbs_inter_lbr self (lbs_lbr other) in
  s <- bs_inter_lbs (lbs_ranges self) other ;;
  lbs_add_set set s.

(** src/implementations/intersection/lower_bounded_set.rs:63-77. *)
Definition lbs_inter_ubr (self : LowerBoundedSet T) (other : UpperBoundedRange T) : outcome (BoundedSet T) :=
  let set := bs_from_br (lbr_inter_ubr (lbs_lbr self) other) in
  let set := BS (retain_nonempty (bs_ranges set)) in
  set <- bs_add_set set (bs_inter_ubr (lbs_ranges self) other) ;;
  Ret (BS (retain_nonempty (bs_ranges set))).
(** src/implementations/intersection/upper_bounded_range.rs:39-48. *)
Definition ubr_inter_lbs (self : UpperBoundedRange T) (other : LowerBoundedSet T) : outcome (BoundedSet T) :=
  lbs_inter_ubr other self.

(** src/implementations/intersection/upper_bounded_set.rs:33-46. *)
Definition ubs_inter_lbr (self : UpperBoundedSet T) (other : LowerBoundedRange T) : outcome (BoundedSet T) :=
  let set := bs_from_br (ubr_inter_lbr (ubs_ubr self) other) in
  let set := BS (retain_nonempty (bs_ranges set)) in
  bs_add_set set (bs_inter_lbr (ubs_ranges self) other).
(** src/implementations/intersection/lower_bounded_range.rs:61-70. *)
Definition lbr_inter_ubs (self : LowerBoundedRange T) (other : UpperBoundedSet T) : outcome (BoundedSet T) :=
  ubs_inter_lbr other self.

(** src/implementations/intersection/upper_bounded_set.rs:59-71. *)
Definition ubs_inter_ubr (self : UpperBoundedSet T) (other : UpperBoundedRange T) : outcome (UpperBoundedSet T) :=
  let set := ubs_from_ubr (ubr_inter_ubr (ubs_ubr self) other) in
  ubs_add_set set (bs_inter_ubr (ubs_ranges self) other).
(** src/implementations/intersection/upper_bounded_range.rs:61-70. *)
Definition ubr_inter_ubs (self : UpperBoundedRange T) (other : UpperBoundedSet T) : outcome (UpperBoundedSet T) :=
  ubs_inter_ubr other self.

(** src/implementations/intersection/lower_bounded_set.rs:79-93. *)
Definition lbs_inter_ubs (self : LowerBoundedSet T) (other : UpperBoundedSet T) : outcome (BoundedSet T) :=
  set <- lbs_inter_ubr self (ubs_ubr other) ;;
  let set := BS (retain_nonempty (bs_ranges set)) in
  s <- lbs_inter_bs self (ubs_ranges other) ;;
  set <- bs_add_set set s ;;
  Ret (BS (retain_nonempty (bs_ranges set))).
(** src/implementations/intersection/upper_bounded_set.rs:48-57. *)
Definition ubs_inter_lbs (self : UpperBoundedSet T) (other : LowerBoundedSet T) : outcome (BoundedSet T) :=
  lbs_inter_ubs other self.

(** src/implementations/intersection/upper_bounded_set.rs:73-85. *)
Definition ubs_inter_ubs (self other : UpperBoundedSet T) : outcome (UpperBoundedSet T) :=
  set <- ubs_inter_ubr self (ubs_ubr other) ;;
  s <- ubs_inter_bs self (ubs_ranges other) ;;
  ubs_add_set set s.

(** ** Intersections with UnboundedSet *)

(** src/implementations/intersection/bounded_set.rs:117-141. *)
Definition bs_inter_us (self : BoundedSet T) (other : UnboundedSet T) : outcome (BoundedSet T) :=
  match other with
  | Full => Ret self
  | Piecewise p =>
    let set := bs_inter_ubr self (pus_ubr p) in
    set <- bs_add_set set (bs_inter_lbr self (pus_lbr p)) ;;
    s <- bs_inter_bs self (pus_ranges p) ;;
    bs_add_set set s
  end.
(** src/implementations/intersection/lower_bounded_set.rs:106-130. *)
Definition lbs_inter_us (self : LowerBoundedSet T) (other : UnboundedSet T) : outcome (LowerBoundedSet T) :=
  match other with
  | Full => Ret self
  | Piecewise p =>
    let set := lbs_inter_lbr self (pus_lbr p) in
    s1 <- lbs_inter_ubr self (pus_ubr p) ;;
    set <- lbs_add_set set s1 ;;
    s2 <- lbs_inter_bs self (pus_ranges p) ;;
    lbs_add_set set s2
  end.
(** src/implementations/intersection/upper_bounded_set.rs:97-121. *)
Definition ubs_inter_us (self : UpperBoundedSet T) (other : UnboundedSet T) : outcome (UpperBoundedSet T) :=
  match other with
  | Full => Ret self
  | Piecewise p =>
    set <- ubs_inter_ubr self (pus_ubr p) ;;
    s1 <- ubs_inter_lbr self (pus_lbr p) ;;
    set <- ubs_add_set set s1 ;;
    s2 <- ubs_inter_bs self (pus_ranges p) ;;
    ubs_add_set set s2
  end.
(** src/implementations/intersection/unbounded_set.rs:7-16. *)
Definition us_inter_br (self : UnboundedSet T) (other : BoundedRange T) : outcome (BoundedSet T) :=
  bs_inter_us (bs_from_br other) self.
(** src/implementations/intersection/unbounded_set.rs:18-27. *)
Definition us_inter_bs (self : UnboundedSet T) (other : BoundedSet T) : outcome (BoundedSet T) :=
  bs_inter_us other self.
(** src/implementations/intersection/unbounded_set.rs:29-38. *)
Definition us_inter_lbr (self : UnboundedSet T) (other : LowerBoundedRange T) : outcome (LowerBoundedSet T) :=
  lbs_inter_us (lbs_from_lbr other) self.
(** src/implementations/intersection/unbounded_set.rs:40-49. *)
Definition us_inter_lbs (self : UnboundedSet T) (other : LowerBoundedSet T) : outcome (LowerBoundedSet T) :=
  lbs_inter_us other self.
(** src/implementations/intersection/unbounded_set.rs:51-60. *)
Definition us_inter_ubr (self : UnboundedSet T) (other : UpperBoundedRange T) : outcome (UpperBoundedSet T) :=
  ubs_inter_us (ubs_from_ubr other) self.
(** src/implementations/intersection/unbounded_set.rs:62-71. *)
Definition us_inter_ubs (self : UnboundedSet T) (other : UpperBoundedSet T) : outcome (UpperBoundedSet T) :=
  ubs_inter_us other self.
(** src/implementations/intersection/bounded_range.rs:84-93. *)
Definition br_inter_us (self : BoundedRange T) (other : UnboundedSet T) : outcome (BoundedSet T) :=
  us_inter_br other self.
(** src/implementations/intersection/lower_bounded_range.rs:82-91. *)
Definition lbr_inter_us (self : LowerBoundedRange T) (other : UnboundedSet T) : outcome (LowerBoundedSet T) :=
  us_inter_lbr other self.
(** src/implementations/intersection/upper_bounded_range.rs:82-91. *)
Definition ubr_inter_us (self : UpperBoundedRange T) (other : UnboundedSet T) : outcome (UpperBoundedSet T) :=
  us_inter_ubr other self.

(** ** Unions between set types *)

(** src/implementations/union/bounded_set.rs:6-16. *)
Definition bs_union_bs (self other : BoundedSet T) : outcome (BoundedSet T) :=
  bs_add_set self other.
(** src/implementations/union/bounded_set.rs:18-29. *)
Definition bs_union_lbs (self : BoundedSet T) (other : LowerBoundedSet T) : outcome (LowerBoundedSet T) :=
  lbs_add_set other self.
(** src/implementations/union/bounded_set.rs:31-42. *)
Definition bs_union_ubs (self : BoundedSet T) (other : UpperBoundedSet T) : outcome (UpperBoundedSet T) :=
  ubs_add_set other self.
(** src/implementations/union/bounded_set.rs:44-55. *)
Definition bs_union_us (self : BoundedSet T) (other : UnboundedSet T) : outcome (UnboundedSet T) :=
  us_add_set other self.

(** src/implementations/union/lower_bounded_set.rs:6-15. *)
Definition lbs_union_bs (self : LowerBoundedSet T) (other : BoundedSet T) : outcome (LowerBoundedSet T) :=
  bs_union_lbs other self.
(** src/implementations/union/lower_bounded_set.rs:17-28. *)
Definition lbs_union_lbs (self other : LowerBoundedSet T) : outcome (LowerBoundedSet T) :=
  self <- lbs_add_lower_bounded_range self (lbs_lbr other) ;;
  lbs_union_bs self (lbs_ranges other).

(** src/implementations/union/upper_bounded_set.rs:6-15. *)
Definition ubs_union_bs (self : UpperBoundedSet T) (other : BoundedSet T) : outcome (UpperBoundedSet T) :=
  bs_union_ubs other self.
(** src/implementations/union/upper_bounded_set.rs:28-39. *)
Definition ubs_union_ubs (self other : UpperBoundedSet T) : outcome (UpperBoundedSet T) :=
  self <- ubs_add_upper_bounded_range self (ubs_ubr other) ;;
  ubs_union_bs self (ubs_ranges other).

(** src/implementations/union/unbounded_set.rs:6-15. *)
Definition us_union_bs (self : UnboundedSet T) (other : BoundedSet T) : outcome (UnboundedSet T) :=
  bs_union_us other self.

(** src/implementations/union/lower_bounded_set.rs:30-41. *)
Definition lbs_union_ubs (self : LowerBoundedSet T) (other : UpperBoundedSet T) : outcome (UnboundedSet T) :=
  let set := us_new (ubs_ubr other) (lbs_lbr self) in
  set <- us_union_bs set (lbs_ranges self) ;;
  us_union_bs set (ubs_ranges other).
(** src/implementations/union/upper_bounded_set.rs:17-26. *)
Definition ubs_union_lbs (self : UpperBoundedSet T) (other : LowerBoundedSet T) : outcome (UnboundedSet T) :=
  lbs_union_ubs other self.
(** src/implementations/union/lower_bounded_set.rs:43-54. *)
Definition lbs_union_us (self : LowerBoundedSet T) (other : UnboundedSet T) : outcome (UnboundedSet T) :=
  set <- us_add_lower_bounded_range other (lbs_lbr self) ;;
  us_union_bs set (lbs_ranges self).
(** src/implementations/union/upper_bounded_set.rs:41-52. *)
Definition ubs_union_us (self : UpperBoundedSet T) (other : UnboundedSet T) : outcome (UnboundedSet T) :=
  set <- us_add_upper_bounded_range other (ubs_ubr self) ;;
  us_union_bs set (ubs_ranges self).
(** src/implementations/union/unbounded_set.rs:17-26, 28-37. *)
Definition us_union_lbs (self : UnboundedSet T) (other : LowerBoundedSet T) : outcome (UnboundedSet T) :=
  lbs_union_us other self.
Definition us_union_ubs (self : UnboundedSet T) (other : UpperBoundedSet T) : outcome (UnboundedSet T) :=
  ubs_union_us other self.
(** src/implementations/union/unbounded_set.rs:39-49. *)
Definition us_union_us (self other : UnboundedSet T) : outcome (UnboundedSet T) :=
  us_add_unbounded_set self other.

(** ** UnboundedSet with UnboundedSet: needs the unions *)

(** src/implementations/intersection/unbounded_set.rs:83-108. *)
Definition us_inter_us (self other : UnboundedSet T) : outcome (UnboundedSet T) :=
  match self, other with
  | Full, other => Ret other
  | s, Full => Ret s
  | s, Piecewise p2 =>
    a <- us_inter_ubr s (pus_ubr p2) ;;
    b <- us_inter_lbr s (pus_lbr p2) ;;
    c <- us_inter_bs s (pus_ranges p2) ;;
    bc <- lbs_union_bs b c ;;
    ubs_union_lbs a bc
  end.

(** ** Complements *)

(** src/implementations/complement/lower_bounded_range.rs:3-10. *)
Definition lbr_complement (self : LowerBoundedRange T) : UpperBoundedRange T :=
  ubr_new (UB (flipped (lb_bound (lbr_start self)))).
(** src/implementations/complement/upper_bounded_range.rs:3-10. *)
Definition ubr_complement (self : UpperBoundedRange T) : LowerBoundedRange T :=
  lbr_new (LB (flipped (ub_bound (ubr_end self)))).
(** src/implementations/complement/bounded_range.rs:5-13; the union of an
    UpperBoundedRange with a LowerBoundedRange resolves to
    src/implementations/union/upper_bounded_range.rs:17-26. *)
Definition br_complement (self : BoundedRange T) : outcome (UnboundedSet T) :=
  ubs_union_lbs
    (ubs_from_ubr (ubr_new (UB (flipped (lb_bound (br_start self))))))
    (lbs_from_lbr (lbr_new (LB (flipped (ub_bound (br_end self)))))).
(** src/implementations/complement/bounded_set.rs:3-14. *)
Definition bs_complement (self : BoundedSet T) : outcome (UnboundedSet T) :=
  foldM (fun acc range => c <- br_complement range ;; us_inter_us acc c) (bs_ranges self) Full.
(** src/implementations/complement/lower_bounded_set.rs:3-13. *)
Definition lbs_complement (self : LowerBoundedSet T) : outcome (UpperBoundedSet T) :=
  foldM (fun acc range => c <- br_complement range ;; ubs_inter_us acc c)
    (bs_ranges (lbs_ranges self)) (ubs_from_ubr (lbr_complement (lbs_lbr self))).
(** src/implementations/complement/upper_bounded_set.rs:3-13. *)
Definition ubs_complement (self : UpperBoundedSet T) : outcome (LowerBoundedSet T) :=
  foldM (fun acc range => c <- br_complement range ;; lbs_inter_us acc c)
    (bs_ranges (ubs_ranges self)) (lbs_from_lbr (ubr_complement (ubs_ubr self))).
(** src/implementations/complement/unbounded_set.rs:3-24. *)
Definition us_complement (self : UnboundedSet T) : outcome (BoundedSet T) :=
  match self with
  | Full => Ret bs_empty
  | Piecewise set =>
    let starting_range := ubr_inter_lbr (lbr_complement (pus_lbr set)) (ubr_complement (pus_ubr set)) in
    foldM (fun acc range => c <- br_complement range ;; bs_inter_us acc c)
      (bs_ranges (pus_ranges set)) (bs_from_br starting_range)
  end.

End Algebra.
