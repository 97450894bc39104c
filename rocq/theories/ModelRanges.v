(** Model of the range types: std::ops ranges, src/bounded_range.rs,
    src/lower_bounded_range.rs, src/upper_bounded_range.rs,
    src/unbounded_range.rs, src/empty_range.rs.  Iterators and conversions
    back to std ranges are in ModelIter.v and ModelConv.v. *)
From Verif Require Import Base ModelBound.

(** ** std::ops ranges (outside /repo; std semantics) *)

(** [start..end] *)
Record Range (T : Type) : Type := mkRange { rg_start : T; rg_end : T }.
Arguments mkRange {T}. Arguments rg_start {T}. Arguments rg_end {T}.
(** [start..=end].  [ri_exhausted] is std's private flag, set when the range
    itself has been iterated to its end. *)
Record RangeInclusive (T : Type) : Type :=
  mkRangeInclusive { ri_start : T; ri_end : T; ri_exhausted : bool }.
Arguments mkRangeInclusive {T}. Arguments ri_start {T}. Arguments ri_end {T}. Arguments ri_exhausted {T}.
(** [start..] *)
Record RangeFrom (T : Type) : Type := mkRangeFrom { rf_start : T }.
Arguments mkRangeFrom {T}. Arguments rf_start {T}.
(** [..end] *)
Record RangeTo (T : Type) : Type := mkRangeTo { rt_end : T }.
Arguments mkRangeTo {T}. Arguments rt_end {T}.
(** [..=end] *)
Record RangeToInclusive (T : Type) : Type := mkRangeToInclusive { rti_end : T }.
Arguments mkRangeToInclusive {T}. Arguments rti_end {T}.
(** [..] *)
Inductive RangeFull : Type := mkRangeFull.

(** ** Crate ranges *)

(** src/bounded_range.rs:25-30. *)
Record BoundedRange (T : Type) : Type :=
  BR { br_start : LowerBound T; br_end : UpperBound T }.
Arguments BR {T}. Arguments br_start {T}. Arguments br_end {T}.
(** src/lower_bounded_range.rs:20-23. *)
Record LowerBoundedRange (T : Type) : Type := LBR { lbr_start : LowerBound T }.
Arguments LBR {T}. Arguments lbr_start {T}.
(** src/upper_bounded_range.rs:19-22. *)
Record UpperBoundedRange (T : Type) : Type := UBR { ubr_end : UpperBound T }.
Arguments UBR {T}. Arguments ubr_end {T}.
(** src/unbounded_range.rs:18. *)
Inductive UnboundedRange : Type := mkUnboundedRange.
(** src/empty_range.rs:18-20 (the only field is [PhantomData<T>]). *)
Inductive EmptyRange : Type := mkEmptyRange.

Section Ranges.
Context {T : Type} {OT : Ord T}.

(** std [contains] (through [RangeBounds]). *)
Definition range_contains (r : Range T) (t : T) : bool :=
  t_le (rg_start r) t && t_lt t (rg_end r).
Definition range_inclusive_contains (r : RangeInclusive T) (t : T) : bool :=
  t_le (ri_start r) t &&
  (if ri_exhausted r then t_lt t (ri_end r) else t_le t (ri_end r)).
Definition range_from_contains (r : RangeFrom T) (t : T) : bool := t_le (rf_start r) t.
Definition range_to_contains (r : RangeTo T) (t : T) : bool := t_lt t (rt_end r).
Definition range_to_inclusive_contains (r : RangeToInclusive T) (t : T) : bool :=
  t_le t (rti_end r).
Definition range_full_contains (_ : RangeFull) (_ : T) : bool := true.

(** src/bounded_range.rs:32-39 [From<Range>]. *)
Definition br_from_range (r : Range T) : BoundedRange T :=
  BR (lb_included (rg_start r)) (ub_excluded (rg_end r)).
(** src/bounded_range.rs:41-49 [From<RangeInclusive>]; std's [into_inner]
    returns the two fields and ignores the flag. *)
Definition br_from_range_inclusive (r : RangeInclusive T) : BoundedRange T :=
  BR (lb_included (ri_start r)) (ub_included (ri_end r)).
(** src/lower_bounded_range.rs:25-31. *)
Definition lbr_from_range_from (r : RangeFrom T) : LowerBoundedRange T :=
  LBR (lb_included (rf_start r)).
(** src/upper_bounded_range.rs:24-30. *)
Definition ubr_from_range_to (r : RangeTo T) : UpperBoundedRange T :=
  UBR (ub_excluded (rt_end r)).
(** src/upper_bounded_range.rs:32-38. *)
Definition ubr_from_range_to_inclusive (r : RangeToInclusive T) : UpperBoundedRange T :=
  UBR (ub_included (rti_end r)).
(** src/unbounded_range.rs:20-24. *)
Definition unbr_from_range_full (_ : RangeFull) : UnboundedRange := mkUnboundedRange.

(** src/bounded_range.rs:114-116. *)
Definition br_new (start : LowerBound T) (end_ : UpperBound T) : BoundedRange T := BR start end_.
(** src/lower_bounded_range.rs:71-73. *)
Definition lbr_new (start : LowerBound T) : LowerBoundedRange T := LBR start.
(** src/upper_bounded_range.rs:74-76. *)
Definition ubr_new (end_ : UpperBound T) : UpperBoundedRange T := UBR end_.

(** src/bounded_range.rs:128-138 [BoundedRange::contains]. *)
Definition br_contains (r : BoundedRange T) (t : T) : bool :=
  let start_satisfied :=
    match lb_bound (br_start r) with
    | Excluded s => t_gt t s
    | Included s => t_ge t s
    end in
  let end_satisfied :=
    match ub_bound (br_end r) with
    | Excluded e => t_lt t e
    | Included e => t_le t e
    end in
  start_satisfied && end_satisfied.

(** src/lower_bounded_range.rs:85-90. *)
Definition lbr_contains (r : LowerBoundedRange T) (t : T) : bool :=
  match lb_bound (lbr_start r) with
  | Excluded x => t_gt t x
  | Included i => t_ge t i
  end.

(** src/upper_bounded_range.rs:88-93. *)
Definition ubr_contains (r : UpperBoundedRange T) (t : T) : bool :=
  match ub_bound (ubr_end r) with
  | Excluded x => t_lt t x
  | Included i => t_le t i
  end.

(** src/unbounded_range.rs:60-62. *)
Definition unbr_contains (_ : UnboundedRange) (_ : T) : bool := true.
(** src/empty_range.rs:81-83. *)
Definition er_contains (_ : EmptyRange) (_ : T) : bool := false.

(** src/implementations/rangetools/bounded_range.rs:4-11 [is_empty]. *)
Definition br_is_empty (r : BoundedRange T) : bool :=
  match lb_bound (br_start r), ub_bound (br_end r) with
  | Included start, Included end_ => t_gt start end_
  | Excluded start, Included end_ => t_ge start end_
  | Included start, Excluded end_ => t_ge start end_
  | Excluded start, Excluded end_ => t_ge start end_
  end.

(** ** Intersections between ranges (used by the set types below) *)

(** src/implementations/intersection/bounded_range.rs:6-16. *)
Definition br_inter_br (self other : BoundedRange T) : BoundedRange T :=
  br_new (lb_max (br_start self) (br_start other)) (ub_min (br_end self) (br_end other)).
(** src/implementations/intersection/bounded_range.rs:29-38. *)
Definition br_inter_lbr (self : BoundedRange T) (other : LowerBoundedRange T) : BoundedRange T :=
  br_new (lb_max (br_start self) (lbr_start other)) (br_end self).
(** src/implementations/intersection/bounded_range.rs:51-60. *)
Definition br_inter_ubr (self : BoundedRange T) (other : UpperBoundedRange T) : BoundedRange T :=
  br_new (br_start self) (ub_min (br_end self) (ubr_end other)).
(** src/implementations/intersection/lower_bounded_range.rs:6-15. *)
Definition lbr_inter_br (self : LowerBoundedRange T) (other : BoundedRange T) : BoundedRange T :=
  br_inter_lbr other self.
(** src/implementations/intersection/lower_bounded_range.rs:28-37. *)
Definition lbr_inter_lbr (self other : LowerBoundedRange T) : LowerBoundedRange T :=
  lbr_new (lb_max (lbr_start self) (lbr_start other)).
(** src/implementations/intersection/lower_bounded_range.rs:50-59. *)
Definition lbr_inter_ubr (self : LowerBoundedRange T) (other : UpperBoundedRange T) : BoundedRange T :=
  br_new (lbr_start self) (ubr_end other).
(** src/implementations/intersection/upper_bounded_range.rs:6-15. *)
Definition ubr_inter_br (self : UpperBoundedRange T) (other : BoundedRange T) : BoundedRange T :=
  br_inter_ubr other self.
(** src/implementations/intersection/upper_bounded_range.rs:28-37. *)
Definition ubr_inter_lbr (self : UpperBoundedRange T) (other : LowerBoundedRange T) : BoundedRange T :=
  lbr_inter_ubr other self.
(** src/implementations/intersection/upper_bounded_range.rs:50-59. *)
Definition ubr_inter_ubr (self other : UpperBoundedRange T) : UpperBoundedRange T :=
  ubr_new (ub_min (ubr_end self) (ubr_end other)).

(** [Rangetools::intersects] (src/lib.rs:160-185: [!intersection(..).is_empty()])
    at the operand types the set code uses it. *)
Definition br_intersects_br (self other : BoundedRange T) : bool :=
  negb (br_is_empty (br_inter_br self other)).
Definition ubr_intersects_br (self : UpperBoundedRange T) (other : BoundedRange T) : bool :=
  negb (br_is_empty (ubr_inter_br self other)).
Definition lbr_intersects_br (self : LowerBoundedRange T) (other : BoundedRange T) : bool :=
  negb (br_is_empty (lbr_inter_br self other)).
Definition ubr_intersects_lbr (self : UpperBoundedRange T) (other : LowerBoundedRange T) : bool :=
  negb (br_is_empty (ubr_inter_lbr self other)).

(** src/bounded_range.rs:140-152 [combine], with its [assert!]. *)
Definition br_combine (self other : BoundedRange T) : outcome (BoundedRange T) :=
  if br_is_empty other then Ret self
  else if br_is_empty self then Ret other
  else if br_intersects_br self other then
    Ret (br_new (lb_min (br_start self) (br_start other))
                (ub_max (br_end self) (br_end other)))
  else Panic.

End Ranges.
