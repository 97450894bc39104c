(** Model of the [Rangetools] trait (src/lib.rs:85-223) and of trait resolution
    in src/implementations/{rangetools,intersection,union,complement}: the
    fifteen types that implement it as one sum type, and each method as a
    function on that sum.  Which impl Rust selects depends on the type of [self]
    and on the [Inner] (intersection) or [Set] (union) type of the operand; the
    dispatchers below match on exactly those.  Every match arm cites its impl. *)
From Verif Require Import Base ModelBound ModelRanges ModelSets ModelAlgebra.

Section Value.
Context {T : Type} {OT : Ord T}.

(** A value of any of the fifteen types with an
    src/implementations/rangetools/*.rs impl. *)
Inductive value : Type :=
| VRange (r : Range T)
| VRangeInclusive (r : RangeInclusive T)
| VRangeFrom (r : RangeFrom T)
| VRangeTo (r : RangeTo T)
| VRangeToInclusive (r : RangeToInclusive T)
| VRangeFull (r : RangeFull)
| VBR (r : BoundedRange T)
| VLBR (r : LowerBoundedRange T)
| VUBR (r : UpperBoundedRange T)
| VUnbR (r : UnboundedRange)
| VEmpty (r : EmptyRange)
| VBS (s : BoundedSet T)
| VLBS (s : LowerBoundedSet T)
| VUBS (s : UpperBoundedSet T)
| VUS (s : UnboundedSet T).

(** The types that occur as [Rangetools::Inner] (src/lib.rs:120). *)
Inductive inner : Type :=
| IBR (r : BoundedRange T)
| IBS (s : BoundedSet T)
| ILBR (r : LowerBoundedRange T)
| ILBS (s : LowerBoundedSet T)
| IUBR (r : UpperBoundedRange T)
| IUBS (s : UpperBoundedSet T)
| IUnbR (r : UnboundedRange)
| IUS (s : UnboundedSet T)
| IEmpty (r : EmptyRange).

(** The types that occur as [Rangetools::Set] (src/lib.rs:192). *)
Inductive setv : Type :=
| SBS (s : BoundedSet T)
| SLBS (s : LowerBoundedSet T)
| SUBS (s : UpperBoundedSet T)
| SUS (s : UnboundedSet T)
| SUnbR (r : UnboundedRange)
| SEmpty (r : EmptyRange).

(** [Inner] and [Set] types are themselves among the fifteen (no code). *)
Definition value_of_inner (i : inner) : value :=
  match i with
  | IBR r => VBR r | IBS s => VBS s | ILBR r => VLBR r | ILBS s => VLBS s
  | IUBR r => VUBR r | IUBS s => VUBS s | IUnbR r => VUnbR r | IUS s => VUS s
  | IEmpty r => VEmpty r
  end.
Definition value_of_set (s : setv) : value :=
  match s with
  | SBS s => VBS s | SLBS s => VLBS s | SUBS s => VUBS s | SUS s => VUS s
  | SUnbR r => VUnbR r | SEmpty r => VEmpty r
  end.

(** [to_inner]: src/implementations/rangetools/*.rs:9-11 in each file, except
    bounded_range.rs:14-16. *)
Definition to_inner (v : value) : inner :=
  match v with
  | VRange r => IBR (br_from_range r)
  | VRangeInclusive r => IBR (br_from_range_inclusive r)
  | VRangeFrom r => ILBR (lbr_from_range_from r)
  | VRangeTo r => IUBR (ubr_from_range_to r)
  | VRangeToInclusive r => IUBR (ubr_from_range_to_inclusive r)
  | VRangeFull r => IUnbR (unbr_from_range_full r)
  | VBR r => IBR r
  | VLBR r => ILBR r
  | VUBR r => IUBR r
  | VUnbR r => IUnbR r
  | VEmpty r => IEmpty r
  | VBS s => IBS s
  | VLBS s => ILBS s
  | VUBS s => IUBS s
  | VUS s => IUS s
  end.

(** [to_set]: src/implementations/rangetools/*.rs:14-16 in each file, except
    bounded_range.rs:19-21. *)
Definition to_set (v : value) : setv :=
  match v with
  | VRange r => SBS (bs_from_br (br_from_range r))
  | VRangeInclusive r => SBS (bs_from_br (br_from_range_inclusive r))
  | VRangeFrom r => SLBS (lbs_from_lbr (lbr_from_range_from r))
  | VRangeTo r => SUBS (ubs_from_ubr (ubr_from_range_to r))
  | VRangeToInclusive r => SUBS (ubs_from_ubr (ubr_from_range_to_inclusive r))
  | VRangeFull r => SUnbR (unbr_from_range_full r)
  | VBR r => SBS (bs_from_br r)
  | VLBR r => SLBS (lbs_from_lbr r)
  | VUBR r => SUBS (ubs_from_ubr r)
  | VUnbR r => SUnbR r
  | VEmpty r => SEmpty r
  | VBS s => SBS s
  | VLBS s => SLBS s
  | VUBS s => SUBS s
  | VUS s => SUS s
  end.

(** [Rangetools::is_empty]: src/implementations/rangetools/*.rs:4-6 in each
    file (bounded_range.rs:4-11).  For std ranges this is the trait method;
    plain [r.is_empty()] on a std range is std's inherent method instead. *)
Definition is_empty (v : value) : bool :=
  match v with
  | VRange r => t_ge (rg_start r) (rg_end r)
  | VRangeInclusive r => t_gt (ri_start r) (ri_end r)
  | VRangeFrom _ => false
  | VRangeTo _ => false
  | VRangeToInclusive _ => false
  | VRangeFull _ => false
  | VBR r => br_is_empty r
  | VLBR _ => false
  | VUBR _ => false
  | VUnbR _ => false
  | VEmpty _ => true
  | VBS s => bs_is_empty s
  | VLBS _ => false
  | VUBS _ => false
  | VUS _ => false
  end.

(** [contains] of each type: the citations are at the functions called. *)
Definition contains (v : value) (t : T) : bool :=
  match v with
  | VRange r => range_contains r t
  | VRangeInclusive r => range_inclusive_contains r t
  | VRangeFrom r => range_from_contains r t
  | VRangeTo r => range_to_contains r t
  | VRangeToInclusive r => range_to_inclusive_contains r t
  | VRangeFull r => range_full_contains r t
  | VBR r => br_contains r t
  | VLBR r => lbr_contains r t
  | VUBR r => ubr_contains r t
  | VUnbR r => unbr_contains r t
  | VEmpty r => er_contains r t
  | VBS s => bs_contains s t
  | VLBS s => lbs_contains s t
  | VUBS s => ubs_contains s t
  | VUS s => us_contains s t
  end.

(** Rewrapping a result in the sum type (no code). *)
Definition ret_bs (m : outcome (BoundedSet T)) : outcome value := s <- m ;; Ret (VBS s).
Definition ret_lbs (m : outcome (LowerBoundedSet T)) : outcome value := s <- m ;; Ret (VLBS s).
Definition ret_ubs (m : outcome (UpperBoundedSet T)) : outcome value := s <- m ;; Ret (VUBS s).
Definition ret_us (m : outcome (UnboundedSet T)) : outcome value := s <- m ;; Ret (VUS s).

(** ** Intersection: one function per file of src/implementations/intersection *)

(** empty_range.rs:3-11. *)
Definition empty_intersection (self : EmptyRange) (_ : value) : outcome value := Ret (VEmpty self).

(** unbounded_range.rs:3-8. *)
Definition unbr_intersection (_ : UnboundedRange) (other : value) : outcome value :=
  Ret (value_of_inner (to_inner other)).

(** bounded_range.rs. *)
Definition br_intersection (self : BoundedRange T) (other : value) : outcome value :=
  match to_inner other with
  | IBR o => Ret (VBR (br_inter_br self o)) (* 6-16 *)
  | IBS o => Ret (VBS (br_inter_bs self o)) (* 18-27 *)
  | ILBR o => Ret (VBR (br_inter_lbr self o)) (* 29-38 *)
  | ILBS o => ret_bs (br_inter_lbs self o) (* 40-49 *)
  | IUBR o => Ret (VBR (br_inter_ubr self o)) (* 51-60 *)
  | IUBS o => ret_bs (br_inter_ubs self o) (* 62-71 *)
  | IUnbR o => unbr_intersection o (VBR self) (* 73-82 *)
  | IUS o => ret_bs (br_inter_us self o) (* 84-93 *)
  | IEmpty o => empty_intersection o (VBR self) (* 95-104 *)
  end.

(** lower_bounded_range.rs. *)
Definition lbr_intersection (self : LowerBoundedRange T) (other : value) : outcome value :=
  match to_inner other with
  | IBR o => Ret (VBR (lbr_inter_br self o)) (* 6-15 *)
  | IBS o => Ret (VBS (lbr_inter_bs self o)) (* 17-26 *)
  | ILBR o => Ret (VLBR (lbr_inter_lbr self o)) (* 28-37 *)
  | ILBS o => Ret (VLBS (lbr_inter_lbs self o)) (* 39-48 *)
  | IUBR o => Ret (VBR (lbr_inter_ubr self o)) (* 50-59 *)
  | IUBS o => ret_bs (lbr_inter_ubs self o) (* 61-70 *)
  | IUnbR o => unbr_intersection o (VLBR self) (* 72-80 *)
  | IUS o => ret_lbs (lbr_inter_us self o) (* 82-91 *)
  | IEmpty o => Ret (VEmpty o) (* 93-102 *)
  end.

(** upper_bounded_range.rs. *)
Definition ubr_intersection (self : UpperBoundedRange T) (other : value) : outcome value :=
  match to_inner other with
  | IBR o => Ret (VBR (ubr_inter_br self o)) (* 6-15 *)
  | IBS o => Ret (VBS (ubr_inter_bs self o)) (* 17-26 *)
  | ILBR o => Ret (VBR (ubr_inter_lbr self o)) (* 28-37 *)
  | ILBS o => ret_bs (ubr_inter_lbs self o) (* 39-48 *)
  | IUBR o => Ret (VUBR (ubr_inter_ubr self o)) (* 50-59 *)
  | IUBS o => ret_ubs (ubr_inter_ubs self o) (* 61-70 *)
  | IUnbR o => unbr_intersection o (VUBR self) (* 72-80 *)
  | IUS o => ret_ubs (ubr_inter_us self o) (* 82-91 *)
  | IEmpty o => Ret (VEmpty o) (* 93-102 *)
  end.

(** bounded_set.rs. *)
Definition bs_intersection (self : BoundedSet T) (other : value) : outcome value :=
  match to_inner other with
  | IBR o => Ret (VBS (bs_inter_br self o)) (* 7-21 *)
  | IBS o => ret_bs (bs_inter_bs self o) (* 23-36 *)
  | ILBR o => Ret (VBS (bs_inter_lbr self o)) (* 38-52 *)
  | ILBS o => ret_bs (bs_inter_lbs self o) (* 54-70 *)
  | IUBR o => Ret (VBS (bs_inter_ubr self o)) (* 72-86 *)
  | IUBS o => ret_bs (bs_inter_ubs self o) (* 88-104 *)
  | IUnbR o => Ret (VBS self) (* 106-115 *)
  | IUS o => ret_bs (bs_inter_us self o) (* 117-141 *)
  | IEmpty o => Ret (VEmpty o) (* 143-152 *)
  end.

(** lower_bounded_set.rs. *)
Definition lbs_intersection (self : LowerBoundedSet T) (other : value) : outcome value :=
  match to_inner other with
  | IBR o => ret_bs (lbs_inter_br self o) (* 7-20 *)
  | IBS o => ret_bs (lbs_inter_bs self o) (* 22-31 *)
  | ILBR o => Ret (VLBS (lbs_inter_lbr self o)) (* 33-45 *)
  | ILBS o => ret_lbs (lbs_inter_lbs self o) (* 47-61 *)
  | IUBR o => ret_bs (lbs_inter_ubr self o) (* 63-77 *)
  | IUBS o => ret_bs (lbs_inter_ubs self o) (* 79-93 *)
  | IUnbR o => Ret (VLBS self) (* 95-104 *)
  | IUS o => ret_lbs (lbs_inter_us self o) (* 106-130 *)
  | IEmpty o => Ret (VEmpty o) (* 132-141 *)
  end.

(** upper_bounded_set.rs. *)
Definition ubs_intersection (self : UpperBoundedSet T) (other : value) : outcome value :=
  match to_inner other with
  | IBR o => ret_bs (ubs_inter_br self o) (* 7-20 *)
  | IBS o => ret_bs (ubs_inter_bs self o) (* 22-31 *)
  | ILBR o => ret_bs (ubs_inter_lbr self o) (* 33-46 *)
  | ILBS o => ret_bs (ubs_inter_lbs self o) (* 48-57 *)
  | IUBR o => ret_ubs (ubs_inter_ubr self o) (* 59-71 *)
  | IUBS o => ret_ubs (ubs_inter_ubs self o) (* 73-85 *)
  | IUnbR o => Ret (VUBS self) (* 87-95 *)
  | IUS o => ret_ubs (ubs_inter_us self o) (* 97-121 *)
  | IEmpty o => Ret (VEmpty o) (* 123-132 *)
  end.

(** unbounded_set.rs. *)
Definition us_intersection (self : UnboundedSet T) (other : value) : outcome value :=
  match to_inner other with
  | IBR o => ret_bs (us_inter_br self o) (* 7-16 *)
  | IBS o => ret_bs (us_inter_bs self o) (* 18-27 *)
  | ILBR o => ret_lbs (us_inter_lbr self o) (* 29-38 *)
  | ILBS o => ret_lbs (us_inter_lbs self o) (* 40-49 *)
  | IUBR o => ret_ubs (us_inter_ubr self o) (* 51-60 *)
  | IUBS o => ret_ubs (us_inter_ubs self o) (* 62-71 *)
  | IUnbR o => Ret (VUS self) (* 73-81 *)
  | IUS o => ret_us (us_inter_us self o) (* 83-108 *)
  | IEmpty o => Ret (VEmpty o) (* 110-119 *)
  end.

(** range.rs: "self.to_inner(), other" or "other.to_inner(), self". *)
Definition range_intersection (self : Range T) (other : value) : outcome value :=
  match to_inner other with
  | IBR o => br_intersection (br_from_range self) other (* 6-15 *)
  | IBS o => bs_intersection o (VRange self) (* 17-26 *)
  | ILBR o => br_intersection (br_from_range self) other (* 28-37 *)
  | ILBS o => lbs_intersection o (VRange self) (* 39-48 *)
  | IUBR o => br_intersection (br_from_range self) other (* 50-59 *)
  | IUBS o => ubs_intersection o (VRange self) (* 61-70 *)
  | IUnbR o => br_intersection (br_from_range self) other (* 72-81 *)
  | IUS o => us_intersection o (VRange self) (* 83-92 *)
  | IEmpty o => Ret (VEmpty o) (* 94-103 *)
  end.

(** range_inclusive.rs. *)
Definition range_inclusive_intersection (self : RangeInclusive T) (other : value) : outcome value :=
  match to_inner other with
  | IBR o => br_intersection (br_from_range_inclusive self) other (* 6-15 *)
  | IBS o => bs_intersection o (VRangeInclusive self) (* 17-26 *)
  | ILBR o => br_intersection (br_from_range_inclusive self) other (* 28-37 *)
  | ILBS o => lbs_intersection o (VRangeInclusive self) (* 39-48 *)
  | IUBR o => br_intersection (br_from_range_inclusive self) other (* 50-59 *)
  | IUBS o => ubs_intersection o (VRangeInclusive self) (* 61-70 *)
  | IUnbR o => br_intersection (br_from_range_inclusive self) other (* 72-81 *)
  | IUS o => us_intersection o (VRangeInclusive self) (* 83-92 *)
  | IEmpty o => Ret (VEmpty o) (* 94-103 *)
  end.

(** range_from.rs. *)
Definition range_from_intersection (self : RangeFrom T) (other : value) : outcome value :=
  match to_inner other with
  | IBR o => lbr_intersection (lbr_from_range_from self) other (* 6-15 *)
  | IBS o => lbr_intersection (lbr_from_range_from self) other (* 17-26 *)
  | ILBR o => lbr_intersection (lbr_from_range_from self) other (* 28-37 *)
  | ILBS o => lbr_intersection (lbr_from_range_from self) other (* 39-48 *)
  | IUBR o => lbr_intersection (lbr_from_range_from self) other (* 50-59 *)
  | IUBS o => lbr_intersection (lbr_from_range_from self) other (* 61-70 *)
  | IUnbR o => lbr_intersection (lbr_from_range_from self) other (* 72-81 *)
  | IUS o => lbr_intersection (lbr_from_range_from self) other (* 83-92 *)
  | IEmpty o => Ret (VEmpty o) (* 94-103 *)
  end.

(** range_to.rs. *)
Definition range_to_intersection (self : RangeTo T) (other : value) : outcome value :=
  match to_inner other with
  | IBR o => ubr_intersection (ubr_from_range_to self) other (* 6-15 *)
  | IBS o => bs_intersection o (VRangeTo self) (* 17-26 *)
  | ILBR o => ubr_intersection (ubr_from_range_to self) other (* 28-37 *)
  | ILBS o => lbs_intersection o (VRangeTo self) (* 39-48 *)
  | IUBR o => ubr_intersection (ubr_from_range_to self) other (* 50-59 *)
  | IUBS o => ubs_intersection o (VRangeTo self) (* 61-70 *)
  | IUnbR o => ubr_intersection (ubr_from_range_to self) other (* 72-81 *)
  | IUS o => us_intersection o (VRangeTo self) (* 83-92 *)
  | IEmpty o => Ret (VEmpty o) (* 93-102 *)
  end.

(** range_to_inclusive.rs. *)
Definition range_to_inclusive_intersection (self : RangeToInclusive T) (other : value) : outcome value :=
  match to_inner other with
  | IBR o => ubr_intersection (ubr_from_range_to_inclusive self) other (* 6-15 *)
  | IBS o => bs_intersection o (VRangeToInclusive self) (* 17-26 *)
  | ILBR o => ubr_intersection (ubr_from_range_to_inclusive self) other (* 28-37 *)
  | ILBS o => lbs_intersection o (VRangeToInclusive self) (* 39-48 *)
  | IUBR o => ubr_intersection (ubr_from_range_to_inclusive self) other (* 50-59 *)
  | IUBS o => ubs_intersection o (VRangeToInclusive self) (* 61-70 *)
  | IUnbR o => ubr_intersection (ubr_from_range_to_inclusive self) other (* 72-81 *)
  | IUS o => us_intersection o (VRangeToInclusive self) (* 83-92 *)
  | IEmpty o => Ret (VEmpty o) (* 94-103 *)
  end.

(** range_full.rs. *)
Definition range_full_intersection (self : RangeFull) (other : value) : outcome value :=
  match to_inner other with
  | IBR o => unbr_intersection (unbr_from_range_full self) other (* 6-14 *)
  | IBS o => unbr_intersection (unbr_from_range_full self) other (* 16-24 *)
  | ILBR o => unbr_intersection (unbr_from_range_full self) other (* 26-34 *)
  | ILBS o => unbr_intersection (unbr_from_range_full self) other (* 36-44 *)
  | IUBR o => unbr_intersection (unbr_from_range_full self) other (* 46-54 *)
  | IUBS o => unbr_intersection (unbr_from_range_full self) other (* 56-64 *)
  | IUnbR o => unbr_intersection (unbr_from_range_full self) other (* 66-74 *)
  | IUS o => unbr_intersection (unbr_from_range_full self) other (* 76-84 *)
  | IEmpty o => Ret (VEmpty o) (* 86-95 *)
  end.

(** [Rangetools::intersection] (src/lib.rs:143-149). *)
Definition intersection (self other : value) : outcome value :=
  match self with
  | VRange r => range_intersection r other
  | VRangeInclusive r => range_inclusive_intersection r other
  | VRangeFrom r => range_from_intersection r other
  | VRangeTo r => range_to_intersection r other
  | VRangeToInclusive r => range_to_inclusive_intersection r other
  | VRangeFull r => range_full_intersection r other
  | VBR r => br_intersection r other
  | VLBR r => lbr_intersection r other
  | VUBR r => ubr_intersection r other
  | VUnbR r => unbr_intersection r other
  | VEmpty r => empty_intersection r other
  | VBS s => bs_intersection s other
  | VLBS s => lbs_intersection s other
  | VUBS s => ubs_intersection s other
  | VUS s => us_intersection s other
  end.

(** [Rangetools::disjoint] (src/lib.rs:160-167) and [intersects] (178-185). *)
Definition disjoint (self other : value) : outcome bool :=
  i <- intersection self other ;; Ret (is_empty i).
Definition intersects (self other : value) : outcome bool :=
  d <- disjoint self other ;; Ret (negb d).

(** ** Union: one function per file of src/implementations/union *)

(** empty_range.rs:3-11: the operand itself, unconverted. *)
Definition empty_union (_ : EmptyRange) (other : value) : outcome value := Ret other.

(** unbounded_range.rs:3-8. *)
Definition unbr_union (self : UnboundedRange) (_ : value) : outcome value := Ret (VUnbR self).

(** bounded_set.rs. *)
Definition bs_union (self : BoundedSet T) (other : value) : outcome value :=
  match to_set other with
  | SBS o => ret_bs (bs_union_bs self o) (* 6-16 *)
  | SLBS o => ret_lbs (bs_union_lbs self o) (* 18-29 *)
  | SUBS o => ret_ubs (bs_union_ubs self o) (* 31-42 *)
  | SUS o => ret_us (bs_union_us self o) (* 44-55 *)
  | SUnbR o => unbr_union o (VBS self) (* 57-66 *)
  | SEmpty o => empty_union o (VBS self) (* 68-77 *)
  end.

(** lower_bounded_set.rs. *)
Definition lbs_union (self : LowerBoundedSet T) (other : value) : outcome value :=
  match to_set other with
  | SBS o => ret_lbs (lbs_union_bs self o) (* 6-15 *)
  | SLBS o => ret_lbs (lbs_union_lbs self o) (* 17-28 *)
  | SUBS o => ret_us (lbs_union_ubs self o) (* 30-41 *)
  | SUS o => ret_us (lbs_union_us self o) (* 43-54 *)
  | SUnbR o => unbr_union o (VLBS self) (* 56-65 *)
  | SEmpty o => empty_union o (VLBS self) (* 67-76 *)
  end.

(** upper_bounded_set.rs. *)
Definition ubs_union (self : UpperBoundedSet T) (other : value) : outcome value :=
  match to_set other with
  | SBS o => ret_ubs (ubs_union_bs self o) (* 6-15 *)
  | SLBS o => ret_us (ubs_union_lbs self o) (* 17-26 *)
  | SUBS o => ret_ubs (ubs_union_ubs self o) (* 28-39 *)
  | SUS o => ret_us (ubs_union_us self o) (* 41-52 *)
  | SUnbR o => unbr_union o (VUBS self) (* 54-63 *)
  | SEmpty o => empty_union o (VUBS self) (* 65-74 *)
  end.

(** unbounded_set.rs. *)
Definition us_union (self : UnboundedSet T) (other : value) : outcome value :=
  match to_set other with
  | SBS o => ret_us (us_union_bs self o) (* 6-15 *)
  | SLBS o => ret_us (us_union_lbs self o) (* 17-26 *)
  | SUBS o => ret_us (us_union_ubs self o) (* 28-37 *)
  | SUS o => ret_us (us_union_us self o) (* 39-49 *)
  | SUnbR o => unbr_union o (VUS self) (* 51-60 *)
  | SEmpty o => empty_union o (VUS self) (* 62-71 *)
  end.

(** bounded_range.rs. *)
Definition br_union (self : BoundedRange T) (other : value) : outcome value :=
  match to_set other with
  | SBS o => bs_union (bs_from_br self) other (* 6-15 *)
  | SLBS o => bs_union (bs_from_br self) other (* 17-26 *)
  | SUBS o => bs_union (bs_from_br self) other (* 28-37 *)
  | SUS o => bs_union (bs_from_br self) other (* 39-48 *)
  | SUnbR o => unbr_union o (VBR self) (* 50-59 *)
  | SEmpty o => empty_union o (VBR self) (* 61-70 *)
  end.

(** lower_bounded_range.rs. *)
Definition lbr_union (self : LowerBoundedRange T) (other : value) : outcome value :=
  match to_set other with
  | SBS o => lbs_union (lbs_from_lbr self) other (* 6-15 *)
  | SLBS o => lbs_union (lbs_from_lbr self) other (* 17-26 *)
  | SUBS o => lbs_union (lbs_from_lbr self) other (* 28-37 *)
  | SUS o => lbs_union (lbs_from_lbr self) other (* 39-48 *)
  | SUnbR o => unbr_union o (VLBR self) (* 50-59 *)
  | SEmpty o => empty_union o (VLBR self) (* 61-70 *)
  end.

(** upper_bounded_range.rs. *)
Definition ubr_union (self : UpperBoundedRange T) (other : value) : outcome value :=
  match to_set other with
  | SBS o => ubs_union (ubs_from_ubr self) other (* 6-15 *)
  | SLBS o => ubs_union (ubs_from_ubr self) other (* 17-26 *)
  | SUBS o => ubs_union (ubs_from_ubr self) other (* 28-37 *)
  | SUS o => ubs_union (ubs_from_ubr self) other (* 39-48 *)
  | SUnbR o => unbr_union o (VUBR self) (* 50-59 *)
  | SEmpty o => empty_union o (VUBR self) (* 61-70 *)
  end.

(** range.rs. *)
Definition range_union (self : Range T) (other : value) : outcome value :=
  match to_set other with
  | SBS o => bs_union (bs_from_br (br_from_range self)) other (* 6-15 *)
  | SLBS o => bs_union (bs_from_br (br_from_range self)) other (* 17-26 *)
  | SUBS o => bs_union (bs_from_br (br_from_range self)) other (* 28-37 *)
  | SUS o => bs_union (bs_from_br (br_from_range self)) other (* 39-48 *)
  | SUnbR o => unbr_union o (VRange self) (* 50-59 *)
  | SEmpty o => empty_union o (VRange self) (* 61-70 *)
  end.

(** range_inclusive.rs. *)
Definition range_inclusive_union (self : RangeInclusive T) (other : value) : outcome value :=
  match to_set other with
  | SBS o => bs_union (bs_from_br (br_from_range_inclusive self)) other (* 6-15 *)
  | SLBS o => bs_union (bs_from_br (br_from_range_inclusive self)) other (* 17-26 *)
  | SUBS o => bs_union (bs_from_br (br_from_range_inclusive self)) other (* 28-37 *)
  | SUS o => bs_union (bs_from_br (br_from_range_inclusive self)) other (* 39-48 *)
  | SUnbR o => unbr_union o (VRangeInclusive self) (* 50-59 *)
  | SEmpty o => empty_union o (VRangeInclusive self) (* 61-70 *)
  end.

(** range_from.rs. *)
Definition range_from_union (self : RangeFrom T) (other : value) : outcome value :=
  match to_set other with
  | SBS o => lbs_union (lbs_from_lbr (lbr_from_range_from self)) other (* 6-15 *)
  | SLBS o => lbs_union (lbs_from_lbr (lbr_from_range_from self)) other (* 17-26 *)
  | SUBS o => lbs_union (lbs_from_lbr (lbr_from_range_from self)) other (* 28-37 *)
  | SUS o => lbs_union (lbs_from_lbr (lbr_from_range_from self)) other (* 39-48 *)
  | SUnbR o => unbr_union o (VRangeFrom self) (* 50-59 *)
  | SEmpty o => empty_union o (VRangeFrom self) (* 61-70 *)
  end.

(** range_to.rs. *)
Definition range_to_union (self : RangeTo T) (other : value) : outcome value :=
  match to_set other with
  | SBS o => ubs_union (ubs_from_ubr (ubr_from_range_to self)) other (* 6-15 *)
  | SLBS o => ubs_union (ubs_from_ubr (ubr_from_range_to self)) other (* 17-26 *)
  | SUBS o => ubs_union (ubs_from_ubr (ubr_from_range_to self)) other (* 28-37 *)
  | SUS o => ubs_union (ubs_from_ubr (ubr_from_range_to self)) other (* 39-48 *)
  | SUnbR o => unbr_union o (VRangeTo self) (* 50-59 *)
  | SEmpty o => empty_union o (VRangeTo self) (* 61-70 *)
  end.

(** range_to_inclusive.rs. *)
Definition range_to_inclusive_union (self : RangeToInclusive T) (other : value) : outcome value :=
  match to_set other with
  | SBS o => ubs_union (ubs_from_ubr (ubr_from_range_to_inclusive self)) other (* 6-15 *)
  | SLBS o => ubs_union (ubs_from_ubr (ubr_from_range_to_inclusive self)) other (* 17-26 *)
  | SUBS o => ubs_union (ubs_from_ubr (ubr_from_range_to_inclusive self)) other (* 28-37 *)
  | SUS o => ubs_union (ubs_from_ubr (ubr_from_range_to_inclusive self)) other (* 39-48 *)
  | SUnbR o => unbr_union o (VRangeToInclusive self) (* 50-59 *)
  | SEmpty o => empty_union o (VRangeToInclusive self) (* 61-70 *)
  end.

(** range_full.rs. *)
Definition range_full_union (self : RangeFull) (other : value) : outcome value :=
  match to_set other with
  | SBS o => unbr_union (unbr_from_range_full self) other (* 6-14 *)
  | SLBS o => unbr_union (unbr_from_range_full self) other (* 16-24 *)
  | SUBS o => unbr_union (unbr_from_range_full self) other (* 26-34 *)
  | SUS o => unbr_union (unbr_from_range_full self) other (* 36-44 *)
  | SUnbR o => unbr_union o (VRangeFull self) (* 46-54 *)
  | SEmpty o => empty_union o (VRangeFull self) (* 56-65 *)
  end.

(** [Rangetools::union] (src/lib.rs:216-222). *)
Definition union (self other : value) : outcome value :=
  match self with
  | VRange r => range_union r other
  | VRangeInclusive r => range_inclusive_union r other
  | VRangeFrom r => range_from_union r other
  | VRangeTo r => range_to_union r other
  | VRangeToInclusive r => range_to_inclusive_union r other
  | VRangeFull r => range_full_union r other
  | VBR r => br_union r other
  | VLBR r => lbr_union r other
  | VUBR r => ubr_union r other
  | VUnbR r => unbr_union r other
  | VEmpty r => empty_union r other
  | VBS s => bs_union s other
  | VLBS s => lbs_union s other
  | VUBS s => ubs_union s other
  | VUS s => us_union s other
  end.

(** ** Complement *)

(** [Rangetools::complement] (src/lib.rs:107-112); each arm is the impl in the
    file of that type in src/implementations/complement, lines 3-10 of
    range*.rs (range_full.rs:3-7, unbounded_range.rs:3-7, empty_range.rs:3-7);
    the others are cited at the functions called. *)
Definition complement (self : value) : outcome value :=
  match self with
  | VRange r => ret_us (br_complement (br_from_range r))
  | VRangeInclusive r => ret_us (br_complement (br_from_range_inclusive r))
  | VRangeFrom r => Ret (VUBR (lbr_complement (lbr_from_range_from r)))
  | VRangeTo r => Ret (VLBR (ubr_complement (ubr_from_range_to r)))
  | VRangeToInclusive r => Ret (VLBR (ubr_complement (ubr_from_range_to_inclusive r)))
  | VRangeFull _ => Ret (VEmpty mkEmptyRange)
  | VBR r => ret_us (br_complement r)
  | VLBR r => Ret (VUBR (lbr_complement r))
  | VUBR r => Ret (VLBR (ubr_complement r))
  | VUnbR _ => Ret (VEmpty mkEmptyRange)
  | VEmpty _ => Ret (VUnbR mkUnboundedRange)
  | VBS s => ret_us (bs_complement s)
  | VLBS s => ret_ubs (lbs_complement s)
  | VUBS s => ret_lbs (ubs_complement s)
  | VUS s => ret_bs (us_complement s)
  end.

(** ** Programs: nested uses of the operations *)

(** The client loop [for r in l { acc = acc.union(r) }] (src/lib.rs:216-222). *)
Definition union_all (l : list value) (acc : value) : outcome value := foldM union l acc.

(** Expressions over the public operations (src/lib.rs:85-223). *)
Inductive expr : Type :=
| EVal (v : value)
| EUnion (a b : expr)
| EInter (a b : expr)
| ECompl (a : expr)
| EInner (a : expr)
| ESet (a : expr).

(** Evaluation, operands left to right. *)
Fixpoint eval (e : expr) : outcome value :=
  match e with
  | EVal v => Ret v
  | EUnion a b => x <- eval a ;; y <- eval b ;; union x y
  | EInter a b => x <- eval a ;; y <- eval b ;; intersection x y
  | ECompl a => x <- eval a ;; complement x
  | EInner a => x <- eval a ;; Ret (value_of_inner (to_inner x))
  | ESet a => x <- eval a ;; Ret (value_of_set (to_set x))
  end.

End Value.
Arguments value T : clear implicits.
Arguments inner T : clear implicits.
Arguments setv T : clear implicits.
Arguments expr T : clear implicits.
