(** Model of the conversions from crate ranges to std ranges:
    src/bounded_range.rs:51-83, src/lower_bounded_range.rs:33-43,
    src/upper_bounded_range.rs:40-62, src/unbounded_range.rs:26-30,
    src/empty_range.rs:22-42.  (The conversions from std ranges are in ModelRanges.v.) *)
From Verif Require Import Base ModelBound ModelRanges ModelStep.
Open Scope Z_scope.

(** std [Default]. *)
Class Default (T : Type) : Type := { default : T }.
#[global] Instance DefaultMint {PF : Platform} (ty : ity) : Default (mint ty) := { default := wrap ty 0 }.
#[global] Instance DefaultChr : Default chr := { default := MC 0 eq_refl }.

Section Conv.
Context {T : Type} {PF : Platform} {OT : Ord T} {ST : Step T}.

(** src/bounded_range.rs:55-65 [From<BoundedRange> for Range]. *)
Definition range_from_br (m : mode) (r : BoundedRange T) : outcome (Range T) :=
  start <- match lb_to_bound (br_start r) with
           | Excluded t => forward m t 1
           | Included t => Ret t
           end ;;
  end_ <- match ub_to_bound (br_end r) with
          | Excluded t => Ret t
          | Included t => forward m t 1
          end ;;
  Ret (mkRange start end_).

(** src/bounded_range.rs:72-82 [From<BoundedRange> for RangeInclusive]. *)
Definition range_inclusive_from_br (m : mode) (r : BoundedRange T) : outcome (RangeInclusive T) :=
  start <- match lb_to_bound (br_start r) with
           | Excluded t => forward m t 1
           | Included t => Ret t
           end ;;
  end_ <- match ub_to_bound (br_end r) with
          | Excluded t => backward m t 1
          | Included t => Ret t
          end ;;
  Ret (mkRangeInclusive start end_ false).

(** src/lower_bounded_range.rs:37-42. *)
Definition range_from_from_lbr (m : mode) (r : LowerBoundedRange T) : outcome (RangeFrom T) :=
  match lb_to_bound (lbr_start r) with
  | Excluded t => start <- forward m t 1 ;; Ret (mkRangeFrom start)
  | Included t => Ret (mkRangeFrom t)
  end.

(** src/upper_bounded_range.rs:44-49. *)
Definition range_to_from_ubr (m : mode) (r : UpperBoundedRange T) : outcome (RangeTo T) :=
  match ub_to_bound (ubr_end r) with
  | Excluded t => Ret (mkRangeTo t)
  | Included t => end_ <- forward m t 1 ;; Ret (mkRangeTo end_)
  end.

(** src/upper_bounded_range.rs:56-61. *)
Definition range_to_inclusive_from_ubr (m : mode) (r : UpperBoundedRange T) : outcome (RangeToInclusive T) :=
  match ub_to_bound (ubr_end r) with
  | Excluded t => end_ <- backward m t 1 ;; Ret (mkRangeToInclusive end_)
  | Included t => Ret (mkRangeToInclusive t)
  end.

(** src/unbounded_range.rs:26-30. *)
Definition range_full_from_unbr (_ : UnboundedRange) : RangeFull := mkRangeFull.

(** src/empty_range.rs:26-28; [Range::default()] is [T::default()..T::default()]. *)
Definition range_from_empty {DT : Default T} (_ : EmptyRange) : Range T := mkRange default default.

(** src/empty_range.rs:35-41. *)
Definition range_inclusive_from_empty {DT : Default T} (m : mode) (_ : EmptyRange) : outcome (RangeInclusive T) :=
  let r := BR (lb_included default) (ub_excluded default) in
  range_inclusive_from_br m r.

(** [RangeInclusive::next] of std (outside /repo), used to show that exhausted
    states are reached: [is_empty], then advance or set the flag. *)
Definition std_ri_next (m : mode) (r : RangeInclusive T) : outcome (option T * RangeInclusive T) :=
  if ri_exhausted r || negb (t_le (ri_start r) (ri_end r)) then Ret (None, r)
  else if t_lt (ri_start r) (ri_end r) then
    n <- forward m (ri_start r) 1 ;;
    Ret (Some (ri_start r), mkRangeInclusive n (ri_end r) false)
  else Ret (Some (ri_start r), mkRangeInclusive (ri_start r) (ri_end r) true).
End Conv.
