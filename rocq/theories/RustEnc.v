(** The values of the model as values of the interpreter of RustEval.v. *)
From Coq Require Import String.
From Verif Require Import Base ModelBound ModelRanges ModelSets ModelValue ModelStep ModelIter RustSyntax Source RustEval.
Open Scope Z_scope.
Open Scope string_scope.
Open Scope list_scope.

Section Enc.
Context {T : Type}.
Notation val := (val T).

Definition bound_con (b : Bound T) : string :=
  match b with Excluded _ => "Excluded" | Included _ => "Included" end.
Definition bound_elt (b : Bound T) : T := match b with Excluded t => t | Included t => t end.
Definition enc_bound (b : Bound T) : val := DCon "Bound" (bound_con b) [("0", DElt (bound_elt b))].
Definition enc_lb (x : LowerBound T) : val := DCon "LowerBound" "LowerBound" [("0", enc_bound (lb_bound x))].
Definition enc_ub (x : UpperBound T) : val := DCon "UpperBound" "UpperBound" [("0", enc_bound (ub_bound x))].

Definition enc_range (r : Range T) : val :=
  DCon "Range" "Range" [("start", DElt (rg_start r)); ("end", DElt (rg_end r))].
Definition enc_ri (r : RangeInclusive T) : val :=
  DCon "RangeInclusive" "RangeInclusive"
    [("start", DElt (ri_start r)); ("end", DElt (ri_end r)); ("exhausted", DBool (ri_exhausted r))].
Definition enc_rf (r : RangeFrom T) : val := DCon "RangeFrom" "RangeFrom" [("start", DElt (rf_start r))].
Definition enc_rt (r : RangeTo T) : val := DCon "RangeTo" "RangeTo" [("end", DElt (rt_end r))].
Definition enc_rti (r : RangeToInclusive T) : val :=
  DCon "RangeToInclusive" "RangeToInclusive" [("end", DElt (rti_end r))].
Definition enc_rfull (_ : RangeFull) : val := DCon "RangeFull" "RangeFull" [].

Definition enc_br (r : BoundedRange T) : val :=
  DCon "BoundedRange" "BoundedRange" [("start", enc_lb (br_start r)); ("end", enc_ub (br_end r))].
Definition enc_lbr (r : LowerBoundedRange T) : val :=
  DCon "LowerBoundedRange" "LowerBoundedRange" [("start", enc_lb (lbr_start r))].
Definition enc_ubr (r : UpperBoundedRange T) : val :=
  DCon "UpperBoundedRange" "UpperBoundedRange" [("end", enc_ub (ubr_end r))].
Definition enc_unbr (_ : UnboundedRange) : val := DCon "UnboundedRange" "UnboundedRange" [].
Definition enc_empty (_ : EmptyRange) : val :=
  DCon "EmptyRange" "EmptyRange" [("t", DCon "PhantomData" "PhantomData" [])].

Definition enc_bs (s : BoundedSet T) : val :=
  DCon "BoundedSet" "BoundedSet" [("ranges", DList (map enc_br (bs_ranges s)))].
Definition enc_lbs (s : LowerBoundedSet T) : val :=
  DCon "LowerBoundedSet" "LowerBoundedSet"
    [("ranges", enc_bs (lbs_ranges s)); ("lower_bounded_range", enc_lbr (lbs_lbr s))].
Definition enc_ubs (s : UpperBoundedSet T) : val :=
  DCon "UpperBoundedSet" "UpperBoundedSet"
    [("upper_bounded_range", enc_ubr (ubs_ubr s)); ("ranges", enc_bs (ubs_ranges s))].
Definition enc_pus (s : PiecewiseUnboundedSet T) : val :=
  DCon "PiecewiseUnboundedSet" "PiecewiseUnboundedSet"
    [("upper_bounded_range", enc_ubr (pus_ubr s)); ("ranges", enc_bs (pus_ranges s));
     ("lower_bounded_range", enc_lbr (pus_lbr s))].
Definition us_con (s : UnboundedSet T) : string :=
  match s with Full => "Full" | Piecewise _ => "Piecewise" end.
Definition us_fields (s : UnboundedSet T) : list (string * val) :=
  match s with Full => [] | Piecewise p => [("0", enc_pus p)] end.
Definition enc_us (s : UnboundedSet T) : val := DCon "UnboundedSet" (us_con s) (us_fields s).

Definition enc_value (v : value T) : val :=
  match v with
  | VRange r => enc_range r | VRangeInclusive r => enc_ri r | VRangeFrom r => enc_rf r
  | VRangeTo r => enc_rt r | VRangeToInclusive r => enc_rti r | VRangeFull r => enc_rfull r
  | VBR r => enc_br r | VLBR r => enc_lbr r | VUBR r => enc_ubr r | VUnbR r => enc_unbr r
  | VEmpty r => enc_empty r
  | VBS s => enc_bs s | VLBS s => enc_lbs s | VUBS s => enc_ubs s | VUS s => enc_us s
  end.
Definition enc_inner (i : inner T) : val := enc_value (value_of_inner i).
Definition enc_setv (s : setv T) : val := enc_value (value_of_set s).

(** Iterators. *)
Definition enc_bri (i : BoundedRangeIter T) : val :=
  DCon "BoundedRangeIter" "BoundedRangeIter"
    [("current", DElt (bri_current i)); ("last", DElt (bri_last_field i))].
Definition enc_bsi (i : BoundedSetIter T) : val :=
  DCon "BoundedSetIter" "BoundedSetIter" [("range_iters", DList (map enc_bri (bsi_range_iters i)))].
Definition enc_lbri (i : LowerBoundedRangeIter T) : val :=
  DCon "LowerBoundedRangeIter" "LowerBoundedRangeIter" [("current", DElt (lbri_current i))].
Definition enc_lbsi (i : LowerBoundedSetIter T) : val :=
  DCon "LowerBoundedSetIter" "LowerBoundedSetIter"
    [("set_iter", enc_bsi (lbsi_set_iter i)); ("range_iter", enc_lbri (lbsi_range_iter i))].
Definition enc_opt {A : Type} (f : A -> val) (o : option A) : val :=
  match o with Some a => some_val (f a) | None => none_val end.

End Enc.
