(** The source of the intersections, unions and complements of
    std's ranges, and of any type with an unbounded or an empty range, run by RustEval.v, gives what
    the model functions give. *)
From Coq Require Import String.
From Verif Require Import Base ModelBound ModelRanges ModelSets ModelAlgebra ModelValue ModelStep ModelIter
  RustSyntax Source RustEval RustEnc RustTac RustRange RustSet RustUnb RustInter RustUnion.
Open Scope Z_scope.
Open Scope string_scope.
Open Scope list_scope.

Section Extreme.
Context {T : Type} {PF : Platform} {OT : Ord T} {ST : Step T} (dflt : option T) (m : mode).
Notation calls := (calls dflt m).
Implicit Types (w : value T).
(** [UnboundedRange] and [EmptyRange] as the operand. *)
Lemma c_br_inter_unbr (b : BoundedRange T) f v w o : v = enc_value w -> to_inner w = IUnbR o ->
  calls (RFn (inter "BoundedRange" "UnboundedRange") [(f, enc_br b); (false, v)]) (Ret (AVal (enc_br b) [None; None])).
Proof. operand H; unfold calls; run. Qed.
Lemma c_br_union_unbr (b : BoundedRange T) f v w o : v = enc_value w -> to_set w = SUnbR o ->
  calls (RFn (uni "BoundedRange" "UnboundedRange") [(f, enc_br b); (false, v)]) (Ret (AVal (enc_unbr o) [None; None])).
Proof. operand H; unfold calls; run. Qed.
Lemma c_br_inter_empty (b : BoundedRange T) f v w o : v = enc_value w -> to_inner w = IEmpty o ->
  calls (RFn (inter "BoundedRange" "EmptyRange") [(f, enc_br b); (false, v)]) (Ret (AVal (enc_empty o) [None; None])).
Proof. operand H; unfold calls; run. Qed.
Lemma c_br_union_empty (b : BoundedRange T) f v w o : v = enc_value w -> to_set w = SEmpty o ->
  calls (RFn (uni "BoundedRange" "EmptyRange") [(f, enc_br b); (false, v)]) (Ret (AVal (enc_br b) [None; None])).
Proof. operand H; unfold calls; run. Qed.
Lemma c_lbr_inter_unbr (b : LowerBoundedRange T) f v w o : v = enc_value w -> to_inner w = IUnbR o ->
  calls (RFn (inter "LowerBoundedRange" "UnboundedRange") [(f, enc_lbr b); (false, v)]) (Ret (AVal (enc_lbr b) [None; None])).
Proof. operand H; unfold calls; run. Qed.
Lemma c_lbr_union_unbr (b : LowerBoundedRange T) f v w o : v = enc_value w -> to_set w = SUnbR o ->
  calls (RFn (uni "LowerBoundedRange" "UnboundedRange") [(f, enc_lbr b); (false, v)]) (Ret (AVal (enc_unbr o) [None; None])).
Proof. operand H; unfold calls; run. Qed.
Lemma c_lbr_inter_empty (b : LowerBoundedRange T) f v w o : v = enc_value w -> to_inner w = IEmpty o ->
  calls (RFn (inter "LowerBoundedRange" "EmptyRange") [(f, enc_lbr b); (false, v)]) (Ret (AVal (enc_empty o) [None; None])).
Proof. operand H; unfold calls; run. Qed.
Lemma c_lbr_union_empty (b : LowerBoundedRange T) f v w o : v = enc_value w -> to_set w = SEmpty o ->
  calls (RFn (uni "LowerBoundedRange" "EmptyRange") [(f, enc_lbr b); (false, v)]) (Ret (AVal (enc_lbr b) [None; None])).
Proof. operand H; unfold calls; run. Qed.
Lemma c_ubr_inter_unbr (b : UpperBoundedRange T) f v w o : v = enc_value w -> to_inner w = IUnbR o ->
  calls (RFn (inter "UpperBoundedRange" "UnboundedRange") [(f, enc_ubr b); (false, v)]) (Ret (AVal (enc_ubr b) [None; None])).
Proof. operand H; unfold calls; run. Qed.
Lemma c_ubr_union_unbr (b : UpperBoundedRange T) f v w o : v = enc_value w -> to_set w = SUnbR o ->
  calls (RFn (uni "UpperBoundedRange" "UnboundedRange") [(f, enc_ubr b); (false, v)]) (Ret (AVal (enc_unbr o) [None; None])).
Proof. operand H; unfold calls; run. Qed.
Lemma c_ubr_inter_empty (b : UpperBoundedRange T) f v w o : v = enc_value w -> to_inner w = IEmpty o ->
  calls (RFn (inter "UpperBoundedRange" "EmptyRange") [(f, enc_ubr b); (false, v)]) (Ret (AVal (enc_empty o) [None; None])).
Proof. operand H; unfold calls; run. Qed.
Lemma c_ubr_union_empty (b : UpperBoundedRange T) f v w o : v = enc_value w -> to_set w = SEmpty o ->
  calls (RFn (uni "UpperBoundedRange" "EmptyRange") [(f, enc_ubr b); (false, v)]) (Ret (AVal (enc_ubr b) [None; None])).
Proof. operand H; unfold calls; run. Qed.
Lemma c_bs_inter_unbr (b : BoundedSet T) f v w o : v = enc_value w -> to_inner w = IUnbR o ->
  calls (RFn (inter "BoundedSet" "UnboundedRange") [(f, enc_bs b); (false, v)]) (Ret (AVal (enc_bs b) [None; None])).
Proof. operand H; unfold calls; run. Qed.
Lemma c_bs_union_unbr (b : BoundedSet T) f v w o : v = enc_value w -> to_set w = SUnbR o ->
  calls (RFn (uni "BoundedSet" "UnboundedRange") [(f, enc_bs b); (false, v)]) (Ret (AVal (enc_unbr o) [None; None])).
Proof. operand H; unfold calls; run. Qed.
Lemma c_bs_inter_empty (b : BoundedSet T) f v w o : v = enc_value w -> to_inner w = IEmpty o ->
  calls (RFn (inter "BoundedSet" "EmptyRange") [(f, enc_bs b); (false, v)]) (Ret (AVal (enc_empty o) [None; None])).
Proof. operand H; unfold calls; run. Qed.
Lemma c_bs_union_empty (b : BoundedSet T) f v w o : v = enc_value w -> to_set w = SEmpty o ->
  calls (RFn (uni "BoundedSet" "EmptyRange") [(f, enc_bs b); (false, v)]) (Ret (AVal (enc_bs b) [None; None])).
Proof. operand H; unfold calls; run. Qed.
Lemma c_lbs_inter_unbr (b : LowerBoundedSet T) f v w o : v = enc_value w -> to_inner w = IUnbR o ->
  calls (RFn (inter "LowerBoundedSet" "UnboundedRange") [(f, enc_lbs b); (false, v)]) (Ret (AVal (enc_lbs b) [None; None])).
Proof. operand H; unfold calls; run. Qed.
Lemma c_lbs_union_unbr (b : LowerBoundedSet T) f v w o : v = enc_value w -> to_set w = SUnbR o ->
  calls (RFn (uni "LowerBoundedSet" "UnboundedRange") [(f, enc_lbs b); (false, v)]) (Ret (AVal (enc_unbr o) [None; None])).
Proof. operand H; unfold calls; run. Qed.
Lemma c_lbs_inter_empty (b : LowerBoundedSet T) f v w o : v = enc_value w -> to_inner w = IEmpty o ->
  calls (RFn (inter "LowerBoundedSet" "EmptyRange") [(f, enc_lbs b); (false, v)]) (Ret (AVal (enc_empty o) [None; None])).
Proof. operand H; unfold calls; run. Qed.
Lemma c_lbs_union_empty (b : LowerBoundedSet T) f v w o : v = enc_value w -> to_set w = SEmpty o ->
  calls (RFn (uni "LowerBoundedSet" "EmptyRange") [(f, enc_lbs b); (false, v)]) (Ret (AVal (enc_lbs b) [None; None])).
Proof. operand H; unfold calls; run. Qed.
Lemma c_ubs_inter_unbr (b : UpperBoundedSet T) f v w o : v = enc_value w -> to_inner w = IUnbR o ->
  calls (RFn (inter "UpperBoundedSet" "UnboundedRange") [(f, enc_ubs b); (false, v)]) (Ret (AVal (enc_ubs b) [None; None])).
Proof. operand H; unfold calls; run. Qed.
Lemma c_ubs_union_unbr (b : UpperBoundedSet T) f v w o : v = enc_value w -> to_set w = SUnbR o ->
  calls (RFn (uni "UpperBoundedSet" "UnboundedRange") [(f, enc_ubs b); (false, v)]) (Ret (AVal (enc_unbr o) [None; None])).
Proof. operand H; unfold calls; run. Qed.
Lemma c_ubs_inter_empty (b : UpperBoundedSet T) f v w o : v = enc_value w -> to_inner w = IEmpty o ->
  calls (RFn (inter "UpperBoundedSet" "EmptyRange") [(f, enc_ubs b); (false, v)]) (Ret (AVal (enc_empty o) [None; None])).
Proof. operand H; unfold calls; run. Qed.
Lemma c_ubs_union_empty (b : UpperBoundedSet T) f v w o : v = enc_value w -> to_set w = SEmpty o ->
  calls (RFn (uni "UpperBoundedSet" "EmptyRange") [(f, enc_ubs b); (false, v)]) (Ret (AVal (enc_ubs b) [None; None])).
Proof. operand H; unfold calls; run. Qed.
Lemma c_us_inter_unbr (b : UnboundedSet T) f v w o : v = enc_value w -> to_inner w = IUnbR o ->
  calls (RFn (inter "UnboundedSet" "UnboundedRange") [(f, enc_us b); (false, v)]) (Ret (AVal (enc_us b) [None; None])).
Proof. operand H; unfold calls; run. Qed.
Lemma c_us_union_unbr (b : UnboundedSet T) f v w o : v = enc_value w -> to_set w = SUnbR o ->
  calls (RFn (uni "UnboundedSet" "UnboundedRange") [(f, enc_us b); (false, v)]) (Ret (AVal (enc_unbr o) [None; None])).
Proof. operand H; unfold calls; run. Qed.
Lemma c_us_inter_empty (b : UnboundedSet T) f v w o : v = enc_value w -> to_inner w = IEmpty o ->
  calls (RFn (inter "UnboundedSet" "EmptyRange") [(f, enc_us b); (false, v)]) (Ret (AVal (enc_empty o) [None; None])).
Proof. operand H; unfold calls; run. Qed.
Lemma c_us_union_empty (b : UnboundedSet T) f v w o : v = enc_value w -> to_set w = SEmpty o ->
  calls (RFn (uni "UnboundedSet" "EmptyRange") [(f, enc_us b); (false, v)]) (Ret (AVal (enc_us b) [None; None])).
Proof. operand H; unfold calls; run. Qed.
End Extreme.
#[export] Hint Resolve c_br_inter_unbr c_br_union_unbr c_br_inter_empty c_br_union_empty c_lbr_inter_unbr c_lbr_union_unbr
  c_lbr_inter_empty c_lbr_union_empty c_ubr_inter_unbr c_ubr_union_unbr c_ubr_inter_empty c_ubr_union_empty
  c_bs_inter_unbr c_bs_union_unbr c_bs_inter_empty c_bs_union_empty c_lbs_inter_unbr c_lbs_union_unbr
  c_lbs_inter_empty c_lbs_union_empty c_ubs_inter_unbr c_ubs_union_unbr c_ubs_inter_empty c_ubs_union_empty
  c_us_inter_unbr c_us_union_unbr c_us_inter_empty c_us_union_empty : calls.

(** ** std's ranges *)

Section Std.
Context {T : Type} {PF : Platform} {OT : Ord T} {ST : Step T} (dflt : option T) (m : mode).
Notation calls := (calls dflt m).
Implicit Types (w : value T).
Lemma c_range_inter_br (b : Range T) f v w o : v = enc_value w -> to_inner w = IBR o ->
  calls (RFn (inter "Range" "BoundedRange") [(f, enc_range b); (false, v)]) (Ret (AVal (enc_br (br_inter_br (br_from_range b) o)) [None; None])).
Proof. operand H; unfold calls; run. Qed.
Lemma c_range_inter_lbr (b : Range T) f v w o : v = enc_value w -> to_inner w = ILBR o ->
  calls (RFn (inter "Range" "LowerBoundedRange") [(f, enc_range b); (false, v)]) (Ret (AVal (enc_br (br_inter_lbr (br_from_range b) o)) [None; None])).
Proof. operand H; unfold calls; run. Qed.
Lemma c_range_inter_ubr (b : Range T) f v w o : v = enc_value w -> to_inner w = IUBR o ->
  calls (RFn (inter "Range" "UpperBoundedRange") [(f, enc_range b); (false, v)]) (Ret (AVal (enc_br (br_inter_ubr (br_from_range b) o)) [None; None])).
Proof. operand H; unfold calls; run. Qed.
Lemma c_range_inter_unbr (b : Range T) f v w o : v = enc_value w -> to_inner w = IUnbR o ->
  calls (RFn (inter "Range" "UnboundedRange") [(f, enc_range b); (false, v)]) (Ret (AVal (enc_br ((br_from_range b))) [None; None])).
Proof. operand H; unfold calls; run. Qed.
Lemma c_range_inter_empty (b : Range T) f v w o : v = enc_value w -> to_inner w = IEmpty o ->
  calls (RFn (inter "Range" "EmptyRange") [(f, enc_range b); (false, v)]) (Ret (AVal (enc_empty (o)) [None; None])).
Proof. operand H; unfold calls; run. Qed.
Lemma c_range_inter_bs (b : Range T) f v w o : v = enc_value w -> to_inner w = IBS o ->
  calls (RFn (inter "Range" "BoundedSet") [(f, enc_range b); (false, v)]) (Ret (AVal (enc_bs (bs_inter_br o (br_from_range b))) [None; None])).
Proof. operand H; unfold calls; run. Qed.
Lemma c_range_inter_lbs (b : Range T) f v w o : v = enc_value w -> to_inner w = ILBS o ->
  calls (RFn (inter "Range" "LowerBoundedSet") [(f, enc_range b); (false, v)]) (s <- lbs_inter_br o (br_from_range b) ;; Ret (AVal (enc_bs s) [None; None])).
Proof. operand H; unfold calls; run. Qed.
Lemma c_range_inter_ubs (b : Range T) f v w o : v = enc_value w -> to_inner w = IUBS o ->
  calls (RFn (inter "Range" "UpperBoundedSet") [(f, enc_range b); (false, v)]) (s <- ubs_inter_br o (br_from_range b) ;; Ret (AVal (enc_bs s) [None; None])).
Proof. operand H; unfold calls; run. Qed.
Lemma c_range_inter_us (b : Range T) f v w o : v = enc_value w -> to_inner w = IUS o ->
  calls (RFn (inter "Range" "UnboundedSet") [(f, enc_range b); (false, v)]) (s <- us_inter_br o (br_from_range b) ;; Ret (AVal (enc_bs s) [None; None])).
Proof. operand H; unfold calls; run. Qed.
Lemma c_range_union_bs (b : Range T) f v w o : v = enc_value w -> to_set w = SBS o ->
  calls (RFn (uni "Range" "BoundedSet") [(f, enc_range b); (false, v)]) (s <- bs_union_bs (bs_from_br (br_from_range b)) o ;; Ret (AVal (enc_bs s) [None; None])).
Proof. operand H; unfold calls; run. Qed.
Lemma c_range_union_lbs (b : Range T) f v w o : v = enc_value w -> to_set w = SLBS o ->
  calls (RFn (uni "Range" "LowerBoundedSet") [(f, enc_range b); (false, v)]) (s <- bs_union_lbs (bs_from_br (br_from_range b)) o ;; Ret (AVal (enc_lbs s) [None; None])).
Proof. operand H; unfold calls; run. Qed.
Lemma c_range_union_ubs (b : Range T) f v w o : v = enc_value w -> to_set w = SUBS o ->
  calls (RFn (uni "Range" "UpperBoundedSet") [(f, enc_range b); (false, v)]) (s <- bs_union_ubs (bs_from_br (br_from_range b)) o ;; Ret (AVal (enc_ubs s) [None; None])).
Proof. operand H; unfold calls; run. Qed.
Lemma c_range_union_us (b : Range T) f v w o : v = enc_value w -> to_set w = SUS o ->
  calls (RFn (uni "Range" "UnboundedSet") [(f, enc_range b); (false, v)]) (s <- bs_union_us (bs_from_br (br_from_range b)) o ;; Ret (AVal (enc_us s) [None; None])).
Proof. operand H; unfold calls; run. Qed.
Lemma c_range_union_unbr (b : Range T) f v w o : v = enc_value w -> to_set w = SUnbR o ->
  calls (RFn (uni "Range" "UnboundedRange") [(f, enc_range b); (false, v)]) (Ret (AVal (enc_unbr (o)) [None; None])).
Proof. operand H; unfold calls; run. Qed.
Lemma c_range_union_empty (b : Range T) f v w o : v = enc_value w -> to_set w = SEmpty o ->
  calls (RFn (uni "Range" "EmptyRange") [(f, enc_range b); (false, v)]) (Ret (AVal (enc_range (b)) [None; None])).
Proof. operand H; unfold calls; run. Qed.
Lemma c_ri_inter_br (b : RangeInclusive T) f v w o : v = enc_value w -> to_inner w = IBR o ->
  calls (RFn (inter "RangeInclusive" "BoundedRange") [(f, enc_ri b); (false, v)]) (Ret (AVal (enc_br (br_inter_br (br_from_range_inclusive b) o)) [None; None])).
Proof. operand H; unfold calls; run. Qed.
Lemma c_ri_inter_lbr (b : RangeInclusive T) f v w o : v = enc_value w -> to_inner w = ILBR o ->
  calls (RFn (inter "RangeInclusive" "LowerBoundedRange") [(f, enc_ri b); (false, v)]) (Ret (AVal (enc_br (br_inter_lbr (br_from_range_inclusive b) o)) [None; None])).
Proof. operand H; unfold calls; run. Qed.
Lemma c_ri_inter_ubr (b : RangeInclusive T) f v w o : v = enc_value w -> to_inner w = IUBR o ->
  calls (RFn (inter "RangeInclusive" "UpperBoundedRange") [(f, enc_ri b); (false, v)]) (Ret (AVal (enc_br (br_inter_ubr (br_from_range_inclusive b) o)) [None; None])).
Proof. operand H; unfold calls; run. Qed.
Lemma c_ri_inter_unbr (b : RangeInclusive T) f v w o : v = enc_value w -> to_inner w = IUnbR o ->
  calls (RFn (inter "RangeInclusive" "UnboundedRange") [(f, enc_ri b); (false, v)]) (Ret (AVal (enc_br ((br_from_range_inclusive b))) [None; None])).
Proof. operand H; unfold calls; run. Qed.
Lemma c_ri_inter_empty (b : RangeInclusive T) f v w o : v = enc_value w -> to_inner w = IEmpty o ->
  calls (RFn (inter "RangeInclusive" "EmptyRange") [(f, enc_ri b); (false, v)]) (Ret (AVal (enc_empty (o)) [None; None])).
Proof. operand H; unfold calls; run. Qed.
Lemma c_ri_inter_bs (b : RangeInclusive T) f v w o : v = enc_value w -> to_inner w = IBS o ->
  calls (RFn (inter "RangeInclusive" "BoundedSet") [(f, enc_ri b); (false, v)]) (Ret (AVal (enc_bs (bs_inter_br o (br_from_range_inclusive b))) [None; None])).
Proof. operand H; unfold calls; run. Qed.
Lemma c_ri_inter_lbs (b : RangeInclusive T) f v w o : v = enc_value w -> to_inner w = ILBS o ->
  calls (RFn (inter "RangeInclusive" "LowerBoundedSet") [(f, enc_ri b); (false, v)]) (s <- lbs_inter_br o (br_from_range_inclusive b) ;; Ret (AVal (enc_bs s) [None; None])).
Proof. operand H; unfold calls; run. Qed.
Lemma c_ri_inter_ubs (b : RangeInclusive T) f v w o : v = enc_value w -> to_inner w = IUBS o ->
  calls (RFn (inter "RangeInclusive" "UpperBoundedSet") [(f, enc_ri b); (false, v)]) (s <- ubs_inter_br o (br_from_range_inclusive b) ;; Ret (AVal (enc_bs s) [None; None])).
Proof. operand H; unfold calls; run. Qed.
Lemma c_ri_inter_us (b : RangeInclusive T) f v w o : v = enc_value w -> to_inner w = IUS o ->
  calls (RFn (inter "RangeInclusive" "UnboundedSet") [(f, enc_ri b); (false, v)]) (s <- us_inter_br o (br_from_range_inclusive b) ;; Ret (AVal (enc_bs s) [None; None])).
Proof. operand H; unfold calls; run. Qed.
Lemma c_ri_union_bs (b : RangeInclusive T) f v w o : v = enc_value w -> to_set w = SBS o ->
  calls (RFn (uni "RangeInclusive" "BoundedSet") [(f, enc_ri b); (false, v)]) (s <- bs_union_bs (bs_from_br (br_from_range_inclusive b)) o ;; Ret (AVal (enc_bs s) [None; None])).
Proof. operand H; unfold calls; run. Qed.
Lemma c_ri_union_lbs (b : RangeInclusive T) f v w o : v = enc_value w -> to_set w = SLBS o ->
  calls (RFn (uni "RangeInclusive" "LowerBoundedSet") [(f, enc_ri b); (false, v)]) (s <- bs_union_lbs (bs_from_br (br_from_range_inclusive b)) o ;; Ret (AVal (enc_lbs s) [None; None])).
Proof. operand H; unfold calls; run. Qed.
Lemma c_ri_union_ubs (b : RangeInclusive T) f v w o : v = enc_value w -> to_set w = SUBS o ->
  calls (RFn (uni "RangeInclusive" "UpperBoundedSet") [(f, enc_ri b); (false, v)]) (s <- bs_union_ubs (bs_from_br (br_from_range_inclusive b)) o ;; Ret (AVal (enc_ubs s) [None; None])).
Proof. operand H; unfold calls; run. Qed.
Lemma c_ri_union_us (b : RangeInclusive T) f v w o : v = enc_value w -> to_set w = SUS o ->
  calls (RFn (uni "RangeInclusive" "UnboundedSet") [(f, enc_ri b); (false, v)]) (s <- bs_union_us (bs_from_br (br_from_range_inclusive b)) o ;; Ret (AVal (enc_us s) [None; None])).
Proof. operand H; unfold calls; run. Qed.
Lemma c_ri_union_unbr (b : RangeInclusive T) f v w o : v = enc_value w -> to_set w = SUnbR o ->
  calls (RFn (uni "RangeInclusive" "UnboundedRange") [(f, enc_ri b); (false, v)]) (Ret (AVal (enc_unbr (o)) [None; None])).
Proof. operand H; unfold calls; run. Qed.
Lemma c_ri_union_empty (b : RangeInclusive T) f v w o : v = enc_value w -> to_set w = SEmpty o ->
  calls (RFn (uni "RangeInclusive" "EmptyRange") [(f, enc_ri b); (false, v)]) (Ret (AVal (enc_ri (b)) [None; None])).
Proof. operand H; unfold calls; run. Qed.
Lemma c_rf_inter_br (b : RangeFrom T) f v w o : v = enc_value w -> to_inner w = IBR o ->
  calls (RFn (inter "RangeFrom" "BoundedRange") [(f, enc_rf b); (false, v)]) (Ret (AVal (enc_br (lbr_inter_br (lbr_from_range_from b) o)) [None; None])).
Proof. operand H; unfold calls; run. Qed.
Lemma c_rf_inter_lbr (b : RangeFrom T) f v w o : v = enc_value w -> to_inner w = ILBR o ->
  calls (RFn (inter "RangeFrom" "LowerBoundedRange") [(f, enc_rf b); (false, v)]) (Ret (AVal (enc_lbr (lbr_inter_lbr (lbr_from_range_from b) o)) [None; None])).
Proof. operand H; unfold calls; run. Qed.
Lemma c_rf_inter_ubr (b : RangeFrom T) f v w o : v = enc_value w -> to_inner w = IUBR o ->
  calls (RFn (inter "RangeFrom" "UpperBoundedRange") [(f, enc_rf b); (false, v)]) (Ret (AVal (enc_br (lbr_inter_ubr (lbr_from_range_from b) o)) [None; None])).
Proof. operand H; unfold calls; run. Qed.
Lemma c_rf_inter_unbr (b : RangeFrom T) f v w o : v = enc_value w -> to_inner w = IUnbR o ->
  calls (RFn (inter "RangeFrom" "UnboundedRange") [(f, enc_rf b); (false, v)]) (Ret (AVal (enc_lbr ((lbr_from_range_from b))) [None; None])).
Proof. operand H; unfold calls; run. Qed.
Lemma c_rf_inter_empty (b : RangeFrom T) f v w o : v = enc_value w -> to_inner w = IEmpty o ->
  calls (RFn (inter "RangeFrom" "EmptyRange") [(f, enc_rf b); (false, v)]) (Ret (AVal (enc_empty (o)) [None; None])).
Proof. operand H; unfold calls; run. Qed.
Lemma c_rf_inter_bs (b : RangeFrom T) f v w o : v = enc_value w -> to_inner w = IBS o ->
  calls (RFn (inter "RangeFrom" "BoundedSet") [(f, enc_rf b); (false, v)]) (Ret (AVal (enc_bs (lbr_inter_bs (lbr_from_range_from b) o)) [None; None])).
Proof. operand H; unfold calls; run. Qed.
Lemma c_rf_inter_lbs (b : RangeFrom T) f v w o : v = enc_value w -> to_inner w = ILBS o ->
  calls (RFn (inter "RangeFrom" "LowerBoundedSet") [(f, enc_rf b); (false, v)]) (Ret (AVal (enc_lbs (lbr_inter_lbs (lbr_from_range_from b) o)) [None; None])).
Proof. operand H; unfold calls; run. Qed.
Lemma c_rf_inter_ubs (b : RangeFrom T) f v w o : v = enc_value w -> to_inner w = IUBS o ->
  calls (RFn (inter "RangeFrom" "UpperBoundedSet") [(f, enc_rf b); (false, v)]) (s <- lbr_inter_ubs (lbr_from_range_from b) o ;; Ret (AVal (enc_bs s) [None; None])).
Proof. operand H; unfold calls; run. Qed.
Lemma c_rf_inter_us (b : RangeFrom T) f v w o : v = enc_value w -> to_inner w = IUS o ->
  calls (RFn (inter "RangeFrom" "UnboundedSet") [(f, enc_rf b); (false, v)]) (s <- lbr_inter_us (lbr_from_range_from b) o ;; Ret (AVal (enc_lbs s) [None; None])).
Proof. operand H; unfold calls; run. Qed.
Lemma c_rf_union_bs (b : RangeFrom T) f v w o : v = enc_value w -> to_set w = SBS o ->
  calls (RFn (uni "RangeFrom" "BoundedSet") [(f, enc_rf b); (false, v)]) (s <- lbs_union_bs (lbs_from_lbr (lbr_from_range_from b)) o ;; Ret (AVal (enc_lbs s) [None; None])).
Proof. operand H; unfold calls; run. Qed.
Lemma c_rf_union_lbs (b : RangeFrom T) f v w o : v = enc_value w -> to_set w = SLBS o ->
  calls (RFn (uni "RangeFrom" "LowerBoundedSet") [(f, enc_rf b); (false, v)]) (s <- lbs_union_lbs (lbs_from_lbr (lbr_from_range_from b)) o ;; Ret (AVal (enc_lbs s) [None; None])).
Proof. operand H; unfold calls; run. Qed.
Lemma c_rf_union_ubs (b : RangeFrom T) f v w o : v = enc_value w -> to_set w = SUBS o ->
  calls (RFn (uni "RangeFrom" "UpperBoundedSet") [(f, enc_rf b); (false, v)]) (s <- lbs_union_ubs (lbs_from_lbr (lbr_from_range_from b)) o ;; Ret (AVal (enc_us s) [None; None])).
Proof. operand H; unfold calls; run. Qed.
Lemma c_rf_union_us (b : RangeFrom T) f v w o : v = enc_value w -> to_set w = SUS o ->
  calls (RFn (uni "RangeFrom" "UnboundedSet") [(f, enc_rf b); (false, v)]) (s <- lbs_union_us (lbs_from_lbr (lbr_from_range_from b)) o ;; Ret (AVal (enc_us s) [None; None])).
Proof. operand H; unfold calls; run. Qed.
Lemma c_rf_union_unbr (b : RangeFrom T) f v w o : v = enc_value w -> to_set w = SUnbR o ->
  calls (RFn (uni "RangeFrom" "UnboundedRange") [(f, enc_rf b); (false, v)]) (Ret (AVal (enc_unbr (o)) [None; None])).
Proof. operand H; unfold calls; run. Qed.
Lemma c_rf_union_empty (b : RangeFrom T) f v w o : v = enc_value w -> to_set w = SEmpty o ->
  calls (RFn (uni "RangeFrom" "EmptyRange") [(f, enc_rf b); (false, v)]) (Ret (AVal (enc_rf (b)) [None; None])).
Proof. operand H; unfold calls; run. Qed.
Lemma c_rt_inter_br (b : RangeTo T) f v w o : v = enc_value w -> to_inner w = IBR o ->
  calls (RFn (inter "RangeTo" "BoundedRange") [(f, enc_rt b); (false, v)]) (Ret (AVal (enc_br (ubr_inter_br (ubr_from_range_to b) o)) [None; None])).
Proof. operand H; unfold calls; run. Qed.
Lemma c_rt_inter_lbr (b : RangeTo T) f v w o : v = enc_value w -> to_inner w = ILBR o ->
  calls (RFn (inter "RangeTo" "LowerBoundedRange") [(f, enc_rt b); (false, v)]) (Ret (AVal (enc_br (ubr_inter_lbr (ubr_from_range_to b) o)) [None; None])).
Proof. operand H; unfold calls; run. Qed.
Lemma c_rt_inter_ubr (b : RangeTo T) f v w o : v = enc_value w -> to_inner w = IUBR o ->
  calls (RFn (inter "RangeTo" "UpperBoundedRange") [(f, enc_rt b); (false, v)]) (Ret (AVal (enc_ubr (ubr_inter_ubr (ubr_from_range_to b) o)) [None; None])).
Proof. operand H; unfold calls; run. Qed.
Lemma c_rt_inter_unbr (b : RangeTo T) f v w o : v = enc_value w -> to_inner w = IUnbR o ->
  calls (RFn (inter "RangeTo" "UnboundedRange") [(f, enc_rt b); (false, v)]) (Ret (AVal (enc_ubr ((ubr_from_range_to b))) [None; None])).
Proof. operand H; unfold calls; run. Qed.
Lemma c_rt_inter_empty (b : RangeTo T) f v w o : v = enc_value w -> to_inner w = IEmpty o ->
  calls (RFn (inter "RangeTo" "EmptyRange") [(f, enc_rt b); (false, v)]) (Ret (AVal (enc_empty (o)) [None; None])).
Proof. operand H; unfold calls; run. Qed.
Lemma c_rt_inter_bs (b : RangeTo T) f v w o : v = enc_value w -> to_inner w = IBS o ->
  calls (RFn (inter "RangeTo" "BoundedSet") [(f, enc_rt b); (false, v)]) (Ret (AVal (enc_bs (bs_inter_ubr o (ubr_from_range_to b))) [None; None])).
Proof. operand H; unfold calls; run. Qed.
Lemma c_rt_inter_lbs (b : RangeTo T) f v w o : v = enc_value w -> to_inner w = ILBS o ->
  calls (RFn (inter "RangeTo" "LowerBoundedSet") [(f, enc_rt b); (false, v)]) (s <- lbs_inter_ubr o (ubr_from_range_to b) ;; Ret (AVal (enc_bs s) [None; None])).
Proof. operand H; unfold calls; run. Qed.
Lemma c_rt_inter_ubs (b : RangeTo T) f v w o : v = enc_value w -> to_inner w = IUBS o ->
  calls (RFn (inter "RangeTo" "UpperBoundedSet") [(f, enc_rt b); (false, v)]) (s <- ubs_inter_ubr o (ubr_from_range_to b) ;; Ret (AVal (enc_ubs s) [None; None])).
Proof. operand H; unfold calls; run. Qed.
Lemma c_rt_inter_us (b : RangeTo T) f v w o : v = enc_value w -> to_inner w = IUS o ->
  calls (RFn (inter "RangeTo" "UnboundedSet") [(f, enc_rt b); (false, v)]) (s <- us_inter_ubr o (ubr_from_range_to b) ;; Ret (AVal (enc_ubs s) [None; None])).
Proof. operand H; unfold calls; run. Qed.
Lemma c_rt_union_bs (b : RangeTo T) f v w o : v = enc_value w -> to_set w = SBS o ->
  calls (RFn (uni "RangeTo" "BoundedSet") [(f, enc_rt b); (false, v)]) (s <- ubs_union_bs (ubs_from_ubr (ubr_from_range_to b)) o ;; Ret (AVal (enc_ubs s) [None; None])).
Proof. operand H; unfold calls; run. Qed.
Lemma c_rt_union_lbs (b : RangeTo T) f v w o : v = enc_value w -> to_set w = SLBS o ->
  calls (RFn (uni "RangeTo" "LowerBoundedSet") [(f, enc_rt b); (false, v)]) (s <- ubs_union_lbs (ubs_from_ubr (ubr_from_range_to b)) o ;; Ret (AVal (enc_us s) [None; None])).
Proof. operand H; unfold calls; run. Qed.
Lemma c_rt_union_ubs (b : RangeTo T) f v w o : v = enc_value w -> to_set w = SUBS o ->
  calls (RFn (uni "RangeTo" "UpperBoundedSet") [(f, enc_rt b); (false, v)]) (s <- ubs_union_ubs (ubs_from_ubr (ubr_from_range_to b)) o ;; Ret (AVal (enc_ubs s) [None; None])).
Proof. operand H; unfold calls; run. Qed.
Lemma c_rt_union_us (b : RangeTo T) f v w o : v = enc_value w -> to_set w = SUS o ->
  calls (RFn (uni "RangeTo" "UnboundedSet") [(f, enc_rt b); (false, v)]) (s <- ubs_union_us (ubs_from_ubr (ubr_from_range_to b)) o ;; Ret (AVal (enc_us s) [None; None])).
Proof. operand H; unfold calls; run. Qed.
Lemma c_rt_union_unbr (b : RangeTo T) f v w o : v = enc_value w -> to_set w = SUnbR o ->
  calls (RFn (uni "RangeTo" "UnboundedRange") [(f, enc_rt b); (false, v)]) (Ret (AVal (enc_unbr (o)) [None; None])).
Proof. operand H; unfold calls; run. Qed.
Lemma c_rt_union_empty (b : RangeTo T) f v w o : v = enc_value w -> to_set w = SEmpty o ->
  calls (RFn (uni "RangeTo" "EmptyRange") [(f, enc_rt b); (false, v)]) (Ret (AVal (enc_rt (b)) [None; None])).
Proof. operand H; unfold calls; run. Qed.
Lemma c_rti_inter_br (b : RangeToInclusive T) f v w o : v = enc_value w -> to_inner w = IBR o ->
  calls (RFn (inter "RangeToInclusive" "BoundedRange") [(f, enc_rti b); (false, v)]) (Ret (AVal (enc_br (ubr_inter_br (ubr_from_range_to_inclusive b) o)) [None; None])).
Proof. operand H; unfold calls; run. Qed.
Lemma c_rti_inter_lbr (b : RangeToInclusive T) f v w o : v = enc_value w -> to_inner w = ILBR o ->
  calls (RFn (inter "RangeToInclusive" "LowerBoundedRange") [(f, enc_rti b); (false, v)]) (Ret (AVal (enc_br (ubr_inter_lbr (ubr_from_range_to_inclusive b) o)) [None; None])).
Proof. operand H; unfold calls; run. Qed.
Lemma c_rti_inter_ubr (b : RangeToInclusive T) f v w o : v = enc_value w -> to_inner w = IUBR o ->
  calls (RFn (inter "RangeToInclusive" "UpperBoundedRange") [(f, enc_rti b); (false, v)]) (Ret (AVal (enc_ubr (ubr_inter_ubr (ubr_from_range_to_inclusive b) o)) [None; None])).
Proof. operand H; unfold calls; run. Qed.
Lemma c_rti_inter_unbr (b : RangeToInclusive T) f v w o : v = enc_value w -> to_inner w = IUnbR o ->
  calls (RFn (inter "RangeToInclusive" "UnboundedRange") [(f, enc_rti b); (false, v)]) (Ret (AVal (enc_ubr ((ubr_from_range_to_inclusive b))) [None; None])).
Proof. operand H; unfold calls; run. Qed.
Lemma c_rti_inter_empty (b : RangeToInclusive T) f v w o : v = enc_value w -> to_inner w = IEmpty o ->
  calls (RFn (inter "RangeToInclusive" "EmptyRange") [(f, enc_rti b); (false, v)]) (Ret (AVal (enc_empty (o)) [None; None])).
Proof. operand H; unfold calls; run. Qed.
Lemma c_rti_inter_bs (b : RangeToInclusive T) f v w o : v = enc_value w -> to_inner w = IBS o ->
  calls (RFn (inter "RangeToInclusive" "BoundedSet") [(f, enc_rti b); (false, v)]) (Ret (AVal (enc_bs (bs_inter_ubr o (ubr_from_range_to_inclusive b))) [None; None])).
Proof. operand H; unfold calls; run. Qed.
Lemma c_rti_inter_lbs (b : RangeToInclusive T) f v w o : v = enc_value w -> to_inner w = ILBS o ->
  calls (RFn (inter "RangeToInclusive" "LowerBoundedSet") [(f, enc_rti b); (false, v)]) (s <- lbs_inter_ubr o (ubr_from_range_to_inclusive b) ;; Ret (AVal (enc_bs s) [None; None])).
Proof. operand H; unfold calls; run. Qed.
Lemma c_rti_inter_ubs (b : RangeToInclusive T) f v w o : v = enc_value w -> to_inner w = IUBS o ->
  calls (RFn (inter "RangeToInclusive" "UpperBoundedSet") [(f, enc_rti b); (false, v)]) (s <- ubs_inter_ubr o (ubr_from_range_to_inclusive b) ;; Ret (AVal (enc_ubs s) [None; None])).
Proof. operand H; unfold calls; run. Qed.
Lemma c_rti_inter_us (b : RangeToInclusive T) f v w o : v = enc_value w -> to_inner w = IUS o ->
  calls (RFn (inter "RangeToInclusive" "UnboundedSet") [(f, enc_rti b); (false, v)]) (s <- us_inter_ubr o (ubr_from_range_to_inclusive b) ;; Ret (AVal (enc_ubs s) [None; None])).
Proof. operand H; unfold calls; run. Qed.
Lemma c_rti_union_bs (b : RangeToInclusive T) f v w o : v = enc_value w -> to_set w = SBS o ->
  calls (RFn (uni "RangeToInclusive" "BoundedSet") [(f, enc_rti b); (false, v)]) (s <- ubs_union_bs (ubs_from_ubr (ubr_from_range_to_inclusive b)) o ;; Ret (AVal (enc_ubs s) [None; None])).
Proof. operand H; unfold calls; run. Qed.
Lemma c_rti_union_lbs (b : RangeToInclusive T) f v w o : v = enc_value w -> to_set w = SLBS o ->
  calls (RFn (uni "RangeToInclusive" "LowerBoundedSet") [(f, enc_rti b); (false, v)]) (s <- ubs_union_lbs (ubs_from_ubr (ubr_from_range_to_inclusive b)) o ;; Ret (AVal (enc_us s) [None; None])).
Proof. operand H; unfold calls; run. Qed.
Lemma c_rti_union_ubs (b : RangeToInclusive T) f v w o : v = enc_value w -> to_set w = SUBS o ->
  calls (RFn (uni "RangeToInclusive" "UpperBoundedSet") [(f, enc_rti b); (false, v)]) (s <- ubs_union_ubs (ubs_from_ubr (ubr_from_range_to_inclusive b)) o ;; Ret (AVal (enc_ubs s) [None; None])).
Proof. operand H; unfold calls; run. Qed.
Lemma c_rti_union_us (b : RangeToInclusive T) f v w o : v = enc_value w -> to_set w = SUS o ->
  calls (RFn (uni "RangeToInclusive" "UnboundedSet") [(f, enc_rti b); (false, v)]) (s <- ubs_union_us (ubs_from_ubr (ubr_from_range_to_inclusive b)) o ;; Ret (AVal (enc_us s) [None; None])).
Proof. operand H; unfold calls; run. Qed.
Lemma c_rti_union_unbr (b : RangeToInclusive T) f v w o : v = enc_value w -> to_set w = SUnbR o ->
  calls (RFn (uni "RangeToInclusive" "UnboundedRange") [(f, enc_rti b); (false, v)]) (Ret (AVal (enc_unbr (o)) [None; None])).
Proof. operand H; unfold calls; run. Qed.
Lemma c_rti_union_empty (b : RangeToInclusive T) f v w o : v = enc_value w -> to_set w = SEmpty o ->
  calls (RFn (uni "RangeToInclusive" "EmptyRange") [(f, enc_rti b); (false, v)]) (Ret (AVal (enc_rti (b)) [None; None])).
Proof. operand H; unfold calls; run. Qed.
Lemma c_rfull_inter_br (b : RangeFull) f v w o : v = enc_value w -> to_inner w = IBR o ->
  calls (RFn (inter "RangeFull" "BoundedRange") [(f, enc_rfull b); (false, v)]) (Ret (AVal (enc_br (o)) [None; None])).
Proof. operand H; unfold calls; run. Qed.
Lemma c_rfull_inter_lbr (b : RangeFull) f v w o : v = enc_value w -> to_inner w = ILBR o ->
  calls (RFn (inter "RangeFull" "LowerBoundedRange") [(f, enc_rfull b); (false, v)]) (Ret (AVal (enc_lbr (o)) [None; None])).
Proof. operand H; unfold calls; run. Qed.
Lemma c_rfull_inter_ubr (b : RangeFull) f v w o : v = enc_value w -> to_inner w = IUBR o ->
  calls (RFn (inter "RangeFull" "UpperBoundedRange") [(f, enc_rfull b); (false, v)]) (Ret (AVal (enc_ubr (o)) [None; None])).
Proof. operand H; unfold calls; run. Qed.
Lemma c_rfull_inter_unbr (b : RangeFull) f v w o : v = enc_value w -> to_inner w = IUnbR o ->
  calls (RFn (inter "RangeFull" "UnboundedRange") [(f, enc_rfull b); (false, v)]) (Ret (AVal (enc_unbr (o)) [None; None])).
Proof. operand H; unfold calls; run. Qed.
Lemma c_rfull_inter_empty (b : RangeFull) f v w o : v = enc_value w -> to_inner w = IEmpty o ->
  calls (RFn (inter "RangeFull" "EmptyRange") [(f, enc_rfull b); (false, v)]) (Ret (AVal (enc_empty (o)) [None; None])).
Proof. operand H; unfold calls; run. Qed.
Lemma c_rfull_inter_bs (b : RangeFull) f v w o : v = enc_value w -> to_inner w = IBS o ->
  calls (RFn (inter "RangeFull" "BoundedSet") [(f, enc_rfull b); (false, v)]) (Ret (AVal (enc_bs (o)) [None; None])).
Proof. operand H; unfold calls; run. Qed.
Lemma c_rfull_inter_lbs (b : RangeFull) f v w o : v = enc_value w -> to_inner w = ILBS o ->
  calls (RFn (inter "RangeFull" "LowerBoundedSet") [(f, enc_rfull b); (false, v)]) (Ret (AVal (enc_lbs (o)) [None; None])).
Proof. operand H; unfold calls; run. Qed.
Lemma c_rfull_inter_ubs (b : RangeFull) f v w o : v = enc_value w -> to_inner w = IUBS o ->
  calls (RFn (inter "RangeFull" "UpperBoundedSet") [(f, enc_rfull b); (false, v)]) (Ret (AVal (enc_ubs (o)) [None; None])).
Proof. operand H; unfold calls; run. Qed.
Lemma c_rfull_inter_us (b : RangeFull) f v w o : v = enc_value w -> to_inner w = IUS o ->
  calls (RFn (inter "RangeFull" "UnboundedSet") [(f, enc_rfull b); (false, v)]) (Ret (AVal (enc_us (o)) [None; None])).
Proof. operand H; unfold calls; run. Qed.
Lemma c_rfull_union_bs (b : RangeFull) f v w o : v = enc_value w -> to_set w = SBS o ->
  calls (RFn (uni "RangeFull" "BoundedSet") [(f, enc_rfull b); (false, v)]) (Ret (AVal (enc_unbr (unbr_from_range_full b)) [None; None])).
Proof. operand H; unfold calls; run. Qed.
Lemma c_rfull_union_lbs (b : RangeFull) f v w o : v = enc_value w -> to_set w = SLBS o ->
  calls (RFn (uni "RangeFull" "LowerBoundedSet") [(f, enc_rfull b); (false, v)]) (Ret (AVal (enc_unbr (unbr_from_range_full b)) [None; None])).
Proof. operand H; unfold calls; run. Qed.
Lemma c_rfull_union_ubs (b : RangeFull) f v w o : v = enc_value w -> to_set w = SUBS o ->
  calls (RFn (uni "RangeFull" "UpperBoundedSet") [(f, enc_rfull b); (false, v)]) (Ret (AVal (enc_unbr (unbr_from_range_full b)) [None; None])).
Proof. operand H; unfold calls; run. Qed.
Lemma c_rfull_union_us (b : RangeFull) f v w o : v = enc_value w -> to_set w = SUS o ->
  calls (RFn (uni "RangeFull" "UnboundedSet") [(f, enc_rfull b); (false, v)]) (Ret (AVal (enc_unbr (unbr_from_range_full b)) [None; None])).
Proof. operand H; unfold calls; run. Qed.
Lemma c_rfull_union_unbr (b : RangeFull) f v w o : v = enc_value w -> to_set w = SUnbR o ->
  calls (RFn (uni "RangeFull" "UnboundedRange") [(f, enc_rfull b); (false, v)]) (Ret (AVal (enc_unbr (o)) [None; None])).
Proof. operand H; unfold calls; run. Qed.
Lemma c_rfull_union_empty (b : RangeFull) f v w o : v = enc_value w -> to_set w = SEmpty o ->
  calls (RFn (uni "RangeFull" "EmptyRange") [(f, enc_rfull b); (false, v)]) (Ret (AVal (enc_rfull (b)) [None; None])).
Proof. operand H; unfold calls; run. Qed.
Lemma c_range_complement (b : Range T) f :
  calls (RFn (compl "Range" "UnboundedSet") [(f, enc_range b)]) (s <- br_complement (br_from_range b) ;; Ret (AVal (enc_us s) [None])).
Proof. unfold calls; run. Qed.
Lemma c_ri_complement (b : RangeInclusive T) f :
  calls (RFn (compl "RangeInclusive" "UnboundedSet") [(f, enc_ri b)]) (s <- br_complement (br_from_range_inclusive b) ;; Ret (AVal (enc_us s) [None])).
Proof. unfold calls; run. Qed.
Lemma c_rf_complement (b : RangeFrom T) f :
  calls (RFn (compl "RangeFrom" "UpperBoundedRange") [(f, enc_rf b)]) (Ret (AVal (enc_ubr (lbr_complement (lbr_from_range_from b))) [None])).
Proof. unfold calls; run. Qed.
Lemma c_rt_complement (b : RangeTo T) f :
  calls (RFn (compl "RangeTo" "LowerBoundedRange") [(f, enc_rt b)]) (Ret (AVal (enc_lbr (ubr_complement (ubr_from_range_to b))) [None])).
Proof. unfold calls; run. Qed.
Lemma c_rti_complement (b : RangeToInclusive T) f :
  calls (RFn (compl "RangeToInclusive" "LowerBoundedRange") [(f, enc_rti b)]) (Ret (AVal (enc_lbr (ubr_complement (ubr_from_range_to_inclusive b))) [None])).
Proof. unfold calls; run. Qed.
Lemma c_rfull_complement (b : RangeFull) f :
  calls (RFn (compl "RangeFull" "EmptyRange") [(f, enc_rfull b)]) (Ret (AVal (enc_empty (mkEmptyRange)) [None])).
Proof. unfold calls; run. Qed.
End Std.
#[export] Hint Resolve c_range_inter_br c_range_inter_lbr c_range_inter_ubr c_range_inter_unbr c_range_inter_empty c_range_inter_bs
  c_range_inter_lbs c_range_inter_ubs c_range_inter_us c_range_union_bs c_range_union_lbs c_range_union_ubs
  c_range_union_us c_range_union_unbr c_range_union_empty c_ri_inter_br c_ri_inter_lbr c_ri_inter_ubr
  c_ri_inter_unbr c_ri_inter_empty c_ri_inter_bs c_ri_inter_lbs c_ri_inter_ubs c_ri_inter_us
  c_ri_union_bs c_ri_union_lbs c_ri_union_ubs c_ri_union_us c_ri_union_unbr c_ri_union_empty
  c_rf_inter_br c_rf_inter_lbr c_rf_inter_ubr c_rf_inter_unbr c_rf_inter_empty c_rf_inter_bs
  c_rf_inter_lbs c_rf_inter_ubs c_rf_inter_us c_rf_union_bs c_rf_union_lbs c_rf_union_ubs
  c_rf_union_us c_rf_union_unbr c_rf_union_empty c_rt_inter_br c_rt_inter_lbr c_rt_inter_ubr
  c_rt_inter_unbr c_rt_inter_empty c_rt_inter_bs c_rt_inter_lbs c_rt_inter_ubs c_rt_inter_us
  c_rt_union_bs c_rt_union_lbs c_rt_union_ubs c_rt_union_us c_rt_union_unbr c_rt_union_empty
  c_rti_inter_br c_rti_inter_lbr c_rti_inter_ubr c_rti_inter_unbr c_rti_inter_empty c_rti_inter_bs
  c_rti_inter_lbs c_rti_inter_ubs c_rti_inter_us c_rti_union_bs c_rti_union_lbs c_rti_union_ubs
  c_rti_union_us c_rti_union_unbr c_rti_union_empty c_rfull_inter_br c_rfull_inter_lbr c_rfull_inter_ubr
  c_rfull_inter_unbr c_rfull_inter_empty c_rfull_inter_bs c_rfull_inter_lbs c_rfull_inter_ubs c_rfull_inter_us
  c_rfull_union_bs c_rfull_union_lbs c_rfull_union_ubs c_rfull_union_us c_rfull_union_unbr c_rfull_union_empty
  c_range_complement c_ri_complement c_rf_complement c_rt_complement c_rti_complement c_rfull_complement : calls.
