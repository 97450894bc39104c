(** The source of src/implementations/rangetools/*.rs and
    src/implementations/intersection/*.rs for the crate's own types, run by RustEval.v, gives what
    the model functions give. *)
From Coq Require Import String.
From Verif Require Import Base ModelBound ModelRanges ModelSets ModelAlgebra ModelValue ModelStep ModelIter
  RustSyntax Source RustEval RustEnc RustTac RustRange RustSet RustUnb.
Open Scope Z_scope.
Open Scope string_scope.
Open Scope list_scope.

Section Rangetools.
Context {T : Type} {PF : Platform} {OT : Ord T} {ST : Step T} (dflt : option T) (m : mode).
Notation calls := (calls dflt m).
Implicit Types (w : value T).
Lemma c_range_is_empty (r : Range T) f : calls (RFn (rt "Range" "is_empty") [(f, enc_range r)])
  (Ret (AVal (DBool (t_ge (rg_start r) (rg_end r))) [None])).
Proof. unfold calls. run. Qed.
Lemma c_ri_is_empty (r : RangeInclusive T) f : calls (RFn (rt "RangeInclusive" "is_empty") [(f, enc_ri r)])
  (Ret (AVal (DBool (t_gt (ri_start r) (ri_end r))) [None])).
Proof. unfold calls. run. Qed.
Lemma c_rf_is_empty (r : RangeFrom T) f : calls (RFn (rt "RangeFrom" "is_empty") [(f, enc_rf r)])
  (Ret (AVal (DBool (false)) [None])).
Proof. unfold calls. run. Qed.
Lemma c_rt_is_empty (r : RangeTo T) f : calls (RFn (rt "RangeTo" "is_empty") [(f, enc_rt r)])
  (Ret (AVal (DBool (false)) [None])).
Proof. unfold calls. run. Qed.
Lemma c_rti_is_empty (r : RangeToInclusive T) f : calls (RFn (rt "RangeToInclusive" "is_empty") [(f, enc_rti r)])
  (Ret (AVal (DBool (false)) [None])).
Proof. unfold calls. run. Qed.
Lemma c_rfull_is_empty (r : RangeFull) f : calls (RFn (rt "RangeFull" "is_empty") [(f, enc_rfull r)])
  (Ret (AVal (DBool (false)) [None])).
Proof. unfold calls. run. Qed.
Lemma c_lbr_is_empty (r : LowerBoundedRange T) f : calls (RFn (rt "LowerBoundedRange" "is_empty") [(f, enc_lbr r)])
  (Ret (AVal (DBool (false)) [None])).
Proof. unfold calls. run. Qed.
Lemma c_ubr_is_empty (r : UpperBoundedRange T) f : calls (RFn (rt "UpperBoundedRange" "is_empty") [(f, enc_ubr r)])
  (Ret (AVal (DBool (false)) [None])).
Proof. unfold calls. run. Qed.
Lemma c_unbr_is_empty (r : UnboundedRange) f : calls (RFn (rt "UnboundedRange" "is_empty") [(f, enc_unbr r)])
  (Ret (AVal (DBool (false)) [None])).
Proof. unfold calls. run. Qed.
Lemma c_empty_is_empty (r : EmptyRange) f : calls (RFn (rt "EmptyRange" "is_empty") [(f, enc_empty r)])
  (Ret (AVal (DBool (true)) [None])).
Proof. unfold calls. run. Qed.
Lemma c_lbs_is_empty (r : LowerBoundedSet T) f : calls (RFn (rt "LowerBoundedSet" "is_empty") [(f, enc_lbs r)])
  (Ret (AVal (DBool (false)) [None])).
Proof. unfold calls. run. Qed.
Lemma c_ubs_is_empty (r : UpperBoundedSet T) f : calls (RFn (rt "UpperBoundedSet" "is_empty") [(f, enc_ubs r)])
  (Ret (AVal (DBool (false)) [None])).
Proof. unfold calls. run. Qed.
Lemma c_us_is_empty (r : UnboundedSet T) f : calls (RFn (rt "UnboundedSet" "is_empty") [(f, enc_us r)])
  (Ret (AVal (DBool (false)) [None])).
Proof. unfold calls. run. Qed.
#[local] Hint Resolve c_range_is_empty c_ri_is_empty c_rf_is_empty c_rt_is_empty c_rti_is_empty c_rfull_is_empty c_lbr_is_empty c_ubr_is_empty c_unbr_is_empty c_empty_is_empty c_lbs_is_empty c_ubs_is_empty c_us_is_empty : calls.
Lemma c_br_to_set (r : BoundedRange T) f : calls (RFn (rt "BoundedRange" "to_set") [(f, enc_br r)])
  (Ret (AVal (enc_bs (bs_from_br r)) [None])).
Proof. unfold calls. run. Qed.
#[local] Hint Resolve c_br_to_set : calls.
Lemma c_lbr_to_set (r : LowerBoundedRange T) f : calls (RFn (rt "LowerBoundedRange" "to_set") [(f, enc_lbr r)])
  (Ret (AVal (enc_lbs (lbs_from_lbr r)) [None])).
Proof. unfold calls. run. Qed.
#[local] Hint Resolve c_lbr_to_set : calls.
Lemma c_ubr_to_set (r : UpperBoundedRange T) f : calls (RFn (rt "UpperBoundedRange" "to_set") [(f, enc_ubr r)])
  (Ret (AVal (enc_ubs (ubs_from_ubr r)) [None])).
Proof. unfold calls. run. Qed.
#[local] Hint Resolve c_ubr_to_set : calls.
Lemma c_range_to_set (r : Range T) f : calls (RFn (rt "Range" "to_set") [(f, enc_range r)])
  (Ret (AVal (enc_bs (bs_from_br (br_from_range r))) [None])).
Proof. unfold calls. run. Qed.
#[local] Hint Resolve c_range_to_set : calls.
Lemma c_ri_to_set (r : RangeInclusive T) f : calls (RFn (rt "RangeInclusive" "to_set") [(f, enc_ri r)])
  (Ret (AVal (enc_bs (bs_from_br (br_from_range_inclusive r))) [None])).
Proof. unfold calls. run. Qed.
#[local] Hint Resolve c_ri_to_set : calls.
Lemma c_rf_to_set (r : RangeFrom T) f : calls (RFn (rt "RangeFrom" "to_set") [(f, enc_rf r)])
  (Ret (AVal (enc_lbs (lbs_from_lbr (lbr_from_range_from r))) [None])).
Proof. unfold calls. run. Qed.
#[local] Hint Resolve c_rf_to_set : calls.
Lemma c_rt_to_set (r : RangeTo T) f : calls (RFn (rt "RangeTo" "to_set") [(f, enc_rt r)])
  (Ret (AVal (enc_ubs (ubs_from_ubr (ubr_from_range_to r))) [None])).
Proof. unfold calls. run. Qed.
#[local] Hint Resolve c_rt_to_set : calls.
Lemma c_rti_to_set (r : RangeToInclusive T) f : calls (RFn (rt "RangeToInclusive" "to_set") [(f, enc_rti r)])
  (Ret (AVal (enc_ubs (ubs_from_ubr (ubr_from_range_to_inclusive r))) [None])).
Proof. unfold calls. run. Qed.
#[local] Hint Resolve c_rti_to_set : calls.
Lemma c_rfull_to_set (r : RangeFull) f : calls (RFn (rt "RangeFull" "to_set") [(f, enc_rfull r)])
  (Ret (AVal (enc_unbr (unbr_from_range_full r)) [None])).
Proof. unfold calls. run. Qed.
#[local] Hint Resolve c_rfull_to_set : calls.
Lemma c_unbr_to_set (r : UnboundedRange) f : calls (RFn (rt "UnboundedRange" "to_set") [(f, enc_unbr r)])
  (Ret (AVal (enc_unbr (r)) [None])).
Proof. unfold calls. run. Qed.
#[local] Hint Resolve c_unbr_to_set : calls.
Lemma c_empty_to_set (r : EmptyRange) f : calls (RFn (rt "EmptyRange" "to_set") [(f, enc_empty r)])
  (Ret (AVal (enc_empty (r)) [None])).
Proof. unfold calls. run. Qed.
#[local] Hint Resolve c_empty_to_set : calls.
Lemma c_bs_to_set (r : BoundedSet T) f : calls (RFn (rt "BoundedSet" "to_set") [(f, enc_bs r)])
  (Ret (AVal (enc_bs (r)) [None])).
Proof. unfold calls. run. Qed.
#[local] Hint Resolve c_bs_to_set : calls.
Lemma c_lbs_to_set (r : LowerBoundedSet T) f : calls (RFn (rt "LowerBoundedSet" "to_set") [(f, enc_lbs r)])
  (Ret (AVal (enc_lbs (r)) [None])).
Proof. unfold calls. run. Qed.
#[local] Hint Resolve c_lbs_to_set : calls.
Lemma c_ubs_to_set (r : UpperBoundedSet T) f : calls (RFn (rt "UpperBoundedSet" "to_set") [(f, enc_ubs r)])
  (Ret (AVal (enc_ubs (r)) [None])).
Proof. unfold calls. run. Qed.
#[local] Hint Resolve c_ubs_to_set : calls.
Lemma c_us_to_set (r : UnboundedSet T) f : calls (RFn (rt "UnboundedSet" "to_set") [(f, enc_us r)])
  (Ret (AVal (enc_us (r)) [None])).
Proof. unfold calls. run. Qed.
#[local] Hint Resolve c_us_to_set : calls.
End Rangetools.
#[export] Hint Resolve c_range_is_empty c_ri_is_empty c_rf_is_empty c_rt_is_empty c_rti_is_empty
  c_rfull_is_empty c_lbr_is_empty c_ubr_is_empty c_unbr_is_empty c_empty_is_empty
  c_lbs_is_empty c_ubs_is_empty c_us_is_empty c_br_to_set c_lbr_to_set
  c_ubr_to_set c_range_to_set c_ri_to_set c_rf_to_set c_rt_to_set
  c_rti_to_set c_rfull_to_set c_unbr_to_set c_empty_to_set c_bs_to_set
  c_lbs_to_set c_ubs_to_set c_us_to_set : calls.

Section Inter.
Context {T : Type} {PF : Platform} {OT : Ord T} {ST : Step T} (dflt : option T) (m : mode).
Notation calls := (calls dflt m).
Implicit Types (w : value T).
(** The common part of [BoundedSet] with a range. *)
Ltac narrowed s G :=
  unfold calls; run; by_each s G; by_turn (calls_retain dflt m) (@enc_br T) (fun r : BoundedRange T => negb (br_is_empty r)).
Lemma c_bs_inter_br (b : BoundedSet T) f v w o : v = enc_value w -> to_inner w = IBR o ->
  calls (RFn (inter "BoundedSet" "BoundedRange") [(f, enc_bs b); (false, v)])
    (Ret (AVal (enc_bs (bs_inter_br b o)) [None; None])).
Proof. operand H; match goal with |- context [bs_inter_br b ?o] => narrowed b (fun r => br_inter_br r o) end. Qed.
#[local] Hint Resolve c_bs_inter_br : calls.
Lemma c_bs_inter_lbr (b : BoundedSet T) f v w o : v = enc_value w -> to_inner w = ILBR o ->
  calls (RFn (inter "BoundedSet" "LowerBoundedRange") [(f, enc_bs b); (false, v)])
    (Ret (AVal (enc_bs (bs_inter_lbr b o)) [None; None])).
Proof. operand H; match goal with |- context [bs_inter_lbr b ?o] => narrowed b (fun r => br_inter_lbr r o) end. Qed.
#[local] Hint Resolve c_bs_inter_lbr : calls.
Lemma c_bs_inter_ubr (b : BoundedSet T) f v w o : v = enc_value w -> to_inner w = IUBR o ->
  calls (RFn (inter "BoundedSet" "UpperBoundedRange") [(f, enc_bs b); (false, v)])
    (Ret (AVal (enc_bs (bs_inter_ubr b o)) [None; None])).
Proof. operand H; match goal with |- context [bs_inter_ubr b ?o] => narrowed b (fun r => br_inter_ubr r o) end. Qed.
#[local] Hint Resolve c_bs_inter_ubr : calls.
Ltac retained := by_turn (calls_retain dflt m) (@enc_br T) (fun r : BoundedRange T => negb (br_is_empty r)).
Lemma c_br_inter_bs (b : BoundedRange T) f v w o : v = enc_value w -> to_inner w = IBS o ->
  calls (RFn (inter "BoundedRange" "BoundedSet") [(f, enc_br b); (false, v)])
    (Ret (AVal (enc_bs (br_inter_bs b o)) [None; None])).
Proof. operand H; unfold calls; run. Qed.
#[local] Hint Resolve c_br_inter_bs : calls.
Lemma c_lbr_inter_bs (b : LowerBoundedRange T) f v w o : v = enc_value w -> to_inner w = IBS o ->
  calls (RFn (inter "LowerBoundedRange" "BoundedSet") [(f, enc_lbr b); (false, v)])
    (Ret (AVal (enc_bs (lbr_inter_bs b o)) [None; None])).
Proof. operand H; unfold calls; run. Qed.
#[local] Hint Resolve c_lbr_inter_bs : calls.
Lemma c_ubr_inter_bs (b : UpperBoundedRange T) f v w o : v = enc_value w -> to_inner w = IBS o ->
  calls (RFn (inter "UpperBoundedRange" "BoundedSet") [(f, enc_ubr b); (false, v)])
    (Ret (AVal (enc_bs (ubr_inter_bs b o)) [None; None])).
Proof. operand H; unfold calls; run. Qed.
#[local] Hint Resolve c_ubr_inter_bs : calls.
Lemma c_bs_inter_bs (b : BoundedSet T) f v w o : v = enc_value w -> to_inner w = IBS o ->
  calls (RFn (inter "BoundedSet" "BoundedSet") [(f, enc_bs b); (false, v)])
    (s <- bs_inter_bs b o ;; Ret (AVal (enc_bs s) [None; None])).
Proof. operand H; unfold calls, bs_inter_bs; run;
  match goal with |- context [foldM ?g _ _] => by_for_on (@enc_br T) (@bs_empty T) g end. Qed.
#[local] Hint Resolve c_bs_inter_bs : calls.
Lemma c_lbs_inter_br (b : LowerBoundedSet T) f v w o : v = enc_value w -> to_inner w = IBR o ->
  calls (RFn (inter "LowerBoundedSet" "BoundedRange") [(f, enc_lbs b); (false, v)])
    (s <- lbs_inter_br b o ;; Ret (AVal (enc_bs s) [None; None])).
Proof. operand H; unfold calls, lbs_inter_br; run. Qed.
#[local] Hint Resolve c_lbs_inter_br : calls.
Lemma c_br_inter_lbs (b : BoundedRange T) f v w o : v = enc_value w -> to_inner w = ILBS o ->
  calls (RFn (inter "BoundedRange" "LowerBoundedSet") [(f, enc_br b); (false, v)])
    (s <- br_inter_lbs b o ;; Ret (AVal (enc_bs s) [None; None])).
Proof. operand H; unfold calls, br_inter_lbs; run. Qed.
#[local] Hint Resolve c_br_inter_lbs : calls.
Lemma c_bs_inter_lbs (b : BoundedSet T) f v w o : v = enc_value w -> to_inner w = ILBS o ->
  calls (RFn (inter "BoundedSet" "LowerBoundedSet") [(f, enc_bs b); (false, v)])
    (s <- bs_inter_lbs b o ;; Ret (AVal (enc_bs s) [None; None])).
Proof. operand H; unfold calls, bs_inter_lbs; run;
  match goal with |- context [foldM ?g _ ?s] => by_for_on (@enc_br T) s g end. Qed.
#[local] Hint Resolve c_bs_inter_lbs : calls.
Lemma c_lbs_inter_bs (b : LowerBoundedSet T) f v w o : v = enc_value w -> to_inner w = IBS o ->
  calls (RFn (inter "LowerBoundedSet" "BoundedSet") [(f, enc_lbs b); (false, v)])
    (s <- lbs_inter_bs b o ;; Ret (AVal (enc_bs s) [None; None])).
Proof. operand H; unfold calls, lbs_inter_bs; run. Qed.
#[local] Hint Resolve c_lbs_inter_bs : calls.
Lemma c_ubs_inter_br (b : UpperBoundedSet T) f v w o : v = enc_value w -> to_inner w = IBR o ->
  calls (RFn (inter "UpperBoundedSet" "BoundedRange") [(f, enc_ubs b); (false, v)])
    (s <- ubs_inter_br b o ;; Ret (AVal (enc_bs s) [None; None])).
Proof. operand H; unfold calls, ubs_inter_br, retain_nonempty; run; retained. Qed.
#[local] Hint Resolve c_ubs_inter_br : calls.
Lemma c_br_inter_ubs (b : BoundedRange T) f v w o : v = enc_value w -> to_inner w = IUBS o ->
  calls (RFn (inter "BoundedRange" "UpperBoundedSet") [(f, enc_br b); (false, v)])
    (s <- br_inter_ubs b o ;; Ret (AVal (enc_bs s) [None; None])).
Proof. operand H; unfold calls, br_inter_ubs; run. Qed.
#[local] Hint Resolve c_br_inter_ubs : calls.
Lemma c_bs_inter_ubs (b : BoundedSet T) f v w o : v = enc_value w -> to_inner w = IUBS o ->
  calls (RFn (inter "BoundedSet" "UpperBoundedSet") [(f, enc_bs b); (false, v)])
    (s <- bs_inter_ubs b o ;; Ret (AVal (enc_bs s) [None; None])).
Proof. operand H; unfold calls, bs_inter_ubs; run;
  match goal with |- context [foldM ?g _ ?s] => by_for_on (@enc_br T) s g end. Qed.
#[local] Hint Resolve c_bs_inter_ubs : calls.
Lemma c_ubs_inter_bs (b : UpperBoundedSet T) f v w o : v = enc_value w -> to_inner w = IBS o ->
  calls (RFn (inter "UpperBoundedSet" "BoundedSet") [(f, enc_ubs b); (false, v)])
    (s <- ubs_inter_bs b o ;; Ret (AVal (enc_bs s) [None; None])).
Proof. operand H; unfold calls, ubs_inter_bs; run. Qed.
#[local] Hint Resolve c_ubs_inter_bs : calls.
Lemma c_lbs_inter_lbr (b : LowerBoundedSet T) f v w o : v = enc_value w -> to_inner w = ILBR o ->
  calls (RFn (inter "LowerBoundedSet" "LowerBoundedRange") [(f, enc_lbs b); (false, v)])
    (Ret (AVal (enc_lbs (lbs_inter_lbr b o)) [None; None])).
Proof. operand H; unfold calls; run. Qed.
#[local] Hint Resolve c_lbs_inter_lbr : calls.
Lemma c_lbr_inter_lbs (b : LowerBoundedRange T) f v w o : v = enc_value w -> to_inner w = ILBS o ->
  calls (RFn (inter "LowerBoundedRange" "LowerBoundedSet") [(f, enc_lbr b); (false, v)])
    (Ret (AVal (enc_lbs (lbr_inter_lbs b o)) [None; None])).
Proof. operand H; unfold calls; run. Qed.
#[local] Hint Resolve c_lbr_inter_lbs : calls.
Lemma c_lbs_inter_lbs (b : LowerBoundedSet T) f v w o : v = enc_value w -> to_inner w = ILBS o ->
  calls (RFn (inter "LowerBoundedSet" "LowerBoundedSet") [(f, enc_lbs b); (false, v)])
    (s <- lbs_inter_lbs b o ;; Ret (AVal (enc_lbs s) [None; None])).
Proof. operand H; unfold calls, lbs_inter_lbs; run. Qed.
#[local] Hint Resolve c_lbs_inter_lbs : calls.
Lemma c_lbs_inter_ubr (b : LowerBoundedSet T) f v w o : v = enc_value w -> to_inner w = IUBR o ->
  calls (RFn (inter "LowerBoundedSet" "UpperBoundedRange") [(f, enc_lbs b); (false, v)])
    (s <- lbs_inter_ubr b o ;; Ret (AVal (enc_bs s) [None; None])).
Proof. operand H; unfold calls, lbs_inter_ubr, retain_nonempty; run; retained; retained. Qed.
#[local] Hint Resolve c_lbs_inter_ubr : calls.
Lemma c_ubr_inter_lbs (b : UpperBoundedRange T) f v w o : v = enc_value w -> to_inner w = ILBS o ->
  calls (RFn (inter "UpperBoundedRange" "LowerBoundedSet") [(f, enc_ubr b); (false, v)])
    (s <- ubr_inter_lbs b o ;; Ret (AVal (enc_bs s) [None; None])).
Proof. operand H; unfold calls, ubr_inter_lbs; run. Qed.
#[local] Hint Resolve c_ubr_inter_lbs : calls.
Lemma c_ubs_inter_lbr (b : UpperBoundedSet T) f v w o : v = enc_value w -> to_inner w = ILBR o ->
  calls (RFn (inter "UpperBoundedSet" "LowerBoundedRange") [(f, enc_ubs b); (false, v)])
    (s <- ubs_inter_lbr b o ;; Ret (AVal (enc_bs s) [None; None])).
Proof. operand H; unfold calls, ubs_inter_lbr, retain_nonempty; run; retained. Qed.
#[local] Hint Resolve c_ubs_inter_lbr : calls.
Lemma c_lbr_inter_ubs (b : LowerBoundedRange T) f v w o : v = enc_value w -> to_inner w = IUBS o ->
  calls (RFn (inter "LowerBoundedRange" "UpperBoundedSet") [(f, enc_lbr b); (false, v)])
    (s <- lbr_inter_ubs b o ;; Ret (AVal (enc_bs s) [None; None])).
Proof. operand H; unfold calls, lbr_inter_ubs; run. Qed.
#[local] Hint Resolve c_lbr_inter_ubs : calls.
Lemma c_ubs_inter_ubr (b : UpperBoundedSet T) f v w o : v = enc_value w -> to_inner w = IUBR o ->
  calls (RFn (inter "UpperBoundedSet" "UpperBoundedRange") [(f, enc_ubs b); (false, v)])
    (s <- ubs_inter_ubr b o ;; Ret (AVal (enc_ubs s) [None; None])).
Proof. operand H; unfold calls, ubs_inter_ubr; run. Qed.
#[local] Hint Resolve c_ubs_inter_ubr : calls.
Lemma c_ubr_inter_ubs (b : UpperBoundedRange T) f v w o : v = enc_value w -> to_inner w = IUBS o ->
  calls (RFn (inter "UpperBoundedRange" "UpperBoundedSet") [(f, enc_ubr b); (false, v)])
    (s <- ubr_inter_ubs b o ;; Ret (AVal (enc_ubs s) [None; None])).
Proof. operand H; unfold calls, ubr_inter_ubs; run. Qed.
#[local] Hint Resolve c_ubr_inter_ubs : calls.
Lemma c_lbs_inter_ubs (b : LowerBoundedSet T) f v w o : v = enc_value w -> to_inner w = IUBS o ->
  calls (RFn (inter "LowerBoundedSet" "UpperBoundedSet") [(f, enc_lbs b); (false, v)])
    (s <- lbs_inter_ubs b o ;; Ret (AVal (enc_bs s) [None; None])).
Proof. operand H; unfold calls, lbs_inter_ubs, retain_nonempty; run; retained; retained. Qed.
#[local] Hint Resolve c_lbs_inter_ubs : calls.
Lemma c_ubs_inter_lbs (b : UpperBoundedSet T) f v w o : v = enc_value w -> to_inner w = ILBS o ->
  calls (RFn (inter "UpperBoundedSet" "LowerBoundedSet") [(f, enc_ubs b); (false, v)])
    (s <- ubs_inter_lbs b o ;; Ret (AVal (enc_bs s) [None; None])).
Proof. operand H; unfold calls, ubs_inter_lbs; run. Qed.
#[local] Hint Resolve c_ubs_inter_lbs : calls.
Lemma c_ubs_inter_ubs (b : UpperBoundedSet T) f v w o : v = enc_value w -> to_inner w = IUBS o ->
  calls (RFn (inter "UpperBoundedSet" "UpperBoundedSet") [(f, enc_ubs b); (false, v)])
    (s <- ubs_inter_ubs b o ;; Ret (AVal (enc_ubs s) [None; None])).
Proof. operand H; unfold calls, ubs_inter_ubs; run. Qed.
#[local] Hint Resolve c_ubs_inter_ubs : calls.
Lemma c_bs_inter_us (b : BoundedSet T) f v w o : v = enc_value w -> to_inner w = IUS o ->
  calls (RFn (inter "BoundedSet" "UnboundedSet") [(f, enc_bs b); (false, v)])
    (s <- bs_inter_us b o ;; Ret (AVal (enc_bs s) [None; None])).
Proof. operand H; match goal with |- context [bs_inter_us _ ?o] => unfold calls, bs_inter_us; destruct o; open; run end. Qed.
#[local] Hint Resolve c_bs_inter_us : calls.
Lemma c_lbs_inter_us (b : LowerBoundedSet T) f v w o : v = enc_value w -> to_inner w = IUS o ->
  calls (RFn (inter "LowerBoundedSet" "UnboundedSet") [(f, enc_lbs b); (false, v)])
    (s <- lbs_inter_us b o ;; Ret (AVal (enc_lbs s) [None; None])).
Proof. operand H; match goal with |- context [lbs_inter_us _ ?o] => unfold calls, lbs_inter_us; destruct o; open; run end. Qed.
#[local] Hint Resolve c_lbs_inter_us : calls.
Lemma c_ubs_inter_us (b : UpperBoundedSet T) f v w o : v = enc_value w -> to_inner w = IUS o ->
  calls (RFn (inter "UpperBoundedSet" "UnboundedSet") [(f, enc_ubs b); (false, v)])
    (s <- ubs_inter_us b o ;; Ret (AVal (enc_ubs s) [None; None])).
Proof. operand H; match goal with |- context [ubs_inter_us _ ?o] => unfold calls, ubs_inter_us; destruct o; open; run end. Qed.
#[local] Hint Resolve c_ubs_inter_us : calls.
Lemma c_us_inter_br (b : UnboundedSet T) f v w o : v = enc_value w -> to_inner w = IBR o ->
  calls (RFn (inter "UnboundedSet" "BoundedRange") [(f, enc_us b); (false, v)])
    (s <- us_inter_br b o ;; Ret (AVal (enc_bs s) [None; None])).
Proof. operand H; unfold calls, us_inter_br; run. Qed.
#[local] Hint Resolve c_us_inter_br : calls.
Lemma c_us_inter_bs (b : UnboundedSet T) f v w o : v = enc_value w -> to_inner w = IBS o ->
  calls (RFn (inter "UnboundedSet" "BoundedSet") [(f, enc_us b); (false, v)])
    (s <- us_inter_bs b o ;; Ret (AVal (enc_bs s) [None; None])).
Proof. operand H; unfold calls, us_inter_bs; run. Qed.
#[local] Hint Resolve c_us_inter_bs : calls.
Lemma c_us_inter_lbr (b : UnboundedSet T) f v w o : v = enc_value w -> to_inner w = ILBR o ->
  calls (RFn (inter "UnboundedSet" "LowerBoundedRange") [(f, enc_us b); (false, v)])
    (s <- us_inter_lbr b o ;; Ret (AVal (enc_lbs s) [None; None])).
Proof. operand H; unfold calls, us_inter_lbr; run. Qed.
#[local] Hint Resolve c_us_inter_lbr : calls.
Lemma c_us_inter_lbs (b : UnboundedSet T) f v w o : v = enc_value w -> to_inner w = ILBS o ->
  calls (RFn (inter "UnboundedSet" "LowerBoundedSet") [(f, enc_us b); (false, v)])
    (s <- us_inter_lbs b o ;; Ret (AVal (enc_lbs s) [None; None])).
Proof. operand H; unfold calls, us_inter_lbs; run. Qed.
#[local] Hint Resolve c_us_inter_lbs : calls.
Lemma c_us_inter_ubr (b : UnboundedSet T) f v w o : v = enc_value w -> to_inner w = IUBR o ->
  calls (RFn (inter "UnboundedSet" "UpperBoundedRange") [(f, enc_us b); (false, v)])
    (s <- us_inter_ubr b o ;; Ret (AVal (enc_ubs s) [None; None])).
Proof. operand H; unfold calls, us_inter_ubr; run. Qed.
#[local] Hint Resolve c_us_inter_ubr : calls.
Lemma c_us_inter_ubs (b : UnboundedSet T) f v w o : v = enc_value w -> to_inner w = IUBS o ->
  calls (RFn (inter "UnboundedSet" "UpperBoundedSet") [(f, enc_us b); (false, v)])
    (s <- us_inter_ubs b o ;; Ret (AVal (enc_ubs s) [None; None])).
Proof. operand H; unfold calls, us_inter_ubs; run. Qed.
#[local] Hint Resolve c_us_inter_ubs : calls.
Lemma c_br_inter_us (b : BoundedRange T) f v w o : v = enc_value w -> to_inner w = IUS o ->
  calls (RFn (inter "BoundedRange" "UnboundedSet") [(f, enc_br b); (false, v)])
    (s <- br_inter_us b o ;; Ret (AVal (enc_bs s) [None; None])).
Proof. operand H; unfold calls, br_inter_us; run. Qed.
#[local] Hint Resolve c_br_inter_us : calls.
Lemma c_lbr_inter_us (b : LowerBoundedRange T) f v w o : v = enc_value w -> to_inner w = IUS o ->
  calls (RFn (inter "LowerBoundedRange" "UnboundedSet") [(f, enc_lbr b); (false, v)])
    (s <- lbr_inter_us b o ;; Ret (AVal (enc_lbs s) [None; None])).
Proof. operand H; unfold calls, lbr_inter_us; run. Qed.
#[local] Hint Resolve c_lbr_inter_us : calls.
Lemma c_ubr_inter_us (b : UpperBoundedRange T) f v w o : v = enc_value w -> to_inner w = IUS o ->
  calls (RFn (inter "UpperBoundedRange" "UnboundedSet") [(f, enc_ubr b); (false, v)])
    (s <- ubr_inter_us b o ;; Ret (AVal (enc_ubs s) [None; None])).
Proof. operand H; unfold calls, ubr_inter_us; run. Qed.
#[local] Hint Resolve c_ubr_inter_us : calls.
End Inter.
#[export] Hint Resolve c_bs_inter_br c_bs_inter_lbr c_bs_inter_ubr c_br_inter_bs c_lbr_inter_bs c_ubr_inter_bs
  c_bs_inter_bs c_lbs_inter_br c_br_inter_lbs c_bs_inter_lbs c_lbs_inter_bs c_ubs_inter_br
  c_br_inter_ubs c_bs_inter_ubs c_ubs_inter_bs c_lbs_inter_lbr c_lbr_inter_lbs c_lbs_inter_lbs
  c_lbs_inter_ubr c_ubr_inter_lbs c_ubs_inter_lbr c_lbr_inter_ubs c_ubs_inter_ubr c_ubr_inter_ubs
  c_lbs_inter_ubs c_ubs_inter_lbs c_ubs_inter_ubs c_bs_inter_us c_lbs_inter_us c_ubs_inter_us
  c_us_inter_br c_us_inter_bs c_us_inter_lbr c_us_inter_lbs c_us_inter_ubr c_us_inter_ubs
  c_br_inter_us c_lbr_inter_us c_ubr_inter_us : calls.
