(** The source of bound.rs and of the range types, run by RustEval.v, gives what
    the model functions of ModelBound.v and ModelRanges.v give. *)
From Coq Require Import String.
From Verif Require Import Base ModelBound ModelRanges ModelSets ModelValue ModelStep ModelIter ModelConv
  RustSyntax Source RustEval RustEnc RustTac.
Open Scope Z_scope.
Open Scope string_scope.
Open Scope list_scope.

Notation inh ty n := (KFn None ty [] n).
Notation tr1 t ty n := (KFn (Some (t, "")) ty [] n).
Notation froms a ty := (KFn (Some ("From", a)) ty [] "from").

Section Bound.
Context {T : Type} {PF : Platform} {OT : Ord T} {ST : Step T} (dflt : option T) (m : mode).
Notation calls := (calls dflt m).
Implicit Types (x y : LowerBound T) (u w : UpperBound T) (t : T).

(** ** bound.rs *)
Lemma c_flipped (b : Bound T) f :
  calls (RFn (inh "Bound" "flipped") [(f, enc_bound b)]) (Ret (AVal (enc_bound (flipped b)) [None])).
Proof. unfold calls. destruct b; run. Qed.
Lemma c_lb_from b : calls (RFn (froms "Bound" "LowerBound") [(false, enc_bound b)]) (Ret (AVal (enc_lb (LB b)) [None])).
Proof. unfold calls. run. Qed.
Lemma c_ub_from b : calls (RFn (froms "Bound" "UpperBound") [(false, enc_bound b)]) (Ret (AVal (enc_ub (UB b)) [None])).
Proof. unfold calls. run. Qed.
Lemma c_lb_excluded t : calls (RFn (inh "LowerBound" "excluded") [(false, DElt t)]) (Ret (AVal (enc_lb (lb_excluded t)) [None])).
Proof. unfold calls. run. Qed.
Lemma c_lb_included t : calls (RFn (inh "LowerBound" "included") [(false, DElt t)]) (Ret (AVal (enc_lb (lb_included t)) [None])).
Proof. unfold calls. run. Qed.
Lemma c_ub_excluded t : calls (RFn (inh "UpperBound" "excluded") [(false, DElt t)]) (Ret (AVal (enc_ub (ub_excluded t)) [None])).
Proof. unfold calls. run. Qed.
Lemma c_ub_included t : calls (RFn (inh "UpperBound" "included") [(false, DElt t)]) (Ret (AVal (enc_ub (ub_included t)) [None])).
Proof. unfold calls. run. Qed.
Lemma c_lb_to_bound x f : calls (RFn (inh "LowerBound" "to_bound") [(f, enc_lb x)]) (Ret (AVal (enc_bound (lb_to_bound x)) [None])).
Proof. unfold calls. run. Qed.
Lemma c_ub_to_bound u f : calls (RFn (inh "UpperBound" "to_bound") [(f, enc_ub u)]) (Ret (AVal (enc_bound (ub_to_bound u)) [None])).
Proof. unfold calls. run. Qed.
Lemma c_lb_partial_cmp x y f :
  calls (RFn (tr1 "PartialOrd" "LowerBound" "partial_cmp") [(f, enc_lb x); (false, enc_lb y)])
    (Ret (AVal (some_val (ordering_val (lb_cmp x y))) [None; None])).
Proof. unfold calls, lb_cmp, lb_partial_cmp, t_partial_cmp. destruct x as [[a|a]], y as [[b|b]]; run. Qed.
Lemma c_ub_partial_cmp u w f :
  calls (RFn (tr1 "PartialOrd" "UpperBound" "partial_cmp") [(f, enc_ub u); (false, enc_ub w)])
    (Ret (AVal (some_val (ordering_val (ub_cmp u w))) [None; None])).
Proof. unfold calls, ub_cmp, ub_partial_cmp, t_partial_cmp. destruct u as [[a|a]], w as [[b|b]]; run. Qed.
#[local] Hint Resolve c_lb_partial_cmp c_ub_partial_cmp : calls.
Lemma c_lb_cmp x y f :
  calls (RFn (tr1 "Ord" "LowerBound" "cmp") [(f, enc_lb x); (false, enc_lb y)])
    (Ret (AVal (ordering_val (lb_cmp x y)) [None; None])).
Proof. unfold calls. run. Qed.
Lemma c_ub_cmp u w f :
  calls (RFn (tr1 "Ord" "UpperBound" "cmp") [(f, enc_ub u); (false, enc_ub w)])
    (Ret (AVal (ordering_val (ub_cmp u w)) [None; None])).
Proof. unfold calls. run. Qed.
#[local] Hint Resolve c_lb_cmp c_ub_cmp : calls.
Lemma c_lb_max x y f :
  calls (RFn (KDefault "Ord" "max") [(f, enc_lb x); (false, enc_lb y)]) (Ret (AVal (enc_lb (lb_max x y)) [None; None])).
Proof. unfold calls, lb_max. run. Qed.
Lemma c_lb_min x y f :
  calls (RFn (KDefault "Ord" "min") [(f, enc_lb x); (false, enc_lb y)]) (Ret (AVal (enc_lb (lb_min x y)) [None; None])).
Proof. unfold calls, lb_min. run. Qed.
Lemma c_ub_max u w f :
  calls (RFn (KDefault "Ord" "max") [(f, enc_ub u); (false, enc_ub w)]) (Ret (AVal (enc_ub (ub_max u w)) [None; None])).
Proof. unfold calls, ub_max. run. Qed.
Lemma c_ub_min u w f :
  calls (RFn (KDefault "Ord" "min") [(f, enc_ub u); (false, enc_ub w)]) (Ret (AVal (enc_ub (ub_min u w)) [None; None])).
Proof. unfold calls, ub_min. run. Qed.
End Bound.
#[export] Hint Resolve c_flipped c_lb_from c_ub_from c_lb_excluded c_lb_included c_ub_excluded c_ub_included
  c_lb_to_bound c_ub_to_bound c_lb_partial_cmp c_ub_partial_cmp c_lb_cmp c_ub_cmp c_lb_max c_lb_min c_ub_max c_ub_min : calls.

Section Range.
Context {T : Type} {PF : Platform} {OT : Ord T} {ST : Step T} (dflt : option T) (m : mode).
Notation calls := (calls dflt m).
Implicit Types (t : T).

(** ** Ranges: construction, [contains], [is_empty] *)
Lemma c_br_from_range r : calls (RFn (froms "Range" "BoundedRange") [(false, enc_range r)])
  (Ret (AVal (enc_br (br_from_range r)) [None])).
Proof. unfold calls. run. Qed.
Lemma c_br_from_ri r : calls (RFn (froms "RangeInclusive" "BoundedRange") [(false, enc_ri r)])
  (Ret (AVal (enc_br (br_from_range_inclusive r)) [None])).
Proof. unfold calls. run. Qed.
Lemma c_lbr_from_rf r : calls (RFn (froms "RangeFrom" "LowerBoundedRange") [(false, enc_rf r)])
  (Ret (AVal (enc_lbr (lbr_from_range_from r)) [None])).
Proof. unfold calls. run. Qed.
Lemma c_ubr_from_rt r : calls (RFn (froms "RangeTo" "UpperBoundedRange") [(false, enc_rt r)])
  (Ret (AVal (enc_ubr (ubr_from_range_to r)) [None])).
Proof. unfold calls. run. Qed.
Lemma c_ubr_from_rti r : calls (RFn (froms "RangeToInclusive" "UpperBoundedRange") [(false, enc_rti r)])
  (Ret (AVal (enc_ubr (ubr_from_range_to_inclusive r)) [None])).
Proof. unfold calls. run. Qed.
Lemma c_unbr_from_rfull r : calls (RFn (froms "RangeFull" "UnboundedRange") [(false, enc_rfull r)])
  (Ret (AVal (enc_unbr (unbr_from_range_full r)) [None])).
Proof. unfold calls. run. Qed.
Lemma c_rfull_from_unbr r : calls (RFn (froms "UnboundedRange" "RangeFull") [(false, enc_unbr r)])
  (Ret (AVal (enc_rfull (range_full_from_unbr r)) [None])).
Proof. unfold calls. run. Qed.
Lemma c_br_new (x : LowerBound T) (u : UpperBound T) :
  calls (RFn (inh "BoundedRange" "new") [(false, enc_lb x); (false, enc_ub u)]) (Ret (AVal (enc_br (br_new x u)) [None; None])).
Proof. unfold calls. run. Qed.
Lemma c_lbr_new (x : LowerBound T) :
  calls (RFn (inh "LowerBoundedRange" "new") [(false, enc_lb x)]) (Ret (AVal (enc_lbr (lbr_new x)) [None])).
Proof. unfold calls. run. Qed.
Lemma c_ubr_new (u : UpperBound T) :
  calls (RFn (inh "UpperBoundedRange" "new") [(false, enc_ub u)]) (Ret (AVal (enc_ubr (ubr_new u)) [None])).
Proof. unfold calls. run. Qed.
Lemma c_unbr_new :
  calls (RFn (inh "UnboundedRange" "new") []) (Ret (AVal (enc_unbr mkUnboundedRange) [])).
Proof. unfold calls. run. Qed.
Lemma c_empty_new :
  calls (RFn (inh "EmptyRange" "new") []) (Ret (AVal (enc_empty mkEmptyRange) [])).
Proof. unfold calls. run. Qed.
Lemma c_br_contains r t f :
  calls (RFn (inh "BoundedRange" "contains") [(f, enc_br r); (false, DElt t)])
    (Ret (AVal (DBool (br_contains r t)) [None; None])).
Proof. unfold calls, br_contains. destruct r as [[[]] [[]]]; run. Qed.
Lemma c_lbr_contains r t f :
  calls (RFn (inh "LowerBoundedRange" "contains") [(f, enc_lbr r); (false, DElt t)])
    (Ret (AVal (DBool (lbr_contains r t)) [None; None])).
Proof. unfold calls, lbr_contains. destruct r as [[[]]]; run. Qed.
Lemma c_ubr_contains r t f :
  calls (RFn (inh "UpperBoundedRange" "contains") [(f, enc_ubr r); (false, DElt t)])
    (Ret (AVal (DBool (ubr_contains r t)) [None; None])).
Proof. unfold calls, ubr_contains. destruct r as [[[]]]; run. Qed.
Lemma c_unbr_contains r t f :
  calls (RFn (inh "UnboundedRange" "contains") [(f, enc_unbr r); (false, DElt t)])
    (Ret (AVal (DBool (unbr_contains r t)) [None; None])).
Proof. unfold calls. run. Qed.
Lemma c_empty_contains r t f :
  calls (RFn (inh "EmptyRange" "contains") [(f, enc_empty r); (false, DElt t)])
    (Ret (AVal (DBool (er_contains r t)) [None; None])).
Proof. unfold calls. run. Qed.
Lemma c_br_is_empty r f :
  calls (RFn (tr1 "Rangetools" "BoundedRange" "is_empty") [(f, enc_br r)]) (Ret (AVal (DBool (br_is_empty r)) [None])).
Proof. unfold calls, br_is_empty. destruct r as [[[]] [[]]]; run. Qed.
End Range.
#[export] Hint Resolve c_br_from_range c_br_from_ri c_lbr_from_rf c_ubr_from_rt c_ubr_from_rti c_unbr_from_rfull
  c_rfull_from_unbr c_br_new c_lbr_new c_ubr_new c_unbr_new c_empty_new c_br_contains c_lbr_contains c_ubr_contains
  c_unbr_contains c_empty_contains c_br_is_empty : calls.

Notation rt ty n := (tr1 "Rangetools" ty n).
Notation inter ty i := (KFn (Some ("RangeIntersection", "")) ty [("Inner", i)] "intersection").
Notation inter0 ty := (KFn (Some ("RangeIntersection", "")) ty [] "intersection").
Notation uni ty i := (KFn (Some ("RangeUnion", "")) ty [("Set", i)] "union").
Notation uni0 ty := (KFn (Some ("RangeUnion", "")) ty [] "union").
Notation compl ty o := (KFn (Some ("RangeComplement", o)) ty [] "complement").

(** An operand of a type that implements [Rangetools]. *)
#[export] Hint Extern 0 (enc_range ?x = enc_value _) => exact (eq_refl (enc_value (VRange x))) : calls.
#[export] Hint Extern 0 (enc_ri ?x = enc_value _) => exact (eq_refl (enc_value (VRangeInclusive x))) : calls.
#[export] Hint Extern 0 (enc_rf ?x = enc_value _) => exact (eq_refl (enc_value (VRangeFrom x))) : calls.
#[export] Hint Extern 0 (enc_rt ?x = enc_value _) => exact (eq_refl (enc_value (VRangeTo x))) : calls.
#[export] Hint Extern 0 (enc_rti ?x = enc_value _) => exact (eq_refl (enc_value (VRangeToInclusive x))) : calls.
#[export] Hint Extern 0 (@enc_rfull ?T ?x = enc_value _) => exact (eq_refl (enc_value (@VRangeFull T x))) : calls.
#[export] Hint Extern 0 (enc_br ?x = enc_value _) => exact (eq_refl (enc_value (VBR x))) : calls.
#[export] Hint Extern 0 (enc_lbr ?x = enc_value _) => exact (eq_refl (enc_value (VLBR x))) : calls.
#[export] Hint Extern 0 (enc_ubr ?x = enc_value _) => exact (eq_refl (enc_value (VUBR x))) : calls.
#[export] Hint Extern 0 (@enc_unbr ?T ?x = enc_value _) => exact (eq_refl (enc_value (@VUnbR T x))) : calls.
#[export] Hint Extern 0 (@enc_empty ?T ?x = enc_value _) => exact (eq_refl (enc_value (@VEmpty T x))) : calls.
#[export] Hint Extern 0 (enc_bs ?x = enc_value _) => exact (eq_refl (enc_value (VBS x))) : calls.
#[export] Hint Extern 0 (enc_lbs ?x = enc_value _) => exact (eq_refl (enc_value (VLBS x))) : calls.
#[export] Hint Extern 0 (enc_ubs ?x = enc_value _) => exact (eq_refl (enc_value (VUBS x))) : calls.
#[export] Hint Extern 0 (enc_us ?x = enc_value _) => exact (eq_refl (enc_value (VUS x))) : calls.
#[export] Hint Extern 0 (to_inner _ = _) => reflexivity : calls.
#[export] Hint Extern 0 (to_set _ = _) => reflexivity : calls.

Ltac operand H := intros -> H;
  match type of H with _ ?w = _ => destruct w end; try discriminate H; injection H as <-.

Section Inner.
Context {T : Type} {PF : Platform} {OT : Ord T} {ST : Step T} (dflt : option T) (m : mode).
Notation calls := (calls dflt m).

Lemma c_range_to_inner r f : calls (RFn (rt "Range" "to_inner") [(f, enc_range r)]) (Ret (AVal (enc_br (br_from_range r)) [None])).
Proof. unfold calls. run. Qed.
Lemma c_ri_to_inner r f : calls (RFn (rt "RangeInclusive" "to_inner") [(f, enc_ri r)])
  (Ret (AVal (enc_br (br_from_range_inclusive r)) [None])).
Proof. unfold calls. run. Qed.
Lemma c_rf_to_inner r f : calls (RFn (rt "RangeFrom" "to_inner") [(f, enc_rf r)]) (Ret (AVal (enc_lbr (lbr_from_range_from r)) [None])).
Proof. unfold calls. run. Qed.
Lemma c_rt_to_inner r f : calls (RFn (rt "RangeTo" "to_inner") [(f, enc_rt r)]) (Ret (AVal (enc_ubr (ubr_from_range_to r)) [None])).
Proof. unfold calls. run. Qed.
Lemma c_rti_to_inner r f : calls (RFn (rt "RangeToInclusive" "to_inner") [(f, enc_rti r)])
  (Ret (AVal (enc_ubr (ubr_from_range_to_inclusive r)) [None])).
Proof. unfold calls. run. Qed.
Lemma c_rfull_to_inner r f : calls (RFn (rt "RangeFull" "to_inner") [(f, enc_rfull r)])
  (Ret (AVal (enc_unbr (unbr_from_range_full r)) [None])).
Proof. unfold calls. run. Qed.
Lemma c_br_to_inner (r : BoundedRange T) f : calls (RFn (rt "BoundedRange" "to_inner") [(f, enc_br r)]) (Ret (AVal (enc_br r) [None])).
Proof. unfold calls. run. Qed.
Lemma c_lbr_to_inner (r : LowerBoundedRange T) f : calls (RFn (rt "LowerBoundedRange" "to_inner") [(f, enc_lbr r)]) (Ret (AVal (enc_lbr r) [None])).
Proof. unfold calls. run. Qed.
Lemma c_ubr_to_inner (r : UpperBoundedRange T) f : calls (RFn (rt "UpperBoundedRange" "to_inner") [(f, enc_ubr r)]) (Ret (AVal (enc_ubr r) [None])).
Proof. unfold calls. run. Qed.
Lemma c_unbr_to_inner r f : calls (RFn (rt "UnboundedRange" "to_inner") [(f, enc_unbr r)]) (Ret (AVal (enc_unbr r) [None])).
Proof. unfold calls. run. Qed.
Lemma c_empty_to_inner r f : calls (RFn (rt "EmptyRange" "to_inner") [(f, enc_empty r)]) (Ret (AVal (enc_empty r) [None])).
Proof. unfold calls. run. Qed.
Lemma c_bs_to_inner (s : BoundedSet T) f : calls (RFn (rt "BoundedSet" "to_inner") [(f, enc_bs s)]) (Ret (AVal (enc_bs s) [None])).
Proof. unfold calls. run. Qed.
Lemma c_lbs_to_inner (s : LowerBoundedSet T) f : calls (RFn (rt "LowerBoundedSet" "to_inner") [(f, enc_lbs s)]) (Ret (AVal (enc_lbs s) [None])).
Proof. unfold calls. run. Qed.
Lemma c_ubs_to_inner (s : UpperBoundedSet T) f : calls (RFn (rt "UpperBoundedSet" "to_inner") [(f, enc_ubs s)]) (Ret (AVal (enc_ubs s) [None])).
Proof. unfold calls. run. Qed.
Lemma c_us_to_inner (s : UnboundedSet T) f : calls (RFn (rt "UnboundedSet" "to_inner") [(f, enc_us s)]) (Ret (AVal (enc_us s) [None])).
Proof. unfold calls. run. Qed.
End Inner.
#[export] Hint Resolve c_range_to_inner c_ri_to_inner c_rf_to_inner c_rt_to_inner c_rti_to_inner c_rfull_to_inner
  c_br_to_inner c_lbr_to_inner c_ubr_to_inner c_unbr_to_inner c_empty_to_inner c_bs_to_inner c_lbs_to_inner
  c_ubs_to_inner c_us_to_inner : calls.

Section Inter.
Context {T : Type} {PF : Platform} {OT : Ord T} {ST : Step T} (dflt : option T) (m : mode).
Notation calls := (calls dflt m).
Implicit Types (w : value T).

Lemma c_br_inter_br b f v w o : v = enc_value w -> to_inner w = IBR o ->
  calls (RFn (inter "BoundedRange" "BoundedRange") [(f, enc_br b); (false, v)])
    (Ret (AVal (enc_br (br_inter_br b o)) [None; None])).
Proof. operand H; unfold calls; run. Qed.
Lemma c_br_inter_lbr b f v w o : v = enc_value w -> to_inner w = ILBR o ->
  calls (RFn (inter "BoundedRange" "LowerBoundedRange") [(f, enc_br b); (false, v)])
    (Ret (AVal (enc_br (br_inter_lbr b o)) [None; None])).
Proof. operand H; unfold calls; run. Qed.
Lemma c_br_inter_ubr b f v w o : v = enc_value w -> to_inner w = IUBR o ->
  calls (RFn (inter "BoundedRange" "UpperBoundedRange") [(f, enc_br b); (false, v)])
    (Ret (AVal (enc_br (br_inter_ubr b o)) [None; None])).
Proof. operand H; unfold calls; run. Qed.
#[local] Hint Resolve c_br_inter_br c_br_inter_lbr c_br_inter_ubr : calls.
Lemma c_lbr_inter_br b f v w o : v = enc_value w -> to_inner w = IBR o ->
  calls (RFn (inter "LowerBoundedRange" "BoundedRange") [(f, enc_lbr b); (false, v)])
    (Ret (AVal (enc_br (lbr_inter_br b o)) [None; None])).
Proof. operand H; unfold calls; run. Qed.
Lemma c_lbr_inter_lbr b f v w o : v = enc_value w -> to_inner w = ILBR o ->
  calls (RFn (inter "LowerBoundedRange" "LowerBoundedRange") [(f, enc_lbr b); (false, v)])
    (Ret (AVal (enc_lbr (lbr_inter_lbr b o)) [None; None])).
Proof. operand H; unfold calls; run. Qed.
Lemma c_lbr_inter_ubr (b : LowerBoundedRange T) f v w o : v = enc_value w -> to_inner w = IUBR o ->
  calls (RFn (inter "LowerBoundedRange" "UpperBoundedRange") [(f, enc_lbr b); (false, v)])
    (Ret (AVal (enc_br (lbr_inter_ubr b o)) [None; None])).
Proof. operand H; unfold calls; run. Qed.
#[local] Hint Resolve c_lbr_inter_br c_lbr_inter_lbr c_lbr_inter_ubr : calls.
Lemma c_ubr_inter_br b f v w o : v = enc_value w -> to_inner w = IBR o ->
  calls (RFn (inter "UpperBoundedRange" "BoundedRange") [(f, enc_ubr b); (false, v)])
    (Ret (AVal (enc_br (ubr_inter_br b o)) [None; None])).
Proof. operand H; unfold calls; run. Qed.
Lemma c_ubr_inter_lbr (b : UpperBoundedRange T) f v w o : v = enc_value w -> to_inner w = ILBR o ->
  calls (RFn (inter "UpperBoundedRange" "LowerBoundedRange") [(f, enc_ubr b); (false, v)])
    (Ret (AVal (enc_br (ubr_inter_lbr b o)) [None; None])).
Proof. operand H; unfold calls; run. Qed.
Lemma c_ubr_inter_ubr b f v w o : v = enc_value w -> to_inner w = IUBR o ->
  calls (RFn (inter "UpperBoundedRange" "UpperBoundedRange") [(f, enc_ubr b); (false, v)])
    (Ret (AVal (enc_ubr (ubr_inter_ubr b o)) [None; None])).
Proof. operand H; unfold calls; run. Qed.
#[local] Hint Resolve c_ubr_inter_br c_ubr_inter_lbr c_ubr_inter_ubr : calls.

(** [Rangetools::intersection], [disjoint], [intersects] where the set code uses
    them, and [combine]. *)
Lemma c_rt_inter_br_br b o f :
  calls (RFn (KDefault "Rangetools" "intersection") [(f, enc_br b); (false, enc_br o)])
    (Ret (AVal (enc_br (br_inter_br b o)) [None; None])).
Proof. unfold calls; run. Qed.
Lemma c_rt_inter_ubr_br b o f :
  calls (RFn (KDefault "Rangetools" "intersection") [(f, enc_ubr b); (false, enc_br o)])
    (Ret (AVal (enc_br (ubr_inter_br b o)) [None; None])).
Proof. unfold calls; run. Qed.
Lemma c_rt_inter_lbr_br b o f :
  calls (RFn (KDefault "Rangetools" "intersection") [(f, enc_lbr b); (false, enc_br o)])
    (Ret (AVal (enc_br (lbr_inter_br b o)) [None; None])).
Proof. unfold calls; run. Qed.
Lemma c_rt_inter_ubr_lbr (b : UpperBoundedRange T) (o : LowerBoundedRange T) f :
  calls (RFn (KDefault "Rangetools" "intersection") [(f, enc_ubr b); (false, enc_lbr o)])
    (Ret (AVal (enc_br (ubr_inter_lbr b o)) [None; None])).
Proof. unfold calls; run. Qed.
Lemma c_rt_inter_br_lbr b (o : LowerBoundedRange T) f :
  calls (RFn (KDefault "Rangetools" "intersection") [(f, enc_br b); (false, enc_lbr o)])
    (Ret (AVal (enc_br (br_inter_lbr b o)) [None; None])).
Proof. unfold calls; run. Qed.
Lemma c_rt_inter_br_ubr b (o : UpperBoundedRange T) f :
  calls (RFn (KDefault "Rangetools" "intersection") [(f, enc_br b); (false, enc_ubr o)])
    (Ret (AVal (enc_br (br_inter_ubr b o)) [None; None])).
Proof. unfold calls; run. Qed.
#[local] Hint Resolve c_rt_inter_br_br c_rt_inter_ubr_br c_rt_inter_lbr_br c_rt_inter_ubr_lbr : calls.
Lemma c_rt_disj_br_br b o f :
  calls (RFn (KDefault "Rangetools" "disjoint") [(f, enc_br b); (false, enc_br o)])
    (Ret (AVal (DBool (br_is_empty (br_inter_br b o))) [None; None])).
Proof. unfold calls; run. Qed.
Lemma c_rt_disj_ubr_br b o f :
  calls (RFn (KDefault "Rangetools" "disjoint") [(f, enc_ubr b); (false, enc_br o)])
    (Ret (AVal (DBool (br_is_empty (ubr_inter_br b o))) [None; None])).
Proof. unfold calls; run. Qed.
Lemma c_rt_disj_lbr_br b o f :
  calls (RFn (KDefault "Rangetools" "disjoint") [(f, enc_lbr b); (false, enc_br o)])
    (Ret (AVal (DBool (br_is_empty (lbr_inter_br b o))) [None; None])).
Proof. unfold calls; run. Qed.
Lemma c_rt_disj_ubr_lbr b o f :
  calls (RFn (KDefault "Rangetools" "disjoint") [(f, enc_ubr b); (false, enc_lbr o)])
    (Ret (AVal (DBool (br_is_empty (ubr_inter_lbr b o))) [None; None])).
Proof. unfold calls; run. Qed.
#[local] Hint Resolve c_rt_disj_br_br c_rt_disj_ubr_br c_rt_disj_lbr_br c_rt_disj_ubr_lbr : calls.
Lemma c_rt_ints_br_br b o f :
  calls (RFn (KDefault "Rangetools" "intersects") [(f, enc_br b); (false, enc_br o)])
    (Ret (AVal (DBool (br_intersects_br b o)) [None; None])).
Proof. unfold calls; run. Qed.
Lemma c_rt_ints_ubr_br b o f :
  calls (RFn (KDefault "Rangetools" "intersects") [(f, enc_ubr b); (false, enc_br o)])
    (Ret (AVal (DBool (ubr_intersects_br b o)) [None; None])).
Proof. unfold calls; run. Qed.
Lemma c_rt_ints_lbr_br b o f :
  calls (RFn (KDefault "Rangetools" "intersects") [(f, enc_lbr b); (false, enc_br o)])
    (Ret (AVal (DBool (lbr_intersects_br b o)) [None; None])).
Proof. unfold calls; run. Qed.
Lemma c_rt_ints_ubr_lbr b o f :
  calls (RFn (KDefault "Rangetools" "intersects") [(f, enc_ubr b); (false, enc_lbr o)])
    (Ret (AVal (DBool (ubr_intersects_lbr b o)) [None; None])).
Proof. unfold calls; run. Qed.
#[local] Hint Resolve c_rt_ints_br_br c_rt_ints_ubr_br c_rt_ints_lbr_br c_rt_ints_ubr_lbr : calls.
Lemma c_br_combine b o f :
  calls (RFn (inh "BoundedRange" "combine") [(f, enc_br b); (false, enc_br o)])
    (r <- br_combine b o ;; Ret (AVal (enc_br r) [None; None])).
Proof. unfold calls, br_combine; run. Qed.
End Inter.
#[export] Hint Resolve c_br_inter_br c_br_inter_lbr c_br_inter_ubr c_lbr_inter_br c_lbr_inter_lbr c_lbr_inter_ubr
  c_ubr_inter_br c_ubr_inter_lbr c_ubr_inter_ubr
  c_rt_inter_br_br c_rt_inter_ubr_br c_rt_inter_lbr_br c_rt_inter_ubr_lbr c_rt_inter_br_lbr c_rt_inter_br_ubr
  c_rt_disj_br_br c_rt_disj_ubr_br c_rt_disj_lbr_br c_rt_disj_ubr_lbr
  c_rt_ints_br_br c_rt_ints_ubr_br c_rt_ints_lbr_br c_rt_ints_ubr_lbr c_br_combine : calls.
