(** The source of src/implementations/union/*.rs and
    src/implementations/complement/*.rs for the crate's own types, run by RustEval.v, gives what
    the model functions give. *)
From Coq Require Import String.
From Verif Require Import Base ModelBound ModelRanges ModelSets ModelAlgebra ModelValue ModelStep ModelIter
  RustSyntax Source RustEval RustEnc RustTac RustRange RustSet RustUnb RustInter.
Open Scope Z_scope.
Open Scope string_scope.
Open Scope list_scope.

Section Union.
Context {T : Type} {PF : Platform} {OT : Ord T} {ST : Step T} (dflt : option T) (m : mode).
Notation calls := (calls dflt m).
Implicit Types (w : value T).
Lemma c_bs_union_bs (b : BoundedSet T) f v w o : v = enc_value w -> to_set w = SBS o ->
  calls (RFn (uni "BoundedSet" "BoundedSet") [(f, enc_bs b); (false, v)])
    (s <- bs_union_bs b o ;; Ret (AVal (enc_bs s) [None; None])).
Proof. operand H; unfold calls, bs_union_bs; run. Qed.
#[local] Hint Resolve c_bs_union_bs : calls.
Lemma c_bs_union_lbs (b : BoundedSet T) f v w o : v = enc_value w -> to_set w = SLBS o ->
  calls (RFn (uni "BoundedSet" "LowerBoundedSet") [(f, enc_bs b); (false, v)])
    (s <- bs_union_lbs b o ;; Ret (AVal (enc_lbs s) [None; None])).
Proof. operand H; unfold calls, bs_union_lbs; run. Qed.
#[local] Hint Resolve c_bs_union_lbs : calls.
Lemma c_bs_union_ubs (b : BoundedSet T) f v w o : v = enc_value w -> to_set w = SUBS o ->
  calls (RFn (uni "BoundedSet" "UpperBoundedSet") [(f, enc_bs b); (false, v)])
    (s <- bs_union_ubs b o ;; Ret (AVal (enc_ubs s) [None; None])).
Proof. operand H; unfold calls, bs_union_ubs; run. Qed.
#[local] Hint Resolve c_bs_union_ubs : calls.
Lemma c_bs_union_us (b : BoundedSet T) f v w o : v = enc_value w -> to_set w = SUS o ->
  calls (RFn (uni "BoundedSet" "UnboundedSet") [(f, enc_bs b); (false, v)])
    (s <- bs_union_us b o ;; Ret (AVal (enc_us s) [None; None])).
Proof. operand H; unfold calls, bs_union_us; run. Qed.
#[local] Hint Resolve c_bs_union_us : calls.
Lemma c_lbs_union_bs (b : LowerBoundedSet T) f v w o : v = enc_value w -> to_set w = SBS o ->
  calls (RFn (uni "LowerBoundedSet" "BoundedSet") [(f, enc_lbs b); (false, v)])
    (s <- lbs_union_bs b o ;; Ret (AVal (enc_lbs s) [None; None])).
Proof. operand H; unfold calls, lbs_union_bs; run. Qed.
#[local] Hint Resolve c_lbs_union_bs : calls.
Lemma c_lbs_union_lbs (b : LowerBoundedSet T) f v w o : v = enc_value w -> to_set w = SLBS o ->
  calls (RFn (uni "LowerBoundedSet" "LowerBoundedSet") [(f, enc_lbs b); (false, v)])
    (s <- lbs_union_lbs b o ;; Ret (AVal (enc_lbs s) [None; None])).
Proof. operand H; unfold calls, lbs_union_lbs; run. Qed.
#[local] Hint Resolve c_lbs_union_lbs : calls.
Lemma c_ubs_union_bs (b : UpperBoundedSet T) f v w o : v = enc_value w -> to_set w = SBS o ->
  calls (RFn (uni "UpperBoundedSet" "BoundedSet") [(f, enc_ubs b); (false, v)])
    (s <- ubs_union_bs b o ;; Ret (AVal (enc_ubs s) [None; None])).
Proof. operand H; unfold calls, ubs_union_bs; run. Qed.
#[local] Hint Resolve c_ubs_union_bs : calls.
Lemma c_ubs_union_ubs (b : UpperBoundedSet T) f v w o : v = enc_value w -> to_set w = SUBS o ->
  calls (RFn (uni "UpperBoundedSet" "UpperBoundedSet") [(f, enc_ubs b); (false, v)])
    (s <- ubs_union_ubs b o ;; Ret (AVal (enc_ubs s) [None; None])).
Proof. operand H; unfold calls, ubs_union_ubs; run. Qed.
#[local] Hint Resolve c_ubs_union_ubs : calls.
Lemma c_us_union_bs (b : UnboundedSet T) f v w o : v = enc_value w -> to_set w = SBS o ->
  calls (RFn (uni "UnboundedSet" "BoundedSet") [(f, enc_us b); (false, v)])
    (s <- us_union_bs b o ;; Ret (AVal (enc_us s) [None; None])).
Proof. operand H; unfold calls, us_union_bs; run. Qed.
#[local] Hint Resolve c_us_union_bs : calls.
Lemma c_lbs_union_ubs (b : LowerBoundedSet T) f v w o : v = enc_value w -> to_set w = SUBS o ->
  calls (RFn (uni "LowerBoundedSet" "UpperBoundedSet") [(f, enc_lbs b); (false, v)])
    (s <- lbs_union_ubs b o ;; Ret (AVal (enc_us s) [None; None])).
Proof. operand H; unfold calls, lbs_union_ubs; run. Qed.
#[local] Hint Resolve c_lbs_union_ubs : calls.
Lemma c_ubs_union_lbs (b : UpperBoundedSet T) f v w o : v = enc_value w -> to_set w = SLBS o ->
  calls (RFn (uni "UpperBoundedSet" "LowerBoundedSet") [(f, enc_ubs b); (false, v)])
    (s <- ubs_union_lbs b o ;; Ret (AVal (enc_us s) [None; None])).
Proof. operand H; unfold calls, ubs_union_lbs; run. Qed.
#[local] Hint Resolve c_ubs_union_lbs : calls.
Lemma c_lbs_union_us (b : LowerBoundedSet T) f v w o : v = enc_value w -> to_set w = SUS o ->
  calls (RFn (uni "LowerBoundedSet" "UnboundedSet") [(f, enc_lbs b); (false, v)])
    (s <- lbs_union_us b o ;; Ret (AVal (enc_us s) [None; None])).
Proof. operand H; unfold calls, lbs_union_us; run. Qed.
#[local] Hint Resolve c_lbs_union_us : calls.
Lemma c_ubs_union_us (b : UpperBoundedSet T) f v w o : v = enc_value w -> to_set w = SUS o ->
  calls (RFn (uni "UpperBoundedSet" "UnboundedSet") [(f, enc_ubs b); (false, v)])
    (s <- ubs_union_us b o ;; Ret (AVal (enc_us s) [None; None])).
Proof. operand H; unfold calls, ubs_union_us; run. Qed.
#[local] Hint Resolve c_ubs_union_us : calls.
Lemma c_us_union_lbs (b : UnboundedSet T) f v w o : v = enc_value w -> to_set w = SLBS o ->
  calls (RFn (uni "UnboundedSet" "LowerBoundedSet") [(f, enc_us b); (false, v)])
    (s <- us_union_lbs b o ;; Ret (AVal (enc_us s) [None; None])).
Proof. operand H; unfold calls, us_union_lbs; run. Qed.
#[local] Hint Resolve c_us_union_lbs : calls.
Lemma c_us_union_ubs (b : UnboundedSet T) f v w o : v = enc_value w -> to_set w = SUBS o ->
  calls (RFn (uni "UnboundedSet" "UpperBoundedSet") [(f, enc_us b); (false, v)])
    (s <- us_union_ubs b o ;; Ret (AVal (enc_us s) [None; None])).
Proof. operand H; unfold calls, us_union_ubs; run. Qed.
#[local] Hint Resolve c_us_union_ubs : calls.
Lemma c_us_union_us (b : UnboundedSet T) f v w o : v = enc_value w -> to_set w = SUS o ->
  calls (RFn (uni "UnboundedSet" "UnboundedSet") [(f, enc_us b); (false, v)])
    (s <- us_union_us b o ;; Ret (AVal (enc_us s) [None; None])).
Proof. operand H; unfold calls, us_union_us; run. Qed.
#[local] Hint Resolve c_us_union_us : calls.
Lemma c_br_union_bs (b : BoundedRange T) f v w o : v = enc_value w -> to_set w = SBS o ->
  calls (RFn (uni "BoundedRange" "BoundedSet") [(f, enc_br b); (false, v)])
    (s <- bs_union_bs (bs_from_br b) o ;; Ret (AVal (enc_bs s) [None; None])).
Proof. operand H; unfold calls; run. Qed.
#[local] Hint Resolve c_br_union_bs : calls.
Lemma c_br_union_lbs (b : BoundedRange T) f v w o : v = enc_value w -> to_set w = SLBS o ->
  calls (RFn (uni "BoundedRange" "LowerBoundedSet") [(f, enc_br b); (false, v)])
    (s <- bs_union_lbs (bs_from_br b) o ;; Ret (AVal (enc_lbs s) [None; None])).
Proof. operand H; unfold calls; run. Qed.
#[local] Hint Resolve c_br_union_lbs : calls.
Lemma c_br_union_ubs (b : BoundedRange T) f v w o : v = enc_value w -> to_set w = SUBS o ->
  calls (RFn (uni "BoundedRange" "UpperBoundedSet") [(f, enc_br b); (false, v)])
    (s <- bs_union_ubs (bs_from_br b) o ;; Ret (AVal (enc_ubs s) [None; None])).
Proof. operand H; unfold calls; run. Qed.
#[local] Hint Resolve c_br_union_ubs : calls.
Lemma c_br_union_us (b : BoundedRange T) f v w o : v = enc_value w -> to_set w = SUS o ->
  calls (RFn (uni "BoundedRange" "UnboundedSet") [(f, enc_br b); (false, v)])
    (s <- bs_union_us (bs_from_br b) o ;; Ret (AVal (enc_us s) [None; None])).
Proof. operand H; unfold calls; run. Qed.
#[local] Hint Resolve c_br_union_us : calls.
Lemma c_lbr_union_bs (b : LowerBoundedRange T) f v w o : v = enc_value w -> to_set w = SBS o ->
  calls (RFn (uni "LowerBoundedRange" "BoundedSet") [(f, enc_lbr b); (false, v)])
    (s <- lbs_union_bs (lbs_from_lbr b) o ;; Ret (AVal (enc_lbs s) [None; None])).
Proof. operand H; unfold calls; run. Qed.
#[local] Hint Resolve c_lbr_union_bs : calls.
Lemma c_lbr_union_lbs (b : LowerBoundedRange T) f v w o : v = enc_value w -> to_set w = SLBS o ->
  calls (RFn (uni "LowerBoundedRange" "LowerBoundedSet") [(f, enc_lbr b); (false, v)])
    (s <- lbs_union_lbs (lbs_from_lbr b) o ;; Ret (AVal (enc_lbs s) [None; None])).
Proof. operand H; unfold calls; run. Qed.
#[local] Hint Resolve c_lbr_union_lbs : calls.
Lemma c_lbr_union_ubs (b : LowerBoundedRange T) f v w o : v = enc_value w -> to_set w = SUBS o ->
  calls (RFn (uni "LowerBoundedRange" "UpperBoundedSet") [(f, enc_lbr b); (false, v)])
    (s <- lbs_union_ubs (lbs_from_lbr b) o ;; Ret (AVal (enc_us s) [None; None])).
Proof. operand H; unfold calls; run. Qed.
#[local] Hint Resolve c_lbr_union_ubs : calls.
Lemma c_lbr_union_us (b : LowerBoundedRange T) f v w o : v = enc_value w -> to_set w = SUS o ->
  calls (RFn (uni "LowerBoundedRange" "UnboundedSet") [(f, enc_lbr b); (false, v)])
    (s <- lbs_union_us (lbs_from_lbr b) o ;; Ret (AVal (enc_us s) [None; None])).
Proof. operand H; unfold calls; run. Qed.
#[local] Hint Resolve c_lbr_union_us : calls.
Lemma c_ubr_union_bs (b : UpperBoundedRange T) f v w o : v = enc_value w -> to_set w = SBS o ->
  calls (RFn (uni "UpperBoundedRange" "BoundedSet") [(f, enc_ubr b); (false, v)])
    (s <- ubs_union_bs (ubs_from_ubr b) o ;; Ret (AVal (enc_ubs s) [None; None])).
Proof. operand H; unfold calls; run. Qed.
#[local] Hint Resolve c_ubr_union_bs : calls.
Lemma c_ubr_union_lbs (b : UpperBoundedRange T) f v w o : v = enc_value w -> to_set w = SLBS o ->
  calls (RFn (uni "UpperBoundedRange" "LowerBoundedSet") [(f, enc_ubr b); (false, v)])
    (s <- ubs_union_lbs (ubs_from_ubr b) o ;; Ret (AVal (enc_us s) [None; None])).
Proof. operand H; unfold calls; run. Qed.
#[local] Hint Resolve c_ubr_union_lbs : calls.
Lemma c_ubr_union_ubs (b : UpperBoundedRange T) f v w o : v = enc_value w -> to_set w = SUBS o ->
  calls (RFn (uni "UpperBoundedRange" "UpperBoundedSet") [(f, enc_ubr b); (false, v)])
    (s <- ubs_union_ubs (ubs_from_ubr b) o ;; Ret (AVal (enc_ubs s) [None; None])).
Proof. operand H; unfold calls; run. Qed.
#[local] Hint Resolve c_ubr_union_ubs : calls.
Lemma c_ubr_union_us (b : UpperBoundedRange T) f v w o : v = enc_value w -> to_set w = SUS o ->
  calls (RFn (uni "UpperBoundedRange" "UnboundedSet") [(f, enc_ubr b); (false, v)])
    (s <- ubs_union_us (ubs_from_ubr b) o ;; Ret (AVal (enc_us s) [None; None])).
Proof. operand H; unfold calls; run. Qed.
#[local] Hint Resolve c_ubr_union_us : calls.
(** [UnboundedRange] and [EmptyRange] with anything. *)
Lemma c_unbr_union (b : UnboundedRange) f v :
  calls (RFn (uni0 "UnboundedRange") [(f, enc_unbr b); (false, v)]) (Ret (AVal (enc_unbr b) [None; None])).
Proof. unfold calls; run. Qed.
Lemma c_empty_union (b : EmptyRange) f v w : v = enc_value w ->
  calls (RFn (uni0 "EmptyRange") [(f, enc_empty b); (false, v)]) (Ret (AVal v [None; None])).
Proof. intros ->. destruct w; unfold calls; run. Qed.
Lemma c_unbr_inter (b : UnboundedRange) f v w : v = enc_value w ->
  calls (RFn (inter0 "UnboundedRange") [(f, enc_unbr b); (false, v)]) (Ret (AVal (enc_inner (to_inner w)) [None; None])).
Proof. intros ->. destruct w; unfold calls; run. Qed.
Lemma c_empty_inter (b : EmptyRange) f v :
  calls (RFn (inter0 "EmptyRange") [(f, enc_empty b); (false, v)]) (Ret (AVal (enc_empty b) [None; None])).
Proof. unfold calls; run. Qed.
#[local] Hint Resolve c_unbr_union c_empty_union c_unbr_inter c_empty_inter : calls.
(** [UnboundedSet] with [UnboundedSet]. *)
Lemma c_us_inter_us (b : UnboundedSet T) f v w o : v = enc_value w -> to_inner w = IUS o ->
  calls (RFn (inter "UnboundedSet" "UnboundedSet") [(f, enc_us b); (false, v)])
    (s <- us_inter_us b o ;; Ret (AVal (enc_us s) [None; None])).
Proof. operand H; match goal with |- context [us_inter_us _ ?o] => unfold calls, us_inter_us; destruct b, o; run end. Qed.
#[local] Hint Resolve c_us_inter_us : calls.
(** Complements. *)
Lemma c_lbr_complement (b : LowerBoundedRange T) f :
  calls (RFn (compl "LowerBoundedRange" "UpperBoundedRange") [(f, enc_lbr b)]) (Ret (AVal (enc_ubr (lbr_complement b)) [None])).
Proof. unfold calls; run. Qed.
Lemma c_ubr_complement (b : UpperBoundedRange T) f :
  calls (RFn (compl "UpperBoundedRange" "LowerBoundedRange") [(f, enc_ubr b)]) (Ret (AVal (enc_lbr (ubr_complement b)) [None])).
Proof. unfold calls; run. Qed.
#[local] Hint Resolve c_lbr_complement c_ubr_complement : calls.
Lemma c_rt_union_ubr_lbr (b : UpperBoundedRange T) (o : LowerBoundedRange T) f :
  calls (RFn (KDefault "Rangetools" "union") [(f, enc_ubr b); (false, enc_lbr o)])
    (s <- ubs_union_lbs (ubs_from_ubr b) (lbs_from_lbr o) ;; Ret (AVal (enc_us s) [None; None])).
Proof. unfold calls; run. Qed.
#[local] Hint Resolve c_rt_union_ubr_lbr : calls.
Lemma c_br_complement (b : BoundedRange T) f :
  calls (RFn (compl "BoundedRange" "UnboundedSet") [(f, enc_br b)]) (s <- br_complement b ;; Ret (AVal (enc_us s) [None])).
Proof. unfold calls, br_complement; run. Qed.
#[local] Hint Resolve c_br_complement : calls.
Lemma c_bs_complement (b : BoundedSet T) f :
  calls (RFn (compl "BoundedSet" "UnboundedSet") [(f, enc_bs b)]) (s <- bs_complement b ;; Ret (AVal (enc_us s) [None])).
Proof. unfold calls, bs_complement; run. by_fold (@enc_br T) (@enc_us T). Qed.
Lemma c_lbs_complement (b : LowerBoundedSet T) f :
  calls (RFn (compl "LowerBoundedSet" "UpperBoundedSet") [(f, enc_lbs b)]) (s <- lbs_complement b ;; Ret (AVal (enc_ubs s) [None])).
Proof. unfold calls, lbs_complement; run. by_fold (@enc_br T) (@enc_ubs T). Qed.
Lemma c_ubs_complement (b : UpperBoundedSet T) f :
  calls (RFn (compl "UpperBoundedSet" "LowerBoundedSet") [(f, enc_ubs b)]) (s <- ubs_complement b ;; Ret (AVal (enc_lbs s) [None])).
Proof. unfold calls, ubs_complement; run. by_fold (@enc_br T) (@enc_lbs T). Qed.
Lemma c_us_complement (b : UnboundedSet T) f :
  calls (RFn (compl "UnboundedSet" "BoundedSet") [(f, enc_us b)]) (s <- us_complement b ;; Ret (AVal (enc_bs s) [None])).
Proof. unfold calls, us_complement; destruct b; run. by_fold (@enc_br T) (@enc_bs T). Qed.
Lemma c_unbr_complement (b : UnboundedRange) f :
  calls (RFn (compl "UnboundedRange" "EmptyRange") [(f, enc_unbr b)]) (Ret (AVal (enc_empty mkEmptyRange) [None])).
Proof. unfold calls; run. Qed.
Lemma c_empty_complement (b : EmptyRange) f :
  calls (RFn (compl "EmptyRange" "UnboundedRange") [(f, enc_empty b)]) (Ret (AVal (enc_unbr mkUnboundedRange) [None])).
Proof. unfold calls; run. Qed.
End Union.
#[export] Hint Resolve c_bs_union_bs c_bs_union_lbs c_bs_union_ubs c_bs_union_us c_lbs_union_bs c_lbs_union_lbs
  c_ubs_union_bs c_ubs_union_ubs c_us_union_bs c_lbs_union_ubs c_ubs_union_lbs c_lbs_union_us
  c_ubs_union_us c_us_union_lbs c_us_union_ubs c_us_union_us c_br_union_bs c_br_union_lbs
  c_br_union_ubs c_br_union_us c_lbr_union_bs c_lbr_union_lbs c_lbr_union_ubs c_lbr_union_us
  c_ubr_union_bs c_ubr_union_lbs c_ubr_union_ubs c_ubr_union_us c_unbr_union c_empty_union
  c_unbr_inter c_empty_inter c_us_inter_us c_rt_union_ubr_lbr c_br_complement c_lbr_complement
  c_ubr_complement c_unbr_complement c_empty_complement c_bs_complement c_lbs_complement c_ubs_complement
  c_us_complement : calls.
