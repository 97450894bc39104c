(** The source of the public operations of src/lib.rs, on any two values, run by RustEval.v, gives what
    the model functions give. *)
From Coq Require Import String.
From Verif Require Import Base ModelBound ModelRanges ModelSets ModelAlgebra ModelValue ModelStep ModelIter
  RustSyntax Source RustEval RustEnc RustTac RustRange RustSet RustUnb RustInter RustUnion RustStd.
Open Scope Z_scope.
Open Scope string_scope.
Open Scope list_scope.

(** The model's function on known operands. *)
Ltac model :=
  cbn [to_inner to_set
       intersection range_intersection range_inclusive_intersection range_from_intersection range_to_intersection
       range_to_inclusive_intersection range_full_intersection br_intersection lbr_intersection ubr_intersection
       bs_intersection lbs_intersection ubs_intersection us_intersection unbr_intersection empty_intersection
       union range_union range_inclusive_union range_from_union range_to_union
       range_to_inclusive_union range_full_union br_union lbr_union ubr_union
       bs_union lbs_union ubs_union us_union unbr_union empty_union complement value_of_inner value_of_set
       is_empty];
  unfold ret_bs, ret_lbs, ret_ubs, ret_us.

Section Public.
Context {T : Type} {PF : Platform} {OT : Ord T} {ST : Step T} (dflt : option T) (m : mode).
Notation calls := (calls dflt m).
Implicit Types (w : value T).

Lemma c_pub_intersection v w f :
  calls (RFn (KDefault "Rangetools" "intersection") [(f, enc_value v); (false, enc_value w)])
    (x <- intersection v w ;; Ret (AVal (enc_value x) [None; None])).
Proof. destruct v, w; unfold calls; model; run. Qed.
End Public.
