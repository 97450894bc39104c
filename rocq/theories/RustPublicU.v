(** The source of the public operations of src/lib.rs, union and complement on any values, run by RustEval.v, gives what
    the model functions give. *)
From Coq Require Import String.
From Verif Require Import Base ModelBound ModelRanges ModelSets ModelAlgebra ModelValue ModelStep ModelIter
  RustSyntax Source RustEval RustEnc RustTac RustRange RustSet RustUnb RustInter RustUnion RustStd RustPublic.
Open Scope Z_scope.
Open Scope string_scope.
Open Scope list_scope.

Section Public.
Context {T : Type} {PF : Platform} {OT : Ord T} {ST : Step T} (dflt : option T) (m : mode).
Notation calls := (calls dflt m).
Implicit Types (w : value T).

Lemma c_pub_union v w f :
  calls (RFn (KDefault "Rangetools" "union") [(f, enc_value v); (false, enc_value w)])
    (x <- union v w ;; Ret (AVal (enc_value x) [None; None])).
Proof. destruct v, w; unfold calls; model; run. Qed.
Lemma c_pub_complement v f :
  calls (RFn (KDefault "Rangetools" "complement") [(f, enc_value v)])
    (x <- complement v ;; Ret (AVal (enc_value x) [None])).
Proof. destruct v; unfold calls; model; run. Qed.
End Public.
