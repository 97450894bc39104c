(** Programs that use the crate: a method call of Rust text, run by RustEval.v on
    the translated source, gives what the model functions give. *)
From Coq Require Import String.
From Verif Require Import Base ModelBound ModelRanges ModelSets ModelAlgebra ModelValue ModelStep ModelIter
  RustSyntax Source RustEval RustEnc RustTac RustSays RustRange RustSet RustUnb RustInter RustUnion RustStd RustPublic RustPublic2.
Open Scope Z_scope.
Open Scope string_scope.
Open Scope list_scope.

Section Client.
Context {T : Type} {PF : Platform} {OT : Ord T} {ST : Step T} (dflt : option T) (m : mode).
Implicit Types (v w : value T).
Notation says_ := (says_ dflt m).

Lemma c_pub_intersects_at v w f x y : x = enc_value v -> y = enc_value w ->
  calls dflt m (RFn (KDefault "Rangetools" "intersects") [(f, x); (false, y)])
    (x <- intersects v w ;; Ret (AVal (DBool x) [None; None])).
Proof. intros -> ->. apply c_pub_intersects. Qed.

Ltac by_op L := unfold says_; node; eapply ends_call; [eapply L; [solve [eauto with calls nocore] .. ] | after_call; run].
Lemma s_intersects v w :
  says_ ["Rangetools"] (EMethod (EVar "a") "intersects" [EVar "b"]) [("a", enc_value v); ("b", enc_value w)]
    (x <- intersects v w ;; Ret (DBool x)).
Proof. destruct v, w; unit_values; by_op c_pub_intersects_at. Qed.
End Client.
