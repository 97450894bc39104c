(** Programs that use the crate: a method call of Rust text, run by RustEval.v on
    the translated source, gives what the model functions give. *)
From Coq Require Import String.
From Verif Require Import Base ModelBound ModelRanges ModelSets ModelAlgebra ModelValue ModelStep ModelIter
  RustSyntax Source RustEval RustEnc RustTac RustSays RustRange RustSet RustUnb RustInter RustUnion RustStd RustPublic RustPublicU.
Open Scope Z_scope.
Open Scope string_scope.
Open Scope list_scope.

Section Client.
Context {T : Type} {PF : Platform} {OT : Ord T} {ST : Step T} (dflt : option T) (m : mode).
Implicit Types (v w : value T).
Notation says_ := (says_ dflt m).

Lemma c_pub_union_at v w f x y : x = enc_value v -> y = enc_value w ->
  calls dflt m (RFn (KDefault "Rangetools" "union") [(f, x); (false, y)])
    (x <- union v w ;; Ret (AVal (enc_value x) [None; None])).
Proof. intros -> ->. apply c_pub_union. Qed.
Lemma c_pub_complement_at v f x : x = enc_value v ->
  calls dflt m (RFn (KDefault "Rangetools" "complement") [(f, x)])
    (x <- complement v ;; Ret (AVal (enc_value x) [None])).
Proof. intros ->. apply c_pub_complement. Qed.

Ltac by_op L := unfold says_; node; eapply ends_call; [eapply L; [solve [eauto with calls nocore] .. ] | after_call; run].
Lemma s_union v w :
  says_ ["Rangetools"] (EMethod (EVar "a") "union" [EVar "b"]) [("a", enc_value v); ("b", enc_value w)]
    (x <- union v w ;; Ret (enc_value x)).
Proof. destruct v, w; unit_values; by_op c_pub_union_at. Qed.
Lemma s_complement v :
  says_ ["Rangetools"] (EMethod (EVar "a") "complement" []) [("a", enc_value v)]
    (x <- complement v ;; Ret (enc_value x)).
Proof. destruct v; unit_values; by_op c_pub_complement_at. Qed.
Lemma s_to_inner v :
  says_ ["Rangetools"] (EMethod (EVar "a") "to_inner" []) [("a", enc_value v)] (Ret (enc_inner (to_inner v))).
Proof. unfold says_; destruct v; run. Qed.
Lemma s_to_set v :
  says_ ["Rangetools"] (EMethod (EVar "a") "to_set" []) [("a", enc_value v)] (Ret (enc_setv (to_set v))).
Proof. unfold says_; destruct v; run. Qed.
(** [Rangetools::is_empty(&a)]: [a.is_empty()] on std's ranges is std's own. *)
Lemma s_is_empty v :
  says_ ["Rangetools"] (ECall "Rangetools" "is_empty" [ERef (EVar "a")]) [("a", enc_value v)] (Ret (DBool (is_empty v))).
Proof. unfold says_; destruct v; run. Qed.
(** [a.contains(t)]; std's own on std's ranges. *)
Lemma s_contains v (t : T) :
  match v with VRange _ | VRangeInclusive _ | VRangeFrom _ | VRangeTo _ | VRangeToInclusive _ | VRangeFull _ => False | _ => True end ->
  says_ ["Rangetools"] (EMethod (EVar "a") "contains" [EVar "t"]) [("a", enc_value v); ("t", DElt t)] (Ret (DBool (contains v t))).
Proof. intros H; unfold says_; destruct v; try destruct H; run. Qed.
End Client.
