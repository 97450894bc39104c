(** The source of [disjoint], [intersects] and [is_empty], on any two values, run by RustEval.v, gives what
    the model functions give. *)
From Coq Require Import String.
From Verif Require Import Base ModelBound ModelRanges ModelSets ModelAlgebra ModelValue ModelStep ModelIter
  RustSyntax Source RustEval RustEnc RustTac RustRange RustSet RustUnb RustInter RustUnion RustStd RustPublic.
Open Scope Z_scope.
Open Scope string_scope.
Open Scope list_scope.

Section Public.
Context {T : Type} {PF : Platform} {OT : Ord T} {ST : Step T} (dflt : option T) (m : mode).
Notation calls := (calls dflt m).
Implicit Types (w : value T).

Lemma c_pub_is_empty v f :
  forall k, k = match v with
                | VRange _ => rt "Range" "is_empty" | VRangeInclusive _ => rt "RangeInclusive" "is_empty"
                | VRangeFrom _ => rt "RangeFrom" "is_empty" | VRangeTo _ => rt "RangeTo" "is_empty"
                | VRangeToInclusive _ => rt "RangeToInclusive" "is_empty" | VRangeFull _ => rt "RangeFull" "is_empty"
                | VBR _ => rt "BoundedRange" "is_empty" | VLBR _ => rt "LowerBoundedRange" "is_empty"
                | VUBR _ => rt "UpperBoundedRange" "is_empty" | VUnbR _ => rt "UnboundedRange" "is_empty"
                | VEmpty _ => rt "EmptyRange" "is_empty" | VBS _ => rt "BoundedSet" "is_empty"
                | VLBS _ => rt "LowerBoundedSet" "is_empty" | VUBS _ => rt "UpperBoundedSet" "is_empty"
                | VUS _ => rt "UnboundedSet" "is_empty"
                end ->
  calls (RFn k [(f, enc_value v)]) (Ret (AVal (DBool (is_empty v)) [None])).
Proof. intros k ->. destruct v; cbn [enc_value is_empty]; auto with calls nocore. Qed.

(** The value of an operation, known to its type. *)
Ltac settle :=
  model; unfold unbr_intersection, empty_intersection; model; cbn [bind];
  lazymatch goal with
  | |- match bind (bind ?m _) _ with _ => _ end => destruct m; cbn [bind]; try fin
  | _ => idtac
  end; cbv beta iota.
Ltac by_pub L :=
  node; eapply ends_call; [eapply L; [solve [eauto with calls nocore] .. ] | settle; run].
Lemma c_pub_intersection_at v w f x y : x = enc_value v -> y = enc_value w ->
  calls (RFn (KDefault "Rangetools" "intersection") [(f, x); (false, y)])
    (x <- intersection v w ;; Ret (AVal (enc_value x) [None; None])).
Proof. intros -> ->. apply c_pub_intersection. Qed.
Lemma c_pub_disjoint v w f :
  calls (RFn (KDefault "Rangetools" "disjoint") [(f, enc_value v); (false, enc_value w)])
    (x <- disjoint v w ;; Ret (AVal (DBool x) [None; None])).
Proof. unfold calls, disjoint. destruct v, w; unit_values; by_pub c_pub_intersection_at. Qed.
Lemma c_pub_disjoint_at v w f x y : x = enc_value v -> y = enc_value w ->
  calls (RFn (KDefault "Rangetools" "disjoint") [(f, x); (false, y)])
    (x <- disjoint v w ;; Ret (AVal (DBool x) [None; None])).
Proof. intros -> ->. apply c_pub_disjoint. Qed.
#[local] Hint Resolve c_pub_disjoint_at : calls.
Lemma c_pub_intersects v w f :
  calls (RFn (KDefault "Rangetools" "intersects") [(f, enc_value v); (false, enc_value w)])
    (x <- intersects v w ;; Ret (AVal (DBool x) [None; None])).
Proof.
  unfold calls, intersects. destruct v, w; unit_values; node;
    (eapply ends_call; [eapply c_pub_disjoint_at; [solve [eauto with calls nocore] .. ] | after_call; run]).
Qed.
End Public.
