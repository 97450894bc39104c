(** Programs that use the crate: a method call of Rust text, run by RustEval.v on
    the translated source, gives what the model functions give. *)
From Coq Require Import String.
From Verif Require Import Base ModelBound ModelRanges ModelSets ModelAlgebra ModelValue ModelStep ModelIter
  RustSyntax Source RustEval RustEnc RustTac.
Open Scope Z_scope.
Open Scope string_scope.
Open Scope list_scope.

Section Says.
Context {T : Type} {PF : Platform} {OT : Ord T} {ST : Step T} (dflt : option T) (m : mode).
Implicit Types (v w : value T).

(** The expression [x], where [e] has the variables and the traits [sc] are in
    scope, ends with the value or the panic [o]. *)
Definition says (sc : list string) (x : RustSyntax.expr) (e : env T) (o : outcome (val T)) : Prop :=
  runs dflt m (RustEval.eval dflt m sc x e (fun r _ => match r with N v => Done (AVal v []) | _ => Stuck end))
    (v <- o ;; Ret (AVal v [])).
Definition says_ (sc : list string) (x : RustSyntax.expr) (e : env T) (o : outcome (val T)) : Prop :=
  ends dflt m (RustEval.eval dflt m sc x e (fun r _ => match r with N v => Done (AVal v []) | _ => Stuck end))
    (v <- o ;; Ret (AVal v [])).
Lemma says_of sc x e o : o <> Diverge -> says_ sc x e o -> says sc x e o.
Proof. unfold says_, says, ends. destruct o; auto. congruence. Qed.

End Says.
