(** The contract of the [Step] trait as documented (src/step.rs:10-50), without
    the suggestion on overflow: where the checked methods return [None],
    [forward] and [backward] may panic, wrap, saturate, or return anything else. *)
From Verif Require Import Base ModelBound ModelStep Spec SpecStep.
Open Scope Z_scope.

Class StepContract (T : Type) {PF : Platform} {OT : Ord T} {ST : Step T} {NU : Numbered T} : Prop := {
  sc_cmp : forall a b : T, cmp a b = Z.compare (idx a) (idx b);
  sc_teq : forall a b : T, teq a b = Z.eqb (idx a) (idx b);
  sc_inj : forall a b : T, idx a = idx b -> a = b;
  sc_convex : forall (a b : T) z, idx a <= z <= idx b -> exists t : T, idx t = z;
  sc_forward_checked : forall (a : T) n, 0 <= n <= usize_max ->
    match forward_checked a n with
    | Some b => idx b = idx a + n
    | None => forall b : T, idx b <> idx a + n
    end;
  sc_backward_checked : forall (a : T) n, 0 <= n <= usize_max ->
    match backward_checked a n with
    | Some b => idx b = idx a - n
    | None => forall b : T, idx b <> idx a - n
    end;
  sc_steps_between : forall a b : T,
    steps_between a b =
    if (idx a <=? idx b) && (idx b - idx a <=? usize_max) then Some (idx b - idx a) else None;
  sc_forward : forall m (a b : T) n, 0 <= n <= usize_max -> forward_checked a n = Some b -> forward m a n = Ret b;
  sc_backward : forall m (a b : T) n, 0 <= n <= usize_max -> backward_checked a n = Some b -> backward m a n = Ret b
}.
