(** Specification vocabulary for stepping and iteration. *)
From Coq Require Import Sorted.
From Verif Require Import Base ModelBound ModelRanges ModelSets ModelValue ModelStep Spec.
Open Scope Z_scope.

Section SpecStep.
Context {T : Type} {OT : Ord T}.

(** [l] lists exactly the elements satisfying [P], in strictly ascending order. *)
Definition lists (P : T -> Prop) (l : list T) : Prop :=
  StronglySorted lt l /\ forall t, In t l <-> P t.

(** [b] is [n] successor steps above [a]: exactly [n] elements [t] have [a <= t < b]. *)
Definition apart (a b : T) (n : Z) : Prop :=
  le a b /\ exists l, lists (fun t => le a t /\ lt t b) l /\ Z.of_nat (length l) = n.

(** Extremes of the element type. *)
Definition greatest (t : T) : Prop := forall u, le u t.
Definition least (t : T) : Prop := forall u, le t u.
End SpecStep.

(** The contract of [Step] (its documentation, src/step.rs:6-49): the elements
    in order are numbered by consecutive integers, the checked methods move
    along that numbering and return [None] when it ends, [steps_between] is the
    difference when it fits [usize].  For [forward] and [backward] past the end
    the documentation allows a panic, a wrap or saturation and suggests a panic
    in builds with debug assertions; the suggestion is what is required here. *)
Class Numbered (T : Type) : Type := { idx : T -> Z }.
Class StepLaws (T : Type) {PF : Platform} {OT : Ord T} {ST : Step T} {NU : Numbered T} : Prop := {
  idx_cmp : forall a b : T, cmp a b = Z.compare (idx a) (idx b);
  idx_teq : forall a b : T, teq a b = Z.eqb (idx a) (idx b);
  idx_inj : forall a b : T, idx a = idx b -> a = b;
  idx_convex : forall (a b : T) z, idx a <= z <= idx b -> exists t : T, idx t = z;
  forward_checked_spec : forall (a : T) n, 0 <= n <= usize_max ->
    match forward_checked a n with
    | Some b => idx b = idx a + n
    | None => forall b : T, idx b <> idx a + n
    end;
  backward_checked_spec : forall (a : T) n, 0 <= n <= usize_max ->
    match backward_checked a n with
    | Some b => idx b = idx a - n
    | None => forall b : T, idx b <> idx a - n
    end;
  steps_between_spec : forall a b : T,
    steps_between a b =
    if (idx a <=? idx b) && (idx b - idx a <=? usize_max) then Some (idx b - idx a) else None;
  forward_debug : forall (a : T) n, 0 <= n <= usize_max ->
    forward Debug a n = match forward_checked a n with Some b => Ret b | None => Panic end;
  backward_debug : forall (a : T) n, 0 <= n <= usize_max ->
    backward Debug a n = match backward_checked a n with Some b => Ret b | None => Panic end;
  forward_release : forall (a b : T) n, 0 <= n <= usize_max ->
    forward_checked a n = Some b -> forward Release a n = Ret b;
  backward_release : forall (a b : T) n, 0 <= n <= usize_max ->
    backward_checked a n = Some b -> backward Release a n = Ret b
}.
