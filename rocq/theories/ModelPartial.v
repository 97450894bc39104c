(** Model of the comparison of bounds over element types that are only
    [PartialOrd] (src/bound.rs:72-94, 173-195), such as floats, and of the derived
    comparisons of [EmptyRange] and [UnboundedRange]. *)
From Verif Require Import Base ModelBound ModelRanges.

(** [T: PartialOrd]: [==] and [partial_cmp]. *)
Class POrd (T : Type) : Type := {
  p_eq : T -> T -> bool;
  p_cmp : T -> T -> option comparison
}.

Section Partial.
Context {T : Type} {PT : POrd T}.

(** src/bound.rs:9, 62, 163 [derive(PartialEq)]. *)
Definition p_bound_eq (x y : Bound T) : bool :=
  match x, y with
  | Excluded a, Excluded b => p_eq a b
  | Included a, Included b => p_eq a b
  | _, _ => false
  end.
Definition p_lb_eq (x y : LowerBound T) : bool := p_bound_eq (lb_bound x) (lb_bound y).
Definition p_ub_eq (x y : UpperBound T) : bool := p_bound_eq (ub_bound x) (ub_bound y).

(** src/bound.rs:73-93. *)
Definition p_lb_cmp (x y : LowerBound T) : option comparison :=
  match lb_bound x, lb_bound y with
  | Included a, Included b => p_cmp a b
  | Excluded a, Excluded b => p_cmp a b
  | Included a, Excluded b => if p_eq a b then Some Lt else p_cmp a b
  | Excluded a, Included b => if p_eq a b then Some Gt else p_cmp a b
  end.
(** src/bound.rs:174-194. *)
Definition p_ub_cmp (x y : UpperBound T) : option comparison :=
  match ub_bound x, ub_bound y with
  | Included a, Included b => p_cmp a b
  | Excluded a, Excluded b => p_cmp a b
  | Included a, Excluded b => if p_eq a b then Some Gt else p_cmp a b
  | Excluded a, Included b => if p_eq a b then Some Lt else p_cmp a b
  end.
End Partial.

(** The comparisons as [PartialOrd] instances of the bound types. *)
#[global] Instance POrdLower {T : Type} {PT : POrd T} : POrd (LowerBound T) := { p_eq := p_lb_eq; p_cmp := p_lb_cmp }.
#[global] Instance POrdUpper {T : Type} {PT : POrd T} : POrd (UpperBound T) := { p_eq := p_ub_eq; p_cmp := p_ub_cmp }.

(** A [T: Ord] is [PartialOrd] ([partial_cmp] is [Some(cmp)]). *)
Definition POrdOfOrd {T : Type} (OT : Ord T) : POrd T := {| p_eq := teq; p_cmp := t_partial_cmp |}.

(** src/empty_range.rs:16, src/unbounded_range.rs:16 [derive(PartialEq, Eq, PartialOrd, Ord)]
    on structs without fields ([EmptyRange] has a [PhantomData], which compares equal). *)
#[global] Instance OrdEmptyRange : Ord EmptyRange := { cmp := fun _ _ => Eq; teq := fun _ _ => true }.
#[global] Instance OrdUnboundedRange : Ord UnboundedRange := { cmp := fun _ _ => Eq; teq := fun _ _ => true }.
(** src/empty_range.rs:16, 62-66, src/unbounded_range.rs:16, 42-44: [new] and the derived [default]. *)
Definition er_new : EmptyRange := mkEmptyRange.
Definition er_default : EmptyRange := mkEmptyRange.
Definition unbr_new : UnboundedRange := mkUnboundedRange.
Definition unbr_default : UnboundedRange := mkUnboundedRange.
