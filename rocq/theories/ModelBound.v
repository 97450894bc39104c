(** Model of src/bound.rs. *)
From Verif Require Import Base.

(** src/bound.rs:11-16 [enum Bound]. *)
Inductive Bound (T : Type) : Type :=
| Excluded (t : T)
| Included (t : T).
Arguments Excluded {T} t.
Arguments Included {T} t.

(** src/bound.rs:29-37 [Bound::map]. *)
Definition bound_map {T U : Type} (f : T -> U) (b : Bound T) : Bound U :=
  match b with
  | Excluded t => Excluded (f t)
  | Included t => Included (f t)
  end.

(** src/bound.rs:51-56 [Bound::flipped]. *)
Definition flipped {T : Type} (b : Bound T) : Bound T :=
  match b with
  | Excluded t => Included t
  | Included t => Excluded t
  end.

(** src/bound.rs:64 [struct LowerBound(Bound)]; the constructor is also
    [From<Bound>] (66-70). *)
Record LowerBound (T : Type) : Type := LB { lb_bound : Bound T }.
Arguments LB {T} lb_bound.
Arguments lb_bound {T} l.

(** src/bound.rs:165 [struct UpperBound(Bound)]; [From<Bound>] (167-171). *)
Record UpperBound (T : Type) : Type := UB { ub_bound : Bound T }.
Arguments UB {T} ub_bound.
Arguments ub_bound {T} u.

(** src/bound.rs:113-115, 127-129. *)
Definition lb_excluded {T : Type} (t : T) : LowerBound T := LB (Excluded t).
Definition lb_included {T : Type} (t : T) : LowerBound T := LB (Included t).
(** src/bound.rs:214-216, 228-230. *)
Definition ub_excluded {T : Type} (t : T) : UpperBound T := UB (Excluded t).
Definition ub_included {T : Type} (t : T) : UpperBound T := UB (Included t).

(** src/bound.rs:135-140, 236-241 [to_bound]. *)
Definition lb_to_bound {T : Type} (l : LowerBound T) : Bound T := lb_bound l.
Definition ub_to_bound {T : Type} (u : UpperBound T) : Bound T := ub_bound u.

(** src/bound.rs:152-157, 253-258 [map]. *)
Definition lb_map {T U : Type} (f : T -> U) (l : LowerBound T) : LowerBound U :=
  LB (bound_map f (lb_bound l)).
Definition ub_map {T U : Type} (f : T -> U) (u : UpperBound T) : UpperBound U :=
  UB (bound_map f (ub_bound u)).

Section Compare.
Context {T : Type} {OT : Ord T}.

(** src/bound.rs:73-93 [PartialOrd for LowerBound]. *)
Definition lb_partial_cmp (x y : LowerBound T) : option comparison :=
  match lb_bound x, lb_bound y with
  | Included a, Included b => t_partial_cmp a b
  | Excluded a, Excluded b => t_partial_cmp a b
  | Included a, Excluded b => if teq a b then Some Lt else t_partial_cmp a b
  | Excluded a, Included b => if teq a b then Some Gt else t_partial_cmp a b
  end.

(** src/bound.rs:174-194 [PartialOrd for UpperBound]. *)
Definition ub_partial_cmp (x y : UpperBound T) : option comparison :=
  match ub_bound x, ub_bound y with
  | Included a, Included b => t_partial_cmp a b
  | Excluded a, Excluded b => t_partial_cmp a b
  | Included a, Excluded b => if teq a b then Some Gt else t_partial_cmp a b
  | Excluded a, Included b => if teq a b then Some Lt else t_partial_cmp a b
  end.

(** src/bound.rs:97-99, 198-200 [Ord::cmp] is [partial_cmp(..).unwrap()].
    Simplification: written as a total function; the [None] branch stands for
    the panic of [unwrap] and is unreachable, because [t_partial_cmp] is never
    [None] for [T: Ord] (lemmas [lb_partial_cmp_some], [ub_partial_cmp_some]). *)
Definition lb_cmp (x y : LowerBound T) : comparison :=
  match lb_partial_cmp x y with Some c => c | None => Eq end.
Definition ub_cmp (x y : UpperBound T) : comparison :=
  match ub_partial_cmp x y with Some c => c | None => Eq end.

(** [range.start > r.start]: the [>] operator of [PartialOrd] (std). *)
Definition lb_gt (x y : LowerBound T) : bool :=
  match lb_partial_cmp x y with Some Gt => true | _ => false end.

(** [Ord::max] / [Ord::min] (std): [max] returns the second argument on ties,
    [min] the first. *)
Definition lb_max (x y : LowerBound T) : LowerBound T :=
  match lb_cmp x y with Gt => x | _ => y end.
Definition lb_min (x y : LowerBound T) : LowerBound T :=
  match lb_cmp x y with Gt => y | _ => x end.
Definition ub_max (x y : UpperBound T) : UpperBound T :=
  match ub_cmp x y with Gt => x | _ => y end.
Definition ub_min (x y : UpperBound T) : UpperBound T :=
  match ub_cmp x y with Gt => y | _ => x end.

End Compare.
