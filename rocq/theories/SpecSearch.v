(** Specification vocabulary for searching. *)
From Verif Require Import Base ModelBound ModelRanges ModelSets ModelValue ModelStep Spec SpecStep SpecIter.
Open Scope Z_scope.

Section SpecSearch.
Context {T : Type} {PF : Platform} {OT : Ord T}.

(** Going through a list with a closure that may stop. *)
Fixpoint walk {A B R : Type} (f : B -> A -> outcome (B + R)) (b : B) (l : list A) : outcome (B + R) :=
  match l with
  | [] => Ret (inl b)
  | a :: l' =>
    x <- f b a ;;
    match x with inl b' => walk f b' l' | inr r => Ret (inr r) end
  end.

(** [e] is the first (last) of the elements of [P] that satisfy [p]. *)
Definition first_such (P : T -> Prop) (p : T -> bool) (e : T) : Prop :=
  P e /\ p e = true /\ forall u, P u -> lt u e -> p u = false.
Definition last_such (P : T -> Prop) (p : T -> bool) (e : T) : Prop :=
  P e /\ p e = true /\ forall u, P u -> lt e u -> p u = false.

(** No piece has more than [usize::MAX] elements. *)
Definition sized (v : value T) : Prop :=
  match v with
  | VBS s => forall r, In r (bs_ranges s) -> small (in_range r)
  | VLBS s => forall r, In r (bs_ranges (lbs_ranges s)) -> small (in_range r)
  | _ => True
  end.

(** [a] in [P] and [b] in [Q] come after the same elements. *)
Definition abreast (P Q : T -> Prop) (a b : T) : Prop :=
  P a /\ Q b /\ forall t, P t /\ lt t a <-> Q t /\ lt t b.
(** [P] is all that comes before [b] in [Q]. *)
Definition ended (P Q : T -> Prop) (b : T) : Prop :=
  Q b /\ forall t, P t <-> Q t /\ lt t b.
End SpecSearch.
