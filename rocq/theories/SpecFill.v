(** An order filled in: between any two elements, and beyond all of them, there
    are points.  The element [t] is the point [(t, 0)]; the points [(t, q)] lie
    just after ([q > 0]) or just before ([q < 0]) it. *)
From Coq Require Import QArith.
From Verif Require Import Base ModelBound ModelRanges ModelSets ModelValue Spec SpecMap.

Definition filled (T : Type) : Type := (T * Q)%type.
#[global] Instance OrdFilled (T : Type) {OT : Ord T} : Ord (filled T) := {
  cmp a b := match cmp (fst a) (fst b) with Eq => Qcompare (snd a) (snd b) | c => c end;
  teq a b := teq (fst a) (fst b) && Qeq_bool (snd a) (snd b)
}.
Definition point {T : Type} (t : T) : filled T := (t, 0%Q).

(** The points covered by a value. *)
Definition covers {T : Type} {OT : Ord T} (v : value T) (p : filled T) : Prop := mem (map_value point v) p.
(** The points a program stands for. *)
Definition denotes {T : Type} {OT : Ord T} (e : expr T) (p : filled T) : Prop := denote (map_expr point e) p.
