(** The seams of a value: the cuts of the line that run inside one of its parts.
    Where a value is whole across a cut, it is either sewn there (one part runs
    over the cut) or joined (one part ends and the next begins). *)
From Coq Require Import QArith List.
Import ListNotations.
From Verif Require Import Base ModelBound ModelRanges ModelSets ModelValue Spec SpecMap SpecFill.

Section Seams.
Context {T : Type} {OT : Ord T}.

(** The cut before (or, for [Excluded], just after) an element, and the points on its two sides. *)
Definition ahead (b : Bound T) (p : filled T) : Prop :=
  match b with Included t => le (point t) p | Excluded t => lt (point t) p end.
Definition behind (b : Bound T) (p : filled T) : Prop :=
  match b with Included t => lt p (point t) | Excluded t => le p (point t) end.

(** The ranges a value is made of. *)
Definition parts (v : value T) : list (value T) :=
  match v with
  | VBS s => map VBR (bs_ranges s)
  | VLBS s => map VBR (bs_ranges (lbs_ranges s)) ++ [VLBR (lbs_lbr s)]
  | VUBS s => VUBR (ubs_ubr s) :: map VBR (bs_ranges (ubs_ranges s))
  | VUS Full => [VRangeFull mkRangeFull]
  | VUS (Piecewise s) => VUBR (pus_ubr s) :: map VBR (bs_ranges (pus_ranges s)) ++ [VLBR (pus_lbr s)]
  | _ => [v]
  end.
(** One part covers points on both sides of the cut. *)
Definition seam (v : value T) (b : Bound T) : Prop :=
  exists r p q, In r (parts v) /\ covers r p /\ behind b p /\ covers r q /\ ahead b q.
(** A stretch of the line around the cut where [P] holds throughout. *)
Definition around (b : Bound T) (P : filled T -> Prop) : Prop :=
  exists p q, behind b p /\ ahead b q /\ forall r, le p r -> le r q -> P r.

(** The seams a program stands for. *)
Fixpoint sewn (e : expr T) (b : Bound T) : Prop :=
  match e with
  | EVal v => seam v b
  | EUnion x y => sewn x b \/ sewn y b
  | EInter x y => sewn x b /\ sewn y b
  | ECompl x => around b (fun r => ~ denotes x r)
  | EInner x => sewn x b
  | ESet x => sewn x b
  end.

(** Programs on valid values that complement no bounded range (which may be
    empty) and do not intersect two [LowerBoundedSet]s. *)
Definition bounded_range (k : kind) : bool :=
  match k with KRange | KRangeInclusive | KBoundedRange => true | _ => false end.
Fixpoint tidy (e : expr T) : Prop :=
  match e with
  | EVal v => fresh v /\ valid v
  | EUnion x y => tidy x /\ tidy y
  | EInter x y => tidy x /\ tidy y /\ both_lbs (expr_kind x) (expr_kind y) = false
  | ECompl x => tidy x /\ bounded_range (expr_kind x) = false
  | EInner x => tidy x
  | ESet x => tidy x
  end.
End Seams.
