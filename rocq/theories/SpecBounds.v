(** Specification vocabulary for the bounds that occur in a value.  Only the
    data types are used here. *)
From Verif Require Import Base ModelBound ModelRanges ModelSets ModelValue Spec.

Section SpecBounds.
Context {T : Type}.

(** The lower and the upper bounds written in a value, in order. *)
Definition lows (v : value T) : list (LowerBound T) :=
  match v with
  | VRange r => [LB (Included (rg_start r))]
  | VRangeInclusive r => [LB (Included (ri_start r))]
  | VRangeFrom r => [LB (Included (rf_start r))]
  | VBR r => [br_start r]
  | VLBR r => [lbr_start r]
  | VBS s => map br_start (bs_ranges s)
  | VLBS s => map br_start (bs_ranges (lbs_ranges s)) ++ [lbr_start (lbs_lbr s)]
  | VUBS s => map br_start (bs_ranges (ubs_ranges s))
  | VUS (Piecewise p) => map br_start (bs_ranges (pus_ranges p)) ++ [lbr_start (pus_lbr p)]
  | _ => []
  end.
Definition highs (v : value T) : list (UpperBound T) :=
  match v with
  | VRange r => [UB (Excluded (rg_end r))]
  | VRangeInclusive r => [UB (Included (ri_end r))]
  | VRangeTo r => [UB (Excluded (rt_end r))]
  | VRangeToInclusive r => [UB (Included (rti_end r))]
  | VBR r => [br_end r]
  | VUBR r => [ubr_end r]
  | VBS s => map br_end (bs_ranges s)
  | VLBS s => map br_end (bs_ranges (lbs_ranges s))
  | VUBS s => ubr_end (ubs_ubr s) :: map br_end (bs_ranges (ubs_ranges s))
  | VUS (Piecewise p) => ubr_end (pus_ubr p) :: map br_end (bs_ranges (pus_ranges p))
  | _ => []
  end.

(** The element a bound is at. *)
Definition at_elem (b : Bound T) : T := match b with Included a | Excluded a => a end.
(** The bound where the complement of a half-line begins or ends. *)
Definition opposite (b : Bound T) : Bound T :=
  match b with Included a => Excluded a | Excluded a => Included a end.
(** The elements named by the bounds of a value. *)
Definition endpoints (v : value T) : list T :=
  map (fun l => at_elem (lb_bound l)) (lows v) ++ map (fun u => at_elem (ub_bound u)) (highs v).

(** All lower bounds are inclusive, as in [a..b], [a..=b], [a..]. *)
Definition closed_below (v : value T) : Prop := forall l, In l (lows v) -> exists a, l = LB (Included a).
(** Also all upper bounds are exclusive, as in [a..b], [a..], [..b]. *)
Definition half_open (v : value T) : Prop :=
  closed_below v /\ forall u, In u (highs v) -> exists a, u = UB (Excluded a).

(** The values a program starts from. *)
Fixpoint leaves (e : expr T) : list (value T) :=
  match e with
  | EVal v => [v]
  | EUnion a b | EInter a b => leaves a ++ leaves b
  | ECompl a | EInner a | ESet a => leaves a
  end.

(** No intersection of two [LowerBoundedSet]s below an even ([p = false]) or an
    odd ([p = true]) number of complements; all leaves fresh. *)
Fixpoint one_sided (p : bool) (e : expr T) : Prop :=
  match e with
  | EVal v => fresh v
  | EUnion a b => one_sided p a /\ one_sided p b
  | EInter a b => one_sided p a /\ one_sided p b /\ (p = false -> both_lbs (expr_kind a) (expr_kind b) = false)
  | ECompl a => one_sided (negb p) a
  | EInner a | ESet a => one_sided p a
  end.

(** The program with every [a.intersection(b)] written out both ways round,
    [a.intersection(b).union(b.intersection(a))] (client code). *)
Fixpoint both_ways (e : expr T) : expr T :=
  match e with
  | EVal v => EVal v
  | EUnion a b => EUnion (both_ways a) (both_ways b)
  | EInter a b => EUnion (EInter (both_ways a) (both_ways b)) (EInter (both_ways b) (both_ways a))
  | ECompl a => ECompl (both_ways a)
  | EInner a => EInner (both_ways a)
  | ESet a => ESet (both_ways a)
  end.

End SpecBounds.

Section Separated.
Context {T : Type} {OT : Ord T}.

(** Upper bound [u] ends exactly where lower bound [l] begins, as in [0..3] and [3..5]. *)
Definition touches (u : UpperBound T) (l : LowerBound T) : Prop :=
  match u, l with
  | UB (Included a), LB (Excluded b) => cmp a b = Eq
  | UB (Excluded a), LB (Included b) => cmp a b = Eq
  | _, _ => False
  end.
(** No part of the value ends exactly where another begins. *)
Definition separated (v : value T) : Prop :=
  forall u l, In u (highs v) -> In l (lows v) -> ~ touches u l.

(** Somewhere in the value one part ends exactly where another begins, namely
    with the lower bound [b]. *)
Definition joined (v : value T) (b : Bound T) : Prop :=
  exists u l, In u (highs v) /\ In l (lows v) /\ touches u l /\ touches u (LB b).

End Separated.

(** How many bounds a value is written with. *)
Definition nbounds {T : Type} (v : value T) : nat := (length (lows v) + length (highs v))%nat.
(** The same for all the values a program starts from together. *)
Definition total {T : Type} (e : expr T) : nat := list_sum (map nbounds (leaves e)).
