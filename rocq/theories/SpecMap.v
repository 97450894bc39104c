(** Replacing the endpoints of a value by others. *)
From Coq Require Import ZArith.
From Verif Require Import Base ModelBound ModelRanges ModelSets ModelAlgebra ModelValue ModelEq.

Section SpecMap.
Context {T U : Type} (f : T -> U).

Definition map_bound (b : Bound T) : Bound U :=
  match b with Included a => Included (f a) | Excluded a => Excluded (f a) end.
Definition map_lb (l : LowerBound T) : LowerBound U := LB (map_bound (lb_bound l)).
Definition map_ub (u : UpperBound T) : UpperBound U := UB (map_bound (ub_bound u)).
Definition map_br (r : BoundedRange T) : BoundedRange U := BR (map_lb (br_start r)) (map_ub (br_end r)).
Definition map_lbr (r : LowerBoundedRange T) : LowerBoundedRange U := LBR (map_lb (lbr_start r)).
Definition map_ubr (r : UpperBoundedRange T) : UpperBoundedRange U := UBR (map_ub (ubr_end r)).
Definition map_bs (s : BoundedSet T) : BoundedSet U := BS (map map_br (bs_ranges s)).
Definition map_lbs (s : LowerBoundedSet T) : LowerBoundedSet U := LBS (map_bs (lbs_ranges s)) (map_lbr (lbs_lbr s)).
Definition map_ubs (s : UpperBoundedSet T) : UpperBoundedSet U := UBS (map_ubr (ubs_ubr s)) (map_bs (ubs_ranges s)).
Definition map_pus (s : PiecewiseUnboundedSet T) : PiecewiseUnboundedSet U :=
  PUS (map_ubr (pus_ubr s)) (map_bs (pus_ranges s)) (map_lbr (pus_lbr s)).
Definition map_us (s : UnboundedSet T) : UnboundedSet U :=
  match s with Full => Full | Piecewise p => Piecewise (map_pus p) end.
Definition map_value (v : value T) : value U :=
  match v with
  | VRange r => VRange (mkRange (f (rg_start r)) (f (rg_end r)))
  | VRangeInclusive r => VRangeInclusive (mkRangeInclusive (f (ri_start r)) (f (ri_end r)) (ri_exhausted r))
  | VRangeFrom r => VRangeFrom (mkRangeFrom (f (rf_start r)))
  | VRangeTo r => VRangeTo (mkRangeTo (f (rt_end r)))
  | VRangeToInclusive r => VRangeToInclusive (mkRangeToInclusive (f (rti_end r)))
  | VRangeFull r => VRangeFull r
  | VBR r => VBR (map_br r)
  | VLBR r => VLBR (map_lbr r)
  | VUBR r => VUBR (map_ubr r)
  | VUnbR r => VUnbR r
  | VEmpty r => VEmpty r
  | VBS s => VBS (map_bs s)
  | VLBS s => VLBS (map_lbs s)
  | VUBS s => VUBS (map_ubs s)
  | VUS s => VUS (map_us s)
  end.
Fixpoint map_expr (e : expr T) : expr U :=
  match e with
  | EVal v => EVal (map_value v)
  | EUnion a b => EUnion (map_expr a) (map_expr b)
  | EInter a b => EInter (map_expr a) (map_expr b)
  | ECompl a => ECompl (map_expr a)
  | EInner a => EInner (map_expr a)
  | ESet a => ESet (map_expr a)
  end.
End SpecMap.

(** What is done to the answer of a computation, if there is one. *)
Definition onto {A B : Type} (g : A -> B) (m : outcome A) : outcome B :=
  match m with Ret a => Ret (g a) | Panic => Panic | Diverge => Diverge end.

(** [f] keeps every comparison. *)
Definition keeps_order {T U : Type} {OT : Ord T} {OU : Ord U} (f : T -> U) : Prop :=
  forall a b, cmp (f a) (f b) = cmp a b /\ teq (f a) (f b) = teq a b.

(** The two computations give equal answers (or none, in the same way). *)
Definition same_answer {T : Type} {OT : Ord T} (m n : outcome (value T)) : Prop :=
  match m, n with
  | Ret x, Ret y => value_eqb x y = true
  | Panic, Panic | Diverge, Diverge => True
  | _, _ => False
  end.
(** The same program started from equal values. *)
Fixpoint same_program {T : Type} {OT : Ord T} (e e' : expr T) : Prop :=
  match e, e' with
  | EVal v, EVal v' => value_eqb v v' = true
  | EUnion a b, EUnion a' b' | EInter a b, EInter a' b' => same_program a a' /\ same_program b b'
  | ECompl a, ECompl a' | EInner a, EInner a' | ESet a, ESet a' => same_program a a'
  | _, _ => False
  end.

(** How many of the elements listed are below [t]. *)
Definition rank_in {T : Type} {OT : Ord T} (l : list T) (t : T) : Z :=
  Z.of_nat (length (filter (fun x => match cmp x t with Lt => true | _ => false end) l)).
