(** The mirror image of a program: the same over [std::cmp::Reverse], with lower and upper exchanged. *)
From Coq Require Import List.
Import ListNotations.
From Verif Require Import Base ModelBound ModelRanges ModelSets ModelValue Spec.

(** [Reverse<T>] (std): compares the other way round. *)
Record reverse (T : Type) : Type := Reverse { of_reverse : T }.
Arguments Reverse {T} _.
Arguments of_reverse {T} _.
#[global] Instance OrdReverse (T : Type) {OT : Ord T} : Ord (reverse T) := {
  cmp a b := cmp (of_reverse b) (of_reverse a);
  teq a b := teq (of_reverse a) (of_reverse b)
}.

Section Mirror.
Context {T : Type}.
Definition mirror_bound (b : Bound T) : Bound (reverse T) :=
  match b with Included a => Included (Reverse a) | Excluded a => Excluded (Reverse a) end.
Definition mirror_lb (l : LowerBound T) : UpperBound (reverse T) := UB (mirror_bound (lb_bound l)).
Definition mirror_ub (u : UpperBound T) : LowerBound (reverse T) := LB (mirror_bound (ub_bound u)).
Definition mirror_br (r : BoundedRange T) : BoundedRange (reverse T) := BR (mirror_ub (br_end r)) (mirror_lb (br_start r)).
Definition mirror_bs (s : BoundedSet T) : BoundedSet (reverse T) := BS (rev (map mirror_br (bs_ranges s))).
(** Std ranges have no mirror images among themselves; their images are the crate's ranges. *)
Definition mirror (v : value T) : value (reverse T) :=
  match v with
  | VRange r => VBR (BR (LB (Excluded (Reverse (rg_end r)))) (UB (Included (Reverse (rg_start r)))))
  | VRangeInclusive r => VBR (BR (LB (Included (Reverse (ri_end r)))) (UB (Included (Reverse (ri_start r)))))
  | VRangeFrom r => VUBR (UBR (UB (Included (Reverse (rf_start r)))))
  | VRangeTo r => VLBR (LBR (LB (Excluded (Reverse (rt_end r)))))
  | VRangeToInclusive r => VLBR (LBR (LB (Included (Reverse (rti_end r)))))
  | VRangeFull r => VRangeFull r
  | VBR r => VBR (mirror_br r)
  | VLBR r => VUBR (UBR (mirror_lb (lbr_start r)))
  | VUBR r => VLBR (LBR (mirror_ub (ubr_end r)))
  | VUnbR r => VUnbR r
  | VEmpty r => VEmpty r
  | VBS s => VBS (mirror_bs s)
  | VLBS s => VUBS (UBS (UBR (mirror_lb (lbr_start (lbs_lbr s)))) (mirror_bs (lbs_ranges s)))
  | VUBS s => VLBS (LBS (mirror_bs (ubs_ranges s)) (LBR (mirror_ub (ubr_end (ubs_ubr s)))))
  | VUS Full => VUS Full
  | VUS (Piecewise p) =>
    VUS (Piecewise (PUS (UBR (mirror_lb (lbr_start (pus_lbr p)))) (mirror_bs (pus_ranges p)) (LBR (mirror_ub (ubr_end (pus_ubr p))))))
  end.
Fixpoint mirror_expr (e : expr T) : expr (reverse T) :=
  match e with
  | EVal v => EVal (mirror v)
  | EUnion a b => EUnion (mirror_expr a) (mirror_expr b)
  | EInter a b => EInter (mirror_expr a) (mirror_expr b)
  | ECompl a => ECompl (mirror_expr a)
  | EInner a => EInner (mirror_expr a)
  | ESet a => ESet (mirror_expr a)
  end.
(** No two [UpperBoundedSet]s are intersected. *)
Fixpoint no_two_ubs (e : expr T) : Prop :=
  match e with
  | EVal _ => True
  | EUnion a b => no_two_ubs a /\ no_two_ubs b
  | EInter a b => no_two_ubs a /\ no_two_ubs b /\ ~ (expr_kind a = KUpperBoundedSet /\ expr_kind b = KUpperBoundedSet)
  | ECompl a | EInner a | ESet a => no_two_ubs a
  end.
End Mirror.
