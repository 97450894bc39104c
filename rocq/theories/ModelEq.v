(** Model of [==]: the derived [PartialEq] impls of the crate's types and std's
    impls for its ranges and [VecDeque]. *)
From Verif Require Import Base ModelBound ModelRanges ModelSets ModelAlgebra ModelValue.

Section Eq.
Context {T : Type} {OT : Ord T}.

(** src/bound.rs:9 (derive). *)
Definition bound_eqb (x y : Bound T) : bool :=
  match x, y with
  | Excluded a, Excluded b => teq a b
  | Included a, Included b => teq a b
  | _, _ => false
  end.
(** src/bound.rs:62 (derive). *)
Definition lb_eqb (x y : LowerBound T) : bool := bound_eqb (lb_bound x) (lb_bound y).
(** src/bound.rs:163 (derive). *)
Definition ub_eqb (x y : UpperBound T) : bool := bound_eqb (ub_bound x) (ub_bound y).
(** src/bounded_range.rs:23 (derive). *)
Definition br_eqb (x y : BoundedRange T) : bool :=
  lb_eqb (br_start x) (br_start y) && ub_eqb (br_end x) (br_end y).
(** src/lower_bounded_range.rs:18 (derive). *)
Definition lbr_eqb (x y : LowerBoundedRange T) : bool := lb_eqb (lbr_start x) (lbr_start y).
(** src/upper_bounded_range.rs:17 (derive). *)
Definition ubr_eqb (x y : UpperBoundedRange T) : bool := ub_eqb (ubr_end x) (ubr_end y).

(** [VecDeque]'s [==] (std): same length and equal elements in order. *)
Fixpoint vd_eqb {A : Type} (f : A -> A -> bool) (l1 l2 : list A) : bool :=
  match l1, l2 with
  | [], [] => true
  | x :: l1', y :: l2' => f x y && vd_eqb f l1' l2'
  | _, _ => false
  end.

(** src/bounded_set.rs:15 (derive). *)
Definition bs_eqb (x y : BoundedSet T) : bool := vd_eqb br_eqb (bs_ranges x) (bs_ranges y).
(** src/lower_bounded_set.rs:18 (derive). *)
Definition lbs_eqb (x y : LowerBoundedSet T) : bool :=
  bs_eqb (lbs_ranges x) (lbs_ranges y) && lbr_eqb (lbs_lbr x) (lbs_lbr y).
(** src/upper_bounded_set.rs:14 (derive). *)
Definition ubs_eqb (x y : UpperBoundedSet T) : bool :=
  ubr_eqb (ubs_ubr x) (ubs_ubr y) && bs_eqb (ubs_ranges x) (ubs_ranges y).
(** src/unbounded_set.rs:22 (derive). *)
Definition pus_eqb (x y : PiecewiseUnboundedSet T) : bool :=
  ubr_eqb (pus_ubr x) (pus_ubr y) && bs_eqb (pus_ranges x) (pus_ranges y)
  && lbr_eqb (pus_lbr x) (pus_lbr y).
(** src/unbounded_set.rs:83 (derive). *)
Definition us_eqb (x y : UnboundedSet T) : bool :=
  match x, y with
  | Full, Full => true
  | Piecewise p, Piecewise q => pus_eqb p q
  | _, _ => false
  end.

(** [==] between two values of the same type; the std range impls are std's
    derived ones ([RangeInclusive] compares the [exhausted] flag too).  In Rust
    values of different types cannot be compared; here that is [false]. *)
Definition value_eqb (x y : value T) : bool :=
  match x, y with
  | VRange a, VRange b => teq (rg_start a) (rg_start b) && teq (rg_end a) (rg_end b)
  | VRangeInclusive a, VRangeInclusive b =>
    teq (ri_start a) (ri_start b) && teq (ri_end a) (ri_end b)
    && Bool.eqb (ri_exhausted a) (ri_exhausted b)
  | VRangeFrom a, VRangeFrom b => teq (rf_start a) (rf_start b)
  | VRangeTo a, VRangeTo b => teq (rt_end a) (rt_end b)
  | VRangeToInclusive a, VRangeToInclusive b => teq (rti_end a) (rti_end b)
  | VRangeFull _, VRangeFull _ => true
  | VBR a, VBR b => br_eqb a b
  | VLBR a, VLBR b => lbr_eqb a b
  | VUBR a, VUBR b => ubr_eqb a b
  | VUnbR _, VUnbR _ => true
  | VEmpty _, VEmpty _ => true
  | VBS a, VBS b => bs_eqb a b
  | VLBS a, VLBS b => lbs_eqb a b
  | VUBS a, VUBS b => ubs_eqb a b
  | VUS a, VUS b => us_eqb a b
  | _, _ => false
  end.

(** Two computations both return, and [assert_eq!] on their results passes (client code). *)
Definition ret_eq (m n : outcome (value T)) : Prop :=
  exists x y, m = Ret x /\ n = Ret y /\ value_eqb x y = true.

(** Two programs both return, and their results contain the same elements (client code). *)
Definition same_contents (e1 e2 : expr T) : Prop :=
  exists u v, eval e1 = Ret u /\ eval e2 = Ret v /\ forall t, contains u t = contains v t.
(** [UnboundedRange::new()] (src/unbounded_range.rs:42-44) and [EmptyRange::new()]
    (src/empty_range.rs:62-66) as programs. *)
Definition whole : expr T := EVal (VUnbR mkUnboundedRange).
Definition nothing : expr T := EVal (VEmpty mkEmptyRange).

End Eq.
