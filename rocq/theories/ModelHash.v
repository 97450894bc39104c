(** Model of [Hash]: the derived impls of the crate's types and std's impls for
    its ranges and [VecDeque].  Hashing a value feeds a sequence of words to a
    [Hasher]; the model is that sequence. *)
From Verif Require Import Base ModelBound ModelRanges ModelSets ModelAlgebra ModelValue.

(** One call of a [Hasher] method: the discriminant of an enum
    ([write_isize]), a length ([write_length_prefix]), a [bool] ([write_u8]), or
    whatever the element type feeds. *)
Inductive word (W : Type) : Type :=
| HDisc (n : Z)
| HLen (n : Z)
| HBool (b : bool)
| HElem (w : W).
Arguments HDisc {W}. Arguments HLen {W}. Arguments HBool {W}. Arguments HElem {W}.

(** [T: Hash]: what the element type feeds. *)
Class Hash (T W : Type) : Type := { hash_elem : T -> list W }.

Section Hash.
Context {T W : Type} {HT : Hash T W}.

(** [T]'s own [Hash::hash]. *)
Definition h_elem (t : T) : list (word W) := map HElem (hash_elem t).
(** src/bound.rs:9 (derive); the variants are declared in the order Excluded,
    Included (src/bound.rs:11-16). *)
Definition h_bound (b : Bound T) : list (word W) :=
  match b with
  | Excluded a => HDisc 0 :: h_elem a
  | Included a => HDisc 1 :: h_elem a
  end.
(** src/bound.rs:62 (derive). *)
Definition h_lb (l : LowerBound T) : list (word W) := h_bound (lb_bound l).
(** src/bound.rs:163 (derive). *)
Definition h_ub (u : UpperBound T) : list (word W) := h_bound (ub_bound u).
(** src/bounded_range.rs:23 (derive). *)
Definition h_br (r : BoundedRange T) : list (word W) := h_lb (br_start r) ++ h_ub (br_end r).
(** src/lower_bounded_range.rs:18 (derive). *)
Definition h_lbr (r : LowerBoundedRange T) : list (word W) := h_lb (lbr_start r).
(** src/upper_bounded_range.rs:17 (derive). *)
Definition h_ubr (r : UpperBoundedRange T) : list (word W) := h_ub (ubr_end r).
(** [VecDeque]'s [Hash] (std): the length, then the elements in order. *)
Definition h_deque {A : Type} (f : A -> list (word W)) (l : list A) : list (word W) :=
  HLen (Z.of_nat (length l)) :: flat_map f l.
(** src/bounded_set.rs:15 (derive). *)
Definition h_bs (s : BoundedSet T) : list (word W) := h_deque h_br (bs_ranges s).
(** src/lower_bounded_set.rs:18 (derive). *)
Definition h_lbs (s : LowerBoundedSet T) : list (word W) := h_bs (lbs_ranges s) ++ h_lbr (lbs_lbr s).
(** src/upper_bounded_set.rs:14 (derive). *)
Definition h_ubs (s : UpperBoundedSet T) : list (word W) := h_ubr (ubs_ubr s) ++ h_bs (ubs_ranges s).
(** src/unbounded_set.rs:22 (derive). *)
Definition h_pus (s : PiecewiseUnboundedSet T) : list (word W) :=
  h_ubr (pus_ubr s) ++ h_bs (pus_ranges s) ++ h_lbr (pus_lbr s).
(** src/unbounded_set.rs:83 (derive); variants Full, Piecewise
    (src/unbounded_set.rs:85-90). *)
Definition h_us (s : UnboundedSet T) : list (word W) :=
  match s with
  | Full => [HDisc 0]
  | Piecewise p => HDisc 1 :: h_pus p
  end.

(** [Hash::hash] of any of the fifteen types.  [EmptyRange]
    (src/empty_range.rs:16, only a [PhantomData]) and [UnboundedRange]
    (src/unbounded_range.rs:16) feed nothing; the std ranges are std's derived
    impls. *)
Definition hash (v : value T) : list (word W) :=
  match v with
  | VRange r => h_elem (rg_start r) ++ h_elem (rg_end r)
  | VRangeInclusive r => h_elem (ri_start r) ++ h_elem (ri_end r) ++ [HBool (ri_exhausted r)]
  | VRangeFrom r => h_elem (rf_start r)
  | VRangeTo r => h_elem (rt_end r)
  | VRangeToInclusive r => h_elem (rti_end r)
  | VRangeFull _ => []
  | VBR r => h_br r
  | VLBR r => h_lbr r
  | VUBR r => h_ubr r
  | VUnbR _ => []
  | VEmpty _ => []
  | VBS s => h_bs s
  | VLBS s => h_lbs s
  | VUBS s => h_ubs s
  | VUS s => h_us s
  end.

End Hash.
