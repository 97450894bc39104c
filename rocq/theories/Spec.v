(** Specification vocabulary: what the values mean, written with the element
    order only.  No model function is used here, only the data types. *)
From Verif Require Import Base ModelBound ModelRanges ModelSets ModelValue.

Section Spec.
Context {T : Type} {OT : Ord T}.

Definition lt (a b : T) : Prop := cmp a b = Lt.
Definition le (a b : T) : Prop := cmp a b <> Gt.

(** [t] satisfies a lower / an upper bound. *)
Definition above (l : LowerBound T) (t : T) : Prop :=
  match l with LB (Included a) => le a t | LB (Excluded a) => lt a t end.
Definition below (u : UpperBound T) (t : T) : Prop :=
  match u with UB (Included a) => le t a | UB (Excluded a) => lt t a end.

(** Membership in a bounded range and in a list of pieces. *)
Definition in_range (r : BoundedRange T) (t : T) : Prop :=
  above (br_start r) t /\ below (br_end r) t.
Definition in_pieces (l : list (BoundedRange T)) (t : T) : Prop :=
  exists r, In r l /\ in_range r t.

(** The set of elements a value stands for. *)
Definition mem (v : value T) (t : T) : Prop :=
  match v with
  | VRange r => le (rg_start r) t /\ lt t (rg_end r)
  | VRangeInclusive r =>
    le (ri_start r) t /\ (if ri_exhausted r then lt t (ri_end r) else le t (ri_end r))
  | VRangeFrom r => le (rf_start r) t
  | VRangeTo r => lt t (rt_end r)
  | VRangeToInclusive r => le t (rti_end r)
  | VRangeFull _ => True
  | VBR r => in_range r t
  | VLBR r => above (lbr_start r) t
  | VUBR r => below (ubr_end r) t
  | VUnbR _ => True
  | VEmpty _ => False
  | VBS s => in_pieces (bs_ranges s) t
  | VLBS s => in_pieces (bs_ranges (lbs_ranges s)) t \/ above (lbr_start (lbs_lbr s)) t
  | VUBS s => below (ubr_end (ubs_ubr s)) t \/ in_pieces (bs_ranges (ubs_ranges s)) t
  | VUS Full => True
  | VUS (Piecewise p) =>
    below (ubr_end (pus_ubr p)) t \/ in_pieces (bs_ranges (pus_ranges p)) t
    \/ above (lbr_start (pus_lbr p)) t
  end.

(** Upper bound [u] ends at or before the place where lower bound [l] starts:
    no element, and no gap between elements, satisfies both. *)
Definition precedes (u : UpperBound T) (l : LowerBound T) : Prop :=
  match u, l with
  | UB (Included a), LB (Included b) => lt a b
  | UB (Included a), LB (Excluded b) => le a b
  | UB (Excluded a), LB (Included b) => le a b
  | UB (Excluded a), LB (Excluded b) => le a b
  end.

(** The bounds of a range are in order ([5..3], [3..3] are not). *)
Definition has_room (r : BoundedRange T) : Prop := ~ precedes (br_end r) (br_start r).

(** The representation invariant: pieces non-empty, in ascending order, and no
    two of them (nor a piece and a half-line) overlap. *)
Definition pieces_ok (l : list (BoundedRange T)) : Prop :=
  Forall has_room l /\ ForallOrdPairs (fun a b => precedes (br_end a) (br_start b)) l.
Definition valid (v : value T) : Prop :=
  match v with
  | VBS s => pieces_ok (bs_ranges s)
  | VLBS s =>
    pieces_ok (bs_ranges (lbs_ranges s)) /\
    (forall r, In r (bs_ranges (lbs_ranges s)) -> precedes (br_end r) (lbr_start (lbs_lbr s)))
  | VUBS s =>
    pieces_ok (bs_ranges (ubs_ranges s)) /\
    (forall r, In r (bs_ranges (ubs_ranges s)) -> precedes (ubr_end (ubs_ubr s)) (br_start r))
  | VUS (Piecewise p) =>
    pieces_ok (bs_ranges (pus_ranges p)) /\
    (forall r, In r (bs_ranges (pus_ranges p)) ->
       precedes (ubr_end (pus_ubr p)) (br_start r) /\ precedes (br_end r) (lbr_start (pus_lbr p))) /\
    precedes (ubr_end (pus_ubr p)) (lbr_start (pus_lbr p))
  | _ => True
  end.

(** A [RangeInclusive] that has not been iterated to exhaustion (every literal
    [a..=b] is fresh); all other values. *)
Definition fresh (v : value T) : Prop :=
  match v with
  | VRangeInclusive r => ri_exhausted r = false
  | _ => True
  end.

(** What an expression over union, intersection and complement stands for. *)
Fixpoint denote (e : expr T) (t : T) : Prop :=
  match e with
  | EVal v => mem v t
  | EUnion a b => denote a t \/ denote b t
  | EInter a b => denote a t /\ denote b t
  | ECompl a => ~ denote a t
  | EInner a => denote a t
  | ESet a => denote a t
  end.

(** ** The types of values *)

Inductive kind : Set :=
| KRange | KRangeInclusive | KRangeFrom | KRangeTo | KRangeToInclusive | KRangeFull
| KBoundedRange | KLowerBoundedRange | KUpperBoundedRange | KUnboundedRange | KEmptyRange
| KBoundedSet | KLowerBoundedSet | KUpperBoundedSet | KUnboundedSet.

Definition kind_of (v : value T) : kind :=
  match v with
  | VRange _ => KRange | VRangeInclusive _ => KRangeInclusive | VRangeFrom _ => KRangeFrom
  | VRangeTo _ => KRangeTo | VRangeToInclusive _ => KRangeToInclusive | VRangeFull _ => KRangeFull
  | VBR _ => KBoundedRange | VLBR _ => KLowerBoundedRange | VUBR _ => KUpperBoundedRange
  | VUnbR _ => KUnboundedRange | VEmpty _ => KEmptyRange
  | VBS _ => KBoundedSet | VLBS _ => KLowerBoundedSet | VUBS _ => KUpperBoundedSet
  | VUS _ => KUnboundedSet
  end.

(** Has a least / greatest bound; may hold several pieces. *)
Definition has_lower (k : kind) : bool :=
  match k with
  | KRange | KRangeInclusive | KRangeFrom | KBoundedRange | KLowerBoundedRange
  | KBoundedSet | KLowerBoundedSet | KEmptyRange => true
  | _ => false
  end.
Definition has_upper (k : kind) : bool :=
  match k with
  | KRange | KRangeInclusive | KRangeTo | KRangeToInclusive | KBoundedRange | KUpperBoundedRange
  | KBoundedSet | KUpperBoundedSet | KEmptyRange => true
  | _ => false
  end.
Definition is_set (k : kind) : bool :=
  match k with
  | KBoundedSet | KLowerBoundedSet | KUpperBoundedSet | KUnboundedSet => true
  | _ => false
  end.
(** The crate type with the given shape. *)
Definition shape (set lower upper : bool) : kind :=
  match set, lower, upper with
  | false, true, true => KBoundedRange
  | false, true, false => KLowerBoundedRange
  | false, false, true => KUpperBoundedRange
  | false, false, false => KUnboundedRange
  | true, true, true => KBoundedSet
  | true, true, false => KLowerBoundedSet
  | true, false, true => KUpperBoundedSet
  | true, false, false => KUnboundedSet
  end.
(** Types that are the whole line, or the empty range, whatever the value. *)
Definition is_whole (k : kind) : bool :=
  match k with KRangeFull | KUnboundedRange => true | _ => false end.
Definition is_none (k : kind) : bool :=
  match k with KEmptyRange => true | _ => false end.

Definition inner_kind (k : kind) : kind :=
  if is_none k then KEmptyRange else shape (is_set k) (has_lower k) (has_upper k).
Definition set_kind (k : kind) : kind :=
  if is_none k then KEmptyRange else if is_whole k then KUnboundedRange
  else shape true (has_lower k) (has_upper k).
(** An intersection has a bound where either operand has one, and is a set when
    either operand is. *)
Definition inter_kind (a b : kind) : kind :=
  if is_none a || is_none b then KEmptyRange
  else shape (is_set a || is_set b) (has_lower a || has_lower b) (has_upper a || has_upper b).
(** A union has a bound where both operands have one, and is always a set,
    except that the empty range is dropped and the whole line absorbs. *)
Definition union_kind (a b : kind) : kind :=
  if is_none a then b else if is_none b then a
  else if is_whole a || is_whole b then KUnboundedRange
  else shape true (has_lower a && has_lower b) (has_upper a && has_upper b).
(** A complement has a bound where the operand has none; it is a set when the
    operand has both bounds or is a set. *)
Definition compl_kind (a : kind) : kind :=
  if is_none a then KUnboundedRange else if is_whole a then KEmptyRange
  else shape (is_set a || (has_lower a && has_upper a)) (negb (has_lower a)) (negb (has_upper a)).

(** Types with an [IntoIterator] impl (crate) or that are iterators (std). *)
Definition iterable (k : kind) : bool :=
  match k with
  | KRange | KRangeInclusive | KRangeFrom
  | KBoundedRange | KLowerBoundedRange | KEmptyRange | KBoundedSet | KLowerBoundedSet => true
  | _ => false
  end.

(** The type of an expression. *)
Fixpoint expr_kind (e : expr T) : kind :=
  match e with
  | EVal v => kind_of v
  | EUnion a b => union_kind (expr_kind a) (expr_kind b)
  | EInter a b => inter_kind (expr_kind a) (expr_kind b)
  | ECompl a => compl_kind (expr_kind a)
  | EInner a => inner_kind (expr_kind a)
  | ESet a => set_kind (expr_kind a)
  end.

(** No sub-expression intersects two [LowerBoundedSet]s, and all leaves are
    fresh: the expressions for which the crate is right. *)
Definition both_lbs (a b : kind) : bool :=
  match a, b with KLowerBoundedSet, KLowerBoundedSet => true | _, _ => false end.
Fixpoint good_expr (e : expr T) : Prop :=
  match e with
  | EVal v => fresh v
  | EUnion a b => good_expr a /\ good_expr b
  | EInter a b => good_expr a /\ good_expr b /\ both_lbs (expr_kind a) (expr_kind b) = false
  | ECompl a => good_expr a
  | EInner a => good_expr a
  | ESet a => good_expr a
  end.

(** Nested unions and intersections of values bounded on both sides. *)
Fixpoint bounded_expr (e : expr T) : Prop :=
  match e with
  | EVal v => fresh v /\ has_lower (kind_of v) = true /\ has_upper (kind_of v) = true
  | EUnion a b => bounded_expr a /\ bounded_expr b
  | EInter a b => bounded_expr a /\ bounded_expr b
  | ECompl a => False
  | EInner a => bounded_expr a
  | ESet a => bounded_expr a
  end.
(** The std range types. *)
Definition std_kind (k : kind) : bool :=
  match k with
  | KRange | KRangeInclusive | KRangeFrom | KRangeTo | KRangeToInclusive | KRangeFull => true
  | _ => false
  end.

(** ** Emptiness *)

(** A range between two excluded bounds with nothing in between, such as
    (3, 4) on the integers; half-lines beyond the last element. *)
Definition gap (r : BoundedRange T) : Prop :=
  match r with
  | BR (LB (Excluded a)) (UB (Excluded b)) => lt a b /\ (forall t, ~ (lt a t /\ lt t b))
  | _ => False
  end.
Definition nothing_above (l : LowerBound T) : Prop :=
  match l with LB (Excluded a) => forall t, ~ lt a t | _ => False end.
Definition nothing_below (u : UpperBound T) : Prop :=
  match u with UB (Excluded a) => forall t, ~ lt t a | _ => False end.
(** A piece with nothing in it. *)
Definition hollow (r : BoundedRange T) : Prop := precedes (br_end r) (br_start r) \/ gap r.
(** The values that have no element although [is_empty] says false. *)
Definition degenerate (v : value T) : Prop :=
  match v with
  | VRangeTo r => nothing_below (UB (Excluded (rt_end r)))
  | VRangeFull _ | VUnbR _ | VUS Full => T -> False
  | VBR r => gap r
  | VLBR r => nothing_above (lbr_start r)
  | VUBR r => nothing_below (ubr_end r)
  | VBS s => forall r, In r (bs_ranges s) -> hollow r
  | VLBS s => nothing_above (lbr_start (lbs_lbr s)) /\ (forall r, In r (bs_ranges (lbs_ranges s)) -> hollow r)
  | VUBS s => nothing_below (ubr_end (ubs_ubr s)) /\ (forall r, In r (bs_ranges (ubs_ranges s)) -> hollow r)
  | VUS (Piecewise p) =>
    nothing_below (ubr_end (pus_ubr p)) /\ nothing_above (lbr_start (pus_lbr p))
    /\ (forall r, In r (bs_ranges (pus_ranges p)) -> hollow r)
  | _ => False
  end.

(** The same value with the [exhausted] flag of a [RangeInclusive] cleared. *)
Definition refreshed (v : value T) : value T :=
  match v with
  | VRangeInclusive r => VRangeInclusive (mkRangeInclusive (ri_start r) (ri_end r) false)
  | _ => v
  end.

End Spec.

(** Orders without gaps and without extremes (such as the rationals). *)
Class DenseOrd (T : Type) {OT : Ord T} : Prop := {
  dense_between : forall a b : T, lt a b -> exists t, lt a t /\ lt t b;
  dense_above : forall a : T, exists t, lt a t;
  dense_below : forall a : T, exists t, lt t a;
  dense_point : exists t : T, True
}.
