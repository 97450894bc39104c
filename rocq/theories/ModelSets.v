(** Model of the set types: src/bounded_set.rs, src/lower_bounded_set.rs,
    src/upper_bounded_set.rs, src/unbounded_set.rs (without iterators). *)
From Verif Require Import Base ModelBound ModelRanges.

(** src/bounded_set.rs:17-20. *)
Record BoundedSet (T : Type) : Type := BS { bs_ranges : list (BoundedRange T) }.
Arguments BS {T}. Arguments bs_ranges {T}.
(** src/lower_bounded_set.rs:20-24. *)
Record LowerBoundedSet (T : Type) : Type :=
  LBS { lbs_ranges : BoundedSet T; lbs_lbr : LowerBoundedRange T }.
Arguments LBS {T}. Arguments lbs_ranges {T}. Arguments lbs_lbr {T}.
(** src/upper_bounded_set.rs:16-20. *)
Record UpperBoundedSet (T : Type) : Type :=
  UBS { ubs_ubr : UpperBoundedRange T; ubs_ranges : BoundedSet T }.
Arguments UBS {T}. Arguments ubs_ubr {T}. Arguments ubs_ranges {T}.
(** src/unbounded_set.rs:24-29. *)
Record PiecewiseUnboundedSet (T : Type) : Type :=
  PUS { pus_ubr : UpperBoundedRange T;
        pus_ranges : BoundedSet T;
        pus_lbr : LowerBoundedRange T }.
Arguments PUS {T}. Arguments pus_ubr {T}. Arguments pus_ranges {T}. Arguments pus_lbr {T}.
(** src/unbounded_set.rs:85-90. *)
Inductive UnboundedSet (T : Type) : Type :=
| Full
| Piecewise (p : PiecewiseUnboundedSet T).
Arguments Full {T}. Arguments Piecewise {T} p.

Section Sets.
Context {T : Type} {OT : Ord T}.

(** ** src/bounded_set.rs *)

(** src/bounded_set.rs:56-60. *)
Definition bs_empty : BoundedSet T := BS [].

(** src/bounded_set.rs:22-30 [From<BoundedRange>]. *)
Definition bs_from_br (r : BoundedRange T) : BoundedSet T :=
  if br_is_empty r then bs_empty else BS [r].

(** src/bounded_set.rs:64-79 [add_range].  The recursion removes one stored
    range per call; [fuel] bounds its depth. *)
Fixpoint bs_add_range_fuel (fuel : nat) (ranges : list (BoundedRange T)) (r : BoundedRange T)
  : outcome (list (BoundedRange T)) :=
  match fuel with
  | O => Diverge
  | S fuel' =>
    if negb (br_is_empty r) then
      match position (fun range => br_intersects_br range r) ranges with
      | Some index =>
        found <- vd_index ranges index ;;
        new_range <- br_combine r found ;;
        bs_add_range_fuel fuel' (snd (vd_remove ranges index)) new_range
      | None =>
        let index :=
          match position (fun range => lb_gt (br_start range) (br_start r)) ranges with
          | Some i => i
          | None => length ranges
          end in
        vd_insert ranges index r
      end
    else Ret ranges
  end.
Definition bs_add_range (self : BoundedSet T) (r : BoundedRange T) : outcome (BoundedSet T) :=
  ranges <- bs_add_range_fuel (S (length (bs_ranges self))) (bs_ranges self) r ;;
  Ret (BS ranges).

(** src/bounded_set.rs:80-84 [add_set]. *)
Definition bs_add_set (self other : BoundedSet T) : outcome (BoundedSet T) :=
  foldM bs_add_range (bs_ranges other) self.

(** src/bounded_set.rs:96-98 [contains]. *)
Definition bs_contains (self : BoundedSet T) (t : T) : bool :=
  existsb (fun r => br_contains r t) (bs_ranges self).

(** src/implementations/rangetools/bounded_set.rs:4-6 [is_empty]. *)
Definition bs_is_empty (self : BoundedSet T) : bool :=
  forallb br_is_empty (bs_ranges self).

(** ** src/lower_bounded_set.rs *)

(** src/lower_bounded_set.rs:26-33 [From<LowerBoundedRange>]. *)
Definition lbs_from_lbr (r : LowerBoundedRange T) : LowerBoundedSet T := LBS bs_empty r.

(** src/lower_bounded_set.rs:50-66 [defragment]: each iteration pops one
    stored range. *)
Fixpoint lbs_defragment_fuel (fuel : nat) (self : LowerBoundedSet T) : outcome (LowerBoundedSet T) :=
  match fuel with
  | O => Diverge
  | S fuel' =>
    if negb (bs_is_empty (lbs_ranges self)) then
      b <- unwrap (vd_back (bs_ranges (lbs_ranges self))) ;;
      if br_is_empty (br_inter_lbr b (lbs_lbr self)) then Ret self
      else
        let '(popped, rest) := vd_pop_back (bs_ranges (lbs_ranges self)) in
        range <- unwrap popped ;;
        lbs_defragment_fuel fuel'
          (LBS (BS rest) (LBR (lb_min (lbr_start (lbs_lbr self)) (br_start range))))
    else Ret self
  end.
Definition lbs_defragment (self : LowerBoundedSet T) : outcome (LowerBoundedSet T) :=
  lbs_defragment_fuel (S (length (bs_ranges (lbs_ranges self)))) self.

(** src/lower_bounded_set.rs:68-71. *)
Definition lbs_add_range (self : LowerBoundedSet T) (range : BoundedRange T)
  : outcome (LowerBoundedSet T) :=
  ranges <- bs_add_range (lbs_ranges self) range ;;
  lbs_defragment (LBS ranges (lbs_lbr self)).
(** src/lower_bounded_set.rs:72-76. *)
Definition lbs_add_lower_bounded_range (self : LowerBoundedSet T) (range : LowerBoundedRange T)
  : outcome (LowerBoundedSet T) :=
  lbs_defragment
    (LBS (lbs_ranges self) (LBR (lb_min (lbr_start (lbs_lbr self)) (lbr_start range)))).
(** src/lower_bounded_set.rs:77-81. *)
Definition lbs_add_set (self : LowerBoundedSet T) (set : BoundedSet T)
  : outcome (LowerBoundedSet T) :=
  foldM lbs_add_range (bs_ranges set) self.
(** src/lower_bounded_set.rs:93-95. *)
Definition lbs_contains (self : LowerBoundedSet T) (t : T) : bool :=
  lbr_contains (lbs_lbr self) t || bs_contains (lbs_ranges self) t.

(** ** src/upper_bounded_set.rs *)

(** src/upper_bounded_set.rs:22-29 [From<UpperBoundedRange>]. *)
Definition ubs_from_ubr (r : UpperBoundedRange T) : UpperBoundedSet T := UBS r bs_empty.

(** src/upper_bounded_set.rs:32-48 [defragment]. *)
Fixpoint ubs_defragment_fuel (fuel : nat) (self : UpperBoundedSet T) : outcome (UpperBoundedSet T) :=
  match fuel with
  | O => Diverge
  | S fuel' =>
    if negb (bs_is_empty (ubs_ranges self)) then
      f <- unwrap (vd_front (bs_ranges (ubs_ranges self))) ;;
      if br_is_empty (br_inter_ubr f (ubs_ubr self)) then Ret self
      else
        let '(popped, rest) := vd_pop_front (bs_ranges (ubs_ranges self)) in
        range <- unwrap popped ;;
        ubs_defragment_fuel fuel'
          (UBS (UBR (ub_max (ubr_end (ubs_ubr self)) (br_end range))) (BS rest))
    else Ret self
  end.
Definition ubs_defragment (self : UpperBoundedSet T) : outcome (UpperBoundedSet T) :=
  ubs_defragment_fuel (S (length (bs_ranges (ubs_ranges self)))) self.

(** src/upper_bounded_set.rs:49-52. *)
Definition ubs_add_range (self : UpperBoundedSet T) (range : BoundedRange T)
  : outcome (UpperBoundedSet T) :=
  ranges <- bs_add_range (ubs_ranges self) range ;;
  ubs_defragment (UBS (ubs_ubr self) ranges).
(** src/upper_bounded_set.rs:53-56. *)
Definition ubs_add_upper_bounded_range (self : UpperBoundedSet T) (range : UpperBoundedRange T)
  : outcome (UpperBoundedSet T) :=
  ubs_defragment
    (UBS (UBR (ub_max (ubr_end (ubs_ubr self)) (ubr_end range))) (ubs_ranges self)).
(** src/upper_bounded_set.rs:57-61. *)
Definition ubs_add_set (self : UpperBoundedSet T) (set : BoundedSet T)
  : outcome (UpperBoundedSet T) :=
  foldM ubs_add_range (bs_ranges set) self.
(** src/upper_bounded_set.rs:73-75. *)
Definition ubs_contains (self : UpperBoundedSet T) (t : T) : bool :=
  ubr_contains (ubs_ubr self) t || bs_contains (ubs_ranges self) t.

(** ** src/unbounded_set.rs *)

(** src/unbounded_set.rs:43-47. *)
Definition pus_contains (self : PiecewiseUnboundedSet T) (t : T) : bool :=
  ubr_contains (pus_ubr self) t || lbr_contains (pus_lbr self) t
  || bs_contains (pus_ranges self) t.

(** src/unbounded_set.rs:49-69 [PiecewiseUnboundedSet::defragment]: each call
    removes one stored range. *)
Fixpoint pus_defragment_fuel (fuel : nat) (self : PiecewiseUnboundedSet T)
  : outcome (PiecewiseUnboundedSet T) :=
  match fuel with
  | O => Diverge
  | S fuel' =>
    let ranges := bs_ranges (pus_ranges self) in
    match position (fun r => ubr_intersects_br (pus_ubr self) r) ranges with
    | Some index =>
      let '(removed, rest) := vd_remove ranges index in
      range <- unwrap removed ;;
      pus_defragment_fuel fuel'
        (PUS (UBR (ub_max (ubr_end (pus_ubr self)) (br_end range))) (BS rest) (pus_lbr self))
    | None =>
      match position (fun r => lbr_intersects_br (pus_lbr self) r) ranges with
      | Some index =>
        let '(removed, rest) := vd_remove ranges index in
        range <- unwrap removed ;;
        pus_defragment_fuel fuel'
          (PUS (pus_ubr self) (BS rest) (LBR (lb_min (lbr_start (pus_lbr self)) (br_start range))))
      | None => Ret self
      end
    end
  end.
Definition pus_defragment (self : PiecewiseUnboundedSet T) : outcome (PiecewiseUnboundedSet T) :=
  pus_defragment_fuel (S (length (bs_ranges (pus_ranges self)))) self.

(** src/unbounded_set.rs:92-96 [From<UnboundedRange>]. *)
Definition us_from_unbr (_ : UnboundedRange) : UnboundedSet T := Full.

(** src/unbounded_set.rs:107-120 [UnboundedSet::new]. *)
Definition us_new (upper : UpperBoundedRange T) (lower : LowerBoundedRange T) : UnboundedSet T :=
  if br_is_empty (ubr_inter_lbr upper lower)
  then Piecewise (PUS upper bs_empty lower)
  else Full.

(** src/unbounded_set.rs:135-140. *)
Definition us_contains (self : UnboundedSet T) (t : T) : bool :=
  match self with
  | Full => true
  | Piecewise p => pus_contains p t
  end.

(** src/unbounded_set.rs:141-146 [map_piecewise]. *)
Definition us_map_piecewise (self : UnboundedSet T)
  (f : PiecewiseUnboundedSet T -> outcome (PiecewiseUnboundedSet T)) : outcome (UnboundedSet T) :=
  match self with
  | Full => Ret Full
  | Piecewise p => p' <- f p ;; Ret (Piecewise p')
  end.

(** src/unbounded_set.rs:147-159 [UnboundedSet::defragment]. *)
Definition us_defragment (self : UnboundedSet T) : outcome (UnboundedSet T) :=
  self' <- us_map_piecewise self pus_defragment ;;
  match self' with
  | Piecewise p =>
    if ubr_intersects_lbr (pus_ubr p) (pus_lbr p) then Ret Full else Ret self'
  | Full => Ret self'
  end.

(** src/unbounded_set.rs:161-164. *)
Definition us_add_range (self : UnboundedSet T) (range : BoundedRange T)
  : outcome (UnboundedSet T) :=
  self' <- us_map_piecewise self (fun p =>
             ranges <- bs_add_range (pus_ranges p) range ;;
             Ret (PUS (pus_ubr p) ranges (pus_lbr p))) ;;
  us_defragment self'.
(** src/unbounded_set.rs:165-170. *)
Definition us_add_lower_bounded_range (self : UnboundedSet T) (range : LowerBoundedRange T)
  : outcome (UnboundedSet T) :=
  self' <- us_map_piecewise self (fun p =>
             Ret (PUS (pus_ubr p) (pus_ranges p)
                      (LBR (lb_min (lbr_start (pus_lbr p)) (lbr_start range))))) ;;
  us_defragment self'.
(** src/unbounded_set.rs:171-176. *)
Definition us_add_upper_bounded_range (self : UnboundedSet T) (range : UpperBoundedRange T)
  : outcome (UnboundedSet T) :=
  self' <- us_map_piecewise self (fun p =>
             Ret (PUS (UBR (ub_max (ubr_end (pus_ubr p)) (ubr_end range)))
                      (pus_ranges p) (pus_lbr p))) ;;
  us_defragment self'.
(** src/unbounded_set.rs:177-181. *)
Definition us_add_set (self : UnboundedSet T) (set : BoundedSet T) : outcome (UnboundedSet T) :=
  foldM us_add_range (bs_ranges set) self.
(** src/unbounded_set.rs:182-196. *)
Definition us_add_unbounded_set (self range : UnboundedSet T) : outcome (UnboundedSet T) :=
  match range with
  | Piecewise p =>
    s1 <- us_add_lower_bounded_range self (pus_lbr p) ;;
    s2 <- us_add_upper_bounded_range s1 (pus_ubr p) ;;
    s3 <- us_add_set s2 (pus_ranges p) ;;
    us_defragment s3
  | Full => Ret Full
  end.

End Sets.
