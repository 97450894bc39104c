(** Model of the iterators of std ranges (library/core/src/iter/range.rs of the
    Rust standard library, outside /repo): what a user who converts a crate
    range with [into()] loops over (the conversions are src/bounded_range.rs:51-83
    and src/lower_bounded_range.rs:33-43).  [RangeInclusive::next] is in ModelConv.v.
    Simplified: for the trusted step types std calls [forward_unchecked] where
    the general code, modelled here, calls [forward_checked(..).expect(..)]. *)
From Verif Require Import Base ModelBound ModelRanges ModelStep ModelIter ModelConv.
Open Scope Z_scope.

Section StdIter.
Context {T : Type} {PF : Platform} {OT : Ord T} {ST : Step T}.

(** [Range::next]. *)
Definition std_range_next (r : Range T) : outcome (option T * Range T) :=
  if t_lt (rg_start r) (rg_end r) then
    n <- unwrap (forward_checked (rg_start r) 1) ;;
    Ret (Some (rg_start r), mkRange n (rg_end r))
  else Ret (None, r).
(** [Range::next_back]. *)
Definition std_range_next_back (r : Range T) : outcome (option T * Range T) :=
  if t_lt (rg_start r) (rg_end r) then
    n <- unwrap (backward_checked (rg_end r) 1) ;;
    Ret (Some n, mkRange (rg_start r) n)
  else Ret (None, r).
(** [Range::nth]. *)
Definition std_range_nth (r : Range T) (n : Z) : outcome (option T * Range T) :=
  let over := Ret (None, mkRange (rg_end r) (rg_end r)) in
  match forward_checked (rg_start r) n with
  | Some p =>
    if t_lt p (rg_end r) then
      q <- unwrap (forward_checked p 1) ;;
      Ret (Some p, mkRange q (rg_end r))
    else over
  | None => over
  end.
(** [Range::nth_back]. *)
Definition std_range_nth_back (r : Range T) (n : Z) : outcome (option T * Range T) :=
  let over := Ret (None, mkRange (rg_start r) (rg_start r)) in
  match backward_checked (rg_end r) n with
  | Some p =>
    if t_gt p (rg_start r) then
      q <- unwrap (backward_checked p 1) ;;
      Ret (Some q, mkRange (rg_start r) q)
    else over
  | None => over
  end.

(** [RangeInclusive::is_empty]: [exhausted || !(start <= end)]. *)
Definition std_ri_done (r : RangeInclusive T) : bool := ri_exhausted r || negb (t_le (ri_start r) (ri_end r)).
(** [RangeInclusive::next_back]. *)
Definition std_ri_next_back (m : mode) (r : RangeInclusive T) : outcome (option T * RangeInclusive T) :=
  if std_ri_done r then Ret (None, r)
  else if t_lt (ri_start r) (ri_end r) then
    n <- unwrap (backward_checked (ri_end r) 1) ;;
    Ret (Some (ri_end r), mkRangeInclusive (ri_start r) n false)
  else Ret (Some (ri_end r), mkRangeInclusive (ri_start r) (ri_end r) true).
(** [RangeInclusive::nth]. *)
Definition std_ri_nth (m : mode) (r : RangeInclusive T) (n : Z) : outcome (option T * RangeInclusive T) :=
  if std_ri_done r then Ret (None, r)
  else
    let over := Ret (None, mkRangeInclusive (ri_end r) (ri_end r) true) in
    match forward_checked (ri_start r) n with
    | Some p =>
      match cmp p (ri_end r) with
      | Lt => q <- forward m p 1 ;; Ret (Some p, mkRangeInclusive q (ri_end r) false)
      | Eq => Ret (Some p, mkRangeInclusive p (ri_end r) true)
      | Gt => over
      end
    | None => over
    end.
(** [RangeInclusive::nth_back]. *)
Definition std_ri_nth_back (m : mode) (r : RangeInclusive T) (n : Z) : outcome (option T * RangeInclusive T) :=
  if std_ri_done r then Ret (None, r)
  else
    let over := Ret (None, mkRangeInclusive (ri_start r) (ri_start r) true) in
    match backward_checked (ri_end r) n with
    | Some p =>
      match cmp p (ri_start r) with
      | Gt => q <- backward m p 1 ;; Ret (Some p, mkRangeInclusive (ri_start r) q false)
      | Eq => Ret (Some p, mkRangeInclusive (ri_start r) p true)
      | Lt => over
      end
    | None => over
    end.

(** [RangeFrom::next]. *)
Definition std_rf_next (m : mode) (r : RangeFrom T) : outcome (option T * RangeFrom T) :=
  n <- forward m (rf_start r) 1 ;;
  Ret (Some (rf_start r), mkRangeFrom n).
(** [RangeFrom::nth]. *)
Definition std_rf_nth (m : mode) (r : RangeFrom T) (n : Z) : outcome (option T * RangeFrom T) :=
  p <- forward m (rf_start r) n ;;
  q <- forward m p 1 ;;
  Ret (Some p, mkRangeFrom q).

(** The calls that move the iterators. *)
Inductive move : Type := MNext | MNextBack | MNth (n : Z) | MNthBack (n : Z).
Definition std_range_move (r : Range T) (c : move) : outcome (option T * Range T) :=
  match c with
  | MNext => std_range_next r
  | MNextBack => std_range_next_back r
  | MNth n => std_range_nth r n
  | MNthBack n => std_range_nth_back r n
  end.
Definition std_ri_move (m : mode) (r : RangeInclusive T) (c : move) : outcome (option T * RangeInclusive T) :=
  match c with
  | MNext => std_ri_next m r
  | MNextBack => std_ri_next_back m r
  | MNth n => std_ri_nth m r n
  | MNthBack n => std_ri_nth_back m r n
  end.
Definition std_rf_call (m : mode) (r : RangeFrom T) (c : up_call) : outcome (option T * RangeFrom T) :=
  match c with UpNext => std_rf_next m r | UpNth n => std_rf_nth m r n end.
End StdIter.
