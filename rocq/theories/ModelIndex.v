(** Model of src/implementations/index/*.rs.

    Every impl there converts the crate range of [usize] to the std range and
    indexes with that: [&self[std::ops::Range::from(r)]].  The std indexing is
    modelled from its documented behaviour; positions are the integers of
    [mint Usize]. *)
From Verif Require Import Base ModelBound ModelRanges ModelStep ModelConv.
Open Scope Z_scope.

Section Index.
Context {PF : Platform}.
Notation usize := (mint Usize).

(** ** std: slices ([SliceIndex<[T]>]).  The positions selected, or a panic. *)
Definition std_slice_range (len : Z) (r : Range usize) : outcome (Z * Z) :=
  let (s, e) := (mval (rg_start r), mval (rg_end r)) in
  if (s <=? e) && (e <=? len) then Ret (s, e) else Panic.
Definition std_slice_range_from (len : Z) (r : RangeFrom usize) : outcome (Z * Z) :=
  let s := mval (rf_start r) in
  if s <=? len then Ret (s, len) else Panic.
Definition std_slice_range_to (len : Z) (r : RangeTo usize) : outcome (Z * Z) :=
  let e := mval (rt_end r) in
  if e <=? len then Ret (0, e) else Panic.
Definition std_slice_range_full (len : Z) (_ : RangeFull) : outcome (Z * Z) := Ret (0, len).

(** ** std: strings ([SliceIndex<str>]).  A string is its bytes. *)
(** [str::is_char_boundary]. *)
Definition is_char_boundary (s : list Z) (i : Z) : bool :=
  if i =? 0 then true
  else if Z.of_nat (length s) <=? i then i =? Z.of_nat (length s)
  else match nth_error s (Z.to_nat i) with
       | Some b => negb ((0x80 <=? b) && (b <? 0xC0))
       | None => false
       end.
Definition std_str_range (s : list Z) (r : Range usize) : outcome (Z * Z) :=
  let (a, b) := (mval (rg_start r), mval (rg_end r)) in
  if (a <=? b) && is_char_boundary s a && is_char_boundary s b then Ret (a, b) else Panic.
Definition std_str_range_from (s : list Z) (r : RangeFrom usize) : outcome (Z * Z) :=
  let a := mval (rf_start r) in
  if is_char_boundary s a then Ret (a, Z.of_nat (length s)) else Panic.
Definition std_str_range_to (s : list Z) (r : RangeTo usize) : outcome (Z * Z) :=
  let b := mval (rt_end r) in
  if is_char_boundary s b then Ret (0, b) else Panic.
Definition std_str_range_full (s : list Z) (_ : RangeFull) : outcome (Z * Z) := Ret (0, Z.of_nat (length s)).

(** ** std: [CStr] indexed by [RangeFrom]: the bytes include the final nul,
    which must be kept. *)
Definition std_cstr_range_from (len_with_nul : Z) (r : RangeFrom usize) : outcome (Z * Z) :=
  let s := mval (rf_start r) in
  if s <? len_with_nul then Ret (s, len_with_nul) else Panic.

(** The part of [v] at positions [s..e], and [v] with that part replaced. *)
Definition part {A : Type} (v : list A) (p : Z * Z) : list A :=
  firstn (Z.to_nat (snd p - fst p)) (skipn (Z.to_nat (fst p)) v).
Definition put {A : Type} (v : list A) (p : Z * Z) (w : list A) : list A :=
  firstn (Z.to_nat (fst p)) v ++ w ++ skipn (Z.to_nat (snd p)) v.

(** ** The crate: a range of any of the five types. *)
Inductive index_range : Type :=
| IxBounded (r : BoundedRange usize)
| IxLower (r : LowerBoundedRange usize)
| IxUpper (r : UpperBoundedRange usize)
| IxUnbounded (r : UnboundedRange)
| IxEmpty (r : EmptyRange).

(** Slices and vectors.
    index/bounded_range.rs:29-53, index/lower_bounded_range.rs:36-60,
    index/upper_bounded_range.rs:29-53, index/unbounded_range.rs:49-73,
    index/empty_range.rs:17-29. *)
Definition slice_positions (m : mode) (len : Z) (r : index_range) : outcome (Z * Z) :=
  match r with
  | IxBounded r => q <- range_from_br m r ;; std_slice_range len q
  | IxLower r => q <- range_from_from_lbr m r ;; std_slice_range_from len q
  | IxUpper r => q <- range_to_from_ubr m r ;; std_slice_range_to len q
  | IxUnbounded r => std_slice_range_full len (range_full_from_unbr r)
  | IxEmpty r => std_slice_range len (range_from_empty r)
  end.
(** [&v[r]]. *)
Definition slice_index {A : Type} (m : mode) (v : list A) (r : index_range) : outcome (list A) :=
  p <- slice_positions m (Z.of_nat (length v)) r ;; Ret (part v p).
(** [v[r].f()] for an [f] that changes the elements of the [&mut [A]] it gets
    ([f] keeps the length): the new [v].  ([EmptyRange] has no [IndexMut].) *)
Definition slice_index_mut {A : Type} (m : mode) (v : list A) (r : index_range) (f : list A -> list A) : outcome (list A) :=
  p <- slice_positions m (Z.of_nat (length v)) r ;; Ret (put v p (f (part v p))).

(** [str] and [String].
    index/bounded_range.rs:3-27, index/lower_bounded_range.rs:3-27,
    index/upper_bounded_range.rs:3-27, index/unbounded_range.rs:3-27,
    index/empty_range.rs:3-15. *)
Definition str_positions (m : mode) (s : list Z) (r : index_range) : outcome (Z * Z) :=
  match r with
  | IxBounded r => q <- range_from_br m r ;; std_str_range s q
  | IxLower r => q <- range_from_from_lbr m r ;; std_str_range_from s q
  | IxUpper r => q <- range_to_from_ubr m r ;; std_str_range_to s q
  | IxUnbounded r => std_str_range_full s (range_full_from_unbr r)
  | IxEmpty r => std_str_range s (range_from_empty r)
  end.
Definition str_index (m : mode) (s : list Z) (r : index_range) : outcome (list Z) :=
  p <- str_positions m s r ;; Ret (part s p).
Definition str_index_mut (m : mode) (s : list Z) (r : index_range) (f : list Z -> list Z) : outcome (list Z) :=
  p <- str_positions m s r ;; Ret (put s p (f (part s p))).

(** [CStr] ([v] without the final nul): index/lower_bounded_range.rs:29-34. *)
Definition cstr_index (m : mode) (v : list Z) (r : LowerBoundedRange usize) : outcome (list Z) :=
  q <- range_from_from_lbr m r ;;
  p <- std_cstr_range_from (Z.of_nat (length v) + 1) q ;;
  Ret (part v p).
(** [CString] and [OsString] with [UnboundedRange]: index/unbounded_range.rs:29-41. *)
Definition full_index {A : Type} (v : list A) (r : UnboundedRange) : list A :=
  match range_full_from_unbr r with mkRangeFull => v end.
(** Writing through [OsString] indexed by [UnboundedRange]: index/unbounded_range.rs:43-47. *)
Definition full_index_mut {A : Type} (v : list A) (r : UnboundedRange) (f : list A -> list A) : list A :=
  match range_full_from_unbr r with mkRangeFull => f v end.

End Index.
