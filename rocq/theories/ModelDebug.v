(** Model of [Debug]: the derived impls of the crate's types and iterators, and std's impls for
    its ranges, [VecDeque], [PhantomData], integers and [char], under [{:?}] and [{:#?}].  A text
    is its sequence of [char]s.  Simplified: no other format flags (width, [{:x?}]), and the
    writer does not fail. *)
From Coq Require Import Ascii String DecimalString HexadecimalString.
From Verif Require Import Base ModelBound ModelRanges ModelSets ModelAlgebra ModelValue ModelIter ModelStep.
Local Open Scope Z_scope.

Definition text : Type := list Z.
(** A string literal. *)
Definition txt (s : string) : text := map (fun a => Z.of_N (N_of_ascii a)) (list_ascii_of_string s).
Definition newline : Z := 10.

(** [T: Debug].  [fmt alt t] is the text of [t], with [alt] under [{:#?}]; [phantom] the text of
    [PhantomData<T>] (std: [PhantomData] followed by the name of [T], or not, as the version has it). *)
Class Debug (T : Type) : Type := { fmt : bool -> T -> text; phantom : text }.

(** ** std::fmt::builders *)

(** What [PadAdapter] lets through: four spaces go before the first [char] of each line; [fresh]:
    a line starts here. *)
Fixpoint pad (fresh : bool) (s : text) : text :=
  match s with
  | [] => []
  | c :: s => (if fresh then txt "    " else []) ++ c :: pad (c =? newline) s
  end.
(** One entry under [{:#?}], on lines of its own. *)
Definition entry (s : text) : text := pad true (s ++ txt "," ++ [newline]).
(** Entries under [{:?}]. *)
Fixpoint commas (l : list text) : text :=
  match l with
  | [] => []
  | [s] => s
  | s :: l => s ++ txt ", " ++ commas l
  end.
(** [Formatter::debug_struct]. *)
Definition debug_struct (alt : bool) (name : text) (fields : list (text * text)) : text :=
  let named := map (fun p => fst p ++ txt ": " ++ snd p) fields in
  match fields with
  | [] => name
  | _ => if alt then name ++ txt " {" ++ [newline] ++ flat_map entry named ++ txt "}"
         else name ++ txt " { " ++ commas named ++ txt " }"
  end.
(** [Formatter::debug_tuple], for types with a name. *)
Definition debug_tuple (alt : bool) (name : text) (args : list text) : text :=
  match args with
  | [] => name
  | _ => if alt then name ++ txt "(" ++ [newline] ++ flat_map entry args ++ txt ")"
         else name ++ txt "(" ++ commas args ++ txt ")"
  end.
(** [Formatter::debug_list]. *)
Definition debug_list (alt : bool) (items : list text) : text :=
  match items with
  | [] => txt "[]"
  | _ => if alt then txt "[" ++ [newline] ++ flat_map entry items ++ txt "]"
         else txt "[" ++ commas items ++ txt "]"
  end.

Section Debug.
Context {T : Type} {DT : Debug T} (alt : bool).

(** ** The crate's types *)

(** src/bound.rs:9-16 (derive). *)
Definition d_bound (b : Bound T) : text :=
  match b with
  | Excluded a => debug_tuple alt (txt "Excluded") [fmt alt a]
  | Included a => debug_tuple alt (txt "Included") [fmt alt a]
  end.
(** src/bound.rs:62-64 (derive). *)
Definition d_lb (l : LowerBound T) : text := debug_tuple alt (txt "LowerBound") [d_bound (lb_bound l)].
(** src/bound.rs:163-165 (derive). *)
Definition d_ub (u : UpperBound T) : text := debug_tuple alt (txt "UpperBound") [d_bound (ub_bound u)].
(** src/bounded_range.rs:23-30 (derive). *)
Definition d_br (r : BoundedRange T) : text :=
  debug_struct alt (txt "BoundedRange") [(txt "start", d_lb (br_start r)); (txt "end", d_ub (br_end r))].
(** src/lower_bounded_range.rs:18-23 (derive). *)
Definition d_lbr (r : LowerBoundedRange T) : text :=
  debug_struct alt (txt "LowerBoundedRange") [(txt "start", d_lb (lbr_start r))].
(** src/upper_bounded_range.rs:17-22 (derive). *)
Definition d_ubr (r : UpperBoundedRange T) : text :=
  debug_struct alt (txt "UpperBoundedRange") [(txt "end", d_ub (ubr_end r))].
(** src/bounded_set.rs:15-20 (derive); [VecDeque]'s [Debug] (std) is [debug_list]. *)
Definition d_bs (s : BoundedSet T) : text :=
  debug_struct alt (txt "BoundedSet") [(txt "ranges", debug_list alt (map d_br (bs_ranges s)))].
(** src/lower_bounded_set.rs:18-24 (derive). *)
Definition d_lbs (s : LowerBoundedSet T) : text :=
  debug_struct alt (txt "LowerBoundedSet")
    [(txt "ranges", d_bs (lbs_ranges s)); (txt "lower_bounded_range", d_lbr (lbs_lbr s))].
(** src/upper_bounded_set.rs:14-20 (derive). *)
Definition d_ubs (s : UpperBoundedSet T) : text :=
  debug_struct alt (txt "UpperBoundedSet")
    [(txt "upper_bounded_range", d_ubr (ubs_ubr s)); (txt "ranges", d_bs (ubs_ranges s))].
(** src/unbounded_set.rs:22-29 (derive). *)
Definition d_pus (s : PiecewiseUnboundedSet T) : text :=
  debug_struct alt (txt "PiecewiseUnboundedSet")
    [(txt "upper_bounded_range", d_ubr (pus_ubr s)); (txt "ranges", d_bs (pus_ranges s));
     (txt "lower_bounded_range", d_lbr (pus_lbr s))].
(** src/unbounded_set.rs:83-90 (derive). *)
Definition d_us (s : UnboundedSet T) : text :=
  match s with
  | Full => txt "Full"
  | Piecewise p => debug_tuple alt (txt "Piecewise") [d_pus p]
  end.
(** src/unbounded_range.rs:16-18 (derive). *)
Definition d_unbr (_ : UnboundedRange) : text := txt "UnboundedRange".
(** src/empty_range.rs:16-20 (derive). *)
Definition d_empty (_ : EmptyRange) : text := debug_struct alt (txt "EmptyRange") [(txt "t", phantom (T := T))].

(** ** The iterators *)

(** src/bounded_range.rs:166-170 (derive). *)
Definition d_bri (i : BoundedRangeIter T) : text :=
  debug_struct alt (txt "BoundedRangeIter")
    [(txt "current", fmt alt (bri_current i)); (txt "last", fmt alt (bri_last_field i))].
(** src/bounded_set.rs:112-115 (derive). *)
Definition d_bsi (i : BoundedSetIter T) : text :=
  debug_struct alt (txt "BoundedSetIter")
    [(txt "range_iters", debug_list alt (map d_bri (bsi_range_iters i)))].
(** src/lower_bounded_range.rs:104-107 (derive). *)
Definition d_lbri (i : LowerBoundedRangeIter T) : text :=
  debug_struct alt (txt "LowerBoundedRangeIter") [(txt "current", fmt alt (lbri_current i))].
(** src/lower_bounded_set.rs:109-113 (derive). *)
Definition d_lbsi (i : LowerBoundedSetIter T) : text :=
  debug_struct alt (txt "LowerBoundedSetIter")
    [(txt "set_iter", d_bsi (lbsi_set_iter i)); (txt "range_iter", d_lbri (lbsi_range_iter i))].

(** ** Any of the fifteen types *)

(** The std ranges write their ends with the same formatter; a [RangeInclusive] that has been
    iterated to its end says so. *)
Definition debug (v : value T) : text :=
  match v with
  | VRange r => fmt alt (rg_start r) ++ txt ".." ++ fmt alt (rg_end r)
  | VRangeInclusive r =>
    fmt alt (ri_start r) ++ txt "..=" ++ fmt alt (ri_end r) ++ (if ri_exhausted r then txt "@exhausted" else [])
  | VRangeFrom r => fmt alt (rf_start r) ++ txt ".."
  | VRangeTo r => txt ".." ++ fmt alt (rt_end r)
  | VRangeToInclusive r => txt "..=" ++ fmt alt (rti_end r)
  | VRangeFull _ => txt ".."
  | VBR r => d_br r
  | VLBR r => d_lbr r
  | VUBR r => d_ubr r
  | VUnbR r => d_unbr r
  | VEmpty r => d_empty r
  | VBS s => d_bs s
  | VLBS s => d_lbs s
  | VUBS s => d_ubs s
  | VUS s => d_us s
  end.
End Debug.

(** ** Elements (std) *)

(** Integers: decimal, under both flags. *)
Definition decimal (z : Z) : text := txt (DecimalString.NilZero.string_of_int (Z.to_int z)).
Definition ity_name (ty : ity) : string :=
  match ty with
  | I8 => "i8" | I16 => "i16" | I32 => "i32" | I64 => "i64" | I128 => "i128" | Isize => "isize"
  | U8 => "u8" | U16 => "u16" | U32 => "u32" | U64 => "u64" | U128 => "u128" | Usize => "usize"
  end.
#[export] Instance Debug_int {PF : Platform} (ty : ity) : Debug (mint ty) :=
  {| fmt := fun _ t => decimal (mval t); phantom := txt "PhantomData<" ++ txt (ity_name ty) ++ txt ">" |}.

(** [char::escape_debug_ext] as [char]'s [Debug] calls it (double quotes are left alone).
    [plain]: std's table of what is printable and does not extend a grapheme. *)
Definition hexadecimal (z : Z) : text := txt (HexadecimalString.NilZero.string_of_uint (N.to_hex_uint (Z.to_N z))).
Definition escape (plain : Z -> bool) (c : Z) : text :=
  if c =? 0 then txt "\0" else if c =? 9 then txt "\t" else if c =? 13 then txt "\r"
  else if c =? 10 then txt "\n" else if c =? 92 then txt "\\" else if c =? 39 then txt "\'"
  else if plain c then [c] else txt "\u{" ++ hexadecimal c ++ txt "}".
Definition Debug_char (plain : Z -> bool) : Debug chr :=
  {| fmt := fun _ c => txt "'" ++ escape plain (cval c) ++ txt "'"; phantom := txt "PhantomData<char>" |}.
