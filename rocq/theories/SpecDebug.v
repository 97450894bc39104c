(** What [Debug] should write, said without std's builders: the shape of a value, which is its
    declaration in the source filled in, and two layouts of shapes. *)
From Coq Require Import String.
From Verif Require Import Base ModelBound ModelRanges ModelSets ModelAlgebra ModelValue ModelIter ModelDebug.

(** A text without parts, or a named tuple or struct, or a list. *)
Inductive shape : Type :=
| Leaf (s : text)
| Tuple (name : text) (arg : shape)
| Struct (name : text) (fields : list (text * shape))
| List (items : list shape).

(** [{:?}]: all on one line. *)
Fixpoint plain (s : shape) : text :=
  match s with
  | Leaf w => w
  | Tuple n a => n ++ txt "(" ++ plain a ++ txt ")"
  | Struct n fs =>
    n ++ txt " { " ++ (fix go l := match l with
      | [] => []
      | (f, a) :: l => f ++ txt ": " ++ plain a ++ match l with [] => [] | _ => txt ", " ++ go l end end) fs ++ txt " }"
  | List l =>
    txt "[" ++ (fix go l := match l with
      | [] => []
      | a :: l => plain a ++ match l with [] => [] | _ => txt ", " ++ go l end end) l ++ txt "]"
  end.

(** The start of a line at depth [d]. *)
Definition margin (d : nat) : text := repeat 32%Z (4 * d).
(** [{:#?}]: every part on a line of its own, four spaces in from what it is a part of. *)
Fixpoint pretty (d : nat) (s : shape) : text :=
  match s with
  | Leaf w => w
  | Tuple n a =>
    n ++ txt "(" ++ [newline] ++ margin (S d) ++ pretty (S d) a ++ txt "," ++ [newline] ++ margin d ++ txt ")"
  | Struct n fs =>
    n ++ txt " {" ++ [newline] ++ (fix go l := match l with
      | [] => []
      | (f, a) :: l => margin (S d) ++ f ++ txt ": " ++ pretty (S d) a ++ txt "," ++ [newline] ++ go l end) fs ++
    margin d ++ txt "}"
  | List [] => txt "[]"
  | List l =>
    txt "[" ++ [newline] ++ (fix go l := match l with
      | [] => []
      | a :: l => margin (S d) ++ pretty (S d) a ++ txt "," ++ [newline] ++ go l end) l ++
    margin d ++ txt "]"
  end.
Definition layout (alt : bool) : shape -> text := if alt then pretty 0 else plain.

Section Shapes.
Context {T : Type} (elem : T -> text) (ph : text).
Definition s_bound (b : Bound T) : shape :=
  match b with Excluded t => Tuple (txt "Excluded") (Leaf (elem t)) | Included t => Tuple (txt "Included") (Leaf (elem t)) end.
Definition s_start (l : LowerBound T) : text * shape := (txt "start", Tuple (txt "LowerBound") (s_bound (lb_bound l))).
Definition s_end (u : UpperBound T) : text * shape := (txt "end", Tuple (txt "UpperBound") (s_bound (ub_bound u))).
Definition s_br (r : BoundedRange T) : shape := Struct (txt "BoundedRange") [s_start (br_start r); s_end (br_end r)].
Definition s_lbr (r : LowerBoundedRange T) : shape := Struct (txt "LowerBoundedRange") [s_start (lbr_start r)].
Definition s_ubr (r : UpperBoundedRange T) : shape := Struct (txt "UpperBoundedRange") [s_end (ubr_end r)].
Definition s_bs (s : BoundedSet T) : shape := Struct (txt "BoundedSet") [(txt "ranges", List (map s_br (bs_ranges s)))].
Definition shape_of (v : value T) : shape :=
  match v with
  | VRange r => Leaf (elem (rg_start r) ++ txt ".." ++ elem (rg_end r))
  | VRangeInclusive r => Leaf (elem (ri_start r) ++ txt "..=" ++ elem (ri_end r) ++
      if ri_exhausted r then txt "@exhausted" else [])
  | VRangeFrom r => Leaf (elem (rf_start r) ++ txt "..")
  | VRangeTo r => Leaf (txt ".." ++ elem (rt_end r))
  | VRangeToInclusive r => Leaf (txt "..=" ++ elem (rti_end r))
  | VRangeFull _ => Leaf (txt "..")
  | VBR r => s_br r
  | VLBR r => s_lbr r
  | VUBR r => s_ubr r
  | VUnbR _ => Leaf (txt "UnboundedRange")
  | VEmpty _ => Struct (txt "EmptyRange") [(txt "t", Leaf ph)]
  | VBS s => s_bs s
  | VLBS s => Struct (txt "LowerBoundedSet") [(txt "ranges", s_bs (lbs_ranges s)); (txt "lower_bounded_range", s_lbr (lbs_lbr s))]
  | VUBS s => Struct (txt "UpperBoundedSet") [(txt "upper_bounded_range", s_ubr (ubs_ubr s)); (txt "ranges", s_bs (ubs_ranges s))]
  | VUS Full => Leaf (txt "Full")
  | VUS (Piecewise s) => Tuple (txt "Piecewise") (Struct (txt "PiecewiseUnboundedSet")
      [(txt "upper_bounded_range", s_ubr (pus_ubr s)); (txt "ranges", s_bs (pus_ranges s));
       (txt "lower_bounded_range", s_lbr (pus_lbr s))])
  end.
Definition s_bri (i : BoundedRangeIter T) : shape :=
  Struct (txt "BoundedRangeIter") [(txt "current", Leaf (elem (bri_current i))); (txt "last", Leaf (elem (bri_last_field i)))].
Definition s_bsi (i : BoundedSetIter T) : shape :=
  Struct (txt "BoundedSetIter") [(txt "range_iters", List (map s_bri (bsi_range_iters i)))].
Definition s_lbri (i : LowerBoundedRangeIter T) : shape :=
  Struct (txt "LowerBoundedRangeIter") [(txt "current", Leaf (elem (lbri_current i)))].
Definition s_lbsi (i : LowerBoundedSetIter T) : shape :=
  Struct (txt "LowerBoundedSetIter") [(txt "set_iter", s_bsi (lbsi_set_iter i)); (txt "range_iter", s_lbri (lbsi_range_iter i))].
End Shapes.

(** The elements are written on one line. *)
Definition one_line {T : Type} (elem : T -> text) : Prop := forall t, ~ In newline (elem t).

(** ** Texts that tell elements apart *)

(** Without spaces and line breaks. *)
Definition strip (s : text) : text := filter (fun c => negb (Z.eqb c 32 || Z.eqb c newline)) s.
(** What can follow an element. *)
Definition stops (s : text) : Prop :=
  match s with [] => True | c :: _ => In c (txt ",)}.@") end.
(** What an element must not start with: a capital letter, [.] or [=]. *)
Definition odd_start (s : text) : Prop :=
  match s with [] => False | c :: _ => ~ (65 <= c <= 90)%Z /\ ~ In c (txt ".=") end.
(** The texts of elements are not empty, do not look like a type's name or an operator, and, even
    without spaces, show where they end and which element they are of. *)
Class DebugLaws (T : Type) {DT : Debug T} : Prop := {
  dl_start : forall alt t, odd_start (strip (fmt alt t));
  dl_code : forall alt t u x y, stops x -> stops y ->
    strip (fmt alt t) ++ x = strip (fmt alt u) ++ y -> t = u /\ x = y }.
