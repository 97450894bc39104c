(** Model of the [serde] feature: the derived [Serialize] and [Deserialize]
    impls, [cfg_attr(feature = "serde", derive(Deserialize, Serialize))] on
    src/bound.rs:11-16, 64, 165, src/bounded_range.rs:25-30,
    src/lower_bounded_range.rs:20-23, src/upper_bounded_range.rs:19-22,
    src/unbounded_range.rs:18, src/empty_range.rs:18-20,
    src/bounded_set.rs:17-20, src/lower_bounded_set.rs:20-24,
    src/upper_bounded_set.rs:16-20, src/unbounded_set.rs:24-29, 85-90.

    The code is generated by serde_derive (outside /repo) and is modelled from
    its documentation: a value passes through serde's data model ([tree]); a
    format may hand a struct back as named fields or as a sequence and a variant
    by its name or its index.  There are no serde attributes on the types: no
    [try_from], [deny_unknown_fields] or custom function. *)
From Coq Require Import String.
From Verif Require Import Base ModelBound ModelRanges ModelSets ModelValue.
Open Scope string_scope.

(** How a field or variant is identified. *)
Inductive ident : Type := Name (s : string) | Index (n : nat).

(** serde's data model, as far as these types use it; [W] is what the element
    type writes. *)
Inductive tree (W : Type) : Type :=
| TElem (w : W)
| TUnit
| TNewtype (x : tree W)
| TSeq (l : list (tree W))
| TFields (l : list (ident * tree W))
| TVariant (v : ident) (x : option (tree W)).
Arguments TElem {W} w. Arguments TUnit {W}. Arguments TNewtype {W} x. Arguments TSeq {W} l.
Arguments TFields {W} l. Arguments TVariant {W} v x.

(** The choices of a format: structs as fields or as a sequence, identifiers as
    names or as indices. *)
Record format : Type := mkFormat { by_fields : bool; by_name : bool }.

(** The element type's own impls. *)
Class Codec (T W : Type) : Type := { enc : T -> W; dec : W -> option T }.

Definition obind {A B : Type} (x : option A) (f : A -> option B) : option B :=
  match x with Some a => f a | None => None end.
Fixpoint omap {A B : Type} (f : A -> option B) (l : list A) : option (list B) :=
  match l with
  | [] => Some []
  | a :: l => obind (f a) (fun b => obind (omap f l) (fun k => Some (b :: k)))
  end.

(** ** Identifiers, structs and enums in general *)
Definition ident_of (f : format) (names : list string) (i : nat) : ident :=
  if by_name f then Name (nth i names "") else Index i.
(** The derived identifier visitor: which of [names] is meant, if any. *)
Definition resolve (names : list string) (x : ident) : option nat :=
  match x with
  | Name s => position (String.eqb s) names
  | Index n => if Nat.ltb n (length names) then Some n else None
  end.

Definition ser_struct {W : Type} (f : format) (names : list string) (xs : list (tree W)) : tree W :=
  if by_fields f then
    TFields (map (fun p => (ident_of f names (fst p), snd p)) (combine (seq 0 (length xs)) xs))
  else TSeq xs.

(** [visit_map]: fields in any order, unknown ones ignored; a repeated or a
    missing field is an error. *)
Definition field_values {W : Type} (names : list string) (l : list (ident * tree W)) (i : nat) : list (tree W) :=
  map snd (filter (fun p => match resolve names (fst p) with Some j => Nat.eqb j i | None => false end) l).
Definition the_one {A : Type} (l : list A) : option A := match l with [x] => Some x | _ => None end.
Definition de_struct {W : Type} (names : list string) (x : tree W) : option (list (tree W)) :=
  match x with
  | TFields l => omap (fun i => the_one (field_values names l i)) (seq 0 (length names))
  | TSeq l => if Nat.eqb (length l) (length names) then Some l else None
  | _ => None
  end.

Definition ser_variant {W : Type} (f : format) (names : list string) (i : nat) (x : option (tree W)) : tree W :=
  TVariant (ident_of f names i) x.
Definition de_variant {W : Type} (names : list string) (x : tree W) : option (nat * option (tree W)) :=
  match x with
  | TVariant v y => obind (resolve names v) (fun i => Some (i, y))
  | _ => None
  end.

Section Serde.
Context {T W : Type} {CO : Codec T W}.
Notation tree := (tree W).

Definition ser_elem (t : T) : tree := TElem (enc t).
Definition de_elem (x : tree) : option T := match x with TElem w => dec w | _ => None end.

(** src/bound.rs:11-16. *)
Definition bound_names := ["Excluded"; "Included"].
Definition ser_bound (f : format) (b : Bound T) : tree :=
  match b with
  | Excluded t => ser_variant f bound_names 0 (Some (ser_elem t))
  | Included t => ser_variant f bound_names 1 (Some (ser_elem t))
  end.
Definition de_bound (x : tree) : option (Bound T) :=
  obind (de_variant bound_names x) (fun p =>
  match p with
  | (0%nat, Some y) => obind (de_elem y) (fun t => Some (Excluded t))
  | (1%nat, Some y) => obind (de_elem y) (fun t => Some (Included t))
  | _ => None
  end).

(** src/bound.rs:64, 165: newtype structs; [visit_newtype_struct] and [visit_seq]. *)
Definition de_newtype (x : tree) : option tree :=
  match x with TNewtype y => Some y | TSeq [y] => Some y | _ => None end.
Definition ser_lower (f : format) (l : LowerBound T) : tree := TNewtype (ser_bound f (lb_bound l)).
Definition de_lower (x : tree) : option (LowerBound T) :=
  obind (de_newtype x) (fun y => obind (de_bound y) (fun b => Some (LB b))).
Definition ser_upper (f : format) (u : UpperBound T) : tree := TNewtype (ser_bound f (ub_bound u)).
Definition de_upper (x : tree) : option (UpperBound T) :=
  obind (de_newtype x) (fun y => obind (de_bound y) (fun b => Some (UB b))).

(** src/bounded_range.rs:25-30. *)
Definition ser_br (f : format) (r : BoundedRange T) : tree :=
  ser_struct f ["start"; "end"] [ser_lower f (br_start r); ser_upper f (br_end r)].
Definition de_br (x : tree) : option (BoundedRange T) :=
  obind (de_struct ["start"; "end"] x) (fun xs =>
  match xs with
  | [a; b] => obind (de_lower a) (fun s => obind (de_upper b) (fun e => Some (BR s e)))
  | _ => None
  end).
(** src/lower_bounded_range.rs:20-23. *)
Definition ser_lbr (f : format) (r : LowerBoundedRange T) : tree := ser_struct f ["start"] [ser_lower f (lbr_start r)].
Definition de_lbr (x : tree) : option (LowerBoundedRange T) :=
  obind (de_struct ["start"] x) (fun xs => match xs with [a] => obind (de_lower a) (fun s => Some (LBR s)) | _ => None end).
(** src/upper_bounded_range.rs:19-22. *)
Definition ser_ubr (f : format) (r : UpperBoundedRange T) : tree := ser_struct f ["end"] [ser_upper f (ubr_end r)].
Definition de_ubr (x : tree) : option (UpperBoundedRange T) :=
  obind (de_struct ["end"] x) (fun xs => match xs with [a] => obind (de_upper a) (fun e => Some (UBR e)) | _ => None end).
(** src/unbounded_range.rs:18: a unit struct. *)
Definition de_unit (x : tree) : option unit := match x with TUnit => Some tt | _ => None end.
Definition ser_unbr (_ : UnboundedRange) : tree := TUnit.
Definition de_unbr (x : tree) : option UnboundedRange := obind (de_unit x) (fun _ => Some mkUnboundedRange).
(** src/empty_range.rs:18-20: the field is [PhantomData], written as a unit struct. *)
Definition ser_er (f : format) (_ : EmptyRange) : tree := ser_struct f ["t"] [TUnit].
Definition de_er (x : tree) : option EmptyRange :=
  obind (de_struct ["t"] x) (fun xs => match xs with [a] => obind (de_unit a) (fun _ => Some mkEmptyRange) | _ => None end).

(** src/bounded_set.rs:17-20: the [VecDeque] is a sequence. *)
Definition ser_bs (f : format) (s : BoundedSet T) : tree := ser_struct f ["ranges"] [TSeq (map (ser_br f) (bs_ranges s))].
Definition de_bs (x : tree) : option (BoundedSet T) :=
  obind (de_struct ["ranges"] x) (fun xs =>
  match xs with
  | [TSeq l] => obind (omap de_br l) (fun rs => Some (BS rs))
  | _ => None
  end).
(** src/lower_bounded_set.rs:20-24. *)
Definition ser_lbs (f : format) (s : LowerBoundedSet T) : tree :=
  ser_struct f ["ranges"; "lower_bounded_range"] [ser_bs f (lbs_ranges s); ser_lbr f (lbs_lbr s)].
Definition de_lbs (x : tree) : option (LowerBoundedSet T) :=
  obind (de_struct ["ranges"; "lower_bounded_range"] x) (fun xs =>
  match xs with
  | [a; b] => obind (de_bs a) (fun rs => obind (de_lbr b) (fun l => Some (LBS rs l)))
  | _ => None
  end).
(** src/upper_bounded_set.rs:16-20. *)
Definition ser_ubs (f : format) (s : UpperBoundedSet T) : tree :=
  ser_struct f ["upper_bounded_range"; "ranges"] [ser_ubr f (ubs_ubr s); ser_bs f (ubs_ranges s)].
Definition de_ubs (x : tree) : option (UpperBoundedSet T) :=
  obind (de_struct ["upper_bounded_range"; "ranges"] x) (fun xs =>
  match xs with
  | [a; b] => obind (de_ubr a) (fun u => obind (de_bs b) (fun rs => Some (UBS u rs)))
  | _ => None
  end).
(** src/unbounded_set.rs:24-29. *)
Definition pus_names := ["upper_bounded_range"; "ranges"; "lower_bounded_range"].
Definition ser_pus (f : format) (s : PiecewiseUnboundedSet T) : tree :=
  ser_struct f pus_names [ser_ubr f (pus_ubr s); ser_bs f (pus_ranges s); ser_lbr f (pus_lbr s)].
Definition de_pus (x : tree) : option (PiecewiseUnboundedSet T) :=
  obind (de_struct pus_names x) (fun xs =>
  match xs with
  | [a; b; c] =>
    obind (de_ubr a) (fun u => obind (de_bs b) (fun rs => obind (de_lbr c) (fun l => Some (PUS u rs l))))
  | _ => None
  end).
(** src/unbounded_set.rs:85-90. *)
Definition us_names := ["Full"; "Piecewise"].
Definition ser_us (f : format) (s : UnboundedSet T) : tree :=
  match s with
  | Full => ser_variant f us_names 0 None
  | Piecewise p => ser_variant f us_names 1 (Some (ser_pus f p))
  end.
Definition de_us (x : tree) : option (UnboundedSet T) :=
  obind (de_variant us_names x) (fun p =>
  match p with
  | (0%nat, None) => Some Full
  | (1%nat, Some y) => obind (de_pus y) (fun p => Some (Piecewise p))
  | _ => None
  end).
End Serde.
