(** What a document says, for the properties of deserialisation: a relation
    between serde's data model and the values, written without the functions of
    ModelSerde.v. *)
From Coq Require Import String.
From Verif Require Import Base ModelBound ModelRanges ModelSets ModelSerde.
Open Scope string_scope.
Open Scope list_scope.

(** [x] identifies the [i]-th of [names]. *)
Definition refers (names : list string) (x : ident) (i : nat) : Prop :=
  match x with
  | Name s => nth_error names i = Some s
  | Index n => n = i /\ (i < length names)%nat
  end.
(** Exactly one entry of [l] is for the [i]-th name, and its value is [y]. *)
Definition holds_once {W : Type} (names : list string) (l : list (ident * tree W)) (i : nat) (y : tree W) : Prop :=
  exists l1 x l2, l = l1 ++ (x, y) :: l2 /\ refers names x i /\ forall p, In p (l1 ++ l2) -> ~ refers names (fst p) i.
(** [x] is a struct with the fields [names] whose values are [ys]. *)
Definition says_struct {W : Type} (names : list string) (x : tree W) (ys : list (tree W)) : Prop :=
  length ys = length names /\
  match x with
  | TFields l => forall i y, nth_error ys i = Some y -> holds_once names l i y
  | TSeq l => l = ys
  | _ => False
  end.

Section Says.
Context {T W : Type} {CO : Codec T W}.
Notation tree := (tree W).

Definition says_bound (x : tree) (b : Bound T) : Prop :=
  exists v w t, x = TVariant v (Some (TElem w)) /\ dec w = Some t /\
    (refers ["Excluded"; "Included"] v 0 /\ b = Excluded t \/ refers ["Excluded"; "Included"] v 1 /\ b = Included t).
Definition says_newtype (x y : tree) : Prop := x = TNewtype y \/ x = TSeq [y].
Definition says_lower (x : tree) (l : LowerBound T) : Prop := exists y, says_newtype x y /\ says_bound y (lb_bound l).
Definition says_upper (x : tree) (u : UpperBound T) : Prop := exists y, says_newtype x y /\ says_bound y (ub_bound u).
Definition says_br (x : tree) (r : BoundedRange T) : Prop :=
  exists a b, says_struct ["start"; "end"] x [a; b] /\ says_lower a (br_start r) /\ says_upper b (br_end r).
Definition says_lbr (x : tree) (r : LowerBoundedRange T) : Prop :=
  exists a, says_struct ["start"] x [a] /\ says_lower a (lbr_start r).
Definition says_ubr (x : tree) (r : UpperBoundedRange T) : Prop :=
  exists b, says_struct ["end"] x [b] /\ says_upper b (ubr_end r).
Definition says_bs (x : tree) (s : BoundedSet T) : Prop :=
  exists l, says_struct ["ranges"] x [TSeq l] /\ Forall2 says_br l (bs_ranges s).
Definition says_lbs (x : tree) (s : LowerBoundedSet T) : Prop :=
  exists a b, says_struct ["ranges"; "lower_bounded_range"] x [a; b] /\ says_bs a (lbs_ranges s) /\ says_lbr b (lbs_lbr s).
Definition says_ubs (x : tree) (s : UpperBoundedSet T) : Prop :=
  exists a b, says_struct ["upper_bounded_range"; "ranges"] x [a; b] /\ says_ubr a (ubs_ubr s) /\ says_bs b (ubs_ranges s).
Definition says_pus (x : tree) (s : PiecewiseUnboundedSet T) : Prop :=
  exists a b c, says_struct ["upper_bounded_range"; "ranges"; "lower_bounded_range"] x [a; b; c] /\
    says_ubr a (pus_ubr s) /\ says_bs b (pus_ranges s) /\ says_lbr c (pus_lbr s).
Definition says_us (x : tree) (s : UnboundedSet T) : Prop :=
  match s with
  | Full => exists v, x = TVariant v None /\ refers ["Full"; "Piecewise"] v 0
  | Piecewise p => exists v y, x = TVariant v (Some y) /\ refers ["Full"; "Piecewise"] v 1 /\ says_pus y p
  end.
End Says.
