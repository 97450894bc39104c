(** Shared foundations of the model: outcomes of a Rust computation, the
    operations of [T: Copy + Ord], and the std collections the code uses. *)
From Coq Require Export List ZArith Bool.
Export ListNotations.

(** ** Outcomes *)

(** What a call can do: return, panic, or not return within the fuel the model
    gives a loop or a recursive method.  [Diverge] is never a normal value:
    theorems state that the result is [Ret _]. *)
Inductive outcome (A : Type) : Type :=
| Ret (a : A)
| Panic
| Diverge.
Arguments Ret {A} a.
Arguments Panic {A}.
Arguments Diverge {A}.

Definition bind {A B : Type} (m : outcome A) (k : A -> outcome B) : outcome B :=
  match m with
  | Ret a => k a
  | Panic => Panic
  | Diverge => Diverge
  end.

Declare Scope outcome_scope.
Delimit Scope outcome_scope with outcome.
Open Scope outcome_scope.
Notation "x <- m ;; k" := (bind m (fun x => k))
  (at level 61, m at next level, right associativity) : outcome_scope.

(** [Option::unwrap] (std): panics on [None]. *)
Definition unwrap {A : Type} (o : option A) : outcome A :=
  match o with Some a => Ret a | None => Panic end.

(** A [for x in l { s = f(s, x) }] loop whose body may panic. *)
Fixpoint foldM {A S : Type} (f : S -> A -> outcome S) (l : list A) (s : S) : outcome S :=
  match l with
  | [] => Ret s
  | x :: l' => s' <- f s x ;; foldM f l' s'
  end.

(** Collecting an iterator mapped with a function that may panic. *)
Fixpoint mapM {A B : Type} (f : A -> outcome B) (l : list A) : outcome (list B) :=
  match l with
  | [] => Ret []
  | x :: l' => y <- f x ;; ys <- mapM f l' ;; Ret (y :: ys)
  end.

(** ** [T: Copy + Ord] *)

(** The operations of the element type that the code calls: [partial_cmp]
    (for [T: Ord] this is always [Some (cmp a b)], so the class carries [cmp])
    and [==]. *)
Class Ord (T : Type) : Type := {
  cmp : T -> T -> comparison;
  teq : T -> T -> bool
}.

(** [T]'s [PartialOrd::partial_cmp]; for [T: Ord] the contract of [Ord] is
    [partial_cmp(a,b) == Some(cmp(a,b))]. *)
Definition t_partial_cmp {T : Type} {OT : Ord T} (a b : T) : option comparison :=
  Some (cmp a b).

(** The comparison operators, as std defines them from [partial_cmp]. *)
Definition t_lt {T : Type} {OT : Ord T} (a b : T) : bool :=
  match t_partial_cmp a b with Some Lt => true | _ => false end.
Definition t_le {T : Type} {OT : Ord T} (a b : T) : bool :=
  match t_partial_cmp a b with Some Lt | Some Eq => true | _ => false end.
Definition t_gt {T : Type} {OT : Ord T} (a b : T) : bool :=
  match t_partial_cmp a b with Some Gt => true | _ => false end.
Definition t_ge {T : Type} {OT : Ord T} (a b : T) : bool :=
  match t_partial_cmp a b with Some Gt | Some Eq => true | _ => false end.

(** The contract of [Ord] (std documentation): a total preorder, with [==]
    agreeing with [cmp]. *)
Class OrdLaws (T : Type) {OT : Ord T} : Prop := {
  cmp_opp : forall a b : T, cmp b a = CompOpp (cmp a b);
  cmp_trans : forall a b c : T, cmp a b <> Gt -> cmp b c <> Gt -> cmp a c <> Gt;
  teq_cmp : forall a b : T, teq a b = true <-> cmp a b = Eq
}.

(** Elements that compare equal are the same value (true of all primitive
    types).  Only needed where structural equality of results is claimed. *)
Class OrdStrict (T : Type) {OT : Ord T} : Prop := {
  cmp_eq : forall a b : T, cmp a b = Eq -> a = b
}.

(** ** [Vec] / [VecDeque] (std), as lists with the front at the head *)

(** [Iterator::position]. *)
Fixpoint position {A : Type} (f : A -> bool) (l : list A) : option nat :=
  match l with
  | [] => None
  | x :: l' => if f x then Some O else option_map S (position f l')
  end.

(** [deque[index]]: panics out of range. *)
Definition vd_index {A : Type} (l : list A) (i : nat) : outcome A :=
  unwrap (nth_error l i).

(** [VecDeque::remove]: [None], and no change, when out of range. *)
Definition vd_remove {A : Type} (l : list A) (i : nat) : option A * list A :=
  match nth_error l i with
  | Some x => (Some x, firstn i l ++ skipn (S i) l)
  | None => (None, l)
  end.

(** [VecDeque::insert]: panics when [i > len]. *)
Definition vd_insert {A : Type} (l : list A) (i : nat) (x : A) : outcome (list A) :=
  if Nat.leb i (length l) then Ret (firstn i l ++ x :: skipn i l) else Panic.

Definition vd_front {A : Type} (l : list A) : option A :=
  match l with [] => None | x :: _ => Some x end.
Definition vd_pop_front {A : Type} (l : list A) : option A * list A :=
  match l with [] => (None, []) | x :: l' => (Some x, l') end.
Definition vd_back {A : Type} (l : list A) : option A := vd_front (rev l).
Definition vd_pop_back {A : Type} (l : list A) : option A * list A :=
  match rev l with [] => (None, []) | x :: l' => (Some x, rev l') end.
