(** Specification vocabulary for towers of adaptors: the list of items one stands for. *)
From Verif Require Import Base ModelBound ModelRanges ModelSets ModelValue ModelStep ModelIter ModelPipe Spec Reach SpecStep SpecIter.
Open Scope Z_scope.

(** Numbering from [c]. *)
Fixpoint numbered {A : Type} (c : Z) (l : list A) : list (Z * A) :=
  match l with [] => [] | a :: l' => (c, a) :: numbered (c + 1) l' end.

Fixpoint elems {PF : Platform} {S A : Type} (p : pipe S A) : list A -> Prop :=
  match p in pipe S A return list A -> Prop with
  | PRange r => lists (in_range r)
  | PSet s => lists (mem (VBS s))
  | PRev p => fun l => exists k, elems p k /\ l = rev k
  | PMap f p => fun l => exists k, elems p k /\ l = map f k
  | PEnum p => fun l => exists k, elems p k /\ l = numbered 0 k
  | PZip p q => fun l => exists k1 k2, elems p k1 /\ elems q k2 /\ l = combine k1 k2
  | PTake n p => fun l => exists k, elems p k /\ l = firstn (Z.to_nat n) k
  | PSkip n p => fun l => exists k, elems p k /\ l = skipn (Z.to_nat n) k
  | PChain p q => fun l => exists k1 k2, elems p k1 /\ elems q k2 /\ l = k1 ++ k2
  end.

(** The conditions under which the crate's iterators are known to behave
    (C25, C30): the ranges and sets have at most [usize::MAX] elements and
    neither the greatest nor the least value of their type, and nothing is
    skipped beyond the end. *)
Fixpoint roomy {PF : Platform} {S A : Type} (p : pipe S A) : Prop :=
  match p with
  | @PRange _ T OT ST r =>
    (exists NU : Numbered T, StepLaws T) /\ (exists it, br_into_iter Debug r = Ret it) /\
    (forall t, in_range r t -> ~ greatest t /\ ~ least t) /\ small (in_range r)
  | @PSet _ T OT ST s =>
    (exists NU : Numbered T, StepLaws T) /\ api (VBS s) /\
    (forall t, mem (VBS s) t -> ~ greatest t /\ ~ least t) /\ small (mem (VBS s))
  | PRev p | PMap _ p | PEnum p => roomy p
  | PZip p q => roomy p /\ roomy q
  | PTake n p => roomy p /\ 0 <= n <= usize_max
  | PSkip n p => roomy p /\ 0 <= n /\ forall k, elems p k -> n <= Z.of_nat (length k)
  | PChain p q => roomy p /\ roomy q /\
    forall k1 k2, elems p k1 -> elems q k2 -> Z.of_nat (length k1) + Z.of_nat (length k2) <= usize_max
  end.
