(** Specification vocabulary for iteration: a double-ended queue, positions in
    an ascending enumeration. *)
From Coq Require Import Sorted.
From Verif Require Import Base ModelBound ModelRanges ModelSets ModelValue ModelStep ModelIter Spec SpecStep.
Open Scope Z_scope.

Section SpecIter.
Context {T : Type} {PF : Platform} {OT : Ord T}.

(** What a double-ended queue holding [l] answers to a call, and what it holds afterwards. *)
Definition deque_call (l : list T) (c : call) : reply T * list T :=
  match c with
  | Next => (Item (hd_error l), tl l)
  | NextBack => (Item (hd_error (rev l)), rev (tl (rev l)))
  | Nth n => (Item (nth_error l (Z.to_nat n)), skipn (S (Z.to_nat n)) l)
  | NthBack n => (Item (nth_error (rev l) (Z.to_nat n)), rev (skipn (S (Z.to_nat n)) (rev l)))
  | Len => (Count (Z.of_nat (length l)), l)
  end.
Fixpoint deque_run (l : list T) (cs : list call) : list (reply T) * list T :=
  match cs with
  | [] => ([], l)
  | c :: cs' =>
    let p := deque_call l c in
    let q := deque_run (snd p) cs' in
    (fst p :: fst q, snd q)
  end.

(** The arguments of the calls are [usize] values. *)
Definition call_ok (c : call) : Prop :=
  match c with Nth n | NthBack n => 0 <= n <= usize_max | _ => True end.
Definition up_call_ok (c : up_call) : Prop :=
  match c with UpNth n => 0 <= n <= usize_max | UpNext => True end.

(** [nth(n)] / [nth_back(n)] are only called with [n] up to the number of
    elements left. *)
Fixpoint within (l : list T) (cs : list call) : Prop :=
  match cs with
  | [] => True
  | c :: cs' =>
    match c with Nth n | NthBack n => 0 <= n <= Z.of_nat (length l) | _ => True end
    /\ within (snd (deque_call l c)) cs'
  end.

(** [e] is the element number [p] (from 0) of the elements satisfying [P]:
    exactly [p] of them are smaller. *)
Definition ranked (P : T -> Prop) (e : T) (p : Z) : Prop :=
  P e /\ exists l, lists (fun t => P t /\ lt t e) l /\ Z.of_nat (length l) = p.

(** Which element each of a sequence of [next]/[nth] calls is to return, when
    [p] elements have been passed already. *)
Fixpoint positions (p : Z) (cs : list up_call) : list Z :=
  match cs with
  | [] => []
  | UpNext :: cs' => p :: positions (p + 1) cs'
  | UpNth n :: cs' => p + n :: positions (p + n + 1) cs'
  end.

(** How many elements the calls pass. *)
Fixpoint passed (cs : list up_call) : Z :=
  match cs with
  | [] => 0
  | UpNext :: cs' => 1 + passed cs'
  | UpNth n :: cs' => n + 1 + passed cs'
  end.

(** The number of elements of [P] fits [usize]. *)
Definition small (P : T -> Prop) : Prop :=
  forall l, lists P l -> Z.of_nat (length l) <= usize_max.

(** One element more than [usize::MAX]. *)
Definition brimful (P : T -> Prop) : Prop :=
  exists l, lists P l /\ Z.of_nat (length l) = usize_max + 1.

(** The elements in those of the pieces that have at most [usize::MAX] of them. *)
Definition in_small_pieces (rs : list (BoundedRange T)) (t : T) : Prop :=
  exists r, In r rs /\ in_range r t /\ small (in_range r).

(** A count too large for [usize] is given as 0. *)
Definition clipped (a : reply T) : reply T :=
  match a with
  | Count n => Count (if n <=? usize_max then n else 0)
  | Item o => Item o
  end.

End SpecIter.
