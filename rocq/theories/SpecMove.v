(** Specification vocabulary: what is left after taking elements off the ends of a list. *)
From Verif Require Import Base ModelBound ModelStep ModelIter ModelStdIter.
Open Scope Z_scope.

Section SpecMove.
Context {T : Type} {PF : Platform}.

(** [nth(n)] drops [n] elements and takes the next one, [nth_back(n)] the same from the other end. *)
Definition take_front (l : list T) (n : Z) : option T * list T :=
  (nth_error l (Z.to_nat n), skipn (S (Z.to_nat n)) l).
Definition take_move (l : list T) (c : move) : option T * list T :=
  match c with
  | MNext => take_front l 0
  | MNth n => take_front l n
  | MNextBack => let p := take_front (rev l) 0 in (fst p, rev (snd p))
  | MNthBack n => let p := take_front (rev l) n in (fst p, rev (snd p))
  end.
Fixpoint take_moves (l : list T) (cs : list move) : list (option T) * list T :=
  match cs with
  | [] => ([], l)
  | c :: cs' => let p := take_move l c in let q := take_moves (snd p) cs' in (fst p :: fst q, snd q)
  end.

(** The arguments are [usize] values. *)
Definition move_ok (c : move) : Prop :=
  match c with MNth n | MNthBack n => 0 <= n <= usize_max | _ => True end.
End SpecMove.
