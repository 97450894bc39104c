(** Specification vocabulary for calls whose panics are caught. *)
From Verif Require Import Base ModelStep ModelIter Spec SpecStep SpecIter.
Open Scope Z_scope.

Section SpecUnwind.
Context {T : Type}.

(** The elements handed out from the front, and from the back, in the order they
    came; a reply [None] is a caught panic. *)
Fixpoint from_front (cs : list call) (rs : list (option (reply T))) : list T :=
  match cs, rs with
  | (Next | Nth _) :: cs', Some (Item (Some t)) :: rs' => t :: from_front cs' rs'
  | _ :: cs', _ :: rs' => from_front cs' rs'
  | _, _ => []
  end.
Fixpoint from_back (cs : list call) (rs : list (option (reply T))) : list T :=
  match cs, rs with
  | (NextBack | NthBack _) :: cs', Some (Item (Some t)) :: rs' => t :: from_back cs' rs'
  | _ :: cs', _ :: rs' => from_back cs' rs'
  | _, _ => []
  end.
(** Calls that pass over no element. *)
Definition plain (c : call) : Prop := match c with Nth _ | NthBack _ => False | _ => True end.

(** The elements handed out by an iterator without a back end. *)
Fixpoint given (rs : list (option (option T))) : list T :=
  match rs with
  | Some (Some t) :: rs' => t :: given rs'
  | _ :: rs' => given rs'
  | [] => []
  end.
End SpecUnwind.
