(** Iterating a value, as a client sees it: which lists a loop over it collects,
    and how programs are restricted so that it does. *)
From Verif Require Import Base ModelBound ModelRanges ModelSets ModelAlgebra ModelValue ModelStep ModelIter
  Spec SpecBounds SpecStep SpecIter.
Open Scope Z_scope.

Section SpecMore.
Context {T : Type} {PF : Platform} {OT : Ord T} {ST : Step T}.

(** [v.into_iter().collect()] in build [m] ends in [o] (client code). *)
Definition collects (m : mode) (v : value T) (o : outcome (list T)) : Prop :=
  match v with
  | VBR r => exists it, br_into_iter m r = Ret it /\ drains (bri_next m) it o
  | VBS s => exists it, bs_into_iter m s = Ret it /\ drains (bsi_next m) it o
  | _ => False
  end.
(** The iterator of [v] answers the calls [cs] with [reps] (client code). *)
Definition ascends (m : mode) (v : value T) (cs : list up_call) (reps : list (option T)) : Prop :=
  match v with
  | VLBR r => exists it it', lbr_into_iter m r = Ret it /\ run (lbri_call m) it cs = Ret (reps, it')
  | VLBS s => exists it it', lbs_into_iter m s = Ret it /\ run (lbsi_call m) it cs = Ret (reps, it')
  | _ => False
  end.
(** No range the program starts from is written with the greatest or least
    value of the type. *)
Definition interior (e : expr T) : Prop :=
  forall x t, In x (leaves e) -> In t (endpoints x) -> ~ greatest t /\ ~ least t.
(** From any endpoint to any other there are at most [usize::MAX] elements. *)
Definition near (e : expr T) : Prop :=
  forall x y a b, In x (leaves e) -> In y (leaves e) -> In a (endpoints x) -> In b (endpoints y) ->
  small (fun t => le a t /\ le t b).

End SpecMore.
