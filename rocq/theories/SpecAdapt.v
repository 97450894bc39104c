(** What the adaptors are to produce. *)
From Verif Require Import Base.

(** [w] is every [k]-th element of [l], beginning with the first. *)
Definition strided {A : Type} (k : nat) (l w : list A) : Prop :=
  forall i, nth_error w i = nth_error l (i * k).
