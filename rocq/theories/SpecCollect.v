(** What fits in a [Vec]: no allocation exceeds [isize::MAX] bytes. *)
From Verif Require Import Base ModelStep.
Open Scope Z_scope.

Definition fits_memory {PF : Platform} {A : Type} (sz : Z) (l : list A) : Prop :=
  Z.of_nat (length l) * sz < 2 ^ (usize_bits - 1).
