(** Concrete platforms and literals used in the examples and refutations. *)
From Verif Require Import Base ModelStep.
Open Scope Z_scope.

Definition pf64 : Platform := {| ptr_width := P64 |}.
Definition pf32 : Platform := {| ptr_width := P32 |}.
Definition pf16 : Platform := {| ptr_width := P16 |}.

(** The literal [z] of type [ty] on a 64-bit target, e.g. [lit U8 250] for [250u8]. *)
Definition lit (ty : ity) (z : Z) : @mint pf64 ty := @wrap pf64 ty z.
Definition u8 (z : Z) : @mint pf64 U8 := lit U8 z.
(** The [char] with code point [z] (['\0'] when [z] is not a scalar value). *)
Definition ch (z : Z) : chr := match char_of z with Some c => c | None => MC 0 eq_refl end.
