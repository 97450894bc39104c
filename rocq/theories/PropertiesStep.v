(** Property theorems C18-C22: the [Step] implementations.

    [PF : Platform] is the target pointer width (16, 32 or 64); [mint ty] are
    the values of the primitive integer type [ty], [mval x] the integer [x]
    stands for; [imin ty], [imax ty] are [ty::MIN], [ty::MAX]; [chr] is [char]
    with code point [cval]. Counts are [usize]: [0 <= n <= usize_max]. *)
From Verif Require Import Base ModelBound ModelRanges ModelSets ModelValue ModelStep Spec SpecStep
  StepProofs InstancesStep StepLemmas.
Open Scope Z_scope.

(** ** C18 *)
Theorem C18_forward_checked_exact (PF : Platform) (ty : ity) (x : mint ty) (n : Z) :
  0 <= n <= usize_max ->
  (forall y : mint ty, forward_checked x n = Some y <-> mval y = mval x + n) /\
  (forward_checked x n = None <-> imax ty < mval x + n).
Proof. exact (int_forward_checked_iff ty x n). Qed.
Print Assumptions C18_forward_checked_exact.
Theorem C18_backward_checked_exact (PF : Platform) (ty : ity) (x : mint ty) (n : Z) :
  0 <= n <= usize_max ->
  (forall y : mint ty, backward_checked x n = Some y <-> mval y = mval x - n) /\
  (backward_checked x n = None <-> mval x - n < imin ty).
Proof. exact (int_backward_checked_iff ty x n). Qed.
Print Assumptions C18_backward_checked_exact.
(** -120i8 forward 200; 250u8 forward 10; u128 on 64 bits; i32 on a 16-bit target. *)
Example C18_ex :
  forward_checked (lit I8 (-120)) 200 = Some (lit I8 80) /\ forward_checked (u8 250) 10 = None /\
  backward_checked (lit U128 (2 ^ 100)) (2 ^ 64 - 1) = Some (lit U128 (2 ^ 100 - 2 ^ 64 + 1)) /\
  forward_checked (@wrap pf16 I32 2147450879) 65535 = None.
Proof. repeat split; vm_compute; reflexivity. Qed.

(** ** C19 *)
Theorem C19_steps_between_exact (PF : Platform) (ty : ity) (a b : mint ty) :
  (forall n, steps_between a b = Some n <-> mval a <= mval b /\ n = mval b - mval a /\ n <= usize_max) /\
  (steps_between a b = None <-> mval b < mval a \/ usize_max < mval b - mval a).
Proof. exact (int_steps_between_iff ty a b). Qed.
Print Assumptions C19_steps_between_exact.
Example C19_ex :
  steps_between (lit I8 (-128)) (lit I8 127) = Some 255 /\
  steps_between (lit I128 (- 2 ^ 127)) (lit I128 (2 ^ 127 - 1)) = None /\
  steps_between (lit I64 (- 2 ^ 63)) (lit I64 (2 ^ 63 - 1)) = Some (2 ^ 64 - 1) /\
  steps_between (u8 3) (u8 2) = None.
Proof. repeat split; vm_compute; reflexivity. Qed.

(** ** C20 *)
Theorem C20_debug_forward (PF : Platform) (ty : ity) (x : mint ty) (n : Z) :
  0 <= n <= usize_max ->
  (forall y : mint ty, forward Debug x n = Ret y <-> mval y = mval x + n) /\
  (forward Debug x n = Panic <-> imax ty < mval x + n).
Proof. exact (int_forward_debug_iff ty x n). Qed.
Print Assumptions C20_debug_forward.
Theorem C20_debug_backward (PF : Platform) (ty : ity) (x : mint ty) (n : Z) :
  0 <= n <= usize_max ->
  (forall y : mint ty, backward Debug x n = Ret y <-> mval y = mval x - n) /\
  (backward Debug x n = Panic <-> mval x - n < imin ty).
Proof. exact (int_backward_debug_iff ty x n). Qed.
Print Assumptions C20_debug_backward.
Theorem C20_release_wraps (PF : Platform) (ty : ity) (x : mint ty) (n : Z) :
  0 <= n <= usize_max ->
  (exists y : mint ty, forward Release x n = Ret y /\ mval y mod 2 ^ bits ty = (mval x + n) mod 2 ^ bits ty) /\
  (exists y : mint ty, backward Release x n = Ret y /\ mval y mod 2 ^ bits ty = (mval x - n) mod 2 ^ bits ty).
Proof. exact (int_release_wraps ty x n). Qed.
Print Assumptions C20_release_wraps.
Theorem C20_release_agrees (PF : Platform) (ty : ity) (x y : mint ty) (n : Z) :
  0 <= n <= usize_max ->
  (forward Debug x n = Ret y -> forward Release x n = Ret y) /\
  (backward Debug x n = Ret y -> backward Release x n = Ret y).
Proof. exact (int_release_agrees ty x y n). Qed.
Print Assumptions C20_release_agrees.
Example C20_ex :
  forward Debug (u8 250) 5 = Ret (u8 255) /\ forward Debug (u8 250) 6 = Panic /\
  forward Release (u8 250) 10 = Ret (u8 4) /\ backward Release (lit I8 (-128)) 1 = Ret (lit I8 127) /\
  backward Debug (lit I8 (-128)) 1 = Panic /\ forward Release (u8 1) 511 = Ret (u8 0).
Proof. repeat split; vm_compute; reflexivity. Qed.

(** ** C21 *)
(** The value handed to the unchecked conversion is always a scalar value. *)
Theorem C21_char_conversion_safe (PF : Platform) (c : chr) (n : Z) (r : mint U32) :
  0 <= n <= usize_max ->
  (char_forward_u32 c n = Some r -> 0 <= mval r < 0xD800 \/ 0xE000 <= mval r <= 0x10FFFF) /\
  (char_backward_u32 c n = Some r -> 0 <= mval r < 0xD800 \/ 0xE000 <= mval r <= 0x10FFFF).
Proof. exact (char_conversion_safe c n r). Qed.
Print Assumptions C21_char_conversion_safe.
(** Stepping moves along the scalar values: the result is the [char] with
    exactly [n] chars from [c] up to it, and [None] only when there is none. *)
Theorem C21_char_steps_exactly (PF : Platform) (c d : chr) (n : Z) :
  0 <= n <= usize_max ->
  (forward_checked c n = Some d <-> apart c d n) /\
  (backward_checked c n = Some d <-> apart d c n) /\
  (steps_between c d = Some n <-> apart c d n).
Proof. exact (steps_are_apart c d n). Qed.
Print Assumptions C21_char_steps_exactly.
(** The same with code points: the surrogates [0xD800..0xE000] are skipped. *)
Theorem C21_char_code_points (PF : Platform) (c d : chr) (n : Z) :
  0 <= n <= usize_max ->
  (forward_checked c n = Some d <->
   cval d = cval c + n + (if (cval c <? 0xD800) && (0xD800 <=? cval c + n) then 0x800 else 0)).
Proof. exact (char_forward_code_points c d n). Qed.
Print Assumptions C21_char_code_points.
(** Past the ends the provided [forward]/[backward] panic in both builds. *)
Theorem C21_char_unchecked (PF : Platform) (m : mode) (c d : chr) (n : Z) :
  0 <= n <= usize_max ->
  (forward m c n = Ret d <-> apart c d n) /\ (forward m c n = Panic <-> forall d, ~ apart c d n) /\
  (backward m c n = Ret d <-> apart d c n) /\ (backward m c n = Panic <-> forall d, ~ apart d c n).
Proof. exact (char_unchecked m c d n). Qed.
Print Assumptions C21_char_unchecked.
Example C21_ex :
  @forward_checked _ (@StepChr pf64) (ch 0xD7FF) 1 = Some (ch 0xE000) /\
  @backward_checked _ (@StepChr pf16) (ch 0xE001) 3 = Some (ch 0xD7FE) /\
  @forward_checked _ (@StepChr pf64) (ch 0x10FFFF) 1 = None /\
  @steps_between _ (@StepChr pf64) (ch 0) (ch 0x10FFFF) = Some 0x10F7FF /\
  @steps_between _ (@StepChr pf16) (ch 0) (ch 0x10FFFF) = None /\
  @forward _ (@StepChr pf64) Release (ch 0x10FFFF) 1 = Panic.
Proof. repeat split; vm_compute; reflexivity. Qed.

(** ** C22: for every type meeting the contract of [Step], in particular all
    the integer types and [char] (instances [StepLawsMint], [StepLawsChr]). *)
Theorem C22_round_trip (T : Type) (PF : Platform) (OT : Ord T) (ST : Step T) (NU : Numbered T) (SL : StepLaws T)
  (a b : T) (n : Z) :
  0 <= n <= usize_max ->
  (forward_checked a n = Some b <-> backward_checked b n = Some a) /\
  (forward_checked a n = Some b <-> steps_between a b = Some n).
Proof. exact (steps_round_trip a b n). Qed.
Print Assumptions C22_round_trip.
(** Steps compose, including running off the end. *)
Theorem C22_steps_compose (T : Type) (PF : Platform) (OT : Ord T) (ST : Step T) (NU : Numbered T) (SL : StepLaws T)
  (a : T) (n k : Z) :
  0 <= n -> 0 <= k -> n + k <= usize_max ->
  forward_checked a (n + k) = match forward_checked a n with Some b => forward_checked b k | None => None end /\
  backward_checked a (n + k) = match backward_checked a n with Some b => backward_checked b k | None => None end.
Proof. exact (steps_compose a n k). Qed.
Print Assumptions C22_steps_compose.
(** One step goes to the next element: nothing lies strictly between. *)
Theorem C22_successor (T : Type) (PF : Platform) (OT : Ord T) (ST : Step T) (NU : Numbered T) (SL : StepLaws T)
  (a b : T) :
  (forward_checked a 1 = Some b <-> lt a b /\ forall t, lt a t -> le b t) /\
  (forward_checked a 1 = None <-> greatest a) /\
  (backward_checked a 1 = Some b <-> lt b a /\ forall t, lt t a -> le t b) /\
  (backward_checked a 1 = None <-> least a).
Proof. exact (step_successor a b). Qed.
Print Assumptions C22_successor.
Theorem C22_integers_meet_contract (PF : Platform) (ty : ity) : StepLaws (mint ty).
Proof. exact (StepLawsMint ty). Qed.
Print Assumptions C22_integers_meet_contract.
Theorem C22_char_meets_contract (PF : Platform) : StepLaws chr.
Proof. exact StepLawsChr. Qed.
Print Assumptions C22_char_meets_contract.
Example C22_ex :
  forward_checked (lit I16 (-30000)) 60000 = Some (lit I16 30000) /\
  backward_checked (lit I16 30000) 60000 = Some (lit I16 (-30000)) /\
  steps_between (lit I16 (-30000)) (lit I16 30000) = Some 60000.
Proof. repeat split; vm_compute; reflexivity. Qed.
