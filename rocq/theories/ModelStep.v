(** Model of src/step.rs: the [Step] trait, its implementations for the
    primitive integers (with machine arithmetic) and for [char]. *)
From Verif Require Import Base.
Open Scope Z_scope.

(** ** Build configuration *)

(** Cargo profile: [Debug] has overflow checks (a panic on arithmetic
    overflow), [Release] has none (two's complement wrap). *)
Inductive mode : Set := Debug | Release.

(** [target_pointer_width]; src/step.rs:238-254 supports these three. *)
Inductive pwidth : Set := P16 | P32 | P64.
Class Platform : Set := { ptr_width : pwidth }.

Section Machine.
Context {PF : Platform}.

Definition usize_bits : Z := match ptr_width with P16 => 16 | P32 => 32 | P64 => 64 end.
Definition usize_max : Z := 2 ^ usize_bits - 1.

(** [usize] values are written as [Z] between 0 and [usize_max].  [a + b] and
    [a - b] on [usize] (language semantics, per mode). *)
Definition usize_add (m : mode) (a b : Z) : outcome Z :=
  if a + b <=? usize_max then Ret (a + b)
  else match m with Debug => Panic | Release => Ret ((a + b) mod 2 ^ usize_bits) end.
Definition usize_sub (m : mode) (a b : Z) : outcome Z :=
  if 0 <=? a - b then Ret (a - b)
  else match m with Debug => Panic | Release => Ret ((a - b) mod 2 ^ usize_bits) end.

(** ** Primitive integers (language semantics) *)

Inductive ity : Set :=
| U8 | U16 | U32 | U64 | U128 | Usize
| I8 | I16 | I32 | I64 | I128 | Isize.

Definition bits (ty : ity) : Z :=
  match ty with
  | U8 | I8 => 8 | U16 | I16 => 16 | U32 | I32 => 32 | U64 | I64 => 64 | U128 | I128 => 128
  | Usize | Isize => usize_bits
  end.
Definition signed (ty : ity) : bool :=
  match ty with I8 | I16 | I32 | I64 | I128 | Isize => true | _ => false end.
Definition imin (ty : ity) : Z := if signed ty then - 2 ^ (bits ty - 1) else 0.
Definition imax (ty : ity) : Z := if signed ty then 2 ^ (bits ty - 1) - 1 else 2 ^ bits ty - 1.
Definition fits (ty : ity) (z : Z) : bool := (imin ty <=? z) && (z <=? imax ty).

(** A value of primitive integer type [ty]. *)
Record mint (ty : ity) : Set := MI { mval : Z; mok : fits ty mval = true }.
Arguments MI {ty}. Arguments mval {ty}.

(** The value [z] if representable ([try_from]). *)
Definition of_z (ty : ity) (z : Z) : option (mint ty) :=
  (match fits ty z as b return fits ty z = b -> option (mint ty) with
   | true => fun p => Some (MI z p)
   | false => fun _ => None
   end) eq_refl.

(** Two's complement truncation to [ty]. *)
Definition wrapz (ty : ity) (z : Z) : Z :=
  if signed ty then (z + 2 ^ (bits ty - 1)) mod 2 ^ bits ty - 2 ^ (bits ty - 1)
  else z mod 2 ^ bits ty.
Lemma zero_fits (ty : ity) : fits ty 0 = true.
Proof. unfold fits, imin, imax, bits, usize_bits. destruct ptr_width, ty; reflexivity. Defined.
(** The [None] branch is unreachable (lemma [wrap_val] in StepProofs.v). *)
Definition wrap (ty : ity) (z : Z) : mint ty :=
  match of_z ty (wrapz ty z) with Some x => x | None => MI 0 (zero_fits ty) end.

(** [x as ty'] between integer types; [wrapping_*], [checked_*], and [+], [-] per mode. *)
Definition cast {ty : ity} (ty' : ity) (x : mint ty) : mint ty' := wrap ty' (mval x).
Definition wrapping_add {ty : ity} (x y : mint ty) : mint ty := wrap ty (mval x + mval y).
Definition wrapping_sub {ty : ity} (x y : mint ty) : mint ty := wrap ty (mval x - mval y).
Definition checked_add {ty : ity} (x y : mint ty) : option (mint ty) := of_z ty (mval x + mval y).
Definition checked_sub {ty : ity} (x y : mint ty) : option (mint ty) := of_z ty (mval x - mval y).
Definition op_result (m : mode) (ty : ity) (z : Z) : outcome (mint ty) :=
  match of_z ty z with
  | Some x => Ret x
  | None => match m with Debug => Panic | Release => Ret (wrap ty z) end
  end.

(** [usize::try_from(x).ok()] for an integer value. *)
Definition usize_try_from (z : Z) : option Z := if (0 <=? z) && (z <=? usize_max) then Some z else None.
(** [x as usize]. *)
Definition as_usize (z : Z) : Z := z mod 2 ^ usize_bits.

#[global] Instance OrdMint (ty : ity) : Ord (mint ty) := {
  cmp := fun a b => Z.compare (mval a) (mval b);
  teq := fun a b => Z.eqb (mval a) (mval b)
}.

(** src/step.rs:238-254: which of the two macro arms an integer type uses. *)
Definition narrower (ty : ity) : bool :=
  match ptr_width with
  | P64 => match ty with
           | U8 | I8 | U16 | I16 | U32 | I32 | U64 | I64 | Usize | Isize => true
           | U128 | I128 => false
           end
  | P32 => match ty with
           | U8 | I8 | U16 | I16 | U32 | I32 | Usize | Isize => true
           | U64 | I64 | U128 | I128 => false
           end
  | P16 => match ty with
           | U8 | I8 | U16 | I16 | Usize | Isize => true
           | U32 | I32 | U64 | I64 | U128 | I128 => false
           end
  end.
(** The [$u_narrower] paired with a signed type (the lists at src/step.rs:240-253). *)
Definition unsigned_of (ty : ity) : ity :=
  match ty with
  | I8 => U8 | I16 => U16 | I32 => U32 | I64 => U64 | I128 => U128 | Isize => Usize
  | _ => ty
  end.

(** src/step.rs:92-100 (unsigned, narrower), 123-135 (signed, narrower),
    186-193 (unsigned, wider), 210-222 (signed, wider).  [*end - *start] in the
    unsigned arms cannot overflow (guarded by [start <= end]), so the panic of
    an overflow check is not modelled there; it is written with the wrap. *)
Definition int_steps_between {ty : ity} (start end_ : mint ty) : option Z :=
  if t_le start end_ then
    if narrower ty then
      if signed ty then
        Some (as_usize (mval (wrapping_sub (cast Isize end_) (cast Isize start))))
      else Some (as_usize (mval (wrapping_sub end_ start)))
    else
      if signed ty then
        match checked_sub end_ start with
        | Some result => usize_try_from (mval result)
        | None => None
        end
      else usize_try_from (mval (wrapping_sub end_ start))
  else None.

(** src/step.rs:102-108, 137-156, 195-198, 224-227. *)
Definition int_forward_checked {ty : ity} (start : mint ty) (n : Z) : option (mint ty) :=
  if narrower ty then
    if signed ty then
      match of_z (unsigned_of ty) n with
      | Some n =>
        let wrapped := wrapping_add start (cast ty n) in
        if t_ge wrapped start then Some wrapped else None
      | None => None
      end
    else
      match of_z ty n with
      | Some n => checked_add start n
      | None => None
      end
  else checked_add start (wrap ty n).

(** src/step.rs:110-116, 158-177, 200-203, 229-232. *)
Definition int_backward_checked {ty : ity} (start : mint ty) (n : Z) : option (mint ty) :=
  if narrower ty then
    if signed ty then
      match of_z (unsigned_of ty) n with
      | Some n =>
        let wrapped := wrapping_sub start (cast ty n) in
        if t_le wrapped start then Some wrapped else None
      | None => None
      end
    else
      match of_z ty n with
      | Some n => checked_sub start n
      | None => None
      end
  else checked_sub start (wrap ty n).

(** src/step.rs:54-64.  [Self::MAX + 1] panics with overflow checks. *)
Definition int_forward (m : mode) {ty : ity} (start : mint ty) (n : Z) : outcome (mint ty) :=
  match int_forward_checked start n with
  | None =>
    _ <- op_result m ty (imax ty + 1) ;;
    Ret (wrapping_add start (wrap ty n))
  | Some _ => Ret (wrapping_add start (wrap ty n))
  end.
(** src/step.rs:66-76. *)
Definition int_backward (m : mode) {ty : ity} (start : mint ty) (n : Z) : outcome (mint ty) :=
  match int_backward_checked start n with
  | None =>
    _ <- op_result m ty (imin ty - 1) ;;
    Ret (wrapping_sub start (wrap ty n))
  | Some _ => Ret (wrapping_sub start (wrap ty n))
  end.

(** ** [char] *)

(** Unicode scalar values (language invariant of [char]). *)
Definition scalar (z : Z) : bool :=
  ((0 <=? z) && (z <? 0xD800)) || ((0xE000 <=? z) && (z <=? 0x10FFFF)).
Record chr : Set := MC { cval : Z; cok : scalar cval = true }.
Definition char_of (z : Z) : option chr :=
  (match scalar z as b return scalar z = b -> option chr with
   | true => fun p => Some (MC z p)
   | false => fun _ => None
   end) eq_refl.

#[global] Instance OrdChr : Ord chr := {
  cmp := fun a b => Z.compare (cval a) (cval b);
  teq := fun a b => Z.eqb (cval a) (cval b)
}.

(** src/step.rs:257-271.  The [u32] subtractions cannot overflow. *)
Definition char_steps_between (start end_ : chr) : option Z :=
  let start := wrap U32 (cval start) in
  let end_ := wrap U32 (cval end_) in
  if t_le start end_ then
    let count := wrapping_sub end_ start in
    if (mval start <? 0xD800) && (0xE000 <=? mval end_) then
      usize_try_from (mval (wrapping_sub count (wrap U32 0x800)))
    else usize_try_from (mval count)
  else None.

(** src/step.rs:273-287, up to the argument of [char::from_u32_unchecked].
    [0x800] is passed as a [usize] count. *)
Definition char_forward_u32 (start : chr) (count : Z) : option (mint U32) :=
  let start := wrap U32 (cval start) in
  match int_forward_checked start count with
  | None => None
  | Some res =>
    match (if (mval start <? 0xD800) && (0xD800 <=? mval res)
           then int_forward_checked res 0x800 else Some res) with
    | None => None
    | Some res => if mval res <=? 0x10FFFF then Some res else None
    end
  end.
(** src/step.rs:289-299, likewise. *)
Definition char_backward_u32 (start : chr) (count : Z) : option (mint U32) :=
  let start := wrap U32 (cval start) in
  match int_backward_checked start count with
  | None => None
  | Some res =>
    if (0xE000 <=? mval start) && (mval res <? 0xE000)
    then int_backward_checked res 0x800 else Some res
  end.

(** The [unsafe] conversion at src/step.rs:283, 298.  On a [u32] that is not a
    scalar value it is undefined behaviour; here that would show up as [None],
    and theorem C21 shows it never happens. *)
Definition from_u32_unchecked (o : option (mint U32)) : option chr :=
  match o with Some res => char_of (mval res) | None => None end.
Definition char_forward_checked (start : chr) (count : Z) : option chr :=
  from_u32_unchecked (char_forward_u32 start count).
Definition char_backward_checked (start : chr) (count : Z) : option chr :=
  from_u32_unchecked (char_backward_u32 start count).

End Machine.
Arguments MI {PF ty}. Arguments mval {PF ty}. Arguments mint {PF}.

(** ** The [Step] trait *)

(** src/step.rs:10-50: the methods, each taking the build mode where the
    documentation allows the behaviour to depend on it (30, 47). *)
Class Step (T : Type) : Type := {
  steps_between : T -> T -> option Z;
  forward_checked : T -> Z -> option T;
  backward_checked : T -> Z -> option T;
  forward : mode -> T -> Z -> outcome T;
  backward : mode -> T -> Z -> outcome T
}.

(** src/step.rs:30-32, 47-49: the provided methods, which panic in every build. *)
Definition forward_default {T : Type} (checked : T -> Z -> option T) (m : mode) (start : T) (count : Z)
  : outcome T := unwrap (checked start count).
Definition backward_default {T : Type} (checked : T -> Z -> option T) (m : mode) (start : T) (count : Z)
  : outcome T := unwrap (checked start count).

(** src/step.rs:80-254. *)
#[global] Instance StepMint {PF : Platform} (ty : ity) : Step (mint ty) := {
  steps_between := int_steps_between;
  forward_checked := int_forward_checked;
  backward_checked := int_backward_checked;
  forward := fun m => int_forward m;
  backward := fun m => int_backward m
}.
(** src/step.rs:256-300 ([forward] and [backward] are the provided ones). *)
#[global] Instance StepChr {PF : Platform} : Step chr := {
  steps_between := char_steps_between;
  forward_checked := char_forward_checked;
  backward_checked := char_backward_checked;
  forward := forward_default char_forward_checked;
  backward := backward_default char_backward_checked
}.
