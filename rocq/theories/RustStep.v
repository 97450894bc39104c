(** The source of src/step.rs, run by RustEval.v on machine integers, gives what the model functions of
    ModelStep.v give: for the twelve integer types on the three pointer widths, and for [char]. *)
From Coq Require Import String Lia ZifyBool.
From Verif Require Import Base ModelBound ModelRanges ModelSets ModelValue ModelStep StepProofs
  RustSyntax Source RustEval RustEnc RustTac RustRange RustIter RustIterSet.
Open Scope Z_scope.
Open Scope string_scope.
Open Scope list_scope.

(** The name of an integer type in the source, and its values. *)
Definition int_name (ty : ity) : string :=
  match ty with
  | U8 => "u8" | U16 => "u16" | U32 => "u32" | U64 => "u64" | U128 => "u128" | Usize => "usize"
  | I8 => "i8" | I16 => "i16" | I32 => "i32" | I64 => "i64" | I128 => "i128" | Isize => "isize"
  end.
Notation st ty n := (KFn (Some ("Step", "")) ty [] n).

(** The model functions on the values. *)
Section Values.
Context {PF : Platform}.
Definition opt_fits (ty : ity) (z : Z) : option Z := if fits ty z then Some z else None.
Definition z_forward_checked (ty : ity) (a n : Z) : option Z :=
  if narrower ty then
    if signed ty then
      if fits (unsigned_of ty) n then
        let w := wrapz ty (a + wrapz ty n) in if (a <=? w)%Z then Some w else None
      else None
    else if fits ty n then opt_fits ty (a + n) else None
  else opt_fits ty (a + wrapz ty n).
Definition z_backward_checked (ty : ity) (a n : Z) : option Z :=
  if narrower ty then
    if signed ty then
      if fits (unsigned_of ty) n then
        let w := wrapz ty (a - wrapz ty n) in if (w <=? a)%Z then Some w else None
      else None
    else if fits ty n then opt_fits ty (a - n) else None
  else opt_fits ty (a - wrapz ty n).

Lemma of_z_val (ty : ity) z : option_map mval (of_z ty z) = opt_fits ty z.
Proof.
  unfold opt_fits. destruct (of_z ty z) as [x|] eqn:E; cbn.
  - apply of_z_some in E. pose proof (mok _ x). subst. now rewrite H.
  - apply of_z_none in E. unfold fits. destruct (imin ty <=? z)%Z eqn:?, (z <=? imax ty)%Z eqn:?; cbn; auto. lia.
Qed.
Lemma mint_ge (ty : ity) (x y : mint ty) : t_ge x y = (mval y <=? mval x)%Z.
Proof. unfold t_ge, t_partial_cmp. cbn [cmp OrdMint]. destruct (Z.compare_spec (mval x) (mval y)); lia. Qed.
Lemma mint_le (ty : ity) (x y : mint ty) : t_le x y = (mval x <=? mval y)%Z.
Proof. unfold t_le, t_partial_cmp. cbn [cmp OrdMint]. destruct (Z.compare_spec (mval x) (mval y)); lia. Qed.
Lemma int_forward_checked_val (ty : ity) (x : mint ty) n :
  option_map mval (int_forward_checked x n) = z_forward_checked ty (mval x) n.
Proof.
  unfold int_forward_checked, z_forward_checked, checked_add, wrapping_add, cast.
  destruct (narrower ty), (signed ty); try (now rewrite of_z_val, ?wrap_val).
  - pose proof (of_z_val (unsigned_of ty) n) as V. unfold opt_fits in V.
    destruct (of_z _ n) as [y|]; destruct (fits _ n); cbn in V; try discriminate; [|reflexivity]. injection V as ->.
    cbv zeta. rewrite mint_ge, !wrap_val. destruct (mval x <=? _)%Z; cbn; now rewrite ?wrap_val.
  - pose proof (of_z_val ty n) as V. unfold opt_fits in V.
    destruct (of_z _ n) as [y|]; destruct (fits _ n); cbn in V; try discriminate; [|reflexivity]. injection V as ->. apply of_z_val.
Qed.
Lemma int_backward_checked_val (ty : ity) (x : mint ty) n :
  option_map mval (int_backward_checked x n) = z_backward_checked ty (mval x) n.
Proof.
  unfold int_backward_checked, z_backward_checked, checked_sub, wrapping_sub, cast.
  destruct (narrower ty), (signed ty); try (now rewrite of_z_val, ?wrap_val).
  - pose proof (of_z_val (unsigned_of ty) n) as V. unfold opt_fits in V.
    destruct (of_z _ n) as [y|]; destruct (fits _ n); cbn in V; try discriminate; [|reflexivity]. injection V as ->.
    cbv zeta. rewrite mint_le, !wrap_val. destruct (_ <=? mval x)%Z; cbn; now rewrite ?wrap_val.
  - pose proof (of_z_val ty n) as V. unfold opt_fits in V.
    destruct (of_z _ n) as [y|]; destruct (fits _ n); cbn in V; try discriminate; [|reflexivity]. injection V as ->. apply of_z_val.
Qed.
(** [Self::MAX + 1] and [Self::MIN - 1] do not fit. *)
Lemma above_max (ty : ity) : fits ty (imax ty + 1) = false.
Proof. unfold fits. lia. Qed.
Lemma below_min (ty : ity) : fits ty (imin ty - 1) = false.
Proof. unfold fits. lia. Qed.
Definition z_moved (m : mode) (o : option Z) (z : Z) : outcome Z :=
  match o with Some _ => Ret z | None => match m with Debug => Panic | Release => Ret z end end.
Lemma int_forward_val m (ty : ity) (x : mint ty) n :
  (y <- int_forward m x n ;; Ret (mval y)) = z_moved m (z_forward_checked ty (mval x) n) (wrapz ty (mval x + wrapz ty n)).
Proof.
  rewrite <- int_forward_checked_val. unfold int_forward, op_result, wrapping_add.
  destruct (int_forward_checked x n); cbn [option_map z_moved bind]; [now rewrite !wrap_val|].
  pose proof (of_z_val ty (imax ty + 1)) as V. unfold opt_fits in V. rewrite above_max in V.
  destruct (of_z ty (imax ty + 1)); [discriminate|]. destruct m; cbn [bind]; now rewrite ?wrap_val.
Qed.
Lemma int_backward_val m (ty : ity) (x : mint ty) n :
  (y <- int_backward m x n ;; Ret (mval y)) = z_moved m (z_backward_checked ty (mval x) n) (wrapz ty (mval x - wrapz ty n)).
Proof.
  rewrite <- int_backward_checked_val. unfold int_backward, op_result, wrapping_sub.
  destruct (int_backward_checked x n); cbn [option_map z_moved bind]; [now rewrite !wrap_val|].
  pose proof (of_z_val ty (imin ty - 1)) as V. unfold opt_fits in V. rewrite below_min in V.
  destruct (of_z ty (imin ty - 1)); [discriminate|]. destruct m; cbn [bind]; now rewrite ?wrap_val.
Qed.
Definition z_steps_between (ty : ity) (a b : Z) : option Z :=
  if (a <=? b)%Z then
    if narrower ty then
      if signed ty then Some (wrapz Usize (wrapz Isize (wrapz Isize b - wrapz Isize a))) else Some (wrapz Usize (b - a))
    else if signed ty then if fits ty (b - a) then opt_fits Usize (b - a) else None
    else opt_fits Usize (b - a)
  else None.
Lemma usize_try_from_val z : usize_try_from z = opt_fits Usize z.
Proof. reflexivity. Qed.
Lemma diff_fits (ty : ity) a b : signed ty = false -> fits ty a = true -> fits ty b = true -> (a <=? b)%Z = true -> fits ty (b - a) = true.
Proof. unfold fits, imin, imax. intros ->. lia. Qed.
Lemma int_steps_between_val (ty : ity) (x y : mint ty) : int_steps_between x y = z_steps_between ty (mval x) (mval y).
Proof.
  unfold int_steps_between, z_steps_between, checked_sub, wrapping_sub, cast. rewrite mint_le.
  destruct (mval x <=? mval y)%Z eqn:L; [|reflexivity].
  assert (F : signed ty = false -> wrapz ty (mval y - mval x) = (mval y - mval x)%Z).
  { intros H. apply wrapz_id. pose proof (diff_fits ty _ _ H (mok _ x) (mok _ y) L) as D. unfold fits in D. lia. }
  destruct (narrower ty), (signed ty); rewrite ?wrap_val, ?F by reflexivity; try reflexivity.
  pose proof (of_z_val ty (mval y - mval x)) as V. unfold opt_fits in V.
  destruct (of_z ty _) as [r|], (fits ty _); cbn in V; try discriminate; [|reflexivity]. now injection V as ->.
Qed.
End Values.

(** On each of the pointer widths. *)
Ltac widths := lazymatch goal with PF : Platform |- _ =>
  destruct PF as [w]; destruct w; lazymatch goal with |- context [@Build_Platform ?p] => set (PF := @Build_Platform p) in * end end.
Ltac types ty := destruct ty; cbn [int_name signed unsigned_of];
  match goal with |- context [narrower ?t] => let b := eval lazy in (narrower t) in change (narrower t) with b | _ => idtac end;
  cbv beta iota.

Section Step_.
Context {T : Type} {OT : Ord T} {ST : Step T} (dflt : option T) (m : mode).
Notation calls := (calls dflt m).


Lemma c_forward_checked {PF : Platform} ty a s n :
  calls (RFn (st (int_name ty) "forward_checked") [(false, DInt (int_name ty) a); (false, DInt s n)])
  (Ret (AVal (enc_opt (@DInt T (int_name ty)) (z_forward_checked ty a n)) [None; None])).
Proof.
  unfold calls, z_forward_checked, opt_fits. widths; types ty; runs_.
Qed.
Lemma c_backward_checked {PF : Platform} ty a s n :
  calls (RFn (st (int_name ty) "backward_checked") [(false, DInt (int_name ty) a); (false, DInt s n)])
  (Ret (AVal (enc_opt (@DInt T (int_name ty)) (z_backward_checked ty a n)) [None; None])).
Proof.
  unfold calls, z_backward_checked, opt_fits. widths; types ty; runs_.
Qed.
Lemma c_steps_between {PF : Platform} ty a b : fits ty a = true -> fits ty b = true ->
  calls (RFn (st (int_name ty) "steps_between") [(false, DInt (int_name ty) a); (false, DInt (int_name ty) b)])
    (Ret (AVal (enc_opt (@DInt T "usize") (z_steps_between ty a b)) [None; None])).
Proof.
  intros Fa Fb. unfold calls, z_steps_between, opt_fits.
  assert (D : signed ty = false -> (a <=? b)%Z = true -> fits ty (b - a) = true) by (intros; now apply diff_fits).
  assert (U : (a <=? b)%Z = true -> usize_sub m b a = Ret (b - a)%Z).
  { intros. unfold usize_sub. destruct (0 <=? b - a)%Z eqn:?; [reflexivity|lia]. }
  destruct (a <=? b)%Z eqn:L; [specialize (U eq_refl)|clear U].
  - destruct (signed ty) eqn:S0; [clear D|specialize (D eq_refl eq_refl)]; widths; types ty; try discriminate S0; runs_; congruence.
  - widths; types ty; runs_.
Qed.
Lemma c_forward {PF : Platform} ty a n :
  calls (RFn (st (int_name ty) "forward") [(false, DInt (int_name ty) a); (false, DInt "usize" n)])
  (z <- z_moved m (z_forward_checked ty a n) (wrapz ty (a + wrapz ty n)) ;;
   Ret (AVal (@DInt T (int_name ty) z) [None; None])).
Proof.
  pose proof (c_forward_checked ty a "usize" n) as C. pose proof (above_max ty) as B.
  assert (U : usize_add m (imax Usize) 1 = match m with Debug => Panic | Release => Ret ((imax Usize + 1) mod 2 ^ usize_bits)%Z end).
  { unfold usize_add. destruct (imax Usize + 1 <=? usize_max)%Z eqn:H; [|reflexivity].
    unfold usize_max, imax, bits in H. cbn [signed] in H. lia. }
  unfold calls, RustTac.calls, z_moved in *. generalize m C U. clear C U m. intros m C U.
  destruct m; widths; destruct ty; cbn [int_name] in *; runs_; try congruence.
Qed.
Lemma c_backward {PF : Platform} ty a n :
  calls (RFn (st (int_name ty) "backward") [(false, DInt (int_name ty) a); (false, DInt "usize" n)])
  (z <- z_moved m (z_backward_checked ty a n) (wrapz ty (a - wrapz ty n)) ;;
   Ret (AVal (@DInt T (int_name ty) z) [None; None])).
Proof.
  pose proof (c_backward_checked ty a "usize" n) as C. pose proof (below_min ty) as B.
  assert (U : usize_sub m (imin Usize) 1 = match m with Debug => Panic | Release => Ret ((imin Usize - 1) mod 2 ^ usize_bits)%Z end).
  { unfold usize_sub, imin. cbn [signed]. reflexivity. }
  unfold calls, RustTac.calls, z_moved in *. generalize m C U. clear C U m. intros m C U.
  destruct m; widths; destruct ty; cbn [int_name] in *; runs_; try congruence.
Qed.
End Step_.
