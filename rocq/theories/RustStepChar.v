(** The source of [Step] for [char], and the provided methods of [Step]. *)
From Coq Require Import String Lia ZifyBool.
From Verif Require Import Base ModelBound ModelRanges ModelSets ModelValue ModelStep StepProofs
  RustSyntax Source RustEval RustEnc RustTac RustRange RustIter RustIterSet RustStep.
Open Scope Z_scope.
Open Scope string_scope.
Open Scope list_scope.

(** The model functions on the values. *)
Section Values.
Context {PF : Platform}.
Definition z_char_steps (a b : Z) : option Z :=
  let a := wrapz U32 a in
  let b := wrapz U32 b in
  if (a <=? b)%Z then
    if (a <? 0xD800)%Z then if (0xE000 <=? b)%Z then opt_fits Usize (b - a - 0x800) else opt_fits Usize (b - a)
    else opt_fits Usize (b - a)
  else None.
Definition z_char_forward (a n : Z) : option Z :=
  let a := wrapz U32 a in
  match z_forward_checked U32 a n with
  | Some r =>
    match (if (a <? 0xD800)%Z then if (0xD800 <=? r)%Z then z_forward_checked U32 r 0x800 else Some r else Some r) with
    | Some r => if (r <=? wrapz U32 0x10FFFF)%Z then Some r else None
    | None => None
    end
  | None => None
  end.
Definition z_char_backward (a n : Z) : option Z :=
  let a := wrapz U32 a in
  match z_backward_checked U32 a n with
  | Some r =>
    if (0xE000 <=? a)%Z then if (r <? 0xE000)%Z then z_backward_checked U32 r 0x800 else Some r else Some r
  | None => None
  end.
Lemma char_forward_u32_val (c : chr) n : option_map mval (char_forward_u32 c n) = z_char_forward (cval c) n.
Proof.
  unfold char_forward_u32, z_char_forward. cbv zeta. rewrite <- wrap_val, <- int_forward_checked_val.
  destruct (int_forward_checked _ n) as [r|]; [|reflexivity]. cbn [option_map].
  change (wrapz U32 0x10FFFF) with 0x10FFFF.
  destruct (mval (wrap U32 (cval c)) <? 0xD800)%Z, (0xD800 <=? mval r)%Z; cbn [andb];
    rewrite <- ?int_forward_checked_val; [destruct (int_forward_checked r _) as [r'|]; cbn [option_map]; [|reflexivity]|..];
    destruct (_ <=? 0x10FFFF)%Z; reflexivity.
Qed.
Lemma char_backward_u32_val (c : chr) n : option_map mval (char_backward_u32 c n) = z_char_backward (cval c) n.
Proof.
  unfold char_backward_u32, z_char_backward. cbv zeta. rewrite <- wrap_val, <- int_backward_checked_val.
  destruct (int_backward_checked _ n) as [r|]; [|reflexivity]. cbn [option_map].
  destruct (0xE000 <=? mval (wrap U32 (cval c)))%Z, (mval r <? 0xE000)%Z; cbn [andb];
    rewrite <- ?int_backward_checked_val; reflexivity.
Qed.
Lemma char_of_val z : option_map cval (char_of z) = if scalar z then Some z else None.
Proof.
  destruct (char_of z) as [c|] eqn:E; cbn [option_map].
  - apply char_of_some in E. subst. now rewrite cok.
  - destruct (scalar z) eqn:F; [|reflexivity]. destruct (char_of_scalar z F) as (x & X & _). congruence.
Qed.
Lemma char_forward_val (c : chr) n : 0 <= n <= usize_max ->
  option_map cval (char_forward_checked c n) = z_char_forward (cval c) n /\
  match z_char_forward (cval c) n with Some r => scalar r = true | None => True end.
Proof.
  intros N. unfold char_forward_checked. rewrite <- char_forward_u32_val. pose proof (char_forward_u32_exact c n N) as X.
  destruct (char_forward_u32 c n) as [r|]; cbn [from_u32_unchecked option_map]; [|auto].
  rewrite char_of_val. now rewrite (proj1 X).
Qed.
Lemma char_backward_val (c : chr) n : 0 <= n <= usize_max ->
  option_map cval (char_backward_checked c n) = z_char_backward (cval c) n /\
  match z_char_backward (cval c) n with Some r => scalar r = true | None => True end.
Proof.
  intros N. unfold char_backward_checked. rewrite <- char_backward_u32_val. pose proof (char_backward_u32_exact c n N) as X.
  destruct (char_backward_u32 c n) as [r|]; cbn [from_u32_unchecked option_map]; [|auto].
  rewrite char_of_val. now rewrite (proj1 X).
Qed.
Lemma char_steps_val (c d : chr) : char_steps_between c d = z_char_steps (cval c) (cval d).
Proof.
  unfold char_steps_between, z_char_steps, wrapping_sub. cbv zeta. rewrite mint_le, !wrap_val.
  pose proof (cok c) as C. pose proof (cok d) as D. unfold scalar in C, D.
  assert (F : forall z, 0 <= z <= 0x10FFFF -> wrapz U32 z = z) by (intros; apply wrapz_id; cbn; lia).
  rewrite !(F (cval c)), !(F (cval d)) by lia. change (wrapz U32 0x800) with 0x800.
  destruct (cval c <=? cval d)%Z eqn:L; [|reflexivity]. rewrite !(F (cval d - cval c)%Z) by lia.
  destruct (cval c <? 0xD800)%Z eqn:L1, (0xE000 <=? cval d)%Z eqn:L2; cbn [andb]; try reflexivity.
  rewrite F by lia. reflexivity.
Qed.
End Values.

Section Step_.
Context {T : Type} {OT : Ord T} {ST : Step T} (dflt : option T) (m : mode).
Notation calls := (calls dflt m).

Lemma c_char_steps {PF : Platform} (a b : Z) : scalar a = true -> scalar b = true ->
  calls (RFn (st "char" "steps_between") [(false, DInt "char" a); (false, DInt "char" b)])
    (Ret (AVal (enc_opt (@DInt T "usize") (z_char_steps a b)) [None; None])).
Proof.
  intros A B. unfold calls, z_char_steps, opt_fits.
  assert (F : forall z, 0 <= z <= 0x10FFFF -> wrapz U32 z = z) by (intros; apply wrapz_id; cbn; lia).
  assert (D1 : (wrapz U32 a <=? wrapz U32 b)%Z = true -> fits U32 (wrapz U32 b - wrapz U32 a) = true).
  { unfold scalar in *. rewrite !F by lia. unfold fits. cbn. lia. }
  assert (D2 : (wrapz U32 a <=? wrapz U32 b)%Z = true -> (wrapz U32 a <? 0xD800)%Z = true -> (0xE000 <=? wrapz U32 b)%Z = true ->
      fits U32 (wrapz U32 b - wrapz U32 a - 0x800) = true).
  { unfold scalar in *. rewrite !F by lia. unfold fits. cbn. lia. }
  clear F. widths; runs_; exfalso; auto with bool.
Qed.
Lemma c_char_forward_checked {PF : Platform} (a n : Z) :
  match z_char_forward a n with Some r => scalar r = true | None => True end ->
  calls (RFn (st "char" "forward_checked") [(false, DInt "char" a); (false, DInt "usize" n)])
    (Ret (AVal (enc_opt (@DInt T "char") (z_char_forward a n)) [None; None])).
Proof.
  intros S0. unfold calls, z_char_forward in *. cbv zeta in *.
  pose proof (fun a s n => c_forward_checked dflt m U32 a s n) as C. cbn [int_name] in C.
  widths; runs_.
Qed.
Lemma c_char_backward_checked {PF : Platform} (a n : Z) :
  match z_char_backward a n with Some r => scalar r = true | None => True end ->
  calls (RFn (st "char" "backward_checked") [(false, DInt "char" a); (false, DInt "usize" n)])
    (Ret (AVal (enc_opt (@DInt T "char") (z_char_backward a n)) [None; None])).
Proof.
  intros S0. unfold calls, z_char_backward in *. cbv zeta in *.
  pose proof (fun a s n => c_backward_checked dflt m U32 a s n) as C. cbn [int_name] in C.
  widths; runs_.
Qed.
(** The provided methods (src/step.rs:30-32, 47-49). *)
Lemma c_char_forward {PF : Platform} (a n : Z) :
  match z_char_forward a n with Some r => scalar r = true | None => True end ->
  calls (RFn (KDefault "Step" "forward") [(false, DInt "char" a); (false, DInt "usize" n)])
    (z <- unwrap (z_char_forward a n) ;; Ret (AVal (@DInt T "char" z) [None; None])).
Proof.
  intros S0. pose proof (c_char_forward_checked a n S0) as C. clear S0. unfold calls. runs_.
Qed.
Lemma c_char_backward {PF : Platform} (a n : Z) :
  match z_char_backward a n with Some r => scalar r = true | None => True end ->
  calls (RFn (KDefault "Step" "backward") [(false, DInt "char" a); (false, DInt "usize" n)])
    (z <- unwrap (z_char_backward a n) ;; Ret (AVal (@DInt T "char" z) [None; None])).
Proof.
  intros S0. pose proof (c_char_backward_checked a n S0) as C. clear S0. unfold calls. runs_.
Qed.
End Step_.

(** ** On the machine integers and characters of the model *)

Section Model.
Context {T : Type} {PF : Platform} {OT : Ord T} {ST : Step T} (dflt : option T) (m : mode).
Notation calls := (calls dflt m).
Definition enc_int {ty : ity} (x : mint ty) : val T := DInt (int_name ty) (mval x).
Definition enc_chr (c : chr) : val T := DInt "char" (cval c).

Lemma enc_opt_map {A B} (f : B -> val T) (g : A -> B) o : enc_opt f (option_map g o) = enc_opt (fun x => f (g x)) o.
Proof. now destruct o. Qed.
Lemma i_forward_checked (ty : ity) (x : mint ty) n :
  calls (RFn (st (int_name ty) "forward_checked") [(false, enc_int x); (false, DInt "usize" n)])
    (Ret (AVal (enc_opt enc_int (forward_checked x n)) [None; None])).
Proof.
  pose proof (c_forward_checked dflt m ty (mval x) "usize" n) as C. rewrite <- int_forward_checked_val, enc_opt_map in C. exact C.
Qed.
Lemma i_backward_checked (ty : ity) (x : mint ty) n :
  calls (RFn (st (int_name ty) "backward_checked") [(false, enc_int x); (false, DInt "usize" n)])
    (Ret (AVal (enc_opt enc_int (backward_checked x n)) [None; None])).
Proof.
  pose proof (c_backward_checked dflt m ty (mval x) "usize" n) as C. rewrite <- int_backward_checked_val, enc_opt_map in C. exact C.
Qed.
Lemma i_steps_between (ty : ity) (x y : mint ty) :
  calls (RFn (st (int_name ty) "steps_between") [(false, enc_int x); (false, enc_int y)])
    (Ret (AVal (enc_opt (@DInt T "usize") (steps_between x y)) [None; None])).
Proof.
  pose proof (c_steps_between dflt m ty (mval x) (mval y) (mok _ x) (mok _ y)) as C. rewrite <- int_steps_between_val in C. exact C.
Qed.
Lemma i_forward (ty : ity) (x : mint ty) n :
  calls (RFn (st (int_name ty) "forward") [(false, enc_int x); (false, DInt "usize" n)])
    (y <- forward m x n ;; Ret (AVal (enc_int y) [None; None])).
Proof.
  pose proof (c_forward dflt m ty (mval x) n) as C. rewrite <- int_forward_val in C.
  cbn [forward StepMint]. destruct (int_forward m x n); exact C.
Qed.
Lemma i_backward (ty : ity) (x : mint ty) n :
  calls (RFn (st (int_name ty) "backward") [(false, enc_int x); (false, DInt "usize" n)])
    (y <- backward m x n ;; Ret (AVal (enc_int y) [None; None])).
Proof.
  pose proof (c_backward dflt m ty (mval x) n) as C. rewrite <- int_backward_val in C.
  cbn [backward StepMint]. destruct (int_backward m x n); exact C.
Qed.
Lemma h_steps_between (c d : chr) :
  calls (RFn (st "char" "steps_between") [(false, enc_chr c); (false, enc_chr d)])
    (Ret (AVal (enc_opt (@DInt T "usize") (steps_between c d)) [None; None])).
Proof.
  pose proof (c_char_steps dflt m (cval c) (cval d) (cok c) (cok d)) as C. rewrite <- char_steps_val in C. exact C.
Qed.
Lemma h_forward_checked (c : chr) n : 0 <= n <= usize_max ->
  calls (RFn (st "char" "forward_checked") [(false, enc_chr c); (false, DInt "usize" n)])
    (Ret (AVal (enc_opt enc_chr (forward_checked c n)) [None; None])).
Proof.
  intros N. destruct (char_forward_val c n N) as [V S0]. pose proof (c_char_forward_checked dflt m (cval c) n S0) as C.
  rewrite <- V, enc_opt_map in C. exact C.
Qed.
Lemma h_backward_checked (c : chr) n : 0 <= n <= usize_max ->
  calls (RFn (st "char" "backward_checked") [(false, enc_chr c); (false, DInt "usize" n)])
    (Ret (AVal (enc_opt enc_chr (backward_checked c n)) [None; None])).
Proof.
  intros N. destruct (char_backward_val c n N) as [V S0]. pose proof (c_char_backward_checked dflt m (cval c) n S0) as C.
  rewrite <- V, enc_opt_map in C. exact C.
Qed.
Lemma h_forward (c : chr) n : 0 <= n <= usize_max ->
  calls (RFn (KDefault "Step" "forward") [(false, enc_chr c); (false, DInt "usize" n)])
    (d <- forward m c n ;; Ret (AVal (enc_chr d) [None; None])).
Proof.
  intros N. destruct (char_forward_val c n N) as [V S0]. pose proof (c_char_forward dflt m (cval c) n S0) as C.
  rewrite <- V in C. cbn [forward StepChr]. unfold forward_default. destruct (char_forward_checked c n); exact C.
Qed.
Lemma h_backward (c : chr) n : 0 <= n <= usize_max ->
  calls (RFn (KDefault "Step" "backward") [(false, enc_chr c); (false, DInt "usize" n)])
    (d <- backward m c n ;; Ret (AVal (enc_chr d) [None; None])).
Proof.
  intros N. destruct (char_backward_val c n N) as [V S0]. pose proof (c_char_backward dflt m (cval c) n S0) as C.
  rewrite <- V in C. cbn [backward StepChr]. unfold backward_default. destruct (char_backward_checked c n); exact C.
Qed.
End Model.
