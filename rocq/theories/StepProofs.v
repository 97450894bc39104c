(** The integer and [char] implementations of [Step] meet its contract. *)
From Coq Require Import Lia ZifyBool Eqdep_dec Sorted.
From Verif Require Import Base ModelBound ModelRanges ModelSets ModelValue ModelStep Spec SpecStep.
Open Scope Z_scope.

Section Mint.
Context {PF : Platform}.

Lemma usize_bits_pos : 16 <= usize_bits <= 64.
Proof. unfold usize_bits; destruct ptr_width; lia. Qed.
Lemma usize_max_ge : 65535 <= usize_max.
Proof. unfold usize_max, usize_bits; destruct ptr_width; cbv; discriminate. Qed.
Lemma bits_pos (ty : ity) : 8 <= bits ty <= 128.
Proof. pose proof usize_bits_pos. destruct ty; simpl; lia. Qed.

Lemma pow_half (ty : ity) : 2 ^ bits ty = 2 * 2 ^ (bits ty - 1).
Proof.
  pose proof (bits_pos ty). rewrite <- Z.pow_succ_r by lia. f_equal. lia.
Qed.
Lemma half_pos (ty : ity) : 128 <= 2 ^ (bits ty - 1).
Proof. pose proof (bits_pos ty). change 128 with (2 ^ 7). apply Z.pow_le_mono_r; lia. Qed.

Lemma mint_eq (ty : ity) (x y : mint ty) : mval x = mval y -> x = y.
Proof.
  destruct x as [x p], y as [y q]; simpl. intros ->. f_equal. apply UIP_dec, bool_dec.
Qed.
Lemma mint_range (ty : ity) (x : mint ty) : imin ty <= mval x <= imax ty.
Proof. pose proof (mok _ x) as H. unfold fits in H. lia. Qed.

Lemma of_z_some (ty : ity) z x : of_z ty z = Some x <-> mval x = z.
Proof.
  unfold of_z. split.
  - generalize (eq_refl (fits ty z)). generalize (fits ty z) at 2 3.
    intros [] E H; [ injection H as <-; reflexivity | discriminate ].
  - intros <-. generalize (eq_refl (fits ty (mval x))). generalize (fits ty (mval x)) at 2 3.
    intros [] E; [ f_equal; apply mint_eq; reflexivity |].
    exfalso. rewrite (mok _ x) in E. discriminate.
Qed.
Lemma of_z_none (ty : ity) z : of_z ty z = None <-> ~ imin ty <= z <= imax ty.
Proof.
  unfold of_z. generalize (eq_refl (fits ty z)). generalize (fits ty z) at 2 3.
  intros b E. assert (Hb : b = true <-> imin ty <= z <= imax ty) by (rewrite <- E; unfold fits; lia).
  destruct b; split; intros; try discriminate; try tauto.
  intro K. apply Hb in K. discriminate.
Qed.
Lemma of_z_fits (ty : ity) z : imin ty <= z <= imax ty -> exists x, of_z ty z = Some x /\ mval x = z.
Proof.
  intros H. destruct (of_z ty z) as [x|] eqn:E.
  - exists x. split; [reflexivity | apply of_z_some; exact E].
  - apply of_z_none in E. tauto.
Qed.

Lemma wrapz_range (ty : ity) z : imin ty <= wrapz ty z <= imax ty.
Proof.
  unfold wrapz, imin, imax. pose proof (pow_half ty). pose proof (half_pos ty).
  destruct (signed ty).
  - pose proof (Z.mod_pos_bound (z + 2 ^ (bits ty - 1)) (2 ^ bits ty)). lia.
  - pose proof (Z.mod_pos_bound z (2 ^ bits ty)). lia.
Qed.
(** Truncation is the unique representable value congruent modulo [2^bits]. *)
Lemma wrapz_shift (ty : ity) z k :
  imin ty <= z + k * 2 ^ bits ty <= imax ty -> wrapz ty z = z + k * 2 ^ bits ty.
Proof.
  unfold wrapz, imin, imax. pose proof (pow_half ty). pose proof (half_pos ty).
  destruct (signed ty); intros R.
  - rewrite <- (Z_mod_plus_full _ k). rewrite Z.mod_small by lia. lia.
  - rewrite <- (Z_mod_plus_full _ k). rewrite Z.mod_small by lia. lia.
Qed.
Lemma wrap_val (ty : ity) z : mval (wrap ty z) = wrapz ty z.
Proof.
  unfold wrap. destruct (of_z ty (wrapz ty z)) as [x|] eqn:E.
  - apply of_z_some. exact E.
  - apply of_z_none in E. pose proof (wrapz_range ty z). tauto.
Qed.
Lemma wrapz_id (ty : ity) z : imin ty <= z <= imax ty -> wrapz ty z = z.
Proof. intros H. rewrite (wrapz_shift ty z 0); lia. Qed.
Lemma wrapz_congr (ty : ity) z : exists k, wrapz ty z = z + k * 2 ^ bits ty.
Proof.
  pose proof (pow_half ty). pose proof (half_pos ty).
  unfold wrapz. destruct (signed ty).
  - exists (- ((z + 2 ^ (bits ty - 1)) / 2 ^ bits ty)).
    pose proof (Z.div_mod (z + 2 ^ (bits ty - 1)) (2 ^ bits ty)). lia.
  - exists (- (z / 2 ^ bits ty)). pose proof (Z.div_mod z (2 ^ bits ty)). lia.
Qed.
Lemma wrapz_eq (ty : ity) z y k : y = z + k * 2 ^ bits ty -> imin ty <= y <= imax ty -> wrapz ty z = y.
Proof. intros -> H. apply wrapz_shift. exact H. Qed.

Lemma narrower_bits (ty : ity) : narrower ty = (bits ty <=? usize_bits).
Proof. unfold narrower, bits, usize_bits. destruct ptr_width, ty; reflexivity. Qed.

Lemma unsigned_of_bits (ty : ity) : bits (unsigned_of ty) = bits ty.
Proof. destruct ty; reflexivity. Qed.
Lemma unsigned_of_signed (ty : ity) : signed (unsigned_of ty) = false.
Proof. destruct ty; reflexivity. Qed.

Lemma t_le_mint (ty : ity) (a b : mint ty) : t_le a b = (mval a <=? mval b).
Proof. unfold t_le, t_partial_cmp, cmp, Z.leb; simpl. destruct (mval a ?= mval b); reflexivity. Qed.
Lemma t_ge_mint (ty : ity) (a b : mint ty) : t_ge a b = (mval b <=? mval a).
Proof.
  unfold t_ge, t_partial_cmp, cmp, Z.leb; simpl. rewrite (Z.compare_antisym (mval a) (mval b)).
  destruct (mval a ?= mval b); reflexivity.
Qed.

Lemma pow_mono (a b : Z) : 0 <= a <= b -> 2 ^ a <= 2 ^ b.
Proof. intros. apply Z.pow_le_mono_r; lia. Qed.
Lemma pow_lt (a b : Z) : 0 <= a < b -> 2 * 2 ^ a <= 2 ^ b.
Proof. intros. rewrite <- Z.pow_succ_r by lia. apply Z.pow_le_mono_r; lia. Qed.

Lemma imin_u (ty : ity) : signed ty = false -> imin ty = 0.
Proof. unfold imin. intros ->. reflexivity. Qed.

(** C18 for [forward_checked]. *)
Lemma int_forward_checked_exact (ty : ity) (x : mint ty) n :
  0 <= n <= usize_max -> int_forward_checked x n = of_z ty (mval x + n).
Proof.
  intros Hn. pose proof (mint_range _ x) as Hx.
  pose proof (pow_half ty) as Hp. pose proof (half_pos ty) as Hh.
  unfold int_forward_checked. rewrite narrower_bits.
  destruct (bits ty <=? usize_bits) eqn:Hb.
  - destruct (signed ty) eqn:Hs.
    + destruct (of_z (unsigned_of ty) n) as [k|] eqn:Ek.
      * apply of_z_some in Ek. pose proof (mint_range _ k) as Hk. rewrite Ek in Hk.
        unfold imin, imax in Hk. rewrite unsigned_of_signed, unsigned_of_bits in Hk.
        unfold imin, imax in Hx. rewrite Hs in Hx.
        unfold wrapping_add, cast. rewrite t_ge_mint, !wrap_val, Ek.
        destruct (wrapz_congr ty n) as [j Hj].
        assert (K : wrapz ty (mval x + wrapz ty n) = wrapz ty (mval x + n)).
        { destruct (wrapz_congr ty (mval x + n)) as [j' Hj'].
          apply (wrapz_eq _ _ _ (j' - j)); [rewrite Hj', Hj; lia | apply wrapz_range]. }
        rewrite K.
        destruct (Z_le_gt_dec (mval x + n) (2 ^ (bits ty - 1) - 1)) as [L|G].
        -- rewrite (wrapz_id ty (mval x + n)) by (unfold imin, imax; rewrite Hs; lia).
           destruct (mval x <=? mval x + n) eqn:C; [|lia].
           symmetry. apply of_z_some. rewrite wrap_val, K. apply wrapz_id.
           unfold imin, imax. rewrite Hs. lia.
        -- rewrite (wrapz_shift ty (mval x + n) (-1)) by (unfold imin, imax; rewrite Hs; lia).
           destruct (mval x <=? mval x + n + -1 * 2 ^ bits ty) eqn:C; [lia|].
           symmetry. apply of_z_none. unfold imin, imax. rewrite Hs. lia.
      * apply of_z_none in Ek. symmetry. apply of_z_none.
        unfold imin, imax in *. rewrite unsigned_of_signed, unsigned_of_bits in Ek.
        rewrite Hs in *. lia.
    + destruct (of_z ty n) as [k|] eqn:Ek.
      * apply of_z_some in Ek. unfold checked_add. rewrite Ek. reflexivity.
      * apply of_z_none in Ek. symmetry. apply of_z_none.
        unfold imin, imax in *. rewrite Hs in *. lia.
  - unfold checked_add. rewrite wrap_val, wrapz_id; [reflexivity|].
    unfold usize_max in Hn. pose proof (pow_lt usize_bits (bits ty)). pose proof usize_bits_pos.
    unfold imin, imax. destruct (signed ty); lia.
Qed.

Lemma int_backward_checked_exact (ty : ity) (x : mint ty) n :
  0 <= n <= usize_max -> int_backward_checked x n = of_z ty (mval x - n).
Proof.
  intros Hn. pose proof (mint_range _ x) as Hx.
  pose proof (pow_half ty) as Hp. pose proof (half_pos ty) as Hh.
  unfold int_backward_checked. rewrite narrower_bits.
  destruct (bits ty <=? usize_bits) eqn:Hb.
  - destruct (signed ty) eqn:Hs.
    + destruct (of_z (unsigned_of ty) n) as [k|] eqn:Ek.
      * apply of_z_some in Ek. pose proof (mint_range _ k) as Hk. rewrite Ek in Hk.
        unfold imin, imax in Hk. rewrite unsigned_of_signed, unsigned_of_bits in Hk.
        unfold imin, imax in Hx. rewrite Hs in Hx.
        unfold wrapping_sub, cast. rewrite t_le_mint, !wrap_val, Ek.
        destruct (wrapz_congr ty n) as [j Hj].
        assert (K : wrapz ty (mval x - wrapz ty n) = wrapz ty (mval x - n)).
        { destruct (wrapz_congr ty (mval x - n)) as [j' Hj'].
          apply (wrapz_eq _ _ _ (j' + j)); [rewrite Hj', Hj; lia | apply wrapz_range]. }
        rewrite K.
        destruct (Z_le_gt_dec (- 2 ^ (bits ty - 1)) (mval x - n)) as [L|G].
        -- rewrite (wrapz_id ty (mval x - n)) by (unfold imin, imax; rewrite Hs; lia).
           destruct (mval x - n <=? mval x) eqn:C; [|lia].
           symmetry. apply of_z_some. rewrite wrap_val, K. apply wrapz_id.
           unfold imin, imax. rewrite Hs. lia.
        -- rewrite (wrapz_shift ty (mval x - n) 1) by (unfold imin, imax; rewrite Hs; lia).
           destruct (mval x - n + 1 * 2 ^ bits ty <=? mval x) eqn:C; [lia|].
           symmetry. apply of_z_none. unfold imin, imax. rewrite Hs. lia.
      * apply of_z_none in Ek. symmetry. apply of_z_none.
        unfold imin, imax in *. rewrite unsigned_of_signed, unsigned_of_bits in Ek.
        rewrite Hs in *. lia.
    + destruct (of_z ty n) as [k|] eqn:Ek.
      * apply of_z_some in Ek. unfold checked_sub. rewrite Ek. reflexivity.
      * apply of_z_none in Ek. symmetry. apply of_z_none.
        unfold imin, imax in *. rewrite Hs in *. lia.
  - unfold checked_sub. rewrite wrap_val, wrapz_id; [reflexivity|].
    unfold usize_max in Hn. pose proof (pow_lt usize_bits (bits ty)). pose proof usize_bits_pos.
    unfold imin, imax. destruct (signed ty); lia.
Qed.

Lemma signed_isize_range (ty : ity) (x : mint ty) :
  signed ty = true -> bits ty <= usize_bits -> imin Isize <= mval x <= imax Isize.
Proof.
  intros Hs Hb. pose proof (mint_range _ x) as H. unfold imin, imax in *. rewrite Hs in H.
  cbn [signed bits]. pose proof (bits_pos ty).
  pose proof (pow_mono (bits ty - 1) (usize_bits - 1)). lia.
Qed.

Lemma as_usize_congr z k : 0 <= z + k * 2 ^ usize_bits <= usize_max ->
  as_usize z = z + k * 2 ^ usize_bits.
Proof.
  unfold as_usize, usize_max. intros H. rewrite <- (Z_mod_plus_full z k). apply Z.mod_small. lia.
Qed.

Lemma int_steps_between_exact (ty : ity) (a b : mint ty) :
  int_steps_between a b =
  if (mval a <=? mval b) && (mval b - mval a <=? usize_max) then Some (mval b - mval a) else None.
Proof.
  pose proof (mint_range _ a) as Ha. pose proof (mint_range _ b) as Hb.
  pose proof (pow_half ty) as Hp. pose proof (half_pos ty) as Hh.
  pose proof usize_bits_pos as Hu. pose proof (bits_pos ty) as Hbits.
  unfold int_steps_between. rewrite t_le_mint, narrower_bits.
  destruct (mval a <=? mval b) eqn:Hab; [|reflexivity]. cbn [andb].
  destruct (bits ty <=? usize_bits) eqn:Hn.
  - destruct (signed ty) eqn:Hs.
    + pose proof (signed_isize_range ty a Hs ltac:(lia)) as Ia.
      pose proof (signed_isize_range ty b Hs ltac:(lia)) as Ib.
      unfold wrapping_sub, cast. rewrite !wrap_val, (wrapz_id Isize (mval a)), (wrapz_id Isize (mval b)) by assumption.
      destruct (wrapz_congr Isize (mval b - mval a)) as [k Hk]. rewrite Hk.
      assert (D : 0 <= mval b - mval a <= usize_max).
      { unfold imin, imax in Ia, Ib. cbn [signed bits] in Ia, Ib. unfold usize_max.
        pose proof (pow_half Isize) as Q. cbn [bits] in Q. lia. }
      cbn [bits]. rewrite (as_usize_congr _ (- k)) by lia.
      destruct (mval b - mval a <=? usize_max) eqn:C; [|lia]. f_equal. lia.
    + unfold wrapping_sub. rewrite wrap_val.
      unfold imin, imax in Ha, Hb. rewrite Hs in Ha, Hb.
      rewrite wrapz_id by (unfold imin, imax; rewrite Hs; lia).
      pose proof (pow_mono (bits ty) usize_bits).
      rewrite (as_usize_congr _ 0) by (unfold usize_max; lia).
      unfold usize_max. destruct (mval b - mval a <=? 2 ^ usize_bits - 1) eqn:C; [|lia]. f_equal. lia.
  - pose proof (pow_lt usize_bits (bits ty)).
    destruct (signed ty) eqn:Hs.
    + unfold checked_sub. destruct (of_z ty (mval b - mval a)) as [r|] eqn:E.
      * apply of_z_some in E. rewrite E. unfold usize_try_from.
        destruct (0 <=? mval b - mval a) eqn:C; [reflexivity | lia].
      * apply of_z_none in E. unfold imin, imax in E. rewrite Hs in E. unfold usize_max.
        pose proof (pow_mono usize_bits (bits ty - 1)).
        destruct (mval b - mval a <=? 2 ^ usize_bits - 1) eqn:C; [lia | reflexivity].
    + unfold wrapping_sub. rewrite wrap_val.
      unfold imin, imax in Ha, Hb. rewrite Hs in Ha, Hb.
      rewrite wrapz_id by (unfold imin, imax; rewrite Hs; lia).
      unfold usize_try_from. destruct (0 <=? mval b - mval a) eqn:C; [reflexivity | lia].
Qed.

Lemma wrap_add_n (ty : ity) (x : mint ty) n :
  mval (wrapping_add x (wrap ty n)) = wrapz ty (mval x + n).
Proof.
  unfold wrapping_add. rewrite !wrap_val.
  destruct (wrapz_congr ty n) as [j Hj]. destruct (wrapz_congr ty (mval x + n)) as [j' Hj'].
  apply (wrapz_eq _ _ _ (j' - j)); [rewrite Hj', Hj; lia | apply wrapz_range].
Qed.
Lemma wrap_sub_n (ty : ity) (x : mint ty) n :
  mval (wrapping_sub x (wrap ty n)) = wrapz ty (mval x - n).
Proof.
  unfold wrapping_sub. rewrite !wrap_val.
  destruct (wrapz_congr ty n) as [j Hj]. destruct (wrapz_congr ty (mval x - n)) as [j' Hj'].
  apply (wrapz_eq _ _ _ (j' + j)); [rewrite Hj', Hj; lia | apply wrapz_range].
Qed.

Lemma int_forward_exact (m : mode) (ty : ity) (x : mint ty) n :
  0 <= n <= usize_max ->
  int_forward m x n =
  match of_z ty (mval x + n) with
  | Some y => Ret y
  | None => match m with Debug => Panic | Release => Ret (wrap ty (mval x + n)) end
  end.
Proof.
  intros Hn. unfold int_forward. rewrite int_forward_checked_exact by assumption.
  destruct (of_z ty (mval x + n)) as [y|] eqn:E.
  - f_equal. apply mint_eq. rewrite wrap_add_n. apply of_z_some in E. rewrite <- E.
    apply wrapz_id, mint_range.
  - unfold op_result. assert (N : of_z ty (imax ty + 1) = None) by (apply of_z_none; lia).
    rewrite N. destruct m; [reflexivity|]. cbn [bind]. f_equal. apply mint_eq.
    rewrite wrap_add_n, wrap_val. reflexivity.
Qed.
Lemma int_backward_exact (m : mode) (ty : ity) (x : mint ty) n :
  0 <= n <= usize_max ->
  int_backward m x n =
  match of_z ty (mval x - n) with
  | Some y => Ret y
  | None => match m with Debug => Panic | Release => Ret (wrap ty (mval x - n)) end
  end.
Proof.
  intros Hn. unfold int_backward. rewrite int_backward_checked_exact by assumption.
  destruct (of_z ty (mval x - n)) as [y|] eqn:E.
  - f_equal. apply mint_eq. rewrite wrap_sub_n. apply of_z_some in E. rewrite <- E.
    apply wrapz_id, mint_range.
  - unfold op_result. assert (N : of_z ty (imin ty - 1) = None) by (apply of_z_none; lia).
    rewrite N. destruct m; [reflexivity|]. cbn [bind]. f_equal. apply mint_eq.
    rewrite wrap_sub_n, wrap_val. reflexivity.
Qed.

(** ** Contract instances *)

#[global] Instance OrdLawsMint (ty : ity) : OrdLaws (mint ty).
Proof.
  split; simpl.
  - intros a b. apply Z.compare_antisym.
  - intros a b c H1 H2. change (mval a <= mval c). change (mval a <= mval b) in H1.
    change (mval b <= mval c) in H2. lia.
  - intros a b. rewrite Z.eqb_eq, Z.compare_eq_iff. reflexivity.
Qed.
#[global] Instance OrdStrictMint (ty : ity) : OrdStrict (mint ty).
Proof. split. simpl. intros a b H. apply mint_eq. apply Z.compare_eq_iff. exact H. Qed.
#[global] Instance NumberedMint (ty : ity) : Numbered (mint ty) := { idx := mval }.

#[global] Instance StepLawsMint (ty : ity) : StepLaws (mint ty).
Proof.
  split; cbn [idx NumberedMint forward_checked backward_checked forward backward steps_between StepMint].
  - reflexivity.
  - reflexivity.
  - apply mint_eq.
  - intros a b z Hz. pose proof (mint_range _ a). pose proof (mint_range _ b).
    destruct (of_z_fits ty z) as (x & _ & Hx); [lia|]. exists x. exact Hx.
  - intros a n Hn. rewrite int_forward_checked_exact by assumption.
    destruct (of_z ty (mval a + n)) as [b|] eqn:E.
    + apply of_z_some. exact E.
    + apply of_z_none in E. intros b Hb. pose proof (mint_range _ b). lia.
  - intros a n Hn. rewrite int_backward_checked_exact by assumption.
    destruct (of_z ty (mval a - n)) as [b|] eqn:E.
    + apply of_z_some. exact E.
    + apply of_z_none in E. intros b Hb. pose proof (mint_range _ b). lia.
  - apply int_steps_between_exact.
  - intros a n Hn. rewrite int_forward_exact, int_forward_checked_exact by assumption. reflexivity.
  - intros a n Hn. rewrite int_backward_exact, int_backward_checked_exact by assumption. reflexivity.
  - intros a b n Hn. rewrite int_forward_exact, int_forward_checked_exact by assumption. intros ->. reflexivity.
  - intros a b n Hn. rewrite int_backward_exact, int_backward_checked_exact by assumption. intros ->. reflexivity.
Qed.

(** ** [char] *)

(** Position of a scalar value among the scalar values. *)
Definition cidx (z : Z) : Z := if z <? 0xD800 then z else z - 0x800.

Lemma chr_eq (x y : chr) : cval x = cval y -> x = y.
Proof. destruct x as [x p], y as [y q]; simpl. intros ->. f_equal. apply UIP_dec, bool_dec. Qed.
Lemma chr_range (x : chr) : 0 <= cval x < 0xD800 \/ 0xE000 <= cval x <= 0x10FFFF.
Proof. pose proof (cok x) as H. unfold scalar in H. lia. Qed.
Lemma char_of_some z x : char_of z = Some x <-> cval x = z.
Proof.
  unfold char_of. split.
  - generalize (eq_refl (scalar z)). generalize (scalar z) at 2 3.
    intros [] E H; [ injection H as <-; reflexivity | discriminate ].
  - intros <-. generalize (eq_refl (scalar (cval x))). generalize (scalar (cval x)) at 2 3.
    intros [] E; [ f_equal; apply chr_eq; reflexivity |].
    exfalso. rewrite (cok x) in E. discriminate.
Qed.
Lemma char_of_scalar z : scalar z = true -> exists x, char_of z = Some x /\ cval x = z.
Proof.
  intros H. exists (MC z H). split; [|reflexivity]. apply char_of_some. reflexivity.
Qed.
Lemma cidx_inj (x y : chr) : cidx (cval x) = cidx (cval y) -> x = y.
Proof.
  intros H. apply chr_eq. pose proof (chr_range x). pose proof (chr_range y). unfold cidx in H.
  destruct (cval x <? 0xD800) eqn:?, (cval y <? 0xD800) eqn:?; lia.
Qed.

Lemma u32_imin : imin U32 = 0. Proof. reflexivity. Qed.
Lemma u32_imax : imax U32 = 0xFFFFFFFF. Proof. reflexivity. Qed.

Lemma wrap_chr (c : chr) : mval (wrap U32 (cval c)) = cval c.
Proof. rewrite wrap_val. apply wrapz_id. rewrite u32_imin, u32_imax. pose proof (chr_range c). lia. Qed.

Lemma forward_u32 (x : mint U32) n : 0 <= n <= usize_max ->
  match int_forward_checked x n with
  | Some y => mval y = mval x + n
  | None => 0xFFFFFFFF < mval x + n
  end.
Proof.
  intros Hn. rewrite int_forward_checked_exact by assumption.
  pose proof (mint_range _ x) as Hx. rewrite u32_imin, u32_imax in Hx.
  destruct (of_z U32 (mval x + n)) as [y|] eqn:E.
  - apply of_z_some. exact E.
  - apply of_z_none in E. rewrite u32_imin, u32_imax in E. lia.
Qed.
Lemma backward_u32 (x : mint U32) n : 0 <= n <= usize_max ->
  match int_backward_checked x n with
  | Some y => mval y = mval x - n
  | None => mval x - n < 0
  end.
Proof.
  intros Hn. rewrite int_backward_checked_exact by assumption.
  pose proof (mint_range _ x) as Hx. rewrite u32_imin, u32_imax in Hx.
  destruct (of_z U32 (mval x - n)) as [y|] eqn:E.
  - apply of_z_some. exact E.
  - apply of_z_none in E. rewrite u32_imin, u32_imax in E. lia.
Qed.

(** The argument of [from_u32_unchecked] is the scalar value at the right position. *)
Lemma char_forward_u32_exact (c : chr) n : 0 <= n <= usize_max ->
  match char_forward_u32 c n with
  | Some r => scalar (mval r) = true /\ cidx (mval r) = cidx (cval c) + n
  | None => cidx 0x10FFFF < cidx (cval c) + n
  end.
Proof.
  intros Hn. unfold char_forward_u32. pose proof (chr_range c) as Hc.
  pose proof (forward_u32 (wrap U32 (cval c)) n Hn) as F. rewrite wrap_chr in F.
  change (cidx 0x10FFFF) with 0x10F7FF. rewrite wrap_chr.
  destruct (int_forward_checked (wrap U32 (cval c)) n) as [r|].
  - destruct ((cval c <? 55296) && (55296 <=? mval r)) eqn:B.
    + pose proof (forward_u32 r 0x800 ltac:(pose proof usize_max_ge; lia)) as G.
      destruct (int_forward_checked r 2048) as [r'|].
      * destruct (mval r' <=? 1114111) eqn:L; unfold scalar, cidx in *;
          destruct (cval c <? 55296) eqn:?, (mval r' <? 55296) eqn:?; lia.
      * unfold cidx. destruct (cval c <? 55296) eqn:?; lia.
    + destruct (mval r <=? 1114111) eqn:L; unfold scalar, cidx in *;
          destruct (cval c <? 55296) eqn:?, (mval r <? 55296) eqn:?; lia.
  - unfold cidx. destruct (cval c <? 55296) eqn:?; lia.
Qed.
Lemma char_backward_u32_exact (c : chr) n : 0 <= n <= usize_max ->
  match char_backward_u32 c n with
  | Some r => scalar (mval r) = true /\ cidx (mval r) = cidx (cval c) - n
  | None => cidx (cval c) - n < 0
  end.
Proof.
  intros Hn. unfold char_backward_u32. pose proof (chr_range c) as Hc.
  pose proof (backward_u32 (wrap U32 (cval c)) n Hn) as F. rewrite wrap_chr in F. rewrite wrap_chr.
  destruct (int_backward_checked (wrap U32 (cval c)) n) as [r|].
  - pose proof (mint_range _ r) as Hr. rewrite u32_imin in Hr.
    destruct ((57344 <=? cval c) && (mval r <? 57344)) eqn:B.
    + pose proof (backward_u32 r 0x800 ltac:(pose proof usize_max_ge; lia)) as G.
      destruct (int_backward_checked r 2048) as [r'|].
      * pose proof (mint_range _ r') as Hr'. rewrite u32_imin in Hr'.
        unfold scalar, cidx in *; destruct (cval c <? 55296) eqn:?, (mval r' <? 55296) eqn:?; lia.
      * unfold cidx. destruct (cval c <? 55296) eqn:?; lia.
    + unfold scalar, cidx in *; destruct (cval c <? 55296) eqn:?, (mval r <? 55296) eqn:?; lia.
  - unfold cidx. destruct (cval c <? 55296) eqn:?; lia.
Qed.

Lemma char_forward_checked_exact (c : chr) n : 0 <= n <= usize_max ->
  match char_forward_checked c n with
  | Some d => cidx (cval d) = cidx (cval c) + n
  | None => cidx 0x10FFFF < cidx (cval c) + n
  end.
Proof.
  intros Hn. unfold char_forward_checked. pose proof (char_forward_u32_exact c n Hn) as H.
  destruct (char_forward_u32 c n) as [r|]; cbn [from_u32_unchecked]; [|exact H].
  destruct H as [S I]. destruct (char_of_scalar _ S) as (x & -> & ->). exact I.
Qed.
Lemma char_backward_checked_exact (c : chr) n : 0 <= n <= usize_max ->
  match char_backward_checked c n with
  | Some d => cidx (cval d) = cidx (cval c) - n
  | None => cidx (cval c) - n < 0
  end.
Proof.
  intros Hn. unfold char_backward_checked. pose proof (char_backward_u32_exact c n Hn) as H.
  destruct (char_backward_u32 c n) as [r|]; cbn [from_u32_unchecked]; [|exact H].
  destruct H as [S I]. destruct (char_of_scalar _ S) as (x & -> & ->). exact I.
Qed.

Lemma char_steps_between_exact (a b : chr) :
  char_steps_between a b =
  if (cidx (cval a) <=? cidx (cval b)) && (cidx (cval b) - cidx (cval a) <=? usize_max)
  then Some (cidx (cval b) - cidx (cval a)) else None.
Proof.
  pose proof (chr_range a) as Ha. pose proof (chr_range b) as Hb.
  unfold char_steps_between, wrapping_sub. rewrite t_le_mint, !wrap_val.
  rewrite (wrapz_id U32 (cval a)), (wrapz_id U32 (cval b)) by (rewrite u32_imin, u32_imax; lia).
  destruct (cval a <=? cval b) eqn:L.
  - rewrite !(wrapz_id U32 (cval b - cval a)) by (rewrite u32_imin, u32_imax; lia).
    rewrite (wrapz_id U32 2048) by (rewrite u32_imin, u32_imax; lia).
    unfold usize_try_from, cidx.
    destruct ((cval a <? 55296) && (57344 <=? cval b)) eqn:B.
    + rewrite wrapz_id by (rewrite u32_imin, u32_imax; lia).
      destruct (cval a <? 55296) eqn:?, (cval b <? 55296) eqn:?; try lia.
      replace (cval b - 2048 - cval a) with (cval b - cval a - 2048) by lia.
      destruct (0 <=? cval b - cval a - 2048) eqn:?; [|lia]. cbn [andb].
      destruct (cval a <=? cval b - 2048) eqn:?; [|lia]. reflexivity.
    + destruct (0 <=? cval b - cval a) eqn:?; [|lia]. cbn [andb].
      destruct (cval a <? 55296) eqn:?, (cval b <? 55296) eqn:?; try lia.
      * rewrite L. reflexivity.
      * replace (cval b - 2048 - (cval a - 2048)) with (cval b - cval a) by lia.
        destruct (cval a - 2048 <=? cval b - 2048) eqn:?; [|lia]. reflexivity.
  - unfold cidx. destruct (cval a <? 55296) eqn:?, (cval b <? 55296) eqn:?; try lia;
      match goal with |- context [?x <=? ?y] => destruct (x <=? y) eqn:? end; try lia; reflexivity.
Qed.

#[global] Instance OrdLawsChr : OrdLaws chr.
Proof.
  split; simpl.
  - intros a b. apply Z.compare_antisym.
  - intros a b c H1 H2. change (cval a <= cval c). change (cval a <= cval b) in H1.
    change (cval b <= cval c) in H2. lia.
  - intros a b. rewrite Z.eqb_eq, Z.compare_eq_iff. reflexivity.
Qed.
#[global] Instance OrdStrictChr : OrdStrict chr.
Proof. split. simpl. intros a b H. apply chr_eq. apply Z.compare_eq_iff. exact H. Qed.
#[global] Instance NumberedChr : Numbered chr := { idx := fun c => cidx (cval c) }.

Lemma cidx_range (c : chr) : 0 <= cidx (cval c) <= cidx 0x10FFFF.
Proof.
  pose proof (chr_range c). change (cidx 0x10FFFF) with 0x10F7FF.
  unfold cidx. destruct (cval c <? 55296) eqn:?; lia.
Qed.

#[global] Instance StepLawsChr : StepLaws chr.
Proof.
  split; cbn [idx NumberedChr forward_checked backward_checked forward backward steps_between StepChr].
  - intros a b. simpl. pose proof (chr_range a). pose proof (chr_range b).
    destruct (Z.compare_spec (cval a) (cval b)), (Z.compare_spec (cidx (cval a)) (cidx (cval b)));
      try reflexivity; exfalso; unfold cidx in *;
      destruct (cval a <? 55296) eqn:?, (cval b <? 55296) eqn:?; lia.
  - intros a b. simpl. pose proof (chr_range a). pose proof (chr_range b).
    unfold cidx. destruct (cval a <? 55296) eqn:?, (cval b <? 55296) eqn:?; lia.
  - apply cidx_inj.
  - intros a b z Hz. pose proof (cidx_range a). pose proof (cidx_range b).
    change (cidx 0x10FFFF) with 0x10F7FF in *.
    destruct (Z_lt_ge_dec z 0xD800).
    + destruct (char_of_scalar z) as (x & _ & Hx); [unfold scalar; lia|].
      exists x. rewrite Hx. unfold cidx. destruct (z <? 55296) eqn:?; lia.
    + destruct (char_of_scalar (z + 0x800)) as (x & _ & Hx); [unfold scalar; lia|].
      exists x. rewrite Hx. unfold cidx. destruct (z + 2048 <? 55296) eqn:?; lia.
  - intros a n Hn. pose proof (char_forward_checked_exact a n Hn) as H.
    destruct (char_forward_checked a n); [exact H|]. intros b Hb. pose proof (cidx_range b). lia.
  - intros a n Hn. pose proof (char_backward_checked_exact a n Hn) as H.
    destruct (char_backward_checked a n); [exact H|]. intros b Hb. pose proof (cidx_range b). lia.
  - apply char_steps_between_exact.
  - intros a n Hn. unfold forward_default, unwrap. destruct (char_forward_checked a n); reflexivity.
  - intros a n Hn. unfold backward_default, unwrap. destruct (char_backward_checked a n); reflexivity.
  - intros a b n Hn. unfold forward_default, unwrap. intros ->. reflexivity.
  - intros a b n Hn. unfold backward_default, unwrap. intros ->. reflexivity.
Qed.

End Mint.

(** ** Consequences of the contract *)

Section Generic.
Context {T : Type} {PF : Platform} {OT : Ord T} {ST : Step T} {NU : Numbered T} {SL : StepLaws T}.

Lemma lt_idx (a b : T) : lt a b <-> idx a < idx b.
Proof. unfold lt. rewrite idx_cmp. apply Z.compare_lt_iff. Qed.
Lemma le_idx (a b : T) : le a b <-> idx a <= idx b.
Proof. unfold le. rewrite idx_cmp. apply Z.compare_le_iff. Qed.
Lemma t_le_idx (a b : T) : t_le a b = (idx a <=? idx b).
Proof. unfold t_le, t_partial_cmp, Z.leb. rewrite idx_cmp. destruct (idx a ?= idx b); reflexivity. Qed.
Lemma t_lt_idx (a b : T) : t_lt a b = (idx a <? idx b).
Proof. unfold t_lt, t_partial_cmp, Z.ltb. rewrite idx_cmp. destruct (idx a ?= idx b); reflexivity. Qed.
Lemma t_gt_idx (a b : T) : t_gt a b = (idx b <? idx a).
Proof.
  unfold t_gt, t_partial_cmp, Z.ltb. rewrite idx_cmp, (Z.compare_antisym (idx a) (idx b)).
  destruct (idx a ?= idx b); reflexivity.
Qed.

#[global] Instance OrdLawsStep : OrdLaws T | 100.
Proof.
  split.
  - intros a b. rewrite !idx_cmp. apply Z.compare_antisym.
  - intros a b c. fold (le a b) (le b c) (le a c). rewrite !le_idx. lia.
  - intros a b. rewrite idx_teq, idx_cmp, Z.eqb_eq, Z.compare_eq_iff. reflexivity.
Qed.
#[global] Instance OrdStrictStep : OrdStrict T | 100.
Proof. split. intros a b. rewrite idx_cmp, Z.compare_eq_iff. apply idx_inj. Qed.

(** Consecutive integers, and the elements numbered by them. *)
Fixpoint zseq (a : Z) (n : nat) : list Z :=
  match n with O => [] | S n' => a :: zseq (a + 1) n' end.
Lemma zseq_length a n : length (zseq a n) = n.
Proof. revert a; induction n; simpl; congruence. Qed.
Lemma zseq_in a n z : In z (zseq a n) <-> a <= z < a + Z.of_nat n.
Proof. revert a; induction n; intros a; simpl; [lia|]. rewrite IHn. lia. Qed.
Lemma zseq_app a n k : zseq a (n + k) = zseq a n ++ zseq (a + Z.of_nat n) k.
Proof.
  revert a; induction n; intros a; simpl.
  - f_equal. lia.
  - f_equal. rewrite IHn. do 2 f_equal. lia.
Qed.

Definition span (lo hi : Z) (l : list T) : Prop := map idx l = zseq lo (Z.to_nat (hi - lo + 1)).

Lemma span_length lo hi l : span lo hi l -> Z.of_nat (length l) = Z.max 0 (hi - lo + 1).
Proof. intros H. rewrite <- (map_length idx), H, zseq_length. lia. Qed.
Lemma span_in lo hi l t : span lo hi l -> (In t l <-> lo <= idx t <= hi).
Proof.
  intros H. transitivity (In (idx t) (map idx l)).
  - split; [apply in_map|]. intros K. apply in_map_iff in K. destruct K as (u & E & I).
    apply idx_inj in E. congruence.
  - rewrite H, zseq_in. lia.
Qed.
Lemma zseq_sorted lo n : StronglySorted Z.lt (zseq lo n).
Proof.
  revert lo; induction n; intros lo; simpl; constructor; [apply IHn|].
  apply Forall_forall. intros z Hz. apply zseq_in in Hz. lia.
Qed.
Lemma span_sorted lo hi l : span lo hi l -> StronglySorted lt l.
Proof.
  unfold span. generalize (Z.to_nat (hi - lo + 1)). intros n H.
  assert (S : StronglySorted Z.lt (map idx l)) by (rewrite H; apply zseq_sorted).
  clear - SL S. induction l as [|x l IH]; simpl in S; constructor; inversion S; subst.
  - apply IH. assumption.
  - apply Forall_forall. intros y Hy. apply lt_idx. rewrite Forall_forall in H2. apply H2, in_map, Hy.
Qed.
Lemma sorted_unique (l1 l2 : list T) :
  StronglySorted lt l1 -> StronglySorted lt l2 -> (forall t, In t l1 <-> In t l2) -> l1 = l2.
Proof.
  revert l2; induction l1 as [|x l1 IH]; intros l2 S1 S2 E.
  - destruct l2 as [|y l2]; [reflexivity|]. exfalso. apply (E y). now left.
  - destruct l2 as [|y l2]; [exfalso; apply (E x); now left|].
    inversion S1 as [|? ? S1' F1]; subst. inversion S2 as [|? ? S2' F2]; subst.
    rewrite Forall_forall in F1, F2.
    assert (x = y).
    { assert (I : In x (y :: l2)) by (apply E; now left). destruct I as [->|I]; [reflexivity|].
      assert (J : In y (x :: l1)) by (apply E; now left). destruct J as [J|J]; [exact J|].
      apply F2 in I. apply F1 in J. apply lt_idx in I. apply lt_idx in J. lia. }
    subst y. f_equal. apply IH; [assumption..|].
    intros t. specialize (E t). simpl in E. split; intros I.
    + destruct (proj1 E (or_intror I)) as [->|]; [|assumption].
      apply F1 in I. apply lt_idx in I. lia.
    + destruct (proj2 E (or_intror I)) as [->|]; [|assumption].
      apply F2 in I. apply lt_idx in I. lia.
Qed.

(** Every interval between two elements is listed. *)
Lemma span_exists (a b : T) lo hi : idx a <= lo -> hi <= idx b -> exists l, span lo hi l.
Proof.
  intros Ha Hb. unfold span. remember (Z.to_nat (hi - lo + 1)) as n eqn:En.
  revert lo Ha En. induction n as [|n IH]; intros lo Ha En.
  - exists []. reflexivity.
  - destruct (idx_convex a b lo) as [t Ht]; [lia|].
    destruct (IH (lo + 1)) as [l Hl]; [lia..|].
    exists (t :: l). simpl. rewrite Ht, Hl. reflexivity.
Qed.
Lemma span_lists lo hi l : span lo hi l -> lists (fun t => lo <= idx t <= hi) l.
Proof. intros H. split; [eapply span_sorted; eassumption | intros t; apply span_in; exact H]. Qed.
Lemma lists_unique (P : T -> Prop) l1 l2 : lists P l1 -> lists P l2 -> l1 = l2.
Proof.
  intros [S1 E1] [S2 E2]. apply sorted_unique; [assumption..|].
  intros t. rewrite E1, E2. reflexivity.
Qed.
Lemma lists_ext (P Q : T -> Prop) l : (forall t, P t <-> Q t) -> lists P l -> lists Q l.
Proof. intros E [S I]. split; [exact S|]. intros t. rewrite I. apply E. Qed.

Lemma apart_idx (a b : T) n : apart a b n <-> idx b = idx a + n /\ 0 <= n.
Proof.
  unfold apart. rewrite le_idx. split.
  - intros (L & l & Hl & Hn).
    destruct (span_exists a b (idx a) (idx b - 1)) as [l' H']; [lia..|].
    assert (l = l').
    { eapply lists_unique; [exact Hl|]. eapply lists_ext; [|apply span_lists; exact H'].
      intros t. rewrite le_idx, lt_idx. lia. }
    subst l'. apply span_length in H'. lia.
  - intros [E N]. split; [lia|].
    destruct (span_exists a b (idx a) (idx b - 1)) as [l' H']; [lia..|].
    exists l'. split.
    + eapply lists_ext; [|apply span_lists; exact H']. intros t. rewrite le_idx, lt_idx. lia.
    + apply span_length in H'. lia.
Qed.
End Generic.
