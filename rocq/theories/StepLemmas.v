(** Statements of C18-C22, derived from StepProofs. *)
From Coq Require Import Lia ZifyBool Sorted.
From Verif Require Import Base ModelBound ModelRanges ModelSets ModelValue ModelStep Spec SpecStep StepProofs.
Open Scope Z_scope.

Section Ints.
Context {PF : Platform}.

Lemma of_z_none_up (ty : ity) (x : mint ty) n : 0 <= n -> (of_z ty (mval x + n) = None <-> imax ty < mval x + n).
Proof. intros H. rewrite of_z_none. pose proof (mint_range _ x). lia. Qed.
Lemma of_z_none_down (ty : ity) (x : mint ty) n : 0 <= n -> (of_z ty (mval x - n) = None <-> mval x - n < imin ty).
Proof. intros H. rewrite of_z_none. pose proof (mint_range _ x). lia. Qed.

Lemma int_forward_checked_iff (ty : ity) (x : mint ty) n : 0 <= n <= usize_max ->
  (forall y : mint ty, forward_checked x n = Some y <-> mval y = mval x + n) /\
  (forward_checked x n = None <-> imax ty < mval x + n).
Proof.
  intros H. cbn [forward_checked StepMint]. rewrite int_forward_checked_exact by exact H.
  split; [intros y; apply of_z_some | apply of_z_none_up; lia].
Qed.
Lemma int_backward_checked_iff (ty : ity) (x : mint ty) n : 0 <= n <= usize_max ->
  (forall y : mint ty, backward_checked x n = Some y <-> mval y = mval x - n) /\
  (backward_checked x n = None <-> mval x - n < imin ty).
Proof.
  intros H. cbn [backward_checked StepMint]. rewrite int_backward_checked_exact by exact H.
  split; [intros y; apply of_z_some | apply of_z_none_down; lia].
Qed.
Lemma int_steps_between_iff (ty : ity) (a b : mint ty) :
  (forall n, steps_between a b = Some n <-> mval a <= mval b /\ n = mval b - mval a /\ n <= usize_max) /\
  (steps_between a b = None <-> mval b < mval a \/ usize_max < mval b - mval a).
Proof.
  cbn [steps_between StepMint]. rewrite int_steps_between_exact.
  destruct ((mval a <=? mval b) && (mval b - mval a <=? usize_max)) eqn:E; split.
  - intros n. split; [injection 1 as <-|intros (? & -> & ?)]; [lia | reflexivity].
  - split; [discriminate | lia].
  - intros n. split; [discriminate | lia].
  - split; [lia | reflexivity].
Qed.
Lemma int_forward_debug_iff (ty : ity) (x : mint ty) n : 0 <= n <= usize_max ->
  (forall y : mint ty, forward Debug x n = Ret y <-> mval y = mval x + n) /\
  (forward Debug x n = Panic <-> imax ty < mval x + n).
Proof.
  intros H. cbn [forward StepMint]. rewrite int_forward_exact by exact H.
  rewrite <- of_z_none_up by lia. split.
  - intros y. rewrite <- of_z_some. destruct (of_z ty (mval x + n)); split; congruence.
  - destruct (of_z ty (mval x + n)); split; congruence.
Qed.
Lemma int_backward_debug_iff (ty : ity) (x : mint ty) n : 0 <= n <= usize_max ->
  (forall y : mint ty, backward Debug x n = Ret y <-> mval y = mval x - n) /\
  (backward Debug x n = Panic <-> mval x - n < imin ty).
Proof.
  intros H. cbn [backward StepMint]. rewrite int_backward_exact by exact H.
  rewrite <- of_z_none_down by lia. split.
  - intros y. rewrite <- of_z_some. destruct (of_z ty (mval x - n)); split; congruence.
  - destruct (of_z ty (mval x - n)); split; congruence.
Qed.
Lemma wrapz_mod (ty : ity) z : wrapz ty z mod 2 ^ bits ty = z mod 2 ^ bits ty.
Proof. destruct (wrapz_congr ty z) as [k ->]. apply Z_mod_plus_full. Qed.
Lemma int_release_wraps (ty : ity) (x : mint ty) n : 0 <= n <= usize_max ->
  (exists y : mint ty, forward Release x n = Ret y /\ mval y mod 2 ^ bits ty = (mval x + n) mod 2 ^ bits ty) /\
  (exists y : mint ty, backward Release x n = Ret y /\ mval y mod 2 ^ bits ty = (mval x - n) mod 2 ^ bits ty).
Proof.
  intros H. cbn [forward backward StepMint].
  rewrite int_forward_exact, int_backward_exact by exact H. split.
  - destruct (of_z ty (mval x + n)) as [y|] eqn:E.
    + exists y. apply of_z_some in E. rewrite E. tauto.
    + exists (wrap ty (mval x + n)). rewrite wrap_val, wrapz_mod. tauto.
  - destruct (of_z ty (mval x - n)) as [y|] eqn:E.
    + exists y. apply of_z_some in E. rewrite E. tauto.
    + exists (wrap ty (mval x - n)). rewrite wrap_val, wrapz_mod. tauto.
Qed.
Lemma int_release_agrees (ty : ity) (x y : mint ty) n : 0 <= n <= usize_max ->
  (forward Debug x n = Ret y -> forward Release x n = Ret y) /\
  (backward Debug x n = Ret y -> backward Release x n = Ret y).
Proof.
  intros H. cbn [forward backward StepMint].
  rewrite !int_forward_exact, !int_backward_exact by exact H. split.
  - destruct (of_z ty (mval x + n)); congruence.
  - destruct (of_z ty (mval x - n)); congruence.
Qed.

Lemma char_conversion_safe (c : chr) n (r : mint U32) : 0 <= n <= usize_max ->
  (char_forward_u32 c n = Some r -> 0 <= mval r < 0xD800 \/ 0xE000 <= mval r <= 0x10FFFF) /\
  (char_backward_u32 c n = Some r -> 0 <= mval r < 0xD800 \/ 0xE000 <= mval r <= 0x10FFFF).
Proof.
  intros H. pose proof (char_forward_u32_exact c n H) as F. pose proof (char_backward_u32_exact c n H) as B.
  split; intros E; rewrite E in *.
  - destruct F as [F _]. unfold scalar in F. lia.
  - destruct B as [B _]. unfold scalar in B. lia.
Qed.
Lemma char_forward_code_points (c d : chr) n : 0 <= n <= usize_max ->
  (forward_checked c n = Some d <->
   cval d = cval c + n + (if (cval c <? 0xD800) && (0xD800 <=? cval c + n) then 0x800 else 0)).
Proof.
  intros H. cbn [forward_checked StepChr]. pose proof (char_forward_checked_exact c n H) as F.
  pose proof (chr_range c). pose proof (chr_range d).
  assert (K : cidx (cval d) = cidx (cval c) + n <->
    cval d = cval c + n + (if (cval c <? 0xD800) && (0xD800 <=? cval c + n) then 0x800 else 0)).
  { unfold cidx. destruct (cval c <? 55296) eqn:?, (cval d <? 55296) eqn:?, (55296 <=? cval c + n) eqn:?;
      cbn [andb]; lia. }
  rewrite <- K. destruct (char_forward_checked c n) as [e|].
  - rewrite <- F. split; [congruence|]. intros E. apply cidx_inj in E. congruence.
  - pose proof (cidx_range d). split; [discriminate | lia].
Qed.
End Ints.

Section Gen.
Context {T : Type} {PF : Platform} {OT : Ord T} {ST : Step T} {NU : Numbered T} {SL : StepLaws T}.

Lemma fc_iff (a b : T) n : 0 <= n <= usize_max -> (forward_checked a n = Some b <-> idx b = idx a + n).
Proof.
  intros H. pose proof (forward_checked_spec a n H) as F. destruct (forward_checked a n) as [c|].
  - rewrite <- F. split; [congruence|]. intros E. apply idx_inj in E. congruence.
  - split; [discriminate|]. intros E. exfalso. exact (F b E).
Qed.
Lemma bc_iff (a b : T) n : 0 <= n <= usize_max -> (backward_checked a n = Some b <-> idx b = idx a - n).
Proof.
  intros H. pose proof (backward_checked_spec a n H) as F. destruct (backward_checked a n) as [c|].
  - rewrite <- F. split; [congruence|]. intros E. apply idx_inj in E. congruence.
  - split; [discriminate|]. intros E. exfalso. exact (F b E).
Qed.
Lemma fc_none (a : T) n : 0 <= n <= usize_max -> (forward_checked a n = None <-> forall b : T, idx b < idx a + n).
Proof.
  intros H. pose proof (forward_checked_spec a n H) as F. destruct (forward_checked a n) as [c|].
  - split; [discriminate|]. intros K. specialize (K c). lia.
  - split; [|reflexivity]. intros _ b. destruct (Z_lt_ge_dec (idx b) (idx a + n)) as [|G]; [assumption|].
    destruct (idx_convex a b (idx a + n)) as [t Ht]; [lia|]. exfalso. exact (F t Ht).
Qed.
Lemma bc_none (a : T) n : 0 <= n <= usize_max -> (backward_checked a n = None <-> forall b : T, idx a - n < idx b).
Proof.
  intros H. pose proof (backward_checked_spec a n H) as F. destruct (backward_checked a n) as [c|].
  - split; [discriminate|]. intros K. specialize (K c). lia.
  - split; [|reflexivity]. intros _ b. destruct (Z_lt_ge_dec (idx a - n) (idx b)) as [|G]; [assumption|].
    destruct (idx_convex b a (idx a - n)) as [t Ht]; [lia|]. exfalso. exact (F t Ht).
Qed.
Lemma sb_iff (a b : T) n : steps_between a b = Some n <-> idx b = idx a + n /\ 0 <= n <= usize_max.
Proof.
  rewrite steps_between_spec.
  destruct ((idx a <=? idx b) && (idx b - idx a <=? usize_max)) eqn:E.
  - split; [injection 1 as <-; lia | intros [? ?]; f_equal; lia].
  - split; [discriminate | lia].
Qed.

Lemma steps_are_apart (c d : T) n : 0 <= n <= usize_max ->
  (forward_checked c n = Some d <-> apart c d n) /\
  (backward_checked c n = Some d <-> apart d c n) /\
  (steps_between c d = Some n <-> apart c d n).
Proof.
  intros H. rewrite fc_iff, bc_iff, sb_iff by exact H. rewrite !apart_idx. lia.
Qed.
Lemma steps_round_trip (a b : T) n : 0 <= n <= usize_max ->
  (forward_checked a n = Some b <-> backward_checked b n = Some a) /\
  (forward_checked a n = Some b <-> steps_between a b = Some n).
Proof. intros H. rewrite fc_iff, bc_iff, sb_iff by exact H. lia. Qed.
Lemma steps_compose (a : T) n k : 0 <= n -> 0 <= k -> n + k <= usize_max ->
  forward_checked a (n + k) = match forward_checked a n with Some b => forward_checked b k | None => None end /\
  backward_checked a (n + k) = match backward_checked a n with Some b => backward_checked b k | None => None end.
Proof.
  intros Hn Hk H. split.
  - destruct (forward_checked a n) as [b|] eqn:E.
    + apply fc_iff in E; [|lia]. destruct (forward_checked b k) as [c|] eqn:E2.
      * apply fc_iff in E2; [|lia]. apply fc_iff; lia.
      * rewrite fc_none in E2 by lia. apply fc_none; [lia|]. intros c. specialize (E2 c). lia.
    + rewrite fc_none in E by lia. apply fc_none; [lia|]. intros c. specialize (E c). lia.
  - destruct (backward_checked a n) as [b|] eqn:E.
    + apply bc_iff in E; [|lia]. destruct (backward_checked b k) as [c|] eqn:E2.
      * apply bc_iff in E2; [|lia]. apply bc_iff; lia.
      * rewrite bc_none in E2 by lia. apply bc_none; [lia|]. intros c. specialize (E2 c). lia.
    + rewrite bc_none in E by lia. apply bc_none; [lia|]. intros c. specialize (E c). lia.
Qed.
Lemma one_ok : 0 <= 1 <= usize_max.
Proof. pose proof usize_max_ge. lia. Qed.
Lemma step_successor (a b : T) :
  (forward_checked a 1 = Some b <-> lt a b /\ forall t, lt a t -> le b t) /\
  (forward_checked a 1 = None <-> greatest a) /\
  (backward_checked a 1 = Some b <-> lt b a /\ forall t, lt t a -> le t b) /\
  (backward_checked a 1 = None <-> least a).
Proof.
  pose proof one_ok as O. unfold greatest, least.
  rewrite fc_iff, fc_none, bc_iff, bc_none by exact O. repeat split.
  - apply lt_idx. lia.
  - intros t. rewrite lt_idx, le_idx. lia.
  - intros [L N]. apply lt_idx in L. destruct (idx_convex a b (idx a + 1)) as [t Ht]; [lia|].
    specialize (N t). rewrite lt_idx, le_idx in N. lia.
  - intros N u. specialize (N u). apply le_idx. lia.
  - intros G u. specialize (G u). apply le_idx in G. lia.
  - apply lt_idx. lia.
  - intros t. rewrite lt_idx, le_idx. lia.
  - intros [L N]. apply lt_idx in L. destruct (idx_convex b a (idx a - 1)) as [t Ht]; [lia|].
    specialize (N t). rewrite lt_idx, le_idx in N. lia.
  - intros N u. specialize (N u). apply le_idx. lia.
  - intros G u. specialize (G u). apply le_idx in G. lia.
Qed.
End Gen.

Section CharGen.
Context {PF : Platform}.
Lemma char_unchecked (m : mode) (c d : chr) n : 0 <= n <= usize_max ->
  (forward m c n = Ret d <-> apart c d n) /\ (forward m c n = Panic <-> forall d, ~ apart c d n) /\
  (backward m c n = Ret d <-> apart d c n) /\ (backward m c n = Panic <-> forall d, ~ apart d c n).
Proof.
  intros H. cbn [forward backward StepChr]. unfold forward_default, backward_default, unwrap.
  assert (F : forall e, char_forward_checked c n = Some e <-> apart c e n)
    by (intros e; exact (proj1 (steps_are_apart c e n H))).
  assert (B : forall e, char_backward_checked c n = Some e <-> apart e c n)
    by (intros e; exact (proj1 (proj2 (steps_are_apart c e n H)))).
  split; [|split; [|split]]; try setoid_rewrite <- F; try setoid_rewrite <- B.
  - destruct (char_forward_checked c n); split; try discriminate; injection 1 as ->; reflexivity.
  - destruct (char_forward_checked c n) as [e|]; split; try discriminate.
    + intros K. exfalso. exact (K e eq_refl).
    + reflexivity.
  - destruct (char_backward_checked c n); split; try discriminate; injection 1 as ->; reflexivity.
  - destruct (char_backward_checked c n) as [e|]; split; try discriminate.
    + intros K. exfalso. exact (K e eq_refl).
    + reflexivity.
Qed.
End CharGen.
