(** Collecting into a vector agrees with the plain loop, memory permitting. *)
From Coq Require Import Lia ZifyBool.
From Verif Require Import Base ModelStep ModelIter ModelAdapt ModelCollect SpecCollect IterProofs.
Open Scope Z_scope.

Lemma isize_usize {PF : Platform} : 32767 <= isize_max /\ isize_max < usize_max.
Proof. unfold isize_max, usize_max, usize_bits. destruct ptr_width; lia. Qed.

Section Collect.
Context {PF : Platform} {A S : Type}.
Variable next : S -> outcome (option A * S).
Variable hint : S -> outcome (Z * option Z).
Variable sz : Z.
Hypothesis Hsz : 0 < sz.

Local Notation extends := (extends next hint sz).
Local Notation collects := (collects next hint sz).
Local Notation room := (room hint sz).

Lemma min_cap_pos : 1 <= min_cap sz.
Proof. unfold min_cap. destruct (sz =? 1); [lia|]. destruct (sz <=? 1024); lia. Qed.
Lemma min_cap_fits n : 1 <= n -> n * sz <= isize_max -> Z.max (min_cap sz) n * sz <= isize_max.
Proof.
  intros N F. pose proof isize_usize. unfold min_cap. destruct (sz =? 1) eqn:E; [lia|]. destruct (sz <=? 1024) eqn:E2.
  - destruct (Z.max_spec 4 n) as [[_ ->]|[_ ->]]; lia.
  - rewrite Z.max_r by lia. exact F.
Qed.
Lemma alloc_ret c c' : alloc sz c = Ret c' -> c' = c /\ c * sz <= isize_max.
Proof. unfold alloc. destruct (_ <=? _) eqn:E; [|discriminate]. intros Q. injection Q as <-. lia. Qed.
Lemma alloc_not_diverge c : alloc sz c <> Diverge.
Proof. unfold alloc. destruct (_ <=? _); discriminate. Qed.

Definition sized (len cap : Z) : Prop := 1 <= len <= cap /\ cap * sz <= isize_max.

Lemma room_ret len cap s cap' : sized len cap -> room len cap s = Ret cap' -> sized (len + 1) cap'.
Proof.
  intros [L C] R. unfold ModelCollect.room, reserve in R. destruct (len =? cap) eqn:E.
  - inv_bind R. destruct (_ <=? _) in R; [|discriminate]. apply alloc_ret in R. destruct R as [-> R]. split; [lia|exact R].
  - injection R as <-. split; [lia|exact C].
Qed.
Lemma room_free len cap s : len < cap -> room len cap s = Ret cap.
Proof. intros L. unfold ModelCollect.room. replace (len =? cap) with false by lia. reflexivity. Qed.
Lemma room_not_diverge len cap s : hint s <> Diverge -> room len cap s <> Diverge.
Proof.
  intros H. unfold ModelCollect.room, reserve. destruct (len =? cap); [|discriminate].
  destruct (hint s); cbn [bind]; [|discriminate|congruence].
  destruct (_ <=? _); [apply alloc_not_diverge|discriminate].
Qed.
Lemma first_cap_ret s cap : first_cap hint sz s = Ret cap -> sized 1 cap.
Proof.
  unfold first_cap. intros E. inv_bind E. apply alloc_ret in E. destruct E as [-> E]. pose proof min_cap_pos. split; [lia|exact E].
Qed.
Lemma first_cap_not_diverge s : hint s <> Diverge -> first_cap hint sz s <> Diverge.
Proof. intros H. unfold first_cap. destruct (hint s); cbn [bind]; [apply alloc_not_diverge|discriminate|congruence]. Qed.

(** One outcome at most. *)
Lemma extends_det len cap s o1 o2 : extends len cap s o1 -> extends len cap s o2 -> o1 = o2.
Proof.
  intros H. revert o2. induction H as [|len cap s N|len cap s s' x N R|len cap cap' s s' x o N R H IH]; intros o2 H2; inversion H2; subst; try congruence.
  assert (s'0 = s' /\ x0 = x) as [-> ->] by (split; congruence). assert (cap'0 = cap') as -> by congruence.
  f_equal. apply IH. assumption.
Qed.
Lemma collects_det s o1 o2 : collects s o1 -> collects s o2 -> o1 = o2.
Proof.
  intros H H2. destruct H as [s s' N|s N|s s' x N R|s s' x cap o N R H]; inversion H2; subst; try congruence.
  assert (s'0 = s' /\ x0 = x) as [-> ->] by (split; congruence). assert (cap0 = cap) as -> by congruence.
  f_equal. eapply extends_det; eassumption.
Qed.

(** What is collected is what the loop sees. *)
Lemma extends_drains len cap s o : extends len cap s o -> forall l, o = Ret l -> drains next s (Ret l).
Proof.
  intros H. induction H as [len cap s s' N|len cap s N|len cap s s' x N R|len cap cap' s s' x o N R H IH]; intros l E; try discriminate.
  - injection E as <-. eapply drains_done. exact N.
  - inv_bind E. injection E as <-. subst o. change (Ret (x :: a)) with (k <- Ret a ;; Ret (x :: k)).
    eapply drains_item; [exact N|]. apply IH. reflexivity.
Qed.
Lemma collects_drains s l : collects s (Ret l) -> drains next s (Ret l).
Proof.
  intros H. inversion H as [s0 s' N| | |s0 s' x cap o N R X]; subst.
  - eapply drains_done. exact N.
  - match goal with Q : bind _ _ = Ret _ |- _ => inv_bind Q; injection Q as <-; subst o end.
    change (Ret (x :: a)) with (k <- Ret a ;; Ret (x :: k)). eapply drains_item; [exact N|]. eapply extends_drains; [exact X|reflexivity].
Qed.
Lemma extends_memory len cap s o : extends len cap s o -> sized len cap -> forall l, o = Ret l ->
  (len + Z.of_nat (length l)) * sz <= isize_max.
Proof.
  intros H. induction H as [len cap s s' N|len cap s N|len cap s s' x N R|len cap cap' s s' x o N R H IH]; intros Z l E; try discriminate.
  - injection E as <-. destruct Z as [L C]. cbn [length]. nia.
  - inv_bind E. injection E as <-. subst o. specialize (IH (room_ret _ _ _ _ Z R) a eq_refl). cbn [length].
    replace (len + Z.of_nat (Datatypes.S (length a))) with (len + 1 + Z.of_nat (length a)) by lia. exact IH.
Qed.
Lemma collects_memory s l : collects s (Ret l) -> fits_memory sz l.
Proof.
  intros H. unfold fits_memory. pose proof isize_usize as I. unfold isize_max in I at 1. inversion H as [s0 s' N| | |s0 s' x cap o N R X]; subst.
  - cbn [length]. lia.
  - match goal with Q : bind _ _ = Ret _ |- _ => inv_bind Q; injection Q as <-; subst o end.
    pose proof (extends_memory _ _ _ _ X (first_cap_ret _ _ R) a eq_refl) as M. cbn [length]. unfold isize_max in M. lia.
Qed.

(** Enough capacity: no further hint is asked for. *)
Lemma extends_enough s l : drains next s (Ret l) -> forall len cap, len + Z.of_nat (length l) <= cap -> extends len cap s (Ret l).
Proof.
  intros H. remember (Ret l) as o eqn:E. revert l E. induction H as [s s' N|s s' x o N H IH|s N]; intros l E len cap C; try discriminate.
  - injection E as <-. eapply extends_done. exact N.
  - inv_bind E. injection E as <-. subst o. cbn [length] in C. change (Ret (x :: a)) with (k <- Ret a ;; Ret (x :: k)).
    eapply extends_item; [exact N|apply room_free; lia|]. apply (IH a eq_refl). lia.
Qed.
(** A hint exact after the first element is enough. *)
Lemma collects_iff s l :
  (forall x s' k, next s = Ret (Some x, s') -> drains next s' (Ret k) -> Z.of_nat (length k) <= usize_max ->
     exists u, hint s' = Ret (Z.of_nat (length k), u)) ->
  (collects s (Ret l) <-> drains next s (Ret l) /\ fits_memory sz l).
Proof.
  intros X. split.
  - intros H. split; [exact (collects_drains s l H)|exact (collects_memory s l H)].
  - intros [D F]. inversion D as [s0 s' N|s0 s' x o N D'|]; subst.
    + eapply collects_empty. exact N.
    + match goal with Q : bind _ _ = Ret _ |- _ => inv_bind Q; injection Q as <-; subst o end.
      unfold fits_memory in F. cbn [length] in F. pose proof isize_usize as I.
      assert (F' : (Z.of_nat (length a) + 1) * sz <= isize_max) by (unfold isize_max; lia).
      assert (S1 : Z.of_nat (length a) + 1 <= usize_max) by nia.
      destruct (X x s' a N D' ltac:(lia)) as [u U].
      change (Ret (x :: a)) with (k <- Ret a ;; Ret (x :: k)).
      eapply collects_item with (cap := Z.max (min_cap sz) (Z.of_nat (length a) + 1)); [exact N| |].
      * unfold first_cap. rewrite U. cbn [bind fst]. unfold saturating_inc. rewrite Z.min_l by lia. unfold alloc.
        pose proof (min_cap_fits (Z.of_nat (length a) + 1) ltac:(lia) F'). destruct (_ <=? _) eqn:Q; [reflexivity|lia].
      * apply extends_enough; [exact D'|lia].
Qed.

(** Amortised growth asks for at most twice what is needed, if the hints do not
    promise too much. *)
Lemma min_cap_small : sz <= isize_max -> min_cap sz * sz <= isize_max.
Proof.
  intros F. pose proof isize_usize. unfold min_cap. destruct (sz =? 1) eqn:E; [lia|]. destruct (sz <=? 1024) eqn:E2; lia.
Qed.
Definition truthful : Prop :=
  forall s k, drains next s (Ret k) -> exists lo u, hint s = Ret (lo, u) /\ 0 <= lo <= Z.of_nat (length k).
Lemma alloc_fits c : c * sz <= isize_max -> alloc sz c = Ret c.
Proof. intros F. unfold alloc. destruct (_ <=? _) eqn:E; [reflexivity|lia]. Qed.
Lemma growth_fits a b c : a * sz <= isize_max -> b * sz <= isize_max -> c * sz <= isize_max -> Z.max a (Z.max b c) * sz <= isize_max.
Proof. intros. destruct (Z.max_spec b c) as [[_ ->]|[_ ->]]; [destruct (Z.max_spec a c) as [[_ ->]|[_ ->]]|destruct (Z.max_spec a b) as [[_ ->]|[_ ->]]]; assumption. Qed.
Lemma extends_truthful : truthful -> forall s l, drains next s (Ret l) -> forall len cap,
  1 <= len <= cap -> 2 * (len + Z.of_nat (length l)) * sz <= isize_max -> extends len cap s (Ret l).
Proof.
  intros Tr s l H. remember (Ret l) as o eqn:E. revert l E. induction H as [s s' N|s s' x o N H IH|s N]; intros l E len cap L F; try discriminate.
  - injection E as <-. eapply extends_done. exact N.
  - inv_bind E. injection E as <-. subst o. cbn [length] in F. change (Ret (x :: a)) with (k <- Ret a ;; Ret (x :: k)).
    destruct (Z.eq_dec len cap) as [->|Ne].
    + destruct (Tr s' a H) as (lo & u & U & B). pose proof isize_usize as Iu.
      assert (M : min_cap sz * sz <= isize_max) by (apply min_cap_small; nia).
      eapply extends_item with (cap' := Z.max (min_cap sz) (Z.max (cap * 2) (cap + (lo + 1)))); [exact N| |apply (IH a eq_refl); lia].
      unfold ModelCollect.room, reserve. rewrite Z.eqb_refl, U. cbn [bind fst]. unfold saturating_inc. rewrite Z.min_l by nia.
      destruct (_ <=? usize_max) eqn:Q; [|nia]. apply alloc_fits, growth_fits; [exact M|nia|nia].
    + eapply extends_item; [exact N|apply room_free; lia|]. apply (IH a eq_refl); lia.
Qed.
Lemma collects_truthful : truthful -> forall s l, drains next s (Ret l) -> 2 * Z.of_nat (length l) * sz <= isize_max -> collects s (Ret l).
Proof.
  intros Tr s l D F. inversion D as [s0 s' N|s0 s' x o N D'|]; subst.
  - eapply collects_empty. exact N.
  - match goal with Q : bind _ _ = Ret _ |- _ => inv_bind Q; injection Q as <-; subst o end. cbn [length] in F.
    destruct (Tr s' a D') as (lo & u & U & B). pose proof isize_usize as Iu. pose proof min_cap_pos.
    change (Ret (x :: a)) with (k <- Ret a ;; Ret (x :: k)).
    assert (M : min_cap sz * sz <= isize_max) by (apply min_cap_small; nia).
    eapply collects_item with (cap := Z.max (min_cap sz) (lo + 1)); [exact N| |apply extends_truthful; [exact Tr|exact D'|lia|lia]].
    unfold first_cap. rewrite U. cbn [bind fst]. unfold saturating_inc. rewrite Z.min_l by nia. apply alloc_fits, min_cap_fits; nia.
Qed.

(** Collecting always ends. *)
Lemma extends_total : (forall s, next s <> Diverge) -> (forall s, hint s <> Diverge) ->
  forall n len cap s, sized len cap -> isize_max - len < Z.of_nat n -> exists o, extends len cap s o /\ o <> Diverge.
Proof.
  intros N H. induction n as [|n IH]; intros len cap s Z B.
  - exfalso. destruct Z as [L C]. nia.
  - destruct (next s) as [[[x|] s']| |] eqn:E; [| | |exfalso; exact (N s E)].
    + destruct (room len cap s') as [cap'| |] eqn:R; [| |exfalso; exact (room_not_diverge len cap s' (H s') R)].
      * destruct (IH (len + 1) cap' s' (room_ret _ _ _ _ Z R) ltac:(lia)) as (o & X & D).
        eexists. split; [eapply extends_item; eassumption|]. destruct o; cbn [bind]; congruence.
      * exists Panic. split; [eapply extends_full; eassumption|discriminate].
    + exists (Ret []). split; [eapply extends_done; exact E|discriminate].
    + exists Panic. split; [apply extends_panic; exact E|discriminate].
Qed.
Lemma collects_total : (forall s, next s <> Diverge) -> (forall s, hint s <> Diverge) ->
  forall s, exists o, collects s o /\ o <> Diverge.
Proof.
  intros N H s. destruct (next s) as [[[x|] s']| |] eqn:E; [| | |exfalso; exact (N s E)].
  - destruct (first_cap hint sz s') as [cap| |] eqn:R; [| |exfalso; exact (first_cap_not_diverge s' (H s') R)].
    + destruct (extends_total N H (Z.to_nat isize_max) 1 cap s' (first_cap_ret _ _ R)) as (o & X & D).
      { pose proof isize_usize. lia. }
      eexists. split; [eapply collects_item; eassumption|]. destruct o; cbn [bind]; congruence.
    + exists Panic. split; [eapply collects_full; eassumption|discriminate].
  - exists (Ret []). split; [eapply collects_empty; exact E|discriminate].
  - exists Panic. split; [apply collects_panic; exact E|discriminate].
Qed.
(** A hint of [usize::MAX] asks for more than any allocation. *)
Lemma collects_huge s : (forall x s', next s = Ret (x, s') -> x <> None) -> (forall s, exists u, hint s = Ret (usize_max, u)) ->
  forall o, collects s o -> o = Panic.
Proof.
  intros N H o C. inversion C as [s0 s' E| | |s0 s' x cap o' E R X]; subst; try reflexivity.
  - exfalso. exact (N None s' E eq_refl).
  - exfalso. unfold first_cap in R. destruct (H s') as [u U]. rewrite U in R. cbn [bind fst] in R.
    apply alloc_ret in R. destruct R as [_ R]. unfold saturating_inc in R. pose proof isize_usize. nia.
Qed.
End Collect.
