(** The other way round: what SpecProg.v says a program comes to, it comes to; release
    builds; and SpecProg.v says one thing. *)
From Coq Require Import String Lia.
From Verif Require Import Base ModelBound ModelRanges ModelSets ModelAlgebra ModelValue ModelStep ModelIter
  Spec SpecMap SpecFill SpecStep SpecIter StepProofs StepLemmas IterLemmas IterProofs IterProofs2 IterProofs3 IterProofs4
  ClientProg SpecProg ClientTypes RustProg ProgMeaning.
Open Scope Z_scope.
Open Scope string_scope.
Open Scope list_scope.

Section Complete.
Context {T : Type} {PF : Platform} {OT : Ord T} {ST : Step T} {NU : Numbered T} {SL : StepLaws T} (t0 : T).
Lemma bind_ret_inv {A B : Type} (m : outcome A) (f : A -> outcome B) x : bind m f = Ret x -> exists a, m = Ret a /\ f a = Ret x.
Proof. destruct m as [a| |]; try discriminate. intros E. now exists a. Qed.

Scheme mrun_min := Minimality for mrun Sort Prop
  with mloop_min := Minimality for mloop Sort Prop
  with mturns_min := Minimality for mturns Sort Prop.
Combined Scheme mrun_mloop_ind from mrun_min, mloop_min, mturns_min.

(** [r] is what [y] stands for, or a panic. *)
Definition comes_to {A B : Type} (R : A -> B -> Prop) (r : result A) (y : B) : Prop := r = Some Panic \/ exists x, r = done x /\ R x y.

Lemma first_one (P : T -> Prop) x y : first P x -> first P y -> x = y.
Proof. intros [Px Lx] [Py Ly]. apply idx_inj. specialize (Lx y Py). specialize (Ly x Px). rewrite le_idx in *. lia. Qed.
Lemma bool_one (Q : Prop) (t u : bool) : (t = true <-> Q) -> (u = true <-> Q) -> t = u.
Proof. intros A B. destruct t, u; intuition congruence. Qed.

Lemma end_one k (P : T -> Prop) x y : end_of k P x -> end_of k P y -> x = y.
Proof.
  destruct k; cbn [end_of]; [|apply first_one]. intros [Px Lx] [Py Ly]. apply idx_inj. specialize (Lx y Py). specialize (Ly x Px). rewrite le_idx in *. lia.
Qed.
Lemma mtake_one k (w : world T) x r r' : mtake k w x r -> mtake k w x r' -> r = r'.
Proof.
  assert (X : forall k (P : T -> Prop) t, end_of k P t -> P t) by (intros [] P t [H _]; exact H).
  destruct 1 as [d P G D E|d P t G D E Ne|d P t G D E Ne|W]; destruct 1 as [d' P' G' D' E'|d' P' t' G' D' E' Ne'|d' P' t' G' D' E' Ne'|W'];
    try (rewrite G in G'; injection G' as <- <-); try reflexivity;
    try (exfalso; apply X in E; now apply E' in E); try (exfalso; apply X in E'; now apply E in E');
    try (pose proof (end_one _ _ _ _ E E') as <-; reflexivity || contradiction);
    try (apply W' in G; congruence); try (apply W in G'; congruence).
Qed.
(** The [next] of the spec is the one of the model. *)
Lemma take_back s (w : world T) k x t o y : rel s w -> mtake k w x (done (o, y)) ->
  exists i i', get x s = Some (CIter i) /\ take Debug k i = done (o, i') /\ rel (taken x t o i' s) (mtaken x t o y w).
Proof.
  intros H Mt. assert (G : exists i, get x s = Some (CIter i)).
  { pose proof (rel_get s w x H) as Gx. inversion Mt as [d P Gw|d P u Gw| |]; subst; rewrite Gw in Gx; destruct (get x s) as [[| |i]|]; cbn [means] in Gx; try contradiction; eauto. }
  destruct G as (i & G). exists i. pose proof (take_rel s w k x i t H G) as K.
  destruct (take Debug k i) as [[[o' i']| |]|]; try contradiction.
  - destruct K as (y' & Mt' & Rl). pose proof (mtake_one _ _ _ _ _ Mt Mt') as E. injection E as <- <-. exists i'. auto.
  - pose proof (mtake_one _ _ _ _ _ Mt K). discriminate.
  - pose proof (mtake_one _ _ _ _ _ Mt K). discriminate.
Qed.

Lemma complete :
  (forall (w : world T) b q, mrun w b q -> forall s y, rel s w -> q = done y -> ~ mrun w b None -> exists r, brun Debug s b r /\ comes_to rel_end r y) /\
  (forall (w : world T) t body q, mloop w t body q -> forall s y, rel s w -> q = done y -> ~ mloop w t body None -> exists r, frun Debug s t body r /\ comes_to rel r y) /\
  (forall (w : world T) body q, mturns w body q -> forall s y, rel s w -> q = done y -> ~ mturns w body None -> exists r, lrun Debug s body r /\ comes_to rel r y).
Proof.
  apply mrun_mloop_ind; try discriminate.
  - intros w s y H E _. injection E as <-. eexists. split; [constructor|]. right. eexists. split; [reflexivity|now split].
  - intros w s y H E _. injection E as <-. eexists. split; [constructor|]. right. eexists. split; [reflexivity|now split].
  - intros w x a k P b r M _ IH s y H E N. destruct (mset_ok _ _ _ _ _ H M) as (v & Ev & Sv).
    destruct (IH ((x, CSet v) :: s) y) as (q & B & C); [now apply rel_cons|exact E|intros X; apply N; eapply m_let; eauto|].
    exists q. split; [eapply b_let; eauto|exact C].
  - intros w x a k P l Q b r M G _ IH s y H E N. destruct (mset_ok _ _ _ _ _ H M) as (v & Ev & Sv).
    pose proof (rel_get s w x H) as Gx. rewrite G in Gx. destruct (get x s) as [[v'| |]|] eqn:Gs; cbn [means] in Gx; try contradiction.
    destruct (IH (set x (CSet v) s) y) as (q & B & C); [now apply rel_set|exact E|intros X; apply N; eapply m_put; eauto|].
    exists q. split; [eapply b_put; eauto|exact C].
  - intros w c Q t b1 b2 w' b r M Ht R1 IH1 R2 IH2 s y H E N. destruct (mcond_ok t0 _ _ _ _ H M) as (t' & Et & Ht'). pose proof (bool_one _ _ _ Ht Ht') as <-.
    destruct (IH1 s _ H eq_refl) as (r1 & B1 & [->|([e s'] & -> & [A1 A2])]).
    + intros X. apply N. eapply m_if_stop; eauto. constructor.
    + exists (Some Panic). split; [eapply b_if_stop; eauto; constructor|now left].
    + cbn [fst snd] in *. subst e. destruct (IH2 (oldest (length s) s') y) as (q & B & C);
        [rewrite (rel_length _ _ H); now apply rel_oldest|exact E|intros X; apply N; eapply m_if; eauto|].
      exists q. split; [eapply b_if; eauto|exact C].
  - intros w c Q t b1 b2 w' b M Ht R1 IH1 s y H E N. injection E as <-. destruct (mcond_ok t0 _ _ _ _ H M) as (t' & Et & Ht'). pose proof (bool_one _ _ _ Ht Ht') as <-.
    destruct (IH1 s _ H eq_refl) as (r1 & B1 & [->|([e s'] & -> & [A1 A2])]).
    + intros X. apply N. eapply m_if_stop; eauto. constructor.
    + exists (Some Panic). split; [eapply b_if_stop; eauto; constructor|now left].
    + cbn [fst snd] in *. subst e. eexists. split; [eapply b_if_break; eauto|]. right. eexists. split; [reflexivity|]. split; [reflexivity|].
      cbn [snd]. rewrite (rel_length _ _ H). now apply rel_oldest.
  - intros w c Q t b1 b2 b r0 r M Ht R1 IH1 F s y H E N. subst r. inversion F.
  - intros w t a k P body w' b r M W R1 IH1 R2 IH2 s y H E N. destruct (mset_ok _ _ _ _ _ H M) as (v & Ev & Sv).
    destruct (into_yields v k P Sv) as [W'|[[W' Bg]|[_ Y]]]; [congruence|destruct N; eapply m_for_big; eauto|].
    destruct (into_iter Debug v) as [[i| |]|] eqn:Ei; try contradiction; [|exists (Some Panic); split; [eapply b_for_iter; [eassumption|rewrite Ei; constructor]|now left]].
    assert (Di : double i = two_ended k) by (pose proof (into_double Debug v i Ei) as [-> _]; rewrite (proj1 (proj2 (proj2 Sv))); reflexivity).
    destruct (IH1 ((it_var, CIter i) :: s) w') as (r1 & B1 & [->|(s' & -> & A)]);
      [apply rel_cons; [now split|exact H]|reflexivity|intros X; apply N; eapply m_for_stop; eauto; constructor|..].
    + exists (Some Panic). split; [eapply b_for_stop; eauto; constructor|now left].
    + destruct (IH2 (oldest (length s) s') y) as (q & B & C);
        [rewrite (rel_length _ _ H); now apply rel_oldest|exact E|intros X; apply N; eapply m_for; eauto|].
      exists q. split; [eapply b_for; eauto|exact C].
  - intros w t a k P body b r0 r M W R1 IH1 F s y H E N. subst r. inversion F.
  - (* loop *) intros w body w' b r R1 IH1 R2 IH2 s y H E N.
    destruct (IH1 s _ H eq_refl) as (r1 & B1 & [->|(s' & -> & A)]); [intros X; apply N; eapply m_loop_stop; eauto; constructor|..].
    + exists (Some Panic). split; [eapply b_loop_stop; eauto; constructor|now left].
    + destruct (IH2 s' y A E) as (q & B & C); [intros X; apply N; eapply m_loop; eauto|]. exists q. split; [eapply b_loop; eauto|exact C].
  - intros w body b r0 r R1 IH1 F s y H E N. subst r. inversion F.
  - (* into_iter *) intros w x a k P b r M W R1 IH1 s y H E N. destruct (mset_ok _ _ _ _ _ H M) as (v & Ev & Sv).
    destruct (into_yields v k P Sv) as [W'|[[W' Bg]|[_ Y]]]; [congruence|destruct N; eapply m_iter_big; eauto|].
    destruct (into_iter Debug v) as [[i| |]|] eqn:Ei; try contradiction; [|exists (Some Panic); split; [eapply b_iter_into; [eassumption|rewrite Ei; constructor]|now left]].
    assert (Di : double i = two_ended k) by (pose proof (into_double Debug v i Ei) as [-> _]; rewrite (proj1 (proj2 (proj2 Sv))); reflexivity).
    destruct (IH1 ((x, CIter i) :: s) y) as (q & B & C); [apply rel_cons; [now split|exact H]|exact E|intros X; apply N; eapply m_iter; eauto|].
    exists q. split; [eapply b_iter; eauto|exact C].
  - (* next *) intros w k t x b1 b2 o y0 w' b r Mt R1 IH1 R2 IH2 s y H E N. destruct (take_back s w k x t o y0 H Mt) as (i & i' & G & Tk & Rl).
    destruct (IH1 _ _ Rl eq_refl) as (r1 & B1 & [->|([e s'] & -> & [A1 A2])]); [intros X; apply N; eapply m_next_stop; eauto; constructor|..].
    + exists (Some Panic). split; [eapply b_next_stop; eauto; constructor|now left].
    + cbn [fst snd] in *. subst e. destruct (IH2 (oldest (length s) s') y) as (q & B & C);
        [rewrite (rel_length _ _ H); now apply rel_oldest|exact E|intros X; apply N; eapply m_next; eauto|].
      exists q. split; [eapply b_next; eauto|exact C].
  - intros w k t x b1 b2 o y0 w' b Mt R1 IH1 s y H E N. injection E as <-. destruct (take_back s w k x t o y0 H Mt) as (i & i' & G & Tk & Rl).
    destruct (IH1 _ _ Rl eq_refl) as (r1 & B1 & [->|([e s'] & -> & [A1 A2])]); [intros X; apply N; eapply m_next_stop; eauto; constructor|..].
    + exists (Some Panic). split; [eapply b_next_stop; eauto; constructor|now left].
    + cbn [fst snd] in *. subst e. eexists. split; [eapply b_next_break; eauto|]. right. eexists. split; [reflexivity|]. split; [reflexivity|].
      cbn [snd]. rewrite (rel_length _ _ H). now apply rel_oldest.
  - intros w k t x b1 b2 o y0 b r0 r Mt R1 IH1 F s y H E N. subst r. inversion F.
  - intros w k t x b1 b2 b r0 r Mt F s y H E N. subst r. inversion F.
  - intros w t body d P G K s y H E N. injection E as <-. pose proof (rel_get s w it_var H) as Gx. rewrite G in Gx.
    destruct (get it_var s) as [[| |i]|] eqn:Gs; cbn [means] in Gx; try contradiction. destruct Gx as [Di Gx]. subst d. pose proof (next_yields i P Gx) as X.
    destruct (next Debug i) as [[[x|] i']| |] eqn:Nx; cbn [next_ok] in X; try contradiction.
    + destruct X as [[X _] _]. now apply K in X.
    + destruct X as [_ X]. eexists. split; [eapply f_end; eauto|]. right. eexists. split; [reflexivity|].
      rewrite <- (set_same it_var (MLeft (double i) P) w G). apply rel_set; [exact H|split; [exact (next_double Debug i _ _ Nx)|exact X]].
    + destruct X as (x & [X _] & _). now apply K in X.
  - intros w t body d P x w' r G Fx Ng R1 IH1 R2 IH2 s y H E N. pose proof (rel_get s w it_var H) as Gx. rewrite G in Gx.
    destruct (get it_var s) as [[| |i]|] eqn:Gs; cbn [means] in Gx; try contradiction. destruct Gx as [Di Gx]. subst d. pose proof (next_yields i P Gx) as X.
    destruct (next Debug i) as [[[x'|] i']| |] eqn:Nx; cbn [next_ok] in X; try contradiction;
      [|destruct X as [X _]; destruct Fx as [Fx _]; now apply X in Fx|destruct X as (x' & F' & Gr); pose proof (first_one _ _ _ Fx F') as <-; contradiction].
    destruct X as (F' & _ & Y). pose proof (first_one _ _ _ Fx F') as <-.
    destruct (IH1 ((t, CElt x) :: set it_var (CIter i') s) (Through, w')) as (r1 & B1 & [->|([e s'] & -> & [A1 A2])]);
      [apply rel_cons; [reflexivity|]; apply rel_set; [exact H|split; [exact (next_double Debug i _ _ Nx)|exact Y]]|reflexivity|intros X; apply N; eapply l_stop; eauto; constructor|..].
    + exists (Some Panic). split; [eapply f_stop; eauto; constructor|now left].
    + cbn [fst snd] in *. subst e. destruct (IH2 (oldest (length s) s') y) as (q & B & C);
        [rewrite (rel_length _ _ H); now apply rel_oldest|exact E|intros X; apply N; eapply l_turn; eauto|].
      exists q. split; [eapply f_turn; eauto|exact C].
  - intros w t body d P x w' G Fx Ng R1 IH1 s y H E N. injection E as <-. pose proof (rel_get s w it_var H) as Gx. rewrite G in Gx.
    destruct (get it_var s) as [[| |i]|] eqn:Gs; cbn [means] in Gx; try contradiction. destruct Gx as [Di Gx]. subst d. pose proof (next_yields i P Gx) as X.
    destruct (next Debug i) as [[[x'|] i']| |] eqn:Nx; cbn [next_ok] in X; try contradiction;
      [|destruct X as [X _]; destruct Fx as [Fx _]; now apply X in Fx|destruct X as (x' & F' & Gr); pose proof (first_one _ _ _ Fx F') as <-; contradiction].
    destruct X as (F' & _ & Y). pose proof (first_one _ _ _ Fx F') as <-.
    destruct (IH1 ((t, CElt x) :: set it_var (CIter i') s) (Broken, w')) as (r1 & B1 & [->|([e s'] & -> & [A1 A2])]);
      [apply rel_cons; [reflexivity|]; apply rel_set; [exact H|split; [exact (next_double Debug i _ _ Nx)|exact Y]]|reflexivity|intros X; apply N; eapply l_stop; eauto; constructor|..].
    + exists (Some Panic). split; [eapply f_stop; eauto; constructor|now left].
    + cbn [fst snd] in *. subst e. eexists. split; [eapply f_break; eauto|]. right. eexists. split; [reflexivity|].
      rewrite (rel_length _ _ H). now apply rel_oldest.
  - intros w t body d P x r0 r G Fx Ng R1 IH1 F s y H E N. subst r. inversion F.
  - intros w body w' r R1 IH1 R2 IH2 s y H E N.
    destruct (IH1 s _ H eq_refl) as (r1 & B1 & [->|([e s'] & -> & [A1 A2])]); [intros X; apply N; eapply c_stop; eauto; constructor|..].
    + exists (Some Panic). split; [eapply r_stop; eauto; constructor|now left].
    + cbn [fst snd] in *. subst e. destruct (IH2 (oldest (length s) s') y) as (q & B & C);
        [rewrite (rel_length _ _ H); now apply rel_oldest|exact E|intros X; apply N; eapply c_turn; eauto|].
      exists q. split; [eapply r_turn; eauto|exact C].
  - intros w body w' R1 IH1 s y H E N. injection E as <-.
    destruct (IH1 s _ H eq_refl) as (r1 & B1 & [->|([e s'] & -> & [A1 A2])]); [intros X; apply N; eapply c_stop; eauto; constructor|..].
    + exists (Some Panic). split; [eapply r_stop; eauto; constructor|now left].
    + cbn [fst snd] in *. subst e. eexists. split; [eapply r_break; eauto|]. right. eexists. split; [reflexivity|]. rewrite (rel_length _ _ H). now apply rel_oldest.
  - intros w body r0 r R1 IH1 F s y H E N. subst r. inversion F.
Qed.

(** ** One meaning *)
Lemma one_meaning :
  (forall (w : world T) b q, mrun w b q -> forall y y', q = done y -> mrun w b (done y') -> y = y') /\
  (forall (w : world T) t body q, mloop w t body q -> forall y y', q = done y -> mloop w t body (done y') -> y = y') /\
  (forall (w : world T) body q, mturns w body q -> forall y y', q = done y -> mturns w body (done y') -> y = y').
Proof.
  assert (I1 : forall (A B : Type) (r : result A) (x : B), ~ fails r (done x)) by (intros A B r x F; inversion F).
  apply mrun_mloop_ind; try discriminate.
  - intros w y y' [= <-] R. now inversion R.
  - intros w y y' [= <-] R. now inversion R.
  - intros w x a k P b r M _ IH y y' E R. inversion R; subst. eapply IH; [reflexivity|].
    match goal with H : mset w a = Some (k0, P0) |- _ => rewrite M in H; injection H as <- <- end. assumption.
  - intros w x a k P l Q b r M G _ IH y y' E R. inversion R; subst. eapply IH; [reflexivity|].
    match goal with H : mset w a = Some (k0, P0) |- _ => rewrite M in H; injection H as <- <- end. assumption.
  - intros w c Q t b1 b2 w' b r M Ht R1 IH1 R2 IH2 y y' E R. inversion R; subst.
    + match goal with H : mcond w c = Some ?q, K : (_ = true <-> ?q) |- _ => rewrite M in H; injection H as <-; pose proof (bool_one _ _ _ Ht K) as <- end.
      match goal with H : mrun w _ (done (Through, ?v)) |- _ => specialize (IH1 _ _ eq_refl H); injection IH1 as <- end.
      eapply IH2; [reflexivity|assumption].
    + match goal with H : mcond w c = Some ?q, K : (_ = true <-> ?q) |- _ => rewrite M in H; injection H as <-; pose proof (bool_one _ _ _ Ht K) as <- end.
      match goal with H : mrun w _ (done (Broken, ?v)) |- _ => specialize (IH1 _ _ eq_refl H); discriminate IH1 end.
    + now match goal with H : fails _ _ |- _ => apply I1 in H end.
  - intros w c Q t b1 b2 w' b M Ht R1 IH1 y y' [= <-] R. inversion R; subst.
    + match goal with H : mcond w c = Some ?q, K : (_ = true <-> ?q) |- _ => rewrite M in H; injection H as <-; pose proof (bool_one _ _ _ Ht K) as <- end.
      match goal with H : mrun w _ (done (Through, ?v)) |- _ => specialize (IH1 _ _ eq_refl H); discriminate IH1 end.
    + match goal with H : mcond w c = Some ?q, K : (_ = true <-> ?q) |- _ => rewrite M in H; injection H as <-; pose proof (bool_one _ _ _ Ht K) as <- end.
      match goal with H : mrun w _ (done (Broken, ?v)) |- _ => specialize (IH1 _ _ eq_refl H); injection IH1 as <- end. reflexivity.
    + now match goal with H : fails _ _ |- _ => apply I1 in H end.
  - intros w c Q t b1 b2 b r0 r M Ht R1 IH1 F y y' E. subst r. now apply I1 in F.
  - intros w t a k P body w' b r M W R1 IH1 R2 IH2 y y' E R. inversion R; subst.
    + match goal with H : mset w a = Some (k0, P0) |- _ => rewrite M in H; injection H as <- <- end.
      match goal with H : mloop _ t body (done ?v) |- _ => specialize (IH1 _ _ eq_refl H); subst v end.
      eapply IH2; [reflexivity|assumption].
    + now match goal with H : fails _ _ |- _ => apply I1 in H end.
  - intros w t a k P body b r0 r M W R1 IH1 F y y' E. subst r. now apply I1 in F.
  - intros w body w' b r R1 IH1 R2 IH2 y y' E R. inversion R; subst.
    + match goal with H : mturns w body (done ?v) |- _ => specialize (IH1 _ _ eq_refl H); subst v end. eapply IH2; [reflexivity|assumption].
    + now match goal with H : fails _ _ |- _ => apply I1 in H end.
  - intros w body b r0 r R1 IH1 F y y' E. subst r. now apply I1 in F.
  - intros w x a k P b r M W R1 IH1 y y' E R. inversion R; subst. eapply IH1; [reflexivity|].
    match goal with H : mset w a = Some (k0, P0) |- _ => rewrite M in H; injection H as <- <- end. assumption.
  - intros w k t x b1 b2 o z w' b r Mt R1 IH1 R2 IH2 y y' E R. inversion R; subst.
    + match goal with H : mtake k w x (done _) |- _ => pose proof (mtake_one _ _ _ _ _ Mt H) as Eq; injection Eq as <- <- end.
      match goal with H : mrun _ _ (done (Through, ?v)) |- _ => specialize (IH1 _ _ eq_refl H); injection IH1 as <- end.
      eapply IH2; [reflexivity|assumption].
    + match goal with H : mtake k w x (done _) |- _ => pose proof (mtake_one _ _ _ _ _ Mt H) as Eq; injection Eq as <- <- end.
      match goal with H : mrun _ _ (done (Broken, ?v)) |- _ => specialize (IH1 _ _ eq_refl H); discriminate IH1 end.
    + now match goal with H : fails _ _ |- _ => apply I1 in H end.
    + now match goal with H : fails _ _ |- _ => apply I1 in H end.
  - intros w k t x b1 b2 o z w' b Mt R1 IH1 y y' [= <-] R. inversion R; subst.
    + match goal with H : mtake k w x (done _) |- _ => pose proof (mtake_one _ _ _ _ _ Mt H) as Eq; injection Eq as <- <- end.
      match goal with H : mrun _ _ (done (Through, ?v)) |- _ => specialize (IH1 _ _ eq_refl H); discriminate IH1 end.
    + match goal with H : mtake k w x (done _) |- _ => pose proof (mtake_one _ _ _ _ _ Mt H) as Eq; injection Eq as <- <- end.
      match goal with H : mrun _ _ (done (Broken, ?v)) |- _ => specialize (IH1 _ _ eq_refl H); injection IH1 as <- end. reflexivity.
    + now match goal with H : fails _ _ |- _ => apply I1 in H end.
    + now match goal with H : fails _ _ |- _ => apply I1 in H end.
  - intros w k t x b1 b2 o z b r0 r Mt R1 IH1 F y y' E. subst r. now apply I1 in F.
  - intros w k t x b1 b2 b r0 r Mt F y y' E. subst r. now apply I1 in F.
  - intros w t body d P G K y y' [= <-] R. inversion R; subst; try reflexivity; exfalso;
      match goal with H : get it_var w = Some (MLeft ?d' ?q), F : first ?q ?z |- _ => rewrite G in H; injection H as <- <-; destruct F as [F _]; exact (K z F) end.
  - intros w t body d P x w' r G Fx Ng R1 IH1 R2 IH2 y y' E R. inversion R; subst.
    + exfalso. match goal with H : get it_var _ = Some (MLeft ?d' ?q), K : forall z, ~ ?q z |- _ => rewrite G in H; injection H as <- <-; exact (K x (proj1 Fx)) end.
    + match goal with H : get it_var w = Some (MLeft ?d' ?q), F : first ?q ?z |- _ => rewrite G in H; injection H as <- <-; pose proof (first_one _ _ _ Fx F) as <- end.
      match goal with H : mrun _ body (done (Through, ?v)) |- _ => specialize (IH1 _ _ eq_refl H); injection IH1 as <- end.
      eapply IH2; [reflexivity|assumption].
    + match goal with H : get it_var w = Some (MLeft ?d' ?q), F : first ?q ?z |- _ => rewrite G in H; injection H as <- <-; pose proof (first_one _ _ _ Fx F) as <- end.
      match goal with H : mrun _ body (done (Broken, ?v)) |- _ => specialize (IH1 _ _ eq_refl H); discriminate IH1 end.
    + now match goal with H : fails _ _ |- _ => apply I1 in H end.
  - intros w t body d P x w' G Fx Ng R1 IH1 y y' [= <-] R. inversion R; subst.
    + exfalso. match goal with H : get it_var _ = Some (MLeft ?d' ?q), K : forall z, ~ ?q z |- _ => rewrite G in H; injection H as <- <-; exact (K x (proj1 Fx)) end.
    + match goal with H : get it_var w = Some (MLeft ?d' ?q), F : first ?q ?z |- _ => rewrite G in H; injection H as <- <-; pose proof (first_one _ _ _ Fx F) as <- end.
      match goal with H : mrun _ body (done (Through, ?v)) |- _ => specialize (IH1 _ _ eq_refl H); discriminate IH1 end.
    + match goal with H : get it_var w = Some (MLeft ?d' ?q), F : first ?q ?z |- _ => rewrite G in H; injection H as <- <-; pose proof (first_one _ _ _ Fx F) as <- end.
      match goal with H : mrun _ body (done (Broken, ?v)) |- _ => specialize (IH1 _ _ eq_refl H); injection IH1 as <- end. reflexivity.
    + now match goal with H : fails _ _ |- _ => apply I1 in H end.
  - intros w t body d P x r0 r G Fx Ng R1 IH1 F y y' E. subst r. now apply I1 in F.
  - intros w body w' r R1 IH1 R2 IH2 y y' E R. inversion R; subst.
    + match goal with H : mrun w body (done (Through, ?v)) |- _ => specialize (IH1 _ _ eq_refl H); injection IH1 as <- end.
      eapply IH2; [reflexivity|assumption].
    + match goal with H : mrun w body (done (Broken, ?v)) |- _ => specialize (IH1 _ _ eq_refl H); discriminate IH1 end.
    + now match goal with H : fails _ _ |- _ => apply I1 in H end.
  - intros w body w' R1 IH1 y y' [= <-] R. inversion R; subst.
    + match goal with H : mrun w body (done (Through, ?v)) |- _ => specialize (IH1 _ _ eq_refl H); discriminate IH1 end.
    + match goal with H : mrun w body (done (Broken, ?v)) |- _ => specialize (IH1 _ _ eq_refl H); injection IH1 as <- end. reflexivity.
    + now match goal with H : fails _ _ |- _ => apply I1 in H end.
  - intros w body r0 r R1 IH1 F y y' E. subst r. now apply I1 in F.
Qed.

(** ** Release builds *)
Lemma iter_release (v : value T) i : ClientProg.into_iter Debug v = done i -> ClientProg.into_iter Release v = done i.
Proof.
  unfold done. destruct v; cbn [ClientProg.into_iter]; intros E; try discriminate; injection E as E; f_equal; apply bind_ret_inv in E as (j & E & F);
    [rewrite (into_iter_agree _ _ E)|rewrite (lbr_into_iter_agree _ _ E)|rewrite (bs_into_iter_agree _ _ E)|rewrite (lbs_into_iter_agree _ _ E)]; exact F.
Qed.
Lemma next_release (i : iter T) x : next Debug i = Ret x -> next Release i = Ret x.
Proof.
  destruct i; cbn [next]; intros E; apply bind_ret_inv in E as (j & E & F);
    [rewrite (next_agree _ _ E)|rewrite (bsi_next_agree _ _ E)|pose proof (lbri_call_agree _ UpNext _ I E) as K; cbn [lbri_call] in K; rewrite K|pose proof (lbsi_call_agree _ UpNext _ I E) as K; cbn [lbsi_call] in K; rewrite K]; exact F.
Qed.
Lemma take_release k (i : iter T) x : take Debug k i = done x -> take Release k i = done x.
Proof.
  destruct k; cbn [take]; unfold done; [|intros E; injection E as E; f_equal; now apply next_release].
  destruct i; cbn [next_back]; intros E; try discriminate; injection E as E; f_equal; apply bind_ret_inv in E as (j & E & F);
    [rewrite (next_back_agree _ _ E)|rewrite (bsi_next_back_agree _ _ E)]; exact F.
Qed.
Lemma runs_release :
  (forall (s : state T) b r, brun Debug s b r -> forall y, r = done y -> brun Release s b r) /\
  (forall (s : state T) t body r, frun Debug s t body r -> forall y, r = done y -> frun Release s t body r) /\
  (forall (s : state T) body r, lrun Debug s body r -> forall y, r = done y -> lrun Release s body r).
Proof.
  apply brun_frun_ind; intros; subst;
    repeat match goal with H : fails _ (done _) |- _ => now inversion H end;
    repeat match goal with H : ClientProg.into_iter Debug _ = done _ |- _ => apply iter_release in H | H : next Debug _ = Ret _ |- _ => apply next_release in H
      | H : take Debug _ _ = done _ |- _ => apply take_release in H end;
    repeat match goal with IH : forall y, done ?z = done y -> _ |- _ => specialize (IH z eq_refl) end; try discriminate;
    solve [econstructor; eauto].
Qed.
End Complete.
