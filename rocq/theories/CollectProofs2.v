(** Collecting the crate's iterators. *)
From Coq Require Import Lia ZifyBool.
From Verif Require Import Base ModelBound ModelRanges ModelSets ModelValue ModelStep ModelIter ModelAdapt ModelCollect Reach
  Spec SpecStep SpecIter SpecCollect StepProofs StepLemmas InstancesStep IterProofs IterProofs2 IterProofs3 IterProofs4 IterLemmas IterBig
  IterRelease CollectProofs.
Open Scope Z_scope.

(** ** One build against the other *)
Section Agree.
Context {PF : Platform} {A S : Type}.
Variables f g : S -> outcome (option A * S).
Variables hf hg : S -> outcome (Z * option Z).
Variable sz : Z.
Hypothesis FG : forall s x, f s = Ret x -> g s = Ret x.
Hypothesis HH : forall s x, hf s = Ret x -> hg s = Ret x.
Lemma extends_agree len cap s o : extends f hf sz len cap s o -> forall l, o = Ret l -> extends g hg sz len cap s (Ret l).
Proof.
  intros H. induction H as [len cap s s' N|len cap s N|len cap s s' x N R|len cap cap' s s' x o N R H IH]; intros l E; try discriminate.
  - injection E as <-. eapply extends_done. apply FG. exact N.
  - inv_bind E. injection E as <-. subst o. change (Ret (x :: a)) with (k <- Ret a ;; Ret (x :: k)).
    eapply extends_item; [apply FG; exact N| |apply IH; reflexivity].
    unfold room in *. destruct (len =? cap); [|exact R]. inv_bind R. rewrite (HH _ _ E). exact R.
Qed.
Lemma collects_agree s l : collects f hf sz s (Ret l) -> collects g hg sz s (Ret l).
Proof.
  intros H. inversion H as [s0 s' N| | |s0 s' x cap o N R X]; subst.
  - eapply collects_empty. apply FG. exact N.
  - match goal with Q : bind _ _ = Ret _ |- _ => inv_bind Q; injection Q as <-; subst o end.
    change (Ret (x :: a)) with (k <- Ret a ;; Ret (x :: k)). eapply collects_item; [apply FG; exact N| |eapply extends_agree; [exact X|reflexivity]].
    unfold first_cap in *. inv_bind R. rewrite (HH _ _ E). exact R.
Qed.
End Agree.

(** From "what is returned" and "always ends" to the outcome. *)
Lemma outcome_iff {B : Type} (R : outcome B -> Prop) (C : Prop) (l : B) :
  (forall o1 o2, R o1 -> R o2 -> o1 = o2) -> (exists o, R o /\ o <> Diverge) ->
  (forall k, R (Ret k) <-> k = l /\ C) -> forall o, R o <-> (o = Ret l /\ C) \/ (o = Panic /\ ~ C).
Proof.
  intros D (o0 & R0 & N) I o. split.
  - intros H. rewrite (D _ _ H R0). destruct o0 as [k| |]; [| |congruence].
    + apply I in R0. destruct R0 as [-> X]. left. auto.
    + right. split; [reflexivity|]. intros X. assert (R (Ret l)) by (apply I; auto). pose proof (D _ _ R0 H0). discriminate.
  - intros [[-> X]|[-> X]]; [apply I; auto|]. destruct o0 as [k| |]; [| |congruence]; [|exact R0].
    exfalso. apply I in R0. apply X, R0.
Qed.

Section Generic.
Context {T : Type} {PF : Platform} {OT : Ord T} {ST : Step T} {NU : Numbered T} {SL : StepLaws T}.

Lemma size_hint_agree (it : BoundedRangeIter T) h : bri_size_hint Debug it = Ret h -> bri_size_hint Release it = Ret h.
Proof.
  unfold bri_size_hint. intros E. inv_bind E. destruct (steps_between _ _); [|injection E0 as <-; exact E].
  rewrite (usize_add_agree _ _ _ E0). exact E.
Qed.
Lemma set_size_hint_agree (it : BoundedSetIter T) h : bsi_size_hint Debug it = Ret h -> bsi_size_hint Release it = Ret h.
Proof. unfold bsi_size_hint. intros E. inv_bind E. rewrite (sum_agree _ _ _ E0). exact E. Qed.

Lemma size_hint_ends (it : BoundedRangeIter T) m : bri_size_hint m it <> Diverge.
Proof.
  unfold bri_size_hint. destruct (steps_between _ _); cbn [bind]; [|discriminate].
  unfold usize_add. destruct (_ <=? _); cbn [bind]; [discriminate|]. destruct m; discriminate.
Qed.
Lemma len_ends (it : BoundedRangeIter T) m : bri_len m it <> Diverge.
Proof.
  unfold bri_len. pose proof (size_hint_ends it m) as H. destruct (bri_size_hint m it) as [[a [b|]]| |]; cbn [bind]; try congruence.
  - unfold exact_len. cbn [fst snd]. destruct (_ =? _); discriminate.
  - discriminate.
Qed.
Lemma sum_ends (its : list (BoundedRangeIter T)) m acc : sum_lens m its acc <> Diverge.
Proof.
  revert acc. induction its as [|i its IH]; intros acc; cbn [sum_lens]; [discriminate|].
  pose proof (len_ends i m). destruct (bri_len m i); cbn [bind]; try congruence. unfold usize_add. destruct (_ <=? _); cbn [bind]; [apply IH|].
  destruct m; cbn [bind]; [discriminate|apply IH].
Qed.
Lemma set_size_hint_ends (it : BoundedSetIter T) m : bsi_size_hint m it <> Diverge.
Proof. unfold bsi_size_hint. pose proof (sum_ends (bsi_range_iters it) m 0). destruct (sum_lens _ _ _); cbn [bind]; congruence. Qed.
Lemma trim_ends (its : list (BoundedRangeIter T)) m : trim m its <> Diverge.
Proof.
  induction its as [|i its IH]; cbn [trim]; [discriminate|]. pose proof (len_ends i m).
  destruct (bri_len m i); cbn [bind]; try congruence. destruct (_ =? _); [exact IH|discriminate].
Qed.
Lemma set_next_ends (it : BoundedSetIter T) : bsi_next Debug it <> Diverge /\ bsi_next_back Debug it <> Diverge.
Proof.
  unfold bsi_next, bsi_next_back. split.
  - pose proof (trim_ends (bsi_range_iters it) Debug). destruct (trim _ _) as [[|i its]| |]; cbn [bind on_front]; try congruence.
    pose proof (next_not_diverge i). destruct (bri_next Debug i); cbn [bind]; congruence.
  - pose proof (trim_ends (rev (bsi_range_iters it)) Debug). destruct (trim _ _) as [[|i its]| |]; cbn [bind on_front]; try congruence.
    pose proof (next_back_not_diverge i). destruct (bri_next_back Debug i); cbn [bind]; congruence.
Qed.

(** ** Ranges *)
Lemma drains_is (it : BoundedRangeIter T) l k : holds it l -> drains (bri_next Debug) it (Ret k) -> k = l /\ forall t, In t l -> ~ greatest t.
Proof.
  intros H D. destruct (drains_forward l it H) as [D1 D2].
  destruct (proj2 (extreme_dec l)) as [C|C].
  - pose proof (drains_det _ _ _ _ D (D1 C)) as Q. injection Q as ->. auto.
  - pose proof (drains_det _ _ _ _ D (D2 C)). discriminate.
Qed.
Lemma drains_back_is (it : BoundedRangeIter T) l k : holds it (rev l) -> drains (bri_next_back Debug) it (Ret k) -> k = l /\ forall t, In t l -> ~ least t.
Proof.
  intros H D. destruct (drains_backward l it H) as [D1 D2].
  destruct (proj1 (extreme_dec l)) as [C|C].
  - pose proof (drains_det _ _ _ _ D (D1 C)) as Q. injection Q as ->. auto.
  - pose proof (drains_det _ _ _ _ D (D2 C)). discriminate.
Qed.
Lemma collect_forward sz (it : BoundedRangeIter T) l : 0 < sz -> holds it l ->
  forall o, collects (bri_next Debug) (bri_size_hint Debug) sz it o <->
    (o = Ret l /\ (forall t, In t l -> ~ greatest t) /\ fits_memory sz l) \/
    (o = Panic /\ ~ ((forall t, In t l -> ~ greatest t) /\ fits_memory sz l)).
Proof.
  intros Hs H. apply outcome_iff.
  - intros o1 o2. apply collects_det.
  - apply collects_total; [exact Hs|exact next_not_diverge|intros s; apply size_hint_ends].
  - intros k. rewrite collects_iff; [|exact Hs|].
    + split.
      * intros [D F]. destruct (drains_is it l k H D) as [-> G]. auto.
      * intros (-> & G & F). split; [|exact F]. apply (drains_forward l it H). exact G.
    + intros x it' k' N D U. destruct (next_refines it l _ it' H N) as [_ H'].
      destruct (drains_is it' _ k' H' D) as [-> _]. destruct (size_reported it' _ H' U) as [E _]. eauto.
Qed.
Lemma collect_backward sz (it : BoundedRangeIter T) l : 0 < sz -> holds it (rev l) ->
  forall o, collects (bri_next_back Debug) (bri_size_hint Debug) sz it o <->
    (o = Ret l /\ (forall t, In t l -> ~ least t) /\ fits_memory sz l) \/
    (o = Panic /\ ~ ((forall t, In t l -> ~ least t) /\ fits_memory sz l)).
Proof.
  intros Hs H. apply outcome_iff.
  - intros o1 o2. apply collects_det.
  - apply collects_total; [exact Hs|exact next_back_not_diverge|intros s; apply size_hint_ends].
  - intros k. rewrite collects_iff; [|exact Hs|].
    + split.
      * intros [D F]. destruct (drains_back_is it l k H D) as [-> G]. auto.
      * intros (-> & G & F). split; [|exact F]. apply (drains_backward l it H). exact G.
    + intros x it' k' N D U. destruct (next_back_refines it _ _ it' H N) as [_ H']. rewrite rev_involutive in H'.
      destruct (drains_back_is it' _ k' H' D) as [-> _]. destruct (size_reported it' _ H') as [E _]; [rewrite rev_length; exact U|].
      rewrite rev_length in E. eauto.
Qed.

(** ** Sets *)
Lemma set_drains_is (it : BoundedSetIter T) l k : holds_set it l -> drains (bsi_next Debug) it (Ret k) -> k = l /\ forall t, In t l -> ~ greatest t.
Proof.
  intros H D. destruct (bsi_drains l it H) as [D1 D2].
  destruct (proj2 (extreme_dec l)) as [C|C].
  - pose proof (drains_det _ _ _ _ D (D1 C)) as Q. injection Q as ->. auto.
  - pose proof (drains_det _ _ _ _ D (D2 C)). discriminate.
Qed.
Lemma set_drains_back_is (it : BoundedSetIter T) l k : holds_set it (rev l) -> drains (bsi_next_back Debug) it (Ret k) -> k = l /\ forall t, In t l -> ~ least t.
Proof.
  intros H D. destruct (bsi_drains_back l it H) as [D1 D2].
  destruct (proj1 (extreme_dec l)) as [C|C].
  - pose proof (drains_det _ _ _ _ D (D1 C)) as Q. injection Q as ->. auto.
  - pose proof (drains_det _ _ _ _ D (D2 C)). discriminate.
Qed.
Lemma set_collect_forward sz (it : BoundedSetIter T) l : 0 < sz -> holds_set it l ->
  forall o, collects (bsi_next Debug) (bsi_size_hint Debug) sz it o <->
    (o = Ret l /\ (forall t, In t l -> ~ greatest t) /\ fits_memory sz l) \/
    (o = Panic /\ ~ ((forall t, In t l -> ~ greatest t) /\ fits_memory sz l)).
Proof.
  intros Hs H. apply outcome_iff.
  - intros o1 o2. apply collects_det.
  - apply collects_total; [exact Hs|intros s; apply set_next_ends|intros s; apply set_size_hint_ends].
  - intros k. rewrite collects_iff; [|exact Hs|].
    + split.
      * intros [D F]. destruct (set_drains_is it l k H D) as [-> G]. auto.
      * intros (-> & G & F). split; [|exact F]. apply (bsi_drains l it H). exact G.
    + intros x it' k' N D U. destruct (bsi_next_cases it l H) as [(i2 & E & H' & _)|[E _]]; [|congruence].
      rewrite N in E. injection E as Q ->.
      destruct (set_drains_is i2 _ k' H' D) as [-> _]. destruct (set_size_reported i2 _ H' U) as [E _]. eauto.
Qed.
Lemma set_collect_backward sz (it : BoundedSetIter T) l : 0 < sz -> holds_set it (rev l) ->
  forall o, collects (bsi_next_back Debug) (bsi_size_hint Debug) sz it o <->
    (o = Ret l /\ (forall t, In t l -> ~ least t) /\ fits_memory sz l) \/
    (o = Panic /\ ~ ((forall t, In t l -> ~ least t) /\ fits_memory sz l)).
Proof.
  intros Hs H. apply outcome_iff.
  - intros o1 o2. apply collects_det.
  - apply collects_total; [exact Hs|intros s; apply set_next_ends|intros s; apply set_size_hint_ends].
  - intros k. rewrite collects_iff; [|exact Hs|].
    + split.
      * intros [D F]. destruct (set_drains_back_is it l k H D) as [-> G]. auto.
      * intros (-> & G & F). split; [|exact F]. apply (bsi_drains_back l it H). exact G.
    + intros x it' k' N D U. destruct (bsi_next_back_cases it _ H) as [(i2 & E & H' & _)|[E _]]; [|congruence].
      rewrite N in E. injection E as Q ->. rewrite rev_involutive in H'.
      destruct (set_drains_back_is i2 _ k' H' D) as [-> _]. destruct (set_size_reported i2 _ H') as [E _]; [rewrite rev_length; exact U|].
      rewrite rev_length in E. eauto.
Qed.
End Generic.

(** ** [take] of an iterator that never ends *)
Section Take.
Context {PF : Platform} {A S : Type}.
Variable next : S -> outcome (option A * S).
Hypothesis N : forall s o s', next s = Ret (o, s') -> o <> None.

Lemma take_length n : forall s w, drains (tk_next next) (TK s (Z.of_nat n)) (Ret w) -> length w = n.
Proof.
  induction n as [|n IH]; intros s w D.
  - inversion D as [s0 s' E|s0 s' x o E D'|]; subst; [reflexivity|]. unfold tk_next in E. cbn [tk_n] in E. discriminate.
  - assert (Nz : Z.of_nat (Datatypes.S n) =? 0 = false) by lia.
    inversion D as [s0 s' E|s0 s' x o E D'|]; subst; unfold tk_next in E; cbn [tk_n tk_iter] in E; rewrite Nz in E; inv_bind E.
    + destruct a as [o s1]. cbn [fst snd] in E. injection E as -> <-. exfalso. exact (N _ _ _ E0 eq_refl).
    + destruct a as [o1 s1]. cbn [fst snd] in E. injection E as -> <-.
      match goal with Q : bind _ _ = Ret _ |- _ => inv_bind Q; injection Q as <-; subst o end. cbn [length]. f_equal. apply (IH s1).
      replace (Z.of_nat n) with (Z.of_nat (Datatypes.S n) - 1) by lia. exact D'.
Qed.
Lemma take_collects sz hint s n l : 0 < sz -> 0 <= n <= usize_max -> (forall s, exists u, hint s = Ret (usize_max, u)) ->
  (collects (tk_next next) (tk_size_hint hint) sz (TK s n) (Ret l) <->
   drains (tk_next next) (TK s n) (Ret l) /\ fits_memory sz l).
Proof.
  intros Hs B H. apply collects_iff; [exact Hs|]. intros x st k E D U. unfold tk_next in E. cbn [tk_n tk_iter] in E.
  destruct (n =? 0) eqn:Z0; [discriminate|]. inv_bind E. destruct a as [o s1]. cbn [fst snd] in E. injection E as -> <-.
  rewrite <- (Z2Nat.id (n - 1)) in D by lia. rewrite (take_length _ _ _ D). unfold tk_size_hint. cbn [tk_n tk_iter].
  destruct (n - 1 =? 0) eqn:Z1.
  - exists (Some 0). replace (Z.of_nat (Z.to_nat (n - 1))) with 0 by lia. reflexivity.
  - destruct (H s1) as [u ->]. cbn [bind fst snd]. eexists. rewrite Z.min_r by lia. rewrite Z2Nat.id by lia. reflexivity.
Qed.
Lemma take_run (call : S -> up_call -> outcome (option A * S)) n : (forall s, call s UpNext = next s) -> forall s w,
  drains (tk_next next) (TK s (Z.of_nat n)) (Ret w) <-> exists s', run call s (repeat UpNext n) = Ret (map Some w, s').
Proof.
  intros C. induction n as [|n IH]; intros s w.
  - cbn [repeat run]. split.
    + intros D. pose proof (take_length 0 _ _ D). destruct w; [|discriminate]. eexists. reflexivity.
    + intros [s' E]. injection E as E _. destruct w; [|discriminate]. eapply drains_done. reflexivity.
  - assert (Nz : Z.of_nat (Datatypes.S n) =? 0 = false) by lia.
    assert (Pr : Z.of_nat (Datatypes.S n) - 1 = Z.of_nat n) by lia. cbn [repeat run]. rewrite C.
    assert (U : tk_next next (TK s (Z.of_nat (Datatypes.S n))) = (p <- next s ;; Ret (fst p, TK (snd p) (Z.of_nat n)))).
    { unfold tk_next. cbn [tk_n tk_iter]. rewrite Nz, Pr. reflexivity. }
    split.
    + intros D. inversion D as [s0 s' E|s0 s' x o E D'|]; subst; rewrite U in E; inv_bind E; destruct a as [o1 s1]; cbn [fst snd] in E.
      * injection E as -> <-. exfalso. exact (N _ _ _ E0 eq_refl).
      * injection E as -> <-. match goal with Q : bind _ _ = Ret _ |- _ => inv_bind Q; injection Q as <-; subst o end.
        apply IH in D'. destruct D' as [s2 R]. rewrite E0. cbn [bind fst snd]. rewrite R. cbn [bind fst snd map]. eauto.
    + intros [s' E]. inv_bind E. inv_bind E. destruct a as [o1 s1], a0 as [reps s2]. cbn [fst snd] in *. injection E as E <-.
      destruct w as [|x w]; [discriminate|]. cbn [map] in E. injection E as -> ->.
      change (Ret (x :: w)) with (k <- Ret w ;; Ret (x :: k)). eapply drains_item; [rewrite U, E0; reflexivity|].
      apply IH. eauto.
Qed.
End Take.

Lemma nth_error_ext_len {A : Type} (v : list A) : forall w, length v = length w ->
  (forall i a b, nth_error v i = Some a -> nth_error w i = Some b -> a = b) -> v = w.
Proof.
  induction v as [|x v IH]; intros [|y w] L H; try discriminate; [reflexivity|]. f_equal.
  - exact (H O x y eq_refl eq_refl).
  - apply IH; [now injection L|]. intros i. exact (H (Datatypes.S i)).
Qed.
Section TakeUp.
Context {T : Type} {PF : Platform} {OT : Ord T} {ST : Step T} {NU : Numbered T} {SL : StepLaws T}.
Lemma nexts_passed n : passed (repeat UpNext n) = Z.of_nat n.
Proof. induction n as [|n IH]; cbn [repeat passed]; [reflexivity|]. lia. Qed.
Lemma nexts_positions n : forall p, positions p (repeat UpNext n) = map (fun i => p + Z.of_nat i) (seq 0 n).
Proof.
  induction n as [|n IH]; intros p; cbn [repeat positions seq map]; [reflexivity|]. f_equal; [lia|].
  rewrite IH, <- seq_shift, map_map. apply map_ext. intros i. lia.
Qed.
Lemma ranked_fun (P : T -> Prop) e f p : ranked P e p -> ranked P f p -> e = f.
Proof.
  intros [Pe (k & [Sk Ik] & Lk)] [Pf (j & [Sj Ij] & Lj)]. apply idx_inj.
  destruct (Z.lt_trichotomy (idx e) (idx f)) as [C|[C|C]]; [|exact C|]; exfalso.
  - assert (L : (length (e :: k) <= length j)%nat).
    { apply NoDup_incl_length.
      - constructor; [|exact (sorted_nodup _ Sk)]. intros I. apply Ik in I. destruct I as [_ I]. apply lt_idx in I. lia.
      - intros t [<-|I]; apply Ij; [split; [exact Pe|apply lt_idx; exact C]|]. apply Ik in I. destruct I as [Pt I]. split; [exact Pt|].
        apply lt_idx in I. apply lt_idx. lia. }
    cbn [length] in L. lia.
  - assert (L : (length (f :: j) <= length k)%nat).
    { apply NoDup_incl_length.
      - constructor; [|exact (sorted_nodup _ Sj)]. intros I. apply Ij in I. destruct I as [_ I]. apply lt_idx in I. lia.
      - intros t [<-|I]; apply Ik; [split; [exact Pf|apply lt_idx; exact C]|]. apply Ij in I. destruct I as [Pt I]. split; [exact Pt|].
        apply lt_idx in I. apply lt_idx. lia. }
    cbn [length] in L. lia.
Qed.
(** The first [n] elements by rank. *)
Lemma take_ranked {S : Type} (call : S -> up_call -> outcome (option T * S)) (M : T -> Prop) s n w :
  (forall s c o s', call s c = Ret (o, s') -> o <> None) ->
  (forall cs reps s', Forall up_call_ok cs -> run call s cs = Ret (reps, s') ->
     Forall2 (fun o p => exists e, o = Some e /\ ranked M e p) reps (positions 0 cs)) ->
  (forall cs, Forall up_call_ok cs -> ((exists x, run call s cs = Ret x) <-> exists e, ranked M e (passed cs))) ->
  0 <= n ->
  (drains (tk_next (fun s => call s UpNext)) (TK s n) (Ret w) <->
   Z.of_nat (length w) = n /\ (exists e, ranked M e n) /\ forall i e, nth_error w i = Some e -> ranked M e (Z.of_nat i)).
Proof.
  intros NN Hist Rets B. assert (NN' : forall s o s', call s UpNext = Ret (o, s') -> o <> None) by (intros s0 o s'; apply NN).
  rewrite <- (Z2Nat.id n) by exact B. generalize (Z.to_nat n) as m. clear n B. intros m.
  assert (Ok : Forall up_call_ok (repeat UpNext m)) by (apply Forall_forall; intros c I; apply repeat_spec in I; subst c; exact I).
  pose proof (Rets _ Ok) as R. rewrite nexts_passed in R.
  assert (K : forall w s', run call s (repeat UpNext m) = Ret (map Some w, s') ->
    length w = m /\ forall i e, nth_error w i = Some e -> ranked M e (Z.of_nat i)).
  { intros w0 s' E. pose proof (Hist _ _ _ Ok E) as F. rewrite nexts_positions in F.
    assert (L : length w0 = m).
    { assert (Q : length (map (@Some T) w0) = length (map (fun i => 0 + Z.of_nat i) (seq 0 m))) by (clear - F; induction F; cbn; auto).
      rewrite !map_length, seq_length in Q. exact Q. }
    split; [exact L|]. intros i e Q.
    assert (Hi : (i < m)%nat) by (rewrite <- L; apply nth_error_Some; congruence).
    assert (G : forall a b (R : option T -> Z -> Prop) i x y, Forall2 R a b -> nth_error a i = Some x -> nth_error b i = Some y -> R x y).
    { clear. intros a b R i x y F. revert i. induction F; intros [|i]; cbn; intros; try discriminate; [congruence|eauto]. }
    assert (Sq : nth_error (map (fun i => 0 + Z.of_nat i) (seq 0 m)) i = Some (Z.of_nat i)).
    { rewrite (map_nth_error (fun i => 0 + Z.of_nat i) i (seq 0 m) (d := i)); [reflexivity|].
      rewrite (nth_error_nth' _ O) by (rewrite seq_length; exact Hi). rewrite seq_nth by exact Hi. reflexivity. }
    destruct (G _ _ _ i _ _ F (map_nth_error _ _ _ Q) Sq) as (e' & E' & Rk). injection E' as <-. exact Rk. }
  rewrite (take_run _ NN' call m (fun _ => eq_refl)). split.
  - intros [s' E]. destruct (K _ _ E) as [L F]. split; [lia|]. split; [|exact F]. apply R. eauto.
  - intros (L & X & F). apply R in X. destruct X as [[reps s'] E].
    assert (exists v, reps = map Some v) as [v ->].
    { pose proof (Hist _ _ _ Ok E) as Q. clear - Q. induction Q as [|o p reps ps (e & -> & _) _ [w ->]]; [exists []; reflexivity|].
      exists (e :: w). reflexivity. }
    destruct (K _ _ E) as [L' F'].
    assert (v = w) as ->; [|eauto].
    apply nth_error_ext_len; [lia|]. intros i a b Ea Eb. eapply ranked_fun; eauto.
Qed.
End TakeUp.

(** ** Release builds *)
Section Release.
Context {PF : Platform} {ty : ity}.
Implicit Types (it : BoundedRangeIter (mint ty)) (st : BoundedSetIter (mint ty)).

Lemma release_hint it l : holds it l -> Z.of_nat (length l) <= usize_max ->
  bri_size_hint Release it = Ret (Z.of_nat (length l), Some (Z.of_nat (length l))).
Proof. intros H U. apply size_hint_agree. apply size_reported; assumption. Qed.
Lemma release_forward sz it l : 0 < sz -> holds it l ->
  forall o, collects (bri_next Release) (bri_size_hint Release) sz it o <->
    (o = Ret l /\ (forall t, In t l -> ~ greatest t) /\ fits_memory sz l) \/
    (o = Panic /\ ~ ((forall t, In t l -> ~ greatest t) /\ fits_memory sz l)).
Proof.
  intros Hs H. apply outcome_iff.
  - intros o1 o2. apply collects_det.
  - apply collects_total; [exact Hs| |intros s; apply size_hint_ends].
    intros s. destruct (rel_next s) as [x ->]. discriminate.
  - intros k. rewrite collects_iff; [|exact Hs|].
    + rewrite (proj1 (range_release it l (Ret k) H)). split.
      * intros [[Q G] F]. injection Q as ->. auto.
      * intros (-> & G & F). auto.
    + intros x it' k' _ D U. destruct (holds_exists it') as [l' H']. apply (proj1 (range_release it' l' (Ret k') H')) in D.
      destruct D as [Q _]. injection Q as ->. rewrite (release_hint it' l' H' U). eauto.
Qed.
Lemma release_backward sz it l : 0 < sz -> holds it (rev l) ->
  forall o, collects (bri_next_back Release) (bri_size_hint Release) sz it o <->
    (o = Ret l /\ (forall t, In t l -> ~ least t) /\ fits_memory sz l) \/
    (o = Panic /\ ~ ((forall t, In t l -> ~ least t) /\ fits_memory sz l)).
Proof.
  intros Hs H. apply outcome_iff.
  - intros o1 o2. apply collects_det.
  - apply collects_total; [exact Hs| |intros s; apply size_hint_ends].
    intros s. destruct (rel_next_back s) as [x ->]. discriminate.
  - intros k. rewrite collects_iff; [|exact Hs|].
    + rewrite (proj2 (range_release it (rev l) (Ret k) H)). rewrite rev_involutive. split.
      * intros [[Q G] F]. injection Q as ->. split; [reflexivity|]. split; [|exact F]. intros t I. apply G, in_rev.
        rewrite rev_involutive. exact I.
      * intros (-> & G & F). split; [|exact F]. split; [reflexivity|]. intros t I. apply G, in_rev. exact I.
    + intros x it' k' _ D U. destruct (holds_exists it') as [l' H']. apply (proj2 (range_release it' l' (Ret k') H')) in D.
      destruct D as [Q _]. injection Q as ->. rewrite rev_length in *. rewrite (release_hint it' l' H' U). eauto.
Qed.

Lemma rshows_exists it : exists l, rshows it l.
Proof.
  destruct (holds_exists it) as [l H]. destruct (Z_le_gt_dec (Z.of_nat (length l)) usize_max) as [C|C].
  - exists l. exact (holds_rshows it l H C).
  - exists []. apply (over_rshows it l H). lia.
Qed.
Lemma rholds_exists st : exists l, rholds st l.
Proof.
  assert (X : exists ls, Forall2 rshows (bsi_range_iters st) ls).
  { induction (bsi_range_iters st) as [|i its [ls F]]; [exists []; constructor|]. destruct (rshows_exists i) as [l L].
    exists (l :: ls). constructor; assumption. }
  destruct X as [ls F]. exists (concat ls), ls. auto.
Qed.
Lemma rholds_piece st l t : rholds st l -> In t l ->
  exists i, In i (bsi_range_iters st) /\ mval (bri_current i) <= mval t <= mval (bri_last_field i).
Proof.
  intros (ls & F & ->) I. induction F as [|i k its ls S F IH]; [destruct I|]. cbn [concat] in I. apply in_app_or in I. destruct I as [I|I].
  - exists i. split; [now left|]. destruct S as [_ S]. assert (H : holds i k) by (apply S; intros ->; destruct I).
    apply (span_in _ _ _ _ H) in I. exact I.
  - destruct (IH I) as (j & J & B). exists j. split; [now right|exact B].
Qed.
Lemma release_set_is st l k : rholds st l -> drains (bsi_next Release) st (Ret k) -> k = l.
Proof.
  intros H D. destruct (Z_lt_ge_dec (bits ty) usize_bits) as [B|B].
  - destruct (proj2 (extreme_dec l)) as [G|(t & I & G)].
    + pose proof (drains_release l st H (fun x J => not_greatest_fine x (G x J))) as D'. pose proof (drains_det _ _ _ _ D D'). congruence.
    + exfalso. revert D. apply set_never_ends; [exact B|]. destruct (rholds_piece st l t H I) as (i & J & Bi). exists i. split; [exact J|].
      apply greatest_val in G. pose proof (mint_range _ (bri_last_field i)). cbv beta. lia.
  - pose proof (drains_release l st H (fun x _ => wide_fwd_fine x ltac:(lia))) as D'. pose proof (drains_det _ _ _ _ D D'). congruence.
Qed.
Lemma release_set_back_is st l k : rholds st (rev l) -> drains (bsi_next_back Release) st (Ret k) -> k = l.
Proof.
  intros H D. destruct (Z_lt_ge_dec (bits ty) usize_bits) as [B|B].
  - destruct (proj1 (extreme_dec l)) as [G|(t & I & G)].
    + pose proof (drains_back_release l st H (fun x J => not_least_fine x (G x J))) as D'. pose proof (drains_det _ _ _ _ D D'). congruence.
    + exfalso. revert D. apply set_back_never_ends; [exact B|]. apply in_rev in I. destruct (rholds_piece st _ t H I) as (i & J & Bi). exists i. split; [exact J|].
      apply least_val in G. pose proof (mint_range _ (bri_current i)). cbv beta. lia.
  - pose proof (drains_back_release l st H (fun x _ => wide_bwd_fine x ltac:(lia))) as D'. pose proof (drains_det _ _ _ _ D D'). congruence.
Qed.
Lemma release_set_hint st l : rholds st l -> Z.of_nat (length l) <= usize_max ->
  bsi_size_hint Release st = Ret (Z.of_nat (length l), Some (Z.of_nat (length l))).
Proof.
  intros (ls & F & ->) U. unfold bsi_size_hint.
  assert (X : forall acc, 0 <= acc -> acc + Z.of_nat (length (concat ls)) <= usize_max ->
    sum_lens Release (bsi_range_iters st) acc = Ret (acc + Z.of_nat (length (concat ls)))).
  { clear U. induction F as [|i k its ls S F IH]; intros acc P B; cbn [sum_lens concat] in *; [f_equal; cbn [length]; lia|].
    rewrite app_length in *. rewrite (proj1 S). cbn [bind]. unfold usize_add. destruct (_ <=? _) eqn:C; [|lia]. cbn [bind].
    rewrite IH; [f_equal|..]; lia. }
  rewrite X by lia. reflexivity.
Qed.
Lemma release_set_forward sz st l : 0 < sz ->
  (collects (bsi_next Release) (bsi_size_hint Release) sz st (Ret l) <-> drains (bsi_next Release) st (Ret l) /\ fits_memory sz l).
Proof.
  intros Hs. apply collects_iff; [exact Hs|]. intros x st' k _ D U. destruct (rholds_exists st') as [l' H'].
  rewrite (release_set_is st' l' k H' D) in *. rewrite (release_set_hint st' l' H' U). eauto.
Qed.
Lemma release_set_backward sz st l : 0 < sz ->
  (collects (bsi_next_back Release) (bsi_size_hint Release) sz st (Ret l) <-> drains (bsi_next_back Release) st (Ret l) /\ fits_memory sz l).
Proof.
  intros Hs. apply collects_iff; [exact Hs|]. intros x st' k _ D U. destruct (rholds_exists st') as [l' H'].
  rewrite <- (rev_involutive l') in H'. rewrite (release_set_back_is st' _ k H' D) in *. rewrite (release_set_hint st' _ H') by (rewrite rev_length; exact U).
  rewrite rev_length. eauto.
Qed.
Lemma release_set_ends sz st : 0 < sz ->
  (exists o, collects (bsi_next Release) (bsi_size_hint Release) sz st o /\ o <> Diverge) /\
  (exists o, collects (bsi_next_back Release) (bsi_size_hint Release) sz st o /\ o <> Diverge).
Proof.
  intros Hs. split; apply collects_total; try exact Hs; try (intros s; apply set_size_hint_ends); intros s.
  - destruct (rel_set_call s Next I) as [x E]. cbn [bsi_call] in E. unfold item in E. destruct (bsi_next Release s); discriminate.
  - destruct (rel_set_call s NextBack I) as [x E]. cbn [bsi_call] in E. unfold item in E. destruct (bsi_next_back Release s); discriminate.
Qed.
End Release.
