(** Adaptors over the crate's iterators: [skip] and [take], the lower-bounded
    iterators, release builds. *)
From Coq Require Import Lia ZifyBool Sorted.
From Verif Require Import Base ModelBound ModelRanges ModelSets ModelValue ModelStep ModelIter ModelAdapt Reach
  Spec SpecStep SpecIter SpecAdapt StepProofs StepLemmas InstancesStep IterProofs IterProofs2 IterProofs3 IterProofs4 IterLemmas
  IterBig IterRelease AdaptProofs.
Open Scope Z_scope.

(** The ways a loop can end with [w]. *)
Lemma drains_inv {A S : Type} (next : S -> outcome (option A * S)) s w : drains next s (Ret w) ->
  (w = [] /\ exists s', next s = Ret (None, s')) \/
  exists x w' s', w = x :: w' /\ next s = Ret (Some x, s') /\ drains next s' (Ret w').
Proof.
  intros D. remember (Ret w) as o eqn:Eo. destruct D as [s s' E|s s' x o E D|s E].
  - injection Eo as <-. eauto.
  - right. destruct o as [w'| |]; try discriminate. injection Eo as <-. eauto 6.
  - discriminate.
Qed.

Section SkipTake.
Context {T : Type} {PF : Platform} {OT : Ord T} {ST : Step T} {NU : Numbered T} {SL : StepLaws T}.

Lemma top_dec (k : list T) : (exists t, In t k /\ greatest t) \/ forall t, In t k -> ~ greatest t.
Proof. destruct (proj2 (extreme_dec k)); auto. Qed.
Lemma bottom_dec (k : list T) : (exists t, In t k /\ least t) \/ forall t, In t k -> ~ least t.
Proof. destruct (proj1 (extreme_dec k)); auto. Qed.

Lemma range_skip (it : BoundedRangeIter T) l n : holds it l -> 0 <= n <= usize_max ->
  (forall w, drains (sk_next (bri_next Debug) (bri_nth Debug)) (SK it n) (Ret w) <->
     w = skipn (Z.to_nat n) l /\ (exists b, apart (bri_current it) b n) /\
     forall t, In t (skipn (Z.to_nat n) l) -> ~ greatest t) /\
  (drains (sk_next (bri_next Debug) (bri_nth Debug)) (SK it n) Panic <->
     (~ exists b, apart (bri_current it) b n) \/ exists t, In t (skipn (Z.to_nat n) l) /\ greatest t) /\
  exists o, drains (sk_next (bri_next Debug) (bri_nth Debug)) (SK it n) o.
Proof.
  intros H Hn. apply (skip_loops _ _ _ greatest holds _ usize_max); auto.
  - intros s k K. exact (drains_forward k s K).
  - exact top_dec.
  - destruct (bri_nth_cases it l n H Hn) as [[E B]|(s' & [b Hb] & E & H' & P)].
    + left. split; [exact E|]. destruct B as [B|(b & Eb & G)]; [left; apply none_apart; [lia|exact B]|].
      right. exists b. split; [exact Eb|]. intros u. apply le_idx. apply G.
    + right. exists s'. split; [exact E|]. split; [exists b; apply apart_idx; lia|]. split; [exact H'|].
      intros t Et G. destruct (P t Et) as [_ [c Hc]]. specialize (G c). apply le_idx in G. lia.
  - intros ->. exists (bri_current it). apply apart_idx. lia.
Qed.
Lemma range_skip_back (it : BoundedRangeIter T) l n : holds it (rev l) -> 0 <= n <= usize_max ->
  (forall w, drains (sk_next (bri_next_back Debug) (bri_nth_back Debug)) (SK it n) (Ret w) <->
     w = skipn (Z.to_nat n) l /\ (exists b, apart b (bri_last_field it) n) /\
     forall t, In t (skipn (Z.to_nat n) l) -> ~ least t) /\
  (drains (sk_next (bri_next_back Debug) (bri_nth_back Debug)) (SK it n) Panic <->
     (~ exists b, apart b (bri_last_field it) n) \/ exists t, In t (skipn (Z.to_nat n) l) /\ least t) /\
  exists o, drains (sk_next (bri_next_back Debug) (bri_nth_back Debug)) (SK it n) o.
Proof.
  intros H Hn. apply (skip_loops _ _ _ least (fun s l => holds s (rev l)) _ usize_max); auto.
  - intros s k K. exact (drains_backward k s K).
  - exact bottom_dec.
  - destruct (bri_nth_back_cases it l n H Hn) as [[E B]|(s' & [b Hb] & E & H' & P)].
    + left. split; [exact E|]. destruct B as [B|(b & Eb & G)].
      * left; apply none_apart_back; [lia|]. intros b. specialize (B b). lia.
      * right. exists b. split; [exact Eb|]. intros u. apply le_idx. specialize (G u). lia.
    + right. exists s'. split; [exact E|]. split; [exists b; apply apart_idx; lia|]. split; [exact H'|].
      intros t Et G. destruct (P t Et) as [_ [c Hc]]. specialize (G c). apply le_idx in G. lia.
  - intros ->. exists (bri_last_field it). apply apart_idx. lia.
Qed.
Lemma set_skip (it : BoundedSetIter T) l n : holds_set it l -> 0 <= n <= usize_max ->
  (forall w, drains (sk_next (bsi_next Debug) (bsi_nth Debug)) (SK it n) (Ret w) <->
     w = skipn (Z.to_nat n) l /\ forall t, In t (skipn (Z.to_nat n) l) -> ~ greatest t) /\
  (drains (sk_next (bsi_next Debug) (bsi_nth Debug)) (SK it n) Panic <->
     exists t, In t (skipn (Z.to_nat n) l) /\ greatest t) /\
  exists o, drains (sk_next (bsi_next Debug) (bsi_nth Debug)) (SK it n) o.
Proof.
  intros H Hn. destruct (skip_loops _ (bsi_next Debug) (bsi_nth Debug) greatest holds_set True usize_max n it l) as (A & B & C); auto.
  - intros s k K. exact (bsi_drains k s K).
  - exact top_dec.
  - destruct (bsi_nth_cases it l n H Hn) as [[E B]|(s' & E & H' & P)]; [left; auto|right; exists s'; auto].
  - split; [|split; [|exact C]].
    + intros w. rewrite A. split; [intros (X & _ & Y); auto|intros (X & Y); auto].
    + rewrite B. split; [intros [N|X]; [destruct (N I)|exact X]|auto].
Qed.
Lemma set_skip_back (it : BoundedSetIter T) l n : holds_set it (rev l) -> 0 <= n <= usize_max ->
  (forall w, drains (sk_next (bsi_next_back Debug) (bsi_nth_back Debug)) (SK it n) (Ret w) <->
     w = skipn (Z.to_nat n) l /\ forall t, In t (skipn (Z.to_nat n) l) -> ~ least t) /\
  (drains (sk_next (bsi_next_back Debug) (bsi_nth_back Debug)) (SK it n) Panic <->
     exists t, In t (skipn (Z.to_nat n) l) /\ least t) /\
  exists o, drains (sk_next (bsi_next_back Debug) (bsi_nth_back Debug)) (SK it n) o.
Proof.
  intros H Hn. destruct (skip_loops _ (bsi_next_back Debug) (bsi_nth_back Debug) least (fun s l => holds_set s (rev l)) True usize_max n it l) as (A & B & C); auto.
  - intros s k K. exact (bsi_drains_back k s K).
  - exact bottom_dec.
  - destruct (bsi_nth_back_cases it l n H Hn) as [[E B]|(s' & E & H' & P)]; [left; auto|right; exists s'; auto].
  - split; [|split; [|exact C]].
    + intros w. rewrite A. split; [intros (X & _ & Y); auto|intros (X & Y); auto].
    + rewrite B. split; [intros [N|X]; [destruct (N I)|exact X]|auto].
Qed.

Lemma take_outcome (S : Type) (next : S -> outcome (option T * S)) (H : S -> list T -> Prop) (top : T -> Prop) :
  (forall s l, H s l ->
    (exists s', next s = Ret (hd_error l, s') /\ H s' (tl l) /\ (forall x l', l = x :: l' -> ~ top x)) \/
    (next s = Panic /\ exists x l', l = x :: l' /\ top x)) ->
  forall s l n, H s l -> 0 <= n ->
  (forall w, drains (tk_next next) (TK s n) (Ret w) <->
     w = firstn (Z.to_nat n) l /\ forall t, In t (firstn (Z.to_nat n) l) -> ~ top t) /\
  (drains (tk_next next) (TK s n) Panic <-> exists t, In t (firstn (Z.to_nat n) l) /\ top t) /\
  exists o, drains (tk_next next) (TK s n) o.
Proof.
  intros C s l n Hs Hn.
  apply (outcome_iff _ _ (fun w => w = firstn (Z.to_nat n) l)); [congruence|firstorder|].
  pose proof (take_drains next H top C (Z.to_nat n) s l Hs) as D. rewrite Z2Nat.id in D by exact Hn.
  destruct D as [D|[D G]]; [left; exact D|right; eauto].
Qed.
Lemma bri_next_cases (s : BoundedRangeIter T) l : holds s l ->
  (exists s', bri_next Debug s = Ret (hd_error l, s') /\ holds s' (tl l) /\ (forall x l', l = x :: l' -> ~ greatest x)) \/
  (bri_next Debug s = Panic /\ exists x l', l = x :: l' /\ greatest x).
Proof.
  intros H. destruct (bri_next Debug s) as [[o s']| |] eqn:E.
  - destruct (next_refines s l o s' H E) as [-> H']. left. exists s'. split; [reflexivity|]. split; [exact H'|].
    intros x l' -> G. pose proof (proj2 (next_panics s _ H) (ex_intro _ x (ex_intro _ l' (conj eq_refl G)))). congruence.
  - right. split; [reflexivity|]. apply (next_panics s l H). exact E.
  - exfalso. unfold bri_next in E. destruct (t_gt _ _); [discriminate|].
    destruct (fwd_cases (bri_current s) 1 one_ok) as [(b & Q & _)|[Q _]]; rewrite Q in E; discriminate.
Qed.
Lemma bri_next_back_cases (s : BoundedRangeIter T) l : holds s (rev l) ->
  (exists s', bri_next_back Debug s = Ret (hd_error l, s') /\ holds s' (rev (tl l)) /\ (forall x l', l = x :: l' -> ~ least x)) \/
  (bri_next_back Debug s = Panic /\ exists x l', l = x :: l' /\ least x).
Proof.
  intros H. pose proof (next_back_panics s _ H) as NP. rewrite rev_involutive in NP.
  destruct (bri_next_back Debug s) as [[o s']| |] eqn:E.
  - destruct (next_back_refines s _ o s' H E) as [-> H']. rewrite rev_involutive in *. left. exists s'. split; [reflexivity|]. split; [exact H'|].
    intros x l' -> G. pose proof (proj2 NP (ex_intro _ x (ex_intro _ l' (conj eq_refl G)))). congruence.
  - right. split; [reflexivity|]. apply NP. reflexivity.
  - exfalso. unfold bri_next_back in E. destruct (t_gt _ _); [discriminate|].
    destruct (bwd_cases (bri_last_field s) 1 one_ok) as [(b & Q & _)|[Q _]]; rewrite Q in E; discriminate.
Qed.
Lemma bsi_next_back_cases' (s : BoundedSetIter T) l : holds_set s (rev l) ->
  (exists s', bsi_next_back Debug s = Ret (hd_error l, s') /\ holds_set s' (rev (tl l)) /\ (forall x l', l = x :: l' -> ~ least x)) \/
  (bsi_next_back Debug s = Panic /\ exists x l', l = x :: l' /\ least x).
Proof. intros H. pose proof (bsi_next_back_cases s _ H) as C. rewrite rev_involutive in C. exact C. Qed.

(** ** Lower-bounded iterators *)
(** The calls [step_by] makes for [m] elements. *)
Fixpoint stride_calls (first : bool) (j : Z) (m : nat) : list up_call :=
  match m with O => [] | S m' => UpNth (if first then 0 else j) :: stride_calls false j m' end.
Lemma stride_ok b j m : 0 <= j <= usize_max -> Forall up_call_ok (stride_calls b j m).
Proof.
  intros H. revert b. induction m as [|m IH]; intros b; cbn [stride_calls]; constructor; auto.
  pose proof usize_max_ge. destruct b; cbn; lia.
Qed.
Lemma stride_positions j m : forall b p i, (i < m)%nat ->
  nth_error (positions p (stride_calls b j m)) i = Some (p + (if b then 0 else j) + Z.of_nat i * (j + 1)).
Proof.
  induction m as [|m IH]; intros b p [|i] L; cbn [stride_calls positions nth_error]; try lia.
  - f_equal. lia.
  - rewrite IH by lia. f_equal. destruct b; nia.
Qed.
Lemma stride_passed j m b : passed (stride_calls b j (S m)) = (if b then 0 else j) + 1 + Z.of_nat m * (j + 1).
Proof.
  revert b. induction m as [|m IH]; intros b; [cbn; destruct b; lia|].
  cbn [stride_calls passed] in *. specialize (IH false). cbn [stride_calls] in IH. rewrite IH. destruct b; nia.
Qed.

Lemma stride_run (S : Type) (call : S -> up_call -> outcome (option T * S)) j :
  (forall s c o s', call s c = Ret (o, s') -> o <> None) ->
  forall m b s w, drains (tk_next (sb_next (fun s n => call s (UpNth n)))) (TK (SB s j b) (Z.of_nat m)) (Ret w) <->
    exists s', run call s (stride_calls b j m) = Ret (map Some w, s').
Proof.
  intros N. induction m as [|m IH]; intros b s w; cbn [stride_calls run].
  - split.
    + intros D. destruct (drains_inv _ _ _ D) as [[-> _]|(x & w' & s' & _ & E & _)]; [eexists; reflexivity|]. discriminate.
    + intros [s' E]. injection E as E _. destruct w; [|discriminate]. eapply drains_done. reflexivity.
  - assert (Nz : (Z.of_nat (Datatypes.S m) =? 0) = false) by lia.
    assert (Pr : Z.of_nat (Datatypes.S m) - 1 = Z.of_nat m) by lia.
    assert (U : tk_next (sb_next (fun s n => call s (UpNth n))) (TK (SB s j b) (Z.of_nat (Datatypes.S m))) =
      (p <- call s (UpNth (if b then 0 else j)) ;; Ret (fst p, TK (SB (snd p) j false) (Z.of_nat m)))).
    { unfold tk_next, sb_next. cbn [tk_n tk_iter sb_iter sb_first_take sb_step_minus_one]. rewrite Nz, Pr.
      destruct (call s _) as [[o s']| |]; reflexivity. }
    destruct (call s (UpNth (if b then 0 else j))) as [[o s1]| |] eqn:E; cbn [bind fst snd] in *.
    + pose proof (N _ _ _ _ E) as No. destruct o as [x|]; [|congruence]. split.
      * intros D. destruct (drains_inv _ _ _ D) as [[-> [s' Q]]|(y & w' & s' & -> & Q & D')]; rewrite U in Q; [discriminate|].
        injection Q as <- <-. apply IH in D'. destruct D' as [s2 D']. exists s2. rewrite D'. reflexivity.
      * intros [s2 R]. inv_bind R. destruct a as [reps s3]. injection R as R <-. destruct w as [|y w]; [discriminate|].
        injection R as <- ->. assert (D' : drains (tk_next (sb_next (fun s n => call s (UpNth n)))) (TK (SB s1 j false) (Z.of_nat m)) (Ret w))
          by (apply IH; eauto).
        exact (drains_item _ _ _ x (Ret w) U D').
    + split; [|intros [? R]; discriminate]. intros D. destruct (drains_inv _ _ _ D) as [[-> [s' Q]]|(y & w' & s' & -> & Q & D')]; rewrite U in Q; discriminate.
    + split; [|intros [? R]; discriminate]. intros D. destruct (drains_inv _ _ _ D) as [[-> [s' Q]]|(y & w' & s' & -> & Q & D')]; rewrite U in Q; discriminate.
Qed.

(** What follows from a history: the elements and when there are any. *)
Lemma stride_spec (S : Type) (call : S -> up_call -> outcome (option T * S)) (M : T -> Prop) s :
  (forall s c o s', call s c = Ret (o, s') -> o <> None) ->
  (forall cs reps s', Forall up_call_ok cs -> run call s cs = Ret (reps, s') ->
     Forall2 (fun o p => exists e, o = Some e /\ ranked M e p) reps (positions 0 cs)) ->
  (forall cs, Forall up_call_ok cs -> ((exists x, run call s cs = Ret x) <-> exists e, ranked M e (passed cs))) ->
  forall k m, 1 <= k <= usize_max ->
  let st := TK (SB s (k - 1) true) (Z.of_nat m) in let next := tk_next (sb_next (fun s n => call s (UpNth n))) in
  (forall w, drains next st (Ret w) -> length w = m /\ forall i e, nth_error w i = Some e -> ranked M e (Z.of_nat i * k)) /\
  (forall m', m = Datatypes.S m' -> ((exists w, drains next st (Ret w)) <-> exists e, ranked M e (Z.of_nat m' * k + 1))).
Proof.
  intros N Hist Rets k m Hk st next. pose proof (stride_ok true (k - 1) m ltac:(lia)) as O. split.
  - intros w D. apply (stride_run S call (k - 1) N m true s w) in D. destruct D as [s' R].
    pose proof (Hist _ _ _ O R) as F. assert (L : length (map (@Some T) w) = length (positions 0 (stride_calls true (k - 1) m)))
      by (clear - F; induction F; cbn; auto).
    rewrite map_length in L.
    assert (Lp : forall cs p, length (positions p cs) = length cs).
    { induction cs as [|[|n] cs IH]; intros p; cbn; auto. }
    assert (Lc : forall b j n, length (stride_calls b j n) = n).
    { intros b j n. revert b. induction n; intros b; cbn; auto. }
    rewrite Lp, Lc in L. split; [exact L|]. intros i e E.
    assert (Hi : (i < m)%nat) by (rewrite <- L; apply nth_error_Some; congruence).
    pose proof (stride_positions (k - 1) m true 0 i Hi) as P.
    assert (Q : forall a b (R : option T -> Z -> Prop) i x y, Forall2 R a b -> nth_error a i = Some x -> nth_error b i = Some y -> R x y).
    { clear. intros a b R i x y F. revert i. induction F; intros [|i]; cbn; intros; try discriminate; [congruence|eauto]. }
    destruct (Q _ _ _ i (Some e) _ F (map_nth_error _ _ _ E) P) as (e' & Ee & Rk). injection Ee as <-.
    replace (Z.of_nat i * k) with (0 + 0 + Z.of_nat i * (k - 1 + 1)) by lia. exact Rk.
  - intros m' ->.
    assert (Ps : passed (stride_calls true (k - 1) (Datatypes.S m')) = Z.of_nat m' * k + 1) by (rewrite stride_passed; nia).
    rewrite <- Ps, <- (Rets _ O). split.
    + intros [w D]. apply (stride_run S call (k - 1) N _ true s w) in D. destruct D as [s' R]. eauto.
    + intros [[reps s'] R].
      assert (exists w, reps = map Some w) as [w ->].
      { pose proof (Hist _ _ _ O R) as F. clear - F. induction F as [|o p reps ps (e & -> & _) _ [w ->]]; [exists []; reflexivity|].
        exists (e :: w). reflexivity. }
      exists w. apply (stride_run S call (k - 1) N _ true s w). eauto.
Qed.
End SkipTake.

(** ** Release builds *)
Section Release.
Context {PF : Platform} {ty : ity}.
Implicit Type it : BoundedRangeIter (mint ty).

Lemma congr_bwd (x : mint ty) z n : congr x z -> 0 <= n <= usize_max -> exists y, backward Release x n = Ret y /\ congr y (z - n).
Proof.
  intros C H. destruct (proj2 (int_release_wraps ty x n H)) as (y & E & M). exists y. split; [exact E|].
  unfold congr in *. rewrite M, Zminus_mod, C, <- Zminus_mod. reflexivity.
Qed.
Lemma congr_unique (x y : mint ty) z : congr x z -> congr y z -> x = y.
Proof. intros A B. apply mint_eq. exact (congr_range x y z A B). Qed.

Lemma rel_stride j : 0 <= j <= usize_max -> forall (w : list (mint ty)) it (b : bool) (z : Z), congr (bri_current it) z ->
  let n := if b then 0 else j in
  (drains (sb_next (bri_nth Release)) (SB it j b) (Ret w) <->
   (forall i (e : mint ty), nth_error w i = Some e -> congr e (z + n + Z.of_nat i * (j + 1)) /\ le e (bri_last_field it)) /\
   (forall e : mint ty, congr e (z + n + Z.of_nat (length w) * (j + 1)) -> lt (bri_last_field it) e)).
Proof.
  intros Hj. induction w as [|x w IH]; intros it b z C n.
  all: assert (Hn : 0 <= n <= usize_max) by (subst n; destruct b; lia).
  all: destruct (congr_fwd _ _ n C Hn) as (y & Ey & Cy).
  all: destruct (congr_fwd y (z + n) 1 Cy one_ok) as (y' & Ey' & Cy').
  all: assert (U : sb_next (bri_nth Release) (SB it j b) =
      if idx (bri_last_field it) <? idx y then Ret (None, SB (BRI y (bri_last_field it)) j false)
      else Ret (Some y, SB (BRI y' (bri_last_field it)) j false)).
  1, 3: unfold sb_next; cbn [sb_iter sb_first_take sb_step_minus_one]; fold n; unfold bri_nth; rewrite Ey; cbn [bind];
    unfold bri_next; cbn [bri_current bri_last_field]; rewrite t_gt_idx; destruct (_ <? _); [reflexivity|];
    rewrite Ey'; reflexivity.
  - destruct (idx (bri_last_field it) <? idx y) eqn:L.
    + split; [|intros _; eapply drains_done; exact U]. intros _. split; [intros [|i] e; discriminate|].
      intros e Ce. cbn [length] in Ce. rewrite Z.mul_0_l, Z.add_0_r in Ce. rewrite (congr_unique e y _ Ce Cy). apply lt_idx. lia.
    + split.
      * intros D. destruct (drains_inv _ _ _ D) as [[_ [s' Q]]|(v & w' & s' & R & Q & D')]; [|discriminate R].
        rewrite U in Q. discriminate.
      * intros [_ B]. exfalso. specialize (B y). cbn [length] in B. rewrite Z.mul_0_l, Z.add_0_r in B. specialize (B Cy). apply lt_idx in B. lia.
  - destruct (idx (bri_last_field it) <? idx y) eqn:L.
    + split.
      * intros D. destruct (drains_inv _ _ _ D) as [[R _]|(v & w' & s' & R & Q & D')]; [discriminate R|].
        rewrite U in Q. discriminate.
      * intros [A _]. exfalso. destruct (A O x eq_refl) as [Cx Lx]. rewrite Z.mul_0_l, Z.add_0_r in Cx.
        rewrite (congr_unique x y _ Cx Cy) in Lx. apply le_idx in Lx. lia.
    + specialize (IH (BRI y' (bri_last_field it)) false (z + n + 1) Cy'). cbn [bri_last_field] in IH. split.
      * intros D. destruct (drains_inv _ _ _ D) as [[R _]|(v & w' & s' & R & Q & D')]; [discriminate R|].
        rewrite U in Q. injection Q as <- <-. injection R as -> <-. apply IH in D'. destruct D' as [A B]. split.
        -- intros [|i] e E; cbn [nth_error] in E.
           ++ injection E as <-. rewrite Z.mul_0_l, Z.add_0_r. split; [exact Cy|apply le_idx; lia].
           ++ destruct (A i e E) as [Ce Le]. split; [|exact Le]. replace (z + n + Z.of_nat (S i) * (j + 1)) with (z + n + 1 + j + Z.of_nat i * (j + 1)) by lia. exact Ce.
        -- intros e Ce. apply B. cbn [length] in Ce. replace (z + n + 1 + j + Z.of_nat (length w) * (j + 1)) with (z + n + Z.of_nat (S (length w)) * (j + 1)) by lia. exact Ce.
      * intros [A B]. destruct (A O x eq_refl) as [Cx _]. rewrite Z.mul_0_l, Z.add_0_r in Cx.
        rewrite (congr_unique x y _ Cx Cy) in *. apply (drains_item _ _ _ y (Ret w) U). apply IH. split.
        -- intros i e E. destruct (A (S i) e E) as [Ce Le]. split; [|exact Le].
           replace (z + n + 1 + j + Z.of_nat i * (j + 1)) with (z + n + Z.of_nat (S i) * (j + 1)) by lia. exact Ce.
        -- intros e Ce. apply B. cbn [length]. replace (z + n + Z.of_nat (S (length w)) * (j + 1)) with (z + n + 1 + j + Z.of_nat (length w) * (j + 1)) by lia. exact Ce.
Qed.
Lemma rel_stride_back j : 0 <= j <= usize_max -> forall (w : list (mint ty)) it (b : bool) (z : Z), congr (bri_last_field it) z ->
  let n := if b then 0 else j in
  (drains (sb_next (bri_nth_back Release)) (SB it j b) (Ret w) <->
   (forall i (e : mint ty), nth_error w i = Some e -> congr e (z - n - Z.of_nat i * (j + 1)) /\ le (bri_current it) e) /\
   (forall e : mint ty, congr e (z - n - Z.of_nat (length w) * (j + 1)) -> lt e (bri_current it))).
Proof.
  intros Hj. induction w as [|x w IH]; intros it b z C n.
  all: assert (Hn : 0 <= n <= usize_max) by (subst n; destruct b; lia).
  all: destruct (congr_bwd _ _ n C Hn) as (y & Ey & Cy).
  all: destruct (congr_bwd y (z - n) 1 Cy one_ok) as (y' & Ey' & Cy').
  all: assert (U : sb_next (bri_nth_back Release) (SB it j b) =
      if idx y <? idx (bri_current it) then Ret (None, SB (BRI (bri_current it) y) j false)
      else Ret (Some y, SB (BRI (bri_current it) y') j false)).
  1, 3: unfold sb_next; cbn [sb_iter sb_first_take sb_step_minus_one]; fold n; unfold bri_nth_back; rewrite Ey; cbn [bind];
    unfold bri_next_back; cbn [bri_current bri_last_field]; rewrite t_gt_idx; destruct (_ <? _); [reflexivity|];
    rewrite Ey'; reflexivity.
  - destruct (idx y <? idx (bri_current it)) eqn:L.
    + split; [|intros _; eapply drains_done; exact U]. intros _. split; [intros [|i] e; discriminate|].
      intros e Ce. cbn [length] in Ce. rewrite Z.mul_0_l, Z.sub_0_r in Ce. rewrite (congr_unique e y _ Ce Cy). apply lt_idx. lia.
    + split.
      * intros D. destruct (drains_inv _ _ _ D) as [[_ [s' Q]]|(v & w' & s' & R & Q & D')]; [|discriminate R].
        rewrite U in Q. discriminate.
      * intros [_ B]. exfalso. specialize (B y). cbn [length] in B. rewrite Z.mul_0_l, Z.sub_0_r in B. specialize (B Cy). apply lt_idx in B. lia.
  - destruct (idx y <? idx (bri_current it)) eqn:L.
    + split.
      * intros D. destruct (drains_inv _ _ _ D) as [[R _]|(v & w' & s' & R & Q & D')]; [discriminate R|].
        rewrite U in Q. discriminate.
      * intros [A _]. exfalso. destruct (A O x eq_refl) as [Cx Lx]. rewrite Z.mul_0_l, Z.sub_0_r in Cx.
        rewrite (congr_unique x y _ Cx Cy) in Lx. apply le_idx in Lx. lia.
    + specialize (IH (BRI (bri_current it) y') false (z - n - 1) Cy'). cbn [bri_current] in IH. split.
      * intros D. destruct (drains_inv _ _ _ D) as [[R _]|(v & w' & s' & R & Q & D')]; [discriminate R|].
        rewrite U in Q. injection Q as <- <-. injection R as -> <-. apply IH in D'. destruct D' as [A B]. split.
        -- intros [|i] e E; cbn [nth_error] in E.
           ++ injection E as <-. rewrite Z.mul_0_l, Z.sub_0_r. split; [exact Cy|apply le_idx; lia].
           ++ destruct (A i e E) as [Ce Le]. split; [|exact Le]. replace (z - n - Z.of_nat (S i) * (j + 1)) with (z - n - 1 - j - Z.of_nat i * (j + 1)) by lia. exact Ce.
        -- intros e Ce. apply B. cbn [length] in Ce. replace (z - n - 1 - j - Z.of_nat (length w) * (j + 1)) with (z - n - Z.of_nat (S (length w)) * (j + 1)) by lia. exact Ce.
      * intros [A B]. destruct (A O x eq_refl) as [Cx _]. rewrite Z.mul_0_l, Z.sub_0_r in Cx.
        rewrite (congr_unique x y _ Cx Cy) in *. apply (drains_item _ _ _ y (Ret w) U). apply IH. split.
        -- intros i e E. destruct (A (S i) e E) as [Ce Le]. split; [|exact Le].
           replace (z - n - 1 - j - Z.of_nat i * (j + 1)) with (z - n - Z.of_nat (S i) * (j + 1)) by lia. exact Ce.
        -- intros e Ce. apply B. cbn [length]. replace (z - n - Z.of_nat (S (length w)) * (j + 1)) with (z - n - 1 - j - Z.of_nat (length w) * (j + 1)) by lia. exact Ce.
Qed.
(** [nth] never panics, so neither does [step_by]. *)
Lemma never_panics {S : Type} (f : S -> outcome (option (mint ty) * S)) :
  (forall s, exists x, f s = Ret x) -> forall s o, drains f s o -> exists w, o = Ret w.
Proof.
  intros N s o D. induction D as [s s' E|s s' x o E D [w ->]|s E]; [eauto|cbn; eauto|].
  destruct (N s) as [x Q]. congruence.
Qed.
Lemma never_panics_sb {S : Type} (nth : S -> Z -> outcome (option (mint ty) * S)) j : 0 <= j <= usize_max ->
  (forall s n, 0 <= n <= usize_max -> exists x, nth s n = Ret x) ->
  forall st o, sb_step_minus_one st = j -> drains (sb_next nth) st o -> exists w, o = Ret w.
Proof.
  intros Hj N st o E D. revert E. induction D as [s s' E|s s' x o E D IH|s E]; intros J; [eauto| |].
  - destruct IH as [w ->]; [|cbn; eauto]. unfold sb_next in E. inv_bind E. injection E as _ <-. exact J.
  - unfold sb_next in E. destruct (N (sb_iter s) (if sb_first_take s then 0 else sb_step_minus_one s)) as [p Q].
    + rewrite J. destruct (sb_first_take s); lia.
    + rewrite Q in E. discriminate.
Qed.
End Release.
