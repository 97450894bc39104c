(** The crate's iterators when panics are caught. *)
From Coq Require Import Lia ZifyBool Sorted.
From Verif Require Import Base ModelBound ModelRanges ModelSets ModelValue ModelStep ModelIter ModelUnwind
  Spec Reach SpecStep SpecIter SpecUnwind StepProofs StepLemmas IterProofs IterProofs2 IterProofs3 IterProofs4 IterLemmas
  UnwindProofs.
Open Scope Z_scope.

Section Ranges.
Context {T : Type} {PF : Platform} {OT : Ord T} {ST : Step T} {NU : Numbered T} {SL : StepLaws T}.

(** ** Ranges *)
Lemma next_unwound m (it it' : BoundedRangeIter T) : bri_next_u m it = Unwound it' -> it' = it.
Proof.
  unfold bri_next_u. destruct (t_gt _ _); [discriminate|]. unfold attempt. destruct (forward _ _ _); congruence.
Qed.
Lemma next_back_unwound m (it it' : BoundedRangeIter T) : bri_next_back_u m it = Unwound it' -> it' = it.
Proof.
  unfold bri_next_back_u. destruct (t_gt _ _); [discriminate|]. unfold attempt. destruct (backward _ _ _); congruence.
Qed.
Lemma unwound_uncaught {A S : Type} (x : landing A S) s : x = Unwound s -> uncaught x = Panic.
Proof. intros ->. reflexivity. Qed.
Lemma gone_uncaught {A S : Type} (x : landing A S) : x = Gone -> uncaught x = Diverge.
Proof. intros ->. reflexivity. Qed.

Lemma nth_unwound it n it' : 0 <= n <= usize_max -> bri_nth_u Debug it n = Unwound it' ->
  (it' = it /\ forall b : T, idx b < idx (bri_current it) + n) \/
  (exists c, idx c = idx (bri_current it) + n /\ it' = BRI c (bri_last_field it) /\ idx c = idx (bri_last_field it) /\ greatest c).
Proof.
  intros Hn E. unfold bri_nth_u in E. destruct (fwd_cases (bri_current it) n Hn) as [(c & F & Ic)|[F Lt]]; rewrite F in E; cbn [attempt] in E.
  - right. exists c. split; [exact Ic|]. pose proof (next_unwound _ _ _ E) as ->. split; [reflexivity|].
    apply unwound_uncaught in E. rewrite same_next in E. destruct (holds_exists (BRI c (bri_last_field it))) as [l Hl].
    apply (next_panics _ _ Hl) in E. destruct E as (x & l' & -> & G). unfold holds in Hl. cbn [bri_current bri_last_field] in Hl.
    pose proof (span_length _ _ _ Hl) as Ln. simpl in Ln.
    destruct (span_hd _ _ _ c Hl) as [l2 E2]; [lia|reflexivity|]. injection E2 as -> ->.
    pose proof (G (bri_last_field it)) as Gl. apply le_idx in Gl. split; [lia|exact G].
  - left. injection E as <-. auto.
Qed.
Lemma nth_back_unwound it n it' : 0 <= n <= usize_max -> bri_nth_back_u Debug it n = Unwound it' ->
  (it' = it /\ forall b : T, idx (bri_last_field it) - n < idx b) \/
  (exists c, idx c = idx (bri_last_field it) - n /\ it' = BRI (bri_current it) c /\ idx c = idx (bri_current it) /\ least c).
Proof.
  intros Hn E. unfold bri_nth_back_u in E. destruct (bwd_cases (bri_last_field it) n Hn) as [(c & F & Ic)|[F Lt]]; rewrite F in E; cbn [attempt] in E.
  - right. exists c. split; [exact Ic|]. pose proof (next_back_unwound _ _ _ E) as ->. split; [reflexivity|].
    apply unwound_uncaught in E. rewrite same_next_back in E. destruct (holds_exists (BRI (bri_current it) c)) as [l Hl].
    apply (next_back_panics _ _ Hl) in E. destruct E as (x & l' & R & G). unfold holds in Hl. cbn [bri_current bri_last_field] in Hl.
    pose proof (span_length _ _ _ Hl) as Ln. rewrite <- rev_length, R in Ln. simpl in Ln.
    destruct (span_last _ _ _ c Hl) as [l2 E2]; [lia|reflexivity|]. rewrite E2 in R. injection R as -> ->.
    pose proof (G (bri_current it)) as Gl. apply le_idx in Gl. split; [lia|exact G].
  - left. injection E as <-. auto.
Qed.

Lemma call_gone it c : call_ok c -> bri_call_u Debug it c <> Gone.
Proof.
  intros O E. destruct (holds_exists it) as [l H]. 
  destruct c; cbn [bri_call_u] in E; unfold item_u, after in E.
  - destruct (bri_next_u Debug it) eqn:X; try discriminate. apply gone_uncaught in X. rewrite same_next in X. exact (next_not_diverge _ X).
  - destruct (bri_next_back_u Debug it) eqn:X; try discriminate. apply gone_uncaught in X. rewrite same_next_back in X. exact (next_back_not_diverge _ X).
  - destruct (bri_nth_u Debug it n) eqn:X; try discriminate. unfold bri_nth_u in X.
    destruct (fwd_cases (bri_current it) n O) as [(b & F & _)|[F _]]; rewrite F in X; cbn [attempt] in X; [|discriminate].
    apply gone_uncaught in X. rewrite same_next in X. exact (next_not_diverge _ X).
  - destruct (bri_nth_back_u Debug it n) eqn:X; try discriminate. unfold bri_nth_back_u in X.
    destruct (bwd_cases (bri_last_field it) n O) as [(b & F & _)|[F _]]; rewrite F in X; cbn [attempt] in X; [|discriminate].
    apply gone_uncaught in X. rewrite same_next_back in X. exact (next_back_not_diverge _ X).
  - rewrite (len_spec it l H) in E. destruct (_ <=? _) in E; [discriminate|]. destruct (_ =? _) in E; discriminate.
Qed.

Definition range_inv (nolen : Prop) (it : BoundedRangeIter T) (l : list T) : Prop :=
  holds it l /\ (Z.of_nat (length l) <= usize_max \/ nolen).
Definition range_ok (nolen : Prop) (c : call) : Prop := call_ok c /\ (nolen -> c <> Len).
Lemma sub_length {A} (k l : list A) : subseq k l -> (length k <= length l)%nat.
Proof. induction 1; simpl; lia. Qed.
Lemma deque_length (l : list T) c : (length (snd (deque_call l c)) <= length l)%nat.
Proof.
  destruct c; cbn [deque_call snd]; rewrite ?rev_length; try (pose proof (tl_len l); lia); try (rewrite skipn_length; lia).
  - pose proof (tl_len (rev l)). rewrite rev_length in *. lia.
  - rewrite skipn_length, rev_length. lia.
Qed.

Lemma range_step nolen it l c : range_inv nolen it l -> range_ok nolen c ->
  match bri_call_u Debug it c with
  | Back r s' => r = fst (deque_call l c) /\ range_inv nolen s' (snd (deque_call l c))
  | Unwound s' => exists l', range_inv nolen s' l' /\ left_by c l l'
  | Gone => False
  end.
Proof.
  intros [H Sz] [O NL]. destruct (bri_call_u Debug it c) as [r s'|s'|] eqn:E.
  - assert (X : bri_call Debug it c = Ret (r, s')) by (rewrite <- same_call, E; reflexivity).
    destruct (bri_call_refines it l c r s' H O) as [-> H'].
    + intros ->. destruct Sz as [Sz|Sz]; [exact Sz|]. exfalso. exact (NL Sz eq_refl).
    + exact X.
    + split; [reflexivity|]. split; [exact H'|]. destruct Sz as [Sz|Sz]; [left|right; exact Sz].
      pose proof (deque_length l c). lia.
  - assert (K : forall l', holds s' l' -> left_by c l l' -> exists l', range_inv nolen s' l' /\ left_by c l l').
    { intros l' H' Lb. exists l'. split; [split; [exact H'|]|exact Lb]. destruct Sz as [Sz|Sz]; [left|right; exact Sz].
      pose proof (sub_length _ _ (left_sub _ _ _ Lb)). lia. }
    destruct c; cbn [bri_call_u] in E; unfold item_u, after in E.
    + destruct (bri_next_u Debug it) eqn:X; try discriminate. injection E as ->. apply next_unwound in X. subst s'.
      apply (K l H). reflexivity.
    + destruct (bri_next_back_u Debug it) eqn:X; try discriminate. injection E as ->. apply next_back_unwound in X. subst s'.
      apply (K l H). reflexivity.
    + destruct (bri_nth_u Debug it n) eqn:X; try discriminate. injection E as ->. cbn [call_ok] in O.
      destruct (nth_unwound it n s' O X) as [[-> _]|(b & Ib & -> & _)].
      * apply (K l H). left. reflexivity.
      * apply (K (skipn (Z.to_nat n) l)); [|right; reflexivity]. unfold holds. cbn [bri_current bri_last_field]. rewrite Ib.
        apply span_skipn; [exact H|lia].
    + destruct (bri_nth_back_u Debug it n) eqn:X; try discriminate. injection E as ->. cbn [call_ok] in O.
      destruct (nth_back_unwound it n s' O X) as [[-> _]|(b & Ib & -> & _)].
      * apply (K l H). left. reflexivity.
      * apply (K (rev (skipn (Z.to_nat n) (rev l)))); [|right; reflexivity]. unfold holds. cbn [bri_current bri_last_field]. rewrite Ib.
        apply span_skipn_back; [exact H|lia].
    + destruct (bri_len Debug it); cbn [attempt] in E; try discriminate. injection E as <-. apply (K l H). reflexivity.
  - exact (call_gone it c O E).
Qed.

(** ** Sets *)
Lemma trim_u_spec its ls : lens_ok its ls ->
  exists k, trim_u Debug its = Back tt (skipn k its) /\ concat (skipn k ls) = concat ls /\
    match skipn k ls with [] => True | l :: _ => l <> [] end.
Proof.
  intros L. destruct (trim_spec its ls L) as (k & E & C & N). exists k. split; [|auto].
  apply uncaught_back. rewrite same_trim, E. reflexivity.
Qed.
Lemma skip_u_spec its ls : lens_ok its ls -> forall n, 0 <= n ->
  exists k n', skip_u Debug its n = Back n' (skipn k its) /\ 0 <= n' <= n /\
    skipn (Z.to_nat n) (concat ls) = skipn (Z.to_nat n') (concat (skipn k ls)) /\
    match skipn k ls with [] => True | l :: _ => n' < Z.of_nat (length l) end.
Proof.
  intros L n Hn. destruct (skip_spec its ls L n Hn) as (k & n' & E & C). exists k, n'. split; [|exact C].
  apply uncaught_back. rewrite same_skip, E. reflexivity.
Qed.

Lemma shows_nonempty i (l : list T) : shows i l -> l <> [] -> holds i l.
Proof. intros [_ H]. exact H. Qed.

Lemma set_next_unwound it l it' : holds_set it l -> bsi_next_u Debug it = Unwound it' ->
  holds_set it' l /\ exists g l', greatest g /\ l = g :: l'.
Proof.
  intros Hs E. split.
  - destruct Hs as (ls & H & ->). unfold bsi_next_u in E.
    destruct (trim_u_spec _ _ (shows_lens _ _ H)) as (k & Et & C & N). rewrite Et in E. cbn [after] in E.
    pose proof (Forall2_skipn _ k _ _ H) as H'. rewrite <- C.
    revert H' N E. generalize (skipn k (bsi_range_iters it)) (skipn k ls). intros its' ls' H' N E.
    destruct H' as [|i l its' ls' Hi H']; [discriminate|]. cbn [on_front_u] in E.
    destruct (bri_next_u Debug i) as [o i'|i'|] eqn:X; try discriminate. cbn [within_part] in E. injection E as <-.
    pose proof (next_unwound _ _ _ X) as ->. exists (l :: ls'). split; [constructor; assumption|reflexivity].
  - apply unwound_uncaught in E. rewrite same_set_next in E.
    destruct (bsi_next_cases it l Hs) as [(it1 & X & _)|[_ (g & l' & -> & G)]]; [congruence|]. eauto.
Qed.
Lemma set_next_back_unwound it l it' : holds_set it l -> bsi_next_back_u Debug it = Unwound it' ->
  holds_set it' l /\ exists g l', least g /\ rev l = g :: l'.
Proof.
  intros Hs E. split.
  - destruct Hs as (ls & H & ->). unfold bsi_next_back_u in E.
    destruct (trim_u_spec _ _ (shows_lens_rev _ _ H)) as (k & Et & C & N). rewrite Et in E. cbn [after] in E.
    pose proof (Forall2_skipn _ k _ _ (Forall2_rev _ _ _ H)) as H'. rewrite <- map_skipn' in *.
    rewrite <- (rev_involutive (concat ls)), rev_concat, <- C, rev_concat_map.
    revert H' N E. generalize (skipn k (rev (bsi_range_iters it))) (skipn k (rev ls)). intros its' ls' H' N E.
    destruct H' as [|i l its' ls' Hi H']; [discriminate|]. cbn [on_front_u] in E.
    destruct (bri_next_back_u Debug i) as [o i'|i'|] eqn:X; try discriminate. cbn [within_part] in E. injection E as <-.
    pose proof (next_back_unwound _ _ _ X) as ->. exists (rev (l :: ls')). split; [|reflexivity].
    cbn [bsi_range_iters]. apply (Forall2_rev _ (i :: its') (l :: ls')). constructor; assumption.
  - apply unwound_uncaught in E. rewrite same_set_next_back in E.
    destruct (bsi_next_back_cases it l Hs) as [(it1 & X & _)|[_ (g & l' & -> & G)]]; [congruence|]. eauto.
Qed.

Lemma set_nth_unwound it l n it' : holds_set it l -> 0 <= n <= usize_max -> bsi_nth_u Debug it n = Unwound it' ->
  holds_set it' (skipn (Z.to_nat n) l) /\ exists g l', greatest g /\ skipn (Z.to_nat n) l = g :: l'.
Proof.
  intros (ls & H & ->) Hn E. unfold bsi_nth_u in E.
  destruct (skip_u_spec _ _ (shows_lens _ _ H) n) as (k & n' & Es & B & C & N); [lia|]. rewrite Es in E. cbn [after] in E. rewrite C.
  pose proof (Forall2_skipn _ k _ _ H) as H'.
  revert H' N E. generalize (skipn k (bsi_range_iters it)) (skipn k ls). intros its' ls' H' N E.
  destruct H' as [|i l its' ls' Hi H']; [discriminate|]. cbn [on_front_u] in E.
  destruct (bri_nth_u Debug i n') as [o i'|i'|] eqn:X; try discriminate. cbn [within_part] in E. injection E as <-.
  assert (Hh : holds i l) by (apply (shows_nonempty _ _ Hi); intros ->; simpl in N; lia).
  pose proof (shows_small _ _ Hi) as Sm. pose proof (span_length _ _ _ Hh) as Ln.
  destruct (nth_unwound i n' i' ltac:(lia) X) as [[-> Lt]|(c & Ic & -> & El & G)].
  - specialize (Lt (bri_last_field i)). lia.
  - pose proof (span_skipn _ _ _ n' Hh ltac:(lia)) as Hk. cbn [concat]. rewrite skipn_app_le by lia. split.
    + exists (skipn (Z.to_nat n') l :: ls'). split; [|reflexivity]. constructor; [|exact H'].
      apply holds_shows; [|rewrite skipn_length; lia]. unfold holds. cbn [bri_current bri_last_field]. rewrite Ic. exact Hk.
    + destruct (span_hd _ _ _ c Hk) as [l' ->]; [lia|lia|]. cbn [app]. eauto.
Qed.
Lemma set_nth_back_unwound it l n it' : holds_set it l -> 0 <= n <= usize_max -> bsi_nth_back_u Debug it n = Unwound it' ->
  holds_set it' (rev (skipn (Z.to_nat n) (rev l))) /\ exists g l', least g /\ skipn (Z.to_nat n) (rev l) = g :: l'.
Proof.
  intros (ls & H & ->) Hn E. unfold bsi_nth_back_u in E.
  destruct (skip_u_spec _ _ (shows_lens_rev _ _ H) n) as (k & n' & Es & B & C & N); [lia|]. rewrite Es in E. cbn [after] in E.
  rewrite rev_concat, C.
  pose proof (Forall2_skipn _ k _ _ (Forall2_rev _ _ _ H)) as H'. rewrite <- map_skipn' in *.
  revert H' N E. generalize (skipn k (rev (bsi_range_iters it))) (skipn k (rev ls)). intros its' ls' H' N E.
  destruct H' as [|i l its' ls' Hi H']; [discriminate|]. cbn [on_front_u] in E. cbn [map] in N. rewrite rev_length in N.
  destruct (bri_nth_back_u Debug i n') as [o i'|i'|] eqn:X; try discriminate. cbn [within_part] in E. injection E as <-.
  assert (Hh : holds i l) by (apply (shows_nonempty _ _ Hi); intros ->; simpl in N; lia).
  pose proof (shows_small _ _ Hi) as Sm. pose proof (span_length _ _ _ Hh) as Ln.
  destruct (nth_back_unwound i n' i' ltac:(lia) X) as [[-> Lt]|(c & Ic & -> & El & G)].
  - specialize (Lt (bri_current i)). lia.
  - pose proof (span_skipn_back _ _ _ n' Hh ltac:(lia)) as Hk. cbn [map concat].
    rewrite skipn_app_le by (rewrite rev_length; lia). split.
    + exists (rev (rev (skipn (Z.to_nat n') (rev l)) :: ls')). split.
      * cbn [bsi_range_iters]. apply (Forall2_rev _ (_ :: its') (_ :: ls')). constructor; [|exact H'].
        apply holds_shows; [|rewrite rev_length, skipn_length, rev_length; lia]. unfold holds. cbn [bri_current bri_last_field]. rewrite Ic. exact Hk.
      * rewrite rev_app_distr, rev_concat_map. cbn [rev]. rewrite concat_app. cbn [concat]. rewrite app_nil_r. reflexivity.
    + destruct (span_last _ _ _ c Hk) as [l' E']; [lia|lia|]. rewrite rev_involutive in E'. rewrite E'. cbn [app]. eauto.
Qed.

Lemma set_call_gone it l c : holds_set it l -> call_ok c -> bsi_call_u Debug it c <> Gone.
Proof.
  intros Hs O E.
  assert (P : forall (f : BoundedRangeIter T -> landing (option T) (BoundedRangeIter T)) its, (forall i, f i <> Gone) -> on_front_u f its <> Gone).
  { intros f its F X. destruct its as [|i its]; [discriminate|]. cbn [on_front_u] in X. specialize (F i). destruct (f i); cbn in X; congruence. }
  destruct c; cbn [bsi_call_u] in E; unfold item_u, after in E; cbn [call_ok] in O.
  - destruct (bsi_next_u Debug it) eqn:X; try discriminate. apply gone_uncaught in X. rewrite same_set_next in X.
    destruct (bsi_next_cases it l Hs) as [(? & Y & _)|[Y _]]; congruence.
  - destruct (bsi_next_back_u Debug it) eqn:X; try discriminate. apply gone_uncaught in X. rewrite same_set_next_back in X.
    destruct (bsi_next_back_cases it l Hs) as [(? & Y & _)|[Y _]]; congruence.
  - destruct (bsi_nth_u Debug it n) eqn:X; try discriminate. unfold bsi_nth_u in X. destruct Hs as (ls & H & _).
    destruct (skip_u_spec _ _ (shows_lens _ _ H) n) as (k & n' & Es & B & _); [lia|]. rewrite Es in X. cbn [after] in X.
    destruct (on_front_u _ _) eqn:Y in X; try discriminate. revert Y. apply P. intros i Z0.
    refine (call_gone i (Nth n') _ _); [cbn; lia|cbn [bri_call_u]; rewrite Z0; reflexivity].
  - destruct (bsi_nth_back_u Debug it n) eqn:X; try discriminate. unfold bsi_nth_back_u in X. destruct Hs as (ls & H & _).
    destruct (skip_u_spec _ _ (shows_lens_rev _ _ H) n) as (k & n' & Es & B & _); [lia|]. rewrite Es in X. cbn [after] in X.
    destruct (on_front_u _ _) eqn:Y in X; try discriminate. revert Y. apply P. intros i Z0.
    refine (call_gone i (NthBack n') _ _); [cbn; lia|cbn [bri_call_u]; rewrite Z0; reflexivity].
  - rewrite (bsi_len_spec it l Hs) in E. destruct (_ <=? _) in E; discriminate.
Qed.

Lemma set_step it l c : holds_set it l -> call_ok c ->
  match bsi_call_u Debug it c with
  | Back r s' => r = fst (deque_call l c) /\ holds_set s' (snd (deque_call l c))
  | Unwound s' => exists l', holds_set s' l' /\ left_by c l l'
  | Gone => False
  end.
Proof.
  intros Hs O. destruct (bsi_call_u Debug it c) as [r s'|s'|] eqn:E.
  - apply (bsi_call_refines it l c r s' Hs O). rewrite <- same_set_call, E. reflexivity.
  - destruct c; cbn [bsi_call_u] in E; unfold item_u, after in E; cbn [call_ok] in O.
    + destruct (bsi_next_u Debug it) eqn:X; try discriminate. injection E as ->. exists l. split; [|reflexivity].
      eapply set_next_unwound; eassumption.
    + destruct (bsi_next_back_u Debug it) eqn:X; try discriminate. injection E as ->. exists l. split; [|reflexivity].
      eapply set_next_back_unwound; eassumption.
    + destruct (bsi_nth_u Debug it n) eqn:X; try discriminate. injection E as ->. exists (skipn (Z.to_nat n) l). split; [|right; reflexivity].
      eapply set_nth_unwound; eassumption.
    + destruct (bsi_nth_back_u Debug it n) eqn:X; try discriminate. injection E as ->. exists (rev (skipn (Z.to_nat n) (rev l))). split; [|right; reflexivity].
      eapply set_nth_back_unwound; eassumption.
    + exists l. split; [|reflexivity]. destruct (bsi_len Debug it); cbn [attempt] in E; try discriminate. injection E as <-. exact Hs.
  - exact (set_call_gone it l c Hs O E).
Qed.
End Ranges.

(** ** Iterators without a back end *)
Section Up.
Context {T S : Type} {PF : Platform} {OT : Ord T} {ST : Step T} {NU : Numbered T} {SL : StepLaws T}.
Variable step : S -> up_call -> landing (option T) S.
Variable inv : S -> (T -> Prop) -> Prop.
Definition up_spec : Prop := forall s P c, inv s P -> up_call_ok c ->
  match step s c with
  | Back o s' => exists e P', o = Some e /\ P e /\ inv s' P' /\ (forall t, P' t -> P t /\ lt e t) /\
      (c = UpNext -> forall t, P t <-> t = e \/ P' t)
  | Unwound s' => exists P', inv s' P' /\ (forall t, P' t -> P t) /\ (c = UpNext -> forall t, P t <-> P' t)
  | Gone => False
  end.
Hypothesis spec : up_spec.

Lemma up_total cs : forall s P, inv s P -> Forall up_call_ok cs -> exists rs s', run_caught step s cs = Ret (rs, s').
Proof.
  induction cs as [|c cs IH]; intros s P I O; cbn [run_caught]; [eauto|]. inversion O; subst.
  pose proof (spec s P c I H1) as Sp. destruct (step s c) as [r s1|s1|]; [| |destruct Sp].
  - destruct Sp as (e & P' & _ & _ & I1 & _). destruct (IH s1 _ I1 H2) as (rs & s' & ->). cbn [bind]. eauto.
  - destruct Sp as (P' & I1 & _). destruct (IH s1 _ I1 H2) as (rs & s' & ->). cbn [bind]. eauto.
Qed.
Lemma up_history cs : forall s P rs s', inv s P -> Forall up_call_ok cs -> run_caught step s cs = Ret (rs, s') ->
  exists P', inv s' P' /\ StronglySorted lt (given rs) /\ Forall P (given rs) /\
    (forall t, P' t -> P t /\ Forall (fun e => lt e t) (given rs)) /\
    (Forall (fun c => c = UpNext) cs -> forall t, P t <-> In t (given rs) \/ P' t).
Proof.
  induction cs as [|c cs IH]; intros s P rs s' I O E; cbn [run_caught] in E.
  - injection E as <- <-. exists P. cbn [given]. repeat split; auto; try constructor. intros [[]|K]; exact K.
  - inversion O; subst. pose proof (spec s P c I H1) as Sp. destruct (step s c) as [r s1|s1|]; [| |destruct Sp].
    + inv_bind E. injection E as <- <-. destruct a as [rs s']. cbn [fst snd]. destruct Sp as (e & P1 & -> & Pe & I1 & Sub & Eq).
      destruct (IH s1 P1 rs s' I1 H2 E0) as (P' & I' & So & Fo & Su & Al). exists P'. cbn [given].
      split; [exact I'|]. split; [|split; [|split]].
      * constructor; [exact So|]. eapply Forall_impl; [|exact Fo]. intros t K. apply Sub, K.
      * constructor; [exact Pe|]. eapply Forall_impl; [|exact Fo]. intros t K. apply Sub, K.
      * intros t K. destruct (Su t K) as [K1 K2]. destruct (Sub t K1) as [K3 K4]. auto.
      * intros U t. inversion U as [|? ? U1 U2]; subst. rewrite (Eq eq_refl t), (Al U2 t). simpl. intuition congruence.
    + inv_bind E. injection E as <- <-. destruct a as [rs s']. cbn [fst snd]. destruct Sp as (P1 & I1 & Sub & Eq).
      destruct (IH s1 P1 rs s' I1 H2 E0) as (P' & I' & So & Fo & Su & Al). exists P'. cbn [given].
      split; [exact I'|]. split; [exact So|]. split; [eapply Forall_impl; [|exact Fo]; exact Sub|]. split.
      * intros t K. destruct (Su t K). auto.
      * intros U t. inversion U as [|? ? U1 U2]; subst. rewrite (Eq eq_refl t). apply (Al U2).
Qed.
End Up.

Section Lower.
Context {T : Type} {PF : Platform} {OT : Ord T} {ST : Step T} {NU : Numbered T} {SL : StepLaws T}.

Definition lower_inv (it : LowerBoundedRangeIter T) (P : T -> Prop) : Prop := forall t, P t <-> idx (lbri_current it) <= idx t.
Lemma lower_unwound it c it' : up_call_ok c -> lbri_call_u Debug it c = Unwound it' ->
  (it' = it \/ exists n, c = UpNth n /\ idx (lbri_current it') = idx (lbri_current it) + n).
Proof.
  intros O E. destruct c; cbn [lbri_call_u] in E.
  - left. unfold lbri_next_u in E. destruct (forward _ _ _); cbn [attempt] in E; congruence.
  - cbn [up_call_ok] in O. unfold lbri_nth_u in E. destruct (fwd_cases (lbri_current it) n O) as [(b & F & Ib)|[F _]]; rewrite F in E; cbn [attempt] in E.
    + right. exists n. split; [reflexivity|]. unfold lbri_next_u in E.
      destruct (forward Debug _ 1); cbn [attempt] in E; try congruence. injection E as <-. exact Ib.
    + left. congruence.
Qed.
Lemma lower_gone it c : up_call_ok c -> lbri_call_u Debug it c <> Gone.
Proof.
  intros O E. destruct c; cbn [lbri_call_u] in E.
  - unfold lbri_next_u in E. destruct (fwd_cases (lbri_current it) 1 one_ok) as [(b & F & _)|[F _]]; rewrite F in E; discriminate.
  - unfold lbri_nth_u in E. destruct (fwd_cases (lbri_current it) n O) as [(b & F & _)|[F _]]; rewrite F in E; cbn [attempt] in E; [|discriminate].
    unfold lbri_next_u in E. cbn [lbri_current] in E. destruct (fwd_cases b 1 one_ok) as [(b' & F' & _)|[F' _]]; rewrite F' in E; discriminate.
Qed.
Lemma lower_step : up_spec (lbri_call_u Debug) lower_inv.
Proof.
  intros it P c LI O. unfold lower_inv in LI. destruct (lbri_call_u Debug it c) as [o it'|it'|] eqn:E.
  - assert (X : lbri_call Debug it c = Ret (o, it')) by (rewrite <- same_lower_call, E; reflexivity).
    destruct (lbri_call_spec it c o it' O X) as (e & -> & Ie & Ic).
    exists e, (fun t => idx (lbri_current it') <= idx t). split; [reflexivity|]. split; [apply LI; destruct c; cbn in O; lia|].
    split; [intros t; reflexivity|]. split.
    + intros t K. rewrite LI, lt_idx. destruct c; cbn in O; lia.
    + intros -> t. rewrite LI. split.
      * intros K. destruct (Z.eq_dec (idx t) (idx e)) as [Q|Q]; [left; apply idx_inj, Q|right; lia].
      * intros [->|K]; lia.
  - destruct (lower_unwound it c it' O E) as [->|(n & -> & Ic)].
    + exists P. split; [exact LI|]. split; [auto|reflexivity].
    + cbn in O. exists (fun t => idx (lbri_current it') <= idx t). split; [intros t; reflexivity|]. split; [|discriminate].
      intros t K. apply LI. lia.
  - exact (lower_gone it c O E).
Qed.

Definition lower_set_inv (it : LowerBoundedSetIter T) (P : T -> Prop) : Prop :=
  exists l c, starts P (fun t => In t l) l c it.
Lemma starts_intro (s : BoundedSetIter T) r l c : holds_set s l -> StronglySorted lt l -> (forall t, In t l -> idx t < idx c) -> lbri_current r = c ->
  starts (fun t => In t l \/ idx c <= idx t) (fun t => In t l) l c (LBSI s r).
Proof.
  intros H So B <-. split; [|split; [split; [exact So|reflexivity]|split; [reflexivity|exact B]]].
  repeat split; [lia|exact H|cbn [lbsi_range_iter]; lia].
Qed.
Lemma starts_elim P Q l c it : starts P Q l c it ->
  holds_set (lbsi_set_iter it) l /\ StronglySorted lt l /\ (forall t, In t l -> idx t < idx c) /\ lbri_current (lbsi_range_iter it) = c /\
  (forall t, P t <-> In t l \/ idx c <= idx t).
Proof.
  intros ((_ & H & Ic) & L & M & B). cbn [Z.to_nat skipn] in H. destruct L as [So Li].
  split; [exact H|]. split; [exact So|]. split; [intros t K; apply B, Li, K|]. split; [apply idx_inj; lia|].
  intros t. rewrite M, Li. reflexivity.
Qed.
Lemma sorted_hd (x : T) l : StronglySorted lt (x :: l) -> forall t, In t l -> lt x t.
Proof. inversion 1; subst. rewrite Forall_forall in *. assumption. Qed.
Lemma sorted_tl (x : T) l : StronglySorted lt (x :: l) -> StronglySorted lt l.
Proof. inversion 1; assumption. Qed.
Lemma sorted_skipn n (l : list T) : StronglySorted lt l -> StronglySorted lt (skipn n l).
Proof. apply sub_sorted, sub_skipn. Qed.

Lemma lower_set_step : up_spec (lbsi_call_u Debug) lower_set_inv.
Proof.
  intros it P c (l & c0 & St) O. apply starts_elim in St. destruct St as (H & So & B & Ec & M). subst c0.
  set (s := lbsi_set_iter it) in *. set (r := lbsi_range_iter it) in *.
  destruct c as [|n]; cbn [lbsi_call_u up_call_ok] in *.
  - unfold lbsi_next_u. fold s r. destruct (bsi_next_u Debug s) as [o s'|s'|] eqn:E; cbn [within_part after].
    + assert (X : bsi_next Debug s = Ret (o, s')) by (rewrite <- same_set_next, E; reflexivity).
      destruct (bsi_next_cases s l H) as [(s1 & Y & K & _)|[Y _]]; rewrite Y in X; [|discriminate]. injection X as <- <-.
      destruct l as [|x l]; cbn [hd_error tl] in *.
      * cbn [lbsi_set_iter lbsi_range_iter]. assert (LI : lower_inv r P) by (intros t; rewrite M; simpl; intuition).
        pose proof (lower_step r P UpNext LI I) as Sp. cbn [lbri_call_u] in Sp.
        destruct (lbri_next_u Debug r) as [o r'|r'|]; cbn [within_part]; [| |destruct Sp].
        -- destruct Sp as (e & P' & -> & Pe & LI' & Su & Eq). exists e, P'. repeat (split; [assumption || reflexivity|]).
           split; [|split; assumption]. exists [], (lbri_current r').
           destruct (starts_intro s1 r' [] (lbri_current r') K ltac:(constructor) ltac:(intros t []) eq_refl) as (A1 & A2 & A3 & A4).
           split; [exact A1|]. split; [exact A2|]. split; [|exact A4]. intros t. rewrite (LI' t). simpl. intuition.
        -- destruct Sp as (P' & LI' & Su & Eq). exists P'. split; [|split; assumption]. exists [], (lbri_current r').
           destruct (starts_intro s1 r' [] (lbri_current r') K ltac:(constructor) ltac:(intros t []) eq_refl) as (A1 & A2 & A3 & A4).
           split; [exact A1|]. split; [exact A2|]. split; [|exact A4]. intros t. rewrite (LI' t). simpl. intuition.
      * exists x, (fun t => In t l \/ idx (lbri_current r) <= idx t). split; [reflexivity|]. split; [apply M; left; now left|].
        split; [exists l, (lbri_current r); apply starts_intro; [exact K|apply (sorted_tl x), So|intros t J; apply B; now right|reflexivity]|].
        pose proof (B x (or_introl eq_refl)) as Bx. split.
        -- intros t J. rewrite M. destruct J as [J|J]; [split; [left; now right|apply (sorted_hd x l So), J]|].
           split; [right; exact J|]. rewrite lt_idx. lia.
        -- intros _ t. rewrite M. simpl. intuition congruence.
    + destruct (set_next_unwound s l s' H E) as [_ (g & l' & G & ->)]. exfalso.
      pose proof (B g (or_introl eq_refl)). specialize (G (lbri_current r)). rewrite le_idx in G. lia.
    + apply (set_call_gone s l Next H I). cbn [bsi_call_u]. rewrite E. reflexivity.
  - unfold lbsi_nth_u. fold s r. rewrite (bsi_len_spec s l H). destruct (_ <=? _) eqn:Sm; cbn [attempt].
    2:{ exists P. split; [|split; [auto|discriminate]]. exists l, (lbri_current r).
        destruct (starts_intro s r l (lbri_current r) H So B eq_refl) as (A1 & A2 & A3 & A4).
        replace it with (LBSI s r) by (destruct it; reflexivity).
        split; [exact A1|]. split; [exact A2|]. split; [exact M|exact A4]. }
    destruct (bsi_nth_u Debug s n) as [o s'|s'|] eqn:E; cbn [within_part after].
    + assert (X : bsi_nth Debug s n = Ret (o, s')) by (rewrite <- same_set_nth, E; reflexivity).
      destruct (bsi_nth_refines s l n o s' H O X) as [-> K].
      destruct (nth_error l (Z.to_nat n)) as [x|] eqn:N.
      * exists x, (fun t => In t (skipn (S (Z.to_nat n)) l) \/ idx (lbri_current r) <= idx t). split; [reflexivity|].
        pose proof (nth_error_In _ _ N) as Ix. split; [apply M; left; exact Ix|].
        split.
        -- exists (skipn (S (Z.to_nat n)) l), (lbri_current r). apply starts_intro; [exact K|apply sorted_skipn, So| |reflexivity].
           intros t J. apply B. eapply sub_in; [apply sub_skipn|exact J].
        -- split; [|discriminate]. intros t J. rewrite M. destruct J as [J|J].
           ++ split; [left; eapply sub_in; [apply sub_skipn|exact J]|].
              apply nth_error_split in N. destruct N as (l1 & l2 & -> & Ln). rewrite <- Ln in J.
              rewrite skipn_app, skipn_all2 in J by lia. replace (_ - _)%nat with 1%nat in J by lia. cbn [skipn app] in J.
              assert (S2 : StronglySorted lt (x :: l2)).
              { apply (sub_sorted _ _ _ (sub_app [] l1 _ _ (sub_nil_l l1) (sub_refl (x :: l2))) So). }
              apply (sorted_hd x l2 S2), J.
           ++ split; [right; exact J|]. apply B in Ix. rewrite lt_idx. lia.
      * apply nth_error_None in N. rewrite skipn_all2 in K by lia. cbn [lbsi_set_iter lbsi_range_iter].
        assert (Us : usize_sub Debug n (Z.of_nat (length l)) = Ret (n - Z.of_nat (length l))).
        { unfold usize_sub. destruct (0 <=? n - Z.of_nat (length l)) eqn:D; [reflexivity|lia]. }
        rewrite Us. cbn [attempt].
        assert (LI : lower_inv r (fun t => idx (lbri_current r) <= idx t)) by (intros t; reflexivity).
        assert (Ok : up_call_ok (UpNth (n - Z.of_nat (length l)))) by (cbn; lia).
        pose proof (lower_step r _ _ LI Ok) as Sp. cbn [lbri_call_u] in Sp.
        destruct (lbri_nth_u Debug r _) as [o r'|r'|]; cbn [within_part]; [| |destruct Sp].
        -- destruct Sp as (e & P' & -> & Pe & LI' & Su & Eq). exists e, P'. split; [reflexivity|]. split; [apply M; right; exact Pe|].
           split; [|split; [|discriminate]].
           ++ exists [], (lbri_current r').
              destruct (starts_intro s' r' [] (lbri_current r') K ltac:(constructor) ltac:(intros t []) eq_refl) as (A1 & A2 & A3 & A4).
              split; [exact A1|]. split; [exact A2|]. split; [|exact A4]. intros t. rewrite (LI' t). simpl. intuition.
           ++ intros t J. apply Su in J. rewrite M. tauto.
        -- destruct Sp as (P' & LI' & Su & Eq). exists P'. split; [|split; [|discriminate]].
           ++ exists [], (lbri_current r').
              destruct (starts_intro s' r' [] (lbri_current r') K ltac:(constructor) ltac:(intros t []) eq_refl) as (A1 & A2 & A3 & A4).
              split; [exact A1|]. split; [exact A2|]. split; [|exact A4]. intros t. rewrite (LI' t). simpl. intuition.
           ++ intros t J. apply Su in J. rewrite M. tauto.
    + destruct (set_nth_unwound s l n s' H O E) as [_ (g & l' & G & E2)]. exfalso.
      assert (J : In g l) by (eapply sub_in; [apply (sub_skipn (Z.to_nat n))|rewrite E2; now left]).
      apply B in J. specialize (G (lbri_current r)). rewrite le_idx in G. lia.
    + apply (set_call_gone s l (Nth n) H O). cbn [bsi_call_u]. rewrite E. reflexivity.
Qed.
End Lower.

(** Where stepping never panics, nothing does. *)
Section Release.
Context {T : Type} {PF : Platform} {OT : Ord T} {ST : Step T}.
Hypothesis fwd : forall (x : T) n, exists y, forward Release x n = Ret y.
Hypothesis bwd : forall (x : T) n, exists y, backward Release x n = Ret y.
Definition comes_back {A S : Type} (x : landing A S) : Prop := exists a s, x = Back a s.

Lemma release_next (it : BoundedRangeIter T) : comes_back (bri_next_u Release it).
Proof. unfold bri_next_u, comes_back. destruct (t_gt _ _); [eauto|]. destruct (fwd (bri_current it) 1) as [y ->]. cbn [attempt]. eauto. Qed.
Lemma release_next_back (it : BoundedRangeIter T) : comes_back (bri_next_back_u Release it).
Proof. unfold bri_next_back_u, comes_back. destruct (t_gt _ _); [eauto|]. destruct (bwd (bri_last_field it) 1) as [y ->]. cbn [attempt]. eauto. Qed.
Lemma release_nth (it : BoundedRangeIter T) n : comes_back (bri_nth_u Release it n).
Proof. unfold bri_nth_u. destruct (fwd (bri_current it) n) as [y ->]. cbn [attempt]. apply release_next. Qed.
Lemma release_nth_back (it : BoundedRangeIter T) n : comes_back (bri_nth_back_u Release it n).
Proof. unfold bri_nth_back_u. destruct (bwd (bri_last_field it) n) as [y ->]. cbn [attempt]. apply release_next_back. Qed.
Lemma release_add a b : exists n, usize_add Release a b = Ret n.
Proof. unfold usize_add. destruct (_ <=? _); eauto. Qed.
Lemma release_len (it : BoundedRangeIter T) : exists n, bri_len Release it = Ret n.
Proof.
  unfold bri_len, bri_size_hint. destruct (steps_between _ _) as [k|].
  - destruct (release_add k 1) as [n ->]. cbn [bind]. unfold exact_len. cbn [fst snd]. rewrite Z.eqb_refl. eauto.
  - cbn [bind]. unfold exact_len. cbn [fst snd]. rewrite Z.eqb_refl. eauto.
Qed.
Lemma release_trim (its : list (BoundedRangeIter T)) : comes_back (trim_u Release its).
Proof.
  induction its as [|i its IH]; cbn [trim_u]; [unfold comes_back; eauto|]. destruct (release_len i) as [n ->]. cbn [attempt].
  destruct (n =? 0); [exact IH|unfold comes_back; eauto].
Qed.
Lemma release_skip (its : list (BoundedRangeIter T)) : forall n, comes_back (skip_u Release its n).
Proof.
  induction its as [|i its IH]; intros n; cbn [skip_u]; [unfold comes_back; eauto|]. destruct (release_len i) as [k ->]. cbn [attempt].
  destruct (k <=? n); [apply IH|unfold comes_back; eauto].
Qed.
Lemma release_front (f : BoundedRangeIter T -> landing (option T) (BoundedRangeIter T)) its :
  (forall i, comes_back (f i)) -> comes_back (on_front_u f its).
Proof.
  intros H. destruct its as [|i its]; cbn [on_front_u]; [unfold comes_back; eauto|]. destruct (H i) as (a & s & ->).
  unfold comes_back. cbn [within_part]. eauto.
Qed.
Lemma back_part {A S S' : Type} (c : S -> S') (x : landing A S) : comes_back x -> comes_back (within_part c x).
Proof. intros (a & s & ->). unfold comes_back. cbn [within_part]. eauto. Qed.
Lemma back_after {A B S : Type} (x : landing A S) (k : A -> S -> landing B S) :
  comes_back x -> (forall a s, comes_back (k a s)) -> comes_back (after x k).
Proof. intros (a & s & ->) H. apply H. Qed.
Lemma back_item {S : Type} (x : landing (option T) S) : comes_back x -> comes_back (item_u x).
Proof. intros (a & s & ->). unfold comes_back. cbn. eauto. Qed.
Lemma release_sum (its : list (BoundedRangeIter T)) : forall acc, exists n, sum_lens Release its acc = Ret n.
Proof.
  induction its as [|i its IH]; intros acc; cbn [sum_lens]; [eauto|]. destruct (release_len i) as [n ->]. cbn [bind].
  destruct (release_add acc n) as [k ->]. cbn [bind]. apply IH.
Qed.
Lemma release_set_len (it : BoundedSetIter T) : exists n, bsi_len Release it = Ret n.
Proof.
  unfold bsi_len, bsi_size_hint. destruct (release_sum (bsi_range_iters it) 0) as [n ->]. cbn [bind].
  unfold exact_len. cbn [fst snd]. rewrite Z.eqb_refl. eauto.
Qed.
Lemma release_call (it : BoundedRangeIter T) c : comes_back (bri_call_u Release it c).
Proof.
  destruct c; cbn [bri_call_u]; try apply back_item;
    auto using release_next, release_next_back, release_nth, release_nth_back.
  destruct (release_len it) as [n ->]. cbn [attempt]. unfold comes_back. eauto.
Qed.
Lemma release_set_next (it : BoundedSetIter T) : comes_back (bsi_next_u Release it).
Proof. apply back_part, back_after; [apply release_trim|]. intros _ s. apply release_front, release_next. Qed.
Lemma release_set_nth (it : BoundedSetIter T) n : comes_back (bsi_nth_u Release it n).
Proof. apply back_part, back_after; [apply release_skip|]. intros k s. apply release_front. intros i. apply release_nth. Qed.
Lemma release_set_call (it : BoundedSetIter T) c : comes_back (bsi_call_u Release it c).
Proof.
  destruct c; cbn [bsi_call_u]; try apply back_item; auto using release_set_next, release_set_nth.
  - apply back_part, back_after; [apply release_trim|]. intros _ s. apply release_front, release_next_back.
  - apply back_part, back_after; [apply release_skip|]. intros k s. apply release_front. intros i. apply release_nth_back.
  - destruct (release_set_len it) as [n ->]. cbn [attempt]. unfold comes_back. eauto.
Qed.
Lemma release_lower_call (it : LowerBoundedRangeIter T) c : comes_back (lbri_call_u Release it c).
Proof.
  assert (N : forall i : LowerBoundedRangeIter T, comes_back (lbri_next_u Release i)).
  { intros i. unfold lbri_next_u. destruct (fwd (lbri_current i) 1) as [y ->]. unfold comes_back. cbn [attempt]. eauto. }
  destruct c; cbn [lbri_call_u]; [apply N|]. unfold lbri_nth_u. destruct (fwd (lbri_current it) n) as [y ->]. apply N.
Qed.
Lemma release_lower_set_call (it : LowerBoundedSetIter T) c : comes_back (lbsi_call_u Release it c).
Proof.
  destruct c; cbn [lbsi_call_u].
  - apply back_after; [apply back_part, release_set_next|]. intros [t|] s; [unfold comes_back; eauto|].
    apply back_part, (release_lower_call _ UpNext).
  - unfold lbsi_nth_u. destruct (release_set_len (lbsi_set_iter it)) as [k ->]. cbn [attempt].
    apply back_after; [apply back_part, release_set_nth|]. intros [t|] s; [unfold comes_back; eauto|].
    assert (X : exists j, usize_sub Release n k = Ret j) by (unfold usize_sub; destruct (_ <=? _); eauto).
    destruct X as [j ->]. cbn [attempt]. apply back_part, (release_lower_call _ (UpNth j)).
Qed.
End Release.
