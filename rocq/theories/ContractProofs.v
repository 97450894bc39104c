(** Iterating with a [Step] whose [forward] and [backward] do anything on overflow:
    wherever the methods the trait provides, which panic, would return, such a
    [Step] gives the same result. *)
From Coq Require Import Lia ZifyBool.
From Verif Require Import Base ModelBound ModelRanges ModelSets ModelValue ModelStep ModelIter Spec Reach SpecStep SpecIter SpecContract
  StepProofs StepLemmas IterProofs IterProofs2 IterProofs3 IterProofs4 IterLemmas.
Open Scope Z_scope.

Section Contract.
Context {T : Type} {PF : Platform} {OT : Ord T} {ST : Step T} {NU : Numbered T} {SC : StepContract T}.

Definition strict : Step T := {|
  steps_between := @steps_between T ST;
  forward_checked := @forward_checked T ST;
  backward_checked := @backward_checked T ST;
  forward := forward_default (@forward_checked T ST);
  backward := backward_default (@backward_checked T ST)
|}.
Lemma strict_laws : StepLaws T (ST := strict).
Proof.
  constructor; cbn; intros.
  - apply sc_cmp.
  - apply sc_teq.
  - apply sc_inj. assumption.
  - eapply sc_convex. eassumption.
  - apply sc_forward_checked. assumption.
  - apply sc_backward_checked. assumption.
  - apply sc_steps_between.
  - unfold forward_default, unwrap. destruct (forward_checked a n); reflexivity.
  - unfold backward_default, unwrap. destruct (backward_checked a n); reflexivity.
  - unfold forward_default, unwrap. rewrite H0. reflexivity.
  - unfold backward_default, unwrap. rewrite H0. reflexivity.
Qed.

Variable m : mode.
Notation SF := strict.

Lemma c_fwd (a b : T) n : 0 <= n <= usize_max -> forward (Step := SF) Debug a n = Ret b -> forward m a n = Ret b.
Proof.
  intros Hn. cbn. unfold forward_default, unwrap. destruct (forward_checked a n) eqn:E; intros H; inversion H; subst.
  apply sc_forward; assumption.
Qed.
Lemma c_bwd (a b : T) n : 0 <= n <= usize_max -> backward (Step := SF) Debug a n = Ret b -> backward m a n = Ret b.
Proof.
  intros Hn. cbn. unfold backward_default, unwrap. destruct (backward_checked a n) eqn:E; intros H; inversion H; subst.
  apply sc_backward; assumption.
Qed.
Lemma c_add a b n : usize_add Debug a b = Ret n -> usize_add m a b = Ret n.
Proof. destruct m; [auto|apply usize_add_agree]. Qed.
Lemma c_sub a b n : usize_sub Debug a b = Ret n -> usize_sub m a b = Ret n.
Proof. unfold usize_sub. destruct (0 <=? a - b); auto. discriminate. Qed.

Lemma c_into_iter r it : br_into_iter (ST := SF) Debug r = Ret it -> br_into_iter m r = Ret it.
Proof.
  unfold br_into_iter. intros E. inv_bind E. inv_bind E.
  destruct (br_start r) as [[s|s]]; destruct (br_end r) as [[e|e]];
    try rewrite (c_fwd _ _ _ one_ok E0); try rewrite (c_bwd _ _ _ one_ok E1);
    try (injection E0 as <-); try (injection E1 as <-); exact E.
Qed.
Lemma c_next it x : bri_next (ST := SF) Debug it = Ret x -> bri_next m it = Ret x.
Proof. unfold bri_next. destruct (t_gt _ _); [auto|]. intros E. inv_bind E. rewrite (c_fwd _ _ _ one_ok E0). exact E. Qed.
Lemma c_next_back it x : bri_next_back (ST := SF) Debug it = Ret x -> bri_next_back m it = Ret x.
Proof. unfold bri_next_back. destruct (t_gt _ _); [auto|]. intros E. inv_bind E. rewrite (c_bwd _ _ _ one_ok E0). exact E. Qed.
Lemma c_nth it n x : 0 <= n <= usize_max -> bri_nth (ST := SF) Debug it n = Ret x -> bri_nth m it n = Ret x.
Proof. unfold bri_nth. intros Hn E. inv_bind E. rewrite (c_fwd _ _ _ Hn E0). apply c_next. exact E. Qed.
Lemma c_nth_back it n x : 0 <= n <= usize_max -> bri_nth_back (ST := SF) Debug it n = Ret x -> bri_nth_back m it n = Ret x.
Proof. unfold bri_nth_back. intros Hn E. inv_bind E. rewrite (c_bwd _ _ _ Hn E0). apply c_next_back. exact E. Qed.
Lemma c_len it n : bri_len (ST := SF) Debug it = Ret n -> bri_len m it = Ret n.
Proof.
  unfold bri_len, bri_size_hint. cbn [steps_between SF]. intros E. inv_bind E. inv_bind E0. destruct (steps_between _ _).
  - rewrite (c_add _ _ _ E1). cbn [bind]. injection E0 as <-. exact E.
  - injection E1 as <-. injection E0 as <-. exact E.
Qed.
Lemma c_call it c x : call_ok c -> bri_call (ST := SF) Debug it c = Ret x -> bri_call m it c = Ret x.
Proof.
  intros O E. destruct c; unfold bri_call, item in *; inv_bind E.
  - rewrite (c_next _ _ E0). exact E.
  - rewrite (c_next_back _ _ E0). exact E.
  - rewrite (c_nth _ _ _ O E0). exact E.
  - rewrite (c_nth_back _ _ _ O E0). exact E.
  - rewrite (c_len _ _ E0). exact E.
Qed.

Lemma c_bs_into_iter s it : bs_into_iter (ST := SF) Debug s = Ret it -> bs_into_iter m s = Ret it.
Proof.
  unfold bs_into_iter. intros E. inv_bind E. apply mapM_Forall2 in E0.
  rewrite (Forall2_mapM _ _ a); [exact E|]. eapply Forall2_impl; [|exact E0]. intros r i. apply c_into_iter.
Qed.
Lemma c_trim its x : trim (ST := SF) Debug its = Ret x -> trim m its = Ret x.
Proof.
  revert x; induction its as [|i its IH]; intros x E; cbn [trim] in *; [exact E|].
  inv_bind E. rewrite (c_len _ _ E0). cbn [bind]. destruct (a =? 0); auto.
Qed.
Lemma c_skip its n x : skip (ST := SF) Debug its n = Ret x -> skip m its n = Ret x.
Proof.
  revert n x; induction its as [|i its IH]; intros n x E; cbn [skip] in *; [exact E|].
  inv_bind E. rewrite (c_len _ _ E0). cbn [bind]. destruct (a <=? n); auto.
Qed.
Lemma c_front (f g : BoundedRangeIter T -> outcome (option T * BoundedRangeIter T)) its x :
  (forall i y, f i = Ret y -> g i = Ret y) -> on_front f its = Ret x -> on_front g its = Ret x.
Proof. intros A. destruct its as [|i its]; cbn [on_front]; [auto|]. intros E. inv_bind E. rewrite (A _ _ E0). exact E. Qed.
Lemma c_sum its acc x : sum_lens (ST := SF) Debug its acc = Ret x -> sum_lens m its acc = Ret x.
Proof.
  revert acc x; induction its as [|i its IH]; intros acc x E; cbn [sum_lens] in *; [exact E|].
  inv_bind E. inv_bind E. rewrite (c_len _ _ E0). cbn [bind]. rewrite (c_add _ _ _ E1). cbn [bind]. auto.
Qed.
Lemma c_bsi_next it x : bsi_next (ST := SF) Debug it = Ret x -> bsi_next m it = Ret x.
Proof. unfold bsi_next. intros E. inv_bind E. inv_bind E. rewrite (c_trim _ _ E0). cbn [bind]. rewrite (c_front _ _ _ _ c_next E1). exact E. Qed.
Lemma c_bsi_next_back it x : bsi_next_back (ST := SF) Debug it = Ret x -> bsi_next_back m it = Ret x.
Proof. unfold bsi_next_back. intros E. inv_bind E. inv_bind E. rewrite (c_trim _ _ E0). cbn [bind]. rewrite (c_front _ _ _ _ c_next_back E1). exact E. Qed.
Lemma c_bsi_nth it n x : 0 <= n <= usize_max -> bsi_nth (ST := SF) Debug it n = Ret x -> bsi_nth m it n = Ret x.
Proof.
  unfold bsi_nth. intros Hn E. inv_bind E. inv_bind E. rewrite (c_skip _ _ _ E0). cbn [bind].
  assert (B : 0 <= snd a <= n) by (eapply (skip_bounds (ST := SF) (SL := strict_laws)); [lia|exact E0]).
  assert (B' : 0 <= snd a <= usize_max) by lia.
  rewrite (c_front _ (fun i => bri_nth m i (snd a)) _ _ (fun i y => c_nth i (snd a) y B') E1). exact E.
Qed.
Lemma c_bsi_nth_back it n x : 0 <= n <= usize_max -> bsi_nth_back (ST := SF) Debug it n = Ret x -> bsi_nth_back m it n = Ret x.
Proof.
  unfold bsi_nth_back. intros Hn E. inv_bind E. inv_bind E. rewrite (c_skip _ _ _ E0). cbn [bind].
  assert (B : 0 <= snd a <= n) by (eapply (skip_bounds (ST := SF) (SL := strict_laws)); [lia|exact E0]).
  assert (B' : 0 <= snd a <= usize_max) by lia.
  rewrite (c_front _ (fun i => bri_nth_back m i (snd a)) _ _ (fun i y => c_nth_back i (snd a) y B') E1). exact E.
Qed.
Lemma c_bsi_len it n : bsi_len (ST := SF) Debug it = Ret n -> bsi_len m it = Ret n.
Proof.
  unfold bsi_len, bsi_size_hint. intros E. inv_bind E. inv_bind E0. rewrite (c_sum _ _ _ E1). cbn [bind].
  injection E0 as <-. exact E.
Qed.
Lemma c_bsi_call it c x : call_ok c -> bsi_call (ST := SF) Debug it c = Ret x -> bsi_call m it c = Ret x.
Proof.
  intros O E. destruct c; unfold bsi_call, item in *; inv_bind E.
  - rewrite (c_bsi_next _ _ E0). exact E.
  - rewrite (c_bsi_next_back _ _ E0). exact E.
  - rewrite (c_bsi_nth _ _ _ O E0). exact E.
  - rewrite (c_bsi_nth_back _ _ _ O E0). exact E.
  - rewrite (c_bsi_len _ _ E0). exact E.
Qed.

Lemma c_lbr_into_iter r it : lbr_into_iter (ST := SF) Debug r = Ret it -> lbr_into_iter m r = Ret it.
Proof.
  unfold lbr_into_iter. intros E. inv_bind E. destruct (lbr_start r) as [[s|s]].
  - rewrite (c_fwd _ _ _ one_ok E0). exact E.
  - injection E0 as <-. exact E.
Qed.
Lemma c_lbri_call it c x : up_call_ok c -> lbri_call (ST := SF) Debug it c = Ret x -> lbri_call m it c = Ret x.
Proof.
  intros O E. destruct c; cbn [lbri_call up_call_ok] in *; unfold lbri_nth, lbri_next in *; inv_bind E.
  - rewrite (c_fwd _ _ _ one_ok E0). exact E.
  - inv_bind E. rewrite (c_fwd _ _ _ O E0). cbn [bind]. rewrite (c_fwd _ _ _ one_ok E1). exact E.
Qed.
Lemma c_lbs_into_iter s it : lbs_into_iter (ST := SF) Debug s = Ret it -> lbs_into_iter m s = Ret it.
Proof.
  unfold lbs_into_iter. intros E. inv_bind E. inv_bind E. rewrite (c_bs_into_iter _ _ E0). cbn [bind].
  rewrite (c_lbr_into_iter _ _ E1). exact E.
Qed.
Lemma c_lbsi_call it c x : up_call_ok c -> lbsi_call (ST := SF) Debug it c = Ret x -> lbsi_call m it c = Ret x.
Proof.
  intros O E. destruct c; cbn [lbsi_call up_call_ok] in *.
  - unfold lbsi_next in *. inv_bind E. rewrite (c_bsi_next _ _ E0). cbn [bind]. destruct (fst a); [exact E|].
    inv_bind E. pose proof (c_lbri_call (lbsi_range_iter it) UpNext _ I E1) as E2. cbn [lbri_call] in E2.
    rewrite E2. exact E.
  - unfold lbsi_nth in *. inv_bind E. inv_bind E. rewrite (c_bsi_len _ _ E0). cbn [bind].
    rewrite (c_bsi_nth _ _ _ O E1). cbn [bind]. destruct (fst a0); [exact E|].
    inv_bind E. inv_bind E. rewrite (c_sub _ _ _ E2). cbn [bind].
    assert (B : 0 <= a1 <= usize_max).
    { unfold usize_sub in E2. destruct (0 <=? n - a) eqn:D; [|discriminate]. injection E2 as <-.
      unfold bsi_len, bsi_size_hint in E0. inv_bind E0. inv_bind E2. injection E2 as <-.
      unfold exact_len in E0. cbn [fst snd] in E0. rewrite Z.eqb_refl in E0. injection E0 as <-.
      apply (lens_nonneg (SL := strict_laws)) in E4; lia. }
    pose proof (c_lbri_call (lbsi_range_iter it) (UpNth a1) _ B E3) as E4. cbn [lbri_call] in E4. rewrite E4. exact E.
Qed.
Lemma c_bsi_last it o : bsi_last (ST := SF) Debug it (Ret o) -> bsi_last m it (Ret o).
Proof.
  unfold bsi_last. destruct (trim Debug (rev (bsi_range_iters it))) as [its| |] eqn:E; try discriminate.
  rewrite (c_trim _ _ E). destruct its as [|i its]; [auto|].
  intros (d & D & Eo). symmetry in Eo. inv_bind Eo. subst d. exists (Ret a). split; [|symmetry; exact Eo].
  eapply drains_agree; [exact c_next|exact D|reflexivity].
Qed.

(** ** An extreme value in the range: whatever the overflow does *)
Lemma c_gt (a b : T) : t_gt a b = (idx b <? idx a).
Proof. exact (t_gt_idx (SL := strict_laws) a b). Qed.
Lemma c_le (a b : T) : le a b <-> idx a <= idx b.
Proof. exact (le_idx (SL := strict_laws) a b). Qed.
Lemma c_lt (a b : T) : lt a b <-> idx a < idx b.
Proof. exact (lt_idx (SL := strict_laws) a b). Qed.

Lemma endless (g : T) cur l : greatest g -> ~ drains (bri_next m) (BRI cur g) (Ret l).
Proof.
  intros G D. remember (BRI cur g) as it eqn:Ei. remember (Ret l) as o eqn:Eo.
  revert cur Ei l Eo. induction D as [s s' E|s s' x o E D IH|s E]; intros cur -> l Eo.
  - unfold bri_next in E. rewrite c_gt in E. cbn [bri_current bri_last_field] in E.
    replace (idx g <? idx cur) with false in E by (symmetry; apply Z.ltb_ge, c_le, G).
    inv_bind E. discriminate E.
  - unfold bri_next in E. rewrite c_gt in E. cbn [bri_current bri_last_field] in E.
    replace (idx g <? idx cur) with false in E by (symmetry; apply Z.ltb_ge, c_le, G).
    inv_bind E. injection E as _ <-. destruct o as [k| |]; try discriminate Eo.
    exact (IH _ eq_refl k eq_refl).
  - discriminate Eo.
Qed.
Lemma endless_back (g : T) last l : least g -> ~ drains (bri_next_back m) (BRI g last) (Ret l).
Proof.
  intros G D. remember (BRI g last) as it eqn:Ei. remember (Ret l) as o eqn:Eo.
  revert last Ei l Eo. induction D as [s s' E|s s' x o E D IH|s E]; intros last -> l Eo.
  - unfold bri_next_back in E. rewrite c_gt in E. cbn [bri_current bri_last_field] in E.
    replace (idx last <? idx g) with false in E by (symmetry; apply Z.ltb_ge, c_le, G).
    inv_bind E. discriminate E.
  - unfold bri_next_back in E. rewrite c_gt in E. cbn [bri_current bri_last_field] in E.
    replace (idx last <? idx g) with false in E by (symmetry; apply Z.ltb_ge, c_le, G).
    inv_bind E. injection E as _ <-. destruct o as [k| |]; try discriminate Eo.
    exact (IH _ eq_refl k eq_refl).
  - discriminate Eo.
Qed.
Lemma ends_at_greatest r it (g : T) : br_into_iter m r = Ret it -> in_range r g -> greatest g -> bri_last_field it = g.
Proof.
  unfold br_into_iter. intros E [_ B] G. inv_bind E. inv_bind E. injection E as <-. cbn [bri_last_field].
  destruct (br_end r) as [[e|e]]; cbn in B.
  - exfalso. apply c_lt in B. specialize (G e). apply c_le in G. lia.
  - injection E1 as <-. apply sc_inj. apply c_le in B. specialize (G e). apply c_le in G. lia.
Qed.
Lemma starts_at_least r it (g : T) : br_into_iter m r = Ret it -> in_range r g -> least g -> bri_current it = g.
Proof.
  unfold br_into_iter. intros E [B _] G. inv_bind E. inv_bind E. injection E as <-. cbn [bri_current].
  destruct (br_start r) as [[e|e]]; cbn in B.
  - exfalso. apply c_lt in B. specialize (G e). apply c_le in G. lia.
  - injection E0 as <-. apply sc_inj. apply c_le in B. specialize (G e). apply c_le in G. lia.
Qed.

(** Sets: when every range of the type fits [usize]. *)
Lemma len_some i n : bri_len m i = Ret n -> n <> 0 -> idx (bri_current i) <= idx (bri_last_field i).
Proof.
  unfold bri_len, bri_size_hint. rewrite sc_steps_between. destruct (idx (bri_current i) <=? idx (bri_last_field i)) eqn:D; [lia|].
  cbn. intros E. injection E as <-. lia.
Qed.
Hypothesis fits : forall a b : T, idx b - idx a < usize_max.
Lemma len_fits i : idx (bri_current i) <= idx (bri_last_field i) -> bri_len m i = Ret (idx (bri_last_field i) - idx (bri_current i) + 1).
Proof.
  intros H. unfold bri_len, bri_size_hint. rewrite sc_steps_between.
  pose proof (fits (bri_current i) (bri_last_field i)).
  replace ((idx (bri_current i) <=? idx (bri_last_field i)) && (idx (bri_last_field i) - idx (bri_current i) <=? usize_max)) with true by lia.
  unfold usize_add. replace (_ <=? usize_max) with true by lia. cbn. rewrite Z.eqb_refl. reflexivity.
Qed.
Lemma trim_keeps its i rest its' : idx (bri_current i) <= idx (bri_last_field i) -> trim m (its ++ i :: rest) = Ret its' ->
  exists j js, its' = j :: js /\ idx (bri_current j) <= idx (bri_last_field j) /\
    (j = i /\ js = rest \/ exists ks, js = ks ++ i :: rest).
Proof.
  intros H. induction its as [|j its IH]; cbn [app trim]; intros E.
  - rewrite (len_fits i H) in E. cbn [bind] in E. replace (_ =? 0) with false in E by lia. injection E as <-. exists i, rest. auto.
  - inv_bind E. destruct (a =? 0) eqn:A; [auto|]. injection E as <-. exists j, (its ++ i :: rest).
    split; [reflexivity|]. split; [apply (len_some j a E0); lia|]. eauto.
Qed.
Lemma next_some j x : idx (bri_current j) <= idx (bri_last_field j) -> bri_next m j = Ret x ->
  (exists t, fst x = Some t) /\ bri_last_field (snd x) = bri_last_field j.
Proof.
  intros H E. unfold bri_next in E. rewrite c_gt in E. replace (_ <? _) with false in E by lia.
  inv_bind E. injection E as <-. cbn. eauto.
Qed.
Lemma next_back_some j x : idx (bri_current j) <= idx (bri_last_field j) -> bri_next_back m j = Ret x ->
  (exists t, fst x = Some t) /\ bri_current (snd x) = bri_current j.
Proof.
  intros H E. unfold bri_next_back in E. rewrite c_gt in E. replace (_ <? _) with false in E by lia.
  inv_bind E. injection E as <-. cbn. eauto.
Qed.
Lemma endless_set its i rest l : greatest (bri_last_field i) -> ~ drains (bsi_next m) (BSI (its ++ i :: rest)) (Ret l).
Proof.
  intros G D. remember (BSI (its ++ i :: rest)) as it eqn:Ei. remember (Ret l) as o eqn:Eo.
  revert its i G Ei l Eo. induction D as [s s' E|s s' x o E D IH|s E]; intros its i G -> l Eo; [| |discriminate Eo];
    unfold bsi_next in E; cbn [bsi_range_iters] in E; inv_bind E; inv_bind E;
    (destruct (trim_keeps its i rest a) as (j & js & -> & Hj & Q); [apply c_le, G|assumption|]);
    cbn [on_front] in E1; inv_bind E1; injection E1 as <-; cbn [fst snd] in E;
    destruct (next_some j a Hj E2) as [[t Et] El]; rewrite Et in E; [discriminate E|].
  injection E as _ <-. destruct o as [k| |]; try discriminate Eo.
  destruct Q as [[-> ->]|[ks ->]].
  - refine (IH [] (snd a) _ eq_refl k eq_refl). rewrite El. exact G.
  - exact (IH (snd a :: ks) i G eq_refl k eq_refl).
Qed.
Lemma endless_set_back its i rest l : least (bri_current i) -> ~ drains (bsi_next_back m) (BSI (rest ++ i :: its)) (Ret l).
Proof.
  intros G D. remember (BSI (rest ++ i :: its)) as it eqn:Ei. remember (Ret l) as o eqn:Eo.
  revert its i G Ei l Eo. induction D as [s s' E|s s' x o E D IH|s E]; intros its i G -> l Eo; [| |discriminate Eo];
    unfold bsi_next_back in E; cbn [bsi_range_iters] in E; rewrite rev_app_distr in E; cbn [rev] in E;
    rewrite <- app_assoc in E; cbn [app] in E; inv_bind E; inv_bind E;
    (destruct (trim_keeps (rev its) i (rev rest) a) as (j & js & -> & Hj & Q); [apply c_le, G|assumption|]);
    cbn [on_front] in E1; inv_bind E1; injection E1 as <-; cbn [fst snd] in E;
    destruct (next_back_some j a Hj E2) as [[t Et] El]; rewrite Et in E; [discriminate E|].
  injection E as _ <-. destruct o as [k| |]; try discriminate Eo.
  destruct Q as [[-> ->]|[ks ->]].
  - refine (IH [] (snd a) _ _ k eq_refl); [rewrite El; exact G|]. cbn [rev]. rewrite rev_involutive. reflexivity.
  - refine (IH (rev (snd a :: ks)) i G _ k eq_refl). cbn [rev]. rewrite rev_app_distr. cbn [rev].
    rewrite rev_involutive, <- !app_assoc. reflexivity.
Qed.
End Contract.
