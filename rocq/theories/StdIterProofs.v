(** Iterating std ranges. *)
From Coq Require Import Lia ZifyBool.
From Verif Require Import Base ModelBound ModelRanges ModelSets ModelValue ModelStep ModelIter ModelConv ModelStdIter
  Spec SpecStep SpecIter SpecMove StepProofs StepLemmas IterProofs ConvProofs.
Open Scope Z_scope.

Section StdIter.
Context {T : Type} {PF : Platform} {OT : Ord T} {ST : Step T} {NU : Numbered T} {SL : StepLaws T}.

Lemma span_nil_iff lo hi : hi < lo -> span lo hi (@nil T).
Proof. intros H. unfold span. replace (Z.to_nat (hi - lo + 1)) with 0%nat by lia. reflexivity. Qed.
Lemma span_front lo hi (l : list T) n (a : T) : span lo hi l -> 0 <= n -> idx a = lo + n -> idx a <= hi ->
  take_front l n = (Some a, skipn (S (Z.to_nat n)) l) /\ span (idx a + 1) hi (skipn (S (Z.to_nat n)) l).
Proof.
  intros H Hn E G. pose proof (span_skipn _ _ _ n H Hn) as K.
  destruct (span_hd _ _ _ a K ltac:(lia) E) as [l' L]. unfold take_front. rewrite nth_error_hd, L. split; [reflexivity|].
  rewrite skipn_S. pose proof (span_skipn _ _ _ 1 K ltac:(lia)) as J. rewrite L in *. cbn in J |- *. rewrite E. exact J.
Qed.
Lemma span_front_over lo hi (l : list T) n : span lo hi l -> 0 <= n -> hi < lo + n -> take_front l n = (None, []).
Proof.
  intros H Hn G. pose proof (span_skipn _ _ _ n H Hn) as K. apply span_nil in K; [|lia]. unfold take_front.
  rewrite nth_error_hd, skipn_S, K. reflexivity.
Qed.
Lemma span_back lo hi (l : list T) n (a : T) : span lo hi l -> 0 <= n -> idx a = hi - n -> lo <= idx a ->
  take_front (rev l) n = (Some a, skipn (S (Z.to_nat n)) (rev l)) /\ span lo (idx a - 1) (rev (skipn (S (Z.to_nat n)) (rev l))).
Proof.
  intros H Hn E G. pose proof (span_skipn_back _ _ _ n H Hn) as K.
  destruct (span_last _ _ _ a K ltac:(lia) E) as [l' L]. rewrite rev_involutive in L.
  unfold take_front. rewrite nth_error_hd, L. split; [reflexivity|].
  rewrite skipn_S. pose proof (span_skipn_back _ _ _ 1 K ltac:(lia)) as J. rewrite rev_involutive, L in J. rewrite L.
  cbn in J |- *. rewrite E. exact J.
Qed.
Lemma span_back_over lo hi (l : list T) n : span lo hi l -> 0 <= n -> hi - n < lo -> take_front (rev l) n = (None, []).
Proof.
  intros H Hn G. pose proof (span_skipn_back _ _ _ n H Hn) as K. apply span_nil in K; [|lia].
  assert (K' : skipn (Z.to_nat n) (rev l) = []) by (destruct (skipn (Z.to_nat n) (rev l)) as [|x k]; [reflexivity|cbn in K; apply app_eq_nil in K; destruct K; discriminate]).
  unfold take_front. rewrite nth_error_hd, skipn_S, K'. reflexivity.
Qed.

(** ** Range *)
Definition rg_shows (q : Range T) (l : list T) : Prop := span (idx (rg_start q)) (idx (rg_end q) - 1) l.

Lemma fc_some (a b : T) n : 0 <= n <= usize_max -> idx a + n <= idx b -> exists c, forward_checked a n = Some c /\ idx c = idx a + n.
Proof.
  intros Hn G. assert (W : idx a <= idx a + n <= idx b) by lia. destruct (idx_convex a b (idx a + n) W) as [c E]. exists c. split; [|exact E]. apply fc_iff; assumption.
Qed.
Lemma bc_some (a b : T) n : 0 <= n <= usize_max -> idx b <= idx a - n -> exists c, backward_checked a n = Some c /\ idx c = idx a - n.
Proof.
  intros Hn G. assert (W : idx b <= idx a - n <= idx a) by lia. destruct (idx_convex b a (idx a - n) W) as [c E]. exists c. split; [|exact E]. apply bc_iff; assumption.
Qed.
Lemma fwd_some m (a b : T) : idx a < idx b -> exists c, forward m a 1 = Ret c /\ idx c = idx a + 1.
Proof.
  intros G. destruct (fc_some a b 1 one_ok ltac:(lia)) as (c & E & I). exists c. split; [|exact I].
  destruct m; [rewrite forward_debug, E by apply one_ok; reflexivity|apply forward_release; [apply one_ok|exact E]].
Qed.
Lemma bwd_some m (a b : T) : idx b < idx a -> exists c, backward m a 1 = Ret c /\ idx c = idx a - 1.
Proof.
  intros G. destruct (bc_some a b 1 one_ok ltac:(lia)) as (c & E & I). exists c. split; [|exact I].
  destruct m; [rewrite backward_debug, E by apply one_ok; reflexivity|apply backward_release; [apply one_ok|exact E]].
Qed.

Lemma std_range_move_spec q l c : rg_shows q l -> move_ok c ->
  exists q', std_range_move q c = Ret (fst (take_move l c), q') /\ rg_shows q' (snd (take_move l c)).
Proof.
  destruct q as [a b]. unfold rg_shows. cbn [rg_start rg_end]. intros H Hc.
  assert (FRONT : forall n, 0 <= n <= usize_max -> exists q', std_range_nth (mkRange a b) n = Ret (fst (take_front l n), q') /\
    span (idx (rg_start q')) (idx (rg_end q') - 1) (snd (take_front l n))).
  { intros n Hn. unfold std_range_nth. cbn [rg_start rg_end]. destruct (Z_lt_le_dec (idx a + n) (idx b)) as [G|G].
    - destruct (fc_some a b n Hn ltac:(lia)) as (p & -> & E). rewrite t_lt_idx. replace (idx p <? idx b) with true by lia.
      destruct (fc_some p b 1 one_ok ltac:(lia)) as (s & -> & E'). cbn [unwrap bind].
      destruct (span_front _ _ _ n p H ltac:(lia) E ltac:(lia)) as [-> K]. eexists. split; [reflexivity|].
      cbn [rg_start rg_end fst snd]. rewrite E'. exact K.
    - rewrite (span_front_over _ _ _ n H) by lia.
      destruct (forward_checked a n) as [p|] eqn:F.
      + apply fc_iff in F; [|exact Hn]. rewrite t_lt_idx. replace (idx p <? idx b) with false by lia. eexists. split; [reflexivity|].
        apply span_nil_iff. cbn. lia.
      + eexists. split; [reflexivity|]. apply span_nil_iff. cbn. lia. }
  assert (BACK : forall n, 0 <= n <= usize_max -> exists q', std_range_nth_back (mkRange a b) n = Ret (fst (take_front (rev l) n), q') /\
    span (idx (rg_start q')) (idx (rg_end q') - 1) (rev (snd (take_front (rev l) n)))).
  { intros n Hn. unfold std_range_nth_back. cbn [rg_start rg_end]. destruct (Z_lt_le_dec (idx a) (idx b - n)) as [G|G].
    - destruct (bc_some b a n Hn ltac:(lia)) as (p & -> & E). rewrite t_gt_idx. replace (idx a <? idx p) with true by lia.
      destruct (bc_some p a 1 one_ok ltac:(lia)) as (s & -> & E'). cbn [unwrap bind].
      destruct (span_back _ _ _ n s H ltac:(lia) ltac:(lia) ltac:(lia)) as [-> K]. eexists. split; [reflexivity|].
      cbn [rg_start rg_end fst snd]. exact K.
    - rewrite (span_back_over _ _ _ n H) by lia.
      destruct (backward_checked b n) as [p|] eqn:F.
      + apply bc_iff in F; [|exact Hn]. rewrite t_gt_idx. replace (idx a <? idx p) with false by lia. eexists. split; [reflexivity|].
        apply span_nil_iff. cbn. lia.
      + eexists. split; [reflexivity|]. apply span_nil_iff. cbn. lia. }
  destruct c as [| |n|n]; cbn [std_range_move take_move fst snd move_ok] in *; [| |apply FRONT; exact Hc|apply BACK; exact Hc].
  - unfold std_range_next. rewrite t_lt_idx. cbn [rg_start rg_end]. destruct (idx a <? idx b) eqn:G.
    + destruct (fc_some a b 1 one_ok ltac:(lia)) as (p & -> & E). cbn [unwrap bind].
      destruct (span_front _ _ _ 0 a H ltac:(lia) ltac:(lia) ltac:(lia)) as [-> K]. eexists. split; [reflexivity|].
      cbn [rg_start rg_end fst snd]. rewrite E. exact K.
    + rewrite (span_front_over _ _ _ 0 H) by lia. eexists. split; [reflexivity|]. apply span_nil_iff. cbn. lia.
  - unfold std_range_next_back. rewrite t_lt_idx. cbn [rg_start rg_end]. destruct (idx a <? idx b) eqn:G.
    + destruct (bc_some b a 1 one_ok ltac:(lia)) as (p & -> & E). cbn [unwrap bind].
      destruct (span_back _ _ _ 0 p H ltac:(lia) ltac:(lia) ltac:(lia)) as [-> K]. eexists. split; [reflexivity|]. exact K.
    + rewrite (span_back_over _ _ _ 0 H) by lia. eexists. split; [reflexivity|]. apply span_nil_iff. cbn. lia.
Qed.

(** ** RangeInclusive *)
Definition ri_shows (q : RangeInclusive T) (l : list T) : Prop :=
  if ri_exhausted q then idx (ri_start q) = idx (ri_end q) /\ l = [] else span (idx (ri_start q)) (idx (ri_end q)) l.

Lemma idx_cases (a b : T) : (cmp a b = Lt /\ idx a < idx b) \/ (cmp a b = Eq /\ idx a = idx b) \/ (cmp a b = Gt /\ idx b < idx a).
Proof. rewrite idx_cmp. destruct (Z.compare_spec (idx a) (idx b)); auto. Qed.
Lemma take_front_nil n : take_front (@nil T) n = (None, []).
Proof. unfold take_front. destruct (Z.to_nat n); reflexivity. Qed.

Lemma std_ri_move_spec m q l c : ri_shows q l -> move_ok c ->
  exists q', std_ri_move m q c = Ret (fst (take_move l c), q') /\ ri_shows q' (snd (take_move l c)).
Proof.
  destruct q as [a b x]. unfold ri_shows. cbn [ri_start ri_end ri_exhausted]. intros H Hc.
  destruct x.
  { destruct H as [E ->]. exists (mkRangeInclusive a b true).
    destruct c; cbn [std_ri_move take_move rev fst snd]; rewrite take_front_nil; cbn; auto. }
  assert (D : std_ri_done (mkRangeInclusive a b false) = (idx b <? idx a)).
  { unfold std_ri_done. cbn [ri_exhausted ri_start ri_end orb]. rewrite t_le_idx. lia. }
  destruct (Z_lt_le_dec (idx b) (idx a)) as [G|G].
  { pose proof (span_nil _ _ _ H G) as ->. exists (mkRangeInclusive a b false). replace (idx b <? idx a) with true in D by lia.
    destruct c; cbn [std_ri_move take_move rev fst snd]; rewrite take_front_nil;
      unfold std_ri_next, std_ri_next_back, std_ri_nth, std_ri_nth_back; try rewrite D;
      try (unfold std_ri_done in D; rewrite D); cbn; split; try reflexivity; exact H. }
  replace (idx b <? idx a) with false in D by lia.
  assert (N0 : idx a = idx b -> forall n, 1 <= n -> take_front l n = (None, []) /\ take_front (rev l) n = (None, [])).
  { intros E n Hn. split; [apply (span_front_over _ _ _ n H); lia|apply (span_back_over _ _ _ n H); lia]. }
  destruct c as [| |n|n]; cbn [std_ri_move take_move fst snd move_ok] in *.
  - unfold std_ri_next. unfold std_ri_done in D. rewrite D. cbn [ri_start ri_end]. rewrite t_lt_idx.
    destruct (span_front _ _ _ 0 a H ltac:(lia) ltac:(lia) ltac:(lia)) as [-> K].
    destruct (idx a <? idx b) eqn:C.
    + destruct (fwd_some m a b ltac:(lia)) as (p & -> & E). cbn [bind]. eexists. split; [reflexivity|].
      cbn [ri_start ri_end ri_exhausted snd]. rewrite E. exact K.
    + eexists. split; [reflexivity|]. cbn [ri_start ri_end ri_exhausted snd]. split; [lia|]. apply span_nil in K; [exact K|lia].
  - unfold std_ri_next_back. rewrite D. cbn [ri_start ri_end]. rewrite t_lt_idx.
    destruct (span_back _ _ _ 0 b H ltac:(lia) ltac:(lia) ltac:(lia)) as [-> K].
    destruct (idx a <? idx b) eqn:C.
    + destruct (bc_some b a 1 one_ok ltac:(lia)) as (p & -> & E). cbn [unwrap bind]. eexists. split; [reflexivity|].
      cbn [ri_start ri_end ri_exhausted snd]. rewrite E. exact K.
    + eexists. split; [reflexivity|]. cbn [ri_start ri_end ri_exhausted snd]. split; [lia|]. apply span_nil in K; [exact K|lia].
  - unfold std_ri_nth. rewrite D. cbn [ri_start ri_end]. destruct (forward_checked a n) as [p|] eqn:F.
    + apply fc_iff in F; [|exact Hc]. destruct (idx_cases p b) as [[-> C]|[[-> C]|[-> C]]].
      * destruct (fwd_some m p b C) as (s & -> & E). cbn [bind].
        destruct (span_front _ _ _ n p H ltac:(lia) F ltac:(lia)) as [-> K]. eexists. split; [reflexivity|].
        cbn [ri_start ri_end ri_exhausted snd]. rewrite E. exact K.
      * destruct (span_front _ _ _ n p H ltac:(lia) F ltac:(lia)) as [-> K]. eexists. split; [reflexivity|].
        cbn [ri_start ri_end ri_exhausted snd]. split; [exact C|]. apply span_nil in K; [exact K|lia].
      * rewrite (span_front_over _ _ _ n H) by lia. eexists. split; [reflexivity|]. cbn. auto.
    + assert (idx b < idx a + n). { apply fc_none; assumption. }
      rewrite (span_front_over _ _ _ n H) by lia. eexists. split; [reflexivity|]. cbn. auto.
  - unfold std_ri_nth_back. rewrite D. cbn [ri_start ri_end]. destruct (backward_checked b n) as [p|] eqn:F.
    + apply bc_iff in F; [|exact Hc]. destruct (idx_cases p a) as [[-> C]|[[-> C]|[-> C]]].
      * rewrite (span_back_over _ _ _ n H) by lia. eexists. split; [reflexivity|]. cbn. auto.
      * destruct (span_back _ _ _ n p H ltac:(lia) F ltac:(lia)) as [-> K]. eexists. split; [reflexivity|].
        cbn [ri_start ri_end ri_exhausted snd]. split; [lia|]. apply span_nil in K; [exact K|lia].
      * destruct (bwd_some m p a C) as (s & -> & E). cbn [bind].
        destruct (span_back _ _ _ n p H ltac:(lia) F ltac:(lia)) as [-> K]. eexists. split; [reflexivity|].
        cbn [ri_start ri_end ri_exhausted snd]. rewrite E. exact K.
    + assert (idx b - n < idx a). { apply bc_none; assumption. }
      rewrite (span_back_over _ _ _ n H) by lia. eexists. split; [reflexivity|]. cbn. auto.
Qed.

(** Histories. *)
Lemma moves_spec {S : Type} (step : S -> move -> outcome (option T * S)) (sh : S -> list T -> Prop) :
  (forall q l c, sh q l -> move_ok c -> exists q', step q c = Ret (fst (take_move l c), q') /\ sh q' (snd (take_move l c))) ->
  forall cs q l, sh q l -> Forall move_ok cs ->
  exists q', run step q cs = Ret (fst (take_moves l cs), q') /\ sh q' (snd (take_moves l cs)).
Proof.
  intros ST1. induction cs as [|c cs IH]; intros q l H F; cbn [run take_moves fst snd]; [eauto|].
  inversion F; subst. destruct (ST1 q l c H) as (q1 & -> & H1); [assumption|]. cbn [bind fst snd].
  destruct (IH q1 _ H1) as (q2 & -> & K2); [assumption|]. cbn [bind fst snd]. eauto.
Qed.

Lemma rg_shows_of_lists q l : lists (mem (VRange q)) l <-> rg_shows q l.
Proof.
  unfold rg_shows. destruct (span_exists (rg_start q) (rg_end q) (idx (rg_start q)) (idx (rg_end q) - 1)) as [k K]; try lia.
  assert (L : lists (mem (VRange q)) k).
  { eapply lists_ext; [|eapply span_lists; exact K]. intros t. cbn. rewrite le_idx, lt_idx. lia. }
  split; intros H.
  - rewrite (lists_unique _ _ _ H L). exact K.
  - eapply lists_ext; [|eapply span_lists; exact H]. intros t. cbn. rewrite le_idx, lt_idx. lia.
Qed.
Lemma ri_shows_of_lists q l : ri_exhausted q = false -> (lists (mem (VRangeInclusive q)) l <-> ri_shows q l).
Proof.
  intros X. unfold ri_shows. rewrite X. destruct (span_exists (ri_start q) (ri_end q) (idx (ri_start q)) (idx (ri_end q))) as [k K]; try lia.
  assert (M : forall t, mem (VRangeInclusive q) t <-> idx (ri_start q) <= idx t <= idx (ri_end q)).
  { intros t. cbn. rewrite X. rewrite !le_idx. tauto. }
  assert (L : lists (mem (VRangeInclusive q)) k).
  { eapply lists_ext; [|eapply span_lists; exact K]. intros t. rewrite M. tauto. }
  split; intros H.
  - rewrite (lists_unique _ _ _ H L). exact K.
  - eapply lists_ext; [|eapply span_lists; exact H]. intros t. rewrite M. tauto.
Qed.
Lemma ri_shows_lists q l : ri_shows q l -> lists (mem (VRangeInclusive q)) l.
Proof.
  destruct (ri_exhausted q) eqn:X; [|apply ri_shows_of_lists; exact X].
  unfold ri_shows. rewrite X. intros [E ->]. split; [constructor|]. intros t. cbn. rewrite X.
  rewrite le_idx, lt_idx. lia.
Qed.

(** Loops. *)
Lemma std_drains {S : Type} (next : S -> outcome (option T * S)) (sh : S -> list T -> Prop) :
  (forall q l, sh q l -> exists q', next q = Ret (hd_error l, q') /\ sh q' (tl l)) ->
  forall l q, sh q l -> drains next q (Ret l).
Proof.
  intros N. induction l as [|x l IH]; intros q H; destruct (N q _ H) as (q' & E & H').
  - eapply drains_done. exact E.
  - exact (drains_item next q q' x (Ret l) E (IH q' H')).
Qed.
Lemma std_range_drains q l : rg_shows q l -> drains std_range_next q (Ret l).
Proof.
  apply std_drains. intros r k H. destruct (std_range_move_spec r k MNext H Logic.I) as (q' & E & H'). exists q'. cbn in E, H'. split.
  - rewrite E. destruct k; reflexivity.
  - destruct k; exact H'.
Qed.
Lemma std_ri_drains m q l : ri_shows q l -> drains (std_ri_next m) q (Ret l).
Proof.
  apply std_drains. intros r k H. destruct (std_ri_move_spec m r k MNext H Logic.I) as (q' & E & H'). exists q'. cbn in E, H'. split.
  - rewrite E. destruct k; reflexivity.
  - destruct k; exact H'.
Qed.

(** ** RangeFrom against the crate's own iterator *)
Lemma lbr_same_start m (r : LowerBoundedRange T) :
  range_from_from_lbr m r = (it <- lbr_into_iter m r ;; Ret (mkRangeFrom (lbri_current it))).
Proof.
  unfold range_from_from_lbr, lbr_into_iter. destruct r as [[[s|s]]]; cbn; [|reflexivity].
  destruct (forward m s 1); reflexivity.
Qed.
Lemma lbr_same_run m cs (it : LowerBoundedRangeIter T) :
  run (std_rf_call m) (mkRangeFrom (lbri_current it)) cs =
  (p <- run (lbri_call m) it cs ;; Ret (fst p, mkRangeFrom (lbri_current (snd p)))).
Proof.
  revert it. induction cs as [|c cs IH]; intros it; cbn [run bind fst snd]; [reflexivity|].
  destruct c; cbn [std_rf_call lbri_call]; unfold std_rf_next, std_rf_nth, lbri_nth, lbri_next; cbn [rf_start].
  - destruct (forward m (lbri_current it) 1) as [x| |]; cbn [bind fst snd]; try reflexivity.
    change (mkRangeFrom x) with (mkRangeFrom (lbri_current (LBRI x))). rewrite IH.
    destruct (run (lbri_call m) (LBRI x) cs); reflexivity.
  - destruct (forward m (lbri_current it) n) as [y| |]; cbn [bind fst snd lbri_current]; try reflexivity.
    destruct (forward m y 1) as [x| |]; cbn [bind fst snd]; try reflexivity.
    change (mkRangeFrom x) with (mkRangeFrom (lbri_current (LBRI x))). rewrite IH.
    destruct (run (lbri_call m) (LBRI x) cs); reflexivity.
Qed.
End StdIter.
