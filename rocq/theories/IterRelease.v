(** Loops over sets in release builds. *)
From Coq Require Import Lia ZifyBool Sorted.
From Verif Require Import Base ModelBound ModelRanges ModelSets ModelValue ModelStep ModelIter Reach
  Spec SpecStep SpecIter StepProofs StepLemmas InstancesStep IterProofs IterProofs2 IterProofs3 IterProofs4 IterLemmas IterBig.
Open Scope Z_scope.

Section Release.
Context {T : Type} {PF : Platform} {OT : Ord T} {ST : Step T} {NU : Numbered T} {SL : StepLaws T}.

Lemma len_release it l : holds it l ->
  bri_len Release it = Ret (if Z.of_nat (length l) <=? usize_max then Z.of_nat (length l) else 0).
Proof.
  intros H. pose proof (span_length _ _ _ H) as L. pose proof usize_max_ge as U.
  unfold bri_len, bri_size_hint. rewrite steps_between_spec.
  destruct ((idx (bri_current it) <=? idx (bri_last_field it)) &&
            (idx (bri_last_field it) - idx (bri_current it) <=? usize_max)) eqn:C.
  - unfold usize_add.
    destruct (idx (bri_last_field it) - idx (bri_current it) + 1 <=? usize_max) eqn:D.
    + cbn [bind]. unfold exact_len. cbn [fst snd]. rewrite Z.eqb_refl.
      replace (Z.of_nat (length l)) with (idx (bri_last_field it) - idx (bri_current it) + 1) by lia.
      rewrite D. reflexivity.
    + cbn [bind]. unfold exact_len. cbn [fst snd]. rewrite Z.eqb_refl. f_equal.
      destruct (Z.of_nat (length l) <=? usize_max) eqn:D1; [lia|].
      unfold usize_max in *. replace (_ - _ + 1) with (2 ^ usize_bits) by lia.
      apply Z_mod_same_full.
  - cbn [bind]. unfold exact_len. cbn [fst snd]. rewrite Z.eqb_refl. f_equal.
    destruct (Z.of_nat (length l) <=? usize_max) eqn:D1; lia.
Qed.

(** What a piece shows in release. *)
Definition rshows (it : BoundedRangeIter T) (l : list T) : Prop :=
  bri_len Release it = Ret (Z.of_nat (length l)) /\ (l <> [] -> holds it l).
Definition rholds (it : BoundedSetIter T) (l : list T) : Prop :=
  exists ls, Forall2 rshows (bsi_range_iters it) ls /\ l = concat ls.
Lemma rshows_small it l : rshows it l -> Z.of_nat (length l) <= usize_max.
Proof.
  intros [E H]. pose proof usize_max_ge. destruct l as [|x l]; [simpl; lia|].
  rewrite (len_release it (x :: l)) in E by (apply H; discriminate).
  destruct (_ <=? _) eqn:C in E; [lia|]. injection E as E. simpl in *. lia.
Qed.
Lemma holds_rshows it l : holds it l -> Z.of_nat (length l) <= usize_max -> rshows it l.
Proof. intros H S. split; [|auto]. rewrite (len_release it l H). destruct (_ <=? _) eqn:C; [reflexivity|lia]. Qed.
Lemma over_rshows it l : holds it l -> usize_max < Z.of_nat (length l) -> rshows it [].
Proof. intros H S. split; [|congruence]. rewrite (len_release it l H). destruct (_ <=? _) eqn:C; [lia|reflexivity]. Qed.

Lemma trim_release its ls : Forall2 rshows its ls ->
  exists k, trim Release its = Ret (skipn k its) /\ concat (skipn k ls) = concat ls /\
    match skipn k ls with [] => True | l :: _ => l <> [] end.
Proof.
  induction 1 as [|i l its ls E L IH].
  - exists O. simpl. auto.
  - cbn [trim]. rewrite (proj1 E). cbn [bind]. destruct (Z.of_nat (length l) =? 0) eqn:C.
    + destruct l; [|simpl in C; lia]. destruct IH as (k & E1 & E2 & E3). exists (S k). auto.
    + exists O. repeat split; auto. simpl. intros ->. simpl in C. lia.
Qed.

(** Stepping off an element, in either direction, leaves the rest showing. *)
Definition fwd_fine (x : T) : Prop :=
  forall i l i', holds i (x :: l) -> Z.of_nat (length (x :: l)) <= usize_max ->
    bri_next Release i = Ret (Some x, i') -> rshows i' l.
Definition bwd_fine (x : T) : Prop :=
  forall i l i', holds i (rev (x :: l)) -> Z.of_nat (length (x :: l)) <= usize_max ->
    bri_next_back Release i = Ret (Some x, i') -> rshows i' (rev l).

Lemma next_some m i x l : holds i (x :: l) ->
  bri_next m i = (n <- forward m x 1 ;; Ret (Some x, BRI n (bri_last_field i))) /\ bri_current i = x.
Proof.
  intros H. pose proof (span_length _ _ _ H) as L. simpl in L.
  destruct (span_hd _ _ _ (bri_current i) H) as [l' E]; [lia|reflexivity|]. injection E as E _. subst x.
  split; [|reflexivity]. unfold bri_next. rewrite t_gt_idx. destruct (_ <? _) eqn:C; [lia|].
  destruct (forward m (bri_current i) 1); reflexivity.
Qed.
Lemma next_back_some m i x l : holds i (rev (x :: l)) ->
  bri_next_back m i = (n <- backward m x 1 ;; Ret (Some x, BRI (bri_current i) n)) /\ bri_last_field i = x.
Proof.
  intros H. pose proof (span_length _ _ _ H) as L. rewrite rev_length in L. simpl length in L.
  destruct (span_last _ _ _ (bri_last_field i) H) as [l' E]; [lia|reflexivity|]. rewrite rev_involutive in E.
  injection E as E _. subst x.
  split; [|reflexivity]. unfold bri_next_back. rewrite t_gt_idx. destruct (_ <? _) eqn:C; [lia|].
  destruct (backward m (bri_last_field i) 1); reflexivity.
Qed.
Lemma not_greatest_fwd x : ~ greatest x -> exists y, forward Debug x 1 = Ret y.
Proof.
  intros G. destruct (fwd_cases x 1 one_ok) as [(y & E & _)|[_ B]]; [eauto|].
  exfalso. apply G. intros u. apply le_idx. specialize (B u). lia.
Qed.
Lemma not_least_bwd x : ~ least x -> exists y, backward Debug x 1 = Ret y.
Proof.
  intros G. destruct (bwd_cases x 1 one_ok) as [(y & E & _)|[_ B]]; [eauto|].
  exfalso. apply G. intros u. apply le_idx. specialize (B u). lia.
Qed.
Lemma not_greatest_fine x : ~ greatest x -> fwd_fine x /\ exists y, forward Release x 1 = Ret y.
Proof.
  intros G. destruct (not_greatest_fwd x G) as [y E]. split; [|exists y; exact (fwd_agree _ _ _ one_ok E)].
  intros i l i' H S N. apply holds_rshows; [|simpl in S; lia].
  destruct (next_some Debug i x l H) as [N' _]. rewrite E in N'. cbn [bind] in N'.
  pose proof (next_agree _ _ N') as N''. rewrite N in N''. injection N'' as ->.
  exact (proj2 (next_refines i _ _ _ H N')).
Qed.
Lemma not_least_fine x : ~ least x -> bwd_fine x /\ exists y, backward Release x 1 = Ret y.
Proof.
  intros G. destruct (not_least_bwd x G) as [y E]. split; [|exists y; exact (bwd_agree _ _ _ one_ok E)].
  intros i l i' H S N. apply holds_rshows; [|rewrite rev_length; simpl in S; lia].
  destruct (next_back_some Debug i x l H) as [N' _]. rewrite E in N'. cbn [bind] in N'.
  pose proof (next_back_agree _ _ N') as N''. rewrite N in N''. injection N'' as ->.
  pose proof (proj2 (next_back_refines i _ _ _ H N')) as K. rewrite rev_involutive in K. exact K.
Qed.

Lemma bsi_next_release it l : rholds it l ->
  (forall x, In x l -> fwd_fine x /\ exists y, forward Release x 1 = Ret y) ->
  exists it', bsi_next Release it = Ret (hd_error l, it') /\ rholds it' (tl l).
Proof.
  intros (ls & H & ->) G. unfold bsi_next.
  destruct (trim_release _ _ H) as (k & -> & C & N). cbn [bind].
  pose proof (Forall2_skipn _ k _ _ H) as H'. rewrite <- C in *. clear C.
  revert H' N G. generalize (skipn k (bsi_range_iters it)) (skipn k ls).
  intros its' ls' H' N G. destruct H' as [|i l its' ls' Hi H'].
  - exists (BSI []). split; [reflexivity|]. exists []. split; constructor.
  - pose proof (rshows_small i l Hi) as Sl. destruct Hi as [_ Hi]. specialize (Hi N).
    destruct l as [|x l]; [congruence|]. cbn [on_front concat app hd_error tl] in *.
    destruct (G x (or_introl eq_refl)) as [Fx [y Ey]].
    destruct (next_some Release i x l Hi) as [E _]. rewrite Ey in E. cbn [bind] in E.
    rewrite E. cbn [bind fst snd]. eexists. split; [reflexivity|].
    exists (l :: ls'). split; [|reflexivity]. constructor; [|exact H']. exact (Fx _ _ _ Hi Sl E).
Qed.
Lemma bsi_next_back_release it l : rholds it (rev l) ->
  (forall x, In x l -> bwd_fine x /\ exists y, backward Release x 1 = Ret y) ->
  exists it', bsi_next_back Release it = Ret (hd_error l, it') /\ rholds it' (rev (tl l)).
Proof.
  intros (ls & H & R) G. assert (El : l = concat (map (@rev T) (rev ls))) by (rewrite <- rev_concat, <- R; symmetry; apply rev_involutive).
  clear R. subst l. unfold bsi_next_back.
  assert (H0 : Forall2 rshows (rev (bsi_range_iters it)) (rev ls)) by (apply Forall2_rev; exact H). clear H.
  destruct (trim_release _ _ H0) as (k & -> & C & N). cbn [bind].
  pose proof (Forall2_skipn _ k _ _ H0) as H'.
  assert (C' : concat (map (@rev T) (skipn k (rev ls))) = concat (map (@rev T) (rev ls))).
  { rewrite <- (rev_involutive (rev ls)) at 2. rewrite <- rev_concat.
    rewrite <- (rev_involutive (skipn k (rev ls))). rewrite <- rev_concat. f_equal.
    rewrite <- (rev_involutive (concat (rev (skipn k (rev ls))))), <- (rev_involutive (concat (rev (rev ls)))). f_equal.
    rewrite !rev_concat, !rev_involutive.
    rewrite <- (firstn_skipn k (rev ls)) at 2. rewrite map_app, concat_app.
    assert (Z0 : concat (firstn k (rev ls)) = []).
    { apply (f_equal (@length T)) in C. rewrite <- (firstn_skipn k (rev ls)) in C at 2. rewrite concat_app, app_length in C.
      destruct (concat (firstn k (rev ls))); [reflexivity|simpl in C; lia]. }
    replace (concat (map (@rev T) (firstn k (rev ls)))) with (@nil T); [reflexivity|].
    revert Z0. generalize (firstn k (rev ls)). induction l as [|a l IH]; [reflexivity|]. cbn [concat map]. intros Z0.
    apply app_eq_nil in Z0. destruct Z0 as [-> Z0]. simpl. apply IH. exact Z0. }
  rewrite <- C' in *. clear C C' H0.
  revert H' N G. generalize (skipn k (rev (bsi_range_iters it))) (skipn k (rev ls)).
  intros its' ls' H' N G. destruct H' as [|i l its' ls' Hi H'].
  - exists (BSI []). split; [reflexivity|]. exists []. split; constructor.
  - pose proof (rshows_small i l Hi) as Sl. destruct Hi as [_ Hi]. specialize (Hi N).
    cbn [map concat] in *. destruct (rev l) as [|x l0] eqn:R; [apply rev_nil in N; congruence|].
    assert (El : l = rev (x :: l0)) by (rewrite <- R; symmetry; apply rev_involutive). subst l. clear R N.
    cbn [on_front app hd_error tl] in *.
    destruct (G x (or_introl eq_refl)) as [Fx [y Ey]].
    destruct (next_back_some Release i x l0 Hi) as [E _]. rewrite Ey in E. cbn [bind] in E.
    rewrite E. cbn [bind fst snd]. eexists. split; [reflexivity|].
    exists (rev (rev l0 :: ls')). split.
    + cbn [bsi_range_iters]. apply Forall2_rev. constructor; [|exact H'].
      rewrite rev_length in Sl. exact (Fx _ _ _ Hi Sl E).
    + cbn [rev]. rewrite rev_app_distr, concat_app. cbn [concat]. rewrite app_nil_r. f_equal. apply rev_concat_map.
Qed.

Lemma drains_release l : forall it, rholds it l ->
  (forall x, In x l -> fwd_fine x /\ exists y, forward Release x 1 = Ret y) -> drains (bsi_next Release) it (Ret l).
Proof.
  induction l as [|x l IH]; intros it H G; destruct (bsi_next_release it _ H G) as (it' & E & H').
  - eapply drains_done. exact E.
  - eapply (drains_item _ it it' x (Ret l) E). apply IH; [exact H'|]. intros y I. apply G. now right.
Qed.
Lemma drains_back_release l : forall it, rholds it (rev l) ->
  (forall x, In x l -> bwd_fine x /\ exists y, backward Release x 1 = Ret y) -> drains (bsi_next_back Release) it (Ret l).
Proof.
  induction l as [|x l IH]; intros it H G; destruct (bsi_next_back_release it _ H G) as (it' & E & H').
  - eapply drains_done. exact E.
  - eapply (drains_item _ it it' x (Ret l) E). apply IH; [exact H'|]. intros y I. apply G. now right.
Qed.

(** [len] of a set in release: the counts of its pieces are added modulo the size of [usize]. *)
Lemma sum_release its ls : Forall2 rshows its ls -> forall acc, 0 <= acc <= usize_max ->
  sum_lens Release its acc = Ret ((acc + Z.of_nat (length (concat ls))) mod 2 ^ usize_bits).
Proof.
  pose proof usize_max_ge as U.
  induction 1 as [|i l its ls E L IH]; intros acc Ha; cbn [sum_lens concat].
  - cbn [length]. rewrite Z.add_0_r, Z.mod_small; [reflexivity|]. unfold usize_max in *. lia.
  - rewrite (proj1 E). cbn [bind]. unfold usize_add. rewrite app_length, Nat2Z.inj_add.
    destruct (acc + Z.of_nat (length l) <=? usize_max) eqn:C; cbn [bind].
    + rewrite IH by lia. rewrite !Z.add_assoc. reflexivity.
    + rewrite IH.
      * rewrite Zplus_mod_idemp_l, Z.add_assoc. reflexivity.
      * pose proof (Z.mod_pos_bound (acc + Z.of_nat (length l)) (2 ^ usize_bits)). unfold usize_max in *. lia.
Qed.
Lemma bsi_len_release it l : rholds it l -> bsi_len Release it = Ret (Z.of_nat (length l) mod 2 ^ usize_bits).
Proof.
  intros (ls & H & ->). pose proof usize_max_ge as U. unfold bsi_len, bsi_size_hint. rewrite (sum_release _ _ H) by lia. cbn [bind].
  unfold exact_len. cbn [fst snd]. rewrite Z.eqb_refl. reflexivity.
Qed.
Lemma shows_rshows it l : shows it l -> rshows it l.
Proof. intros [E H]. split; [apply len_agree; exact E|exact H]. Qed.
Lemma holds_set_rholds it l : holds_set it l -> rholds it l.
Proof.
  intros (ls & H & ->). exists ls. split; [|reflexivity]. induction H; constructor; auto using shows_rshows.
Qed.

(** The iterator of a set in release shows the pieces that fit. *)
Lemma bs_into_iter_rshows s : valid (VBS s) ->
  exists it l, bs_into_iter Release s = Ret it /\ rholds it l /\ lists (in_small_pieces (bs_ranges s)) l.
Proof.
  intros V. destruct (bs_into_iter_total s V) as [it E]. destruct V as [_ P].
  exists it. rewrite (bs_into_iter_agree s it E). apply into_iter_pieces in E.
  assert (exists ls, Forall2 rshows (bsi_range_iters it) ls /\
    Forall2 (fun r l => lists (fun t => in_range r t /\ small (in_range r)) l) (bs_ranges s) ls) as (ls & H & L).
  { clear P. induction E as [|r i rs its Er E (ls & H & L)].
    - exists []. repeat constructor.
    - destruct (holds_exists i) as [l Hl]. pose proof (proj1 (into_iter_holds r i l Er) Hl) as Ll.
      destruct (Z_le_gt_dec (Z.of_nat (length l)) usize_max) as [S|S].
      + exists (l :: ls). split; constructor; auto; [apply holds_rshows; assumption|].
        apply (small_dec _ _ Ll) in S. destruct Ll as [Sl Il]. split; [exact Sl|]. intros t. rewrite Il. tauto.
      + exists ([] :: ls). split; constructor; auto; [apply (over_rshows i l Hl); lia|].
        split; [constructor|]. intros t. split; [intros []|]. intros [_ Sm]. apply Sm in Ll. lia. }
  exists (concat ls). split; [reflexivity|]. split; [exists ls; auto|].
  apply (pieces_list_where (fun r => small (in_range r))); assumption.
Qed.
Lemma collect_release s it l : valid (VBS s) -> bs_into_iter Release s = Ret it -> lists (in_small_pieces (bs_ranges s)) l ->
  (forall t, In t l -> fwd_fine t /\ exists y, forward Release t 1 = Ret y) -> drains (bsi_next Release) it (Ret l).
Proof.
  intros V E L G. destruct (bs_into_iter_rshows s V) as (it' & k & E' & H & K). rewrite E in E'. injection E' as <-.
  rewrite (lists_unique _ _ _ L K) in *. apply drains_release; assumption.
Qed.
Lemma collect_back_release s it l : valid (VBS s) -> bs_into_iter Release s = Ret it -> lists (in_small_pieces (bs_ranges s)) (rev l) ->
  (forall t, In t l -> bwd_fine t /\ exists y, backward Release t 1 = Ret y) -> drains (bsi_next_back Release) it (Ret l).
Proof.
  intros V E L G. destruct (bs_into_iter_rshows s V) as (it' & k & E' & H & K). rewrite E in E'. injection E' as <-.
  apply drains_back_release; [|exact G]. rewrite (lists_unique _ _ _ L K). exact H.
Qed.
Lemma small_listing rs : ForallOrdPairs (fun a b => precedes (br_end a) (br_start b)) rs -> exists l, lists (in_small_pieces rs) l.
Proof.
  intros F. assert (exists ls, Forall2 (fun r l => lists (fun t => in_range r t /\ small (in_range r)) l) rs ls) as [ls H].
  { clear F. induction rs as [|r rs [ls H]]; [exists []; constructor|]. destruct (range_listing r) as [l L].
    destruct (Z_le_gt_dec (Z.of_nat (length l)) usize_max) as [S|S].
    - exists (l :: ls). constructor; [|exact H]. apply (small_dec _ _ L) in S. destruct L as [Sl Il]. split; [exact Sl|].
      intros t. rewrite Il. tauto.
    - exists ([] :: ls). constructor; [|exact H]. split; [constructor|]. intros t. split; [intros []|].
      intros [_ Sm]. apply Sm in L. lia. }
  exists (concat ls). apply (pieces_list_where (fun r => small (in_range r))); assumption.
Qed.
End Release.

(** ** Integers *)
Section Ints.
Context {PF : Platform} {ty : ity}.
Lemma greatest_val (x : mint ty) : greatest x <-> mval x = imax ty.
Proof.
  unfold greatest. split.
  - intros G. assert (0 <= 2 ^ (bits ty - 1)) by (pose proof (half_pos ty); lia).
    destruct (of_z_fits ty (imax ty)) as (u & _ & Hu).
    { unfold imin, imax. pose proof (pow_half ty). pose proof (half_pos ty). destruct (signed ty); lia. }
    specialize (G u). apply le_idx in G. cbn [idx NumberedMint] in G. pose proof (mint_range _ x). lia.
  - intros E u. apply le_idx. cbn [idx NumberedMint]. pose proof (mint_range _ u). lia.
Qed.
Lemma least_val (x : mint ty) : least x <-> mval x = imin ty.
Proof.
  unfold least. split.
  - intros G. destruct (of_z_fits ty (imin ty)) as (u & _ & Hu).
    { unfold imin, imax. pose proof (pow_half ty). pose proof (half_pos ty). destruct (signed ty); lia. }
    specialize (G u). apply le_idx in G. cbn [idx NumberedMint] in G. pose proof (mint_range _ x). lia.
  - intros E u. apply le_idx. cbn [idx NumberedMint]. pose proof (mint_range _ u). lia.
Qed.
Lemma greatest_dec (x : mint ty) : greatest x \/ ~ greatest x.
Proof. rewrite greatest_val. destruct (Z.eq_dec (mval x) (imax ty)); tauto. Qed.
Lemma least_dec (x : mint ty) : least x \/ ~ least x.
Proof. rewrite least_val. destruct (Z.eq_dec (mval x) (imin ty)); tauto. Qed.
Lemma width : imax ty - imin ty + 1 = 2 ^ bits ty.
Proof. unfold imin, imax. pose proof (pow_half ty). destruct (signed ty); lia. Qed.
Lemma congr_range (x y : mint ty) z : mval x mod 2 ^ bits ty = z mod 2 ^ bits ty -> mval y mod 2 ^ bits ty = z mod 2 ^ bits ty -> mval x = mval y.
Proof.
  intros A B. rewrite <- B in A. pose proof (mint_range _ x). pose proof (mint_range _ y). pose proof width.
  assert (P : 0 < 2 ^ bits ty) by (pose proof (half_pos ty); pose proof (pow_half ty); lia).
  revert A P H1. clear B. generalize (2 ^ bits ty). intros w A P W.
  assert (N : w <> 0) by (clear - P; lia).
  pose proof (Z.div_mod (mval x) w N) as X. pose proof (Z.div_mod (mval y) w N) as Y. rewrite A in X.
  revert X Y. generalize (mval y mod w) (mval x / w) (mval y / w). clear A. intros r a b X Y.
  assert (D : mval x - mval y = w * (a - b)) by lia.
  assert (a - b = 0) by nia. nia.
Qed.
Lemma fwd_wraps (x : mint ty) : mval x = imax ty -> exists y : mint ty, forward Release x 1 = Ret y /\ mval y = imin ty.
Proof.
  intros E. destruct (proj1 (int_release_wraps ty x 1 one_ok)) as (y & F & M). exists y. split; [exact F|].
  destruct (of_z_fits ty (imin ty)) as (u & _ & Hu).
  { unfold imin, imax. pose proof (pow_half ty). pose proof (half_pos ty). destruct (signed ty); lia. }
  rewrite <- Hu. apply (congr_range y u (mval x + 1)); [exact M|]. rewrite Hu, E. pose proof width.
  replace (imax ty + 1) with (imin ty + 1 * 2 ^ bits ty) by lia. symmetry. apply Z_mod_plus_full.
Qed.
Lemma bwd_wraps (x : mint ty) : mval x = imin ty -> exists y : mint ty, backward Release x 1 = Ret y /\ mval y = imax ty.
Proof.
  intros E. destruct (proj2 (int_release_wraps ty x 1 one_ok)) as (y & F & M). exists y. split; [exact F|].
  destruct (of_z_fits ty (imax ty)) as (u & _ & Hu).
  { unfold imin, imax. pose proof (pow_half ty). pose proof (half_pos ty). destruct (signed ty); lia. }
  rewrite <- Hu. apply (congr_range y u (mval x - 1)); [exact M|]. rewrite Hu, E. pose proof width.
  replace (imax ty) with (imin ty - 1 + 1 * 2 ^ bits ty) by lia. apply Z_mod_plus_full.
Qed.

(** In a type at least as wide as [usize], the whole type has [len] 0 in
    release, so a piece that wraps around is dropped. *)
Lemma usize_max_pow : usize_bits <= bits ty -> usize_max < 2 ^ bits ty.
Proof.
  intros W. unfold usize_max. pose proof usize_bits_pos.
  assert (2 ^ usize_bits <= 2 ^ bits ty) by (apply Z.pow_le_mono_r; lia). lia.
Qed.
Lemma wide_fwd_fine (x : mint ty) : usize_bits <= bits ty -> fwd_fine x /\ exists y, forward Release x 1 = Ret y.
Proof.
  intros W. destruct (greatest_dec x) as [G|G]; [|apply not_greatest_fine; exact G].
  apply greatest_val in G. destruct (fwd_wraps x G) as (y & F & Y). split; [|eauto].
  intros i l i' H S N. destruct (next_some Release i x l H) as [N' Cx]. rewrite F in N'. cbn [bind] in N'.
  rewrite N in N'. injection N' as ->.
  pose proof (span_length _ _ _ H) as L. cbn [idx NumberedMint] in L. rewrite Cx in L.
  pose proof (mint_range _ (bri_last_field i)) as Bl.
  assert (l = []) by (destruct l; [reflexivity|simpl length in L; lia]). subst l. simpl length in L.
  set (j := BRI y (bri_last_field i)). destruct (holds_exists j) as [k K]. apply (over_rshows j k K).
  apply span_length in K. cbn [idx NumberedMint bri_current bri_last_field j] in K.
  pose proof (usize_max_pow W). pose proof width. lia.
Qed.
Lemma wide_bwd_fine (x : mint ty) : usize_bits <= bits ty -> bwd_fine x /\ exists y, backward Release x 1 = Ret y.
Proof.
  intros W. destruct (least_dec x) as [G|G]; [|apply not_least_fine; exact G].
  apply least_val in G. destruct (bwd_wraps x G) as (y & F & Y). split; [|eauto].
  intros i l i' H S N. destruct (next_back_some Release i x l H) as [N' Cx]. rewrite F in N'. cbn [bind] in N'.
  rewrite N in N'. injection N' as ->.
  pose proof (span_length _ _ _ H) as L. cbn [idx NumberedMint] in L. rewrite Cx in L. rewrite rev_length in L.
  pose proof (mint_range _ (bri_current i)) as Bl.
  assert (l = []) by (destruct l; [reflexivity|simpl length in L; lia]). subst l. simpl length in L.
  set (j := BRI (bri_current i) y). destruct (holds_exists j) as [k K]. apply (over_rshows j k K).
  apply span_length in K. cbn [idx NumberedMint bri_current bri_last_field j] in K.
  pose proof (usize_max_pow W). pose proof width. lia.
Qed.

(** In a narrower type, a piece that reaches the end of the type never runs dry. *)
Lemma narrow_len (i : BoundedRangeIter (mint ty)) : bits ty < usize_bits ->
  bri_len Release i = Ret (Z.max 0 (mval (bri_last_field i) - mval (bri_current i) + 1)).
Proof.
  intros B. destruct (holds_exists i) as [l H]. rewrite (len_release i l H). pose proof (span_length _ _ _ H) as L.
  cbn [idx NumberedMint] in L. rewrite L.
  pose proof (mint_range _ (bri_last_field i)). pose proof (mint_range _ (bri_current i)). pose proof width.
  assert (2 ^ bits ty < 2 ^ usize_bits) by (apply Z.pow_lt_mono_r; pose proof (bits_pos ty); lia).
  destruct (_ <=? _) eqn:C; [reflexivity|]. unfold usize_max in *. lia.
Qed.
Definition endless (P : BoundedRangeIter (mint ty) -> Prop) (its : list (BoundedRangeIter (mint ty))) : Prop :=
  exists i, In i its /\ P i.
Lemma trim_endless (P : BoundedRangeIter (mint ty) -> Prop) its : bits ty < usize_bits ->
  (forall i, P i -> mval (bri_current i) <= mval (bri_last_field i)) -> endless P its ->
  exists i its', trim Release its = Ret (i :: its') /\ mval (bri_current i) <= mval (bri_last_field i) /\ (P i \/ endless P its').
Proof.
  intros B NE (i & I & Pi). induction its as [|j its IH]; [destruct I|].
  cbn [trim]. rewrite (narrow_len j B). cbn [bind]. destruct (_ =? 0) eqn:C.
  - destruct I as [->|I]; [apply NE in Pi; lia|]. apply IH. exact I.
  - exists j, its. split; [reflexivity|]. split; [lia|]. destruct I as [->|I]; [left; exact Pi|right; exists i; auto].
Qed.
Lemma next_some' (i : BoundedRangeIter (mint ty)) : mval (bri_current i) <= mval (bri_last_field i) ->
  exists n, bri_next Release i = Ret (Some (bri_current i), BRI n (bri_last_field i)).
Proof.
  intros H. unfold bri_next. rewrite t_gt_idx. cbn [idx NumberedMint]. destruct (_ <? _) eqn:C; [lia|].
  destruct (int_forward_release PF ty (bri_current i)) as [y ->]. cbn [bind]. eauto.
Qed.
Lemma next_back_some' (i : BoundedRangeIter (mint ty)) : mval (bri_current i) <= mval (bri_last_field i) ->
  exists n, bri_next_back Release i = Ret (Some (bri_last_field i), BRI (bri_current i) n).
Proof.
  intros H. unfold bri_next_back. rewrite t_gt_idx. cbn [idx NumberedMint]. destruct (_ <? _) eqn:C; [lia|].
  destruct (proj2 (int_release_wraps ty (bri_last_field i) 1 one_ok)) as (y & -> & _). cbn [bind]. eauto.
Qed.
Lemma reaches_max (i : BoundedRangeIter (mint ty)) : mval (bri_last_field i) = imax ty -> mval (bri_current i) <= mval (bri_last_field i).
Proof. intros E. rewrite E. apply (mint_range _ (bri_current i)). Qed.
Lemma reaches_min (i : BoundedRangeIter (mint ty)) : mval (bri_current i) = imin ty -> mval (bri_current i) <= mval (bri_last_field i).
Proof. intros E. rewrite E. apply (mint_range _ (bri_last_field i)). Qed.
Lemma set_never_ends it o : bits ty < usize_bits ->
  endless (fun i => mval (bri_last_field i) = imax ty) (bsi_range_iters it) -> ~ drains (bsi_next Release) it o.
Proof.
  intros B I D. induction D as [s s' E|s s' x o E D IH|s E];
    unfold bsi_next in E; destruct (trim_endless (fun i => mval (bri_last_field i) = imax ty) _ B reaches_max I) as (i & its' & T & Ne & P);
    rewrite T in E; cbn [bind on_front] in E; destruct (next_some' i Ne) as [n En]; rewrite En in E; cbn [bind fst snd] in E; try discriminate.
  injection E as _ <-. apply IH. cbn [bsi_range_iters].
  destruct P as [P|(j & J & P)]; [eexists; split; [left; reflexivity|exact P]|exists j; split; [now right|exact P]].
Qed.
Lemma set_back_never_ends it o : bits ty < usize_bits ->
  endless (fun i => mval (bri_current i) = imin ty) (bsi_range_iters it) -> ~ drains (bsi_next_back Release) it o.
Proof.
  intros B I D. induction D as [s s' E|s s' x o E D IH|s E];
    (assert (I' : endless (fun i => mval (bri_current i) = imin ty) (rev (bsi_range_iters s)))
       by (destruct I as (i0 & I0 & Pi0); exists i0; split; [apply -> in_rev; exact I0|exact Pi0]));
    unfold bsi_next_back in E; destruct (trim_endless (fun i => mval (bri_current i) = imin ty) _ B reaches_min I') as (i & its' & T & Ne & P);
    rewrite T in E; cbn [bind on_front] in E; destruct (next_back_some' i Ne) as [n En]; rewrite En in E; cbn [bind fst snd] in E; try discriminate.
  injection E as _ <-. apply IH. cbn [bsi_range_iters].
  destruct P as [P|(j & J & P)]; [eexists; split; [apply in_or_app; right; left; reflexivity|exact P]|].
  exists j. split; [apply in_or_app; left; apply -> in_rev; exact J|exact P].
Qed.
End Ints.

(** ** Ranges of integers *)
Section IntRanges.
Context {PF : Platform} {ty : ity}.
Lemma never_ends_back (it : BoundedRangeIter (mint ty)) o :
  mval (bri_current it) = imin ty -> ~ drains (bri_next_back Release) it o.
Proof.
  intros M D. induction D as [s s' E|s s' x o E D IH|s E];
    destruct (next_back_some' s (reaches_min s M)) as [n En]; rewrite En in E; try discriminate.
  apply IH. injection E as _ <-. exact M.
Qed.
Lemma range_release (it : BoundedRangeIter (mint ty)) l o : holds it l ->
  (drains (bri_next Release) it o <-> o = Ret l /\ forall t, In t l -> ~ greatest t) /\
  (drains (bri_next_back Release) it o <-> o = Ret (rev l) /\ forall t, In t l -> ~ least t).
Proof.
  intros H. destruct (drains_forward l it H) as [D1 _].
  assert (H' : holds it (rev (rev l))) by (rewrite rev_involutive; exact H).
  destruct (drains_backward (rev l) it H') as [D2 _].
  assert (Bd : forall t, In t l -> mval (bri_current it) <= mval t <= mval (bri_last_field it)).
  { intros t I. apply (span_in _ _ _ _ H) in I. exact I. }
  split; split.
  - intros D. destruct (proj2 (extreme_dec l)) as [G|(t & I & G)].
    + pose proof (drains_agree' _ _ next_agree it l (D1 G)) as D'. split; [exact (drains_det _ _ _ _ D D')|exact G].
    + exfalso. revert D. apply never_ends. apply greatest_val in G. specialize (Bd t I). pose proof (mint_range _ (bri_last_field it)). lia.
  - intros [-> G]. exact (drains_agree' _ _ next_agree it l (D1 G)).
  - intros D. destruct (proj1 (extreme_dec l)) as [G|(t & I & G)].
    + assert (G' : forall t, In t (rev l) -> ~ least t) by (intros t I; apply G, in_rev, I).
      pose proof (drains_agree' _ _ next_back_agree it (rev l) (D2 G')) as D'. split; [exact (drains_det _ _ _ _ D D')|exact G].
    + exfalso. revert D. apply never_ends_back. apply least_val in G. specialize (Bd t I). pose proof (mint_range _ (bri_current it)). lia.
  - intros [-> G]. apply (drains_agree' _ _ next_back_agree). apply D2. intros t I. apply G, in_rev, I.
Qed.

(** Creating the iterator where the checked build panics. *)
Lemma max_exists : exists u : mint ty, mval u = imax ty.
Proof.
  destruct (of_z_fits ty (imax ty)) as (u & _ & Hu); [|eauto].
  unfold imin, imax. pose proof (pow_half ty). pose proof (half_pos ty). destruct (signed ty); lia.
Qed.
Lemma into_iter_wraps (r : BoundedRange (mint ty)) : br_into_iter Debug r = Panic ->
  exists it, br_into_iter Release r = Ret it /\
    ((exists t, br_end r = UB (Excluded t) /\ least t) -> mval (bri_last_field it) = imax ty) /\
    ((forall t, br_end r = UB (Excluded t) -> ~ least t) ->
       forall t, mval (bri_current it) <= mval t <= mval (bri_last_field it) <-> below (br_end r) t).
Proof.
  intros P. apply into_iter_panics in P. unfold br_into_iter.
  assert (Fs : exists c, match br_start r with LB (Excluded t) => forward Release t 1 | LB (Included t) => Ret t end = Ret c /\
             ((exists t, br_start r = LB (Excluded t) /\ greatest t) -> mval c = imin ty)).
  { destruct (br_start r) as [[s|s]].
    - destruct (int_forward_release PF ty s) as [y Ey]. exists y. split; [exact Ey|]. intros (t & E & G). injection E as <-.
      apply greatest_val in G. destruct (fwd_wraps s G) as (y' & Ey' & M). rewrite Ey in Ey'. injection Ey' as <-. exact M.
    - exists s. split; [reflexivity|]. intros (t & E & _). discriminate. }
  destruct Fs as (c & Ec & Mc).
  assert (Ls : exists e, match br_end r with UB (Excluded t) => backward Release t 1 | UB (Included t) => Ret t end = Ret e /\
             ((exists t, br_end r = UB (Excluded t) /\ least t) -> mval e = imax ty) /\
             ((forall t, br_end r = UB (Excluded t) -> ~ least t) -> forall t, mval t <= mval e <-> below (br_end r) t)).
  { destruct (br_end r) as [[s|s]].
    - destruct (proj2 (int_release_wraps ty s 1 one_ok)) as (y & Ey & _). exists y. split; [exact Ey|]. split.
      + intros (t & E & G). injection E as <-.
        apply least_val in G. destruct (bwd_wraps s G) as (y' & Ey' & M). rewrite Ey in Ey'. injection Ey' as <-. exact M.
      + intros N. specialize (N s eq_refl). destruct (not_least_bwd s N) as [y' Ey'].
        pose proof (bwd_agree _ _ _ one_ok Ey') as Q. rewrite Ey in Q. injection Q as <-. apply bwd_ret in Ey'; [|apply one_ok].
        cbn [idx NumberedMint] in Ey'. intros t. cbn [below]. rewrite lt_idx. cbn [idx NumberedMint]. lia.
    - exists s. split; [reflexivity|]. split; [intros (t & E & _); discriminate|].
      intros _ t. cbn [below]. rewrite le_idx. reflexivity. }
  destruct Ls as (e & Ee & Me & Be).
  exists (BRI c e). cbn [bri_current bri_last_field]. split; [|split].
  - destruct (br_start r) as [[s|s]], (br_end r) as [[u|u]]; rewrite ?Ec, ?Ee; cbn [bind]; rewrite ?Ee; cbn [bind];
      try (injection Ec as ->); try (injection Ee as ->); try reflexivity.
  - exact Me.
  - intros N t. destruct P as [P|(u & E & L)]; [|exfalso; exact (N u E L)]. rewrite (Mc P), <- (Be N t).
    pose proof (mint_range _ t). lia.
Qed.

(** Walking upwards in release: arithmetic modulo [2^bits]. *)
Definition congr (x : mint ty) (z : Z) : Prop := mval x mod 2 ^ bits ty = z mod 2 ^ bits ty.
Lemma congr_fwd (x : mint ty) z n : congr x z -> 0 <= n <= usize_max -> exists y, forward Release x n = Ret y /\ congr y (z + n).
Proof.
  intros C H. destruct (proj1 (int_release_wraps ty x n H)) as (y & E & M). exists y. split; [exact E|].
  unfold congr in *. rewrite M, Zplus_mod, C, <- Zplus_mod. reflexivity.
Qed.
Lemma lbri_release cs : forall (it : LowerBoundedRangeIter (mint ty)) z p, congr (lbri_current it) (z + p) -> Forall up_call_ok cs ->
  exists reps it', run (lbri_call Release) it cs = Ret (reps, it') /\
    Forall2 (fun o q => exists e, o = Some e /\ congr e (z + q)) reps (positions p cs).
Proof.
  induction cs as [|c cs IH]; intros it z p C O; cbn [run positions].
  - exists [], it. split; [reflexivity|constructor].
  - inversion O as [|? ? Oc O']; subst. destruct c; cbn [lbri_call].
    + unfold lbri_next. destruct (congr_fwd _ _ 1 C one_ok) as (y & -> & Cy). cbn [bind fst snd].
      destruct (IH (LBRI y) z (p + 1)) as (reps & it' & -> & F); [cbn [lbri_current]; rewrite Z.add_assoc; exact Cy|exact O'|].
      cbn [bind fst snd]. eexists _, _. split; [reflexivity|]. constructor; [eauto|exact F].
    + cbn [up_call_ok] in Oc. unfold lbri_nth. destruct (congr_fwd _ _ n C Oc) as (y & -> & Cy). cbn [bind].
      unfold lbri_next. cbn [lbri_current]. destruct (congr_fwd _ _ 1 Cy one_ok) as (y' & -> & Cy'). cbn [bind fst snd].
      destruct (IH (LBRI y') z (p + n + 1)) as (reps & it' & -> & F);
        [cbn [lbri_current]; rewrite !Z.add_assoc; exact Cy'|exact O'|].
      cbn [bind fst snd]. eexists _, _. split; [reflexivity|]. constructor; [|exact F].
      exists y. split; [reflexivity|]. rewrite Z.add_assoc. exact Cy.
Qed.
End IntRanges.

(** ** Integers in release never panic *)
Section Total.
Context {PF : Platform} {ty : ity}.
Lemma rel_fwd (x : mint ty) n : 0 <= n <= usize_max -> exists y, forward Release x n = Ret y.
Proof. intros H. destruct (proj1 (int_release_wraps ty x n H)) as (y & E & _). eauto. Qed.
Lemma rel_bwd (x : mint ty) n : 0 <= n <= usize_max -> exists y, backward Release x n = Ret y.
Proof. intros H. destruct (proj2 (int_release_wraps ty x n H)) as (y & E & _). eauto. Qed.
Lemma rel_next (i : BoundedRangeIter (mint ty)) : exists x, bri_next Release i = Ret x.
Proof. unfold bri_next. destruct (t_gt _ _); [eauto|]. destruct (rel_fwd (bri_current i) 1 one_ok) as [y ->]. cbn [bind]. eauto. Qed.
Lemma rel_next_back (i : BoundedRangeIter (mint ty)) : exists x, bri_next_back Release i = Ret x.
Proof. unfold bri_next_back. destruct (t_gt _ _); [eauto|]. destruct (rel_bwd (bri_last_field i) 1 one_ok) as [y ->]. cbn [bind]. eauto. Qed.
Lemma rel_nth (i : BoundedRangeIter (mint ty)) n : 0 <= n <= usize_max -> exists x, bri_nth Release i n = Ret x.
Proof. intros H. unfold bri_nth. destruct (rel_fwd (bri_current i) n H) as [y ->]. cbn [bind]. apply rel_next. Qed.
Lemma rel_nth_back (i : BoundedRangeIter (mint ty)) n : 0 <= n <= usize_max -> exists x, bri_nth_back Release i n = Ret x.
Proof. intros H. unfold bri_nth_back. destruct (rel_bwd (bri_last_field i) n H) as [y ->]. cbn [bind]. apply rel_next_back. Qed.
Lemma rel_len (i : BoundedRangeIter (mint ty)) : exists n, bri_len Release i = Ret n /\ 0 <= n <= usize_max.
Proof.
  destruct (holds_exists i) as [l H]. rewrite (len_release i l H). eexists. split; [reflexivity|].
  pose proof usize_max_ge. destruct (_ <=? _) eqn:C; lia.
Qed.
Lemma rel_call (i : BoundedRangeIter (mint ty)) c : call_ok c -> exists x, bri_call Release i c = Ret x.
Proof.
  destruct c; cbn [bri_call call_ok]; unfold item; intros O.
  - destruct (rel_next i) as [x ->]. cbn [bind]. eauto.
  - destruct (rel_next_back i) as [x ->]. cbn [bind]. eauto.
  - destruct (rel_nth i n O) as [x ->]. cbn [bind]. eauto.
  - destruct (rel_nth_back i n O) as [x ->]. cbn [bind]. eauto.
  - destruct (rel_len i) as (n & -> & _). cbn [bind]. eauto.
Qed.
Lemma rel_trim (its : list (BoundedRangeIter (mint ty))) : exists x, trim Release its = Ret x.
Proof.
  induction its as [|i its IH]; cbn [trim]; [eauto|]. destruct (rel_len i) as (n & -> & _). cbn [bind].
  destruct (n =? 0); [exact IH|eauto].
Qed.
Lemma rel_skip (its : list (BoundedRangeIter (mint ty))) : forall n, 0 <= n <= usize_max ->
  exists x k, skip Release its n = Ret (x, k) /\ 0 <= k <= usize_max.
Proof.
  induction its as [|i its IH]; intros n H; cbn [skip]; [eauto|]. destruct (rel_len i) as (k & -> & B). cbn [bind].
  destruct (k <=? n) eqn:C; [apply IH; lia|eauto].
Qed.
Lemma rel_front (f : BoundedRangeIter (mint ty) -> outcome (option (mint ty) * BoundedRangeIter (mint ty))) its :
  (forall i, exists x, f i = Ret x) -> exists x, on_front f its = Ret x.
Proof. intros H. destruct its as [|i its]; cbn [on_front]; [eauto|]. destruct (H i) as [x ->]. cbn [bind]. eauto. Qed.
Lemma rel_sum (its : list (BoundedRangeIter (mint ty))) : forall acc, 0 <= acc <= usize_max ->
  exists n, sum_lens Release its acc = Ret n /\ 0 <= n <= usize_max.
Proof.
  induction its as [|i its IH]; intros acc H; cbn [sum_lens]; [eauto|]. destruct (rel_len i) as (k & -> & B). cbn [bind].
  unfold usize_add. destruct (_ <=? _) eqn:C; cbn [bind]; [apply IH; lia|].
  apply IH. pose proof usize_bits_pos. pose proof (Z.mod_pos_bound (acc + k) (2 ^ usize_bits) ltac:(apply Z.pow_pos_nonneg; lia)).
  unfold usize_max. lia.
Qed.
Lemma rel_set_len (it : BoundedSetIter (mint ty)) : exists n, bsi_len Release it = Ret n /\ 0 <= n <= usize_max.
Proof.
  unfold bsi_len, bsi_size_hint. pose proof usize_max_ge. destruct (rel_sum (bsi_range_iters it) 0) as (n & -> & B); [lia|].
  cbn [bind]. unfold exact_len. cbn [fst snd]. rewrite Z.eqb_refl. eauto.
Qed.
Lemma rel_set_call (it : BoundedSetIter (mint ty)) c : call_ok c -> exists x, bsi_call Release it c = Ret x.
Proof.
  destruct c; cbn [bsi_call call_ok]; unfold item; intros O.
  - unfold bsi_next. destruct (rel_trim (bsi_range_iters it)) as [x ->]. cbn [bind].
    destruct (rel_front (bri_next Release) x rel_next) as [y ->]. cbn [bind]. eauto.
  - unfold bsi_next_back. destruct (rel_trim (rev (bsi_range_iters it))) as [x ->]. cbn [bind].
    destruct (rel_front (bri_next_back Release) x rel_next_back) as [y ->]. cbn [bind]. eauto.
  - unfold bsi_nth. destruct (rel_skip (bsi_range_iters it) n O) as (x & k & -> & B). cbn [bind fst snd].
    destruct (rel_front (fun i => bri_nth Release i k) x (fun i => rel_nth i k B)) as [y ->]. cbn [bind]. eauto.
  - unfold bsi_nth_back. destruct (rel_skip (rev (bsi_range_iters it)) n O) as (x & k & -> & B). cbn [bind fst snd].
    destruct (rel_front (fun i => bri_nth_back Release i k) x (fun i => rel_nth_back i k B)) as [y ->]. cbn [bind]. eauto.
  - destruct (rel_set_len it) as (n & -> & _). cbn [bind]. eauto.
Qed.
Lemma rel_up_call (it : LowerBoundedSetIter (mint ty)) c : up_call_ok c -> exists x, lbsi_call Release it c = Ret x.
Proof.
  destruct c; cbn [lbsi_call up_call_ok]; intros O.
  - unfold lbsi_next. destruct (rel_set_call (lbsi_set_iter it) Next I) as [x E]. cbn [bsi_call] in E. unfold item in E.
    destruct (bsi_next Release (lbsi_set_iter it)) as [[o s]| |]; try discriminate. cbn [bind fst snd].
    destruct o; [eauto|]. unfold lbri_next. destruct (rel_fwd (lbri_current (lbsi_range_iter it)) 1 one_ok) as [y ->]. cbn [bind]. eauto.
  - unfold lbsi_nth. destruct (rel_set_len (lbsi_set_iter it)) as (k & -> & B). cbn [bind].
    destruct (rel_set_call (lbsi_set_iter it) (Nth n) O) as [x E]. cbn [bsi_call] in E. unfold item in E.
    destruct (bsi_nth Release (lbsi_set_iter it) n) as [[o s]| |]; try discriminate. cbn [bind fst snd].
    destruct o; [eauto|].
    assert (exists j, usize_sub Release n k = Ret j /\ 0 <= j <= usize_max) as (j & -> & Bj).
    { unfold usize_sub. destruct (_ <=? _) eqn:C; [eexists; split; [reflexivity|lia]|]. eexists. split; [reflexivity|].
      pose proof usize_bits_pos. pose proof (Z.mod_pos_bound (n - k) (2 ^ usize_bits) ltac:(apply Z.pow_pos_nonneg; lia)).
      unfold usize_max. lia. }
    cbn [bind]. unfold lbri_nth. destruct (rel_fwd (lbri_current (lbsi_range_iter it)) j Bj) as [y ->]. cbn [bind].
    unfold lbri_next. cbn [lbri_current]. destruct (rel_fwd y 1 one_ok) as [y' ->]. cbn [bind]. eauto.
Qed.
Lemma run_total {S C R : Type} (f : S -> C -> outcome (R * S)) (ok : C -> Prop) :
  (forall s c, ok c -> exists x, f s c = Ret x) -> forall cs s, Forall ok cs -> exists x, run f s cs = Ret x.
Proof.
  intros H. induction cs as [|c cs IH]; intros s O; cbn [run]; [eauto|]. inversion O; subst.
  destruct (H s c) as [x ->]; [assumption|]. cbn [bind]. destruct (IH (snd x)) as [y ->]; [assumption|]. cbn [bind]. eauto.
Qed.
End Total.
