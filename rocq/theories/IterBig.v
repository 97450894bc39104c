(** Iteration without conditions on the number of elements. *)
From Coq Require Import Lia ZifyBool Sorted.
From Verif Require Import Base ModelBound ModelRanges ModelSets ModelValue ModelStep ModelIter Reach
  Spec SpecStep SpecIter StepProofs StepLemmas IterProofs IterProofs2 IterProofs3 IterProofs4 IterLemmas.
Open Scope Z_scope.

Section Big.
Context {T : Type} {PF : Platform} {OT : Ord T} {ST : Step T} {NU : Numbered T} {SL : StepLaws T}.

(** ** Ranges *)
Lemma bri_call_clipped it l c rep it' : holds it l -> call_ok c -> bri_call Debug it c = Ret (rep, it') ->
  rep = clipped (fst (deque_call l c)) /\ holds it' (snd (deque_call l c)).
Proof.
  intros H O E. destruct c; try (destruct (bri_call_refines it l _ rep it' H O ltac:(discriminate) E) as [-> K];
    split; [reflexivity|exact K]).
  unfold bri_call in E. inv_bind E. injection E as <- <-. cbn [deque_call fst snd clipped]. split; [|exact H].
  rewrite (len_spec it l H) in E0. destruct (_ <=? _); [injection E0 as <-; reflexivity|].
  destruct (_ =? _); [discriminate|]. injection E0 as <-. reflexivity.
Qed.
Lemma bri_run_clipped cs it l reps it' : holds it l -> Forall call_ok cs -> run (bri_call Debug) it cs = Ret (reps, it') ->
  reps = map clipped (fst (deque_run l cs)) /\ holds it' (snd (deque_run l cs)).
Proof.
  revert it l reps; induction cs as [|c cs IH]; intros it l reps H O E; cbn [run deque_run] in *.
  - injection E as <- <-. auto.
  - inv_bind E. inv_bind E. injection E as <- <-. destruct a as [rep i]. destruct a0 as [reps i'].
    inversion O; subst. cbn [fst snd map] in *.
    destruct (bri_call_clipped it l c rep i H H2 E0) as [-> K].
    destruct (IH i (snd (deque_call l c)) reps K H3 E1) as [-> K']. auto.
Qed.

(** ** Sets: a piece whose [len] panics *)
Lemma brimful_len r it : br_into_iter Debug r = Ret it -> brimful (in_range r) -> bri_len Debug it = Panic.
Proof.
  intros E (l & L & N). apply (into_iter_holds r it l E) in L. rewrite (len_spec it l L).
  destruct (_ <=? _) eqn:C; [lia|]. destruct (_ =? _) eqn:D; [reflexivity|lia].
Qed.
Lemma trim_split its ls i tl' : lens_ok its ls -> bri_len Debug i = Panic ->
  trim Debug (its ++ i :: tl') = Panic /\ concat ls = [] \/
  exists k, trim Debug (its ++ i :: tl') = Ret (skipn k its ++ i :: tl') /\ concat (skipn k ls) = concat ls /\
    match skipn k ls with [] => False | l :: _ => l <> [] end.
Proof.
  intros L P. induction L as [|j l its ls E L IH].
  - left. cbn [app trim]. rewrite P. auto.
  - cbn [app trim]. rewrite E. cbn [bind]. destruct (Z.of_nat (length l) =? 0) eqn:C.
    + destruct l; [|simpl in C; lia]. destruct IH as [IH|(k & E1 & E2 & E3)]; [left; exact IH|right; exists (S k); auto].
    + right. exists O. repeat split; auto. simpl. intros ->. simpl in C. lia.
Qed.
Lemma drains_brimful n : forall its ls i tl', Forall2 shows its ls -> (length (concat ls) <= n)%nat ->
  bri_len Debug i = Panic -> drains (bsi_next Debug) (BSI (its ++ i :: tl')) Panic.
Proof.
  induction n as [|n IH]; intros its ls i tl' H N P; unfold bsi_next;
    destruct (trim_split its ls i tl' (shows_lens _ _ H) P) as [[E _]|(k & E & C & F)].
  - apply drains_panic. unfold bsi_next. cbn [bsi_range_iters]. rewrite E. reflexivity.
  - exfalso. rewrite <- C in N. destruct (skipn k ls) as [|[|] ?]; [exact F|congruence|simpl in N; lia].
  - apply drains_panic. unfold bsi_next. cbn [bsi_range_iters]. rewrite E. reflexivity.
  - pose proof (Forall2_skipn _ k _ _ H) as H'. rewrite <- C in N. clear C.
    destruct H' as [|j l its' ls' Hj H']; [contradiction|]. cbn [app] in E.
    pose proof (shows_small j l Hj) as Sl. destruct Hj as [_ Hj]. specialize (Hj F).
    destruct (bri_next Debug j) as [[o j']| |] eqn:Ej.
    + destruct (next_refines j l o j' Hj Ej) as [-> K]. destruct l as [|x l]; [congruence|]. cbn [hd_error tl] in *.
      change (@Panic (list T)) with (k <- @Panic (list T) ;; Ret (x :: k)).
      eapply (drains_item _ _ (BSI ((j' :: its') ++ i :: tl'))).
      * unfold bsi_next. cbn [bsi_range_iters]. rewrite E. cbn [bind on_front]. rewrite Ej. reflexivity.
      * apply (IH (j' :: its') (l :: ls')); [|simpl in *; lia|exact P].
        constructor; [|exact H']. apply holds_shows; [exact K|simpl in Sl; lia].
    + apply drains_panic. unfold bsi_next. cbn [bsi_range_iters]. rewrite E. cbn [bind on_front]. rewrite Ej. reflexivity.
    + exfalso. exact (next_not_diverge _ Ej).
Qed.
Lemma drains_back_brimful n : forall its ls i tl', Forall2 shows its ls -> (length (concat ls) <= n)%nat ->
  bri_len Debug i = Panic -> drains (bsi_next_back Debug) (BSI (rev (its ++ i :: tl'))) Panic.
Proof.
  induction n as [|n IH]; intros its ls i tl' H N P;
    destruct (trim_split its ls i tl' (shows_lens _ _ H) P) as [[E _]|(k & E & C & F)].
  - apply drains_panic. unfold bsi_next_back. cbn [bsi_range_iters]. rewrite rev_involutive, E. reflexivity.
  - exfalso. rewrite <- C in N. destruct (skipn k ls) as [|[|] ?]; [exact F|congruence|simpl in N; lia].
  - apply drains_panic. unfold bsi_next_back. cbn [bsi_range_iters]. rewrite rev_involutive, E. reflexivity.
  - pose proof (Forall2_skipn _ k _ _ H) as H'. rewrite <- C in N. clear C.
    destruct H' as [|j l its' ls' Hj H']; [contradiction|]. cbn [app] in E.
    pose proof (shows_small j l Hj) as Sl. destruct Hj as [_ Hj]. specialize (Hj F).
    destruct (bri_next_back Debug j) as [[o j']| |] eqn:Ej.
    + destruct (next_back_refines j l o j' Hj Ej) as [-> K].
      destruct (rev l) as [|x l'] eqn:R; [apply rev_nil in F; congruence|]. cbn [hd_error tl] in *.
      assert (Ln : length l = S (length l')) by (rewrite <- (rev_length l), R; reflexivity).
      change (@Panic (list T)) with (k <- @Panic (list T) ;; Ret (x :: k)).
      eapply (drains_item _ _ (BSI (rev ((j' :: its') ++ i :: tl')))).
      * unfold bsi_next_back. cbn [bsi_range_iters]. rewrite rev_involutive, E. cbn [bind on_front]. rewrite Ej. reflexivity.
      * apply (IH (j' :: its') (rev l' :: ls')); [| |exact P].
        -- constructor; [|exact H']. apply holds_shows; [exact K|rewrite rev_length; lia].
        -- cbn [concat] in *. rewrite app_length in *. rewrite rev_length. lia.
    + apply drains_panic. unfold bsi_next_back. cbn [bsi_range_iters]. rewrite rev_involutive, E. cbn [bind on_front]. rewrite Ej. reflexivity.
    + exfalso. exact (next_back_not_diverge _ Ej).
Qed.

(** Either every piece shows its elements or there is a first one that panics. *)
Lemma range_shows r it : br_into_iter Debug r = Ret it ->
  (exists l, shows it l /\ lists (fun t => in_range r t /\ small (in_range r)) l /\ ~ brimful (in_range r)) \/
  brimful (in_range r).
Proof.
  intros E. destruct (holds_exists it) as [l H]. pose proof (proj1 (into_iter_holds r it l E) H) as L.
  destruct (Z_le_gt_dec (Z.of_nat (length l)) usize_max) as [S|S].
  - left. exists l. split; [apply holds_shows; assumption|]. apply (small_dec _ _ L) in S. split; [|apply small_not_brimful; exact S].
    destruct L as [Sl Il]. split; [exact Sl|]. intros t. rewrite Il. tauto.
  - destruct (Z.eq_dec (Z.of_nat (length l)) (usize_max + 1)) as [B|B]; [right; exists l; auto|].
    left. exists []. split; [|split].
    + split; [|congruence]. rewrite (len_spec it l H).
      destruct (_ <=? _) eqn:C1; [lia|]. destruct (_ =? _) eqn:C2; [lia|reflexivity].
    + split; [constructor|]. intros t. split; [intros []|]. intros [_ Sm]. apply Sm in L. lia.
    + intros (k & K & Ek). rewrite (lists_unique _ _ _ K L) in Ek. lia.
Qed.
Lemma pieces_show rs its : Forall2 (fun r it => br_into_iter Debug r = Ret it) rs its ->
  (forall r, In r rs -> ~ brimful (in_range r)) \/
  (exists its1 ls1 i its2, its = its1 ++ i :: its2 /\ Forall2 shows its1 ls1 /\ bri_len Debug i = Panic /\
     exists r, In r rs /\ brimful (in_range r)).
Proof.
  induction 1 as [|r it rs its E F IH].
  - left. intros r [].
  - destruct (range_shows r it E) as [(l & Sh & _ & Nb)|B].
    + destruct IH as [IH|(its1 & ls1 & i & its2 & -> & F1 & P & r' & I & B)].
      * left. intros r' [<-|I]; auto.
      * right. exists (it :: its1), (l :: ls1), i, its2. split; [reflexivity|]. split; [constructor; assumption|].
        split; [exact P|]. exists r'. split; [now right|exact B].
    + right. exists [], [], it, its. split; [reflexivity|]. split; [constructor|]. split; [eapply brimful_len; eassumption|].
      exists r. split; [now left|exact B].
Qed.

(** ** Loops over a set *)
Lemma into_iter_pieces s it : bs_into_iter Debug s = Ret it ->
  Forall2 (fun r i => br_into_iter Debug r = Ret i) (bs_ranges s) (bsi_range_iters it).
Proof. unfold bs_into_iter. intros E. inv_bind E. injection E as <-. apply mapM_Forall2. exact E0. Qed.

Lemma collect_complete s it l : valid (VBS s) -> bs_into_iter Debug s = Ret it ->
  (drains (bsi_next Debug) it (Ret l) <->
     lists (in_small_pieces (bs_ranges s)) l /\ (forall t, in_small_pieces (bs_ranges s) t -> ~ greatest t) /\
     forall r, In r (bs_ranges s) -> ~ brimful (in_range r)) /\
  (drains (bsi_next Debug) it Panic <->
     (exists t, in_small_pieces (bs_ranges s) t /\ greatest t) \/ exists r, In r (bs_ranges s) /\ brimful (in_range r)).
Proof.
  intros V E. destruct (pieces_show _ _ (into_iter_pieces s it E)) as [Nb|(its1 & ls1 & i & its2 & Ei & F & P & r & I & B)].
  - destruct (bs_into_iter_shows s V Nb) as (it' & k & E' & H & K).
    rewrite E in E'. injection E' as <-. destruct (bsi_drains k it H) as [D1 D2].
    destruct (collect_iff _ _ _ _ k K (proj2 (extreme_dec k)) D1 D2 l) as [C1 C2]. rewrite C1, C2. split; split.
    + intros [X Y]. auto.
    + intros (X & Y & _). auto.
    + intros X. left. exact X.
    + intros [X|(r & I & B)]; [exact X|]. exfalso. exact (Nb r I B).
  - assert (D : drains (bsi_next Debug) it Panic).
    { destruct it as [its]. cbn [bsi_range_iters] in Ei. subst its. eapply drains_brimful; [exact F|apply Nat.le_refl|exact P]. }
    split; split.
    + intros D'. pose proof (drains_det _ _ _ _ D D'). discriminate.
    + intros (_ & _ & N). exfalso. exact (N r I B).
    + intros _. right. exists r. auto.
    + intros _. exact D.
Qed.
Lemma collect_back_complete s it l : valid (VBS s) -> bs_into_iter Debug s = Ret it ->
  (drains (bsi_next_back Debug) it (Ret l) <->
     lists (in_small_pieces (bs_ranges s)) (rev l) /\ (forall t, in_small_pieces (bs_ranges s) t -> ~ least t) /\
     forall r, In r (bs_ranges s) -> ~ brimful (in_range r)) /\
  (drains (bsi_next_back Debug) it Panic <->
     (exists t, in_small_pieces (bs_ranges s) t /\ least t) \/ exists r, In r (bs_ranges s) /\ brimful (in_range r)).
Proof.
  intros V E. pose proof (into_iter_pieces s it E) as F0. apply Forall2_rev in F0.
  destruct (pieces_show _ _ F0) as [Nb|(its1 & ls1 & i & its2 & Ei & F & P & r & I & B)].
  - assert (Nb' : forall r, In r (bs_ranges s) -> ~ brimful (in_range r)) by (intros r I; apply Nb; apply in_rev in I; exact I).
    clear Nb. rename Nb' into Nb.
    destruct (bs_into_iter_shows s V Nb) as (it' & k & E' & H & K).
    rewrite E in E'. injection E' as <-. rewrite <- (rev_involutive k) in H. destruct (bsi_drains_back (rev k) it H) as [D1 D2].
    pose proof (lists_in _ _ K) as I.
    assert (I' : forall t, In t (rev k) <-> in_small_pieces (bs_ranges s) t) by (intros t; rewrite <- in_rev; apply I).
    destruct (proj1 (extreme_dec (rev k))) as [C|C].
    + specialize (D1 C). split; split.
      * intros D. pose proof (drains_det _ _ _ _ D D1) as Q. injection Q as ->. rewrite rev_involutive. split; [exact K|].
        split; [|exact Nb]. intros t J. apply C, I', J.
      * intros (L & _ & _). rewrite <- (rev_involutive l), (lists_unique _ _ _ L K). exact D1.
      * intros D. pose proof (drains_det _ _ _ _ D D1). discriminate.
      * intros [(t & J & G)|(r & J & B)]; [|exfalso; exact (Nb r J B)]. exfalso. apply (C t); [apply I'; exact J|exact G].
    + specialize (D2 C). destruct C as (t & J & G). split; split.
      * intros D. pose proof (drains_det _ _ _ _ D D2). discriminate.
      * intros (_ & N & _). exfalso. apply (N t); [apply I'; exact J|exact G].
      * intros _. left. exists t. split; [apply I'; exact J|exact G].
      * intros _. exact D2.
  - apply in_rev in I.
    assert (D : drains (bsi_next_back Debug) it Panic).
    { destruct it as [its]. cbn [bsi_range_iters] in Ei. rewrite <- (rev_involutive its), Ei.
      eapply drains_back_brimful; [exact F|apply Nat.le_refl|exact P]. }
    split; split.
    + intros D'. pose proof (drains_det _ _ _ _ D D'). discriminate.
    + intros (_ & _ & N). exfalso. exact (N r I B).
    + intros _. right. exists r. auto.
    + intros _. exact D.
Qed.

(** [len] of a fresh set iterator. *)
Lemma set_len_complete s it l : valid (VBS s) -> bs_into_iter Debug s = Ret it -> lists (in_small_pieces (bs_ranges s)) l ->
  ((exists n, bsi_len Debug it = Ret n) <->
     Z.of_nat (length l) <= usize_max /\ forall r, In r (bs_ranges s) -> ~ brimful (in_range r)) /\
  (forall n, bsi_len Debug it = Ret n -> n = Z.of_nat (length l)).
Proof.
  intros V E L. destruct (pieces_show _ _ (into_iter_pieces s it E)) as [Nb|(its1 & ls1 & i & its2 & Ei & F & P & r & I & B)].
  - destruct (bs_into_iter_shows s V Nb) as (it' & k & E' & H & K). rewrite E in E'. injection E' as <-.
    rewrite (lists_unique _ _ _ L K). rewrite (bsi_len_spec it k H). destruct (_ <=? _) eqn:C; (split; [split|]).
    + intros _. split; [lia|exact Nb].
    + eauto.
    + intros n Q. injection Q as <-. reflexivity.
    + intros [n Q]. discriminate.
    + intros [G _]. lia.
    + discriminate.
  - assert (S : forall acc, sum_lens Debug (bsi_range_iters it) acc = Panic).
    { rewrite Ei. clear - F P. induction F as [|j l its ls Hj F IH]; intros acc; cbn [app sum_lens].
      - rewrite P. reflexivity.
      - destruct Hj as [-> _]. cbn [bind]. unfold usize_add. destruct (_ <=? _); cbn [bind]; [apply IH|reflexivity]. }
    assert (Q : bsi_len Debug it = Panic) by (unfold bsi_len, bsi_size_hint; rewrite S; reflexivity).
    rewrite Q. split; [split|].
    + intros [n X]. discriminate.
    + intros [_ N]. exfalso. exact (N r I B).
    + discriminate.
Qed.
End Big.
