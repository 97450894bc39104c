(** Histories of calls on set iterators, whatever the sizes of the pieces: a
    piece whose [len] panics stays until the panic. *)
From Coq Require Import Lia ZifyBool Sorted.
From Verif Require Import Base ModelBound ModelRanges ModelSets ModelValue ModelStep ModelIter Reach
  Spec SpecStep SpecIter StepProofs StepLemmas IterProofs IterProofs2 IterProofs3 IterProofs4 IterLemmas IterBig IterBrim.
Open Scope Z_scope.

Section Brim2.
Context {T : Type} {PF : Platform} {OT : Ord T} {ST : Step T} {NU : Numbered T} {SL : StepLaws T}.

Definition stuck (it : BoundedRangeIter T) (l : list T) : Prop := bri_len Debug it = Panic /\ l = [].
Definition wshows (it : BoundedRangeIter T) (l : list T) : Prop := shows it l \/ stuck it l.
Definition wlens (it : BoundedRangeIter T) (l : list T) : Prop := bri_len Debug it = Ret (Z.of_nat (length l)) \/ stuck it l.
Definition wholds (it : BoundedSetIter T) (l : list T) : Prop := exists ls, Forall2 wshows (bsi_range_iters it) ls /\ l = concat ls.

Lemma wshows_lens its ls : Forall2 wshows its ls -> Forall2 wlens its ls.
Proof. apply Forall2_impl. intros i l [[E _]|E]; [now left|now right]. Qed.
Lemma wshows_lens_rev its ls : Forall2 wshows its ls -> Forall2 wlens (rev its) (map (@rev T) (rev ls)).
Proof.
  intros H. apply wshows_lens, Forall2_rev in H. induction H as [|i l its' ls' [E|[E ->]] _ IH]; cbn [map]; constructor; auto.
  - left. now rewrite rev_length.
  - right. split; [exact E|reflexivity].
Qed.
Lemma wtrim its ls x : Forall2 wlens its ls -> trim Debug its = Ret x ->
  exists k, x = skipn k its /\ concat (skipn k ls) = concat ls /\ match skipn k ls with [] => True | l :: _ => l <> [] end.
Proof.
  induction 1 as [|i l its ls [E|[E ->]] L IH]; cbn [trim]; intros Ex.
  - injection Ex as <-. exists O. simpl. auto.
  - rewrite E in Ex. cbn [bind] in Ex. destruct (Z.of_nat (length l) =? 0) eqn:C.
    + destruct l; [|simpl in C; lia]. destruct (IH Ex) as (k & E1 & E2 & E3). exists (S k). auto.
    + injection Ex as <-. exists O. repeat split; auto. simpl. intros ->. simpl in C. lia.
  - rewrite E in Ex. discriminate.
Qed.
Lemma wskip its ls : Forall2 wlens its ls -> forall n x, 0 <= n -> skip Debug its n = Ret x ->
  exists k n', x = (skipn k its, n') /\ 0 <= n' <= n /\
    skipn (Z.to_nat n) (concat ls) = skipn (Z.to_nat n') (concat (skipn k ls)) /\
    match skipn k ls with [] => True | l :: _ => n' < Z.of_nat (length l) end.
Proof.
  induction 1 as [|i l its ls [E|[E ->]] L IH]; intros n x Hn; cbn [skip]; intros Ex.
  - injection Ex as <-. exists O, n. repeat split; auto; lia.
  - rewrite E in Ex. cbn [bind] in Ex. destruct (Z.of_nat (length l) <=? n) eqn:C.
    + destruct (IH (n - Z.of_nat (length l)) x) as (k & n' & E1 & B & E2 & E3); [lia|exact Ex|].
      exists (S k), n'. repeat split; auto; try lia. cbn [concat skipn].
      rewrite <- E2, skipn_app, skipn_all2 by lia. simpl. f_equal. lia.
    + injection Ex as <-. exists O, n. repeat split; auto; try lia. cbn [skipn]. lia.
  - rewrite E in Ex. discriminate.
Qed.
Lemma wsum its ls : Forall2 wlens its ls -> forall acc x, 0 <= acc <= usize_max -> sum_lens Debug its acc = Ret x ->
  x = acc + Z.of_nat (length (concat ls)).
Proof.
  induction 1 as [|i l its ls [E|[E ->]] L IH]; intros acc x Ha; cbn [sum_lens concat]; intros Ex.
  - injection Ex as <-. simpl. lia.
  - rewrite E in Ex. cbn [bind] in Ex. unfold usize_add in Ex.
    destruct (acc + Z.of_nat (length l) <=? usize_max) eqn:C; cbn [bind] in Ex; [|discriminate].
    rewrite app_length. apply IH in Ex; lia.
  - rewrite E in Ex. discriminate.
Qed.
Lemma sees i l : wshows i l -> l <> [] -> Z.of_nat (length l) <= usize_max /\ holds i l.
Proof. intros [Sh|[_ ->]] N; [|congruence]. split; [exact (shows_small i l Sh)|apply Sh, N]. Qed.
Lemma wnil : wholds (BSI []) [].
Proof. exists []. split; [constructor|reflexivity]. Qed.

Lemma wnext it l o it' : wholds it l -> bsi_next Debug it = Ret (o, it') -> o = hd_error l /\ wholds it' (tl l).
Proof.
  intros (ls & H & ->). unfold bsi_next. intros E. inv_bind E. inv_bind E. injection E as <- <-.
  destruct (wtrim _ _ _ (wshows_lens _ _ H) E0) as (k & -> & C & N). clear E0.
  pose proof (Forall2_skipn _ k _ _ H) as H'.
  rewrite <- C. revert H' N E1. generalize (skipn k (bsi_range_iters it)) (skipn k ls).
  intros its' ls' H' N E1. destruct H' as [|i l its' ls' Hi H'].
  - cbn [on_front] in E1. injection E1 as <-. split; [reflexivity|]. cbn [fst snd concat tl]. apply wnil.
  - destruct (sees i l Hi N) as [Sl Hh]. cbn [on_front concat] in *. inv_bind E1. injection E1 as <-. destruct a as [o i']. cbn [fst snd].
    destruct (next_refines i l o i' Hh E) as [-> K]. rewrite hd_app, tl_app by exact N. split; [reflexivity|].
    exists (tl l :: ls'). split; [|reflexivity]. constructor; [|exact H']. left. apply holds_shows; [exact K|]. pose proof (tl_len l). lia.
Qed.
Lemma rev_rest (l : list T) ls' : concat (rev (rev l :: ls')) = rev (l ++ concat (map (@rev T) ls')).
Proof. cbn [rev]. rewrite rev_app_distr, concat_app. cbn [concat]. rewrite app_nil_r. f_equal. symmetry. apply rev_concat_map. Qed.
Lemma wnext_back it l o it' : wholds it l -> bsi_next_back Debug it = Ret (o, it') ->
  o = hd_error (rev l) /\ wholds it' (rev (tl (rev l))).
Proof.
  intros (ls & H & ->). unfold bsi_next_back. intros E. inv_bind E. inv_bind E. injection E as <- <-.
  destruct (wtrim _ _ _ (wshows_lens_rev _ _ H) E0) as (k & -> & C & N). clear E0.
  pose proof (Forall2_skipn _ k _ _ (Forall2_rev _ _ _ H)) as H'.
  rewrite <- map_skipn' in C, N. rewrite rev_concat, <- C.
  revert H' N E1. generalize (skipn k (rev (bsi_range_iters it))) (skipn k (rev ls)).
  intros its' ls' H' N E1. destruct H' as [|i l its' ls' Hi H'].
  - cbn [on_front] in E1. injection E1 as <-. split; [reflexivity|]. cbn [fst snd map concat tl rev]. apply wnil.
  - cbn [map] in N. assert (N' : l <> []) by (intros ->; apply N; reflexivity).
    destruct (sees i l Hi N') as [Sl Hh]. cbn [on_front map concat] in *. inv_bind E1. injection E1 as <-. destruct a as [o i']. cbn [fst snd].
    destruct (next_back_refines i l o i' Hh E) as [-> K]. rewrite hd_app, tl_app by exact N. split; [reflexivity|].
    exists (rev (rev (tl (rev l)) :: ls')). split; [|rewrite rev_rest; reflexivity]. cbn [bsi_range_iters].
    change (Forall2 wshows (rev (i' :: its')) (rev (rev (tl (rev l)) :: ls'))). apply Forall2_rev. constructor; [|exact H']. left.
    apply holds_shows; [exact K|]. rewrite rev_length. pose proof (tl_len (rev l)). rewrite rev_length in *. lia.
Qed.
Lemma wnth it l n o it' : wholds it l -> 0 <= n <= usize_max -> bsi_nth Debug it n = Ret (o, it') ->
  o = nth_error l (Z.to_nat n) /\ wholds it' (skipn (S (Z.to_nat n)) l).
Proof.
  intros (ls & H & ->) Hn. unfold bsi_nth. intros E. inv_bind E. inv_bind E. injection E as <- <-.
  destruct (wskip _ _ (wshows_lens _ _ H) n _ (proj1 Hn) E0) as (k & n' & -> & B & C & N). clear E0. cbn [fst snd] in E1.
  rewrite nth_error_hd, skipn_S, C.
  pose proof (Forall2_skipn _ k _ _ H) as H'.
  revert H' N E1. generalize (skipn k (bsi_range_iters it)) (skipn k ls).
  intros its' ls' H' N E1. destruct H' as [|i l its' ls' Hi H'].
  - cbn [on_front] in E1. injection E1 as <-. cbn [concat fst snd]. rewrite skipn_nil. split; [reflexivity|apply wnil].
  - assert (Ne : l <> []) by (intros ->; simpl in N; lia). destruct (sees i l Hi Ne) as [Sl Hh].
    cbn [on_front concat] in *. inv_bind E1. injection E1 as <-. destruct a as [o i']. cbn [fst snd].
    assert (Hn2 : 0 <= n' <= usize_max) by lia.
    destruct (nth_refines i l n' o i' Hh Hn2 E) as [-> K].
    rewrite skipn_app_le by lia. pose proof (skipn_nonempty (Z.to_nat n') l ltac:(lia)) as NE.
    rewrite hd_app, tl_app by exact NE. rewrite nth_error_hd. split; [reflexivity|].
    rewrite skipn_S in K. exists (tl (skipn (Z.to_nat n') l) :: ls'). split; [|reflexivity]. constructor; [|exact H']. left.
    apply holds_shows; [exact K|]. pose proof (tl_len (skipn (Z.to_nat n') l)). rewrite skipn_length in *. lia.
Qed.
Lemma wnth_back it l n o it' : wholds it l -> 0 <= n <= usize_max -> bsi_nth_back Debug it n = Ret (o, it') ->
  o = nth_error (rev l) (Z.to_nat n) /\ wholds it' (rev (skipn (S (Z.to_nat n)) (rev l))).
Proof.
  intros (ls & H & ->) Hn. unfold bsi_nth_back. intros E. inv_bind E. inv_bind E. injection E as <- <-.
  destruct (wskip _ _ (wshows_lens_rev _ _ H) n _ (proj1 Hn) E0) as (k & n' & -> & B & C & N). clear E0. cbn [fst snd] in E1.
  rewrite nth_error_hd, skipn_S, rev_concat, C.
  pose proof (Forall2_skipn _ k _ _ (Forall2_rev _ _ _ H)) as H'.
  rewrite <- map_skipn' in *.
  revert H' N E1. generalize (skipn k (rev (bsi_range_iters it))) (skipn k (rev ls)).
  intros its' ls' H' N E1. destruct H' as [|i l its' ls' Hi H'].
  - cbn [on_front] in E1. injection E1 as <-. cbn [map concat fst snd]. rewrite skipn_nil. cbn [hd_error tl rev]. split; [reflexivity|apply wnil].
  - cbn [map] in N. rewrite rev_length in N. assert (Ne : l <> []) by (intros ->; simpl in N; lia). destruct (sees i l Hi Ne) as [Sl Hh].
    cbn [on_front map concat] in *. inv_bind E1. injection E1 as <-. destruct a as [o i']. cbn [fst snd].
    assert (Hn2 : 0 <= n' <= usize_max) by lia.
    destruct (nth_back_refines i l n' o i' Hh Hn2 E) as [-> K].
    rewrite skipn_app_le by (rewrite rev_length; lia).
    assert (NE : skipn (Z.to_nat n') (rev l) <> []) by (apply skipn_nonempty; rewrite rev_length; lia).
    rewrite hd_app, tl_app by exact NE. rewrite nth_error_hd. split; [reflexivity|].
    rewrite skipn_S in K. exists (rev (rev (tl (skipn (Z.to_nat n') (rev l))) :: ls')). split; [|rewrite rev_rest; reflexivity]. cbn [bsi_range_iters].
    change (Forall2 wshows (rev (i' :: its')) (rev (rev (tl (skipn (Z.to_nat n') (rev l))) :: ls'))).
    apply Forall2_rev. constructor; [|exact H']. left. apply holds_shows; [exact K|].
    rewrite rev_length. pose proof (tl_len (skipn (Z.to_nat n') (rev l))). rewrite skipn_length, rev_length in *. lia.
Qed.
Lemma wlen it l n : wholds it l -> bsi_len Debug it = Ret n -> n = Z.of_nat (length l).
Proof.
  intros (ls & H & ->). unfold bsi_len, bsi_size_hint. intros E. inv_bind E. inv_bind E0. injection E0 as <-.
  unfold exact_len in E. cbn [fst snd] in E. rewrite Z.eqb_refl in E. injection E as <-.
  pose proof usize_max_ge. apply (wsum _ _ (wshows_lens _ _ H)) in E1; lia.
Qed.
Lemma wcall it l c rep it' : wholds it l -> call_ok c -> bsi_call Debug it c = Ret (rep, it') ->
  rep = fst (deque_call l c) /\ wholds it' (snd (deque_call l c)).
Proof.
  intros H O E. destruct c; unfold bsi_call, item in E; inv_bind E; injection E as <- <-;
    cbn [deque_call fst snd]; try (destruct a as [o i]; cbn [fst snd]).
  - destruct (wnext it l o i H E0) as [-> ?]. auto.
  - destruct (wnext_back it l o i H E0) as [-> ?]. auto.
  - destruct (wnth it l n o i H O E0) as [-> ?]. auto.
  - destruct (wnth_back it l n o i H O E0) as [-> ?]. auto.
  - rewrite (wlen it l _ H E0). auto.
Qed.
Lemma wrun cs it l reps it' : wholds it l -> Forall call_ok cs -> run (bsi_call Debug) it cs = Ret (reps, it') ->
  reps = fst (deque_run l cs).
Proof.
  revert it l reps; induction cs as [|c cs IH]; intros it l reps H O E; cbn [run deque_run] in *.
  - injection E as <- <-. auto.
  - inv_bind E. inv_bind E. injection E as <- <-. destruct a as [rep i]. destruct a0 as [reps i'].
    inversion O; subst. cbn [fst snd] in *.
    destruct (wcall it l c rep i H H2 E0) as [-> K]. rewrite (IH i (snd (deque_call l c)) reps K H3 E1). reflexivity.
Qed.
(** The pieces of a fresh iterator. *)
Lemma wfresh s it : valid (VBS s) -> bs_into_iter Debug s = Ret it ->
  exists l, wholds it l /\ lists (in_small_pieces (bs_ranges s)) l.
Proof.
  intros [_ P] E. apply into_iter_pieces in E.
  assert (exists ls, Forall2 wshows (bsi_range_iters it) ls /\
    Forall2 (fun r l => lists (fun t => in_range r t /\ small (in_range r)) l) (bs_ranges s) ls) as (ls & H & L).
  { clear P. induction E as [|r i rs its Er E (ls & H & L)].
    - exists []. repeat constructor.
    - destruct (range_shows r i Er) as [(l & Sh & Ll & _)|B].
      + exists (l :: ls). split; constructor; auto. now left.
      + exists ([] :: ls). split; constructor; auto; [right; split; [eapply brimful_len; eassumption|reflexivity]|].
        split; [constructor|]. intros t. split; [intros []|]. intros [_ Sm]. exact (small_not_brimful _ Sm B). }
  exists (concat ls). split; [exists ls; auto|]. apply (pieces_list_where (fun r => small (in_range r))); assumption.
Qed.

(** ** Lower-bounded sets *)
Definition wat (l0 : list T) (c0 : T) (p : Z) (it : LowerBoundedSetIter T) : Prop :=
  0 <= p /\ wholds (lbsi_set_iter it) (skipn (Z.to_nat p) l0) /\
  idx (lbri_current (lbsi_range_iter it)) = idx c0 + Z.max 0 (p - Z.of_nat (length l0)).
Lemma wup l0 c0 p it c o it' : wat l0 c0 p it -> up_call_ok c -> lbsi_call Debug it c = Ret (o, it') ->
  let n := match c with UpNext => 0 | UpNth n => n end in
  exists e, o = Some e /\ enum l0 c0 e (p + n) /\ wat l0 c0 (p + n + 1) it'.
Proof.
  intros (Hp & Hs & Hc) O E. unfold enum, wat. destruct c; cbn [lbsi_call up_call_ok] in *.
  - unfold lbsi_next in E. inv_bind E. destruct a as [o1 it1]. destruct (wnext _ _ _ _ Hs E0) as [-> K]. cbn [fst snd] in E.
    rewrite <- nth_error_hd in E. rewrite <- skipn_S in K. replace (p + 0) with p by lia.
    replace (S (Z.to_nat p)) with (Z.to_nat (p + 1)) in K by lia.
    destruct (nth_error l0 (Z.to_nat p)) as [e|] eqn:NE.
    + injection E as <- <-. exists e. split; [reflexivity|].
      assert (Z.to_nat p < length l0)%nat by (apply nth_error_Some; congruence).
      destruct (p <? Z.of_nat (length l0)) eqn:C; [|lia]. split; [first [exact NE|reflexivity]|]. cbn [lbsi_set_iter lbsi_range_iter].
      repeat split; [lia|exact K|lia].
    + apply nth_error_None in NE. inv_bind E. destruct a as [o' i']. injection E as <- <-. cbn [fst snd].
      destruct (lbri_call_spec _ UpNext o' i' I E1) as (e & -> & He & Hi). exists e. split; [reflexivity|].
      destruct (p <? Z.of_nat (length l0)) eqn:C; [lia|]. cbn [lbsi_set_iter lbsi_range_iter].
      split; [lia|]. repeat split; [lia|exact K|lia].
  - unfold lbsi_nth in E. inv_bind E. inv_bind E. destruct a0 as [o1 i1].
    destruct (wnth _ _ _ _ _ Hs O E1) as [-> K]. cbn [fst snd] in E.
    apply (wlen _ _ _ Hs) in E0. subst a.
    rewrite skipn_length in *.
    assert (NS : forall k j, nth_error (skipn k l0) j = nth_error l0 (k + j)).
    { clear. intros k. induction l0 as [|x l IH] in k |- *; intros j.
      - rewrite skipn_nil. destruct j, (k + _)%nat; reflexivity.
      - destruct k; [reflexivity|]. simpl. apply IH. }
    assert (SS : forall k j, skipn j (skipn k l0) = skipn (k + j) l0).
    { clear. intros k. induction l0 as [|x l IH] in k |- *; intros j.
      - rewrite !skipn_nil. reflexivity.
      - destruct k; [reflexivity|]. cbn [skipn Nat.add]. apply IH. }
    rewrite NS in E. rewrite SS in K.
    replace (Z.to_nat p + Z.to_nat n)%nat with (Z.to_nat (p + n)) in E by lia.
    replace (Z.to_nat p + S (Z.to_nat n))%nat with (Z.to_nat (p + n + 1)) in K by lia.
    destruct (nth_error l0 (Z.to_nat (p + n))) as [e|] eqn:NE.
    + injection E as <- <-. exists e. split; [reflexivity|].
      assert (Z.to_nat (p + n) < length l0)%nat by (apply nth_error_Some; congruence).
      destruct (p + n <? Z.of_nat (length l0)) eqn:C; [|lia]. split; [first [exact NE|reflexivity]|]. cbn [lbsi_set_iter lbsi_range_iter].
      repeat split; [lia|exact K|lia].
    + apply nth_error_None in NE. inv_bind E. inv_bind E. destruct a0 as [o' i']. injection E as <- <-. cbn [fst snd].
      unfold usize_sub in E0. destruct (0 <=? n - Z.of_nat (length l0 - Z.to_nat p)) eqn:D; [|lia]. injection E0 as <-.
      destruct (lbri_call_spec _ (UpNth (n - Z.of_nat (length l0 - Z.to_nat p))) o' i' ltac:(cbn [up_call_ok]; lia) E2)
        as (e & -> & He & Hi). exists e. split; [reflexivity|].
      destruct (p + n <? Z.of_nat (length l0)) eqn:C; [lia|]. cbn [lbsi_set_iter lbsi_range_iter].
      split; [lia|]. repeat split; [lia|exact K|lia].
Qed.
Lemma wup_run l0 c0 cs p it reps it' : wat l0 c0 p it -> Forall up_call_ok cs ->
  run (lbsi_call Debug) it cs = Ret (reps, it') ->
  Forall2 (fun o q => exists e, o = Some e /\ enum l0 c0 e q) reps (positions p cs).
Proof.
  revert p it reps. induction cs as [|c cs IH]; intros p it reps A O E; cbn [run positions] in *.
  - injection E as <- <-. constructor.
  - inversion O; subst. inv_bind E. inv_bind E. injection E as <- <-. destruct a as [o i]. destruct a0 as [reps i'].
    destruct (wup l0 c0 p it c o i A H1 E0) as (e & -> & En & A'). cbn [fst snd] in *.
    specialize (IH _ _ _ A' H2 E1). destruct c; cbn [positions].
    + rewrite Z.add_0_r in *. constructor; eauto.
    + constructor; eauto.
Qed.
Lemma lbs_history_complete s it cs reps it' : valid (VLBS s) -> lbs_into_iter Debug s = Ret it -> Forall up_call_ok cs ->
  run (lbsi_call Debug) it cs = Ret (reps, it') ->
  Forall2 (fun o q => exists e, o = Some e /\
    ranked (fun t => in_small_pieces (bs_ranges (lbs_ranges s)) t \/ above (lbr_start (lbs_lbr s)) t) e q) reps (positions 0 cs).
Proof.
  intros [V Pr] E O R. unfold lbs_into_iter in E. inv_bind E. inv_bind E. injection E as <-.
  destruct (wfresh (lbs_ranges s) a V E0) as (l & H & L). pose proof (lbr_into_iter_spec _ _ E1) as P.
  assert (B : forall t, in_small_pieces (bs_ranges (lbs_ranges s)) t -> idx t < idx (lbri_current a0)).
  { intros t (r & I & J & _). apply Pr in I.
    assert (~ idx (lbri_current a0) <= idx t); [|lia]. intros G. apply P in G.
    destruct J as [_ J]. revert G. destruct (br_end r) as [[e|e]], (lbr_start (lbs_lbr s)) as [[u|u]];
      cbn [precedes above below] in *; rewrite ?lt_idx, ?le_idx in *; lia. }
  assert (At : wat l (lbri_current a0) 0 (LBSI a a0)) by (repeat split; [lia|exact H|cbn [lbsi_range_iter]; lia]).
  pose proof (wup_run l (lbri_current a0) cs 0 _ reps it' At O R) as F.
  pose proof (positions_nonneg 0 cs ltac:(lia) O) as N. clear R O. revert N.
  induction F as [|o q os qs (e & -> & He) F IH]; intros N; constructor.
  - exists e. split; [reflexivity|]. inversion N; subst. eapply ranked_enum; [exact L| |exact B|assumption|exact He].
    intros t. cbn beta. rewrite P. reflexivity.
  - apply IH. inversion N; assumption.
Qed.
End Brim2.
