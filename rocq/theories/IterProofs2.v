(** The set iterators. *)
From Coq Require Import Lia ZifyBool Sorted.
From Verif Require Import Base ModelBound ModelRanges ModelSets ModelValue ModelStep ModelIter
  Spec SpecStep SpecIter StepProofs StepLemmas IterProofs.
Open Scope Z_scope.

(** ** Lists *)
Lemma Forall2_skipn {A B} (R : A -> B -> Prop) k l1 l2 : Forall2 R l1 l2 -> Forall2 R (skipn k l1) (skipn k l2).
Proof. intros H. revert k. induction H; intros [|k]; simpl; auto. Qed.
Lemma Forall_skipn {A} (R : A -> Prop) k l : Forall R l -> Forall R (skipn k l).
Proof. intros H. revert k. induction H; intros [|k]; simpl; auto. Qed.
Lemma Forall2_rev {A B} (R : A -> B -> Prop) l1 l2 : Forall2 R l1 l2 -> Forall2 R (rev l1) (rev l2).
Proof. induction 1; simpl; auto. apply Forall2_app; auto. Qed.
Lemma Forall_rev' {A} (R : A -> Prop) l : Forall R l -> Forall R (rev l).
Proof. induction 1; simpl; auto. apply Forall_app; auto. Qed.
Lemma Forall2_impl {A B} (R Q : A -> B -> Prop) l1 l2 : (forall a b, R a b -> Q a b) -> Forall2 R l1 l2 -> Forall2 Q l1 l2.
Proof. intros I. induction 1; auto. Qed.
Lemma rev_concat {A} (l : list (list A)) : rev (concat l) = concat (map (@rev A) (rev l)).
Proof.
  induction l as [|x l IH]; simpl; [reflexivity|].
  rewrite rev_app_distr, map_app, concat_app, IH. simpl. rewrite app_nil_r. reflexivity.
Qed.

Lemma rev_concat_map {A} (l : list (list A)) : rev (concat (map (@rev A) l)) = concat (rev l).
Proof.
  rewrite rev_concat, map_rev, map_map. do 2 f_equal. rewrite <- (map_id l) at 2.
  apply map_ext. intros a. apply rev_involutive.
Qed.

Section Bsi.
Context {T : Type} {PF : Platform} {OT : Ord T} {ST : Step T} {NU : Numbered T} {SL : StepLaws T}.

Definition lens_ok (its : list (BoundedRangeIter T)) (ls : list (list T)) : Prop :=
  Forall2 (fun it l => bri_len Debug it = Ret (Z.of_nat (length l))) its ls.

(** The elements of a piece that the set iterator gets to see: all of them, or
    none when there are so many that [len] is 0. *)
Definition shows (it : BoundedRangeIter T) (l : list T) : Prop :=
  bri_len Debug it = Ret (Z.of_nat (length l)) /\ (l <> [] -> holds it l).
Lemma holds_shows it l : holds it l -> Z.of_nat (length l) <= usize_max -> shows it l.
Proof. intros H S. split; [apply len_small; assumption|auto]. Qed.
Lemma shows_small it l : shows it l -> Z.of_nat (length l) <= usize_max.
Proof.
  intros [E H]. pose proof usize_max_ge. destruct l as [|x l]; [simpl; lia|].
  rewrite (len_spec it (x :: l)) in E by (apply H; discriminate).
  destruct (_ <=? _) eqn:C in E; [lia|]. destruct (_ =? _) in E; [discriminate|]. injection E as E. simpl in *. lia.
Qed.

Lemma shows_lens its ls : Forall2 shows its ls -> lens_ok its ls.
Proof. apply Forall2_impl. intros i l [E _]. exact E. Qed.
Lemma shows_lens_rev its ls : Forall2 shows its ls -> lens_ok (rev its) (map (@rev T) (rev ls)).
Proof.
  intros H. pose proof (shows_lens its ls H) as L. apply Forall2_rev in L.
  clear - L. unfold lens_ok in *. induction L; simpl; constructor; auto. rewrite rev_length. exact H.
Qed.

Lemma trim_spec its ls : lens_ok its ls ->
  exists k, trim Debug its = Ret (skipn k its) /\ concat (skipn k ls) = concat ls /\
    match skipn k ls with [] => True | l :: _ => l <> [] end.
Proof.
  induction 1 as [|i l its ls E L IH].
  - exists O. simpl. auto.
  - cbn [trim]. rewrite E. cbn [bind]. destruct (Z.of_nat (length l) =? 0) eqn:C.
    + destruct l; [|simpl in C; lia]. destruct IH as (k & E1 & E2 & E3). exists (S k). auto.
    + exists O. repeat split; auto. simpl. intros ->. simpl in C. lia.
Qed.
Lemma skip_spec its ls : lens_ok its ls -> forall n, 0 <= n ->
  exists k n', skip Debug its n = Ret (skipn k its, n') /\ 0 <= n' <= n /\
    skipn (Z.to_nat n) (concat ls) = skipn (Z.to_nat n') (concat (skipn k ls)) /\
    match skipn k ls with [] => True | l :: _ => n' < Z.of_nat (length l) end.
Proof.
  induction 1 as [|i l its ls E L IH]; intros n Hn.
  - exists O, n. repeat split; auto; lia.
  - cbn [skip]. rewrite E. cbn [bind]. destruct (Z.of_nat (length l) <=? n) eqn:C.
    + destruct (IH (n - Z.of_nat (length l))) as (k & n' & E1 & B & E2 & E3); [lia|].
      exists (S k), n'. repeat split; auto; try lia. cbn [concat skipn].
      rewrite <- E2, skipn_app, skipn_all2 by lia. simpl. f_equal. lia.
    + exists O, n. repeat split; auto; try lia. cbn [skipn]. lia.
Qed.
Lemma total_length (ls : list (list T)) :
  Z.of_nat (length (concat ls)) = fold_right (fun l a => Z.of_nat (length l) + a) 0 ls.
Proof. induction ls; simpl; [reflexivity|]. rewrite app_length. lia. Qed.
Lemma sum_spec its ls : lens_ok its ls -> forall acc, 0 <= acc <= usize_max ->
  sum_lens Debug its acc =
  if acc + Z.of_nat (length (concat ls)) <=? usize_max then Ret (acc + Z.of_nat (length (concat ls))) else Panic.
Proof.
  induction 1 as [|i l its ls E L IH]; intros acc Ha; cbn [sum_lens concat].
  - simpl. rewrite Z.add_0_r. destruct (acc <=? usize_max) eqn:C; [reflexivity|lia].
  - rewrite E. cbn [bind]. unfold usize_add. rewrite app_length, Nat2Z.inj_add.
    destruct (acc + Z.of_nat (length l) <=? usize_max) eqn:C; cbn [bind].
    + rewrite IH by lia. rewrite !Z.add_assoc. reflexivity.
    + destruct (acc + (Z.of_nat (length l) + Z.of_nat (length (concat ls))) <=? usize_max) eqn:D; [lia|reflexivity].
Qed.

Ltac nonempty Hi N :=
  match type of Hi with ?l <> [] -> _ =>
    let E := fresh in
    assert (E : l <> []) by (intros ->; first [congruence | simpl in N; congruence | simpl in N; lia]);
    specialize (Hi E); clear E
  end.

(** The elements a set iterator still shows. *)
Definition holds_set (it : BoundedSetIter T) (l : list T) : Prop :=
  exists ls, Forall2 shows (bsi_range_iters it) ls /\ l = concat ls.

Lemma hd_app {A} (l k : list A) : l <> [] -> hd_error (l ++ k) = hd_error l.
Proof. destruct l; [congruence|reflexivity]. Qed.
Lemma tl_app {A} (l k : list A) : l <> [] -> tl (l ++ k) = tl l ++ k.
Proof. destruct l; [congruence|reflexivity]. Qed.
Lemma tl_len {A} (l : list A) : (length (tl l) <= length l)%nat.
Proof. destruct l; simpl; lia. Qed.
Lemma rev_nil {A} (l : list A) : l <> [] -> rev l <> [].
Proof. intros H E. apply H. rewrite <- (rev_involutive l), E. reflexivity. Qed.

(** [next], in debug: reply, new contents, and when it panics. *)
Lemma bsi_next_cases it l : holds_set it l ->
  (exists it', bsi_next Debug it = Ret (hd_error l, it') /\ holds_set it' (tl l) /\
     (forall x l', l = x :: l' -> ~ greatest x)) \/
  (bsi_next Debug it = Panic /\ exists x l', l = x :: l' /\ greatest x).
Proof.
  intros (ls & H & ->). unfold bsi_next.
  destruct (trim_spec _ _ (shows_lens _ _ H)) as (k & -> & C & N). cbn [bind].
  pose proof (Forall2_skipn _ k _ _ H) as H'.
  rewrite <- C. revert H' N. generalize (skipn k (bsi_range_iters it)) (skipn k ls).
  intros its' ls' H' N. destruct H' as [|i l its' ls' Hi H'].
  - left. exists (BSI []). split; [reflexivity|]. split; [exists []; repeat split; constructor|discriminate].
  - pose proof (shows_small i l Hi) as Sl. destruct Hi as [_ Hi]. nonempty Hi N. cbn [on_front concat].
    destruct (bri_next Debug i) as [[o i']| |] eqn:E.
    + left. destruct (next_refines i l o i' Hi E) as [-> K]. cbn [bind fst snd].
      exists (BSI (i' :: its')). rewrite hd_app, tl_app by exact N. split; [reflexivity|]. split.
      * exists (tl l :: ls'). cbn [bsi_range_iters concat]. repeat split; auto.
        constructor; auto. apply holds_shows; [exact K|]. pose proof (tl_len l). lia.
      * intros x l' E2 G. assert (P : bri_next Debug i = Panic); [|congruence].
        apply (next_panics i l Hi). destruct l as [|y l0]; [congruence|]. injection E2 as -> _. eauto.
    + right. split; [reflexivity|]. apply (next_panics i l Hi) in E. destruct E as (x & l0 & -> & G).
      simpl. eauto.
    + exfalso. exact (next_not_diverge _ E).
Qed.
Lemma bsi_next_back_cases it l : holds_set it l ->
  (exists it', bsi_next_back Debug it = Ret (hd_error (rev l), it') /\ holds_set it' (rev (tl (rev l))) /\
     (forall x l', rev l = x :: l' -> ~ least x)) \/
  (bsi_next_back Debug it = Panic /\ exists x l', rev l = x :: l' /\ least x).
Proof.
  intros (ls & H & ->). unfold bsi_next_back.
  destruct (trim_spec _ _ (shows_lens_rev _ _ H)) as (k & -> & C & N). cbn [bind].
  pose proof (Forall2_skipn _ k _ _ (Forall2_rev _ _ _ H)) as H'.
  rewrite <- map_skipn' in C, N. rewrite rev_concat, <- C.
  revert H' N. generalize (skipn k (rev (bsi_range_iters it))) (skipn k (rev ls)).
  intros its' ls' H' N. destruct H' as [|i l its' ls' Hi H'].
  - left. exists (BSI []). split; [reflexivity|]. split; [exists []; repeat split; constructor|discriminate].
  - pose proof (shows_small i l Hi) as Sl. destruct Hi as [_ Hi]. nonempty Hi N. cbn [on_front map concat] in *.
    assert (N' : l <> []) by (intros ->; apply N; reflexivity).
    destruct (bri_next_back Debug i) as [[o i']| |] eqn:E.
    + left. destruct (next_back_refines i l o i' Hi E) as [-> K]. cbn [bind fst snd].
      exists (BSI (rev (i' :: its'))). rewrite hd_app, tl_app by exact N. split; [reflexivity|]. split.
      * exists (rev (rev (tl (rev l)) :: ls')). cbn [bsi_range_iters]. repeat split.
        -- apply Forall2_rev. constructor; auto. apply holds_shows; [exact K|].
           rewrite rev_length. pose proof (tl_len (rev l)). rewrite rev_length in *. lia.
        -- cbn [rev]. rewrite rev_app_distr, concat_app. cbn [concat]. rewrite app_nil_r. f_equal.
           apply rev_concat_map.
      * intros x l' E2 G. assert (P : bri_next_back Debug i = Panic); [|congruence].
        apply (next_back_panics i l Hi). destruct (rev l) as [|y l0]; [congruence|]. injection E2 as -> _. eauto.
    + right. split; [reflexivity|]. apply (next_back_panics i l Hi) in E. destruct E as (x & l0 & -> & G).
      simpl. eauto.
    + exfalso. exact (next_back_not_diverge _ E).
Qed.

Lemma skipn_app_le {A} n (l k : list A) : (n <= length l)%nat -> skipn n (l ++ k) = skipn n l ++ k.
Proof. intros H. rewrite skipn_app. replace (n - length l)%nat with O by lia. reflexivity. Qed.
Lemma skipn_nonempty {A} n (l : list A) : (n < length l)%nat -> skipn n l <> [].
Proof. intros H E. apply (f_equal (@length A)) in E. rewrite skipn_length in E. simpl in E. lia. Qed.

Lemma bsi_nth_refines it l n o it' : holds_set it l -> 0 <= n <= usize_max -> bsi_nth Debug it n = Ret (o, it') ->
  o = nth_error l (Z.to_nat n) /\ holds_set it' (skipn (S (Z.to_nat n)) l).
Proof.
  intros (ls & H & ->) Hn. unfold bsi_nth.
  destruct (skip_spec _ _ (shows_lens _ _ H) n) as (k & n' & -> & B & C & N); [lia|]. cbn [bind fst snd].
  rewrite nth_error_hd, skipn_S, C.
  pose proof (Forall2_skipn _ k _ _ H) as H'.
  revert H' N. generalize (skipn k (bsi_range_iters it)) (skipn k ls).
  intros its' ls' H' N E. destruct H' as [|i l its' ls' Hi H'].
  - cbn [on_front bind fst snd] in E. injection E as <- <-. cbn [concat]. rewrite skipn_nil. cbn [hd_error tl].
    split; [reflexivity|]. exists []; repeat split; constructor.
  - pose proof (shows_small i l Hi) as Sl. destruct Hi as [_ Hi]. nonempty Hi N. cbn [on_front concat] in *. inv_bind E. inv_bind E0.
    destruct a0 as [o0 i']. injection E0 as <-. injection E as <- <-. cbn [fst snd].
    assert (Hn' : 0 <= n' <= usize_max) by lia.
    destruct (nth_refines i l n' o0 i' Hi Hn' E1) as [-> K].
    rewrite skipn_app_le by lia. pose proof (skipn_nonempty (Z.to_nat n') l ltac:(lia)) as NE.
    rewrite hd_app, tl_app by exact NE. rewrite nth_error_hd. split; [reflexivity|].
    rewrite skipn_S in K. exists (tl (skipn (Z.to_nat n') l) :: ls'). cbn [bsi_range_iters concat]. repeat split; auto.
    constructor; auto. apply holds_shows; [exact K|]. pose proof (tl_len (skipn (Z.to_nat n') l)). rewrite skipn_length in *. lia.
Qed.
Lemma bsi_nth_back_refines it l n o it' : holds_set it l -> 0 <= n <= usize_max -> bsi_nth_back Debug it n = Ret (o, it') ->
  o = nth_error (rev l) (Z.to_nat n) /\ holds_set it' (rev (skipn (S (Z.to_nat n)) (rev l))).
Proof.
  intros (ls & H & ->) Hn. unfold bsi_nth_back.
  destruct (skip_spec _ _ (shows_lens_rev _ _ H) n) as (k & n' & -> & B & C & N); [lia|]. cbn [bind fst snd].
  rewrite nth_error_hd, skipn_S, rev_concat, C.
  pose proof (Forall2_skipn _ k _ _ (Forall2_rev _ _ _ H)) as H'.
  rewrite <- map_skipn' in *.
  revert H' N. generalize (skipn k (rev (bsi_range_iters it))) (skipn k (rev ls)).
  intros its' ls' H' N E. destruct H' as [|i l its' ls' Hi H'].
  - cbn [on_front bind fst snd rev] in E. injection E as <- <-. cbn [map concat]. rewrite skipn_nil. cbn [hd_error tl rev].
    split; [reflexivity|]. exists []; repeat split; constructor.
  - pose proof (shows_small i l Hi) as Sl. destruct Hi as [_ Hi]. nonempty Hi N. cbn [on_front map concat] in *. inv_bind E. inv_bind E0.
    destruct a0 as [o0 i']. injection E0 as <-. injection E as <- <-. cbn [fst snd].
    rewrite rev_length in N.
    assert (Hn' : 0 <= n' <= usize_max) by lia.
    destruct (nth_back_refines i l n' o0 i' Hi Hn' E1) as [-> K].
    rewrite skipn_app_le by (rewrite rev_length; lia).
    assert (NE : skipn (Z.to_nat n') (rev l) <> []) by (apply skipn_nonempty; rewrite rev_length; lia).
    rewrite hd_app, tl_app by exact NE. rewrite nth_error_hd. split; [reflexivity|].
    rewrite skipn_S in K. exists (rev (rev (tl (skipn (Z.to_nat n') (rev l))) :: ls')). cbn [bsi_range_iters]. repeat split.
    + change (Forall2 shows (rev (i' :: its')) (rev (rev (tl (skipn (Z.to_nat n') (rev l))) :: ls'))).
      apply Forall2_rev. constructor; auto. apply holds_shows; [exact K|]. rewrite rev_length. pose proof (tl_len (skipn (Z.to_nat n') (rev l))).
      rewrite skipn_length, rev_length in *. lia.
    + cbn [rev]. rewrite rev_app_distr, concat_app. cbn [concat]. rewrite app_nil_r. f_equal.
      apply rev_concat_map.
Qed.
Lemma bsi_len_spec it l : holds_set it l ->
  bsi_len Debug it = if Z.of_nat (length l) <=? usize_max then Ret (Z.of_nat (length l)) else Panic.
Proof.
  intros (ls & H & ->). unfold bsi_len, bsi_size_hint. pose proof usize_max_ge.
  rewrite (sum_spec _ _ (shows_lens _ _ H)) by lia. rewrite Z.add_0_l.
  destruct (Z.of_nat (length (concat ls)) <=? usize_max); cbn [bind]; [|reflexivity].
  unfold exact_len. cbn [fst snd]. rewrite Z.eqb_refl. reflexivity.
Qed.

Lemma bsi_call_refines it l c rep it' : holds_set it l -> call_ok c -> bsi_call Debug it c = Ret (rep, it') ->
  rep = fst (deque_call l c) /\ holds_set it' (snd (deque_call l c)).
Proof.
  intros H O E. destruct c; unfold bsi_call, item in E; inv_bind E; injection E as <- <-;
    cbn [deque_call fst snd]; try (destruct a as [o i]; cbn [fst snd]).
  - destruct (bsi_next_cases it l H) as [(it1 & E & K & _)|[E _]]; [|congruence].
    rewrite E in E0. injection E0 as <- <-. auto.
  - destruct (bsi_next_back_cases it l H) as [(it1 & E & K & _)|[E _]]; [|congruence].
    rewrite E in E0. injection E0 as <- <-. auto.
  - destruct (bsi_nth_refines it l n o i H O E0) as [-> ?]. auto.
  - destruct (bsi_nth_back_refines it l n o i H O E0) as [-> ?]. auto.
  - rewrite (bsi_len_spec it l H) in E0. destruct (_ <=? _); [|discriminate]. injection E0 as <-. auto.
Qed.
Lemma bsi_run_refines cs it l reps it' : holds_set it l -> Forall call_ok cs ->
  run (bsi_call Debug) it cs = Ret (reps, it') ->
  reps = fst (deque_run l cs) /\ holds_set it' (snd (deque_run l cs)).
Proof.
  revert it l reps; induction cs as [|c cs IH]; intros it l reps H O E; cbn [run deque_run] in *.
  - injection E as <- <-. auto.
  - inv_bind E. inv_bind E. injection E as <- <-. destruct a as [rep i]. destruct a0 as [reps i'].
    inversion O; subst. cbn [fst snd] in *.
    destruct (bsi_call_refines it l c rep i H H2 E0) as [-> K].
    destruct (IH i (snd (deque_call l c)) reps K H3 E1) as [-> K']. auto.
Qed.

(** ** Totality away from the extremes *)
Lemma bsi_nth_total it l n : holds_set it l -> 0 <= n <= usize_max ->
  (forall t, In t l -> ~ greatest t) -> exists x, bsi_nth Debug it n = Ret x.
Proof.
  intros (ls & H & ->) Hn G. unfold bsi_nth.
  destruct (skip_spec _ _ (shows_lens _ _ H) n) as (k & n' & -> & B & C & N); [lia|]. cbn [bind fst snd].
  assert (G' : forall t, In t (concat (skipn k ls)) -> ~ greatest t).
  { intros t I. apply G. rewrite <- (firstn_skipn k ls), concat_app. apply in_or_app. now right. }
  pose proof (Forall2_skipn _ k _ _ H) as H'.
  revert H' G' N. generalize (skipn k (bsi_range_iters it)) (skipn k ls).
  intros its' ls' H' G' N. destruct H' as [|i l its' ls' Hi H']; cbn [on_front bind]; [eauto|].
  destruct Hi as [_ Hi]. nonempty Hi N.
  cbn [concat] in G'.
  destruct (nth_total i l n' Hi) as [x ->]; [lia|lia| |cbn [bind]; eauto].
  intros t I. apply G'. apply in_or_app. now left.
Qed.
Lemma bsi_nth_back_total it l n : holds_set it l -> 0 <= n <= usize_max ->
  (forall t, In t l -> ~ least t) -> exists x, bsi_nth_back Debug it n = Ret x.
Proof.
  intros (ls & H & ->) Hn G. unfold bsi_nth_back.
  destruct (skip_spec _ _ (shows_lens_rev _ _ H) n) as (k & n' & -> & B & C & N); [lia|]. cbn [bind fst snd].
  assert (G' : forall t, In t (concat (skipn k (rev ls))) -> ~ least t).
  { intros t I. apply G. apply in_concat in I. destruct I as (x & I & J). apply in_skipn, in_rev in I.
    apply in_concat. eauto. }
  pose proof (Forall2_skipn _ k _ _ (Forall2_rev _ _ _ H)) as H'.
  rewrite <- map_skipn' in *.
  revert H' G' N. generalize (skipn k (rev (bsi_range_iters it))) (skipn k (rev ls)).
  intros its' ls' H' G' N. destruct H' as [|i l its' ls' Hi H']; cbn [on_front bind]; [eauto|].
  destruct Hi as [_ Hi]. nonempty Hi N.
  cbn [concat map] in *. rewrite rev_length in N.
  destruct (nth_back_total i l n' Hi) as [x ->]; [lia|lia| |cbn [bind]; eauto].
  intros t I. apply G'. apply in_or_app. now left.
Qed.
(** Unlike for ranges, [nth] past the end is harmless here. *)
Lemma bsi_run_total cs it l : holds_set it l -> (forall t, In t l -> ~ greatest t /\ ~ least t) ->
  Z.of_nat (length l) <= usize_max -> Forall call_ok cs -> exists x, run (bsi_call Debug) it cs = Ret x.
Proof.
  revert it l. induction cs as [|c cs IH]; intros it l H G S O; cbn [run]; [eauto|].
  inversion O; subst.
  assert (exists x, bsi_call Debug it c = Ret x) as [[rep it'] E].
  { destruct c; cbn [bsi_call]; unfold item.
    - destruct (bsi_next_cases it l H) as [(it1 & -> & _)|[_ (x & l' & -> & K)]]; [cbn [bind]; eauto|].
      exfalso. apply (proj1 (G x (or_introl eq_refl))). exact K.
    - destruct (bsi_next_back_cases it l H) as [(it1 & -> & _)|[_ (x & l' & R & K)]]; [cbn [bind]; eauto|].
      exfalso. assert (I : In x l) by (rewrite in_rev, R; now left). exact (proj2 (G x I) K).
    - destruct (bsi_nth_total it l n H) as [x ->]; [assumption|firstorder|]. cbn [bind]. eauto.
    - destruct (bsi_nth_back_total it l n H) as [x ->]; [assumption|firstorder|]. cbn [bind]. eauto.
    - rewrite (bsi_len_spec it l H). destruct (_ <=? _) eqn:C; [cbn [bind]; eauto|lia]. }
  rewrite E. cbn [bind fst snd].
  destruct (bsi_call_refines it l c rep it' H H2 E) as [-> K].
  destruct (IH it' (snd (deque_call l c)) K) as [x ->].
  - intros t I. apply G. eapply deque_call_in. exact I.
  - pose proof (deque_call_length l c). lia.
  - assumption.
  - cbn [bind]. eauto.
Qed.

(** ** Draining *)
Lemma bsi_drains l it : holds_set it l ->
  ((forall t, In t l -> ~ greatest t) -> drains (bsi_next Debug) it (Ret l)) /\
  ((exists t, In t l /\ greatest t) -> drains (bsi_next Debug) it Panic).
Proof.
  revert it. induction l as [|x l IH]; intros it H;
    destruct (bsi_next_cases it _ H) as [(it' & E & K & G)|[E (y & l' & EQ & G)]].
  - split; [intros _; eapply drains_done; exact E | intros (t & [] & _)].
  - discriminate.
  - cbn [tl hd_error] in *. destruct (IH it' K) as [I1 I2]. split.
    + intros G'. eapply (drains_item _ it it' x (Ret l) E). apply I1. intros t I. apply G'. now right.
    + intros (t & [->|I] & Gt); [exfalso; exact (G t l eq_refl Gt)|].
      change (@Panic (list T)) with (k <- @Panic (list T) ;; Ret (x :: k)).
      eapply drains_item; [exact E|]. apply I2. eauto.
  - injection EQ as <- <-. split.
    + intros G'. exfalso. apply (G' x); [now left|exact G].
    + intros _. apply drains_panic. exact E.
Qed.
Lemma bsi_drains_back l it : holds_set it (rev l) ->
  ((forall t, In t l -> ~ least t) -> drains (bsi_next_back Debug) it (Ret l)) /\
  ((exists t, In t l /\ least t) -> drains (bsi_next_back Debug) it Panic).
Proof.
  revert it. induction l as [|x l IH]; intros it H;
    destruct (bsi_next_back_cases it _ H) as [(it' & E & K & G)|[E (y & l' & EQ & G)]];
    rewrite rev_involutive in *.
  - split; [intros _; eapply drains_done; exact E | intros (t & [] & _)].
  - discriminate.
  - cbn [tl hd_error] in *. destruct (IH it' K) as [I1 I2]. split.
    + intros G'. eapply (drains_item _ it it' x (Ret l) E). apply I1. intros t I. apply G'. now right.
    + intros (t & [->|I] & Gt); [exfalso; exact (G t l eq_refl Gt)|].
      change (@Panic (list T)) with (k <- @Panic (list T) ;; Ret (x :: k)).
      eapply drains_item; [exact E|]. apply I2. eauto.
  - injection EQ as <- <-. split.
    + intros G'. exfalso. apply (G' x); [now left|exact G].
    + intros _. apply drains_panic. exact E.
Qed.

(** ** last *)
Lemma sorted_last (l : list T) x r t : StronglySorted lt l -> rev l = x :: r -> In t l -> idx t <= idx x.
Proof.
  intros S R. assert (E : l = rev r ++ [x]) by (rewrite <- (rev_involutive l), R; reflexivity).
  subst l. clear R. induction (rev r) as [|y k IH]; simpl in *.
  - intros [->|[]]. lia.
  - inversion S as [|? ? S' F]; subst. intros [->|I]; [|apply IH; assumption].
    rewrite Forall_forall in F. specialize (F x). rewrite lt_idx in F.
    assert (In x (k ++ [x])) by (apply in_or_app; simpl; auto). specialize (F H). lia.
Qed.
Lemma bsi_last_spec it l : holds_set it l -> StronglySorted lt l ->
  ((forall t, In t l -> ~ greatest t) -> bsi_last Debug it (Ret (hd_error (rev l)))) /\
  ((exists t, In t l /\ greatest t) -> bsi_last Debug it Panic).
Proof.
  intros (ls & H & ->) Srt. unfold bsi_last.
  assert (Lst : forall x r t, rev (concat ls) = x :: r -> In t (concat ls) -> idx t <= idx x)
    by (intros x r t; apply sorted_last; exact Srt).
  rewrite rev_concat in Lst.
  destruct (trim_spec _ _ (shows_lens_rev _ _ H)) as (k & -> & C & N).
  pose proof (Forall2_skipn _ k _ _ (Forall2_rev _ _ _ H)) as H'.
  rewrite <- map_skipn' in C, N. rewrite rev_concat, <- C. rewrite <- C in Lst.
  assert (M : forall t, In t (concat ls) <-> In t (concat (skipn k (rev ls)))).
  { intros t. rewrite (in_rev (concat ls)), rev_concat, <- C, !in_concat.
    setoid_rewrite in_map_iff. split.
    - intros (x & (y & <- & I) & J). exists y. split; [exact I|]. apply in_rev. exact J.
    - intros (y & I & J). exists (rev y). split; [eauto|]. apply in_rev. rewrite rev_involutive. exact J. }
  setoid_rewrite M. setoid_rewrite M in Lst. clear M C.
  revert H' N Lst. generalize (skipn k (rev (bsi_range_iters it))) (skipn k (rev ls)).
  intros its' ls' H' N Lst. destruct H' as [|i l its' ls' Hi H'].
  - split; [intros _; reflexivity|]. intros (t & [] & _).
  - destruct Hi as [_ Hi]. nonempty Hi N. cbn [map concat] in *. destruct (drains_forward l i Hi) as [D1 D2]. split.
    + intros G. exists (Ret l). split.
      * apply D1. intros t I. apply G. apply in_or_app. now left.
      * cbn [bind]. unfold vd_back. rewrite hd_app by exact N.
        unfold vd_front, hd_error. reflexivity.
    + intros (t & I & Gt). exists Panic. split; [|reflexivity]. apply D2.
      destruct (rev l) as [|x r] eqn:R; [congruence|].
      assert (L : In x l) by (apply in_rev; rewrite R; now left).
      exists x. split; [exact L|]. specialize (Lst x (r ++ concat (map (@rev T) ls')) t eq_refl I).
      intros u. specialize (Gt u). apply le_idx. apply le_idx in Gt. lia.
Qed.

End Bsi.
