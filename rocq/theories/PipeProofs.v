(** Double-ended adaptors over iterators that behave as double-ended queues. *)
From Coq Require Import Lia ZifyBool.
From Verif Require Import Base ModelBound ModelRanges ModelSets ModelValue ModelStep ModelIter ModelPipe
  Spec Reach SpecStep SpecIter SpecPipe StepProofs StepLemmas IterProofs IterProofs2 IterLemmas.
Open Scope Z_scope.

Section Lists.
Context {A : Type}.
Implicit Types l k : list A.

Lemma skipn_nil_ge n l : (length l <= n)%nat -> skipn n l = [].
Proof. apply skipn_all2. Qed.
Lemma nth_error_hd' l n : nth_error l n = hd_error (skipn n l).
Proof. revert n. induction l as [|x l IH]; intros [|n]; cbn; auto. Qed.
Lemma skipn_S' l n : skipn (S n) l = tl (skipn n l).
Proof. revert n; induction l as [|x l IH]; intros [|n]; cbn in *; auto. Qed.
Lemma rev_skipn_rev n l : rev (skipn n (rev l)) = firstn (length l - n) l.
Proof. rewrite skipn_rev, rev_involutive. reflexivity. Qed.
Lemma nth_error_rev l n : (n < length l)%nat -> nth_error (rev l) n = nth_error l (length l - S n).
Proof.
  intros H. rewrite <- (rev_involutive l) at 2. set (k := rev l). assert (L : length k = length l) by apply rev_length.
  rewrite <- L. clearbody k. rewrite <- L in H. clear L. revert n H. induction k as [|x k IH]; intros n H; cbn [length] in *; [lia|].
  destruct n as [|n].
  - replace (S (length k) - 1)%nat with (length (rev k)) by (rewrite rev_length; lia). cbn [rev]. rewrite nth_error_app2, Nat.sub_diag by lia. reflexivity.
  - cbn [rev nth_error]. rewrite nth_error_app1 by (rewrite rev_length; lia). rewrite IH by lia. f_equal.
Qed.
Lemma numbered_length c l : length (numbered c l) = length l.
Proof. revert c; induction l as [|x l IH]; intros c; cbn; auto. Qed.
Lemma numbered_skipn c l n : (n <= length l)%nat -> skipn n (numbered c l) = numbered (c + Z.of_nat n) (skipn n l).
Proof.
  revert c n; induction l as [|x l IH]; intros c [|n] H; cbn [skipn numbered length] in *; rewrite ?Z.add_0_r; auto; try lia.
  rewrite IH by lia. f_equal. lia.
Qed.
Lemma numbered_firstn c l n : firstn n (numbered c l) = numbered c (firstn n l).
Proof. revert c n; induction l as [|x l IH]; intros c [|n]; cbn; auto. f_equal. apply IH. Qed.
Lemma numbered_nth c l n : nth_error (numbered c l) n = option_map (fun a => (c + Z.of_nat n, a)) (nth_error l n).
Proof.
  revert c n; induction l as [|x l IH]; intros c [|n]; cbn [numbered nth_error option_map]; auto.
  - rewrite Z.add_0_r. reflexivity.
  - rewrite IH. destruct (nth_error l n); cbn; auto. do 2 f_equal. lia.
Qed.
Lemma combine_skipn {B} n l (k : list B) : skipn n (combine l k) = combine (skipn n l) (skipn n k).
Proof. revert l k; induction n as [|n IH]; intros [|x l] [|y k]; cbn; auto. destruct (skipn n l); reflexivity. Qed.
Lemma combine_firstn_min {B} l (k : list B) : combine l k = combine (firstn (length k) l) (firstn (length l) k).
Proof. revert k; induction l as [|x l IH]; intros [|y k]; cbn; auto. f_equal. apply IH. Qed.
Lemma last_cases l : l = [] \/ exists l' x, l = l' ++ [x].
Proof. destruct l as [|a l]; [now left|]. right. destruct (@exists_last A (a :: l)) as (l' & x & E); [discriminate|]. eauto. Qed.
Lemma hd_rev_app l x : hd_error (rev (l ++ [x])) = Some x.
Proof. rewrite rev_app_distr. reflexivity. Qed.
Lemma tl_rev_app l x : rev (tl (rev (l ++ [x]))) = l.
Proof. rewrite rev_app_distr. cbn. apply rev_involutive. Qed.
End Lists.

Section Good.
Context {PF : Platform}.

(** What is asked of an iterator: while it holds the list [l] ([R s l]), each
    call answers as a queue holding [l] would; [hl], [hb]: it has [len], a back end. *)
Record good {S A : Type} (M : methods S A) (hl hb : bool) (R : S -> list A -> Prop) : Prop := {
  g_small : forall s l, R s l -> Z.of_nat (length l) <= usize_max;
  g_next : forall s l, R s l -> exists s', m_next M s = Ret (hd_error l, s') /\ R s' (tl l);
  g_nth : forall s l n, R s l -> 0 <= n <= Z.of_nat (length l) ->
    exists s', m_nth M s n = Ret (nth_error l (Z.to_nat n), s') /\ R s' (skipn (Datatypes.S (Z.to_nat n)) l);
  g_next_back : hb = true -> forall s l, R s l -> exists s', m_next_back M s = Ret (hd_error (rev l), s') /\ R s' (rev (tl (rev l)));
  g_nth_back : hb = true -> forall s l n, R s l -> 0 <= n <= Z.of_nat (length l) ->
    exists s', m_nth_back M s n = Ret (nth_error (rev l) (Z.to_nat n), s') /\ R s' (rev (skipn (Datatypes.S (Z.to_nat n)) (rev l)));
  g_len : hl = true -> forall s l, R s l -> m_len M s = Ret (Z.of_nat (length l))
}.

Lemma good_call {S A : Type} (M : methods S A) hl hb R s l c : good M hl hb R -> R s l ->
  match c with Len => hl | NextBack | NthBack _ => hb | _ => true end = true ->
  match c with Nth n | NthBack n => 0 <= n <= Z.of_nat (length l) | _ => True end ->
  exists s', m_call M s c = Ret (fst (deque_call l c), s') /\ R s' (snd (deque_call l c)).
Proof.
  intros G H Hc Hn. destruct c; cbn [m_call deque_call fst snd]; unfold item.
  - destruct (g_next M hl hb R G s l H) as (s' & -> & H'). cbn [bind fst snd]. eauto.
  - destruct (g_next_back M hl hb R G Hc s l H) as (s' & -> & H'). cbn [bind fst snd]. eauto.
  - destruct (g_nth M hl hb R G s l n H Hn) as (s' & -> & H'). cbn [bind fst snd]. eauto.
  - destruct (g_nth_back M hl hb R G Hc s l n H Hn) as (s' & -> & H'). cbn [bind fst snd]. eauto.
  - rewrite (g_len M hl hb R G Hc s l H). cbn [bind]. eauto.
Qed.
Lemma good_run {S A : Type} (M : methods S A) hl hb R cs : good M hl hb R -> forall s l, R s l ->
  Forall (fun c => match c with Len => hl | NextBack | NthBack _ => hb | _ => true end = true) cs ->
  within l cs -> exists s', run (m_call M) s cs = Ret (fst (deque_run l cs), s') /\ R s' (snd (deque_run l cs)).
Proof.
  intros G. induction cs as [|c cs IH]; intros s l H F W; cbn [run deque_run fst snd]; [eauto|].
  inversion F; subst. destruct W as [Wc W].
  destruct (good_call M hl hb R s l c G H) as (s1 & -> & K1); [assumption..|]. cbn [bind fst snd].
  destruct (IH s1 _ K1) as (s2 & -> & K2); [assumption..|]. cbn [bind fst snd]. eauto.
Qed.

(** The default methods. *)
Lemma advance_spec {S A : Type} (next : S -> outcome (option A * S)) (R : S -> list A -> Prop) :
  (forall s l, R s l -> exists s', next s = Ret (hd_error l, s') /\ R s' (tl l)) ->
  forall k s l, R s l -> exists s', advance next k s = Ret ((k - length l)%nat, s') /\ R s' (skipn k l).
Proof.
  intros N. induction k as [|k IH]; intros s l H; cbn [advance skipn Nat.sub]; [eauto|].
  destruct (N s l H) as (s' & -> & H'). cbn [bind fst snd]. destruct l as [|x l]; cbn [hd_error tl length] in *; [eauto|].
  apply IH. exact H'.
Qed.
Lemma default_nth_spec {S A : Type} (next : S -> outcome (option A * S)) (R : S -> list A -> Prop) :
  (forall s l, R s l -> exists s', next s = Ret (hd_error l, s') /\ R s' (tl l)) ->
  forall s l n, R s l ->
  exists s', default_nth next s n = Ret (nth_error l (Z.to_nat n), s') /\ R s' (skipn (Datatypes.S (Z.to_nat n)) l).
Proof.
  intros N s l n H. unfold default_nth. destruct (advance_spec next R N (Z.to_nat n) s l H) as (s1 & -> & H1). cbn [bind fst snd].
  rewrite nth_error_hd', skipn_S'. destruct (Z.to_nat n - length l)%nat eqn:D; [apply N; exact H1|].
  rewrite (skipn_nil_ge (Z.to_nat n) l) in * by lia. cbn. eauto.
Qed.

Lemma good_rev {S A : Type} (M : methods S A) hl R : good M hl true R -> good (rev_methods M) hl true (fun s l => R s (rev l)).
Proof.
  intros G. split; cbn [rev_methods m_next m_next_back m_nth m_nth_back m_len].
  - intros s l H. rewrite <- (rev_length l). exact (g_small _ _ _ _ G s _ H).
  - intros s l H. destruct (g_next_back _ _ _ _ G eq_refl s _ H) as (s' & E & H'). rewrite rev_involutive in *. eauto.
  - intros s l n H Hn. destruct (g_nth_back _ _ _ _ G eq_refl s _ n H) as (s' & E & H'); [rewrite rev_length; exact Hn|].
    rewrite rev_involutive in *. eauto.
  - intros _ s l H. destruct (g_next _ _ _ _ G s _ H) as (s' & E & H'). rewrite rev_involutive. eauto.
  - intros _ s l n H Hn. destruct (g_nth _ _ _ _ G s _ n H) as (s' & E & H'); [rewrite rev_length; exact Hn|].
    rewrite rev_involutive. eauto.
  - intros L s l H. rewrite (g_len _ _ _ _ G L s _ H), rev_length. reflexivity.
Qed.

Lemma map_hd {A B} (f : A -> B) l : hd_error (map f l) = option_map f (hd_error l).
Proof. destruct l; reflexivity. Qed.
Lemma map_tl {A B} (f : A -> B) l : tl (map f l) = map f (tl l).
Proof. destruct l; reflexivity. Qed.
Lemma good_map {S A B : Type} (f : A -> B) (M : methods S A) hl hb R : good M hl hb R ->
  good (map_methods f M) hl hb (fun s l => exists k, R s k /\ l = map f k).
Proof.
  intros G.
  assert (N : forall s l, (exists k, R s k /\ l = map f k) ->
    exists s', map_step f (m_next M) s = Ret (hd_error l, s') /\ (exists k, R s' k /\ tl l = map f k)).
  { intros s l (k & H & ->). unfold map_step. destruct (g_next _ _ _ _ G s k H) as (s' & -> & H'). cbn [bind fst snd].
    rewrite map_hd, map_tl. eauto. }
  assert (NB : hb = true -> forall s l, (exists k, R s k /\ rev l = map f k) ->
    exists s', map_step f (m_next_back M) s = Ret (hd_error l, s') /\ (exists k, R s' k /\ rev (tl l) = map f k)).
  { intros B1 s l (k & H & E). unfold map_step. destruct (g_next_back _ _ _ _ G B1 s k H) as (s' & -> & H'). cbn [bind fst snd].
    assert (L : l = map f (rev k)) by (rewrite map_rev, <- E, rev_involutive; reflexivity). subst l.
    rewrite map_hd, map_tl, <- map_rev. eauto. }
  split; cbn [map_methods m_next m_next_back m_nth m_nth_back m_len].
  - intros s l (k & H & ->). rewrite map_length. exact (g_small _ _ _ _ G s k H).
  - exact N.
  - intros s l n H _. exact (default_nth_spec _ _ N s l n H).
  - intros B1 s l (k & H & ->). destruct (NB B1 s (rev (map f k))) as (s' & E & K); [exists k; rewrite rev_involutive; auto|]. eauto.
  - intros B1 s l n (k & H & ->) _. destruct (default_nth_spec _ _ (NB B1) s (rev (map f k)) n) as (s' & E & K);
      [exists k; rewrite rev_involutive; auto|]. eauto.
  - intros L s l (k & H & ->). rewrite map_length. exact (g_len _ _ _ _ G L s k H).
Qed.

Lemma usize_add_ok m a b : 0 <= a -> 0 <= b -> a + b <= usize_max -> usize_add m a b = Ret (a + b).
Proof. intros Ha Hb H. unfold usize_add. replace (a + b <=? usize_max) with true by lia. reflexivity. Qed.

Lemma good_enum {S A : Type} m (M : methods S A) hl hb R : good M hl hb R ->
  good (enum_methods m M) hl (hb && hl)
    (fun s l => exists k, R (snd s) k /\ 0 <= fst s /\ fst s + Z.of_nat (length k) <= usize_max /\ l = numbered (fst s) k).
Proof.
  intros G. split; cbn [enum_methods m_next m_next_back m_nth m_nth_back m_len].
  - intros [c s] l (k & H & Hc & B & ->). rewrite numbered_length. cbn [fst snd] in *. lia.
  - intros [c s] l (k & H & Hc & B & ->). cbn [fst snd] in *. destruct (g_next _ _ _ _ G s k H) as (s' & -> & H'). cbn [bind fst snd].
    destruct k as [|x k]; cbn [hd_error tl numbered length] in *.
    + eexists. split; [reflexivity|]. exists []. cbn. auto.
    + rewrite usize_add_ok by lia. cbn [bind]. eexists. split; [reflexivity|]. exists k. cbn [fst snd].
      split; [exact H'|]. split; [lia|]. split; [lia|reflexivity].
  - intros [c s] l n (k & H & Hc & B & ->) Hn. rewrite numbered_length in Hn. cbn [fst snd] in *.
    destruct (g_nth _ _ _ _ G s k n H Hn) as (s' & -> & H'). cbn [bind fst snd]. rewrite numbered_nth.
    destruct (nth_error k (Z.to_nat n)) as [a|] eqn:E; cbn [option_map].
    + assert (Hl : (Z.to_nat n < length k)%nat) by (apply nth_error_Some; rewrite E; discriminate).
      rewrite usize_add_ok by lia. cbn [bind]. rewrite usize_add_ok by lia. cbn [bind].
      eexists. split; [rewrite Z2Nat.id by lia; reflexivity|]. exists (skipn (Datatypes.S (Z.to_nat n)) k). cbn [fst snd].
      split; [exact H'|]. rewrite skipn_length. split; [lia|]. split; [lia|].
      rewrite numbered_skipn by lia. f_equal. lia.
    + apply nth_error_None in E. eexists. split; [reflexivity|]. exists []. cbn [fst snd length].
      rewrite (skipn_nil_ge (Datatypes.S (Z.to_nat n)) k) in H' by lia.
      split; [exact H'|]. split; [lia|]. split; [lia|]. apply skipn_nil_ge. rewrite numbered_length. lia.
  - intros BL [c s] l (k & H & Hc & B & ->). apply andb_prop in BL. destruct BL as [HB HL]. cbn [fst snd] in *.
    destruct (g_next_back _ _ _ _ G HB s k H) as (s' & -> & H'). cbn [bind fst snd].
    destruct (last_cases k) as [->|(k' & x & ->)].
    + cbn. eexists. split; [reflexivity|]. exists []. cbn. auto.
    + rewrite hd_rev_app, tl_rev_app in *. rewrite (g_len _ _ _ _ G HL s' k' H'). cbn [bind].
      rewrite app_length in B. cbn [length] in B. rewrite usize_add_ok by lia. cbn [bind].
      assert (E : numbered c (k' ++ [x]) = numbered c k' ++ [(c + Z.of_nat (length k'), x)]).
      { clear. revert c. induction k' as [|y k' IH]; intros c; cbn [app numbered length]; [rewrite Z.add_0_r; reflexivity|].
        rewrite IH. do 3 f_equal. f_equal. lia. }
      rewrite E, hd_rev_app, tl_rev_app. eexists. split; [reflexivity|]. exists k'. cbn [fst snd]. split; [exact H'|].
      split; [lia|]. split; [lia|reflexivity].
  - intros BL [c s] l n (k & H & Hc & B & ->) Hn. apply andb_prop in BL. destruct BL as [HB HL]. rewrite numbered_length in Hn. cbn [fst snd] in *.
    destruct (g_nth_back _ _ _ _ G HB s k n H Hn) as (s' & -> & H'). cbn [bind fst snd].
    rewrite rev_skipn_rev in H'. rewrite rev_skipn_rev. rewrite numbered_length, numbered_firstn.
    destruct (Z_lt_le_dec n (Z.of_nat (length k))) as [Hl|Hl].
    + rewrite !nth_error_rev by (rewrite ?numbered_length; lia). rewrite numbered_length, numbered_nth.
      destruct (nth_error k (length k - Datatypes.S (Z.to_nat n))) as [a|] eqn:E; [|apply nth_error_None in E; lia].
      cbn [option_map]. rewrite (g_len _ _ _ _ G HL s' _ H'). cbn [bind]. rewrite firstn_length.
      rewrite usize_add_ok by lia. cbn [bind]. eexists. split.
      * do 4 f_equal. lia.
      * exists (firstn (length k - Datatypes.S (Z.to_nat n)) k). cbn [fst snd]. rewrite firstn_length. split; [exact H'|].
        split; [lia|]. split; [lia|reflexivity].
    + replace (nth_error (rev k) (Z.to_nat n)) with (@None A) by (symmetry; apply nth_error_None; rewrite rev_length; lia).
      replace (nth_error (rev (numbered c k)) (Z.to_nat n)) with (@None (Z * A)) by (symmetry; apply nth_error_None; rewrite rev_length, numbered_length; lia).
      replace (length k - Datatypes.S (Z.to_nat n))%nat with 0%nat in * by lia. cbn [firstn numbered] in *.
      eexists. split; [reflexivity|]. exists []. cbn [fst snd length numbered]. split; [exact H'|]. split; [lia|]. split; [lia|reflexivity].
  - intros L [c s] l (k & H & Hc & B & ->). rewrite numbered_length. exact (g_len _ _ _ _ G L s k H).
Qed.

Lemma drop_back_spec {S A : Type} (M : methods S A) hl R : good M hl true R -> forall k s l, R s l ->
  exists s', drop_back M k s = Ret s' /\ R s' (firstn (length l - k) l).
Proof.
  intros G. induction k as [|k IH]; intros s l H; cbn [drop_back].
  - exists s. rewrite Nat.sub_0_r, firstn_all. auto.
  - destruct (g_next_back _ _ _ _ G eq_refl s l H) as (s' & -> & H'). cbn [bind fst snd].
    destruct (IH s' _ H') as (s'' & E & K). exists s''. split; [exact E|].
    destruct (last_cases l) as [->|(l' & x & ->)]; [cbn in *; destruct k; exact K|].
    rewrite tl_rev_app in K. rewrite app_length. cbn [length]. replace (length l' + 1 - Datatypes.S k)%nat with (length l' - k)%nat by lia.
    rewrite firstn_app. replace (length l' - k - length l')%nat with 0%nat by lia. rewrite firstn_O, app_nil_r. exact K.
Qed.
Lemma good_zip {S1 S2 A B : Type} (M1 : methods S1 A) (M2 : methods S2 B) hl1 hb1 hl2 hb2 R1 R2 :
  good M1 hl1 hb1 R1 -> good M2 hl2 hb2 R2 ->
  good (zip_methods M1 M2) (hl1 && hl2) (hb1 && hl1 && (hb2 && hl2))
    (fun s l => exists k1 k2, R1 (fst s) k1 /\ R2 (snd s) k2 /\ l = combine k1 k2).
Proof.
  intros G1 G2.
  assert (N : forall s l, (exists k1 k2, R1 (fst s) k1 /\ R2 (snd s) k2 /\ l = combine k1 k2) ->
    exists s', zip_next M1 M2 s = Ret (hd_error l, s') /\ (exists k1 k2, R1 (fst s') k1 /\ R2 (snd s') k2 /\ tl l = combine k1 k2)).
  { intros [s1 s2] l (k1 & k2 & H1 & H2 & ->). unfold zip_next. cbn [fst snd] in *.
    destruct (g_next _ _ _ _ G1 s1 k1 H1) as (s1' & -> & H1'). cbn [bind fst snd].
    destruct k1 as [|x k1]; cbn [hd_error tl combine] in *; [exists (s1', s2); split; [reflexivity|]; exists [], k2; auto|].
    destruct (g_next _ _ _ _ G2 s2 k2 H2) as (s2' & -> & H2'). cbn [bind fst snd].
    destruct k2 as [|y k2]; cbn [hd_error tl] in *.
    - exists (s1', s2'). split; [reflexivity|]. exists k1, []. cbn. split; [exact H1'|]. split; [exact H2'|]. destruct k1; reflexivity.
    - exists (s1', s2'). split; [reflexivity|]. exists k1, k2. auto. }
  assert (NB : hb1 && hl1 && (hb2 && hl2) = true -> forall s l, (exists k1 k2, R1 (fst s) k1 /\ R2 (snd s) k2 /\ rev l = combine k1 k2) ->
    exists s', zip_next_back M1 M2 s = Ret (hd_error l, s') /\ (exists k1 k2, R1 (fst s') k1 /\ R2 (snd s') k2 /\ rev (tl l) = combine k1 k2)).
  { intros BL [s1 s2] l (k1 & k2 & H1 & H2 & E). apply andb_prop in BL. destruct BL as [BL1 BL2].
    apply andb_prop in BL1. destruct BL1 as [HB1 HL1]. apply andb_prop in BL2. destruct BL2 as [HB2 HL2]. subst hb1 hb2.
    unfold zip_next_back. cbn [fst snd] in *. rewrite (g_len _ _ _ _ G1 HL1 s1 k1 H1). cbn [bind].
    rewrite (g_len _ _ _ _ G2 HL2 s2 k2 H2). cbn [bind].
    destruct (drop_back_spec M1 hl1 R1 G1 (Z.to_nat (Z.of_nat (length k1) - Z.of_nat (length k2))) s1 k1 H1) as (t1 & -> & K1). cbn [bind].
    destruct (drop_back_spec M2 hl2 R2 G2 (Z.to_nat (Z.of_nat (length k2) - Z.of_nat (length k1))) s2 k2 H2) as (t2 & -> & K2). cbn [bind].
    set (j1 := firstn (length k1 - Z.to_nat (Z.of_nat (length k1) - Z.of_nat (length k2))) k1) in *.
    set (j2 := firstn (length k2 - Z.to_nat (Z.of_nat (length k2) - Z.of_nat (length k1))) k2) in *.
    assert (L1 : length j1 = Nat.min (length k1) (length k2)) by (unfold j1; rewrite firstn_length; lia).
    assert (L2 : length j2 = Nat.min (length k1) (length k2)) by (unfold j2; rewrite firstn_length; lia).
    assert (C : combine k1 k2 = combine j1 j2).
    { unfold j1, j2. destruct (Nat.le_ge_cases (length k1) (length k2)) as [L|L].
      - replace (Z.to_nat (Z.of_nat (length k1) - Z.of_nat (length k2))) with 0%nat by lia. rewrite Nat.sub_0_r, firstn_all.
        rewrite combine_firstn_min. rewrite (firstn_all2 k1) by lia. f_equal. f_equal. lia.
      - replace (Z.to_nat (Z.of_nat (length k2) - Z.of_nat (length k1))) with 0%nat by lia. rewrite Nat.sub_0_r, firstn_all.
        rewrite combine_firstn_min. rewrite (firstn_all2 k2) by lia. f_equal. f_equal. lia. }
    rewrite C in E. clearbody j1 j2. assert (LL : length j1 = length j2) by congruence. clear C L1 L2.
    destruct (g_next_back _ _ _ _ G1 eq_refl t1 j1 K1) as (s1' & -> & K1'). cbn [bind fst snd].
    destruct (g_next_back _ _ _ _ G2 eq_refl t2 j2 K2) as (s2' & -> & K2'). cbn [bind fst snd].
    destruct (last_cases j1) as [->|(j1' & x & ->)].
    - destruct j2; [|discriminate]. cbn in *. assert (l = []) as -> by (destruct l as [|y l]; [reflexivity|cbn in E; apply app_eq_nil in E; destruct E; discriminate]).
      exists (s1', s2'). split; [reflexivity|]. exists [], []. auto.
    - destruct (last_cases j2) as [->|(j2' & y & ->)]; [rewrite app_length in LL; cbn in LL; lia|].
      rewrite !hd_rev_app, !tl_rev_app in *. rewrite !app_length in LL. cbn [length] in LL.
      assert (C : combine (j1' ++ [x]) (j2' ++ [y]) = combine j1' j2' ++ [(x, y)]).
      { clear -LL. assert (L : length j1' = length j2') by lia. clear LL. revert j2' L. induction j1' as [|a j IH]; intros [|b j2'] L; cbn in *; try discriminate; auto.
        f_equal. apply IH. lia. }
      rewrite C in E. assert (l = (x, y) :: rev (combine j1' j2')) as ->.
      { rewrite <- (rev_involutive l), E, rev_app_distr. reflexivity. }
      cbn [hd_error tl]. rewrite rev_involutive. exists (s1', s2'). split; [reflexivity|]. exists j1', j2'. auto. }
  split; cbn [zip_methods m_next m_next_back m_nth m_nth_back m_len].
  - intros s l (k1 & k2 & H1 & H2 & ->). pose proof (g_small _ _ _ _ G1 _ _ H1). rewrite combine_length. lia.
  - exact N.
  - intros s l n H _. exact (default_nth_spec _ _ N s l n H).
  - intros BL s l H. destruct (NB BL s (rev l)) as (s' & E & K); [rewrite rev_involutive; exact H|]. eauto.
  - intros BL s l n H _. destruct (default_nth_spec _ (fun s l => exists k1 k2, R1 (fst s) k1 /\ R2 (snd s) k2 /\ rev l = combine k1 k2) (NB BL) s (rev l) n) as (s' & E & K);
      [rewrite rev_involutive; exact H|]. eauto.
  - intros L [s1 s2] l (k1 & k2 & H1 & H2 & ->). apply andb_prop in L. destruct L as [L1 L2]. cbn [fst snd] in *.
    rewrite (g_len _ _ _ _ G1 L1 s1 k1 H1). cbn [bind]. rewrite (g_len _ _ _ _ G2 L2 s2 k2 H2). cbn [bind]. rewrite combine_length. f_equal. lia.
Qed.
End Good.
