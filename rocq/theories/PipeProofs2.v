(** Double-ended adaptors, continued: [take], [skip], [chain], the crate's iterators, towers. *)
From Coq Require Import Lia ZifyBool.
From Verif Require Import Base ModelBound ModelRanges ModelSets ModelValue ModelStep ModelIter ModelPipe
  Spec Reach SpecStep SpecIter SpecPipe StepProofs StepLemmas IterProofs IterProofs2 IterProofs3 IterLemmas PipeProofs.
Open Scope Z_scope.

Section Lists.
Context {A : Type}.
Implicit Types l k : list A.

Lemma skipn_add l a b : skipn a (skipn b l) = skipn (b + a) l.
Proof. revert l; induction b as [|b IH]; intros l; [reflexivity|]. destruct l; cbn; [rewrite skipn_nil; reflexivity|apply IH]. Qed.
Lemma nth_skipn l a b : nth_error (skipn a l) b = nth_error l (a + b).
Proof. rewrite !nth_error_hd', skipn_add. reflexivity. Qed.
Lemma nth_firstn l a b : (b < a)%nat -> nth_error (firstn a l) b = nth_error l b.
Proof.
  revert a b; induction l as [|x l IH]; intros [|a] b H; cbn [firstn]; try lia; auto.
  destruct b; cbn; [reflexivity|]. apply IH. lia.
Qed.
Lemma hd_nth l : hd_error l = nth_error l 0.
Proof. destruct l; reflexivity. Qed.
Lemma tl_skipn l : tl l = skipn 1 l.
Proof. destruct l; reflexivity. Qed.
Lemma nth_rev_over l n : (length l <= n)%nat -> nth_error (rev l) n = None.
Proof. intros H. apply nth_error_None. rewrite rev_length. exact H. Qed.
Lemma firstn_skipn_min l a b : skipn a (firstn b l) = firstn (b - a) (skipn a l).
Proof. apply skipn_firstn_comm. Qed.
Lemma firstn_le l a b : (a <= b)%nat -> firstn b (firstn a l) = firstn a l.
Proof. intros H. rewrite firstn_firstn. f_equal. lia. Qed.
Lemma firstn_ge l a b : (a <= b)%nat -> firstn a (firstn b l) = firstn a l.
Proof. intros H. rewrite firstn_firstn. f_equal. lia. Qed.
End Lists.

Section Good.
Context {PF : Platform}.

Lemma good_take {S A : Type} (M : methods S A) hl hb R : good M hl hb R ->
  good (take_methods M) hl (hb && hl) (fun s l => exists k, R (fst s) k /\ 0 <= snd s /\ l = firstn (Z.to_nat (snd s)) k).
Proof.
  intros G. split; cbn [take_methods m_next m_next_back m_nth m_nth_back m_len].
  - intros [s t] l (k & H & Ht & ->). pose proof (g_small _ _ _ _ G _ _ H). rewrite firstn_length. cbn [snd]. lia.
  - intros [s t] l (k & H & Ht & ->). cbn [fst snd] in *. destruct (t =? 0) eqn:C.
    + replace (Z.to_nat t) with 0%nat by lia. cbn. eexists. split; [reflexivity|]. exists k. cbn [fst snd].
      replace (Z.to_nat t) with 0%nat by lia. auto.
    + destruct (g_next _ _ _ _ G s k H) as (s' & -> & H'). cbn [bind fst snd]. exists (s', t - 1).
      replace (Z.to_nat t) with (Datatypes.S (Z.to_nat (t - 1))) by lia.
      destruct k as [|x k]; cbn [firstn hd_error tl] in *; (split; [reflexivity|]).
      * exists []. cbn [fst snd]. rewrite firstn_nil. split; [exact H'|split; [lia|reflexivity]].
      * exists k. cbn [fst snd]. split; [exact H'|split; [lia|reflexivity]].
  - intros [s t] l n (k & H & Ht & ->) Hn. rewrite firstn_length in Hn. cbn [fst snd] in *. destruct (n <? t) eqn:C.
    + destruct (g_nth _ _ _ _ G s k n H ltac:(lia)) as (s' & -> & H'). cbn [bind fst snd]. eexists. split.
      * rewrite nth_firstn by lia. reflexivity.
      * eexists. cbn [fst snd]. split; [exact H'|]. split; [lia|]. rewrite firstn_skipn_min. f_equal. lia.
    + destruct (0 <? t) eqn:C0.
      * destruct (g_nth _ _ _ _ G s k (t - 1) H ltac:(lia)) as (s' & -> & H'). cbn [bind fst snd]. eexists. split.
        -- replace (nth_error (firstn (Z.to_nat t) k) (Z.to_nat n)) with (@None A); [reflexivity|]. symmetry. apply nth_error_None. rewrite firstn_length. lia.
        -- eexists. cbn [fst snd]. split; [exact H'|]. split; [lia|]. apply skipn_nil_ge. rewrite firstn_length. lia.
      * replace (Z.to_nat t) with 0%nat by lia. exists (s, t). split; [destruct (Z.to_nat n); reflexivity|]. exists k. cbn [fst snd].
        split; [exact H|]. split; [lia|]. replace (Z.to_nat t) with 0%nat by lia. reflexivity.
  - intros BL [s t] l (k & H & Ht & ->). apply andb_prop in BL. destruct BL as [HB HL]. cbn [fst snd] in *. destruct (t =? 0) eqn:C.
    + exists (s, t). replace (Z.to_nat t) with 0%nat by lia. cbn. split; [reflexivity|]. exists k.
      split; [exact H|]. split; [lia|]. replace (Z.to_nat t) with 0%nat by lia. reflexivity.
    + rewrite (g_len _ _ _ _ G HL s k H). cbn [bind].
      destruct (g_nth_back _ _ _ _ G HB s k (Z.max 0 (Z.of_nat (length k) - t)) H ltac:(lia)) as (s' & -> & H'). cbn [bind fst snd].
      rewrite rev_skipn_rev in H'. exists (s', t - 1). rewrite hd_nth, tl_skipn, rev_skipn_rev, firstn_length.
      destruct k as [|x k'].
      { rewrite firstn_nil in *. cbn [rev]. split; [destruct (Z.to_nat _); reflexivity|]. exists []. cbn [fst snd]. rewrite !firstn_nil. split; [exact H'|split; [lia|reflexivity]]. }
      set (k := x :: k') in *. assert (L : (0 < length k)%nat) by (cbn; lia). clearbody k. split.
      * rewrite !nth_error_rev by (rewrite ?firstn_length; lia). rewrite firstn_length, nth_firstn by lia. do 3 f_equal. lia.
      * eexists. cbn [fst snd]. split; [exact H'|]. split; [lia|].
        rewrite firstn_ge by lia. rewrite firstn_le by lia. f_equal. lia.
  - intros BL [s t] l n (k & H & Ht & ->) Hn. apply andb_prop in BL. destruct BL as [HB HL]. rewrite firstn_length in Hn. cbn [fst snd] in *.
    rewrite (g_len _ _ _ _ G HL s k H). cbn [bind]. rewrite rev_skipn_rev, firstn_length. destruct (n <? t) eqn:C.
    + destruct (g_nth_back _ _ _ _ G HB s k (Z.max 0 (Z.of_nat (length k) - t) + n) H ltac:(lia)) as (s' & -> & H'). cbn [bind fst snd].
      rewrite rev_skipn_rev in H'. eexists. split.
      * destruct (Z_lt_le_dec n (Z.of_nat (length k))) as [Hl|Hl].
        -- rewrite !nth_error_rev by (rewrite ?firstn_length; lia). rewrite firstn_length, nth_firstn by lia. do 3 f_equal. lia.
        -- rewrite !nth_rev_over by (rewrite ?firstn_length; lia). reflexivity.
      * eexists. cbn [fst snd]. split; [exact H'|]. split; [lia|].
        destruct (Z_lt_le_dec n (Z.of_nat (length k))) as [Hl|Hl].
        -- rewrite firstn_ge by lia. rewrite firstn_le by lia. f_equal. lia.
        -- replace (Nat.min (Z.to_nat t) (length k) - Datatypes.S (Z.to_nat n))%nat with 0%nat by lia.
           replace (length k - Datatypes.S (Z.to_nat (Z.max 0 (Z.of_nat (length k) - t) + n)))%nat with 0%nat by lia. cbn. rewrite firstn_nil. reflexivity.
    + rewrite nth_rev_over by (rewrite firstn_length; lia).
      replace (Nat.min (Z.to_nat t) (length k) - Datatypes.S (Z.to_nat n))%nat with 0%nat by lia. cbn [firstn].
      destruct (0 <? Z.of_nat (length k)) eqn:C0.
      * destruct (g_nth_back _ _ _ _ G HB s k (Z.of_nat (length k) - 1) H ltac:(lia)) as (s' & -> & H'). cbn [bind fst snd].
        rewrite rev_skipn_rev in H'. replace (length k - Datatypes.S (Z.to_nat (Z.of_nat (length k) - 1)))%nat with 0%nat in H' by lia.
        eexists. split; [reflexivity|]. exists []. cbn [fst snd]. rewrite firstn_nil. split; [exact H'|]. split; [lia|reflexivity].
      * destruct k; [|cbn in C0; lia]. eexists. split; [reflexivity|]. exists []. cbn [fst snd]. rewrite firstn_nil. split; [exact H|]. split; [lia|reflexivity].
  - intros L [s t] l (k & H & Ht & ->). cbn [fst snd] in *. rewrite firstn_length. destruct (t =? 0) eqn:C; [f_equal; lia|].
    rewrite (g_len _ _ _ _ G L s k H). cbn [bind]. f_equal. lia.
Qed.

Lemma good_skip {S A : Type} (M : methods S A) hl hb R : good M hl hb R ->
  good (skip_methods M) hl (hb && hl)
    (fun s l => exists k, R (fst s) k /\ 0 <= snd s <= Z.of_nat (length k) /\ l = skipn (Z.to_nat (snd s)) k).
Proof.
  intros G. split; cbn [skip_methods m_next m_next_back m_nth m_nth_back m_len].
  - intros [s t] l (k & H & Ht & ->). pose proof (g_small _ _ _ _ G _ _ H). rewrite skipn_length. lia.
  - intros [s t] l (k & H & Ht & ->). cbn [fst snd] in *. rewrite hd_nth, tl_skipn, skipn_add, nth_skipn. destruct (0 <? t) eqn:C.
    + destruct (g_nth _ _ _ _ G s k t H Ht) as (s' & -> & H'). cbn [bind fst snd]. rewrite Nat.add_0_r, Nat.add_1_r.
      eexists. split; [reflexivity|]. eexists. cbn [fst snd]. split; [exact H'|]. split; [lia|reflexivity].
    + destruct (g_next _ _ _ _ G s k H) as (s' & -> & H'). cbn [bind fst snd]. replace (Z.to_nat t) with 0%nat by lia.
      rewrite hd_nth. eexists. split; [reflexivity|]. eexists. cbn [fst snd]. split; [exact H'|]. split; [lia|]. rewrite tl_skipn. reflexivity.
  - intros [s t] l n (k & H & Ht & ->) Hn. rewrite skipn_length in Hn. cbn [fst snd] in *. pose proof (g_small _ _ _ _ G _ _ H) as Sm.
    rewrite nth_skipn, skipn_add. destruct (0 <? t) eqn:C.
    + replace (t + n <=? usize_max) with true by lia.
      destruct (g_nth _ _ _ _ G s k (t + n) H ltac:(lia)) as (s' & -> & H'). cbn [bind fst snd].
      rewrite Z2Nat.inj_add in * by lia. eexists. split; [reflexivity|]. eexists. cbn [fst snd]. split; [exact H'|]. split; [lia|].
      rewrite <- plus_n_Sm. reflexivity.
    + destruct (g_nth _ _ _ _ G s k n H ltac:(lia)) as (s' & -> & H'). cbn [bind fst snd]. replace (Z.to_nat t) with 0%nat by lia.
      eexists. split; [reflexivity|]. eexists. cbn [fst snd]. split; [exact H'|]. split; [lia|reflexivity].
  - intros BL [s t] l (k & H & Ht & ->). apply andb_prop in BL. destruct BL as [HB HL]. cbn [fst snd] in *.
    rewrite (g_len _ _ _ _ G HL s k H). cbn [bind]. destruct (0 <? Z.max 0 (Z.of_nat (length k) - t)) eqn:C.
    + destruct (g_next_back _ _ _ _ G HB s k H) as (s' & -> & H'). cbn [bind fst snd].
      destruct (last_cases k) as [->|(k' & x & ->)]; [cbn in *; lia|]. rewrite app_length in Ht, C. cbn [length] in Ht, C.
      assert (E : skipn (Z.to_nat t) (k' ++ [x]) = skipn (Z.to_nat t) k' ++ [x]).
      { rewrite skipn_app. replace (Z.to_nat t - length k')%nat with 0%nat by lia. reflexivity. }
      rewrite E, !hd_rev_app, tl_rev_app in *. eexists. split; [reflexivity|]. exists k'. cbn [fst snd].
      split; [exact H'|]. split; [lia|reflexivity].
    + exists (s, t). assert (E : skipn (Z.to_nat t) k = []) by (apply skipn_nil_ge; lia). rewrite E. cbn. split; [reflexivity|]. exists k. cbn. auto.
  - intros BL [s t] l n (k & H & Ht & ->) Hn. apply andb_prop in BL. destruct BL as [HB HL]. rewrite skipn_length in Hn. cbn [fst snd] in *.
    rewrite (g_len _ _ _ _ G HL s k H). cbn [bind]. rewrite rev_skipn_rev, skipn_length. destruct (n <? Z.max 0 (Z.of_nat (length k) - t)) eqn:C.
    + destruct (g_nth_back _ _ _ _ G HB s k n H ltac:(lia)) as (s' & -> & H'). cbn [bind fst snd]. rewrite rev_skipn_rev in H'.
      eexists. split.
      * rewrite !nth_error_rev by (rewrite ?skipn_length; lia). rewrite skipn_length, nth_skipn. do 3 f_equal. lia.
      * eexists. cbn [fst snd]. split; [exact H'|]. rewrite firstn_length. split; [lia|]. rewrite firstn_skipn_min. f_equal. lia.
    + rewrite nth_rev_over by (rewrite skipn_length; lia).
      replace (length k - Z.to_nat t - Datatypes.S (Z.to_nat n))%nat with 0%nat by lia. cbn [firstn].
      destruct (0 <? Z.max 0 (Z.of_nat (length k) - t)) eqn:C0.
      * destruct (g_nth_back _ _ _ _ G HB s k (Z.max 0 (Z.of_nat (length k) - t) - 1) H ltac:(lia)) as (s' & -> & H'). cbn [bind fst snd].
        rewrite rev_skipn_rev in H'. eexists. split; [reflexivity|]. eexists. cbn [fst snd]. split; [exact H'|]. rewrite firstn_length.
        split; [lia|]. symmetry. apply skipn_nil_ge. rewrite firstn_length. lia.
      * exists (s, t). split; [reflexivity|]. exists k. cbn [fst snd]. split; [exact H|]. split; [lia|]. symmetry. apply skipn_nil_ge. lia.
  - intros L [s t] l (k & H & Ht & ->). cbn [fst snd] in *. rewrite skipn_length.
    rewrite (g_len _ _ _ _ G L s k H). cbn [bind]. f_equal. lia.
Qed.

(** One end of a chain; the other end is the same with the parts exchanged. *)
Definition opt_shows {S A : Type} (R : S -> list A -> Prop) (o : option S) (l : list A) : Prop :=
  match o with Some s => R s l | None => l = [] end.
Section Chain.
Context {S1 S2 A X : Type} (mk : option S1 -> option S2 -> X).
Context (next1 : S1 -> outcome (option A * S1)) (next2 : S2 -> outcome (option A * S2)) (nth2 : S2 -> Z -> outcome (option A * S2)).
Definition c_rest (s : option S2) (k : S2 -> outcome (option A * S2)) : outcome (option A * X) :=
  match s with None => Ret (None, mk None None) | Some s2 => p <- k s2 ;; Ret (fst p, mk None (Some (snd p))) end.
Definition c_next (o1 : option S1) (o2 : option S2) : outcome (option A * X) :=
  match o1 with
  | None => c_rest o2 next2
  | Some s1 =>
    p <- next1 s1 ;;
    match fst p with
    | Some a => Ret (Some a, mk (Some (snd p)) o2)
    | None => c_rest o2 next2
    end
  end.
Definition c_nth (o1 : option S1) (o2 : option S2) (n : Z) : outcome (option A * X) :=
  match o1 with
  | None => c_rest o2 (fun s2 => nth2 s2 n)
  | Some s1 =>
    p <- advance next1 (Z.to_nat n) s1 ;;
    match fst p with
    | O =>
      q <- next1 (snd p) ;;
      match fst q with
      | Some a => Ret (Some a, mk (Some (snd q)) o2)
      | None => c_rest o2 (fun s2 => nth2 s2 0)
      end
    | k => c_rest o2 (fun s2 => nth2 s2 (Z.of_nat k))
    end
  end.
Context (Q1 : S1 -> list A -> Prop) (Q2 : S2 -> list A -> Prop).
Context (N1 : forall s l, Q1 s l -> exists s', next1 s = Ret (hd_error l, s') /\ Q1 s' (tl l)).
Context (N2 : forall s l, Q2 s l -> exists s', next2 s = Ret (hd_error l, s') /\ Q2 s' (tl l)).
Context (H2 : forall s l n, Q2 s l -> 0 <= n <= Z.of_nat (length l) ->
  exists s', nth2 s n = Ret (nth_error l (Z.to_nat n), s') /\ Q2 s' (skipn (Datatypes.S (Z.to_nat n)) l)).

Lemma c_next_spec o1 o2 k1 k2 : opt_shows Q1 o1 k1 -> opt_shows Q2 o2 k2 ->
  exists o1' o2' k1' k2', c_next o1 o2 = Ret (hd_error (k1 ++ k2), mk o1' o2') /\
    opt_shows Q1 o1' k1' /\ opt_shows Q2 o2' k2' /\ tl (k1 ++ k2) = k1' ++ k2'.
Proof.
  intros E1 E2.
  assert (R : exists o2' k2', c_rest o2 next2 = Ret (hd_error k2, mk None o2') /\ opt_shows Q2 o2' k2' /\ tl k2 = k2').
  { destruct o2 as [s2|]; cbn [c_rest opt_shows] in *.
    - destruct (N2 s2 k2 E2) as (s2' & -> & H). cbn [bind fst snd]. exists (Some s2'), (tl k2). auto.
    - subst k2. exists None, []. repeat split; reflexivity. }
  destruct R as (o2' & k2' & R & F2 & T2). destruct o1 as [s1|]; cbn [c_next opt_shows] in *.
  - destruct (N1 s1 k1 E1) as (s1' & -> & H). cbn [bind fst snd]. destruct k1 as [|x k1]; cbn [hd_error tl app] in *.
    + exists None, o2', [], k2'. rewrite R. cbn. auto.
    + exists (Some s1'), o2, k1, k2. auto.
  - subst k1. exists None, o2', [], k2'. cbn. auto.
Qed.
Lemma c_nth_spec o1 o2 k1 k2 n : opt_shows Q1 o1 k1 -> opt_shows Q2 o2 k2 -> 0 <= n <= Z.of_nat (length (k1 ++ k2)) ->
  exists o1' o2' k1' k2', c_nth o1 o2 n = Ret (nth_error (k1 ++ k2) (Z.to_nat n), mk o1' o2') /\
    opt_shows Q1 o1' k1' /\ opt_shows Q2 o2' k2' /\ skipn (Datatypes.S (Z.to_nat n)) (k1 ++ k2) = k1' ++ k2'.
Proof.
  intros E1 E2 Hn. rewrite app_length in Hn.
  assert (R : forall j, 0 <= j <= Z.of_nat (length k2) -> exists o2' k2', c_rest o2 (fun s2 => nth2 s2 j) = Ret (nth_error k2 (Z.to_nat j), mk None o2') /\
    opt_shows Q2 o2' k2' /\ skipn (Datatypes.S (Z.to_nat j)) k2 = k2').
  { intros j Hj. destruct o2 as [s2|]; cbn [c_rest opt_shows] in *.
    - destruct (H2 s2 k2 j E2 Hj) as (s2' & -> & H). cbn [bind fst snd]. exists (Some s2'). eexists. split; [reflexivity|]. split; [exact H|reflexivity].
    - subst k2. exists None, []. split; [destruct (Z.to_nat j); reflexivity|]. split; reflexivity. }
  destruct o1 as [s1|]; cbn [c_nth opt_shows] in *.
  - destruct (advance_spec next1 Q1 N1 (Z.to_nat n) s1 k1 E1) as (s1' & -> & H). cbn [bind fst snd].
    destruct (Z.to_nat n - length k1)%nat as [|j] eqn:D.
    + destruct (N1 s1' _ H) as (s1'' & -> & H'). cbn [bind fst snd]. rewrite <- nth_error_hd'.
      destruct (nth_error k1 (Z.to_nat n)) as [a|] eqn:E.
      * assert (L : (Z.to_nat n < length k1)%nat) by (apply nth_error_Some; rewrite E; discriminate).
        exists (Some s1''), o2, (skipn (Datatypes.S (Z.to_nat n)) k1), k2. rewrite nth_error_app1, E by lia. split; [reflexivity|].
        split; [rewrite skipn_S'; exact H'|]. split; [exact E2|]. rewrite skipn_app. f_equal.
        replace (Datatypes.S (Z.to_nat n) - length k1)%nat with 0%nat by lia. reflexivity.
      * apply nth_error_None in E. destruct (R 0 ltac:(lia)) as (o2' & k2' & -> & F2 & T2).
        exists None, o2', [], k2'. split; [rewrite nth_error_app2 by lia; do 3 f_equal; lia|]. split; [reflexivity|]. split; [exact F2|].
        rewrite <- T2, skipn_app. rewrite (skipn_nil_ge _ k1) by lia. cbn [app]. f_equal. lia.
    + destruct (R (Z.of_nat (Datatypes.S j)) ltac:(lia)) as (o2' & k2' & -> & F2 & T2).
      exists None, o2', [], k2'. split; [rewrite nth_error_app2 by lia; do 3 f_equal; lia|]. split; [reflexivity|]. split; [exact F2|].
      rewrite <- T2, skipn_app. rewrite (skipn_nil_ge _ k1) by lia. cbn [app]. f_equal. lia.
  - subst k1. cbn [app length] in *. destruct (R n ltac:(lia)) as (o2' & k2' & -> & F2 & T2). exists None, o2', [], k2'. cbn [app opt_shows]. auto.
Qed.
End Chain.

Lemma good_chain {S1 S2 A : Type} (M1 : methods S1 A) (M2 : methods S2 A) hl1 hb1 hl2 hb2 R1 R2 :
  good M1 hl1 hb1 R1 -> good M2 hl2 hb2 R2 ->
  good (chain_methods M1 M2) false (hb1 && hb2)
    (fun s l => exists k1 k2, opt_shows R1 (fst s) k1 /\ opt_shows R2 (snd s) k2 /\ l = k1 ++ k2 /\ Z.of_nat (length l) <= usize_max).
Proof.
  intros G1 G2.
  assert (FN : forall s, m_next (chain_methods M1 M2) s = c_next (fun a b => (a, b)) (m_next M1) (m_next M2) (fst s) (snd s)) by (intros [[s1|] [s2|]]; reflexivity).
  assert (FT : forall s n, m_nth (chain_methods M1 M2) s n = c_nth (fun a b => (a, b)) (m_next M1) (m_nth M2) (fst s) (snd s) n) by (intros [[s1|] [s2|]] n; reflexivity).
  assert (BN : forall s, m_next_back (chain_methods M1 M2) s = c_next (fun b a => (a, b)) (m_next_back M2) (m_next_back M1) (snd s) (fst s)) by (intros [[s1|] [s2|]]; reflexivity).
  assert (BT : forall s n, m_nth_back (chain_methods M1 M2) s n = c_nth (fun b a => (a, b)) (m_next_back M2) (m_nth_back M1) (snd s) (fst s) n) by (intros [[s1|] [s2|]] n; reflexivity).
  assert (OR : forall (X B : Type) (R : X -> list B -> Prop) o k, opt_shows R o k -> opt_shows (fun s l => R s (rev l)) o (rev k)).
  { intros X B R [s|] k; cbn; [rewrite rev_involutive; auto|intros ->; reflexivity]. }
  assert (RO : forall (X B : Type) (R : X -> list B -> Prop) o k, opt_shows (fun s l => R s (rev l)) o k -> opt_shows R o (rev k)).
  { intros X B R [s|] k; cbn; auto. intros ->; reflexivity. }
  split.
  - intros s l (k1 & k2 & _ & _ & _ & B). exact B.
  - intros s l (k1 & k2 & H1 & H2 & -> & B). rewrite FN.
    destruct (c_next_spec (fun a b => (a, b)) (m_next M1) (m_next M2) R1 R2 (g_next _ _ _ _ G1) (g_next _ _ _ _ G2) _ _ k1 k2 H1 H2)
      as (o1 & o2 & j1 & j2 & -> & F1 & F2 & E). eexists. split; [reflexivity|]. exists j1, j2. cbn [fst snd]. split; [exact F1|]. split; [exact F2|]. split; [exact E|].
    rewrite tl_skipn, skipn_length. lia.
  - intros s l n (k1 & k2 & H1 & H2 & -> & B) Hn. rewrite FT.
    destruct (c_nth_spec (fun a b => (a, b)) (m_next M1) (m_nth M2) R1 R2 (g_next _ _ _ _ G1) (g_nth _ _ _ _ G2) _ _ k1 k2 n H1 H2 Hn)
      as (o1 & o2 & j1 & j2 & -> & F1 & F2 & E). eexists. split; [reflexivity|]. exists j1, j2. cbn [fst snd]. split; [exact F1|]. split; [exact F2|]. split; [exact E|].
    rewrite skipn_length. lia.
  - intros HB s l (k1 & k2 & H1 & H2 & -> & B). apply andb_prop in HB. destruct HB as [HB1 HB2]. rewrite BN. subst hb1 hb2.
    pose proof (good_rev _ _ _ G1) as V1. pose proof (good_rev _ _ _ G2) as V2.
    destruct (c_next_spec (fun b a => (a, b)) (m_next_back M2) (m_next_back M1) _ _ (g_next _ _ _ _ V2) (g_next _ _ _ _ V1)
      (snd s) (fst s) (rev k2) (rev k1) (OR _ _ _ _ _ H2) (OR _ _ _ _ _ H1)) as (o2 & o1 & j2 & j1 & -> & F2 & F1 & E).
    rewrite <- rev_app_distr in *. eexists. split; [reflexivity|]. exists (rev j1), (rev j2). cbn [fst snd].
    split; [apply RO; exact F1|]. split; [apply RO; exact F2|]. split; [rewrite E, rev_app_distr; reflexivity|].
    rewrite tl_skipn, rev_length, skipn_length, rev_length. lia.
  - intros HB s l n (k1 & k2 & H1 & H2 & -> & B) Hn. apply andb_prop in HB. destruct HB as [HB1 HB2]. rewrite BT. subst hb1 hb2.
    pose proof (good_rev _ _ _ G1) as V1. pose proof (good_rev _ _ _ G2) as V2.
    destruct (c_nth_spec (fun b a => (a, b)) (m_next_back M2) (m_nth_back M1) _ _ (g_next _ _ _ _ V2) (g_nth _ _ _ _ V1)
      (snd s) (fst s) (rev k2) (rev k1) n (OR _ _ _ _ _ H2) (OR _ _ _ _ _ H1)) as (o2 & o1 & j2 & j1 & -> & F2 & F1 & E).
    { rewrite <- rev_app_distr, rev_length. exact Hn. }
    rewrite <- rev_app_distr in *. eexists. split; [reflexivity|]. exists (rev j1), (rev j2). cbn [fst snd].
    split; [apply RO; exact F1|]. split; [apply RO; exact F2|]. split; [rewrite E, rev_app_distr; reflexivity|].
    rewrite rev_length, skipn_length, rev_length. lia.
  - discriminate.
Qed.

(** The crate's iterators. *)
Lemma item_ret {A S : Type} (x : outcome (option A * S)) o s : item x = Ret (Item o, s) -> x = Ret (o, s).
Proof. destruct x as [[a b]| |]; cbn; congruence. Qed.
Lemma good_of_calls {S A : Type} (M : methods S A) (R : S -> list A -> Prop) :
  (forall s l, R s l -> Z.of_nat (length l) <= usize_max) ->
  (forall s l c, R s l -> match c with Nth n | NthBack n => 0 <= n <= Z.of_nat (length l) | _ => True end ->
    exists s', m_call M s c = Ret (fst (deque_call l c), s') /\ R s' (snd (deque_call l c))) ->
  good M true true R.
Proof.
  intros Sm C. split.
  - exact Sm.
  - intros s l H. destruct (C s l Next H Logic.I) as (s' & E & K). exists s'. split; [apply item_ret; exact E|exact K].
  - intros s l n H Hn. destruct (C s l (Nth n) H Hn) as (s' & E & K). exists s'. split; [apply item_ret; exact E|exact K].
  - intros _ s l H. destruct (C s l NextBack H Logic.I) as (s' & E & K). exists s'. split; [apply item_ret; exact E|exact K].
  - intros _ s l n H Hn. destruct (C s l (NthBack n) H Hn) as (s' & E & K). exists s'. split; [apply item_ret; exact E|exact K].
  - intros _ s l H. destruct (C s l Len H Logic.I) as (s' & E & K). cbn [m_call deque_call fst snd] in E.
    destruct (m_len M s); cbn in E; congruence.
Qed.
Context {T : Type} {OT : Ord T} {ST : Step T} {NU : Numbered T} {SL : StepLaws T}.
Lemma good_bri m : good (bri_methods (T := T) m) true true
  (fun it l => holds it l /\ (forall t, In t l -> ~ greatest t /\ ~ least t) /\ Z.of_nat (length l) <= usize_max).
Proof.
  apply good_of_calls; [tauto|]. intros it l c (H & X & Sm) Hc.
  assert (O : call_ok c) by (destruct c; cbn; auto; lia).
  destruct (bri_run_total [c] it l H X Sm) as [[reps it2] E]; [cbn; destruct c; auto|].
  cbn [run] in E. inv_bind E. destruct a as [rep it']. cbn [bind fst snd] in E.
  destruct (bri_call_refines it l c rep it' H O (fun _ => Sm) E0) as [-> K]. exists it'. split.
  - change (m_call (bri_methods m) it c) with (bri_call m it c). destruct m; [exact E0|apply bri_call_agree; assumption].
  - split; [exact K|]. split; [intros t I; apply X; eapply deque_call_in; exact I|]. pose proof (deque_call_length l c). lia.
Qed.
Lemma good_bsi m : good (bsi_methods (T := T) m) true true
  (fun it l => holds_set it l /\ (forall t, In t l -> ~ greatest t /\ ~ least t) /\ Z.of_nat (length l) <= usize_max).
Proof.
  apply good_of_calls; [tauto|]. intros it l c (H & X & Sm) Hc.
  assert (O : call_ok c) by (destruct c; cbn; auto; lia).
  destruct (bsi_run_total [c] it l H X Sm) as [[reps it2] E]; [auto|].
  cbn [run] in E. inv_bind E. destruct a as [rep it']. cbn [bind fst snd] in E.
  destruct (bsi_call_refines it l c rep it' H O E0) as [-> K]. exists it'. split.
  - change (m_call (bsi_methods m) it c) with (bsi_call m it c). destruct m; [exact E0|apply bsi_call_agree; assumption].
  - split; [exact K|]. split; [intros t I; apply X; eapply deque_call_in; exact I|]. pose proof (deque_call_length l c). lia.
Qed.
End Good.

(** Towers. *)
Lemma pipe_good {PF : Platform} {S A : Type} (p : pipe S A) (m : mode) : typed p = true -> roomy p ->
  exists R, good (p_methods m p) (has_len p) (has_back p) R /\
    forall l, elems p l -> exists s, p_start m p = Ret s /\ R s l.
Proof.
  induction p as [T OT ST r|T OT ST s|S A p IH|S A B f p IH|S A p IH|S1 S2 A B p IH1 q IH2|S A n p IH|S A n p IH|S1 S2 A p IH1 q IH2];
    cbn [typed roomy has_len has_back p_methods p_start elems]; intros Ty Ro.
  - destruct Ro as ([NU SL] & [it E] & X & Sm). eexists. split; [apply good_bri|].
    intros l L. exists it. split; [destruct m; [exact E|apply into_iter_agree; exact E]|].
    split; [apply (into_iter_holds r it l E); exact L|]. split; [|apply Sm; exact L].
    intros t I. apply X. apply (proj2 L). exact I.
  - destruct Ro as ([NU SL] & Ap & X & Sm). eexists. split; [apply good_bsi|].
    intros l L. destruct (bs_into_iter_total s (api_valid _ Ap)) as [it E].
    exists it. split; [destruct m; [exact E|apply bs_into_iter_agree; exact E]|].
    destruct (set_iter_small s it l Ap Sm E L) as [H B]. split; [exact H|]. split; [|exact B].
    intros t I. apply X. apply (proj2 L). exact I.
  - apply andb_prop in Ty. destruct Ty as [HB Ty]. destruct (IH Ty Ro) as (R & G & St). rewrite HB in G.
    eexists. split; [apply good_rev; exact G|]. intros l (k & L & ->). destruct (St k L) as (s & E & H). exists s. rewrite rev_involutive. auto.
  - destruct (IH Ty Ro) as (R & G & St). eexists. split; [apply good_map; exact G|]. intros l (k & L & ->).
    destruct (St k L) as (s & E & H). exists s. split; [exact E|]. eauto.
  - destruct (IH Ty Ro) as (R & G & St). eexists. split; [apply good_enum; exact G|]. intros l (k & L & ->).
    destruct (St k L) as (s & -> & H). cbn [bind]. eexists. split; [reflexivity|]. exists k. cbn [fst snd].
    pose proof (g_small _ _ _ _ G s k H). split; [exact H|]. split; [lia|]. split; [lia|reflexivity].
  - apply andb_prop in Ty. destruct Ty as [T1 T2]. destruct Ro as [R1 R2].
    destruct (IH1 T1 R1) as (Q1 & G1 & St1). destruct (IH2 T2 R2) as (Q2 & G2 & St2).
    eexists. split; [apply good_zip; eassumption|]. intros l (k1 & k2 & L1 & L2 & ->).
    destruct (St1 k1 L1) as (s1 & -> & H1). destruct (St2 k2 L2) as (s2 & -> & H2). cbn [bind]. eexists. split; [reflexivity|]. exists k1, k2. auto.
  - destruct Ro as [Ro Hn]. destruct (IH Ty Ro) as (R & G & St). eexists. split; [apply good_take; exact G|]. intros l (k & L & ->).
    destruct (St k L) as (s & -> & H). cbn [bind]. eexists. split; [reflexivity|]. exists k. cbn [fst snd]. split; [exact H|]. split; [lia|reflexivity].
  - destruct Ro as (Ro & Hn & HL). destruct (IH Ty Ro) as (R & G & St). eexists. split; [apply good_skip; exact G|]. intros l (k & L & ->).
    destruct (St k L) as (s & -> & H). cbn [bind]. eexists. split; [reflexivity|]. exists k. cbn [fst snd]. specialize (HL k L).
    split; [exact H|]. split; [lia|reflexivity].
  - apply andb_prop in Ty. destruct Ty as [T1 T2]. destruct Ro as (R1 & R2 & B).
    destruct (IH1 T1 R1) as (Q1 & G1 & St1). destruct (IH2 T2 R2) as (Q2 & G2 & St2).
    eexists. split; [eapply good_chain; eassumption|]. intros l (k1 & k2 & L1 & L2 & ->).
    destruct (St1 k1 L1) as (s1 & -> & H1). destruct (St2 k2 L2) as (s2 & -> & H2). cbn [bind]. eexists. split; [reflexivity|]. exists k1, k2.
    cbn [fst snd opt_shows]. rewrite app_length. specialize (B k1 k2 L1 L2). split; [exact H1|]. split; [exact H2|]. split; [reflexivity|lia].
Qed.
