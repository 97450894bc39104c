(** When values are [==]: the same contents, divided at the same places. *)
From Coq Require Import Lia ZifyBool.
From Verif Require Import Base ModelBound ModelRanges ModelSets ModelAlgebra ModelValue ModelEq Spec SpecBounds Reach
  Order Cuts SetProofs AlgebraProofs ValueProofs Canon EqProofs Laws Laws2 BoundsProofs.

Section JointProofs.
Context {T : Type} {OT : Ord T} {OL : OrdLaws T}.
Notation ends l := (map br_end l).

(** Where an upper and a lower bound meet. *)
Definition jt (E : list (UpperBound T)) (L : list (LowerBound T)) (c : cut T) : Prop :=
  exists u x, In u E /\ In x L /\ ceq (ucut u) c = true /\ ceq (lcut x) c = true.

Lemma touches_ceq (u : UpperBound T) (l : LowerBound T) : touches u l <-> ceq (ucut u) (lcut l) = true.
Proof.
  unfold ceq, cle, ucut, lcut, touches. destruct u as [[a|a]], l as [[b|b]]; simpl;
    rewrite ?(cmp_opp a b); destruct (cmp a b); simpl; intuition discriminate.
Qed.
Lemma jt_joined (v : value T) (b : Bound T) : jt (highs v) (lows v) (lcut (LB b)) <-> joined v b.
Proof.
  split.
  - intros (u & x & Hu & Hx & C1 & C2). exists u, x. rewrite !touches_ceq. repeat split; try assumption.
    unfold ceq in *. clear - OL C1 C2. crank.
  - intros (u & x & Hu & Hx & C1 & C2). rewrite !touches_ceq in *. exists u, x. repeat split; try assumption.
    unfold ceq in *. clear - OL C1 C2. crank.
Qed.
Lemma cut_bound (c : cut T) : exists b, lcut (LB b) = c.
Proof. destruct c as [x [|]]; [exists (Excluded x)|exists (Included x)]; reflexivity. Qed.
Lemma jt_joined_iff (a b : value T) :
  (forall x, joined a x <-> joined b x) <-> (forall c, jt (highs a) (lows a) c <-> jt (highs b) (lows b) c).
Proof.
  split.
  - intros H c. destruct (cut_bound c) as [x <-]. rewrite !jt_joined. apply H.
  - intros H x. rewrite <- !jt_joined. apply H.
Qed.

Lemma after_low c l o x : starts_after c l o = true -> In x (tl_lows l o) -> cle c (lcut x) = true.
Proof.
  unfold starts_after, tl_lows. intros S H. apply andb_prop in S as [S1 S2]. apply in_app_or in H as [H|H].
  - apply in_map_iff in H as (r & <- & Hr). exact (forallb_In _ _ r S1 Hr).
  - destruct o as [d|]; [|destruct H]. destruct H as [<-|[]]. exact S2.
Qed.
Lemma wft_room l o r : wft l o = true -> In r l -> room r = true.
Proof.
  induction l as [|r' l IH]; intros W H; [destruct H|]. apply wft_cons in W as (R & _ & W).
  destruct H as [<-|H]; auto.
Qed.
Lemma after_end c l o u : wft l o = true -> starts_after c l o = true -> In u (ends l) -> clt c (ucut u) = true.
Proof.
  intros W A H. apply in_map_iff in H as (r & <- & Hr). pose proof (wft_room l o r W Hr) as R.
  assert (C : cle c (lcut (br_start r)) = true).
  { apply (after_low c l o _ A). unfold tl_lows. apply in_or_app. left. apply in_map, Hr. }
  clear - OL C R. ranges.
Qed.
Lemma nxt_low (l : list (BoundedRange T)) o s : nxt l o = Some s -> exists x, In x (tl_lows l o) /\ lcut x = s.
Proof.
  unfold tl_lows. destruct l as [|r l]; cbn [nxt]; [destruct o as [d|]; [|discriminate]|]; intros E; injection E as <-; eexists; (split; [|reflexivity]); left; reflexivity.
Qed.
Lemma tail_joints h1 h2 l1 o1 l2 o2 L1 L2 :
  ceq (ucut h1) (ucut h2) = true ->
  wft l1 o1 = true -> wft l2 o2 = true -> starts_after (ucut h1) l1 o1 = true -> starts_after (ucut h2) l2 o2 = true ->
  (forall x, In x L1 -> clt (lcut x) (ucut h1) = true) -> (forall x, In x L2 -> clt (lcut x) (ucut h2) = true) ->
  (forall c, jt (h1 :: ends l1) (L1 ++ tl_lows l1 o1) c <-> jt (h2 :: ends l2) (L2 ++ tl_lows l2 o2) c) ->
  forall c, jt (ends l1) (tl_lows l1 o1) c <-> jt (ends l2) (tl_lows l2 o2) c.
Proof.
  intros Eh W1 W2 A1 A2 B1 B2 J.
  assert (G : forall h1 h2 l1 o1 l2 o2 L1 L2, ceq (ucut h1) (ucut h2) = true ->
    wft l1 o1 = true -> starts_after (ucut h1) l1 o1 = true -> (forall x, In x L2 -> clt (lcut x) (ucut h2) = true) ->
    (forall c, jt (h1 :: ends l1) (L1 ++ tl_lows l1 o1) c -> jt (h2 :: ends l2) (L2 ++ tl_lows l2 o2) c) ->
    forall c, jt (ends l1) (tl_lows l1 o1) c -> jt (ends l2) (tl_lows l2 o2) c).
  { clear - OL. intros h1 h2 l1 o1 l2 o2 L1 L2 Eh W1 A1 B2 J c (u & x & Hu & Hx & C1 & C2).
    pose proof (after_end _ _ _ _ W1 A1 Hu) as P.
    destruct (J c) as (u' & x' & Hu' & Hx' & C1' & C2').
    { exists u, x. repeat split; auto; [right; exact Hu|apply in_or_app; right; exact Hx]. }
    exists u', x'. repeat split; auto.
    - destruct Hu' as [<-|Hu']; [exfalso|exact Hu']. unfold ceq in *. clear - OL Eh C1 C1' P. crank.
    - apply in_app_or in Hx' as [Hx'|Hx']; [exfalso|exact Hx']. apply B2 in Hx'. unfold ceq in *. clear - OL Eh C1 C2' Hx' P. crank. }
  intros c. split.
  - apply (G h1 h2 l1 o1 l2 o2 L1 L2); auto. intros c'. apply J.
  - apply (G h2 h1 l2 o2 l1 o1 L2 L1); auto; [unfold ceq in *; clear - OL Eh; crank|]. intros c'. apply J.
Qed.

Section Contents.
Variable K : cut T -> Prop.
Hypothesis between : forall c d, K c -> K d -> clt c d = true -> exists t, cle c (pt t) = true /\ clt (pt t) d = true.
Hypothesis beyond : forall c, K c -> exists t, cle c (pt t) = true.

Definition wk l o : Prop :=
  wft l o = true /\ (forall u, In u (ends l) -> K (ucut u)) /\ (forall x, In x (tl_lows l o) -> K (lcut x)).
Lemma wk_cons r l o : wk (r :: l) o ->
  K (lcut (br_start r)) /\ K (ucut (br_end r)) /\ room r = true /\ starts_after (ucut (br_end r)) l o = true /\ wk l o.
Proof.
  intros (W & Ku & Kl). apply wft_cons in W as (R & A & W). unfold wk, tl_lows in *. cbn [map app In] in *. repeat split; auto.
Qed.
Lemma wk_in l o p : wk l o -> tl_in l o p = true -> exists s, nxt l o = Some s /\ K s /\ pabove s p = true.
Proof.
  intros Wk I. destruct l as [|r l].
  - unfold tl_in in I. cbn in I. destruct o as [d|]; [|discriminate]. exists (lcut (lbr_start d)).
    split; [reflexivity|]. split; [apply Wk; left; reflexivity|exact I].
  - exists (lcut (br_start r)). split; [reflexivity|]. split; [apply Wk; left; reflexivity|].
    apply (starts_after_in _ (r :: l) o); [apply starts_after_self, Wk|exact I].
Qed.
Lemma wk_K l o s : wk l o -> nxt l o = Some s -> K s.
Proof. intros Wk N. destruct (nxt_low l o s N) as (x & Hx & <-). apply Wk, Hx. Qed.
Lemma wk_missing l o c d :
  wk l o -> K c -> K d -> strictly c (nxt l o) = true -> clt c d = true ->
  exists t, cle c (pt t) = true /\ clt (pt t) d = true /\ tl_in l o (at_elt t) = false.
Proof.
  intros S Kc Kd A C.
  assert (G : exists e, K e /\ clt c e = true /\ cle e d = true /\ match nxt l o with Some s => cle e s = true | None => True end).
  { destruct (nxt l o) as [s|] eqn:N; [|exists d; repeat split; auto; clear - OL; crank].
    destruct (cle d s) eqn:E; [exists d; repeat split; auto; clear - OL; crank|].
    exists s. split; [exact (wk_K l o s S N)|]. split; [exact A|]. split; [clear - OL E; crank|clear - OL; crank]. }
  destruct G as (e & Ke & C1 & C2 & C3). destruct (between c e Kc Ke C1) as (t & H1 & H2). exists t.
  split; [exact H1|]. split; [clear - OL C2 H2; crank|].
  destruct (tl_in l o (at_elt t)) eqn:I; [exfalso|reflexivity]. destruct (wk_in l o _ S I) as (s & Es & _ & P).
  rewrite Es in C3. unfold at_elt in P. clear - OL C3 H2 P. ranges.
Qed.
Lemma wk_missing_above l o c :
  wk l o -> K c -> strictly c (nxt l o) = true -> exists t, cle c (pt t) = true /\ tl_in l o (at_elt t) = false.
Proof.
  intros S Kc A. destruct (nxt l o) as [s|] eqn:N.
  - destruct (wk_missing l o c s S Kc (wk_K l o s S N)) as (t & H1 & _ & H2); [rewrite N; exact A|exact A|]. exists t. auto.
  - destruct (beyond c Kc) as (t & H). exists t. split; [exact H|].
    destruct (tl_in l o (at_elt t)) eqn:I; [|reflexivity]. destruct (wk_in l o _ S I) as (s' & Es & _ & P). congruence.
Qed.
Lemma wk_first l o s d :
  wk l o -> nxt l o = Some s -> K d -> clt s d = true ->
  exists t, clt (pt t) d = true /\ tl_in l o (at_elt t) = true.
Proof.
  intros S N Kd C. unfold tl_in. destruct l as [|r l]; cbn [nxt] in N.
  - destruct o as [e|]; [|discriminate]. injection N as <-.
    destruct (between _ d (wk_K [] (Some e) _ S eq_refl) Kd C) as (t & H1 & H2). exists t. split; [exact H2|]. simpl. exact H1.
  - injection N as <-. apply wk_cons in S as (K1 & K2 & R & _ & _).
    assert (G : exists e, K e /\ clt (lcut (br_start r)) e = true /\ cle e d = true /\ cle e (ucut (br_end r)) = true).
    { destruct (cle d (ucut (br_end r))) eqn:E; [exists d; repeat split; auto; clear - OL; crank|].
      exists (ucut (br_end r)). split; [exact K2|]. split; [clear - OL R; ranges|]. split; [clear - OL E; crank|clear - OL; crank]. }
    destruct G as (e & Ke & C1 & C2 & C3). destruct (between _ e K1 Ke C1) as (t & H1 & H2). exists t.
    split; [clear - OL C2 H2; crank|]. simpl.
    assert (I : br_in r (at_elt t) = true) by (unfold at_elt; clear - OL C3 H1 H2; ranges). rewrite I. reflexivity.
Qed.
Lemma wk_some l o s : wk l o -> nxt l o = Some s -> exists t, tl_in l o (at_elt t) = true.
Proof.
  intros S N. pose proof (wk_K l o s S N) as Ks. destruct l as [|r l]; cbn [nxt] in N.
  - destruct o as [e|]; [|discriminate]. injection N as <-. destruct (beyond _ Ks) as (t & H). exists t. exact H.
  - apply wk_cons in S as (K1 & K2 & R & A & S). destruct (between _ _ K1 K2) as (t & H1 & H2); [clear - OL R; ranges|].
    exists t. unfold tl_in. simpl. assert (I : br_in r (at_elt t) = true) by (unfold at_elt; clear - OL H1 H2; ranges). rewrite I. reflexivity.
Qed.
Lemma wk_le l1 o1 l2 o2 s1 s2 :
  wk l1 o1 -> wk l2 o2 -> nxt l1 o1 = Some s1 -> nxt l2 o2 = Some s2 ->
  (forall t, tl_in l1 o1 (at_elt t) = tl_in l2 o2 (at_elt t)) -> cle s2 s1 = true.
Proof.
  intros S1 S2 N1 N2 H. destruct (cle s2 s1) eqn:E; [reflexivity|exfalso].
  destruct (wk_first l1 o1 s1 s2 S1 N1 (wk_K l2 o2 s2 S2 N2)) as (t & Ht & I); [unfold clt; rewrite E; reflexivity|].
  rewrite H in I. destruct (wk_in l2 o2 _ S2 I) as (s & Es & _ & P). rewrite N2 in Es. injection Es as <-.
  unfold at_elt in P. clear - OL Ht P. ranges.
Qed.
Lemma wk_none l1 o1 l2 o2 s1 :
  wk l1 o1 -> wk l2 o2 -> nxt l1 o1 = Some s1 -> nxt l2 o2 = None ->
  (forall t, tl_in l1 o1 (at_elt t) = tl_in l2 o2 (at_elt t)) -> False.
Proof.
  intros S1 S2 N1 N2 H. destruct (wk_some l1 o1 s1 S1 N1) as (t & I). rewrite H in I.
  destruct (wk_in l2 o2 _ S2 I) as (s & Es & _). congruence.
Qed.
(** Where a part ends there is a gap or a joint. *)
Lemma gap_or_joint (h : UpperBound T) l o : starts_after (ucut h) l o = true ->
  strictly (ucut h) (nxt l o) = true \/ exists x, In x (tl_lows l o) /\ ceq (lcut x) (ucut h) = true.
Proof.
  intros A. destruct (nxt l o) as [s|] eqn:N; [|left; reflexivity]. destruct (nxt_low l o s N) as (x & Hx & Es).
  pose proof (after_low _ _ _ _ A Hx) as C. rewrite Es in C. cbn [strictly]. destruct (clt (ucut h) s) eqn:E; [left; reflexivity|].
  right. exists x. split; [exact Hx|]. rewrite Es. unfold ceq. clear - OL C E. crank.
Qed.
Lemma wk_end r1 l1 o1 r2 l2 o2 :
  wk (r1 :: l1) o1 -> wk (r2 :: l2) o2 ->
  (forall t, tl_in (r1 :: l1) o1 (at_elt t) = tl_in (r2 :: l2) o2 (at_elt t)) ->
  (forall c, jt (ends (r1 :: l1)) (tl_lows (r1 :: l1) o1) c -> jt (ends (r2 :: l2)) (tl_lows (r2 :: l2) o2) c) ->
  cle (lcut (br_start r2)) (lcut (br_start r1)) = true ->
  cle (ucut (br_end r2)) (ucut (br_end r1)) = true.
Proof.
  intros Wk1 Wk2 H J C. apply wk_cons in Wk1 as (K1 & K1' & R1 & A1 & S1). apply wk_cons in Wk2 as (K2 & K2' & R2 & A2 & S2).
  destruct (cle (ucut (br_end r2)) (ucut (br_end r1))) eqn:E; [reflexivity|exfalso].
  destruct (gap_or_joint (br_end r1) l1 o1 A1) as [G|(x & Hx & Cx)].
  - destruct (wk_missing l1 o1 (ucut (br_end r1)) (ucut (br_end r2)) S1 K1' K2' G) as (t & H1 & H2 & N);
      [unfold clt; rewrite E; reflexivity|].
    specialize (H t). unfold tl_in in *. simpl in H.
    assert (I1 : br_in r1 (at_elt t) = false) by (unfold at_elt; clear - OL H1; ranges).
    assert (I2 : br_in r2 (at_elt t) = true) by (unfold at_elt; clear - OL H1 H2 C R1; ranges).
    rewrite I1, I2 in H. simpl in H. rewrite N in H. discriminate.
  - destruct (J (ucut (br_end r1))) as (u & y & _ & Hy & _ & Cy).
    { exists (br_end r1), x. repeat split; [left; reflexivity|right; exact Hx|unfold ceq; clear - OL; crank|exact Cx]. }
    destruct Hy as [<-|Hy].
    + unfold ceq in Cy. clear - OL C R1 Cy. ranges.
    + pose proof (after_low _ _ _ _ A2 Hy) as P. unfold ceq in Cy. clear - OL E Cy P. crank.
Qed.
Lemma wk_not_tail r l o (d : LowerBoundedRange T) :
  wk (r :: l) o -> wk [] (Some d) ->
  (forall t, tl_in (r :: l) o (at_elt t) = tl_in [] (Some d) (at_elt t)) ->
  (forall c, jt (ends (r :: l)) (tl_lows (r :: l) o) c -> jt [] (tl_lows [] (Some d)) c) -> False.
Proof.
  intros S Sd H J.
  assert (C : cle (lcut (lbr_start d)) (lcut (br_start r)) = true) by (apply (wk_le (r :: l) o [] (Some d)); auto).
  apply wk_cons in S as (K1 & K2 & R & A & S).
  destruct (gap_or_joint (br_end r) l o A) as [G|(x & Hx & Cx)].
  - destruct (wk_missing_above l o (ucut (br_end r)) S K2 G) as (t & H1 & N).
    specialize (H t). unfold tl_in in *. simpl in H.
    assert (I1 : br_in r (at_elt t) = false) by (unfold at_elt; clear - OL H1; ranges).
    assert (I2 : lbr_in d (at_elt t) = true) by (unfold at_elt; clear - OL H1 C R; ranges).
    rewrite I1, I2 in H. simpl in H. rewrite N in H. discriminate.
  - destruct (J (ucut (br_end r))) as (u & y & [] & _).
    exists (br_end r), x. repeat split; [left; reflexivity|right; exact Hx|unfold ceq; clear - OL; crank|exact Cx].
Qed.

Lemma joint_list l1 o1 l2 o2 :
  wk l1 o1 -> wk l2 o2 -> (forall t, tl_in l1 o1 (at_elt t) = tl_in l2 o2 (at_elt t)) ->
  (forall c, jt (ends l1) (tl_lows l1 o1) c <-> jt (ends l2) (tl_lows l2 o2) c) ->
  vd_eqb br_eqb l1 l2 = true /\ tail_eqb o1 o2 = true.
Proof.
  revert l2. induction l1 as [|r1 l1 IH]; intros l2 S1 S2 H J;
    pose proof (fun t => eq_sym (H t)) as H'; cbv beta in H'.
  - destruct l2 as [|r2 l2].
    + split; [reflexivity|]. destruct o1 as [d1|], o2 as [d2|]; cbn [tail_eqb]; try reflexivity.
      * unfold lbr_eqb. rewrite lb_eqb_cut. unfold ceq.
        rewrite (wk_le [] (Some d1) [] (Some d2) _ _ S1 S2 eq_refl eq_refl H).
        rewrite (wk_le [] (Some d2) [] (Some d1) _ _ S2 S1 eq_refl eq_refl H'). reflexivity.
      * exact (False_ind _ (wk_none _ _ _ _ _ S1 S2 eq_refl eq_refl H)).
      * exact (False_ind _ (wk_none _ _ _ _ _ S2 S1 eq_refl eq_refl H')).
    + exfalso. destruct o1 as [d1|].
      * apply (wk_not_tail r2 l2 o2 d1 S2 S1 H'). intros c. apply J.
      * exact (wk_none _ _ _ _ _ S2 S1 eq_refl eq_refl H').
  - destruct l2 as [|r2 l2].
    + exfalso. destruct o2 as [d2|].
      * apply (wk_not_tail r1 l1 o1 d2 S1 S2 H). intros c. apply J.
      * exact (wk_none _ _ _ _ _ S1 S2 eq_refl eq_refl H).
    + pose proof (wk_le _ _ _ _ _ _ S1 S2 eq_refl eq_refl H) as C1.
      pose proof (wk_le _ _ _ _ _ _ S2 S1 eq_refl eq_refl H') as C2.
      pose proof (wk_end _ _ _ _ _ _ S1 S2 H (fun c => proj1 (J c)) C1) as E1.
      pose proof (wk_end _ _ _ _ _ _ S2 S1 H' (fun c => proj2 (J c)) C2) as E2.
      apply wk_cons in S1 as (_ & _ & R1 & A1 & S1). apply wk_cons in S2 as (_ & _ & R2 & A2 & S2).
      assert (HT : forall t, tl_in l1 o1 (at_elt t) = tl_in l2 o2 (at_elt t)).
      { intros t. specialize (H t). unfold tl_in in H. simpl in H. rewrite <- !orb_assoc in H.
        fold (tl_in l1 o1 (at_elt t)) in H. fold (tl_in l2 o2 (at_elt t)) in H.
        assert (B : br_in r1 (at_elt t) = br_in r2 (at_elt t)) by (unfold at_elt; clear - OL C1 C2 E1 E2; ranges).
        rewrite B in H. destruct (br_in r2 (at_elt t)) eqn:I2; [|exact H].
        destruct (tl_in l1 o1 (at_elt t)) eqn:J1.
        { exfalso. pose proof (starts_after_in _ _ _ _ A1 J1) as P. unfold at_elt in *. clear - OL B P. ranges. }
        destruct (tl_in l2 o2 (at_elt t)) eqn:J2; [|reflexivity].
        exfalso. pose proof (starts_after_in _ _ _ _ A2 J2) as P. unfold at_elt in *. clear - OL I2 P. ranges. }
      assert (JT : forall c, jt (ends l1) (tl_lows l1 o1) c <-> jt (ends l2) (tl_lows l2 o2) c).
      { apply (tail_joints (br_end r1) (br_end r2) l1 o1 l2 o2 [br_start r1] [br_start r2]
          ltac:(unfold ceq; rewrite E1, E2; reflexivity) (proj1 S1) (proj1 S2) A1 A2); [| |exact J].
        - intros x [<-|[]]. clear - OL R1. ranges.
        - intros x [<-|[]]. clear - OL R2. ranges. }
      destruct (IH l2 S1 S2 HT JT) as [Q1 Q2]. split; [|exact Q2]. simpl. rewrite Q1, andb_true_r.
      unfold br_eqb. rewrite lb_eqb_cut, ub_eqb_cut. unfold ceq. rewrite C1, C2, E1, E2. reflexivity.
Qed.

Definition wk_head (u : UpperBoundedRange T) l o : Prop :=
  K (ucut (ubr_end u)) /\ starts_after (ucut (ubr_end u)) l o = true /\ wk l o.
Lemma joint_head u1 l1 o1 u2 l2 o2 :
  wk_head u1 l1 o1 -> wk_head u2 l2 o2 ->
  (forall t, ubr_in u1 (at_elt t) || tl_in l1 o1 (at_elt t) = ubr_in u2 (at_elt t) || tl_in l2 o2 (at_elt t)) ->
  (forall c, jt (ubr_end u1 :: ends l1) (tl_lows l1 o1) c <-> jt (ubr_end u2 :: ends l2) (tl_lows l2 o2) c) ->
  ubr_eqb u1 u2 = true /\ vd_eqb br_eqb l1 l2 = true /\ tail_eqb o1 o2 = true.
Proof.
  intros (K1 & A1 & S1) (K2 & A2 & S2) H J.
  assert (L : forall u1 l1 o1 u2 l2 o2, wk_head u1 l1 o1 -> wk_head u2 l2 o2 ->
    (forall t, ubr_in u1 (at_elt t) || tl_in l1 o1 (at_elt t) = ubr_in u2 (at_elt t) || tl_in l2 o2 (at_elt t)) ->
    (forall c, jt (ubr_end u1 :: ends l1) (tl_lows l1 o1) c -> jt (ubr_end u2 :: ends l2) (tl_lows l2 o2) c) ->
    cle (ucut (ubr_end u2)) (ucut (ubr_end u1)) = true).
  { clear - OL between. intros u1 l1 o1 u2 l2 o2 (K1 & A1 & S1) (K2 & A2 & S2) H J.
    destruct (cle (ucut (ubr_end u2)) (ucut (ubr_end u1))) eqn:E; [reflexivity|exfalso].
    destruct (gap_or_joint (ubr_end u1) l1 o1 A1) as [G|(x & Hx & Cx)].
    - destruct (wk_missing l1 o1 _ _ S1 K1 K2 G) as (t & H1 & H2 & N); [unfold clt; rewrite E; reflexivity|].
      specialize (H t). rewrite N in H.
      assert (I1 : ubr_in u1 (at_elt t) = false) by (unfold at_elt; clear - OL H1; ranges).
      assert (I2 : ubr_in u2 (at_elt t) = true) by (unfold at_elt; clear - OL H2; ranges).
      rewrite I1, I2 in H. discriminate.
    - destruct (J (ucut (ubr_end u1))) as (u & y & _ & Hy & _ & Cy).
      { exists (ubr_end u1), x. repeat split; [left; reflexivity|exact Hx|unfold ceq; clear - OL; crank|exact Cx]. }
      pose proof (after_low _ _ _ _ A2 Hy) as P. unfold ceq in Cy. clear - OL E Cy P. crank. }
  assert (U1 : cle (ucut (ubr_end u2)) (ucut (ubr_end u1)) = true)
    by (apply (L u1 l1 o1 u2 l2 o2); unfold wk_head; auto; intros c; apply J).
  assert (U2 : cle (ucut (ubr_end u1)) (ucut (ubr_end u2)) = true)
    by (apply (L u2 l2 o2 u1 l1 o1); unfold wk_head; auto; intros c; apply J).
  split; [unfold ubr_eqb; rewrite ub_eqb_cut; unfold ceq; rewrite U1, U2; reflexivity|].
  apply joint_list; auto.
  - intros t. specialize (H t).
    assert (B : ubr_in u1 (at_elt t) = ubr_in u2 (at_elt t)) by (unfold at_elt; clear - OL U1 U2; ranges).
    rewrite B in H. destruct (ubr_in u2 (at_elt t)) eqn:I2; [|exact H].
    destruct (tl_in l1 o1 (at_elt t)) eqn:J1.
    { exfalso. pose proof (starts_after_in _ _ _ _ A1 J1) as P. unfold at_elt in *. clear - OL B P. ranges. }
    destruct (tl_in l2 o2 (at_elt t)) eqn:J2; [|reflexivity].
    exfalso. pose proof (starts_after_in _ _ _ _ A2 J2) as P. unfold at_elt in *. clear - OL I2 P. ranges.
  - apply (tail_joints (ubr_end u1) (ubr_end u2) l1 o1 l2 o2 [] []
      ltac:(unfold ceq; rewrite U1, U2; reflexivity) (proj1 S1) (proj1 S2) A1 A2); [intros x []|intros x []|exact J].
Qed.

Lemma joint_value (a b : value T) :
  is_set (kind_of a) = true -> kind_of a = kind_of b -> valid a -> valid b ->
  (forall u, In u (highs a ++ highs b) -> K (ucut u)) -> (forall l, In l (lows a ++ lows b) -> K (lcut l)) ->
  (forall t, mem a t <-> mem b t) -> (forall c, jt (highs a) (lows a) c <-> jt (highs b) (lows b) c) -> value_eqb a b = true.
Proof.
  intros S Kd Va Vb Ku Kl M J. apply valid_wf in Va, Vb.
  assert (Kua : forall u, In u (highs a) -> K (ucut u)) by (intros; apply Ku, in_or_app; auto).
  assert (Kub : forall u, In u (highs b) -> K (ucut u)) by (intros; apply Ku, in_or_app; auto).
  assert (Kla : forall u, In u (lows a) -> K (lcut u)) by (intros; apply Kl, in_or_app; auto).
  assert (Klb : forall u, In u (lows b) -> K (lcut u)) by (intros; apply Kl, in_or_app; auto).
  clear Ku Kl.
  assert (Fa : fresh a) by (destruct a; try discriminate S; exact I).
  assert (Fb : fresh b) by (rewrite Kd in S; destruct b; try discriminate S; exact I).
  assert (E : forall t, v_in a (at_elt t) = v_in b (at_elt t)).
  { intros t. apply eq_true_iff_eq. rewrite <- (mem_v_in a t Fa), <- (mem_v_in b t Fb). apply M. }
  clear M Fa Fb.
  assert (N0 : forall l : list (BoundedRange T), wfl l = true -> wft l None = true) by (intros l W; unfold wft; rewrite andb_true_r; exact W).
  assert (L0 : forall l : list (BoundedRange T), tl_lows l None = map br_start l) by (intros l; unfold tl_lows; apply app_nil_r).
  destruct a as [| | | | | | | | | | |s1|s1|s1|s1]; try discriminate S; destruct b as [| | | | | | | | | | |s2|s2|s2|s2]; try discriminate Kd; cbn [value_eqb v_in lows highs] in *.
  - apply (joint_list (bs_ranges s1) None (bs_ranges s2) None).
    + unfold wk. rewrite L0. auto.
    + unfold wk. rewrite L0. auto.
    + intros t. unfold tl_in. rewrite !orb_false_r. apply E.
    + rewrite !L0. exact J.
  - unfold lbs_eqb, bs_eqb. apply andb_true_iff.
    apply (joint_list _ (Some (lbs_lbr s1)) _ (Some (lbs_lbr s2))).
    + unfold wk, tl_lows. auto.
    + unfold wk, tl_lows. auto.
    + intros t. unfold tl_in. rewrite !(orb_comm (bl_in _ _)). apply E.
    + exact J.
  - apply andb_prop in Va as [Wa Sa]. apply andb_prop in Vb as [Wb Sb].
    destruct (joint_head (ubs_ubr s1) (bs_ranges (ubs_ranges s1)) None (ubs_ubr s2) (bs_ranges (ubs_ranges s2)) None)
      as (H1 & H2 & _).
    + unfold wk_head, wk. rewrite L0. unfold starts_after. rewrite andb_true_r. cbn [In] in *. repeat split; auto.
    + unfold wk_head, wk. rewrite L0. unfold starts_after. rewrite andb_true_r. cbn [In] in *. repeat split; auto.
    + intros t. unfold tl_in. rewrite !orb_false_r. apply E.
    + rewrite !L0. exact J.
    + unfold ubs_eqb, bs_eqb. rewrite H1, H2. reflexivity.
  - assert (P : forall x, wf_us (Piecewise x) = true -> (forall u, In u (highs (VUS (Piecewise x))) -> K (ucut u)) ->
      (forall l, In l (lows (VUS (Piecewise x))) -> K (lcut l)) ->
      wk_head (pus_ubr x) (bs_ranges (pus_ranges x)) (Some (pus_lbr x))).
    { intros x W Ku Kl. cbn [wf_us] in W. apply wf_pus_head in W as [A W]. cbn [highs lows In] in *. unfold wk_head, wk, tl_lows. repeat split; auto. }
    assert (F : forall x, wk_head (pus_ubr x) (bs_ranges (pus_ranges x)) (Some (pus_lbr x)) ->
      (forall t, pus_in x (at_elt t) = true) -> (forall c, ~ jt (highs (VUS (Piecewise x))) (lows (VUS (Piecewise x))) c) -> False).
    { intros x (K1 & A & S1) H NJ. destruct (gap_or_joint (ubr_end (pus_ubr x)) _ _ A) as [G|(y & Hy & Cy)].
      - destruct (wk_missing_above _ _ _ S1 K1 G) as (t & H1 & N).
        specialize (H t). rewrite pus_in_tl, N, orb_false_r in H. unfold at_elt in H. clear - OL H H1. ranges.
      - apply (NJ (ucut (ubr_end (pus_ubr x)))). exists (ubr_end (pus_ubr x)), y.
        repeat split; [left; reflexivity|exact Hy|unfold ceq; clear - OL; crank|exact Cy]. }
    destruct s1 as [|x], s2 as [|y]; cbn [us_eqb v_in lows highs] in *; try reflexivity.
    + exfalso. apply (F y); [apply P; auto| |]; [intros t; symmetry; apply E|]. intros c Hc. apply J in Hc as (u & z & [] & _).
    + exfalso. apply (F x); [apply P; auto| |]; [intros t; apply E|]. intros c Hc. apply J in Hc as (u & z & [] & _).
    + destruct (joint_head _ _ _ _ _ _ (P x Va Kua Kla) (P y Vb Kub Klb)) as (H1 & H2 & H3).
      * intros t. rewrite <- !pus_in_tl. apply E.
      * exact J.
      * unfold pus_eqb, bs_eqb. cbn [tail_eqb] in H3. rewrite H1, H2, H3. reflexivity.
Qed.
End Contents.

(** Conversely. *)
Lemma eqb_bounds (l1 l2 : list (BoundedRange T)) : vd_eqb br_eqb l1 l2 = true ->
  (forall u, In u (ends l1) -> exists v, In v (ends l2) /\ ceq (ucut u) (ucut v) = true) /\
  (forall x, In x (map br_start l1) -> exists y, In y (map br_start l2) /\ ceq (lcut x) (lcut y) = true).
Proof.
  revert l2. induction l1 as [|r1 l1 IH]; intros [|r2 l2] E; try discriminate; [split; intros ? []|].
  cbn [vd_eqb] in E. apply andb_prop in E as [E1 E2]. destruct (IH l2 E2) as [I1 I2].
  unfold br_eqb in E1. apply andb_prop in E1 as [E0 E1]. rewrite lb_eqb_cut in E0. rewrite ub_eqb_cut in E1. cbn [map In]. split.
  - intros u [<-|Hu]; [eauto|]. destruct (I1 u Hu) as (v & Hv & Ev). eauto.
  - intros u [<-|Hu]; [eauto|]. destruct (I2 u Hu) as (v & Hv & Ev). eauto.
Qed.
Lemma value_eqb_bounds (a b : value T) : is_set (kind_of a) = true -> value_eqb a b = true ->
  (forall u, In u (highs a) -> exists v, In v (highs b) /\ ceq (ucut u) (ucut v) = true) /\
  (forall x, In x (lows a) -> exists y, In y (lows b) /\ ceq (lcut x) (lcut y) = true).
Proof.
  intros S E.
  destruct a as [| | | | | | | | | | |s1|s1|s1|[|s1]]; try discriminate S; destruct b as [| | | | | | | | | | |s2|s2|s2|[|s2]]; try discriminate E;
    cbn [value_eqb us_eqb lows highs] in *.
  - exact (eqb_bounds _ _ E).
  - unfold lbs_eqb, bs_eqb, lbr_eqb in E. apply andb_prop in E as [E E2]. rewrite lb_eqb_cut in E2. destruct (eqb_bounds _ _ E) as [I1 I2].
    split; [exact I1|]. intros x Hx. apply in_app_or in Hx as [Hx|[<-|[]]].
    + destruct (I2 x Hx) as (y & Hy & Ey). exists y. split; [apply in_or_app; auto|exact Ey].
    + eexists. split; [apply in_or_app; right; left; reflexivity|exact E2].
  - unfold ubs_eqb, bs_eqb, ubr_eqb in E. apply andb_prop in E as [E2 E]. rewrite ub_eqb_cut in E2. destruct (eqb_bounds _ _ E) as [I1 I2].
    split; [|exact I2]. cbn [In]. intros x [<-|Hx]; [eauto|]. destruct (I1 x Hx) as (y & Hy & Ey). eauto.
  - split; intros ? [].
  - unfold pus_eqb, bs_eqb, ubr_eqb, lbr_eqb in E. apply andb_prop in E as [E E3]. apply andb_prop in E as [E2 E].
    rewrite ub_eqb_cut in E2. rewrite lb_eqb_cut in E3. destruct (eqb_bounds _ _ E) as [I1 I2]. split.
    + cbn [In]. intros x [<-|Hx]; [eauto|]. destruct (I1 x Hx) as (y & Hy & Ey). eauto.
    + intros x Hx. apply in_app_or in Hx as [Hx|[<-|[]]].
      * destruct (I2 x Hx) as (y & Hy & Ey). exists y. split; [apply in_or_app; auto|exact Ey].
      * eexists. split; [apply in_or_app; right; left; reflexivity|exact E3].
Qed.
Lemma value_eqb_jt (a b : value T) : is_set (kind_of a) = true -> value_eqb a b = true ->
  forall c, jt (highs a) (lows a) c -> jt (highs b) (lows b) c.
Proof.
  intros S E c (u & x & Hu & Hx & C1 & C2). destruct (value_eqb_bounds a b S E) as [B1 B2].
  destruct (B1 u Hu) as (v & Hv & Ev), (B2 x Hx) as (y & Hy & Ey). exists v, y. repeat split; auto; unfold ceq in *; clear - OL Ev Ey C1 C2; crank.
Qed.

Lemma exact_dense {D : DenseOrd T} (a b : value T) :
  is_set (kind_of a) = true -> kind_of a = kind_of b -> valid a -> valid b ->
  (value_eqb a b = true <-> (forall t, mem a t <-> mem b t) /\ (forall x, joined a x <-> joined b x)).
Proof.
  intros S Kd Va Vb. rewrite jt_joined_iff. split.
  - intros E. split; [intros t; apply valid_same_places_eq, E|]. intros c. split; [apply value_eqb_jt; assumption|].
    apply value_eqb_jt; [rewrite <- Kd; exact S|]. apply value_eqb_sym, E.
  - intros [M J]. apply (joint_value (fun _ => True)); auto.
    + intros [x p] [y q] _ _ C. unfold clt, cle in *. simpl in *.
      destruct (cmp x y) eqn:E.
      * exists x. unfold pt. simpl. rewrite cmp_refl. rewrite (cmp_opp x y), E in *. destruct p, q; try discriminate; auto.
      * destruct (dense_between x y E) as (t & G1 & G2). exists t. unfold pt. simpl. unfold lt in *. rewrite G1.
        split; [reflexivity|]. rewrite (cmp_opp t y), G2. reflexivity.
      * rewrite (cmp_opp x y), E in C. discriminate.
    + intros [x p] _. destruct (dense_above x) as (t & Ht). exists t. unfold cle. simpl. unfold lt in Ht. rewrite Ht. reflexivity.
Qed.
Lemma exact_half_open (a b : value T) :
  is_set (kind_of a) = true -> kind_of a = kind_of b -> valid a -> valid b -> half_open a -> half_open b ->
  (value_eqb a b = true <-> (forall t, mem a t <-> mem b t) /\ (forall x, joined a x <-> joined b x)).
Proof.
  intros S Kd Va Vb [La Ha] [Lb Hb]. rewrite jt_joined_iff. split.
  - intros E. split; [intros t; apply valid_same_places_eq, E|]. intros c. split; [apply value_eqb_jt; assumption|].
    apply value_eqb_jt; [rewrite <- Kd; exact S|]. apply value_eqb_sym, E.
  - intros [M J]. apply (joint_value (fun c => snd c = false)); auto.
    + intros [x p] d Hc _ C. simpl in Hc. subst p. exists x. split; [|exact C]. unfold cle, pt. simpl. rewrite cmp_refl. reflexivity.
    + intros [x p] Hc. simpl in Hc. subst p. exists x. unfold cle, pt. simpl. rewrite cmp_refl. reflexivity.
    + intros u Hu. apply in_app_or in Hu as [Hu|Hu]; [apply Ha in Hu|apply Hb in Hu]; destruct Hu as [x ->]; reflexivity.
    + intros l Hl. apply in_app_or in Hl as [Hl|Hl]; [apply La in Hl|apply Lb in Hl]; destruct Hl as [x ->]; reflexivity.
Qed.
End JointProofs.
