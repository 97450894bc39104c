(** Consequences of the provenance of bounds on lawful orders: piece counts,
    exact emptiness tests on ranges with inclusive starts, and when equal
    contents imply [==]. *)
From Coq Require Import Lia ZifyBool.
From Verif Require Import Base ModelBound ModelRanges ModelSets ModelAlgebra ModelValue ModelEq Spec SpecBounds Reach
  Order Cuts SetProofs AlgebraProofs ValueProofs Canon Laws Laws2 Provenance.

Section BoundsProofs.
Context {T : Type} {OT : Ord T} {OL : OrdLaws T}.

(** ** Inclusive starts *)

Lemma forallb_exists_false {A} (f : A -> bool) (l : list A) :
  forallb f l = false -> exists x, In x l /\ f x = false.
Proof.
  induction l as [|x l IH]; [discriminate|]. simpl. destruct (f x) eqn:E; simpl; intros H.
  - destruct (IH H) as (y & Hy & Ey). exists y. auto.
  - exists x. auto.
Qed.


Lemma closed_piece (a : T) (u : UpperBound T) :
  br_is_empty (BR (LB (Included a)) u) = false -> in_range (BR (LB (Included a)) u) a.
Proof.
  unfold br_is_empty, in_range, le, lt, t_gt, t_ge, t_partial_cmp. simpl. unfold le. rewrite cmp_refl.
  destruct u as [[b|b]]; simpl; unfold le, lt; destruct (cmp a b); simpl; intuition congruence.
Qed.
Lemma closed_elt (v : value T) :
  fresh v -> closed_below v -> has_lower (kind_of v) = true -> is_empty v = false -> exists t, mem v t.
Proof.
  intros Fv Cv Lv Ev. destruct v as [r|r|r|r|r|r|r|r|r|r|r|s|s|s|s]; try discriminate; simpl in *.
  - exists (rg_start r). pose proof (closed_piece (rg_start r) (UB (Excluded (rg_end r))) Ev) as [H1 H2].
    split; assumption.
  - exists (ri_start r). pose proof (closed_piece (ri_start r) (UB (Included (ri_end r))) Ev) as [H1 H2].
    rewrite Fv. split; assumption.
  - exists (rf_start r). unfold le. rewrite cmp_refl. discriminate.
  - destruct (Cv (br_start r)) as [a Ha]; [simpl; auto|]. destruct r as [l u]. simpl in *. subst l.
    exists a. apply closed_piece, Ev.
  - destruct (Cv (lbr_start r)) as [a Ha]; [simpl; auto|]. rewrite Ha. exists a. simpl. unfold le. rewrite cmp_refl. discriminate.
  - unfold bs_is_empty in Ev. destruct (forallb_exists_false _ _ Ev) as (r & Hr & Er).
    destruct (Cv (br_start r)) as [a Ha]; [apply in_map, Hr|]. exists a, r. split; [exact Hr|].
    destruct r as [l u]. simpl in *. subst l. apply closed_piece, Er.
  - destruct (Cv (lbr_start (lbs_lbr s))) as [a Ha]; [apply in_or_app; simpl; auto|].
    exists a. right. rewrite Ha. simpl. unfold le. rewrite cmp_refl. discriminate.
Qed.

Lemma is_empty_closed (v : value T) :
  fresh v -> closed_below v -> has_lower (kind_of v) = true ->
  (is_empty v = true <-> forall t, ~ mem v t).
Proof.
  intros Fv Cv Lv. split; [intros E t; apply is_empty_no_mem, E|].
  intros H. destruct (is_empty v) eqn:E; [reflexivity|].
  destruct (closed_elt v Fv Cv Lv E) as [t Ht]. destruct (H t Ht).
Qed.

Lemma intersects_closed (a b : value T) :
  fresh a -> fresh b -> closed_below a -> closed_below b -> has_lower (kind_of a) || has_lower (kind_of b) = true ->
  (intersects a b = Ret true <-> exists t, mem a t /\ mem b t).
Proof.
  intros Fa Fb Ca Cb Lab. destruct (inter_subset a b Fa Fb) as (r & E & Hr).
  assert (Kr : kind_of r = inter_kind (kind_of a) (kind_of b)) by (apply (kinds_ok a b r), E).
  destruct (inter_kind_crate (kind_of a) (kind_of b)) as [_ NI].
  assert (Fr : fresh r) by (destruct r; simpl in *; auto; congruence).
  assert (Cr : closed_below r).
  { intros l Hl. apply (proj1 (bounds_intersection a b r E)) in Hl. apply in_app_or in Hl as []; auto. }
  assert (Lr : has_lower (kind_of r) = true \/ is_none (kind_of a) || is_none (kind_of b) = true).
  { rewrite Kr. unfold inter_kind. destruct (is_none (kind_of a) || is_none (kind_of b)); [auto|left].
    rewrite Lab. destruct (is_set (kind_of a) || is_set (kind_of b)), (has_upper (kind_of a) || has_upper (kind_of b)); reflexivity. }
  unfold intersects, disjoint. rewrite E. simpl. split.
  - intros H. injection H as H. apply negb_true_iff in H.
    destruct Lr as [Lr|N].
    + destruct (closed_elt r Fr Cr Lr H) as [t Ht]. exists t. apply Hr, (contains_mem r t), Ht.
    + exfalso. rewrite <- Bool.not_true_iff_false in H. apply H.
      assert (Nr : is_none (kind_of r) = true) by (rewrite Kr; unfold inter_kind; rewrite N; reflexivity).
      destruct r; try discriminate. reflexivity.
  - intros (t & Ha & Hb). f_equal. apply negb_true_iff.
    destruct (both_lbs (kind_of a) (kind_of b)) eqn:Bl.
    + assert (K2 : kind_of r = KLowerBoundedSet) by (rewrite Kr; destruct (kind_of a), (kind_of b); try discriminate; reflexivity).
      destruct r; try discriminate. reflexivity.
    + destruct (inter_mem a b Fa Fb Bl) as (r' & E' & Hr'). rewrite E in E'. injection E' as <-.
      destruct (is_empty r) eqn:Er; [|reflexivity]. exfalso.
      apply (is_empty_no_mem r t Er). apply contains_mem, Hr'. auto.
Qed.

(** ** Equal contents imply [==] *)

Section Contents.
(** The cuts [K] that occur are such that an element lies between any two of
    them, and one above each. *)
Variable K : cut T -> Prop.
Hypothesis between : forall c d, K c -> K d -> clt c d = true -> exists t, cle c (pt t) = true /\ clt (pt t) d = true.
Hypothesis beyond : forall c, K c -> exists t, cle c (pt t) = true.

Definition nxt (l : list (BoundedRange T)) (o : option (LowerBoundedRange T)) : option (cut T) :=
  match l, o with
  | r :: _, _ => Some (lcut (br_start r))
  | [], Some d => Some (lcut (lbr_start d))
  | [], None => None
  end.
Definition strictly (c : cut T) (o : option (cut T)) : bool :=
  match o with Some s => clt c s | None => true end.
Fixpoint strict (l : list (BoundedRange T)) (o : option (LowerBoundedRange T)) : Prop :=
  match l with
  | [] => match o with Some d => K (lcut (lbr_start d)) | None => True end
  | r :: l' => K (lcut (br_start r)) /\ K (ucut (br_end r)) /\ room r = true
               /\ strictly (ucut (br_end r)) (nxt l' o) = true /\ strict l' o
  end.

Lemma nxt_in l o p : strict l o -> tl_in l o p = true -> exists s, nxt l o = Some s /\ K s /\ pabove s p = true.
Proof.
  revert p. induction l as [|r l IH]; intros p S I; unfold tl_in in I; simpl in I.
  - destruct o as [d|]; [|discriminate]. exists (lcut (lbr_start d)). auto.
  - exists (lcut (br_start r)). simpl. destruct S as (K1 & K2 & R & A & S). split; [reflexivity|]. split; [exact K1|].
    apply orb_true_iff in I as [I|I].
    + apply orb_true_iff in I as [I|I]; [clear - OL I; ranges|].
      destruct (IH p S) as (s & Es & _ & P); [unfold tl_in; rewrite I; reflexivity|].
      rewrite Es in A. simpl in A. clear - OL R A P. ranges.
    + destruct (IH p S) as (s & Es & _ & P); [unfold tl_in; rewrite I, orb_true_r; reflexivity|].
      rewrite Es in A. simpl in A. clear - OL R A P. ranges.
Qed.
Lemma nxt_K l o s : strict l o -> nxt l o = Some s -> K s.
Proof.
  destruct l as [|r l]; simpl; [destruct o as [d|]|]; intros S E; try discriminate; injection E as <-; tauto.
Qed.
Lemma missing l o c d :
  strict l o -> K c -> K d -> strictly c (nxt l o) = true -> clt c d = true ->
  exists t, cle c (pt t) = true /\ clt (pt t) d = true /\ tl_in l o (at_elt t) = false.
Proof.
  intros S Kc Kd A C. destruct (nxt l o) as [s|] eqn:N.
  - simpl in A. destruct (cle d s) eqn:E.
    + destruct (between c d Kc Kd C) as (t & H1 & H2). exists t. repeat split; auto.
      destruct (tl_in l o (at_elt t)) eqn:I; [|reflexivity]. destruct (nxt_in l o _ S I) as (s' & Es & _ & P).
      rewrite N in Es. injection Es as <-. unfold at_elt in P. clear - OL E H2 P. exfalso. ranges.
    + destruct (between c s Kc (nxt_K l o s S N) A) as (t & H1 & H2). exists t. repeat split; auto.
      * clear - OL E H2. crank.
      * destruct (tl_in l o (at_elt t)) eqn:I; [|reflexivity]. destruct (nxt_in l o _ S I) as (s' & Es & _ & P).
        rewrite N in Es. injection Es as <-. unfold at_elt in P. clear - OL H2 P. exfalso. ranges.
  - destruct (between c d Kc Kd C) as (t & H1 & H2). exists t. repeat split; auto.
    destruct (tl_in l o (at_elt t)) eqn:I; [|reflexivity]. destruct (nxt_in l o _ S I) as (s' & Es & _ & P). congruence.
Qed.
Lemma missing_above l o c :
  strict l o -> K c -> strictly c (nxt l o) = true ->
  exists t, cle c (pt t) = true /\ tl_in l o (at_elt t) = false.
Proof.
  intros S Kc A. destruct (nxt l o) as [s|] eqn:N.
  - destruct (missing l o c s S Kc (nxt_K l o s S N)) as (t & H1 & _ & H2); [rewrite N; exact A|exact A|].
    exists t. auto.
  - destruct (beyond c Kc) as (t & H). exists t. split; [exact H|].
    destruct (tl_in l o (at_elt t)) eqn:I; [|reflexivity]. destruct (nxt_in l o _ S I) as (s' & Es & _ & P). congruence.
Qed.

(** The first part of a list contains an element below any later cut. *)
Lemma first_elt l o s d :
  strict l o -> nxt l o = Some s -> K d -> clt s d = true ->
  exists t, clt (pt t) d = true /\ tl_in l o (at_elt t) = true.
Proof.
  intros S N Kd C. unfold tl_in. destruct l as [|r l]; simpl in N.
  - destruct o as [e|]; [|discriminate]. injection N as <-.
    destruct (between _ d S Kd C) as (t & H1 & H2). exists t. split; [exact H2|]. simpl. exact H1.
  - injection N as <-. destruct S as (K1 & K2 & R & _ & _). destruct (cle d (ucut (br_end r))) eqn:E.
    + destruct (between _ d K1 Kd C) as (t & H1 & H2). exists t. split; [exact H2|]. simpl.
      assert (I : br_in r (at_elt t) = true) by (unfold at_elt; clear - OL E H1 H2; ranges).
      rewrite I. reflexivity.
    + destruct (between (lcut (br_start r)) (ucut (br_end r)) K1 K2) as (t & H1 & H2); [clear - OL R; ranges|].
      exists t. split; [clear - OL E H2; crank|]. simpl.
      assert (I : br_in r (at_elt t) = true) by (unfold at_elt; clear - OL H1 H2; ranges).
      rewrite I. reflexivity.
Qed.
Lemma some_elt l o s : strict l o -> nxt l o = Some s -> exists t, tl_in l o (at_elt t) = true.
Proof.
  intros S N. unfold tl_in. destruct l as [|r l]; simpl in N.
  - destruct o as [e|]; [|discriminate]. destruct (beyond _ S) as (t & H). exists t. exact H.
  - destruct S as (K1 & K2 & R & _ & _).
    destruct (between (lcut (br_start r)) (ucut (br_end r)) K1 K2) as (t & H1 & H2); [clear - OL R; ranges|].
    exists t. simpl. assert (I : br_in r (at_elt t) = true) by (unfold at_elt; clear - OL H1 H2; ranges).
    rewrite I. reflexivity.
Qed.
Lemma nxt_le l1 o1 l2 o2 s1 s2 :
  strict l1 o1 -> strict l2 o2 -> nxt l1 o1 = Some s1 -> nxt l2 o2 = Some s2 ->
  (forall t, tl_in l1 o1 (at_elt t) = tl_in l2 o2 (at_elt t)) -> cle s2 s1 = true.
Proof.
  intros S1 S2 N1 N2 H. destruct (cle s2 s1) eqn:E; [reflexivity|exfalso].
  destruct (first_elt l1 o1 s1 s2 S1 N1 (nxt_K l2 o2 s2 S2 N2)) as (t & Ht & I); [unfold clt; rewrite E; reflexivity|].
  rewrite H in I. destruct (nxt_in l2 o2 _ S2 I) as (s & Es & _ & P). rewrite N2 in Es. injection Es as <-.
  unfold at_elt in P. clear - OL Ht P. ranges.
Qed.
Lemma nxt_none l1 o1 l2 o2 s1 :
  strict l1 o1 -> strict l2 o2 -> nxt l1 o1 = Some s1 -> nxt l2 o2 = None ->
  (forall t, tl_in l1 o1 (at_elt t) = tl_in l2 o2 (at_elt t)) -> False.
Proof.
  intros S1 S2 N1 N2 H. destruct (some_elt l1 o1 s1 S1 N1) as (t & I). rewrite H in I.
  destruct (nxt_in l2 o2 _ S2 I) as (s & Es & _). congruence.
Qed.
Lemma end_cut r1 l1 o1 r2 l2 o2 :
  strict (r1 :: l1) o1 -> strict (r2 :: l2) o2 ->
  (forall t, tl_in (r1 :: l1) o1 (at_elt t) = tl_in (r2 :: l2) o2 (at_elt t)) ->
  cle (lcut (br_start r2)) (lcut (br_start r1)) = true ->
  cle (ucut (br_end r2)) (ucut (br_end r1)) = true.
Proof.
  intros (K1 & K1' & R1 & A1 & S1) (K2 & K2' & R2 & A2 & S2) H C.
  destruct (cle (ucut (br_end r2)) (ucut (br_end r1))) eqn:E; [reflexivity|exfalso].
  destruct (missing l1 o1 (ucut (br_end r1)) (ucut (br_end r2)) S1 K1' K2' A1) as (t & H1 & H2 & N);
    [unfold clt; rewrite E; reflexivity|].
  specialize (H t). unfold tl_in in *. simpl in H.
  assert (I1 : br_in r1 (at_elt t) = false) by (unfold at_elt; clear - OL H1; ranges).
  assert (I2 : br_in r2 (at_elt t) = true) by (unfold at_elt; clear - OL H1 H2 C R1; ranges).
  rewrite I1, I2 in H. simpl in H. rewrite N in H. discriminate.
Qed.
Lemma piece_not_tail r l o (d : LowerBoundedRange T) :
  strict (r :: l) o -> K (lcut (lbr_start d)) ->
  (forall t, tl_in (r :: l) o (at_elt t) = tl_in [] (Some d) (at_elt t)) -> False.
Proof.
  intros S Kd H.
  assert (C : cle (lcut (lbr_start d)) (lcut (br_start r)) = true).
  { apply (nxt_le (r :: l) o [] (Some d)); auto. }
  destruct S as (K1 & K2 & R & A & S).
  destruct (missing_above l o (ucut (br_end r)) S K2 A) as (t & H1 & N).
  specialize (H t). unfold tl_in in *. simpl in H.
  assert (I1 : br_in r (at_elt t) = false) by (unfold at_elt; clear - OL H1; ranges).
  assert (I2 : lbr_in d (at_elt t) = true) by (unfold at_elt; clear - OL H1 C R; ranges).
  rewrite I1, I2 in H. simpl in H. rewrite N in H. discriminate.
Qed.

Lemma same_list l1 o1 l2 o2 :
  strict l1 o1 -> strict l2 o2 -> (forall t, tl_in l1 o1 (at_elt t) = tl_in l2 o2 (at_elt t)) ->
  vd_eqb br_eqb l1 l2 = true /\ tail_eqb o1 o2 = true.
Proof.
  revert l2. induction l1 as [|r1 l1 IH]; intros l2 S1 S2 H;
    pose proof (fun t => eq_sym (H t)) as H'; cbv beta in H'.
  - destruct l2 as [|r2 l2].
    + split; [reflexivity|]. destruct o1 as [d1|], o2 as [d2|]; simpl; try reflexivity.
      * unfold lbr_eqb. rewrite lb_eqb_cut. unfold ceq.
        rewrite (nxt_le [] (Some d1) [] (Some d2) _ _ S1 S2 eq_refl eq_refl H).
        rewrite (nxt_le [] (Some d2) [] (Some d1) _ _ S2 S1 eq_refl eq_refl H'). reflexivity.
      * exact (False_ind _ (nxt_none _ _ _ _ _ S1 S2 eq_refl eq_refl H)).
      * exact (False_ind _ (nxt_none _ _ _ _ _ S2 S1 eq_refl eq_refl H')).
    + exfalso. destruct o1 as [d1|].
      * exact (piece_not_tail r2 l2 o2 d1 S2 S1 H').
      * exact (nxt_none _ _ _ _ _ S2 S1 eq_refl eq_refl H').
  - destruct l2 as [|r2 l2].
    + exfalso. destruct o2 as [d2|].
      * exact (piece_not_tail r1 l1 o1 d2 S1 S2 H).
      * exact (nxt_none _ _ _ _ _ S1 S2 eq_refl eq_refl H).
    + pose proof (nxt_le _ _ _ _ _ _ S1 S2 eq_refl eq_refl H) as C1.
      pose proof (nxt_le _ _ _ _ _ _ S2 S1 eq_refl eq_refl H') as C2.
      pose proof (end_cut _ _ _ _ _ _ S1 S2 H C1) as E1.
      pose proof (end_cut _ _ _ _ _ _ S2 S1 H' C2) as E2.
      destruct S1 as (_ & _ & R1 & A1 & S1), S2 as (_ & _ & R2 & A2 & S2).
      assert (HT : forall t, tl_in l1 o1 (at_elt t) = tl_in l2 o2 (at_elt t)).
      { intros t. specialize (H t). unfold tl_in in H. simpl in H. rewrite <- !orb_assoc in H.
        fold (tl_in l1 o1 (at_elt t)) in H. fold (tl_in l2 o2 (at_elt t)) in H.
        assert (B : br_in r1 (at_elt t) = br_in r2 (at_elt t)) by (unfold at_elt; clear - OL C1 C2 E1 E2; ranges).
        rewrite B in H. destruct (br_in r2 (at_elt t)) eqn:I2; [|exact H].
        destruct (tl_in l1 o1 (at_elt t)) eqn:J1.
        { exfalso. destruct (nxt_in l1 o1 _ S1 J1) as (s & Es & _ & P). rewrite Es in A1. simpl in A1.
          unfold at_elt in *. clear - OL B A1 P. ranges. }
        destruct (tl_in l2 o2 (at_elt t)) eqn:J2; [|reflexivity].
        exfalso. destruct (nxt_in l2 o2 _ S2 J2) as (s & Es & _ & P). rewrite Es in A2. simpl in A2.
        unfold at_elt in *. clear - OL I2 A2 P. ranges. }
      destruct (IH l2 S1 S2 HT) as [Q1 Q2]. split; [|exact Q2]. simpl. rewrite Q1, andb_true_r.
      unfold br_eqb. rewrite lb_eqb_cut, ub_eqb_cut. unfold ceq. rewrite C1, C2, E1, E2. reflexivity.
Qed.

Definition strict_head (u : UpperBoundedRange T) l o : Prop :=
  K (ucut (ubr_end u)) /\ strictly (ucut (ubr_end u)) (nxt l o) = true /\ strict l o.

Lemma same_head u1 l1 o1 u2 l2 o2 :
  strict_head u1 l1 o1 -> strict_head u2 l2 o2 ->
  (forall t, ubr_in u1 (at_elt t) || tl_in l1 o1 (at_elt t) = ubr_in u2 (at_elt t) || tl_in l2 o2 (at_elt t)) ->
  ubr_eqb u1 u2 = true /\ vd_eqb br_eqb l1 l2 = true /\ tail_eqb o1 o2 = true.
Proof.
  intros (K1 & A1 & S1) (K2 & A2 & S2) H.
  assert (L : forall u1 l1 o1 u2 l2 o2, strict_head u1 l1 o1 -> strict_head u2 l2 o2 ->
    (forall t, ubr_in u1 (at_elt t) || tl_in l1 o1 (at_elt t) = ubr_in u2 (at_elt t) || tl_in l2 o2 (at_elt t)) ->
    cle (ucut (ubr_end u2)) (ucut (ubr_end u1)) = true).
  { clear - OL between. intros u1 l1 o1 u2 l2 o2 (K1 & A1 & S1) (K2 & A2 & S2) H.
    destruct (cle (ucut (ubr_end u2)) (ucut (ubr_end u1))) eqn:E; [reflexivity|exfalso].
    destruct (missing l1 o1 _ _ S1 K1 K2 A1) as (t & H1 & H2 & N); [unfold clt; rewrite E; reflexivity|].
    specialize (H t). rewrite N in H.
    assert (I1 : ubr_in u1 (at_elt t) = false) by (unfold at_elt; clear - OL H1; ranges).
    assert (I2 : ubr_in u2 (at_elt t) = true) by (unfold at_elt; clear - OL H2; ranges).
    rewrite I1, I2 in H. discriminate. }
  assert (U1 : cle (ucut (ubr_end u2)) (ucut (ubr_end u1)) = true)
    by (apply (L u1 l1 o1 u2 l2 o2); unfold strict_head; auto).
  assert (U2 : cle (ucut (ubr_end u1)) (ucut (ubr_end u2)) = true)
    by (apply (L u2 l2 o2 u1 l1 o1); unfold strict_head; auto).
  split; [unfold ubr_eqb; rewrite ub_eqb_cut; unfold ceq; rewrite U1, U2; reflexivity|].
  apply same_list; auto. intros t. specialize (H t).
  assert (B : ubr_in u1 (at_elt t) = ubr_in u2 (at_elt t)) by (unfold at_elt; clear - OL U1 U2; ranges).
  rewrite B in H. destruct (ubr_in u2 (at_elt t)) eqn:I2; [|exact H].
  destruct (tl_in l1 o1 (at_elt t)) eqn:J1.
  { exfalso. destruct (nxt_in l1 o1 _ S1 J1) as (s & Es & _ & P). rewrite Es in A1. simpl in A1.
    unfold at_elt in *. clear - OL B A1 P. ranges. }
  destruct (tl_in l2 o2 (at_elt t)) eqn:J2; [|reflexivity].
  exfalso. destruct (nxt_in l2 o2 _ S2 J2) as (s & Es & _ & P). rewrite Es in A2. simpl in A2.
  unfold at_elt in *. clear - OL I2 A2 P. ranges.
Qed.

(** From the invariant and separation. *)
Lemma touches_cut (u : UpperBound T) (l : LowerBound T) :
  ~ touches u l -> cle (ucut u) (lcut l) = true -> clt (ucut u) (lcut l) = true.
Proof.
  unfold clt, cle, ucut, lcut, touches. destruct u as [[a|a]], l as [[b|b]]; simpl;
    rewrite (cmp_opp a b); destruct (cmp a b); simpl; intros; try reflexivity; try discriminate; exfalso; auto.
Qed.
Definition tl_lows l (o : option (LowerBoundedRange T)) : list (LowerBound T) :=
  map br_start l ++ match o with Some d => [lbr_start d] | None => [] end.
Lemma strictly_nxt (u : UpperBound T) l o :
  (forall x, In x (tl_lows l o) -> ~ touches u x) ->
  starts_after (ucut u) l o = true -> strictly (ucut u) (nxt l o) = true.
Proof.
  unfold starts_after, tl_lows. intros N S. apply andb_prop in S as [S1 S2]. destruct l as [|r l]; simpl.
  - destruct o as [d|]; [|reflexivity]. apply touches_cut; [|exact S2]. apply N. simpl. auto.
  - simpl in S1. apply andb_prop in S1 as [S1 _]. apply touches_cut; [|exact S1]. apply N. simpl. auto.
Qed.
Lemma strict_from l o :
  wft l o = true -> (forall u x, In u (map br_end l) -> In x (tl_lows l o) -> ~ touches u x) ->
  (forall u, In u (map br_end l) -> K (ucut u)) -> (forall x, In x (tl_lows l o) -> K (lcut x)) -> strict l o.
Proof.
  unfold tl_lows. induction l as [|r l IH]; intros W N Ku Kl; simpl.
  - destruct o as [d|]; [|exact I]. apply Kl. simpl. auto.
  - apply wft_cons in W as (R & A & W). repeat split.
    + apply Kl. simpl. auto.
    + apply Ku. simpl. auto.
    + exact R.
    + apply strictly_nxt; [|exact A]. intros x Hx. apply N; simpl; auto.
    + apply IH; auto.
      * intros u x Hu Hx. apply N; simpl; auto.
      * intros u Hu. apply Ku. simpl. auto.
      * intros x Hx. apply Kl. simpl. auto.
Qed.

Lemma pus_strict (x : PiecewiseUnboundedSet T) :
  wf_pus x = true -> separated (VUS (Piecewise x)) ->
  (forall u, In u (highs (VUS (Piecewise x))) -> K (ucut u)) ->
  (forall l, In l (lows (VUS (Piecewise x))) -> K (lcut l)) ->
  strict_head (pus_ubr x) (bs_ranges (pus_ranges x)) (Some (pus_lbr x)).
Proof.
  intros W N Ku Kl. apply wf_pus_head in W as [A W]. unfold separated in N. simpl in N, Ku, Kl. repeat split.
  - apply Ku. auto.
  - apply strictly_nxt; [|exact A]. intros l Hl. apply N; auto.
  - apply strict_from; auto.
Qed.

Lemma same_value (a b : value T) :
  is_set (kind_of a) = true -> kind_of a = kind_of b -> valid a -> valid b -> separated a -> separated b ->
  (forall u, In u (highs a ++ highs b) -> K (ucut u)) -> (forall l, In l (lows a ++ lows b) -> K (lcut l)) ->
  (forall t, mem a t <-> mem b t) -> value_eqb a b = true.
Proof.
  intros S Kd Va Vb Na Nb Ku Kl M. apply valid_wf in Va, Vb.
  assert (Kua : forall u, In u (highs a) -> K (ucut u)) by (intros; apply Ku, in_or_app; auto).
  assert (Kub : forall u, In u (highs b) -> K (ucut u)) by (intros; apply Ku, in_or_app; auto).
  assert (Kla : forall u, In u (lows a) -> K (lcut u)) by (intros; apply Kl, in_or_app; auto).
  assert (Klb : forall u, In u (lows b) -> K (lcut u)) by (intros; apply Kl, in_or_app; auto).
  clear Ku Kl.
  assert (Fa : fresh a) by (destruct a; try discriminate S; exact I).
  assert (Fb : fresh b) by (rewrite Kd in S; destruct b; try discriminate S; exact I).
  assert (E : forall t, v_in a (at_elt t) = v_in b (at_elt t)).
  { intros t. apply eq_true_iff_eq. rewrite <- (mem_v_in a t Fa), <- (mem_v_in b t Fb). apply M. }
  clear M Fa Fb. unfold separated in *.
  destruct a as [| | | | | | | | | | |s1|s1|s1|s1]; try discriminate S; destruct b as [| | | | | | | | | | |s2|s2|s2|s2]; try discriminate Kd; simpl in *.
  - apply (same_list (bs_ranges s1) None (bs_ranges s2) None).
    + apply strict_from; unfold tl_lows; rewrite ?app_nil_r; auto. unfold wft. rewrite andb_true_r. exact Va.
    + apply strict_from; unfold tl_lows; rewrite ?app_nil_r; auto. unfold wft. rewrite andb_true_r. exact Vb.
    + intros t. unfold tl_in. rewrite !orb_false_r. apply E.
  - unfold lbs_eqb, bs_eqb. apply andb_true_iff.
    apply (same_list _ (Some (lbs_lbr s1)) _ (Some (lbs_lbr s2))).
    + apply strict_from; unfold tl_lows; auto.
    + apply strict_from; unfold tl_lows; auto.
    + intros t. unfold tl_in. rewrite !(orb_comm (bl_in _ _)). apply E.
  - apply andb_prop in Va as [Wa Sa]. apply andb_prop in Vb as [Wb Sb].
    destruct (same_head (ubs_ubr s1) (bs_ranges (ubs_ranges s1)) None (ubs_ubr s2) (bs_ranges (ubs_ranges s2)) None)
      as (H1 & H2 & _).
    + repeat split; auto.
      * apply strictly_nxt; [|unfold starts_after; rewrite andb_true_r; exact Sa].
        unfold tl_lows. rewrite app_nil_r. auto.
      * apply strict_from; unfold tl_lows; rewrite ?app_nil_r; auto. unfold wft. rewrite andb_true_r. exact Wa.
    + repeat split; auto.
      * apply strictly_nxt; [|unfold starts_after; rewrite andb_true_r; exact Sb].
        unfold tl_lows. rewrite app_nil_r. auto.
      * apply strict_from; unfold tl_lows; rewrite ?app_nil_r; auto. unfold wft. rewrite andb_true_r. exact Wb.
    + intros t. unfold tl_in. rewrite !orb_false_r. apply E.
    + unfold ubs_eqb, bs_eqb. rewrite H1, H2. reflexivity.
  - assert (F : forall x, strict_head (pus_ubr x) (bs_ranges (pus_ranges x)) (Some (pus_lbr x)) ->
      (forall t, pus_in x (at_elt t) = true) -> False).
    { intros x (K1 & A & S1) H. destruct (missing_above _ _ _ S1 K1 A) as (t & H1 & N).
      specialize (H t). rewrite pus_in_tl, N, orb_false_r in H. unfold at_elt in H. clear - OL H H1. ranges. }
    destruct s1 as [|x], s2 as [|y]; simpl in *; try reflexivity.
    + exfalso. apply (F y); [apply pus_strict; auto|]. intros t. symmetry. apply E.
    + exfalso. apply (F x); [apply pus_strict; auto|]. intros t. apply E.
    + destruct (same_head _ _ _ _ _ _ (pus_strict x Va Na Kua Kla) (pus_strict y Vb Nb Kub Klb)) as (H1 & H2 & H3).
      * intros t. rewrite <- !pus_in_tl. apply E.
      * unfold pus_eqb, bs_eqb. simpl in H3. rewrite H1, H2, H3. reflexivity.
Qed.

End Contents.

Lemma same_value_dense {D : DenseOrd T} (a b : value T) :
  is_set (kind_of a) = true -> kind_of a = kind_of b -> valid a -> valid b -> separated a -> separated b ->
  (forall t, mem a t <-> mem b t) -> value_eqb a b = true.
Proof.
  intros. apply (same_value (fun _ => True)); auto.
  - intros [x p] [y q] _ _ C. unfold clt, cle in *. simpl in *.
    destruct (cmp x y) eqn:E.
    + exists x. unfold pt. simpl. rewrite cmp_refl. rewrite (cmp_opp x y), E in *. destruct p, q; try discriminate; auto.
    + destruct (dense_between x y E) as (t & G1 & G2). exists t. unfold pt. simpl. unfold lt in *. rewrite G1.
      split; [reflexivity|]. rewrite (cmp_opp t y), G2. reflexivity.
    + rewrite (cmp_opp x y), E in C. discriminate.
  - intros [x p] _. destruct (dense_above x) as (t & Ht). exists t. unfold cle. simpl. unfold lt in Ht. rewrite Ht. reflexivity.
Qed.
Lemma same_value_half_open (a b : value T) :
  is_set (kind_of a) = true -> kind_of a = kind_of b -> valid a -> valid b -> separated a -> separated b ->
  half_open a -> half_open b ->
  (forall t, mem a t <-> mem b t) -> value_eqb a b = true.
Proof.
  intros S Kd Va Vb Na Nb [La Ha] [Lb Hb] M. apply (same_value (fun c => snd c = false)); auto.
  - intros [x p] d Hc _ C. simpl in Hc. subst p. exists x. split; [|exact C]. unfold cle, pt. simpl. rewrite cmp_refl. reflexivity.
  - intros [x p] Hc. simpl in Hc. subst p. exists x. unfold cle, pt. simpl. rewrite cmp_refl. reflexivity.
  - intros u Hu. apply in_app_or in Hu as [Hu|Hu]; [apply Ha in Hu|apply Hb in Hu]; destruct Hu as [x ->]; reflexivity.
  - intros l Hl. apply in_app_or in Hl as [Hl|Hl]; [apply La in Hl|apply Lb in Hl]; destruct Hl as [x ->]; reflexivity.
Qed.

(** ** How many bounds *)

Lemma nodup_starts l o : wft l o = true -> NoDup (tl_lows l o).
Proof.
  unfold tl_lows. induction l as [|r l IH]; intros W; simpl.
  - destruct o; [constructor; [intros []|constructor]|constructor].
  - pose proof W as W0. apply wft_cons in W as (R & A & W). constructor; [|auto].
    intros H. unfold starts_after in A. apply andb_prop in A as [A1 A2]. apply in_app_or in H as [H|H].
    + apply in_map_iff in H as (x & Ex & Hx). pose proof (forallb_In _ _ x A1 Hx) as C. simpl in C. rewrite Ex in C.
      clear - OL R C. ranges.
    + destruct o as [d|]; [|destruct H]. destruct H as [E|[]]. rewrite E in A2. clear - OL R A2. ranges.
Qed.
Lemma wfl_rooms l : wfl l = true -> forallb room l = true.
Proof.
  induction l as [|r l IH]; [reflexivity|]. simpl. intros W.
  apply andb_prop in W as [W W2]. apply andb_prop in W as [R _]. rewrite R. auto.
Qed.
Lemma nodup_ends l : wfl l = true -> NoDup (map br_end l).
Proof.
  induction l as [|r l IH]; intros W; simpl; [constructor|]. simpl in W.
  apply andb_prop in W as [W W2]. apply andb_prop in W as [R S]. constructor; [|auto].
  intros H. apply in_map_iff in H as (x & Ex & Hx). pose proof (forallb_In _ _ x S Hx) as C.
  pose proof (forallb_In _ l x (wfl_rooms l W2) Hx) as R2. simpl in C, R2. unfold sep in C. unfold room in R2. rewrite Ex in R2.
  clear - OL R C R2. ranges.
Qed.
Lemma nodup_head (u : UpperBoundedRange T) l :
  wfl l = true -> forallb (fun r => sep_u u r) l = true -> NoDup (ubr_end u :: map br_end l).
Proof.
  intros W S. constructor; [|apply nodup_ends, W].
  intros H. apply in_map_iff in H as (x & Ex & Hx). pose proof (forallb_In _ _ x S Hx) as C.
  pose proof (forallb_In _ l x (wfl_rooms l W) Hx) as R2. simpl in C, R2. unfold sep_u in C. unfold room in R2. rewrite Ex in R2.
  clear - OL C R2. ranges.
Qed.
Lemma nodup_bounds (v : value T) : valid v -> NoDup (lows v) /\ NoDup (highs v).
Proof.
  assert (N1 : forall A (x : A), NoDup [x]) by (intros; constructor; [intros []|constructor]).
  assert (N0 : forall A, NoDup (@nil A)) by constructor.
  intros V. apply valid_wf in V. destruct v as [r|r|r|r|r|r|r|r|r|r|r|s|s|s|s]; simpl; auto; simpl in V.
  - split; [|apply nodup_ends, V]. rewrite <- (app_nil_r (map _ _)). apply (nodup_starts (bs_ranges s) None).
    unfold wft. rewrite andb_true_r. exact V.
  - split; [exact (nodup_starts _ (Some (lbs_lbr s)) V)|]. apply andb_prop in V as [V _]. apply nodup_ends, V.
  - apply andb_prop in V as [V S]. split; [|apply nodup_head; assumption].
    rewrite <- (app_nil_r (map _ _)). apply (nodup_starts (bs_ranges (ubs_ranges s)) None).
    unfold wft. rewrite andb_true_r. exact V.
  - destruct s as [|p]; simpl; auto. split; [apply (nodup_starts _ (Some (pus_lbr p))), wf_pus_head, V|].
    unfold wf_us, wf_pus in V. apply andb_prop in V as [V S]. apply andb_prop in V as [V F]. apply nodup_head; [exact V|].
    revert F. apply forallb_impl. intros r _ Hr. apply andb_prop in Hr. tauto.
Qed.

Lemma count_incl (v : value T) (ls : list (LowerBound T)) (hs : list (UpperBound T)) :
  valid v -> incl (lows v) ls -> incl (highs v) hs ->
  (length (lows v) <= length ls /\ length (highs v) <= length hs)%nat.
Proof.
  intros V I1 I2. destruct (nodup_bounds v V) as [N1 N2]. split; apply NoDup_incl_length; assumption.
Qed.

End BoundsProofs.
