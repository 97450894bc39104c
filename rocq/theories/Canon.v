(** Well-formed sets are canonical: the places covered determine the set up to
    [==]. *)
From Coq Require Import Lia ZifyBool.
From Verif Require Import Base ModelBound ModelRanges ModelSets ModelAlgebra ModelValue ModelEq Spec
  Order Cuts SetProofs AlgebraProofs ValueProofs.

Section Canon.
Context {T : Type} {OT : Ord T} {OL : OrdLaws T}.

Definition ceq (x y : cut T) : bool := cle x y && cle y x.

Lemma teq_match (a b : T) : teq a b = match cmp a b with Eq => true | _ => false end.
Proof.
  destruct (teq a b) eqn:E.
  - apply teq_cmp in E. rewrite E. reflexivity.
  - apply teq_false in E. destruct (cmp a b); congruence.
Qed.
Lemma lb_eqb_cut (x y : LowerBound T) : lb_eqb x y = ceq (lcut x) (lcut y).
Proof.
  destruct x as [[a|a]], y as [[b|b]]; unfold lb_eqb, bound_eqb, ceq, cle, lcut; simpl;
    rewrite ?teq_match; rewrite (cmp_opp a b); destruct (cmp a b); reflexivity.
Qed.
Lemma ub_eqb_cut (x y : UpperBound T) : ub_eqb x y = ceq (ucut x) (ucut y).
Proof.
  destruct x as [[a|a]], y as [[b|b]]; unfold ub_eqb, bound_eqb, ceq, cle, ucut; simpl;
    rewrite ?teq_match; rewrite (cmp_opp a b); destruct (cmp a b); reflexivity.
Qed.

(** ** Pieces followed by an optional half-line *)

Definition tl_in (l : list (BoundedRange T)) (o : option (LowerBoundedRange T)) (p : place T) : bool :=
  bl_in l p || match o with Some d => lbr_in d p | None => false end.
Definition wft (l : list (BoundedRange T)) (o : option (LowerBoundedRange T)) : bool :=
  wfl l && match o with Some d => forallb (fun r => sep_l r d) l | None => true end.
Definition starts_after (c : cut T) (l : list (BoundedRange T)) (o : option (LowerBoundedRange T)) : bool :=
  forallb (fun r => cle c (lcut (br_start r))) l
  && match o with Some d => cle c (lcut (lbr_start d)) | None => true end.

Lemma starts_after_in (c : cut T) l o p :
  starts_after c l o = true -> tl_in l o p = true -> pabove c p = true.
Proof.
  unfold starts_after, tl_in. intros S I. apply andb_prop in S as [S1 S2].
  apply orb_true_iff in I as [I|I].
  - apply existsb_exists in I as (r & Hr & I). pose proof (forallb_In _ _ r S1 Hr) as S. simpl in S.
    clear - OL S I. ranges.
  - destruct o as [d|]; [|discriminate]. clear - OL S2 I. ranges.
Qed.

Lemma wft_cons (r : BoundedRange T) l o :
  wft (r :: l) o = true ->
  room r = true /\ starts_after (ucut (br_end r)) l o = true /\ wft l o = true.
Proof.
  unfold wft, starts_after. simpl. intros W.
  apply andb_prop in W as [W W2]. apply andb_prop in W as [W W3]. apply andb_prop in W as [R S].
  split; [exact R|]. unfold sep in S. rewrite S, W3. simpl.
  destruct o as [d|]; [|split; reflexivity]. simpl in W2. apply andb_prop in W2 as [D W2].
  split; [exact D|exact W2].
Qed.

Lemma starts_after_weaken (c c' : cut T) l o :
  cle c c' = true -> starts_after c' l o = true -> starts_after c l o = true.
Proof.
  unfold starts_after. intros C S. apply andb_prop in S as [S1 S2]. apply andb_true_intro. split.
  - revert S1. apply forallb_impl. intros x _ H. clear - OL C H. crank.
  - destruct o as [d|]; [|reflexivity]. clear - OL C S2. crank.
Qed.

Lemma starts_after_self (r : BoundedRange T) l o :
  wft (r :: l) o = true -> starts_after (lcut (br_start r)) (r :: l) o = true.
Proof.
  intros W. apply wft_cons in W as (R & S & _).
  apply (starts_after_weaken (lcut (br_start r))) in S; [|clear - OL R; ranges].
  revert S. unfold starts_after. simpl. intros S. apply andb_prop in S as [S1 S2].
  rewrite S1, S2, andb_true_r. clear - OL. crank.
Qed.

(** The first place covered by a piece / a half-line. *)
Lemma first_place (r : BoundedRange T) : room r = true -> br_in r (lcut (br_start r), true) = true.
Proof. intros R. clear - OL R. ranges. Qed.

Lemma start_le (r1 r2 : BoundedRange T) l1 o1 l2 o2 :
  wft (r1 :: l1) o1 = true -> wft (r2 :: l2) o2 = true ->
  (forall p, tl_in (r1 :: l1) o1 p = tl_in (r2 :: l2) o2 p) ->
  cle (lcut (br_start r2)) (lcut (br_start r1)) = true.
Proof.
  intros W1 W2 H. apply wft_cons in W1 as (R1 & _ & _).
  specialize (H (lcut (br_start r1), true)).
  assert (I : tl_in (r1 :: l1) o1 (lcut (br_start r1), true) = true)
    by (unfold tl_in; simpl; rewrite first_place by exact R1; reflexivity).
  rewrite H in I. apply (starts_after_in _ _ _ _ (starts_after_self _ _ _ W2)) in I. exact I.
Qed.

Lemma end_le (r1 r2 : BoundedRange T) l1 o1 l2 o2 :
  wft (r1 :: l1) o1 = true ->
  (forall p, tl_in (r1 :: l1) o1 p = tl_in (r2 :: l2) o2 p) ->
  cle (lcut (br_start r2)) (lcut (br_start r1)) = true ->
  cle (ucut (br_end r2)) (ucut (br_end r1)) = true.
Proof.
  intros W1 H S. apply wft_cons in W1 as (R1 & A1 & _).
  destruct (cle (ucut (br_end r2)) (ucut (br_end r1))) eqn:E; [reflexivity|exfalso].
  specialize (H (ucut (br_end r1), false)).
  assert (I : br_in r2 (ucut (br_end r1), false) = true) by (clear - OL R1 S E; ranges).
  unfold tl_in in H. simpl in H. rewrite I in H. simpl in H.
  assert (N : br_in r1 (ucut (br_end r1), false) = false) by (clear - OL; ranges).
  rewrite N in H. simpl in H.
  pose proof (starts_after_in _ _ _ _ A1 H) as P. clear - OL P. ranges.
Qed.

Lemma tail_not_piece (r : BoundedRange T) l o (d : LowerBoundedRange T) :
  wft (r :: l) o = true -> (forall p, tl_in (r :: l) o p = lbr_in d p) -> False.
Proof.
  intros W H. pose proof (starts_after_self _ _ _ W) as S. apply wft_cons in W as (R & A & _).
  pose proof (H (lcut (br_start r), true)) as H1. unfold tl_in in H1. simpl in H1.
  rewrite first_place in H1 by exact R. simpl in H1.
  pose proof (H (ucut (br_end r), false)) as H2.
  assert (D : lbr_in d (ucut (br_end r), false) = true) by (symmetry in H1; clear - OL R H1; ranges).
  rewrite D in H2. unfold tl_in in H2. simpl in H2.
  assert (N : br_in r (ucut (br_end r), false) = false) by (clear - OL; ranges).
  rewrite N in H2. simpl in H2.
  pose proof (starts_after_in _ _ _ _ A H2) as P. clear - OL P. ranges.
Qed.

Definition tail_eqb (o1 o2 : option (LowerBoundedRange T)) : bool :=
  match o1, o2 with
  | Some a, Some b => lbr_eqb a b
  | None, None => true
  | _, _ => false
  end.

Lemma canon_list l1 o1 l2 o2 :
  wft l1 o1 = true -> wft l2 o2 = true -> (forall p, tl_in l1 o1 p = tl_in l2 o2 p) ->
  vd_eqb br_eqb l1 l2 = true /\ tail_eqb o1 o2 = true.
Proof.
  revert l2. induction l1 as [|r1 l1 IH]; intros l2 W1 W2 H.
  - destruct l2 as [|r2 l2].
    + split; [reflexivity|]. unfold tl_in in H. simpl in H.
      destruct o1 as [d1|], o2 as [d2|]; simpl; try reflexivity.
      * unfold lbr_eqb. rewrite lb_eqb_cut. unfold ceq.
        pose proof (H (lcut (lbr_start d1), true)) as H1. pose proof (H (lcut (lbr_start d2), true)) as H2.
        clear - OL H1 H2. ranges.
      * specialize (H (lcut (lbr_start d1), true)). clear - OL H. exfalso. ranges.
      * specialize (H (lcut (lbr_start d2), true)). clear - OL H. exfalso. ranges.
    + exfalso. destruct o1 as [d1|].
      * apply (tail_not_piece r2 l2 o2 d1 W2). intros p. rewrite <- H. reflexivity.
      * specialize (H (lcut (br_start r2), true)). apply wft_cons in W2 as (R2 & _).
        unfold tl_in in H. simpl in H. rewrite first_place in H by exact R2. discriminate.
  - destruct l2 as [|r2 l2].
    + exfalso. destruct o2 as [d2|].
      * apply (tail_not_piece r1 l1 o1 d2 W1). intros p. rewrite H. reflexivity.
      * specialize (H (lcut (br_start r1), true)). apply wft_cons in W1 as (R1 & _).
        unfold tl_in in H. simpl in H. rewrite first_place in H by exact R1. discriminate.
    + pose proof (start_le _ _ _ _ _ _ W1 W2 H) as S1.
      assert (H' : forall p, tl_in (r2 :: l2) o2 p = tl_in (r1 :: l1) o1 p) by (intros p; symmetry; apply H).
      pose proof (start_le _ _ _ _ _ _ W2 W1 H') as S2.
      pose proof (end_le _ _ _ _ _ _ W1 H S1) as E1.
      pose proof (end_le _ _ _ _ _ _ W2 H' S2) as E2.
      apply wft_cons in W1 as (R1 & A1 & W1). apply wft_cons in W2 as (R2 & A2 & W2).
      assert (HT : forall p, tl_in l1 o1 p = tl_in l2 o2 p).
      { intros p. specialize (H p). unfold tl_in in H. simpl in H.
        assert (B : br_in r1 p = br_in r2 p) by (clear - OL S1 S2 E1 E2; ranges).
        rewrite B in H. destruct (br_in r2 p) eqn:I2.
        - assert (N1 : tl_in l1 o1 p = false).
          { destruct (tl_in l1 o1 p) eqn:I; [|reflexivity].
            apply (starts_after_in _ _ _ _ A1) in I. clear - OL B I2 I. ranges. }
          assert (N2 : tl_in l2 o2 p = false).
          { destruct (tl_in l2 o2 p) eqn:I; [|reflexivity].
            apply (starts_after_in _ _ _ _ A2) in I. clear - OL I2 I. ranges. }
          rewrite N1, N2. reflexivity.
        - exact H. }
      destruct (IH l2 W1 W2 HT) as [Q1 Q2]. split; [|exact Q2]. simpl. rewrite Q1, andb_true_r.
      unfold br_eqb. rewrite lb_eqb_cut, ub_eqb_cut. unfold ceq. rewrite S1, S2, E1, E2. reflexivity.
Qed.

(** ** Each set type *)

Lemma canon_bs (a b : BoundedSet T) :
  wf_bs a = true -> wf_bs b = true -> (forall p, bs_in a p = bs_in b p) -> bs_eqb a b = true.
Proof.
  intros Wa Wb H. apply (canon_list (bs_ranges a) None (bs_ranges b) None).
  - unfold wft. rewrite andb_true_r. exact Wa.
  - unfold wft. rewrite andb_true_r. exact Wb.
  - intros p. unfold tl_in. rewrite !orb_false_r. apply H.
Qed.
Lemma canon_lbs (a b : LowerBoundedSet T) :
  wf_lbs a = true -> wf_lbs b = true -> (forall p, lbs_in a p = lbs_in b p) -> lbs_eqb a b = true.
Proof.
  intros Wa Wb H. unfold lbs_eqb, bs_eqb. apply andb_true_iff.
  apply (canon_list _ (Some (lbs_lbr a)) _ (Some (lbs_lbr b)) Wa Wb).
  intros p. unfold tl_in. rewrite !(orb_comm (bl_in _ _)). apply H.
Qed.

Definition head_after (u : UpperBoundedRange T) l o : bool := starts_after (ucut (ubr_end u)) l o.

Lemma canon_head u1 l1 o1 u2 l2 o2 :
  head_after u1 l1 o1 = true -> head_after u2 l2 o2 = true ->
  wft l1 o1 = true -> wft l2 o2 = true ->
  (forall p, ubr_in u1 p || tl_in l1 o1 p = ubr_in u2 p || tl_in l2 o2 p) ->
  ubr_eqb u1 u2 = true /\ vd_eqb br_eqb l1 l2 = true /\ tail_eqb o1 o2 = true.
Proof.
  intros A1 A2 W1 W2 H.
  assert (L : forall u1 l1 o1 u2 l2 o2, head_after u1 l1 o1 = true ->
    (forall p, ubr_in u1 p || tl_in l1 o1 p = ubr_in u2 p || tl_in l2 o2 p) ->
    cle (ucut (ubr_end u2)) (ucut (ubr_end u1)) = true).
  { clear - OL. intros u1 l1 o1 u2 l2 o2 A H.
    destruct (cle (ucut (ubr_end u2)) (ucut (ubr_end u1))) eqn:E; [reflexivity|exfalso].
    specialize (H (ucut (ubr_end u1), false)).
    assert (I : ubr_in u2 (ucut (ubr_end u1), false) = true) by (clear - OL E; ranges).
    assert (N : ubr_in u1 (ucut (ubr_end u1), false) = false) by (clear - OL; ranges).
    rewrite I, N in H. simpl in H. apply (starts_after_in _ _ _ _ A) in H. clear - OL H. ranges. }
  assert (U1 := L _ _ _ _ _ _ A1 H).
  assert (U2 : cle (ucut (ubr_end u1)) (ucut (ubr_end u2)) = true)
    by (apply (L u2 l2 o2 u1 l1 o1 A2); intros p; symmetry; apply H).
  split; [unfold ubr_eqb; rewrite ub_eqb_cut; unfold ceq; rewrite U1, U2; reflexivity|].
  apply canon_list; auto. intros p. specialize (H p).
  assert (B : ubr_in u1 p = ubr_in u2 p) by (clear - OL U1 U2; ranges).
  rewrite B in H. destruct (ubr_in u2 p) eqn:I2; [|exact H].
  assert (N1 : tl_in l1 o1 p = false).
  { destruct (tl_in l1 o1 p) eqn:I; [|reflexivity].
    apply (starts_after_in _ _ _ _ A1) in I. clear - OL B I2 I. ranges. }
  assert (N2 : tl_in l2 o2 p = false).
  { destruct (tl_in l2 o2 p) eqn:I; [|reflexivity].
    apply (starts_after_in _ _ _ _ A2) in I. clear - OL I2 I. ranges. }
  rewrite N1, N2. reflexivity.
Qed.

Lemma canon_ubs (a b : UpperBoundedSet T) :
  wf_ubs a = true -> wf_ubs b = true -> (forall p, ubs_in a p = ubs_in b p) -> ubs_eqb a b = true.
Proof.
  intros Wa Wb H. apply andb_prop in Wa as [Wa Sa]. apply andb_prop in Wb as [Wb Sb].
  destruct (canon_head (ubs_ubr a) (bs_ranges (ubs_ranges a)) None (ubs_ubr b) (bs_ranges (ubs_ranges b)) None)
    as (H1 & H2 & _).
  - unfold head_after, starts_after. rewrite andb_true_r. exact Sa.
  - unfold head_after, starts_after. rewrite andb_true_r. exact Sb.
  - unfold wft. rewrite andb_true_r. exact Wa.
  - unfold wft. rewrite andb_true_r. exact Wb.
  - intros p. unfold tl_in. rewrite !orb_false_r. apply H.
  - unfold ubs_eqb, bs_eqb. rewrite H1, H2. reflexivity.
Qed.

Lemma wf_pus_head (x : PiecewiseUnboundedSet T) :
  wf_pus x = true ->
  head_after (pus_ubr x) (bs_ranges (pus_ranges x)) (Some (pus_lbr x)) = true
  /\ wft (bs_ranges (pus_ranges x)) (Some (pus_lbr x)) = true.
Proof.
  unfold wf_pus. intros W. apply andb_prop in W as [W S]. apply andb_prop in W as [W F].
  assert (F1 : forallb (fun r => sep_u (pus_ubr x) r) (bs_ranges (pus_ranges x)) = true).
  { revert F. apply forallb_impl. intros r _ Hr. apply andb_prop in Hr. tauto. }
  assert (F2 : forallb (fun r => sep_l r (pus_lbr x)) (bs_ranges (pus_ranges x)) = true).
  { revert F. apply forallb_impl. intros r _ Hr. apply andb_prop in Hr. tauto. }
  split; apply andb_true_iff; split; assumption.
Qed.
Lemma pus_in_tl (x : PiecewiseUnboundedSet T) (p : place T) :
  pus_in x p = ubr_in (pus_ubr x) p || tl_in (bs_ranges (pus_ranges x)) (Some (pus_lbr x)) p.
Proof. unfold pus_in, tl_in, bs_in. rewrite (orb_comm (bl_in _ _)), orb_assoc. reflexivity. Qed.

Lemma full_not_piecewise (x : PiecewiseUnboundedSet T) :
  wf_pus x = true -> pus_in x (ucut (ubr_end (pus_ubr x)), false) = false.
Proof.
  intros W. apply wf_pus_head in W as [A _]. unfold head_after in A.
  rewrite pus_in_tl. apply orb_false_iff. split.
  - clear - OL. ranges.
  - destruct (tl_in _ _ _) eqn:I; [|reflexivity].
    apply (starts_after_in _ _ _ _ A) in I. clear - OL I. ranges.
Qed.
Lemma canon_us (a b : UnboundedSet T) :
  wf_us a = true -> wf_us b = true -> (forall p, us_in a p = us_in b p) -> us_eqb a b = true.
Proof.
  intros Wa Wb H. destruct a as [|x], b as [|y]; simpl in *; try reflexivity.
  - exfalso. pose proof (full_not_piecewise y Wb) as N. rewrite <- H in N. discriminate.
  - exfalso. pose proof (full_not_piecewise x Wa) as N. rewrite H in N. discriminate.
  - apply wf_pus_head in Wa as [A1 W1]. apply wf_pus_head in Wb as [A2 W2].
    destruct (canon_head _ _ _ _ _ _ A1 A2 W1 W2) as (H1 & H2 & H3).
    + intros p. rewrite <- !pus_in_tl. apply H.
    + unfold pus_eqb, bs_eqb. simpl in H3. rewrite H1, H2, H3. reflexivity.
Qed.

Lemma canon_value (a b : value T) :
  is_set (kind_of a) = true -> kind_of a = kind_of b -> wf_v a = true -> wf_v b = true ->
  (forall p, v_in a p = v_in b p) -> value_eqb a b = true.
Proof.
  intros S K Wa Wb H. destruct a; try discriminate S; destruct b; try discriminate K.
  - apply canon_bs; assumption.
  - apply canon_lbs; assumption.
  - apply canon_ubs; assumption.
  - apply canon_us; assumption.
Qed.

(** ** [==] is an equivalence and equal values agree *)

Lemma teq_refl (a : T) : teq a a = true.
Proof.
  rewrite teq_match. pose proof (cmp_opp a a) as H. destruct (cmp a a); simpl in H; congruence.
Qed.
Lemma br_eqb_refl (r : BoundedRange T) : br_eqb r r = true.
Proof. unfold br_eqb. rewrite lb_eqb_cut, ub_eqb_cut. unfold ceq. clear - OL. crank. Qed.
Lemma lbr_eqb_refl (r : LowerBoundedRange T) : lbr_eqb r r = true.
Proof. unfold lbr_eqb. rewrite lb_eqb_cut. unfold ceq. clear - OL. crank. Qed.
Lemma ubr_eqb_refl (r : UpperBoundedRange T) : ubr_eqb r r = true.
Proof. unfold ubr_eqb. rewrite ub_eqb_cut. unfold ceq. clear - OL. crank. Qed.
Lemma bs_eqb_refl (s : BoundedSet T) : bs_eqb s s = true.
Proof.
  unfold bs_eqb. induction (bs_ranges s) as [|r l IH]; simpl; [reflexivity|].
  rewrite br_eqb_refl, IH. reflexivity.
Qed.
Lemma value_eqb_refl (v : value T) : value_eqb v v = true.
Proof.
  destruct v as [r|r|r|r|r|r|r|r|r|r|r|s|s|s|[|s]]; simpl;
    unfold lbs_eqb, ubs_eqb, pus_eqb;
    rewrite ?teq_refl, ?br_eqb_refl, ?lbr_eqb_refl, ?ubr_eqb_refl, ?bs_eqb_refl; try reflexivity.
  destruct (ri_exhausted r); reflexivity.
Qed.

Lemma br_eqb_in (x y : BoundedRange T) (p : place T) : br_eqb x y = true -> br_in x p = br_in y p.
Proof. unfold br_eqb. rewrite lb_eqb_cut, ub_eqb_cut. unfold ceq. intros E. clear - OL E. ranges. Qed.
Lemma lbr_eqb_in (x y : LowerBoundedRange T) (p : place T) : lbr_eqb x y = true -> lbr_in x p = lbr_in y p.
Proof. unfold lbr_eqb. rewrite lb_eqb_cut. unfold ceq. intros E. clear - OL E. ranges. Qed.
Lemma ubr_eqb_in (x y : UpperBoundedRange T) (p : place T) : ubr_eqb x y = true -> ubr_in x p = ubr_in y p.
Proof. unfold ubr_eqb. rewrite ub_eqb_cut. unfold ceq. intros E. clear - OL E. ranges. Qed.
Lemma bs_eqb_in (x y : BoundedSet T) (p : place T) : bs_eqb x y = true -> bs_in x p = bs_in y p.
Proof.
  unfold bs_eqb, bs_in. revert y. destruct x as [l1]. intros [l2]. simpl. revert l2.
  induction l1 as [|r l1 IH]; intros [|r2 l2]; simpl; intros E; try discriminate E; [reflexivity|].
  apply andb_prop in E as [E1 E2]. rewrite (br_eqb_in _ _ p E1), (IH l2 E2). reflexivity.
Qed.

Lemma teq_cmp_l (a b t : T) : teq a b = true -> cmp a t = cmp b t.
Proof.
  intros E. apply teq_cmp in E.
  assert (E' : cmp b a = Eq) by (rewrite (cmp_opp a b), E; reflexivity).
  assert (L1 : cmp a t <> Gt -> cmp b t <> Gt) by (intros H; apply (cmp_trans b a t); congruence).
  assert (L2 : cmp b t <> Gt -> cmp a t <> Gt) by (intros H; apply (cmp_trans a b t); congruence).
  assert (L3 : cmp t a <> Gt -> cmp t b <> Gt) by (intros H; apply (cmp_trans t a b); congruence).
  assert (L4 : cmp t b <> Gt -> cmp t a <> Gt) by (intros H; apply (cmp_trans t b a); congruence).
  rewrite (cmp_opp a t), (cmp_opp b t) in L3, L4.
  destruct (cmp a t), (cmp b t); simpl in *; try reflexivity; exfalso;
    try (apply L1; congruence); try (apply L2; congruence); try (apply L3; congruence); apply L4; congruence.
Qed.
Lemma teq_cmp_r (a b t : T) : teq a b = true -> cmp t a = cmp t b.
Proof. intros E. rewrite (cmp_opp a t), (cmp_opp b t), (teq_cmp_l _ _ t E). reflexivity. Qed.

Lemma value_eqb_contains (a b : value T) (t : T) : value_eqb a b = true -> contains a t = contains b t.
Proof.
  intros E. destruct a as [r|r|r|r|r|r|r|r|r|r|r|s|s|s|[|s]], b as [r'|r'|r'|r'|r'|r'|r'|r'|r'|r'|r'|s'|s'|s'|[|s']];
    try discriminate E; simpl in E; try reflexivity.
  - apply andb_prop in E as [E1 E2]. simpl. unfold range_contains, t_le, t_lt, t_partial_cmp.
    rewrite (teq_cmp_l _ _ t E1), (teq_cmp_r _ _ t E2). reflexivity.
  - apply andb_prop in E as [E E3]. apply andb_prop in E as [E1 E2]. apply eqb_prop in E3.
    simpl. unfold range_inclusive_contains, t_le, t_lt, t_partial_cmp.
    rewrite (teq_cmp_l _ _ t E1), (teq_cmp_r _ _ t E2), E3. reflexivity.
  - simpl. unfold range_from_contains, t_le, t_partial_cmp. rewrite (teq_cmp_l _ _ t E). reflexivity.
  - simpl. unfold range_to_contains, t_lt, t_partial_cmp. rewrite (teq_cmp_r _ _ t E). reflexivity.
  - simpl. unfold range_to_inclusive_contains, t_le, t_partial_cmp. rewrite (teq_cmp_r _ _ t E). reflexivity.
  - simpl. rewrite !br_contains_in. apply br_eqb_in, E.
  - simpl. rewrite !lbr_contains_in. apply lbr_eqb_in, E.
  - simpl. rewrite !ubr_contains_in. apply ubr_eqb_in, E.
  - simpl. rewrite !bs_contains_in. apply bs_eqb_in, E.
  - apply andb_prop in E as [E1 E2]. simpl. rewrite !lbs_contains_in. unfold lbs_in.
    rewrite (bs_eqb_in _ _ _ E1), (lbr_eqb_in _ _ _ E2). reflexivity.
  - apply andb_prop in E as [E1 E2]. simpl. rewrite !ubs_contains_in. unfold ubs_in.
    rewrite (bs_eqb_in _ _ _ E2), (ubr_eqb_in _ _ _ E1). reflexivity.
  - apply andb_prop in E as [E E3]. apply andb_prop in E as [E1 E2].
    cbn [contains]. rewrite !us_contains_in. simpl. unfold pus_in.
    rewrite (bs_eqb_in _ _ _ E2), (ubr_eqb_in _ _ _ E1), (lbr_eqb_in _ _ _ E3). reflexivity.
Qed.

(** ** Laws of union up to [==] *)

(** Any union of values that are neither the empty range nor the whole line is a set. *)
Lemma union_kind_set (a b : kind) :
  is_none a || is_none b = false -> is_whole a || is_whole b = false -> is_set (union_kind a b) = true.
Proof. destruct a, b; simpl; intros H1 H2; try discriminate H1; try discriminate H2; reflexivity. Qed.

Lemma union_empty_r (a b : value T) : is_none (kind_of b) = true -> union a b = Ret a.
Proof. destruct b as [ | | | | | | | | | |[]| | | |]; intros H; try discriminate H. destruct a as [ | | | | | | | | | |[]| | | |]; reflexivity. Qed.
Lemma union_empty_l (a b : value T) : is_none (kind_of a) = true -> union a b = Ret b.
Proof. destruct a; intros H; try discriminate H. reflexivity. Qed.

Lemma union_comm_eq (a b : value T) :
  wf_v a = true -> wf_v b = true -> ret_eq (union a b) (union b a).
Proof.
  intros Wa Wb.
  destruct (union_ok_all a b) as (x & Ex & Hx & Wx & _ & Kx).
  destruct (union_ok_all b a) as (y & Ey & Hy & Wy & _ & Ky).
  exists x, y. split; [exact Ex|]. split; [exact Ey|].
  assert (N : is_none (kind_of a) || is_none (kind_of b) = true
           \/ is_none (kind_of a) || is_none (kind_of b) = false /\ is_whole (kind_of a) || is_whole (kind_of b) = true
           \/ is_none (kind_of a) || is_none (kind_of b) = false /\ is_whole (kind_of a) || is_whole (kind_of b) = false).
  { destruct (is_none (kind_of a) || is_none (kind_of b)), (is_whole (kind_of a) || is_whole (kind_of b)); tauto. }
  destruct N as [N|[[N Wh]|[N Wh]]].
  - assert (E : x = y); [|subst; apply value_eqb_refl].
    apply orb_true_iff in N as [N|N].
    + rewrite union_empty_l in Ex by exact N. rewrite union_empty_r in Ey by exact N. congruence.
    + rewrite union_empty_r in Ex by exact N. rewrite union_empty_l in Ey by exact N. congruence.
  - assert (E : x = VUnbR mkUnboundedRange /\ y = VUnbR mkUnboundedRange).
    { assert (Kx' : kind_of x = KUnboundedRange).
      { rewrite Kx. destruct (kind_of a), (kind_of b); try discriminate N; try discriminate Wh; reflexivity. }
      assert (Ky' : kind_of y = KUnboundedRange).
      { rewrite Ky. destruct (kind_of a), (kind_of b); try discriminate N; try discriminate Wh; reflexivity. }
      destruct x; try discriminate Kx'. destruct y; try discriminate Ky'. destruct r, r0. auto. }
    destruct E as [-> ->]. reflexivity.
  - apply canon_value; auto.
    + rewrite Kx. apply union_kind_set; assumption.
    + rewrite Kx, Ky. clear - N. destruct (kind_of a), (kind_of b); try discriminate N; reflexivity.
    + intros p. rewrite Hx, Hy. apply orb_comm.
Qed.

Lemma kind_unb (v : value T) : kind_of v = KUnboundedRange -> v = VUnbR mkUnboundedRange.
Proof. destruct v as [ | | | | | | | | |r| | | | |]; intros H; try discriminate H. destruct r. reflexivity. Qed.

Lemma union_assoc_eq (a b c : value T) :
  wf_v a = true -> wf_v b = true -> wf_v c = true ->
  ret_eq (x <- union a b ;; union x c) (y <- union b c ;; union a y).
Proof.
  intros Wa Wb Wc.
  destruct (union_ok_all a b) as (x & Ex & Hx & Wx & _ & Kx). rewrite Ex. simpl.
  destruct (union_ok_all b c) as (y & Ey & Hy & Wy & _ & Ky). rewrite Ey. simpl.
  destruct (union_ok_all x c) as (u & Eu & Hu & Wu & _ & Ku).
  destruct (union_ok_all a y) as (v & Ev & Hv & Wv & _ & Kv).
  exists u, v. split; [exact Eu|]. split; [exact Ev|].
  destruct (is_none (kind_of a)) eqn:Na.
  { rewrite union_empty_l in Ex, Ev by exact Na. assert (u = v) by congruence. subst. apply value_eqb_refl. }
  destruct (is_none (kind_of b)) eqn:Nb.
  { rewrite union_empty_l in Ey by exact Nb. rewrite union_empty_r in Ex by exact Nb.
    assert (u = v) by congruence. subst. apply value_eqb_refl. }
  destruct (is_none (kind_of c)) eqn:Nc.
  { rewrite union_empty_r in Ey, Eu by exact Nc. assert (u = v) by congruence. subst. apply value_eqb_refl. }
  destruct (is_whole (kind_of a) || is_whole (kind_of b) || is_whole (kind_of c)) eqn:Wh.
  - assert (U : kind_of u = KUnboundedRange).
    { rewrite Ku, Kx. clear - Na Nb Nc Wh. revert Na Nb Nc Wh.
      generalize (kind_of a), (kind_of b), (kind_of c). intros ka kb kc Na Nb Nc Wh.
      unfold union_kind. rewrite Na, Nb, Nc.
      destruct (is_whole ka) eqn:A, (is_whole kb) eqn:B, (is_whole kc) eqn:C; try discriminate Wh; simpl;
        try reflexivity.
      destruct (has_lower ka && has_lower kb), (has_upper ka && has_upper kb); reflexivity. }
    assert (V : kind_of v = KUnboundedRange).
    { rewrite Kv, Ky. clear - Na Nb Nc Wh. revert Na Nb Nc Wh.
      generalize (kind_of a), (kind_of b), (kind_of c). intros ka kb kc Na Nb Nc Wh.
      unfold union_kind. rewrite Na, Nb, Nc.
      destruct (is_whole ka) eqn:A, (is_whole kb) eqn:B, (is_whole kc) eqn:C; try discriminate Wh; simpl;
        try reflexivity.
      destruct (has_lower kb && has_lower kc), (has_upper kb && has_upper kc); reflexivity. }
    rewrite (kind_unb u U), (kind_unb v V). reflexivity.
  - apply orb_false_iff in Wh as [Wh WhC]. apply orb_false_iff in Wh as [WhA WhB].
    assert (K1 : kind_of u = shape true (has_lower (kind_of a) && has_lower (kind_of b) && has_lower (kind_of c))
                                   (has_upper (kind_of a) && has_upper (kind_of b) && has_upper (kind_of c))).
    { rewrite Ku, Kx. unfold union_kind. rewrite Na, Nb, Nc, WhA, WhB, WhC. simpl.
      destruct (has_lower (kind_of a)), (has_lower (kind_of b)), (has_upper (kind_of a)), (has_upper (kind_of b));
        reflexivity. }
    assert (K2 : kind_of v = shape true (has_lower (kind_of a) && has_lower (kind_of b) && has_lower (kind_of c))
                                   (has_upper (kind_of a) && has_upper (kind_of b) && has_upper (kind_of c))).
    { rewrite Kv, Ky. unfold union_kind. rewrite Na, Nb, Nc, WhA, WhB, WhC. simpl.
      destruct (has_lower (kind_of a)), (has_lower (kind_of b)), (has_lower (kind_of c)),
        (has_upper (kind_of a)), (has_upper (kind_of b)), (has_upper (kind_of c)); reflexivity. }
    apply canon_value; auto.
    + rewrite K1.
      destruct (has_lower (kind_of a) && has_lower (kind_of b) && has_lower (kind_of c)),
        (has_upper (kind_of a) && has_upper (kind_of b) && has_upper (kind_of c)); reflexivity.
    + congruence.
    + intros p. rewrite Hu, Hv, Hx, Hy. rewrite orb_assoc. reflexivity.
Qed.

Lemma union_idem_eq (a : value T) :
  is_set (kind_of a) = true -> wf_v a = true -> ret_eq (union a a) (Ret a).
Proof.
  intros S W. destruct (union_ok_all a a) as (x & Ex & Hx & Wx & _ & Kx).
  exists x, a. split; [exact Ex|]. split; [reflexivity|].
  assert (K : kind_of x = kind_of a) by (rewrite Kx; destruct (kind_of a); try discriminate S; reflexivity).
  apply canon_value; auto.
  - rewrite K. exact S.
  - intros p. rewrite Hx. apply orb_diag.
Qed.

(** ** With strict elements [==] is identity *)

Context {OS : OrdStrict T}.

Lemma teq_eq (a b : T) : teq a b = true -> a = b.
Proof. intros H. apply cmp_eq, teq_cmp, H. Qed.
Lemma bound_eqb_eq (x y : Bound T) : bound_eqb x y = true -> x = y.
Proof. destruct x, y; simpl; intros H; try discriminate H; apply teq_eq in H; congruence. Qed.
Lemma lb_eqb_eq (x y : LowerBound T) : lb_eqb x y = true -> x = y.
Proof. destruct x, y. unfold lb_eqb. simpl. intros H. apply bound_eqb_eq in H. congruence. Qed.
Lemma ub_eqb_eq (x y : UpperBound T) : ub_eqb x y = true -> x = y.
Proof. destruct x, y. unfold ub_eqb. simpl. intros H. apply bound_eqb_eq in H. congruence. Qed.
Lemma br_eqb_eq (x y : BoundedRange T) : br_eqb x y = true -> x = y.
Proof.
  destruct x, y. unfold br_eqb. simpl. intros H. apply andb_prop in H as [H1 H2].
  apply lb_eqb_eq in H1. apply ub_eqb_eq in H2. congruence.
Qed.
Lemma lbr_eqb_eq (x y : LowerBoundedRange T) : lbr_eqb x y = true -> x = y.
Proof. destruct x, y. unfold lbr_eqb. simpl. intros H. apply lb_eqb_eq in H. congruence. Qed.
Lemma ubr_eqb_eq (x y : UpperBoundedRange T) : ubr_eqb x y = true -> x = y.
Proof. destruct x, y. unfold ubr_eqb. simpl. intros H. apply ub_eqb_eq in H. congruence. Qed.
Lemma bs_eqb_eq (x y : BoundedSet T) : bs_eqb x y = true -> x = y.
Proof.
  destruct x as [l1], y as [l2]. unfold bs_eqb. simpl. intros H. f_equal. revert l2 H.
  induction l1 as [|r l1 IH]; intros [|r2 l2]; simpl; intros H; try discriminate H; [reflexivity|].
  apply andb_prop in H as [H1 H2]. apply br_eqb_eq in H1. rewrite (IH l2 H2). congruence.
Qed.
Lemma value_eqb_eq (x y : value T) : value_eqb x y = true -> x = y.
Proof.
  intros E. destruct x as [r|r|r|r|r|r|r|r|r|r|r|s|s|s|[|s]], y as [r'|r'|r'|r'|r'|r'|r'|r'|r'|r'|r'|s'|s'|s'|[|s']];
    try discriminate E; simpl in E.
  - destruct r, r'. simpl in E. apply andb_prop in E as [E1 E2]. apply teq_eq in E1. apply teq_eq in E2. congruence.
  - destruct r, r'. simpl in E. apply andb_prop in E as [E E3]. apply andb_prop in E as [E1 E2].
    apply teq_eq in E1. apply teq_eq in E2. apply eqb_prop in E3. congruence.
  - destruct r, r'. apply teq_eq in E. simpl in E. congruence.
  - destruct r, r'. apply teq_eq in E. simpl in E. congruence.
  - destruct r, r'. apply teq_eq in E. simpl in E. congruence.
  - destruct r, r'. reflexivity.
  - apply br_eqb_eq in E. congruence.
  - apply lbr_eqb_eq in E. congruence.
  - apply ubr_eqb_eq in E. congruence.
  - destruct r, r'. reflexivity.
  - destruct r, r'. reflexivity.
  - apply bs_eqb_eq in E. congruence.
  - destruct s, s'. apply andb_prop in E as [E1 E2]. apply bs_eqb_eq in E1. apply lbr_eqb_eq in E2. simpl in *. congruence.
  - destruct s, s'. apply andb_prop in E as [E1 E2]. apply ubr_eqb_eq in E1. apply bs_eqb_eq in E2. simpl in *. congruence.
  - reflexivity.
  - destruct s, s'. apply andb_prop in E as [E E3]. apply andb_prop in E as [E1 E2].
    apply ubr_eqb_eq in E1. apply bs_eqb_eq in E2. apply lbr_eqb_eq in E3. simpl in *. congruence.
Qed.

End Canon.
