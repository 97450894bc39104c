(** Programs on any order are programs on the filled-in order, which is dense. *)
From Coq Require Import QArith Lia.
From Verif Require Import Base ModelBound ModelRanges ModelSets ModelAlgebra ModelValue ModelEq Spec SpecBounds SpecMap SpecFill
  Order Cuts SetProofs AlgebraProofs ValueProofs Laws Laws2 Canon Instances JointProofs NaturalProofs CongProofs.

Section Fill.
Context {T : Type} {OT : Ord T} {OL : OrdLaws T}.

#[global] Instance OrdLawsFilled : OrdLaws (filled T).
Proof.
  split.
  - intros [a p] [b q]. cbn. rewrite (cmp_opp a b). destruct (cmp a b); cbn; try reflexivity. exact (@cmp_opp Q _ _ p q).
  - intros [a p] [b q] [c r]. cbn.
    pose proof (cmp_trans a b c) as H. pose proof (cmp_trans (T := Q) p q r) as HQ. cbn in HQ.
    destruct (cmp a b) eqn:E1, (cmp b c) eqn:E2; try congruence; intros G1 G2.
    + assert (cmp a c = Eq) as ->; [|auto]. rewrite (cmp_teq_l a b c) by (apply teq_cmp; exact E1). exact E2.
    + assert (cmp a c = Lt) as ->; [|discriminate]. rewrite (cmp_teq_l a b c) by (apply teq_cmp; exact E1). exact E2.
    + assert (cmp a c = Lt) as ->; [|discriminate]. rewrite (lt_le_cmp a b c E1); [reflexivity|congruence].
    + assert (cmp a c = Lt) as ->; [|discriminate]. rewrite (lt_le_cmp a b c E1); [reflexivity|congruence].
  - intros [a p] [b q]. cbn. rewrite andb_true_iff, (teq_cmp a b). pose proof (teq_cmp (T := Q) p q) as HQ. cbn in HQ. rewrite HQ.
    split; [intros [-> ->]; reflexivity|]. destruct (cmp a b); try discriminate. auto.
Qed.
Lemma dense_filled (t : T) : DenseOrd (filled T).
Proof.
  split.
  - intros [a p] [b q]. unfold lt. cbn. destruct (cmp a b) eqn:E; try discriminate; intros L.
    + destruct (@dense_between Q OrdQ DenseOrdQ p q L) as (r & H1 & H2). exists (a, r). unfold lt in *. cbn in *. rewrite cmp_refl, E. auto.
    + destruct (@dense_above Q OrdQ DenseOrdQ p) as (r & H). exists (a, r). unfold lt in *. cbn in *. rewrite cmp_refl, E. auto.
  - intros [a p]. destruct (@dense_above Q OrdQ DenseOrdQ p) as (r & H). exists (a, r). unfold lt in *. cbn in *. rewrite cmp_refl. auto.
  - intros [a p]. destruct (@dense_below Q OrdQ DenseOrdQ p) as (r & H). exists (a, r). unfold lt in *. cbn in *. rewrite cmp_refl. auto.
  - exists (point t). exact I.
Qed.
Lemma keeps_point : keeps_order (@point T).
Proof. intros a b. cbn. rewrite andb_true_r. split; [destruct (cmp a b); reflexivity|reflexivity]. Qed.
End Fill.

Section MapFacts.
Context {T U : Type} {OT : Ord T} {OU : Ord U} (f : T -> U) (KO : keeps_order f).
Lemma map_fresh (v : value T) : fresh (map_value f v) <-> fresh v.
Proof. destruct v as [r|r|r|r|r|r|r|r|r|r|r|s|s|s|s]; cbn [map_value fresh ri_exhausted]; tauto. Qed.
Lemma map_kind (v : value T) : kind_of (map_value f v) = kind_of v.
Proof. destruct v as [r|r|r|r|r|r|r|r|r|r|r|s|s|s|s]; reflexivity. Qed.
Lemma map_cut_lu u l : cle (ucut (map_ub f u)) (lcut (map_lb f l)) = cle (ucut u) (lcut l).
Proof. destruct u as [[a|a]], l as [[b|b]]; unfold cle; cbn; rewrite (proj1 (KO _ _)); reflexivity. Qed.
Lemma map_room r : room (map_br f r) = room r.
Proof. destruct r as [[[a|a]] [[b|b]]]; unfold room, clt, cle; cbn; rewrite (proj1 (KO _ _)); reflexivity. Qed.
Lemma map_wfl l : wfl (map (map_br f) l) = wfl l.
Proof.
  induction l as [|r l IH]; cbn [wfl map]; [reflexivity|]. rewrite map_room, IH. f_equal. f_equal.
  apply forallb_map_comm. intros x. apply map_cut_lu.
Qed.
Lemma map_wf (v : value T) : wf_v (map_value f v) = wf_v v.
Proof.
  destruct v as [r|r|r|r|r|r|r|r|r|r|r|s|s|s|[|s]]; cbn [map_value map_us wf_v wf_us]; try reflexivity.
  - apply map_wfl.
  - unfold wf_lbs, wf_bs. cbn [map_lbs lbs_ranges lbs_lbr map_bs bs_ranges]. rewrite map_wfl. f_equal. apply forallb_map_comm. intros x. apply map_cut_lu.
  - unfold wf_ubs, wf_bs. cbn [map_ubs ubs_ranges ubs_ubr map_bs bs_ranges]. rewrite map_wfl. f_equal. apply forallb_map_comm. intros x. apply map_cut_lu.
  - unfold wf_pus, wf_bs. cbn [map_pus pus_ranges pus_ubr pus_lbr map_bs bs_ranges]. rewrite map_wfl. f_equal; [f_equal|apply map_cut_lu].
    apply forallb_map_comm. intros x. f_equal; apply map_cut_lu.
Qed.
Lemma map_lows (v : value T) : lows (map_value f v) = map (map_lb f) (lows v).
Proof.
  destruct v as [r|r|r|r|r|r|r|r|r|r|r|s|s|s|[|s]]; cbn [map_value map_us lows map]; try reflexivity;
    cbn [map_bs bs_ranges map_lbs lbs_ranges lbs_lbr map_ubs ubs_ranges map_pus pus_ranges pus_lbr]; rewrite ?map_app, !map_map; reflexivity.
Qed.
Lemma map_highs (v : value T) : highs (map_value f v) = map (map_ub f) (highs v).
Proof.
  destruct v as [r|r|r|r|r|r|r|r|r|r|r|s|s|s|[|s]]; cbn [map_value map_us highs map]; try reflexivity;
    cbn [map_bs bs_ranges map_lbs lbs_ranges map_ubs ubs_ranges ubs_ubr map_pus pus_ranges pus_ubr]; rewrite ?map_app, !map_map; reflexivity.
Qed.
Lemma map_touches u l : touches (map_ub f u) (map_lb f l) <-> touches u l.
Proof. destruct u as [[a|a]], l as [[b|b]]; cbn; rewrite ?(proj1 (KO _ _)); tauto. Qed.
Lemma map_good e : good_expr (map_expr f e) <-> good_expr e.
Proof.
  assert (K : forall e, expr_kind (map_expr f e) = expr_kind e).
  { induction e0; cbn [expr_kind map_expr]; try congruence. apply map_kind. }
  induction e; cbn [good_expr map_expr]; rewrite ?K; try tauto; try (apply map_fresh). 
Qed.
End MapFacts.

Section FillFacts.
Context {T : Type} {OT : Ord T} {OL : OrdLaws T}.

Lemma covers_point (v : value T) (t : T) : covers v (point t) <-> mem v t.
Proof. unfold covers. rewrite <- !contains_mem. rewrite (n_contains point keeps_point). reflexivity. Qed.
Lemma intersects_filled (t0 : T) (a b : value T) : fresh a -> fresh b ->
  (intersects a b = Ret true <-> exists p, covers a p /\ covers b p).
Proof.
  intros Fa Fb. rewrite <- (n_intersects point keeps_point a b). split.
  - intros E. pose proof (dense_filled t0) as D. apply (intersects_dense (map_value point a)); [apply map_fresh, Fa|apply map_fresh, Fb|exact E].
  - intros (p & Ha & Hb). destruct (disjoint_facts (map_value point a) (map_value point b)) as (d & E1 & _ & E2 & _).
    rewrite E2. destruct d; [|reflexivity]. exfalso.
    apply (disjoint_sound _ _ p (proj2 (map_fresh point a) Fa) (proj2 (map_fresh point b) Fb) E1). auto.
Qed.
Lemma is_empty_filled (t0 : T) (v : value T) : fresh v -> (is_empty v = true <-> forall p, ~ covers v p).
Proof.
  intros F. rewrite <- (n_is_empty point keeps_point v). pose proof (dense_filled t0) as D. split.
  - intros E p. apply is_empty_no_mem, E.
  - intros N. destruct (is_empty (map_value point v)) eqn:E; [reflexivity|]. exfalso.
    destruct (dense_nonempty (map_value point v)) as (p & M); [apply map_fresh, F|exact E|]. exact (N p M).
Qed.
Lemma eval_filled (e : expr T) : good_expr e -> exists v, eval e = Ret v /\ forall p, covers v p <-> denotes e p.
Proof.
  intros G. destruct (eval_denote (map_expr point e)) as (w & E & H); [apply map_good, G|].
  rewrite (n_eval point keeps_point) in E. destruct (eval e) as [v| |]; cbn [onto] in E; try discriminate. injection E as <-.
  exists v. split; [reflexivity|]. intros p. unfold covers, denotes. rewrite <- contains_mem. apply H.
Qed.
Lemma joined_filled (v : value T) (x : Bound (filled T)) :
  joined (map_value point v) x <-> snd (at_elem x) == 0 /\ joined v (map_bound fst x).
Proof.
  unfold joined. rewrite map_highs, map_lows. split.
  - intros (u & l & Hu & Hl & T1 & T2). apply in_map_iff in Hu as (u' & <- & Hu), Hl as (l' & <- & Hl). apply (proj1 (map_touches point keeps_point u' l')) in T1.
    assert (Q0 : snd (at_elem x) == 0 /\ touches u' (LB (map_bound fst x))).
    { destruct u' as [[a|a]], x as [[b q]|[b q]]; cbn in T2 |- *; try contradiction;
        (destruct (cmp a b) eqn:E; try discriminate; split; [symmetry; apply Qeq_alt; exact T2|reflexivity]). }
    split; [apply Q0|]. exists u', l'. repeat split; auto; apply Q0.
  - intros (Q0 & u & l & Hu & Hl & T1 & T2). exists (map_ub point u), (map_lb point l).
    split; [apply in_map, Hu|]. split; [apply in_map, Hl|]. split; [apply (map_touches point keeps_point), T1|].
    destruct u as [[a|a]], x as [[b q]|[b q]]; cbn in T2, Q0 |- *; try contradiction; rewrite T2; exact (proj1 (Qeq_alt 0 q) (Qeq_sym _ _ Q0)).
Qed.
Lemma eq_filled (t0 : T) (a b : value T) :
  is_set (kind_of a) = true -> kind_of a = kind_of b -> valid a -> valid b ->
  (value_eqb a b = true <-> (forall p, covers a p <-> covers b p) /\ (forall x, joined a x <-> joined b x)).
Proof.
  intros S Kd Va Vb. rewrite <- (n_eqb point keeps_point a b). pose proof (dense_filled t0) as D.
  rewrite (exact_dense (map_value point a) (map_value point b)).
  - split; intros [H J]; (split; [exact H|]); intros x.
    + specialize (J (map_bound point x)). rewrite !joined_filled in J.
      assert (E : map_bound fst (map_bound point x) = x) by (destruct x; reflexivity). rewrite E in J.
      assert (Q0 : snd (at_elem (map_bound point x)) == 0) by (destruct x; reflexivity). tauto.
    + rewrite !joined_filled, J. tauto.
  - rewrite map_kind. exact S.
  - rewrite !map_kind. exact Kd.
  - apply valid_wf. rewrite (map_wf point keeps_point). apply valid_wf, Va.
  - apply valid_wf. rewrite (map_wf point keeps_point). apply valid_wf, Vb.
Qed.
End FillFacts.
