(** Programs over the API: sizes of the results, and iterating them. *)
From Coq Require Import Lia ZifyBool.
From Verif Require Import Base ModelBound ModelRanges ModelSets ModelAlgebra ModelValue ModelEq ModelStep ModelIter
  Spec SpecBounds Reach SpecStep SpecIter SpecMore Order Cuts SetProofs AlgebraProofs ValueProofs Canon Laws Laws2 Provenance BoundsProofs
  StepProofs StepLemmas IterProofs IterProofs2 IterProofs3 IterProofs4 IterLemmas.
Open Scope Z_scope.

Section OneSided.
Context {T : Type} {OT : Ord T} {OL : OrdLaws T}.

(** [p = true]: nothing too much; [p = false]: nothing missing. *)
Definition errs (p : bool) (v : value T) (e : expr T) (t : T) : Prop :=
  if p then contains v t = true -> denote e t else denote e t -> contains v t = true.

Lemma eval_one_sided (e : expr T) : forall p : bool,
  one_sided p e ->
  exists v, eval e = Ret v /\ fresh v /\ kind_of v = expr_kind e /\ forall t, errs p v e t.
Proof.
  induction e as [v|a IHa b IHb|a IHa b IHb|a IHa|a IHa|a IHa]; intros p; simpl; intros G.
  - exists v. repeat split; auto. intros t. destruct p; simpl; apply contains_mem; assumption.
  - destruct G as [Ga Gb]. destruct (IHa p Ga) as (x & -> & Fx & Kx & Hx). destruct (IHb p Gb) as (y & -> & Fy & Ky & Hy).
    simpl. destruct (union_ok_all x y) as (r & E & H & _ & F & K). exists r. split; [exact E|].
    specialize (F Fx Fy). split; [exact F|]. split; [congruence|].
    intros t. specialize (Hx t). specialize (Hy t). unfold errs in *. simpl.
    rewrite contains_v_in in Hx, Hy |- * by assumption. rewrite H. destruct p; rewrite orb_true_iff; tauto.
  - destruct G as (Ga & Gb & N). destruct (IHa p Ga) as (x & -> & Fx & Kx & Hx). destruct (IHb p Gb) as (y & -> & Fy & Ky & Hy).
    simpl. destruct (intersection_ok x y) as (r & E & H & _ & F & K). exists r. split; [exact E|].
    split; [exact F|]. split; [congruence|].
    intros t. specialize (Hx t). specialize (Hy t). unfold errs in *. destruct p; simpl.
    + intros C. destruct (inter_subset x y Fx Fy) as (r' & E' & S). rewrite E in E'. injection E' as <-.
      apply S in C. rewrite <- !contains_mem in C by assumption. tauto.
    + rewrite contains_v_in in Hx, Hy |- * by assumption. rewrite H by (rewrite Kx, Ky; auto). rewrite andb_true_iff. tauto.
  - destruct (IHa _ G) as (x & -> & Fx & Kx & Hx). simpl.
    destruct (complement_ok x) as (r & E & H & _ & F & K). exists r. split; [exact E|].
    split; [exact F|]. split; [congruence|].
    intros t. specialize (Hx t). unfold errs in *. rewrite contains_v_in in Hx |- * by assumption. rewrite H. simpl.
    destruct p; rewrite negb_true_iff; simpl in Hx.
    + intros C D. rewrite (Hx D) in C. discriminate C.
    + intros D. destruct (v_in x (at_elt t)); [exfalso; auto|reflexivity].
  - destruct (IHa p G) as (x & -> & Fx & Kx & Hx). simpl.
    exists (value_of_inner (to_inner x)). split; [reflexivity|].
    split; [destruct x; exact I|]. split; [rewrite kind_inner; congruence|].
    intros t. specialize (Hx t). unfold errs in *. rewrite contains_v_in in Hx |- * by (auto; destruct x; exact I). rewrite v_in_inner. exact Hx.
  - destruct (IHa p G) as (x & -> & Fx & Kx & Hx). simpl.
    exists (value_of_set (to_set x)). split; [reflexivity|].
    split; [apply fresh_of_set|]. split; [rewrite kind_set; congruence|].
    intros t. specialize (Hx t). unfold errs in *. rewrite contains_v_in in Hx |- * by (auto using fresh_of_set).
    change (v_in (value_of_set (to_set x)) (at_elt t)) with (s_in (to_set x) (at_elt t)). rewrite s_in_set. exact Hx.
Qed.

Lemma lbs_lbs_order (a b : LowerBoundedSet T) :
  exists x y, intersection (VLBS a) (VLBS b) = Ret x /\ intersection (VLBS b) (VLBS a) = Ret y
  /\ (lb_cmp (lbr_start (lbs_lbr b)) (lbr_start (lbs_lbr a)) <> Gt ->
      forall t, contains x t = true <-> mem (VLBS a) t /\ mem (VLBS b) t)
  /\ (lb_cmp (lbr_start (lbs_lbr a)) (lbr_start (lbs_lbr b)) <> Gt ->
      forall t, contains y t = true <-> mem (VLBS a) t /\ mem (VLBS b) t)
  /\ (forall t, contains x t = true \/ contains y t = true <-> mem (VLBS a) t /\ mem (VLBS b) t)
  /\ ((forall t, contains x t = contains y t) <->
      forall t, mem (VLBS a) t -> mem (VLBS b) t ->
        (above (lbr_start (lbs_lbr b)) t \/ in_pieces (bs_ranges (lbs_ranges a)) t)
        /\ (above (lbr_start (lbs_lbr a)) t \/ in_pieces (bs_ranges (lbs_ranges b)) t)).
Proof.
  destruct (lbs_lbs_mem a b) as (x & Ex & X), (lbs_lbs_mem b a) as (y & Ey & Y). exists x, y.
  assert (LB_ : lb_cmp (lbr_start (lbs_lbr b)) (lbr_start (lbs_lbr a)) <> Gt ->
      forall t, contains x t = true <-> mem (VLBS a) t /\ mem (VLBS b) t).
  { intros L t. rewrite X. pose proof (proj1 (lb_halflines (lbr_start (lbs_lbr b)) (lbr_start (lbs_lbr a)) t) L). simpl. tauto. }
  assert (LA_ : lb_cmp (lbr_start (lbs_lbr a)) (lbr_start (lbs_lbr b)) <> Gt ->
      forall t, contains y t = true <-> mem (VLBS a) t /\ mem (VLBS b) t).
  { intros L t. rewrite Y. pose proof (proj1 (lb_halflines (lbr_start (lbs_lbr a)) (lbr_start (lbs_lbr b)) t) L). simpl. tauto. }
  assert (D : lb_cmp (lbr_start (lbs_lbr b)) (lbr_start (lbs_lbr a)) <> Gt \/ lb_cmp (lbr_start (lbs_lbr a)) (lbr_start (lbs_lbr b)) <> Gt).
  { destruct (lb_order (lbr_start (lbs_lbr a)) (lbr_start (lbs_lbr b)) (lbr_start (lbs_lbr a))) as (O & _). rewrite O.
    destruct (lb_cmp (lbr_start (lbs_lbr a)) _); simpl; [left|right|left]; discriminate. }
  assert (SX : forall t, contains x t = true -> mem (VLBS a) t /\ mem (VLBS b) t) by (intros t H; apply X in H; tauto).
  assert (SY : forall t, contains y t = true -> mem (VLBS a) t /\ mem (VLBS b) t) by (intros t H; apply Y in H; tauto).
  split; [exact Ex|split; [exact Ey|split; [exact LB_|split; [exact LA_|split]]]].
  - intros t. split; [intros [H|H]; auto|]. intros H. destruct D as [D|D]; [left; apply LB_|right; apply LA_]; assumption.
  - split.
    + intros E t Ma Mb.
      assert (B : contains x t = true /\ contains y t = true).
      { destruct D as [D|D]; [assert (contains x t = true) by (apply LB_; auto)|assert (contains y t = true) by (apply LA_; auto)];
          rewrite ?E in *; auto; rewrite <- E in *; auto. }
      destruct B as [B1 B2]. apply X in B1. apply Y in B2. tauto.
    + intros H t. specialize (H t). specialize (X t). specialize (Y t).
      destruct (contains x t), (contains y t); try reflexivity; exfalso;
        assert (true = true) by reflexivity; assert (~ false = true) by discriminate; tauto.
Qed.

Lemma eval_both_ways (e : expr T) :
  (forall l, In l (leaves e) -> fresh l) ->
  exists v, eval (both_ways e) = Ret v /\ fresh v /\ forall t, contains v t = true <-> denote e t.
Proof.
  induction e as [v|a IHa b IHb|a IHa b IHb|a IHa|a IHa|a IHa]; simpl; intros G.
  - exists v. repeat split; auto; apply contains_mem; auto.
  - destruct IHa as (x & -> & Fx & Hx); [intros; apply G, in_or_app; auto|].
    destruct IHb as (y & -> & Fy & Hy); [intros; apply G, in_or_app; auto|].
    simpl. destruct (union_ok_all x y) as (r & E & H & _ & F & K). exists r. split; [exact E|].
    specialize (F Fx Fy). split; [exact F|]. intros t.
    rewrite <- Hx, <- Hy, !contains_v_in, H by assumption. apply orb_true_iff.
  - destruct IHa as (x & -> & Fx & Hx); [intros; apply G, in_or_app; auto|].
    destruct IHb as (y & -> & Fy & Hy); [intros; apply G, in_or_app; auto|].
    simpl. destruct (intersection_ok x y) as (r & E & H & _ & F & K).
    destruct (intersection_ok y x) as (r' & E' & H' & _ & F' & K').
    rewrite E, E'. simpl. destruct (union_ok_all r r') as (q & Eq & Hq & _ & Fq & Kq). exists q. split; [exact Eq|].
    specialize (Fq F F'). split; [exact Fq|]. intros t.
    rewrite contains_v_in, Hq, orb_true_iff, <- !contains_v_in, <- Hx, <- Hy by assumption.
    destruct (both_lbs (kind_of x) (kind_of y)) eqn:N.
    + destruct x; try discriminate N; destruct y; try discriminate N.
      destruct (lbs_lbs_order s s0) as (u & w & Eu & Ew & _ & _ & U & _).
      rewrite E in Eu. injection Eu as <-. rewrite E' in Ew. injection Ew as <-.
      rewrite U, <- !contains_mem by exact I. reflexivity.
    + rewrite !contains_v_in by assumption. rewrite H by reflexivity.
      rewrite H' by (destruct x, y; (reflexivity || discriminate N)).
      rewrite !andb_true_iff. tauto.
  - destruct (IHa G) as (x & -> & Fx & Hx). simpl.
    destruct (complement_ok x) as (r & E & H & _ & F & K). exists r. split; [exact E|]. split; [exact F|]. intros t.
    rewrite <- Hx, !contains_v_in, H by assumption. rewrite negb_true_iff. destruct (v_in x _); intuition discriminate.
  - destruct (IHa G) as (x & -> & Fx & Hx). simpl.
    exists (value_of_inner (to_inner x)). split; [reflexivity|]. split; [destruct x; exact I|]. intros t.
    rewrite <- Hx. rewrite !contains_v_in by (auto; destruct x; exact I). rewrite v_in_inner. reflexivity.
  - destruct (IHa G) as (x & -> & Fx & Hx). simpl.
    exists (value_of_set (to_set x)). split; [reflexivity|]. split; [apply fresh_of_set|]. intros t.
    rewrite <- Hx. rewrite !contains_v_in by (auto using fresh_of_set).
    change (v_in (value_of_set (to_set x)) (at_elt t)) with (s_in (to_set x) (at_elt t)). rewrite s_in_set. reflexivity.
Qed.

(** Beyond every endpoint even the intersection of two [LowerBoundedSet]s is right. *)
Lemma eval_above (e : expr T) (t : T) :
  (forall l, In l (leaves e) -> fresh l) ->
  (forall l a, In l (leaves e) -> In a (endpoints l) -> lt a t) ->
  exists v, eval e = Ret v /\ fresh v /\ kind_of v = expr_kind e /\ (contains v t = true <-> denote e t).
Proof.
  induction e as [v|a IHa b IHb|a IHa b IHb|a IHa|a IHa|a IHa]; simpl; intros G A.
  - exists v. repeat split; auto; apply contains_mem; auto.
  - destruct IHa as (x & -> & Fx & Kx & Hx); [intros; apply G|intros; eapply A; [|eassumption]|]; try (apply in_or_app; auto).
    destruct IHb as (y & -> & Fy & Ky & Hy); [intros; apply G|intros; eapply A; [|eassumption]|]; try (apply in_or_app; auto).
    simpl. destruct (union_ok_all x y) as (r & E & H & _ & F & K). exists r. split; [exact E|].
    specialize (F Fx Fy). split; [exact F|]. split; [congruence|].
    rewrite <- Hx, <- Hy, !contains_v_in, H by assumption. apply orb_true_iff.
  - destruct IHa as (x & Ex & Fx & Kx & Hx); [intros; apply G|intros; eapply A; [|eassumption]|]; try (apply in_or_app; auto).
    destruct IHb as (y & Ey & Fy & Ky & Hy); [intros; apply G|intros; eapply A; [|eassumption]|]; try (apply in_or_app; auto).
    rewrite Ex, Ey. simpl. destruct (intersection_ok x y) as (r & E & H & _ & F & K). exists r. split; [exact E|].
    split; [exact F|]. split; [congruence|].
    destruct (both_lbs (kind_of x) (kind_of y)) eqn:N.
    + destruct x; try discriminate N; destruct y; try discriminate N.
      destruct (lbs_lbs_mem s s0) as (r' & E' & S). rewrite E in E'. injection E' as <-.
      rewrite S, <- !contains_mem, Hx, Hy by exact I. split; [tauto|]. intros D. split; [exact D|]. left.
      assert (L : lt (at_elem (lb_bound (lbr_start (lbs_lbr s0)))) t).
      { destruct (eval_endpoints b _ (at_elem (lb_bound (lbr_start (lbs_lbr s0)))) Ey) as (l & Hl & Hi).
        - unfold endpoints. apply in_or_app. left. simpl. apply in_map_iff. eexists. split; [reflexivity|].
          apply in_or_app. right. left. reflexivity.
        - apply (A l); [apply in_or_app; auto|exact Hi]. }
      destruct (lbr_start (lbs_lbr s0)) as [[c|c]]; simpl in L |- *; [exact L|unfold lt in L; unfold le; rewrite L; discriminate].
    + rewrite <- Hx, <- Hy, !contains_v_in by assumption. rewrite H by reflexivity. apply andb_true_iff.
  - destruct (IHa G A) as (x & -> & Fx & Kx & Hx). simpl.
    destruct (complement_ok x) as (r & E & H & _ & F & K). exists r. split; [exact E|].
    split; [exact F|]. split; [congruence|].
    rewrite <- Hx, !contains_v_in by assumption. rewrite H.
    destruct (v_in x (at_elt t)); simpl; intuition discriminate.
  - destruct (IHa G A) as (x & -> & Fx & Kx & Hx). simpl.
    exists (value_of_inner (to_inner x)). split; [reflexivity|].
    split; [destruct x; exact I|]. split; [rewrite kind_inner; congruence|].
    rewrite <- Hx, !contains_v_in by (auto; destruct x; exact I). rewrite v_in_inner. reflexivity.
  - destruct (IHa G A) as (x & -> & Fx & Kx & Hx). simpl.
    exists (value_of_set (to_set x)). split; [reflexivity|].
    split; [apply fresh_of_set|]. split; [rewrite kind_set; congruence|].
    rewrite <- Hx, !contains_v_in by (auto using fresh_of_set). change (s_in (to_set x) (at_elt t) = true <-> v_in x (at_elt t) = true).
    rewrite s_in_set. reflexivity.
Qed.

End OneSided.

Section Sizes.
Context {T : Type} {OT : Ord T} {OL : OrdLaws T}.

Lemma union_valid (a b r : value T) : valid a -> valid b -> union a b = Ret r -> valid r.
Proof.
  rewrite !valid_wf. intros Va Vb E. destruct (union_ok_all a b) as (r' & E' & _ & W & _).
  rewrite E in E'. injection E' as <-. auto.
Qed.
Lemma intersection_valid (a b r : value T) : valid a -> valid b -> intersection a b = Ret r -> valid r.
Proof.
  rewrite !valid_wf. intros Va Vb E. destruct (intersection_ok a b) as (r' & E' & _ & W & _).
  rewrite E in E'. injection E' as <-. auto.
Qed.
Lemma complement_valid (a r : value T) : complement a = Ret r -> valid r.
Proof.
  rewrite valid_wf. intros E. destruct (complement_ok a) as (r' & E' & _ & W & _).
  rewrite E in E'. injection E' as <-. auto.
Qed.
Lemma inner_valid (a : value T) : valid a -> valid (value_of_inner (to_inner a)).
Proof. rewrite !valid_wf, wf_inner. auto. Qed.
Lemma set_valid (a : value T) : valid a -> valid (value_of_set (to_set a)).
Proof. rewrite !valid_wf. apply wf_set. Qed.
Lemma eval_valid (e : expr T) (v : value T) : (forall l, In l (leaves e) -> valid l) -> eval e = Ret v -> valid v.
Proof.
  apply eval_ind_leaves; intros; eauto using union_valid, intersection_valid, complement_valid, inner_valid, set_valid.
Qed.
Lemma eval_api (e : expr T) (v : value T) : (forall l, In l (leaves e) -> api l) -> eval e = Ret v -> api v.
Proof. apply eval_ind_leaves; intros; eauto using api_union, api_inter, api_compl, api_inner, api_set. Qed.

Lemma size_union (a b r : value T) : valid a -> valid b -> union a b = Ret r ->
  (length (lows r) <= length (lows a) + length (lows b) /\ length (highs r) <= length (highs a) + length (highs b))%nat.
Proof.
  intros Va Vb E. pose proof (bounds_union a b r E) as [I1 I2]. rewrite <- !app_length.
  apply count_incl; auto. exact (union_valid a b r Va Vb E).
Qed.
Lemma size_intersection (a b r : value T) : valid a -> valid b -> intersection a b = Ret r ->
  (length (lows r) <= length (lows a) + length (lows b) /\ length (highs r) <= length (highs a) + length (highs b))%nat.
Proof.
  intros Va Vb E. pose proof (bounds_intersection a b r E) as [I1 I2]. rewrite <- !app_length.
  apply count_incl; auto. exact (intersection_valid a b r Va Vb E).
Qed.
Lemma size_complement (a r : value T) : complement a = Ret r ->
  (length (lows r) <= length (highs a) /\ length (highs r) <= length (lows a))%nat.
Proof.
  intros E. pose proof (bounds_complement a r E) as [I1 I2].
  pose proof (count_incl r _ _ (complement_valid a r E) I1 I2) as H. rewrite !map_length in H. exact H.
Qed.
Lemma size_set (a : value T) : valid a ->
  (length (lows (value_of_set (to_set a))) <= length (lows a)
   /\ length (highs (value_of_set (to_set a))) <= length (highs a))%nat.
Proof. intros Va. destruct (bounds_set a) as [I1 I2]. apply count_incl; auto. apply set_valid, Va. Qed.

Lemma total_app (l k : list (value T)) :
  list_sum (map nbounds (l ++ k)) = (list_sum (map nbounds l) + list_sum (map nbounds k))%nat.
Proof. rewrite map_app. apply list_sum_app. Qed.
Lemma size_eval (e : expr T) (v : value T) :
  (forall l, In l (leaves e) -> valid l) -> eval e = Ret v -> (nbounds v <= total e)%nat.
Proof.
  unfold total, nbounds. revert v.
  induction e as [x|a IHa b IHb|a IHa b IHb|a IHa|a IHa|a IHa]; intros v V E; cbn [eval leaves] in *.
  - injection E as <-. simpl. lia.
  - destruct (eval a) as [x| |] eqn:Ea; try discriminate. destruct (eval b) as [y| |] eqn:Eb; try discriminate. simpl in E.
    assert (V1 : forall l, In l (leaves a) -> valid l) by (intros; apply V, in_or_app; auto).
    assert (V2 : forall l, In l (leaves b) -> valid l) by (intros; apply V, in_or_app; auto).
    pose proof (size_union x y v (eval_valid a x V1 Ea) (eval_valid b y V2 Eb) E).
    pose proof (total_app (leaves a) (leaves b)) as A. specialize (IHa x V1 eq_refl). specialize (IHb y V2 eq_refl).
    unfold nbounds in *. lia.
  - destruct (eval a) as [x| |] eqn:Ea; try discriminate. destruct (eval b) as [y| |] eqn:Eb; try discriminate. simpl in E.
    assert (V1 : forall l, In l (leaves a) -> valid l) by (intros; apply V, in_or_app; auto).
    assert (V2 : forall l, In l (leaves b) -> valid l) by (intros; apply V, in_or_app; auto).
    pose proof (size_intersection x y v (eval_valid a x V1 Ea) (eval_valid b y V2 Eb) E).
    pose proof (total_app (leaves a) (leaves b)) as A. specialize (IHa x V1 eq_refl). specialize (IHb y V2 eq_refl).
    unfold nbounds in *. lia.
  - destruct (eval a) as [x| |] eqn:Ea; try discriminate. simpl in E.
    pose proof (size_complement x v E). specialize (IHa x V eq_refl). lia.
  - destruct (eval a) as [x| |] eqn:Ea; try discriminate. injection E as <-.
    destruct (bounds_inner x) as [-> ->]. apply (IHa x V eq_refl).
  - destruct (eval a) as [x| |] eqn:Ea; try discriminate. injection E as <-.
    pose proof (size_set x (eval_valid a x V Ea)). specialize (IHa x V eq_refl). lia.
Qed.

End Sizes.

Section Programs.
Context {T : Type} {PF : Platform} {OT : Ord T} {ST : Step T} {NU : Numbered T} {SL : StepLaws T}.

Lemma lists_sub (P Q : T -> Prop) : (exists k, lists Q k) -> (forall t, P t -> Q t) -> small Q -> small P.
Proof. intros [k K] H S l L. pose proof (lists_length P Q l k L K H). specialize (S k K). lia. Qed.

(** A bounded piece lies between its own endpoints. *)
Lemma in_range_between (r : BoundedRange T) (t : T) :
  in_range r t ->
  in_range (BR (LB (Included (at_elem (lb_bound (br_start r))))) (UB (Included (at_elem (ub_bound (br_end r)))))) t.
Proof.
  unfold in_range. destruct r as [[[a|a]] [[b|b]]]; simpl; intros [H1 H2]; split; auto using lt_le.
Qed.
Lemma upper_not_greatest (u : UpperBound T) (t : T) : ~ greatest (at_elem (ub_bound u)) -> below u t -> ~ greatest t.
Proof.
  destruct u as [[b|b]]; simpl; intros N B G; apply N; intros w; specialize (G w);
    apply le_idx; apply le_idx in G.
  - apply lt_idx in B. lia.
  - apply le_idx in B. lia.
Qed.

Lemma endpoints_low (v : value T) (l : LowerBound T) : In l (lows v) -> In (at_elem (lb_bound l)) (endpoints v).
Proof. intros H. apply in_or_app. left. apply in_map_iff. exists l. auto. Qed.
Lemma endpoints_high (v : value T) (u : UpperBound T) : In u (highs v) -> In (at_elem (ub_bound u)) (endpoints v).
Proof. intros H. apply in_or_app. right. apply in_map_iff. exists u. auto. Qed.

Section Iterate.
Variable e : expr T.
Hypothesis A : forall l, In l (leaves e) -> api l.
Hypothesis G : good_expr e.
Hypothesis S : near e.

Lemma piece_small (v : value T) (r : BoundedRange T) :
  eval e = Ret v -> In (br_start r) (lows v) -> In (br_end r) (highs v) -> small (in_range r).
Proof.
  intros E Hl Hu. apply endpoints_low in Hl. apply endpoints_high in Hu.
  destruct (eval_endpoints e v _ E Hl) as (x & Hx & Ix). destruct (eval_endpoints e v _ E Hu) as (y & Hy & Iy).
  apply (lists_sub (in_range r) _ (range_listing _) (in_range_between r)).
  apply (S x y); assumption.
Qed.

Lemma collect_program :
  interior e -> expr_kind e = KBoundedRange \/ expr_kind e = KBoundedSet ->
  exists v l, eval e = Ret v /\ lists (denote e) l /\ collects Debug v (Ret l) /\ collects Release v (Ret l).
Proof.
  intros X K. destruct (eval_ok e G) as (v & E & F & Kv & M). rewrite <- Kv in K.
  assert (M' : forall t, mem v t <-> denote e t) by (intros t; rewrite <- contains_mem; apply M).
  assert (NH : forall u, In u (highs v) -> ~ greatest (at_elem (ub_bound u)) /\ ~ least (at_elem (ub_bound u))).
  { intros u Hu. apply endpoints_high in Hu. destruct (eval_endpoints e v _ E Hu) as (x & Hx & Ix). exact (X x _ Hx Ix). }
  assert (NL : forall u, In u (lows v) -> ~ greatest (at_elem (lb_bound u)) /\ ~ least (at_elem (lb_bound u))).
  { intros u Hu. apply endpoints_low in Hu. destruct (eval_endpoints e v _ E Hu) as (x & Hx & Ix). exact (X x _ Hx Ix). }
  exists v. destruct v as [| | | | | |r| | | | |s| | |]; try (exfalso; destruct K; discriminate).
  - destruct (br_into_iter Debug r) as [it| |] eqn:I.
    + destruct (range_listing r) as [l L]. exists l. split; [exact E|]. split; [exact (lists_ext _ _ l M' L)|].
      assert (D : drains (bri_next Debug) it (Ret l)).
      { apply (collect_range r it l I). split; [exact L|]. intros t [_ B].
        apply (upper_not_greatest (br_end r)); [apply NH; simpl; auto|exact B]. }
      split; exists it; split; auto.
      * apply (into_iter_agree r it I).
      * exact (drains_agree' _ _ next_agree it l D).
    + exfalso. apply into_iter_panics in I as [(t & Q & Z)|(t & Q & Z)].
      * destruct (NL (br_start r)) as [N _]; [simpl; auto|]. rewrite Q in N. exact (N Z).
      * destruct (NH (br_end r)) as [_ N]; [simpl; auto|]. rewrite Q in N. exact (N Z).
    + exfalso. exact (into_iter_not_diverge r I).
  - pose proof (eval_api e _ A E) as As.
    assert (Sm : forall r, In r (bs_ranges s) -> small (in_range r)).
    { intros r Hr. apply (piece_small (VBS s) r E); simpl; apply in_map; exact Hr. }
    destruct (bs_into_iter_holds s (api_valid _ As) Sm) as (it & l & I & H & L). exists l.
    split; [exact E|]. split; [exact (lists_ext _ _ l M' L)|].
    assert (D : drains (bsi_next Debug) it (Ret l)).
    { apply (collect_set s it l As Sm I). split; [exact L|]. intros t (r & Hr & _ & B).
      apply (upper_not_greatest (br_end r)); [apply NH; simpl; apply in_map; exact Hr|exact B]. }
    split; exists it; split; auto.
    + apply (bs_into_iter_agree s it I).
    + exact (drains_agree' _ _ bsi_next_agree it l D).
Qed.

Lemma ascend_program (v : value T) (cs : list up_call) (reps : list (option T)) :
  expr_kind e = KLowerBoundedRange \/ expr_kind e = KLowerBoundedSet ->
  eval e = Ret v -> Forall up_call_ok cs -> ascends Debug v cs reps ->
  Forall2 (fun o p => exists t, o = Some t /\ ranked (denote e) t p) reps (positions 0 cs).
Proof.
  intros K E O R. destruct (eval_ok e G) as (v' & E' & F & Kv & M). rewrite E in E'. injection E' as <-. rewrite <- Kv in K.
  assert (M' : forall t, mem v t <-> denote e t) by (intros t; rewrite <- contains_mem; apply M).
  assert (Q : Forall2 (fun o p => exists t, o = Some t /\ ranked (mem v) t p) reps (positions 0 cs)).
  { destruct v as [| | | | | | |r| | | | |s| |]; try (exfalso; destruct K; discriminate); destruct R as (it & it' & I & R).
    - exact (lbr_history r it cs reps it' I O R).
    - apply (lbs_history s it cs reps it' (eval_api e _ A E)); auto.
      intros r Hr. apply (piece_small (VLBS s) r E); simpl; [apply in_or_app; left|]; apply in_map; exact Hr. }
  revert Q. apply Forall2_impl. intros o p (t & Ht & P & l & L & N). exists t. split; [exact Ht|].
  split; [apply M', P|]. exists l. split; [|exact N]. revert L. apply lists_ext. intros u. rewrite M'. reflexivity.
Qed.
End Iterate.

End Programs.

Lemma unending_hint {T : Type} {PF : Platform} {OT : Ord T} {ST : Step T}
  (it : LowerBoundedRangeIter T) (its : LowerBoundedSetIter T) :
  lbri_size_hint it = (usize_max, None) /\ lbsi_size_hint its = (usize_max, None)
  /\ (forall m n o k, run (lbri_call m) it (repeat UpNext n) = Ret (o, k) -> length o = n /\ ~ In None o)
  /\ (forall m n o k, run (lbsi_call m) its (repeat UpNext n) = Ret (o, k) -> length o = n /\ ~ In None o).
Proof.
  split; [reflexivity|]. split; [reflexivity|]. split.
  - intros m n. revert it. induction n as [|n IH]; intros it o k R; cbn [repeat run] in R.
    + injection R as <- <-. split; [reflexivity|intros []].
    + inv_bind R. inv_bind R. injection R as <- <-. destruct a as [x i], a0 as [y j]. simpl in *.
      destruct (IH _ _ _ E0) as [H1 H2]. split; [rewrite H1; reflexivity|].
      intros [->|I]; [exact (lbri_call_some m it UpNext None i E eq_refl)|exact (H2 I)].
  - intros m n. revert its. induction n as [|n IH]; intros its o k R; cbn [repeat run] in R.
    + injection R as <- <-. split; [reflexivity|intros []].
    + inv_bind R. inv_bind R. injection R as <- <-. destruct a as [x i], a0 as [y j]. simpl in *.
      destruct (IH _ _ _ E0) as [H1 H2]. split; [rewrite H1; reflexivity|].
      intros [->|I]; [exact (lbsi_call_some m its UpNext None i E eq_refl)|exact (H2 I)].
Qed.
Lemma release_unending {PF : Platform} {ty : ity} (it : LowerBoundedRangeIter (mint ty)) (n : nat) :
  exists o k, run (lbri_call Release) it (repeat UpNext n) = Ret (o, k) /\ length o = n /\ ~ In None o.
Proof.
  assert (H : exists x, run (lbri_call Release) it (repeat UpNext n) = Ret x).
  { revert it. induction n as [|n IH]; intros it; cbn [repeat run]; [eauto|].
    assert (E : exists c, lbri_call Release it UpNext = Ret (Some (lbri_current it), LBRI c)).
    { unfold lbri_call, lbri_next. cbn [forward StepMint]. unfold int_forward.
      destruct (int_forward_checked (lbri_current it) 1); unfold op_result; repeat (cbn [bind]; match goal with |- context [match ?x with _ => _ end] => destruct x end); cbn [bind]; eauto. }
    destruct E as [c E]. rewrite E. cbn [bind fst snd]. destruct (IH (LBRI c)) as [x R]. rewrite R. cbn [bind]. eauto. }
  destruct H as [[o k] R]. exists o, k. split; [exact R|]. exact (proj1 (proj2 (proj2 (unending_hint it (LBSI (BSI []) it)))) Release n o k R).
Qed.
