(** Consequences for values: contents of results, emptiness, order
    independence, piece counts, bounds. *)
From Coq Require Import Lia ZifyBool Permutation.
From Verif Require Import Base ModelBound ModelRanges ModelSets ModelAlgebra ModelValue ModelEq Spec Reach
  Order Cuts SetProofs AlgebraProofs ValueProofs Canon.

Section Laws.
Context {T : Type} {OT : Ord T} {OL : OrdLaws T}.

(** ** Contents *)

Lemma union_mem (a b : value T) :
  fresh a -> fresh b ->
  exists r, union a b = Ret r /\ fresh r /\ forall t, contains r t = true <-> mem a t \/ mem b t.
Proof.
  intros Fa Fb. destruct (union_ok_all a b) as (r & E & H & _ & F & _).
  exists r. split; [exact E|]. specialize (F Fa Fb). split; [exact F|].
  intros t. rewrite contains_v_in by exact F. rewrite H, orb_true_iff, !mem_v_in by assumption. reflexivity.
Qed.
Lemma inter_mem (a b : value T) :
  fresh a -> fresh b -> both_lbs (kind_of a) (kind_of b) = false ->
  exists r, intersection a b = Ret r /\ forall t, contains r t = true <-> mem a t /\ mem b t.
Proof.
  intros Fa Fb N. destruct (intersection_ok a b) as (r & E & H & _ & F & _).
  exists r. split; [exact E|]. intros t. rewrite contains_v_in by exact F.
  rewrite H, andb_true_iff, !mem_v_in by assumption. reflexivity.
Qed.
Lemma lbs_lbs_mem (a b : LowerBoundedSet T) :
  exists r, intersection (VLBS a) (VLBS b) = Ret r /\ forall t, contains r t = true <->
    (mem (VLBS a) t /\ mem (VLBS b) t)
    /\ (above (lbr_start (lbs_lbr b)) t \/ in_pieces (bs_ranges (lbs_ranges a)) t).
Proof.
  destruct (lbs_inter_lbs_ok a b) as (s & E & H & _).
  exists (VLBS s). split; [simpl; unfold lbs_intersection; simpl; unfold ret_lbs; rewrite E; reflexivity|].
  intros t. rewrite contains_mem, mem_v_in by exact I. unfold v_in. cbn [to_inner i_in]. rewrite H.
  rewrite orb_true_iff, !andb_true_iff.
  rewrite <- !lbs_contains_in, <- bs_contains_in, <- lbr_contains_in.
  rewrite lbr_contains_above, bs_contains_pieces.
  change (lbs_contains a t) with (contains (VLBS a) t). change (lbs_contains b t) with (contains (VLBS b) t).
  rewrite !contains_mem. simpl. tauto.
Qed.
Lemma inter_subset (a b : value T) :
  fresh a -> fresh b ->
  exists r, intersection a b = Ret r /\ forall t, contains r t = true -> mem a t /\ mem b t.
Proof.
  intros Fa Fb. destruct (both_lbs (kind_of a) (kind_of b)) eqn:N.
  - destruct a; try discriminate N; destruct b; try discriminate N.
    destruct (lbs_lbs_mem s s0) as (r & E & H). exists r. split; [exact E|]. intros t C. apply H in C. tauto.
  - destruct (inter_mem a b Fa Fb N) as (r & E & H). exists r. split; [exact E|]. intros t. apply H.
Qed.
Lemma compl_mem (a : value T) :
  fresh a -> exists r, complement a = Ret r /\ forall t, contains r t = true <-> ~ mem a t.
Proof.
  intros Fa. destruct (complement_ok a) as (r & E & H & _ & F & _).
  exists r. split; [exact E|]. intros t. rewrite contains_v_in by exact F.
  rewrite H, mem_v_in by assumption. destruct (v_in a (at_elt t)); simpl; intuition discriminate.
Qed.

Lemma eval_ok (e : expr T) :
  good_expr e ->
  exists v, eval e = Ret v /\ fresh v /\ kind_of v = expr_kind e /\ forall t, contains v t = true <-> denote e t.
Proof.
  induction e as [v|a IHa b IHb|a IHa b IHb|a IHa|a IHa|a IHa]; simpl; intros G.
  - exists v. repeat split; auto; apply contains_mem; assumption.
  - destruct G as [Ga Gb]. destruct (IHa Ga) as (x & -> & Fx & Kx & Hx). destruct (IHb Gb) as (y & -> & Fy & Ky & Hy).
    simpl. destruct (union_ok_all x y) as (r & E & H & _ & F & K). exists r. split; [exact E|].
    specialize (F Fx Fy). split; [exact F|]. split; [congruence|].
    intros t. rewrite <- Hx, <- Hy, !contains_v_in, H by assumption. apply orb_true_iff.
  - destruct G as (Ga & Gb & N). destruct (IHa Ga) as (x & -> & Fx & Kx & Hx). destruct (IHb Gb) as (y & -> & Fy & Ky & Hy).
    simpl. destruct (intersection_ok x y) as (r & E & H & _ & F & K). exists r. split; [exact E|].
    split; [exact F|]. split; [congruence|].
    intros t. rewrite <- Hx, <- Hy, !contains_v_in by assumption. rewrite H by congruence. apply andb_true_iff.
  - destruct (IHa G) as (x & -> & Fx & Kx & Hx). simpl.
    destruct (complement_ok x) as (r & E & H & _ & F & K). exists r. split; [exact E|].
    split; [exact F|]. split; [congruence|].
    intros t. rewrite <- Hx, !contains_v_in by assumption. rewrite H.
    destruct (v_in x (at_elt t)); simpl; intuition discriminate.
  - destruct (IHa G) as (x & -> & Fx & Kx & Hx). simpl.
    exists (value_of_inner (to_inner x)). split; [reflexivity|].
    split; [destruct x; exact I|]. split; [rewrite kind_inner; congruence|].
    intros t. rewrite <- Hx, !contains_v_in by (auto; destruct x; exact I). rewrite v_in_inner. reflexivity.
  - destruct (IHa G) as (x & -> & Fx & Kx & Hx). simpl.
    exists (value_of_set (to_set x)). split; [reflexivity|].
    split; [apply fresh_of_set|]. split; [rewrite kind_set; congruence|].
    intros t. rewrite <- Hx, !contains_v_in by (auto using fresh_of_set). change (s_in (to_set x) (at_elt t) = true <-> v_in x (at_elt t) = true).
    rewrite s_in_set. reflexivity.
Qed.

(** Evaluation of any expression returns, also with bad intersections. *)
Lemma eval_returns (e : expr T) : exists v, eval e = Ret v /\ kind_of v = expr_kind e.
Proof.
  induction e as [v|a IHa b IHb|a IHa b IHb|a IHa|a IHa|a IHa]; simpl.
  - eauto.
  - destruct IHa as (x & -> & Kx), IHb as (y & -> & Ky). simpl.
    destruct (union_ok_all x y) as (r & E & _ & _ & _ & K). exists r. split; congruence.
  - destruct IHa as (x & -> & Kx), IHb as (y & -> & Ky). simpl.
    destruct (intersection_ok x y) as (r & E & _ & _ & _ & K). exists r. split; congruence.
  - destruct IHa as (x & -> & Kx). simpl.
    destruct (complement_ok x) as (r & E & _ & _ & _ & K). exists r. split; congruence.
  - destruct IHa as (x & -> & Kx). simpl. eexists. split; [reflexivity|]. rewrite kind_inner. congruence.
  - destruct IHa as (x & -> & Kx). simpl. eexists. split; [reflexivity|]. rewrite kind_set. congruence.
Qed.

(** ** The invariant *)

Lemma api_valid (v : value T) : api v -> valid v.
Proof.
  intros A. apply valid_wf.
  induction A as [ | | | | | | | | | | | |r|r|r| |u l|a b r Aa IHa Ab IHb E|a b r Aa IHa Ab IHb E|a r Aa IHa E|a Aa IHa|a Aa IHa];
    try reflexivity.
  - apply wf_from_br.
  - apply us_new_ok.
  - destruct (union_ok_all a b) as (r' & E' & _ & W & _). rewrite E in E'. injection E' as <-. auto.
  - destruct (intersection_ok a b) as (r' & E' & _ & W & _). rewrite E in E'. injection E' as <-. auto.
  - destruct (complement_ok a) as (r' & E' & _ & W & _). rewrite E in E'. injection E' as <-. auto.
  - rewrite wf_inner. exact IHa.
  - apply wf_set. exact IHa.
Qed.

(** ** Emptiness *)

Lemma le_refl (a : T) : le a a.
Proof. unfold le. rewrite cmp_refl. discriminate. Qed.
Lemma lt_le (a b : T) : lt a b -> le a b.
Proof. unfold lt, le. congruence. Qed.

Lemma room_elt (r : BoundedRange T) :
  room r = true -> (exists t, in_range r t) \/ gap r \/
  (exists a b, r = BR (LB (Excluded a)) (UB (Excluded b)) /\ lt a b).
Proof.
  intros R. apply has_room_cut in R. unfold has_room, precedes in R. unfold in_range.
  destruct r as [[[a|a]] [[b|b]]]; simpl in *.
  - right. right. exists a, b. split; [reflexivity|]. unfold le, lt in *.
    pose proof (cmp_opp a b) as O. destruct (cmp b a); simpl in O; destruct (cmp a b); simpl in *; try congruence; exfalso; apply R; congruence.
  - left. exists b. split; [|apply le_refl]. unfold le, lt in *.
    pose proof (cmp_opp a b) as O. destruct (cmp b a); simpl in O; destruct (cmp a b); simpl in *; try congruence; exfalso; apply R; congruence.
  - left. exists a. split; [apply le_refl|]. unfold le, lt in *.
    pose proof (cmp_opp a b) as O. destruct (cmp b a); simpl in O; destruct (cmp a b); simpl in *; try congruence; exfalso; apply R; congruence.
  - left. exists a. split; [apply le_refl|]. unfold le, lt in *.
    pose proof (cmp_opp a b) as O. destruct (cmp b a); simpl in O; destruct (cmp a b); simpl in *; try congruence; exfalso; apply R; congruence.
Qed.

Lemma is_empty_no_mem (v : value T) (t : T) : is_empty v = true -> ~ mem v t.
Proof.
  intros E M. destruct v as [r|r|r|r|r|r|r|r|r|r|r|s|s|s|s]; try discriminate E.
  - apply (mem_v_in (VRange r) t I) in M. unfold v_in in M. simpl in M, E.
    assert (Em : br_is_empty (br_from_range r) = true) by exact E.
    rewrite br_is_empty_room in Em. apply negb_true_iff in Em.
    rewrite not_room_in in M by exact Em. discriminate.
  - destruct M as [M1 M2].
    assert (M3 : le t (ri_end r)) by (destruct (ri_exhausted r); [apply lt_le|]; exact M2).
    assert (M4 : le (ri_start r) (ri_end r)) by (unfold le in *; eapply cmp_trans; eassumption).
    unfold le in M4. simpl in E. unfold t_gt, t_partial_cmp in E.
    destruct (cmp (ri_start r) (ri_end r)); congruence.
  - apply (mem_v_in (VBR r) t I) in M. unfold v_in in M. simpl in M, E. rewrite br_is_empty_room in E.
    apply negb_true_iff in E. rewrite not_room_in in M by exact E. discriminate.
  - destruct M.
  - apply (mem_v_in (VBS s) t I) in M. unfold v_in in M. simpl in M, E. rewrite bs_is_empty_room in E.
    unfold bs_in in M. rewrite not_room_bl_in in M by exact E. discriminate.
Qed.

Lemma hollow_no_mem (r : BoundedRange T) (t : T) : hollow r -> ~ in_range r t.
Proof.
  intros [P|G] M.
  - apply br_contains_in_range in M. rewrite br_contains_in in M.
    destruct (room r) eqn:R; [|rewrite not_room_in in M by exact R; discriminate].
    apply has_room_cut in R. exact (R P).
  - unfold in_range in M. destruct r as [[[a|a]] [[b|b]]]; simpl in *; try contradiction. destruct G as [_ G]. exact (G t M).
Qed.
Lemma no_mem_hollow (r : BoundedRange T) : (forall t, ~ in_range r t) -> hollow r.
Proof.
  intros N. unfold hollow. rewrite precedes_cut. destruct (cle (ucut (br_end r)) (lcut (br_start r))) eqn:C; [auto|].
  right. destruct (room_elt r) as [[t Ht]|[G|(a & b & -> & L)]].
  - unfold room. rewrite C. reflexivity.
  - destruct (N t Ht).
  - exact G.
  - split; [exact L|]. intros t. exact (N t).
Qed.
Lemma no_above (l : LowerBound T) : (forall t, ~ above l t) <-> nothing_above l.
Proof.
  destruct l as [[a|a]]; simpl; split; intros H; auto.
  apply (H a), le_refl.
Qed.
Lemma no_below (u : UpperBound T) : (forall t, ~ below u t) <-> nothing_below u.
Proof.
  destruct u as [[a|a]]; simpl; split; intros H; auto.
  apply (H a), le_refl.
Qed.
Lemma no_pieces (l : list (BoundedRange T)) :
  (forall t, ~ in_pieces l t) <-> (forall r, In r l -> hollow r).
Proof.
  split.
  - intros N r Hr. apply no_mem_hollow. intros t Ht. apply (N t). exists r. auto.
  - intros H t (r & Hr & Ht). exact (hollow_no_mem r t (H r Hr) Ht).
Qed.

(** No elements exactly when reported empty or degenerate. *)
Lemma empty_exact (v : value T) :
  fresh v -> ((forall t, ~ mem v t) <-> is_empty v = true \/ degenerate v).
Proof.
  intros F. split.
  - intros N. destruct (is_empty v) eqn:E; [auto|right].
    destruct v as [r|r|r|r|r|r|r|r|r|r|r|s|s|s|[|p]]; simpl in *; try discriminate E.
    + apply (N (rg_start r)). split; [apply le_refl|]. unfold t_ge, t_partial_cmp, lt in *.
      destruct (cmp (rg_start r) (rg_end r)); congruence.
    + apply (N (ri_start r)). rewrite F. split; [apply le_refl|]. unfold t_gt, t_partial_cmp, le in *.
      destruct (cmp (ri_start r) (ri_end r)); congruence.
    + apply (N (rf_start r)), le_refl.
    + exact N.
    + apply (N (rti_end r)), le_refl.
    + intros t. exact (N t I).
    + destruct (no_mem_hollow r N) as [P|G]; [|exact G].
      rewrite br_is_empty_room in E. apply negb_false_iff, has_room_cut in E. destruct (E P).
    + apply no_above, N.
    + apply no_below, N.
    + intros t. exact (N t I).
    + apply no_pieces, N.
    + split; [apply no_above|apply no_pieces]; intros t M; apply (N t); auto.
    + split; [apply no_below|apply no_pieces]; intros t M; apply (N t); auto.
    + intros t. exact (N t I).
    + split; [apply no_below|split; [apply no_above|apply no_pieces]]; intros t M; apply (N t); auto.
  - intros [E|D] t M; [exact (is_empty_no_mem v t E M)|].
    destruct v as [r|r|r|r|r|r|r|r|r|r|r|s|s|s|[|p]]; cbn [degenerate mem] in *; try exact D; try exact (D t).
    + exact (D t M).
    + apply (hollow_no_mem r t); [right; exact D|exact M].
    + exact (proj2 (no_above _) D t M).
    + exact (proj2 (no_below _) D t M).
    + exact (proj2 (no_pieces _) D t M).
    + destruct D as [D1 D2], M as [M|M]; [exact (proj2 (no_pieces _) D2 t M)|exact (proj2 (no_above _) D1 t M)].
    + destruct D as [D1 D2], M as [M|M]; [exact (proj2 (no_below _) D1 t M)|exact (proj2 (no_pieces _) D2 t M)].
    + destruct D as (D1 & D2 & D3), M as [M|[M|M]];
        [exact (proj2 (no_below _) D1 t M)|exact (proj2 (no_pieces _) D3 t M)|exact (proj2 (no_above _) D2 t M)].
Qed.

Lemma refreshed_v_in (v : value T) (t : T) : mem (refreshed v) t <-> v_in v (at_elt t) = true.
Proof. rewrite (mem_v_in (refreshed v)) by (destruct v; exact I || reflexivity). destruct v; reflexivity. Qed.

Lemma dense_nonempty {DO : DenseOrd T} (v : value T) :
  fresh v -> is_empty v = false -> exists t, mem v t.
Proof.
  intros F E. destruct v as [r|r|r|r|r|r|r|r|r|r|r|s|s|s|[|p]]; simpl in *; try discriminate E.
  - exists (rg_start r). split; [apply le_refl|]. unfold t_ge, t_partial_cmp, lt in *.
    destruct (cmp (rg_start r) (rg_end r)); congruence.
  - exists (ri_start r). rewrite F. split; [apply le_refl|]. unfold t_gt, t_partial_cmp, le in *.
    destruct (cmp (ri_start r) (ri_end r)); congruence.
  - exists (rf_start r). apply le_refl.
  - apply dense_below.
  - exists (rti_end r). apply le_refl.
  - destruct dense_point as [t _]. exists t. exact I.
  - rewrite br_is_empty_room in E. apply negb_false_iff in E.
    destruct (room_elt r E) as [H|[G|(a & b & -> & L)]]; [exact H| |].
    + destruct r as [[[a|a]] [[b|b]]]; try destruct G. destruct (dense_between a b H) as (t & Ht). exists t. exact Ht.
    + destruct (dense_between a b L) as (t & Ht). exists t. exact Ht.
  - destruct r as [[[a|a]]]; simpl; [apply dense_above|]. exists a. apply le_refl.
  - destruct r as [[[a|a]]]; simpl; [apply dense_below|]. exists a. apply le_refl.
  - destruct dense_point as [t _]. exists t. exact I.
  - rewrite bs_is_empty_room in E.
    assert (X : exists r, In r (bs_ranges s) /\ room r = true).
    { clear - E. induction (bs_ranges s) as [|r l IH]; simpl in E; [discriminate|].
      destruct (room r) eqn:R; [exists r; simpl; auto|]. destruct IH as (x & Hx & Rx); [exact E|].
      exists x. simpl. auto. }
    destruct X as (r & Hr & R).
    assert (Y : exists t, in_range r t).
    { destruct (room_elt r R) as [H|[G|(a & b & -> & L)]]; [exact H| |].
      + destruct r as [[[a|a]] [[b|b]]]; try destruct G. destruct (dense_between a b H) as (t & Ht). exists t. exact Ht.
      + destruct (dense_between a b L) as (t & Ht). exists t. exact Ht. }
    destruct Y as (t & Ht). exists t, r. auto.
  - assert (X : exists t, above (lbr_start (lbs_lbr s)) t).
    { destruct (lbr_start (lbs_lbr s)) as [[a|a]]; simpl; [apply dense_above|]. exists a. apply le_refl. }
    destruct X as (t & Ht). exists t. right. exact Ht.
  - assert (X : exists t, below (ubr_end (ubs_ubr s)) t).
    { destruct (ubr_end (ubs_ubr s)) as [[a|a]]; simpl; [apply dense_below|]. exists a. apply le_refl. }
    destruct X as (t & Ht). exists t. left. exact Ht.
  - destruct dense_point as [t _]. exists t. exact I.
  - assert (X : exists t, above (lbr_start (pus_lbr p)) t).
    { destruct (lbr_start (pus_lbr p)) as [[a|a]]; simpl; [apply dense_above|]. exists a. apply le_refl. }
    destruct X as (t & Ht). exists t. right. right. exact Ht.
Qed.

(** ** disjoint and intersects *)

Lemma disjoint_returns (a b : value T) :
  exists i d, intersection a b = Ret i /\ disjoint a b = Ret d /\ intersects a b = Ret (negb d) /\ d = is_empty i.
Proof.
  destruct (intersection_ok a b) as (i & E & _). exists i, (is_empty i).
  split; [exact E|]. unfold intersects, disjoint. rewrite E. simpl. auto.
Qed.

Definition bounded_kind (k : kind) : bool :=
  match k with KBoundedRange | KBoundedSet => true | _ => false end.

Lemma is_empty_places (v : value T) :
  bounded_kind (kind_of v) = true -> (is_empty v = true <-> forall p, v_in v p = false).
Proof.
  intros B. destruct v as [r|r|r|r|r|r|r|r|r|r|r|s|s|s|s]; try discriminate B; unfold v_in; simpl.
  - rewrite br_is_empty_room. split.
    + intros E p. apply not_room_in. apply negb_true_iff, E.
    + intros H. specialize (H (lcut (br_start r), true)). destruct (room r) eqn:R; [|reflexivity].
      rewrite first_place in H by exact R. discriminate.
  - rewrite bs_is_empty_room. split.
    + intros E p. apply not_room_bl_in, E.
    + intros H. apply forallb_forall. intros r Hr. specialize (H (lcut (br_start r), true)).
      destruct (room r) eqn:R; [|reflexivity]. unfold bs_in, bl_in in H.
      assert (X : existsb (fun r0 => br_in r0 (lcut (br_start r), true)) (bs_ranges s) = true)
        by (apply existsb_exists; exists r; split; [exact Hr|apply first_place, R]).
      congruence.
Qed.

Lemma is_empty_kind (v w : value T) :
  kind_of v = kind_of w -> bounded_kind (kind_of v) = false ->
  kind_of v <> KRange -> kind_of v <> KRangeInclusive -> is_empty v = is_empty w.
Proof. destruct v, w; simpl; intros K B H1 H2; try discriminate K; try discriminate B; congruence. Qed.

Lemma inter_kind_crate (a b : kind) : inter_kind a b <> KRange /\ inter_kind a b <> KRangeInclusive.
Proof. destruct a, b; split; discriminate. Qed.

Lemma inter_kind_comm (a b : kind) : inter_kind a b = inter_kind b a.
Proof.
  unfold inter_kind. rewrite (orb_comm (is_none a)), (orb_comm (is_set a)), (orb_comm (has_lower a)),
    (orb_comm (has_upper a)). reflexivity.
Qed.

Lemma disjoint_sym (a b : value T) : disjoint a b = disjoint b a.
Proof.
  unfold disjoint.
  destruct (intersection_ok a b) as (x & -> & Hx & _ & _ & Kx).
  destruct (intersection_ok b a) as (y & -> & Hy & _ & _ & Ky). simpl. f_equal.
  destruct (bounded_kind (kind_of x)) eqn:B.
  - assert (N : both_lbs (kind_of a) (kind_of b) = false).
    { rewrite Kx in B. destruct (kind_of a), (kind_of b); try discriminate B; reflexivity. }
    assert (N' : both_lbs (kind_of b) (kind_of a) = false).
    { destruct (kind_of a), (kind_of b); try discriminate N; reflexivity. }
    assert (B' : bounded_kind (kind_of y) = true) by (rewrite Ky, inter_kind_comm, <- Kx; exact B).
    apply eq_true_iff_eq. rewrite (is_empty_places x B), (is_empty_places y B').
    split; intros H p; specialize (H p).
    + rewrite Hy, andb_comm, <- Hx by assumption. exact H.
    + rewrite Hx, andb_comm, <- Hy by assumption. exact H.
  - apply is_empty_kind; auto.
    + rewrite Kx, Ky. apply inter_kind_comm.
    + rewrite Kx. apply inter_kind_crate.
    + rewrite Kx. apply inter_kind_crate.
Qed.

Lemma disjoint_sound (a b : value T) (t : T) :
  fresh a -> fresh b -> disjoint a b = Ret true -> ~ (mem a t /\ mem b t).
Proof.
  intros Fa Fb D [Ma Mb]. unfold disjoint in D.
  destruct (both_lbs (kind_of a) (kind_of b)) eqn:N.
  - destruct a; try discriminate N; destruct b; try discriminate N.
    destruct (intersection_ok (VLBS s) (VLBS s0)) as (x & E & _ & _ & _ & K). rewrite E in D. simpl in D, K.
    destruct x; try discriminate K. discriminate D.
  - destruct (inter_mem a b Fa Fb N) as (r & E & H). rewrite E in D. simpl in D.
    assert (Em : is_empty r = true) by congruence.
    apply (is_empty_no_mem r t Em). apply contains_mem, H. auto.
Qed.

Lemma intersects_dense {DO : DenseOrd T} (a b : value T) :
  fresh a -> fresh b -> intersects a b = Ret true -> exists t, mem a t /\ mem b t.
Proof.
  intros Fa Fb D. destruct (inter_subset a b Fa Fb) as (r & E & H).
  unfold intersects, disjoint in D. rewrite E in D. simpl in D.
  assert (Em : is_empty r = false) by (destruct (is_empty r); [discriminate D|reflexivity]).
  destruct (intersection_ok a b) as (r' & E' & _ & _ & F & _). rewrite E in E'. injection E' as <-.
  destruct (dense_nonempty r F Em) as (t & Ht). exists t. apply H, contains_mem, Ht.
Qed.

(** std ranges with at least one lower bound between them: exact for every order. *)
Definition incl_start (v : value T) : Prop :=
  match v with
  | VBR (BR (LB (Included _)) _) => True
  | VLBR (LBR (LB (Included _))) => True
  | _ => False
  end.
Lemma lb_max_incl (a b : T) : exists c, lb_max (LB (Included a)) (LB (Included b)) = LB (Included c).
Proof. unfold lb_max. destruct (lb_cmp _ _); eauto. Qed.
Lemma incl_start_elt (v : value T) : incl_start v -> is_empty v = false -> exists t, mem v t.
Proof.
  destruct v as [ | | | | | |r|r| | | | | | |]; simpl; try tauto.
  - destruct r as [[[a|a]] e]; simpl; [tauto|]. intros _ E. rewrite br_is_empty_room in E. apply negb_false_iff in E.
    destruct (room_elt _ E) as [H|[G|(x & y & X & _)]]; [exact H|destruct G|discriminate X].
  - destruct r as [[[a|a]]]; simpl; [tauto|]. intros _ _. exists a. apply le_refl.
Qed.
Lemma std_inter_incl (a b : value T) :
  std_kind (kind_of a) = true -> std_kind (kind_of b) = true ->
  has_lower (kind_of a) || has_lower (kind_of b) = true ->
  exists r, intersection a b = Ret r /\ incl_start r.
Proof.
  intros Sa Sb L.
  destruct a; try discriminate Sa; destruct b; try discriminate Sb; try discriminate L;
    (eexists; split; [reflexivity|]); simpl; auto; unfold lb_included;
    match goal with |- context [lb_max (LB (Included ?x)) (LB (Included ?y))] =>
      destruct (lb_max_incl x y) as [c ->]; exact I | _ => idtac end.
Qed.
Lemma intersects_std (a b : value T) :
  fresh a -> fresh b -> std_kind (kind_of a) = true -> std_kind (kind_of b) = true ->
  has_lower (kind_of a) || has_lower (kind_of b) = true ->
  (intersects a b = Ret true <-> exists t, mem a t /\ mem b t).
Proof.
  intros Fa Fb Sa Sb L. split.
  - intros D. destruct (inter_subset a b Fa Fb) as (r & E & H).
    destruct (std_inter_incl a b Sa Sb L) as (r' & E' & S). rewrite E in E'. injection E' as <-.
    unfold intersects, disjoint in D. rewrite E in D. simpl in D.
    assert (Em : is_empty r = false) by (destruct (is_empty r); [discriminate D|reflexivity]).
    destruct (incl_start_elt r S Em) as (t & Ht). exists t. apply H, contains_mem, Ht.
  - intros (t & Ma & Mb). destruct (disjoint_returns a b) as (i & d & _ & D & I & _).
    rewrite I. destruct d; [|reflexivity]. exfalso. exact (disjoint_sound a b t Fa Fb D (conj Ma Mb)).
Qed.

Lemma disjoint_exact (a b : value T) :
  fresh a -> fresh b -> both_lbs (kind_of a) (kind_of b) = false ->
  exists r, intersection a b = Ret r
    /\ ((forall t, ~ (mem a t /\ mem b t)) <-> disjoint a b = Ret true \/ degenerate r).
Proof.
  intros Fa Fb N. destruct (inter_mem a b Fa Fb N) as (r & E & H).
  destruct (intersection_ok a b) as (r' & E' & _ & _ & F & _). rewrite E in E'. injection E' as <-.
  exists r. split; [exact E|]. unfold disjoint. rewrite E. simpl.
  pose proof (empty_exact r F) as X.
  assert (Y : (forall t, ~ (mem a t /\ mem b t)) <-> (forall t, ~ mem r t)).
  { split; intros Z t M; apply (Z t); [apply H, contains_mem, M|apply contains_mem, H, M]. }
  rewrite Y, X. split; (intros [Z|Z]; [left; congruence|right; exact Z]).
Qed.

(** ** Intersection commutes up to [==] *)

Lemma inter_comm_eq (a b : value T) :
  wf_v a = true -> wf_v b = true -> both_lbs (kind_of a) (kind_of b) = false ->
  ret_eq (intersection a b) (intersection b a).
Proof.
  intros Wa Wb N.
  assert (N' : both_lbs (kind_of b) (kind_of a) = false)
    by (destruct (kind_of a), (kind_of b); try discriminate N; reflexivity).
  destruct (is_set (kind_of a) || is_set (kind_of b)) eqn:S.
  - destruct (intersection_ok a b) as (x & Ex & Hx & Wx & _ & Kx).
    destruct (intersection_ok b a) as (y & Ey & Hy & Wy & _ & Ky).
    exists x, y. split; [exact Ex|]. split; [exact Ey|].
    destruct (is_none (kind_of a) || is_none (kind_of b)) eqn:Z.
    + assert (Ka : kind_of x = KEmptyRange) by (rewrite Kx; unfold inter_kind; rewrite Z; reflexivity).
      assert (Kb : kind_of y = KEmptyRange) by (rewrite Ky, inter_kind_comm; unfold inter_kind; rewrite Z; reflexivity).
      destruct x; try discriminate Ka; destruct y; try discriminate Kb. reflexivity.
    + apply canon_value; auto.
      * rewrite Kx. unfold inter_kind. rewrite Z, S.
        destruct (has_lower (kind_of a) || has_lower (kind_of b)), (has_upper (kind_of a) || has_upper (kind_of b));
          reflexivity.
      * rewrite Kx, Ky. apply inter_kind_comm.
      * intros p. rewrite Hx, Hy by assumption. apply andb_comm.
  - apply orb_false_iff in S as [Sa Sb]. clear N N' Wa Wb.
    destruct a as [r|r|r|r|r|r|r|r|r|r|r|s|s|s|s]; try discriminate Sa;
    destruct b as [r'|r'|r'|r'|r'|r'|r'|r'|r'|r'|r'|s'|s'|s'|s']; try discriminate Sb; clear Sa Sb;
    (eexists; eexists; split; [reflexivity|]; split; [reflexivity|]);
    try apply value_eqb_refl; try reflexivity;
    cbn [value_eqb value_of_inner to_inner];
    unfold br_eqb, lbr_eqb, ubr_eqb; rewrite ?lb_eqb_cut, ?ub_eqb_cut; unfold ceq; ranges.
Qed.

(** ** Order independence *)

Lemma unite_ok (l : list (value T)) (v : value T) :
  exists r, union_all l v = Ret r
    /\ (forall p, v_in r p = v_in v p || existsb (fun x => v_in x p) l)
    /\ (wf_v v = true -> Forall (fun x => wf_v x = true) l -> wf_v r = true)
    /\ (fresh v -> Forall fresh l -> fresh r)
    /\ kind_of r = fold_left union_kind (map kind_of l) (kind_of v).
Proof.
  unfold union_all. revert v. induction l as [|x l IH]; intros v; cbn [foldM].
  - exists v. repeat split; auto. intros p. simpl. rewrite orb_false_r. reflexivity.
  - destruct (union_ok_all v x) as (u & -> & H & W & F & K). cbn [bind].
    destruct (IH u) as (r & -> & H2 & W2 & F2 & K2).
    exists r. split; [reflexivity|]. split; [|split; [|split]].
    + intros p. rewrite H2, H. simpl. rewrite orb_assoc. reflexivity.
    + intros Wv Wl. inversion Wl; subst. auto.
    + intros Fv Fl. inversion Fl; subst. auto.
    + rewrite K2, K. reflexivity.
Qed.

Definition settish (k : kind) : bool :=
  is_set k || match k with KUnboundedRange => true | _ => false end.
Lemma settish_union (k x : kind) : settish k = true -> settish (union_kind k x) = true.
Proof. destruct k; intros S; try discriminate S; destruct x; reflexivity. Qed.
Lemma union_kind_swap (k x y : kind) :
  settish k = true -> union_kind (union_kind k x) y = union_kind (union_kind k y) x.
Proof. destruct k; intros S; try discriminate S; destruct x; destruct y; reflexivity. Qed.
Lemma fold_kind_perm (l l' : list kind) :
  Permutation l l' -> forall k, settish k = true -> fold_left union_kind l k = fold_left union_kind l' k.
Proof.
  induction 1 as [|x l l' P IH|x y l|l l' l'' P1 IH1 P2 IH2]; intros k S; simpl.
  - reflexivity.
  - apply IH, settish_union, S.
  - rewrite union_kind_swap by exact S. reflexivity.
  - rewrite IH1 by exact S. apply IH2, S.
Qed.
Lemma existsb_perm {A : Type} (f : A -> bool) (l l' : list A) :
  Permutation l l' -> existsb f l = existsb f l'.
Proof.
  induction 1 as [|x l l' P IH|x y l|l l' l'' P1 IH1 P2 IH2]; simpl.
  - reflexivity.
  - rewrite IH. reflexivity.
  - destruct (f x), (f y); reflexivity.
  - congruence.
Qed.
Lemma fold_kind_settish (l : list kind) (k : kind) : settish k = true -> settish (fold_left union_kind l k) = true.
Proof. revert k. induction l as [|x l IH]; simpl; intros k S; [exact S|]. apply IH, settish_union, S. Qed.

Lemma unite_perm (l l' : list (value T)) (v : value T) :
  is_set (kind_of v) = true -> wf_v v = true -> Forall (fun x => wf_v x = true) l ->
  Permutation l l' -> ret_eq (union_all l v) (union_all l' v).
Proof.
  intros S W Wl P.
  assert (Wl' : Forall (fun x => wf_v x = true) l').
  { rewrite Forall_forall in *. intros x Hx. apply Wl. apply (Permutation_in x (Permutation_sym P) Hx). }
  destruct (unite_ok l v) as (x & Ex & Hx & Wx & _ & Kx).
  destruct (unite_ok l' v) as (y & Ey & Hy & Wy & _ & Ky).
  exists x, y. split; [exact Ex|]. split; [exact Ey|].
  assert (St : settish (kind_of v) = true) by (unfold settish; rewrite S; reflexivity).
  assert (K : kind_of x = kind_of y).
  { rewrite Kx, Ky. apply fold_kind_perm; [apply Permutation_map, P|exact St]. }
  assert (Sx : settish (kind_of x) = true) by (rewrite Kx; apply fold_kind_settish, St).
  apply orb_true_iff in Sx as [Sx|Sx].
  - apply canon_value; auto. intros p. rewrite Hx, Hy. f_equal. apply existsb_perm, P.
  - assert (Ux : kind_of x = KUnboundedRange) by (destruct (kind_of x); try discriminate Sx; reflexivity).
    rewrite (kind_unb x Ux), (kind_unb y) by congruence. reflexivity.
Qed.

(** ** Pieces of a union of ranges *)

Definition ends_in (P : LowerBound T -> Prop) (Q : UpperBound T -> Prop) (r : BoundedRange T) : Prop :=
  P (br_start r) /\ Q (br_end r).

Lemma hull_ends P Q (a b : BoundedRange T) : ends_in P Q a -> ends_in P Q b -> ends_in P Q (hull a b).
Proof.
  unfold ends_in, hull, lb_min, ub_max. simpl. intros [] [].
  destruct (lb_cmp _ _), (ub_cmp _ _); auto.
Qed.
Lemma add_range_fuel_ends P Q (fuel : nat) (ranges : list (BoundedRange T)) (r : BoundedRange T) l :
  Forall (ends_in P Q) ranges -> ends_in P Q r ->
  bs_add_range_fuel fuel ranges r = Ret l -> Forall (ends_in P Q) l.
Proof.
  revert ranges r. induction fuel as [|fuel IH]; intros ranges r Fr Er; simpl; [discriminate|].
  rewrite br_is_empty_room, negb_involutive.
  destruct (room r) eqn:Hr; [|intros H; injection H as <-; exact Fr].
  destruct (position (fun range => br_intersects_br range r) ranges) as [i|] eqn:Po.
  - apply position_some in Po as (l1 & x & l2 & -> & -> & Hx & _).
    rewrite vd_index_mid, vd_remove_mid. simpl.
    rewrite intersects_room, inter_room_sym in Hx.
    rewrite combine_hull by exact Hx. simpl. apply Forall_app in Fr as [F1 F2]. inversion F2; subst.
    apply IH; [apply Forall_app; auto|apply hull_ends; assumption].
  - destruct (position (fun range => lb_gt (br_start range) (br_start r)) ranges) as [j|] eqn:Q2.
    + apply position_some in Q2 as (l1 & x & l2 & -> & -> & Hx & Hl1).
      rewrite vd_insert_mid. intros H. injection H as <-. apply Forall_app in Fr as [F1 F2].
      apply Forall_app. auto.
    + pose proof (vd_insert_mid ranges [] r) as V. rewrite app_nil_r in V. rewrite V.
      intros H. injection H as <-. apply Forall_app. auto.
Qed.
Lemma bs_add_set_ends P Q (s o s' : BoundedSet T) :
  Forall (ends_in P Q) (bs_ranges s) -> Forall (ends_in P Q) (bs_ranges o) ->
  bs_add_set s o = Ret s' -> Forall (ends_in P Q) (bs_ranges s').
Proof.
  unfold bs_add_set. revert s. induction (bs_ranges o) as [|r l IH]; intros s Fs Fo; simpl.
  - intros H. injection H as <-. exact Fs.
  - inversion Fo; subst. destruct (bs_add_range s r) as [s1| |] eqn:E; simpl; try discriminate.
    apply IH; [|assumption]. unfold bs_add_range in E.
    destruct (bs_add_range_fuel _ _ _) as [l1| |] eqn:E1; simpl in E; try discriminate.
    injection E as <-. simpl. eapply add_range_fuel_ends; [exact Fs| |exact E1]. assumption.
Qed.

Lemma unite_pieces (l : list (BoundedRange T)) :
  exists s, union_all (map VBR l) (VBS bs_empty) = Ret (VBS s)
    /\ (length (bs_ranges s) <= length l)%nat
    /\ (forall r, In r (bs_ranges s) ->
          In (br_start r) (map br_start l) /\ In (br_end r) (map br_end l)).
Proof.
  assert (G : forall l0 s0 P Q, Forall (ends_in P Q) l0 -> Forall (ends_in P Q) (bs_ranges s0) ->
    exists s, union_all (map VBR l0) (VBS s0) = Ret (VBS s)
    /\ (length (bs_ranges s) <= length (bs_ranges s0) + length l0)%nat
    /\ Forall (ends_in P Q) (bs_ranges s)).
  { clear l. unfold union_all. induction l0 as [|r l IH]; intros s0 P Q F0 Fs; cbn [map foldM].
    - exists s0. repeat split; auto. lia.
    - inversion F0; subst.
      destruct (bs_add_set_ok s0 (bs_from_br r)) as (s1 & E1 & _ & _ & L1).
      assert (E : union (VBS s0) (VBR r) = Ret (VBS s1)).
      { cbn [union]. unfold bs_union. cbn [to_set]. unfold bs_union_bs. rewrite E1. reflexivity. }
      rewrite E. cbn [bind].
      assert (Ffrom : Forall (ends_in P Q) (bs_ranges (bs_from_br r)) /\ (length (bs_ranges (bs_from_br r)) <= 1)%nat).
      { unfold bs_from_br. destruct (br_is_empty r); simpl; split; auto. }
      destruct Ffrom as [Ff Lf].
      destruct (IH s1 P Q) as (s & -> & L & F); [assumption|exact (bs_add_set_ends P Q s0 _ s1 Fs Ff E1)|].
      exists s. repeat split; auto. simpl. lia. }
  destruct (G l bs_empty (fun b => In b (map br_start l)) (fun b => In b (map br_end l))) as (s & E & L & F).
  - apply Forall_forall. intros r Hr. split; apply in_map, Hr.
  - constructor.
  - exists s. rewrite Forall_forall in F. repeat split; auto; apply (F r); assumption.
Qed.

(** ** Bounds *)

Lemma lb_cmp_spec (x y : LowerBound T) :
  lb_cmp x y = if cle (lcut x) (lcut y) then (if cle (lcut y) (lcut x) then Eq else Lt) else Gt.
Proof.
  unfold lb_cmp, lb_partial_cmp, t_partial_cmp, cle, lcut.
  destruct x as [[a|a]], y as [[b|b]]; simpl; rewrite ?(teq_match a b); rewrite (cmp_opp a b);
    destruct (cmp a b) eqn:E; simpl; rewrite ?E; reflexivity.
Qed.
Lemma ub_cmp_spec (x y : UpperBound T) :
  ub_cmp x y = if cle (ucut x) (ucut y) then (if cle (ucut y) (ucut x) then Eq else Lt) else Gt.
Proof.
  unfold ub_cmp, ub_partial_cmp, t_partial_cmp, cle, ucut.
  destruct x as [[a|a]], y as [[b|b]]; simpl; rewrite ?(teq_match a b); rewrite (cmp_opp a b);
    destruct (cmp a b) eqn:E; simpl; rewrite ?E; reflexivity.
Qed.
Lemma above_cut (l : LowerBound T) (t : T) : above l t <-> cle (lcut l) (pt t) = true.
Proof.
  unfold above, lt, le, cle, lcut, pt. destruct l as [[a|a]]; simpl; destruct (cmp a t); split; congruence.
Qed.
Lemma below_cut (u : UpperBound T) (t : T) : below u t <-> cle (ucut u) (pt t) = false.
Proof.
  unfold below, lt, le, cle, ucut, pt.
  destruct u as [[a|a]]; simpl; rewrite (cmp_opp a t); destruct (cmp a t); simpl; split; congruence.
Qed.

Lemma lb_order (x y z : LowerBound T) :
  lb_cmp y x = CompOpp (lb_cmp x y)
  /\ (lb_cmp x y <> Gt -> lb_cmp y z <> Gt -> lb_cmp x z <> Gt)
  /\ (lb_cmp x y = Eq <-> lb_eqb x y = true)
  /\ lb_partial_cmp x y = Some (lb_cmp x y).
Proof.
  split; [|split; [|split]].
  - rewrite !lb_cmp_spec. pose proof (cle_total (lcut x) (lcut y)) as H.
    destruct (cle (lcut x) (lcut y)), (cle (lcut y) (lcut x)); simpl; try reflexivity.
    specialize (H eq_refl). discriminate.
  - rewrite !lb_cmp_spec. pose proof (cle_trans (lcut x) (lcut y) (lcut z)) as H.
    destruct (cle (lcut x) (lcut y)); [|congruence]. destruct (cle (lcut y) (lcut z)); [|congruence].
    intros _ _. rewrite H by reflexivity. destruct (cle (lcut z) (lcut x)); discriminate.
  - rewrite lb_cmp_spec, lb_eqb_cut. unfold ceq.
    destruct (cle (lcut x) (lcut y)), (cle (lcut y) (lcut x)); simpl; split; congruence.
  - unfold lb_cmp. destruct (lb_partial_cmp_some x y) as [c ->]. reflexivity.
Qed.
Lemma ub_order (x y z : UpperBound T) :
  ub_cmp y x = CompOpp (ub_cmp x y)
  /\ (ub_cmp x y <> Gt -> ub_cmp y z <> Gt -> ub_cmp x z <> Gt)
  /\ (ub_cmp x y = Eq <-> ub_eqb x y = true)
  /\ ub_partial_cmp x y = Some (ub_cmp x y).
Proof.
  split; [|split; [|split]].
  - rewrite !ub_cmp_spec. pose proof (cle_total (ucut x) (ucut y)) as H.
    destruct (cle (ucut x) (ucut y)), (cle (ucut y) (ucut x)); simpl; try reflexivity.
    specialize (H eq_refl). discriminate.
  - rewrite !ub_cmp_spec. pose proof (cle_trans (ucut x) (ucut y) (ucut z)) as H.
    destruct (cle (ucut x) (ucut y)); [|congruence]. destruct (cle (ucut y) (ucut z)); [|congruence].
    intros _ _. rewrite H by reflexivity. destruct (cle (ucut z) (ucut x)); discriminate.
  - rewrite ub_cmp_spec, ub_eqb_cut. unfold ceq.
    destruct (cle (ucut x) (ucut y)), (cle (ucut y) (ucut x)); simpl; split; congruence.
  - unfold ub_cmp. destruct (ub_partial_cmp_some x y) as [c ->]. reflexivity.
Qed.
Lemma lb_halflines (x y : LowerBound T) (t : T) :
  (lb_cmp x y <> Gt -> above y t -> above x t)
  /\ (above (lb_max x y) t <-> above x t /\ above y t)
  /\ (above (lb_min x y) t <-> above x t \/ above y t).
Proof.
  rewrite !above_cut, lcut_max, lcut_min, lb_cmp_spec. unfold cmax, cmin.
  pose proof (cle_trans (lcut x) (lcut y) (pt t)) as H1.
  pose proof (cle_trans (lcut y) (lcut x) (pt t)) as H2.
  pose proof (cle_total (lcut x) (lcut y)) as H3.
  destruct (cle (lcut x) (lcut y)); repeat split; intros; intuition congruence.
Qed.
Lemma ub_halflines (x y : UpperBound T) (t : T) :
  (ub_cmp x y <> Gt -> below x t -> below y t)
  /\ (below (ub_min x y) t <-> below x t /\ below y t)
  /\ (below (ub_max x y) t <-> below x t \/ below y t).
Proof.
  rewrite !below_cut, ucut_max, ucut_min, ub_cmp_spec. unfold cmax, cmin.
  pose proof (cle_trans (ucut x) (ucut y) (pt t)) as H1.
  pose proof (cle_trans (ucut y) (ucut x) (pt t)) as H2.
  pose proof (cle_total (ucut x) (ucut y)) as H3.
  destruct (cle (ucut x) (ucut y)), (cle (ucut x) (pt t)) eqn:E1, (cle (ucut y) (pt t)) eqn:E2;
    repeat split; intros; intuition congruence.
Qed.
Lemma flipped_lower (l : LowerBound T) (t : T) : below (UB (flipped (lb_bound l))) t <-> ~ above l t.
Proof. rewrite below_cut, above_cut, ucut_flipped. destruct (cle (lcut l) (pt t)); intuition congruence. Qed.
Lemma flipped_upper (u : UpperBound T) (t : T) : above (LB (flipped (ub_bound u))) t <-> ~ below u t.
Proof. rewrite below_cut, above_cut, lcut_flipped. destruct (cle (ucut u) (pt t)); intuition congruence. Qed.

End Laws.

(** Mapping bounds along a function that preserves the comparison. *)
Section Maps.
Context {T : Type} {OT : Ord T} {OL : OrdLaws T} {U : Type} {OU : Ord U} {OLU : OrdLaws U}.
Variable f : T -> U.
Hypothesis mono : forall a b : T, cmp (f a) (f b) = cmp a b.

Lemma above_map (l : LowerBound T) (t : T) : above (lb_map f l) (f t) <-> above l t.
Proof. destruct l as [[a|a]]; simpl; unfold lt, le; rewrite mono; reflexivity. Qed.
Lemma below_map (u : UpperBound T) (t : T) : below (ub_map f u) (f t) <-> below u t.
Proof. destruct u as [[a|a]]; simpl; unfold lt, le; rewrite mono; reflexivity. Qed.
Lemma lb_cmp_map (x y : LowerBound T) : lb_cmp (lb_map f x) (lb_map f y) = lb_cmp x y.
Proof.
  destruct x as [[a|a]], y as [[b|b]]; unfold lb_cmp, lb_partial_cmp, t_partial_cmp; simpl;
    rewrite ?(teq_match (f a)), ?(teq_match a), ?mono; reflexivity.
Qed.
Lemma ub_cmp_map (x y : UpperBound T) : ub_cmp (ub_map f x) (ub_map f y) = ub_cmp x y.
Proof.
  destruct x as [[a|a]], y as [[b|b]]; unfold ub_cmp, ub_partial_cmp, t_partial_cmp; simpl;
    rewrite ?(teq_match (f a)), ?(teq_match a), ?mono; reflexivity.
Qed.
End Maps.
