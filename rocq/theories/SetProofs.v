(** The set types' internal methods: they return, they add exactly the new
    places, and they keep the invariant. *)
From Coq Require Import Lia ZifyBool.
From Verif Require Import Base ModelBound ModelRanges ModelSets ModelAlgebra Order Cuts.

(** ** Lists *)

Lemma position_some {A : Type} (f : A -> bool) (l : list A) (i : nat) :
  position f l = Some i ->
  exists l1 x l2, l = l1 ++ x :: l2 /\ i = length l1 /\ f x = true /\ forallb (fun y => negb (f y)) l1 = true.
Proof.
  revert i. induction l as [|y l IH]; simpl; intros i H; [discriminate|].
  destruct (f y) eqn:E.
  - injection H as <-. exists [], y, l. auto.
  - destruct (position f l) as [j|] eqn:P; simpl in H; [|discriminate]. injection H as <-.
    destruct (IH j eq_refl) as (l1 & x & l2 & -> & -> & Hx & Hl).
    exists (y :: l1), x, l2. simpl. rewrite E, Hl. auto.
Qed.
Lemma position_none {A : Type} (f : A -> bool) (l : list A) :
  position f l = None -> forallb (fun y => negb (f y)) l = true.
Proof.
  induction l as [|y l IH]; simpl; intros H; [reflexivity|].
  destruct (f y) eqn:E; [discriminate|].
  destruct (position f l); simpl in H; [discriminate|]. rewrite IH; reflexivity.
Qed.
Lemma nth_error_mid {A : Type} (l1 : list A) (x : A) (l2 : list A) :
  nth_error (l1 ++ x :: l2) (length l1) = Some x.
Proof. induction l1; simpl; auto. Qed.
Lemma firstn_mid {A : Type} (l1 l2 : list A) : firstn (length l1) (l1 ++ l2) = l1.
Proof. induction l1; simpl; [destruct l2; reflexivity|]. rewrite IHl1. reflexivity. Qed.
Lemma skipn_mid {A : Type} (l1 l2 : list A) : skipn (length l1) (l1 ++ l2) = l2.
Proof. induction l1; simpl; auto. Qed.
Lemma vd_index_mid {A : Type} (l1 : list A) (x : A) (l2 : list A) :
  vd_index (l1 ++ x :: l2) (length l1) = Ret x.
Proof. unfold vd_index. rewrite nth_error_mid. reflexivity. Qed.
Lemma vd_remove_mid {A : Type} (l1 : list A) (x : A) (l2 : list A) :
  vd_remove (l1 ++ x :: l2) (length l1) = (Some x, l1 ++ l2).
Proof.
  unfold vd_remove. rewrite nth_error_mid, firstn_mid. f_equal. f_equal.
  induction l1; simpl; auto.
Qed.
Lemma vd_insert_mid {A : Type} (l1 l2 : list A) (y : A) :
  vd_insert (l1 ++ l2) (length l1) y = Ret (l1 ++ y :: l2).
Proof.
  unfold vd_insert. rewrite app_length.
  replace (Nat.leb (length l1) (length l1 + length l2)) with true by (symmetry; apply Nat.leb_le; lia).
  rewrite firstn_mid, skipn_mid. reflexivity.
Qed.
Lemma foldM_app {A S : Type} (f : S -> A -> outcome S) (l1 l2 : list A) (s : S) :
  foldM f (l1 ++ l2) s = (s' <- foldM f l1 s ;; foldM f l2 s').
Proof.
  revert s. induction l1 as [|x l1 IH]; simpl; intros s; [reflexivity|].
  destruct (f s x); simpl; auto.
Qed.
Lemma vd_back_snoc {A : Type} (l : list A) (x : A) : vd_back (l ++ [x]) = Some x.
Proof. unfold vd_back. rewrite rev_app_distr. reflexivity. Qed.
Lemma vd_pop_back_snoc {A : Type} (l : list A) (x : A) : vd_pop_back (l ++ [x]) = (Some x, l).
Proof. unfold vd_pop_back. rewrite rev_app_distr. simpl. rewrite rev_involutive. reflexivity. Qed.
Lemma list_snoc {A : Type} (l : list A) : l = [] \/ exists l' x, l = l' ++ [x].
Proof. destruct (rev l) as [|x l'] eqn:E; [left|right].
  - rewrite <- (rev_involutive l), E. reflexivity.
  - exists (rev l'), x. rewrite <- (rev_involutive l), E. reflexivity.
Qed.

Section Sets.
Context {T : Type} {OT : Ord T} {OL : OrdLaws T}.

(** ** Single ranges *)

Lemma not_room_in (r : BoundedRange T) (p : place T) : room r = false -> br_in r p = false.
Proof. intros H. ranges. Qed.

Lemma intersects_room (a b : BoundedRange T) : br_intersects_br a b = room (br_inter_br a b).
Proof. unfold br_intersects_br. rewrite br_is_empty_room, negb_involutive. reflexivity. Qed.

Definition hull (a b : BoundedRange T) : BoundedRange T :=
  BR (lb_min (br_start a) (br_start b)) (ub_max (br_end a) (br_end b)).

Lemma inter_room_l (a b : BoundedRange T) : room (br_inter_br a b) = true -> room a = true /\ room b = true.
Proof. intros H. split; ranges. Qed.

Lemma hull_in (a b : BoundedRange T) (p : place T) :
  room (br_inter_br a b) = true -> br_in (hull a b) p = br_in a p || br_in b p.
Proof. unfold hull. intros H. ranges. Qed.
Lemma hull_room (a b : BoundedRange T) : room a = true -> room (hull a b) = true.
Proof. unfold hull. intros H. ranges. Qed.

Lemma combine_hull (a b : BoundedRange T) :
  room (br_inter_br a b) = true -> br_combine a b = Ret (hull a b).
Proof.
  intros H. destruct (inter_room_l a b H) as [Ha Hb].
  unfold br_combine. rewrite !br_is_empty_room, intersects_room, H, Ha, Hb. reflexivity.
Qed.
Lemma inter_room_sym (a b : BoundedRange T) : room (br_inter_br a b) = room (br_inter_br b a).
Proof. ranges. Qed.

(** ** Lists of pieces *)

Lemma bl_in_app (l1 l2 : list (BoundedRange T)) (p : place T) :
  bl_in (l1 ++ l2) p = bl_in l1 p || bl_in l2 p.
Proof. apply existsb_app. Qed.
Lemma bl_in_cons (r : BoundedRange T) (l : list (BoundedRange T)) (p : place T) :
  bl_in (r :: l) p = br_in r p || bl_in l p.
Proof. reflexivity. Qed.

Lemma wfl_app (l1 l2 : list (BoundedRange T)) :
  wfl (l1 ++ l2) = wfl l1 && wfl l2 && forallb (fun a => forallb (sep a) l2) l1.
Proof.
  induction l1 as [|r l1 IH]; simpl; [rewrite andb_true_r; reflexivity|].
  rewrite IH, forallb_app.
  destruct (room r), (forallb (sep r) l1), (forallb (sep r) l2), (wfl l1), (wfl l2); reflexivity.
Qed.

Lemma forallb_impl {A : Type} (f g : A -> bool) (l : list A) :
  (forall x, In x l -> f x = true -> g x = true) -> forallb f l = true -> forallb g l = true.
Proof. intros H Hf. apply forallb_forall. intros x Hx. apply H; [exact Hx|].
  exact (proj1 (forallb_forall f l) Hf x Hx). Qed.
Lemma forallb_In {A : Type} (f : A -> bool) (l : list A) (x : A) :
  forallb f l = true -> In x l -> f x = true.
Proof. intros H. apply (proj1 (forallb_forall f l) H). Qed.

Lemma wfl_room (l : list (BoundedRange T)) (r : BoundedRange T) :
  wfl l = true -> In r l -> room r = true.
Proof.
  induction l as [|x l IH]; simpl; intros H [].
  - subst. apply andb_prop in H as [H _]. apply andb_prop in H as [H _]. exact H.
  - apply andb_prop in H as [_ H]. auto.
Qed.

Lemma wfl_remove (l1 : list (BoundedRange T)) (x : BoundedRange T) (l2 : list (BoundedRange T)) :
  wfl (l1 ++ x :: l2) = true -> wfl (l1 ++ l2) = true.
Proof.
  rewrite !wfl_app. simpl. intros H.
  apply andb_prop in H as [H H3]. apply andb_prop in H as [H1 H2].
  apply andb_prop in H2 as [_ H2]. rewrite H1, H2. simpl.
  revert H3. apply forallb_impl. intros y _ Hy. apply andb_prop in Hy as [_ Hy]. exact Hy.
Qed.

Lemma wfl_insert (l1 l2 : list (BoundedRange T)) (r : BoundedRange T) :
  wfl (l1 ++ l2) = true -> room r = true ->
  forallb (fun a => sep a r) l1 = true -> forallb (sep r) l2 = true ->
  wfl (l1 ++ r :: l2) = true.
Proof.
  rewrite !wfl_app. simpl. intros H Hr H1 H2.
  apply andb_prop in H as [H H3]. apply andb_prop in H as [Ha Hb].
  rewrite Ha, Hb, Hr, H2. simpl.
  apply forallb_forall. intros y Hy.
  rewrite (forallb_In _ _ y H1 Hy), (forallb_In _ _ y H3 Hy). reflexivity.
Qed.

(** ** BoundedSet *)

Lemma add_range_fuel_ok (fuel : nat) (ranges : list (BoundedRange T)) (r : BoundedRange T) :
  (length ranges < fuel)%nat ->
  exists l, bs_add_range_fuel fuel ranges r = Ret l
    /\ (forall p, bl_in l p = br_in r p || bl_in ranges p)
    /\ (wfl ranges = true -> wfl l = true)
    /\ (length l <= S (length ranges))%nat.
Proof.
  revert ranges r. induction fuel as [|fuel IH]; intros ranges r Hlen; [lia|].
  simpl. rewrite br_is_empty_room, negb_involutive.
  destruct (room r) eqn:Hr.
  2: { exists ranges. repeat split; auto. intros p. rewrite not_room_in by exact Hr. reflexivity. }
  destruct (position (fun range => br_intersects_br range r) ranges) as [i|] eqn:P.
  - apply position_some in P as (l1 & x & l2 & -> & -> & Hx & _).
    rewrite vd_index_mid, vd_remove_mid. simpl.
    rewrite intersects_room, inter_room_sym in Hx.
    rewrite combine_hull by exact Hx. simpl.
    rewrite app_length in Hlen. simpl in Hlen.
    destruct (IH (l1 ++ l2) (hull r x)) as (l & E & Hin & Hwf & Hl); [rewrite app_length; lia|].
    exists l. split; [exact E|]. split; [|split].
    + intros p. rewrite Hin, hull_in by exact Hx. rewrite !bl_in_app, bl_in_cons.
      destruct (br_in r p), (br_in x p), (bl_in l1 p), (bl_in l2 p); reflexivity.
    + intros H. apply Hwf. apply wfl_remove with (x := x). exact H.
    + rewrite !app_length in *. simpl. lia.
  - apply position_none in P.
    destruct (position (fun range => lb_gt (br_start range) (br_start r)) ranges) as [j|] eqn:Q.
    + apply position_some in Q as (l1 & x & l2 & -> & -> & Hx & Hl1).
      rewrite vd_insert_mid. exists (l1 ++ r :: x :: l2). split; [reflexivity|]. split; [|split].
      * intros p. rewrite !bl_in_app, !bl_in_cons.
        destruct (br_in r p), (br_in x p), (bl_in l1 p), (bl_in l2 p); reflexivity.
      * intros H. apply wfl_insert; [exact H|exact Hr| |].
        -- rewrite forallb_app in P. apply andb_prop in P as [P1 _].
           apply forallb_forall. intros y Hy.
           assert (Ry : room y = true) by (apply (wfl_room _ y H), in_or_app; auto).
           pose proof (forallb_In _ _ y P1 Hy) as N. simpl in N. rewrite intersects_room in N.
           pose proof (forallb_In _ _ y Hl1 Hy) as G. simpl in G. rewrite lb_gt_cut in G.
           clear - OL N G Ry Hr. ranges.
        -- rewrite forallb_app in P. apply andb_prop in P as [_ P2].
           rewrite lb_gt_cut in Hx.
           pose proof (forallb_In _ _ x P2 (or_introl eq_refl)) as N. simpl in N. rewrite intersects_room in N.
           assert (Rx : room x = true) by (apply (wfl_room _ x H), in_or_app; simpl; auto).
           rewrite wfl_app in H. apply andb_prop in H as [H _]. apply andb_prop in H as [_ H].
           simpl in H. apply andb_prop in H as [H _]. apply andb_prop in H as [_ H].
           assert (S : sep r x = true) by (clear - OL N Hx Rx Hr; ranges).
           simpl. rewrite S. simpl. revert H. apply forallb_impl. intros y _ Hy.
           clear - OL S Rx Hy. ranges.
      * rewrite !app_length. simpl. lia.
    + apply position_none in Q.
      pose proof (vd_insert_mid ranges [] r) as V. rewrite app_nil_r in V. rewrite V.
      exists (ranges ++ [r]). split; [reflexivity|]. split; [|split].
      * intros p. rewrite bl_in_app, bl_in_cons. simpl. destruct (br_in r p), (bl_in ranges p); reflexivity.
      * intros H. apply wfl_insert; [rewrite app_nil_r; exact H|exact Hr| |reflexivity].
        apply forallb_forall. intros y Hy.
        assert (Ry : room y = true) by (apply (wfl_room _ y H Hy)).
        pose proof (forallb_In _ _ y P Hy) as N. simpl in N. rewrite intersects_room in N.
        pose proof (forallb_In _ _ y Q Hy) as G. simpl in G. rewrite lb_gt_cut in G.
        clear - OL N G Ry Hr. ranges.
      * rewrite app_length. simpl. lia.
Qed.

Lemma bs_add_range_ok (s : BoundedSet T) (r : BoundedRange T) :
  exists s', bs_add_range s r = Ret s'
    /\ (forall p, bs_in s' p = br_in r p || bs_in s p)
    /\ (wf_bs s = true -> wf_bs s' = true)
    /\ (length (bs_ranges s') <= S (length (bs_ranges s)))%nat.
Proof.
  unfold bs_add_range.
  destruct (add_range_fuel_ok (S (length (bs_ranges s))) (bs_ranges s) r) as (l & -> & H); [lia|].
  exists (BS l). simpl. auto.
Qed.

Lemma bs_add_set_ok (s o : BoundedSet T) :
  exists s', bs_add_set s o = Ret s'
    /\ (forall p, bs_in s' p = bs_in s p || bs_in o p)
    /\ (wf_bs s = true -> wf_bs s' = true)
    /\ (length (bs_ranges s') <= length (bs_ranges s) + length (bs_ranges o))%nat.
Proof.
  unfold bs_add_set, bs_in at 3. destruct o as [l]. simpl. revert s.
  induction l as [|r l IH]; intros s; simpl.
  - exists s. repeat split; auto; try lia; intros p; rewrite orb_false_r; reflexivity.
  - destruct (bs_add_range_ok s r) as (s1 & -> & H1 & W1 & L1). simpl.
    destruct (IH s1) as (s2 & -> & H2 & W2 & L2).
    exists s2. split; [reflexivity|]. split; [|split; [auto|lia]].
    intros p. rewrite H2, H1. destruct (br_in r p), (bs_in s p), (bl_in l p); reflexivity.
Qed.

Lemma wf_from_br (r : BoundedRange T) : wf_bs (bs_from_br r) = true.
Proof.
  unfold bs_from_br. rewrite br_is_empty_room. destruct (room r) eqn:E; [|reflexivity].
  unfold wf_bs. simpl. rewrite E. reflexivity.
Qed.
Lemma in_from_br (r : BoundedRange T) (p : place T) : bs_in (bs_from_br r) p = br_in r p.
Proof.
  unfold bs_from_br. rewrite br_is_empty_room. destruct (room r) eqn:E; simpl.
  - unfold bs_in. simpl. apply orb_false_r.
  - rewrite not_room_in by exact E. reflexivity.
Qed.
Lemma bs_is_empty_room (s : BoundedSet T) :
  bs_is_empty s = forallb (fun r => negb (room r)) (bs_ranges s).
Proof.
  unfold bs_is_empty. induction (bs_ranges s) as [|r l IH]; simpl; [reflexivity|].
  rewrite br_is_empty_room, IH. reflexivity.
Qed.
Lemma not_room_bl_in (l : list (BoundedRange T)) (p : place T) :
  forallb (fun r => negb (room r)) l = true -> bl_in l p = false.
Proof.
  induction l as [|r l IH]; simpl; intros H; [reflexivity|].
  apply andb_prop in H as [H1 H2]. apply negb_true_iff in H1.
  rewrite not_room_in, IH by assumption. reflexivity.
Qed.

(** ** LowerBoundedSet *)

Lemma lbs_defragment_ok (s : LowerBoundedSet T) :
  exists s', lbs_defragment s = Ret s'
    /\ (forall p, lbs_in s' p = lbs_in s p)
    /\ (wf_bs (lbs_ranges s) = true -> wf_lbs s' = true)
    /\ (length (bs_ranges (lbs_ranges s')) <= length (bs_ranges (lbs_ranges s)))%nat.
Proof.
  unfold lbs_defragment.
  assert (F : forall n s, (length (bs_ranges (lbs_ranges s)) < n)%nat ->
    exists s', lbs_defragment_fuel n s = Ret s'
    /\ (forall p, lbs_in s' p = lbs_in s p)
    /\ (wf_bs (lbs_ranges s) = true -> wf_lbs s' = true)
    /\ (length (bs_ranges (lbs_ranges s')) <= length (bs_ranges (lbs_ranges s)))%nat).
  2: { apply F. lia. }
  clear s. induction n as [|n IH]; intros [[l] tl] Hlen; simpl in *; [lia|].
  rewrite bs_is_empty_room. simpl.
  destruct (list_snoc l) as [->|(l' & x & ->)].
  { simpl. exists (LBS (BS []) tl). auto. }
  destruct (forallb (fun r => negb (room r)) (l' ++ [x])) eqn:E; simpl.
  - exists (LBS (BS (l' ++ [x])) tl). repeat split; auto. intros W. unfold wf_bs in W. simpl in W.
    exfalso. rewrite forallb_app in E. apply andb_prop in E as [_ E]. simpl in E.
    rewrite (wfl_room _ x W) in E by (apply in_or_app; simpl; auto). discriminate.
  - rewrite vd_back_snoc. simpl. rewrite br_is_empty_room.
    destruct (room (br_inter_lbr x tl)) eqn:I; simpl.
    + rewrite vd_pop_back_snoc. simpl. rewrite app_length in Hlen. simpl in Hlen.
      destruct (IH (LBS (BS l') (LBR (lb_min (lbr_start tl) (br_start x))))) as (s' & -> & Hin & Hwf & HL);
        [simpl; lia|].
      exists s'. split; [reflexivity|]. split; [|split].
      * intros p. rewrite Hin. unfold lbs_in, bs_in. simpl. rewrite bl_in_app, bl_in_cons. simpl.
        assert (G : lbr_in (LBR (lb_min (lbr_start tl) (br_start x))) p = lbr_in tl p || br_in x p)
          by (clear - OL I; ranges).
        rewrite G. destruct (lbr_in tl p), (br_in x p), (bl_in l' p); reflexivity.
      * intros W. apply Hwf. unfold wf_bs in *. simpl in *.
        rewrite wfl_app in W. apply andb_prop in W as [W _]. apply andb_prop in W as [W _]. exact W.
      * rewrite app_length. simpl in *. lia.
    + exists (LBS (BS (l' ++ [x])) tl). repeat split; auto. intros W.
      unfold wf_lbs, wf_bs in *. simpl in *. rewrite W. simpl.
      assert (Rx : room x = true) by (apply (wfl_room _ x W), in_or_app; simpl; auto).
      assert (Sx : sep_l x tl = true) by (clear - OL I Rx; ranges).
      rewrite forallb_app. simpl. rewrite Sx. simpl. rewrite andb_true_r.
      apply forallb_forall. intros y Hy.
      rewrite wfl_app in W. apply andb_prop in W as [_ W].
      pose proof (forallb_In _ _ y W Hy) as S. simpl in S. rewrite andb_true_r in S.
      clear - OL S Sx Rx. ranges.
Qed.

Lemma wf_lbs_bs (s : LowerBoundedSet T) : wf_lbs s = true -> wf_bs (lbs_ranges s) = true.
Proof. intros H. apply andb_prop in H as [H _]. exact H. Qed.
Lemma wf_ubs_bs (s : UpperBoundedSet T) : wf_ubs s = true -> wf_bs (ubs_ranges s) = true.
Proof. intros H. apply andb_prop in H as [H _]. exact H. Qed.

Lemma lbs_add_range_ok (s : LowerBoundedSet T) (r : BoundedRange T) :
  exists s', lbs_add_range s r = Ret s'
    /\ (forall p, lbs_in s' p = lbs_in s p || br_in r p)
    /\ (wf_bs (lbs_ranges s) = true -> wf_lbs s' = true)
    /\ (length (bs_ranges (lbs_ranges s')) <= S (length (bs_ranges (lbs_ranges s))))%nat.
Proof.
  unfold lbs_add_range.
  destruct (bs_add_range_ok (lbs_ranges s) r) as (b & -> & H1 & W1 & L1). simpl.
  destruct (lbs_defragment_ok (LBS b (lbs_lbr s))) as (s' & -> & H2 & W2 & L2). simpl in *.
  exists s'. split; [reflexivity|]. split; [|split; [auto|lia]].
  intros p. rewrite H2. unfold lbs_in. simpl. rewrite H1.
  destruct (lbr_in (lbs_lbr s) p), (br_in r p), (bs_in (lbs_ranges s) p); reflexivity.
Qed.

Lemma lbs_add_lbr_ok (s : LowerBoundedSet T) (r : LowerBoundedRange T) :
  exists s', lbs_add_lower_bounded_range s r = Ret s'
    /\ (forall p, lbs_in s' p = lbs_in s p || lbr_in r p)
    /\ (wf_bs (lbs_ranges s) = true -> wf_lbs s' = true)
    /\ (length (bs_ranges (lbs_ranges s')) <= length (bs_ranges (lbs_ranges s)))%nat.
Proof.
  unfold lbs_add_lower_bounded_range.
  destruct (lbs_defragment_ok (LBS (lbs_ranges s) (LBR (lb_min (lbr_start (lbs_lbr s)) (lbr_start r)))))
    as (s' & -> & H2 & W2 & L2). simpl in *.
  exists s'. split; [reflexivity|]. split; [|split; auto].
  intros p. rewrite H2. unfold lbs_in. simpl.
  assert (G : lbr_in (LBR (lb_min (lbr_start (lbs_lbr s)) (lbr_start r))) p
              = lbr_in (lbs_lbr s) p || lbr_in r p) by (clear - OL; ranges).
  rewrite G. destruct (lbr_in (lbs_lbr s) p), (lbr_in r p), (bs_in (lbs_ranges s) p); reflexivity.
Qed.

Lemma lbs_add_set_ok (s : LowerBoundedSet T) (o : BoundedSet T) :
  exists s', lbs_add_set s o = Ret s'
    /\ (forall p, lbs_in s' p = lbs_in s p || bs_in o p)
    /\ (wf_lbs s = true -> wf_lbs s' = true)
    /\ (length (bs_ranges (lbs_ranges s')) <= length (bs_ranges (lbs_ranges s)) + length (bs_ranges o))%nat.
Proof.
  unfold lbs_add_set, bs_in. destruct o as [l]. simpl. revert s.
  induction l as [|r l IH]; intros s; simpl.
  - exists s. repeat split; auto; try lia; intros p; rewrite orb_false_r; reflexivity.
  - destruct (lbs_add_range_ok s r) as (s1 & -> & H1 & W1 & L1). simpl.
    destruct (IH s1) as (s2 & -> & H2 & W2 & L2).
    exists s2. split; [reflexivity|]. split; [|split; [|lia]].
    + intros p. rewrite H2, H1. destruct (br_in r p), (lbs_in s p), (bl_in l p); reflexivity.
    + intros W. apply W2, W1, wf_lbs_bs, W.
Qed.

(** ** UpperBoundedSet *)

Lemma ubs_defragment_ok (s : UpperBoundedSet T) :
  exists s', ubs_defragment s = Ret s'
    /\ (forall p, ubs_in s' p = ubs_in s p)
    /\ (wf_bs (ubs_ranges s) = true -> wf_ubs s' = true)
    /\ (length (bs_ranges (ubs_ranges s')) <= length (bs_ranges (ubs_ranges s)))%nat.
Proof.
  unfold ubs_defragment.
  assert (F : forall n s, (length (bs_ranges (ubs_ranges s)) < n)%nat ->
    exists s', ubs_defragment_fuel n s = Ret s'
    /\ (forall p, ubs_in s' p = ubs_in s p)
    /\ (wf_bs (ubs_ranges s) = true -> wf_ubs s' = true)
    /\ (length (bs_ranges (ubs_ranges s')) <= length (bs_ranges (ubs_ranges s)))%nat).
  2: { apply F. lia. }
  clear s. induction n as [|n IH]; intros [tl [l]] Hlen; simpl in *; [lia|].
  rewrite bs_is_empty_room. simpl.
  destruct l as [|x l].
  { simpl. exists (UBS tl (BS [])). auto. }
  destruct (negb (room x) && forallb (fun r => negb (room r)) l) eqn:E; simpl; rewrite ?E; simpl.
  - exists (UBS tl (BS (x :: l))). repeat split; auto. intros W. unfold wf_bs in W. simpl in W.
    exfalso. apply andb_prop in E as [E _]. destruct (room x); discriminate.
  - rewrite br_is_empty_room.
    destruct (room (br_inter_ubr x tl)) eqn:I; simpl.
    + simpl in Hlen.
      destruct (IH (UBS (UBR (ub_max (ubr_end tl) (br_end x))) (BS l))) as (s' & -> & Hin & Hwf & HL);
        [simpl; lia|].
      exists s'. split; [reflexivity|]. split; [|split].
      * intros p. rewrite Hin. unfold ubs_in, bs_in. simpl.
        assert (G : ubr_in (UBR (ub_max (ubr_end tl) (br_end x))) p = ubr_in tl p || br_in x p)
          by (clear - OL I; ranges).
        rewrite G. destruct (ubr_in tl p), (br_in x p); reflexivity.
      * intros W. apply Hwf. unfold wf_bs in *. simpl in *.
        apply andb_prop in W as [_ W]. exact W.
      * simpl in *. lia.
    + exists (UBS tl (BS (x :: l))). repeat split; auto. intros W.
      unfold wf_ubs, wf_bs in *. simpl in *. rewrite W. simpl.
      apply andb_prop in W as [W _]. apply andb_prop in W as [Rx W].
      assert (Sx : sep_u tl x = true) by (clear - OL I Rx; ranges).
      rewrite Sx. simpl. revert W. apply forallb_impl. intros y Hy S.
      clear - OL S Sx Rx. ranges.
Qed.

Lemma ubs_add_range_ok (s : UpperBoundedSet T) (r : BoundedRange T) :
  exists s', ubs_add_range s r = Ret s'
    /\ (forall p, ubs_in s' p = ubs_in s p || br_in r p)
    /\ (wf_bs (ubs_ranges s) = true -> wf_ubs s' = true)
    /\ (length (bs_ranges (ubs_ranges s')) <= S (length (bs_ranges (ubs_ranges s))))%nat.
Proof.
  unfold ubs_add_range.
  destruct (bs_add_range_ok (ubs_ranges s) r) as (b & -> & H1 & W1 & L1). simpl.
  destruct (ubs_defragment_ok (UBS (ubs_ubr s) b)) as (s' & -> & H2 & W2 & L2). simpl in *.
  exists s'. split; [reflexivity|]. split; [|split; [auto|lia]].
  intros p. rewrite H2. unfold ubs_in. simpl. rewrite H1.
  destruct (ubr_in (ubs_ubr s) p), (br_in r p), (bs_in (ubs_ranges s) p); reflexivity.
Qed.

Lemma ubs_add_ubr_ok (s : UpperBoundedSet T) (r : UpperBoundedRange T) :
  exists s', ubs_add_upper_bounded_range s r = Ret s'
    /\ (forall p, ubs_in s' p = ubs_in s p || ubr_in r p)
    /\ (wf_bs (ubs_ranges s) = true -> wf_ubs s' = true)
    /\ (length (bs_ranges (ubs_ranges s')) <= length (bs_ranges (ubs_ranges s)))%nat.
Proof.
  unfold ubs_add_upper_bounded_range.
  destruct (ubs_defragment_ok (UBS (UBR (ub_max (ubr_end (ubs_ubr s)) (ubr_end r))) (ubs_ranges s)))
    as (s' & -> & H2 & W2 & L2). simpl in *.
  exists s'. split; [reflexivity|]. split; [|split; auto].
  intros p. rewrite H2. unfold ubs_in. simpl.
  assert (G : ubr_in (UBR (ub_max (ubr_end (ubs_ubr s)) (ubr_end r))) p
              = ubr_in (ubs_ubr s) p || ubr_in r p) by (clear - OL; ranges).
  rewrite G. destruct (ubr_in (ubs_ubr s) p), (ubr_in r p), (bs_in (ubs_ranges s) p); reflexivity.
Qed.

Lemma ubs_add_set_ok (s : UpperBoundedSet T) (o : BoundedSet T) :
  exists s', ubs_add_set s o = Ret s'
    /\ (forall p, ubs_in s' p = ubs_in s p || bs_in o p)
    /\ (wf_ubs s = true -> wf_ubs s' = true)
    /\ (length (bs_ranges (ubs_ranges s')) <= length (bs_ranges (ubs_ranges s)) + length (bs_ranges o))%nat.
Proof.
  unfold ubs_add_set, bs_in. destruct o as [l]. simpl. revert s.
  induction l as [|r l IH]; intros s; simpl.
  - exists s. repeat split; auto; try lia; intros p; rewrite orb_false_r; reflexivity.
  - destruct (ubs_add_range_ok s r) as (s1 & -> & H1 & W1 & L1). simpl.
    destruct (IH s1) as (s2 & -> & H2 & W2 & L2).
    exists s2. split; [reflexivity|]. split; [|split; [|lia]].
    + intros p. rewrite H2, H1. destruct (br_in r p), (ubs_in s p), (bl_in l p); reflexivity.
    + intros W. apply W2, W1, wf_ubs_bs, W.
Qed.

(** ** UnboundedSet *)

Definition us_pieces (s : UnboundedSet T) : nat :=
  match s with Full => 0 | Piecewise p => length (bs_ranges (pus_ranges p)) end.
Definition wf_us_pieces (s : UnboundedSet T) : bool :=
  match s with Full => true | Piecewise p => wf_bs (pus_ranges p) end.

Lemma pus_defragment_ok (s : PiecewiseUnboundedSet T) :
  exists s', pus_defragment s = Ret s'
    /\ (forall p, pus_in s' p = pus_in s p)
    /\ (wf_bs (pus_ranges s) = true ->
        wf_bs (pus_ranges s') = true
        /\ forallb (fun r => sep_u (pus_ubr s') r && sep_l r (pus_lbr s')) (bs_ranges (pus_ranges s')) = true)
    /\ (length (bs_ranges (pus_ranges s')) <= length (bs_ranges (pus_ranges s)))%nat.
Proof.
  unfold pus_defragment.
  assert (F : forall n s, (length (bs_ranges (pus_ranges s)) < n)%nat ->
    exists s', pus_defragment_fuel n s = Ret s'
    /\ (forall p, pus_in s' p = pus_in s p)
    /\ (wf_bs (pus_ranges s) = true ->
        wf_bs (pus_ranges s') = true
        /\ forallb (fun r => sep_u (pus_ubr s') r && sep_l r (pus_lbr s')) (bs_ranges (pus_ranges s')) = true)
    /\ (length (bs_ranges (pus_ranges s')) <= length (bs_ranges (pus_ranges s)))%nat).
  2: { apply F. lia. }
  clear s. induction n as [|n IH]; intros [u [l] d] Hlen; simpl in *; [lia|].
  destruct (position (fun r => ubr_intersects_br u r) l) as [i|] eqn:P.
  - apply position_some in P as (l1 & x & l2 & -> & -> & Hx & _).
    rewrite vd_remove_mid. simpl.
    unfold ubr_intersects_br in Hx. rewrite br_is_empty_room, negb_involutive in Hx.
    rewrite app_length in Hlen. simpl in Hlen.
    destruct (IH (PUS (UBR (ub_max (ubr_end u) (br_end x))) (BS (l1 ++ l2)) d))
      as (s' & -> & Hin & Hwf & HL); [simpl; rewrite app_length; lia|].
    exists s'. split; [reflexivity|]. split; [|split].
    + intros p. rewrite Hin. unfold pus_in, bs_in. simpl. rewrite !bl_in_app, bl_in_cons.
      assert (G : ubr_in (UBR (ub_max (ubr_end u) (br_end x))) p = ubr_in u p || br_in x p)
        by (clear - OL Hx; ranges).
      rewrite G. destruct (ubr_in u p), (br_in x p), (lbr_in d p), (bl_in l1 p), (bl_in l2 p); reflexivity.
    + intros W. apply Hwf. apply wfl_remove with (x := x). exact W.
    + simpl in HL. rewrite !app_length in *. simpl. lia.
  - apply position_none in P.
    destruct (position (fun r => lbr_intersects_br d r) l) as [i|] eqn:Q.
    + apply position_some in Q as (l1 & x & l2 & -> & -> & Hx & _).
      rewrite vd_remove_mid. simpl.
      unfold lbr_intersects_br in Hx. rewrite br_is_empty_room, negb_involutive in Hx.
      rewrite app_length in Hlen. simpl in Hlen.
      destruct (IH (PUS u (BS (l1 ++ l2)) (LBR (lb_min (lbr_start d) (br_start x)))))
        as (s' & -> & Hin & Hwf & HL); [simpl; rewrite app_length; lia|].
      exists s'. split; [reflexivity|]. split; [|split].
      * intros p. rewrite Hin. unfold pus_in, bs_in. simpl. rewrite !bl_in_app, bl_in_cons.
        assert (G : lbr_in (LBR (lb_min (lbr_start d) (br_start x))) p = lbr_in d p || br_in x p)
          by (clear - OL Hx; ranges).
        rewrite G. destruct (ubr_in u p), (br_in x p), (lbr_in d p), (bl_in l1 p), (bl_in l2 p); reflexivity.
      * intros W. apply Hwf. apply wfl_remove with (x := x). exact W.
      * simpl in HL. rewrite !app_length in *. simpl. lia.
    + apply position_none in Q.
      exists (PUS u (BS l) d). split; [reflexivity|]. split; [auto|split; [|auto]].
      simpl. intros W. split; [exact W|]. apply forallb_forall. intros y Hy.
      pose proof (forallb_In _ _ y P Hy) as N. pose proof (forallb_In _ _ y Q Hy) as M. simpl in N, M.
      unfold ubr_intersects_br in N. unfold lbr_intersects_br in M.
      rewrite br_is_empty_room, negb_involutive in N. rewrite br_is_empty_room, negb_involutive in M.
      assert (Ry : room y = true) by (apply (wfl_room _ y W Hy)).
      apply andb_true_intro. split; [clear - OL N Ry | clear - OL M Ry]; ranges.
Qed.

Lemma us_defragment_ok (s : UnboundedSet T) :
  exists s', us_defragment s = Ret s'
    /\ (forall p, us_in s' p = us_in s p)
    /\ (wf_us_pieces s = true -> wf_us s' = true)
    /\ (us_pieces s' <= us_pieces s)%nat.
Proof.
  destruct s as [|x]; unfold us_defragment; simpl.
  { exists Full. auto. }
  destruct (pus_defragment_ok x) as (x' & -> & Hin & Hwf & HL). simpl.
  unfold ubr_intersects_lbr. rewrite br_is_empty_room, negb_involutive.
  destruct (room (ubr_inter_lbr (pus_ubr x') (pus_lbr x'))) eqn:E.
  - exists Full. split; [reflexivity|]. split; [|split; [auto|simpl; lia]].
    intros p. simpl. rewrite <- Hin. unfold pus_in.
    assert (G : ubr_in (pus_ubr x') p || lbr_in (pus_lbr x') p = true) by (clear - OL E; ranges).
    rewrite G. reflexivity.
  - exists (Piecewise x'). split; [reflexivity|]. split; [exact Hin|split; [|exact HL]].
    simpl. intros W. destruct (Hwf W) as [W1 W2]. unfold wf_pus. rewrite W1, W2. simpl.
    clear - OL E. ranges.
Qed.

Lemma wf_us_pieces_of (s : UnboundedSet T) : wf_us s = true -> wf_us_pieces s = true.
Proof.
  destruct s as [|x]; simpl; [auto|]. intros H.
  apply andb_prop in H as [H _]. apply andb_prop in H as [H _]. exact H.
Qed.

Lemma us_add_range_ok (s : UnboundedSet T) (r : BoundedRange T) :
  exists s', us_add_range s r = Ret s'
    /\ (forall p, us_in s' p = us_in s p || br_in r p)
    /\ (wf_us_pieces s = true -> wf_us s' = true)
    /\ (us_pieces s' <= S (us_pieces s))%nat.
Proof.
  unfold us_add_range. destruct s as [|x]; simpl.
  { exists Full. auto. }
  destruct (bs_add_range_ok (pus_ranges x) r) as (b & -> & H1 & W1 & L1). simpl.
  destruct (us_defragment_ok (Piecewise (PUS (pus_ubr x) b (pus_lbr x)))) as (s' & -> & H2 & W2 & L2).
  simpl in *. exists s'. split; [reflexivity|]. split; [|split; [auto|lia]].
  intros p. rewrite H2. unfold pus_in. simpl. rewrite H1.
  destruct (ubr_in (pus_ubr x) p), (lbr_in (pus_lbr x) p), (br_in r p), (bs_in (pus_ranges x) p); reflexivity.
Qed.

Lemma us_add_lbr_ok (s : UnboundedSet T) (r : LowerBoundedRange T) :
  exists s', us_add_lower_bounded_range s r = Ret s'
    /\ (forall p, us_in s' p = us_in s p || lbr_in r p)
    /\ (wf_us_pieces s = true -> wf_us s' = true)
    /\ (us_pieces s' <= us_pieces s)%nat.
Proof.
  unfold us_add_lower_bounded_range. destruct s as [|x]; simpl.
  { exists Full. auto. }
  destruct (us_defragment_ok (Piecewise (PUS (pus_ubr x) (pus_ranges x)
    (LBR (lb_min (lbr_start (pus_lbr x)) (lbr_start r)))))) as (s' & -> & H2 & W2 & L2).
  simpl in *. exists s'. split; [reflexivity|]. split; [|split; auto].
  intros p. rewrite H2. unfold pus_in. simpl.
  assert (G : lbr_in (LBR (lb_min (lbr_start (pus_lbr x)) (lbr_start r))) p
              = lbr_in (pus_lbr x) p || lbr_in r p) by (clear - OL; ranges).
  rewrite G.
  destruct (ubr_in (pus_ubr x) p), (lbr_in (pus_lbr x) p), (lbr_in r p), (bs_in (pus_ranges x) p); reflexivity.
Qed.

Lemma us_add_ubr_ok (s : UnboundedSet T) (r : UpperBoundedRange T) :
  exists s', us_add_upper_bounded_range s r = Ret s'
    /\ (forall p, us_in s' p = us_in s p || ubr_in r p)
    /\ (wf_us_pieces s = true -> wf_us s' = true)
    /\ (us_pieces s' <= us_pieces s)%nat.
Proof.
  unfold us_add_upper_bounded_range. destruct s as [|x]; simpl.
  { exists Full. auto. }
  destruct (us_defragment_ok (Piecewise (PUS (UBR (ub_max (ubr_end (pus_ubr x)) (ubr_end r)))
    (pus_ranges x) (pus_lbr x)))) as (s' & -> & H2 & W2 & L2).
  simpl in *. exists s'. split; [reflexivity|]. split; [|split; auto].
  intros p. rewrite H2. unfold pus_in. simpl.
  assert (G : ubr_in (UBR (ub_max (ubr_end (pus_ubr x)) (ubr_end r))) p
              = ubr_in (pus_ubr x) p || ubr_in r p) by (clear - OL; ranges).
  rewrite G.
  destruct (ubr_in (pus_ubr x) p), (lbr_in (pus_lbr x) p), (ubr_in r p), (bs_in (pus_ranges x) p); reflexivity.
Qed.

Lemma us_add_set_ok (s : UnboundedSet T) (o : BoundedSet T) :
  exists s', us_add_set s o = Ret s'
    /\ (forall p, us_in s' p = us_in s p || bs_in o p)
    /\ (wf_us s = true -> wf_us s' = true)
    /\ (us_pieces s' <= us_pieces s + length (bs_ranges o))%nat.
Proof.
  unfold us_add_set, bs_in. destruct o as [l]. simpl. revert s.
  induction l as [|r l IH]; intros s; simpl.
  - exists s. repeat split; auto; try lia; intros p; rewrite orb_false_r; reflexivity.
  - destruct (us_add_range_ok s r) as (s1 & -> & H1 & W1 & L1). simpl.
    destruct (IH s1) as (s2 & -> & H2 & W2 & L2).
    exists s2. split; [reflexivity|]. split; [|split; [|lia]].
    + intros p. rewrite H2, H1. destruct (br_in r p), (us_in s p), (bl_in l p); reflexivity.
    + intros W. apply W2, W1, wf_us_pieces_of, W.
Qed.

Lemma us_add_us_ok (s o : UnboundedSet T) :
  exists s', us_add_unbounded_set s o = Ret s'
    /\ (forall p, us_in s' p = us_in s p || us_in o p)
    /\ (wf_us s = true -> wf_us s' = true)
    /\ (us_pieces s' <= us_pieces s + us_pieces o)%nat.
Proof.
  destruct o as [|x]; simpl.
  { exists Full. repeat split; auto; simpl; try lia; intros p; rewrite orb_true_r; reflexivity. }
  destruct (us_add_lbr_ok s (pus_lbr x)) as (s1 & -> & H1 & W1 & L1). simpl.
  destruct (us_add_ubr_ok s1 (pus_ubr x)) as (s2 & -> & H2 & W2 & L2). simpl.
  destruct (us_add_set_ok s2 (pus_ranges x)) as (s3 & -> & H3 & W3 & L3). simpl.
  destruct (us_defragment_ok s3) as (s4 & -> & H4 & W4 & L4).
  exists s4. split; [reflexivity|]. split; [|split; [|lia]].
  - intros p. rewrite H4, H3, H2, H1. unfold pus_in.
    destruct (us_in s p), (ubr_in (pus_ubr x) p), (lbr_in (pus_lbr x) p), (bs_in (pus_ranges x) p); reflexivity.
  - intros W. apply W4, wf_us_pieces_of, W3, W2, wf_us_pieces_of, W1, wf_us_pieces_of, W.
Qed.

Lemma us_new_ok (u : UpperBoundedRange T) (d : LowerBoundedRange T) :
  (forall p, us_in (us_new u d) p = ubr_in u p || lbr_in d p) /\ wf_us (us_new u d) = true
  /\ us_pieces (us_new u d) = 0%nat.
Proof.
  unfold us_new. rewrite br_is_empty_room.
  destruct (room (ubr_inter_lbr u d)) eqn:E; simpl; (split; [intros p|split]); try reflexivity.
  - symmetry. clear - OL E. ranges.
  - unfold pus_in. simpl. apply orb_false_r.
  - unfold wf_pus. simpl. clear - OL E. ranges.
Qed.

End Sets.
