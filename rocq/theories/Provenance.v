(** Where the bounds of a result come from; termination of the set operations.
    Nothing here assumes anything about the element order. *)
From Coq Require Import Lia.
From Verif Require Import Base ModelBound ModelRanges ModelSets ModelAlgebra ModelValue Spec SpecBounds.

(** The only panic of the set operations is the assertion of [combine], which needs two non-empty ranges of
    which one intersects the other but not conversely.  [Excuse OT Pn]: such ranges give [Pn]. *)
Class Excuse {T : Type} (OT : Ord T) (Pn : Prop) : Prop :=
  excuse : forall a b : BoundedRange T, br_is_empty a = false -> br_is_empty b = false ->
    br_intersects_br b a = true -> br_intersects_br a b = false -> Pn.

Section Provenance.
Context {T : Type} {OT : Ord T} {Pn : Prop} {EX : Excuse OT Pn}.

(** Does not run forever, panics only if [Pn], and what is returned satisfies [ok]. *)
Definition okr {A : Type} (ok : A -> Prop) (m : outcome A) : Prop :=
  match m with Ret a => ok a | Panic => Pn | Diverge => False end.

Lemma okr_bind {A B : Type} (ok : A -> Prop) (ok' : B -> Prop) (m : outcome A) (k : A -> outcome B) :
  okr ok m -> (forall a, ok a -> okr ok' (k a)) -> okr ok' (bind m k).
Proof. destruct m; simpl; auto. Qed.
Lemma okr_foldM {A S : Type} (ok : S -> Prop) (good : A -> Prop) (f : S -> A -> outcome S) (l : list A) (s : S) :
  ok s -> Forall good l -> (forall s x, ok s -> good x -> okr ok (f s x)) -> okr ok (foldM f l s).
Proof.
  intros Hs Hl Hf. revert s Hs. induction Hl as [|x l Hx Hl IH]; intros s Hs; simpl; [exact Hs|].
  eapply okr_bind; [apply Hf; assumption|exact IH].
Qed.

Variable P : LowerBound T -> Prop.
Variable Q : UpperBound T -> Prop.

Definition ok_br (r : BoundedRange T) : Prop := P (br_start r) /\ Q (br_end r).
Definition ok_bl (l : list (BoundedRange T)) : Prop := Forall ok_br l.
Definition ok_bs (s : BoundedSet T) : Prop := ok_bl (bs_ranges s).
Definition ok_lbr (r : LowerBoundedRange T) : Prop := P (lbr_start r).
Definition ok_ubr (r : UpperBoundedRange T) : Prop := Q (ubr_end r).
Definition ok_lbs (s : LowerBoundedSet T) : Prop := ok_bs (lbs_ranges s) /\ ok_lbr (lbs_lbr s).
Definition ok_ubs (s : UpperBoundedSet T) : Prop := ok_ubr (ubs_ubr s) /\ ok_bs (ubs_ranges s).
Definition ok_pus (p : PiecewiseUnboundedSet T) : Prop :=
  ok_ubr (pus_ubr p) /\ ok_bs (pus_ranges p) /\ ok_lbr (pus_lbr p).
Definition ok_us (s : UnboundedSet T) : Prop := match s with Full => True | Piecewise p => ok_pus p end.
Definition ok_v (v : value T) : Prop :=
  (forall l, In l (lows v) -> P l) /\ (forall u, In u (highs v) -> Q u).

Lemma P_max (x y : LowerBound T) : P x -> P y -> P (lb_max x y).
Proof. unfold lb_max. destruct (lb_cmp x y); auto. Qed.
Lemma P_min (x y : LowerBound T) : P x -> P y -> P (lb_min x y).
Proof. unfold lb_min. destruct (lb_cmp x y); auto. Qed.
Lemma Q_max (x y : UpperBound T) : Q x -> Q y -> Q (ub_max x y).
Proof. unfold ub_max. destruct (ub_cmp x y); auto. Qed.
Lemma Q_min (x y : UpperBound T) : Q x -> Q y -> Q (ub_min x y).
Proof. unfold ub_min. destruct (ub_cmp x y); auto. Qed.
#[local] Hint Resolve P_max P_min Q_max Q_min : prov.

(** ** Ranges *)

Ltac ends := unfold ok_br, ok_lbr, ok_ubr in *; simpl in *; intuition auto with prov.

Lemma ok_br_br a b : ok_br a -> ok_br b -> ok_br (br_inter_br a b).
Proof. ends. Qed.
Lemma ok_br_lbr a b : ok_br a -> ok_lbr b -> ok_br (br_inter_lbr a b).
Proof. ends. Qed.
Lemma ok_br_ubr a b : ok_br a -> ok_ubr b -> ok_br (br_inter_ubr a b).
Proof. ends. Qed.
Lemma ok_lbr_lbr a b : ok_lbr a -> ok_lbr b -> ok_lbr (lbr_inter_lbr a b).
Proof. ends. Qed.
Lemma ok_ubr_ubr a b : ok_ubr a -> ok_ubr b -> ok_ubr (ubr_inter_ubr a b).
Proof. ends. Qed.
Lemma ok_lbr_ubr a b : ok_lbr a -> ok_ubr b -> ok_br (lbr_inter_ubr a b).
Proof. ends. Qed.
Lemma ok_ubr_lbr a b : ok_ubr a -> ok_lbr b -> ok_br (ubr_inter_lbr a b).
Proof. ends. Qed.
Lemma ok_lbr_br a b : ok_lbr a -> ok_br b -> ok_br (lbr_inter_br a b).
Proof. ends. Qed.
Lemma ok_ubr_br a b : ok_ubr a -> ok_br b -> ok_br (ubr_inter_br a b).
Proof. ends. Qed.
Lemma ok_combine a b : ok_br a -> ok_br b -> br_intersects_br b a = true -> okr ok_br (br_combine a b).
Proof.
  unfold br_combine. destruct (br_is_empty b) eqn:Eb, (br_is_empty a) eqn:Ea; simpl; auto.
  destruct (br_intersects_br a b) eqn:E; simpl; [ends|]. intros _ _ H. exact (excuse a b Ea Eb H E).
Qed.

(** ** Lists *)

Lemma position_lt {A : Type} (f : A -> bool) (l : list A) i : position f l = Some i -> (i < length l)%nat.
Proof.
  revert i. induction l as [|x l IH]; intros i; simpl; [discriminate|].
  destruct (f x); [intros H; injection H as <-; lia|].
  destruct (position f l) as [j|]; simpl; [|discriminate]. intros H. injection H as <-.
  specialize (IH j eq_refl). lia.
Qed.
Lemma position_holds {A : Type} (f : A -> bool) (l : list A) i x : position f l = Some i -> nth_error l i = Some x -> f x = true.
Proof.
  revert i. induction l as [|y l IH]; intros i; simpl; [discriminate|].
  destruct (f y) eqn:E; [intros H; injection H as <-; simpl; congruence|].
  destruct (position f l) as [j|]; simpl; [|discriminate]. intros H. injection H as <-. simpl. apply IH. reflexivity.
Qed.
Lemma nth_split_remove {A : Type} (l : list A) i x :
  nth_error l i = Some x -> l = firstn i l ++ x :: skipn (S i) l.
Proof.
  revert i. induction l as [|y l IH]; intros [|i]; simpl; try discriminate.
  - intros H. injection H as ->. reflexivity.
  - intros H. f_equal. apply IH, H.
Qed.
Lemma remove_ok (R : BoundedRange T -> Prop) (l : list (BoundedRange T)) i :
  (i < length l)%nat -> Forall R l ->
  exists x rest, nth_error l i = Some x /\ R x /\ vd_remove l i = (Some x, rest)
    /\ Forall R rest /\ S (length rest) = length l.
Proof.
  intros L F. destruct (nth_error l i) as [x|] eqn:E; [|apply nth_error_None in E; lia].
  exists x, (firstn i l ++ skipn (S i) l). pose proof (nth_split_remove l i x E) as S0. unfold vd_remove. rewrite E.
  assert (F' := F). rewrite S0 in F'. apply Forall_app in F' as [F1 F2]. inversion F2; subst.
  repeat split; auto.
  - apply Forall_app; auto.
  - assert (H : length l = length (firstn i l ++ x :: skipn (S i) l)) by (rewrite <- S0; reflexivity).
    rewrite app_length in H. simpl in H. rewrite app_length. simpl. lia.
Qed.
Lemma insert_ok (R : BoundedRange T -> Prop) (l : list (BoundedRange T)) i r :
  (i <= length l)%nat -> Forall R l -> R r -> okr (Forall R) (vd_insert l i r).
Proof.
  intros Li F Hr. unfold vd_insert. apply Nat.leb_le in Li. rewrite Li. simpl.
  rewrite <- (firstn_skipn i l) in F. apply Forall_app in F as [F1 F2]. apply Forall_app. auto.
Qed.

(** ** BoundedSet *)

Lemma ok_add_range_fuel (fuel : nat) l r :
  (length l < fuel)%nat -> ok_bl l -> ok_br r -> okr ok_bl (bs_add_range_fuel fuel l r).
Proof.
  revert l r. induction fuel as [|fuel IH]; intros l r Lf Hl Hr; [lia|]. simpl.
  destruct (br_is_empty r); simpl; [exact Hl|].
  destruct (position _ l) as [i|] eqn:Po.
  - pose proof (fun x => position_holds _ l i x Po) as Ho. apply position_lt in Po. destruct (remove_ok _ l i Po Hl) as (x & rest & E & Hx & Re & Hl' & Ln).
    unfold vd_index. rewrite E. simpl. rewrite Re. simpl.
    eapply okr_bind; [apply ok_combine; [assumption|assumption|exact (Ho x E)]|]. intros r' Hr'. apply IH; auto. lia.
  - apply insert_ok; try assumption. destruct (position (fun range => lb_gt (br_start range) (br_start r)) l) eqn:P2; [|lia].
    apply position_lt in P2. lia.
Qed.
Lemma ok_add_range s r : ok_bs s -> ok_br r -> okr ok_bs (bs_add_range s r).
Proof.
  intros Hs Hr. unfold bs_add_range. eapply okr_bind; [apply ok_add_range_fuel; eauto|]. simpl. auto.
Qed.
Lemma ok_add_set s o : ok_bs s -> ok_bs o -> okr ok_bs (bs_add_set s o).
Proof. intros Hs Ho. unfold bs_add_set. apply okr_foldM with (good := ok_br); auto. apply ok_add_range. Qed.
Lemma ok_empty : ok_bs bs_empty.
Proof. constructor. Qed.
Lemma ok_from_br r : ok_br r -> ok_bs (bs_from_br r).
Proof. intros H. unfold bs_from_br. destruct (br_is_empty r); [apply ok_empty|]. constructor; [exact H|constructor]. Qed.
Lemma ok_retain l : ok_bl l -> ok_bl (retain_nonempty l).
Proof. unfold ok_bl, retain_nonempty. rewrite !Forall_forall. intros H x Hx. apply filter_In in Hx. apply H. tauto. Qed.
Lemma ok_map (f : BoundedRange T -> BoundedRange T) l :
  (forall r, ok_br r -> ok_br (f r)) -> ok_bl l -> ok_bl (map f l).
Proof. intros Hf Hl. induction Hl; simpl; constructor; auto. Qed.

(** ** LowerBoundedSet, UpperBoundedSet *)

Lemma vd_back_ok (R : BoundedRange T -> Prop) l :
  Forall R l ->
  match vd_back l with
  | Some b => R b /\ exists rest, vd_pop_back l = (Some b, rest) /\ Forall R rest /\ S (length rest) = length l
  | None => l = []
  end.
Proof.
  intros F. unfold vd_back, vd_pop_back. destruct (rev l) as [|x l'] eqn:E; simpl.
  - rewrite <- (rev_involutive l), E. reflexivity.
  - apply Forall_rev in F. rewrite E in F. inversion F; subst. split; auto.
    exists (rev l'). split; [reflexivity|]. split; [apply Forall_rev; assumption|].
    rewrite rev_length. rewrite <- (rev_length l), E. reflexivity.
Qed.
Lemma ok_lbs_defragment_fuel (fuel : nat) s :
  (length (bs_ranges (lbs_ranges s)) < fuel)%nat -> ok_lbs s -> okr ok_lbs (lbs_defragment_fuel fuel s).
Proof.
  revert s. induction fuel as [|fuel IH]; intros s Lf [H1 H2]; [lia|]. simpl.
  destruct (bs_is_empty (lbs_ranges s)) eqn:Em; simpl; [split; assumption|].
  pose proof (vd_back_ok ok_br _ H1) as B.
  destruct (vd_back (bs_ranges (lbs_ranges s))) as [b|]; simpl; [|unfold bs_is_empty in Em; rewrite B in Em; discriminate Em].
  destruct B as (Hb & rest & E & F & L). destruct (br_is_empty _); simpl; [split; assumption|].
  rewrite E. simpl. apply IH; simpl; [lia|]. split; [exact F|]. unfold ok_br in Hb. ends.
Qed.
Lemma ok_lbs_defragment s : ok_lbs s -> okr ok_lbs (lbs_defragment s).
Proof. intros H. apply ok_lbs_defragment_fuel; auto. Qed.
Lemma ok_lbs_add_range s r : ok_lbs s -> ok_br r -> okr ok_lbs (lbs_add_range s r).
Proof.
  intros [H1 H2] Hr. unfold lbs_add_range. eapply okr_bind; [apply ok_add_range; eassumption|].
  intros l Hl. apply ok_lbs_defragment. split; assumption.
Qed.
Lemma ok_lbs_add_lbr s r : ok_lbs s -> ok_lbr r -> okr ok_lbs (lbs_add_lower_bounded_range s r).
Proof. intros [H1 H2] Hr. apply ok_lbs_defragment. split; [exact H1|ends]. Qed.
Lemma ok_lbs_add_set s o : ok_lbs s -> ok_bs o -> okr ok_lbs (lbs_add_set s o).
Proof. intros Hs Ho. apply okr_foldM with (good := ok_br); auto. apply ok_lbs_add_range. Qed.

Lemma ok_ubs_defragment_fuel (fuel : nat) s :
  (length (bs_ranges (ubs_ranges s)) < fuel)%nat -> ok_ubs s -> okr ok_ubs (ubs_defragment_fuel fuel s).
Proof.
  revert s. induction fuel as [|fuel IH]; intros [u [l]] Lf [H1 H2]; [lia|]. simpl in *.
  destruct (bs_is_empty _) eqn:Em; simpl; [split; assumption|].
  destruct l as [|b l]; simpl; [discriminate Em|]. inversion H2; subst. simpl in Lf.
  destruct (br_is_empty _); simpl; [split; assumption|].
  apply IH; simpl; [lia|]. split; [|assumption]. match goal with H : ok_br b |- _ => unfold ok_br in H end. ends.
Qed.
Lemma ok_ubs_defragment s : ok_ubs s -> okr ok_ubs (ubs_defragment s).
Proof. intros H. apply ok_ubs_defragment_fuel; auto. Qed.
Lemma ok_ubs_add_range s r : ok_ubs s -> ok_br r -> okr ok_ubs (ubs_add_range s r).
Proof.
  intros [H1 H2] Hr. unfold ubs_add_range. eapply okr_bind; [apply ok_add_range; eassumption|].
  intros l Hl. apply ok_ubs_defragment. split; assumption.
Qed.
Lemma ok_ubs_add_ubr s r : ok_ubs s -> ok_ubr r -> okr ok_ubs (ubs_add_upper_bounded_range s r).
Proof. intros [H1 H2] Hr. apply ok_ubs_defragment. split; [ends|exact H2]. Qed.
Lemma ok_ubs_add_set s o : ok_ubs s -> ok_bs o -> okr ok_ubs (ubs_add_set s o).
Proof. intros Hs Ho. apply okr_foldM with (good := ok_br); auto. apply ok_ubs_add_range. Qed.

(** ** UnboundedSet *)

Lemma ok_pus_defragment_fuel (fuel : nat) p :
  (length (bs_ranges (pus_ranges p)) < fuel)%nat -> ok_pus p -> okr ok_pus (pus_defragment_fuel fuel p).
Proof.
  revert p. induction fuel as [|fuel IH]; intros p Lf (H1 & H2 & H3); [lia|]. simpl.
  destruct (position _ _) as [i|] eqn:E1.
  - apply position_lt in E1. destruct (remove_ok _ _ i E1 H2) as (x & rest & _ & Hx & -> & Hl & Ln). simpl.
    apply IH; simpl; [lia|]. repeat split; [|exact Hl|exact H3]. unfold ok_br in Hx. ends.
  - destruct (position (fun r => lbr_intersects_br (pus_lbr p) r) _) as [i|] eqn:E2; [|exact (conj H1 (conj H2 H3))].
    apply position_lt in E2. destruct (remove_ok _ _ i E2 H2) as (x & rest & _ & Hx & -> & Hl & Ln). simpl.
    apply IH; simpl; [lia|]. repeat split; [exact H1|exact Hl|]. unfold ok_br in Hx. ends.
Qed.
Lemma ok_map_piecewise s f :
  ok_us s -> (forall p, ok_pus p -> okr ok_pus (f p)) -> okr ok_us (us_map_piecewise s f).
Proof. intros Hs Hf. destruct s as [|p]; simpl; [exact I|]. eapply okr_bind; [apply Hf, Hs|]. simpl. auto. Qed.
Lemma ok_us_defragment s : ok_us s -> okr ok_us (us_defragment s).
Proof.
  intros Hs. unfold us_defragment. eapply okr_bind.
  - apply ok_map_piecewise; [exact Hs|]. intros p Hp. apply ok_pus_defragment_fuel; auto.
  - intros [|p] Hp; simpl; [exact I|]. destruct (ubr_intersects_lbr _ _); simpl; auto.
Qed.
Lemma ok_us_add_range s r : ok_us s -> ok_br r -> okr ok_us (us_add_range s r).
Proof.
  intros Hs Hr. unfold us_add_range. eapply okr_bind; [|apply ok_us_defragment].
  apply ok_map_piecewise; [exact Hs|]. intros p (H1 & H2 & H3).
  eapply okr_bind; [apply ok_add_range; eassumption|]. intros l Hl. repeat split; assumption.
Qed.
Lemma ok_us_add_lbr s r : ok_us s -> ok_lbr r -> okr ok_us (us_add_lower_bounded_range s r).
Proof.
  intros Hs Hr. unfold us_add_lower_bounded_range. eapply okr_bind; [|apply ok_us_defragment].
  apply ok_map_piecewise; [exact Hs|]. intros p (H1 & H2 & H3). repeat split; try assumption. ends.
Qed.
Lemma ok_us_add_ubr s r : ok_us s -> ok_ubr r -> okr ok_us (us_add_upper_bounded_range s r).
Proof.
  intros Hs Hr. unfold us_add_upper_bounded_range. eapply okr_bind; [|apply ok_us_defragment].
  apply ok_map_piecewise; [exact Hs|]. intros p (H1 & H2 & H3). repeat split; try assumption. ends.
Qed.
Lemma ok_us_add_set s o : ok_us s -> ok_bs o -> okr ok_us (us_add_set s o).
Proof. intros Hs Ho. apply okr_foldM with (good := ok_br); auto. apply ok_us_add_range. Qed.
Lemma ok_us_add_us s o : ok_us s -> ok_us o -> okr ok_us (us_add_unbounded_set s o).
Proof.
  intros Hs Ho. destruct o as [|p]; simpl; [exact I|]. destruct Ho as (H1 & H2 & H3).
  eapply okr_bind; [apply ok_us_add_lbr; eassumption|]. intros s1 Hs1.
  eapply okr_bind; [apply ok_us_add_ubr; eassumption|]. intros s2 Hs2.
  eapply okr_bind; [apply ok_us_add_set; eassumption|]. apply ok_us_defragment.
Qed.
Lemma ok_us_new u l : ok_ubr u -> ok_lbr l -> ok_us (us_new u l).
Proof.
  intros Hu Hl. unfold us_new. destruct (br_is_empty _); [|exact I]. split; [exact Hu|]. split; [apply ok_empty|exact Hl].
Qed.

(** ** Intersections *)

#[local] Hint Resolve ok_br_br ok_br_lbr ok_br_ubr ok_lbr_lbr ok_ubr_ubr ok_lbr_ubr ok_ubr_lbr ok_lbr_br ok_ubr_br
  ok_add_range ok_add_set ok_empty ok_from_br ok_retain ok_lbs_defragment ok_lbs_add_range ok_lbs_add_lbr
  ok_lbs_add_set ok_ubs_defragment ok_ubs_add_range ok_ubs_add_ubr ok_ubs_add_set ok_us_defragment
  ok_us_add_range ok_us_add_lbr ok_us_add_ubr ok_us_add_set ok_us_add_us ok_us_new : prov.

Lemma ok_bs_br a b : ok_bs a -> ok_br b -> ok_bs (bs_inter_br a b).
Proof. intros Ha Hb. apply ok_retain, ok_map; auto with prov. Qed.
Lemma ok_bs_lbr a b : ok_bs a -> ok_lbr b -> ok_bs (bs_inter_lbr a b).
Proof. intros Ha Hb. apply ok_retain, ok_map; auto with prov. Qed.
Lemma ok_bs_ubr a b : ok_bs a -> ok_ubr b -> ok_bs (bs_inter_ubr a b).
Proof. intros Ha Hb. apply ok_retain, ok_map; auto with prov. Qed.
#[local] Hint Resolve ok_bs_br ok_bs_lbr ok_bs_ubr : prov.

(** Splits a chain of calls into its calls. *)
Ltac chain :=
  repeat match goal with
  | H : ok_lbs _ |- _ => destruct H
  | H : ok_ubs _ |- _ => destruct H
  | H : ok_pus _ |- _ => destruct H as (? & ? & ?)
  end;
  repeat match goal with
  | |- okr _ (bind _ _) => eapply okr_bind; [|let x := fresh "x" in let H := fresh "Hx" in intros x H]
  end;
  cbn [okr]; eauto 7 with prov.

Lemma ok_bs_bs a b : ok_bs a -> ok_bs b -> okr ok_bs (bs_inter_bs a b).
Proof. intros Ha Hb. apply okr_foldM with (good := ok_br); auto with prov. intros. apply ok_add_set; auto. apply ok_bs_br; auto. Qed.
Lemma ok_lbs_br a b : ok_lbs a -> ok_br b -> okr ok_bs (lbs_inter_br a b).
Proof. intros Ha Hb. unfold lbs_inter_br. chain. Qed.
Lemma ok_ubs_br a b : ok_ubs a -> ok_br b -> okr ok_bs (ubs_inter_br a b).
Proof. intros Ha Hb. unfold ubs_inter_br. chain. apply ok_add_set; auto with prov. apply ok_retain, ok_from_br; auto with prov. Qed.
Lemma ok_bs_lbs a b : ok_bs a -> ok_lbs b -> okr ok_bs (bs_inter_lbs a b).
Proof.
  intros Ha Hb. unfold bs_inter_lbs. apply okr_foldM with (good := ok_br); auto.
  - destruct Hb. auto with prov.
  - intros s x Hs Hx. eapply okr_bind; [apply ok_lbs_br; eassumption|]. auto with prov.
Qed.
Lemma ok_bs_ubs a b : ok_bs a -> ok_ubs b -> okr ok_bs (bs_inter_ubs a b).
Proof.
  intros Ha Hb. unfold bs_inter_ubs. apply okr_foldM with (good := ok_br); auto.
  - destruct Hb. auto with prov.
  - intros s x Hs Hx. eapply okr_bind; [apply ok_ubs_br; eassumption|]. auto with prov.
Qed.
Lemma ok_lbs_lbr a b : ok_lbs a -> ok_lbr b -> ok_lbs (lbs_inter_lbr a b).
Proof. intros [H1 H2] Hb. split; simpl; auto with prov. Qed.
#[local] Hint Resolve ok_bs_bs ok_bs_lbs ok_bs_ubs ok_lbs_br ok_ubs_br ok_lbs_lbr : prov.
Lemma ok_lbs_lbs a b : ok_lbs a -> ok_lbs b -> okr ok_lbs (lbs_inter_lbs a b).
Proof.
  intros Ha Hb. unfold lbs_inter_lbs. eapply okr_bind; [apply ok_bs_lbs; [apply Ha|exact Hb]|].
  intros x Hx. apply ok_lbs_add_set; [|exact Hx]. apply ok_lbs_lbr; [exact Ha|apply Hb].
Qed.
Lemma ok_lbs_ubr a b : ok_lbs a -> ok_ubr b -> okr ok_bs (lbs_inter_ubr a b).
Proof.
  intros [H1 H2] Hb. unfold lbs_inter_ubr. eapply okr_bind.
  - apply ok_add_set; [|apply ok_bs_ubr; assumption]. apply ok_retain, ok_from_br. auto with prov.
  - intros x Hx. apply ok_retain. exact Hx.
Qed.
Lemma ok_ubs_lbr a b : ok_ubs a -> ok_lbr b -> okr ok_bs (ubs_inter_lbr a b).
Proof.
  intros [H1 H2] Hb. unfold ubs_inter_lbr.
  apply ok_add_set; [|apply ok_bs_lbr; assumption]. apply ok_retain, ok_from_br. auto with prov.
Qed.
Lemma ok_ubs_ubr a b : ok_ubs a -> ok_ubr b -> okr ok_ubs (ubs_inter_ubr a b).
Proof.
  intros [H1 H2] Hb. unfold ubs_inter_ubr. apply ok_ubs_add_set; [|auto with prov].
  split; simpl; auto with prov.
Qed.
#[local] Hint Resolve ok_lbs_lbs ok_lbs_ubr ok_ubs_lbr ok_ubs_ubr : prov.
Lemma ok_lbs_ubs a b : ok_lbs a -> ok_ubs b -> okr ok_bs (lbs_inter_ubs a b).
Proof.
  intros Ha [H1 H2]. unfold lbs_inter_ubs. eapply okr_bind; [apply ok_lbs_ubr; eassumption|].
  intros x Hx. eapply okr_bind; [apply ok_bs_lbs; eassumption|].
  intros y Hy. eapply okr_bind; [apply ok_add_set; [apply ok_retain; exact Hx|exact Hy]|].
  intros z Hz. apply ok_retain. exact Hz.
Qed.
Lemma ok_ubs_ubs a b : ok_ubs a -> ok_ubs b -> okr ok_ubs (ubs_inter_ubs a b).
Proof.
  intros Ha [H1 H2]. unfold ubs_inter_ubs. eapply okr_bind; [apply ok_ubs_ubr; eassumption|].
  intros x Hx. eapply okr_bind; [apply ok_bs_ubs; eassumption|]. auto with prov.
Qed.
Lemma ok_bs_us a b : ok_bs a -> ok_us b -> okr ok_bs (bs_inter_us a b).
Proof.
  intros Ha Hb. destruct b as [|p]; simpl; [exact Ha|]. destruct Hb as (H1 & H2 & H3).
  eapply okr_bind; [apply ok_add_set; auto with prov|]. intros x Hx.
  eapply okr_bind; [apply ok_bs_bs; eassumption|]. auto with prov.
Qed.
Lemma ok_lbs_us a b : ok_lbs a -> ok_us b -> okr ok_lbs (lbs_inter_us a b).
Proof.
  intros Ha Hb. destruct b as [|p]; simpl; [exact Ha|]. destruct Hb as (H1 & H2 & H3).
  eapply okr_bind; [apply ok_lbs_ubr; eassumption|]. intros x Hx.
  eapply okr_bind; [apply ok_lbs_add_set; [apply ok_lbs_lbr; eassumption|exact Hx]|]. intros y Hy.
  eapply okr_bind; [apply ok_bs_lbs; eassumption|]. auto with prov.
Qed.
Lemma ok_ubs_us a b : ok_ubs a -> ok_us b -> okr ok_ubs (ubs_inter_us a b).
Proof.
  intros Ha Hb. destruct b as [|p]; simpl; [exact Ha|]. destruct Hb as (H1 & H2 & H3).
  eapply okr_bind; [apply ok_ubs_ubr; eassumption|]. intros x Hx.
  eapply okr_bind; [apply ok_ubs_lbr; eassumption|]. intros y Hy.
  eapply okr_bind; [apply ok_ubs_add_set; eassumption|]. intros z Hz.
  eapply okr_bind; [apply ok_bs_ubs; eassumption|]. auto with prov.
Qed.
Lemma ok_of_ubr u : ok_ubr u -> ok_ubs (ubs_from_ubr u).
Proof. intros H. split; [exact H|apply ok_empty]. Qed.
Lemma ok_of_lbr u : ok_lbr u -> ok_lbs (lbs_from_lbr u).
Proof. intros H. split; [apply ok_empty|exact H]. Qed.
#[local] Hint Resolve ok_lbs_ubs ok_ubs_ubs ok_bs_us ok_lbs_us ok_ubs_us ok_of_ubr ok_of_lbr : prov.

(** ** Unions *)

Lemma ok_u_lbs_lbs a b : ok_lbs a -> ok_lbs b -> okr ok_lbs (lbs_union_lbs a b).
Proof.
  intros Ha [H1 H2]. unfold lbs_union_lbs. eapply okr_bind; [apply ok_lbs_add_lbr; eassumption|].
  intros x Hx. apply ok_lbs_add_set; assumption.
Qed.
Lemma ok_u_ubs_ubs a b : ok_ubs a -> ok_ubs b -> okr ok_ubs (ubs_union_ubs a b).
Proof.
  intros Ha [H1 H2]. unfold ubs_union_ubs. eapply okr_bind; [apply ok_ubs_add_ubr; eassumption|].
  intros x Hx. apply ok_ubs_add_set; assumption.
Qed.
Lemma ok_u_lbs_ubs a b : ok_lbs a -> ok_ubs b -> okr ok_us (lbs_union_ubs a b).
Proof.
  intros [H1 H2] [H3 H4]. unfold lbs_union_ubs. eapply okr_bind; [apply ok_us_add_set; [apply ok_us_new; eassumption|exact H1]|].
  intros x Hx. apply ok_us_add_set; assumption.
Qed.
Lemma ok_u_lbs_us a b : ok_lbs a -> ok_us b -> okr ok_us (lbs_union_us a b).
Proof.
  intros [H1 H2] Hb. unfold lbs_union_us. eapply okr_bind; [apply ok_us_add_lbr; eassumption|].
  intros x Hx. apply ok_us_add_set; assumption.
Qed.
Lemma ok_u_ubs_us a b : ok_ubs a -> ok_us b -> okr ok_us (ubs_union_us a b).
Proof.
  intros [H1 H2] Hb. unfold ubs_union_us. eapply okr_bind; [apply ok_us_add_ubr; eassumption|].
  intros x Hx. apply ok_us_add_set; assumption.
Qed.
#[local] Hint Resolve ok_u_lbs_lbs ok_u_ubs_ubs ok_u_lbs_ubs ok_u_lbs_us ok_u_ubs_us : prov.

Lemma ok_us_us a b : ok_us a -> ok_us b -> okr ok_us (us_inter_us a b).
Proof.
  intros Ha Hb. unfold us_inter_us. destruct a as [|p]; [exact Hb|]. destruct b as [|q]; [exact Ha|].
  destruct Hb as (H1 & H2 & H3).
  eapply okr_bind; [apply ok_ubs_us; [apply ok_of_ubr; eassumption|exact Ha]|]. intros x Hx.
  eapply okr_bind; [apply ok_lbs_us; [apply ok_of_lbr; eassumption|exact Ha]|]. intros y Hy.
  eapply okr_bind; [apply ok_bs_us; [eassumption|exact Ha]|]. intros z Hz.
  eapply okr_bind; [apply ok_lbs_add_set; eassumption|]. intros w Hw. apply ok_u_lbs_ubs; assumption.
Qed.
#[local] Hint Resolve ok_us_us : prov.

(** ** Values *)

Lemma ok_bs_v s : ok_bs s <-> ok_v (VBS s).
Proof.
  unfold ok_bs, ok_bl, ok_v, ok_br. rewrite Forall_forall. simpl. split.
  - intros H. split; intros x Hx; apply in_map_iff in Hx as (r & <- & Hr); apply (H r Hr).
  - intros [H1 H2] r Hr. split; [apply H1|apply H2]; apply in_map, Hr.
Qed.
Lemma ok_br_v r : ok_br r <-> ok_v (VBR r).
Proof. unfold ok_v, ok_br. simpl. split; [intros []; split; intros ? [<-|[]]; assumption|intros [H1 H2]; auto]. Qed.
Lemma ok_lbr_v r : ok_lbr r <-> ok_v (VLBR r).
Proof. unfold ok_v, ok_lbr. simpl. split; [intros H; split; [intros ? [<-|[]]; assumption|intros ? []]|intros [H1 H2]; auto]. Qed.
Lemma ok_ubr_v r : ok_ubr r <-> ok_v (VUBR r).
Proof. unfold ok_v, ok_ubr. simpl. split; [intros H; split; [intros ? []|intros ? [<-|[]]; assumption]|intros [H1 H2]; auto]. Qed.
Lemma ok_lbs_v s : ok_lbs s <-> ok_v (VLBS s).
Proof.
  unfold ok_lbs, ok_lbr. rewrite ok_bs_v. unfold ok_v. simpl. split.
  - intros ((H1 & H2) & H3). split; [|exact H2]. intros x Hx. apply in_app_or in Hx as [Hx|[<-|[]]]; auto.
  - intros (H1 & H2). repeat split; auto; [intros; apply H1, in_or_app; auto|apply H1, in_or_app; simpl; auto].
Qed.
Lemma ok_ubs_v s : ok_ubs s <-> ok_v (VUBS s).
Proof.
  unfold ok_ubs, ok_ubr. rewrite ok_bs_v. unfold ok_v. simpl. split.
  - intros (H1 & H2 & H3). split; [exact H2|]. intros x [<-|Hx]; auto.
  - intros (H1 & H2). repeat split; auto.
Qed.
Lemma ok_us_v s : ok_us s <-> ok_v (VUS s).
Proof.
  destruct s as [|p]; [unfold ok_v; simpl; split; [split; intros ? []|auto]|].
  unfold ok_us, ok_pus, ok_ubr, ok_lbr. rewrite ok_bs_v. unfold ok_v. simpl. split.
  - intros (H1 & (H2 & H3) & H4). split; [intros x Hx; apply in_app_or in Hx as [Hx|[<-|[]]]; auto|intros x [<-|Hx]; auto].
  - intros (H1 & H2). repeat split; auto; intros; apply H1, in_or_app; simpl; auto.
Qed.
Lemma ok_other_v : (forall u, ok_v (VUnbR u)) /\ (forall u, ok_v (VEmpty u)).
Proof. unfold ok_v. simpl. repeat split; contradiction. Qed.

Definition ok_inner (i : inner T) : Prop :=
  match i with
  | IBR r => ok_br r | IBS s => ok_bs s | ILBR r => ok_lbr r | ILBS s => ok_lbs s
  | IUBR r => ok_ubr r | IUBS s => ok_ubs s | IUnbR _ => True | IUS s => ok_us s | IEmpty _ => True
  end.
Definition ok_set (s : setv T) : Prop :=
  match s with
  | SBS s => ok_bs s | SLBS s => ok_lbs s | SUBS s => ok_ubs s | SUS s => ok_us s
  | SUnbR _ => True | SEmpty _ => True
  end.
Lemma ok_to_inner v : ok_v v -> ok_inner (to_inner v).
Proof.
  destruct v; cbn [to_inner ok_inner]; intros H; auto;
    try (apply ok_bs_v, H); try (apply ok_lbs_v, H); try (apply ok_ubs_v, H); try (apply ok_us_v, H);
    try (apply ok_br_v, H); try (apply ok_lbr_v, H); try (apply ok_ubr_v, H);
    destruct H as [H1 H2]; unfold ok_br, ok_lbr, ok_ubr; simpl in *; auto.
Qed.
Lemma ok_inner_v i : ok_inner i -> ok_v (value_of_inner i).
Proof.
  destruct i; cbn [value_of_inner ok_inner]; intros H; try apply ok_other_v;
    first [apply ok_bs_v, H|apply ok_lbs_v, H|apply ok_ubs_v, H|apply ok_us_v, H|apply ok_br_v, H|apply ok_lbr_v, H|apply ok_ubr_v, H].
Qed.
Lemma ok_to_set v : ok_v v -> ok_set (to_set v).
Proof.
  intros H. apply ok_to_inner in H. destruct v; cbn [to_set to_inner ok_inner ok_set] in *; auto with prov.
Qed.
Lemma ok_set_v s : ok_set s -> ok_v (value_of_set s).
Proof.
  destruct s; cbn [value_of_set ok_set]; intros H; try apply ok_other_v;
    first [apply ok_bs_v, H|apply ok_lbs_v, H|apply ok_ubs_v, H|apply ok_us_v, H].
Qed.

Lemma ok_ret_bs m : okr ok_bs m -> okr ok_v (ret_bs m).
Proof. intros H. eapply okr_bind; [exact H|]. intros s Hs. apply ok_bs_v, Hs. Qed.
Lemma ok_ret_lbs m : okr ok_lbs m -> okr ok_v (ret_lbs m).
Proof. intros H. eapply okr_bind; [exact H|]. intros s Hs. apply ok_lbs_v, Hs. Qed.
Lemma ok_ret_ubs m : okr ok_ubs m -> okr ok_v (ret_ubs m).
Proof. intros H. eapply okr_bind; [exact H|]. intros s Hs. apply ok_ubs_v, Hs. Qed.
Lemma ok_ret_us m : okr ok_us m -> okr ok_v (ret_us m).
Proof. intros H. eapply okr_bind; [exact H|]. intros s Hs. apply ok_us_v, Hs. Qed.

Lemma ok_inter_unb u v : ok_v v -> okr ok_v (unbr_intersection u v).
Proof. intros H. apply ok_inner_v, ok_to_inner, H. Qed.

Lemma ok_i_br a b : ok_br a -> ok_v b -> okr ok_v (br_intersection a b).
Proof.
  intros Ha Hb. unfold br_intersection. pose proof (ok_to_inner b Hb) as H. clear Hb.
  destruct (to_inner b); cbn [ok_inner] in H;
    try (apply ok_inter_unb, ok_br_v; assumption); try apply ok_other_v;
    try (cbn [okr]; first [apply ok_br_v|apply ok_bs_v]; unfold br_inter_bs; solve [auto with prov]);
    apply ok_ret_bs; unfold br_inter_lbs, br_inter_ubs, br_inter_us, us_inter_br; auto with prov.
Qed.
Lemma ok_i_lbr a b : ok_lbr a -> ok_v b -> okr ok_v (lbr_intersection a b).
Proof.
  intros Ha Hb. unfold lbr_intersection. pose proof (ok_to_inner b Hb) as H. clear Hb.
  destruct (to_inner b); cbn [ok_inner] in H;
    try (apply ok_inter_unb, ok_lbr_v; assumption); try apply ok_other_v;
    try (cbn [okr]; first [apply ok_br_v|apply ok_bs_v|apply ok_lbr_v|apply ok_lbs_v]; unfold lbr_inter_bs, lbr_inter_lbs; solve [auto with prov]);
    first [apply ok_ret_bs|apply ok_ret_lbs]; unfold lbr_inter_ubs, lbr_inter_us, us_inter_lbr; auto with prov.
Qed.
Lemma ok_i_ubr a b : ok_ubr a -> ok_v b -> okr ok_v (ubr_intersection a b).
Proof.
  intros Ha Hb. unfold ubr_intersection. pose proof (ok_to_inner b Hb) as H. clear Hb.
  destruct (to_inner b); cbn [ok_inner] in H;
    try (apply ok_inter_unb, ok_ubr_v; assumption); try apply ok_other_v;
    try (cbn [okr]; first [apply ok_br_v|apply ok_bs_v|apply ok_ubr_v]; unfold ubr_inter_bs; solve [auto with prov]);
    first [apply ok_ret_bs|apply ok_ret_ubs]; unfold ubr_inter_lbs, ubr_inter_ubs, ubr_inter_us, us_inter_ubr; auto with prov.
Qed.
Lemma ok_i_bs a b : ok_bs a -> ok_v b -> okr ok_v (bs_intersection a b).
Proof.
  intros Ha Hb. unfold bs_intersection. pose proof (ok_to_inner b Hb) as H. clear Hb.
  destruct (to_inner b); cbn [ok_inner] in H; try apply ok_other_v;
    try (cbn [okr]; apply ok_bs_v; solve [auto with prov]); apply ok_ret_bs; auto with prov.
Qed.
Lemma ok_i_lbs a b : ok_lbs a -> ok_v b -> okr ok_v (lbs_intersection a b).
Proof.
  intros Ha Hb. unfold lbs_intersection. pose proof (ok_to_inner b Hb) as H. clear Hb.
  destruct (to_inner b); cbn [ok_inner] in H; try apply ok_other_v;
    try (cbn [okr]; apply ok_lbs_v; solve [auto with prov]);
    first [apply ok_ret_bs; solve [unfold lbs_inter_bs; auto with prov]|apply ok_ret_lbs; auto with prov].
Qed.
Lemma ok_i_ubs a b : ok_ubs a -> ok_v b -> okr ok_v (ubs_intersection a b).
Proof.
  intros Ha Hb. unfold ubs_intersection. pose proof (ok_to_inner b Hb) as H. clear Hb.
  destruct (to_inner b); cbn [ok_inner] in H; try apply ok_other_v;
    try (cbn [okr]; apply ok_ubs_v; solve [auto with prov]);
    first [apply ok_ret_bs; solve [unfold ubs_inter_bs, ubs_inter_lbs; auto with prov]|apply ok_ret_ubs; auto with prov].
Qed.
Lemma ok_i_us a b : ok_us a -> ok_v b -> okr ok_v (us_intersection a b).
Proof.
  intros Ha Hb. unfold us_intersection. pose proof (ok_to_inner b Hb) as H. clear Hb.
  destruct (to_inner b); cbn [ok_inner] in H; try apply ok_other_v;
    try (cbn [okr]; apply ok_us_v; solve [auto with prov]);
    first [apply ok_ret_bs; solve [unfold us_inter_br, us_inter_bs; auto with prov]
          |apply ok_ret_lbs; solve [unfold us_inter_lbr, us_inter_lbs; auto with prov]
          |apply ok_ret_ubs; solve [unfold us_inter_ubr, us_inter_ubs; auto with prov]
          |apply ok_ret_us; auto with prov].
Qed.

Lemma ok_intersection a b : ok_v a -> ok_v b -> okr ok_v (intersection a b).
Proof.
  intros Ha Hb. pose proof (ok_to_inner a Ha) as Ia. pose proof (ok_to_inner b Hb) as Ib.
  destruct a; cbn [intersection to_inner ok_inner] in *;
    unfold range_intersection, range_inclusive_intersection, range_from_intersection, range_to_intersection,
      range_to_inclusive_intersection, range_full_intersection;
    try (destruct (to_inner b) eqn:E; cbn [ok_inner] in Ib);
    try apply ok_other_v;
    first [ apply ok_i_br; assumption | apply ok_i_lbr; assumption | apply ok_i_ubr; assumption
          | apply ok_i_bs; assumption | apply ok_i_lbs; assumption | apply ok_i_ubs; assumption
          | apply ok_i_us; assumption | apply ok_inter_unb; assumption ].
Qed.

Lemma ok_n_bs a b : ok_bs a -> ok_v b -> okr ok_v (bs_union a b).
Proof.
  intros Ha Hb. unfold bs_union. pose proof (ok_to_set b Hb) as H. clear Hb.
  destruct (to_set b); cbn [ok_set] in H; try apply ok_other_v;
    try (apply ok_bs_v; exact Ha);
    first [apply ok_ret_bs; solve [unfold bs_union_bs; auto with prov]
          |apply ok_ret_lbs; solve [unfold bs_union_lbs; auto with prov]
          |apply ok_ret_ubs; solve [unfold bs_union_ubs; auto with prov]
          |apply ok_ret_us; unfold bs_union_us; auto with prov].
Qed.
Lemma ok_n_lbs a b : ok_lbs a -> ok_v b -> okr ok_v (lbs_union a b).
Proof.
  intros Ha Hb. unfold lbs_union. pose proof (ok_to_set b Hb) as H. clear Hb.
  destruct (to_set b); cbn [ok_set] in H; try apply ok_other_v;
    try (apply ok_lbs_v; exact Ha);
    first [apply ok_ret_lbs; solve [unfold lbs_union_bs, bs_union_lbs; auto with prov]
          |apply ok_ret_us; auto with prov].
Qed.
Lemma ok_n_ubs a b : ok_ubs a -> ok_v b -> okr ok_v (ubs_union a b).
Proof.
  intros Ha Hb. unfold ubs_union. pose proof (ok_to_set b Hb) as H. clear Hb.
  destruct (to_set b); cbn [ok_set] in H; try apply ok_other_v;
    try (apply ok_ubs_v; exact Ha);
    first [apply ok_ret_ubs; solve [unfold ubs_union_bs, bs_union_ubs; auto with prov]
          |apply ok_ret_us; unfold ubs_union_lbs; auto with prov].
Qed.
Lemma ok_n_us a b : ok_us a -> ok_v b -> okr ok_v (us_union a b).
Proof.
  intros Ha Hb. unfold us_union. pose proof (ok_to_set b Hb) as H. clear Hb.
  destruct (to_set b); cbn [ok_set] in H; try apply ok_other_v;
    try (apply ok_us_v; exact Ha);
    apply ok_ret_us; unfold us_union_bs, bs_union_us, us_union_lbs, us_union_ubs, us_union_us; auto with prov.
Qed.

Lemma ok_union a b : ok_v a -> ok_v b -> okr ok_v (union a b).
Proof.
  intros Ha Hb. pose proof (ok_to_inner a Ha) as Ia.
  destruct a; cbn [union to_inner ok_inner] in *;
    unfold range_union, range_inclusive_union, range_from_union, range_to_union, range_to_inclusive_union,
      range_full_union, br_union, lbr_union, ubr_union;
    try (destruct (to_set b) eqn:E);
    try apply ok_other_v; try exact Ha; try exact Hb;
    first [ apply ok_n_bs; auto with prov | apply ok_n_lbs; auto with prov | apply ok_n_ubs; auto with prov | apply ok_n_us; auto with prov ].
Qed.
End Provenance.

(** ** Complements: the bounds are those of the operand, flipped *)

Section Complement.
Context {T : Type} {OT : Ord T} {Pn : Prop} {EX : Excuse OT Pn}.
Variable P : LowerBound T -> Prop.
Variable Q : UpperBound T -> Prop.
Let P' (l : LowerBound T) : Prop := Q (UB (opposite (lb_bound l))).
Let Q' (u : UpperBound T) : Prop := P (LB (opposite (ub_bound u))).

Lemma flipped_opposite (b : Bound T) : flipped b = opposite b.
Proof. destruct b; reflexivity. Qed.
Lemma ok_c_lbr a : ok_lbr P' a -> ok_ubr Q (lbr_complement a).
Proof. unfold ok_lbr, ok_ubr. simpl. rewrite flipped_opposite. auto. Qed.
Lemma ok_c_ubr a : ok_ubr Q' a -> ok_lbr P (ubr_complement a).
Proof. unfold ok_lbr, ok_ubr. simpl. rewrite flipped_opposite. auto. Qed.
Lemma ok_c_br a : ok_br P' Q' a -> okr (Pn := Pn) (ok_us P Q) (br_complement a).
Proof.
  intros [H1 H2]. unfold br_complement, ubs_union_lbs. rewrite !flipped_opposite.
  apply ok_u_lbs_ubs; [apply ok_of_lbr|apply ok_of_ubr]; assumption.
Qed.
Lemma ok_c_bs a : ok_bs P' Q' a -> okr (Pn := Pn) (ok_us P Q) (bs_complement a).
Proof.
  intros H. apply okr_foldM with (good := ok_br P' Q'); [exact I|exact H|].
  intros s x Hs Hx. eapply okr_bind; [apply ok_c_br; eassumption|]. intros c Hc. apply ok_us_us; assumption.
Qed.
Lemma ok_c_lbs a : ok_lbs P' Q' a -> okr (Pn := Pn) (ok_ubs P Q) (lbs_complement a).
Proof.
  intros [H1 H2]. apply okr_foldM with (good := ok_br P' Q'); [apply ok_of_ubr, ok_c_lbr, H2|exact H1|].
  intros s x Hs Hx. eapply okr_bind; [apply ok_c_br; eassumption|]. intros c Hc. apply ok_ubs_us; assumption.
Qed.
Lemma ok_c_ubs a : ok_ubs P' Q' a -> okr (Pn := Pn) (ok_lbs P Q) (ubs_complement a).
Proof.
  intros [H1 H2]. apply okr_foldM with (good := ok_br P' Q'); [apply ok_of_lbr, ok_c_ubr, H1|exact H2|].
  intros s x Hs Hx. eapply okr_bind; [apply ok_c_br; eassumption|]. intros c Hc. apply ok_lbs_us; assumption.
Qed.
Lemma ok_c_us a : ok_us P' Q' a -> okr (Pn := Pn) (ok_bs P Q) (us_complement a).
Proof.
  destruct a as [|p]; cbn [us_complement]; [intros _; apply ok_empty|]. intros (H1 & H2 & H3).
  apply okr_foldM with (good := ok_br P' Q'); [|exact H2|].
  - apply ok_from_br, ok_ubr_lbr; [apply ok_c_lbr, H3|apply ok_c_ubr, H1].
  - intros s x Hs Hx. eapply okr_bind; [apply ok_c_br; eassumption|]. intros c Hc. apply ok_bs_us; assumption.
Qed.
Lemma ok_complement a : ok_v P' Q' a -> okr (Pn := Pn) (ok_v P Q) (complement a).
Proof.
  intros Ha. apply ok_to_inner in Ha.
  destruct a; cbn [complement to_inner ok_inner] in *;
    first [ apply ok_other_v
          | apply ok_ret_us, ok_c_br; assumption | apply ok_ubr_v, ok_c_lbr; assumption | apply ok_lbr_v, ok_c_ubr; assumption
          | apply ok_ret_us, ok_c_bs; assumption | apply ok_ret_ubs, ok_c_lbs; assumption
          | apply ok_ret_lbs, ok_c_ubs; assumption | apply ok_ret_bs, ok_c_us; assumption ].
Qed.
End Complement.

(** ** Statements about lists of bounds *)

Section Bounds.
Context {T : Type} {OT : Ord T}.
(** Nothing is said of panics here. *)
#[local] Instance any_excuse : Excuse OT True := fun _ _ _ _ _ _ => I.

Lemma bounds_union (a b r : value T) : union a b = Ret r ->
  incl (lows r) (lows a ++ lows b) /\ incl (highs r) (highs a ++ highs b).
Proof.
  intros E. pose proof (ok_union (fun l => In l (lows a ++ lows b)) (fun u => In u (highs a ++ highs b)) a b) as H.
  rewrite E in H. apply H; split; intros; apply in_or_app; auto.
Qed.
Lemma bounds_intersection (a b r : value T) : intersection a b = Ret r ->
  incl (lows r) (lows a ++ lows b) /\ incl (highs r) (highs a ++ highs b).
Proof.
  intros E. pose proof (ok_intersection (fun l => In l (lows a ++ lows b)) (fun u => In u (highs a ++ highs b)) a b) as H.
  rewrite E in H. apply H; split; intros; apply in_or_app; auto.
Qed.
Definition opp_lb (l : LowerBound T) : UpperBound T := UB (opposite (lb_bound l)).
Definition opp_ub (u : UpperBound T) : LowerBound T := LB (opposite (ub_bound u)).
Lemma bounds_complement (a r : value T) : complement a = Ret r ->
  incl (lows r) (map (fun u => LB (opposite (ub_bound u))) (highs a))
  /\ incl (highs r) (map (fun l => UB (opposite (lb_bound l))) (lows a)).
Proof.
  intros E. pose proof (ok_complement (fun l => In l (map opp_ub (highs a))) (fun u => In u (map opp_lb (lows a))) a) as H.
  rewrite E in H. apply H; split; intros x Hx.
  - apply (in_map opp_lb _ _ Hx).
  - apply (in_map opp_ub _ _ Hx).
Qed.
Lemma bounds_inner (a : value T) :
  lows (value_of_inner (to_inner a)) = lows a /\ highs (value_of_inner (to_inner a)) = highs a.
Proof. destruct a; split; reflexivity. Qed.
Lemma bounds_set (a : value T) :
  incl (lows (value_of_set (to_set a))) (lows a) /\ incl (highs (value_of_set (to_set a))) (highs a).
Proof.
  pose proof (ok_set_v (fun l => In l (lows a)) (fun u => In u (highs a)) (to_set a)) as H. apply H.
  apply ok_to_set. split; auto.
Qed.

(** Every operation terminates, whatever the element type does. *)
Lemma no_divergence (a b : value T) :
  union a b <> Diverge /\ intersection a b <> Diverge /\ complement a <> Diverge
  /\ disjoint a b <> Diverge /\ intersects a b <> Diverge.
Proof.
  assert (A : forall v : value T, ok_v (fun _ => True) (fun _ => True) v) by (split; auto).
  pose proof (ok_union _ _ a b (A a) (A b)) as U. pose proof (ok_intersection _ _ a b (A a) (A b)) as N.
  pose proof (ok_complement (fun _ => True) (fun _ => True) a (A a)) as C.
  unfold intersects, disjoint.
  destruct (union a b), (intersection a b), (complement a); simpl in *; repeat split; try discriminate; contradiction.
Qed.
Lemma panic_excuse (Pn : Prop) (EX : Excuse OT Pn) (a b : value T) :
  (union a b = Panic -> Pn) /\ (intersection a b = Panic -> Pn) /\ (complement a = Panic -> Pn).
Proof.
  assert (A : forall v : value T, ok_v (fun _ => True) (fun _ => True) v) by (split; auto).
  pose proof (ok_union (Pn := Pn) _ _ a b (A a) (A b)) as U. pose proof (ok_intersection (Pn := Pn) _ _ a b (A a) (A b)) as N.
  pose proof (ok_complement (Pn := Pn) (fun _ => True) (fun _ => True) a (A a)) as C.
  repeat split; intros E; rewrite E in *; assumption.
Qed.
Lemma eval_panic_excuse (Pn : Prop) (EX : Excuse OT Pn) (e : expr T) : eval e = Panic -> Pn.
Proof.
  induction e as [v|a IHa b IHb|a IHa b IHb|a IHa|a IHa|a IHa]; simpl; try discriminate;
    destruct (eval a) as [x| |]; simpl; try discriminate; auto; try (destruct (eval b) as [y| |]; simpl; try discriminate; auto);
    try apply (panic_excuse Pn EX x y). apply (panic_excuse Pn EX x x).
Qed.
Lemma eval_no_divergence (e : expr T) : eval e <> Diverge.
Proof.
  induction e as [v|a IHa b IHb|a IHa b IHb|a IHa|a IHa|a IHa]; simpl; try discriminate;
    destruct (eval a) as [x| |]; try congruence; simpl; try discriminate.
  - destruct (eval b) as [y| |]; try congruence; simpl; try discriminate. apply (no_divergence x y).
  - destruct (eval b) as [y| |]; try congruence; simpl; try discriminate. apply (no_divergence x y).
  - apply (no_divergence x x).
Qed.

(** ** Programs *)

Definition named (P : T -> Prop) (v : value T) : Prop :=
  (forall l, In l (lows v) -> P (at_elem (lb_bound l))) /\ (forall u, In u (highs v) -> P (at_elem (ub_bound u))).
Lemma named_endpoints (P : T -> Prop) (v : value T) : named P v <-> forall t, In t (endpoints v) -> P t.
Proof.
  unfold named, endpoints. split.
  - intros [H1 H2] t Ht. apply in_app_or in Ht as [Ht|Ht]; apply in_map_iff in Ht as (x & <- & Hx); auto.
  - intros H. split; intros x Hx; apply H, in_or_app; [left|right]; apply in_map_iff; exists x; auto.
Qed.
Lemma at_opposite (b : Bound T) : at_elem (opposite b) = at_elem b.
Proof. destruct b; reflexivity. Qed.

Lemma eval_no_panic (SY : Excuse OT False) (e : expr T) : exists v, eval e = Ret v.
Proof.
  pose proof (eval_panic_excuse False SY e). pose proof (eval_no_divergence e). destruct (eval e); [eauto|tauto|congruence].
Qed.
Lemma eval_ind_leaves (R : value T -> Prop) (e : expr T) (v : value T) :
  (forall a b r, R a -> R b -> union a b = Ret r -> R r) ->
  (forall a b r, R a -> R b -> intersection a b = Ret r -> R r) ->
  (forall a r, R a -> complement a = Ret r -> R r) ->
  (forall a, R a -> R (value_of_inner (to_inner a))) ->
  (forall a, R a -> R (value_of_set (to_set a))) ->
  (forall l, In l (leaves e) -> R l) -> eval e = Ret v -> R v.
Proof.
  intros HU HI HC HN HS. revert v. induction e as [w|a IHa b IHb|a IHa b IHb|a IHa|a IHa|a IHa]; simpl; intros v HL E.
  - injection E as <-. auto.
  - destruct (eval a) as [x| |], (eval b) as [y| |]; try discriminate. simpl in E.
    eapply HU; [apply IHa|apply IHb|exact E]; auto; intros; apply HL, in_or_app; auto.
  - destruct (eval a) as [x| |], (eval b) as [y| |]; try discriminate. simpl in E.
    eapply HI; [apply IHa|apply IHb|exact E]; auto; intros; apply HL, in_or_app; auto.
  - destruct (eval a) as [x| |]; try discriminate. simpl in E. eapply HC; [apply IHa; auto|exact E].
  - destruct (eval a) as [x| |]; try discriminate. simpl in E. injection E as <-. apply HN, IHa; auto.
  - destruct (eval a) as [x| |]; try discriminate. simpl in E. injection E as <-. apply HS, IHa; auto.
Qed.

Lemma named_eval (P : T -> Prop) (e : expr T) (v : value T) :
  (forall l, In l (leaves e) -> named P l) -> eval e = Ret v -> named P v.
Proof.
  apply eval_ind_leaves.
  - intros a b r [A1 A2] [B1 B2] E. apply bounds_union in E as [H1 H2].
    split; intros x Hx; [apply H1 in Hx|apply H2 in Hx]; apply in_app_or in Hx as []; auto.
  - intros a b r [A1 A2] [B1 B2] E. apply bounds_intersection in E as [H1 H2].
    split; intros x Hx; [apply H1 in Hx|apply H2 in Hx]; apply in_app_or in Hx as []; auto.
  - intros a r [A1 A2] E. apply bounds_complement in E as [H1 H2].
    split; intros x Hx; [apply H1 in Hx|apply H2 in Hx]; apply in_map_iff in Hx as (y & <- & Hy); simpl; rewrite at_opposite; auto.
  - intros a [A1 A2]. destruct (bounds_inner a) as [H1 H2]. unfold named. rewrite H1, H2. auto.
  - intros a [A1 A2]. destruct (bounds_set a) as [H1 H2]. split; auto.
Qed.
Lemma eval_endpoints (e : expr T) (v : value T) (t : T) :
  eval e = Ret v -> In t (endpoints v) -> exists l, In l (leaves e) /\ In t (endpoints l).
Proof.
  intros E. apply (proj1 (named_endpoints (fun t => exists l, In l (leaves e) /\ In t (endpoints l)) v)).
  apply (named_eval _ e v); [|exact E]. intros l Hl. apply named_endpoints. eauto.
Qed.

Lemma eval_half_open (e : expr T) (v : value T) :
  (forall l, In l (leaves e) -> half_open l) -> eval e = Ret v -> half_open v.
Proof.
  apply eval_ind_leaves; unfold half_open, closed_below.
  - intros a b r [A1 A2] [B1 B2] E. apply bounds_union in E as [H1 H2].
    split; intros x Hx; [apply H1 in Hx|apply H2 in Hx]; apply in_app_or in Hx as []; auto.
  - intros a b r [A1 A2] [B1 B2] E. apply bounds_intersection in E as [H1 H2].
    split; intros x Hx; [apply H1 in Hx|apply H2 in Hx]; apply in_app_or in Hx as []; auto.
  - intros a r [A1 A2] E. apply bounds_complement in E as [H1 H2].
    split; intros x Hx; [apply H1 in Hx|apply H2 in Hx]; apply in_map_iff in Hx as (y & <- & Hy);
      [destruct (A2 y Hy) as [c ->]|destruct (A1 y Hy) as [c ->]]; simpl; eauto.
  - intros a [A1 A2]. destruct (bounds_inner a) as [H1 H2]. rewrite H1, H2. auto.
  - intros a [A1 A2]. destruct (bounds_set a) as [H1 H2]. split; auto.
Qed.

End Bounds.
