(** Proofs about [Hash] and [==]. *)
From Coq Require Import Lia ZifyBool.
From Verif Require Import Base ModelBound ModelRanges ModelSets ModelAlgebra ModelValue ModelEq ModelHash Spec.

Section HashProofs.
Context {T W : Type} {OT : Ord T} {HT : Hash T W}.

Section Agree.
Hypothesis HE : forall a b : T, teq a b = true -> hash_elem a = hash_elem b.

Lemma h_elem_eq (a b : T) : teq a b = true -> h_elem a = h_elem b.
Proof. intros E. unfold h_elem. rewrite (HE a b E). reflexivity. Qed.
Lemma h_bound_eq (a b : Bound T) : bound_eqb a b = true -> h_bound a = h_bound b.
Proof.
  destruct a as [a|a], b as [b|b]; simpl; intros E; try discriminate; rewrite (h_elem_eq _ _ E); reflexivity.
Qed.
Lemma h_br_eq (a b : BoundedRange T) : br_eqb a b = true -> h_br a = h_br b.
Proof.
  intros E. apply andb_prop in E as [E1 E2]. unfold h_br, h_lb, h_ub.
  rewrite (h_bound_eq _ _ E1), (h_bound_eq _ _ E2). reflexivity.
Qed.
Lemma h_bs_eq (a b : BoundedSet T) : bs_eqb a b = true -> h_bs a = h_bs b.
Proof.
  destruct a as [a], b as [b]. unfold bs_eqb, h_bs, h_deque. simpl. intros E.
  assert (H : length a = length b /\ flat_map h_br a = flat_map h_br b).
  { revert b E. induction a as [|x a IH]; intros [|y b] E; try discriminate; [auto|].
    simpl in E. apply andb_prop in E as [E1 E2]. destruct (IH b E2) as [H1 H2].
    simpl. rewrite H1, H2, (h_br_eq _ _ E1). auto. }
  destruct H as [-> ->]. reflexivity.
Qed.
Lemma hash_eq (a b : value T) : value_eqb a b = true -> hash a = hash b.
Proof.
  destruct a as [a|a|a|a|a|a|a|a|a|a|a|a|a|a|[|a]], b as [b|b|b|b|b|b|b|b|b|b|b|b|b|b|[|b]]; simpl; intros E; try discriminate; try reflexivity;
    repeat match goal with H : _ && _ = true |- _ => apply andb_prop in H as [? ?] end;
    repeat match goal with
    | H : teq _ _ = true |- _ => rewrite (h_elem_eq _ _ H); clear H
    | H : Bool.eqb _ _ = true |- _ => rewrite (eqb_prop _ _ H); clear H
    end; auto using h_bound_eq, h_br_eq, h_bs_eq.
  - apply (h_bound_eq _ _ E).
  - apply (h_bound_eq _ _ E).
  - unfold h_lbs, h_lbr, h_lb. apply andb_prop in E as [E1 E2].
    rewrite (h_bs_eq _ _ E1), (h_bound_eq _ _ E2). reflexivity.
  - unfold h_ubs, h_ubr, h_ub. apply andb_prop in E as [E1 E2].
    rewrite (h_bs_eq _ _ E2), (h_bound_eq _ _ E1). reflexivity.
  - unfold pus_eqb in E. apply andb_prop in E as [E E3]. apply andb_prop in E as [E1 E2].
    unfold h_pus, h_ubr, h_lbr, h_ub, h_lb.
    rewrite (h_bs_eq _ _ E2), (h_bound_eq _ _ E1), (h_bound_eq _ _ E3). reflexivity.
Qed.
End Agree.

(** The other direction, for element types that feed no word sequence that
    begins another's. *)
Section Determines.
Hypothesis PE : forall (a b : T) (x y : list W), hash_elem a ++ x = hash_elem b ++ y -> teq a b = true /\ x = y.

Lemma h_elem_det (a b : T) (x y : list (word W)) :
  h_elem a ++ x = h_elem b ++ y -> teq a b = true /\ x = y.
Proof.
  unfold h_elem. intros E.
  assert (G : forall l k : list W, map HElem l ++ x = map HElem k ++ y ->
    exists u, (l = k ++ u /\ map HElem u ++ x = y) \/ (k = l ++ u /\ x = map HElem u ++ y)).
  { clear. induction l as [|c l IH]; intros k E.
    - exists k. right. auto.
    - destruct k as [|d k]; [exists (c :: l); left; auto|]. injection E as -> E.
      destruct (IH k E) as (u & [[-> H]|[-> H]]); exists u; [left|right]; auto. }
  destruct (G _ _ E) as (u & [[H1 H2]|[H1 H2]]).
  - destruct (PE a b [] u) as [Q U]; [rewrite app_nil_r; exact H1|]. subst u. auto.
  - destruct (PE a b u []) as [Q U]; [rewrite app_nil_r; auto|]. subst u. auto.
Qed.
Lemma h_bound_det (a b : Bound T) x y : h_bound a ++ x = h_bound b ++ y -> bound_eqb a b = true /\ x = y.
Proof.
  destruct a as [a|a], b as [b|b]; simpl; intros E; try discriminate; injection E as E; apply h_elem_det, E.
Qed.
Lemma h_br_det (a b : BoundedRange T) x y : h_br a ++ x = h_br b ++ y -> br_eqb a b = true /\ x = y.
Proof.
  unfold h_br, br_eqb, lb_eqb, ub_eqb, h_lb, h_ub. rewrite <- !app_assoc. intros E.
  apply h_bound_det in E as [E1 E]. apply h_bound_det in E as [E2 E]. rewrite E1, E2. auto.
Qed.
Lemma h_bs_det (a b : BoundedSet T) x y : h_bs a ++ x = h_bs b ++ y -> bs_eqb a b = true /\ x = y.
Proof.
  destruct a as [a], b as [b]. unfold h_bs, h_deque, bs_eqb. simpl. intros E. injection E as L E.
  apply Nat2Z.inj in L. revert b L E. induction a as [|p a IH]; intros [|q b] L E; try discriminate; [auto|].
  simpl in E. rewrite <- !app_assoc in E. apply h_br_det in E as [E1 E]. injection L as L.
  destruct (IH b L E) as [E2 E3]. simpl. rewrite E1, E2. auto.
Qed.
Lemma hash_prefix (a b : value T) x y : kind_of a = kind_of b -> hash a ++ x = hash b ++ y -> value_eqb a b = true /\ x = y.
Proof.
  intros K.
  destruct a as [a|a|a|a|a|a|a|a|a|a|a|a|a|a|[|a]], b as [b|b|b|b|b|b|b|b|b|b|b|b|b|b|[|b]]; cbn [hash kind_of value_eqb us_eqb h_us] in *; try discriminate K; intros E;
    rewrite <- ?app_comm_cons in E;
    try discriminate; unfold h_lbs, h_ubs, h_pus, h_lbr, h_ubr, h_lb, h_ub in *; rewrite <- ?app_assoc in E;
    try lazymatch type of E with HDisc _ :: _ = _ => injection E as E end; rewrite <- ?app_assoc in E;
    repeat match goal with
    | H : h_elem _ ++ _ = h_elem _ ++ _ |- _ => apply h_elem_det in H as [? H]
    | H : h_bound _ ++ _ = h_bound _ ++ _ |- _ => apply h_bound_det in H as [? H]
    | H : h_br _ ++ _ = h_br _ ++ _ |- _ => apply h_br_det in H as [? H]
    | H : h_bs _ ++ _ = h_bs _ ++ _ |- _ => apply h_bs_det in H as [? H]
    | H : (_ ++ _) ++ _ = _ |- _ => rewrite <- ?app_assoc in H
    end; unfold lbs_eqb, ubs_eqb, pus_eqb, lbr_eqb, ubr_eqb, lb_eqb, ub_eqb;
    repeat match goal with H : ?e = true |- _ => rewrite H; clear H end; try (split; [reflexivity|exact E]).
  - injection E as E X. rewrite E, eqb_reflx. split; [reflexivity|exact X].
  - apply (h_bs_det (pus_ranges a) (pus_ranges b)) in E as [E1 E]. apply h_bound_det in E as [E2 E].
    rewrite E1, E2. split; [reflexivity|exact E].
Qed.
Lemma hash_det (a b : value T) : kind_of a = kind_of b -> hash a = hash b -> value_eqb a b = true.
Proof. intros K E. apply (hash_prefix a b [] []); [exact K|rewrite E; reflexivity]. Qed.
End Determines.

End HashProofs.
