(** [==] is an equivalence. *)
From Coq Require Import Lia ZifyBool.
From Verif Require Import Base ModelBound ModelRanges ModelSets ModelAlgebra ModelValue ModelEq Spec
  Order Cuts SetProofs AlgebraProofs ValueProofs Canon.

Section EqProofs.
Context {T : Type} {OT : Ord T} {OL : OrdLaws T}.

Lemma teq_sym (a b : T) : teq a b = true -> teq b a = true.
Proof. rewrite !teq_match, (cmp_opp a b). destruct (cmp a b); auto. Qed.
Lemma teq_trans (a b c : T) : teq a b = true -> teq b c = true -> teq a c = true.
Proof.
  intros E1 E2.
  assert (H : ceq (a, true) (c, true) = true); [|unfold ceq, cle in H; simpl in H; rewrite teq_match; rewrite (cmp_opp a c) in H; destruct (cmp a c); auto; discriminate].
  assert (H1 : ceq (a, true) (b, true) = true) by (unfold ceq, cle; simpl; rewrite teq_match in E1; rewrite (cmp_opp a b); destruct (cmp a b); auto; discriminate).
  assert (H2 : ceq (b, true) (c, true) = true) by (unfold ceq, cle; simpl; rewrite teq_match in E2; rewrite (cmp_opp b c); destruct (cmp b c); auto; discriminate).
  unfold ceq in *. clear - OL H1 H2. crank.
Qed.
Lemma bound_eqb_sym (a b : Bound T) : bound_eqb a b = true -> bound_eqb b a = true.
Proof. destruct a, b; cbn [bound_eqb]; auto using teq_sym. Qed.
Lemma bound_eqb_trans (a b c : Bound T) : bound_eqb a b = true -> bound_eqb b c = true -> bound_eqb a c = true.
Proof. destruct a, b, c; cbn [bound_eqb]; eauto using teq_trans; discriminate. Qed.
Lemma br_eqb_sym (a b : BoundedRange T) : br_eqb a b = true -> br_eqb b a = true.
Proof. unfold br_eqb, lb_eqb, ub_eqb. rewrite !andb_true_iff. intros []. split; apply bound_eqb_sym; assumption. Qed.
Lemma br_eqb_trans (a b c : BoundedRange T) : br_eqb a b = true -> br_eqb b c = true -> br_eqb a c = true.
Proof. unfold br_eqb, lb_eqb, ub_eqb. rewrite !andb_true_iff. intros [] []. split; eapply bound_eqb_trans; eassumption. Qed.
Lemma vd_eqb_sym (a b : list (BoundedRange T)) : vd_eqb br_eqb a b = true -> vd_eqb br_eqb b a = true.
Proof.
  revert b. induction a as [|x a IH]; intros [|y b]; cbn [vd_eqb]; auto.
  rewrite !andb_true_iff. intros []. split; [apply br_eqb_sym|apply IH]; assumption.
Qed.
Lemma vd_eqb_trans (a b c : list (BoundedRange T)) : vd_eqb br_eqb a b = true -> vd_eqb br_eqb b c = true -> vd_eqb br_eqb a c = true.
Proof.
  revert b c. induction a as [|x a IH]; intros [|y b] [|z c]; cbn [vd_eqb]; try discriminate; auto.
  rewrite !andb_true_iff. intros [] []. split; [eapply br_eqb_trans|eapply IH]; eassumption.
Qed.
Lemma value_eqb_sym (a b : value T) : value_eqb a b = true -> value_eqb b a = true.
Proof.
  destruct a as [a|a|a|a|a|a|a|a|a|a|a|a|a|a|[|a]], b as [b|b|b|b|b|b|b|b|b|b|b|b|b|b|[|b]]; cbn [value_eqb us_eqb]; try discriminate; try reflexivity;
    unfold lbs_eqb, ubs_eqb, pus_eqb, bs_eqb, lbr_eqb, ubr_eqb, lb_eqb, ub_eqb; rewrite ?andb_true_iff; intros E;
    repeat match goal with H : _ /\ _ |- _ => destruct H end; repeat split;
    auto using teq_sym, br_eqb_sym, vd_eqb_sym, bound_eqb_sym.
  destruct (ri_exhausted a), (ri_exhausted b); auto.
Qed.
Lemma value_eqb_trans (a b c : value T) : value_eqb a b = true -> value_eqb b c = true -> value_eqb a c = true.
Proof.
  destruct a as [a|a|a|a|a|a|a|a|a|a|a|a|a|a|[|a]], b as [b|b|b|b|b|b|b|b|b|b|b|b|b|b|[|b]]; cbn [value_eqb us_eqb]; try discriminate;
    destruct c as [c|c|c|c|c|c|c|c|c|c|c|c|c|c|[|c]]; try discriminate; try reflexivity;
    unfold lbs_eqb, ubs_eqb, pus_eqb, bs_eqb, lbr_eqb, ubr_eqb, lb_eqb, ub_eqb; rewrite ?andb_true_iff; intros E E';
    repeat match goal with H : _ /\ _ |- _ => destruct H end; repeat split;
    try (eapply teq_trans; eassumption); try (eapply br_eqb_trans; eassumption); try (eapply vd_eqb_trans; eassumption); try (eapply bound_eqb_trans; eassumption).
  destruct (ri_exhausted a), (ri_exhausted b), (ri_exhausted c); auto.
Qed.
End EqProofs.
