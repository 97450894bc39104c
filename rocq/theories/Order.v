(** Cuts of the element order, and a decision procedure for statements about
    finitely many of them.

    A cut is a place between elements: [(a, false)] lies just below [a],
    [(a, true)] just above it.  Bounds are cuts, so all comparisons the code
    makes become comparisons of cuts. *)
From Coq Require Import Lia ZifyBool.
From Verif Require Import Base ModelBound.

Section Cuts.
Context {T : Type} {OT : Ord T}.

Definition cut : Type := (T * bool)%type.

Definition cle (x y : cut) : bool :=
  match cmp (fst x) (fst y) with
  | Lt => true
  | Gt => false
  | Eq => implb (snd x) (snd y)
  end.
Definition clt (x y : cut) : bool := negb (cle y x).

Definition cmax (x y : cut) : cut := if cle x y then y else x.
Definition cmin (x y : cut) : cut := if cle x y then x else y.

(** The bounds as cuts, and the cut just below an element. *)
Definition lcut (l : LowerBound T) : cut :=
  match lb_bound l with Included a => (a, false) | Excluded a => (a, true) end.
Definition ucut (u : UpperBound T) : cut :=
  match ub_bound u with Included a => (a, true) | Excluded a => (a, false) end.
Definition pt (t : T) : cut := (t, false).

(** Rank of a cut in a finite list: how many members lie strictly below. *)
Definition rank (L : list cut) (x : cut) : Z :=
  Z.of_nat (length (filter (fun z => clt z x) L)).

Context {OL : OrdLaws T}.

Lemma cmp_refl (a : T) : cmp a a = Eq.
Proof. pose proof (cmp_opp a a) as H. destruct (cmp a a); simpl in H; congruence. Qed.

Lemma cmp_gt_lt (a b : T) : cmp a b = Gt <-> cmp b a = Lt.
Proof. rewrite (cmp_opp a b). destruct (cmp a b); simpl; split; congruence. Qed.

Lemma cmp_eq_sym (a b : T) : cmp a b = Eq <-> cmp b a = Eq.
Proof. rewrite (cmp_opp a b). destruct (cmp a b); simpl; split; congruence. Qed.

Lemma cmp_eq_l (a b c : T) : cmp a b = Eq -> cmp a c = cmp b c.
Proof.
  intros E.
  assert (E' : cmp b a = Eq) by (apply cmp_eq_sym; exact E).
  assert (Ha : cmp a c <> Gt <-> cmp b c <> Gt).
  { split; intro H.
    - apply (cmp_trans b a c); congruence.
    - apply (cmp_trans a b c); congruence. }
  assert (Hb : cmp c a <> Gt <-> cmp c b <> Gt).
  { split; intro H.
    - apply (cmp_trans c a b); congruence.
    - apply (cmp_trans c b a); congruence. }
  rewrite (cmp_opp a c), (cmp_opp b c) in Hb.
  destruct (cmp a c), (cmp b c); simpl in *; try reflexivity; exfalso; intuition congruence.
Qed.

Lemma cmp_eq_r (a b c : T) : cmp a b = Eq -> cmp c a = cmp c b.
Proof.
  intros E. rewrite (cmp_opp a c), (cmp_opp b c), (cmp_eq_l a b c E). reflexivity.
Qed.

Lemma cmp_lt_trans (a b c : T) : cmp a b = Lt -> cmp b c <> Gt -> cmp a c = Lt.
Proof.
  intros H1 H2. destruct (cmp a c) eqn:E; [| reflexivity |].
  - exfalso. rewrite (cmp_eq_l a c b E) in H1. apply cmp_gt_lt in H1. congruence.
  - exfalso. apply (cmp_trans a b c); congruence.
Qed.

Lemma cmp_lt_trans_r (a b c : T) : cmp a b <> Gt -> cmp b c = Lt -> cmp a c = Lt.
Proof.
  intros H1 H2. destruct (cmp a c) eqn:E; [| reflexivity |].
  - exfalso. apply cmp_eq_sym in E. rewrite (cmp_eq_r c a b) in H2 by exact E.
    apply cmp_gt_lt in H2. congruence.
  - exfalso. apply (cmp_trans a b c); congruence.
Qed.

Lemma cle_refl (x : cut) : cle x x = true.
Proof. unfold cle. rewrite cmp_refl. destruct (snd x); reflexivity. Qed.

Lemma cle_total (x y : cut) : cle x y = false -> cle y x = true.
Proof.
  unfold cle. rewrite (cmp_opp (fst x) (fst y)).
  destruct (cmp (fst x) (fst y)), (snd x), (snd y); simpl; congruence.
Qed.

Lemma cle_trans (x y z : cut) : cle x y = true -> cle y z = true -> cle x z = true.
Proof.
  unfold cle. destruct x as [a p], y as [b q], z as [c r]; simpl.
  destruct (cmp a b) eqn:E1; try discriminate; destruct (cmp b c) eqn:E2; try discriminate; intros H1 H2.
  - rewrite (cmp_eq_l a b c E1), E2. destruct p, q, r; simpl in *; congruence.
  - rewrite (cmp_eq_l a b c E1), E2. reflexivity.
  - rewrite (cmp_lt_trans a b c); congruence.
  - rewrite (cmp_lt_trans a b c); congruence.
Qed.

Lemma filter_length_le {A : Type} (f g : A -> bool) (L : list A) :
  (forall z, f z = true -> g z = true) -> (length (filter f L) <= length (filter g L))%nat.
Proof.
  intros H. induction L as [|z L IH]; simpl; [lia|].
  destruct (f z) eqn:E; [rewrite (H z E); simpl; lia | destruct (g z); simpl; lia].
Qed.

Lemma filter_length_lt {A : Type} (f g : A -> bool) (L : list A) (x : A) :
  (forall z, f z = true -> g z = true) -> In x L -> f x = false -> g x = true ->
  (length (filter f L) < length (filter g L))%nat.
Proof.
  intros H Hin Hf Hg. induction L as [|z L IH]; simpl; [destruct Hin|].
  destruct Hin as [->|Hin].
  - rewrite Hf, Hg. simpl. pose proof (filter_length_le f g L H). lia.
  - specialize (IH Hin). destruct (f z) eqn:E; [rewrite (H z E); simpl; lia | destruct (g z); simpl; lia].
Qed.

Lemma rank_spec (L : list cut) (x y : cut) :
  In y L -> cle x y = (rank L x <=? rank L y)%Z.
Proof.
  intros Hy. unfold rank.
  destruct (cle x y) eqn:E.
  - symmetry. apply Z.leb_le. apply inj_le. apply filter_length_le.
    intros z Hz. unfold clt in *.
    destruct (cle y z) eqn:E2; [|reflexivity].
    rewrite (cle_trans x y z E E2) in Hz. exact Hz.
  - symmetry. apply Z.leb_gt. apply inj_lt. apply filter_length_lt with (x := y); trivial.
    + intros z Hz. unfold clt in *.
      destruct (cle x z) eqn:E2; [|reflexivity].
      rewrite (cle_trans y x z (cle_total x y E) E2) in Hz. exact Hz.
    + unfold clt. rewrite cle_refl. reflexivity.
    + unfold clt. rewrite E. reflexivity.
Qed.

Lemma cle_cmax_l (x y z : cut) : cle (cmax x y) z = cle x z && cle y z.
Proof.
  unfold cmax. destruct (cle x y) eqn:E.
  - destruct (cle y z) eqn:E2; [rewrite (cle_trans x y z E E2)|rewrite andb_false_r]; reflexivity.
  - apply cle_total in E. destruct (cle x z) eqn:E2; [rewrite (cle_trans y x z E E2)|]; reflexivity.
Qed.
Lemma cle_cmax_r (x y z : cut) : cle z (cmax x y) = cle z x || cle z y.
Proof.
  unfold cmax. destruct (cle x y) eqn:E.
  - destruct (cle z x) eqn:E2; [rewrite (cle_trans z x y E2 E)|]; reflexivity.
  - apply cle_total in E. destruct (cle z y) eqn:E2; [rewrite (cle_trans z y x E2 E)|rewrite orb_false_r]; reflexivity.
Qed.
Lemma cle_cmin_l (x y z : cut) : cle (cmin x y) z = cle x z || cle y z.
Proof.
  unfold cmin. destruct (cle x y) eqn:E.
  - destruct (cle y z) eqn:E2; [rewrite (cle_trans x y z E E2)|rewrite orb_false_r]; reflexivity.
  - apply cle_total in E. destruct (cle x z) eqn:E2; [rewrite (cle_trans y x z E E2)|]; reflexivity.
Qed.
Lemma cle_cmin_r (x y z : cut) : cle z (cmin x y) = cle z x && cle z y.
Proof.
  unfold cmin. destruct (cle x y) eqn:E.
  - destruct (cle z x) eqn:E2; [rewrite (cle_trans z x y E2 E)|]; reflexivity.
  - apply cle_total in E. destruct (cle z y) eqn:E2; [rewrite (cle_trans z y x E2 E)|rewrite andb_false_r]; reflexivity.
Qed.

Lemma cle_antisym {OS : OrdStrict T} (x y : cut) : cle x y = true -> cle y x = true -> x = y.
Proof.
  unfold cle. destruct x as [a p], y as [b q]; simpl.
  rewrite (cmp_opp a b). destruct (cmp a b) eqn:E; simpl; try discriminate.
  rewrite (cmp_eq a b E). destruct p, q; simpl; congruence.
Qed.

End Cuts.
Arguments cut T : clear implicits.

#[global] Hint Rewrite @cle_cmax_l @cle_cmax_r @cle_cmin_l @cle_cmin_r using typeclasses eauto : cuts.

(** [crank] decides goals about [cle] on finitely many cuts: replace every cut
    by its rank in the list of all cuts that occur, then call [lia]. *)
Ltac in_list x L :=
  lazymatch L with
  | x :: _ => constr:(true)
  | _ :: ?L' => in_list x L'
  | _ => constr:(false)
  end.
Ltac add_atom x L :=
  let b := in_list x L in
  lazymatch b with true => L | false => constr:(x :: L) end.
Ltac collect_cuts L k :=
  match goal with
  | |- context [cle ?x ?y] =>
    first [ lazymatch in_list x L with false => idtac end; let L' := constr:(x :: L) in collect_cuts L' k
          | lazymatch in_list y L with false => idtac end; let L' := constr:(y :: L) in collect_cuts L' k ]
  | _ => k L
  end.
Ltac solve_in := repeat (first [left; reflexivity | right]).
Ltac use_ranks L :=
  let f := fresh "rk" in
  let Hf := fresh "Hrk" in
  pose proof (rank_spec L) as Hf;
  set (f := rank L) in Hf; clearbody f;
  repeat match goal with
  | |- context [cle ?x ?y] => rewrite (Hf x y) by solve_in
  end; clear Hf.
Ltac revert_cuts :=
  repeat match goal with
  | H : context [cle _ _] |- _ => revert H
  end.
Ltac crank_pre :=
  unfold clt in *; autorewrite with cuts in *; revert_cuts.
Ltac crank :=
  crank_pre;
  match goal with
  | |- context [cle ?x ?y] =>
    let A := type of x in collect_cuts (@nil A) ltac:(fun L => use_ranks L)
  | _ => idtac
  end;
  intros; lia.
