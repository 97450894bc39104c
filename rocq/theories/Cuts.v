(** The model's range functions in terms of cuts.

    A place is a cut [c] together with a side: [(c, false)] is the cut itself,
    [(c, true)] the spot just above it.  A range covers an open stretch of
    places.  Elements are the places just above the cut below them, so coverage
    of places refines membership of elements; it also determines the canonical
    form of a set (Canon.v). *)
From Coq Require Import Lia ZifyBool.
From Verif Require Import Base ModelBound ModelRanges ModelSets ModelAlgebra Order.

Section Cuts.
Context {T : Type} {OT : Ord T}.

Definition place : Type := (cut T * bool)%type.
Definition at_elt (t : T) : place := (pt t, true).

Definition pabove (s : cut T) (p : place) : bool :=
  if snd p then cle s (fst p) else clt s (fst p).
Definition pbelow (e : cut T) (p : place) : bool := clt (fst p) e.

Definition br_in (r : BoundedRange T) (p : place) : bool :=
  pabove (lcut (br_start r)) p && pbelow (ucut (br_end r)) p.
Definition lbr_in (r : LowerBoundedRange T) (p : place) : bool := pabove (lcut (lbr_start r)) p.
Definition ubr_in (r : UpperBoundedRange T) (p : place) : bool := pbelow (ucut (ubr_end r)) p.
Definition bl_in (l : list (BoundedRange T)) (p : place) : bool := existsb (fun r => br_in r p) l.
Definition bs_in (s : BoundedSet T) (p : place) : bool := bl_in (bs_ranges s) p.
Definition lbs_in (s : LowerBoundedSet T) (p : place) : bool :=
  lbr_in (lbs_lbr s) p || bs_in (lbs_ranges s) p.
Definition ubs_in (s : UpperBoundedSet T) (p : place) : bool :=
  ubr_in (ubs_ubr s) p || bs_in (ubs_ranges s) p.
Definition pus_in (s : PiecewiseUnboundedSet T) (p : place) : bool :=
  ubr_in (pus_ubr s) p || lbr_in (pus_lbr s) p || bs_in (pus_ranges s) p.
Definition us_in (s : UnboundedSet T) (p : place) : bool :=
  match s with Full => true | Piecewise x => pus_in x p end.

(** Invariant of a list of pieces, with booleans. *)
Definition sep (a b : BoundedRange T) : bool := cle (ucut (br_end a)) (lcut (br_start b)).
Definition room (r : BoundedRange T) : bool := negb (cle (ucut (br_end r)) (lcut (br_start r))).
Fixpoint wfl (l : list (BoundedRange T)) : bool :=
  match l with
  | [] => true
  | r :: l' => room r && forallb (sep r) l' && wfl l'
  end.
Definition sep_l (b : BoundedRange T) (l : LowerBoundedRange T) : bool :=
  cle (ucut (br_end b)) (lcut (lbr_start l)).
Definition sep_u (u : UpperBoundedRange T) (b : BoundedRange T) : bool :=
  cle (ucut (ubr_end u)) (lcut (br_start b)).
Definition sep_ul (u : UpperBoundedRange T) (l : LowerBoundedRange T) : bool :=
  cle (ucut (ubr_end u)) (lcut (lbr_start l)).
Definition wf_bs (s : BoundedSet T) : bool := wfl (bs_ranges s).
Definition wf_lbs (s : LowerBoundedSet T) : bool :=
  wf_bs (lbs_ranges s) && forallb (fun r => sep_l r (lbs_lbr s)) (bs_ranges (lbs_ranges s)).
Definition wf_ubs (s : UpperBoundedSet T) : bool :=
  wf_bs (ubs_ranges s) && forallb (fun r => sep_u (ubs_ubr s) r) (bs_ranges (ubs_ranges s)).
Definition wf_pus (s : PiecewiseUnboundedSet T) : bool :=
  wf_bs (pus_ranges s)
  && forallb (fun r => sep_u (pus_ubr s) r && sep_l r (pus_lbr s)) (bs_ranges (pus_ranges s))
  && sep_ul (pus_ubr s) (pus_lbr s).
Definition wf_us (s : UnboundedSet T) : bool :=
  match s with Full => true | Piecewise x => wf_pus x end.

Context {OL : OrdLaws T}.

Lemma lb_partial_cmp_some (x y : LowerBound T) : exists c, lb_partial_cmp x y = Some c.
Proof.
  unfold lb_partial_cmp, t_partial_cmp.
  destruct (lb_bound x), (lb_bound y); try destruct (teq _ _); eauto.
Qed.
Lemma ub_partial_cmp_some (x y : UpperBound T) : exists c, ub_partial_cmp x y = Some c.
Proof.
  unfold ub_partial_cmp, t_partial_cmp.
  destruct (ub_bound x), (ub_bound y); try destruct (teq _ _); eauto.
Qed.

Lemma teq_false (a b : T) : teq a b = false -> cmp a b <> Eq.
Proof. intros H E. apply teq_cmp in E. congruence. Qed.

Lemma lb_cmp_cut (x y : LowerBound T) :
  match lb_cmp x y with Gt => true | _ => false end = negb (cle (lcut x) (lcut y)).
Proof.
  unfold lb_cmp, lb_partial_cmp, t_partial_cmp, lcut, cle.
  destruct (lb_bound x) as [a|a], (lb_bound y) as [b|b]; simpl;
    try (destruct (teq a b) eqn:E; [apply teq_cmp in E; rewrite E; reflexivity | apply teq_false in E]);
    destruct (cmp a b); try reflexivity; congruence.
Qed.
Lemma ub_cmp_cut (x y : UpperBound T) :
  match ub_cmp x y with Gt => true | _ => false end = negb (cle (ucut x) (ucut y)).
Proof.
  unfold ub_cmp, ub_partial_cmp, t_partial_cmp, ucut, cle.
  destruct (ub_bound x) as [a|a], (ub_bound y) as [b|b]; simpl;
    try (destruct (teq a b) eqn:E; [apply teq_cmp in E; rewrite E; reflexivity | apply teq_false in E]);
    destruct (cmp a b); try reflexivity; congruence.
Qed.
Lemma lb_gt_cut (x y : LowerBound T) : lb_gt x y = clt (lcut y) (lcut x).
Proof.
  unfold clt. rewrite <- lb_cmp_cut. unfold lb_gt, lb_cmp.
  destruct (lb_partial_cmp_some x y) as [c ->]. destruct c; reflexivity.
Qed.

Lemma lcut_max (x y : LowerBound T) : lcut (lb_max x y) = cmax (lcut x) (lcut y).
Proof.
  unfold lb_max, cmax. pose proof (lb_cmp_cut x y) as H.
  destruct (lb_cmp x y), (cle (lcut x) (lcut y)); simpl in H; try discriminate; reflexivity.
Qed.
Lemma lcut_min (x y : LowerBound T) : lcut (lb_min x y) = cmin (lcut x) (lcut y).
Proof.
  unfold lb_min, cmin. pose proof (lb_cmp_cut x y) as H.
  destruct (lb_cmp x y), (cle (lcut x) (lcut y)); simpl in H; try discriminate; reflexivity.
Qed.
Lemma ucut_max (x y : UpperBound T) : ucut (ub_max x y) = cmax (ucut x) (ucut y).
Proof.
  unfold ub_max, cmax. pose proof (ub_cmp_cut x y) as H.
  destruct (ub_cmp x y), (cle (ucut x) (ucut y)); simpl in H; try discriminate; reflexivity.
Qed.
Lemma ucut_min (x y : UpperBound T) : ucut (ub_min x y) = cmin (ucut x) (ucut y).
Proof.
  unfold ub_min, cmin. pose proof (ub_cmp_cut x y) as H.
  destruct (ub_cmp x y), (cle (ucut x) (ucut y)); simpl in H; try discriminate; reflexivity.
Qed.

Lemma br_is_empty_room (r : BoundedRange T) : br_is_empty r = negb (room r).
Proof.
  unfold br_is_empty, room, cle, lcut, ucut, t_gt, t_ge, t_partial_cmp.
  destruct r as [[[a|a]] [[b|b]]]; simpl; rewrite (cmp_opp a b); destruct (cmp a b); reflexivity.
Qed.

Lemma br_contains_in (r : BoundedRange T) (t : T) : br_contains r t = br_in r (at_elt t).
Proof.
  unfold br_contains, br_in, pabove, pbelow, clt, cle, lcut, ucut, t_gt, t_ge, t_lt, t_le, t_partial_cmp.
  destruct r as [[[a|a]] [[b|b]]]; simpl;
    rewrite (cmp_opp a t), (cmp_opp t b); destruct (cmp a t), (cmp t b); reflexivity.
Qed.
Lemma lbr_contains_in (r : LowerBoundedRange T) (t : T) : lbr_contains r t = lbr_in r (at_elt t).
Proof.
  unfold lbr_contains, lbr_in, pabove, clt, cle, lcut, t_gt, t_ge, t_partial_cmp.
  destruct r as [[[a|a]]]; simpl; rewrite (cmp_opp a t); destruct (cmp a t); reflexivity.
Qed.
Lemma ubr_contains_in (r : UpperBoundedRange T) (t : T) : ubr_contains r t = ubr_in r (at_elt t).
Proof.
  unfold ubr_contains, ubr_in, pbelow, clt, cle, ucut, t_lt, t_le, t_partial_cmp.
  destruct r as [[[b|b]]]; simpl; rewrite (cmp_opp t b); destruct (cmp t b); reflexivity.
Qed.
Lemma existsb_ext {A : Type} (f g : A -> bool) (l : list A) :
  (forall x, f x = g x) -> existsb f l = existsb g l.
Proof. intros H. induction l as [|x l IH]; simpl; [reflexivity|]. rewrite H, IH. reflexivity. Qed.
Lemma bs_contains_in (s : BoundedSet T) (t : T) : bs_contains s t = bs_in s (at_elt t).
Proof. apply existsb_ext. intros r. apply br_contains_in. Qed.
Lemma lbs_contains_in (s : LowerBoundedSet T) (t : T) : lbs_contains s t = lbs_in s (at_elt t).
Proof. unfold lbs_contains, lbs_in. rewrite lbr_contains_in, bs_contains_in. reflexivity. Qed.
Lemma ubs_contains_in (s : UpperBoundedSet T) (t : T) : ubs_contains s t = ubs_in s (at_elt t).
Proof. unfold ubs_contains, ubs_in. rewrite ubr_contains_in, bs_contains_in. reflexivity. Qed.
Lemma us_contains_in (s : UnboundedSet T) (t : T) : us_contains s t = us_in s (at_elt t).
Proof.
  destruct s as [|p]; simpl; [reflexivity|]. unfold pus_contains, pus_in.
  rewrite ubr_contains_in, lbr_contains_in, bs_contains_in. reflexivity.
Qed.

(** Flipping a bound keeps the cut and changes the side. *)
Lemma ucut_flipped (l : LowerBound T) : ucut (UB (flipped (lb_bound l))) = lcut l.
Proof. destruct l as [[a|a]]; reflexivity. Qed.
Lemma lcut_flipped (u : UpperBound T) : lcut (LB (flipped (ub_bound u))) = ucut u.
Proof. destruct u as [[a|a]]; reflexivity. Qed.

(** Equal cuts, equal bounds. *)
Lemma lcut_inj (x y : LowerBound T) : lcut x = lcut y -> x = y.
Proof. destruct x as [[a|a]], y as [[b|b]]; unfold lcut; simpl; congruence. Qed.
Lemma ucut_inj (x y : UpperBound T) : ucut x = ucut y -> x = y.
Proof. destruct x as [[a|a]], y as [[b|b]]; unfold ucut; simpl; congruence. Qed.

End Cuts.
Arguments place T : clear implicits.

#[global] Hint Rewrite @lcut_max @lcut_min @ucut_max @ucut_min @ucut_flipped @lcut_flipped
  using typeclasses eauto : cuts.

(** Unfold everything about individual ranges down to [cle]. *)
Ltac ranges_unfold :=
  unfold br_in, lbr_in, ubr_in, pabove, pbelow, sep, sep_l, sep_u, sep_ul, room,
    br_inter_br, br_inter_lbr, br_inter_ubr, lbr_inter_br, lbr_inter_lbr, lbr_inter_ubr,
    ubr_inter_br, ubr_inter_lbr, ubr_inter_ubr, br_new, lbr_new, ubr_new in *; simpl in *.
(** Solve a statement about finitely many ranges and places. *)
Ltac ranges :=
  repeat match goal with
  | p : place _ |- _ => let c := fresh "c" in destruct p as [c []]
  end;
  ranges_unfold; crank.
