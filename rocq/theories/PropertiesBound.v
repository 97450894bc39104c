(** Property theorems C53-C55: building bounds and ranges; bounds over element
    types that are only [PartialOrd]. *)
From Coq Require Import Lia ZifyBool QArith.
From Verif Require Import Base ModelBound ModelRanges ModelSets ModelAlgebra ModelValue ModelEq ModelPartial Spec
  Cuts SetProofs AlgebraProofs ValueProofs Instances.
Open Scope Z_scope.

(** ** C53: constructors *)
(** The half-line each constructor stands for, in terms of the element order. *)
Theorem C53_bounds (T : Type) (OT : Ord T) (a t : T) :
  (above (lb_included a) t <-> le a t) /\ (above (lb_excluded a) t <-> lt a t) /\
  (below (ub_included a) t <-> le t a) /\ (below (ub_excluded a) t <-> lt t a).
Proof. cbn. tauto. Qed.
Print Assumptions C53_bounds.
(** [contains] of a range built from bounds, one row per choice of constructors. *)
Theorem C53_ranges (T : Type) (OT : Ord T) (OL : OrdLaws T) (a b t : T) :
  (br_contains (br_new (lb_included a) (ub_included b)) t = true <-> le a t /\ le t b) /\
  (br_contains (br_new (lb_included a) (ub_excluded b)) t = true <-> le a t /\ lt t b) /\
  (br_contains (br_new (lb_excluded a) (ub_included b)) t = true <-> lt a t /\ le t b) /\
  (br_contains (br_new (lb_excluded a) (ub_excluded b)) t = true <-> lt a t /\ lt t b) /\
  (lbr_contains (lbr_new (lb_included a)) t = true <-> le a t) /\
  (lbr_contains (lbr_new (lb_excluded a)) t = true <-> lt a t) /\
  (ubr_contains (ubr_new (ub_included b)) t = true <-> le t b) /\
  (ubr_contains (ubr_new (ub_excluded b)) t = true <-> lt t b) /\
  er_contains er_new t = false /\ unbr_contains unbr_new t = true.
Proof.
  pose proof (fun r => contains_mem (VBR r) t) as B. cbn [contains mem] in B.
  pose proof (fun r => contains_mem (VLBR r) t) as L. cbn [contains mem] in L.
  pose proof (fun r => contains_mem (VUBR r) t) as U. cbn [contains mem] in U.
  rewrite !B, !L, !U. unfold in_range. cbn. tauto.
Qed.
Print Assumptions C53_ranges.
(** Sets built from ranges, [BoundedSet::empty] and [UnboundedSet::new]. *)
Theorem C53_sets (T : Type) (OT : Ord T) (OL : OrdLaws T) (t : T) :
  contains (VBS bs_empty) t = false /\
  (forall r, contains (VBS (bs_from_br r)) t = br_contains r t) /\
  (forall r, contains (VLBS (lbs_from_lbr r)) t = lbr_contains r t) /\
  (forall r, contains (VUBS (ubs_from_ubr r)) t = ubr_contains r t) /\
  (forall u l, contains (VUS (us_new u l)) t = ubr_contains u t || lbr_contains l t).
Proof.
  cbn [contains]. split; [reflexivity|]. split; [|split; [|split]].
  - intros r. rewrite bs_contains_in, br_contains_in. apply in_from_br.
  - intros r. rewrite lbs_contains_in, lbr_contains_in. apply in_from_lbr.
  - intros r. rewrite ubs_contains_in, ubr_contains_in. apply in_from_ubr.
  - intros u l. rewrite us_contains_in, ubr_contains_in, lbr_contains_in. apply us_new_ok.
Qed.
Print Assumptions C53_sets.
Example C53_ex :
  br_contains (br_new (lb_excluded 3) (ub_included 7)) 7 = true /\ br_contains (br_new (lb_excluded 3) (ub_included 7)) 3 = false /\
  contains (VUS (us_new (ubr_new (ub_excluded 3)) (lbr_new (lb_included 7)))) 5 = false /\
  contains (VUS (us_new (ubr_new (ub_excluded 3)) (lbr_new (lb_included 7)))) 7 = true /\
  contains (VUS (us_new (ubr_new (ub_included 9)) (lbr_new (lb_included 7)))) 8 = true.
Proof. repeat split. Qed.
(** [to_bound] and [From<Bound>] are inverse to each other, and [==] of bounds
    tells constructors and endpoints apart. *)
Theorem C53_to_bound (T : Type) (OT : Ord T) (a b : T) :
  lb_to_bound (lb_included a) = Included a /\ lb_to_bound (lb_excluded a) = Excluded a /\
  ub_to_bound (ub_included a) = Included a /\ ub_to_bound (ub_excluded a) = Excluded a /\
  (forall x : LowerBound T, LB (lb_to_bound x) = x) /\ (forall x : UpperBound T, UB (ub_to_bound x) = x) /\
  lb_eqb (lb_included a) (lb_excluded b) = false /\ ub_eqb (ub_included a) (ub_excluded b) = false /\
  lb_eqb (lb_included a) (lb_included b) = teq a b /\ ub_eqb (ub_excluded a) (ub_excluded b) = teq a b.
Proof. repeat split; intros []; reflexivity. Qed.
Print Assumptions C53_to_bound.

(** ** C54: bounds over [PartialOrd] element types *)
(** The contract of [PartialOrd] (std documentation), and that [==] values
    compare alike with others (not spelled out there, see [C54_respect_needed]). *)
Record partial_order (T : Type) (PT : POrd T) : Prop := {
  po_eq : forall a b : T, p_eq a b = true <-> p_cmp a b = Some Eq;
  po_dual : forall a b : T, p_cmp b a = option_map CompOpp (p_cmp a b);
  po_lt : forall a b c : T, p_cmp a b = Some Lt -> p_cmp b c = Some Lt -> p_cmp a c = Some Lt;
  po_eq_trans : forall a b c : T, p_cmp a b = Some Eq -> p_cmp b c = Some Eq -> p_cmp a c = Some Eq
}.
Definition respects_eq (T : Type) (PT : POrd T) : Prop :=
  forall a b c : T, p_cmp a b = Some Eq -> p_cmp a c = p_cmp b c.

Section PartialBounds.
Context {T : Type} {PT : POrd T} (P : partial_order T PT) (R : respects_eq T PT).

Lemma po_eq_left (a b c : T) : p_cmp a b = Some Eq -> p_cmp a c = p_cmp b c.
Proof. apply R. Qed.
Lemma po_eq_right (a b c : T) : p_cmp b c = Some Eq -> p_cmp a c = p_cmp a b.
Proof. intros E. rewrite (po_dual _ _ P c a), (po_dual _ _ P b a). f_equal. symmetry. apply R, E. Qed.
Lemma po_gt (a b c : T) : p_cmp a b = Some Gt -> p_cmp b c = Some Gt -> p_cmp a c = Some Gt.
Proof.
  intros A B. rewrite (po_dual _ _ P c a), (po_lt _ _ P c b a); [reflexivity| |].
  - rewrite (po_dual _ _ P b c), B. reflexivity.
  - rewrite (po_dual _ _ P a b), A. reflexivity.
Qed.
Lemma po_if (A : Type) (a b : T) (x y : A) : (if p_eq a b then x else y) = match p_cmp a b with Some Eq => x | _ => y end.
Proof.
  destruct (p_eq a b) eqn:E.
  - apply (po_eq _ _ P) in E. rewrite E. reflexivity.
  - destruct (p_cmp a b) as [[| |]|] eqn:C; try reflexivity. apply (po_eq _ _ P) in C. congruence.
Qed.
Lemma po_eqb (a b : T) : p_eq a b = match p_cmp a b with Some Eq => true | _ => false end.
Proof. rewrite <- po_if. destruct (p_eq a b); reflexivity. Qed.
End PartialBounds.

Ltac three P R a b c :=
  let C1 := fresh "X" in let C2 := fresh "Y" in
  pose proof (po_eq_left R a b c); pose proof (po_eq_right P R a b c);
  pose proof (po_lt _ _ P a b c); pose proof (po_gt P a b c);
  destruct (p_cmp a b) as [[| |]|] eqn:C1; destruct (p_cmp b c) as [[| |]|] eqn:C2.
Ltac finish := intros; repeat match goal with
  | H : ?x = ?x -> _ |- _ => specialize (H eq_refl)
  | H : Some ?x = Some ?y -> _ |- _ => clear H
  | H : None = Some ?y -> _ |- _ => clear H
  end; try discriminate; repeat match goal with H : p_cmp _ _ = _ |- _ => rewrite H in * end; try discriminate; try reflexivity; try congruence.

Theorem C54_lower_lawful (T : Type) (PT : POrd T) :
  partial_order T PT -> respects_eq T PT -> partial_order (LowerBound T) _ /\ respects_eq (LowerBound T) _.
Proof.
  intros P R. split; [split|].
  - intros [[a|a]] [[b|b]]; cbn; unfold p_lb_eq, p_lb_cmp; cbn; rewrite ?(po_if P), ?(po_eqb P);
      destruct (p_cmp a b) as [[| |]|]; split; congruence.
  - intros [[a|a]] [[b|b]]; cbn; unfold p_lb_cmp; cbn; rewrite ?(po_if P), (po_dual _ _ P a b);
      destruct (p_cmp a b) as [[| |]|]; reflexivity.
  - intros [[a|a]] [[b|b]] [[c|c]]; cbn; unfold p_lb_cmp; cbn; rewrite ?(po_if P); three P R a b c; finish.
  - intros [[a|a]] [[b|b]] [[c|c]]; cbn; unfold p_lb_cmp; cbn; rewrite ?(po_if P); three P R a b c; finish.
  - intros [[a|a]] [[b|b]] [[c|c]]; cbn; unfold p_lb_cmp; cbn; rewrite ?(po_if P); three P R a b c; finish.
Qed.
Print Assumptions C54_lower_lawful.
Theorem C54_upper_lawful (T : Type) (PT : POrd T) :
  partial_order T PT -> respects_eq T PT -> partial_order (UpperBound T) _ /\ respects_eq (UpperBound T) _.
Proof.
  intros P R. split; [split|].
  - intros [[a|a]] [[b|b]]; cbn; unfold p_ub_eq, p_ub_cmp; cbn; rewrite ?(po_if P), ?(po_eqb P);
      destruct (p_cmp a b) as [[| |]|]; split; congruence.
  - intros [[a|a]] [[b|b]]; cbn; unfold p_ub_cmp; cbn; rewrite ?(po_if P), (po_dual _ _ P a b);
      destruct (p_cmp a b) as [[| |]|]; reflexivity.
  - intros [[a|a]] [[b|b]] [[c|c]]; cbn; unfold p_ub_cmp; cbn; rewrite ?(po_if P); three P R a b c; finish.
  - intros [[a|a]] [[b|b]] [[c|c]]; cbn; unfold p_ub_cmp; cbn; rewrite ?(po_if P); three P R a b c; finish.
  - intros [[a|a]] [[b|b]] [[c|c]]; cbn; unfold p_ub_cmp; cbn; rewrite ?(po_if P); three P R a b c; finish.
Qed.
Print Assumptions C54_upper_lawful.
(** What the comparison means: a smaller lower bound admits at least the elements
    of a larger one; two bounds are comparable exactly if their endpoints are. *)
Definition p_above {T : Type} {PT : POrd T} (l : LowerBound T) (t : T) : Prop :=
  match l with
  | LB (Included a) => p_cmp a t = Some Lt \/ p_cmp a t = Some Eq
  | LB (Excluded a) => p_cmp a t = Some Lt
  end.
Definition p_below {T : Type} {PT : POrd T} (u : UpperBound T) (t : T) : Prop :=
  match u with
  | UB (Included a) => p_cmp t a = Some Lt \/ p_cmp t a = Some Eq
  | UB (Excluded a) => p_cmp t a = Some Lt
  end.
Definition p_end {T : Type} (b : Bound T) : T := match b with Included a | Excluded a => a end.
Theorem C54_meaning (T : Type) (PT : POrd T) :
  partial_order T PT -> respects_eq T PT ->
  (forall (x y : LowerBound T) (t : T), p_cmp x y = Some Lt \/ p_cmp x y = Some Eq -> p_above y t -> p_above x t) /\
  (forall (x y : UpperBound T) (t : T), p_cmp x y = Some Lt \/ p_cmp x y = Some Eq -> p_below x t -> p_below y t) /\
  (forall x y : LowerBound T, p_cmp x y = None <-> p_cmp (p_end (lb_bound x)) (p_end (lb_bound y)) = None) /\
  (forall x y : UpperBound T, p_cmp x y = None <-> p_cmp (p_end (ub_bound x)) (p_end (ub_bound y)) = None).
Proof.
  intros P R. split; [|split; [|split]].
  - intros [[a|a]] [[b|b]] t; cbn; unfold p_lb_cmp; cbn; rewrite ?(po_if P); three P R a b t; finish; intuition (try discriminate; try congruence).
  - intros [[a|a]] [[b|b]] t; cbn; unfold p_ub_cmp; cbn; rewrite ?(po_if P); three P R t a b; finish; intuition (try discriminate; try congruence).
  - intros [[a|a]] [[b|b]]; cbn; unfold p_lb_cmp; cbn; rewrite ?(po_if P); destruct (p_cmp a b) as [[| |]|]; split; congruence.
  - intros [[a|a]] [[b|b]]; cbn; unfold p_ub_cmp; cbn; rewrite ?(po_if P); destruct (p_cmp a b) as [[| |]|]; split; congruence.
Qed.
Print Assumptions C54_meaning.
(** For a [T: Ord] this is the comparison of C15. *)
Theorem C54_extends_ord (T : Type) (OT : Ord T) :
  (forall x y : LowerBound T, p_lb_cmp (PT := POrdOfOrd OT) x y = lb_partial_cmp x y /\ p_lb_eq (PT := POrdOfOrd OT) x y = lb_eqb x y) /\
  (forall x y : UpperBound T, p_ub_cmp (PT := POrdOfOrd OT) x y = ub_partial_cmp x y /\ p_ub_eq (PT := POrdOfOrd OT) x y = ub_eqb x y).
Proof. split; intros [[a|a]] [[b|b]]; split; reflexivity. Qed.
Print Assumptions C54_extends_ord.

(** Numbers with a NaN, as floats behave: NaN is comparable with nothing and not [==] itself. *)
#[global] Instance POrdNan : POrd (option Z) := {
  p_eq := fun a b => match a, b with Some a, Some b => a =? b | _, _ => false end;
  p_cmp := fun a b => match a, b with Some a, Some b => Some (a ?= b) | _, _ => None end
}.
Lemma nan_lawful : partial_order (option Z) _ /\ respects_eq (option Z) _.
Proof.
  split; [split|].
  - intros [a|] [b|]; cbn; try (split; discriminate). rewrite Z.eqb_eq, <- Z.compare_eq_iff. split; congruence.
  - intros [a|] [b|]; cbn; try reflexivity. rewrite Z.compare_antisym. reflexivity.
  - intros [a|] [b|] [c|]; cbn; try discriminate. intros A B. injection A as A. injection B as B. f_equal.
    change (a < b) in A. change (b < c) in B. change (a < c). lia.
  - intros [a|] [b|] [c|]; cbn; try discriminate. intros A B. injection A as A. injection B as B. f_equal.
    apply Z.compare_eq_iff in A, B. apply Z.compare_eq_iff. lia.
  - intros [a|] [b|] [c|]; cbn; try discriminate; try reflexivity. intros A. injection A as A. apply Z.compare_eq_iff in A. congruence.
Qed.
Example C54_ex :
  partial_order (option Z) _ /\ respects_eq (option Z) _ /\
  p_lb_cmp (LB (Included (Some 3))) (LB (Excluded (Some 3))) = Some Lt /\
  p_ub_cmp (UB (Included (Some 3))) (UB (Excluded (Some 3))) = Some Gt /\
  p_lb_cmp (LB (Included (Some 3))) (LB (Excluded None)) = None /\ p_lb_eq (LB (Included None)) (LB (Included (@None Z))) = false.
Proof. split; [apply nan_lawful|]. split; [apply nan_lawful|]. repeat split. Qed.
(** The condition [respects_eq] cannot be dropped: three values 0 == 1, 1 < 2 with
    0 and 2 incomparable meet std's contract, and bounds over them do not. *)
Definition odd_order : POrd Z := {|
  p_eq := fun a b => (a =? b) || ((a <=? 1) && (b <=? 1));
  p_cmp := fun a b => if (a =? b) || ((a <=? 1) && (b <=? 1)) then Some Eq
    else if (a =? 1) && (b =? 2) then Some Lt else if (a =? 2) && (b =? 1) then Some Gt else None
|}.
Theorem C54_respect_needed :
  exists PT : POrd Z, partial_order Z PT /\ ~ partial_order (LowerBound Z) _ /\ ~ partial_order (UpperBound Z) _.
Proof.
  exists odd_order. split; [split|split].
  - intros a b. cbn. destruct ((a =? b) || ((a <=? 1) && (b <=? 1))) eqn:E; [tauto|].
    destruct ((a =? 1) && (b =? 2)); [split; discriminate|]. destruct ((a =? 2) && (b =? 1)); split; discriminate.
  - intros a b. cbn.
    destruct ((a =? b) || ((a <=? 1) && (b <=? 1))) eqn:E1, ((b =? a) || ((b <=? 1) && (a <=? 1))) eqn:E2; try lia; [reflexivity|].
    destruct ((a =? 1) && (b =? 2)) eqn:E3, ((b =? 2) && (a =? 1)) eqn:E4, ((a =? 2) && (b =? 1)) eqn:E5, ((b =? 1) && (a =? 2)) eqn:E6; try lia; reflexivity.
  - intros a b c. cbn.
    repeat match goal with |- context [if ?x then _ else _] => destruct x eqn:? end; try discriminate; intros; lia.
  - intros a b c. cbn.
    repeat match goal with |- context [if ?x then _ else _] => destruct x eqn:? end; try discriminate; intros; try reflexivity; lia.
  - intros Q. pose proof (po_lt _ _ Q (LB (Included 0)) (LB (Excluded 1)) (LB (Included 2))) as F. cbn in F.
    specialize (F eq_refl eq_refl). discriminate F.
  - intros Q. pose proof (po_lt _ _ Q (UB (Excluded 0)) (UB (Included 1)) (UB (Excluded 2))) as F. cbn in F.
    specialize (F eq_refl eq_refl). discriminate F.
Qed.
Print Assumptions C54_respect_needed.

(** ** C55: the unit-like ranges *)
Theorem C55_unit_ranges :
  OrdLaws EmptyRange /\ OrdLaws UnboundedRange /\
  (forall a b : EmptyRange, cmp a b = Eq /\ teq a b = true /\ a = b) /\
  (forall a b : UnboundedRange, cmp a b = Eq /\ teq a b = true /\ a = b) /\
  er_default = er_new /\ unbr_default = unbr_new.
Proof. repeat split; try discriminate; try tauto; destruct a, b; reflexivity. Qed.
Print Assumptions C55_unit_ranges.
