(** Element types used in the examples: the integers (discrete, no extremes)
    and the rationals (dense; unequal representations compare equal). *)
From Coq Require Import Lia QArith.
From Verif Require Import Base ModelBound ModelRanges ModelSets ModelAlgebra ModelValue Spec.

(** Not code of the crate: [Z] stands for any integer-like [T: Copy + Ord]. *)
#[global] Instance OrdZ : Ord Z := { cmp := Z.compare; teq := Z.eqb }.
#[global] Instance OrdLawsZ : OrdLaws Z.
Proof.
  split; simpl.
  - intros a b. apply Z.compare_antisym.
  - intros a b c H1 H2. change (a <= c)%Z. change (a <= b)%Z in H1. change (b <= c)%Z in H2. lia.
  - intros a b. rewrite Z.eqb_eq, Z.compare_eq_iff. reflexivity.
Qed.
#[global] Instance OrdStrictZ : OrdStrict Z.
Proof. split. simpl. intros a b. apply Z.compare_eq_iff. Qed.

(** Not code of the crate: a dense order. *)
#[global] Instance OrdQ : Ord Q := { cmp := Qcompare; teq := Qeq_bool }.
#[global] Instance OrdLawsQ : OrdLaws Q.
Proof.
  split; simpl.
  - intros a b. symmetry. apply Qcompare_antisym.
  - intros a b c. rewrite <- !Qle_alt. apply Qle_trans.
  - intros a b. rewrite Qeq_bool_iff. apply Qeq_alt.
Qed.
#[global] Instance DenseOrdQ : DenseOrd Q.
Proof.
  split; unfold lt; simpl.
  - intros a b H. apply Qlt_alt in H. exists ((a + b) * (1 # 2))%Q.
    rewrite <- !Qlt_alt. split; apply Qmult_lt_r with (z := (2 # 1)%Q); try reflexivity.
    + rewrite <- Qmult_assoc. change ((1 # 2) * (2 # 1))%Q with (2 # 2)%Q.
      setoid_replace (2 # 2)%Q with 1%Q by reflexivity. rewrite Qmult_1_r.
      setoid_replace (a * (2 # 1))%Q with (a + a)%Q by ring. rewrite (Qplus_lt_r a b a). exact H.
    + rewrite <- Qmult_assoc. change ((1 # 2) * (2 # 1))%Q with (2 # 2)%Q.
      setoid_replace (2 # 2)%Q with 1%Q by reflexivity. rewrite Qmult_1_r.
      setoid_replace (b * (2 # 1))%Q with (b + b)%Q by ring. rewrite (Qplus_lt_l a b b). exact H.
  - intros a. exists (a + 1)%Q. rewrite <- Qlt_alt. rewrite <- (Qplus_0_r a) at 1. rewrite Qplus_lt_r. reflexivity.
  - intros a. exists (a - 1)%Q. rewrite <- Qlt_alt. rewrite <- (Qplus_0_r a) at 2. unfold Qminus. rewrite Qplus_lt_r. reflexivity.
  - exists 0%Q. exact I.
Qed.

(** Literals for the examples: [3..5], [3..=5], [3..], [..5], [..=5]. *)
Definition rng (a b : Z) : value Z := VRange (mkRange a b).
Definition rngi (a b : Z) : value Z := VRangeInclusive (mkRangeInclusive a b false).
Definition rfrom (a : Z) : value Z := VRangeFrom (mkRangeFrom a).
Definition rto (a : Z) : value Z := VRangeTo (mkRangeTo a).
Definition rtoi (a : Z) : value Z := VRangeToInclusive (mkRangeToInclusive a).
(** Pieces [a..b] of sets. *)
Definition pc (a b : Z) : BoundedRange Z := BR (LB (Included a)) (UB (Excluded b)).
