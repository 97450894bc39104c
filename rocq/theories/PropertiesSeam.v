(** C77: sets up to [==] are the points they cover and the cuts they run over. *)
From Coq Require Import ZArith QArith Lia List.
Import ListNotations.
From Verif Require Import Base ModelBound ModelRanges ModelSets ModelAlgebra ModelValue ModelEq Spec SpecBounds SpecMap SpecFill SpecSeam
  Order Cuts ValueProofs Laws Laws2 Canon Instances FillProofs SeamProofs.

(** ** What a program returns *)
Theorem C77_programs (T : Type) (OT : Ord T) (OL : OrdLaws T) (e : expr T) : tidy e ->
  exists v, eval e = Ret v /\ kind_of v = expr_kind e /\ valid v
    /\ (forall p, covers v p <-> denotes e p) /\ (forall b, seam v b <-> sewn e b).
Proof.
  intros H. destruct (tidy_ok e H) as (v & E & F & W & K & C & S). exists v. split; [exact E|]. split; [exact K|]. split; [apply valid_wf, W|]. split.
  - intros p. rewrite covers_fin by exact F. apply C.
  - intros b. rewrite seam_in by exact F. apply S.
Qed.
Print Assumptions C77_programs.

(** Two programs of one set type return values that are [==] exactly when they stand for the same points and the same seams. *)
Theorem C77_equal (T : Type) (OT : Ord T) (OL : OrdLaws T) (e1 e2 : expr T) :
  tidy e1 -> tidy e2 -> is_set (expr_kind e1) = true -> expr_kind e1 = expr_kind e2 ->
  (ret_eq (eval e1) (eval e2) <-> (forall p, denotes e1 p <-> denotes e2 p) /\ (forall b, sewn e1 b <-> sewn e2 b)).
Proof. exact (tidy_equal e1 e2). Qed.
Print Assumptions C77_equal.

(** The cuts a valid set is whole across are its seams and its joints. *)
Theorem C77_joints (T : Type) (OT : Ord T) (OL : OrdLaws T) (v : value T) (b : Bound T) :
  is_set (kind_of v) = true -> valid v -> (joined v b <-> around b (covers v) /\ ~ seam v b).
Proof. exact (joined_around v b). Qed.
Print Assumptions C77_joints.

(** ** Laws up to [==] *)
Section Laws.
Context (T : Type) (OT : Ord T) (OL : OrdLaws T).

Lemma denotes_dec (e : expr T) p : tidy e -> denotes e p \/ ~ denotes e p.
Proof.
  intros H. destruct (tidy_ok e H) as (v & _ & _ & _ & _ & C & _). rewrite <- C. destruct (fin v p); [left|right]; congruence.
Qed.
Lemma around_ext b (P Q : filled T -> Prop) : (forall p, P p <-> Q p) -> (around b P <-> around b Q).
Proof. intros H. split; intros (p & q & B & A & G); exists p, q; repeat split; auto; intros r L1 L2; apply H, G; assumption. Qed.
Lemma around_and (e1 e2 : expr T) b : tidy e1 -> tidy e2 ->
  (around b (fun p => ~ denotes (EUnion e1 e2) p) <-> around b (fun p => ~ denotes e1 p) /\ around b (fun p => ~ denotes e2 p)).
Proof.
  intros H1 H2. destruct (tidy_ok e1 H1) as (v1 & _ & _ & _ & _ & C1 & _). destruct (tidy_ok e2 H2) as (v2 & _ & _ & _ & _ & C2 & _).
  destruct (tidy_ok (EUnion e1 e2)) as (v & _ & _ & _ & _ & C & _); [split; assumption|].
  assert (N : forall w e, (forall p, fin w p = true <-> denotes e p) -> forall p, ~ denotes e p <-> negb (fin w p) = true).
  { intros w e Q p. rewrite <- Q. destruct (fin w p); cbn; split; congruence. }
  rewrite (around_fin v b _ negb (N v _ C)), (around_fin v1 b _ negb (N v1 _ C1)), (around_fin v2 b _ negb (N v2 _ C2)).
  assert (Q : forall p, fin v p = orb (fin v1 p) (fin v2 p)).
  { intros p. apply Bool.eq_iff_eq_true. rewrite Bool.orb_true_iff, C, C1, C2. reflexivity. }
  rewrite !Q. destruct (fin v1 _), (fin v1 _), (fin v2 _), (fin v2 _); cbn; intuition congruence.
Qed.
Ltac kinds := repeat match goal with |- context [expr_kind ?e] => destruct (expr_kind e) end; intros; try discriminate; reflexivity.

(** [a.union(a.intersection(b)) == a] and [a.intersection(a.union(b)) == a]. *)
Theorem C77_absorb_union (a b : expr T) :
  tidy (EUnion a (EInter a b)) -> is_set (expr_kind a) = true -> ret_eq (eval (EUnion a (EInter a b))) (eval a).
Proof.
  intros H S. apply tidy_equal; [exact H|apply H| | |split].
  - cbn [expr_kind]. revert S. kinds.
  - cbn [expr_kind]. revert S. kinds.
  - intros p. unfold denotes. cbn. tauto.
  - intros c. cbn. tauto.
Qed.
Theorem C77_absorb_inter (a b : expr T) :
  tidy (EInter a (EUnion a b)) -> is_set (expr_kind a) = true -> ret_eq (eval (EInter a (EUnion a b))) (eval a).
Proof.
  intros H S. apply tidy_equal; [exact H|apply H| | |split].
  - cbn [expr_kind]. revert S. kinds.
  - cbn [expr_kind]. revert S. kinds.
  - intros p. unfold denotes. cbn. tauto.
  - intros c. cbn. tauto.
Qed.
(** Each operation distributes over the other. *)
Theorem C77_distribute_inter (a b c : expr T) :
  tidy (EInter a (EUnion b c)) -> tidy (EUnion (EInter a b) (EInter a c)) -> is_set (expr_kind (EInter a (EUnion b c))) = true ->
  ret_eq (eval (EInter a (EUnion b c))) (eval (EUnion (EInter a b) (EInter a c))).
Proof.
  intros H H' S. apply tidy_equal; [exact H|exact H'| | |split].
  - exact S.
  - revert S. cbn [expr_kind]. kinds.
  - intros p. unfold denotes. cbn. tauto.
  - intros x. cbn. tauto.
Qed.
Theorem C77_distribute_union (a b c : expr T) :
  tidy (EUnion a (EInter b c)) -> tidy (EInter (EUnion a b) (EUnion a c)) -> is_set (expr_kind (EUnion a (EInter b c))) = true ->
  ret_eq (eval (EUnion a (EInter b c))) (eval (EInter (EUnion a b) (EUnion a c))).
Proof.
  intros H H' S. apply tidy_equal; [exact H|exact H'| | |split].
  - exact S.
  - revert S. cbn [expr_kind]. kinds.
  - intros p. unfold denotes. cbn. tauto.
  - intros x. cbn. tauto.
Qed.
(** [!(a | b) == !a & !b]. *)
Theorem C77_de_morgan_union (a b : expr T) :
  tidy (ECompl (EUnion a b)) -> tidy (EInter (ECompl a) (ECompl b)) -> is_set (expr_kind (EInter (ECompl a) (ECompl b))) = true ->
  ret_eq (eval (ECompl (EUnion a b))) (eval (EInter (ECompl a) (ECompl b))).
Proof.
  intros H H' S. apply tidy_equal; [exact H|exact H'| | |split].
  - revert S. cbn [expr_kind]. kinds.
  - revert S. cbn [expr_kind]. kinds.
  - intros p. unfold denotes. cbn. tauto.
  - intros x. cbn [sewn]. apply around_and; apply H'.
Qed.
(** [!(a & b) == !a | !b] exactly when no cut lies between a point that only [a] lacks and one that only [b] lacks. *)
Theorem C77_de_morgan_inter (a b : expr T) :
  tidy (ECompl (EInter a b)) -> tidy (EUnion (ECompl a) (ECompl b)) -> is_set (expr_kind (ECompl (EInter a b))) = true ->
  (ret_eq (eval (ECompl (EInter a b))) (eval (EUnion (ECompl a) (ECompl b)))
   <-> forall x, around x (fun p => ~ denotes (EInter a b) p) -> around x (fun p => ~ denotes a p) \/ around x (fun p => ~ denotes b p)).
Proof.
  intros H H' S. rewrite tidy_equal; [|exact H|exact H'| |].
  - cbn [sewn]. split.
    + intros [_ G] x. apply G.
    + intros G. split.
      * intros p. pose proof (denotes_dec a p (proj1 (proj1 H'))) as D. unfold denotes in *. cbn in *. tauto.
      * intros x. split; [apply G|]. intros [(p & q & B & A & G')|(p & q & B & A & G')]; exists p, q; repeat split; auto;
          intros r L1 L2; specialize (G' r L1 L2); unfold denotes in *; cbn in *; tauto.
  - exact S.
  - revert S. cbn [expr_kind]. kinds.
Qed.
(** Complementing three times is complementing once; twice gives a set back exactly when it has no joints. *)
Theorem C77_thrice (a : expr T) : tidy (ECompl a) -> is_set (expr_kind a) = true -> ret_eq (eval (ECompl (ECompl (ECompl a)))) (eval (ECompl a)).
Proof.
  intros H S. assert (H3 : tidy (ECompl (ECompl (ECompl a)))).
  { cbn [tidy expr_kind]. split; [split; [exact H|]|]; revert S; kinds. }
  apply tidy_equal; [exact H3|exact H| | |].
  - cbn [expr_kind]. revert S. kinds.
  - cbn [expr_kind]. revert S. kinds.
  - assert (D : forall p, denotes (ECompl (ECompl a)) p <-> denotes a p).
    { intros p. pose proof (denotes_dec a p (proj1 H)) as D. unfold denotes in *. cbn in *. tauto. }
    split; [intros p; unfold denotes in *; cbn in *; tauto|]. intros b. cbn [sewn]. apply around_ext. intros p. rewrite D. reflexivity.
Qed.
Theorem C77_twice (v : value T) : is_set (kind_of v) = true -> valid v ->
  (ret_eq (eval (ECompl (ECompl (EVal v)))) (Ret v) <-> forall b, ~ joined v b).
Proof.
  intros S V. assert (F : fresh v) by (destruct v; try exact I; discriminate S).
  assert (H : tidy (ECompl (ECompl (EVal v)))). { cbn [tidy expr_kind]. split; [split; [split; assumption|]|]; revert S; destruct (kind_of v); intros; try discriminate; reflexivity. }
  change (Ret v) with (eval (EVal v)). rewrite tidy_equal; [|exact H|split; assumption| |].
  - assert (D : forall p, denotes (ECompl (ECompl (EVal v))) p <-> covers v p).
    { intros p. pose proof (denotes_dec (EVal v) p (conj F V)) as D. unfold denotes, covers in *. cbn in *. tauto. }
    assert (Ar : forall b, around b (fun p => ~ denotes (ECompl (EVal v)) p) <-> around b (covers v)) by (intros b; apply around_ext, D).
    cbn [sewn]. split.
    + intros [_ G] b J. apply (joined_around v b S V) in J as [J1 J2]. apply J2, G, Ar, J1.
    + intros G. split; [exact D|]. intros b. rewrite Ar. split.
      * intros A. pose proof (joined_around v b S V) as J. specialize (G b). pose proof (seam_in v b F) as E.
        destruct (v_in v (bcut b, false)); [tauto|]. exfalso. apply G, J. split; [exact A|]. rewrite E. discriminate.
      * intros E. rewrite (around_fin v b _ (fun x => x)) by (intros p; apply covers_fin, F).
        apply seam_sides, (seam_in v b F), E.
  - cbn [expr_kind]. revert S. destruct (kind_of v); intros; try discriminate; reflexivity.
  - cbn [expr_kind]. revert S. destruct (kind_of v); intros; try discriminate; reflexivity.
Qed.
End Laws.
Print Assumptions C77_absorb_union.
Print Assumptions C77_absorb_inter.
Print Assumptions C77_distribute_inter.
Print Assumptions C77_distribute_union.
Print Assumptions C77_de_morgan_union.
Print Assumptions C77_de_morgan_inter.
Print Assumptions C77_thrice.
Print Assumptions C77_twice.

(** ** Where the laws fail *)
Lemma not_ret_eq (v w : value Z) (m n : outcome (value Z)) : m = Ret v -> n = Ret w -> value_eqb v w = false -> ~ ret_eq m n.
Proof. intros -> -> E (x & y & Ex & Ey & Q). congruence. Qed.

(** [!(0..5 & 5..9)] is everything, [!(0..5) | !(5..9)] everything in two parts, both as sets. *)
Theorem C77_de_morgan_inter_refuted : exists a b : value Z,
  is_set (kind_of a) = true /\ kind_of a = kind_of b /\ valid a /\ valid b /\
  ~ ret_eq (eval (ECompl (EInter (EVal a) (EVal b)))) (eval (EUnion (ECompl (EVal a)) (ECompl (EVal b)))).
Proof.
  exists (VBS (BS [pc 0 5])), (VBS (BS [pc 5 9])). split; [reflexivity|]. split; [reflexivity|].
  split; [apply valid_wf; reflexivity|]. split; [apply valid_wf; reflexivity|]. eapply not_ret_eq; reflexivity.
Qed.
Print Assumptions C77_de_morgan_inter_refuted.

(** The complement of an empty range keeps a trace of it: [!(5..5)] and the complement of the empty set cover
    the same points, have the same type, and are not [==]. *)
Theorem C77_empty_range_refuted : exists a b v w : value Z,
  (forall p, ~ covers a p) /\ (forall p, ~ covers b p) /\ valid a /\ valid b /\
  complement a = Ret v /\ complement b = Ret w /\ kind_of v = kind_of w /\ value_eqb v w = false.
Proof.
  exists (VRange (mkRange 5%Z 5%Z)), (VBS (BS [])). do 2 eexists. split.
  { intros p H. apply covers_fin in H; [|exact I]. rewrite part_fin in H by reflexivity. cbn [nothing negb lo hi to_inner] in H.
    change (ucut (br_end (br_from_range (mkRange 5%Z 5%Z)))) with (lcut (br_start (br_from_range (mkRange 5%Z 5%Z)))) in H.
    destruct (cle _ _); discriminate H. }
  split. { intros p (r & [] & _). }
  split; [exact I|]. split; [apply valid_wf; reflexivity|]. repeat split; reflexivity.
Qed.
Print Assumptions C77_empty_range_refuted.

(** [{0..2, 2..4}], [{1..3}] and [{3..6}]: tidy programs, and what they return. *)
Definition sa : value Z := VBS (BS [pc 0 2; pc 2 4]).
Definition sb : value Z := VBS (BS [pc 1 3]).
Definition sc : value Z := VBS (BS [pc 3 6]).
Example C77_ex :
  let a := EVal sa in let b := EVal sb in let c := EVal sc in
  tidy (EUnion a (EInter a b)) /\ eval (EUnion a (EInter a b)) = Ret sa /\
  tidy (EInter a (EUnion a b)) /\ eval (EUnion a b) = Ret (VBS (BS [pc 0 4])) /\ eval (EInter a (EUnion a b)) = Ret sa /\
  eval (EUnion b c) = Ret (VBS (BS [pc 1 3; pc 3 6])) /\
  tidy (EInter a (EUnion b c)) /\ eval (EInter a (EUnion b c)) = Ret (VBS (BS [pc 1 2; pc 2 3; pc 3 4])) /\
  tidy (EUnion (EInter a b) (EInter a c)) /\ eval (EUnion (EInter a b) (EInter a c)) = Ret (VBS (BS [pc 1 2; pc 2 3; pc 3 4])) /\
  tidy (EUnion a (EInter b c)) /\ tidy (EInter (EUnion a b) (EUnion a c)) /\
  eval (EUnion a (EInter b c)) = Ret sa /\ eval (EUnion a c) = Ret (VBS (BS [pc 0 2; pc 2 6])) /\ eval (EInter (EUnion a b) (EUnion a c)) = Ret sa /\
  tidy (ECompl (ECompl (ECompl a))) /\ eval (ECompl (ECompl a)) = Ret (VBS (BS [pc 0 4])) /\ joined sa (Included 2%Z) /\ ~ seam sa (Included 2%Z) /\
  seam sb (Included 2%Z) /\ seam sb (Excluded 1%Z) /\ ~ seam sb (Included 1%Z).
Proof.
  assert (Va : valid sa) by (apply valid_wf; reflexivity). assert (Vb : valid sb) by (apply valid_wf; reflexivity).
  assert (Vc : valid sc) by (apply valid_wf; reflexivity). cbn zeta.
  repeat match goal with |- _ /\ _ => split end; try reflexivity; try (cbn [tidy]; repeat match goal with |- _ /\ _ => split end; assumption || reflexivity || exact I).
  - exists (UB (Excluded 2%Z)), (LB (Included 2%Z)). cbn. auto.
  - rewrite seam_in by exact I. discriminate.
  - rewrite seam_in by exact I. reflexivity.
  - rewrite seam_in by exact I. reflexivity.
  - rewrite seam_in by exact I. discriminate.
Qed.
(** Half-lines: [!{0..2, 4..} == !{0..2} & !{4..}], unlike the intersection above. *)
Example C77_ex2 :
  let a := EVal (VBS (BS [pc 0 2])) in let b := EVal (VLBS (LBS (BS []) (LBR (LB (Included 4%Z))))) in
  tidy (ECompl (EUnion a b)) /\ tidy (EInter (ECompl a) (ECompl b)) /\ is_set (expr_kind (EInter (ECompl a) (ECompl b))) = true /\
  eval (ECompl (EUnion a b)) = Ret (VUBS (UBS (UBR (UB (Excluded 0%Z))) (BS [pc 2 4]))) /\
  eval (EInter (ECompl a) (ECompl b)) = Ret (VUBS (UBS (UBR (UB (Excluded 0%Z))) (BS [pc 2 4]))).
Proof.
  cbn zeta. repeat match goal with |- _ /\ _ => split end; try reflexivity;
    cbn [tidy]; repeat match goal with |- _ /\ _ => split end; reflexivity || exact I || (apply valid_wf; reflexivity).
Qed.
