(** [runs] gives one outcome; [exec] finds it; encodings are injective. *)
From Coq Require Import String.
From Verif Require Import Base ModelBound ModelRanges ModelSets ModelValue ModelStep ModelIter RustSyntax Source RustEval RustEnc.
Open Scope Z_scope.
Open Scope string_scope.
Open Scope list_scope.

Section Runs.
Context {T : Type} {PF : Platform} {OT : Ord T} {ST : Step T} (dflt : option T) (m : mode).
Notation runs := (runs dflt m).

Lemma runs_det p o : runs p o -> forall o', runs p o' -> o = o'.
Proof.
  induction 1 as [a| |b p q o R IH|p k o R IH|v p k o R IH|c lt eq gt o R IH|v k o R IH|k|l k o R IH|f k o R IH
                 |rq k a o R1 IH1 R2 IH2|rq k R1 IH1]; intros o' R'; inversion R'; subst; auto.
  - match goal with H : runs (answer _ _ _) (Ret ?x) |- _ => pose proof (IH1 _ H) as E end. injection E as <-. auto.
  - match goal with H : runs (answer _ _ _) Panic |- _ => pose proof (IH1 _ H) as E end. discriminate E.
  - match goal with H : runs (answer _ _ _) (Ret ?x) |- _ => pose proof (IH1 _ H) as E end. discriminate E.
Qed.
Lemma runs_not_diverge p : ~ runs p Diverge.
Proof. intros R. remember Diverge as o eqn:E. induction R; auto; discriminate. Qed.

Lemma exec_runs fuel : forall p o, exec dflt m fuel p = Some o -> o <> Diverge -> runs p o.
Proof.
  induction fuel as [|fuel IH]; [intros p o [= <-]; congruence|].
  induction p as [a| | |b p1 IH1 p2 IH2|[v|] p IHp k IHk|c p1 IH1 p2 IH2 p3 IH3|[v| |] k IHk|l k IHk|[f|] k IHk|rq k IHk];
    intros o E N; cbn [exec] in E.
  - injection E as <-. constructor.
  - injection E as <-. constructor.
  - discriminate.
  - constructor. destruct b; auto.
  - constructor. auto.
  - constructor. auto.
  - constructor. destruct c; auto.
  - constructor. auto.
  - injection E as <-. constructor.
  - discriminate.
  - constructor. auto.
  - constructor. auto.
  - discriminate.
  - destruct (exec dflt m fuel (answer dflt m rq)) as [[a| |]|] eqn:C; try discriminate.
    + econstructor; [apply IH; [exact C|discriminate]|]. auto.
    + injection E as <-. constructor. apply IH; [exact C|discriminate].
    + injection E as <-. congruence.
Qed.
End Runs.

Section Injective.
Context {T : Type}.
Lemma enc_bound_inj (a b : Bound T) : enc_bound a = enc_bound b -> a = b.
Proof. destruct a, b; unfold enc_bound; cbn [bound_con bound_elt]; intros E; try discriminate E; now injection E as ->. Qed.
Lemma enc_lb_inj (a b : LowerBound T) : enc_lb a = enc_lb b -> a = b.
Proof. destruct a as [x], b as [y]. unfold enc_lb. cbn [lb_bound]. intros E. f_equal. apply enc_bound_inj. congruence. Qed.
Lemma enc_ub_inj (a b : UpperBound T) : enc_ub a = enc_ub b -> a = b.
Proof. destruct a as [x], b as [y]. unfold enc_ub. cbn [ub_bound]. intros E. f_equal. apply enc_bound_inj. congruence. Qed.
Lemma enc_br_inj (a b : BoundedRange T) : enc_br a = enc_br b -> a = b.
Proof.
  destruct a as [a1 a2], b as [b1 b2]. unfold enc_br. cbn [br_start br_end]. intros E.
  assert (E1 : enc_lb a1 = enc_lb b1) by congruence. assert (E2 : enc_ub a2 = enc_ub b2) by congruence.
  apply enc_lb_inj in E1. apply enc_ub_inj in E2. congruence.
Qed.
Lemma enc_lbr_inj (a b : LowerBoundedRange T) : enc_lbr a = enc_lbr b -> a = b.
Proof.
  destruct a as [a1], b as [b1]. unfold enc_lbr. cbn [lbr_start]. intros E.
  assert (E1 : enc_lb a1 = enc_lb b1) by congruence. apply enc_lb_inj in E1. congruence.
Qed.
Lemma enc_ubr_inj (a b : UpperBoundedRange T) : enc_ubr a = enc_ubr b -> a = b.
Proof.
  destruct a as [a1], b as [b1]. unfold enc_ubr. cbn [ubr_end]. intros E.
  assert (E1 : enc_ub a1 = enc_ub b1) by congruence. apply enc_ub_inj in E1. congruence.
Qed.
Lemma map_inj {A B : Type} (f : A -> B) : (forall a b, f a = f b -> a = b) -> forall l1 l2, map f l1 = map f l2 -> l1 = l2.
Proof.
  intros H. induction l1 as [|a l1 IH]; intros [|b l2] E; try discriminate; [reflexivity|].
  cbn [map] in E. assert (E1 : f a = f b) by congruence. assert (E2 : map f l1 = map f l2) by congruence.
  apply H in E1. apply IH in E2. congruence.
Qed.
Lemma enc_bs_inj (a b : BoundedSet T) : enc_bs a = enc_bs b -> a = b.
Proof.
  destruct a as [a1], b as [b1]. unfold enc_bs. cbn [bs_ranges]. intros E.
  assert (E1 : map enc_br a1 = map enc_br b1) by congruence. apply (map_inj _ enc_br_inj) in E1. congruence.
Qed.
Lemma enc_lbs_inj (a b : LowerBoundedSet T) : enc_lbs a = enc_lbs b -> a = b.
Proof.
  destruct a as [a1 a2], b as [b1 b2]. unfold enc_lbs. cbn [lbs_ranges lbs_lbr]. intros E.
  assert (E1 : enc_bs a1 = enc_bs b1) by congruence. assert (E2 : enc_lbr a2 = enc_lbr b2) by congruence.
  apply enc_bs_inj in E1. apply enc_lbr_inj in E2. congruence.
Qed.
Lemma enc_ubs_inj (a b : UpperBoundedSet T) : enc_ubs a = enc_ubs b -> a = b.
Proof.
  destruct a as [a1 a2], b as [b1 b2]. unfold enc_ubs. cbn [ubs_ranges ubs_ubr]. intros E.
  assert (E1 : enc_ubr a1 = enc_ubr b1) by congruence. assert (E2 : enc_bs a2 = enc_bs b2) by congruence.
  apply enc_ubr_inj in E1. apply enc_bs_inj in E2. congruence.
Qed.
Lemma enc_pus_inj (a b : PiecewiseUnboundedSet T) : enc_pus a = enc_pus b -> a = b.
Proof.
  destruct a as [a1 a2 a3], b as [b1 b2 b3]. unfold enc_pus. cbn [pus_ubr pus_ranges pus_lbr]. intros E.
  assert (E1 : enc_ubr a1 = enc_ubr b1) by congruence. assert (E2 : enc_bs a2 = enc_bs b2) by congruence.
  assert (E3 : enc_lbr a3 = enc_lbr b3) by congruence.
  apply enc_ubr_inj in E1. apply enc_bs_inj in E2. apply enc_lbr_inj in E3. congruence.
Qed.
Lemma enc_us_inj (a b : UnboundedSet T) : enc_us a = enc_us b -> a = b.
Proof.
  destruct a as [|p], b as [|q]; unfold enc_us; cbn [us_con us_fields]; intros E; try congruence.
  assert (E1 : enc_pus p = enc_pus q) by congruence. apply enc_pus_inj in E1. congruence.
Qed.
Lemma enc_value_inj (v w : value T) : enc_value v = enc_value w -> v = w.
Proof.
  destruct v as [[]|[]|[]|[]|[]|[]|v|v|v|[]|[]|v|v|v|v], w as [[]|[]|[]|[]|[]|[]|w|w|w|[]|[]|w|w|w|w];
    cbn [enc_value]; intros E; try (exfalso; discriminate E); try reflexivity; try (unfold enc_range, enc_ri, enc_rf, enc_rt, enc_rti in E; cbn in E; congruence); f_equal.
  - now apply enc_br_inj.
  - now apply enc_lbr_inj.
  - now apply enc_ubr_inj.
  - now apply enc_bs_inj.
  - now apply enc_lbs_inj.
  - now apply enc_ubs_inj.
  - now apply enc_us_inj.
Qed.
End Injective.
