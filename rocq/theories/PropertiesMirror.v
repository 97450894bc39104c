(** C79: the crate does not prefer one direction of the order to the other, save for intersections of two [LowerBoundedSet]s. *)
From Coq Require Import ZArith QArith Lia List Bool.
Import ListNotations.
From Verif Require Import Base ModelBound ModelRanges ModelSets ModelAlgebra ModelValue ModelEq Spec SpecBounds SpecMap SpecFill SpecSeam SpecMirror
  Order Cuts ValueProofs Laws Laws2 Canon Instances FillProofs SeamProofs PropertiesSeam.

Section Mirror.
Context {T : Type} {OT : Ord T} {OL : OrdLaws T}.

#[local] Instance LawsReverse : OrdLaws (reverse T).
Proof.
  constructor; cbn.
  - intros a b. apply cmp_opp.
  - intros a b c H1 H2. exact (cmp_trans _ _ _ H2 H1).
  - intros a b. rewrite teq_cmp, (cmp_opp (of_reverse b)). destruct (cmp (of_reverse b) (of_reverse a)); cbn; split; congruence.
Qed.

Definition mp (p : filled T) : filled (reverse T) := (Reverse (fst p), Qopp (snd p)).
Definition pm (p : filled (reverse T)) : filled T := (of_reverse (fst p), Qopp (snd p)).
Lemma opp_opp q : Qopp (Qopp q) = q.
Proof. destruct q as [n d]. unfold Qopp. cbn. rewrite Z.opp_involutive. reflexivity. Qed.
Lemma mp_pm p : mp (pm p) = p.
Proof. destruct p as [[t] q]. unfold mp, pm. cbn. rewrite opp_opp. reflexivity. Qed.
Lemma opp_compare p q : Qcompare (Qopp p) (Qopp q) = Qcompare q p.
Proof. unfold Qcompare, Qopp. cbn. rewrite !Z.mul_opp_l. apply Z.compare_opp. Qed.
Lemma mp_cmp p q : cmp (mp p) (mp q) = cmp q p.
Proof. destruct p as [s x], q as [t y]. cbn. rewrite opp_compare. reflexivity. Qed.
Lemma mp_le p q : le (mp p) (mp q) <-> le q p.
Proof. unfold le. rewrite mp_cmp. reflexivity. Qed.
Lemma mp_lt p q : lt (mp p) (mp q) <-> lt q p.
Proof. unfold lt. rewrite mp_cmp. reflexivity. Qed.
Lemma mp_point t : mp (point t) = point (Reverse t).
Proof. reflexivity. Qed.

Lemma mirror_above (l : LowerBound T) p : below (map_ub point (mirror_lb l)) (mp p) <-> above (map_lb point l) p.
Proof. destruct l as [[a|a]]; cbn; rewrite <- mp_point; first [apply mp_le|apply mp_lt]. Qed.
Lemma mirror_below (u : UpperBound T) p : above (map_lb point (mirror_ub u)) (mp p) <-> below (map_ub point u) p.
Proof. destruct u as [[a|a]]; cbn; rewrite <- mp_point; first [apply mp_le|apply mp_lt]. Qed.
Lemma mirror_in_range (r : BoundedRange T) p : in_range (map_br point (mirror_br r)) (mp p) <-> in_range (map_br point r) p.
Proof. pose proof (mirror_above (br_start r) p). pose proof (mirror_below (br_end r) p). unfold in_range. cbn [map_br mirror_br br_start br_end]. tauto. Qed.
Lemma mirror_in_pieces (s : BoundedSet T) p :
  in_pieces (bs_ranges (map_bs point (mirror_bs s))) (mp p) <-> in_pieces (bs_ranges (map_bs point s)) p.
Proof.
  unfold in_pieces. cbn. split; intros (r & I & H).
  - apply in_map_iff in I as (r1 & <- & I). apply in_rev in I. apply in_map_iff in I as (r0 & <- & I).
    exists (map_br point r0). split; [apply in_map, I|]. apply mirror_in_range, H.
  - apply in_map_iff in I as (r0 & <- & I). exists (map_br point (mirror_br r0)). split; [apply in_map; rewrite <- in_rev; apply in_map, I|].
    apply mirror_in_range, H.
Qed.
Lemma mirror_covers (v : value T) p : fresh v -> (covers (mirror v) (mp p) <-> covers v p).
Proof.
  intros F. unfold covers.
  destruct v as [[a b]|[a b x]|[a]|[a]|[a]| |r|r|r| | |s|s|s|[|s]]; cbn [mirror map_value map_us mem]; cbn in F; subst; try tauto.
  - unfold in_range. cbn. rewrite <- !mp_point, mp_le, mp_lt. tauto.
  - unfold in_range. cbn. rewrite <- !mp_point, !mp_le. tauto.
  - cbn. rewrite <- mp_point. apply mp_le.
  - cbn. rewrite <- mp_point. apply mp_lt.
  - cbn. rewrite <- mp_point. apply mp_le.
  - apply mirror_in_range.
  - apply mirror_above.
  - apply mirror_below.
  - apply mirror_in_pieces.
  - pose proof (mirror_in_pieces (lbs_ranges s) p) as P. pose proof (mirror_above (lbr_start (lbs_lbr s)) p) as A. cbn in *. tauto.
  - pose proof (mirror_in_pieces (ubs_ranges s) p) as P. pose proof (mirror_below (ubr_end (ubs_ubr s)) p) as B. cbn in *. tauto.
  - pose proof (mirror_in_pieces (pus_ranges s) p) as P. pose proof (mirror_above (lbr_start (pus_lbr s)) p) as A.
    pose proof (mirror_below (ubr_end (pus_ubr s)) p) as B. cbn in *. tauto.
Qed.
Lemma mirror_denotes (e : expr T) p : (forall x, In x (leaves e) -> fresh x) -> (denotes (mirror_expr e) (mp p) <-> denotes e p).
Proof.
  unfold denotes. induction e; cbn; intros F; try (rewrite IHe by exact F; tauto); try (rewrite IHe1, IHe2 by (intros; apply F, in_or_app; auto); tauto).
  apply (mirror_covers v p). apply F. left. reflexivity.
Qed.

(** The cut before an element becomes the cut after it. *)
Definition mc (b : Bound T) : Bound (reverse T) := match b with Included a => Excluded (Reverse a) | Excluded a => Included (Reverse a) end.
Lemma mc_onto b : exists a, b = mc a.
Proof. destruct b as [[t]|[t]]; first [exists (Excluded t); reflexivity|exists (Included t); reflexivity]. Qed.
Lemma mirror_ahead b p : ahead (mc b) (mp p) <-> behind b p.
Proof. destruct b; cbn; rewrite <- mp_point; first [apply mp_le|apply mp_lt]. Qed.
Lemma mirror_behind b p : behind (mc b) (mp p) <-> ahead b p.
Proof. destruct b; cbn; rewrite <- mp_point; first [apply mp_le|apply mp_lt]. Qed.
Lemma mirror_parts (v : value T) r : In r (parts (mirror v)) <-> exists q, In q (parts v) /\ r = mirror q.
Proof.
  assert (L : forall l : list (BoundedRange T), In r (map VBR (rev (map mirror_br l))) <-> exists q, In q (map VBR l) /\ r = mirror q).
  { intros l. rewrite in_map_iff. split.
    - intros (x & <- & I). rewrite <- in_rev in I. apply in_map_iff in I as (y & <- & I). exists (VBR y). split; [apply in_map, I|reflexivity].
    - intros (q & I & ->). apply in_map_iff in I as (y & <- & I). exists (mirror_br y). split; [reflexivity|]. rewrite <- in_rev. apply in_map, I. }
  assert (O : forall x : value T, (mirror x = r \/ False) <-> exists q, (x = q \/ False) /\ r = mirror q).
  { intros x. split; [intros [<-|[]]; eauto|intros (q & [<-|[]] & ->); auto]. }
  destruct v as [[a b]|[a b x]|[a]|[a]|[a]|f|q|q|q|f|f|s|s|s|[|s]]; cbn [mirror parts]; try match goal with |- _ <-> (exists q, In q [?x] /\ _) => exact (O x) end.
  - exact (L _).
  - cbn [In ubs_ubr ubs_ranges mirror_bs bs_ranges]. rewrite L. split.
    + intros [<-|(q & I & ->)]; [exists (VLBR (lbs_lbr s))|exists q]; (split; [apply in_or_app; cbn; auto|reflexivity]).
    + intros (q & I & ->). apply in_app_or in I as [I|[<-|[]]]; [right; eauto|left; reflexivity].
  - cbn [lbs_lbr lbs_ranges mirror_bs bs_ranges]. rewrite in_app_iff, L. cbn [In]. split.
    + intros [(q & I & ->)|[<-|[]]]; [exists q|exists (VUBR (ubs_ubr s))]; auto.
    + intros (q & [<-|I] & ->); [right; left; reflexivity|left; eauto].
  - cbn [In pus_ubr pus_lbr pus_ranges mirror_bs bs_ranges]. rewrite !in_app_iff, L. cbn [In]. split.
    + intros [<-|[(q & I & ->)|[<-|[]]]]; [exists (VLBR (pus_lbr s))|exists q|exists (VUBR (pus_ubr s))]; (split; [|reflexivity]); rewrite ?in_app_iff; cbn; auto.
    + intros (q & [<-|I] & ->); [right; right; left; reflexivity|]. apply in_app_or in I as [I|[<-|[]]]; [right; left; eauto|left; reflexivity].
Qed.
Lemma parts_fresh (v r : value T) : fresh v -> In r (parts v) -> fresh r.
Proof.
  intros F I. destruct v as [q|q|q|q|q|q|q|q|q|q|q|s|s|s|[|s]]; cbn in I;
    repeat match goal with
    | H : _ \/ _ |- _ => destruct H as [H|H]
    | H : In _ (_ ++ _) |- _ => apply in_app_or in H
    | H : In _ (map _ _) |- _ => apply in_map_iff in H as (? & <- & _); exact I
    | H : In _ [_] |- _ => cbn in H
    end; subst; try contradiction; try exact F; try exact Logic.I.
Qed.
Lemma mirror_seam (v : value T) b : fresh v -> (seam (mirror v) (mc b) <-> seam v b).
Proof.
  intros F. unfold seam. split.
  - intros (r & p & q & I & Cp & Bp & Cq & Aq). apply mirror_parts in I as (x & I & ->).
    exists x, (pm q), (pm p). rewrite <- (mp_pm p) in Cp, Bp. rewrite <- (mp_pm q) in Cq, Aq.
    apply mirror_covers in Cp; [|exact (parts_fresh _ _ F I)]. apply mirror_covers in Cq; [|exact (parts_fresh _ _ F I)].
    apply mirror_behind in Bp. apply mirror_ahead in Aq. auto.
  - intros (r & p & q & I & Cp & Bp & Cq & Aq). exists (mirror r), (mp q), (mp p).
    rewrite mirror_behind, mirror_ahead, !mirror_covers by exact (parts_fresh _ _ F I).
    repeat split; auto. apply mirror_parts. eauto.
Qed.
Lemma mirror_around b (P : filled (reverse T) -> Prop) (R : filled T -> Prop) :
  (forall p, P (mp p) <-> R p) -> (around (mc b) P <-> around b R).
Proof.
  intros H. unfold around. split.
  - intros (p & q & B & A & F). exists (pm q), (pm p). rewrite <- (mp_pm p) in B. rewrite <- (mp_pm q) in A.
    apply mirror_behind in B. apply mirror_ahead in A. split; [exact A|]. split; [exact B|].
    intros r L1 L2. apply H, F; [rewrite <- (mp_pm p)|rewrite <- (mp_pm q)]; apply mp_le; assumption.
  - intros (p & q & B & A & F). exists (mp q), (mp p). rewrite mirror_behind, mirror_ahead. split; [exact A|]. split; [exact B|].
    intros r L1 L2. rewrite <- (mp_pm r) in *. apply H, F; apply mp_le; assumption.
Qed.
Lemma mirror_sewn (e : expr T) b : (forall x, In x (leaves e) -> fresh x) -> (sewn (mirror_expr e) (mc b) <-> sewn e b).
Proof.
  induction e; cbn; intros F; try (rewrite IHe by exact F; tauto); try (rewrite IHe1, IHe2 by (intros; apply F, in_or_app; auto); tauto).
  - apply mirror_seam. apply F. left. reflexivity.
  - apply mirror_around. intros p. rewrite mirror_denotes by exact F. reflexivity.
Qed.

(** ** The mirror image of a valid value is valid *)
Lemma mirror_precedes (u : UpperBound T) (l : LowerBound T) : precedes (mirror_lb l) (mirror_ub u) <-> precedes u l.
Proof. destruct u as [[a|a]], l as [[b|b]]; reflexivity. Qed.
Lemma pairs_app {A : Type} (R : A -> A -> Prop) (l : list A) x : ForallOrdPairs R l -> (forall y, In y l -> R y x) -> ForallOrdPairs R (l ++ [x]).
Proof.
  induction 1 as [|a l F O IH]; intros H; cbn; [repeat constructor|]. constructor.
  - apply Forall_app. split; [exact F|]. constructor; [apply H; left; reflexivity|constructor].
  - apply IH. intros y I. apply H. right. exact I.
Qed.
Lemma mirror_pieces (s : BoundedSet T) : pieces_ok (bs_ranges s) -> pieces_ok (bs_ranges (mirror_bs s)).
Proof.
  intros [R O]. split; cbn [mirror_bs bs_ranges].
  - rewrite Forall_forall in *. intros r I. rewrite <- in_rev in I. apply in_map_iff in I as (q & <- & I).
    intros P. apply (R q I). apply mirror_precedes. exact P.
  - clear R. induction O as [|a l F O IH]; cbn [map rev]; [constructor|]. apply pairs_app; [exact IH|].
    intros y I. rewrite <- in_rev in I. apply in_map_iff in I as (q & <- & I). rewrite Forall_forall in F.
    apply (proj2 (mirror_precedes _ _)). apply F, I.
Qed.
Lemma mirror_valid (v : value T) : valid v -> valid (mirror v).
Proof.
  assert (B : forall (s : BoundedSet T) r, In r (bs_ranges (mirror_bs s)) -> exists q, In q (bs_ranges s) /\ r = mirror_br q).
  { intros s r I. cbn in I. rewrite <- in_rev in I. apply in_map_iff in I as (q & <- & I). eauto. }
  destruct v as [q|q|q|q|q|q|q|q|q|q|q|s|s|s|[|s]]; cbn [mirror valid]; try (intros; exact Logic.I).
  - apply mirror_pieces.
  - intros [P L]. split; [apply mirror_pieces, P|]. intros r I. apply B in I as (q & I & ->). apply (proj2 (mirror_precedes _ _)), L, I.
  - intros [P L]. split; [apply mirror_pieces, P|]. intros r I. apply B in I as (q & I & ->). apply (proj2 (mirror_precedes _ _)), L, I.
  - intros (P & L & M). split; [apply mirror_pieces, P|]. split.
    + intros r I. apply B in I as (q & I & ->). split; apply (proj2 (mirror_precedes _ _)), L, I.
    + apply (proj2 (mirror_precedes _ _)), M.
Qed.
Definition mirror_kind (k : kind) : kind :=
  match k with
  | KRange | KRangeInclusive => KBoundedRange | KRangeFrom | KLowerBoundedRange => KUpperBoundedRange
  | KRangeTo | KRangeToInclusive | KUpperBoundedRange => KLowerBoundedRange
  | KLowerBoundedSet => KUpperBoundedSet | KUpperBoundedSet => KLowerBoundedSet
  | k => k
  end.
Lemma mirror_kind_of (v : value T) : kind_of (mirror v) = mirror_kind (kind_of v).
Proof. destruct v as [q|q|q|q|q|q|q|q|q|q|q|s|s|s|[|s]]; reflexivity. Qed.
Lemma mirror_expr_kind (e : expr T) : expr_kind (mirror_expr e) = mirror_kind (expr_kind e).
Proof.
  induction e; cbn; rewrite ?IHe, ?IHe1, ?IHe2; try apply mirror_kind_of;
    repeat match goal with |- context [expr_kind ?e] => destruct (expr_kind e) end; reflexivity.
Qed.
Lemma mirror_tidy (e : expr T) : tidy e -> no_two_ubs e -> tidy (mirror_expr e).
Proof.
  induction e; cbn; rewrite ?mirror_expr_kind; try tauto.
  - intros [F V] _. split; [|apply mirror_valid, V]. destruct v as [q|q|q|q|q|q|q|q|q|q|q|s|s|s|[|s]]; exact Logic.I.
  - intros (X & Y & _) (X' & Y' & K). split; [auto|]. split; [auto|].
    destruct (expr_kind e1), (expr_kind e2); try reflexivity. exfalso. apply K. auto.
  - intros [X K] L. split; [auto|]. destruct (expr_kind e); try reflexivity; discriminate.
Qed.
Lemma tidy_leaves (e : expr T) : tidy e -> forall x, In x (leaves e) -> fresh x.
Proof.
  induction e; cbn; try tauto; intros H x I.
  - destruct I as [<-|[]]. apply H.
  - apply in_app_or in I as [I|I]; [apply IHe1|apply IHe2]; tauto.
  - apply in_app_or in I as [I|I]; [apply IHe1|apply IHe2]; tauto.
Qed.
Lemma mirrored (e : expr T) : tidy e -> no_two_ubs e -> is_set (expr_kind e) = true ->
  exists v w, eval e = Ret v /\ eval (mirror_expr e) = Ret w /\ value_eqb w (mirror v) = true.
Proof.
  intros Ti N K. destruct (C77_programs T OT OL e Ti) as (v & E & Kv & V & C & Se).
  assert (Fv : fresh v) by (destruct v; try exact Logic.I; rewrite <- Kv in K; discriminate).
  assert (Fe := tidy_leaves e Ti).
  assert (Tm : tidy (EVal (mirror v))).
  { split; [|apply mirror_valid, V]. destruct v as [q|q|q|q|q|q|q|q|q|q|q|s|s|s|[|s]]; exact Logic.I. }
  destruct (C77_equal (reverse T) _ _ (mirror_expr e) (EVal (mirror v)) (mirror_tidy e Ti N) Tm) as [_ H].
  - rewrite mirror_expr_kind. destruct (expr_kind e); try discriminate; reflexivity.
  - cbn. rewrite mirror_expr_kind, mirror_kind_of, Kv. reflexivity.
  - destruct H as (w & x & Ew & Ex & Q).
    + split.
      * intros p. rewrite <- (mp_pm p), mirror_denotes by exact Fe. change (denotes e (pm p) <-> covers (mirror v) (mp (pm p))).
        rewrite mirror_covers by exact Fv. symmetry. apply C.
      * intros b. destruct (mc_onto b) as [a ->]. rewrite mirror_sewn by exact Fe. cbn [sewn]. rewrite mirror_seam by exact Fv. symmetry. apply Se.
    + cbn in Ex. injection Ex as <-. eauto.
Qed.
End Mirror.

(** ** C79 *)
(** Run over [Reverse<T>] on mirrored operands, a program returns a mirrored result, up to [==]. *)
Theorem C79_mirror (T : Type) (OT : Ord T) (OL : OrdLaws T) (e : expr T) :
  tidy e -> no_two_ubs e -> is_set (expr_kind e) = true ->
  exists v w, eval e = Ret v /\ eval (mirror_expr e) = Ret w /\ value_eqb w (mirror v) = true.
Proof. exact (mirrored e). Qed.
Print Assumptions C79_mirror.
(** Mirroring changes no element, and keeps the invariant. *)
Theorem C79_image (T : Type) (OT : Ord T) (OL : OrdLaws T) (v : value T) :
  (fresh v -> forall t, contains (mirror v) (Reverse t) = contains v t) /\ (valid v -> valid (mirror v)).
Proof.
  split; [|exact (mirror_valid v)]. intros F t. apply Bool.eq_iff_eq_true. pose proof (LawsReverse (T := T)) as LR.
  rewrite (contains_mem v t), (contains_mem (mirror v) (Reverse t)).
  rewrite <- (covers_point v t), <- (covers_point (mirror v) (Reverse t)). exact (mirror_covers v (point t) F).
Qed.
Print Assumptions C79_image.
(** Intersecting two [UpperBoundedSet]s is right, but its mirror image is not: [LowerBoundedSet]s lose elements (C02). *)
Theorem C79_refuted :
  exists (e : expr Z) v w, tidy e /\ is_set (expr_kind e) = true /\ eval e = Ret v /\ eval (mirror_expr e) = Ret w /\
    value_eqb w (mirror v) = false.
Proof.
  exists (EInter (EVal (VUBS (UBS (UBR (UB (Excluded 6%Z))) (BS [])))) (EVal (VUBS (UBS (UBR (UB (Excluded 0%Z))) (BS [pc 5 9]))))).
  eexists _, _. split; [|split; [reflexivity|split; [vm_compute; reflexivity|split; vm_compute; reflexivity]]].
  cbn [tidy]. repeat match goal with |- _ /\ _ => split end; try exact Logic.I; try (apply valid_wf; reflexivity); reflexivity.
Qed.
Print Assumptions C79_refuted.
(** [{1..3} | 5..] and its mirror image. *)
Example C79_ex :
  let e' := EUnion (EVal (VBS (BS [pc 1 3]))) (EVal (VRangeFrom (mkRangeFrom 5%Z))) in
  tidy e' /\ no_two_ubs e' /\ is_set (expr_kind e') = true /\
  eval e' = Ret (VLBS (LBS (BS [pc 1 3]) (LBR (LB (Included 5%Z))))) /\
  eval (mirror_expr e') = Ret (VUBS (UBS (UBR (UB (Included (Reverse 5%Z)))) (BS [BR (LB (Excluded (Reverse 3%Z))) (UB (Included (Reverse 1%Z)))]))).
Proof.
  cbn zeta. split; [|split; [cbn; auto|repeat split]].
  cbn [tidy]. repeat match goal with |- _ /\ _ => split end; try exact Logic.I; try (apply valid_wf; reflexivity); reflexivity.
Qed.
