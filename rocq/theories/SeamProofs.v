(** Seams and complements of values in terms of places. *)
From Coq Require Import QArith Lia ZifyBool List.
Import ListNotations.
From Verif Require Import Base ModelBound ModelRanges ModelSets ModelAlgebra ModelValue ModelEq Spec SpecBounds SpecMap SpecFill SpecSeam
  Order Cuts SetProofs AlgebraProofs ValueProofs Laws Laws2 Canon Instances NaturalProofs JointProofs CongProofs FillProofs.
Open Scope bool_scope.

Lemma existsb_map {A B : Type} (f : A -> B) (g : B -> bool) (l : list A) : existsb g (map f l) = existsb (fun x => g (f x)) l.
Proof. induction l as [|x l IH]; cbn; [reflexivity|]. rewrite IH. reflexivity. Qed.
Lemma in_parts {U : Type} {OU : Ord U} (v : value U) (p : place U) : v_in v p = existsb (fun r => v_in r p) (parts v).
Proof.
  destruct v as [r|r|r|r|r|r|r|r|r|r|r|s|s|s|[|s]]; cbn [parts existsb]; rewrite ?existsb_app; cbn [existsb]; rewrite ?existsb_map, ?orb_false_r;
    try reflexivity; unfold v_in; cbn [to_inner i_in us_in]; unfold lbs_in, ubs_in, pus_in, bs_in, bl_in.
  - apply orb_comm.
  - rewrite <- orb_assoc. f_equal. apply orb_comm.
Qed.
Lemma map_parts {T U : Type} (f : T -> U) (v : value T) : parts (map_value f v) = map (map_value f) (parts v).
Proof.
  destruct v as [r|r|r|r|r|r|r|r|r|r|r|s|s|s|[|s]]; cbn [map_value map_us parts map]; try reflexivity;
    cbn [map_bs bs_ranges map_lbs lbs_ranges lbs_lbr map_ubs ubs_ranges ubs_ubr map_pus pus_ranges pus_lbr pus_ubr];
    rewrite ?map_app, !map_map; reflexivity.
Qed.

Section SeamFacts.
Context {T : Type} {OT : Ord T} {OL : OrdLaws T}.

(** ** Cuts among the points *)
Definition fcut (c : cut T) : cut (filled T) := (point (fst c), snd c).
(** The points next to a cut. *)
Definition ap (c : cut T) : filled T := (fst c, if snd c then 1%Q else 0%Q).
Definition bp (c : cut T) : filled T := (fst c, if snd c then 0%Q else (-1 # 1)%Q).
Definition bcut (b : Bound T) : cut T := lcut (LB b).

Lemma fcut_lb s : lcut (map_lb point s) = fcut (lcut s).
Proof. destruct s as [[a|a]]; reflexivity. Qed.
Lemma fcut_ub s : ucut (map_ub point s) = fcut (ucut s).
Proof. destruct s as [[a|a]]; reflexivity. Qed.
Lemma ahead_cut b p : ahead b p <-> cle (fcut (bcut b)) (pt p) = true.
Proof.
  destruct b as [t|t]; unfold ahead, le, lt, cle, fcut, bcut, pt; cbn [lcut lb_bound fst snd];
    destruct (cmp (point t) p); cbn [implb]; split; congruence.
Qed.
Lemma behind_cut b p : behind b p <-> cle (fcut (bcut b)) (pt p) = false.
Proof.
  destruct b as [t|t]; unfold behind, le, lt, cle, fcut, bcut, pt; cbn [lcut lb_bound fst snd]; rewrite (cmp_opp (point t) p);
    destruct (cmp (point t) p); cbn [implb CompOpp]; split; congruence.
Qed.
Lemma cle_ap c d : cle (fcut c) (pt (ap d)) = cle c d.
Proof. destruct c as [a []], d as [b []]; unfold cle; cbn; destruct (cmp a b); reflexivity. Qed.
Lemma cle_bp c d : cle (fcut c) (pt (bp d)) = clt c d.
Proof.
  destruct c as [a []], d as [b []]; unfold clt, cle; cbn; rewrite (cmp_opp a b); destruct (cmp a b); reflexivity.
Qed.
Lemma cle_fcut c d : cle (fcut c) (fcut d) = cle c d.
Proof. unfold cle, fcut. cbn [fst snd]. rewrite (proj1 (keeps_point (fst c) (fst d))). reflexivity. Qed.

(** ** Values *)
Definition fin (v : value T) (p : filled T) : bool := v_in (map_value point v) (at_elt p).
Lemma covers_fin (v : value T) p : fresh v -> (covers v p <-> fin v p = true).
Proof.
  intros F. unfold covers, fin. rewrite <- contains_mem, contains_v_in by (apply map_fresh, F). reflexivity.
Qed.
Lemma fin_parts v p : fin v p = existsb (fun r => fin r p) (parts v).
Proof. unfold fin. rewrite in_parts, map_parts, existsb_map. reflexivity. Qed.
Lemma parts_fresh (v r : value T) : fresh v -> In r (parts v) -> fresh r.
Proof.
  destruct v as [r0|r0|r0|r0|r0|r0|r0|r0|r0|r0|r0|s|s|s|[|s]]; cbn [parts]; intros F H;
    repeat match type of H with
    | In _ (map _ _) => apply in_map_iff in H as (x & <- & _)
    | In _ (_ ++ _) => apply in_app_or in H as [H|H]
    | In _ (_ :: _) => destruct H as [<-|H]
    | In _ [] => destruct H
    end; exact I || exact F.
Qed.
Definition is_part (v : value T) : Prop := is_set (kind_of v) = false.
Lemma parts_part (v r : value T) : In r (parts v) -> is_part r.
Proof.
  destruct v as [r0|r0|r0|r0|r0|r0|r0|r0|r0|r0|r0|s|s|s|[|s]]; cbn [parts]; intros H;
    repeat match type of H with
    | In _ (map _ _) => apply in_map_iff in H as (x & <- & _)
    | In _ (_ ++ _) => apply in_app_or in H as [H|H]
    | In _ (_ :: _) => destruct H as [<-|H]
    | In _ [] => destruct H
    end; reflexivity.
Qed.
(** The ends of a part. *)
Definition lo (v : value T) : option (cut T) :=
  match to_inner v with IBR r => Some (lcut (br_start r)) | ILBR r => Some (lcut (lbr_start r)) | _ => None end.
Definition hi (v : value T) : option (cut T) :=
  match to_inner v with IBR r => Some (ucut (br_end r)) | IUBR r => Some (ucut (ubr_end r)) | _ => None end.
Definition nothing (v : value T) : bool := match v with VEmpty _ => true | _ => false end.
Lemma part_in v p : is_part v -> v_in v p =
  negb (nothing v) && match lo v with Some s => pabove s p | None => true end && match hi v with Some e => pbelow e p | None => true end.
Proof.
  destruct v as [r|r|r|r|r|r|r|r|r|r|r|s|s|s|s]; intros H; try discriminate H; unfold v_in, lo, hi; cbn; rewrite ?andb_true_r; reflexivity.
Qed.
Lemma part_fin v p : is_part v -> fin v p =
  negb (nothing v) && match lo v with Some s => cle (fcut s) (pt p) | None => true end
  && match hi v with Some e => negb (cle (fcut e) (pt p)) | None => true end.
Proof.
  destruct v as [r|r|r|r|r|r|r|r|r|r|r|s|s|s|s]; intros H; try discriminate H; unfold fin, v_in, lo, hi;
    cbn [map_value to_inner i_in nothing negb andb];
    unfold br_in, lbr_in, ubr_in, pabove, pbelow, at_elt, clt; cbn [fst snd]; rewrite ?andb_true_r; try reflexivity;
    rewrite <- ?fcut_lb, <- ?fcut_ub; try reflexivity.
Qed.
Lemma part_seam (v : value T) b : is_part v -> fresh v ->
  ((exists p q, covers v p /\ behind b p /\ covers v q /\ ahead b q) <-> v_in v (bcut b, false) = true).
Proof.
  intros Pv F. rewrite (part_in _ _ Pv). split.
  - intros (p & q & Hp & Bp & Hq & Aq). apply (covers_fin _ _ F) in Hp, Hq. apply behind_cut in Bp. apply ahead_cut in Aq.
    rewrite (part_fin _ p Pv) in Hp. rewrite (part_fin _ q Pv) in Hq. destruct (nothing v); [discriminate Hp|].
    destruct (lo v) as [s|], (hi v) as [e|]; unfold pabove, pbelow; cbn [fst snd negb andb] in *; unfold clt;
      rewrite <- ?cle_fcut; clear - OL Bp Aq Hp Hq; crank.
  - intros H. exists (bp (bcut b)), (ap (bcut b)). rewrite !(covers_fin _ _ F), behind_cut, ahead_cut, !(part_fin _ _ Pv).
    destruct (nothing v); [discriminate H|].
    destruct (lo v) as [s|], (hi v) as [e|]; unfold pabove, pbelow in H; cbn [fst snd negb andb] in *;
      rewrite ?cle_ap, ?cle_bp; clear - OL H; repeat split; crank.
Qed.
Lemma seam_in (v : value T) b : fresh v -> (seam v b <-> v_in v (bcut b, false) = true).
Proof.
  intros F. rewrite in_parts, existsb_exists. split.
  - intros (r & p & q & Hr & H). exists r. split; [exact Hr|]. apply part_seam; [eapply parts_part, Hr|eapply parts_fresh; eauto|].
    exists p, q. exact H.
  - intros (r & Hr & H). apply part_seam in H as (p & q & H); [|eapply parts_part, Hr|eapply parts_fresh; eauto].
    exists r, p, q. auto.
Qed.
Lemma fin_ap v c : fin v (ap c) = v_in v (c, true).
Proof.
  rewrite fin_parts, in_parts. pose proof (parts_part v) as P. induction (parts v) as [|r l IH]; [reflexivity|]. cbn [existsb].
  rewrite IH by (intros x Hx; apply P; right; exact Hx). f_equal. rewrite part_fin, part_in by (apply P; left; reflexivity).
  unfold pabove, pbelow. destruct (lo r), (hi r); cbn [fst snd]; rewrite ?cle_ap; reflexivity.
Qed.
(** A value does not change between a cut and the points next to it. *)
Lemma fin_behind v c p : cle (fcut c) (pt p) = false -> cle (pt (bp c)) (pt p) = true -> fin v p = fin v (bp c).
Proof.
  intros B L. rewrite !(fin_parts v). pose proof (parts_part v) as P. induction (parts v) as [|r l IH]; [reflexivity|]. cbn [existsb].
  rewrite IH by (intros x Hx; apply P; right; exact Hx). f_equal. rewrite !part_fin by (apply P; left; reflexivity).
  assert (E : forall s, cle (fcut s) (pt p) = cle (fcut s) (pt (bp c))).
  { intros s. pose proof (cle_bp s c) as H. unfold clt in H. rewrite <- cle_fcut in H. clear - OL B L H. crank. }
  destruct (lo r), (hi r); rewrite ?E; reflexivity.
Qed.
Lemma fin_ahead v c p : cle (fcut c) (pt p) = true -> cle (pt p) (pt (ap c)) = true -> fin v p = fin v (ap c).
Proof.
  intros B L. rewrite !(fin_parts v). pose proof (parts_part v) as P. induction (parts v) as [|r l IH]; [reflexivity|]. cbn [existsb].
  rewrite IH by (intros x Hx; apply P; right; exact Hx). f_equal. rewrite !part_fin by (apply P; left; reflexivity).
  assert (E : forall s, cle (fcut s) (pt p) = cle (fcut s) (pt (ap c))).
  { intros s. pose proof (cle_ap s c) as H. rewrite <- cle_fcut in H. clear - OL B L H. crank. }
  destruct (lo r), (hi r); rewrite ?E; reflexivity.
Qed.
Lemma le_pt (p q : filled T) : le p q <-> cle (pt p) (pt q) = true.
Proof. unfold le, cle, pt. cbn [fst snd implb]. destruct (cmp p q); split; congruence. Qed.
Lemma around_fin v b (P : filled T -> Prop) (f : bool -> bool) :
  (forall p, P p <-> f (fin v p) = true) ->
  (around b P <-> f (fin v (bp (bcut b))) = true /\ f (fin v (ap (bcut b))) = true).
Proof.
  intros H. set (c := bcut b). assert (Hb : cle (fcut c) (pt (bp c)) = false) by (rewrite cle_bp; clear - OL; crank).
  assert (Ha : cle (fcut c) (pt (ap c)) = true) by (rewrite cle_ap; clear - OL; crank). split.
  - intros (p & q & Bp & Aq & G). apply behind_cut in Bp. apply ahead_cut in Aq. fold c in Bp, Aq.
    assert (Lpq : cle (pt p) (pt q) = true) by (clear - OL Bp Aq; crank). split.
    + destruct (cle (pt (bp c)) (pt p)) eqn:E.
      * rewrite <- (fin_behind v c p Bp E). apply H, G; apply le_pt; [clear - OL; crank|exact Lpq].
      * apply H, G; apply le_pt; [clear - OL E; crank|clear - OL Hb Aq; crank].
    + destruct (cle (pt q) (pt (ap c))) eqn:E.
      * rewrite <- (fin_ahead v c q Aq E). apply H, G; apply le_pt; [exact Lpq|clear - OL; crank].
      * apply H, G; apply le_pt; [clear - OL Bp Ha; crank|clear - OL E; crank].
  - intros (G1 & G2). exists (bp c), (ap c). split; [apply behind_cut, Hb|]. split; [apply ahead_cut, Ha|].
    intros r L1 L2. apply le_pt in L1, L2. apply H. destruct (cle (fcut c) (pt r)) eqn:E.
    + rewrite (fin_ahead v c r E L2). exact G2.
    + rewrite (fin_behind v c r E L1). exact G1.
Qed.

(** ** Complement *)
Definition part_out (v : value T) (p : place T) : bool :=
  nothing v || match lo v with Some s => pbelow s p | None => false end || match hi v with Some e => pabove e p | None => false end.
Definition roomy (v : value T) : Prop :=
  match lo v, hi v with Some s, Some e => clt s e = true | _, _ => True end.
Lemma part_out_sides v c : is_part v -> roomy v -> part_out v (c, false) = negb (fin v (bp c)) && negb (fin v (ap c)).
Proof.
  intros Pv R. rewrite !(part_fin v _ Pv). unfold part_out, roomy in *. destruct (nothing v); [reflexivity|].
  destruct (lo v) as [s|], (hi v) as [e|]; unfold pabove, pbelow; cbn [fst snd negb andb orb]; rewrite ?cle_ap, ?cle_bp; clear - OL R; crank.
Qed.
Lemma parts_roomy (v : value T) : bounded_range (kind_of v) = false -> wf_v v = true -> forall r, In r (parts v) -> roomy r.
Proof.
  assert (G : forall l, wfl l = true -> forall r, In r (map VBR l) -> roomy r).
  { induction l as [|x l IH]; cbn [wfl map]; intros W r H; [destruct H|]. apply andb_prop in W as [W W2]. apply andb_prop in W as [W1 _].
    destruct H as [<-|H]; [|exact (IH W2 r H)]. unfold roomy, lo, hi. cbn. unfold room in W1. exact W1. }
  destruct v as [x|x|x|x|x|x|x|x|x|x|x|s|s|s|[|s]]; cbn [kind_of bounded_range wf_v parts wf_us]; intros B W r H; try discriminate B;
    try (destruct H as [<-|[]]; exact I).
  - exact (G _ W r H).
  - apply andb_prop in W as [W _]. apply in_app_or in H as [H|[<-|[]]]; [exact (G _ W r H)|exact I].
  - apply andb_prop in W as [W _]. destruct H as [<-|H]; [exact I|exact (G _ W r H)].
  - apply andb_prop in W as [W _]. apply andb_prop in W as [W _]. destruct H as [<-|H]; [exact I|].
    apply in_app_or in H as [H|[<-|[]]]; [exact (G _ W r H)|exact I].
Qed.
Lemma forallb_map_of {A B : Type} (f : A -> B) (g : B -> bool) l : forallb g (map f l) = forallb (fun x => g (f x)) l.
Proof. induction l as [|x l IH]; cbn; [reflexivity|]. rewrite IH. reflexivity. Qed.
Lemma bl_out_parts l p : forallb (fun r => part_out r p) (map VBR l) = bl_out l p.
Proof. rewrite forallb_map_of. unfold bl_out. induction l as [|r l IH]; [reflexivity|]. cbn [forallb]. rewrite IH. reflexivity. Qed.
Lemma complement_places (v : value T) : exists r, complement v = Ret r /\ forall p, v_in r p = forallb (fun x => part_out x p) (parts v).
Proof.
  destruct v as [r|r|r|r|r|r|r|r|r|r|r|s|s|s|s]; cbn [complement]; unfold ret_bs, ret_lbs, ret_ubs, ret_us.
  - destruct (br_complement_ok (br_from_range r)) as (c & E & H & W). eexists.
    split; [rewrite E; reflexivity|]. intros p. unfold v_in. cbn [to_inner i_in]. rewrite H. cbn. rewrite andb_true_r. reflexivity.
  - destruct (br_complement_ok (br_from_range_inclusive r)) as (c & E & H & W). eexists.
    split; [rewrite E; reflexivity|]. intros p. unfold v_in. cbn [to_inner i_in]. rewrite H. cbn. rewrite andb_true_r. reflexivity.
  - eexists. split; [reflexivity|]. intros p. unfold v_in. cbn [to_inner i_in]. rewrite lbr_complement_in.
    cbn. unfold part_out, lo, hi. cbn. rewrite orb_false_r, andb_true_r. reflexivity.
  - eexists. split; [reflexivity|]. intros p. unfold v_in. cbn [to_inner i_in]. rewrite ubr_complement_in.
    cbn. unfold part_out, lo, hi. cbn. rewrite andb_true_r. reflexivity.
  - eexists. split; [reflexivity|]. intros p. unfold v_in. cbn [to_inner i_in]. rewrite ubr_complement_in.
    cbn. unfold part_out, lo, hi. cbn. rewrite andb_true_r. reflexivity.
  - eexists. split; reflexivity.
  - destruct (br_complement_ok r) as (c & E & H & W). eexists.
    split; [rewrite E; reflexivity|]. intros p. unfold v_in. cbn [to_inner i_in]. rewrite H. cbn. rewrite andb_true_r. reflexivity.
  - eexists. split; [reflexivity|]. intros p. unfold v_in. cbn [to_inner i_in]. rewrite lbr_complement_in.
    cbn. unfold part_out, lo, hi. cbn. rewrite orb_false_r, andb_true_r. reflexivity.
  - eexists. split; [reflexivity|]. intros p. unfold v_in. cbn [to_inner i_in]. rewrite ubr_complement_in.
    cbn. unfold part_out, lo, hi. cbn. rewrite andb_true_r. reflexivity.
  - eexists. split; reflexivity.
  - eexists. split; reflexivity.
  - destruct (bs_complement_ok s) as (c & E & H & W). eexists.
    split; [rewrite E; reflexivity|]. intros p. unfold v_in. cbn [to_inner i_in parts]. rewrite H, bl_out_parts. reflexivity.
  - destruct (lbs_complement_ok s) as (c & E & H & W). eexists.
    split; [rewrite E; reflexivity|]. intros p. unfold v_in. cbn [to_inner i_in parts]. rewrite H, forallb_app, bl_out_parts, andb_comm.
    f_equal. cbn. unfold part_out, lo, hi. cbn. rewrite orb_false_r, andb_true_r. reflexivity.
  - destruct (ubs_complement_ok s) as (c & E & H & W). eexists.
    split; [rewrite E; reflexivity|]. intros p. unfold v_in. cbn [to_inner i_in parts forallb]. rewrite H, bl_out_parts. reflexivity.
  - destruct (us_complement_ok s) as (c & E & H & W). eexists.
    split; [rewrite E; reflexivity|]. intros p. unfold v_in. cbn [to_inner i_in]. rewrite H. destruct s as [|x]; [reflexivity|].
    cbn [us_out parts forallb]. rewrite forallb_app, bl_out_parts. cbn [forallb]. unfold part_out, lo, hi. cbn.
    rewrite orb_false_r, andb_true_r. unfold lbr_out, ubr_out.
    destruct (pbelow _ p), (pabove _ p), (bl_out _ p); reflexivity.
Qed.
Lemma complement_seam (v r : value T) c : bounded_range (kind_of v) = false -> wf_v v = true -> complement v = Ret r ->
  v_in r (c, false) = negb (fin v (bp c)) && negb (fin v (ap c)).
Proof.
  intros B W E. destruct (complement_places v) as (r' & E' & H). rewrite E in E'. injection E' as <-. rewrite H, !(fin_parts v). clear H.
  pose proof (parts_roomy v B W) as R. pose proof (parts_part v) as P. induction (parts v) as [|x l IH]; [reflexivity|]. cbn [forallb existsb].
  rewrite IH by (intros y Hy; first [apply R; right; exact Hy | apply P; right; exact Hy]).
  rewrite part_out_sides by first [apply R; left; reflexivity | apply P; left; reflexivity]. rewrite !negb_orb.
  destruct (fin x (bp c)), (fin x (ap c)); cbn [negb andb]; try reflexivity. rewrite andb_false_r. reflexivity.
Qed.

(** ** Programs *)
Lemma tidy_good (e : expr T) : tidy e -> good_expr e.
Proof. induction e; cbn [tidy good_expr]; tauto. Qed.
Lemma tidy_ok (e : expr T) : tidy e ->
  exists v, eval e = Ret v /\ fresh v /\ wf_v v = true /\ kind_of v = expr_kind e
    /\ (forall p, fin v p = true <-> denotes e p) /\ (forall b, v_in v (bcut b, false) = true <-> sewn e b).
Proof.
  intros Te. pose proof (eval_filled e (tidy_good e Te)) as (v0 & E0 & C0).
  enough (G : exists v, eval e = Ret v /\ fresh v /\ wf_v v = true /\ kind_of v = expr_kind e
    /\ (forall b, v_in v (bcut b, false) = true <-> sewn e b)).
  { destruct G as (v & E & F & W & K & S). rewrite E in E0. injection E0 as <-. exists v. do 4 (split; [assumption|]). split; [|exact S].
    intros p. rewrite <- C0. symmetry. apply covers_fin, F. }
  clear v0 E0 C0. induction e as [v|a IHa b IHb|a IHa b IHb|a IHa|a IHa|a IHa]; cbn [tidy sewn eval expr_kind] in *.
  - exists v. destruct Te as [F V]. split; [reflexivity|]. split; [exact F|]. split; [apply valid_wf, V|]. split; [reflexivity|].
    intros b. symmetry. apply (seam_in v b F).
  - destruct Te as [Ta Tb]. destruct (IHa Ta) as (x & -> & Fx & Wx & Kx & Hx). destruct (IHb Tb) as (y & -> & Fy & Wy & Ky & Hy).
    cbn [bind]. destruct (union_ok_all x y) as (r & E & H & W & F & K). exists r. split; [exact E|]. split; [exact (F Fx Fy)|].
    split; [exact (W Wx Wy)|]. split; [congruence|]. intros c. rewrite H, orb_true_iff, Hx, Hy. reflexivity.
  - destruct Te as (Ta & Tb & N). destruct (IHa Ta) as (x & -> & Fx & Wx & Kx & Hx). destruct (IHb Tb) as (y & -> & Fy & Wy & Ky & Hy).
    cbn [bind]. destruct (intersection_ok x y) as (r & E & H & W & F & K). exists r. split; [exact E|]. split; [exact F|].
    split; [exact (W Wx Wy)|]. split; [congruence|]. intros c. rewrite H by congruence. rewrite andb_true_iff, Hx, Hy. reflexivity.
  - destruct Te as [Ta N]. destruct (IHa Ta) as (x & Ex & Fx & Wx & Kx & Hx). rewrite Ex. cbn [bind].
    destruct (complement_ok x) as (r & E & _ & W & F & K). exists r. split; [exact E|]. split; [exact F|]. split; [exact W|].
    split; [congruence|]. intros c. rewrite (complement_seam x r _ (eq_trans (f_equal bounded_range Kx) N) Wx E).
    rewrite (around_fin x c _ negb), andb_true_iff; [reflexivity|].
    intros p. destruct (eval_filled a (tidy_good a Ta)) as (x' & Ex' & C). rewrite Ex in Ex'. injection Ex' as <-.
    rewrite <- C, (covers_fin x p Fx). destruct (fin x p); cbn; split; congruence.
  - destruct (IHa Te) as (x & -> & Fx & Wx & Kx & Hx). eexists. split; [reflexivity|]. split; [destruct x; try exact I; exact Fx|].
    split; [rewrite wf_inner; exact Wx|]. split; [rewrite kind_inner; congruence|]. intros c. rewrite v_in_inner. apply Hx.
  - destruct (IHa Te) as (x & -> & Fx & Wx & Kx & Hx). eexists. split; [reflexivity|]. split; [destruct x; exact I|].
    split; [apply wf_set, Wx|]. split; [rewrite kind_set; congruence|]. intros c. pose proof (s_in_set x (bcut c, false)) as Q. unfold s_in in Q.
    rewrite Q. apply Hx.
Qed.
Definition bound_of (c : cut T) : Bound T := if snd c then Excluded (fst c) else Included (fst c).
Lemma bcut_of c : bcut (bound_of c) = c.
Proof. destruct c as [t []]; reflexivity. Qed.
Lemma value_eqb_in (x y : value T) p : is_set (kind_of x) = true -> value_eqb x y = true -> v_in x p = v_in y p.
Proof.
  destruct x as [r|r|r|r|r|r|r|r|r|r|r|s|s|s|[|s]], y as [r'|r'|r'|r'|r'|r'|r'|r'|r'|r'|r'|s'|s'|s'|[|s']]; intros S E; try discriminate S; try discriminate E;
    unfold v_in; cbn [to_inner i_in us_in] in *; cbn in E; unfold lbs_eqb, ubs_eqb, pus_eqb in E; unfold lbs_in, ubs_in, pus_in; try reflexivity;
    repeat match goal with
    | H : _ && _ = true |- _ => apply andb_prop in H as [? ?]
    | H : bs_eqb _ _ = true |- _ => rewrite (bs_eqb_in _ _ p H); clear H
    | H : lbr_eqb _ _ = true |- _ => rewrite (lbr_eqb_in _ _ p H); clear H
    | H : ubr_eqb _ _ = true |- _ => rewrite (ubr_eqb_in _ _ p H); clear H
    end; reflexivity.
Qed.
Lemma tidy_equal (e1 e2 : expr T) : tidy e1 -> tidy e2 -> is_set (expr_kind e1) = true -> expr_kind e1 = expr_kind e2 ->
  (ret_eq (eval e1) (eval e2) <-> (forall p, denotes e1 p <-> denotes e2 p) /\ (forall b, sewn e1 b <-> sewn e2 b)).
Proof.
  intros T1 T2 S K. destruct (tidy_ok e1 T1) as (x & -> & Fx & Wx & Kx & Cx & Sx). destruct (tidy_ok e2 T2) as (y & -> & Fy & Wy & Ky & Cy & Sy).
  unfold ret_eq. split.
  - intros (x' & y' & Ex & Ey & Q). injection Ex as <-. injection Ey as <-. split.
    + intros p. rewrite <- Cx, <- Cy. unfold fin. rewrite <- !contains_v_in by (apply map_fresh; assumption).
      rewrite (value_eqb_contains _ (map_value point y) p); [reflexivity|]. rewrite (n_eqb point keeps_point). exact Q.
    + intros b. rewrite <- Sx, <- Sy. assert (P : v_in x (bcut b, false) = v_in y (bcut b, false)); [|rewrite P; reflexivity].
      rewrite <- Kx in S. rewrite <- Kx, <- Ky in K. apply value_eqb_in; assumption.
  - intros [C D]. exists x, y. split; [reflexivity|]. split; [reflexivity|]. apply canon_value; try congruence.
    intros [c []].
    + rewrite <- !fin_ap. apply Bool.eq_iff_eq_true. rewrite Cx, Cy. apply C.
    + rewrite <- (bcut_of c). apply Bool.eq_iff_eq_true. rewrite Sx, Sy. apply D.
Qed.

Lemma seam_sides (v : value T) c : v_in v (c, false) = true -> fin v (bp c) = true /\ fin v (ap c) = true.
Proof.
  rewrite in_parts, !(fin_parts v), !existsb_exists. intros (r & Hr & E). pose proof (parts_part v r Hr) as P.
  assert (G : fin r (bp c) = true /\ fin r (ap c) = true); [|split; exists r; tauto].
  rewrite (part_in r _ P) in E. rewrite !(part_fin r _ P). destruct (nothing r); [discriminate E|]. unfold pabove, pbelow in E. cbn [fst snd negb andb] in *.
  destruct (lo r), (hi r); rewrite ?cle_bp, ?cle_ap; clear - OL E; split; crank.
Qed.

(** ** Joints *)
Definition before (x y : value T) : Prop := match hi x, lo y with Some e, Some s => cle e s = true | _, _ => False end.
Lemma parts_ordered (v : value T) : wf_v v = true -> ForallOrdPairs before (parts v).
Proof.
  assert (G : forall l tl, wfl l = true -> (forall x, In x l -> Forall (before (VBR x)) tl) -> ForallOrdPairs before tl ->
    ForallOrdPairs before (map VBR l ++ tl)).
  { induction l as [|x l IH]; cbn [wfl map app]; intros tl W Ht Hl; [exact Hl|]. apply andb_prop in W as [W W2]. apply andb_prop in W as [_ W1].
    rewrite forallb_forall in W1. constructor.
    - apply Forall_app. split; [|apply Ht; left; reflexivity]. apply Forall_forall. intros y Hy. apply in_map_iff in Hy as (z & <- & Hz). exact (W1 z Hz).
    - apply IH; [exact W2| |exact Hl]. intros y Hy. apply Ht. right. exact Hy. }
  assert (One : forall x : value T, ForallOrdPairs before [x]) by (intros x; repeat constructor).
  destruct v as [x|x|x|x|x|x|x|x|x|x|x|s|s|s|[|s]]; cbn [wf_v parts wf_us]; intros W; try apply One.
  - rewrite <- (app_nil_r (map _ _)). apply G; [exact W| |]; intros; constructor.
  - apply andb_prop in W as [W W2]. rewrite forallb_forall in W2. apply G; [exact W| |apply One]. intros x Hx. constructor; [exact (W2 x Hx)|constructor].
  - apply andb_prop in W as [W W2]. rewrite forallb_forall in W2. constructor.
    + apply Forall_forall. intros y Hy. apply in_map_iff in Hy as (z & <- & Hz). exact (W2 z Hz).
    + rewrite <- (app_nil_r (map _ _)). apply G; [exact W| |]; intros; constructor.
  - apply andb_prop in W as [W W3]. apply andb_prop in W as [W W2]. rewrite forallb_forall in W2. constructor.
    + apply Forall_app. split; [|constructor; [exact W3|constructor]]. apply Forall_forall. intros y Hy. apply in_map_iff in Hy as (z & <- & Hz).
      specialize (W2 z Hz). apply andb_prop in W2 as [W2 _]. exact W2.
    + apply G; [exact W| |apply One]. intros x Hx. constructor; [|constructor]. specialize (W2 x Hx). apply andb_prop in W2 as [_ W2]. exact W2.
Qed.
Lemma highs_parts (v : value T) e : is_set (kind_of v) = true ->
  ((exists u, In u (highs v) /\ ucut u = e) <-> (exists r, In r (parts v) /\ hi r = Some e)).
Proof.
  destruct v as [x|x|x|x|x|x|x|x|x|x|x|s|s|s|[|s]]; intros S; try discriminate S; cbn [highs parts]; split.
  all: intros (u & H & E); repeat match type of H with
    | In _ (map _ _) => apply in_map_iff in H as (x & <- & H)
    | In _ (_ ++ _) => apply in_app_or in H as [H|H]
    | In _ (_ :: _) => destruct H as [<-|H]
    | In _ [] => destruct H
    end; cbn in E; try discriminate E.
  all: try (injection E as E).
  all: first [ exists (VBR x); split; [|cbn; congruence] | exists (br_end x); split; [|exact E] | exists (VUBR (ubs_ubr s)); split; [|cbn; congruence]
    | exists (VUBR (pus_ubr s)); split; [|cbn; congruence] | exists (ubr_end (ubs_ubr s)); split; [|exact E] | exists (ubr_end (pus_ubr s)); split; [|exact E] ].
  all: cbn [In]; rewrite ?in_app_iff; auto using in_map.
Qed.
Lemma lows_parts (v : value T) e : is_set (kind_of v) = true ->
  ((exists u, In u (lows v) /\ lcut u = e) <-> (exists r, In r (parts v) /\ lo r = Some e)).
Proof.
  destruct v as [x|x|x|x|x|x|x|x|x|x|x|s|s|s|[|s]]; intros S; try discriminate S; cbn [lows parts]; split.
  all: intros (u & H & E); repeat match type of H with
    | In _ (map _ _) => apply in_map_iff in H as (x & <- & H)
    | In _ (_ ++ _) => apply in_app_or in H as [H|H]
    | In _ (_ :: _) => destruct H as [<-|H]
    | In _ [] => destruct H
    end; cbn in E; try discriminate E.
  all: try (injection E as E).
  all: first [ exists (VBR x); split; [|cbn; congruence] | exists (br_start x); split; [|exact E] | exists (VLBR (lbs_lbr s)); split; [|cbn; congruence]
    | exists (VLBR (pus_lbr s)); split; [|cbn; congruence] | exists (lbr_start (lbs_lbr s)); split; [|exact E] | exists (lbr_start (pus_lbr s)); split; [|exact E] ].
  all: cbn [In]; rewrite ?in_app_iff; cbn [In]; auto using in_map.
Qed.
Lemma joined_sides (v : value T) b : is_set (kind_of v) = true -> wf_v v = true ->
  (joined v b <-> fin v (bp (bcut b)) = true /\ fin v (ap (bcut b)) = true /\ v_in v (bcut b, false) = false).
Proof.
  intros S W. set (c := bcut b).
  assert (B : bounded_range (kind_of v) = false) by (destruct (kind_of v); reflexivity || discriminate S).
  pose proof (parts_roomy v B W) as R. pose proof (parts_part v) as P. pose proof (parts_ordered v W) as O1.
  assert (NN : forall r, In r (parts v) -> nothing r = false).
  { intros r Hr. destruct v as [x|x|x|x|x|x|x|x|x|x|x|s|s|s|[|s]]; try discriminate S; cbn [parts] in Hr;
    repeat match type of Hr with
    | In _ (map _ _) => apply in_map_iff in Hr as (x & <- & _)
    | In _ (_ ++ _) => apply in_app_or in Hr as [Hr|Hr]
    | In _ (_ :: _) => destruct Hr as [<-|Hr]
    | In _ [] => destruct Hr
    end; reflexivity. }
  rewrite !(fin_parts v), !existsb_exists. split.
  - intros (u & l & Hu & Hl & T1 & T2). apply touches_ceq in T1, T2. change (lcut (LB b)) with c in T2.
    destruct (proj1 (highs_parts v (ucut u) S)) as (x & Hx & Ex); [eauto|]. destruct (proj1 (lows_parts v (lcut l) S)) as (y & Hy & Ey); [eauto|].
    unfold ceq in T1, T2. split; [|split].
    + exists x. split; [exact Hx|]. pose proof (R x Hx) as Rx. unfold roomy in Rx. rewrite (part_fin _ _ (P x Hx)), (NN x Hx). rewrite Ex in *.
      destruct (lo x); cbn [negb andb]; rewrite ?cle_bp; clear - OL T1 T2 Rx; crank.
    + exists y. split; [exact Hy|]. pose proof (R y Hy) as Ry. unfold roomy in Ry. rewrite (part_fin _ _ (P y Hy)), (NN y Hy). rewrite Ey in *.
      destruct (hi y); cbn [negb andb]; rewrite ?cle_ap; clear - OL T1 T2 Ry; crank.
    + rewrite in_parts. destruct (existsb _ _) eqn:E; [|reflexivity]. exfalso. apply existsb_exists in E as (z & Hz & E).
      rewrite (part_in _ _ (P z Hz)), (NN z Hz) in E. unfold pabove, pbelow in E. cbn [fst snd negb andb] in E.
      pose proof (R x Hx) as Rx. unfold roomy in Rx. rewrite Ex in Rx.
      destruct (ForallOrdPairs_In O1 z x Hz Hx) as [->|[Q|Q]]; unfold before in *.
      * rewrite Ex in E. destruct (lo x); clear - OL T1 T2 E; crank.
      * destruct (hi z) as [e|]; [|destruct Q]. destruct (lo x) as [s|]; [|destruct Q]. destruct (lo z); clear - OL T1 T2 E Q Rx; crank.
      * rewrite Ex in Q. destruct (lo z) as [s|]; [|destruct Q]. destruct (hi z); clear - OL T1 T2 E Q; crank.
  - intros ((x & Hx & Fx) & (y & Hy & Fy) & N). rewrite in_parts in N.
    assert (N' : forall z, In z (parts v) -> v_in z (c, false) = false).
    { intros z Hz. destruct (v_in z (c, false)) eqn:E; [|reflexivity]. rewrite <- N. symmetry. apply existsb_exists. eauto. }
    pose proof (N' x Hx) as Nx. pose proof (N' y Hy) as Ny. rewrite (part_in _ _ (P x Hx)), (NN x Hx) in Nx. rewrite (part_in _ _ (P y Hy)), (NN y Hy) in Ny.
    rewrite (part_fin _ _ (P x Hx)), (NN x Hx) in Fx. rewrite (part_fin _ _ (P y Hy)), (NN y Hy) in Fy. unfold pabove, pbelow in *.
    cbn [fst snd negb andb] in *.
    destruct (hi x) as [e|] eqn:Ex; [|exfalso; destruct (lo x); rewrite ?cle_bp in Fx; clear - OL Fx Nx; revert Fx Nx; try discriminate; crank].
    destruct (lo y) as [s|] eqn:Ey; [|exfalso; destruct (hi y); rewrite ?cle_ap in Fy; clear - OL Fy Ny; revert Fy Ny; try discriminate; crank].
    destruct (proj2 (highs_parts v e S)) as (u & Hu & <-); [eauto|]. destruct (proj2 (lows_parts v s S)) as (l & Hl & <-); [eauto|].
    assert (C1 : ceq (ucut u) c = true) by (unfold ceq; destruct (lo x); rewrite ?cle_bp in Fx; clear - OL Fx Nx; crank).
    assert (C2 : ceq (lcut l) c = true) by (unfold ceq; destruct (hi y); rewrite ?cle_ap in Fy; clear - OL Fy Ny; crank).
    exists u, l. split; [exact Hu|]. split; [exact Hl|]. rewrite !touches_ceq. change (lcut (LB b)) with c.
    split; [|exact C1]. unfold ceq in *. clear - OL C1 C2. crank.
Qed.
Lemma joined_around (v : value T) b : is_set (kind_of v) = true -> valid v -> (joined v b <-> around b (covers v) /\ ~ seam v b).
Proof.
  intros S V. assert (F : fresh v) by (destruct v; try exact I; discriminate S).
  rewrite joined_sides by (assumption || apply valid_wf, V). rewrite (around_fin v b _ (fun x => x)) by (intros p; apply covers_fin, F).
  rewrite seam_in by exact F. destruct (v_in v (bcut b, false)); split; intros H; decompose [and] H; repeat split; congruence || auto; discriminate.
Qed.
End SeamFacts.
