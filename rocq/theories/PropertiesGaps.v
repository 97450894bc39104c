(** The complement of a set is what lies between its parts. *)
From Coq Require Import ZArith Lia ZifyBool List Bool.
Import ListNotations.
From Verif Require Import Base ModelBound ModelRanges ModelSets ModelAlgebra ModelValue ModelEq Spec SpecBounds SpecMap SpecFill SpecSeam SpecGaps
  Order Cuts SetProofs AlgebraProofs ValueProofs Laws Laws2 Canon Instances NaturalProofs JointProofs CongProofs FillProofs SeamProofs.
Open Scope bool_scope.

Section Proofs.
Context {T : Type} {OT : Ord T} {OL : OrdLaws T}.

Lemma after_cut (u : UpperBound T) : lcut (just_after u) = ucut u.
Proof. destruct u as [[a|a]]; reflexivity. Qed.
Lemma before_cut (l : LowerBound T) : ucut (just_before l) = lcut l.
Proof. destruct l as [[a|a]]; reflexivity. Qed.
Lemma gap_room e s : has_room (BR (just_after e) (just_before s)) <-> cle (lcut s) (ucut e) = false.
Proof. rewrite has_room_cut. unfold room. cbn [br_start br_end]. rewrite after_cut, before_cut. destruct (cle (lcut s) (ucut e)); cbn [negb]; intuition congruence. Qed.
Lemma gaps_some es ss : length es = length ss -> exists k, gaps es ss k.
Proof.
  revert ss. induction es as [|e es IH]; intros [|s ss] L; try discriminate L; [exists []; constructor|].
  destruct (IH ss) as [k G]; [cbn in L; lia|]. destruct (cle (lcut s) (ucut e)) eqn:E.
  - exists k. apply gaps_shut; [rewrite gap_room; congruence|exact G].
  - eexists. apply gaps_open; [apply gap_room, E|exact G].
Qed.

(** The parts end and begin in turn: from [c], up to [d] ([None]: without end). *)
Definition ole (c d : option (cut T)) : Prop := match c, d with Some x, Some y => clt x y = true | _, _ => True end.
Fixpoint turns (c : option (cut T)) (es : list (UpperBound T)) (ss : list (LowerBound T)) (d : option (cut T)) : Prop :=
  match es, ss with
  | [], [] => ole c d
  | e :: es', s :: ss' => ole c (Some (ucut e)) /\ cle (ucut e) (lcut s) = true /\ turns (Some (lcut s)) es' ss' d
  | _, _ => False
  end.
Definition obelow (c : option (cut T)) (p : place T) : bool := match c with Some x => pbelow x p | None => false end.
Definition oabove (d : option (cut T)) (p : place T) : bool := match d with Some x => pabove x p | None => false end.
Fixpoint outs (c : option (cut T)) (es : list (UpperBound T)) (ss : list (LowerBound T)) (d : option (cut T)) (p : place T) : bool :=
  match es, ss with
  | e :: es', s :: ss' => (obelow c p || pabove (ucut e) p) && outs (Some (lcut s)) es' ss' d p
  | _, _ => obelow c p || oabove d p
  end.

Lemma turns_range es ss k : gaps es ss k -> forall c d, turns c es ss d ->
  ole c d /\ wfl k = true /\ forall x, In x k -> ole c (Some (lcut (br_start x))) /\ ole (Some (ucut (br_end x))) d.
Proof.
  induction 1 as [|e s es ss k R G IH|e s es ss k R G IH]; intros c d; cbn [turns].
  - intros H. split; [exact H|]. split; [reflexivity|]. intros x [].
  - intros (H1 & H2 & H3). specialize (IH _ _ H3) as (I1 & I2 & I3). apply gap_room in R.
    assert (Lt : forall x, In x k -> ole c (Some (lcut (br_start x))) /\ ole (Some (ucut (br_end x))) d).
    { intros x Hx. destruct (I3 x Hx) as [J1 J2]. split; [|exact J2]. destruct c as [c|]; [|exact I]. cbn [ole] in *. clear - OL H1 H2 J1. crank. }
    split; [|split].
    + destruct c as [c|], d as [d|]; try exact I. cbn [ole] in *. clear - OL H1 H2 I1. crank.
    + cbn [wfl]. unfold room at 1. cbn [br_start br_end]. rewrite after_cut, before_cut, R, I2, andb_true_r. cbn [negb andb].
      apply forallb_forall. intros x Hx. destruct (I3 x Hx) as [J1 _]. unfold sep. cbn [br_end]. rewrite before_cut. cbn [ole] in J1. clear - OL J1. crank.
    + intros x [<-|Hx]; [|exact (Lt x Hx)]. cbn [br_start br_end]. rewrite after_cut, before_cut. split; [exact H1|exact I1].
  - intros (H1 & H2 & H3). specialize (IH _ _ H3) as (I1 & I2 & I3). split; [|split; [exact I2|]].
    + destruct c as [c|], d as [d|]; try exact I. cbn [ole] in *. clear - OL H1 H2 I1. crank.
    + intros x Hx. destruct (I3 x Hx) as [J1 J2]. split; [|exact J2]. destruct c as [c|]; [|exact I]. cbn [ole] in *. clear - OL H1 H2 J1. crank.
Qed.
Lemma in_after k s p : (forall x, In x k -> ole (Some s) (Some (lcut (br_start x)))) -> bl_in k p = true -> pabove s p = true.
Proof.
  intros H B. apply existsb_exists in B as (x & Hx & B). specialize (H x Hx). cbn [ole] in H. unfold Cuts.br_in, pabove, pbelow in *.
  apply andb_prop in B as [B _]. unfold pabove in *. clear - OL H B. destruct p as [q []]; cbn [fst snd] in *; crank.
Qed.
Lemma outs_gaps es ss k : gaps es ss k -> forall c d p, turns c es ss d -> outs c es ss d p = obelow c p || bl_in k p || oabove d p.
Proof.
  induction 1 as [|e s es ss k R G IH|e s es ss k R G IH]; intros c d p Tn; cbn [outs].
  - rewrite orb_false_r. reflexivity.
  - rewrite (IH (Some (lcut s)) d p) by apply Tn. destruct Tn as (H1 & H2 & H3).
    destruct (turns_range _ _ _ G _ _ H3) as (J1 & _ & J3). pose proof (in_after k (lcut s) p (fun x Hx => proj1 (J3 x Hx))) as B.
    change (bl_in (BR (just_after e) (just_before s) :: k) p) with (Cuts.br_in (BR (just_after e) (just_before s)) p || bl_in k p).
    unfold Cuts.br_in. cbn [br_start br_end obelow]. rewrite after_cut, before_cut.
    destruct c as [c|], d as [d|]; cbn [obelow oabove ole] in *; unfold pabove, pbelow in *; clear IH J3 R G H3; destruct (bl_in k p);
      (destruct p as [q []]; cbn [fst snd] in *); try (specialize (B eq_refl)); clear - OL B H1 H2 J1; crank.
  - rewrite (IH (Some (lcut s)) d p) by apply Tn. destruct Tn as (H1 & H2 & H3). rewrite gap_room in R.
    destruct (turns_range _ _ _ G _ _ H3) as (J1 & _ & J3). pose proof (in_after k (lcut s) p (fun x Hx => proj1 (J3 x Hx))) as B.
    cbn [obelow]. apply not_false_is_true in R.
    destruct c as [c|], d as [d|]; cbn [obelow oabove ole] in *; unfold pabove, pbelow in *; clear IH J3 G H3; destruct (bl_in k p);
      (destruct p as [q []]; cbn [fst snd] in *); try (specialize (B eq_refl)); clear - OL B H1 H2 J1 R; crank.
Qed.

(** Sets that end with a piece, and sets that end with a half-line. *)
Lemma outs_piece p l : forall c e0 es e, e0 :: map br_end l = es ++ [e] ->
  outs c es (map br_start l) (Some (ucut e)) p = (obelow c p || pabove (ucut e0) p) && bl_out l p.
Proof.
  induction l as [|r l IH]; cbn [map]; intros c e0 es e E.
  - destruct es as [|x [|y es]]; try discriminate E. injection E as ->. cbn [outs oabove bl_out forallb]. rewrite andb_true_r. reflexivity.
  - destruct es as [|x es]; [discriminate E|]. injection E as <- E. cbn [outs]. rewrite (IH _ _ _ _ E). reflexivity.
Qed.
Lemma outs_half p l x : forall c e0,
  outs c (e0 :: map br_end l) (map br_start l ++ [x]) None p = (obelow c p || pabove (ucut e0) p) && (bl_out l p && pbelow (lcut x) p).
Proof.
  induction l as [|r l IH]; cbn [map app]; intros c e0.
  - cbn [outs obelow oabove bl_out forallb]. rewrite orb_false_r. reflexivity.
  - match goal with |- _ = ?R => change ((obelow c p || pabove (ucut e0) p) && outs (Some (lcut (br_start r))) (br_end r :: map br_end l) (map br_start l ++ [x]) None p = R) end.
    rewrite IH. f_equal. cbn [obelow bl_out forallb]. rewrite <- andb_assoc. reflexivity.
Qed.
Lemma turns_piece l : wfl l = true -> forall c e0 es e, e0 :: map br_end l = es ++ [e] ->
  ole c (Some (ucut e0)) -> (forall r, In r l -> cle (ucut e0) (lcut (br_start r)) = true) -> turns c es (map br_start l) (Some (ucut e)).
Proof.
  induction l as [|r l IH]; cbn [map]; intros W c e0 es e E C H.
  - destruct es as [|x [|y es]]; try discriminate E. injection E as ->. exact C.
  - destruct es as [|x es]; [discriminate E|]. injection E as <- E. cbn [wfl] in W. apply andb_prop in W as [W W2]. apply andb_prop in W as [W W1].
    cbn [turns]. split; [exact C|]. split; [apply H; left; reflexivity|]. apply (IH W2 _ _ _ _ E); [exact W|].
    rewrite forallb_forall in W1. exact W1.
Qed.
Lemma turns_half l x : wfl l = true -> (forall r, In r l -> cle (ucut (br_end r)) (lcut x) = true) -> forall c e0,
  ole c (Some (ucut e0)) -> (forall r, In r l -> cle (ucut e0) (lcut (br_start r)) = true) -> cle (ucut e0) (lcut x) = true ->
  turns c (e0 :: map br_end l) (map br_start l ++ [x]) None.
Proof.
  induction l as [|r l IH]; cbn [map app]; intros W Hx c e0 C H E.
  - cbn [turns ole]. auto.
  - cbn [wfl] in W. apply andb_prop in W as [W W2]. apply andb_prop in W as [W W1]. rewrite forallb_forall in W1.
    split; [exact C|]. split; [apply H; left; reflexivity|].
    apply IH; [exact W2|intros q Hq; apply Hx; right; exact Hq|exact W|exact W1|apply Hx; left; reflexivity].
Qed.

Lemma outside_places (v w : value T) : valid v -> outside v w ->
  is_set (kind_of w) = true /\ kind_of w = compl_kind (kind_of v) /\ wf_v w = true /\ forall p, v_in w p = forallb (fun x => part_out x p) (parts v).
Proof.
  rewrite valid_wf. intros V O. destruct O as [E|E|s ss es e k K L H G|s ss k K L G|es e k K H G|k K N G].
  - subst v. repeat split.
  - subst v. repeat split.
  - destruct v as [r|r|r|r|r|r|r|r|r|r|r|[l]|s0|s0|s0]; try discriminate K. cbn [lows highs bs_ranges] in *.
    destruct l as [|r l]; [discriminate L|]. cbn [map] in L, H. injection L as <- <-. cbn [wf_v wf_bs bs_ranges wfl] in V.
    unfold wf_bs in V. cbn [bs_ranges wfl] in V. apply andb_prop in V as [V V2]. apply andb_prop in V as [V V1]. rewrite forallb_forall in V1.
    pose proof (turns_piece l V2 (Some (lcut (br_start r))) _ _ _ H V V1) as Tn.
    destruct (turns_range _ _ _ G _ _ Tn) as (D & W & B). split; [reflexivity|]. split; [reflexivity|]. split.
    + cbn [wf_v wf_us]. unfold wf_pus, wf_bs, sep_u, sep_l, sep_ul. cbn [pus_ranges bs_ranges pus_ubr pus_lbr ubr_end lbr_start].
      rewrite W, before_cut, after_cut. cbn [andb]. apply andb_true_intro. split.
      * apply forallb_forall. intros x Hx. destruct (B x Hx) as [B1 B2]. cbn [ole] in *. clear - OL B1 B2. crank.
      * cbn [ole] in D. clear - OL D. crank.
    + intros p. unfold v_in. cbn [to_inner i_in us_in parts bs_ranges]. unfold pus_in, ubr_in, lbr_in, bs_in. cbn [pus_ranges bs_ranges pus_ubr pus_lbr ubr_end lbr_start].
      rewrite before_cut, after_cut, bl_out_parts. pose proof (outs_gaps _ _ _ G _ _ p Tn) as Q. rewrite (outs_piece p l _ _ _ _ H) in Q. cbn [obelow oabove] in Q.
      cbn [bl_out forallb]. transitivity ((pbelow (lcut (br_start r)) p || pabove (ucut (br_end r)) p) && bl_out l p); [|reflexivity]. rewrite Q.
      destruct (pbelow (lcut (br_start r)) p), (bl_in k p), (pabove (ucut e) p); reflexivity.
  - destruct v as [r|r|r|r|r|r|r|r|r|r|r|s0|[[l] [x]]|s0|s0]; try discriminate K. cbn [lows highs lbs_ranges lbs_lbr bs_ranges lbr_start] in *.
    cbn [wf_v] in V. unfold wf_lbs, wf_bs, sep_l in V. cbn [lbs_ranges lbs_lbr bs_ranges lbr_start] in V. apply andb_prop in V as [V V1]. rewrite forallb_forall in V1.
    assert (TQ : turns (Some (lcut s)) (map br_end l) ss None /\ forall p, outs (Some (lcut s)) (map br_end l) ss None p = bl_out l p && pbelow (lcut x) p).
    { destruct l as [|r l]; cbn [map app] in L |- *; injection L as <- <-.
      - split; [exact I|]. intros p. cbn [outs obelow oabove]. apply orb_false_r.
      - cbn [wfl] in V. apply andb_prop in V as [V V2]. apply andb_prop in V as [V V3]. rewrite forallb_forall in V3. split.
        + apply turns_half; [exact V2|intros q Hq; apply V1; right; exact Hq|exact V|exact V3|apply V1; left; reflexivity].
        + intros p. rewrite outs_half. cbn [bl_out forallb obelow]. rewrite <- andb_assoc. reflexivity. }
    destruct TQ as [Tn Q]. destruct (turns_range _ _ _ G _ _ Tn) as (D & W & B). split; [reflexivity|]. split; [reflexivity|]. split.
    + cbn [wf_v]. unfold wf_ubs, wf_bs, sep_u. cbn [ubs_ranges ubs_ubr bs_ranges ubr_end]. rewrite W, before_cut. cbn [andb].
      apply forallb_forall. intros y Hy. destruct (B y Hy) as [B1 _]. cbn [ole] in *. clear - OL B1. crank.
    + intros p. unfold v_in. cbn [to_inner i_in parts lbs_ranges lbs_lbr bs_ranges]. unfold ubs_in, ubr_in, bs_in. cbn [ubs_ranges ubs_ubr bs_ranges ubr_end].
      rewrite forallb_app, bl_out_parts, before_cut. specialize (Q p). rewrite (outs_gaps _ _ _ G _ _ p Tn) in Q. cbn [obelow oabove] in Q. rewrite orb_false_r in Q. rewrite Q.
      f_equal. cbn [forallb]. rewrite andb_true_r. unfold part_out. cbn. rewrite orb_false_r. reflexivity.
  - destruct v as [r|r|r|r|r|r|r|r|r|r|r|s0|s0|[[u] [l]]|s0]; try discriminate K. cbn [lows highs ubs_ranges ubs_ubr bs_ranges ubr_end] in *.
    cbn [wf_v] in V. unfold wf_ubs, wf_bs, sep_u in V. cbn [ubs_ranges ubs_ubr bs_ranges ubr_end] in V. apply andb_prop in V as [V V1]. rewrite forallb_forall in V1.
    pose proof (turns_piece l V None _ _ _ H I V1) as Tn.
    destruct (turns_range _ _ _ G _ _ Tn) as (D & W & B). split; [reflexivity|]. split; [reflexivity|]. split.
    + cbn [wf_v]. unfold wf_lbs, wf_bs, sep_l. cbn [lbs_ranges lbs_lbr bs_ranges lbr_start]. rewrite W, after_cut. cbn [andb].
      apply forallb_forall. intros y Hy. destruct (B y Hy) as [_ B1]. cbn [ole] in *. clear - OL B1. crank.
    + intros p. unfold v_in. cbn [to_inner i_in parts ubs_ranges ubs_ubr bs_ranges forallb]. unfold lbs_in, lbr_in, bs_in. cbn [lbs_ranges lbs_lbr bs_ranges lbr_start].
      rewrite bl_out_parts, after_cut. pose proof (outs_gaps _ _ _ G _ _ p Tn) as Q. rewrite (outs_piece p l _ _ _ _ H) in Q. cbn [obelow oabove orb] in Q.
      rewrite orb_comm, <- Q. reflexivity.
  - destruct v as [r|r|r|r|r|r|r|r|r|r|r|s0|s0|s0|[|[[u] [l] [x]]]]; try discriminate K; [destruct N; reflexivity|].
    cbn [lows highs pus_ranges pus_ubr pus_lbr bs_ranges ubr_end lbr_start] in *.
    cbn [wf_v wf_us] in V. unfold wf_pus, wf_bs, sep_u, sep_l, sep_ul in V. cbn [pus_ranges pus_ubr pus_lbr bs_ranges ubr_end lbr_start] in V.
    apply andb_prop in V as [V V3]. apply andb_prop in V as [V V1]. rewrite forallb_forall in V1.
    assert (Tn : turns None (u :: map br_end l) (map br_start l ++ [x]) None).
    { apply turns_half; [exact V|intros q Hq; exact (proj2 (andb_prop _ _ (V1 q Hq)))|exact I|intros q Hq; exact (proj1 (andb_prop _ _ (V1 q Hq)))|exact V3]. }
    destruct (turns_range _ _ _ G _ _ Tn) as (D & W & B). split; [reflexivity|]. split; [reflexivity|]. split; [exact W|].
    intros p. unfold v_in. cbn [to_inner i_in parts pus_ranges pus_ubr pus_lbr bs_ranges forallb]. unfold bs_in. cbn [bs_ranges].
    rewrite forallb_app, bl_out_parts. pose proof (outs_gaps _ _ _ G _ _ p Tn) as Q. rewrite outs_half in Q. cbn [obelow oabove orb] in Q. rewrite orb_false_r in Q. rewrite <- Q.
    cbn [forallb]. rewrite andb_true_r. unfold part_out. cbn. rewrite orb_false_r. reflexivity.
Qed.
Lemma touches_cut (u : UpperBound T) (l : LowerBound T) : cle (ucut u) (lcut l) = true -> cle (lcut l) (ucut u) = true -> touches u l.
Proof.
  unfold touches, cle, ucut, lcut. destruct u as [[a|a]], l as [[b|b]]; cbn; rewrite (cmp_opp a b); destruct (cmp a b); cbn; congruence.
Qed.
Lemma gaps_all es ss k : gaps es ss k -> forall c d, turns c es ss d -> (forall u l, In u es -> In l ss -> ~ touches u l) ->
  map br_start k = map just_after es /\ map br_end k = map just_before ss.
Proof.
  induction 1 as [|e s es ss k R G IH|e s es ss k R G IH]; intros c d Tn N.
  - split; reflexivity.
  - destruct (IH _ _ (proj2 (proj2 Tn))) as [A B]; [intros u l Hu Hl; apply N; right; assumption|]. cbn [map br_start br_end]. rewrite A, B. split; reflexivity.
  - destruct Tn as (_ & H & _). rewrite gap_room in R. apply not_false_is_true in R. destruct (N e s (or_introl eq_refl) (or_introl eq_refl)). apply touches_cut; assumption.
Qed.
Lemma exchanged (v w : value T) : valid v -> separated v -> outside v w ->
  highs w = map just_before (lows v) /\ lows w = map just_after (highs v).
Proof.
  rewrite valid_wf. unfold separated. intros V Sp O. destruct O as [E|E|s ss es e k K L H G|s ss k K L G|es e k K H G|k K N G].
  - subst v. split; reflexivity.
  - subst v. split; reflexivity.
  - rewrite L, H in Sp |- *. cbn [highs lows pus_ranges pus_ubr pus_lbr bs_ranges ubr_end lbr_start map]. rewrite map_app. cbn [map].
    destruct v as [r|r|r|r|r|r|r|r|r|r|r|[l]|s0|s0|s0]; try discriminate K. cbn [lows highs bs_ranges] in *.
    destruct l as [|r l]; [discriminate L|]. cbn [map] in L, H. injection L as <- <-.
    cbn [wf_v] in V. unfold wf_bs in V. cbn [bs_ranges wfl] in V. apply andb_prop in V as [V V2]. apply andb_prop in V as [V V1]. rewrite forallb_forall in V1.
    destruct (gaps_all _ _ _ G _ _ (turns_piece l V2 (Some (lcut (br_start r))) _ _ _ H V V1)) as [A B].
    { intros u x Hu Hx. apply Sp; [apply in_or_app; left; exact Hu|right; exact Hx]. }
    rewrite A, B. split; reflexivity.
  - destruct v as [r|r|r|r|r|r|r|r|r|r|r|s0|[[l] [x]]|s0|s0]; try discriminate K. cbn [lows highs lbs_ranges lbs_lbr ubs_ranges ubs_ubr ubr_end bs_ranges lbr_start] in *.
    cbn [wf_v] in V. unfold wf_lbs, wf_bs, sep_l in V. cbn [lbs_ranges lbs_lbr bs_ranges lbr_start] in V. apply andb_prop in V as [V V1]. rewrite forallb_forall in V1.
    assert (Tn : turns (Some (lcut s)) (map br_end l) ss None).
    { destruct l as [|r l]; cbn [map app] in L |- *; injection L as <- <-; [exact I|].
      cbn [wfl] in V. apply andb_prop in V as [V V2]. apply andb_prop in V as [V V3]. rewrite forallb_forall in V3.
      apply turns_half; [exact V2|intros q Hq; apply V1; right; exact Hq|exact V|exact V3|apply V1; left; reflexivity]. }
    rewrite L in *. destruct (gaps_all _ _ _ G _ _ Tn) as [A B].
    { intros u y Hu Hy. apply Sp; [exact Hu|right; exact Hy]. }
    rewrite A, B. split; reflexivity.
  - destruct v as [r|r|r|r|r|r|r|r|r|r|r|s0|s0|[[u] [l]]|s0]; try discriminate K. cbn [lows highs lbs_ranges lbs_lbr ubs_ranges ubs_ubr ubr_end bs_ranges lbr_start] in *.
    cbn [wf_v] in V. unfold wf_ubs, wf_bs, sep_u in V. cbn [ubs_ranges ubs_ubr bs_ranges ubr_end] in V. apply andb_prop in V as [V V1]. rewrite forallb_forall in V1.
    destruct (gaps_all _ _ _ G _ _ (turns_piece l V None _ _ _ H I V1)) as [A B].
    { rewrite H in Sp. intros y x Hy Hx. apply Sp; [apply in_or_app; left; exact Hy|exact Hx]. }
    rewrite H, map_app, A, B. split; reflexivity.
  - destruct v as [r|r|r|r|r|r|r|r|r|r|r|s0|s0|s0|[|[[u] [l] [x]]]]; try discriminate K; [destruct N; reflexivity|].
    cbn [lows highs pus_ranges pus_ubr pus_lbr bs_ranges ubr_end lbr_start] in *.
    cbn [wf_v wf_us] in V. unfold wf_pus, wf_bs, sep_u, sep_l, sep_ul in V. cbn [pus_ranges pus_ubr pus_lbr bs_ranges ubr_end lbr_start] in V.
    apply andb_prop in V as [V V3]. apply andb_prop in V as [V V1]. rewrite forallb_forall in V1.
    assert (Tn : turns None (u :: map br_end l) (map br_start l ++ [x]) None).
    { apply turns_half; [exact V|intros q Hq; exact (proj2 (andb_prop _ _ (V1 q Hq)))|exact I|intros q Hq; exact (proj1 (andb_prop _ _ (V1 q Hq)))|exact V3]. }
    destruct (gaps_all _ _ _ G _ _ Tn Sp) as [A B]. split; assumption.
Qed.
End Proofs.

(** The complement of a valid set is what lies before, between and after its parts. *)
Theorem C80_complement (T : Type) (OT : Ord T) (OL : OrdLaws T) (v w : value T) :
  valid v -> outside v w -> exists u, complement v = Ret u /\ value_eqb u w = true.
Proof.
  intros V O. destruct (outside_places v w V O) as (S & K & W & P). destruct (complement_ok v) as (u & E & _ & Wu & _ & Ku).
  destruct (complement_places v) as (u' & E' & P'). rewrite E in E'. injection E' as <-.
  exists u. split; [exact E|]. apply canon_value; [congruence|congruence|exact Wu|exact W|]. intros p. rewrite P, P'. reflexivity.
Qed.
Print Assumptions C80_complement.
Theorem C80_every_set (T : Type) (OT : Ord T) (OL : OrdLaws T) (v : value T) : is_set (kind_of v) = true -> exists w, outside v w.
Proof.
  assert (X : forall (l : list (UpperBound T)) e, exists es e', e :: l = es ++ [e']).
  { intros l e. destruct (exists_last (l := e :: l)) as (es & e' & E); [discriminate|]. exists es, e'. exact E. }
  destruct v as [r|r|r|r|r|r|r|r|r|r|r|[[|r l]]|[[l] [x]]|[[u] [l]]|[|[[u] [l] [x]]]]; intros S; try discriminate S.
  - eexists. apply outside_none. reflexivity.
  - destruct (X (map br_end l) (br_end r)) as (es & e & E). destruct (gaps_some es (map br_start l)) as [k G].
    + apply (f_equal (@length _)) in E. rewrite app_length in E. cbn in E. rewrite map_length in *. lia.
    + eexists. eapply outside_bs; [reflexivity|reflexivity|exact E|exact G].
  - destruct (map br_start l ++ [x]) as [|s ss] eqn:E; [destruct l; discriminate E|]. destruct (gaps_some (map br_end l) ss) as [k G].
    + apply (f_equal (@length _)) in E. rewrite app_length in E. cbn in E. rewrite map_length in *. lia.
    + eexists. eapply outside_lbs; [reflexivity|exact E|exact G].
  - destruct (X (map br_end l) u) as (es & e & E). destruct (gaps_some es (map br_start l)) as [k G].
    + apply (f_equal (@length _)) in E. rewrite app_length in E. cbn in E. rewrite map_length in *. lia.
    + eexists. eapply outside_ubs; [reflexivity|exact E|exact G].
  - eexists. apply outside_full. reflexivity.
  - destruct (gaps_some (u :: map br_end l) (map br_start l ++ [x])) as [k G].
    + rewrite app_length. cbn. rewrite !map_length. lia.
    + eexists. apply outside_us; [reflexivity|discriminate|exact G].
Qed.
Print Assumptions C80_every_set.
(** Where no part ends exactly where the next begins, the complement exchanges the bounds. *)
Theorem C80_bounds (T : Type) (OT : Ord T) (OL : OrdLaws T) (v w : value T) :
  valid v -> separated v -> outside v w -> highs w = map just_before (lows v) /\ lows w = map just_after (highs v).
Proof. exact (exchanged v w). Qed.
Print Assumptions C80_bounds.
(** [{1..3, 3..5, 7..9}]: the joint at 3 is no gap. *)
Example C80_ex :
  let v := VBS (BS [pc 1 3; pc 3 5; pc 7 9]) in
  let w := VUS (Piecewise (PUS (UBR (UB (Excluded 1%Z))) (BS [pc 5 7]) (LBR (LB (Included 9%Z))))) in
  valid v /\ outside v w /\ complement v = Ret w /\ separated (VBS (BS [pc 1 5; pc 7 9])) /\ outside (VBS (BS [pc 1 5; pc 7 9])) w.
Proof.
  cbv zeta. split; [apply valid_wf; reflexivity|]. split; [|split; [vm_compute; reflexivity|split]].
  - eapply (outside_bs _ (LB (Included 1%Z)) _ [UB (Excluded 3%Z); UB (Excluded 5%Z)] (UB (Excluded 9%Z))); [reflexivity..|].
    apply gaps_shut; [rewrite gap_room; discriminate|]. apply (gaps_open (UB (Excluded 5%Z)) (LB (Included 7%Z))); [apply gap_room; reflexivity|constructor].
  - intros u l. cbn. intros [<-|[<-|[]]] [<-|[<-|[]]]; cbn; discriminate.
  - eapply (outside_bs _ (LB (Included 1%Z)) _ [UB (Excluded 5%Z)] (UB (Excluded 9%Z))); [reflexivity..|].
    apply (gaps_open (UB (Excluded 5%Z)) (LB (Included 7%Z))); [apply gap_room; reflexivity|constructor].
Qed.
