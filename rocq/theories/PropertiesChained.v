(** The parts of a union of two sets of any types: the groups of parts chained by overlaps. *)
From Coq Require Import ZArith Lia ZifyBool List Bool.
Import ListNotations.
From Verif Require Import Base ModelBound ModelRanges ModelSets ModelAlgebra ModelValue Spec SpecMap SpecFill SpecSeam
  Order Cuts SetProofs AlgebraProofs CombineProofs ValueProofs Laws Instances NaturalProofs FillProofs SeamProofs PropertiesSets PropertiesLinked.
Open Scope bool_scope.

(** [x] covers whatever [a] covers. *)
Definition holds {T : Type} {OT : Ord T} (x a : value T) : Prop := forall p, covers a p -> covers x p.
(** A chain of members of [l], each sharing a point with the next, leads from [a] to [b]. *)
Inductive chained {T : Type} {OT : Ord T} (l : list (value T)) : value T -> value T -> Prop :=
| chained_self a : In a l -> chained l a a
| chained_next a b c : In a l -> (exists p, covers a p /\ covers b p) -> chained l b c -> chained l a c.

(** [T] with two ends. *)
Inductive ext (T : Type) : Type := NegI | Fin (t : T) | PosI.
Arguments NegI {T}. Arguments Fin {T} t. Arguments PosI {T}.
#[local] Instance OrdExt (T : Type) {OT : Ord T} : Ord (ext T) := {
  cmp a b := match a, b with
    | Fin x, Fin y => cmp x y
    | NegI, NegI => Eq | NegI, _ => Lt | _, NegI => Gt
    | PosI, PosI => Eq | PosI, _ => Gt | _, PosI => Lt end;
  teq a b := match a, b with Fin x, Fin y => teq x y | NegI, NegI => true | PosI, PosI => true | _, _ => false end
}.
#[local] Instance LawsExt (T : Type) {OT : Ord T} {OL : OrdLaws T} : OrdLaws (ext T).
Proof.
  constructor.
  - intros [|a|] [|b|]; cbn; try reflexivity. apply cmp_opp.
  - intros [|a|] [|b|] [|c|]; cbn; try discriminate; try congruence. apply cmp_trans.
  - intros [|a|] [|b|]; cbn; try apply teq_cmp; split; congruence.
Qed.

Section Proofs.
Context {T : Type} {OT : Ord T} {OL : OrdLaws T}.
Definition xlo (c : option (cut T)) : LowerBound (ext T) :=
  match c with Some (t, false) => LB (Included (Fin t)) | Some (t, true) => LB (Excluded (Fin t)) | None => LB (Excluded NegI) end.
Definition xhi (c : option (cut T)) : UpperBound (ext T) :=
  match c with Some (t, true) => UB (Included (Fin t)) | Some (t, false) => UB (Excluded (Fin t)) | None => UB (Excluded PosI) end.
Definition emb (v : value T) : BoundedRange (ext T) := BR (xlo (lo v)) (xhi (hi v)).
Definition xcut (c : cut T) : cut (ext T) := (Fin (fst c), snd c).
Lemma xlo_cut c : lcut (xlo c) = match c with Some c => xcut c | None => (NegI, true) end.
Proof. destruct c as [[t []]|]; reflexivity. Qed.
Lemma xhi_cut c : ucut (xhi c) = match c with Some c => xcut c | None => (PosI, false) end.
Proof. destruct c as [[t []]|]; reflexivity. Qed.
Lemma cle_xcut c d : cle (xcut c) (xcut d) = cle c d.
Proof. reflexivity. Qed.

(** The parts of sets. *)
Definition proper (v : value T) : Prop := is_part v /\ nothing v = false /\ SeamProofs.roomy v /\ fresh v.
Lemma set_parts v r : is_set (kind_of v) = true -> wf_v v = true -> In r (parts v) -> proper r.
Proof.
  intros S W H. split; [exact (parts_part v r H)|]. split; [|split].
  - destruct v as [r0|r0|r0|r0|r0|r0|r0|r0|r0|r0|r0|s|s|s|[|s]]; try discriminate S; cbn [parts] in H;
    repeat match type of H with
    | In _ (map _ _) => apply in_map_iff in H as (x & <- & _)
    | In _ (_ ++ _) => apply in_app_or in H as [H|H]
    | In _ (_ :: _) => destruct H as [<-|H]
    | In _ [] => destruct H
    end; reflexivity.
  - apply (parts_roomy v); [destruct v; try discriminate S; reflexivity|exact W|exact H].
  - apply (parts_fresh v); [destruct v; try exact I; discriminate S|exact H].
Qed.
Lemma emb_room r : proper r -> has_room (emb r).
Proof.
  intros (_ & _ & R & _). apply has_room_cut. unfold room, emb. cbn [br_start br_end]. rewrite xlo_cut, xhi_cut. unfold SeamProofs.roomy in R.
  destruct (lo r) as [c|], (hi r) as [d|]; rewrite ?cle_xcut; try reflexivity. exact R.
Qed.
Lemma covers_cuts r p : proper r -> (covers r p <->
  match lo r with Some s => cle (fcut s) (pt p) | None => true end && match hi r with Some e => negb (cle (fcut e) (pt p)) | None => true end = true).
Proof. intros (A & N & _ & F). rewrite covers_fin by exact F. rewrite part_fin by exact A. rewrite N. reflexivity. Qed.
Definition cov (r : value T) (p : filled T) : bool :=
  match lo r with Some s => cle (fcut s) (pt p) | None => true end && match hi r with Some e => negb (cle (fcut e) (pt p)) | None => true end.
Lemma emb_holds x a : proper x -> proper a -> (holds x a <-> in_piece (emb a) (emb x)).
Proof.
  intros Px Pa. unfold holds, in_piece, emb. cbn [br_start br_end]. rewrite !xlo_cut, !xhi_cut.
  assert (Q : (forall p, covers a p -> covers x p) <-> forall p, implb (cov a p) (cov x p) = true).
  { split; intros H p; specialize (H p); rewrite (covers_cuts a p Pa), (covers_cuts x p Px) in *; fold (cov a p) (cov x p) in *; destruct (cov a p), (cov x p); cbn in *; auto. }
  rewrite Q. clear Q. pose proof (proj1 (proj2 (proj2 Pa))) as R. unfold SeamProofs.roomy in R. unfold cov. clear Px Pa. split.
  - intros F. split.
    + destruct (lo x) as [sx|]; [|destruct (lo a) as [sa|]; reflexivity]. destruct (lo a) as [sa|].
      * pose proof (F (ap sa)) as H. clear F. rewrite cle_xcut. rewrite !cle_ap in H. destruct (hi a) as [ea|], (hi x) as [ex|]; rewrite ?cle_ap in H; clear - OL H R; crank.
      * exfalso. destruct (hi a) as [ea|].
        -- pose proof (F (bp sx)) as H. pose proof (F (bp ea)) as G. clear F R. destruct (hi x) as [ex|]; rewrite !cle_bp in H; rewrite !cle_bp in G; clear - OL H G; revert H G; crank.
        -- pose proof (F (bp sx)) as H. clear F R. destruct (hi x) as [ex|]; rewrite !cle_bp in H; clear - OL H; revert H; crank.
    + destruct (hi x) as [ex|]; [|destruct (hi a) as [ea|]; reflexivity]. destruct (hi a) as [ea|].
      * pose proof (F (bp ea)) as H. clear F. rewrite cle_xcut. rewrite !cle_bp in H. destruct (lo a) as [sa|], (lo x) as [sx|]; rewrite ?cle_bp in H; clear - OL H R; crank.
      * exfalso. destruct (lo a) as [sa|].
        -- pose proof (F (ap ex)) as H. pose proof (F (ap sa)) as G. clear F R. destruct (lo x) as [sx|]; rewrite !cle_ap in H; rewrite !cle_ap in G; clear - OL H G; revert H G; crank.
        -- pose proof (F (ap ex)) as H. clear F R. destruct (lo x) as [sx|]; rewrite !cle_ap in H; clear - OL H; revert H; crank.
  - intros [A B] p.
    assert (X : implb (match lo a with Some s => cle (fcut s) (pt p) | None => true end) (match lo x with Some s => cle (fcut s) (pt p) | None => true end) = true).
    { clear B R. destruct (lo a) as [sa|], (lo x) as [sx|]; try discriminate A; rewrite ?cle_xcut in A; 
        [rewrite <- cle_fcut in A; clear - OL A; crank|match goal with |- implb ?b true = _ => destruct b end; reflexivity|reflexivity]. }
    assert (Y : implb (match hi a with Some e => negb (cle (fcut e) (pt p)) | None => true end) (match hi x with Some e => negb (cle (fcut e) (pt p)) | None => true end) = true).
    { clear A R X. destruct (hi a) as [ea|], (hi x) as [ex|]; try discriminate B; rewrite ?cle_xcut in B; 
        [rewrite <- cle_fcut in B; clear - OL B; crank|match goal with |- implb ?b true = _ => destruct b end; reflexivity|reflexivity]. }
    clear A B R. destruct (match lo a with Some _ => _ | None => _ end), (match lo x with Some _ => _ | None => _ end); try discriminate X; cbn [andb implb]; try exact Y;
      destruct (match hi a with Some _ => _ | None => _ end); reflexivity.
Qed.
Lemma emb_meets (t0 : T) a b : proper a -> proper b -> ((exists p, covers a p /\ covers b p) <-> ~ clear_of (emb a) (emb b)).
Proof.
  intros Pa Pb. rewrite clear_cuts. unfold emb. cbn [br_start br_end]. rewrite !xlo_cut, !xhi_cut.
  assert (Q : (exists p, covers a p /\ covers b p) <-> exists p, cov a p && cov b p = true).
  { split; intros [p H]; exists p; rewrite andb_true_iff in *; pose proof (covers_cuts a p Pa) as X; pose proof (covers_cuts b p Pb) as Y; fold (cov a p) in X; fold (cov b p) in Y; tauto. }
  rewrite Q. clear Q. pose proof (proj1 (proj2 (proj2 Pa))) as R. pose proof (proj1 (proj2 (proj2 Pb))) as R'. unfold SeamProofs.roomy in R, R'. unfold cov. clear Pa Pb.
  split.
  - intros [p H] C. apply orb_true_iff in C as [C|C].
    + destruct (hi a) as [ea|], (lo b) as [sb|]; try discriminate C. rewrite cle_xcut, <- cle_fcut in C.
      destruct (lo a) as [sa|], (hi b) as [eb|]; clear - OL H C; revert C; crank.
    + destruct (hi b) as [eb|], (lo a) as [sa|]; try discriminate C. rewrite cle_xcut, <- cle_fcut in C.
      destruct (lo b) as [sb|], (hi a) as [ea|]; clear - OL H C; revert C; crank.
  - intros C. apply not_true_is_false in C.
    assert (Z : exists p, match lo a with Some s => cle (fcut s) (pt p) | None => true end && match lo b with Some s => cle (fcut s) (pt p) | None => true end
      && (match hi a with Some e => negb (cle (fcut e) (pt p)) | None => true end && match hi b with Some e => negb (cle (fcut e) (pt p)) | None => true end) = true).
    { destruct (lo a) as [sa|], (lo b) as [sb|].
      - destruct (cle sa sb) eqn:E; [exists (ap sb)|exists (ap sa)]; rewrite !cle_ap;
          destruct (hi a) as [ea|], (hi b) as [eb|]; rewrite ?cle_ap; rewrite ?cle_xcut in C; clear - OL R R' C E; try (revert C; crank); crank.
      - exists (ap sa). rewrite !cle_ap. apply orb_false_iff in C as [_ C]. destruct (hi b) as [eb|]; [rewrite cle_xcut in C|clear C]; destruct (hi a) as [ea|]; rewrite ?cle_ap; clear R'; crank.
      - exists (ap sb). rewrite !cle_ap. apply orb_false_iff in C as [C _]. destruct (hi a) as [ea|]; [rewrite cle_xcut in C|clear C]; destruct (hi b) as [eb|]; rewrite ?cle_ap; clear R; crank.
      - destruct (hi a) as [ea|], (hi b) as [eb|].
        + destruct (cle ea eb) eqn:E; [exists (bp ea)|exists (bp eb)]; rewrite !cle_bp; clear - OL E; crank.
        + exists (bp ea). rewrite !cle_bp. clear - OL. crank.
        + exists (bp eb). rewrite !cle_bp. clear - OL. crank.
        + exists (point t0). reflexivity. }
    destruct Z as [p Z]. exists p. destruct (lo a), (lo b), (hi a), (hi b); clear - Z; lia.
Qed.
(** Chains of parts and of their images. *)
Lemma emb_chain (t0 : T) l a b : (forall r, In r l -> proper r) -> chained l a b -> linked (map emb l) (emb a) (emb b).
Proof.
  intros Pl. induction 1 as [a Ia|a b c Ia M H IH]; [apply linked_self; [apply in_map, Ia|apply emb_room, Pl, Ia]|].
  apply (linked_next _ _ (emb b)); [apply in_map, Ia|apply emb_room, Pl, Ia| |exact IH].
  apply (emb_meets t0); [apply Pl, Ia| |exact M]. apply Pl. inversion H; assumption.
Qed.
Lemma chain_emb (t0 : T) l x y : (forall r, In r l -> proper r) -> linked (map emb l) x y ->
  forall a b, In a l -> In b l -> emb a = x -> emb b = y -> chained l a b.
Proof.
  intros Pl. induction 1 as [x Ix R|x z y Ix R N H IH]; intros a b Ia Ib Ea Eb.
  - apply (chained_next l a b b); [exact Ia| |apply chained_self, Ib]. apply (emb_meets t0); [apply Pl, Ia|apply Pl, Ib|].
    rewrite Ea, Eb. rewrite clear_cuts. apply has_room_cut in R. unfold room in R. clear - OL R. pose proof (LawsExt T) as LX. destruct (cle _ _); [discriminate R|discriminate].
  - pose proof (linked_ends _ _ _ H) as [[Iz _] _]. apply in_map_iff in Iz as (c & Ec & Ic). apply (chained_next l a c b); [exact Ia| |exact (IH c b Ic Ib Ec Eb)].
    apply (emb_meets t0); [apply Pl, Ia|apply Pl, Ic|]. rewrite Ea, Ec. exact N.
Qed.
Lemma lcut_inj (x y : LowerBound T) : lcut x = lcut y -> x = y.
Proof. destruct x as [[a|a]], y as [[b|b]]; cbn; intros E; injection E; congruence. Qed.
Lemma ucut_inj (x y : UpperBound T) : ucut x = ucut y -> x = y.
Proof. destruct x as [[a|a]], y as [[b|b]]; cbn; intros E; injection E; congruence. Qed.
Lemma xlo_inj c d : xlo c = xlo d -> c = d.
Proof. destruct c as [[t []]|], d as [[u []]|]; cbn; intros E; congruence. Qed.
Lemma xhi_inj c d : xhi c = xhi d -> c = d.
Proof. destruct c as [[t []]|], d as [[u []]|]; cbn; intros E; congruence. Qed.
(** The parts of sets are of four types. *)
Definition plain (r : value T) : Prop := match r with VBR _ | VLBR _ | VUBR _ | VRangeFull _ => True | _ => False end.
Lemma parts_plain v r : is_set (kind_of v) = true -> In r (parts v) -> plain r.
Proof.
  intros S H. destruct v as [r0|r0|r0|r0|r0|r0|r0|r0|r0|r0|r0|s|s|s|[|s]]; try discriminate S; cbn [parts] in H;
    repeat match type of H with
    | In _ (map _ _) => apply in_map_iff in H as (x & <- & _)
    | In _ (_ ++ _) => apply in_app_or in H as [H|H]
    | In _ (_ :: _) => destruct H as [<-|H]
    | In _ [] => destruct H
    end; exact I.
Qed.
Lemma emb_inj x y : plain x -> plain y -> emb x = emb y -> x = y.
Proof.
  intros Hx Hy E. unfold emb in E. injection E as A B. apply xlo_inj in A. apply xhi_inj in B.
  destruct x as [x|x|x|x|x|x|[x x']|[x]|[x]|x|x|x|x|x|x]; try destruct Hx; destruct y as [y|y|y|y|y|y|[y y']|[y]|[y]|y|y|y|y|y|y]; try destruct Hy;
    unfold lo, hi in A, B; cbn [to_inner br_start br_end lbr_start ubr_end] in A, B; try discriminate A; try discriminate B.
  - destruct x, y. reflexivity.
  - injection A as A. injection B as B. apply lcut_inj in A. apply ucut_inj in B. subst. reflexivity.
  - injection A as A. apply lcut_inj in A. subst. reflexivity.
  - injection B as B. apply ucut_inj in B. subst. reflexivity.
Qed.
(** Places of the images. *)
Lemma emb_fin r t (b c : bool) : proper r -> Cuts.br_in (emb r) ((Fin t, b), c) = v_in r ((t, b), c).
Proof.
  intros (A & N & _ & _). rewrite part_in by exact A. rewrite N. unfold Cuts.br_in, emb. cbn [br_start br_end negb andb]. rewrite xlo_cut, xhi_cut.
  destruct (lo r) as [s|], (hi r) as [e|], c; unfold pabove, pbelow, clt; cbn [fst snd]; try (change (Fin t, b) with (xcut (t, b)); rewrite ?cle_xcut); reflexivity.
Qed.
Definition open_below (r : value T) : bool := match lo r with None => true | Some _ => false end.
Lemma emb_neg r (b c : bool) : Cuts.br_in (emb r) ((NegI, b), c) = open_below r && (b && c).
Proof.
  unfold Cuts.br_in, emb, open_below. cbn [br_start br_end]. rewrite xlo_cut, xhi_cut. destruct (lo r) as [s|], (hi r) as [e|], b, c; reflexivity.
Qed.
Lemma emb_pos r (b c : bool) : Cuts.br_in (emb r) ((PosI, b), c) = false.
Proof.
  unfold Cuts.br_in, emb. cbn [br_start br_end]. rewrite xlo_cut, xhi_cut. destruct (lo r) as [s|], (hi r) as [e|], b, c; reflexivity.
Qed.
Lemma parts_below v : is_set (kind_of v) = true -> existsb open_below (parts v) = negb (has_lower (kind_of v)).
Proof.
  assert (G : forall l, existsb open_below (map VBR l) = false) by (induction l as [|r l IH]; [reflexivity|exact IH]).
  destruct v as [r0|r0|r0|r0|r0|r0|r0|r0|r0|r0|r0|s|s|s|[|s]]; intros S; try discriminate S; cbn [parts kind_of has_lower negb existsb];
    rewrite ?existsb_app, ?G; reflexivity.
Qed.
Lemma exists_and {A : Type} (f : A -> bool) c l : existsb (fun r => f r && c) l = existsb f l && c.
Proof. induction l as [|r l IH]; [reflexivity|]. cbn [existsb]. rewrite IH. destruct (f r), c, (existsb f l); reflexivity. Qed.
Lemma emb_wfl l : (forall r, In r l -> proper r) -> ForallOrdPairs before l -> wfl (map emb l) = true.
Proof.
  intros Pl O. induction O as [|x l F O IH]; [reflexivity|]. cbn [map wfl]. rewrite IH by (intros r Hr; apply Pl; right; exact Hr).
  rewrite andb_true_r. apply andb_true_intro. split; [apply has_room_cut, emb_room, Pl; left; reflexivity|].
  apply forallb_forall. intros y Hy. apply in_map_iff in Hy as (z & <- & Hz). rewrite Forall_forall in F. specialize (F z Hz). unfold before in F.
  unfold sep, emb. cbn [br_start br_end]. rewrite xlo_cut, xhi_cut. destruct (hi x); [|destruct F]. destruct (lo z); [|destruct F]. exact F.
Qed.
End Proofs.

(** The parts of the union of two sets of any types are the groups of chained parts.
    [t0] says that the type has an element: without one, a part without ends covers no point. *)
Theorem C82_sets (T : Type) (OT : Ord T) (OL : OrdLaws T) (t0 : T) (a b : value T) :
  is_set (kind_of a) = true -> is_set (kind_of b) = true -> valid a -> valid b ->
  exists w, union a b = Ret w /\ is_set (kind_of w) = true /\
  (forall q, In q (parts a ++ parts b) -> exists x, In x (parts w) /\ holds x q) /\
  (forall x, In x (parts w) -> exists q, In q (parts a ++ parts b) /\ holds x q) /\
  (forall q r x y, In q (parts a ++ parts b) -> In r (parts a ++ parts b) -> In x (parts w) -> In y (parts w) -> holds x q -> holds y r ->
    (x = y <-> chained (parts a ++ parts b) q r)).
Proof.
  intros Sa Sb Va Vb. apply valid_wf in Va. apply valid_wf in Vb. destruct (union_ok_all a b) as (w & E & H & W & _ & K). specialize (W Va Vb).
  assert (Sw : is_set (kind_of w) = true). { rewrite K. destruct a; try discriminate Sa; destruct b; try discriminate Sb; reflexivity. }
  exists w. split; [exact E|]. split; [exact Sw|]. set (l := parts a ++ parts b).
  assert (Pl : forall r, In r l -> proper r). { intros r Hr. apply in_app_or in Hr as [Hr|Hr]; [exact (set_parts a r Sa Va Hr)|exact (set_parts b r Sb Vb Hr)]. }
  assert (Pw : forall r, In r (parts w) -> proper r) by (intros r Hr; exact (set_parts w r Sw W Hr)).
  pose proof (emb_wfl (parts w) Pw (parts_ordered w W)) as Wk.
  assert (P : forall p, bl_in (map emb (parts w)) p = bl_in (map emb l) p).
  { assert (C : forall m t b c, (forall r, In r m -> proper r) -> existsb (fun r => Cuts.br_in (emb r) ((Fin t, b), c)) m = existsb (fun r => v_in r ((t, b), c)) m).
    { induction m as [|r m IH]; intros t b' c Pm; [reflexivity|]. cbn [existsb]. rewrite IH by (intros q Hq; apply Pm; right; exact Hq). rewrite emb_fin by (apply Pm; left; reflexivity). reflexivity. }
    intros [[[|t|] b'] c]; unfold bl_in; rewrite !existsb_map.
    - assert (X : forall m, existsb (fun r => Cuts.br_in (emb r) ((NegI, b'), c)) m = existsb open_below m && (b' && c)).
      { intros m. rewrite <- exists_and. induction m as [|r m IH]; [reflexivity|]. cbn [existsb]. rewrite IH, emb_neg. reflexivity. }
      rewrite !X. f_equal. unfold l. rewrite existsb_app, !parts_below by assumption. rewrite K.
      destruct a; try discriminate Sa; destruct b; try discriminate Sb; reflexivity.
    - rewrite !C by assumption. unfold l. rewrite existsb_app, <- !in_parts. apply H.
    - assert (X : forall m, existsb (fun r => Cuts.br_in (emb r) ((PosI, b'), c)) m = false).
      { induction m as [|r m IH]; [reflexivity|]. cbn [existsb]. rewrite IH, emb_pos. reflexivity. }
      rewrite !X. reflexivity. }
  split; [|split].
  - intros q Hq. destruct (home (map emb l) (map emb (parts w)) Wk P (emb q)) as (z & Iz & Hz); [apply in_map, Hq|apply emb_room, Pl, Hq|].
    apply in_map_iff in Iz as (x & <- & Ix). exists x. split; [exact Ix|]. apply emb_holds; [apply Pw, Ix|apply Pl, Hq|exact Hz].
  - intros x Hx. destruct (member (map emb l) (map emb (parts w)) Wk P (emb x)) as (z & Iz & _ & Hz); [apply in_map, Hx|].
    apply in_map_iff in Iz as (q & <- & Iq). exists q. split; [exact Iq|]. apply emb_holds; [apply Pw, Hx|apply Pl, Iq|exact Hz].
  - intros q r x y Iq Ir Ix Iy Hq Hr. apply (emb_holds x q (Pw x Ix) (Pl q Iq)) in Hq. apply (emb_holds y r (Pw y Iy) (Pl r Ir)) in Hr. split.
    + intros <-. apply (chain_emb t0 l (emb q) (emb r) Pl); auto.
      apply (same_linked (map emb l) (map emb (parts w)) Wk P (emb q) (emb r) (emb x)); auto using in_map, emb_room.
    + intros C. apply emb_inj; [exact (parts_plain w x Sw Ix)|exact (parts_plain w y Sw Iy)|].
      apply (linked_same (map emb l) (map emb (parts w)) Wk P (emb q) (emb r) (emb_chain t0 l q r Pl C)); auto using in_map.
Qed.
Print Assumptions C82_sets.

(** [2..4], [6..] joined with [..0], [3..5], [5..6]: the parts [2..4] and [3..5] are chained, those that only touch are not. *)
Example C82_sets_ex :
  let a := VLBS (LBS (BS [pc 2 4]) (LBR (LB (Included 6%Z)))) in
  let b := VUBS (UBS (UBR (UB (Excluded 0%Z))) (BS [pc 3 5; pc 5 6])) in
  valid a /\ valid b /\
  bind (union a b) (fun w => Ret (parts w)) = Ret [VUBR (UBR (UB (Excluded 0%Z))); VBR (pc 2 5); VBR (pc 5 6); VLBR (LBR (LB (Included 6%Z)))] /\
  chained (parts a ++ parts b) (VBR (pc 2 4)) (VBR (pc 3 5)) /\ ~ chained (parts a ++ parts b) (VBR (pc 3 5)) (VBR (pc 5 6)).
Proof.
  intros a b. assert (Va : valid a) by (apply valid_wf; reflexivity). assert (Vb : valid b) by (apply valid_wf; reflexivity).
  split; [exact Va|]. split; [exact Vb|]. split; [reflexivity|].
  destruct (C82_sets Z _ _ 0%Z a b eq_refl eq_refl Va Vb) as (w & E & _ & _ & _ & H). vm_compute in E. injection E as <-.
  assert (G : forall x y : BoundedRange Z, wf_v (VBS (BS [x])) = true -> wf_v (VBS (BS [y])) = true -> in_piece (emb (VBR y)) (emb (VBR x)) -> holds (VBR x) (VBR y)).
  { intros x y X Y K. apply emb_holds; [exact (set_parts (VBS (BS [x])) (VBR x) eq_refl X (or_introl eq_refl))|exact (set_parts (VBS (BS [y])) (VBR y) eq_refl Y (or_introl eq_refl))|exact K]. }
  split.
  - apply (H _ _ (VBR (pc 2 5)) (VBR (pc 2 5))); try (cbn; tauto); apply G; try reflexivity; split; reflexivity.
  - intros C. assert (X : VBR (pc 2 5) = VBR (pc 5 6)); [|discriminate X].
    apply (H (VBR (pc 3 5)) (VBR (pc 5 6))); try exact C; try (cbn; tauto); apply G; try reflexivity; split; reflexivity.
Qed.
