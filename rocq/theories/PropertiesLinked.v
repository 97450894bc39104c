(** The pieces of a set built from ranges: the groups of ranges linked by overlaps. *)
From Coq Require Import ZArith Lia ZifyBool List Bool.
Import ListNotations.
From Verif Require Import Base ModelBound ModelRanges ModelSets ModelAlgebra ModelValue Spec SpecMap SpecFill
  Order Cuts SetProofs AlgebraProofs CombineProofs ValueProofs Laws Instances NaturalProofs FillProofs SeamProofs PropertiesSets.
Open Scope bool_scope.

(** [x] covers whatever [a] covers. *)
Definition within {T : Type} {OT : Ord T} (a x : BoundedRange T) : Prop := forall p, covers (VBR a) p -> covers (VBR x) p.
(** [a] and [b] are in [l] and not empty, and a chain of such ranges, each overlapping the next, leads from [a] to [b]. *)
Inductive linked {T : Type} {OT : Ord T} (l : list (BoundedRange T)) : BoundedRange T -> BoundedRange T -> Prop :=
| linked_self a : In a l -> has_room a -> linked l a a
| linked_next a b c : In a l -> has_room a -> ~ clear_of a b -> linked l b c -> linked l a c.

Section Proofs.
Context {T : Type} {OT : Ord T} {OL : OrdLaws T}.
Notation sc r := (lcut (br_start r)).
Notation ec r := (ucut (br_end r)).

Lemma within_cuts (a x : BoundedRange T) : has_room a -> (within a x <-> cle (sc x) (sc a) = true /\ cle (ec a) (ec x) = true).
Proof.
  rewrite has_room_cut. unfold room, within. intros R.
  assert (F : forall (r : BoundedRange T) p, covers (VBR r) p <-> cle (fcut (sc r)) (pt p) && negb (cle (fcut (ec r)) (pt p)) = true).
  { intros r p. rewrite covers_fin by exact I. rewrite part_fin by reflexivity. unfold lo, hi. cbn [to_inner nothing negb andb]. reflexivity. }
  split.
  - intros H. pose proof (H (ap (sc a))) as H1. pose proof (H (bp (ec a))) as H2. rewrite !F, !cle_ap in H1. rewrite !F, !cle_bp in H2. clear - OL R H1 H2.
    assert (A : cle (sc a) (sc a) && negb (cle (ec a) (sc a)) = true) by crank.
    assert (B : clt (sc a) (ec a) && negb (clt (ec a) (ec a)) = true) by crank.
    specialize (H1 A). specialize (H2 B). split; [clear H2; crank|clear H1; crank].
  - intros [H1 H2] p. rewrite !F. pose proof (cle_fcut (sc x) (sc a)) as E1. pose proof (cle_fcut (ec a) (ec x)) as E2. rewrite H1 in E1. rewrite H2 in E2.
    clear - OL E1 E2. crank.
Qed.
Lemma clear_cuts (a b : BoundedRange T) : clear_of a b <-> cle (ec a) (sc b) || cle (ec b) (sc a) = true.
Proof. unfold clear_of. rewrite !precedes_cut, orb_true_iff. reflexivity. Qed.
Lemma apart k (x y : BoundedRange T) : wfl k = true -> In x k -> In y k -> x = y \/ cle (ec x) (sc y) = true \/ cle (ec y) (sc x) = true.
Proof.
  induction k as [|r k IH]; cbn [wfl]; intros W; [intros []|]. apply andb_prop in W as [W W2]. apply andb_prop in W as [_ W1]. rewrite forallb_forall in W1. unfold sep in W1.
  intros [<-|Hx] [<-|Hy]; auto.
Qed.
Lemma roomy k (x : BoundedRange T) : wfl k = true -> In x k -> cle (ec x) (sc x) = false.
Proof.
  induction k as [|r k IH]; cbn [wfl]; intros W; [intros []|]. apply andb_prop in W as [W W2]. apply andb_prop in W as [W _]. unfold room in W.
  intros [<-|Hx]; [|auto]. destruct (cle _ _); [discriminate|reflexivity].
Qed.

Lemma linked_trans l a b c : linked l a b -> linked l b c -> linked l a c.
Proof. induction 1 as [a Ia R|a b b' Ia R N H IH]; intros K; [exact K|]. eapply linked_next; eauto. Qed.
Lemma linked_ends l a b : linked l a b -> (In a l /\ has_room a) /\ (In b l /\ has_room b).
Proof. induction 1; tauto. Qed.
Lemma linked_sym l a b : linked l a b -> linked l b a.
Proof.
  induction 1 as [a Ia R|a b c Ia R N H IH]; [constructor; assumption|]. apply (linked_trans l c b a IH). apply linked_ends in H as [[Ib Rb] _].
  apply (linked_next l b a a); [exact Ib|exact Rb| |constructor; assumption]. intros C. apply N. unfold clear_of in *. tauto.
Qed.

Section Set_.
Context (l k : list (BoundedRange T)) (W : wfl k = true) (P : forall p, bl_in k p = bl_in l p).
Lemma found m p : bl_in m p = true <-> exists r, In r m /\ Cuts.br_in r p = true.
Proof. unfold bl_in. rewrite existsb_exists. reflexivity. Qed.
Lemma home a : In a l -> has_room a -> exists x, In x k /\ cle (sc x) (sc a) = true /\ cle (ec a) (ec x) = true.
Proof.
  rewrite has_room_cut. unfold room. intros Ia R.
  assert (H : bl_in k (sc a, true) = true).
  { rewrite P. apply found. exists a. split; [exact Ia|]. unfold Cuts.br_in, pabove, pbelow. cbn [fst snd]. clear - OL R. crank. }
  apply found in H as (x & Ix & H). unfold Cuts.br_in, pabove, pbelow in H. cbn [fst snd] in H. exists x. split; [exact Ix|].
  split; [clear - OL H; crank|]. destruct (cle (ec a) (ec x)) eqn:E; [reflexivity|exfalso].
  assert (G : bl_in k (ec x, false) = true).
  { rewrite P. apply found. exists a. split; [exact Ia|]. unfold Cuts.br_in, pabove, pbelow. cbn [fst snd]. clear - OL H E. crank. }
  apply found in G as (y & Iy & G). unfold Cuts.br_in, pabove, pbelow in G. cbn [fst snd] in G.
  destruct (apart k x y W Ix Iy) as [<-|[A|A]]; clear - OL A G H || clear - OL G; revert G; [crank|crank|crank].
Qed.
(** Pieces that share a place are one. *)
Lemma shared x y p : In x k -> In y k -> Cuts.br_in x p = true -> Cuts.br_in y p = true -> x = y.
Proof.
  intros Ix Iy Hx Hy. destruct (apart k x y W Ix Iy) as [E|A]; [exact E|exfalso]. unfold Cuts.br_in, pabove, pbelow in *. destruct p as [q []]; cbn [fst snd] in *;
    destruct A as [A|A]; clear - OL A Hx Hy; revert A Hx Hy; crank.
Qed.
Definition in_piece (a x : BoundedRange T) : Prop := cle (sc x) (sc a) = true /\ cle (ec a) (ec x) = true.
Lemma in_piece_place a x p : in_piece a x -> Cuts.br_in a p = true -> Cuts.br_in x p = true.
Proof. intros [A B] H. unfold Cuts.br_in, pabove, pbelow in *. destruct p as [q []]; cbn [fst snd] in *; clear - OL A B H; crank. Qed.
Lemma start_place a : has_room a -> Cuts.br_in a (sc a, true) = true.
Proof. rewrite has_room_cut. unfold room, Cuts.br_in, pabove, pbelow. cbn [fst snd]. intros R. clear - OL R. crank. Qed.
Lemma meet_place a b : has_room a -> has_room b -> ~ clear_of a b -> exists p, Cuts.br_in a p = true /\ Cuts.br_in b p = true.
Proof.
  rewrite !has_room_cut, clear_cuts. unfold room. intros A B C. apply not_true_is_false in C.
  destruct (cle (sc a) (sc b)) eqn:E; [exists (sc b, true)|exists (sc a, true)]; unfold Cuts.br_in, pabove, pbelow; cbn [fst snd]; clear - OL A B C E; split; crank.
Qed.
Lemma place_room a p : Cuts.br_in a p = true -> has_room a.
Proof. rewrite has_room_cut. unfold room, Cuts.br_in, pabove, pbelow. destruct p as [q []]; cbn [fst snd]; intros H; clear - OL H; crank. Qed.
Lemma one_home a x y : has_room a -> In x k -> In y k -> in_piece a x -> in_piece a y -> x = y.
Proof. intros R Ix Iy Hx Hy. apply (shared x y (sc a, true)); auto; eapply in_piece_place; eauto using start_place. Qed.
Lemma linked_same a b : linked l a b -> forall x y, In x k -> In y k -> in_piece a x -> in_piece b y -> x = y.
Proof.
  induction 1 as [a Ia R|a b c Ia R N H IH]; intros x y Ix Iy Hx Hy; [exact (one_home a x y R Ix Iy Hx Hy)|].
  pose proof (linked_ends _ _ _ H) as [[Ib Rb] _]. destruct (home b Ib Rb) as (z & Iz & Hz).
  rewrite <- (IH z y Iz Iy Hz Hy). destruct (meet_place a b R Rb N) as (p & Ha & Hb). apply (shared x z p); auto; eapply in_piece_place; eauto.
Qed.
Lemma filter_less {A : Type} (f g : A -> bool) m c : (forall q, f q = true -> g q = true) -> In c m -> f c = false -> g c = true ->
  (length (filter f m) < length (filter g m))%nat.
Proof.
  intros H. assert (Le : forall m, (length (filter f m) <= length (filter g m))%nat).
  { induction m0 as [|q m0 J]; cbn [filter]; [lia|]. pose proof (H q) as Hq. destruct (f q); [rewrite (Hq eq_refl); cbn [length]; lia|]. destruct (g q); cbn [length]; lia. }
  induction m as [|q m IH]; intros I F G; [destruct I|]. cbn [filter]. pose proof (H q) as Hq. pose proof (Le m) as L. destruct I as [<-|I].
  - rewrite F, G. cbn [length]. lia.
  - specialize (IH I F G). destruct (f q); [rewrite (Hq eq_refl); cbn [length]; lia|]. destruct (g q); cbn [length]; lia.
Qed.
Lemma first_of n : forall a x, (length (filter (fun q => clt (sc q) (sc a)) l) < n)%nat -> In a l -> has_room a -> In x k -> in_piece a x ->
  exists f, linked l a f /\ cle (sc f) (sc x) = true /\ cle (sc x) (sc f) = true.
Proof.
  induction n as [|n IH]; intros a x L Ia R Ix Hx; [lia|]. destruct (cle (sc a) (sc x)) eqn:E.
  - exists a. split; [constructor; assumption|]. split; [exact E|apply Hx].
  - pose proof R as R'. rewrite has_room_cut in R'. unfold room in R'. destruct Hx as [H1 H2].
    assert (Px : Cuts.br_in x (sc a, false) = true) by (unfold Cuts.br_in, pabove, pbelow; cbn [fst snd]; clear - OL R' H1 H2 E; crank).
    assert (Q : bl_in l (sc a, false) = true) by (rewrite <- P; apply found; eauto). apply found in Q as (c & Ic & Hc).
    pose proof (place_room _ _ Hc) as Rc. destruct (home c Ic Rc) as (y & Iy & Hy).
    assert (y = x) by (apply (shared y x (sc a, false)); auto; eapply in_piece_place; eauto). subst y.
    unfold Cuts.br_in, pabove, pbelow in Hc. cbn [fst snd] in Hc.
    assert (M : (length (filter (fun q => clt (sc q) (sc c)) l) < length (filter (fun q => clt (sc q) (sc a)) l))%nat).
    { apply (filter_less _ _ l c); [|exact Ic| |].
      - intros q Hq. clear - OL Hq Hc. crank.
      - clear - OL. crank.
      - clear - OL Hc. crank. }
    destruct (IH c x) as (f & Lf & Cf); [lia|exact Ic|exact Rc|exact Ix|exact Hy|]. exists f. split; [|exact Cf].
    apply (linked_next l a c f); [exact Ia|exact R| |exact Lf]. rewrite clear_cuts. clear - OL Hc R'. intros C. revert C. crank.
Qed.
Lemma same_linked a b x : In a l -> has_room a -> In b l -> has_room b -> In x k -> in_piece a x -> in_piece b x -> linked l a b.
Proof.
  intros Ia Ra Ib Rb Ix Ha Hb. destruct (first_of _ a x (Nat.lt_succ_diag_r _) Ia Ra Ix Ha) as (f & Lf & F1 & F2).
  destruct (first_of _ b x (Nat.lt_succ_diag_r _) Ib Rb Ix Hb) as (g & Lg & G1 & G2). apply (linked_trans l a f b Lf).
  pose proof (linked_ends _ _ _ Lf) as [_ [If Rf]]. pose proof (linked_ends _ _ _ Lg) as [_ [Ig Rg]].
  apply (linked_next l f g b); [exact If|exact Rf| |apply linked_sym, Lg]. rewrite has_room_cut in Rf, Rg. unfold room in *. rewrite clear_cuts.
  clear - OL Rf Rg F1 F2 G1 G2. intros C. revert C. crank.
Qed.
Lemma member x : In x k -> exists a, In a l /\ has_room a /\ in_piece a x.
Proof.
  intros Ix. assert (R : has_room x). { apply has_room_cut. unfold room. rewrite (roomy k x W Ix). reflexivity. }
  pose proof (start_place x R) as H. assert (Q : bl_in l (sc x, true) = true) by (rewrite <- P; apply found; eauto). apply found in Q as (a & Ia & Ha).
  pose proof (place_room _ _ Ha) as Ra. destruct (home a Ia Ra) as (y & Iy & Hy). exists a. split; [exact Ia|]. split; [exact Ra|].
  assert (E : y = x) by (apply (shared y x (sc x, true)); auto; eapply in_piece_place; eauto). rewrite <- E. exact Hy.
Qed.
Lemma groups :
  (forall a, In a l -> has_room a -> exists x, In x k /\ within a x) /\
  (forall x, In x k -> exists a, In a l /\ has_room a /\ within a x) /\
  (forall a b x y, In a l -> has_room a -> In b l -> has_room b -> In x k -> In y k -> within a x -> within b y -> (x = y <-> linked l a b)).
Proof.
  split; [|split].
  - intros a Ia R. destruct (home a Ia R) as (x & Ix & H). exists x. split; [exact Ix|]. apply within_cuts; assumption.
  - intros x Ix. destruct (member x Ix) as (a & Ia & R & H). exists a. split; [exact Ia|]. split; [exact R|]. apply within_cuts; assumption.
  - intros a b x y Ia Ra Ib Rb Ix Iy Ha Hb. apply (within_cuts a x Ra) in Ha. apply (within_cuts b y Rb) in Hb. split.
    + intros E. subst y. exact (same_linked a b x Ia Ra Ib Rb Ix Ha Hb).
    + intros L. exact (linked_same a b L x y Ix Iy Ha Hb).
Qed.
End Set_.
End Proofs.

(** Ranges united one by one: the pieces of the result are the groups of linked ranges. *)
Theorem C82_ranges (T : Type) (OT : Ord T) (OL : OrdLaws T) (l : list (BoundedRange T)) :
  exists k, union_all (map VBR l) (VBS (BS [])) = Ret (VBS (BS k)) /\
  (forall a, In a l -> has_room a -> exists x, In x k /\ within a x) /\
  (forall x, In x k -> exists a, In a l /\ has_room a /\ within a x) /\
  (forall a b x y, In a l -> has_room a -> In b l -> has_room b -> In x k -> In y k -> within a x -> within b y -> (x = y <-> linked l a b)).
Proof.
  destruct (unite_pieces l) as ([k] & E & _). exists k. split; [exact E|].
  destruct (unite_ok (map VBR l) (VBS (BS []))) as (r & E' & H & W & _). change (VBS bs_empty) with (@VBS T (BS [])) in E. rewrite E in E'. injection E' as <-.
  assert (Wk : wfl k = true). { apply W; [reflexivity|]. apply Forall_forall. intros x Ix. apply in_map_iff in Ix as (y & <- & _). reflexivity. }
  apply groups; [exact Wk|]. intros p. specialize (H p). rewrite existsb_map in H. exact H.
Qed.
Print Assumptions C82_ranges.
(** The same of the union of two sets and their pieces. *)
Theorem C82_union (T : Type) (OT : Ord T) (OL : OrdLaws T) (s o : list (BoundedRange T)) : valid (VBS (BS s)) -> valid (VBS (BS o)) ->
  exists k, union (VBS (BS s)) (VBS (BS o)) = Ret (VBS (BS k)) /\
  (forall a, In a (s ++ o) -> exists x, In x k /\ within a x) /\
  (forall x, In x k -> exists a, In a (s ++ o) /\ within a x) /\
  (forall a b x y, In a (s ++ o) -> In b (s ++ o) -> In x k -> In y k -> within a x -> within b y -> (x = y <-> linked (s ++ o) a b)).
Proof.
  intros Vs Vo. destruct (bs_add_set_ok (BS s) (BS o)) as ([k] & E & H & W & _). exists k. split.
  { transitivity (ret_bs (bs_add_set (BS s) (BS o))); [reflexivity|]. rewrite E. reflexivity. }
  assert (R : forall a, In a (s ++ o) -> has_room a).
  { intros a Ia. apply in_app_or in Ia. destruct Ia as [Ia|Ia]; [destruct Vs as [F _]|destruct Vo as [F _]]; exact (proj1 (Forall_forall _ _) F a Ia). }
  assert (Wk : wfl k = true) by (apply W, pieces_ok_wfl, Vs).
  destruct (groups (s ++ o) k Wk) as (A & B & C).
  { intros p. specialize (H p). unfold bl_in. rewrite existsb_app. exact H. }
  split; [|split].
  - intros a Ia. exact (A a Ia (R a Ia)).
  - intros x Ix. destruct (B x Ix) as (a & Ia & _ & Wa). exists a. auto.
  - intros a b x y Ia Ib. exact (C a b x y Ia (R a Ia) Ib (R b Ib)).
Qed.
Print Assumptions C82_union.
(** [0..3] and [4..6] overlap [2..5], [6..9] only touches [4..6]; [8..8] is empty. *)
Example C82_ex :
  let l := [pc 6 9; pc 0 3; pc 8 8; pc 4 6; pc 2 5] in
  union_all (map VBR l) (VBS (BS [])) = Ret (VBS (BS [pc 0 6; pc 6 9])) /\ linked l (pc 0 3) (pc 4 6) /\ ~ linked l (pc 4 6) (pc 6 9).
Proof.
  cbv zeta. split; [reflexivity|]. split.
  - apply (linked_next _ _ (pc 2 5)); [cbn; tauto|apply has_room_cut; reflexivity|rewrite clear_cuts; discriminate|].
    apply (linked_next _ _ (pc 4 6)); [cbn; tauto|apply has_room_cut; reflexivity|rewrite clear_cuts; discriminate|].
    apply linked_self; [cbn; tauto|apply has_room_cut; reflexivity].
  - set (l := [pc 6 9; pc 0 3; pc 8 8; pc 4 6; pc 2 5]). intros L. destruct (C82_ranges Z _ _ l) as (k & E & _ & _ & H). injection E as <-.
    assert (X : pc 0 6 = pc 6 9); [|discriminate X].
    apply (H (pc 4 6) (pc 6 9)); try exact L; try (apply has_room_cut; reflexivity); try (subst l; cbn; tauto).
    + apply within_cuts; [apply has_room_cut; reflexivity|split; reflexivity].
    + apply within_cuts; [apply has_room_cut; reflexivity|split; reflexivity].
Qed.
