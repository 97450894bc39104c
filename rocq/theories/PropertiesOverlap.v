(** The intersection of two bounded sets lists the overlaps of their pieces. *)
From Coq Require Import ZArith Lia ZifyBool List Bool.
Import ListNotations.
From Verif Require Import Base ModelBound ModelRanges ModelSets ModelAlgebra ModelValue ModelCost Spec SpecMap SpecFill
  Order Cuts SetProofs AlgebraProofs CombineProofs ValueProofs Laws Instances NaturalProofs FillProofs SeamProofs PropertiesSets PropertiesCost.
Open Scope bool_scope.

(** [x] is where [a] and [b] overlap: it covers what both cover, with a start and an end of theirs. *)
Definition overlap {T : Type} {OT : Ord T} (a b x : BoundedRange T) : Prop :=
  (br_start x = br_start a \/ br_start x = br_start b) /\ (br_end x = br_end a \/ br_end x = br_end b) /\
  forall p, covers (VBR x) p <-> covers (VBR a) p /\ covers (VBR b) p.
(** The overlaps of the pairs that have one, in the order of the pairs. *)
Inductive overlaps {T : Type} {OT : Ord T} : list (BoundedRange T * BoundedRange T) -> list (BoundedRange T) -> Prop :=
| overlaps_end : overlaps [] []
| overlaps_apart a b l k : clear_of a b -> overlaps l k -> overlaps ((a, b) :: l) k
| overlaps_meet a b x l k : ~ clear_of a b -> overlap a b x -> overlaps l k -> overlaps ((a, b) :: l) (x :: k).

Section Proofs.
Context {T : Type} {OT : Ord T} {OL : OrdLaws T}.
Lemma lb_max_one (x y : LowerBound T) : lb_max x y = x \/ lb_max x y = y.
Proof. unfold lb_max. destruct (lb_cmp x y); auto. Qed.
Lemma ub_min_one (x y : UpperBound T) : ub_min x y = x \/ ub_min x y = y.
Proof. unfold ub_min. destruct (ub_cmp x y); auto. Qed.
Lemma cmax_pt (a b : cut T) (p : filled T) : cle (fcut (cmax a b)) (pt p) = cle (fcut a) (pt p) && cle (fcut b) (pt p).
Proof. pose proof (cle_fcut a b) as E. unfold cmax. destruct (cle a b); clear - OL E; crank. Qed.
Lemma cmin_pt (a b : cut T) (p : filled T) : cle (fcut (cmin a b)) (pt p) = cle (fcut a) (pt p) || cle (fcut b) (pt p).
Proof. pose proof (cle_fcut a b) as E. unfold cmin. destruct (cle a b); clear - OL E; crank. Qed.
Lemma inter_overlap (a b : BoundedRange T) : overlap a b (br_inter_br b a).
Proof.
  split; [|split].
  - cbn [br_inter_br br_new br_start]. destruct (lb_max_one (br_start b) (br_start a)); auto.
  - cbn [br_inter_br br_new br_end]. destruct (ub_min_one (br_end b) (br_end a)); auto.
  - intros p. rewrite !covers_fin by exact I. rewrite !part_fin by reflexivity. unfold lo, hi. cbn [to_inner nothing negb andb].
    unfold br_inter_br, br_new. cbn [br_start br_end]. rewrite lcut_max, ucut_min, cmax_pt, cmin_pt, <- andb_true_iff.
    destruct (cle (fcut (lcut (br_start a))) (pt p)), (cle (fcut (lcut (br_start b))) (pt p)), (cle (fcut (ucut (br_end a))) (pt p)), (cle (fcut (ucut (br_end b))) (pt p));
      cbn; intuition congruence.
Qed.
Lemma row (r : BoundedRange T) (o : list (BoundedRange T)) : has_room r -> Forall has_room o -> forall l k, overlaps l k ->
  overlaps (map (fun b => (r, b)) o ++ l) (bs_ranges (br_inter_bs r (BS o)) ++ k).
Proof.
  intros R O l k H. unfold br_inter_bs, bs_inter_br, retain_nonempty. cbn [bs_ranges]. induction O as [|b o Rb O IH]; [exact H|].
  cbn [map filter app]. rewrite br_is_empty_room, negb_involutive. change (room (br_inter_br b r)) with (meets b r). destruct (meets b r) eqn:M.
  - apply overlaps_meet; [|apply inter_overlap|exact IH]. intros C. assert (C' : clear_of b r) by (unfold clear_of in *; tauto).
    apply (meets_clear b r Rb R) in C'. congruence.
  - apply overlaps_apart; [|exact IH]. apply (meets_clear b r Rb R) in M. unfold clear_of in *. tauto.
Qed.
Lemma grid (s o : list (BoundedRange T)) : Forall has_room s -> Forall has_room o ->
  overlaps (list_prod s o) (flat_map (fun r => bs_ranges (br_inter_bs r (BS o))) s).
Proof. intros S O. induction S as [|r s R S IH]; cbn [list_prod flat_map]; [constructor|]. apply row; assumption. Qed.

(** How many pairs overlap. *)
Definition hit (r b : BoundedRange T) : bool := negb (sep b r || sep r b).
Definition hits (s o : list (BoundedRange T)) : nat := list_sum (map (fun r => length (filter (hit r) o)) s).
Lemma hits_length (s o : list (BoundedRange T)) : Forall has_room s -> Forall has_room o ->
  length (flat_map (fun r => bs_ranges (br_inter_bs r (BS o))) s) = hits s o.
Proof.
  intros S O. induction S as [|r s R S IH]; [reflexivity|]. cbn [flat_map]. rewrite app_length, IH. unfold hits. cbn [map list_sum fold_right]. f_equal.
  unfold br_inter_bs, bs_inter_br, retain_nonempty. cbn [bs_ranges]. clear S IH s. induction O as [|b o Rb O IH]; [reflexivity|].
  cbn [map filter]. rewrite br_is_empty_room, negb_involutive. change (room (br_inter_br b r)) with (meets b r).
  rewrite (meets_sep b r) by (apply has_room_cut; assumption). unfold hit at 1. destruct (negb _); cbn [length]; rewrite IH; reflexivity.
Qed.
Lemma hits_cons r s o : hits (r :: s) o = (length (filter (hit r) o) + hits s o)%nat.
Proof. reflexivity. Qed.
Lemma none {A : Type} (f : A -> bool) l : (forall x, In x l -> f x = false) -> filter f l = [].
Proof. induction l as [|x l IH]; intros H; [reflexivity|]. cbn [filter]. rewrite (H x (or_introl eq_refl)). apply IH. intros y Hy. apply H. right. exact Hy. Qed.
Lemma hits_most n : forall s o, (length s + length o <= n)%nat -> wfl s = true -> wfl o = true -> s <> [] -> o <> [] ->
  (hits s o + 1 <= length s + length o)%nat.
Proof.
  induction n as [|n IH]; intros [|r s] [|b o] L Ws Wo Ns No; try contradiction; cbn [length] in L; [lia|]. clear Ns No.
  pose proof Ws as Ws'. pose proof Wo as Wo'. cbn [wfl] in Ws, Wo. apply andb_prop in Ws as [Ws W2]. apply andb_prop in Ws as [Rr W1]. rewrite forallb_forall in W1.
  apply andb_prop in Wo as [Wo O2]. apply andb_prop in Wo as [Rb O1]. rewrite forallb_forall in O1.
  destruct (cle (ucut (br_end r)) (ucut (br_end b))) eqn:E.
  - assert (N : filter (hit r) o = []).
    { apply none. intros x Hx. specialize (O1 x Hx). unfold hit, sep in *. clear - OL E O1. crank. }
    assert (H : (hits (r :: s) (b :: o) <= 1 + hits s (b :: o))%nat).
    { rewrite hits_cons. cbn [filter]. destruct (hit r b); cbn [length]; rewrite N; cbn [length]; lia. }
    destruct s as [|q s]; [cbn in *; lia|]. specialize (IH (q :: s) (b :: o)). cbn [length] in *.
    assert (hits (q :: s) (b :: o) + 1 <= S (length s) + S (length o))%nat by (apply IH; [lia|exact W2|exact Wo'|discriminate|discriminate]). lia.
  - assert (N : forall q, In q s -> hit q b = false).
    { intros q Hq. specialize (W1 q Hq). unfold hit, sep in *. clear - OL E W1. crank. }
    assert (C : forall l, (forall q, In q l -> hit q b = false) -> hits l (b :: o) = hits l o).
    { induction l as [|q l J]; intros Hl; [reflexivity|]. rewrite !hits_cons. cbn [filter]. rewrite (Hl q (or_introl eq_refl)). f_equal. apply J.
      intros y Hy. apply Hl. right. exact Hy. }
    assert (H : (hits (r :: s) (b :: o) <= 1 + hits (r :: s) o)%nat).
    { specialize (C s N). rewrite !hits_cons. cbn [filter]. destruct (hit r b); cbn [length]; lia. }
    destruct o as [|q o].
    + assert (Z : hits (r :: s) [] = 0%nat) by (unfold hits; clear; induction (r :: s); cbn; auto). cbn [length]. lia.
    + assert (hits (r :: s) (q :: o) + 1 <= length (r :: s) + length (q :: o))%nat by (apply IH; [cbn [length] in *; lia|exact Ws'|exact O2|discriminate|discriminate]).
      cbn [length] in *. lia.
Qed.
End Proofs.

(** Pieces of the first set in order, and for each the pieces of the second. *)
Theorem C81_intersection (T : Type) (OT : Ord T) (OL : OrdLaws T) (s o : list (BoundedRange T)) :
  valid (VBS (BS s)) -> valid (VBS (BS o)) ->
  exists k, intersection (VBS (BS s)) (VBS (BS o)) = Ret (VBS (BS k)) /\ overlaps (list_prod s o) k /\
    (s <> [] -> o <> [] -> length k + 1 <= length s + length o)%nat.
Proof.
  intros Vs Vo. eexists. split; [|split; [apply grid; [apply Vs|apply Vo]|]].
  2: { intros Ns No. rewrite hits_length by (apply Vs || apply Vo). apply (hits_most (length s + length o)); [lia|apply pieces_ok_wfl, Vs|apply pieces_ok_wfl, Vo|exact Ns|exact No]. }
  assert (W : wfl (flat_map (fun r => bs_ranges (br_inter_bs r (BS o))) s) = true) by (apply pairs_wf; apply pieces_ok_wfl; assumption).
  destruct (inter_work (BS o) s [] no_work O W) as (w & E & _). cbn [app] in E.
  transitivity (ret_bs (bs_inter_bs (BS s) (BS o))); [reflexivity|]. rewrite C76_inter_same. unfold bs_inter_bs_work. cbn [bs_ranges] in *. rewrite E. reflexivity.
Qed.
Print Assumptions C81_intersection.
(** [{0..3, 5..9}] and [{1..6, 9..12}]: two overlaps of four pairs; and as many pieces as there can be. *)
Example C81_ex :
  valid (VBS (BS [pc 0 3; pc 5 9])) /\ valid (VBS (BS [pc 1 6; pc 9 12])) /\
  intersection (VBS (BS [pc 0 3; pc 5 9])) (VBS (BS [pc 1 6; pc 9 12])) = Ret (VBS (BS [pc 1 3; pc 5 6])) /\
  overlap (pc 5 9) (pc 1 6) (pc 5 6) /\ clear_of (pc 5 9) (pc 9 12) /\
  intersection (VBS (BS [pc 0 3; pc 5 9])) (VBS (BS [pc 1 6; pc 7 12])) = Ret (VBS (BS [pc 1 3; pc 5 6; pc 7 9])).
Proof.
  split; [apply valid_wf; reflexivity|]. split; [apply valid_wf; reflexivity|]. split; [vm_compute; reflexivity|]. split; [exact (inter_overlap (pc 5 9) (pc 1 6))|].
  split; [left; cbn; discriminate|vm_compute; reflexivity].
Qed.
