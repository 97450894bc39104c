(** [BoundedRange::combine] and [BoundedSet::add_range] piece by piece. *)
From Coq Require Import Lia ZifyBool.
From Verif Require Import Base ModelBound ModelRanges ModelSets Order Cuts SetProofs.

Section Combine.
Context {T : Type} {OT : Ord T} {OL : OrdLaws T}.

Definition meets (a b : BoundedRange T) : bool := room (br_inter_br a b).

Lemma meets_sep (a b : BoundedRange T) : room a = true -> room b = true ->
  meets a b = negb (sep a b || sep b a).
Proof. unfold meets. intros A B. ranges. Qed.

Lemma combine_cases (a b : BoundedRange T) :
  br_combine a b =
    if negb (room b) then Ret a else if negb (room a) then Ret b
    else if meets a b then Ret (hull a b) else Panic.
Proof.
  unfold br_combine, meets. rewrite !br_is_empty_room, intersects_room. reflexivity.
Qed.

Lemma meets_hull (r x y : BoundedRange T) :
  room y = true -> sep x y || sep y x = true -> meets x r = true -> meets y (hull r x) = meets y r.
Proof. unfold meets, hull. intros A B C. ranges. Qed.

Lemma wfl_apart l1 (x : BoundedRange T) l2 y : wfl (l1 ++ x :: l2) = true -> In y (l1 ++ l2) -> sep x y || sep y x = true.
Proof.
  intros W I. rewrite wfl_app in W. apply andb_prop in W as [W1 W2]. apply andb_prop in W1 as [_ W1].
  cbn in W1. apply andb_prop in W1 as [W1 _]. apply andb_prop in W1 as [_ W1].
  apply in_app_or in I as [I|I].
  - pose proof (forallb_In _ _ y W2 I) as G. cbn in G. apply andb_prop in G as [G _]. rewrite G. apply orb_true_r.
  - rewrite (forallb_In _ _ y W1 I). reflexivity.
Qed.

Lemma add_range_fuel_pieces (fuel : nat) (ranges : list (BoundedRange T)) (r : BoundedRange T) :
  (length ranges < fuel)%nat -> wfl ranges = true -> room r = true ->
  exists l h, bs_add_range_fuel fuel ranges r = Ret l
    /\ (forall x, In x l <-> x = h \/ In x ranges /\ meets x r = false)
    /\ (forall p, br_in h p = true <-> br_in r p = true \/ exists x, In x ranges /\ meets x r = true /\ br_in x p = true)
    /\ length l = S (length (filter (fun x => negb (meets x r)) ranges)).
Proof.
  revert ranges r. induction fuel as [|fuel IH]; intros ranges r Hlen W Hr; [lia|].
  simpl. rewrite br_is_empty_room, negb_involutive, Hr.
  destruct (position (fun range => br_intersects_br range r) ranges) as [i|] eqn:P.
  - apply position_some in P as (l1 & x & l2 & -> & -> & Hx & _).
    rewrite vd_index_mid, vd_remove_mid. simpl.
    rewrite intersects_room in Hx. pose proof Hx as Hx'. rewrite inter_room_sym in Hx'.
    rewrite combine_hull by exact Hx'. simpl.
    rewrite app_length in Hlen. simpl in Hlen.
    assert (M : forall y, In y (l1 ++ l2) -> meets y (hull r x) = meets y r).
    { intros y I. apply meets_hull; [|apply (wfl_apart l1 x l2 y W I)|exact Hx].
      apply (wfl_room _ y W). apply in_app_or in I as [I|I]; apply in_or_app; simpl; auto. }
    destruct (IH (l1 ++ l2) (hull r x)) as (l & h & E & Hin & Hh & Hl).
    { rewrite app_length; lia. }
    { apply wfl_remove with (x := x). exact W. }
    { apply hull_room, Hr. }
    exists l, h. split; [exact E|]. split; [|split].
    + intros y. rewrite Hin. split.
      * intros [->|[I F]]; [auto|]. right. rewrite M in F by exact I. split; [|exact F].
        apply in_app_or in I as [I|I]; apply in_or_app; simpl; auto.
      * intros [->|[I F]]; [auto|]. right. apply in_app_or in I as [I|[<-|I]].
        -- assert (J : In y (l1 ++ l2)) by (apply in_or_app; auto). rewrite M by exact J. auto.
        -- exfalso. unfold meets in F. congruence.
        -- assert (J : In y (l1 ++ l2)) by (apply in_or_app; auto). rewrite M by exact J. auto.
    + intros p. rewrite Hh, hull_in by exact Hx'. split.
      * intros [H|(y & I & F & G)].
        -- apply orb_prop in H as [H|H]; [auto|]. right. exists x. split; [apply in_or_app; simpl; auto|]. auto.
        -- right. exists y. rewrite M in F by exact I. split; [|auto].
           apply in_app_or in I as [I|I]; apply in_or_app; simpl; auto.
      * intros [H|(y & I & F & G)]; [left; rewrite H; reflexivity|].
        apply in_app_or in I as [I|[<-|I]].
        -- right. exists y. assert (J : In y (l1 ++ l2)) by (apply in_or_app; auto). rewrite M by exact J. auto.
        -- left. rewrite G. apply orb_true_r.
        -- right. exists y. assert (J : In y (l1 ++ l2)) by (apply in_or_app; auto). rewrite M by exact J. auto.
    + rewrite Hl. f_equal. rewrite (filter_app _ l1 (x :: l2)). cbn [filter]. change (room (br_inter_br x r)) with (meets x r) in Hx. rewrite Hx. cbn [negb].
      rewrite <- filter_app. f_equal. apply filter_ext_in. intros y I. rewrite M by exact I. reflexivity.
  - apply position_none in P.
    assert (N : forall y, In y ranges -> meets y r = false).
    { intros y I. pose proof (forallb_In _ _ y P I) as G. simpl in G. rewrite intersects_room in G.
      unfold meets. destruct (room (br_inter_br y r)); [discriminate G|reflexivity]. }
    assert (L : length (filter (fun x => negb (meets x r)) ranges) = length ranges).
    { clear -N. induction ranges as [|y l IH]; simpl; [reflexivity|]. rewrite N by (left; reflexivity). simpl.
      rewrite IH; [reflexivity|]. intros z I. apply N. right; exact I. }
    assert (Q : exists l1 l2, ranges = l1 ++ l2 /\
      vd_insert ranges (match position (fun range => lb_gt (br_start range) (br_start r)) ranges with
                        | Some i => i | None => length ranges end) r = Ret (l1 ++ r :: l2)).
    { destruct (position (fun range => lb_gt (br_start range) (br_start r)) ranges) as [j|] eqn:Q.
      - apply position_some in Q as (l1 & x & l2 & -> & -> & _ & _). exists l1, (x :: l2). split; [reflexivity|].
        apply vd_insert_mid.
      - exists ranges, []. rewrite app_nil_r. split; [reflexivity|].
        pose proof (vd_insert_mid ranges [] r) as V. rewrite app_nil_r in V. exact V. }
    destruct Q as (l1 & l2 & -> & ->).
    exists (l1 ++ r :: l2), r. split; [reflexivity|]. split; [|split].
    + intros y. split.
      * intros I. apply in_app_or in I as [I|[<-|I]]; [right|auto|right];
          (split; [apply in_or_app; auto|]); apply N, in_or_app; auto.
      * intros [->|[I _]]; [apply in_or_app; simpl; auto|].
        apply in_app_or in I as [I|I]; apply in_or_app; simpl; auto.
    + intros p. split; [auto|]. intros [H|(y & I & F & _)]; [exact H|]. rewrite N in F by exact I. discriminate.
    + rewrite L, !app_length. simpl. lia.
Qed.

End Combine.
