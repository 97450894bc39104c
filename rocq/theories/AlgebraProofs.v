(** Every intersection, union and complement between crate types returns,
    covers the right places, and keeps the invariant. *)
From Coq Require Import Lia ZifyBool.
From Verif Require Import Base ModelBound ModelRanges ModelSets ModelAlgebra Order Cuts SetProofs.

Section Algebra.
Context {T : Type} {OT : Ord T} {OL : OrdLaws T}.

(** ** Range with range *)

Lemma br_inter_br_in (a b : BoundedRange T) (p : place T) :
  br_in (br_inter_br a b) p = br_in a p && br_in b p.
Proof. ranges. Qed.
Lemma br_inter_lbr_in (a : BoundedRange T) (b : LowerBoundedRange T) (p : place T) :
  br_in (br_inter_lbr a b) p = br_in a p && lbr_in b p.
Proof. ranges. Qed.
Lemma br_inter_ubr_in (a : BoundedRange T) (b : UpperBoundedRange T) (p : place T) :
  br_in (br_inter_ubr a b) p = br_in a p && ubr_in b p.
Proof. ranges. Qed.
Lemma lbr_inter_lbr_in (a b : LowerBoundedRange T) (p : place T) :
  lbr_in (lbr_inter_lbr a b) p = lbr_in a p && lbr_in b p.
Proof. ranges. Qed.
Lemma lbr_inter_ubr_in (a : LowerBoundedRange T) (b : UpperBoundedRange T) (p : place T) :
  br_in (lbr_inter_ubr a b) p = lbr_in a p && ubr_in b p.
Proof. ranges. Qed.
Lemma ubr_inter_ubr_in (a b : UpperBoundedRange T) (p : place T) :
  ubr_in (ubr_inter_ubr a b) p = ubr_in a p && ubr_in b p.
Proof. ranges. Qed.

(** ** Set with range: map, then drop the empty pieces *)

Lemma bl_in_retain (l : list (BoundedRange T)) (p : place T) : bl_in (retain_nonempty l) p = bl_in l p.
Proof.
  induction l as [|r l IH]; simpl; [reflexivity|].
  rewrite br_is_empty_room, negb_involutive.
  destruct (room r) eqn:E; simpl; rewrite IH; [reflexivity|].
  rewrite not_room_in by exact E. reflexivity.
Qed.
Lemma bl_in_map (f : BoundedRange T -> BoundedRange T) (g : bool) (l : list (BoundedRange T)) (p : place T) :
  (forall r, br_in (f r) p = br_in r p && g) -> bl_in (map f l) p = bl_in l p && g.
Proof.
  intros H. induction l as [|r l IH]; simpl; [reflexivity|].
  rewrite H, IH. destruct (br_in r p), (bl_in l p), g; reflexivity.
Qed.
Lemma existsb_andb_r {A : Type} (f : A -> bool) (b : bool) (l : list A) :
  existsb (fun x => f x && b) l = existsb f l && b.
Proof.
  induction l as [|x l IH]; simpl; [reflexivity|]. rewrite IH.
  destruct (f x), (existsb f l), b; reflexivity.
Qed.

(** [f] shrinks ranges. *)
Definition shrinks (f : BoundedRange T -> BoundedRange T) : Prop :=
  forall r, cle (lcut (br_start r)) (lcut (br_start (f r))) = true
         /\ cle (ucut (br_end (f r))) (ucut (br_end r)) = true.

Lemma wfl_shrink (f : BoundedRange T -> BoundedRange T) (l : list (BoundedRange T)) :
  shrinks f -> wfl l = true -> wfl (retain_nonempty (map f l)) = true.
Proof.
  intros Hf. induction l as [|r l IH]; simpl; intros W; [reflexivity|].
  apply andb_prop in W as [W1 W]. apply andb_prop in W1 as [_ S]. specialize (IH W).
  rewrite br_is_empty_room, negb_involutive.
  destruct (room (f r)) eqn:E; [|exact IH]. simpl. rewrite E, IH. simpl. rewrite andb_true_r.
  apply forallb_forall. intros y Hy. unfold retain_nonempty in Hy.
  apply filter_In in Hy as [Hy _]. apply in_map_iff in Hy as (x & <- & Hx).
  pose proof (forallb_In _ _ x S Hx) as Sx.
  destruct (Hf r) as [_ H2]. destruct (Hf x) as [H1 _].
  clear - OL Sx H1 H2. unfold sep in *. crank.
Qed.

Lemma shrinks_br (o : BoundedRange T) : shrinks (fun r => br_inter_br r o).
Proof. intros r. split; ranges. Qed.
Lemma shrinks_lbr (o : LowerBoundedRange T) : shrinks (fun r => br_inter_lbr r o).
Proof. intros r. split; ranges. Qed.
Lemma shrinks_ubr (o : UpperBoundedRange T) : shrinks (fun r => br_inter_ubr r o).
Proof. intros r. split; ranges. Qed.

Lemma bs_inter_br_in (s : BoundedSet T) (o : BoundedRange T) (p : place T) :
  bs_in (bs_inter_br s o) p = bs_in s p && br_in o p.
Proof.
  unfold bs_in, bs_inter_br. simpl. rewrite bl_in_retain.
  apply bl_in_map. intros r. apply br_inter_br_in.
Qed.
Lemma bs_inter_lbr_in (s : BoundedSet T) (o : LowerBoundedRange T) (p : place T) :
  bs_in (bs_inter_lbr s o) p = bs_in s p && lbr_in o p.
Proof.
  unfold bs_in, bs_inter_lbr. simpl. rewrite bl_in_retain.
  apply bl_in_map. intros r. apply br_inter_lbr_in.
Qed.
Lemma bs_inter_ubr_in (s : BoundedSet T) (o : UpperBoundedRange T) (p : place T) :
  bs_in (bs_inter_ubr s o) p = bs_in s p && ubr_in o p.
Proof.
  unfold bs_in, bs_inter_ubr. simpl. rewrite bl_in_retain.
  apply bl_in_map. intros r. apply br_inter_ubr_in.
Qed.
Lemma bs_inter_br_wf (s : BoundedSet T) (o : BoundedRange T) :
  wf_bs s = true -> wf_bs (bs_inter_br s o) = true.
Proof. apply (wfl_shrink _ (bs_ranges s) (shrinks_br o)). Qed.
Lemma bs_inter_lbr_wf (s : BoundedSet T) (o : LowerBoundedRange T) :
  wf_bs s = true -> wf_bs (bs_inter_lbr s o) = true.
Proof. apply (wfl_shrink _ (bs_ranges s) (shrinks_lbr o)). Qed.
Lemma bs_inter_ubr_wf (s : BoundedSet T) (o : UpperBoundedRange T) :
  wf_bs s = true -> wf_bs (bs_inter_ubr s o) = true.
Proof. apply (wfl_shrink _ (bs_ranges s) (shrinks_ubr o)). Qed.

Lemma retain_room_id (l : list (BoundedRange T)) : wfl l = true -> retain_nonempty l = l.
Proof.
  induction l as [|r l IH]; simpl; intros W; [reflexivity|].
  apply andb_prop in W as [W1 W]. apply andb_prop in W1 as [R _].
  rewrite br_is_empty_room, R. simpl. rewrite IH by exact W. reflexivity.
Qed.

(** A loop that adds one set per stored range. *)
Lemma fold_add_ok (f : BoundedRange T -> outcome (BoundedSet T)) (g : BoundedRange T -> place T -> bool) :
  (forall r, exists s, f r = Ret s /\ forall p, bs_in s p = g r p) ->
  forall l s0, exists s',
    foldM (fun set r => s <- f r ;; bs_add_set set s) l s0 = Ret s'
    /\ (forall p, bs_in s' p = bs_in s0 p || existsb (fun r => g r p) l)
    /\ (wf_bs s0 = true -> wf_bs s' = true).
Proof.
  intros Hf. induction l as [|r l IH]; intros s0; simpl.
  - exists s0. repeat split; auto. intros p. rewrite orb_false_r. reflexivity.
  - destruct (Hf r) as (s & -> & Hs). simpl.
    destruct (bs_add_set_ok s0 s) as (s1 & -> & H1 & W1 & _). simpl.
    destruct (IH s1) as (s2 & -> & H2 & W2).
    exists s2. split; [reflexivity|]. split; [|auto].
    intros p. rewrite H2, H1, Hs. destruct (bs_in s0 p), (g r p); reflexivity.
Qed.

Lemma bs_inter_bs_ok (a b : BoundedSet T) :
  exists s, bs_inter_bs a b = Ret s /\ (forall p, bs_in s p = bs_in a p && bs_in b p) /\ wf_bs s = true.
Proof.
  destruct (fold_add_ok (fun r => Ret (br_inter_bs r b)) (fun r p => br_in r p && bs_in b p))
    with (l := bs_ranges a) (s0 := @bs_empty T) as (s & E & H & W).
  { intros r. eexists. split; [reflexivity|]. intros p. unfold br_inter_bs.
    rewrite bs_inter_br_in. apply andb_comm. }
  exists s. split; [exact E|]. split; [|apply W; reflexivity].
  intros p. rewrite H. simpl. apply existsb_andb_r.
Qed.

(** ** Half-bounded sets *)

Lemma lbs_inter_br_ok (a : LowerBoundedSet T) (b : BoundedRange T) :
  exists s, lbs_inter_br a b = Ret s /\ (forall p, bs_in s p = lbs_in a p && br_in b p) /\ wf_bs s = true.
Proof.
  unfold lbs_inter_br.
  destruct (bs_add_set_ok (bs_from_br (lbr_inter_br (lbs_lbr a) b)) (bs_inter_br (lbs_ranges a) b))
    as (s & -> & H & W & _).
  exists s. split; [reflexivity|]. split; [|apply W, wf_from_br].
  intros p. rewrite H, in_from_br, bs_inter_br_in. unfold lbr_inter_br, lbs_in. rewrite br_inter_lbr_in.
  destruct (br_in b p), (lbr_in (lbs_lbr a) p), (bs_in (lbs_ranges a) p); reflexivity.
Qed.

Lemma bs_inter_lbs_ok (a : BoundedSet T) (b : LowerBoundedSet T) :
  exists s, bs_inter_lbs a b = Ret s /\ (forall p, bs_in s p = bs_in a p && lbs_in b p)
    /\ (wf_bs a = true -> wf_bs s = true).
Proof.
  destruct (fold_add_ok (fun r => br_inter_lbs r b) (fun r p => br_in r p && lbs_in b p))
    with (l := bs_ranges a) (s0 := bs_inter_lbr a (lbs_lbr b)) as (s & E & H & W).
  { intros r. unfold br_inter_lbs. destruct (lbs_inter_br_ok b r) as (s & -> & H & _).
    exists s. split; [reflexivity|]. intros p. rewrite H. apply andb_comm. }
  exists s. split; [exact E|]. split; [|intros Wa; apply W, bs_inter_lbr_wf, Wa].
  intros p. rewrite H, existsb_andb_r, bs_inter_lbr_in. unfold bs_in, bl_in, lbs_in.
  destruct (existsb (fun r => br_in r p) (bs_ranges a)), (lbr_in (lbs_lbr b) p), (bs_in (lbs_ranges b) p);
    reflexivity.
Qed.

Lemma retain_in (s : BoundedSet T) (p : place T) : bs_in (BS (retain_nonempty (bs_ranges s))) p = bs_in s p.
Proof. apply bl_in_retain. Qed.
Lemma retain_wf (s : BoundedSet T) : wf_bs s = true -> BS (retain_nonempty (bs_ranges s)) = s.
Proof. intros W. rewrite retain_room_id by exact W. destruct s; reflexivity. Qed.

Lemma ubs_inter_br_ok (a : UpperBoundedSet T) (b : BoundedRange T) :
  exists s, ubs_inter_br a b = Ret s /\ (forall p, bs_in s p = ubs_in a p && br_in b p) /\ wf_bs s = true.
Proof.
  unfold ubs_inter_br. rewrite retain_wf by apply wf_from_br.
  destruct (bs_add_set_ok (bs_from_br (ubr_inter_br (ubs_ubr a) b)) (bs_inter_br (ubs_ranges a) b))
    as (s & -> & H & W & _).
  exists s. split; [reflexivity|]. split; [|apply W, wf_from_br].
  intros p. rewrite H, in_from_br, bs_inter_br_in. unfold ubr_inter_br, ubs_in. rewrite br_inter_ubr_in.
  destruct (br_in b p), (ubr_in (ubs_ubr a) p), (bs_in (ubs_ranges a) p); reflexivity.
Qed.

Lemma bs_inter_ubs_ok (a : BoundedSet T) (b : UpperBoundedSet T) :
  exists s, bs_inter_ubs a b = Ret s /\ (forall p, bs_in s p = bs_in a p && ubs_in b p)
    /\ (wf_bs a = true -> wf_bs s = true).
Proof.
  destruct (fold_add_ok (fun r => br_inter_ubs r b) (fun r p => br_in r p && ubs_in b p))
    with (l := bs_ranges a) (s0 := bs_inter_ubr a (ubs_ubr b)) as (s & E & H & W).
  { intros r. unfold br_inter_ubs. destruct (ubs_inter_br_ok b r) as (s & -> & H & _).
    exists s. split; [reflexivity|]. intros p. rewrite H. apply andb_comm. }
  exists s. split; [exact E|]. split; [|intros Wa; apply W, bs_inter_ubr_wf, Wa].
  intros p. rewrite H, existsb_andb_r, bs_inter_ubr_in. unfold bs_in, bl_in, ubs_in.
  destruct (existsb (fun r => br_in r p) (bs_ranges a)), (ubr_in (ubs_ubr b) p), (bs_in (ubs_ranges b) p);
    reflexivity.
Qed.

Lemma lbs_inter_lbr_in (a : LowerBoundedSet T) (b : LowerBoundedRange T) (p : place T) :
  lbs_in (lbs_inter_lbr a b) p = lbs_in a p && lbr_in b p.
Proof.
  unfold lbs_inter_lbr, lbs_in. simpl. rewrite lbr_inter_lbr_in, bs_inter_lbr_in.
  destruct (lbr_in (lbs_lbr a) p), (lbr_in b p), (bs_in (lbs_ranges a) p); reflexivity.
Qed.
Lemma lbs_inter_lbr_wf (a : LowerBoundedSet T) (b : LowerBoundedRange T) :
  wf_lbs a = true -> wf_lbs (lbs_inter_lbr a b) = true.
Proof.
  intros W. apply andb_prop in W as [W S]. unfold wf_lbs, lbs_inter_lbr. simpl.
  rewrite bs_inter_lbr_wf by exact W. simpl.
  apply forallb_forall. intros y Hy. unfold retain_nonempty in Hy.
  apply filter_In in Hy as [Hy _]. apply in_map_iff in Hy as (x & <- & Hx).
  pose proof (forallb_In _ _ x S Hx) as Sx. simpl in Sx. clear - OL Sx. ranges.
Qed.

(** The intersection of two LowerBoundedSets covers too little: the part of
    [b]'s pieces inside [a]'s half-line is missing. *)
Lemma lbs_inter_lbs_ok (a b : LowerBoundedSet T) :
  exists s, lbs_inter_lbs a b = Ret s
    /\ (forall p, lbs_in s p = (lbs_in a p && lbr_in (lbs_lbr b) p) || (bs_in (lbs_ranges a) p && lbs_in b p))
    /\ (wf_lbs a = true -> wf_lbs s = true).
Proof.
  unfold lbs_inter_lbs.
  destruct (bs_inter_lbs_ok (lbs_ranges a) b) as (s1 & -> & H1 & _). simpl.
  destruct (lbs_add_set_ok (lbs_inter_lbr a (lbs_lbr b)) s1) as (s2 & -> & H2 & W2 & _).
  exists s2. split; [reflexivity|]. split; [|intros W; apply W2, lbs_inter_lbr_wf, W].
  intros p. rewrite H2, H1, lbs_inter_lbr_in. reflexivity.
Qed.

Lemma lbs_inter_ubr_ok (a : LowerBoundedSet T) (b : UpperBoundedRange T) :
  exists s, lbs_inter_ubr a b = Ret s /\ (forall p, bs_in s p = lbs_in a p && ubr_in b p) /\ wf_bs s = true.
Proof.
  unfold lbs_inter_ubr. rewrite retain_wf by apply wf_from_br.
  destruct (bs_add_set_ok (bs_from_br (lbr_inter_ubr (lbs_lbr a) b)) (bs_inter_ubr (lbs_ranges a) b))
    as (s & -> & H & W & _). simpl.
  assert (Ws : wf_bs s = true) by apply W, wf_from_br.
  exists s. rewrite retain_wf by exact Ws. split; [reflexivity|]. split; [|exact Ws].
  intros p. rewrite H, in_from_br, bs_inter_ubr_in, lbr_inter_ubr_in. unfold lbs_in.
  destruct (ubr_in b p), (lbr_in (lbs_lbr a) p), (bs_in (lbs_ranges a) p); reflexivity.
Qed.

Lemma ubs_inter_lbr_ok (a : UpperBoundedSet T) (b : LowerBoundedRange T) :
  exists s, ubs_inter_lbr a b = Ret s /\ (forall p, bs_in s p = ubs_in a p && lbr_in b p) /\ wf_bs s = true.
Proof.
  unfold ubs_inter_lbr. rewrite retain_wf by apply wf_from_br.
  destruct (bs_add_set_ok (bs_from_br (ubr_inter_lbr (ubs_ubr a) b)) (bs_inter_lbr (ubs_ranges a) b))
    as (s & -> & H & W & _).
  exists s. split; [reflexivity|]. split; [|apply W, wf_from_br].
  intros p. rewrite H, in_from_br, bs_inter_lbr_in. unfold ubr_inter_lbr, ubs_in. rewrite lbr_inter_ubr_in.
  destruct (lbr_in b p), (ubr_in (ubs_ubr a) p), (bs_in (ubs_ranges a) p); reflexivity.
Qed.

Lemma wf_from_ubr (u : UpperBoundedRange T) : wf_ubs (ubs_from_ubr u) = true.
Proof. reflexivity. Qed.
Lemma wf_from_lbr (u : LowerBoundedRange T) : wf_lbs (lbs_from_lbr u) = true.
Proof. reflexivity. Qed.
Lemma in_from_ubr (u : UpperBoundedRange T) (p : place T) : ubs_in (ubs_from_ubr u) p = ubr_in u p.
Proof. unfold ubs_in, bs_in. simpl. apply orb_false_r. Qed.
Lemma in_from_lbr (u : LowerBoundedRange T) (p : place T) : lbs_in (lbs_from_lbr u) p = lbr_in u p.
Proof. unfold lbs_in, bs_in. simpl. apply orb_false_r. Qed.

Lemma ubs_inter_ubr_ok (a : UpperBoundedSet T) (b : UpperBoundedRange T) :
  exists s, ubs_inter_ubr a b = Ret s /\ (forall p, ubs_in s p = ubs_in a p && ubr_in b p) /\ wf_ubs s = true.
Proof.
  unfold ubs_inter_ubr.
  destruct (ubs_add_set_ok (ubs_from_ubr (ubr_inter_ubr (ubs_ubr a) b)) (bs_inter_ubr (ubs_ranges a) b))
    as (s & -> & H & W & _).
  exists s. split; [reflexivity|]. split; [|apply W, wf_from_ubr].
  intros p. rewrite H, in_from_ubr, bs_inter_ubr_in, ubr_inter_ubr_in. unfold ubs_in.
  destruct (ubr_in b p), (ubr_in (ubs_ubr a) p), (bs_in (ubs_ranges a) p); reflexivity.
Qed.

Lemma lbs_inter_ubs_ok (a : LowerBoundedSet T) (b : UpperBoundedSet T) :
  exists s, lbs_inter_ubs a b = Ret s /\ (forall p, bs_in s p = lbs_in a p && ubs_in b p) /\ wf_bs s = true.
Proof.
  unfold lbs_inter_ubs.
  destruct (lbs_inter_ubr_ok a (ubs_ubr b)) as (s1 & -> & H1 & W1). simpl.
  rewrite retain_wf by exact W1. unfold lbs_inter_bs.
  destruct (bs_inter_lbs_ok (ubs_ranges b) a) as (s2 & -> & H2 & _). simpl.
  destruct (bs_add_set_ok s1 s2) as (s3 & -> & H3 & W3 & _). simpl.
  exists s3. rewrite retain_wf by exact (W3 W1). split; [reflexivity|]. split; [|exact (W3 W1)].
  intros p. rewrite H3, H2, H1. unfold ubs_in.
  destruct (lbs_in a p), (ubr_in (ubs_ubr b) p), (bs_in (ubs_ranges b) p); reflexivity.
Qed.

Lemma ubs_inter_ubs_ok (a b : UpperBoundedSet T) :
  exists s, ubs_inter_ubs a b = Ret s /\ (forall p, ubs_in s p = ubs_in a p && ubs_in b p) /\ wf_ubs s = true.
Proof.
  unfold ubs_inter_ubs.
  destruct (ubs_inter_ubr_ok a (ubs_ubr b)) as (s1 & -> & H1 & W1). simpl. unfold ubs_inter_bs.
  destruct (bs_inter_ubs_ok (ubs_ranges b) a) as (s2 & -> & H2 & _). simpl.
  destruct (ubs_add_set_ok s1 s2) as (s3 & -> & H3 & W3 & _).
  exists s3. split; [reflexivity|]. split; [|exact (W3 W1)].
  intros p. rewrite H3, H2, H1. unfold ubs_in.
  destruct (ubr_in (ubs_ubr a) p), (bs_in (ubs_ranges a) p), (ubr_in (ubs_ubr b) p), (bs_in (ubs_ranges b) p);
    reflexivity.
Qed.

(** ** UnboundedSet *)

Lemma bs_inter_us_ok (a : BoundedSet T) (b : UnboundedSet T) :
  exists s, bs_inter_us a b = Ret s /\ (forall p, bs_in s p = bs_in a p && us_in b p)
    /\ (wf_bs a = true -> wf_bs s = true).
Proof.
  destruct b as [|x]; simpl.
  { exists a. repeat split; auto. intros p. rewrite andb_true_r. reflexivity. }
  destruct (bs_add_set_ok (bs_inter_ubr a (pus_ubr x)) (bs_inter_lbr a (pus_lbr x))) as (s1 & -> & H1 & W1 & _).
  simpl. destruct (bs_inter_bs_ok a (pus_ranges x)) as (s2 & -> & H2 & _). simpl.
  destruct (bs_add_set_ok s1 s2) as (s3 & -> & H3 & W3 & _).
  exists s3. split; [reflexivity|]. split; [|intros W; apply W3, W1, bs_inter_ubr_wf, W].
  intros p. rewrite H3, H2, H1, bs_inter_ubr_in, bs_inter_lbr_in. unfold pus_in.
  destruct (bs_in a p), (ubr_in (pus_ubr x) p), (lbr_in (pus_lbr x) p), (bs_in (pus_ranges x) p); reflexivity.
Qed.

Lemma lbs_inter_us_ok (a : LowerBoundedSet T) (b : UnboundedSet T) :
  exists s, lbs_inter_us a b = Ret s /\ (forall p, lbs_in s p = lbs_in a p && us_in b p)
    /\ (wf_lbs a = true -> wf_lbs s = true).
Proof.
  destruct b as [|x]; simpl.
  { exists a. repeat split; auto. intros p. rewrite andb_true_r. reflexivity. }
  destruct (lbs_inter_ubr_ok a (pus_ubr x)) as (s1 & -> & H1 & _). simpl.
  destruct (lbs_add_set_ok (lbs_inter_lbr a (pus_lbr x)) s1) as (s2 & -> & H2 & W2 & _). simpl.
  unfold lbs_inter_bs. destruct (bs_inter_lbs_ok (pus_ranges x) a) as (s3 & -> & H3 & _). simpl.
  destruct (lbs_add_set_ok s2 s3) as (s4 & -> & H4 & W4 & _).
  exists s4. split; [reflexivity|]. split; [|intros W; apply W4, W2, lbs_inter_lbr_wf, W].
  intros p. rewrite H4, H3, H2, H1, lbs_inter_lbr_in. unfold pus_in.
  destruct (lbs_in a p), (ubr_in (pus_ubr x) p), (lbr_in (pus_lbr x) p), (bs_in (pus_ranges x) p); reflexivity.
Qed.

Lemma ubs_inter_us_ok (a : UpperBoundedSet T) (b : UnboundedSet T) :
  exists s, ubs_inter_us a b = Ret s /\ (forall p, ubs_in s p = ubs_in a p && us_in b p)
    /\ (wf_ubs a = true -> wf_ubs s = true).
Proof.
  destruct b as [|x]; simpl.
  { exists a. repeat split; auto. intros p. rewrite andb_true_r. reflexivity. }
  destruct (ubs_inter_ubr_ok a (pus_ubr x)) as (s0 & -> & H0 & W0). simpl.
  destruct (ubs_inter_lbr_ok a (pus_lbr x)) as (s1 & -> & H1 & _). simpl.
  destruct (ubs_add_set_ok s0 s1) as (s2 & -> & H2 & W2 & _). simpl.
  unfold ubs_inter_bs. destruct (bs_inter_ubs_ok (pus_ranges x) a) as (s3 & -> & H3 & _). simpl.
  destruct (ubs_add_set_ok s2 s3) as (s4 & -> & H4 & W4 & _).
  exists s4. split; [reflexivity|]. split; [|intros W; apply W4, W2, W0].
  intros p. rewrite H4, H3, H2, H1, H0. unfold pus_in.
  destruct (ubs_in a p), (ubr_in (pus_ubr x) p), (lbr_in (pus_lbr x) p), (bs_in (pus_ranges x) p); reflexivity.
Qed.

Lemma us_inter_br_ok (a : UnboundedSet T) (b : BoundedRange T) :
  exists s, us_inter_br a b = Ret s /\ (forall p, bs_in s p = us_in a p && br_in b p) /\ wf_bs s = true.
Proof.
  unfold us_inter_br. destruct (bs_inter_us_ok (bs_from_br b) a) as (s & -> & H & W).
  exists s. split; [reflexivity|]. split; [|apply W, wf_from_br].
  intros p. rewrite H, in_from_br. apply andb_comm.
Qed.
Lemma us_inter_lbr_ok (a : UnboundedSet T) (b : LowerBoundedRange T) :
  exists s, us_inter_lbr a b = Ret s /\ (forall p, lbs_in s p = us_in a p && lbr_in b p) /\ wf_lbs s = true.
Proof.
  unfold us_inter_lbr. destruct (lbs_inter_us_ok (lbs_from_lbr b) a) as (s & -> & H & W).
  exists s. split; [reflexivity|]. split; [|apply W, wf_from_lbr].
  intros p. rewrite H, in_from_lbr. apply andb_comm.
Qed.
Lemma us_inter_ubr_ok (a : UnboundedSet T) (b : UpperBoundedRange T) :
  exists s, us_inter_ubr a b = Ret s /\ (forall p, ubs_in s p = us_in a p && ubr_in b p) /\ wf_ubs s = true.
Proof.
  unfold us_inter_ubr. destruct (ubs_inter_us_ok (ubs_from_ubr b) a) as (s & -> & H & W).
  exists s. split; [reflexivity|]. split; [|apply W, wf_from_ubr].
  intros p. rewrite H, in_from_ubr. apply andb_comm.
Qed.

(** ** Unions *)

Lemma lbs_union_lbs_ok (a b : LowerBoundedSet T) :
  exists s, lbs_union_lbs a b = Ret s /\ (forall p, lbs_in s p = lbs_in a p || lbs_in b p)
    /\ (wf_lbs a = true -> wf_lbs s = true)
    /\ (length (bs_ranges (lbs_ranges s)) <=
        length (bs_ranges (lbs_ranges a)) + length (bs_ranges (lbs_ranges b)))%nat.
Proof.
  unfold lbs_union_lbs, lbs_union_bs, bs_union_lbs.
  destruct (lbs_add_lbr_ok a (lbs_lbr b)) as (s1 & -> & H1 & W1 & L1). simpl.
  destruct (lbs_add_set_ok s1 (lbs_ranges b)) as (s2 & -> & H2 & W2 & L2).
  exists s2. split; [reflexivity|]. split; [|split; [intros W; apply W2, W1, wf_lbs_bs, W|lia]].
  intros p. rewrite H2, H1. unfold lbs_in at 3. rewrite orb_assoc. reflexivity.
Qed.
Lemma ubs_union_ubs_ok (a b : UpperBoundedSet T) :
  exists s, ubs_union_ubs a b = Ret s /\ (forall p, ubs_in s p = ubs_in a p || ubs_in b p)
    /\ (wf_ubs a = true -> wf_ubs s = true)
    /\ (length (bs_ranges (ubs_ranges s)) <=
        length (bs_ranges (ubs_ranges a)) + length (bs_ranges (ubs_ranges b)))%nat.
Proof.
  unfold ubs_union_ubs, ubs_union_bs, bs_union_ubs.
  destruct (ubs_add_ubr_ok a (ubs_ubr b)) as (s1 & -> & H1 & W1 & L1). simpl.
  destruct (ubs_add_set_ok s1 (ubs_ranges b)) as (s2 & -> & H2 & W2 & L2).
  exists s2. split; [reflexivity|]. split; [|split; [intros W; apply W2, W1, wf_ubs_bs, W|lia]].
  intros p. rewrite H2, H1. unfold ubs_in at 3. rewrite orb_assoc. reflexivity.
Qed.
Lemma lbs_union_ubs_ok (a : LowerBoundedSet T) (b : UpperBoundedSet T) :
  exists s, lbs_union_ubs a b = Ret s /\ (forall p, us_in s p = lbs_in a p || ubs_in b p)
    /\ wf_us s = true
    /\ (us_pieces s <= length (bs_ranges (lbs_ranges a)) + length (bs_ranges (ubs_ranges b)))%nat.
Proof.
  unfold lbs_union_ubs, us_union_bs, bs_union_us.
  destruct (us_new_ok (ubs_ubr b) (lbs_lbr a)) as (H0 & W0 & L0).
  destruct (us_add_set_ok (us_new (ubs_ubr b) (lbs_lbr a)) (lbs_ranges a)) as (s1 & -> & H1 & W1 & L1). simpl.
  destruct (us_add_set_ok s1 (ubs_ranges b)) as (s2 & -> & H2 & W2 & L2).
  exists s2. split; [reflexivity|]. split; [|split; [apply W2, W1, W0|lia]].
  intros p. rewrite H2, H1, H0. unfold lbs_in, ubs_in.
  destruct (ubr_in (ubs_ubr b) p), (lbr_in (lbs_lbr a) p), (bs_in (lbs_ranges a) p), (bs_in (ubs_ranges b) p);
    reflexivity.
Qed.
Lemma lbs_union_us_ok (a : LowerBoundedSet T) (b : UnboundedSet T) :
  exists s, lbs_union_us a b = Ret s /\ (forall p, us_in s p = lbs_in a p || us_in b p)
    /\ (wf_us b = true -> wf_us s = true)
    /\ (us_pieces s <= length (bs_ranges (lbs_ranges a)) + us_pieces b)%nat.
Proof.
  unfold lbs_union_us, us_union_bs, bs_union_us.
  destruct (us_add_lbr_ok b (lbs_lbr a)) as (s1 & -> & H1 & W1 & L1). simpl.
  destruct (us_add_set_ok s1 (lbs_ranges a)) as (s2 & -> & H2 & W2 & L2).
  exists s2. split; [reflexivity|]. split; [|split; [intros W; apply W2, W1, wf_us_pieces_of, W|lia]].
  intros p. rewrite H2, H1. unfold lbs_in.
  destruct (us_in b p), (lbr_in (lbs_lbr a) p), (bs_in (lbs_ranges a) p); reflexivity.
Qed.
Lemma ubs_union_us_ok (a : UpperBoundedSet T) (b : UnboundedSet T) :
  exists s, ubs_union_us a b = Ret s /\ (forall p, us_in s p = ubs_in a p || us_in b p)
    /\ (wf_us b = true -> wf_us s = true)
    /\ (us_pieces s <= length (bs_ranges (ubs_ranges a)) + us_pieces b)%nat.
Proof.
  unfold ubs_union_us, us_union_bs, bs_union_us.
  destruct (us_add_ubr_ok b (ubs_ubr a)) as (s1 & -> & H1 & W1 & L1). simpl.
  destruct (us_add_set_ok s1 (ubs_ranges a)) as (s2 & -> & H2 & W2 & L2).
  exists s2. split; [reflexivity|]. split; [|split; [intros W; apply W2, W1, wf_us_pieces_of, W|lia]].
  intros p. rewrite H2, H1. unfold ubs_in.
  destruct (us_in b p), (ubr_in (ubs_ubr a) p), (bs_in (ubs_ranges a) p); reflexivity.
Qed.

Lemma us_inter_us_ok (a b : UnboundedSet T) :
  exists s, us_inter_us a b = Ret s /\ (forall p, us_in s p = us_in a p && us_in b p)
    /\ (wf_us a = true -> wf_us b = true -> wf_us s = true).
Proof.
  destruct a as [|x].
  { exists b. destruct b; auto. }
  destruct b as [|y].
  { exists (Piecewise x). repeat split; auto. intros p. rewrite andb_true_r. reflexivity. }
  remember (Piecewise x) as a eqn:Ea.
  assert (E : us_inter_us a (Piecewise y) =
    (a' <- us_inter_ubr a (pus_ubr y) ;; b <- us_inter_lbr a (pus_lbr y) ;;
     c <- us_inter_bs a (pus_ranges y) ;; bc <- lbs_union_bs b c ;; ubs_union_lbs a' bc))
    by (rewrite Ea; reflexivity).
  rewrite E. clear E Ea.
  destruct (us_inter_ubr_ok a (pus_ubr y)) as (s1 & -> & H1 & _). cbn [bind].
  destruct (us_inter_lbr_ok a (pus_lbr y)) as (s2 & -> & H2 & W2). cbn [bind].
  unfold us_inter_bs.
  destruct (bs_inter_us_ok (pus_ranges y) a) as (s3 & -> & H3 & _). cbn [bind].
  unfold lbs_union_bs, bs_union_lbs.
  destruct (lbs_add_set_ok s2 s3) as (s4 & -> & H4 & _). simpl.
  unfold ubs_union_lbs.
  destruct (lbs_union_ubs_ok s4 s1) as (s5 & -> & H5 & W5 & _).
  exists s5. split; [reflexivity|]. split; [|auto].
  intros p. rewrite H5, H4, H3, H2, H1. cbn [us_in]. unfold pus_in.
  destruct (us_in a p), (ubr_in (pus_ubr y) p), (lbr_in (pus_lbr y) p), (bs_in (pus_ranges y) p); reflexivity.
Qed.

(** ** Complements *)

(** Places outside a range: beside it, not at its end points. *)
Definition lbr_out (d : LowerBoundedRange T) (p : place T) : bool := pbelow (lcut (lbr_start d)) p.
Definition ubr_out (u : UpperBoundedRange T) (p : place T) : bool := pabove (ucut (ubr_end u)) p.
Definition br_out (r : BoundedRange T) (p : place T) : bool :=
  pbelow (lcut (br_start r)) p || pabove (ucut (br_end r)) p.
Definition bl_out (l : list (BoundedRange T)) (p : place T) : bool := forallb (fun r => br_out r p) l.

Lemma br_out_elt (r : BoundedRange T) (t : T) : br_out r (at_elt t) = negb (br_in r (at_elt t)).
Proof. unfold br_out, at_elt. ranges. Qed.
Lemma lbr_out_elt (r : LowerBoundedRange T) (t : T) : lbr_out r (at_elt t) = negb (lbr_in r (at_elt t)).
Proof. unfold lbr_out, at_elt. ranges. Qed.
Lemma ubr_out_elt (r : UpperBoundedRange T) (t : T) : ubr_out r (at_elt t) = negb (ubr_in r (at_elt t)).
Proof. unfold ubr_out, at_elt. ranges. Qed.
Lemma bl_out_elt (l : list (BoundedRange T)) (t : T) : bl_out l (at_elt t) = negb (bl_in l (at_elt t)).
Proof.
  induction l as [|r l IH]; simpl; [reflexivity|]. rewrite br_out_elt, IH, negb_orb. reflexivity.
Qed.

Lemma lbr_complement_in (d : LowerBoundedRange T) (p : place T) :
  ubr_in (lbr_complement d) p = lbr_out d p.
Proof. unfold lbr_complement, ubr_in, lbr_out, ubr_new. simpl. rewrite ucut_flipped. reflexivity. Qed.
Lemma ubr_complement_in (u : UpperBoundedRange T) (p : place T) :
  lbr_in (ubr_complement u) p = ubr_out u p.
Proof. unfold ubr_complement, lbr_in, ubr_out, lbr_new. simpl. rewrite lcut_flipped. reflexivity. Qed.

Lemma br_complement_ok (r : BoundedRange T) :
  exists s, br_complement r = Ret s /\ (forall p, us_in s p = br_out r p) /\ wf_us s = true.
Proof.
  unfold br_complement, ubs_union_lbs.
  destruct (lbs_union_ubs_ok (lbs_from_lbr (lbr_new (LB (flipped (ub_bound (br_end r))))))
             (ubs_from_ubr (ubr_new (UB (flipped (lb_bound (br_start r))))))) as (s & -> & H & W & _).
  exists s. split; [reflexivity|]. split; [|exact W].
  intros p. rewrite H, in_from_lbr, in_from_ubr. unfold lbr_in, ubr_in, br_out. simpl.
  rewrite lcut_flipped, ucut_flipped. apply orb_comm.
Qed.

Lemma bs_complement_ok (s : BoundedSet T) :
  exists c, bs_complement s = Ret c /\ (forall p, us_in c p = bl_out (bs_ranges s) p) /\ wf_us c = true.
Proof.
  unfold bs_complement.
  assert (F : forall l acc, wf_us acc = true -> exists c,
    foldM (fun acc range => c <- br_complement range ;; us_inter_us acc c) l acc = Ret c
    /\ (forall p, us_in c p = us_in acc p && bl_out l p) /\ wf_us c = true).
  { induction l as [|r l IH]; intros acc W; cbn [foldM].
    - exists acc. repeat split; auto. intros p. cbn. rewrite andb_true_r. reflexivity.
    - destruct (br_complement_ok r) as (c & -> & H & Wc). cbn [bind].
      destruct (us_inter_us_ok acc c) as (a & -> & Ha & Wa). cbn [bind].
      destruct (IH a (Wa W Wc)) as (c2 & -> & H2 & W2).
      exists c2. split; [reflexivity|]. split; [|exact W2].
      intros p. rewrite H2, Ha, H. cbn. rewrite andb_assoc. reflexivity. }
  destruct (F (bs_ranges s) Full eq_refl) as (c & -> & H & W).
  exists c. split; [reflexivity|]. split; [|exact W]. exact H.
Qed.
Lemma lbs_complement_ok (s : LowerBoundedSet T) :
  exists c, lbs_complement s = Ret c
    /\ (forall p, ubs_in c p = lbr_out (lbs_lbr s) p && bl_out (bs_ranges (lbs_ranges s)) p)
    /\ wf_ubs c = true.
Proof.
  unfold lbs_complement.
  assert (F : forall l acc, wf_ubs acc = true -> exists c,
    foldM (fun acc range => c <- br_complement range ;; ubs_inter_us acc c) l acc = Ret c
    /\ (forall p, ubs_in c p = ubs_in acc p && bl_out l p) /\ wf_ubs c = true).
  { induction l as [|r l IH]; intros acc W; cbn [foldM].
    - exists acc. repeat split; auto. intros p. cbn. rewrite andb_true_r. reflexivity.
    - destruct (br_complement_ok r) as (c & -> & H & Wc). cbn [bind].
      destruct (ubs_inter_us_ok acc c) as (a & -> & Ha & Wa). cbn [bind].
      destruct (IH a (Wa W)) as (c2 & -> & H2 & W2).
      exists c2. split; [reflexivity|]. split; [|exact W2].
      intros p. rewrite H2, Ha, H. cbn. rewrite andb_assoc. reflexivity. }
  destruct (F (bs_ranges (lbs_ranges s)) (ubs_from_ubr (lbr_complement (lbs_lbr s))) eq_refl) as (c & -> & H & W).
  exists c. split; [reflexivity|]. split; [|exact W].
  intros p. rewrite H, in_from_ubr, lbr_complement_in. reflexivity.
Qed.
Lemma ubs_complement_ok (s : UpperBoundedSet T) :
  exists c, ubs_complement s = Ret c
    /\ (forall p, lbs_in c p = ubr_out (ubs_ubr s) p && bl_out (bs_ranges (ubs_ranges s)) p)
    /\ wf_lbs c = true.
Proof.
  unfold ubs_complement.
  assert (F : forall l acc, wf_lbs acc = true -> exists c,
    foldM (fun acc range => c <- br_complement range ;; lbs_inter_us acc c) l acc = Ret c
    /\ (forall p, lbs_in c p = lbs_in acc p && bl_out l p) /\ wf_lbs c = true).
  { induction l as [|r l IH]; intros acc W; cbn [foldM].
    - exists acc. repeat split; auto. intros p. cbn. rewrite andb_true_r. reflexivity.
    - destruct (br_complement_ok r) as (c & -> & H & Wc). cbn [bind].
      destruct (lbs_inter_us_ok acc c) as (a & -> & Ha & Wa). cbn [bind].
      destruct (IH a (Wa W)) as (c2 & -> & H2 & W2).
      exists c2. split; [reflexivity|]. split; [|exact W2].
      intros p. rewrite H2, Ha, H. cbn. rewrite andb_assoc. reflexivity. }
  destruct (F (bs_ranges (ubs_ranges s)) (lbs_from_lbr (ubr_complement (ubs_ubr s))) eq_refl) as (c & -> & H & W).
  exists c. split; [reflexivity|]. split; [|exact W].
  intros p. rewrite H, in_from_lbr, ubr_complement_in. reflexivity.
Qed.
Definition us_out (s : UnboundedSet T) (p : place T) : bool :=
  match s with
  | Full => false
  | Piecewise x => lbr_out (pus_lbr x) p && ubr_out (pus_ubr x) p && bl_out (bs_ranges (pus_ranges x)) p
  end.
Lemma us_complement_ok (s : UnboundedSet T) :
  exists c, us_complement s = Ret c /\ (forall p, bs_in c p = us_out s p) /\ wf_bs c = true.
Proof.
  destruct s as [|x]; cbn [us_complement us_out].
  { exists bs_empty. auto. }
  assert (F : forall l acc, wf_bs acc = true -> exists c,
    foldM (fun acc range => c <- br_complement range ;; bs_inter_us acc c) l acc = Ret c
    /\ (forall p, bs_in c p = bs_in acc p && bl_out l p) /\ wf_bs c = true).
  { induction l as [|r l IH]; intros acc W; cbn [foldM].
    - exists acc. repeat split; auto. intros p. cbn. rewrite andb_true_r. reflexivity.
    - destruct (br_complement_ok r) as (c & -> & H & Wc). cbn [bind].
      destruct (bs_inter_us_ok acc c) as (a & -> & Ha & Wa). cbn [bind].
      destruct (IH a (Wa W)) as (c2 & -> & H2 & W2).
      exists c2. split; [reflexivity|]. split; [|exact W2].
      intros p. rewrite H2, Ha, H. cbn. rewrite andb_assoc. reflexivity. }
  destruct (F (bs_ranges (pus_ranges x))
             (bs_from_br (ubr_inter_lbr (lbr_complement (pus_lbr x)) (ubr_complement (pus_ubr x))))
             (wf_from_br _)) as (c & -> & H & W).
  exists c. split; [reflexivity|]. split; [|exact W].
  intros p. rewrite H, in_from_br. unfold ubr_inter_lbr.
  rewrite lbr_inter_ubr_in, lbr_complement_in, ubr_complement_in.
  destruct (lbr_out (pus_lbr x) p), (ubr_out (pus_ubr x) p); reflexivity.
Qed.

End Algebra.
