(** The operations on values of all fifteen types, by dispatch to AlgebraProofs. *)
From Coq Require Import Lia ZifyBool.
From Verif Require Import Base ModelBound ModelRanges ModelSets ModelAlgebra ModelValue Spec
  Order Cuts SetProofs AlgebraProofs.

Section Values.
Context {T : Type} {OT : Ord T} {OL : OrdLaws T}.

(** ** Coverage and invariant of a value *)

Definition i_in (i : inner T) (p : place T) : bool :=
  match i with
  | IBR r => br_in r p
  | IBS s => bs_in s p
  | ILBR r => lbr_in r p
  | ILBS s => lbs_in s p
  | IUBR r => ubr_in r p
  | IUBS s => ubs_in s p
  | IUnbR _ => true
  | IUS s => us_in s p
  | IEmpty _ => false
  end.
Definition v_in (v : value T) (p : place T) : bool := i_in (to_inner v) p.
Definition s_in (s : setv T) (p : place T) : bool := v_in (value_of_set s) p.

Definition wf_v (v : value T) : bool :=
  match v with
  | VBS s => wf_bs s
  | VLBS s => wf_lbs s
  | VUBS s => wf_ubs s
  | VUS s => wf_us s
  | _ => true
  end.

Lemma to_inner_of_inner (i : inner T) : to_inner (value_of_inner i) = i.
Proof. destruct i; reflexivity. Qed.
Lemma to_set_of_set (s : setv T) : to_set (value_of_set s) = s.
Proof. destruct s; reflexivity. Qed.
Lemma v_in_inner (v : value T) (p : place T) : v_in (value_of_inner (to_inner v)) p = v_in v p.
Proof. unfold v_in. rewrite to_inner_of_inner. reflexivity. Qed.
Lemma s_in_set (v : value T) (p : place T) : s_in (to_set v) p = v_in v p.
Proof.
  destruct v; unfold s_in, v_in; simpl; rewrite ?in_from_br, ?in_from_lbr, ?in_from_ubr; reflexivity.
Qed.
Lemma wf_inner (v : value T) : wf_v (value_of_inner (to_inner v)) = wf_v v.
Proof. destruct v; reflexivity. Qed.
Lemma wf_set (v : value T) : wf_v v = true -> wf_v (value_of_set (to_set v)) = true.
Proof. destruct v; simpl; auto using wf_from_br. Qed.
Lemma kind_inner (v : value T) : kind_of (value_of_inner (to_inner v)) = inner_kind (kind_of v).
Proof. destruct v; reflexivity. Qed.
Lemma kind_set (v : value T) : kind_of (value_of_set (to_set v)) = set_kind (kind_of v).
Proof. destruct v; reflexivity. Qed.

(** ** [contains] is membership *)

Lemma le_cases (a b : T) : le a b <-> match cmp a b with Gt => false | _ => true end = true.
Proof. unfold le. destruct (cmp a b); split; congruence. Qed.

Lemma lbr_contains_above (r : LowerBoundedRange T) (t : T) :
  lbr_contains r t = true <-> above (lbr_start r) t.
Proof.
  unfold lbr_contains, above, lt, le, t_gt, t_ge, t_partial_cmp.
  destruct r as [[[a|a]]]; simpl; rewrite (cmp_opp a t); destruct (cmp a t); simpl; split; congruence.
Qed.
Lemma ubr_contains_below (r : UpperBoundedRange T) (t : T) :
  ubr_contains r t = true <-> below (ubr_end r) t.
Proof.
  unfold ubr_contains, below, lt, le, t_lt, t_le, t_partial_cmp.
  destruct r as [[[a|a]]]; simpl; destruct (cmp t a); split; congruence.
Qed.
Lemma br_contains_in_range (r : BoundedRange T) (t : T) :
  br_contains r t = true <-> in_range r t.
Proof.
  unfold in_range. rewrite <- (lbr_contains_above (LBR (br_start r))), <- (ubr_contains_below (UBR (br_end r))).
  rewrite <- andb_true_iff, br_contains_in, lbr_contains_in, ubr_contains_in. reflexivity.
Qed.
Lemma bs_contains_pieces (s : BoundedSet T) (t : T) :
  bs_contains s t = true <-> in_pieces (bs_ranges s) t.
Proof.
  unfold bs_contains, in_pieces. rewrite existsb_exists.
  split; intros (r & H1 & H2); exists r; (split; [exact H1|]); apply br_contains_in_range; exact H2.
Qed.

Lemma contains_mem (v : value T) (t : T) : contains v t = true <-> mem v t.
Proof.
  destruct v as [r|r|r|r|r|r|r|r|r|r|r|s|s|s|[|s]]; simpl.
  - unfold range_contains, le, lt, t_le, t_lt, t_partial_cmp.
    rewrite andb_true_iff. destruct (cmp (rg_start r) t), (cmp t (rg_end r)); intuition congruence.
  - unfold range_inclusive_contains, le, lt, t_le, t_lt, t_partial_cmp.
    rewrite andb_true_iff.
    destruct (ri_exhausted r), (cmp (ri_start r) t), (cmp t (ri_end r)); intuition congruence.
  - unfold range_from_contains, le, t_le, t_partial_cmp.
    destruct (cmp (rf_start r) t); intuition congruence.
  - unfold range_to_contains, lt, t_lt, t_partial_cmp.
    destruct (cmp t (rt_end r)); intuition congruence.
  - unfold range_to_inclusive_contains, le, t_le, t_partial_cmp.
    destruct (cmp t (rti_end r)); intuition congruence.
  - intuition.
  - apply br_contains_in_range.
  - apply lbr_contains_above.
  - apply ubr_contains_below.
  - intuition.
  - intuition discriminate.
  - apply bs_contains_pieces.
  - unfold lbs_contains. rewrite orb_true_iff, lbr_contains_above, bs_contains_pieces. tauto.
  - unfold ubs_contains. rewrite orb_true_iff, ubr_contains_below, bs_contains_pieces. tauto.
  - intuition.
  - unfold pus_contains. rewrite !orb_true_iff, ubr_contains_below, lbr_contains_above, bs_contains_pieces. tauto.
Qed.

Lemma contains_v_in (v : value T) (t : T) : fresh v -> contains v t = v_in v (at_elt t).
Proof.
  intros F. unfold v_in.
  destruct v as [r|r|r|r|r|r|r|r|r|r|r|s|s|s|s]; simpl; try reflexivity;
    rewrite <- ?br_contains_in, <- ?lbr_contains_in, <- ?ubr_contains_in, <- ?bs_contains_in,
      <- ?lbs_contains_in, <- ?ubs_contains_in, <- ?us_contains_in; try reflexivity;
    simpl in F;
    unfold range_contains, range_inclusive_contains, range_from_contains, range_to_contains,
      range_to_inclusive_contains, br_contains, lbr_contains, ubr_contains, t_lt, t_le, t_gt, t_ge, t_partial_cmp;
    simpl; rewrite ?F;
    match goal with |- context [cmp ?a t] => rewrite (cmp_opp a t); destruct (cmp a t) end; reflexivity.
Qed.
Lemma mem_v_in (v : value T) (t : T) : fresh v -> (mem v t <-> v_in v (at_elt t) = true).
Proof. intros F. rewrite <- contains_mem, contains_v_in by exact F. reflexivity. Qed.

(** ** The invariant, in words and in booleans *)

Lemma precedes_cut (u : UpperBound T) (l : LowerBound T) :
  precedes u l <-> cle (ucut u) (lcut l) = true.
Proof.
  unfold precedes, lt, le, cle, ucut, lcut.
  destruct u as [[a|a]], l as [[b|b]]; simpl; destruct (cmp a b); split; congruence.
Qed.
Lemma has_room_cut (r : BoundedRange T) : has_room r <-> room r = true.
Proof.
  unfold has_room, room. rewrite precedes_cut.
  destruct (cle (ucut (br_end r)) (lcut (br_start r))); simpl; intuition congruence.
Qed.
Lemma pieces_ok_wfl (l : list (BoundedRange T)) : pieces_ok l <-> wfl l = true.
Proof.
  unfold pieces_ok. induction l as [|r l IH]; simpl.
  - split; [reflexivity|]. repeat constructor.
  - rewrite !andb_true_iff, forallb_forall, <- has_room_cut, <- IH. split.
    + intros [H1 H2]. inversion H1. inversion H2 as [|? ? F1 F2]; subst. repeat split; auto.
      intros x Hx. rewrite Forall_forall in F1. apply precedes_cut, F1, Hx.
    + intros [[H1 H2] [H3 H4]]. split; constructor; auto.
      rewrite Forall_forall. intros x Hx. apply precedes_cut, H2, Hx.
Qed.
Lemma valid_wf (v : value T) : valid v <-> wf_v v = true.
Proof.
  destruct v as [r|r|r|r|r|r|r|r|r|r|r|s|s|s|[|s]]; simpl; try (split; auto; fail).
  - apply pieces_ok_wfl.
  - unfold wf_lbs, wf_bs. rewrite andb_true_iff, forallb_forall, pieces_ok_wfl.
    split; intros [H1 H2]; (split; [exact H1|]); intros x Hx; apply precedes_cut, H2, Hx.
  - unfold wf_ubs, wf_bs. rewrite andb_true_iff, forallb_forall, pieces_ok_wfl.
    split; intros [H1 H2]; (split; [exact H1|]); intros x Hx; apply precedes_cut, H2, Hx.
  - unfold wf_pus, wf_bs. rewrite !andb_true_iff, forallb_forall, pieces_ok_wfl, precedes_cut. unfold sep_ul.
    split.
    + intros (H1 & H2 & H3). repeat split; auto. intros x Hx.
      apply andb_true_iff. destruct (H2 x Hx) as [A B]. split; apply precedes_cut; assumption.
    + intros ((H1 & H2) & H3). repeat split; auto;
      specialize (H2 r H); apply andb_true_iff in H2 as [A B]; apply precedes_cut; assumption.
Qed.

(** ** Intersection *)

Definition inter_ok (a b : value T) (m : outcome (value T)) : Prop :=
  exists r, m = Ret r
    /\ (both_lbs (kind_of a) (kind_of b) = false -> forall p, v_in r p = v_in a p && v_in b p)
    /\ (wf_v a = true -> wf_v b = true -> wf_v r = true)
    /\ fresh r
    /\ kind_of r = inter_kind (kind_of a) (kind_of b).

Lemma inner_kind_eq (a a' : kind) :
  inner_kind a = inner_kind a' ->
  is_none a = is_none a' /\ is_set a = is_set a' /\ has_lower a = has_lower a' /\ has_upper a = has_upper a'
  /\ both_lbs a KLowerBoundedSet = both_lbs a' KLowerBoundedSet.
Proof. destruct a, a'; intros H; try discriminate H; repeat split. Qed.
Lemma both_lbs_l (a b : kind) :
  both_lbs a b = both_lbs a KLowerBoundedSet && both_lbs b KLowerBoundedSet.
Proof. destruct a, b; reflexivity. Qed.

Lemma inter_ok_inner (a b a' b' : value T) (m : outcome (value T)) :
  to_inner a = to_inner a' -> to_inner b = to_inner b' -> inter_ok a' b' m -> inter_ok a b m.
Proof.
  intros Ha Hb (r & E & H & W & F & K). exists r. split; [exact E|].
  assert (Ia : inner_kind (kind_of a) = inner_kind (kind_of a')) by (rewrite <- !kind_inner, Ha; reflexivity).
  assert (Ib : inner_kind (kind_of b) = inner_kind (kind_of b')) by (rewrite <- !kind_inner, Hb; reflexivity).
  assert (L : both_lbs (kind_of a) (kind_of b) = both_lbs (kind_of a') (kind_of b')
           /\ inter_kind (kind_of a) (kind_of b) = inter_kind (kind_of a') (kind_of b')).
  { apply inner_kind_eq in Ia as (A1 & A2 & A3 & A4 & A5). apply inner_kind_eq in Ib as (B1 & B2 & B3 & B4 & B5).
    rewrite (both_lbs_l (kind_of a)), (both_lbs_l (kind_of a')). unfold inter_kind.
    rewrite A1, A2, A3, A4, A5, B1, B2, B3, B4, B5. split; reflexivity. }
  destruct L as [L1 L2]. rewrite L1, L2. unfold v_in in *. rewrite Ha, Hb.
  rewrite <- (wf_inner a), <- (wf_inner b), Ha, Hb, !wf_inner. auto.
Qed.

Lemma inter_ok_comm (a b : value T) (m : outcome (value T)) : inter_ok a b m -> inter_ok b a m.
Proof.
  intros (r & E & H & W & F & K). exists r. split; [exact E|]. split; [|split; [auto|split; [exact F|]]].
  - intros L p. rewrite H; [apply andb_comm|]. revert L. destruct (kind_of a), (kind_of b); auto.
  - rewrite K. unfold inter_kind. rewrite orb_comm, (orb_comm (is_set _)), (orb_comm (has_lower _)),
      (orb_comm (has_upper _)). reflexivity.
Qed.

Ltac ret_in lem :=
  eexists; split; [reflexivity|]; split;
  [ intros _ p; unfold v_in; simpl; first [apply lem | rewrite andb_comm; apply lem]
  | split; [simpl; auto using bs_inter_br_wf, bs_inter_lbr_wf, bs_inter_ubr_wf, lbs_inter_lbr_wf
           | split; [exact I | reflexivity]]].
Tactic Notation "ret_ok" reference(x) constr(lem) :=
  let s := fresh "s" in let E := fresh "E" in let H := fresh "H" in let W := fresh "W" in
  destruct lem as (s & E & H & W); eexists;
  split; [unfold x; rewrite E; reflexivity|]; split;
  [ intros _ p; unfold v_in; simpl; first [apply H | rewrite andb_comm; apply H]
  | split; [simpl; auto | split; [exact I | reflexivity]]].

Lemma unbr_intersection_ok (u : UnboundedRange) (b : value T) :
  inter_ok (VUnbR u) b (unbr_intersection u b).
Proof.
  exists (value_of_inner (to_inner b)). split; [reflexivity|]. split.
  - intros _ p. rewrite v_in_inner. reflexivity.
  - split; [intros _; rewrite wf_inner; auto|]. split; [destruct b; exact I|].
    rewrite kind_inner. destruct b; reflexivity.
Qed.
Lemma empty_intersection_ok (u : EmptyRange) (b : value T) :
  inter_ok (VEmpty u) b (empty_intersection u b).
Proof. exists (VEmpty u). repeat split; auto. Qed.
Lemma ret_empty_ok (u : EmptyRange) (a : value T) : inter_ok a (VEmpty u) (Ret (VEmpty u)).
Proof. apply inter_ok_comm. exists (VEmpty u). repeat split; auto. Qed.
Lemma ret_self_ok (u : UnboundedRange) (a : value T) :
  inter_kind (kind_of a) KUnboundedRange = kind_of a -> fresh a -> inter_ok a (VUnbR u) (Ret a).
Proof.
  intros K F. exists a. split; [reflexivity|]. split.
  - intros _ p. unfold v_in at 3. simpl. rewrite andb_true_r. reflexivity.
  - repeat split; auto.
Qed.

Ltac inner_cases b :=
  match goal with |- inter_ok ?a b _ => apply (inter_ok_inner a b a (value_of_inner (to_inner b))) end;
  [reflexivity | rewrite to_inner_of_inner; reflexivity |];
  let i := fresh "i" in
  generalize (to_inner b) as i; clear b; intros i; destruct i as [o|o|o|o|o|o|o|o|o]; simpl value_of_inner;
  cbn iota beta match.

Lemma br_intersection_ok (a : BoundedRange T) (b : value T) : inter_ok (VBR a) b (br_intersection a b).
Proof.
  unfold br_intersection. inner_cases b.
  - ret_in br_inter_br_in.
  - unfold br_inter_bs. ret_in bs_inter_br_in.
  - ret_in br_inter_lbr_in.
  - ret_ok br_inter_lbs (lbs_inter_br_ok o a).
  - ret_in br_inter_ubr_in.
  - ret_ok br_inter_ubs (ubs_inter_br_ok o a).
  - apply inter_ok_comm, unbr_intersection_ok.
  - ret_ok br_inter_us (us_inter_br_ok o a).
  - apply inter_ok_comm, empty_intersection_ok.
Qed.
Lemma lbr_intersection_ok (a : LowerBoundedRange T) (b : value T) : inter_ok (VLBR a) b (lbr_intersection a b).
Proof.
  unfold lbr_intersection. inner_cases b.
  - unfold lbr_inter_br. ret_in br_inter_lbr_in.
  - unfold lbr_inter_bs. ret_in bs_inter_lbr_in.
  - ret_in lbr_inter_lbr_in.
  - unfold lbr_inter_lbs. ret_in lbs_inter_lbr_in.
  - ret_in lbr_inter_ubr_in.
  - ret_ok lbr_inter_ubs (ubs_inter_lbr_ok o a).
  - apply inter_ok_comm, unbr_intersection_ok.
  - ret_ok lbr_inter_us (us_inter_lbr_ok o a).
  - apply ret_empty_ok.
Qed.
Lemma ubr_intersection_ok (a : UpperBoundedRange T) (b : value T) : inter_ok (VUBR a) b (ubr_intersection a b).
Proof.
  unfold ubr_intersection. inner_cases b.
  - unfold ubr_inter_br. ret_in br_inter_ubr_in.
  - unfold ubr_inter_bs. ret_in bs_inter_ubr_in.
  - unfold ubr_inter_lbr. ret_in lbr_inter_ubr_in.
  - ret_ok ubr_inter_lbs (lbs_inter_ubr_ok o a).
  - ret_in ubr_inter_ubr_in.
  - ret_ok ubr_inter_ubs (ubs_inter_ubr_ok o a).
  - apply inter_ok_comm, unbr_intersection_ok.
  - ret_ok ubr_inter_us (us_inter_ubr_ok o a).
  - apply ret_empty_ok.
Qed.
Lemma bs_intersection_ok (a : BoundedSet T) (b : value T) : inter_ok (VBS a) b (bs_intersection a b).
Proof.
  unfold bs_intersection. inner_cases b.
  - ret_in bs_inter_br_in.
  - ret_ok ret_bs (bs_inter_bs_ok a o).
  - ret_in bs_inter_lbr_in.
  - ret_ok ret_bs (bs_inter_lbs_ok a o).
  - ret_in bs_inter_ubr_in.
  - ret_ok ret_bs (bs_inter_ubs_ok a o).
  - apply ret_self_ok; [reflexivity|exact I].
  - ret_ok ret_bs (bs_inter_us_ok a o).
  - apply ret_empty_ok.
Qed.
Lemma lbs_intersection_ok (a : LowerBoundedSet T) (b : value T) : inter_ok (VLBS a) b (lbs_intersection a b).
Proof.
  unfold lbs_intersection. inner_cases b.
  - ret_ok ret_bs (lbs_inter_br_ok a o).
  - destruct (bs_inter_lbs_ok o a) as (s & E & H & W). eexists.
    split; [unfold lbs_inter_bs; rewrite E; reflexivity|]. split; [|split; [simpl; auto|split; [exact I|reflexivity]]].
    intros _ p. unfold v_in. simpl. rewrite H. apply andb_comm.
  - ret_in lbs_inter_lbr_in.
  - destruct (lbs_inter_lbs_ok a o) as (s & E & H & W). eexists.
    split; [unfold ret_lbs; rewrite E; reflexivity|]. split; [intros B; discriminate B|].
    split; [simpl; auto|split; [exact I|reflexivity]].
  - ret_ok ret_bs (lbs_inter_ubr_ok a o).
  - ret_ok ret_bs (lbs_inter_ubs_ok a o).
  - apply ret_self_ok; [reflexivity|exact I].
  - ret_ok ret_lbs (lbs_inter_us_ok a o).
  - apply ret_empty_ok.
Qed.
Lemma ubs_intersection_ok (a : UpperBoundedSet T) (b : value T) : inter_ok (VUBS a) b (ubs_intersection a b).
Proof.
  unfold ubs_intersection. inner_cases b.
  - ret_ok ret_bs (ubs_inter_br_ok a o).
  - destruct (bs_inter_ubs_ok o a) as (s & E & H & W). eexists.
    split; [unfold ubs_inter_bs; rewrite E; reflexivity|]. split; [|split; [simpl; auto|split; [exact I|reflexivity]]].
    intros _ p. unfold v_in. simpl. rewrite H. apply andb_comm.
  - ret_ok ret_bs (ubs_inter_lbr_ok a o).
  - destruct (lbs_inter_ubs_ok o a) as (s & E & H & W). eexists.
    split; [unfold ubs_inter_lbs; rewrite E; reflexivity|]. split; [|split; [simpl; auto|split; [exact I|reflexivity]]].
    intros _ p. unfold v_in. simpl. rewrite H. apply andb_comm.
  - ret_ok ret_ubs (ubs_inter_ubr_ok a o).
  - ret_ok ret_ubs (ubs_inter_ubs_ok a o).
  - apply ret_self_ok; [reflexivity|exact I].
  - ret_ok ret_ubs (ubs_inter_us_ok a o).
  - apply ret_empty_ok.
Qed.
Lemma us_intersection_ok (a : UnboundedSet T) (b : value T) : inter_ok (VUS a) b (us_intersection a b).
Proof.
  unfold us_intersection. inner_cases b.
  - ret_ok ret_bs (us_inter_br_ok a o).
  - destruct (bs_inter_us_ok o a) as (s & E & H & W). eexists.
    split; [unfold us_inter_bs; rewrite E; reflexivity|]. split; [|split; [simpl; auto|split; [exact I|reflexivity]]].
    intros _ p. unfold v_in. simpl. rewrite H. apply andb_comm.
  - ret_ok ret_lbs (us_inter_lbr_ok a o).
  - destruct (lbs_inter_us_ok o a) as (s & E & H & W). eexists.
    split; [unfold us_inter_lbs; rewrite E; reflexivity|]. split; [|split; [simpl; auto|split; [exact I|reflexivity]]].
    intros _ p. unfold v_in. simpl. rewrite H. apply andb_comm.
  - ret_ok ret_ubs (us_inter_ubr_ok a o).
  - destruct (ubs_inter_us_ok o a) as (s & E & H & W). eexists.
    split; [unfold us_inter_ubs; rewrite E; reflexivity|]. split; [|split; [simpl; auto|split; [exact I|reflexivity]]].
    intros _ p. unfold v_in. simpl. rewrite H. apply andb_comm.
  - apply ret_self_ok; [reflexivity|exact I].
  - ret_ok ret_us (us_inter_us_ok a o).
  - apply ret_empty_ok.
Qed.

Lemma intersection_ok (a b : value T) : inter_ok a b (intersection a b).
Proof.
  destruct a as [r|r|r|r|r|r|r|r|r|r|r|s|s|s|s]; cbn [intersection];
    auto using br_intersection_ok, lbr_intersection_ok, ubr_intersection_ok, unbr_intersection_ok,
      empty_intersection_ok, bs_intersection_ok, lbs_intersection_ok, ubs_intersection_ok, us_intersection_ok;
  unfold range_intersection, range_inclusive_intersection, range_from_intersection,
    range_to_intersection, range_to_inclusive_intersection, range_full_intersection; destruct (to_inner b) as [o|o|o|o|o|o|o|o|o] eqn:E;
  first
    [ eapply inter_ok_inner; [| |apply br_intersection_ok]; [reflexivity|reflexivity]
    | eapply inter_ok_inner; [| |apply lbr_intersection_ok]; [reflexivity|reflexivity]
    | eapply inter_ok_inner; [| |apply ubr_intersection_ok]; [reflexivity|reflexivity]
    | eapply inter_ok_inner; [| |apply unbr_intersection_ok]; [reflexivity|reflexivity]
    | eapply inter_ok_inner; [| |apply inter_ok_comm, bs_intersection_ok]; [reflexivity|exact E]
    | eapply inter_ok_inner; [| |apply inter_ok_comm, lbs_intersection_ok]; [reflexivity|exact E]
    | eapply inter_ok_inner; [| |apply inter_ok_comm, ubs_intersection_ok]; [reflexivity|exact E]
    | eapply inter_ok_inner; [| |apply inter_ok_comm, us_intersection_ok]; [reflexivity|exact E]
    | eapply inter_ok_inner; [| |apply ret_empty_ok]; [reflexivity|exact E] ].
Qed.

(** ** Union *)

Definition union_ok (a b : value T) (m : outcome (value T)) : Prop :=
  exists r, m = Ret r
    /\ (forall p, v_in r p = v_in a p || v_in b p)
    /\ (wf_v a = true -> wf_v b = true -> wf_v r = true)
    /\ (fresh a -> fresh b -> fresh r)
    /\ kind_of r = union_kind (kind_of a) (kind_of b).

Lemma union_ok_comm (a b : value T) (m : outcome (value T)) :
  (is_none (kind_of a) || is_none (kind_of b) = false) -> union_ok a b m -> union_ok b a m.
Proof.
  intros N (r & E & H & W & F & K). apply orb_false_iff in N as [Na Nb].
  exists r. split; [exact E|]. split; [|split; [auto|split; [auto|]]].
  - intros p. rewrite H. apply orb_comm.
  - rewrite K. unfold union_kind. rewrite Na, Nb, orb_comm, (andb_comm (has_lower _)), (andb_comm (has_upper _)).
    reflexivity.
Qed.

Lemma set_kind_eq (a a' : kind) :
  set_kind a = set_kind a' ->
  is_none a = is_none a' /\ is_whole a = is_whole a' /\ has_lower a = has_lower a' /\ has_upper a = has_upper a'.
Proof. destruct a, a'; intros H; try discriminate H; repeat split. Qed.
(** Union only looks at the set form of operands that are not the empty range. *)
Lemma union_ok_set (a b a' b' : value T) (m : outcome (value T)) :
  (forall p, v_in a p = v_in a' p) -> (forall p, v_in b p = v_in b' p) ->
  set_kind (kind_of a) = set_kind (kind_of a') -> set_kind (kind_of b) = set_kind (kind_of b') ->
  is_none (kind_of a') || is_none (kind_of b') = false ->
  (wf_v a = true -> wf_v a' = true) -> (wf_v b = true -> wf_v b' = true) -> fresh a' -> fresh b' ->
  union_ok a' b' m -> union_ok a b m.
Proof.
  intros Ha Hb Ka Kb N Wa Wb Fa Fb (r & E & H & W & F & K). exists r. split; [exact E|]. split; [|split; [|split]].
  - intros p. rewrite H, Ha, Hb. reflexivity.
  - auto.
  - auto.
  - rewrite K. apply set_kind_eq in Ka as (A1 & A2 & A3 & A4). apply set_kind_eq in Kb as (B1 & B2 & B3 & B4).
    apply orb_false_iff in N as [Na Nb]. unfold union_kind.
    rewrite A1, A2, A3, A4, B1, B2, B3, B4, Na, Nb. reflexivity.
Qed.

Lemma unbr_union_ok (u : UnboundedRange) (b : value T) : union_ok (VUnbR u) b (unbr_union u b).
Proof. exists (VUnbR u). repeat split; auto. destruct b; reflexivity. Qed.
Lemma empty_union_ok (u : EmptyRange) (b : value T) : union_ok (VEmpty u) b (empty_union u b).
Proof. exists b. repeat split; auto. Qed.
Lemma empty_union_ok_r (u : EmptyRange) (a b : value T) :
  b = VEmpty u -> union_ok a b (empty_union u a).
Proof.
  intros ->. exists a. split; [reflexivity|]. split; [|split; [auto|split; [auto|]]].
  - intros p. unfold v_in at 3. simpl. rewrite orb_false_r. reflexivity.
  - destruct a; reflexivity.
Qed.
Lemma unbr_union_ok_r (u : UnboundedRange) (a b : value T) :
  is_none (kind_of a) = false -> to_set b = SUnbR u -> union_ok a b (unbr_union u a).
Proof.
  intros N H. exists (VUnbR u). split; [reflexivity|]. split; [|split; [auto|split; [exact (fun _ _ => I)|]]].
  - intros p. rewrite <- (s_in_set b), H. unfold s_in, v_in. simpl. rewrite orb_true_r. reflexivity.
  - assert (Kb : set_kind (kind_of b) = KUnboundedRange) by (rewrite <- kind_set, H; reflexivity).
    simpl. destruct (kind_of a), (kind_of b); try discriminate N; try discriminate Kb; reflexivity.
Qed.
Lemma to_set_empty (b : value T) (u : EmptyRange) : to_set b = SEmpty u -> b = VEmpty u.
Proof. destruct b; simpl; intros H; try discriminate H. congruence. Qed.

(** From the set form of the second operand to the operand. *)
Lemma union_ok_to_set (a b : value T) (m : outcome (value T)) :
  is_none (kind_of a) || is_none (kind_of b) = false -> fresh a ->
  union_ok a (value_of_set (to_set b)) m -> union_ok a b m.
Proof.
  intros N F. apply union_ok_set; auto using wf_set.
  - intros p. symmetry. apply s_in_set.
  - rewrite kind_set. destruct b; reflexivity.
  - rewrite kind_set. revert N. destruct (kind_of a), (kind_of b); auto.
  - destruct b; exact I.
Qed.
Lemma fresh_of_set (s : setv T) : fresh (value_of_set s).
Proof. destruct s; exact I. Qed.

Tactic Notation "uok" reference(x) constr(lem) :=
  let s := fresh "s" in let E := fresh "E" in let H := fresh "H" in let W := fresh "W" in
  destruct lem as (s & E & H & W & _); eexists;
  split; [unfold x; rewrite E; reflexivity|]; split;
  [ intros p; unfold v_in; simpl; first [apply H | rewrite orb_comm; apply H]
  | split; [simpl; auto using wf_lbs_bs, wf_ubs_bs, wf_us_pieces_of | split; [exact (fun _ _ => I) | reflexivity]]].
Ltac set_cases b :=
  let E := fresh "E" in
  destruct (to_set b) as [o|o|o|o|o|o] eqn:E;
  [ apply union_ok_to_set; [destruct b; try discriminate E; reflexivity|exact I|]; rewrite E; simpl value_of_set
  | apply union_ok_to_set; [destruct b; try discriminate E; reflexivity|exact I|]; rewrite E; simpl value_of_set
  | apply union_ok_to_set; [destruct b; try discriminate E; reflexivity|exact I|]; rewrite E; simpl value_of_set
  | apply union_ok_to_set; [destruct b; try discriminate E; reflexivity|exact I|]; rewrite E; simpl value_of_set
  | apply unbr_union_ok_r; [reflexivity|exact E]
  | apply empty_union_ok_r, to_set_empty, E ].

Lemma bs_union_ok (a : BoundedSet T) (b : value T) : union_ok (VBS a) b (bs_union a b).
Proof.
  unfold bs_union. set_cases b.
  - uok bs_union_bs (bs_add_set_ok a o).
  - uok bs_union_lbs (lbs_add_set_ok o a).
  - uok bs_union_ubs (ubs_add_set_ok o a).
  - uok bs_union_us (us_add_set_ok o a).
Qed.
Lemma lbs_union_ok (a : LowerBoundedSet T) (b : value T) : union_ok (VLBS a) b (lbs_union a b).
Proof.
  unfold lbs_union. set_cases b.
  - unfold lbs_union_bs. uok bs_union_lbs (lbs_add_set_ok a o).
  - uok ret_lbs (lbs_union_lbs_ok a o).
  - uok ret_us (lbs_union_ubs_ok a o).
  - uok ret_us (lbs_union_us_ok a o).
Qed.
Lemma ubs_union_ok (a : UpperBoundedSet T) (b : value T) : union_ok (VUBS a) b (ubs_union a b).
Proof.
  unfold ubs_union. set_cases b.
  - unfold ubs_union_bs. uok bs_union_ubs (ubs_add_set_ok a o).
  - uok ubs_union_lbs (lbs_union_ubs_ok o a).
  - uok ret_ubs (ubs_union_ubs_ok a o).
  - uok ret_us (ubs_union_us_ok a o).
Qed.
Lemma us_union_ok (a : UnboundedSet T) (b : value T) : union_ok (VUS a) b (us_union a b).
Proof.
  unfold us_union. set_cases b.
  - unfold us_union_bs. uok bs_union_us (us_add_set_ok a o).
  - unfold us_union_lbs. uok ret_us (lbs_union_us_ok o a).
  - unfold us_union_ubs. uok ret_us (ubs_union_us_ok o a).
  - uok us_union_us (us_add_us_ok a o).
Qed.

Lemma union_ok_to_set_l (a b : value T) (m : outcome (value T)) :
  is_none (kind_of a) || is_none (kind_of b) = false -> fresh b ->
  union_ok (value_of_set (to_set a)) b m -> union_ok a b m.
Proof.
  intros N F. apply union_ok_set; auto using wf_set, fresh_of_set.
  - intros p. symmetry. apply s_in_set.
  - rewrite kind_set. destruct a; reflexivity.
  - rewrite kind_set. revert N. destruct (kind_of a), (kind_of b); auto.
Qed.

Lemma union_ok_any (a b : value T) (m : outcome (value T)) :
  is_none (kind_of a) || is_none (kind_of b) = false -> is_whole (kind_of b) = false ->
  union_ok (value_of_set (to_set a)) b m -> union_ok a b m.
Proof.
  intros N Wh U. assert (N' : is_none (kind_of a) = false /\ is_none (kind_of b) = false)
    by (apply orb_false_iff; exact N).
  destruct U as (r & E & H & W & F & K).
  exists r. split; [exact E|]. split; [|split; [|split]].
  - intros p. rewrite H, <- (s_in_set a). reflexivity.
  - intros Wa Wb. apply W; auto using wf_set.
  - intros _ Fb. apply F; auto using fresh_of_set.
  - rewrite K, kind_set. clear - N'. destruct N' as [Na Nb].
    destruct (kind_of a), (kind_of b); try discriminate Na; try discriminate Nb; reflexivity.
Qed.

Lemma union_ok_all (a b : value T) : union_ok a b (union a b).
Proof.
  destruct a as [r|r|r|r|r|r|r|r|r|r|r|s|s|s|s]; cbn [union];
    auto using unbr_union_ok, empty_union_ok, bs_union_ok, lbs_union_ok, ubs_union_ok, us_union_ok;
  unfold range_union, range_inclusive_union, range_from_union, range_to_union,
    range_to_inclusive_union, range_full_union, br_union, lbr_union, ubr_union; destruct (to_set b) as [o|o|o|o|o|o] eqn:E;
  first
    [ apply unbr_union_ok_r; [reflexivity|exact E]
    | apply empty_union_ok_r, to_set_empty, E
    | apply union_ok_any; [destruct b; try discriminate E; reflexivity|destruct b; try discriminate E; reflexivity|];
      first [apply bs_union_ok | apply lbs_union_ok | apply ubs_union_ok | apply unbr_union_ok] ].
Qed.

(** ** Complement *)

Definition compl_ok (a : value T) (m : outcome (value T)) : Prop :=
  exists r, m = Ret r
    /\ (forall t, v_in r (at_elt t) = negb (v_in a (at_elt t)))
    /\ wf_v r = true /\ fresh r /\ kind_of r = compl_kind (kind_of a).

Lemma complement_ok (a : value T) : compl_ok a (complement a).
Proof.
  destruct a as [r|r|r|r|r|r|r|r|r|r|r|s|s|s|s]; cbn [complement]; unfold ret_bs, ret_lbs, ret_ubs, ret_us.
  - destruct (br_complement_ok (br_from_range r)) as (c & E & H & W). eexists.
    split; [rewrite E; reflexivity|]. split; [|split; [exact W|split; [exact I|reflexivity]]].
    intros t. unfold v_in. simpl. rewrite H. apply br_out_elt.
  - destruct (br_complement_ok (br_from_range_inclusive r)) as (c & E & H & W). eexists.
    split; [rewrite E; reflexivity|]. split; [|split; [exact W|split; [exact I|reflexivity]]].
    intros t. unfold v_in. simpl. rewrite H. apply br_out_elt.
  - eexists. split; [reflexivity|]. split; [|repeat split].
    intros t. unfold v_in. cbn [to_inner i_in]. rewrite lbr_complement_in. apply lbr_out_elt.
  - eexists. split; [reflexivity|]. split; [|repeat split].
    intros t. unfold v_in. cbn [to_inner i_in]. rewrite ubr_complement_in. apply ubr_out_elt.
  - eexists. split; [reflexivity|]. split; [|repeat split].
    intros t. unfold v_in. cbn [to_inner i_in]. rewrite ubr_complement_in. apply ubr_out_elt.
  - eexists. split; [reflexivity|]. repeat split.
  - destruct (br_complement_ok r) as (c & E & H & W). eexists.
    split; [rewrite E; reflexivity|]. split; [|split; [exact W|split; [exact I|reflexivity]]].
    intros t. unfold v_in. simpl. rewrite H. apply br_out_elt.
  - eexists. split; [reflexivity|]. split; [|repeat split].
    intros t. unfold v_in. cbn [to_inner i_in]. rewrite lbr_complement_in. apply lbr_out_elt.
  - eexists. split; [reflexivity|]. split; [|repeat split].
    intros t. unfold v_in. cbn [to_inner i_in]. rewrite ubr_complement_in. apply ubr_out_elt.
  - eexists. split; [reflexivity|]. repeat split.
  - eexists. split; [reflexivity|]. repeat split.
  - destruct (bs_complement_ok s) as (c & E & H & W). eexists.
    split; [rewrite E; reflexivity|]. split; [|split; [exact W|split; [exact I|reflexivity]]].
    intros t. unfold v_in. simpl. rewrite H. apply bl_out_elt.
  - destruct (lbs_complement_ok s) as (c & E & H & W). eexists.
    split; [rewrite E; reflexivity|]. split; [|split; [exact W|split; [exact I|reflexivity]]].
    intros t. unfold v_in. cbn [to_inner i_in]. rewrite H. unfold lbs_in. rewrite lbr_out_elt, bl_out_elt, negb_orb. reflexivity.
  - destruct (ubs_complement_ok s) as (c & E & H & W). eexists.
    split; [rewrite E; reflexivity|]. split; [|split; [exact W|split; [exact I|reflexivity]]].
    intros t. unfold v_in. cbn [to_inner i_in]. rewrite H. unfold ubs_in. rewrite ubr_out_elt, bl_out_elt, negb_orb. reflexivity.
  - destruct (us_complement_ok s) as (c & E & H & W). eexists.
    split; [rewrite E; reflexivity|]. split; [|split; [exact W|split; [exact I|reflexivity]]].
    intros t. unfold v_in. cbn [to_inner i_in]. rewrite H. destruct s as [|x]; [reflexivity|].
    cbn [us_out us_in]. unfold pus_in. rewrite lbr_out_elt, ubr_out_elt, bl_out_elt, !negb_orb.
    rewrite (andb_comm (negb (lbr_in _ _))). reflexivity.
Qed.

End Values.
