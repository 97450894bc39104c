(** The property statements of the algebra in their final shape, and the
    counterexamples. *)
From Coq Require Import Lia ZifyBool Permutation.
From Verif Require Import Base ModelBound ModelRanges ModelSets ModelAlgebra ModelValue ModelEq Spec Reach
  Order Cuts SetProofs AlgebraProofs ValueProofs Canon Laws Instances.

Section Laws2.
Context {T : Type} {OT : Ord T} {OL : OrdLaws T}.

Lemma union_fresh_exact (a b : value T) :
  fresh a -> fresh b ->
  exists r, union a b = Ret r /\ forall t, contains r t = true <-> mem a t \/ mem b t.
Proof. intros Fa Fb. destruct (union_mem a b Fa Fb) as (r & E & _ & H). eauto. Qed.
Lemma union_any_state (a b : value T) :
  exists r, union a b = Ret r /\ forall t, mem (refreshed r) t <-> mem (refreshed a) t \/ mem (refreshed b) t.
Proof.
  destruct (union_ok_all a b) as (r & E & H & _). exists r. split; [exact E|].
  intros t. rewrite !refreshed_v_in, H. apply orb_true_iff.
Qed.
Lemma inter_any_state (a b : value T) :
  both_lbs (kind_of a) (kind_of b) = false ->
  exists r, intersection a b = Ret r /\ forall t, contains r t = true <-> mem (refreshed a) t /\ mem (refreshed b) t.
Proof.
  intros N. destruct (intersection_ok a b) as (r & E & H & _ & F & _). exists r. split; [exact E|].
  intros t. rewrite contains_v_in by exact F. rewrite !refreshed_v_in, H by exact N. apply andb_true_iff.
Qed.
Lemma compl_any_state (a : value T) :
  exists r, complement a = Ret r /\ forall t, contains r t = true <-> ~ mem (refreshed a) t.
Proof.
  destruct (complement_ok a) as (r & E & H & _ & F & _). exists r. split; [exact E|].
  intros t. rewrite contains_v_in by exact F. rewrite !refreshed_v_in, H.
  destruct (v_in a (at_elt t)); simpl; intuition discriminate.
Qed.

Lemma total_all (a b : value T) :
  (exists r, union a b = Ret r) /\ (exists r, intersection a b = Ret r) /\ (exists r, complement a = Ret r)
  /\ (exists d, disjoint a b = Ret d) /\ (exists d, intersects a b = Ret d).
Proof.
  destruct (union_ok_all a b) as (r1 & E1 & _). destruct (intersection_ok a b) as (r2 & E2 & _).
  destruct (complement_ok a) as (r3 & E3 & _). destruct (disjoint_returns a b) as (i & d & _ & E4 & E5 & _).
  repeat split; eauto.
Qed.

(** Contents laws *)

Lemma same_of_denote (e1 e2 : expr T) :
  good_expr e1 -> good_expr e2 ->
  (forall t, (forall e, good_expr e -> denote e t \/ ~ denote e t) -> (denote e1 t <-> denote e2 t)) ->
  same_contents e1 e2.
Proof.
  intros G1 G2 H. destruct (eval_ok e1 G1) as (u & E1 & _ & _ & H1). destruct (eval_ok e2 G2) as (v & E2 & _ & _ & H2).
  exists u, v. split; [exact E1|]. split; [exact E2|].
  intros t. apply eq_true_iff_eq. rewrite H1, H2. apply H.
  intros e G. destruct (eval_ok e G) as (w & _ & _ & _ & Hw). rewrite <- Hw.
  destruct (contains w t); [left; reflexivity|right; discriminate].
Qed.

Lemma de_morgan_union (a b : expr T) :
  good_expr (EInter (ECompl a) (ECompl b)) ->
  same_contents (ECompl (EUnion a b)) (EInter (ECompl a) (ECompl b)).
Proof. intros G. apply same_of_denote; simpl in *; intuition. Qed.
Lemma de_morgan_inter (a b : expr T) :
  good_expr (EInter a b) -> same_contents (ECompl (EInter a b)) (EUnion (ECompl a) (ECompl b)).
Proof.
  intros G. apply same_of_denote; simpl in *; try tauto.
  intros t D. destruct (D a) as [Ha|Ha], (D b) as [Hb|Hb]; tauto.
Qed.
Lemma double_complement (a : expr T) : good_expr a -> same_contents (ECompl (ECompl a)) a.
Proof.
  intros G. apply same_of_denote; simpl in *; try tauto. intros t D. destruct (D a); tauto.
Qed.
Lemma distrib_inter (a b c : expr T) :
  good_expr (EInter a (EUnion b c)) -> good_expr (EUnion (EInter a b) (EInter a c)) ->
  same_contents (EInter a (EUnion b c)) (EUnion (EInter a b) (EInter a c)).
Proof. intros G1 G2. apply same_of_denote; simpl in *; tauto. Qed.
Lemma distrib_union (a b c : expr T) :
  good_expr (EUnion a (EInter b c)) -> good_expr (EInter (EUnion a b) (EUnion a c)) ->
  same_contents (EUnion a (EInter b c)) (EInter (EUnion a b) (EUnion a c)).
Proof. intros G1 G2. apply same_of_denote; simpl in *; tauto. Qed.
Lemma absorb_union (a b : expr T) : good_expr (EInter a b) -> same_contents (EUnion a (EInter a b)) a.
Proof. intros G. apply same_of_denote; simpl in *; tauto. Qed.
Lemma absorb_inter (a b : expr T) : good_expr (EInter a (EUnion a b)) -> same_contents (EInter a (EUnion a b)) a.
Proof. intros G. apply same_of_denote; simpl in *; tauto. Qed.
Lemma units (a : expr T) :
  good_expr a ->
  same_contents (EUnion a nothing) a /\ same_contents (EInter a nothing) nothing
  /\ same_contents (EUnion a whole) whole /\ same_contents (EInter a whole) a
  /\ same_contents (EUnion a (ECompl a)) whole
  /\ (both_lbs (expr_kind a) (expr_kind (ECompl a)) = false -> same_contents (EInter a (ECompl a)) nothing).
Proof.
  intros G.
  assert (B : forall k, k <> KLowerBoundedSet -> both_lbs (expr_kind a) k = false)
    by (intros k Hk; destruct (expr_kind a), k; congruence || reflexivity).
  assert (B1 := B KEmptyRange ltac:(discriminate)). assert (B2 := B KUnboundedRange ltac:(discriminate)).
  split; [|split; [|split; [|split; [|split]]]]; [ | | | | |intros N];
    (apply same_of_denote; simpl in *; try tauto; try (intros t D; destruct (D a G); tauto)).
Qed.

(** Conversions *)

Lemma conversions_ok (v : value T) (t : T) :
  (mem (value_of_inner (to_inner v)) t <-> mem (refreshed v) t)
  /\ (mem (value_of_set (to_set v)) t <-> mem (refreshed v) t)
  /\ to_inner (value_of_inner (to_inner v)) = to_inner v
  /\ to_set (value_of_set (to_set v)) = to_set v.
Proof.
  split; [|split; [|split; [apply to_inner_of_inner|apply to_set_of_set]]].
  - rewrite refreshed_v_in, mem_v_in by (destruct v; exact I). rewrite v_in_inner. reflexivity.
  - rewrite refreshed_v_in, mem_v_in by apply fresh_of_set. change (s_in (to_set v) (at_elt t) = true <-> v_in v (at_elt t) = true).
    rewrite s_in_set. reflexivity.
Qed.
Lemma empty_range_to_set (r : BoundedRange T) :
  to_set (VBR r) = (if br_is_empty r then SBS bs_empty else SBS (BS [r])).
Proof. simpl. unfold bs_from_br. destruct (br_is_empty r); reflexivity. Qed.

Lemma kinds_ok (a b r : value T) :
  (union a b = Ret r -> kind_of r = union_kind (kind_of a) (kind_of b))
  /\ (intersection a b = Ret r -> kind_of r = inter_kind (kind_of a) (kind_of b))
  /\ (complement a = Ret r -> kind_of r = compl_kind (kind_of a))
  /\ kind_of (value_of_inner (to_inner a)) = inner_kind (kind_of a)
  /\ kind_of (value_of_set (to_set a)) = set_kind (kind_of a).
Proof.
  split; [|split; [|split; [|split; [apply kind_inner|apply kind_set]]]]; intros E.
  - destruct (union_ok_all a b) as (x & E' & _ & _ & _ & K). congruence.
  - destruct (intersection_ok a b) as (x & E' & _ & _ & _ & K). congruence.
  - destruct (complement_ok a) as (x & E' & _ & _ & _ & K). congruence.
Qed.
Lemma lower_iterable (v : value T) : has_lower (kind_of v) = true <-> iterable (kind_of v) = true.
Proof. destruct v; simpl; tauto. Qed.

(** Order facts *)
Lemma union_least (a b : value T) :
  fresh a -> fresh b ->
  exists r, union a b = Ret r
    /\ (forall t, mem a t -> mem r t) /\ (forall t, mem b t -> mem r t)
    /\ (forall P : T -> Prop, (forall t, mem a t -> P t) -> (forall t, mem b t -> P t) -> forall t, mem r t -> P t).
Proof.
  intros Fa Fb. destruct (union_mem a b Fa Fb) as (r & E & _ & H). exists r. split; [exact E|].
  assert (H' : forall t, mem r t <-> mem a t \/ mem b t) by (intros t; rewrite <- contains_mem; apply H).
  repeat split; intros; try (apply H'; auto; fail).
  match goal with M : mem r _ |- _ => apply H' in M as [M|M]; auto end.
Qed.
Lemma union_monotone (a a' b b' r r' : value T) :
  fresh a -> fresh b -> fresh a' -> fresh b' ->
  (forall t, mem a t -> mem a' t) -> (forall t, mem b t -> mem b' t) ->
  union a b = Ret r -> union a' b' = Ret r' -> forall t, mem r t -> mem r' t.
Proof.
  intros Fa Fb Fa' Fb' Ha Hb E E' t M.
  destruct (union_mem a b Fa Fb) as (x & X & _ & H). destruct (union_mem a' b' Fa' Fb') as (y & Y & _ & H').
  rewrite E in X. injection X as <-. rewrite E' in Y. injection Y as <-.
  apply contains_mem, H'. apply contains_mem, H in M. destruct M; auto.
Qed.

Lemma inter_same_contents (a b : value T) :
  fresh a -> fresh b -> both_lbs (kind_of a) (kind_of b) = false ->
  exists x y, intersection a b = Ret x /\ intersection b a = Ret y /\ forall t, contains x t = contains y t.
Proof.
  intros Fa Fb N.
  assert (N' : both_lbs (kind_of b) (kind_of a) = false)
    by (destruct (kind_of a), (kind_of b); try discriminate N; reflexivity).
  destruct (inter_mem a b Fa Fb N) as (x & Ex & Hx). destruct (inter_mem b a Fb Fa N') as (y & Ey & Hy).
  exists x, y. split; [exact Ex|]. split; [exact Ey|].
  intros t. apply eq_true_iff_eq. rewrite Hx, Hy. tauto.
Qed.

Lemma disjoint_facts (a b : value T) :
  exists d, disjoint a b = Ret d /\ disjoint b a = Ret d /\ intersects a b = Ret (negb d) /\ intersects b a = Ret (negb d).
Proof.
  destruct (disjoint_returns a b) as (i & d & _ & D & X & _).
  destruct (disjoint_returns b a) as (i' & d' & _ & D' & X' & _).
  pose proof (disjoint_sym a b) as S. assert (d = d') by congruence. subst d'. exists d. auto.
Qed.

Lemma valid_union_comm (a b : value T) : valid a -> valid b -> ret_eq (union a b) (union b a).
Proof. rewrite !valid_wf. apply union_comm_eq. Qed.
Lemma valid_union_assoc (a b c : value T) :
  valid a -> valid b -> valid c -> ret_eq (x <- union a b ;; union x c) (y <- union b c ;; union a y).
Proof. rewrite !valid_wf. apply union_assoc_eq. Qed.
Lemma valid_union_idem (a : value T) : is_set (kind_of a) = true -> valid a -> ret_eq (union a a) (Ret a).
Proof. rewrite valid_wf. apply union_idem_eq. Qed.
Lemma valid_inter_comm (a b : value T) :
  valid a -> valid b -> both_lbs (kind_of a) (kind_of b) = false -> ret_eq (intersection a b) (intersection b a).
Proof. rewrite !valid_wf. apply inter_comm_eq. Qed.
Lemma valid_union_perm (l l' : list (value T)) (v : value T) :
  is_set (kind_of v) = true -> valid v -> Forall valid l ->
  Permutation l l' -> ret_eq (union_all l v) (union_all l' v).
Proof.
  rewrite valid_wf. intros S V Fl P. apply unite_perm; auto.
  apply Forall_forall. intros x Hx. apply valid_wf. rewrite Forall_forall in Fl. auto.
Qed.
Lemma br_union_perm (l l' : list (BoundedRange T)) :
  Permutation l l' -> ret_eq (union_all (map VBR l) (VBS bs_empty)) (union_all (map VBR l') (VBS bs_empty)).
Proof.
  intros P. apply valid_union_perm; simpl; auto.
  - split; constructor.
  - apply Forall_forall. intros x Hx. apply in_map_iff in Hx as (r & <- & _). exact I.
  - apply Permutation_map, P.
Qed.
Lemma union_all_contents (l : list (value T)) (v : value T) :
  fresh v -> Forall fresh l ->
  exists r, union_all l v = Ret r /\ forall t, contains r t = true <-> mem v t \/ exists x, In x l /\ mem x t.
Proof.
  intros Fv Fl. destruct (unite_ok l v) as (r & E & H & _ & F & _). exists r. split; [exact E|].
  specialize (F Fv Fl). intros t. rewrite contains_v_in, H, orb_true_iff, mem_v_in, existsb_exists by assumption.
  rewrite Forall_forall in Fl. split; (intros [X|(x & Hx & X)]; [left; exact X|right; exists x; split; [exact Hx|]]);
    [apply mem_v_in in X|apply mem_v_in]; auto.
Qed.

Lemma valid_same_places_eq (a b : value T) (t : T) : value_eqb a b = true -> (mem a t <-> mem b t).
Proof. intros E. rewrite <- !contains_mem, (value_eqb_contains a b t E). reflexivity. Qed.

End Laws2.

(** ** Counterexamples (on the integers) *)

Definition s1 : LowerBoundedSet Z := LBS (BS [pc (-5) (-3)]) (LBR (LB (Included 0%Z))).
Definition s2 : LowerBoundedSet Z := LBS (BS [pc 1 3]) (LBR (LB (Included 10%Z))).
Lemma s1_api : api (VLBS s1).
Proof. apply (api_union (rng (-5) (-3)) (rfrom 0)); [constructor|constructor|reflexivity]. Qed.
Lemma s2_api : api (VLBS s2).
Proof. apply (api_union (rng 1 3) (rfrom 10)); [constructor|constructor|reflexivity]. Qed.

Lemma lbs_inter_witness :
  exists r, intersection (VLBS s1) (VLBS s2) = Ret r
    /\ contains (VLBS s1) 1%Z = true /\ contains (VLBS s2) 1%Z = true /\ contains r 1%Z = false
    /\ exists r', intersection (VLBS s2) (VLBS s1) = Ret r' /\ contains r' 1%Z = true.
Proof. eexists. split; [reflexivity|]. repeat split. eexists. split; reflexivity. Qed.

Lemma le_Z (a b : Z) : le a b <-> (a <= b)%Z.
Proof. reflexivity. Qed.
Lemma lt_Z (a b : Z) : lt a b <-> (a < b)%Z.
Proof. reflexivity. Qed.
Lemma open_gap_no_int (t : Z) : ~ (lt 3%Z t /\ lt t 4%Z).
Proof. change (~ ((3 < t)%Z /\ (t < 4)%Z)). lia. Qed.

Lemma inter_refuted :
  exists (a b r : value Z) (t : Z),
    api a /\ api b /\ intersection a b = Ret r /\ mem a t /\ mem b t /\ contains r t = false.
Proof.
  exists (VLBS s1), (VLBS s2). eexists. exists 1%Z. split; [exact s1_api|]. split; [exact s2_api|].
  split; [reflexivity|]. rewrite <- !contains_mem. repeat split.
Qed.
Lemma inter_comm_refuted :
  exists (a b x y : value Z) (t : Z),
    api a /\ api b /\ intersection a b = Ret x /\ intersection b a = Ret y /\ contains x t = false /\ contains y t = true.
Proof.
  exists (VLBS s1), (VLBS s2). eexists. eexists. exists 1%Z. split; [exact s1_api|]. split; [exact s2_api|]. repeat split.
Qed.
Lemma intersects_refuted :
  exists a b : value Z, api a /\ api b /\ intersects a b = Ret true /\ forall t, ~ (mem a t /\ mem b t).
Proof.
  exists (VLBR (LBR (LB (Excluded 3%Z)))), (rto 4). split; [constructor|]. split; [constructor|].
  split; [reflexivity|]. exact open_gap_no_int.
Qed.
Lemma eq_refuted :
  exists a b : value Z, api a /\ api b /\ kind_of a = KBoundedSet /\ kind_of b = KBoundedSet
    /\ (forall t, contains a t = contains b t) /\ value_eqb a b = false.
Proof.
  exists (VBS (BS [pc 0 3; pc 3 5])), (VBS (BS [pc 0 5])).
  split; [apply (api_union (rng 0 3) (rng 3 5)); [constructor|constructor|reflexivity]|].
  split; [exact (api_bs_from (pc 0 5))|].
  repeat split. intros t. apply eq_true_iff_eq. rewrite !contains_mem. unfold mem, in_pieces, in_range, bs_ranges.
  split.
  - intros (r & [<-|[<-|[]]] & H); exists (pc 0 5); (split; [left; reflexivity|]);
      cbn [above below br_start br_end pc] in *; rewrite ?le_Z, ?lt_Z in *; lia.
  - intros (r & [<-|[]] & H). cbn [above below br_start br_end pc] in *. rewrite ?le_Z, ?lt_Z in *.
    destruct (Z.ltb_spec t 3).
    + exists (pc 0 3). split; [left; reflexivity|]. cbn [above below br_start br_end pc]. rewrite ?le_Z, ?lt_Z. lia.
    + exists (pc 3 5). split; [right; left; reflexivity|]. cbn [above below br_start br_end pc]. rewrite ?le_Z, ?lt_Z. lia.
Qed.
Lemma overlap_not_valid : ~ valid (VBS (BS [pc 0 5; pc 3 8])).
Proof.
  simpl. intros [_ P]. inversion P as [|x l H _]; subst. inversion H as [|y l' H1 _]; subst. apply H1. reflexivity.
Qed.
Lemma double_mono (a b : Z) : cmp a b = Lt -> cmp (2 * a)%Z (2 * b)%Z = Lt.
Proof. change ((a < b)%Z -> (2 * a < 2 * b)%Z). lia. Qed.

Section Laws3.
Context {T : Type} {OT : Ord T} {OL : OrdLaws T}.
Lemma inter_mem' (a b : value T) :
  fresh a -> fresh b -> ~ (kind_of a = KLowerBoundedSet /\ kind_of b = KLowerBoundedSet) ->
  exists r, intersection a b = Ret r /\ forall t, contains r t = true <-> mem a t /\ mem b t.
Proof.
  intros Fa Fb N. apply inter_mem; auto. destruct (kind_of a), (kind_of b); try reflexivity. exfalso. auto.
Qed.
Lemma eval_denote (e : expr T) :
  good_expr e -> exists v, eval e = Ret v /\ forall t, contains v t = true <-> denote e t.
Proof. intros G. destruct (eval_ok e G) as (v & E & _ & _ & H). eauto. Qed.
Lemma bounded_good (e : expr T) :
  bounded_expr e -> good_expr e /\ has_lower (expr_kind e) = true /\ has_upper (expr_kind e) = true.
Proof.
  induction e as [v|a IHa b IHb|a IHa b IHb|a IHa|a IHa|a IHa]; cbn [bounded_expr good_expr expr_kind]; intros B.
  - tauto.
  - destruct B as [Ba Bb]. destruct (IHa Ba) as (Ga & La & Ua), (IHb Bb) as (Gb & Lb & Ub).
    split; [auto|]. unfold union_kind. destruct (is_none (expr_kind a)); [auto|]. destruct (is_none (expr_kind b)); [auto|].
    assert (W : is_whole (expr_kind a) || is_whole (expr_kind b) = false)
      by (destruct (expr_kind a), (expr_kind b); try discriminate; reflexivity).
    rewrite W, La, Lb, Ua, Ub. auto.
  - destruct B as [Ba Bb]. destruct (IHa Ba) as (Ga & La & Ua), (IHb Bb) as (Gb & Lb & Ub).
    split; [|unfold inter_kind; rewrite La, Ua; destruct (is_none (expr_kind a) || is_none (expr_kind b)),
      (is_set (expr_kind a) || is_set (expr_kind b)); auto].
    split; [exact Ga|]. split; [exact Gb|]. destruct (expr_kind a); try reflexivity. discriminate Ua.
  - destruct B.
  - destruct (IHa B) as (Ga & La & Ua). split; [exact Ga|]. destruct (expr_kind a); try discriminate; auto.
  - destruct (IHa B) as (Ga & La & Ua). split; [exact Ga|]. destruct (expr_kind a); try discriminate; auto.
Qed.
Lemma eval_bounded (e : expr T) :
  bounded_expr e -> exists v, eval e = Ret v /\ forall t, contains v t = true <-> denote e t.
Proof. intros B. apply eval_denote. apply (bounded_good e B). Qed.
Lemma empty_to_set (r : BoundedRange T) :
  is_empty (VBR r) = true <-> value_of_set (to_set (VBR r)) = VBS (BS []).
Proof. simpl. unfold bs_from_br. destruct (br_is_empty r); split; try reflexivity; discriminate. Qed.
Lemma flipped_ok (b : Bound T) (t : T) :
  flipped (flipped b) = b
  /\ (below (UB (flipped b)) t <-> ~ above (LB b) t)
  /\ (above (LB (flipped b)) t <-> ~ below (UB b) t).
Proof.
  split; [destruct b; reflexivity|]. split; [apply (flipped_lower (LB b))|apply (flipped_upper (UB b))].
Qed.
Lemma map_functor (A B C : Type) (f : A -> B) (g : B -> C) (l : LowerBound A) (u : UpperBound A) :
  lb_map (fun x => x) l = l /\ ub_map (fun x => x) u = u
  /\ lb_map g (lb_map f l) = lb_map (fun x => g (f x)) l
  /\ ub_map g (ub_map f u) = ub_map (fun x => g (f x)) u.
Proof. destruct l as [[]], u as [[]]; repeat split. Qed.
Lemma map_monotone {U : Type} {OU : Ord U} {OLU : OrdLaws U} (f : T -> U) :
  (forall a b, cmp a b = Lt -> cmp (f a) (f b) = Lt) -> (forall a b, cmp a b = Eq -> cmp (f a) (f b) = Eq) ->
  (forall (l : LowerBound T) (t : T), above (lb_map f l) (f t) <-> above l t)
  /\ (forall (u : UpperBound T) (t : T), below (ub_map f u) (f t) <-> below u t)
  /\ (forall x y : LowerBound T, lb_cmp (lb_map f x) (lb_map f y) = lb_cmp x y)
  /\ (forall x y : UpperBound T, ub_cmp (ub_map f x) (ub_map f y) = ub_cmp x y).
Proof.
  intros HL HE.
  assert (M : forall a b, cmp (f a) (f b) = cmp a b).
  { intros a b. destruct (cmp a b) eqn:E; [apply HE, E|apply HL, E|]. apply cmp_gt_lt in E. apply cmp_gt_lt, HL, E. }
  split; [apply above_map, M|]. split; [apply below_map, M|]. split; [apply lb_cmp_map, M|apply ub_cmp_map, M].
Qed.
End Laws3.
