(** Property theorems C42-C43: the [serde] feature.

    [CO : Codec T W] are the element type's own impls; they are assumed to give
    back what was written ([dec (enc t) = Some t]). *)
From Coq Require Import String Lia Permutation ZArith.
From Verif Require Import Base ModelBound ModelRanges ModelSets ModelAlgebra ModelValue ModelStep ModelIter ModelSerde Spec SpecIter StepProofs InstancesStep.
Open Scope string_scope.

Section RoundTrip.
Context {T W : Type} {CO : Codec T W} (RT : forall t : T, dec (enc t) = Some t).

Lemma bound_rt f b : de_bound (ser_bound f b) = Some b.
Proof. destruct f as [a []], b; cbn; rewrite RT; reflexivity. Qed.
Lemma lower_rt f l : de_lower (ser_lower f l) = Some l.
Proof. destruct l. unfold de_lower, ser_lower. cbn. rewrite bound_rt. reflexivity. Qed.
Lemma upper_rt f u : de_upper (ser_upper f u) = Some u.
Proof. destruct u. unfold de_upper, ser_upper. cbn. rewrite bound_rt. reflexivity. Qed.
Lemma br_rt f r : de_br (ser_br f r) = Some r.
Proof.
  destruct r as [s e]. unfold de_br, ser_br. cbn [br_start br_end]. pose proof (lower_rt f s) as L. pose proof (upper_rt f e) as U.
  revert L U. generalize (ser_lower f s) (ser_upper f e). intros x y L U. destruct f as [[] []]; cbn; rewrite L, U; reflexivity.
Qed.
Lemma lbr_rt f r : de_lbr (ser_lbr f r) = Some r.
Proof.
  destruct r as [s]. unfold de_lbr, ser_lbr. cbn [lbr_start]. pose proof (lower_rt f s) as L.
  revert L. generalize (ser_lower f s). intros x L. destruct f as [[] []]; cbn; rewrite L; reflexivity.
Qed.
Lemma ubr_rt f r : de_ubr (ser_ubr f r) = Some r.
Proof.
  destruct r as [s]. unfold de_ubr, ser_ubr. cbn [ubr_end]. pose proof (upper_rt f s) as L.
  revert L. generalize (ser_upper f s). intros x L. destruct f as [[] []]; cbn; rewrite L; reflexivity.
Qed.
Lemma er_rt f (e : EmptyRange) : de_er (W := W) (ser_er f e) = Some e.
Proof. destruct f as [[] []], e; reflexivity. Qed.
Lemma omap_rt {A B : Type} (g : A -> B) (h : B -> option A) l : (forall a, h (g a) = Some a) -> omap h (map g l) = Some l.
Proof. intros H. induction l as [|a l IH]; [reflexivity|]. cbn. rewrite H. cbn. rewrite IH. reflexivity. Qed.
Lemma bs_rt f s : de_bs (ser_bs f s) = Some s.
Proof.
  destruct s as [rs]. unfold de_bs, ser_bs. cbn [bs_ranges]. pose proof (omap_rt (ser_br f) de_br rs (br_rt f)) as L.
  revert L. generalize (map (ser_br f) rs). intros x L. destruct f as [[] []]; cbn; rewrite L; reflexivity.
Qed.
Lemma lbs_rt f s : de_lbs (ser_lbs f s) = Some s.
Proof.
  destruct s as [rs l]. unfold de_lbs, ser_lbs. cbn [lbs_ranges lbs_lbr]. pose proof (bs_rt f rs) as L. pose proof (lbr_rt f l) as U.
  revert L U. generalize (ser_bs f rs) (ser_lbr f l). intros x y L U. destruct f as [[] []]; cbn; rewrite L, U; reflexivity.
Qed.
Lemma ubs_rt f s : de_ubs (ser_ubs f s) = Some s.
Proof.
  destruct s as [u rs]. unfold de_ubs, ser_ubs. cbn [ubs_ranges ubs_ubr]. pose proof (bs_rt f rs) as L. pose proof (ubr_rt f u) as U.
  revert L U. generalize (ser_bs f rs) (ser_ubr f u). intros x y L U. destruct f as [[] []]; cbn; rewrite U; cbn; rewrite L; reflexivity.
Qed.
Lemma pus_rt f s : de_pus (ser_pus f s) = Some s.
Proof.
  destruct s as [u rs l]. unfold de_pus, ser_pus. cbn [pus_ranges pus_ubr pus_lbr].
  pose proof (bs_rt f rs) as L. pose proof (ubr_rt f u) as U. pose proof (lbr_rt f l) as V.
  revert L U V. generalize (ser_bs f rs) (ser_ubr f u) (ser_lbr f l). intros x y z L U V.
  destruct f as [[] []]; cbn; rewrite U; cbn; rewrite L; cbn; rewrite V; reflexivity.
Qed.
Lemma us_rt f s : de_us (ser_us f s) = Some s.
Proof.
  destruct s as [|p]; [destruct f as [[] []]; reflexivity|]. unfold de_us, ser_us. pose proof (pus_rt f p) as L.
  revert L. generalize (ser_pus f p). intros x L. destruct f as [[] []]; cbn; rewrite L; reflexivity.
Qed.
End RoundTrip.

Theorem C42_round_trip (T W : Type) (CO : Codec T W) (f : format) :
  (forall t : T, dec (enc t) = Some t) ->
  (forall b : Bound T, de_bound (ser_bound f b) = Some b) /\
  (forall l : LowerBound T, de_lower (ser_lower f l) = Some l) /\
  (forall u : UpperBound T, de_upper (ser_upper f u) = Some u) /\
  (forall r : BoundedRange T, de_br (ser_br f r) = Some r) /\
  (forall r : LowerBoundedRange T, de_lbr (ser_lbr f r) = Some r) /\
  (forall r : UpperBoundedRange T, de_ubr (ser_ubr f r) = Some r) /\
  (forall r : UnboundedRange, de_unbr (W := W) (ser_unbr r) = Some r) /\
  (forall r : EmptyRange, de_er (W := W) (ser_er f r) = Some r) /\
  (forall s : BoundedSet T, de_bs (ser_bs f s) = Some s) /\
  (forall s : LowerBoundedSet T, de_lbs (ser_lbs f s) = Some s) /\
  (forall s : UpperBoundedSet T, de_ubs (ser_ubs f s) = Some s) /\
  (forall s : PiecewiseUnboundedSet T, de_pus (ser_pus f s) = Some s) /\
  (forall s : UnboundedSet T, de_us (ser_us f s) = Some s).
Proof.
  intros RT. repeat split.
  - exact (bound_rt RT f). - exact (lower_rt RT f). - exact (upper_rt RT f). - exact (br_rt RT f).
  - exact (lbr_rt RT f). - exact (ubr_rt RT f). - intros []; reflexivity. - exact (er_rt f).
  - exact (bs_rt RT f). - exact (lbs_rt RT f). - exact (ubs_rt RT f). - exact (pus_rt RT f). - exact (us_rt RT f).
Qed.
Print Assumptions C42_round_trip.
(** Different values are written differently. *)
Theorem C42_injective (T W : Type) (CO : Codec T W) (f : format) :
  (forall t : T, dec (enc t) = Some t) ->
  (forall s k : BoundedSet T, ser_bs f s = ser_bs f k -> s = k) /\
  (forall s k : UnboundedSet T, ser_us f s = ser_us f k -> s = k).
Proof.
  intros RT. split; intros s k E.
  - pose proof (bs_rt RT f s) as A. rewrite E, (bs_rt RT f k) in A. congruence.
  - pose proof (us_rt RT f s) as A. rewrite E, (us_rt RT f k) in A. congruence.
Qed.
Print Assumptions C42_injective.
(** Named fields may come in any order. *)
Theorem C42_any_field_order (W : Type) (names : list string) (l k : list (ident * tree W)) :
  Permutation l k -> de_struct names (TFields l) = de_struct names (TFields k).
Proof.
  intros P. cbn. generalize (seq 0 (length names)). intros js.
  assert (O : forall i, the_one (field_values names l i) = the_one (field_values names k i)).
  { intros i. unfold field_values.
    assert (Q : forall g : ident * tree W -> bool, Permutation (map snd (filter g l)) (map snd (filter g k))).
    { intros g. apply Permutation_map. clear -P. induction P as [|x l k P IH|x y l|l k j P1 IH1 P2 IH2].
      - constructor.
      - cbn. destruct (g x); [constructor|]; exact IH.
      - cbn. destruct (g x), (g y); try constructor; apply Permutation_refl.
      - exact (Permutation_trans IH1 IH2). }
    specialize (Q (fun p => match resolve names (fst p) with Some j => Nat.eqb j i | None => false end)).
    revert Q. generalize (map snd (filter (fun p => match resolve names (fst p) with Some j => Nat.eqb j i | None => false end) l)).
    generalize (map snd (filter (fun p => match resolve names (fst p) with Some j => Nat.eqb j i | None => false end) k)).
    intros a b Q. pose proof (Permutation_length Q) as L. destruct b as [|x [|y b]]; destruct a as [|x' [|y' a]]; try discriminate; try reflexivity.
    apply Permutation_length_1 in Q. subst. reflexivity. }
  induction js as [|j js IH]; [reflexivity|]. cbn. rewrite O, IH. reflexivity.
Qed.
Print Assumptions C42_any_field_order.

(** ** C43 *)
(** Only what was written from a set keeping the invariant keeps it: missing for
    the full claim is all other input, see [C43_refuted]. *)
Theorem C43_written_sets_partial (T W : Type) (OT : Ord T) (CO : Codec T W) (f : format) :
  (forall t : T, dec (enc t) = Some t) ->
  (forall s k : BoundedSet T, valid (VBS s) -> de_bs (ser_bs f s) = Some k -> valid (VBS k)) /\
  (forall s k : LowerBoundedSet T, valid (VLBS s) -> de_lbs (ser_lbs f s) = Some k -> valid (VLBS k)) /\
  (forall s k : UpperBoundedSet T, valid (VUBS s) -> de_ubs (ser_ubs f s) = Some k -> valid (VUBS k)) /\
  (forall s k : UnboundedSet T, valid (VUS s) -> de_us (ser_us f s) = Some k -> valid (VUS k)).
Proof.
  intros RT. repeat apply conj; intros s k V E.
  - rewrite (bs_rt RT) in E. injection E as <-. exact V.
  - rewrite (lbs_rt RT) in E. injection E as <-. exact V.
  - rewrite (ubs_rt RT) in E. injection E as <-. exact V.
  - rewrite (us_rt RT) in E. injection E as <-. exact V.
Qed.
Print Assumptions C43_written_sets_partial.
(** Every list of pieces, in any order and overlapping or not, is accepted. *)
Theorem C43_anything_accepted (T W : Type) (CO : Codec T W) :
  (forall t : T, dec (enc t) = Some t) ->
  (forall rs : list (BoundedRange T), exists x, de_bs x = Some (BS rs)) /\
  (forall rs (l : LowerBoundedRange T), exists x, de_lbs x = Some (LBS (BS rs) l)) /\
  (forall (u : UpperBoundedRange T) rs, exists x, de_ubs x = Some (UBS u (BS rs))) /\
  (forall (u : UpperBoundedRange T) rs (l : LowerBoundedRange T), exists x, de_us x = Some (Piecewise (PUS u (BS rs) l))).
Proof.
  intros RT. set (f := mkFormat true true). repeat apply conj; intros.
  - exists (ser_bs f (BS rs)). apply (bs_rt RT).
  - exists (ser_lbs f (LBS (BS rs) l)). apply (lbs_rt RT).
  - exists (ser_ubs f (UBS u (BS rs))). apply (ubs_rt RT).
  - exists (ser_us f (Piecewise (PUS u (BS rs) l))). apply (us_rt RT).
Qed.
Print Assumptions C43_anything_accepted.

#[local] Instance CodecZ : Codec Z Z := { enc := fun t => t; dec := fun w => Some w }.
(** [u8] written as a number; out-of-range numbers are rejected. *)
#[local] Instance CodecU8 : Codec (@mint pf64 U8) Z := { enc := fun t => mval t; dec := fun w => @of_z pf64 U8 w }.
(** [{"ranges":[{"start":{"Included":a},"end":{"Excluded":b}}, ...]}]. *)
Definition json_range (a b : Z) : tree Z :=
  TFields [(Name "start", TNewtype (TVariant (Name "Included") (Some (TElem a))));
           (Name "end", TNewtype (TVariant (Name "Excluded") (Some (TElem b))))].
Definition json_set (l : list (tree Z)) : tree Z := TFields [(Name "ranges", TSeq l)].
(** Overlapping pieces in descending order, and the empty piece [5..3], come
    through; iterating the result repeats elements and goes backwards. *)
Theorem C43_refuted :
  exists (s k : BoundedSet (@mint pf64 U8)) it it',
    de_bs (json_set [json_range 5 3]) = Some s /\ ~ valid (VBS s) /\
    de_bs (json_set [json_range 3 5; json_range 2 4]) = Some k /\ ~ valid (VBS k) /\
    bs_into_iter Debug k = Ret it /\
    run (bsi_call (PF := pf64) Debug) it [Next; Next; Next; Next; Next] =
      Ret ([Item (Some (u8 3)); Item (Some (u8 4)); Item (Some (u8 2)); Item (Some (u8 3)); Item None], it').
Proof.
  eexists. eexists. eexists. eexists. split; [vm_compute; reflexivity|]. split.
  { cbn. intros [H _]. inversion H as [|? ? R _]. apply R. cbn. vm_compute. discriminate. }
  split; [vm_compute; reflexivity|]. split.
  { cbn. intros [_ H]. inversion H as [|? ? R _]. inversion R as [|? ? P _]. cbn in P. vm_compute in P. apply P. reflexivity. }
  split; [vm_compute; reflexivity|]. vm_compute. reflexivity.
Qed.
Print Assumptions C43_refuted.
(** The hypothesis of the theorems holds for [u8]. *)
Example C42_u8_codec (t : @mint pf64 U8) : dec (enc t) = Some t.
Proof. apply (@of_z_some pf64). reflexivity. Qed.
Example C42_ex :
  ser_br (mkFormat true true) (BR (LB (Included 3%Z)) (UB (Excluded 8%Z))) = json_range 3 8 /\
  de_br (TFields [(Name "end", TNewtype (TVariant (Index 0) (Some (TElem 8%Z)))); (Name "colour", TUnit);
                  (Index 0, TNewtype (TVariant (Name "Included") (Some (TElem 3%Z))))]) = Some (BR (LB (Included 3%Z)) (UB (Excluded 8%Z))) /\
  de_br (TFields [(Name "start", TNewtype (TVariant (Name "Included") (Some (TElem 3%Z))))]) = None /\
  de_bs (json_set [json_range 0 4; json_range 6 9]) = Some (BS [BR (LB (Included 0%Z)) (UB (Excluded 4%Z)); BR (LB (Included 6%Z)) (UB (Excluded 9%Z))]).
Proof. repeat split. Qed.
