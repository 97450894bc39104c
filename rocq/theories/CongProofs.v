(** [==] is a congruence, and programs behave as they do on small integers. *)
From Coq Require Import Lia ZifyBool.
From Verif Require Import Base ModelBound ModelRanges ModelSets ModelAlgebra ModelValue ModelEq Spec SpecBounds SpecMap
  Order Cuts SetProofs AlgebraProofs ValueProofs Canon EqProofs NaturalProofs Provenance Instances.

Section MapEq.
Context {T U : Type} {OT : Ord T} {OU : Ord U} (f : T -> U) (KO : keeps_order f).
Lemma n_eqb a b : value_eqb (map_value f a) (map_value f b) = value_eqb a b.
Proof.
  assert (E : forall x y, teq (f x) (f y) = teq x y) by (intros; apply KO).
  assert (B : forall x y, bound_eqb (map_bound f x) (map_bound f y) = bound_eqb x y) by (intros [x|x] [y|y]; cbn [map_bound bound_eqb]; auto).
  assert (R : forall x y, br_eqb (map_br f x) (map_br f y) = br_eqb x y) by (intros [[x] [x']] [[y] [y']]; unfold br_eqb, lb_eqb, ub_eqb; cbn; rewrite !B; reflexivity).
  assert (L : forall x y, vd_eqb br_eqb (map (map_br f) x) (map (map_br f) y) = vd_eqb br_eqb x y).
  { induction x as [|x l IH]; intros [|y m]; cbn [vd_eqb map]; auto. rewrite R, IH. reflexivity. }
  destruct a as [a|a|a|a|a|a|a|a|a|a|a|a|a|a|[|a]], b as [b|b|b|b|b|b|b|b|b|b|b|b|b|b|[|b]]; cbn [map_value map_us value_eqb us_eqb]; try reflexivity;
    unfold lbs_eqb, ubs_eqb, pus_eqb, bs_eqb, lbr_eqb, ubr_eqb, lb_eqb, ub_eqb;
    cbn [rg_start rg_end ri_start ri_end ri_exhausted rf_start rt_end rti_end map_lbs map_ubs map_pus map_bs map_lbr map_ubr map_lb map_ub
         lbs_lbr lbs_ranges ubs_ubr ubs_ranges pus_ubr pus_ranges pus_lbr bs_ranges lbr_start ubr_end lb_bound ub_bound];
    rewrite ?E, ?B, ?R, ?L; reflexivity.
Qed.
End MapEq.

(** ** Equal values are two views of one value over pairs *)
Section Pairs.
Context {T : Type} {OT : Ord T} {OL : OrdLaws T}.
Definition pairs := { p : T * T | teq (fst p) (snd p) = true }.
Definition p1 (p : pairs) : T := fst (proj1_sig p).
Definition p2 (p : pairs) : T := snd (proj1_sig p).
Local Instance OrdPairs : Ord pairs := { cmp a b := cmp (p1 a) (p1 b); teq a b := teq (p1 a) (p1 b) }.
Lemma ko1 : keeps_order p1. Proof. split; reflexivity. Qed.
Lemma cmp_teq_l (a b c : T) : teq a b = true -> cmp a c = cmp b c.
Proof.
  rewrite teq_cmp. intros E1.
  pose proof (cmp_trans a b c) as A1. pose proof (cmp_trans b a c) as A2. pose proof (cmp_trans c a b) as A3. pose proof (cmp_trans c b a) as A4.
  rewrite (cmp_opp a b) in A2, A4. rewrite E1 in A1, A2, A3, A4. rewrite (cmp_opp a c), (cmp_opp b c) in A3, A4. cbn [CompOpp] in *.
  destruct (cmp a c), (cmp b c); cbn [CompOpp] in *; auto; exfalso;
    first [apply A1; solve [discriminate|reflexivity]|apply A2; solve [discriminate|reflexivity]|apply A3; solve [discriminate|reflexivity]|apply A4; solve [discriminate|reflexivity]].
Qed.
Lemma cmp_teq (a a' b b' : T) : teq a a' = true -> teq b b' = true -> cmp a b = cmp a' b'.
Proof.
  intros E1 E2. rewrite (cmp_teq_l a a' b E1), (cmp_opp b a'), (cmp_teq_l b b' a' E2), <- (cmp_opp b' a'). reflexivity.
Qed.
Lemma ko2 : keeps_order p2.
Proof.
  intros [[a a'] Ea] [[b b'] Eb]. cbn [cmp teq OrdPairs]. unfold p1, p2. cbn [proj1_sig fst snd] in *. rewrite !teq_match.
  rewrite (cmp_teq a a' b b' Ea Eb). split; reflexivity.
Qed.
Local Notation lifts P g := (forall a b, P a b = true -> exists c, g p1 c = a /\ g p2 c = b).
Lemma lift_elem : lifts (@teq T _) (fun (p : pairs -> T) => p).
Proof. intros a b E. exists (exist _ (a, b) E). split; reflexivity. Qed.
Lemma lift_bound : lifts bound_eqb (@map_bound pairs T).
Proof.
  intros [a|a] [b|b]; cbn [bound_eqb]; try discriminate; intros E; destruct (lift_elem a b E) as (c & <- & <-).
  - exists (Excluded c); split; reflexivity.
  - exists (Included c); split; reflexivity.
Qed.
Lemma lift_br : lifts br_eqb (@map_br pairs T).
Proof.
  intros [[a] [a']] [[b] [b']]. unfold br_eqb, lb_eqb, ub_eqb. cbn. rewrite andb_true_iff. intros [E E'].
  destruct (lift_bound a b E) as (c & <- & <-), (lift_bound a' b' E') as (c' & <- & <-). exists (BR (LB c) (UB c')). split; reflexivity.
Qed.
Lemma lift_list : lifts (vd_eqb br_eqb) (fun p l => map (@map_br pairs T p) l).
Proof.
  induction a as [|x a IH]; intros [|y b]; cbn [vd_eqb]; try discriminate; [exists []; split; reflexivity|].
  rewrite andb_true_iff. intros [E E']. destruct (lift_br x y E) as (c & <- & <-), (IH b E') as (l & <- & <-). exists (c :: l). split; reflexivity.
Qed.
Lemma lift_bs : lifts bs_eqb (@map_bs pairs T).
Proof. intros [a] [b] E. destruct (lift_list a b E) as (l & <- & <-). exists (BS l). split; reflexivity. Qed.
Lemma lift_lbr : lifts lbr_eqb (@map_lbr pairs T).
Proof. intros [[a]] [[b]] E. destruct (lift_bound a b E) as (l & <- & <-). exists (LBR (LB l)). split; reflexivity. Qed.
Lemma lift_ubr : lifts ubr_eqb (@map_ubr pairs T).
Proof. intros [[a]] [[b]] E. destruct (lift_bound a b E) as (l & <- & <-). exists (UBR (UB l)). split; reflexivity. Qed.
Lemma lift_value : lifts value_eqb (@map_value pairs T).
Proof.
  intros a b; destruct a as [a|a|a|a|a|a|a|a|a|a|a|a|a|a|[|a]], b as [b|b|b|b|b|b|b|b|b|b|b|b|b|b|[|b]]; cbn [value_eqb us_eqb]; try discriminate; intros E.
  - destruct a as [x x'], b as [y y']. cbn in E. apply andb_true_iff in E as [E E'].
    destruct (lift_elem x y E) as (c & <- & <-), (lift_elem x' y' E') as (c' & <- & <-). exists (VRange (mkRange c c')). split; reflexivity.
  - destruct a as [x x' e], b as [y y' e']. cbn in E. rewrite !andb_true_iff in E. destruct E as [[E E'] F]. apply Bool.eqb_prop in F. subst e'.
    destruct (lift_elem x y E) as (c & <- & <-), (lift_elem x' y' E') as (c' & <- & <-). exists (VRangeInclusive (mkRangeInclusive c c' e)). split; reflexivity.
  - destruct a as [x], b as [y]. destruct (lift_elem x y E) as (c & <- & <-). exists (VRangeFrom (mkRangeFrom c)). split; reflexivity.
  - destruct a as [x], b as [y]. destruct (lift_elem x y E) as (c & <- & <-). exists (VRangeTo (mkRangeTo c)). split; reflexivity.
  - destruct a as [x], b as [y]. destruct (lift_elem x y E) as (c & <- & <-). exists (VRangeToInclusive (mkRangeToInclusive c)). split; reflexivity.
  - destruct a, b. exists (VRangeFull mkRangeFull). split; reflexivity.
  - destruct (lift_br a b E) as (c & <- & <-). exists (VBR c). split; reflexivity.
  - destruct (lift_lbr a b E) as (c & <- & <-). exists (VLBR c). split; reflexivity.
  - destruct (lift_ubr a b E) as (c & <- & <-). exists (VUBR c). split; reflexivity.
  - destruct a, b. exists (VUnbR mkUnboundedRange). split; reflexivity.
  - destruct a, b. exists (VEmpty mkEmptyRange). split; reflexivity.
  - destruct (lift_bs a b E) as (c & <- & <-). exists (VBS c). split; reflexivity.
  - destruct a as [x x'], b as [y y']. unfold lbs_eqb in E. cbn in E. apply andb_true_iff in E as [E E'].
    destruct (lift_bs x y E) as (c & <- & <-), (lift_lbr x' y' E') as (c' & <- & <-). exists (VLBS (LBS c c')). split; reflexivity.
  - destruct a as [x x'], b as [y y']. unfold ubs_eqb in E. cbn in E. apply andb_true_iff in E as [E E'].
    destruct (lift_ubr x y E) as (c & <- & <-), (lift_bs x' y' E') as (c' & <- & <-). exists (VUBS (UBS c c')). split; reflexivity.
  - exists (VUS Full). split; reflexivity.
  - destruct a as [x x' x''], b as [y y' y'']. unfold pus_eqb in E. cbn in E. rewrite !andb_true_iff in E. destruct E as [[E E'] E''].
    destruct (lift_ubr x y E) as (c & <- & <-), (lift_bs x' y' E') as (c' & <- & <-), (lift_lbr x'' y'' E'') as (c'' & <- & <-).
    exists (VUS (Piecewise (PUS c c' c''))). split; reflexivity.
Qed.
Lemma lift_expr : forall e e' : expr T, same_program e e' -> exists c, map_expr p1 c = e /\ map_expr p2 c = e'.
Proof.
  induction e as [v|a IHa b IHb|a IHa b IHb|a IHa|a IHa|a IHa]; intros [v'|a' b'|a' b'|a'|a'|a']; cbn [same_program]; try contradiction; intros E.
  - destruct (lift_value v v' E) as (c & <- & <-). exists (EVal c). split; reflexivity.
  - destruct E as [E E']. destruct (IHa _ E) as (c & <- & <-), (IHb _ E') as (d & <- & <-). exists (EUnion c d). split; reflexivity.
  - destruct E as [E E']. destruct (IHa _ E) as (c & <- & <-), (IHb _ E') as (d & <- & <-). exists (EInter c d). split; reflexivity.
  - destruct (IHa _ E) as (c & <- & <-). exists (ECompl c). split; reflexivity.
  - destruct (IHa _ E) as (c & <- & <-). exists (EInner c). split; reflexivity.
  - destruct (IHa _ E) as (c & <- & <-). exists (ESet c). split; reflexivity.
Qed.
(** Two views of one value are equal. *)
Lemma view_bound c : bound_eqb (map_bound p1 c) (map_bound p2 c) = true.
Proof. destruct c as [c|c]; cbn [map_bound bound_eqb]; destruct c as [p E]; exact E. Qed.
Lemma view_br c : br_eqb (map_br p1 c) (map_br p2 c) = true.
Proof. unfold br_eqb, lb_eqb, ub_eqb. cbn. rewrite !view_bound. reflexivity. Qed.
Lemma view_list l : vd_eqb br_eqb (map (map_br p1) l) (map (map_br p2) l) = true.
Proof. induction l as [|c l IH]; cbn [map vd_eqb]; [reflexivity|]. rewrite view_br, IH. reflexivity. Qed.
Lemma view_value c : value_eqb (map_value p1 c) (map_value p2 c) = true.
Proof.
  assert (E : forall c, teq (p1 c) (p2 c) = true) by (intros [p E]; exact E).
  destruct c as [a|a|a|a|a|a|a|a|a|a|a|a|a|a|[|a]]; cbn [map_value map_us value_eqb us_eqb]; try reflexivity;
    unfold lbs_eqb, ubs_eqb, pus_eqb, bs_eqb, lbr_eqb, ubr_eqb, lb_eqb, ub_eqb;
    cbn [rg_start rg_end ri_start ri_end ri_exhausted rf_start rt_end rti_end map_lbs map_ubs map_pus map_bs map_lbr map_ubr map_lb map_ub
         lbs_lbr lbs_ranges ubs_ubr ubs_ranges pus_ubr pus_ranges pus_lbr bs_ranges lbr_start ubr_end lb_bound ub_bound];
    rewrite ?E, ?view_bound, ?view_br, ?view_list, ?Bool.eqb_reflx; reflexivity.
Qed.
Lemma view_outcome m : same_answer (onto (map_value p1) m) (onto (map_value p2) m).
Proof. destruct m; cbn [onto same_answer]; auto using view_value. Qed.

Lemma cong_eval (e e' : expr T) : same_program e e' -> same_answer (eval e) (eval e').
Proof. intros E. destruct (lift_expr e e' E) as (c & <- & <-). rewrite (n_eval p1 ko1), (n_eval p2 ko2). apply view_outcome. Qed.
Lemma cong_union (a a' b b' : value T) : value_eqb a a' = true -> value_eqb b b' = true -> same_answer (union a b) (union a' b').
Proof.
  intros E1 E2. destruct (lift_value a a' E1) as (c & <- & <-), (lift_value b b' E2) as (d & <- & <-).
  rewrite (n_union p1 ko1), (n_union p2 ko2). apply view_outcome.
Qed.
Lemma cong_intersection (a a' b b' : value T) : value_eqb a a' = true -> value_eqb b b' = true -> same_answer (intersection a b) (intersection a' b').
Proof.
  intros E1 E2. destruct (lift_value a a' E1) as (c & <- & <-), (lift_value b b' E2) as (d & <- & <-).
  rewrite (n_intersection p1 ko1), (n_intersection p2 ko2). apply view_outcome.
Qed.
Lemma cong_complement (a a' : value T) : value_eqb a a' = true -> same_answer (complement a) (complement a').
Proof. intros E. destruct (lift_value a a' E) as (c & <- & <-). rewrite (n_complement p1 ko1), (n_complement p2 ko2). apply view_outcome. Qed.
Lemma cong_disjoint (a a' b b' : value T) : value_eqb a a' = true -> value_eqb b b' = true -> disjoint a b = disjoint a' b'.
Proof.
  intros E1 E2. destruct (lift_value a a' E1) as (c & <- & <-), (lift_value b b' E2) as (d & <- & <-).
  rewrite (n_disjoint p1 ko1), (n_disjoint p2 ko2). reflexivity.
Qed.
Lemma cong_contains (a a' : value T) (t t' : T) : value_eqb a a' = true -> teq t t' = true -> contains a t = contains a' t'.
Proof.
  intros E1 E2. destruct (lift_value a a' E1) as (c & <- & <-), (lift_elem t t' E2) as (d & <- & <-).
  rewrite (n_contains p1 ko1), (n_contains p2 ko2). reflexivity.
Qed.
Lemma cong_is_empty (a a' : value T) : value_eqb a a' = true -> is_empty a = is_empty a'.
Proof. intros E. destruct (lift_value a a' E) as (c & <- & <-). rewrite (n_is_empty p1 ko1), (n_is_empty p2 ko2). reflexivity. Qed.
End Pairs.

(** ** Programs behave as they do on small integers *)
Section Small.
Context {T : Type} {OT : Ord T} {OL : OrdLaws T} (l : list T).
Definition listed := { t : T | In t l }.
Definition el (t : listed) : T := proj1_sig t.
Local Instance OrdListed : Ord listed := { cmp a b := cmp (el a) (el b); teq a b := teq (el a) (el b) }.
Lemma ko_el : keeps_order el. Proof. split; reflexivity. Qed.
Lemma lt_le_cmp (x a b : T) : cmp x a = Lt -> cmp a b <> Gt -> cmp x b = Lt.
Proof.
  intros E C. pose proof (cmp_trans x a b) as H1. pose proof (cmp_trans a b x) as H2. rewrite E in H1. rewrite (cmp_opp x a), (cmp_opp x b), E in H2.
  destruct (cmp x b); cbn [CompOpp] in *; [|reflexivity|]; exfalso; [apply H2|apply H1]; solve [assumption|discriminate|reflexivity].
Qed.
Lemma rank_le (a b : T) : cmp a b <> Gt -> (rank_in l a <= rank_in l b)%Z.
Proof.
  intros C. unfold rank_in. induction l as [|x m IH]; cbn [filter length]; [lia|].
  destruct (cmp x a) eqn:E1, (cmp x b) eqn:E2; cbn [length]; try lia; rewrite (lt_le_cmp x a b E1 C) in E2; discriminate.
Qed.
Lemma rank_lt (a b : T) : In a l -> cmp a b = Lt -> (rank_in l a < rank_in l b)%Z.
Proof.
  intros I C. assert (C' : cmp a b <> Gt) by congruence. unfold rank_in. induction l as [|x m IH]; [destruct I|]. cbn [filter].
  assert (Le : (Z.of_nat (length (filter (fun x => match cmp x a with Lt => true | _ => false end) m)) <= Z.of_nat (length (filter (fun x => match cmp x b with Lt => true | _ => false end) m)))%Z).
  { clear - OL C'. induction m as [|x m IH]; cbn [filter length]; [lia|].
    destruct (cmp x a) eqn:E1, (cmp x b) eqn:E2; cbn [length]; try lia; rewrite (lt_le_cmp x a b E1 C') in E2; discriminate. }
  destruct I as [->|I].
  - rewrite C, cmp_refl. cbn [length]. lia.
  - specialize (IH I). destruct (cmp x a) eqn:E1, (cmp x b) eqn:E2; cbn [length]; try lia; rewrite (lt_le_cmp x a b E1 C') in E2; discriminate.
Qed.
Lemma rank_cmp (a b : T) : In a l -> In b l -> Z.compare (rank_in l a) (rank_in l b) = cmp a b.
Proof.
  intros Ia Ib. destruct (cmp a b) eqn:E.
  - apply Z.compare_eq_iff. apply Z.le_antisymm; apply rank_le; [congruence|]. rewrite (cmp_opp a b), E. discriminate.
  - apply Z.compare_lt_iff. apply rank_lt; assumption.
  - apply Z.compare_gt_iff. apply rank_lt; [assumption|]. rewrite (cmp_opp a b), E. reflexivity.
Qed.
Lemma ko_rank : keeps_order (fun t : listed => rank_in l (el t)).
Proof.
  intros [a Ia] [b Ib]. change (cmp (exist _ a Ia : listed) (exist _ b Ib)) with (cmp a b). change (teq (exist _ a Ia : listed) (exist _ b Ib)) with (teq a b).
  cbn [el proj1_sig]. pose proof (rank_cmp a b Ia Ib) as C. split; [exact C|]. rewrite (teq_match a b), <- C. cbn [teq OrdZ].
  destruct (Z.compare_spec (rank_in l a) (rank_in l b)) as [H|H|H]; [rewrite H; apply Z.eqb_refl|apply Z.eqb_neq; lia|apply Z.eqb_neq; lia].
Qed.

(** Values written with listed elements only are images of values over [listed]. *)
Lemma down_bound (b : Bound T) : In (at_elem b) l -> exists c, map_bound el c = b.
Proof. destruct b as [a|a]; intros I; [exists (Excluded (exist _ a I))|exists (Included (exist _ a I))]; reflexivity. Qed.
Definition br_in (r : BoundedRange T) : Prop := In (at_elem (lb_bound (br_start r))) l /\ In (at_elem (ub_bound (br_end r))) l.
Lemma down_br r : br_in r -> exists c, map_br el c = r.
Proof.
  destruct r as [[a] [b]]. intros [Ia Ib]. destruct (down_bound a Ia) as (c & <-), (down_bound b Ib) as (d & <-). exists (BR (LB c) (UB d)). reflexivity.
Qed.
Lemma down_bs s : (forall r, In r (bs_ranges s) -> br_in r) -> exists c, map_bs el c = s.
Proof.
  destruct s as [m]. cbn [bs_ranges]. induction m as [|r m IH]; intros H; [exists (BS []); reflexivity|].
  destruct (down_br r) as (c & <-); [apply H; left; reflexivity|]. destruct IH as ([d] & E); [intros; apply H; right; assumption|].
  exists (BS (c :: d)). unfold map_bs in *. cbn [bs_ranges map] in *. injection E as <-. reflexivity.
Qed.
Lemma down_lbr (r : LowerBoundedRange T) : In (at_elem (lb_bound (lbr_start r))) l -> exists c, map_lbr el c = r.
Proof. destruct r as [[a]]. intros I. destruct (down_bound a I) as (c & <-). exists (LBR (LB c)). reflexivity. Qed.
Lemma down_ubr (r : UpperBoundedRange T) : In (at_elem (ub_bound (ubr_end r))) l -> exists c, map_ubr el c = r.
Proof. destruct r as [[a]]. intros I. destruct (down_bound a I) as (c & <-). exists (UBR (UB c)). reflexivity. Qed.
Lemma down_value (v : value T) : (forall t, In t (endpoints v) -> In t l) -> exists c, map_value el c = v.
Proof.
  intros H. apply (proj2 (named_endpoints _ v)) in H. destruct H as [HL HU].
  assert (B : forall s : BoundedSet T, (forall r, In r (bs_ranges s) -> In (br_start r) (lows v) /\ In (br_end r) (highs v)) -> forall r, In r (bs_ranges s) -> br_in r).
  { intros s G r I. destruct (G r I) as [G1 G2]. split; [apply HL in G1; exact G1|apply HU in G2; exact G2]. }
  destruct v as [a|a|a|a|a|a|a|a|a|a|a|a|a|a|[|a]]; cbn [lows highs] in HL, HU, B.
  - destruct a as [x y]. assert (Ix : In x l) by (apply (HL (LB (Included x))); left; reflexivity). assert (Iy : In y l) by (apply (HU (UB (Excluded y))); left; reflexivity).
    exists (VRange (mkRange (exist _ x Ix : listed) (exist _ y Iy))). reflexivity.
  - destruct a as [x y e]. assert (Ix : In x l) by (apply (HL (LB (Included x))); left; reflexivity). assert (Iy : In y l) by (apply (HU (UB (Included y))); left; reflexivity).
    exists (VRangeInclusive (mkRangeInclusive (exist _ x Ix : listed) (exist _ y Iy) e)). reflexivity.
  - destruct a as [x]. assert (Ix : In x l) by (apply (HL (LB (Included x))); left; reflexivity). exists (VRangeFrom (mkRangeFrom (exist _ x Ix : listed))). reflexivity.
  - destruct a as [x]. assert (Ix : In x l) by (apply (HU (UB (Excluded x))); left; reflexivity). exists (VRangeTo (mkRangeTo (exist _ x Ix : listed))). reflexivity.
  - destruct a as [x]. assert (Ix : In x l) by (apply (HU (UB (Included x))); left; reflexivity). exists (VRangeToInclusive (mkRangeToInclusive (exist _ x Ix : listed))). reflexivity.
  - exists (VRangeFull a). reflexivity.
  - destruct (down_br a) as (c & <-); [split; [apply (HL (br_start a))|apply (HU (br_end a))]; left; reflexivity|]. exists (VBR c). reflexivity.
  - destruct (down_lbr a) as (c & <-); [apply (HL (lbr_start a)); left; reflexivity|]. exists (VLBR c). reflexivity.
  - destruct (down_ubr a) as (c & <-); [apply (HU (ubr_end a)); left; reflexivity|]. exists (VUBR c). reflexivity.
  - exists (VUnbR a). reflexivity.
  - exists (VEmpty a). reflexivity.
  - destruct (down_bs a) as (c & <-); [apply B; intros r I; split; apply in_map; exact I|]. exists (VBS c). reflexivity.
  - destruct (down_bs (lbs_ranges a)) as (c & E); [apply B; intros r I; split; [apply in_or_app; left|]; apply in_map; exact I|].
    destruct (down_lbr (lbs_lbr a)) as (d & E'); [apply (HL (lbr_start (lbs_lbr a))); apply in_or_app; right; left; reflexivity|].
    exists (VLBS (LBS c d)). destruct a. cbn in *. subst. reflexivity.
  - destruct (down_bs (ubs_ranges a)) as (c & E); [apply B; intros r I; split; [|right]; apply in_map; exact I|].
    destruct (down_ubr (ubs_ubr a)) as (d & E'); [apply (HU (ubr_end (ubs_ubr a))); left; reflexivity|].
    exists (VUBS (UBS d c)). destruct a. cbn in *. subst. reflexivity.
  - exists (VUS Full). reflexivity.
  - destruct (down_bs (pus_ranges a)) as (c & E); [apply B; intros r I; split; [apply in_or_app; left|right]; apply in_map; exact I|].
    destruct (down_ubr (pus_ubr a)) as (d & E'); [apply (HU (ubr_end (pus_ubr a))); left; reflexivity|].
    destruct (down_lbr (pus_lbr a)) as (d' & E''); [apply (HL (lbr_start (pus_lbr a))); apply in_or_app; right; left; reflexivity|].
    exists (VUS (Piecewise (PUS d c d'))). destruct a. cbn in *. subst. reflexivity.
Qed.
Lemma down_expr (e : expr T) : (forall v t, In v (leaves e) -> In t (endpoints v) -> In t l) -> exists c, map_expr el c = e.
Proof.
  induction e as [v|a IHa b IHb|a IHa b IHb|a IHa|a IHa|a IHa]; cbn [leaves]; intros H.
  - destruct (down_value v) as (c & <-); [intros t; apply (H v); left; reflexivity|]. exists (EVal c). reflexivity.
  - destruct IHa as (c & <-); [intros v t I; apply H, in_or_app; left; exact I|]. destruct IHb as (d & <-); [intros v t I; apply H, in_or_app; right; exact I|]. exists (EUnion c d). reflexivity.
  - destruct IHa as (c & <-); [intros v t I; apply H, in_or_app; left; exact I|]. destruct IHb as (d & <-); [intros v t I; apply H, in_or_app; right; exact I|]. exists (EInter c d). reflexivity.
  - destruct (IHa H) as (c & <-). exists (ECompl c). reflexivity.
  - destruct (IHa H) as (c & <-). exists (EInner c). reflexivity.
  - destruct (IHa H) as (c & <-). exists (ESet c). reflexivity.
Qed.
End Small.

Section Compose.
Context {A B C : Type} (f : A -> B) (g : B -> C).
Lemma compose_bs s : map_bs g (map_bs f s) = map_bs (fun x => g (f x)) s.
Proof.
  destruct s as [m]. unfold map_bs. cbn [bs_ranges]. rewrite map_map. f_equal. apply map_ext. intros [[[a|a]] [[b|b]]]; reflexivity.
Qed.
Lemma compose_lbr r : map_lbr g (map_lbr f r) = map_lbr (fun x => g (f x)) r. Proof. destruct r as [[[a|a]]]; reflexivity. Qed.
Lemma compose_ubr r : map_ubr g (map_ubr f r) = map_ubr (fun x => g (f x)) r. Proof. destruct r as [[[a|a]]]; reflexivity. Qed.
Lemma compose_value v : map_value g (map_value f v) = map_value (fun x => g (f x)) v.
Proof.
  destruct v as [a|a|a|a|a|a|a|a|a|a|a|a|a|a|[|a]]; cbn [map_value map_us]; try reflexivity.
  - destruct a as [[[a|a]] [[b|b]]]; reflexivity.
  - rewrite compose_lbr. reflexivity.
  - rewrite compose_ubr. reflexivity.
  - rewrite compose_bs. reflexivity.
  - unfold map_lbs. cbn [lbs_ranges lbs_lbr]. rewrite compose_bs, compose_lbr. reflexivity.
  - unfold map_ubs. cbn [ubs_ranges ubs_ubr]. rewrite compose_bs, compose_ubr. reflexivity.
  - unfold map_pus. cbn [pus_ranges pus_ubr pus_lbr]. rewrite compose_bs, compose_lbr, compose_ubr. reflexivity.
Qed.
Lemma compose_expr e : map_expr g (map_expr f e) = map_expr (fun x => g (f x)) e.
Proof. induction e; cbn [map_expr]; rewrite ?compose_value; congruence. Qed.
Lemma compose_onto m : onto (map_value g) (onto (map_value f) m) = onto (map_value (fun x => g (f x))) m.
Proof. destruct m; cbn [onto]; rewrite ?compose_value; reflexivity. Qed.
End Compose.

Section SmallModel.
Context {T : Type} {OT : Ord T} {OL : OrdLaws T} (l : list T).
Lemma small_eval (e : expr T) : (forall v t, In v (leaves e) -> In t (endpoints v) -> In t l) ->
  eval (map_expr (rank_in l) e) = onto (map_value (rank_in l)) (eval e)
  /\ forall v t, eval e = Ret v -> In t l -> contains (map_value (rank_in l) v) (rank_in l t) = contains v t.
Proof.
  intros H. destruct (down_expr l e H) as (c & <-). rewrite compose_expr, (n_eval _ (ko_rank l)), (n_eval _ (ko_el l)), compose_onto.
  split; [reflexivity|]. intros v t. destruct (eval (OT := OrdListed l) c) as [w| |]; cbn [onto]; try discriminate. intros E I. injection E as <-.
  rewrite compose_value. pose (t' := exist (fun t => In t l) t I : listed l). change t with (el l t').
  rewrite (n_contains _ (ko_rank l)), (n_contains _ (ko_el l)). reflexivity.
Qed.
Lemma rank_bounds t : (0 <= rank_in l t <= Z.of_nat (length l))%Z.
Proof.
  unfold rank_in. split; [lia|]. apply inj_le. clear. induction l as [|x m IH]; cbn [filter length]; [lia|]. destruct (cmp x t); cbn [length]; lia.
Qed.
Lemma rank_small t : In t l -> (0 <= rank_in l t < Z.of_nat (length l))%Z.
Proof.
  intros I. split; [apply rank_bounds|]. unfold rank_in. apply inj_lt. revert I.
  induction l as [|x m IH]; [intros []|]. intros [->|I]; cbn [filter length].
  - rewrite cmp_refl. assert (G : forall m, (length (filter (fun x => match cmp x t with Lt => true | _ => false end) m) <= length m)%nat).
    { clear. induction m as [|x m IH]; cbn [filter length]; [lia|]. destruct (cmp x t); cbn [length]; lia. }
    specialize (G m). lia.
  - specialize (IH I). destruct (cmp x t); cbn [length]; lia.
Qed.
End SmallModel.
