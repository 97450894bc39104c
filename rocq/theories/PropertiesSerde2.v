(** Property theorems C59: exactly which documents the [serde] feature accepts. *)
From Coq Require Import String Lia ZArith.
From Verif Require Import Base ModelBound ModelRanges ModelSets ModelSerde SpecSerde.
Open Scope string_scope.
Open Scope list_scope.

Lemma position_nth names s i : NoDup names -> (position (String.eqb s) names = Some i <-> nth_error names i = Some s).
Proof.
  intros D. revert i. induction D as [|n names N D IH]; intros i.
  { destruct i; cbn; split; discriminate. }
  cbn. destruct (String.eqb s n) eqn:E.
  - apply String.eqb_eq in E. subst n. split.
    + intros [= <-]. reflexivity.
    + destruct i; [reflexivity|]. cbn. intros F. apply nth_error_In in F. contradiction.
  - apply String.eqb_neq in E. destruct i; cbn.
    + split; [destruct (position (String.eqb s) names); discriminate|congruence].
    + rewrite <- IH. destruct (position (String.eqb s) names); cbn; split; congruence.
Qed.
Lemma resolve_refers names x i : NoDup names -> (resolve names x = Some i <-> refers names x i).
Proof.
  intros D. destruct x as [s|n]; cbn [resolve refers]; [apply position_nth, D|].
  destruct (Nat.ltb n (length names)) eqn:E; [apply Nat.ltb_lt in E|apply Nat.ltb_ge in E]; split; try discriminate.
  - intros [= <-]. auto. - intros [-> _]. reflexivity. - intros [-> F]. lia.
Qed.
Lemma filter_none {A : Type} (g : A -> bool) l : filter g l = [] <-> forall x, In x l -> g x = false.
Proof.
  induction l as [|a l IH]; cbn; [firstorder|]. destruct (g a) eqn:E; split.
  - discriminate. - intros H. rewrite (H a (or_introl eq_refl)) in E. discriminate.
  - intros H x [<-|I]; [exact E|]. exact (proj1 IH H x I). - intros H. apply IH. auto.
Qed.
Lemma filter_one {A : Type} (g : A -> bool) l a :
  filter g l = [a] <-> exists l1 l2, l = l1 ++ a :: l2 /\ g a = true /\ forall p, In p (l1 ++ l2) -> g p = false.
Proof.
  split.
  - induction l as [|b l IH]; [discriminate|]. cbn. destruct (g b) eqn:E.
    + intros [= -> H]. exists [], l. split; [reflexivity|]. split; [exact E|]. apply filter_none, H.
    + intros H. destruct (IH H) as (l1 & l2 & -> & G & F). exists (b :: l1), l2. split; [reflexivity|]. split; [exact G|].
      intros p [<-|I]; auto.
  - intros (l1 & l2 & -> & G & F). rewrite filter_app. cbn. rewrite G.
    rewrite (proj2 (filter_none g l1)), (proj2 (filter_none g l2)); [reflexivity|intros; apply F, in_app_iff; auto ..].
Qed.
Lemma once_iff {W : Type} names (l : list (ident * tree W)) i y : NoDup names ->
  (the_one (field_values names l i) = Some y <-> holds_once names l i y).
Proof.
  intros D. unfold field_values, holds_once.
  set (g := fun p : ident * tree W => match resolve names (fst p) with Some j => Nat.eqb j i | None => false end).
  assert (G : forall p, g p = true <-> refers names (fst p) i).
  { intros p. unfold g. rewrite <- (resolve_refers names (fst p) i D).
    destruct (resolve names (fst p)) as [j|]; [rewrite Nat.eqb_eq|]; split; congruence. }
  split.
  - intros H. destruct (filter g l) as [|[x z] [|]] eqn:E; try discriminate. cbn in H. injection H as ->.
    apply filter_one in E as (l1 & l2 & E & E1 & E2). exists l1, x, l2. split; [exact E|]. split; [apply (G (x, y)), E1|].
    intros p I R. apply G in R. rewrite (E2 p I) in R. discriminate.
  - intros (l1 & x & l2 & E & R & F). assert (H : filter g l = [(x, y)]).
    { apply filter_one. exists l1, l2. split; [exact E|]. split; [apply G, R|]. intros p I. destruct (g p) eqn:Q; [|reflexivity].
      apply G in Q. destruct (F p I Q). }
    rewrite H. reflexivity.
Qed.
Lemma omap_nth {A B : Type} (f : A -> option B) l k :
  omap f l = Some k <-> length k = length l /\ forall i a b, nth_error l i = Some a -> nth_error k i = Some b -> f a = Some b.
Proof.
  revert k. induction l as [|a l IH]; intros k; cbn.
  - split; [intros [= <-]; split; [reflexivity|intros [|]; discriminate]|]. intros [L _]. destruct k; [reflexivity|discriminate].
  - split.
    + destruct (f a) as [b|] eqn:E; [|discriminate]. cbn. destruct (omap f l) as [k'|] eqn:F; [|discriminate]. cbn. intros [= <-].
      destruct (proj1 (IH k') eq_refl) as [L H]. cbn. split; [lia|]. intros [|i] x y; cbn; [congruence|apply H].
    + intros [L H]. destruct k as [|b k]; [discriminate|]. rewrite (H 0%nat a b eq_refl eq_refl). cbn.
      rewrite (proj2 (IH k)); [reflexivity|]. cbn in L. split; [lia|]. intros i x y. apply (H (S i)).
Qed.
Lemma seq_nth_error n m i : nth_error (seq n m) i = if Nat.ltb i m then Some (n + i)%nat else None.
Proof.
  revert n i. induction m as [|m IH]; intros n i; [destruct i; reflexivity|]. destruct i; cbn [seq nth_error].
  - rewrite Nat.add_0_r. reflexivity.
  - rewrite IH. change (Nat.ltb (S i) (S m)) with (Nat.ltb i m). destruct (Nat.ltb i m); f_equal. lia.
Qed.
Theorem C59_structs (W : Type) (names : list string) (x : tree W) (ys : list (tree W)) :
  NoDup names -> (de_struct names x = Some ys <-> says_struct names x ys).
Proof.
  intros D. unfold says_struct. destruct x as [w| |y|l|l|v y]; cbn; try (split; [discriminate|intros [_ []]]).
  - destruct (Nat.eqb (length l) (length names)) eqn:E; [apply Nat.eqb_eq in E|apply Nat.eqb_neq in E]; split; try discriminate.
    + intros [= <-]. auto. + intros [_ ->]. reflexivity. + intros [F ->]. contradiction.
  - rewrite omap_nth, seq_length. split; intros [L H]; (split; [exact L|]).
    + intros i y I. apply once_iff; [exact D|]. apply (H i i y); [|exact I]. rewrite seq_nth_error.
      assert (K : (i < length names)%nat). { rewrite <- L. apply nth_error_Some. congruence. }
      apply Nat.ltb_lt in K. rewrite K. reflexivity.
    + intros i a b A B. rewrite seq_nth_error in A. destruct (Nat.ltb i (length names)); [|discriminate]. injection A as <-.
      apply once_iff; [exact D|]. apply H, B.
Qed.
Print Assumptions C59_structs.

Section Accepted.
Context {T W : Type} {CO : Codec T W}.
Lemma obind_some {A B : Type} (x : option A) (f : A -> option B) b : obind x f = Some b <-> exists a, x = Some a /\ f a = Some b.
Proof. destruct x as [a|]; cbn; split; [eauto|intros (a' & [= <-] & H); exact H|discriminate|intros (a' & [=] & _)]. Qed.
Ltac nodup := repeat constructor; cbn; intuition discriminate.
Lemma variant_iff names (x : tree W) i o : NoDup names ->
  (de_variant names x = Some (i, o) <-> exists v, x = TVariant v o /\ refers names v i).
Proof.
  intros D. destruct x as [w| |y|l|l|v y]; cbn; try (split; [discriminate|intros (? & [=] & _)]).
  rewrite obind_some. split.
  - intros (j & R & [= -> ->]). apply resolve_refers in R; eauto.
  - intros (v' & [= <- <-] & R). apply resolve_refers in R; eauto.
Qed.
Lemma bound_iff (x : tree W) (b : Bound T) : de_bound x = Some b <-> says_bound x b.
Proof.
  unfold de_bound, says_bound. rewrite obind_some. split.
  - intros ([i o] & V & H). apply variant_iff in V; [|nodup]. destruct V as (v & -> & R).
    destruct i as [|[|i]]; destruct o as [y|]; try discriminate; apply obind_some in H as (t & E & [= <-]);
      destruct y; try discriminate; exists v, w, t; repeat split; try exact E; [left|right]; auto.
  - intros (v & w & t & -> & E & [[R ->]|[R ->]]); [exists (0%nat, Some (TElem w))|exists (1%nat, Some (TElem w))]; (split; [apply variant_iff; [nodup|eauto]|]);
      cbn; rewrite E; reflexivity.
Qed.
Lemma newtype_iff (x y : tree W) : de_newtype x = Some y <-> says_newtype x y.
Proof.
  unfold says_newtype. destruct x as [w| |z|[|z [|]]|l|v z]; cbn; split; try discriminate; try (intros [|]; discriminate).
  - intros [= ->]. auto. - intros [[= ->]|]; [reflexivity|discriminate].
  - intros [= ->]. auto. - intros [|[= ->]]; [discriminate|reflexivity].
Qed.
Lemma lower_iff (x : tree W) (l : LowerBound T) : de_lower x = Some l <-> says_lower x l.
Proof.
  unfold de_lower, says_lower. rewrite obind_some. split.
  - intros (y & N & H). apply obind_some in H as (b & B & [= <-]). exists y. rewrite <- newtype_iff, <- bound_iff. auto.
  - intros (y & N & B). exists y. rewrite newtype_iff. split; [exact N|]. apply bound_iff in B. rewrite B. destruct l. reflexivity.
Qed.
Lemma upper_iff (x : tree W) (l : UpperBound T) : de_upper x = Some l <-> says_upper x l.
Proof.
  unfold de_upper, says_upper. rewrite obind_some. split.
  - intros (y & N & H). apply obind_some in H as (b & B & [= <-]). exists y. rewrite <- newtype_iff, <- bound_iff. auto.
  - intros (y & N & B). exists y. rewrite newtype_iff. split; [exact N|]. apply bound_iff in B. rewrite B. destruct l. reflexivity.
Qed.
Lemma br_iff (x : tree W) (r : BoundedRange T) : de_br x = Some r <-> says_br x r.
Proof.
  unfold de_br, says_br. rewrite obind_some. split.
  - intros (xs & S & H). apply C59_structs in S; [|nodup]. destruct xs as [|a [|b []]]; try discriminate.
    apply obind_some in H as (s & A & H). apply obind_some in H as (e & B & [= <-]). exists a, b. rewrite <- lower_iff, <- upper_iff. auto.
  - intros (a & b & S & A & B). exists [a; b]. rewrite C59_structs by nodup. split; [exact S|].
    apply lower_iff in A. apply upper_iff in B. rewrite A. cbn. rewrite B. destruct r. reflexivity.
Qed.
Lemma lbr_iff (x : tree W) (r : LowerBoundedRange T) : de_lbr x = Some r <-> says_lbr x r.
Proof.
  unfold de_lbr, says_lbr. rewrite obind_some. split.
  - intros (xs & S & H). apply C59_structs in S; [|nodup]. destruct xs as [|a []]; try discriminate.
    apply obind_some in H as (s & A & [= <-]). exists a. rewrite <- lower_iff. auto.
  - intros (a & S & A). exists [a]. rewrite C59_structs by nodup. split; [exact S|].
    apply lower_iff in A. rewrite A. destruct r. reflexivity.
Qed.
Lemma ubr_iff (x : tree W) (r : UpperBoundedRange T) : de_ubr x = Some r <-> says_ubr x r.
Proof.
  unfold de_ubr, says_ubr. rewrite obind_some. split.
  - intros (xs & S & H). apply C59_structs in S; [|nodup]. destruct xs as [|a []]; try discriminate.
    apply obind_some in H as (s & A & [= <-]). exists a. rewrite <- upper_iff. auto.
  - intros (a & S & A). exists [a]. rewrite C59_structs by nodup. split; [exact S|].
    apply upper_iff in A. rewrite A. destruct r. reflexivity.
Qed.
Lemma omap_forall2 {A B : Type} (f : A -> option B) (P : A -> B -> Prop) l k :
  (forall a b, f a = Some b <-> P a b) -> (omap f l = Some k <-> Forall2 P l k).
Proof.
  intros H. revert k. induction l as [|a l IH]; intros k; cbn.
  - split; [intros [= <-]; constructor|inversion 1; reflexivity].
  - rewrite obind_some. split.
    + intros (b & F & G). apply obind_some in G as (k' & G & [= <-]). constructor; [apply H, F|apply IH, G].
    + inversion 1 as [|? b ? k' F G]; subst. exists b. split; [apply H, F|]. apply IH in G. rewrite G. reflexivity.
Qed.
Lemma bs_iff (x : tree W) (s : BoundedSet T) : de_bs x = Some s <-> says_bs x s.
Proof.
  unfold de_bs, says_bs. rewrite obind_some. split.
  - intros (xs & S & H). apply C59_structs in S; [|nodup]. destruct xs as [|a []]; try discriminate; destruct a; try discriminate.
    apply obind_some in H as (rs & A & [= <-]). exists l. split; [exact S|]. apply (omap_forall2 de_br says_br); [exact br_iff|exact A].
  - intros (l & S & A). exists [TSeq l]. rewrite C59_structs by nodup. split; [exact S|].
    apply (omap_forall2 de_br says_br) in A; [|exact br_iff]. rewrite A. destruct s. reflexivity.
Qed.
Lemma lbs_iff (x : tree W) (s : LowerBoundedSet T) : de_lbs x = Some s <-> says_lbs x s.
Proof.
  unfold de_lbs, says_lbs. rewrite obind_some. split.
  - intros (xs & S & H). apply C59_structs in S; [|nodup]. destruct xs as [|a [|b []]]; try discriminate.
    apply obind_some in H as (s' & A & H). apply obind_some in H as (e & B & [= <-]). exists a, b. rewrite <- bs_iff, <- lbr_iff. auto.
  - intros (a & b & S & A & B). exists [a; b]. rewrite C59_structs by nodup. split; [exact S|].
    apply bs_iff in A. apply lbr_iff in B. rewrite A. cbn. rewrite B. destruct s. reflexivity.
Qed.
Lemma ubs_iff (x : tree W) (s : UpperBoundedSet T) : de_ubs x = Some s <-> says_ubs x s.
Proof.
  unfold de_ubs, says_ubs. rewrite obind_some. split.
  - intros (xs & S & H). apply C59_structs in S; [|nodup]. destruct xs as [|a [|b []]]; try discriminate.
    apply obind_some in H as (s' & A & H). apply obind_some in H as (e & B & [= <-]). exists a, b. rewrite <- bs_iff, <- ubr_iff. auto.
  - intros (a & b & S & A & B). exists [a; b]. rewrite C59_structs by nodup. split; [exact S|].
    apply ubr_iff in A. apply bs_iff in B. rewrite A. cbn. rewrite B. destruct s. reflexivity.
Qed.
Lemma pus_iff (x : tree W) (s : PiecewiseUnboundedSet T) : de_pus x = Some s <-> says_pus x s.
Proof.
  unfold de_pus, says_pus, pus_names. rewrite obind_some. split.
  - intros (xs & S & H). apply C59_structs in S; [|nodup]. destruct xs as [|a [|b [|c []]]]; try discriminate.
    apply obind_some in H as (s' & A & H). apply obind_some in H as (e & B & H). apply obind_some in H as (e' & C & [= <-]).
    exists a, b, c. rewrite <- bs_iff, <- ubr_iff, <- lbr_iff. auto.
  - intros (a & b & c & S & A & B & C). exists [a; b; c]. rewrite C59_structs by nodup. split; [exact S|].
    apply ubr_iff in A. apply bs_iff in B. apply lbr_iff in C. rewrite A. cbn. rewrite B. cbn. rewrite C. destruct s. reflexivity.
Qed.
Lemma us_iff (x : tree W) (s : UnboundedSet T) : de_us x = Some s <-> says_us x s.
Proof.
  unfold de_us, says_us. rewrite obind_some. split.
  - intros ([i o] & V & H). apply variant_iff in V; [|nodup]. destruct V as (v & -> & R).
    destruct i as [|[|i]]; destruct o as [y|]; try discriminate.
    + injection H as <-. eauto.
    + apply obind_some in H as (p & P & [= <-]). exists v, y. rewrite <- pus_iff. auto.
  - destruct s as [|p].
    + intros (v & -> & R). exists (0%nat, None). split; [apply variant_iff; [nodup|eauto]|reflexivity].
    + intros (v & y & -> & R & P). exists (1%nat, Some y). split; [apply variant_iff; [nodup|eauto]|].
      apply pus_iff in P. rewrite P. reflexivity.
Qed.
Lemma er_iff (x : tree W) (r : EmptyRange) : de_er x = Some r <-> says_struct ["t"] x [TUnit].
Proof.
  unfold de_er. rewrite obind_some. rewrite <- C59_structs by nodup. split.
  - intros (xs & S & H). destruct xs as [|a []]; try discriminate. destruct a; try discriminate. exact S.
  - intros S. exists [TUnit]. split; [exact S|]. destruct r. reflexivity.
Qed.
End Accepted.

(** A document is read as a value exactly when it says that value. *)
Theorem C59_accepted (T W : Type) (CO : Codec T W) (x : tree W) :
  (forall b : Bound T, de_bound x = Some b <-> says_bound x b) /\
  (forall l : LowerBound T, de_lower x = Some l <-> says_lower x l) /\
  (forall u : UpperBound T, de_upper x = Some u <-> says_upper x u) /\
  (forall r : BoundedRange T, de_br x = Some r <-> says_br x r) /\
  (forall r : LowerBoundedRange T, de_lbr x = Some r <-> says_lbr x r) /\
  (forall r : UpperBoundedRange T, de_ubr x = Some r <-> says_ubr x r) /\
  (forall s : BoundedSet T, de_bs x = Some s <-> says_bs x s) /\
  (forall s : LowerBoundedSet T, de_lbs x = Some s <-> says_lbs x s) /\
  (forall s : UpperBoundedSet T, de_ubs x = Some s <-> says_ubs x s) /\
  (forall s : PiecewiseUnboundedSet T, de_pus x = Some s <-> says_pus x s) /\
  (forall s : UnboundedSet T, de_us x = Some s <-> says_us x s) /\
  (forall r : UnboundedRange, de_unbr x = Some r <-> x = TUnit) /\
  (forall r : EmptyRange, de_er x = Some r <-> says_struct ["t"] x [TUnit]).
Proof.
  assert (U : forall r : UnboundedRange, de_unbr x = Some r <-> x = TUnit).
  { intros []. destruct x; cbn; split; congruence. }
  exact (conj (bound_iff x) (conj (lower_iff x) (conj (upper_iff x) (conj (br_iff x) (conj (lbr_iff x) (conj (ubr_iff x)
    (conj (bs_iff x) (conj (lbs_iff x) (conj (ubs_iff x) (conj (pus_iff x) (conj (us_iff x) (conj U (er_iff x))))))))))))).
Qed.
Print Assumptions C59_accepted.
(** No document says two values. *)
Theorem C59_unambiguous (T W : Type) (CO : Codec T W) (x : tree W) :
  (forall r k : BoundedRange T, says_br x r -> says_br x k -> r = k) /\
  (forall s k : BoundedSet T, says_bs x s -> says_bs x k -> s = k) /\
  (forall s k : UnboundedSet T, says_us x s -> says_us x k -> s = k).
Proof.
  repeat apply conj; intros s k A B.
  - apply br_iff in A. apply br_iff in B. congruence.
  - apply bs_iff in A. apply bs_iff in B. congruence.
  - apply us_iff in A. apply us_iff in B. congruence.
Qed.
Print Assumptions C59_unambiguous.
(** What is written, by a format with names: those of the source. *)
Theorem C59_written (T W : Type) (CO : Codec T W) (l : LowerBound T) (u : UpperBound T) (rs : BoundedSet T) :
  let json := mkFormat true true in
  (forall t : T, ser_bound json (Excluded t) = TVariant (Name "Excluded") (Some (TElem (enc t))) /\
                 ser_bound json (Included t) = TVariant (Name "Included") (Some (TElem (enc t)))) /\
  ser_br json (BR l u) = TFields [(Name "start", ser_lower json l); (Name "end", ser_upper json u)] /\
  ser_lbr json (LBR l) = TFields [(Name "start", ser_lower json l)] /\
  ser_ubr json (UBR u) = TFields [(Name "end", ser_upper json u)] /\
  ser_bs json rs = TFields [(Name "ranges", TSeq (map (ser_br json) (bs_ranges rs)))] /\
  ser_lbs json (LBS rs (LBR l)) = TFields [(Name "ranges", ser_bs json rs); (Name "lower_bounded_range", ser_lbr json (LBR l))] /\
  ser_ubs json (UBS (UBR u) rs) = TFields [(Name "upper_bounded_range", ser_ubr json (UBR u)); (Name "ranges", ser_bs json rs)] /\
  ser_us json (Full (T := T)) = TVariant (Name "Full") None /\
  ser_us json (Piecewise (PUS (UBR u) rs (LBR l))) =
    TVariant (Name "Piecewise") (Some (TFields [(Name "upper_bounded_range", ser_ubr json (UBR u)); (Name "ranges", ser_bs json rs);
                                                (Name "lower_bounded_range", ser_lbr json (LBR l))])).
Proof. repeat split. Qed.
Print Assumptions C59_written.
(** By a format without: the fields in the order of the source, and the
    positions of the variants. *)
Theorem C59_written_compact (T W : Type) (CO : Codec T W) (l : LowerBound T) (u : UpperBound T) (rs : BoundedSet T) :
  let bin := mkFormat false false in
  (forall t : T, ser_bound bin (Excluded t) = TVariant (Index 0) (Some (TElem (enc t))) /\
                 ser_bound bin (Included t) = TVariant (Index 1) (Some (TElem (enc t)))) /\
  ser_lower bin l = TNewtype (ser_bound bin (lb_bound l)) /\
  ser_upper bin u = TNewtype (ser_bound bin (ub_bound u)) /\
  ser_br bin (BR l u) = TSeq [ser_lower bin l; ser_upper bin u] /\
  ser_lbr bin (LBR l) = TSeq [ser_lower bin l] /\
  ser_ubr bin (UBR u) = TSeq [ser_upper bin u] /\
  ser_bs bin rs = TSeq [TSeq (map (ser_br bin) (bs_ranges rs))] /\
  ser_lbs bin (LBS rs (LBR l)) = TSeq [ser_bs bin rs; ser_lbr bin (LBR l)] /\
  ser_ubs bin (UBS (UBR u) rs) = TSeq [ser_ubr bin (UBR u); ser_bs bin rs] /\
  ser_us bin (Full (T := T)) = TVariant (Index 0) None /\
  ser_us bin (Piecewise (PUS (UBR u) rs (LBR l))) =
    TVariant (Index 1) (Some (TSeq [ser_ubr bin (UBR u); ser_bs bin rs; ser_lbr bin (LBR l)])).
Proof. repeat split. Qed.
Print Assumptions C59_written_compact.
(** Repeated and missing fields, and names that are not there, are refused;
    fields of other names are passed over. *)
Theorem C59_faults (T W : Type) (CO : Codec T W) (l1 l2 l3 : list (ident * tree W)) (n : string) (x y : tree W) :
  (n = "start" \/ n = "end" -> de_br (T := T) (TFields (l1 ++ (Name n, x) :: l2 ++ (Name n, y) :: l3)) = None) /\
  (n = "start" \/ n = "end" -> (forall p, In p l1 -> forall i, ~ refers ["start"; "end"] (fst p) i \/ nth_error ["start"; "end"] i <> Some n) ->
     de_br (T := T) (TFields l1) = None) /\
  (n <> "start" -> n <> "end" -> de_br (T := T) (TFields (l1 ++ (Name n, x) :: l2)) = de_br (TFields (l1 ++ l2))) /\
  (n <> "Excluded" -> n <> "Included" -> de_bound (T := T) (TVariant (Name n) (Some x)) = None) /\
  (n <> "Full" -> n <> "Piecewise" -> de_us (T := T) (TVariant (Name n) (Some x)) = None).
Proof.
  assert (D : NoDup ["start"; "end"]) by (repeat constructor; cbn; intuition discriminate).
  assert (K : n = "start" \/ n = "end" -> exists i, (i < 2)%nat /\ nth_error ["start"; "end"] i = Some n).
  { intros [->| ->]; [exists 0%nat|exists 1%nat]; auto. }
  assert (S : forall (z : tree W) r, de_br (T := T) z = Some r -> exists a b, says_struct ["start"; "end"] z [a; b]).
  { intros z r H. apply br_iff in H as (a & b & H & _). eauto. }
  assert (O : forall l, (exists r, de_br (T := T) (TFields l) = Some r) -> n = "start" \/ n = "end" -> exists i v, nth_error ["start"; "end"] i = Some n /\ holds_once ["start"; "end"] l i v).
  { intros l [r H] N. destruct (K N) as (i & I & E). apply S in H as (a & b & _ & H). exists i.
    destruct i as [|[|i]]; [exists a|exists b|lia]; (split; [exact E|]); apply H; reflexivity. }
  repeat apply conj.
  - intros N. destruct (de_br (TFields _)) as [r|] eqn:E; [|reflexivity]. exfalso.
    destruct (O _ (ex_intro _ r E) N) as (i & v & I & F). apply (once_iff _ _ _ _ D) in F. unfold field_values in F.
    assert (Q : resolve ["start"; "end"] (Name n) = Some i) by (apply resolve_refers; [exact D|exact I]).
    rewrite filter_app in F. cbn [filter fst] in F. rewrite Q, Nat.eqb_refl, filter_app in F. cbn [filter fst] in F. rewrite Q, Nat.eqb_refl in F.
    rewrite map_app in F. cbn [map] in F. rewrite map_app in F. cbn [map] in F.
    destruct (map snd (filter _ l1)) as [|? [|]], (map snd (filter _ l2)); discriminate.
  - intros N H. destruct (de_br (TFields l1)) as [r|] eqn:E; [|reflexivity]. exfalso.
    destruct (O _ (ex_intro _ r E) N) as (i & v & I & k1 & z & k2 & -> & R & U).
    destruct (H (z, v)) with (i := i) as [F|F]; [apply in_app_iff; right; left; reflexivity|exact (F R)|exact (F I)].
  - intros A B. unfold de_br. f_equal. cbn [de_struct]. unfold field_values.
    assert (Q : resolve ["start"; "end"] (Name n) = None).
    { destruct (resolve _ _) as [i|] eqn:E; [|reflexivity]. apply (resolve_refers _ _ _ D) in E. cbn in E.
      destruct i as [|[|[|i]]]; cbn in E; congruence. }
    cbn [length seq omap]. rewrite !filter_app. cbn [filter fst]. rewrite Q. reflexivity.
  - intros A B. destruct (de_bound _) as [b|] eqn:E; [|reflexivity]. apply bound_iff in E as (v & w & t & [= <- ->] & _ & [[R _]|[R _]]); cbn in R; congruence.
  - intros A B. destruct (de_us _) as [b|] eqn:E; [|reflexivity]. apply us_iff in E. destruct b as [|p].
    + destruct E as (v & [=] & _). + destruct E as (v & w & [= <- <-] & R & _). cbn in R. congruence.
Qed.
Print Assumptions C59_faults.
#[local] Instance CodecZ2 : Codec Z Z := { enc := fun t => t; dec := fun w => if (w <? 256)%Z then Some w else None }.
Definition doc (n : string) (v : string) (t : Z) : ident * tree Z := (Name n, TNewtype (TVariant (Name v) (Some (TElem t)))).
(** [{"end":{"Excluded":8},"note":…,"start":{"Included":3}}] is read; with "start"
    twice, with 300 for a byte, with "Inclusive" or without "end" it is not. *)
Example C59_ex :
  says_br (TFields [doc "end" "Excluded" 8; doc "note" "" 0; doc "start" "Included" 3]) (BR (LB (Included 3%Z)) (UB (Excluded 8%Z))) /\
  de_br (T := Z) (TFields [doc "start" "Included" 3; doc "end" "Excluded" 8; doc "start" "Included" 3]) = None /\
  de_br (T := Z) (TFields [doc "start" "Included" 300; doc "end" "Excluded" 8]) = None /\
  de_br (T := Z) (TFields [doc "start" "Inclusive" 3; doc "end" "Excluded" 8]) = None /\
  de_br (T := Z) (TFields [doc "start" "Included" 3]) = None.
Proof. split; [apply br_iff; reflexivity|]. repeat split. Qed.
