(** How much work adding ranges to a set is. *)
From Coq Require Import Lia ZifyBool Arith.
From Verif Require Import Base ModelBound ModelRanges ModelSets ModelAlgebra ModelValue ModelCost Spec Reach
  Order Cuts SetProofs CombineProofs AlgebraProofs ValueProofs Laws Instances PropertiesAlgebra PropertiesSets PropertiesDepth.
Open Scope nat_scope.

Lemma scan_position {A : Type} (f : A -> bool) l :
  scan f l = (position f l, match position f l with Some i => S i | None => length l end).
Proof.
  induction l as [|x l IH]; [reflexivity|]. cbn [scan position length]. destruct (f x); [reflexivity|].
  rewrite IH. destruct (position f l); reflexivity.
Qed.
Lemma scan_hit {A : Type} (f : A -> bool) b x a : (forall y, In y b -> f y = false) -> f x = true ->
  scan f (b ++ x :: a) = (Some (length b), S (length b)).
Proof.
  intros B X. induction b as [|y b IH]; cbn [app scan length]; [now rewrite X|].
  rewrite (B y) by (left; reflexivity). rewrite IH by (intros z I; apply B; right; exact I). reflexivity.
Qed.
Lemma scan_miss {A : Type} (f : A -> bool) l : (forall y, In y l -> f y = false) -> scan f l = (None, length l).
Proof. intros B. rewrite scan_position, position_miss by exact B. reflexivity. Qed.

Section Cost.
Context {T : Type} {OT : Ord T}.

Lemma add_range_same fuel : forall (ranges : list (BoundedRange T)) r,
  bs_add_range_fuel fuel ranges r = (x <- add_range_work fuel ranges r ;; Ret (fst x)).
Proof.
  induction fuel as [|fuel IH]; intros ranges r; [reflexivity|]. cbn [bs_add_range_fuel add_range_work].
  destruct (negb (br_is_empty r)); [|reflexivity]. rewrite !scan_position. destruct (position _ ranges) as [i|].
  - destruct (vd_index ranges i) as [f| |]; cbn [bind]; [|reflexivity..]. destruct (br_combine r f) as [n| |]; cbn [bind]; [|reflexivity..].
    rewrite IH. destruct (add_range_work _ _ _); reflexivity.
  - destruct (vd_insert _ _ _); reflexivity.
Qed.

Lemma work_bound fuel : forall (ranges : list (BoundedRange T)) r l w, add_range_work fuel ranges r = Ret (l, w) ->
  exists k, length l + k <= length ranges + 1 /\ tests w <= (k + 1) * length ranges /\ starts w <= length ranges.
Proof.
  induction fuel as [|fuel IH]; intros ranges r l w; [discriminate|]. cbn [add_range_work].
  destruct (negb (br_is_empty r)).
  2: { intros E. injection E as <- <-. exists 0. cbn. lia. }
  rewrite !scan_position. destruct (position (fun range => br_intersects_br range r) ranges) as [i|] eqn:P.
  - apply position_some in P as (l1 & x & l2 & -> & -> & _ & _). rewrite vd_index_mid, vd_remove_mid. cbn [bind snd].
    destruct (br_combine r x) as [n| |]; cbn [bind]; try discriminate.
    destruct (add_range_work fuel (l1 ++ l2) n) as [[l' w']| |] eqn:E; cbn [bind fst snd]; try discriminate.
    intros F. injection F as <- <-. apply IH in E as (k & L & Te & St). exists (S k). cbn [more tests starts].
    rewrite !app_length in *. cbn [length] in *. split; [lia|]. split; [|lia].
    transitivity (S (length l1) + (k + 1) * (length l1 + length l2)); [lia|]. nia.
  - unfold vd_insert. destruct (Nat.leb _ _); cbn [bind]; [|discriminate]. intros E. injection E as <- <-. exists 0.
    cbn [tests starts]. rewrite app_length. cbn [length].
    destruct (position (fun range => lb_gt (br_start range) (br_start r)) ranges) as [j|] eqn:Q.
    + apply position_some in Q as (l1 & x & l2 & -> & -> & _ & _). rewrite firstn_length, skipn_length, !app_length. cbn [length]. cbv beta iota. lia.
    + rewrite firstn_length, skipn_length. lia.
Qed.

Lemma set_work_bound (other : list (BoundedRange T)) : forall (s : BoundedSet T) w0 s' w,
  foldM (fun s r => x <- bs_add_range_work (fst s) r ;; Ret (fst x, more (snd s) (snd x))) other (s, w0) = Ret (s', w) ->
  exists k, length (bs_ranges s') + k <= length (bs_ranges s) + length other /\
    tests w <= tests w0 + (k + length other) * (length (bs_ranges s) + length other) /\
    starts w <= starts w0 + length other * (length (bs_ranges s) + length other).
Proof.
  induction other as [|r other IH]; intros s w0 s' w; cbn [foldM length].
  - intros E. injection E as <- <-. exists 0. lia.
  - unfold bs_add_range_work at 1. cbn [fst snd]. destruct (add_range_work _ _ r) as [[l v]| |] eqn:A; cbn [bind fst snd]; try discriminate.
    intros E. apply IH in E as (k & L & Te & St). apply work_bound in A as (j & L' & Te' & St'). cbn [bs_ranges more tests starts] in *.
    exists (k + j). set (n := length (bs_ranges s)) in *. set (p := length l) in *. set (q := length other) in *. split; [lia|].
    assert (p + q <= n + S q) by lia. split.
    + transitivity (tests w0 + (j + 1) * n + (k + q) * (n + S q)); [nia|nia].
    + nia.
Qed.
End Cost.

Section Exact.
Context {T : Type} {OT : Ord T} {OL : OrdLaws T}.

Lemma sep_meets (a b : BoundedRange T) : sep a b = true -> meets a b = false.
Proof. unfold meets. intros A. ranges. Qed.
Lemma sep_meets' (a b : BoundedRange T) : sep b a = true -> meets a b = false.
Proof. unfold meets. intros A. ranges. Qed.
Lemma sep_hull_l (y r x : BoundedRange T) : sep y r = true -> sep y x = true -> sep y (hull r x) = true.
Proof. unfold hull. intros A B. ranges. Qed.
Lemma sep_hull_r (y r x : BoundedRange T) : sep r y = true -> sep x y = true -> sep (hull r x) y = true.
Proof. unfold hull. intros A B. ranges. Qed.
Lemma sep_not_gt (y r : BoundedRange T) : room y = true -> sep y r = true -> lb_gt (br_start y) (br_start r) = false.
Proof. intros R A. rewrite lb_gt_cut. ranges. Qed.
Lemma sep_gt (y r : BoundedRange T) : room r = true -> sep r y = true -> lb_gt (br_start y) (br_start r) = true.
Proof. intros R A. rewrite lb_gt_cut. ranges. Qed.

Lemma exact_work (h : list (BoundedRange T)) : forall fuel b a r,
  length h < fuel -> wfl (b ++ h ++ a) = true -> room r = true ->
  (forall y, In y b -> sep y r = true) -> (forall y, In y h -> meets y r = true) -> (forall y, In y a -> sep r y = true) ->
  exists c, add_range_work fuel (b ++ h ++ a) r =
    Ret (b ++ c :: a, Work (length h * S (length b) + (length b + length a)) (length b + match a with [] => 0 | _ => 1 end)).
Proof.
  induction h as [|x h IH]; intros [|fuel] b a r Fu W Rr Hb Hh Ha; cbn [length] in Fu; try lia; cbn [add_range_work];
    rewrite br_is_empty_room, negb_involutive, Rr.
  - cbn [app] in *. rewrite scan_miss.
    2: { intros y I. rewrite intersects_room. change (meets y r = false). apply in_app_or in I as [I|I]; [apply sep_meets; auto|apply sep_meets'; auto]. }
    assert (B : forall y, In y b -> lb_gt (br_start y) (br_start r) = false).
    { intros y I. apply sep_not_gt; [|auto]. apply (wfl_room _ _ W). apply in_or_app. auto. }
    exists r. cbn [length]. destruct a as [|y a].
    + rewrite !app_nil_r, scan_miss by exact B. pose proof (vd_insert_mid b [] r) as V. rewrite app_nil_r in V. rewrite V. cbn [bind length].
      do 3 f_equal; lia.
    + rewrite scan_hit; [|exact B|apply sep_gt; [exact Rr|apply Ha; left; reflexivity]].
      rewrite vd_insert_mid. cbn [bind]. rewrite app_length. do 3 f_equal; lia.
  - cbn [app] in *. rewrite scan_hit.
    2: { intros y I. rewrite intersects_room. apply sep_meets. auto. }
    2: { rewrite intersects_room. apply (Hh x). left. reflexivity. }
    rewrite vd_index_mid, vd_remove_mid. cbn [bind snd].
    assert (Mx : meets x r = true) by (apply Hh; left; reflexivity).
    rewrite combine_hull by (rewrite inter_room_sym; exact Mx). cbn [bind].
    assert (Sb : forall y, In y b -> sep y x = true).
    { intros y I. rewrite wfl_app in W. apply andb_prop in W as [_ W]. pose proof (forallb_In _ _ y W I) as K. cbn in K.
      apply andb_prop in K as [K _]. exact K. }
    assert (Sa : forall y, In y (h ++ a) -> sep x y = true).
    { intros y I. rewrite wfl_app in W. apply andb_prop in W as [W _]. apply andb_prop in W as [_ W]. cbn [wfl] in W.
      apply andb_prop in W as [W _]. apply andb_prop in W as [_ W]. exact (forallb_In _ _ y W I). }
    destruct (IH fuel b a (hull r x)) as (c & E).
    + lia.
    + apply wfl_remove with (x := x). exact W.
    + apply hull_room, Rr.
    + intros y I. apply sep_hull_l; auto.
    + intros y I. rewrite meets_hull; [apply Hh; right; exact I| |rewrite Sa by (apply in_or_app; auto); reflexivity|exact Mx].
      apply (wfl_room _ _ W). apply in_or_app. right. right. apply in_or_app. auto.
    + intros y I. apply sep_hull_r; [auto|]. apply Sa, in_or_app. auto.
    + rewrite E. cbn [bind fst snd more tests starts length]. exists c. unfold more. cbn [tests starts]. do 3 f_equal; lia.
Qed.
End Exact.

(** ** C76 *)
(** Counting changes nothing. *)
Theorem C76_same (T : Type) (OT : Ord T) (s o : BoundedSet T) (r : BoundedRange T) :
  bs_add_range s r = (x <- bs_add_range_work s r ;; Ret (fst x)) /\
  union (VBS s) (VBS o) = (x <- bs_add_set_work s o ;; Ret (VBS (fst x))).
Proof.
  assert (A : forall s r, bs_add_range s r = (x <- bs_add_range_work s r ;; Ret (fst x))).
  { intros s' r'. unfold bs_add_range, bs_add_range_work. rewrite add_range_same. destruct (add_range_work _ _ _); reflexivity. }
  split; [apply A|]. unfold union, bs_union. cbn [to_set]. unfold bs_union_bs, bs_add_set, ret_bs, bs_add_set_work.
  generalize no_work. revert s. induction (bs_ranges o) as [|x l IH]; intros s w; cbn [foldM fst snd]; [reflexivity|].
  rewrite A. destruct (bs_add_range_work s x) as [[k v]| |]; cbn [bind fst snd]; [apply IH|reflexivity..].
Qed.
Print Assumptions C76_same.

(** Adding a range that overlaps the pieces [hit] of a well-formed set, with [before] below and [after] above it:
    all pieces are tested once, and the pieces before again for each piece hit. *)
Theorem C76_exact (T : Type) (OT : Ord T) (OL : OrdLaws T) (r : BoundedRange T) (before hit after : list (BoundedRange T)) :
  valid (VBS (BS (before ++ hit ++ after))) -> has_room r ->
  (forall x, In x before -> precedes (br_end x) (br_start r)) ->
  (forall x, In x hit -> ~ clear_of x r) ->
  (forall x, In x after -> precedes (br_end r) (br_start x)) ->
  exists h, bs_add_range_work (BS (before ++ hit ++ after)) r = Ret (BS (before ++ h :: after),
    Work (length hit * length before + length (before ++ hit ++ after))
         (length before + match after with [] => 0 | _ => 1 end)).
Proof.
  intros V R B H A. assert (W : wfl (before ++ hit ++ after) = true) by (apply pieces_ok_wfl; exact V).
  destruct (exact_work hit (S (length (before ++ hit ++ after))) before after r) as (c & E).
  - rewrite !app_length. lia.
  - exact W.
  - apply has_room_cut, R.
  - intros y I. apply precedes_cut. auto.
  - intros y I. specialize (H y I). rewrite <- meets_clear in H; [now apply not_false_is_true| |exact R].
    apply (proj1 (Forall_forall _ _) (proj1 V) y). apply in_or_app. right. apply in_or_app. auto.
  - intros y I. apply precedes_cut. auto.
  - exists c. unfold bs_add_range_work. cbn [bs_ranges]. rewrite E. cbn [bind fst snd]. do 3 f_equal. rewrite !app_length. lia.
Qed.
Print Assumptions C76_exact.

(** Every well-formed set is of this form. *)
Theorem C76_split (T : Type) (OT : Ord T) (OL : OrdLaws T) (s : BoundedSet T) (r : BoundedRange T) :
  valid (VBS s) -> has_room r -> exists before hit after, s = BS (before ++ hit ++ after) /\
  (forall x, In x before -> precedes (br_end x) (br_start r)) /\
  (forall x, In x hit -> ~ clear_of x r) /\
  (forall x, In x after -> precedes (br_end r) (br_start x)).
Proof.
  intros V R. destruct s as [l]. assert (W : wfl l = true) by (apply pieces_ok_wfl; exact V).
  assert (Rm : room r = true) by (apply has_room_cut, R). clear V.
  enough (exists b h a, l = b ++ h ++ a /\ (forall x, In x b -> sep x r = true) /\ (forall x, In x h -> meets x r = true) /\
    (forall x, In x a -> sep r x = true)) as (b & h & a & -> & B & H & A).
  { exists b, h, a. split; [reflexivity|]. split; [intros x I; apply precedes_cut, B, I|]. split; [|intros x I; apply precedes_cut, A, I].
    intros x I C. apply meets_clear in C; [rewrite (H x I) in C; discriminate| |exact R].
    apply has_room_cut. apply (wfl_room _ _ W). apply in_or_app. right. apply in_or_app. auto. }
  induction l as [|x l IH]; [exists [], [], []; repeat split; intros _ []|]. cbn [wfl] in W.
  apply andb_prop in W as [W W']. apply andb_prop in W as [Rx Sx]. destruct (IH W') as (b & h & a & -> & B & H & A).
  pose proof (meets_sep x r Rx Rm) as M. destruct (sep x r) eqn:E1.
  - exists (x :: b), h, a. split; [reflexivity|]. split; [|auto]. intros y [<-|I]; auto.
  - destruct (sep r x) eqn:E2; cbn [orb negb] in M.
    + exists [], [], (x :: b ++ h ++ a). split; [reflexivity|]. split; [intros _ []|]. split; [intros _ []|].
      intros y [<-|I]; [exact E2|]. pose proof (forallb_In _ _ y Sx I) as Sy. clear -E2 Sy Rx OL. ranges.
    + destruct b as [|y b].
      * exists [], (x :: h), a. split; [reflexivity|]. split; [intros _ []|]. split; [|exact A]. intros y [<-|I]; auto.
      * exfalso. pose proof (forallb_In _ _ y Sx (or_introl eq_refl)) as Sy. pose proof (B y (or_introl eq_refl)) as By.
        assert (Ry : room y = true) by (apply (wfl_room _ _ W'); left; reflexivity).
        assert (sep x r = true); [|congruence]. clear -Sy By Ry OL. ranges.
Qed.
Print Assumptions C76_split.

(** So at most a quarter of the square of the number of pieces, and their number. *)
Theorem C76_at_most (T : Type) (OT : Ord T) (OL : OrdLaws T) (s : BoundedSet T) (r : BoundedRange T) (n : nat) :
  valid (VBS s) -> length (bs_ranges s) = n ->
  exists k w, bs_add_range_work s r = Ret (k, w) /\ 4 * tests w <= n * n + 4 * n /\ starts w <= n.
Proof.
  intros V N. destruct (room r) eqn:R.
  - apply has_room_cut in R. destruct (C76_split T OT OL s r V R) as (b & h & a & -> & B & H & A).
    destruct (C76_exact T OT OL r b h a V R B H A) as (c & E). rewrite E. eexists _, _. split; [reflexivity|]. cbn [tests starts bs_ranges] in *.
    rewrite !app_length in *. split.
    + set (i := length b) in *. set (k := length h) in *. set (j := length a) in *.
      assert (4 * (k * i) <= (k + i) * (k + i)); [|nia].
      destruct (Nat.le_ge_cases k i) as [L|L]; [replace i with (k + (i - k)) by lia|replace k with (i + (k - i)) by lia]; nia.
    + destruct a; cbn [length] in *; lia.
  - unfold bs_add_range_work. cbn [add_range_work]. rewrite br_is_empty_room, R. cbn. eexists _, _. split; [reflexivity|]. cbn. lia.
Qed.
Print Assumptions C76_at_most.

(** And that is needed: [2 * n] pieces built through the API, a range over the upper half of them. *)
Lemma comb_app i j : forall a, comb a (i + j) = comb a i ++ comb (a + 2 * Z.of_nat i)%Z j.
Proof.
  induction i as [|i IH]; intros a; cbn [comb Nat.add app]; [now rewrite Z.add_0_r|]. rewrite IH. do 2 f_equal.
  replace (a + 2 * Z.of_nat (S i))%Z with (a + 2 + 2 * Z.of_nat i)%Z by lia. reflexivity.
Qed.
Theorem C76_quadratic (n : nat) :
  exists (s : BoundedSet Z) (r : BoundedRange Z) k st, api (VBS s) /\ length (bs_ranges s) = 2 * n /\ has_room r /\
    bs_add_range_work s r = Ret (k, Work (n * n + 2 * n) st).
Proof.
  set (a := (2 * Z.of_nat n)%Z).
  assert (E : comb 0 (n + n) = comb 0 n ++ comb a n ++ []) by (rewrite app_nil_r; apply comb_app).
  pose proof (comb_api (n + n) 0) as A. assert (R : has_room (pc a (a + 2 * Z.of_nat n + 1))) by (apply pc_room; lia).
  pose proof (C05_sets_well_formed Z _ _ _ A) as V. rewrite E in V.
  destruct (C76_exact Z _ _ (pc a (a + 2 * Z.of_nat n + 1)) (comb 0 n) (comb a n) [] V R) as (c & W).
  - intros x I. destruct (comb_in _ _ _ I) as (b & -> & B). change (le (b + 1)%Z a). apply le_z. unfold a. lia.
  - intros x I. destruct (comb_in _ _ _ I) as (b & -> & B). rewrite pc_clear. lia.
  - intros x [].
  - rewrite <- E in W. rewrite !comb_length in W. exists (BS (comb 0 (n + n))). eexists _, _, _. split; [exact A|]. split; [cbn [bs_ranges]; rewrite comb_length; lia|].
    split; [exact R|]. rewrite W. do 3 f_equal. lia.
Qed.
Print Assumptions C76_quadratic.

(** Taking a well-formed set into an empty one piece by piece, as [union] does, is quadratic too. *)
Lemma ascending_work {T : Type} {OT : Ord T} {OL : OrdLaws T} (m : list (BoundedRange T)) : forall l w0,
  wfl (l ++ m) = true ->
  exists w, foldM (fun s r => x <- bs_add_range_work (fst s) r ;; Ret (fst x, more (snd s) (snd x))) m (BS l, w0) = Ret (BS (l ++ m), w) /\
    2 * tests w = 2 * tests w0 + length m * (2 * length l + length m - 1) /\
    2 * starts w = 2 * starts w0 + length m * (2 * length l + length m - 1).
Proof.
  induction m as [|r m IH]; intros l w0 W; cbn [foldM].
  - rewrite app_nil_r. exists w0. split; [reflexivity|]. cbn [length]. lia.
  - assert (W1 : wfl (l ++ [r]) = true).
    { replace (l ++ r :: m) with ((l ++ [r]) ++ m) in W by (rewrite <- app_assoc; reflexivity).
      rewrite wfl_app in W. apply andb_prop in W as [W _]. apply andb_prop in W as [W _]. exact W. }
    assert (X : add_range_work (S (length l)) l r = Ret (l ++ [r], Work (length l) (length l))).
    { assert (Wl : wfl l = true). { rewrite wfl_app in W1. apply andb_prop in W1 as [W1 _]. apply andb_prop in W1 as [W1 _]. exact W1. }
      assert (Rr : room r = true). { apply (wfl_room _ _ W1). apply in_or_app. right. left. reflexivity. }
      assert (Sl : forall y, In y l -> sep y r = true).
      { intros y I. rewrite wfl_app in W1. apply andb_prop in W1 as [_ W1]. pose proof (forallb_In _ _ y W1 I) as K. cbn in K.
        apply andb_prop in K as [K _]. exact K. }
      cbn [add_range_work]. rewrite br_is_empty_room, negb_involutive, Rr. rewrite scan_miss.
      2: { intros y I. rewrite intersects_room. apply sep_meets. auto. }
      rewrite scan_miss.
      2: { intros y I. apply sep_not_gt; [apply (wfl_room _ _ Wl I)|auto]. }
      pose proof (vd_insert_mid l [] r) as Y. rewrite app_nil_r in Y. rewrite Y. reflexivity. }
    unfold bs_add_range_work at 1. cbn [fst snd bs_ranges]. rewrite X. cbn [bind fst snd].
    destruct (IH (l ++ [r]) (more w0 (Work (length l) (length l)))) as (w & E & Te & St).
    { rewrite <- app_assoc. exact W. }
    rewrite E. exists w. rewrite <- app_assoc. split; [reflexivity|]. unfold more in *. cbn [tests starts length] in *. rewrite app_length in *. cbn [length] in *.
    set (p := length l) in *. set (q := length m) in *. replace (2 * p + S q - 1) with (2 * p + q) by lia.
    replace (2 * (p + 1) + q - 1) with (2 * p + q + 1) in Te, St by lia. nia.
Qed.
Theorem C76_build (T : Type) (OT : Ord T) (OL : OrdLaws T) (o : BoundedSet T) (n : nat) :
  valid (VBS o) -> length (bs_ranges o) = n ->
  exists w, bs_add_set_work (BS []) o = Ret (o, w) /\ 2 * tests w = n * (n - 1) /\ 2 * starts w = n * (n - 1).
Proof.
  intros V <-. destruct o as [l]. cbn [bs_ranges]. destruct (ascending_work l [] no_work) as (w & E & Te & St).
  { apply pieces_ok_wfl. exact V. }
  exists w. split; [exact E|]. cbn [length no_work tests starts] in *. rewrite Nat.mul_0_r, !Nat.add_0_l in *. auto.
Qed.
Print Assumptions C76_build.

(** A union of any two sets, well-formed or not, over any order, lawful or not: no worse than quadratic. *)
Theorem C76_union_bound (T : Type) (OT : Ord T) (s o k : BoundedSet T) (w : work) (n m : nat) :
  length (bs_ranges s) = n -> length (bs_ranges o) = m -> bs_add_set_work s o = Ret (k, w) ->
  tests w <= (n + 2 * m) * (n + m) /\ starts w <= m * (n + m) /\ length (bs_ranges k) <= n + m.
Proof.
  intros <- <- E. apply set_work_bound in E as (j & L & Te & St). cbn [no_work tests starts] in *.
  set (p := length (bs_ranges s)) in *. set (q := length (bs_ranges o)) in *. split; [|lia]. nia.
Qed.
Print Assumptions C76_union_bound.

(** Two of five pieces are hit, two are before: [2 * 2 + 5] tests, three comparisons of starts. *)
Example C76_ex :
  let before := [pc 0 1; pc 2 5] in let hit := [pc 6 7; pc 8 20] in let after := [pc 30 31] in
  valid (VBS (BS (before ++ hit ++ after))) /\ has_room (pc 6 9) /\
  (forall x, In x before -> precedes (br_end x) (br_start (pc 6 9))) /\ (forall x, In x hit -> ~ clear_of x (pc 6 9)) /\
  (forall x, In x after -> precedes (br_end (pc 6 9)) (br_start x)) /\
  bs_add_range_work (BS (before ++ hit ++ after)) (pc 6 9) = Ret (BS [pc 0 1; pc 2 5; pc 6 20; pc 30 31], Work 9 3) /\
  bs_add_set_work (BS []) (BS (before ++ hit ++ after)) = Ret (BS (before ++ hit ++ after), Work 10 10) /\
  bs_add_set_work (BS [pc 0 3; pc 9 10]) (BS before) = Ret (BS [pc 0 5; pc 9 10], Work 4 2).
Proof.
  cbn zeta. split; [apply valid_wf; reflexivity|]. split; [apply pc_room; lia|]. split.
  { intros x [<-|[<-|[]]]; apply le_z; cbn; lia. }
  split. { intros x [<-|[<-|[]]]; rewrite pc_clear; lia. }
  split. { intros x [<-|[]]; apply le_z; cbn; lia. }
  repeat split; reflexivity.
Qed.

(** The intersection of two well-formed sets: every piece is intersected with every piece, and the [k] pieces of the result
    are added one by one, each after a look at all before it. *)
Lemma pairs_wf {T : Type} {OT : Ord T} {OL : OrdLaws T} (o : list (BoundedRange T)) : wfl o = true -> forall s, wfl s = true ->
  wfl (flat_map (fun r => bs_ranges (br_inter_bs r (BS o))) s) = true.
Proof.
  intros Wo s. induction s as [|r s IH]; intros W; [reflexivity|]. cbn [flat_map]. cbn [wfl] in W.
  apply andb_prop in W as [W1 W]. apply andb_prop in W1 as [R Sr]. rewrite wfl_app, (IH W), andb_true_r.
  apply andb_true_intro. split; [exact (bs_inter_br_wf (BS o) r Wo)|].
  apply forallb_forall. intros a Ia. apply forallb_forall. intros b Ib. apply in_flat_map in Ib as (q & Iq & Ib).
  pose proof (forallb_In _ _ q Sr Iq) as Q.
  unfold br_inter_bs, bs_inter_br in Ia, Ib. cbn [bs_ranges] in Ia, Ib.
  apply filter_In in Ia as [Ia _]. apply filter_In in Ib as [Ib _].
  apply in_map_iff in Ia as (a' & <- & _). apply in_map_iff in Ib as (b' & <- & _). clear - OL Q. ranges.
Qed.
Lemma pair_sum x y z : y * (2 * x + y - 1) + z * (2 * (x + y) + z - 1) = (y + z) * (2 * x + (y + z) - 1).
Proof.
  destruct y; [rewrite Nat.mul_0_l, (Nat.add_0_r x), !Nat.add_0_l; reflexivity|]. destruct z; [rewrite (Nat.add_0_r (S y)), Nat.mul_0_l, Nat.add_0_r; reflexivity|].
  replace (2 * x + S y - 1) with (2 * x + y) by lia. replace (2 * (x + S y) + S z - 1) with (2 * (x + S y) + z) by lia.
  replace (2 * x + (S y + S z) - 1) with (2 * x + S y + z) by lia. ring.
Qed.
Lemma inter_work {T : Type} {OT : Ord T} {OL : OrdLaws T} (o : BoundedSet T) (s : list (BoundedRange T)) : forall l w0 c0,
  wfl (l ++ flat_map (fun r => bs_ranges (br_inter_bs r o)) s) = true ->
  let k := flat_map (fun r => bs_ranges (br_inter_bs r o)) s in
  exists w, foldM (fun s range =>
      x <- foldM (fun s r => x <- bs_add_range_work (fst s) r ;; Ret (fst x, more (snd s) (snd x)))
             (bs_ranges (br_inter_bs range o)) (fst s) ;;
      Ret (x, snd s + length (bs_ranges o))) s (BS l, w0, c0)
    = Ret (BS (l ++ k), w, c0 + length s * length (bs_ranges o)) /\
    2 * tests w = 2 * tests w0 + length k * (2 * length l + length k - 1) /\
    2 * starts w = 2 * starts w0 + length k * (2 * length l + length k - 1).
Proof.
  induction s as [|r s IH]; intros l w0 c0 W; cbn [foldM flat_map length Nat.mul] in *.
  - rewrite app_nil_r, Nat.add_0_r. exists w0. split; [reflexivity|]. lia.
  - set (p := bs_ranges (br_inter_bs r o)) in *. set (q := flat_map (fun r => bs_ranges (br_inter_bs r o)) s) in *.
    cbn zeta. rewrite app_assoc in W.
    assert (Wp : wfl (l ++ p) = true) by (rewrite wfl_app in W; apply andb_prop in W as [W _]; apply andb_prop in W as [W _]; exact W).
    destruct (ascending_work p l w0 Wp) as (w1 & E1 & T1 & S1). cbn [fst snd]. rewrite E1. cbn [bind].
    destruct (IH (l ++ p) w1 (c0 + length (bs_ranges o)) W) as (w & E & T2 & S2). exists w.
    rewrite E, <- app_assoc, Nat.add_assoc. split; [reflexivity|]. rewrite !app_length in *.
    set (x := length l) in *. set (y := length p) in *. set (z := length q) in *.
    pose proof (pair_sum x y z). lia.
Qed.
Lemma add_set_same {T : Type} {OT : Ord T} (r : list (BoundedRange T)) : forall s w,
  foldM bs_add_range r s = (x <- foldM (fun s r => x <- bs_add_range_work (fst s) r ;; Ret (fst x, more (snd s) (snd x))) r (s, w) ;; Ret (fst x)).
Proof.
  induction r as [|a r IH]; intros s w; [reflexivity|]. cbn [foldM fst snd].
  assert (E : bs_add_range s a = (x <- bs_add_range_work s a ;; Ret (fst x))).
  { unfold bs_add_range, bs_add_range_work. rewrite add_range_same. destruct (add_range_work _ _ _) as [x| |]; reflexivity. }
  rewrite E. destruct (bs_add_range_work s a) as [x| |]; cbn [bind]; [apply IH|reflexivity..].
Qed.
Theorem C76_inter_same (T : Type) (OT : Ord T) (s o : BoundedSet T) :
  bs_inter_bs s o = (x <- bs_inter_bs_work s o ;; Ret (fst (fst x))).
Proof.
  unfold bs_inter_bs, bs_inter_bs_work. destruct s as [l]. cbn [bs_ranges].
  change (@BS T [], no_work, O) with (@bs_empty T, no_work, O). generalize (@bs_empty T), no_work, O.
  induction l as [|r l IH]; intros s w c; [reflexivity|]. cbn [foldM fst snd]. unfold bs_add_set at 1.
  rewrite (add_set_same _ s w). destruct (foldM _ (bs_ranges (br_inter_bs r o)) (s, w)) as [[s' w']| |]; cbn [bind fst]; [apply IH|reflexivity..].
Qed.
Print Assumptions C76_inter_same.
Theorem C76_inter (T : Type) (OT : Ord T) (OL : OrdLaws T) (s o : BoundedSet T) :
  valid (VBS s) -> valid (VBS o) ->
  exists k w, intersection (VBS s) (VBS o) = Ret (VBS k) /\
    bs_inter_bs_work s o = Ret (k, w, length (bs_ranges s) * length (bs_ranges o)) /\
    let n := length (bs_ranges k) in 2 * tests w = n * (n - 1) /\ 2 * starts w = n * (n - 1).
Proof.
  intros Vs Vo. destruct s as [s], o as [o].
  assert (W : wfl (flat_map (fun r => bs_ranges (br_inter_bs r (BS o))) s) = true) by (apply pairs_wf; apply pieces_ok_wfl; assumption).
  destruct (inter_work (BS o) s [] no_work O W) as (w & E & Te & St). cbn [app length] in *.
  eexists _, w. split; [|split; [exact E|]].
  - transitivity (ret_bs (bs_inter_bs (BS s) (BS o))); [reflexivity|]. rewrite C76_inter_same. unfold bs_inter_bs_work. cbn [bs_ranges] in *. rewrite E. reflexivity.
  - cbn [bs_ranges no_work tests starts] in *. rewrite Nat.mul_0_r, !Nat.add_0_l in *. auto.
Qed.
Print Assumptions C76_inter.

(** Three pieces and four: twelve intersections of ranges for a result of five pieces. *)
Example C76_inter_ex :
  valid (VBS (BS [pc 0 5; pc 6 9; pc 12 20])) /\ valid (VBS (BS [pc 1 2; pc 4 7; pc 13 14; pc 15 30])) /\
  bs_inter_bs_work (BS [pc 0 5; pc 6 9; pc 12 20]) (BS [pc 1 2; pc 4 7; pc 13 14; pc 15 30])
  = Ret (BS [pc 1 2; pc 4 5; pc 6 7; pc 13 14; pc 15 20], Work 10 10, 12).
Proof. split; [apply valid_wf; reflexivity|]. split; [apply valid_wf; reflexivity|]. reflexivity. Qed.
