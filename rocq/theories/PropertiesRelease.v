(** Property theorems on release builds (overflow checks off) for C35 and
    C38-C40: what conversions and indexing do for every range, including those
    with an end that the target cannot represent. *)
From Coq Require Import Lia ZifyBool.
From Verif Require Import Base ModelBound ModelRanges ModelSets ModelAlgebra ModelValue ModelStep ModelConv ModelIndex
  Spec SpecStep SpecIndex StepProofs StepLemmas InstancesStep IterProofs ConvProofs IndexProofs IndexProofs2.
Open Scope Z_scope.

Notation len v := (Z.of_nat (length v)).

Section Ends.
Context {PF : Platform} {ty : ity} (lo hi : mint ty) (L : mval lo = imin ty) (H : mval hi = imax ty).

Lemma release_up (t : mint ty) : (t = hi /\ forward Release t 1 = Ret lo) \/
  (t <> hi /\ exists b, forward Release t 1 = Ret b /\ mval b = mval t + 1).
Proof.
  destruct (Z.eq_dec (mval t) (imax ty)) as [Q|Q].
  - left. assert (t = hi) as -> by (apply mint_eq; lia). split; [reflexivity|apply wrap_up; assumption].
  - right. split; [intros ->; contradiction|]. destruct (fwd_top t) as [[_ G]|[[b E] _]].
    + exfalso. specialize (G hi). apply le_idx in G. change (mval hi <= mval t) in G. pose proof (mint_range ty t). lia.
    + exists b. split; [apply fwd_agree; [apply one_ok|exact E]|]. apply fwd_ret in E; [exact E|apply one_ok].
Qed.
Lemma release_down (t : mint ty) : (t = lo /\ backward Release t 1 = Ret hi) \/
  (t <> lo /\ exists b, backward Release t 1 = Ret b /\ mval b = mval t - 1).
Proof.
  destruct (Z.eq_dec (mval t) (imin ty)) as [Q|Q].
  - left. assert (t = lo) as -> by (apply mint_eq; lia). split; [reflexivity|apply wrap_down; assumption].
  - right. split; [intros ->; contradiction|]. destruct (bwd_bottom t) as [[_ G]|[[b E] _]].
    + exfalso. specialize (G lo). apply le_idx in G. change (mval t <= mval lo) in G. pose proof (mint_range ty t). lia.
    + exists b. split; [apply bwd_agree; [apply one_ok|exact E]|]. apply bwd_ret in E; [exact E|apply one_ok].
Qed.
End Ends.

Ltac as_numbers := repeat rewrite ?le_idx, ?lt_idx; cbn [idx NumberedMint].
Ltac ranges ty := repeat match goal with
  | x : mint ty |- _ => lazymatch goal with K : imin ty <= mval x <= imax ty |- _ => fail | _ => pose proof (mint_range ty x) end
  end.

(** ** C35 *)
(** Integers, every range, both ends: in release all conversions return.  A start
    excluding [MAX] is lost, an end including [MAX] makes a half-open result
    empty, an end excluding [MIN] is lost in an inclusive result; otherwise the
    contents are kept. *)
Theorem C35_release_exact (PF : Platform) (ty : ity) (lo hi : mint ty) :
  mval lo = imin ty -> mval hi = imax ty ->
  (forall r, exists q, range_from_br Release r = Ret q /\ forall t, mem (VRange q) t <->
     (br_start r = LB (Excluded hi) \/ above (br_start r) t) /\ br_end r <> UB (Included hi) /\ below (br_end r) t) /\
  (forall r, exists q, range_inclusive_from_br Release r = Ret q /\ forall t, mem (VRangeInclusive q) t <->
     (br_start r = LB (Excluded hi) \/ above (br_start r) t) /\ (br_end r = UB (Excluded lo) \/ below (br_end r) t)) /\
  (forall r, exists q, range_from_from_lbr Release r = Ret q /\ forall t, mem (VRangeFrom q) t <->
     lbr_start r = LB (Excluded hi) \/ above (lbr_start r) t) /\
  (forall r, exists q, range_to_from_ubr Release r = Ret q /\ forall t, mem (VRangeTo q) t <->
     ubr_end r <> UB (Included hi) /\ below (ubr_end r) t) /\
  (forall r, exists q, range_to_inclusive_from_ubr Release r = Ret q /\ forall t, mem (VRangeToInclusive q) t <->
     ubr_end r = UB (Excluded lo) \/ below (ubr_end r) t).
Proof.
  intros L H.
  assert (S : forall l : LowerBound (mint ty), exists s,
    match lb_to_bound l with Excluded t => forward Release t 1 | Included t => Ret t end = Ret s /\
    forall t, mval s <= mval t <-> l = LB (Excluded hi) \/ above l t).
  { intros [[a|a]]; cbn [lb_to_bound lb_bound above].
    - destruct (release_up lo hi L H a) as [[-> E]|[N (b & E & V)]]; eexists; (split; [exact E|]); intros t; as_numbers; ranges ty.
      + split; [left; reflexivity|lia].
      + rewrite V. split; [right; lia|intros [Q|Q]; [injection Q as ->; contradiction|lia]].
    - exists a. split; [reflexivity|]. intros t. as_numbers. split; [right; assumption|intros [Q|Q]; [discriminate|exact Q]]. }
  assert (E1 : forall u : UpperBound (mint ty), exists e,
    match ub_to_bound u with Excluded t => Ret t | Included t => forward Release t 1 end = Ret e /\
    forall t, mval t < mval e <-> u <> UB (Included hi) /\ below u t).
  { intros [[a|a]]; cbn [ub_to_bound ub_bound below].
    - exists a. split; [reflexivity|]. intros t. as_numbers. split; [split; [discriminate|assumption]|tauto].
    - destruct (release_up lo hi L H a) as [[-> E]|[N (b & E & V)]]; eexists; (split; [exact E|]); intros t; as_numbers; ranges ty.
      + split; [lia|intros [Q _]; contradiction].
      + rewrite V. split; [split; [intros Q; injection Q as ->; contradiction|lia]|lia]. }
  assert (E2 : forall u : UpperBound (mint ty), exists e,
    match ub_to_bound u with Excluded t => backward Release t 1 | Included t => Ret t end = Ret e /\
    forall t, mval t <= mval e <-> u = UB (Excluded lo) \/ below u t).
  { intros [[a|a]]; cbn [ub_to_bound ub_bound below].
    - destruct (release_down lo hi L H a) as [[-> E]|[N (b & E & V)]]; eexists; (split; [exact E|]); intros t; as_numbers; ranges ty.
      + split; [left; reflexivity|lia].
      + rewrite V. split; [right; lia|intros [Q|Q]; [injection Q as ->; contradiction|lia]].
    - exists a. split; [reflexivity|]. intros t. as_numbers. split; [right; assumption|intros [Q|Q]; [discriminate|exact Q]]. }
  split; [|split; [|split; [|split]]].
  - intros r. destruct (S (br_start r)) as (s & Es & Ms), (E1 (br_end r)) as (e & Ee & Me).
    exists (mkRange s e). unfold range_from_br. rewrite Es, Ee. split; [reflexivity|]. intros t. cbn. as_numbers. rewrite Ms, Me. tauto.
  - intros r. destruct (S (br_start r)) as (s & Es & Ms), (E2 (br_end r)) as (e & Ee & Me).
    exists (mkRangeInclusive s e false). unfold range_inclusive_from_br. rewrite Es, Ee. split; [reflexivity|]. intros t. cbn. as_numbers. rewrite Ms, Me. tauto.
  - intros r. destruct (S (lbr_start r)) as (s & Es & Ms).
    exists (mkRangeFrom s). unfold range_from_from_lbr. destruct (lb_to_bound (lbr_start r)); [rewrite Es|injection Es as ->];
      (split; [reflexivity|]); intros x; cbn; as_numbers; apply Ms.
  - intros r. destruct (E1 (ubr_end r)) as (s & Es & Ms).
    exists (mkRangeTo s). unfold range_to_from_ubr. destruct (ub_to_bound (ubr_end r)); [injection Es as ->|rewrite Es];
      (split; [reflexivity|]); intros x; cbn; as_numbers; apply Ms.
  - intros r. destruct (E2 (ubr_end r)) as (s & Es & Ms).
    exists (mkRangeToInclusive s). unfold range_to_inclusive_from_ubr. destruct (ub_to_bound (ubr_end r)); [rewrite Es|injection Es as ->];
      (split; [reflexivity|]); intros x; cbn; as_numbers; apply Ms.
Qed.
Print Assumptions C35_release_exact.
Example C35_release_ex :
  range_from_br Release (BR (LB (Excluded (u8 255))) (UB (Included (u8 9)))) = Ret (mkRange (u8 0) (u8 10)) /\
  range_inclusive_from_br Release (BR (LB (Included (u8 7))) (UB (Excluded (u8 0)))) = Ret (mkRangeInclusive (u8 7) (u8 255) false) /\
  mval (u8 0) = imin (PF := pf64) U8 /\ mval (u8 255) = imax (PF := pf64) U8.
Proof. repeat split; vm_compute; reflexivity. Qed.

(** [char] steps panic in both builds, so its conversions are the same in both. *)
Theorem C35_char_same (PF : Platform) :
  (forall r : BoundedRange chr, range_from_br Release r = range_from_br Debug r /\
     range_inclusive_from_br Release r = range_inclusive_from_br Debug r) /\
  (forall r : LowerBoundedRange chr, range_from_from_lbr Release r = range_from_from_lbr Debug r) /\
  (forall r : UpperBoundedRange chr, range_to_from_ubr Release r = range_to_from_ubr Debug r /\
     range_to_inclusive_from_ubr Release r = range_to_inclusive_from_ubr Debug r).
Proof. repeat split. Qed.
Print Assumptions C35_char_same.
Example C35_char_ex :
  range_to_from_ubr (ST := @StepChr pf64) Release (UBR (UB (Included (ch 0x10FFFF)))) = Panic /\
  range_to_from_ubr (ST := @StepChr pf64) Release (UBR (UB (Included (ch 0xD7FF)))) = Ret (mkRangeTo (ch 0xE000)).
Proof. split; vm_compute; reflexivity. Qed.

(** ** C38-C40 *)
(** In release, indexing with any range does what a debug build does with the
    range whose unrepresentable ends have become position 0; with
    [C38_debug_exact] and [C40_debug_exact_partial] that settles every case. *)
Lemma positions_wrapped (PF : Platform) (r : index_range) :
  (forall n, slice_positions Release n r = slice_positions Debug n (wrapped r)) /\
  (forall s, str_positions Release s r = str_positions Debug s (wrapped r)).
Proof.
  destruct (end_values Usize) as (lo & hi & L & H).
  assert (Z0 : wrap Usize 0 = lo) by (apply mint_eq; rewrite L; apply (zero_default Usize)).
  assert (X : usize_max = imax Usize) by reflexivity.
  assert (U : forall t : mint Usize,
    ((mval t =? usize_max) = true /\ forward Release t 1 = Ret lo) \/
    ((mval t =? usize_max) = false /\ exists b, forward Release t 1 = Ret b /\ forward Debug t 1 = Ret b)).
  { intros t. destruct (release_up lo hi L H t) as [[-> E]|[N (b & E & V)]].
    - left. split; [rewrite H, X; apply Z.eqb_refl|exact E].
    - right. split; [apply Z.eqb_neq; intros Q; apply N, mint_eq; lia|]. exists b. split; [exact E|].
      apply fwd_ret; [apply one_ok|exact V]. }
  split; intros ?; destruct r as [[[[a|a]] [[b|b]]]|[[[a|a]]]|[[[b|b]]]|[]|[]];
    unfold slice_positions, str_positions, wrapped, wrapped_first, wrapped_stop, range_from_br, range_from_from_lbr, range_to_from_ubr;
    cbn [lb_to_bound ub_to_bound lb_bound ub_bound br_start br_end lbr_start ubr_end bind]; try reflexivity;
    rewrite Z0;
    repeat match goal with
    | t : mint Usize |- context [forward Release ?t 1] =>
        destruct (U t) as [[-> ->]|(-> & ? & -> & ?)]; cbn [lb_to_bound ub_to_bound lb_bound ub_bound br_start br_end lbr_start ubr_end bind]
    end;
    repeat match goal with K : forward Debug ?t 1 = Ret _ |- context [forward Debug ?t 1] => rewrite K; cbn [bind] end; reflexivity.
Qed.
Theorem C38_release_exact (PF : Platform) (A : Type) (v : list A) (r : index_range) :
  slice_index Release v r = slice_index Debug v (wrapped r).
Proof. unfold slice_index. rewrite (proj1 (positions_wrapped PF r)). reflexivity. Qed.
Print Assumptions C38_release_exact.
Theorem C39_release_exact (PF : Platform) (A : Type) (v : list A) (r : index_range) (f : list A -> list A) :
  slice_index_mut Release v r f = slice_index_mut Debug v (wrapped r) f.
Proof. unfold slice_index_mut. rewrite (proj1 (positions_wrapped PF r)). reflexivity. Qed.
Print Assumptions C39_release_exact.
Theorem C40_release_exact (PF : Platform) (s : list Z) (r : index_range) (f : list Z -> list Z) :
  str_index Release s r = str_index Debug s (wrapped r) /\
  str_index_mut Release s r f = str_index_mut Debug s (wrapped r) f.
Proof. unfold str_index, str_index_mut. rewrite (proj2 (positions_wrapped PF r)). split; reflexivity. Qed.
Print Assumptions C40_release_exact.
(** [CStr]: in release a start excluding [usize::MAX] gives the whole string. *)
Theorem C38_cstr_release_exact (PF : Platform) (v : list Z) (r : LowerBoundedRange (mint Usize)) :
  cstr_index Release v r = cstr_index Debug v (LBR (wrapped_first (lbr_start r))).
Proof.
  destruct (end_values Usize) as (lo & hi & L & H).
  assert (Z0 : wrap Usize 0 = lo) by (apply mint_eq; rewrite L; apply (zero_default Usize)).
  destruct r as [[[a|a]]]; unfold cstr_index, wrapped_first, range_from_from_lbr;
    cbn [lb_to_bound lb_bound lbr_start bind]; [|reflexivity].
  destruct (release_up lo hi L H a) as [[-> E]|[N (b & E & V)]].
  - rewrite H. change (imax Usize =? usize_max) with (usize_max =? usize_max). rewrite Z.eqb_refl, Z0, E. reflexivity.
  - rewrite E. destruct (Z.eqb_spec (mval a) usize_max) as [Q|Q]; [exfalso; apply N, mint_eq; rewrite H; exact Q|].
    cbn [lb_to_bound lb_bound]. assert (F : forward Debug a 1 = Ret b) by (apply fwd_ret; [apply one_ok|exact V]). rewrite F. reflexivity.
Qed.
Print Assumptions C38_cstr_release_exact.
(** The ends [wrapped] leaves alone are the representable ones; the result of
    [wrapped] is always representable. *)
Theorem C38_wrapped_convertible (PF : Platform) (r : index_range) :
  convertible (wrapped r) /\ (convertible r -> wrapped r = r).
Proof.
  assert (Z0 : mval (wrap Usize 0) = 0) by apply (zero_default Usize).
  assert (X : usize_max = imax Usize) by reflexivity.
  assert (I : imin Usize = 0) by reflexivity.
  pose proof (mint_range Usize (wrap Usize 0)).
  unfold convertible. destruct r as [[[[a|a]] [[b|b]]]|[[[a|a]]]|[[[b|b]]]|[]|[]];
    cbn [wrapped wrapped_first wrapped_stop ix_first ix_stop br_start br_end lbr_start ubr_end first_pos stop_pos]; ranges Usize;
    repeat match goal with |- context [?x =? ?y] => destruct (Z.eqb_spec x y) end; cbn [first_pos stop_pos];
    rewrite ?Z0; (split; [split; lia|]); intros [? ?]; try reflexivity; exfalso; lia.
Qed.
Print Assumptions C38_wrapped_convertible.
Example C38_release_ex :
  slice_index (PF := pf64) Release [10; 20; 30] (IxBounded (BR (LB (Excluded (lit Usize (2 ^ 64 - 1)))) (UB (Included (lit Usize 1))))) = Ret [10; 20] /\
  slice_index (PF := pf64) Release [10; 20; 30] (IxBounded (BR (LB (Excluded (lit Usize 0))) (UB (Included (lit Usize (2 ^ 64 - 1)))))) = Panic.
Proof. split; vm_compute; reflexivity. Qed.
