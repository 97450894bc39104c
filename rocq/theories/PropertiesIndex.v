(** Property theorems C38-C41: indexing slices and strings with crate ranges.

    [picks P v w]: [w] is made of the elements of [v] at the positions
    satisfying [P], in order.  [selects r i]: [i] is (the value of) a [usize]
    contained in [r].  Slices and strings are no longer than [usize::MAX]
    (Rust guarantees [isize::MAX]). *)
From Coq Require Import Lia ZifyBool.
From Verif Require Import Base ModelBound ModelRanges ModelSets ModelValue ModelStep ModelConv ModelIndex
  Spec SpecStep SpecIndex StepProofs StepLemmas InstancesStep IterProofs ConvProofs IndexProofs IndexProofs2.
Open Scope Z_scope.

Notation len v := (Z.of_nat (length v)).

(** ** C38 *)
(** Missing for the full claim: in release builds a range with an end including
    [usize::MAX] or a start excluding it selects wrong elements, see [C38_refuted]. *)
Theorem C38_selected_elements_partial (PF : Platform) (A : Type) (v w : list A) (r : index_range) :
  len v <= usize_max -> slice_index Debug v r = Ret w ->
  picks (selects r) v w /\ slice_index Release v r = Ret w.
Proof.
  intros L E. split; [apply slice_index_debug in E; tauto|].
  unfold slice_index in *. inv_bind E. rewrite (slice_positions_agree _ _ _ E0). exact E.
Qed.
Print Assumptions C38_selected_elements_partial.
(** Exactly when indexing returns and what; otherwise it panics. *)
Theorem C38_debug_exact (PF : Platform) (A : Type) (v w : list A) (r : index_range) :
  len v <= usize_max ->
  (slice_index Debug v r = Ret w <-> ix_first r <= ix_stop (len v) r <= len v /\ picks (selects r) v w) /\
  (slice_index Debug v r = Panic <-> ~ ix_first r <= ix_stop (len v) r <= len v) /\
  slice_index Debug v r <> Diverge.
Proof. intros L. split; [exact (slice_index_debug v w r L)|exact (slice_index_panics v r L)]. Qed.
Print Assumptions C38_debug_exact.
(** What is picked is determined. *)
Theorem C38_picks_unique (A : Type) (P : Z -> Prop) (v w x : list A) : picks P v w -> picks P v x -> w = x.
Proof. exact (picks_unique P v w x). Qed.
Print Assumptions C38_picks_unique.
(** A range with an upper end is not silently cut at the end of the slice. *)
Theorem C38_not_truncated (PF : Platform) (A : Type) (v w : list A) (r : index_range) :
  len v <= usize_max -> slice_index Debug v r = Ret w ->
  match r with IxLower _ | IxUnbounded _ => True | _ => forall i, selects r i -> i < len v end.
Proof. intros L E. apply slice_index_debug in E; [|exact L]. apply selects_below; lia. Qed.
Print Assumptions C38_not_truncated.
(** In release, ranges whose ends are representable behave as in debug. *)
Theorem C38_release_representable (PF : Platform) (A : Type) (v : list A) (r : index_range) :
  convertible r -> slice_index Release v r = slice_index Debug v r.
Proof. intros C. unfold slice_index. rewrite slice_positions_release by exact C. reflexivity. Qed.
Print Assumptions C38_release_representable.
(** In release, for every slice: [..=usize::MAX] and [0..=usize::MAX] give
    nothing, and a start excluding [usize::MAX] gives everything. *)
Theorem C38_release_wraps (PF : Platform) (A : Type) (v : list A) (z t : mint Usize) :
  mval z = 0 -> mval t = usize_max ->
  slice_index Release v (IxUpper (UBR (UB (Included t)))) = Ret [] /\
  slice_index Release v (IxBounded (BR (LB (Included z)) (UB (Included t)))) = Ret [] /\
  slice_index Release v (IxLower (LBR (LB (Excluded t)))) = Ret v.
Proof.
  intros Hz Ht. assert (W : forward Release t 1 = Ret z).
  { apply wrap_up; [rewrite Hz; reflexivity|]. rewrite Ht. unfold imax. reflexivity. }
  unfold slice_index, slice_positions, range_from_br, range_from_from_lbr, range_to_from_ubr.
  cbn [lb_to_bound ub_to_bound lb_bound ub_bound br_start br_end lbr_start ubr_end bind]. rewrite W. cbn [bind].
  unfold std_slice_range, std_slice_range_from, std_slice_range_to. cbn [rg_start rg_end rf_start rt_end]. rewrite Hz.
  rewrite (proj2 (Z.leb_le 0 _)) by lia. cbn [bind andb Z.leb Z.compare]. unfold part. cbn [fst snd]. repeat split.
  f_equal. cbn [Z.to_nat skipn]. apply firstn_all2. lia.
Qed.
Print Assumptions C38_release_wraps.
Theorem C38_refuted :
  exists (v : list Z) (r s : index_range (PF := pf64)),
    slice_index Release v r = Ret [] /\ selects r 0 /\ selects r 1 /\ selects r 2 /\ len v = 3 /\
    slice_index Release v s = Ret v /\ (forall i, ~ selects s i) /\
    slice_index Debug v r = Panic /\ slice_index Debug v s = Panic.
Proof.
  set (t := lit Usize (2 ^ 64 - 1)).
  exists [10; 20; 30], (IxUpper (UBR (UB (Included t)))), (IxLower (LBR (LB (Excluded t)))).
  destruct (C38_release_wraps pf64 Z [10; 20; 30] (lit Usize 0) t eq_refl eq_refl) as (W1 & _ & W2).
  split; [exact W1|]. split; [|split; [|split; [|split; [reflexivity|split; [exact W2|]]]]].
  - exists (lit Usize 0). split; [reflexivity|]. vm_compute. discriminate.
  - exists (lit Usize 1). split; [reflexivity|]. vm_compute. discriminate.
  - exists (lit Usize 2). split; [reflexivity|]. vm_compute. discriminate.
  - split; [|split; vm_compute; reflexivity]. intros i H. apply (selects_iff (PF := pf64)) in H. destruct H as [B H].
    change (mval t + 1 <= i) in H. change (mval t) with (@usize_max pf64) in H. lia.
Qed.
Print Assumptions C38_refuted.
Example C38_ex :
  slice_index (PF := pf64) Debug [10; 20; 30; 40; 50] (IxBounded (BR (LB (Excluded (lit Usize 0))) (UB (Included (lit Usize 3))))) = Ret [20; 30; 40] /\
  slice_index (PF := pf64) Release [10; 20; 30] (IxLower (LBR (LB (Included (lit Usize 3))))) = Ret [] /\
  slice_index (PF := pf64) Debug [10; 20; 30] (IxLower (LBR (LB (Included (lit Usize 4))))) = Panic /\
  slice_index (PF := pf64) Debug [10; 20; 30] (IxUpper (UBR (UB (Included (lit Usize 2))))) = Ret [10; 20; 30] /\
  slice_index (PF := pf64) Debug [10; 20; 30] (IxBounded (BR (LB (Included (lit Usize 2))) (UB (Excluded (lit Usize 1))))) = Panic.
Proof. repeat split. Qed.
(** [CStr] with a lower-bounded range: the bytes from the start on. *)
Theorem C38_cstr_exact (PF : Platform) (v w : list Z) (r : LowerBoundedRange (mint Usize)) :
  len v < usize_max ->
  (cstr_index Debug v r = Ret w <-> first_pos (lbr_start r) <= len v /\ picks (selects (IxLower r)) v w) /\
  (cstr_index Debug v r = Panic <-> len v < first_pos (lbr_start r)) /\
  cstr_index Debug v r <> Diverge.
Proof. exact (cstr_index_debug v w r). Qed.
Print Assumptions C38_cstr_exact.
Example C38_cstr_ex :
  cstr_index (PF := pf64) Debug [104; 105; 33] (LBR (LB (Excluded (lit Usize 0)))) = Ret [105; 33] /\
  cstr_index (PF := pf64) Debug [104; 105; 33] (LBR (LB (Included (lit Usize 3)))) = Ret [] /\
  cstr_index (PF := pf64) Debug [104; 105; 33] (LBR (LB (Included (lit Usize 4)))) = Panic.
Proof. repeat split. Qed.

(** ** C39 *)
(** [f] is what is done with the [&mut [A]]; being a slice it keeps its length.
    Missing for the full claim: release builds with unrepresentable ends, see
    [C39_refuted]. *)
Theorem C39_only_selected_changed_partial (PF : Platform) (A : Type) (v v' : list A) (r : index_range) (f : list A -> list A) :
  len v <= usize_max -> (forall w, length (f w) = length w) -> slice_index_mut Debug v r f = Ret v' ->
  length v' = length v /\
  (forall i, 0 <= i -> ~ selects r i -> nth_error v' (Z.to_nat i) = nth_error v (Z.to_nat i)) /\
  (exists w, picks (selects r) v w /\ picks (selects r) v' (f w)) /\
  slice_index_mut Release v r f = Ret v'.
Proof.
  intros L F E. destruct (slice_mut_debug v v' r f L F E) as (w & E1 & E2 & Lv & U).
  split; [exact Lv|]. split; [exact U|]. split.
  - exists w. split; [apply slice_index_debug in E1; tauto|]. apply slice_index_debug in E2; [tauto|lia].
  - unfold slice_index_mut in *. inv_bind E. rewrite (slice_positions_agree _ _ _ E0). exact E.
Qed.
Print Assumptions C39_only_selected_changed_partial.
(** Writing panics exactly when reading does. *)
Theorem C39_panics_as_reading (PF : Platform) (A : Type) (m : mode) (v : list A) (r : index_range) (f : list A -> list A) :
  (slice_index_mut m v r f = Panic <-> slice_index m v r = Panic) /\
  (forall v', slice_index_mut m v r f = Ret v' -> exists w, slice_index m v r = Ret w).
Proof. unfold slice_index_mut, slice_index. destruct (slice_positions m (len v) r); cbn; split; try (split; congruence); eauto; discriminate. Qed.
Print Assumptions C39_panics_as_reading.
Theorem C39_release_representable (PF : Platform) (A : Type) (v : list A) (r : index_range) (f : list A -> list A) :
  convertible r -> slice_index_mut Release v r f = slice_index_mut Debug v r f.
Proof. intros C. unfold slice_index_mut. rewrite slice_positions_release by exact C. reflexivity. Qed.
Print Assumptions C39_release_representable.
(** In release, writing through a range containing no position writes everywhere. *)
Theorem C39_refuted :
  exists (v : list Z) (r : index_range (PF := pf64)) (f : list Z -> list Z),
    (forall w, length (f w) = length w) /\ (forall i, ~ selects r i) /\
    v = [10; 20; 30] /\ slice_index_mut Release v r f = Ret [0; 0; 0].
Proof.
  exists [10; 20; 30], (IxLower (LBR (LB (Excluded (lit Usize (2 ^ 64 - 1)))))), (map (fun _ => 0)).
  split; [intros w; apply map_length|]. split; [|split; [reflexivity|vm_compute; reflexivity]].
  intros i H. apply (selects_iff (PF := pf64)) in H. destruct H as [B H].
  change (@usize_max pf64 + 1 <= i) in H. lia.
Qed.
Print Assumptions C39_refuted.
Example C39_ex :
  slice_index_mut (PF := pf64) Debug [10; 20; 30; 40] (IxBounded (BR (LB (Excluded (lit Usize 0))) (UB (Excluded (lit Usize 3))))) (@rev Z) = Ret [10; 30; 20; 40] /\
  slice_index_mut (PF := pf64) Release [10; 20; 30; 40] (IxUpper (UBR (UB (Included (lit Usize 1))))) (map (fun x => x + 1)) = Ret [11; 21; 30; 40].
Proof. repeat split. Qed.

(** ** C40 *)
(** A string is [utf8 cs], the encoding of its characters [cs].  In both build
    modes the result consists of whole characters. *)
Theorem C40_whole_characters (PF : Platform) (m : mode) (cs : list chr) (r : index_range) (w : list Z) :
  str_index m (utf8 cs) r = Ret w -> exists a b c, cs = a ++ b ++ c /\ w = utf8 b.
Proof. exact (str_index_chars m cs r w). Qed.
Print Assumptions C40_whole_characters.
(** Exactly when indexing returns and what; otherwise it panics.  Missing for the
    full claim: release builds with unrepresentable ends, see [C40_refuted]. *)
Theorem C40_debug_exact_partial (PF : Platform) (cs : list chr) (r : index_range) (w : list Z) :
  len (utf8 cs) <= usize_max ->
  (str_index Debug (utf8 cs) r = Ret w <->
   ix_first r <= ix_stop (len (utf8 cs)) r /\ on_boundary cs (ix_first r) /\ on_boundary cs (ix_stop (len (utf8 cs)) r) /\
   picks (selects r) (utf8 cs) w) /\
  (str_index Debug (utf8 cs) r = Panic <->
   ~ (ix_first r <= ix_stop (len (utf8 cs)) r /\ on_boundary cs (ix_first r) /\ on_boundary cs (ix_stop (len (utf8 cs)) r))) /\
  str_index Debug (utf8 cs) r <> Diverge.
Proof. intros L. split; [exact (str_index_debug cs w r L)|exact (str_index_panics cs r L)]. Qed.
Print Assumptions C40_debug_exact_partial.
Theorem C40_release_agrees (PF : Platform) (s : list Z) (r : index_range) :
  (forall w, str_index Debug s r = Ret w -> str_index Release s r = Ret w) /\
  (convertible r -> str_index Release s r = str_index Debug s r).
Proof.
  split.
  - intros w E. unfold str_index in *. inv_bind E. rewrite (str_positions_agree _ _ _ E0). exact E.
  - intros C. unfold str_index. rewrite str_positions_release by exact C. reflexivity.
Qed.
Print Assumptions C40_release_agrees.
(** Writing: the string stays valid UTF-8 of the same length if what is written
    is, in both build modes; and only the selected bytes change. *)
Theorem C40_writing_keeps_validity (PF : Platform) (m : mode) (cs : list chr) (r : index_range) (f : list Z -> list Z) (s' : list Z) :
  (forall b, exists d, f (utf8 b) = utf8 d) -> (forall w, length (f w) = length w) -> str_index_mut m (utf8 cs) r f = Ret s' ->
  length s' = length (utf8 cs) /\
  exists a b c d, cs = a ++ b ++ c /\ f (utf8 b) = utf8 d /\ s' = utf8 (a ++ d ++ c) /\ str_index m (utf8 cs) r = Ret (utf8 b).
Proof. exact (str_index_mut_valid m cs r f s'). Qed.
Print Assumptions C40_writing_keeps_validity.
Theorem C40_only_selected_changed (PF : Platform) (s s' : list Z) (r : index_range) (f : list Z -> list Z) :
  len s <= usize_max -> (forall w, length (f w) = length w) -> str_index_mut Debug s r f = Ret s' ->
  exists w, str_index Debug s r = Ret w /\ picks (selects r) s w /\ picks (selects r) s' (f w) /\ length s' = length s /\
    forall i, 0 <= i -> ~ selects r i -> nth_error s' (Z.to_nat i) = nth_error s (Z.to_nat i).
Proof. exact (str_mut_debug s s' r f). Qed.
Print Assumptions C40_only_selected_changed.
(** A string determines its characters, so "whole characters" is unambiguous. *)
Theorem C40_utf8_unambiguous (cs ds : list chr) : utf8 cs = utf8 ds -> cs = ds.
Proof. exact (utf8_inj cs ds). Qed.
Print Assumptions C40_utf8_unambiguous.
(** ["aé€"]: bytes 61, C3 A9, E2 82 AC. *)
Example C40_ex :
  utf8 [ch 0x61; ch 0xE9; ch 0x20AC; ch 0x1F600] = [0x61; 0xC3; 0xA9; 0xE2; 0x82; 0xAC; 0xF0; 0x9F; 0x98; 0x80] /\
  str_index (PF := pf64) Debug (utf8 [ch 0x61; ch 0xE9; ch 0x20AC]) (IxBounded (BR (LB (Excluded (lit Usize 0))) (UB (Included (lit Usize 2))))) = Ret (utf8 [ch 0xE9]) /\
  str_index (PF := pf64) Debug (utf8 [ch 0x61; ch 0xE9; ch 0x20AC]) (IxBounded (BR (LB (Included (lit Usize 1))) (UB (Excluded (lit Usize 2))))) = Panic /\
  str_index (PF := pf64) Debug (utf8 [ch 0x61; ch 0xE9; ch 0x20AC]) (IxLower (LBR (LB (Included (lit Usize 3))))) = Ret (utf8 [ch 0x20AC]) /\
  on_boundary [ch 0x61; ch 0xE9; ch 0x20AC] 3.
Proof. repeat split. exists [ch 0x61; ch 0xE9], [ch 0x20AC]. split; reflexivity. Qed.
(** In release ["abc"[..=usize::MAX]] is empty. *)
Theorem C40_refuted :
  exists (cs : list chr) (r : index_range (PF := pf64)),
    str_index Release (utf8 cs) r = Ret [] /\ str_index Debug (utf8 cs) r = Panic /\ len (utf8 cs) = 3 /\ selects r 0.
Proof.
  exists [ch 0x61; ch 0x62; ch 0x63], (IxUpper (UBR (UB (Included (lit Usize (2 ^ 64 - 1)))))).
  split; [vm_compute; reflexivity|]. split; [vm_compute; reflexivity|]. split; [reflexivity|].
  exists (lit Usize 0). split; [reflexivity|]. vm_compute. discriminate.
Qed.
Print Assumptions C40_refuted.

(** ** C41 *)
Theorem C41_empty_range (PF : Platform) (A : Type) (m : mode) (v : list A) (s : list Z) (e : EmptyRange) :
  slice_index m v (IxEmpty e) = Ret [] /\ str_index m s (IxEmpty e) = Ret [].
Proof.
  unfold slice_index, str_index, slice_positions, str_positions, std_slice_range, std_str_range.
  change (mval (rg_start (range_from_empty e))) with (mval (default : mint Usize)).
  change (mval (rg_end (range_from_empty e))) with (mval (default : mint Usize)). rewrite (zero_default Usize).
  rewrite (proj2 (Z.leb_le 0 (len v))) by lia. split; reflexivity.
Qed.
Print Assumptions C41_empty_range.
Theorem C41_unbounded_range (PF : Platform) (A : Type) (m : mode) (v : list A) (s : list Z) (r : UnboundedRange) :
  slice_index m v (IxUnbounded r) = Ret v /\ str_index m s (IxUnbounded r) = Ret s /\ full_index v r = v.
Proof.
  assert (P : forall B (x : list B), part x (0, len x) = x).
  { intros B x. unfold part. cbn [fst snd Z.to_nat skipn]. apply firstn_all2. lia. }
  unfold slice_index, str_index, slice_positions, str_positions, std_slice_range_full, std_str_range_full. cbn [bind]. rewrite !P.
  repeat split.
Qed.
Print Assumptions C41_unbounded_range.
Theorem C41_unbounded_range_mut (PF : Platform) (A : Type) (m : mode) (v : list A) (s : list Z) (r : UnboundedRange)
  (f : list A -> list A) (g : list Z -> list Z) :
  slice_index_mut m v (IxUnbounded r) f = Ret (f v) /\ str_index_mut m s (IxUnbounded r) g = Ret (g s) /\
  full_index_mut v r f = f v.
Proof.
  assert (P : forall B (x : list B), part x (0, len x) = x).
  { intros B x. unfold part. cbn [fst snd Z.to_nat skipn]. apply firstn_all2. lia. }
  unfold slice_index_mut, str_index_mut, slice_positions, str_positions, std_slice_range_full, std_str_range_full. cbn [bind]. rewrite !P.
  unfold put. cbn [fst snd Z.to_nat firstn app]. rewrite !Nat2Z.id, !skipn_all, !app_nil_r. repeat split.
Qed.
Print Assumptions C41_unbounded_range_mut.
Example C41_ex :
  slice_index (PF := pf16) Release [1; 2; 3] (IxEmpty mkEmptyRange) = Ret [] /\
  str_index (PF := pf64) Debug (utf8 [ch 0xE9]) (IxUnbounded mkUnboundedRange) = Ret [0xC3; 0xA9].
Proof. split; vm_compute; reflexivity. Qed.
