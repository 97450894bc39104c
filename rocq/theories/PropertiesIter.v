(** Property theorems C23-C33: iterating.

    [T] is any steppable type: [SL : StepLaws T] is the documented contract of
    [Step]; the primitive integers and [char] satisfy it (StepLawsMint,
    StepLawsChr), so every theorem holds for them.  [Debug] is a build with
    overflow checks, [Release] one without.  [lists P l]: [l] is the strictly
    ascending list of exactly the elements satisfying [P].
    [drains next it (Ret l)]: the loop calling [next] until [None] ends having
    seen [l]; [drains next it Panic]: it panics; no [o] at all: it runs forever.
    [run step it cs]: the replies to the calls [cs] and the final state.
    [deque_run l cs]: what a double-ended queue holding [l] replies. *)
From Coq Require Import Lia ZifyBool Sorted.
From Verif Require Import Base ModelBound ModelRanges ModelSets ModelAlgebra ModelValue ModelStep ModelIter
  Spec Reach SpecStep SpecIter StepProofs StepLemmas InstancesStep
  IterProofs IterProofs2 IterProofs3 IterProofs4 IterLemmas.
Open Scope Z_scope.

(** [a..=b] and [a..b] as crate ranges. *)
Definition incl {T : Type} (a b : T) : BoundedRange T := BR (LB (Included a)) (UB (Included b)).
Definition excl {T : Type} (a b : T) : BoundedRange T := BR (LB (Included a)) (UB (Excluded b)).

(** ** C23 *)
(** Missing for the full claim: ranges containing the greatest value of the
    type (the loop panics, see [C23_refuted]) and ranges for which creating the
    iterator panics (C32). *)
Theorem C23_collect_partial (T : Type) (PF : Platform) (OT : Ord T) (ST : Step T) (NU : Numbered T) (SL : StepLaws T)
  (r : BoundedRange T) (it : BoundedRangeIter T) :
  br_into_iter Debug r = Ret it -> (forall t, in_range r t -> ~ greatest t) ->
  exists l, lists (in_range r) l /\ drains (bri_next Debug) it (Ret l) /\ drains (bri_next Release) it (Ret l).
Proof.
  intros E G. destruct (range_listing r) as [l L]. exists l.
  assert (D : drains (bri_next Debug) it (Ret l)) by (apply (collect_range r it l E); auto).
  split; [exact L|]. split; [exact D|]. exact (drains_agree' _ _ next_agree it l D).
Qed.
Print Assumptions C23_collect_partial.
(** What is collected, and when collecting panics. *)
Theorem C23_collect_exact (T : Type) (PF : Platform) (OT : Ord T) (ST : Step T) (NU : Numbered T) (SL : StepLaws T)
  (r : BoundedRange T) (it : BoundedRangeIter T) (l : list T) :
  br_into_iter Debug r = Ret it ->
  (drains (bri_next Debug) it (Ret l) <-> lists (in_range r) l /\ forall t, in_range r t -> ~ greatest t) /\
  (drains (bri_next Debug) it Panic <-> exists t, in_range r t /\ greatest t).
Proof. exact (collect_range r it l). Qed.
Print Assumptions C23_collect_exact.
Theorem C23_collect_reversed_exact (T : Type) (PF : Platform) (OT : Ord T) (ST : Step T) (NU : Numbered T) (SL : StepLaws T)
  (r : BoundedRange T) (it : BoundedRangeIter T) (l : list T) :
  br_into_iter Debug r = Ret it ->
  (drains (bri_next_back Debug) it (Ret l) <-> lists (in_range r) (rev l) /\ forall t, in_range r t -> ~ least t) /\
  (drains (bri_next_back Debug) it Panic <-> exists t, in_range r t /\ least t).
Proof. exact (collect_range_back r it l). Qed.
Print Assumptions C23_collect_reversed_exact.
(** Every bounded range has a listing, so the theorems are never empty. *)
Theorem C23_listing_exists (T : Type) (PF : Platform) (OT : Ord T) (ST : Step T) (NU : Numbered T) (SL : StepLaws T)
  (r : BoundedRange T) :
  exists l, lists (in_range r) l /\ forall k, lists (in_range r) k -> k = l.
Proof. destruct (range_listing r) as [l L]. exists l. split; [exact L|]. intros k K. exact (lists_unique _ _ _ K L). Qed.
Print Assumptions C23_listing_exists.
(** For every integer type, a release-mode loop over a range ending at [MAX]
    runs forever. *)
Theorem C23_release_never_ends (PF : Platform) (ty : ity) (a b : mint ty) (o : outcome (list (mint ty))) :
  mval b = imax ty -> br_into_iter Release (incl a b) = Ret (BRI a b) /\ ~ drains (bri_next Release) (BRI a b) o.
Proof. intros M. split; [reflexivity|]. exact (never_ends PF ty (BRI a b) o M). Qed.
Print Assumptions C23_release_never_ends.
Theorem C23_refuted :
  exists (r : BoundedRange (@mint pf64 U8)) it,
    br_into_iter Debug r = Ret it /\ br_into_iter Release r = Ret it /\
    lists (in_range r) [u8 250; u8 251; u8 252; u8 253; u8 254; u8 255] /\
    drains (bri_next Debug) it Panic /\ (forall o, ~ drains (bri_next Release) it o).
Proof.
  exists (incl (u8 250) (u8 255)), (BRI (u8 250) (u8 255)).
  split; [reflexivity|]. split; [reflexivity|]. split; [|split].
  - apply (proj1 (into_iter_holds (PF := pf64) (incl (u8 250) (u8 255)) (BRI (u8 250) (u8 255)) _ eq_refl)). vm_compute. reflexivity.
  - apply (collect_range (PF := pf64) (incl (u8 250) (u8 255)) (BRI (u8 250) (u8 255)) [] eq_refl). exists (u8 255).
    split; [split; vm_compute; discriminate|]. intros u. apply (le_idx (PF := pf64)). pose proof (@mint_range pf64 U8 u) as B. apply B.
  - intros o. apply never_ends. reflexivity.
Qed.
Print Assumptions C23_refuted.
Example C23_ex :
  drains (bri_next Debug) (BRI (u8 250) (u8 252)) (Ret [u8 250; u8 251; u8 252]) /\
  br_into_iter Debug (excl (u8 250) (u8 253)) = Ret (BRI (u8 250) (u8 252)) /\
  drains (bri_next (ST := @StepChr pf64) Debug) (BRI (ch 0xD7FE) (ch 0xE001)) (Ret [ch 0xD7FE; ch 0xD7FF; ch 0xE000; ch 0xE001]).
Proof.
  split; [|split; [vm_compute; reflexivity|]].
  - apply (collect_range (PF := pf64) (incl (u8 250) (u8 252)) (BRI (u8 250) (u8 252)) _ eq_refl). split.
    + apply (proj1 (into_iter_holds (PF := pf64) (incl (u8 250) (u8 252)) (BRI (u8 250) (u8 252)) _ eq_refl)). vm_compute. reflexivity.
    + intros t [_ B] G. specialize (G (u8 255)). apply (le_idx (PF := pf64)) in B. apply (le_idx (PF := pf64)) in G.
      change (idx t <= 252) in B. change (255 <= idx t) in G. lia.
  - apply (collect_range (SL := @StepLawsChr pf64) (incl (ch 0xD7FE) (ch 0xE001)) (BRI (ch 0xD7FE) (ch 0xE001)) _ eq_refl). split.
    + apply (proj1 (into_iter_holds (SL := @StepLawsChr pf64) (incl (ch 0xD7FE) (ch 0xE001)) (BRI (ch 0xD7FE) (ch 0xE001)) _ eq_refl)). vm_compute. reflexivity.
    + intros t [_ B] G. specialize (G (ch 0x10FFFF)). apply (le_idx (SL := @StepLawsChr pf64)) in B. apply (le_idx (SL := @StepLawsChr pf64)) in G.
      change (idx t <= 0xE001 - 0x800) in B. change (0x10FFFF - 0x800 <= idx t) in G. lia.
Qed.

(** ** C24 *)
(** Missing: histories that ask for [len] on a range with more than
    [usize::MAX] elements (wrong answer, [C24_refuted]). *)
Theorem C24_histories_partial (T : Type) (PF : Platform) (OT : Ord T) (ST : Step T) (NU : Numbered T) (SL : StepLaws T)
  (r : BoundedRange T) (it it' : BoundedRangeIter T) (l : list T) (cs : list call) (reps : list (reply T)) :
  br_into_iter Debug r = Ret it -> lists (in_range r) l -> Forall call_ok cs ->
  (In Len cs -> Z.of_nat (length l) <= usize_max) ->
  run (bri_call Debug) it cs = Ret (reps, it') -> reps = fst (deque_run l cs).
Proof. intros E L O S R. apply (history_range r it l cs reps it' E L O S R). Qed.
Print Assumptions C24_histories_partial.
Theorem C24_histories_narrow (PF : Platform) (ty : ity)
  (r : BoundedRange (mint ty)) (it it' : BoundedRangeIter (mint ty)) (l : list (mint ty)) (cs : list call) reps :
  bits ty < usize_bits ->
  br_into_iter Debug r = Ret it -> lists (in_range r) l -> Forall call_ok cs ->
  run (bri_call Debug) it cs = Ret (reps, it') -> reps = fst (deque_run l cs).
Proof.
  intros B E L O R. apply (history_range r it l cs reps it' E L O); [|exact R].
  intros _. exact (narrow_small PF ty _ B l L).
Qed.
Print Assumptions C24_histories_narrow.
Theorem C24_empty_range (T : Type) (cs : list call) :
  fst (deque_run (@nil T) cs) = map (fun c => fst (empty_call (T := T) mkEmptyRange c)) cs.
Proof.
  induction cs as [|c cs IH]; [reflexivity|]. cbn [deque_run map fst].
  destruct c; cbn [deque_call fst snd tl rev]; rewrite ?skipn_nil; cbn [rev]; rewrite IH; try reflexivity.
  - destruct (Z.to_nat n); reflexivity.
  - destruct (Z.to_nat n); reflexivity.
Qed.
Print Assumptions C24_empty_range.
Theorem C24_refuted :
  exists (r : BoundedRange (@mint pf64 U128)) it it' cs reps,
    br_into_iter Debug r = Ret it /\ Forall (@call_ok pf64) cs /\ run (bri_call (PF := pf64) Debug) it cs = Ret (reps, it') /\
    (forall l, lists (in_range r) l -> reps <> fst (deque_run l cs)).
Proof.
  exists (incl (lit U128 0) (lit U128 (2 ^ 64))), (BRI (lit U128 0) (lit U128 (2 ^ 64))), (BRI (lit U128 0) (lit U128 (2 ^ 64))),
    [Len], [Count 0].
  split; [reflexivity|]. split; [repeat constructor|]. split; [vm_compute; reflexivity|].
  intros l [_ I] E. cbn [deque_run deque_call fst] in E. injection E as E.
  assert (J : In (lit U128 5) l) by (apply I; split; vm_compute; discriminate).
  destruct l; [destruct J|simpl in E; lia].
Qed.
Print Assumptions C24_refuted.
Example C24_ex :
  run (bri_call (PF := pf64) Debug) (BRI (u8 10) (u8 20)) [Next; NextBack; Nth 2; Len; NthBack 1; Next; Nth 3; Next]
  = Ret ([Item (Some (u8 10)); Item (Some (u8 20)); Item (Some (u8 13)); Count 6; Item (Some (u8 18));
          Item (Some (u8 14)); Item None; Item None], BRI (u8 18) (u8 17)).
Proof. vm_compute. reflexivity. Qed.

(** ** C25 *)
(** Missing: ranges containing an extreme value of the type, or with more
    elements than [usize::MAX], and [nth] beyond the end ([C25_refuted]). *)
Theorem C25_no_panic_partial (T : Type) (PF : Platform) (OT : Ord T) (ST : Step T) (NU : Numbered T) (SL : StepLaws T)
  (r : BoundedRange T) (it : BoundedRangeIter T) (l : list T) (cs : list call) :
  br_into_iter Debug r = Ret it -> lists (in_range r) l ->
  (forall t, in_range r t -> ~ greatest t /\ ~ least t) -> Z.of_nat (length l) <= usize_max -> within l cs ->
  exists reps it', run (bri_call Debug) it cs = Ret (reps, it').
Proof.
  intros E L G S W. destruct (bri_run_total cs it l) as [[reps it'] R]; eauto.
  - apply (into_iter_holds r it l E). exact L.
  - intros t I. apply G. apply (proj2 L). exact I.
Qed.
Print Assumptions C25_no_panic_partial.
(** After any history, exactly when [next] and [next_back] panic. *)
Theorem C25_next_panics_exact (T : Type) (PF : Platform) (OT : Ord T) (ST : Step T) (NU : Numbered T) (SL : StepLaws T)
  (r : BoundedRange T) (it it' : BoundedRangeIter T) (l : list T) (cs : list call) (reps : list (reply T)) :
  br_into_iter Debug r = Ret it -> lists (in_range r) l -> Forall call_ok cs ->
  run (bri_call Debug) it cs = Ret (reps, it') ->
  let left := snd (deque_run l cs) in
  (bri_next Debug it' = Panic <-> exists x, hd_error left = Some x /\ greatest x) /\
  (bri_next_back Debug it' = Panic <-> exists x, hd_error (rev left) = Some x /\ least x).
Proof.
  intros E L O R left. pose proof (holds_after r it l cs reps it' E L O R) as H. fold left in H. split.
  - rewrite (next_panics it' left H). split.
    + intros (x & l' & -> & G). exists x. auto.
    + intros (x & Hx & G). destruct left as [|y l']; [discriminate|]. injection Hx as ->. eauto.
  - rewrite (next_back_panics it' left H). split.
    + intros (x & l' & -> & G). exists x. auto.
    + intros (x & Hx & G). destruct (rev left) as [|y l']; [discriminate|]. injection Hx as ->. eauto.
Qed.
Print Assumptions C25_next_panics_exact.
(** In any state, exactly when [nth] and [nth_back] panic: no element lies [n]
    steps away (even when the range ends before), or it is the last of its type. *)
Theorem C25_nth_panics_exact (T : Type) (PF : Platform) (OT : Ord T) (ST : Step T) (NU : Numbered T) (SL : StepLaws T)
  (it : BoundedRangeIter T) (n : Z) :
  0 <= n <= usize_max ->
  (bri_nth Debug it n = Panic <->
   (~ exists b, apart (bri_current it) b n) \/
   (exists b, apart (bri_current it) b n /\ greatest b /\ le b (bri_last_field it))) /\
  (bri_nth_back Debug it n = Panic <->
   (~ exists b, apart b (bri_last_field it) n) \/
   (exists b, apart b (bri_last_field it) n /\ least b /\ le (bri_current it) b)).
Proof. intros N. split; [exact (nth_panics it n N)|exact (nth_back_panics it n N)]. Qed.
Print Assumptions C25_nth_panics_exact.
(** 250u8..=252: nth(10) panics with overflow checks; without them it returns
    4, which the range does not contain.  Iteration reaching 255 or 0 panics. *)
Theorem C25_refuted :
  (exists (r : BoundedRange (@mint pf64 U8)) it x it',
    br_into_iter Debug r = Ret it /\ bri_nth Debug it 10 = Panic /\
    bri_nth Release it 10 = Ret (Some x, it') /\ ~ in_range r x) /\
  (exists it : BoundedRangeIter (@mint pf64 U8),
    br_into_iter Debug (incl (u8 254) (u8 255)) = Ret it /\ run (bri_call (PF := pf64) Debug) it [Next; Next] = Panic) /\
  (exists it : BoundedRangeIter (@mint pf64 U8),
    br_into_iter Debug (incl (u8 0) (u8 1)) = Ret it /\ run (bri_call (PF := pf64) Debug) it [NextBack; NextBack] = Panic).
Proof.
  split; [|split].
  - exists (incl (u8 250) (u8 252)), (BRI (u8 250) (u8 252)), (u8 4), (BRI (u8 5) (u8 252)).
    repeat split; try (vm_compute; reflexivity). intros [A _]. vm_compute in A. apply A. reflexivity.
  - exists (BRI (u8 254) (u8 255)). split; vm_compute; reflexivity.
  - exists (BRI (u8 0) (u8 1)). split; vm_compute; reflexivity.
Qed.
Print Assumptions C25_refuted.
Example C25_ex :
  within [u8 10; u8 11; u8 12] [Nth 3; Next; NthBack 0] /\
  run (bri_call (PF := pf64) Debug) (BRI (u8 10) (u8 12)) [Nth 3; Next; NthBack 0]
  = Ret ([Item None; Item None; Item None], BRI (u8 13) (u8 12)).
Proof. split; [cbn; repeat split; lia|vm_compute; reflexivity]. Qed.

(** ** C26 *)
(** Missing: more than [usize::MAX] elements ([C26_refuted]). *)
Theorem C26_range_size_partial (T : Type) (PF : Platform) (OT : Ord T) (ST : Step T) (NU : Numbered T) (SL : StepLaws T)
  (r : BoundedRange T) (it it' : BoundedRangeIter T) (l : list T) (cs : list call) (reps : list (reply T)) :
  br_into_iter Debug r = Ret it -> lists (in_range r) l -> Forall call_ok cs ->
  run (bri_call Debug) it cs = Ret (reps, it') ->
  let n := Z.of_nat (length (snd (deque_run l cs))) in
  n <= usize_max ->
  bri_size_hint Debug it' = Ret (n, Some n) /\ bri_len Debug it' = Ret n /\ bri_count Debug it' = Ret n.
Proof. intros E L O R n S. apply size_reported; [exact (holds_after r it l cs reps it' E L O R)|exact S]. Qed.
Print Assumptions C26_range_size_partial.
(** With no condition on the size: what [len] answers. *)
Theorem C26_range_len_exact (T : Type) (PF : Platform) (OT : Ord T) (ST : Step T) (NU : Numbered T) (SL : StepLaws T)
  (r : BoundedRange T) (it it' : BoundedRangeIter T) (l : list T) (cs : list call) (reps : list (reply T)) :
  br_into_iter Debug r = Ret it -> lists (in_range r) l -> Forall call_ok cs ->
  run (bri_call Debug) it cs = Ret (reps, it') ->
  let n := Z.of_nat (length (snd (deque_run l cs))) in
  bri_len Debug it' = (if n <=? usize_max then Ret n else if n =? usize_max + 1 then Panic else Ret 0).
Proof. intros E L O R n. apply len_spec. exact (holds_after r it l cs reps it' E L O R). Qed.
Print Assumptions C26_range_len_exact.
Theorem C26_set_size_partial (T : Type) (PF : Platform) (OT : Ord T) (ST : Step T) (NU : Numbered T) (SL : StepLaws T)
  (s : BoundedSet T) (it it' : BoundedSetIter T) (l : list T) (cs : list call) (reps : list (reply T)) :
  api (VBS s) -> small (mem (VBS s)) -> bs_into_iter Debug s = Ret it -> lists (mem (VBS s)) l -> Forall call_ok cs ->
  run (bsi_call Debug) it cs = Ret (reps, it') ->
  let n := Z.of_nat (length (snd (deque_run l cs))) in
  bsi_size_hint Debug it' = Ret (n, Some n) /\ bsi_len Debug it' = Ret n /\ bsi_count Debug it' = Ret n.
Proof.
  intros A S E L O R n. destruct (history_set s it l cs reps it' A S E L O R) as [_ H].
  apply set_size_reported; [exact H|].
  assert (D : (length (snd (deque_run l cs)) <= length l)%nat).
  { clear. revert l. induction cs as [|c cs IH]; intros l; cbn [deque_run snd]; [lia|].
    specialize (IH (snd (deque_call l c))). pose proof (deque_call_length l c). lia. }
  specialize (S l L). lia.
Qed.
Print Assumptions C26_set_size_partial.
(** Every range and set of a type narrower than [usize] satisfies the size
    condition, and so does every range and set of [char] on 32- and 64-bit targets. *)
Theorem C26_narrow_types_small (PF : Platform) (ty : ity) (P : mint ty -> Prop) (Q : chr -> Prop) :
  (bits ty < usize_bits -> small P) /\ (32 <= usize_bits -> small Q).
Proof. split; [exact (narrow_small PF ty P)|exact (char_small PF Q)]. Qed.
Print Assumptions C26_narrow_types_small.
(** 0..=2^64 of [u128] reports 0 elements on a 64-bit target; 0..=u64::MAX
    panics with overflow checks and reports 0 without. *)
Theorem C26_refuted :
  (exists (r : BoundedRange (@mint pf64 U128)) it, br_into_iter Debug r = Ret it /\
    bri_size_hint (PF := pf64) Debug it = Ret (0, Some 0) /\ bri_len (PF := pf64) Debug it = Ret 0 /\ forall l, lists (in_range r) l -> l <> []) /\
  (exists (r : BoundedRange (@mint pf64 U64)) it, br_into_iter Debug r = Ret it /\
    bri_len (PF := pf64) Debug it = Panic /\ bri_len (PF := pf64) Release it = Ret 0 /\ forall l, lists (in_range r) l -> l <> []).
Proof.
  split.
  - exists (incl (lit U128 0) (lit U128 (2 ^ 64))), (BRI (lit U128 0) (lit U128 (2 ^ 64))).
    split; [reflexivity|]. split; [vm_compute; reflexivity|]. split; [vm_compute; reflexivity|].
    intros l [_ I] ->. apply (I (lit U128 5)). split; vm_compute; discriminate.
  - exists (incl (lit U64 0) (lit U64 (2 ^ 64 - 1))), (BRI (lit U64 0) (lit U64 (2 ^ 64 - 1))).
    split; [reflexivity|]. split; [vm_compute; reflexivity|]. split; [vm_compute; reflexivity|].
    intros l [_ I] ->. apply (I (lit U64 5)). split; vm_compute; discriminate.
Qed.
Print Assumptions C26_refuted.
Example C26_ex :
  bsi_size_hint (PF := pf64) Debug (BSI [BRI (u8 1) (u8 3); BRI (u8 7) (u8 6); BRI (u8 9) (u8 12)]) = Ret (7, Some 7).
Proof. vm_compute. reflexivity. Qed.

(** ** C27 *)
(** [last] of a range iterator is always right; [min]/[max] are right or panic,
    and panic exactly at the extremes of the type ([C27_refuted]). *)
Theorem C27_range_last_min_max_partial (T : Type) (PF : Platform) (OT : Ord T) (ST : Step T) (NU : Numbered T) (SL : StepLaws T)
  (r : BoundedRange T) (it : BoundedRangeIter T) (l : list T) :
  br_into_iter Debug r = Ret it -> lists (in_range r) l ->
  bri_last it = hd_error (rev l) /\
  (forall o, bri_min Debug it = Ret o <-> o = hd_error l /\ forall t, o = Some t -> ~ greatest t) /\
  (forall o, bri_max Debug it = Ret o <-> o = hd_error (rev l) /\ forall t, o = Some t -> ~ least t).
Proof.
  intros E L. apply (into_iter_holds r it l E) in L. split; [|split].
  - exact (last_spec it l L).
  - exact (min_spec it l L).
  - exact (max_spec it l L).
Qed.
Print Assumptions C27_range_last_min_max_partial.
Theorem C27_set_last_min_max_partial (T : Type) (PF : Platform) (OT : Ord T) (ST : Step T) (NU : Numbered T) (SL : StepLaws T)
  (s : BoundedSet T) (it : BoundedSetIter T) (l : list T) :
  api (VBS s) -> (forall r, In r (bs_ranges s) -> small (in_range r)) -> bs_into_iter Debug s = Ret it -> lists (mem (VBS s)) l ->
  ((forall t, mem (VBS s) t -> ~ greatest t) -> forall o, bsi_last Debug it o <-> o = Ret (hd_error (rev l))) /\
  ((exists t, mem (VBS s) t /\ greatest t) -> forall o, bsi_last Debug it o <-> o = Panic) /\
  (forall o, bsi_min Debug it = Ret o <-> o = hd_error l /\ forall t, o = Some t -> ~ greatest t) /\
  (forall o, bsi_max Debug it = Ret o <-> o = hd_error (rev l) /\ forall t, o = Some t -> ~ least t).
Proof.
  intros A S E L. pose proof (bs_into_iter_holds' s it l (api_valid _ A) S E L) as H.
  destruct (bsi_last_spec it l H (proj1 L)) as [L1 L2]. split; [|split; [|split]].
  - intros G. assert (D : bsi_last Debug it (Ret (hd_error (rev l)))) by (apply L1; intros t I; apply G, L, I).
    intros o. split; [intros D'; exact (bsi_last_det _ _ _ _ D' D)|intros ->; exact D].
  - intros (t & M & G). assert (D : bsi_last Debug it Panic) by (apply L2; exists t; split; [apply L; exact M|exact G]).
    intros o. split; [intros D'; exact (bsi_last_det _ _ _ _ D' D)|intros ->; exact D].
  - exact (set_min_spec it l H).
  - exact (set_max_spec it l H).
Qed.
Print Assumptions C27_set_last_min_max_partial.
Theorem C27_lower_bounded_min_partial (T : Type) (PF : Platform) (OT : Ord T) (ST : Step T) (NU : Numbered T) (SL : StepLaws T) :
  (forall (r : LowerBoundedRange T) it, lbr_into_iter Debug r = Ret it -> forall o,
     lbri_min Debug it = Ret o <-> exists e, o = Some e /\ mem (VLBR r) e /\ (forall t, mem (VLBR r) t -> le e t) /\ ~ greatest e) /\
  (forall (s : LowerBoundedSet T) it, api (VLBS s) -> (forall r, In r (bs_ranges (lbs_ranges s)) -> small (in_range r)) ->
     lbs_into_iter Debug s = Ret it -> forall o,
     lbsi_min Debug it = Ret o <-> exists e, o = Some e /\ mem (VLBS s) e /\ (forall t, mem (VLBS s) t -> le e t) /\ ~ greatest e).
Proof. split; [exact lbri_min_spec|exact lbsi_min_spec]. Qed.
Print Assumptions C27_lower_bounded_min_partial.
(** [(255u8..=255).min()] and [(0u8..=0).max()] panic with overflow checks; so
    does [last] on the set of 250..=255, and without them it runs forever. *)
Theorem C27_refuted :
  bri_min Debug (BRI (u8 255) (u8 255)) = Panic /\ bri_max Debug (BRI (u8 0) (u8 0)) = Panic /\
  (exists it, bs_into_iter Debug (bs_from_br (incl (u8 250) (u8 255))) = Ret it /\
     bsi_last (PF := pf64) Debug it Panic /\ forall o, ~ bsi_last (PF := pf64) Release it o).
Proof.
  split; [vm_compute; reflexivity|]. split; [vm_compute; reflexivity|].
  exists (BSI [BRI (u8 250) (u8 255)]). split; [vm_compute; reflexivity|]. split.
  - unfold bsi_last. replace (trim (PF := pf64) Debug (rev (bsi_range_iters (BSI [BRI (u8 250) (u8 255)])))) with (Ret [BRI (u8 250) (u8 255)]) by (vm_compute; reflexivity).
    exists Panic. split; [|reflexivity].
    apply (collect_range (PF := pf64) (incl (u8 250) (u8 255)) (BRI (u8 250) (u8 255)) [] eq_refl). exists (u8 255).
    split; [split; vm_compute; discriminate|]. intros u. apply (le_idx (PF := pf64)). pose proof (@mint_range pf64 U8 u) as B. apply B.
  - intros o. unfold bsi_last. replace (trim (PF := pf64) Release (rev (bsi_range_iters (BSI [BRI (u8 250) (u8 255)])))) with (Ret [BRI (u8 250) (u8 255)]) by (vm_compute; reflexivity).
    intros (d & D & _). revert D. apply never_ends. reflexivity.
Qed.
Print Assumptions C27_refuted.
Example C27_ex :
  bri_last (BRI (u8 250) (u8 255)) = Some (u8 255) /\ bri_min Debug (BRI (u8 3) (u8 9)) = Ret (Some (u8 3)) /\
  bsi_max (PF := pf64) Debug (BSI [BRI (u8 1) (u8 3); BRI (u8 9) (u8 12); BRI (u8 15) (u8 14)]) = Ret (Some (u8 12)) /\
  bri_last (BRI (u8 5) (u8 4)) = None.
Proof. repeat split; vm_compute; reflexivity. Qed.

(** ** C28 *)
(** In every state whatsoever (so after every history) and in both builds. *)
Theorem C28_range_fused (T : Type) (PF : Platform) (OT : Ord T) (ST : Step T) (m : mode)
  (it it' : BoundedRangeIter T) (c : call) (cs : list call) :
  c = Next \/ c = NextBack -> bri_call m it c = Ret (Item None, it') ->
  Forall (fun c => c = Next \/ c = NextBack) cs ->
  run (bri_call m) it' cs = Ret (map (fun _ => Item None) cs, it').
Proof.
  intros C E F. apply bri_done_run; [|exact F].
  destruct C as [-> | ->]; cbn [bri_call] in E; unfold item in E; inv_bind E; destruct a as [o i]; injection E as -> <-.
  - apply next_none in E0. destruct E0 as [-> G]. exact G.
  - apply next_back_none in E0. destruct E0 as [-> G]. exact G.
Qed.
Print Assumptions C28_range_fused.
(** A set iterator that has returned [None] is empty for good, for every kind of call. *)
Theorem C28_set_fused (T : Type) (PF : Platform) (OT : Ord T) (ST : Step T) (NU : Numbered T) (SL : StepLaws T) (m : mode)
  (it it' : BoundedSetIter T) (c : call) (cs : list call) :
  c = Next \/ c = NextBack -> bsi_call m it c = Ret (Item None, it') ->
  run (bsi_call m) it' cs = Ret (map (fun c => match c with Len => Count 0 | _ => Item None end) cs, it').
Proof.
  intros C E. assert (Em : it' = BSI []).
  { destruct C as [-> | ->]; cbn [bsi_call] in E; unfold item in E; inv_bind E; destruct a as [o i]; injection E as -> <-.
    - apply bsi_next_none in E0. destruct i; cbn in E0; congruence.
    - apply bsi_next_back_none in E0. destruct i; cbn in E0; congruence. }
  subst. apply bsi_empty_run.
Qed.
Print Assumptions C28_set_fused.
Example C28_ex :
  bri_call (PF := pf64) Release (BRI (u8 4) (u8 3)) Next = Ret (Item None, BRI (u8 4) (u8 3)) /\
  bsi_call (PF := pf64) Debug (BSI [BRI (u8 4) (u8 3); BRI (u8 9) (u8 8)]) NextBack = Ret (Item None, BSI []).
Proof. split; vm_compute; reflexivity. Qed.

(** ** C29 *)
(** Missing: sets containing the greatest value (panic) or a piece with more
    than [usize::MAX] elements (skipped), see [C29_refuted]. *)
Theorem C29_collect_set_partial (T : Type) (PF : Platform) (OT : Ord T) (ST : Step T) (NU : Numbered T) (SL : StepLaws T)
  (s : BoundedSet T) :
  api (VBS s) -> (forall r, In r (bs_ranges s) -> small (in_range r)) -> (forall t, mem (VBS s) t -> ~ greatest t) ->
  exists it l, bs_into_iter Debug s = Ret it /\ lists (mem (VBS s)) l /\
    drains (bsi_next Debug) it (Ret l) /\ drains (bsi_next Release) it (Ret l).
Proof.
  intros A S G. destruct (bs_into_iter_holds s (api_valid _ A) S) as (it & l & E & H & L). exists it, l.
  assert (D : drains (bsi_next Debug) it (Ret l)) by (apply (collect_set s it l A S E); auto).
  split; [exact E|]. split; [exact L|]. split; [exact D|]. exact (drains_agree' _ _ bsi_next_agree it l D).
Qed.
Print Assumptions C29_collect_set_partial.
Theorem C29_collect_set_exact (T : Type) (PF : Platform) (OT : Ord T) (ST : Step T) (NU : Numbered T) (SL : StepLaws T)
  (s : BoundedSet T) (it : BoundedSetIter T) (l : list T) :
  api (VBS s) -> (forall r, In r (bs_ranges s) -> small (in_range r)) -> bs_into_iter Debug s = Ret it ->
  (drains (bsi_next Debug) it (Ret l) <-> lists (mem (VBS s)) l /\ forall t, mem (VBS s) t -> ~ greatest t) /\
  (drains (bsi_next Debug) it Panic <-> exists t, mem (VBS s) t /\ greatest t).
Proof. exact (collect_set s it l). Qed.
Print Assumptions C29_collect_set_exact.
Theorem C29_collect_set_reversed_exact (T : Type) (PF : Platform) (OT : Ord T) (ST : Step T) (NU : Numbered T) (SL : StepLaws T)
  (s : BoundedSet T) (it : BoundedSetIter T) (l : list T) :
  api (VBS s) -> (forall r, In r (bs_ranges s) -> small (in_range r)) -> bs_into_iter Debug s = Ret it ->
  (drains (bsi_next_back Debug) it (Ret l) <-> lists (mem (VBS s)) (rev l) /\ forall t, mem (VBS s) t -> ~ least t) /\
  (drains (bsi_next_back Debug) it Panic <-> exists t, mem (VBS s) t /\ least t).
Proof. exact (collect_set_back s it l). Qed.
Print Assumptions C29_collect_set_reversed_exact.
Theorem C29_refuted :
  (exists (s : BoundedSet (@mint pf64 U128)) it, api (VBS s) /\ bs_into_iter Debug s = Ret it /\
     mem (VBS s) (lit U128 5) /\ drains (bsi_next (PF := pf64) Debug) it (Ret [])) /\
  (exists (s : BoundedSet (@mint pf64 U8)) it, api (VBS s) /\ bs_into_iter Debug s = Ret it /\
     drains (bsi_next (PF := pf64) Debug) it Panic).
Proof.
  split.
  - exists (bs_from_br (incl (lit U128 0) (lit U128 (2 ^ 64)))), (BSI [BRI (lit U128 0) (lit U128 (2 ^ 64))]).
    split; [constructor|]. split; [vm_compute; reflexivity|]. split.
    + exists (incl (lit U128 0) (lit U128 (2 ^ 64))). split; [vm_compute; auto|]. split; vm_compute; discriminate.
    + apply (drains_done _ _ (BSI [])). vm_compute. reflexivity.
  - exists (bs_from_br (incl (u8 255) (u8 255))), (BSI [BRI (u8 255) (u8 255)]).
    split; [constructor|]. split; [vm_compute; reflexivity|]. apply drains_panic. vm_compute. reflexivity.
Qed.
Print Assumptions C29_refuted.
Example C29_ex :
  match union (VBR (excl (u8 1) (u8 3))) (VBR (incl (u8 6) (u8 7))) with
  | Ret (VBS s) => bs_into_iter Debug s = Ret (BSI [BRI (u8 1) (u8 2); BRI (u8 6) (u8 7)])
  | _ => False
  end /\
  run (bsi_call (PF := pf64) Debug) (BSI [BRI (u8 1) (u8 2); BRI (u8 6) (u8 7)]) [Next; Next; Next; Next; Next]
  = Ret ([Item (Some (u8 1)); Item (Some (u8 2)); Item (Some (u8 6)); Item (Some (u8 7)); Item None], BSI []).
Proof. split; vm_compute; reflexivity. Qed.

(** ** C30 *)
Theorem C30_set_histories (T : Type) (PF : Platform) (OT : Ord T) (ST : Step T) (NU : Numbered T) (SL : StepLaws T)
  (s : BoundedSet T) (it it' : BoundedSetIter T) (l : list T) (cs : list call) (reps : list (reply T)) :
  api (VBS s) -> small (mem (VBS s)) -> bs_into_iter Debug s = Ret it -> lists (mem (VBS s)) l -> Forall call_ok cs ->
  run (bsi_call Debug) it cs = Ret (reps, it') -> reps = fst (deque_run l cs).
Proof. intros A S E L O R. apply (history_set s it l cs reps it' A S E L O R). Qed.
Print Assumptions C30_set_histories.
(** No history panics when the set has no extreme value of the type - [nth]
    beyond the end included. *)
Theorem C30_set_histories_return (T : Type) (PF : Platform) (OT : Ord T) (ST : Step T) (NU : Numbered T) (SL : StepLaws T)
  (s : BoundedSet T) (cs : list call) :
  api (VBS s) -> small (mem (VBS s)) -> (forall t, mem (VBS s) t -> ~ greatest t /\ ~ least t) -> Forall call_ok cs ->
  exists it reps it', bs_into_iter Debug s = Ret it /\ run (bsi_call Debug) it cs = Ret (reps, it').
Proof.
  intros A S G O. pose proof (api_valid _ A) as V.
  destruct (bs_into_iter_holds s V) as (it & l & E & H & L); [apply small_pieces; [apply V|exact S]|].
  destruct (bsi_run_total cs it l H) as [[reps it'] R]; [intros t I; apply G, L, I|exact (S l L)|exact O|]. eauto.
Qed.
Print Assumptions C30_set_histories_return.
Example C30_ex :
  run (bsi_call (PF := pf64) Debug) (BSI [BRI (u8 1) (u8 3); BRI (u8 6) (u8 7); BRI (u8 9) (u8 9)]) [NextBack; Nth 1; NthBack 1; Len; Nth 200; NextBack]
  = Ret ([Item (Some (u8 9)); Item (Some (u8 2)); Item (Some (u8 6)); Count 1; Item None; Item None], BSI []).
Proof. vm_compute. reflexivity. Qed.

(** ** C31 *)
(** Each reply is the element at the position the calls have reached
    ([ranked P e p]: exactly [p] elements of [P] are below [e]).  Missing:
    calls that run past the greatest value panic ([C31_returns_exact]) or, in
    release, wrap around ([C31_refuted]). *)
Theorem C31_range_ascends_partial (T : Type) (PF : Platform) (OT : Ord T) (ST : Step T) (NU : Numbered T) (SL : StepLaws T)
  (r : LowerBoundedRange T) (it it' : LowerBoundedRangeIter T) (cs : list up_call) (reps : list (option T)) :
  lbr_into_iter Debug r = Ret it -> Forall up_call_ok cs -> run (lbri_call Debug) it cs = Ret (reps, it') ->
  Forall2 (fun o p => exists e, o = Some e /\ ranked (mem (VLBR r)) e p) reps (positions 0 cs).
Proof. exact (lbr_history r it cs reps it'). Qed.
Print Assumptions C31_range_ascends_partial.
Theorem C31_set_ascends_partial (T : Type) (PF : Platform) (OT : Ord T) (ST : Step T) (NU : Numbered T) (SL : StepLaws T)
  (s : LowerBoundedSet T) (it it' : LowerBoundedSetIter T) (cs : list up_call) (reps : list (option T)) :
  api (VLBS s) -> (forall r, In r (bs_ranges (lbs_ranges s)) -> small (in_range r)) ->
  lbs_into_iter Debug s = Ret it -> Forall up_call_ok cs -> run (lbsi_call Debug) it cs = Ret (reps, it') ->
  Forall2 (fun o p => exists e, o = Some e /\ ranked (mem (VLBS s)) e p) reps (positions 0 cs).
Proof. exact (lbs_history s it cs reps it'). Qed.
Print Assumptions C31_set_ascends_partial.
(** The calls return exactly when an element is left after those passed. *)
Theorem C31_returns_exact (T : Type) (PF : Platform) (OT : Ord T) (ST : Step T) (NU : Numbered T) (SL : StepLaws T)
  (cs : list up_call) :
  Forall up_call_ok cs ->
  (forall (r : LowerBoundedRange T) it, lbr_into_iter Debug r = Ret it ->
     ((exists x, run (lbri_call Debug) it cs = Ret x) <-> exists e, ranked (mem (VLBR r)) e (passed cs))) /\
  (forall (s : LowerBoundedSet T) it, api (VLBS s) -> small (in_pieces (bs_ranges (lbs_ranges s))) ->
     lbs_into_iter Debug s = Ret it ->
     ((exists x, run (lbsi_call Debug) it cs = Ret x) <-> exists e, ranked (mem (VLBS s)) e (passed cs))).
Proof.
  intros O. split.
  - intros r it E. exact (lbr_returns r it cs E O).
  - intros s it A S E. exact (lbs_returns s it cs A S E O).
Qed.
Print Assumptions C31_returns_exact.
(** In every state and build, never [None]. *)
Theorem C31_never_none (T : Type) (PF : Platform) (OT : Ord T) (ST : Step T) (m : mode) (c : up_call) (o : option T) :
  (forall it it', lbri_call m it c = Ret (o, it') -> o <> None) /\
  (forall it it', lbsi_call m it c = Ret (o, it') -> o <> None).
Proof. split; intros it it' E; [exact (lbri_call_some m it c o it' E)|exact (lbsi_call_some m it c o it' E)]. Qed.
Print Assumptions C31_never_none.
Theorem C31_refuted :
  exists (r : LowerBoundedRange (@mint pf64 U8)) it it',
    lbr_into_iter Release r = Ret it /\
    run (lbri_call Release) it [UpNext; UpNext; UpNext] = Ret ([Some (u8 254); Some (u8 255); Some (u8 0)], it') /\
    ~ mem (VLBR r) (u8 0) /\ run (lbri_call Debug) it [UpNext; UpNext] = Panic.
Proof.
  exists (LBR (LB (Included (u8 254)))), (LBRI (u8 254)), (LBRI (u8 1)).
  split; [reflexivity|]. split; [vm_compute; reflexivity|]. split; [|vm_compute; reflexivity].
  intros A. vm_compute in A. apply A. reflexivity.
Qed.
Print Assumptions C31_refuted.
Example C31_ex :
  run (lbsi_call (PF := pf64) Debug) (LBSI (BSI [BRI (u8 1) (u8 2); BRI (u8 6) (u8 7)]) (LBRI (u8 10))) [UpNext; UpNth 1; UpNth 2; UpNext]
  = Ret ([Some (u8 1); Some (u8 6); Some (u8 11); Some (u8 12)], LBSI (BSI []) (LBRI (u8 13))) /\
  positions 0 [UpNext; UpNth 1; UpNth 2; UpNext] = [0; 2; 5; 6].
Proof. split; vm_compute; reflexivity. Qed.

(** ** C32 *)
(** Exactly when creating the iterator of a range panics; a range with an
    element never does, a set of the public API never does. *)
Theorem C32_range_panics_exact (T : Type) (PF : Platform) (OT : Ord T) (ST : Step T) (NU : Numbered T) (SL : StepLaws T)
  (r : BoundedRange T) :
  (br_into_iter Debug r = Panic <->
   (exists t, br_start r = LB (Excluded t) /\ greatest t) \/ (exists t, br_end r = UB (Excluded t) /\ least t)) /\
  br_into_iter Debug r <> Diverge.
Proof. split; [exact (into_iter_panics r)|exact (into_iter_not_diverge r)]. Qed.
Print Assumptions C32_range_panics_exact.
Theorem C32_range_returns_partial (T : Type) (PF : Platform) (OT : Ord T) (ST : Step T) (NU : Numbered T) (SL : StepLaws T)
  (r : BoundedRange T) (t : T) :
  in_range r t -> exists it, br_into_iter Debug r = Ret it.
Proof. exact (into_iter_inhabited r t). Qed.
Print Assumptions C32_range_returns_partial.
Theorem C32_set_returns (T : Type) (PF : Platform) (OT : Ord T) (ST : Step T) (NU : Numbered T) (SL : StepLaws T)
  (s : BoundedSet T) :
  api (VBS s) -> exists it, bs_into_iter Debug s = Ret it /\ bs_into_iter Release s = Ret it.
Proof.
  intros A. destruct (bs_into_iter_total s (api_valid _ A)) as [it E]. exists it. split; [exact E|exact (bs_into_iter_agree s it E)].
Qed.
Print Assumptions C32_set_returns.
Theorem C32_lower_bounded_panics_exact (T : Type) (PF : Platform) (OT : Ord T) (ST : Step T) (NU : Numbered T) (SL : StepLaws T) :
  (forall r : LowerBoundedRange T,
     lbr_into_iter Debug r = Panic <-> exists t, lbr_start r = LB (Excluded t) /\ greatest t) /\
  (forall s : LowerBoundedSet T, api (VLBS s) ->
     (lbs_into_iter Debug s = Panic <-> exists t, lbr_start (lbs_lbr s) = LB (Excluded t) /\ greatest t)).
Proof. split; [exact lbr_into_iter_panics|exact lbs_into_iter_panics]. Qed.
Print Assumptions C32_lower_bounded_panics_exact.
(** [0u8..0]: creating the iterator panics; without overflow checks it succeeds
    and the loop over the empty range never ends.  The complement of [..=255u8]
    is a lower-bounded range whose iterator cannot be created. *)
Theorem C32_refuted :
  (exists (r : BoundedRange (@mint pf64 U8)) it, (forall t, ~ in_range r t) /\ br_into_iter Debug r = Panic /\
     br_into_iter Release r = Ret it /\ forall o, ~ drains (bri_next Release) it o) /\
  (exists r : LowerBoundedRange (@mint pf64 U8), complement (VRangeToInclusive (mkRangeToInclusive (u8 255))) = Ret (VLBR r) /\
     lbr_into_iter Debug r = Panic).
Proof.
  split.
  - exists (excl (u8 0) (u8 0)), (BRI (u8 0) (u8 255)). split; [|split; [|split]].
    + intros t [A B]. apply (le_idx (PF := pf64)) in A. apply (lt_idx (PF := pf64)) in B. lia.
    + vm_compute. reflexivity.
    + vm_compute. reflexivity.
    + intros o. apply never_ends. reflexivity.
  - exists (LBR (LB (Excluded (u8 255)))). split; vm_compute; reflexivity.
Qed.
Print Assumptions C32_refuted.
Example C32_ex :
  in_range (BR (LB (Excluded (u8 3))) (UB (Excluded (u8 5)))) (u8 4) /\
  br_into_iter Debug (BR (LB (Excluded (u8 3))) (UB (Excluded (u8 5)))) = Ret (BRI (u8 4) (u8 4)).
Proof. split; [split; vm_compute; reflexivity|vm_compute; reflexivity]. Qed.

(** ** C33 *)
Theorem C33_into_iter_agrees (T : Type) (PF : Platform) (OT : Ord T) (ST : Step T) (NU : Numbered T) (SL : StepLaws T) :
  (forall (r : BoundedRange T) it, br_into_iter Debug r = Ret it -> br_into_iter Release r = Ret it) /\
  (forall (s : BoundedSet T) it, bs_into_iter Debug s = Ret it -> bs_into_iter Release s = Ret it) /\
  (forall (r : LowerBoundedRange T) it, lbr_into_iter Debug r = Ret it -> lbr_into_iter Release r = Ret it) /\
  (forall (s : LowerBoundedSet T) it, lbs_into_iter Debug s = Ret it -> lbs_into_iter Release s = Ret it).
Proof. repeat split; [exact into_iter_agree|exact bs_into_iter_agree|exact lbr_into_iter_agree|exact lbs_into_iter_agree]. Qed.
Print Assumptions C33_into_iter_agrees.
(** From any state, any history that returns in debug returns the same in release. *)
Theorem C33_histories_agree (T : Type) (PF : Platform) (OT : Ord T) (ST : Step T) (NU : Numbered T) (SL : StepLaws T) :
  (forall (it : BoundedRangeIter T) cs x, Forall call_ok cs -> run (bri_call Debug) it cs = Ret x -> run (bri_call Release) it cs = Ret x) /\
  (forall (it : BoundedSetIter T) cs x, Forall call_ok cs -> run (bsi_call Debug) it cs = Ret x -> run (bsi_call Release) it cs = Ret x) /\
  (forall (it : LowerBoundedRangeIter T) cs x, Forall up_call_ok cs -> run (lbri_call Debug) it cs = Ret x -> run (lbri_call Release) it cs = Ret x) /\
  (forall (it : LowerBoundedSetIter T) cs x, Forall up_call_ok cs -> run (lbsi_call Debug) it cs = Ret x -> run (lbsi_call Release) it cs = Ret x).
Proof.
  split; [|split; [|split]]; intros it cs x O E.
  - exact (run_agree _ _ call_ok bri_call_agree cs it x O E).
  - exact (run_agree _ _ call_ok bsi_call_agree cs it x O E).
  - exact (run_agree _ _ up_call_ok lbri_call_agree cs it x O E).
  - exact (run_agree _ _ up_call_ok lbsi_call_agree cs it x O E).
Qed.
Print Assumptions C33_histories_agree.
Theorem C33_loops_agree (T : Type) (PF : Platform) (OT : Ord T) (ST : Step T) (NU : Numbered T) (SL : StepLaws T) :
  (forall (it : BoundedRangeIter T) l, drains (bri_next Debug) it (Ret l) -> drains (bri_next Release) it (Ret l)) /\
  (forall (it : BoundedRangeIter T) l, drains (bri_next_back Debug) it (Ret l) -> drains (bri_next_back Release) it (Ret l)) /\
  (forall (it : BoundedSetIter T) l, drains (bsi_next Debug) it (Ret l) -> drains (bsi_next Release) it (Ret l)) /\
  (forall (it : BoundedSetIter T) l, drains (bsi_next_back Debug) it (Ret l) -> drains (bsi_next_back Release) it (Ret l)) /\
  (forall (it : BoundedSetIter T) o, bsi_last Debug it (Ret o) -> bsi_last Release it (Ret o)).
Proof.
  repeat split; [exact (drains_agree' _ _ next_agree)|exact (drains_agree' _ _ next_back_agree)
    |exact (drains_agree' _ _ bsi_next_agree)|exact (drains_agree' _ _ bsi_next_back_agree)|exact bsi_last_agree].
Qed.
Print Assumptions C33_loops_agree.
Example C33_ex :
  run (bri_call (PF := pf64) Release) (BRI (lit I8 (-128)) (lit I8 127)) [Nth 200; Len; NthBack 3]
  = run (bri_call (PF := pf64) Debug) (BRI (lit I8 (-128)) (lit I8 127)) [Nth 200; Len; NthBack 3] /\
  run (bri_call (PF := pf64) Debug) (BRI (lit I8 (-128)) (lit I8 127)) [Nth 200; Len; NthBack 3]
  = Ret ([Item (Some (lit I8 72)); Count 55; Item (Some (lit I8 124))], BRI (lit I8 73) (lit I8 123)).
Proof. split; vm_compute; reflexivity. Qed.
