(** Theorems on iteration with no condition on the number of elements.

    [in_small_pieces rs t]: [t] lies in one of the pieces [rs] that have at most
    [usize::MAX] elements.  [brimful P]: [P] has exactly [usize::MAX + 1]
    elements (on such a piece [len] overflows).  [clipped]: counts too large for
    [usize] replaced by 0. *)
From Coq Require Import Lia ZifyBool Sorted.
From Verif Require Import Base ModelBound ModelRanges ModelSets ModelAlgebra ModelValue ModelStep ModelIter Reach
  Spec SpecStep SpecIter Instances StepProofs StepLemmas InstancesStep IterProofs IterProofs2 IterProofs3 IterProofs4
  IterLemmas IterBig IterRelease IterRelease2 PropertiesStep PropertiesIter.
Open Scope Z_scope.

(** ** C24 *)
(** Every history of a range iterator, of whatever size: the replies are those of the queue. *)
Theorem C24_histories_exact (T : Type) (PF : Platform) (OT : Ord T) (ST : Step T) (NU : Numbered T) (SL : StepLaws T)
  (r : BoundedRange T) (it it' : BoundedRangeIter T) (l : list T) (cs : list call) (reps : list (reply T)) :
  br_into_iter Debug r = Ret it -> lists (in_range r) l -> Forall call_ok cs ->
  run (bri_call Debug) it cs = Ret (reps, it') -> reps = map clipped (fst (deque_run l cs)).
Proof.
  intros E L O R. apply (into_iter_holds r it l E) in L. exact (proj1 (bri_run_clipped cs it l reps it' L O R)).
Qed.
Print Assumptions C24_histories_exact.
Example C24_exact_ex :
  br_into_iter Debug (incl (lit U128 3) (lit U128 (2 ^ 64 + 6))) = Ret (BRI (lit U128 3) (lit U128 (2 ^ 64 + 6))) /\
  run (bri_call (PF := pf64) Debug) (BRI (lit U128 3) (lit U128 (2 ^ 64 + 6))) [Len; Nth 3; NextBack; Len]
  = Ret ([Count 0; Item (Some (lit U128 6)); Item (Some (lit U128 (2 ^ 64 + 6))); Count (2 ^ 64 - 1)],
         BRI (lit U128 7) (lit U128 (2 ^ 64 + 5))).
Proof. split; vm_compute; reflexivity. Qed.

(** ** C26 *)
(** [len] of a set iterator returns exactly when no piece has [usize::MAX + 1]
    elements and those with fewer have at most [usize::MAX] together; it then
    counts the latter. *)
Theorem C26_set_len_exact (T : Type) (PF : Platform) (OT : Ord T) (ST : Step T) (NU : Numbered T) (SL : StepLaws T)
  (s : BoundedSet T) (it : BoundedSetIter T) (l : list T) :
  api (VBS s) -> bs_into_iter Debug s = Ret it -> lists (in_small_pieces (bs_ranges s)) l ->
  ((exists n, bsi_len Debug it = Ret n) <->
     Z.of_nat (length l) <= usize_max /\ forall r, In r (bs_ranges s) -> ~ brimful (in_range r)) /\
  (forall n, bsi_len Debug it = Ret n -> n = Z.of_nat (length l)).
Proof. intros A. exact (set_len_complete s it l (api_valid _ A)). Qed.
Print Assumptions C26_set_len_exact.
Example C26_set_len_ex :
  bsi_len (PF := pf64) Debug (BSI [BRI (lit U128 0) (lit U128 (2 ^ 64)); BRI (lit U128 (2 ^ 65)) (lit U128 (2 ^ 65 + 2))]) = Ret 3 /\
  bsi_len (PF := pf64) Debug (BSI [BRI (lit U128 0) (lit U128 (2 ^ 64 - 1)); BRI (lit U128 (2 ^ 65)) (lit U128 (2 ^ 65 + 2))]) = Panic.
Proof. split; vm_compute; reflexivity. Qed.

(** In release the counts of the pieces are added modulo the size of [usize],
    pieces with more than [usize::MAX] elements counting 0. *)
Theorem C26_release_range_len (T : Type) (PF : Platform) (OT : Ord T) (ST : Step T) (NU : Numbered T) (SL : StepLaws T)
  (r : BoundedRange T) (it it' : BoundedRangeIter T) (l : list T) (cs : list call) (reps : list (reply T)) :
  br_into_iter Debug r = Ret it -> lists (in_range r) l -> Forall call_ok cs ->
  run (bri_call Debug) it cs = Ret (reps, it') ->
  let n := Z.of_nat (length (snd (deque_run l cs))) in
  bri_len Release it' = Ret (if n <=? usize_max then n else 0).
Proof. intros E L O R n. apply len_release. exact (holds_after r it l cs reps it' E L O R). Qed.
Print Assumptions C26_release_range_len.
Theorem C26_release_set_len (T : Type) (PF : Platform) (OT : Ord T) (ST : Step T) (NU : Numbered T) (SL : StepLaws T)
  (s : BoundedSet T) (it : BoundedSetIter T) (l : list T) :
  api (VBS s) -> bs_into_iter Release s = Ret it -> lists (in_small_pieces (bs_ranges s)) l ->
  bsi_len Release it = Ret (Z.of_nat (length l) mod 2 ^ usize_bits).
Proof.
  intros A E L. destruct (bs_into_iter_rshows s (api_valid _ A)) as (it' & k & E' & H & K). rewrite E in E'. injection E' as <-.
  rewrite (lists_unique _ _ _ L K). apply bsi_len_release. exact H.
Qed.
Print Assumptions C26_release_set_len.
Example C26_release_len_ex :
  bri_len (PF := pf64) Release (BRI (lit U128 0) (lit U128 (2 ^ 64 - 1))) = Ret 0 /\
  bsi_len (PF := pf64) Release (BSI [BRI (lit U128 0) (lit U128 (2 ^ 64 - 2)); BRI (lit U128 (2 ^ 65)) (lit U128 (2 ^ 65 + 2))]) = Ret 2 /\
  bsi_len (PF := pf64) Release (BSI [BRI (lit U128 0) (lit U128 (2 ^ 64)); BRI (lit U128 (2 ^ 65)) (lit U128 (2 ^ 65 + 2))]) = Ret 3.
Proof. repeat split; vm_compute; reflexivity. Qed.

(** ** C27 *)
Theorem C27_set_last_min_max_exact (T : Type) (PF : Platform) (OT : Ord T) (ST : Step T) (NU : Numbered T) (SL : StepLaws T)
  (s : BoundedSet T) (it : BoundedSetIter T) (l : list T) :
  api (VBS s) -> (forall r, In r (bs_ranges s) -> ~ brimful (in_range r)) -> bs_into_iter Debug s = Ret it ->
  lists (in_small_pieces (bs_ranges s)) l ->
  ((forall t, In t l -> ~ greatest t) -> forall o, bsi_last Debug it o <-> o = Ret (hd_error (rev l))) /\
  ((exists t, In t l /\ greatest t) -> forall o, bsi_last Debug it o <-> o = Panic) /\
  (forall o, bsi_min Debug it = Ret o <-> o = hd_error l /\ forall t, o = Some t -> ~ greatest t) /\
  (forall o, bsi_max Debug it = Ret o <-> o = hd_error (rev l) /\ forall t, o = Some t -> ~ least t).
Proof.
  intros A Nb E L. destruct (bs_into_iter_shows s (api_valid _ A) Nb) as (it' & k & E' & H & K).
  rewrite E in E'. injection E' as <-. rewrite <- (lists_unique _ _ _ L K) in H. clear k K.
  destruct (bsi_last_spec it l H (proj1 L)) as [L1 L2]. split; [|split; [|split]].
  - intros G. assert (D : bsi_last Debug it (Ret (hd_error (rev l)))) by (apply L1; exact G).
    intros o. split; [intros D'; exact (bsi_last_det _ _ _ _ D' D)|intros ->; exact D].
  - intros G. assert (D : bsi_last Debug it Panic) by (apply L2; exact G).
    intros o. split; [intros D'; exact (bsi_last_det _ _ _ _ D' D)|intros ->; exact D].
  - exact (set_min_spec it l H).
  - exact (set_max_spec it l H).
Qed.
Print Assumptions C27_set_last_min_max_exact.
(** The piece 0..=2^64 is not seen: the smallest element is reported to be 2^65. *)
Example C27_set_exact_ex :
  bsi_min (PF := pf64) Debug (BSI [BRI (lit U128 0) (lit U128 (2 ^ 64)); BRI (lit U128 (2 ^ 65)) (lit U128 (2 ^ 65 + 2))])
  = Ret (Some (lit U128 (2 ^ 65))).
Proof. vm_compute. reflexivity. Qed.
Theorem C27_lower_bounded_min_exact (T : Type) (PF : Platform) (OT : Ord T) (ST : Step T) (NU : Numbered T) (SL : StepLaws T)
  (s : LowerBoundedSet T) (it : LowerBoundedSetIter T) (o : option T) :
  api (VLBS s) -> (forall r, In r (bs_ranges (lbs_ranges s)) -> ~ brimful (in_range r)) -> lbs_into_iter Debug s = Ret it ->
  let seen t := in_small_pieces (bs_ranges (lbs_ranges s)) t \/ above (lbr_start (lbs_lbr s)) t in
  lbsi_min Debug it = Ret o <-> exists e, o = Some e /\ seen e /\ (forall t, seen t -> le e t) /\ ~ greatest e.
Proof.
  intros A Nb E seen. destruct (lbs_start_shown s it (api_valid _ A) Nb E) as (l0 & c0 & St). exact (starts_min _ _ _ _ _ St o).
Qed.
Print Assumptions C27_lower_bounded_min_exact.
(** The piece 0..=2^64 is passed over, as in [C27_set_exact_ex]. *)
Example C27_lower_bounded_min_ex :
  lbsi_min (PF := pf64) Debug (LBSI (BSI [BRI (lit U128 0) (lit U128 (2 ^ 64))]) (LBRI (lit U128 (2 ^ 65))))
  = Ret (Some (lit U128 (2 ^ 65))).
Proof. vm_compute. reflexivity. Qed.

(** ** C29 *)
(** Looping over a set, checked arithmetic, whatever the set: the elements of
    the pieces that fit [usize], in order - unless one of them is the greatest
    value or some piece has exactly [usize::MAX + 1] elements, when it panics. *)
Theorem C29_collect_set_complete (T : Type) (PF : Platform) (OT : Ord T) (ST : Step T) (NU : Numbered T) (SL : StepLaws T)
  (s : BoundedSet T) (it : BoundedSetIter T) (l : list T) :
  api (VBS s) -> bs_into_iter Debug s = Ret it ->
  (drains (bsi_next Debug) it (Ret l) <->
     lists (in_small_pieces (bs_ranges s)) l /\ (forall t, in_small_pieces (bs_ranges s) t -> ~ greatest t) /\
     forall r, In r (bs_ranges s) -> ~ brimful (in_range r)) /\
  (drains (bsi_next Debug) it Panic <->
     (exists t, in_small_pieces (bs_ranges s) t /\ greatest t) \/ exists r, In r (bs_ranges s) /\ brimful (in_range r)).
Proof. intros A. exact (collect_complete s it l (api_valid _ A)). Qed.
Print Assumptions C29_collect_set_complete.
Theorem C29_collect_set_reversed_complete (T : Type) (PF : Platform) (OT : Ord T) (ST : Step T) (NU : Numbered T) (SL : StepLaws T)
  (s : BoundedSet T) (it : BoundedSetIter T) (l : list T) :
  api (VBS s) -> bs_into_iter Debug s = Ret it ->
  (drains (bsi_next_back Debug) it (Ret l) <->
     lists (in_small_pieces (bs_ranges s)) (rev l) /\ (forall t, in_small_pieces (bs_ranges s) t -> ~ least t) /\
     forall r, In r (bs_ranges s) -> ~ brimful (in_range r)) /\
  (drains (bsi_next_back Debug) it Panic <->
     (exists t, in_small_pieces (bs_ranges s) t /\ least t) \/ exists r, In r (bs_ranges s) /\ brimful (in_range r)).
Proof. intros A. exact (collect_back_complete s it l (api_valid _ A)). Qed.
Print Assumptions C29_collect_set_reversed_complete.
(** 0..=2^64 and 2^65..=2^65+1 of [u128]: only the second piece is visited;
    with 0..=2^64-1 instead, the loop panics. *)
Example C29_complete_ex :
  drains (bsi_next (PF := pf64) Debug) (BSI [BRI (lit U128 0) (lit U128 (2 ^ 64)); BRI (lit U128 (2 ^ 65)) (lit U128 (2 ^ 65 + 1))])
    (Ret [lit U128 (2 ^ 65); lit U128 (2 ^ 65 + 1)]) /\
  drains (bsi_next (PF := pf64) Debug) (BSI [BRI (lit U128 0) (lit U128 (2 ^ 64 - 1)); BRI (lit U128 (2 ^ 65)) (lit U128 (2 ^ 65 + 1))])
    Panic.
Proof.
  split.
  - apply (drains_item _ _ (BSI [BRI (lit U128 (2 ^ 65 + 1)) (lit U128 (2 ^ 65 + 1))]) (lit U128 (2 ^ 65)) (Ret [lit U128 (2 ^ 65 + 1)]));
      [vm_compute; reflexivity|].
    apply (drains_item _ _ (BSI [BRI (lit U128 (2 ^ 65 + 2)) (lit U128 (2 ^ 65 + 1))]) (lit U128 (2 ^ 65 + 1)) (Ret []));
      [vm_compute; reflexivity|].
    apply (drains_done _ _ (BSI [])). vm_compute. reflexivity.
  - apply drains_panic. vm_compute. reflexivity.
Qed.

(** Wrapping arithmetic.  Types narrower than [usize]: the loop ends exactly
    when the greatest value is not in the set. *)
Theorem C29_release_narrow (PF : Platform) (ty : ity) (s : BoundedSet (mint ty)) (it : BoundedSetIter (mint ty)) (o : outcome (list (mint ty))) :
  bits ty < usize_bits -> api (VBS s) -> bs_into_iter Release s = Ret it ->
  (drains (bsi_next Release) it o <->
     exists l, o = Ret l /\ lists (mem (VBS s)) l /\ forall t, mem (VBS s) t -> ~ greatest t) /\
  (drains (bsi_next_back Release) it o <->
     exists l, o = Ret l /\ lists (mem (VBS s)) (rev l) /\ forall t, mem (VBS s) t -> ~ least t).
Proof.
  intros B A E. pose proof (api_valid _ A) as V.
  assert (Q : forall t, in_small_pieces (bs_ranges s) t <-> mem (VBS s) t).
  { intros t. split; [intros (r & I & J & _); exists r; auto|intros (r & I & J); exists r].
    split; [exact I|]. split; [exact J|]. apply narrow_small. exact B. }
  destruct (small_listing (bs_ranges s) (proj2 V)) as [l L].
  assert (L' : lists (mem (VBS s)) l) by (destruct L as [Sl Il]; split; [exact Sl|intros t; rewrite Il; apply Q]).
  destruct (bs_into_iter_total s V) as [it0 E0]. pose proof (bs_into_iter_agree s it0 E0) as E1.
  rewrite E in E1. injection E1 as <-. pose proof (into_iter_pieces s it E0) as F.
  assert (Fin : forall t, In t l -> exists i, In i (bsi_range_iters it) /\ mval (bri_current i) <= mval t <= mval (bri_last_field i)).
  { intros t I. apply L' in I. destruct I as (r & I & J). revert I. clear - F J.
    induction F as [|r' i rs its Er F IH]; [intros []|]. intros [->|I].
    - exists i. split; [now left|]. destruct (holds_exists i) as [k K].
      pose proof (proj1 (into_iter_holds r i k Er) K) as [_ Ik]. apply Ik in J. apply (span_in _ _ _ _ K) in J. exact J.
    - destruct (IH I) as (j & Ij & Bj). exists j. split; [now right|exact Bj]. }
  split; split.
  - intros D. destruct (proj2 (extreme_dec l)) as [G|(t & I & G)].
    + assert (D' : drains (bsi_next Release) it (Ret l)).
      { apply (collect_release s it l V E L). intros t I. apply not_greatest_fine, G, I. }
      exists l. split; [exact (drains_det _ _ _ _ D D')|]. split; [exact L'|]. intros t M. apply G, L', M.
    + exfalso. revert D. apply set_never_ends; [exact B|]. destruct (Fin t I) as (i & Ii & Bi). exists i. split; [exact Ii|].
      apply greatest_val in G. pose proof (mint_range _ (bri_last_field i)). cbv beta. lia.
  - intros (k & -> & K & G). rewrite (lists_unique _ _ _ K L'). apply (collect_release s it l V E L).
    intros t I. apply not_greatest_fine, G, L', I.
  - intros D. destruct (proj1 (extreme_dec l)) as [G|(t & I & G)].
    + assert (D' : drains (bsi_next_back Release) it (Ret (rev l))).
      { apply (collect_back_release s it (rev l) V E); [rewrite rev_involutive; exact L|].
        intros t I. apply not_least_fine, G, in_rev, I. }
      exists (rev l). split; [exact (drains_det _ _ _ _ D D')|]. rewrite rev_involutive. split; [exact L'|]. intros t M. apply G, L', M.
    + exfalso. revert D. apply set_back_never_ends; [exact B|]. destruct (Fin t I) as (i & Ii & Bi). exists i. split; [exact Ii|].
      apply least_val in G. pose proof (mint_range _ (bri_current i)). cbv beta. lia.
  - intros (k & -> & K & G). apply (collect_back_release s it k V E).
    + rewrite (lists_unique _ _ _ K L'). exact L.
    + intros t I. apply not_least_fine, G, K. apply -> in_rev. exact I.
Qed.
Print Assumptions C29_release_narrow.
(** Types as wide as [usize] or wider: the loop always ends, and visits the
    elements of the pieces that fit - the greatest value included. *)
Theorem C29_release_wide (PF : Platform) (ty : ity) (s : BoundedSet (mint ty)) (it : BoundedSetIter (mint ty)) (o : outcome (list (mint ty))) :
  usize_bits <= bits ty -> api (VBS s) -> bs_into_iter Release s = Ret it ->
  (drains (bsi_next Release) it o <-> exists l, o = Ret l /\ lists (in_small_pieces (bs_ranges s)) l) /\
  (drains (bsi_next_back Release) it o <-> exists l, o = Ret l /\ lists (in_small_pieces (bs_ranges s)) (rev l)).
Proof.
  intros B A E. pose proof (api_valid _ A) as V. destruct (small_listing (bs_ranges s) (proj2 V)) as [l L].
  assert (D1 : drains (bsi_next Release) it (Ret l)).
  { apply (collect_release s it l V E L). intros t _. apply wide_fwd_fine. exact B. }
  assert (D2 : drains (bsi_next_back Release) it (Ret (rev l))).
  { apply (collect_back_release s it (rev l) V E); [rewrite rev_involutive; exact L|]. intros t _. apply wide_bwd_fine. exact B. }
  split; split.
  - intros D. exists l. split; [exact (drains_det _ _ _ _ D D1)|exact L].
  - intros (k & -> & K). rewrite (lists_unique _ _ _ K L). exact D1.
  - intros D. exists (rev l). split; [exact (drains_det _ _ _ _ D D2)|]. rewrite rev_involutive. exact L.
  - intros (k & -> & K). rewrite <- (rev_involutive k), (lists_unique _ _ _ K L). exact D2.
Qed.
Print Assumptions C29_release_wide.
Example C29_release_ex :
  drains (bsi_next (PF := pf64) Release) (BSI [BRI (lit U64 (2 ^ 64 - 1)) (lit U64 (2 ^ 64 - 1))]) (Ret [lit U64 (2 ^ 64 - 1)]) /\
  bsi_next (PF := pf64) Debug (BSI [BRI (lit U64 (2 ^ 64 - 1)) (lit U64 (2 ^ 64 - 1))]) = Panic /\
  bsi_next (PF := pf64) Release (BSI [BRI (u8 255) (u8 255)]) = Ret (Some (u8 255), BSI [BRI (u8 0) (u8 255)]).
Proof.
  split; [|split; vm_compute; reflexivity].
  apply (drains_item _ _ (BSI [BRI (lit U64 0) (lit U64 (2 ^ 64 - 1))]) (lit U64 (2 ^ 64 - 1)) (Ret [])); [vm_compute; reflexivity|].
  apply (drains_done _ _ (BSI [])). vm_compute. reflexivity.
Qed.

(** ** C30 *)
Theorem C30_set_histories_exact (T : Type) (PF : Platform) (OT : Ord T) (ST : Step T) (NU : Numbered T) (SL : StepLaws T)
  (s : BoundedSet T) (it it' : BoundedSetIter T) (l : list T) (cs : list call) (reps : list (reply T)) :
  api (VBS s) -> (forall r, In r (bs_ranges s) -> ~ brimful (in_range r)) -> bs_into_iter Debug s = Ret it ->
  lists (in_small_pieces (bs_ranges s)) l -> Forall call_ok cs ->
  run (bsi_call Debug) it cs = Ret (reps, it') -> reps = fst (deque_run l cs).
Proof.
  intros A Nb E L O R. destruct (bs_into_iter_shows s (api_valid _ A) Nb) as (it0 & k & E' & H & K).
  rewrite E in E'. injection E' as <-. rewrite (lists_unique _ _ _ L K).
  exact (proj1 (bsi_run_refines cs it k reps it' H O R)).
Qed.
Print Assumptions C30_set_histories_exact.
Theorem C30_set_histories_return_exact (T : Type) (PF : Platform) (OT : Ord T) (ST : Step T) (NU : Numbered T) (SL : StepLaws T)
  (s : BoundedSet T) (l : list T) (cs : list call) :
  api (VBS s) -> (forall r, In r (bs_ranges s) -> ~ brimful (in_range r)) ->
  lists (in_small_pieces (bs_ranges s)) l -> Z.of_nat (length l) <= usize_max ->
  (forall t, In t l -> ~ greatest t /\ ~ least t) -> Forall call_ok cs ->
  exists it reps it', bs_into_iter Debug s = Ret it /\ run (bsi_call Debug) it cs = Ret (reps, it').
Proof.
  intros A Nb L S G O. destruct (bs_into_iter_shows s (api_valid _ A) Nb) as (it & k & E & H & K).
  rewrite <- (lists_unique _ _ _ L K) in H. destruct (bsi_run_total cs it l H G S O) as [[reps it'] R]. eauto.
Qed.
Print Assumptions C30_set_histories_return_exact.
Example C30_exact_ex :
  run (bsi_call (PF := pf64) Debug)
    (BSI [BRI (lit U128 5) (lit U128 6); BRI (lit U128 9) (lit U128 (2 ^ 70)); BRI (lit U128 (2 ^ 80)) (lit U128 (2 ^ 80 + 2))])
    [Len; Nth 2; NextBack; Nth 1]
  = Ret ([Count 5; Item (Some (lit U128 (2 ^ 80))); Item (Some (lit U128 (2 ^ 80 + 2))); Item None], BSI []).
Proof. vm_compute. reflexivity. Qed.

(** ** C31 *)
Theorem C31_set_ascends_exact (T : Type) (PF : Platform) (OT : Ord T) (ST : Step T) (NU : Numbered T) (SL : StepLaws T)
  (s : LowerBoundedSet T) (it it' : LowerBoundedSetIter T) (cs : list up_call) (reps : list (option T)) :
  api (VLBS s) -> (forall r, In r (bs_ranges (lbs_ranges s)) -> ~ brimful (in_range r)) ->
  lbs_into_iter Debug s = Ret it -> Forall up_call_ok cs -> run (lbsi_call Debug) it cs = Ret (reps, it') ->
  let seen t := in_small_pieces (bs_ranges (lbs_ranges s)) t \/ above (lbr_start (lbs_lbr s)) t in
  Forall2 (fun o p => exists e, o = Some e /\ ranked seen e p) reps (positions 0 cs).
Proof.
  intros A Nb E O R seen. destruct (lbs_start_shown s it (api_valid _ A) Nb E) as (l0 & c0 & St).
  exact (starts_history _ _ _ _ _ cs reps it' St O R).
Qed.
Print Assumptions C31_set_ascends_exact.
Example C31_exact_ex :
  run (lbsi_call (PF := pf64) Debug)
    (LBSI (BSI [BRI (lit U128 5) (lit U128 6); BRI (lit U128 9) (lit U128 (2 ^ 70))]) (LBRI (lit U128 (2 ^ 80)))) [UpNext; UpNth 1]
  = Ret ([Some (lit U128 5); Some (lit U128 (2 ^ 80))],
         LBSI (BSI []) (LBRI (lit U128 (2 ^ 80 + 1)))).
Proof. vm_compute. reflexivity. Qed.

(** ** C23, release *)
Theorem C23_release_exact (PF : Platform) (ty : ity) (r : BoundedRange (mint ty)) (it : BoundedRangeIter (mint ty))
  (l : list (mint ty)) (o : outcome (list (mint ty))) :
  br_into_iter Debug r = Ret it -> lists (in_range r) l ->
  (drains (bri_next Release) it o <-> o = Ret l /\ forall t, in_range r t -> ~ greatest t) /\
  (drains (bri_next_back Release) it o <-> o = Ret (rev l) /\ forall t, in_range r t -> ~ least t).
Proof.
  intros E L. destruct (range_release it l o (proj2 (into_iter_holds r it l E) L)) as [A B]. destruct L as [_ I].
  rewrite A, B. split; split; intros [-> G]; (split; [reflexivity|]); intros t J; apply G; apply I; exact J.
Qed.
Print Assumptions C23_release_exact.
Example C23_release_ex :
  br_into_iter Debug (excl (u8 3) (u8 5)) = Ret (BRI (u8 3) (u8 4)) /\
  drains (bri_next Release) (BRI (u8 3) (u8 4)) (Ret [u8 3; u8 4]).
Proof.
  split; [vm_compute; reflexivity|].
  apply (drains_item _ _ (BRI (u8 4) (u8 4)) (u8 3) (Ret [u8 4])); [vm_compute; reflexivity|].
  apply (drains_item _ _ (BRI (u8 5) (u8 4)) (u8 4) (Ret [])); [vm_compute; reflexivity|].
  apply (drains_done _ _ (BRI (u8 5) (u8 4))). vm_compute. reflexivity.
Qed.

(** ** C25, release *)
(** With wrapping arithmetic no sequence of calls on any integer iterator, in
    any state, panics. *)
Theorem C25_release_never_panics (PF : Platform) (ty : ity) (cs : list call) (us : list up_call) :
  Forall call_ok cs -> Forall up_call_ok us ->
  (forall it : BoundedRangeIter (mint ty), exists x, run (bri_call Release) it cs = Ret x) /\
  (forall it : BoundedSetIter (mint ty), exists x, run (bsi_call Release) it cs = Ret x) /\
  (forall it : LowerBoundedSetIter (mint ty), exists x, run (lbsi_call Release) it us = Ret x).
Proof.
  intros O U. split; [|split]; intros it.
  - exact (run_total _ call_ok rel_call cs it O).
  - exact (run_total _ call_ok rel_set_call cs it O).
  - exact (run_total _ up_call_ok rel_up_call us it U).
Qed.
Print Assumptions C25_release_never_panics.
Example C25_release_ex :
  run (bri_call (PF := pf64) Release) (BRI (u8 250) (u8 255)) [Nth 9; Len; NthBack 300]
  = Ret ([Item (Some (u8 3)); Count 252; Item (Some (u8 211))], BRI (u8 4) (u8 210)).
Proof. vm_compute. reflexivity. Qed.

(** ** C31, release *)
(** With wrapping arithmetic the calls always return, and the replies are the
    positions counted modulo the size of the type. *)
Theorem C31_release_wraps (PF : Platform) (ty : ity) (it : LowerBoundedRangeIter (mint ty)) (cs : list up_call) :
  Forall up_call_ok cs ->
  exists reps it', run (lbri_call Release) it cs = Ret (reps, it') /\
    Forall2 (fun o p => exists e, o = Some e /\ mval e mod 2 ^ bits ty = (mval (lbri_current it) + p) mod 2 ^ bits ty)
      reps (positions 0 cs).
Proof.
  intros O. destruct (lbri_release cs it (mval (lbri_current it)) 0) as (reps & it' & E & F); [|exact O|exists reps, it'; auto].
  unfold congr. rewrite Z.add_0_r. reflexivity.
Qed.
Print Assumptions C31_release_wraps.
Example C31_release_ex :
  run (lbri_call Release) (LBRI (u8 254)) [UpNext; UpNth 2; UpNth 300]
  = Ret ([Some (u8 254); Some (u8 1); Some (u8 46)], LBRI (u8 47)) /\
  positions 0 [UpNext; UpNth 2; UpNth 300] = [0; 3; 304].
Proof. split; vm_compute; reflexivity. Qed.

(** Sets likewise: [l] lists the elements of the bounded pieces, [c] is the least
    element of the half-line. *)
Theorem C31_release_set_wraps (PF : Platform) (ty : ity) (s : LowerBoundedSet (mint ty)) (it : LowerBoundedSetIter (mint ty))
  (cs : list up_call) (l : list (mint ty)) :
  api (VLBS s) -> small (in_pieces (bs_ranges (lbs_ranges s))) -> lbs_into_iter Debug s = Ret it ->
  lists (in_pieces (bs_ranges (lbs_ranges s))) l -> Forall up_call_ok cs ->
  exists c reps it', (forall t, above (lbr_start (lbs_lbr s)) t <-> le c t) /\
    run (lbsi_call Release) it cs = Ret (reps, it') /\
    Forall2 (fun o p => exists e, o = Some e /\
        (p < Z.of_nat (length l) -> nth_error l (Z.to_nat p) = Some e) /\
        (Z.of_nat (length l) <= p -> mval e mod 2 ^ bits ty = (mval c + (p - Z.of_nat (length l))) mod 2 ^ bits ty))
      reps (positions 0 cs).
Proof. exact (lbs_release s it cs l). Qed.
Print Assumptions C31_release_set_wraps.
(** [{1..=2, 254..}]. *)
Example C31_release_set_ex :
  lbs_into_iter Debug (LBS (BS [incl (u8 1) (u8 2)]) (LBR (LB (Included (u8 254))))) = Ret (LBSI (BSI [BRI (u8 1) (u8 2)]) (LBRI (u8 254))) /\
  run (lbsi_call (PF := pf64) Release) (LBSI (BSI [BRI (u8 1) (u8 2)]) (LBRI (u8 254))) [UpNext; UpNth 1; UpNext; UpNth 2]
  = Ret ([Some (u8 1); Some (u8 254); Some (u8 255); Some (u8 2)], LBSI (BSI []) (LBRI (u8 3))) /\
  positions 0 [UpNext; UpNth 1; UpNext; UpNth 2] = [0; 2; 3; 6].
Proof. repeat split; vm_compute; reflexivity. Qed.

(** ** C32, release *)
(** Integer ranges whose iterator cannot be created with checked arithmetic:
    with wrapping arithmetic it is created, and although such a range is empty
    the loop visits everything up to the upper bound, or never ends. *)
Theorem C32_release_exact (PF : Platform) (ty : ity) (r : BoundedRange (mint ty)) (o : outcome (list (mint ty))) :
  br_into_iter Debug r = Panic ->
  (forall t, ~ in_range r t) /\
  exists it, br_into_iter Release r = Ret it /\
    (drains (bri_next Release) it o <->
       exists l, o = Ret l /\ (forall t, br_end r = UB (Excluded t) -> ~ least t) /\
         lists (below (br_end r)) l /\ forall t, below (br_end r) t -> ~ greatest t).
Proof.
  intros P. split.
  - intros t J. destruct (into_iter_inhabited r t J) as [it E]. congruence.
  - destruct (into_iter_wraps r P) as (it & E & Mx & Bl). exists it. split; [exact E|].
    destruct (holds_exists it) as [k K]. destruct (range_release it k o K) as [A _]. rewrite A. clear A.
    pose proof (span_in _ _ _ (bri_last_field it) K) as Il. cbn [idx NumberedMint] in Il.
    assert (Dec : (exists t, br_end r = UB (Excluded t) /\ least t) \/ forall t, br_end r = UB (Excluded t) -> ~ least t).
    { destruct (br_end r) as [[e|e]]; [|right; discriminate].
      destruct (least_dec e) as [L|L]; [left; eauto|right; intros t Q; injection Q as <-; exact L]. }
    destruct Dec as [D|D].
    + split.
      * intros [_ G]. exfalso. apply (G (bri_last_field it)); [apply Il; rewrite (Mx D); pose proof (mint_range _ (bri_current it)); lia|].
        apply greatest_val. exact (Mx D).
      * intros (l & _ & N & _). exfalso. destruct D as (t & Et & Lt). exact (N t Et Lt).
    + specialize (Bl D).
      assert (Lk : lists (below (br_end r)) k).
      { eapply lists_ext; [exact Bl|]. apply (span_lists _ _ _ K). }
      split.
      * intros [-> G]. exists k. split; [reflexivity|]. split; [exact D|]. split; [exact Lk|]. intros t J. apply G, Lk, J.
      * intros (l & -> & _ & L & G). split; [f_equal; exact (lists_unique _ _ _ L Lk)|]. intros t J. apply G, Lk, J.
Qed.
Print Assumptions C32_release_exact.
(** The empty range (255, 2] yields 0, 1, 2. *)
Example C32_release_ex :
  br_into_iter Debug (BR (LB (Excluded (u8 255))) (UB (Included (u8 2)))) = Panic /\
  br_into_iter Release (BR (LB (Excluded (u8 255))) (UB (Included (u8 2)))) = Ret (BRI (u8 0) (u8 2)) /\
  run (bri_call (PF := pf64) Release) (BRI (u8 0) (u8 2)) [Next; Next; Next; Next]
  = Ret ([Item (Some (u8 0)); Item (Some (u8 1)); Item (Some (u8 2)); Item None], BRI (u8 3) (u8 2)).
Proof. repeat split; vm_compute; reflexivity. Qed.
