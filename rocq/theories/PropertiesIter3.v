(** Iterators of sets, with no condition on the set.

    A set iterator drops a piece whose [len] is 0 and panics on one whose [len]
    overflows ([brimful]: exactly [usize::MAX + 1] elements).  It notices the
    pieces that fit [usize] and the brimful ones. *)
From Coq Require Import Lia ZifyBool Sorted.
From Verif Require Import Base ModelBound ModelRanges ModelSets ModelAlgebra ModelValue ModelStep ModelIter Reach
  Spec SpecStep SpecIter Instances StepProofs StepLemmas InstancesStep IterProofs IterProofs2 IterProofs3 IterProofs4
  IterLemmas IterBig IterBrim IterBrim2 PropertiesStep PropertiesIter PropertiesIter2.
Open Scope Z_scope.

(** ** C27 *)
(** Checked arithmetic: each of the three is right about the noticed elements, or
    panics; the latter exactly when the element it is after lies in a brimful
    piece or has no successor ([max]: no predecessor). *)
Theorem C27_set_complete (T : Type) (PF : Platform) (OT : Ord T) (ST : Step T) (NU : Numbered T) (SL : StepLaws T)
  (s : BoundedSet T) (it : BoundedSetIter T) :
  api (VBS s) -> bs_into_iter Debug s = Ret it ->
  let noticed t := exists r, In r (bs_ranges s) /\ in_range r t /\ (small (in_range r) \/ brimful (in_range r)) in
  (forall o, bsi_min Debug it = Ret o <->
     (o = None /\ forall t, ~ noticed t) \/
     exists e, o = Some e /\ in_small_pieces (bs_ranges s) e /\ (forall t, noticed t -> le e t) /\ ~ greatest e) /\
  (forall o, bsi_max Debug it = Ret o <->
     (o = None /\ forall t, ~ noticed t) \/
     exists e, o = Some e /\ in_small_pieces (bs_ranges s) e /\ (forall t, noticed t -> le t e) /\ ~ least e) /\
  (forall o, bsi_last Debug it o <->
     (o = Ret None /\ forall t, ~ noticed t) \/
     exists e, noticed e /\ (forall t, noticed t -> le t e) /\
       (o = Ret (Some e) /\ in_small_pieces (bs_ranges s) e /\ ~ greatest e \/
        o = Panic /\ (greatest e \/ ~ in_small_pieces (bs_ranges s) e))).
Proof.
  intros A E noticed. apply api_valid in A. split; [|split]; intros o.
  - exact (set_min_complete s it o A E).
  - exact (set_max_complete s it o A E).
  - exact (set_last_complete s it o A E).
Qed.
Print Assumptions C27_set_complete.
Theorem C27_lower_bounded_min_complete (T : Type) (PF : Platform) (OT : Ord T) (ST : Step T) (NU : Numbered T) (SL : StepLaws T)
  (s : LowerBoundedSet T) (it : LowerBoundedSetIter T) (o : option T) :
  api (VLBS s) -> lbs_into_iter Debug s = Ret it ->
  let pieces := bs_ranges (lbs_ranges s) in
  let tail := above (lbr_start (lbs_lbr s)) in
  let noticed t := exists r, In r pieces /\ in_range r t /\ (small (in_range r) \/ brimful (in_range r)) in
  lbsi_min Debug it = Ret o <->
    exists e, o = Some e /\ (in_small_pieces pieces e \/ tail e) /\ (forall t, noticed t \/ tail t -> le e t) /\ ~ greatest e.
Proof. intros A E pieces tail noticed. exact (lbs_min_complete s it o (api_valid _ A) E). Qed.
Print Assumptions C27_lower_bounded_min_complete.

(** {7} and the brimful 10..10+2^64 of u128: min is right, max and last panic.
    One more element and the piece is passed over. *)
Definition with_brimful : BoundedSet (mint (PF := pf64) U128) :=
  BS [excl (lit U128 7) (lit U128 8); excl (lit U128 10) (lit U128 (10 + 2 ^ 64))].
Example C27_set_complete_ex :
  let it := BSI [BRI (lit U128 7) (lit U128 7); BRI (lit U128 10) (lit U128 (9 + 2 ^ 64))] in
  api (VBS with_brimful) /\ bs_into_iter Debug with_brimful = Ret it /\
  bsi_min (PF := pf64) Debug it = Ret (Some (lit U128 7)) /\ bsi_max (PF := pf64) Debug it = Panic /\
  bsi_last (PF := pf64) Debug it Panic /\
  bsi_max (PF := pf64) Debug (BSI [BRI (lit U128 7) (lit U128 7); BRI (lit U128 10) (lit U128 (10 + 2 ^ 64))]) = Ret (Some (lit U128 7)).
Proof.
  split; [|repeat split; vm_compute; reflexivity].
  apply (api_union (VBR (excl (lit U128 7) (lit U128 8))) (VBR (excl (lit U128 10) (lit U128 (10 + 2 ^ 64))))); [constructor|constructor|vm_compute; reflexivity].
Qed.
(** The same below a half-line; and with the brimful piece first. *)
Example C27_lower_bounded_complete_ex :
  lbsi_min (PF := pf64) Debug (LBSI (BSI [BRI (lit U128 7) (lit U128 7); BRI (lit U128 10) (lit U128 (9 + 2 ^ 64))]) (LBRI (lit U128 (2 ^ 80))))
  = Ret (Some (lit U128 7)) /\
  lbsi_min (PF := pf64) Debug (LBSI (BSI [BRI (lit U128 10) (lit U128 (9 + 2 ^ 64))]) (LBRI (lit U128 (2 ^ 80)))) = Panic.
Proof. split; vm_compute; reflexivity. Qed.

(** ** C30, C31 *)
(** Whatever the set and the calls: if they return (checked arithmetic), the
    replies are those of the queue of the elements in pieces that fit [usize]. *)
Theorem C30_set_histories_complete (T : Type) (PF : Platform) (OT : Ord T) (ST : Step T) (NU : Numbered T) (SL : StepLaws T)
  (s : BoundedSet T) (it it' : BoundedSetIter T) (l : list T) (cs : list call) (reps : list (reply T)) :
  api (VBS s) -> bs_into_iter Debug s = Ret it -> lists (in_small_pieces (bs_ranges s)) l -> Forall call_ok cs ->
  run (bsi_call Debug) it cs = Ret (reps, it') -> reps = fst (deque_run l cs).
Proof.
  intros A E L O R. destruct (wfresh s it (api_valid _ A) E) as (k & H & K). rewrite (lists_unique _ _ _ L K).
  exact (wrun cs it k reps it' H O R).
Qed.
Print Assumptions C30_set_histories_complete.
Theorem C31_set_ascends_complete (T : Type) (PF : Platform) (OT : Ord T) (ST : Step T) (NU : Numbered T) (SL : StepLaws T)
  (s : LowerBoundedSet T) (it it' : LowerBoundedSetIter T) (cs : list up_call) (reps : list (option T)) :
  api (VLBS s) -> lbs_into_iter Debug s = Ret it -> Forall up_call_ok cs -> run (lbsi_call Debug) it cs = Ret (reps, it') ->
  let seen t := in_small_pieces (bs_ranges (lbs_ranges s)) t \/ above (lbr_start (lbs_lbr s)) t in
  Forall2 (fun o p => exists e, o = Some e /\ ranked seen e p) reps (positions 0 cs).
Proof. intros A E O R seen. exact (lbs_history_complete s it cs reps it' (api_valid _ A) E O R). Qed.
Print Assumptions C31_set_ascends_complete.
(** [with_brimful] again: 7 from the front; what comes then, the other end and [len] panic. *)
Example C30_complete_ex :
  let it := BSI [BRI (lit U128 7) (lit U128 7); BRI (lit U128 10) (lit U128 (9 + 2 ^ 64))] in
  run (bsi_call (PF := pf64) Debug) it [Next] = Ret ([Item (Some (lit U128 7))], BSI [BRI (lit U128 8) (lit U128 7); BRI (lit U128 10) (lit U128 (9 + 2 ^ 64))]) /\
  run (bsi_call (PF := pf64) Debug) it [Next; Next] = Panic /\ run (bsi_call (PF := pf64) Debug) it [NextBack] = Panic /\
  run (bsi_call (PF := pf64) Debug) it [Len] = Panic /\ run (bsi_call (PF := pf64) Debug) it [Nth 0] = run (bsi_call (PF := pf64) Debug) it [Next] /\
  run (lbsi_call (PF := pf64) Debug) (LBSI it (LBRI (lit U128 (2 ^ 80)))) [UpNext]
  = Ret ([Some (lit U128 7)], LBSI (BSI [BRI (lit U128 8) (lit U128 7); BRI (lit U128 10) (lit U128 (9 + 2 ^ 64))]) (LBRI (lit U128 (2 ^ 80)))).
Proof. repeat split; vm_compute; reflexivity. Qed.
