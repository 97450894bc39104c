(** Model of the iterators when panics are caught ([std::panic::catch_unwind]
    around a call, the iterator outside it): what is found behind [&mut self]
    after a call that panicked.  Same lines as ModelIter.v, which is this with the
    state after a panic forgotten (C68_same).

    Rust evaluates the right-hand side of an assignment before it stores, so a
    panic in [self.current = Step::forward(..)] leaves [self.current] as it was;
    what was stored before the panic stays stored.  The elements are [Copy]:
    nothing is moved out and nothing is dropped. *)
From Verif Require Import Base ModelBound ModelRanges ModelSets ModelStep ModelIter.
Open Scope Z_scope.

(** How a call on [&mut self] ends: it returns, it unwinds (leaving the given
    state), or it does not end. *)
Inductive landing (A S : Type) : Type := Back (a : A) (s : S) | Unwound (s : S) | Gone.
Arguments Back {A S}. Arguments Unwound {A S}. Arguments Gone {A S}.

(** Evaluating [x] while the state is [s]. *)
Definition attempt {A B S : Type} (s : S) (x : outcome A) (k : A -> landing B S) : landing B S :=
  match x with Ret a => k a | Panic => Unwound s | Diverge => Gone end.
(** One after the other. *)
Definition after {A B S : Type} (x : landing A S) (k : A -> S -> landing B S) : landing B S :=
  match x with Back a s => k a s | Unwound s => Unwound s | Gone => Gone end.
(** A call on a part of the state. *)
Definition within_part {A S S' : Type} (c : S -> S') (x : landing A S) : landing A S' :=
  match x with Back a s => Back a (c s) | Unwound s => Unwound (c s) | Gone => Gone end.
(** What is seen if the panic is not caught. *)
Definition uncaught {A S : Type} (x : landing A S) : outcome (A * S) :=
  match x with Back a s => Ret (a, s) | Unwound _ => Panic | Gone => Diverge end.

Section Unwind.
Context {T : Type} {PF : Platform} {OT : Ord T} {ST : Step T}.

(** src/bounded_range.rs:178-186. *)
Definition bri_next_u (m : mode) (it : BoundedRangeIter T) : landing (option T) (BoundedRangeIter T) :=
  if t_gt (bri_current it) (bri_last_field it) then Back None it
  else
    let t := bri_current it in
    attempt it (forward m (bri_current it) 1) (fun current =>
    Back (Some t) (BRI current (bri_last_field it))).
(** src/bounded_range.rs:210-213: [self.current] is stored before [next] is called. *)
Definition bri_nth_u (m : mode) (it : BoundedRangeIter T) (n : Z) : landing (option T) (BoundedRangeIter T) :=
  attempt it (forward m (bri_current it) n) (fun current =>
  bri_next_u m (BRI current (bri_last_field it))).
(** src/bounded_range.rs:228-236. *)
Definition bri_next_back_u (m : mode) (it : BoundedRangeIter T) : landing (option T) (BoundedRangeIter T) :=
  if t_gt (bri_current it) (bri_last_field it) then Back None it
  else
    let t := bri_last_field it in
    attempt it (backward m (bri_last_field it) 1) (fun last =>
    Back (Some t) (BRI (bri_current it) last)).
(** src/bounded_range.rs:238-241. *)
Definition bri_nth_back_u (m : mode) (it : BoundedRangeIter T) (n : Z) : landing (option T) (BoundedRangeIter T) :=
  attempt it (backward m (bri_last_field it) n) (fun last =>
  bri_next_back_u m (BRI (bri_current it) last)).

(** The loops at src/bounded_set.rs:124-131 (188-195 on the reversed list): the
    iterators dropped before a panic of [len] stay dropped. *)
Fixpoint trim_u (m : mode) (its : list (BoundedRangeIter T)) : landing unit (list (BoundedRangeIter T)) :=
  match its with
  | [] => Back tt []
  | i :: its' => attempt its (bri_len m i) (fun len => if len =? 0 then trim_u m its' else Back tt its)
  end.
(** The loop at src/bounded_set.rs:163-170 (200-207). *)
Fixpoint skip_u (m : mode) (its : list (BoundedRangeIter T)) (n : Z) : landing Z (list (BoundedRangeIter T)) :=
  match its with
  | [] => Back n []
  | i :: its' => attempt its (bri_len m i) (fun len => if len <=? n then skip_u m its' (n - len) else Back n its)
  end.
(** [front_mut().map(|i| f(i)).flatten()]: [f] works on the piece in its place. *)
Definition on_front_u (f : BoundedRangeIter T -> landing (option T) (BoundedRangeIter T))
  (its : list (BoundedRangeIter T)) : landing (option T) (list (BoundedRangeIter T)) :=
  match its with
  | [] => Back None []
  | i :: its' => within_part (fun i' => i' :: its') (f i)
  end.

(** src/bounded_set.rs:123-133. *)
Definition bsi_next_u (m : mode) (it : BoundedSetIter T) : landing (option T) (BoundedSetIter T) :=
  within_part BSI (after (trim_u m (bsi_range_iters it)) (fun _ its => on_front_u (bri_next_u m) its)).
(** src/bounded_set.rs:162-172. *)
Definition bsi_nth_u (m : mode) (it : BoundedSetIter T) (n : Z) : landing (option T) (BoundedSetIter T) :=
  within_part BSI (after (skip_u m (bsi_range_iters it) n) (fun n its => on_front_u (fun i => bri_nth_u m i n) its)).
(** src/bounded_set.rs:187-197. *)
Definition bsi_next_back_u (m : mode) (it : BoundedSetIter T) : landing (option T) (BoundedSetIter T) :=
  within_part (fun its => BSI (rev its))
    (after (trim_u m (rev (bsi_range_iters it))) (fun _ its => on_front_u (bri_next_back_u m) its)).
(** src/bounded_set.rs:199-209. *)
Definition bsi_nth_back_u (m : mode) (it : BoundedSetIter T) (n : Z) : landing (option T) (BoundedSetIter T) :=
  within_part (fun its => BSI (rev its))
    (after (skip_u m (rev (bsi_range_iters it)) n) (fun n its => on_front_u (fun i => bri_nth_back_u m i n) its)).

(** src/lower_bounded_range.rs:115-119. *)
Definition lbri_next_u (m : mode) (it : LowerBoundedRangeIter T) : landing (option T) (LowerBoundedRangeIter T) :=
  let t := lbri_current it in
  attempt it (forward m (lbri_current it) 1) (fun current => Back (Some t) (LBRI current)).
(** src/lower_bounded_range.rs:125-128. *)
Definition lbri_nth_u (m : mode) (it : LowerBoundedRangeIter T) (n : Z) : landing (option T) (LowerBoundedRangeIter T) :=
  attempt it (forward m (lbri_current it) n) (fun current => lbri_next_u m (LBRI current)).
(** src/lower_bounded_set.rs:121-123. *)
Definition lbsi_next_u (m : mode) (it : LowerBoundedSetIter T) : landing (option T) (LowerBoundedSetIter T) :=
  after (within_part (fun s => LBSI s (lbsi_range_iter it)) (bsi_next_u m (lbsi_set_iter it))) (fun o it =>
  match o with
  | Some t => Back (Some t) it
  | None => within_part (LBSI (lbsi_set_iter it)) (lbri_next_u m (lbsi_range_iter it))
  end).
(** src/lower_bounded_set.rs:129-134. *)
Definition lbsi_nth_u (m : mode) (it : LowerBoundedSetIter T) (n : Z) : landing (option T) (LowerBoundedSetIter T) :=
  attempt it (bsi_len m (lbsi_set_iter it)) (fun bounded_size =>
  after (within_part (fun s => LBSI s (lbsi_range_iter it)) (bsi_nth_u m (lbsi_set_iter it) n)) (fun o it =>
  match o with
  | Some t => Back (Some t) it
  | None =>
    attempt it (usize_sub m n bounded_size) (fun k =>
    within_part (LBSI (lbsi_set_iter it)) (lbri_nth_u m (lbsi_range_iter it) k))
  end)).

(** Calls, as in ModelIter.v; [len] takes [&self]. *)
Definition item_u {S : Type} (x : landing (option T) S) : landing (reply T) S :=
  after x (fun o s => Back (Item o) s).
Definition bri_call_u (m : mode) (it : BoundedRangeIter T) (c : call) : landing (reply T) (BoundedRangeIter T) :=
  match c with
  | Next => item_u (bri_next_u m it)
  | NextBack => item_u (bri_next_back_u m it)
  | Nth n => item_u (bri_nth_u m it n)
  | NthBack n => item_u (bri_nth_back_u m it n)
  | Len => attempt it (bri_len m it) (fun n => Back (Count n) it)
  end.
Definition bsi_call_u (m : mode) (it : BoundedSetIter T) (c : call) : landing (reply T) (BoundedSetIter T) :=
  match c with
  | Next => item_u (bsi_next_u m it)
  | NextBack => item_u (bsi_next_back_u m it)
  | Nth n => item_u (bsi_nth_u m it n)
  | NthBack n => item_u (bsi_nth_back_u m it n)
  | Len => attempt it (bsi_len m it) (fun n => Back (Count n) it)
  end.
Definition lbri_call_u (m : mode) (it : LowerBoundedRangeIter T) (c : up_call)
  : landing (option T) (LowerBoundedRangeIter T) :=
  match c with UpNext => lbri_next_u m it | UpNth n => lbri_nth_u m it n end.
Definition lbsi_call_u (m : mode) (it : LowerBoundedSetIter T) (c : up_call)
  : landing (option T) (LowerBoundedSetIter T) :=
  match c with UpNext => lbsi_next_u m it | UpNth n => lbsi_nth_u m it n end.
End Unwind.

(** The calls [cs] one after the other, each panic caught and the calls going on:
    the replies ([None]: it panicked) and the final state. *)
Fixpoint run_caught {S C R : Type} (step : S -> C -> landing R S) (s : S) (cs : list C) : outcome (list (option R) * S) :=
  match cs with
  | [] => Ret ([], s)
  | c :: cs' =>
    match step s c with
    | Back r s' => q <- run_caught step s' cs' ;; Ret (Some r :: fst q, snd q)
    | Unwound s' => q <- run_caught step s' cs' ;; Ret (None :: fst q, snd q)
    | Gone => Diverge
    end
  end.
