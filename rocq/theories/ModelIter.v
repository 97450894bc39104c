(** Model of the iterators: src/bounded_range.rs:85-102, 166-245,
    src/bounded_set.rs:32-43, 112-213, src/lower_bounded_range.rs:45-59,
    104-139, src/lower_bounded_set.rs:34-46, 109-141,
    src/empty_range.rs:44-50.

    A method taking [&mut self] returns its result together with the new state.
    Every definition takes the build mode [m]; [usize] counts are [Z]. *)
From Verif Require Import Base ModelBound ModelRanges ModelSets ModelStep.
Open Scope Z_scope.

(** src/bounded_range.rs:166-170. *)
Record BoundedRangeIter (T : Type) : Type := BRI { bri_current : T; bri_last_field : T }.
Arguments BRI {T}. Arguments bri_current {T}. Arguments bri_last_field {T}.
(** src/bounded_set.rs:112-115. *)
Record BoundedSetIter (T : Type) : Type := BSI { bsi_range_iters : list (BoundedRangeIter T) }.
Arguments BSI {T}. Arguments bsi_range_iters {T}.
(** src/lower_bounded_range.rs:104-107. *)
Record LowerBoundedRangeIter (T : Type) : Type := LBRI { lbri_current : T }.
Arguments LBRI {T}. Arguments lbri_current {T}.
(** src/lower_bounded_set.rs:109-113. *)
Record LowerBoundedSetIter (T : Type) : Type :=
  LBSI { lbsi_set_iter : BoundedSetIter T; lbsi_range_iter : LowerBoundedRangeIter T }.
Arguments LBSI {T}. Arguments lbsi_set_iter {T}. Arguments lbsi_range_iter {T}.

(** [ExactSizeIterator::len] (std, provided): asserts that the hint is exact. *)
Definition exact_len (hint : Z * option Z) : outcome Z :=
  match snd hint with
  | Some upper => if upper =? fst hint then Ret (fst hint) else Panic
  | None => Panic
  end.

(** A loop calling [next] until it returns [None], as [for] and the consuming
    methods std provides ([last], [fold]) do; for [collect], which also asks for
    [size_hint], see ModelCollect.v.  A relation rather than a
    function: [drains next s (Ret l)] the loop ends having seen [l];
    [drains next s Panic] it panics; if it runs forever no outcome is related. *)
Inductive drains {A S : Type} (next : S -> outcome (option A * S)) : S -> outcome (list A) -> Prop :=
| drains_done s s' : next s = Ret (None, s') -> drains next s (Ret [])
| drains_item s s' x o : next s = Ret (Some x, s') -> drains next s' o ->
    drains next s (l <- o ;; Ret (x :: l))
| drains_panic s : next s = Panic -> drains next s Panic.

Section Iter.
Context {T : Type} {PF : Platform} {OT : Ord T} {ST : Step T}.

(** ** BoundedRangeIter *)

(** src/bounded_range.rs:91-101. *)
Definition br_into_iter (m : mode) (r : BoundedRange T) : outcome (BoundedRangeIter T) :=
  current <- match br_start r with
             | LB (Excluded t) => forward m t 1
             | LB (Included t) => Ret t
             end ;;
  last <- match br_end r with
          | UB (Excluded t) => backward m t 1
          | UB (Included t) => Ret t
          end ;;
  Ret (BRI current last).

(** src/bounded_range.rs:178-186. *)
Definition bri_next (m : mode) (it : BoundedRangeIter T) : outcome (option T * BoundedRangeIter T) :=
  if t_gt (bri_current it) (bri_last_field it) then Ret (None, it)
  else
    let t := bri_current it in
    current <- forward m (bri_current it) 1 ;;
    Ret (Some t, BRI current (bri_last_field it)).

(** src/bounded_range.rs:188-193. *)
Definition bri_size_hint (m : mode) (it : BoundedRangeIter T) : outcome (Z * option Z) :=
  size <- match steps_between (bri_current it) (bri_last_field it) with
          | Some steps => usize_add m steps 1
          | None => Ret 0
          end ;;
  Ret (size, Some size).
Definition bri_len (m : mode) (it : BoundedRangeIter T) : outcome Z :=
  h <- bri_size_hint m it ;; exact_len h.

(** src/bounded_range.rs:195-197. *)
Definition bri_count (m : mode) (it : BoundedRangeIter T) : outcome Z := bri_len m it.

(** src/bounded_range.rs:199-208. *)
Definition bri_last (it : BoundedRangeIter T) : option T :=
  if t_gt (bri_current it) (bri_last_field it) then None else Some (bri_last_field it).

(** src/bounded_range.rs:210-213. *)
Definition bri_nth (m : mode) (it : BoundedRangeIter T) (n : Z) : outcome (option T * BoundedRangeIter T) :=
  current <- forward m (bri_current it) n ;;
  bri_next m (BRI current (bri_last_field it)).

(** src/bounded_range.rs:228-236. *)
Definition bri_next_back (m : mode) (it : BoundedRangeIter T) : outcome (option T * BoundedRangeIter T) :=
  if t_gt (bri_current it) (bri_last_field it) then Ret (None, it)
  else
    let t := bri_last_field it in
    last <- backward m (bri_last_field it) 1 ;;
    Ret (Some t, BRI (bri_current it) last).

(** src/bounded_range.rs:238-241. *)
Definition bri_nth_back (m : mode) (it : BoundedRangeIter T) (n : Z) : outcome (option T * BoundedRangeIter T) :=
  last <- backward m (bri_last_field it) n ;;
  bri_next_back m (BRI (bri_current it) last).

(** src/bounded_range.rs:215-221. *)
Definition bri_min (m : mode) (it : BoundedRangeIter T) : outcome (option T) :=
  p <- bri_next m it ;; Ret (fst p).
Definition bri_max (m : mode) (it : BoundedRangeIter T) : outcome (option T) :=
  p <- bri_next_back m it ;; Ret (fst p).

(** ** BoundedSetIter *)

(** src/bounded_set.rs:38-42. *)
Definition bs_into_iter (m : mode) (s : BoundedSet T) : outcome (BoundedSetIter T) :=
  its <- mapM (br_into_iter m) (bs_ranges s) ;; Ret (BSI its).

(** The loops at src/bounded_set.rs:124-131 (and, on the reversed list,
    151-158, 188-195): drop iterators from the end at hand while their [len] is 0. *)
Fixpoint trim (m : mode) (its : list (BoundedRangeIter T)) : outcome (list (BoundedRangeIter T)) :=
  match its with
  | [] => Ret []
  | i :: its' => len <- bri_len m i ;; if len =? 0 then trim m its' else Ret its
  end.

(** The loop at src/bounded_set.rs:163-170 (and, on the reversed list, 200-207).
    [n -= len] is guarded by [len <= n], so it cannot overflow. *)
Fixpoint skip (m : mode) (its : list (BoundedRangeIter T)) (n : Z) : outcome (list (BoundedRangeIter T) * Z) :=
  match its with
  | [] => Ret ([], n)
  | i :: its' => len <- bri_len m i ;; if len <=? n then skip m its' (n - len) else Ret (its, n)
  end.

(** [front_mut().map(|i| f(i)).flatten()] (and [back_mut] on the reversed list). *)
Definition on_front (f : BoundedRangeIter T -> outcome (option T * BoundedRangeIter T))
  (its : list (BoundedRangeIter T)) : outcome (option T * list (BoundedRangeIter T)) :=
  match its with
  | [] => Ret (None, [])
  | i :: its' => p <- f i ;; Ret (fst p, snd p :: its')
  end.

(** src/bounded_set.rs:123-133. *)
Definition bsi_next (m : mode) (it : BoundedSetIter T) : outcome (option T * BoundedSetIter T) :=
  its <- trim m (bsi_range_iters it) ;;
  p <- on_front (bri_next m) its ;;
  Ret (fst p, BSI (snd p)).

(** [sum] of [usize] (std), starting from 0. *)
Fixpoint sum_lens (m : mode) (its : list (BoundedRangeIter T)) (acc : Z) : outcome Z :=
  match its with
  | [] => Ret acc
  | i :: its' => len <- bri_len m i ;; acc' <- usize_add m acc len ;; sum_lens m its' acc'
  end.
(** src/bounded_set.rs:135-138. *)
Definition bsi_size_hint (m : mode) (it : BoundedSetIter T) : outcome (Z * option Z) :=
  size <- sum_lens m (bsi_range_iters it) 0 ;; Ret (size, Some size).
Definition bsi_len (m : mode) (it : BoundedSetIter T) : outcome Z :=
  h <- bsi_size_hint m it ;; exact_len h.
(** src/bounded_set.rs:140-145. *)
Definition bsi_count (m : mode) (it : BoundedSetIter T) : outcome Z := bsi_len m it.

(** src/bounded_set.rs:162-172. *)
Definition bsi_nth (m : mode) (it : BoundedSetIter T) (n : Z) : outcome (option T * BoundedSetIter T) :=
  q <- skip m (bsi_range_iters it) n ;;
  p <- on_front (fun i => bri_nth m i (snd q)) (fst q) ;;
  Ret (fst p, BSI (snd p)).

(** src/bounded_set.rs:187-197. *)
Definition bsi_next_back (m : mode) (it : BoundedSetIter T) : outcome (option T * BoundedSetIter T) :=
  its <- trim m (rev (bsi_range_iters it)) ;;
  p <- on_front (bri_next_back m) its ;;
  Ret (fst p, BSI (rev (snd p))).

(** src/bounded_set.rs:199-209. *)
Definition bsi_nth_back (m : mode) (it : BoundedSetIter T) (n : Z) : outcome (option T * BoundedSetIter T) :=
  q <- skip m (rev (bsi_range_iters it)) n ;;
  p <- on_front (fun i => bri_nth_back m i (snd q)) (fst q) ;;
  Ret (fst p, BSI (rev (snd p))).

(** src/bounded_set.rs:147-160.  [i.last()] on [i: &mut BoundedRangeIter]
    resolves to the provided [last] of [&mut I], which calls [next] to the end
    (not the overriding method at src/bounded_range.rs:199). *)
Definition bsi_last (m : mode) (it : BoundedSetIter T) (o : outcome (option T)) : Prop :=
  match trim m (rev (bsi_range_iters it)) with
  | Ret [] => o = Ret None
  | Ret (i :: _) =>
    exists d, drains (bri_next m) i d /\ o = (l <- d ;; Ret (vd_back l))
  | Panic => o = Panic
  | Diverge => o = Diverge
  end.

(** src/bounded_set.rs:174-180. *)
Definition bsi_min (m : mode) (it : BoundedSetIter T) : outcome (option T) :=
  p <- bsi_next m it ;; Ret (fst p).
Definition bsi_max (m : mode) (it : BoundedSetIter T) : outcome (option T) :=
  p <- bsi_next_back m it ;; Ret (fst p).

(** ** LowerBoundedRangeIter *)

(** src/lower_bounded_range.rs:51-58. *)
Definition lbr_into_iter (m : mode) (r : LowerBoundedRange T) : outcome (LowerBoundedRangeIter T) :=
  current <- match lbr_start r with
             | LB (Excluded t) => forward m t 1
             | LB (Included t) => Ret t
             end ;;
  Ret (LBRI current).
(** src/lower_bounded_range.rs:115-119. *)
Definition lbri_next (m : mode) (it : LowerBoundedRangeIter T) : outcome (option T * LowerBoundedRangeIter T) :=
  let t := lbri_current it in
  current <- forward m (lbri_current it) 1 ;;
  Ret (Some t, LBRI current).
(** src/lower_bounded_range.rs:121-123. *)
Definition lbri_size_hint (it : LowerBoundedRangeIter T) : Z * option Z := (usize_max, None).
(** src/lower_bounded_range.rs:125-128. *)
Definition lbri_nth (m : mode) (it : LowerBoundedRangeIter T) (n : Z) : outcome (option T * LowerBoundedRangeIter T) :=
  current <- forward m (lbri_current it) n ;;
  lbri_next m (LBRI current).
(** src/lower_bounded_range.rs:130-135. *)
Definition lbri_min (m : mode) (it : LowerBoundedRangeIter T) : outcome (option T) :=
  p <- lbri_next m it ;; Ret (fst p).

(** ** LowerBoundedSetIter *)

(** src/lower_bounded_set.rs:40-45. *)
Definition lbs_into_iter (m : mode) (s : LowerBoundedSet T) : outcome (LowerBoundedSetIter T) :=
  si <- bs_into_iter m (lbs_ranges s) ;;
  ri <- lbr_into_iter m (lbs_lbr s) ;;
  Ret (LBSI si ri).
(** src/lower_bounded_set.rs:121-123. *)
Definition lbsi_next (m : mode) (it : LowerBoundedSetIter T) : outcome (option T * LowerBoundedSetIter T) :=
  p <- bsi_next m (lbsi_set_iter it) ;;
  match fst p with
  | Some t => Ret (Some t, LBSI (snd p) (lbsi_range_iter it))
  | None =>
    q <- lbri_next m (lbsi_range_iter it) ;;
    Ret (fst q, LBSI (snd p) (snd q))
  end.
(** src/lower_bounded_set.rs:125-127. *)
Definition lbsi_size_hint (it : LowerBoundedSetIter T) : Z * option Z := (usize_max, None).
(** src/lower_bounded_set.rs:129-134. *)
Definition lbsi_nth (m : mode) (it : LowerBoundedSetIter T) (n : Z) : outcome (option T * LowerBoundedSetIter T) :=
  bounded_size <- bsi_len m (lbsi_set_iter it) ;;
  p <- bsi_nth m (lbsi_set_iter it) n ;;
  match fst p with
  | Some t => Ret (Some t, LBSI (snd p) (lbsi_range_iter it))
  | None =>
    k <- usize_sub m n bounded_size ;;
    q <- lbri_nth m (lbsi_range_iter it) k ;;
    Ret (fst q, LBSI (snd p) (snd q))
  end.
(** src/lower_bounded_set.rs:136-138. *)
Definition lbsi_min (m : mode) (it : LowerBoundedSetIter T) : outcome (option T) :=
  p <- lbsi_next m it ;; Ret (fst p).

(** ** Histories of calls *)

Inductive call : Type := Next | NextBack | Nth (n : Z) | NthBack (n : Z) | Len.
Inductive reply : Type := Item (o : option T) | Count (n : Z).

Definition item {S : Type} (r : outcome (option T * S)) : outcome (reply * S) :=
  p <- r ;; Ret (Item (fst p), snd p).

Definition bri_call (m : mode) (it : BoundedRangeIter T) (c : call) : outcome (reply * BoundedRangeIter T) :=
  match c with
  | Next => item (bri_next m it)
  | NextBack => item (bri_next_back m it)
  | Nth n => item (bri_nth m it n)
  | NthBack n => item (bri_nth_back m it n)
  | Len => n <- bri_len m it ;; Ret (Count n, it)
  end.
Definition bsi_call (m : mode) (it : BoundedSetIter T) (c : call) : outcome (reply * BoundedSetIter T) :=
  match c with
  | Next => item (bsi_next m it)
  | NextBack => item (bsi_next_back m it)
  | Nth n => item (bsi_nth m it n)
  | NthBack n => item (bsi_nth_back m it n)
  | Len => n <- bsi_len m it ;; Ret (Count n, it)
  end.

(** The lower-bounded iterators have no back end and no [len]. *)
Inductive up_call : Type := UpNext | UpNth (n : Z).
Definition lbri_call (m : mode) (it : LowerBoundedRangeIter T) (c : up_call)
  : outcome (option T * LowerBoundedRangeIter T) :=
  match c with UpNext => lbri_next m it | UpNth n => lbri_nth m it n end.
Definition lbsi_call (m : mode) (it : LowerBoundedSetIter T) (c : up_call)
  : outcome (option T * LowerBoundedSetIter T) :=
  match c with UpNext => lbsi_next m it | UpNth n => lbsi_nth m it n end.

(** src/empty_range.rs:44-50: [std::iter::Empty]. *)
Definition empty_call (it : EmptyRange) (c : call) : reply * EmptyRange :=
  match c with Len => (Count 0, it) | _ => (Item None, it) end.

End Iter.
Arguments reply : clear implicits.

(** Making the calls [cs] one after the other: the replies and the final state. *)
Fixpoint run {S C R : Type} (step : S -> C -> outcome (R * S)) (s : S) (cs : list C) : outcome (list R * S) :=
  match cs with
  | [] => Ret ([], s)
  | c :: cs' =>
    p <- step s c ;;
    q <- run step (snd p) cs' ;;
    Ret (fst p :: fst q, snd q)
  end.
