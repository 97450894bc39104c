(** The searching methods std provides on every iterator
    (library/core/src/iter/traits/{iterator,double_ended,exact_size}.rs, outside
    /repo), as they run on the crate's iterators: all are [try_fold] over [next]
    (src/bounded_range.rs:178-186, src/bounded_set.rs:123-133,
    src/lower_bounded_range.rs:115-119, src/lower_bounded_set.rs:121-123) or
    [try_rfold] over [next_back] (src/bounded_range.rs:228-236,
    src/bounded_set.rs:187-197); the crate overrides none of them. *)
From Verif Require Import Base ModelBound ModelRanges ModelSets ModelValue ModelStep ModelIter.
Open Scope Z_scope.

(** [Iterator::try_fold] ([DoubleEndedIterator::try_rfold] over [next_back]): the
    closure says [inl b] to continue with [b], [inr r] to stop with [r].  A relation, as
    [drains]: if the loop runs forever no outcome is related. *)
Inductive try_folds {S A B R : Type} (next : S -> outcome (option A * S)) (f : B -> A -> outcome (B + R))
  : B -> S -> outcome ((B + R) * S) -> Prop :=
| tf_done b s s' : next s = Ret (None, s') -> try_folds next f b s (Ret (inl b, s'))
| tf_break b s s' a r : next s = Ret (Some a, s') -> f b a = Ret (inr r) -> try_folds next f b s (Ret (inr r, s'))
| tf_continue b s s' a b' o : next s = Ret (Some a, s') -> f b a = Ret (inl b') ->
    try_folds next f b' s' o -> try_folds next f b s o
| tf_panic b s : next s = Panic -> try_folds next f b s Panic
| tf_closure b s s' a : next s = Ret (Some a, s') -> f b a = Panic -> try_folds next f b s Panic.

(** [ControlFlow::break_value]. *)
Definition break_value {B R : Type} (x : B + R) : option R := match x with inl _ => None | inr r => Some r end.
(** [== ControlFlow::Break(())], [== ControlFlow::Continue(())]. *)
Definition is_break {B R : Type} (x : B + R) : bool := match x with inl _ => false | inr _ => true end.
Definition is_continue {B R : Type} (x : B + R) : bool := match x with inl _ => true | inr _ => false end.

Section Search.
Context {S A : Type}.
Variable next : S -> outcome (option A * S).

(** [find] ([rfind]): [try_fold((), |(), x| if predicate(&x) { Break(x) } else { Continue(()) })]. *)
Definition finds (p : A -> bool) (s : S) (o : outcome (option A * S)) : Prop :=
  exists x, try_folds next (fun (_ : unit) a => Ret (if p a then inr a else inl tt)) tt s x /\
    o = (q <- x ;; Ret (break_value (fst q), snd q)).
(** [find_map]. *)
Definition finds_map {B : Type} (g : A -> option B) (s : S) (o : outcome (option B * S)) : Prop :=
  exists x, try_folds next (fun (_ : unit) a => Ret (match g a with Some b => inr b | None => inl tt end)) tt s x /\
    o = (q <- x ;; Ret (break_value (fst q), snd q)).
(** [any], [all]. *)
Definition anys (p : A -> bool) (s : S) (o : outcome (bool * S)) : Prop :=
  exists x, try_folds next (fun (_ : unit) a => Ret (if p a then inr tt else inl tt)) tt s x /\
    o = (q <- x ;; Ret (is_break (fst q), snd q)).
Definition alls (p : A -> bool) (s : S) (o : outcome (bool * S)) : Prop :=
  exists x, try_folds next (fun (_ : unit) a => Ret (if p a then inl tt else inr tt)) tt s x /\
    o = (q <- x ;; Ret (is_continue (fst q), snd q)).
(** [position]; the count inherits the overflow checks of the caller. *)
Definition positions_of {PF : Platform} (m : mode) (p : A -> bool) (s : S) (o : outcome (option Z * S)) : Prop :=
  exists x, try_folds next (fun i a => if p a then Ret (inr i) else j <- usize_add m i 1 ;; Ret (inl j)) 0 s x /\
    o = (q <- x ;; Ret (break_value (fst q), snd q)).
End Search.

(** [rposition], over [next_back] and [len]; its subtraction is compiled without overflow checks. *)
Definition rpositions {PF : Platform} {S A : Type} (next_back : S -> outcome (option A * S)) (len : S -> outcome Z)
  (p : A -> bool) (s : S) (o : outcome (option Z * S)) : Prop :=
  match len s with
  | Ret n =>
    exists x, try_folds next_back (fun i a => j <- usize_sub Release i 1 ;; Ret (if p a then inr j else inl j)) n s x /\
      o = (q <- x ;; Ret (break_value (fst q), snd q))
  | Panic => o = Panic
  | Diverge => o = Diverge
  end.

(** [cmp] ([iter_compare]); [eq] asks whether the answer is [Equal], comparing elements by [==]. *)
Inductive compares {S1 S2 A B : Type} (next1 : S1 -> outcome (option A * S1)) (next2 : S2 -> outcome (option B * S2))
  (f : A -> B -> comparison) : S1 -> S2 -> outcome comparison -> Prop :=
| co_panic1 s1 s2 : next1 s1 = Panic -> compares next1 next2 f s1 s2 Panic
| co_panic2 s1 s2 o s1' : next1 s1 = Ret (o, s1') -> next2 s2 = Panic -> compares next1 next2 f s1 s2 Panic
| co_both s1 s2 s1' s2' : next1 s1 = Ret (None, s1') -> next2 s2 = Ret (None, s2') -> compares next1 next2 f s1 s2 (Ret Eq)
| co_first s1 s2 s1' s2' b : next1 s1 = Ret (None, s1') -> next2 s2 = Ret (Some b, s2') -> compares next1 next2 f s1 s2 (Ret Lt)
| co_second s1 s2 s1' s2' a : next1 s1 = Ret (Some a, s1') -> next2 s2 = Ret (None, s2') -> compares next1 next2 f s1 s2 (Ret Gt)
| co_decided s1 s2 s1' s2' a b : next1 s1 = Ret (Some a, s1') -> next2 s2 = Ret (Some b, s2') -> f a b <> Eq ->
    compares next1 next2 f s1 s2 (Ret (f a b))
| co_more s1 s2 s1' s2' a b o : next1 s1 = Ret (Some a, s1') -> next2 s2 = Ret (Some b, s2') -> f a b = Eq ->
    compares next1 next2 f s1' s2' o -> compares next1 next2 f s1 s2 o.

Section Any.
Context {T : Type} {PF : Platform} {OT : Ord T} {ST : Step T}.

(** The iterators of the crate's types that have one; [NoneLeft] is [std::iter::Empty]
    (src/empty_range.rs:44-50). *)
Inductive any_iter : Type :=
| NoneLeft
| OfRange (it : BoundedRangeIter T)
| OfSet (it : BoundedSetIter T)
| OfLower (it : LowerBoundedRangeIter T)
| OfLowerSet (it : LowerBoundedSetIter T).

(** [IntoIterator::into_iter]; [None] for the types of the crate that have none
    (std's ranges have std's iterators, ModelStdIter.v). *)
Definition v_into_iter (m : mode) (v : value T) : option (outcome any_iter) :=
  match v with
  | VEmpty _ => Some (Ret NoneLeft)
  | VBR r => Some (it <- br_into_iter m r ;; Ret (OfRange it))
  | VBS s => Some (it <- bs_into_iter m s ;; Ret (OfSet it))
  | VLBR r => Some (it <- lbr_into_iter m r ;; Ret (OfLower it))
  | VLBS s => Some (it <- lbs_into_iter m s ;; Ret (OfLowerSet it))
  | _ => None
  end.
Definition with_state {S : Type} (c : S -> any_iter) (x : outcome (option T * S)) : outcome (option T * any_iter) :=
  p <- x ;; Ret (fst p, c (snd p)).
Definition ai_next (m : mode) (i : any_iter) : outcome (option T * any_iter) :=
  match i with
  | NoneLeft => Ret (None, NoneLeft)
  | OfRange it => with_state OfRange (bri_next m it)
  | OfSet it => with_state OfSet (bsi_next m it)
  | OfLower it => with_state OfLower (lbri_next m it)
  | OfLowerSet it => with_state OfLowerSet (lbsi_next m it)
  end.
(** The lower-bounded iterators have no [next_back] and no [len]; a panic stands for them. *)
Definition ai_next_back (m : mode) (i : any_iter) : outcome (option T * any_iter) :=
  match i with
  | NoneLeft => Ret (None, NoneLeft)
  | OfRange it => with_state OfRange (bri_next_back m it)
  | OfSet it => with_state OfSet (bsi_next_back m it)
  | _ => Panic
  end.
Definition ai_len (m : mode) (i : any_iter) : outcome Z :=
  match i with
  | NoneLeft => Ret 0
  | OfRange it => bri_len m it
  | OfSet it => bsi_len m it
  | _ => Panic
  end.
End Any.
Arguments any_iter : clear implicits.
