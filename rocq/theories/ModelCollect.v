(** [Iterator::collect] into a [Vec], and its preallocation.  The code is std's
    (alloc::vec::spec_from_iter_nested, alloc::raw_vec), as none of the crate's
    iterators is [TrustedLen]; what it calls is the crate's: [next] and
    [size_hint] (src/bounded_range.rs:178-193, src/bounded_set.rs:123-138,
    src/lower_bounded_range.rs:115-123, src/lower_bounded_set.rs:121-127).

    Simplified: the allocator grants every request std lets through, so the only
    failure left is std's own "capacity overflow" panic. *)
From Verif Require Import Base ModelStep ModelIter ModelAdapt.
Open Scope Z_scope.

Section Collect.
Context {PF : Platform} {A S : Type}.
Variable next : S -> outcome (option A * S).
Variable hint : S -> outcome (Z * option Z).
(** [size_of::<T>()]; none of the element types considered has size 0. *)
Variable sz : Z.

Definition isize_max : Z := 2 ^ (usize_bits - 1) - 1.
Definition saturating_inc (n : Z) : Z := Z.min (n + 1) usize_max.
(** [RawVec::MIN_NON_ZERO_CAP]. *)
Definition min_cap : Z := if sz =? 1 then 8 else if sz <=? 1024 then 4 else 1.
(** [Layout::array]: no allocation is longer than [isize::MAX] bytes. *)
Definition alloc (cap : Z) : outcome Z := if cap * sz <=? isize_max then Ret cap else Panic.
(** [RawVec::reserve] at [len == cap], through [grow_amortized]. *)
Definition reserve (len cap additional : Z) : outcome Z :=
  let required := len + additional in
  if required <=? usize_max then alloc (Z.max min_cap (Z.max (cap * 2) required)) else Panic.
(** What happens to the capacity before pushing one more element:
    [if len == self.capacity() { self.reserve(lower.saturating_add(1)) }]. *)
Definition room (len cap : Z) (s : S) : outcome Z :=
  if len =? cap then h <- hint s ;; reserve len cap (saturating_inc (fst h)) else Ret cap.

(** [Vec::extend_desugared]: the loop, from a vector of length [len] and
    capacity [cap]. *)
Inductive extends : Z -> Z -> S -> outcome (list A) -> Prop :=
| extends_done len cap s s' : next s = Ret (None, s') -> extends len cap s (Ret [])
| extends_panic len cap s : next s = Panic -> extends len cap s Panic
| extends_full len cap s s' x : next s = Ret (Some x, s') -> room len cap s' = Panic -> extends len cap s Panic
| extends_item len cap cap' s s' x o :
    next s = Ret (Some x, s') -> room len cap s' = Ret cap' -> extends (len + 1) cap' s' o ->
    extends len cap s (l <- o ;; Ret (x :: l)).

(** [SpecFromIterNested::from_iter]: the first element, then a vector of the
    capacity hinted at, then the loop. *)
Definition first_cap (s : S) : outcome Z :=
  h <- hint s ;; alloc (Z.max min_cap (saturating_inc (fst h))).
Inductive collects : S -> outcome (list A) -> Prop :=
| collects_empty s s' : next s = Ret (None, s') -> collects s (Ret [])
| collects_panic s : next s = Panic -> collects s Panic
| collects_full s s' x : next s = Ret (Some x, s') -> first_cap s' = Panic -> collects s Panic
| collects_item s s' x cap o :
    next s = Ret (Some x, s') -> first_cap s' = Ret cap -> extends 1 cap s' o ->
    collects s (l <- o ;; Ret (x :: l)).
End Collect.

(** [Take::size_hint] (core::iter). *)
Definition tk_size_hint {S : Type} (hint : S -> outcome (Z * option Z)) (s : Take S) : outcome (Z * option Z) :=
  if tk_n s =? 0 then Ret (0, Some 0)
  else h <- hint (tk_iter s) ;;
       Ret (Z.min (fst h) (tk_n s),
            match snd h with Some u => if u <? tk_n s then Some u else Some (tk_n s) | None => Some (tk_n s) end).

(** [Skip::size_hint] (core::iter). *)
Definition sk_size_hint {S : Type} (hint : S -> outcome (Z * option Z)) (s : Skip S) : outcome (Z * option Z) :=
  h <- hint (sk_iter s) ;;
  Ret (Z.max 0 (fst h - sk_n s), option_map (fun u => Z.max 0 (u - sk_n s)) (snd h)).
(** [StepBy::size_hint] (core::iter). *)
Definition sb_size_hint {S : Type} (hint : S -> outcome (Z * option Z)) (s : StepBy S) : outcome (Z * option Z) :=
  let step := sb_step_minus_one s + 1 in
  let f n := if sb_first_take s then if n =? 0 then 0 else 1 + (n - 1) / step else n / step in
  h <- hint (sb_iter s) ;; Ret (f (fst h), option_map f (snd h)).
