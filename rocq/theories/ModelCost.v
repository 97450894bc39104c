(** How much work [BoundedSet::add_range] and [add_set] do: the model of ModelSets.v,
    counting how often the closures of the two searches through the pieces run.  Each run is a
    fixed number of comparisons of elements.  Simplified: the moving of pieces that [VecDeque::remove]
    and [insert] do (at most half of them each time) is not counted. *)
From Verif Require Import Base ModelBound ModelRanges ModelSets ModelAlgebra.

(** [Iterator::position], with the number of times the closure was called. *)
Fixpoint scan {A : Type} (f : A -> bool) (l : list A) : option nat * nat :=
  match l with
  | [] => (None, O)
  | x :: l' =>
    if f x then (Some O, 1)
    else let '(o, n) := scan f l' in (option_map S o, S n)
  end.

(** [tests]: calls of the closure of src/bounded_set.rs:66, [range.intersects(r)];
    [starts]: calls of the closure of src/bounded_set.rs:74, [range.start > r.start]. *)
Record work : Type := Work { tests : nat; starts : nat }.
Definition more (a b : work) : work := Work (tests a + tests b) (starts a + starts b).
Definition no_work : work := Work 0 0.

Section Cost.
Context {T : Type} {OT : Ord T}.

(** src/bounded_set.rs:64-79 [add_range]. *)
Fixpoint add_range_work (fuel : nat) (ranges : list (BoundedRange T)) (r : BoundedRange T)
  : outcome (list (BoundedRange T) * work) :=
  match fuel with
  | O => Diverge
  | S fuel' =>
    if negb (br_is_empty r) then
      let '(hit, n) := scan (fun range => br_intersects_br range r) ranges in
      match hit with
      | Some index =>
        found <- vd_index ranges index ;;
        new_range <- br_combine r found ;;
        x <- add_range_work fuel' (snd (vd_remove ranges index)) new_range ;;
        Ret (fst x, more (Work n 0) (snd x))
      | None =>
        let '(place, k) := scan (fun range => lb_gt (br_start range) (br_start r)) ranges in
        l <- vd_insert ranges (match place with Some i => i | None => length ranges end) r ;;
        Ret (l, Work n k)
      end
    else Ret (ranges, no_work)
  end.
Definition bs_add_range_work (self : BoundedSet T) (r : BoundedRange T) : outcome (BoundedSet T * work) :=
  x <- add_range_work (S (length (bs_ranges self))) (bs_ranges self) r ;;
  Ret (BS (fst x), snd x).

(** src/bounded_set.rs:80-84 [add_set]. *)
Definition bs_add_set_work (self other : BoundedSet T) : outcome (BoundedSet T * work) :=
  foldM (fun s r => x <- bs_add_range_work (fst s) r ;; Ret (fst x, more (snd s) (snd x))) (bs_ranges other) (self, no_work).

(** src/implementations/intersection/bounded_set.rs:7-36, and the number of pairs of ranges intersected: each piece of
    [self] with each of [other]. *)
Definition bs_inter_bs_work (self other : BoundedSet T) : outcome (BoundedSet T * work * nat) :=
  foldM (fun s range =>
    x <- foldM (fun s r => x <- bs_add_range_work (fst s) r ;; Ret (fst x, more (snd s) (snd x)))
           (bs_ranges (br_inter_bs range other)) (fst s) ;;
    Ret (x, snd s + length (bs_ranges other))) (bs_ranges self) (BS [], no_work, O).
End Cost.
