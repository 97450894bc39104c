(** The lazy adaptors of std that the crate's iterators meet most often.  None
    of them is in /repo; what they call is: [StepBy] and [Skip] go through the
    [nth] and [nth_back] the crate overrides (src/bounded_range.rs:210-213 and
    238-241, src/bounded_set.rs:162-172 and 199-209, src/lower_bounded_range.rs:125-128,
    src/lower_bounded_set.rs:129-134), [Take] goes through [next].  [Rev] only
    exchanges [next]/[next_back] and [nth]/[nth_back] and needs no definition. *)
From Verif Require Import Base ModelIter.
Open Scope Z_scope.

Section Adapt.
Context {A S : Type}.

(** core::iter::StepBy, [iter.step_by(step)]. *)
Record StepBy : Type := SB { sb_iter : S; sb_step_minus_one : Z; sb_first_take : bool }.
(** [StepBy::new]: [assert!(step != 0)]. *)
Definition sb_new (it : S) (step : Z) : outcome StepBy :=
  if step =? 0 then Panic else Ret (SB it (step - 1) true).
(** [StepBy::next]: [nth(0)] the first time, then [nth(step - 1)]. *)
Definition sb_next (nth : S -> Z -> outcome (option A * S)) (s : StepBy) : outcome (option A * StepBy) :=
  p <- nth (sb_iter s) (if sb_first_take s then 0 else sb_step_minus_one s) ;;
  Ret (fst p, SB (snd p) (sb_step_minus_one s) false).

(** core::iter::Skip, [iter.skip(n)]. *)
Record Skip : Type := SK { sk_iter : S; sk_n : Z }.
(** [Skip::next]: [nth(n)] the first time unless [n] is 0, then [next]. *)
Definition sk_next (next : S -> outcome (option A * S)) (nth : S -> Z -> outcome (option A * S)) (s : Skip)
  : outcome (option A * Skip) :=
  p <- (if 0 <? sk_n s then nth (sk_iter s) (sk_n s) else next (sk_iter s)) ;;
  Ret (fst p, SK (snd p) 0).

(** core::iter::Take, [iter.take(n)]. *)
Record Take : Type := TK { tk_iter : S; tk_n : Z }.
(** [Take::next]: [next] while the count is not used up. *)
Definition tk_next (next : S -> outcome (option A * S)) (s : Take) : outcome (option A * Take) :=
  if tk_n s =? 0 then Ret (None, s)
  else p <- next (tk_iter s) ;; Ret (fst p, TK (snd p) (tk_n s - 1)).

End Adapt.
Arguments StepBy : clear implicits.
Arguments Skip : clear implicits.
Arguments Take : clear implicits.
