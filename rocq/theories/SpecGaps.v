(** The complement of a set, read off its bounds: what lies between its parts. *)
From Coq Require Import List.
Import ListNotations.
From Verif Require Import Base ModelBound ModelRanges ModelSets ModelValue Spec SpecBounds.

Section Gaps.
Context {T : Type} {OT : Ord T}.

(** The bound that begins where an upper bound ends, and the one that ends where a lower bound begins. *)
Definition just_after (u : UpperBound T) : LowerBound T :=
  match u with UB (Included a) => LB (Excluded a) | UB (Excluded a) => LB (Included a) end.
Definition just_before (l : LowerBound T) : UpperBound T :=
  match l with LB (Included a) => UB (Excluded a) | LB (Excluded a) => UB (Included a) end.

(** What lies between parts that end with [es] and the next parts, which begin with [ss]. *)
Inductive gaps : list (UpperBound T) -> list (LowerBound T) -> list (BoundedRange T) -> Prop :=
| gaps_end : gaps [] [] []
| gaps_open e s es ss k : has_room (BR (just_after e) (just_before s)) -> gaps es ss k ->
    gaps (e :: es) (s :: ss) (BR (just_after e) (just_before s) :: k)
| gaps_shut e s es ss k : ~ has_room (BR (just_after e) (just_before s)) -> gaps es ss k -> gaps (e :: es) (s :: ss) k.

(** [outside v w]: [w] is what lies before, between and after the parts of [v]. *)
Inductive outside (v : value T) : value T -> Prop :=
| outside_none : v = VBS (BS []) -> outside v (VUS Full)
| outside_full : v = VUS Full -> outside v (VBS (BS []))
| outside_bs s ss es e k : kind_of v = KBoundedSet -> lows v = s :: ss -> highs v = es ++ [e] -> gaps es ss k ->
    outside v (VUS (Piecewise (PUS (UBR (just_before s)) (BS k) (LBR (just_after e)))))
| outside_lbs s ss k : kind_of v = KLowerBoundedSet -> lows v = s :: ss -> gaps (highs v) ss k ->
    outside v (VUBS (UBS (UBR (just_before s)) (BS k)))
| outside_ubs es e k : kind_of v = KUpperBoundedSet -> highs v = es ++ [e] -> gaps es (lows v) k ->
    outside v (VLBS (LBS (BS k) (LBR (just_after e))))
| outside_us k : kind_of v = KUnboundedSet -> v <> VUS Full -> gaps (highs v) (lows v) k -> outside v (VBS (BS k)).
End Gaps.
