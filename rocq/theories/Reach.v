(** Values obtainable through the public API of the crate. *)
From Verif Require Import Base ModelBound ModelRanges ModelSets ModelAlgebra ModelValue.

Section Reach.
Context {T : Type} {OT : Ord T}.

(** Range types have public fields or constructors taking arbitrary bounds
    (src/bounded_range.rs:25-30, 114; src/lower_bounded_range.rs:20-23;
    src/upper_bounded_range.rs:19-22; src/empty_range.rs:62;
    src/unbounded_range.rs:42), std ranges are literals or partly iterated.
    Set types have private fields; their public constructors are
    src/bounded_set.rs:22-30, 56-60; src/lower_bounded_set.rs:26-33;
    src/upper_bounded_set.rs:22-29; src/unbounded_set.rs:85-97, 107-121.
    Everything else arises from the trait's operations (src/lib.rs:85-223). *)
Inductive api : value T -> Prop :=
| api_range r : api (VRange r)
| api_range_inclusive r : api (VRangeInclusive r)
| api_range_from r : api (VRangeFrom r)
| api_range_to r : api (VRangeTo r)
| api_range_to_inclusive r : api (VRangeToInclusive r)
| api_range_full r : api (VRangeFull r)
| api_br r : api (VBR r)
| api_lbr r : api (VLBR r)
| api_ubr r : api (VUBR r)
| api_unbr r : api (VUnbR r)
| api_empty r : api (VEmpty r)
| api_bs_empty : api (VBS bs_empty)
| api_bs_from r : api (VBS (bs_from_br r))
| api_lbs_from r : api (VLBS (lbs_from_lbr r))
| api_ubs_from r : api (VUBS (ubs_from_ubr r))
| api_us_full : api (VUS Full)
| api_us_new u l : api (VUS (us_new u l))
| api_union a b r : api a -> api b -> union a b = Ret r -> api r
| api_inter a b r : api a -> api b -> intersection a b = Ret r -> api r
| api_compl a r : api a -> complement a = Ret r -> api r
| api_inner a : api a -> api (value_of_inner (to_inner a))
| api_set a : api a -> api (value_of_set (to_set a)).

End Reach.
