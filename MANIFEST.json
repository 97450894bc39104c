{
 "claims": [
  {
   "property": "C01",
   "status": "proved",
   "theorems": [
    "C00_contains_spec",
    "C01_union_all",
    "C01_union_any_state",
    "C01_union_contains"
   ],
   "note": "For every operand that is not an exhausted RangeInclusive; C01_union_any_state covers those too (see C37)."
  },
  {
   "property": "C02",
   "status": "partial",
   "theorems": [
    "C02_intersection_contains_partial",
    "C02_intersection_subset",
    "C02_later_start_first",
    "C02_lbs_lbs_exact",
    "C02_refuted"
   ],
   "note": "False for LowerBoundedSet x LowerBoundedSet (C02_refuted, exact behaviour in C02_lbs_lbs_exact, right when called on the set whose half-line starts later: C02_later_start_first); proved for all other 224 pairs of types."
  },
  {
   "property": "C03",
   "status": "proved",
   "theorems": [
    "C03_complement_any_state",
    "C03_complement_contains"
   ],
   "note": "For every operand that is not an exhausted RangeInclusive; C03_complement_any_state covers those too."
  },
  {
   "property": "C04",
   "status": "proved",
   "theorems": [
    "C04_operations_return",
    "C04_programs_return"
   ],
   "note": "For all values, not only reachable ones."
  },
  {
   "property": "C05",
   "status": "proved",
   "theorems": [
    "C05_sets_well_formed"
   ],
   "note": ""
  },
  {
   "property": "C06",
   "status": "partial",
   "theorems": [
    "C06_beyond_endpoints",
    "C06_both_ways",
    "C06_bounded_expressions",
    "C06_expressions_partial",
    "C06_filled",
    "C06_nothing_missing",
    "C06_nothing_too_much"
   ],
   "note": "Exact for expressions without an intersection of two LowerBoundedSets (false otherwise by C02_refuted); with them, never too much below an even number of complements, never too little below an odd number, and exact beyond all endpoints; every program is exact once its intersections are written both ways round (C06_both_ways)."
  },
  {
   "property": "C07",
   "status": "proved",
   "theorems": [
    "C07_filled_exact",
    "C07_is_empty_dense",
    "C07_is_empty_exact",
    "C07_is_empty_sound"
   ],
   "note": "Exact characterisation: no elements iff is_empty or one of the listed degenerate values."
  },
  {
   "property": "C08",
   "status": "partial",
   "theorems": [
    "C08_disjoint_exact",
    "C08_disjoint_sound",
    "C08_filled_elements",
    "C08_filled_exact",
    "C08_intersects_dense_partial",
    "C08_intersects_inclusive_partial",
    "C08_intersects_std_partial",
    "C08_refuted"
   ],
   "note": "First half proved; second half false on discrete orders (C08_refuted), proved on dense orders, for std ranges, for all values with inclusive starts; C08_filled_exact is the exact condition on every order: a common point of the filled-in order."
  },
  {
   "property": "C09",
   "status": "proved",
   "theorems": [
    "C09_disjoint_intersects"
   ],
   "note": ""
  },
  {
   "property": "C10",
   "status": "proved",
   "theorems": [
    "C10_union_order_irrelevant",
    "C10_union_order_irrelevant_any"
   ],
   "note": ""
  },
  {
   "property": "C11",
   "status": "proved",
   "theorems": [
    "C11_union_associative",
    "C11_union_commutative",
    "C11_union_idempotent"
   ],
   "note": ""
  },
  {
   "property": "C12",
   "status": "proved",
   "theorems": [
    "C12_absorption_intersection",
    "C12_absorption_union",
    "C12_de_morgan_intersection",
    "C12_de_morgan_union",
    "C12_distributivity",
    "C12_distributivity_dual",
    "C12_double_complement",
    "C12_units"
   ],
   "note": "Under the stated restriction to expressions without an intersection of two LowerBoundedSets."
  },
  {
   "property": "C13",
   "status": "partial",
   "theorems": [
    "C13_intersection_commutative_eq_partial",
    "C13_intersection_commutative_partial",
    "C13_lbs_lbs_exact",
    "C13_refuted"
   ],
   "note": "False for two LowerBoundedSets (C13_refuted), with the exact condition for the two orders to agree in C13_lbs_lbs_exact; proved, even up to ==, for all other pairs."
  },
  {
   "property": "C14",
   "status": "proved",
   "theorems": [
    "C14_conversions",
    "C14_empty_to_set"
   ],
   "note": ""
  },
  {
   "property": "C15",
   "status": "proved",
   "theorems": [
    "C15_lower_bounds_ordered",
    "C15_lower_half_lines",
    "C15_upper_bounds_ordered",
    "C15_upper_half_lines"
   ],
   "note": ""
  },
  {
   "property": "C16",
   "status": "partial",
   "theorems": [
    "C16_equal_sets_same_contents",
    "C16_exact_dense",
    "C16_exact_half_open",
    "C16_filled_exact",
    "C16_refuted",
    "C16_same_contents_dense_partial",
    "C16_same_contents_half_open_partial"
   ],
   "note": "Equal values have equal contents; the converse is false (C16_refuted: touching pieces stay apart). C16_filled_exact says for every order exactly when two well-formed sets are equal: same points covered in the filled-in order and the same joints; C16_exact_half_open and C16_exact_dense with elements instead of points."
  },
  {
   "property": "C17",
   "status": "proved",
   "theorems": [
    "C17_bounded_below_iterable",
    "C17_result_types"
   ],
   "note": ""
  },
  {
   "property": "C18",
   "status": "proved",
   "theorems": [
    "C18_backward_checked_exact",
    "C18_forward_checked_exact"
   ],
   "note": ""
  },
  {
   "property": "C19",
   "status": "proved",
   "theorems": [
    "C19_steps_between_exact"
   ],
   "note": ""
  },
  {
   "property": "C20",
   "status": "proved",
   "theorems": [
    "C20_debug_backward",
    "C20_debug_forward",
    "C20_release_agrees",
    "C20_release_wraps"
   ],
   "note": "char (no wrap, panics in both builds) is in C21_char_unchecked."
  },
  {
   "property": "C21",
   "status": "proved",
   "theorems": [
    "C21_char_code_points",
    "C21_char_conversion_safe",
    "C21_char_steps_exactly",
    "C21_char_unchecked"
   ],
   "note": ""
  },
  {
   "property": "C22",
   "status": "proved",
   "theorems": [
    "C22_char_meets_contract",
    "C22_integers_meet_contract",
    "C22_round_trip",
    "C22_steps_compose",
    "C22_successor"
   ],
   "note": "For every type meeting the Step contract; all integer types and char are proved to meet it."
  },
  {
   "property": "C23",
   "status": "partial",
   "theorems": [
    "C23_collect_exact",
    "C23_collect_partial",
    "C23_collect_reversed_exact",
    "C23_listing_exists",
    "C23_refuted",
    "C23_release_exact",
    "C23_release_never_ends"
   ],
   "note": "False when the range contains the greatest value of its type (C23_refuted); exact behaviour in debug (C23_collect_exact) and in release (C23_release_exact) for all ranges."
  },
  {
   "property": "C24",
   "status": "partial",
   "theorems": [
    "C24_empty_range",
    "C24_histories_exact",
    "C24_histories_narrow",
    "C24_histories_partial",
    "C24_refuted"
   ],
   "note": "Proved for types narrower than usize (C24_histories_narrow); false on ranges of more than usize::MAX elements (C24_refuted), where C24_histories_exact gives every reply."
  },
  {
   "property": "C25",
   "status": "partial",
   "theorems": [
    "C25_next_panics_exact",
    "C25_no_panic_partial",
    "C25_nth_panics_exact",
    "C25_refuted",
    "C25_release_never_panics"
   ],
   "note": "False (C25_refuted); exact panic conditions of next, next_back, nth, nth_back proved in debug; in release no call panics (C25_release_never_panics)."
  },
  {
   "property": "C26",
   "status": "partial",
   "theorems": [
    "C26_lower_bounded_hint",
    "C26_narrow_types_small",
    "C26_range_len_exact",
    "C26_range_size_partial",
    "C26_refuted",
    "C26_release_range_len",
    "C26_release_set_len",
    "C26_release_unending",
    "C26_set_len_exact",
    "C26_set_size_partial"
   ],
   "note": "Exact up to usize::MAX elements; false beyond (C26_refuted), where C26_range_len_exact and C26_set_len_exact say what is reported, and C26_release_range_len and C26_release_set_len what a release build reports. Lower-bounded iterators report (usize::MAX, None)."
  },
  {
   "property": "C27",
   "status": "partial",
   "theorems": [
    "C27_lower_bounded_min_complete",
    "C27_lower_bounded_min_exact",
    "C27_lower_bounded_min_partial",
    "C27_range_last_min_max_partial",
    "C27_refuted",
    "C27_set_complete",
    "C27_set_last_min_max_exact",
    "C27_set_last_min_max_partial",
    "C27_set_last_release"
   ],
   "note": "last of a range always right; min/max right or panic, exactly at the extremes (C27_refuted); C27_set_complete and C27_lower_bounded_min_complete: for every set exactly what last, min, max give in debug. C27_set_last_release: when last of a set ends in release."
  },
  {
   "property": "C28",
   "status": "proved",
   "theorems": [
    "C28_range_fused",
    "C28_set_fused"
   ],
   "note": "In every state and in both builds."
  },
  {
   "property": "C29",
   "status": "partial",
   "theorems": [
    "C29_collect_set_complete",
    "C29_collect_set_exact",
    "C29_collect_set_partial",
    "C29_collect_set_reversed_complete",
    "C29_collect_set_reversed_exact",
    "C29_refuted",
    "C29_release_narrow",
    "C29_release_wide"
   ],
   "note": "False for sets containing the greatest value or a piece of more than usize::MAX elements (C29_refuted); C29_collect_set_complete gives the result for every set in debug, C29_release_narrow/wide in release for integers."
  },
  {
   "property": "C30",
   "status": "proved",
   "theorems": [
    "C30_set_histories",
    "C30_set_histories_complete",
    "C30_set_histories_exact",
    "C30_set_histories_return",
    "C30_set_histories_return_exact"
   ],
   "note": "C30_set_histories_return adds that no history panics away from the extremes of the type. C30_set_histories_complete: for every set, whatever returns in debug is the reply of the queue of the elements in pieces that fit usize."
  },
  {
   "property": "C31",
   "status": "partial",
   "theorems": [
    "C31_never_none",
    "C31_range_ascends_partial",
    "C31_refuted",
    "C31_release_set_wraps",
    "C31_release_wraps",
    "C31_returns_exact",
    "C31_set_ascends_complete",
    "C31_set_ascends_exact",
    "C31_set_ascends_partial"
   ],
   "note": "In debug exact, with the exact condition for returning; release wraps around (C31_refuted), exact positions modulo the type's size in C31_release_wraps and, for sets, C31_release_set_wraps. C31_set_ascends_complete: in debug for every lower-bounded set."
  },
  {
   "property": "C32",
   "status": "partial",
   "theorems": [
    "C32_lower_bounded_panics_exact",
    "C32_range_panics_exact",
    "C32_range_returns_partial",
    "C32_refuted",
    "C32_release_exact",
    "C32_set_returns"
   ],
   "note": "Sets proved; ranges false (C32_refuted), exact panic condition proved, and in release what the loop visits (C32_release_exact)."
  },
  {
   "property": "C33",
   "status": "proved",
   "theorems": [
    "C33_conversions_agree",
    "C33_histories_agree",
    "C33_into_iter_agrees",
    "C33_loops_agree"
   ],
   "note": "Iterators, loops, into_iter and the conversions to std ranges, for every type meeting the Step contract."
  },
  {
   "property": "C34",
   "status": "partial",
   "theorems": [
    "C34_exhausted_exact",
    "C34_inclusive_round_trip",
    "C34_refuted",
    "C34_round_trips_partial"
   ],
   "note": "All six round trips in both builds, RangeInclusive when not exhausted; an exhausted one loses its flag (C34_refuted)."
  },
  {
   "property": "C35",
   "status": "partial",
   "theorems": [
    "C35_char_same",
    "C35_contents_preserved_partial",
    "C35_never_diverges",
    "C35_panics_exact",
    "C35_refuted",
    "C35_release_exact",
    "C35_release_wraps"
   ],
   "note": "Debug builds proved, with the exact panic condition; release builds wrap at the ends of the type (C35_refuted), exactly as C35_release_exact says for every range of integers; char is the same in both builds (C35_char_same)."
  },
  {
   "property": "C36",
   "status": "partial",
   "theorems": [
    "C36_inclusive_char",
    "C36_inclusive_partial",
    "C36_inclusive_signed",
    "C36_inclusive_unsigned",
    "C36_range_empty",
    "C36_refuted"
   ],
   "note": "Range proved for any order; RangeInclusive empty for signed integers, panics in debug / full in release for unsigned ones, always panics for char (C36_refuted)."
  },
  {
   "property": "C37",
   "status": "partial",
   "theorems": [
    "C37_contents_preserved_partial",
    "C37_exhausted_exact",
    "C37_fixpoint",
    "C37_refuted"
   ],
   "note": "Proved unless the RangeInclusive is exhausted (C37_refuted, exact effect in C37_exhausted_exact)."
  },
  {
   "property": "C38",
   "status": "partial",
   "theorems": [
    "C38_cstr_exact",
    "C38_cstr_release_exact",
    "C38_debug_exact",
    "C38_not_truncated",
    "C38_picks_unique",
    "C38_refuted",
    "C38_release_exact",
    "C38_release_representable",
    "C38_release_wraps",
    "C38_selected_elements_partial",
    "C38_wrapped_convertible"
   ],
   "note": "Debug builds exactly; false in release when an end is not representable (C38_refuted), where C38_release_exact reduces every case to a debug one."
  },
  {
   "property": "C39",
   "status": "partial",
   "theorems": [
    "C39_only_selected_changed_partial",
    "C39_panics_as_reading",
    "C39_refuted",
    "C39_release_exact",
    "C39_release_representable"
   ],
   "note": "As C38 (C39_refuted, C39_release_exact)."
  },
  {
   "property": "C40",
   "status": "partial",
   "theorems": [
    "C40_debug_exact_partial",
    "C40_only_selected_changed",
    "C40_refuted",
    "C40_release_agrees",
    "C40_release_exact",
    "C40_utf8_unambiguous",
    "C40_whole_characters",
    "C40_writing_keeps_validity"
   ],
   "note": "Never splits a character, in both builds; selected bytes exactly in debug; false in release when an end is not representable (C40_refuted), exact by C40_release_exact."
  },
  {
   "property": "C41",
   "status": "proved",
   "theorems": [
    "C41_empty_range",
    "C41_unbounded_range",
    "C41_unbounded_range_mut"
   ],
   "note": "Slices, vectors, str, String in both builds; CString and OsString with UnboundedRange."
  },
  {
   "property": "C42",
   "status": "proved",
   "theorems": [
    "C42_any_field_order",
    "C42_injective",
    "C42_round_trip"
   ],
   "note": "Through serde's data model, for formats handing structs back as fields or sequences and variants by name or index; serde_derive's code and the formats themselves are assumed to follow the documentation."
  },
  {
   "property": "C43",
   "status": "partial",
   "theorems": [
    "C43_anything_accepted",
    "C43_refuted",
    "C43_written_sets_partial"
   ],
   "note": "False: every list of pieces is accepted (C43_anything_accepted, C43_refuted); proved for input written from a valid set."
  },
  {
   "property": "C44",
   "status": "proved",
   "theorems": [
    "C44_flipped",
    "C44_map_functor",
    "C44_map_monotone"
   ],
   "note": ""
  },
  {
   "property": "C45",
   "status": "proved",
   "theorems": [
    "C45_union_pieces"
   ],
   "note": ""
  },
  {
   "property": "C46",
   "status": "proved",
   "theorems": [
    "C46_union_least",
    "C46_union_monotone"
   ],
   "note": ""
  },
  {
   "property": "C47",
   "status": "proved",
   "theorems": [
    "C47_equal_hash",
    "C47_no_prefix",
    "C47_unequal_distinct"
   ],
   "note": "Under the contract of T: Hash."
  },
  {
   "property": "C48",
   "status": "proved",
   "theorems": [
    "C48_complement_bounds",
    "C48_conversion_bounds",
    "C48_intersection_bounds",
    "C48_program_endpoints",
    "C48_union_bounds"
   ],
   "note": "For any Ord, lawful or not."
  },
  {
   "property": "C49",
   "status": "proved",
   "theorems": [
    "C49_half_open",
    "C49_is_empty_exact"
   ],
   "note": ""
  },
  {
   "property": "C50",
   "status": "proved",
   "theorems": [
    "C50_complement_size",
    "C50_intersection_size",
    "C50_program_size",
    "C50_union_size"
   ],
   "note": ""
  },
  {
   "property": "C51",
   "status": "proved",
   "theorems": [
    "C51_ascend_program",
    "C51_collect_program",
    "C51_same_meaning"
   ],
   "note": "Under the stated conditions excluding the known failures: no intersection of two LowerBoundedSets, no extreme value of the type as an endpoint, endpoints at most usize::MAX apart."
  },
  {
   "property": "C52",
   "status": "proved",
   "theorems": [
    "C52_no_hang",
    "C52_no_panic",
    "C52_no_panic_refuted",
    "C52_panic",
    "C52_programs_no_hang"
   ],
   "note": "partial_cmp is assumed to return Some(cmp). C52_no_panic_refuted shows that both conditions of C52_no_panic are needed: without them the assertion in combine can fail."
  },
  {
   "property": "C53",
   "status": "proved",
   "theorems": [
    "C53_bounds",
    "C53_ranges",
    "C53_sets",
    "C53_to_bound"
   ],
   "note": ""
  },
  {
   "property": "C54",
   "status": "proved",
   "theorems": [
    "C54_extends_ord",
    "C54_lower_lawful",
    "C54_meaning",
    "C54_respect_needed",
    "C54_upper_lawful"
   ],
   "note": "Given that == elements compare alike with others, which std's contract does not spell out; C54_respect_needed shows the condition is needed."
  },
  {
   "property": "C55",
   "status": "proved",
   "theorems": [
    "C55_unit_ranges"
   ],
   "note": ""
  },
  {
   "property": "C56",
   "status": "partial",
   "theorems": [
    "C56_lower_step_by_take",
    "C56_range_skip_empty",
    "C56_range_skip_partial",
    "C56_range_step_by_partial",
    "C56_range_take",
    "C56_refuted",
    "C56_release_agrees",
    "C56_release_exact",
    "C56_set_adaptors",
    "C56_step_by_new"
   ],
   "note": "take over ranges, and all three over sets with at most usize::MAX elements, extremes included, proved exactly; step_by and skip over ranges are false when a step past the end of the range leaves the element type (C56_refuted: panic in debug, endless loop in release); exact conditions in debug, exact result of step_by in release for integers."
  },
  {
   "property": "C57",
   "status": "proved",
   "theorems": [
    "C57_add_range_contents",
    "C57_add_range_pieces",
    "C57_combine"
   ],
   "note": "combine and add_range are crate-private; stated on the model functions for all arguments, including ones the crate never passes."
  },
  {
   "property": "C58",
   "status": "proved",
   "theorems": [
    "C58_complement_repairs",
    "C58_union_order_matters",
    "C58_union_repairs"
   ],
   "note": "Union with the ill-formed set first does not repair it (C58_union_order_matters)."
  },
  {
   "property": "C59",
   "status": "proved",
   "theorems": [
    "C59_accepted",
    "C59_faults",
    "C59_structs",
    "C59_unambiguous",
    "C59_written",
    "C59_written_compact"
   ],
   "note": "Against a relation between documents and values (SpecSerde.v) written without the deserialising functions; serde_derive's code is modelled from its documentation, as for C42."
  },
  {
   "property": "C60",
   "status": "proved",
   "theorems": [
    "C60_adaptor_hints",
    "C60_always_ends",
    "C60_lower_bounded_outcome",
    "C60_lower_bounded_panics",
    "C60_range_exact",
    "C60_range_release",
    "C60_same_as_loop",
    "C60_set_exact",
    "C60_set_release",
    "C60_set_visible",
    "C60_skip_exact",
    "C60_step_by_exact",
    "C60_take_exact",
    "C60_take_hint_panics",
    "C60_truthful_hint"
   ],
   "note": "std's Vec::from_iter is modelled (ModelCollect.v), with an allocator that grants whatever std asks for; also after skip and step_by, whose own hints are modelled. Sets in debug: pieces of at most usize::MAX elements. take(n) of a bounded range longer than usize::MAX can panic on the hint (C60_take_hint_panics)."
  },
  {
   "property": "C61",
   "status": "proved",
   "theorems": [
    "C61_congruence",
    "C61_equivalence",
    "C61_programs"
   ],
   "note": ""
  },
  {
   "property": "C62",
   "status": "proved",
   "theorems": [
    "C62_operations",
    "C62_programs",
    "C62_small_integers"
   ],
   "note": ""
  },
  {
   "property": "C63",
   "status": "proved",
   "theorems": [
    "C63_from",
    "C63_half_open",
    "C63_inclusive",
    "C63_loops"
   ],
   "note": "The iterators of std are modelled after library/core/src/iter/range.rs, which is outside /repo."
  },
  {
   "property": "C64",
   "status": "proved",
   "theorems": [
    "C64_find",
    "C64_histories",
    "C64_index",
    "C64_listing",
    "C64_loops",
    "C64_refuted_beyond_usize",
    "C64_search"
   ],
   "note": "The adaptors are modelled after library/core/src/iter/adapters, which is outside /repo; searching is over next and next_back (an adaptor's own try_fold is taken to agree). C64_refuted_beyond_usize: with more than usize::MAX elements, next_back on a zip panics and enumerate misnumbers."
  },
  {
   "property": "C65",
   "status": "proved",
   "theorems": [
    "C65_depth",
    "C65_empty_range",
    "C65_unbounded"
   ],
   "note": "The number of frames is the recursion bound of the model's add_range; the size of a frame and tail-call optimisation are not modelled."
  },
  {
   "property": "C66",
   "status": "proved",
   "theorems": [
    "C66_lower_bounded",
    "C66_never_ends",
    "C66_ranges",
    "C66_sets",
    "C66_weaker"
   ],
   "note": "C66_never_ends gives the limit: a range with the greatest value cannot be looped over with any Step implementation."
  },
  {
   "property": "C67",
   "status": "proved",
   "theorems": [
    "C67_any_all",
    "C67_any_is_contains",
    "C67_compare",
    "C67_exhausts",
    "C67_find",
    "C67_find_map",
    "C67_position",
    "C67_release",
    "C67_resume",
    "C67_rfind",
    "C67_rposition",
    "C67_try_fold"
   ],
   "note": "Each outcome (answer, panic) is characterised by an equivalence; if none applies the search does not end. Sets with a piece of more than usize::MAX elements are excluded (C27 describes what is seen of them)."
  },
  {
   "property": "C68",
   "status": "proved",
   "theorems": [
    "C68_len",
    "C68_lower",
    "C68_lower_set",
    "C68_next",
    "C68_next_back",
    "C68_range",
    "C68_range_nth",
    "C68_release",
    "C68_same",
    "C68_set",
    "C68_set_back",
    "C68_set_front",
    "C68_unchanged_refuted"
   ],
   "note": "C68_same ties the model with caught panics to the one of the other properties. C68_unchanged_refuted: a panicking call is not without effect. Sets with a piece of more than usize::MAX elements are excluded (len panics on them, C27)."
  },
  {
   "property": "C69",
   "status": "proved",
   "theorems": [
    "C69_calls_unambiguous",
    "C69_complement",
    "C69_complement_members",
    "C69_contains",
    "C69_disjoint",
    "C69_encoding_exact",
    "C69_impls_unambiguous",
    "C69_intersection",
    "C69_intersection_members",
    "C69_intersection_omits",
    "C69_intersects",
    "C69_is_empty",
    "C69_one_outcome",
    "C69_programs",
    "C69_to_inner",
    "C69_to_set",
    "C69_union",
    "C69_union_members"
   ],
   "note": "Trusted: tools/gen_source.py and the interpreter RustEval.v (DESIGN.md, The translated source). contains of std's own ranges is std's. Iterators, conversions and Step are C70; bounds, constructors and indexing are C71. C69_calls_unambiguous and C69_impls_unambiguous: the interpreter's search for the function a call means leaves out no other one."
  },
  {
   "property": "C70",
   "status": "proved",
   "theorems": [
    "C70_char_step",
    "C70_char_steps_end",
    "C70_empty_to_std",
    "C70_from_std",
    "C70_int_step",
    "C70_int_steps_end",
    "C70_into_iter",
    "C70_loops",
    "C70_lower_consumers",
    "C70_lower_range_histories",
    "C70_lower_range_iterator",
    "C70_lower_set_histories",
    "C70_lower_set_iterator",
    "C70_min_panics",
    "C70_nth_escapes",
    "C70_range_consumers",
    "C70_range_histories",
    "C70_range_is_deque",
    "C70_range_iterator",
    "C70_range_loop_exact",
    "C70_set_consumers",
    "C70_set_histories",
    "C70_set_iterator",
    "C70_set_loop_exact",
    "C70_to_sets",
    "C70_to_std"
   ],
   "note": "Trusted: tools/gen_source.py and the interpreter RustEval.v. last of a set iterator is covered when it ends (it need not, C27; C72). The iterator of EmptyRange is std's. Element types whose forward/backward hang are excluded by steps_end, which all integers and char meet."
  },
  {
   "property": "C71",
   "status": "proved",
   "theorems": [
    "C71_constructors",
    "C71_cstr_index",
    "C71_flipped_complements",
    "C71_full_index",
    "C71_index_impls",
    "C71_lower_bounds",
    "C71_lower_half_lines",
    "C71_make_bounds",
    "C71_map",
    "C71_new_members",
    "C71_slice_index",
    "C71_slice_panics",
    "C71_slice_picks",
    "C71_str_index",
    "C71_upper_bounds",
    "C71_upper_half_lines"
   ],
   "note": "Trusted: tools/gen_source.py and the interpreter RustEval.v. How std indexes with its own ranges is modelled (ModelIndex.v), not run: src_index runs the index expression of the impl body."
  },
  {
   "property": "C72",
   "status": "proved",
   "theorems": [
    "C72_char_ranges",
    "C72_debug_ends",
    "C72_debug_lower",
    "C72_enough_fuel",
    "C72_lower_no_value",
    "C72_lower_range_loop",
    "C72_lower_set_loop",
    "C72_never_excludes",
    "C72_range_loop",
    "C72_release_empty_range",
    "C72_release_last",
    "C72_release_lower",
    "C72_release_range",
    "C72_release_set_narrow",
    "C72_release_set_wide",
    "C72_set_last",
    "C72_set_loop"
   ],
   "note": "Trusted: tools/gen_source.py and the interpreter RustEval.v. never is stated with the interpreter's fuel, which is spent on nested calls and loop turns; C72_never_excludes and C72_enough_fuel relate it to outcomes."
  },
  {
   "property": "C73",
   "status": "proved",
   "theorems": [
    "C73_chars",
    "C73_exact",
    "C73_integers",
    "C73_one_outcome",
    "C73_programs",
    "C73_result_type",
    "C73_typed"
   ],
   "note": "Trusted: tools/gen_source.py, the interpreter RustEval.v and the semantics of ClientProg.v as a reading of client programs; for is desugared as in the Rust reference; loop { .. } is written while true { .. }, the form the interpreter has. Variables are cloned where used (no moves); elements are kept in variables. C73_exact needs that Step of the element type ends, shown for the integers and char (C73_integers, C73_chars). Typing needs a lawful Ord."
  },
  {
   "property": "C74",
   "status": "proved",
   "theorems": [
    "C74_few_chars",
    "C74_few_integers",
    "C74_model",
    "C74_model_ends",
    "C74_model_release",
    "C74_nothing_open",
    "C74_one_meaning",
    "C74_right",
    "C74_source",
    "C74_source_ends",
    "C74_source_release"
   ],
   "note": "Trusted as for C73, and SpecProg.v as the meaning. Nothing is said of intersections of two LowerBoundedSets (wrong, C02; C74_open_ex shows it on the text) nor of iterators of sets with more than usize::MAX consecutive elements (C23); C74_nothing_open: that is all. Where an iterator of no elements may panic at its start (C32) both outcomes are allowed: the points do not decide it, the bounds do. Starting values are those the API can make, with no used-up RangeInclusive (C34)."
  },
  {
   "property": "C75",
   "status": "proved",
   "theorems": [
    "C75_chars",
    "C75_distinct",
    "C75_equal",
    "C75_integers",
    "C75_layout"
   ],
   "note": "Trusted: what derive(Debug), std's debug_struct, debug_tuple, debug_list, PadAdapter and the Debug impls of std ranges, VecDeque, integers and char write. Other format flags are not modelled. PhantomData's text depends on the version of std and is a parameter. C75_silent_ex: elements that do not tell themselves apart."
  },
  {
   "property": "C76",
   "status": "proved",
   "theorems": [
    "C76_at_most",
    "C76_build",
    "C76_exact",
    "C76_inter",
    "C76_inter_same",
    "C76_quadratic",
    "C76_same",
    "C76_split",
    "C76_union_bound"
   ],
   "note": "Counted: calls of the two closures passed to position; each is a fixed number of element comparisons. The moves inside VecDeque::remove and insert are not counted."
  },
  {
   "property": "C77",
   "status": "proved",
   "theorems": [
    "C77_absorb_inter",
    "C77_absorb_union",
    "C77_de_morgan_inter",
    "C77_de_morgan_inter_refuted",
    "C77_de_morgan_union",
    "C77_distribute_inter",
    "C77_distribute_union",
    "C77_empty_range_refuted",
    "C77_equal",
    "C77_joints",
    "C77_programs",
    "C77_thrice",
    "C77_twice"
   ],
   "note": "For programs without an intersection of two LowerBoundedSets (C02) and without complements of bounded ranges, which may be empty; for those C77_empty_range_refuted shows the laws fail. The De Morgan law for intersections is false up to ==; C77_de_morgan_inter says exactly when it holds."
  },
  {
   "property": "C78",
   "status": "proved",
   "theorems": [
    "C78_len",
    "C78_len_refuted",
    "C78_loops"
   ],
   "note": "Conditions as in C51. C78_len_refuted: without the bound on the union len reports 0 in release and panics in debug."
  },
  {
   "property": "C79",
   "status": "proved",
   "theorems": [
    "C79_image",
    "C79_mirror",
    "C79_refuted"
   ],
   "note": "Conditions of C77, and no intersection of two UpperBoundedSets, whose mirror image meets the omission of C02 (C79_refuted). Std ranges are mirrored to the crate's ranges. C79_image: what mirroring does to contents."
  },
  {
   "property": "C80",
   "status": "proved",
   "theorems": [
    "C80_bounds",
    "C80_complement",
    "C80_every_set"
   ],
   "note": "C80_every_set: every set has such a list of gaps. C80_bounds: the exchange of bounds."
  },
  {
   "property": "C81",
   "status": "proved",
   "theorems": [
    "C81_intersection"
   ],
   "note": "Holds with the very bounds of the operands, not only up to ==."
  },
  {
   "property": "C82",
   "status": "proved",
   "theorems": [
    "C82_ranges",
    "C82_sets",
    "C82_union"
   ],
   "note": "Ranges that only touch (0..3 and 3..5) do not overlap and stay apart, as C57 and C77 say. C82_ranges and C82_union are about bounded sets; C82_sets is about the union of two sets of any of the four types, where the overlaps are counted in the filled order (SpecFill.v) and the element type has an element."
  }
 ]
}