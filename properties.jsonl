{"id": "C01", "title": "Union contains exactly the values of either operand", "statement": "a.union(b) returns normally, and for every t the result contains t exactly when a contains t or b contains t.", "quantifier": "all element types with a total order, all 15x15 pairs of operand types (six std ranges, nine crate types), all operand values obtainable through the public API, all elements t", "why_tests_cant": "225 type pairs, unboundedly many ranges per operand; the merge loop recurses on data-dependent overlap.", "anchors": ["src/implementations/union/*.rs RangeUnion::union", "src/lib.rs Rangetools::union", "src/bounded_set.rs add_range, add_set", "src/lower_bounded_set.rs add_range, defragment", "src/upper_bounded_set.rs add_range, defragment", "src/unbounded_set.rs add_range, add_unbounded_set, defragment"]}
{"id": "C02", "title": "Intersection contains exactly the values of both operands", "statement": "a.intersection(b) returns normally, and for every t the result contains t exactly when both a and b contain t.", "quantifier": "all element types with a total order, all 15x15 pairs of operand types (six std ranges, nine crate types), all operand values obtainable through the public API, all elements t", "why_tests_cant": "225 type pairs, unboundedly many ranges per operand; the only failing pair (LowerBoundedSet with LowerBoundedSet) needs a specific shape that the suite does not contain.", "anchors": ["src/implementations/intersection/*.rs RangeIntersection::intersection", "src/lib.rs Rangetools::intersection"]}
{"id": "C03", "title": "Complement contains exactly the values not in the operand", "statement": "a.complement() returns normally, and for every t the result contains t exactly when a does not contain t.", "quantifier": "all totally ordered element types, all 15 operand types, all API-obtainable values, all t", "why_tests_cant": "The complement of a set folds intersections over an unbounded list of ranges.", "anchors": ["src/implementations/complement/*.rs RangeComplement::complement", "src/lib.rs Rangetools::complement"]}
{"id": "C04", "title": "Set algebra never panics and always terminates", "statement": "union, intersection, complement, disjoint, intersects, to_set, to_inner and contains never panic (no failed assert, unwrap or out-of-range VecDeque access) and never recurse or loop forever, on any value obtained through the API.", "quantifier": "every value reachable by any finite history of public constructors and operations", "why_tests_cant": "The assertion in the range merge and the unwraps in defragmentation are unreachable only because of an inductive invariant over all histories.", "anchors": ["src/bounded_range.rs combine", "src/bounded_set.rs add_range", "src/lower_bounded_set.rs defragment", "src/upper_bounded_set.rs defragment", "src/unbounded_set.rs defragment"]}
{"id": "C05", "title": "Sets are always made of non-empty, pairwise disjoint, ascending pieces", "statement": "Every set value obtained through the API stores its pieces in strictly ascending order, none is_empty, no two intersecting, and unbounded tails do not intersect any stored piece or each other.", "quantifier": "every value reachable by any finite history of public constructors and operations", "why_tests_cant": "It is an invariant of all histories; the code comments promise it ('kept private to enforce the invariant').", "anchors": ["src/bounded_set.rs BoundedSet.ranges", "src/lower_bounded_set.rs LowerBoundedSet", "src/upper_bounded_set.rs UpperBoundedSet", "src/unbounded_set.rs PiecewiseUnboundedSet"]}
{"id": "C06", "title": "Arbitrarily nested expressions denote their set-theoretic meaning", "statement": "Any expression built from range literals, constructors, union, intersection, complement, to_set and to_inner evaluates without panic to a value whose contains agrees with the set-theoretic meaning of the expression.", "quantifier": "all finite expressions of any depth over all literals, all t", "why_tests_cant": "Unbounded nesting depth and all combinations of intermediate types.", "anchors": ["src/lib.rs Rangetools", "src/implementations/union/*.rs", "src/implementations/intersection/*.rs", "src/implementations/complement/*.rs"]}
{"id": "C07", "title": "is_empty agrees with having no elements", "statement": "If is_empty returns true the value contains no t. Conversely if it returns false some t is contained, except for the documented case of gaps between adjacent discrete values and half-lines ending at the type's extreme value.", "quantifier": "all element types, all 15 types, all API-obtainable values", "why_tests_cant": "Universal over values; the converse depends on density of the order.", "anchors": ["src/implementations/rangetools/*.rs is_empty"]}
{"id": "C08", "title": "disjoint/intersects agree with sharing an element", "statement": "If a.disjoint(b) is true no t is in both. If a.intersects(b) is true some t is in both. The documentation claims both; the second can only hold when the order has no gaps and no extremes.", "quantifier": "all element types with a total order, all 15x15 pairs of operand types (six std ranges, nine crate types), all operand values obtainable through the public API, all elements t", "why_tests_cant": "Universal over operands; needs existence of a witness for every overlapping pair.", "anchors": ["src/lib.rs Rangetools::disjoint, Rangetools::intersects"]}
{"id": "C09", "title": "intersects is the negation of disjoint and both are symmetric", "statement": "a.intersects(b) == !a.disjoint(b), a.disjoint(b) == b.disjoint(a), for every pair of operands.", "quantifier": "all element types with a total order, all 15x15 pairs of operand types (six std ranges, nine crate types), all operand values obtainable through the public API, all elements t", "why_tests_cant": "Symmetry relates two different code paths for each of the 225 type pairs.", "anchors": ["src/lib.rs Rangetools::disjoint, Rangetools::intersects"]}
{"id": "C10", "title": "A bounded set does not depend on the order in which ranges were added", "statement": "Building a BoundedSet by uniting any list of ranges gives == results for every permutation of the list.", "quantifier": "all lists of bounded ranges, all permutations", "why_tests_cant": "Factorially many orders of unboundedly many ranges.", "anchors": ["src/bounded_set.rs add_range, add_set", "src/implementations/union/bounded_set.rs"]}
{"id": "C11", "title": "Union of sets is commutative, associative and idempotent up to ==", "statement": "For sets a, b, c of the same set type: a.union(b) == b.union(a), (a.union(b)).union(c) == a.union(b.union(c)), a.union(a) == a (structural equality, not just same contents).", "quantifier": "all API-obtainable BoundedSet / LowerBoundedSet / UpperBoundedSet / UnboundedSet values", "why_tests_cant": "Structural equality of the outcome of data-dependent merges, for unbounded operands.", "anchors": ["src/implementations/union/bounded_set.rs", "src/implementations/union/lower_bounded_set.rs", "src/implementations/union/upper_bounded_set.rs", "src/implementations/union/unbounded_set.rs", "src/unbounded_set.rs add_unbounded_set"]}
{"id": "C12", "title": "Boolean algebra laws hold extensionally", "statement": "De Morgan's laws, double complement, distributivity, absorption, identity and annihilator laws hold for contains on all operand types for which the intersection is correct.", "quantifier": "all element types with a total order, all 15x15 pairs of operand types (six std ranges, nine crate types), all operand values obtainable through the public API, all elements t", "why_tests_cant": "Laws over unbounded operands of all types.", "anchors": ["src/lib.rs Rangetools::union, intersection, complement"]}
{"id": "C13", "title": "Intersection is commutative", "statement": "a.intersection(b) and b.intersection(a) contain the same values.", "quantifier": "all element types with a total order, all 15x15 pairs of operand types (six std ranges, nine crate types), all operand values obtainable through the public API, all elements t", "why_tests_cant": "Universal over operands; violated only by particular LowerBoundedSet pairs.", "anchors": ["src/implementations/intersection/*.rs", "src/implementations/intersection/lower_bounded_set.rs 47-61"]}
{"id": "C14", "title": "to_inner and to_set preserve contents and are idempotent", "statement": "to_inner and to_set return a value containing exactly the same elements; applying them again changes nothing; empty bounded ranges become the empty set.", "quantifier": "all 15 types, all values, all t", "why_tests_cant": "Universal over values.", "anchors": ["src/implementations/rangetools/*.rs to_inner, to_set"]}
{"id": "C15", "title": "Bounds are totally ordered consistently with the half-lines they delimit", "statement": "The comparison of LowerBound (UpperBound) values is a total order; a smaller lower bound admits at least the values of a larger one; min/max of bounds select the union/intersection of the half-lines.", "quantifier": "all pairs and triples of bounds over any ordered type, all t", "why_tests_cant": "Order laws are universally quantified.", "anchors": ["src/bound.rs PartialOrd/Ord for LowerBound, UpperBound"]}
{"id": "C16", "title": "Set equality versus set contents", "statement": "Equal sets contain the same values. The converse (sets with the same contents are ==) is what a user might expect; adjacent ranges are not merged, so it can fail.", "quantifier": "all pairs of API-obtainable sets", "why_tests_cant": "Universal over pairs of sets.", "anchors": ["src/bounded_set.rs derive(PartialEq), add_range"]}
{"id": "C17", "title": "The kind of a result depends only on the kinds of the operands", "statement": "For every pair of operand types the result has exactly one statically known type, and results bounded below are always of an iterable type.", "quantifier": "all element types with a total order, all 15x15 pairs of operand types (six std ranges, nine crate types), all operand values obtainable through the public API, all elements t", "why_tests_cant": "Ranges over all operand values of all pairs.", "anchors": ["src/implementations/union/*.rs type Output", "src/implementations/intersection/*.rs type Output", "src/implementations/complement/*.rs"]}
{"id": "C18", "title": "Checked integer stepping is exact", "statement": "forward_checked(x,n) (backward_checked) returns x+n (x-n) when that value is representable and None otherwise.", "quantifier": "all primitive integer types, all pointer widths (16, 32, 64), all x, all usize n", "why_tests_cant": "2^128 x 2^64 input pairs per type; wrapping-cast corner cases.", "anchors": ["src/step.rs step_integer_impls"]}
{"id": "C19", "title": "steps_between is the exact distance", "statement": "steps_between(a,b) is Some(b-a) when a<=b and b-a fits usize, None otherwise.", "quantifier": "all primitive integer types, all pointer widths, all a and b", "why_tests_cant": "Full input domain cannot be enumerated.", "anchors": ["src/step.rs steps_between"]}
{"id": "C20", "title": "Unchecked integer stepping: panic exactly on overflow in debug, wrap in release", "statement": "With overflow checks, forward(x,n)/backward(x,n) return the exact value or panic exactly when it is not representable; without, they return the value modulo 2^bits.", "quantifier": "all primitive integer types, all x, all usize n, both build modes", "why_tests_cant": "Full input domain cannot be enumerated.", "anchors": ["src/step.rs step_identical_methods"]}
{"id": "C21", "title": "char stepping only produces valid scalar values", "statement": "forward_checked/backward_checked on char only pass valid Unicode scalar values to the unchecked conversion, and step exactly along the sequence of scalar values (skipping surrogates); steps_between counts along that sequence.", "quantifier": "all chars, all usize counts, all pointer widths", "why_tests_cant": "Undefined behaviour must be excluded for every (char, count) pair.", "anchors": ["src/step.rs impl Step for char"]}
{"id": "C22", "title": "Stepping round-trips", "statement": "If forward_checked(a,n)=Some(b) then backward_checked(b,n)=Some(a) and steps_between(a,b)=Some(n), and conversely.", "quantifier": "all integer types and char, all a, b, n", "why_tests_cant": "Full input domain cannot be enumerated.", "anchors": ["src/step.rs Step"]}
{"id": "C23", "title": "Iterating a bounded range yields exactly its elements in ascending order", "statement": "Collecting range.into_iter() returns the strictly ascending list of exactly the values the range contains.", "quantifier": "all bounded ranges of all steppable types", "why_tests_cant": "Unbounded sizes; fails only at the extreme values of the type.", "anchors": ["src/bounded_range.rs IntoIterator, BoundedRangeIter::next"]}
{"id": "C24", "title": "Any interleaving of iterator calls behaves like a double-ended queue of the elements", "statement": "For every sequence of next, next_back, nth, nth_back, len calls on a bounded range's iterator in a build with overflow checks: unless the program panics, each call returns what a double-ended queue holding the elements would return.", "quantifier": "all bounded ranges, all finite histories of calls", "why_tests_cant": "Unbounded histories.", "anchors": ["src/bounded_range.rs Iterator/DoubleEndedIterator for BoundedRangeIter"]}
{"id": "C25", "title": "Iteration does not panic", "statement": "Iterating a bounded range forwards or backwards never panics.", "quantifier": "all bounded ranges, all histories", "why_tests_cant": "Fails only at type extremes, e.g. usize ranges starting at 0 iterated backwards.", "anchors": ["src/bounded_range.rs BoundedRangeIter::next, next_back, nth, nth_back, into_iter"]}
{"id": "C26", "title": "Reported length is exact", "statement": "size_hint/len/count of a range or set iterator equal the number of elements it will yield.", "quantifier": "all bounded ranges and sets, after any history", "why_tests_cant": "Distances above usize::MAX cannot be tested by iterating.", "anchors": ["src/bounded_range.rs size_hint, count", "src/bounded_set.rs size_hint, count"]}
{"id": "C27", "title": "last, min and max agree with the element sequence", "statement": "last() and max() return the greatest element, min() the least, None when empty.", "quantifier": "all bounded ranges and sets", "why_tests_cant": "Universal; specialised implementations bypass iteration.", "anchors": ["src/bounded_range.rs last, min, max", "src/bounded_set.rs last, min, max"]}
{"id": "C28", "title": "Iterators are fused", "statement": "Once next or next_back has returned None, every later next/next_back returns None.", "quantifier": "all bounded ranges and sets, all histories", "why_tests_cant": "Quantifies over all continuations.", "anchors": ["src/bounded_range.rs FusedIterator", "src/bounded_set.rs FusedIterator"]}
{"id": "C29", "title": "Iterating a bounded set yields exactly its elements, ascending, without duplicates", "statement": "Collecting set.into_iter() returns the strictly ascending list of exactly the values the set contains.", "quantifier": "all API-obtainable bounded sets of all steppable types", "why_tests_cant": "Unbounded sets; huge ranges are misjudged as exhausted.", "anchors": ["src/bounded_set.rs IntoIterator, BoundedSetIter::next"]}
{"id": "C30", "title": "Any interleaving of set-iterator calls behaves like a double-ended queue of the elements", "statement": "As C24 for bounded sets.", "quantifier": "all API-obtainable bounded sets whose size fits usize, all finite histories of calls", "why_tests_cant": "Unbounded histories.", "anchors": ["src/bounded_set.rs Iterator/DoubleEndedIterator for BoundedSetIter"]}
{"id": "C31", "title": "Iterating a lower-bounded range or set enumerates its elements from the least upward", "statement": "Successive next/nth calls return the successive elements in ascending order without omission, and never None.", "quantifier": "all lower-bounded ranges and sets, all histories of next/nth", "why_tests_cant": "Infinite streams and unbounded histories.", "anchors": ["src/lower_bounded_range.rs LowerBoundedRangeIter", "src/lower_bounded_set.rs LowerBoundedSetIter"]}
{"id": "C32", "title": "Creating an iterator never panics", "statement": "into_iter on a bounded range or set returns an iterator without panicking.", "quantifier": "all bounded ranges; all API-obtainable sets", "why_tests_cant": "Fails only for empty ranges at the type's extremes.", "anchors": ["src/bounded_range.rs into_iter", "src/bounded_set.rs into_iter", "src/lower_bounded_set.rs into_iter"]}
{"id": "C33", "title": "Release builds agree with debug builds unless debug panics", "statement": "Any iteration history or conversion that does not panic with overflow checks gives the same results without them.", "quantifier": "all iterators, all histories, all conversions", "why_tests_cant": "Two builds over unbounded histories.", "anchors": ["src/step.rs step_identical_methods", "src/bounded_range.rs", "src/bounded_set.rs"]}
{"id": "C34", "title": "Conversions from std ranges and back are the identity", "statement": "Range -> BoundedRange -> Range, RangeInclusive -> BoundedRange -> RangeInclusive, RangeFrom, RangeTo, RangeToInclusive and RangeFull round-trip to an equal value without panicking.", "quantifier": "all std ranges of all steppable types", "why_tests_cant": "Universal over values.", "anchors": ["src/bounded_range.rs From impls", "src/lower_bounded_range.rs From impls", "src/upper_bounded_range.rs From impls", "src/unbounded_range.rs From impls"]}
{"id": "C35", "title": "Conversions to std ranges preserve contents", "statement": "Converting a BoundedRange, LowerBoundedRange or UpperBoundedRange to a std range yields a range containing the same values (or panics in debug when the needed bound is not representable).", "quantifier": "all ranges, all t, both build modes", "why_tests_cant": "Boundary values of each type.", "anchors": ["src/bounded_range.rs 51-83", "src/lower_bounded_range.rs 33-43", "src/upper_bounded_range.rs 40-62"]}
{"id": "C36", "title": "EmptyRange converts to an empty std range", "statement": "Range::from(EmptyRange) and RangeInclusive::from(EmptyRange) contain no value.", "quantifier": "all element types with a default, both build modes", "why_tests_cant": "Depends on the element type; only i32 is tested.", "anchors": ["src/empty_range.rs 22-42"]}
{"id": "C37", "title": "A RangeInclusive keeps its contents when it enters the crate", "statement": "Converting any RangeInclusive (including a partly or fully iterated one) preserves contains.", "quantifier": "all RangeInclusive states", "why_tests_cant": "Hidden exhausted flag reached only through iteration.", "anchors": ["src/bounded_range.rs 41-49", "src/implementations/rangetools/range_inclusive.rs"]}
{"id": "C38", "title": "Indexing with a range selects exactly the positions the range contains", "statement": "v[r] for slices and vectors returns the contiguous elements whose positions r contains, in order, or panics; it never returns other elements.", "quantifier": "all slices, all usize ranges of the five crate range types, both build modes", "why_tests_cant": "Unbounded slices; wrap-around at usize::MAX.", "anchors": ["src/implementations/index/*.rs"]}
{"id": "C39", "title": "Mutable indexing changes only the positions the range contains", "statement": "Writing through v[r] changes exactly positions contained in r and leaves length and all other positions unchanged.", "quantifier": "all slices, all usize ranges, all written values", "why_tests_cant": "Frame condition over all positions.", "anchors": ["src/implementations/index/*.rs IndexMut"]}
{"id": "C40", "title": "String indexing never splits a character", "statement": "s[r] for str/String returns the bytes at the positions r contains and panics when either end is not a character boundary.", "quantifier": "all byte strings, all usize ranges", "why_tests_cant": "All boundary configurations.", "anchors": ["src/implementations/index/*.rs String, str impls"]}
{"id": "C41", "title": "Indexing with EmptyRange or UnboundedRange never panics", "statement": "v[EmptyRange] is always the empty slice and v[UnboundedRange] the whole slice.", "quantifier": "all slices and strings", "why_tests_cant": "Universal over slices.", "anchors": ["src/implementations/index/empty_range.rs", "src/implementations/index/unbounded_range.rs"]}
{"id": "C42", "title": "Serialisation round-trips", "statement": "Deserialising a serialised value gives back an equal value.", "quantifier": "all values of all types with serde derives", "why_tests_cant": "Universal over values.", "anchors": ["src/*.rs cfg_attr(feature = \"serde\", derive(Deserialize, Serialize))"]}
{"id": "C43", "title": "Deserialised sets satisfy the set invariant", "statement": "Any successfully deserialised set is made of non-empty, disjoint, ascending pieces.", "quantifier": "all serialised inputs", "why_tests_cant": "Adversarial inputs.", "anchors": ["src/bounded_set.rs derive(Deserialize)"]}
{"id": "C44", "title": "Flipping and mapping bounds", "statement": "flipped is an involution and turns a lower bound into the upper bound of the complementary half-line; map obeys the functor laws and strictly monotone maps preserve order and membership.", "quantifier": "all bounds, all functions", "why_tests_cant": "Quantifies over all functions.", "anchors": ["src/bound.rs Bound::flipped, map", "src/bound.rs LowerBound::map, UpperBound::map"]}
{"id": "C45", "title": "Sets do not grow more pieces than were added", "statement": "Uniting any list of ranges yields a set with at most as many pieces as there were ranges, each piece's endpoints being endpoints of added ranges.", "quantifier": "all lists of ranges", "why_tests_cant": "Unbounded lists.", "anchors": ["src/bounded_set.rs add_range"]}
{"id": "C46", "title": "Union is monotone and least", "statement": "a.union(b) contains everything in a and in b and nothing else; intersections are contained in both operands.", "quantifier": "all element types with a total order, all 15x15 pairs of operand types (six std ranges, nine crate types), all operand values obtainable through the public API, all elements t", "why_tests_cant": "Universal over operands.", "anchors": ["src/implementations/union/*.rs", "src/implementations/intersection/*.rs"]}
{"id": "C47", "title": "Equal values hash equally", "statement": "Values that compare == feed the same words to a hasher, provided the elements do; and values of one type that are not == feed different words when the element type's words are self-delimiting.", "quantifier": "all pairs of values, all element types", "why_tests_cant": "Universal over values and element types.", "anchors": ["src/*.rs derive(Hash)"]}
{"id": "C48", "title": "Operations invent no bounds", "statement": "Every bound of a union or intersection is a bound of an operand; every bound of a complement is an operand's bound turned round; every endpoint in the result of a program is an endpoint it was given.", "quantifier": "all values, all programs, any Ord", "why_tests_cant": "Unbounded programs and sets, any ordering.", "anchors": ["src/implementations/union/*.rs", "src/implementations/intersection/*.rs", "src/implementations/complement/*.rs"]}
{"id": "C49", "title": "Half-open ranges stay half-open and is_empty is exact on them", "statement": "A program over half-open ranges (a..b, a.., ..b) only produces half-open ranges and sets; a value bounded below all of whose starts are inclusive is reported empty exactly if it has no element.", "quantifier": "all programs over half-open values", "why_tests_cant": "Unbounded programs.", "anchors": ["src/implementations/union/*.rs", "src/implementations/intersection/*.rs", "src/implementations/rangetools/*.rs"]}
{"id": "C50", "title": "Results do not grow beyond their operands", "statement": "A union or intersection has at most as many lower (upper) bounds as its operands together, a complement at most as many lower bounds as the operand has upper bounds and conversely; the result of a program has at most as many bounds as all values it starts from.", "quantifier": "all well-formed values and programs", "why_tests_cant": "Unbounded sizes.", "anchors": ["src/implementations/union/*.rs", "src/implementations/intersection/*.rs"]}
{"id": "C51", "title": "Iterating the result of a program yields the denoted elements", "statement": "Evaluating any program and iterating its result visits exactly the elements of the set the program means, ascending and once each.", "quantifier": "all programs, all steppable types, both builds", "why_tests_cant": "Combines unbounded programs with unbounded iteration.", "anchors": ["src/implementations/union/*.rs", "src/bounded_set.rs BoundedSetIter", "src/lower_bounded_set.rs LowerBoundedSetIter"]}
{"id": "C52", "title": "No operation hangs, even for an unlawful Ord", "statement": "union, intersection, complement, disjoint and intersects always return or panic, whatever cmp answers. A panic needs two non-empty ranges of which only one intersects the other; so with an antisymmetric cmp whose Equal is identity, transitive or not, nothing panics.", "quantifier": "all values, all comparison functions", "why_tests_cant": "Quantifies over all comparison functions.", "anchors": ["src/bounded_set.rs add_range, defragment", "src/lower_bounded_set.rs defragment", "src/upper_bounded_set.rs defragment", "src/unbounded_set.rs defragment"]}
{"id": "C53", "title": "Constructors build what they say", "statement": "LowerBound/UpperBound::included and ::excluded delimit the half-lines >=, >, <=, <; ranges built by new contain exactly the values between their bounds; BoundedSet::empty, the From conversions to sets and UnboundedSet::new contain exactly what their arguments do; to_bound gives back the bound.", "quantifier": "all endpoints, all t, any ordered type", "why_tests_cant": "Universal over endpoints and element types.", "anchors": ["src/bound.rs excluded, included, to_bound", "src/*_range.rs new, contains", "src/bounded_set.rs From, empty", "src/unbounded_set.rs new"]}
{"id": "C54", "title": "Bounds over partially ordered types compare lawfully", "statement": "For element types that are only PartialOrd (floats), comparing bounds meets the contract of PartialOrd, is undefined exactly when the endpoints are incomparable, and a smaller lower (upper) bound admits at least (at most) the values of a larger one.", "quantifier": "all partially ordered element types, all bounds", "why_tests_cant": "Quantifies over all partial orders.", "anchors": ["src/bound.rs PartialOrd for LowerBound, UpperBound"]}
{"id": "C55", "title": "Unit-like ranges are all equal", "statement": "All EmptyRange values compare equal, as do all UnboundedRange values; default is new.", "quantifier": "all values", "why_tests_cant": "Trivial per value; stated for completeness of the derived impls.", "anchors": ["src/empty_range.rs derive(Default, Ord)", "src/unbounded_range.rs derive(Default, Ord)"]}
{"id": "C56", "title": "step_by, skip and take over the crate's iterators", "statement": "step_by(k) gives every k-th element beginning with the first, skip(n) all but the first n, take(n) the first n; also after rev(), and never a panic or an endless loop.", "quantifier": "all bounded and lower-bounded ranges and sets, all steppable types, all k and n, both builds", "why_tests_cant": "Universal over ranges, strides and builds; std's adaptors call the overridden nth with arguments past the end.", "anchors": ["src/bounded_range.rs nth, nth_back", "src/bounded_set.rs nth, nth_back", "src/lower_bounded_range.rs nth", "src/lower_bounded_set.rs nth"]}
{"id": "C57", "title": "A set takes in a range by merging exactly the pieces it overlaps", "statement": "combine returns the other range when one is empty, the union of two overlapping ranges, and panics on two non-empty ranges clear of each other; add_range on any set yields the union, and on a well-formed set keeps the pieces clear of the new range and merges the others with it into one.", "quantifier": "all ranges, all sets (contents: even ill-formed), any ordered type", "why_tests_cant": "Universal over set sizes, ranges and orderings.", "anchors": ["src/bounded_range.rs combine", "src/bounded_set.rs add_range"]}
{"id": "C58", "title": "Ill-formed sets can be repaired with the API", "statement": "Whatever pieces a set holds (overlapping, empty, unordered, e.g. deserialised), its complement is well-formed, two complements give a well-formed set with the same elements, and so does adding a bounded set to the empty set.", "quantifier": "all representations of sets, any ordered type", "why_tests_cant": "Unbounded sets with arbitrary ill-formed contents.", "anchors": ["src/implementations/complement/*.rs", "src/bounded_set.rs add_set", "src/*_set.rs derive(Deserialize)"]}
{"id": "C59", "title": "Deserialisation accepts exactly the documents that say a value", "statement": "Reading a document gives a value exactly when the document holds each field of the type once (by name or index, in any order, other fields ignored, or as a sequence of the right length) with readable contents; a repeated, missing or misspelt field, an unknown variant or an unreadable element is refused; the names written are those of the source.", "quantifier": "all documents in serde's data model, all types with derives, all element codecs", "why_tests_cant": "Universal over documents.", "anchors": ["src/*.rs cfg_attr(feature = \"serde\", derive(Deserialize, Serialize))"]}
{"id": "C60", "title": "Collecting into a Vec", "statement": "collect::<Vec<_>>() returns exactly what a loop over next sees, or panics: it never hangs. A bounded range or set is collected in order (reversed after rev()) exactly when it does not reach the extreme value and its elements fit in isize::MAX bytes; a lower-bounded iterator always panics, since it announces usize::MAX elements, but take(n) of it is collected.", "quantifier": "all ranges and sets, all steppable types, all element sizes, both builds", "why_tests_cant": "Universal over ranges; the failing cases need more memory than any test machine has.", "anchors": ["src/bounded_range.rs next, size_hint", "src/bounded_set.rs next, size_hint", "src/lower_bounded_range.rs next, size_hint", "src/lower_bounded_set.rs next, size_hint"]}
{"id": "C61", "title": "== is an equivalence that every operation respects", "statement": "Equality of values is reflexive, symmetric and transitive; union, intersection, complement, to_inner, to_set, disjoint, intersects, contains and is_empty give equal answers (or the same panic) on equal operands, even on ill-formed sets, and so does every program of them.", "quantifier": "all values of all types, well-formed or not, any element type keeping Ord's contract, whose equal elements may be distinct values", "why_tests_cant": "Universal over programs; tests use integers, whose equal elements are identical.", "anchors": ["src/*.rs derive(Eq, PartialEq)", "src/implementations/**"]}
{"id": "C62", "title": "Endpoints matter only through comparisons", "statement": "Replacing the endpoints of all operands by others in the same order (even of another type) commutes with every operation and every program; so every program over any type does what it does when its endpoints are numbered 0, 1, 2, ... in order.", "quantifier": "all element types, all order-keeping maps, all programs; for the replacement itself any cmp and == whatsoever", "why_tests_cant": "Parametricity in the element type; it is what makes tests on small integers representative.", "anchors": ["src/implementations/**", "src/bounded_set.rs add_range", "src/*_set.rs defragment"]}
{"id": "C63", "title": "Looping over the std range a crate range is converted to", "statement": "Range::from and RangeInclusive::from of a bounded range, where they return, iterate over exactly its elements from both ends under any next/next_back/nth/nth_back calls, without a panic even at the greatest value and with any argument; the rest, converted back, holds the elements left unless the RangeInclusive is exhausted. RangeFrom::from of a lower-bounded range answers as the range's own iterator, panics included.", "quantifier": "all bounded and lower-bounded ranges, all steppable types, all sequences of calls, both builds", "why_tests_cant": "Universal over ranges and call sequences; relates two iterators of different design.", "anchors": ["src/bounded_range.rs From<BoundedRange> for Range, RangeInclusive; From<Range>, From<RangeInclusive>", "src/lower_bounded_range.rs From<LowerBoundedRange> for RangeFrom; next, nth"]}
{"id": "C64", "title": "Towers of std adaptors over the crate's iterators", "statement": "rev, map, enumerate, zip, take, skip and chain, piled up in any way Rust's types allow over ranges and sets of any steppable types, answer any sequence of next, next_back, nth, nth_back and len calls as a list of the expected items does, and find, find_map, any, all, position, rfind, rposition and try_fold with any closure answer from that list, provided the sources stay away from the extreme values of their types, have at most usize::MAX elements, and nothing is skipped beyond the end.", "quantifier": "all towers of adaptors of any height, all sources, all sequences of calls with nth within the length, both builds", "why_tests_cant": "Unbounded towers and call sequences; std's adaptors rely on len, nth and nth_back agreeing with next.", "anchors": ["src/bounded_range.rs next, next_back, nth, nth_back, size_hint", "src/bounded_set.rs next, next_back, nth, nth_back, size_hint"]}
{"id": "C65", "title": "Adding a range nests exactly as many calls as pieces it overlaps", "statement": "BoundedSet::add_range on a well-formed set and a non-empty range calls itself to a depth of one more than the number of stored pieces overlapping the range; so no bound on the stack suffices for all sets.", "quantifier": "all well-formed sets, all ranges, any ordered type, all stack limits", "why_tests_cant": "Universal over set sizes; a stack overflow only shows with very many pieces.", "anchors": ["src/bounded_set.rs add_range"]}
{"id": "C66", "title": "Iteration over any type whose Step meets its documentation", "statement": "The documentation of Step lets forward and backward panic, wrap or saturate on overflow. Whichever they do, in every build: loops over ranges and sets without the greatest (backwards: least) value, call histories away from both, and lower-bounded iteration with an element left return exactly the elements in order; and no loop over a range with the greatest value ends except by a panic.", "quantifier": "all element types and Step implementations meeting the documented contract, both builds, all ranges, sets of the public API and call histories", "why_tests_cant": "Quantifies over all implementations of a public trait.", "anchors": ["src/step.rs Step::forward, Step::backward", "src/bounded_range.rs BoundedRangeIter", "src/bounded_set.rs BoundedSetIter", "src/lower_bounded_range.rs", "src/lower_bounded_set.rs"]}
{"id": "C67", "title": "Searching the crate's iterators", "statement": "try_fold, find, find_map, any, all and position on the iterator of any range or set, rfind and rposition on bounded ones, and cmp and eq of two iterators, answer what the elements in order determine; they panic exactly if they get as far as the greatest (from the back: least) value of the type or the count passes usize::MAX; a search of an endless iterator ends just if there is something to find; any(|x| x == t) agrees with contains; the iterator goes on after the element at which the search stopped.", "quantifier": "all steppable types, all values of the public API with pieces of at most usize::MAX elements, all closures and predicates, also panicking closures; in release builds whenever a debug build returns", "why_tests_cant": "Universal over closures and collections; endless iteration cannot be tested.", "anchors": ["src/bounded_range.rs next, next_back, size_hint", "src/bounded_set.rs next, next_back, size_hint", "src/lower_bounded_range.rs next", "src/lower_bounded_set.rs next", "src/empty_range.rs into_iter"]}
{"id": "C68", "title": "Going on after a caught panic", "statement": "If a call on an iterator panics and the panic is caught, the iterator can be used further: no element is handed out twice or out of order, none that is not in the collection, and none is lost unless nth or nth_back passed over it. A panicking next leaves the iterator over the greatest value alone, which next_back then hands out (and the mirror image). nth on a lower-bounded set does not leave the iterator as it was: the pieces are gone although the range above has not moved. Release builds never panic over integers.", "quantifier": "all steppable types, all values of the public API with pieces of at most usize::MAX elements, all sequences of calls with any of them panicking; release: all integer types, all iterator states", "why_tests_cant": "A panic is an abnormal path: universal over the call at which it happens and over what is called after it.", "anchors": ["src/bounded_range.rs next, nth, next_back, nth_back", "src/bounded_set.rs next, nth, next_back, nth_back", "src/lower_bounded_range.rs next, nth", "src/lower_bounded_set.rs next, nth", "src/step.rs forward, backward"]}
{"id": "C69", "title": "What is proved of the model is true of the source text", "statement": "The text of the crate, read by a program into a syntax tree and run by an interpreter for Rust, gives on all operands of all fifteen types exactly what the model functions give: union, intersection, complement, disjoint, intersects, is_empty, to_inner, to_set and contains return the same value or panic alike, and so does every program of them; every run has one outcome. So the elements of a union, intersection or complement computed by the text itself, asked for with contains, are those of the mathematical one, except for the intersection of two LowerBoundedSets, where the text itself loses elements.", "quantifier": "all values of all types, well-formed or not, any element type and any cmp, both builds, all platforms", "why_tests_cant": "Universal over operands; connects the proofs to the code rather than to a reading of it.", "anchors": ["src/lib.rs", "src/bound.rs", "src/*_range.rs", "src/*_set.rs", "src/implementations/**"]}
{"id": "C70", "title": "The iterators, conversions and Step of the model are those of the source text", "statement": "The text of the crate, run by an interpreter for Rust, gives exactly what the model gives for every call on the four iterators (the reply and the iterator left behind, or the panic), hence for every history of calls; for into_iter and the consuming methods size_hint, count, min, max and last; for a client's while-let loop over a range or set; for every conversion between the crate's ranges, std's ranges and sets; and for all five methods of Step on all twelve integer types and char. So the results about iteration are about the text: an iterator of a bounded range obtained by running into_iter answers as a double-ended queue of its elements, and the loop collects the elements in order and panics if and only if the greatest value is one of them.", "quantifier": "all iterator states, histories, ranges and sets, any element type whose Step ends, all integers and chars, both builds, pointer widths 16, 32 and 64", "why_tests_cant": "Universal over states and histories; connects the proofs to the code rather than to a reading of it.", "anchors": ["src/step.rs", "src/bounded_range.rs", "src/bounded_set.rs", "src/lower_bounded_range.rs", "src/lower_bounded_set.rs", "src/upper_bounded_range.rs", "src/unbounded_range.rs", "src/empty_range.rs"]}
{"id": "C71", "title": "Bounds, constructors and indexing of the model are those of the source text", "statement": "The text of the crate, run by an interpreter for Rust, gives exactly what the model gives for comparing, taking the min and max of, making, unwrapping, flipping and mapping bounds (map with any closure, into any type), for the constructors of ranges and sets, and for indexing: the body of every Index and IndexMut impl indexes with the std range the model converts to, so slices, vectors, strings, C strings and system strings select the positions of the model or panic with it, and there are no other such impls. So max and min of bounds computed by the text are intersection and union of half lines, flipped is the complement, BoundedRange::new(a, b) has the elements between a and b, and indexing a slice picks exactly the positions in the range.", "quantifier": "all bounds, any element type and any cmp, all closures, all ranges of usize, all lengths and strings, both builds, all platforms", "why_tests_cant": "Universal over bounds and ranges; connects the proofs to the code rather than to a reading of it.", "anchors": ["src/bound.rs", "src/*_range.rs new", "src/bounded_set.rs empty", "src/unbounded_set.rs new", "src/implementations/index/**"]}
{"id": "C72", "title": "Loops of the source that never end", "statement": "A client's loop over a range or set of the crate, and last of a set iterator, run on the text of the crate by the interpreter, give a value, panic or run forever exactly as the loops of the model do; running forever means that no amount of fuel is enough. So, for the integer types without overflow checks: the loop over a bounded range runs forever exactly if the greatest value is in it; the loop over an empty range ending at Excluded(MIN) runs forever, and one starting at Excluded(MAX) visits everything below its end; over a set of a type narrower than usize it runs forever exactly if the greatest value is in it, of a wider type never; last of a set runs forever exactly if the greatest value is one it sees; over lower-bounded ranges and sets the loop always runs forever. With overflow checks every loop over a bounded range or set ends, and those over lower-bounded ranges and sets panic if the type has a greatest value.", "quantifier": "all ranges, sets and iterator states, any element type with a Step impl (the release statements: all integer types), both builds, all platforms, any fuel", "why_tests_cant": "Universal over values and over the length of executions; no test observes that a loop never ends.", "anchors": ["src/bounded_range.rs iter", "src/bounded_set.rs iter and last", "src/lower_bounded_range.rs iter", "src/lower_bounded_set.rs iter", "src/step.rs"]}
{"id": "C73", "title": "Client programs on the source do what the model says", "statement": "A client program that keeps sets in variables, combines them with the operations of the crate, branches on is_empty, contains, disjoint, intersects and comparisons of elements, loops over sets with for, and with loop and break, and keeps iterators in variables from which it takes elements with next and next_back (all nested as it likes), run on the text of the crate by the interpreter, gives a set or a boolean, panics or runs forever exactly as the model of the program says; the model has at most one outcome. A program that is well-typed by the result types of the trait impls never goes wrong, and the set it gives has the type those rules give it.", "quantifier": "all programs of the language, all values of all fifteen types, any element type with a Step impl, both builds, all platforms, any fuel", "why_tests_cant": "Universal over programs: the composition of the operations is not tested by testing each of them.", "anchors": ["src/lib.rs", "src/bound.rs", "src/*_range.rs", "src/*_set.rs", "src/implementations/**", "src/step.rs"]}
{"id": "C74", "title": "Client programs mean what they say", "statement": "The client programs of C73 have a meaning in mathematics: variables hold sets of points of the order with its gaps filled in, the operations are union, intersection and complement, the questions are about points, an iterator gives the elements of its set, each once, the least that is left at its front and the greatest at its back, and a program has at most one such meaning. The text of the crate, run by the interpreter with overflow checks, gives a set with exactly the points that are meant, or the truth of the condition that is meant, or panics, and panics only where an iterator comes to the greatest value of the type at its front or the least at its back, or where it starts on a range without elements, or on a set without upper bound, of a type with an extreme value. A program whose meaning is reached does not run forever. Without overflow checks the text gives the same sets and booleans. The only programs of which nothing is said are those that intersect two LowerBoundedSets or iterate over a set with more than usize::MAX consecutive elements; for well-typed programs over integers narrower than usize, or chars, only the former.", "quantifier": "all programs of the language, all starting sets the API can make, any element type with a lawful Step impl, all platforms", "why_tests_cant": "Universal over programs and their loops; the meaning is stated without the crate's representation, so no amount of examples covers the agreement.", "anchors": ["src/lib.rs", "src/bound.rs", "src/*_range.rs", "src/*_set.rs", "src/implementations/**", "src/step.rs"]}
{"id": "C75", "title": "Debug texts tell values apart", "statement": "The Debug text of a value or an iterator is the declaration of its type filled in: with {:?} on one line, with {:#?} each part on its own line, indented by four spaces for each level. Two values (of any of the fifteen types) with the same text are the same value of the same type, and two iterators with the same text are in the same state, so two values are == exactly if their texts are the same.", "quantifier": "all values of all fifteen types and the four iterators, both formats, any element type whose own texts are single lines (layout) and show which element they are of (distinctness); shown for all integer types and char, whatever std's table of printable chars", "why_tests_cant": "The format is nested and the number of pieces is not bounded; that no two values collide is a statement about all pairs.", "anchors": ["src/bound.rs:9-16", "src/bound.rs:62-64", "src/bound.rs:163-165", "src/bounded_range.rs:23-30", "src/bounded_range.rs:166-170", "src/lower_bounded_range.rs:18-23", "src/lower_bounded_range.rs:104-107", "src/upper_bounded_range.rs:17-22", "src/unbounded_range.rs:16-18", "src/empty_range.rs:16-20", "src/bounded_set.rs:15-20", "src/bounded_set.rs:112-115", "src/lower_bounded_set.rs:18-24", "src/lower_bounded_set.rs:109-113", "src/upper_bounded_set.rs:14-20", "src/unbounded_set.rs:22-29", "src/unbounded_set.rs:83-90"]}
{"id": "C76", "title": "Work done by unions and intersections of sets", "statement": "Adding a range to a well-formed set of n pieces, of which k overlap it and i lie before it, runs the overlap test n + k*i times and compares starts at most n times; so at most n*n/4 + n tests, which is attained. Taking a well-formed set of n pieces into an empty one costs n(n-1)/2 tests and as many comparisons. A union of sets of n and m pieces never needs more than (n+2m)(n+m) tests, over any order, lawful or not. Intersecting well-formed sets of n and m pieces intersects n*m pairs of ranges, and for a result of k pieces makes k(k-1)/2 tests and as many comparisons.", "quantifier": "all sets, all ranges, any ordered type; the last bound for all implementations of Ord", "why_tests_cant": "Universal over set sizes and shapes; running times are not tested.", "anchors": ["src/bounded_set.rs add_range, add_set", "src/implementations/intersection/bounded_set.rs:7-36"]}
{"id": "C77", "title": "The algebra of sets up to ==", "statement": "A program of unions, intersections and complements on valid sets returns a value determined up to == by the points it covers and the cuts of the line that one of its parts runs over, both given by Boolean rules on the operands. Two programs of the same set type are == exactly when they agree on both. So absorption, distributivity and the De Morgan law for unions hold up to ==, three complements are one, two complements give the set back exactly when no two of its parts touch, and the De Morgan law for intersections holds exactly when no cut separates a point that only one operand lacks from one that only the other lacks.", "quantifier": "all programs on valid values of any ordered type that intersect no two LowerBoundedSets and complement no bounded range", "why_tests_cant": "Universal over programs and sets; == sees how sets are cut into pieces, which membership tests do not.", "anchors": ["src/bounded_set.rs", "src/lower_bounded_set.rs", "src/upper_bounded_set.rs", "src/unbounded_set.rs", "src/union.rs", "src/intersection.rs", "src/complement.rs"]}
{"id": "C78", "title": "Counting unions, intersections and differences", "statement": "For programs x and y with bounded results whose endpoints are not the extremes of the type, looping over x | y gives the elements of y and those of x that are not in y; over x & y those of x that are in y; over x & !y those that are not; each once. So the lengths add up as for finite sets, in both builds, and so do the answers of len if the union has at most usize::MAX elements (otherwise not).", "quantifier": "all programs, all steppable types, both builds", "why_tests_cant": "Unbounded programs and unbounded iteration combined.", "anchors": ["src/implementations/union/*.rs", "src/implementations/intersection/*.rs", "src/bounded_set.rs BoundedSetIter", "src/bounded_range.rs BoundedRangeIter"]}
{"id": "C79", "title": "The crate is the same in both directions of the order", "statement": "Over std's Reverse<T>, with lower and upper bounds and types exchanged in its operands, a program of unions, intersections and complements returns the mirror image of what it returns over T, up to ==, unless it intersects two LowerBoundedSets or two UpperBoundedSets; intersecting two UpperBoundedSets has a mirror image that loses elements.", "quantifier": "all programs with set results on valid sets that complement no bounded range, any ordered type", "why_tests_cant": "Universal over programs and types; relates two impls that share no code.", "anchors": ["src/implementations/union/*.rs", "src/implementations/intersection/*.rs", "src/implementations/complement/*.rs", "src/lower_bounded_set.rs", "src/upper_bounded_set.rs"]}
{"id": "C80", "title": "The complement of a set is the list of its gaps", "statement": "The complement of a valid set is, up to ==, what lies before its first part, between its parts and after its last, without the gaps that have no room; where no part ends exactly where the next begins its lower bounds are the set's upper bounds turned round, in order, and its upper bounds the set's lower bounds.", "quantifier": "all valid sets of the four types, any ordered type", "why_tests_cant": "Universal over sets and types; the code folds intersections of complements of single pieces.", "anchors": ["src/implementations/complement/*.rs", "src/implementations/intersection/*.rs"]}
{"id": "C81", "title": "The intersection of two bounded sets is the list of the overlaps of their pieces", "statement": "The pieces of the intersection of two valid BoundedSets are the overlaps of the pairs of pieces that are not clear of each other, in the order of the pairs, none missing, merged or repeated; sets of n and m pieces (not 0) have at most n + m - 1 overlaps.", "quantifier": "all pairs of valid BoundedSets, any ordered type", "why_tests_cant": "Universal over sets and types; the code adds the overlaps with add_range, which could merge them.", "anchors": ["src/implementations/intersection/bounded_set.rs", "src/implementations/intersection/bounded_range.rs", "src/bounded_set.rs"]}
{"id": "C82", "title": "The pieces of a set are the groups of ranges linked by overlaps", "statement": "When ranges are united one by one, or two valid BoundedSets are united, every non-empty range (piece) ends up within one piece of the result, every piece of the result holds one, and two of them end up in the same piece exactly if a chain of ranges, each overlapping the next, leads from one to the other. The same holds for the parts of the union of two valid sets of any of the four set types.", "quantifier": "all lists of ranges in any order and all pairs of valid sets, any ordered type", "why_tests_cant": "Universal over lists, orders of insertion and types; chains have any length.", "anchors": ["src/bounded_set.rs", "src/bounded_range.rs", "src/lower_bounded_set.rs", "src/upper_bounded_set.rs", "src/unbounded_set.rs", "src/implementations/union/*.rs"]}
