# Formal model of rangetools in Rocq (Coq 8.16.1)

## Approach

* The Rust code is re-expressed function by function as small Gallina functions (`Model*.v`),
  each with a comment citing the file and lines in `/repo`.
* Panics and non-termination are data: `outcome A := Ret a | Panic | Diverge`. Every `assert!`,
  `unwrap`, `expect`, out-of-range index and (in builds with overflow checks) arithmetic overflow
  is an explicit `Panic`. Loops and self-recursive methods take fuel computed from the data and
  return `Diverge` when it runs out; the theorems show neither is returned.
* The element type `T: Copy + Ord` is a Coq type with a class `Ord` (the operations the code calls)
  and a class `OrdLaws` (the contract of `Ord`: a total preorder with `==` agreeing with `cmp`).
  `OrdStrict` (elements that compare equal are identical) is assumed only where structural `==` of
  results is claimed. The classes are visible arguments of each theorem; they are instantiated for
  every primitive integer type, for `char`, for `Z` and (dense case) for `Q`-like orders.
* `T: Step` is a class `Step` (operations) plus `StepLaws` (order-isomorphic to an interval of
  `Z`); the integer and `char` implementations are modelled bit-exactly and proved to satisfy it.
* Build mode (`overflow-checks` on/off) is the parameter `mode := Debug | Release`; pointer width
  is a parameter of the integer model.

## Plan per property

| id | modelled | proof |
|----|----------|-------|
| C01-C03 | every `RangeUnion`/`RangeIntersection`/`RangeComplement` impl, dispatched on 15 operand types | bounds as cuts of the order; loop invariants for `add_range`/`defragment`; case analysis over impls. C02 is false for LowerBoundedSet x LowerBoundedSet: refutation by witness, exact description of what that impl computes, and the full theorem for all other pairs |
| C04, C05 | all of the above with explicit panics and fuel | invariant `wf`, preserved by every operation; induction over the public-API reachability relation |
| C06 | expression trees over the API with an independent denotation | induction over expressions |
| C07-C09 | `is_empty`, `disjoint`, `intersects` | from C02; exactness under density; refutation on integers |
| C10, C11, C16, C45 | `add_range`/`add_set`, derived `==` | coverage relation (which segments are covered) is invariant under insertion and determines a well-formed list |
| C12, C13, C46 | as C01-C03 | corollaries; C13 refuted in general |
| C14, C17 | `to_inner`, `to_set`, result kinds | case analysis |
| C15, C44 | `bound.rs` | order reasoning |
| C18-C22 | `step.rs` with explicit wrapping arithmetic, generic in bit width, signedness and pointer width; `char` | modular arithmetic |
| C23-C33 | the four iterator types as state machines, two build modes | refinement to a list used as a double-ended queue; induction over call histories; refutations at type extremes; sets with pieces of exactly `usize::MAX + 1` elements, whose `len` panics, in IterBrim.v and IterBrim2.v |
| C34-C37 | `From` impls, std ranges (with the `exhausted` flag) | from C18-C20 |
| C38-C41 | `Index`/`IndexMut` impls over a model of std slice/str indexing | list lemmas |
| C42, C43 | derived serde impls over an abstract data-model tree | structural induction; C43 refuted |
| C47 | derived `Hash` and std's `Hash` of ranges and `VecDeque`, as the words fed to the hasher | `==` values feed the same words; piecewise |
| C48-C50 | as C01-C06; `lows`/`highs`/`endpoints` of values | provenance of bounds, without any law of the order; counting |
| C51 | iterating the results of programs | C06 with the exact results of C23/C29/C31 |
| C52 | as C01-C03, for an `Ord` without any law | termination measure on the pieces; the only panic left is the assertion in `combine`, which takes an `intersects` that is not symmetric |
| C53, C55 | constructors, `to_bound`, unit-like ranges | case analysis |
| C56 | std's `step_by`, `skip`, `take` running on the crate's `nth` | generic lemma over an iterator given by its `nth`, instantiated four times; modular arithmetic in release |
| C59 | which documents deserialisation accepts, against a separate relation (SpecSerde.v) | case analysis, lists |
| C60 | `collect` into a `Vec` (std's preallocation and the hints of `take`, `skip`, `step_by` modelled in ModelCollect.v), both builds | relation, bounded by memory |
| C61 | derived `==` as an equivalence, and a congruence for all operations | equal values are two views of one value over pairs of equal elements, then C62 |
| C62 | operations commute with order-keeping maps of the endpoints; numbering the endpoints | one commutation lemma per model function (NaturalProofs.v), restriction to the listed elements |
| C06, C07, C08, C16 on orders with gaps | the order filled in with points between elements (SpecFill.v) | the filled order is dense, the inclusion keeps comparisons, so C62 carries the dense theorems over |
| C63 | std's iterators of `Range`, `RangeInclusive`, `RangeFrom` (ModelStdIter.v) on converted ranges, against a list of the elements | one step lemma per std function, induction over the calls |
| C64 | std's double-ended adaptors as records of methods (ModelPipe.v), a tower of them as an indexed inductive type; the list a tower stands for (SpecPipe.v) | an invariant `good` between an iterator and a list, preserved by each adaptor; induction over the tower; searching (PropertiesSearch2.v) by induction over the list |
| C65 | the fuel of `add_range` as a limit on nested calls; pieces overlapping the range counted by a list | induction on the limit |
| C66 | the documented contract of `Step` with overflow left open (`StepContract`) | each iterator method simulated by the one over a `Step` with the trait's provided, panicking methods; for a range with the greatest value, `next` never returns `None` |
| C67 | std's `try_fold`, `try_rfold` and `iter_compare` as relations, the searching methods from them (ModelSearch.v); first element satisfying a predicate, rank (SpecSearch.v) | an abstract notion of going through a collection by an increasing key, with one instance forwards and one backwards for all iterators of the crate |
| C68 | the iterators' calls again with the state they leave behind when they panic (ModelUnwind.v): an assignment happens after its right-hand side has returned; `run_caught` catches every panic | a panic that loses nothing is a call without effect on the list of what is still to come; otherwise that list gets shorter |
| C69 | the text of the crate as a syntax tree (Source.v, written by `tools/gen_source.py`), an interpreter for it (RustEval.v: `runs`, no fuel), encodings of the model's data types as its values (RustEnc.v) | symbolic execution: every function of the source proved to end as its model function does, bottom up, callers using the lemmas about callees |
| C70 | the same for the iterators, the conversions and `Step` (RustIter*.v, RustStep*.v); `does` also gives the variables after the call, `src_run` is a history of calls in the text, `loop_of` the text of a client's `while let` loop | as C69; the loops of the set iterators and of the client by induction on the pieces or on `drains`; integer arithmetic of the interpreter against `mint` for the twelve types and three pointer widths |
| C71 | the same for bounds, constructors and indexing (RustBounds.v); `src_index` looks the impl up in the source, runs the index expression of its body and hands the std range it ends with to std's indexing as modelled in ModelIndex.v | as C69; `headers` lists the impls of the source |
| C72 | running forever: `exec` of RustEval.v says `Diverge` whatever the fuel (`never`) | the loop of the text from a state either has an outcome in the model or uses up any given fuel, by induction on the fuel (RustForever.v); which loops of the model do not end from IterRelease.v and IterForever.v |
| C73 | a language of client programs (ClientProg.v: set expressions, conditions, `let`, assignment, `if`, `for`, `loop`, `break`, iterators in variables with `next` and `next_back`), its meaning in the model as a big-step relation `prun` (`None`: ill-typed), its text in the interpreter's syntax (`ptext` of RustProg.v), its typing by the result kinds of Spec.v (ClientTypes.v) | `gives` (RustGives.v) says what a piece of interpreter code does to an environment, under any continuation and both for `runs` and for using up fuel, so one proof serves both; then induction on `prun`, and on the fuel for endless programs (RustProgEnds.v) |
| C74 | the meaning of those programs as mathematics (SpecProg.v: sets of points of the filled-in order, iterators as the set of what is left, its least element at the front and its greatest at the back; `None` where nothing is said), which programs it speaks of (`pclean`, ProgClean.v) | a simulation: every run of the model has a mathematical run that agrees (ProgMeaning.v, by induction on the run), every mathematical run that ends has a run of the model (ProgComplete.v, by induction on it); debug values are release values; then C73 |
| C75 | texts as lists of `char`s; std's builders with `PadAdapter`, the derived `Debug` impls (ModelDebug.v) against shapes laid out by depth (SpecDebug.v) | `PadAdapter` moves a text one margin further in; texts without spaces are codes, so nothing need be known of the layout |
| C76 | `add_range`, `add_set` and the intersection of two `BoundedSet`s counting the calls of their search closures (ModelCost.v) | counting changes nothing; induction over the overlapped pieces; potential argument without order laws |
| C77 | seams (SpecSeam.v): cuts of the line that a part of a value runs over; points from SpecFill.v | unions, intersections and complements computed place by place (Cuts.v), equal places give `==` (Canon.v) |
| C78 | C51's loops and `len` over unions, intersections and differences | strictly sorted lists, permutations |
| C79 | programs over `Reverse<T>` (SpecMirror.v) | C77: points and seams of the mirror image |
| C80 | complements of sets as lists of gaps (SpecGaps.v) | places: ends and starts take turns; canonicity |
| C81 | overlaps of pairs of pieces (PropertiesOverlap.v) | C76: the pieces come in ascending order, so `add_range` merges none |
| C82 | chains of overlapping ranges (PropertiesLinked.v), chains of parts (PropertiesChained.v) | places of the result; each range is linked to one that starts where its piece starts; for the other set types, parts as bounded ranges over the type with two ends added |
| C57, C58 | `combine` and `add_range` piece by piece; repairing ill-formed sets | induction on the stored pieces |
| C54 | `PartialOrd` of bounds for any `PartialOrd` element type | case analysis on three comparisons |

Nothing on the list is inexpressible in a model.

## Trusted base

* Coq 8.16.1's kernel (and its `vm_compute` reduction, used for concrete examples and for the
  project's own tests).
* Every theorem named in `MANIFEST.json` prints "Closed under the global context" under
  `Print Assumptions`: no axiom, no `Admitted`, no section-less `Variable`, no disabled kernel check.
  The element type and its laws are ordinary arguments (classes `Ord`, `OrdLaws`, `OrdStrict`,
  `DenseOrd`, `Step`, `StepLaws`, `Hash`, `Codec`), so each assumption is visible in the statement, and each
  class has instances in the development.
* `vcheck`/`coqchk` list seven axioms of the standard library file `Coq.ssr.ssrunder`
  (`Under_rel.Over_rel`, `Under_rel_from_rel`, `over_rel`, `over_rel_done`, `Under_rel`,
  `Under_relE`, `under_rel_done`). That file is loaded by the standard library itself (through
  `Lia`/`ssreflect` support); no theorem here depends on them. The only libraries used are the
  standard library's.
* That the model is a faithful reading of the Rust code. Evidence: each definition cites the lines
  it models; `RepoTests.v` runs every `#[test]` function of `src/test` and every documentation
  example in the model (translated mechanically by `tools/gen_repo_tests.py`); and for the algebra,
  the iterators, the conversions, `Step`, bounds and indexing C69, C70 and C71 prove it, which leaves to trust what is listed under "The translated source".
* The specification files (`Spec*.v`), which use the data types but none of the model's functions.

### Modelled

| code | model | notes |
|------|-------|-------|
| `src/bound.rs` | `ModelBound.v`, `ModelPartial.v` | `Ord::cmp`'s `unwrap` cannot fail because `partial_cmp` of a `T: Ord` is assumed to return `Some(cmp)` |
| `src/*_range.rs` | `ModelRanges.v`, `ModelConv.v`, `ModelIter.v` | std ranges as records; `RangeInclusive` with its `exhausted` flag |
| `src/*_set.rs` | `ModelSets.v`, `ModelIter.v` | `VecDeque` as a list; the recursion of `add_range` and the loops of `defragment` with fuel, proved sufficient |
| `src/implementations/{intersection,union,complement}` | `ModelAlgebra.v`, `ModelValue.v` | one definition per impl with code of its own; trait resolution over all 15 x 15 operand types as a dispatch function |
| `src/implementations/rangetools`, `src/lib.rs` | `ModelValue.v` | `is_empty`, `to_inner`, `to_set`, `disjoint`, `intersects` |
| `src/step.rs` | `ModelStep.v` | all twelve integer types, pointer widths 16/32/64, both overflow modes, `char`; arithmetic explicit and wrapping |
| `src/implementations/index` | `ModelIndex.v` | slices, `Vec`, `str`, `String`, `CString`, `OsString`; std's own indexing is specified from its documentation |
| derived `PartialEq`, `Hash`, `Serialize`, `Deserialize`, `Debug` | `ModelEq.v`, `ModelHash.v`, `ModelSerde.v`, `ModelDebug.v` | what the derives generate; hashers are the sequence of words fed, serde formats a data-model tree |

### The translated source

`tools/gen_source.py /repo/src` writes the functions of the crate, without tests, as the syntax tree
`Source.v`; run it again to check that file. For C69 to C74 one trusts the translator (a parser; what else it
does is listed at its head), the syntax (`RustSyntax.v`) and the interpreter (`RustEval.v`), in
place of the reading of the code in `Model*.v`. The interpreter simplifies:

* `&mut` arguments are copied in at the call and out at the return; `&x` is a copy;
* method calls take the first impl that fits, inherent methods before those of the traits in
  scope (`C69_calls_unambiguous`: for no call of the source is there a second one), with receiver types found from the value at run time; of the generic arguments only the
  ones that decide between impls are looked at, and a result type is passed where the source needs it;
* lazy iterator adaptors (`map`, `filter`, ...) run at once, which is the same as the closures of
  the crate have no side effects on each other;
* std's `Option`, `Ordering`, `VecDeque`, `RangeInclusive`, `Iterator` methods and the primitive
  operations and conversions of integers and `char` are built in;
* comparisons `==`, `<`, ... of elements and the methods of `Step` on them are the classes' operations (C70
  proves the impls of `Step` for integers and `char`, run as text, equal to the instances of the class); those of
  structs and enums are derived or the crate's impls.

### Not modelled, or assumed

* Derived `Clone` and `Copy`.
* Memory layout, running time (but the tests made by `add_range` are counted, C76), allocation failure (`ModelCollect.v` has std's capacity overflow of `Vec`,
  with an allocator that never fails), capacity overflow of `VecDeque`, stack overflow of
  the recursive methods (the model's recursion is total; its depth is C65).
* Element types whose `Ord`, `PartialEq`, `Clone`, `Hash`, `Step` impls have side effects, panic or
  break their contract. A few theorems (C48, C52) need no law at all.
  User-defined `Step` types are assumed to meet the documented contract (`StepLaws`), including that
  an overflowing `forward`/`backward` panics with overflow checks on; C66 drops the latter.
* std's behaviour: `VecDeque`, `Option`, slice and string indexing (panic conditions, UTF-8
  boundaries), `RangeInclusive::{new,start,end,into_inner}`, iterator adapters' default methods, and
  that `StepBy`, `Skip`, `Take` call `nth`/`next` as in `ModelAdapt.v`, and that `collect` into a `Vec`
  calls `next` and `size_hint` as in `ModelCollect.v`, the iterators of std ranges (`ModelStdIter.v`), the
  double-ended adaptors (`ModelPipe.v`), and the searching methods (`ModelSearch.v`);
  `VecDeque` is not changed by a call on an element of it that unwinds (`ModelUnwind.v`).
* serde: `serde_derive`'s generated code and the formats are assumed to follow serde's documentation;
  a format hands a struct back as fields by name or as a sequence, a variant by name or by index.
* The tests themselves, doc text and `Cargo.toml`.

## What the proofs found

All are proved as `..._refuted` theorems, with the exact behaviour beside them.

1. `LowerBoundedSet & LowerBoundedSet` loses elements (C02, C06, C13).
2. `intersects`/`disjoint` are inexact on discrete orders: `(1,2)` over integers has no element yet
   counts as non-empty (C08).
3. Touching pieces (`0..1`, `1..2`) stay separate, so equal contents do not imply `==` (C16; the joints are the only other difference, C16_filled_exact).
4. `into_iter` on a range whose start is `Excluded(MAX)` or whose end is `Excluded(MIN)` panics in
   debug; in release it yields elements that are not in the range (C32).
5. Iterating up to `MAX` or down to `MIN` panics in debug and wraps, possibly forever, in release
   (C23, C25, C27, C29, C31).
6. `nth`/`nth_back` far beyond the end panic instead of returning `None` (C25).
7. `size_hint`/`len` on more than `usize::MAX` elements report 0 or panic, and set iteration skips
   such pieces (C24, C26, C29).
8. `RangeInclusive::from(EmptyRange)` panics for unsigned integers and `char`; in release it is the
   full range (C36).
9. An exhausted `RangeInclusive` comes back to life when converted (C34, C37).
10. Release builds: converting or indexing with ends that are not representable wraps (C35, C38-C40).
11. Deserialising accepts any list of pieces, so an invalid set can be obtained (C43).
12. `last` of a set iterator calls `last` on `&mut BoundedRangeIter`, which resolves to the default
    method and runs through the whole last piece; at `MAX` it panics or loops where
    `BoundedRangeIter::last` would answer at once (C27).
13. `step_by`/`skip` on ranges overshoot: `(0u8..200).step_by(128)` panics in debug and never ends
    in release, although no extreme value is involved (C56).
14. Collecting a lower-bounded iterator into a `Vec` panics at the first element (capacity overflow),
    since it announces `usize::MAX` elements; `(0u128..=1 << 64).take(3).collect()` panics in debug
    because the hint overflows, although three elements are wanted (C60).
15. With more than `usize::MAX` elements, `next_back` on a `zip` panics in std (`unreachable!`), since
    `len` is 0; `enumerate` numbers from the wrong end (C64).
16. `add_range` recurses once per overlapped piece, so the union of a set of very many pieces with a
    range covering them can overflow the stack (C65).
17. `nth` on a `LowerBoundedSet`'s iterator that panics has already dropped the bounded pieces, while
    the range above has not moved (C68).
18. Unions of sets are quadratic: a well-formed set of `n` pieces is taken in with `n(n-1)/2` overlap tests,
    and one range over the upper half of `2n` pieces needs `n*n + 2n` (C76).
19. Up to `==` sets obey absorption, distributivity and one De Morgan law, but `!(a & b) == !a | !b` fails
    (`{0..5}` and `{5..9}`: the right side is in two parts), `!!a == a` only for sets without adjacent pieces,
    and the complement of an empty range such as `5..5` is in two parts that touch (C77).
20. Exchanging the two directions of the order exchanges the results, but for intersections of two
    `LowerBoundedSet`s: the impl for `UpperBoundedSet`s is not their mirror image (C79).

## Testing the theorems

`seeded/LOG.jsonl` has one line per wrong program tried. Two methods, both run in scratch copies:

* rebuilding all proofs on a model with a realistic bug, recording which theorems break (a broken
  proof script is not yet evidence that the statement is false);
* mechanical edits of every definition, against boolean restatements of the theorems evaluated over
  small complete domains. There a failure shows the theorem's *statement* is false of the wrong
  program. Edits that survive are examined by hand: equivalent program, or theorem to tighten.
