(** The source of the crate, src/**/*.rs without src/test, as a term of RustSyntax.v.
    Written by tools/gen_source.py; not edited. *)
From Coq Require Import String ZArith List.
From Verif Require Import RustSyntax.
Import ListNotations.
Open Scope string_scope. Open Scope Z_scope.

Definition source_types : list (string * list (string * list string)) := [
  ("Bound", [("Excluded", ["0"]); ("Included", ["0"])]);
  ("LowerBound", [("LowerBound", ["0"])]);
  ("UpperBound", [("UpperBound", ["0"])]);
  ("BoundedRange", [("BoundedRange", ["start"; "end"])]);
  ("BoundedRangeIter", [("BoundedRangeIter", ["current"; "last"])]);
  ("BoundedSet", [("BoundedSet", ["ranges"])]);
  ("BoundedSetIter", [("BoundedSetIter", ["range_iters"])]);
  ("EmptyRange", [("EmptyRange", ["t"])]);
  ("LowerBoundedRange", [("LowerBoundedRange", ["start"])]);
  ("LowerBoundedRangeIter", [("LowerBoundedRangeIter", ["current"])]);
  ("LowerBoundedSet", [("LowerBoundedSet", ["ranges"; "lower_bounded_range"])]);
  ("LowerBoundedSetIter", [("LowerBoundedSetIter", ["set_iter"; "range_iter"])]);
  ("UnboundedRange", [("UnboundedRange", [])]);
  ("PiecewiseUnboundedSet", [("PiecewiseUnboundedSet", ["upper_bounded_range"; "ranges"; "lower_bounded_range"])]);
  ("UnboundedSet", [("Full", []); ("Piecewise", ["0"])]);
  ("UpperBoundedRange", [("UpperBoundedRange", ["end"])]);
  ("UpperBoundedSet", [("UpperBoundedSet", ["upper_bounded_range"; "ranges"])])].

(** src/bound.rs *)
Definition impl_0 : impl := Impl None "Bound" [] [] []
  [
    (Fn "map" ByVal [(PBind "f")]
      (EMatch (EVar "self") [((PCon "Excluded" [("0", (PBind "t"))]), (ECon "Excluded" [("0", (EApp "f" [(EVar "t")]))])); ((PCon "Included" [("0", (PBind "t"))]), (ECon "Included" [("0", (EApp "f" [(EVar "t")]))]))]));
    (Fn "flipped" ByVal []
      (EMatch (EVar "self") [((PCon "Excluded" [("0", (PBind "t"))]), (ECon "Included" [("0", (EVar "t"))])); ((PCon "Included" [("0", (PBind "t"))]), (ECon "Excluded" [("0", (EVar "t"))]))]))].

(** src/bound.rs *)
Definition impl_1 : impl := Impl (Some ("From", "Bound")) "LowerBound" [] [] []
  [
    (Fn "from" NoSelf [(PBind "b")]
      (ECon "LowerBound" [("0", (EVar "b"))]))].

(** src/bound.rs *)
Definition impl_2 : impl := Impl (Some ("PartialOrd", "")) "LowerBound" [] [] []
  [
    (Fn "partial_cmp" ByRef [(PBind "other")]
      (EMatch (ECon "tuple" [("0", (ERef (EField (EVar "self") "0"))); ("1", (ERef (EField (EVar "other") "0")))]) [((POr [(PCon "tuple" [("0", (PCon "Included" [("0", (PBind "a"))])); ("1", (PCon "Included" [("0", (PBind "b"))]))]); (PCon "tuple" [("0", (PCon "Excluded" [("0", (PBind "a"))])); ("1", (PCon "Excluded" [("0", (PBind "b"))]))])]), (EMethod (EVar "a") "partial_cmp" [(ERef (EVar "b"))])); ((PCon "tuple" [("0", (PCon "Included" [("0", (PBind "a"))])); ("1", (PCon "Excluded" [("0", (PBind "b"))]))]), (EIf (EBin "==" (EVar "a") (EVar "b")) (ECon "Some" [("0", (ECon "Less" []))]) (EMethod (EVar "a") "partial_cmp" [(ERef (EVar "b"))]))); ((PCon "tuple" [("0", (PCon "Excluded" [("0", (PBind "a"))])); ("1", (PCon "Included" [("0", (PBind "b"))]))]), (EIf (EBin "==" (EVar "a") (EVar "b")) (ECon "Some" [("0", (ECon "Greater" []))]) (EMethod (EVar "a") "partial_cmp" [(ERef (EVar "b"))])))]))].

(** src/bound.rs *)
Definition impl_3 : impl := Impl (Some ("Ord", "")) "LowerBound" [] [] []
  [
    (Fn "cmp" ByRef [(PBind "other")]
      (EMethod (EMethod (EVar "self") "partial_cmp" [(EVar "other")]) "unwrap" []))].

(** src/bound.rs *)
Definition impl_4 : impl := Impl None "LowerBound" [] [] []
  [
    (Fn "excluded" NoSelf [(PBind "t")]
      (ECon "LowerBound" [("0", (ECon "Excluded" [("0", (EVar "t"))]))]));
    (Fn "included" NoSelf [(PBind "t")]
      (ECon "LowerBound" [("0", (ECon "Included" [("0", (EVar "t"))]))]));
    (Fn "to_bound" ByVal []
      (EField (EVar "self") "0"));
    (Fn "map" ByVal [(PBind "f")]
      (ECon "LowerBound" [("0", (EMethod (EField (EVar "self") "0") "map" [(EVar "f")]))]))].

(** src/bound.rs *)
Definition impl_5 : impl := Impl (Some ("From", "Bound")) "UpperBound" [] [] []
  [
    (Fn "from" NoSelf [(PBind "b")]
      (ECon "UpperBound" [("0", (EVar "b"))]))].

(** src/bound.rs *)
Definition impl_6 : impl := Impl (Some ("PartialOrd", "")) "UpperBound" [] [] []
  [
    (Fn "partial_cmp" ByRef [(PBind "other")]
      (EMatch (ECon "tuple" [("0", (ERef (EField (EVar "self") "0"))); ("1", (ERef (EField (EVar "other") "0")))]) [((POr [(PCon "tuple" [("0", (PCon "Included" [("0", (PBind "a"))])); ("1", (PCon "Included" [("0", (PBind "b"))]))]); (PCon "tuple" [("0", (PCon "Excluded" [("0", (PBind "a"))])); ("1", (PCon "Excluded" [("0", (PBind "b"))]))])]), (EMethod (EVar "a") "partial_cmp" [(ERef (EVar "b"))])); ((PCon "tuple" [("0", (PCon "Included" [("0", (PBind "a"))])); ("1", (PCon "Excluded" [("0", (PBind "b"))]))]), (EIf (EBin "==" (EVar "a") (EVar "b")) (ECon "Some" [("0", (ECon "Greater" []))]) (EMethod (EVar "a") "partial_cmp" [(ERef (EVar "b"))]))); ((PCon "tuple" [("0", (PCon "Excluded" [("0", (PBind "a"))])); ("1", (PCon "Included" [("0", (PBind "b"))]))]), (EIf (EBin "==" (EVar "a") (EVar "b")) (ECon "Some" [("0", (ECon "Less" []))]) (EMethod (EVar "a") "partial_cmp" [(ERef (EVar "b"))])))]))].

(** src/bound.rs *)
Definition impl_7 : impl := Impl (Some ("Ord", "")) "UpperBound" [] [] []
  [
    (Fn "cmp" ByRef [(PBind "other")]
      (EMethod (EMethod (EVar "self") "partial_cmp" [(EVar "other")]) "unwrap" []))].

(** src/bound.rs *)
Definition impl_8 : impl := Impl None "UpperBound" [] [] []
  [
    (Fn "excluded" NoSelf [(PBind "t")]
      (ECon "UpperBound" [("0", (ECon "Excluded" [("0", (EVar "t"))]))]));
    (Fn "included" NoSelf [(PBind "t")]
      (ECon "UpperBound" [("0", (ECon "Included" [("0", (EVar "t"))]))]));
    (Fn "to_bound" ByVal []
      (EField (EVar "self") "0"));
    (Fn "map" ByVal [(PBind "f")]
      (ECon "UpperBound" [("0", (EMethod (EField (EVar "self") "0") "map" [(EVar "f")]))]))].

(** src/bounded_range.rs *)
Definition impl_9 : impl := Impl (Some ("From", "Range")) "BoundedRange" ["Rangetools"; "Step"] [] []
  [
    (Fn "from" NoSelf [(PBind "r")]
      (ECon "BoundedRange" [("start", (ECall "LowerBound" "included" [(EField (EVar "r") "start")])); ("end", (ECall "UpperBound" "excluded" [(EField (EVar "r") "end")]))]))].

(** src/bounded_range.rs *)
Definition impl_10 : impl := Impl (Some ("From", "RangeInclusive")) "BoundedRange" ["Rangetools"; "Step"] [] []
  [
    (Fn "from" NoSelf [(PBind "r")]
      (EBlock [(SLet (PCon "tuple" [("0", (PBind "start")); ("1", (PBind "end"))]) (EMethod (EVar "r") "into_inner" []))] (ECon "BoundedRange" [("start", (ECall "LowerBound" "included" [(EVar "start")])); ("end", (ECall "UpperBound" "included" [(EVar "end")]))])))].

(** src/bounded_range.rs *)
Definition impl_11 : impl := Impl (Some ("From", "BoundedRange")) "Range" ["Rangetools"; "Step"] [] []
  [
    (Fn "from" NoSelf [(PBind "r")]
      (EBlock [(SLet (PBind "start") (EMatch (EMethod (EField (EVar "r") "start") "to_bound" []) [((PCon "Excluded" [("0", (PBind "t"))]), (ECall "Step" "forward" [(EVar "t"); (ELit 1)])); ((PCon "Included" [("0", (PBind "t"))]), (EVar "t"))])); (SLet (PBind "end") (EMatch (EMethod (EField (EVar "r") "end") "to_bound" []) [((PCon "Excluded" [("0", (PBind "t"))]), (EVar "t")); ((PCon "Included" [("0", (PBind "t"))]), (ECall "Step" "forward" [(EVar "t"); (ELit 1)]))]))] (ECon "Range" [("start", (EVar "start")); ("end", (EVar "end"))])))].

(** src/bounded_range.rs *)
Definition impl_12 : impl := Impl (Some ("From", "BoundedRange")) "RangeInclusive" ["Rangetools"; "Step"] [] []
  [
    (Fn "from" NoSelf [(PBind "r")]
      (EBlock [(SLet (PBind "start") (EMatch (EMethod (EField (EVar "r") "start") "to_bound" []) [((PCon "Excluded" [("0", (PBind "t"))]), (ECall "Step" "forward" [(EVar "t"); (ELit 1)])); ((PCon "Included" [("0", (PBind "t"))]), (EVar "t"))])); (SLet (PBind "end") (EMatch (EMethod (EField (EVar "r") "end") "to_bound" []) [((PCon "Excluded" [("0", (PBind "t"))]), (ECall "Step" "backward" [(EVar "t"); (ELit 1)])); ((PCon "Included" [("0", (PBind "t"))]), (EVar "t"))]))] (ECon "RangeInclusive" [("start", (EVar "start")); ("end", (EVar "end")); ("exhausted", (EBool false))])))].

(** src/bounded_range.rs *)
Definition impl_13 : impl := Impl (Some ("IntoIterator", "")) "BoundedRange" ["Rangetools"; "Step"] [] [("IntoIter", "BoundedRangeIter"); ("Item", "T")]
  [
    (Fn "into_iter" ByVal []
      (EBlock [(SLet (PBind "current") (EMatch (EField (EVar "self") "start") [((PCon "LowerBound" [("0", (PCon "Excluded" [("0", (PBind "t"))]))]), (ECall "Step" "forward" [(EVar "t"); (ELit 1)])); ((PCon "LowerBound" [("0", (PCon "Included" [("0", (PBind "t"))]))]), (EVar "t"))])); (SLet (PBind "last") (EMatch (EField (EVar "self") "end") [((PCon "UpperBound" [("0", (PCon "Excluded" [("0", (PBind "t"))]))]), (ECall "Step" "backward" [(EVar "t"); (ELit 1)])); ((PCon "UpperBound" [("0", (PCon "Included" [("0", (PBind "t"))]))]), (EVar "t"))]))] (ECon "BoundedRangeIter" [("current", (EVar "current")); ("last", (EVar "last"))])))].

(** src/bounded_range.rs *)
Definition impl_14 : impl := Impl None "BoundedRange" ["Rangetools"; "Step"] [] []
  [
    (Fn "new" NoSelf [(PBind "start"); (PBind "end")]
      (ECon "BoundedRange" [("start", (EVar "start")); ("end", (EVar "end"))]));
    (Fn "contains" ByRef [(PBind "t")]
      (EBlock [(SLet (PBind "start_satisfied") (EMatch (EField (EField (EVar "self") "start") "0") [((PCon "Excluded" [("0", (PBind "s"))]), (EBin ">" (EVar "t") (EVar "s"))); ((PCon "Included" [("0", (PBind "s"))]), (EBin ">=" (EVar "t") (EVar "s")))])); (SLet (PBind "end_satisfied") (EMatch (EField (EField (EVar "self") "end") "0") [((PCon "Excluded" [("0", (PBind "e"))]), (EBin "<" (EVar "t") (EVar "e"))); ((PCon "Included" [("0", (PBind "e"))]), (EBin "<=" (EVar "t") (EVar "e")))]))] (EBin "&&" (EVar "start_satisfied") (EVar "end_satisfied"))));
    (Fn "combine" ByRef [(PBind "other")]
      (EBlock [(SExpr (EIf (EMethod (EVar "other") "is_empty" []) (EBlock [(SExpr (EReturn (EMethod (EVar "self") "clone" [])))] (ECon "tuple" [])) (ECon "tuple" []))); (SExpr (EIf (EMethod (EVar "self") "is_empty" []) (EBlock [(SExpr (EReturn (EMethod (EVar "other") "clone" [])))] (ECon "tuple" [])) (ECon "tuple" []))); (SExpr (EMacro "assert" [(EMethod (EVar "self") "intersects" [(EDeref (EVar "other"))])]))] (ECall "BoundedRange" "new" [(ECall "LowerBound" "min" [(EField (EVar "self") "start"); (EField (EVar "other") "start")]); (ECall "UpperBound" "max" [(EField (EVar "self") "end"); (EField (EVar "other") "end")])])))].

(** src/bounded_range.rs *)
Definition impl_15 : impl := Impl (Some ("Iterator", "")) "BoundedRangeIter" ["Rangetools"; "Step"] [] [("Item", "T")]
  [
    (Fn "next" ByMut []
      (EIf (EBin ">" (EField (EVar "self") "current") (EField (EVar "self") "last")) (ECon "None" []) (EBlock [(SLet (PBind "t") (EField (EVar "self") "current")); (SExpr (EAssign (EField (EVar "self") "current") (ECall "Step" "forward" [(EField (EVar "self") "current"); (ELit 1)])))] (ECon "Some" [("0", (EVar "t"))]))));
    (Fn "size_hint" ByRef []
      (EBlock [(SLet (PBind "size") (EMethod (EMethod (ECall "Step" "steps_between" [(ERef (EField (EVar "self") "current")); (ERef (EField (EVar "self") "last"))]) "map" [(EClo [(PBind "steps")] (EBin "+" (EVar "steps") (ELit 1)))]) "unwrap_or_default" []))] (ECon "tuple" [("0", (EVar "size")); ("1", (ECon "Some" [("0", (EVar "size"))]))])));
    (Fn "count" ByVal []
      (EMethod (EVar "self") "len" []));
    (Fn "last" ByVal []
      (EIf (EBin ">" (EField (EVar "self") "current") (EField (EVar "self") "last")) (ECon "None" []) (ECon "Some" [("0", (EField (EVar "self") "last"))])));
    (Fn "nth" ByMut [(PBind "n")]
      (EBlock [(SExpr (EAssign (EField (EVar "self") "current") (ECall "Step" "forward" [(EField (EVar "self") "current"); (EVar "n")])))] (EMethod (EVar "self") "next" [])));
    (Fn "min" ByVal []
      (EMethod (EVar "self") "next" []));
    (Fn "max" ByVal []
      (EMethod (EVar "self") "next_back" []))].

(** src/bounded_range.rs *)
Definition impl_16 : impl := Impl (Some ("DoubleEndedIterator", "")) "BoundedRangeIter" ["Rangetools"; "Step"] [] []
  [
    (Fn "next_back" ByMut []
      (EIf (EBin ">" (EField (EVar "self") "current") (EField (EVar "self") "last")) (ECon "None" []) (EBlock [(SLet (PBind "t") (EField (EVar "self") "last")); (SExpr (EAssign (EField (EVar "self") "last") (ECall "Step" "backward" [(EField (EVar "self") "last"); (ELit 1)])))] (ECon "Some" [("0", (EVar "t"))]))));
    (Fn "nth_back" ByMut [(PBind "n")]
      (EBlock [(SExpr (EAssign (EField (EVar "self") "last") (ECall "Step" "backward" [(EField (EVar "self") "last"); (EVar "n")])))] (EMethod (EVar "self") "next_back" [])))].

(** src/bounded_range.rs *)
Definition impl_17 : impl := Impl (Some ("ExactSizeIterator", "")) "BoundedRangeIter" ["Rangetools"; "Step"] [] []
  [
].

(** src/bounded_set.rs *)
Definition impl_18 : impl := Impl (Some ("From", "BoundedRange")) "BoundedSet" ["Rangetools"; "Step"] [] []
  [
    (Fn "from" NoSelf [(PBind "r")]
      (EIf (EMethod (EVar "r") "is_empty" []) (ECall "BoundedSet" "empty" []) (ECon "BoundedSet" [("ranges", (EInto (EArray [(EVar "r")]) "VecDeque"))])))].

(** src/bounded_set.rs *)
Definition impl_19 : impl := Impl (Some ("IntoIterator", "")) "BoundedSet" ["Rangetools"; "Step"] [] [("IntoIter", "BoundedSetIter"); ("Item", "T")]
  [
    (Fn "into_iter" ByVal []
      (ECon "BoundedSetIter" [("range_iters", (EMethod (EMethod (EMethod (EField (EVar "self") "ranges") "into_iter" []) "map" [(EClo [(PBind "r")] (EMethod (EVar "r") "into_iter" []))]) "collect" []))]))].

(** src/bounded_set.rs *)
Definition impl_20 : impl := Impl None "BoundedSet" ["Rangetools"; "Step"] [] []
  [
    (Fn "empty" NoSelf []
      (ECon "BoundedSet" [("ranges", (ECall "VecDeque" "new" []))]))].

(** src/bounded_set.rs *)
Definition impl_21 : impl := Impl None "BoundedSet" ["Rangetools"; "Step"] [] []
  [
    (Fn "add_range" ByMut [(PBind "r")]
      (EIf (ENot (EMethod (EVar "r") "is_empty" [])) (EMatch (EMethod (EMethod (EField (EVar "self") "ranges") "iter" []) "position" [(EClo [(PBind "range")] (EMethod (EVar "range") "intersects" [(EVar "r")]))]) [((PCon "Some" [("0", (PBind "index"))]), (EBlock [(SLet (PBind "new_range") (EMethod (EVar "r") "combine" [(ERef (EIndex (EField (EVar "self") "ranges") (EVar "index")))])); (SExpr (EMethod (EField (EVar "self") "ranges") "remove" [(EVar "index")])); (SExpr (EMethod (EVar "self") "add_range" [(EVar "new_range")]))] (ECon "tuple" []))); (PWild, (EBlock [(SLet (PBind "index") (EMethod (EMethod (EMethod (EField (EVar "self") "ranges") "iter" []) "position" [(EClo [(PBind "range")] (EBin ">" (EField (EVar "range") "start") (EField (EVar "r") "start")))]) "unwrap_or" [(EMethod (EField (EVar "self") "ranges") "len" [])])); (SExpr (EMethod (EField (EVar "self") "ranges") "insert" [(EVar "index"); (EVar "r")]))] (ECon "tuple" [])))]) (ECon "tuple" [])));
    (Fn "add_set" ByMut [(PBind "other")]
      (EFor (PBind "range") (EMethod (EField (EVar "other") "ranges") "into_iter" []) (EBlock [(SExpr (EMethod (EVar "self") "add_range" [(EVar "range")]))] (ECon "tuple" []))));
    (Fn "contains" ByRef [(PBind "t")]
      (EMethod (EMethod (EField (EVar "self") "ranges") "iter" []) "any" [(EClo [(PBind "r")] (EMethod (EVar "r") "contains" [(EVar "t")]))]))].

(** src/bounded_set.rs *)
Definition impl_22 : impl := Impl (Some ("Iterator", "")) "BoundedSetIter" ["Rangetools"; "Step"] [] [("Item", "T")]
  [
    (Fn "next" ByMut []
      (EBlock [(SExpr (EWhile (EMethod (EMethod (EMethod (EField (EVar "self") "range_iters") "front" []) "map" [(EClo [(PBind "i")] (EBin "==" (EMethod (EVar "i") "len" []) (ELit 0)))]) "unwrap_or" [(EBool false)]) (EBlock [(SExpr (EMethod (EField (EVar "self") "range_iters") "pop_front" []))] (ECon "tuple" []))))] (EMethod (EMethod (EMethod (EField (EVar "self") "range_iters") "front_mut" []) "map" [(EClo [(PBind "i")] (EMethod (EVar "i") "next" []))]) "flatten" [])));
    (Fn "size_hint" ByRef []
      (EBlock [(SLet (PBind "size") (EMethod (EMethod (EMethod (EField (EVar "self") "range_iters") "iter" []) "map" [(EClo [(PBind "i")] (EMethod (EVar "i") "len" []))]) "sum" []))] (ECon "tuple" [("0", (EVar "size")); ("1", (ECon "Some" [("0", (EVar "size"))]))])));
    (Fn "count" ByVal []
      (EMethod (EVar "self") "len" []));
    (Fn "last" ByVal []
      (EBlock [(SExpr (EWhile (EMethod (EMethod (EMethod (EField (EVar "self") "range_iters") "back" []) "map" [(EClo [(PBind "i")] (EBin "==" (EMethod (EVar "i") "len" []) (ELit 0)))]) "unwrap_or" [(EBool false)]) (EBlock [(SExpr (EMethod (EField (EVar "self") "range_iters") "pop_back" []))] (ECon "tuple" []))))] (EMethod (EMethod (EMethod (EField (EVar "self") "range_iters") "back_mut" []) "map" [(EClo [(PBind "i")] (EMethod (EVar "i") "last" []))]) "flatten" [])));
    (Fn "nth" ByMut [(PBind "n")]
      (EBlock [(SExpr (EWhile (EBool true) (EMatch (EMethod (EMethod (EField (EVar "self") "range_iters") "front" []) "map" [(EClo [(PBind "i")] (EMethod (EVar "i") "len" []))]) [((PCon "Some" [("0", (PBind "len"))]), (EIf (EBin "<=" (EVar "len") (EVar "n")) (EBlock [(SExpr (EOpAssign "-" (EVar "n") (EVar "len"))); (SExpr (EMethod (EField (EVar "self") "range_iters") "remove" [(ELit 0)]))] (ECon "tuple" [])) (EBlock [(SExpr EBreak)] (ECon "tuple" [])))); (PWild, EBreak)])))] (EMethod (EMethod (EMethod (EField (EVar "self") "range_iters") "front_mut" []) "map" [(EClo [(PBind "i")] (EMethod (EVar "i") "nth" [(EVar "n")]))]) "flatten" [])));
    (Fn "min" ByVal []
      (EMethod (EVar "self") "next" []));
    (Fn "max" ByVal []
      (EMethod (EVar "self") "next_back" []))].

(** src/bounded_set.rs *)
Definition impl_23 : impl := Impl (Some ("DoubleEndedIterator", "")) "BoundedSetIter" ["Rangetools"; "Step"] [] []
  [
    (Fn "next_back" ByMut []
      (EBlock [(SExpr (EWhile (EMethod (EMethod (EMethod (EField (EVar "self") "range_iters") "back" []) "map" [(EClo [(PBind "i")] (EBin "==" (EMethod (EVar "i") "len" []) (ELit 0)))]) "unwrap_or" [(EBool false)]) (EBlock [(SExpr (EMethod (EField (EVar "self") "range_iters") "pop_back" []))] (ECon "tuple" []))))] (EMethod (EMethod (EMethod (EField (EVar "self") "range_iters") "back_mut" []) "map" [(EClo [(PBind "i")] (EMethod (EVar "i") "next_back" []))]) "flatten" [])));
    (Fn "nth_back" ByMut [(PBind "n")]
      (EBlock [(SExpr (EWhile (EBool true) (EMatch (EMethod (EMethod (EField (EVar "self") "range_iters") "back_mut" []) "map" [(EClo [(PBind "i")] (EMethod (EVar "i") "len" []))]) [((PCon "Some" [("0", (PBind "len"))]), (EIf (EBin "<=" (EVar "len") (EVar "n")) (EBlock [(SExpr (EOpAssign "-" (EVar "n") (EVar "len"))); (SExpr (EMethod (EField (EVar "self") "range_iters") "pop_back" []))] (ECon "tuple" [])) (EBlock [(SExpr EBreak)] (ECon "tuple" [])))); (PWild, EBreak)])))] (EMethod (EMethod (EMethod (EField (EVar "self") "range_iters") "back_mut" []) "map" [(EClo [(PBind "i")] (EMethod (EVar "i") "nth_back" [(EVar "n")]))]) "flatten" [])))].

(** src/bounded_set.rs *)
Definition impl_24 : impl := Impl (Some ("ExactSizeIterator", "")) "BoundedSetIter" ["Rangetools"; "Step"] [] []
  [
].

(** src/empty_range.rs *)
Definition impl_25 : impl := Impl (Some ("From", "EmptyRange")) "Range" ["Step"] [] []
  [
    (Fn "from" NoSelf [(PBind "_r")]
      (EDefault "Range"))].

(** src/empty_range.rs *)
Definition impl_26 : impl := Impl (Some ("From", "EmptyRange")) "RangeInclusive" ["Step"] [] []
  [
    (Fn "from" NoSelf [PWild]
      (EBlock [(SLet (PBind "r") (ECon "BoundedRange" [("start", (ECall "LowerBound" "included" [(EDefault "T")])); ("end", (ECall "UpperBound" "excluded" [(EDefault "T")]))]))] (EInto (EVar "r") "RangeInclusive")))].

(** src/empty_range.rs *)
Definition impl_27 : impl := Impl (Some ("IntoIterator", "")) "EmptyRange" ["Step"] [] [("IntoIter", "Empty"); ("Item", "T")]
  [
    (Fn "into_iter" ByVal []
      (ECall "iter" "empty" []))].

(** src/empty_range.rs *)
Definition impl_28 : impl := Impl None "EmptyRange" ["Step"] [] []
  [
    (Fn "new" NoSelf []
      (ECon "EmptyRange" [("t", (EDefault "PhantomData"))]));
    (Fn "contains" ByRef [PWild]
      (EBool false))].

(** src/lib.rs *)
Definition trait_Rangetools : impl := Impl None "" ["Rangetools"] [] []
  [
    (Fn "complement" ByVal []
      (ECall "RangeComplement" "complement" [(EVar "self")]));
    (Fn "intersection" ByVal [(PBind "other")]
      (ECall "RangeIntersection" "intersection" [(EVar "self"); (EVar "other")]));
    (Fn "disjoint" ByVal [(PBind "other")]
      (EMethod (ECall "Rangetools" "intersection" [(EVar "self"); (EVar "other")]) "is_empty" []));
    (Fn "intersects" ByVal [(PBind "other")]
      (ENot (EMethod (EVar "self") "disjoint" [(EVar "other")])));
    (Fn "union" ByVal [(PBind "other")]
      (ECall "RangeUnion" "union" [(EVar "self"); (EVar "other")]))].

(** src/lower_bounded_range.rs *)
Definition impl_29 : impl := Impl (Some ("From", "RangeFrom")) "LowerBoundedRange" ["Step"] [] []
  [
    (Fn "from" NoSelf [(PBind "r")]
      (ECon "LowerBoundedRange" [("start", (ECall "LowerBound" "included" [(EField (EVar "r") "start")]))]))].

(** src/lower_bounded_range.rs *)
Definition impl_30 : impl := Impl (Some ("From", "LowerBoundedRange")) "RangeFrom" ["Step"] [] []
  [
    (Fn "from" NoSelf [(PBind "r")]
      (EMatch (EMethod (EField (EVar "r") "start") "to_bound" []) [((PCon "Excluded" [("0", (PBind "t"))]), (ECon "RangeFrom" [("start", (ECall "Step" "forward" [(EVar "t"); (ELit 1)]))])); ((PCon "Included" [("0", (PBind "t"))]), (ECon "RangeFrom" [("start", (EVar "t"))]))]))].

(** src/lower_bounded_range.rs *)
Definition impl_31 : impl := Impl (Some ("IntoIterator", "")) "LowerBoundedRange" ["Step"] [] [("IntoIter", "LowerBoundedRangeIter"); ("Item", "T")]
  [
    (Fn "into_iter" ByVal []
      (ECon "LowerBoundedRangeIter" [("current", (EMatch (EField (EVar "self") "start") [((PCon "LowerBound" [("0", (PCon "Excluded" [("0", (PBind "t"))]))]), (ECall "Step" "forward" [(EVar "t"); (ELit 1)])); ((PCon "LowerBound" [("0", (PCon "Included" [("0", (PBind "t"))]))]), (EVar "t"))]))]))].

(** src/lower_bounded_range.rs *)
Definition impl_32 : impl := Impl None "LowerBoundedRange" ["Step"] [] []
  [
    (Fn "new" NoSelf [(PBind "start")]
      (ECon "LowerBoundedRange" [("start", (EVar "start"))]));
    (Fn "contains" ByRef [(PBind "t")]
      (EMatch (EField (EField (EVar "self") "start") "0") [((PCon "Excluded" [("0", (PBind "x"))]), (EBin ">" (EVar "t") (EVar "x"))); ((PCon "Included" [("0", (PBind "i"))]), (EBin ">=" (EVar "t") (EVar "i")))]))].

(** src/lower_bounded_range.rs *)
Definition impl_33 : impl := Impl (Some ("Iterator", "")) "LowerBoundedRangeIter" ["Step"] [] [("Item", "T")]
  [
    (Fn "next" ByMut []
      (EBlock [(SLet (PBind "t") (EField (EVar "self") "current")); (SExpr (EAssign (EField (EVar "self") "current") (ECall "Step" "forward" [(EField (EVar "self") "current"); (ELit 1)])))] (ECon "Some" [("0", (EVar "t"))])));
    (Fn "size_hint" ByRef []
      (ECon "tuple" [("0", (EPath "usize" "MAX")); ("1", (ECon "None" []))]));
    (Fn "nth" ByMut [(PBind "n")]
      (EBlock [(SExpr (EAssign (EField (EVar "self") "current") (ECall "Step" "forward" [(EField (EVar "self") "current"); (EVar "n")])))] (EMethod (EVar "self") "next" [])));
    (Fn "min" ByVal []
      (EMethod (EVar "self") "next" []))].

(** src/lower_bounded_set.rs *)
Definition impl_34 : impl := Impl (Some ("From", "LowerBoundedRange")) "LowerBoundedSet" ["Rangetools"; "Step"] [] []
  [
    (Fn "from" NoSelf [(PBind "lower_bounded_range")]
      (ECon "LowerBoundedSet" [("lower_bounded_range", (EVar "lower_bounded_range")); ("ranges", (ECall "BoundedSet" "empty" []))]))].

(** src/lower_bounded_set.rs *)
Definition impl_35 : impl := Impl (Some ("IntoIterator", "")) "LowerBoundedSet" ["Rangetools"; "Step"] [] [("IntoIter", "LowerBoundedSetIter"); ("Item", "T")]
  [
    (Fn "into_iter" ByVal []
      (ECon "LowerBoundedSetIter" [("set_iter", (EMethod (EField (EVar "self") "ranges") "into_iter" [])); ("range_iter", (EMethod (EField (EVar "self") "lower_bounded_range") "into_iter" []))]))].

(** src/lower_bounded_set.rs *)
Definition impl_36 : impl := Impl None "LowerBoundedSet" ["Rangetools"; "Step"] [] []
  [
    (Fn "defragment" ByMut []
      (EWhile (ENot (EMethod (EField (EVar "self") "ranges") "is_empty" [])) (EIf (EMethod (EMethod (EMethod (EMethod (EField (EField (EVar "self") "ranges") "ranges") "back" []) "unwrap" []) "intersection" [(EField (EVar "self") "lower_bounded_range")]) "is_empty" []) (EBlock [(SExpr (EReturn (ECon "tuple" [])))] (ECon "tuple" [])) (EBlock [(SLet (PBind "range") (EMethod (EMethod (EField (EField (EVar "self") "ranges") "ranges") "pop_back" []) "unwrap" [])); (SExpr (EAssign (EField (EField (EVar "self") "lower_bounded_range") "start") (EMethod (EField (EField (EVar "self") "lower_bounded_range") "start") "min" [(EField (EVar "range") "start")])))] (ECon "tuple" [])))));
    (Fn "add_range" ByMut [(PBind "range")]
      (EBlock [(SExpr (EMethod (EField (EVar "self") "ranges") "add_range" [(EVar "range")])); (SExpr (EMethod (EVar "self") "defragment" []))] (ECon "tuple" [])));
    (Fn "add_lower_bounded_range" ByMut [(PBind "range")]
      (EBlock [(SExpr (EAssign (EField (EField (EVar "self") "lower_bounded_range") "start") (ECall "LowerBound" "min" [(EField (EField (EVar "self") "lower_bounded_range") "start"); (EField (EVar "range") "start")]))); (SExpr (EMethod (EVar "self") "defragment" []))] (ECon "tuple" [])));
    (Fn "add_set" ByMut [(PBind "set")]
      (EFor (PBind "range") (EField (EVar "set") "ranges") (EBlock [(SExpr (EMethod (EVar "self") "add_range" [(EVar "range")]))] (ECon "tuple" []))));
    (Fn "contains" ByRef [(PBind "t")]
      (EBin "||" (EMethod (EField (EVar "self") "lower_bounded_range") "contains" [(EVar "t")]) (EMethod (EField (EVar "self") "ranges") "contains" [(EVar "t")])))].

(** src/lower_bounded_set.rs *)
Definition impl_37 : impl := Impl (Some ("Iterator", "")) "LowerBoundedSetIter" ["Rangetools"; "Step"] [] [("Item", "T")]
  [
    (Fn "next" ByMut []
      (EMethod (EMethod (EField (EVar "self") "set_iter") "next" []) "or_else" [(EClo [] (EMethod (EField (EVar "self") "range_iter") "next" []))]));
    (Fn "size_hint" ByRef []
      (ECon "tuple" [("0", (EPath "usize" "MAX")); ("1", (ECon "None" []))]));
    (Fn "nth" ByMut [(PBind "n")]
      (EBlock [(SLet (PBind "bounded_size") (EMethod (EField (EVar "self") "set_iter") "len" []))] (EMethod (EMethod (EField (EVar "self") "set_iter") "nth" [(EVar "n")]) "or_else" [(EClo [] (EMethod (EField (EVar "self") "range_iter") "nth" [(EBin "-" (EVar "n") (EVar "bounded_size"))]))])));
    (Fn "min" ByVal []
      (EMethod (EVar "self") "next" []))].

(** src/step.rs *)
Definition trait_Step : impl := Impl None "" ["Step"] [] []
  [
    (Fn "forward" NoSelf [(PBind "start"); (PBind "count")]
      (EMethod (ECall "Step" "forward_checked" [(EVar "start"); (EVar "count")]) "expect" [(EStr)]));
    (Fn "backward" NoSelf [(PBind "start"); (PBind "count")]
      (EMethod (ECall "Step" "backward_checked" [(EVar "start"); (EVar "count")]) "expect" [(EStr)]))].

(** src/step.rs *)
Definition impl_38 : impl := Impl (Some ("Step", "")) "u8" ["Step"] [] []
  [
    (Fn "forward" NoSelf [(PBind "start"); (PBind "n")]
      (EBlock [(SExpr (EIf (EMethod (ECall "u8" "forward_checked" [(EVar "start"); (EVar "n")]) "is_none" []) (EBlock [(SLet PWild (EBin "+" (EPath "u8" "MAX") (ELit 1)))] (ECon "tuple" [])) (ECon "tuple" [])))] (EMethod (EVar "start") "wrapping_add" [(ECast (EVar "n") "u8")])));
    (Fn "backward" NoSelf [(PBind "start"); (PBind "n")]
      (EBlock [(SExpr (EIf (EMethod (ECall "u8" "backward_checked" [(EVar "start"); (EVar "n")]) "is_none" []) (EBlock [(SLet PWild (EBin "-" (EPath "u8" "MIN") (ELit 1)))] (ECon "tuple" [])) (ECon "tuple" [])))] (EMethod (EVar "start") "wrapping_sub" [(ECast (EVar "n") "u8")])));
    (Fn "steps_between" NoSelf [(PBind "start"); (PBind "end")]
      (EIf (EBin "<=" (EDeref (EVar "start")) (EDeref (EVar "end"))) (ECon "Some" [("0", (ECast (EBin "-" (EDeref (EVar "end")) (EDeref (EVar "start"))) "usize"))]) (ECon "None" [])));
    (Fn "forward_checked" NoSelf [(PBind "start"); (PBind "n")]
      (EMatch (ECall "u8" "try_from" [(EVar "n")]) [((PCon "Ok" [("0", (PBind "n"))]), (EMethod (EVar "start") "checked_add" [(EVar "n")])); ((PCon "Err" [("0", PWild)]), (ECon "None" []))]));
    (Fn "backward_checked" NoSelf [(PBind "start"); (PBind "n")]
      (EMatch (ECall "u8" "try_from" [(EVar "n")]) [((PCon "Ok" [("0", (PBind "n"))]), (EMethod (EVar "start") "checked_sub" [(EVar "n")])); ((PCon "Err" [("0", PWild)]), (ECon "None" []))]))].

(** src/step.rs *)
Definition impl_39 : impl := Impl (Some ("Step", "")) "i8" ["Step"] [] []
  [
    (Fn "forward" NoSelf [(PBind "start"); (PBind "n")]
      (EBlock [(SExpr (EIf (EMethod (ECall "i8" "forward_checked" [(EVar "start"); (EVar "n")]) "is_none" []) (EBlock [(SLet PWild (EBin "+" (EPath "i8" "MAX") (ELit 1)))] (ECon "tuple" [])) (ECon "tuple" [])))] (EMethod (EVar "start") "wrapping_add" [(ECast (EVar "n") "i8")])));
    (Fn "backward" NoSelf [(PBind "start"); (PBind "n")]
      (EBlock [(SExpr (EIf (EMethod (ECall "i8" "backward_checked" [(EVar "start"); (EVar "n")]) "is_none" []) (EBlock [(SLet PWild (EBin "-" (EPath "i8" "MIN") (ELit 1)))] (ECon "tuple" [])) (ECon "tuple" [])))] (EMethod (EVar "start") "wrapping_sub" [(ECast (EVar "n") "i8")])));
    (Fn "steps_between" NoSelf [(PBind "start"); (PBind "end")]
      (EIf (EBin "<=" (EDeref (EVar "start")) (EDeref (EVar "end"))) (ECon "Some" [("0", (ECast (EMethod (ECast (EDeref (EVar "end")) "isize") "wrapping_sub" [(ECast (EDeref (EVar "start")) "isize")]) "usize"))]) (ECon "None" [])));
    (Fn "forward_checked" NoSelf [(PBind "start"); (PBind "n")]
      (EMatch (ECall "u8" "try_from" [(EVar "n")]) [((PCon "Ok" [("0", (PBind "n"))]), (EBlock [(SLet (PBind "wrapped") (EMethod (EVar "start") "wrapping_add" [(ECast (EVar "n") "i8")]))] (EIf (EBin ">=" (EVar "wrapped") (EVar "start")) (ECon "Some" [("0", (EVar "wrapped"))]) (ECon "None" [])))); ((PCon "Err" [("0", PWild)]), (ECon "None" []))]));
    (Fn "backward_checked" NoSelf [(PBind "start"); (PBind "n")]
      (EMatch (ECall "u8" "try_from" [(EVar "n")]) [((PCon "Ok" [("0", (PBind "n"))]), (EBlock [(SLet (PBind "wrapped") (EMethod (EVar "start") "wrapping_sub" [(ECast (EVar "n") "i8")]))] (EIf (EBin "<=" (EVar "wrapped") (EVar "start")) (ECon "Some" [("0", (EVar "wrapped"))]) (ECon "None" [])))); ((PCon "Err" [("0", PWild)]), (ECon "None" []))]))].

(** src/step.rs *)
Definition impl_40 : impl := Impl (Some ("Step", "")) "u16" ["Step"] [] []
  [
    (Fn "forward" NoSelf [(PBind "start"); (PBind "n")]
      (EBlock [(SExpr (EIf (EMethod (ECall "u16" "forward_checked" [(EVar "start"); (EVar "n")]) "is_none" []) (EBlock [(SLet PWild (EBin "+" (EPath "u16" "MAX") (ELit 1)))] (ECon "tuple" [])) (ECon "tuple" [])))] (EMethod (EVar "start") "wrapping_add" [(ECast (EVar "n") "u16")])));
    (Fn "backward" NoSelf [(PBind "start"); (PBind "n")]
      (EBlock [(SExpr (EIf (EMethod (ECall "u16" "backward_checked" [(EVar "start"); (EVar "n")]) "is_none" []) (EBlock [(SLet PWild (EBin "-" (EPath "u16" "MIN") (ELit 1)))] (ECon "tuple" [])) (ECon "tuple" [])))] (EMethod (EVar "start") "wrapping_sub" [(ECast (EVar "n") "u16")])));
    (Fn "steps_between" NoSelf [(PBind "start"); (PBind "end")]
      (EIf (EBin "<=" (EDeref (EVar "start")) (EDeref (EVar "end"))) (ECon "Some" [("0", (ECast (EBin "-" (EDeref (EVar "end")) (EDeref (EVar "start"))) "usize"))]) (ECon "None" [])));
    (Fn "forward_checked" NoSelf [(PBind "start"); (PBind "n")]
      (EMatch (ECall "u16" "try_from" [(EVar "n")]) [((PCon "Ok" [("0", (PBind "n"))]), (EMethod (EVar "start") "checked_add" [(EVar "n")])); ((PCon "Err" [("0", PWild)]), (ECon "None" []))]));
    (Fn "backward_checked" NoSelf [(PBind "start"); (PBind "n")]
      (EMatch (ECall "u16" "try_from" [(EVar "n")]) [((PCon "Ok" [("0", (PBind "n"))]), (EMethod (EVar "start") "checked_sub" [(EVar "n")])); ((PCon "Err" [("0", PWild)]), (ECon "None" []))]))].

(** src/step.rs *)
Definition impl_41 : impl := Impl (Some ("Step", "")) "i16" ["Step"] [] []
  [
    (Fn "forward" NoSelf [(PBind "start"); (PBind "n")]
      (EBlock [(SExpr (EIf (EMethod (ECall "i16" "forward_checked" [(EVar "start"); (EVar "n")]) "is_none" []) (EBlock [(SLet PWild (EBin "+" (EPath "i16" "MAX") (ELit 1)))] (ECon "tuple" [])) (ECon "tuple" [])))] (EMethod (EVar "start") "wrapping_add" [(ECast (EVar "n") "i16")])));
    (Fn "backward" NoSelf [(PBind "start"); (PBind "n")]
      (EBlock [(SExpr (EIf (EMethod (ECall "i16" "backward_checked" [(EVar "start"); (EVar "n")]) "is_none" []) (EBlock [(SLet PWild (EBin "-" (EPath "i16" "MIN") (ELit 1)))] (ECon "tuple" [])) (ECon "tuple" [])))] (EMethod (EVar "start") "wrapping_sub" [(ECast (EVar "n") "i16")])));
    (Fn "steps_between" NoSelf [(PBind "start"); (PBind "end")]
      (EIf (EBin "<=" (EDeref (EVar "start")) (EDeref (EVar "end"))) (ECon "Some" [("0", (ECast (EMethod (ECast (EDeref (EVar "end")) "isize") "wrapping_sub" [(ECast (EDeref (EVar "start")) "isize")]) "usize"))]) (ECon "None" [])));
    (Fn "forward_checked" NoSelf [(PBind "start"); (PBind "n")]
      (EMatch (ECall "u16" "try_from" [(EVar "n")]) [((PCon "Ok" [("0", (PBind "n"))]), (EBlock [(SLet (PBind "wrapped") (EMethod (EVar "start") "wrapping_add" [(ECast (EVar "n") "i16")]))] (EIf (EBin ">=" (EVar "wrapped") (EVar "start")) (ECon "Some" [("0", (EVar "wrapped"))]) (ECon "None" [])))); ((PCon "Err" [("0", PWild)]), (ECon "None" []))]));
    (Fn "backward_checked" NoSelf [(PBind "start"); (PBind "n")]
      (EMatch (ECall "u16" "try_from" [(EVar "n")]) [((PCon "Ok" [("0", (PBind "n"))]), (EBlock [(SLet (PBind "wrapped") (EMethod (EVar "start") "wrapping_sub" [(ECast (EVar "n") "i16")]))] (EIf (EBin "<=" (EVar "wrapped") (EVar "start")) (ECon "Some" [("0", (EVar "wrapped"))]) (ECon "None" [])))); ((PCon "Err" [("0", PWild)]), (ECon "None" []))]))].

(** src/step.rs *)
Definition impl_42 : impl := Impl (Some ("Step", "")) "u32" ["Step"] [] []
  [
    (Fn "forward" NoSelf [(PBind "start"); (PBind "n")]
      (EBlock [(SExpr (EIf (EMethod (ECall "u32" "forward_checked" [(EVar "start"); (EVar "n")]) "is_none" []) (EBlock [(SLet PWild (EBin "+" (EPath "u32" "MAX") (ELit 1)))] (ECon "tuple" [])) (ECon "tuple" [])))] (EMethod (EVar "start") "wrapping_add" [(ECast (EVar "n") "u32")])));
    (Fn "backward" NoSelf [(PBind "start"); (PBind "n")]
      (EBlock [(SExpr (EIf (EMethod (ECall "u32" "backward_checked" [(EVar "start"); (EVar "n")]) "is_none" []) (EBlock [(SLet PWild (EBin "-" (EPath "u32" "MIN") (ELit 1)))] (ECon "tuple" [])) (ECon "tuple" [])))] (EMethod (EVar "start") "wrapping_sub" [(ECast (EVar "n") "u32")])));
    (Fn "steps_between" NoSelf [(PBind "start"); (PBind "end")]
      (EIf (EBin "<=" (EDeref (EVar "start")) (EDeref (EVar "end"))) (ECon "Some" [("0", (ECast (EBin "-" (EDeref (EVar "end")) (EDeref (EVar "start"))) "usize"))]) (ECon "None" [])));
    (Fn "forward_checked" NoSelf [(PBind "start"); (PBind "n")]
      (EMatch (ECall "u32" "try_from" [(EVar "n")]) [((PCon "Ok" [("0", (PBind "n"))]), (EMethod (EVar "start") "checked_add" [(EVar "n")])); ((PCon "Err" [("0", PWild)]), (ECon "None" []))]));
    (Fn "backward_checked" NoSelf [(PBind "start"); (PBind "n")]
      (EMatch (ECall "u32" "try_from" [(EVar "n")]) [((PCon "Ok" [("0", (PBind "n"))]), (EMethod (EVar "start") "checked_sub" [(EVar "n")])); ((PCon "Err" [("0", PWild)]), (ECon "None" []))]))].

(** src/step.rs *)
Definition impl_43 : impl := Impl (Some ("Step", "")) "i32" ["Step"] [] []
  [
    (Fn "forward" NoSelf [(PBind "start"); (PBind "n")]
      (EBlock [(SExpr (EIf (EMethod (ECall "i32" "forward_checked" [(EVar "start"); (EVar "n")]) "is_none" []) (EBlock [(SLet PWild (EBin "+" (EPath "i32" "MAX") (ELit 1)))] (ECon "tuple" [])) (ECon "tuple" [])))] (EMethod (EVar "start") "wrapping_add" [(ECast (EVar "n") "i32")])));
    (Fn "backward" NoSelf [(PBind "start"); (PBind "n")]
      (EBlock [(SExpr (EIf (EMethod (ECall "i32" "backward_checked" [(EVar "start"); (EVar "n")]) "is_none" []) (EBlock [(SLet PWild (EBin "-" (EPath "i32" "MIN") (ELit 1)))] (ECon "tuple" [])) (ECon "tuple" [])))] (EMethod (EVar "start") "wrapping_sub" [(ECast (EVar "n") "i32")])));
    (Fn "steps_between" NoSelf [(PBind "start"); (PBind "end")]
      (EIf (EBin "<=" (EDeref (EVar "start")) (EDeref (EVar "end"))) (ECon "Some" [("0", (ECast (EMethod (ECast (EDeref (EVar "end")) "isize") "wrapping_sub" [(ECast (EDeref (EVar "start")) "isize")]) "usize"))]) (ECon "None" [])));
    (Fn "forward_checked" NoSelf [(PBind "start"); (PBind "n")]
      (EMatch (ECall "u32" "try_from" [(EVar "n")]) [((PCon "Ok" [("0", (PBind "n"))]), (EBlock [(SLet (PBind "wrapped") (EMethod (EVar "start") "wrapping_add" [(ECast (EVar "n") "i32")]))] (EIf (EBin ">=" (EVar "wrapped") (EVar "start")) (ECon "Some" [("0", (EVar "wrapped"))]) (ECon "None" [])))); ((PCon "Err" [("0", PWild)]), (ECon "None" []))]));
    (Fn "backward_checked" NoSelf [(PBind "start"); (PBind "n")]
      (EMatch (ECall "u32" "try_from" [(EVar "n")]) [((PCon "Ok" [("0", (PBind "n"))]), (EBlock [(SLet (PBind "wrapped") (EMethod (EVar "start") "wrapping_sub" [(ECast (EVar "n") "i32")]))] (EIf (EBin "<=" (EVar "wrapped") (EVar "start")) (ECon "Some" [("0", (EVar "wrapped"))]) (ECon "None" [])))); ((PCon "Err" [("0", PWild)]), (ECon "None" []))]))].

(** src/step.rs *)
Definition impl_44 : impl := Impl (Some ("Step", "")) "u64" ["Step"] [] []
  [
    (Fn "forward" NoSelf [(PBind "start"); (PBind "n")]
      (EBlock [(SExpr (EIf (EMethod (ECall "u64" "forward_checked" [(EVar "start"); (EVar "n")]) "is_none" []) (EBlock [(SLet PWild (EBin "+" (EPath "u64" "MAX") (ELit 1)))] (ECon "tuple" [])) (ECon "tuple" [])))] (EMethod (EVar "start") "wrapping_add" [(ECast (EVar "n") "u64")])));
    (Fn "backward" NoSelf [(PBind "start"); (PBind "n")]
      (EBlock [(SExpr (EIf (EMethod (ECall "u64" "backward_checked" [(EVar "start"); (EVar "n")]) "is_none" []) (EBlock [(SLet PWild (EBin "-" (EPath "u64" "MIN") (ELit 1)))] (ECon "tuple" [])) (ECon "tuple" [])))] (EMethod (EVar "start") "wrapping_sub" [(ECast (EVar "n") "u64")])));
    (Fn "steps_between" NoSelf [(PBind "start"); (PBind "end")]
      (EIf (EBin "<=" (EDeref (EVar "start")) (EDeref (EVar "end"))) (ECon "Some" [("0", (ECast (EBin "-" (EDeref (EVar "end")) (EDeref (EVar "start"))) "usize"))]) (ECon "None" [])));
    (Fn "forward_checked" NoSelf [(PBind "start"); (PBind "n")]
      (EMatch (ECall "u64" "try_from" [(EVar "n")]) [((PCon "Ok" [("0", (PBind "n"))]), (EMethod (EVar "start") "checked_add" [(EVar "n")])); ((PCon "Err" [("0", PWild)]), (ECon "None" []))]));
    (Fn "backward_checked" NoSelf [(PBind "start"); (PBind "n")]
      (EMatch (ECall "u64" "try_from" [(EVar "n")]) [((PCon "Ok" [("0", (PBind "n"))]), (EMethod (EVar "start") "checked_sub" [(EVar "n")])); ((PCon "Err" [("0", PWild)]), (ECon "None" []))]))].

(** src/step.rs *)
Definition impl_45 : impl := Impl (Some ("Step", "")) "i64" ["Step"] [] []
  [
    (Fn "forward" NoSelf [(PBind "start"); (PBind "n")]
      (EBlock [(SExpr (EIf (EMethod (ECall "i64" "forward_checked" [(EVar "start"); (EVar "n")]) "is_none" []) (EBlock [(SLet PWild (EBin "+" (EPath "i64" "MAX") (ELit 1)))] (ECon "tuple" [])) (ECon "tuple" [])))] (EMethod (EVar "start") "wrapping_add" [(ECast (EVar "n") "i64")])));
    (Fn "backward" NoSelf [(PBind "start"); (PBind "n")]
      (EBlock [(SExpr (EIf (EMethod (ECall "i64" "backward_checked" [(EVar "start"); (EVar "n")]) "is_none" []) (EBlock [(SLet PWild (EBin "-" (EPath "i64" "MIN") (ELit 1)))] (ECon "tuple" [])) (ECon "tuple" [])))] (EMethod (EVar "start") "wrapping_sub" [(ECast (EVar "n") "i64")])));
    (Fn "steps_between" NoSelf [(PBind "start"); (PBind "end")]
      (EIf (EBin "<=" (EDeref (EVar "start")) (EDeref (EVar "end"))) (ECon "Some" [("0", (ECast (EMethod (ECast (EDeref (EVar "end")) "isize") "wrapping_sub" [(ECast (EDeref (EVar "start")) "isize")]) "usize"))]) (ECon "None" [])));
    (Fn "forward_checked" NoSelf [(PBind "start"); (PBind "n")]
      (EMatch (ECall "u64" "try_from" [(EVar "n")]) [((PCon "Ok" [("0", (PBind "n"))]), (EBlock [(SLet (PBind "wrapped") (EMethod (EVar "start") "wrapping_add" [(ECast (EVar "n") "i64")]))] (EIf (EBin ">=" (EVar "wrapped") (EVar "start")) (ECon "Some" [("0", (EVar "wrapped"))]) (ECon "None" [])))); ((PCon "Err" [("0", PWild)]), (ECon "None" []))]));
    (Fn "backward_checked" NoSelf [(PBind "start"); (PBind "n")]
      (EMatch (ECall "u64" "try_from" [(EVar "n")]) [((PCon "Ok" [("0", (PBind "n"))]), (EBlock [(SLet (PBind "wrapped") (EMethod (EVar "start") "wrapping_sub" [(ECast (EVar "n") "i64")]))] (EIf (EBin "<=" (EVar "wrapped") (EVar "start")) (ECon "Some" [("0", (EVar "wrapped"))]) (ECon "None" [])))); ((PCon "Err" [("0", PWild)]), (ECon "None" []))]))].

(** src/step.rs *)
Definition impl_46 : impl := Impl (Some ("Step", "")) "usize" ["Step"] [] []
  [
    (Fn "forward" NoSelf [(PBind "start"); (PBind "n")]
      (EBlock [(SExpr (EIf (EMethod (ECall "usize" "forward_checked" [(EVar "start"); (EVar "n")]) "is_none" []) (EBlock [(SLet PWild (EBin "+" (EPath "usize" "MAX") (ELit 1)))] (ECon "tuple" [])) (ECon "tuple" [])))] (EMethod (EVar "start") "wrapping_add" [(ECast (EVar "n") "usize")])));
    (Fn "backward" NoSelf [(PBind "start"); (PBind "n")]
      (EBlock [(SExpr (EIf (EMethod (ECall "usize" "backward_checked" [(EVar "start"); (EVar "n")]) "is_none" []) (EBlock [(SLet PWild (EBin "-" (EPath "usize" "MIN") (ELit 1)))] (ECon "tuple" [])) (ECon "tuple" [])))] (EMethod (EVar "start") "wrapping_sub" [(ECast (EVar "n") "usize")])));
    (Fn "steps_between" NoSelf [(PBind "start"); (PBind "end")]
      (EIf (EBin "<=" (EDeref (EVar "start")) (EDeref (EVar "end"))) (ECon "Some" [("0", (ECast (EBin "-" (EDeref (EVar "end")) (EDeref (EVar "start"))) "usize"))]) (ECon "None" [])));
    (Fn "forward_checked" NoSelf [(PBind "start"); (PBind "n")]
      (EMatch (ECall "usize" "try_from" [(EVar "n")]) [((PCon "Ok" [("0", (PBind "n"))]), (EMethod (EVar "start") "checked_add" [(EVar "n")])); ((PCon "Err" [("0", PWild)]), (ECon "None" []))]));
    (Fn "backward_checked" NoSelf [(PBind "start"); (PBind "n")]
      (EMatch (ECall "usize" "try_from" [(EVar "n")]) [((PCon "Ok" [("0", (PBind "n"))]), (EMethod (EVar "start") "checked_sub" [(EVar "n")])); ((PCon "Err" [("0", PWild)]), (ECon "None" []))]))].

(** src/step.rs *)
Definition impl_47 : impl := Impl (Some ("Step", "")) "isize" ["Step"] [] []
  [
    (Fn "forward" NoSelf [(PBind "start"); (PBind "n")]
      (EBlock [(SExpr (EIf (EMethod (ECall "isize" "forward_checked" [(EVar "start"); (EVar "n")]) "is_none" []) (EBlock [(SLet PWild (EBin "+" (EPath "isize" "MAX") (ELit 1)))] (ECon "tuple" [])) (ECon "tuple" [])))] (EMethod (EVar "start") "wrapping_add" [(ECast (EVar "n") "isize")])));
    (Fn "backward" NoSelf [(PBind "start"); (PBind "n")]
      (EBlock [(SExpr (EIf (EMethod (ECall "isize" "backward_checked" [(EVar "start"); (EVar "n")]) "is_none" []) (EBlock [(SLet PWild (EBin "-" (EPath "isize" "MIN") (ELit 1)))] (ECon "tuple" [])) (ECon "tuple" [])))] (EMethod (EVar "start") "wrapping_sub" [(ECast (EVar "n") "isize")])));
    (Fn "steps_between" NoSelf [(PBind "start"); (PBind "end")]
      (EIf (EBin "<=" (EDeref (EVar "start")) (EDeref (EVar "end"))) (ECon "Some" [("0", (ECast (EMethod (ECast (EDeref (EVar "end")) "isize") "wrapping_sub" [(ECast (EDeref (EVar "start")) "isize")]) "usize"))]) (ECon "None" [])));
    (Fn "forward_checked" NoSelf [(PBind "start"); (PBind "n")]
      (EMatch (ECall "usize" "try_from" [(EVar "n")]) [((PCon "Ok" [("0", (PBind "n"))]), (EBlock [(SLet (PBind "wrapped") (EMethod (EVar "start") "wrapping_add" [(ECast (EVar "n") "isize")]))] (EIf (EBin ">=" (EVar "wrapped") (EVar "start")) (ECon "Some" [("0", (EVar "wrapped"))]) (ECon "None" [])))); ((PCon "Err" [("0", PWild)]), (ECon "None" []))]));
    (Fn "backward_checked" NoSelf [(PBind "start"); (PBind "n")]
      (EMatch (ECall "usize" "try_from" [(EVar "n")]) [((PCon "Ok" [("0", (PBind "n"))]), (EBlock [(SLet (PBind "wrapped") (EMethod (EVar "start") "wrapping_sub" [(ECast (EVar "n") "isize")]))] (EIf (EBin "<=" (EVar "wrapped") (EVar "start")) (ECon "Some" [("0", (EVar "wrapped"))]) (ECon "None" [])))); ((PCon "Err" [("0", PWild)]), (ECon "None" []))]))].

(** src/step.rs *)
Definition impl_48 : impl := Impl (Some ("Step", "")) "u128" ["Step"] [] []
  [
    (Fn "forward" NoSelf [(PBind "start"); (PBind "n")]
      (EBlock [(SExpr (EIf (EMethod (ECall "u128" "forward_checked" [(EVar "start"); (EVar "n")]) "is_none" []) (EBlock [(SLet PWild (EBin "+" (EPath "u128" "MAX") (ELit 1)))] (ECon "tuple" [])) (ECon "tuple" [])))] (EMethod (EVar "start") "wrapping_add" [(ECast (EVar "n") "u128")])));
    (Fn "backward" NoSelf [(PBind "start"); (PBind "n")]
      (EBlock [(SExpr (EIf (EMethod (ECall "u128" "backward_checked" [(EVar "start"); (EVar "n")]) "is_none" []) (EBlock [(SLet PWild (EBin "-" (EPath "u128" "MIN") (ELit 1)))] (ECon "tuple" [])) (ECon "tuple" [])))] (EMethod (EVar "start") "wrapping_sub" [(ECast (EVar "n") "u128")])));
    (Fn "steps_between" NoSelf [(PBind "start"); (PBind "end")]
      (EIf (EBin "<=" (EDeref (EVar "start")) (EDeref (EVar "end"))) (EMethod (ECall "usize" "try_from" [(EBin "-" (EDeref (EVar "end")) (EDeref (EVar "start")))]) "ok" []) (ECon "None" [])));
    (Fn "forward_checked" NoSelf [(PBind "start"); (PBind "n")]
      (EMethod (EVar "start") "checked_add" [(ECast (EVar "n") "u128")]));
    (Fn "backward_checked" NoSelf [(PBind "start"); (PBind "n")]
      (EMethod (EVar "start") "checked_sub" [(ECast (EVar "n") "u128")]))].

(** src/step.rs *)
Definition impl_49 : impl := Impl (Some ("Step", "")) "i128" ["Step"] [] []
  [
    (Fn "forward" NoSelf [(PBind "start"); (PBind "n")]
      (EBlock [(SExpr (EIf (EMethod (ECall "i128" "forward_checked" [(EVar "start"); (EVar "n")]) "is_none" []) (EBlock [(SLet PWild (EBin "+" (EPath "i128" "MAX") (ELit 1)))] (ECon "tuple" [])) (ECon "tuple" [])))] (EMethod (EVar "start") "wrapping_add" [(ECast (EVar "n") "i128")])));
    (Fn "backward" NoSelf [(PBind "start"); (PBind "n")]
      (EBlock [(SExpr (EIf (EMethod (ECall "i128" "backward_checked" [(EVar "start"); (EVar "n")]) "is_none" []) (EBlock [(SLet PWild (EBin "-" (EPath "i128" "MIN") (ELit 1)))] (ECon "tuple" [])) (ECon "tuple" [])))] (EMethod (EVar "start") "wrapping_sub" [(ECast (EVar "n") "i128")])));
    (Fn "steps_between" NoSelf [(PBind "start"); (PBind "end")]
      (EIf (EBin "<=" (EDeref (EVar "start")) (EDeref (EVar "end"))) (EMatch (EMethod (EVar "end") "checked_sub" [(EDeref (EVar "start"))]) [((PCon "Some" [("0", (PBind "result"))]), (EMethod (ECall "usize" "try_from" [(EVar "result")]) "ok" [])); ((PCon "None" []), (ECon "None" []))]) (ECon "None" [])));
    (Fn "forward_checked" NoSelf [(PBind "start"); (PBind "n")]
      (EMethod (EVar "start") "checked_add" [(ECast (EVar "n") "i128")]));
    (Fn "backward_checked" NoSelf [(PBind "start"); (PBind "n")]
      (EMethod (EVar "start") "checked_sub" [(ECast (EVar "n") "i128")]))].

(** src/step.rs *)
Definition impl_50 : impl := Impl (Some ("Step", "")) "u64" ["Step"] [] []
  [
    (Fn "forward" NoSelf [(PBind "start"); (PBind "n")]
      (EBlock [(SExpr (EIf (EMethod (ECall "u64" "forward_checked" [(EVar "start"); (EVar "n")]) "is_none" []) (EBlock [(SLet PWild (EBin "+" (EPath "u64" "MAX") (ELit 1)))] (ECon "tuple" [])) (ECon "tuple" [])))] (EMethod (EVar "start") "wrapping_add" [(ECast (EVar "n") "u64")])));
    (Fn "backward" NoSelf [(PBind "start"); (PBind "n")]
      (EBlock [(SExpr (EIf (EMethod (ECall "u64" "backward_checked" [(EVar "start"); (EVar "n")]) "is_none" []) (EBlock [(SLet PWild (EBin "-" (EPath "u64" "MIN") (ELit 1)))] (ECon "tuple" [])) (ECon "tuple" [])))] (EMethod (EVar "start") "wrapping_sub" [(ECast (EVar "n") "u64")])));
    (Fn "steps_between" NoSelf [(PBind "start"); (PBind "end")]
      (EIf (EBin "<=" (EDeref (EVar "start")) (EDeref (EVar "end"))) (EMethod (ECall "usize" "try_from" [(EBin "-" (EDeref (EVar "end")) (EDeref (EVar "start")))]) "ok" []) (ECon "None" [])));
    (Fn "forward_checked" NoSelf [(PBind "start"); (PBind "n")]
      (EMethod (EVar "start") "checked_add" [(ECast (EVar "n") "u64")]));
    (Fn "backward_checked" NoSelf [(PBind "start"); (PBind "n")]
      (EMethod (EVar "start") "checked_sub" [(ECast (EVar "n") "u64")]))].

(** src/step.rs *)
Definition impl_51 : impl := Impl (Some ("Step", "")) "i64" ["Step"] [] []
  [
    (Fn "forward" NoSelf [(PBind "start"); (PBind "n")]
      (EBlock [(SExpr (EIf (EMethod (ECall "i64" "forward_checked" [(EVar "start"); (EVar "n")]) "is_none" []) (EBlock [(SLet PWild (EBin "+" (EPath "i64" "MAX") (ELit 1)))] (ECon "tuple" [])) (ECon "tuple" [])))] (EMethod (EVar "start") "wrapping_add" [(ECast (EVar "n") "i64")])));
    (Fn "backward" NoSelf [(PBind "start"); (PBind "n")]
      (EBlock [(SExpr (EIf (EMethod (ECall "i64" "backward_checked" [(EVar "start"); (EVar "n")]) "is_none" []) (EBlock [(SLet PWild (EBin "-" (EPath "i64" "MIN") (ELit 1)))] (ECon "tuple" [])) (ECon "tuple" [])))] (EMethod (EVar "start") "wrapping_sub" [(ECast (EVar "n") "i64")])));
    (Fn "steps_between" NoSelf [(PBind "start"); (PBind "end")]
      (EIf (EBin "<=" (EDeref (EVar "start")) (EDeref (EVar "end"))) (EMatch (EMethod (EVar "end") "checked_sub" [(EDeref (EVar "start"))]) [((PCon "Some" [("0", (PBind "result"))]), (EMethod (ECall "usize" "try_from" [(EVar "result")]) "ok" [])); ((PCon "None" []), (ECon "None" []))]) (ECon "None" [])));
    (Fn "forward_checked" NoSelf [(PBind "start"); (PBind "n")]
      (EMethod (EVar "start") "checked_add" [(ECast (EVar "n") "i64")]));
    (Fn "backward_checked" NoSelf [(PBind "start"); (PBind "n")]
      (EMethod (EVar "start") "checked_sub" [(ECast (EVar "n") "i64")]))].

(** src/step.rs *)
Definition impl_52 : impl := Impl (Some ("Step", "")) "u32" ["Step"] [] []
  [
    (Fn "forward" NoSelf [(PBind "start"); (PBind "n")]
      (EBlock [(SExpr (EIf (EMethod (ECall "u32" "forward_checked" [(EVar "start"); (EVar "n")]) "is_none" []) (EBlock [(SLet PWild (EBin "+" (EPath "u32" "MAX") (ELit 1)))] (ECon "tuple" [])) (ECon "tuple" [])))] (EMethod (EVar "start") "wrapping_add" [(ECast (EVar "n") "u32")])));
    (Fn "backward" NoSelf [(PBind "start"); (PBind "n")]
      (EBlock [(SExpr (EIf (EMethod (ECall "u32" "backward_checked" [(EVar "start"); (EVar "n")]) "is_none" []) (EBlock [(SLet PWild (EBin "-" (EPath "u32" "MIN") (ELit 1)))] (ECon "tuple" [])) (ECon "tuple" [])))] (EMethod (EVar "start") "wrapping_sub" [(ECast (EVar "n") "u32")])));
    (Fn "steps_between" NoSelf [(PBind "start"); (PBind "end")]
      (EIf (EBin "<=" (EDeref (EVar "start")) (EDeref (EVar "end"))) (EMethod (ECall "usize" "try_from" [(EBin "-" (EDeref (EVar "end")) (EDeref (EVar "start")))]) "ok" []) (ECon "None" [])));
    (Fn "forward_checked" NoSelf [(PBind "start"); (PBind "n")]
      (EMethod (EVar "start") "checked_add" [(ECast (EVar "n") "u32")]));
    (Fn "backward_checked" NoSelf [(PBind "start"); (PBind "n")]
      (EMethod (EVar "start") "checked_sub" [(ECast (EVar "n") "u32")]))].

(** src/step.rs *)
Definition impl_53 : impl := Impl (Some ("Step", "")) "i32" ["Step"] [] []
  [
    (Fn "forward" NoSelf [(PBind "start"); (PBind "n")]
      (EBlock [(SExpr (EIf (EMethod (ECall "i32" "forward_checked" [(EVar "start"); (EVar "n")]) "is_none" []) (EBlock [(SLet PWild (EBin "+" (EPath "i32" "MAX") (ELit 1)))] (ECon "tuple" [])) (ECon "tuple" [])))] (EMethod (EVar "start") "wrapping_add" [(ECast (EVar "n") "i32")])));
    (Fn "backward" NoSelf [(PBind "start"); (PBind "n")]
      (EBlock [(SExpr (EIf (EMethod (ECall "i32" "backward_checked" [(EVar "start"); (EVar "n")]) "is_none" []) (EBlock [(SLet PWild (EBin "-" (EPath "i32" "MIN") (ELit 1)))] (ECon "tuple" [])) (ECon "tuple" [])))] (EMethod (EVar "start") "wrapping_sub" [(ECast (EVar "n") "i32")])));
    (Fn "steps_between" NoSelf [(PBind "start"); (PBind "end")]
      (EIf (EBin "<=" (EDeref (EVar "start")) (EDeref (EVar "end"))) (EMatch (EMethod (EVar "end") "checked_sub" [(EDeref (EVar "start"))]) [((PCon "Some" [("0", (PBind "result"))]), (EMethod (ECall "usize" "try_from" [(EVar "result")]) "ok" [])); ((PCon "None" []), (ECon "None" []))]) (ECon "None" [])));
    (Fn "forward_checked" NoSelf [(PBind "start"); (PBind "n")]
      (EMethod (EVar "start") "checked_add" [(ECast (EVar "n") "i32")]));
    (Fn "backward_checked" NoSelf [(PBind "start"); (PBind "n")]
      (EMethod (EVar "start") "checked_sub" [(ECast (EVar "n") "i32")]))].

(** src/step.rs *)
Definition impl_54 : impl := Impl (Some ("Step", "")) "char" ["Step"] [] []
  [
    (Fn "steps_between" NoSelf [(PBind "start"); (PBind "end")]
      (EBlock [(SLet (PBind "start") (ECast (EVar "start") "u32")); (SLet (PBind "end") (ECast (EVar "end") "u32"))] (EIf (EBin "<=" (EVar "start") (EVar "end")) (EBlock [(SLet (PBind "count") (EBin "-" (EVar "end") (EVar "start")))] (EIf (EBin "&&" (EBin "<" (EVar "start") (ELit 55296)) (EBin "<=" (ELit 57344) (EVar "end"))) (EMethod (ECall "usize" "try_from" [(EBin "-" (EVar "count") (ELit 2048))]) "ok" []) (EMethod (ECall "usize" "try_from" [(EVar "count")]) "ok" []))) (ECon "None" []))));
    (Fn "forward_checked" NoSelf [(PBind "start"); (PBind "count")]
      (EBlock [(SLet (PBind "start") (ECast (EVar "start") "u32")); (SLet (PBind "res") (ETry (ECall "Step" "forward_checked" [(EVar "start"); (EVar "count")]))); (SExpr (EIf (EBin "&&" (EBin "<" (EVar "start") (ELit 55296)) (EBin "<=" (ELit 55296) (EVar "res"))) (EBlock [(SExpr (EAssign (EVar "res") (ETry (ECall "Step" "forward_checked" [(EVar "res"); (ELit 2048)]))))] (ECon "tuple" [])) (ECon "tuple" [])))] (EIf (EBin "<=" (EVar "res") (ECast (EPath "char" "MAX") "u32")) (ECon "Some" [("0", (ECall "char" "from_u32_unchecked" [(EVar "res")]))]) (ECon "None" []))));
    (Fn "backward_checked" NoSelf [(PBind "start"); (PBind "count")]
      (EBlock [(SLet (PBind "start") (ECast (EVar "start") "u32")); (SLet (PBind "res") (ETry (ECall "Step" "backward_checked" [(EVar "start"); (EVar "count")]))); (SExpr (EIf (EBin "&&" (EBin ">=" (EVar "start") (ELit 57344)) (EBin ">" (ELit 57344) (EVar "res"))) (EBlock [(SExpr (EAssign (EVar "res") (ETry (ECall "Step" "backward_checked" [(EVar "res"); (ELit 2048)]))))] (ECon "tuple" [])) (ECon "tuple" [])))] (ECon "Some" [("0", (ECall "char" "from_u32_unchecked" [(EVar "res")]))])))].

(** src/unbounded_range.rs *)
Definition impl_55 : impl := Impl (Some ("From", "RangeFull")) "UnboundedRange" [] [] []
  [
    (Fn "from" NoSelf [PWild]
      (ECon "UnboundedRange" []))].

(** src/unbounded_range.rs *)
Definition impl_56 : impl := Impl (Some ("From", "UnboundedRange")) "RangeFull" [] [] []
  [
    (Fn "from" NoSelf [PWild]
      (ECon "RangeFull" []))].

(** src/unbounded_range.rs *)
Definition impl_57 : impl := Impl None "UnboundedRange" [] [] []
  [
    (Fn "new" NoSelf []
      (ECon "UnboundedRange" []));
    (Fn "contains" ByRef [PWild]
      (EBool true))].

(** src/unbounded_set.rs *)
Definition impl_58 : impl := Impl None "PiecewiseUnboundedSet" ["RangeIntersection"; "Rangetools"] [] []
  [
    (Fn "contains" ByRef [(PBind "t")]
      (EBin "||" (EBin "||" (EMethod (EField (EVar "self") "upper_bounded_range") "contains" [(EVar "t")]) (EMethod (EField (EVar "self") "lower_bounded_range") "contains" [(EVar "t")])) (EMethod (EField (EVar "self") "ranges") "contains" [(EVar "t")])));
    (Fn "defragment" ByMut []
      (EMatch (EMethod (EMethod (EField (EField (EVar "self") "ranges") "ranges") "iter" []) "position" [(EClo [(PBind "r")] (EMethod (EField (EVar "self") "upper_bounded_range") "intersects" [(EDeref (EVar "r"))]))]) [((PCon "Some" [("0", (PBind "index"))]), (EBlock [(SLet (PBind "range") (EMethod (EMethod (EField (EField (EVar "self") "ranges") "ranges") "remove" [(EVar "index")]) "unwrap" [])); (SExpr (EAssign (EField (EField (EVar "self") "upper_bounded_range") "end") (EMethod (EField (EField (EVar "self") "upper_bounded_range") "end") "max" [(EField (EVar "range") "end")]))); (SExpr (EMethod (EVar "self") "defragment" []))] (ECon "tuple" []))); (PWild, (EMatch (EMethod (EMethod (EField (EField (EVar "self") "ranges") "ranges") "iter" []) "position" [(EClo [(PBind "r")] (EMethod (EField (EVar "self") "lower_bounded_range") "intersects" [(EDeref (EVar "r"))]))]) [((PCon "Some" [("0", (PBind "index"))]), (EBlock [(SLet (PBind "range") (EMethod (EMethod (EField (EField (EVar "self") "ranges") "ranges") "remove" [(EVar "index")]) "unwrap" [])); (SExpr (EAssign (EField (EField (EVar "self") "lower_bounded_range") "start") (EMethod (EField (EField (EVar "self") "lower_bounded_range") "start") "min" [(EField (EVar "range") "start")]))); (SExpr (EMethod (EVar "self") "defragment" []))] (ECon "tuple" []))); (PWild, (ECon "tuple" []))]))]))].

(** src/unbounded_set.rs *)
Definition impl_59 : impl := Impl (Some ("From", "UnboundedRange")) "UnboundedSet" ["RangeIntersection"; "Rangetools"] [] []
  [
    (Fn "from" NoSelf [PWild]
      (ECon "Full" []))].

(** src/unbounded_set.rs *)
Definition impl_60 : impl := Impl None "UnboundedSet" ["RangeIntersection"; "Rangetools"] [] []
  [
    (Fn "new" NoSelf [(PBind "upper_bounded_range"); (PBind "lower_bounded_range")]
      (EIf (EMethod (ECall "RangeIntersection" "intersection" [(EVar "upper_bounded_range"); (EVar "lower_bounded_range")]) "is_empty" []) (ECon "Piecewise" [("0", (ECon "PiecewiseUnboundedSet" [("upper_bounded_range", (EVar "upper_bounded_range")); ("ranges", (ECall "BoundedSet" "empty" [])); ("lower_bounded_range", (EVar "lower_bounded_range"))]))]) (ECon "Full" [])))].

(** src/unbounded_set.rs *)
Definition impl_61 : impl := Impl None "UnboundedSet" ["RangeIntersection"; "Rangetools"] [] []
  [
    (Fn "contains" ByRef [(PBind "t")]
      (EMatch (EVar "self") [((PCon "Full" []), (EBool true)); ((PCon "Piecewise" [("0", (PBind "p"))]), (EMethod (EVar "p") "contains" [(EVar "t")]))]));
    (Fn "map_piecewise" ByMut [(PBind "f")]
      (EMatch (EVar "self") [((PCon "Full" []), (ECon "tuple" [])); ((PCon "Piecewise" [("0", (PBind "p"))]), (EApp "f" [(EVar "p")]))]));
    (Fn "defragment" ByMut []
      (EBlock [(SExpr (EMethod (EVar "self") "map_piecewise" [(EPath "PiecewiseUnboundedSet" "defragment")]))] (EMatch (EVar "self") [((PCon "Piecewise" [("0", (PCon "PiecewiseUnboundedSet" [("upper_bounded_range", (PBind "upper_bounded_range")); ("lower_bounded_range", (PBind "lower_bounded_range"))]))]), (EIf (EMethod (EVar "upper_bounded_range") "intersects" [(EDeref (EVar "lower_bounded_range"))]) (EAssign (EDeref (EVar "self")) (ECon "Full" [])) (ECon "tuple" []))); (PWild, (ECon "tuple" []))])));
    (Fn "add_range" ByMut [(PBind "range")]
      (EBlock [(SExpr (EMethod (EVar "self") "map_piecewise" [(EClo [(PBind "p")] (EMethod (EField (EVar "p") "ranges") "add_range" [(EVar "range")]))])); (SExpr (EMethod (EVar "self") "defragment" []))] (ECon "tuple" [])));
    (Fn "add_lower_bounded_range" ByMut [(PBind "range")]
      (EBlock [(SExpr (EMethod (EVar "self") "map_piecewise" [(EClo [(PBind "p")] (EBlock [(SExpr (EAssign (EField (EField (EVar "p") "lower_bounded_range") "start") (ECall "LowerBound" "min" [(EField (EField (EVar "p") "lower_bounded_range") "start"); (EField (EVar "range") "start")])))] (ECon "tuple" [])))])); (SExpr (EMethod (EVar "self") "defragment" []))] (ECon "tuple" [])));
    (Fn "add_upper_bounded_range" ByMut [(PBind "range")]
      (EBlock [(SExpr (EMethod (EVar "self") "map_piecewise" [(EClo [(PBind "p")] (EBlock [(SExpr (EAssign (EField (EField (EVar "p") "upper_bounded_range") "end") (ECall "UpperBound" "max" [(EField (EField (EVar "p") "upper_bounded_range") "end"); (EField (EVar "range") "end")])))] (ECon "tuple" [])))])); (SExpr (EMethod (EVar "self") "defragment" []))] (ECon "tuple" [])));
    (Fn "add_set" ByMut [(PBind "set")]
      (EFor (PBind "range") (EMethod (EField (EVar "set") "ranges") "into_iter" []) (EBlock [(SExpr (EMethod (EVar "self") "add_range" [(EVar "range")]))] (ECon "tuple" []))));
    (Fn "add_unbounded_set" ByMut [(PBind "range")]
      (EMatch (EVar "range") [((PCon "Piecewise" [("0", (PCon "PiecewiseUnboundedSet" [("lower_bounded_range", (PBind "lower_bounded_range")); ("ranges", (PBind "ranges")); ("upper_bounded_range", (PBind "upper_bounded_range"))]))]), (EBlock [(SExpr (EMethod (EVar "self") "add_lower_bounded_range" [(EVar "lower_bounded_range")])); (SExpr (EMethod (EVar "self") "add_upper_bounded_range" [(EVar "upper_bounded_range")])); (SExpr (EMethod (EVar "self") "add_set" [(EVar "ranges")])); (SExpr (EMethod (EVar "self") "defragment" []))] (ECon "tuple" []))); ((PCon "Full" []), (EAssign (EDeref (EVar "self")) (ECon "Full" [])))]))].

(** src/upper_bounded_range.rs *)
Definition impl_62 : impl := Impl (Some ("From", "RangeTo")) "UpperBoundedRange" ["Step"] [] []
  [
    (Fn "from" NoSelf [(PBind "r")]
      (ECon "UpperBoundedRange" [("end", (ECall "UpperBound" "excluded" [(EField (EVar "r") "end")]))]))].

(** src/upper_bounded_range.rs *)
Definition impl_63 : impl := Impl (Some ("From", "RangeToInclusive")) "UpperBoundedRange" ["Step"] [] []
  [
    (Fn "from" NoSelf [(PBind "r")]
      (ECon "UpperBoundedRange" [("end", (ECall "UpperBound" "included" [(EField (EVar "r") "end")]))]))].

(** src/upper_bounded_range.rs *)
Definition impl_64 : impl := Impl (Some ("From", "UpperBoundedRange")) "RangeTo" ["Step"] [] []
  [
    (Fn "from" NoSelf [(PBind "r")]
      (EMatch (EMethod (EField (EVar "r") "end") "to_bound" []) [((PCon "Excluded" [("0", (PBind "t"))]), (ECon "RangeTo" [("end", (EVar "t"))])); ((PCon "Included" [("0", (PBind "t"))]), (ECon "RangeTo" [("end", (ECall "Step" "forward" [(EVar "t"); (ELit 1)]))]))]))].

(** src/upper_bounded_range.rs *)
Definition impl_65 : impl := Impl (Some ("From", "UpperBoundedRange")) "RangeToInclusive" ["Step"] [] []
  [
    (Fn "from" NoSelf [(PBind "r")]
      (EMatch (EMethod (EField (EVar "r") "end") "to_bound" []) [((PCon "Excluded" [("0", (PBind "t"))]), (ECon "RangeToInclusive" [("end", (ECall "Step" "backward" [(EVar "t"); (ELit 1)]))])); ((PCon "Included" [("0", (PBind "t"))]), (ECon "RangeToInclusive" [("end", (EVar "t"))]))]))].

(** src/upper_bounded_range.rs *)
Definition impl_66 : impl := Impl None "UpperBoundedRange" ["Step"] [] []
  [
    (Fn "new" NoSelf [(PBind "end")]
      (ECon "UpperBoundedRange" [("end", (EVar "end"))]));
    (Fn "contains" ByRef [(PBind "t")]
      (EMatch (EField (EField (EVar "self") "end") "0") [((PCon "Excluded" [("0", (PBind "x"))]), (EBin "<" (EVar "t") (EVar "x"))); ((PCon "Included" [("0", (PBind "i"))]), (EBin "<=" (EVar "t") (EVar "i")))]))].

(** src/upper_bounded_set.rs *)
Definition impl_67 : impl := Impl (Some ("From", "UpperBoundedRange")) "UpperBoundedSet" ["Rangetools"] [] []
  [
    (Fn "from" NoSelf [(PBind "upper_bounded_range")]
      (ECon "UpperBoundedSet" [("upper_bounded_range", (EVar "upper_bounded_range")); ("ranges", (ECall "BoundedSet" "empty" []))]))].

(** src/upper_bounded_set.rs *)
Definition impl_68 : impl := Impl None "UpperBoundedSet" ["Rangetools"] [] []
  [
    (Fn "defragment" ByMut []
      (EWhile (ENot (EMethod (EField (EVar "self") "ranges") "is_empty" [])) (EIf (EMethod (EMethod (EMethod (EMethod (EField (EField (EVar "self") "ranges") "ranges") "front" []) "unwrap" []) "intersection" [(EField (EVar "self") "upper_bounded_range")]) "is_empty" []) (EBlock [(SExpr (EReturn (ECon "tuple" [])))] (ECon "tuple" [])) (EBlock [(SLet (PBind "range") (EMethod (EMethod (EField (EField (EVar "self") "ranges") "ranges") "pop_front" []) "unwrap" [])); (SExpr (EAssign (EField (EField (EVar "self") "upper_bounded_range") "end") (EMethod (EField (EField (EVar "self") "upper_bounded_range") "end") "max" [(EField (EVar "range") "end")])))] (ECon "tuple" [])))));
    (Fn "add_range" ByMut [(PBind "range")]
      (EBlock [(SExpr (EMethod (EField (EVar "self") "ranges") "add_range" [(EVar "range")])); (SExpr (EMethod (EVar "self") "defragment" []))] (ECon "tuple" [])));
    (Fn "add_upper_bounded_range" ByMut [(PBind "range")]
      (EBlock [(SExpr (EAssign (EField (EField (EVar "self") "upper_bounded_range") "end") (ECall "UpperBound" "max" [(EField (EField (EVar "self") "upper_bounded_range") "end"); (EField (EVar "range") "end")]))); (SExpr (EMethod (EVar "self") "defragment" []))] (ECon "tuple" [])));
    (Fn "add_set" ByMut [(PBind "set")]
      (EFor (PBind "range") (EField (EVar "set") "ranges") (EBlock [(SExpr (EMethod (EVar "self") "add_range" [(EVar "range")]))] (ECon "tuple" []))));
    (Fn "contains" ByRef [(PBind "t")]
      (EBin "||" (EMethod (EField (EVar "self") "upper_bounded_range") "contains" [(EVar "t")]) (EMethod (EField (EVar "self") "ranges") "contains" [(EVar "t")])))].

(** src/implementations/complement/bounded_range.rs *)
Definition impl_69 : impl := Impl (Some ("RangeComplement", "UnboundedSet")) "BoundedRange" ["RangeComplement"; "Rangetools"] [] []
  [
    (Fn "complement" ByVal []
      (EMethod (ECall "UpperBoundedRange" "new" [(EInto (EMethod (EField (EField (EVar "self") "start") "0") "flipped" []) "UpperBound")]) "union" [(ECall "LowerBoundedRange" "new" [(EInto (EMethod (EField (EField (EVar "self") "end") "0") "flipped" []) "LowerBound")])]))].

(** src/implementations/complement/bounded_set.rs *)
Definition impl_70 : impl := Impl (Some ("RangeComplement", "UnboundedSet")) "BoundedSet" ["RangeComplement"; "RangeIntersection"] [] []
  [
    (Fn "complement" ByVal []
      (EMethod (EMethod (EField (EVar "self") "ranges") "into_iter" []) "fold" [(ECon "Full" []); (EClo [(PBind "acc"); (PBind "range")] (EMethod (EVar "acc") "intersection" [(EMethod (EVar "range") "complement" [])]))]))].

(** src/implementations/complement/empty_range.rs *)
Definition impl_71 : impl := Impl (Some ("RangeComplement", "UnboundedRange")) "EmptyRange" ["RangeComplement"] [] []
  [
    (Fn "complement" ByVal []
      (ECon "UnboundedRange" []))].

(** src/implementations/complement/lower_bounded_range.rs *)
Definition impl_72 : impl := Impl (Some ("RangeComplement", "UpperBoundedRange")) "LowerBoundedRange" ["RangeComplement"] [] []
  [
    (Fn "complement" ByVal []
      (ECall "UpperBoundedRange" "new" [(EInto (EMethod (EField (EField (EVar "self") "start") "0") "flipped" []) "UpperBound")]))].

(** src/implementations/complement/lower_bounded_set.rs *)
Definition impl_73 : impl := Impl (Some ("RangeComplement", "UpperBoundedSet")) "LowerBoundedSet" ["RangeComplement"; "RangeIntersection"; "Rangetools"] [] []
  [
    (Fn "complement" ByVal []
      (EMethod (EMethod (EField (EField (EVar "self") "ranges") "ranges") "into_iter" []) "fold" [(EMethod (ECall "RangeComplement" "complement" [(EField (EVar "self") "lower_bounded_range")]) "to_set" []); (EClo [(PBind "acc"); (PBind "range")] (ECall "RangeIntersection" "intersection" [(EVar "acc"); (ECall "RangeComplement" "complement" [(EVar "range")])]))]))].

(** src/implementations/complement/range.rs *)
Definition impl_74 : impl := Impl (Some ("RangeComplement", "UnboundedSet")) "Range" ["RangeComplement"; "Rangetools"] [] []
  [
    (Fn "complement" ByVal []
      (ECall "RangeComplement" "complement" [(EMethod (EVar "self") "to_inner" [])]))].

(** src/implementations/complement/range_from.rs *)
Definition impl_75 : impl := Impl (Some ("RangeComplement", "UpperBoundedRange")) "RangeFrom" ["RangeComplement"; "Rangetools"] [] []
  [
    (Fn "complement" ByVal []
      (ECall "RangeComplement" "complement" [(EMethod (EVar "self") "to_inner" [])]))].

(** src/implementations/complement/range_full.rs *)
Definition impl_76 : impl := Impl (Some ("RangeComplement", "EmptyRange")) "RangeFull" ["RangeComplement"] [] []
  [
    (Fn "complement" ByVal []
      (ECall "EmptyRange" "new" []))].

(** src/implementations/complement/range_inclusive.rs *)
Definition impl_77 : impl := Impl (Some ("RangeComplement", "UnboundedSet")) "RangeInclusive" ["RangeComplement"; "Rangetools"] [] []
  [
    (Fn "complement" ByVal []
      (ECall "RangeComplement" "complement" [(EMethod (EVar "self") "to_inner" [])]))].

(** src/implementations/complement/range_to.rs *)
Definition impl_78 : impl := Impl (Some ("RangeComplement", "LowerBoundedRange")) "RangeTo" ["RangeComplement"; "Rangetools"] [] []
  [
    (Fn "complement" ByVal []
      (ECall "RangeComplement" "complement" [(EMethod (EVar "self") "to_inner" [])]))].

(** src/implementations/complement/range_to_inclusive.rs *)
Definition impl_79 : impl := Impl (Some ("RangeComplement", "LowerBoundedRange")) "RangeToInclusive" ["RangeComplement"; "Rangetools"] [] []
  [
    (Fn "complement" ByVal []
      (ECall "RangeComplement" "complement" [(EMethod (EVar "self") "to_inner" [])]))].

(** src/implementations/complement/unbounded_range.rs *)
Definition impl_80 : impl := Impl (Some ("RangeComplement", "EmptyRange")) "UnboundedRange" ["RangeComplement"] [] []
  [
    (Fn "complement" ByVal []
      (ECall "EmptyRange" "new" []))].

(** src/implementations/complement/unbounded_set.rs *)
Definition impl_81 : impl := Impl (Some ("RangeComplement", "BoundedSet")) "UnboundedSet" ["RangeComplement"; "RangeIntersection"; "Rangetools"] [] []
  [
    (Fn "complement" ByVal []
      (EMatch (EVar "self") [((PCon "Full" []), (ECall "BoundedSet" "empty" [])); ((PCon "Piecewise" [("0", (PBind "set"))]), (EBlock [(SLet (PBind "starting_range") (ECall "RangeIntersection" "intersection" [(ECall "RangeComplement" "complement" [(EField (EVar "set") "lower_bounded_range")]); (ECall "RangeComplement" "complement" [(EField (EVar "set") "upper_bounded_range")])]))] (EMethod (EMethod (EField (EField (EVar "set") "ranges") "ranges") "into_iter" []) "fold" [(EMethod (EVar "starting_range") "to_set" []); (EClo [(PBind "acc"); (PBind "range")] (ECall "RangeIntersection" "intersection" [(EVar "acc"); (ECall "RangeComplement" "complement" [(EVar "range")])]))])))]))].

(** src/implementations/complement/upper_bounded_range.rs *)
Definition impl_82 : impl := Impl (Some ("RangeComplement", "LowerBoundedRange")) "UpperBoundedRange" ["RangeComplement"] [] []
  [
    (Fn "complement" ByVal []
      (ECall "LowerBoundedRange" "new" [(EInto (EMethod (EField (EField (EVar "self") "end") "0") "flipped" []) "LowerBound")]))].

(** src/implementations/complement/upper_bounded_set.rs *)
Definition impl_83 : impl := Impl (Some ("RangeComplement", "LowerBoundedSet")) "UpperBoundedSet" ["RangeComplement"; "RangeIntersection"; "Rangetools"] [] []
  [
    (Fn "complement" ByVal []
      (EMethod (EMethod (EField (EField (EVar "self") "ranges") "ranges") "into_iter" []) "fold" [(EMethod (ECall "RangeComplement" "complement" [(EField (EVar "self") "upper_bounded_range")]) "to_set" []); (EClo [(PBind "acc"); (PBind "range")] (ECall "RangeIntersection" "intersection" [(EVar "acc"); (ECall "RangeComplement" "complement" [(EVar "range")])]))]))].

(** src/implementations/index/bounded_range.rs *)
Definition impl_84 : impl := Impl (Some ("Index", "BoundedRange")) "String" [] [] [("Output", "str")]
  [
    (Fn "index" ByRef [(PBind "r")]
      (ERef (EIndex (EVar "self") (ECall "Range" "from" [(EVar "r")]))))].

(** src/implementations/index/bounded_range.rs *)
Definition impl_85 : impl := Impl (Some ("IndexMut", "BoundedRange")) "String" [] [] []
  [
    (Fn "index_mut" ByMut [(PBind "r")]
      (ERef (EIndex (EVar "self") (ECall "Range" "from" [(EVar "r")]))))].

(** src/implementations/index/bounded_range.rs *)
Definition impl_86 : impl := Impl (Some ("Index", "BoundedRange")) "str" [] [] [("Output", "str")]
  [
    (Fn "index" ByRef [(PBind "r")]
      (ERef (EIndex (EVar "self") (ECall "Range" "from" [(EVar "r")]))))].

(** src/implementations/index/bounded_range.rs *)
Definition impl_87 : impl := Impl (Some ("IndexMut", "BoundedRange")) "str" [] [] []
  [
    (Fn "index_mut" ByMut [(PBind "r")]
      (ERef (EIndex (EVar "self") (ECall "Range" "from" [(EVar "r")]))))].

(** src/implementations/index/bounded_range.rs *)
Definition impl_88 : impl := Impl (Some ("Index", "BoundedRange")) "slice" [] [] [("Output", "slice")]
  [
    (Fn "index" ByRef [(PBind "r")]
      (ERef (EIndex (EVar "self") (ECall "Range" "from" [(EVar "r")]))))].

(** src/implementations/index/bounded_range.rs *)
Definition impl_89 : impl := Impl (Some ("IndexMut", "BoundedRange")) "slice" [] [] []
  [
    (Fn "index_mut" ByMut [(PBind "r")]
      (ERef (EIndex (EVar "self") (ECall "Range" "from" [(EVar "r")]))))].

(** src/implementations/index/bounded_range.rs *)
Definition impl_90 : impl := Impl (Some ("Index", "BoundedRange")) "Vec" [] [] [("Output", "slice")]
  [
    (Fn "index" ByRef [(PBind "r")]
      (ERef (EIndex (EVar "self") (ECall "Range" "from" [(EVar "r")]))))].

(** src/implementations/index/bounded_range.rs *)
Definition impl_91 : impl := Impl (Some ("IndexMut", "BoundedRange")) "Vec" [] [] []
  [
    (Fn "index_mut" ByMut [(PBind "r")]
      (ERef (EIndex (EVar "self") (ECall "Range" "from" [(EVar "r")]))))].

(** src/implementations/index/empty_range.rs *)
Definition impl_92 : impl := Impl (Some ("Index", "EmptyRange")) "String" [] [] [("Output", "str")]
  [
    (Fn "index" ByRef [(PBind "r")]
      (ERef (EIndex (EVar "self") (ECall "Range" "from" [(EVar "r")]))))].

(** src/implementations/index/empty_range.rs *)
Definition impl_93 : impl := Impl (Some ("Index", "EmptyRange")) "str" [] [] [("Output", "str")]
  [
    (Fn "index" ByRef [(PBind "r")]
      (ERef (EIndex (EVar "self") (ECall "Range" "from" [(EVar "r")]))))].

(** src/implementations/index/empty_range.rs *)
Definition impl_94 : impl := Impl (Some ("Index", "EmptyRange")) "slice" [] [] [("Output", "slice")]
  [
    (Fn "index" ByRef [(PBind "r")]
      (ERef (EIndex (EVar "self") (ECall "Range" "from" [(EVar "r")]))))].

(** src/implementations/index/empty_range.rs *)
Definition impl_95 : impl := Impl (Some ("Index", "EmptyRange")) "Vec" [] [] [("Output", "slice")]
  [
    (Fn "index" ByRef [(PBind "r")]
      (ERef (EIndex (EVar "self") (ECall "Range" "from" [(EVar "r")]))))].

(** src/implementations/index/lower_bounded_range.rs *)
Definition impl_96 : impl := Impl (Some ("Index", "LowerBoundedRange")) "String" [] [] [("Output", "str")]
  [
    (Fn "index" ByRef [(PBind "r")]
      (ERef (EIndex (EVar "self") (ECall "RangeFrom" "from" [(EVar "r")]))))].

(** src/implementations/index/lower_bounded_range.rs *)
Definition impl_97 : impl := Impl (Some ("IndexMut", "LowerBoundedRange")) "String" [] [] []
  [
    (Fn "index_mut" ByMut [(PBind "r")]
      (ERef (EIndex (EVar "self") (ECall "RangeFrom" "from" [(EVar "r")]))))].

(** src/implementations/index/lower_bounded_range.rs *)
Definition impl_98 : impl := Impl (Some ("Index", "LowerBoundedRange")) "str" [] [] [("Output", "str")]
  [
    (Fn "index" ByRef [(PBind "r")]
      (ERef (EIndex (EVar "self") (ECall "RangeFrom" "from" [(EVar "r")]))))].

(** src/implementations/index/lower_bounded_range.rs *)
Definition impl_99 : impl := Impl (Some ("IndexMut", "LowerBoundedRange")) "str" [] [] []
  [
    (Fn "index_mut" ByMut [(PBind "r")]
      (ERef (EIndex (EVar "self") (ECall "RangeFrom" "from" [(EVar "r")]))))].

(** src/implementations/index/lower_bounded_range.rs *)
Definition impl_100 : impl := Impl (Some ("Index", "LowerBoundedRange")) "CStr" [] [] [("Output", "CStr")]
  [
    (Fn "index" ByRef [(PBind "r")]
      (ERef (EIndex (EVar "self") (ECall "RangeFrom" "from" [(EVar "r")]))))].

(** src/implementations/index/lower_bounded_range.rs *)
Definition impl_101 : impl := Impl (Some ("Index", "LowerBoundedRange")) "slice" [] [] [("Output", "slice")]
  [
    (Fn "index" ByRef [(PBind "r")]
      (ERef (EIndex (EVar "self") (ECall "RangeFrom" "from" [(EVar "r")]))))].

(** src/implementations/index/lower_bounded_range.rs *)
Definition impl_102 : impl := Impl (Some ("IndexMut", "LowerBoundedRange")) "slice" [] [] []
  [
    (Fn "index_mut" ByMut [(PBind "r")]
      (ERef (EIndex (EVar "self") (ECall "RangeFrom" "from" [(EVar "r")]))))].

(** src/implementations/index/lower_bounded_range.rs *)
Definition impl_103 : impl := Impl (Some ("Index", "LowerBoundedRange")) "Vec" [] [] [("Output", "slice")]
  [
    (Fn "index" ByRef [(PBind "r")]
      (ERef (EIndex (EVar "self") (ECall "RangeFrom" "from" [(EVar "r")]))))].

(** src/implementations/index/lower_bounded_range.rs *)
Definition impl_104 : impl := Impl (Some ("IndexMut", "LowerBoundedRange")) "Vec" [] [] []
  [
    (Fn "index_mut" ByMut [(PBind "r")]
      (ERef (EIndex (EVar "self") (ECall "RangeFrom" "from" [(EVar "r")]))))].

(** src/implementations/index/unbounded_range.rs *)
Definition impl_105 : impl := Impl (Some ("Index", "UnboundedRange")) "String" [] [] [("Output", "str")]
  [
    (Fn "index" ByRef [(PBind "r")]
      (ERef (EIndex (EVar "self") (ECall "RangeFull" "from" [(EVar "r")]))))].

(** src/implementations/index/unbounded_range.rs *)
Definition impl_106 : impl := Impl (Some ("IndexMut", "UnboundedRange")) "String" [] [] []
  [
    (Fn "index_mut" ByMut [(PBind "r")]
      (ERef (EIndex (EVar "self") (ECall "RangeFull" "from" [(EVar "r")]))))].

(** src/implementations/index/unbounded_range.rs *)
Definition impl_107 : impl := Impl (Some ("Index", "UnboundedRange")) "str" [] [] [("Output", "str")]
  [
    (Fn "index" ByRef [(PBind "r")]
      (ERef (EIndex (EVar "self") (ECall "RangeFull" "from" [(EVar "r")]))))].

(** src/implementations/index/unbounded_range.rs *)
Definition impl_108 : impl := Impl (Some ("IndexMut", "UnboundedRange")) "str" [] [] []
  [
    (Fn "index_mut" ByMut [(PBind "r")]
      (ERef (EIndex (EVar "self") (ECall "RangeFull" "from" [(EVar "r")]))))].

(** src/implementations/index/unbounded_range.rs *)
Definition impl_109 : impl := Impl (Some ("Index", "UnboundedRange")) "CString" [] [] [("Output", "CStr")]
  [
    (Fn "index" ByRef [(PBind "r")]
      (ERef (EIndex (EVar "self") (ECall "RangeFull" "from" [(EVar "r")]))))].

(** src/implementations/index/unbounded_range.rs *)
Definition impl_110 : impl := Impl (Some ("Index", "UnboundedRange")) "OsString" [] [] [("Output", "OsStr")]
  [
    (Fn "index" ByRef [(PBind "r")]
      (ERef (EIndex (EVar "self") (ECall "RangeFull" "from" [(EVar "r")]))))].

(** src/implementations/index/unbounded_range.rs *)
Definition impl_111 : impl := Impl (Some ("IndexMut", "UnboundedRange")) "OsString" [] [] []
  [
    (Fn "index_mut" ByMut [(PBind "r")]
      (ERef (EIndex (EVar "self") (ECall "RangeFull" "from" [(EVar "r")]))))].

(** src/implementations/index/unbounded_range.rs *)
Definition impl_112 : impl := Impl (Some ("Index", "UnboundedRange")) "slice" [] [] [("Output", "slice")]
  [
    (Fn "index" ByRef [(PBind "r")]
      (ERef (EIndex (EVar "self") (ECall "RangeFull" "from" [(EVar "r")]))))].

(** src/implementations/index/unbounded_range.rs *)
Definition impl_113 : impl := Impl (Some ("IndexMut", "UnboundedRange")) "slice" [] [] []
  [
    (Fn "index_mut" ByMut [(PBind "r")]
      (ERef (EIndex (EVar "self") (ECall "RangeFull" "from" [(EVar "r")]))))].

(** src/implementations/index/unbounded_range.rs *)
Definition impl_114 : impl := Impl (Some ("Index", "UnboundedRange")) "Vec" [] [] [("Output", "slice")]
  [
    (Fn "index" ByRef [(PBind "r")]
      (ERef (EIndex (EVar "self") (ECall "RangeFull" "from" [(EVar "r")]))))].

(** src/implementations/index/unbounded_range.rs *)
Definition impl_115 : impl := Impl (Some ("IndexMut", "UnboundedRange")) "Vec" [] [] []
  [
    (Fn "index_mut" ByMut [(PBind "r")]
      (ERef (EIndex (EVar "self") (ECall "RangeFull" "from" [(EVar "r")]))))].

(** src/implementations/index/upper_bounded_range.rs *)
Definition impl_116 : impl := Impl (Some ("Index", "UpperBoundedRange")) "String" [] [] [("Output", "str")]
  [
    (Fn "index" ByRef [(PBind "r")]
      (ERef (EIndex (EVar "self") (ECall "RangeTo" "from" [(EVar "r")]))))].

(** src/implementations/index/upper_bounded_range.rs *)
Definition impl_117 : impl := Impl (Some ("IndexMut", "UpperBoundedRange")) "String" [] [] []
  [
    (Fn "index_mut" ByMut [(PBind "r")]
      (ERef (EIndex (EVar "self") (ECall "RangeTo" "from" [(EVar "r")]))))].

(** src/implementations/index/upper_bounded_range.rs *)
Definition impl_118 : impl := Impl (Some ("Index", "UpperBoundedRange")) "str" [] [] [("Output", "str")]
  [
    (Fn "index" ByRef [(PBind "r")]
      (ERef (EIndex (EVar "self") (ECall "RangeTo" "from" [(EVar "r")]))))].

(** src/implementations/index/upper_bounded_range.rs *)
Definition impl_119 : impl := Impl (Some ("IndexMut", "UpperBoundedRange")) "str" [] [] []
  [
    (Fn "index_mut" ByMut [(PBind "r")]
      (ERef (EIndex (EVar "self") (ECall "RangeTo" "from" [(EVar "r")]))))].

(** src/implementations/index/upper_bounded_range.rs *)
Definition impl_120 : impl := Impl (Some ("Index", "UpperBoundedRange")) "slice" [] [] [("Output", "slice")]
  [
    (Fn "index" ByRef [(PBind "r")]
      (ERef (EIndex (EVar "self") (ECall "RangeTo" "from" [(EVar "r")]))))].

(** src/implementations/index/upper_bounded_range.rs *)
Definition impl_121 : impl := Impl (Some ("IndexMut", "UpperBoundedRange")) "slice" [] [] []
  [
    (Fn "index_mut" ByMut [(PBind "r")]
      (ERef (EIndex (EVar "self") (ECall "RangeTo" "from" [(EVar "r")]))))].

(** src/implementations/index/upper_bounded_range.rs *)
Definition impl_122 : impl := Impl (Some ("Index", "UpperBoundedRange")) "Vec" [] [] [("Output", "slice")]
  [
    (Fn "index" ByRef [(PBind "r")]
      (ERef (EIndex (EVar "self") (ECall "RangeTo" "from" [(EVar "r")]))))].

(** src/implementations/index/upper_bounded_range.rs *)
Definition impl_123 : impl := Impl (Some ("IndexMut", "UpperBoundedRange")) "Vec" [] [] []
  [
    (Fn "index_mut" ByMut [(PBind "r")]
      (ERef (EIndex (EVar "self") (ECall "RangeTo" "from" [(EVar "r")]))))].

(** src/implementations/intersection/bounded_range.rs *)
Definition impl_124 : impl := Impl (Some ("RangeIntersection", "")) "BoundedRange" ["RangeIntersection"; "Rangetools"] [("Inner", "BoundedRange")] [("Output", "BoundedRange")]
  [
    (Fn "intersection" ByVal [(PBind "other")]
      (EBlock [(SLet (PBind "other") (EMethod (EVar "other") "to_inner" []))] (ECall "BoundedRange" "new" [(EMethod (EField (EVar "self") "start") "max" [(EField (EVar "other") "start")]); (EMethod (EField (EVar "self") "end") "min" [(EField (EVar "other") "end")])])))].

(** src/implementations/intersection/bounded_range.rs *)
Definition impl_125 : impl := Impl (Some ("RangeIntersection", "")) "BoundedRange" ["RangeIntersection"; "Rangetools"] [("Inner", "BoundedSet")] [("Output", "BoundedSet")]
  [
    (Fn "intersection" ByVal [(PBind "other")]
      (ECall "RangeIntersection" "intersection" [(EMethod (EVar "other") "to_inner" []); (EVar "self")]))].

(** src/implementations/intersection/bounded_range.rs *)
Definition impl_126 : impl := Impl (Some ("RangeIntersection", "")) "BoundedRange" ["RangeIntersection"; "Rangetools"] [("Inner", "LowerBoundedRange")] [("Output", "BoundedRange")]
  [
    (Fn "intersection" ByVal [(PBind "other")]
      (ECall "BoundedRange" "new" [(EMethod (EField (EVar "self") "start") "max" [(EField (EMethod (EVar "other") "to_inner" []) "start")]); (EField (EVar "self") "end")]))].

(** src/implementations/intersection/bounded_range.rs *)
Definition impl_127 : impl := Impl (Some ("RangeIntersection", "")) "BoundedRange" ["RangeIntersection"; "Rangetools"] [("Inner", "LowerBoundedSet")] [("Output", "BoundedSet")]
  [
    (Fn "intersection" ByVal [(PBind "other")]
      (ECall "RangeIntersection" "intersection" [(EMethod (EVar "other") "to_inner" []); (EVar "self")]))].

(** src/implementations/intersection/bounded_range.rs *)
Definition impl_128 : impl := Impl (Some ("RangeIntersection", "")) "BoundedRange" ["RangeIntersection"; "Rangetools"] [("Inner", "UpperBoundedRange")] [("Output", "BoundedRange")]
  [
    (Fn "intersection" ByVal [(PBind "other")]
      (ECall "BoundedRange" "new" [(EField (EVar "self") "start"); (EMethod (EField (EVar "self") "end") "min" [(EField (EMethod (EVar "other") "to_inner" []) "end")])]))].

(** src/implementations/intersection/bounded_range.rs *)
Definition impl_129 : impl := Impl (Some ("RangeIntersection", "")) "BoundedRange" ["RangeIntersection"; "Rangetools"] [("Inner", "UpperBoundedSet")] [("Output", "BoundedSet")]
  [
    (Fn "intersection" ByVal [(PBind "other")]
      (ECall "RangeIntersection" "intersection" [(EMethod (EVar "other") "to_inner" []); (EVar "self")]))].

(** src/implementations/intersection/bounded_range.rs *)
Definition impl_130 : impl := Impl (Some ("RangeIntersection", "")) "BoundedRange" ["RangeIntersection"; "Rangetools"] [("Inner", "UnboundedRange")] [("Output", "BoundedRange")]
  [
    (Fn "intersection" ByVal [(PBind "other")]
      (ECall "RangeIntersection" "intersection" [(EMethod (EVar "other") "to_inner" []); (EVar "self")]))].

(** src/implementations/intersection/bounded_range.rs *)
Definition impl_131 : impl := Impl (Some ("RangeIntersection", "")) "BoundedRange" ["RangeIntersection"; "Rangetools"] [("Inner", "UnboundedSet")] [("Output", "BoundedSet")]
  [
    (Fn "intersection" ByVal [(PBind "other")]
      (ECall "RangeIntersection" "intersection" [(EMethod (EVar "other") "to_inner" []); (EVar "self")]))].

(** src/implementations/intersection/bounded_range.rs *)
Definition impl_132 : impl := Impl (Some ("RangeIntersection", "")) "BoundedRange" ["RangeIntersection"; "Rangetools"] [("Inner", "EmptyRange")] [("Output", "EmptyRange")]
  [
    (Fn "intersection" ByVal [(PBind "other")]
      (ECall "RangeIntersection" "intersection" [(EMethod (EVar "other") "to_inner" []); (EVar "self")]))].

(** src/implementations/intersection/bounded_set.rs *)
Definition impl_133 : impl := Impl (Some ("RangeIntersection", "")) "BoundedSet" ["RangeIntersection"; "Rangetools"] [("Inner", "BoundedRange")] [("Output", "BoundedSet")]
  [
    (Fn "intersection" ByVal [(PBind "other")]
      (EBlock [(SLet (PBind "other") (EMethod (EVar "other") "to_inner" [])); (SExpr (EFor (PBind "range") (EMethod (EField (EVar "self") "ranges") "iter_mut" []) (EBlock [(SExpr (EAssign (EDeref (EVar "range")) (ECall "RangeIntersection" "intersection" [(EDeref (EVar "range")); (EVar "other")])))] (ECon "tuple" [])))); (SExpr (EMethod (EField (EVar "self") "ranges") "retain" [(EClo [(PBind "r")] (ENot (EMethod (EVar "r") "is_empty" [])))]))] (EVar "self")))].

(** src/implementations/intersection/bounded_set.rs *)
Definition impl_134 : impl := Impl (Some ("RangeIntersection", "")) "BoundedSet" ["RangeIntersection"; "Rangetools"] [("Inner", "BoundedSet")] [("Output", "BoundedSet")]
  [
    (Fn "intersection" ByVal [(PBind "other")]
      (EBlock [(SLet (PBind "set") (ECall "BoundedSet" "empty" [])); (SExpr (EFor (PBind "range") (EMethod (EField (EVar "self") "ranges") "iter" []) (EBlock [(SExpr (EMethod (EVar "set") "add_set" [(ECall "RangeIntersection" "intersection" [(EDeref (EVar "range")); (EMethod (EVar "other") "clone" [])])]))] (ECon "tuple" []))))] (EVar "set")))].

(** src/implementations/intersection/bounded_set.rs *)
Definition impl_135 : impl := Impl (Some ("RangeIntersection", "")) "BoundedSet" ["RangeIntersection"; "Rangetools"] [("Inner", "LowerBoundedRange")] [("Output", "BoundedSet")]
  [
    (Fn "intersection" ByVal [(PBind "other")]
      (EBlock [(SLet (PBind "other") (EMethod (EVar "other") "to_inner" [])); (SExpr (EFor (PBind "range") (EMethod (EField (EVar "self") "ranges") "iter_mut" []) (EBlock [(SExpr (EAssign (EDeref (EVar "range")) (ECall "RangeIntersection" "intersection" [(EDeref (EVar "range")); (EVar "other")])))] (ECon "tuple" [])))); (SExpr (EMethod (EField (EVar "self") "ranges") "retain" [(EClo [(PBind "r")] (ENot (EMethod (EVar "r") "is_empty" [])))]))] (EVar "self")))].

(** src/implementations/intersection/bounded_set.rs *)
Definition impl_136 : impl := Impl (Some ("RangeIntersection", "")) "BoundedSet" ["RangeIntersection"; "Rangetools"] [("Inner", "LowerBoundedSet")] [("Output", "BoundedSet")]
  [
    (Fn "intersection" ByVal [(PBind "other")]
      (EBlock [(SLet (PBind "set") (ECall "RangeIntersection" "intersection" [(EMethod (EVar "self") "clone" []); (EField (EMethod (EMethod (EVar "other") "clone" []) "to_inner" []) "lower_bounded_range")])); (SExpr (EFor (PBind "range") (EMethod (EField (EVar "self") "ranges") "iter" []) (EBlock [(SExpr (EMethod (EVar "set") "add_set" [(ECall "RangeIntersection" "intersection" [(EDeref (EVar "range")); (EMethod (EVar "other") "clone" [])])]))] (ECon "tuple" []))))] (EVar "set")))].

(** src/implementations/intersection/bounded_set.rs *)
Definition impl_137 : impl := Impl (Some ("RangeIntersection", "")) "BoundedSet" ["RangeIntersection"; "Rangetools"] [("Inner", "UpperBoundedRange")] [("Output", "BoundedSet")]
  [
    (Fn "intersection" ByVal [(PBind "other")]
      (EBlock [(SLet (PBind "other") (EMethod (EVar "other") "to_inner" [])); (SExpr (EFor (PBind "range") (EMethod (EField (EVar "self") "ranges") "iter_mut" []) (EBlock [(SExpr (EAssign (EDeref (EVar "range")) (ECall "RangeIntersection" "intersection" [(EDeref (EVar "range")); (EVar "other")])))] (ECon "tuple" [])))); (SExpr (EMethod (EField (EVar "self") "ranges") "retain" [(EClo [(PBind "r")] (ENot (EMethod (EVar "r") "is_empty" [])))]))] (EVar "self")))].

(** src/implementations/intersection/bounded_set.rs *)
Definition impl_138 : impl := Impl (Some ("RangeIntersection", "")) "BoundedSet" ["RangeIntersection"; "Rangetools"] [("Inner", "UpperBoundedSet")] [("Output", "BoundedSet")]
  [
    (Fn "intersection" ByVal [(PBind "other")]
      (EBlock [(SLet (PBind "set") (ECall "RangeIntersection" "intersection" [(EMethod (EVar "self") "clone" []); (EField (EMethod (EMethod (EVar "other") "clone" []) "to_inner" []) "upper_bounded_range")])); (SExpr (EFor (PBind "range") (EMethod (EField (EVar "self") "ranges") "iter" []) (EBlock [(SExpr (EMethod (EVar "set") "add_set" [(ECall "RangeIntersection" "intersection" [(EDeref (EVar "range")); (EMethod (EVar "other") "clone" [])])]))] (ECon "tuple" []))))] (EVar "set")))].

(** src/implementations/intersection/bounded_set.rs *)
Definition impl_139 : impl := Impl (Some ("RangeIntersection", "")) "BoundedSet" ["RangeIntersection"; "Rangetools"] [("Inner", "UnboundedRange")] [("Output", "BoundedSet")]
  [
    (Fn "intersection" ByVal [PWild]
      (EVar "self"))].

(** src/implementations/intersection/bounded_set.rs *)
Definition impl_140 : impl := Impl (Some ("RangeIntersection", "")) "BoundedSet" ["RangeIntersection"; "Rangetools"] [("Inner", "UnboundedSet")] [("Output", "BoundedSet")]
  [
    (Fn "intersection" ByVal [(PBind "other")]
      (EMatch (EMethod (EVar "other") "to_inner" []) [((PCon "Full" []), (EVar "self")); ((PCon "Piecewise" [("0", (PCon "PiecewiseUnboundedSet" [("lower_bounded_range", (PBind "lower_bounded_range")); ("ranges", (PBind "ranges")); ("upper_bounded_range", (PBind "upper_bounded_range"))]))]), (EBlock [(SLet (PBind "set") (ECall "RangeIntersection" "intersection" [(EMethod (EVar "self") "clone" []); (EVar "upper_bounded_range")])); (SExpr (EMethod (EVar "set") "add_set" [(ECall "RangeIntersection" "intersection" [(EMethod (EVar "self") "clone" []); (EVar "lower_bounded_range")])])); (SExpr (EMethod (EVar "set") "add_set" [(ECall "RangeIntersection" "intersection" [(EVar "self"); (EVar "ranges")])]))] (EVar "set")))]))].

(** src/implementations/intersection/bounded_set.rs *)
Definition impl_141 : impl := Impl (Some ("RangeIntersection", "")) "BoundedSet" ["RangeIntersection"; "Rangetools"] [("Inner", "EmptyRange")] [("Output", "EmptyRange")]
  [
    (Fn "intersection" ByVal [(PBind "other")]
      (EMethod (EVar "other") "to_inner" []))].

(** src/implementations/intersection/empty_range.rs *)
Definition impl_142 : impl := Impl (Some ("RangeIntersection", "")) "EmptyRange" ["RangeIntersection"; "Rangetools"] [] [("Output", "EmptyRange")]
  [
    (Fn "intersection" ByVal [PWild]
      (EVar "self"))].

(** src/implementations/intersection/lower_bounded_range.rs *)
Definition impl_143 : impl := Impl (Some ("RangeIntersection", "")) "LowerBoundedRange" ["RangeIntersection"; "Rangetools"] [("Inner", "BoundedRange")] [("Output", "BoundedRange")]
  [
    (Fn "intersection" ByVal [(PBind "other")]
      (ECall "RangeIntersection" "intersection" [(EMethod (EVar "other") "to_inner" []); (EVar "self")]))].

(** src/implementations/intersection/lower_bounded_range.rs *)
Definition impl_144 : impl := Impl (Some ("RangeIntersection", "")) "LowerBoundedRange" ["RangeIntersection"; "Rangetools"] [("Inner", "BoundedSet")] [("Output", "BoundedSet")]
  [
    (Fn "intersection" ByVal [(PBind "other")]
      (ECall "RangeIntersection" "intersection" [(EMethod (EVar "other") "to_inner" []); (EVar "self")]))].

(** src/implementations/intersection/lower_bounded_range.rs *)
Definition impl_145 : impl := Impl (Some ("RangeIntersection", "")) "LowerBoundedRange" ["RangeIntersection"; "Rangetools"] [("Inner", "LowerBoundedRange")] [("Output", "LowerBoundedRange")]
  [
    (Fn "intersection" ByVal [(PBind "other")]
      (ECall "LowerBoundedRange" "new" [(EMethod (EField (EVar "self") "start") "max" [(EField (EMethod (EVar "other") "to_inner" []) "start")])]))].

(** src/implementations/intersection/lower_bounded_range.rs *)
Definition impl_146 : impl := Impl (Some ("RangeIntersection", "")) "LowerBoundedRange" ["RangeIntersection"; "Rangetools"] [("Inner", "LowerBoundedSet")] [("Output", "LowerBoundedSet")]
  [
    (Fn "intersection" ByVal [(PBind "other")]
      (ECall "RangeIntersection" "intersection" [(EMethod (EVar "other") "to_inner" []); (EVar "self")]))].

(** src/implementations/intersection/lower_bounded_range.rs *)
Definition impl_147 : impl := Impl (Some ("RangeIntersection", "")) "LowerBoundedRange" ["RangeIntersection"; "Rangetools"] [("Inner", "UpperBoundedRange")] [("Output", "BoundedRange")]
  [
    (Fn "intersection" ByVal [(PBind "other")]
      (ECall "BoundedRange" "new" [(EField (EVar "self") "start"); (EField (EMethod (EVar "other") "to_inner" []) "end")]))].

(** src/implementations/intersection/lower_bounded_range.rs *)
Definition impl_148 : impl := Impl (Some ("RangeIntersection", "")) "LowerBoundedRange" ["RangeIntersection"; "Rangetools"] [("Inner", "UpperBoundedSet")] [("Output", "BoundedSet")]
  [
    (Fn "intersection" ByVal [(PBind "other")]
      (ECall "RangeIntersection" "intersection" [(EMethod (EVar "other") "to_inner" []); (EVar "self")]))].

(** src/implementations/intersection/lower_bounded_range.rs *)
Definition impl_149 : impl := Impl (Some ("RangeIntersection", "")) "LowerBoundedRange" ["RangeIntersection"; "Rangetools"] [("Inner", "UnboundedRange")] [("Output", "LowerBoundedRange")]
  [
    (Fn "intersection" ByVal [(PBind "other")]
      (ECall "RangeIntersection" "intersection" [(EMethod (EVar "other") "to_inner" []); (EVar "self")]))].

(** src/implementations/intersection/lower_bounded_range.rs *)
Definition impl_150 : impl := Impl (Some ("RangeIntersection", "")) "LowerBoundedRange" ["RangeIntersection"; "Rangetools"] [("Inner", "UnboundedSet")] [("Output", "LowerBoundedSet")]
  [
    (Fn "intersection" ByVal [(PBind "other")]
      (ECall "RangeIntersection" "intersection" [(EMethod (EVar "other") "to_inner" []); (EVar "self")]))].

(** src/implementations/intersection/lower_bounded_range.rs *)
Definition impl_151 : impl := Impl (Some ("RangeIntersection", "")) "LowerBoundedRange" ["RangeIntersection"; "Rangetools"] [("Inner", "EmptyRange")] [("Output", "EmptyRange")]
  [
    (Fn "intersection" ByVal [(PBind "other")]
      (EMethod (EVar "other") "to_inner" []))].

(** src/implementations/intersection/lower_bounded_set.rs *)
Definition impl_152 : impl := Impl (Some ("RangeIntersection", "")) "LowerBoundedSet" ["RangeIntersection"; "Rangetools"] [("Inner", "BoundedRange")] [("Output", "BoundedSet")]
  [
    (Fn "intersection" ByVal [(PBind "other")]
      (EBlock [(SLet (PBind "other") (EMethod (EVar "other") "to_inner" [])); (SLet (PBind "set") (EInto (ECall "RangeIntersection" "intersection" [(EField (EVar "self") "lower_bounded_range"); (EVar "other")]) "BoundedSet")); (SExpr (EMethod (EVar "set") "add_set" [(ECall "RangeIntersection" "intersection" [(EField (EVar "self") "ranges"); (EVar "other")])]))] (EVar "set")))].

(** src/implementations/intersection/lower_bounded_set.rs *)
Definition impl_153 : impl := Impl (Some ("RangeIntersection", "")) "LowerBoundedSet" ["RangeIntersection"; "Rangetools"] [("Inner", "BoundedSet")] [("Output", "BoundedSet")]
  [
    (Fn "intersection" ByVal [(PBind "other")]
      (ECall "RangeIntersection" "intersection" [(EMethod (EVar "other") "to_inner" []); (EVar "self")]))].

(** src/implementations/intersection/lower_bounded_set.rs *)
Definition impl_154 : impl := Impl (Some ("RangeIntersection", "")) "LowerBoundedSet" ["RangeIntersection"; "Rangetools"] [("Inner", "LowerBoundedRange")] [("Output", "LowerBoundedSet")]
  [
    (Fn "intersection" ByVal [(PBind "other")]
      (EBlock [(SLet (PBind "other") (EMethod (EVar "other") "to_inner" [])); (SExpr (EAssign (EField (EVar "self") "lower_bounded_range") (ECall "RangeIntersection" "intersection" [(EField (EVar "self") "lower_bounded_range"); (EVar "other")]))); (SExpr (EAssign (EField (EVar "self") "ranges") (ECall "RangeIntersection" "intersection" [(EField (EVar "self") "ranges"); (EVar "other")])))] (EVar "self")))].

(** src/implementations/intersection/lower_bounded_set.rs *)
Definition impl_155 : impl := Impl (Some ("RangeIntersection", "")) "LowerBoundedSet" ["RangeIntersection"; "Rangetools"] [("Inner", "LowerBoundedSet")] [("Output", "LowerBoundedSet")]
  [
    (Fn "intersection" ByVal [(PBind "other")]
      (EBlock [(SLet (PBind "set") (ECall "RangeIntersection" "intersection" [(EMethod (EVar "self") "clone" []); (EField (EMethod (EMethod (EVar "other") "clone" []) "to_inner" []) "lower_bounded_range")])); (SExpr (EMethod (EVar "set") "add_set" [(ECall "RangeIntersection" "intersection" [(EField (EVar "self") "ranges"); (EVar "other")])]))] (EVar "set")))].

(** src/implementations/intersection/lower_bounded_set.rs *)
Definition impl_156 : impl := Impl (Some ("RangeIntersection", "")) "LowerBoundedSet" ["RangeIntersection"; "Rangetools"] [("Inner", "UpperBoundedRange")] [("Output", "BoundedSet")]
  [
    (Fn "intersection" ByVal [(PBind "other")]
      (EBlock [(SLet (PBind "other") (EMethod (EVar "other") "to_inner" [])); (SLet (PBind "set") (EMethod (ECall "RangeIntersection" "intersection" [(EField (EVar "self") "lower_bounded_range"); (EVar "other")]) "to_set" [])); (SExpr (EMethod (EField (EVar "set") "ranges") "retain" [(EClo [(PBind "r")] (ENot (EMethod (EVar "r") "is_empty" [])))])); (SExpr (EMethod (EVar "set") "add_set" [(ECall "RangeIntersection" "intersection" [(EField (EVar "self") "ranges"); (EVar "other")])])); (SExpr (EMethod (EField (EVar "set") "ranges") "retain" [(EClo [(PBind "r")] (ENot (EMethod (EVar "r") "is_empty" [])))]))] (EVar "set")))].

(** src/implementations/intersection/lower_bounded_set.rs *)
Definition impl_157 : impl := Impl (Some ("RangeIntersection", "")) "LowerBoundedSet" ["RangeIntersection"; "Rangetools"] [("Inner", "UpperBoundedSet")] [("Output", "BoundedSet")]
  [
    (Fn "intersection" ByVal [(PBind "other")]
      (EBlock [(SLet (PBind "other") (EMethod (EVar "other") "to_inner" [])); (SLet (PBind "set") (ECall "RangeIntersection" "intersection" [(EMethod (EVar "self") "clone" []); (EField (EVar "other") "upper_bounded_range")])); (SExpr (EMethod (EField (EVar "set") "ranges") "retain" [(EClo [(PBind "r")] (ENot (EMethod (EVar "r") "is_empty" [])))])); (SExpr (EMethod (EVar "set") "add_set" [(ECall "RangeIntersection" "intersection" [(EVar "self"); (EField (EVar "other") "ranges")])])); (SExpr (EMethod (EField (EVar "set") "ranges") "retain" [(EClo [(PBind "r")] (ENot (EMethod (EVar "r") "is_empty" [])))]))] (EVar "set")))].

(** src/implementations/intersection/lower_bounded_set.rs *)
Definition impl_158 : impl := Impl (Some ("RangeIntersection", "")) "LowerBoundedSet" ["RangeIntersection"; "Rangetools"] [("Inner", "UnboundedRange")] [("Output", "LowerBoundedSet")]
  [
    (Fn "intersection" ByVal [PWild]
      (EVar "self"))].

(** src/implementations/intersection/lower_bounded_set.rs *)
Definition impl_159 : impl := Impl (Some ("RangeIntersection", "")) "LowerBoundedSet" ["RangeIntersection"; "Rangetools"] [("Inner", "UnboundedSet")] [("Output", "LowerBoundedSet")]
  [
    (Fn "intersection" ByVal [(PBind "other")]
      (EMatch (EMethod (EVar "other") "to_inner" []) [((PCon "Full" []), (EVar "self")); ((PCon "Piecewise" [("0", (PCon "PiecewiseUnboundedSet" [("lower_bounded_range", (PBind "lower_bounded_range")); ("ranges", (PBind "ranges")); ("upper_bounded_range", (PBind "upper_bounded_range"))]))]), (EBlock [(SLet (PBind "set") (ECall "RangeIntersection" "intersection" [(EMethod (EVar "self") "clone" []); (EVar "lower_bounded_range")])); (SExpr (EMethod (EVar "set") "add_set" [(ECall "RangeIntersection" "intersection" [(EMethod (EVar "self") "clone" []); (EVar "upper_bounded_range")])])); (SExpr (EMethod (EVar "set") "add_set" [(ECall "RangeIntersection" "intersection" [(EVar "self"); (EVar "ranges")])]))] (EVar "set")))]))].

(** src/implementations/intersection/lower_bounded_set.rs *)
Definition impl_160 : impl := Impl (Some ("RangeIntersection", "")) "LowerBoundedSet" ["RangeIntersection"; "Rangetools"] [("Inner", "EmptyRange")] [("Output", "EmptyRange")]
  [
    (Fn "intersection" ByVal [(PBind "other")]
      (EMethod (EVar "other") "to_inner" []))].

(** src/implementations/intersection/range.rs *)
Definition impl_161 : impl := Impl (Some ("RangeIntersection", "")) "Range" ["RangeIntersection"; "Rangetools"] [("Inner", "BoundedRange")] [("Output", "BoundedRange")]
  [
    (Fn "intersection" ByVal [(PBind "other")]
      (ECall "RangeIntersection" "intersection" [(EMethod (EVar "self") "to_inner" []); (EVar "other")]))].

(** src/implementations/intersection/range.rs *)
Definition impl_162 : impl := Impl (Some ("RangeIntersection", "")) "Range" ["RangeIntersection"; "Rangetools"] [("Inner", "BoundedSet")] [("Output", "BoundedSet")]
  [
    (Fn "intersection" ByVal [(PBind "other")]
      (ECall "RangeIntersection" "intersection" [(EMethod (EVar "other") "to_inner" []); (EVar "self")]))].

(** src/implementations/intersection/range.rs *)
Definition impl_163 : impl := Impl (Some ("RangeIntersection", "")) "Range" ["RangeIntersection"; "Rangetools"] [("Inner", "LowerBoundedRange")] [("Output", "BoundedRange")]
  [
    (Fn "intersection" ByVal [(PBind "other")]
      (ECall "RangeIntersection" "intersection" [(EMethod (EVar "self") "to_inner" []); (EVar "other")]))].

(** src/implementations/intersection/range.rs *)
Definition impl_164 : impl := Impl (Some ("RangeIntersection", "")) "Range" ["RangeIntersection"; "Rangetools"] [("Inner", "LowerBoundedSet")] [("Output", "BoundedSet")]
  [
    (Fn "intersection" ByVal [(PBind "other")]
      (ECall "RangeIntersection" "intersection" [(EMethod (EVar "other") "to_inner" []); (EVar "self")]))].

(** src/implementations/intersection/range.rs *)
Definition impl_165 : impl := Impl (Some ("RangeIntersection", "")) "Range" ["RangeIntersection"; "Rangetools"] [("Inner", "UpperBoundedRange")] [("Output", "BoundedRange")]
  [
    (Fn "intersection" ByVal [(PBind "other")]
      (ECall "RangeIntersection" "intersection" [(EMethod (EVar "self") "to_inner" []); (EVar "other")]))].

(** src/implementations/intersection/range.rs *)
Definition impl_166 : impl := Impl (Some ("RangeIntersection", "")) "Range" ["RangeIntersection"; "Rangetools"] [("Inner", "UpperBoundedSet")] [("Output", "BoundedSet")]
  [
    (Fn "intersection" ByVal [(PBind "other")]
      (ECall "RangeIntersection" "intersection" [(EMethod (EVar "other") "to_inner" []); (EVar "self")]))].

(** src/implementations/intersection/range.rs *)
Definition impl_167 : impl := Impl (Some ("RangeIntersection", "")) "Range" ["RangeIntersection"; "Rangetools"] [("Inner", "UnboundedRange")] [("Output", "BoundedRange")]
  [
    (Fn "intersection" ByVal [(PBind "other")]
      (ECall "RangeIntersection" "intersection" [(EMethod (EVar "self") "to_inner" []); (EVar "other")]))].

(** src/implementations/intersection/range.rs *)
Definition impl_168 : impl := Impl (Some ("RangeIntersection", "")) "Range" ["RangeIntersection"; "Rangetools"] [("Inner", "UnboundedSet")] [("Output", "BoundedSet")]
  [
    (Fn "intersection" ByVal [(PBind "other")]
      (ECall "RangeIntersection" "intersection" [(EMethod (EVar "other") "to_inner" []); (EVar "self")]))].

(** src/implementations/intersection/range.rs *)
Definition impl_169 : impl := Impl (Some ("RangeIntersection", "")) "Range" ["RangeIntersection"; "Rangetools"] [("Inner", "EmptyRange")] [("Output", "EmptyRange")]
  [
    (Fn "intersection" ByVal [(PBind "other")]
      (EMethod (EVar "other") "to_inner" []))].

(** src/implementations/intersection/range_from.rs *)
Definition impl_170 : impl := Impl (Some ("RangeIntersection", "")) "RangeFrom" ["RangeIntersection"; "Rangetools"] [("Inner", "BoundedRange")] [("Output", "BoundedRange")]
  [
    (Fn "intersection" ByVal [(PBind "other")]
      (ECall "RangeIntersection" "intersection" [(EMethod (EVar "self") "to_inner" []); (EVar "other")]))].

(** src/implementations/intersection/range_from.rs *)
Definition impl_171 : impl := Impl (Some ("RangeIntersection", "")) "RangeFrom" ["RangeIntersection"; "Rangetools"] [("Inner", "BoundedSet")] [("Output", "BoundedSet")]
  [
    (Fn "intersection" ByVal [(PBind "other")]
      (ECall "RangeIntersection" "intersection" [(EMethod (EVar "self") "to_inner" []); (EVar "other")]))].

(** src/implementations/intersection/range_from.rs *)
Definition impl_172 : impl := Impl (Some ("RangeIntersection", "")) "RangeFrom" ["RangeIntersection"; "Rangetools"] [("Inner", "LowerBoundedRange")] [("Output", "LowerBoundedRange")]
  [
    (Fn "intersection" ByVal [(PBind "other")]
      (ECall "RangeIntersection" "intersection" [(EMethod (EVar "self") "to_inner" []); (EVar "other")]))].

(** src/implementations/intersection/range_from.rs *)
Definition impl_173 : impl := Impl (Some ("RangeIntersection", "")) "RangeFrom" ["RangeIntersection"; "Rangetools"] [("Inner", "LowerBoundedSet")] [("Output", "LowerBoundedSet")]
  [
    (Fn "intersection" ByVal [(PBind "other")]
      (ECall "RangeIntersection" "intersection" [(EMethod (EVar "self") "to_inner" []); (EVar "other")]))].

(** src/implementations/intersection/range_from.rs *)
Definition impl_174 : impl := Impl (Some ("RangeIntersection", "")) "RangeFrom" ["RangeIntersection"; "Rangetools"] [("Inner", "UpperBoundedRange")] [("Output", "BoundedRange")]
  [
    (Fn "intersection" ByVal [(PBind "other")]
      (ECall "RangeIntersection" "intersection" [(EMethod (EVar "self") "to_inner" []); (EVar "other")]))].

(** src/implementations/intersection/range_from.rs *)
Definition impl_175 : impl := Impl (Some ("RangeIntersection", "")) "RangeFrom" ["RangeIntersection"; "Rangetools"] [("Inner", "UpperBoundedSet")] [("Output", "BoundedSet")]
  [
    (Fn "intersection" ByVal [(PBind "other")]
      (ECall "RangeIntersection" "intersection" [(EMethod (EVar "self") "to_inner" []); (EVar "other")]))].

(** src/implementations/intersection/range_from.rs *)
Definition impl_176 : impl := Impl (Some ("RangeIntersection", "")) "RangeFrom" ["RangeIntersection"; "Rangetools"] [("Inner", "UnboundedRange")] [("Output", "LowerBoundedRange")]
  [
    (Fn "intersection" ByVal [(PBind "other")]
      (ECall "RangeIntersection" "intersection" [(EMethod (EVar "self") "to_inner" []); (EVar "other")]))].

(** src/implementations/intersection/range_from.rs *)
Definition impl_177 : impl := Impl (Some ("RangeIntersection", "")) "RangeFrom" ["RangeIntersection"; "Rangetools"] [("Inner", "UnboundedSet")] [("Output", "LowerBoundedSet")]
  [
    (Fn "intersection" ByVal [(PBind "other")]
      (ECall "RangeIntersection" "intersection" [(EMethod (EVar "self") "to_inner" []); (EVar "other")]))].

(** src/implementations/intersection/range_from.rs *)
Definition impl_178 : impl := Impl (Some ("RangeIntersection", "")) "RangeFrom" ["RangeIntersection"; "Rangetools"] [("Inner", "EmptyRange")] [("Output", "EmptyRange")]
  [
    (Fn "intersection" ByVal [(PBind "other")]
      (EMethod (EVar "other") "to_inner" []))].

(** src/implementations/intersection/range_full.rs *)
Definition impl_179 : impl := Impl (Some ("RangeIntersection", "")) "RangeFull" ["RangeIntersection"; "Rangetools"] [("Inner", "BoundedRange")] [("Output", "BoundedRange")]
  [
    (Fn "intersection" ByVal [(PBind "other")]
      (ECall "RangeIntersection" "intersection" [(EMethod (EVar "self") "to_inner" []); (EVar "other")]))].

(** src/implementations/intersection/range_full.rs *)
Definition impl_180 : impl := Impl (Some ("RangeIntersection", "")) "RangeFull" ["RangeIntersection"; "Rangetools"] [("Inner", "BoundedSet")] [("Output", "BoundedSet")]
  [
    (Fn "intersection" ByVal [(PBind "other")]
      (ECall "RangeIntersection" "intersection" [(EMethod (EVar "self") "to_inner" []); (EVar "other")]))].

(** src/implementations/intersection/range_full.rs *)
Definition impl_181 : impl := Impl (Some ("RangeIntersection", "")) "RangeFull" ["RangeIntersection"; "Rangetools"] [("Inner", "LowerBoundedRange")] [("Output", "LowerBoundedRange")]
  [
    (Fn "intersection" ByVal [(PBind "other")]
      (ECall "RangeIntersection" "intersection" [(EMethod (EVar "self") "to_inner" []); (EVar "other")]))].

(** src/implementations/intersection/range_full.rs *)
Definition impl_182 : impl := Impl (Some ("RangeIntersection", "")) "RangeFull" ["RangeIntersection"; "Rangetools"] [("Inner", "LowerBoundedSet")] [("Output", "LowerBoundedSet")]
  [
    (Fn "intersection" ByVal [(PBind "other")]
      (ECall "RangeIntersection" "intersection" [(EMethod (EVar "self") "to_inner" []); (EVar "other")]))].

(** src/implementations/intersection/range_full.rs *)
Definition impl_183 : impl := Impl (Some ("RangeIntersection", "")) "RangeFull" ["RangeIntersection"; "Rangetools"] [("Inner", "UpperBoundedRange")] [("Output", "UpperBoundedRange")]
  [
    (Fn "intersection" ByVal [(PBind "other")]
      (ECall "RangeIntersection" "intersection" [(EMethod (EVar "self") "to_inner" []); (EVar "other")]))].

(** src/implementations/intersection/range_full.rs *)
Definition impl_184 : impl := Impl (Some ("RangeIntersection", "")) "RangeFull" ["RangeIntersection"; "Rangetools"] [("Inner", "UpperBoundedSet")] [("Output", "UpperBoundedSet")]
  [
    (Fn "intersection" ByVal [(PBind "other")]
      (ECall "RangeIntersection" "intersection" [(EMethod (EVar "self") "to_inner" []); (EVar "other")]))].

(** src/implementations/intersection/range_full.rs *)
Definition impl_185 : impl := Impl (Some ("RangeIntersection", "")) "RangeFull" ["RangeIntersection"; "Rangetools"] [("Inner", "UnboundedRange")] [("Output", "UnboundedRange")]
  [
    (Fn "intersection" ByVal [(PBind "other")]
      (ECall "RangeIntersection" "intersection" [(EMethod (EVar "self") "to_inner" []); (EVar "other")]))].

(** src/implementations/intersection/range_full.rs *)
Definition impl_186 : impl := Impl (Some ("RangeIntersection", "")) "RangeFull" ["RangeIntersection"; "Rangetools"] [("Inner", "UnboundedSet")] [("Output", "UnboundedSet")]
  [
    (Fn "intersection" ByVal [(PBind "other")]
      (ECall "RangeIntersection" "intersection" [(EMethod (EVar "self") "to_inner" []); (EVar "other")]))].

(** src/implementations/intersection/range_full.rs *)
Definition impl_187 : impl := Impl (Some ("RangeIntersection", "")) "RangeFull" ["RangeIntersection"; "Rangetools"] [("Inner", "EmptyRange")] [("Output", "EmptyRange")]
  [
    (Fn "intersection" ByVal [(PBind "other")]
      (EMethod (EVar "other") "to_inner" []))].

(** src/implementations/intersection/range_inclusive.rs *)
Definition impl_188 : impl := Impl (Some ("RangeIntersection", "")) "RangeInclusive" ["RangeIntersection"; "Rangetools"] [("Inner", "BoundedRange")] [("Output", "BoundedRange")]
  [
    (Fn "intersection" ByVal [(PBind "other")]
      (ECall "RangeIntersection" "intersection" [(EMethod (EVar "self") "to_inner" []); (EVar "other")]))].

(** src/implementations/intersection/range_inclusive.rs *)
Definition impl_189 : impl := Impl (Some ("RangeIntersection", "")) "RangeInclusive" ["RangeIntersection"; "Rangetools"] [("Inner", "BoundedSet")] [("Output", "BoundedSet")]
  [
    (Fn "intersection" ByVal [(PBind "other")]
      (ECall "RangeIntersection" "intersection" [(EMethod (EVar "other") "to_inner" []); (EVar "self")]))].

(** src/implementations/intersection/range_inclusive.rs *)
Definition impl_190 : impl := Impl (Some ("RangeIntersection", "")) "RangeInclusive" ["RangeIntersection"; "Rangetools"] [("Inner", "LowerBoundedRange")] [("Output", "BoundedRange")]
  [
    (Fn "intersection" ByVal [(PBind "other")]
      (ECall "RangeIntersection" "intersection" [(EMethod (EVar "self") "to_inner" []); (EVar "other")]))].

(** src/implementations/intersection/range_inclusive.rs *)
Definition impl_191 : impl := Impl (Some ("RangeIntersection", "")) "RangeInclusive" ["RangeIntersection"; "Rangetools"] [("Inner", "LowerBoundedSet")] [("Output", "BoundedSet")]
  [
    (Fn "intersection" ByVal [(PBind "other")]
      (ECall "RangeIntersection" "intersection" [(EMethod (EVar "other") "to_inner" []); (EVar "self")]))].

(** src/implementations/intersection/range_inclusive.rs *)
Definition impl_192 : impl := Impl (Some ("RangeIntersection", "")) "RangeInclusive" ["RangeIntersection"; "Rangetools"] [("Inner", "UpperBoundedRange")] [("Output", "BoundedRange")]
  [
    (Fn "intersection" ByVal [(PBind "other")]
      (ECall "RangeIntersection" "intersection" [(EMethod (EVar "self") "to_inner" []); (EVar "other")]))].

(** src/implementations/intersection/range_inclusive.rs *)
Definition impl_193 : impl := Impl (Some ("RangeIntersection", "")) "RangeInclusive" ["RangeIntersection"; "Rangetools"] [("Inner", "UpperBoundedSet")] [("Output", "BoundedSet")]
  [
    (Fn "intersection" ByVal [(PBind "other")]
      (ECall "RangeIntersection" "intersection" [(EMethod (EVar "other") "to_inner" []); (EVar "self")]))].

(** src/implementations/intersection/range_inclusive.rs *)
Definition impl_194 : impl := Impl (Some ("RangeIntersection", "")) "RangeInclusive" ["RangeIntersection"; "Rangetools"] [("Inner", "UnboundedRange")] [("Output", "BoundedRange")]
  [
    (Fn "intersection" ByVal [(PBind "other")]
      (ECall "RangeIntersection" "intersection" [(EMethod (EVar "self") "to_inner" []); (EVar "other")]))].

(** src/implementations/intersection/range_inclusive.rs *)
Definition impl_195 : impl := Impl (Some ("RangeIntersection", "")) "RangeInclusive" ["RangeIntersection"; "Rangetools"] [("Inner", "UnboundedSet")] [("Output", "BoundedSet")]
  [
    (Fn "intersection" ByVal [(PBind "other")]
      (ECall "RangeIntersection" "intersection" [(EMethod (EVar "other") "to_inner" []); (EVar "self")]))].

(** src/implementations/intersection/range_inclusive.rs *)
Definition impl_196 : impl := Impl (Some ("RangeIntersection", "")) "RangeInclusive" ["RangeIntersection"; "Rangetools"] [("Inner", "EmptyRange")] [("Output", "EmptyRange")]
  [
    (Fn "intersection" ByVal [(PBind "other")]
      (EMethod (EVar "other") "to_inner" []))].

(** src/implementations/intersection/range_to.rs *)
Definition impl_197 : impl := Impl (Some ("RangeIntersection", "")) "RangeTo" ["RangeIntersection"; "Rangetools"] [("Inner", "BoundedRange")] [("Output", "BoundedRange")]
  [
    (Fn "intersection" ByVal [(PBind "other")]
      (ECall "RangeIntersection" "intersection" [(EMethod (EVar "self") "to_inner" []); (EVar "other")]))].

(** src/implementations/intersection/range_to.rs *)
Definition impl_198 : impl := Impl (Some ("RangeIntersection", "")) "RangeTo" ["RangeIntersection"; "Rangetools"] [("Inner", "BoundedSet")] [("Output", "BoundedSet")]
  [
    (Fn "intersection" ByVal [(PBind "other")]
      (ECall "RangeIntersection" "intersection" [(EMethod (EVar "other") "to_inner" []); (EVar "self")]))].

(** src/implementations/intersection/range_to.rs *)
Definition impl_199 : impl := Impl (Some ("RangeIntersection", "")) "RangeTo" ["RangeIntersection"; "Rangetools"] [("Inner", "LowerBoundedRange")] [("Output", "BoundedRange")]
  [
    (Fn "intersection" ByVal [(PBind "other")]
      (ECall "RangeIntersection" "intersection" [(EMethod (EVar "self") "to_inner" []); (EVar "other")]))].

(** src/implementations/intersection/range_to.rs *)
Definition impl_200 : impl := Impl (Some ("RangeIntersection", "")) "RangeTo" ["RangeIntersection"; "Rangetools"] [("Inner", "LowerBoundedSet")] [("Output", "BoundedSet")]
  [
    (Fn "intersection" ByVal [(PBind "other")]
      (ECall "RangeIntersection" "intersection" [(EMethod (EVar "other") "to_inner" []); (EVar "self")]))].

(** src/implementations/intersection/range_to.rs *)
Definition impl_201 : impl := Impl (Some ("RangeIntersection", "")) "RangeTo" ["RangeIntersection"; "Rangetools"] [("Inner", "UpperBoundedRange")] [("Output", "UpperBoundedRange")]
  [
    (Fn "intersection" ByVal [(PBind "other")]
      (ECall "RangeIntersection" "intersection" [(EMethod (EVar "self") "to_inner" []); (EVar "other")]))].

(** src/implementations/intersection/range_to.rs *)
Definition impl_202 : impl := Impl (Some ("RangeIntersection", "")) "RangeTo" ["RangeIntersection"; "Rangetools"] [("Inner", "UpperBoundedSet")] [("Output", "UpperBoundedSet")]
  [
    (Fn "intersection" ByVal [(PBind "other")]
      (ECall "RangeIntersection" "intersection" [(EMethod (EVar "other") "to_inner" []); (EVar "self")]))].

(** src/implementations/intersection/range_to.rs *)
Definition impl_203 : impl := Impl (Some ("RangeIntersection", "")) "RangeTo" ["RangeIntersection"; "Rangetools"] [("Inner", "UnboundedRange")] [("Output", "UpperBoundedRange")]
  [
    (Fn "intersection" ByVal [(PBind "other")]
      (ECall "RangeIntersection" "intersection" [(EMethod (EVar "self") "to_inner" []); (EVar "other")]))].

(** src/implementations/intersection/range_to.rs *)
Definition impl_204 : impl := Impl (Some ("RangeIntersection", "")) "RangeTo" ["RangeIntersection"; "Rangetools"] [("Inner", "UnboundedSet")] [("Output", "UpperBoundedSet")]
  [
    (Fn "intersection" ByVal [(PBind "other")]
      (ECall "RangeIntersection" "intersection" [(EMethod (EVar "other") "to_inner" []); (EVar "self")]))].

(** src/implementations/intersection/range_to.rs *)
Definition impl_205 : impl := Impl (Some ("RangeIntersection", "")) "RangeTo" ["RangeIntersection"; "Rangetools"] [("Inner", "EmptyRange")] [("Output", "EmptyRange")]
  [
    (Fn "intersection" ByVal [(PBind "other")]
      (EMethod (EVar "other") "to_inner" []))].

(** src/implementations/intersection/range_to_inclusive.rs *)
Definition impl_206 : impl := Impl (Some ("RangeIntersection", "")) "RangeToInclusive" ["RangeIntersection"; "Rangetools"] [("Inner", "BoundedRange")] [("Output", "BoundedRange")]
  [
    (Fn "intersection" ByVal [(PBind "other")]
      (ECall "RangeIntersection" "intersection" [(EMethod (EVar "self") "to_inner" []); (EVar "other")]))].

(** src/implementations/intersection/range_to_inclusive.rs *)
Definition impl_207 : impl := Impl (Some ("RangeIntersection", "")) "RangeToInclusive" ["RangeIntersection"; "Rangetools"] [("Inner", "BoundedSet")] [("Output", "BoundedSet")]
  [
    (Fn "intersection" ByVal [(PBind "other")]
      (ECall "RangeIntersection" "intersection" [(EMethod (EVar "other") "to_inner" []); (EVar "self")]))].

(** src/implementations/intersection/range_to_inclusive.rs *)
Definition impl_208 : impl := Impl (Some ("RangeIntersection", "")) "RangeToInclusive" ["RangeIntersection"; "Rangetools"] [("Inner", "LowerBoundedRange")] [("Output", "BoundedRange")]
  [
    (Fn "intersection" ByVal [(PBind "other")]
      (ECall "RangeIntersection" "intersection" [(EMethod (EVar "self") "to_inner" []); (EVar "other")]))].

(** src/implementations/intersection/range_to_inclusive.rs *)
Definition impl_209 : impl := Impl (Some ("RangeIntersection", "")) "RangeToInclusive" ["RangeIntersection"; "Rangetools"] [("Inner", "LowerBoundedSet")] [("Output", "BoundedSet")]
  [
    (Fn "intersection" ByVal [(PBind "other")]
      (ECall "RangeIntersection" "intersection" [(EMethod (EVar "other") "to_inner" []); (EVar "self")]))].

(** src/implementations/intersection/range_to_inclusive.rs *)
Definition impl_210 : impl := Impl (Some ("RangeIntersection", "")) "RangeToInclusive" ["RangeIntersection"; "Rangetools"] [("Inner", "UpperBoundedRange")] [("Output", "UpperBoundedRange")]
  [
    (Fn "intersection" ByVal [(PBind "other")]
      (ECall "RangeIntersection" "intersection" [(EMethod (EVar "self") "to_inner" []); (EVar "other")]))].

(** src/implementations/intersection/range_to_inclusive.rs *)
Definition impl_211 : impl := Impl (Some ("RangeIntersection", "")) "RangeToInclusive" ["RangeIntersection"; "Rangetools"] [("Inner", "UpperBoundedSet")] [("Output", "UpperBoundedSet")]
  [
    (Fn "intersection" ByVal [(PBind "other")]
      (ECall "RangeIntersection" "intersection" [(EMethod (EVar "other") "to_inner" []); (EVar "self")]))].

(** src/implementations/intersection/range_to_inclusive.rs *)
Definition impl_212 : impl := Impl (Some ("RangeIntersection", "")) "RangeToInclusive" ["RangeIntersection"; "Rangetools"] [("Inner", "UnboundedRange")] [("Output", "UpperBoundedRange")]
  [
    (Fn "intersection" ByVal [(PBind "other")]
      (ECall "RangeIntersection" "intersection" [(EMethod (EVar "self") "to_inner" []); (EVar "other")]))].

(** src/implementations/intersection/range_to_inclusive.rs *)
Definition impl_213 : impl := Impl (Some ("RangeIntersection", "")) "RangeToInclusive" ["RangeIntersection"; "Rangetools"] [("Inner", "UnboundedSet")] [("Output", "UpperBoundedSet")]
  [
    (Fn "intersection" ByVal [(PBind "other")]
      (ECall "RangeIntersection" "intersection" [(EMethod (EVar "other") "to_inner" []); (EVar "self")]))].

(** src/implementations/intersection/range_to_inclusive.rs *)
Definition impl_214 : impl := Impl (Some ("RangeIntersection", "")) "RangeToInclusive" ["RangeIntersection"; "Rangetools"] [("Inner", "EmptyRange")] [("Output", "EmptyRange")]
  [
    (Fn "intersection" ByVal [(PBind "other")]
      (EMethod (EVar "other") "to_inner" []))].

(** src/implementations/intersection/unbounded_range.rs *)
Definition impl_215 : impl := Impl (Some ("RangeIntersection", "")) "UnboundedRange" ["RangeIntersection"; "Rangetools"] [] [("Output", "B")]
  [
    (Fn "intersection" ByVal [(PBind "other")]
      (EMethod (EVar "other") "to_inner" []))].

(** src/implementations/intersection/unbounded_set.rs *)
Definition impl_216 : impl := Impl (Some ("RangeIntersection", "")) "UnboundedSet" ["RangeIntersection"; "RangeUnion"; "Rangetools"] [("Inner", "BoundedRange")] [("Output", "BoundedSet")]
  [
    (Fn "intersection" ByVal [(PBind "other")]
      (ECall "RangeIntersection" "intersection" [(EMethod (EMethod (EVar "other") "to_inner" []) "to_set" []); (EVar "self")]))].

(** src/implementations/intersection/unbounded_set.rs *)
Definition impl_217 : impl := Impl (Some ("RangeIntersection", "")) "UnboundedSet" ["RangeIntersection"; "RangeUnion"; "Rangetools"] [("Inner", "BoundedSet")] [("Output", "BoundedSet")]
  [
    (Fn "intersection" ByVal [(PBind "other")]
      (ECall "RangeIntersection" "intersection" [(EMethod (EVar "other") "to_inner" []); (EVar "self")]))].

(** src/implementations/intersection/unbounded_set.rs *)
Definition impl_218 : impl := Impl (Some ("RangeIntersection", "")) "UnboundedSet" ["RangeIntersection"; "RangeUnion"; "Rangetools"] [("Inner", "LowerBoundedRange")] [("Output", "LowerBoundedSet")]
  [
    (Fn "intersection" ByVal [(PBind "other")]
      (ECall "RangeIntersection" "intersection" [(EMethod (EMethod (EVar "other") "to_inner" []) "to_set" []); (EVar "self")]))].

(** src/implementations/intersection/unbounded_set.rs *)
Definition impl_219 : impl := Impl (Some ("RangeIntersection", "")) "UnboundedSet" ["RangeIntersection"; "RangeUnion"; "Rangetools"] [("Inner", "LowerBoundedSet")] [("Output", "LowerBoundedSet")]
  [
    (Fn "intersection" ByVal [(PBind "other")]
      (ECall "RangeIntersection" "intersection" [(EMethod (EVar "other") "to_inner" []); (EVar "self")]))].

(** src/implementations/intersection/unbounded_set.rs *)
Definition impl_220 : impl := Impl (Some ("RangeIntersection", "")) "UnboundedSet" ["RangeIntersection"; "RangeUnion"; "Rangetools"] [("Inner", "UpperBoundedRange")] [("Output", "UpperBoundedSet")]
  [
    (Fn "intersection" ByVal [(PBind "other")]
      (ECall "RangeIntersection" "intersection" [(EMethod (EMethod (EVar "other") "to_inner" []) "to_set" []); (EVar "self")]))].

(** src/implementations/intersection/unbounded_set.rs *)
Definition impl_221 : impl := Impl (Some ("RangeIntersection", "")) "UnboundedSet" ["RangeIntersection"; "RangeUnion"; "Rangetools"] [("Inner", "UpperBoundedSet")] [("Output", "UpperBoundedSet")]
  [
    (Fn "intersection" ByVal [(PBind "other")]
      (ECall "RangeIntersection" "intersection" [(EMethod (EVar "other") "to_inner" []); (EVar "self")]))].

(** src/implementations/intersection/unbounded_set.rs *)
Definition impl_222 : impl := Impl (Some ("RangeIntersection", "")) "UnboundedSet" ["RangeIntersection"; "RangeUnion"; "Rangetools"] [("Inner", "UnboundedRange")] [("Output", "UnboundedSet")]
  [
    (Fn "intersection" ByVal [PWild]
      (EVar "self"))].

(** src/implementations/intersection/unbounded_set.rs *)
Definition impl_223 : impl := Impl (Some ("RangeIntersection", "")) "UnboundedSet" ["RangeIntersection"; "RangeUnion"; "Rangetools"] [("Inner", "UnboundedSet")] [("Output", "UnboundedSet")]
  [
    (Fn "intersection" ByVal [(PBind "other")]
      (EMatch (ECon "tuple" [("0", (EVar "self")); ("1", (EMethod (EVar "other") "to_inner" []))]) [((PCon "tuple" [("0", (PCon "Full" [])); ("1", (PBind "other"))]), (EVar "other")); ((PCon "tuple" [("0", (PBind "s")); ("1", (PCon "Full" []))]), (EVar "s")); ((PCon "tuple" [("0", (PBind "s")); ("1", (PCon "Piecewise" [("0", (PCon "PiecewiseUnboundedSet" [("upper_bounded_range", (PBind "u2")); ("ranges", (PBind "r2")); ("lower_bounded_range", (PBind "l2"))]))]))]), (EBlock [(SLet (PBind "a") (ECall "RangeIntersection" "intersection" [(EMethod (EVar "s") "clone" []); (EVar "u2")])); (SLet (PBind "b") (ECall "RangeIntersection" "intersection" [(EMethod (EVar "s") "clone" []); (EVar "l2")])); (SLet (PBind "c") (ECall "RangeIntersection" "intersection" [(EVar "s"); (EVar "r2")]))] (ECall "RangeUnion" "union" [(EVar "a"); (ECall "RangeUnion" "union" [(EVar "b"); (EVar "c")])])))]))].

(** src/implementations/intersection/unbounded_set.rs *)
Definition impl_224 : impl := Impl (Some ("RangeIntersection", "")) "UnboundedSet" ["RangeIntersection"; "RangeUnion"; "Rangetools"] [("Inner", "EmptyRange")] [("Output", "EmptyRange")]
  [
    (Fn "intersection" ByVal [(PBind "other")]
      (EMethod (EVar "other") "to_inner" []))].

(** src/implementations/intersection/upper_bounded_range.rs *)
Definition impl_225 : impl := Impl (Some ("RangeIntersection", "")) "UpperBoundedRange" ["RangeIntersection"; "Rangetools"] [("Inner", "BoundedRange")] [("Output", "BoundedRange")]
  [
    (Fn "intersection" ByVal [(PBind "other")]
      (ECall "RangeIntersection" "intersection" [(EMethod (EVar "other") "to_inner" []); (EVar "self")]))].

(** src/implementations/intersection/upper_bounded_range.rs *)
Definition impl_226 : impl := Impl (Some ("RangeIntersection", "")) "UpperBoundedRange" ["RangeIntersection"; "Rangetools"] [("Inner", "BoundedSet")] [("Output", "BoundedSet")]
  [
    (Fn "intersection" ByVal [(PBind "other")]
      (ECall "RangeIntersection" "intersection" [(EMethod (EVar "other") "to_inner" []); (EVar "self")]))].

(** src/implementations/intersection/upper_bounded_range.rs *)
Definition impl_227 : impl := Impl (Some ("RangeIntersection", "")) "UpperBoundedRange" ["RangeIntersection"; "Rangetools"] [("Inner", "LowerBoundedRange")] [("Output", "BoundedRange")]
  [
    (Fn "intersection" ByVal [(PBind "other")]
      (ECall "RangeIntersection" "intersection" [(EMethod (EVar "other") "to_inner" []); (EVar "self")]))].

(** src/implementations/intersection/upper_bounded_range.rs *)
Definition impl_228 : impl := Impl (Some ("RangeIntersection", "")) "UpperBoundedRange" ["RangeIntersection"; "Rangetools"] [("Inner", "LowerBoundedSet")] [("Output", "BoundedSet")]
  [
    (Fn "intersection" ByVal [(PBind "other")]
      (ECall "RangeIntersection" "intersection" [(EMethod (EVar "other") "to_inner" []); (EVar "self")]))].

(** src/implementations/intersection/upper_bounded_range.rs *)
Definition impl_229 : impl := Impl (Some ("RangeIntersection", "")) "UpperBoundedRange" ["RangeIntersection"; "Rangetools"] [("Inner", "UpperBoundedRange")] [("Output", "UpperBoundedRange")]
  [
    (Fn "intersection" ByVal [(PBind "other")]
      (ECall "UpperBoundedRange" "new" [(EMethod (EField (EVar "self") "end") "min" [(EField (EMethod (EVar "other") "to_inner" []) "end")])]))].

(** src/implementations/intersection/upper_bounded_range.rs *)
Definition impl_230 : impl := Impl (Some ("RangeIntersection", "")) "UpperBoundedRange" ["RangeIntersection"; "Rangetools"] [("Inner", "UpperBoundedSet")] [("Output", "UpperBoundedSet")]
  [
    (Fn "intersection" ByVal [(PBind "other")]
      (ECall "RangeIntersection" "intersection" [(EMethod (EVar "other") "to_inner" []); (EVar "self")]))].

(** src/implementations/intersection/upper_bounded_range.rs *)
Definition impl_231 : impl := Impl (Some ("RangeIntersection", "")) "UpperBoundedRange" ["RangeIntersection"; "Rangetools"] [("Inner", "UnboundedRange")] [("Output", "UpperBoundedRange")]
  [
    (Fn "intersection" ByVal [(PBind "other")]
      (ECall "RangeIntersection" "intersection" [(EMethod (EVar "other") "to_inner" []); (EVar "self")]))].

(** src/implementations/intersection/upper_bounded_range.rs *)
Definition impl_232 : impl := Impl (Some ("RangeIntersection", "")) "UpperBoundedRange" ["RangeIntersection"; "Rangetools"] [("Inner", "UnboundedSet")] [("Output", "UpperBoundedSet")]
  [
    (Fn "intersection" ByVal [(PBind "other")]
      (ECall "RangeIntersection" "intersection" [(EMethod (EVar "other") "to_inner" []); (EVar "self")]))].

(** src/implementations/intersection/upper_bounded_range.rs *)
Definition impl_233 : impl := Impl (Some ("RangeIntersection", "")) "UpperBoundedRange" ["RangeIntersection"; "Rangetools"] [("Inner", "EmptyRange")] [("Output", "EmptyRange")]
  [
    (Fn "intersection" ByVal [(PBind "other")]
      (EMethod (EVar "other") "to_inner" []))].

(** src/implementations/intersection/upper_bounded_set.rs *)
Definition impl_234 : impl := Impl (Some ("RangeIntersection", "")) "UpperBoundedSet" ["RangeIntersection"; "Rangetools"] [("Inner", "BoundedRange")] [("Output", "BoundedSet")]
  [
    (Fn "intersection" ByVal [(PBind "other")]
      (EBlock [(SLet (PBind "other") (EMethod (EVar "other") "to_inner" [])); (SLet (PBind "set") (EMethod (ECall "RangeIntersection" "intersection" [(EField (EVar "self") "upper_bounded_range"); (EVar "other")]) "to_set" [])); (SExpr (EMethod (EField (EVar "set") "ranges") "retain" [(EClo [(PBind "r")] (ENot (EMethod (EVar "r") "is_empty" [])))])); (SExpr (EMethod (EVar "set") "add_set" [(ECall "RangeIntersection" "intersection" [(EField (EVar "self") "ranges"); (EVar "other")])]))] (EVar "set")))].

(** src/implementations/intersection/upper_bounded_set.rs *)
Definition impl_235 : impl := Impl (Some ("RangeIntersection", "")) "UpperBoundedSet" ["RangeIntersection"; "Rangetools"] [("Inner", "BoundedSet")] [("Output", "BoundedSet")]
  [
    (Fn "intersection" ByVal [(PBind "other")]
      (ECall "RangeIntersection" "intersection" [(EMethod (EVar "other") "to_inner" []); (EVar "self")]))].

(** src/implementations/intersection/upper_bounded_set.rs *)
Definition impl_236 : impl := Impl (Some ("RangeIntersection", "")) "UpperBoundedSet" ["RangeIntersection"; "Rangetools"] [("Inner", "LowerBoundedRange")] [("Output", "BoundedSet")]
  [
    (Fn "intersection" ByVal [(PBind "other")]
      (EBlock [(SLet (PBind "other") (EMethod (EVar "other") "to_inner" [])); (SLet (PBind "set") (EMethod (ECall "RangeIntersection" "intersection" [(EField (EVar "self") "upper_bounded_range"); (EVar "other")]) "to_set" [])); (SExpr (EMethod (EField (EVar "set") "ranges") "retain" [(EClo [(PBind "r")] (ENot (EMethod (EVar "r") "is_empty" [])))])); (SExpr (EMethod (EVar "set") "add_set" [(ECall "RangeIntersection" "intersection" [(EField (EVar "self") "ranges"); (EVar "other")])]))] (EVar "set")))].

(** src/implementations/intersection/upper_bounded_set.rs *)
Definition impl_237 : impl := Impl (Some ("RangeIntersection", "")) "UpperBoundedSet" ["RangeIntersection"; "Rangetools"] [("Inner", "LowerBoundedSet")] [("Output", "BoundedSet")]
  [
    (Fn "intersection" ByVal [(PBind "other")]
      (ECall "RangeIntersection" "intersection" [(EMethod (EVar "other") "to_inner" []); (EVar "self")]))].

(** src/implementations/intersection/upper_bounded_set.rs *)
Definition impl_238 : impl := Impl (Some ("RangeIntersection", "")) "UpperBoundedSet" ["RangeIntersection"; "Rangetools"] [("Inner", "UpperBoundedRange")] [("Output", "UpperBoundedSet")]
  [
    (Fn "intersection" ByVal [(PBind "other")]
      (EBlock [(SLet (PBind "other") (EMethod (EVar "other") "to_inner" [])); (SLet (PBind "set") (EMethod (ECall "RangeIntersection" "intersection" [(EField (EVar "self") "upper_bounded_range"); (EVar "other")]) "to_set" [])); (SExpr (EMethod (EVar "set") "add_set" [(ECall "RangeIntersection" "intersection" [(EField (EVar "self") "ranges"); (EVar "other")])]))] (EVar "set")))].

(** src/implementations/intersection/upper_bounded_set.rs *)
Definition impl_239 : impl := Impl (Some ("RangeIntersection", "")) "UpperBoundedSet" ["RangeIntersection"; "Rangetools"] [("Inner", "UpperBoundedSet")] [("Output", "UpperBoundedSet")]
  [
    (Fn "intersection" ByVal [(PBind "other")]
      (EBlock [(SLet (PBind "other") (EMethod (EVar "other") "to_inner" [])); (SLet (PBind "set") (ECall "RangeIntersection" "intersection" [(EMethod (EVar "self") "clone" []); (EField (EVar "other") "upper_bounded_range")])); (SExpr (EMethod (EVar "set") "add_set" [(ECall "RangeIntersection" "intersection" [(EVar "self"); (EField (EVar "other") "ranges")])]))] (EVar "set")))].

(** src/implementations/intersection/upper_bounded_set.rs *)
Definition impl_240 : impl := Impl (Some ("RangeIntersection", "")) "UpperBoundedSet" ["RangeIntersection"; "Rangetools"] [("Inner", "UnboundedRange")] [("Output", "UpperBoundedSet")]
  [
    (Fn "intersection" ByVal [PWild]
      (EVar "self"))].

(** src/implementations/intersection/upper_bounded_set.rs *)
Definition impl_241 : impl := Impl (Some ("RangeIntersection", "")) "UpperBoundedSet" ["RangeIntersection"; "Rangetools"] [("Inner", "UnboundedSet")] [("Output", "UpperBoundedSet")]
  [
    (Fn "intersection" ByVal [(PBind "other")]
      (EMatch (EMethod (EVar "other") "to_inner" []) [((PCon "Full" []), (EVar "self")); ((PCon "Piecewise" [("0", (PCon "PiecewiseUnboundedSet" [("lower_bounded_range", (PBind "lower_bounded_range")); ("ranges", (PBind "ranges")); ("upper_bounded_range", (PBind "upper_bounded_range"))]))]), (EBlock [(SLet (PBind "set") (ECall "RangeIntersection" "intersection" [(EMethod (EVar "self") "clone" []); (EVar "upper_bounded_range")])); (SExpr (EMethod (EVar "set") "add_set" [(ECall "RangeIntersection" "intersection" [(EMethod (EVar "self") "clone" []); (EVar "lower_bounded_range")])])); (SExpr (EMethod (EVar "set") "add_set" [(ECall "RangeIntersection" "intersection" [(EMethod (EVar "self") "clone" []); (EVar "ranges")])]))] (EVar "set")))]))].

(** src/implementations/intersection/upper_bounded_set.rs *)
Definition impl_242 : impl := Impl (Some ("RangeIntersection", "")) "UpperBoundedSet" ["RangeIntersection"; "Rangetools"] [("Inner", "EmptyRange")] [("Output", "EmptyRange")]
  [
    (Fn "intersection" ByVal [(PBind "other")]
      (EMethod (EVar "other") "to_inner" []))].

(** src/implementations/rangetools/bounded_range.rs *)
Definition impl_243 : impl := Impl (Some ("Rangetools", "")) "BoundedRange" ["Rangetools"] [] [("Inner", "BoundedRange"); ("Set", "BoundedSet")]
  [
    (Fn "is_empty" ByRef []
      (EMatch (ECon "tuple" [("0", (EField (EField (EVar "self") "start") "0")); ("1", (EField (EField (EVar "self") "end") "0"))]) [((PCon "tuple" [("0", (PCon "Included" [("0", (PBind "start"))])); ("1", (PCon "Included" [("0", (PBind "end"))]))]), (EBin ">" (EVar "start") (EVar "end"))); ((POr [(PCon "tuple" [("0", (PCon "Excluded" [("0", (PBind "start"))])); ("1", (PCon "Included" [("0", (PBind "end"))]))]); (PCon "tuple" [("0", (PCon "Included" [("0", (PBind "start"))])); ("1", (PCon "Excluded" [("0", (PBind "end"))]))]); (PCon "tuple" [("0", (PCon "Excluded" [("0", (PBind "start"))])); ("1", (PCon "Excluded" [("0", (PBind "end"))]))])]), (EBin ">=" (EVar "start") (EVar "end")))]));
    (Fn "to_inner" ByVal []
      (EVar "self"));
    (Fn "to_set" ByVal []
      (EInto (EVar "self") "BoundedSet"))].

(** src/implementations/rangetools/bounded_set.rs *)
Definition impl_244 : impl := Impl (Some ("Rangetools", "")) "BoundedSet" ["Rangetools"] [] [("Inner", "BoundedSet"); ("Set", "BoundedSet")]
  [
    (Fn "is_empty" ByRef []
      (EMethod (EMethod (EField (EVar "self") "ranges") "iter" []) "all" [(EClo [(PBind "r")] (EMethod (EVar "r") "is_empty" []))]));
    (Fn "to_inner" ByVal []
      (EVar "self"));
    (Fn "to_set" ByVal []
      (EVar "self"))].

(** src/implementations/rangetools/empty_range.rs *)
Definition impl_245 : impl := Impl (Some ("Rangetools", "")) "EmptyRange" ["Rangetools"] [] [("Inner", "EmptyRange"); ("Set", "EmptyRange")]
  [
    (Fn "is_empty" ByRef []
      (EBool true));
    (Fn "to_inner" ByVal []
      (EVar "self"));
    (Fn "to_set" ByVal []
      (EVar "self"))].

(** src/implementations/rangetools/lower_bounded_range.rs *)
Definition impl_246 : impl := Impl (Some ("Rangetools", "")) "LowerBoundedRange" ["Rangetools"] [] [("Inner", "LowerBoundedRange"); ("Set", "LowerBoundedSet")]
  [
    (Fn "is_empty" ByRef []
      (EBool false));
    (Fn "to_inner" ByVal []
      (EVar "self"));
    (Fn "to_set" ByVal []
      (EInto (EVar "self") "LowerBoundedSet"))].

(** src/implementations/rangetools/lower_bounded_set.rs *)
Definition impl_247 : impl := Impl (Some ("Rangetools", "")) "LowerBoundedSet" ["Rangetools"] [] [("Inner", "LowerBoundedSet"); ("Set", "LowerBoundedSet")]
  [
    (Fn "is_empty" ByRef []
      (EBool false));
    (Fn "to_inner" ByVal []
      (EVar "self"));
    (Fn "to_set" ByVal []
      (EVar "self"))].

(** src/implementations/rangetools/range.rs *)
Definition impl_248 : impl := Impl (Some ("Rangetools", "")) "Range" ["Rangetools"] [] [("Inner", "BoundedRange"); ("Set", "BoundedSet")]
  [
    (Fn "is_empty" ByRef []
      (EBin ">=" (EField (EVar "self") "start") (EField (EVar "self") "end")));
    (Fn "to_inner" ByVal []
      (EInto (EVar "self") "BoundedRange"));
    (Fn "to_set" ByVal []
      (EMethod (EMethod (EVar "self") "to_inner" []) "to_set" []))].

(** src/implementations/rangetools/range_from.rs *)
Definition impl_249 : impl := Impl (Some ("Rangetools", "")) "RangeFrom" ["Rangetools"] [] [("Inner", "LowerBoundedRange"); ("Set", "LowerBoundedSet")]
  [
    (Fn "is_empty" ByRef []
      (EBool false));
    (Fn "to_inner" ByVal []
      (EInto (EVar "self") "LowerBoundedRange"));
    (Fn "to_set" ByVal []
      (EMethod (EMethod (EVar "self") "to_inner" []) "to_set" []))].

(** src/implementations/rangetools/range_full.rs *)
Definition impl_250 : impl := Impl (Some ("Rangetools", "")) "RangeFull" ["Rangetools"] [] [("Inner", "UnboundedRange"); ("Set", "UnboundedRange")]
  [
    (Fn "is_empty" ByRef []
      (EBool false));
    (Fn "to_inner" ByVal []
      (EInto (EVar "self") "UnboundedRange"));
    (Fn "to_set" ByVal []
      (EInto (EVar "self") "UnboundedRange"))].

(** src/implementations/rangetools/range_inclusive.rs *)
Definition impl_251 : impl := Impl (Some ("Rangetools", "")) "RangeInclusive" ["Rangetools"] [] [("Inner", "BoundedRange"); ("Set", "BoundedSet")]
  [
    (Fn "is_empty" ByRef []
      (EBin ">" (EMethod (EVar "self") "start" []) (EMethod (EVar "self") "end" [])));
    (Fn "to_inner" ByVal []
      (EInto (EVar "self") "BoundedRange"));
    (Fn "to_set" ByVal []
      (EMethod (EMethod (EVar "self") "to_inner" []) "to_set" []))].

(** src/implementations/rangetools/range_to.rs *)
Definition impl_252 : impl := Impl (Some ("Rangetools", "")) "RangeTo" ["Rangetools"] [] [("Inner", "UpperBoundedRange"); ("Set", "UpperBoundedSet")]
  [
    (Fn "is_empty" ByRef []
      (EBool false));
    (Fn "to_inner" ByVal []
      (EInto (EVar "self") "UpperBoundedRange"));
    (Fn "to_set" ByVal []
      (EMethod (EMethod (EVar "self") "to_inner" []) "to_set" []))].

(** src/implementations/rangetools/range_to_inclusive.rs *)
Definition impl_253 : impl := Impl (Some ("Rangetools", "")) "RangeToInclusive" ["Rangetools"] [] [("Inner", "UpperBoundedRange"); ("Set", "UpperBoundedSet")]
  [
    (Fn "is_empty" ByRef []
      (EBool false));
    (Fn "to_inner" ByVal []
      (EInto (EVar "self") "UpperBoundedRange"));
    (Fn "to_set" ByVal []
      (EMethod (EMethod (EVar "self") "to_inner" []) "to_set" []))].

(** src/implementations/rangetools/unbounded_range.rs *)
Definition impl_254 : impl := Impl (Some ("Rangetools", "")) "UnboundedRange" ["Rangetools"] [] [("Inner", "UnboundedRange"); ("Set", "UnboundedRange")]
  [
    (Fn "is_empty" ByRef []
      (EBool false));
    (Fn "to_inner" ByVal []
      (EVar "self"));
    (Fn "to_set" ByVal []
      (EVar "self"))].

(** src/implementations/rangetools/unbounded_set.rs *)
Definition impl_255 : impl := Impl (Some ("Rangetools", "")) "UnboundedSet" ["Rangetools"] [] [("Inner", "UnboundedSet"); ("Set", "UnboundedSet")]
  [
    (Fn "is_empty" ByRef []
      (EBool false));
    (Fn "to_inner" ByVal []
      (EVar "self"));
    (Fn "to_set" ByVal []
      (EVar "self"))].

(** src/implementations/rangetools/upper_bounded_range.rs *)
Definition impl_256 : impl := Impl (Some ("Rangetools", "")) "UpperBoundedRange" ["Rangetools"] [] [("Inner", "UpperBoundedRange"); ("Set", "UpperBoundedSet")]
  [
    (Fn "is_empty" ByRef []
      (EBool false));
    (Fn "to_inner" ByVal []
      (EVar "self"));
    (Fn "to_set" ByVal []
      (EInto (EVar "self") "UpperBoundedSet"))].

(** src/implementations/rangetools/upper_bounded_set.rs *)
Definition impl_257 : impl := Impl (Some ("Rangetools", "")) "UpperBoundedSet" ["Rangetools"] [] [("Inner", "UpperBoundedSet"); ("Set", "UpperBoundedSet")]
  [
    (Fn "is_empty" ByRef []
      (EBool false));
    (Fn "to_inner" ByVal []
      (EVar "self"));
    (Fn "to_set" ByVal []
      (EVar "self"))].

(** src/implementations/union/bounded_range.rs *)
Definition impl_258 : impl := Impl (Some ("RangeUnion", "")) "BoundedRange" ["RangeUnion"; "Rangetools"] [("Set", "BoundedSet")] [("Output", "BoundedSet")]
  [
    (Fn "union" ByVal [(PBind "other")]
      (ECall "RangeUnion" "union" [(EMethod (EVar "self") "to_set" []); (EVar "other")]))].

(** src/implementations/union/bounded_range.rs *)
Definition impl_259 : impl := Impl (Some ("RangeUnion", "")) "BoundedRange" ["RangeUnion"; "Rangetools"] [("Set", "LowerBoundedSet")] [("Output", "LowerBoundedSet")]
  [
    (Fn "union" ByVal [(PBind "other")]
      (ECall "RangeUnion" "union" [(EMethod (EVar "self") "to_set" []); (EVar "other")]))].

(** src/implementations/union/bounded_range.rs *)
Definition impl_260 : impl := Impl (Some ("RangeUnion", "")) "BoundedRange" ["RangeUnion"; "Rangetools"] [("Set", "UpperBoundedSet")] [("Output", "UpperBoundedSet")]
  [
    (Fn "union" ByVal [(PBind "other")]
      (ECall "RangeUnion" "union" [(EMethod (EVar "self") "to_set" []); (EVar "other")]))].

(** src/implementations/union/bounded_range.rs *)
Definition impl_261 : impl := Impl (Some ("RangeUnion", "")) "BoundedRange" ["RangeUnion"; "Rangetools"] [("Set", "UnboundedSet")] [("Output", "UnboundedSet")]
  [
    (Fn "union" ByVal [(PBind "other")]
      (ECall "RangeUnion" "union" [(EMethod (EVar "self") "to_set" []); (EVar "other")]))].

(** src/implementations/union/bounded_range.rs *)
Definition impl_262 : impl := Impl (Some ("RangeUnion", "")) "BoundedRange" ["RangeUnion"; "Rangetools"] [("Set", "UnboundedRange")] [("Output", "UnboundedRange")]
  [
    (Fn "union" ByVal [(PBind "other")]
      (ECall "RangeUnion" "union" [(EMethod (EVar "other") "to_set" []); (EVar "self")]))].

(** src/implementations/union/bounded_range.rs *)
Definition impl_263 : impl := Impl (Some ("RangeUnion", "")) "BoundedRange" ["RangeUnion"; "Rangetools"] [("Set", "EmptyRange")] [("Output", "BoundedRange")]
  [
    (Fn "union" ByVal [(PBind "other")]
      (ECall "RangeUnion" "union" [(EMethod (EVar "other") "to_set" []); (EVar "self")]))].

(** src/implementations/union/bounded_set.rs *)
Definition impl_264 : impl := Impl (Some ("RangeUnion", "")) "BoundedSet" ["RangeUnion"; "Rangetools"] [("Set", "BoundedSet")] [("Output", "BoundedSet")]
  [
    (Fn "union" ByVal [(PBind "other")]
      (EBlock [(SExpr (EMethod (EVar "self") "add_set" [(EMethod (EVar "other") "to_set" [])]))] (EVar "self")))].

(** src/implementations/union/bounded_set.rs *)
Definition impl_265 : impl := Impl (Some ("RangeUnion", "")) "BoundedSet" ["RangeUnion"; "Rangetools"] [("Set", "LowerBoundedSet")] [("Output", "LowerBoundedSet")]
  [
    (Fn "union" ByVal [(PBind "other")]
      (EBlock [(SLet (PBind "set") (EMethod (EVar "other") "to_set" [])); (SExpr (EMethod (EVar "set") "add_set" [(EVar "self")]))] (EVar "set")))].

(** src/implementations/union/bounded_set.rs *)
Definition impl_266 : impl := Impl (Some ("RangeUnion", "")) "BoundedSet" ["RangeUnion"; "Rangetools"] [("Set", "UpperBoundedSet")] [("Output", "UpperBoundedSet")]
  [
    (Fn "union" ByVal [(PBind "other")]
      (EBlock [(SLet (PBind "set") (EMethod (EVar "other") "to_set" [])); (SExpr (EMethod (EVar "set") "add_set" [(EVar "self")]))] (EVar "set")))].

(** src/implementations/union/bounded_set.rs *)
Definition impl_267 : impl := Impl (Some ("RangeUnion", "")) "BoundedSet" ["RangeUnion"; "Rangetools"] [("Set", "UnboundedSet")] [("Output", "UnboundedSet")]
  [
    (Fn "union" ByVal [(PBind "other")]
      (EBlock [(SLet (PBind "set") (EMethod (EVar "other") "to_set" [])); (SExpr (EMethod (EVar "set") "add_set" [(EVar "self")]))] (EVar "set")))].

(** src/implementations/union/bounded_set.rs *)
Definition impl_268 : impl := Impl (Some ("RangeUnion", "")) "BoundedSet" ["RangeUnion"; "Rangetools"] [("Set", "UnboundedRange")] [("Output", "UnboundedRange")]
  [
    (Fn "union" ByVal [(PBind "other")]
      (ECall "RangeUnion" "union" [(EMethod (EVar "other") "to_set" []); (EVar "self")]))].

(** src/implementations/union/bounded_set.rs *)
Definition impl_269 : impl := Impl (Some ("RangeUnion", "")) "BoundedSet" ["RangeUnion"; "Rangetools"] [("Set", "EmptyRange")] [("Output", "BoundedSet")]
  [
    (Fn "union" ByVal [(PBind "other")]
      (ECall "RangeUnion" "union" [(EMethod (EVar "other") "to_set" []); (EVar "self")]))].

(** src/implementations/union/empty_range.rs *)
Definition impl_270 : impl := Impl (Some ("RangeUnion", "")) "EmptyRange" ["RangeUnion"; "Rangetools"] [] [("Output", "Rhs")]
  [
    (Fn "union" ByVal [(PBind "other")]
      (EVar "other"))].

(** src/implementations/union/lower_bounded_range.rs *)
Definition impl_271 : impl := Impl (Some ("RangeUnion", "")) "LowerBoundedRange" ["RangeUnion"; "Rangetools"] [("Set", "BoundedSet")] [("Output", "LowerBoundedSet")]
  [
    (Fn "union" ByVal [(PBind "other")]
      (ECall "RangeUnion" "union" [(EMethod (EVar "self") "to_set" []); (EVar "other")]))].

(** src/implementations/union/lower_bounded_range.rs *)
Definition impl_272 : impl := Impl (Some ("RangeUnion", "")) "LowerBoundedRange" ["RangeUnion"; "Rangetools"] [("Set", "LowerBoundedSet")] [("Output", "LowerBoundedSet")]
  [
    (Fn "union" ByVal [(PBind "other")]
      (ECall "RangeUnion" "union" [(EMethod (EVar "self") "to_set" []); (EVar "other")]))].

(** src/implementations/union/lower_bounded_range.rs *)
Definition impl_273 : impl := Impl (Some ("RangeUnion", "")) "LowerBoundedRange" ["RangeUnion"; "Rangetools"] [("Set", "UpperBoundedSet")] [("Output", "UnboundedSet")]
  [
    (Fn "union" ByVal [(PBind "other")]
      (ECall "RangeUnion" "union" [(EMethod (EVar "self") "to_set" []); (EVar "other")]))].

(** src/implementations/union/lower_bounded_range.rs *)
Definition impl_274 : impl := Impl (Some ("RangeUnion", "")) "LowerBoundedRange" ["RangeUnion"; "Rangetools"] [("Set", "UnboundedSet")] [("Output", "UnboundedSet")]
  [
    (Fn "union" ByVal [(PBind "other")]
      (ECall "RangeUnion" "union" [(EMethod (EVar "self") "to_set" []); (EVar "other")]))].

(** src/implementations/union/lower_bounded_range.rs *)
Definition impl_275 : impl := Impl (Some ("RangeUnion", "")) "LowerBoundedRange" ["RangeUnion"; "Rangetools"] [("Set", "UnboundedRange")] [("Output", "UnboundedRange")]
  [
    (Fn "union" ByVal [(PBind "other")]
      (ECall "RangeUnion" "union" [(EMethod (EVar "other") "to_set" []); (EVar "self")]))].

(** src/implementations/union/lower_bounded_range.rs *)
Definition impl_276 : impl := Impl (Some ("RangeUnion", "")) "LowerBoundedRange" ["RangeUnion"; "Rangetools"] [("Set", "EmptyRange")] [("Output", "LowerBoundedRange")]
  [
    (Fn "union" ByVal [(PBind "other")]
      (ECall "RangeUnion" "union" [(EMethod (EVar "other") "to_set" []); (EVar "self")]))].

(** src/implementations/union/lower_bounded_set.rs *)
Definition impl_277 : impl := Impl (Some ("RangeUnion", "")) "LowerBoundedSet" ["RangeUnion"; "Rangetools"] [("Set", "BoundedSet")] [("Output", "LowerBoundedSet")]
  [
    (Fn "union" ByVal [(PBind "other")]
      (ECall "RangeUnion" "union" [(EMethod (EVar "other") "to_set" []); (EVar "self")]))].

(** src/implementations/union/lower_bounded_set.rs *)
Definition impl_278 : impl := Impl (Some ("RangeUnion", "")) "LowerBoundedSet" ["RangeUnion"; "Rangetools"] [("Set", "LowerBoundedSet")] [("Output", "LowerBoundedSet")]
  [
    (Fn "union" ByVal [(PBind "other")]
      (EBlock [(SLet (PBind "other") (EMethod (EVar "other") "to_set" [])); (SExpr (EMethod (EVar "self") "add_lower_bounded_range" [(EField (EVar "other") "lower_bounded_range")]))] (ECall "RangeUnion" "union" [(EVar "self"); (EField (EVar "other") "ranges")])))].

(** src/implementations/union/lower_bounded_set.rs *)
Definition impl_279 : impl := Impl (Some ("RangeUnion", "")) "LowerBoundedSet" ["RangeUnion"; "Rangetools"] [("Set", "UpperBoundedSet")] [("Output", "UnboundedSet")]
  [
    (Fn "union" ByVal [(PBind "other")]
      (EBlock [(SLet (PBind "other") (EMethod (EVar "other") "to_set" [])); (SLet (PBind "set") (ECall "UnboundedSet" "new" [(EField (EVar "other") "upper_bounded_range"); (EField (EVar "self") "lower_bounded_range")]))] (ECall "RangeUnion" "union" [(ECall "RangeUnion" "union" [(EVar "set"); (EField (EVar "self") "ranges")]); (EField (EVar "other") "ranges")])))].

(** src/implementations/union/lower_bounded_set.rs *)
Definition impl_280 : impl := Impl (Some ("RangeUnion", "")) "LowerBoundedSet" ["RangeUnion"; "Rangetools"] [("Set", "UnboundedSet")] [("Output", "UnboundedSet")]
  [
    (Fn "union" ByVal [(PBind "other")]
      (EBlock [(SLet (PBind "set") (EMethod (EVar "other") "to_set" [])); (SExpr (EMethod (EVar "set") "add_lower_bounded_range" [(EField (EVar "self") "lower_bounded_range")]))] (ECall "RangeUnion" "union" [(EVar "set"); (EField (EVar "self") "ranges")])))].

(** src/implementations/union/lower_bounded_set.rs *)
Definition impl_281 : impl := Impl (Some ("RangeUnion", "")) "LowerBoundedSet" ["RangeUnion"; "Rangetools"] [("Set", "UnboundedRange")] [("Output", "UnboundedRange")]
  [
    (Fn "union" ByVal [(PBind "other")]
      (ECall "RangeUnion" "union" [(EMethod (EVar "other") "to_set" []); (EVar "self")]))].

(** src/implementations/union/lower_bounded_set.rs *)
Definition impl_282 : impl := Impl (Some ("RangeUnion", "")) "LowerBoundedSet" ["RangeUnion"; "Rangetools"] [("Set", "EmptyRange")] [("Output", "LowerBoundedSet")]
  [
    (Fn "union" ByVal [(PBind "other")]
      (ECall "RangeUnion" "union" [(EMethod (EVar "other") "to_set" []); (EVar "self")]))].

(** src/implementations/union/range.rs *)
Definition impl_283 : impl := Impl (Some ("RangeUnion", "")) "Range" ["RangeUnion"; "Rangetools"] [("Set", "BoundedSet")] [("Output", "BoundedSet")]
  [
    (Fn "union" ByVal [(PBind "other")]
      (ECall "RangeUnion" "union" [(EMethod (EVar "self") "to_set" []); (EVar "other")]))].

(** src/implementations/union/range.rs *)
Definition impl_284 : impl := Impl (Some ("RangeUnion", "")) "Range" ["RangeUnion"; "Rangetools"] [("Set", "LowerBoundedSet")] [("Output", "LowerBoundedSet")]
  [
    (Fn "union" ByVal [(PBind "other")]
      (ECall "RangeUnion" "union" [(EMethod (EVar "self") "to_set" []); (EVar "other")]))].

(** src/implementations/union/range.rs *)
Definition impl_285 : impl := Impl (Some ("RangeUnion", "")) "Range" ["RangeUnion"; "Rangetools"] [("Set", "UpperBoundedSet")] [("Output", "UpperBoundedSet")]
  [
    (Fn "union" ByVal [(PBind "other")]
      (ECall "RangeUnion" "union" [(EMethod (EVar "self") "to_set" []); (EVar "other")]))].

(** src/implementations/union/range.rs *)
Definition impl_286 : impl := Impl (Some ("RangeUnion", "")) "Range" ["RangeUnion"; "Rangetools"] [("Set", "UnboundedSet")] [("Output", "UnboundedSet")]
  [
    (Fn "union" ByVal [(PBind "other")]
      (ECall "RangeUnion" "union" [(EMethod (EVar "self") "to_set" []); (EVar "other")]))].

(** src/implementations/union/range.rs *)
Definition impl_287 : impl := Impl (Some ("RangeUnion", "")) "Range" ["RangeUnion"; "Rangetools"] [("Set", "UnboundedRange")] [("Output", "UnboundedRange")]
  [
    (Fn "union" ByVal [(PBind "other")]
      (ECall "RangeUnion" "union" [(EMethod (EVar "other") "to_set" []); (EVar "self")]))].

(** src/implementations/union/range.rs *)
Definition impl_288 : impl := Impl (Some ("RangeUnion", "")) "Range" ["RangeUnion"; "Rangetools"] [("Set", "EmptyRange")] [("Output", "Range")]
  [
    (Fn "union" ByVal [(PBind "other")]
      (ECall "RangeUnion" "union" [(EMethod (EVar "other") "to_set" []); (EVar "self")]))].

(** src/implementations/union/range_from.rs *)
Definition impl_289 : impl := Impl (Some ("RangeUnion", "")) "RangeFrom" ["RangeUnion"; "Rangetools"] [("Set", "BoundedSet")] [("Output", "LowerBoundedSet")]
  [
    (Fn "union" ByVal [(PBind "other")]
      (ECall "RangeUnion" "union" [(EMethod (EVar "self") "to_set" []); (EVar "other")]))].

(** src/implementations/union/range_from.rs *)
Definition impl_290 : impl := Impl (Some ("RangeUnion", "")) "RangeFrom" ["RangeUnion"; "Rangetools"] [("Set", "LowerBoundedSet")] [("Output", "LowerBoundedSet")]
  [
    (Fn "union" ByVal [(PBind "other")]
      (ECall "RangeUnion" "union" [(EMethod (EVar "self") "to_set" []); (EVar "other")]))].

(** src/implementations/union/range_from.rs *)
Definition impl_291 : impl := Impl (Some ("RangeUnion", "")) "RangeFrom" ["RangeUnion"; "Rangetools"] [("Set", "UpperBoundedSet")] [("Output", "UnboundedSet")]
  [
    (Fn "union" ByVal [(PBind "other")]
      (ECall "RangeUnion" "union" [(EMethod (EVar "self") "to_set" []); (EVar "other")]))].

(** src/implementations/union/range_from.rs *)
Definition impl_292 : impl := Impl (Some ("RangeUnion", "")) "RangeFrom" ["RangeUnion"; "Rangetools"] [("Set", "UnboundedSet")] [("Output", "UnboundedSet")]
  [
    (Fn "union" ByVal [(PBind "other")]
      (ECall "RangeUnion" "union" [(EMethod (EVar "self") "to_set" []); (EVar "other")]))].

(** src/implementations/union/range_from.rs *)
Definition impl_293 : impl := Impl (Some ("RangeUnion", "")) "RangeFrom" ["RangeUnion"; "Rangetools"] [("Set", "UnboundedRange")] [("Output", "UnboundedRange")]
  [
    (Fn "union" ByVal [(PBind "other")]
      (ECall "RangeUnion" "union" [(EMethod (EVar "other") "to_set" []); (EVar "self")]))].

(** src/implementations/union/range_from.rs *)
Definition impl_294 : impl := Impl (Some ("RangeUnion", "")) "RangeFrom" ["RangeUnion"; "Rangetools"] [("Set", "EmptyRange")] [("Output", "RangeFrom")]
  [
    (Fn "union" ByVal [(PBind "other")]
      (ECall "RangeUnion" "union" [(EMethod (EVar "other") "to_set" []); (EVar "self")]))].

(** src/implementations/union/range_full.rs *)
Definition impl_295 : impl := Impl (Some ("RangeUnion", "")) "RangeFull" ["RangeUnion"; "Rangetools"] [("Set", "BoundedSet")] [("Output", "UnboundedRange")]
  [
    (Fn "union" ByVal [(PBind "other")]
      (ECall "RangeUnion" "union" [(EMethod (EVar "self") "to_set" []); (EVar "other")]))].

(** src/implementations/union/range_full.rs *)
Definition impl_296 : impl := Impl (Some ("RangeUnion", "")) "RangeFull" ["RangeUnion"; "Rangetools"] [("Set", "LowerBoundedSet")] [("Output", "UnboundedRange")]
  [
    (Fn "union" ByVal [(PBind "other")]
      (ECall "RangeUnion" "union" [(EMethod (EVar "self") "to_set" []); (EVar "other")]))].

(** src/implementations/union/range_full.rs *)
Definition impl_297 : impl := Impl (Some ("RangeUnion", "")) "RangeFull" ["RangeUnion"; "Rangetools"] [("Set", "UpperBoundedSet")] [("Output", "UnboundedRange")]
  [
    (Fn "union" ByVal [(PBind "other")]
      (ECall "RangeUnion" "union" [(EMethod (EVar "self") "to_set" []); (EVar "other")]))].

(** src/implementations/union/range_full.rs *)
Definition impl_298 : impl := Impl (Some ("RangeUnion", "")) "RangeFull" ["RangeUnion"; "Rangetools"] [("Set", "UnboundedSet")] [("Output", "UnboundedRange")]
  [
    (Fn "union" ByVal [(PBind "other")]
      (ECall "RangeUnion" "union" [(EMethod (EVar "self") "to_set" []); (EVar "other")]))].

(** src/implementations/union/range_full.rs *)
Definition impl_299 : impl := Impl (Some ("RangeUnion", "")) "RangeFull" ["RangeUnion"; "Rangetools"] [("Set", "UnboundedRange")] [("Output", "UnboundedRange")]
  [
    (Fn "union" ByVal [(PBind "other")]
      (ECall "RangeUnion" "union" [(EMethod (EVar "other") "to_set" []); (EVar "self")]))].

(** src/implementations/union/range_full.rs *)
Definition impl_300 : impl := Impl (Some ("RangeUnion", "")) "RangeFull" ["RangeUnion"; "Rangetools"] [("Set", "EmptyRange")] [("Output", "RangeFull")]
  [
    (Fn "union" ByVal [(PBind "other")]
      (ECall "RangeUnion" "union" [(EMethod (EVar "other") "to_set" []); (EVar "self")]))].

(** src/implementations/union/range_inclusive.rs *)
Definition impl_301 : impl := Impl (Some ("RangeUnion", "")) "RangeInclusive" ["RangeUnion"; "Rangetools"] [("Set", "BoundedSet")] [("Output", "BoundedSet")]
  [
    (Fn "union" ByVal [(PBind "other")]
      (ECall "RangeUnion" "union" [(EMethod (EVar "self") "to_set" []); (EVar "other")]))].

(** src/implementations/union/range_inclusive.rs *)
Definition impl_302 : impl := Impl (Some ("RangeUnion", "")) "RangeInclusive" ["RangeUnion"; "Rangetools"] [("Set", "LowerBoundedSet")] [("Output", "LowerBoundedSet")]
  [
    (Fn "union" ByVal [(PBind "other")]
      (ECall "RangeUnion" "union" [(EMethod (EVar "self") "to_set" []); (EVar "other")]))].

(** src/implementations/union/range_inclusive.rs *)
Definition impl_303 : impl := Impl (Some ("RangeUnion", "")) "RangeInclusive" ["RangeUnion"; "Rangetools"] [("Set", "UpperBoundedSet")] [("Output", "UpperBoundedSet")]
  [
    (Fn "union" ByVal [(PBind "other")]
      (ECall "RangeUnion" "union" [(EMethod (EVar "self") "to_set" []); (EVar "other")]))].

(** src/implementations/union/range_inclusive.rs *)
Definition impl_304 : impl := Impl (Some ("RangeUnion", "")) "RangeInclusive" ["RangeUnion"; "Rangetools"] [("Set", "UnboundedSet")] [("Output", "UnboundedSet")]
  [
    (Fn "union" ByVal [(PBind "other")]
      (ECall "RangeUnion" "union" [(EMethod (EVar "self") "to_set" []); (EVar "other")]))].

(** src/implementations/union/range_inclusive.rs *)
Definition impl_305 : impl := Impl (Some ("RangeUnion", "")) "RangeInclusive" ["RangeUnion"; "Rangetools"] [("Set", "UnboundedRange")] [("Output", "UnboundedRange")]
  [
    (Fn "union" ByVal [(PBind "other")]
      (ECall "RangeUnion" "union" [(EMethod (EVar "other") "to_set" []); (EVar "self")]))].

(** src/implementations/union/range_inclusive.rs *)
Definition impl_306 : impl := Impl (Some ("RangeUnion", "")) "RangeInclusive" ["RangeUnion"; "Rangetools"] [("Set", "EmptyRange")] [("Output", "RangeInclusive")]
  [
    (Fn "union" ByVal [(PBind "other")]
      (ECall "RangeUnion" "union" [(EMethod (EVar "other") "to_set" []); (EVar "self")]))].

(** src/implementations/union/range_to.rs *)
Definition impl_307 : impl := Impl (Some ("RangeUnion", "")) "RangeTo" ["RangeUnion"; "Rangetools"] [("Set", "BoundedSet")] [("Output", "UpperBoundedSet")]
  [
    (Fn "union" ByVal [(PBind "other")]
      (ECall "RangeUnion" "union" [(EMethod (EVar "self") "to_set" []); (EVar "other")]))].

(** src/implementations/union/range_to.rs *)
Definition impl_308 : impl := Impl (Some ("RangeUnion", "")) "RangeTo" ["RangeUnion"; "Rangetools"] [("Set", "LowerBoundedSet")] [("Output", "UnboundedSet")]
  [
    (Fn "union" ByVal [(PBind "other")]
      (ECall "RangeUnion" "union" [(EMethod (EVar "self") "to_set" []); (EVar "other")]))].

(** src/implementations/union/range_to.rs *)
Definition impl_309 : impl := Impl (Some ("RangeUnion", "")) "RangeTo" ["RangeUnion"; "Rangetools"] [("Set", "UpperBoundedSet")] [("Output", "UpperBoundedSet")]
  [
    (Fn "union" ByVal [(PBind "other")]
      (ECall "RangeUnion" "union" [(EMethod (EVar "self") "to_set" []); (EVar "other")]))].

(** src/implementations/union/range_to.rs *)
Definition impl_310 : impl := Impl (Some ("RangeUnion", "")) "RangeTo" ["RangeUnion"; "Rangetools"] [("Set", "UnboundedSet")] [("Output", "UnboundedSet")]
  [
    (Fn "union" ByVal [(PBind "other")]
      (ECall "RangeUnion" "union" [(EMethod (EVar "self") "to_set" []); (EVar "other")]))].

(** src/implementations/union/range_to.rs *)
Definition impl_311 : impl := Impl (Some ("RangeUnion", "")) "RangeTo" ["RangeUnion"; "Rangetools"] [("Set", "UnboundedRange")] [("Output", "UnboundedRange")]
  [
    (Fn "union" ByVal [(PBind "other")]
      (ECall "RangeUnion" "union" [(EMethod (EVar "other") "to_set" []); (EVar "self")]))].

(** src/implementations/union/range_to.rs *)
Definition impl_312 : impl := Impl (Some ("RangeUnion", "")) "RangeTo" ["RangeUnion"; "Rangetools"] [("Set", "EmptyRange")] [("Output", "RangeTo")]
  [
    (Fn "union" ByVal [(PBind "other")]
      (ECall "RangeUnion" "union" [(EMethod (EVar "other") "to_set" []); (EVar "self")]))].

(** src/implementations/union/range_to_inclusive.rs *)
Definition impl_313 : impl := Impl (Some ("RangeUnion", "")) "RangeToInclusive" ["RangeUnion"; "Rangetools"] [("Set", "BoundedSet")] [("Output", "UpperBoundedSet")]
  [
    (Fn "union" ByVal [(PBind "other")]
      (ECall "RangeUnion" "union" [(EMethod (EVar "self") "to_set" []); (EVar "other")]))].

(** src/implementations/union/range_to_inclusive.rs *)
Definition impl_314 : impl := Impl (Some ("RangeUnion", "")) "RangeToInclusive" ["RangeUnion"; "Rangetools"] [("Set", "LowerBoundedSet")] [("Output", "UnboundedSet")]
  [
    (Fn "union" ByVal [(PBind "other")]
      (ECall "RangeUnion" "union" [(EMethod (EVar "self") "to_set" []); (EVar "other")]))].

(** src/implementations/union/range_to_inclusive.rs *)
Definition impl_315 : impl := Impl (Some ("RangeUnion", "")) "RangeToInclusive" ["RangeUnion"; "Rangetools"] [("Set", "UpperBoundedSet")] [("Output", "UpperBoundedSet")]
  [
    (Fn "union" ByVal [(PBind "other")]
      (ECall "RangeUnion" "union" [(EMethod (EVar "self") "to_set" []); (EVar "other")]))].

(** src/implementations/union/range_to_inclusive.rs *)
Definition impl_316 : impl := Impl (Some ("RangeUnion", "")) "RangeToInclusive" ["RangeUnion"; "Rangetools"] [("Set", "UnboundedSet")] [("Output", "UnboundedSet")]
  [
    (Fn "union" ByVal [(PBind "other")]
      (ECall "RangeUnion" "union" [(EMethod (EVar "self") "to_set" []); (EVar "other")]))].

(** src/implementations/union/range_to_inclusive.rs *)
Definition impl_317 : impl := Impl (Some ("RangeUnion", "")) "RangeToInclusive" ["RangeUnion"; "Rangetools"] [("Set", "UnboundedRange")] [("Output", "UnboundedRange")]
  [
    (Fn "union" ByVal [(PBind "other")]
      (ECall "RangeUnion" "union" [(EMethod (EVar "other") "to_set" []); (EVar "self")]))].

(** src/implementations/union/range_to_inclusive.rs *)
Definition impl_318 : impl := Impl (Some ("RangeUnion", "")) "RangeToInclusive" ["RangeUnion"; "Rangetools"] [("Set", "EmptyRange")] [("Output", "RangeToInclusive")]
  [
    (Fn "union" ByVal [(PBind "other")]
      (ECall "RangeUnion" "union" [(EMethod (EVar "other") "to_set" []); (EVar "self")]))].

(** src/implementations/union/unbounded_range.rs *)
Definition impl_319 : impl := Impl (Some ("RangeUnion", "")) "UnboundedRange" ["RangeUnion"; "Rangetools"] [] [("Output", "UnboundedRange")]
  [
    (Fn "union" ByVal [PWild]
      (EVar "self"))].

(** src/implementations/union/unbounded_set.rs *)
Definition impl_320 : impl := Impl (Some ("RangeUnion", "")) "UnboundedSet" ["RangeUnion"; "Rangetools"] [("Set", "BoundedSet")] [("Output", "UnboundedSet")]
  [
    (Fn "union" ByVal [(PBind "other")]
      (ECall "RangeUnion" "union" [(EMethod (EVar "other") "to_set" []); (EVar "self")]))].

(** src/implementations/union/unbounded_set.rs *)
Definition impl_321 : impl := Impl (Some ("RangeUnion", "")) "UnboundedSet" ["RangeUnion"; "Rangetools"] [("Set", "LowerBoundedSet")] [("Output", "UnboundedSet")]
  [
    (Fn "union" ByVal [(PBind "other")]
      (ECall "RangeUnion" "union" [(EMethod (EVar "other") "to_set" []); (EVar "self")]))].

(** src/implementations/union/unbounded_set.rs *)
Definition impl_322 : impl := Impl (Some ("RangeUnion", "")) "UnboundedSet" ["RangeUnion"; "Rangetools"] [("Set", "UpperBoundedSet")] [("Output", "UnboundedSet")]
  [
    (Fn "union" ByVal [(PBind "other")]
      (ECall "RangeUnion" "union" [(EMethod (EVar "other") "to_set" []); (EVar "self")]))].

(** src/implementations/union/unbounded_set.rs *)
Definition impl_323 : impl := Impl (Some ("RangeUnion", "")) "UnboundedSet" ["RangeUnion"; "Rangetools"] [("Set", "UnboundedSet")] [("Output", "UnboundedSet")]
  [
    (Fn "union" ByVal [(PBind "other")]
      (EBlock [(SExpr (EMethod (EVar "self") "add_unbounded_set" [(EMethod (EVar "other") "to_set" [])]))] (EVar "self")))].

(** src/implementations/union/unbounded_set.rs *)
Definition impl_324 : impl := Impl (Some ("RangeUnion", "")) "UnboundedSet" ["RangeUnion"; "Rangetools"] [("Set", "UnboundedRange")] [("Output", "UnboundedRange")]
  [
    (Fn "union" ByVal [(PBind "other")]
      (ECall "RangeUnion" "union" [(EMethod (EVar "other") "to_set" []); (EVar "self")]))].

(** src/implementations/union/unbounded_set.rs *)
Definition impl_325 : impl := Impl (Some ("RangeUnion", "")) "UnboundedSet" ["RangeUnion"; "Rangetools"] [("Set", "EmptyRange")] [("Output", "UnboundedSet")]
  [
    (Fn "union" ByVal [(PBind "other")]
      (ECall "RangeUnion" "union" [(EMethod (EVar "other") "to_set" []); (EVar "self")]))].

(** src/implementations/union/upper_bounded_range.rs *)
Definition impl_326 : impl := Impl (Some ("RangeUnion", "")) "UpperBoundedRange" ["RangeUnion"; "Rangetools"] [("Set", "BoundedSet")] [("Output", "UpperBoundedSet")]
  [
    (Fn "union" ByVal [(PBind "other")]
      (ECall "RangeUnion" "union" [(EMethod (EVar "self") "to_set" []); (EVar "other")]))].

(** src/implementations/union/upper_bounded_range.rs *)
Definition impl_327 : impl := Impl (Some ("RangeUnion", "")) "UpperBoundedRange" ["RangeUnion"; "Rangetools"] [("Set", "LowerBoundedSet")] [("Output", "UnboundedSet")]
  [
    (Fn "union" ByVal [(PBind "other")]
      (ECall "RangeUnion" "union" [(EMethod (EVar "self") "to_set" []); (EVar "other")]))].

(** src/implementations/union/upper_bounded_range.rs *)
Definition impl_328 : impl := Impl (Some ("RangeUnion", "")) "UpperBoundedRange" ["RangeUnion"; "Rangetools"] [("Set", "UpperBoundedSet")] [("Output", "UpperBoundedSet")]
  [
    (Fn "union" ByVal [(PBind "other")]
      (ECall "RangeUnion" "union" [(EMethod (EVar "self") "to_set" []); (EVar "other")]))].

(** src/implementations/union/upper_bounded_range.rs *)
Definition impl_329 : impl := Impl (Some ("RangeUnion", "")) "UpperBoundedRange" ["RangeUnion"; "Rangetools"] [("Set", "UnboundedSet")] [("Output", "UnboundedSet")]
  [
    (Fn "union" ByVal [(PBind "other")]
      (ECall "RangeUnion" "union" [(EMethod (EVar "self") "to_set" []); (EVar "other")]))].

(** src/implementations/union/upper_bounded_range.rs *)
Definition impl_330 : impl := Impl (Some ("RangeUnion", "")) "UpperBoundedRange" ["RangeUnion"; "Rangetools"] [("Set", "UnboundedRange")] [("Output", "UnboundedRange")]
  [
    (Fn "union" ByVal [(PBind "other")]
      (ECall "RangeUnion" "union" [(EMethod (EVar "other") "to_set" []); (EVar "self")]))].

(** src/implementations/union/upper_bounded_range.rs *)
Definition impl_331 : impl := Impl (Some ("RangeUnion", "")) "UpperBoundedRange" ["RangeUnion"; "Rangetools"] [("Set", "EmptyRange")] [("Output", "UpperBoundedRange")]
  [
    (Fn "union" ByVal [(PBind "other")]
      (ECall "RangeUnion" "union" [(EMethod (EVar "other") "to_set" []); (EVar "self")]))].

(** src/implementations/union/upper_bounded_set.rs *)
Definition impl_332 : impl := Impl (Some ("RangeUnion", "")) "UpperBoundedSet" ["RangeUnion"; "Rangetools"] [("Set", "BoundedSet")] [("Output", "UpperBoundedSet")]
  [
    (Fn "union" ByVal [(PBind "other")]
      (ECall "RangeUnion" "union" [(EMethod (EVar "other") "to_set" []); (EVar "self")]))].

(** src/implementations/union/upper_bounded_set.rs *)
Definition impl_333 : impl := Impl (Some ("RangeUnion", "")) "UpperBoundedSet" ["RangeUnion"; "Rangetools"] [("Set", "LowerBoundedSet")] [("Output", "UnboundedSet")]
  [
    (Fn "union" ByVal [(PBind "other")]
      (ECall "RangeUnion" "union" [(EMethod (EVar "other") "to_set" []); (EVar "self")]))].

(** src/implementations/union/upper_bounded_set.rs *)
Definition impl_334 : impl := Impl (Some ("RangeUnion", "")) "UpperBoundedSet" ["RangeUnion"; "Rangetools"] [("Set", "UpperBoundedSet")] [("Output", "UpperBoundedSet")]
  [
    (Fn "union" ByVal [(PBind "other")]
      (EBlock [(SLet (PBind "other") (EMethod (EVar "other") "to_set" [])); (SExpr (EMethod (EVar "self") "add_upper_bounded_range" [(EField (EVar "other") "upper_bounded_range")]))] (ECall "RangeUnion" "union" [(EVar "self"); (EField (EVar "other") "ranges")])))].

(** src/implementations/union/upper_bounded_set.rs *)
Definition impl_335 : impl := Impl (Some ("RangeUnion", "")) "UpperBoundedSet" ["RangeUnion"; "Rangetools"] [("Set", "UnboundedSet")] [("Output", "UnboundedSet")]
  [
    (Fn "union" ByVal [(PBind "other")]
      (EBlock [(SLet (PBind "set") (EMethod (EVar "other") "to_set" [])); (SExpr (EMethod (EVar "set") "add_upper_bounded_range" [(EField (EVar "self") "upper_bounded_range")]))] (ECall "RangeUnion" "union" [(EVar "set"); (EField (EVar "self") "ranges")])))].

(** src/implementations/union/upper_bounded_set.rs *)
Definition impl_336 : impl := Impl (Some ("RangeUnion", "")) "UpperBoundedSet" ["RangeUnion"; "Rangetools"] [("Set", "UnboundedRange")] [("Output", "UnboundedRange")]
  [
    (Fn "union" ByVal [(PBind "other")]
      (ECall "RangeUnion" "union" [(EMethod (EVar "other") "to_set" []); (EVar "self")]))].

(** src/implementations/union/upper_bounded_set.rs *)
Definition impl_337 : impl := Impl (Some ("RangeUnion", "")) "UpperBoundedSet" ["RangeUnion"; "Rangetools"] [("Set", "EmptyRange")] [("Output", "UpperBoundedSet")]
  [
    (Fn "union" ByVal [(PBind "other")]
      (ECall "RangeUnion" "union" [(EMethod (EVar "other") "to_set" []); (EVar "self")]))].

Definition source_traits : list (string * impl) := [("Rangetools", trait_Rangetools); ("Step", trait_Step)].

Definition source_impls : list impl := [
  impl_0;
  impl_1;
  impl_2;
  impl_3;
  impl_4;
  impl_5;
  impl_6;
  impl_7;
  impl_8;
  impl_9;
  impl_10;
  impl_11;
  impl_12;
  impl_13;
  impl_14;
  impl_15;
  impl_16;
  impl_17;
  impl_18;
  impl_19;
  impl_20;
  impl_21;
  impl_22;
  impl_23;
  impl_24;
  impl_25;
  impl_26;
  impl_27;
  impl_28;
  impl_29;
  impl_30;
  impl_31;
  impl_32;
  impl_33;
  impl_34;
  impl_35;
  impl_36;
  impl_37;
  impl_54;
  impl_55;
  impl_56;
  impl_57;
  impl_58;
  impl_59;
  impl_60;
  impl_61;
  impl_62;
  impl_63;
  impl_64;
  impl_65;
  impl_66;
  impl_67;
  impl_68;
  impl_69;
  impl_70;
  impl_71;
  impl_72;
  impl_73;
  impl_74;
  impl_75;
  impl_76;
  impl_77;
  impl_78;
  impl_79;
  impl_80;
  impl_81;
  impl_82;
  impl_83;
  impl_84;
  impl_85;
  impl_86;
  impl_87;
  impl_88;
  impl_89;
  impl_90;
  impl_91;
  impl_92;
  impl_93;
  impl_94;
  impl_95;
  impl_96;
  impl_97;
  impl_98;
  impl_99;
  impl_100;
  impl_101;
  impl_102;
  impl_103;
  impl_104;
  impl_105;
  impl_106;
  impl_107;
  impl_108;
  impl_109;
  impl_110;
  impl_111;
  impl_112;
  impl_113;
  impl_114;
  impl_115;
  impl_116;
  impl_117;
  impl_118;
  impl_119;
  impl_120;
  impl_121;
  impl_122;
  impl_123;
  impl_124;
  impl_125;
  impl_126;
  impl_127;
  impl_128;
  impl_129;
  impl_130;
  impl_131;
  impl_132;
  impl_133;
  impl_134;
  impl_135;
  impl_136;
  impl_137;
  impl_138;
  impl_139;
  impl_140;
  impl_141;
  impl_142;
  impl_143;
  impl_144;
  impl_145;
  impl_146;
  impl_147;
  impl_148;
  impl_149;
  impl_150;
  impl_151;
  impl_152;
  impl_153;
  impl_154;
  impl_155;
  impl_156;
  impl_157;
  impl_158;
  impl_159;
  impl_160;
  impl_161;
  impl_162;
  impl_163;
  impl_164;
  impl_165;
  impl_166;
  impl_167;
  impl_168;
  impl_169;
  impl_170;
  impl_171;
  impl_172;
  impl_173;
  impl_174;
  impl_175;
  impl_176;
  impl_177;
  impl_178;
  impl_179;
  impl_180;
  impl_181;
  impl_182;
  impl_183;
  impl_184;
  impl_185;
  impl_186;
  impl_187;
  impl_188;
  impl_189;
  impl_190;
  impl_191;
  impl_192;
  impl_193;
  impl_194;
  impl_195;
  impl_196;
  impl_197;
  impl_198;
  impl_199;
  impl_200;
  impl_201;
  impl_202;
  impl_203;
  impl_204;
  impl_205;
  impl_206;
  impl_207;
  impl_208;
  impl_209;
  impl_210;
  impl_211;
  impl_212;
  impl_213;
  impl_214;
  impl_215;
  impl_216;
  impl_217;
  impl_218;
  impl_219;
  impl_220;
  impl_221;
  impl_222;
  impl_223;
  impl_224;
  impl_225;
  impl_226;
  impl_227;
  impl_228;
  impl_229;
  impl_230;
  impl_231;
  impl_232;
  impl_233;
  impl_234;
  impl_235;
  impl_236;
  impl_237;
  impl_238;
  impl_239;
  impl_240;
  impl_241;
  impl_242;
  impl_243;
  impl_244;
  impl_245;
  impl_246;
  impl_247;
  impl_248;
  impl_249;
  impl_250;
  impl_251;
  impl_252;
  impl_253;
  impl_254;
  impl_255;
  impl_256;
  impl_257;
  impl_258;
  impl_259;
  impl_260;
  impl_261;
  impl_262;
  impl_263;
  impl_264;
  impl_265;
  impl_266;
  impl_267;
  impl_268;
  impl_269;
  impl_270;
  impl_271;
  impl_272;
  impl_273;
  impl_274;
  impl_275;
  impl_276;
  impl_277;
  impl_278;
  impl_279;
  impl_280;
  impl_281;
  impl_282;
  impl_283;
  impl_284;
  impl_285;
  impl_286;
  impl_287;
  impl_288;
  impl_289;
  impl_290;
  impl_291;
  impl_292;
  impl_293;
  impl_294;
  impl_295;
  impl_296;
  impl_297;
  impl_298;
  impl_299;
  impl_300;
  impl_301;
  impl_302;
  impl_303;
  impl_304;
  impl_305;
  impl_306;
  impl_307;
  impl_308;
  impl_309;
  impl_310;
  impl_311;
  impl_312;
  impl_313;
  impl_314;
  impl_315;
  impl_316;
  impl_317;
  impl_318;
  impl_319;
  impl_320;
  impl_321;
  impl_322;
  impl_323;
  impl_324;
  impl_325;
  impl_326;
  impl_327;
  impl_328;
  impl_329;
  impl_330;
  impl_331;
  impl_332;
  impl_333;
  impl_334;
  impl_335;
  impl_336;
  impl_337].

Definition source_step_impls_16 : list impl := [impl_38; impl_39; impl_40; impl_41; impl_46; impl_47; impl_48; impl_49; impl_50; impl_51; impl_52; impl_53].

Definition source_step_impls_32 : list impl := [impl_38; impl_39; impl_40; impl_41; impl_42; impl_43; impl_46; impl_47; impl_48; impl_49; impl_50; impl_51].

Definition source_step_impls_64 : list impl := [impl_38; impl_39; impl_40; impl_41; impl_42; impl_43; impl_44; impl_45; impl_46; impl_47; impl_48; impl_49].

