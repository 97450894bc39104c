(** Bounds, constructors and indexing: expressions of Rust text run on the translated source. *)
From Coq Require Import String.
From Verif Require Import Base ModelBound ModelRanges ModelSets ModelAlgebra ModelValue ModelStep ModelIter ModelConv ModelIndex
  RustSyntax Source RustEval RustEnc RustTac RustRange RustSet RustUnb RustSays RustIter RustIterSet RustIterClient.
Open Scope Z_scope.
Open Scope string_scope.
Open Scope list_scope.

Section Bounds.
Context {T : Type} {PF : Platform} {OT : Ord T} {ST : Step T} (dflt : option T) (m : mode).
Notation says_ := (says_ dflt m).
Notation calls := (calls dflt m).
Notation a_ n := (EMethod (EVar "a") n []).
Notation ab_ n := (EMethod (EVar "a") n [EVar "b"]).
Implicit Types (x y : LowerBound T) (u w : UpperBound T) (t : T).

Lemma s_lb_cmp x y : says_ [] (ab_ "cmp") [("a", enc_lb x); ("b", enc_lb y)] (Ret (ordering_val (lb_cmp x y))).
Proof. unfold says_. run. Qed.
Lemma s_ub_cmp u w : says_ [] (ab_ "cmp") [("a", enc_ub u); ("b", enc_ub w)] (Ret (ordering_val (ub_cmp u w))).
Proof. unfold says_. run. Qed.
Lemma s_lb_partial_cmp x y : says_ [] (ab_ "partial_cmp") [("a", enc_lb x); ("b", enc_lb y)] (Ret (some_val (ordering_val (lb_cmp x y)))).
Proof. unfold says_. run. Qed.
Lemma s_ub_partial_cmp u w : says_ [] (ab_ "partial_cmp") [("a", enc_ub u); ("b", enc_ub w)] (Ret (some_val (ordering_val (ub_cmp u w)))).
Proof. unfold says_. run. Qed.
Lemma s_lb_max x y : says_ [] (ab_ "max") [("a", enc_lb x); ("b", enc_lb y)] (Ret (enc_lb (lb_max x y))).
Proof. unfold says_. run. Qed.
Lemma s_lb_min x y : says_ [] (ab_ "min") [("a", enc_lb x); ("b", enc_lb y)] (Ret (enc_lb (lb_min x y))).
Proof. unfold says_. run. Qed.
Lemma s_ub_max u w : says_ [] (ab_ "max") [("a", enc_ub u); ("b", enc_ub w)] (Ret (enc_ub (ub_max u w))).
Proof. unfold says_. run. Qed.
Lemma s_ub_min u w : says_ [] (ab_ "min") [("a", enc_ub u); ("b", enc_ub w)] (Ret (enc_ub (ub_min u w))).
Proof. unfold says_. run. Qed.
Lemma s_flipped (b : Bound T) : says_ [] (a_ "flipped") [("a", enc_bound b)] (Ret (enc_bound (flipped b))).
Proof. unfold says_. run. Qed.
Lemma s_lb_to_bound x : says_ [] (a_ "to_bound") [("a", enc_lb x)] (Ret (enc_bound (lb_to_bound x))).
Proof. unfold says_. run. Qed.
Lemma s_ub_to_bound u : says_ [] (a_ "to_bound") [("a", enc_ub u)] (Ret (enc_bound (ub_to_bound u))).
Proof. unfold says_. run. Qed.
Lemma s_lb_excluded t : says_ [] (ECall "LowerBound" "excluded" [EVar "t"]) [("t", DElt t)] (Ret (enc_lb (lb_excluded t))).
Proof. unfold says_. run. Qed.
Lemma s_lb_included t : says_ [] (ECall "LowerBound" "included" [EVar "t"]) [("t", DElt t)] (Ret (enc_lb (lb_included t))).
Proof. unfold says_. run. Qed.
Lemma s_ub_excluded t : says_ [] (ECall "UpperBound" "excluded" [EVar "t"]) [("t", DElt t)] (Ret (enc_ub (ub_excluded t))).
Proof. unfold says_. run. Qed.
Lemma s_ub_included t : says_ [] (ECall "UpperBound" "included" [EVar "t"]) [("t", DElt t)] (Ret (enc_ub (ub_included t))).
Proof. unfold says_. run. Qed.
Lemma s_lb_from (b : Bound T) : says_ [] (ECall "LowerBound" "from" [EVar "a"]) [("a", enc_bound b)] (Ret (enc_lb (LB b))).
Proof. unfold says_. run. Qed.
Lemma s_ub_from (b : Bound T) : says_ [] (ECall "UpperBound" "from" [EVar "a"]) [("a", enc_bound b)] (Ret (enc_ub (UB b))).
Proof. unfold says_. run. Qed.
Lemma s_br_new x u : says_ [] (ECall "BoundedRange" "new" [EVar "a"; EVar "b"]) [("a", enc_lb x); ("b", enc_ub u)] (Ret (enc_br (br_new x u))).
Proof. unfold says_. run. Qed.
Lemma s_lbr_new x : says_ [] (ECall "LowerBoundedRange" "new" [EVar "a"]) [("a", enc_lb x)] (Ret (enc_lbr (lbr_new x))).
Proof. unfold says_. run. Qed.
Lemma s_ubr_new u : says_ [] (ECall "UpperBoundedRange" "new" [EVar "a"]) [("a", enc_ub u)] (Ret (enc_ubr (ubr_new u))).
Proof. unfold says_. run. Qed.
Lemma s_unbr_new : says_ [] (ECall "UnboundedRange" "new" []) [] (Ret (enc_unbr mkUnboundedRange)).
Proof. unfold says_. run. Qed.
Lemma s_empty_new : says_ [] (ECall "EmptyRange" "new" []) [] (Ret (enc_empty mkEmptyRange)).
Proof. unfold says_. run. Qed.
Lemma s_bs_empty : says_ [] (ECall "BoundedSet" "empty" []) [] (Ret (enc_bs bs_empty)).
Proof. unfold says_. run. Qed.
Lemma s_us_new (a : UpperBoundedRange T) (b : LowerBoundedRange T) :
  says_ [] (ECall "UnboundedSet" "new" [EVar "a"; EVar "b"]) [("a", enc_ubr a); ("b", enc_lbr b)] (Ret (enc_us (us_new a b))).
Proof. unfold says_. run. Qed.

Lemma c_empty_into_iter (r : EmptyRange) f :
  calls (RFn (it "IntoIterator" "EmptyRange" "into_iter") [(f, enc_empty r)]) (Ret (AVal (DCon "Empty" "Empty" []) [None])).
Proof. unfold calls. destruct r. run. Qed.
Lemma s_empty_into_iter (r : EmptyRange) : says_ [] (a_ "into_iter") [("a", enc_empty r)] (Ret (DCon "Empty" "Empty" [])).
Proof. unfold says_. destruct r. node; eapply ends_call; [apply (c_empty_into_iter mkEmptyRange) | after_call; run]. Qed.

(** [map]: [f] is a closure that computes [g]. *)
Section Map.
Context {V : Type} (enc : V -> val T) (g : T -> V) (ce : list (string * val T)) (sc : list string) (ps : list pat) (body : RustSyntax.expr).
(** A bound of other values. *)
Definition enc_bound_of (b : Bound V) : val T :=
  match b with
  | Excluded z => DCon "Bound" "Excluded" [("0", enc z)]
  | Included z => DCon "Bound" "Included" [("0", enc z)]
  end.
Definition enc_lb_of (b : LowerBound V) : val T := DCon "LowerBound" "LowerBound" [("0", enc_bound_of (lb_bound b))].
Definition enc_ub_of (b : UpperBound V) : val T := DCon "UpperBound" "UpperBound" [("0", enc_bound_of (ub_bound b))].
Hypothesis owned : forall (z : V) p, enc z <> DRef p.
Hypothesis clo : forall t, calls (RClo ce sc ps body [(false, DElt t)]) (Ret (AVal (enc (g t)) [None])).
Notation f_ := (DClo ce sc ps body).
Ltac maps := unfold enc_lb_of, enc_ub_of, lb_map, ub_map; cbn [lb_bound ub_bound bound_map]; unfold enc_bound_of; run.
Lemma c_bound_map (b : Bound T) f :
  calls (RFn (inh "Bound" "map") [(f, enc_bound b); (false, f_)]) (Ret (AVal (enc_bound_of (bound_map g b)) [None; None])).
Proof.
  unfold calls. destruct b as [t|t]; (node; eapply ends_call; [apply clo | after_call]; unfold bound_map, enc_bound_of;
    pose proof (owned (g t)) as N; destruct (enc (g t)); try (exfalso; eapply N; reflexivity); run).
Qed.
Lemma c_lb_map (b : LowerBound T) f :
  calls (RFn (inh "LowerBound" "map") [(f, enc_lb b); (false, f_)]) (Ret (AVal (enc_lb_of (lb_map g b)) [None; None])).
Proof. unfold calls. node; eapply ends_call; [apply c_bound_map | after_call]. destruct b as [[t|t]]; maps. Qed.
Lemma c_ub_map (b : UpperBound T) f :
  calls (RFn (inh "UpperBound" "map") [(f, enc_ub b); (false, f_)]) (Ret (AVal (enc_ub_of (ub_map g b)) [None; None])).
Proof. unfold calls. node; eapply ends_call; [apply c_bound_map | after_call]. destruct b as [[t|t]]; maps. Qed.
Notation m_ := (EMethod (EVar "a") "map" [EVar "f"]).
Lemma s_bound_map (b : Bound T) : says_ [] m_ [("a", enc_bound b); ("f", f_)] (Ret (enc_bound_of (bound_map g b))).
Proof. unfold says_. node; eapply ends_call; [apply c_bound_map | after_call]. destruct b as [t|t]; maps. Qed.
Lemma s_lb_map (b : LowerBound T) : says_ [] m_ [("a", enc_lb b); ("f", f_)] (Ret (enc_lb_of (lb_map g b))).
Proof. unfold says_. node; eapply ends_call; [apply c_lb_map | after_call]. destruct b as [[t|t]]; maps. Qed.
Lemma s_ub_map (b : UpperBound T) : says_ [] m_ [("a", enc_ub b); ("f", f_)] (Ret (enc_ub_of (ub_map g b))).
Proof. unfold says_. node; eapply ends_call; [apply c_ub_map | after_call]. destruct b as [[t|t]]; maps. Qed.
End Map.
End Bounds.

(** ** Indexing: what the index expression of an impl body computes *)
Section Index.
Context {PF : Platform} (m : mode).
Notation usize := (mint Usize).
Notation says_ := (says_ (Some default) m).
Implicit Types v : val usize.
Notation of ty := (ECall ty "from" [EVar "r"]).
Lemma s_ix_br v (r : BoundedRange usize) :
  says_ [] (of "Range") [("self", v); ("r", enc_br r)] (x <- range_from_br m r ;; Ret (enc_range x)).
Proof. unfold says_. runs_. Qed.
Lemma s_ix_lbr v (r : LowerBoundedRange usize) :
  says_ [] (of "RangeFrom") [("self", v); ("r", enc_lbr r)] (x <- range_from_from_lbr m r ;; Ret (enc_rf x)).
Proof. unfold says_. runs_. Qed.
Lemma s_ix_ubr v (r : UpperBoundedRange usize) :
  says_ [] (of "RangeTo") [("self", v); ("r", enc_ubr r)] (x <- range_to_from_ubr m r ;; Ret (enc_rt x)).
Proof. unfold says_. runs_. Qed.
Lemma s_ix_unbr v (r : UnboundedRange) :
  says_ [] (of "RangeFull") [("self", v); ("r", enc_unbr r)] (Ret (enc_rfull (range_full_from_unbr r))).
Proof. unfold says_. runs_. Qed.
Lemma s_ix_empty v (r : EmptyRange) :
  says_ [] (of "Range") [("self", v); ("r", enc_empty r)] (Ret (enc_range (range_from_empty r))).
Proof. unfold says_. node; eapply ends_call; [apply c_range_from_empty | after_call; run]. Qed.
End Index.
