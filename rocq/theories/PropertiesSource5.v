(** More about the translated source: a method call in it can mean only one function
    (C69), and no loop over a range of chars runs forever, in any build (C72). *)
From Coq Require Import String Lia ZifyBool.
From Verif Require Import Base ModelBound ModelRanges ModelSets ModelAlgebra ModelValue ModelStep ModelIter ModelConv
  Instances InstancesStep Spec SpecStep SpecIter Reach
  RustSyntax Source RustEval RustEnc RustTac RustRuns RustSays RustIter RustIterSet RustIterClient RustIterLoop RustForever
  RustCoherence StepProofs IterLemmas StepLemmas IterForever PropertiesSource PropertiesSource2 PropertiesSource4.
Open Scope Z_scope.
Open Scope string_scope.
Open Scope list_scope.

(** ** C69: no call is ambiguous.

    RustEval.v finds the function a method call means by searching the impls in the order
    of the source.  [candidate] (RustCoherence.v) says without any order what the call can
    mean by the rules of Rust.  For every method call in the text of the crate, whatever
    the types of its receiver and operands, there is at most one candidate, and the search
    finds it if there is one. *)
Theorem C69_calls_unambiguous {PF : Platform} sc ty n args k : In (sc, n) source_calls ->
  (candidate sc ty n args k <-> resolve_method sc ty n args = Some k) /\
  (forall k', candidate sc ty n args k -> candidate sc ty n args k' -> k = k').
Proof.
  intros H. split; [split|].
  - apply candidate_resolve, H.
  - apply resolve_candidate.
  - intros k' C C'. eapply one_candidate; eauto.
Qed.
(** A function called by its path, with an operand: at most one impl has it and applies. *)
Theorem C69_impls_unambiguous {PF : Platform} ty n args i j : n <> "index" -> n <> "index_mut" -> args <> [] ->
  In i (impls ty) -> In j (impls ty) -> impl_self i = ty -> impl_self j = ty -> has_fn n i = true -> has_fn n j = true ->
  applies args i = true -> applies args j = true -> i = j.
Proof. intros. eapply one_impl; eauto. Qed.
(** [c.to_inner()] in union/bounded_set.rs, with a [Range] or a [BoundedSet] for [c]; [x.max(y)] on bounds is
    the function [Ord] provides, on an iterator its own; there are 100 different calls. *)
Example C69_calls_unambiguous_ex :
  In (["RangeUnion"; "Rangetools"], "to_set") source_calls /\
  resolve_method (PF := pf64) ["RangeUnion"; "Rangetools"] "Range" "to_set" [] = Some (KFn (Some ("Rangetools", "")) "Range" [] "to_set") /\
  resolve_method (PF := pf64) [] "LowerBound" "max" ["LowerBound"] = Some (KDefault "Ord" "max") /\
  resolve_method (PF := pf64) [] "BoundedRangeIter" "max" [] = Some (KFn (Some ("Iterator", "")) "BoundedRangeIter" [] "max") /\
  resolve_method (PF := pf64) ["Rangetools"] "BoundedRange" "unheard_of" [] = None /\
  length (once source_calls) = 100%nat.
Proof.
  split; [|vm_compute; repeat split].
  assert (existsb (same_call (["RangeUnion"; "Rangetools"], "to_set")) source_calls = true) as H by (vm_compute; reflexivity).
  apply existsb_exists in H as (d & Hd & E). apply same_call_eq in E as ->. exact Hd.
Qed.
(** Six impls have [union] for [BoundedRange]; with a [Range] for an operand one of them applies. *)
Example C69_impls_unambiguous_ex :
  length (filter (fun i => has_fn "union" i) (impls_for (PF := pf64) "BoundedRange")) = 6%nat /\
  length (filter (fun i => if has_fn "union" i then applies (PF := pf64) ["Range"] i else false) (impls_for (PF := pf64) "BoundedRange")) = 1%nat.
Proof. vm_compute. split; reflexivity. Qed.

(** ** C72: chars *)
Section Chars.
Context (PF : Platform) (dflt : option chr) (m : mode).
Notation loop := (loop_of (EMethod (EVar "a") "into_iter" [])).
(** A loop over a range of chars does the same in every build: it ends, or panics; over a lower-bounded range it panics. *)
Theorem C72_char_ranges :
  (forall r : BoundedRange chr, exists v, forall m', says dflt m' [] loop [("a", enc_br r)] v) /\
  (forall r : LowerBoundedRange chr, says dflt m [] loop [("a", enc_lbr r)] Panic).
Proof.
  pose proof C70_char_steps_end as SE. split; intros r.
  - destruct (br_into_iter Debug r) as [i| |] eqn:E.
    + destruct (range_comes _ _ _ _ _ _ r i E) as [o D]. eexists. intros m'.
      apply (C72_range_loop dflt m' (SE m') r i); [exact E|]. exists o. split; [exact D|reflexivity].
    + exists Panic. intros m'. exact (p_br dflt m' r E).
    + destruct (nd_br_into_iter Debug (SE Debug) r E).
  - assert (G : exists g : chr, greatest g).
    { exists (MC 0x10FFFF eq_refl). intros [c H]. apply le_idx. unfold idx, NumberedChr, cidx, cval.
      apply orb_prop in H. repeat match goal with |- context [if ?b then _ else _] => destruct b eqn:? end; lia. }
    destruct G as [g G]. destruct (lbr_into_iter Debug r) as [i| |] eqn:E.
    + apply (C72_lower_range_loop dflt m (SE m) r i E). exists Panic. split; [exact (lbri_reaches g G i)|reflexivity].
    + exact (p_lbr dflt m r E).
    + destruct (nd_lbr_into_iter Debug (SE Debug) r E).
Qed.
End Chars.
(** ['a'..='c'] ends; up to [char::MAX] the loop panics in a release build too. *)
Definition abc : BoundedRange chr := BR (LB (Included (ch 97))) (UB (Included (ch 99))).
Definition last_chars : BoundedRange chr := BR (LB (Included (ch 0x10FFFE))) (UB (Included (ch 0x10FFFF))).
#[local] Existing Instance pf64.
Definition char_loop (mo : mode) (r : BoundedRange chr) : option (outcome (ans chr)) :=
  exec None mo 20 (text_of None mo [] (loop_of (EMethod (EVar "a") "into_iter" [])) [("a", enc_br r)]).
Example C72_char_ranges_ex :
  char_loop Release abc = Some (Ret (AVal (DList (map DElt [ch 99; ch 98; ch 97])) [])) /\ char_loop Release last_chars = Some Panic /\ char_loop Debug last_chars = Some Panic.
Proof. vm_compute. repeat split; reflexivity. Qed.
Print Assumptions C69_calls_unambiguous.
Print Assumptions C69_impls_unambiguous.
Print Assumptions C72_char_ranges.
