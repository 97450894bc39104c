(** The translated source of src/unbounded_set.rs, [UnboundedSet], run by the
    interpreter of RustEval.v, does what the model says. *)
From Coq Require Import String Lia.
From Verif Require Import Base ModelBound ModelRanges ModelSets ModelValue ModelStep ModelIter RustSyntax Source RustEval RustEnc
  RustTac RustRange RustSet.
Open Scope Z_scope.
Open Scope string_scope.
Open Scope list_scope.

Section UnboundedSet.
Context {T : Type} {PF : Platform} {OT : Ord T} {ST : Step T} (dflt : option T) (m : mode).
Notation calls := (calls dflt m).
Implicit Types (t : T) (p : PiecewiseUnboundedSet T) (s : UnboundedSet T).
(** [map_piecewise] of a function or a closure that changes what it is given. *)
Lemma c_us_map_piecewise_fn s f :
  calls (RFn (inh "UnboundedSet" "map_piecewise")
           [(f, enc_us s); (false, DFn "PiecewiseUnboundedSet" "defragment")])
    (s' <- us_map_piecewise s pus_defragment ;; Ret (AVal unit_val [Some (enc_us s'); None])).
Proof. unfold calls, us_map_piecewise. destruct s; open; run. Qed.
Lemma c_us_map_piecewise_clo g s ce sc ps b f :
  (forall p, calls (RClo ce sc ps b [(true, enc_pus p)]) (p' <- g p ;; Ret (AVal unit_val [Some (enc_pus p')]))) ->
  calls (RFn (inh "UnboundedSet" "map_piecewise") [(f, enc_us s); (false, DClo ce sc ps b)])
    (s' <- us_map_piecewise s g ;; Ret (AVal unit_val [Some (enc_us s'); None])).
Proof. intros H. unfold calls, us_map_piecewise. destruct s; open; run. Qed.
#[local] Hint Resolve c_us_map_piecewise_fn : calls.
Lemma c_us_defragment s f :
  calls (RFn (inh "UnboundedSet" "defragment") [(f, enc_us s)])
    (s' <- us_defragment s ;; Ret (AVal unit_val [Some (enc_us s')])).
Proof.
  unfold calls, us_defragment. step. destruct a; open; run.
Qed.
#[local] Hint Resolve c_us_defragment : calls.
Ltac by_clo g := node; eapply ends_call; [apply (c_us_map_piecewise_clo g); intros; unfold calls; run | after_call]; run.
Lemma c_us_add_range s r f :
  calls (RFn (inh "UnboundedSet" "add_range") [(f, enc_us s); (false, enc_br r)])
    (s' <- us_add_range s r ;; Ret (AVal unit_val [Some (enc_us s'); None])).
Proof.
  unfold calls, us_add_range.
  by_clo (fun p => ranges <- bs_add_range (pus_ranges p) r ;; Ret (PUS (pus_ubr p) ranges (pus_lbr p))).
Qed.
#[local] Hint Resolve c_us_add_range : calls.
Lemma c_us_add_lower_bounded_range s r f :
  calls (RFn (inh "UnboundedSet" "add_lower_bounded_range") [(f, enc_us s); (false, enc_lbr r)])
    (s' <- us_add_lower_bounded_range s r ;; Ret (AVal unit_val [Some (enc_us s'); None])).
Proof.
  unfold calls, us_add_lower_bounded_range.
  by_clo (fun p => Ret (PUS (pus_ubr p) (pus_ranges p) (LBR (lb_min (lbr_start (pus_lbr p)) (lbr_start r))))).
Qed.
Lemma c_us_add_upper_bounded_range s r f :
  calls (RFn (inh "UnboundedSet" "add_upper_bounded_range") [(f, enc_us s); (false, enc_ubr r)])
    (s' <- us_add_upper_bounded_range s r ;; Ret (AVal unit_val [Some (enc_us s'); None])).
Proof.
  unfold calls, us_add_upper_bounded_range.
  by_clo (fun p => Ret (PUS (UBR (ub_max (ubr_end (pus_ubr p)) (ubr_end r))) (pus_ranges p) (pus_lbr p))).
Qed.
Lemma c_us_add_set s o f :
  calls (RFn (inh "UnboundedSet" "add_set") [(f, enc_us s); (false, enc_bs o)])
    (s' <- us_add_set s o ;; Ret (AVal unit_val [Some (enc_us s'); None])).
Proof. unfold calls, us_add_set. by_for_on (@enc_br T) s (@us_add_range T OT). Qed.
#[local] Hint Resolve c_us_add_lower_bounded_range c_us_add_upper_bounded_range c_us_add_set : calls.
Lemma c_us_add_unbounded_set s o f :
  calls (RFn (inh "UnboundedSet" "add_unbounded_set") [(f, enc_us s); (false, enc_us o)])
    (s' <- us_add_unbounded_set s o ;; Ret (AVal unit_val [Some (enc_us s'); None])).
Proof. unfold calls, us_add_unbounded_set. destruct o; open; run. Qed.
End UnboundedSet.
#[export] Hint Resolve c_us_map_piecewise_fn c_us_defragment
  c_us_add_range c_us_add_lower_bounded_range c_us_add_upper_bounded_range c_us_add_set c_us_add_unbounded_set : calls.
