(** The source of the conversions to std's ranges and of the iterators over ranges, run by RustEval.v,
    gives what the model functions of ModelConv.v and ModelIter.v give. *)
From Coq Require Import String.
From Verif Require Import Base ModelBound ModelRanges ModelSets ModelValue ModelStep ModelIter ModelConv
  RustSyntax Source RustEval RustEnc RustTac RustRange.
Open Scope Z_scope.
Open Scope string_scope.
Open Scope list_scope.

Notation it t ty n := (KFn (Some (t, "")) ty [] n).
Definition enc_hint {T : Type} (h : Z * option Z) : val T :=
  DCon "tuple" "tuple" [("0", DInt "usize" (fst h)); ("1", enc_opt (DInt "usize") (snd h))].
Ltac again :=
  unfold lb_to_bound, ub_to_bound;
  lazymatch goal with |- ends ?d ?m ?p ?o => let p' := norm p in change_no_check (ends d m p' o) end.
Ltac runb := repeat (first [step | again; step]); run.
Ltac pairs := repeat match goal with p : (option _ * _)%type |- _ => destruct p as [[?|] ?]; cbn [fst snd]
                | h : (Z * option Z)%type |- _ => destruct h as [? [?|]]; unfold enc_hint; cbn [fst snd] end.
Ltac runi := repeat (step; pairs); run.

Section Conv.
Context {T : Type} {PF : Platform} {OT : Ord T} {ST : Step T} (dflt : option T) (m : mode).
Notation calls := (calls dflt m).

(** ** Conversions to std's ranges *)
Lemma c_range_from_br r : calls (RFn (froms "BoundedRange" "Range") [(false, enc_br r)])
  (x <- range_from_br m r ;; Ret (AVal (enc_range x) [None])).
Proof. unfold calls, range_from_br. destruct r as [[[]] [[]]]; runb. Qed.
Lemma c_ri_from_br r : calls (RFn (froms "BoundedRange" "RangeInclusive") [(false, enc_br r)])
  (x <- range_inclusive_from_br m r ;; Ret (AVal (enc_ri x) [None])).
Proof. unfold calls, range_inclusive_from_br. destruct r as [[[]] [[]]]; runb. Qed.
Lemma c_rf_from_lbr r : calls (RFn (froms "LowerBoundedRange" "RangeFrom") [(false, enc_lbr r)])
  (x <- range_from_from_lbr m r ;; Ret (AVal (enc_rf x) [None])).
Proof. unfold calls, range_from_from_lbr. destruct r as [[[]]]; runb. Qed.
Lemma c_rt_from_ubr r : calls (RFn (froms "UpperBoundedRange" "RangeTo") [(false, enc_ubr r)])
  (x <- range_to_from_ubr m r ;; Ret (AVal (enc_rt x) [None])).
Proof. unfold calls, range_to_from_ubr. destruct r as [[[]]]; runb. Qed.
Lemma c_rti_from_ubr r : calls (RFn (froms "UpperBoundedRange" "RangeToInclusive") [(false, enc_ubr r)])
  (x <- range_to_inclusive_from_ubr m r ;; Ret (AVal (enc_rti x) [None])).
Proof. unfold calls, range_to_inclusive_from_ubr. destruct r as [[[]]]; runb. Qed.
End Conv.
#[export] Hint Resolve c_range_from_br c_ri_from_br c_rf_from_lbr c_rt_from_ubr c_rti_from_ubr : calls.

Section ConvEmpty.
Context {T : Type} {PF : Platform} {OT : Ord T} {ST : Step T} {DT : Default T} (m : mode).
Notation calls := (calls (Some default) m).
Lemma c_range_from_empty r : calls (RFn (froms "EmptyRange" "Range") [(false, enc_empty r)])
  (Ret (AVal (enc_range (range_from_empty r)) [None])).
Proof. unfold calls. run. Qed.
Lemma c_ri_from_empty r : calls (RFn (froms "EmptyRange" "RangeInclusive") [(false, enc_empty r)])
  (x <- range_inclusive_from_empty m r ;; Ret (AVal (enc_ri x) [None])).
Proof. unfold calls, range_inclusive_from_empty. run. Qed.
End ConvEmpty.

Section Iter.
Context {T : Type} {PF : Platform} {OT : Ord T} {ST : Step T} (dflt : option T) (m : mode).
Notation calls := (calls dflt m).
Implicit Types (i : BoundedRangeIter T) (j : LowerBoundedRangeIter T).

(** ** Iterators over ranges *)
Lemma c_br_into_iter r f : calls (RFn (it "IntoIterator" "BoundedRange" "into_iter") [(f, enc_br r)])
  (x <- br_into_iter m r ;; Ret (AVal (enc_bri x) [None])).
Proof. unfold calls, br_into_iter. destruct r as [[[]] [[]]]; cbn [br_start br_end]; run. Qed.
Lemma c_bri_next i f : calls (RFn (it "Iterator" "BoundedRangeIter" "next") [(f, enc_bri i)])
  (p <- bri_next m i ;; Ret (AVal (enc_opt (@DElt T) (fst p)) [Some (enc_bri (snd p))])).
Proof. unfold calls, bri_next. run. Qed.
Lemma c_bri_next_back i f : calls (RFn (it "DoubleEndedIterator" "BoundedRangeIter" "next_back") [(f, enc_bri i)])
  (p <- bri_next_back m i ;; Ret (AVal (enc_opt (@DElt T) (fst p)) [Some (enc_bri (snd p))])).
Proof. unfold calls, bri_next_back. run. Qed.
Lemma c_bri_size_hint i f : calls (RFn (it "Iterator" "BoundedRangeIter" "size_hint") [(f, enc_bri i)])
  (h <- bri_size_hint m i ;; Ret (AVal (enc_hint h) [None])).
Proof. unfold calls, bri_size_hint. run. Qed.
Lemma c_bri_last i f : calls (RFn (it "Iterator" "BoundedRangeIter" "last") [(f, enc_bri i)])
  (Ret (AVal (enc_opt (@DElt T) (bri_last i)) [None])).
Proof. unfold calls, bri_last. run. Qed.
#[local] Hint Resolve c_bri_next c_bri_next_back c_bri_size_hint : calls.
Lemma c_bri_nth i n f : calls (RFn (it "Iterator" "BoundedRangeIter" "nth") [(f, enc_bri i); (false, DInt "usize" n)])
  (p <- bri_nth m i n ;; Ret (AVal (enc_opt (@DElt T) (fst p)) [Some (enc_bri (snd p)); None])).
Proof. unfold calls, bri_nth. runi. Qed.
Lemma c_bri_nth_back i n f :
  calls (RFn (it "DoubleEndedIterator" "BoundedRangeIter" "nth_back") [(f, enc_bri i); (false, DInt "usize" n)])
  (p <- bri_nth_back m i n ;; Ret (AVal (enc_opt (@DElt T) (fst p)) [Some (enc_bri (snd p)); None])).
Proof. unfold calls, bri_nth_back. runi. Qed.
Lemma c_bri_len i f : calls (RFn (KDefault "ExactSizeIterator" "len") [(f, enc_bri i)])
  (n <- bri_len m i ;; Ret (AVal (DInt "usize" n) [None])).
Proof. unfold calls, bri_len, exact_len. runi. Qed.
#[local] Hint Resolve c_bri_len : calls.
Lemma c_bri_count i f : calls (RFn (it "Iterator" "BoundedRangeIter" "count") [(f, enc_bri i)])
  (n <- bri_count m i ;; Ret (AVal (DInt "usize" n) [None])).
Proof. unfold calls, bri_count. runi. Qed.
Lemma c_bri_min i f : calls (RFn (it "Iterator" "BoundedRangeIter" "min") [(f, enc_bri i)])
  (x <- bri_min m i ;; Ret (AVal (enc_opt (@DElt T) x) [None])).
Proof. unfold calls, bri_min. runi. Qed.
Lemma c_bri_max i f : calls (RFn (it "Iterator" "BoundedRangeIter" "max") [(f, enc_bri i)])
  (x <- bri_max m i ;; Ret (AVal (enc_opt (@DElt T) x) [None])).
Proof. unfold calls, bri_max. runi. Qed.

Lemma c_lbr_into_iter r f : calls (RFn (it "IntoIterator" "LowerBoundedRange" "into_iter") [(f, enc_lbr r)])
  (x <- lbr_into_iter m r ;; Ret (AVal (enc_lbri x) [None])).
Proof. unfold calls, lbr_into_iter. destruct r as [[[]]]; cbn [lbr_start]; run. Qed.
Lemma c_lbri_next j f : calls (RFn (it "Iterator" "LowerBoundedRangeIter" "next") [(f, enc_lbri j)])
  (p <- lbri_next m j ;; Ret (AVal (enc_opt (@DElt T) (fst p)) [Some (enc_lbri (snd p))])).
Proof. unfold calls, lbri_next. run. Qed.
Lemma c_lbri_size_hint j f : calls (RFn (it "Iterator" "LowerBoundedRangeIter" "size_hint") [(f, enc_lbri j)])
  (Ret (AVal (enc_hint (lbri_size_hint j)) [None])).
Proof. unfold calls. run. Qed.
#[local] Hint Resolve c_lbri_next : calls.
Lemma c_lbri_nth j n f : calls (RFn (it "Iterator" "LowerBoundedRangeIter" "nth") [(f, enc_lbri j); (false, DInt "usize" n)])
  (p <- lbri_nth m j n ;; Ret (AVal (enc_opt (@DElt T) (fst p)) [Some (enc_lbri (snd p)); None])).
Proof. unfold calls, lbri_nth. runi. Qed.
Lemma c_lbri_min j f : calls (RFn (it "Iterator" "LowerBoundedRangeIter" "min") [(f, enc_lbri j)])
  (x <- lbri_min m j ;; Ret (AVal (enc_opt (@DElt T) x) [None])).
Proof. unfold calls, lbri_min. runi. Qed.
End Iter.
#[export] Hint Resolve c_br_into_iter c_bri_next c_bri_next_back c_bri_size_hint c_bri_last c_bri_nth c_bri_nth_back
  c_bri_len c_bri_count c_bri_min c_bri_max c_lbr_into_iter c_lbri_next c_lbri_size_hint c_lbri_nth c_lbri_min : calls.
