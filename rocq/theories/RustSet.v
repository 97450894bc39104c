(** The source of the set types, run by RustEval.v, gives what the model functions
    of ModelSets.v give. *)
From Coq Require Import String.
From Verif Require Import Base ModelBound ModelRanges ModelSets ModelValue ModelStep ModelIter ModelConv
  RustSyntax Source RustEval RustEnc RustTac RustRange.
Open Scope Z_scope.
Open Scope string_scope.
Open Scope list_scope.

Lemma lb_gt_cmp {T : Type} {OT : Ord T} (x y : LowerBound T) :
  lb_gt x y = match lb_cmp x y with Gt => true | _ => false end.
Proof.
  unfold lb_gt, lb_cmp, lb_partial_cmp, t_partial_cmp.
  destruct (lb_bound x), (lb_bound y); cbn; try destruct (teq _ _); try destruct (cmp _ _); reflexivity.
Qed.

Section BoundedSet.
Context {T : Type} {PF : Platform} {OT : Ord T} {ST : Step T} (dflt : option T) (m : mode).
Notation calls := (calls dflt m).
Implicit Types (t : T) (s : BoundedSet T).

Lemma c_bs_empty : calls (RFn (inh "BoundedSet" "empty") []) (Ret (AVal (enc_bs bs_empty) [])).
Proof. unfold calls. run. Qed.
#[local] Hint Resolve c_bs_empty : calls.
Lemma c_bs_from_br r : calls (RFn (froms "BoundedRange" "BoundedSet") [(false, enc_br r)])
  (Ret (AVal (enc_bs (bs_from_br r)) [None])).
Proof. unfold calls, bs_from_br. run. Qed.
Lemma c_bs_is_empty s f : calls (RFn (rt "BoundedSet" "is_empty") [(f, enc_bs s)])
  (Ret (AVal (DBool (bs_is_empty s)) [None])).
Proof. unfold calls, bs_is_empty. by_turn (calls_all dflt m) (@enc_br T) (@br_is_empty T OT). Qed.
Lemma c_bs_contains s t f : calls (RFn (inh "BoundedSet" "contains") [(f, enc_bs s); (false, DElt t)])
  (Ret (AVal (DBool (bs_contains s t)) [None; None])).
Proof. unfold calls, bs_contains. by_turn (calls_any dflt m) (@enc_br T) (fun r => br_contains r t). Qed.
Lemma c_bs_add_range_fuel fuel : forall s r f,
  calls (RFn (inh "BoundedSet" "add_range") [(f, enc_bs s); (false, enc_br r)])
    (l <- bs_add_range_fuel fuel (bs_ranges s) r ;; Ret (AVal unit_val [Some (enc_bs (BS l)); None])).
Proof.
  induction fuel as [|fuel IH]; intros s r f; [exact Logic.I|]. unfold calls. cbn [bs_add_range_fuel].
  run. by_turn (calls_position dflt m) (@enc_br T) (fun range => br_intersects_br range r).
  rewrite (position_ext _ _ _ (fun range => lb_gt_cmp (br_start range) (br_start r))).
  by_turn (calls_position dflt m) (@enc_br T)
    (fun range => match lb_cmp (br_start range) (br_start r) with Gt => true | _ => false end).
Qed.
Lemma c_bs_add_range s r f :
  calls (RFn (inh "BoundedSet" "add_range") [(f, enc_bs s); (false, enc_br r)])
    (s' <- bs_add_range s r ;; Ret (AVal unit_val [Some (enc_bs s'); None])).
Proof.
  unfold bs_add_range. pose proof (c_bs_add_range_fuel (S (length (bs_ranges s))) s r f) as H.
  destruct (bs_add_range_fuel _ _ _); exact H.
Qed.
#[local] Hint Resolve c_bs_add_range : calls.
Lemma c_bs_add_set s o f :
  calls (RFn (inh "BoundedSet" "add_set") [(f, enc_bs s); (false, enc_bs o)])
    (s' <- bs_add_set s o ;; Ret (AVal unit_val [Some (enc_bs s'); None])).
Proof.
  unfold calls, bs_add_set.
  by_for_on (@enc_br T) s (@bs_add_range T OT).
Qed.
End BoundedSet.
#[export] Hint Resolve c_bs_empty c_bs_from_br c_bs_is_empty c_bs_contains c_bs_add_range c_bs_add_set : calls.

Section LowerBoundedSet.
Context {T : Type} {PF : Platform} {OT : Ord T} {ST : Step T} (dflt : option T) (m : mode).
Notation calls := (calls dflt m).
Implicit Types (t : T) (s : LowerBoundedSet T).

Lemma c_lbs_from_lbr r : calls (RFn (froms "LowerBoundedRange" "LowerBoundedSet") [(false, enc_lbr r)])
  (Ret (AVal (enc_lbs (lbs_from_lbr r)) [None])).
Proof. unfold calls. run. Qed.
Lemma c_lbs_defragment s f :
  calls (RFn (inh "LowerBoundedSet" "defragment") [(f, enc_lbs s)])
    (s' <- lbs_defragment s ;; Ret (AVal unit_val [Some (enc_lbs s')])).
Proof.
  unfold lbs_defragment. generalize (S (length (bs_ranges (lbs_ranges s)))) as fuel. intros fuel.
  unfold calls. node.
  lazymatch goal with
  | |- ends _ _ (Call (RWhile ?sc ?c ?b _) _) _ =>
    assert (L : forall fuel s, calls (RWhile sc c b [("self", DRef ("%self", [])); ("%self", enc_lbs s)])
       (s' <- lbs_defragment_fuel fuel s ;;
        Ret (AEnv (if bs_is_empty (lbs_ranges s') then N unit_val else Rtn unit_val)
               [("self", DRef ("%self", [])); ("%self", enc_lbs s')])))
  end.
  { clear. induction fuel as [|fuel IH]; intros s; [exact Logic.I|]. unfold calls. cbn [lbs_defragment_fuel]. lazymatch type of IH with ?P => change (later P) in IH end. run. }
  eapply ends_call; [apply (L fuel)|]. after_call. destruct (bs_is_empty _); run.
Qed.
#[local] Hint Resolve c_lbs_defragment : calls.
Lemma c_lbs_add_range s r f :
  calls (RFn (inh "LowerBoundedSet" "add_range") [(f, enc_lbs s); (false, enc_br r)])
    (s' <- lbs_add_range s r ;; Ret (AVal unit_val [Some (enc_lbs s'); None])).
Proof. unfold calls, lbs_add_range. run. Qed.
#[local] Hint Resolve c_lbs_add_range : calls.
Lemma c_lbs_add_lower_bounded_range s r f :
  calls (RFn (inh "LowerBoundedSet" "add_lower_bounded_range") [(f, enc_lbs s); (false, enc_lbr r)])
    (s' <- lbs_add_lower_bounded_range s r ;; Ret (AVal unit_val [Some (enc_lbs s'); None])).
Proof. unfold calls, lbs_add_lower_bounded_range. run. Qed.
Lemma c_lbs_add_set s o f :
  calls (RFn (inh "LowerBoundedSet" "add_set") [(f, enc_lbs s); (false, enc_bs o)])
    (s' <- lbs_add_set s o ;; Ret (AVal unit_val [Some (enc_lbs s'); None])).
Proof. unfold calls, lbs_add_set. by_for_on (@enc_br T) s (@lbs_add_range T OT). Qed.
Lemma c_lbs_contains s t f :
  calls (RFn (inh "LowerBoundedSet" "contains") [(f, enc_lbs s); (false, DElt t)])
    (Ret (AVal (DBool (lbs_contains s t)) [None; None])).
Proof. unfold calls, lbs_contains. run. Qed.
End LowerBoundedSet.
#[export] Hint Resolve c_lbs_from_lbr c_lbs_defragment c_lbs_add_range c_lbs_add_lower_bounded_range
  c_lbs_add_set c_lbs_contains : calls.

Section UpperBoundedSet.
Context {T : Type} {PF : Platform} {OT : Ord T} {ST : Step T} (dflt : option T) (m : mode).
Notation calls := (calls dflt m).
Implicit Types (t : T) (s : UpperBoundedSet T).

Lemma c_ubs_from_ubr r : calls (RFn (froms "UpperBoundedRange" "UpperBoundedSet") [(false, enc_ubr r)])
  (Ret (AVal (enc_ubs (ubs_from_ubr r)) [None])).
Proof. unfold calls. run. Qed.
Lemma c_ubs_defragment s f :
  calls (RFn (inh "UpperBoundedSet" "defragment") [(f, enc_ubs s)])
    (s' <- ubs_defragment s ;; Ret (AVal unit_val [Some (enc_ubs s')])).
Proof.
  unfold ubs_defragment. generalize (S (length (bs_ranges (ubs_ranges s)))) as fuel. intros fuel.
  unfold calls. node.
  lazymatch goal with
  | |- ends _ _ (Call (RWhile ?sc ?c ?b _) _) _ =>
    assert (L : forall fuel s, calls (RWhile sc c b [("self", DRef ("%self", [])); ("%self", enc_ubs s)])
       (s' <- ubs_defragment_fuel fuel s ;;
        Ret (AEnv (if bs_is_empty (ubs_ranges s') then N unit_val else Rtn unit_val)
               [("self", DRef ("%self", [])); ("%self", enc_ubs s')])))
  end.
  { clear. induction fuel as [|fuel IH]; intros s; [exact Logic.I|]. unfold calls. cbn [ubs_defragment_fuel]. lazymatch type of IH with ?P => change (later P) in IH end. run. }
  eapply ends_call; [apply (L fuel)|]. after_call. destruct (bs_is_empty _); run.
Qed.
#[local] Hint Resolve c_ubs_defragment : calls.
Lemma c_ubs_add_range s r f :
  calls (RFn (inh "UpperBoundedSet" "add_range") [(f, enc_ubs s); (false, enc_br r)])
    (s' <- ubs_add_range s r ;; Ret (AVal unit_val [Some (enc_ubs s'); None])).
Proof. unfold calls, ubs_add_range. run. Qed.
#[local] Hint Resolve c_ubs_add_range : calls.
Lemma c_ubs_add_upper_bounded_range s r f :
  calls (RFn (inh "UpperBoundedSet" "add_upper_bounded_range") [(f, enc_ubs s); (false, enc_ubr r)])
    (s' <- ubs_add_upper_bounded_range s r ;; Ret (AVal unit_val [Some (enc_ubs s'); None])).
Proof. unfold calls, ubs_add_upper_bounded_range. run. Qed.
Lemma c_ubs_add_set s o f :
  calls (RFn (inh "UpperBoundedSet" "add_set") [(f, enc_ubs s); (false, enc_bs o)])
    (s' <- ubs_add_set s o ;; Ret (AVal unit_val [Some (enc_ubs s'); None])).
Proof. unfold calls, ubs_add_set. by_for_on (@enc_br T) s (@ubs_add_range T OT). Qed.
Lemma c_ubs_contains s t f :
  calls (RFn (inh "UpperBoundedSet" "contains") [(f, enc_ubs s); (false, DElt t)])
    (Ret (AVal (DBool (ubs_contains s t)) [None; None])).
Proof. unfold calls, ubs_contains. run. Qed.
End UpperBoundedSet.
#[export] Hint Resolve c_ubs_from_ubr c_ubs_defragment c_ubs_add_range c_ubs_add_upper_bounded_range
  c_ubs_add_set c_ubs_contains : calls.

Section UnboundedSet.
Context {T : Type} {PF : Platform} {OT : Ord T} {ST : Step T} (dflt : option T) (m : mode).
Notation calls := (calls dflt m).
Implicit Types (t : T) (p : PiecewiseUnboundedSet T) (s : UnboundedSet T).

Lemma c_pus_contains p t f :
  calls (RFn (inh "PiecewiseUnboundedSet" "contains") [(f, enc_pus p); (false, DElt t)])
    (Ret (AVal (DBool (pus_contains p t)) [None; None])).
Proof. unfold calls, pus_contains. run. Qed.
Lemma c_pus_defragment p f :
  calls (RFn (inh "PiecewiseUnboundedSet" "defragment") [(f, enc_pus p)])
    (s' <- pus_defragment p ;; Ret (AVal unit_val [Some (enc_pus s')])).
Proof.
  unfold pus_defragment. generalize (S (length (bs_ranges (pus_ranges p)))) as fuel. intros fuel.
  revert p f. induction fuel as [|fuel IH]; intros p f; [exact Logic.I|]. unfold calls. cbn [pus_defragment_fuel].
  by_turn (calls_position dflt m) (@enc_br T) (fun r => ubr_intersects_br (pus_ubr p) r).
  by_turn (calls_position dflt m) (@enc_br T) (fun r => lbr_intersects_br (pus_lbr p) r).
Qed.
#[local] Hint Resolve c_pus_contains c_pus_defragment : calls.
Lemma c_us_from_unbr r : calls (RFn (froms "UnboundedRange" "UnboundedSet") [(false, enc_unbr r)])
  (Ret (AVal (enc_us (us_from_unbr r)) [None])).
Proof. unfold calls. run. Qed.
Lemma c_us_new u l : calls (RFn (inh "UnboundedSet" "new") [(false, enc_ubr u); (false, enc_lbr l)])
  (Ret (AVal (enc_us (us_new u l)) [None; None])).
Proof. unfold calls, us_new. run. Qed.
Lemma c_us_contains s t f :
  calls (RFn (inh "UnboundedSet" "contains") [(f, enc_us s); (false, DElt t)])
    (Ret (AVal (DBool (us_contains s t)) [None; None])).
Proof. unfold calls, us_contains. destruct s; open; run. Qed.
End UnboundedSet.
#[export] Hint Resolve c_pus_contains c_pus_defragment c_us_from_unbr c_us_new c_us_contains : calls.
