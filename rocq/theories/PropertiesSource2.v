(** C70: the iterators, conversions and [Step] of the model are what the source says.
    As in PropertiesSource.v (C69), calls of Rust text are run by RustEval.v on Source.v,
    the translated text of the crate; they give the value of the model function and leave
    the iterator in the state of the model function, for all values, element types,
    platforms and builds. *)
From Coq Require Import String.
From Verif Require Import Base ModelBound ModelRanges ModelSets ModelAlgebra ModelValue ModelStep ModelIter ModelConv
  Instances InstancesStep Spec SpecStep SpecIter Reach
  RustSyntax Source RustEval RustEnc RustTac RustRuns RustSays RustIter RustIterSet RustStepChar RustIterClient RustIterLoop
  IterProofs IterProofs4 AdaptProofs2 PropertiesSource PropertiesIter PropertiesAdapt.
Open Scope Z_scope.
Open Scope string_scope.
Open Scope list_scope.

(** A [Step] impl whose [forward] and [backward] come to an end (with a value or a panic);
    those of the crate do. *)
Definition steps_end (T : Type) {PF : Platform} {OT : Ord T} {ST : Step T} (m : mode) : Prop :=
  forall (t : T) n, forward m t n <> Diverge /\ backward m t n <> Diverge.
Lemma op_result_ends {PF : Platform} m ty z : op_result m ty z <> Diverge.
Proof. unfold op_result. destruct of_z, m; discriminate. Qed.
Theorem C70_int_steps_end {PF : Platform} (ty : ity) m : steps_end (mint ty) m.
Proof.
  intros t n. cbn [forward backward StepMint]. unfold int_forward, int_backward. split.
  - destruct int_forward_checked; [discriminate|]. pose proof (op_result_ends m ty (imax ty + 1)). destruct op_result; cbn; congruence.
  - destruct int_backward_checked; [discriminate|]. pose proof (op_result_ends m ty (imin ty - 1)). destruct op_result; cbn; congruence.
Qed.
Theorem C70_char_steps_end {PF : Platform} m : steps_end chr m.
Proof.
  intros t n. cbn [forward backward StepChr]. unfold forward_default, backward_default. split.
  - destruct char_forward_checked; discriminate.
  - destruct char_backward_checked; discriminate.
Qed.

Section Ends.
Context {T : Type} {PF : Platform} {OT : Ord T} {ST : Step T} (m : mode) (SE : steps_end T m).
Lemma nd_bind {A B} (x : outcome A) (k : A -> outcome B) : x <> Diverge -> (forall a, k a <> Diverge) -> bind x k <> Diverge.
Proof. destruct x; cbn; [auto|discriminate|congruence]. Qed.
Lemma nd_ret {A} (a : A) : Ret a <> Diverge. Proof. discriminate. Qed.
Lemma nd_panic {A} : @Panic A <> Diverge. Proof. discriminate. Qed.
Lemma nd_f (t : T) n : forward m t n <> Diverge. Proof. apply SE. Qed.
Lemma nd_b (t : T) n : backward m t n <> Diverge. Proof. apply SE. Qed.
Hint Resolve nd_ret nd_panic nd_f nd_b : nd.
Ltac nd := intros; solve [eauto with nd nocore] || (apply nd_bind; [|intros ?]; nd) ||
  lazymatch goal with
  | |- (if ?b then _ else _) <> _ => destruct b; nd
  | |- match ?x with _ => _ end <> _ => destruct x; nd
  end.
Lemma nd_add a b : usize_add m a b <> Diverge. Proof. unfold usize_add. nd. Qed.
Lemma nd_sub a b : usize_sub m a b <> Diverge. Proof. unfold usize_sub. nd. Qed.
Lemma nd_exact h : exact_len h <> Diverge. Proof. unfold exact_len. nd. Qed.
Hint Resolve nd_add nd_sub nd_exact : nd.
Lemma nd_br_into_iter (r : BoundedRange T) : br_into_iter m r <> Diverge. Proof. unfold br_into_iter. nd. Qed.
Lemma nd_bri_next (i : BoundedRangeIter T) : bri_next m i <> Diverge. Proof. unfold bri_next. nd. Qed.
Lemma nd_bri_next_back (i : BoundedRangeIter T) : bri_next_back m i <> Diverge. Proof. unfold bri_next_back. nd. Qed.
Hint Resolve nd_br_into_iter nd_bri_next nd_bri_next_back : nd.
Lemma nd_bri_size_hint (i : BoundedRangeIter T) : bri_size_hint m i <> Diverge. Proof. unfold bri_size_hint. nd. Qed.
Hint Resolve nd_bri_size_hint : nd.
Lemma nd_bri_len (i : BoundedRangeIter T) : bri_len m i <> Diverge. Proof. unfold bri_len. nd. Qed.
Hint Resolve nd_bri_len : nd.
Lemma nd_bri_nth (i : BoundedRangeIter T) n : bri_nth m i n <> Diverge. Proof. unfold bri_nth. nd. Qed.
Lemma nd_bri_nth_back (i : BoundedRangeIter T) n : bri_nth_back m i n <> Diverge. Proof. unfold bri_nth_back. nd. Qed.
Hint Resolve nd_bri_nth nd_bri_nth_back : nd.
Lemma nd_mapM (l : list (BoundedRange T)) : mapM (br_into_iter m) l <> Diverge.
Proof. induction l as [|x l IH]; cbn [mapM]; nd. Qed.
Lemma nd_trim (l : list (BoundedRangeIter T)) : trim m l <> Diverge.
Proof. induction l as [|x l IH]; cbn [trim]; nd. Qed.
Lemma nd_skip (l : list (BoundedRangeIter T)) : forall n, skip m l n <> Diverge.
Proof. induction l as [|x l IH]; cbn [skip]; nd. Qed.
Lemma nd_sum (l : list (BoundedRangeIter T)) : forall n, sum_lens m l n <> Diverge.
Proof. induction l as [|x l IH]; cbn [sum_lens]; nd. Qed.
Lemma nd_on_front f (l : list (BoundedRangeIter T)) : (forall i, f i <> Diverge) -> on_front f l <> Diverge.
Proof. intros H. unfold on_front. nd. Qed.
Hint Resolve nd_mapM nd_trim nd_skip nd_sum nd_on_front : nd.
Lemma nd_bs_into_iter (s : BoundedSet T) : bs_into_iter m s <> Diverge. Proof. unfold bs_into_iter. nd. Qed.
Lemma nd_bsi_next (i : BoundedSetIter T) : bsi_next m i <> Diverge. Proof. unfold bsi_next. nd. Qed.
Lemma nd_bsi_next_back (i : BoundedSetIter T) : bsi_next_back m i <> Diverge. Proof. unfold bsi_next_back. nd. Qed.
Lemma nd_bsi_nth (i : BoundedSetIter T) n : bsi_nth m i n <> Diverge. Proof. unfold bsi_nth. nd. Qed.
Lemma nd_bsi_nth_back (i : BoundedSetIter T) n : bsi_nth_back m i n <> Diverge. Proof. unfold bsi_nth_back. nd. Qed.
Lemma nd_bsi_size_hint (i : BoundedSetIter T) : bsi_size_hint m i <> Diverge. Proof. unfold bsi_size_hint. nd. Qed.
Hint Resolve nd_bs_into_iter nd_bsi_next nd_bsi_next_back nd_bsi_nth nd_bsi_nth_back nd_bsi_size_hint : nd.
Lemma nd_bsi_len (i : BoundedSetIter T) : bsi_len m i <> Diverge. Proof. unfold bsi_len. nd. Qed.
Lemma nd_lbr_into_iter (r : LowerBoundedRange T) : lbr_into_iter m r <> Diverge. Proof. unfold lbr_into_iter. nd. Qed.
Lemma nd_lbri_next (i : LowerBoundedRangeIter T) : lbri_next m i <> Diverge. Proof. unfold lbri_next. nd. Qed.
Hint Resolve nd_bsi_len nd_lbr_into_iter nd_lbri_next : nd.
Lemma nd_lbri_nth (i : LowerBoundedRangeIter T) n : lbri_nth m i n <> Diverge. Proof. unfold lbri_nth. nd. Qed.
Hint Resolve nd_lbri_nth : nd.
Lemma nd_lbs_into_iter (s : LowerBoundedSet T) : lbs_into_iter m s <> Diverge. Proof. unfold lbs_into_iter. nd. Qed.
Lemma nd_lbsi_next (i : LowerBoundedSetIter T) : lbsi_next m i <> Diverge. Proof. unfold lbsi_next. nd. Qed.
Lemma nd_lbsi_nth (i : LowerBoundedSetIter T) n : lbsi_nth m i n <> Diverge. Proof. unfold lbsi_nth. nd. Qed.
Hint Resolve nd_lbs_into_iter nd_lbsi_next nd_lbsi_nth : nd.
Lemma nd_bri_call (i : BoundedRangeIter T) c : bri_call m i c <> Diverge. Proof. unfold bri_call, item. nd. Qed.
Lemma nd_bsi_call (i : BoundedSetIter T) c : bsi_call m i c <> Diverge. Proof. unfold bsi_call, item. nd. Qed.
Lemma nd_lbri_call (i : LowerBoundedRangeIter T) c : lbri_call m i c <> Diverge. Proof. unfold lbri_call. nd. Qed.
Lemma nd_lbsi_call (i : LowerBoundedSetIter T) c : lbsi_call m i c <> Diverge. Proof. unfold lbsi_call. nd. Qed.
Hint Resolve nd_bri_call nd_bsi_call nd_lbri_call nd_lbsi_call : nd.

(** ** Calls on the four iterators *)
Context (dflt : option T).
Notation does := (does dflt m).
Notation says := (says dflt m).
Notation on n := (EMethod (EVar "i") n []).
Notation on_a n := (EMethod (EVar "a") n []).
Notation elt := (enc_opt (@DElt T)).

(** [i.next()], [i.next_back()], [i.nth(n)], [i.nth_back(n)], [i.len()]: the reply and the iterator as it then is. *)
Theorem C70_range_iterator (i : BoundedRangeIter T) (c : ModelIter.call) :
  does [] (text c) (vars enc_bri i (arg_of c)) (p <- bri_call m i c ;; Ret (enc_reply (fst p), vars enc_bri (snd p) (arg_of c))).
Proof. apply does_of; [nd|apply d_bri_call]. Qed.
Theorem C70_set_iterator (i : BoundedSetIter T) (c : ModelIter.call) :
  does [] (text c) (vars enc_bsi i (arg_of c)) (p <- bsi_call m i c ;; Ret (enc_reply (fst p), vars enc_bsi (snd p) (arg_of c))).
Proof. apply does_of; [nd|apply d_bsi_call]. Qed.
Theorem C70_lower_range_iterator (i : LowerBoundedRangeIter T) (c : up_call) :
  does [] (up_text c) (vars enc_lbri i (up_arg c))
    (p <- lbri_call m i c ;; Ret (elt (fst p), vars enc_lbri (snd p) (up_arg c))).
Proof. apply does_of; [nd|apply d_lbri_call]. Qed.
Theorem C70_lower_set_iterator (i : LowerBoundedSetIter T) (c : up_call) :
  does [] (up_text c) (vars enc_lbsi i (up_arg c))
    (p <- lbsi_call m i c ;; Ret (elt (fst p), vars enc_lbsi (snd p) (up_arg c))).
Proof. apply does_of; [nd|apply d_lbsi_call]. Qed.

(** [a.into_iter()]. *)
Theorem C70_into_iter :
  (forall r : BoundedRange T, says [] (on "into_iter") [("i", enc_br r)] (x <- br_into_iter m r ;; Ret (enc_bri x))) /\
  (forall s : BoundedSet T, says [] (on "into_iter") [("i", enc_bs s)] (x <- bs_into_iter m s ;; Ret (enc_bsi x))) /\
  (forall r : LowerBoundedRange T, says [] (on "into_iter") [("i", enc_lbr r)] (x <- lbr_into_iter m r ;; Ret (enc_lbri x))) /\
  (forall s : LowerBoundedSet T, says [] (on "into_iter") [("i", enc_lbs s)] (x <- lbs_into_iter m s ;; Ret (enc_lbsi x))).
Proof.
  repeat split; intros; (apply says_of; [nd|]); [apply s_br_into_iter|apply s_bs_into_iter|apply s_lbr_into_iter|apply s_lbs_into_iter].
Qed.

(** The methods that consume the iterator. *)
Theorem C70_range_consumers (i : BoundedRangeIter T) :
  says [] (on "size_hint") [("i", enc_bri i)] (h <- bri_size_hint m i ;; Ret (enc_hint h)) /\
  says [] (on "count") [("i", enc_bri i)] (n <- bri_count m i ;; Ret (DInt "usize" n)) /\
  says [] (on "min") [("i", enc_bri i)] (v <- bri_min m i ;; Ret (elt v)) /\
  says [] (on "max") [("i", enc_bri i)] (v <- bri_max m i ;; Ret (elt v)) /\
  says [] (on "last") [("i", enc_bri i)] (Ret (elt (bri_last i))).
Proof.
  repeat split; (apply says_of; [unfold bri_count, bri_min, bri_max; nd|]);
    [apply s_bri_size_hint|apply s_bri_count|apply s_bri_min|apply s_bri_max|apply s_bri_last].
Qed.
(** [last] of a set loops; it may not end (C27). *)
Theorem C70_set_consumers (i : BoundedSetIter T) :
  says [] (on "size_hint") [("i", enc_bsi i)] (h <- bsi_size_hint m i ;; Ret (enc_hint h)) /\
  says [] (on "count") [("i", enc_bsi i)] (n <- bsi_count m i ;; Ret (DInt "usize" n)) /\
  says [] (on "min") [("i", enc_bsi i)] (v <- bsi_min m i ;; Ret (elt v)) /\
  says [] (on "max") [("i", enc_bsi i)] (v <- bsi_max m i ;; Ret (elt v)) /\
  (forall o, o <> Diverge -> bsi_last m i o -> says [] (on "last") [("i", enc_bsi i)] (v <- o ;; Ret (elt v))).
Proof.
  repeat split; [..|intros o N L; apply says_of; [nd|apply s_bsi_last; exact L]];
    (apply says_of; [unfold bsi_count, bsi_min, bsi_max; nd|]);
    [apply s_bsi_size_hint|apply s_bsi_count|apply s_bsi_min|apply s_bsi_max].
Qed.
Theorem C70_lower_consumers (i : LowerBoundedRangeIter T) (j : LowerBoundedSetIter T) :
  says [] (on "size_hint") [("i", enc_lbri i)] (Ret (enc_hint (lbri_size_hint i))) /\
  says [] (on "min") [("i", enc_lbri i)] (v <- lbri_min m i ;; Ret (elt v)) /\
  says [] (on "size_hint") [("i", enc_lbsi j)] (Ret (enc_hint (lbsi_size_hint j))) /\
  says [] (on "min") [("i", enc_lbsi j)] (v <- lbsi_min m j ;; Ret (elt v)).
Proof.
  repeat split; (apply says_of; [unfold lbri_min, lbsi_min; nd|]);
    [apply s_lbri_size_hint|apply s_lbri_min|apply s_lbsi_size_hint|apply s_lbsi_min].
Qed.

(** The conversions: [Range::from(a)] and the like. *)
Notation of ty := (ECall ty "from" [EVar "a"]).
Theorem C70_to_std :
  (forall r : BoundedRange T, says [] (of "Range") [("a", enc_br r)] (x <- range_from_br m r ;; Ret (enc_range x))) /\
  (forall r : BoundedRange T, says [] (of "RangeInclusive") [("a", enc_br r)] (x <- range_inclusive_from_br m r ;; Ret (enc_ri x))) /\
  (forall r : LowerBoundedRange T, says [] (of "RangeFrom") [("a", enc_lbr r)] (x <- range_from_from_lbr m r ;; Ret (enc_rf x))) /\
  (forall r : UpperBoundedRange T, says [] (of "RangeTo") [("a", enc_ubr r)] (x <- range_to_from_ubr m r ;; Ret (enc_rt x))) /\
  (forall r : UpperBoundedRange T, says [] (of "RangeToInclusive") [("a", enc_ubr r)]
     (x <- range_to_inclusive_from_ubr m r ;; Ret (enc_rti x))) /\
  (forall r : UnboundedRange, says [] (of "RangeFull") [("a", enc_unbr r)] (Ret (enc_rfull (range_full_from_unbr r)))).
Proof.
  repeat split; intros r;
    (apply says_of; [unfold range_from_br, range_inclusive_from_br, range_from_from_lbr, range_to_from_ubr, range_to_inclusive_from_ubr; nd|]);
    [apply s_range_from_br|apply s_ri_from_br|apply s_rf_from_lbr|apply s_rt_from_ubr|apply s_rti_from_ubr|apply s_rfull_from_unbr].
Qed.
Theorem C70_from_std :
  (forall r : Range T, says [] (of "BoundedRange") [("a", enc_range r)] (Ret (enc_br (br_from_range r)))) /\
  (forall r : RangeInclusive T, says [] (of "BoundedRange") [("a", enc_ri r)] (Ret (enc_br (br_from_range_inclusive r)))) /\
  (forall r : RangeFrom T, says [] (of "LowerBoundedRange") [("a", enc_rf r)] (Ret (enc_lbr (lbr_from_range_from r)))) /\
  (forall r : RangeTo T, says [] (of "UpperBoundedRange") [("a", enc_rt r)] (Ret (enc_ubr (ubr_from_range_to r)))) /\
  (forall r : RangeToInclusive T, says [] (of "UpperBoundedRange") [("a", enc_rti r)] (Ret (enc_ubr (ubr_from_range_to_inclusive r)))) /\
  (forall r : RangeFull, says [] (of "UnboundedRange") [("a", enc_rfull r)] (Ret (enc_unbr (unbr_from_range_full r)))).
Proof.
  repeat split; intros r; (apply says_of; [discriminate|]);
    [apply s_br_from_range|apply s_br_from_ri|apply s_lbr_from_rf|apply s_ubr_from_rt|apply s_ubr_from_rti|apply s_unbr_from_rfull].
Qed.
Theorem C70_to_sets :
  (forall r : BoundedRange T, says [] (of "BoundedSet") [("a", enc_br r)] (Ret (enc_bs (bs_from_br r)))) /\
  (forall r : LowerBoundedRange T, says [] (of "LowerBoundedSet") [("a", enc_lbr r)] (Ret (enc_lbs (lbs_from_lbr r)))) /\
  (forall r : UpperBoundedRange T, says [] (of "UpperBoundedSet") [("a", enc_ubr r)] (Ret (enc_ubs (ubs_from_ubr r)))) /\
  (forall r : UnboundedRange, says [] (of "UnboundedSet") [("a", enc_unbr r)] (Ret (enc_us (us_from_unbr r)))).
Proof.
  repeat split; intros r; (apply says_of; [discriminate|]);
    [apply s_bs_from_br|apply s_lbs_from_lbr|apply s_ubs_from_ubr|apply s_us_from_unbr].
Qed.

(** ** Histories: calls of the text one after the other *)
Lemma does_one sc x e (o o' : outcome (val T * env T)) : does sc x e o -> does sc x e o' -> o = o'.
Proof.
  unfold RustIterClient.does. intros R R'. pose proof (runs_det dflt m _ _ R _ R') as E.
  destruct o as [[? ?]| |], o' as [[? ?]| |]; cbn in E; try congruence; exfalso; eapply runs_not_diverge; eassumption.
Qed.
(** The iterator [s], as the term [enc s] in the variable [i], answers the calls [cs] with the replies
    and the iterator [o], or a call panics.  [txt c] is the text of the call [c]
    and [arg c] its argument, in the variable [n]. *)
Inductive src_run {S C R : Type} (enc : S -> val T) (txt : C -> RustSyntax.expr) (arg : C -> Z) (rep : R -> val T)
  : S -> list C -> outcome (list R * S) -> Prop :=
| src_end s : src_run enc txt arg rep s [] (Ret ([], s))
| src_call s s' c cs r o :
    does [] (txt c) (vars enc s (arg c)) (Ret (rep r, vars enc s' (arg c))) -> src_run enc txt arg rep s' cs o ->
    src_run enc txt arg rep s (c :: cs) (q <- o ;; Ret (r :: fst q, snd q))
| src_panic s c cs : does [] (txt c) (vars enc s (arg c)) Panic -> src_run enc txt arg rep s (c :: cs) Panic.

Lemma src_run_exact {S C R : Type} (enc : S -> val T) (txt : C -> RustSyntax.expr) (arg : C -> Z) (rep : R -> val T)
  (step : S -> C -> outcome (R * S)) :
  (forall s s', enc s = enc s' -> s = s') -> (forall r r', rep r = rep r' -> r = r') -> (forall s c, step s c <> Diverge) ->
  (forall s c, does [] (txt c) (vars enc s (arg c)) (p <- step s c ;; Ret (rep (fst p), vars enc (snd p) (arg c)))) ->
  forall cs s o, src_run enc txt arg rep s cs o <-> o = run step s cs.
Proof.
  intros I J N D. induction cs as [|c cs IH]; intros s o.
  - split; [inversion 1; reflexivity|intros ->; constructor].
  - cbn [run]. specialize (N s c). specialize (D s c). split.
    + inversion 1 as [|? s' ? ? r o' P Q|? ? ? P]; subst; pose proof (does_one _ _ _ _ _ P D) as E.
      * destruct (step s c) as [[r' s'']| |]; try discriminate. cbn [bind fst snd vars] in *.
        injection E as E1 E2. apply J in E1. apply I in E2. subst. apply IH in Q. now subst.
      * destruct (step s c); try discriminate. reflexivity.
    + intros ->. destruct (step s c) as [[r s']| |]; [|apply src_panic, D|congruence].
      cbn [bind fst snd] in *. eapply src_call; [exact D|]. now apply IH.
Qed.
Lemma elt_inj (a b : option T) : elt a = elt b -> a = b.
Proof. destruct a, b; unfold enc_opt, some_val, none_val; congruence. Qed.
Lemma enc_reply_inj (a b : reply T) : enc_reply a = enc_reply b -> a = b.
Proof. destruct a as [[?|]|?], b as [[?|]|?]; unfold enc_reply, enc_opt, some_val, none_val; congruence. Qed.
Lemma enc_bri_inj (a b : BoundedRangeIter T) : enc_bri a = enc_bri b -> a = b.
Proof. destruct a, b. unfold enc_bri. cbn [ModelIter.bri_current ModelIter.bri_last_field]. intros [= -> ->]. reflexivity. Qed.
Lemma enc_bsi_inj (a b : BoundedSetIter T) : enc_bsi a = enc_bsi b -> a = b.
Proof. destruct a as [l], b as [k]; cbn. intros [= E]. f_equal. exact (map_inj _ enc_bri_inj _ _ E). Qed.
Lemma enc_lbri_inj (a b : LowerBoundedRangeIter T) : enc_lbri a = enc_lbri b -> a = b.
Proof. destruct a, b. unfold enc_lbri. cbn [ModelIter.lbri_current]. intros [= ->]. reflexivity. Qed.
Lemma enc_lbsi_inj (a b : LowerBoundedSetIter T) : enc_lbsi a = enc_lbsi b -> a = b.
Proof. destruct a as [l x], b as [k y]. unfold enc_lbsi. cbn [ModelIter.lbsi_set_iter ModelIter.lbsi_range_iter]. intros E.
  assert (E1 : enc_bsi l = enc_bsi k) by congruence. assert (E2 : enc_lbri x = enc_lbri y) by congruence.
  apply enc_bsi_inj in E1. apply enc_lbri_inj in E2. congruence. Qed.

Theorem C70_range_histories (i : BoundedRangeIter T) (cs : list ModelIter.call) o :
  src_run enc_bri text arg_of enc_reply i cs o <-> o = run (bri_call m) i cs.
Proof. revert i o. apply src_run_exact; [apply enc_bri_inj|apply enc_reply_inj|intros; apply nd_bri_call|apply C70_range_iterator]. Qed.
Theorem C70_set_histories (i : BoundedSetIter T) (cs : list ModelIter.call) o :
  src_run enc_bsi text arg_of enc_reply i cs o <-> o = run (bsi_call m) i cs.
Proof. revert i o. apply src_run_exact; [apply enc_bsi_inj|apply enc_reply_inj|intros; apply nd_bsi_call|apply C70_set_iterator]. Qed.
Theorem C70_lower_range_histories (i : LowerBoundedRangeIter T) (cs : list up_call) o :
  src_run enc_lbri up_text up_arg elt i cs o <-> o = run (lbri_call m) i cs.
Proof. revert i o. apply src_run_exact; [apply enc_lbri_inj|apply elt_inj|intros; apply nd_lbri_call|apply C70_lower_range_iterator]. Qed.
Theorem C70_lower_set_histories (i : LowerBoundedSetIter T) (cs : list up_call) o :
  src_run enc_lbsi up_text up_arg elt i cs o <-> o = run (lbsi_call m) i cs.
Proof. revert i o. apply src_run_exact; [apply enc_lbsi_inj|apply elt_inj|intros; apply nd_lbsi_call|apply C70_lower_set_iterator]. Qed.

(** ** Loops: [let mut i = a.into_iter(); let mut v = VecDeque::new(); while let Some(x) = i.next() { v.insert(0, x); } v] *)
Theorem C70_loops (o : outcome (list T)) :
  (forall (r : BoundedRange T) i, br_into_iter m r = Ret i -> drains (bri_next m) i o ->
     says [] (loop_of (on_a "into_iter")) [("a", enc_br r)] (l <- o ;; Ret (DList (map DElt (rev l))))) /\
  (forall (s : BoundedSet T) i, bs_into_iter m s = Ret i -> drains (bsi_next m) i o ->
     says [] (loop_of (on_a "into_iter")) [("a", enc_bs s)] (l <- o ;; Ret (DList (map DElt (rev l))))) /\
  (forall (r : LowerBoundedRange T) i, lbr_into_iter m r = Ret i -> drains (lbri_next m) i o ->
     says [] (loop_of (on_a "into_iter")) [("a", enc_lbr r)] (l <- o ;; Ret (DList (map DElt (rev l))))) /\
  (forall (s : LowerBoundedSet T) i, lbs_into_iter m s = Ret i -> drains (lbsi_next m) i o ->
     says [] (loop_of (on_a "into_iter")) [("a", enc_lbs s)] (l <- o ;; Ret (DList (map DElt (rev l))))).
Proof.
  assert (N : forall S (next : S -> outcome (option T * S)) s, drains next s o -> (l <- o ;; Ret (DList (map (@DElt T) (rev l)))) <> Diverge).
  { intros S next s D. induction D as [| |]; cbn; try discriminate. destruct o; cbn in *; congruence. }
  repeat split; intros r i E D; (apply says_of; [exact (N _ _ _ D)|]);
    [eapply l_br|eapply l_bs|eapply l_lbr|eapply l_lbs]; eassumption.
Qed.
End Ends.

Theorem C70_empty_to_std (T : Type) (PF : Platform) (OT : Ord T) (ST : Step T) (DT : Default T) (m : mode) (r : EmptyRange) :
  steps_end T m ->
  says (Some default) m [] (ECall "Range" "from" [EVar "a"]) [("a", enc_empty r)] (Ret (enc_range (range_from_empty (T := T) r))) /\
  says (Some default) m [] (ECall "RangeInclusive" "from" [EVar "a"]) [("a", enc_empty r)]
    (x <- range_inclusive_from_empty (T := T) m r ;; Ret (enc_ri x)).
Proof.
  intros SE. split; (apply says_of; [|]); [discriminate|apply s_range_from_empty| |apply s_ri_from_empty].
  unfold range_inclusive_from_empty, range_inclusive_from_br. pose proof SE as F. cbn.
  pose proof (proj2 (F default 1)). destruct (backward m default 1); cbn; congruence.
Qed.

(** ** [Step] of the integers and of [char]: [Step::forward(a, n)] and the like *)
Section Steps.
Context (T : Type) (PF : Platform) (OT : Ord T) (ST : Step T) (dflt : option T) (m : mode).
Notation says := (says dflt m).
Notation step n b := (ECall "Step" n [EVar "a"; EVar b]).
Theorem C70_int_step (ty : ity) (x y : mint ty) (n : Z) :
  let e := [("a", enc_int (T := T) x); ("n", DInt "usize" n)] in
  says ["Step"] (step "forward" "n") e (z <- forward m x n ;; Ret (enc_int z)) /\
  says ["Step"] (step "backward" "n") e (z <- backward m x n ;; Ret (enc_int z)) /\
  says ["Step"] (step "forward_checked" "n") e (Ret (enc_opt enc_int (forward_checked x n))) /\
  says ["Step"] (step "backward_checked" "n") e (Ret (enc_opt enc_int (backward_checked x n))) /\
  says ["Step"] (step "steps_between" "b") [("a", enc_int x); ("b", enc_int y)] (Ret (enc_opt (@DInt T "usize") (steps_between x y))).
Proof.
  pose proof (C70_int_steps_end ty m x n) as [F B]. cbv zeta.
  split; [|split; [|split; [|split]]]; apply says_of; try discriminate;
    [|apply s_int_forward| |apply s_int_backward|apply s_int_forward_checked|apply s_int_backward_checked|apply s_int_steps_between].
  - destruct (forward m x n); cbn; congruence.
  - destruct (backward m x n); cbn; congruence.
Qed.
Theorem C70_char_step (c d : chr) (n : Z) : 0 <= n <= usize_max ->
  let e := [("a", enc_chr (T := T) c); ("n", DInt "usize" n)] in
  says ["Step"] (step "forward" "n") e (z <- forward m c n ;; Ret (enc_chr z)) /\
  says ["Step"] (step "backward" "n") e (z <- backward m c n ;; Ret (enc_chr z)) /\
  says ["Step"] (step "forward_checked" "n") e (Ret (enc_opt enc_chr (forward_checked c n))) /\
  says ["Step"] (step "backward_checked" "n") e (Ret (enc_opt enc_chr (backward_checked c n))) /\
  says ["Step"] (step "steps_between" "b") [("a", enc_chr c); ("b", enc_chr d)] (Ret (enc_opt (@DInt T "usize") (steps_between c d))).
Proof.
  intros L. pose proof (C70_char_steps_end m c n) as [F B]. cbv zeta.
  split; [|split; [|split; [|split]]]; apply says_of; try discriminate;
    [|apply s_chr_forward, L| |apply s_chr_backward, L|apply s_chr_forward_checked, L|apply s_chr_backward_checked, L|apply s_chr_steps_between].
  - destruct (forward m c n); cbn; congruence.
  - destruct (backward m c n); cbn; congruence.
Qed.
End Steps.

(** ** So what is proved of the model holds of the source *)
Section Consequences.
Context (T : Type) (PF : Platform) (OT : Ord T) (ST : Step T) (NU : Numbered T) (SL : StepLaws T) (dflt : option T).
Context (SE : steps_end T Debug).
Notation says := (says dflt Debug).
Notation on n := (EMethod (EVar "i") n []).
Notation on_a n := (EMethod (EVar "a") n []).
Lemma into_iter_of {A B : Type} (enc : B -> val T) (enca : A -> val T) (f : A -> outcome B) a b :
  (forall x y, enc x = enc y -> x = y) ->
  (says [] (on "into_iter") [("i", enca a)] (x <- f a ;; Ret (enc x))) ->
  says [] (on "into_iter") [("i", enca a)] (Ret (enc b)) -> f a = Ret b.
Proof.
  intros I H S. pose proof (C69_one_outcome _ _ _ _ _ _ _ _ _ _ _ H S) as E. destruct (f a); cbn in E; try discriminate.
  injection E as E. apply I in E. congruence.
Qed.
(** The iterator of a bounded range answers as a double-ended queue of its elements in ascending order (C24). *)
Theorem C70_range_is_deque (r : BoundedRange T) (i i' : BoundedRangeIter T) (l : list T) (cs : list ModelIter.call) reps :
  lists (in_range r) l -> Forall call_ok cs -> (In Len cs -> Z.of_nat (length l) <= usize_max) ->
  says [] (on "into_iter") [("i", enc_br r)] (Ret (enc_bri i)) ->
  src_run Debug dflt enc_bri text arg_of enc_reply i cs (Ret (reps, i')) ->
  reps = fst (deque_run l cs).
Proof.
  intros L O S E R. apply (C70_range_histories Debug SE) in R.
  pose proof (into_iter_of enc_bri enc_br (br_into_iter Debug) r i enc_bri_inj (proj1 (C70_into_iter Debug SE dflt) r) E) as E'.
  exact (C24_histories_partial T PF OT ST NU SL r i i' l cs reps E' L O S (eq_sym R)).
Qed.
(** The loop over a bounded range collects its elements, and panics if the greatest value is one of them (C23, C25). *)
Theorem C70_range_loop_exact (r : BoundedRange T) (i : BoundedRangeIter T) (l : list T) :
  lists (in_range r) l -> says [] (on "into_iter") [("i", enc_br r)] (Ret (enc_bri i)) ->
  ((forall t, in_range r t -> ~ greatest t) <->
     says [] (loop_of (on_a "into_iter")) [("a", enc_br r)] (Ret (DList (map DElt (rev l))))) /\
  ((exists t, in_range r t /\ greatest t) <-> says [] (loop_of (on_a "into_iter")) [("a", enc_br r)] Panic).
Proof.
  intros L E. apply (into_iter_of enc_bri enc_br (br_into_iter Debug) r i enc_bri_inj (proj1 (C70_into_iter Debug SE dflt) r)) in E.
  destruct (C23_collect_exact T PF OT ST NU SL r i l E) as [C P].
  assert (A : (forall t, in_range r t -> ~ greatest t) -> says [] (loop_of (on_a "into_iter")) [("a", enc_br r)] (Ret (DList (map DElt (rev l))))).
  { intros G. refine (proj1 (C70_loops Debug dflt (Ret l)) r i E _). now apply C. }
  assert (B : (exists t, in_range r t /\ greatest t) -> says [] (loop_of (on_a "into_iter")) [("a", enc_br r)] Panic).
  { intros G. refine (proj1 (C70_loops Debug dflt Panic) r i E _). now apply P. }
  split; split; auto; intros W.
  - intros t It Gt. pose proof (C69_one_outcome _ _ _ _ _ _ _ _ _ _ _ W (B (ex_intro _ t (conj It Gt)))). discriminate.
  - destruct (top_dec l) as [(t & It & Gt)|G]; [exists t; split; [now apply (proj2 L)|exact Gt]|].
    assert (G' : forall t, in_range r t -> ~ greatest t) by (intros t It; apply G, (proj2 L), It).
    pose proof (C69_one_outcome _ _ _ _ _ _ _ _ _ _ _ W (A G')). discriminate.
Qed.
(** The loop over a set. *)
Theorem C70_set_loop_exact (s : BoundedSet T) (i : BoundedSetIter T) (l : list T) :
  api (VBS s) -> (forall r, In r (bs_ranges s) -> small (in_range r)) -> lists (mem (VBS s)) l ->
  says [] (on "into_iter") [("i", enc_bs s)] (Ret (enc_bsi i)) ->
  ((forall t, mem (VBS s) t -> ~ greatest t) <->
     says [] (loop_of (on_a "into_iter")) [("a", enc_bs s)] (Ret (DList (map DElt (rev l))))) /\
  ((exists t, mem (VBS s) t /\ greatest t) <-> says [] (loop_of (on_a "into_iter")) [("a", enc_bs s)] Panic).
Proof.
  intros Ap Sm L E.
  apply (into_iter_of enc_bsi enc_bs (bs_into_iter Debug) s i enc_bsi_inj (proj1 (proj2 (C70_into_iter Debug SE dflt)) s)) in E.
  destruct (C29_collect_set_exact T PF OT ST NU SL s i l Ap Sm E) as [C P].
  assert (A : (forall t, mem (VBS s) t -> ~ greatest t) -> says [] (loop_of (on_a "into_iter")) [("a", enc_bs s)] (Ret (DList (map DElt (rev l))))).
  { intros G. refine (proj1 (proj2 (C70_loops Debug dflt (Ret l))) s i E _). now apply C. }
  assert (B : (exists t, mem (VBS s) t /\ greatest t) -> says [] (loop_of (on_a "into_iter")) [("a", enc_bs s)] Panic).
  { intros G. refine (proj1 (proj2 (C70_loops Debug dflt Panic)) s i E _). now apply P. }
  split; split; auto; intros W.
  - intros t It Gt. pose proof (C69_one_outcome _ _ _ _ _ _ _ _ _ _ _ W (B (ex_intro _ t (conj It Gt)))). discriminate.
  - destruct (top_dec l) as [(t & It & Gt)|G]; [exists t; split; [now apply (proj2 L)|exact Gt]|].
    assert (G' : forall t, mem (VBS s) t -> ~ greatest t) by (intros t It; apply G, (proj2 L), It).
    pose proof (C69_one_outcome _ _ _ _ _ _ _ _ _ _ _ W (A G')). discriminate.
Qed.
End Consequences.

(** ** Examples, run by the interpreter itself on u8. *)
#[local] Existing Instance pf64.
Definition run_in (mo : mode) (sc : list string) (x : RustSyntax.expr) (e : env U) : option (outcome (ans U)) :=
  exec (None : option U) mo 300 (RustEval.eval None mo sc x e
    (fun r e' => match r with N v => Done (AEnv (N v) e') | _ => Stuck end)).
Definition val_in (mo : mode) (sc : list string) (x : RustSyntax.expr) (e : env U) : option (outcome (val U)) :=
  match run_in mo sc x e with
  | Some (Ret (AEnv (N v) _)) => Some (Ret v)
  | Some Panic => Some Panic
  | _ => None
  end.
(** The replies and the iterator left, call after call. *)
Fixpoint run_all (cs : list ModelIter.call) (i : val U) : option (list (val U) * val U) :=
  match cs with
  | [] => Some ([], i)
  | c :: cs' =>
    match run_in Debug [] (text c) [("i", i); ("n", DInt "usize" (arg_of c))] with
    | Some (Ret (AEnv (N v) [("i", i'); _])) =>
      match run_all cs' i' with Some (vs, j) => Some (v :: vs, j) | None => None end
    | _ => None
    end
  end.
Definition some_u (z : Z) : reply U := Item (Some (u z)).
Example C70_range_histories_ex :
  run_all [Next; NextBack; Len; Nth 2; NthBack 1; Len] (enc_bri (BRI (u 3) (u 12)))
    = Some (map enc_reply [some_u 3; some_u 12; Count 8; some_u 6; some_u 10; Count 3], enc_bri (BRI (u 7) (u 9))).
Proof. vm_compute. reflexivity. Qed.
Example C70_set_histories_ex :
  run_all [Next; Nth 1; NextBack; Len; NthBack 2; Len; Next] (enc_bsi (BSI [BRI (u 3) (u 4); BRI (u 9) (u 8); BRI (u 10) (u 14)]))
    = Some (map enc_reply [some_u 3; some_u 10; some_u 14; Count 3; some_u 11; Count 0; Item None], enc_bsi (BSI [])).
Proof. vm_compute. reflexivity. Qed.
Example C70_lower_set_ex :
  run_in Debug [] (up_text (UpNth 3)) (vars enc_lbsi (LBSI (BSI [BRI (u 3) (u 4)]) (LBRI (u 20))) 3)
    = Some (Ret (AEnv (N (some_val (DElt (u 21)))) (vars enc_lbsi (LBSI (BSI []) (LBRI (u 22))) 3))).
Proof. vm_compute. reflexivity. Qed.
Example C70_into_iter_ex :
  val_in Debug [] (EMethod (EVar "i") "into_iter" []) [("i", enc_br (half 3 10))] = Some (Ret (enc_bri (BRI (u 3) (u 9)))) /\
  val_in Debug [] (EMethod (EVar "i") "into_iter" []) [("i", enc_br (half 0 0))] = Some Panic /\
  val_in Release [] (EMethod (EVar "i") "into_iter" []) [("i", enc_br (half 0 0))] = Some (Ret (enc_bri (BRI (u 0) (u 255)))).
Proof. repeat split; vm_compute; reflexivity. Qed.
Example C70_consumers_ex :
  val_in Debug [] (EMethod (EVar "i") "size_hint" []) [("i", enc_bsi (BSI [BRI (u 3) (u 4); BRI (u 9) (u 12)]))]
    = Some (Ret (enc_hint (6, Some 6))) /\
  val_in Debug [] (EMethod (EVar "i") "last" []) [("i", enc_bsi (BSI [BRI (u 3) (u 4); BRI (u 9) (u 12); BRI (u 13) (u 12)]))]
    = Some (Ret (some_val (DElt (u 12)))) /\
  val_in Debug [] (EMethod (EVar "i") "max" []) [("i", enc_bri (BRI (u 3) (u 4)))] = Some (Ret (some_val (DElt (u 4)))).
Proof. repeat split; vm_compute; reflexivity. Qed.
Example C70_conversions_ex :
  val_in Debug [] (ECall "Range" "from" [EVar "a"]) [("a", enc_br (BR (LB (Excluded (u 3))) (UB (Included (u 9)))))]
    = Some (Ret (enc_range (mkRange (u 4) (u 10)))) /\
  val_in Release [] (ECall "RangeTo" "from" [EVar "a"]) [("a", enc_ubr (UBR (UB (Included (u 255)))))]
    = Some (Ret (enc_rt (mkRangeTo (u 0)))) /\
  val_in Debug [] (ECall "BoundedSet" "from" [EVar "a"]) [("a", enc_br (half 3 3))] = Some (Ret (enc_bs (BS []))).
Proof. repeat split; vm_compute; reflexivity. Qed.
(** On the types of the source themselves: i8 and char. *)
Example C70_step_ex :
  val_in Debug ["Step"] (ECall "Step" "forward_checked" [EVar "a"; EVar "n"]) [("a", DInt "i8" (-100)); ("n", DInt "usize" 200)]
    = Some (Ret (some_val (DInt "i8" 100))) /\
  val_in Debug ["Step"] (ECall "Step" "forward" [EVar "a"; EVar "n"]) [("a", DInt "i8" 100); ("n", DInt "usize" 200)] = Some Panic /\
  val_in Release ["Step"] (ECall "Step" "forward" [EVar "a"; EVar "n"]) [("a", DInt "i8" 100); ("n", DInt "usize" 200)]
    = Some (Ret (DInt "i8" 44)) /\
  val_in Debug ["Step"] (ECall "Step" "forward" [EVar "a"; EVar "n"]) [("a", DInt "char" 55295); ("n", DInt "usize" 1)]
    = Some (Ret (DInt "char" 57344)) /\
  val_in Debug ["Step"] (ECall "Step" "steps_between" [EVar "a"; EVar "b"]) [("a", DInt "char" 55290); ("b", DInt "char" 57345)]
    = Some (Ret (some_val (DInt "usize" 7))).
Proof. repeat split; vm_compute; reflexivity. Qed.
Example C70_loop_ex :
  val_in Debug [] (loop_of (EMethod (EVar "a") "into_iter" [])) [("a", enc_bs (BS [half 1 4; half 8 10]))]
    = Some (Ret (DList (map DElt [u 9; u 8; u 3; u 2; u 1]))) /\
  val_in Debug [] (loop_of (EMethod (EVar "a") "into_iter" [])) [("a", enc_br (BR (LB (Included (u 253))) (UB (Included (u 255)))))]
    = Some Panic.
Proof. split; vm_compute; reflexivity. Qed.
Example C70_range_is_deque_ex :
  steps_end U Debug /\ lists (in_range (half 3 6)) [u 3; u 4; u 5] /\
  says None Debug [] (EMethod (EVar "i") "into_iter" []) [("i", enc_br (half 3 6))] (Ret (enc_bri (BRI (u 3) (u 5)))) /\
  fst (deque_run [u 3; u 4; u 5] [NextBack; Nth 1; Len]) = [some_u 5; some_u 4; Count 0].
Proof.
  split; [apply C70_int_steps_end|]. split; [|split; [|reflexivity]].
  - apply (C23_collect_exact U _ _ _ _ _ (half 3 6) (BRI (u 3) (u 5))); [vm_compute; reflexivity|].
    apply drain_drains with (fuel := 10%nat). vm_compute. reflexivity.
  - apply exec_runs with (fuel := 200%nat); [vm_compute; reflexivity|discriminate].
Qed.
Example C70_set_loop_ex :
  api (VBS (BS [half 1 4; half 8 10])) /\ (forall r, In r (bs_ranges (BS [half 1 4; half 8 10])) -> small (in_range r)) /\
  lists (mem (VBS (BS [half 1 4; half 8 10]))) [u 1; u 2; u 3; u 8; u 9].
Proof.
  assert (A : api (VBS (BS [half 1 4; half 8 10]))).
  { apply (api_union (VBR (half 1 4)) (VBR (half 8 10))); [constructor|constructor|vm_compute; reflexivity]. }
  assert (S : forall r, In r (bs_ranges (BS [half 1 4; half 8 10])) -> small (in_range r)) by (intros; apply narrow_small; reflexivity).
  split; [exact A|]. split; [exact S|].
  apply (C29_collect_set_exact U _ _ _ _ _ _ (BSI [BRI (u 1) (u 3); BRI (u 8) (u 9)]) _ A S); [vm_compute; reflexivity|].
  apply drain_drains with (fuel := 10%nat). vm_compute. reflexivity.
Qed.

(** Faults of the iterators in the text of the crate: in release builds [nth] answers with an element that is
    not in the range (C25), and [min] of the range of the greatest value alone panics (C27). *)
Theorem C70_nth_escapes :
  exists (r : BoundedRange U) (i i' : BoundedRangeIter U) (x : U),
    says None Release [] (EMethod (EVar "i") "into_iter" []) [("i", enc_br r)] (Ret (enc_bri i)) /\
    does None Release [] (text (Nth 10)) (vars enc_bri i 10) (Ret (some_val (DElt x), vars enc_bri i' 10)) /\ ~ in_range r x /\
    does None Debug [] (text (Nth 10)) (vars enc_bri i 10) Panic.
Proof.
  exists (BR (LB (Included (u 248))) (UB (Included (u 254)))), (BRI (u 248) (u 254)), (BRI (u 3) (u 254)), (u 2).
  split; [apply exec_runs with (fuel := 200%nat); [vm_compute; reflexivity|discriminate]|].
  split; [apply exec_runs with (fuel := 200%nat); [vm_compute; reflexivity|discriminate]|].
  split; [|apply exec_runs with (fuel := 200%nat); [vm_compute; reflexivity|discriminate]].
  intros [H _]. vm_compute in H. now apply H.
Qed.
Theorem C70_min_panics :
  says None Debug [] (EMethod (EVar "i") "into_iter" []) [("i", enc_br (BR (LB (Included (u 255))) (UB (Included (u 255)))))]
    (Ret (enc_bri (BRI (u 255) (u 255)))) /\
  says None Debug [] (EMethod (EVar "i") "min" []) [("i", enc_bri (BRI (u 255) (u 255)))] Panic.
Proof. split; apply exec_runs with (fuel := 200%nat); try discriminate; vm_compute; reflexivity. Qed.

Print Assumptions C70_int_steps_end.
Print Assumptions C70_char_steps_end.
Print Assumptions C70_range_iterator.
Print Assumptions C70_set_iterator.
Print Assumptions C70_lower_range_iterator.
Print Assumptions C70_lower_set_iterator.
Print Assumptions C70_into_iter.
Print Assumptions C70_range_consumers.
Print Assumptions C70_set_consumers.
Print Assumptions C70_lower_consumers.
Print Assumptions C70_to_std.
Print Assumptions C70_from_std.
Print Assumptions C70_to_sets.
Print Assumptions C70_range_histories.
Print Assumptions C70_set_histories.
Print Assumptions C70_lower_range_histories.
Print Assumptions C70_lower_set_histories.
Print Assumptions C70_loops.
Print Assumptions C70_empty_to_std.
Print Assumptions C70_int_step.
Print Assumptions C70_char_step.
Print Assumptions C70_range_is_deque.
Print Assumptions C70_range_loop_exact.
Print Assumptions C70_set_loop_exact.
Print Assumptions C70_nth_escapes.
Print Assumptions C70_min_panics.
