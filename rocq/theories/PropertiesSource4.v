(** C72: loops of the source that never end.  RustEval.v runs the translated text with
    fuel; an expression runs forever if no fuel is enough (and it does not go wrong
    either).  A client's loop over a range or set of the crate ends, panics or runs
    forever exactly as the loops of the model do, for all values, element types,
    platforms and builds; so does [last] of a set.  With that, which loops over
    integers run forever in release builds. *)
From Coq Require Import String Lia ZifyBool.
From Verif Require Import Base ModelBound ModelRanges ModelSets ModelAlgebra ModelValue ModelStep ModelIter ModelConv
  Instances InstancesStep Spec SpecStep SpecIter Reach
  RustSyntax Source RustEval RustEnc RustTac RustRuns RustSays RustIter RustIterSet RustIterClient RustIterLoop RustForever
  StepProofs IterLemmas StepLemmas IterProofs IterProofs4 IterBig IterRelease IterForever AdaptProofs2
  PropertiesSource PropertiesSource2 PropertiesIter PropertiesIter2.
Open Scope Z_scope.
Open Scope string_scope.
Open Scope list_scope.

(** ** C27, release: [last] of a set ends exactly when the greatest value is not in the pieces that fit. *)
Theorem C27_set_last_release (PF : Platform) (ty : ity) (s : BoundedSet (mint ty)) (it : BoundedSetIter (mint ty))
  (l : list (mint ty)) (o : outcome (option (mint ty))) :
  api (VBS s) -> bs_into_iter Release s = Ret it -> lists (in_small_pieces (bs_ranges s)) l ->
  (bsi_last Release it o <-> o = Ret (hd_error (rev l)) /\ forall t, In t l -> ~ greatest t).
Proof. intros A. apply set_last_release, api_valid, A. Qed.
Print Assumptions C27_set_last_release.

Section Never.
Context {T : Type} {PF : Platform} {OT : Ord T} {ST : Step T} (dflt : option T) (m : mode).
(** The expression [x], where [e] has the variables and the traits [sc] are in scope,
    runs forever: whatever the fuel, it is used up. *)
Definition never (sc : list string) (x : RustSyntax.expr) (e : env T) : Prop :=
  forall fuel, exec dflt m fuel (RustEval.eval dflt m sc x e (fun r _ => match r with N v => Done (AVal v []) | _ => Stuck end)) = Some Diverge.
Notation says := (says dflt m).

(** What runs forever has no value and no panic; what has one is found with enough fuel. *)
Theorem C72_never_excludes sc x e o : never sc x e -> ~ says sc x e o.
Proof. intros F. apply (forever_no_outcome dflt m), F. Qed.
Theorem C72_enough_fuel sc x e o : says sc x e o -> exists f, forall g, (f <= g)%nat ->
  exec dflt m g (RustEval.eval dflt m sc x e (fun r _ => match r with N v => Done (AVal v []) | _ => Stuck end))
    = Some (v <- o ;; Ret (AVal v [])).
Proof. apply (runs_enough dflt m). Qed.

Lemma exact_of (P : outcome (val T) -> Prop) sc x e :
  (forall v, P v -> says sc x e v) ->
  (forall f, (exists v, P v) \/ stays dflt m f (text_of dflt m sc x e)) ->
  (forall v, says sc x e v <-> P v) /\ (never sc x e <-> forall v, ~ P v).
Proof.
  intros A B. split; [intros v; split; [|apply A]|split].
  - intros R. destruct (runs_enough dflt m _ _ R) as [f E]. specialize (E f (le_n f)). destruct (B f) as [[w W]|S].
    + pose proof (C69_one_outcome _ _ _ _ _ _ _ _ _ _ _ R (A w W)) as ->. exact W.
    + unfold stays, text_of in S. rewrite S in E. destruct v; try discriminate. cbn in *. exfalso. eapply runs_not_diverge, R.
  - intros F v W. exact (C72_never_excludes _ _ _ _ F (A v W)).
  - intros F f. destruct (B f) as [[v W]|S]; [destruct (F v W)|exact S].
Qed.

Context (SE : steps_end T m).
(** What [drains] of the model says of the loop: the elements, in the order taken from the front of [v]. *)
Notation gives next i := (fun v => exists o, drains next i o /\ v = (l <- o ;; Ret (DList (map DElt (rev l))))).
Notation loop := (loop_of (EMethod (EVar "a") "into_iter" [])).
Lemma gives_of {S : Type} (next : S -> outcome (option T * S)) i :
  comes next i -> exists v, exists o, drains next i o /\ v = (l <- o ;; Ret (DList (map (@DElt T) (rev l)))).
Proof. intros [o D]. eauto. Qed.

Theorem C72_range_loop (r : BoundedRange T) i : br_into_iter m r = Ret i ->
  (forall v, says [] loop [("a", enc_br r)] v <-> gives (bri_next m) i v) /\
  (never [] loop [("a", enc_br r)] <-> forall v, ~ gives (bri_next m) i v).
Proof.
  intros E. apply exact_of.
  - intros v (o & D & ->). exact (proj1 (C70_loops m dflt o) r i E D).
  - intros f. destruct (f_br dflt m r i f (nd_bri_next m SE) E) as [C|C]; [left; exact (gives_of _ _ C)|now right].
Qed.
Theorem C72_set_loop (s : BoundedSet T) i : bs_into_iter m s = Ret i ->
  (forall v, says [] loop [("a", enc_bs s)] v <-> gives (bsi_next m) i v) /\
  (never [] loop [("a", enc_bs s)] <-> forall v, ~ gives (bsi_next m) i v).
Proof.
  intros E. apply exact_of.
  - intros v (o & D & ->). exact (proj1 (proj2 (C70_loops m dflt o)) s i E D).
  - intros f. destruct (f_bs dflt m s i f (nd_bsi_next m SE) E) as [C|C]; [left; exact (gives_of _ _ C)|now right].
Qed.
Theorem C72_lower_range_loop (r : LowerBoundedRange T) i : lbr_into_iter m r = Ret i ->
  (forall v, says [] loop [("a", enc_lbr r)] v <-> gives (lbri_next m) i v) /\
  (never [] loop [("a", enc_lbr r)] <-> forall v, ~ gives (lbri_next m) i v).
Proof.
  intros E. apply exact_of.
  - intros v (o & D & ->). exact (proj1 (proj2 (proj2 (C70_loops m dflt o))) r i E D).
  - intros f. destruct (f_lbr dflt m r i f (nd_lbri_next m SE) E) as [C|C]; [left; exact (gives_of _ _ C)|now right].
Qed.
Theorem C72_lower_set_loop (s : LowerBoundedSet T) i : lbs_into_iter m s = Ret i ->
  (forall v, says [] loop [("a", enc_lbs s)] v <-> gives (lbsi_next m) i v) /\
  (never [] loop [("a", enc_lbs s)] <-> forall v, ~ gives (lbsi_next m) i v).
Proof.
  intros E. apply exact_of.
  - intros v (o & D & ->). exact (proj2 (proj2 (proj2 (C70_loops m dflt o))) s i E D).
  - intros f. destruct (f_lbs dflt m s i f (nd_lbsi_next m SE) E) as [C|C]; [left; exact (gives_of _ _ C)|now right].
Qed.
(** [i.last()] of the iterator of a set. *)
Theorem C72_set_last (i : BoundedSetIter T) :
  (forall v, says [] (EMethod (EVar "i") "last" []) [("i", enc_bsi i)] v <->
     exists o, bsi_last m i o /\ v = (t <- o ;; Ret (enc_opt (@DElt T) t))) /\
  (never [] (EMethod (EVar "i") "last" []) [("i", enc_bsi i)] <-> forall o, ~ bsi_last m i o).
Proof.
  assert (Nd : forall o, bsi_last m i o -> o <> Diverge).
  { intros o. unfold bsi_last. pose proof (nd_trim m SE (rev (bsi_range_iters i))) as N.
    destruct (trim m (rev (bsi_range_iters i))) as [[|x l]| |]; [intros ->; discriminate| |intros ->; discriminate|congruence].
    intros (d & D & ->). clear N. induction D as [| ? ? ? d ? D IH|]; try discriminate. destruct d; cbn in *; congruence. }
  destruct (exact_of (fun v => exists o, bsi_last m i o /\ v = (t <- o ;; Ret (enc_opt (@DElt T) t)))
              [] (EMethod (EVar "i") "last" []) [("i", enc_bsi i)]) as [A B].
  - intros v (o & L & ->). exact (proj2 (proj2 (proj2 (proj2 (C70_set_consumers m SE dflt i)))) o (Nd o L) L).
  - intros f. destruct (f_bsi_last dflt m i f (nd_bri_next m SE) (nd_trim m SE _)) as [[o L]|C]; [left; eauto|now right].
  - split; [exact A|]. rewrite B. split; [intros F o L; exact (F _ (ex_intro _ o (conj L eq_refl)))|intros F v (o & L & _); exact (F o L)].
Qed.
End Never.

(** ** Integers, without overflow checks *)
Section Release.
Context {PF : Platform} {ty : ity} (dflt : option (mint ty)).
Notation T := (mint ty).
Notation says := (says dflt Release).
Notation never := (never dflt Release).
Notation loop := (loop_of (EMethod (EVar "a") "into_iter" [])).
Notation all l := (Ret (DList (map (@DElt T) (rev l)))).
Lemma none_given {S : Type} (next : S -> outcome (option T * S)) i : (forall o, ~ drains next i o) ->
  forall v, ~ exists o, drains next i o /\ v = (l <- o ;; Ret (DList (map (@DElt T) (rev l)))).
Proof. intros N v (o & D & _). exact (N o D). Qed.
Lemma given {S : Type} (next : S -> outcome (option T * S)) i l : drains next i (Ret l) ->
  exists o, drains next i o /\ all l = (l <- o ;; Ret (DList (map (@DElt T) (rev l)))).
Proof. intros D. eauto. Qed.
Lemma all_inj (l k : list T) : (all l : outcome (val T)) = all k -> l = k.
Proof.
  intros E. assert (E1 : map (@DElt T) (rev l) = map (@DElt T) (rev k)) by congruence.
  apply map_inj in E1; [|congruence]. rewrite <- (rev_involutive l), E1. apply rev_involutive.
Qed.
(** A loop that gives [l] if [P] and nothing otherwise. *)
Lemma loop_cases {S : Type} (next : S -> outcome (option T * S)) i x e (l : list T) (P Q : Prop) :
  (forall v, says [] x e v <-> exists o, drains next i o /\ v = (l <- o ;; Ret (DList (map (@DElt T) (rev l))))) /\
  (never [] x e <-> forall v, ~ exists o, drains next i o /\ v = (l <- o ;; Ret (DList (map (@DElt T) (rev l))))) ->
  (forall o, drains next i o <-> o = Ret l /\ P) -> P \/ Q -> (P -> Q -> False) ->
  (says [] x e (all l) <-> P) /\ (never [] x e <-> Q).
Proof.
  intros [A B] D [HP|HQ] X; rewrite B; split; split.
  - auto.
  - intros _. apply A, given, D. auto.
  - intros F. destruct (F (all l)). apply given, D. auto.
  - intros HQ. destruct (X HP HQ).
  - intros W. apply A in W. destruct W as (o & W & _). apply D in W. apply W.
  - intros HP. destruct (X HP HQ).
  - auto.
  - intros _ v (o & W & _). apply D in W. apply (X (proj2 W) HQ).
Qed.
Lemma top_or (P : T -> Prop) l : lists P l -> (forall t, P t -> ~ greatest t) \/ exists t, P t /\ greatest t.
Proof.
  intros [_ I]. destruct (top_dec l) as [(t & It & G)|G]; [right; exists t|left; intros t It]; [|apply G, I, It].
  split; [now apply I|exact G].
Qed.

(** A bounded range: the loop ends exactly if the greatest value of the type is not an element
    (but for the two kinds of empty range of the next theorem). *)
Theorem C72_release_range (r : BoundedRange T) (l : list T) :
  (forall t, br_start r = LB (Excluded t) -> ~ greatest t) -> (forall t, br_end r = UB (Excluded t) -> ~ least t) ->
  lists (in_range r) l ->
  (says [] loop [("a", enc_br r)] (all l) <-> forall t, in_range r t -> ~ greatest t) /\
  (never [] loop [("a", enc_br r)] <-> exists t, in_range r t /\ greatest t).
Proof.
  intros Hs He L. destruct (C32_range_panics_exact T PF _ _ _ _ r) as [Pn Nd].
  destruct (br_into_iter Debug r) as [i| |] eqn:E; [|exfalso|congruence].
  - apply (loop_cases (bri_next Release) i).
    + apply C72_range_loop; [apply C70_int_steps_end|]. exact (proj1 (C33_into_iter_agrees T PF _ _ _ _) r i E).
    + intros o. exact (proj1 (C23_release_exact PF ty r i l o E L)).
    + exact (top_or _ l L).
    + intros A (t & It & G). exact (A t It G).
  - destruct (proj1 Pn eq_refl) as [(t & E1 & G)|(t & E1 & G)]; [exact (Hs t E1 G)|exact (He t E1 G)].
Qed.
(** Ranges from [Excluded(MAX)] or to [Excluded(MIN)] are empty; yet the loop visits everything
    below the end, or runs forever. *)
Theorem C72_release_empty_range (r : BoundedRange T) (l : list T) :
  (exists t, br_start r = LB (Excluded t) /\ greatest t) \/ (exists t, br_end r = UB (Excluded t) /\ least t) ->
  lists (below (br_end r)) l ->
  (forall t, ~ in_range r t) /\
  (says [] loop [("a", enc_br r)] (all l) <->
     (forall t, br_end r = UB (Excluded t) -> ~ least t) /\ forall t, below (br_end r) t -> ~ greatest t) /\
  (never [] loop [("a", enc_br r)] <->
     (exists t, br_end r = UB (Excluded t) /\ least t) \/ exists t, below (br_end r) t /\ greatest t).
Proof.
  intros H L. apply (proj1 (C32_range_panics_exact T PF _ _ _ _ r)) in H.
  split; [exact (proj1 (C32_release_exact PF ty r Panic H))|].
  destruct (proj2 (C32_release_exact PF ty r Panic H)) as (i & E & _).
  apply (loop_cases (bri_next Release) i).
  - apply C72_range_loop; [apply C70_int_steps_end|exact E].
  - intros o. destruct (proj2 (C32_release_exact PF ty r o H)) as (i' & E' & D). rewrite E in E'. injection E' as <-. rewrite D. split.
    + intros (k & -> & A & K & B). rewrite (lists_unique _ _ _ K L). auto.
    + intros [-> [A B]]. exists l. auto.
  - destruct (top_or _ l L) as [A|A]; [|now right; right].
    destruct (br_end r) as [[e|e]]; [|left; split; [discriminate|exact A]].
    destruct (extreme_dec [e]) as [[Nl|(t & [<-|[]] & Le)] _].
    + left. split; [intros t [= <-]; apply Nl; now left|exact A].
    + right. left. exists e. auto.
  - intros [A B] [(t & E1 & G)|(t & It & G)]; [exact (A t E1 G)|exact (B t It G)].
Qed.
(** A set of a type narrower than [usize]: the same. *)
Theorem C72_release_set_narrow (s : BoundedSet T) (l : list T) :
  bits ty < usize_bits -> api (VBS s) -> lists (mem (VBS s)) l ->
  (says [] loop [("a", enc_bs s)] (all l) <-> forall t, mem (VBS s) t -> ~ greatest t) /\
  (never [] loop [("a", enc_bs s)] <-> exists t, mem (VBS s) t /\ greatest t).
Proof.
  intros B A L. destruct (C32_set_returns T PF _ _ _ _ s A) as (i & _ & E).
  apply (loop_cases (bsi_next Release) i).
  - apply C72_set_loop; [apply C70_int_steps_end|exact E].
  - intros o. rewrite (proj1 (C29_release_narrow PF ty s i o B A E)). split.
    + intros (k & -> & K & G). rewrite (lists_unique _ _ _ K L). auto.
    + intros [-> G]. exists l. auto.
  - exact (top_or _ l L).
  - intros C (t & It & G). exact (C t It G).
Qed.
(** Of a type as wide as [usize] or wider: the loop always ends, having seen the pieces that fit. *)
Theorem C72_release_set_wide (s : BoundedSet T) (l : list T) :
  usize_bits <= bits ty -> api (VBS s) -> lists (in_small_pieces (bs_ranges s)) l ->
  says [] loop [("a", enc_bs s)] (all l).
Proof.
  intros B A L. destruct (C32_set_returns T PF _ _ _ _ s A) as (i & _ & E).
  apply (C72_set_loop dflt Release (C70_int_steps_end ty Release) s i E).
  apply given, (proj1 (C29_release_wide PF ty s i (Ret l) B A E)). eauto.
Qed.
(** [last] of a set runs forever exactly if the greatest value is one it would see: on a wide type too. *)
Theorem C72_release_last (s : BoundedSet T) (i : BoundedSetIter T) (l : list T) :
  api (VBS s) -> bs_into_iter Release s = Ret i -> lists (in_small_pieces (bs_ranges s)) l ->
  (says [] (EMethod (EVar "i") "last" []) [("i", enc_bsi i)] (Ret (enc_opt (@DElt T) (hd_error (rev l)))) <->
     forall t, In t l -> ~ greatest t) /\
  (never [] (EMethod (EVar "i") "last" []) [("i", enc_bsi i)] <-> exists t, In t l /\ greatest t).
Proof.
  intros A E L. pose proof (fun o => C27_set_last_release PF ty s i l o A E L) as D.
  destruct (C72_set_last dflt Release (C70_int_steps_end ty Release) i) as [W N]. rewrite W, N. clear W N.
  destruct (top_dec l) as [(t & It & G)|G]; split; split.
  - intros (o & K & _). apply D in K. apply K.
  - intros F. destruct (F t It G).
  - intros _. eauto.
  - intros _ o K. apply D in K. exact (proj2 K t It G).
  - intros _. exact G.
  - intros _. eexists. split; [apply D; split; [reflexivity|exact G]|reflexivity].
  - intros F. destruct (F (Ret (hd_error (rev l)))). apply D. auto.
  - intros (t & It & Gt). destruct (G t It Gt).
Qed.
(** Lower-bounded ranges and sets: the loop never ends. *)
Theorem C72_release_lower :
  (forall r : LowerBoundedRange T, never [] loop [("a", enc_lbr r)]) /\
  (forall s : LowerBoundedSet T, never [] loop [("a", enc_lbs s)]).
Proof.
  assert (X : forall r : LowerBoundedRange T, exists i, lbr_into_iter Release r = Ret i).
  { intros [[[t|t]]]; unfold lbr_into_iter; cbn [lbr_start]; [|cbn [bind]; eauto].
    destruct (rel_fwd t 1 one_ok) as [y ->]. cbn [bind]. eauto. }
  split.
  - intros r. destruct (X r) as [i E]. apply (C72_lower_range_loop dflt Release (C70_int_steps_end ty Release) r i E).
    apply none_given, lbri_release.
  - intros s. assert (Y : exists i, bs_into_iter Release (lbs_ranges s) = Ret i).
    { unfold bs_into_iter. assert (Y : forall l : list (BoundedRange T), exists k, mapM (br_into_iter Release) l = Ret k).
      { induction l as [|r l [k IH]]; cbn [mapM]; [eauto|]. rewrite IH.
        assert (Z : exists i, br_into_iter Release r = Ret i).
        { unfold br_into_iter. destruct r as [[[a|a]] [[b|b]]]; cbn [br_start br_end].
          - destruct (rel_fwd a 1 one_ok) as [y ->], (rel_bwd b 1 one_ok) as [z ->]. cbn [bind]. eauto.
          - destruct (rel_fwd a 1 one_ok) as [y ->]. cbn [bind]. eauto.
          - destruct (rel_bwd b 1 one_ok) as [z ->]. cbn [bind]. eauto.
          - cbn [bind]. eauto. }
        destruct Z as [i ->]. cbn [bind]. eauto. }
      destruct (Y (bs_ranges (lbs_ranges s))) as [k ->]. cbn [bind]. eauto. }
    destruct Y as [si E1], (X (lbs_lbr s)) as [ri E2].
    apply (C72_lower_set_loop dflt Release (C70_int_steps_end ty Release) s (LBSI si ri)).
    + unfold lbs_into_iter. rewrite E1, E2. reflexivity.
    + apply none_given, lbsi_release.
Qed.
End Release.

(** ** With overflow checks *)
Section Debug.
Context (T : Type) (PF : Platform) (OT : Ord T) (ST : Step T) (NU : Numbered T) (SL : StepLaws T) (dflt : option T).
Context (SE : steps_end T Debug).
Notation says := (says dflt Debug).
Notation never := (never dflt Debug).
Notation loop := (loop_of (EMethod (EVar "a") "into_iter" [])).
Lemma brimful_or (rs : list (BoundedRange T)) :
  (exists r, In r rs /\ brimful (in_range r)) \/ forall r, In r rs -> ~ brimful (in_range r).
Proof.
  induction rs as [|r rs [(q & Iq & B)|N]]; [right; intros ? []|left; exists q; split; [now right|exact B]|].
  destruct (range_listing r) as [l L]. destruct (Z.eq_dec (Z.of_nat (length l)) (usize_max + 1)) as [E|E].
  - left. exists r. split; [now left|]. exists l. auto.
  - right. intros q [<-|Iq]; [|now apply N]. intros (k & K & Ek). rewrite (lists_unique _ _ _ K L) in Ek. contradiction.
Qed.
Lemma range_comes (r : BoundedRange T) i : br_into_iter Debug r = Ret i -> exists o, drains (bri_next Debug) i o.
Proof.
  intros E. destruct (range_listing r) as [l L]. destruct (C23_collect_exact T PF OT ST NU SL r i l E) as [C P].
  destruct (top_dec l) as [(t & It & G)|G].
  - exists Panic. apply P. exists t. split; [now apply (proj2 L)|exact G].
  - exists (Ret l). apply C. split; [exact L|]. intros t It. apply G, (proj2 L), It.
Qed.
Lemma set_comes (s : BoundedSet T) i : valid (VBS s) -> bs_into_iter Debug s = Ret i -> exists o, drains (bsi_next Debug) i o.
Proof.
  intros V E. destruct (small_listing (bs_ranges s) (proj2 V)) as [l L]. destruct (collect_complete s i l V E) as [C P].
  destruct (top_dec l) as [(t & It & G)|G]; [|destruct (brimful_or (bs_ranges s)) as [B|B]].
  - exists Panic. apply P. left. exists t. split; [now apply (proj2 L)|exact G].
  - exists Panic. apply P. now right.
  - exists (Ret l). apply C. split; [exact L|]. split; [|exact B]. intros t It. apply G, (proj2 L), It.
Qed.
(** No loop over a bounded range or set runs forever. *)
Theorem C72_debug_ends :
  (forall r : BoundedRange T, exists v, says [] loop [("a", enc_br r)] v) /\
  (forall s : BoundedSet T, api (VBS s) -> exists v, says [] loop [("a", enc_bs s)] v).
Proof.
  split.
  - intros r. destruct (br_into_iter Debug r) as [i| |] eqn:E.
    + destruct (range_comes r i E) as [o D]. eexists. apply (C72_range_loop dflt Debug SE r i E). exists o. split; [exact D|reflexivity].
    + exists Panic. exact (p_br dflt Debug r E).
    + destruct (nd_br_into_iter Debug SE r E).
  - intros s A. destruct (C32_set_returns T PF OT ST NU SL s A) as (i & E & _).
    destruct (set_comes s i (api_valid _ A) E) as [o D]. eexists. apply (C72_set_loop dflt Debug SE s i E). exists o. split; [exact D|reflexivity].
Qed.
(** Those over lower-bounded ranges and sets panic, if the type has a greatest value. *)
Theorem C72_debug_lower (g : T) : greatest g ->
  (forall r : LowerBoundedRange T, says [] loop [("a", enc_lbr r)] Panic) /\
  (forall s : LowerBoundedSet T, api (VLBS s) -> says [] loop [("a", enc_lbs s)] Panic).
Proof.
  intros G. split.
  - intros r. destruct (lbr_into_iter Debug r) as [i| |] eqn:E.
    + apply (C72_lower_range_loop dflt Debug SE r i E). exists Panic. split; [exact (lbri_reaches g G i)|reflexivity].
    + exact (p_lbr dflt Debug r E).
    + destruct (nd_lbr_into_iter Debug SE r E).
  - intros s A. destruct (lbs_into_iter Debug s) as [i| |] eqn:E.
    + apply (C72_lower_set_loop dflt Debug SE s i E). exists Panic. split; [|reflexivity].
      unfold lbs_into_iter in E. inv_bind E. inv_bind E. injection E as <-.
      destruct (set_comes (lbs_ranges s) a) as [o D]; [exact (proj1 (api_valid _ A))|exact E0|].
      pose proof (drains_lbsi Debug a o D _ _ (lbri_reaches g G a0)) as K. pose proof (lbsi_panics _ _ _ K) as W. rewrite W in K. exact K.
    + exact (p_lbs dflt Debug s E).
    + destruct (nd_lbs_into_iter Debug SE s E).
Qed.
End Debug.

(** Lower-bounded ranges and sets: in any build and on any type, a loop over one does not end with a value. *)
Theorem C72_lower_no_value (T : Type) (PF : Platform) (OT : Ord T) (ST : Step T) (dflt : option T) (m : mode) (v : val T) :
  steps_end T m ->
  (forall r, ~ says dflt m [] (loop_of (EMethod (EVar "a") "into_iter" [])) [("a", enc_lbr r)] (Ret v)) /\
  (forall s, ~ says dflt m [] (loop_of (EMethod (EVar "a") "into_iter" [])) [("a", enc_lbs s)] (Ret v)).
Proof.
  intros SE. split; intros r W.
  - destruct (lbr_into_iter m r) as [i| |] eqn:E; [| |exact (nd_lbr_into_iter m SE r E)].
    + apply (C72_lower_range_loop dflt m SE r i E) in W. destruct W as (o & D & F). apply lbri_panics in D. subst. discriminate.
    + pose proof (C69_one_outcome _ _ _ _ _ _ _ _ _ _ _ W (p_lbr dflt m r E)). discriminate.
  - destruct (lbs_into_iter m r) as [i| |] eqn:E; [| |exact (nd_lbs_into_iter m SE r E)].
    + apply (C72_lower_set_loop dflt m SE r i E) in W. destruct W as (o & D & F). apply lbsi_panics in D. subst. discriminate.
    + pose proof (C69_one_outcome _ _ _ _ _ _ _ _ _ _ _ W (p_lbs dflt m r E)). discriminate.
Qed.

(** ** Examples on u8 *)
#[local] Existing Instance pf64.
Notation whole := (loop_of (EMethod (EVar "a") "into_iter" [])).
Definition fueled (mo : mode) (n : nat) (x : RustSyntax.expr) (e : env U) : option (outcome (ans U)) :=
  exec (None : option U) mo n (RustEval.eval None mo [] x e (fun r _ => match r with N v => Done (AVal v []) | _ => Stuck end)).
(** 253..=255: 300 turns do not end the loop; 250..254 is done in 12 levels of calls. *)
Example C72_release_range_ex :
  let r := BR (LB (Included (u 253))) (UB (Included (u 255))) in
  never None Release [] whole [("a", enc_br r)] /\ fueled Release 300 whole [("a", enc_br r)] = Some Diverge /\
  says None Debug [] whole [("a", enc_br r)] Panic /\
  fueled Release 12 whole [("a", enc_br (half 250 254))] = Some (Ret (AVal (DList (map DElt [u 253; u 252; u 251; u 250])) [])).
Proof.
  cbv zeta. split; [|split; [vm_compute; reflexivity|split]].
  - destruct (range_listing (BR (LB (Included (u 253))) (UB (Included (u 255))))) as [l L].
    refine (proj2 (proj2 (C72_release_range None _ l _ _ L)) _); [discriminate|discriminate|].
    exists (u 255). split; [|apply greatest_val; reflexivity]. split; vm_compute; discriminate || reflexivity.
  - apply exec_runs with (fuel := 100%nat); [vm_compute; reflexivity|discriminate].
  - vm_compute. reflexivity.
Qed.
(** 0..0, empty: the loop never ends.  [(255, 3]], empty: the loop sees 0 to 3. *)
Example C72_release_empty_range_ex :
  never None Release [] whole [("a", enc_br (half 0 0))] /\
  (forall t, ~ in_range (half 0 0) t) /\
  fueled Release 20 whole [("a", enc_br (BR (LB (Excluded (u 255))) (UB (Included (u 3)))))]
    = Some (Ret (AVal (DList (map DElt [u 3; u 2; u 1; u 0])) [])).
Proof.
  assert (G : br_end (half 0 0) = UB (Excluded (u 0)) /\ least (u 0)) by (split; [reflexivity|apply least_val; reflexivity]).
  assert (L : lists (below (br_end (half 0 0))) []).
  { split; [constructor|]. intros t. split; [intros []|]. intros B. cbn in B. apply lt_idx in B. pose proof (proj2 G t) as K.
    apply le_idx in K. cbn in *. lia. }
  destruct (C72_release_empty_range None (half 0 0) [] (or_intror (ex_intro _ _ G)) L) as (A & _ & N).
  split; [apply N; left; eexists; exact G|]. split; [exact A|vm_compute; reflexivity].
Qed.
Example C72_release_set_ex :
  fueled Release 30 whole [("a", enc_bs (BS [half 1 4; half 8 10]))] = Some (Ret (AVal (DList (map DElt [u 9; u 8; u 3; u 2; u 1])) [])) /\
  fueled Release 300 whole [("a", enc_bs (BS [half 1 4; BR (LB (Included (u 253))) (UB (Included (u 255)))]))] = Some Diverge.
Proof. split; vm_compute; reflexivity. Qed.
Example C72_release_last_ex :
  fueled Release 300 (EMethod (EVar "i") "last" []) [("i", enc_bsi (BSI [BRI (u 1) (u 4); BRI (u 250) (u 255)]))] = Some Diverge /\
  fueled Release 30 (EMethod (EVar "i") "last" []) [("i", enc_bsi (BSI [BRI (u 1) (u 4); BRI (u 250) (u 254)]))]
    = Some (Ret (AVal (some_val (DElt (u 254))) [])).
Proof. split; vm_compute; reflexivity. Qed.
Example C72_lower_ex :
  fueled Release 300 whole [("a", enc_lbr (LBR (LB (Included (u 253)))))] = Some Diverge /\
  fueled Debug 300 whole [("a", enc_lbr (LBR (LB (Included (u 253)))))] = Some Panic /\
  fueled Debug 300 whole [("a", enc_lbs (LBS (BS [half 1 4]) (LBR (LB (Included (u 250))))))] = Some Panic /\
  greatest (u 255).
Proof. repeat split; try (vm_compute; reflexivity). apply greatest_val. reflexivity. Qed.
Example C27_set_last_release_ex :
  bsi_last (PF := pf64) Release (BSI [BRI (u 1) (u 4); BRI (u 252) (u 253)]) (Ret (Some (u 253))).
Proof.
  unfold bsi_last. replace (trim Release (rev (bsi_range_iters (BSI [BRI (u 1) (u 4); BRI (u 252) (u 253)]))))
    with (Ret [BRI (u 252) (u 253); BRI (u 1) (u 4)]) by (vm_compute; reflexivity).
  exists (Ret [u 252; u 253]). split; [|reflexivity].
  apply (drains_item _ _ (BRI (u 253) (u 253)) (u 252) (Ret [u 253])); [vm_compute; reflexivity|].
  apply (drains_item _ _ (BRI (u 254) (u 253)) (u 253) (Ret [])); [vm_compute; reflexivity|].
  apply (drains_done _ _ (BRI (u 254) (u 253))). vm_compute. reflexivity.
Qed.

Print Assumptions C72_never_excludes.
Print Assumptions C72_enough_fuel.
Print Assumptions C72_range_loop.
Print Assumptions C72_set_loop.
Print Assumptions C72_lower_range_loop.
Print Assumptions C72_lower_set_loop.
Print Assumptions C72_set_last.
Print Assumptions C72_release_range.
Print Assumptions C72_release_empty_range.
Print Assumptions C72_release_set_narrow.
Print Assumptions C72_release_set_wide.
Print Assumptions C72_release_last.
Print Assumptions C72_release_lower.
Print Assumptions C72_debug_ends.
Print Assumptions C72_debug_lower.
Print Assumptions C72_lower_no_value.
