(** C73: client programs.  A program that keeps sets and iterators in variables, combines
    sets with the operations of the crate, branches on the questions of the crate, takes
    elements from the iterators at either end and loops with [for], [loop] and [break] does, run on the translated text of the source, what the model
    says of it (ClientProg.v), whatever the program, the values, the element type, the
    platform and the build: it gives the value, panics, or runs forever. *)
From Coq Require Import String Lia ZifyBool.
From Verif Require Import Base ModelBound ModelRanges ModelSets ModelAlgebra ModelValue ModelStep ModelIter
  Instances InstancesStep Spec
  RustSyntax Source RustEval RustEnc RustTac RustRuns RustSays RustForever RustGives ClientProg RustProg ClientTypes RustProgEnds
  PropertiesSource PropertiesSource2 PropertiesSource4.
Open Scope Z_scope.
Open Scope string_scope.
Open Scope list_scope.

Section Programs.
Context {T : Type} {PF : Platform} {OT : Ord T} {ST : Step T} (dflt : option T) (m : mode).
Notation says := (says dflt m).
Notation never := (never dflt m).
Notation tools := ["Rangetools"].
Definition enc_given (g : ClientProg.given T) : val T := match g with GSet v => enc_value v | GBool b => DBool b end.
Notation enc_end o := (g <- o ;; Ret (enc_given g)).

Lemma g_fin (s : state T) f : shows dflt m (ftext f) s enc_given (fin_val s f).
Proof.
  destruct f as [a|c]; cbn [ftext fin_val].
  - pose proof (shows_sval dflt m s a) as H. destruct (sval s a) as [[v| |]|]; exact H.
  - pose proof (shows_cond dflt m s c) as H. destruct (cval_of s c) as [[v| |]|]; exact H.
Qed.
Lemma fin_ends (s : state T) f : fin_val s f <> Some Diverge.
Proof.
  destruct f as [a|c]; cbn [fin_val]; apply andthen_ends; try discriminate; [apply sval_ends|apply cond_ends].
Qed.
Lemma says_gives (x : RustSyntax.expr) (e e' : env T) (o : outcome (val T)) : gives dflt m (RustEval.eval dflt m tools x) e (v <- o ;; Ret (N v, e')) ->
  o <> Diverge -> says tools x e o.
Proof.
  intros G D. destruct o as [v| |]; [| |now destruct D]; cbn [bind] in G.
  - apply (G (fun p => runs dflt m p (Ret (AVal v []))) (passes_runs dflt m _)). constructor.
  - apply G.
Qed.

(** What the model says of a program, its text does. *)
Theorem C73_programs (s : state T) (b : block) (f : fin) (o : outcome (ClientProg.given T)) :
  prun m s b f (Some o) -> says tools (ptext b f) (enc_state s) (enc_end o).
Proof.
  intros R. inversion R as [s' r B F|s' B|r0 r B F]; subst.
  - pose proof (proj1 (text_sound dflt m) _ _ _ B) as K. cbn [b_shows done] in K.
    pose proof (g_fin s' f) as G. rewrite F in G. cbn [shows] in G.
    assert (D : o <> Diverge) by (intros ->; now apply fin_ends in F).
    apply (says_gives _ _ (pop_to (size (enc_state s)) (enc_state s'))); [|destruct o; discriminate || now destruct D].
    unfold ptext. rewrite eval_block. pose proof (g_scoped dflt m [] _ _ _ (K (ftext f) _ G)) as H.
    destruct o as [g| |]; exact H.
  - inversion F; subst. pose proof (proj1 (text_sound dflt m) _ _ _ B) as K. cbn [b_shows] in K.
    apply (says_gives _ _ (enc_state s)); [|discriminate]. unfold ptext. rewrite eval_block. exact (g_scoped dflt m [] _ _ _ (K (ftext f))).
Qed.

(** So the model has at most one outcome for a program. *)
Lemma enc_given_inj (g h : ClientProg.given T) : enc_given g = enc_given h -> g = h.
Proof.
  destruct g as [v|b], h as [w|c]; cbn [enc_given]; intros E.
  - f_equal. now apply enc_value_inj.
  - now destruct v.
  - now destruct w.
  - now injection E as ->.
Qed.
Theorem C73_one_outcome (s : state T) (b : block) (f : fin) (o o' : outcome (ClientProg.given T)) :
  prun m s b f (Some o) -> prun m s b f (Some o') -> o = o'.
Proof.
  intros P Q. pose proof (C69_one_outcome _ _ _ _ _ _ _ _ _ _ _ (C73_programs _ _ _ _ P) (C73_programs _ _ _ _ Q)) as E.
  destruct o as [x| |], o' as [y| |]; try discriminate E; try reflexivity. f_equal. apply enc_given_inj. now injection E.
Qed.

(** Where stepping an element ends, nothing else happens: a program that does not go wrong
    gives exactly what the model says, and runs forever exactly when the model has no outcome. *)
Theorem C73_exact (s : state T) (b : block) (f : fin) : steps_end T m -> ~ prun m s b f None ->
  (forall v, says tools (ptext b f) (enc_state s) v <-> exists o, prun m s b f (Some o) /\ v = enc_end o) /\
  (never tools (ptext b f) (enc_state s) <-> forall o, ~ prun m s b f (Some o)).
Proof.
  intros SE W.
  pose proof (exact_of dflt m (fun v => exists o, prun m s b f (Some o) /\ v = enc_end o) tools (ptext b f) (enc_state s)) as X.
  destruct X as [X Y].
  - intros v (o & R & ->). now apply C73_programs.
  - intros fuel. destruct (proj1 (total dflt m SE fuel) s b) as [[r R]|S].
    + left. destruct r as [[[[] s']| |]|].
      * destruct (fin_val s' f) as [o|] eqn:F; [exists (enc_end o), o; split; [eapply p_through; eauto|reflexivity]|].
        destruct W. eapply p_through; eauto.
      * destruct W. eapply p_broken; eauto.
      * exists Panic, Panic. split; [eapply p_stop; [exact R|constructor]|reflexivity].
      * now apply (proj1 (runs_end m)) in R.
      * destruct W. eapply p_stop; [exact R|constructor].
    + right. unfold text_of, ptext. exact (st_block dflt m fuel (ftext f) (btext b) (enc_state s) (S (ftext f)) _).
  - split; [exact X|]. rewrite Y. split; [intros H o R; apply (H (enc_end o)); eauto|intros H v (o & R & _); exact (H o R)].
Qed.

(** Well-typed programs never go wrong: no hypothesis is left but the types. *)
Theorem C73_typed {OL : OrdLaws T} (s : state T) (g : ctx) (b : block) (f : fin) : steps_end T m -> has s g -> ptyped g b f = true ->
  (forall v, says tools (ptext b f) (enc_state s) v <-> exists o, prun m s b f (Some o) /\ v = enc_end o) /\
  (never tools (ptext b f) (enc_state s) <-> forall o, ~ prun m s b f (Some o)).
Proof. intros SE H P. apply C73_exact; [exact SE|]. exact (prog_typed m s g b f H P). Qed.

(** The value has the type the rules of Spec.v give the program. *)
Theorem C73_result_type {OL : OrdLaws T} (s : state T) (g : ctx) (b : block) (a : sexp) (v : val T) : steps_end T m -> has s g ->
  ptyped g b (FSet a) = true -> says tools (ptext b (FSet a)) (enc_state s) (Ret v) ->
  exists w, v = enc_value w /\ stype (after g b) a = Some (kind_of w).
Proof.
  intros SE H P S. apply (C73_typed s g b (FSet a) SE H P) in S as (o & R & E).
  unfold ptyped in P. apply andb_prop in P as [B F]. inversion R as [s' r Rb Fv|s' Rb|r0 r Rb Fl]; subst.
  - destruct (proj1 (well_typed m) _ _ _ Rb g false H B) as (d & K & A). cbn [ftyped] in F. unfold typed in F.
    destruct (stype (after g b) a) as [k|] eqn:Y; [|discriminate]. rewrite A in Y. pose proof (sval_typed s' _ a k K Y) as [_ L].
    cbn [fin_val] in Fv. destruct (sval s' a) as [[w| |]|]; cbn [andthen done] in Fv; try (inversion Fv; subst; discriminate).
    injection Fv as <-. cbn [bind enc_given] in E. injection E as ->. exists w. split; [reflexivity|]. f_equal. symmetry. now apply L.
  - inversion Fl; subst. discriminate.
Qed.
End Programs.

(** For the integer types and char: for every well-typed program, in every build. *)
Theorem C73_integers (PF : Platform) (ty : ity) (m : mode) (s : state (mint ty)) (g : ctx) (b : block) (f : fin) :
  has s g -> ptyped g b f = true ->
  (forall v, says None m ["Rangetools"] (ptext b f) (enc_state s) v <-> exists o, prun m s b f (Some o) /\ v = (x <- o ;; Ret (enc_given x))) /\
  (never None m ["Rangetools"] (ptext b f) (enc_state s) <-> forall o, ~ prun m s b f (Some o)).
Proof. exact (C73_typed None m s g b f (C70_int_steps_end ty m)). Qed.
Theorem C73_chars (PF : Platform) (m : mode) (s : state chr) (g : ctx) (b : block) (f : fin) :
  has s g -> ptyped g b f = true ->
  (forall v, says None m ["Rangetools"] (ptext b f) (enc_state s) v <-> exists o, prun m s b f (Some o) /\ v = (x <- o ;; Ret (enc_given x))) /\
  (never None m ["Rangetools"] (ptext b f) (enc_state s) <-> forall o, ~ prun m s b f (Some o)).
Proof. exact (C73_typed None m s g b f (C70_char_steps_end m)). Qed.

Definition c73_all := (@C73_programs, @C73_one_outcome, @C73_exact, @C73_typed, @C73_result_type, @C73_integers, @C73_chars).
Print Assumptions c73_all.

(** ** Examples, on u8 *)
#[local] Existing Instance pf64.
Definition elts (l : list (string * Z)) : state U := map (fun p => (fst p, CElt (u (snd p)))) l.
Definition elts_ctx (l : list (string * Z)) : ctx := map (fun p => (fst p, TElt)) l.
Lemma has_elts l : has (elts l) (elts_ctx l).
Proof. induction l as [|[x z] l IH]; constructor; [now split|exact IH]. Qed.

(** [let mut acc = (p..p).to_set();
     for t in (p..q).union(r..z) {
       if t == k {} else { acc = acc.union(t..=t); }
       if r < t { break; } else {}
     }
     acc] *)
Definition gather : block :=
  BLet "acc" (XSet (XRange "p" "p"))
  (BFor "t" (XUnion (XRange "p" "q") (XRange "r" "z"))
    (BIf (QSame "t" "k") BEnd (BPut "acc" (XUnion (XVar "acc") (XIncl "t" "t")) BEnd)
    (BIf (QLess "r" "t") BBreak BEnd BEnd))
  BEnd).
Definition gather_vars : list (string * Z) := [("p", 1); ("q", 5); ("r", 8); ("z", 250); ("k", 3)].
Definition one (z : Z) : BoundedRange U := BR (LB (Included (u z))) (UB (Included (u z))).
Example C73_gather_ex :
  ptyped (elts_ctx gather_vars) gather (FSet (XVar "acc")) = true /\
  stype (after (elts_ctx gather_vars) gather) (XVar "acc") = Some KBoundedSet /\
  says None Debug ["Rangetools"] (ptext gather (FSet (XVar "acc"))) (enc_state (elts gather_vars))
    (Ret (enc_value (VBS (BS [one 1; one 2; one 4; one 8; one 9])))) /\
  prun Debug (elts gather_vars) gather (FSet (XVar "acc")) (Some (Ret (GSet (VBS (BS [one 1; one 2; one 4; one 8; one 9]))))).
Proof.
  assert (R : says None Debug ["Rangetools"] (ptext gather (FSet (XVar "acc"))) (enc_state (elts gather_vars))
    (Ret (enc_value (VBS (BS [one 1; one 2; one 4; one 8; one 9]))))).
  { apply exec_runs with (fuel := 300%nat); [vm_compute; reflexivity|discriminate]. }
  split; [reflexivity|split; [reflexivity|split; [exact R|]]].
  apply (C73_integers pf64 U8 Debug _ _ gather (FSet (XVar "acc")) (has_elts gather_vars) eq_refl) in R as (o & P & E).
  change (enc_value (VBS (BS [one 1; one 2; one 4; one 8; one 9]))) with (enc_given (GSet (VBS (BS [one 1; one 2; one 4; one 8; one 9])))) in E.
  destruct o as [g| |]; try discriminate E. cbn [bind] in E. injection E as E.
  apply (enc_given_inj (GSet (VBS (BS [one 1; one 2; one 4; one 8; one 9]))) g) in E. now rewrite E.
Qed.

(** An iterator taken from at both ends until they meet:
    [let mut it = (p..=q).to_inner().into_iter();
     let mut acc = (p..p).to_set();
     loop {
       match it.next() { Some(t) => { acc = acc.union(t..=t); } _ => { break; } }
       match it.next_back() { Some(t) => { if t == k { break; } else {} } _ => { break; } }
     }
     acc] *)
Definition meet : block :=
  BIter "it" (XInner (XIncl "p" "q"))
  (BLet "acc" (XSet (XRange "p" "p"))
  (BLoop
    (BNext false "t" "it" (BPut "acc" (XUnion (XVar "acc") (XIncl "t" "t")) BEnd) BBreak
    (BNext true "t" "it" (BIf (QSame "t" "k") BBreak BEnd BEnd) BBreak BEnd))
  BEnd)).
Definition meet_vars (k : Z) : list (string * Z) := [("p", 1); ("q", 7); ("k", k)].
Example C73_meet_ex :
  ptyped (elts_ctx (meet_vars 0)) meet (FSet (XVar "acc")) = true /\
  says None Debug ["Rangetools"] (ptext meet (FSet (XVar "acc"))) (enc_state (elts (meet_vars 0)))
    (Ret (enc_value (VBS (BS [one 1; one 2; one 3; one 4])))) /\
  says None Debug ["Rangetools"] (ptext meet (FSet (XVar "acc"))) (enc_state (elts (meet_vars 6)))
    (Ret (enc_value (VBS (BS [one 1; one 2])))).
Proof. repeat split; apply exec_runs with (fuel := 300%nat); try discriminate; vm_compute; reflexivity. Qed.

(** A loop without end in release builds: [for t in (p..).to_inner() {}]; and one over the
    same range that a [break] ends: [for t in (p..).to_inner() { if t == k { break; } else {} }]. *)
Definition idle (c : block) : block := BFor "t" (XInner (XFrom "p")) c BEnd.
Lemma get_set {A : Type} x (a b : A) l : get x l = Some a -> get x (set x b l) = Some b.
Proof.
  induction l as [|[y c] l IH]; cbn; [discriminate|]. destruct (String.eqb x y) eqn:E; cbn; rewrite E; [reflexivity|exact IH].
Qed.
Lemma oldest_cons {A : Type} (p : A) l n : n = length l -> oldest n (p :: l) = l.
Proof. intros ->. unfold oldest. cbn [length]. now replace (S (length l) - length l)%nat with 1%nat by lia. Qed.
Lemma idle_turns (s : state U) t r : frun Release s t BEnd r -> (exists i, get it_var s = Some (CIter (JLBR i))) -> False.
Proof.
  assert (Nx : forall i : LowerBoundedRangeIter U, exists j, lbri_next Release i = Ret (Some (lbri_current i), j)).
  { intros i. unfold lbri_next. destruct (forward Release (lbri_current i) 1) as [j| |] eqn:F; [eexists; reflexivity| |].
    - exfalso. revert F. cbn [forward StepMint]. unfold int_forward. destruct int_forward_checked; discriminate.
    - now destruct (C70_int_steps_end U8 Release (lbri_current i) 1) as [H _]. }
  intros R. remember BEnd as body eqn:B. induction R as [s t body i i' G N|s t body i x i' s' r G N H R IH|s t body i x i' s' G N H
    |s t body i x i' r0 r G N H F|s t body i G N|s t body G]; subst; intros (j & J).
  all: try (rewrite J in G; injection G as <-; cbn [next] in N; destruct (Nx j) as [j' E]; rewrite E in N; cbn [bind fst snd] in N); try discriminate.
  - injection N as <- <-. inversion H; subst. apply IH; [reflexivity|]. rewrite oldest_cons by now rewrite set_length.
    eexists. eapply get_set, J.
  - inversion H.
  - injection N as <- <-. inversion H; subst. inversion F.
  - exact (G _ J).
Qed.
Example C73_idle_ex :
  never None Release ["Rangetools"] (ptext (idle BEnd) (FCond (QSame "p" "p"))) (enc_state (elts [("p", 250)])) /\
  says None Debug ["Rangetools"] (ptext (idle BEnd) (FCond (QSame "p" "p"))) (enc_state (elts [("p", 250)])) Panic /\
  says None Debug ["Rangetools"] (ptext (idle (BIf (QSame "t" "k") BBreak BEnd BEnd)) (FCond (QLess "k" "p")))
    (enc_state (elts [("p", 250); ("k", 253)])) (Ret (DBool false)) /\
  says None Release ["Rangetools"] (ptext (idle (BIf (QSame "t" "k") BBreak BEnd BEnd)) (FCond (QLess "k" "p")))
    (enc_state (elts [("p", 250); ("k", 3)])) (Ret (DBool true)).
Proof.
  split; [|repeat split; apply exec_runs with (fuel := 300%nat); try discriminate; vm_compute; reflexivity].
  destruct (C73_integers pf64 U8 Release _ _ (idle BEnd) (FCond (QSame "p" "p")) (has_elts [("p", 250)]) eq_refl) as [_ X].
  apply (proj2 X).
  intros o R. assert (K : forall r, ~ brun Release (elts [("p", 250)]) (idle BEnd) r).
  { intros r B. inversion B; subst; try match goal with F : fails _ _ |- _ => solve [inversion F] end.
    - match goal with E : sval _ _ = done _, I : into_iter _ _ = done _ |- _ => injection E as <-; injection I as <- end.
      match goal with F : frun _ _ _ _ _ |- _ => apply (idle_turns _ _ _ F) end. eexists. reflexivity.
    - match goal with E : sval _ _ = done _, I : into_iter _ _ = done _ |- _ => injection E as <-; injection I as <- end.
      match goal with F : frun _ _ _ _ _ |- _ => apply (idle_turns _ _ _ F) end. eexists. reflexivity.
    - match goal with E : sval _ _ = done _, F : fails (into_iter _ _) _ |- _ => injection E as <-; inversion F end. }
  inversion R; subst; eapply K; eassumption.
Qed.
(** Types the program cannot have: a range put in a variable of a set type, [break] outside a loop, a loop over [..x],
    [next_back] on the iterator of a [LowerBoundedRange]. *)
Example C73_ill_typed_ex :
  ptyped (elts_ctx gather_vars) (BLet "acc" (XRange "p" "q") (BPut "acc" (XUnion (XVar "acc") (XRange "r" "z")) BEnd)) (FSet (XVar "acc")) = false /\
  ptyped (elts_ctx gather_vars) (BIf (QSame "p" "q") BBreak BEnd BEnd) (FSet XFull) = false /\
  ptyped (elts_ctx gather_vars) (BFor "t" (XTo "p") BEnd BEnd) (FSet XFull) = false /\
  ptyped (elts_ctx gather_vars) (BIter "it" (XInner (XFrom "p")) (BNext true "t" "it" BEnd BEnd BEnd)) (FSet XFull) = false /\
  ptyped (elts_ctx gather_vars) (BIter "it" (XInner (XFrom "p")) (BNext false "t" "it" BEnd BEnd BEnd)) (FSet XFull) = true /\
  prun Debug (elts gather_vars) (BFor "t" (XTo "p") BEnd BEnd) (FSet XFull) None.
Proof.
  repeat split. eapply p_stop; [|constructor]. eapply b_for_iter; [reflexivity|constructor].
Qed.
