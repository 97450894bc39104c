(** A client's loop over an iterator of the source, [while let Some(x) = i.next() { v.push_front(x) }]:
    it collects what [drains] says. *)
From Coq Require Import String.
From Verif Require Import Base ModelBound ModelRanges ModelSets ModelAlgebra ModelValue ModelStep ModelIter ModelConv
  RustSyntax Source RustEval RustEnc RustTac RustRange RustSet RustSays RustIter RustIterSet RustIterLast RustStep RustStepChar RustIterClient.
Open Scope Z_scope.
Open Scope string_scope.
Open Scope list_scope.
(** [let mut i = x; let mut v = VecDeque::new(); while let Some(x) = i.next() { v.insert(0, x); } v] *)
Definition loop_of (x : RustSyntax.expr) : RustSyntax.expr :=
  EBlock [SLet (PBind "i") x; SLet (PBind "v") (ECall "VecDeque" "new" []);
          SExpr (EWhile (EBool true)
            (EMatch (EMethod (EVar "i") "next" [])
               [(PCon "Some" [("0", PBind "x")], EBlock [SExpr (EMethod (EVar "v") "insert" [ELit 0; EVar "x"])] (ECon "tuple" []));
                (PWild, EBreak)]))]
    (EVar "v").
Section Iter.
Context {T : Type} {PF : Platform} {OT : Ord T} {ST : Step T} (dflt : option T) (m : mode).
Notation calls := (calls dflt m).
Notation says_ := (says_ dflt m).


(** The loop, entered with [w] in [v]. *)
Ltac loop B D next enc :=
  apply drains_drained in D; destruct D as (e & D & ->);
  unfold says_, loop_of; node;
  lazymatch goal with
  | |- ends _ _ (Call (RFn _ _) _) _ => eapply ends_call; [solve [eauto with calls nocore]|]; rewrite B; cbn [bind]; node
  | _ => idtac
  end;
  lazymatch goal with
  | |- ends _ _ (Call (RWhile ?sc ?c ?b [("v", _); ("i", _); ("a", ?a)]) _) _ =>
    assert (L : forall x e, drained next x e -> forall w,
      calls (RWhile sc c b [("v", DList (map (@DElt T) w)); ("i", enc x); ("a", a)])
       (p <- e ;; Ret (AEnv (N unit_val) [("v", DList (map (@DElt T) (rev (fst p) ++ w))); ("i", enc (snd p)); ("a", a)])))
  end;
  [ induction 1 as [s s' H|s s' x o H _ IH|s H]; intros w; unfold calls;
    [ runs_
    | lazymatch goal with
      | H' : _ = Ret (Some ?x', _), J : forall w, _ |- context [DList (map _ ?w')] =>
        specialize (J (x' :: w')); lazymatch type of J with ?P => change (later P) in J end;
        assert (Ev : vd_insert w' (Z.to_nat 0) x' = Ret (x' :: w')) by reflexivity
      end;
      destruct o as [[l y]| |]; cbn [bind fst snd rev] in *; try exact I; rewrite <- ?app_assoc; cbn [app]; runs_;
      node; eapply ends_call; [apply IH|reflexivity]
    | runs_ ]
  | lazymatch goal with
    | L : forall x e, drained _ x e -> _, D' : drained _ _ ?d |- _ => eapply ends_call; [apply (L _ d D' [])|]; clear L D'
    end; destruct e as [[l y]| |]; cbn [bind fst snd]; try exact I; try reflexivity; rewrite ?app_nil_r; runs_ ].
Lemma l_bri (i : BoundedRangeIter T) o : drains (bri_next m) i o ->
  says_ [] (loop_of (EVar "a")) [("a", enc_bri i)] (l <- o ;; Ret (DList (map DElt (rev l)))).
Proof. intros D. loop D D (bri_next (T := T) m) (@enc_bri T). Qed.
Lemma l_bsi (i : BoundedSetIter T) o : drains (bsi_next m) i o ->
  says_ [] (loop_of (EVar "a")) [("a", enc_bsi i)] (l <- o ;; Ret (DList (map DElt (rev l)))).
Proof. intros D. loop D D (bsi_next (T := T) m) (@enc_bsi T). Qed.
Lemma l_lbri (i : LowerBoundedRangeIter T) o : drains (lbri_next m) i o ->
  says_ [] (loop_of (EVar "a")) [("a", enc_lbri i)] (l <- o ;; Ret (DList (map DElt (rev l)))).
Proof. intros D. loop D D (lbri_next (T := T) m) (@enc_lbri T). Qed.
Lemma l_lbsi (i : LowerBoundedSetIter T) o : drains (lbsi_next m) i o ->
  says_ [] (loop_of (EVar "a")) [("a", enc_lbsi i)] (l <- o ;; Ret (DList (map DElt (rev l)))).
Proof. intros D. loop D D (lbsi_next (T := T) m) (@enc_lbsi T). Qed.
Lemma l_br (r : BoundedRange T) i o : br_into_iter m r = Ret i -> drains (bri_next m) i o ->
  says_ [] (loop_of (EMethod (EVar "a") "into_iter" [])) [("a", enc_br r)] (l <- o ;; Ret (DList (map DElt (rev l)))).
Proof. intros B D. loop B D (bri_next (T := T) m) (@enc_bri T). Qed.
Lemma l_bs (r : BoundedSet T) i o : bs_into_iter m r = Ret i -> drains (bsi_next m) i o ->
  says_ [] (loop_of (EMethod (EVar "a") "into_iter" [])) [("a", enc_bs r)] (l <- o ;; Ret (DList (map DElt (rev l)))).
Proof. intros B D. loop B D (bsi_next (T := T) m) (@enc_bsi T). Qed.
Lemma l_lbr (r : LowerBoundedRange T) i o : lbr_into_iter m r = Ret i -> drains (lbri_next m) i o ->
  says_ [] (loop_of (EMethod (EVar "a") "into_iter" [])) [("a", enc_lbr r)] (l <- o ;; Ret (DList (map DElt (rev l)))).
Proof. intros B D. loop B D (lbri_next (T := T) m) (@enc_lbri T). Qed.
Lemma l_lbs (r : LowerBoundedSet T) i o : lbs_into_iter m r = Ret i -> drains (lbsi_next m) i o ->
  says_ [] (loop_of (EMethod (EVar "a") "into_iter" [])) [("a", enc_lbs r)] (l <- o ;; Ret (DList (map DElt (rev l)))).
Proof. intros B D. loop B D (lbsi_next (T := T) m) (@enc_lbsi T). Qed.
End Iter.
