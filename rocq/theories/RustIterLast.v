(** The source of [last] of an iterator over a set: it calls [next] of the last piece to the end. *)
From Coq Require Import String.
From Verif Require Import Base ModelBound ModelRanges ModelSets ModelValue ModelStep ModelIter ModelConv
  RustSyntax Source RustEval RustEnc RustTac RustRange RustIter RustIterSet.
Open Scope Z_scope.
Open Scope string_scope.
Open Scope list_scope.

(** [drains], with the iterator left behind. *)
Inductive drained {A S : Type} (next : S -> outcome (option A * S)) : S -> outcome (list A * S) -> Prop :=
| drained_done s s' : next s = Ret (None, s') -> drained next s (Ret ([], s'))
| drained_item s s' x o : next s = Ret (Some x, s') -> drained next s' o ->
    drained next s (p <- o ;; Ret (x :: fst p, snd p))
| drained_panic s : next s = Panic -> drained next s Panic.
Lemma drains_drained {A S} (next : S -> outcome (option A * S)) s d : drains next s d ->
  exists e, drained next s e /\ d = (p <- e ;; Ret (fst p)).
Proof.
  induction 1 as [s s' H|s s' x o H _ (e & D & ->)|s H].
  - eexists. split; [apply drained_done, H|reflexivity].
  - exists (p <- e ;; Ret (x :: fst p, snd p)). split; [now apply drained_item with s'|]. now destruct e.
  - eexists. split; [now apply drained_panic|reflexivity].
Qed.

Section Iter.
Context {T : Type} {PF : Platform} {OT : Ord T} {ST : Step T} (dflt : option T) (m : mode).
Notation calls := (calls dflt m).

Definition last_or (w : option T) (l : list T) : option T := match vd_back l with Some x => Some x | None => w end.
Lemma last_or_cons w x l : last_or w (x :: l) = last_or (Some x) l.
Proof. unfold last_or, vd_back. cbn [rev]. destruct (rev l) as [|y r] eqn:E; [reflexivity|reflexivity]. Qed.
(** [last] through a mutable reference calls [next] to the end. *)
Lemma c_ref_last (x : BoundedRangeIter T) e f : drained (bri_next m) x e ->
  calls (RFn (KDefault "&mut Iterator" "last") [(f, enc_bri x)])
    (p <- e ;; Ret (AVal (enc_opt (@DElt T) (vd_back (fst p))) [Some (enc_bri (snd p))])).
Proof.
  intros D. unfold calls. node.
  lazymatch goal with
  | |- ends _ _ (Call (RWhile ?sc ?c ?b _) _) _ =>
    assert (L : forall x e, drained (bri_next m) x e -> forall w,
      calls (RWhile sc c b [("last", enc_opt (@DElt T) w); ("self", DRef ("%self", [])); ("%self", enc_bri x)])
       (p <- e ;;
        Ret (AEnv (N unit_val) [("last", enc_opt (@DElt T) (last_or w (fst p))); ("self", DRef ("%self", [])); ("%self", enc_bri (snd p))])))
  end.
  { clear x e D. induction 1 as [s s' H|s s' x o H _ IH|s H]; intros w.
    - unfold calls. runs_.
    - specialize (IH (Some x)). lazymatch type of IH with ?P => change (later P) in IH end.
      destruct w, o as [[l y]| |]; cbn [bind fst snd] in *; try exact I; rewrite ?last_or_cons; unfold calls; runs_.
      all: node; eapply ends_call; [apply IH|reflexivity].
    - unfold calls. runs_. }
  eapply ends_call; [apply (L x e D None)|]. after_call. cbn [fst snd].
  replace (last_or None (fst a)) with (vd_back (fst a)) by (unfold last_or; now destruct (vd_back (fst a))). destruct (vd_back (fst a)); runs_.
Qed.
(** The loop at the back again, without a reference. *)
Ltac loop_back :=
  clear; intros its; remember (rev its) as l eqn:H; revert l H; induction its as [|x its IH]; intros l H;
  [ assert (Ef : vd_back l = None) by (now rewrite H); change (also (l = rev [])) in H
  | specialize (IH (rev its) eq_refl); lazymatch type of IH with ?P => change (later P) in IH end;
    assert (Ef : vd_back l = Some x) by (rewrite H; apply vd_back_last);
    assert (Ep : vd_pop_back l = (Some x, rev its)) by (rewrite H; apply vd_pop_back_last);
    change (also (l = rev (x :: its))) in H ];
  unfold calls; cbn [trim]; runs_; unfold also in H; subst; reflexivity.
Lemma c_bsi_last (i : BoundedSetIter T) o f : bsi_last m i o ->
  calls (RFn (it "Iterator" "BoundedSetIter" "last") [(f, enc_bsi i)])
    (v <- o ;; Ret (AVal (enc_opt (@DElt T) v) [None])).
Proof.
  unfold calls, bsi_last. destruct i as [its]. cbn [bsi_range_iters]. intros B. node.
  lazymatch goal with
  | |- ends _ _ (Call (RWhile ?sc ?c ?b ?e) _) _ =>
    assert (L : forall its, calls (RWhile sc c b [("self", enc_bsi (BSI (rev its)))])
       (its' <- trim m its ;;
        Ret (AEnv (N unit_val) [("self", enc_bsi (BSI (rev its')))]))) by loop_back
  end.
  specialize (L (rev its)). rewrite rev_involutive in L.
  eapply ends_call; [apply L|]. clear L. 
  destruct (trim m (rev its)) as [l| |] eqn:E; [|now subst..]. cbn [bind].
  remember (rev l) as its' eqn:H. destruct l as [|x l].
  - assert (Ef : vd_back its' = None) by now rewrite H. change (also (its' = rev [])) in H. subst o. runs_.
  - assert (Ef : vd_back its' = Some x) by (rewrite H; apply vd_back_last).
    assert (El : removelast its' = rev l) by (rewrite H; apply removelast_last).
    change (also (its' = rev (x :: l))) in H. destruct B as (d & D & ->). 
    apply drains_drained in D as (e & D & ->). apply (c_ref_last _ _ false) in D. stepi. stepi. node.
    eapply ends_call; [exact D|]. destruct e as [[v y]| |]; [|reflexivity..]. cbn [bind fst snd]. clear D.
    destruct (vd_back v); runs_.
Qed.
End Iter.
