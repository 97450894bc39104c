(** Programs of Rust text that never end: whatever the fuel, [exec] uses it up.  [exec]
    spends one unit of fuel on each level of nested calls and loop turns, and says
    otherwise ([None]) where a program goes wrong. *)
From Coq Require Import String.
From Verif Require Import Base ModelBound ModelRanges ModelSets ModelAlgebra ModelValue ModelStep ModelIter
  RustSyntax Source RustEval RustEnc RustTac RustRange RustRuns RustSays RustIter RustIterSet RustIterLast RustIterClient RustIterLoop.
Open Scope Z_scope.
Open Scope string_scope.
Open Scope list_scope.

Section Forever.
Context {T : Type} {PF : Platform} {OT : Ord T} {ST : Step T} (dflt : option T) (m : mode).
Notation exec := (exec dflt m).
Notation runs := (runs dflt m).
Notation calls := (calls dflt m).
(** The fuel [f] does not suffice. *)
Definition stays (f : nat) (p : prog T) : Prop := exec f p = Some Diverge.
(** No fuel suffices. *)
Definition forever (p : prog T) : Prop := forall f, stays f p.

(** A program with an outcome: [exec] finds it with enough fuel. *)
Lemma runs_exec p o : runs p o -> forall f, exec f p = Some o \/ stays f p.
Proof.
  unfold stays.
  induction 1 as [a| |b p q o R IH|p k o R IH|v p k o R IH|c lt eq gt o R IH|v k o R IH|k|l k o R IH|g k o R IH
                 |rq k a o R1 IH1 R2 IH2|rq k R1 IH1]; intros [|f]; auto; try (specialize (IH (S f))); try exact IH.
  - destruct b; exact IH.
  - destruct c; exact IH.
  - destruct (IH1 f) as [E|E]; cbn [RustEval.exec]; rewrite E; [exact (IH2 (S f))|auto].
  - destruct (IH1 f) as [E|E]; cbn [RustEval.exec]; rewrite E; auto.
Qed.
Lemma runs_enough p o : runs p o -> exists f, forall g, (f <= g)%nat -> exec g p = Some o.
Proof.
  induction 1 as [a| |b p q o R IH|p k o R IH|v p k o R IH|c lt eq gt o R IH|v k o R IH|k|l k o R IH|g k o R IH
                 |rq k a o R1 IH1 R2 IH2|rq k R1 IH1].
  all: try (destruct IH as [f IH]; exists (S f); intros [|g'] L; [inversion L|]; specialize (IH (S g') (le_S_n _ _ (le_S _ _ L))); cbn [RustEval.exec] in *).
  all: try (exists 1%nat; intros [|g'] L; [inversion L|reflexivity]).
  - destruct b; exact IH.
  - exact IH.
  - exact IH.
  - destruct c; exact IH.
  - exact IH.
  - exact IH.
  - exact IH.
  - destruct IH1 as [f1 IH1], IH2 as [f2 IH2]. exists (S (f1 + f2)). intros [|g'] L; [inversion L|].
    cbn [RustEval.exec]. rewrite IH1 by (apply le_S_n in L; eapply PeanoNat.Nat.le_trans; [apply PeanoNat.Nat.le_add_r|exact L]).
    apply (IH2 (S g')). apply le_S_n in L. apply le_S. eapply PeanoNat.Nat.le_trans; [|exact L]. rewrite PeanoNat.Nat.add_comm. apply PeanoNat.Nat.le_add_r.
  - destruct IH1 as [f1 IH1]. exists (S f1). intros [|g'] L; [inversion L|]. cbn [RustEval.exec]. now rewrite IH1 by (now apply le_S_n).
Qed.
(** Not both. *)
Lemma forever_no_outcome p o : forever p -> ~ runs p o.
Proof.
  intros F R. destruct (runs_enough p o R) as [f E]. specialize (E f (le_n f)). rewrite (F f) in E. injection E as <-.
  now apply runs_not_diverge in R.
Qed.

Lemma stays_if f (b : bool) p q : stays f (if b then p else q) -> stays f (If b p q).
Proof. destruct f; [reflexivity|]. unfold stays. cbn [RustEval.exec]. now destruct b. Qed.
Lemma stays_none f p k : stays f p -> stays f (Case None p k).
Proof. now destruct f. Qed.
Lemma stays_some f p k v : stays f (k v) -> stays f (Case (Some v) p k).
Proof. now destruct f. Qed.
Lemma stays_cmp f c lt eq gt : stays f (match c with Lt => lt | Eq => eq | Gt => gt end) -> stays f (Cmp c lt eq gt).
Proof. destruct f; [reflexivity|]. unfold stays. cbn [RustEval.exec]. now destruct c. Qed.
Lemma stays_out f v k x : x = Ret v -> stays f (k v) -> stays f (Out x k).
Proof. intros ->. now destruct f. Qed.
Lemma stays_lst f l l' k : l = l' -> stays f (k l') -> stays f (Lst l k).
Proof. intros ->. now destruct f. Qed.
Lemma stays_find f g k : stays f (k g) -> stays f (Find (Some g) k).
Proof. now destruct f. Qed.
(** Past a call that returns, and into one that does not. *)
Lemma stays_call f rq k a : calls rq (Ret a) -> stays f (k a) -> stays f (Call rq k).
Proof.
  intros C K. destruct f as [|f]; [reflexivity|]. unfold stays in *. cbn [RustEval.exec].
  destruct (runs_exec _ _ C f) as [E|E]; rewrite E; auto.
Qed.
Lemma stays_in f rq k : stays (pred f) (answer dflt m rq) -> stays f (Call rq k).
Proof. intros K. destruct f as [|f]; [reflexivity|]. unfold stays in *. cbn [RustEval.exec pred] in *. now rewrite K. Qed.

Lemma st_if f p b : v_if p = Some b -> stays f (If b (n_if p true) (n_if p false)) -> stays f p.
Proof. destruct p; try discriminate. now intros [= ->]. Qed.
Lemma st_case f p x : v_case p = Some x -> stays f (Case x (n_none p) (n_some p)) -> stays f p.
Proof. destruct p; try discriminate. now intros [= ->]. Qed.
Lemma st_cmp f p c : v_cmp p = Some c -> stays f (Cmp c (n_cmp p Lt) (n_cmp p Eq) (n_cmp p Gt)) -> stays f p.
Proof. destruct p; try discriminate. now intros [= ->]. Qed.
Lemma st_out f p x : v_out p = Some x -> stays f (Out x (n_out p)) -> stays f p.
Proof. destruct p; try discriminate. now intros [= ->]. Qed.
Lemma st_lst f p l : v_lst p = Some l -> stays f (Lst l (n_lst p)) -> stays f p.
Proof. destruct p; try discriminate. now intros [= ->]. Qed.
Lemma st_find f p g : v_find p = Some g -> stays f (n_find p g) -> stays f p.
Proof. destruct p as [| | | | | | | |[h|] k|]; try discriminate. intros [= ->]. now apply stays_find. Qed.
Lemma st_call f p rq : v_call p = Some rq -> stays f (Call rq (n_call p)) -> stays f p.
Proof. destruct p; try discriminate. now intros [= ->]. Qed.
End Forever.

(** As [node] in RustTac.v. *)
Ltac fnode :=
  lazymatch goal with
  | |- stays ?d ?m ?f (Call _ _) => idtac
  | |- stays ?d ?m ?f (Case _ _ _) => idtac
  | |- stays ?d ?m ?f (Lst _ _) => idtac
  | |- stays ?d ?m ?f ?p =>
    let t := comp (shape_of p) in
    lazymatch t with
    | SIf => let x := norm (v_if p) in
      lazymatch x with Some ?a => refine (st_if d m f p a _ _); [exact_no_check (eq_refl x) |] end
    | SCase => let x := norm (v_case p) in
      lazymatch x with Some ?a => refine (st_case d m f p a _ _); [exact_no_check (eq_refl x) |] end
    | SCmp => let x := norm (v_cmp p) in
      lazymatch x with Some ?a => refine (st_cmp d m f p a _ _); [exact_no_check (eq_refl x) |] end
    | SOut => let x := norm (v_out p) in
      lazymatch x with Some ?a => refine (st_out d m f p a _ _); [exact_no_check (eq_refl x) |] end
    | SLst => let x := norm (v_lst p) in
      lazymatch x with Some ?a => refine (st_lst d m f p a _ _); [exact_no_check (eq_refl x) |] end
    | SFind => let x := eval lazy in (v_find p) in
      lazymatch x with Some ?g => refine (st_find d m f p g _ _); [exact_no_check (eq_refl x) | fnode] end
    | SCall => let x := norm (v_call p) in
      lazymatch x with
      | Some ?rq => let rq' := fold_call rq in
        refine (st_call d m f p rq' _ _); [exact_no_check (eq_refl (Some rq')) |]
      end
    end
  end.

Section Loops.
Context {T : Type} {PF : Platform} {OT : Ord T} {ST : Step T} (dflt : option T) (m : mode).
(** An iteration with [next]: it comes to an end, or there is one more element. *)
Definition comes {A S : Type} (next : S -> outcome (option A * S)) (s : S) : Prop := exists o, drains next s o.
Lemma comes_next {A S} (next : S -> outcome (option A * S)) s : next s <> Diverge ->
  comes next s \/ exists x s', next s = Ret (Some x, s') /\ (comes next s' -> comes next s).
Proof.
  intros N. destruct (next s) as [[[x|] s']| |] eqn:H; [| |left; eexists; now apply drains_panic|congruence].
  - right. exists x, s'. split; [reflexivity|]. intros [o D]. eexists. exact (drains_item _ _ _ _ _ H D).
  - left. eexists. exact (drains_done _ _ _ H).
Qed.

(** The expression [x], as in [says] of RustSays.v. *)
Definition text_of (sc : list string) (x : RustSyntax.expr) (e : env T) : prog T :=
  RustEval.eval dflt m sc x e (fun r _ => match r with N v => Done (AVal v []) | _ => Stuck end).
Lemma either {A B C : Prop} : (B -> C) -> A \/ B -> A \/ C.
Proof. tauto. Qed.
(** The loop: each turn calls [next], takes the element and goes on. *)
Ltac turns Nd next enc c start :=
  eapply either; [let E := fresh "E" in intros E; start; fnode; apply stays_in; exact E|]; cbn beta;
  lazymatch goal with
  | |- comes _ ?i \/ stays ?d ?m ?f (answer _ _ (RWhile ?sc ?t ?b [("v", _); ("i", enc ?i); ("a", ?a)])) =>
    cut (forall fu x w, comes next x \/
      stays d m fu (answer d m (RWhile sc t b [("v", DList (map (@DElt T) w)); ("i", enc x); ("a", a)])));
    [ let L := fresh "L" in intros L; exact (L f i []) |];
    let g := fresh "g" in intros g; induction g as [|g IH]; intros x w; [right; reflexivity|];
    destruct (comes_next next x (Nd x)) as [E|(y & z & H & E)]; [now left|];
    destruct (IH z (y :: w)) as [E1|E1]; [left; now apply E|right];
    fnode; apply stays_if; cbv beta iota; fnode;
    eapply stays_call; [let C := fresh "C" in pose proof (c x false) as C; rewrite H in C; exact C|]; cbn [fst snd];
    fnode; apply (stays_out _ _ _ (DList (map (@DElt T) (y :: w)))); [reflexivity|];
    fnode; apply stays_in; exact E1
  end.
Ltac enters c B :=
  unfold text_of, loop_of; fnode; eapply stays_call; [let C := fresh "C" in pose proof c as C; rewrite B in C; exact C|].
Lemma f_bri (i : BoundedRangeIter T) f : (forall i, bri_next m i <> Diverge) ->
  comes (bri_next m) i \/ stays dflt m f (text_of [] (loop_of (EVar "a")) [("a", enc_bri i)]).
Proof. intros Nd. turns Nd (bri_next (T := T) m) (@enc_bri T) (c_bri_next dflt m) ltac:(unfold text_of, loop_of; fnode). Qed.
Lemma f_bsi (i : BoundedSetIter T) f : (forall i, bsi_next m i <> Diverge) ->
  comes (bsi_next m) i \/ stays dflt m f (text_of [] (loop_of (EVar "a")) [("a", enc_bsi i)]).
Proof. intros Nd. turns Nd (bsi_next (T := T) m) (@enc_bsi T) (c_bsi_next dflt m) ltac:(unfold text_of, loop_of; fnode). Qed.
Lemma f_lbri (i : LowerBoundedRangeIter T) f : (forall i, lbri_next m i <> Diverge) ->
  comes (lbri_next m) i \/ stays dflt m f (text_of [] (loop_of (EVar "a")) [("a", enc_lbri i)]).
Proof. intros Nd. turns Nd (lbri_next (T := T) m) (@enc_lbri T) (c_lbri_next dflt m) ltac:(unfold text_of, loop_of; fnode). Qed.
Lemma f_lbsi (i : LowerBoundedSetIter T) f : (forall i, lbsi_next m i <> Diverge) ->
  comes (lbsi_next m) i \/ stays dflt m f (text_of [] (loop_of (EVar "a")) [("a", enc_lbsi i)]).
Proof. intros Nd. turns Nd (lbsi_next (T := T) m) (@enc_lbsi T) (c_lbsi_next dflt m) ltac:(unfold text_of, loop_of; fnode). Qed.
Lemma f_br (r : BoundedRange T) i f : (forall i, bri_next m i <> Diverge) -> br_into_iter m r = Ret i ->
  comes (bri_next m) i \/ stays dflt m f (text_of [] (loop_of (EMethod (EVar "a") "into_iter" [])) [("a", enc_br r)]).
Proof. intros Nd B. turns Nd (bri_next (T := T) m) (@enc_bri T) (c_bri_next dflt m) ltac:(enters (c_br_into_iter dflt m r false) B). Qed.
Lemma f_bs (r : BoundedSet T) i f : (forall i, bsi_next m i <> Diverge) -> bs_into_iter m r = Ret i ->
  comes (bsi_next m) i \/ stays dflt m f (text_of [] (loop_of (EMethod (EVar "a") "into_iter" [])) [("a", enc_bs r)]).
Proof. intros Nd B. turns Nd (bsi_next (T := T) m) (@enc_bsi T) (c_bsi_next dflt m) ltac:(enters (c_bs_into_iter dflt m r false) B). Qed.
Lemma f_lbr (r : LowerBoundedRange T) i f : (forall i, lbri_next m i <> Diverge) -> lbr_into_iter m r = Ret i ->
  comes (lbri_next m) i \/ stays dflt m f (text_of [] (loop_of (EMethod (EVar "a") "into_iter" [])) [("a", enc_lbr r)]).
Proof. intros Nd B. turns Nd (lbri_next (T := T) m) (@enc_lbri T) (c_lbri_next dflt m) ltac:(enters (c_lbr_into_iter dflt m r false) B). Qed.
Lemma f_lbs (r : LowerBoundedSet T) i f : (forall i, lbsi_next m i <> Diverge) -> lbs_into_iter m r = Ret i ->
  comes (lbsi_next m) i \/ stays dflt m f (text_of [] (loop_of (EMethod (EVar "a") "into_iter" [])) [("a", enc_lbs r)]).
Proof. intros Nd B. turns Nd (lbsi_next (T := T) m) (@enc_lbsi T) (c_lbsi_next dflt m) ltac:(enters (c_lbs_into_iter dflt m r false) B). Qed.

(** [last] of a set: the loop at the back as in RustIterLast.v, then [next] of the last piece. *)
Ltac loop_back :=
  clear; intros its; remember (rev its) as l eqn:H; revert l H; induction its as [|x its IH]; intros l H;
  [ assert (Ef : vd_back l = None) by (now rewrite H); change (also (l = rev [])) in H
  | specialize (IH (rev its) eq_refl); lazymatch type of IH with ?P => change (later P) in IH end;
    assert (Ef : vd_back l = Some x) by (rewrite H; apply vd_back_last);
    assert (Ep : vd_pop_back l = (Some x, rev its)) by (rewrite H; apply vd_pop_back_last);
    change (also (l = rev (x :: its))) in H ];
  unfold RustTac.calls; cbn [trim]; runs_; unfold also in H; subst; reflexivity.
Lemma f_ref_last (x : BoundedRangeIter T) b f : (forall i, bri_next m i <> Diverge) ->
  comes (bri_next m) x \/ stays dflt m f (answer dflt m (RFn (KDefault "&mut Iterator" "last") [(b, enc_bri x)])).
Proof.
  intros Nd. eapply either; [intros E; fnode; apply stays_in; exact E|]. cbn beta.
  lazymatch goal with
  | |- _ \/ stays ?d ?m ?f (answer _ _ (RWhile ?sc ?t ?b _)) =>
    cut (forall fu x w, comes (bri_next m) x \/
      stays d m fu (answer d m (RWhile sc t b [("last", enc_opt (@DElt T) w); ("self", DRef ("%self", [])); ("%self", enc_bri x)])))
  end.
  { intros L. exact (L (pred f) x None). }
  clear x b f. intros f; induction f as [|f IH]; intros x w; [right; reflexivity|].
  destruct (comes_next _ x (Nd x)) as [E|(y & z & H & E)]; [now left|].
  destruct (IH z (Some y)) as [E1|E1]; [left; now apply E|right].
  destruct w; (fnode; apply stays_if; cbv beta iota; fnode;
    eapply stays_call; [pose proof (c_bri_next dflt m x false) as C; rewrite H in C; exact C|]; cbn [fst snd];
    fnode; apply stays_in; exact E1).
Qed.
Lemma f_bsi_last (i : BoundedSetIter T) f : (forall i, bri_next m i <> Diverge) -> trim m (rev (bsi_range_iters i)) <> Diverge ->
  (exists o, bsi_last m i o) \/ stays dflt m f (text_of [] (EMethod (EVar "i") "last" []) [("i", enc_bsi i)]).
Proof.
  destruct i as [its]. unfold bsi_last. cbn [bsi_range_iters]. intros Nd Nt.
  destruct (trim m (rev its)) as [[|x l]| |] eqn:B; [left; now eexists| |left; now eexists|congruence]. clear Nt.
  destruct (f_ref_last x false (pred (pred f)) Nd) as [[o D]|E]; [left; eexists; now exists o|right].
  unfold text_of. fnode. apply stays_in. fnode.
  lazymatch goal with
  | |- stays _ _ _ (Call (RWhile ?sc ?c ?b ?e) _) =>
    assert (L : forall its, calls dflt m (RWhile sc c b [("self", enc_bsi (BSI (rev its)))])
       (its' <- trim m its ;;
        Ret (AEnv (N unit_val) [("self", enc_bsi (BSI (rev its')))]))) by loop_back
  end.
  specialize (L (rev its)). rewrite rev_involutive, B in L. cbn [bind] in L.
  eapply stays_call; [exact L|]. clear L.
  remember (rev (x :: l)) as its' eqn:H.
  assert (Ef : vd_back its' = Some x) by (rewrite H; apply vd_back_last).
  fnode. rewrite vd_back_map, Ef. cbn [option_map]. apply stays_some.
  fnode. rewrite vd_back_map, Ef. cbn [option_map]. apply stays_some.
  fnode. apply stays_in. exact E.
Qed.
(** Where creating the iterator panics, so does the loop. *)
Lemma p_br (r : BoundedRange T) : br_into_iter m r = Panic ->
  says dflt m [] (loop_of (EMethod (EVar "a") "into_iter" [])) [("a", enc_br r)] Panic.
Proof. intros B. apply says_of; [discriminate|]. unfold says_, loop_of. node. eapply ends_call; [apply c_br_into_iter|]. rewrite B. reflexivity. Qed.
Lemma p_bs (r : BoundedSet T) : bs_into_iter m r = Panic ->
  says dflt m [] (loop_of (EMethod (EVar "a") "into_iter" [])) [("a", enc_bs r)] Panic.
Proof. intros B. apply says_of; [discriminate|]. unfold says_, loop_of. node. eapply ends_call; [apply c_bs_into_iter|]. rewrite B. reflexivity. Qed.
Lemma p_lbr (r : LowerBoundedRange T) : lbr_into_iter m r = Panic ->
  says dflt m [] (loop_of (EMethod (EVar "a") "into_iter" [])) [("a", enc_lbr r)] Panic.
Proof. intros B. apply says_of; [discriminate|]. unfold says_, loop_of. node. eapply ends_call; [apply c_lbr_into_iter|]. rewrite B. reflexivity. Qed.
Lemma p_lbs (r : LowerBoundedSet T) : lbs_into_iter m r = Panic ->
  says dflt m [] (loop_of (EMethod (EVar "a") "into_iter" [])) [("a", enc_lbs r)] Panic.
Proof. intros B. apply says_of; [discriminate|]. unfold says_, loop_of. node. eapply ends_call; [apply c_lbs_into_iter|]. rewrite B. reflexivity. Qed.
End Loops.
