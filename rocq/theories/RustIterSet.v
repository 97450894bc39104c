(** The source of the iterators over sets, run by RustEval.v, gives what the model functions of
    ModelIter.v give. *)
From Coq Require Import String Lia ZifyBool.
From Verif Require Import Base ModelBound ModelRanges ModelSets ModelValue ModelStep ModelIter ModelConv
  RustSyntax Source RustEval RustEnc RustTac RustRange RustIter.
Open Scope Z_scope.
Open Scope string_scope.
Open Scope list_scope.

Lemma set_front_map {T A : Type} (f : A -> val T) l b : set_front (f b) (map f l) = map f (b :: tl l).
Proof. now destruct l. Qed.
Lemma set_back_map {T A : Type} (f : A -> val T) l b : set_back (f b) (map f l) = map f (removelast l ++ [b]).
Proof.
  unfold set_back. rewrite map_app. f_equal. induction l as [|x l IH]; [reflexivity|].
  destruct l as [|y l]; [reflexivity|]. cbn [map removelast] in *. now rewrite IH.
Qed.
(** Kept from rewriting. *)
Definition also (P : Prop) : Prop := P.
Ltac split_opt y :=
  lazymatch y with
  | Some _ => cbv beta iota
  | None => cbv beta iota
  | _ => split_on y
  end.
(** [past], also where the first or last element of a deque is replaced. *)
Ltac pasti :=
  lazymatch goal with
  | |- ends ?d ?m (Lst (set_front ?w (map ?f ?l)) ?k) ?o =>
    lazymatch foldv w with f ?b => apply (ends_lst d m _ (map f (b :: tl l)) k o (set_front_map f l b)) end
  | |- ends ?d ?m (Lst (set_back ?w (map ?f ?l)) ?k) ?o =>
    lazymatch foldv w with f ?b => apply (ends_lst d m _ (map f (removelast l ++ [b])) k o (set_back_map f l b)) end
  | |- ends ?d ?m (Case ?x ?p ?k) ?o =>
    lazymatch x with
    | option_map ?f ?y => apply (ends_case d m _ f y p k o); split_opt y
    | _ =>
      split_deque x; eapply (ends_case_eq d m); [deque|];
      lazymatch goal with |- ends _ _ match ?y with _ => _ end _ => split_opt y end
    end
  | |- _ => past
  end.
Ltac stepi := node; pasti; pairs.
Ltac runs_ := repeat stepi; try follow.

Section Iter.
Context {T : Type} {PF : Platform} {OT : Ord T} {ST : Step T} (dflt : option T) (m : mode).
Notation calls := (calls dflt m).
Implicit Types (i : BoundedSetIter T) (j : LowerBoundedSetIter T) (s : BoundedSet T).

Lemma c_bs_into_iter s f : calls (RFn (it "IntoIterator" "BoundedSet" "into_iter") [(f, enc_bs s)])
  (x <- bs_into_iter m s ;; Ret (AVal (enc_bsi x) [None])).
Proof.
  unfold calls, bs_into_iter. node.
  lazymatch goal with
  | |- ends ?d ?m (Call (RIter KMap _ _ _ _ _) _) _ =>
    eapply ends_call; [apply (calls_map d m _ (@enc_br T) _ _ _ (@enc_bri T) _ _ (br_into_iter m)); intros; run | after_call]; run
  end.
Qed.
Lemma bri_len_ends (i : BoundedRangeIter T) : bri_len m i <> Diverge.
Proof.
  unfold bri_len, bri_size_hint, usize_add, exact_len. destruct (steps_between _ _) as [n|].
  - destruct (n + 1 <=? usize_max)%Z; [|destruct m]; cbn [bind snd fst]; try discriminate; now rewrite Z.eqb_refl.
  - now cbn.
Qed.
Lemma usize_add_ends a b : usize_add m a b <> Diverge.
Proof. unfold usize_add. destruct (a + b <=? usize_max)%Z; [|destruct m]; discriminate. Qed.
Lemma sum_lens_mapM its : forall acc,
  sum_lens m its acc = match mapM (bri_len m) its with
                       | Ret l => foldM (fun acc (v : val T) => match v with DInt _ z => usize_add m acc z | _ => Diverge end)
                                    (map (DInt "usize") l) acc
                       | _ => Panic
                       end.
Proof.
  induction its as [|i its IH]; intros acc; [reflexivity|]. cbn [sum_lens mapM].
  pose proof (bri_len_ends i) as N. destruct (bri_len m i) as [n| |]; [|reflexivity|congruence]. cbn [bind].
  pose proof (usize_add_ends acc n) as N2.
  destruct (mapM (bri_len m) its) as [l| |]; cbn [bind].
  - cbn [map foldM]. destruct (usize_add m acc n) as [k| |]; [|reflexivity..]. cbn [bind]. now rewrite IH.
  - destruct (usize_add m acc n) as [k| |]; [|reflexivity|congruence]. cbn [bind]. now rewrite IH.
  - destruct (usize_add m acc n) as [k| |]; [|reflexivity|congruence]. cbn [bind]. now rewrite IH.
Qed.
Lemma sum_lens_vals its :
  sum_lens m its 0 = match mapM (bri_len m) its with Ret l => sum_vals m (map (@DInt T "usize") l) | _ => Panic end.
Proof. apply sum_lens_mapM. Qed.
Lemma mapM_ends its : mapM (bri_len m) its <> Diverge.
Proof.
  induction its as [|i its IH]; [discriminate|]. cbn [mapM]. pose proof (bri_len_ends i) as N.
  destruct (bri_len m i) as [n| |]; [|discriminate|congruence]. cbn [bind]. destruct (mapM (bri_len m) its); cbn; congruence.
Qed.
Lemma c_bsi_size_hint i f : calls (RFn (it "Iterator" "BoundedSetIter" "size_hint") [(f, enc_bsi i)])
  (h <- bsi_size_hint m i ;; Ret (AVal (enc_hint h) [None])).
Proof.
  unfold calls, bsi_size_hint. rewrite sum_lens_vals. node. pose proof (mapM_ends (bsi_range_iters i)) as N.
  lazymatch goal with
  | |- ends ?d ?m (Call (RIter KMap _ _ _ _ _) _) _ =>
    eapply ends_call; [apply (calls_map d m _ (@enc_bri T) _ _ _ (@DInt T "usize") _ _ (bri_len m)); intros; run | after_call]
  end; [|congruence].
  run.
Qed.
#[local] Hint Resolve c_bsi_size_hint : calls.
Lemma c_bsi_len i f : calls (RFn (KDefault "ExactSizeIterator" "len") [(f, enc_bsi i)])
  (n <- bsi_len m i ;; Ret (AVal (DInt "usize" n) [None])).
Proof. unfold calls, bsi_len, exact_len. runi. Qed.
#[local] Hint Resolve c_bsi_len : calls.
Lemma c_bsi_count i f : calls (RFn (it "Iterator" "BoundedSetIter" "count") [(f, enc_bsi i)])
  (n <- bsi_count m i ;; Ret (AVal (DInt "usize" n) [None])).
Proof. unfold calls, bsi_count. runi. Qed.

(** The loops dropping exhausted iterators, at the front and at the back. *)
Ltac loop_front :=
  clear; intros its; remember its as l eqn:H; rewrite H at 2; revert l H; induction its as [|x its IH]; intros l H;
  [ assert (Ef : vd_front l = None) by (now rewrite H); change (also (l = [])) in H
  | specialize (IH its eq_refl); lazymatch type of IH with ?P => change (later P) in IH end;
    assert (Ef : vd_front l = Some x) by (now rewrite H); assert (Ep : vd_pop_front l = (Some x, its)) by (now rewrite H);
    change (also (l = x :: its)) in H ];
  unfold calls; cbn [trim]; runs_; unfold also in H; subst; reflexivity.
Lemma vd_back_last {A} (l : list A) x : vd_back (l ++ [x]) = Some x.
Proof. unfold vd_back. now rewrite rev_unit. Qed.
Lemma vd_pop_back_last {A} (l : list A) x : vd_pop_back (l ++ [x]) = (Some x, l).
Proof. unfold vd_pop_back. rewrite rev_unit. now rewrite rev_involutive. Qed.
Ltac loop_back :=
  clear; intros its; remember (rev its) as l eqn:H; revert l H; induction its as [|x its IH]; intros l H;
  [ assert (Ef : vd_back l = None) by (now rewrite H); change (also (l = rev [])) in H
  | specialize (IH (rev its) eq_refl); lazymatch type of IH with ?P => change (later P) in IH end;
    assert (Ef : vd_back l = Some x) by (rewrite H; apply vd_back_last);
    assert (Ep : vd_pop_back l = (Some x, rev its)) by (rewrite H; apply vd_pop_back_last);
    change (also (l = rev (x :: its))) in H ];
  unfold calls; cbn [trim]; runs_; unfold also in H; subst; reflexivity.
Lemma c_bsi_next i f : calls (RFn (it "Iterator" "BoundedSetIter" "next") [(f, enc_bsi i)])
  (p <- bsi_next m i ;; Ret (AVal (enc_opt (@DElt T) (fst p)) [Some (enc_bsi (snd p))])).
Proof.
  unfold calls, bsi_next. destruct i as [its]. cbn [bsi_range_iters]. node.
  lazymatch goal with
  | |- ends _ _ (Call (RWhile ?sc ?c ?b _) _) _ =>
    assert (L : forall its, calls (RWhile sc c b [("self", DRef ("%self", [])); ("%self", enc_bsi (BSI its))])
       (its' <- trim m its ;;
        Ret (AEnv (N unit_val) [("self", DRef ("%self", [])); ("%self", enc_bsi (BSI its'))]))) by loop_front
  end.
  eapply ends_call; [apply (L its)|]. after_call. clear L E. rename a into l.
  remember l as its' eqn:H. rewrite H at 2. destruct l as [|x l].
  - assert (Ef : vd_front its' = None) by now rewrite H. change (also (its' = [])) in H. cbn [on_front]. runs_.
    unfold also in H. subst. reflexivity.
  - assert (Ef : vd_front its' = Some x) by now rewrite H. assert (El : tl its' = l) by now rewrite H.
    change (also (its' = x :: l)) in H. cbn [on_front]. runs_.
Qed.
Lemma c_bsi_next_back i f : calls (RFn (it "DoubleEndedIterator" "BoundedSetIter" "next_back") [(f, enc_bsi i)])
  (p <- bsi_next_back m i ;; Ret (AVal (enc_opt (@DElt T) (fst p)) [Some (enc_bsi (snd p))])).
Proof.
  unfold calls, bsi_next_back. destruct i as [its]. cbn [bsi_range_iters]. node.
  lazymatch goal with
  | |- ends _ _ (Call (RWhile ?sc ?c ?b _) _) _ =>
    assert (L : forall its, calls (RWhile sc c b [("self", DRef ("%self", [])); ("%self", enc_bsi (BSI (rev its)))])
       (its' <- trim m its ;;
        Ret (AEnv (N unit_val) [("self", DRef ("%self", [])); ("%self", enc_bsi (BSI (rev its')))]))) by loop_back
  end.
  specialize (L (rev its)). rewrite rev_involutive in L.
  eapply ends_call; [apply L|]. after_call. clear L E. rename a into l.
  remember (rev l) as its' eqn:H. destruct l as [|x l].
  - assert (Ef : vd_back its' = None) by now rewrite H. change (also (its' = rev [])) in H. cbn [on_front]. runs_.
    unfold also in H. subst. reflexivity.
  - assert (Ef : vd_back its' = Some x) by (rewrite H; apply vd_back_last).
    assert (El : removelast its' = rev l) by (rewrite H; apply removelast_last).
    change (also (its' = rev (x :: l))) in H. cbn [on_front]. runs_.
Qed.

(** [n -= len] in the loops of [nth] and [nth_back]. *)
Lemma skip_cons (x : BoundedRangeIter T) its n : skip m (x :: its) n =
  (len <- bri_len m x ;; if (len <=? n)%Z then (k <- usize_sub m n len ;; skip m its k) else Ret (x :: its, n)).
Proof.
  cbn [skip]. destruct (bri_len m x) as [len| |]; [|reflexivity..]. cbn [bind]. unfold usize_sub.
  destruct (len <=? n)%Z eqn:H; [|reflexivity].
  destruct (0 <=? n - len)%Z eqn:H'; [reflexivity|lia].
Qed.
Ltac loop_nth :=
  clear; intros its n; remember its as l eqn:H; rewrite H at 2; revert n l H; induction its as [|x its IH]; intros n l H;
  [ assert (Ef : vd_front l = None) by (now rewrite H); change (also (l = [])) in H; unfold calls; cbn [skip]
  | specialize (fun n => IH n its eq_refl); lazymatch type of IH with ?P => change (later P) in IH end;
    assert (Ef : vd_front l = Some x) by (now rewrite H);
    assert (Ep : vd_remove l (Z.to_nat 0) = (Some x, its)) by (now rewrite H);
    change (also (l = x :: its)) in H; unfold calls; rewrite skip_cons ];
  runs_; unfold also in H; subst; reflexivity.
Lemma c_bsi_nth i n f : calls (RFn (it "Iterator" "BoundedSetIter" "nth") [(f, enc_bsi i); (false, DInt "usize" n)])
  (p <- bsi_nth m i n ;; Ret (AVal (enc_opt (@DElt T) (fst p)) [Some (enc_bsi (snd p)); None])).
Proof.
  unfold calls, bsi_nth. destruct i as [its]. cbn [bsi_range_iters]. node.
  lazymatch goal with
  | |- ends _ _ (Call (RWhile ?sc ?c ?b _) _) _ =>
    assert (L : forall its n, calls (RWhile sc c b [("self", DRef ("%self", [])); ("%self", enc_bsi (BSI its)); ("n", DInt "usize" n)])
       (q <- skip m its n ;;
        Ret (AEnv (N unit_val) [("self", DRef ("%self", [])); ("%self", enc_bsi (BSI (fst q))); ("n", DInt "usize" (snd q))])))
       by loop_nth
  end.
  eapply ends_call; [apply (L its)|]. after_call. clear L E. destruct a as [l k]. cbn [fst snd].
  remember l as its' eqn:H. rewrite H at 2. destruct l as [|x l].
  - assert (Ef : vd_front its' = None) by now rewrite H. change (also (its' = [])) in H. cbn [on_front]. runs_.
    unfold also in H. subst. reflexivity.
  - assert (Ef : vd_front its' = Some x) by now rewrite H. assert (El : tl its' = l) by now rewrite H.
    change (also (its' = x :: l)) in H. cbn [on_front]. runs_.
Qed.
Ltac loop_nth_back :=
  clear; intros its n; remember (rev its) as l eqn:H; revert n l H; induction its as [|x its IH]; intros n l H;
  [ assert (Ef : vd_back l = None) by (now rewrite H); change (also (l = rev [])) in H; unfold calls; cbn [skip]
  | specialize (fun n => IH n (rev its) eq_refl); lazymatch type of IH with ?P => change (later P) in IH end;
    assert (Ef : vd_back l = Some x) by (rewrite H; apply vd_back_last);
    assert (Er : removelast l ++ [x] = l) by (rewrite H; cbn [rev]; now rewrite removelast_last);
    assert (Ep : vd_pop_back l = (Some x, rev its)) by (rewrite H; apply vd_pop_back_last);
    change (also (l = rev (x :: its))) in H; unfold calls; rewrite skip_cons ];
  runs_; unfold also in H; subst; reflexivity.
Lemma c_bsi_nth_back i n f : calls (RFn (it "DoubleEndedIterator" "BoundedSetIter" "nth_back") [(f, enc_bsi i); (false, DInt "usize" n)])
  (p <- bsi_nth_back m i n ;; Ret (AVal (enc_opt (@DElt T) (fst p)) [Some (enc_bsi (snd p)); None])).
Proof.
  unfold calls, bsi_nth_back. destruct i as [its]. cbn [bsi_range_iters]. node.
  lazymatch goal with
  | |- ends _ _ (Call (RWhile ?sc ?c ?b _) _) _ =>
    assert (L : forall its n, calls (RWhile sc c b [("self", DRef ("%self", [])); ("%self", enc_bsi (BSI (rev its))); ("n", DInt "usize" n)])
       (q <- skip m its n ;;
        Ret (AEnv (N unit_val) [("self", DRef ("%self", [])); ("%self", enc_bsi (BSI (rev (fst q)))); ("n", DInt "usize" (snd q))])))
       by loop_nth_back
  end.
  specialize (L (rev its)). rewrite rev_involutive in L.
  eapply ends_call; [apply L|]. after_call. clear L E. destruct a as [l k]. cbn [fst snd].
  remember (rev l) as its' eqn:H. destruct l as [|x l].
  - assert (Ef : vd_back its' = None) by now rewrite H. change (also (its' = rev [])) in H. cbn [on_front]. runs_.
    unfold also in H. subst. reflexivity.
  - assert (Ef : vd_back its' = Some x) by (rewrite H; apply vd_back_last).
    assert (El : removelast its' = rev l) by (rewrite H; apply removelast_last).
    change (also (its' = rev (x :: l))) in H. cbn [on_front]. runs_.
Qed.
#[local] Hint Resolve c_bs_into_iter c_bsi_next c_bsi_next_back c_bsi_nth c_bsi_nth_back c_bsi_count : calls.
Lemma c_bsi_min i f : calls (RFn (it "Iterator" "BoundedSetIter" "min") [(f, enc_bsi i)])
  (v <- bsi_min m i ;; Ret (AVal (enc_opt (@DElt T) v) [None])).
Proof. unfold calls, bsi_min. runs_. Qed.
Lemma c_bsi_max i f : calls (RFn (it "Iterator" "BoundedSetIter" "max") [(f, enc_bsi i)])
  (v <- bsi_max m i ;; Ret (AVal (enc_opt (@DElt T) v) [None])).
Proof. unfold calls, bsi_max. runs_. Qed.
Lemma c_lbs_into_iter (s : LowerBoundedSet T) f : calls (RFn (it "IntoIterator" "LowerBoundedSet" "into_iter") [(f, enc_lbs s)])
  (x <- lbs_into_iter m s ;; Ret (AVal (enc_lbsi x) [None])).
Proof. unfold calls, lbs_into_iter. runs_. Qed.
Lemma c_lbsi_next j f : calls (RFn (it "Iterator" "LowerBoundedSetIter" "next") [(f, enc_lbsi j)])
  (p <- lbsi_next m j ;; Ret (AVal (enc_opt (@DElt T) (fst p)) [Some (enc_lbsi (snd p))])).
Proof. unfold calls, lbsi_next. runs_. Qed.
Lemma c_lbsi_size_hint j f : calls (RFn (it "Iterator" "LowerBoundedSetIter" "size_hint") [(f, enc_lbsi j)])
  (Ret (AVal (enc_hint (lbsi_size_hint j)) [None])).
Proof. unfold calls. runs_. Qed.
Lemma c_lbsi_nth j n f : calls (RFn (it "Iterator" "LowerBoundedSetIter" "nth") [(f, enc_lbsi j); (false, DInt "usize" n)])
  (p <- lbsi_nth m j n ;; Ret (AVal (enc_opt (@DElt T) (fst p)) [Some (enc_lbsi (snd p)); None])).
Proof. unfold calls, lbsi_nth. runs_. Qed.
#[local] Hint Resolve c_lbsi_next : calls.
Lemma c_lbsi_min j f : calls (RFn (it "Iterator" "LowerBoundedSetIter" "min") [(f, enc_lbsi j)])
  (v <- lbsi_min m j ;; Ret (AVal (enc_opt (@DElt T) v) [None])).
Proof. unfold calls, lbsi_min. runs_. Qed.
End Iter.
#[export] Hint Resolve c_bs_into_iter c_bsi_next c_bsi_next_back c_bsi_size_hint c_bsi_len c_bsi_count c_bsi_nth c_bsi_nth_back
  c_bsi_min c_bsi_max c_lbs_into_iter c_lbsi_next c_lbsi_size_hint c_lbsi_nth c_lbsi_min : calls.
