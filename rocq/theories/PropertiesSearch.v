(** Searching: std's methods that may stop early, on the crate's iterators. *)
From Coq Require Import Lia ZifyBool Sorted.
From Verif Require Import Base ModelBound ModelRanges ModelSets ModelAlgebra ModelValue ModelStep ModelIter ModelSearch
  Spec Reach SpecStep SpecIter SpecSearch SetProofs ValueProofs StepProofs StepLemmas IterProofs IterProofs2 IterProofs3
  IterProofs4 IterLemmas SearchProofs InstancesStep PropertiesAlgebra PropertiesIter.
Open Scope Z_scope.
#[local] Existing Instance pf64.

Section Search.
Context {T : Type} {PF : Platform} {OT : Ord T} {ST : Step T} {NU : Numbered T} {SL : StepLaws T}.

Lemma below_idx (P : T -> Prop) (Q : T -> Prop) e :
  (forall t, P t -> idx t < idx e -> Q t) <-> (forall t, P t -> lt t e -> Q t).
Proof. split; intros H t I K; apply H; auto; apply lt_idx; exact K. Qed.
Lemma above_idx (P : T -> Prop) (Q : T -> Prop) e :
  (forall t, P t -> - idx t < - idx e -> Q t) <-> (forall t, P t -> lt e t -> Q t).
Proof. split; intros H t I K; apply H; auto; rewrite lt_idx in *; lia. Qed.
Lemma reached_lists {B R : Type} (f : B -> T -> outcome (B + R)) b (P : T -> Prop) e b1 :
  reached idx f b P e b1 <-> P e /\ exists l, lists (fun t => P t /\ lt t e) l /\ walk f b l = Ret (inl b1).
Proof.
  unfold reached. split; intros (Pe & l & L & W); (split; [exact Pe|]); exists l; (split; [|exact W]).
  - apply klists_lists in L. eapply lists_ext; [|exact L]. intros t. cbv beta. rewrite lt_idx. reflexivity.
  - apply klists_lists. eapply lists_ext; [|exact L]. intros t. cbv beta. rewrite lt_idx. reflexivity.
Qed.
Lemma reached_back {B R : Type} (f : B -> T -> outcome (B + R)) b (P : T -> Prop) e b1 :
  reached (fun t => - idx t) f b P e b1 <->
  P e /\ exists l, lists (fun t => P t /\ lt e t) l /\ walk f b (rev l) = Ret (inl b1).
Proof.
  unfold reached. split; intros (Pe & l & L & W); (split; [exact Pe|]).
  - exists (rev l). rewrite rev_involutive. split; [|exact W]. apply klists_back in L.
    eapply lists_ext; [|exact L]. intros t. cbv beta. rewrite lt_idx. split; intros [A B']; split; auto; lia.
  - exists (rev l). split; [|exact W]. apply klists_back. rewrite rev_involutive.
    eapply lists_ext; [|exact L]. intros t. cbv beta. rewrite lt_idx. split; intros [A B']; split; auto; lia.
Qed.
End Search.

(** [try_fold]: the closure sees the elements in ascending order, and what becomes of it is decided by the first
    element at which it stops, panics, or that is the greatest of the type. *)
Theorem C67_try_fold (T : Type) (PF : Platform) (OT : Ord T) (ST : Step T) (NU : Numbered T) (SL : StepLaws T)
  (B R : Type) (f : B -> T -> outcome (B + R)) (b : B) (v : value T) i :
  api v -> sized v -> v_into_iter Debug v = Some (Ret i) ->
  let reach e b1 := mem v e /\ exists l, lists (fun t => mem v t /\ lt t e) l /\ walk f b l = Ret (inl b1) in
  (forall r, (exists i', try_folds (ai_next Debug) f b i (Ret (inr r, i'))) <->
     exists e b1, reach e b1 /\ ~ greatest e /\ f b1 e = Ret (inr r)) /\
  (forall b', (exists i', try_folds (ai_next Debug) f b i (Ret (inl b', i'))) <->
     (exists l, lists (mem v) l /\ walk f b l = Ret (inl b')) /\ forall t, mem v t -> ~ greatest t) /\
  (try_folds (ai_next Debug) f b i Panic <->
     exists e b1, reach e b1 /\ (greatest e \/ f b1 e = Panic)) /\
  ~ try_folds (ai_next Debug) f b i Diverge.
Proof.
  intros A Sz E reach. pose proof (into_iter_hold v i A Sz E) as H. repeat split.
  - intros X. apply (breaks_iff _ _ _ _ ai_steps f b i _ r H) in X. destruct X as (e & b1 & Re & X).
    apply reached_lists in Re. exists e, b1. auto.
  - intros (e & b1 & Re & X). apply (breaks_iff _ _ _ _ ai_steps f b i _ r H). exists e, b1.
    split; [apply reached_lists; assumption|exact X].
  - apply (ends_iff _ _ _ _ ai_steps f b i _ b' H) in H0. destruct H0 as [(l & L & W) _]. exists l.
    split; [apply klists_lists, L|exact W].
  - apply (ends_iff _ _ _ _ ai_steps f b i _ b' H) in H0. apply H0.
  - intros [(l & L & W) N]. apply (ends_iff _ _ _ _ ai_steps f b i _ b' H). split; [|exact N].
    exists l. split; [apply klists_lists, L|exact W].
  - intros X. apply (panics_iff _ _ _ _ ai_steps f b i _ H) in X. destruct X as (e & b1 & Re & X).
    apply reached_lists in Re. exists e, b1. auto.
  - intros (e & b1 & Re & X). apply (panics_iff _ _ _ _ ai_steps f b i _ H). exists e, b1.
    split; [apply reached_lists; assumption|exact X].
  - intros X. exact (try_folds_inv _ _ _ _ ai_steps f b i _ X _ H).
Qed.
Print Assumptions C67_try_fold.
(** Adding up the elements of a set until the sum would pass 20. *)
Definition add_up (acc : Z) (t : mint U8) : outcome (Z + Z) := Ret (if 20 <? acc + mval t then inr acc else inl (acc + mval t)).
Example C67_try_fold_ex :
  v_into_iter Debug (VBS (BS [incl (u8 1) (u8 2); incl (u8 8) (u8 255)])) = Some (Ret (OfSet (BSI [BRI (u8 1) (u8 2); BRI (u8 8) (u8 255)]))) /\
  try_folds (ai_next Debug) add_up 0 (OfSet (BSI [BRI (u8 1) (u8 2); BRI (u8 8) (u8 255)]))
    (Ret (inr 20, OfSet (BSI [BRI (u8 11) (u8 255)]))).
Proof. split; [reflexivity|]. do 4 (eapply tf_continue; [reflexivity..|]). eapply tf_break; reflexivity. Qed.

(** Afterwards the iterator goes on with the elements above the one at which it stopped. *)
Theorem C67_resume (T : Type) (PF : Platform) (OT : Ord T) (ST : Step T) (NU : Numbered T) (SL : StepLaws T)
  (B R : Type) (f : B -> T -> outcome (B + R)) (b : B) (v : value T) i r i' :
  api v -> sized v -> v_into_iter Debug v = Some (Ret i) ->
  try_folds (ai_next Debug) f b i (Ret (inr r, i')) ->
  exists e l b1, mem v e /\ lists (fun t => mem v t /\ lt t e) l /\ walk f b l = Ret (inl b1) /\ f b1 e = Ret (inr r) /\
    forall k, drains (ai_next Debug) i' (Ret k) <->
      lists (fun t => mem v t /\ lt e t) k /\ forall t, mem v t -> lt e t -> ~ greatest t.
Proof.
  intros A Sz E X. pose proof (into_iter_hold v i A Sz E) as H.
  destruct (try_folds_inv _ _ _ _ ai_steps f b i _ X _ H) as (e & b1 & Re & N & Fe & H').
  apply reached_lists in Re. destruct Re as (Me & l & L & W). exists e, l, b1. repeat (split; [assumption|]).
  intros k. rewrite (holds_drains _ _ _ _ ai_steps i' _ k H'). rewrite klists_lists.
  assert (Q : forall t, mem v t /\ idx e < idx t <-> mem v t /\ lt e t) by (intros t; rewrite lt_idx; reflexivity).
  split; intros [K G]; (split; [eapply lists_ext; [|exact K]; intros t; cbv beta; rewrite Q; reflexivity|]).
  - intros t I J. apply G, Q. auto.
  - intros t I. apply Q in I. apply G; apply I.
Qed.
Print Assumptions C67_resume.

Example C67_resume_ex :
  drains (ai_next Debug) (OfSet (BSI [BRI (u8 11) (u8 12); BRI (u8 40) (u8 40)])) (Ret [u8 11; u8 12; u8 40]).
Proof.
  change (Ret [u8 11; u8 12; u8 40]) with (l <- (l <- (l <- Ret (@nil (mint U8)) ;; Ret (u8 40 :: l)) ;; Ret (u8 12 :: l)) ;; Ret (u8 11 :: l)).
  do 3 (eapply drains_item; [reflexivity|]). eapply drains_done. reflexivity.
Qed.

(** If it did not stop, nothing is left. *)
Theorem C67_exhausts (T : Type) (PF : Platform) (OT : Ord T) (ST : Step T) (NU : Numbered T) (SL : StepLaws T)
  (B R : Type) (f : B -> T -> outcome (B + R)) (b b' : B) (v : value T) i i' :
  api v -> sized v -> v_into_iter Debug v = Some (Ret i) ->
  try_folds (ai_next Debug) f b i (Ret (inl b', i')) -> drains (ai_next Debug) i' (Ret []).
Proof.
  intros A Sz E X. pose proof (into_iter_hold v i A Sz E) as H.
  destruct (try_folds_inv _ _ _ _ ai_steps f b i _ X _ H) as (_ & _ & H').
  apply (holds_drains _ _ _ _ ai_steps i' _ [] H'). split; [|intros t []]. split; [constructor|reflexivity].
Qed.
Print Assumptions C67_exhausts.
Example C67_exhausts_ex :
  try_folds (ai_next Debug) add_up 0 (OfSet (BSI [BRI (u8 1) (u8 2); BRI (u8 8) (u8 8)])) (Ret (inl 11, OfSet (BSI []))).
Proof. do 3 (eapply tf_continue; [reflexivity..|]). eapply tf_done; reflexivity. Qed.

(** [find]: the first element satisfying the predicate, unless the greatest value of the type comes before it or is
    it.  On an endless iterator the search ends just if there is something to find. *)
Theorem C67_find (T : Type) (PF : Platform) (OT : Ord T) (ST : Step T) (NU : Numbered T) (SL : StepLaws T)
  (p : T -> bool) (v : value T) i :
  api v -> sized v -> v_into_iter Debug v = Some (Ret i) ->
  (forall e, (exists i', finds (ai_next Debug) p i (Ret (Some e, i'))) <-> first_such (mem v) p e /\ ~ greatest e) /\
  ((exists i', finds (ai_next Debug) p i (Ret (None, i'))) <->
     (exists l, lists (mem v) l) /\ forall t, mem v t -> p t = false /\ ~ greatest t) /\
  (finds (ai_next Debug) p i Panic <->
     exists g, mem v g /\ greatest g /\ forall t, mem v t -> lt t g -> p t = false) /\
  ((exists o, finds (ai_next Debug) p i o) <-> (exists l, lists (mem v) l) \/ exists t, mem v t /\ p t = true).
Proof.
  intros A Sz E. pose proof (into_iter_hold v i A Sz E) as H.
  destruct (finds_keyed ai_steps p i (mem v) H) as (F1 & F2 & F3).
  assert (G1 : forall e, (exists i', finds (ai_next Debug) p i (Ret (Some e, i'))) <-> first_such (mem v) p e /\ ~ greatest e).
  { intros e. rewrite F1, below_idx. reflexivity. }
  assert (G2 : (exists i', finds (ai_next Debug) p i (Ret (None, i'))) <->
     (exists l, lists (mem v) l) /\ forall t, mem v t -> p t = false /\ ~ greatest t).
  { rewrite F2. split; intros [[l L] N]; (split; [exists l; apply klists_lists, L|exact N]). }
  assert (G3 : finds (ai_next Debug) p i Panic <-> exists g, mem v g /\ greatest g /\ forall t, mem v t -> lt t g -> p t = false).
  { rewrite F3. split; intros (g & M & G & L); exists g; repeat split; auto; apply below_idx; assumption. }
  repeat (split; [assumption|]). split.
  - intros (o & X). destruct o as [[[e|] i']| |].
    + right. destruct (proj1 (G1 e) (ex_intro _ i' X)) as [(M & P & _) _]. eauto.
    + left. exact (proj1 (proj1 G2 (ex_intro _ i' X))).
    + left. destruct (proj1 G3 X) as (g & M & G & _). destruct (hold_below i (mem v) g H M) as (l & So & Il).
      exists (l ++ [g]). split.
      * apply sorted_app; [exact So|repeat constructor|]. intros x y I [<-|[]]. apply Il in I. apply I.
      * intros t. rewrite in_app_iff, Il. cbn [In]. split; [intros [[I _]|[<-|[]]]; assumption|]. intros I.
        destruct (Z.eq_dec (idx t) (idx g)) as [Q|Q]; [right; left; symmetry; apply idx_inj, Q|]. left. split; [exact I|].
        apply greatest_idx with (u := t) in G. apply lt_idx. lia.
    + destruct X as (x & X & EQ). destruct x as [[y s]| |]; try discriminate.
      destruct (try_folds_inv _ _ _ _ ai_steps _ _ _ _ X _ H).
  - (* a first one satisfying the predicate *)
    assert (FS : forall t, mem v t -> p t = true -> exists o, finds (ai_next Debug) p i o).
    { intros t M P. destruct (hold_below i (mem v) t H M) as (l & So & Il).
      assert (Q : exists e, first_such (mem v) p e).
      { destruct (filter p l) as [|e k] eqn:Fl.
        - exists t. repeat split; auto. intros u Mu Lu. destruct (p u) eqn:Pu; [|reflexivity].
          assert (X : In u (filter p l)) by (apply filter_In; split; [apply Il; auto|exact Pu]). rewrite Fl in X. destruct X.
        - destruct (filter_lists l p So) as [Sf If]. rewrite Fl in Sf, If.
          assert (X : In e l /\ p e = true) by (apply If; now left). destruct X as [X Pe]. apply Il in X. destruct X as [Me Le].
          exists e. repeat split; auto. intros u Mu Lu. destruct (p u) eqn:Pu; [|reflexivity].
          assert (Y : In u (e :: k)). { apply If. split; [apply Il; split; [exact Mu|]|exact Pu]. rewrite lt_idx in *. lia. }
          pose proof (sorted_hd e k u Sf Y). rewrite lt_idx in Lu. lia. }
      destruct Q as (e & Q). destruct (proj2 (extreme_dec [e])) as [D|(x & [<-|[]] & D)].
      - destruct (proj2 (G1 e)) as [i' X]; [split; [exact Q|apply D; now left]|]. eauto.
      - exists Panic. apply G3. exists e. split; [apply Q|]. split; [exact D|]. apply Q. }
    intros [(l & L)|(t & M & P)]; [|eauto].
    destruct (existsb p l) eqn:X.
    + apply existsb_exists in X. destruct X as (t & I & P). apply (FS t); [apply L, I|exact P].
    + assert (N : forall t, mem v t -> p t = false).
      { intros t I. destruct (p t) eqn:P; [|reflexivity]. rewrite <- X. symmetry. apply existsb_exists. exists t. split; [apply L, I|exact P]. }
      destruct (proj2 (extreme_dec l)) as [D|(g & I & D)].
      * destruct (proj2 G2) as [i' Y]; [|eauto]. split; [eauto|]. intros t I. split; [apply N, I|apply D, L, I].
      * exists Panic. apply G3. exists g. split; [apply L, I|]. split; [exact D|]. intros t J _. apply N, J.
Qed.
Print Assumptions C67_find.
(** Found in the lower-bounded part of a set; not there, at the greatest value of the type, which is asked for as
    well when it is the element wanted. *)
Example C67_find_ex_api :
  api (VLBS (LBS (BS [incl (u8 1) (u8 2)]) (LBR (LB (Included (u8 250)))))) /\
  sized (VLBS (LBS (BS [incl (u8 1) (u8 2)]) (LBR (LB (Included (u8 250)))))).
Proof.
  split; [apply (api_union (VBR (incl (u8 1) (u8 2))) (VLBR (LBR (LB (Included (u8 250)))))); [constructor|constructor|reflexivity]|].
  intros r [<-|[]]. apply (small_dec _ [u8 1; u8 2]); [|vm_compute; discriminate].
  apply (into_iter_holds (incl (u8 1) (u8 2)) (BRI (u8 1) (u8 2)) [u8 1; u8 2] eq_refl). reflexivity.
Qed.
Example C67_find_ex :
  v_into_iter Debug (VLBS (LBS (BS [incl (u8 1) (u8 2)]) (LBR (LB (Included (u8 250)))))) =
    Some (Ret (OfLowerSet (LBSI (BSI [BRI (u8 1) (u8 2)]) (LBRI (u8 250))))) /\
  finds (ai_next Debug) (fun t => 100 <? mval t) (OfLowerSet (LBSI (BSI [BRI (u8 1) (u8 2)]) (LBRI (u8 250))))
    (Ret (Some (u8 250), OfLowerSet (LBSI (BSI []) (LBRI (u8 251))))) /\
  finds (ai_next Debug) (fun t => mval t =? 255) (OfRange (BRI (u8 254) (u8 255))) Panic.
Proof.
  split; [reflexivity|]. split.
  - eexists. split; [do 2 (eapply tf_continue; [reflexivity..|]); eapply tf_break; reflexivity|reflexivity].
  - eexists. split; [eapply tf_continue; [reflexivity..|]; eapply tf_panic; reflexivity|reflexivity].
Qed.

(** [find_map]. *)
Theorem C67_find_map (T : Type) (PF : Platform) (OT : Ord T) (ST : Step T) (NU : Numbered T) (SL : StepLaws T)
  (B : Type) (g : T -> option B) (v : value T) i :
  api v -> sized v -> v_into_iter Debug v = Some (Ret i) ->
  (forall b, (exists i', finds_map (ai_next Debug) g i (Ret (Some b, i'))) <->
     exists e, mem v e /\ ~ greatest e /\ g e = Some b /\ forall t, mem v t -> lt t e -> g t = None) /\
  ((exists i', finds_map (ai_next Debug) g i (Ret (None, i'))) <->
     (exists l, lists (mem v) l) /\ forall t, mem v t -> g t = None /\ ~ greatest t) /\
  (finds_map (ai_next Debug) g i Panic <->
     exists e, mem v e /\ greatest e /\ forall t, mem v t -> lt t e -> g t = None).
Proof.
  intros A Sz E. pose proof (into_iter_hold v i A Sz E) as H.
  destruct (finds_map_keyed ai_steps g i (mem v) H) as (F1 & F2 & F3). split; [|split].
  - intros b. rewrite F1. split; intros (e & M & G & X & L); exists e; repeat split; auto; apply below_idx; assumption.
  - rewrite F2. split; intros [[l L] N]; (split; [exists l; apply klists_lists, L|exact N]).
  - rewrite F3. split; intros (e & M & G & L); exists e; repeat split; auto; apply below_idx; assumption.
Qed.
Print Assumptions C67_find_map.
Example C67_find_map_ex :
  finds_map (ai_next Debug) (fun t : mint U8 => if 3 <? mval t then Some (mval t * 1000) else None) (OfLower (LBRI (u8 2)))
    (Ret (Some 4000, OfLower (LBRI (u8 5)))).
Proof. eexists. split; [do 2 (eapply tf_continue; [reflexivity..|]); eapply tf_break; reflexivity|reflexivity]. Qed.

(** [any] and [all]. *)
Theorem C67_any_all (T : Type) (PF : Platform) (OT : Ord T) (ST : Step T) (NU : Numbered T) (SL : StepLaws T)
  (p : T -> bool) (v : value T) i :
  api v -> sized v -> v_into_iter Debug v = Some (Ret i) ->
  ((exists i', anys (ai_next Debug) p i (Ret (true, i'))) <-> exists e, mem v e /\ p e = true /\ ~ greatest e) /\
  ((exists i', anys (ai_next Debug) p i (Ret (false, i'))) <->
     (exists l, lists (mem v) l) /\ forall t, mem v t -> p t = false /\ ~ greatest t) /\
  (anys (ai_next Debug) p i Panic <-> exists g, mem v g /\ greatest g /\ forall t, mem v t -> lt t g -> p t = false) /\
  ((exists i', alls (ai_next Debug) p i (Ret (false, i'))) <-> exists e, mem v e /\ p e = false /\ ~ greatest e) /\
  ((exists i', alls (ai_next Debug) p i (Ret (true, i'))) <->
     (exists l, lists (mem v) l) /\ forall t, mem v t -> p t = true /\ ~ greatest t) /\
  (alls (ai_next Debug) p i Panic <-> exists g, mem v g /\ greatest g /\ forall t, mem v t -> lt t g -> p t = true).
Proof.
  intros A Sz E. pose proof (into_iter_hold v i A Sz E) as H.
  assert (AN : forall q : T -> bool,
    ((exists i', anys (ai_next Debug) q i (Ret (true, i'))) <-> exists e, mem v e /\ q e = true /\ ~ greatest e) /\
    ((exists i', anys (ai_next Debug) q i (Ret (false, i'))) <->
       (exists l, lists (mem v) l) /\ forall t, mem v t -> q t = false /\ ~ greatest t) /\
    (anys (ai_next Debug) q i Panic <-> exists g, mem v g /\ greatest g /\ forall t, mem v t -> lt t g -> q t = false)).
  { intros q. destruct (anys_keyed ai_steps q i (mem v) H) as (F1 & F2 & F3). split; [|split].
    - rewrite F1. split; [intros (e & M & G & X & _); eauto|]. intros (e & M & P & G).
      destruct (hold_below i (mem v) e H M) as (l & So & Il). destruct (filter q l) as [|x k] eqn:Fl.
      + exists e. repeat split; auto. intros u Mu Lu. destruct (q u) eqn:Pu; [|reflexivity].
        assert (X : In u (filter q l)) by (apply filter_In; split; [apply Il; split; [exact Mu|apply lt_idx, Lu]|exact Pu]).
        rewrite Fl in X. destruct X.
      + destruct (filter_lists l q So) as [Sf If]. rewrite Fl in Sf, If.
        assert (X : In x l /\ q x = true) by (apply If; now left). destruct X as [X Px]. apply Il in X. destruct X as [Mx Lx].
        exists x. rewrite lt_idx in Lx. repeat split; auto.
        * intros Gx. apply greatest_idx with (u := e) in Gx. lia.
        * intros u Mu Lu. destruct (q u) eqn:Pu; [|reflexivity].
          assert (Y : In u (x :: k)). { apply If. split; [apply Il; split; [exact Mu|]|exact Pu]. rewrite lt_idx. lia. }
          pose proof (sorted_hd x k u Sf Y). lia.
    - rewrite F2. split; intros [[l L] N]; (split; [exists l; apply klists_lists, L|exact N]).
    - rewrite F3. split; intros (e & M & G & L); exists e; repeat split; auto; apply below_idx; assumption. }
  destruct (AN p) as (A1 & A2 & A3). destruct (AN (fun t => negb (p t))) as (B1 & B2 & B3).
  destruct (alls_anys (next := ai_next Debug) p i) as [C1 C2]. repeat (split; [assumption|]).
  assert (NB : forall b, negb b = true <-> b = false) by (intros []; split; auto; discriminate).
  assert (NB' : forall b, negb b = false <-> b = true) by (intros []; split; auto; discriminate).
  split; [|split].
  - rewrite (C1 false), B1. split; intros (e & M & P & G); exists e; repeat split; auto; apply NB, P.
  - rewrite (C1 true), B2. split; intros [L N]; (split; [exact L|]); intros t I; destruct (N t I); (split; [apply NB'|]; assumption).
  - rewrite C2, B3. split; intros (g & M & G & L); exists g; repeat split; auto; intros t I K; apply NB'; auto.
Qed.
Print Assumptions C67_any_all.
Example C67_any_all_ex :
  anys (ai_next Debug) (fun t => mval t =? 9) (OfSet (BSI [BRI (u8 1) (u8 2); BRI (u8 8) (u8 9)])) (Ret (true, OfSet (BSI [BRI (u8 10) (u8 9)]))) /\
  alls (ai_next Debug) (fun t => mval t <? 9) (OfSet (BSI [BRI (u8 1) (u8 2); BRI (u8 8) (u8 8)])) (Ret (true, OfSet (BSI []))).
Proof.
  split.
  - eexists. split; [do 3 (eapply tf_continue; [reflexivity..|]); eapply tf_break; reflexivity|reflexivity].
  - eexists. split; [do 3 (eapply tf_continue; [reflexivity..|]); eapply tf_done; reflexivity|reflexivity].
Qed.

(** Looking for an element with [any(|x| x == t)] gives what [contains] says, whenever it gives an answer; for an
    element in the collection it does unless it is the greatest of the type. *)
Theorem C67_any_is_contains (T : Type) (PF : Platform) (OT : Ord T) (ST : Step T) (NU : Numbered T) (SL : StepLaws T)
  (v : value T) (t : T) i :
  api v -> sized v -> v_into_iter Debug v = Some (Ret i) ->
  (forall b i', anys (ai_next Debug) (fun x => teq x t) i (Ret (b, i')) -> b = contains v t) /\
  (contains v t = true -> ~ greatest t -> exists i', anys (ai_next Debug) (fun x => teq x t) i (Ret (true, i'))) /\
  (contains v t = true -> greatest t -> anys (ai_next Debug) (fun x => teq x t) i Panic).
Proof.
  intros A Sz E. destruct (C67_any_all T PF OT ST NU SL (fun x => teq x t) v i A Sz E) as (A1 & A2 & A3 & _).
  assert (TE : forall x, teq x t = true <-> x = t).
  { intros x. rewrite idx_teq, Z.eqb_eq. split; [apply idx_inj|congruence]. }
  assert (CM : contains v t = true <-> mem v t) by (apply C00_contains_spec; apply OrdLawsStep).
  split; [|split].
  - intros [|] i' X.
    + destruct (proj1 A1 (ex_intro _ i' X)) as (e & M & P & _). apply TE in P. subst e. symmetry. apply CM, M.
    + destruct (proj1 A2 (ex_intro _ i' X)) as [_ N]. destruct (contains v t); [|reflexivity].
      destruct (N t (proj1 CM eq_refl)) as [N' _]. rewrite (proj2 (TE t) eq_refl) in N'. discriminate.
  - intros C G. apply A1. exists t. repeat split; [apply CM, C|apply TE; reflexivity|exact G].
  - intros C G. apply A3. exists t. repeat split; [apply CM, C|exact G|]. intros u _ L. destruct (teq u t) eqn:Q; [|reflexivity].
    apply TE in Q. subst u. apply lt_idx in L. lia.
Qed.
Print Assumptions C67_any_is_contains.
Example C67_any_is_contains_ex :
  anys (ai_next Debug) (fun x => teq x (u8 255)) (OfRange (BRI (u8 254) (u8 255))) Panic /\
  contains (VBR (incl (u8 254) (u8 255))) (u8 255) = true.
Proof. split; [|reflexivity]. eexists. split; [eapply tf_continue; [reflexivity..|]; eapply tf_panic; reflexivity|reflexivity]. Qed.

(** [position]: the rank of the first element satisfying the predicate; the count panics after [usize::MAX]. *)
Theorem C67_position (T : Type) (PF : Platform) (OT : Ord T) (ST : Step T) (NU : Numbered T) (SL : StepLaws T)
  (p : T -> bool) (v : value T) i :
  api v -> sized v -> v_into_iter Debug v = Some (Ret i) ->
  (forall n, (exists i', positions_of (ai_next Debug) Debug p i (Ret (Some n, i'))) <->
     exists e, first_such (mem v) p e /\ ranked (mem v) e n /\ n <= usize_max /\ ~ greatest e) /\
  ((exists i', positions_of (ai_next Debug) Debug p i (Ret (None, i'))) <->
     (exists l, lists (mem v) l /\ Z.of_nat (length l) <= usize_max) /\ forall t, mem v t -> p t = false /\ ~ greatest t) /\
  (positions_of (ai_next Debug) Debug p i Panic <->
     exists e n, ranked (mem v) e n /\ n <= usize_max /\ (forall t, mem v t -> lt t e -> p t = false) /\
       (greatest e \/ p e = false /\ n = usize_max)).
Proof.
  intros A Sz E. pose proof (into_iter_hold v i A Sz E) as H. assert (U : 0 <= usize_max) by (pose proof usize_max_ge; lia).
  destruct (positions_keyed ai_steps p i (mem v) U H) as (F1 & F2 & F3).
  assert (RK : forall e n, (exists l, klists idx (fun t => mem v t /\ idx t < idx e) l /\ Z.of_nat (length l) = n) <->
    exists l, lists (fun t => mem v t /\ lt t e) l /\ Z.of_nat (length l) = n).
  { intros e n. split; intros (l & L & Ln); exists l; (split; [|exact Ln]).
    - apply klists_lists in L. eapply lists_ext; [|exact L]. intros t. cbv beta. rewrite lt_idx. reflexivity.
    - apply klists_lists. eapply lists_ext; [|exact L]. intros t. cbv beta. rewrite lt_idx. reflexivity. }
  split; [|split].
  - intros n. rewrite F1. split.
    + intros (e & (M & Ln & R & L) & P & G). exists e. apply RK in R. rewrite below_idx in L.
      repeat split; auto.
    + intros (e & (M & P & L) & (_ & R) & Ln & G). exists e. apply RK in R.
      repeat split; auto. apply below_idx; assumption.
  - rewrite F2. split; intros [(l & L & Ln) N]; (split; [exists l; split; [apply klists_lists, L|exact Ln]|exact N]).
  - rewrite F3. split.
    + intros (e & n & (M & Ln & R & L) & X). exists e, n. apply RK in R. rewrite below_idx in L.
      repeat split; auto.
    + intros (e & n & (M & R) & Ln & L & X). exists e, n. apply RK in R.
      repeat split; auto. apply below_idx; assumption.
Qed.
Print Assumptions C67_position.
Example C67_position_ex :
  positions_of (ai_next Debug) Debug (fun t => 8 <? mval t) (OfSet (BSI [BRI (u8 1) (u8 2); BRI (u8 8) (u8 20)]))
    (Ret (Some 3, OfSet (BSI [BRI (u8 10) (u8 20)]))).
Proof. eexists. split; [do 3 (eapply tf_continue; [reflexivity..|]); eapply tf_break; reflexivity|reflexivity]. Qed.

(** From the back, for bounded collections: [rfind] and, with the length, [rposition]. *)
Theorem C67_rfind (T : Type) (PF : Platform) (OT : Ord T) (ST : Step T) (NU : Numbered T) (SL : StepLaws T)
  (p : T -> bool) (v : value T) i :
  api v -> sized v -> match v with VLBR _ | VLBS _ => False | _ => True end -> v_into_iter Debug v = Some (Ret i) ->
  (forall e, (exists i', finds (ai_next_back Debug) p i (Ret (Some e, i'))) <-> last_such (mem v) p e /\ ~ least e) /\
  ((exists i', finds (ai_next_back Debug) p i (Ret (None, i'))) <-> forall t, mem v t -> p t = false /\ ~ least t) /\
  (finds (ai_next_back Debug) p i Panic <-> exists g, mem v g /\ least g /\ forall t, mem v t -> lt g t -> p t = false).
Proof.
  intros A Sz B E. pose proof (into_iter_hold_back v i A Sz E B) as H.
  destruct (finds_keyed ai_steps_back p i (mem v) H) as (F1 & F2 & F3). split; [|split].
  - intros e. rewrite F1, above_idx. reflexivity.
  - rewrite F2. split; [intros [_ N]; exact N|]. intros N. split; [|exact N].
    destruct (hold_back_lists i (mem v) H) as [l L]. exists (rev l). apply klists_back. rewrite rev_involutive. exact L.
  - rewrite F3. split; intros (g & M & G & L); exists g; repeat split; auto; apply above_idx; assumption.
Qed.
Print Assumptions C67_rfind.
Example C67_rfind_ex :
  finds (ai_next_back Debug) (fun t => mval t <? 9) (OfSet (BSI [BRI (u8 1) (u8 2); BRI (u8 8) (u8 10)]))
    (Ret (Some (u8 8), OfSet (BSI [BRI (u8 1) (u8 2); BRI (u8 8) (u8 7)]))) /\
  finds (ai_next_back Debug) (fun t => mval t =? 0) (OfRange (BRI (u8 0) (u8 1))) Panic.
Proof.
  split.
  - eexists. split; [do 2 (eapply tf_continue; [reflexivity..|]); eapply tf_break; reflexivity|reflexivity].
  - eexists. split; [eapply tf_continue; [reflexivity..|]; eapply tf_panic; reflexivity|reflexivity].
Qed.

Theorem C67_rposition (T : Type) (PF : Platform) (OT : Ord T) (ST : Step T) (NU : Numbered T) (SL : StepLaws T)
  (p : T -> bool) (v : value T) i :
  api v -> sized v -> small (mem v) -> match v with VLBR _ | VLBS _ => False | _ => True end ->
  v_into_iter Debug v = Some (Ret i) ->
  (forall n, (exists i', rpositions (ai_next_back Debug) (ai_len Debug) p i (Ret (Some n, i'))) <->
     exists e, last_such (mem v) p e /\ ranked (mem v) e n /\ ~ least e) /\
  ((exists i', rpositions (ai_next_back Debug) (ai_len Debug) p i (Ret (None, i'))) <->
     forall t, mem v t -> p t = false /\ ~ least t) /\
  (rpositions (ai_next_back Debug) (ai_len Debug) p i Panic <->
     exists g, mem v g /\ least g /\ forall t, mem v t -> lt g t -> p t = false).
Proof.
  intros A Sz Sm B E. pose proof (into_iter_hold_back v i A Sz E B) as H.
  destruct (hold_back_lists i (mem v) H) as [l L]. specialize (Sm l L).
  set (f := fun i (a : T) => j <- usize_sub Release i 1 ;; Ret (if p a then inr j else inl j)).
  set (n0 := Z.of_nat (length l)).
  assert (RP : forall o, rpositions (ai_next_back Debug) (ai_len Debug) p i o <->
    exists x, try_folds (ai_next_back Debug) f n0 i x /\ o = (q <- x ;; Ret (break_value (fst q), snd q))).
  { intros o. unfold rpositions. rewrite (ai_len_spec i (mem v) l H L Sm). reflexivity. }
  (* the listing around an element *)
  assert (SP : forall e, mem v e -> exists l1 l2, l = l1 ++ e :: l2 /\ lists (fun t => mem v t /\ lt t e) l1 /\ lists (fun t => mem v t /\ lt e t) l2).
  { intros e M. apply L in M. destruct (in_split e l M) as (l1 & l2 & ->). exists l1, l2. split; [reflexivity|].
    destruct L as [So Il]. clear -So Il SL.
    assert (S1 : forall (a b : list T), StronglySorted lt (a ++ b) -> StronglySorted lt a /\ StronglySorted lt b /\ forall x y, In x a -> In y b -> lt x y).
    { induction a as [|z a IH]; intros b X; [repeat split; [constructor|exact X|intros x y []]|]. cbn [app] in X.
      inversion X as [|? ? X' F]; subst. destruct (IH b X') as (Y1 & Y2 & Y3). apply Forall_app in F. destruct F as [F1 F2].
      repeat split; [constructor; assumption|exact Y2|]. intros x y [->|I] J; [|auto]. rewrite Forall_forall in F2. auto. }
    destruct (S1 l1 (e :: l2) So) as (Y1 & Y2 & Y3). inversion Y2 as [|? ? Y4 F]; subst. rewrite Forall_forall in F. split; (split; [assumption|]).
    - intros t. split; [intros I; split; [apply Il, in_or_app; auto|apply Y3; [exact I|now left]]|]. intros [I K].
      apply Il, in_app_or in I. destruct I as [I|[->|I]]; [exact I|apply lt_idx in K; lia|]. apply F in I. rewrite lt_idx in *. lia.
    - intros t. split; [intros I; split; [apply Il, in_or_app; right; now right|apply F, I]|]. intros [I K].
      apply Il, in_app_or in I. destruct I as [I|[->|I]]; [|apply lt_idx in K; lia|exact I].
      pose proof (Y3 t e I (or_introl eq_refl)) as J. rewrite lt_idx in *. lia. }
  (* where the fold is when it comes to an element *)
  assert (RE : forall e n, reached (fun t => - idx t) f n0 (mem v) e n <->
    mem v e /\ ranked (mem v) e (n - 1) /\ forall t, mem v t -> lt e t -> p t = false).
  { intros e n. rewrite reached_back. split.
    - intros (M & k & K & W). destruct (SP e M) as (l1 & l2 & El & L1 & L2).
      rewrite (lists_unique _ _ _ K L2) in W. assert (Ln : n0 = Z.of_nat (length l1) + 1 + Z.of_nat (length l2)).
      { unfold n0. rewrite El, app_length. cbn [length]. lia. }
      apply walk_count_down in W; [|rewrite rev_length; unfold n0 in *; lia]. rewrite rev_length in W. destruct W as [-> W].
      split; [exact M|]. split; [split; [exact M|]; exists l1; split; [exact L1|lia]|].
      intros t I J. apply W. apply -> in_rev. apply L2. auto.
    - intros (M & (_ & k1 & K1 & Ln1) & N). destruct (SP e M) as (l1 & l2 & El & L1 & L2).
      rewrite (lists_unique _ _ _ K1 L1) in Ln1. assert (Ln : n0 = Z.of_nat (length l1) + 1 + Z.of_nat (length l2)).
      { unfold n0. rewrite El, app_length. cbn [length]. lia. }
      split; [exact M|]. exists l2. split; [exact L2|]. apply walk_count_down; [rewrite rev_length; unfold n0 in *; lia|].
      rewrite rev_length. split; [lia|]. intros a I. apply in_rev, L2 in I. apply N; apply I. }
  assert (FE : forall e n, ranked (mem v) e (n - 1) -> f n e = Ret (if p e then inr (n - 1) else inl (n - 1))).
  { intros e n R. apply ranked_nonneg in R. unfold f, usize_sub. destruct (0 <=? n - 1) eqn:C; [reflexivity|lia]. }
  assert (X1 : forall n, (exists i', rpositions (ai_next_back Debug) (ai_len Debug) p i (Ret (Some n, i'))) <->
    exists i', try_folds (ai_next_back Debug) f n0 i (Ret (inr n, i'))).
  { intros n. split.
    - intros (i' & X). apply RP in X. destruct X as ([[[u|r] s]| |] & X & Q); try discriminate. injection Q as -> ->. eauto.
    - intros (i' & X). exists i'. apply RP. eexists. split; [exact X|reflexivity]. }
  split; [|split].
  - intros n. rewrite X1, (breaks_iff _ _ _ _ ai_steps_back f n0 i _ n H). split.
    + intros (e & k & Re & G & Fe). apply RE in Re. destruct Re as (M & R & N). rewrite (FE _ _ R) in Fe.
      destruct (p e) eqn:P; [|discriminate]. injection Fe as <-. exists e. repeat split; auto; apply R.
    + intros (e & (M & P & N) & R & G). exists e, (n + 1). replace (n + 1 - 1) with n in * by lia.
      assert (R' : ranked (mem v) e (n + 1 - 1)) by (replace (n + 1 - 1) with n by lia; exact R).
      split; [apply RE; auto|]. split; [exact G|]. rewrite (FE _ _ R'), P. do 2 f_equal. lia.
  - assert (X2 : (exists i', rpositions (ai_next_back Debug) (ai_len Debug) p i (Ret (None, i'))) <->
      exists u i', try_folds (ai_next_back Debug) f n0 i (Ret (inl u, i'))).
    { split.
      - intros (i' & X). apply RP in X. destruct X as ([[[u|r] s]| |] & X & Q); try discriminate. injection Q as ->. eauto.
      - intros (u & i' & X). exists i'. apply RP. eexists. split; [exact X|reflexivity]. }
    rewrite X2. split.
    + intros (u & X). apply (ends_iff _ _ _ _ ai_steps_back f n0 i _ u H) in X. destruct X as [(k & K & W) N].
      apply klists_back in K. rewrite <- (rev_involutive k) in W. rewrite (lists_unique _ _ _ K L) in W.
      apply walk_count_down in W; [|rewrite rev_length; unfold n0; lia]. intros t I. split; [|apply N, I].
      apply W. apply -> in_rev. apply L, I.
    + intros N. exists (n0 - Z.of_nat (length (rev l))). apply (ends_iff _ _ _ _ ai_steps_back f n0 i _ _ H).
      split; [|intros t I; apply N, I]. exists (rev l). split; [apply klists_back; rewrite rev_involutive; exact L|].
      apply walk_count_down; [rewrite rev_length; unfold n0; lia|]. split; [reflexivity|]. intros a I. apply N, L, in_rev, I.
  - assert (X3 : rpositions (ai_next_back Debug) (ai_len Debug) p i Panic <-> try_folds (ai_next_back Debug) f n0 i Panic).
    { rewrite RP. split; [|intros X; exists Panic; auto]. intros ([[x s]| |] & X & Q); try discriminate. exact X. }
    rewrite X3, (panics_iff _ _ _ _ ai_steps_back f n0 i _ H). split.
    + intros (e & k & Re & X). apply RE in Re. destruct Re as (M & R & N). rewrite (FE _ _ R) in X.
      destruct X as [X|X]; [|discriminate]. exists e. auto.
    + intros (g & M & G & N). destruct (SP g M) as (l1 & l2 & El & L1 & L2). exists g, (Z.of_nat (length l1) + 1).
      split; [|auto]. apply RE. split; [exact M|]. split; [|exact N]. split; [exact M|]. exists l1. split; [exact L1|lia].
Qed.
Print Assumptions C67_rposition.
Example C67_rposition_ex :
  rpositions (ai_next_back Debug) (ai_len Debug) (fun t => mval t <? 9) (OfSet (BSI [BRI (u8 1) (u8 2); BRI (u8 8) (u8 10)]))
    (Ret (Some 2, OfSet (BSI [BRI (u8 1) (u8 2); BRI (u8 8) (u8 7)]))).
Proof. eexists. split; [do 2 (eapply tf_continue; [reflexivity..|]); eapply tf_break; reflexivity|reflexivity]. Qed.

(** [cmp] and [eq] of the iterators of two collections, of whatever types: the elements are compared in order until
    they differ or one collection ends; the greatest value of the type cannot be reached. *)
Theorem C67_compare (T : Type) (PF : Platform) (OT : Ord T) (ST : Step T) (NU : Numbered T) (SL : StepLaws T)
  (v w : value T) i j :
  api v -> sized v -> v_into_iter Debug v = Some (Ret i) ->
  api w -> sized w -> v_into_iter Debug w = Some (Ret j) ->
  let result o := compares (ai_next Debug) (ai_next Debug) cmp i j o in
  (result (Ret Eq) <-> (forall t, mem v t <-> mem w t) /\ (exists l, lists (mem v) l) /\ forall t, mem v t -> ~ greatest t) /\
  (result (Ret Lt) <->
     (exists a b, abreast (mem v) (mem w) a b /\ lt a b /\ ~ greatest b) \/
     (exists b, ended (mem v) (mem w) b /\ ~ greatest b)) /\
  (result (Ret Gt) <->
     (exists a b, abreast (mem v) (mem w) a b /\ lt b a /\ ~ greatest a) \/
     (exists a, ended (mem w) (mem v) a /\ ~ greatest a)) /\
  (result Panic <->
     (exists a b, abreast (mem v) (mem w) a b /\ (greatest a \/ greatest b)) \/
     (exists b, ended (mem v) (mem w) b /\ greatest b) \/ (exists a, ended (mem w) (mem v) a /\ greatest a)).
Proof.
  intros A Sz E A' Sz' E' result. pose proof (into_iter_hold v i A Sz E) as H. pose proof (into_iter_hold w j A' Sz' E') as H'.
  assert (Q : forall o, result o <-> verdict (mem v) (mem w) o).
  { intros o. split; [intros X; exact (compares_verdict i j o X _ _ H H')|apply verdict_compares; assumption]. }
  split; [exact (Q (Ret Eq))|]. split; [exact (Q (Ret Lt))|]. split; [exact (Q (Ret Gt))|exact (Q Panic)].
Qed.
Print Assumptions C67_compare.
(** A set in two adjacent pieces and a range with the same elements are different values ([==]) whose iterators are
    equal; an initial part is less. *)
Example C67_compare_ex :
  compares (ai_next Debug) (ai_next Debug) cmp (OfSet (BSI [BRI (u8 1) (u8 2); BRI (u8 3) (u8 4)])) (OfRange (BRI (u8 1) (u8 4))) (Ret Eq) /\
  compares (ai_next Debug) (ai_next Debug) cmp (OfRange (BRI (u8 1) (u8 1))) (OfLower (LBRI (u8 1))) (Ret Lt) /\
  compares (ai_next Debug) (ai_next Debug) cmp (OfRange (BRI (u8 254) (u8 254))) (OfLower (LBRI (u8 254))) Panic.
Proof.
  split; [|split].
  - do 4 (eapply co_more; [reflexivity..|]). eapply co_both; reflexivity.
  - eapply co_more; [reflexivity..|]. eapply co_first; reflexivity.
  - eapply co_more; [reflexivity..|]. eapply co_panic2; reflexivity.
Qed.

(** Whatever a search returns in a debug build it returns in a release build. *)
Theorem C67_release (T : Type) (PF : Platform) (OT : Ord T) (ST : Step T) (NU : Numbered T) (SL : StepLaws T)
  (v w : value T) (p : T -> bool) i j :
  v_into_iter Debug v = Some (Ret i) -> v_into_iter Debug w = Some (Ret j) ->
  v_into_iter Release v = Some (Ret i) /\ v_into_iter Release w = Some (Ret j) /\
  (forall B R (f : B -> T -> outcome (B + R)) b x,
     try_folds (ai_next Debug) f b i (Ret x) -> try_folds (ai_next Release) f b i (Ret x)) /\
  (forall B R (f : B -> T -> outcome (B + R)) b x,
     try_folds (ai_next_back Debug) f b i (Ret x) -> try_folds (ai_next_back Release) f b i (Ret x)) /\
  (forall x, positions_of (ai_next Debug) Debug p i (Ret x) -> positions_of (ai_next Release) Release p i (Ret x)) /\
  (forall c, compares (ai_next Debug) (ai_next Debug) cmp i j (Ret c) -> compares (ai_next Release) (ai_next Release) cmp i j (Ret c)).
Proof.
  intros E E'. split; [apply v_into_iter_agree, E|]. split; [apply v_into_iter_agree, E'|]. repeat split.
  - intros B R f b x. apply try_folds_agree; [apply ai_next_agree|auto].
  - intros B R f b x. apply try_folds_agree; [apply ai_next_back_agree|auto].
  - intros x ([y| |] & X & Q); try discriminate. exists (Ret y). split; [|exact Q].
    revert X. apply try_folds_agree; [apply ai_next_agree|]. intros b a z. destruct (p a); [auto|]. intros F. inv_bind F.
    rewrite (usize_add_agree _ _ _ E0). exact F.
  - intros c. apply compares_agree; apply ai_next_agree.
Qed.
Print Assumptions C67_release.
Example C67_release_ex :
  finds (ai_next Release) (fun t => 100 <? mval t) (OfLowerSet (LBSI (BSI [BRI (u8 1) (u8 2)]) (LBRI (u8 250))))
    (Ret (Some (u8 250), OfLowerSet (LBSI (BSI []) (LBRI (u8 251))))).
Proof. eexists. split; [do 2 (eapply tf_continue; [reflexivity..|]); eapply tf_break; reflexivity|reflexivity]. Qed.
