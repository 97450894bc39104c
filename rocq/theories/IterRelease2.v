(** Lower-bounded sets of integers in release: the pieces first, then the
    half-line counted modulo the size of the type. *)
From Coq Require Import Lia ZifyBool Sorted.
From Verif Require Import Base ModelBound ModelRanges ModelSets ModelAlgebra ModelValue ModelStep ModelIter
  Spec Reach SpecStep SpecIter StepProofs InstancesStep StepLemmas IterProofs IterProofs2 IterProofs3 IterProofs4 IterLemmas IterRelease.
Open Scope Z_scope.
Section S.
Context {PF : Platform} {ty : ity}.
(** A reply at position [q]: from the pieces' elements [l0], or counted from
    [z] modulo the size of the type. *)
Definition wraps_at (l0 : list (mint ty)) (z : Z) (o : option (mint ty)) (q : Z) : Prop :=
  exists e, o = Some e /\ (q < Z.of_nat (length l0) -> nth_error l0 (Z.to_nat q) = Some e)
  /\ (Z.of_nat (length l0) <= q -> congr e (z + (q - Z.of_nat (length l0)))).
Lemma skipn_nth {A} (l0 : list A) k j : nth_error (skipn k l0) j = nth_error l0 (k + j).
Proof.
  revert k. induction l0 as [|x l IH]; intros k.
  - rewrite skipn_nil. destruct j, (k + _)%nat; reflexivity.
  - destruct k; [reflexivity|]. simpl. apply IH.
Qed.
Lemma skipn_add {A} (l0 : list A) k j : skipn j (skipn k l0) = skipn (k + j) l0.
Proof.
  revert k. induction l0 as [|x l IH]; intros k.
  - rewrite !skipn_nil. reflexivity.
  - destruct k; [reflexivity|]. cbn [skipn Nat.add]. apply IH.
Qed.
Lemma lbsi_release l0 z cs : Z.of_nat (length l0) <= usize_max -> (forall t, In t l0 -> ~ greatest t) ->
  Forall up_call_ok cs -> forall (it : LowerBoundedSetIter (mint ty)) p,
  0 <= p -> holds_set (lbsi_set_iter it) (skipn (Z.to_nat p) l0) ->
  congr (lbri_current (lbsi_range_iter it)) (z + Z.max 0 (p - Z.of_nat (length l0))) ->
  exists reps it', run (lbsi_call Release) it cs = Ret (reps, it') /\ Forall2 (wraps_at l0 z) reps (positions p cs).
Proof.
  intros U G O. induction O as [|c cs Oc O IH]; intros it p Hp Hs C; cbn [run positions].
  { exists [], it. split; [reflexivity|constructor]. }
  assert (NG : forall t, In t (skipn (Z.to_nat p) l0) -> ~ greatest t) by (intros t J; apply G; eapply in_skipn; exact J).
  assert (K : exists o it', lbsi_call Release it c = Ret (o, it') /\
    let q := p + match c with UpNext => 0 | UpNth n => n end in
    wraps_at l0 z o q /\ holds_set (lbsi_set_iter it') (skipn (Z.to_nat (q + 1)) l0) /\
    congr (lbri_current (lbsi_range_iter it')) (z + Z.max 0 (q + 1 - Z.of_nat (length l0)))).
  { destruct c; cbn [lbsi_call up_call_ok] in *.
    - unfold lbsi_next. destruct (bsi_next_cases _ _ Hs) as [(it1 & E1 & K & _)|[_ (x & l' & EQ & Gx)]].
      2: { exfalso. apply (NG x); [rewrite EQ; now left|exact Gx]. }
      rewrite (bsi_next_agree _ _ E1). cbn [bind fst snd].
      rewrite <- nth_error_hd. rewrite <- skipn_S in K. rewrite Z.add_0_r.
      replace (S (Z.to_nat p)) with (Z.to_nat (p + 1)) in K by lia.
      destruct (nth_error l0 (Z.to_nat p)) as [e|] eqn:NE.
      + assert (Z.to_nat p < length l0)%nat by (apply nth_error_Some; congruence).
        eexists _, _. split; [reflexivity|]. cbn [lbsi_set_iter lbsi_range_iter].
        split; [exists e; repeat split; [intros; exact NE|lia]|]. split; [exact K|].
        replace (Z.max 0 (p + 1 - _)) with (Z.max 0 (p - Z.of_nat (length l0))) by lia. exact C.
      + apply nth_error_None in NE. unfold lbri_next. destruct (congr_fwd _ _ 1 C one_ok) as (y & -> & Cy). cbn [bind fst snd].
        eexists _, _. split; [reflexivity|]. cbn [lbsi_set_iter lbsi_range_iter lbri_current].
        split; [eexists; split; [reflexivity|split; [lia|intros _]]|split; [exact K|]].
        * replace (p - _) with (Z.max 0 (p - Z.of_nat (length l0))) by lia. exact C.
        * replace (z + Z.max 0 (p + 1 - _)) with (z + Z.max 0 (p - Z.of_nat (length l0)) + 1) by lia. exact Cy.
    - unfold lbsi_nth. pose proof (bsi_len_spec _ _ Hs) as EL. rewrite skipn_length in EL.
      destruct (_ <=? _) eqn:B in EL; [|lia]. rewrite (bsi_len_agree _ _ EL). cbn [bind].
      destruct (bsi_nth_total _ _ n Hs Oc NG) as [[o i] E]. rewrite (bsi_nth_agree _ _ _ Oc E). cbn [bind fst snd].
      destruct (bsi_nth_refines _ _ _ _ _ Hs Oc E) as [-> K]. rewrite skipn_nth. rewrite skipn_add in K.
      replace (Z.to_nat p + Z.to_nat n)%nat with (Z.to_nat (p + n)) by lia.
      replace (Z.to_nat p + S (Z.to_nat n))%nat with (Z.to_nat (p + n + 1)) in K by lia.
      destruct (nth_error l0 (Z.to_nat (p + n))) as [e|] eqn:NE.
      + assert (Z.to_nat (p + n) < length l0)%nat by (apply nth_error_Some; congruence).
        eexists _, _. split; [reflexivity|]. cbn [lbsi_set_iter lbsi_range_iter].
        split; [exists e; repeat split; [intros; exact NE|lia]|]. split; [exact K|].
        replace (Z.max 0 (p + n + 1 - _)) with (Z.max 0 (p - Z.of_nat (length l0))) by lia. exact C.
      + apply nth_error_None in NE. unfold usize_sub.
        destruct (0 <=? n - Z.of_nat (length l0 - Z.to_nat p)) eqn:D; [|lia]. cbn [bind].
        unfold lbri_nth. destruct (congr_fwd _ _ (n - Z.of_nat (length l0 - Z.to_nat p)) C) as (y & -> & Cy); [lia|]. cbn [bind].
        unfold lbri_next. cbn [lbri_current]. destruct (congr_fwd _ _ 1 Cy one_ok) as (y' & -> & Cy'). cbn [bind fst snd].
        eexists _, _. split; [reflexivity|]. cbn [lbsi_set_iter lbsi_range_iter lbri_current].
        split; [eexists; split; [reflexivity|split; [lia|intros _]]|split; [exact K|]].
        * replace (z + (p + n - _)) with (z + Z.max 0 (p - Z.of_nat (length l0)) + (n - Z.of_nat (length l0 - Z.to_nat p))) by lia. exact Cy.
        * replace (z + Z.max 0 (p + n + 1 - _)) with
            (z + Z.max 0 (p - Z.of_nat (length l0)) + (n - Z.of_nat (length l0 - Z.to_nat p)) + 1) by lia. exact Cy'. }
  destruct K as (o & it' & E & W & H' & C'). rewrite E. cbn [bind fst snd].
  destruct (IH it' (p + match c with UpNext => 0 | UpNth n => n end + 1)) as (reps & it'' & -> & F);
    [destruct c; cbn [up_call_ok] in Oc; lia|exact H'|exact C'|].
  cbn [bind fst snd]. eexists _, _. split; [reflexivity|].
  destruct c; cbn [positions]; rewrite ?Z.add_0_r in *; constructor; assumption.
Qed.
Lemma lbs_release (s : LowerBoundedSet (mint ty)) it cs l : api (VLBS s) -> small (in_pieces (bs_ranges (lbs_ranges s))) ->
  lbs_into_iter Debug s = Ret it -> lists (in_pieces (bs_ranges (lbs_ranges s))) l -> Forall up_call_ok cs ->
  exists c reps it', (forall t, above (lbr_start (lbs_lbr s)) t <-> le c t) /\
    run (lbsi_call Release) it cs = Ret (reps, it') /\ Forall2 (wraps_at l (mval c)) reps (positions 0 cs).
Proof.
  intros A Sm E L O.
  assert (S' : forall r, In r (bs_ranges (lbs_ranges s)) -> small (in_range r))
    by (apply small_pieces; [apply api_valid in A; apply A|exact Sm]).
  destruct (lbs_start s it A S' E) as (l0 & c0 & (_ & Hs & Hc) & L0 & P & B).
  rewrite (lists_unique _ _ _ L0 L) in *. clear L0.
  assert (E' := E). unfold lbs_into_iter in E'. inv_bind E'. inv_bind E'. injection E' as <-.
  pose proof (lbr_into_iter_spec _ _ E1) as Q. cbn [lbsi_range_iter lbsi_set_iter] in *.
  destruct (lbsi_release l (mval (lbri_current a0)) cs) with (it := LBSI a a0) (p := 0) as (reps & it' & R & F).
  - apply Sm, L.
  - intros t J G. assert (idx t < idx c0) by (apply B, L, J). specialize (G c0). apply le_idx in G. lia.
  - exact O.
  - lia.
  - exact Hs.
  - cbn [lbsi_range_iter]. replace (_ + Z.max _ _) with (mval (lbri_current a0)) by lia. reflexivity.
  - exists (lbri_current a0), reps, it'. split; [|split; assumption]. intros t. rewrite Q, le_idx. reflexivity.
Qed.
End S.
