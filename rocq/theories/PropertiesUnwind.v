(** Property theorems C68: going on with an iterator after a call on it panicked
    and the panic was caught ([catch_unwind]).

    [run_caught step it cs]: the calls [cs] one after the other, each panic caught;
    the replies ([None]: that call panicked) and the state in the end.
    [from_front cs rs], [from_back cs rs]: the elements handed out at either end. *)
From Coq Require Import Lia ZifyBool Sorted.
From Verif Require Import Base ModelBound ModelRanges ModelSets ModelAlgebra ModelValue ModelStep ModelIter ModelUnwind
  Spec Reach SpecStep SpecIter SpecUnwind SpecSearch SetProofs ValueProofs StepProofs StepLemmas IterProofs IterProofs2 IterProofs3
  IterProofs4 IterLemmas AdaptProofs UnwindProofs UnwindProofs2 InstancesStep PropertiesAlgebra PropertiesIter.
Open Scope Z_scope.
#[local] Existing Instance pf64.

Section Helpers.
Context {T : Type} {PF : Platform} {OT : Ord T} {ST : Step T} {NU : Numbered T} {SL : StepLaws T}.
Lemma C68_set_listing s it : api (VBS s) -> sized (VBS s) -> bs_into_iter Debug s = Ret it ->
  exists l : list T, lists (mem (VBS s)) l /\ holds_set it l.
Proof.
  intros A Sz E. destruct (bs_into_iter_holds s (api_valid _ A) Sz) as (it1 & l & E1 & H & L).
  rewrite E in E1. injection E1 as <-. exists l. auto.
Qed.
Lemma sorted_before l (g t : T) : StronglySorted lt (l ++ [g]) -> In t l -> lt t g.
Proof.
  induction l as [|x l IH]; intros So J; [destruct J|]. cbn [app] in So. inversion So; subst.
  destruct J as [->|J]; [|auto]. rewrite Forall_forall in *. apply H2. apply in_or_app. right. now left.
Qed.
End Helpers.

(** With the state after a panic forgotten this is the model of the other properties, in either build. *)
Theorem C68_same (T : Type) (PF : Platform) (OT : Ord T) (ST : Step T) (m : mode) :
  (forall (it : BoundedRangeIter T) c, uncaught (bri_call_u m it c) = bri_call m it c) /\
  (forall (it : BoundedSetIter T) c, uncaught (bsi_call_u m it c) = bsi_call m it c) /\
  (forall (it : LowerBoundedRangeIter T) c, uncaught (lbri_call_u m it c) = lbri_call m it c) /\
  (forall (it : LowerBoundedSetIter T) c, uncaught (lbsi_call_u m it c) = lbsi_call m it c).
Proof.
  repeat split; intros; [apply same_call|apply same_set_call|apply same_lower_call|apply same_lower_set_call].
Qed.
Print Assumptions C68_same.
Example C68_same_ex :
  bri_call_u Debug (BRI (u8 250) (u8 255)) (Nth 5) = Unwound (BRI (u8 255) (u8 255)) /\
  bri_call Debug (BRI (u8 250) (u8 255)) (Nth 5) = Panic.
Proof. split; reflexivity. Qed.

(** Ranges: whatever is called and whatever panics, no element is handed out twice, none that is not in the range, the
    elements from the front ascend, those from the back descend, and the two do not cross; the iterator left behind is
    one over [k], between them.  If no call passes over elements, nothing is lost either. *)
Theorem C68_range (T : Type) (PF : Platform) (OT : Ord T) (ST : Step T) (NU : Numbered T) (SL : StepLaws T)
  (r : BoundedRange T) (it : BoundedRangeIter T) (l : list T) (cs : list call) :
  br_into_iter Debug r = Ret it -> lists (in_range r) l -> Forall call_ok cs ->
  (In Len cs -> Z.of_nat (length l) <= usize_max) ->
  exists rs it', run_caught (bri_call_u Debug) it cs = Ret (rs, it') /\
  exists k, let all := from_front cs rs ++ k ++ rev (from_back cs rs) in
    StronglySorted lt all /\ Forall (in_range r) all /\ (Forall plain cs -> all = l) /\
    forall cs' reps it2, Forall call_ok cs' -> (In Len cs' -> Z.of_nat (length k) <= usize_max) ->
      run (bri_call Debug) it' cs' = Ret (reps, it2) -> reps = fst (deque_run k cs').
Proof.
  intros E L O Sz. pose proof (proj2 (into_iter_holds r it l E) L) as H.
  assert (I : range_inv (~ In Len cs) it l).
  { split; [exact H|]. destruct (Z_le_dec (Z.of_nat (length l)) usize_max); [now left|right; auto]. }
  assert (O' : Forall (range_ok (~ In Len cs)) cs).
  { rewrite Forall_forall in *. intros c J. split; [apply O, J|]. intros N ->. exact (N J). }
  destruct (caught_total _ _ _ (range_step (~ In Len cs)) cs it l I O') as (rs & it' & R). exists rs, it'. split; [exact R|].
  destruct (caught_history _ _ _ (range_step (~ In Len cs)) cs it l rs it' I O' R) as (k & [Hk _] & Sb & Pl).
  exists k. cbv zeta. split; [apply (sub_sorted _ _ _ Sb), L|]. split.
  - apply Forall_forall. intros t J. apply L. eapply sub_in; eassumption.
  - split; [exact Pl|]. intros cs' reps it2 O2 S2 R2. apply (bri_run_refines cs' it' k reps it2 Hk O2 S2 R2).
Qed.
Print Assumptions C68_range.
(** [250..=255]: the front stops at the greatest value; the back hands it out. *)
Example C68_range_ex :
  run_caught (bri_call_u Debug) (BRI (u8 253) (u8 255)) [Next; Next; Next; Next; NextBack; NextBack; Next] =
    Ret ([Some (Item (Some (u8 253))); Some (Item (Some (u8 254))); None; None;
          Some (Item (Some (u8 255))); Some (Item None); Some (Item None)], BRI (u8 255) (u8 254)) /\
  run_caught (bri_call_u Debug) (BRI (u8 0) (u8 2)) [NthBack 7; NthBack 2; Len; Next] =
    Ret ([None; None; Some (Count 1); Some (Item (Some (u8 0)))], BRI (u8 1) (u8 0)).
Proof. split; vm_compute; reflexivity. Qed.

(** Sets, likewise. *)
Theorem C68_set (T : Type) (PF : Platform) (OT : Ord T) (ST : Step T) (NU : Numbered T) (SL : StepLaws T)
  (s : BoundedSet T) (it : BoundedSetIter T) (l : list T) (cs : list call) :
  api (VBS s) -> sized (VBS s) -> bs_into_iter Debug s = Ret it -> lists (mem (VBS s)) l -> Forall call_ok cs ->
  exists rs it', run_caught (bsi_call_u Debug) it cs = Ret (rs, it') /\
  exists k, let all := from_front cs rs ++ k ++ rev (from_back cs rs) in
    StronglySorted lt all /\ Forall (mem (VBS s)) all /\ (Forall plain cs -> all = l) /\
    forall cs' reps it2, Forall call_ok cs' ->
      run (bsi_call Debug) it' cs' = Ret (reps, it2) -> reps = fst (deque_run k cs').
Proof.
  intros A Sz E L O.
  assert (H : holds_set it l) by (eapply bs_into_iter_holds'; eauto; apply api_valid; exact A).
  destruct (caught_total _ _ _ set_step cs it l H O) as (rs & it' & R). exists rs, it'. split; [exact R|].
  destruct (caught_history _ _ _ set_step cs it l rs it' H O R) as (k & Hk & Sb & Pl).
  exists k. cbv zeta. split; [apply (sub_sorted _ _ _ Sb), L|]. split.
  - apply Forall_forall. intros t J. apply L. eapply sub_in; eassumption.
  - split; [exact Pl|]. intros cs' reps it2 O2 R2. apply (bsi_run_refines cs' it' k reps it2 Hk O2 R2).
Qed.
Print Assumptions C68_set.
Example C68_set_ex :
  bs_into_iter Debug (BS [incl (u8 1) (u8 2); incl (u8 254) (u8 255)]) = Ret (BSI [BRI (u8 1) (u8 2); BRI (u8 254) (u8 255)]) /\
  run_caught (bsi_call_u Debug) (BSI [BRI (u8 1) (u8 2); BRI (u8 254) (u8 255)]) [Nth 3; Next; Len; NextBack; Next] =
    Ret ([None; None; Some (Count 1); Some (Item (Some (u8 255))); Some (Item None)], BSI []).
Proof. split; vm_compute; reflexivity. Qed.

(** After a panic of [next] the iterator is over the greatest value alone: [next] panics again, [next_back] hands it
    out, and with that the iterator is at its end. *)
Theorem C68_next (T : Type) (PF : Platform) (OT : Ord T) (ST : Step T) (NU : Numbered T) (SL : StepLaws T)
  (it it' : BoundedRangeIter T) :
  bri_next_u Debug it = Unwound it' ->
  exists g, greatest g /\ it' = it /\ it = BRI g g /\ bri_next_u Debug it' = Unwound it' /\
    (~ least g -> exists it2, bri_next_back_u Debug it' = Back (Some g) it2 /\
       bri_next_u Debug it2 = Back None it2 /\ bri_next_back_u Debug it2 = Back None it2).
Proof.
  intros E. pose proof (next_unwound _ _ _ E) as ->. pose proof (unwound_uncaught _ _ E) as P. rewrite same_next in P.
  destruct (holds_exists it) as [l Hl]. apply (next_panics _ _ Hl) in P. destruct P as (g & l' & -> & G).
  pose proof (span_length _ _ _ Hl) as Ln. simpl in Ln.
  destruct (span_hd _ _ _ (bri_current it) Hl) as [l2 E2]; [lia|reflexivity|]. injection E2 as -> ->.
  pose proof (G (bri_last_field it)) as Gl. apply le_idx in Gl.
  assert (Q : bri_last_field it = bri_current it) by (apply idx_inj; lia).
  exists (bri_current it). split; [exact G|]. split; [reflexivity|]. split; [destruct it; cbn in *; congruence|]. split; [exact E|].
  intros NL. destruct (bwd_cases (bri_last_field it) 1 one_ok) as [(b & F & Ib)|[F Lt]].
  - exists (BRI (bri_current it) b).
    assert (X : bri_next_back_u Debug it = Back (Some (bri_current it)) (BRI (bri_current it) b)).
    { unfold bri_next_back_u. rewrite t_gt_idx, F. destruct (_ <? _) eqn:C; [lia|]. cbn [attempt]. rewrite Q. reflexivity. }
    split; [exact X|]. unfold bri_next_u, bri_next_back_u. cbn [bri_current bri_last_field]. rewrite t_gt_idx.
    destruct (idx b <? idx (bri_current it)) eqn:C; [auto|]. rewrite Q in Ib. lia.
  - exfalso. apply NL. intros u. apply le_idx. specialize (Lt u). rewrite Q in Lt. lia.
Qed.
Print Assumptions C68_next.
Example C68_next_ex :
  bri_next_u Debug (BRI (u8 255) (u8 255)) = Unwound (BRI (u8 255) (u8 255)) /\
  bri_next_back_u Debug (BRI (u8 255) (u8 255)) = Back (Some (u8 255)) (BRI (u8 255) (u8 254)).
Proof. split; reflexivity. Qed.

(** The same of [next_back] and the least value. *)
Theorem C68_next_back (T : Type) (PF : Platform) (OT : Ord T) (ST : Step T) (NU : Numbered T) (SL : StepLaws T)
  (it it' : BoundedRangeIter T) :
  bri_next_back_u Debug it = Unwound it' ->
  exists g, least g /\ it' = it /\ it = BRI g g /\ bri_next_back_u Debug it' = Unwound it' /\
    (~ greatest g -> exists it2, bri_next_u Debug it' = Back (Some g) it2 /\
       bri_next_u Debug it2 = Back None it2 /\ bri_next_back_u Debug it2 = Back None it2).
Proof.
  intros E. pose proof (next_back_unwound _ _ _ E) as ->. pose proof (unwound_uncaught _ _ E) as P. rewrite same_next_back in P.
  destruct (holds_exists it) as [l Hl]. apply (next_back_panics _ _ Hl) in P. destruct P as (g & l' & R & G).
  pose proof (span_length _ _ _ Hl) as Ln. rewrite <- rev_length, R in Ln. simpl in Ln.
  destruct (span_last _ _ _ (bri_last_field it) Hl) as [l2 E2]; [lia|reflexivity|]. rewrite E2 in R. injection R as <- <-.
  pose proof (G (bri_current it)) as Gl. apply le_idx in Gl.
  assert (Q : bri_last_field it = bri_current it) by (apply idx_inj; lia).
  exists (bri_last_field it). split; [exact G|]. split; [reflexivity|]. split; [destruct it; cbn in *; congruence|]. split; [exact E|].
  intros NL. destruct (fwd_cases (bri_current it) 1 one_ok) as [(b & F & Ib)|[F Lt]].
  - exists (BRI b (bri_last_field it)).
    assert (X : bri_next_u Debug it = Back (Some (bri_last_field it)) (BRI b (bri_last_field it))).
    { unfold bri_next_u. rewrite t_gt_idx, F. destruct (_ <? _) eqn:C; [lia|]. cbn [attempt]. rewrite Q. reflexivity. }
    split; [exact X|]. unfold bri_next_u, bri_next_back_u. cbn [bri_current bri_last_field]. rewrite t_gt_idx.
    destruct (idx (bri_last_field it) <? idx b) eqn:C; [auto|]. rewrite Q in C. lia.
  - exfalso. apply NL. intros u. apply le_idx. specialize (Lt u). rewrite Q. lia.
Qed.
Print Assumptions C68_next_back.
Example C68_next_back_ex :
  bri_next_back_u Debug (BRI (u8 0) (u8 0)) = Unwound (BRI (u8 0) (u8 0)) /\
  bri_next_u Debug (BRI (u8 0) (u8 0)) = Back (Some (u8 0)) (BRI (u8 1) (u8 0)).
Proof. split; reflexivity. Qed.

(** [nth] on a range: when it panics, and what it leaves: the iterator as it was if the type ends before [n] steps
    are made, and otherwise one over the greatest value alone. *)
Theorem C68_range_nth (T : Type) (PF : Platform) (OT : Ord T) (ST : Step T) (NU : Numbered T) (SL : StepLaws T)
  (it it' : BoundedRangeIter T) (n : Z) :
  0 <= n <= usize_max ->
  (bri_nth_u Debug it n = Unwound it' <->
   (it' = it /\ ~ exists b, apart (bri_current it) b n) \/
   (exists g, greatest g /\ apart (bri_current it) g n /\ bri_last_field it = g /\ it' = BRI g g)) /\
  (bri_nth_back_u Debug it n = Unwound it' <->
   (it' = it /\ ~ exists b, apart b (bri_last_field it) n) \/
   (exists g, least g /\ apart g (bri_last_field it) n /\ bri_current it = g /\ it' = BRI g g)).
Proof.
  intros Hn. rewrite none_apart, none_apart_back by lia. split; split.
  - intros E. destruct (nth_unwound it n it' Hn E) as [[-> Lt]|(c & Ic & -> & El & G)]; [left; auto|right].
    assert (Q : bri_last_field it = c) by (apply idx_inj; lia). exists c. split; [exact G|]. split; [apply apart_idx; lia|].
    split; [exact Q|]. rewrite Q. reflexivity.
  - unfold bri_nth_u. intros [[-> Lt]|(g & G & Ap & Q & ->)]; destruct (fwd_cases (bri_current it) n Hn) as [(b & F & Ib)|[F Lt']]; rewrite F; cbn [attempt].
    + specialize (Lt b). lia.
    + reflexivity.
    + apply apart_idx in Ap. assert (b = g) as -> by (apply idx_inj; lia). rewrite Q.
      unfold bri_next_u. cbn [bri_current bri_last_field]. rewrite t_gt_idx. destruct (idx g <? idx g) eqn:C; [lia|].
      destruct (fwd_cases g 1 one_ok) as [(b & F' & Ib')|[F' _]]; rewrite F'; cbn [attempt]; [|reflexivity].
      specialize (G b). rewrite le_idx in G. lia.
    + apply apart_idx in Ap. specialize (Lt' g). lia.
  - intros E. destruct (nth_back_unwound it n it' Hn E) as [[-> Lt]|(c & Ic & -> & El & G)]; [left; auto|right].
    assert (Q : bri_current it = c) by (apply idx_inj; lia). exists c. split; [exact G|]. split; [apply apart_idx; lia|].
    split; [exact Q|]. rewrite Q. reflexivity.
  - unfold bri_nth_back_u. intros [[-> Lt]|(g & G & Ap & Q & ->)]; destruct (bwd_cases (bri_last_field it) n Hn) as [(b & F & Ib)|[F Lt']]; rewrite F; cbn [attempt].
    + specialize (Lt b). lia.
    + reflexivity.
    + apply apart_idx in Ap. assert (b = g) as -> by (apply idx_inj; lia). rewrite Q.
      unfold bri_next_back_u. cbn [bri_current bri_last_field]. rewrite t_gt_idx. destruct (idx g <? idx g) eqn:C; [lia|].
      destruct (bwd_cases g 1 one_ok) as [(b & F' & Ib')|[F' _]]; rewrite F'; cbn [attempt]; [|reflexivity].
      specialize (G b). rewrite le_idx in G. lia.
    + apply apart_idx in Ap. specialize (Lt' g). lia.
Qed.
Print Assumptions C68_range_nth.
Example C68_range_nth_ex :
  bri_nth_u Debug (BRI (u8 250) (u8 252)) 6 = Unwound (BRI (u8 250) (u8 252)) /\
  bri_nth_u Debug (BRI (u8 250) (u8 255)) 5 = Unwound (BRI (u8 255) (u8 255)) /\
  bri_nth_back_u Debug (BRI (u8 0) (u8 9)) 9 = Unwound (BRI (u8 0) (u8 0)).
Proof. repeat split; reflexivity. Qed.

(** [next] and [nth] on a set, at any time: if they panic the element they should have returned is the greatest value,
    the last of the set; they leave an iterator over that alone, and [next_back] hands it out. *)
Theorem C68_set_front (T : Type) (PF : Platform) (OT : Ord T) (ST : Step T) (NU : Numbered T) (SL : StepLaws T)
  (s : BoundedSet T) (it it1 it2 : BoundedSetIter T) (cs : list call) rs (n : Z) :
  api (VBS s) -> sized (VBS s) -> bs_into_iter Debug s = Ret it -> Forall call_ok cs ->
  run_caught (bsi_call_u Debug) it cs = Ret (rs, it1) -> 0 <= n <= usize_max ->
  bsi_nth_u Debug it1 n = Unwound it2 \/ n = 0 /\ bsi_next_u Debug it1 = Unwound it2 ->
  exists g, greatest g /\ mem (VBS s) g /\ ~ In g (from_back cs rs) /\ (n < usize_max -> bsi_len Debug it1 = Ret (n + 1)) /\
    bsi_next Debug it2 = Panic /\ bsi_len Debug it2 = Ret 1 /\
    (~ least g -> exists it3, bsi_next_back Debug it2 = Ret (Some g, it3) /\ bsi_len Debug it3 = Ret 0).
Proof.
  intros A Sz E O R Hn U.
  destruct (C68_set_listing s it A Sz E) as (l & L & H).
  destruct (caught_history _ _ _ set_step cs it l rs it1 H O R) as (k & Hk & Sb & _).
  assert (So : StronglySorted lt (k ++ rev (from_back cs rs))).
  { apply (sub_sorted _ _ l); [|apply L]. eapply sub_trans; [exact Sb|]. apply (sub_app [] (from_front cs rs) _ _ (sub_nil_l _) (sub_refl _)). }
  assert (V : exists g l', holds_set it2 (g :: l') /\ greatest g /\ skipn (Z.to_nat n) k = g :: l').
  { destruct U as [U|[-> U]].
    - destruct (set_nth_unwound it1 k n it2 Hk Hn U) as [K (g & l' & G & Q)]. exists g, l'. rewrite <- Q. auto.
    - destruct (set_next_unwound it1 k it2 Hk U) as [K (g & l' & G & Q)]. exists g, l'. cbn [Z.to_nat skipn]. rewrite <- Q. auto. }
  destruct V as (g & l' & K & G & Q).
  assert (S1 : StronglySorted lt (g :: l' ++ rev (from_back cs rs))).
  { apply (sub_sorted _ _ _ (sub_app [] (firstn (Z.to_nat n) k) _ _ (sub_nil_l _) (sub_refl ((g :: l') ++ rev (from_back cs rs))))).
    rewrite app_assoc, <- Q, firstn_skipn. exact So. }
  assert (N : forall t, In t (l' ++ rev (from_back cs rs)) -> False).
  { intros t J. apply (sorted_hd g _ S1) in J. specialize (G t). rewrite lt_idx in J. rewrite le_idx in G. lia. }
  assert (l' = []) as -> by (destruct l' as [|x l']; [reflexivity|exfalso; apply (N x); now left]).
  assert (Ln : Z.of_nat (length k) = n + 1).
  { apply (f_equal (@length T)) in Q. rewrite skipn_length in Q. simpl in Q. lia. }
  exists g. split; [exact G|]. split.
  { apply L. eapply sub_in; [exact Sb|]. apply in_or_app. right. apply in_or_app. left.
    eapply sub_in; [apply (sub_skipn (Z.to_nat n))|rewrite Q; now left]. }
  split; [intros J; apply (N g); cbn [app]; rewrite <- in_rev; exact J|].
  split; [intros Hu; rewrite (bsi_len_spec it1 k Hk), Ln; destruct (_ <=? _) eqn:C; [reflexivity|lia]|].
  pose proof usize_max_ge as UM.
  split; [destruct (bsi_next_cases it2 [g] K) as [(it3 & _ & _ & X)|[X _]]; [exfalso; exact (X g [] eq_refl G)|exact X]|].
  split; [rewrite (bsi_len_spec it2 [g] K); cbn [length]; destruct (_ <=? _) eqn:C; [reflexivity|lia]|].
  intros NL. destruct (bsi_next_back_cases it2 [g] K) as [(it3 & X & K3 & _)|[_ (x & q & X & Lx)]].
  - exists it3. split; [exact X|]. cbn [rev app tl] in K3. rewrite (bsi_len_spec it3 [] K3). cbn [length]. destruct (_ <=? _) eqn:C; [reflexivity|lia].
  - cbn [rev app] in X. injection X as <- <-. contradiction.
Qed.
Print Assumptions C68_set_front.
Example C68_set_front_ex :
  bsi_nth_u Debug (BSI [BRI (u8 1) (u8 2); BRI (u8 254) (u8 255)]) 3 = Unwound (BSI [BRI (u8 255) (u8 255)]) /\
  bsi_next_back Debug (BSI [BRI (u8 255) (u8 255)]) = Ret (Some (u8 255), BSI [BRI (u8 255) (u8 254)]).
Proof. split; reflexivity. Qed.

(** From the back, with the least value. *)
Theorem C68_set_back (T : Type) (PF : Platform) (OT : Ord T) (ST : Step T) (NU : Numbered T) (SL : StepLaws T)
  (s : BoundedSet T) (it it1 it2 : BoundedSetIter T) (cs : list call) rs (n : Z) :
  api (VBS s) -> sized (VBS s) -> bs_into_iter Debug s = Ret it -> Forall call_ok cs ->
  run_caught (bsi_call_u Debug) it cs = Ret (rs, it1) -> 0 <= n <= usize_max ->
  bsi_nth_back_u Debug it1 n = Unwound it2 \/ n = 0 /\ bsi_next_back_u Debug it1 = Unwound it2 ->
  exists g, least g /\ mem (VBS s) g /\ ~ In g (from_front cs rs) /\ (n < usize_max -> bsi_len Debug it1 = Ret (n + 1)) /\
    bsi_next_back Debug it2 = Panic /\ bsi_len Debug it2 = Ret 1 /\
    (~ greatest g -> exists it3, bsi_next Debug it2 = Ret (Some g, it3) /\ bsi_len Debug it3 = Ret 0).
Proof.
  intros A Sz E O R Hn U.
  destruct (C68_set_listing s it A Sz E) as (l & L & H).
  destruct (caught_history _ _ _ set_step cs it l rs it1 H O R) as (k & Hk & Sb & _).
  assert (So : StronglySorted lt (from_front cs rs ++ k)).
  { apply (sub_sorted _ _ l); [|apply L]. eapply sub_trans; [exact Sb|].
    rewrite <- (app_nil_r (from_front cs rs ++ k)), (app_assoc (from_front cs rs)). apply sub_app; [apply sub_refl|apply sub_nil_l]. }
  assert (V : exists g l', holds_set it2 (rev (g :: l')) /\ least g /\ skipn (Z.to_nat n) (rev k) = g :: l').
  { destruct U as [U|[-> U]].
    - destruct (set_nth_back_unwound it1 k n it2 Hk Hn U) as [K (g & l' & G & Q)]. exists g, l'. rewrite <- Q. auto.
    - destruct (set_next_back_unwound it1 k it2 Hk U) as [K (g & l' & G & Q)]. exists g, l'. cbn [Z.to_nat skipn].
      rewrite <- Q, rev_involutive. auto. }
  destruct V as (g & l' & K & G & Q).
  assert (Qf : k = rev l' ++ g :: rev (firstn (Z.to_nat n) (rev k))).
  { rewrite <- (rev_involutive k) at 1. rewrite <- (firstn_skipn (Z.to_nat n) (rev k)) at 1. rewrite Q, rev_app_distr.
    cbn [rev]. rewrite <- app_assoc. reflexivity. }
  assert (S1 : StronglySorted lt ((from_front cs rs ++ rev l') ++ [g])).
  { apply (sub_sorted _ _ (from_front cs rs ++ k)); [|exact So]. rewrite Qf, <- app_assoc. apply sub_app; [apply sub_refl|].
    apply sub_app; [apply sub_refl|]. apply sub_keep, sub_nil_l. }
  assert (N : forall t, In t (from_front cs rs ++ rev l') -> False).
  { intros t J. pose proof (sorted_before _ g t S1 J) as B. specialize (G t). rewrite lt_idx in B. rewrite le_idx in G. lia. }
  assert (l' = []) as -> by (destruct l' as [|x l']; [reflexivity|exfalso; apply (N x); apply in_or_app; right; rewrite <- in_rev; now left]).
  assert (Ln : Z.of_nat (length k) = n + 1).
  { apply (f_equal (@length T)) in Q. rewrite skipn_length, rev_length in Q. simpl in Q. lia. }
  exists g. split; [exact G|]. split.
  { apply L. eapply sub_in; [exact Sb|]. apply in_or_app. right. apply in_or_app. left. rewrite Qf. apply in_or_app. right. now left. }
  split; [intros J; apply (N g); apply in_or_app; left; exact J|].
  split; [intros Hu; rewrite (bsi_len_spec it1 k Hk), Ln; destruct (_ <=? _) eqn:C; [reflexivity|lia]|].
  pose proof usize_max_ge as UM. cbn [rev app] in K.
  split; [destruct (bsi_next_back_cases it2 [g] K) as [(it3 & _ & _ & X)|[X _]]; [exfalso; exact (X g [] eq_refl G)|exact X]|].
  split; [rewrite (bsi_len_spec it2 [g] K); cbn [length]; destruct (_ <=? _) eqn:C; [reflexivity|lia]|].
  intros NL. destruct (bsi_next_cases it2 [g] K) as [(it3 & X & K3 & _)|[_ (x & q & X & Lx)]].
  - exists it3. split; [exact X|]. cbn [tl] in K3. rewrite (bsi_len_spec it3 [] K3). cbn [length]. destruct (_ <=? _) eqn:C; [reflexivity|lia].
  - injection X as <- <-. contradiction.
Qed.
Print Assumptions C68_set_back.
Example C68_set_back_ex :
  bsi_nth_back_u Debug (BSI [BRI (u8 0) (u8 2); BRI (u8 9) (u8 9)]) 3 = Unwound (BSI [BRI (u8 0) (u8 0)]) /\
  bsi_next Debug (BSI [BRI (u8 0) (u8 0)]) = Ret (Some (u8 0), BSI [BRI (u8 1) (u8 0)]).
Proof. split; reflexivity. Qed.

(** Iterators that are bounded below only: the elements handed out ascend, all are in the range, and what the iterator
    is over in the end ([P]) lies above them.  With [next] alone nothing is lost. *)
Theorem C68_lower (T : Type) (PF : Platform) (OT : Ord T) (ST : Step T) (NU : Numbered T) (SL : StepLaws T)
  (r : LowerBoundedRange T) (it : LowerBoundedRangeIter T) (cs : list up_call) :
  lbr_into_iter Debug r = Ret it -> Forall up_call_ok cs ->
  exists rs it', run_caught (lbri_call_u Debug) it cs = Ret (rs, it') /\
  exists P : T -> Prop,
    StronglySorted lt (given rs) /\ Forall (mem (VLBR r)) (given rs) /\
    (forall t, P t -> mem (VLBR r) t /\ Forall (fun e => lt e t) (given rs)) /\
    (Forall (fun c => c = UpNext) cs -> forall t, mem (VLBR r) t <-> In t (given rs) \/ P t) /\
    forall cs' reps it2, Forall up_call_ok cs' -> run (lbri_call Debug) it' cs' = Ret (reps, it2) ->
      Forall2 (fun o q => exists e, o = Some e /\ ranked P e q) reps (positions 0 cs').
Proof.
  intros E O. assert (I : lower_inv it (mem (VLBR r))) by exact (lbr_into_iter_spec r it E).
  destruct (up_total _ _ lower_step cs it _ I O) as (rs & it' & R). exists rs, it'. split; [exact R|].
  destruct (up_history _ _ lower_step cs it _ rs it' I O R) as (P & I' & So & Fo & Su & Al). exists P.
  repeat (split; [assumption|]). intros cs' reps it2 O2 R2.
  pose proof (lbri_run_spec (lbri_current it') cs' 0 it' reps it2 ltac:(lia) O2 R2) as F.
  pose proof (positions_nonneg 0 cs' ltac:(lia) O2) as N. clear R2 O2. revert N.
  induction F as [|o q os qs (e & -> & He) F IH]; intros N; constructor.
  - exists e. split; [reflexivity|]. inversion N; subst. apply (ranked_from _ (lbri_current it')); auto.
  - apply IH. inversion N; assumption.
Qed.
Print Assumptions C68_lower.
Example C68_lower_ex :
  run_caught (lbri_call_u Debug) (LBRI (u8 250)) [UpNext; UpNth 10; UpNext; UpNth 3; UpNext] =
    Ret ([Some (Some (u8 250)); None; Some (Some (u8 251)); None; None], LBRI (u8 255)).
Proof. vm_compute. reflexivity. Qed.

Theorem C68_lower_set (T : Type) (PF : Platform) (OT : Ord T) (ST : Step T) (NU : Numbered T) (SL : StepLaws T)
  (s : LowerBoundedSet T) (it : LowerBoundedSetIter T) (cs : list up_call) :
  api (VLBS s) -> sized (VLBS s) -> lbs_into_iter Debug s = Ret it -> Forall up_call_ok cs ->
  exists rs it', run_caught (lbsi_call_u Debug) it cs = Ret (rs, it') /\
  exists P : T -> Prop,
    StronglySorted lt (given rs) /\ Forall (mem (VLBS s)) (given rs) /\
    (forall t, P t -> mem (VLBS s) t /\ Forall (fun e => lt e t) (given rs)) /\
    (Forall (fun c => c = UpNext) cs -> forall t, mem (VLBS s) t <-> In t (given rs) \/ P t) /\
    forall cs' reps it2, Forall up_call_ok cs' -> run (lbsi_call Debug) it' cs' = Ret (reps, it2) ->
      Forall2 (fun o q => exists e, o = Some e /\ ranked P e q) reps (positions 0 cs').
Proof.
  intros A Sz E O. destruct (lbs_start s it A Sz E) as (l0 & c0 & St).
  assert (I : lower_set_inv it (mem (VLBS s))).
  { exists l0, c0. destruct St as (A1 & A2 & A3 & A4). split; [exact A1|]. split; [split; [apply A2|reflexivity]|].
    destruct A2 as [_ Li]. split; [intros t; rewrite A3, Li; reflexivity|intros t J; apply A4, Li, J]. }
  destruct (up_total _ _ lower_set_step cs it _ I O) as (rs & it' & R). exists rs, it'. split; [exact R|].
  destruct (up_history _ _ lower_set_step cs it _ rs it' I O R) as (P & (l1 & c1 & I') & So & Fo & Su & Al). exists P.
  repeat (split; [assumption|]). intros cs' reps it2 O2 R2. eapply starts_history; eassumption.
Qed.
Print Assumptions C68_lower_set.
Example C68_lower_set_ex :
  run_caught (lbsi_call_u Debug) (LBSI (BSI [BRI (u8 1) (u8 2)]) (LBRI (u8 254))) [UpNext; UpNext; UpNext; UpNext] =
    Ret ([Some (Some (u8 1)); Some (Some (u8 2)); Some (Some (u8 254)); None], LBSI (BSI []) (LBRI (u8 255))).
Proof. vm_compute. reflexivity. Qed.

(** A call that panics need not leave everything as it was: [nth] on a set bounded below only has dropped the pieces
    when it panics in the range above them, and that has not moved.  After [nth(100)] on [{1, 2} ∪ [250, ..)] the next
    element is neither the one due before the call nor one beyond those passed over. *)
Theorem C68_unchanged_refuted :
  exists (s : LowerBoundedSet (mint U8)) it it' t t',
    api (VLBS s) /\ lbs_into_iter Debug s = Ret it /\ lbsi_nth_u Debug it 100 = Unwound it' /\
    (exists i, lbsi_next Debug it = Ret (Some t, i)) /\ (exists i, lbsi_next Debug it' = Ret (Some t', i)) /\ t <> t'.
Proof.
  exists (LBS (BS [incl (u8 1) (u8 2)]) (LBR (LB (Included (u8 250))))),
    (LBSI (BSI [BRI (u8 1) (u8 2)]) (LBRI (u8 250))), (LBSI (BSI []) (LBRI (u8 250))), (u8 1), (u8 250).
  split; [|split; [reflexivity|split; [vm_compute; reflexivity|split; [eexists; vm_compute; reflexivity|split; [eexists; vm_compute; reflexivity|discriminate]]]]].
  apply (api_union (VBR (incl (u8 1) (u8 2))) (VLBR (LBR (LB (Included (u8 250)))))); [constructor|constructor|reflexivity].
Qed.
Print Assumptions C68_unchanged_refuted.

(** A piece of exactly [usize::MAX + 1] elements, whose [len] panics: [next] and [nth] of the set panic when they come to
    it, the pieces before it are gone, and it and the pieces behind it are there as before; so on the next call the same. *)
Theorem C68_len (T : Type) (PF : Platform) (OT : Ord T) (ST : Step T) (NU : Numbered T) (SL : StepLaws T)
  (pre post : list (BoundedRangeIter T)) (p : BoundedRangeIter T) (ls : list (list T)) (lp : list T) (n : Z) :
  Forall2 (fun it l => Z.of_nat (length l) <= usize_max /\ exists r, br_into_iter Debug r = Ret it /\ lists (in_range r) l) pre ls ->
  (exists r, br_into_iter Debug r = Ret p /\ lists (in_range r) lp) -> Z.of_nat (length lp) = usize_max + 1 ->
  Z.of_nat (length (concat ls)) <= n ->
  bsi_nth_u Debug (BSI (pre ++ p :: post)) n = Unwound (BSI (p :: post)) /\
  bsi_nth_back_u Debug (BSI (post ++ p :: rev pre)) n = Unwound (BSI (post ++ [p])) /\
  (n = 0 -> bsi_next_u Debug (BSI (pre ++ p :: post)) = Unwound (BSI (p :: post)) /\
            bsi_next_back_u Debug (BSI (post ++ p :: rev pre)) = Unwound (BSI (post ++ [p]))).
Proof.
  intros F (r & Ep & Lp) Hp Hn.
  assert (P : bri_len Debug p = Panic).
  { rewrite (len_spec p lp (proj2 (into_iter_holds r p lp Ep) Lp)). destruct (_ <=? _) eqn:C; [lia|]. destruct (_ =? _) eqn:C2; [reflexivity|lia]. }
  assert (K : forall post n, Z.of_nat (length (concat ls)) <= n -> skip_u Debug (pre ++ p :: post) n = Unwound (p :: post)).
  { clear Hn n post. induction F as [|it l its ls [Hl (r' & E & L)] F IH]; intros post n Hn; cbn [app skip_u].
    - rewrite P. reflexivity.
    - cbn [concat] in Hn. rewrite app_length in Hn.
      rewrite (len_small it l (proj2 (into_iter_holds r' it l E) L) Hl). cbn [attempt].
      destruct (_ <=? _) eqn:C; [|lia]. apply IH. lia. }
  assert (K0 : forall post, Z.of_nat (length (concat ls)) <= 0 -> trim_u Debug (pre ++ p :: post) = Unwound (p :: post)).
  { clear Hn K n post. induction F as [|it l its ls [Hl (r' & E & L)] F IH]; intros post Hn; cbn [app trim_u].
    - rewrite P. reflexivity.
    - cbn [concat] in Hn. rewrite app_length in Hn.
      rewrite (len_small it l (proj2 (into_iter_holds r' it l E) L) Hl). cbn [attempt].
      destruct (_ =? _) eqn:C; [|lia]. apply IH. lia. }
  assert (R : rev (post ++ p :: rev pre) = pre ++ p :: rev post).
  { rewrite rev_app_distr. cbn [rev]. rewrite rev_involutive, <- app_assoc. reflexivity. }
  unfold bsi_nth_u, bsi_nth_back_u, bsi_next_u, bsi_next_back_u. cbn [bsi_range_iters]. rewrite R, !K by exact Hn.
  cbn [after within_part rev]. rewrite rev_involutive. split; [reflexivity|]. split; [reflexivity|].
  intros ->. rewrite !K0 by exact Hn. cbn [after within_part rev]. rewrite rev_involutive. auto.
Qed.
Print Assumptions C68_len.
Example C68_len_ex :
  let p := BRI (lit U128 5) (lit U128 (5 + usize_max)) in let q := BRI (lit U128 (2 ^ 70)) (lit U128 (2 ^ 70)) in
  bsi_nth_u Debug (BSI [BRI (lit U128 1) (lit U128 2); p; q]) 3 = Unwound (BSI [p; q]) /\
  br_into_iter Debug (incl (lit U128 5) (lit U128 (5 + usize_max))) = Ret p.
Proof. split; vm_compute; reflexivity. Qed.

(** In a build without overflow checks the iterators over integers never panic: there is nothing to catch. *)
Theorem C68_release (PF : Platform) (ty : ity) :
  (forall (it : BoundedRangeIter (mint ty)) c, exists r it', bri_call_u Release it c = Back r it') /\
  (forall (it : BoundedSetIter (mint ty)) c, exists r it', bsi_call_u Release it c = Back r it') /\
  (forall (it : LowerBoundedRangeIter (mint ty)) c, exists r it', lbri_call_u Release it c = Back r it') /\
  (forall (it : LowerBoundedSetIter (mint ty)) c, exists r it', lbsi_call_u Release it c = Back r it').
Proof.
  assert (F : forall x n, exists y, @forward (mint ty) _ Release x n = Ret y).
  { intros x n. cbn [forward StepMint]. unfold int_forward, op_result. destruct (int_forward_checked x n); [|destruct (of_z ty _)]; eexists; reflexivity. }
  assert (B : forall x n, exists y, @backward (mint ty) _ Release x n = Ret y).
  { intros x n. cbn [backward StepMint]. unfold int_backward, op_result. destruct (int_backward_checked x n); [|destruct (of_z ty _)]; eexists; reflexivity. }
  repeat split; intros; [apply release_call|apply release_set_call|apply release_lower_call|apply release_lower_set_call]; assumption.
Qed.
Print Assumptions C68_release.
Example C68_release_ex :
  run_caught (bri_call_u Release) (BRI (u8 254) (u8 255)) [Next; Next; Next; NextBack] =
    Ret ([Some (Item (Some (u8 254))); Some (Item (Some (u8 255))); Some (Item (Some (u8 0))); Some (Item (Some (u8 255)))],
         BRI (u8 1) (u8 254)).
Proof. vm_compute. reflexivity. Qed.
