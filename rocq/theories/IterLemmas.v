(** Iteration stated for ranges and sets instead of iterator states. *)
From Coq Require Import Lia ZifyBool Sorted.
From Verif Require Import Base ModelBound ModelRanges ModelSets ModelAlgebra ModelValue ModelStep ModelIter
  Spec Reach SpecStep SpecIter SetProofs ValueProofs StepProofs StepLemmas IterProofs IterProofs2 IterProofs3 IterProofs4
  Laws Laws2 PropertiesAlgebra.
Open Scope Z_scope.

Section Lemmas.
Context {T : Type} {PF : Platform} {OT : Ord T} {ST : Step T} {NU : Numbered T} {SL : StepLaws T}.

Lemma api_valid (v : value T) : api v -> valid v.
Proof. apply C05_sets_well_formed. apply OrdLawsStep. Qed.

Lemma collect_range r it l : br_into_iter Debug r = Ret it ->
  (drains (bri_next Debug) it (Ret l) <-> lists (in_range r) l /\ forall t, in_range r t -> ~ greatest t) /\
  (drains (bri_next Debug) it Panic <-> exists t, in_range r t /\ greatest t).
Proof.
  intros E. destruct (range_listing r) as [k K]. pose proof (proj2 (into_iter_holds r it k E) K) as H.
  destruct (drains_forward k it H) as [D1 D2].
  assert (C : (forall t, In t k -> ~ greatest t) \/ exists t, In t k /\ greatest t).
  { clear - SL. induction k as [|x k IH]; [left; intros t []|].
    destruct (fwd_cases x 1 one_ok) as [(b & _ & Hb)|[_ Hb]].
    - destruct IH as [IH|(t & I & G)]; [|right; exists t; simpl; auto]. left. intros t [->|I]; [|apply IH; exact I].
      intros G. specialize (G b). apply le_idx in G. lia.
    - right. exists x. split; [now left|]. intros u. apply le_idx. specialize (Hb u). lia. }
  destruct K as [Ks Ki]. destruct C as [C|C]; split.
  - specialize (D1 C). split.
    + intros D. pose proof (drains_det _ _ _ _ D D1) as Q. injection Q as ->. split; [split; assumption|].
      intros t J. apply C, Ki, J.
    + intros [L _]. rewrite (lists_unique _ _ _ L (conj Ks Ki)). exact D1.
  - split.
    + intros D. specialize (D1 C). pose proof (drains_det _ _ _ _ D D1). discriminate.
    + intros (t & J & G). exfalso. apply (C t); [apply Ki; exact J|exact G].
  - specialize (D2 C). destruct C as (t & J & G). split.
    + intros D. pose proof (drains_det _ _ _ _ D D2). discriminate.
    + intros [_ N]. exfalso. apply (N t); [apply Ki; exact J|exact G].
  - destruct C as (t & J & G). split; [|intros _; apply D2; eauto]. intros _. exists t. split; [apply Ki; exact J|exact G].
Qed.
Lemma extreme_dec (k : list T) :
  ((forall t, In t k -> ~ least t) \/ exists t, In t k /\ least t) /\
  ((forall t, In t k -> ~ greatest t) \/ exists t, In t k /\ greatest t).
Proof.
  induction k as [|x k [IH1 IH2]]; [split; left; intros t []|]. split.
  - destruct (bwd_cases x 1 one_ok) as [(b & _ & Hb)|[_ Hb]].
    + destruct IH1 as [IH|(t & I & G)]; [|right; exists t; simpl; auto]. left. intros t [->|I]; [|apply IH; exact I].
      intros G. specialize (G b). apply le_idx in G. lia.
    + right. exists x. split; [now left|]. intros u. apply le_idx. specialize (Hb u). lia.
  - destruct (fwd_cases x 1 one_ok) as [(b & _ & Hb)|[_ Hb]].
    + destruct IH2 as [IH|(t & I & G)]; [|right; exists t; simpl; auto]. left. intros t [->|I]; [|apply IH; exact I].
      intros G. specialize (G b). apply le_idx in G. lia.
    + right. exists x. split; [now left|]. intros u. apply le_idx. specialize (Hb u). lia.
Qed.
Lemma collect_range_back r it l : br_into_iter Debug r = Ret it ->
  (drains (bri_next_back Debug) it (Ret l) <-> lists (in_range r) (rev l) /\ forall t, in_range r t -> ~ least t) /\
  (drains (bri_next_back Debug) it Panic <-> exists t, in_range r t /\ least t).
Proof.
  intros E. destruct (range_listing r) as [k K]. pose proof (proj2 (into_iter_holds r it k E) K) as H.
  rewrite <- (rev_involutive k) in H. destruct (drains_backward (rev k) it H) as [D1 D2].
  destruct (proj1 (extreme_dec (rev k))) as [C|C]; destruct K as [Ks Ki];
    assert (Ki' : forall t, In t (rev k) <-> in_range r t) by (intros t; rewrite <- in_rev; apply Ki); split.
  - specialize (D1 C). split.
    + intros D. pose proof (drains_det _ _ _ _ D D1) as Q. injection Q as ->. rewrite rev_involutive. split; [split; assumption|].
      intros t J. apply C, Ki', J.
    + intros [L _]. rewrite <- (rev_involutive l). rewrite (lists_unique _ _ _ L (conj Ks Ki)). exact D1.
  - split.
    + intros D. specialize (D1 C). pose proof (drains_det _ _ _ _ D D1). discriminate.
    + intros (t & J & G). exfalso. apply (C t); [apply Ki'; exact J|exact G].
  - specialize (D2 C). destruct C as (t & J & G). split.
    + intros D. pose proof (drains_det _ _ _ _ D D2). discriminate.
    + intros [_ N]. exfalso. apply (N t); [apply Ki'; exact J|exact G].
  - destruct C as (t & J & G). split; [|intros _; apply D2; eauto]. intros _. exists t. split; [apply Ki'; exact J|exact G].
Qed.

Lemma history_range r it l cs reps it' : br_into_iter Debug r = Ret it -> lists (in_range r) l ->
  Forall call_ok cs -> (In Len cs -> Z.of_nat (length l) <= usize_max) ->
  run (bri_call Debug) it cs = Ret (reps, it') -> reps = fst (deque_run l cs) /\ holds it' (snd (deque_run l cs)).
Proof. intros E L O S R. eapply bri_run_refines; try eassumption. apply (into_iter_holds r it l E). exact L. Qed.

(** Without asking for the length no condition on the size is needed. *)
Lemma holds_after r it l cs reps it' : br_into_iter Debug r = Ret it -> lists (in_range r) l ->
  Forall call_ok cs -> run (bri_call Debug) it cs = Ret (reps, it') -> holds it' (snd (deque_run l cs)).
Proof.
  intros E L. apply (into_iter_holds r it l E) in L. clear E. revert it l L reps.
  induction cs as [|c cs IH]; intros it l H reps O R; cbn [run deque_run] in *.
  - injection R as <- <-. exact H.
  - inv_bind R. inv_bind R. injection R as <- <-. destruct a as [rep i]. destruct a0 as [reps' i']. inversion O; subst.
    cbn [fst snd] in *. eapply IH; [|eassumption..].
    destruct c; try (eapply bri_call_refines; [exact H|assumption|discriminate|exact E]).
    cbn [bri_call] in E. inv_bind E. injection E as <- <-. exact H.
Qed.

Lemma size_reported it l : holds it l -> Z.of_nat (length l) <= usize_max ->
  bri_size_hint Debug it = Ret (Z.of_nat (length l), Some (Z.of_nat (length l))) /\
  bri_len Debug it = Ret (Z.of_nat (length l)) /\ bri_count Debug it = Ret (Z.of_nat (length l)).
Proof.
  intros H S. pose proof (len_small it l H S) as L. unfold bri_count. split; [|auto].
  unfold bri_len, bri_size_hint in *. inv_bind L. inv_bind E. rewrite E0. cbn [bind].
  injection E as <-. unfold exact_len in L. cbn [fst snd] in L. rewrite Z.eqb_refl in L. injection L as <-. reflexivity.
Qed.
Lemma set_size_reported it l : holds_set it l -> Z.of_nat (length l) <= usize_max ->
  bsi_size_hint Debug it = Ret (Z.of_nat (length l), Some (Z.of_nat (length l))) /\
  bsi_len Debug it = Ret (Z.of_nat (length l)) /\ bsi_count Debug it = Ret (Z.of_nat (length l)).
Proof.
  intros H S. pose proof (bsi_len_spec it l H) as L. destruct (_ <=? _) eqn:C in L; [|lia]. unfold bsi_count. split; [|auto].
  unfold bsi_len, bsi_size_hint in *. inv_bind L. inv_bind E. rewrite E0. cbn [bind].
  injection E as <-. unfold exact_len in L. cbn [fst snd] in L. rewrite Z.eqb_refl in L. injection L as <-. reflexivity.
Qed.

(** last, min, max *)
Lemma last_spec it l : holds it l -> bri_last it = hd_error (rev l).
Proof.
  intros H. unfold bri_last. rewrite t_gt_idx. destruct (_ <? _) eqn:C.
  - rewrite (span_nil _ _ _ H) by lia. reflexivity.
  - destruct (span_last _ _ _ (bri_last_field it) H) as [l' ->]; [lia|reflexivity|]. reflexivity.
Qed.
Lemma min_spec it l : holds it l ->
  (forall o, bri_min Debug it = Ret o <-> o = hd_error l /\ forall t, o = Some t -> ~ greatest t).
Proof.
  intros H o. unfold bri_min. split.
  - intros E. inv_bind E. injection E as <-. destruct a as [o it']. cbn [fst].
    destruct (next_refines it l o it' H E0) as [-> _]. split; [reflexivity|].
    intros t Et G. destruct l as [|x l]; [discriminate|]. injection Et as ->.
    assert (bri_next Debug it = Panic) by (apply (next_panics it (t :: l) H); eauto). congruence.
  - intros [-> G]. destruct (bri_next Debug it) as [[o it']| |] eqn:E.
    + destruct (next_refines it l o it' H E) as [-> _]. reflexivity.
    + exfalso. apply (next_panics it l H) in E. destruct E as (x & l' & -> & Gx). exact (G x eq_refl Gx).
    + exfalso. exact (next_not_diverge _ E).
Qed.
Lemma max_spec it l : holds it l ->
  (forall o, bri_max Debug it = Ret o <-> o = hd_error (rev l) /\ forall t, o = Some t -> ~ least t).
Proof.
  intros H o. unfold bri_max. split.
  - intros E. inv_bind E. injection E as <-. destruct a as [o it']. cbn [fst].
    destruct (next_back_refines it l o it' H E0) as [-> _]. split; [reflexivity|].
    intros t Et G. destruct (rev l) as [|x l'] eqn:R; [discriminate|]. injection Et as ->.
    assert (bri_next_back Debug it = Panic) by (apply (next_back_panics it l H); eauto). congruence.
  - intros [-> G]. destruct (bri_next_back Debug it) as [[o it']| |] eqn:E.
    + destruct (next_back_refines it l o it' H E) as [-> _]. reflexivity.
    + exfalso. apply (next_back_panics it l H) in E. destruct E as (x & l' & R & Gx). rewrite R in G. exact (G x eq_refl Gx).
    + exfalso. exact (next_back_not_diverge _ E).
Qed.
Lemma set_min_spec it l : holds_set it l ->
  (forall o, bsi_min Debug it = Ret o <-> o = hd_error l /\ forall t, o = Some t -> ~ greatest t).
Proof.
  intros H o. unfold bsi_min. destruct (bsi_next_cases it l H) as [(it' & -> & _ & G)|[-> (x & l' & -> & G)]]; cbn [bind fst].
  - split.
    + injection 1 as <-. split; [reflexivity|]. intros t Et. destruct l as [|x l]; [discriminate|]. injection Et as ->. eapply G; reflexivity.
    + intros [-> _]. reflexivity.
  - split; [discriminate|]. intros [-> N]. exfalso. exact (N x eq_refl G).
Qed.
Lemma set_max_spec it l : holds_set it l ->
  (forall o, bsi_max Debug it = Ret o <-> o = hd_error (rev l) /\ forall t, o = Some t -> ~ least t).
Proof.
  intros H o. unfold bsi_max. destruct (bsi_next_back_cases it l H) as [(it' & -> & _ & G)|[-> (x & l' & -> & G)]]; cbn [bind fst].
  - split.
    + injection 1 as <-. split; [reflexivity|]. intros t Et. destruct (rev l) as [|x l'] eqn:R; [discriminate|]. injection Et as ->. eapply G; reflexivity.
    + intros [-> _]. reflexivity.
  - split; [discriminate|]. intros [-> N]. exfalso. exact (N x eq_refl G).
Qed.
End Lemmas.

Section SetLemmas.
Context {T : Type} {PF : Platform} {OT : Ord T} {ST : Step T} {NU : Numbered T} {SL : StepLaws T}.

Lemma lists_in (P : T -> Prop) l : lists P l -> forall t, In t l <-> P t.
Proof. intros [_ I]. exact I. Qed.

(** Loops over an iterator that behaves like a queue of [k]. *)
Lemma collect_iff {S : Type} (next : S -> outcome (option T * S)) (bad P : T -> Prop) it k :
  lists P k -> ((forall t, In t k -> ~ bad t) \/ exists t, In t k /\ bad t) ->
  ((forall t, In t k -> ~ bad t) -> drains next it (Ret k)) -> ((exists t, In t k /\ bad t) -> drains next it Panic) ->
  forall l, (drains next it (Ret l) <-> lists P l /\ forall t, P t -> ~ bad t) /\
    (drains next it Panic <-> exists t, P t /\ bad t).
Proof.
  intros K C D1 D2 l. pose proof (lists_in _ _ K) as I. destruct C as [C|C].
  - specialize (D1 C). split; split.
    + intros D. pose proof (drains_det _ _ _ _ D D1) as Q. injection Q as ->. split; [exact K|]. intros t J. apply C, I, J.
    + intros [L _]. rewrite (lists_unique _ _ _ L K). exact D1.
    + intros D. pose proof (drains_det _ _ _ _ D D1). discriminate.
    + intros (t & J & G). exfalso. apply (C t); [apply I; exact J|exact G].
  - specialize (D2 C). destruct C as (t & J & G). split; split.
    + intros D. pose proof (drains_det _ _ _ _ D D2). discriminate.
    + intros [_ N]. exfalso. apply (N t); [apply I; exact J|exact G].
    + intros _. exists t. split; [apply I; exact J|exact G].
    + intros _. exact D2.
Qed.

Lemma collect_set s it l : api (VBS s) -> (forall r, In r (bs_ranges s) -> small (in_range r)) ->
  bs_into_iter Debug s = Ret it ->
  (drains (bsi_next Debug) it (Ret l) <-> lists (mem (VBS s)) l /\ forall t, mem (VBS s) t -> ~ greatest t) /\
  (drains (bsi_next Debug) it Panic <-> exists t, mem (VBS s) t /\ greatest t).
Proof.
  intros A S E. destruct (bs_into_iter_holds s (api_valid _ A) S) as (it' & k & E' & H & K).
  rewrite E in E'. injection E' as <-. destruct (bsi_drains k it H) as [D1 D2].
  apply (collect_iff _ _ _ _ k K (proj2 (extreme_dec k)) D1 D2).
Qed.
Lemma collect_set_back s it l : api (VBS s) -> (forall r, In r (bs_ranges s) -> small (in_range r)) ->
  bs_into_iter Debug s = Ret it ->
  (drains (bsi_next_back Debug) it (Ret l) <-> lists (mem (VBS s)) (rev l) /\ forall t, mem (VBS s) t -> ~ least t) /\
  (drains (bsi_next_back Debug) it Panic <-> exists t, mem (VBS s) t /\ least t).
Proof.
  intros A S E. destruct (bs_into_iter_holds s (api_valid _ A) S) as (it' & k & E' & H & K).
  rewrite E in E'. injection E' as <-. rewrite <- (rev_involutive k) in H. destruct (bsi_drains_back (rev k) it H) as [D1 D2].
  pose proof (lists_in _ _ K) as I.
  assert (I' : forall t, In t (rev k) <-> mem (VBS s) t) by (intros t; rewrite <- in_rev; apply I).
  destruct (proj1 (extreme_dec (rev k))) as [C|C].
  - specialize (D1 C). split; split.
    + intros D. pose proof (drains_det _ _ _ _ D D1) as Q. injection Q as ->. rewrite rev_involutive. split; [exact K|].
      intros t J. apply C, I', J.
    + intros [L _]. rewrite <- (rev_involutive l), (lists_unique _ _ _ L K). exact D1.
    + intros D. pose proof (drains_det _ _ _ _ D D1). discriminate.
    + intros (t & J & G). exfalso. apply (C t); [apply I'; exact J|exact G].
  - specialize (D2 C). destruct C as (t & J & G). split; split.
    + intros D. pose proof (drains_det _ _ _ _ D D2). discriminate.
    + intros [_ N]. exfalso. apply (N t); [apply I'; exact J|exact G].
    + intros _. exists t. split; [apply I'; exact J|exact G].
    + intros _. exact D2.
Qed.

Lemma set_iter_small s it l : api (VBS s) -> small (mem (VBS s)) ->
  bs_into_iter Debug s = Ret it -> lists (mem (VBS s)) l -> holds_set it l /\ Z.of_nat (length l) <= usize_max.
Proof.
  intros A S E L. split; [|apply S; exact L]. eapply bs_into_iter_holds'; eauto; [apply api_valid; exact A|].
  apply small_pieces; [apply api_valid in A; apply A|exact S].
Qed.
Lemma history_set s it l cs reps it' : api (VBS s) -> small (mem (VBS s)) ->
  bs_into_iter Debug s = Ret it -> lists (mem (VBS s)) l -> Forall call_ok cs ->
  run (bsi_call Debug) it cs = Ret (reps, it') -> reps = fst (deque_run l cs) /\ holds_set it' (snd (deque_run l cs)).
Proof.
  intros A S E L O R. destruct (set_iter_small s it l A S E L) as [H _]. eapply bsi_run_refines; eassumption.
Qed.

(** ** Lower-bounded *)
Lemma lbr_history r it cs reps it' : lbr_into_iter Debug r = Ret it -> Forall up_call_ok cs ->
  run (lbri_call Debug) it cs = Ret (reps, it') ->
  Forall2 (fun o q => exists e, o = Some e /\ ranked (mem (VLBR r)) e q) reps (positions 0 cs).
Proof.
  intros E O R. pose proof (lbr_into_iter_spec r it E) as P.
  pose proof (lbri_run_spec (lbri_current it) cs 0 it reps it' ltac:(lia) O R) as F.
  pose proof (positions_nonneg 0 cs ltac:(lia) O) as N. clear R O. revert N.
  induction F as [|o q os qs (e & -> & He) F IH]; intros N; constructor.
  - exists e. split; [reflexivity|]. inversion N; subst. apply (ranked_from _ (lbri_current it)); auto.
  - apply IH. inversion N; assumption.
Qed.
Lemma lbr_returns r it cs : lbr_into_iter Debug r = Ret it -> Forall up_call_ok cs ->
  ((exists x, run (lbri_call Debug) it cs = Ret x) <-> exists e, ranked (mem (VLBR r)) e (passed cs)).
Proof.
  intros E O. pose proof (lbr_into_iter_spec r it E) as P. rewrite <- lbri_run_total by exact O.
  pose proof (passed_nonneg cs O) as N. split.
  - intros [b Hb]. exists b. apply (ranked_from _ (lbri_current it)); auto.
  - intros [e R]. exists e. assert (G : idx (lbri_current it) <= idx e) by (apply P; apply R).
    assert (R' : ranked (mem (VLBR r)) e (idx e - idx (lbri_current it))) by (apply (ranked_from _ (lbri_current it)); auto; lia).
    pose proof (ranked_unique _ _ _ _ R R'). lia.
Qed.
(** The iterator [it] is at the beginning of the elements of [M]: first those
    of [Q], listed by [l0], then everything from [c0] upwards. *)
Definition starts (M Q : T -> Prop) (l0 : list T) (c0 : T) (it : LowerBoundedSetIter T) : Prop :=
  at_pos l0 c0 0 it /\ lists Q l0 /\ (forall t, M t <-> Q t \/ idx c0 <= idx t) /\ (forall t, Q t -> idx t < idx c0).
Lemma lbs_start_shown s it : valid (VLBS s) -> (forall r, In r (bs_ranges (lbs_ranges s)) -> ~ brimful (in_range r)) ->
  lbs_into_iter Debug s = Ret it ->
  exists l0 c0, starts (fun t => in_small_pieces (bs_ranges (lbs_ranges s)) t \/ above (lbr_start (lbs_lbr s)) t)
    (in_small_pieces (bs_ranges (lbs_ranges s))) l0 c0 it.
Proof.
  intros [V Pr] S E. unfold lbs_into_iter in E. inv_bind E. inv_bind E. injection E as <-.
  destruct (bs_into_iter_shows (lbs_ranges s) V S) as (it' & k & E' & H & K).
  rewrite E0 in E'. injection E' as <-. pose proof (lbr_into_iter_spec _ _ E1) as P.
  exists k, (lbri_current a0). split; [|split; [exact K|split]].
  - repeat split; [lia|exact H|cbn [lbsi_range_iter]; lia].
  - intros t. rewrite P. reflexivity.
  - intros t (r & I & J & _). apply Pr in I.
    assert (~ idx (lbri_current a0) <= idx t); [|lia]. intros G. apply P in G.
    destruct J as [_ J]. revert G. destruct (br_end r) as [[e|e]], (lbr_start (lbs_lbr s)) as [[u|u]];
      cbn [precedes above below] in *; rewrite ?lt_idx, ?le_idx in *; lia.
Qed.
Lemma lbs_start s it : api (VLBS s) -> (forall r, In r (bs_ranges (lbs_ranges s)) -> small (in_range r)) ->
  lbs_into_iter Debug s = Ret it ->
  exists l0 c0, starts (mem (VLBS s)) (in_pieces (bs_ranges (lbs_ranges s))) l0 c0 it.
Proof.
  intros A S E. destruct (lbs_start_shown s it (api_valid _ A)) as (l0 & c0 & At & L & P & B);
    [intros r I; apply small_not_brimful, S, I|exact E|].
  assert (Q : forall t, in_small_pieces (bs_ranges (lbs_ranges s)) t <-> in_pieces (bs_ranges (lbs_ranges s)) t).
  { intros t. split; [intros (r & I & J & _)|intros (r & I & J)]; exists r; auto. }
  exists l0, c0. split; [exact At|]. split; [|split].
  - destruct L as [Sl Il]. split; [exact Sl|]. intros t. rewrite Il. apply Q.
  - intros t. rewrite <- Q, <- P, Q. reflexivity.
  - intros t I. apply B, Q, I.
Qed.
Lemma starts_history M Q l0 c0 it cs reps it' : starts M Q l0 c0 it -> Forall up_call_ok cs ->
  run (lbsi_call Debug) it cs = Ret (reps, it') ->
  Forall2 (fun o q => exists e, o = Some e /\ ranked M e q) reps (positions 0 cs).
Proof.
  intros (At & L & P & B) O R.
  pose proof (lbsi_run_spec l0 c0 cs 0 it reps it' At O R) as F.
  pose proof (positions_nonneg 0 cs ltac:(lia) O) as N. clear R O. revert N.
  induction F as [|o q os qs (e & -> & He) F IH]; intros N; constructor.
  - exists e. split; [reflexivity|]. inversion N; subst. eapply ranked_enum; [exact L|exact P|exact B|assumption|exact He].
  - apply IH. inversion N; assumption.
Qed.
Lemma lbs_history s it cs reps it' : api (VLBS s) -> (forall r, In r (bs_ranges (lbs_ranges s)) -> small (in_range r)) ->
  lbs_into_iter Debug s = Ret it -> Forall up_call_ok cs ->
  run (lbsi_call Debug) it cs = Ret (reps, it') ->
  Forall2 (fun o q => exists e, o = Some e /\ ranked (mem (VLBS s)) e q) reps (positions 0 cs).
Proof. intros A S E O R. destruct (lbs_start s it A S E) as (l0 & c0 & St). eapply starts_history; eassumption. Qed.
Lemma starts_returns M Q l0 c0 it cs : starts M Q l0 c0 it -> Z.of_nat (length l0) <= usize_max -> Forall up_call_ok cs ->
  ((exists x, run (lbsi_call Debug) it cs = Ret x) <-> exists e, ranked M e (passed cs)).
Proof.
  intros (At & L & P & B) S O.
  rewrite <- (lbsi_run_total l0 c0 cs 0 it At O); [|exact S|intros t I; apply B, L, I].
  pose proof (passed_nonneg cs O) as N. rewrite Z.add_0_l, <- enum_exists by exact N.
  split; intros [e H]; exists e; apply (ranked_enum_iff _ _ l0 c0 e (passed cs) L P B N); exact H.
Qed.
Lemma lbs_returns s it cs : api (VLBS s) -> small (in_pieces (bs_ranges (lbs_ranges s))) ->
  lbs_into_iter Debug s = Ret it -> Forall up_call_ok cs ->
  ((exists x, run (lbsi_call Debug) it cs = Ret x) <-> exists e, ranked (mem (VLBS s)) e (passed cs)).
Proof.
  intros A S E O.
  assert (S' : forall r, In r (bs_ranges (lbs_ranges s)) -> small (in_range r))
    by (apply small_pieces; [apply api_valid in A; apply A|exact S]).
  destruct (lbs_start s it A S' E) as (l0 & c0 & St).
  eapply starts_returns; [exact St|apply S; apply St|exact O].
Qed.
Lemma lbri_min_spec r it : lbr_into_iter Debug r = Ret it -> forall o,
  lbri_min Debug it = Ret o <-> exists e, o = Some e /\ mem (VLBR r) e /\ (forall t, mem (VLBR r) t -> le e t) /\ ~ greatest e.
Proof.
  intros E o. pose proof (lbr_into_iter_spec r it E) as P. change (mem (VLBR r)) with (above (lbr_start r)).
  unfold lbri_min, lbri_next. destruct (fwd_cases (lbri_current it) 1 one_ok) as [(b & -> & Hb)|[-> Hb]]; cbn [bind fst]; split.
  - injection 1 as <-. exists (lbri_current it). split; [reflexivity|]. split; [apply P; lia|]. split.
    + intros t M. apply le_idx, P, M.
    + intros G. specialize (G b). apply le_idx in G. lia.
  - intros (e & -> & M & L & G). do 2 f_equal. apply idx_inj. apply P in M.
    specialize (L (lbri_current it)). rewrite P, le_idx in L. lia.
  - discriminate.
  - intros (e & -> & M & L & G). exfalso. apply G. intros u. apply le_idx. apply P in M. specialize (Hb u). lia.
Qed.
Lemma starts_min W V l0 c0 it : starts W V l0 c0 it -> forall o,
  lbsi_min Debug it = Ret o <-> exists e, o = Some e /\ W e /\ (forall t, W t -> le e t) /\ ~ greatest e.
Proof.
  intros E. pose proof E as (At & L & P & B). intros o. unfold lbsi_min.
  assert (Fwd : forall o' it', lbsi_next Debug it = Ret (o', it') -> exists e, o' = Some e /\ W e /\ (forall t, W t -> le e t)).
  { intros o' it' N. destruct (lbsi_call_spec l0 c0 0 it UpNext o' it' At I N) as (e & -> & En & _).
    exists e. split; [reflexivity|]. rewrite Z.add_0_r in En.
    pose proof (ranked_enum _ _ _ _ _ _ L P B (Z.le_refl 0) En) as (M & k & K & Z0). split; [exact M|].
    intros t Mt. apply le_idx. destruct (Z_lt_le_dec (idx t) (idx e)) as [G|G]; [|exact G]. exfalso.
    assert (J : In t k) by (apply K; split; [exact Mt|apply lt_idx; exact G]). destruct k; [destruct J|simpl in Z0; lia]. }
  assert (Un : forall e e', W e -> W e' -> (forall t, W t -> le e t) -> (forall t, W t -> le e' t) -> e = e').
  { intros e e' M M' H H'. apply idx_inj. specialize (H e' M'). specialize (H' e M). rewrite le_idx in *. lia. }
  split.
  - intros Q. inv_bind Q. injection Q as <-. destruct a as [o it']. cbn [fst]. destruct (Fwd o it' E0) as (e & -> & M & Mn).
    exists e. split; [reflexivity|]. split; [exact M|]. split; [exact Mn|]. intros G.
    assert (exists b : T, idx b = idx c0 + Z.max 0 (0 + passed [UpNext] - Z.of_nat (length l0))) as [b Hb].
    { unfold lbsi_next in E0. inv_bind E0. destruct At as (_ & Hs & Hc).
      destruct (bsi_next_cases _ _ Hs) as [(it1 & E2 & _)|[E2 _]]; [|congruence]. rewrite E2 in E1. injection E1 as <-. cbn [fst snd] in E0.
      destruct l0 as [|x l0].
      - cbn [skipn Z.to_nat hd_error length] in *. inv_bind E0. destruct a as [o1 i1].
        destruct (lbri_call_spec _ UpNext o1 i1 I E1) as (e1 & _ & _ & X). exists (lbri_current i1). cbn [passed]. rewrite X, Hc. simpl. lia.
      - exists c0. cbn [passed length]. lia. }
    apply P in M. destruct M as [M|M].
    + apply B in M. specialize (G c0). apply le_idx in G. lia.
    + destruct l0 as [|x l0].
      * cbn [length passed] in Hb. specialize (G b). apply le_idx in G.
        assert (Lc : W c0) by (apply P; right; lia). apply Mn in Lc. apply le_idx in Lc. lia.
      * assert (Lx : In x (x :: l0)) by now left. apply L in Lx. pose proof (B _ Lx).
        assert (Lm : W x) by (apply P; left; exact Lx). apply Mn in Lm. apply le_idx in Lm. lia.
  - intros (e & -> & M & Mn & G).
    assert (exists x, lbsi_call Debug it UpNext = Ret x) as [[o' it'] N].
    { destruct At as (Hp & Hs & Hc). cbn [lbsi_call]. unfold lbsi_next.
      destruct (bsi_next_cases _ _ Hs) as [(it1 & -> & _)|[_ (x & l' & EQ & Gx)]].
      - cbn [bind fst snd]. destruct l0 as [|x l0]; cbn [skipn Z.to_nat hd_error]; [|eauto].
        destruct (lbri_call_total (lbsi_range_iter it) UpNext I) as [y Ey]; [|cbn [lbri_call] in Ey; rewrite Ey; cbn [bind]; eauto].
        destruct (fwd_cases e 1 one_ok) as [(b & _ & Hb)|[_ Hb]].
        + exists b. cbn [length] in Hc. assert (Lc : W c0) by (apply P; right; lia). apply Mn in Lc. apply le_idx in Lc.
          apply P in M. destruct M as [M|M]; [apply L in M; destruct M|]. lia.
        + exfalso. apply G. intros u. apply le_idx. specialize (Hb u). lia.
      - exfalso. cbn [skipn Z.to_nat] in EQ. assert (J : In x l0) by (rewrite EQ; now left). apply L, B in J.
        specialize (Gx c0). apply le_idx in Gx. lia. }
    cbn [lbsi_call] in N. rewrite N. cbn [bind fst]. destruct (Fwd o' it' N) as (e' & -> & M' & Mn').
    rewrite (Un e e'); auto.
Qed.
Lemma lbsi_min_spec s it : api (VLBS s) -> (forall r, In r (bs_ranges (lbs_ranges s)) -> small (in_range r)) ->
  lbs_into_iter Debug s = Ret it -> forall o,
  lbsi_min Debug it = Ret o <-> exists e, o = Some e /\ mem (VLBS s) e /\ (forall t, mem (VLBS s) t -> le e t) /\ ~ greatest e.
Proof. intros A S E. destruct (lbs_start s it A S E) as (l0 & c0 & St). exact (starts_min _ _ _ _ _ St). Qed.
Lemma lbs_into_iter_panics s : api (VLBS s) ->
  (lbs_into_iter Debug s = Panic <-> exists t, lbr_start (lbs_lbr s) = LB (Excluded t) /\ greatest t).
Proof.
  intros A. apply api_valid in A. destruct A as [V _]. unfold lbs_into_iter.
  destruct (bs_into_iter_total (lbs_ranges s) V) as [it ->]. cbn [bind]. rewrite <- lbr_into_iter_panics.
  destruct (lbr_into_iter Debug (lbs_lbr s)); cbn [bind]; split; congruence.
Qed.
End SetLemmas.
