(** Towers of std's iterator adaptors over the crate's iterators. *)
From Coq Require Import Lia ZifyBool.
From Verif Require Import Base ModelBound ModelRanges ModelSets ModelValue ModelStep ModelIter ModelPipe
  Spec Reach SpecStep SpecIter SpecPipe StepProofs StepLemmas IterProofs IterProofs2 IterProofs4 IterLemmas PipeProofs PipeProofs2
  IterRelease InstancesStep PropertiesIter.
Open Scope Z_scope.

(** ** C64 *)
(** However [rev], [map], [enumerate], [zip], [take], [skip] and [chain] are piled
    up over ranges and sets, the result answers any sequence of the calls it has
    as a queue holding the list it stands for does, in both builds. *)
Theorem C64_histories (PF : Platform) (m : mode) (S A : Type) (p : pipe S A) (l : list A) (cs : list call) :
  typed p = true -> roomy p -> elems p l -> Forall (fun c => allows p c = true) cs -> within l cs ->
  exists s s', p_start m p = Ret s /\ run (m_call (p_methods m p)) s cs = Ret (fst (deque_run l cs), s').
Proof.
  intros Ty Ro L F W. destruct (pipe_good p m Ty Ro) as (R & G & St). destruct (St l L) as (s & E & H).
  destruct (good_run (p_methods m p) _ _ R cs G s l H) as (s' & Run & _); [|exact W|].
  { eapply Forall_impl; [|exact F]. intros c Hc. destruct c; exact Hc. }
  exists s, s'. split; assumption.
Qed.
Print Assumptions C64_histories.

Lemma good_drains {PF : Platform} {S A : Type} (M : methods S A) hl hb R : good M hl hb R ->
  forall l s, R s l -> drains (m_next M) s (Ret l).
Proof.
  intros G. induction l as [|x l IH]; intros s H; destruct (g_next M hl hb R G s _ H) as (s' & E & H'); cbn [hd_error tl] in *.
  - eapply drains_done. exact E.
  - apply (drains_item (m_next M) s s' x (Ret l)); auto.
Qed.
(** A loop over it visits that list; a loop from the back visits it backwards. *)
Theorem C64_loops (PF : Platform) (m : mode) (S A : Type) (p : pipe S A) (l : list A) :
  typed p = true -> roomy p -> elems p l ->
  exists s, p_start m p = Ret s /\ drains (m_next (p_methods m p)) s (Ret l) /\
    (has_back p = true -> drains (m_next_back (p_methods m p)) s (Ret (rev l))).
Proof.
  intros Ty Ro L. destruct (pipe_good p m Ty Ro) as (R & G & St). destruct (St l L) as (s & E & H).
  exists s. split; [exact E|]. split; [eapply good_drains; eassumption|]. intros HB. rewrite HB in G.
  apply (good_drains _ _ _ _ (good_rev _ _ _ G)). rewrite rev_involutive. exact H.
Qed.
Print Assumptions C64_loops.
(** There is exactly one such list. *)
Theorem C64_listing (PF : Platform) (S A : Type) (p : pipe S A) :
  roomy p -> exists l, elems p l /\ forall k, elems p k -> k = l.
Proof.
  induction p as [T OT ST r|T OT ST s|S A p IH|S A B f p IH|S A p IH|S1 S2 A B p IH1 q IH2|S A n p IH|S A n p IH|S1 S2 A p IH1 q IH2];
    cbn [roomy elems]; intros Ro.
  - destruct Ro as ([NU SL] & _). destruct (range_listing r) as [l L]. exists l. split; [exact L|]. intros k K. exact (lists_unique _ _ _ K L).
  - destruct Ro as ([NU SL] & Ap & _). destruct (set_listing (bs_ranges s)) as [l L]; [apply (api_valid _ Ap)|].
    exists l. split; [exact L|]. intros k K. exact (lists_unique _ _ _ K L).
  - destruct (IH Ro) as (l & L & U). exists (rev l). split; [eauto|]. intros k (j & J & ->). rewrite (U j J). reflexivity.
  - destruct (IH Ro) as (l & L & U). eexists. split; [eauto|]. intros k (j & J & ->). rewrite (U j J). reflexivity.
  - destruct (IH Ro) as (l & L & U). eexists. split; [eauto|]. intros k (j & J & ->). rewrite (U j J). reflexivity.
  - destruct Ro as [R1 R2]. destruct (IH1 R1) as (l1 & L1 & U1). destruct (IH2 R2) as (l2 & L2 & U2).
    exists (combine l1 l2). split; [eauto 6|]. intros k (j1 & j2 & J1 & J2 & ->). rewrite (U1 j1 J1), (U2 j2 J2). reflexivity.
  - destruct (IH (proj1 Ro)) as (l & L & U). eexists. split; [eauto|]. intros k (j & J & ->). rewrite (U j J). reflexivity.
  - destruct (IH (proj1 Ro)) as (l & L & U). eexists. split; [eauto|]. intros k (j & J & ->). rewrite (U j J). reflexivity.
  - destruct Ro as (R1 & R2 & _). destruct (IH1 R1) as (l1 & L1 & U1). destruct (IH2 R2) as (l2 & L2 & U2).
    exists (l1 ++ l2). split; [eauto 6|]. intros k (j1 & j2 & J1 & J2 & ->). rewrite (U1 j1 J1), (U2 j2 J2). reflexivity.
Qed.
Print Assumptions C64_listing.
#[local] Existing Instance pf64.
(** The bound on the number of elements is needed: [len] is 0 beyond [usize::MAX]
    elements, so taking from the back of a [zip] cuts the wrong side and panics,
    and [enumerate] numbers from the wrong end; a loop from the front is right. *)
Theorem C64_refuted_beyond_usize :
  exists (r s : BoundedRange (mint U128)) (a b : BoundedRangeIter (mint U128)),
    br_into_iter Debug r = Ret a /\ br_into_iter Debug s = Ret b /\
    (forall t, in_range r t \/ in_range s t -> ~ greatest t /\ ~ least t) /\
    (exists l, lists (in_range s) l /\ l <> []) /\
    m_next_back (zip_methods (bri_methods Debug) (bri_methods Debug)) (a, b) = Panic /\
    (exists it, m_next_back (enum_methods Debug (bri_methods Debug)) (0, a) = Ret (Some (0, lit U128 (2 ^ 70)), it)).
Proof.
  exists (incl (lit U128 1) (lit U128 (2 ^ 70))), (incl (lit U128 5) (lit U128 7)).
  eexists _, _. split; [reflexivity|]. split; [reflexivity|]. split; [|split; [|split]].
  - intros t H. rewrite greatest_val, least_val. change (imax U128) with (2 ^ 128 - 1). change (imin U128) with 0.
    unfold in_range in H. cbn [incl above below br_start br_end] in H.
    rewrite !le_idx in H. cbn [idx NumberedMint] in H.
    change (mval (lit U128 1)) with 1 in H. change (mval (lit U128 (2 ^ 70))) with (2 ^ 70) in H.
    change (mval (lit U128 5)) with 5 in H. change (mval (lit U128 7)) with 7 in H. lia.
  - destruct (range_listing (incl (lit U128 5) (lit U128 7))) as [l L]. exists l. split; [exact L|]. intros ->.
    assert (In (lit U128 5) []) as []. apply (lists_in _ _ L). unfold in_range. cbn [incl above below br_start br_end]. rewrite !le_idx.
    split; vm_compute; discriminate.
  - vm_compute. reflexivity.
  - eexists. vm_compute. reflexivity.
Qed.
Print Assumptions C64_refuted_beyond_usize.

Lemma roomy_incl {PF : Platform} {T : Type} {OT : Ord T} {ST : Step T} {NU : Numbered T} {SL : StepLaws T} (a b u v : T) (l : list T) :
  idx v < idx a -> idx b < idx u -> span (idx a) (idx b) l -> Z.of_nat (length l) <= usize_max ->
  roomy (PRange (incl a b)) /\ elems (PRange (incl a b)) l.
Proof.
  intros Hv Hu Hl Hn.
  assert (M : forall t, in_range (incl a b) t <-> idx a <= idx t <= idx b).
  { intros t. unfold in_range. cbn [incl above below br_start br_end]. rewrite !le_idx. reflexivity. }
  assert (L : lists (in_range (incl a b)) l).
  { eapply lists_ext; [|apply span_lists; exact Hl]. intros t. symmetry. apply M. }
  split; [|exact L]. cbn [roomy]. split; [eauto|]. split; [eexists; reflexivity|]. split.
  - intros t H. apply M in H. split; intros G.
    + rewrite greatest_idx in G. specialize (G u). lia.
    + pose proof (G v) as G'. rewrite le_idx in G'. lia.
  - intros k K. rewrite (lists_unique _ _ _ K L). exact Hn.
Qed.
Lemma roomy_set {PF : Platform} {T : Type} {OT : Ord T} {ST : Step T} {NU : Numbered T} {SL : StepLaws T} (s : BoundedSet T) (u v : T) (l : list T) :
  api (VBS s) -> lists (mem (VBS s)) l -> (forall t, In t l -> idx v < idx t < idx u) -> Z.of_nat (length l) <= usize_max ->
  roomy (PSet s) /\ elems (PSet s) l.
Proof.
  intros Ap L X Hn. split; [|exact L]. cbn [roomy]. split; [eauto|]. split; [exact Ap|]. split.
  - intros t H. apply (lists_in _ _ L) in H. specialize (X t H). split; intros G.
    + rewrite greatest_idx in G. specialize (G u). lia.
    + pose proof (G v) as G'. rewrite le_idx in G'. lia.
  - intros k K. rewrite (lists_unique _ _ _ K L). exact Hn.
Qed.

(** [(10..=13u8).enumerate().rev().zip(('a'..='f').skip(1))], taken from both ends. *)
Example C64_zip_ex :
  let p := PZip (PRev (PEnum (PRange (incl (u8 10) (u8 13))))) (PSkip 1 (PRange (incl (ch 97) (ch 102)))) in
  let l := [((3, u8 13), ch 98); ((2, u8 12), ch 99); ((1, u8 11), ch 100); ((0, u8 10), ch 101)] in
  let cs := [Len; NextBack; Nth 1; Next; NextBack; Len] in
  typed p = true /\ roomy p /\ elems p l /\ Forall (fun c => allows p c = true) cs /\ within l cs /\
  fst (deque_run l cs) = [Count 4; Item (Some ((0, u8 10), ch 101)); Item (Some ((2, u8 12), ch 99));
    Item (Some ((1, u8 11), ch 100)); Item None; Count 0] /\
  (s <- p_start Debug p ;; r <- run (m_call (p_methods Debug p)) s cs ;; Ret (fst r)) = Ret (fst (deque_run l cs)).
Proof.
  cbn zeta.
  destruct (roomy_incl (u8 10) (u8 13) (u8 255) (u8 0) [u8 10; u8 11; u8 12; u8 13]) as [R1 E1]; [vm_compute; congruence..|].
  destruct (roomy_incl (ch 97) (ch 102) (ch 200) (ch 0) [ch 97; ch 98; ch 99; ch 100; ch 101; ch 102]) as [R2 E2]; [vm_compute; congruence..|].
  split; [reflexivity|]. split.
  { split; [exact R1|]. split; [exact R2|]. split; [lia|]. intros k K. rewrite (lists_unique _ _ _ K E2). vm_compute. discriminate. }
  split.
  { exists [(3, u8 13); (2, u8 12); (1, u8 11); (0, u8 10)], [ch 98; ch 99; ch 100; ch 101; ch 102].
    split; [|split; [|reflexivity]].
    - eexists. split; [eexists; split; [exact E1|reflexivity]|reflexivity].
    - eexists. split; [exact E2|reflexivity]. }
  split; [repeat constructor|]. split; [cbn; lia|]. split; vm_compute; reflexivity.
Qed.
(** [(1..=9u8).take(3).chain((5..=6u8).to_set().union(9..=9).map(f)).rev()] *)
Example C64_chain_ex :
  let f := fun t : mint U8 => u8 (mval t + 100) in
  let s := BS [incl (u8 5) (u8 6); incl (u8 9) (u8 9)] in
  let p := PRev (PChain (PTake 3 (PRange (incl (u8 1) (u8 9)))) (PMap f (PSet s))) in
  let l := [u8 109; u8 106; u8 105; u8 3; u8 2; u8 1] in
  let cs := [Nth 1; NextBack; NthBack 1; Next; Next] in
  union (VBR (incl (u8 9) (u8 9))) (VBR (incl (u8 5) (u8 6))) = Ret (VBS s) /\
  typed p = true /\ roomy p /\ elems p l /\ Forall (fun c => allows p c = true) cs /\ within l cs /\
  fst (deque_run l cs) = [Item (Some (u8 106)); Item (Some (u8 1)); Item (Some (u8 3)); Item (Some (u8 105)); Item None] /\
  (s <- p_start Release p ;; r <- run (m_call (p_methods Release p)) s cs ;; Ret (fst r)) = Ret (fst (deque_run l cs)).
Proof.
  cbn zeta.
  assert (U : union (VBR (incl (u8 9) (u8 9))) (VBR (incl (u8 5) (u8 6))) = Ret (VBS (BS [incl (u8 5) (u8 6); incl (u8 9) (u8 9)]))).
  { vm_compute. reflexivity. }
  destruct (roomy_incl (u8 1) (u8 9) (u8 255) (u8 0) [u8 1; u8 2; u8 3; u8 4; u8 5; u8 6; u8 7; u8 8; u8 9]) as [R1 E1]; [vm_compute; congruence..|].
  destruct (roomy_set (BS [incl (u8 5) (u8 6); incl (u8 9) (u8 9)]) (u8 255) (u8 0) [u8 5; u8 6; u8 9]) as [R2 E2].
  { eapply api_union; [apply api_br|apply api_br|exact U]. }
  { split.
    - repeat constructor; vm_compute; reflexivity.
    - intros t. cbn [mem]. unfold in_pieces. cbn [bs_ranges]. 
      assert (Q : forall a b, in_range (incl a b) t <-> mval a <= mval t <= mval b).
      { intros a b. unfold in_range. cbn [incl above below br_start br_end]. rewrite !le_idx. reflexivity. }
      split.
      + intros [<-|[<-|[<-|[]]]]; [exists (incl (u8 5) (u8 6))..|exists (incl (u8 9) (u8 9))]; (split; [cbn; tauto|]);
          rewrite Q; vm_compute; split; discriminate.
      + intros (r & [<-|[<-|[]]] & I); rewrite Q in I;
          change (mval (u8 5)) with 5 in I || change (mval (u8 9)) with 9 in I; try change (mval (u8 6)) with 6 in I.
        * assert (D : mval t = 5 \/ mval t = 6) by lia. destruct D as [D|D].
          -- left. apply idx_inj. symmetry. exact D.
          -- right. left. apply idx_inj. symmetry. exact D.
        * right. right. left. apply idx_inj. change (mval (u8 9) = mval t). change (mval (u8 9)) with 9. lia. }
  { intros t [<-|[<-|[<-|[]]]]; vm_compute; split; reflexivity. }
  { vm_compute. discriminate. }
  split; [exact U|]. split; [reflexivity|]. split.
  { split; [split; [exact R1|vm_compute; split; discriminate]|]. split; [exact R2|].
    intros k1 k2 (j1 & J1 & ->) (j2 & J2 & ->). rewrite (lists_unique _ _ _ J1 E1), (lists_unique _ _ _ J2 E2). vm_compute. discriminate. }
  split.
  { exists [u8 1; u8 2; u8 3; u8 105; u8 106; u8 109]. split; [|reflexivity]. exists [u8 1; u8 2; u8 3], [u8 105; u8 106; u8 109]. split; [|split; [|reflexivity]].
    - eexists. split; [exact E1|reflexivity].
    - eexists. split; [exact E2|vm_compute; reflexivity]. }
  split; [repeat constructor|]. split; [vm_compute; intuition discriminate|]. split; vm_compute; reflexivity.
Qed.
