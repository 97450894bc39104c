(** Set iterators from sets; lower-bounded iterators; agreement of builds; fusing. *)
From Coq Require Import Lia ZifyBool Sorted.
From Verif Require Import Base ModelBound ModelRanges ModelSets ModelValue ModelStep ModelIter
  Spec SpecStep SpecIter StepProofs StepLemmas IterProofs IterProofs2.
Open Scope Z_scope.

Section Sets.
Context {T : Type} {PF : Platform} {OT : Ord T} {ST : Step T} {NU : Numbered T} {SL : StepLaws T}.

(** ** Creating set iterators *)
Lemma room_into_iter r : has_room r -> exists it, br_into_iter Debug r = Ret it.
Proof.
  intros R. destruct (br_into_iter Debug r) as [it| |] eqn:E; [eauto| |exfalso; exact (into_iter_not_diverge r E)].
  exfalso. apply into_iter_panics in E. apply R. destruct E as [(s & E & G)|(e & E & L)]; rewrite E.
  - destruct (br_end r) as [[a|a]]; cbn [precedes]; apply G.
  - destruct (br_start r) as [[a|a]]; cbn [precedes]; apply L.
Qed.
Lemma mapM_into_iter rs : Forall has_room rs -> exists its, mapM (br_into_iter Debug) rs = Ret its.
Proof.
  induction 1 as [|r rs R _ IH]; cbn [mapM]; [eauto|].
  destruct (room_into_iter r R) as [it ->]. destruct IH as [its ->]. cbn [bind]. eauto.
Qed.
Lemma mapM_Forall2 {A B} (f : A -> outcome B) l k : mapM f l = Ret k -> Forall2 (fun a b => f a = Ret b) l k.
Proof.
  revert k; induction l as [|a l IH]; intros k E; cbn [mapM] in E.
  - injection E as <-. constructor.
  - inv_bind E. inv_bind E. injection E as <-. constructor; auto.
Qed.
Lemma Forall2_mapM {A B} (f : A -> outcome B) l k : Forall2 (fun a b => f a = Ret b) l k -> mapM f l = Ret k.
Proof. induction 1 as [|a b l k E _ IH]; cbn [mapM]; [reflexivity|]. rewrite E, IH. reflexivity. Qed.

Lemma precedes_lt (a b : BoundedRange T) x y :
  precedes (br_end a) (br_start b) -> in_range a x -> in_range b y -> lt x y.
Proof.
  intros P [_ A] [B _]. destruct (br_end a) as [[e|e]], (br_start b) as [[s|s]];
    cbn [precedes above below] in *; rewrite ?lt_idx, ?le_idx in *; lia.
Qed.
Lemma sorted_app (l1 l2 : list T) : StronglySorted lt l1 -> StronglySorted lt l2 ->
  (forall x y, In x l1 -> In y l2 -> lt x y) -> StronglySorted lt (l1 ++ l2).
Proof.
  intros S1 S2 H. induction S1 as [|x l1 S1 IH F]; simpl; [exact S2|]. constructor.
  - apply IH. intros a b I J. apply H; [now right|exact J].
  - apply Forall_app. split; [exact F|]. apply Forall_forall. intros y I. apply H; [now left|exact I].
Qed.
(** The listings of the pieces, one after the other, list the set. *)
Lemma pieces_list_where (Q : BoundedRange T -> Prop) rs ls : ForallOrdPairs (fun a b => precedes (br_end a) (br_start b)) rs ->
  Forall2 (fun r l => lists (fun t => in_range r t /\ Q r) l) rs ls ->
  lists (fun t => exists r, In r rs /\ in_range r t /\ Q r) (concat ls).
Proof.
  intros P. revert ls. induction P as [|r rs F P IH]; intros ls L; inversion L as [|? l ? ls' Hl L']; subst; cbn [concat].
  - split; [constructor|]. intros t. split; [intros []|]. intros (r & [] & _).
  - destruct (IH ls' L') as [S I]. destruct Hl as [Sl Il]. split.
    + apply sorted_app; [assumption..|]. intros x y Hx Hy. apply Il in Hx. apply I in Hy.
      destruct Hx as [Hx _]. destruct Hy as (r' & J & Hy & _).
      rewrite Forall_forall in F. eapply precedes_lt; [apply F; exact J|eassumption..].
    + intros t. rewrite in_app_iff, Il, I. split.
      * intros [A|(r' & J & A)]; [exists r|exists r']; simpl; auto.
      * intros (r' & [->|J] & A); [now left|right; exists r'; auto].
Qed.
Lemma pieces_list rs ls : ForallOrdPairs (fun a b => precedes (br_end a) (br_start b)) rs ->
  Forall2 (fun r l => lists (in_range r) l) rs ls -> lists (in_pieces rs) (concat ls).
Proof.
  intros P L. destruct (pieces_list_where (fun _ => True) rs ls P) as [S I].
  - eapply Forall2_impl; [|exact L]. intros r l [Sl Il]. split; [exact Sl|]. intros t. rewrite Il. tauto.
  - split; [exact S|]. intros t. rewrite I. unfold in_pieces. firstorder.
Qed.

(** What the iterator of a set shows. *)
Lemma small_dec (P : T -> Prop) l : lists P l -> (Z.of_nat (length l) <= usize_max <-> small P).
Proof.
  intros L. split; [|intros S; apply S; exact L]. intros H k K. rewrite (lists_unique _ _ _ K L). exact H.
Qed.
Lemma bs_into_iter_shows s : valid (VBS s) -> (forall r, In r (bs_ranges s) -> ~ brimful (in_range r)) ->
  exists it l, bs_into_iter Debug s = Ret it /\ holds_set it l /\ lists (in_small_pieces (bs_ranges s)) l.
Proof.
  intros [R P] Nb. unfold bs_into_iter. destruct (mapM_into_iter _ R) as [its E]. rewrite E. cbn [bind].
  exists (BSI its). apply mapM_Forall2 in E.
  assert (exists ls, Forall2 shows its ls /\
    Forall2 (fun r l => lists (fun t => in_range r t /\ small (in_range r)) l) (bs_ranges s) ls) as (ls & H & L).
  { clear R P. induction E as [|r it rs its Er E IH].
    - exists []. repeat constructor.
    - destruct IH as (ls & H & L); [intros r' I; apply Nb; now right|].
      destruct (holds_exists it) as [l Hl]. pose proof (proj1 (into_iter_holds r it l Er) Hl) as Ll.
      destruct (Z_le_gt_dec (Z.of_nat (length l)) usize_max) as [S|S].
      + exists (l :: ls). split; constructor; auto; [apply holds_shows; assumption|].
        apply (small_dec _ _ Ll) in S. destruct Ll as [Sl Il]. split; [exact Sl|]. intros t. rewrite Il. tauto.
      + exists ([] :: ls). split; constructor; auto.
        * split; [|congruence]. rewrite (len_spec it l Hl).
          destruct (_ <=? _) eqn:C1; [lia|]. destruct (_ =? _) eqn:C2; [|reflexivity].
          exfalso. apply (Nb r); [now left|]. exists l. split; [exact Ll|lia].
        * split; [constructor|]. intros t. split; [intros []|]. intros [_ Sm]. apply Sm in Ll. lia. }
  exists (concat ls). split; [reflexivity|]. split; [exists ls; auto|].
  apply (pieces_list_where (fun r => small (in_range r))); assumption.
Qed.
Lemma small_not_brimful (P : T -> Prop) : small P -> ~ brimful P.
Proof. intros S (l & L & E). apply S in L. lia. Qed.
(** What the iterator of a set holds. *)
Lemma bs_into_iter_holds s : valid (VBS s) -> (forall r, In r (bs_ranges s) -> small (in_range r)) ->
  exists it l, bs_into_iter Debug s = Ret it /\ holds_set it l /\ lists (mem (VBS s)) l.
Proof.
  intros V Sm. destruct (bs_into_iter_shows s V) as (it & l & E & H & L).
  - intros r I. apply small_not_brimful, Sm, I.
  - exists it, l. repeat split; auto; try apply L.
    + intros M. apply L in M. destruct M as (r & I & J & _). exists r. auto.
    + intros (r & I & J). apply L. exists r. auto.
Qed.
Lemma bs_into_iter_holds' s it l : valid (VBS s) -> (forall r, In r (bs_ranges s) -> small (in_range r)) ->
  bs_into_iter Debug s = Ret it -> lists (mem (VBS s)) l -> holds_set it l.
Proof.
  intros V Sm E L. destruct (bs_into_iter_holds s V Sm) as (it' & l' & E' & H & L').
  rewrite E in E'. injection E' as <-. rewrite (lists_unique _ _ _ L L'). exact H.
Qed.
Lemma bs_into_iter_total s : valid (VBS s) -> exists it, bs_into_iter Debug s = Ret it.
Proof. intros [R _]. unfold bs_into_iter. destruct (mapM_into_iter _ R) as [its ->]. cbn [bind]. eauto. Qed.
Lemma bs_into_iter_agree s it : bs_into_iter Debug s = Ret it -> bs_into_iter Release s = Ret it.
Proof.
  unfold bs_into_iter. intros E. inv_bind E. apply mapM_Forall2 in E0.
  rewrite (Forall2_mapM _ _ a); [exact E|]. eapply Forall2_impl; [|exact E0].
  intros r i. apply into_iter_agree.
Qed.

(** ** Release agrees *)
Lemma trim_agree its x : trim Debug its = Ret x -> trim Release its = Ret x.
Proof.
  revert x; induction its as [|i its IH]; intros x E; cbn [trim] in *; [exact E|].
  inv_bind E. rewrite (len_agree _ _ E0). cbn [bind]. destruct (a =? 0); auto.
Qed.
Lemma skip_agree its n x : skip Debug its n = Ret x -> skip Release its n = Ret x.
Proof.
  revert n x; induction its as [|i its IH]; intros n x E; cbn [skip] in *; [exact E|].
  inv_bind E. rewrite (len_agree _ _ E0). cbn [bind]. destruct (a <=? n); auto.
Qed.
Lemma skip_bounds its n x : 0 <= n -> skip Debug its n = Ret x -> 0 <= snd x <= n.
Proof.
  revert n x; induction its as [|i its IH]; intros n x Hn E; cbn [skip] in *.
  - injection E as <-. simpl. lia.
  - inv_bind E. destruct (a <=? n) eqn:C.
    + assert (0 <= a).
      { unfold bri_len, bri_size_hint in E0. inv_bind E0. inv_bind E1.
        injection E1 as <-. unfold exact_len in E0. cbn [fst snd] in E0. rewrite Z.eqb_refl in E0. injection E0 as ->.
        destruct (steps_between _ _) eqn:SB; [|injection E2 as <-; lia].
        apply sb_iff in SB. apply usize_add_debug in E2. lia. }
      apply IH in E; lia.
    + injection E as <-. simpl. lia.
Qed.
Lemma on_front_agree (f g : BoundedRangeIter T -> outcome (option T * BoundedRangeIter T)) its x :
  (forall i y, f i = Ret y -> g i = Ret y) -> on_front f its = Ret x -> on_front g its = Ret x.
Proof.
  intros A. destruct its as [|i its]; cbn [on_front]; [auto|]. intros E. inv_bind E. rewrite (A _ _ E0). exact E.
Qed.
Lemma sum_agree its acc x : sum_lens Debug its acc = Ret x -> sum_lens Release its acc = Ret x.
Proof.
  revert acc x; induction its as [|i its IH]; intros acc x E; cbn [sum_lens] in *; [exact E|].
  inv_bind E. inv_bind E. rewrite (len_agree _ _ E0). cbn [bind]. rewrite (usize_add_agree _ _ _ E1). cbn [bind]. auto.
Qed.
Lemma bsi_next_agree it x : bsi_next Debug it = Ret x -> bsi_next Release it = Ret x.
Proof.
  unfold bsi_next. intros E. inv_bind E. inv_bind E. rewrite (trim_agree _ _ E0). cbn [bind].
  rewrite (on_front_agree _ _ _ _ next_agree E1). exact E.
Qed.
Lemma bsi_next_back_agree it x : bsi_next_back Debug it = Ret x -> bsi_next_back Release it = Ret x.
Proof.
  unfold bsi_next_back. intros E. inv_bind E. inv_bind E. rewrite (trim_agree _ _ E0). cbn [bind].
  rewrite (on_front_agree _ _ _ _ next_back_agree E1). exact E.
Qed.
Lemma bsi_nth_agree it n x : 0 <= n <= usize_max -> bsi_nth Debug it n = Ret x -> bsi_nth Release it n = Ret x.
Proof.
  unfold bsi_nth. intros Hn E. inv_bind E. inv_bind E. rewrite (skip_agree _ _ _ E0). cbn [bind].
  assert (B : 0 <= snd a <= n) by (eapply skip_bounds; [lia|exact E0]).
  assert (B' : 0 <= snd a <= usize_max) by lia.
  rewrite (on_front_agree _ (fun i => bri_nth Release i (snd a)) _ _ (fun i y => nth_agree i (snd a) y B') E1). exact E.
Qed.
Lemma bsi_nth_back_agree it n x : 0 <= n <= usize_max -> bsi_nth_back Debug it n = Ret x -> bsi_nth_back Release it n = Ret x.
Proof.
  unfold bsi_nth_back. intros Hn E. inv_bind E. inv_bind E. rewrite (skip_agree _ _ _ E0). cbn [bind].
  assert (B : 0 <= snd a <= n) by (eapply skip_bounds; [lia|exact E0]).
  assert (B' : 0 <= snd a <= usize_max) by lia.
  rewrite (on_front_agree _ (fun i => bri_nth_back Release i (snd a)) _ _ (fun i y => nth_back_agree i (snd a) y B') E1). exact E.
Qed.
Lemma bsi_len_agree it n : bsi_len Debug it = Ret n -> bsi_len Release it = Ret n.
Proof.
  unfold bsi_len, bsi_size_hint. intros E. inv_bind E. inv_bind E0. rewrite (sum_agree _ _ _ E1). cbn [bind].
  injection E0 as <-. exact E.
Qed.
Lemma bsi_call_agree it c x : call_ok c -> bsi_call Debug it c = Ret x -> bsi_call Release it c = Ret x.
Proof.
  intros O E. destruct c; unfold bsi_call, item in *; inv_bind E.
  - rewrite (bsi_next_agree _ _ E0). exact E.
  - rewrite (bsi_next_back_agree _ _ E0). exact E.
  - rewrite (bsi_nth_agree _ _ _ O E0). exact E.
  - rewrite (bsi_nth_back_agree _ _ _ O E0). exact E.
  - rewrite (bsi_len_agree _ _ E0). exact E.
Qed.
Lemma bsi_last_agree it o : bsi_last Debug it (Ret o) -> bsi_last Release it (Ret o).
Proof.
  unfold bsi_last. destruct (trim Debug (rev (bsi_range_iters it))) as [its| |] eqn:E; try discriminate.
  rewrite (trim_agree _ _ E). destruct its as [|i its]; [auto|].
  intros (d & D & Eo). symmetry in Eo. inv_bind Eo. subst d. exists (Ret a). split; [|symmetry; exact Eo].
  eapply drains_agree; [exact next_agree|exact D|reflexivity].
Qed.

(** ** Fused set iterators, in every build *)
Lemma len_pos m i n : bri_len m i = Ret n -> n <> 0 -> t_gt (bri_current i) (bri_last_field i) = false.
Proof.
  unfold bri_len, bri_size_hint. intros E N. inv_bind E. inv_bind E0. rewrite t_gt_idx.
  destruct (steps_between _ _) eqn:SB.
  - apply sb_iff in SB. lia.
  - injection E1 as <-. injection E0 as <-. unfold exact_len in E. simpl in E. congruence.
Qed.
Lemma trim_front m its its' : trim m its = Ret its' ->
  match its' with [] => True | i :: _ => t_gt (bri_current i) (bri_last_field i) = false end.
Proof.
  induction its as [|i its IH]; cbn [trim]; intros E; [injection E as <-; exact I|].
  inv_bind E. destruct (a =? 0) eqn:C; [apply IH; exact E|]. injection E as <-.
  eapply len_pos; [exact E0|lia].
Qed.
Lemma bsi_next_none m it it' : bsi_next m it = Ret (None, it') -> bsi_range_iters it' = [].
Proof.
  unfold bsi_next. intros E. inv_bind E. inv_bind E. pose proof (trim_front _ _ _ E0) as F.
  destruct a as [|i its]; cbn [on_front] in E1.
  - injection E1 as <-. injection E as <-. reflexivity.
  - inv_bind E1. unfold bri_next in E2. rewrite F in E2. inv_bind E2. injection E2 as <-. injection E1 as <-. discriminate.
Qed.
Lemma bsi_next_back_none m it it' : bsi_next_back m it = Ret (None, it') -> bsi_range_iters it' = [].
Proof.
  unfold bsi_next_back. intros E. inv_bind E. inv_bind E. pose proof (trim_front _ _ _ E0) as F.
  destruct a as [|i its]; cbn [on_front] in E1.
  - injection E1 as <-. injection E as <-. reflexivity.
  - inv_bind E1. unfold bri_next_back in E2. rewrite F in E2. inv_bind E2. injection E2 as <-. injection E1 as <-. discriminate.
Qed.
(** An exhausted set iterator answers every call with [None] (or 0). *)
Lemma bsi_empty_run m cs : 
  run (bsi_call m) (BSI []) cs = Ret (map (fun c => match c with Len => Count 0 | _ => Item None end) cs, @BSI T []).
Proof.
  induction cs as [|c cs IH]; cbn [run map]; [reflexivity|].
  assert (E : bsi_call m (@BSI T []) c = Ret (match c with Len => Count 0 | _ => Item None end, BSI [])) by (destruct c; reflexivity).
  rewrite E. cbn [bind fst snd]. rewrite IH. reflexivity.
Qed.
Lemma bri_done_run m it cs : t_gt (bri_current it) (bri_last_field it) = true ->
  Forall (fun c => c = Next \/ c = NextBack) cs ->
  run (bri_call m) it cs = Ret (map (fun _ => Item None) cs, it).
Proof.
  intros G. induction 1 as [|c cs H _ IH]; cbn [run map]; [reflexivity|].
  assert (E : bri_call m it c = Ret (Item None, it)).
  { destruct H as [-> | ->]; cbn [bri_call]; unfold bri_next, bri_next_back; rewrite G; reflexivity. }
  rewrite E. cbn [bind fst snd]. rewrite IH. reflexivity.
Qed.

(** ** Lower-bounded iterators *)

Lemma lbr_into_iter_spec r it : lbr_into_iter Debug r = Ret it ->
  forall t, above (lbr_start r) t <-> idx (lbri_current it) <= idx t.
Proof.
  unfold lbr_into_iter. intros E. inv_bind E. injection E as <-. cbn [lbri_current].
  destruct (lbr_start r) as [[s|s]]; cbn [above].
  - apply fwd_ret in E0; [|apply one_ok]. intros t. rewrite lt_idx. lia.
  - injection E0 as <-. intros t. apply le_idx.
Qed.
Lemma lbr_into_iter_agree r it : lbr_into_iter Debug r = Ret it -> lbr_into_iter Release r = Ret it.
Proof.
  unfold lbr_into_iter. intros E. inv_bind E. destruct (lbr_start r) as [[s|s]].
  - rewrite (fwd_agree _ _ _ one_ok E0). exact E.
  - injection E0 as <-. exact E.
Qed.
Lemma lbr_into_iter_panics r : lbr_into_iter Debug r = Panic <-> exists t, lbr_start r = LB (Excluded t) /\ greatest t.
Proof.
  unfold lbr_into_iter. destruct (lbr_start r) as [[s|s]]; cbn [bind].
  - destruct (fwd_cases s 1 one_ok) as [(b & -> & Hb)|[-> Hb]]; cbn [bind]; split; try discriminate.
    + intros (t & E & G). injection E as <-. specialize (G b). apply le_idx in G. lia.
    + intros _. exists s. split; [reflexivity|]. intros u. apply le_idx. specialize (Hb u). lia.
    + reflexivity.
  - split; [discriminate|]. intros (t & E & _). discriminate.
Qed.
Lemma lbri_call_spec it c o it' : up_call_ok c -> lbri_call Debug it c = Ret (o, it') ->
  let n := match c with UpNext => 0 | UpNth n => n end in
  exists e, o = Some e /\ idx e = idx (lbri_current it) + n /\ idx (lbri_current it') = idx (lbri_current it) + n + 1.
Proof.
  intros O E. destruct c; cbn [lbri_call up_call_ok] in *.
  - unfold lbri_next in E. inv_bind E. injection E as <- <-. apply fwd_ret in E0; [|apply one_ok].
    exists (lbri_current it). simpl. repeat split; lia.
  - unfold lbri_nth, lbri_next in E. inv_bind E. inv_bind E. injection E as <- <-.
    apply fwd_ret in E0; [|exact O]. apply fwd_ret in E1; [|apply one_ok]. cbn [lbri_current] in *.
    exists a. simpl. repeat split; lia.
Qed.
Lemma lbri_call_agree it c x : up_call_ok c -> lbri_call Debug it c = Ret x -> lbri_call Release it c = Ret x.
Proof.
  intros O E. destruct c; cbn [lbri_call up_call_ok] in *; unfold lbri_nth, lbri_next in *; inv_bind E.
  - rewrite (fwd_agree _ _ _ one_ok E0). exact E.
  - inv_bind E. rewrite (fwd_agree _ _ _ O E0). cbn [bind]. rewrite (fwd_agree _ _ _ one_ok E1). exact E.
Qed.
Lemma lbri_call_some m it c o it' : lbri_call m it c = Ret (o, it') -> o <> None.
Proof.
  destruct c; cbn [lbri_call]; unfold lbri_nth, lbri_next; intros E; inv_bind E; try inv_bind E;
    injection E as <- <-; discriminate.
Qed.
Lemma lbsi_call_some m it c o it' : lbsi_call m it c = Ret (o, it') -> o <> None.
Proof.
  destruct c; cbn [lbsi_call]; intros E.
  - unfold lbsi_next in E. inv_bind E. destruct (fst a).
    + injection E as <- <-. discriminate.
    + inv_bind E. injection E as <- <-. destruct a0 as [o i]. apply (lbri_call_some m _ UpNext o i E1).
  - unfold lbsi_nth in E. inv_bind E. inv_bind E. destruct (fst a0).
    + injection E as <- <-. discriminate.
    + inv_bind E. inv_bind E. injection E as <- <-. destruct a2 as [o i]. apply (lbri_call_some m _ (UpNth a1) o i E3).
Qed.

(** Elements numbered from the least: first those of [l0], then upwards from [c0]. *)
Definition enum (l0 : list T) (c0 : T) (e : T) (p : Z) : Prop :=
  if p <? Z.of_nat (length l0) then nth_error l0 (Z.to_nat p) = Some e
  else idx e = idx c0 + (p - Z.of_nat (length l0)).
(** State of a lower-bounded set iterator after [p] elements. *)
Definition at_pos (l0 : list T) (c0 : T) (p : Z) (it : LowerBoundedSetIter T) : Prop :=
  0 <= p /\ holds_set (lbsi_set_iter it) (skipn (Z.to_nat p) l0) /\
  idx (lbri_current (lbsi_range_iter it)) = idx c0 + Z.max 0 (p - Z.of_nat (length l0)).

Lemma lbsi_call_spec l0 c0 p it c o it' : at_pos l0 c0 p it -> up_call_ok c -> lbsi_call Debug it c = Ret (o, it') ->
  let n := match c with UpNext => 0 | UpNth n => n end in
  exists e, o = Some e /\ enum l0 c0 e (p + n) /\ at_pos l0 c0 (p + n + 1) it'.
Proof.
  intros (Hp & Hs & Hc) O E. unfold enum, at_pos. destruct c; cbn [lbsi_call up_call_ok] in *.
  - unfold lbsi_next in E. inv_bind E.
    destruct (bsi_next_cases _ _ Hs) as [(it1 & E1 & K & _)|[E1 _]]; [|congruence].
    rewrite E1 in E0. injection E0 as <-. cbn [fst snd] in E.
    rewrite <- nth_error_hd in E. rewrite <- skipn_S in K. replace (p + 0) with p by lia.
    replace (S (Z.to_nat p)) with (Z.to_nat (p + 1)) in K by lia.
    destruct (nth_error l0 (Z.to_nat p)) as [e|] eqn:NE.
    + injection E as <- <-. exists e. split; [reflexivity|].
      assert (Z.to_nat p < length l0)%nat by (apply nth_error_Some; congruence).
      destruct (p <? Z.of_nat (length l0)) eqn:C; [|lia]. split; [first [exact NE|reflexivity]|]. cbn [lbsi_set_iter lbsi_range_iter].
      repeat split; [lia|exact K|lia].
    + apply nth_error_None in NE. inv_bind E. destruct a as [o' i']. injection E as <- <-. cbn [fst snd].
      destruct (lbri_call_spec _ UpNext o' i' I E0) as (e & -> & He & Hi). exists e. split; [reflexivity|].
      destruct (p <? Z.of_nat (length l0)) eqn:C; [lia|]. cbn [lbsi_set_iter lbsi_range_iter].
      split; [lia|]. repeat split; [lia|exact K|lia].
  - unfold lbsi_nth in E. inv_bind E. inv_bind E. destruct a0 as [o1 i1].
    destruct (bsi_nth_refines _ _ _ _ _ Hs O E1) as [-> K]. cbn [fst snd] in E.
    rewrite (bsi_len_spec _ _ Hs) in E0. destruct (_ <=? _) eqn:B in E0; [|discriminate]. injection E0 as <-.
    rewrite skipn_length in *.
    assert (NS : forall k j, nth_error (skipn k l0) j = nth_error l0 (k + j)).
    { clear. intros k. induction l0 as [|x l IH] in k |- *; intros j.
      - rewrite skipn_nil. destruct j, (k + _)%nat; reflexivity.
      - destruct k; [reflexivity|]. simpl. apply IH. }
    assert (SS : forall k j, skipn j (skipn k l0) = skipn (k + j) l0).
    { clear. intros k. induction l0 as [|x l IH] in k |- *; intros j.
      - rewrite !skipn_nil. reflexivity.
      - destruct k; [reflexivity|]. cbn [skipn Nat.add]. apply IH. }
    rewrite NS in E. rewrite SS in K.
    replace (Z.to_nat p + Z.to_nat n)%nat with (Z.to_nat (p + n)) in E by lia.
    replace (Z.to_nat p + S (Z.to_nat n))%nat with (Z.to_nat (p + n + 1)) in K by lia.
    destruct (nth_error l0 (Z.to_nat (p + n))) as [e|] eqn:NE.
    + injection E as <- <-. exists e. split; [reflexivity|].
      assert (Z.to_nat (p + n) < length l0)%nat by (apply nth_error_Some; congruence).
      destruct (p + n <? Z.of_nat (length l0)) eqn:C; [|lia]. split; [first [exact NE|reflexivity]|]. cbn [lbsi_set_iter lbsi_range_iter].
      repeat split; [lia|exact K|lia].
    + apply nth_error_None in NE. inv_bind E. inv_bind E. destruct a0 as [o' i']. injection E as <- <-. cbn [fst snd].
      unfold usize_sub in E0. destruct (0 <=? n - Z.of_nat (length l0 - Z.to_nat p)) eqn:D; [|lia]. injection E0 as <-.
      destruct (lbri_call_spec _ (UpNth (n - Z.of_nat (length l0 - Z.to_nat p))) o' i' ltac:(cbn [up_call_ok]; lia) E2)
        as (e & -> & He & Hi). exists e. split; [reflexivity|].
      destruct (p + n <? Z.of_nat (length l0)) eqn:C; [lia|]. cbn [lbsi_set_iter lbsi_range_iter].
      split; [lia|]. repeat split; [lia|exact K|lia].
Qed.
Lemma lbsi_run_spec l0 c0 cs p it reps it' : at_pos l0 c0 p it -> Forall up_call_ok cs ->
  run (lbsi_call Debug) it cs = Ret (reps, it') ->
  Forall2 (fun o q => exists e, o = Some e /\ enum l0 c0 e q) reps (positions p cs).
Proof.
  revert p it reps. induction cs as [|c cs IH]; intros p it reps A O E; cbn [run positions] in *.
  - injection E as <- <-. constructor.
  - inversion O; subst. inv_bind E. inv_bind E. injection E as <- <-. destruct a as [o i]. destruct a0 as [reps i'].
    destruct (lbsi_call_spec l0 c0 p it c o i A H1 E0) as (e & -> & En & A'). cbn [fst snd] in *.
    specialize (IH _ _ _ A' H2 E1). destruct c; cbn [positions].
    + rewrite Z.add_0_r in *. constructor; eauto.
    + constructor; eauto.
Qed.
Lemma lbri_run_spec c0 cs p it reps it' :
  idx (lbri_current it) = idx c0 + p -> Forall up_call_ok cs ->
  run (lbri_call Debug) it cs = Ret (reps, it') ->
  Forall2 (fun o q => exists e, o = Some e /\ idx e = idx c0 + q) reps (positions p cs).
Proof.
  revert p it reps. induction cs as [|c cs IH]; intros p it reps A O E; cbn [run positions] in *.
  - injection E as <- <-. constructor.
  - inversion O; subst. inv_bind E. inv_bind E. injection E as <- <-. destruct a as [o i]. destruct a0 as [reps i'].
    destruct (lbri_call_spec it c o i H1 E0) as (e & -> & En & A'). cbn [fst snd] in *.
    destruct c; cbn [positions].
    + constructor; [exists e; split; [reflexivity|lia]|]. eapply IH; [|exact H2|exact E1]. lia.
    + constructor; [exists e; split; [reflexivity|lia]|]. eapply IH; [|exact H2|exact E1]. lia.
Qed.

(** Ranks. *)
Lemma positions_nonneg p cs : 0 <= p -> Forall up_call_ok cs -> Forall (fun q => 0 <= q) (positions p cs).
Proof.
  revert p. induction cs as [|c cs IH]; intros p Hp O; cbn [positions]; [constructor|]. inversion O; subst.
  destruct c; cbn [up_call_ok] in *; constructor; try lia; apply IH; auto; lia.
Qed.
Lemma ranked_from (P : T -> Prop) c0 e p : (forall t, P t <-> idx c0 <= idx t) -> 0 <= p -> idx e = idx c0 + p -> ranked P e p.
Proof.
  intros HP Hp He. split; [apply HP; lia|].
  destruct (span_exists c0 e (idx c0) (idx e - 1)) as [l Hl]; [lia..|].
  exists l. split.
  - eapply lists_ext; [|apply span_lists; exact Hl]. intros t. rewrite HP, lt_idx. lia.
  - rewrite (span_length _ _ _ Hl). lia.
Qed.
Lemma sorted_firstn (l : list T) k x : StronglySorted lt l -> nth_error l k = Some x ->
  forall t, In t (firstn k l) <-> In t l /\ lt t x.
Proof.
  intros S. revert k. induction S as [|y l S IH F]; intros [|k] E t; simpl in *; try discriminate.
  - injection E as ->. rewrite Forall_forall in F. split; [intros []|]. intros [[->|I] L].
    + apply lt_idx in L. lia.
    + apply F in I. apply lt_idx in I. apply lt_idx in L. lia.
  - rewrite (IH k E t). rewrite Forall_forall in F. split.
    + intros [->|[I L]]; [|tauto]. split; [now left|]. apply F. eapply nth_error_In. exact E.
    + intros [[->|I] L]; tauto.
Qed.
Lemma sorted_firstn' (l : list T) k : StronglySorted lt l -> StronglySorted lt (firstn k l).
Proof.
  intros S. revert k. induction S as [|y l S IH F]; intros [|k]; simpl; constructor; auto.
  rewrite Forall_forall in *. intros z I. apply F. rewrite <- (firstn_skipn k l). apply in_or_app. now left.
Qed.
Lemma ranked_enum (P Q : T -> Prop) l0 c0 e p :
  lists Q l0 -> (forall t, P t <-> Q t \/ idx c0 <= idx t) -> (forall t, Q t -> idx t < idx c0) ->
  0 <= p -> enum l0 c0 e p -> ranked P e p.
Proof.
  intros [S I] HP HQ Hp En. unfold enum in En.
  destruct (p <? Z.of_nat (length l0)) eqn:C.
  - assert (Ie : In e l0) by (eapply nth_error_In; exact En). split; [apply HP; left; apply I; exact Ie|].
    exists (firstn (Z.to_nat p) l0). split.
    + split; [apply sorted_firstn'; exact S|]. intros t. rewrite (sorted_firstn l0 _ e S En t), I, HP, lt_idx.
      apply I, HQ in Ie. split; [intuition lia|]. intros [[A|A] L]; [tauto|lia].
    + rewrite firstn_length. lia.
  - split; [apply HP; right; lia|].
    destruct (span_exists c0 e (idx c0) (idx e - 1)) as [l Hl]; [lia..|].
    exists (l0 ++ l). split.
    + split.
      * apply sorted_app; [exact S|eapply span_sorted; exact Hl|]. intros x y Ix Iy.
        apply I, HQ in Ix. apply (span_in _ _ _ _ Hl) in Iy. apply lt_idx. lia.
      * intros t. rewrite in_app_iff, I, (span_in _ _ _ t Hl), HP, lt_idx. split.
        -- intros [A|A]; [split; [tauto|apply HQ in A; lia]|split; [right; lia|lia]].
        -- intros [[A|A] L]; [tauto|right; lia].
    + rewrite app_length, Nat2Z.inj_add, (span_length _ _ _ Hl). lia.
Qed.
End Sets.
