(** Looping over the std range a crate range is converted to, and converting a
    std range some elements have been taken from. *)
From Coq Require Import Lia ZifyBool.
From Verif Require Import Base ModelBound ModelRanges ModelSets ModelValue ModelStep ModelIter ModelConv ModelStdIter
  Spec SpecStep SpecIter SpecMove StepProofs StepLemmas IterProofs ConvProofs StdIterProofs InstancesStep PropertiesIter.
Open Scope Z_scope.

(** ** C63 *)
(** Any sequence of [next], [next_back], [nth] and [nth_back] on the [Range] made
    from a crate range answers as a list of its elements does, without a panic;
    what it is converted back to holds the elements left. *)
Theorem C63_half_open (T : Type) (PF : Platform) (OT : Ord T) (ST : Step T) (NU : Numbered T) (SL : StepLaws T)
  (r : BoundedRange T) (q : Range T) (l : list T) (cs : list move) :
  range_from_br Debug r = Ret q -> lists (in_range r) l -> Forall move_ok cs ->
  exists q', run std_range_move q cs = Ret (fst (take_moves l cs), q') /\
    lists (in_range (br_from_range q')) (snd (take_moves l cs)).
Proof.
  intros E L F. assert (H : rg_shows q l).
  { apply rg_shows_of_lists. eapply lists_ext; [|exact L]. intros t. symmetry. apply (range_of_br_mem r q E t). }
  destruct (moves_spec std_range_move rg_shows std_range_move_spec cs q l H F) as (q' & R & H').
  exists q'. split; [exact R|]. apply rg_shows_of_lists in H'. eapply lists_ext; [|exact H'].
  intros t. destruct q'. cbn. unfold in_range. cbn. tauto.
Qed.
Print Assumptions C63_half_open.
(** The same for [RangeInclusive], in both builds.  Converting back is right
    unless the flag "exhausted" is set. *)
Theorem C63_inclusive (T : Type) (PF : Platform) (OT : Ord T) (ST : Step T) (NU : Numbered T) (SL : StepLaws T)
  (m : mode) (r : BoundedRange T) (q : RangeInclusive T) (l : list T) (cs : list move) :
  range_inclusive_from_br Debug r = Ret q -> lists (in_range r) l -> Forall move_ok cs ->
  exists q', run (std_ri_move m) q cs = Ret (fst (take_moves l cs), q') /\
    lists (mem (VRangeInclusive q')) (snd (take_moves l cs)) /\
    (ri_exhausted q' = false -> lists (in_range (br_from_range_inclusive q')) (snd (take_moves l cs))) /\
    (ri_exhausted q' = true -> snd (take_moves l cs) = [] /\ lists (in_range (br_from_range_inclusive q')) [ri_end q']).
Proof.
  intros E L F. destruct (range_inclusive_of_br_mem r q E) as [X M]. assert (H : ri_shows q l).
  { apply ri_shows_of_lists; [exact X|]. eapply lists_ext; [|exact L]. intros t. symmetry. apply M. }
  destruct (moves_spec (std_ri_move m) ri_shows (std_ri_move_spec m) cs q l H F) as (q' & R & H').
  exists q'. split; [exact R|]. split; [apply ri_shows_lists; exact H'|]. split; intros Y.
  - apply ri_shows_of_lists in H'; [|exact Y]. eapply lists_ext; [|exact H']. intros t.
    destruct q' as [a b y]. cbn in Y |- *. subst y. unfold in_range. cbn. tauto.
  - unfold ri_shows in H'. rewrite Y in H'. destruct H' as [I N]. split; [exact N|]. split.
    + repeat constructor.
    + intros t. destruct q' as [a b y]. unfold in_range. cbn in *. rewrite !le_idx.
      split; [intros [<-|[]]; lia|]. intros K. left. apply idx_inj. lia.
Qed.
Print Assumptions C63_inclusive.
(** A [for] loop over either sees every element, in order, in both builds;
    also where the crate's own iterator panics on reaching the greatest value. *)
Theorem C63_loops (T : Type) (PF : Platform) (OT : Ord T) (ST : Step T) (NU : Numbered T) (SL : StepLaws T)
  (m : mode) (r : BoundedRange T) (l : list T) : lists (in_range r) l ->
  (forall q, range_from_br Debug r = Ret q -> drains std_range_next q (Ret l)) /\
  (forall q, range_inclusive_from_br Debug r = Ret q -> drains (std_ri_next m) q (Ret l)).
Proof.
  intros L. split; intros q E.
  - apply std_range_drains. apply rg_shows_of_lists. eapply lists_ext; [|exact L]. intros t. symmetry. apply (range_of_br_mem r q E t).
  - destruct (range_inclusive_of_br_mem r q E) as [X M]. apply std_ri_drains. apply ri_shows_of_lists; [exact X|].
    eapply lists_ext; [|exact L]. intros t. symmetry. apply M.
Qed.
Print Assumptions C63_loops.
(** The [RangeFrom] made from a lower-bounded range answers every sequence of
    [next] and [nth] as the range's own iterator does, panics included. *)
Theorem C63_from (T : Type) (PF : Platform) (OT : Ord T) (ST : Step T) (m : mode) (r : LowerBoundedRange T) (cs : list up_call) :
  (q <- range_from_from_lbr m r ;; p <- run (std_rf_call m) q cs ;; Ret (fst p)) =
  (it <- lbr_into_iter m r ;; p <- run (lbri_call m) it cs ;; Ret (fst p)).
Proof.
  rewrite lbr_same_start. destruct (lbr_into_iter m r) as [it| |]; cbn [bind]; try reflexivity.
  rewrite lbr_same_run. destruct (run (lbri_call m) it cs); reflexivity.
Qed.
Print Assumptions C63_from.
#[local] Existing Instance pf64.
(** [(Excluded 250 ..= 255u8)]: the range's own iterator panics, [RangeInclusive] gives all five. *)
Example C63_ex :
  let r := BR (LB (Excluded (u8 250))) (UB (Included (u8 255))) in
  let q := mkRangeInclusive (u8 251) (u8 255) false in
  range_inclusive_from_br Debug r = Ret q /\
  range_from_br Debug r = Panic /\
  lists (in_range r) [u8 251; u8 252; u8 253; u8 254; u8 255] /\
  run (std_ri_move Debug) q [MNext; MNthBack 1; MNth 0; MNext; MNext; MNextBack] =
    Ret ([Some (u8 251); Some (u8 254); Some (u8 252); Some (u8 253); None; None], mkRangeInclusive (u8 253) (u8 253) true) /\
  take_moves [u8 251; u8 252; u8 253; u8 254; u8 255] [MNext; MNthBack 1; MNth 0; MNext; MNext; MNextBack] =
    ([Some (u8 251); Some (u8 254); Some (u8 252); Some (u8 253); None; None], []) /\
  drains (bri_next Debug) (BRI (u8 251) (u8 255)) Panic /\
  run std_range_move (mkRange (ch 0xD7FE) (ch 0xE001)) [MNth 1; MNext; MNext; MNthBack 255] =
    Ret ([Some (ch 0xD7FF); Some (ch 0xE000); None; None], mkRange (ch 0xE001) (ch 0xE001)) /\
  (q <- range_from_from_lbr Debug (LBR (LB (Excluded (u8 250)))) ;;
   p <- run (std_rf_call Debug) q [UpNext; UpNth 2] ;; Ret (fst p)) = Ret [Some (u8 251); Some (u8 254)] /\
  run (std_rf_call Debug) (mkRangeFrom (u8 251)) [UpNext; UpNth 3] = Panic.
Proof.
  cbn zeta. split; [vm_compute; reflexivity|]. split; [vm_compute; reflexivity|].
  assert (L : lists (in_range (BR (LB (Excluded (u8 250))) (UB (Included (u8 255))))) [u8 251; u8 252; u8 253; u8 254; u8 255]).
  { apply (lists_ext (fun t => 251 <= idx t <= 255)); [|apply span_lists; vm_compute; reflexivity].
    intros t. unfold in_range. cbn [above below br_start br_end]. rewrite lt_idx, le_idx.
    change (idx (u8 250)) with 250. change (idx (u8 255)) with 255. lia. }
  split; [exact L|]. split; [vm_compute; reflexivity|]. split; [vm_compute; reflexivity|].
  split.
  { replace (@Panic (list (mint U8))) with (l <- (l <- (l <- (l <- @Panic (list (mint U8)) ;; Ret (u8 254 :: l)) ;; Ret (u8 253 :: l)) ;; Ret (u8 252 :: l)) ;; Ret (u8 251 :: l)) by reflexivity.
    eapply drains_item with (s' := BRI (u8 252) (u8 255)); [vm_compute; reflexivity|].
    eapply drains_item with (s' := BRI (u8 253) (u8 255)); [vm_compute; reflexivity|].
    eapply drains_item with (s' := BRI (u8 254) (u8 255)); [vm_compute; reflexivity|].
    eapply drains_item with (s' := BRI (u8 255) (u8 255)); [vm_compute; reflexivity|].
    apply drains_panic. vm_compute. reflexivity. }
  repeat split; vm_compute; reflexivity.
Qed.
