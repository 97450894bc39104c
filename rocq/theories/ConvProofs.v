(** Conversions between crate ranges and std ranges. *)
From Coq Require Import Lia ZifyBool.
From Verif Require Import Base ModelBound ModelRanges ModelSets ModelValue ModelStep ModelConv
  Spec SpecStep StepProofs StepLemmas IterProofs.
Open Scope Z_scope.

Section Conv.
Context {T : Type} {PF : Platform} {OT : Ord T} {ST : Step T} {NU : Numbered T} {SL : StepLaws T}.

Ltac idx_all := rewrite ?lt_idx, ?le_idx in *.

Lemma range_of_br_mem r q : range_from_br Debug r = Ret q -> forall t, mem (VRange q) t <-> mem (VBR r) t.
Proof.
  unfold range_from_br. intros E t. inv_bind E. inv_bind E. injection E as <-.
  destruct r as [[[s|s]] [[e|e]]]; cbn in E0, E1; cbn [mem rg_start rg_end br_start br_end];
    unfold in_range; cbn [above below br_start br_end];
    try (apply fwd_ret in E0; [|apply one_ok]); try (apply fwd_ret in E1; [|apply one_ok]);
    try (injection E0 as <-); try (injection E1 as <-); idx_all; lia.
Qed.
Lemma range_inclusive_of_br_mem r q : range_inclusive_from_br Debug r = Ret q ->
  ri_exhausted q = false /\ forall t, mem (VRangeInclusive q) t <-> mem (VBR r) t.
Proof.
  unfold range_inclusive_from_br. intros E. inv_bind E. inv_bind E. injection E as <-. split; [reflexivity|]. intros t.
  destruct r as [[[s|s]] [[e|e]]]; cbn in E0, E1; cbn [mem ri_start ri_end ri_exhausted br_start br_end];
    unfold in_range; cbn [above below br_start br_end];
    try (apply fwd_ret in E0; [|apply one_ok]); try (apply bwd_ret in E1; [|apply one_ok]);
    try (injection E0 as <-); try (injection E1 as <-); idx_all; lia.
Qed.
Lemma range_from_of_lbr_mem r q : range_from_from_lbr Debug r = Ret q -> forall t, mem (VRangeFrom q) t <-> mem (VLBR r) t.
Proof.
  unfold range_from_from_lbr. intros E t. destruct r as [[[s|s]]]; cbn in E.
  - inv_bind E. injection E as <-. apply fwd_ret in E0; [|apply one_ok]. cbn [mem rf_start lbr_start above]. idx_all. lia.
  - injection E as <-. cbn [mem rf_start lbr_start above]. idx_all. lia.
Qed.
Lemma range_to_of_ubr_mem r q : range_to_from_ubr Debug r = Ret q -> forall t, mem (VRangeTo q) t <-> mem (VUBR r) t.
Proof.
  unfold range_to_from_ubr. intros E t. destruct r as [[[s|s]]]; cbn in E.
  - injection E as <-. cbn [mem rt_end ubr_end below]. idx_all. lia.
  - inv_bind E. injection E as <-. apply fwd_ret in E0; [|apply one_ok]. cbn [mem rt_end ubr_end below]. idx_all. lia.
Qed.
Lemma range_to_inclusive_of_ubr_mem r q : range_to_inclusive_from_ubr Debug r = Ret q ->
  forall t, mem (VRangeToInclusive q) t <-> mem (VUBR r) t.
Proof.
  unfold range_to_inclusive_from_ubr. intros E t. destruct r as [[[s|s]]]; cbn in E.
  - inv_bind E. injection E as <-. apply bwd_ret in E0; [|apply one_ok]. cbn [mem rti_end ubr_end below]. idx_all. lia.
  - injection E as <-. cbn [mem rti_end ubr_end below]. idx_all. lia.
Qed.

Lemma fwd_top (t : T) : (forward Debug t 1 = Panic /\ greatest t) \/ ((exists b, forward Debug t 1 = Ret b) /\ ~ greatest t).
Proof.
  destruct (fwd_cases t 1 one_ok) as [(b & E & Hb)|[E Hb]].
  - right. split; [eauto|]. intros G. specialize (G b). apply le_idx in G. lia.
  - left. split; [exact E|]. intros u. apply le_idx. specialize (Hb u). lia.
Qed.
Lemma bwd_bottom (t : T) : (backward Debug t 1 = Panic /\ least t) \/ ((exists b, backward Debug t 1 = Ret b) /\ ~ least t).
Proof.
  destruct (bwd_cases t 1 one_ok) as [(b & E & Hb)|[E Hb]].
  - right. split; [eauto|]. intros G. specialize (G b). apply le_idx in G. lia.
  - left. split; [exact E|]. intros u. apply le_idx. specialize (Hb u). lia.
Qed.

(** A bound that cannot be moved one step up or down. *)
Ltac top t := destruct (fwd_top t) as [[-> ?G]|[[?b ->] ?N]]; cbn [bind].
Ltac bottom t := destruct (bwd_bottom t) as [[-> ?G]|[[?b ->] ?N]]; cbn [bind].
Ltac fin := split; [|try discriminate];
  [split; [try discriminate; intros _; eauto | intros [(?u & ?Q & ?H)|(?u & ?Q & ?H)]; try discriminate; try reflexivity; injection Q as <-; exfalso; auto] | ..].

Lemma range_of_br_panics r :
  (range_from_br Debug r = Panic <->
   (exists t, br_start r = LB (Excluded t) /\ greatest t) \/ (exists t, br_end r = UB (Included t) /\ greatest t)) /\
  range_from_br Debug r <> Diverge.
Proof.
  unfold range_from_br. destruct r as [[[s|s]] [[e|e]]]; cbn [lb_to_bound ub_to_bound lb_bound ub_bound br_start br_end bind].
  - top s; fin.
  - top s; [fin|]. top e; fin.
  - fin.
  - top e; fin.
Qed.
Lemma range_inclusive_of_br_panics r :
  (range_inclusive_from_br Debug r = Panic <->
   (exists t, br_start r = LB (Excluded t) /\ greatest t) \/ (exists t, br_end r = UB (Excluded t) /\ least t)) /\
  range_inclusive_from_br Debug r <> Diverge.
Proof.
  unfold range_inclusive_from_br. destruct r as [[[s|s]] [[e|e]]]; cbn [lb_to_bound ub_to_bound lb_bound ub_bound br_start br_end bind].
  - top s; [fin|]. bottom e; fin.
  - top s; fin.
  - bottom e; fin.
  - fin.
Qed.
Lemma range_from_of_lbr_panics r :
  (range_from_from_lbr Debug r = Panic <-> exists t, lbr_start r = LB (Excluded t) /\ greatest t) /\
  range_from_from_lbr Debug r <> Diverge.
Proof.
  unfold range_from_from_lbr. destruct r as [[[s|s]]]; cbn [lb_to_bound lb_bound lbr_start].
  - top s; (split; [split; try discriminate; eauto|discriminate]). intros (t & Q & H). injection Q as <-. exfalso; auto.
  - split; [split; [discriminate|]|discriminate]. intros (t & Q & _). discriminate.
Qed.
Lemma range_to_of_ubr_panics r :
  (range_to_from_ubr Debug r = Panic <-> exists t, ubr_end r = UB (Included t) /\ greatest t) /\
  range_to_from_ubr Debug r <> Diverge.
Proof.
  unfold range_to_from_ubr. destruct r as [[[s|s]]]; cbn [ub_to_bound ub_bound ubr_end].
  - split; [split; [discriminate|]|discriminate]. intros (t & Q & _). discriminate.
  - top s; (split; [split; try discriminate; eauto|discriminate]). intros (t & Q & H). injection Q as <-. exfalso; auto.
Qed.
Lemma range_to_inclusive_of_ubr_panics r :
  (range_to_inclusive_from_ubr Debug r = Panic <-> exists t, ubr_end r = UB (Excluded t) /\ least t) /\
  range_to_inclusive_from_ubr Debug r <> Diverge.
Proof.
  unfold range_to_inclusive_from_ubr. destruct r as [[[s|s]]]; cbn [ub_to_bound ub_bound ubr_end].
  - bottom s; (split; [split; try discriminate; eauto|discriminate]). intros (t & Q & H). injection Q as <-. exfalso; auto.
  - split; [split; [discriminate|]|discriminate]. intros (t & Q & _). discriminate.
Qed.

(** Release builds. *)
Ltac agree := intros E; repeat inv_bind E;
  repeat match goal with
  | H : forward Debug _ _ = Ret _ |- _ => rewrite (fwd_agree _ _ _ one_ok H); clear H
  | H : backward Debug _ _ = Ret _ |- _ => rewrite (bwd_agree _ _ _ one_ok H); clear H
  | H : Ret _ = Ret _ |- _ => injection H as <-
  end; reflexivity.
Lemma range_of_br_agree r q : range_from_br Debug r = Ret q -> range_from_br Release r = Ret q.
Proof. unfold range_from_br. destruct r as [[[s|s]] [[e|e]]]; cbn [lb_to_bound ub_to_bound lb_bound ub_bound br_start br_end]; agree. Qed.
Lemma range_inclusive_of_br_agree r q : range_inclusive_from_br Debug r = Ret q -> range_inclusive_from_br Release r = Ret q.
Proof. unfold range_inclusive_from_br. destruct r as [[[s|s]] [[e|e]]]; cbn [lb_to_bound ub_to_bound lb_bound ub_bound br_start br_end]; agree. Qed.
Lemma range_from_of_lbr_agree r q : range_from_from_lbr Debug r = Ret q -> range_from_from_lbr Release r = Ret q.
Proof. unfold range_from_from_lbr. destruct r as [[[s|s]]]; cbn [lb_to_bound lb_bound lbr_start]; agree. Qed.
Lemma range_to_of_ubr_agree r q : range_to_from_ubr Debug r = Ret q -> range_to_from_ubr Release r = Ret q.
Proof. unfold range_to_from_ubr. destruct r as [[[s|s]]]; cbn [ub_to_bound ub_bound ubr_end]; agree. Qed.
Lemma range_to_inclusive_of_ubr_agree r q : range_to_inclusive_from_ubr Debug r = Ret q -> range_to_inclusive_from_ubr Release r = Ret q.
Proof. unfold range_to_inclusive_from_ubr. destruct r as [[[s|s]]]; cbn [ub_to_bound ub_bound ubr_end]; agree. Qed.
End Conv.

(** The ends of the integer types meet when wrapping. *)
Section Wrap.
Context {PF : Platform}.
Lemma size_of (ty : ity) : imax ty + 1 = imin ty + 2 ^ bits ty.
Proof. unfold imin, imax. pose proof (pow_half ty). destruct (signed ty); lia. Qed.
Lemma wrap_up (ty : ity) (lo hi : mint ty) : mval lo = imin ty -> mval hi = imax ty -> forward Release hi 1 = Ret lo.
Proof.
  intros L H. change (forward Release hi 1) with (int_forward Release hi 1). rewrite int_forward_exact by apply one_ok.
  destruct (of_z ty (mval hi + 1)) eqn:E.
  - apply of_z_some in E. pose proof (mint_range ty m). lia.
  - f_equal. apply mint_eq. rewrite wrap_val, L. apply (wrapz_eq ty _ _ (-1)); pose proof (size_of ty); pose proof (mint_range ty lo); lia.
Qed.
Lemma wrap_down (ty : ity) (lo hi : mint ty) : mval lo = imin ty -> mval hi = imax ty -> backward Release lo 1 = Ret hi.
Proof.
  intros L H. change (backward Release lo 1) with (int_backward Release lo 1). rewrite int_backward_exact by apply one_ok.
  destruct (of_z ty (mval lo - 1)) eqn:E.
  - apply of_z_some in E. pose proof (mint_range ty m). lia.
  - f_equal. apply mint_eq. rewrite wrap_val, H. apply (wrapz_eq ty _ _ 1); pose proof (size_of ty); pose proof (mint_range ty hi); lia.
Qed.
Lemma zero_default (ty : ity) : mval (default : mint ty) = 0.
Proof.
  cbn. rewrite wrap_val. apply wrapz_id. unfold imin, imax. pose proof (pow_half ty). pose proof (half_pos ty). destruct (signed ty); lia.
Qed.
Lemma end_values (ty : ity) : exists lo hi : mint ty, mval lo = imin ty /\ mval hi = imax ty.
Proof.
  pose proof (size_of ty) as S. assert (0 < 2 ^ bits ty) by (pose proof (pow_half ty); pose proof (half_pos ty); lia).
  destruct (of_z_fits ty (imin ty)) as (lo & _ & L); [lia|]. destruct (of_z_fits ty (imax ty)) as (hi & _ & H'); [lia|]. eauto.
Qed.
End Wrap.
