(** Property theorems C34-C37 (and the conversions of C33): converting between
    std ranges and crate ranges.  [mem (V.. r) t]: [r] contains [t]. *)
From Coq Require Import Lia ZifyBool.
From Verif Require Import Base ModelBound ModelRanges ModelSets ModelAlgebra ModelValue ModelStep ModelIter ModelConv
  Spec SpecStep StepProofs StepLemmas InstancesStep Order IterProofs ConvProofs PropertiesIter.
Open Scope Z_scope.

(** ** C33, conversions *)
Theorem C33_conversions_agree (T : Type) (PF : Platform) (OT : Ord T) (ST : Step T) (NU : Numbered T) (SL : StepLaws T) :
  (forall (r : BoundedRange T) q, range_from_br Debug r = Ret q -> range_from_br Release r = Ret q) /\
  (forall (r : BoundedRange T) q, range_inclusive_from_br Debug r = Ret q -> range_inclusive_from_br Release r = Ret q) /\
  (forall (r : LowerBoundedRange T) q, range_from_from_lbr Debug r = Ret q -> range_from_from_lbr Release r = Ret q) /\
  (forall (r : UpperBoundedRange T) q, range_to_from_ubr Debug r = Ret q -> range_to_from_ubr Release r = Ret q) /\
  (forall (r : UpperBoundedRange T) q, range_to_inclusive_from_ubr Debug r = Ret q -> range_to_inclusive_from_ubr Release r = Ret q) /\
  (forall (DT : Default T) e q, range_inclusive_from_empty Debug e = Ret q -> range_inclusive_from_empty (T := T) Release e = Ret q).
Proof.
  split; [exact range_of_br_agree|]. split; [exact range_inclusive_of_br_agree|]. split; [exact range_from_of_lbr_agree|].
  split; [exact range_to_of_ubr_agree|]. split; [exact range_to_inclusive_of_ubr_agree|].
  intros DT e q. unfold range_inclusive_from_empty. apply range_inclusive_of_br_agree.
Qed.
Print Assumptions C33_conversions_agree.
Example C33_conversions_ex :
  range_from_br Debug (BR (LB (Excluded (u8 3))) (UB (Included (u8 254)))) = Ret (mkRange (u8 4) (u8 255)) /\
  range_from_br Release (BR (LB (Excluded (u8 3))) (UB (Included (u8 254)))) = Ret (mkRange (u8 4) (u8 255)).
Proof. split; vm_compute; reflexivity. Qed.

(** ** C34 *)
(** Missing for the full claim: a [RangeInclusive] iterated to exhaustion loses
    its flag, see [C34_refuted]. *)
Theorem C34_round_trips_partial (T : Type) (PF : Platform) (OT : Ord T) (ST : Step T) (m : mode) :
  (forall r : Range T, range_from_br m (br_from_range r) = Ret r) /\
  (forall r : RangeInclusive T, ri_exhausted r = false -> range_inclusive_from_br m (br_from_range_inclusive r) = Ret r) /\
  (forall r : RangeFrom T, range_from_from_lbr m (lbr_from_range_from r) = Ret r) /\
  (forall r : RangeTo T, range_to_from_ubr m (ubr_from_range_to r) = Ret r) /\
  (forall r : RangeToInclusive T, range_to_inclusive_from_ubr m (ubr_from_range_to_inclusive r) = Ret r) /\
  (forall r : RangeFull, range_full_from_unbr (unbr_from_range_full r) = r).
Proof.
  split; [intros []; reflexivity|]. split; [intros [s e x] H; cbn in H; subst x; reflexivity|].
  split; [intros []; reflexivity|]. split; [intros []; reflexivity|]. split; [intros []; reflexivity|intros []; reflexivity].
Qed.
Print Assumptions C34_round_trips_partial.
(** An exhausted [RangeInclusive] comes back un-exhausted and otherwise equal. *)
Theorem C34_exhausted_exact (T : Type) (PF : Platform) (OT : Ord T) (ST : Step T) (m : mode) (r : RangeInclusive T) :
  range_inclusive_from_br m (br_from_range_inclusive r) = Ret (mkRangeInclusive (ri_start r) (ri_end r) false).
Proof. destruct r; reflexivity. Qed.
Print Assumptions C34_exhausted_exact.
(** Range types that are one conversion apart: the round trip through the other
    std type ([a..b] into [RangeInclusive] and back) keeps the contents. *)
Theorem C34_inclusive_round_trip (T : Type) (PF : Platform) (OT : Ord T) (ST : Step T) (NU : Numbered T) (SL : StepLaws T)
  (r : Range T) (q : RangeInclusive T) (k : Range T) :
  range_inclusive_from_br Debug (br_from_range r) = Ret q ->
  range_from_br Debug (br_from_range_inclusive q) = Ret k -> k = r.
Proof.
  destruct r as [s e]. unfold range_inclusive_from_br, range_from_br, br_from_range, br_from_range_inclusive. cbn. intros E F.
  inv_bind E. injection E as <-. cbn in F. inv_bind F. injection F as <-.
  repeat match goal with
  | H : backward _ _ _ = Ret _ |- _ => apply bwd_ret in H; [|apply one_ok]
  | H : forward _ _ _ = Ret _ |- _ => apply fwd_ret in H; [|apply one_ok]
  end. f_equal. apply idx_inj. lia.
Qed.
Print Assumptions C34_inclusive_round_trip.
Example C34_ex :
  br_from_range_inclusive (mkRangeInclusive (ch 97) (ch 122) false) = incl (ch 97) (ch 122) /\
  range_inclusive_from_br (ST := @StepChr pf64) Debug (incl (ch 97) (ch 122)) = Ret (mkRangeInclusive (ch 97) (ch 122) false) /\
  range_from_br (ST := @StepChr pf64) Release (br_from_range (mkRange (ch 5) (ch 3))) = Ret (mkRange (ch 5) (ch 3)).
Proof. split; [|split]; vm_compute; reflexivity. Qed.
(** One call of [next] on [7..=7u8] exhausts it; the round trip un-exhausts it. *)
Theorem C34_refuted :
  exists r x r' : RangeInclusive (mint (PF := pf64) U8), forall m,
    std_ri_next m r = Ret (Some (u8 7), r') /\
    range_inclusive_from_br m (br_from_range_inclusive r') = Ret x /\ x <> r'.
Proof.
  exists (mkRangeInclusive (u8 7) (u8 7) false), (mkRangeInclusive (u8 7) (u8 7) false), (mkRangeInclusive (u8 7) (u8 7) true).
  intros m. split; [destruct m; vm_compute; reflexivity|]. split; [destruct m; vm_compute; reflexivity|]. discriminate.
Qed.
Print Assumptions C34_refuted.

(** ** C35 *)
(** Missing for the full claim: in release builds a bound that cannot be
    represented wraps instead of panicking, see [C35_refuted]. *)
Theorem C35_contents_preserved_partial (T : Type) (PF : Platform) (OT : Ord T) (ST : Step T) (NU : Numbered T) (SL : StepLaws T) :
  (forall (r : BoundedRange T) q, range_from_br Debug r = Ret q -> forall t, mem (VRange q) t <-> mem (VBR r) t) /\
  (forall (r : BoundedRange T) q, range_inclusive_from_br Debug r = Ret q -> forall t, mem (VRangeInclusive q) t <-> mem (VBR r) t) /\
  (forall (r : LowerBoundedRange T) q, range_from_from_lbr Debug r = Ret q -> forall t, mem (VRangeFrom q) t <-> mem (VLBR r) t) /\
  (forall (r : UpperBoundedRange T) q, range_to_from_ubr Debug r = Ret q -> forall t, mem (VRangeTo q) t <-> mem (VUBR r) t) /\
  (forall (r : UpperBoundedRange T) q, range_to_inclusive_from_ubr Debug r = Ret q -> forall t, mem (VRangeToInclusive q) t <-> mem (VUBR r) t) /\
  (forall (r : UnboundedRange) (t : T), mem (VRangeFull (range_full_from_unbr r)) t <-> mem (VUnbR r) t).
Proof.
  split; [exact range_of_br_mem|]. split; [intros r q E; apply range_inclusive_of_br_mem; exact E|].
  split; [exact range_from_of_lbr_mem|]. split; [exact range_to_of_ubr_mem|]. split; [exact range_to_inclusive_of_ubr_mem|].
  intros r t. cbn. tauto.
Qed.
Print Assumptions C35_contents_preserved_partial.
(** Exactly when a debug build panics. *)
Theorem C35_panics_exact (T : Type) (PF : Platform) (OT : Ord T) (ST : Step T) (NU : Numbered T) (SL : StepLaws T) :
  (forall r : BoundedRange T, range_from_br Debug r = Panic <->
     (exists t, br_start r = LB (Excluded t) /\ greatest t) \/ (exists t, br_end r = UB (Included t) /\ greatest t)) /\
  (forall r : BoundedRange T, range_inclusive_from_br Debug r = Panic <->
     (exists t, br_start r = LB (Excluded t) /\ greatest t) \/ (exists t, br_end r = UB (Excluded t) /\ least t)) /\
  (forall r : LowerBoundedRange T, range_from_from_lbr Debug r = Panic <-> exists t, lbr_start r = LB (Excluded t) /\ greatest t) /\
  (forall r : UpperBoundedRange T, range_to_from_ubr Debug r = Panic <-> exists t, ubr_end r = UB (Included t) /\ greatest t) /\
  (forall r : UpperBoundedRange T, range_to_inclusive_from_ubr Debug r = Panic <-> exists t, ubr_end r = UB (Excluded t) /\ least t).
Proof.
  split; [intros r; apply range_of_br_panics|]. split; [intros r; apply range_inclusive_of_br_panics|].
  split; [intros r; apply range_from_of_lbr_panics|]. split; [intros r; apply range_to_of_ubr_panics|].
  intros r; apply range_to_inclusive_of_ubr_panics.
Qed.
Print Assumptions C35_panics_exact.
Theorem C35_never_diverges (T : Type) (PF : Platform) (OT : Ord T) (ST : Step T) (NU : Numbered T) (SL : StepLaws T) :
  (forall r : BoundedRange T, range_from_br Debug r <> Diverge /\ range_inclusive_from_br Debug r <> Diverge) /\
  (forall r : LowerBoundedRange T, range_from_from_lbr Debug r <> Diverge) /\
  (forall r : UpperBoundedRange T, range_to_from_ubr Debug r <> Diverge /\ range_to_inclusive_from_ubr Debug r <> Diverge).
Proof.
  split; [intros r; split; [apply range_of_br_panics|apply range_inclusive_of_br_panics]|].
  split; [intros r; apply range_from_of_lbr_panics|]. intros r; split; [apply range_to_of_ubr_panics|apply range_to_inclusive_of_ubr_panics].
Qed.
Print Assumptions C35_never_diverges.
Example C35_ex :
  range_inclusive_from_br Debug (BR (LB (Excluded (lit I8 (-128)))) (UB (Excluded (lit I8 127))))
    = Ret (mkRangeInclusive (lit I8 (-127)) (lit I8 126) false) /\
  range_from_br Debug (incl (lit I8 0) (lit I8 127)) = Panic /\
  range_to_inclusive_from_ubr Debug (UBR (UB (Excluded (lit I8 (-128))))) = Panic /\
  greatest (lit I8 127) /\ least (lit I8 (-128)).
Proof.
  split; [vm_compute; reflexivity|]. split; [vm_compute; reflexivity|]. split; [vm_compute; reflexivity|].
  split; intros u; apply (le_idx (PF := pf64)); pose proof (@mint_range pf64 I8 u) as B.
  - change (mval u <= 127). change (imax I8) with 127 in B. lia.
  - change (-128 <= mval u). change (imin I8) with (-128) in B. lia.
Qed.
(** What the integer types do in release, for every type and every other bound:
    [a..=MAX] becomes the empty [a..MIN]; a start excluding [MAX] wraps to [MIN];
    an end excluding [MIN] wraps to [MAX]. *)
Theorem C35_release_wraps (PF : Platform) (ty : ity) (lo hi : mint ty) :
  mval lo = imin ty -> mval hi = imax ty ->
  (forall a, range_from_br Release (incl a hi) = Ret (mkRange a lo) /\
     mem (VBR (incl a hi)) hi /\ forall t, ~ mem (VRange (mkRange a lo)) t) /\
  (range_to_from_ubr Release (UBR (UB (Included hi))) = Ret (mkRangeTo lo) /\
     (forall t, mem (VUBR (UBR (UB (Included hi)))) t) /\ forall t, ~ mem (VRangeTo (mkRangeTo lo)) t) /\
  (range_from_from_lbr Release (LBR (LB (Excluded hi))) = Ret (mkRangeFrom lo) /\
     (forall t, ~ mem (VLBR (LBR (LB (Excluded hi)))) t) /\ forall t, mem (VRangeFrom (mkRangeFrom lo)) t) /\
  (range_to_inclusive_from_ubr Release (UBR (UB (Excluded lo))) = Ret (mkRangeToInclusive hi) /\
     (forall t, ~ mem (VUBR (UBR (UB (Excluded lo)))) t) /\ forall t, mem (VRangeToInclusive (mkRangeToInclusive hi)) t).
Proof.
  intros L H.
  assert (B : forall t : mint ty, imin ty <= mval t <= imax ty) by (intros t; apply mint_range).
  pose proof (wrap_up ty lo hi L H) as F. pose proof (wrap_down ty lo hi L H) as G.
  split; [|split; [|split]].
  - intros a. unfold range_from_br, incl. cbn [lb_to_bound ub_to_bound lb_bound ub_bound br_start br_end]. cbn [bind]. rewrite F.
    split; [reflexivity|]. split; [split; apply le_idx; cbn; pose proof (B a); lia|].
    intros t [P Q]. apply lt_idx in Q. cbn in Q. pose proof (B t). lia.
  - unfold range_to_from_ubr. cbn [ub_to_bound ub_bound ubr_end]. rewrite F. split; [reflexivity|].
    split; intros t; [apply le_idx; cbn; pose proof (B t); lia|]. intros Q. apply lt_idx in Q. cbn in Q. pose proof (B t). lia.
  - unfold range_from_from_lbr. cbn [lb_to_bound lb_bound lbr_start]. rewrite F. split; [reflexivity|].
    split; intros t; [|apply le_idx; cbn; pose proof (B t); lia]. intros Q. apply lt_idx in Q. cbn in Q. pose proof (B t). lia.
  - unfold range_to_inclusive_from_ubr. cbn [ub_to_bound ub_bound ubr_end]. rewrite G. split; [reflexivity|].
    split; intros t; [|apply le_idx; cbn; pose proof (B t); lia]. intros Q. apply lt_idx in Q. cbn in Q. pose proof (B t). lia.
Qed.
Print Assumptions C35_release_wraps.
(** [0..=255u8] as a [Range] in release contains nothing. *)
Theorem C35_refuted :
  exists (r : BoundedRange (mint (PF := pf64) U8)) q,
    range_from_br Release r = Ret q /\ range_from_br Debug r = Panic /\
    (forall t, mem (VBR r) t) /\ (forall t, ~ mem (VRange q) t).
Proof.
  exists (incl (u8 0) (u8 255)), (mkRange (u8 0) (u8 0)). split; [vm_compute; reflexivity|]. split; [vm_compute; reflexivity|].
  split; intros t; pose proof (@mint_range pf64 U8 t) as B; change (imin U8) with 0 in B; change (imax U8) with 255 in B.
  - split; apply (le_idx (PF := pf64)); [change (0 <= mval t)|change (mval t <= 255)]; lia.
  - intros [_ Q]. apply (lt_idx (PF := pf64)) in Q. change (mval t < 0) in Q. lia.
Qed.
Print Assumptions C35_refuted.

(** ** C36 *)
(** [Range::from(EmptyRange)] is empty for every type with a default and any order. *)
Theorem C36_range_empty (T : Type) (OT : Ord T) (OL : OrdLaws T) (DT : Default T) (e : EmptyRange) (t : T) :
  ~ mem (VRange (range_from_empty e)) t.
Proof. cbn. unfold le, lt. intros [A B]. rewrite cmp_opp, B in A. apply A. reflexivity. Qed.
Print Assumptions C36_range_empty.
(** [RangeInclusive::from(EmptyRange)] panics in debug exactly when the default
    is the least value, and is empty when it does not panic.  Missing for the
    full claim: it panics for unsigned integers and [char], and in release
    contains everything for unsigned integers, see [C36_refuted]. *)
Theorem C36_inclusive_partial (T : Type) (PF : Platform) (OT : Ord T) (ST : Step T) (NU : Numbered T) (SL : StepLaws T)
  (DT : Default T) (e : EmptyRange) :
  (range_inclusive_from_empty Debug e = Panic <-> least (default (T := T))) /\
  (forall q, range_inclusive_from_empty Debug e = Ret q ->
     range_inclusive_from_empty Release e = Ret q /\ forall t : T, ~ mem (VRangeInclusive q) t).
Proof.
  unfold range_inclusive_from_empty. split.
  - rewrite (proj1 (range_inclusive_of_br_panics _)). cbn. split.
    + intros [(t & Q & _)|(t & Q & H)]; [discriminate|]. injection Q as <-. exact H.
    + intros H. right. exists default. split; [reflexivity|exact H].
  - intros q E. split; [exact (range_inclusive_of_br_agree _ _ E)|]. intros t M.
    apply (proj2 (range_inclusive_of_br_mem _ _ E)) in M. destruct M as [A B]. cbn in A, B.
    apply le_idx in A. apply lt_idx in B. lia.
Qed.
Print Assumptions C36_inclusive_partial.
(** The integer types: signed ones give the empty [0..=-1]; unsigned ones panic
    in debug and give [0..=MAX] in release.  [char] panics in both. *)
Theorem C36_inclusive_signed (PF : Platform) (ty : ity) (e : EmptyRange) (m : mode) :
  signed ty = true -> exists q : RangeInclusive (mint ty), range_inclusive_from_empty m e = Ret q /\
    mval (ri_start q) = 0 /\ mval (ri_end q) = -1 /\ forall t, ~ mem (VRangeInclusive q) t.
Proof.
  intros S.
  assert (D : exists b : mint ty, backward Debug (default : mint ty) 1 = Ret b).
  { destruct (bwd_bottom (default : mint ty)) as [[_ G]|[X _]]; [|exact X]. exfalso.
    destruct (end_values ty) as (lo & hi & L & _). specialize (G lo). apply le_idx in G.
    change (mval (default : mint ty) <= mval lo) in G. rewrite zero_default, L in G.
    unfold imin in G. rewrite S in G. pose proof (half_pos ty). lia. }
  destruct D as [b D].
  pose proof (zero_default ty) as V.
  assert (E : forall m, range_inclusive_from_empty m e = Ret (mkRangeInclusive (default : mint ty) b false)).
  { intros [|]; unfold range_inclusive_from_empty, range_inclusive_from_br;
      cbn [lb_to_bound ub_to_bound lb_bound ub_bound lb_included ub_excluded br_start br_end bind].
    - rewrite D. reflexivity.
    - rewrite (bwd_agree _ _ _ one_ok D). reflexivity. }
  exists (mkRangeInclusive default b false). split; [apply E|]. split; [exact V|].
  pose proof (proj1 (bwd_ret _ _ _ one_ok) D) as I. change (mval b = mval (default : mint ty) - 1) in I. split; [change (mval b = -1); lia|].
  exact (proj2 (proj2 (C36_inclusive_partial _ _ _ _ _ _ _ e) _ (E Debug))).
Qed.
Print Assumptions C36_inclusive_signed.
Theorem C36_inclusive_unsigned (PF : Platform) (ty : ity) (e : EmptyRange) :
  signed ty = false ->
  range_inclusive_from_empty (T := mint ty) Debug e = Panic /\
  exists q, range_inclusive_from_empty Release e = Ret q /\ forall t : mint ty, mem (VRangeInclusive q) t.
Proof.
  intros S. destruct (end_values ty) as (lo & hi & L & H).
  assert (Z0 : default = lo) by (apply mint_eq; rewrite zero_default, L; unfold imin; rewrite S; reflexivity).
  assert (B : forall t : mint ty, imin ty <= mval t <= imax ty) by (intros t; apply mint_range).
  split.
  - apply (proj1 (C36_inclusive_partial _ _ _ _ _ _ _ e)). intros u. apply le_idx. rewrite Z0. change (mval lo <= mval u). pose proof (B u). lia.
  - exists (mkRangeInclusive lo hi false). unfold range_inclusive_from_empty, range_inclusive_from_br.
    cbn [lb_to_bound ub_to_bound lb_bound ub_bound lb_included ub_excluded br_start br_end bind]. rewrite Z0, (wrap_down ty lo hi L H).
    split; [reflexivity|]. intros t. pose proof (B t).
    split; apply le_idx; [change (mval lo <= mval t)|change (mval t <= mval hi)]; lia.
Qed.
Print Assumptions C36_inclusive_unsigned.
Theorem C36_inclusive_char (PF : Platform) (e : EmptyRange) (m : mode) :
  range_inclusive_from_empty (T := chr) m e = Panic.
Proof.
  assert (P : @backward chr StepChr m (default : chr) 1 = Panic).
  { change (backward_default char_backward_checked m (default : chr) 1 = Panic). unfold backward_default.
    pose proof (char_backward_checked_exact (default : chr) 1 one_ok) as E. destruct (char_backward_checked default 1) as [d|]; [|reflexivity].
    pose proof (cidx_range d). change (cval default) with 0 in E. change (cidx 0) with 0 in E. lia. }
  unfold range_inclusive_from_empty, range_inclusive_from_br.
  cbn [lb_to_bound ub_to_bound lb_bound ub_bound lb_included ub_excluded br_start br_end bind]. rewrite P. reflexivity.
Qed.
Print Assumptions C36_inclusive_char.
Theorem C36_refuted :
  exists q, range_inclusive_from_empty (T := mint (PF := pf64) U8) Release mkEmptyRange = Ret q /\
    forall t : mint U8, mem (VRangeInclusive q) t.
Proof. exact (proj2 (C36_inclusive_unsigned pf64 U8 mkEmptyRange eq_refl)). Qed.
Print Assumptions C36_refuted.
Example C36_ex :
  range_from_empty mkEmptyRange = mkRange (u8 0) (u8 0) /\
  range_inclusive_from_empty Debug mkEmptyRange = Ret (mkRangeInclusive (lit I16 0) (lit I16 (-1)) false).
Proof. split; vm_compute; reflexivity. Qed.

(** ** C37 *)
(** Missing for the full claim: a [RangeInclusive] iterated to exhaustion, see
    [C37_exhausted_exact] and [C37_refuted]. *)
Theorem C37_contents_preserved_partial (T : Type) (OT : Ord T) (r : RangeInclusive T) (t : T) :
  ri_exhausted r = false -> (mem (VBR (br_from_range_inclusive r)) t <-> mem (VRangeInclusive r) t).
Proof. intros H. destruct r as [s e x]. cbn in *. subst x. unfold in_range. cbn. tauto. Qed.
Print Assumptions C37_contents_preserved_partial.
(** Every state reached by iterating that is not exhausted is covered: an
    exhausted range gains exactly its end. *)
Theorem C37_exhausted_exact (T : Type) (OT : Ord T) (OL : OrdLaws T) (OS : OrdStrict T) (r : RangeInclusive T) (t : T) :
  ri_exhausted r = true ->
  (mem (VBR (br_from_range_inclusive r)) t <->
   mem (VRangeInclusive r) t \/ (t = ri_end r /\ le (ri_start r) (ri_end r))).
Proof.
  intros H. destruct r as [s e x]. cbn in *. subst x. unfold in_range. cbn. unfold le, lt.
  split.
  - intros [A B]. destruct (cmp t e) eqn:C; [|left; split; [exact A|reflexivity]|congruence].
    right. apply cmp_eq in C. subst t. auto.
  - intros [[A B]|[-> B]]; [rewrite B; split; [exact A|discriminate]|]. split; [exact B|]. rewrite cmp_refl. discriminate.
Qed.
Print Assumptions C37_exhausted_exact.
(** The conversion forgets only the flag. *)
Theorem C37_fixpoint (T : Type) (OT : Ord T) (r : RangeInclusive T) (t : T) :
  mem (VBR (br_from_range_inclusive r)) t <-> mem (VRangeInclusive (mkRangeInclusive (ri_start r) (ri_end r) false)) t.
Proof. destruct r. cbn. unfold in_range. cbn. tauto. Qed.
Print Assumptions C37_fixpoint.
(** [7..=7u8] after one [next] contains nothing; as a crate range it contains 7. *)
Theorem C37_refuted :
  exists (r r' : RangeInclusive (mint (PF := pf64) U8)),
    ri_exhausted r = false /\ (forall m, std_ri_next m r = Ret (Some (u8 7), r')) /\
    (forall t, ~ mem (VRangeInclusive r') t) /\ mem (VBR (br_from_range_inclusive r')) (u8 7).
Proof.
  exists (mkRangeInclusive (u8 7) (u8 7) false), (mkRangeInclusive (u8 7) (u8 7) true).
  split; [reflexivity|]. split; [intros [|]; vm_compute; reflexivity|]. split.
  - intros t [A B]. cbn in A, B. apply (le_idx (PF := pf64)) in A. apply (lt_idx (PF := pf64)) in B. lia.
  - split; vm_compute; discriminate.
Qed.
Print Assumptions C37_refuted.
Example C37_ex :
  std_ri_next Debug (mkRangeInclusive (u8 3) (u8 9) false) = Ret (Some (u8 3), mkRangeInclusive (u8 4) (u8 9) false) /\
  br_from_range_inclusive (mkRangeInclusive (u8 4) (u8 9) false) = incl (u8 4) (u8 9).
Proof. split; vm_compute; reflexivity. Qed.
