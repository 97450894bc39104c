(** The programs of ClientProg.v do in the model, in debug builds, what SpecProg.v says. *)
From Coq Require Import String QArith Lia Sorted.
From Verif Require Import Base ModelBound ModelRanges ModelSets ModelAlgebra ModelValue ModelStep ModelIter
  Spec SpecBounds SpecMap SpecFill SpecStep SpecIter Reach Order Cuts SetProofs AlgebraProofs ValueProofs Laws Laws2 NaturalProofs CongProofs FillProofs
  StepProofs StepLemmas IterLemmas IterProofs IterProofs2 IterProofs3 IterProofs4
  ClientProg SpecProg ClientTypes RustProg PropertiesAlgebra.
Open Scope Z_scope.
Open Scope string_scope.
Open Scope list_scope.

Section Ops.
Context {T : Type} {OT : Ord T} {OL : OrdLaws T}.
Definition stands (v : value T) (k : kind) (P : points T) : Prop :=
  api v /\ fresh v /\ kind_of v = k /\ forall p, covers v p <-> P p.
Lemma fresh_of (v : value T) : kind_of v <> KRangeInclusive -> fresh v.
Proof. destruct v; cbn; try exact (fun _ => I). congruence. Qed.

Lemma kinds_fresh k l : inter_kind k l <> KRangeInclusive /\ compl_kind k <> KRangeInclusive /\
  inner_kind k <> KRangeInclusive /\ set_kind k <> KRangeInclusive.
Proof. destruct k, l; repeat split; intros E; vm_compute in E; discriminate E. Qed.
Lemma union_fresh (v w x : value T) : fresh v -> fresh w -> union v w = Ret x -> kind_of x = union_kind (kind_of v) (kind_of w) -> fresh x.
Proof.
  intros Fv Fw E K.
  destruct v, w; try (apply fresh_of; rewrite K; vm_compute; discriminate); cbn in E; injection E as <-; assumption.
Qed.
Lemma st_union v w k l P Q : stands v k P -> stands w l Q -> exists x, union v w = Ret x /\ stands x (union_kind k l) (fun p => P p \/ Q p).
Proof.
  intros (Av & Fv & <- & Cv) (Aw & Fw & <- & Cw). destruct (eval_filled (EUnion (EVal v) (EVal w))) as (x & E & H); [now split|].
  cbn [eval bind] in E. exists x. split; [exact E|]. pose proof (proj1 (C17_result_types T OT OL v w x) E) as K.
  split; [exact (api_union v w x Av Aw E)|]. split; [exact (union_fresh v w x Fv Fw E K)|]. split; [exact K|].
  intros p. rewrite H, <- Cv, <- Cw. reflexivity.
Qed.
Lemma st_inter v w k l P Q : both_lbs k l = false -> stands v k P -> stands w l Q ->
  exists x, intersection v w = Ret x /\ stands x (inter_kind k l) (fun p => P p /\ Q p).
Proof.
  intros B (Av & Fv & <- & Cv) (Aw & Fw & <- & Cw). destruct (eval_filled (EInter (EVal v) (EVal w))) as (x & E & H); [repeat split; assumption|].
  cbn [eval bind] in E. exists x. split; [exact E|]. pose proof (proj1 (proj2 (C17_result_types T OT OL v w x)) E) as K.
  split; [exact (api_inter v w x Av Aw E)|]. split; [apply fresh_of; rewrite K; apply kinds_fresh|]. split; [exact K|].
  intros p. rewrite H, <- Cv, <- Cw. reflexivity.
Qed.
Lemma st_compl v k P : stands v k P -> exists x, complement v = Ret x /\ stands x (compl_kind k) (fun p => ~ P p).
Proof.
  intros (Av & Fv & <- & Cv). destruct (eval_filled (ECompl (EVal v))) as (x & E & H); [exact Fv|].
  cbn [eval bind] in E. exists x. split; [exact E|]. pose proof (proj1 (proj2 (proj2 (C17_result_types T OT OL v v x))) E) as K.
  split; [exact (api_compl v x Av E)|]. split; [apply fresh_of; rewrite K; apply (kinds_fresh _ KRange)|]. split; [exact K|].
  intros p. rewrite H, <- Cv. reflexivity.
Qed.
Lemma st_inner v k P : stands v k P -> stands (value_of_inner (to_inner v)) (inner_kind k) P.
Proof.
  intros (Av & Fv & <- & Cv). destruct (eval_filled (EInner (EVal v))) as (x & E & H); [exact Fv|].
  cbn [eval bind] in E. injection E as <-. pose proof (proj1 (proj2 (proj2 (proj2 (C17_result_types T OT OL v v v))))) as K.
  split; [exact (api_inner v Av)|]. split; [apply fresh_of; rewrite K; apply (kinds_fresh _ KRange)|]. split; [exact K|].
  intros p. rewrite H, <- Cv. reflexivity.
Qed.
Lemma st_set v k P : stands v k P -> stands (value_of_set (to_set v)) (set_kind k) P.
Proof.
  intros (Av & Fv & <- & Cv). destruct (eval_filled (ESet (EVal v))) as (x & E & H); [exact Fv|].
  cbn [eval bind] in E. injection E as <-. pose proof (proj2 (proj2 (proj2 (proj2 (C17_result_types T OT OL v v v))))) as K.
  split; [exact (api_set v Av)|]. split; [apply fresh_of; rewrite K; apply (kinds_fresh _ KRange)|]. split; [exact K|].
  intros p. rewrite H, <- Cv. reflexivity.
Qed.
End Ops.

Section Programs.
Context {T : Type} {PF : Platform} {OT : Ord T} {ST : Step T} {NU : Numbered T} {SL : StepLaws T} (t0 : T).

(** The iterator [i] will yield the elements [P]. *)
Definition yields (i : iter T) (P : T -> Prop) : Prop :=
  match i with
  | JBR i => exists l, holds i l /\ lists P l
  | JBS i => exists l, holds_set i l /\ lists P l
  | JLBR i => forall t, P t <-> le (lbri_current i) t
  | JLBS i => exists l, holds_set (lbsi_set_iter i) l /\ StronglySorted lt l /\
      (forall t, In t l -> lt t (lbri_current (lbsi_range_iter i))) /\ forall t, P t <-> In t l \/ le (lbri_current (lbsi_range_iter i)) t
  end.
Definition means (c : cval T) (x : meaning T) : Prop :=
  match c, x with
  | CSet v, MSet k P => stands v k P
  | CElt t, MElt u => t = u
  | CIter i, MLeft d P => double i = d /\ yields i P
  | _, _ => False
  end.
Definition rel (s : state T) (w : world T) : Prop := Forall2 (fun p q => fst p = fst q /\ means (snd p) (snd q)) s w.

Lemma rel_cons s w x c y : means c y -> rel s w -> rel ((x, c) :: s) ((x, y) :: w).
Proof. intros F H. constructor; [now split|exact H]. Qed.
Lemma rel_get s w x : rel s w -> match get x s, get x w with Some c, Some y => means c y | None, None => True | _, _ => False end.
Proof. induction 1 as [|[y c] [z m] s w [E F] _ IH]; cbn in *; [exact Logic.I|]. subst z. now destruct (String.eqb x y). Qed.
Lemma rel_set s w x c y : rel s w -> means c y -> rel (set x c s) (set x y w).
Proof.
  intros H F. induction H as [|[z d] [z' m] s w [E F'] H IH]; cbn in *; [constructor|]. subst z'.
  destruct (String.eqb x z); [exact (Forall2_cons (z, c) (z, y) (conj eq_refl F) H)|].
  exact (Forall2_cons (z, d) (z, m) (conj eq_refl F') IH).
Qed.
Lemma rel_length s w : rel s w -> length s = length w.
Proof. induction 1; cbn; auto. Qed.
Lemma rel_oldest s w n : rel s w -> rel (oldest n s) (oldest n w).
Proof.
  intros H. unfold oldest. rewrite (rel_length _ _ H). generalize (length w - n)%nat as j. intros j. revert s w H.
  induction j as [|j IH]; intros s w H; [exact H|]. destruct H; [constructor|]. cbn [skipn]. now apply IH.
Qed.
Lemma rel_elt s w x t : rel s w -> melt w x = Some t -> elt s x = done t.
Proof.
  intros H E. pose proof (rel_get s w x H) as G. unfold melt in E. unfold elt. destruct (get x w) as [[]|]; try discriminate.
  injection E as ->. destruct (get x s) as [[]|]; cbn [means] in G; try contradiction. now subst.
Qed.
Lemma both_some {A B C : Type} (f : A -> B -> option C) a b c : both f a b = Some c -> exists x y, a = Some x /\ b = Some y /\ f x y = Some c.
Proof. destruct a, b; try discriminate. cbn. eauto 6. Qed.

Lemma le_point (t : T) p : cmp (point t) p <> Gt <-> le (point t) p.
Proof. reflexivity. Qed.
Lemma mset_ok s w a k P : rel s w -> mset w a = Some (k, P) -> exists v, sval s a = done v /\ stands v k P.
Proof.
  intros H. revert k P. induction a as [x|x y|x y|x|x|x| |a IHa b IHb|a IHa b IHb|a IHa|a IHa|a IHa]; intros k P E; cbn [mset sval] in *.
  - pose proof (rel_get s w x H) as G. destruct (get x w) as [[l Q| |]|]; try discriminate. injection E as <- <-.
    destruct (get x s) as [[v| |]|]; cbn [means] in G; try contradiction. exists v. split; [reflexivity|exact G].
  - apply both_some in E as (t & u & X & Y & E). injection E as <- <-.
    rewrite (rel_elt _ _ _ _ H X), (rel_elt _ _ _ _ H Y). cbn [andthen done]. eexists. split; [reflexivity|].
    split; [constructor|]. split; [exact Logic.I|]. split; [reflexivity|]. intros p. reflexivity.
  - apply both_some in E as (t & u & X & Y & E). injection E as <- <-.
    rewrite (rel_elt _ _ _ _ H X), (rel_elt _ _ _ _ H Y). cbn [andthen done]. eexists. split; [reflexivity|].
    split; [constructor|]. split; [reflexivity|]. split; [reflexivity|]. intros p. reflexivity.
  - destruct (melt w x) as [t|] eqn:X; [|discriminate]. injection E as <- <-. rewrite (rel_elt _ _ _ _ H X). cbn [andthen done].
    eexists. split; [reflexivity|]. split; [constructor|]. split; [exact Logic.I|]. split; [reflexivity|]. intros p. reflexivity.
  - destruct (melt w x) as [t|] eqn:X; [|discriminate]. injection E as <- <-. rewrite (rel_elt _ _ _ _ H X). cbn [andthen done].
    eexists. split; [reflexivity|]. split; [constructor|]. split; [exact Logic.I|]. split; [reflexivity|]. intros p. reflexivity.
  - destruct (melt w x) as [t|] eqn:X; [|discriminate]. injection E as <- <-. rewrite (rel_elt _ _ _ _ H X). cbn [andthen done].
    eexists. split; [reflexivity|]. split; [constructor|]. split; [exact Logic.I|]. split; [reflexivity|]. intros p. reflexivity.
  - injection E as <- <-. eexists. split; [reflexivity|]. split; [constructor|]. split; [exact Logic.I|]. split; [reflexivity|]. intros p. reflexivity.
  - apply both_some in E as ([l A] & [l' B] & X & Y & E). injection E as <- <-. destruct (IHa _ _ X) as (v & -> & Sv), (IHb _ _ Y) as (v' & -> & Sv').
    cbn [andthen done fst snd]. destruct (st_union _ _ _ _ _ _ Sv Sv') as (x & -> & Sx). eexists. split; [reflexivity|exact Sx].
  - apply both_some in E as ([l A] & [l' B] & X & Y & E). cbn [fst snd] in E. destruct (both_lbs l l') eqn:D; [discriminate|]. injection E as <- <-.
    destruct (IHa _ _ X) as (v & -> & Sv), (IHb _ _ Y) as (v' & -> & Sv').
    cbn [andthen done fst snd]. destruct (st_inter _ _ _ _ _ _ D Sv Sv') as (x & -> & Sx). eexists. split; [reflexivity|exact Sx].
  - destruct (mset w a) as [[l A]|]; [|discriminate]. injection E as <- <-. destruct (IHa _ _ eq_refl) as (v & -> & Sv). cbn [andthen done fst snd].
    destruct (st_compl _ _ _ Sv) as (x & -> & Sx). eexists. split; [reflexivity|exact Sx].
  - destruct (mset w a) as [[l A]|]; [|discriminate]. injection E as <- <-. destruct (IHa _ _ eq_refl) as (v & -> & Sv). cbn [andthen done fst snd].
    eexists. split; [reflexivity|]. now apply st_inner.
  - destruct (mset w a) as [[l A]|]; [|discriminate]. injection E as <- <-. destruct (IHa _ _ eq_refl) as (v & -> & Sv). cbn [andthen done fst snd].
    eexists. split; [reflexivity|]. now apply st_set.
Qed.
Lemma has_point v k P t : stands v k P -> contains v t = true <-> P (point t).
Proof. intros (_ & _ & _ & C). rewrite contains_mem, <- covers_point. apply C. Qed.
Lemma mcond_ok s w c Q : rel s w -> mcond w c = Some Q -> exists b, cval_of s c = done b /\ (b = true <-> Q).
Proof.
  intros H. revert Q. induction c as [a|a x|a b|a b|x y|x y|c IH|c IHc d IHd|c IHc d IHd]; intros Q E; cbn [mcond cval_of] in *.
  - destruct (mset w a) as [[k A]|] eqn:X; [|discriminate]. injection E as <-. destruct (mset_ok _ _ _ _ _ H X) as (v & -> & Sv).
    cbn [andthen done snd]. eexists. split; [reflexivity|]. destruct Sv as (_ & F & _ & C). rewrite (is_empty_filled t0 v F).
    split; intros N p; specialize (N p); rewrite C in *; exact N.
  - apply both_some in E as ([k A] & t & X & Y & E). injection E as <-. destruct (mset_ok _ _ _ _ _ H X) as (v & -> & Sv).
    rewrite (rel_elt _ _ _ _ H Y). cbn [andthen done snd]. eexists. split; [reflexivity|]. exact (has_point _ _ _ t (st_inner _ _ _ Sv)).
  - apply both_some in E as ([k A] & [l B] & X & Y & E). injection E as <-. destruct (mset_ok _ _ _ _ _ H X) as (v & -> & Sv), (mset_ok _ _ _ _ _ H Y) as (v' & -> & Sv').
    cbn [andthen done snd]. destruct Sv as (_ & F & _ & C), Sv' as (_ & F' & _ & C').
    destruct (disjoint_facts v v') as (d & D1 & _ & D2 & _). rewrite D1. exists d. split; [reflexivity|].
    pose proof (intersects_filled t0 v v' F F') as I. rewrite D2 in I. split.
    + intros -> p [Pa Pb]. assert (J : Ret (negb true) = Ret true); [apply I; exists p; rewrite C, C'; auto|discriminate].
    + intros N. destruct d; [reflexivity|]. destruct (proj1 I eq_refl) as (p & Pa & Pb). destruct (N p). rewrite <- C, <- C'. auto.
  - apply both_some in E as ([k A] & [l B] & X & Y & E). injection E as <-. destruct (mset_ok _ _ _ _ _ H X) as (v & -> & Sv), (mset_ok _ _ _ _ _ H Y) as (v' & -> & Sv').
    cbn [andthen done snd]. destruct Sv as (_ & F & _ & C), Sv' as (_ & F' & _ & C').
    destruct (disjoint_facts v v') as (d & D1 & _ & D2 & _). pose proof (intersects_filled t0 v v' F F') as I. rewrite D2 in *. exists (negb d). split; [reflexivity|].
    split.
    + intros E. rewrite E in I. destruct (proj1 I eq_refl) as (p & Pa & Pb). exists p. rewrite <- C, <- C'. auto.
    + intros (p & Pa & Pb). assert (J : Ret (negb d) = Ret true); [apply I; exists p; rewrite C, C'; auto|congruence].
  - apply both_some in E as (t & u & X & Y & E). injection E as <-. rewrite (rel_elt _ _ _ _ H X), (rel_elt _ _ _ _ H Y). cbn [andthen done].
    eexists. split; [reflexivity|]. rewrite t_lt_idx, lt_idx. apply Z.ltb_lt.
  - apply both_some in E as (t & u & X & Y & E). injection E as <-. rewrite (rel_elt _ _ _ _ H X), (rel_elt _ _ _ _ H Y). cbn [andthen done].
    eexists. split; [reflexivity|]. apply teq_cmp.
  - destruct (mcond w c) as [A|]; [|discriminate]. injection E as <-. destruct (IH _ eq_refl) as (b & -> & B). cbn [andthen done].
    eexists. split; [reflexivity|]. rewrite negb_true_iff, <- B. destruct b; split; congruence.
  - apply both_some in E as (A & B & X & Y & E). injection E as <-. destruct (IHc _ X) as (b & -> & Hb), (IHd _ Y) as (d' & -> & Hd). cbn [andthen done].
    destruct b; eexists; (split; [reflexivity|]); rewrite <- Hb, <- Hd; [tauto|]. split; [discriminate|intros [? _]; discriminate].
  - apply both_some in E as (A & B & X & Y & E). injection E as <-. destruct (IHc _ X) as (b & -> & Hb), (IHd _ Y) as (d' & -> & Hd). cbn [andthen done].
    destruct b; eexists; (split; [reflexivity|]); rewrite <- Hb, <- Hd; [tauto|]. split; [auto|intros [?|?]; [discriminate|assumption]].
Qed.

(** *** Iterators *)
Lemma lists_hd P (x : T) l : lists P (x :: l) -> first P x /\ lists (fun y => P y /\ lt x y) l.
Proof.
  intros [Ss M]. apply StronglySorted_inv in Ss as [Ss F]. rewrite Forall_forall in F. split; [split|split].
  - apply M. now left.
  - intros u Pu. apply M in Pu as [<-|I]; [apply le_idx; lia|]. specialize (F u I). rewrite le_idx. rewrite lt_idx in F. lia.
  - exact Ss.
  - intros t. rewrite <- M. split; [intros I; split; [now right|now apply F]|]. intros [[<-|I] L]; [|exact I].
    rewrite lt_idx in L. lia.
Qed.
Definition next_ok (P : T -> Prop) (o : outcome (option T * iter T)) : Prop :=
  match o with
  | Ret (None, i) => (forall t, ~ P t) /\ yields i P
  | Ret (Some t, i) => first P t /\ ~ greatest t /\ yields i (fun u => P u /\ lt t u)
  | Panic => exists t, first P t /\ greatest t
  | Diverge => False
  end.
Lemma lbri_ok (i : LowerBoundedRangeIter T) :
  (exists j, lbri_next Debug i = Ret (Some (lbri_current i), j) /\ ~ greatest (lbri_current i) /\
     forall t, le (lbri_current j) t <-> le (lbri_current i) t /\ lt (lbri_current i) t) \/
  (lbri_next Debug i = Panic /\ greatest (lbri_current i)).
Proof.
  unfold lbri_next. destruct (fwd_cases (lbri_current i) 1 one_ok) as [(b & -> & Hb)|[-> Hb]]; cbn [bind].
  - left. eexists. split; [reflexivity|]. split.
    + intros G. specialize (G b). rewrite le_idx in G. lia.
    + intros t. cbn [lbri_current]. rewrite !le_idx, lt_idx. lia.
  - right. split; [reflexivity|]. intros u. apply le_idx. specialize (Hb u). lia.
Qed.
Lemma next_yields i P : yields i P -> next_ok P (next Debug i).
Proof.
  destruct i as [i|i|i|i]; cbn [yields next].
  - intros (l & H & L). pose proof (next_panics i l H) as Pn. destruct (bri_next Debug i) as [[o i']| |] eqn:E; cbn [bind next_ok fst snd].
    + destruct (next_refines i l o i' H E) as [-> H']. destruct l as [|x l]; cbn [hd_error].
      * split; [intros t Pt; now apply L in Pt|]. exists []. split; [exact H'|exact L].
      * destruct (lists_hd P x l L) as [Fs Ls]. split; [exact Fs|]. split; [|now exists l].
        intros G. assert (X : Ret (Some x, i') = Panic) by (apply Pn; eauto). discriminate.
    + destruct (proj1 Pn eq_refl) as (x & l' & -> & G). exists x. split; [apply (lists_hd P x l' L)|exact G].
    + now apply next_not_diverge in E.
  - intros (l & H & L). destruct (bsi_next_cases i l H) as [(i' & -> & H' & G)|(-> & x & l' & -> & G)]; cbn [bind next_ok fst snd].
    + destruct l as [|x l]; cbn [hd_error].
      * split; [intros t Pt; now apply L in Pt|]. exists []. split; [exact H'|exact L].
      * destruct (lists_hd P x l L) as [Fs Ls]. split; [exact Fs|]. split; [now apply (G x l)|now exists l].
    + exists x. split; [apply (lists_hd P x l' L)|exact G].
  - intros H. destruct (lbri_ok i) as [(j & -> & G & J)|[-> G]]; cbn [bind next_ok fst snd].
    + split; [split; [apply H, le_idx; lia|intros u; apply H]|]. split; [exact G|]. cbn [yields]. intros t. rewrite H. symmetry. apply J.
    + exists (lbri_current i). split; [split; [apply H, le_idx; lia|intros u; apply H]|exact G].
  - intros (l & H & Ss & B & M). unfold lbsi_next. destruct (bsi_next_cases _ l H) as [(i' & -> & H' & G)|(-> & x & l' & -> & G)]; cbn [bind fst snd].
    + destruct l as [|x l]; cbn [hd_error tl] in *.
      * destruct (lbri_ok (lbsi_range_iter i)) as [(j & -> & Gr & J)|[-> Gr]]; cbn [bind next_ok fst snd].
        -- split; [split; [apply M; right; apply le_idx; lia|intros u Pu; apply M in Pu as [[]|?]; assumption]|]. split; [exact Gr|].
           cbn [yields lbsi_set_iter lbsi_range_iter]. exists []. split; [exact H'|]. split; [constructor|]. split; [intros t []|].
           intros t. rewrite J, M. cbn [In]. tauto.
        -- exists (lbri_current (lbsi_range_iter i)). split; [|exact Gr].
           split; [apply M; right; apply le_idx; lia|intros u Pu; apply M in Pu as [[]|?]; assumption].
      * cbn [bind next_ok fst snd]. pose proof (B x (or_introl eq_refl)) as Bx. rewrite lt_idx in Bx.
        apply StronglySorted_inv in Ss as [Ss F]. rewrite Forall_forall in F. split; [|split; [now apply (G x l)|]].
        -- split; [apply M; left; now left|]. intros u Pu. apply M in Pu as [[<-|I]|C]; [apply le_idx; lia| |rewrite le_idx in *; lia].
           specialize (F u I). rewrite lt_idx in F. rewrite le_idx. lia.
        -- cbn [yields lbsi_set_iter lbsi_range_iter]. exists l. split; [exact H'|]. split; [exact Ss|]. split; [intros t I; apply B; now right|].
           intros t. rewrite M. split.
           ++ intros [[[<-|I]|C] L]; [rewrite lt_idx in L; lia|now left|now right].
           ++ intros [I|C]; [split; [left; now right|now apply F]|]. split; [now right|]. rewrite lt_idx. rewrite le_idx in C. lia.
    + cbn [next_ok]. exists x. split; [|exact G]. pose proof (B x (or_introl eq_refl)) as Bx. rewrite lt_idx in Bx.
      apply StronglySorted_inv in Ss as [Ss F]. rewrite Forall_forall in F.
      split; [apply M; left; now left|]. intros u Pu. apply M in Pu as [[<-|I]|C]; [apply le_idx; lia| |rewrite le_idx in *; lia].
      specialize (F u I). rewrite lt_idx in F. rewrite le_idx. lia.
Qed.

Lemma lists_last P (x : T) l k : lists P l -> rev l = x :: k -> final P x /\ lists (fun y => P y /\ lt y x) (rev k).
Proof.
  intros L R. assert (E : l = rev k ++ [x]) by (rewrite <- (rev_involutive l), R; reflexivity). subst l. clear R. destruct L as [Ss M].
  assert (F : StronglySorted lt (rev k) /\ forall y, In y (rev k) -> lt y x).
  { clear M. revert Ss. generalize (rev k) as q. induction q as [|y q IH]; cbn [app]; intros Ss; [split; [constructor|intros y []]|].
    apply StronglySorted_inv in Ss as [Ss F]. destruct (IH Ss) as [S2 H2]. rewrite Forall_forall in F. split.
    - constructor; [exact S2|]. apply Forall_forall. intros z I. apply F, in_or_app. now left.
    - intros z [<-|I]; [apply F, in_or_app; right; now left|now apply H2]. }
  destruct F as [S2 F]. split; [split|split].
  - apply M, in_or_app. right. now left.
  - intros u Pu. apply M, in_app_or in Pu as [I|[<-|[]]]; [|apply le_idx; lia]. specialize (F u I). rewrite lt_idx in F. rewrite le_idx. lia.
  - exact S2.
  - intros t. rewrite <- M. split; [intros I; split; [apply in_or_app; now left|now apply F]|]. intros [I Lt]. apply in_app_or in I as [I|[<-|[]]]; [exact I|].
    rewrite lt_idx in Lt. lia.
Qed.
Lemma rev_nil {A : Type} (l : list A) : rev l = [] -> l = [].
Proof. intros E. now rewrite <- (rev_involutive l), E. Qed.
Definition take_ok (k : bool) (P : T -> Prop) (o : outcome (option T * iter T)) : Prop :=
  match o with
  | Ret (None, i) => (forall t, ~ P t) /\ yields i P
  | Ret (Some t, i) => end_of k P t /\ ~ extreme k t /\ yields i (fun u => P u /\ beyond k t u)
  | Panic => exists t, end_of k P t /\ extreme k t
  | Diverge => False
  end.
Lemma take_yields k i P o : yields i P -> take Debug k i = Some o -> take_ok k P o.
Proof.
  destruct k; cbn [take]; [|intros Y E; injection E as <-; pose proof (next_yields i P Y) as K; destruct (next Debug i) as [[[t|] i']| |]; exact K].
  destruct i as [i|i|i|i]; cbn [yields next_back]; try discriminate; intros (l & H & L) [= <-].
  - pose proof (next_back_panics i l H) as Pn. destruct (bri_next_back Debug i) as [[o i']| |] eqn:E; cbn [bind take_ok fst snd].
    + destruct (next_back_refines i l o i' H E) as [-> H']. destruct (rev l) as [|x k] eqn:R; cbn [hd_error tl] in *.
      * apply rev_nil in R. subst l. split; [intros t Pt; now apply L in Pt|]. exists []. split; [exact H'|exact L].
      * destruct (lists_last P x l k L R) as [Fs Ls]. split; [exact Fs|]. split; [|now exists (rev k)].
        intros G. assert (X : Ret (Some x, i') = Panic) by (apply Pn; eauto). discriminate.
    + destruct (proj1 Pn eq_refl) as (x & k & R & G). exists x. split; [exact (proj1 (lists_last P x l k L R))|exact G].
    + now apply next_back_not_diverge in E.
  - destruct (bsi_next_back_cases i l H) as [(i' & -> & H' & G)|(-> & x & k & R & G)]; cbn [bind take_ok fst snd].
    + destruct (rev l) as [|x k] eqn:R; cbn [hd_error tl] in *.
      * apply rev_nil in R. subst l. split; [intros t Pt; now apply L in Pt|]. exists []. split; [exact H'|exact L].
      * destruct (lists_last P x l k L R) as [Fs Ls]. split; [exact Fs|]. split; [now apply (G x k)|now exists (rev k)].
    + exists x. split; [exact (proj1 (lists_last P x l k L R))|exact G].
Qed.

Lemma last_greatest (d : T) k : StronglySorted lt k -> forall t, In t k -> le t (last k d).
Proof.
  induction k as [|y k IH]; intros Ss t I; [destruct I|].
  apply StronglySorted_inv in Ss as [Ss F]. rewrite Forall_forall in F. destruct k as [|z k]; [destruct I as [<-|[]]; apply le_idx; cbn [last]; lia|].
  change (last (y :: z :: k) d) with (last (z :: k) d). destruct I as [<-|I]; [|now apply IH].
  specialize (IH Ss z (or_introl eq_refl)). specialize (F z (or_introl eq_refl)). rewrite lt_idx in F. rewrite le_idx in *. lia.
Qed.
(** A piece is small or big. *)
Lemma piece_size (r : BoundedRange T) : small (in_range r) \/ big (in_range r).
Proof.
  destruct (range_listing r) as [l L]. destruct (Z_le_gt_dec (Z.of_nat (length l)) usize_max) as [S|S].
  - left. intros k K. now rewrite (lists_unique _ _ _ K L).
  - right. pose proof usize_max_ge as Ug. destruct l as [|x l]; [cbn in S; lia|].
    exists x, (last (x :: l) x), (x :: l). split; [|split; [intros t; apply L|lia]].
    destruct L as [Ss M]. split; [exact Ss|]. intros t.
    assert (La : In (last (x :: l) x) (x :: l)).
    { clear. assert (X : forall (d y : T) k, In (last (y :: k) d) (y :: k)); [|apply X].
      intros d y k. revert y. induction k as [|z k IH]; intros y; [now left|]. right. exact (IH z). }
    split.
    + intros I. split.
      * apply StronglySorted_inv in Ss as [_ F]. rewrite Forall_forall in F. destruct I as [<-|I]; [apply le_idx; lia|].
        specialize (F t I). rewrite lt_idx in F. rewrite le_idx. lia.
      * exact (last_greatest x (x :: l) Ss t I).
    + intros [A B]. apply M. apply M in La as [_ Lb]. pose proof (proj1 (M x) (or_introl eq_refl)) as [Ha _].
      split.
      * destruct (br_start r) as [[s|s]]; cbn [above] in *; rewrite ?lt_idx, ?le_idx in *; lia.
      * destruct (br_end r) as [[s|s]]; cbn [below] in *; rewrite ?lt_idx, ?le_idx in *; lia.
Qed.
Lemma pieces_size (l : list (BoundedRange T)) : (forall r, In r l -> small (in_range r)) \/ big (in_pieces l).
Proof.
  induction l as [|r l IH]; [left; intros r []|]. destruct (piece_size r) as [S|B].
  - destruct IH as [IH|(a & b & k & L & M & N)].
    + left. intros q [<-|I]; auto.
    + right. exists a, b, k. split; [exact L|]. split; [|exact N]. intros t I. destruct (M t I) as (q & Iq & Jq). exists q. split; [now right|exact Jq].
  - right. destruct B as (a & b & k & L & M & N). exists a, b, k. split; [exact L|]. split; [|exact N]. intros t I. exists r. split; [now left|now apply M].
Qed.
Lemma big_more (P Q : T -> Prop) : big P -> (forall t, P t -> Q t) -> big Q.
Proof. intros (a & b & k & L & M & N) H. exists a, b, k. split; [exact L|]. split; [auto|exact N]. Qed.

Lemma into_yields v k P : stands v k P ->
  iterates k = false \/ (is_set k = true /\ big (fun t => P (point t))) \/
  (iterates k = true /\ match into_iter Debug v with
   | Some (Ret i) => yields i (fun t => P (point t))
   | Some Panic => may_not_start k (fun t => P (point t))
   | _ => False
   end).
Proof.
  intros (A & F & <- & C). assert (Pm : forall t, P (point t) <-> mem v t) by (intros t; rewrite <- C; apply covers_point).
  destruct v as [r|r|r|r|r|r|r|r|r|r|r|s|s|s|s]; try (left; reflexivity); right.
  - right. split; [reflexivity|]. cbn [into_iter]. destruct (br_into_iter Debug r) as [i| |] eqn:E; cbn [bind yields may_not_start kind_of].
    + destruct (range_listing r) as [l L]. exists l. split; [now apply (into_iter_holds r i l E)|].
      eapply lists_ext; [intros t; symmetry; apply Pm|exact L].
    + split.
      * intros t Pt. apply Pm in Pt. destruct (into_iter_inhabited r t Pt). congruence.
      * apply into_iter_panics in E as [(t & _ & G)|(t & _ & G)]; eauto.
    + now apply into_iter_not_diverge in E.
  - right. split; [reflexivity|]. cbn [into_iter]. destruct (lbr_into_iter Debug r) as [i| |] eqn:E; cbn [bind yields may_not_start kind_of].
    + intros t. rewrite Pm. cbn [mem]. rewrite le_idx. now apply lbr_into_iter_spec.
    + apply lbr_into_iter_panics in E as (t & E & G). split; [|eauto]. intros u Pu. apply Pm in Pu. cbn [mem] in Pu. rewrite E in Pu.
      cbn [above] in Pu. specialize (G u). rewrite le_idx in G. rewrite lt_idx in Pu. lia.
    + unfold lbr_into_iter in E. destruct (lbr_start r) as [[t|t]]; [|discriminate].
      destruct (fwd_cases t 1 one_ok) as [(b & Fb & _)|[Fb _]]; rewrite Fb in E; discriminate.
  - destruct (pieces_size (bs_ranges s)) as [Sm|B].
    + right. split; [reflexivity|]. destruct (bs_into_iter_holds s (api_valid _ A) Sm) as (i & l & E & H & L).
      cbn [into_iter]. rewrite E. cbn [bind yields]. exists l. split; [exact H|]. eapply lists_ext; [intros t; symmetry; apply Pm|exact L].
    + left. split; [reflexivity|]. eapply big_more; [exact B|]. intros t. apply Pm.
  - destruct (pieces_size (bs_ranges (lbs_ranges s))) as [Sm|B].
    + right. split; [reflexivity|]. pose proof (api_valid _ A) as [V Pr].
      destruct (bs_into_iter_holds (lbs_ranges s) V Sm) as (i & l & E & H & L).
      cbn [into_iter]. unfold lbs_into_iter. rewrite E. cbn [bind]. destruct (lbr_into_iter Debug (lbs_lbr s)) as [j| |] eqn:Ej; cbn [bind yields may_not_start kind_of].
      * exists l. cbn [lbsi_set_iter lbsi_range_iter]. split; [exact H|]. destruct L as [Ss M]. split; [exact Ss|].
        pose proof (lbr_into_iter_spec _ _ Ej) as Sp. split.
        -- intros t I. apply M in I as (r & Ir & Jr). specialize (Pr r Ir). rewrite lt_idx.
           destruct (Z_lt_le_dec (idx t) (idx (lbri_current j))) as [?|Le]; [assumption|exfalso]. apply Sp in Le.
           destruct Jr as [_ Jr]. destruct (br_end r) as [[e|e]], (lbr_start (lbs_lbr s)) as [[q|q]]; cbn [below above precedes] in *;
             rewrite ?lt_idx, ?le_idx in *; lia.
        -- intros t. rewrite Pm, M. cbn [mem]. rewrite le_idx, <- Sp. reflexivity.
      * apply lbr_into_iter_panics in Ej as (t & _ & G). eauto.
      * unfold lbr_into_iter in Ej. destruct (lbr_start (lbs_lbr s)) as [[t|t]]; [|discriminate].
        destruct (fwd_cases t 1 one_ok) as [(b & Fb & _)|[Fb _]]; rewrite Fb in Ej; discriminate.
    + left. split; [reflexivity|]. eapply big_more; [exact B|]. intros t Pt. apply Pm. now left.
Qed.

(** *** Programs *)
(** [q] says what [r] is, or says nothing. *)
Definition agree {A B : Type} (R : A -> B -> Prop) (r : result A) (q : result B) : Prop :=
  match q with
  | None => True
  | Some (Ret y) => match r with Some (Ret x) => R x y | _ => False end
  | Some Panic => r = Some Panic
  | Some Diverge => False
  end.
Definition rel_end (x : ending * state T) (y : ending * world T) : Prop := fst x = fst y /\ rel (snd x) (snd y).

Lemma fails_done {A B : Type} (a : A) (r : result B) : ~ fails (done a) r.
Proof. intros F. inversion F. Qed.
Lemma left_or s w x i : rel s w -> get x s = Some (CIter i) -> exists P, get x w = Some (MLeft (double i) P) /\ yields i P.
Proof. intros H G. pose proof (rel_get s w x H) as M. rewrite G in M. destruct (get x w) as [[]|]; try destruct M as []. subst. eauto. Qed.

Lemma set_same {A : Type} x (a : A) l : get x l = Some a -> set x a l = l.
Proof. induction l as [|[y c] l IH]; cbn [get set]; [reflexivity|]. destruct (String.eqb x y); intros G; [now injection G as ->|]. now rewrite IH. Qed.

Lemma take_none k (i : iter T) : take Debug k i = None <-> implb k (double i) = false.
Proof. destruct k, i; cbn; split; discriminate || reflexivity. Qed.
(** What the spec says of a [next] on [x]. *)
Lemma take_rel s w k x i t : rel s w -> get x s = Some (CIter i) ->
  match take Debug k i with
  | Some (Ret (o, i')) => exists y, mtake k w x (done (o, y)) /\ rel (taken x t o i' s) (mtaken x t o y w)
  | Some Panic => mtake k w x (Some Panic)
  | Some Diverge => False
  | None => mtake k w x None
  end.
Proof.
  intros H G. destruct (left_or s w x i H G) as (P & Gw & Y). destruct (take Debug k i) as [o|] eqn:E.
  - assert (D : implb k (double i) = true) by (destruct (implb k (double i)) eqn:D; [reflexivity|]; apply take_none in D; congruence).
    pose proof (take_yields k i P o Y E) as K. destruct o as [[[u|] i']| |]; cbn [take_ok] in K; try contradiction.
    + destruct K as (K1 & K2 & K3). eexists. split; [eapply t_some; eauto|]. cbn [taken mtaken]. apply rel_cons; [reflexivity|]. apply rel_set; [exact H|].
      split; [exact (take_double Debug k i _ _ E)|exact K3].
    + destruct K as (K1 & K2). eexists. split; [eapply t_none; eauto|]. cbn [taken mtaken]. apply rel_set; [exact H|].
      split; [exact (take_double Debug k i _ _ E)|exact K2].
    + destruct K as (u & K1 & K2). eapply t_panic; eauto.
  - apply t_wrong. intros d Q Gq. rewrite Gw in Gq. injection Gq as <- _. now apply take_none.
Qed.
Lemma sound :
  (forall s b r, brun Debug s b r -> forall w, rel s w -> exists q, mrun w b q /\ agree rel_end r q) /\
  (forall s t body r, frun Debug s t body r -> forall w, rel s w -> exists q, mloop w t body q /\ agree rel r q) /\
  (forall s body r, lrun Debug s body r -> forall w, rel s w -> exists q, mturns w body q /\ agree rel r q).
Proof.
  apply brun_frun_ind.
  - intros s w H. eexists. split; [constructor|]. now split.
  - intros s w H. eexists. split; [constructor|]. now split.
  - intros s x a v b r E B IH w H. destruct (mset w a) as [[k P]|] eqn:M; [|exists None; split; [now apply m_let_none|exact I]].
    destruct (mset_ok _ _ _ _ _ H M) as (v' & E' & Sv). rewrite E in E'. injection E' as <-.
    destruct (IH ((x, MSet k P) :: w)) as (q & R & G); [now apply rel_cons|]. exists q. split; [eapply m_let; eauto|exact G].
  - intros s x a b r F w H. destruct (mset w a) as [[k P]|] eqn:M; [|exists None; split; [now apply m_let_none|exact I]].
    destruct (mset_ok _ _ _ _ _ H M) as (v' & E' & Sv). rewrite E' in F. now apply fails_done in F.
  - intros s x a wv v b r E G B IH w H. destruct (mset w a) as [[k P]|] eqn:M; [|exists None; split; [now apply m_put_none|exact I]].
    destruct (mset_ok _ _ _ _ _ H M) as (v' & E' & Sv). rewrite E in E'. injection E' as <-.
    pose proof (rel_get s w x H) as Gx. rewrite G in Gx. destruct (get x w) as [[l Q| |]|] eqn:Gw; try destruct Gx as [].
    destruct (IH (set x (MSet k P) w)) as (q & R & A); [now apply rel_set|]. exists q. split; [eapply m_put; eauto|exact A].
  - intros s x a v b E G w H. exists None. split; [|exact I]. apply m_put_wrong. intros l Q Gw. pose proof (rel_get s w x H) as Gx. rewrite Gw in Gx.
    destruct (get x s) as [[v'| |]|] eqn:Gs; try destruct Gx as []. now apply (G v').
  - intros s x a b r F w H. destruct (mset w a) as [[k P]|] eqn:M; [|exists None; split; [now apply m_put_none|exact I]].
    destruct (mset_ok _ _ _ _ _ H M) as (v' & E' & Sv). rewrite E' in F. now apply fails_done in F.
  - intros s c t b1 b2 s' b r E B1 IH1 B2 IH2 w H. destruct (mcond w c) as [Q|] eqn:M; [|exists None; split; [now apply m_if_none|exact I]].
    destruct (mcond_ok _ _ _ _ H M) as (t' & E' & Ht). rewrite E in E'. injection E' as <-.
    destruct (IH1 w H) as ([[[[] w']| |]|] & R & A); cbn [agree] in A; try (destruct A as [A _]; discriminate A); try discriminate A; try (destruct A; fail).
    + destruct A as [_ A]. cbn [snd] in A. destruct (IH2 (oldest (length w) w')) as (q & R2 & A2); [rewrite <- (rel_length _ _ H); now apply rel_oldest|].
      exists q. split; [eapply m_if; eauto|exact A2].
    + exists None. split; [eapply m_if_stop; eauto; constructor|exact I].
  - intros s c t b1 b2 s' b E B1 IH1 w H. destruct (mcond w c) as [Q|] eqn:M; [|exists None; split; [now apply m_if_none|exact I]].
    destruct (mcond_ok _ _ _ _ H M) as (t' & E' & Ht). rewrite E in E'. injection E' as <-.
    destruct (IH1 w H) as ([[[[] w']| |]|] & R & A); cbn [agree] in A; try (destruct A as [A _]; discriminate A); try discriminate A; try (destruct A; fail).
    + destruct A as [_ A]. cbn [snd] in A. eexists. split; [eapply m_if_break; eauto|]. split; [reflexivity|]. cbn [snd]. rewrite (rel_length _ _ H). now apply rel_oldest.
    + exists None. split; [eapply m_if_stop; eauto; constructor|exact I].
  - intros s c t b1 b2 b r0 r E B1 IH1 F w H. destruct (mcond w c) as [Q|] eqn:M; [|exists None; split; [now apply m_if_none|exact I]].
    destruct (mcond_ok _ _ _ _ H M) as (t' & E' & Ht). rewrite E in E'. injection E' as <-.
    destruct (IH1 w H) as ([[e| |]|] & R & A); cbn [agree] in A; try (destruct A; fail).
    + inversion F; subst; destruct A.
    + subst r0. inversion F; subst. exists (Some Panic). split; [eapply m_if_stop; eauto; constructor|reflexivity].
    + exists None. split; [eapply m_if_stop; eauto; constructor|exact I].
  - intros s c b1 b2 b r F w H. destruct (mcond w c) as [Q|] eqn:M; [|exists None; split; [now apply m_if_none|exact I]].
    destruct (mcond_ok _ _ _ _ H M) as (t' & E' & Ht). rewrite E' in F. now apply fails_done in F.
  - intros s t a v i body s' b r E Ii F IH1 B IH2 w H. destruct (mset w a) as [[k P]|] eqn:M; [|exists None; split; [now apply m_for_none|exact I]].
    destruct (mset_ok _ _ _ _ _ H M) as (v' & E' & Sv). rewrite E in E'. injection E' as <-.
    destruct (into_yields v k P Sv) as [W|[[W Bg]|[W Y]]]; [exists None; split; [eapply m_for_wrong; eauto|exact I]|exists None; split; [eapply m_for_big; eauto|exact I]|].
    pose proof (into_double Debug v i Ii) as [Di _]. unfold done in Ii. rewrite Ii in Y.
    destruct (IH1 ((it_var, MLeft (two_ended k) (fun t => P (point t))) :: w)) as ([[w'| |]|] & R & A); [apply rel_cons; [split; [rewrite Di, (proj1 (proj2 (proj2 Sv))); reflexivity|exact Y]|exact H]|..]; cbn [agree] in A; try (destruct A; fail); try discriminate A.
    + destruct (IH2 (oldest (length w) w')) as (q & R2 & A2); [rewrite <- (rel_length _ _ H); now apply rel_oldest|].
      exists q. split; [eapply m_for; eauto|exact A2].
    + exists None. split; [eapply m_for_stop; eauto; constructor|exact I].
  - intros s t a v i body b r0 r E Ii F IH1 Fl w H. destruct (mset w a) as [[k P]|] eqn:M; [|exists None; split; [now apply m_for_none|exact I]].
    destruct (mset_ok _ _ _ _ _ H M) as (v' & E' & Sv). rewrite E in E'. injection E' as <-.
    destruct (into_yields v k P Sv) as [W|[[W Bg]|[W Y]]]; [exists None; split; [eapply m_for_wrong; eauto|exact I]|exists None; split; [eapply m_for_big; eauto|exact I]|].
    pose proof (into_double Debug v i Ii) as [Di _]. unfold done in Ii. rewrite Ii in Y.
    destruct (IH1 ((it_var, MLeft (two_ended k) (fun t => P (point t))) :: w)) as ([[w'| |]|] & R & A); [apply rel_cons; [split; [rewrite Di, (proj1 (proj2 (proj2 Sv))); reflexivity|exact Y]|exact H]|..]; cbn [agree] in A; try (destruct A; fail).
    + inversion Fl; subst; destruct A.
    + subst r0. inversion Fl; subst. exists (Some Panic). split; [eapply m_for_stop; eauto; constructor|reflexivity].
    + exists None. split; [eapply m_for_stop; eauto; constructor|exact I].
  - intros s t a v body b r E F w H. destruct (mset w a) as [[k P]|] eqn:M; [|exists None; split; [now apply m_for_none|exact I]].
    destruct (mset_ok _ _ _ _ _ H M) as (v' & E' & Sv). rewrite E in E'. injection E' as <-.
    destruct (into_yields v k P Sv) as [W|[[W Bg]|[W Y]]]; [exists None; split; [eapply m_for_wrong; eauto|exact I]|exists None; split; [eapply m_for_big; eauto|exact I]|].
    inversion F as [Ei Er|Ei Er]; rewrite <- Ei in Y; [|destruct Y]. exists (Some Panic). split; [eapply m_for_start; eauto|reflexivity].
  - intros s t a body b r F w H. destruct (mset w a) as [[k P]|] eqn:M; [|exists None; split; [now apply m_for_none|exact I]].
    destruct (mset_ok _ _ _ _ _ H M) as (v' & E' & Sv). rewrite E' in F. now apply fails_done in F.
  - (* loop *) intros s body s' b r F IH1 B IH2 w H. destruct (IH1 w H) as ([[w'| |]|] & R & A); cbn [agree] in A; try (destruct A; fail); try discriminate A.
    + destruct (IH2 w' A) as (q & R2 & A2). exists q. split; [eapply m_loop; eauto|exact A2].
    + exists None. split; [eapply m_loop_stop; eauto; constructor|exact I].
  - intros s body b r0 r F IH1 Fl w H. destruct (IH1 w H) as ([[w'| |]|] & R & A); cbn [agree] in A; try (destruct A; fail).
    + inversion Fl; subst; destruct A.
    + subst r0. inversion Fl; subst. exists (Some Panic). split; [eapply m_loop_stop; eauto; constructor|reflexivity].
    + exists None. split; [eapply m_loop_stop; eauto; constructor|exact I].
  - (* into_iter *) intros s x a v i b r E Ii B IH w H. destruct (mset w a) as [[k P]|] eqn:M; [|exists None; split; [now apply m_iter_none|exact I]].
    destruct (mset_ok _ _ _ _ _ H M) as (v' & E' & Sv). rewrite E in E'. injection E' as <-.
    destruct (into_yields v k P Sv) as [W|[[W Bg]|[W Y]]]; [exists None; split; [eapply m_iter_wrong; eauto|exact I]|exists None; split; [eapply m_iter_big; eauto|exact I]|].
    pose proof (into_double Debug v i Ii) as [Di _]. unfold done in Ii. rewrite Ii in Y.
    destruct (IH ((x, MLeft (two_ended k) (fun t => P (point t))) :: w)) as (q & R & A).
    { apply rel_cons; [split; [rewrite Di, (proj1 (proj2 (proj2 Sv))); reflexivity|exact Y]|exact H]. }
    exists q. split; [eapply m_iter; eauto|exact A].
  - intros s x a v b r E F w H. destruct (mset w a) as [[k P]|] eqn:M; [|exists None; split; [now apply m_iter_none|exact I]].
    destruct (mset_ok _ _ _ _ _ H M) as (v' & E' & Sv). rewrite E in E'. injection E' as <-.
    destruct (into_yields v k P Sv) as [W|[[W Bg]|[W Y]]]; [exists None; split; [eapply m_iter_wrong; eauto|exact I]|exists None; split; [eapply m_iter_big; eauto|exact I]|].
    inversion F as [Ei Er|Ei Er]; rewrite <- Ei in Y; [|destruct Y]. exists (Some Panic). split; [eapply m_iter_start; eauto|reflexivity].
  - intros s x a b r F w H. destruct (mset w a) as [[k P]|] eqn:M; [|exists None; split; [now apply m_iter_none|exact I]].
    destruct (mset_ok _ _ _ _ _ H M) as (v' & E' & Sv). rewrite E' in F. now apply fails_done in F.
  - (* next *) intros s k t x b1 b2 i o i' s' b r G Nx B1 IH1 B2 IH2 w H. pose proof (take_rel s w k x i t H G) as K. unfold done in Nx. rewrite Nx in K. destruct K as (y & Mt & Rl).
    destruct (IH1 _ Rl) as ([[[[] w']| |]|] & R & A); cbn [agree] in A; try (destruct A as [A _]; discriminate A); try discriminate A; try (destruct A; fail).
    + destruct A as [_ A]. cbn [snd] in A. destruct (IH2 (oldest (length w) w')) as (q & R2 & A2); [rewrite <- (rel_length _ _ H); now apply rel_oldest|].
      exists q. split; [eapply m_next; eauto|exact A2].
    + exists None. split; [eapply m_next_stop; eauto; constructor|exact I].
  - intros s k t x b1 b2 i o i' s' b G Nx B1 IH1 w H. pose proof (take_rel s w k x i t H G) as K. unfold done in Nx. rewrite Nx in K. destruct K as (y & Mt & Rl).
    destruct (IH1 _ Rl) as ([[[[] w']| |]|] & R & A); cbn [agree] in A; try (destruct A as [A _]; discriminate A); try discriminate A; try (destruct A; fail).
    + destruct A as [_ A]. cbn [snd] in A. eexists. split; [eapply m_next_break; eauto|]. split; [reflexivity|]. cbn [snd]. rewrite (rel_length _ _ H). now apply rel_oldest.
    + exists None. split; [eapply m_next_stop; eauto; constructor|exact I].
  - intros s k t x b1 b2 i o i' b r0 r G Nx B1 IH1 F w H. pose proof (take_rel s w k x i t H G) as K. unfold done in Nx. rewrite Nx in K. destruct K as (y & Mt & Rl).
    destruct (IH1 _ Rl) as ([[e| |]|] & R & A); cbn [agree] in A; try (destruct A; fail).
    + inversion F; subst; destruct A.
    + subst r0. inversion F; subst. exists (Some Panic). split; [eapply m_next_stop; eauto; constructor|reflexivity].
    + exists None. split; [eapply m_next_stop; eauto; constructor|exact I].
  - intros s k t x b1 b2 i b r G F w H. pose proof (take_rel s w k x i t H G) as K.
    inversion F as [Ei Er|Ei Er]; rewrite <- Ei in K.
    + exists (Some Panic). split; [eapply m_next_fails; [exact K|constructor]|reflexivity].
    + exists None. split; [eapply m_next_fails; [exact K|constructor]|exact I].
  - intros s k t x b1 b2 b G w H. exists None. split; [|exact I]. eapply m_next_fails; [|constructor]. apply t_wrong. intros d P Gw.
    pose proof (rel_get s w x H) as M. rewrite Gw in M. destruct (get x s) as [[| |i]|]; try destruct M as []. now destruct (G i).
  - intros s t body i i' G Nx w H. destruct (left_or s w it_var i H G) as (P & Gw & Yi). pose proof (next_yields i P Yi) as K. rewrite Nx in K. destruct K as [K Y].
    exists (done w). split; [eapply l_end; eauto|]. cbn [agree done].
    assert (X : set it_var (MLeft (double i) P) w = w); [|rewrite <- X; apply rel_set; [exact H|split; [exact (next_double Debug i _ _ Nx)|exact Y]]].
    now apply set_same.
  - intros s t body i x i' s' r G Nx B IH1 F IH2 w H. destruct (left_or s w it_var i H G) as (P & Gw & Yi). pose proof (next_yields i P Yi) as K. rewrite Nx in K.
    destruct K as (K1 & K2 & K3).
    destruct (IH1 ((t, MElt x) :: set it_var (MLeft (double i) (fun y => P y /\ lt x y)) w)) as ([[[[] w']| |]|] & R & A);
      [apply rel_cons; [reflexivity|]; apply rel_set; [exact H|split; [exact (next_double Debug i _ _ Nx)|exact K3]]|..]; cbn [agree] in A; try (destruct A as [A _]; discriminate A); try discriminate A; try (destruct A; fail).
    + destruct A as [_ A]. cbn [snd] in A. destruct (IH2 (oldest (length w) w')) as (q & R2 & A2); [rewrite <- (rel_length _ _ H); now apply rel_oldest|].
      exists q. split; [eapply l_turn; eauto|exact A2].
    + exists None. split; [eapply l_stop; eauto; constructor|exact I].
  - intros s t body i x i' s' G Nx B IH1 w H. destruct (left_or s w it_var i H G) as (P & Gw & Yi). pose proof (next_yields i P Yi) as K. rewrite Nx in K.
    destruct K as (K1 & K2 & K3).
    destruct (IH1 ((t, MElt x) :: set it_var (MLeft (double i) (fun y => P y /\ lt x y)) w)) as ([[[[] w']| |]|] & R & A);
      [apply rel_cons; [reflexivity|]; apply rel_set; [exact H|split; [exact (next_double Debug i _ _ Nx)|exact K3]]|..]; cbn [agree] in A; try (destruct A as [A _]; discriminate A); try discriminate A; try (destruct A; fail).
    + destruct A as [_ A]. cbn [snd] in A. eexists. split; [eapply l_break; eauto|]. cbn [agree done]. rewrite (rel_length _ _ H). now apply rel_oldest.
    + exists None. split; [eapply l_stop; eauto; constructor|exact I].
  - intros s t body i x i' r0 r G Nx B IH1 F w H. destruct (left_or s w it_var i H G) as (P & Gw & Yi). pose proof (next_yields i P Yi) as K. rewrite Nx in K.
    destruct K as (K1 & K2 & K3).
    destruct (IH1 ((t, MElt x) :: set it_var (MLeft (double i) (fun y => P y /\ lt x y)) w)) as ([[e| |]|] & R & A);
      [apply rel_cons; [reflexivity|]; apply rel_set; [exact H|split; [exact (next_double Debug i _ _ Nx)|exact K3]]|..]; cbn [agree] in A; try (destruct A; fail).
    + inversion F; subst; destruct A.
    + subst r0. inversion F; subst. exists (Some Panic). split; [eapply l_stop; eauto; constructor|reflexivity].
    + exists None. split; [eapply l_stop; eauto; constructor|exact I].
  - intros s t body i G Nx w H. destruct (left_or s w it_var i H G) as (P & Gw & Yi). pose proof (next_yields i P Yi) as K. rewrite Nx in K.
    destruct K as (x & K1 & K2). exists (Some Panic). split; [eapply l_panic; eauto|reflexivity].
  - intros s t body G w H. exists None. split; [|exact I]. apply l_wrong. intros d P Gw. pose proof (rel_get s w it_var H) as M. rewrite Gw in M.
    destruct (get it_var s) as [[]|]; try destruct M as []. now apply (G i).
  - (* turns of a loop *) intros s body s' r B IH1 L IH2 w H.
    destruct (IH1 w H) as ([[[[] w']| |]|] & R & A); cbn [agree] in A; try (destruct A as [A _]; discriminate A); try discriminate A; try (destruct A; fail).
    + destruct A as [_ A]. cbn [snd] in A. destruct (IH2 (oldest (length w) w')) as (q & R2 & A2); [rewrite <- (rel_length _ _ H); now apply rel_oldest|].
      exists q. split; [eapply c_turn; eauto|exact A2].
    + exists None. split; [eapply c_stop; eauto; constructor|exact I].
  - intros s body s' B IH1 w H.
    destruct (IH1 w H) as ([[[[] w']| |]|] & R & A); cbn [agree] in A; try (destruct A as [A _]; discriminate A); try discriminate A; try (destruct A; fail).
    + destruct A as [_ A]. cbn [snd] in A. eexists. split; [eapply c_break; eauto|]. cbn [agree done]. rewrite (rel_length _ _ H). now apply rel_oldest.
    + exists None. split; [eapply c_stop; eauto; constructor|exact I].
  - intros s body r0 r B IH1 F w H. destruct (IH1 w H) as ([[e| |]|] & R & A); cbn [agree] in A; try (destruct A; fail).
    + inversion F; subst; destruct A.
    + subst r0. inversion F; subst. exists (Some Panic). split; [eapply c_stop; eauto; constructor|reflexivity].
    + exists None. split; [eapply c_stop; eauto; constructor|exact I].
Qed.
End Programs.
