(** [min], [max] and [last] of sets, whatever the sizes of the pieces. *)
From Coq Require Import Lia ZifyBool Sorted.
From Verif Require Import Base ModelBound ModelRanges ModelSets ModelValue ModelStep ModelIter Reach
  Spec SpecStep SpecIter StepProofs StepLemmas IterProofs IterProofs2 IterProofs3 IterProofs4 IterLemmas IterBig.
Open Scope Z_scope.

Section Brim.
Context {T : Type} {PF : Platform} {OT : Ord T} {ST : Step T} {NU : Numbered T} {SL : StepLaws T}.

(** A piece that is not passed over as empty. *)
Definition counted (r : BoundedRange T) : Prop := small (in_range r) \/ brimful (in_range r).
Definition noticed (rs : list (BoundedRange T)) (t : T) : Prop := exists r, In r rs /\ in_range r t /\ counted r.

Lemma trim_brim rs its : Forall2 (fun r it => br_into_iter Debug r = Ret it) rs its ->
  (trim Debug its = Ret [] /\ forall t, ~ noticed rs t) \/
  exists rs1 r rs2, rs = rs1 ++ r :: rs2 /\ (forall t, ~ noticed rs1 t) /\
    (brimful (in_range r) /\ trim Debug its = Panic \/
     exists i its' l, trim Debug its = Ret (i :: its') /\ small (in_range r) /\ holds i l /\ lists (in_range r) l /\ l <> []).
Proof.
  induction 1 as [|r i rs its E F IH].
  - left. split; [reflexivity|]. intros t (r & [] & _).
  - destruct (holds_exists i) as [l H]. pose proof (proj1 (into_iter_holds r i l E) H) as L. cbn [trim]. rewrite (len_spec i l H).
    assert (Skip : (forall t, ~ (in_range r t /\ counted r)) -> trim Debug its = trim Debug (i :: its) ->
      (trim Debug its = Ret [] /\ forall t, ~ noticed (r :: rs) t) \/
      exists rs1 r' rs2, r :: rs = rs1 ++ r' :: rs2 /\ (forall t, ~ noticed rs1 t) /\
      (brimful (in_range r') /\ trim Debug its = Panic \/
       exists i its' l, trim Debug its = Ret (i :: its') /\ small (in_range r') /\ holds i l /\ lists (in_range r') l /\ l <> [])).
    { intros N _. destruct IH as [[E1 N1]|(rs1 & q & rs2 & -> & N1 & K)].
      - left. split; [exact E1|]. intros t (q & [<-|I] & J); [exact (N t J)|apply (N1 t); exists q; auto].
      - right. exists (r :: rs1), q, rs2. split; [reflexivity|]. split; [|exact K].
        intros t (p & [<-|I] & J); [exact (N t J)|apply (N1 t); exists p; auto]. }
    destruct (Z_le_gt_dec (Z.of_nat (length l)) usize_max) as [S|S].
    + assert (C : (Z.of_nat (length l) <=? usize_max) = true) by lia. rewrite C. cbn [bind].
      destruct (Z.of_nat (length l) =? 0) eqn:D.
      * apply Skip.
        -- intros t [J _]. apply L in J. destruct l; [destruct J|simpl in D; lia].
        -- cbn [trim]. rewrite (len_spec i l H), C. cbn [bind]. rewrite D. reflexivity.
      * right. exists [], r, rs. split; [reflexivity|]. split; [intros t (q & [] & _)|]. right. exists i, its, l.
        split; [reflexivity|]. split; [apply (small_dec _ _ L); exact S|]. split; [exact H|]. split; [exact L|].
        intros ->. simpl in D. lia.
    + assert (C : (Z.of_nat (length l) <=? usize_max) = false) by lia. rewrite C.
      destruct (Z.of_nat (length l) =? usize_max + 1) eqn:D.
      * right. exists [], r, rs. split; [reflexivity|]. split; [intros t (q & [] & _)|]. left. split; [|reflexivity].
        exists l. split; [exact L|lia].
      * cbn [bind]. change (0 =? 0) with true. cbn iota. apply Skip.
        -- intros t [_ [Sm|(k & K & Ek)]]; [apply Sm in L; lia|]. rewrite (lists_unique _ _ _ K L) in Ek. lia.
        -- cbn [trim]. rewrite (len_spec i l H), C, D. cbn [bind]. reflexivity.
Qed.

Lemma brimful_some (P : T -> Prop) : brimful P -> exists t, P t.
Proof.
  intros ([|t l] & L & E).
  - pose proof usize_max_ge. simpl in E. lia.
  - exists t. apply L. now left.
Qed.
Lemma lists_hd (P : T -> Prop) x l : lists P (x :: l) -> P x /\ forall t, P t -> le x t.
Proof.
  intros [S I]. split; [apply I; now left|]. intros t J. apply I in J. inversion S as [|? ? _ F]; subst. apply le_idx.
  destruct J as [->|J]; [lia|]. rewrite Forall_forall in F. apply F in J. apply lt_idx in J. lia.
Qed.
Lemma lists_last (P : T -> Prop) x l k : lists P l -> rev l = x :: k -> P x /\ forall t, P t -> le t x.
Proof.
  intros [S I] R. split.
  - apply I, in_rev. rewrite R. now left.
  - intros t J. apply I in J. apply le_idx. eapply sorted_last; eassumption.
Qed.

(** What the least noticed element is, from the first noticed piece. *)
Lemma first_piece rs1 r rs2 : ForallOrdPairs (fun a b => precedes (br_end a) (br_start b)) (rs1 ++ r :: rs2) ->
  (forall t, ~ noticed rs1 t) -> forall t, noticed (rs1 ++ r :: rs2) t -> in_range r t \/ forall u, in_range r u -> lt u t.
Proof.
  intros P N t (q & I & J & C). apply in_app_iff in I. destruct I as [I|[<-|I]].
  - exfalso. apply (N t). exists q. auto.
  - now left.
  - right. intros u U. assert (Pr : precedes (br_end r) (br_start q)).
    { clear - P I. induction rs1 as [|a rs1 IH]; cbn [app] in P; inversion P as [|? ? F P']; subst; [|apply IH; exact P'].
      rewrite Forall_forall in F. apply F. exact I. }
    eapply precedes_lt; eassumption.
Qed.
Lemma last_piece rs1 r rs2 : ForallOrdPairs (fun a b => precedes (br_end a) (br_start b)) (rev (rs1 ++ r :: rs2)) ->
  (forall t, ~ noticed rs1 t) -> forall t, noticed (rs1 ++ r :: rs2) t -> in_range r t \/ forall u, in_range r u -> lt t u.
Proof.
  intros P N t (q & I & J & C). apply in_app_iff in I. destruct I as [I|[<-|I]].
  - exfalso. apply (N t). exists q. auto.
  - now left.
  - right. intros u U. assert (Pr : precedes (br_end q) (br_start r)).
    { clear - P I. rewrite rev_app_distr in P. cbn [rev] in P. rewrite <- app_assoc in P. cbn [app] in P. apply in_rev in I.
      induction (rev rs2) as [|a l IH]; [destruct I|]. cbn [app] in P. inversion P as [|? ? F P']; subst.
      destruct I as [->|I]; [|apply IH; assumption]. rewrite Forall_forall in F. apply F. apply in_app_iff. right. now left. }
    eapply precedes_lt; eassumption.
Qed.
Lemma noticed_here rs1 r rs2 t : in_range r t -> counted r -> noticed (rs1 ++ r :: rs2) t.
Proof. intros J C. exists r. split; [apply in_app_iff; right; now left|auto]. Qed.
Lemma noticed_rev rs t : noticed (rev rs) t <-> noticed rs t.
Proof. split; intros (r & I & J); exists r; (split; [apply in_rev; rewrite ?rev_involutive; exact I|exact J]). Qed.
(** A brimful piece has no element in a small one. *)
Lemma not_both (rs1 rs2 : list (BoundedRange T)) r t : ForallOrdPairs (fun a b => precedes (br_end a) (br_start b)) (rs1 ++ r :: rs2) ->
  brimful (in_range r) -> in_range r t -> ~ in_small_pieces (rs1 ++ r :: rs2) t.
Proof.
  intros P B J (q & I & K & Sm). apply in_app_iff in I.
  assert (Irr : ~ lt t t) by (rewrite lt_idx; lia).
  destruct I as [I|[<-|I]].
  - apply Irr. assert (Pr : precedes (br_end q) (br_start r)); [|eapply precedes_lt; eassumption].
    clear - P I. induction rs1 as [|a l IH]; [destruct I|]. cbn [app] in P. inversion P as [|? ? F P']; subst.
    destruct I as [->|I]; [|apply IH; assumption]. rewrite Forall_forall in F. apply F. apply in_app_iff. right. now left.
  - exact (small_not_brimful _ Sm B).
  - apply Irr. assert (Pr : precedes (br_end r) (br_start q)); [|eapply precedes_lt; eassumption].
    clear - P I. induction rs1 as [|a l IH]; cbn [app] in P; inversion P as [|? ? F P']; subst; [|apply IH; exact P'].
    rewrite Forall_forall in F. apply F. exact I.
Qed.

(** The outcomes of [next] on a fresh iterator. *)
Lemma next_brim rs its : ForallOrdPairs (fun a b => precedes (br_end a) (br_start b)) rs ->
  Forall2 (fun r it => br_into_iter Debug r = Ret it) rs its ->
  (exists it', bsi_next Debug (BSI its) = Ret (None, it') /\ forall t, ~ noticed rs t) \/
  (exists e it', bsi_next Debug (BSI its) = Ret (Some e, it') /\ in_small_pieces rs e /\ (forall t, noticed rs t -> le e t) /\ ~ greatest e) \/
  (bsi_next Debug (BSI its) = Panic /\ exists e, noticed rs e /\ (forall t, noticed rs t -> le e t) /\ (greatest e \/ ~ in_small_pieces rs e)).
Proof.
  intros P F. unfold bsi_next. cbn [bsi_range_iters].
  destruct (trim_brim rs its F) as [[-> N]|(rs1 & r & rs2 & -> & N & [[B ->]|(i & its' & l & -> & Sm & H & L & Ne)])]; cbn [bind on_front].
  - left. eexists. split; [reflexivity|exact N].
  - right. right. split; [reflexivity|].
    assert (X : exists x l, lists (in_range r) (x :: l)).
    { destruct B as ([|x l] & L & E); [pose proof usize_max_ge; simpl in E; lia|]. eauto. }
    destruct X as (x & l & L). apply lists_hd in L. destruct L as [J Lo]. exists x.
    split; [apply noticed_here; [exact J|now right]|]. split; [|right; now apply not_both].
    intros t K. destruct (first_piece _ _ _ P N t K) as [I|G]; [apply Lo, I|]. specialize (G x J). rewrite le_idx. apply lt_idx in G. lia.
  - destruct l as [|x l]; [congruence|]. pose proof (lists_hd _ _ _ L) as [J Lo].
    assert (Lo' : forall t, noticed (rs1 ++ r :: rs2) t -> le x t).
    { intros t K. destruct (first_piece _ _ _ P N t K) as [I|G]; [apply Lo, I|]. specialize (G x J). rewrite le_idx. apply lt_idx in G. lia. }
    assert (Sx : in_small_pieces (rs1 ++ r :: rs2) x) by (exists r; split; [apply in_app_iff; right; now left|auto]).
    right. destruct (bri_next Debug i) as [[o i']| |] eqn:E; cbn [bind].
    + left. pose proof E as E'. destruct (next_refines i _ o i' H E) as [-> _]. exists x. eexists. split; [reflexivity|].
      split; [exact Sx|]. split; [exact Lo'|]. intros G. assert (Pn : bri_next Debug i = Panic) by (apply (next_panics i _ H); eauto). congruence.
    + right. split; [reflexivity|]. exists x. split; [apply noticed_here; [exact J|now left]|]. split; [exact Lo'|]. left.
      apply (next_panics i _ H) in E. destruct E as (y & k & Ey & G). injection Ey as <- <-. exact G.
    + exfalso. exact (next_not_diverge _ E).
Qed.
(** From the other end. *)
Lemma back_brim rs its : ForallOrdPairs (fun a b => precedes (br_end a) (br_start b)) rs ->
  Forall2 (fun r it => br_into_iter Debug r = Ret it) rs its ->
  (trim Debug (rev its) = Ret [] /\ forall t, ~ noticed rs t) \/
  exists e, noticed rs e /\ (forall t, noticed rs t -> le t e) /\
    (trim Debug (rev its) = Panic /\ ~ in_small_pieces rs e \/
     exists i its' l k, trim Debug (rev its) = Ret (i :: its') /\ in_small_pieces rs e /\ holds i l /\ rev l = e :: k /\ StronglySorted lt l).
Proof.
  intros P F. apply Forall2_rev in F.
  destruct (trim_brim _ _ F) as [[-> N]|(rs1 & r & rs2 & E & N & C)].
  - left. split; [reflexivity|]. intros t K. apply (N t), noticed_rev, K.
  - right. assert (P' : ForallOrdPairs (fun a b => precedes (br_end a) (br_start b)) (rev (rs1 ++ r :: rs2))) by (rewrite <- E, rev_involutive; exact P).
    assert (Nt : forall t, noticed rs t <-> noticed (rs1 ++ r :: rs2) t) by (intros t; rewrite <- E; symmetry; apply noticed_rev).
    assert (Hi : forall x, in_range r x -> (forall t, in_range r t -> le t x) -> forall t, noticed rs t -> le t x).
    { intros x J Hi t K. apply Nt in K. destruct (last_piece _ _ _ P' N t K) as [I|G]; [apply Hi, I|]. specialize (G x J). rewrite le_idx. apply lt_idx in G. lia. }
    destruct C as [[B ->]|(i & its' & l & -> & Sm & H & L & Ne)].
    + destruct B as (l & L & El). destruct (rev l) as [|x k] eqn:R.
      { exfalso. pose proof usize_max_ge. rewrite <- (rev_length l), R in El. simpl in El. lia. }
      destruct (lists_last _ _ _ _ L R) as [J Up]. assert (B : brimful (in_range r)) by (exists l; auto).
      exists x. split; [apply Nt, noticed_here; [exact J|now right]|]. split; [exact (Hi x J Up)|]. left. split; [reflexivity|].
      intros Sx. assert (Er : rs = rev rs2 ++ r :: rev rs1).
      { rewrite <- (rev_involutive rs), E, rev_app_distr. cbn [rev]. now rewrite <- app_assoc. }
      rewrite Er in Sx, P. exact (not_both _ _ _ _ P B J Sx).
    + destruct (rev l) as [|x k] eqn:R; [apply rev_nil in Ne; congruence|]. destruct (lists_last _ _ _ _ L R) as [J Up].
      exists x. split; [apply Nt, noticed_here; [exact J|now left]|]. split; [exact (Hi x J Up)|]. right. exists i, its', l, k.
      split; [reflexivity|]. split.
      * exists r. split; [|auto]. apply in_rev. rewrite E. apply in_app_iff. right. now left.
      * split; [exact H|]. split; [exact R|exact (proj1 L)].
Qed.

(** ** The three of them *)
Lemma least_one (W : T -> Prop) e d : W e -> W d -> (forall t, W t -> le e t) -> (forall t, W t -> le d t) -> e = d.
Proof. intros A B C D. specialize (C d B). specialize (D e A). rewrite le_idx in *. apply idx_inj. lia. Qed.
Lemma greatest_one (W : T -> Prop) e d : W e -> W d -> (forall t, W t -> le t e) -> (forall t, W t -> le t d) -> e = d.
Proof. intros A B C D. specialize (C d B). specialize (D e A). rewrite le_idx in *. apply idx_inj. lia. Qed.
Lemma small_noticed rs t : in_small_pieces rs t -> noticed rs t.
Proof. intros (r & I & J & C). exists r. split; [exact I|]. split; [exact J|now left]. Qed.

Lemma set_min_complete s it o : valid (VBS s) -> bs_into_iter Debug s = Ret it ->
  bsi_min Debug it = Ret o <->
    (o = None /\ forall t, ~ noticed (bs_ranges s) t) \/
    exists e, o = Some e /\ in_small_pieces (bs_ranges s) e /\ (forall t, noticed (bs_ranges s) t -> le e t) /\ ~ greatest e.
Proof.
  intros V E. apply into_iter_pieces in E. destruct it as [its]. cbn [bsi_range_iters] in E. unfold bsi_min.
  destruct V as [_ P]. destruct (next_brim _ _ P E) as [(it' & -> & N)|[(e & it' & -> & Sm & Lo & G)|(-> & e & Nt & Lo & G)]]; cbn [bind fst].
  - split.
    + injection 1 as <-. left. auto.
    + intros [[-> _]|(e & -> & Sm & _)]; [reflexivity|]. exfalso. exact (N e (small_noticed _ _ Sm)).
  - split.
    + injection 1 as <-. right. eauto.
    + intros [[-> N]|(d & -> & Sd & Ld & _)]; [exfalso; exact (N e (small_noticed _ _ Sm))|].
      f_equal. f_equal. eapply least_one; [apply small_noticed, Sm|apply small_noticed, Sd|exact Lo|exact Ld].
  - split; [discriminate|]. intros [[-> N]|(d & -> & Sd & Ld & Gd)]; [exfalso; exact (N e Nt)|]. exfalso.
    pose proof (least_one _ _ _ Nt (small_noticed _ _ Sd) Lo Ld) as <-. tauto.
Qed.
Lemma set_max_complete s it o : valid (VBS s) -> bs_into_iter Debug s = Ret it ->
  bsi_max Debug it = Ret o <->
    (o = None /\ forall t, ~ noticed (bs_ranges s) t) \/
    exists e, o = Some e /\ in_small_pieces (bs_ranges s) e /\ (forall t, noticed (bs_ranges s) t -> le t e) /\ ~ least e.
Proof.
  intros V E. apply into_iter_pieces in E. destruct it as [its]. cbn [bsi_range_iters] in E. unfold bsi_max, bsi_next_back. cbn [bsi_range_iters].
  destruct V as [_ P]. destruct (back_brim _ _ P E) as [[-> N]|(e & Nt & Up & [[-> Sm]|(i & its' & l & k & -> & Sm & H & R & _)])]; cbn [bind on_front fst snd].
  - split.
    + injection 1 as <-. left. auto.
    + intros [[-> _]|(e & -> & Sm & _)]; [reflexivity|]. exfalso. exact (N e (small_noticed _ _ Sm)).
  - split; [discriminate|]. intros [[-> N]|(d & -> & Sd & Ud & _)]; [exfalso; exact (N e Nt)|]. exfalso.
    pose proof (greatest_one _ _ _ Nt (small_noticed _ _ Sd) Up Ud) as <-. exact (Sm Sd).
  - destruct (bri_next_back Debug i) as [[o' i']| |] eqn:En; cbn [bind fst snd].
    + pose proof En as En'. destruct (next_back_refines i l o' i' H En) as [-> _]. rewrite R. cbn [hd_error]. split.
      * injection 1 as <-. right. exists e. split; [reflexivity|]. split; [exact Sm|]. split; [exact Up|]. intros G.
        assert (Pn : bri_next_back Debug i = Panic) by (apply (next_back_panics i _ H); eauto). congruence.
      * intros [[-> N]|(d & -> & Sd & Ud & _)]; [exfalso; exact (N e Nt)|]. f_equal. f_equal.
        exact (greatest_one _ _ _ Nt (small_noticed _ _ Sd) Up Ud).
    + split; [discriminate|]. intros [[-> N]|(d & -> & Sd & Ud & Gd)]; [exfalso; exact (N e Nt)|]. exfalso.
      pose proof (greatest_one _ _ _ Nt (small_noticed _ _ Sd) Up Ud) as <-.
      apply (next_back_panics i _ H) in En. destruct En as (y & k' & Ey & G). rewrite R in Ey. injection Ey as <- <-. exact (Gd G).
    + exfalso. exact (next_back_not_diverge _ En).
Qed.
Lemma set_last_complete s it o : valid (VBS s) -> bs_into_iter Debug s = Ret it ->
  bsi_last Debug it o <->
    (o = Ret None /\ forall t, ~ noticed (bs_ranges s) t) \/
    exists e, noticed (bs_ranges s) e /\ (forall t, noticed (bs_ranges s) t -> le t e) /\
      (o = Ret (Some e) /\ in_small_pieces (bs_ranges s) e /\ ~ greatest e \/
       o = Panic /\ (greatest e \/ ~ in_small_pieces (bs_ranges s) e)).
Proof.
  intros V E. apply into_iter_pieces in E. destruct it as [its]. cbn [bsi_range_iters] in E. unfold bsi_last. cbn [bsi_range_iters].
  destruct V as [_ P]. destruct (back_brim _ _ P E) as [[-> N]|(e & Nt & Up & [[-> Sm]|(i & its' & l & k & -> & Sm & H & R & So)])].
  - split; [intros ->; left; auto|]. intros [[-> _]|(e & Nt & _)]; [reflexivity|]. exfalso. exact (N e Nt).
  - split.
    + intros ->. right. exists e. split; [exact Nt|]. split; [exact Up|]. right. auto.
    + intros [[-> N]|(d & Nd & Ud & [(-> & Sd & _)|[-> _]])]; [exfalso; exact (N e Nt)| |reflexivity].
      exfalso. pose proof (greatest_one _ _ _ Nt Nd Up Ud) as <-. exact (Sm Sd).
  - destruct (drains_forward l i H) as [D1 D2].
    assert (El : greatest e <-> exists t, In t l /\ greatest t).
    { split.
      - intros G. exists e. split; [|exact G]. apply in_rev. rewrite R. now left.
      - intros (t & I & G). intros u. specialize (G u). rewrite le_idx in *. pose proof (sorted_last l e k t So R I). lia. }
    assert (Vb : vd_back l = Some e) by (unfold vd_back; rewrite R; reflexivity).
    assert (Dc : ~ greatest e \/ greatest e).
    { destruct (proj2 (extreme_dec l)) as [C|C]; [left|right; apply El, C]. intros G. apply El in G. destruct G as (t & I & G). exact (C t I G). }
    destruct Dc as [G|G].
    + assert (D : drains (bri_next Debug) i (Ret l)) by (apply D1; intros t I J; apply G, El; eauto). split.
      * intros (d & Dd & ->). rewrite (drains_det _ _ _ _ Dd D). cbn [bind]. rewrite Vb. right. exists e. split; [exact Nt|]. split; [exact Up|].
        left. auto.
      * intros [[-> N]|(d & Nd & Ud & C)]; [exfalso; exact (N e Nt)|]. pose proof (greatest_one _ _ _ Nt Nd Up Ud) as <-.
        destruct C as [(-> & _)|(-> & [C|C])]; [|tauto|tauto]. exists (Ret l). split; [exact D|]. cbn [bind]. now rewrite Vb.
    + assert (D : drains (bri_next Debug) i Panic) by (apply D2, El, G). split.
      * intros (d & Dd & ->). rewrite (drains_det _ _ _ _ Dd D). cbn [bind]. right. exists e. split; [exact Nt|]. split; [exact Up|]. right. auto.
      * intros [[-> N]|(d & Nd & Ud & C)]; [exfalso; exact (N e Nt)|]. pose proof (greatest_one _ _ _ Nt Nd Up Ud) as <-.
        destruct C as [(_ & _ & C)|[-> _]]; [tauto|]. exists Panic. split; [exact D|reflexivity].
Qed.
Lemma lbs_min_complete s it o : valid (VLBS s) -> lbs_into_iter Debug s = Ret it ->
  lbsi_min Debug it = Ret o <->
    exists e, o = Some e /\ (in_small_pieces (bs_ranges (lbs_ranges s)) e \/ above (lbr_start (lbs_lbr s)) e) /\
      (forall t, noticed (bs_ranges (lbs_ranges s)) t \/ above (lbr_start (lbs_lbr s)) t -> le e t) /\ ~ greatest e.
Proof.
  intros [[V P] Pr] E. unfold lbs_into_iter in E. inv_bind E. inv_bind E. injection E as <-.
  apply into_iter_pieces in E0. destruct a as [its]. cbn [bsi_range_iters] in E0. unfold lbsi_min, lbsi_next. cbn [lbsi_set_iter lbsi_range_iter].
  pose proof (lbr_into_iter_spec _ _ E1) as A. set (c := lbri_current a0) in *.
  assert (Ac : above (lbr_start (lbs_lbr s)) c) by (apply A; lia).
  assert (Bl : forall t, noticed (bs_ranges (lbs_ranges s)) t -> ~ above (lbr_start (lbs_lbr s)) t).
  { intros t (r & I & J & _) G. apply Pr in I. destruct J as [_ J]. revert G. destruct (br_end r) as [[e|e]], (lbr_start (lbs_lbr s)) as [[u|u]];
      cbn [precedes above below] in *; rewrite ?lt_idx, ?le_idx in *; lia. }
  assert (Bb : forall t, noticed (bs_ranges (lbs_ranges s)) t -> forall u, above (lbr_start (lbs_lbr s)) u -> le t u).
  { intros t K u U. apply le_idx. apply A in U. specialize (Bl t K). rewrite A in Bl. lia. }
  destruct (next_brim _ _ P E0) as [(it' & -> & N)|[(e & it' & -> & Sm & Lo & G)|(-> & e & Nt & Lo & G)]]; cbn [bind fst snd].
  - unfold lbri_next. fold c. destruct (fwd_cases c 1 one_ok) as [(b & -> & Hb)|[-> Hb]]; cbn [bind fst snd].
    + split.
      * injection 1 as <-. exists c. split; [reflexivity|]. split; [now right|]. split.
        -- intros t [K|K]; [exfalso; exact (N t K)|]. apply le_idx, A, K.
        -- intros G. specialize (G b). apply le_idx in G. lia.
      * intros (e & -> & [Sm|U] & Lo & _); [exfalso; exact (N e (small_noticed _ _ Sm))|]. f_equal. f_equal.
        specialize (Lo c (or_intror Ac)). apply le_idx in Lo. apply A in U. apply idx_inj. lia.
    + split; [discriminate|]. intros (e & -> & [Sm|U] & Lo & G); exfalso; [exact (N e (small_noticed _ _ Sm))|].
      apply G. intros u. apply le_idx. apply A in U. specialize (Hb u). lia.
  - split.
    + injection 1 as <-. exists e. split; [reflexivity|]. split; [now left|]. split; [|exact G].
      intros t [K|K]; [exact (Lo t K)|]. exact (Bb e (small_noticed _ _ Sm) t K).
    + intros (d & -> & [Sd|U] & Ld & _).
      * f_equal. f_equal. eapply least_one; [apply small_noticed, Sm|apply small_noticed, Sd|exact Lo|intros t K; apply Ld; now left].
      * exfalso. specialize (Ld e (or_introl (small_noticed _ _ Sm))). apply (Bl e (small_noticed _ _ Sm)). apply A. apply A in U. apply le_idx in Ld. lia.
  - split; [discriminate|]. intros (d & -> & [Sd|U] & Ld & Gd); exfalso.
    + assert (e = d) as <- by (eapply least_one; [exact Nt|apply small_noticed, Sd|exact Lo|intros t K; apply Ld; now left]). tauto.
    + specialize (Ld e (or_introl Nt)). apply (Bl e Nt). apply A. apply A in U. apply le_idx in Ld. lia.
Qed.
End Brim.
