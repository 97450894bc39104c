(** Searching: proofs. *)
From Coq Require Import Lia ZifyBool Sorted.
From Verif Require Import Base ModelBound ModelRanges ModelSets ModelAlgebra ModelValue ModelStep ModelIter ModelSearch
  Spec Reach SpecStep SpecIter SpecSearch SetProofs ValueProofs StepProofs StepLemmas IterProofs IterProofs2 IterProofs3
  IterProofs4 IterLemmas.
Open Scope Z_scope.

Lemma try_folds_det {S A B R : Type} (next : S -> outcome (option A * S)) (f : B -> A -> outcome (B + R)) b s o1 o2 :
  try_folds next f b s o1 -> try_folds next f b s o2 -> o1 = o2.
Proof.
  intros H. revert o2. induction H; intros o2 K; inversion K; subst; try congruence.
  apply IHtry_folds. replace b' with b'0 by congruence. replace s' with s'0 by congruence. assumption.
Qed.
Lemma try_folds_agree {S A B R : Type} (next next' : S -> outcome (option A * S)) (f f' : B -> A -> outcome (B + R)) b s x :
  (forall s y, next s = Ret y -> next' s = Ret y) -> (forall b a y, f b a = Ret y -> f' b a = Ret y) ->
  try_folds next f b s (Ret x) -> try_folds next' f' b s (Ret x).
Proof.
  intros N F H. remember (Ret x) as o eqn:E. induction H; try discriminate.
  - injection E as <-. apply tf_done. auto.
  - injection E as <-. eapply tf_break; eauto.
  - eapply tf_continue; eauto.
Qed.
Lemma try_folds_ext {S A B R : Type} (next : S -> outcome (option A * S)) (f f' : B -> A -> outcome (B + R)) b s o :
  (forall b a, f b a = f' b a) -> try_folds next f b s o -> try_folds next f' b s o.
Proof.
  intros F H. induction H; [eapply tf_done|eapply tf_break|eapply tf_continue|eapply tf_panic|eapply tf_closure]; eauto; rewrite <- F; assumption.
Qed.
Lemma compares_det {S1 S2 A B : Type} (n1 : S1 -> outcome (option A * S1)) (n2 : S2 -> outcome (option B * S2)) f s1 s2 o1 o2 :
  compares n1 n2 f s1 s2 o1 -> compares n1 n2 f s1 s2 o2 -> o1 = o2.
Proof.
  intros H. revert o2. induction H; intros o2 K; inversion K; subst; try congruence.
  apply IHcompares. replace s1' with s1'0 by congruence. replace s2' with s2'0 by congruence. assumption.
Qed.
Lemma compares_agree {S1 S2 A B : Type} (n1 n1' : S1 -> outcome (option A * S1)) (n2 n2' : S2 -> outcome (option B * S2)) f s1 s2 c :
  (forall s y, n1 s = Ret y -> n1' s = Ret y) -> (forall s y, n2 s = Ret y -> n2' s = Ret y) ->
  compares n1 n2 f s1 s2 (Ret c) -> compares n1' n2' f s1 s2 (Ret c).
Proof.
  intros N M H. remember (Ret c) as o eqn:E. induction H; try discriminate.
  - injection E as <-. eapply co_both; eauto.
  - injection E as <-. eapply co_first; eauto.
  - injection E as <-. eapply co_second; eauto.
  - injection E as <-. eapply co_decided; eauto.
  - eapply co_more; eauto.
Qed.
Lemma walk_app {A B R : Type} (f : B -> A -> outcome (B + R)) b l k :
  walk f b (l ++ k) = (x <- walk f b l ;; match x with inl b' => walk f b' k | inr r => Ret (inr r) end).
Proof.
  revert b. induction l as [|a l IH]; intros b; [reflexivity|]. cbn [app walk].
  destruct (f b a) as [[b'|r]| |]; cbn [bind]; auto.
Qed.

(** Iterators that go through a collection of elements by increasing [key] and cannot pass [stuck] ones. *)
Section Keyed.
Context {T S : Type}.
Variable key : T -> Z.
Variable stuck : T -> Prop.
Variable next : S -> outcome (option T * S).
Variable holds : S -> (T -> Prop) -> Prop.

Definition klists (P : T -> Prop) (l : list T) : Prop :=
  StronglySorted (fun a b => key a < key b) l /\ forall t, In t l <-> P t.
Record steps : Prop := {
  st_inj : forall a b, key a = key b -> a = b;
  st_stuck : forall g t, stuck g -> key t <= key g;
  st_below : forall s P e, holds s P -> P e -> exists l, klists (fun t => P t /\ key t < key e) l;
  st_next : forall s P, holds s P ->
    (exists s', next s = Ret (None, s') /\ holds s' P /\ forall t, ~ P t) \/
    (exists e s', next s = Ret (Some e, s') /\ P e /\ (forall t, P t -> key e <= key t) /\ ~ stuck e /\
       holds s' (fun t => P t /\ key e < key t)) \/
    (next s = Panic /\ exists g, P g /\ stuck g /\ forall t, P t -> key g <= key t);
  st_ext : forall s P Q, (forall t, P t <-> Q t) -> holds s P -> holds s Q
}.
Hypothesis ST : steps.

Lemma klists_ext (P Q : T -> Prop) l : (forall t, P t <-> Q t) -> klists P l -> klists Q l.
Proof. intros H [A B]. split; [exact A|]. intros t. rewrite B. apply H. Qed.
Lemma klists_nil (P : T -> Prop) : (forall t, ~ P t) -> klists P [].
Proof. intros H. split; [constructor|]. intros t. split; [intros []|]. intros I. exact (H t I). Qed.
Lemma klists_cons (P : T -> Prop) e l : P e -> (forall t, P t -> key e <= key t) ->
  klists (fun t => P t /\ key e < key t) l -> klists P (e :: l).
Proof.
  intros Pe L [A B]. split.
  - constructor; [exact A|]. apply Forall_forall. intros x I. apply B in I. apply I.
  - intros t. split.
    + intros [<-|I]; [exact Pe|]. apply B in I. apply I.
    + intros I. destruct (Z.eq_dec (key e) (key t)) as [E|E]; [left; apply (st_inj ST); exact E|].
      right. apply B. specialize (L t I). split; [exact I|lia].
Qed.
Lemma klists_unique (P : T -> Prop) l1 l2 : klists P l1 -> klists P l2 -> l1 = l2.
Proof.
  revert P l2. induction l1 as [|a l1 IH]; intros P [|b l2] [A1 B1] [A2 B2].
  - reflexivity.
  - exfalso. apply (B1 b). apply B2. now left.
  - exfalso. apply (B2 a). apply B1. now left.
  - inversion A1; subst. inversion A2; subst. rewrite Forall_forall in *.
    assert (E : a = b).
    { assert (I : In a (b :: l2)) by (apply B2, B1; now left).
      assert (J : In b (a :: l1)) by (apply B1, B2; now left).
      destruct I as [->|I]; [reflexivity|]. destruct J as [->|J]; [reflexivity|].
      specialize (H4 a I). specialize (H2 b J). lia. }
    subst b. f_equal. apply (IH (fun t => P t /\ key a < key t)).
    + split; [assumption|]. intros t. split.
      * intros I. split; [apply B1; now right|auto].
      * intros [I L]. apply B1 in I. destruct I as [->|I]; [lia|exact I].
    + split; [assumption|]. intros t. split.
      * intros I. split; [apply B2; now right|auto].
      * intros [I L]. apply B2 in I. destruct I as [->|I]; [lia|exact I].
Qed.

Definition reached {B R : Type} (f : B -> T -> outcome (B + R)) (b : B) (P : T -> Prop) (e : T) (b1 : B) : Prop :=
  P e /\ exists l, klists (fun t => P t /\ key t < key e) l /\ walk f b l = Ret (inl b1).

Lemma reached_least {B R : Type} (f : B -> T -> outcome (B + R)) b (P : T -> Prop) e :
  P e -> (forall t, P t -> key e <= key t) -> reached f b P e b.
Proof.
  intros Pe L. split; [exact Pe|]. exists []. split; [|reflexivity].
  apply klists_nil. intros t [I K]. specialize (L t I). lia.
Qed.
Lemma reached_later {B R : Type} (f : B -> T -> outcome (B + R)) b (P : T -> Prop) e b' x b1 :
  P e -> (forall t, P t -> key e <= key t) -> f b e = Ret (inl b') ->
  reached f b' (fun t => P t /\ key e < key t) x b1 -> reached f b P x b1.
Proof.
  intros Pe L F ([Px K] & l & Hl & W). split; [exact Px|]. exists (e :: l). split.
  - apply klists_cons; [split; assumption| |].
    + intros t [I _]. auto.
    + eapply klists_ext; [|exact Hl]. intros t. cbv beta. tauto.
  - cbn [walk]. rewrite F. exact W.
Qed.

Lemma try_folds_inv {B R : Type} (f : B -> T -> outcome (B + R)) b s o : try_folds next f b s o -> forall P, holds s P ->
  match o with
  | Ret (inl b', s') =>
    (exists l, klists P l /\ walk f b l = Ret (inl b')) /\ (forall t, P t -> ~ stuck t) /\ holds s' (fun _ => False)
  | Ret (inr r, s') =>
    exists e b1, reached f b P e b1 /\ ~ stuck e /\ f b1 e = Ret (inr r) /\ holds s' (fun t => P t /\ key e < key t)
  | Panic => exists e b1, reached f b P e b1 /\ (stuck e \/ f b1 e = Panic)
  | Diverge => False
  end.
Proof.
  induction 1 as [b s s' E|b s s' a r E F|b s s' a b' o E F H IH|b s E|b s s' a E F]; intros P HP;
    destruct (st_next ST s P HP) as [(s1 & E1 & H1 & N)|[(e & s1 & E1 & Pe & L & Ns & H1)|(E1 & g & Pg & G & L)]];
    rewrite E in E1; try discriminate.
  - injection E1 as <-. split; [|split].
    + exists []. split; [apply klists_nil, N|reflexivity].
    + intros t I. destruct (N t I).
    + eapply st_ext; [exact ST| |exact H1]. intros t. cbv beta. split; [apply N|intros []].
  - injection E1 as <- <-. exists a, b. split; [apply reached_least; assumption|auto].
  - injection E1 as <- <-. specialize (IH _ H1). destruct o as [[[b2|r] s2]| |]; [| | |exact IH].
    + destruct IH as ((l & Hl & W) & N & H2). split; [|split; [|exact H2]].
      * exists (a :: l). split; [apply klists_cons; assumption|]. cbn [walk]. rewrite F. exact W.
      * intros t I. destruct (Z.eq_dec (key a) (key t)) as [K|K].
        -- apply (st_inj ST) in K. subst t. exact Ns.
        -- apply N. specialize (L t I). split; [exact I|lia].
    + destruct IH as (x & b1 & Rx & Nx & Fx & H2). exists x, b1.
      split; [eapply reached_later; eassumption|]. split; [exact Nx|]. split; [exact Fx|].
      eapply st_ext; [exact ST| |exact H2]. intros t. cbv beta.
      destruct Rx as ([_ K] & _). split; [tauto|]. intros [I J]. repeat split; [exact I|lia|exact J].
    + destruct IH as (x & b1 & Rx & Fx). exists x, b1. split; [eapply reached_later; eassumption|exact Fx].
  - exists g, b. split; [apply reached_least; assumption|auto].
  - injection E1 as <- <-. exists a, b. split; [apply reached_least; assumption|auto].
Qed.

(** The iterator gets past the elements of [l] when the closure does. *)
Lemma gets_past {B R : Type} (f : B -> T -> outcome (B + R)) l : forall b b1 s P, holds s P ->
  StronglySorted (fun a c => key a < key c) l -> (forall t, In t l -> P t) ->
  (forall t u, P t -> In u l -> key t <= key u -> In t l) -> (forall t, In t l -> ~ stuck t) ->
  walk f b l = Ret (inl b1) ->
  exists s1, holds s1 (fun t => P t /\ ~ In t l) /\ forall o, try_folds next f b1 s1 o -> try_folds next f b s o.
Proof.
  induction l as [|a l IH]; intros b b1 s P HP So In1 Cl Ns W.
  - injection W as <-. exists s. split; [|auto]. eapply st_ext; [exact ST| |exact HP]. simpl. tauto.
  - cbn [walk] in W. destruct (f b a) as [[b'|r]| |] eqn:F; try discriminate. cbn [bind] in W.
    inversion So as [|? ? So' Al]; subst. rewrite Forall_forall in Al.
    destruct (st_next ST s P HP) as [(s1 & E1 & H1 & N)|[(e & s1 & E1 & Pe & L & Nse & H1)|(E1 & g & Pg & G & L)]].
    + destruct (N a). apply In1. now left.
    + assert (e = a) as ->.
      { apply (st_inj ST). pose proof (L a (In1 a (or_introl eq_refl))) as K.
        assert (J : In e (a :: l)) by (apply (Cl e a); [exact Pe|now left|exact K]).
        destruct J as [->|J]; [reflexivity|]. specialize (Al e J). lia. }
      destruct (IH b' b1 s1 _ H1 So') as (s2 & H2 & C2); try assumption.
      * intros t I. split; [apply In1; now right|apply Al; exact I].
      * intros t u [Pt K] I J. assert (Q : In t (a :: l)) by (apply (Cl t u); [exact Pt|now right|exact J]).
        destruct Q as [->|Q]; [lia|exact Q].
      * intros t I. apply Ns. now right.
      * exists s2. split.
        -- eapply st_ext; [exact ST| |exact H2]. intros t. cbv beta. cbn [In]. split.
           ++ intros [[I K] J]. split; [exact I|]. intros [->|Q]; [lia|exact (J Q)].
           ++ intros [I J]. assert (K : key a <> key t) by (intros K; apply (st_inj ST) in K; tauto).
              specialize (L t I). repeat split; [exact I|lia|tauto].
        -- intros o H. eapply tf_continue; eauto.
    + assert (K : key a = key g).
      { pose proof (L a (In1 a (or_introl eq_refl))). pose proof (st_stuck ST g a G). lia. }
      apply (st_inj ST) in K. subst g. destruct (Ns a); [now left|exact G].
Qed.
Lemma gets_to {B R : Type} (f : B -> T -> outcome (B + R)) b s P e b1 : holds s P -> reached f b P e b1 ->
  exists s1 P1, holds s1 P1 /\ P1 e /\ (forall t, P1 t <-> P t /\ key e <= key t) /\
    forall o, try_folds next f b1 s1 o -> try_folds next f b s o.
Proof.
  intros HP (Pe & l & [So Il] & W).
  destruct (gets_past f l b b1 s P HP So) as (s1 & H1 & C); try assumption.
  - intros t I. apply Il in I. apply I.
  - intros t u Pt I K. apply Il in I. apply Il. split; [exact Pt|lia].
  - intros t I G. apply Il in I. pose proof (st_stuck ST t e G). lia.
  - exists s1, (fun t => P t /\ ~ In t l).
    assert (Q : forall t, P t /\ ~ In t l <-> P t /\ key e <= key t).
    { intros t. rewrite Il. split; [intros [I N]; split; [exact I|]|intros [I N]; split; [exact I|lia]].
      destruct (Z_le_gt_dec (key e) (key t)); [assumption|]. destruct N. split; [exact I|lia]. }
    split; [exact H1|]. split; [apply Q; split; [exact Pe|lia]|]. split; [exact Q|exact C].
Qed.

Lemma breaks_iff {B R : Type} (f : B -> T -> outcome (B + R)) b s P r : holds s P ->
  ((exists s', try_folds next f b s (Ret (inr r, s'))) <->
   exists e b1, reached f b P e b1 /\ ~ stuck e /\ f b1 e = Ret (inr r)).
Proof.
  intros HP. split.
  - intros (s' & H). destruct (try_folds_inv f b s _ H P HP) as (e & b1 & A & C & D & _). eauto.
  - intros (e & b1 & A & C & D). destruct (gets_to f b s P e b1 HP A) as (s1 & P1 & H1 & Pe & Q & K).
    destruct (st_next ST s1 P1 H1) as [(s2 & E2 & H2 & N)|[(x & s2 & E2 & Px & L & Nx & H2)|(E2 & g & Pg & G & L)]].
    + destruct (N e Pe).
    + assert (x = e) as ->. { apply (st_inj ST). specialize (L e Pe). apply Q in Px. lia. }
      exists s2. apply K. eapply tf_break; eassumption.
    + exfalso. apply C. assert (g = e) as <-; [|exact G]. apply (st_inj ST). specialize (L e Pe). apply Q in Pg. lia.
Qed.
Lemma panics_iff {B R : Type} (f : B -> T -> outcome (B + R)) b s P : holds s P ->
  (try_folds next f b s Panic <-> exists e b1, reached f b P e b1 /\ (stuck e \/ f b1 e = Panic)).
Proof.
  intros HP. split.
  - intros H. exact (try_folds_inv f b s _ H P HP).
  - intros (e & b1 & A & C). destruct (gets_to f b s P e b1 HP A) as (s1 & P1 & H1 & Pe & Q & K).
    destruct (st_next ST s1 P1 H1) as [(s2 & E2 & H2 & N)|[(x & s2 & E2 & Px & L & Nx & H2)|(E2 & g & Pg & G & L)]].
    + destruct (N e Pe).
    + assert (x = e) as ->. { apply (st_inj ST). specialize (L e Pe). apply Q in Px. lia. }
      apply K. eapply tf_closure; [exact E2|]. destruct C; [contradiction|assumption].
    + apply K. apply tf_panic. exact E2.
Qed.
Lemma ends_iff {B R : Type} (f : B -> T -> outcome (B + R)) b s P b' : holds s P ->
  ((exists s', try_folds next f b s (Ret (inl b', s'))) <->
   (exists l, klists P l /\ walk f b l = Ret (inl b')) /\ forall t, P t -> ~ stuck t).
Proof.
  intros HP. split.
  - intros (s' & H). destruct (try_folds_inv f b s _ H P HP) as (A & C & _). auto.
  - intros [(l & [So Il] & W) N].
    destruct (gets_past f l b b' s P HP So) as (s1 & H1 & C); try assumption.
    + intros t I. apply Il, I.
    + intros t u Pt _ _. apply Il, Pt.
    + intros t I. apply N, Il, I.
    + destruct (st_next ST s1 _ H1) as [(s2 & E2 & H2 & _)|[(x & s2 & E2 & [Px J] & _)|(E2 & g & [Pg J] & _)]].
      * exists s2. apply C. apply tf_done. exact E2.
      * destruct J. apply Il, Px.
      * destruct J. apply Il, Pg.
Qed.

(** Draining what is left. *)
Lemma holds_drains s P l : holds s P ->
  (drains next s (Ret l) <-> klists P l /\ forall t, P t -> ~ stuck t).
Proof.
  intros HP. split.
  - remember (Ret l) as o eqn:E. intros H. revert l E P HP.
    induction H as [s s' E|s s' x o E H IH|s E]; intros l Eo P HP; [| |discriminate].
    + injection Eo as <-.
      destruct (st_next ST s P HP) as [(s1 & E1 & H1 & N)|[(e & s1 & E1 & _)|(E1 & _)]]; try congruence.
      split; [apply klists_nil, N|]. intros t I. destruct (N t I).
    + destruct o as [k| |]; try discriminate. injection Eo as <-.
      destruct (st_next ST s P HP) as [(s1 & E1 & _)|[(e & s1 & E1 & Pe & L & Ns & H1)|(E1 & _)]]; try congruence.
      rewrite E in E1. injection E1 as <- <-. destruct (IH k eq_refl _ H1) as [K N].
      split; [apply klists_cons; assumption|]. intros t I. destruct (Z.eq_dec (key x) (key t)) as [Q|Q].
      * apply (st_inj ST) in Q. subst t. exact Ns.
      * apply N. specialize (L t I). split; [exact I|lia].
  - revert s P HP. induction l as [|a l IH]; intros s P HP [[So Il] N].
    + destruct (st_next ST s P HP) as [(s1 & E1 & _)|[(e & s1 & E1 & Pe & _)|(E1 & g & Pg & _)]].
      * eapply drains_done. exact E1.
      * apply Il in Pe. destruct Pe.
      * apply Il in Pg. destruct Pg.
    + assert (Pa : P a) by (apply Il; now left). inversion So as [|? ? So' Al]; subst. rewrite Forall_forall in Al.
      destruct (st_next ST s P HP) as [(s1 & E1 & H1 & Em)|[(e & s1 & E1 & Pe & L & Ns & H1)|(E1 & g & Pg & G & _)]].
      * destruct (Em a Pa).
      * assert (e = a) as ->.
        { apply Il in Pe. destruct Pe as [->|I]; [reflexivity|]. specialize (Al e I). specialize (L a Pa). lia. }
        change (Ret (a :: l)) with (k <- Ret l ;; Ret (a :: k)). eapply drains_item; [exact E1|].
        apply (IH s1 _ H1). split; [split; [exact So'|]|intros t [I _]; auto].
        intros t. split.
        -- intros I. split; [apply Il; now right|auto].
        -- intros [I K]. apply Il in I. destruct I as [->|I]; [lia|exact I].
      * destruct (N g Pg G).
Qed.
End Keyed.
Arguments klists {T} key P l.
Arguments steps {T S} key stuck next holds.
Arguments reached {T} key {B R} f b P e b1.

Section Crate.
Context {T : Type} {PF : Platform} {OT : Ord T} {ST : Step T} {NU : Numbered T} {SL : StepLaws T}.

(** The elements an iterator of the crate still has. *)
Definition hold (i : any_iter T) (P : T -> Prop) : Prop :=
  match i with
  | NoneLeft => forall t, ~ P t
  | OfRange it => forall t, P t <-> idx (bri_current it) <= idx t <= idx (bri_last_field it)
  | OfSet it => exists l, holds_set it l /\ lists P l
  | OfLower it => forall t, P t <-> idx (lbri_current it) <= idx t
  | OfLowerSet it =>
    exists l, holds_set (lbsi_set_iter it) l /\ StronglySorted lt l /\
      (forall t, In t l -> idx t < idx (lbri_current (lbsi_range_iter it))) /\
      forall t, P t <-> In t l \/ idx (lbri_current (lbsi_range_iter it)) <= idx t
  end.

Lemma klists_lists (P : T -> Prop) l : klists idx P l <-> lists P l.
Proof.
  unfold klists, lists. split; intros [A B]; (split; [|exact B]); clear B; induction A as [|x l A IH F]; constructor; auto;
    eapply Forall_impl; try exact F; cbv beta; intros y; rewrite lt_idx; auto.
Qed.
Lemma klists_back (P : T -> Prop) l : klists (fun t => - idx t) P l <-> lists P (rev l).
Proof.
  assert (R : forall l, StronglySorted (fun a b => - idx a < - idx b) l -> StronglySorted lt (rev l)).
  { induction 1 as [|x k A IH F]; cbn [rev]; [constructor|]. apply sorted_app; [exact IH|repeat constructor|].
    rewrite Forall_forall in F. intros u w I [<-|[]]. apply in_rev, F in I. apply lt_idx. lia. }
  assert (R' : forall l, StronglySorted lt l -> StronglySorted (fun a b => - idx a < - idx b) (rev l)).
  { intros k Hk. assert (G : forall l1, StronglySorted (fun a b : T => - idx a < - idx b) l1 -> forall x,
      (forall y, In y l1 -> lt x y) -> StronglySorted (fun a b => - idx a < - idx b) (l1 ++ [x])).
    { induction 1 as [|y l1 A IH F]; intros x L; cbn [app]; [repeat constructor|]. constructor.
      - apply IH. intros z I. apply L. now right.
      - apply Forall_forall. intros z I. apply in_app_or in I. destruct I as [I|[<-|[]]].
        + rewrite Forall_forall in F. apply F, I.
        + assert (lt x y) as Q by (apply L; now left). apply lt_idx in Q. lia. }
    induction Hk as [|x k A IH F]; cbn [rev]; [constructor|]. apply G; [exact IH|].
    rewrite Forall_forall in F. intros y I. apply F, in_rev, I. }
  unfold klists, lists. split; intros [A B]; (split; [|intros t; rewrite <- B, <- in_rev; reflexivity]).
  - apply R, A.
  - apply R' in A. rewrite rev_involutive in A. exact A.
Qed.
Lemma sorted_hd (x : T) l t : StronglySorted lt (x :: l) -> In t (x :: l) -> idx x <= idx t.
Proof.
  intros A [->|I]; [lia|]. inversion A as [|? ? _ F]; subst. rewrite Forall_forall in F. apply F, lt_idx in I. lia.
Qed.
Lemma lists_tl (P : T -> Prop) x l : lists P (x :: l) -> lists (fun t => P t /\ idx x < idx t) l.
Proof.
  intros [A B]. inversion A as [|? ? A' F]; subst. rewrite Forall_forall in F. split; [exact A'|]. intros t. split.
  - intros I. split; [apply B; now right|]. apply lt_idx, F, I.
  - intros [I K]. apply B in I. destruct I as [->|I]; [lia|exact I].
Qed.
(** The elements of a list below (above) one. *)
Lemma filter_lists (l : list T) (p : T -> bool) : StronglySorted lt l ->
  lists (fun t => In t l /\ p t = true) (filter p l).
Proof.
  intros A. split; [|intros t; apply filter_In]. induction A as [|x l A IH F]; cbn [filter]; [constructor|].
  destruct (p x); [|exact IH]. constructor; [exact IH|]. rewrite Forall_forall in *. intros y I. apply filter_In in I.
  apply F, I.
Qed.

Lemma hold_next i P : hold i P ->
  (exists i', ai_next Debug i = Ret (None, i') /\ hold i' P /\ forall t, ~ P t) \/
  (exists e i', ai_next Debug i = Ret (Some e, i') /\ P e /\ (forall t, P t -> idx e <= idx t) /\ ~ greatest e /\
     hold i' (fun t => P t /\ idx e < idx t)) \/
  (ai_next Debug i = Panic /\ exists g, P g /\ greatest g /\ forall t, P t -> idx g <= idx t).
Proof.
  destruct i as [|it|it|it|it]; cbn [hold ai_next]; intros H.
  - left. exists NoneLeft. auto.
  - unfold bri_next. rewrite t_gt_idx. destruct (_ <? _) eqn:C.
    + left. exists (OfRange it). split; [reflexivity|]. split; [exact H|]. intros t I. apply H in I. lia.
    + right. destruct (fwd_cases (bri_current it) 1 one_ok) as [(b & -> & Hb)|[-> Hb]].
      * left. exists (bri_current it), (OfRange (BRI b (bri_last_field it))). split; [reflexivity|].
        split; [apply H; lia|]. split; [intros t I; apply H in I; lia|]. split.
        -- intros G. apply greatest_idx with (u := b) in G. lia.
        -- cbn [hold bri_current bri_last_field]. intros t. rewrite H. lia.
      * right. split; [reflexivity|]. exists (bri_current it). split; [apply H; lia|].
        split; [apply greatest_idx; intros u; specialize (Hb u); lia|]. intros t I. apply H in I. lia.
  - destruct H as (l & H & L). destruct (bsi_next_cases it l H) as [(it' & -> & K & N)|[-> (x & l' & -> & G)]].
    + destruct l as [|x l]; cbn [hd_error tl] in *.
      * left. exists (OfSet it'). split; [reflexivity|]. split; [exists []; auto|]. intros t I. apply L in I. destruct I.
      * right. left. exists x, (OfSet it'). split; [reflexivity|]. split; [apply L; now left|].
        split; [intros t I; apply L in I; eapply sorted_hd; [apply L|exact I]|]. split; [eapply N; reflexivity|].
        exists l. split; [exact K|]. apply lists_tl, L.
    + right. right. split; [reflexivity|]. exists x. split; [apply L; now left|]. split; [exact G|].
      intros t I. apply L in I. eapply sorted_hd; [apply L|exact I].
  - unfold lbri_next. destruct (fwd_cases (lbri_current it) 1 one_ok) as [(b & -> & Hb)|[-> Hb]].
    + right. left. exists (lbri_current it), (OfLower (LBRI b)). split; [reflexivity|]. split; [apply H; lia|].
      split; [intros t I; apply H in I; lia|]. split; [intros G; apply greatest_idx with (u := b) in G; lia|].
      cbn [hold lbri_current]. intros t. rewrite H. lia.
    + right. right. split; [reflexivity|]. exists (lbri_current it). split; [apply H; lia|].
      split; [apply greatest_idx; intros u; specialize (Hb u); lia|]. intros t I. apply H in I. lia.
  - destruct H as (l & H & So & B & L). unfold lbsi_next.
    destruct (bsi_next_cases _ l H) as [(it' & -> & K & N)|[_ (x & l' & -> & G)]].
    + cbn [bind fst snd]. destruct l as [|x l]; cbn [hd_error tl] in *.
      * unfold lbri_next. destruct (fwd_cases (lbri_current (lbsi_range_iter it)) 1 one_ok) as [(b & -> & Hb)|[-> Hb]].
        -- right. left. exists (lbri_current (lbsi_range_iter it)), (OfLowerSet (LBSI it' (LBRI b))).
           split; [reflexivity|]. split; [apply L; right; lia|].
           split; [intros t I; apply L in I; destruct I as [[]|I]; exact I|].
           split; [intros G; apply greatest_idx with (u := b) in G; lia|].
           exists []. split; [exact K|]. split; [constructor|]. split; [intros t []|].
           cbn [lbri_current lbsi_range_iter]. intros t. rewrite L. simpl. split; [intros [[[]|I] J]; right; lia|intros [[]|I]; split; [right; lia|lia]].
        -- right. right. split; [reflexivity|]. exists (lbri_current (lbsi_range_iter it)).
           split; [apply L; right; lia|]. split; [apply greatest_idx; intros u; specialize (Hb u); lia|].
           intros t I. apply L in I. destruct I as [[]|I]. exact I.
      * right. left. exists x, (OfLowerSet (LBSI it' (lbsi_range_iter it))). split; [reflexivity|].
        split; [apply L; left; now left|]. pose proof (B x (or_introl eq_refl)) as Bx. split.
        { intros t I. apply L in I. destruct I as [I|I]; [eapply sorted_hd; [exact So|exact I]|lia]. }
        split; [eapply N; reflexivity|]. inversion So as [|? ? So' F]; subst. rewrite Forall_forall in F.
        exists l. split; [exact K|]. split; [exact So'|]. split; [intros t I; apply B; now right|].
        cbn [lbsi_range_iter]. intros t. rewrite L. cbn [In]. split.
        -- intros [[[->|I]|I] J]; [lia|auto|auto].
        -- intros [I|I]; [split; [auto|apply lt_idx, F, I]|split; [auto|lia]].
    + exfalso. pose proof (B x (or_introl eq_refl)) as Bx.
      apply greatest_idx with (u := lbri_current (lbsi_range_iter it)) in G. lia.
Qed.
Lemma hold_ext i P Q : (forall t, P t <-> Q t) -> hold i P -> hold i Q.
Proof.
  intros E. destruct i as [|it|it|it|it]; cbn [hold].
  - intros H t I. apply (H t), E, I.
  - intros H t. rewrite <- E. apply H.
  - intros (l & H & L). exists l. split; [exact H|]. eapply lists_ext; [exact E|exact L].
  - intros H t. rewrite <- E. apply H.
  - intros (l & H & So & B & L). exists l. repeat split; auto; intros I; [apply L, E, I|apply E, L, I].
Qed.
Lemma hold_below i P e : hold i P -> P e -> exists l, lists (fun t => P t /\ lt t e) l.
Proof.
  destruct i as [|it|it|it|it]; cbn [hold]; intros H Pe.
  - destruct (H e Pe).
  - destruct (span_exists (bri_current it) e (idx (bri_current it)) (idx e - 1)) as [l Hl]; [lia..|].
    exists l. eapply lists_ext; [|apply span_lists; exact Hl]. intros t. cbv beta. rewrite H, lt_idx.
    apply H in Pe. lia.
  - destruct H as (l & _ & [So Il]). exists (filter (fun t => t_lt t e) l).
    eapply lists_ext; [|apply filter_lists; exact So]. intros t. cbv beta. rewrite Il, t_lt_idx, lt_idx. split; intros [A B]; split; auto; lia.
  - destruct (span_exists (lbri_current it) e (idx (lbri_current it)) (idx e - 1)) as [l Hl]; [lia..|].
    exists l. eapply lists_ext; [|apply span_lists; exact Hl]. intros t. cbv beta. rewrite H, lt_idx. lia.
  - destruct H as (l & _ & So & B & L).
    destruct (span_exists (lbri_current (lbsi_range_iter it)) e (idx (lbri_current (lbsi_range_iter it))) (idx e - 1)) as [k Hk]; [lia..|].
    pose proof (filter_lists l (fun t => t_lt t e) So) as [Sf If]. apply span_lists in Hk. destruct Hk as [Sk Ik].
    exists (filter (fun t => t_lt t e) l ++ k). split.
    + apply sorted_app; [exact Sf|exact Sk|]. intros x y I J. apply If in I. apply Ik in J. apply lt_idx.
      destruct I as [I _]. apply B in I. lia.
    + intros t. rewrite in_app_iff, If, Ik, L, t_lt_idx, lt_idx. split.
      * intros [[I J]|I]; split; auto; lia.
      * intros [[I|I] J]; [left; split; [auto|lia]|right; lia].
Qed.
Lemma ai_steps : steps idx greatest (ai_next Debug) hold.
Proof.
  split.
  - apply idx_inj.
  - intros g t G. apply greatest_idx with (u := t) in G. exact G.
  - intros s P e H Pe. destruct (hold_below s P e H Pe) as [l L]. exists l. apply klists_lists.
    eapply lists_ext; [|exact L]. intros t. cbv beta. rewrite lt_idx. reflexivity.
  - exact hold_next.
  - exact hold_ext.
Qed.

(** Backwards: iterators of bounded values. *)
Definition hold_back (i : any_iter T) (P : T -> Prop) : Prop :=
  match i with OfLower _ | OfLowerSet _ => False | _ => hold i P end.
Lemma hold_next_back i P : hold_back i P ->
  (exists i', ai_next_back Debug i = Ret (None, i') /\ hold_back i' P /\ forall t, ~ P t) \/
  (exists e i', ai_next_back Debug i = Ret (Some e, i') /\ P e /\ (forall t, P t -> - idx e <= - idx t) /\ ~ least e /\
     hold_back i' (fun t => P t /\ - idx e < - idx t)) \/
  (ai_next_back Debug i = Panic /\ exists g, P g /\ least g /\ forall t, P t -> - idx g <= - idx t).
Proof.
  assert (LI : forall x u : T, least x -> idx x <= idx u) by (intros x u G; apply le_idx, G).
  destruct i as [|it|it|it|it]; cbn [hold_back hold ai_next_back]; intros H; [| | |destruct H|destruct H].
  - left. exists NoneLeft. auto.
  - unfold bri_next_back. rewrite t_gt_idx. destruct (_ <? _) eqn:C.
    + left. exists (OfRange it). split; [reflexivity|]. split; [exact H|]. intros t I. apply H in I. lia.
    + right. destruct (bwd_cases (bri_last_field it) 1 one_ok) as [(b & -> & Hb)|[-> Hb]].
      * left. exists (bri_last_field it), (OfRange (BRI (bri_current it) b)). split; [reflexivity|].
        split; [apply H; lia|]. split; [intros t I; apply H in I; lia|]. split.
        -- intros G. specialize (LI _ b G). lia.
        -- cbn [hold_back hold bri_current bri_last_field]. intros t. rewrite H. lia.
      * right. split; [reflexivity|]. exists (bri_last_field it). split; [apply H; lia|].
        split; [intros u; apply le_idx; specialize (Hb u); lia|]. intros t I. apply H in I. lia.
  - destruct H as (l & H & L). destruct (bsi_next_back_cases it l H) as [(it' & -> & K & N)|[-> (x & l' & E & G)]].
    + assert (L' : klists (fun t => - idx t) P (rev l)) by (apply klists_back; rewrite rev_involutive; exact L).
      destruct (rev l) as [|x k]; cbn [hd_error tl] in *.
      * left. exists (OfSet it'). split; [reflexivity|]. destruct L' as [_ L']. split.
        { exists []. split; [exact K|]. split; [constructor|exact L']. }
        intros t I. apply L' in I. destruct I.
      * right. left. exists x, (OfSet it'). split; [reflexivity|]. destruct L' as [So L']. split; [apply L'; now left|].
        inversion So as [|? ? So' F]; subst. rewrite Forall_forall in F. split.
        { intros t I. apply L' in I. destruct I as [->|I]; [lia|]. apply F in I. lia. }
        split; [eapply N; reflexivity|]. exists (rev k). split; [exact K|]. apply klists_back. split; [exact So'|].
        intros t. split.
        -- intros I. split; [apply L'; now right|apply F, I].
        -- intros [I J]. apply L' in I. destruct I as [->|I]; [lia|exact I].
    + right. right. split; [reflexivity|]. exists x.
      assert (L' : klists (fun t => - idx t) P (rev l)) by (apply klists_back; rewrite rev_involutive; exact L).
      rewrite E in L'. destruct L' as [So L']. split; [apply L'; now left|]. split; [exact G|].
      inversion So as [|? ? So' F]; subst. rewrite Forall_forall in F.
      intros t I. apply L' in I. destruct I as [->|I]; [lia|]. apply F in I. lia.
Qed.
Lemma hold_back_lists i P : hold_back i P -> exists l, lists P l.
Proof.
  destruct i as [|it|it|it|it]; cbn [hold_back hold]; intros H; [| | |destruct H|destruct H].
  - exists []. split; [constructor|]. intros t. split; [intros []|apply H].
  - destruct (holds_exists it) as [l Hl]. exists l. eapply lists_ext; [|apply span_lists; exact Hl].
    intros t. cbv beta. symmetry. apply H.
  - destruct H as (l & _ & L). eauto.
Qed.
Lemma ai_steps_back : steps (fun t => - idx t) least (ai_next_back Debug) hold_back.
Proof.
  split.
  - intros a b E. apply idx_inj. lia.
  - intros g t G. specialize (G t). apply le_idx in G. lia.
  - intros s P e H Pe. destruct (hold_back_lists s P H) as [l [So Il]].
    exists (rev (filter (fun t => t_lt e t) l)). apply klists_back. rewrite rev_involutive.
    eapply lists_ext; [|apply filter_lists; exact So]. intros t. cbv beta. rewrite Il, t_lt_idx. split; intros [A B]; split; auto; lia.
  - exact hold_next_back.
  - intros s P Q E. destruct s; cbn [hold_back]; try (apply hold_ext; exact E); auto.
Qed.

Lemma into_iter_hold v i : api v -> sized v -> v_into_iter Debug v = Some (Ret i) -> hold i (mem v).
Proof.
  intros A Sz E. destruct v; cbn [v_into_iter sized] in *; try discriminate.
  - injection E as E. inv_bind E. injection E as <-. cbn [hold mem]. intros t.
    destruct (holds_exists a) as [l Hl]. pose proof (proj1 (into_iter_holds _ _ l E0) Hl) as [_ K].
    rewrite <- K. apply (span_in _ _ _ t Hl).
  - injection E as E. inv_bind E. injection E as <-. cbn [hold mem]. apply lbr_into_iter_spec, E0.
  - injection E as <-. intros t [].
  - injection E as E. inv_bind E. injection E as <-. cbn [hold].
    destruct (bs_into_iter_holds s (api_valid _ A) Sz) as (it & l & E' & H & L).
    rewrite E0 in E'. injection E' as <-. eauto.
  - injection E as E. inv_bind E. injection E as <-. cbn [hold].
    destruct (lbs_start s a A Sz E0) as (l & c0 & (_ & H & C) & L & P & B). cbn [skipn Z.to_nat] in H.
    exists l. split; [exact H|]. split; [apply L|].
    assert (Q : idx (lbri_current (lbsi_range_iter a)) = idx c0) by lia. rewrite Q. split.
    + intros t I. apply B, L, I.
    + intros t. rewrite P. destruct L as [_ L]. rewrite L. reflexivity.
Qed.
Lemma into_iter_hold_back v i : api v -> sized v -> v_into_iter Debug v = Some (Ret i) ->
  match v with VLBR _ | VLBS _ => False | _ => True end -> hold_back i (mem v).
Proof.
  intros A Sz E B. pose proof (into_iter_hold v i A Sz E) as H.
  destruct v; cbn [v_into_iter] in E; try discriminate; try destruct B; injection E as E; try (inv_bind E; injection E as <-; exact H).
  subst i. exact H.
Qed.
Lemma ai_len_spec i P l : hold_back i P -> lists P l -> Z.of_nat (length l) <= usize_max ->
  ai_len Debug i = Ret (Z.of_nat (length l)).
Proof.
  destruct i as [|it|it|it|it]; cbn [hold_back hold ai_len]; intros H L Sm; [| | |destruct H|destruct H].
  - destruct l as [|x l]; [reflexivity|]. destruct (H x). apply L. now left.
  - apply len_small; [|exact Sm]. destruct (holds_exists it) as [k Hk].
    assert (l = k) as ->; [|exact Hk]. apply (lists_unique P); [exact L|]. eapply lists_ext; [|apply span_lists; exact Hk].
    intros t. cbv beta. symmetry. apply H.
  - destruct H as (k & H & K). rewrite (lists_unique _ _ _ L K) in *. rewrite (bsi_len_spec _ _ H).
    destruct (_ <=? _) eqn:C; [reflexivity|lia].
Qed.

Lemma ai_next_agree i x : ai_next Debug i = Ret x -> ai_next Release i = Ret x.
Proof.
  destruct i as [|it|it|it|it]; cbn [ai_next]; intros E; auto; unfold with_state in *; inv_bind E.
  - rewrite (next_agree _ _ E0). exact E.
  - rewrite (bsi_next_agree _ _ E0). exact E.
  - pose proof (lbri_call_agree it UpNext _ I E0) as Q. cbn [lbri_call] in Q. rewrite Q. exact E.
  - pose proof (lbsi_call_agree it UpNext _ I E0) as Q. cbn [lbsi_call] in Q. rewrite Q. exact E.
Qed.
Lemma ai_next_back_agree i x : ai_next_back Debug i = Ret x -> ai_next_back Release i = Ret x.
Proof.
  destruct i as [|it|it|it|it]; cbn [ai_next_back]; intros E; try discriminate; auto; unfold with_state in *; inv_bind E.
  - rewrite (next_back_agree _ _ E0). exact E.
  - rewrite (bsi_next_back_agree _ _ E0). exact E.
Qed.
Lemma v_into_iter_agree v i : v_into_iter Debug v = Some (Ret i) -> v_into_iter Release v = Some (Ret i).
Proof.
  destruct v; cbn [v_into_iter]; intros E; try discriminate; auto; injection E as E; inv_bind E; injection E as <-.
  - rewrite (into_iter_agree _ _ E0). reflexivity.
  - rewrite (lbr_into_iter_agree _ _ E0). reflexivity.
  - rewrite (bs_into_iter_agree _ _ E0). reflexivity.
  - rewrite (lbs_into_iter_agree _ _ E0). reflexivity.
Qed.
End Crate.

(** ** The closures of the searching methods *)
Section Closures.
Context {T S : Type} {key : T -> Z} {stuck : T -> Prop} {next : S -> outcome (option T * S)} {holds : S -> (T -> Prop) -> Prop}.
Hypothesis STP : steps key stuck next holds.

Lemma walk_stop {A R : Type} (f : unit -> A -> outcome (unit + R)) (g : A -> option R) :
  (forall a, f tt a = Ret (match g a with Some r => inr r | None => inl tt end)) ->
  forall l u, walk f tt l = Ret (inl u) <-> forall a, In a l -> g a = None.
Proof.
  intros F l []. induction l as [|a l IH]; cbn [walk].
  - split; [intros _ a []|reflexivity].
  - rewrite F. cbn [bind]. destruct (g a) eqn:G.
    + split; [discriminate|]. intros H. rewrite (H a) in G by now left. discriminate.
    + rewrite IH. split; intros H b; [intros [<-|I]; auto|intros I; apply H; now right].
Qed.
Lemma stop_reached {R : Type} (f : unit -> T -> outcome (unit + R)) (g : T -> option R) s P e u :
  (forall a, f tt a = Ret (match g a with Some r => inr r | None => inl tt end)) -> holds s P ->
  (reached key f tt P e u <-> P e /\ forall t, P t -> key t < key e -> g t = None).
Proof.
  intros F H. split.
  - intros (Pe & l & [_ Il] & W). split; [exact Pe|]. pose proof (proj1 (walk_stop f g F l u) W) as W'.
    intros t I K. apply W', Il. auto.
  - intros [Pe N]. split; [exact Pe|]. destruct (st_below _ _ _ _ STP s P e H Pe) as [l L]. exists l. split; [exact L|].
    apply (walk_stop f g F). intros t I. apply L in I. apply N; apply I.
Qed.
Lemma stop_iff {R : Type} (f : unit -> T -> outcome (unit + R)) (g : T -> option R) s P :
  (forall a, f tt a = Ret (match g a with Some r => inr r | None => inl tt end)) -> holds s P ->
  (forall r, (exists s', try_folds next f tt s (Ret (inr r, s'))) <->
     exists e, P e /\ ~ stuck e /\ g e = Some r /\ forall t, P t -> key t < key e -> g t = None) /\
  (forall u, (exists s', try_folds next f tt s (Ret (inl u, s'))) <->
     (exists l, klists key P l) /\ forall t, P t -> g t = None /\ ~ stuck t) /\
  (try_folds next f tt s Panic <->
     exists e, P e /\ stuck e /\ forall t, P t -> key t < key e -> g t = None).
Proof.
  intros F H. repeat split.
  - intros X. apply (breaks_iff _ _ _ _ STP f tt s P r H) in X. destruct X as (e & [] & Re & N & Fe).
    apply (stop_reached f g s P e tt F H) in Re. exists e. rewrite F in Fe. destruct (g e); [|discriminate].
    injection Fe as <-. tauto.
  - intros (e & Pe & N & G & L). apply (breaks_iff _ _ _ _ STP f tt s P r H). exists e, tt.
    split; [apply (stop_reached f g s P e tt F H); auto|]. split; [exact N|]. rewrite F, G. reflexivity.
  - apply (ends_iff _ _ _ _ STP f tt s P u H) in H0. destruct H0 as [(l & L & _) _]. eauto.
  - apply (ends_iff _ _ _ _ STP f tt s P u H) in H0. destruct H0 as [(l & L & W) _].
    apply (proj1 (walk_stop f g F l u) W). apply L, H1.
  - apply (ends_iff _ _ _ _ STP f tt s P u H) in H0. destruct H0 as [_ N]. apply N, H1.
  - intros [(l & L) N]. apply (ends_iff _ _ _ _ STP f tt s P u H). split; [|intros t I; apply N, I].
    exists l. split; [exact L|]. apply (walk_stop f g F). intros t I. apply N, L, I.
  - intros X. apply (panics_iff _ _ _ _ STP f tt s P H) in X. destruct X as (e & [] & Re & Fe).
    apply (stop_reached f g s P e tt F H) in Re. exists e. rewrite F in Fe. destruct Fe as [Fe|Fe]; [tauto|discriminate].
  - intros (e & Pe & N & L). apply (panics_iff _ _ _ _ STP f tt s P H). exists e, tt.
    split; [apply (stop_reached f g s P e tt F H); auto|auto].
Qed.

(** Counting up, with a check. *)
Lemma walk_count {PF : Platform} (p : T -> bool) l : forall i k, 0 <= i <= usize_max ->
  walk (R := Z) (fun i a => if p a then Ret (inr i) else j <- usize_add Debug i 1 ;; Ret (inl j)) i l = Ret (inl k) <->
  k = i + Z.of_nat (length l) /\ k <= usize_max /\ forall a, In a l -> p a = false.
Proof.
  induction l as [|a l IH]; intros i k Hi; cbn [walk length].
  - split; [intros E; injection E as <-; repeat split; [lia|lia|intros a []]|]. intros (-> & _ & _). do 2 f_equal. lia.
  - destruct (p a) eqn:Pa; cbn [bind].
    + split; [discriminate|]. intros (_ & _ & N). rewrite (N a) in Pa by now left. discriminate.
    + destruct (usize_add Debug i 1) as [j| |] eqn:U; cbn [bind].
      * apply usize_add_debug in U. destruct U as [-> U]. rewrite IH by lia.
        split; intros (E & M & N); repeat split; try lia.
        -- intros b [<-|I]; auto.
        -- intros b I. apply N. now right.
      * split; [discriminate|]. intros (E & M & _). assert (X : usize_add Debug i 1 = Ret (i + 1)) by (apply usize_add_debug; lia). congruence.
      * split; [discriminate|]. intros (E & M & _). assert (X : usize_add Debug i 1 = Ret (i + 1)) by (apply usize_add_debug; lia). congruence.
Qed.
(** Counting down from the length. *)
Lemma walk_count_down {PF : Platform} (p : T -> bool) l : forall i k, Z.of_nat (length l) <= i <= usize_max ->
  walk (R := Z) (fun i a => j <- usize_sub Release i 1 ;; Ret (if p a then inr j else inl j)) i l = Ret (inl k) <->
  k = i - Z.of_nat (length l) /\ forall a, In a l -> p a = false.
Proof.
  induction l as [|a l IH]; intros i k Hi; cbn [walk length] in *.
  - split; [intros E; injection E as <-; split; [lia|intros a []]|]. intros (-> & _). do 2 f_equal. lia.
  - unfold usize_sub at 1. destruct (0 <=? i - 1) eqn:C; [|lia]. cbn [bind]. destruct (p a) eqn:Pa; cbn [bind].
    + split; [discriminate|]. intros (_ & N). rewrite (N a) in Pa by now left. discriminate.
    + rewrite IH by lia. split; intros (E & N); (split; [lia|]).
      * intros b [<-|I]; auto.
      * intros b I. apply N. now right.
Qed.
Lemma via_ret {X Y S' : Type} (h : X -> Y) (tf : outcome (X * S') -> Prop) y :
  (exists s, exists x, tf x /\ Ret (y, s) = (q <- x ;; Ret (h (fst q), snd q))) <-> exists x s, tf (Ret (x, s)) /\ h x = y.
Proof.
  split.
  - intros (s & x & X1 & E). destruct x as [[x s0]| |]; try discriminate. injection E as -> ->. eauto.
  - intros (x & s & X1 & <-). exists s, (Ret (x, s)). split; [exact X1|reflexivity].
Qed.
Lemma via_panic {X Y S' : Type} (h : X -> Y) (tf : outcome (X * S') -> Prop) :
  (exists x, tf x /\ Panic = (q <- x ;; Ret (h (fst q), snd q))) <-> tf Panic.
Proof.
  split; [|intros X1; exists Panic; auto]. intros (x & X1 & E). destruct x as [[x s0]| |]; try discriminate. exact X1.
Qed.

Lemma finds_keyed (p : T -> bool) s P : holds s P ->
  (forall e, (exists s', finds next p s (Ret (Some e, s'))) <->
     (P e /\ p e = true /\ forall t, P t -> key t < key e -> p t = false) /\ ~ stuck e) /\
  ((exists s', finds next p s (Ret (None, s'))) <-> (exists l, klists key P l) /\ forall t, P t -> p t = false /\ ~ stuck t) /\
  (finds next p s Panic <-> exists g, P g /\ stuck g /\ forall t, P t -> key t < key g -> p t = false).
Proof.
  intros H. set (g := fun a : T => if p a then Some a else None).
  destruct (stop_iff (fun (_ : unit) a => Ret (if p a then inr a else inl tt)) g s P) as (Hb & He & Hp); [|exact H|].
  { intros a. unfold g. destruct (p a); reflexivity. }
  assert (G : forall t, g t = None <-> p t = false) by (intros t; unfold g; destruct (p t); split; congruence).
  split; [|split].
  - intros e. unfold finds. rewrite via_ret. split.
    + intros ([u|r] & s' & X & V); [discriminate|]. injection V as ->. destruct (proj1 (Hb e) (ex_intro _ s' X)) as (e' & Pe & N & Ge & L).
      unfold g in Ge. destruct (p e') eqn:Pe'; [|discriminate]. injection Ge as ->.
      split; [|exact N]. split; [exact Pe|]. split; [exact Pe'|]. intros t I K. apply G, L; assumption.
    + intros [(Pe & Te & L) N]. destruct (proj2 (Hb e)) as [s' X].
      { exists e. unfold g at 1. rewrite Te. repeat split; auto. intros t I K. apply G, L; assumption. }
      exists (inr e), s'. auto.
  - unfold finds. rewrite via_ret. split.
    + intros ([u|r] & s' & X & V); [|discriminate]. destruct (proj1 (He u) (ex_intro _ s' X)) as [L N].
      split; [exact L|]. intros t I. destruct (N t I). split; [apply G|]; assumption.
    + intros [L N]. destruct (proj2 (He tt)) as [s' X].
      { split; [exact L|]. intros t I. destruct (N t I). split; [apply G|]; assumption. }
      exists (inl tt), s'. auto.
  - unfold finds. rewrite via_panic, Hp. split; intros (e & Pe & N & L); exists e; repeat split; auto; intros t I K; apply G, L; assumption.
Qed.
Lemma finds_map_keyed {B : Type} (g : T -> option B) s P : holds s P ->
  (forall b, (exists s', finds_map next g s (Ret (Some b, s'))) <->
     exists e, P e /\ ~ stuck e /\ g e = Some b /\ forall t, P t -> key t < key e -> g t = None) /\
  ((exists s', finds_map next g s (Ret (None, s'))) <-> (exists l, klists key P l) /\ forall t, P t -> g t = None /\ ~ stuck t) /\
  (finds_map next g s Panic <-> exists e, P e /\ stuck e /\ forall t, P t -> key t < key e -> g t = None).
Proof.
  intros H.
  destruct (stop_iff (fun (_ : unit) a => Ret (match g a with Some b => inr b | None => inl tt end)) g s P) as (Hb & He & Hp); [reflexivity|exact H|].
  unfold finds_map. split; [|split].
  - intros b. rewrite via_ret, <- Hb. split.
    + intros ([u|r] & s' & X & V); [discriminate|]. injection V as ->. eauto.
    + intros (s' & X). exists (inr b), s'. auto.
  - rewrite via_ret, <- (He tt). split.
    + intros ([[]|r] & s' & X & V); [|discriminate]. eauto.
    + intros (s' & X). exists (inl tt), s'. auto.
  - rewrite via_panic. exact Hp.
Qed.
Lemma anys_keyed (p : T -> bool) s P : holds s P ->
  ((exists s', anys next p s (Ret (true, s'))) <->
     exists e, P e /\ ~ stuck e /\ p e = true /\ forall t, P t -> key t < key e -> p t = false) /\
  ((exists s', anys next p s (Ret (false, s'))) <-> (exists l, klists key P l) /\ forall t, P t -> p t = false /\ ~ stuck t) /\
  (anys next p s Panic <-> exists e, P e /\ stuck e /\ forall t, P t -> key t < key e -> p t = false).
Proof.
  intros H. set (g := fun a : T => if p a then Some tt else None).
  destruct (stop_iff (fun (_ : unit) a => Ret (if p a then inr tt else inl tt)) g s P) as (Hb & He & Hp); [|exact H|].
  { intros a. unfold g. destruct (p a); reflexivity. }
  assert (G : forall t, g t = None <-> p t = false) by (intros t; unfold g; destruct (p t); split; congruence).
  assert (G' : forall t, g t = Some tt <-> p t = true) by (intros t; unfold g; destruct (p t); split; congruence).
  unfold anys. split; [|split].
  - rewrite via_ret. split.
    + intros ([u|[]] & s' & X & V); [discriminate|]. destruct (proj1 (Hb tt) (ex_intro _ s' X)) as (e & Pe & N & Ge & L).
      exists e. repeat split; auto; [apply G', Ge|]. intros t I K. apply G, L; assumption.
    + intros (e & Pe & N & Ge & L). destruct (proj2 (Hb tt)) as [s' X].
      { exists e. repeat split; auto; [apply G', Ge|]. intros t I K. apply G, L; assumption. }
      exists (inr tt), s'. auto.
  - rewrite via_ret. split.
    + intros ([u|r] & s' & X & V); [|discriminate]. destruct (proj1 (He u) (ex_intro _ s' X)) as [L N].
      split; [exact L|]. intros t I. destruct (N t I). split; [apply G|]; assumption.
    + intros [L N]. destruct (proj2 (He tt)) as [s' X].
      { split; [exact L|]. intros t I. destruct (N t I). split; [apply G|]; assumption. }
      exists (inl tt), s'. auto.
  - rewrite via_panic, Hp. split; intros (e & Pe & N & L); exists e; repeat split; auto; intros t I K; apply G, L; assumption.
Qed.
(** [all] is [any] of the opposite, with the answers exchanged. *)
Lemma alls_anys (p : T -> bool) s :
  (forall b, (exists s', alls next p s (Ret (b, s'))) <-> exists s', anys next (fun t => negb (p t)) s (Ret (negb b, s'))) /\
  (alls next p s Panic <-> anys next (fun t => negb (p t)) s Panic).
Proof.
  assert (X : forall x, try_folds next (fun (_ : unit) a => Ret (if p a then inl tt else inr tt)) tt s x <->
    try_folds next (fun (_ : unit) a => Ret (if negb (p a) then inr tt else inl tt)) tt s x).
  { assert (E : forall a, (if p a then inl tt else inr tt : unit + unit) = if negb (p a) then inr tt else inl tt)
      by (intros a; destruct (p a); reflexivity).
    intros x. split; apply try_folds_ext; intros b a; rewrite E; reflexivity. }
  unfold alls, anys. split.
  - intros b. rewrite !via_ret. split; intros (x & s' & H & V); exists x, s'; (split; [apply X; exact H|]); destruct x, b; cbn in *; congruence.
  - rewrite !via_panic. apply X.
Qed.
Lemma positions_keyed {PF : Platform} (p : T -> bool) s P : 0 <= usize_max -> holds s P ->
  let at_ e n := P e /\ n <= usize_max /\ (exists l, klists key (fun t => P t /\ key t < key e) l /\ Z.of_nat (length l) = n) /\
    forall t, P t -> key t < key e -> p t = false in
  (forall n, (exists s', positions_of next Debug p s (Ret (Some n, s'))) <-> exists e, at_ e n /\ p e = true /\ ~ stuck e) /\
  ((exists s', positions_of next Debug p s (Ret (None, s'))) <->
     (exists l, klists key P l /\ Z.of_nat (length l) <= usize_max) /\ forall t, P t -> p t = false /\ ~ stuck t) /\
  (positions_of next Debug p s Panic <-> exists e n, at_ e n /\ (stuck e \/ p e = false /\ n = usize_max)).
Proof.
  intros U H at_. set (f := fun i (a : T) => if p a then Ret (inr i) else j <- usize_add Debug i 1 ;; Ret (inl j)).
  assert (RE : forall e n, reached key f 0 P e n <-> at_ e n).
  { intros e n. unfold reached, at_. split.
    - intros (Pe & l & L & W). apply walk_count in W; [|lia]. destruct W as (-> & M & N). repeat split; [exact Pe|lia| |].
      + exists l. split; [exact L|lia].
      + intros t I K. apply N, L. auto.
    - intros (Pe & M & (l & L & Ln) & N). split; [exact Pe|]. exists l. split; [exact L|]. apply walk_count; [lia|].
      repeat split; [lia|lia|]. intros a I. apply L in I. apply N; apply I. }
  unfold positions_of. fold f. split; [|split].
  - intros n. rewrite via_ret. split.
    + intros ([u|r] & s' & X & V); [discriminate|]. injection V as ->.
      destruct (proj1 (breaks_iff _ _ _ _ STP f 0 s P n H) (ex_intro _ s' X)) as (e & k & Re & N & Fe).
      unfold f in Fe. destruct (p e) eqn:Pe; [|destruct (usize_add Debug k 1); discriminate]. injection Fe as ->.
      exists e. split; [apply RE, Re|auto].
    + intros (e & Ae & Pe & N). destruct (proj2 (breaks_iff _ _ _ _ STP f 0 s P n H)) as [s' X].
      { exists e, n. split; [apply RE, Ae|]. split; [exact N|]. unfold f. rewrite Pe. reflexivity. }
      exists (inr n), s'. auto.
  - rewrite via_ret. split.
    + intros ([u|r] & s' & X & V); [|discriminate].
      destruct (proj1 (ends_iff _ _ _ _ STP f 0 s P u H) (ex_intro _ s' X)) as [(l & L & W) N].
      apply walk_count in W; [|lia]. destruct W as (-> & M & W). split; [exists l; split; [exact L|lia]|].
      intros t I. split; [apply W, L, I|apply N, I].
    + intros [(l & L & M) N]. destruct (proj2 (ends_iff _ _ _ _ STP f 0 s P (Z.of_nat (length l)) H)) as [s' X].
      { split; [|intros t I; apply N, I]. exists l. split; [exact L|]. apply walk_count; [lia|]. repeat split; [lia|].
        intros a I. apply N, L, I. }
      exists (inl (Z.of_nat (length l))), s'. auto.
  - rewrite via_panic, (panics_iff _ _ _ _ STP f 0 s P H). split.
    + intros (e & n & Re & X). apply RE in Re. exists e, n. split; [exact Re|]. destruct X as [X|X]; [auto|]. right.
      unfold f in X. destruct (p e); [discriminate|]. split; [reflexivity|].
      destruct Re as (_ & M & _). destruct (Z.eq_dec n usize_max) as [Q|Q]; [exact Q|]. exfalso.
      assert (Y : usize_add Debug n 1 = Ret (n + 1)) by (unfold usize_add; destruct (_ <=? _) eqn:C; [reflexivity|lia]).
      rewrite Y in X. discriminate.
    + intros (e & n & Ae & X). exists e, n. split; [apply RE, Ae|]. destruct X as [X|[X ->]]; [auto|]. right.
      unfold f. rewrite X. unfold usize_add. destruct (_ <=? _) eqn:C; [lia|reflexivity].
Qed.
End Closures.

(** ** Comparing *)
Section Compare.
Context {T : Type} {PF : Platform} {OT : Ord T} {ST : Step T} {NU : Numbered T} {SL : StepLaws T}.

Definition verdict (P Q : T -> Prop) (o : outcome comparison) : Prop :=
  match o with
  | Ret Eq => (forall t, P t <-> Q t) /\ (exists l, lists P l) /\ forall t, P t -> ~ greatest t
  | Ret Lt => (exists a b, abreast P Q a b /\ lt a b /\ ~ greatest b) \/ (exists b, ended P Q b /\ ~ greatest b)
  | Ret Gt => (exists a b, abreast P Q a b /\ lt b a /\ ~ greatest a) \/ (exists a, ended Q P a /\ ~ greatest a)
  | Panic =>
    (exists a b, abreast P Q a b /\ (greatest a \/ greatest b)) \/
    (exists b, ended P Q b /\ greatest b) \/ (exists a, ended Q P a /\ greatest a)
  | Diverge => False
  end.

Lemma cmp_cases (a b : T) :
  (cmp a b = Eq /\ a = b) \/ (cmp a b = Lt /\ idx a < idx b) \/ (cmp a b = Gt /\ idx b < idx a).
Proof.
  rewrite idx_cmp. destruct (Z.compare_spec (idx a) (idx b)) as [E|E|E]; auto. left. split; [reflexivity|]. apply idx_inj, E.
Qed.

(** Both have the least element [x] and are compared further. *)
Section Common.
Variables (P Q : T -> Prop) (x : T).
Hypotheses (Px : P x) (Lp : forall t, P t -> idx x <= idx t) (Qx : Q x) (Lq : forall t, Q t -> idx x <= idx t).
Let P' := fun t => P t /\ idx x < idx t.
Let Q' := fun t => Q t /\ idx x < idx t.

Lemma split_p t : P t <-> P' t \/ t = x.
Proof.
  unfold P'. split; [|intros [[I _]| ->]; auto]. intros I. destruct (Z.eq_dec (idx x) (idx t)) as [E|E].
  - right. symmetry. apply idx_inj, E.
  - left. split; [exact I|]. specialize (Lp t I). lia.
Qed.
Lemma split_q t : Q t <-> Q' t \/ t = x.
Proof.
  unfold Q'. split; [|intros [[I _]| ->]; auto]. intros I. destruct (Z.eq_dec (idx x) (idx t)) as [E|E].
  - right. symmetry. apply idx_inj, E.
  - left. split; [exact I|]. specialize (Lq t I). lia.
Qed.
Lemma common_abreast a b : abreast P' Q' a b -> abreast P Q a b.
Proof.
  intros ([Pa Ka] & [Qb Kb] & H). split; [exact Pa|]. split; [exact Qb|]. intros t. rewrite split_p, split_q.
  specialize (H t). split; intros [[I|I] K].
  - assert (Q' t /\ lt t b) by (apply H; auto). tauto.
  - subst t. split; [auto|]. apply lt_idx. lia.
  - assert (P' t /\ lt t a) by (apply H; auto). tauto.
  - subst t. split; [auto|]. apply lt_idx. lia.
Qed.
Lemma common_ended b : ended P' Q' b -> ended P Q b.
Proof.
  intros ([Qb Kb] & H). split; [exact Qb|]. intros t. rewrite split_p, split_q. specialize (H t). split.
  - intros [I| ->]; [tauto|]. split; [auto|]. apply lt_idx. lia.
  - intros [[I| ->] K]; tauto.
Qed.
Lemma common_ended' b : ended Q' P' b -> ended Q P b.
Proof.
  intros ([Qb Kb] & H). split; [exact Qb|]. intros t. rewrite split_p, split_q. specialize (H t). split.
  - intros [I| ->]; [tauto|]. split; [auto|]. apply lt_idx. lia.
  - intros [[I| ->] K]; tauto.
Qed.
Lemma common_verdict o : ~ greatest x -> verdict P' Q' o -> verdict P Q o.
Proof.
  intros N. destruct o as [[| |]| |]; cbn [verdict].
  - intros (E & (l & L) & G). split; [intros t; rewrite split_p, split_q, E; reflexivity|]. split.
    + exists (x :: l). apply klists_lists. apply (klists_cons idx greatest (ai_next Debug) hold ai_steps); [exact Px|exact Lp|].
      apply klists_lists. exact L.
    + intros t I. apply split_p in I. destruct I as [I| ->]; auto.
  - intros [(a & b & A & H)|(b & A & H)]; [left; exists a, b; auto using common_abreast|right; exists b; auto using common_ended].
  - intros [(a & b & A & H)|(b & A & H)]; [left; exists a, b; auto using common_abreast|right; exists b; auto using common_ended'].
  - intros [(a & b & A & H)|[(b & A & H)|(b & A & H)]]; [left; exists a, b; auto using common_abreast|
      right; left; exists b; auto using common_ended|right; right; exists b; auto using common_ended'].
  - auto.
Qed.
End Common.

Lemma compares_verdict i j o : compares (ai_next Debug) (ai_next Debug) cmp i j o ->
  forall P Q, hold i P -> hold j Q -> verdict P Q o.
Proof.
  assert (AB : forall (P Q : T -> Prop) a b, P a -> (forall t, P t -> idx a <= idx t) -> Q b -> (forall t, Q t -> idx b <= idx t) -> abreast P Q a b).
  { intros P Q a b Pa La Qb Lb. split; [exact Pa|]. split; [exact Qb|]. intros t. rewrite !lt_idx.
    split; intros [I K]; [specialize (La t I)|specialize (Lb t I)]; lia. }
  assert (EN : forall (P Q : T -> Prop) b, (forall t, ~ P t) -> Q b -> (forall t, Q t -> idx b <= idx t) -> ended P Q b).
  { intros P Q b E Qb Lb. split; [exact Qb|]. intros t. rewrite lt_idx.
    split; [intros I; destruct (E t I)|intros [I K]; specialize (Lb t I); lia]. }
  induction 1 as [i j E|i j x i' E F|i j i' j' E F|i j i' j' b E F|i j i' j' a E F|i j i' j' a b E F C|i j i' j' a b o E F C H IH];
    intros P Q HP HQ;
    destruct (hold_next i P HP) as [(i1 & E1 & H1 & N1)|[(e1 & i1 & E1 & Pe & L1 & G1 & H1)|(E1 & g1 & Pg & G1 & L1)]];
    rewrite E in E1; try discriminate;
    destruct (hold_next j Q HQ) as [(j1 & E2 & H2 & N2)|[(e2 & j1 & E2 & Qe & L2 & G2 & H2)|(E2 & g2 & Qg & G2 & L2)]];
    try (rewrite F in E2; try discriminate); cbn [verdict].
  - right. right. exists g1. auto.
  - left. exists g1, e2. auto.
  - left. exists g1, g2. auto.
  - right. left. exists g2. auto.
  - left. exists e1, g2. auto.
  - split; [intros t; split; intros I; [destruct (N1 t I)|destruct (N2 t I)]|]. split; [|intros t I; destruct (N1 t I)].
    exists []. split; [constructor|]. intros t. split; [intros []|apply N1].
  - right. injection E2 as <- <-. exists b. auto.
  - right. injection E1 as <- <-. exists a. auto.
  - injection E1 as <- <-. injection E2 as <- <-. destruct (cmp_cases a b) as [[K _]|[[K L]|[K L]]]; rewrite K in *.
    + destruct (C eq_refl).
    + left. exists a, b. rewrite lt_idx. auto.
    + left. exists a, b. rewrite lt_idx. auto.
  - injection E1 as <- <-. injection E2 as <- <-. destruct (cmp_cases a b) as [[K D]|[[K L]|[K L]]]; try congruence.
    subst b. apply (common_verdict P Q a Pe L1 Qe L2 o G1). apply IH; assumption.
Qed.

Lemma compares_past l : forall i j (P Q : T -> Prop), hold i P -> hold j Q -> StronglySorted lt l ->
  (forall t, In t l -> P t /\ Q t /\ ~ greatest t) ->
  (forall t u, P t -> In u l -> idx t <= idx u -> In t l) -> (forall t u, Q t -> In u l -> idx t <= idx u -> In t l) ->
  exists i' j', hold i' (fun t => P t /\ ~ In t l) /\ hold j' (fun t => Q t /\ ~ In t l) /\
    forall o, compares (ai_next Debug) (ai_next Debug) cmp i' j' o -> compares (ai_next Debug) (ai_next Debug) cmp i j o.
Proof.
  assert (FI : forall (P : T -> Prop) a l e, StronglySorted lt (a :: l) -> (forall t u, P t -> In u (a :: l) -> idx t <= idx u -> In t (a :: l)) ->
    P a -> P e -> (forall t, P t -> idx e <= idx t) -> e = a).
  { intros P a l0 e So C Pa Pe L. apply idx_inj. pose proof (L a Pa) as K.
    assert (J : In e (a :: l0)) by (apply (C e a); [exact Pe|now left|exact K]).
    pose proof (sorted_hd a l0 e So J). lia. }
  assert (RE : forall (P : T -> Prop) a l, (forall t, P t -> idx a <= idx t) -> forall t,
    (P t /\ idx a < idx t) /\ ~ In t l <-> P t /\ ~ In t (a :: l)).
  { intros P a l0 L t. cbn [In]. split.
    - intros [[I K] J]. split; [exact I|]. intros [->|X]; [lia|exact (J X)].
    - intros [I J]. assert (K : idx a <> idx t) by (intros K; apply idx_inj in K; tauto). specialize (L t I).
      repeat split; [exact I|lia|tauto]. }
  induction l as [|a l IH]; intros i j P Q HP HQ So M Cp Cq.
  - exists i, j. split; [eapply hold_ext; [|exact HP]; simpl; tauto|]. split; [eapply hold_ext; [|exact HQ]; simpl; tauto|auto].
  - destruct (M a (or_introl eq_refl)) as (Pa & Qa & Na).
    destruct (hold_next i P HP) as [(i1 & E1 & H1 & N1)|[(e1 & i1 & E1 & Pe & L1 & G1 & H1)|(E1 & g1 & Pg & G1 & L1)]].
    + destruct (N1 a Pa).
    + destruct (hold_next j Q HQ) as [(j1 & E2 & H2 & N2)|[(e2 & j1 & E2 & Qe & L2 & G2 & H2)|(E2 & g2 & Qg & G2 & L2)]].
      * destruct (N2 a Qa).
      * assert (e1 = a) as -> by (apply (FI P a l); assumption). assert (e2 = a) as -> by (apply (FI Q a l); assumption).
        pose proof So as So'. inversion So as [|? ? So2 F]; subst. rewrite Forall_forall in F.
        destruct (IH i1 j1 _ _ H1 H2 So2) as (i2 & j2 & K1 & K2 & C).
        -- intros t I. destruct (M t (or_intror I)) as (Pt & Qt & Nt). pose proof (F t I) as K. apply lt_idx in K. auto.
        -- intros t u [Pt K] I J. destruct (Cp t u Pt (or_intror I) J) as [->|X]; [lia|exact X].
        -- intros t u [Pt K] I J. destruct (Cq t u Pt (or_intror I) J) as [->|X]; [lia|exact X].
        -- exists i2, j2. split; [eapply hold_ext; [|exact K1]; apply RE; exact L1|].
           split; [eapply hold_ext; [|exact K2]; apply RE; exact L2|].
           intros o H. eapply co_more; [exact E1|exact E2| |apply C; exact H]. rewrite idx_cmp. apply Z.compare_refl.
      * exfalso. apply Na. assert (g2 = a) as <-; [apply (FI Q a l); assumption|exact G2].
    + exfalso. apply Na. assert (g1 = a) as <-; [apply (FI P a l); assumption|exact G1].
Qed.

Lemma verdict_compares i j P Q o : hold i P -> hold j Q -> verdict P Q o ->
  compares (ai_next Debug) (ai_next Debug) cmp i j o.
Proof.
  intros HP HQ.
  assert (LE : forall (X Y : T -> Prop) (k : any_iter T), forall e t, hold k X -> (forall t, Y t <-> X t /\ ~ (X t /\ lt t e)) -> Y t -> idx e <= idx t).
  { intros X Y k e t _ HY It. apply HY in It. destruct It as [It Nt]. destruct (Z_le_gt_dec (idx e) (idx t)); [assumption|].
    destruct Nt. split; [exact It|]. apply lt_idx. lia. }
  (* go to two elements with the same ones below *)
  assert (AB : forall a b, abreast P Q a b -> exists i' j' (P' Q' : T -> Prop), hold i' P' /\ hold j' Q' /\
    P' a /\ Q' b /\ (forall t, P' t -> idx a <= idx t) /\ (forall t, Q' t -> idx b <= idx t) /\
    forall o, compares (ai_next Debug) (ai_next Debug) cmp i' j' o -> compares (ai_next Debug) (ai_next Debug) cmp i j o).
  { intros a b (Pa & Qb & H). destruct (hold_below i P a HP Pa) as (l & So & Il).
    destruct (compares_past l i j P Q HP HQ So) as (i' & j' & H1 & H2 & C).
    - intros t I. apply Il in I. pose proof (proj1 (H t) I) as J. destruct I as [I K]. split; [exact I|]. split; [apply J|].
      intros G. apply greatest_idx with (u := a) in G. apply lt_idx in K. lia.
    - intros t u Pt I K. apply Il in I. apply Il. destruct I as [_ I]. rewrite lt_idx in *. split; [exact Pt|lia].
    - intros t u Qt I K. apply Il, H in I. apply Il, H. destruct I as [_ I]. rewrite lt_idx in *. split; [exact Qt|lia].
    - exists i', j', (fun t => P t /\ ~ In t l), (fun t => Q t /\ ~ In t l). split; [exact H1|]. split; [exact H2|].
      split; [split; [exact Pa|]; rewrite Il, lt_idx; lia|]. split; [split; [exact Qb|]; rewrite Il, H, lt_idx; lia|].
      split; [intros t It; apply (LE P (fun t => P t /\ ~ In t l) i a t HP); [intros u; rewrite Il; reflexivity|exact It]|].
      split; [intros t It; apply (LE Q (fun t => Q t /\ ~ In t l) j b t HQ); [intros u; rewrite Il, H; reflexivity|exact It]|].
      exact C. }
  (* go to the end of the first *)
  assert (EN : forall b, ended P Q b -> exists i' j' i2 (Q' : T -> Prop), ai_next Debug i' = Ret (None, i2) /\ hold j' Q' /\
    Q' b /\ (forall t, Q' t -> idx b <= idx t) /\
    forall o, compares (ai_next Debug) (ai_next Debug) cmp i' j' o -> compares (ai_next Debug) (ai_next Debug) cmp i j o).
  { intros b (Qb & H). destruct (hold_below j Q b HQ Qb) as (l & So & Il).
    destruct (compares_past l i j P Q HP HQ So) as (i' & j' & H1 & H2 & C).
    - intros t I. apply Il in I. pose proof (proj2 (H t) I) as J. destruct I as [I K]. split; [exact J|]. split; [exact I|].
      intros G. apply greatest_idx with (u := b) in G. apply lt_idx in K. lia.
    - intros t u Pt I K. apply Il. apply H. exact Pt.
    - intros t u Qt I K. apply Il in I. apply Il. destruct I as [_ I]. rewrite lt_idx in *. split; [exact Qt|lia].
    - destruct (hold_next i' _ H1) as [(i2 & E2 & _)|[(x & i2 & E2 & [Px Nx] & _)|(E2 & g & [Px Nx] & _)]];
        [|destruct Nx; apply Il, H, Px..].
      exists i', j', i2, (fun t => Q t /\ ~ In t l). split; [exact E2|]. split; [exact H2|].
      split; [split; [exact Qb|]; rewrite Il, lt_idx; lia|].
      split; [intros t It; apply (LE Q (fun t => Q t /\ ~ In t l) j b t HQ); [intros u; rewrite Il; reflexivity|exact It]|exact C]. }
  assert (EN' : forall a, ended Q P a -> exists i' j' j2 (P' : T -> Prop), ai_next Debug j' = Ret (None, j2) /\ hold i' P' /\
    P' a /\ (forall t, P' t -> idx a <= idx t) /\
    forall o, compares (ai_next Debug) (ai_next Debug) cmp i' j' o -> compares (ai_next Debug) (ai_next Debug) cmp i j o).
  { intros a (Pa & H). destruct (hold_below i P a HP Pa) as (l & So & Il).
    destruct (compares_past l i j P Q HP HQ So) as (i' & j' & H1 & H2 & C).
    - intros t I. apply Il in I. pose proof (proj2 (H t) I) as J. destruct I as [I K]. split; [exact I|]. split; [exact J|].
      intros G. apply greatest_idx with (u := a) in G. apply lt_idx in K. lia.
    - intros t u Qt I K. apply Il in I. apply Il. destruct I as [_ I]. rewrite lt_idx in *. split; [exact Qt|lia].
    - intros t u Pt I K. apply Il. apply H. exact Pt.
    - destruct (hold_next j' _ H2) as [(i2 & E2 & _)|[(x & i2 & E2 & [Px Nx] & _)|(E2 & g & [Px Nx] & _)]];
        [|destruct Nx; apply Il, H, Px..].
      exists i', j', i2, (fun t => P t /\ ~ In t l). split; [exact E2|]. split; [exact H1|].
      split; [split; [exact Pa|]; rewrite Il, lt_idx; lia|].
      split; [intros t It; apply (LE P (fun t => P t /\ ~ In t l) i a t HP); [intros u; rewrite Il; reflexivity|exact It]|exact C]. }
  (* the next call at a known least element *)
  assert (NX : forall k (X : T -> Prop) e, hold k X -> X e -> (forall t, X t -> idx e <= idx t) ->
    (exists k', ai_next Debug k = Ret (Some e, k') /\ ~ greatest e) \/ (ai_next Debug k = Panic /\ greatest e)).
  { intros k X e Hk Xe L. destruct (hold_next k X Hk) as [(k' & E1 & _ & N)|[(x & k' & E1 & Xx & Lx & G & _)|(E1 & g & Xg & G & Lg)]].
    - destruct (N e Xe).
    - assert (x = e) as -> by (apply idx_inj; specialize (L x Xx); specialize (Lx e Xe); lia). eauto.
    - assert (g = e) as -> by (apply idx_inj; specialize (L g Xg); specialize (Lg e Xe); lia). auto. }
  destruct o as [[| |]| |]; cbn [verdict].
  - intros (E & (l & So & Il) & N). destruct (compares_past l i j P Q HP HQ So) as (i' & j' & H1 & H2 & C).
    + intros t I. apply Il in I. split; [exact I|]. split; [apply E, I|apply N, I].
    + intros t u Pt _ _. apply Il, Pt.
    + intros t u Qt _ _. apply Il, E, Qt.
    + apply C.
      destruct (hold_next i' _ H1) as [(i2 & E1 & _)|[(x & i2 & E1 & [Px Nx] & _)|(E1 & g & [Px Nx] & _)]]; [|destruct Nx; apply Il, Px..].
      destruct (hold_next j' _ H2) as [(j2 & E2 & _)|[(x & j2 & E2 & [Px Nx] & _)|(E2 & g & [Px Nx] & _)]]; [|destruct Nx; apply Il, E, Px..].
      eapply co_both; eassumption.
  - intros [(a & b & A & L & N)|(b & A & N)].
    + destruct (AB a b A) as (i' & j' & P' & Q' & H1 & H2 & Pa & Qb & L1 & L2 & C). apply C. apply lt_idx in L.
      destruct (NX i' P' a H1 Pa L1) as [(i2 & E1 & _)|[_ G]]; [|apply greatest_idx with (u := b) in G; lia].
      destruct (NX j' Q' b H2 Qb L2) as [(j2 & E2 & _)|[_ G]]; [|contradiction].
      destruct (cmp_cases a b) as [[K D]|[[K D]|[K D]]]; [subst b; lia| |lia]. rewrite <- K. eapply co_decided; [eassumption..|]. rewrite K. discriminate.
    + destruct (EN b A) as (i' & j' & i2 & Q' & E1 & H2 & Qb & L2 & C). apply C.
      destruct (NX j' Q' b H2 Qb L2) as [(j2 & E2 & _)|[_ G]]; [|contradiction]. eapply co_first; eassumption.
  - intros [(a & b & A & L & N)|(b & A & N)].
    + destruct (AB a b A) as (i' & j' & P' & Q' & H1 & H2 & Pa & Qb & L1 & L2 & C). apply C. apply lt_idx in L.
      destruct (NX i' P' a H1 Pa L1) as [(i2 & E1 & _)|[_ G]]; [|contradiction].
      destruct (NX j' Q' b H2 Qb L2) as [(j2 & E2 & _)|[_ G]]; [|apply greatest_idx with (u := a) in G; lia].
      destruct (cmp_cases a b) as [[K D]|[[K D]|[K D]]]; [subst b; lia|lia|]. rewrite <- K. eapply co_decided; [eassumption..|]. rewrite K. discriminate.
    + destruct (EN' b A) as (i' & j' & j2 & P' & E2 & H1 & Pa & L1 & C). apply C.
      destruct (NX i' P' b H1 Pa L1) as [(i2 & E1 & _)|[_ G]]; [|contradiction]. eapply co_second; eassumption.
  - intros [(a & b & A & G)|[(b & A & G)|(a & A & G)]].
    + destruct (AB a b A) as (i' & j' & P' & Q' & H1 & H2 & Pa & Qb & L1 & L2 & C). apply C.
      destruct (NX i' P' a H1 Pa L1) as [(i2 & E1 & Na)|[E1 _]]; [|apply co_panic1; exact E1].
      destruct (NX j' Q' b H2 Qb L2) as [(j2 & E2 & Nb)|[E2 _]]; [tauto|]. eapply co_panic2; eassumption.
    + destruct (EN b A) as (i' & j' & i2 & Q' & E1 & H2 & Qb & L2 & C). apply C.
      destruct (NX j' Q' b H2 Qb L2) as [(j2 & E2 & Nb)|[E2 _]]; [contradiction|]. eapply co_panic2; eassumption.
    + destruct (EN' a A) as (i' & j' & j2 & P' & E2 & H1 & Pa & L1 & C). apply C.
      destruct (NX i' P' a H1 Pa L1) as [(i2 & E1 & Nb)|[E1 _]]; [contradiction|]. apply co_panic1; exact E1.
  - intros [].
Qed.
End Compare.
