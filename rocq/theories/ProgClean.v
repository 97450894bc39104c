(** Well-typed programs that intersect no two [LowerBoundedSet]s: SpecProg.v says what they
    do, where the element type has at most [usize::MAX] consecutive elements. *)
From Coq Require Import String Lia Bool.
From Verif Require Import Base ModelBound ModelRanges ModelSets ModelAlgebra ModelValue ModelStep ModelIter
  Spec SpecMap SpecFill SpecStep SpecIter ClientProg ClientTypes SpecProg ProgComplete.
Open Scope Z_scope.
Open Scope string_scope.
Open Scope list_scope.

(** No part of the program is the intersection of two [LowerBoundedSet]s (C02). *)
Fixpoint sclean (g : ctx) (a : sexp) : bool :=
  match a with
  | XUnion a b => sclean g a && sclean g b
  | XInter a b => sclean g a && sclean g b && match stype g a, stype g b with Some k, Some l => negb (both_lbs k l) | _, _ => true end
  | XCompl a | XInner a | XSet a => sclean g a
  | _ => true
  end.
Fixpoint cclean (g : ctx) (c : cond) : bool :=
  match c with
  | QEmpty a | QHas a _ => sclean g a
  | QDisjoint a b | QMeets a b => sclean g a && sclean g b
  | QLess _ _ | QSame _ _ => true
  | QNot c => cclean g c
  | QAnd c d | QOr c d => cclean g c && cclean g d
  end.
Fixpoint bclean (g : ctx) (b : block) : bool :=
  match b with
  | BEnd | BBreak => true
  | BLet x a b => sclean g a && match stype g a with Some k => bclean ((x, TSet k) :: g) b | None => true end
  | BPut _ a b => sclean g a && bclean g b
  | BIf c b1 b2 b => cclean g c && bclean g b1 && bclean g b2 && bclean g b
  | BFor t a body b =>
    sclean g a && match stype g a with Some k => bclean ((t, TElt) :: (it_var, TIter (doubly k)) :: g) body | None => true end && bclean g b
  | BLoop body b => bclean g body && bclean g b
  | BIter x a b => sclean g a && match stype g a with Some k => bclean ((x, TIter (doubly k)) :: g) b | None => true end
  | BNext _ t _ b1 b2 b => bclean ((t, TElt) :: g) b1 && bclean g b2 && bclean g b
  end.
Definition fclean (g : ctx) (f : fin) : bool := match f with FSet a => sclean g a | FCond c => cclean g c end.
Definition pclean (g : ctx) (b : block) (f : fin) : bool := bclean g b && fclean (after g b) f.

Section Clean.
Context {T : Type} {PF : Platform} {OT : Ord T}.
Definition mfits (c : meaning T) (t : ty) : Prop :=
  match c, t with
  | MSet k _, TSet l => k = l
  | MElt _, TElt => True
  | MLeft d _, TIter e => d = e
  | _, _ => False
  end.
Definition mhas (s : world T) (g : ctx) : Prop := Forall2 (fun p q => fst p = fst q /\ mfits (snd p) (snd q)) s g.

Lemma mhas_cons s g x c t : mfits c t -> mhas s g -> mhas ((x, c) :: s) ((x, t) :: g).
Proof. intros F H. constructor; [now split|exact H]. Qed.
Lemma mhas_get s g x : mhas s g -> match get x s, get x g with Some c, Some t => mfits c t | None, None => True | _, _ => False end.
Proof. induction 1 as [|[y c] [z t] s g [E F] _ IH]; cbn in *; [exact Logic.I|]. subst z. now destruct (String.eqb x y). Qed.
Lemma mhas_set s g x c t : mhas s g -> get x g = Some t -> mfits c t -> mhas (set x c s) g.
Proof.
  intros H G F. induction H as [|[y d] [z u] s g [E F'] H IH]; cbn in *; [discriminate|]. subst z.
  destruct (String.eqb x y); [injection G as <-; exact (Forall2_cons (y, c) (y, u) (conj eq_refl F) H)|].
  exact (Forall2_cons (y, d) (y, u) (conj eq_refl F') (IH G)).
Qed.
Lemma mhas_length s g : mhas s g -> length s = length g.
Proof. induction 1; cbn; auto. Qed.
Lemma mhas_oldest s d g n : mhas s (d ++ g) -> n = length g -> mhas (oldest n s) g.
Proof.
  intros H ->. pose proof (mhas_length _ _ H) as L. rewrite app_length in L. unfold oldest. rewrite L, Nat.add_sub. clear L.
  revert s H. induction d as [|p d IH]; intros s H; [exact H|]. inversion H; subst. cbn [length skipn]. now apply IH.
Qed.
Lemma melt_typed s g x : mhas s g -> is_elt g x = true -> exists t, melt s x = Some t.
Proof.
  intros H E. pose proof (mhas_get s g x H) as G. unfold is_elt in E. unfold melt.
  destruct (get x s) as [c|], (get x g) as [t|]; try discriminate; try destruct G. destruct t, c; try discriminate; try destruct G. eexists. reflexivity.
Qed.
Lemma mset_typed s g a k : mhas s g -> stype g a = Some k -> sclean g a = true -> exists P, mset s a = Some (k, P).
Proof.
  intros H. revert k. induction a as [x|x y|x y|x|x|x| |a IHa b IHb|a IHa b IHb|a IHa|a IHa|a IHa]; cbn [stype mset sclean]; unfold when; intros k E C.
  - pose proof (mhas_get s g x H) as G. destruct (get x s) as [c|], (get x g) as [t|]; try discriminate; try destruct G.
    destruct t; try discriminate. injection E as <-. destruct c; cbn [mfits] in G; try contradiction. subst. eauto.
  - destruct (is_elt g x) eqn:X; [|discriminate]. destruct (is_elt g y) eqn:Y; [|discriminate]. injection E as <-.
    destruct (melt_typed s g x H X) as [t ->], (melt_typed s g y H Y) as [u ->]. cbn. eauto.
  - destruct (is_elt g x) eqn:X; [|discriminate]. destruct (is_elt g y) eqn:Y; [|discriminate]. injection E as <-.
    destruct (melt_typed s g x H X) as [t ->], (melt_typed s g y H Y) as [u ->]. cbn. eauto.
  - destruct (is_elt g x) eqn:X; [|discriminate]. injection E as <-. destruct (melt_typed s g x H X) as [t ->]. cbn. eauto.
  - destruct (is_elt g x) eqn:X; [|discriminate]. injection E as <-. destruct (melt_typed s g x H X) as [t ->]. cbn. eauto.
  - destruct (is_elt g x) eqn:X; [|discriminate]. injection E as <-. destruct (melt_typed s g x H X) as [t ->]. cbn. eauto.
  - injection E as <-. eauto.
  - apply andb_prop in C as [Ca Cb]. destruct (stype g a) as [ka|]; [|discriminate]. destruct (stype g b) as [kb|]; [|discriminate]. injection E as <-.
    destruct (IHa _ eq_refl Ca) as [P ->], (IHb _ eq_refl Cb) as [Q ->]. cbn. eauto.
  - apply andb_prop in C as [C Cl]. apply andb_prop in C as [Ca Cb].
    destruct (stype g a) as [ka|]; [|discriminate]. destruct (stype g b) as [kb|]; [|discriminate]. injection E as <-.
    destruct (IHa _ eq_refl Ca) as [P ->], (IHb _ eq_refl Cb) as [Q ->]. cbn [both fst snd]. destruct (both_lbs ka kb); [discriminate|]. eauto.
  - destruct (stype g a) as [ka|]; [|discriminate]. injection E as <-. destruct (IHa _ eq_refl C) as [P ->]. cbn. eauto.
  - destruct (stype g a) as [ka|]; [|discriminate]. injection E as <-. destruct (IHa _ eq_refl C) as [P ->]. cbn. eauto.
  - destruct (stype g a) as [ka|]; [|discriminate]. injection E as <-. destruct (IHa _ eq_refl C) as [P ->]. cbn. eauto.
Qed.
Lemma typed_mset s g a : mhas s g -> typed g a = true -> sclean g a = true -> exists A, mset s a = Some A.
Proof. unfold typed. destruct (stype g a) as [k|] eqn:E; [|discriminate]. intros H _ C. destruct (mset_typed s g a k H E C). eauto. Qed.
Lemma mcond_typed s g c : mhas s g -> ctyped g c = true -> cclean g c = true -> exists Q, mcond s c = Some Q.
Proof.
  intros H. induction c as [a|a x|a b|a b|x y|x y|c IH|c IHc d IHd|c IHc d IHd]; cbn [ctyped mcond cclean]; intros E C;
    repeat match goal with E : _ && _ = true |- _ => apply andb_prop in E as [? ?] end;
    repeat match goal with
    | K : typed g ?a = true, C : sclean g ?a = true |- _ => destruct (typed_mset s g a H K C) as [? ->]; clear K
    | K : is_elt g ?a = true |- _ => destruct (melt_typed s g a H K) as [? ->]; clear K end; cbn [both option_map]; eauto.
  - destruct (IH E C) as [Q ->]. cbn. eauto.
  - destruct (IHc ltac:(assumption) ltac:(assumption)) as [Q ->], (IHd ltac:(assumption) ltac:(assumption)) as [R ->]. cbn. eauto.
  - destruct (IHc ltac:(assumption) ltac:(assumption)) as [Q ->], (IHd ltac:(assumption) ltac:(assumption)) as [R ->]. cbn. eauto.
Qed.

Definition mb_ok (g : ctx) (inside : bool) (b : block) (r : result (ending * world T)) : Prop :=
  match r with
  | None => False
  | Some (Ret (Through, s')) => exists d, mhas s' (d ++ g) /\ after g b = d ++ g
  | Some (Ret (Broken, s')) => inside = true /\ exists d, mhas s' (d ++ g)
  | _ => True
  end.
Definition mf_ok (g : ctx) (r : result (world T)) : Prop :=
  match r with None => False | Some (Ret s') => mhas s' g | _ => True end.
Ltac halves := repeat match goal with E : _ && _ = true |- _ => apply andb_prop in E as [? ?] end.

Lemma two_doubly k : two_ended k = doubly k.
Proof. reflexivity. Qed.
Lemma mtaken_has s g x t k o y d : mhas s g -> get x g = Some (TIter d) -> mtake k s x (done (o, y)) ->
  mhas (mtaken x t o y s) (match o with Some _ => (t, TElt) :: g | None => g end).
Proof.
  intros H Gg Mt. pose proof (mhas_get s g x H) as F. rewrite Gg in F.
  inversion Mt as [d' P G D E|d' P u G D E Ne| |]; subst; rewrite G in F; cbn [mfits] in F; subst d'; cbn [mtaken].
  - exact (mhas_set s g x (MLeft d _) (TIter d) H Gg eq_refl).
  - apply mhas_cons; [exact Logic.I|]. exact (mhas_set s g x (MLeft d _) (TIter d) H Gg eq_refl).
Qed.
Lemma moldest_has s g d1 l b r : mhas s g -> mb_ok (d1 ++ g) l b r ->
  match r with Some (Ret (_, s')) => mhas (oldest (length s) s') g | _ => True end.
Proof.
  intros H K. pose proof (mhas_length s g H) as L. destruct r as [[[[] s']| |]|]; auto.
  - destruct K as (d & K & _). rewrite app_assoc in K. exact (mhas_oldest _ _ _ _ K L).
  - destruct K as (_ & d & K). rewrite app_assoc in K. exact (mhas_oldest _ _ _ _ K L).
Qed.
Lemma said (Nb : ~ big (fun _ : T => True)) :
  (forall s b r, mrun s b r -> forall g l, mhas s g -> btyped g l b = true -> bclean g b = true -> mb_ok g l b r) /\
  (forall s t body r, mloop s t body r -> forall g d, mhas s g -> get it_var g = Some (TIter d) -> btyped ((t, TElt) :: g) true body = true ->
     bclean ((t, TElt) :: g) body = true -> mf_ok g r) /\
  (forall s body r, mturns s body r -> forall g, mhas s g -> btyped g true body = true -> bclean g body = true -> mf_ok g r).
Proof.
  assert (Ob : forall s g l b r, mhas s g -> mb_ok g l b r ->
    match r with Some (Ret (_, s')) => mhas (oldest (length s) s') g | _ => True end).
  { intros s g l b r H K. pose proof (mhas_length s g H) as L. destruct r as [[[[] s']| |]|]; auto.
    - destruct K as (d & K & _). exact (mhas_oldest _ _ _ _ K L).
    - destruct K as (_ & d & K). exact (mhas_oldest _ _ _ _ K L). }
  assert (Ms : forall s g a k l P, mhas s g -> stype g a = Some k -> sclean g a = true -> mset s a = Some (l, P) -> k = l).
  { intros s g a k l P H K C E. destruct (mset_typed s g a k H K C) as [Q X]. congruence. }
  apply mrun_mloop_ind.
  - intros s g l H _ _. exists []. now split.
  - intros s g l H E _. cbn in E. split; [exact E|]. now exists [].
  - intros s x a k' P b r E _ IH g l H B C. cbn [btyped bclean] in *. destruct (stype g a) as [k|] eqn:K; [|discriminate]. halves.
    pose proof (Ms _ _ _ _ _ _ H K ltac:(assumption) E) as <-. specialize (IH ((x, TSet k) :: g) l (mhas_cons s g x (MSet k P) (TSet k) eq_refl H) B ltac:(assumption)).
    destruct r as [[[[] s']| |]|]; auto; cbn [mb_ok after] in *; rewrite ?K.
    + destruct IH as (d & Hd & A). exists (d ++ [(x, TSet k)]). now rewrite <- app_assoc.
    + destruct IH as (L & d & Hd). split; [exact L|]. exists (d ++ [(x, TSet k)]). now rewrite <- app_assoc.
  - intros s x a b F g l H B C. cbn [btyped bclean] in *. destruct (stype g a) as [k|] eqn:K; [|discriminate]. halves.
    destruct (mset_typed s g a k H K ltac:(assumption)). congruence.
  - intros s x a k' P l' Q b r E G _ IH g l H B C. cbn [btyped bclean] in *. apply andb_prop in B as [B1 B2]. destruct (stype g a) as [k|] eqn:K; [|discriminate].
    destruct (get x g) as [[k2| |]|] eqn:Gx; try discriminate. apply kind_eqb_eq in B1 as <-. halves. pose proof (Ms _ _ _ _ _ _ H K ltac:(assumption) E) as <-.
    exact (IH g l (mhas_set s g x (MSet k P) (TSet k) H Gx eq_refl) B2 ltac:(assumption)).
  - intros s x a b Nx g l H B C. cbn [btyped] in B. apply andb_prop in B as [B1 B2]. destruct (stype g a) as [k|] eqn:K; [|discriminate].
    destruct (get x g) as [[k'| |]|] eqn:Gx; try discriminate. pose proof (mhas_get s g x H) as Gs. rewrite Gx in Gs.
    destruct (get x s) as [[k2 P| |]|]; try destruct Gs. exact (Nx _ _ eq_refl).
  - intros s x a b F g l H B C. cbn [btyped bclean] in *. apply andb_prop in B as [B1 B2]. destruct (stype g a) as [k|] eqn:K; [|discriminate]. halves.
    destruct (mset_typed s g a k H K ltac:(assumption)). congruence.
  - intros s c Q t b1 b2 s' b r E _ _ IH1 _ IH2 g l H B C. cbn [btyped bclean] in *. apply andb_prop in B as [B B4]. apply andb_prop in B as [B B3]. apply andb_prop in B as [B1 B2].
    apply andb_prop in C as [C C4]. apply andb_prop in C as [C C3]. apply andb_prop in C as [C1 C2].
    assert (Bt : btyped g l (if t then b1 else b2) = true) by now destruct t. assert (Ct : bclean g (if t then b1 else b2) = true) by now destruct t.
    specialize (IH1 g l H Bt Ct). apply (Ob s) in IH1; [|exact H].
    exact (IH2 g l IH1 B4 C4).
  - intros s c Q t b1 b2 s' b E _ _ IH1 g l H B C. cbn [btyped bclean] in *. apply andb_prop in B as [B B4]. apply andb_prop in B as [B B3]. apply andb_prop in B as [B1 B2].
    apply andb_prop in C as [C C4]. apply andb_prop in C as [C C3]. apply andb_prop in C as [C1 C2].
    assert (Bt : btyped g l (if t then b1 else b2) = true) by now destruct t. assert (Ct : bclean g (if t then b1 else b2) = true) by now destruct t.
    specialize (IH1 g l H Bt Ct). split; [exact (proj1 IH1)|].
    apply (Ob s) in IH1; [|exact H]. now exists [].
  - intros s c Q t b1 b2 b r0 r E _ _ IH1 F g l H B C. cbn [btyped bclean] in *. apply andb_prop in B as [B B4]. apply andb_prop in B as [B B3]. apply andb_prop in B as [B1 B2].
    apply andb_prop in C as [C C4]. apply andb_prop in C as [C C3]. apply andb_prop in C as [C1 C2].
    assert (Bt : btyped g l (if t then b1 else b2) = true) by now destruct t. assert (Ct : bclean g (if t then b1 else b2) = true) by now destruct t.
    specialize (IH1 g l H Bt Ct). inversion F; subst; [exact Logic.I|destruct IH1].
  - intros s c b1 b2 b F g l H B C. cbn [btyped bclean] in *. halves. destruct (mcond_typed s g c H) as [Q E]; auto. congruence.
  - intros s t a k P body s' b r E I _ IHf _ IHb g l H B C. cbn [btyped bclean] in *. apply andb_prop in B as [B B3].
    destruct (stype g a) as [k'|] eqn:K; [|discriminate]. apply andb_prop in B as [B1 B2].
    apply andb_prop in C as [C C3]. apply andb_prop in C as [C1 C2]. pose proof (Ms _ _ _ _ _ _ H K C1 E) as ->.
    specialize (IHf ((it_var, TIter (doubly k)) :: g) _ (mhas_cons s g it_var (MLeft _ _) (TIter _) (two_doubly k) H) eq_refl B2 C2). cbn [mf_ok done] in IHf.
    apply (IHb g l); [|exact B3|exact C3]. eapply mhas_oldest with (d := [_]); [exact IHf|exact (mhas_length _ _ H)].
  - intros s t a k P body b r0 r E I _ IHf F g l H B C. cbn [btyped bclean] in *. apply andb_prop in B as [B B3].
    destruct (stype g a) as [k'|] eqn:K; [|discriminate]. apply andb_prop in B as [B1 B2].
    apply andb_prop in C as [C C3]. apply andb_prop in C as [C1 C2]. pose proof (Ms _ _ _ _ _ _ H K C1 E) as ->.
    specialize (IHf ((it_var, TIter (doubly k)) :: g) _ (mhas_cons s g it_var (MLeft _ _) (TIter _) (two_doubly k) H) eq_refl B2 C2).
    inversion F; subst; [exact Logic.I|destruct IHf].
  - intros. exact Logic.I.
  - intros s t a k P body b E I (x & y & l' & L & _ & S). destruct Nb. exists x, y, l'. auto.
  - intros s t a k P body b E W g l H B C. cbn [btyped bclean] in *. apply andb_prop in B as [B B3].
    destruct (stype g a) as [k'|] eqn:K; [|discriminate]. halves. pose proof (Ms _ _ _ _ _ _ H K ltac:(assumption) E) as ->. destruct k; discriminate.
  - intros s t a body b E g l H B C. cbn [btyped bclean] in *. apply andb_prop in B as [B B3].
    destruct (stype g a) as [k'|] eqn:K; [|discriminate]. halves. destruct (mset_typed s g a k' H K ltac:(assumption)). congruence.
  - intros s body s' b r _ IHl _ IHb g l H B C. cbn [btyped bclean] in *. apply andb_prop in B as [B1 B2]. apply andb_prop in C as [C1 C2].
    exact (IHb g l (IHl g H B1 C1) B2 C2).
  - intros s body b r0 r _ IHl F g l H B C. cbn [btyped bclean] in *. apply andb_prop in B as [B1 B2]. apply andb_prop in C as [C1 C2].
    specialize (IHl g H B1 C1). inversion F; subst; [exact Logic.I|destruct IHl].
  - intros s x a k P b r E W _ IH g l H B C. cbn [btyped bclean] in *. destruct (stype g a) as [k'|] eqn:K; [|discriminate].
    apply andb_prop in B as [B1 B2]. apply andb_prop in C as [C1 C2]. pose proof (Ms _ _ _ _ _ _ H K C1 E) as ->.
    specialize (IH ((x, TIter (doubly k)) :: g) l (mhas_cons s g x (MLeft _ _) (TIter _) (two_doubly k) H) B2 C2).
    destruct r as [[[[] s']| |]|]; auto; cbn [mb_ok after] in *; rewrite ?K.
    + destruct IH as (d & Hd & A). exists (d ++ [(x, TIter (doubly k))]). now rewrite <- app_assoc.
    + destruct IH as (L & d & Hd). split; [exact L|]. exists (d ++ [(x, TIter (doubly k))]). now rewrite <- app_assoc.
  - intros. exact Logic.I.
  - intros s x a k P b E I (u & y & l' & L & _ & S). destruct Nb. exists u, y, l'. auto.
  - intros s x a k P b E W g l H B C. cbn [btyped bclean] in *. destruct (stype g a) as [k'|] eqn:K; [|discriminate].
    halves. pose proof (Ms _ _ _ _ _ _ H K ltac:(assumption) E) as ->. destruct k; discriminate.
  - intros s x a b E g l H B C. cbn [btyped bclean] in *. destruct (stype g a) as [k'|] eqn:K; [|discriminate].
    halves. destruct (mset_typed s g a k' H K ltac:(assumption)). congruence.
  - intros s k t x b1 b2 o y s' b r Mt _ IH1 _ IH2 g l H B C. cbn [btyped bclean] in *.
    apply andb_prop in B as [B B4]. apply andb_prop in B as [B B3]. apply andb_prop in B as [B1 B2]. apply andb_prop in C as [C C3]. apply andb_prop in C as [C1 C2].
    destruct (get x g) as [[| |d]|] eqn:Gg; try discriminate. pose proof (mtaken_has s g x t k o y d H Gg Mt) as H2.
    apply (IH2 g l); [|exact B4|exact C3]. destruct o; cbn [chosen] in *.
    + exact (moldest_has s g [(t, TElt)] l b1 _ H (IH1 _ l H2 B2 C1)).
    + exact (moldest_has s g [] l b2 _ H (IH1 _ l H2 B3 C2)).
  - intros s k t x b1 b2 o y s' b Mt _ IH1 g l H B C. cbn [btyped bclean] in *.
    apply andb_prop in B as [B B4]. apply andb_prop in B as [B B3]. apply andb_prop in B as [B1 B2]. apply andb_prop in C as [C C3]. apply andb_prop in C as [C1 C2].
    destruct (get x g) as [[| |d]|] eqn:Gg; try discriminate. pose proof (mtaken_has s g x t k o y d H Gg Mt) as H2.
    destruct o; cbn [chosen] in *.
    + specialize (IH1 _ l H2 B2 C1). split; [exact (proj1 IH1)|]. exists []. exact (moldest_has s g [(t, TElt)] l b1 _ H IH1).
    + specialize (IH1 _ l H2 B3 C2). split; [exact (proj1 IH1)|]. exists []. exact (moldest_has s g [] l b2 _ H IH1).
  - intros s k t x b1 b2 o y b r0 r Mt _ IH1 F g l H B C. cbn [btyped bclean] in *.
    apply andb_prop in B as [B B4]. apply andb_prop in B as [B B3]. apply andb_prop in B as [B1 B2]. apply andb_prop in C as [C C3]. apply andb_prop in C as [C1 C2].
    destruct (get x g) as [[| |d]|] eqn:Gg; try discriminate. pose proof (mtaken_has s g x t k o y d H Gg Mt) as H2.
    assert (N : r0 <> None) by (intros ->; destruct o; cbn [chosen] in *; [exact (IH1 _ l H2 B2 C1)|exact (IH1 _ l H2 B3 C2)]).
    inversion F; subst; [exact Logic.I|congruence].
  - intros s k t x b1 b2 b r0 r Mt F g l H B C. cbn [btyped bclean] in *.
    apply andb_prop in B as [B B4]. apply andb_prop in B as [B B3]. apply andb_prop in B as [B1 B2].
    destruct (get x g) as [[| |d]|] eqn:Gg; try discriminate. pose proof (mhas_get s g x H) as Gs. rewrite Gg in Gs.
    destruct (get x s) as [[| |d' P]|] eqn:Gx; cbn [mfits] in Gs; try contradiction. subst d'.
    inversion F; subst; [exact Logic.I|]. inversion Mt as [| | |W]. specialize (W _ _ Gx). congruence.
  - intros s t body d' P G Nx g d H Gg B C. exact H.
  - intros s t body d' P x s' r G Fx Ng _ IHb _ IHf g d H Gg B C.
    pose proof (mhas_get s g it_var H) as Gs. rewrite G, Gg in Gs. cbn [mfits] in Gs. subst d'.
    assert (H2 : mhas ((t, MElt x) :: set it_var (MLeft d (fun y => P y /\ lt x y)) s) ((t, TElt) :: g)).
    { apply mhas_cons; [exact Logic.I|]. exact (mhas_set s g it_var (MLeft d _) (TIter d) H Gg eq_refl). }
    specialize (IHb _ true H2 B C). apply (moldest_has s g [(t, TElt)]) in IHb; [|exact H]. exact (IHf g d IHb Gg B C).
  - intros s t body d' P x s' G Fx Ng _ IHb g d H Gg B C.
    pose proof (mhas_get s g it_var H) as Gs. rewrite G, Gg in Gs. cbn [mfits] in Gs. subst d'.
    assert (H2 : mhas ((t, MElt x) :: set it_var (MLeft d (fun y => P y /\ lt x y)) s) ((t, TElt) :: g)).
    { apply mhas_cons; [exact Logic.I|]. exact (mhas_set s g it_var (MLeft d _) (TIter d) H Gg eq_refl). }
    specialize (IHb _ true H2 B C). apply (moldest_has s g [(t, TElt)]) in IHb; [|exact H]. exact IHb.
  - intros s t body d' P x r0 r G Fx Ng _ IHb F g d H Gg B C.
    pose proof (mhas_get s g it_var H) as Gs. rewrite G, Gg in Gs. cbn [mfits] in Gs. subst d'.
    assert (H2 : mhas ((t, MElt x) :: set it_var (MLeft d (fun y => P y /\ lt x y)) s) ((t, TElt) :: g)).
    { apply mhas_cons; [exact Logic.I|]. exact (mhas_set s g it_var (MLeft d _) (TIter d) H Gg eq_refl). }
    specialize (IHb _ true H2 B C). inversion F; subst; [exact Logic.I|destruct IHb].
  - intros. exact Logic.I.
  - intros s t body Nx g d H Gg B C. pose proof (mhas_get s g it_var H) as Gs. rewrite Gg in Gs.
    destruct (get it_var s) as [[| |d' P]|]; try destruct Gs. exact (Nx _ _ eq_refl).
  - intros s body s' r _ IHb _ IHl g H B C. specialize (IHb g true H B C). apply (moldest_has s g []) in IHb; [|exact H]. exact (IHl g IHb B C).
  - intros s body s' _ IHb g H B C. specialize (IHb g true H B C). exact (moldest_has s g [] true body _ H IHb).
  - intros s body r0 r _ IHb F g H B C. specialize (IHb g true H B C). inversion F; subst; [exact Logic.I|destruct IHb].
Qed.
Lemma prog_said s g b f : ~ big (fun _ : T => True) -> mhas s g -> ptyped g b f = true -> pclean g b f = true -> ~ mprog s b f None.
Proof.
  intros Nb H P C R. unfold ptyped in P. unfold pclean in C. apply andb_prop in P as [B F]. apply andb_prop in C as [Cb Cf].
  inversion R as [w' x Rb Fv|w' Rb Fv|w' Rb|r0 r Rb Fl]; subst; pose proof (proj1 (said Nb) _ _ _ Rb g false H B Cb) as K.
  - destruct K as (d & K & A). rewrite A in F, Cf. destruct f as [a|c]; cbn [ftyped fclean mfin] in *.
    + destruct (typed_mset _ _ _ K F Cf) as [X E]. rewrite E in Fv. discriminate.
    + destruct (mcond_typed _ _ _ K F Cf) as [X E]. rewrite E in Fv. discriminate.
  - destruct K as [K _]. discriminate.
  - inversion Fl; subst. exact K.
Qed.
End Clean.
