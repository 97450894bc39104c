(** The types of the programs of ClientProg.v, as rustc has them: a type of the crate or
    of std for each set, by the rules of Spec.v.  Well-typed programs do not go wrong. *)
From Coq Require Import String Lia.
From Verif Require Import Base ModelBound ModelRanges ModelSets ModelAlgebra ModelValue ModelStep ModelIter Spec ClientProg PropertiesAlgebra.
Open Scope string_scope.
Open Scope list_scope.

(** [TIter]: an iterator, also the hidden one of a [for]; [back]: it has a [next_back]. *)
Inductive ty : Set := TSet (k : kind) | TElt | TIter (back : bool).
Definition ctx : Type := list (string * ty).
Definition kind_eqb (a b : kind) : bool :=
  match a, b with
  | KRange, KRange | KRangeInclusive, KRangeInclusive | KRangeFrom, KRangeFrom | KRangeTo, KRangeTo
  | KRangeToInclusive, KRangeToInclusive | KRangeFull, KRangeFull | KBoundedRange, KBoundedRange
  | KLowerBoundedRange, KLowerBoundedRange | KUpperBoundedRange, KUpperBoundedRange | KUnboundedRange, KUnboundedRange
  | KEmptyRange, KEmptyRange | KBoundedSet, KBoundedSet | KLowerBoundedSet, KLowerBoundedSet
  | KUpperBoundedSet, KUpperBoundedSet | KUnboundedSet, KUnboundedSet => true
  | _, _ => false
  end.
Lemma kind_eqb_eq a b : kind_eqb a b = true -> a = b.
Proof. destruct a, b; try discriminate; reflexivity. Qed.

Definition is_elt (g : ctx) (x : string) : bool := match get x g with Some TElt => true | _ => false end.
Definition when (b : bool) (k : kind) : option kind := if b then Some k else None.
Fixpoint stype (g : ctx) (a : sexp) : option kind :=
  match a with
  | XVar x => match get x g with Some (TSet k) => Some k | _ => None end
  | XRange x y => when (is_elt g x && is_elt g y) KRange
  | XIncl x y => when (is_elt g x && is_elt g y) KRangeInclusive
  | XFrom x => when (is_elt g x) KRangeFrom
  | XTo x => when (is_elt g x) KRangeTo
  | XToIncl x => when (is_elt g x) KRangeToInclusive
  | XFull => Some KRangeFull
  | XUnion a b => match stype g a, stype g b with Some k, Some l => Some (union_kind k l) | _, _ => None end
  | XInter a b => match stype g a, stype g b with Some k, Some l => Some (inter_kind k l) | _, _ => None end
  | XCompl a => option_map compl_kind (stype g a)
  | XInner a => option_map inner_kind (stype g a)
  | XSet a => option_map set_kind (stype g a)
  end.
Definition typed (g : ctx) (a : sexp) : bool := match stype g a with Some _ => true | None => false end.
Fixpoint ctyped (g : ctx) (c : cond) : bool :=
  match c with
  | QEmpty a => typed g a
  | QHas a x => typed g a && is_elt g x
  | QDisjoint a b | QMeets a b => typed g a && typed g b
  | QLess x y | QSame x y => is_elt g x && is_elt g y
  | QNot c => ctyped g c
  | QAnd c d | QOr c d => ctyped g c && ctyped g d
  end.
(** The types of the crate with an iterator of its own. *)
Definition loops (k : kind) : bool :=
  match k with KBoundedRange | KLowerBoundedRange | KBoundedSet | KLowerBoundedSet => true | _ => false end.
(** Those whose iterator has a [next_back]. *)
Definition doubly (k : kind) : bool := match k with KBoundedRange | KBoundedSet => true | _ => false end.
(** [inside]: the block is inside a loop. *)
Fixpoint btyped (g : ctx) (inside : bool) (b : block) : bool :=
  match b with
  | BEnd => true
  | BBreak => inside
  | BLet x a b => match stype g a with Some k => btyped ((x, TSet k) :: g) inside b | None => false end
  | BPut x a b =>
    match stype g a, get x g with Some k, Some (TSet l) => kind_eqb k l | _, _ => false end && btyped g inside b
  | BIf c b1 b2 b => ctyped g c && btyped g inside b1 && btyped g inside b2 && btyped g inside b
  | BFor t a body b =>
    match stype g a with Some k => loops k && btyped ((t, TElt) :: (it_var, TIter (doubly k)) :: g) true body | None => false end
    && btyped g inside b
  | BLoop body b => btyped g true body && btyped g inside b
  | BIter x a b => match stype g a with Some k => loops k && btyped ((x, TIter (doubly k)) :: g) inside b | None => false end
  | BNext back t x b1 b2 b =>
    match get x g with Some (TIter d) => implb back d | _ => false end
    && btyped ((t, TElt) :: g) inside b1 && btyped g inside b2 && btyped g inside b
  end.
Definition ftyped (g : ctx) (f : fin) : bool := match f with FSet a => typed g a | FCond c => ctyped g c end.
(** The variables of the program at its end. *)
Fixpoint after (g : ctx) (b : block) : ctx :=
  match b with
  | BEnd | BBreak => g
  | BLet x a b => match stype g a with Some k => after ((x, TSet k) :: g) b | None => g end
  | BIter x a b => match stype g a with Some k => after ((x, TIter (doubly k)) :: g) b | None => g end
  | BPut _ _ b | BIf _ _ _ b | BFor _ _ _ b | BLoop _ b | BNext _ _ _ _ _ b => after g b
  end.
Definition ptyped (g : ctx) (b : block) (f : fin) : bool := btyped g false b && ftyped (after g b) f.

Section Types.
Context {T : Type} {PF : Platform} {OT : Ord T} {OL : OrdLaws T} {ST : Step T} (m : mode).
Definition double (i : iter T) : bool := match i with JBR _ | JBS _ => true | _ => false end.
Definition fits (c : cval T) (t : ty) : Prop :=
  match c, t with
  | CSet v, TSet k => kind_of v = k
  | CElt _, TElt => True
  | CIter i, TIter d => double i = d
  | _, _ => False
  end.
(** The variables have these types. *)
Definition has (s : state T) (g : ctx) : Prop := Forall2 (fun p q => fst p = fst q /\ fits (snd p) (snd q)) s g.

Lemma has_cons s g x c t : fits c t -> has s g -> has ((x, c) :: s) ((x, t) :: g).
Proof. intros F H. constructor; [now split|exact H]. Qed.
Lemma has_get s g x : has s g -> match get x s, get x g with Some c, Some t => fits c t | None, None => True | _, _ => False end.
Proof. induction 1 as [|[y c] [z t] s g [E F] _ IH]; cbn in *; [exact Logic.I|]. subst z. now destruct (String.eqb x y). Qed.
Lemma has_set s g x c t : has s g -> get x g = Some t -> fits c t -> has (set x c s) g.
Proof.
  intros H G F. induction H as [|[y d] [z u] s g [E F'] H IH]; cbn in *; [discriminate|]. subst z.
  destruct (String.eqb x y); [injection G as <-; exact (Forall2_cons (y, c) (y, u) (conj eq_refl F) H)|].
  exact (Forall2_cons (y, d) (y, u) (conj eq_refl F') (IH G)).
Qed.
Lemma has_length s g : has s g -> length s = length g.
Proof. induction 1; cbn; auto. Qed.
Lemma has_oldest s d g n : has s (d ++ g) -> n = length g -> has (oldest n s) g.
Proof.
  intros H ->. pose proof (has_length _ _ H) as L. rewrite app_length in L. unfold oldest. rewrite L, Nat.add_sub. clear L.
  revert s H. induction d as [|p d IH]; intros s H; [exact H|]. inversion H; subst. cbn [length skipn]. now apply IH.
Qed.
Lemma elt_typed s g x : has s g -> is_elt g x = true -> exists t, elt s x = done t.
Proof.
  intros H E. pose proof (has_get s g x H) as G. unfold is_elt in E. unfold elt.
  destruct (get x s) as [c|], (get x g) as [t|]; try discriminate; try destruct G. destruct t, c; try discriminate; try destruct G. eexists. reflexivity.
Qed.
Lemma andthen_not_wrong {A B} (x : result A) (f : A -> result B) : x <> None -> (forall a, x = done a -> f a <> None) -> andthen x f <> None.
Proof. destruct x as [[a| |]|]; cbn; intros H K; try discriminate; [now apply K|congruence]. Qed.
(** A set expression has its type. *)
Lemma sval_typed s g a k : has s g -> stype g a = Some k -> sval s a <> None /\ forall v, sval s a = done v -> kind_of v = k.
Proof.
  intros H. revert k. unfold when. induction a as [x|x y|x y|x|x|x| |a IHa b IHb|a IHa b IHb|a IHa|a IHa|a IHa]; cbn [stype sval]; unfold when; intros k E.
  - pose proof (has_get s g x H) as G. destruct (get x s) as [c|], (get x g) as [t|]; try discriminate; try destruct G.
    destruct t; try discriminate. injection E as <-. destruct c; try destruct G. split; [discriminate|]. now intros w [= <-].
  - destruct (is_elt g x) eqn:X; [|discriminate]. destruct (is_elt g y) eqn:Y; [|discriminate]. injection E as <-.
    destruct (elt_typed s g x H X) as [t ->], (elt_typed s g y H Y) as [u ->]. cbn. split; [discriminate|]. now intros v [= <-].
  - destruct (is_elt g x) eqn:X; [|discriminate]. destruct (is_elt g y) eqn:Y; [|discriminate]. injection E as <-.
    destruct (elt_typed s g x H X) as [t ->], (elt_typed s g y H Y) as [u ->]. cbn. split; [discriminate|]. now intros v [= <-].
  - destruct (is_elt g x) eqn:X; [|discriminate]. injection E as <-. destruct (elt_typed s g x H X) as [t ->]. cbn. split; [discriminate|]. now intros v [= <-].
  - destruct (is_elt g x) eqn:X; [|discriminate]. injection E as <-. destruct (elt_typed s g x H X) as [t ->]. cbn. split; [discriminate|]. now intros v [= <-].
  - destruct (is_elt g x) eqn:X; [|discriminate]. injection E as <-. destruct (elt_typed s g x H X) as [t ->]. cbn. split; [discriminate|]. now intros v [= <-].
  - injection E as <-. split; [discriminate|]. now intros v [= <-].
  - destruct (stype g a) as [ka|]; [|discriminate]. destruct (stype g b) as [kb|]; [|discriminate]. injection E as <-.
    destruct (IHa _ eq_refl) as [Na Ka], (IHb _ eq_refl) as [Nb Kb]. destruct (sval s a) as [[v| |]|]; try congruence; cbn; try (split; discriminate).
    destruct (sval s b) as [[w| |]|]; try congruence; cbn; try (split; discriminate). split; [discriminate|]. intros r [= R].
    rewrite <- (Ka v eq_refl), <- (Kb w eq_refl). exact (proj1 (C17_result_types T OT OL v w r) R).
  - destruct (stype g a) as [ka|]; [|discriminate]. destruct (stype g b) as [kb|]; [|discriminate]. injection E as <-.
    destruct (IHa _ eq_refl) as [Na Ka], (IHb _ eq_refl) as [Nb Kb]. destruct (sval s a) as [[v| |]|]; try congruence; cbn; try (split; discriminate).
    destruct (sval s b) as [[w| |]|]; try congruence; cbn; try (split; discriminate). split; [discriminate|]. intros r [= R].
    rewrite <- (Ka v eq_refl), <- (Kb w eq_refl). exact (proj1 (proj2 (C17_result_types T OT OL v w r)) R).
  - destruct (stype g a) as [ka|]; [|discriminate]. injection E as <-.
    destruct (IHa _ eq_refl) as [Na Ka]. destruct (sval s a) as [[v| |]|]; try congruence; cbn; try (split; discriminate).
    split; [discriminate|]. intros r [= R]. rewrite <- (Ka v eq_refl). exact (proj1 (proj2 (proj2 (C17_result_types T OT OL v v r))) R).
  - destruct (stype g a) as [ka|]; [|discriminate]. injection E as <-.
    destruct (IHa _ eq_refl) as [Na Ka]. destruct (sval s a) as [[v| |]|]; try congruence; cbn; try (split; discriminate).
    split; [discriminate|]. intros r [= <-]. rewrite <- (Ka v eq_refl). exact (proj1 (proj2 (proj2 (proj2 (C17_result_types T OT OL v v v))))).
  - destruct (stype g a) as [ka|]; [|discriminate]. injection E as <-.
    destruct (IHa _ eq_refl) as [Na Ka]. destruct (sval s a) as [[v| |]|]; try congruence; cbn; try (split; discriminate).
    split; [discriminate|]. intros r [= <-]. rewrite <- (Ka v eq_refl). exact (proj2 (proj2 (proj2 (proj2 (C17_result_types T OT OL v v v))))).
Qed.
Lemma typed_sval s g a : has s g -> typed g a = true -> sval s a <> None.
Proof. unfold typed. destruct (stype g a) as [k|] eqn:E; [|discriminate]. intros H _. exact (proj1 (sval_typed s g a k H E)). Qed.
Lemma cond_typed s g c : has s g -> ctyped g c = true -> cval_of s c <> None.
Proof.
  intros H. induction c as [a|a x|a b|a b|x y|x y|c IH|c IHc d IHd|c IHc d IHd]; cbn [ctyped cval_of]; intros E;
    repeat match goal with E : _ && _ = true |- _ => apply andb_prop in E as [? ?] end.
  - apply andthen_not_wrong; [eapply typed_sval; eassumption|discriminate].
  - apply andthen_not_wrong; [eapply typed_sval; eassumption|]. intros v _. destruct (elt_typed s g x) as [t ->]; auto. discriminate.
  - apply andthen_not_wrong; [eapply typed_sval; eassumption|]. intros v _. apply andthen_not_wrong; [eapply typed_sval; eassumption|discriminate].
  - apply andthen_not_wrong; [eapply typed_sval; eassumption|]. intros v _. apply andthen_not_wrong; [eapply typed_sval; eassumption|discriminate].
  - destruct (elt_typed s g x) as [t ->]; auto. destruct (elt_typed s g y) as [u ->]; auto. discriminate.
  - destruct (elt_typed s g x) as [t ->]; auto. destruct (elt_typed s g y) as [u ->]; auto. discriminate.
  - apply andthen_not_wrong; [auto|discriminate].
  - apply andthen_not_wrong; [auto|]. intros [] _; [auto|discriminate].
  - apply andthen_not_wrong; [auto|]. intros [] _; [discriminate|auto].
Qed.

(** What a well-typed block does. *)
Definition b_ok (g : ctx) (inside : bool) (b : block) (r : result (ending * state T)) : Prop :=
  match r with
  | None => False
  | Some (Ret (Through, s')) => exists d, has s' (d ++ g) /\ after g b = d ++ g
  | Some (Ret (Broken, s')) => inside = true /\ exists d, has s' (d ++ g)
  | _ => True
  end.
Definition f_ok (g : ctx) (r : result (state T)) : Prop :=
  match r with None => False | Some (Ret s') => has s' g | _ => True end.
Scheme brun_min := Minimality for brun Sort Prop
  with frun_min := Minimality for frun Sort Prop
  with lrun_min := Minimality for lrun Sort Prop.
Combined Scheme brun_frun_ind from brun_min, frun_min, lrun_min.
Lemma into_double v i : into_iter m v = done i -> double i = doubly (kind_of v) /\ loops (kind_of v) = true.
Proof.
  destruct v; cbn [into_iter]; try discriminate; unfold done;
    lazymatch goal with |- Some (bind ?o _) = _ -> _ => destruct o; cbn [bind]; intros [= <-]; split; reflexivity end.
Qed.
Lemma take_double k i o i' : take m k i = done (o, i') -> double i' = double i.
Proof.
  destruct k, i; cbn [take next next_back]; try discriminate; unfold done;
    lazymatch goal with |- Some (bind ?o _) = _ -> _ => destruct o; cbn [bind]; intros [= _ <-]; reflexivity end.
Qed.
Lemma next_double i o i' : next m i = Ret (o, i') -> double i' = double i.
Proof. intros H. apply (take_double false i o i'). unfold take, done. now rewrite H. Qed.
Lemma taken_has s g x t i o i' d k : has s g -> get x s = Some (CIter i) -> get x g = Some (TIter d) -> take m k i = done (o, i') ->
  has (taken x t o i' s) (match o with Some _ => (t, TElt) :: g | None => g end).
Proof.
  intros H Gs Gg Tk. pose proof (has_get s g x H) as F. rewrite Gs, Gg in F. cbn [fits] in F.
  assert (H2 : has (set x (CIter i') s) g) by (apply (has_set s g x (CIter i') (TIter d) H Gg); cbn [fits]; rewrite (take_double _ _ _ _ Tk); exact F).
  destruct o; cbn [taken]; [apply has_cons; [exact Logic.I|exact H2]|exact H2].
Qed.
Lemma oldest_has s g d1 l b r : has s g -> b_ok (d1 ++ g) l b r ->
  match r with Some (Ret (_, s')) => has (oldest (length s) s') g | _ => True end.
Proof.
  intros H K. pose proof (has_length s g H) as L. destruct r as [[[[] s']| |]|]; auto.
  - destruct K as (d & K & _). rewrite app_assoc in K. exact (has_oldest _ _ _ _ K L).
  - destruct K as (_ & d & K). rewrite app_assoc in K. exact (has_oldest _ _ _ _ K L).
Qed.
Lemma well_typed :
  (forall s b r, brun m s b r -> forall g l, has s g -> btyped g l b = true -> b_ok g l b r) /\
  (forall s t body r, frun m s t body r -> forall g d, has s g -> get it_var g = Some (TIter d) -> btyped ((t, TElt) :: g) true body = true -> f_ok g r) /\
  (forall s body r, lrun m s body r -> forall g, has s g -> btyped g true body = true -> f_ok g r).
Proof.
  assert (Ob : forall s g l b r, has s g -> b_ok g l b r ->
    match r with Some (Ret (_, s')) => has (oldest (length s) s') g | _ => True end).
  { intros s g l b r H K. pose proof (has_length s g H) as L. destruct r as [[[[] s']| |]|]; auto.
    - destruct K as (d & K & _). exact (has_oldest _ _ _ _ K L).
    - destruct K as (_ & d & K). exact (has_oldest _ _ _ _ K L). }
  apply brun_frun_ind.
  - intros s g l H _. exists []. now split.
  - intros s g l H E. cbn in E. split; [exact E|]. now exists [].
  - intros s x a v b r E _ IH g l H B. cbn [btyped] in B. destruct (stype g a) as [k|] eqn:K; [|discriminate].
    destruct (sval_typed s g a k H K) as [_ Kv]. specialize (IH ((x, TSet k) :: g) l (has_cons s g x (CSet v) (TSet k) (Kv v E) H) B).
    destruct r as [[[[] s']| |]|]; auto; cbn [b_ok after] in *; rewrite ?K.
    + destruct IH as (d & Hd & A). exists (d ++ [(x, TSet k)]). now rewrite <- app_assoc.
    + destruct IH as (L & d & Hd). split; [exact L|]. exists (d ++ [(x, TSet k)]). now rewrite <- app_assoc.
  - intros s x a b r F g l H B. cbn [btyped] in B. destruct (stype g a) as [k|] eqn:K; [|discriminate].
    destruct (sval_typed s g a k H K) as [Nv _]. inversion F; subst; [exact Logic.I|congruence].
  - intros s x a w v b r E G _ IH g l H B. cbn [btyped] in B. apply andb_prop in B as [B1 B2]. destruct (stype g a) as [k|] eqn:K; [|discriminate].
    destruct (get x g) as [[k'| |]|] eqn:Gx; try discriminate. apply kind_eqb_eq in B1 as <-. destruct (sval_typed s g a k H K) as [_ Kv].
    exact (IH g l (has_set s g x (CSet v) (TSet k) H Gx (Kv v E)) B2).
  - intros s x a v b E Nx g l H B. cbn [btyped] in B. apply andb_prop in B as [B1 B2]. destruct (stype g a) as [k|] eqn:K; [|discriminate].
    destruct (get x g) as [[k'| |]|] eqn:Gx; try discriminate. pose proof (has_get s g x H) as Gs. rewrite Gx in Gs.
    destruct (get x s) as [[w| |]|]; try destruct Gs. exact (Nx w eq_refl).
  - intros s x a b r F g l H B. cbn [btyped] in B. apply andb_prop in B as [B1 B2]. destruct (stype g a) as [k|] eqn:K; [|discriminate].
    destruct (sval_typed s g a k H K) as [Nv _]. inversion F; subst; [exact Logic.I|congruence].
  - intros s c t b1 b2 s' b r E _ IH1 _ IH2 g l H B. cbn [btyped] in B. apply andb_prop in B as [B B4]. apply andb_prop in B as [B B3]. apply andb_prop in B as [B1 B2].
    assert (Bt : btyped g l (if t then b1 else b2) = true) by now destruct t. specialize (IH1 g l H Bt). apply (Ob s) in IH1; [|exact H].
    exact (IH2 g l IH1 B4).
  - intros s c t b1 b2 s' b E _ IH1 g l H B. cbn [btyped] in B. apply andb_prop in B as [B B4]. apply andb_prop in B as [B B3]. apply andb_prop in B as [B1 B2].
    assert (Bt : btyped g l (if t then b1 else b2) = true) by now destruct t. specialize (IH1 g l H Bt). split; [exact (proj1 IH1)|].
    apply (Ob s) in IH1; [|exact H]. now exists [].
  - intros s c t b1 b2 b r0 r E _ IH1 F g l H B. cbn [btyped] in B. apply andb_prop in B as [B B4]. apply andb_prop in B as [B B3]. apply andb_prop in B as [B1 B2].
    assert (Bt : btyped g l (if t then b1 else b2) = true) by now destruct t. specialize (IH1 g l H Bt). inversion F; subst; [exact Logic.I|destruct IH1].
  - intros s c b1 b2 b r F g l H B. cbn [btyped] in B. apply andb_prop in B as [B B4]. apply andb_prop in B as [B B3]. apply andb_prop in B as [B1 B2].
    pose proof (cond_typed s g c H B1). inversion F; subst; [exact Logic.I|congruence].
  - intros s t a v i body s' b r E I _ IHf _ IHb g l H B. cbn [btyped] in B. apply andb_prop in B as [B B3].
    destruct (stype g a) as [k|] eqn:K; [|discriminate]. apply andb_prop in B as [B1 B2]. destruct (sval_typed s g a k H K) as [_ Kv]. specialize (Kv v E). subst k.
    specialize (IHf ((it_var, TIter (doubly (kind_of v))) :: g) _ (has_cons s g it_var (CIter i) (TIter _) (proj1 (into_double v i I)) H) eq_refl B2). cbn [f_ok done] in IHf.
    apply (IHb g l); [|exact B3]. eapply has_oldest with (d := [_]); [exact IHf|exact (has_length _ _ H)].
  - intros s t a v i body b r0 r E I _ IHf F g l H B. cbn [btyped] in B. apply andb_prop in B as [B B3].
    destruct (stype g a) as [k|] eqn:K; [|discriminate]. apply andb_prop in B as [B1 B2]. destruct (sval_typed s g a k H K) as [_ Kv]. specialize (Kv v E). subst k.
    specialize (IHf ((it_var, TIter (doubly (kind_of v))) :: g) _ (has_cons s g it_var (CIter i) (TIter _) (proj1 (into_double v i I)) H) eq_refl B2).
    inversion F; subst; [exact Logic.I|destruct IHf].
  - intros s t a v body b r E F g l H B. cbn [btyped] in B. apply andb_prop in B as [B B3].
    destruct (stype g a) as [k|] eqn:K; [|discriminate]. apply andb_prop in B as [B1 B2]. destruct (sval_typed s g a k H K) as [_ Kv]. specialize (Kv v E).
    inversion F as [I|I]; subst; [exact Logic.I|]. destruct v; try discriminate I; discriminate B1.
  - intros s t a body b r F g l H B. cbn [btyped] in B. apply andb_prop in B as [B B3].
    destruct (stype g a) as [k|] eqn:K; [|discriminate]. destruct (sval_typed s g a k H K) as [Nv _]. inversion F; subst; [exact Logic.I|congruence].
  - intros s body s' b r _ IHl _ IHb g l H B. cbn [btyped] in B. apply andb_prop in B as [B1 B2]. exact (IHb g l (IHl g H B1) B2).
  - intros s body b r0 r _ IHl F g l H B. cbn [btyped] in B. apply andb_prop in B as [B1 B2]. specialize (IHl g H B1).
    inversion F; subst; [exact Logic.I|destruct IHl].
  - intros s x a v i b r E I _ IH g l H B. cbn [btyped] in B. destruct (stype g a) as [k|] eqn:K; [|discriminate]. apply andb_prop in B as [B1 B2].
    destruct (sval_typed s g a k H K) as [_ Kv]. specialize (Kv v E). subst k.
    specialize (IH ((x, TIter (doubly (kind_of v))) :: g) l (has_cons s g x (CIter i) (TIter _) (proj1 (into_double v i I)) H) B2).
    destruct r as [[[[] s']| |]|]; auto; cbn [b_ok after] in *; rewrite ?K.
    + destruct IH as (d & Hd & A). exists (d ++ [(x, TIter (doubly (kind_of v)))]). now rewrite <- app_assoc.
    + destruct IH as (L & d & Hd). split; [exact L|]. exists (d ++ [(x, TIter (doubly (kind_of v)))]). now rewrite <- app_assoc.
  - intros s x a v b r E F g l H B. cbn [btyped] in B. destruct (stype g a) as [k|] eqn:K; [|discriminate]. apply andb_prop in B as [B1 B2].
    destruct (sval_typed s g a k H K) as [_ Kv]. specialize (Kv v E).
    inversion F as [I|I]; subst; [exact Logic.I|]. destruct v; try discriminate I; discriminate B1.
  - intros s x a b r F g l H B. cbn [btyped] in B. destruct (stype g a) as [k|] eqn:K; [|discriminate].
    destruct (sval_typed s g a k H K) as [Nv _]. inversion F; subst; [exact Logic.I|congruence].
  - intros s k t x b1 b2 i o i' s' b r Gs Tk _ IH1 _ IH2 g l H B. cbn [btyped] in B.
    apply andb_prop in B as [B B4]. apply andb_prop in B as [B B3]. apply andb_prop in B as [B1 B2].
    destruct (get x g) as [[| |d]|] eqn:Gg; try discriminate. pose proof (taken_has s g x t i o i' d k H Gs Gg Tk) as H2.
    apply (IH2 g l); [|exact B4]. destruct o; cbn [chosen] in *.
    + exact (oldest_has s g [(t, TElt)] l b1 _ H (IH1 _ l H2 B2)).
    + exact (oldest_has s g [] l b2 _ H (IH1 _ l H2 B3)).
  - intros s k t x b1 b2 i o i' s' b Gs Tk _ IH1 g l H B. cbn [btyped] in B.
    apply andb_prop in B as [B B4]. apply andb_prop in B as [B B3]. apply andb_prop in B as [B1 B2].
    destruct (get x g) as [[| |d]|] eqn:Gg; try discriminate. pose proof (taken_has s g x t i o i' d k H Gs Gg Tk) as H2.
    destruct o; cbn [chosen] in *.
    + specialize (IH1 _ l H2 B2). split; [exact (proj1 IH1)|]. exists []. exact (oldest_has s g [(t, TElt)] l b1 _ H IH1).
    + specialize (IH1 _ l H2 B3). split; [exact (proj1 IH1)|]. exists []. exact (oldest_has s g [] l b2 _ H IH1).
  - intros s k t x b1 b2 i o i' b r0 r Gs Tk _ IH1 F g l H B. cbn [btyped] in B.
    apply andb_prop in B as [B B4]. apply andb_prop in B as [B B3]. apply andb_prop in B as [B1 B2].
    destruct (get x g) as [[| |d]|] eqn:Gg; try discriminate. pose proof (taken_has s g x t i o i' d k H Gs Gg Tk) as H2.
    assert (N : r0 <> None) by (intros ->; destruct o; cbn [chosen] in *; [exact (IH1 _ l H2 B2)|exact (IH1 _ l H2 B3)]).
    inversion F; subst; [exact Logic.I|congruence].
  - intros s k t x b1 b2 i b r Gs F g l H B. cbn [btyped] in B.
    apply andb_prop in B as [B B4]. apply andb_prop in B as [B B3]. apply andb_prop in B as [B1 B2].
    destruct (get x g) as [[| |d]|] eqn:Gg; try discriminate. pose proof (has_get s g x H) as Ft. rewrite Gs, Gg in Ft. cbn [fits] in Ft.
    inversion F as [I|I]; subst; [exact Logic.I|]. destruct k, i; try discriminate I; discriminate B1.
  - intros s k t x b1 b2 b Nx g l H B. cbn [btyped] in B.
    apply andb_prop in B as [B B4]. apply andb_prop in B as [B B3]. apply andb_prop in B as [B1 B2].
    destruct (get x g) as [[| |d]|] eqn:Gg; try discriminate. pose proof (has_get s g x H) as Gs. rewrite Gg in Gs.
    destruct (get x s) as [[| |i]|]; try destruct Gs. exact (Nx i eq_refl).
  - intros s t body i i' G Nx g d H Gg B. pose proof (has_get s g it_var H) as F. rewrite G, Gg in F.
    apply (has_set s g it_var (CIter i') (TIter d) H Gg). cbn [fits] in *. now rewrite (next_double _ _ _ Nx).
  - intros s t body i x i' s' r G Nx _ IHb _ IHf g d H Gg B.
    assert (Tk : take m false i = done (Some x, i')) by (unfold take, done; now rewrite Nx).
    pose proof (taken_has s g it_var t i (Some x) i' d false H G Gg Tk) as H2.
    specialize (IHb _ true H2 B). apply (oldest_has s g [(t, TElt)]) in IHb; [|exact H]. exact (IHf g d IHb Gg B).
  - intros s t body i x i' s' G Nx _ IHb g d H Gg B.
    assert (Tk : take m false i = done (Some x, i')) by (unfold take, done; now rewrite Nx).
    pose proof (taken_has s g it_var t i (Some x) i' d false H G Gg Tk) as H2.
    specialize (IHb _ true H2 B). apply (oldest_has s g [(t, TElt)]) in IHb; [|exact H]. exact IHb.
  - intros s t body i x i' r0 r G Nx _ IHb F g d H Gg B.
    assert (Tk : take m false i = done (Some x, i')) by (unfold take, done; now rewrite Nx).
    pose proof (taken_has s g it_var t i (Some x) i' d false H G Gg Tk) as H2.
    specialize (IHb _ true H2 B). inversion F; subst; [exact Logic.I|destruct IHb].
  - intros. exact Logic.I.
  - intros s t body Nx g d H Gg B. pose proof (has_get s g it_var H) as Gs. rewrite Gg in Gs.
    destruct (get it_var s) as [[| |i]|]; try destruct Gs. exact (Nx i eq_refl).
  - intros s body s' r _ IHb _ IHl g H B. specialize (IHb g true H B). apply (oldest_has s g []) in IHb; [|exact H]. exact (IHl g IHb B).
  - intros s body s' _ IHb g H B. specialize (IHb g true H B). exact (oldest_has s g [] true body _ H IHb).
  - intros s body r0 r _ IHb F g H B. specialize (IHb g true H B). inversion F; subst; [exact Logic.I|destruct IHb].
Qed.
(** A well-typed program never goes wrong, and what it gives has the type. *)
Lemma prog_typed s g b f : has s g -> ptyped g b f = true -> ~ prun m s b f None.
Proof.
  intros H P R. unfold ptyped in P. apply andb_prop in P as [B F].
  inversion R as [s' r Rb Fv|s' Rb|r0 r Rb Fl]; subst; pose proof (proj1 well_typed _ _ _ Rb g false H B) as K.
  - destruct K as (d & K & A). rewrite A in F. destruct f as [a|c]; cbn [ftyped fin_val] in *.
    + revert Fv. apply andthen_not_wrong; [exact (typed_sval _ _ _ K F)|discriminate].
    + revert Fv. apply andthen_not_wrong; [exact (cond_typed _ _ _ K F)|discriminate].
  - destruct K as [K _]. discriminate.
  - inversion Fl; subst. exact K.
Qed.
End Types.
