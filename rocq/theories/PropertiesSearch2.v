(** C64: the searching methods over towers of adaptors.  They are taken as std provides them, over [next]
    and [next_back]; where an adaptor has its own [try_fold] (library/core/src/iter/adapters, outside /repo),
    it is taken to agree with the provided one. *)
From Coq Require Import Lia ZifyBool.
From Verif Require Import Base ModelBound ModelRanges ModelSets ModelAlgebra ModelValue ModelStep ModelIter ModelPipe ModelSearch
  Spec Reach SpecStep SpecIter SpecPipe SpecSearch StepProofs StepLemmas IterProofs PipeProofs PipeProofs2 InstancesStep PropertiesIter PropertiesPipe.
Open Scope Z_scope.

(** [walk] with what is left of the list. *)
Fixpoint walk_on {A B R : Type} (f : B -> A -> outcome (B + R)) (b : B) (l : list A) : outcome ((B + R) * list A) :=
  match l with
  | [] => Ret (inl b, [])
  | a :: l' =>
    x <- f b a ;;
    match x with inl b' => walk_on f b' l' | inr r => Ret (inr r, l') end
  end.

Lemma good_fold {PF : Platform} {S A : Type} (M : methods S A) hl hb R (G : good M hl hb R)
  {B Q : Type} (f : B -> A -> outcome (B + Q)) : forall l s b, R s l ->
  match walk_on f b l with
  | Ret (x, k) => exists s', R s' k /\ forall o, try_folds (m_next M) f b s o <-> o = Ret (x, s')
  | Panic => forall o, try_folds (m_next M) f b s o <-> o = Panic
  | Diverge => forall o, ~ try_folds (m_next M) f b s o
  end.
Proof.
  induction l as [|a l IH]; intros s b H; destruct (g_next M hl hb R G s _ H) as (s' & E & H'); cbn [hd_error tl] in E, H'; cbn [walk_on].
  - exists s'. split; [exact H'|]. intros o. split.
    + intros X. inversion X as [? ? s1 E1|? ? s1 a1 r E1 _|? ? s1 a1 b1 ? E1 _ _|? ? E1|? ? s1 a1 E1 _]; subst; rewrite E in E1; try discriminate.
      injection E1 as <-. reflexivity.
    + intros ->. now constructor.
  - destruct (f b a) as [[b'|r]| |] eqn:F; cbn [bind].
    + assert (Q1 : forall o, try_folds (m_next M) f b s o <-> try_folds (m_next M) f b' s' o).
      { intros o'. split.
        - intros X. inversion X as [? ? s1 E1|? ? s1 a1 r E1 F1|? ? s1 a1 b1 ? E1 F1 X1|? ? E1|? ? s1 a1 E1 F1]; subst; rewrite E in E1; try discriminate;
            injection E1 as <- <-; rewrite F in F1; try discriminate. injection F1 as <-. exact X1.
        - intros X. eapply tf_continue; eassumption. }
      specialize (IH s' b' H'). destruct (walk_on f b' l) as [[x k]| |].
      * destruct IH as (s1 & K & X). exists s1. split; [exact K|]. intros o. now rewrite Q1.
      * intros o. now rewrite Q1.
      * intros o. rewrite Q1. apply IH.
    + exists s'. split; [exact H'|]. intros o. split; [|intros ->; eapply tf_break; eassumption].
      intros X. inversion X as [? ? s1 E1|? ? s1 a1 r1 E1 F1|? ? s1 a1 b1 ? E1 F1 X1|? ? E1|? ? s1 a1 E1 F1]; subst; rewrite E in E1; try discriminate;
        injection E1 as <- <-; rewrite F in F1; try discriminate. now injection F1 as <-.
    + intros o. split.
      * intros X. inversion X as [? ? s1 E1|? ? s1 a1 r1 E1 F1|? ? s1 a1 b1 ? E1 F1 X1|? ? E1|? ? s1 a1 E1 F1]; subst; try reflexivity; rewrite E in E1; try discriminate;
          injection E1 as <- <-; rewrite F in F1; discriminate.
      * intros ->. eapply tf_closure; eassumption.
    + intros o X. inversion X as [? ? s1 E1|? ? s1 a1 r1 E1 F1|? ? s1 a1 b1 ? E1 F1 X1|? ? E1|? ? s1 a1 E1 F1]; subst; rewrite E in E1; try discriminate;
        injection E1 as <- <-; rewrite F in F1; discriminate.
Qed.

(** [walk_on] says what [walk] says, and the list is what was walked through and what is left. *)
Lemma walk_on_walk {A B R : Type} (f : B -> A -> outcome (B + R)) l : forall b,
  walk f b l = (p <- walk_on f b l ;; Ret (fst p)).
Proof. induction l as [|a l IH]; intros b; cbn [walk walk_on bind fst]; [reflexivity|]. destruct (f b a) as [[b'|r]| |]; cbn [bind]; auto. Qed.
Lemma walk_on_rest {A B R : Type} (f : B -> A -> outcome (B + R)) l : forall b x k, walk_on f b l = Ret (x, k) ->
  match x with
  | inl b' => k = [] /\ walk f b l = Ret (inl b')
  | inr r => exists j a b1, l = j ++ a :: k /\ walk f b j = Ret (inl b1) /\ f b1 a = Ret (inr r)
  end.
Proof.
  induction l as [|a l IH]; intros b x k; cbn [walk walk_on].
  - intros E. injection E as <- <-. auto.
  - destruct (f b a) as [[b'|r]| |] eqn:F; cbn [bind]; try discriminate.
    + intros E. apply IH in E. destruct x as [b1|r]; [exact E|]. destruct E as (j & a' & b1 & -> & W & F').
      exists (a :: j), a', b1. cbn [app walk]. rewrite F. auto.
    + intros E. injection E as <- <-. exists [], a, b. auto.
Qed.

(** Any search over a tower, in both builds: it ends as walking through the list does, and if it
    stops early the tower goes on with the rest of the list. *)
Theorem C64_search (PF : Platform) (m : mode) (S A : Type) (p : pipe S A) (l : list A) :
  typed p = true -> roomy p -> elems p l -> exists s, p_start m p = Ret s /\
  forall (B R : Type) (f : B -> A -> outcome (B + R)) (b : B),
  let folds := try_folds (m_next (p_methods m p)) f b s in
  (forall x, (exists s', folds (Ret (x, s'))) <-> walk f b l = Ret x) /\
  (folds Panic <-> walk f b l = Panic) /\
  (forall r s', folds (Ret (inr r, s')) -> exists j a b1 k, l = j ++ a :: k /\ walk f b j = Ret (inl b1) /\ f b1 a = Ret (inr r) /\
     drains (m_next (p_methods m p)) s' (Ret k) /\ (has_back p = true -> drains (m_next_back (p_methods m p)) s' (Ret (rev k)))).
Proof.
  intros Ty Ro L. destruct (pipe_good p m Ty Ro) as (R0 & G & St). destruct (St l L) as (s & E & H).
  exists s. split; [exact E|]. intros B R f b folds. pose proof (good_fold _ _ _ _ G f l s b H) as X.
  rewrite walk_on_walk. pose proof (walk_on_rest f l b) as W. destruct (walk_on f b l) as [[x k]| |]; cbn [bind fst].
  - destruct X as (s' & K & X). split; [|split].
    + intros y. split; [intros (s1 & Y); apply X in Y; congruence|]. intros Y. injection Y as <-. exists s'. now apply X.
    + split; [|discriminate]. intros Y. apply X in Y. discriminate.
    + intros r s1 Y. apply X in Y. injection Y as <- ->. destruct (W (inr r) k eq_refl) as (j & a & b1 & -> & Wj & Fr).
      exists j, a, b1, k. repeat (split; [assumption||reflexivity|]). split; [eapply good_drains; eassumption|].
      intros HB. rewrite HB in G. apply (good_drains _ _ _ _ (good_rev _ _ _ G)). now rewrite rev_involutive.
  - split; [|split].
    + intros y. split; [intros (s1 & Y); apply X in Y; discriminate|discriminate].
    + split; [reflexivity|]. intros _. now apply X.
    + intros r s1 Y. apply X in Y. discriminate.
  - split; [|split].
    + intros y. split; [intros (s1 & Y); destruct (X _ Y)|discriminate].
    + split; [|discriminate]. intros Y. destruct (X _ Y).
    + intros r s1 Y. destruct (X _ Y).
Qed.
Print Assumptions C64_search.

(** The first item that satisfies [q], and its position. *)
Fixpoint index {A : Type} (q : A -> bool) (l : list A) : option Z :=
  match l with
  | [] => None
  | a :: l' => if q a then Some 0 else option_map (Z.add 1) (index q l')
  end.
Lemma walk_find {A} (q : A -> bool) l : walk (fun (_ : unit) a => Ret (if q a then inr a else inl tt)) tt l =
  Ret (match find q l with Some a => inr a | None => inl tt end).
Proof. induction l as [|a l IH]; cbn [walk find bind]; [reflexivity|]. destruct (q a); cbn [bind]; auto. Qed.
Lemma walk_any {A} (q : A -> bool) l : walk (fun (_ : unit) a => Ret (if q a then inr tt else inl tt)) tt l =
  Ret (if existsb q l then inr tt else inl tt).
Proof. induction l as [|a l IH]; cbn [walk existsb bind]; [reflexivity|]. destruct (q a); cbn [bind orb]; auto. Qed.
Lemma walk_all {A} (q : A -> bool) l : walk (fun (_ : unit) a => Ret (if q a then inl tt else inr tt)) tt l =
  Ret (if forallb q l then inl tt else inr tt).
Proof. induction l as [|a l IH]; cbn [walk forallb bind]; [reflexivity|]. destruct (q a); cbn [bind andb]; auto. Qed.
Lemma walk_position {PF : Platform} m {A} (q : A -> bool) l : forall i, 0 <= i -> i + Z.of_nat (length l) <= usize_max ->
  walk (fun i a => if q a then Ret (inr i) else j <- usize_add m i 1 ;; Ret (inl j)) i l =
  Ret (match index q l with Some n => inr (i + n) | None => inl (i + Z.of_nat (length l)) end).
Proof.
  induction l as [|a l IH]; intros i Hi Hl; cbn [walk index bind length]; [now rewrite Z.add_0_r|].
  destruct (q a); cbn [bind]; [now rewrite Z.add_0_r|].
  assert (U : usize_add m i 1 = Ret (i + 1)).
  { unfold usize_add. destruct m; cbn [length] in Hl; try (replace (i + 1 <=? usize_max) with true by lia); try reflexivity.
    all: try (rewrite Z.mod_small; [reflexivity|]). all: lia. }
  rewrite U. cbn [bind]. rewrite IH by (cbn [length] in Hl; lia). destruct (index q l); cbn [option_map]; do 2 f_equal; lia.
Qed.
Lemma walk_find_map {A B} (g : A -> option B) l : walk (fun (_ : unit) a => Ret (match g a with Some b => inr b | None => inl tt end)) tt l =
  Ret (match find (fun a => if g a then true else false) l with
       | Some a => match g a with Some b => inr b | None => inl tt end | None => inl tt end).
Proof. induction l as [|a l IH]; cbn [walk find bind]; [reflexivity|]. destruct (g a) eqn:E; cbn [bind]; [now rewrite E|auto]. Qed.
Lemma walk_rposition {PF : Platform} {A} (q : A -> bool) l : forall i, Z.of_nat (length l) <= i ->
  walk (fun i a => j <- usize_sub Release i 1 ;; Ret (if q a then inr j else inl j)) i l =
  Ret (match index q l with Some n => inr (i - 1 - n) | None => inl (i - Z.of_nat (length l)) end).
Proof.
  induction l as [|a l IH]; intros i Hl; cbn [walk index bind length]; [now rewrite Z.sub_0_r|]. cbn [length] in Hl.
  assert (U : usize_sub Release i 1 = Ret (i - 1)) by (unfold usize_sub; replace (0 <=? i - 1) with true by lia; reflexivity).
  rewrite U. cbn [bind]. destruct (q a); [now rewrite Z.sub_0_r|]. rewrite IH by lia.
  destruct (index q l); cbn [option_map]; do 2 f_equal; lia.
Qed.
Lemma good_walks {PF : Platform} {S A : Type} (M : methods S A) hl hb R (G : good M hl hb R) {B Q : Type} (f : B -> A -> outcome (B + Q)) l s b x :
  R s l -> walk f b l = Ret x -> exists s', forall o, try_folds (m_next M) f b s o <-> o = Ret (x, s').
Proof.
  intros H W. pose proof (good_fold M hl hb R G f l s b H) as X. rewrite walk_on_walk in W.
  destruct (walk_on f b l) as [[y k]| |]; try discriminate. cbn [bind fst] in W. injection W as <-. destruct X as (s' & _ & X). eauto.
Qed.

(** The one outcome: [x], and the iterator goes on. *)
Definition only {S X : Type} (P : outcome (X * S) -> Prop) (x : X) : Prop := exists s', forall o, P o <-> o = Ret (x, s').
(** The last item that satisfies [q] is the first of the list turned round. *)
Definition last_index {A : Type} (q : A -> bool) (l : list A) : option Z :=
  option_map (fun n => Z.of_nat (length l) - 1 - n) (index q (rev l)).

(** The searching methods answer from the list the tower stands for, in both builds. *)
Theorem C64_find (PF : Platform) (m : mode) (S A : Type) (p : pipe S A) (l : list A) :
  typed p = true -> roomy p -> elems p l -> exists s, p_start m p = Ret s /\ forall q : A -> bool,
  let next := m_next (p_methods m p) in let back := m_next_back (p_methods m p) in
  only (finds next q s) (find q l) /\
  (forall (B : Type) (g : A -> option B), only (finds_map next g s)
     (match find (fun a => if g a then true else false) l with Some a => g a | None => None end)) /\
  only (anys next q s) (existsb q l) /\ only (alls next q s) (forallb q l) /\
  only (positions_of next m q s) (index q l) /\
  (has_back p = true -> only (finds back q s) (find q (rev l))) /\
  (has_back p = true -> has_len p = true -> only (rpositions back (m_len (p_methods m p)) q s) (last_index q l)).
Proof.
  intros Ty Ro L. destruct (pipe_good p m Ty Ro) as (R & G & St). destruct (St l L) as (s & E & H).
  exists s. split; [exact E|]. intros q next back. unfold only, finds, finds_map, anys, alls, positions_of.
  assert (Q : forall B Q X (nx : S -> outcome (option A * S)) (f : B -> A -> outcome (B + Q)) b (h : B + Q -> X) x y, h x = y ->
    (exists s', forall o, try_folds nx f b s o <-> o = Ret (x, s')) ->
    exists s', forall o, (exists z, try_folds nx f b s z /\ o = (q <- z ;; Ret (h (fst q), snd q))) <-> o = Ret (y, s')).
  { intros B Q X nx f b h x y <- (s' & F). exists s'. intros o. split.
    - intros (z & Z1 & ->). apply F in Z1. subst z. reflexivity.
    - intros ->. exists (Ret (x, s')). split; [now apply F|reflexivity]. }
  pose proof (g_small _ _ _ _ G s l H) as Sm.
  split. { eapply Q; [|eapply good_walks; [exact G|exact H|apply walk_find]]. now destruct (find q l). }
  split. { intros B g. eapply Q; [|eapply good_walks; [exact G|exact H|apply walk_find_map]].
    destruct (find _ l); [|reflexivity]. now destruct (g a). }
  split. { eapply Q; [|eapply good_walks; [exact G|exact H|apply walk_any]]. now destruct (existsb q l). }
  split. { eapply Q; [|eapply good_walks; [exact G|exact H|apply walk_all]]. now destruct (forallb q l). }
  split. { eapply Q; [|eapply good_walks; [exact G|exact H|apply walk_position; lia]]. destruct (index q l); reflexivity. }
  split; intros HB.
  - rewrite HB in G. eapply Q; [|eapply (good_walks _ _ _ _ (good_rev _ _ _ G)); [cbn beta; rewrite rev_involutive; exact H|apply walk_find]].
    now destruct (find q (rev l)).
  - intros HL. unfold rpositions. rewrite (g_len _ _ _ _ G HL s l H). rewrite HB in G.
    eapply Q; [|eapply (good_walks _ _ _ _ (good_rev _ _ _ G)); [cbn beta; rewrite rev_involutive; exact H|apply walk_rposition; rewrite rev_length; lia]].
    unfold last_index. destruct (index q (rev l)); reflexivity.
Qed.
Print Assumptions C64_find.

(** [index] is what it should be: everything before it fails, the item there passes. *)
Theorem C64_index (A : Type) (q : A -> bool) (l : list A) (n : Z) : index q l = Some n <->
  0 <= n /\ exists a, nth_error l (Z.to_nat n) = Some a /\ q a = true /\ forallb (fun x => negb (q x)) (firstn (Z.to_nat n) l) = true.
Proof.
  revert n. induction l as [|x l IH]; intros n; cbn [index].
  - split; [discriminate|]. intros (_ & a & E & _). now destruct (Z.to_nat n).
  - destruct (q x) eqn:Qx.
    + split.
      * intros E. injection E as <-. split; [lia|]. exists x. auto.
      * intros (Hn & a & E & Qa & F). destruct (Z.to_nat n) as [|k] eqn:K; [f_equal; lia|].
        cbn [firstn forallb] in F. rewrite Qx in F. discriminate.
    + split.
      * destruct (index q l) as [k|] eqn:Ek; [|discriminate]. cbn [option_map]. intros E. assert (n = 1 + k) by congruence. subst n. clear E.
        destruct (proj1 (IH k) eq_refl) as (Hk & a & E & Qa & F). split; [lia|]. exists a.
        replace (Z.to_nat (1 + k)) with (Datatypes.S (Z.to_nat k)) by lia. cbn [nth_error firstn forallb]. rewrite Qx. auto.
      * intros (Hn & a & E & Qa & F). destruct (Z.to_nat n) as [|k] eqn:K; cbn [nth_error firstn forallb] in E, F; [congruence|].
        rewrite Qx in F. cbn [negb andb] in F.
        assert (I : index q l = Some (Z.of_nat k)). { apply IH. split; [lia|]. exists a. now rewrite Nat2Z.id. }
        rewrite I. cbn [option_map]. f_equal. lia.
Qed.
Print Assumptions C64_index.

#[local] Existing Instance pf64.
(** [(10..=13u8).enumerate().rev().zip(('a'..='f').skip(1))]: the first pair whose count is below 3, the first
    position, from the back; then the rest. *)
Example C64_find_ex :
  let p := PZip (PRev (PEnum (PRange (incl (u8 10) (u8 13))))) (PSkip 1 (PRange (incl (ch 97) (ch 102)))) in
  let l := [((3, u8 13), ch 98); ((2, u8 12), ch 99); ((1, u8 11), ch 100); ((0, u8 10), ch 101)] in
  let q := fun x : (Z * mint U8) * chr => fst (fst x) <? 3 in
  typed p = true /\ roomy p /\ elems p l /\ has_back p = true /\ has_len p = true /\
  find q l = Some ((2, u8 12), ch 99) /\ index q l = Some 1 /\ existsb q l = true /\ forallb q l = false /\
  find q (rev l) = Some ((0, u8 10), ch 101) /\ last_index q l = Some 3 /\
  walk (fun b x => if q x then Ret (inr b) else Ret (inl (b + fst (fst x)))) 0 l = Ret (inr 3).
Proof.
  cbn zeta.
  destruct (roomy_incl (u8 10) (u8 13) (u8 255) (u8 0) [u8 10; u8 11; u8 12; u8 13]) as [R1 E1]; [vm_compute; congruence..|].
  destruct (roomy_incl (ch 97) (ch 102) (ch 200) (ch 0) [ch 97; ch 98; ch 99; ch 100; ch 101; ch 102]) as [R2 E2]; [vm_compute; congruence..|].
  split; [reflexivity|]. split.
  { split; [exact R1|]. split; [exact R2|]. split; [lia|]. intros k K. rewrite (lists_unique _ _ _ K E2). vm_compute. discriminate. }
  split.
  { exists [(3, u8 13); (2, u8 12); (1, u8 11); (0, u8 10)], [ch 98; ch 99; ch 100; ch 101; ch 102].
    split; [|split; [|reflexivity]].
    - eexists. split; [eexists; split; [exact E1|reflexivity]|reflexivity].
    - eexists. split; [exact E2|reflexivity]. }
  repeat (split; [reflexivity|]). reflexivity.
Qed.
