(** Counting the elements of unions, intersections and differences by iterating over them. *)
From Coq Require Import ZArith List Bool Lia Sorting.Sorted Sorting.Permutation.
Import ListNotations.
From Verif Require Import Base ModelBound ModelRanges ModelSets ModelValue ModelStep ModelIter Spec SpecBounds SpecStep SpecIter SpecMore Order Laws
  StepLemmas StepProofs IterLemmas IterProofs IterProofs4 ValueProofs MoreProofs Instances InstancesStep PropertiesIter PropertiesMore Reach.
Open Scope Z_scope.

(** [a & !b]: the difference of two values. *)
Definition minus {T} (x y : expr T) : expr T := EInter x (ECompl y).
(** [n] is what [v.into_iter().len()] reports (client code). *)
Definition reports {T} {PF : Platform} {OT : Ord T} {ST : Step T} (m : mode) (v : value T) (n : Z) : Prop :=
  match v with
  | VBR r => exists it, br_into_iter m r = Ret it /\ bri_len m it = Ret n
  | VBS s => exists it, bs_into_iter m s = Ret it /\ bsi_len m it = Ret n
  | _ => False
  end.
Definition bounded_kind (k : kind) : Prop := k = KBoundedRange \/ k = KBoundedSet.

Section Count.
Context {T : Type} {PF : Platform} {OT : Ord T} {ST : Step T} {NU : Numbered T} {SL : StepLaws T}.

Lemma sorted_nodup (l : list T) : StronglySorted lt l -> NoDup l.
Proof.
  induction 1 as [|a l S IH F]; constructor; auto.
  intros I. rewrite Forall_forall in F. specialize (F a I). apply lt_idx in F. lia.
Qed.
Lemma elem_dec (a b : T) : {a = b} + {a <> b}.
Proof. destruct (Z.eq_dec (idx a) (idx b)) as [E|N]; [left; apply idx_inj, E|right; congruence]. Qed.
Lemma nodup_app (l k : list T) : NoDup l -> NoDup k -> (forall t, In t l -> ~ In t k) -> NoDup (l ++ k).
Proof.
  induction 1 as [|a l N D IH]; intros K X; [exact K|]. cbn. constructor.
  - rewrite in_app_iff. intros [H|H]; [exact (N H)|]. exact (X a (or_introl eq_refl) H).
  - apply IH; [exact K|]. intros t H. apply X. right. exact H.
Qed.
Lemma among_spec (l : list T) (t : T) : existsb (teq t) l = true <-> In t l.
Proof.
  rewrite existsb_exists. split.
  - intros (x & I & E). rewrite idx_teq in E. apply Z.eqb_eq in E. apply idx_inj in E. subst. exact I.
  - intros I. exists t. split; [exact I|]. rewrite idx_teq. apply Z.eqb_refl.
Qed.
Lemma lists_filter (P R : T -> Prop) (f : T -> bool) (l k : list T) :
  lists P l -> lists R k -> (forall t, R t <-> P t /\ f t = true) -> k = filter f l.
Proof.
  intros [S E] K H. apply (lists_unique R); [exact K|]. split.
  - clear - S. induction S as [|a l S IH F]; cbn; [constructor|]. destruct (f a); [|exact IH]. constructor; [exact IH|].
    rewrite Forall_forall in *. intros x I. apply filter_In in I. apply F, I.
  - intros t. rewrite filter_In, E, H. reflexivity.
Qed.
Lemma counts (P Q : T -> Prop) lp lq lu li ld :
  lists P lp -> lists Q lq -> lists (fun t => P t \/ Q t) lu -> lists (fun t => P t /\ Q t) li -> lists (fun t => P t /\ ~ Q t) ld ->
  li = filter (fun t => existsb (teq t) lq) lp /\ ld = filter (fun t => negb (existsb (teq t) lq)) lp /\
  Permutation lu (lq ++ ld) /\ Permutation lp (li ++ ld).
Proof.
  intros Lp Lq Lu Li Ld.
  assert (EI : li = filter (fun t => existsb (teq t) lq) lp).
  { apply (lists_filter P (fun t => P t /\ Q t)); auto. intros t. rewrite among_spec, (proj2 Lq). reflexivity. }
  assert (ED : ld = filter (fun t => negb (existsb (teq t) lq)) lp).
  { apply (lists_filter P (fun t => P t /\ ~ Q t)); auto. intros t. rewrite negb_true_iff, <- (proj2 Lq), <- among_spec.
    destruct (existsb (teq t) lq); intuition discriminate. }
  split; [exact EI|]. split; [exact ED|].
  destruct Lp as [Sp Ip], Lq as [Sq Iq], Lu as [Su Iu], Li as [Si Ii], Ld as [Sd Id]. apply sorted_nodup in Sp, Sq, Su, Si, Sd.
  split; apply NoDup_Permutation; auto.
  - apply nodup_app; auto. intros t. rewrite Iq, Id. tauto.
  - intros t. rewrite Iu, in_app_iff, Iq, Id. rewrite <- Iq. destruct (in_dec elem_dec t lq) as [H|H]; tauto.
  - apply nodup_app; auto. intros t. rewrite Ii, Id. tauto.
  - intros t. rewrite Ip, in_app_iff, Ii, Id. rewrite <- Iq. destruct (in_dec elem_dec t lq) as [H|H]; tauto.
Qed.
Lemma reported (m : mode) (v : value T) (l : list T) :
  api v -> Z.of_nat (length l) <= usize_max -> lists (mem v) l -> collects Debug v (Ret l) -> reports m v (Z.of_nat (length l)).
Proof.
  intros A S L C. destruct v as [| | | | | |r| | | | |s| | |]; try destruct C; destruct H as [I _].
  - destruct (C26_range_size_partial T PF OT ST NU SL r x x l [] []) as (_ & N & _); auto. cbn in N.
    destruct m; exists x; [auto|]. split; [apply (into_iter_agree r x I)|].
    assert (R : run (bri_call Debug) x [Len] = Ret ([Count (Z.of_nat (length l))], x)) by (cbn; rewrite N; reflexivity).
    apply (proj1 (C33_histories_agree T PF OT ST NU SL)) in R; [|repeat constructor].
    cbn in R. destruct (bri_len Release x); try discriminate. cbn in R. injection R as ->. reflexivity.
  - assert (Sm : small (mem (VBS s))) by (intros k K; rewrite <- (lists_unique _ _ _ L K); exact S).
    destruct (C26_set_size_partial T PF OT ST NU SL s x x l [] []) as (_ & N & _); auto. cbn in N.
    destruct m; exists x; [auto|]. split; [apply (proj1 (proj2 (C33_into_iter_agrees T PF OT ST NU SL)) s x I)|].
    assert (R : run (bsi_call Debug) x [Len] = Ret ([Count (Z.of_nat (length l))], x)) by (cbn; rewrite N; reflexivity).
    apply (proj1 (proj2 (C33_histories_agree T PF OT ST NU SL))) in R; [|repeat constructor].
    cbn in R. destruct (bsi_len Release x); try discriminate. cbn in R. injection R as ->. reflexivity.
Qed.
(** What one operand, or a program built from both, is worth: its value and its elements. *)
Definition worth (e : expr T) (v : value T) (l : list T) : Prop :=
  eval e = Ret v /\ api v /\ lists (mem v) l /\ lists (denote e) l /\ collects Debug v (Ret l) /\ collects Release v (Ret l).
Lemma worth_program (e : expr T) :
  (forall l, In l (leaves e) -> api l) -> good_expr e -> near e -> interior e -> bounded_kind (expr_kind e) -> exists v l, worth e v l.
Proof.
  intros A G N X K. destruct (collect_program e A G N X K) as (v & l & E & L & D & R). exists v, l.
  pose proof (eval_api e v A E) as Av. destruct (eval_ok e G) as (v' & E' & _ & _ & M). rewrite E in E'. injection E' as <-.
  assert (Lm : lists (mem v) l) by (refine (lists_ext _ _ l _ L); intros t; rewrite <- contains_mem; symmetry; apply M).
  unfold worth. auto 10.
Qed.
Lemma all_worth (x y : expr T) :
  (forall l, In l (leaves x ++ leaves y) -> api l) -> good_expr x -> good_expr y ->
  near (EUnion x y) -> interior (EUnion x y) -> bounded_kind (expr_kind x) -> bounded_kind (expr_kind y) ->
  exists vx vy vu vi vd lx ly lu li ld,
    worth x vx lx /\ worth y vy ly /\ worth (EUnion x y) vu lu /\ worth (EInter x y) vi li /\ worth (minus x y) vd ld /\
    Permutation lu (ly ++ ld) /\
    li = filter (fun t => existsb (teq t) ly) lx /\ ld = filter (fun t => negb (existsb (teq t) ly)) lx /\
    (length lu + length li = length lx + length ly /\ length ld + length li = length lx)%nat.
Proof.
  intros A Gx Gy N X Kx Ky.
  destruct (worth_program x) as (vx & lx & Wx); auto.
  { intros; apply A, in_or_app; auto. } { intros p q a b P Q; apply N; cbn; apply in_or_app; auto. } { intros p t P; apply X; cbn; apply in_or_app; auto. }
  destruct (worth_program y) as (vy & ly & Wy); auto.
  { intros; apply A, in_or_app; auto. } { intros p q a b P Q; apply N; cbn; apply in_or_app; auto. } { intros p t P; apply X; cbn; apply in_or_app; auto. }
  unfold bounded_kind in *.
  destruct (worth_program (EUnion x y)) as (vu & lu & Wu); auto; [cbn; auto|cbn; destruct Kx as [->| ->], Ky as [->| ->]; cbn; unfold bounded_kind; auto|].
  destruct (worth_program (EInter x y)) as (vi & li & Wi); auto; [cbn; destruct Kx as [->| ->], Ky as [->| ->]; cbn; unfold bounded_kind; auto..|].
  destruct (worth_program (minus x y)) as (vd & ld & Wd); auto; [cbn; destruct Kx as [->| ->], Ky as [->| ->]; cbn; unfold bounded_kind; auto..|].
  exists vx, vy, vu, vi, vd, lx, ly, lu, li, ld.
  destruct (counts (denote x) (denote y) lx ly lu li ld) as (F1 & F2 & P1 & P2); [apply Wx|apply Wy|apply Wu|apply Wi|apply Wd|].
  apply Permutation_length in P1 as Q1. apply Permutation_length in P2. rewrite app_length in Q1, P2.
  repeat match goal with |- _ /\ _ => split end; auto; lia.
Qed.
End Count.

(** ** C78 *)
(** Programs [x] and [y] with bounded results that can be iterated over (as in C51): looping over [x | y],
    [x & y] and [x & !y] yields the elements looping over [x] and [y] does, each once: [y] and those of [x] not in [y];
    those of [x] that are in [y]; those of [x] that are not. *)
Theorem C78_loops (T : Type) (PF : Platform) (OT : Ord T) (ST : Step T) (NU : Numbered T) (SL : StepLaws T)
  (x y : expr T) (m : mode) :
  (forall l, In l (leaves x ++ leaves y) -> api l) -> good_expr x -> good_expr y ->
  near (EUnion x y) -> interior (EUnion x y) -> bounded_kind (expr_kind x) -> bounded_kind (expr_kind y) ->
  exists vx vy vu vi vd lx ly lu li ld,
    eval x = Ret vx /\ eval y = Ret vy /\ eval (EUnion x y) = Ret vu /\ eval (EInter x y) = Ret vi /\ eval (minus x y) = Ret vd /\
    collects m vx (Ret lx) /\ collects m vy (Ret ly) /\ collects m vu (Ret lu) /\ collects m vi (Ret li) /\ collects m vd (Ret ld) /\
    Permutation lu (ly ++ ld) /\
    li = filter (fun t => existsb (teq t) ly) lx /\ ld = filter (fun t => negb (existsb (teq t) ly)) lx /\
    (length lu + length li = length lx + length ly /\ length ld + length li = length lx)%nat.
Proof.
  intros A Gx Gy N X Kx Ky. destruct (all_worth x y A Gx Gy N X Kx Ky) as (vx & vy & vu & vi & vd & lx & ly & lu & li & ld & Wx & Wy & Wu & Wi & Wd & R).
  exists vx, vy, vu, vi, vd, lx, ly, lu, li, ld. unfold worth in *.
  repeat match goal with |- _ /\ _ => split end; try tauto; destruct m; tauto.
Qed.
Print Assumptions C78_loops.

(** And so [len] counts: [|x | y| + |x & y| = |x| + |y|], provided the union has at most [usize::MAX] elements. *)
Theorem C78_len (T : Type) (PF : Platform) (OT : Ord T) (ST : Step T) (NU : Numbered T) (SL : StepLaws T)
  (x y : expr T) (m : mode) :
  (forall l, In l (leaves x ++ leaves y) -> api l) -> good_expr x -> good_expr y ->
  near (EUnion x y) -> interior (EUnion x y) -> bounded_kind (expr_kind x) -> bounded_kind (expr_kind y) ->
  small (denote (EUnion x y)) ->
  exists vx vy vu vi vd nx ny nu ni nd,
    eval x = Ret vx /\ eval y = Ret vy /\ eval (EUnion x y) = Ret vu /\ eval (EInter x y) = Ret vi /\ eval (minus x y) = Ret vd /\
    reports m vx nx /\ reports m vy ny /\ reports m vu nu /\ reports m vi ni /\ reports m vd nd /\
    nu + ni = nx + ny /\ nd + ni = nx.
Proof.
  intros A Gx Gy N X Kx Ky S.
  destruct (all_worth x y A Gx Gy N X Kx Ky) as (vx & vy & vu & vi & vd & lx & ly & lu & li & ld & Wx & Wy & Wu & Wi & Wd & _ & _ & _ & L1 & L2).
  assert (B : Z.of_nat (length lu) <= usize_max) by (apply S; unfold worth in Wu; tauto).
  exists vx, vy, vu, vi, vd, (Z.of_nat (length lx)), (Z.of_nat (length ly)), (Z.of_nat (length lu)), (Z.of_nat (length li)), (Z.of_nat (length ld)).
  assert (C : forall e v l, worth e v l -> Z.of_nat (length l) <= usize_max -> reports m v (Z.of_nat (length l))).
  { intros e v l (_ & Av & L & _ & D & _) H. exact (reported m v l Av H L D). }
  unfold worth in Wx, Wy, Wu, Wi, Wd.
  assert (Mx : (length lx <= length lu)%nat) by (apply (IterProofs4.lists_length (denote x) (denote (EUnion x y))); cbn; tauto).
  assert (My : (length ly <= length lu)%nat) by (apply (IterProofs4.lists_length (denote y) (denote (EUnion x y))); cbn; tauto).
  repeat match goal with |- _ /\ _ => split end; try tauto; try lia;
    [apply (C x)|apply (C y)|apply (C (EUnion x y))|apply (C (EInter x y))|apply (C (minus x y))]; unfold worth; try tauto; lia.
Qed.
Print Assumptions C78_len.

(** [1..5] and [3..8 | 20..22] of [u8]. *)
Definition x78 : expr (@mint pf64 U8) := EVal (VBR (BR (LB (Included (u8 1))) (UB (Excluded (u8 5))))).
Definition y78 : expr (@mint pf64 U8) :=
  EUnion (EVal (VRange (mkRange (u8 3) (u8 8)))) (EVal (VRange (mkRange (u8 20) (u8 22)))).
Example C78_ex :
  (forall l, In l (leaves x78 ++ leaves y78) -> api l) /\ good_expr x78 /\ good_expr y78 /\
  near (PF := pf64) (EUnion x78 y78) /\ interior (EUnion x78 y78) /\ bounded_kind (expr_kind x78) /\ bounded_kind (expr_kind y78) /\
  small (PF := pf64) (denote (EUnion x78 y78)) /\
  exists s s' s'', eval (EUnion x78 y78) = Ret (VBS s) /\ eval (EInter x78 y78) = Ret (VBS s') /\ eval (minus x78 y78) = Ret (VBS s'') /\
    reports (PF := pf64) Debug (VBS s) 9 /\ reports (PF := pf64) Debug (VBS s') 2 /\ reports (PF := pf64) Debug (VBS s'') 2.
Proof.
  split; [intros l [<-|[<-|[<-|[]]]]; constructor|]. split; [exact I|]. split; [exact (conj I I)|]. split.
  { intros x y a b _ _ _ _. apply (narrow_small pf64 U8). reflexivity. }
  split.
  { intros x t Hx Ht. split; intros G.
    - specialize (G (u8 255)). revert G. simpl in Hx. destruct Hx as [<-|[<-|[<-|[]]]]; simpl in Ht;
        repeat (destruct Ht as [<-|Ht]; [intros G; apply G; reflexivity|]); destruct Ht.
    - specialize (G (u8 0)). revert G. simpl in Hx. destruct Hx as [<-|[<-|[<-|[]]]]; simpl in Ht;
        repeat (destruct Ht as [<-|Ht]; [intros G; apply G; reflexivity|]); destruct Ht. }
  split; [left; reflexivity|]. split; [right; reflexivity|]. split; [apply (narrow_small pf64 U8); reflexivity|].
  eexists _, _, _. split; [vm_compute; reflexivity|]. split; [vm_compute; reflexivity|]. split; [vm_compute; reflexivity|].
  split; [|split]; eexists; (split; [vm_compute; reflexivity|]); vm_compute; reflexivity.
Qed.
(** Without that, [len] does not add up: [2..=2^63 + 1] and [2^63 + 2..=2^64 + 1] of [u128] on a 64-bit target
    have 2^63 elements each; for their union [len] is 0 in release and panics in debug. *)
Definition x78' : expr (@mint pf64 U128) := EVal (VRangeInclusive (mkRangeInclusive (lit U128 2) (lit U128 (2 ^ 63 + 1)) false)).
Definition y78' : expr (@mint pf64 U128) := EVal (VRangeInclusive (mkRangeInclusive (lit U128 (2 ^ 63 + 2)) (lit U128 (2 ^ 64 + 1)) false)).
Theorem C78_len_refuted :
  exists (vx vy vu vi : value (@mint pf64 U128)),
    eval (EInner x78') = Ret vx /\ eval (EInner y78') = Ret vy /\ eval (EUnion x78' y78') = Ret vu /\ eval (EInter x78' y78') = Ret vi /\
    reports (PF := pf64) Release vx (2 ^ 63) /\ reports (PF := pf64) Release vy (2 ^ 63) /\
    reports (PF := pf64) Release vu 0 /\ reports (PF := pf64) Release vi 0 /\
    forall n, ~ reports (PF := pf64) Debug vu n.
Proof.
  eexists _, _, _, _. split; [vm_compute; reflexivity|]. split; [vm_compute; reflexivity|]. split; [vm_compute; reflexivity|].
  split; [vm_compute; reflexivity|]. repeat match goal with |- _ /\ _ => split end.
  1-4: eexists; (split; [vm_compute; reflexivity|]); vm_compute; reflexivity.
  intros n (it & E & L). vm_compute in E. injection E as <-. vm_compute in L. discriminate.
Qed.
Print Assumptions C78_len_refuted.
