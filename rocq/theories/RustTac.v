(** Running the interpreter of RustEval.v on symbolic values. *)
From Coq Require Import String Lia.
From Verif Require Import Base ModelBound ModelRanges ModelSets ModelValue ModelStep ModelIter RustSyntax Source RustEval RustEnc.
Open Scope Z_scope.
Open Scope string_scope.
Open Scope list_scope.

Lemma vd_front_map {A B : Type} (f : A -> B) l : vd_front (map f l) = option_map f (vd_front l).
Proof. now destruct l. Qed.
Lemma vd_back_map {A B : Type} (f : A -> B) l : vd_back (map f l) = option_map f (vd_back l).
Proof. unfold vd_back. rewrite <- map_rev. now destruct (rev l). Qed.

Lemma position_ext {A : Type} (f g : A -> bool) l : (forall a, f a = g a) -> position f l = position g l.
Proof. intros H. induction l as [|a l IH]; [reflexivity|]. cbn [position]. now rewrite H, IH. Qed.
Lemma vd_index_map {A B : Type} (f : A -> B) l i : vd_index (map f l) i = (x <- vd_index l i ;; Ret (f x)).
Proof. unfold vd_index. rewrite nth_error_map. now destruct (nth_error l i). Qed.
Lemma vd_remove_map {A B : Type} (f : A -> B) l i :
  vd_remove (map f l) i = (option_map f (fst (vd_remove l i)), map f (snd (vd_remove l i))).
Proof.
  unfold vd_remove. rewrite nth_error_map. destruct (nth_error l i); [|reflexivity]. cbn [option_map fst snd].
  f_equal. now rewrite firstn_map, skipn_map, <- map_app.
Qed.
Lemma vd_insert_map {A B : Type} (f : A -> B) l i x :
  vd_insert (map f l) i (f x) = (l' <- vd_insert l i x ;; Ret (map f l')).
Proof.
  unfold vd_insert. rewrite map_length. destruct (Nat.leb _ _); [|reflexivity]. cbn [bind].
  now rewrite firstn_map, skipn_map, <- (map_cons f), <- map_app.
Qed.
Lemma vd_pop_front_map {A B : Type} (f : A -> B) l :
  vd_pop_front (map f l) = (option_map f (fst (vd_pop_front l)), map f (snd (vd_pop_front l))).
Proof. now destruct l. Qed.
Lemma vd_pop_back_map {A B : Type} (f : A -> B) l :
  vd_pop_back (map f l) = (option_map f (fst (vd_pop_back l)), map f (snd (vd_pop_back l))).
Proof. unfold vd_pop_back. rewrite <- map_rev. destruct (rev l); [reflexivity|]. cbn. now rewrite <- map_rev. Qed.

Lemma nth_error_mid {A B : Type} (f : A -> B) l1 a l2 :
  nth_error (map f (l1 ++ a :: l2)) (length l1) = option_map f (Some a).
Proof. rewrite nth_error_map, nth_error_app2 by auto. now rewrite Nat.sub_diag. Qed.
Lemma set_at_mid {T A : Type} (f : A -> val T) l1 a l2 b :
  set_at (length l1) (f b) (map f (l1 ++ a :: l2)) = map f (l1 ++ b :: l2).
Proof.
  unfold set_at. rewrite !map_app. cbn [map].
  rewrite <- (map_length f l1), firstn_app, Nat.sub_diag, firstn_all, app_nil_r. f_equal. f_equal.
  change (S (length (map f l1))) with (1 + length (map f l1))%nat.
  rewrite skipn_app, skipn_all2 by lia. now replace (1 + length (map f l1) - length (map f l1))%nat with 1%nat by lia.
Qed.
Lemma refs_map {T A : Type} (f : A -> val T) p l :
  refs p (map f l) = map (fun i => DRef (fst p, snd p ++ [JAt i])) (seq 0 (length l)).
Proof.
  unfold refs. rewrite map_length. apply map_ext. intros i. unfold sub. do 2 f_equal.
  induction (snd p) as [|j q IH]; [reflexivity|]. cbn. now rewrite IH.
Qed.

Section Ends.
Context {T : Type} {PF : Platform} {OT : Ord T} {ST : Step T} (dflt : option T) (m : mode).

(** [runs], with [Diverge] for no claim. *)
Definition ends (p : prog T) (o : outcome (ans T)) : Prop :=
  match o with Diverge => True | _ => runs dflt m p o end.
Definition calls (rq : req T) (o : outcome (ans T)) : Prop := ends (answer dflt m rq) o.

Lemma ends_done a b : a = b -> ends (Done a) (Ret b).
Proof. intros ->; constructor. Qed.
Lemma ends_pan : ends Pan Panic.
Proof. constructor. Qed.
Lemma ends_if (b : bool) p q o : ends (if b then p else q) o -> ends (If b p q) o.
Proof. unfold ends. destruct o; auto; now constructor. Qed.
Lemma ends_case A (f : A -> val T) (x : option A) p k o :
  ends (match x with Some a => k (f a) | None => p end) o -> ends (Case (option_map f x) p k) o.
Proof. unfold ends. destruct o, x; auto; now constructor. Qed.
Lemma ends_case_eq A (f : A -> val T) z (x : option A) p k o : z = option_map f x ->
  ends (match x with Some a => k (f a) | None => p end) o -> ends (Case z p k) o.
Proof. intros ->. apply ends_case. Qed.
Lemma ends_cmp c lt eq gt o : ends (match c with Lt => lt | Eq => eq | Gt => gt end) o -> ends (Cmp c lt eq gt) o.
Proof. unfold ends. destruct o; auto; now constructor. Qed.
Lemma ends_out A (f : A -> val T) (x : outcome A) k o :
  match x with Ret a => ends (k (f a)) o | Panic => o = Panic | Diverge => o = Diverge end ->
  ends (Out (y <- x ;; Ret (f y)) k) o.
Proof. unfold ends. destruct x; intros; subst; auto. 1: destruct o; auto. all: now constructor. Qed.
Lemma ends_insert A (f : A -> val T) l i j x y k o : i = j -> y = f x ->
  match vd_insert l j x with Ret l' => ends (k (DList (map f l'))) o | Panic => o = Panic | Diverge => o = Diverge end ->
  ends (Out (l' <- vd_insert (map f l) i y ;; Ret (DList l')) k) o.
Proof.
  intros -> -> H. rewrite vd_insert_map. destruct (vd_insert l j x); cbn [bind]; subst; try exact Logic.I.
  - unfold ends in *. destruct o; auto; now constructor.
  - constructor.
Qed.
Lemma ends_index A (f : A -> val T) l i j k o : i = j ->
  match vd_index l j with Ret x => ends (k (f x)) o | Panic => o = Panic | Diverge => o = Diverge end ->
  ends (Out (vd_index (map f l) i) k) o.
Proof. intros ->. rewrite vd_index_map. apply ends_out. Qed.
Lemma ends_find f k o : ends (k f) o -> ends (Find (Some f) k) o.
Proof. unfold ends. destruct o; auto; now constructor. Qed.
Lemma ends_call rq k o o' : calls rq o ->
  match o with Ret a => ends (k a) o' | Panic => o' = Panic | Diverge => o' = Diverge end ->
  ends (Call rq k) o'.
Proof.
  unfold calls, ends. destruct o as [a| |]; intros H K; subst; auto.
  - destruct o'; auto; econstructor; eauto.
  - now apply runs_call_pan.
Qed.

Lemma ends_lst l l' k o : l = l' -> ends (k l') o -> ends (Lst l k) o.
Proof. intros ->. unfold ends. destruct o; auto; now constructor. Qed.

(** ** The parts of a computation *)
Inductive shape : Type := SDone | SPan | SStuck | SIf | SCase | SCmp | SOut | SLst | SFind | SCall.
Definition shape_of (p : prog T) : shape :=
  match p with
  | Done _ => SDone | Pan => SPan | Stuck => SStuck | If _ _ _ => SIf | Case _ _ _ => SCase
  | Cmp _ _ _ _ => SCmp | Out _ _ => SOut | Lst _ _ => SLst | Find _ _ => SFind | Call _ _ => SCall
  end.
Definition v_done (p : prog T) := match p with Done a => Some a | _ => None end.
Definition v_if (p : prog T) := match p with If b _ _ => Some b | _ => None end.
Definition n_if (p : prog T) (b : bool) := match p with If _ x y => if b then x else y | _ => Stuck end.
Definition v_case (p : prog T) := match p with Case x _ _ => Some x | _ => None end.
Definition n_none (p : prog T) := match p with Case _ x _ => x | _ => Stuck end.
Definition n_some (p : prog T) (v : val T) := match p with Case _ _ k => k v | _ => Stuck end.
Definition v_cmp (p : prog T) := match p with Cmp c _ _ _ => Some c | _ => None end.
Definition n_cmp (p : prog T) (c : comparison) :=
  match p with Cmp _ x y z => match c with Lt => x | Eq => y | Gt => z end | _ => Stuck end.
Definition v_out (p : prog T) := match p with Out x _ => Some x | _ => None end.
Definition n_out (p : prog T) (v : val T) := match p with Out _ k => k v | _ => Stuck end.
Definition v_lst (p : prog T) := match p with Lst l _ => Some l | _ => None end.
Definition n_lst (p : prog T) (l : list (val T)) := match p with Lst _ k => k l | _ => Stuck end.
Definition v_find (p : prog T) := match p with Find (Some f) _ => Some f | _ => None end.
Definition n_find (p : prog T) (f : found) := match p with Find _ k => k f | _ => Stuck end.
Definition v_call (p : prog T) := match p with Call rq _ => Some rq | _ => None end.
Definition n_call (p : prog T) (a : ans T) := match p with Call _ k => k a | _ => Stuck end.

Lemma at_done p a o : v_done p = Some a -> ends (Done a) o -> ends p o.
Proof. destruct p; try discriminate. now intros [= ->]. Qed.
Lemma at_pan p o : shape_of p = SPan -> ends Pan o -> ends p o.
Proof. now destruct p. Qed.
Lemma at_if p b o : v_if p = Some b -> ends (If b (n_if p true) (n_if p false)) o -> ends p o.
Proof. destruct p; try discriminate. now intros [= ->]. Qed.
Lemma at_case p x o : v_case p = Some x -> ends (Case x (n_none p) (n_some p)) o -> ends p o.
Proof. destruct p; try discriminate. now intros [= ->]. Qed.
Lemma at_cmp p c o : v_cmp p = Some c -> ends (Cmp c (n_cmp p Lt) (n_cmp p Eq) (n_cmp p Gt)) o -> ends p o.
Proof. destruct p; try discriminate. now intros [= ->]. Qed.
Lemma at_out p x o : v_out p = Some x -> ends (Out x (n_out p)) o -> ends p o.
Proof. destruct p; try discriminate. now intros [= ->]. Qed.
Lemma at_lst p l o : v_lst p = Some l -> ends (Lst l (n_lst p)) o -> ends p o.
Proof. destruct p; try discriminate. now intros [= ->]. Qed.
Lemma at_find p f o : v_find p = Some f -> ends (n_find p f) o -> ends p o.
Proof. destruct p as [| | | | | | | |[g|] k|]; try discriminate. intros [= ->]. now apply ends_find. Qed.
Lemma at_call p rq o : v_call p = Some rq -> ends (Call rq (n_call p)) o -> ends p o.
Proof. destruct p; try discriminate. now intros [= ->]. Qed.

(** ** Loops: what one turn does gives what the loop does. *)
Definition then_ {A : Type} (x : outcome A) (P : A -> Prop) (o : outcome (ans T)) : Prop :=
  match x with Ret a => P a | Panic => o = Panic | Diverge => o = Diverge end.

Lemma ends_ret a b : a = b -> ends (Done a) (Ret b).
Proof. apply ends_done. Qed.
Lemma ends_call_done rq o : calls rq o -> ends (Call rq Done) o.
Proof. intros H. eapply ends_call; [exact H|]. destruct o; auto. now apply ends_done. Qed.

Section Loops.
Context {A : Type} (enc : A -> val T) (sc : list string) (e : env T).
Notation env := (env T).

Lemma calls_position_from ps b (g : A -> bool) l i :
  (forall a k o, ends (k (DBool (g a)) e) o -> ends (turn dflt m sc ps b [enc a] e k) o) ->
  calls (RIter (KPosition i) sc ps b (map enc l) e)
    (Ret (AEnv (N (enc_opt (fun n => DInt "usize" (i + Z.of_nat n)) (position g l))) e)).
Proof.
  intros H. unfold calls. revert i. induction l as [|a l IH]; intros i; [now apply ends_done|].
  apply H. apply ends_if. cbn [position]. destruct (g a).
  - apply ends_done. cbn. now rewrite Z.add_0_r.
  - apply ends_call_done. unfold calls. specialize (IH (i + 1)).
    replace (enc_opt _ (option_map S (position g l)))
      with (enc_opt (fun n => @DInt T "usize" (i + 1 + Z.of_nat n)) (position g l)); [exact IH|].
    destruct (position g l) as [n|]; [|reflexivity]. unfold enc_opt. cbn [option_map].
    now replace (i + Z.of_nat (S n)) with (i + 1 + Z.of_nat n) by lia.
Qed.
Lemma calls_position ps b (g : A -> bool) l :
  (forall a k o, ends (k (DBool (g a)) e) o -> ends (turn dflt m sc ps b [enc a] e k) o) ->
  calls (RIter (KPosition 0) sc ps b (map enc l) e)
    (Ret (AEnv (N (enc_opt (fun n => DInt "usize" (Z.of_nat n)) (position g l))) e)).
Proof. apply (calls_position_from ps b g l 0). Qed.
Lemma calls_any ps b (g : A -> bool) l :
  (forall a k o, ends (k (DBool (g a)) e) o -> ends (turn dflt m sc ps b [enc a] e k) o) ->
  calls (RIter KAny sc ps b (map enc l) e) (Ret (AEnv (N (DBool (existsb g l))) e)).
Proof.
  intros H. unfold calls. induction l as [|a l IH]; [now apply ends_done|].
  apply H. apply ends_if. cbn [existsb]. destruct (g a); [now apply ends_done|].
  now apply ends_call_done.
Qed.
Lemma calls_all ps b (g : A -> bool) l :
  (forall a k o, ends (k (DBool (g a)) e) o -> ends (turn dflt m sc ps b [enc a] e k) o) ->
  calls (RIter KAll sc ps b (map enc l) e) (Ret (AEnv (N (DBool (forallb g l))) e)).
Proof.
  intros H. unfold calls. induction l as [|a l IH]; [now apply ends_done|].
  apply H. apply ends_if. cbn [forallb]. destruct (g a); [|now apply ends_done].
  now apply ends_call_done.
Qed.
Lemma calls_retain ps b (g : A -> bool) l :
  (forall a k o, ends (k (DBool (g a)) e) o -> ends (turn dflt m sc ps b [enc a] e k) o) ->
  calls (RIter KRetain sc ps b (map enc l) e) (Ret (AEnv (N (DList (map enc (filter g l)))) e)).
Proof.
  intros H. unfold calls. induction l as [|a l IH]; [now apply ends_done|].
  apply H. apply ends_if. cbn [filter]. destruct (g a); [|now apply ends_call_done].
  eapply ends_call; [exact IH|]. now apply ends_done.
Qed.
Lemma calls_map {B : Type} (enc' : B -> val T) ps b (g : A -> outcome B) l :
  (forall a k o, then_ (g a) (fun x => ends (k (enc' x) e) o) o -> ends (turn dflt m sc ps b [enc a] e k) o) ->
  calls (RIter KMap sc ps b (map enc l) e)
    (l' <- mapM g l ;; Ret (AEnv (N (DList (map enc' l'))) e)).
Proof.
  intros H. unfold calls. induction l as [|a l IH]; [now apply ends_done|].
  apply H. cbn [mapM]. destruct (g a); [|reflexivity..]. cbn [then_ bind].
  eapply ends_call; [exact IH|]. destruct (mapM g l); [|reflexivity..]. now apply ends_done.
Qed.
Lemma calls_fold {S : Type} (encS : S -> val T) ps b (g : S -> A -> outcome S) l s :
  (forall s a k o, then_ (g s a) (fun x => ends (k (encS x) e) o) o ->
    ends (turn dflt m sc ps b [encS s; enc a] e k) o) ->
  calls (RIter (KFold (encS s)) sc ps b (map enc l) e)
    (s' <- foldM g l s ;; Ret (AEnv (N (encS s')) e)).
Proof.
  intros H. unfold calls. revert s. induction l as [|a l IH]; intros s; [now apply ends_done|].
  apply H. cbn [foldM]. destruct (g s a); [|reflexivity..]. cbn [then_ bind].
  apply ends_call_done. apply IH.
Qed.
(** The variables after each turn are [E] of the state. *)
Lemma calls_for {S : Type} (E : S -> env) p b (g : S -> A -> outcome S) l s :
  (forall s a o (k : res (val T) -> env -> prog T),
    then_ (g s a) (fun s' => forall v, ends (k (N v) (E s')) o) o ->
    ends match pmatch None p (enc a) with
         | Some new => scoped new (eval dflt m sc b) (E s) k
         | None => Stuck
         end o) ->
  calls (RFor sc p (map enc l) b (E s))
    (s' <- foldM g l s ;; Ret (AEnv (N unit_val) (E s'))).
Proof.
  intros H. unfold calls. revert s. induction l as [|a l IH]; intros s; [now apply ends_done|].
  apply H. cbn [foldM]. destruct (g s a); [|reflexivity..]. cbn [then_ bind].
  intros _. apply ends_call_done. apply IH.
Qed.
(** Each element of a deque replaced through its reference [R i]. *)
Lemma calls_each (R : nat -> val T) (E : list A -> env) x b (g : A -> A) l :
  (forall l1 a l2 o (k : res (val T) -> env -> prog T),
    (forall v, ends (k (N v) (E (l1 ++ g a :: l2))) o) ->
    ends (scoped [(x, R (length l1))] (eval dflt m sc b) (E (l1 ++ a :: l2)) k) o) ->
  calls (RFor sc (PBind x) (map R (seq 0 (length l))) b (E l)) (Ret (AEnv (N unit_val) (E (map g l)))).
Proof.
  intros H. unfold calls.
  enough (K : forall l2 l1, ends (answer dflt m (RFor sc (PBind x) (map R (seq (length l1) (length l2))) b (E (l1 ++ l2))))
                (Ret (AEnv (N unit_val) (E (l1 ++ map g l2))))) by exact (K l []).
  induction l2 as [|a l2 IH]; intros l1; [now apply ends_done|]. cbn [length seq map answer pmatch].
  apply H. intros _. apply ends_call_done. unfold calls. specialize (IH (l1 ++ [g a])).
  rewrite app_length, <- !app_assoc, Nat.add_comm in IH. exact IH.
Qed.
End Loops.
End Ends.
Arguments calls_position {T PF OT ST} dflt m A enc sc e ps b g l.
Arguments calls_any {T PF OT ST} dflt m A enc sc e ps b g l.
Arguments calls_all {T PF OT ST} dflt m A enc sc e ps b g l.
Arguments calls_retain {T PF OT ST} dflt m A enc sc e ps b g l.
Arguments calls_for {T PF OT ST} dflt m A enc sc S E p b g l s.
Arguments calls_each {T PF OT ST} dflt m A sc R E x b g l.
Arguments calls_fold {T PF OT ST} dflt m A enc sc e S encS ps b g l s.
Arguments calls_map {T PF OT ST} dflt m A enc sc e B enc' ps b g l.

(** ** Refolding encoded values *)
Ltac unbound v :=
  lazymatch v with
  | enc_bound ?b => b
  | DCon _ (bound_con ?b) _ => b
  | DCon _ "Excluded" [(_, DElt ?t)] => constr:(Excluded t)
  | DCon _ "Included" [(_, DElt ?t)] => constr:(Included t)
  end.
Ltac unlb v :=
  lazymatch v with
  | enc_lb ?x => x
  | DCon _ _ [(_, DCon _ (bound_con (lb_bound ?x)) _)] => x
  | DCon _ _ [(_, ?b)] => let b' := unbound b in constr:(LB b')
  end.
Ltac unub v :=
  lazymatch v with
  | enc_ub ?x => x
  | DCon _ _ [(_, DCon _ (bound_con (ub_bound ?x)) _)] => x
  | DCon _ _ [(_, ?b)] => let b' := unbound b in constr:(UB b')
  end.
Ltac unbr v :=
  lazymatch v with
  | enc_br ?x => x
  | DCon _ _ [(_, ?a); (_, ?b)] =>
    let a' := unlb a in let b' := unub b in
    lazymatch a' with
    | br_start ?x => lazymatch b' with br_end x => x | _ => constr:(BR a' b') end
    | _ => constr:(BR a' b')
    end
  end.
Ltac unlbr v :=
  lazymatch v with
  | enc_lbr ?x => x
  | DCon _ _ [(_, ?a)] =>
    let a' := unlb a in lazymatch a' with lbr_start ?x => x | _ => constr:(LBR a') end
  end.
Ltac unubr v :=
  lazymatch v with
  | enc_ubr ?x => x
  | DCon _ _ [(_, ?a)] =>
    let a' := unub a in lazymatch a' with ubr_end ?x => x | _ => constr:(UBR a') end
  end.
Ltac unbs v :=
  lazymatch v with
  | enc_bs ?x => x
  | DCon _ _ [(_, DList (map enc_br ?l))] =>
    lazymatch l with bs_ranges ?x => x | _ => constr:(BS l) end
  end.
Ltac unlbs v :=
  lazymatch v with
  | enc_lbs ?x => x
  | DCon _ _ [(_, ?a); (_, ?b)] =>
    let a' := unbs a in let b' := unlbr b in
    lazymatch a' with
    | lbs_ranges ?x => lazymatch b' with lbs_lbr x => x | _ => constr:(LBS a' b') end
    | _ => constr:(LBS a' b')
    end
  end.
Ltac unubs v :=
  lazymatch v with
  | enc_ubs ?x => x
  | DCon _ _ [(_, ?a); (_, ?b)] =>
    let a' := unubr a in let b' := unbs b in
    lazymatch b' with
    | ubs_ranges ?x => lazymatch a' with ubs_ubr x => x | _ => constr:(UBS a' b') end
    | _ => constr:(UBS a' b')
    end
  end.
Ltac unpus v :=
  lazymatch v with
  | enc_pus ?x => x
  | DCon _ _ [(_, ?a); (_, ?b); (_, ?c)] =>
    let a' := unubr a in let b' := unbs b in let c' := unlbr c in
    lazymatch b' with
    | pus_ranges ?x =>
      lazymatch a' with
      | pus_ubr x => lazymatch c' with pus_lbr x => x | _ => constr:(PUS a' b' c') end
      | _ => constr:(PUS a' b' c')
      end
    | _ => constr:(PUS a' b' c')
    end
  end.
Ltac unus T v :=
  lazymatch v with
  | enc_us ?x => x
  | DCon _ (us_con ?x) _ => x
  | DCon _ (match ?x with _ => _ end) _ => x
  | DCon _ "Full" _ => constr:(@Full T)
  | DCon _ "Piecewise" [(_, ?p)] => let p' := unpus p in constr:(Piecewise p')
  end.
Ltac unbri v :=
  lazymatch v with
  | enc_bri ?x => x
  | DCon _ _ [(_, DElt ?a); (_, DElt ?b)] =>
    lazymatch a with
    | bri_current ?x => lazymatch b with bri_last_field x => x | _ => constr:(BRI a b) end
    | _ => constr:(BRI a b)
    end
  end.
Ltac unbsi v :=
  lazymatch v with
  | enc_bsi ?x => x
  | DCon _ _ [(_, DList (map enc_bri ?l))] =>
    lazymatch l with bsi_range_iters ?x => x | _ => constr:(BSI l) end
  end.
Ltac unlbri v :=
  lazymatch v with
  | enc_lbri ?x => x
  | DCon _ _ [(_, DElt ?a)] => lazymatch a with lbri_current ?x => x | _ => constr:(LBRI a) end
  end.
Ltac unlbsi v :=
  lazymatch v with
  | enc_lbsi ?x => x
  | DCon _ _ [(_, ?a); (_, ?b)] =>
    let a' := unbsi a in let b' := unlbri b in
    lazymatch a' with
    | lbsi_set_iter ?x => lazymatch b' with lbsi_range_iter x => x | _ => constr:(LBSI a' b') end
    | _ => constr:(LBSI a' b')
    end
  end.
Ltac unstd v :=
  lazymatch v with
  | @DCon ?T "RangeFull" _ _ => constr:(@enc_rfull T mkRangeFull)
  | DCon "Range" _ [(_, DElt ?a); (_, DElt ?b)] =>
    lazymatch a with
    | rg_start ?x => lazymatch b with rg_end x => constr:(enc_range x) | _ => constr:(enc_range (mkRange a b)) end
    | _ => constr:(enc_range (mkRange a b))
    end
  | DCon "RangeInclusive" _ [(_, DElt ?a); (_, DElt ?b); (_, DBool ?c)] =>
    lazymatch a with
    | ri_start ?x => lazymatch b with ri_end x => lazymatch c with ri_exhausted x => constr:(enc_ri x) | _ => constr:(enc_ri (mkRangeInclusive a b c)) end
                     | _ => constr:(enc_ri (mkRangeInclusive a b c)) end
    | _ => constr:(enc_ri (mkRangeInclusive a b c))
    end
  | DCon "RangeFrom" _ [(_, DElt ?a)] =>
    lazymatch a with rf_start ?x => constr:(enc_rf x) | _ => constr:(enc_rf (mkRangeFrom a)) end
  | DCon "RangeTo" _ [(_, DElt ?a)] =>
    lazymatch a with rt_end ?x => constr:(enc_rt x) | _ => constr:(enc_rt (mkRangeTo a)) end
  | DCon "RangeToInclusive" _ [(_, DElt ?a)] =>
    lazymatch a with rti_end ?x => constr:(enc_rti x) | _ => constr:(enc_rti (mkRangeToInclusive a)) end
  | _ => v
  end.
(** An argument, folded. *)
Ltac foldv v :=
  lazymatch v with
  | @DCon ?T ?ty _ _ =>
    lazymatch ty with
    | "Bound" => let x := unbound v in constr:(enc_bound x)
    | "LowerBound" => let x := unlb v in constr:(enc_lb x)
    | "UpperBound" => let x := unub v in constr:(enc_ub x)
    | "BoundedRange" => let x := unbr v in constr:(enc_br x)
    | "LowerBoundedRange" => let x := unlbr v in constr:(enc_lbr x)
    | "UpperBoundedRange" => let x := unubr v in constr:(enc_ubr x)
    | "UnboundedRange" => constr:(@enc_unbr T mkUnboundedRange)
    | "EmptyRange" => constr:(@enc_empty T mkEmptyRange)
    | "BoundedSet" => let x := unbs v in constr:(enc_bs x)
    | "LowerBoundedSet" => let x := unlbs v in constr:(enc_lbs x)
    | "UpperBoundedSet" => let x := unubs v in constr:(enc_ubs x)
    | "PiecewiseUnboundedSet" => let x := unpus v in constr:(enc_pus x)
    | "UnboundedSet" => let x := unus T v in constr:(enc_us x)
    | "BoundedRangeIter" => let x := unbri v in constr:(enc_bri x)
    | "BoundedSetIter" => let x := unbsi v in constr:(enc_bsi x)
    | "LowerBoundedRangeIter" => let x := unlbri v in constr:(enc_lbri x)
    | "LowerBoundedSetIter" => let x := unlbsi v in constr:(enc_lbsi x)
    | _ => unstd v
    end
  | _ => v
  end.
Ltac fold_args l :=
  lazymatch l with
  | (?f, ?v) :: ?l' => let v' := foldv v in let l1 := fold_args l' in constr:((f, v') :: l1)
  | _ => l
  end.
Ltac fold_env l :=
  lazymatch l with
  | (?x, ?v) :: ?l' => let v' := foldv v in let l1 := fold_env l' in constr:((x, v') :: l1)
  | _ => l
  end.

(** ** Running *)
(** The interpreter's own functions computed away. *)
Ltac comp x :=
  eval lazy beta iota zeta delta
    [assoc update member con_info source_types std_types ity_of
     env M ret bindM stuck pan opt branch case cmp3 out lst which get force put pop_to scoped
     unit_val some_val none_val opt_val ordering_val type_of proj1v set1 getp setp read assign sub deref place
     omap pmatch pmatch_all unify arith compare compare_int is_arith ordering_of arg args_of copy_out ref_path ref_paths
     request loop call nat_of some option_of changing taking builtin builtin_path path_val con_val default_val
     as_bool binary cast_val of_iterator method iter_kind eval mut_name enter leave body fn_params fn_args turn rest
     cons_val answer
     shape_of v_done v_if n_if v_case n_none n_some v_cmp n_cmp v_out n_out v_lst n_lst n_find v_call n_call
     cat size drop fst snd Nat.sub Nat.eqb String.eqb Ascii.eqb Bool.eqb append andb orb impl_key impl_trait impl_self impl_cons
     to_inner to_set enc_value value_of_inner value_of_set enc_inner enc_setv enc_opt
     enc_bound enc_lb enc_ub enc_range enc_ri enc_rf enc_rt enc_rti enc_rfull enc_br enc_lbr enc_ubr enc_unbr enc_empty
     enc_bs enc_lbs enc_ubs enc_pus enc_us us_con us_fields enc_bri enc_bsi enc_lbri enc_lbsi] in x.

(** Projections of known values. *)
Ltac simp x :=
  eval cbn [bound_con bound_elt us_con us_fields lb_bound ub_bound br_start br_end lbr_start ubr_end
     bs_ranges lbs_ranges lbs_lbr ubs_ubr ubs_ranges pus_ubr pus_ranges pus_lbr
     rg_start rg_end ri_start ri_end ri_exhausted rf_start rt_end rti_end
     bri_current bri_last_field bsi_range_iters lbri_current lbsi_set_iter lbsi_range_iter
     map option_map nat_of] in x.
(** Lists of ranges keep the encoding folded. *)
Ltac remap x :=
  match x with
  | context C [@map (BoundedRange ?T) ?B ?f ?l] =>
    let _ := match f with @enc_br _ => fail 1 | _ => I end in
    let y := context C [@map (BoundedRange T) B (@enc_br T) l] in remap y
  | context C [@map (BoundedRangeIter ?T) ?B ?f ?l] =>
    let _ := match f with @enc_bri _ => fail 1 | _ => I end in
    let y := context C [@map (BoundedRangeIter T) B (@enc_bri T) l] in remap y
  | _ => x
  end.
Ltac norm x := let x1 := comp x in let x2 := remap x1 in simp x2.

(** The two sides, with what was decided on the way. *)
Ltac simp_goal :=
  cbn [bound_con bound_elt us_con us_fields lb_bound ub_bound br_start br_end lbr_start ubr_end
     bs_ranges lbs_ranges lbs_lbr ubs_ubr ubs_ranges pus_ubr pus_ranges pus_lbr
     rg_start rg_end ri_start ri_end ri_exhausted rf_start rt_end rti_end
     bri_current bri_last_field bsi_range_iters lbri_current lbsi_set_iter lbsi_range_iter
     map option_map negb bind unwrap fst snd].
Ltac fin :=
  first [reflexivity
        | simp_goal; repeat (match goal with E : ?x = _ |- _ => rewrite E end; simp_goal); reflexivity].
Create HintDb calls discriminated.

Ltac split_bool b :=
  lazymatch b with
  | true => cbv beta iota
  | false => cbv beta iota
  | negb ?b' => split_bool b'; cbn [negb]
  | _ =>
    lazymatch goal with
    | E : b = _ |- _ => rewrite E
    | _ => let E := fresh "E" in destruct b eqn:E
    end; cbn [negb]; cbv beta iota
  end.
Ltac split_on x :=
  let x' := simp x in
  (tryif constr_eq x x' then idtac else change x with x');
  lazymatch goal with
  | E : x' = _ |- _ => rewrite E
  | _ => first [is_var x'; destruct x' | let E := fresh "E" in destruct x' eqn:E]
  end; cbv beta iota; cbn [bind].
Ltac after_call :=
  lazymatch goal with
  | |- match Ret (AVal (enc_opt _ ?x) _) with _ => _ end => split_on x
  | |- match Ret (AEnv (N (enc_opt _ ?x)) _) with _ => _ end => split_on x
  | |- match Ret (AVal (some_val (ordering_val ?x)) _) with _ => _ end => split_on x
  | |- match Ret (AVal (ordering_val ?x) _) with _ => _ end => split_on x
  | |- match Ret _ with _ => _ end => cbv beta iota
  | |- match bind ?x _ with _ => _ end => split_on x; try fin
  end.

(** A call, with its arguments folded. *)
Ltac fold_call rq1 :=
  lazymatch rq1 with
  | RFn ?key ?l => let l' := fold_args l in constr:(RFn key l')
  | RFor ?sc ?p ?l ?b ?e => let e' := fold_env e in constr:(RFor sc p l b e')
  | RWhile ?sc ?c ?b ?e => let e' := fold_env e in constr:(RWhile sc c b e')
  | RIter (KFold ?v) ?sc ?ps ?b ?l ?e => let v' := foldv v in let e' := fold_env e in constr:(RIter (KFold v') sc ps b l e')
  | RIter ?i ?sc ?ps ?b ?l ?e => let e' := fold_env e in constr:(RIter i sc ps b l e')
  | _ => rq1
  end.
(** To the next node. *)
Ltac node :=
  lazymatch goal with
  | |- ends ?d ?m (Call _ _) ?o => idtac
  | |- ends ?d ?m (Case _ _ _) ?o => idtac
  | |- ends ?d ?m (Lst _ _) ?o => idtac
  | |- ends ?d ?m ?p ?o =>
    let t := comp (shape_of p) in
    lazymatch t with
    | SDone => let x := norm (v_done p) in
      lazymatch x with Some ?a => refine (at_done d m p a o _ _); [exact_no_check (eq_refl x) |] end
    | SPan => refine (at_pan d m p o _ _); [exact_no_check (eq_refl SPan) |]
    | SIf => let x := norm (v_if p) in
      lazymatch x with Some ?a => refine (at_if d m p a o _ _); [exact_no_check (eq_refl x) |] end
    | SCase => let x := norm (v_case p) in
      lazymatch x with Some ?a => refine (at_case d m p a o _ _); [exact_no_check (eq_refl x) |] end
    | SCmp => let x := norm (v_cmp p) in
      lazymatch x with Some ?a => refine (at_cmp d m p a o _ _); [exact_no_check (eq_refl x) |] end
    | SOut => let x := norm (v_out p) in
      lazymatch x with Some ?a => refine (at_out d m p a o _ _); [exact_no_check (eq_refl x) |] end
    | SLst => let x := norm (v_lst p) in
      lazymatch x with Some ?a => refine (at_lst d m p a o _ _); [exact_no_check (eq_refl x) |] end
    | SFind => let x := eval lazy in (v_find p) in
      lazymatch x with Some ?f => refine (at_find d m p f o _ _); [exact_no_check (eq_refl x) | node] end
    | SCall => let x := norm (v_call p) in
      lazymatch x with
      | Some ?rq => let rq' := fold_call rq in
        refine (at_call d m p rq' o _ _); [exact_no_check (eq_refl (Some rq')) |]
      end
    | SStuck => fail "stuck"
    | _ => let p' := norm p in change_no_check (ends d m p' o)
    end
  end.
(** An index into a deque. *)
Ltac index := unfold count; rewrite ?Z.add_0_l, ?Nat2Z.id, ?map_length; reflexivity.
(** An element written out. *)
Ltac element y := let y1 := norm y in let y2 := foldv y1 in exact (eq_refl y2).
(** A deque of encoded values: what std's methods on it do. *)
Ltac nat_of_index i :=
  lazymatch i with
  | Z.to_nat (0 + Z.of_nat ?n) => n
  | Z.to_nat (Z.of_nat ?n) => n
  | _ => i
  end.
Ltac split_pair r :=
  lazymatch goal with
  | E : r = _ |- _ => idtac
  | _ => let a := fresh "popped" in let b := fresh "rest" in let E := fresh "E" in destruct r as [a b] eqn:E
  end.
Ltac split_deque x :=
  match x with
  | context [vd_remove (map ?f ?l) ?i] => let j := nat_of_index i in split_pair (vd_remove l j)
  | context [vd_pop_front (map ?f ?l)] => split_pair (vd_pop_front l)
  | context [vd_pop_back (map ?f ?l)] => split_pair (vd_pop_back l)
  | _ => idtac
  end.
Ltac deque :=
  unfold taken, remaining;
  rewrite ?Z.add_0_l, ?Nat2Z.id, ?map_length, ?vd_remove_map, ?vd_pop_front_map, ?vd_pop_back_map, ?vd_front_map, ?vd_back_map;
  repeat match goal with E : ?r = (_, _) |- context [?r] => rewrite E end;
  cbn [fst snd]; reflexivity.
(** What was decided on the way, in the model. *)
Ltac known1 :=
  lazymatch goal with
  | |- ends ?d ?m ?p ?o =>
    let o' := eval cbn [bind unwrap negb fst snd] in o in let o2 := simp o' in change_no_check (ends d m p o2)
  end.
Ltac known :=
  known1;
  repeat (match goal with E : ?x = _ |- ends _ _ _ ?o => match o with context [x] => rewrite E end end; known1).
(** What follows the turn of a loop. *)
Ltac follow :=
  match goal with
  | H : ends _ _ (?k _ _) _ |- ends _ _ (?k _ _) _ =>
    first [exact H | repeat match goal with E : ?x = _ |- _ => rewrite E in H end; exact H]
  | H : forall _, ends _ _ (?k _ _) _ |- ends _ _ (?k _ _) _ => exact (H _)
  | H : then_ _ _ _ |- _ =>
    cbn [then_ bind] in H;
    repeat (lazymatch type of H with
            | _ = _ => fail
            | _ => match goal with E : ?x = _ |- _ => match type of H with context [x] => rewrite E in H end end
            end; cbn [then_ bind] in H);
    first [exact H | exact (H _)]
  end.
(** What the rest of a loop does, kept from the search for lemmas. *)
Definition later (P : Prop) : Prop := P.
(** Past it. *)
Ltac past :=
  lazymatch goal with
  | IH : later _ |- ends _ _ (Call (RWhile _ _ _ _) _) _ => eapply ends_call; [apply IH | after_call]
  | |- ends _ _ (Done _) _ => first [refine (ends_done _ _ _ _ _); try fin | known; refine (ends_done _ _ _ _ _); try fin]
  | |- ends _ _ Pan _ => first [refine (ends_pan _ _) | known; refine (ends_pan _ _)]
  | |- ends ?d ?m (If ?b ?p ?q) ?o => let b' := simp b in apply (ends_if d m b' p q o); split_bool b'
  | |- ends ?d ?m (Cmp ?c ?p ?q ?r) ?o => let c' := simp c in apply (ends_cmp d m c' p q r o); split_on c'
  | |- ends ?d ?m (Case ?x ?p ?k) ?o =>
    lazymatch x with
    | option_map ?f ?y => apply (ends_case d m _ f y p k o); split_on y
    | nth_error (map ?f (?l1 ++ ?a :: ?l2)) (length ?l1) =>
      apply (ends_case_eq d m _ f x (Some a) p k o (nth_error_mid f l1 a l2)); cbv beta iota
    | _ =>
      split_deque x; eapply (ends_case_eq d m); [deque|];
      lazymatch goal with |- ends _ _ match ?y with _ => _ end _ => split_on y end
    end
  | |- ends ?d ?m (Lst (@refs ?T ?p (map ?f ?l)) ?k) ?o =>
    let y := eval cbn [fst snd app] in (map (fun i => @DRef T (fst p, snd p ++ [JAt i])) (seq 0 (length l))) in
    apply (ends_lst d m _ y k o (refs_map f p l))
  | |- ends ?d ?m (Lst (set_at (length ?l1) ?w (map ?f (?l1 ++ ?a :: ?l2))) ?k) ?o =>
    lazymatch foldv w with
    | f ?b => apply (ends_lst d m _ (map f (l1 ++ b :: l2)) k o (set_at_mid f l1 a l2 b))
    end
  | |- ends ?d ?m (Lst ?x ?k) ?o => split_deque x; eapply (ends_lst d m); [deque|]
  | |- ends ?d ?m (Out ?x ?k) ?o =>
    let x' := simp x in
    lazymatch x' with
    | vd_index (map ?f ?l) ?i =>
      change_no_check (ends d m (Out x' k) o);
      eapply (ends_index d m _ f l i _ k o); [index | lazymatch goal with |- match ?y with _ => _ end => split_on y; try fin end]
    | bind (vd_insert (map ?f ?l) ?i ?y) _ =>
      change_no_check (ends d m (Out x' k) o);
      eapply (ends_insert d m _ f l i _ _ y k o);
      [index | element y | lazymatch goal with |- match ?y with _ => _ end => split_on y; try fin end]
    | bind ?y (fun z => Ret (@?f z)) => apply (ends_out d m _ f y k o); split_on y; try fin
    end
  | |- ends _ _ (Call _ _) _ => eapply ends_call; [solve [eauto with calls nocore] | after_call]
  | |- ends _ _ (?k _ _) _ => follow
  end.
Ltac step := node; past.
Ltac run := repeat step; try follow.
(** A loop, by the lemma [L] on what one turn does. *)
Ltac turned := intros; unfold then_ in *; run.
Tactic Notation "by_turn" constr(L) constr(E) constr(G) :=
  node; eapply ends_call; [apply (L _ E _ _ _ _ G); intros; run | after_call]; run.
Tactic Notation "by_for" constr(En) constr(E) constr(G) :=
  node;
  lazymatch goal with
  | |- ends ?d ?m (Call (RFor _ _ _ _ _) _) _ =>
    eapply ends_call; [apply (calls_for d m _ En _ _ E _ _ G); intros; run | after_call]; run
  end.
(** The same; the state of the loop is [s]. *)
Tactic Notation "by_for_on" constr(En) constr(s) constr(G) :=
  node;
  lazymatch goal with
  | |- ends ?d ?m (Call (RFor _ _ _ _ ?e) _) _ =>
    lazymatch eval pattern s in e with
    | ?E _ => eapply ends_call; [apply (calls_for d m _ En _ _ E _ _ G); intros; run | after_call]; run
    end
  end.
(** A fold; the model has the same. *)
Tactic Notation "by_fold" constr(En) constr(EnS) :=
  node;
  lazymatch goal with
  | |- ends ?d ?m (Call (RIter (KFold _) _ _ _ _ _) _) (bind (foldM ?G _ _) _) =>
    eapply ends_call; [apply (calls_fold d m _ En _ _ _ EnS _ _ G); intros; run | after_call]; run
  end.
(** A loop replacing each element of the ranges of [s] by [G] of it. *)
Tactic Notation "by_each" constr(s) constr(G) :=
  node;
  lazymatch goal with
  | |- ends ?d ?m (Call (RFor _ _ (map ?R (seq 0 (length ?l))) _ ?e) _) _ =>
    lazymatch eval pattern s in e with
    | ?E _ =>
      eapply ends_call;
      [apply (calls_each d m _ _ R (fun l0 => E (BS l0)) _ _ G l); intros; run | after_call]; run
    end
  end.
(** A set whose kind is known. *)
Ltac open := unfold enc_us; cbn [us_con us_fields].
(** The values without content. *)
Ltac unit_values :=
  repeat match goal with x : RangeFull |- _ => destruct x | x : UnboundedRange |- _ => destruct x | x : EmptyRange |- _ => destruct x end.
