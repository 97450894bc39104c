(** What a computation of RustEval.v gives, wherever it stands in a program: the
    way it ends and the variables after it, for every continuation. *)
From Coq Require Import String.
From Verif Require Import Base ModelBound ModelRanges ModelSets ModelAlgebra ModelValue ModelStep ModelIter
  RustSyntax Source RustEval RustEnc RustTac RustRuns RustSays RustIter RustIterSet RustIterClient RustIterLoop RustForever RustClient RustClient2 RustClient3.
Open Scope Z_scope.
Open Scope string_scope.
Open Scope list_scope.

Lemma force_eq {A B : Type} (l : list A) : forall k : list A -> B, force l k = k l.
Proof. induction l as [|a l IH]; intros k; cbn [force]; [reflexivity|]. now rewrite IH. Qed.
Lemma cat_app {A : Type} (l1 l2 : list A) : cat l1 l2 = (l1 ++ l2)%list.
Proof. induction l1 as [|a l IH]; cbn; [reflexivity|]. now rewrite IH. Qed.

Section Gives.
Context {T : Type} {PF : Platform} {OT : Ord T} {ST : Step T} (dflt : option T) (m : mode).
Notation runs := (runs dflt m).
Notation answer := (answer dflt m).
Notation calls := (calls dflt m).
Notation stays := (stays dflt m).
Notation eval := (RustEval.eval dflt m).

(** A property of computations that the nodes met on the way keep. *)
Record passes (P : prog T -> Prop) : Prop := {
  p_if : forall (b : bool) p q, P (if b then p else q) -> P (If b p q);
  p_find : forall f k, P (k f) -> P (Find (Some f) k);
  p_call : forall rq k a, runs (answer rq) (Ret a) -> P (k a) -> P (Call rq k) }.
Lemma passes_runs o : passes (fun p => runs p o).
Proof. constructor; intros; econstructor; eassumption. Qed.
Lemma passes_stays f : passes (stays f).
Proof. constructor; intros; [apply stays_if|apply stays_find|eapply stays_call]; eassumption. Qed.

(** The computation [c], where the variables are [e], ends as [r] with the variables
    [e'], or panics. *)
Definition gives {A : Type} (c : M A) (e : env T) (o : outcome (res A * env T)) : Prop :=
  match o with
  | Ret (r, e') => forall P, passes P -> forall k, P (k r e') -> P (c e k)
  | Panic => forall k, runs (c e k) Panic
  | Diverge => True
  end.

Lemma g_ret {A : Type} (a : A) e : gives (ret a) e (Ret (N a, e)).
Proof. intros P HP k H. exact H. Qed.
Lemma g_opt {A : Type} (a : A) o e : o = Some a -> gives (opt o) e (Ret (N a, e)).
Proof. intros ->. apply g_ret. Qed.
Lemma g_get e : gives get e (Ret (N e, e)).
Proof. intros P HP k H. exact H. Qed.
Lemma g_put e1 e : gives (put e1) e (Ret (N tt, e1)).
Proof. intros P HP k H. unfold put. rewrite force_eq. exact H. Qed.
Lemma g_bind {A B : Type} (c : M A) (f : A -> M B) e a e' o :
  gives c e (Ret (N a, e')) -> gives (f a) e' o -> gives (bindM c f) e o.
Proof.
  intros C F. destruct o as [[r e2]| |]; [| |exact Logic.I].
  - intros P HP k K. unfold bindM. apply (C P HP). cbn beta iota. exact (F P HP k K).
  - intros k. unfold bindM. apply (C (fun p => runs p Panic) (passes_runs Panic)). apply F.
Qed.
Lemma g_bind_panic {A B : Type} (c : M A) (f : A -> M B) e : gives c e Panic -> gives (bindM c f) e Panic.
Proof. intros C k. unfold bindM. apply C. Qed.
Lemma g_bind_break {A B : Type} (c : M A) (f : A -> M B) e e' : gives c e (Ret (Brk, e')) -> gives (bindM c f) e (Ret (Brk, e')).
Proof. intros C P HP k K. unfold bindM. apply (C P HP). exact K. Qed.
Lemma g_branch {A : Type} (b : bool) (c d : M A) e o : gives (if b then c else d) e o -> gives (branch b c d) e o.
Proof.
  unfold branch. intros C. destruct o as [[r e']| |]; [| |exact Logic.I].
  - intros P HP k K. apply (p_if P HP). destruct b; exact (C P HP k K).
  - intros k. constructor. destruct b; apply C.
Qed.
Lemma g_scoped {A : Type} new (c : M A) e o : gives c (new ++ e)%list o ->
  gives (scoped new c) e (p <- o ;; Ret (fst p, pop_to (size e) (snd p))).
Proof.
  unfold scoped. intros C. destruct o as [[r e']| |]; [| |exact Logic.I]; cbn [bind fst snd].
  - intros P HP k K. rewrite force_eq, cat_app. apply (C P HP). rewrite force_eq. exact K.
  - intros k. rewrite force_eq, cat_app. apply C.
Qed.
Lemma g_which kk f e : find_fn kk = Some f -> gives (which kk) e (Ret (N f, e)).
Proof. intros H P HP k K. unfold which. rewrite H. apply (p_find P HP). exact K. Qed.
(** A call. *)
Lemma g_request rq ps e r outs e' : runs (answer rq) (Ret (AVal r outs)) -> gives (copy_out ps outs) e (Ret (N tt, e')) ->
  gives (request rq ps) e (Ret (N r, e')).
Proof.
  intros R C P HP k K. unfold request. eapply (p_call P HP); [exact R|]. cbn beta iota.
  exact (g_bind _ _ _ _ _ (Ret (N r, e')) C (g_ret r e') P HP k K).
Qed.
Lemma g_request_panic rq ps e : runs (answer rq) Panic -> gives (request rq ps) e Panic.
Proof. intros R k. unfold request. now apply runs_call_pan. Qed.
Lemma g_loop rq e r e' : runs (answer (rq e)) (Ret (AEnv r e')) -> gives (loop rq) e (Ret (r, e')).
Proof. intros R P HP k K. unfold loop. eapply (p_call P HP); [exact R|]. exact K. Qed.
Lemma g_loop_panic rq e : runs (answer (rq e)) Panic -> gives (loop rq) e Panic.
Proof. intros R k. unfold loop. now apply runs_call_pan. Qed.

(** A value that is not a reference. *)
Definition plain (v : val T) : Prop := match v with DRef _ => False | _ => True end.
Lemma g_args vs e : Forall plain vs -> gives (args_of vs) e (Ret (N (map (pair false) vs), e)).
Proof.
  induction 1 as [|v vs H _ IH]; cbn [args_of map]; [apply g_ret|].
  eapply g_bind; [|eapply g_bind; [exact IH|apply g_ret]]. destruct v; try destruct H; apply g_ret.
Qed.
Lemma ref_paths_plain vs : Forall plain vs -> ref_paths vs = map (fun _ => None) vs.
Proof. induction 1 as [|v vs H _ IH]; cbn; [reflexivity|]. rewrite IH. now destruct v; try destruct H. Qed.
Lemma g_copy_none {A : Type} (l : list A) : forall (outs : list (option (val T))) e, gives (copy_out (map (fun _ => None) l) outs) e (Ret (N tt, e)).
Proof.
  induction l as [|a l IH]; intros outs e; cbn [map copy_out]; [apply g_ret|]. destruct outs as [|o outs]; [apply g_ret|].
  eapply g_bind; [apply g_ret|]. apply IH.
Qed.
Lemma g_call k vs e r outs : Forall plain vs -> runs (answer (RFn k (map (pair false) vs))) (Ret (AVal r outs)) ->
  gives (call k None vs) e (Ret (N r, e)).
Proof.
  intros V R. unfold call. eapply g_bind; [apply g_args, V|]. destruct vs; rewrite ref_paths_plain by exact V;
    (eapply g_request; [exact R|apply g_copy_none]).
Qed.
Lemma g_call_panic k vs e : Forall plain vs -> runs (answer (RFn k (map (pair false) vs))) Panic -> gives (call k None vs) e Panic.
Proof. intros V R. unfold call. eapply g_bind; [apply g_args, V|]. now apply g_request_panic. Qed.

(** *** Functions that take their operands by value *)

(** What they give on operands, however they are called. *)
Definition answers (k : key) (vs : list (val T)) (o : outcome (val T)) : Prop :=
  match o with
  | Ret r => exists outs, runs (answer (RFn k (map (pair false) vs))) (Ret (AVal r outs))
  | Panic => runs (answer (RFn k (map (pair false) vs))) Panic
  | Diverge => True
  end.
Lemma g_answers k vs e o : Forall plain vs -> answers k vs o -> gives (call k None vs) e (r <- o ;; Ret (N r, e)).
Proof.
  intros V A. destruct o as [r| |]; cbn [bind]; [destruct A as [outs R]; eapply g_call; eassumption|now apply g_call_panic|exact Logic.I].
Qed.
Lemma args_eq vs e : Forall plain vs -> forall B (f : list (bool * val T) -> M B) k, bindM (args_of vs) f e k = f (map (pair false) vs) e k.
Proof.
  induction 1 as [|v vs H _ IH]; intros B f k; [reflexivity|]. cbn [args_of map].
  specialize (IH B (fun l => f ((false, v) :: l)) k). destruct v; try destruct H; exact IH.
Qed.
Lemma copy_eq {A : Type} (l : list A) : forall (outs : list (option (val T))) e B (f : unit -> M B) k, bindM (copy_out (map (fun _ => None) l) outs) f e k = f tt e k.
Proof.
  induction l as [|a l IH]; intros outs e B f k; [reflexivity|]. destruct outs as [|o outs]; [reflexivity|].
  cbn [map copy_out]. exact (IH outs e B f k).
Qed.
(** Back from the run of a call. *)
Definition last_k (r : @res T (val T)) (_ : env T) : prog T := match r with N v => Done (AVal v []) | _ => Stuck end.
Lemma answers_of k vs e o : Forall plain vs -> runs (call k None vs e last_k) (x <- o ;; Ret (AVal x [])) -> answers k vs o.
Proof.
  intros V. unfold call. rewrite (args_eq vs e V).
  rewrite (ref_paths_plain vs V). unfold request. intros R. inversion R as [| | | | | | | | | |rq k' a o' R1 R2|rq k' R1]; subst.
  - destruct a as [v outs|r e']; [|inversion R2]. rewrite copy_eq in R2. cbn in R2. inversion R2; subst.
    destruct o as [x| |]; try discriminate. match goal with E : Ret _ = _ |- _ => injection E as <- end. exists outs. exact R1.
  - destruct o as [x| |]; try discriminate. exact R1.
Qed.
(** A receiver taken by value or by reference: the function changes nothing. *)
Definition keeps (f : fn) : bool := match f with Fn _ (ByVal | ByRef) _ _ => true | _ => false end.
Definition method_key (sc : list string) (n : string) (v : val T) (vs : list (val T)) (k : key) : Prop :=
  exists s f, find_fn (resolve_method sc (type_of v) n (map type_of vs)) = Some (k, (s, f)) /\ keeps f = true.
Lemma g_method sc n p v vs k e o : builtin m n p v vs = None -> Forall plain (v :: vs) -> method_key sc n v vs k ->
  answers k (v :: vs) o -> gives (method m sc n p false v vs) e (r <- o ;; Ret (N r, e)).
Proof.
  intros B V (s & [nm [] ps b] & F & K) A; try discriminate K; unfold method; rewrite B.
  all: eapply g_bind; [apply g_which, F|]; cbn [andb]; now apply g_answers.
Qed.
Lemma method_of sc n p v vs e o : builtin m n p v vs = None -> Forall plain (v :: vs) ->
  (forall k s f, find_fn (resolve_method sc (type_of v) n (map type_of vs)) = Some (k, (s, f)) -> keeps f = true) ->
  runs (method m sc n p false v vs e last_k) (x <- o ;; Ret (AVal x [])) -> exists k, method_key sc n v vs k /\ answers k (v :: vs) o.
Proof.
  intros B V K. unfold method. rewrite B. unfold bindM at 1, which.
  intros R. inversion R as [| | | | | | | | |f k' o' R1| |]; subst. destruct f as [k [s f]]. exists k.
  match goal with E : Some _ = find_fn _ |- _ => symmetry in E; pose proof (K k s f E) as Kf; split; [exists s, f; now split|] end.
  destruct f as [nm [] ps b]; try discriminate Kf; cbn [andb] in R1; exact (answers_of k (v :: vs) e o V R1).
Qed.
Lemma says_method1 sc n v o : plain v ->
  says_ dflt m sc (EMethod (EVar "a") n []) [("a", v)] o ->
  ends dflt m (method m sc n (Some ("a", [])) false v [] [("a", v)] last_k) (x <- o ;; Ret (AVal x [])).
Proof. intros V H. destruct v; try destruct V; exact H. Qed.
Lemma says_method2 sc n y v w o : plain v -> y = "b" \/ y = "t" ->
  says_ dflt m sc (EMethod (EVar "a") n [EVar y]) [("a", v); (y, w)] o ->
  ends dflt m (method m sc n (Some ("a", [])) false v [w] [("a", v); (y, w)] last_k) (x <- o ;; Ret (AVal x [])).
Proof. intros V [-> | ->] H; destruct v; try destruct V; exact H. Qed.
End Gives.
