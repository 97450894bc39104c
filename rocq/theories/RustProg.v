(** The text of the programs of ClientProg.v, and that run by RustEval.v on the
    translated source it does what the model says. *)
From Coq Require Import String Lia.
From Verif Require Import Base ModelBound ModelRanges ModelSets ModelAlgebra ModelValue ModelStep ModelIter
  RustSyntax Source RustEval RustEnc RustTac RustRuns RustSays RustIter RustIterSet RustIterClient RustIterLoop RustForever RustClient RustClient2 RustClient3
  RustGives ClientProg.
Open Scope Z_scope.
Open Scope string_scope.
Open Scope list_scope.

(** ** The text *)
Fixpoint stext (a : sexp) : RustSyntax.expr :=
  match a with
  | XVar x => EMethod (EVar x) "clone" []
  | XRange x y => ECon "Range" [("start", EVar x); ("end", EVar y)]
  | XIncl x y => ECon "RangeInclusive" [("start", EVar x); ("end", EVar y); ("exhausted", EBool false)]
  | XFrom x => ECon "RangeFrom" [("start", EVar x)]
  | XTo x => ECon "RangeTo" [("end", EVar x)]
  | XToIncl x => ECon "RangeToInclusive" [("end", EVar x)]
  | XFull => ECon "RangeFull" []
  | XUnion a b => EMethod (stext a) "union" [stext b]
  | XInter a b => EMethod (stext a) "intersection" [stext b]
  | XCompl a => EMethod (stext a) "complement" []
  | XInner a => EMethod (stext a) "to_inner" []
  | XSet a => EMethod (stext a) "to_set" []
  end.
Fixpoint ctext (c : cond) : RustSyntax.expr :=
  match c with
  | QEmpty a => ECall "Rangetools" "is_empty" [ERef (stext a)]
  | QHas a x => EMethod (EMethod (stext a) "to_inner" []) "contains" [EVar x]
  | QDisjoint a b => EMethod (stext a) "disjoint" [stext b]
  | QMeets a b => EMethod (stext a) "intersects" [stext b]
  | QLess x y => EBin "<" (EVar x) (EVar y)
  | QSame x y => EBin "==" (EVar x) (EVar y)
  | QNot c => ENot (ctext c)
  | QAnd c d => EBin "&&" (ctext c) (ctext d)
  | QOr c d => EBin "||" (ctext c) (ctext d)
  end.
Definition unit_text : RustSyntax.expr := ECon "tuple" [].
(** A [for] in the words of the Rust reference: a loop on [next]. *)
Definition next_name (back : bool) : string := if back then "next_back" else "next".
Definition next_text (back : bool) (t x : string) (e1 e2 : RustSyntax.expr) : RustSyntax.expr :=
  EMatch (EMethod (EVar x) (next_name back) []) [(PCon "Some" [("0", PBind t)], e1); (PWild, e2)].
Definition turn_text (t : string) (body : RustSyntax.expr) : RustSyntax.expr := next_text false t it_var body EBreak.
Fixpoint btext (b : block) : list (option pat * RustSyntax.expr) :=
  match b with
  | BEnd => []
  | BBreak => [SExpr EBreak]
  | BLet x a b => SLet (PBind x) (stext a) :: btext b
  | BPut x a b => SExpr (EAssign (EVar x) (stext a)) :: btext b
  | BIf c b1 b2 b => SExpr (EIf (ctext c) (EBlock (btext b1) unit_text) (EBlock (btext b2) unit_text)) :: btext b
  | BFor t a body b =>
    SExpr (EBlock [SLet (PBind it_var) (EMethod (stext a) "into_iter" []);
                   SExpr (EWhile (EBool true) (turn_text t (EBlock (btext body) unit_text)))] unit_text) :: btext b
  | BLoop body b => SExpr (EWhile (EBool true) (EBlock (btext body) unit_text)) :: btext b
  | BIter x a b => SLet (PBind x) (EMethod (stext a) "into_iter" []) :: btext b
  | BNext k t x b1 b2 b => SExpr (next_text k t x (EBlock (btext b1) unit_text) (EBlock (btext b2) unit_text)) :: btext b
  end.
Definition ftext (f : fin) : RustSyntax.expr := match f with FSet a => stext a | FCond c => ctext c end.
Definition ptext (b : block) (f : fin) : RustSyntax.expr := EBlock (btext b) (ftext f).

(** ** Functions that change nothing, whatever they are called on *)
Definition keeping : list string :=
  ["union"; "intersection"; "complement"; "to_inner"; "to_set"; "contains"; "disjoint"; "intersects"; "into_iter"].
Definition impl_keeps (i : impl) : bool :=
  match i with Impl _ _ _ _ _ fns => forallb (fun f => if member (fn_name f) keeping then keeps f else true) fns end.
Lemma sources_keep : forallb impl_keeps (source_impls ++ source_step_impls_16 ++ source_step_impls_32 ++ source_step_impls_64 ++ map snd (source_traits ++ std_traits)) = true.
Proof. vm_compute. reflexivity. Qed.
Lemma lookup_keeps {PF : Platform} k s f : lookup_fn k = Some (s, f) -> member (match k with KFn _ _ _ n => n | KDefault _ n => n end) keeping = true -> keeps f = true.
Proof.
  pose proof (proj1 (forallb_forall _ _) sources_keep) as A.
  assert (B : forall n i, with_scope n i = Some (s, f) -> impl_keeps i = true -> member n keeping = true -> keeps f = true).
  { intros n [a b c d e fns] W K M. unfold with_scope, impl_fn in W.
    destruct (find _ fns) as [g|] eqn:F; [|discriminate]. injection W as _ <-. apply find_some in F as [F E].
    cbn [impl_keeps] in K. apply (proj1 (forallb_forall _ _)) with (x := g) in K; [|exact F].
    apply String.eqb_eq in E. rewrite E, M in K. exact K. }
  unfold lookup_fn. destruct k as [tr self cs n|tr n].
  - destruct (find _ (impls self)) as [i|] eqn:F; [|discriminate]. intros W M. apply find_some in F as [F _].
    refine (B n i W (A i _) M). unfold impls in F. rewrite !in_app_iff. destruct (ity_of self); [destruct ptr_width|]; auto 6.
  - destruct (find_trait traits [tr] n) as [[t i]|] eqn:F; [|discriminate]. intros W M. apply find_some in F as [F _].
    refine (B n i W (A i _) M). rewrite !in_app_iff. do 4 right. exact (in_map snd _ _ F).
Qed.
Lemma method_keeps {PF : Platform} sc ty n args k s f : member n keeping = true ->
  find_fn (resolve_method sc ty n args) = Some (k, (s, f)) -> keeps f = true.
Proof.
  intros M. unfold find_fn. destruct (resolve_method sc ty n args) as [k'|] eqn:R; [|discriminate].
  destruct (lookup_fn k') as [[s' f']|] eqn:L; [|discriminate]. intros [= -> -> ->]. apply (lookup_keeps _ _ _ L).
  unfold resolve_method, resolve, impl_key in R. repeat match type of R with
  | match ?x with _ => _ end = _ => destruct x
  end; try discriminate R; injection R as <-; exact M.
Qed.

Section Prog.
Context {T : Type} {PF : Platform} {OT : Ord T} {ST : Step T} (dflt : option T) (m : mode).
Notation runs := (runs dflt m).
Notation answer := (answer dflt m).
Notation calls := (calls dflt m).
Notation eval := (RustEval.eval dflt m).
Notation gives := (gives dflt m).
Notation answers := (answers dflt m).
Notation tools := ["Rangetools"].

Definition enc_iter (i : iter T) : val T :=
  match i with JBR i => enc_bri i | JBS i => enc_bsi i | JLBR i => enc_lbri i | JLBS i => enc_lbsi i end.
Definition enc_cval (c : cval T) : val T :=
  match c with CSet v => enc_value v | CElt t => DElt t | CIter i => enc_iter i end.
Definition enc_state (s : state T) : env T := map (fun p => (fst p, enc_cval (snd p))) s.
Lemma plain_value v : plain (enc_value (T := T) v).
Proof. destruct v; exact Logic.I. Qed.
Lemma plain_cval c : plain (enc_cval c).
Proof. destruct c as [v| |[]]; try exact Logic.I. apply plain_value. Qed.
Lemma assoc_enc x s : assoc x (enc_state s) = option_map enc_cval (get x s).
Proof. induction s as [|[y c] s IH]; [reflexivity|]. cbn. now destruct (x =? y). Qed.
Lemma update_enc x c s : update x (enc_cval c) (enc_state s) = enc_state (set x c s).
Proof. induction s as [|[y d] s IH]; [reflexivity|]. cbn. destruct (x =? y); [reflexivity|]. cbn. f_equal. exact IH. Qed.
Lemma size_enc s : size (enc_state s) = length s.
Proof. induction s; cbn; auto. Qed.
Lemma drop_skipn {A : Type} n : forall l : list A, drop n l = skipn n l.
Proof. induction n as [|n IH]; [now destruct l|]. intros [|a l]; [reflexivity|]. apply IH. Qed.
Lemma pop_enc n s : pop_to n (enc_state s) = enc_state (oldest n s).
Proof. unfold pop_to, oldest, enc_state. rewrite drop_skipn, <- skipn_map. do 2 f_equal. apply size_enc. Qed.

(** *** The operations *)
Lemma op2 n v w o : member n keeping = true ->
  (forall p, builtin m n p (enc_value v) [enc_value w] = None) ->
  says_ dflt m tools (EMethod (EVar "a") n [EVar "b"]) [("a", enc_value v); ("b", enc_value w)] o -> forall p e,
  gives (method m tools n p false (enc_value v) [enc_value w]) e (r <- o ;; Ret (N r, e)).
Proof.
  intros K B H p e. apply says_method2 in H; [|apply plain_value|now left].
  assert (V : Forall plain [enc_value v; enc_value w]) by (repeat constructor; apply plain_value).
  destruct o as [x| |]; [| |exact Logic.I]; apply method_of in H; auto; try (intros; eapply method_keeps; eassumption);
    destruct H as (k & M & A); eapply g_method; eauto.
Qed.
Lemma op1 n v o : member n keeping = true ->
  (forall p, builtin m n p (enc_value v) [] = None) ->
  says_ dflt m tools (EMethod (EVar "a") n []) [("a", enc_value v)] o -> forall p e,
  gives (method m tools n p false (enc_value v) []) e (r <- o ;; Ret (N r, e)).
Proof.
  intros K B H p e. apply says_method1 in H; [|apply plain_value].
  assert (V : Forall plain [enc_value v]) by (repeat constructor; apply plain_value).
  destruct o as [x| |]; [| |exact Logic.I]; apply method_of in H; auto; try (intros; eapply method_keeps; eassumption);
    destruct H as (k & M & A); eapply g_method; eauto.
Qed.
Notation meth n v vs o := (forall p e, gives (method m tools n p false v vs) e (r <- o ;; Ret (N r, e))).
Lemma o_union v w : meth "union" (enc_value v) [enc_value w] (x <- union v w ;; Ret (enc_value x)).
Proof. apply op2; [reflexivity|now destruct v|apply s_union]. Qed.
Lemma o_intersection v w : meth "intersection" (enc_value v) [enc_value w] (x <- intersection v w ;; Ret (enc_value x)).
Proof. apply op2; [reflexivity|now destruct v|apply s_intersection]. Qed.
Lemma o_disjoint v w : meth "disjoint" (enc_value v) [enc_value w] (x <- disjoint v w ;; Ret (DBool x)).
Proof. apply op2; [reflexivity|now destruct v|apply s_disjoint]. Qed.
Lemma o_intersects v w : meth "intersects" (enc_value v) [enc_value w] (x <- intersects v w ;; Ret (DBool x)).
Proof. apply op2; [reflexivity|now destruct v|apply s_intersects]. Qed.
Lemma o_complement v : meth "complement" (enc_value v) [] (x <- complement v ;; Ret (enc_value x)).
Proof. apply op1; [reflexivity|now destruct v|apply s_complement]. Qed.
Lemma o_to_inner v : meth "to_inner" (enc_value v) [] (Ret (enc_inner (to_inner v))).
Proof. apply op1; [reflexivity|now destruct v|apply s_to_inner]. Qed.
Lemma o_to_set v : meth "to_set" (enc_value v) [] (Ret (enc_setv (to_set v))).
Proof. apply op1; [reflexivity|now destruct v|apply s_to_set]. Qed.
Lemma s_into_iter v o : into_iter m v = Some o ->
  says_ dflt m tools (EMethod (EVar "a") "into_iter" []) [("a", enc_value v)] (i <- o ;; Ret (enc_iter i)).
Proof.
  unfold says_, into_iter. intros H. destruct v as [| | | | | |r|r| | | |s|s| |]; try discriminate H; injection H as <-; cbn [enc_value].
  - pose proof (c_br_into_iter dflt m r false) as C. node. eapply ends_call; [exact C|after_call; run].
  - pose proof (c_lbr_into_iter dflt m r false) as C. node. eapply ends_call; [exact C|after_call; run].
  - pose proof (c_bs_into_iter dflt m s false) as C. node. eapply ends_call; [exact C|after_call; run].
  - pose proof (c_lbs_into_iter dflt m s false) as C. node. eapply ends_call; [exact C|after_call; run].
Qed.
Lemma o_into_iter v o : into_iter m v = Some o -> meth "into_iter" (enc_value v) [] (i <- o ;; Ret (enc_iter i)).
Proof. intros H. apply op1; [reflexivity|now destruct v|now apply s_into_iter]. Qed.
Lemma o_contains v t : meth "contains" (enc_value (value_of_inner (to_inner v))) [DElt t] (Ret (DBool (contains (value_of_inner (to_inner v)) t))).
Proof.
  intros p e. set (w := value_of_inner (to_inner v)).
  assert (H : says_ dflt m tools (EMethod (EVar "a") "contains" [EVar "t"]) [("a", enc_value w); ("t", DElt t)] (Ret (DBool (contains w t)))).
  { apply s_contains. unfold w. destruct v; exact Logic.I. }
  apply says_method2 in H; [|apply plain_value|now right].
  assert (V : Forall plain [enc_value w; DElt t]) by (repeat constructor; apply plain_value).
  assert (B : forall p, builtin m "contains" p (enc_value w) [DElt t] = None) by (intros q; now destruct w).
  apply (method_of _ _ _ _ _ _ _ _ (Ret (DBool (contains w t)))) in H; auto; try (intros; eapply method_keeps; [|eassumption]; reflexivity).
  destruct H as (k & M & A); eapply (g_method _ _ _ _ _ _ _ _ _ (Ret _)); eauto.
Qed.

(** *** Expressions *)
Lemma g_evar x c s : get x s = Some c -> gives (eval tools (EVar x)) (enc_state s) (Ret (N (enc_cval c), enc_state s)).
Proof. intros H. cbn [RustEval.eval]. eapply g_bind; [apply g_get|]. apply g_opt. now rewrite assoc_enc, H. Qed.
Definition no_place (a : RustSyntax.expr) : Prop := forall e : env T, place a e = None.
Definition no_clo (a : RustSyntax.expr) : Prop := match a with EClo _ _ => False | _ => True end.
Lemma no_place_stext a : no_place (stext a).
Proof. destruct a; intros e; reflexivity. Qed.
Lemma no_clo_stext a : no_clo (stext a).
Proof. destruct a; exact Logic.I. Qed.
Lemma g_emethod1 sc a n v e e1 o : no_place a -> gives (eval sc a) e (Ret (N v, e1)) -> plain v ->
  gives (method m sc n None false v []) e1 o -> gives (eval sc (EMethod a n [])) e o.
Proof.
  intros Pl A V H. cbn [RustEval.eval]. eapply g_bind; [apply g_get|]. cbn beta. rewrite (Pl e).
  eapply g_bind; [eapply g_bind; [exact A|]|].
  - instantiate (1 := e1). instantiate (1 := (None, false, v)). destruct v; try destruct V; apply g_ret.
  - cbn beta iota zeta. eapply g_bind; [apply g_ret|]. exact H.
Qed.
Lemma g_emethod1_panic sc a n args e : no_place a -> gives (eval sc a) e Panic -> gives (eval sc (EMethod a n args)) e Panic.
Proof.
  intros Pl A. cbn [RustEval.eval]. eapply g_bind; [apply g_get|]. cbn beta. rewrite (Pl e).
  apply g_bind_panic, g_bind_panic. exact A.
Qed.
Lemma g_emethod2 sc a n b v w e e1 e2 o : no_place a -> no_clo b -> gives (eval sc a) e (Ret (N v, e1)) -> plain v ->
  gives (eval sc b) e1 (Ret (N w, e2)) -> gives (method m sc n None false v [w]) e2 o -> gives (eval sc (EMethod a n [b])) e o.
Proof.
  intros Pl C A V B H. cbn [RustEval.eval]. eapply g_bind; [apply g_get|]. cbn beta. rewrite (Pl e).
  eapply g_bind; [eapply g_bind; [exact A|]|].
  - instantiate (1 := e1). instantiate (1 := (None, false, v)). destruct v; try destruct V; apply g_ret.
  - cbn beta iota zeta.
    assert (G : gives (bindM (bindM (eval sc b) (fun v => bindM (ret []) (fun vs => ret (v :: vs)))) (fun vs => method m sc n None false v vs)) e1 o).
    { eapply g_bind; [eapply g_bind; [exact B|eapply g_bind; [apply g_ret|apply g_ret]]|]. exact H. }
    destruct b; try destruct C; exact G.
Qed.
Lemma g_emethod2_panic sc a n b v e e1 : no_place a -> no_clo b -> gives (eval sc a) e (Ret (N v, e1)) -> plain v ->
  gives (eval sc b) e1 Panic -> gives (eval sc (EMethod a n [b])) e Panic.
Proof.
  intros Pl C A V B. cbn [RustEval.eval]. eapply g_bind; [apply g_get|]. cbn beta. rewrite (Pl e).
  eapply g_bind; [eapply g_bind; [exact A|]|].
  - instantiate (1 := e1). instantiate (1 := (None, false, v)). destruct v; try destruct V; apply g_ret.
  - cbn beta iota zeta.
    assert (G : gives (bindM (bindM (eval sc b) (fun v => bindM (ret []) (fun vs => ret (v :: vs)))) (fun vs => method m sc n None false v vs)) e1 Panic).
    { apply g_bind_panic, g_bind_panic. exact B. }
    destruct b; try destruct C; exact G.
Qed.
(** An expression gives [f] of its value in the model and leaves the variables. *)
Definition shows {A : Type} (x : RustSyntax.expr) (s : state T) (f : A -> val T) (r : result A) : Prop :=
  match r with
  | Some o => gives (eval tools x) (enc_state s) (v <- o ;; Ret (N (f v), enc_state s))
  | None => True
  end.
Lemma sh_method1 {B : Type} a n s (r : result (value T)) (g : value T -> outcome B) (h : B -> val T) :
  shows (stext a) s enc_value r -> (forall v, meth n (enc_value v) [] (x <- g v ;; Ret (h x))) ->
  shows (EMethod (stext a) n []) s h (andthen r (fun v => Some (g v))).
Proof.
  intros A G. destruct r as [[v| |]|]; cbn [shows andthen bind] in *; try exact Logic.I; [|apply g_emethod1_panic; [apply no_place_stext|exact A]].
  specialize (G v None (enc_state s)). eapply g_emethod1; [apply no_place_stext|exact A|apply plain_value|].
  destruct (g v); exact G.
Qed.
Lemma sh_method2 {B : Type} a b n s (r1 r2 : result (value T)) (g : value T -> value T -> outcome B) (h : B -> val T) :
  shows (stext a) s enc_value r1 -> shows (stext b) s enc_value r2 ->
  (forall v w, meth n (enc_value v) [enc_value w] (x <- g v w ;; Ret (h x))) ->
  shows (EMethod (stext a) n [stext b]) s h (andthen r1 (fun v => andthen r2 (fun w => Some (g v w)))).
Proof.
  intros A B' G. destruct r1 as [[v| |]|]; cbn [shows andthen bind] in *; try exact Logic.I; [|apply g_emethod1_panic; [apply no_place_stext|exact A]].
  destruct r2 as [[w| |]|]; cbn [shows andthen bind] in *; try exact Logic.I.
  - specialize (G v w None (enc_state s)).
    eapply g_emethod2; [apply no_place_stext|apply no_clo_stext|exact A|apply plain_value|exact B'|]. destruct (g v w); exact G.
  - eapply g_emethod2_panic; [apply no_place_stext|apply no_clo_stext|exact A|apply plain_value|exact B'].
Qed.
Lemma elt_get (s : state T) x o : elt s x = Some o -> exists t, get x s = Some (CElt t) /\ o = Ret t.
Proof. unfold elt. destruct (get x s) as [[]|]; try discriminate. intros [= <-]. eauto. Qed.
(** A constructor on variables that are elements. *)
Lemma g_elt x t s : get x s = Some (CElt t) -> gives (eval tools (EVar x)) (enc_state s) (Ret (N (DElt t), enc_state s)).
Proof. exact (g_evar x (CElt t) s). Qed.
Ltac bindr := first [eassumption | apply g_ret | (eapply g_bind; [bindr|cbn beta iota; bindr]) | (apply g_opt; reflexivity)].
Lemma shows_sval s a : shows (stext a) s enc_value (sval s a).
Proof.
  induction a as [x|x y|x y|x|x|x| |a IHa b IHb|a IHa b IHb|a IHa|a IHa|a IHa]; cbn [stext sval].
  - destruct (get x s) as [c|] eqn:G; [|exact Logic.I]. destruct c as [v| |]; try exact Logic.I. unfold shows, done. cbn [bind RustEval.eval].
    eapply g_bind; [apply g_get|]. cbn [place]. rewrite assoc_enc, G. cbn [option_map enc_cval].
    assert (R : gives (read (x, [])) (enc_state s) (Ret (N (enc_value v), enc_state s))).
    { unfold read. eapply g_bind; [apply g_get|]. eapply g_bind; [apply g_opt; cbn [fst]; rewrite assoc_enc, G; reflexivity|apply g_ret]. }
    pose proof (plain_value v) as V. destruct (enc_value v) eqn:E; try destruct V;
      (eapply g_bind; [eapply g_bind; [exact R|apply g_ret]|]; cbn beta iota zeta; eapply g_bind; [apply g_ret|]; unfold method; cbn [builtin String.eqb Ascii.eqb Bool.eqb]; apply g_ret).
  - destruct (elt s x) as [o|] eqn:X; [|exact Logic.I]. apply elt_get in X as (t & X & ->). cbn [andthen].
    destruct (elt s y) as [o|] eqn:Y; [|exact Logic.I]. apply elt_get in Y as (u & Y & ->). cbn [andthen].
    apply g_elt in X, Y. unfold shows, done. cbn [bind RustEval.eval] in *. bindr.
  - destruct (elt s x) as [o|] eqn:X; [|exact Logic.I]. apply elt_get in X as (t & X & ->). cbn [andthen].
    destruct (elt s y) as [o|] eqn:Y; [|exact Logic.I]. apply elt_get in Y as (u & Y & ->). cbn [andthen].
    apply g_elt in X, Y. unfold shows, done. cbn [bind RustEval.eval] in *. bindr.
  - destruct (elt s x) as [o|] eqn:X; [|exact Logic.I]. apply elt_get in X as (t & X & ->). cbn [andthen].
    apply g_elt in X. unfold shows, done. cbn [bind RustEval.eval] in *. bindr.
  - destruct (elt s x) as [o|] eqn:X; [|exact Logic.I]. apply elt_get in X as (t & X & ->). cbn [andthen].
    apply g_elt in X. unfold shows, done. cbn [bind RustEval.eval] in *. bindr.
  - destruct (elt s x) as [o|] eqn:X; [|exact Logic.I]. apply elt_get in X as (t & X & ->). cbn [andthen].
    apply g_elt in X. unfold shows, done. cbn [bind RustEval.eval] in *. bindr.
  - unfold shows, done. cbn [bind RustEval.eval] in *. bindr.
  - apply sh_method2; auto. apply o_union.
  - apply sh_method2; auto. apply o_intersection.
  - apply sh_method1; auto. apply o_complement.
  - apply (sh_method1 a "to_inner" s _ (fun v => Ret (value_of_inner (to_inner v))) enc_value IHa). apply o_to_inner.
  - apply (sh_method1 a "to_set" s _ (fun v => Ret (value_of_set (to_set v))) enc_value IHa). apply o_to_set.
Qed.

(** *** Conditions *)
Lemma says_path v o : plain v ->
  says_ dflt m tools (ECall "Rangetools" "is_empty" [ERef (EVar "a")]) [("a", v)] (Ret o) -> builtin_path m "Rangetools" "is_empty" [v] = None ->
  exists f, find_fn (resolve_path "Rangetools" "is_empty" [type_of v]) = Some f /\ answers (fst f) [v] (Ret o).
Proof.
  intros V H B. cbv [says_ ends] in H. cbn [RustEval.eval bind] in H.
  change (runs (match builtin_path m "Rangetools" "is_empty" [v] with
    | Some c => c
    | None => bindM (which (resolve_path "Rangetools" "is_empty" [type_of v])) (fun g => call (fst g) None [v])
    end [("a", v)] last_k) (Ret (AVal o []))) in H.
  rewrite B in H. unfold bindM, which in H. inversion H as [| | | | | | | | |f k' o' R1| |]; subst. exists f.
  split; [congruence|]. exact (answers_of dflt m (fst f) [v] [("a", v)] (Ret o) (Forall_cons _ V (Forall_nil _)) R1).
Qed.
Lemma g_is_empty a s (v : value T) : gives (eval tools (stext a)) (enc_state s) (Ret (N (enc_value v), enc_state s)) ->
  gives (eval tools (ECall "Rangetools" "is_empty" [ERef (stext a)])) (enc_state s) (Ret (N (DBool (is_empty v)), enc_state s)).
Proof.
  intros A. assert (B : builtin_path m "Rangetools" "is_empty" [enc_value v] = None) by now destruct v.
  destruct (says_path _ _ (plain_value v) (s_is_empty dflt m v) B) as (f & F & C).
  cbn [RustEval.eval]. eapply g_bind; [eapply g_bind; [exact A|eapply g_bind; [apply g_ret|apply g_ret]]|]. cbn beta. rewrite B.
  eapply g_bind; [apply g_which, F|]. apply (g_answers dflt m _ _ _ (Ret (DBool (is_empty v)))); [|exact C].
  repeat constructor. apply plain_value.
Qed.
Lemma shows_cond s c : shows (ctext c) s (@DBool T) (cval_of s c).
Proof.
  induction c as [a|a x|a b|a b|x y|x y|c IH|c IHc d IHd|c IHc d IHd]; cbn [ctext cval_of].
  - pose proof (shows_sval s a) as A. destruct (sval s a) as [[v| |]|]; cbn [shows andthen bind done] in *; try exact Logic.I.
    + now apply g_is_empty.
    + cbn [RustEval.eval]. apply g_bind_panic, g_bind_panic. exact A.
  - pose proof (shows_sval s a) as A. destruct (sval s a) as [[v| |]|]; cbn [shows andthen bind done] in *; try exact Logic.I.
    + destruct (elt s x) as [o|] eqn:X; [|exact Logic.I]. apply elt_get in X as (t & X & ->). cbn [andthen shows done bind].
      eapply g_emethod2; [now intros e|exact Logic.I| |apply (plain_value (value_of_inner (to_inner v)))|apply g_elt, X|].
      * eapply g_emethod1; [apply no_place_stext|exact A|apply plain_value|]. apply o_to_inner.
      * apply o_contains.
    + apply g_emethod1_panic; [now intros e|]. apply g_emethod1_panic; [apply no_place_stext|exact A].
  - apply sh_method2; try apply shows_sval. apply o_disjoint.
  - apply sh_method2; try apply shows_sval. apply o_intersects.
  - destruct (elt s x) as [o|] eqn:X; [|exact Logic.I]. apply elt_get in X as (t & X & ->). cbn [andthen].
    destruct (elt s y) as [o|] eqn:Y; [|exact Logic.I]. apply elt_get in Y as (u & Y & ->). cbn [andthen].
    apply g_elt in X, Y. unfold shows, done. cbn [bind RustEval.eval] in *. cbn [String.eqb Ascii.eqb Bool.eqb].
    eapply g_bind; [exact X|]. eapply g_bind; [apply g_ret|]. eapply g_bind; [exact Y|]. eapply g_bind; [apply g_ret|]. apply g_ret.
  - destruct (elt s x) as [o|] eqn:X; [|exact Logic.I]. apply elt_get in X as (t & X & ->). cbn [andthen].
    destruct (elt s y) as [o|] eqn:Y; [|exact Logic.I]. apply elt_get in Y as (u & Y & ->). cbn [andthen].
    apply g_elt in X, Y. unfold shows, done. cbn [bind RustEval.eval] in *. cbn [String.eqb Ascii.eqb Bool.eqb].
    eapply g_bind; [exact X|]. eapply g_bind; [apply g_ret|]. eapply g_bind; [exact Y|]. eapply g_bind; [apply g_ret|]. apply g_ret.
  - destruct (cval_of s c) as [[b| |]|]; cbn [shows andthen bind done RustEval.eval] in *; try exact Logic.I.
    + eapply g_bind; [exact IH|]. eapply g_bind; [apply g_ret|]. apply g_ret.
    + now apply g_bind_panic.
  - destruct (cval_of s c) as [[b| |]|]; cbn [shows andthen bind done RustEval.eval] in *; try exact Logic.I; [|now apply g_bind_panic].
    destruct b.
    + destruct (cval_of s d) as [o|]; [|exact Logic.I]. cbn [shows] in *. eapply g_bind; [exact IHc|]. cbn [String.eqb Ascii.eqb Bool.eqb].
      eapply g_bind; [apply g_ret|]. apply g_branch. exact IHd.
    + eapply g_bind; [exact IHc|]. cbn [String.eqb Ascii.eqb Bool.eqb]. eapply g_bind; [apply g_ret|]. apply g_branch. apply g_ret.
  - destruct (cval_of s c) as [[b| |]|]; cbn [shows andthen bind done RustEval.eval] in *; try exact Logic.I; [|now apply g_bind_panic].
    destruct b.
    + eapply g_bind; [exact IHc|]. cbn [String.eqb Ascii.eqb Bool.eqb]. eapply g_bind; [apply g_ret|]. apply g_branch. apply g_ret.
    + destruct (cval_of s d) as [o|]; [|exact Logic.I]. cbn [shows] in *. eapply g_bind; [exact IHc|]. cbn [String.eqb Ascii.eqb Bool.eqb].
      eapply g_bind; [apply g_ret|]. apply g_branch. exact IHd.
Qed.

(** *** Statements *)
Lemma g_assign x c w s : get x s = Some c -> gives (assign (x, []) (enc_cval w)) (enc_state s) (Ret (N tt, enc_state (set x w s))).
Proof.
  intros G. unfold assign. eapply g_bind; [apply g_get|]. cbn [fst snd].
  eapply g_bind; [apply g_opt; rewrite assoc_enc, G; reflexivity|]. eapply g_bind; [apply g_ret|]. rewrite update_enc. apply g_put.
Qed.
Lemma g_read x c s : get x s = Some c -> gives (read (x, [])) (enc_state s) (Ret (N (enc_cval c), enc_state s)).
Proof.
  intros G. unfold read. eapply g_bind; [apply g_get|]. eapply g_bind; [apply g_opt; cbn [fst]; rewrite assoc_enc, G; reflexivity|apply g_ret].
Qed.
Definition next_key (back : bool) (i : iter T) : key :=
  it (if back then "DoubleEndedIterator" else "Iterator")
    match i with JBR _ => "BoundedRangeIter" | JBS _ => "BoundedSetIter" | JLBR _ => "LowerBoundedRangeIter" | JLBS _ => "LowerBoundedSetIter" end (next_name back).
Lemma next_resolves k i o : take m k i = Some o ->
  exists s b, find_fn (resolve_method tools (type_of (enc_iter i)) (next_name k) []) = Some (next_key k i, (s, Fn (next_name k) ByMut [] b)).
Proof. destruct k, i; try discriminate; intros _; eexists _, _; lazy; reflexivity. Qed.
Lemma next_calls k i o f : take m k i = Some o -> calls (RFn (next_key k i) [(f, enc_iter i)])
  (p <- o ;; Ret (AVal (enc_opt (@DElt T) (fst p)) [Some (enc_iter (snd p))])).
Proof.
  destruct k, i as [i|i|i|i]; cbn [take next_back next next_key next_name enc_iter]; try discriminate; intros [= <-].
  - pose proof (c_bri_next_back dflt m i f) as C. destruct (bri_next_back m i); exact C.
  - pose proof (c_bsi_next_back dflt m i f) as C. destruct (bsi_next_back m i); exact C.
  - pose proof (c_bri_next dflt m i f) as C. destruct (bri_next m i); exact C.
  - pose proof (c_bsi_next dflt m i f) as C. destruct (bsi_next m i); exact C.
  - pose proof (c_lbri_next dflt m i f) as C. destruct (lbri_next m i); exact C.
  - pose proof (c_lbsi_next dflt m i f) as C. destruct (lbsi_next m i); exact C.
Qed.
Lemma g_take k x i s o : get x s = Some (CIter i) -> take m k i = Some o ->
  gives (eval tools (EMethod (EVar x) (next_name k) [])) (enc_state s)
    (p <- o ;; Ret (N (enc_opt (@DElt T) (fst p)), enc_state (set x (CIter (snd p)) s))).
Proof.
  intros G Tk. cbn [RustEval.eval]. eapply g_bind; [apply g_get|]. cbn [place]. rewrite assoc_enc, G. cbn [option_map enc_cval].
  assert (E : exists ty c fs, enc_iter i = DCon ty c fs) by (destruct i; eexists _, _, _; reflexivity).
  destruct E as (ty & c & fs & E). rewrite E at 1.
  eapply g_bind; [eapply g_bind; [exact (g_read _ _ _ G)|apply g_ret]|]. cbn beta iota zeta.
  eapply g_bind; [apply g_ret|]. unfold method. cbn [enc_cval].
  assert (B : forall p, builtin m (next_name k) p (enc_iter i) [] = None) by (intros p; now destruct k, i).
  rewrite B. destruct (next_resolves k i o Tk) as (sc & b & F). cbn [map]. eapply g_bind; [apply g_which, F|]. cbn beta iota.
  unfold call. assert (V : Forall plain [enc_iter i]) by (constructor; [exact (plain_cval (CIter i))|constructor]).
  eapply g_bind; [apply g_args, V|]. cbn [ref_paths map].
  pose proof (next_calls k i o false Tk) as C. destruct o as [p| |]; cbn [bind] in *; [| |exact Logic.I].
  - eapply g_request; [exact C|]. cbn [copy_out]. eapply g_bind; [|apply g_ret]. exact (g_assign x (CIter i) (CIter (snd p)) s G).
  - now apply g_request_panic.
Qed.

Definition stmts (sc : list string) (a : RustSyntax.expr) : list (option pat * RustSyntax.expr) -> M (val T) :=
  fix go (l : list (option pat * RustSyntax.expr)) : M (val T) :=
    match l with
    | [] => eval sc a
    | (None, s) :: l' => bindM (eval sc s) (fun _ => go l')
    | (Some p, s) :: l' =>
      bindM (eval sc s) (fun v => bindM (opt (pmatch None p v)) (fun new => fun e k => force (cat new e) (fun e1 => go l' e1 k)))
    end.
Lemma eval_block sc ss a : eval sc (EBlock ss a) = scoped [] (stmts sc a ss).
Proof. reflexivity. Qed.
Lemma g_let sc a x t l v e e1 o : gives (eval sc t) e (Ret (N v, e1)) -> gives (stmts sc a l) ((x, v) :: e1) o ->
  gives (stmts sc a (SLet (PBind x) t :: l)) e o.
Proof.
  intros A H. cbn [stmts]. eapply g_bind; [exact A|]. cbn [pmatch opt]. eapply g_bind; [apply g_ret|].
  destruct o as [[r e']| |]; [| |exact Logic.I].
  - intros P HP k K. rewrite force_eq. exact (H P HP k K).
  - intros k. rewrite force_eq. exact (H k).
Qed.
Lemma g_stmt sc a t l v e e1 o : gives (eval sc t) e (Ret (N v, e1)) -> gives (stmts sc a l) e1 o -> gives (stmts sc a (SExpr t :: l)) e o.
Proof. intros A H. cbn [stmts]. eapply g_bind; [exact A|exact H]. Qed.
Lemma g_stmt_panic sc a p t l e : gives (eval sc t) e Panic -> gives (stmts sc a ((p, t) :: l)) e Panic.
Proof. intros A. cbn [stmts]. destruct p; now apply g_bind_panic. Qed.
Lemma g_stmt_break sc a t l e e' : gives (eval sc t) e (Ret (Brk, e')) -> gives (stmts sc a (SExpr t :: l)) e (Ret (Brk, e')).
Proof. intros A. cbn [stmts]. now apply g_bind_break. Qed.
Lemma g_unit sc e : gives (eval sc unit_text) e (Ret (N unit_val, e)).
Proof. cbn [RustEval.eval unit_text]. eapply g_bind; [apply g_ret|]. now apply g_opt. Qed.
(** A block of statements, in terms of what the model says. *)
Definition b_shows (s : state T) (b : block) (r : result (ending * state T)) : Prop :=
  match r with
  | Some (Ret (Through, s')) => forall a o, gives (eval tools a) (enc_state s') o -> gives (stmts tools a (btext b)) (enc_state s) o
  | Some (Ret (Broken, s')) => forall a, gives (stmts tools a (btext b)) (enc_state s) (Ret (Brk, enc_state s'))
  | Some Panic => forall a, gives (stmts tools a (btext b)) (enc_state s) Panic
  | _ => True
  end.
Definition turns (t : string) (body : block) : RustSyntax.expr := turn_text t (EBlock (btext body) unit_text).
Definition f_shows (s : state T) (t : string) (body : block) (r : result (state T)) : Prop :=
  match r with
  | Some (Ret s') => runs (answer (RWhile tools (EBool true) (turns t body) (enc_state s))) (Ret (AEnv (N unit_val) (enc_state s')))
  | Some Panic => runs (answer (RWhile tools (EBool true) (turns t body) (enc_state s))) Panic
  | _ => True
  end.
Definition l_shows (s : state T) (body : block) (r : result (state T)) : Prop :=
  match r with
  | Some (Ret s') => runs (answer (RWhile tools (EBool true) (EBlock (btext body) unit_text) (enc_state s))) (Ret (AEnv (N unit_val) (enc_state s')))
  | Some Panic => runs (answer (RWhile tools (EBool true) (EBlock (btext body) unit_text) (enc_state s))) Panic
  | _ => True
  end.
(** A block as an expression. *)
Lemma b_block s b r : b_shows s b r ->
  match r with
  | Some (Ret (Through, s')) => gives (eval tools (EBlock (btext b) unit_text)) (enc_state s) (Ret (N unit_val, enc_state (oldest (length s) s')))
  | Some (Ret (Broken, s')) => gives (eval tools (EBlock (btext b) unit_text)) (enc_state s) (Ret (Brk, enc_state (oldest (length s) s')))
  | Some Panic => gives (eval tools (EBlock (btext b) unit_text)) (enc_state s) Panic
  | _ => True
  end.
Proof.
  destruct r as [[[[] s']| |]|]; cbn [b_shows]; auto; intros H; rewrite eval_block.
  - pose proof (g_scoped dflt m [] _ _ _ (H unit_text _ (g_unit tools (enc_state s')))) as G.
    cbn [bind fst snd] in G. rewrite size_enc, pop_enc in G. exact G.
  - pose proof (g_scoped dflt m [] _ _ _ (H unit_text)) as G. cbn [bind fst snd] in G. rewrite size_enc, pop_enc in G. exact G.
  - exact (g_scoped dflt m [] _ _ _ (H unit_text)).
Qed.
Lemma oldest_oldest {A : Type} n k (l : list A) : (n <= k)%nat -> oldest n (oldest k l) = oldest n l.
Proof.
  intros H. unfold oldest. rewrite skipn_length.
  assert (E : forall a b (q : list A), skipn a (skipn b q) = skipn (a + b) q).
  { intros a b. revert a. induction b as [|b IH]; intros a q; [now rewrite Nat.add_0_r|]. rewrite Nat.add_succ_r. destruct q; [now rewrite !skipn_nil|]. apply IH. }
  rewrite E. f_equal. lia.
Qed.
Lemma set_length {A : Type} x (a : A) l : length (set x a l) = length l.
Proof. induction l as [|[y b] l IH]; [reflexivity|]. cbn. destruct (x =? y); cbn; auto. Qed.
(** A [next] and what follows it. *)
Lemma g_match k t x e1 e2 i o i' s q : get x s = Some (CIter i) -> take m k i = done (o, i') ->
  gives (eval tools (match o with Some _ => e1 | None => e2 end)) (enc_state (taken x t o i' s)) q ->
  gives (eval tools (next_text k t x e1 e2)) (enc_state s) (p <- q ;; Ret (fst p, pop_to (length s) (snd p))).
Proof.
  intros G Nx K. pose proof (g_take k x i s _ G Nx) as H. cbn [bind fst snd] in H. unfold next_text.
  remember (EMethod (EVar x) (next_name k) []) as sc eqn:Esc. cbn [RustEval.eval].
  eapply g_bind; [exact H|]. clear Esc H. destruct o as [y|]; cbn [taken] in K; (eapply g_bind; [apply g_ret|]).
  - cbn. pose proof (g_scoped dflt m [(t, DElt y)] (eval tools e1) (enc_state (set x (CIter i') s)) q) as Sc.
    rewrite size_enc, set_length in Sc. exact (Sc K).
  - cbn [enc_opt pmatch none_val String.eqb Ascii.eqb Bool.eqb ref_path].
    pose proof (g_scoped dflt m [] (eval tools e2) (enc_state (set x (CIter i') s)) q) as Sc.
    rewrite size_enc, set_length in Sc. exact (Sc K).
Qed.
Lemma g_match_panic k t x e1 e2 i s : get x s = Some (CIter i) -> take m k i = Some Panic ->
  gives (eval tools (next_text k t x e1 e2)) (enc_state s) Panic.
Proof.
  intros G Nx. pose proof (g_take k x i s _ G Nx) as H. cbn [bind] in H. unfold next_text. cbn [RustEval.eval] in *. now apply g_bind_panic.
Qed.
Lemma taken_length x t o i (s : state T) : (length s <= length (taken x t o i s))%nat.
Proof. destruct o; cbn [taken length]; rewrite set_length; lia. Qed.
(** One turn of a [for]. *)
Lemma g_turn_none s t body i i' : get it_var s = Some (CIter i) -> next m i = Ret (None, i') ->
  gives (eval tools (turns t body)) (enc_state s) (Ret (Brk, enc_state (set it_var (CIter i') s))).
Proof.
  intros G Nx. assert (Tk : take m false i = done (None, i')) by (unfold done; rewrite <- Nx; reflexivity).
  pose proof (g_match false t it_var (EBlock (btext body) unit_text) EBreak i None i' s (Ret (Brk, enc_state (set it_var (CIter i') s))) G Tk) as Sc.
  cbn [bind fst snd] in Sc. rewrite pop_enc in Sc. unfold oldest in Sc. rewrite set_length, Nat.sub_diag in Sc. apply Sc.
  intros P HP k K. exact K.
Qed.
Lemma g_branches k t x b1 b2 i o i' s r : get x s = Some (CIter i) -> take m k i = done (o, i') ->
  forall e1 e2, (match o with Some _ => e1 | None => e2 end) = EBlock (btext (chosen o b1 b2)) unit_text ->
  b_shows (taken x t o i' s) (chosen o b1 b2) r ->
  match r with
  | Some (Ret (Through, s')) => gives (eval tools (next_text k t x e1 e2)) (enc_state s) (Ret (N unit_val, enc_state (oldest (length s) s')))
  | Some (Ret (Broken, s')) => gives (eval tools (next_text k t x e1 e2)) (enc_state s) (Ret (Brk, enc_state (oldest (length s) s')))
  | Some Panic => gives (eval tools (next_text k t x e1 e2)) (enc_state s) Panic
  | _ => True
  end.
Proof.
  intros G Nx e1 e2 E B. apply b_block in B. pose proof (taken_length x t o i' s) as L.
  destruct r as [[[[] s']| |]|]; auto; rewrite <- E in B; pose proof (g_match k t x e1 e2 i o i' s _ G Nx B) as Z;
    cbn [bind fst snd] in Z; try rewrite pop_enc, oldest_oldest in Z by exact L; exact Z.
Qed.
Lemma g_turn s t body i x i' r : get it_var s = Some (CIter i) -> next m i = Ret (Some x, i') ->
  b_shows ((t, CElt x) :: set it_var (CIter i') s) body r ->
  match r with
  | Some (Ret (Through, s')) => gives (eval tools (turns t body)) (enc_state s) (Ret (N unit_val, enc_state (oldest (length s) s')))
  | Some (Ret (Broken, s')) => gives (eval tools (turns t body)) (enc_state s) (Ret (Brk, enc_state (oldest (length s) s')))
  | Some Panic => gives (eval tools (turns t body)) (enc_state s) Panic
  | _ => True
  end.
Proof.
  intros G Nx. assert (Tk : take m false i = done (Some x, i')) by (unfold done; rewrite <- Nx; reflexivity).
  exact (g_branches false t it_var body BEnd i (Some x) i' s r G Tk (EBlock (btext body) unit_text) EBreak eq_refl).
Qed.

(** *** Blocks and loops *)
Lemma r_while body e r e' : gives (eval tools body) e (Ret (r, e')) -> forall o,
  runs (match r with
        | N _ => Call (RWhile tools (EBool true) body e') Done
        | Brk => Done (AEnv (N unit_val) e')
        | Rtn v => Done (AEnv (Rtn v) e')
        end) o ->
  runs (answer (RWhile tools (EBool true) body e)) o.
Proof.
  intros G o R. unfold RustEval.answer. change (eval tools (EBool true) e) with (ret (DBool (T := T) true) e). unfold ret.
  constructor. refine (G (fun p => runs p o) (passes_runs dflt m o) _ _). cbn beta. exact R.
Qed.
Lemma r_while_panic body e : gives (eval tools body) e Panic -> runs (answer (RWhile tools (EBool true) body e)) Panic.
Proof.
  intros G. unfold RustEval.answer. change (eval tools (EBool true) e) with (ret (DBool (T := T) true) e). unfold ret. constructor. apply G.
Qed.
Lemma g_for t body i s a s' v o : into_iter m v = Some (Ret i) ->
  gives (eval tools (stext a)) (enc_state s) (Ret (N (enc_value v), enc_state s)) ->
  o = Panic \/ o = Ret (N unit_val, enc_state s') ->
  gives (loop (RWhile tools (EBool true) (turns t body))) (enc_state ((it_var, CIter i) :: s)) o ->
  gives (eval tools (EBlock [SLet (PBind it_var) (EMethod (stext a) "into_iter" []); SExpr (EWhile (EBool true) (turns t body))] unit_text))
    (enc_state s) (p <- o ;; Ret (fst p, pop_to (length s) (snd p))).
Proof.
  intros I A O L. rewrite eval_block, <- (size_enc s). apply (g_scoped dflt m []). cbn [app].
  eapply g_let; [eapply g_emethod1; [apply no_place_stext|exact A|apply plain_value|]; exact (o_into_iter v (Ret i) I None (enc_state s))|].
  destruct O as [-> | ->].
  - apply g_stmt_panic. exact L.
  - eapply g_stmt; [exact L|]. apply g_unit.
Qed.

Scheme brun_min := Minimality for brun Sort Prop
  with frun_min := Minimality for frun Sort Prop
  with lrun_min := Minimality for lrun Sort Prop.
Combined Scheme brun_frun_ind from brun_min, frun_min, lrun_min.

Lemma text_sound :
  (forall s b r, brun m s b r -> b_shows s b r) /\ (forall s t body r, frun m s t body r -> f_shows s t body r) /\
  (forall s body r, lrun m s body r -> l_shows s body r).
Proof.
  assert (Ba : forall s a v, sval s a = done v -> gives (eval tools (stext a)) (enc_state s) (Ret (N (enc_value v), enc_state s))).
  { intros s a v E. pose proof (shows_sval s a) as H. rewrite E in H. exact H. }
  assert (Bp : forall s a, sval s a = Some Panic -> gives (eval tools (stext a)) (enc_state s) Panic).
  { intros s a E. pose proof (shows_sval s a) as H. rewrite E in H. exact H. }
  assert (Ca : forall s c t, cval_of s c = done t -> gives (eval tools (ctext c)) (enc_state s) (Ret (N (DBool t), enc_state s))).
  { intros s c t E. pose proof (shows_cond s c) as H. rewrite E in H. exact H. }
  assert (Cp : forall s c, cval_of s c = Some Panic -> gives (eval tools (ctext c)) (enc_state s) Panic).
  { intros s c E. pose proof (shows_cond s c) as H. rewrite E in H. exact H. }
  assert (If1 : forall s c (t : bool) b1 b2 o, cval_of s c = done t ->
     gives (eval tools (EBlock (btext (if t then b1 else b2)) unit_text)) (enc_state s) o ->
     gives (eval tools (EIf (ctext c) (EBlock (btext b1) unit_text) (EBlock (btext b2) unit_text))) (enc_state s) o).
  { intros s c t b1 b2 o E H. remember (EBlock (btext b1) unit_text) as x1. remember (EBlock (btext b2) unit_text) as x2.
    cbn [RustEval.eval]. eapply g_bind; [apply Ca, E|]. eapply g_bind; [apply g_ret|]. apply g_branch. subst. destruct t; exact H. }
  assert (Ch : forall (o : option T) b1 b2, (match o with Some _ => EBlock (btext b1) unit_text | None => EBlock (btext b2) unit_text end) = EBlock (btext (chosen o b1 b2)) unit_text) by (now intros []).
  apply brun_frun_ind.
  - (* end *) intros s a o H. exact H.
  - (* break *) intros s a. cbn [btext]. apply g_stmt_break. intros P HP k K. exact K.
  - (* let *) intros s x a v b r E R IH. destruct r as [[[[] s']| |]|]; cbn [b_shows btext] in *; auto; intros; (eapply g_let; [apply Ba, E|]); try apply IH; auto.
  - intros s x a b r F. inversion F as [E|E]; subst; [|exact Logic.I]. intros a'. cbn [btext]. apply g_stmt_panic. apply Bp. congruence.
  - (* put *) intros s x a w v b r E G R IH.
    assert (As : gives (eval tools (EAssign (EVar x) (stext a))) (enc_state s) (Ret (N unit_val, enc_state (set x (CSet v) s)))).
    { cbn [RustEval.eval]. eapply g_bind; [apply Ba, E|]. eapply g_bind; [apply g_get|].
      eapply g_bind; [apply (g_opt dflt m (x, []))|].
      - cbn [place]. rewrite assoc_enc, G. cbn [option_map enc_cval]. pose proof (plain_value w) as V. destruct (enc_value w); try destruct V; reflexivity.
      - eapply g_bind; [exact (g_assign x _ (CSet v) s G)|]. apply g_ret. }
    destruct r as [[[[] s']| |]|]; cbn [b_shows btext] in *; auto; intros; (eapply g_stmt; [exact As|]); try apply IH; auto.
  - intros. exact Logic.I.
  - intros s x a b r F. inversion F as [E|E]; subst; [|exact Logic.I]. intros a'. cbn [btext]. apply g_stmt_panic.
    cbn [RustEval.eval]. apply g_bind_panic, Bp. congruence.
  - (* if *) intros s c t b1 b2 s' b r E _ IH1 _ IH2. apply b_block in IH1. cbn beta iota in IH1.
    pose proof (If1 s c t b1 b2 _ E IH1) as St.
    destruct r as [[[[] s2]| |]|]; cbn [b_shows btext] in *; auto; intros; (eapply g_stmt; [exact St|]); try apply IH2; auto.
  - intros s c t b1 b2 s' b E _ IH1. apply b_block in IH1. cbn beta iota in IH1. intros a. cbn [btext]. apply g_stmt_break.
    exact (If1 s c t b1 b2 _ E IH1).
  - intros s c t b1 b2 b r0 r E _ IH1 F. apply b_block in IH1. inversion F; subst; [|exact Logic.I]. cbn beta iota in IH1. intros a. cbn [btext].
    apply g_stmt_panic. exact (If1 s c t b1 b2 _ E IH1).
  - intros s c b1 b2 b r F. inversion F as [E|E]; subst; [|exact Logic.I]. intros a'. cbn [btext]. apply g_stmt_panic.
    cbn [RustEval.eval]. apply g_bind_panic, Cp. congruence.
  - (* for *) intros s t a v i body s' b r E I _ IHf _ IHb. cbn [f_shows done] in IHf.
    pose proof (g_for t body i s a s' v _ I (Ba _ _ _ E) (or_intror eq_refl) (g_loop dflt m (RWhile tools (EBool true) (turns t body)) _ _ _ IHf)) as St.
    cbn [bind fst snd] in St. rewrite pop_enc in St.
    destruct r as [[[[] s2]| |]|]; cbn [b_shows btext] in *; auto; intros; (eapply g_stmt; [exact St|]); try apply IHb; auto.
  - intros s t a v i body b r0 r E I _ IHf F. inversion F; subst; [|exact Logic.I]. cbn [f_shows] in IHf. intros a'. cbn [btext]. apply g_stmt_panic.
    exact (g_for t body i s a s v _ I (Ba _ _ _ E) (or_introl eq_refl) (g_loop_panic dflt m (RWhile tools (EBool true) (turns t body)) _ IHf)).
  - intros s t a v body b r E F. inversion F as [I|I]; subst; [|exact Logic.I]. intros a'. cbn [btext]. apply g_stmt_panic. rewrite eval_block.
    apply (g_scoped dflt m [] _ _ Panic). apply g_stmt_panic.
    eapply g_emethod1; [apply no_place_stext|exact (Ba _ _ _ E)|apply plain_value|]. exact (o_into_iter v Panic (eq_sym I) None (enc_state s)).
  - intros s t a body b r F. inversion F as [E|E]; subst; [|exact Logic.I]. intros a'. cbn [btext]. apply g_stmt_panic. rewrite eval_block.
    apply (g_scoped dflt m [] _ _ Panic). apply g_stmt_panic. apply g_emethod1_panic; [apply no_place_stext|]. apply Bp. congruence.
  - (* loop *) intros s body s' b r _ IHl _ IHb. cbn [l_shows done] in IHl.
    pose proof (g_loop dflt m (RWhile tools (EBool true) (EBlock (btext body) unit_text)) _ _ _ IHl) as St.
    destruct r as [[[[] s2]| |]|]; cbn [b_shows btext] in *; auto; intros; (eapply g_stmt; [exact St|]); try apply IHb; auto.
  - intros s body b r0 r _ IHl F. inversion F; subst; [|exact Logic.I]. cbn [l_shows] in IHl. intros a'. cbn [btext]. apply g_stmt_panic.
    exact (g_loop_panic dflt m (RWhile tools (EBool true) (EBlock (btext body) unit_text)) _ IHl).
  - (* into_iter *) intros s x a v i b r E I _ IH.
    assert (St : gives (eval tools (EMethod (stext a) "into_iter" [])) (enc_state s) (Ret (N (enc_iter i), enc_state s))).
    { eapply g_emethod1; [apply no_place_stext|exact (Ba _ _ _ E)|apply plain_value|]. exact (o_into_iter v (Ret i) I None (enc_state s)). }
    destruct r as [[[[] s2]| |]|]; cbn [b_shows btext] in *; auto; intros; (eapply g_let; [exact St|]); try apply IH; auto.
  - intros s x a v b r E F. inversion F as [I|I]; subst; [|exact Logic.I]. intros a'. cbn [btext]. apply g_stmt_panic.
    eapply g_emethod1; [apply no_place_stext|exact (Ba _ _ _ E)|apply plain_value|]. exact (o_into_iter v Panic (eq_sym I) None (enc_state s)).
  - intros s x a b r F. inversion F as [E|E]; subst; [|exact Logic.I]. intros a'. cbn [btext]. apply g_stmt_panic.
    apply g_emethod1_panic; [apply no_place_stext|]. apply Bp. congruence.
  - (* next *) intros s k t x b1 b2 i o i' s' b r G Nx _ IH1 _ IH2.
    pose proof (g_branches k t x b1 b2 i o i' s _ G Nx _ _ (Ch o b1 b2) IH1) as St. cbn beta iota in St.
    destruct r as [[[[] s2]| |]|]; cbn [b_shows btext] in *; auto; intros; (eapply g_stmt; [exact St|]); try apply IH2; auto.
  - intros s k t x b1 b2 i o i' s' b G Nx _ IH1.
    pose proof (g_branches k t x b1 b2 i o i' s _ G Nx _ _ (Ch o b1 b2) IH1) as St. cbn beta iota in St.
    intros a. cbn [btext]. apply g_stmt_break. exact St.
  - intros s k t x b1 b2 i o i' b r0 r G Nx _ IH1 F. inversion F; subst; [|exact Logic.I].
    pose proof (g_branches k t x b1 b2 i o i' s _ G Nx _ _ (Ch o b1 b2) IH1) as St. cbn beta iota in St.
    intros a. cbn [btext]. apply g_stmt_panic. exact St.
  - intros s k t x b1 b2 i b r G F. inversion F as [I|I]; subst; [|exact Logic.I]. intros a'. cbn [btext]. apply g_stmt_panic.
    exact (g_match_panic k t x _ _ i s G (eq_sym I)).
  - intros. exact Logic.I.
  - (* turns *) intros s t body i i' G Nx. cbn [f_shows done]. eapply r_while; [exact (g_turn_none s t body i i' G Nx)|]. constructor.
  - intros s t body i x i' s' r G Nx _ IHb _ IHf. pose proof (g_turn s t body i x i' _ G Nx IHb) as Tn. cbn beta iota in Tn.
    destruct r as [[s2| |]|]; cbn [f_shows done] in *; auto; (eapply r_while; [exact Tn|]); [eapply runs_call; [exact IHf|constructor]|now apply runs_call_pan].
  - intros s t body i x i' s' G Nx _ IHb. pose proof (g_turn s t body i x i' _ G Nx IHb) as Tn. cbn beta iota in Tn.
    cbn [f_shows done]. eapply r_while; [exact Tn|]. constructor.
  - intros s t body i x i' r0 r G Nx _ IHb F. pose proof (g_turn s t body i x i' _ G Nx IHb) as Tn. inversion F; subst; [|exact Logic.I].
    cbn beta iota in Tn. now apply r_while_panic.
  - intros s t body i G Nx. cbn [f_shows]. apply r_while_panic. apply (g_match_panic false t it_var _ _ i s G). cbn [take]. now rewrite Nx.
  - intros. exact Logic.I.
  - (* turns of a loop *) intros s body s' r _ IHb _ IHl. apply b_block in IHb. cbn beta iota in IHb.
    destruct r as [[s2| |]|]; cbn [l_shows done] in *; auto; (eapply r_while; [exact IHb|]); [eapply runs_call; [exact IHl|constructor]|now apply runs_call_pan].
  - intros s body s' _ IHb. apply b_block in IHb. cbn beta iota in IHb. cbn [l_shows done]. eapply r_while; [exact IHb|]. constructor.
  - intros s body r0 r _ IHb F. apply b_block in IHb. inversion F; subst; [|exact Logic.I]. cbn beta iota in IHb. now apply r_while_panic.
Qed.
End Prog.
