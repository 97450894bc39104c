(** The programs of ClientProg.v that never end: the text of a program for which the
    model has no outcome uses up any fuel. *)
From Coq Require Import String Lia.
From Verif Require Import Base ModelBound ModelRanges ModelSets ModelAlgebra ModelValue ModelStep ModelIter
  RustSyntax Source RustEval RustEnc RustTac RustRuns RustSays RustForever RustGives ClientProg RustProg
  PropertiesMore PropertiesSource2.
Open Scope Z_scope.
Open Scope string_scope.
Open Scope list_scope.

Section Ends.
Context {T : Type} {PF : Platform} {OT : Ord T} {ST : Step T} (dflt : option T) (m : mode) (SE : steps_end T m).
Notation stays := (stays dflt m).
Notation answer := (answer dflt m).
Notation eval := (RustEval.eval dflt m).
Notation gives := (gives dflt m).
Notation stmts := (stmts dflt m).
Notation tools := ["Rangetools"].

(** In the model: no part of a program hangs. *)
Lemma andthen_ends {A B} (x : result A) (f : A -> result B) : x <> Some Diverge -> (forall a, f a <> Some Diverge) -> andthen x f <> Some Diverge.
Proof. destruct x as [[a| |]|]; cbn; intros H K; congruence || apply K. Qed.
Lemma some_ends {A} (o : outcome A) : o <> Diverge -> Some o <> Some Diverge.
Proof. congruence. Qed.
Lemma elt_ends (s : state T) x : elt s x <> Some Diverge.
Proof. unfold elt. destruct (get x s) as [[]|]; discriminate. Qed.
Lemma sval_ends (s : state T) a : sval s a <> Some Diverge.
Proof.
  induction a as [x|x y|x y|x|x|x| |a IHa b IHb|a IHa b IHb|a IHa|a IHa|a IHa]; cbn [sval];
    repeat (apply andthen_ends; [first [assumption|apply elt_ends]|intros ?]); try discriminate.
  - destruct (get x s) as [[]|]; discriminate.
  - apply some_ends. apply C52_no_hang.
  - apply some_ends. apply C52_no_hang.
  - apply some_ends. apply (C52_no_hang T OT a0 a0).
Qed.
Lemma cond_ends (s : state T) c : cval_of s c <> Some Diverge.
Proof.
  induction c as [a|a x|a b|a b|x y|x y|c IH|c IHc d IHd|c IHc d IHd]; cbn [cval_of];
    repeat (apply andthen_ends; [first [assumption|apply elt_ends|apply sval_ends]|intros ?]); try discriminate.
  - apply some_ends. apply C52_no_hang.
  - apply some_ends. apply C52_no_hang.
  - destruct a; [assumption|discriminate].
  - destruct a; [discriminate|assumption].
Qed.
Lemma into_iter_ends (v : value T) : into_iter m v <> Some Diverge.
Proof.
  destruct v as [| | | | | |r|r| | | |s|s| |]; cbn [into_iter]; try discriminate; apply some_ends; apply nd_bind; try discriminate.
  - apply nd_br_into_iter, SE.
  - apply nd_lbr_into_iter, SE.
  - apply nd_bs_into_iter, SE.
  - apply nd_lbs_into_iter, SE.
Qed.
Lemma next_ends (i : iter T) : next m i <> Diverge.
Proof.
  destruct i as [i|i|i|i]; cbn [next]; apply nd_bind; try discriminate.
  - apply nd_bri_next, SE.
  - apply nd_bsi_next, SE.
  - apply nd_lbri_next, SE.
  - apply nd_lbsi_next, SE.
Qed.
Lemma take_ends k (i : iter T) : take m k i <> Some Diverge.
Proof.
  destruct k; cbn [take]; [|apply some_ends, next_ends]. destruct i as [i|i|i|i]; cbn [next_back]; try discriminate; apply some_ends, nd_bind; try discriminate.
  - apply nd_bri_next_back, SE.
  - apply nd_bsi_next_back, SE.
Qed.
Lemma runs_end : (forall s b r, brun m s b r -> r <> Some Diverge) /\ (forall s t body r, frun m s t body r -> r <> Some Diverge) /\
  (forall s body r, lrun m s body r -> r <> Some Diverge).
Proof.
  assert (F : forall (A B : Type) (x : result A) (r : result B), fails x r -> r <> Some Diverge) by (intros A B x r []; discriminate).
  apply brun_frun_ind; intros; try discriminate; eauto.
Qed.

(** In the text. *)
Lemma st_gives f {A : Type} (c : M A) e r e' k : gives c e (Ret (r, e')) -> stays f (k r e') -> stays f (c e k).
Proof. intros G. exact (G (stays f) (passes_stays dflt m f) k). Qed.
Lemma st_stmt f a t l v e e1 : gives (eval tools t) e (Ret (N v, e1)) -> (forall k, stays f (stmts tools a l e1 k)) ->
  forall k, stays f (stmts tools a (SExpr t :: l) e k).
Proof. intros G H k. cbn [RustProg.stmts]. unfold bindM. eapply st_gives; [exact G|]. apply H. Qed.
Lemma st_let f a x t l v e e1 : gives (eval tools t) e (Ret (N v, e1)) -> (forall k, stays f (stmts tools a l ((x, v) :: e1) k)) ->
  forall k, stays f (stmts tools a (SLet (PBind x) t :: l) e k).
Proof. intros G H k. cbn [RustProg.stmts]. unfold bindM. eapply st_gives; [exact G|]. cbn [pmatch opt ret]. rewrite force_eq. apply H. Qed.
Lemma st_in f a p t l e : (forall k, stays f (eval tools t e k)) -> forall k, stays f (stmts tools a ((p, t) :: l) e k).
Proof. intros H k. cbn [RustProg.stmts]. destruct p; unfold bindM; apply H. Qed.
Lemma st_block f a l e : (forall k, stays f (stmts tools a l e k)) -> forall k, stays f (eval tools (EBlock l a) e k).
Proof. intros H k. rewrite eval_block. unfold scoped. rewrite force_eq. apply H. Qed.

Definition b_stays (f : nat) (s : state T) (b : block) : Prop := forall a k, stays f (stmts tools a (btext b) (enc_state s) k).
Definition f_stays (f : nat) (s : state T) (t : string) (body : block) : Prop :=
  stays f (answer (RWhile tools (EBool true) (turns t body) (enc_state s))).
Definition l_stays (f : nat) (s : state T) (body : block) : Prop :=
  stays f (answer (RWhile tools (EBool true) (EBlock (btext body) unit_text) (enc_state s))).
Definition l_total (f : nat) : Prop := forall s body, (exists r, lrun m s body r) \/ l_stays f s body.
Definition b_total (f : nat) : Prop := forall s b, (exists r, brun m s b r) \/ b_stays f s b.
Definition f_total (f : nat) : Prop := forall s t body, (exists r, frun m s t body r) \/ f_stays f s t body.

Lemma sval_gives s a v : sval s a = done v -> gives (eval tools (stext a)) (enc_state s) (Ret (N (enc_value v), enc_state s)).
Proof. intros E. pose proof (shows_sval dflt m s a) as H. rewrite E in H. exact H. Qed.
Lemma cond_gives s c t : cval_of s c = done t -> gives (eval tools (ctext c)) (enc_state s) (Ret (N (DBool t), enc_state s)).
Proof. intros E. pose proof (shows_cond dflt m s c) as H. rewrite E in H. exact H. Qed.
Lemma assign_gives s x a v w : sval s a = done v -> get x s = Some (CSet w) ->
  gives (eval tools (EAssign (EVar x) (stext a))) (enc_state s) (Ret (N unit_val, enc_state (set x (CSet v) s))).
Proof.
  intros E G. cbn [RustEval.eval]. eapply g_bind; [apply sval_gives, E|]. eapply g_bind; [apply g_get|].
  eapply g_bind; [apply (g_opt dflt m (x, []))|].
  - cbn [place]. rewrite assoc_enc, G. cbn [option_map enc_cval]. pose proof (plain_value w) as V. destruct (enc_value w); try destruct V; reflexivity.
  - eapply g_bind; [exact (g_assign dflt m x _ (CSet v) s G)|]. apply g_ret.
Qed.
Lemma st_match f k t x e1 e2 i o i' s : get x s = Some (CIter i) -> take m k i = done (o, i') ->
  (forall q, stays f (eval tools (match o with Some _ => e1 | None => e2 end) (enc_state (taken x t o i' s)) q)) ->
  forall q, stays f (eval tools (next_text k t x e1 e2) (enc_state s) q).
Proof.
  intros G Nx K q. pose proof (g_take dflt m k x i s _ G Nx) as H. cbn [bind fst snd] in H. unfold next_text.
  remember (EMethod (EVar x) (next_name k) []) as sc eqn:Esc. cbn [RustEval.eval].
  unfold bindM at 1. eapply st_gives; [exact H|]. clear Esc H.
  destruct o as [y|]; cbn [taken] in K; cbn [bindM deref ret enc_opt some_val none_val pmatch ref_path omap assoc String.eqb Ascii.eqb Bool.eqb cat].
  - unfold scoped. rewrite force_eq. apply K.
  - unfold scoped. rewrite force_eq. apply K.
Qed.
Lemma b_total_of f : f_total (pred f) -> l_total (pred f) -> b_total f.
Proof.
  intros FT LT s b. revert s. induction b as [| |x a b IH|x a b IH|c b1 IH1 b2 IH2 b IH|t a body _ b IH|body _ b IH|x a b IH|k t x b1 IH1 b2 IH2 b IH]; intros s.
  - left. eexists. constructor.
  - left. eexists. constructor.
  - destruct (sval s a) as [[v| |]|] eqn:E.
    + destruct (IH ((x, CSet v) :: s)) as [[r R]|S]; [left; eexists; eapply b_let; eauto|right].
      intros a'. cbn [btext]. eapply st_let; [apply sval_gives, E|]. apply S.
    + left. eexists. apply b_let_fails. rewrite E. constructor.
    + now apply sval_ends in E.
    + left. eexists. apply b_let_fails. rewrite E. constructor.
  - destruct (sval s a) as [[v| |]|] eqn:E.
    + destruct (get x s) as [[w|t|i]|] eqn:G;
        [|left; eexists; eapply b_put_wrong; [exact E|rewrite G; discriminate] ..].
      destruct (IH (set x (CSet v) s)) as [[r R]|S]; [left; eexists; eapply b_put; eauto|right].
      intros a'. cbn [btext]. eapply st_stmt; [eapply assign_gives; eassumption|]. apply S.
    + left. eexists. apply b_put_fails. rewrite E. constructor.
    + now apply sval_ends in E.
    + left. eexists. apply b_put_fails. rewrite E. constructor.
  - destruct (cval_of s c) as [[t| |]|] eqn:E.
    + assert (B : (exists r, brun m s (if t then b1 else b2) r) \/ b_stays f s (if t then b1 else b2)) by (destruct t; auto).
      destruct B as [[r R]|S].
      * destruct r as [[[[] s']| |]|].
        -- destruct (IH (oldest (length s) s')) as [[r R2]|S]; [left; eexists; eapply b_if; eauto|right].
           intros a'. cbn [btext]. eapply st_stmt; [|apply S]. pose proof (b_block dflt m _ _ _ (proj1 (text_sound dflt m) _ _ _ R)) as Bb.
           cbn beta iota in Bb. remember (EBlock (btext b1) unit_text) as x1. remember (EBlock (btext b2) unit_text) as x2.
           cbn [RustEval.eval]. eapply g_bind; [apply cond_gives, E|]. eapply g_bind; [apply g_ret|]. apply g_branch. subst. destruct t; exact Bb.
        -- left. eexists. eapply b_if_break; eauto.
        -- left. eexists. eapply b_if_stop; [exact E|exact R|constructor].
        -- now apply (proj1 runs_end) in R.
        -- left. eexists. eapply b_if_stop; [exact E|exact R|constructor].
      * right. intros a'. cbn [btext]. apply st_in. intros k.
        assert (Bs : forall k, stays f (eval tools (EBlock (btext (if t then b1 else b2)) unit_text) (enc_state s) k)) by (apply st_block, S).
        remember (EBlock (btext b1) unit_text) as x1. remember (EBlock (btext b2) unit_text) as x2.
        cbn [RustEval.eval]. unfold bindM. eapply st_gives; [apply cond_gives, E|]. cbn [as_bool ret]. unfold branch. apply stays_if.
        subst. destruct t; apply Bs.
    + left. eexists. apply b_if_fails. rewrite E. constructor.
    + now apply cond_ends in E.
    + left. eexists. apply b_if_fails. rewrite E. constructor.
  - destruct (sval s a) as [[v| |]|] eqn:E.
    + destruct (into_iter m v) as [[i| |]|] eqn:I.
      * destruct (FT ((it_var, CIter i) :: s) t body) as [[r R]|S].
        -- destruct r as [[s'| |]|].
           ++ destruct (IH (oldest (length s) s')) as [[r R2]|S]; [left; eexists; eapply b_for; eauto|right].
              intros a'. cbn [btext]. pose proof (proj1 (proj2 (text_sound dflt m)) _ _ _ _ R) as F. cbn [f_shows] in F.
              pose proof (g_for dflt m t body i s a s' v _ I (sval_gives _ _ _ E) (or_intror eq_refl)
                (g_loop dflt m (RWhile tools (EBool true) (turns t body)) _ _ _ F)) as St.
              cbn [bind fst snd] in St. rewrite pop_enc in St. eapply st_stmt; [exact St|]. apply S.
           ++ left. eexists. eapply b_for_stop; [exact E|exact I|exact R|constructor].
           ++ now apply (proj1 (proj2 runs_end)) in R.
           ++ left. eexists. eapply b_for_stop; [exact E|exact I|exact R|constructor].
        -- right. intros a'. cbn [btext]. apply st_in. apply st_block. eapply st_let.
           ++ eapply g_emethod1; [apply no_place_stext|apply sval_gives, E|apply plain_value|]. exact (o_into_iter dflt m v (Ret i) I None (enc_state s)).
           ++ apply st_in. intros k. cbn [RustEval.eval]. unfold loop. apply stays_in. exact S.
      * left. eexists. eapply b_for_iter; [exact E|]. rewrite I. constructor.
      * now apply into_iter_ends in I.
      * left. eexists. eapply b_for_iter; [exact E|]. rewrite I. constructor.
    + left. eexists. apply b_for_fails. rewrite E. constructor.
    + now apply sval_ends in E.
    + left. eexists. apply b_for_fails. rewrite E. constructor.
  - destruct (LT s body) as [[r R]|S].
    + destruct r as [[s'| |]|].
      * destruct (IH s') as [[r R2]|S]; [left; eexists; eapply b_loop; eauto|right].
        intros a'. cbn [btext]. pose proof (proj2 (proj2 (text_sound dflt m)) _ _ _ R) as F. cbn [l_shows] in F.
        eapply st_stmt; [exact (g_loop dflt m (RWhile tools (EBool true) (EBlock (btext body) unit_text)) _ _ _ F)|]. apply S.
      * left. eexists. eapply b_loop_stop; [exact R|constructor].
      * now apply (proj2 (proj2 runs_end)) in R.
      * left. eexists. eapply b_loop_stop; [exact R|constructor].
    + right. intros a'. cbn [btext]. apply st_in. intros k. cbn [RustEval.eval]. unfold loop. apply stays_in. exact S.
  - destruct (sval s a) as [[v| |]|] eqn:E.
    + destruct (into_iter m v) as [[i| |]|] eqn:I.
      * destruct (IH ((x, CIter i) :: s)) as [[r R]|S]; [left; eexists; eapply b_iter; eauto|right].
        intros a'. cbn [btext]. eapply st_let.
        -- eapply g_emethod1; [apply no_place_stext|apply sval_gives, E|apply plain_value|]. exact (o_into_iter dflt m v (Ret i) I None (enc_state s)).
        -- apply S.
      * left. eexists. eapply b_iter_into; [exact E|]. rewrite I. constructor.
      * now apply into_iter_ends in I.
      * left. eexists. eapply b_iter_into; [exact E|]. rewrite I. constructor.
    + left. eexists. apply b_iter_fails. rewrite E. constructor.
    + now apply sval_ends in E.
    + left. eexists. apply b_iter_fails. rewrite E. constructor.
  - destruct (get x s) as [[v|u|i]|] eqn:G;
      [left; eexists; apply b_next_wrong; rewrite G; discriminate ..| |left; eexists; apply b_next_wrong; rewrite G; discriminate].
    destruct (take m k i) as [[[o i']| |]|] eqn:Nx.
    + assert (B : (exists r, brun m (taken x t o i' s) (chosen o b1 b2) r) \/ b_stays f (taken x t o i' s) (chosen o b1 b2)) by (destruct o; cbn [chosen]; auto).
      assert (Ch : (match o with Some _ => EBlock (btext b1) unit_text | None => EBlock (btext b2) unit_text end) = EBlock (btext (chosen o b1 b2)) unit_text) by (now destruct o).
      destruct B as [[r R]|S].
      * destruct r as [[[[] s']| |]|].
        -- destruct (IH (oldest (length s) s')) as [[r R2]|S]; [left; eexists; eapply b_next; eauto|right].
           intros a'. cbn [btext]. eapply st_stmt; [|apply S].
           exact (g_branches dflt m k t x b1 b2 i o i' s _ G Nx _ _ Ch (proj1 (text_sound dflt m) _ _ _ R)).
        -- left. eexists. eapply b_next_break; eauto.
        -- left. eexists. eapply b_next_stop; [exact G|exact Nx|exact R|constructor].
        -- now apply (proj1 runs_end) in R.
        -- left. eexists. eapply b_next_stop; [exact G|exact Nx|exact R|constructor].
      * right. intros a'. cbn [btext]. apply st_in. eapply st_match; [exact G|exact Nx|]. rewrite Ch. apply st_block, S.
    + left. eexists. eapply b_next_fails; [exact G|]. rewrite Nx. constructor.
    + now apply take_ends in Nx.
    + left. eexists. eapply b_next_fails; [exact G|]. rewrite Nx. constructor.
Qed.
Lemma st_while f body e r e' : gives (eval tools body) e (Ret (r, e')) ->
  stays f (match r with
        | N _ => Call (RWhile tools (EBool true) body e') Done
        | Brk => Done (AEnv (N unit_val) e')
        | Rtn v => Done (AEnv (Rtn v) e')
        end) ->
  stays f (answer (RWhile tools (EBool true) body e)).
Proof.
  intros G S. unfold RustEval.answer. change (eval tools (EBool true) e) with (ret (DBool (T := T) true) e). unfold ret.
  apply stays_if. eapply st_gives; [exact G|]. exact S.
Qed.
Lemma st_body f body e : (forall k, stays f (eval tools body e k)) -> stays f (answer (RWhile tools (EBool true) body e)).
Proof.
  intros S. unfold RustEval.answer. change (eval tools (EBool true) e) with (ret (DBool (T := T) true) e). unfold ret.
  apply stays_if. apply S.
Qed.
Lemma f_total_of f : f_total (pred f) -> b_total f -> f_total f.
Proof.
  intros FT BT s t body. destruct (get it_var s) as [[v|x|i]|] eqn:G;
    [left; eexists; apply f_wrong; rewrite G; discriminate ..| |left; eexists; apply f_wrong; rewrite G; discriminate].
  destruct (next m i) as [[[x|] i']| |] eqn:Nx.
  - destruct (BT ((t, CElt x) :: set it_var (CIter i') s) body) as [[r R]|S].
    + destruct r as [[[[] s']| |]|].
      * destruct (FT (oldest (length s) s') t body) as [[r R2]|S]; [left; eexists; eapply f_turn; eauto|right].
        pose proof (g_turn dflt m s t body i x i' _ G Nx (proj1 (text_sound dflt m) _ _ _ R)) as Tn. cbn beta iota in Tn.
        unfold f_stays. eapply st_while; [exact Tn|]. apply stays_in. exact S.
      * left. eexists. eapply f_break; eauto.
      * left. eexists. eapply f_stop; [exact G|exact Nx|exact R|constructor].
      * now apply (proj1 runs_end) in R.
      * left. eexists. eapply f_stop; [exact G|exact Nx|exact R|constructor].
    + right. apply st_body. assert (Tk : take m false i = done (Some x, i')) by (unfold take, done; now rewrite Nx).
      apply (st_match f false t it_var (EBlock (btext body) unit_text) EBreak i (Some x) i' s G Tk). apply st_block, S.
  - left. eexists. eapply f_end; eauto.
  - left. eexists. eapply f_panic; eauto.
  - now apply next_ends in Nx.
Qed.
Lemma l_total_of f : l_total (pred f) -> b_total f -> l_total f.
Proof.
  intros LT BT s body. destruct (BT s body) as [[r R]|S].
  - destruct r as [[[[] s']| |]|].
    + destruct (LT (oldest (length s) s') body) as [[r R2]|S]; [left; eexists; eapply r_turn; eauto|right].
      pose proof (b_block dflt m _ _ _ (proj1 (text_sound dflt m) _ _ _ R)) as Tn. cbn beta iota in Tn.
      unfold l_stays. eapply st_while; [exact Tn|]. apply stays_in. exact S.
    + left. eexists. eapply r_break; eauto.
    + left. eexists. eapply r_stop; [exact R|constructor].
    + now apply (proj1 runs_end) in R.
    + left. eexists. eapply r_stop; [exact R|constructor].
  - right. apply st_body. apply st_block, S.
Qed.
Lemma total f : b_total f /\ f_total f /\ l_total f.
Proof.
  induction f as [|f (IB & IF & IL)].
  - split; [intros s b|split; [intros s t body|intros s body]]; right; [intros a k| |]; reflexivity.
  - assert (B : b_total (S f)) by (apply b_total_of; [exact IF|exact IL]). split; [exact B|].
    split; [apply f_total_of; [exact IF|exact B]|apply l_total_of; [exact IL|exact B]].
Qed.
End Ends.
