(** Programs that use the iterators, conversions and [Step]: expressions of Rust text, run by RustEval.v on the
    translated source, give what the model functions give. *)
From Coq Require Import String.
From Verif Require Import Base ModelBound ModelRanges ModelSets ModelAlgebra ModelValue ModelStep ModelIter ModelConv
  RustSyntax Source RustEval RustEnc RustTac RustRange RustSet RustSays RustIter RustIterSet RustIterLast RustStep RustStepChar.
Open Scope Z_scope.
Open Scope string_scope.
Open Scope list_scope.

Section Does.
Context {T : Type} {PF : Platform} {OT : Ord T} {ST : Step T} (dflt : option T) (m : mode).

(** The expression [x], where [e] has the variables and the traits [sc] are in
    scope, ends with a value and the variables as they then are, or panics. *)
Definition does (sc : list string) (x : RustSyntax.expr) (e : env T) (o : outcome (val T * env T)) : Prop :=
  runs dflt m (RustEval.eval dflt m sc x e (fun r e' => match r with N v => Done (AEnv (N v) e') | _ => Stuck end))
    (p <- o ;; Ret (AEnv (N (fst p)) (snd p))).
Definition does_ (sc : list string) (x : RustSyntax.expr) (e : env T) (o : outcome (val T * env T)) : Prop :=
  ends dflt m (RustEval.eval dflt m sc x e (fun r e' => match r with N v => Done (AEnv (N v) e') | _ => Stuck end))
    (p <- o ;; Ret (AEnv (N (fst p)) (snd p))).
Lemma does_of sc x e o : o <> Diverge -> does_ sc x e o -> does sc x e o.
Proof. unfold does_, does, ends. destruct o; auto. congruence. Qed.

(** The text of a call on the variable [i], with the argument in [n]. *)
Definition text (c : ModelIter.call) : RustSyntax.expr :=
  match c with
  | Next => EMethod (EVar "i") "next" []
  | NextBack => EMethod (EVar "i") "next_back" []
  | Nth _ => EMethod (EVar "i") "nth" [EVar "n"]
  | NthBack _ => EMethod (EVar "i") "nth_back" [EVar "n"]
  | Len => EMethod (EVar "i") "len" []
  end.
Definition arg_of (c : ModelIter.call) : Z := match c with Nth n | NthBack n => n | _ => 0 end.
Definition enc_reply (r : reply T) : val T :=
  match r with Item o => enc_opt (@DElt T) o | Count n => DInt "usize" n end.
Definition vars {S : Type} (enc : S -> val T) (s : S) (n : Z) : env T := [("i", enc s); ("n", DInt "usize" n)].

Lemma d_bri_call i c :
  does_ [] (text c) (vars enc_bri i (arg_of c)) (p <- bri_call m i c ;; Ret (enc_reply (fst p), vars enc_bri (snd p) (arg_of c))).
Proof. unfold does_, bri_call, item, vars. destruct c; cbn [text arg_of]; runs_. Qed.
Lemma d_bsi_call i c :
  does_ [] (text c) (vars enc_bsi i (arg_of c)) (p <- bsi_call m i c ;; Ret (enc_reply (fst p), vars enc_bsi (snd p) (arg_of c))).
Proof. unfold does_, bsi_call, item, vars. destruct c; cbn [text arg_of]; runs_. Qed.
Definition up_text (c : up_call) : RustSyntax.expr :=
  match c with UpNext => EMethod (EVar "i") "next" [] | UpNth _ => EMethod (EVar "i") "nth" [EVar "n"] end.
Definition up_arg (c : up_call) : Z := match c with UpNth n => n | UpNext => 0 end.
Lemma d_lbri_call i c :
  does_ [] (up_text c) (vars enc_lbri i (up_arg c))
    (p <- lbri_call m i c ;; Ret (enc_opt (@DElt T) (fst p), vars enc_lbri (snd p) (up_arg c))).
Proof. unfold does_, lbri_call, vars. destruct c; cbn [up_text up_arg]; runs_. Qed.
Lemma d_lbsi_call i c :
  does_ [] (up_text c) (vars enc_lbsi i (up_arg c))
    (p <- lbsi_call m i c ;; Ret (enc_opt (@DElt T) (fst p), vars enc_lbsi (snd p) (up_arg c))).
Proof. unfold does_, lbsi_call, vars. destruct c; cbn [up_text up_arg]; runs_. Qed.

Notation says_ := (says_ dflt m).
Notation on n := (EMethod (EVar "i") n []).
Lemma s_bri_size_hint i : says_ [] (on "size_hint") [("i", enc_bri i)] (h <- bri_size_hint m i ;; Ret (enc_hint h)).
Proof. unfold says_. runs_. Qed.
Lemma s_bsi_size_hint i : says_ [] (on "size_hint") [("i", enc_bsi i)] (h <- bsi_size_hint m i ;; Ret (enc_hint h)).
Proof. unfold says_. runs_. Qed.
Lemma s_lbri_size_hint i : says_ [] (on "size_hint") [("i", enc_lbri i)] (Ret (enc_hint (lbri_size_hint i))).
Proof. unfold says_. runs_. Qed.
Lemma s_lbsi_size_hint i : says_ [] (on "size_hint") [("i", enc_lbsi i)] (Ret (enc_hint (lbsi_size_hint i))).
Proof. unfold says_. runs_. Qed.
Lemma s_bri_count i : says_ [] (on "count") [("i", enc_bri i)] (n <- bri_count m i ;; Ret (DInt "usize" n)).
Proof. unfold says_. runs_. Qed.
Lemma s_bsi_count i : says_ [] (on "count") [("i", enc_bsi i)] (n <- bsi_count m i ;; Ret (DInt "usize" n)).
Proof. unfold says_. runs_. Qed.
Lemma s_bri_min i : says_ [] (on "min") [("i", enc_bri i)] (v <- bri_min m i ;; Ret (enc_opt (@DElt T) v)).
Proof. unfold says_. runs_. Qed.
Lemma s_bri_max i : says_ [] (on "max") [("i", enc_bri i)] (v <- bri_max m i ;; Ret (enc_opt (@DElt T) v)).
Proof. unfold says_. runs_. Qed.
Lemma s_bri_last i : says_ [] (on "last") [("i", enc_bri i)] (Ret (enc_opt (@DElt T) (bri_last i))).
Proof. unfold says_. runs_. Qed.
Lemma s_bsi_min i : says_ [] (on "min") [("i", enc_bsi i)] (v <- bsi_min m i ;; Ret (enc_opt (@DElt T) v)).
Proof. unfold says_. runs_. Qed.
Lemma s_bsi_max i : says_ [] (on "max") [("i", enc_bsi i)] (v <- bsi_max m i ;; Ret (enc_opt (@DElt T) v)).
Proof. unfold says_. runs_. Qed.
Lemma s_bsi_last i o : bsi_last m i o -> says_ [] (on "last") [("i", enc_bsi i)] (v <- o ;; Ret (enc_opt (@DElt T) v)).
Proof. intros B. pose proof (fun f => c_bsi_last dflt m i o f B) as C. clear B. unfold says_. runs_. Qed.
Lemma s_lbri_min i : says_ [] (on "min") [("i", enc_lbri i)] (v <- lbri_min m i ;; Ret (enc_opt (@DElt T) v)).
Proof. unfold says_. runs_. Qed.
Lemma s_lbsi_min i : says_ [] (on "min") [("i", enc_lbsi i)] (v <- lbsi_min m i ;; Ret (enc_opt (@DElt T) v)).
Proof. unfold says_. runs_. Qed.

Lemma s_br_into_iter r : says_ [] (on "into_iter") [("i", enc_br r)] (x <- br_into_iter m r ;; Ret (enc_bri x)).
Proof. unfold says_. runs_. Qed.
Lemma s_bs_into_iter r : says_ [] (on "into_iter") [("i", enc_bs r)] (x <- bs_into_iter m r ;; Ret (enc_bsi x)).
Proof. unfold says_. runs_. Qed.
Lemma s_lbr_into_iter r : says_ [] (on "into_iter") [("i", enc_lbr r)] (x <- lbr_into_iter m r ;; Ret (enc_lbri x)).
Proof. unfold says_. runs_. Qed.
Lemma s_lbs_into_iter r : says_ [] (on "into_iter") [("i", enc_lbs r)] (x <- lbs_into_iter m r ;; Ret (enc_lbsi x)).
Proof. unfold says_. runs_. Qed.

(** [Range::from(a)] and the like. *)
Notation of ty := (ECall ty "from" [EVar "a"]).
Lemma s_range_from_br r : says_ [] (of "Range") [("a", enc_br r)] (x <- range_from_br m r ;; Ret (enc_range x)).
Proof. unfold says_. runs_. Qed.
Lemma s_ri_from_br r : says_ [] (of "RangeInclusive") [("a", enc_br r)] (x <- range_inclusive_from_br m r ;; Ret (enc_ri x)).
Proof. unfold says_. runs_. Qed.
Lemma s_rf_from_lbr r : says_ [] (of "RangeFrom") [("a", enc_lbr r)] (x <- range_from_from_lbr m r ;; Ret (enc_rf x)).
Proof. unfold says_. runs_. Qed.
Lemma s_rt_from_ubr r : says_ [] (of "RangeTo") [("a", enc_ubr r)] (x <- range_to_from_ubr m r ;; Ret (enc_rt x)).
Proof. unfold says_. runs_. Qed.
Lemma s_rti_from_ubr r : says_ [] (of "RangeToInclusive") [("a", enc_ubr r)] (x <- range_to_inclusive_from_ubr m r ;; Ret (enc_rti x)).
Proof. unfold says_. runs_. Qed.
Lemma s_rfull_from_unbr r : says_ [] (of "RangeFull") [("a", enc_unbr r)] (Ret (enc_rfull (range_full_from_unbr r))).
Proof. unfold says_. runs_. Qed.
Lemma s_br_from_range r : says_ [] (of "BoundedRange") [("a", enc_range r)] (Ret (enc_br (br_from_range r))).
Proof. unfold says_. runs_. Qed.
Lemma s_br_from_ri r : says_ [] (of "BoundedRange") [("a", enc_ri r)] (Ret (enc_br (br_from_range_inclusive r))).
Proof. unfold says_. runs_. Qed.
Lemma s_lbr_from_rf r : says_ [] (of "LowerBoundedRange") [("a", enc_rf r)] (Ret (enc_lbr (lbr_from_range_from r))).
Proof. unfold says_. runs_. Qed.
Lemma s_ubr_from_rt r : says_ [] (of "UpperBoundedRange") [("a", enc_rt r)] (Ret (enc_ubr (ubr_from_range_to r))).
Proof. unfold says_. runs_. Qed.
Lemma s_ubr_from_rti r : says_ [] (of "UpperBoundedRange") [("a", enc_rti r)] (Ret (enc_ubr (ubr_from_range_to_inclusive r))).
Proof. unfold says_. runs_. Qed.
Lemma s_unbr_from_rfull r : says_ [] (of "UnboundedRange") [("a", enc_rfull r)] (Ret (enc_unbr (unbr_from_range_full r))).
Proof. unfold says_. runs_. Qed.
Lemma s_bs_from_br r : says_ [] (of "BoundedSet") [("a", enc_br r)] (Ret (enc_bs (bs_from_br r))).
Proof. unfold says_. runs_. Qed.
Lemma s_lbs_from_lbr r : says_ [] (of "LowerBoundedSet") [("a", enc_lbr r)] (Ret (enc_lbs (lbs_from_lbr r))).
Proof. unfold says_. runs_. Qed.
Lemma s_ubs_from_ubr r : says_ [] (of "UpperBoundedSet") [("a", enc_ubr r)] (Ret (enc_ubs (ubs_from_ubr r))).
Proof. unfold says_. runs_. Qed.
Lemma s_us_from_unbr r : says_ [] (of "UnboundedSet") [("a", enc_unbr r)] (Ret (enc_us (us_from_unbr r))).
Proof. unfold says_. runs_. Qed.
End Does.

Section Default.
Context {T : Type} {PF : Platform} {OT : Ord T} {ST : Step T} {DT : Default T} (m : mode).
Notation says_ := (says_ (Some (default (T := T))) m).
Lemma s_range_from_empty r : says_ [] (ECall "Range" "from" [EVar "a"]) [("a", enc_empty r)] (Ret (enc_range (range_from_empty (T := T) r))).
Proof. unfold says_. node; eapply ends_call; [apply c_range_from_empty | after_call; run]. Qed.
Lemma s_ri_from_empty r : says_ [] (ECall "RangeInclusive" "from" [EVar "a"]) [("a", enc_empty r)]
  (x <- range_inclusive_from_empty (T := T) m r ;; Ret (enc_ri x)).
Proof. unfold says_. destruct r. node; eapply ends_call; [apply c_ri_from_empty | after_call; node; past]. Qed.
End Default.

(** [Step::forward(a, n)] and the like, on integers and chars. *)
Section Steps.
Context {T : Type} {OT : Ord T} {ST : Step T} (dflt : option T) (m : mode).
Notation step n b := (ECall "Step" n [EVar "a"; EVar b]).
Ltac by_int := unfold says_, enc_int in *; widths; lazymatch goal with ty : ity |- _ => destruct ty end; cbn [int_name] in *;
  lazymatch goal with C : calls _ _ _ ?o |- _ => node; eapply ends_call; [apply C|];
    lazymatch o with bind ?e _ => destruct e | _ => idtac end; after_call; run end.
Lemma s_int_forward {PF : Platform} ty (x : mint ty) n :
  says_ dflt m ["Step"] (step "forward" "n") [("a", enc_int x); ("n", DInt "usize" n)] (y <- forward m x n ;; Ret (enc_int y)).
Proof. pose proof (i_forward dflt m ty x n) as C. by_int. Qed.
Lemma s_int_backward {PF : Platform} ty (x : mint ty) n :
  says_ dflt m ["Step"] (step "backward" "n") [("a", enc_int x); ("n", DInt "usize" n)] (y <- backward m x n ;; Ret (enc_int y)).
Proof. pose proof (i_backward dflt m ty x n) as C. by_int. Qed.
Lemma s_int_forward_checked {PF : Platform} ty (x : mint ty) n :
  says_ dflt m ["Step"] (step "forward_checked" "n") [("a", enc_int x); ("n", DInt "usize" n)] (Ret (enc_opt enc_int (forward_checked x n))).
Proof. pose proof (i_forward_checked dflt m ty x n) as C. by_int. Qed.
Lemma s_int_backward_checked {PF : Platform} ty (x : mint ty) n :
  says_ dflt m ["Step"] (step "backward_checked" "n") [("a", enc_int x); ("n", DInt "usize" n)] (Ret (enc_opt enc_int (backward_checked x n))).
Proof. pose proof (i_backward_checked dflt m ty x n) as C. by_int. Qed.
Lemma s_int_steps_between {PF : Platform} ty (x y : mint ty) :
  says_ dflt m ["Step"] (step "steps_between" "b") [("a", enc_int x); ("b", enc_int y)] (Ret (enc_opt (@DInt T "usize") (steps_between x y))).
Proof. pose proof (i_steps_between dflt m ty x y) as C. by_int. Qed.

Ltac by_chr C := unfold says_, enc_chr in *; (node; eapply ends_call; [apply C|]; after_call; run).
Context {PF : Platform}.
Lemma s_chr_forward c n : 0 <= n <= usize_max ->
  says_ dflt m ["Step"] (step "forward" "n") [("a", enc_chr c); ("n", DInt "usize" n)] (y <- forward m c n ;; Ret (enc_chr y)).
Proof. intros L. pose proof (h_forward dflt m c n L) as C. by_chr C. Qed.
Lemma s_chr_backward c n : 0 <= n <= usize_max ->
  says_ dflt m ["Step"] (step "backward" "n") [("a", enc_chr c); ("n", DInt "usize" n)] (y <- backward m c n ;; Ret (enc_chr y)).
Proof. intros L. pose proof (h_backward dflt m c n L) as C. by_chr C. Qed.
Lemma s_chr_forward_checked c n : 0 <= n <= usize_max ->
  says_ dflt m ["Step"] (step "forward_checked" "n") [("a", enc_chr c); ("n", DInt "usize" n)] (Ret (enc_opt enc_chr (forward_checked c n))).
Proof. intros L. pose proof (h_forward_checked dflt m c n L) as C. by_chr C. Qed.
Lemma s_chr_backward_checked c n : 0 <= n <= usize_max ->
  says_ dflt m ["Step"] (step "backward_checked" "n") [("a", enc_chr c); ("n", DInt "usize" n)] (Ret (enc_opt enc_chr (backward_checked c n))).
Proof. intros L. pose proof (h_backward_checked dflt m c n L) as C. by_chr C. Qed.
Lemma s_chr_steps_between c d :
  says_ dflt m ["Step"] (step "steps_between" "b") [("a", enc_chr c); ("b", enc_chr d)] (Ret (enc_opt (@DInt T "usize") (steps_between c d))).
Proof. pose proof (h_steps_between dflt m c d) as C. by_chr C. Qed.
End Steps.
