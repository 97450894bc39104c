(** Which function a call of the source means: the search of RustEval.v takes the
    first impl that fits, and there is no other.  [apart] tells two impls of the same
    function for the same type from each other by their headers alone. *)
From Coq Require Import String List Bool.
From Verif Require Import Base ModelStep RustSyntax Source RustEval.
Import ListNotations.
Open Scope string_scope.
Open Scope list_scope.

Definition fn_names (i : impl) : list string := match i with Impl _ _ _ _ _ fs => map fn_name fs end.
(** Functions both have, other than those of the indexing traits, which no method call of the source means. *)
Definition common (i j : impl) : list string :=
  filter (fun n => if member n ["index"; "index_mut"] then false else member n (fn_names j)) (fn_names i).
Definition contrary (a b : list (string * string)) : bool :=
  existsb (fun p => existsb (fun q => if fst p =? fst q then negb (snd p =? snd q) else false) b) a.
(** Impls of one trait, with contrary constraints on the operand or [From] of different types. *)
Definition apart (i j : impl) : bool :=
  match impl_trait i, impl_trait j with
  | Some (t, a), Some (u, b) =>
    if t =? u then if contrary (impl_cons i) (impl_cons j) then true
                   else if t =? "From" then negb (a =? b) else false
    else false
  | _, _ => false
  end.
Definition told (i j : impl) : bool :=
  if impl_self i =? impl_self j then match common i j with [] => true | _ => apart i j end else true.
Fixpoint all_told (l : list impl) : bool :=
  match l with [] => true | i :: l' => forallb (told i) l' && all_told l' end.

Lemma told_ordered l : all_told l = true -> ForallOrdPairs (fun i j => told i j = true) l.
Proof.
  induction l as [|i l IH]; cbn; intros H; constructor; apply andb_true_iff in H as [H1 H2]; [|auto].
  apply Forall_forall. intros j Hj. rewrite forallb_forall in H1. auto.
Qed.
Lemma member_In x l : member x l = true <-> In x l.
Proof.
  induction l as [|y l IH]; cbn; [split; [discriminate|tauto]|].
  destruct (String.eqb_spec x y) as [->|D]; [tauto|]. rewrite IH. split; [auto|intros [E|E]; congruence || auto].
Qed.
Lemma has_fn_In n i : has_fn n i = true <-> In n (fn_names i).
Proof.
  destruct i as [tr s sc c a fs]. unfold has_fn, impl_fn, fn_names. induction fs as [|f fs IH]; cbn; [split; [discriminate|tauto]|].
  destruct (String.eqb_spec (fn_name f) n) as [E|E]; [tauto|]. rewrite IH. split; [auto|intros [?|?]; [congruence|auto]].
Qed.
Lemma apart_apply {PF : Platform} args i j : args <> [] \/ in_trait ["From"] i = false -> apart i j = true ->
  applies args i = true -> applies args j = true -> False.
Proof.
  intros NA. unfold apart. destruct (impl_trait i) as [[t a]|] eqn:Ti; [|discriminate].
  destruct (impl_trait j) as [[u b]|] eqn:Tj; [|discriminate].
  destruct (String.eqb_spec t u) as [->|]; [|discriminate].
  unfold in_trait in NA. rewrite Ti in NA. cbn [member] in NA. unfold applies. rewrite Ti, Tj.
  intros A.
  destruct (match args with [] => true | t0 :: _ => if u =? "From" then a =? t0 else true end) eqn:Fa;
    [|destruct args; discriminate].
  destruct (match args with [] => true | t0 :: _ => if u =? "From" then b =? t0 else true end) eqn:Fb;
    [|destruct args; discriminate].
  intros Ai Aj.
  assert (forall c, In c (impl_cons i) -> match rev args with [] => false | t :: _ => match assoc_type t (fst c) with Some x => x =? snd c | None => false end end = true) as Bi.
  { apply forallb_forall. destruct args; [exact Ai|]. cbn in Fa. destruct (u =? "From"); [destruct (a =? s)|]; try discriminate; exact Ai. }
  assert (forall c, In c (impl_cons j) -> match rev args with [] => false | t :: _ => match assoc_type t (fst c) with Some x => x =? snd c | None => false end end = true) as Bj.
  { apply forallb_forall. destruct args; [exact Aj|]. cbn in Fb. destruct (u =? "From"); [destruct (b =? s)|]; try discriminate; exact Aj. }
  destruct (contrary (impl_cons i) (impl_cons j)) eqn:C.
  - unfold contrary in C. apply existsb_exists in C as ([f x] & Hp & C). apply existsb_exists in C as ([g y] & Hq & C).
    cbn in C. destruct (String.eqb_spec f g) as [->|]; [|discriminate].
    specialize (Bi _ Hp). specialize (Bj _ Hq). cbn in Bi, Bj.
    destruct (rev args) as [|s r]; [discriminate|]. destruct (assoc_type s g); [|discriminate].
    apply String.eqb_eq in Bi, Bj. subst. rewrite String.eqb_refl in C. discriminate.
  - destruct (u =? "From") eqn:F; [|discriminate]. destruct args as [|t0 args]; [destruct NA; [congruence|discriminate]|].
    apply String.eqb_eq in Fa, Fb. subst. rewrite String.eqb_refl in A. discriminate.
Qed.

Lemma impls_told {PF : Platform} ty : all_told (impls ty) = true.
Proof. unfold impls. destruct (ity_of ty); [destruct ptr_width|]; vm_compute; reflexivity. Qed.
Lemma told_common i j n : told i j = true -> impl_self i = impl_self j -> has_fn n i = true -> has_fn n j = true ->
  n <> "index" -> n <> "index_mut" -> apart i j = true.
Proof.
  unfold told. intros H E Hi Hj N1 N2. rewrite E, String.eqb_refl in H. destruct (common i j) eqn:C; [|exact H].
  exfalso. assert (In n (common i j)) as I.
  { unfold common. apply filter_In. split; [apply has_fn_In, Hi|].
    destruct (member n ["index"; "index_mut"]) eqn:M; [|apply member_In, has_fn_In, Hj].
    apply member_In in M. cbn in M. intuition congruence. }
  rewrite C in I. destruct I.
Qed.
Lemma one_impl {PF : Platform} ty n args i j : n <> "index" -> n <> "index_mut" ->
  args <> [] \/ in_trait ["From"] i = false -> args <> [] \/ in_trait ["From"] j = false -> In i (impls ty) -> In j (impls ty) -> impl_self i = ty -> impl_self j = ty ->
  has_fn n i = true -> has_fn n j = true -> applies args i = true -> applies args j = true -> i = j.
Proof.
  intros N1 N2 NA NB Ii Ij Si Sj Hi Hj Ai Aj.
  destruct (ForallOrdPairs_In (told_ordered _ (impls_told ty)) i j Ii Ij) as [E|[K|K]]; [exact E| |]; exfalso.
  - apply (apart_apply args i j NA); auto. eapply told_common; eauto; congruence.
  - apply (apart_apply args j i NB); auto. eapply told_common; eauto; congruence.
Qed.

(** The names of the method calls in an expression. *)
Fixpoint methods (x : expr) : list string :=
  match x with
  | ELit _ | EBool _ | EStr | EVar _ | EBreak | EPath _ _ | EDefault _ => []
  | ECon _ fs => (fix go (l : list (string * expr)) := match l with [] => [] | (_, a) :: l' => methods a ++ go l' end) fs
  | EApp _ l | ECall _ _ l | EArray l | EMacro _ l =>
    (fix go (l : list expr) := match l with [] => [] | a :: l' => methods a ++ go l' end) l
  | EMethod a n l => n :: methods a ++ (fix go (l : list expr) := match l with [] => [] | a :: l' => methods a ++ go l' end) l
  | EInto a _ | EField a _ | ENot a | EDeref a | ERef a | ETry a | ECast a _ | EClo _ a | EReturn a => methods a
  | EIndex a b | EBin _ a b | EAssign a b | EOpAssign _ a b | EWhile a b | EFor _ a b => methods a ++ methods b
  | EIf a b c => methods a ++ methods b ++ methods c
  | EMatch a l => methods a ++ (fix go (l : list (pat * expr)) := match l with [] => [] | (_, a) :: l' => methods a ++ go l' end) l
  | EBlock l a => (fix go (l : list (option pat * expr)) := match l with [] => [] | (_, a) :: l' => methods a ++ go l' end) l ++ methods a
  end.
(** The method calls of an impl, with the traits in scope there. *)
Definition calls_of (i : impl) : list (list string * string) :=
  match i with Impl _ _ sc _ _ fs => flat_map (fun f => match f with Fn _ _ _ b => map (pair sc) (methods b) end) fs end.
Definition source_calls : list (list string * string) := flat_map calls_of (source_impls ++ map snd source_traits).

(** Does the type have a function [n] by the trait [t], of its impl or provided by the trait? *)
Definition impls_for {PF : Platform} (ty : string) : list impl := filter (fun i => impl_self i =? ty) (impls ty).
Definition has_by (l : list impl) (n t : string) : bool :=
  existsb (fun i => if in_trait [t] i then
                      if has_fn n i then true
                      else match find_trait traits [t] n with Some _ => true | None => false end
                    else false) l.
Definition by_trait {PF : Platform} (ty n t : string) : bool := has_by (impls_for ty) n t.
Definition types_of (l : list impl) : list string := nodup string_dec (map impl_self l).
Definition single {A : Type} (l : list A) : bool := match l with _ :: _ :: _ => false | _ => true end.
Lemma single_eq {A : Type} (l : list A) a b : single l = true -> In a l -> In b l -> a = b.
Proof. destruct l as [|x [|y l]]; cbn; [tauto| |discriminate]. intros _ [->|[]] [->|[]]. reflexivity. Qed.

(** The calls of the source without repetitions. *)
Fixpoint same_list (a b : list string) : bool :=
  match a, b with [], [] => true | x :: a', y :: b' => if x =? y then same_list a' b' else false | _, _ => false end.
Definition same_call (c d : list string * string) : bool := if snd c =? snd d then same_list (fst c) (fst d) else false.
Lemma same_call_eq c d : same_call c d = true -> c = d.
Proof.
  destruct c as [a x], d as [b y]. unfold same_call. cbn. destruct (String.eqb_spec x y) as [->|]; [|discriminate].
  intros H. f_equal. revert b H. induction a as [|u a IH]; intros [|v b]; cbn; try discriminate; [reflexivity|].
  destruct (String.eqb_spec u v) as [->|]; [|discriminate]. intros H. f_equal. auto.
Qed.
Fixpoint once (l : list (list string * string)) : list (list string * string) :=
  match l with [] => [] | c :: l' => if existsb (same_call c) l' then once l' else c :: once l' end.
Lemma once_In c l : In c l -> In c (once l).
Proof.
  induction l as [|d l IH]; cbn; [tauto|]. intros [->|H]; destruct (existsb (same_call _) l) eqn:E; cbn; auto.
  apply existsb_exists in E as (d & Hd & E). apply same_call_eq in E as ->. auto.
Qed.
Definition one_by {PF : Platform} (l : list impl) : bool :=
  let cs := once source_calls in
  forallb (fun ty => let own := impls_for ty in
    forallb (fun c => single (filter (has_by own (snd c)) (nodup string_dec (fst c ++ prelude)))) cs) (types_of l).
Lemma by_trait_self {PF : Platform} ty n t : by_trait ty n t = true -> In ty (types_of (impls ty)).
Proof.
  unfold by_trait, has_by. intros H. apply existsb_exists in H as (i & Hi & _). apply filter_In in Hi as [Hi E].
  apply String.eqb_eq in E. unfold types_of. apply nodup_In. rewrite <- E at 1. apply in_map, Hi.
Qed.
Lemma one_by_source {PF : Platform} : one_by source_impls = true.
Proof. vm_compute. reflexivity. Qed.
Lemma one_by_impls {PF : Platform} ty : one_by (impls ty) = true.
Proof.
  unfold impls. destruct (ity_of ty); [|apply one_by_source]. destruct PF as [pw]. destruct pw; vm_compute; reflexivity.
Qed.

(** The method calls of the source: none is of an indexing trait or of [From], and no
    type has a function of its own with the name of one a trait provides. *)
Definition plain (c : list string * string) : bool :=
  if member (snd c) ["index"; "index_mut"] then false else negb (member "From" (fst c ++ prelude)).
Lemma source_plain : forallb plain source_calls = true.
Proof. vm_compute. reflexivity. Qed.
Definition no_shadow {PF : Platform} (l : list impl) : bool :=
  forallb (fun i => if inherent i then forallb (fun n => forallb (fun t => negb (by_trait (impl_self i) n (fst t))) traits) (fn_names i) else true) l.
Lemma no_shadow_impls {PF : Platform} ty : no_shadow (impls ty) = true.
Proof. unfold impls. destruct (ity_of ty); [destruct ptr_width|]; vm_compute; reflexivity. Qed.

(** What [x.n(args)] can mean, [x] of type [ty], with the traits [sc] in scope: a function
    of the type itself, of an impl of a trait, or the one a trait provides. *)
Inductive candidate {PF : Platform} (sc : list string) (ty n : string) (args : list string) : key -> Prop :=
| cand_own i : In i (impls ty) -> impl_self i = ty -> inherent i = true -> has_fn n i = true ->
    candidate sc ty n args (impl_key n i)
| cand_impl t i : In t (sc ++ prelude) -> In i (impls ty) -> impl_self i = ty -> in_trait [t] i = true ->
    applies args i = true -> has_fn n i = true -> candidate sc ty n args (impl_key n i)
| cand_provided t i p : In t (sc ++ prelude) -> In i (impls ty) -> impl_self i = ty -> in_trait [t] i = true ->
    has_fn n i = false -> In (t, p) traits -> has_fn n p = true -> candidate sc ty n args (KDefault t n).

Lemma in_trait_one t i : in_trait [t] i = true <-> exists a, impl_trait i = Some (t, a).
Proof.
  unfold in_trait. destruct (impl_trait i) as [[u a]|]; [|split; [discriminate|intros [a H]; discriminate]].
  cbn. destruct (String.eqb_spec u t) as [->|D]; [split; eauto|]. split; [discriminate|intros [b [= E _]]; congruence].
Qed.
Lemma in_trait_many trs i : in_trait trs i = true <-> exists t, In t trs /\ in_trait [t] i = true.
Proof.
  unfold in_trait at 1. destruct (impl_trait i) as [[u a]|] eqn:E.
  - rewrite member_In. split.
    + intros H. exists u. split; [exact H|]. apply in_trait_one. eauto.
    + intros (t & H & K). apply in_trait_one in K as [b K]. congruence.
  - split; [discriminate|]. intros (t & H & K). apply in_trait_one in K as [b K]. congruence.
Qed.
Lemma plain_call sc n : In (sc, n) source_calls -> n <> "index" /\ n <> "index_mut" /\ ~ In "From" (sc ++ prelude).
Proof.
  intros H. pose proof source_plain as P. rewrite forallb_forall in P. specialize (P _ H). unfold plain in P. cbn [fst snd] in P.
  destruct (member n ["index"; "index_mut"]) eqn:M; [discriminate|].
  split; [intros ->; discriminate|]. split; [intros ->; discriminate|]. intros I. apply member_In in I. rewrite I in P. discriminate.
Qed.
Lemma not_from sc n i t : In (sc, n) source_calls -> In t (sc ++ prelude) -> in_trait [t] i = true -> in_trait ["From"] i = false.
Proof.
  intros H It K. destruct (plain_call _ _ H) as (_ & _ & F). destruct (in_trait ["From"] i) eqn:E; [|reflexivity].
  apply in_trait_one in K as [a K]. apply in_trait_one in E as [b E]. rewrite K in E. injection E as -> _. contradiction.
Qed.
Lemma own_not_from i : inherent i = true -> in_trait ["From"] i = false.
Proof. unfold inherent, in_trait. destruct (impl_trait i); [discriminate|reflexivity]. Qed.
Lemma own_applies {PF : Platform} args i ty : In i (impls ty) -> inherent i = true -> applies args i = true.
Proof.
  intros H E. assert (forallb (fun i => if inherent i then match impl_cons i with [] => true | _ => false end else true) (impls ty) = true) as K.
  { unfold impls. destruct (ity_of ty); [destruct ptr_width|]; vm_compute; reflexivity. }
  rewrite forallb_forall in K. specialize (K _ H). cbv beta in K. rewrite E in K. unfold applies.
  unfold inherent in E. destruct (impl_trait i); [discriminate|]. destruct (impl_cons i); [reflexivity|discriminate].
Qed.
Lemma by_trait_of {PF : Platform} ty n t i : In i (impls ty) -> impl_self i = ty -> in_trait [t] i = true ->
  has_fn n i = true \/ (exists p, In (t, p) traits /\ has_fn n p = true) -> by_trait ty n t = true.
Proof.
  intros H S K D. apply existsb_exists. exists i. split; [apply filter_In; rewrite S, String.eqb_refl; auto|]. rewrite K.
  destruct D as [->|(p & P & Q)]; [reflexivity|]. destruct (has_fn n i); [reflexivity|].
  destruct (find_trait traits [t] n) eqn:F; [reflexivity|]. unfold find_trait in F.
  pose proof (find_none _ _ F _ P) as X. cbn in X. rewrite Q, String.eqb_refl in X. discriminate.
Qed.
Lemma one_trait {PF : Platform} sc n ty t u : In (sc, n) source_calls -> In t (sc ++ prelude) -> In u (sc ++ prelude) ->
  by_trait ty n t = true -> by_trait ty n u = true -> t = u.
Proof.
  intros H It Iu Bt Bu. pose proof (one_by_impls ty) as P. unfold one_by in P. rewrite forallb_forall in P.
  specialize (P ty (by_trait_self _ _ _ Bt)). cbv beta zeta in P. rewrite forallb_forall in P. specialize (P _ (once_In _ _ H)). cbn [fst snd] in P.
  apply (single_eq _ _ _ P); apply filter_In; rewrite nodup_In; auto.
Qed.
(** A trait's impls for a type: with a function provided by the trait, all or none of them have one of their own. *)
Definition uniform (l : list impl) : bool :=
  forallb (fun t => forallb (fun n => forallb (fun i => if in_trait [fst t] i then
     forallb (fun j => if impl_self i =? impl_self j then if in_trait [fst t] j then Bool.eqb (has_fn n i) (has_fn n j) else true else true) l
     else true) l) (fn_names (snd t))) (source_traits ++ std_traits).
Lemma uniform_impls {PF : Platform} ty : uniform (impls ty) = true.
Proof. unfold impls. destruct (ity_of ty); [destruct ptr_width|]; vm_compute; reflexivity. Qed.

Lemma uniform_fn {PF : Platform} ty n t p i j : In (t, p) traits -> has_fn n p = true -> In i (impls ty) -> In j (impls ty) ->
  impl_self i = ty -> impl_self j = ty -> in_trait [t] i = true -> in_trait [t] j = true -> has_fn n i = has_fn n j.
Proof.
  intros P Q Ii Ij Si Sj Ti Tj. pose proof (uniform_impls ty) as U. unfold uniform in U. rewrite forallb_forall in U.
  specialize (U _ P). cbn [fst snd] in U. rewrite forallb_forall in U. specialize (U n (proj1 (has_fn_In _ _) Q)).
  rewrite forallb_forall in U. specialize (U _ Ii). rewrite Ti in U. rewrite forallb_forall in U. specialize (U _ Ij).
  rewrite Si, Sj, String.eqb_refl, Tj in U. apply Bool.eqb_prop in U. exact U.
Qed.
Lemma no_shadow_fn {PF : Platform} ty n t p i j : In i (impls ty) -> impl_self i = ty -> inherent i = true -> has_fn n i = true ->
  In j (impls ty) -> impl_self j = ty -> in_trait [t] j = true -> In (t, p) traits -> has_fn n p = true -> False.
Proof.
  intros Ii Si Oi Hi Ij Sj Tj P Q. pose proof (no_shadow_impls ty) as U. unfold no_shadow in U. rewrite forallb_forall in U.
  specialize (U _ Ii). rewrite Oi in U. rewrite forallb_forall in U. specialize (U n (proj1 (has_fn_In _ _) Hi)).
  rewrite forallb_forall in U. specialize (U _ P). cbn [fst] in U. rewrite Si in U.
  rewrite (by_trait_of ty n t j Ij Sj Tj) in U by eauto. discriminate.
Qed.

Lemma by_own {PF : Platform} ty n t i : In i (impls ty) -> impl_self i = ty -> in_trait [t] i = true -> has_fn n i = true -> by_trait ty n t = true.
Proof. intros. eapply by_trait_of; eauto. Qed.
Lemma by_provided {PF : Platform} ty n t i p : In i (impls ty) -> impl_self i = ty -> in_trait [t] i = true -> In (t, p) traits -> has_fn n p = true ->
  by_trait ty n t = true.
Proof. intros. eapply by_trait_of; eauto. Qed.
(** At most one candidate. *)
Lemma one_candidate {PF : Platform} sc ty n args k k' : In (sc, n) source_calls ->
  candidate sc ty n args k -> candidate sc ty n args k' -> k = k'.
Proof.
  intros H C C'. destruct (plain_call _ _ H) as (N1 & N2 & _).
  destruct C as [i Ii Si Oi Hi|t i It Ii Si Ti Ai Hi|t i p It Ii Si Ti Hi P Q];
  destruct C' as [j Ij Sj Oj Hj|u j Iu Ij Sj Tj Aj Hj|u j q Iu Ij Sj Tj Hj P' Q'].
  - f_equal. apply (one_impl ty n args); eauto using own_not_from; eapply own_applies; eauto.
  - f_equal. apply (one_impl ty n args); eauto using own_not_from, not_from; eapply own_applies; eauto.
  - exfalso. apply (no_shadow_fn ty n u q i j); auto.
  - f_equal. apply (one_impl ty n args); eauto using own_not_from, not_from; eapply own_applies; eauto.
  - f_equal. apply (one_impl ty n args); eauto using not_from.
  - exfalso. assert (t = u) as -> by (apply (one_trait sc n ty); auto; [apply (by_own ty n t i)|apply (by_provided ty n u j q)]; auto).
    rewrite <- (uniform_fn ty n u q i j), Hi in Hj by auto. discriminate.
  - exfalso. apply (no_shadow_fn ty n t p j i); auto.
  - exfalso. assert (t = u) as -> by (apply (one_trait sc n ty); auto; [apply (by_provided ty n t i p)|apply (by_own ty n u j)]; auto).
    rewrite (uniform_fn ty n u p i j), Hj in Hi by auto. discriminate.
  - f_equal. apply (one_trait sc n ty); auto; [apply (by_provided ty n t i p)|apply (by_provided ty n u j q)]; auto.
Qed.

(** The impls of a trait that provides functions are not restricted. *)
Definition unrestricted (l : list impl) : bool :=
  forallb (fun t => match fn_names (snd t) with
                    | [] => true
                    | _ => forallb (fun i => if in_trait [fst t] i then
                             if fst t =? "From" then false else match impl_cons i with [] => true | _ => false end else true) l
                    end) (source_traits ++ std_traits).
Lemma unrestricted_impls {PF : Platform} ty : unrestricted (impls ty) = true.
Proof. unfold impls. destruct (ity_of ty); [destruct ptr_width|]; vm_compute; reflexivity. Qed.
Lemma unrestricted_applies {PF : Platform} ty n t p i args : In (t, p) traits -> has_fn n p = true -> In i (impls ty) ->
  in_trait [t] i = true -> applies args i = true.
Proof.
  intros P Q Ii Ti. pose proof (unrestricted_impls ty) as U. unfold unrestricted in U. rewrite forallb_forall in U.
  specialize (U _ P). cbn [fst snd] in U. apply has_fn_In in Q. destruct (fn_names p); [destruct Q|].
  rewrite forallb_forall in U. specialize (U _ Ii). rewrite Ti in U. destruct (t =? "From") eqn:F; [discriminate|].
  apply in_trait_one in Ti as [a Ti]. unfold applies. rewrite Ti, F. destruct (impl_cons i); [|discriminate].
  destruct args; reflexivity.
Qed.
(** What the search of RustEval.v finds is a candidate. *)
Lemma resolve_candidate {PF : Platform} sc ty n args k : resolve_method sc ty n args = Some k -> candidate sc ty n args k.
Proof.
  unfold resolve_method, resolve. cbv iota.
  destruct (find _ (impls ty)) as [i|] eqn:F1.
  { intros E. injection E as <-. apply find_some in F1 as [Ii F1]. destruct (inherent i) eqn:Oi; [|discriminate].
    destruct (String.eqb_spec (impl_self i) ty); [|discriminate]. apply cand_own; auto. }
  match goal with |- context [find ?f (impls ty)] => destruct (find f (impls ty)) as [i|] eqn:F2 end.
  { intros E. injection E as <-. apply find_some in F2 as [Ii F2].
    destruct (String.eqb_spec (impl_self i) ty); [|discriminate]. destruct (has_fn n i) eqn:Hi; [|discriminate].
    destruct (in_trait (sc ++ prelude) i) eqn:Ti; [|discriminate]. apply in_trait_many in Ti as (t & It & Ti).
    eapply cand_impl; eauto. }
  match goal with |- context [find ?f traits] => destruct (find f traits) as [[t p]|] eqn:F3 end; [|discriminate].
  intros E. injection E as <-. apply find_some in F3 as [P F3]. cbn [fst snd] in F3.
  destruct (has_fn n p) eqn:Q; [|discriminate]. destruct (member t (sc ++ prelude)) eqn:It; [|discriminate]. apply member_In in It.
  apply existsb_exists in F3 as (i & Ii & F3). destruct (String.eqb_spec (impl_self i) ty); [|discriminate].
  destruct (has_fn n i) eqn:Hi; [|eapply cand_provided; eauto].
  exfalso. destruct (in_trait [t] i) eqn:Ti; [|discriminate].
  pose proof (find_none _ _ F2 _ Ii) as X. cbv beta in X. rewrite Hi, (unrestricted_applies ty n t p i args) in X by auto.
  replace (impl_self i =? ty) with true in X by (symmetry; apply String.eqb_eq; auto).
  replace (in_trait (sc ++ prelude) i) with true in X by (symmetry; apply in_trait_many; eauto). discriminate.
Qed.
(** And if there is a candidate the search finds it. *)
Lemma candidate_resolve {PF : Platform} sc ty n args k : In (sc, n) source_calls -> candidate sc ty n args k ->
  resolve_method sc ty n args = Some k.
Proof.
  intros H C. destruct (resolve_method sc ty n args) as [k'|] eqn:R.
  { f_equal. symmetry. eapply one_candidate; eauto using resolve_candidate. }
  exfalso. unfold resolve_method, resolve in R. cbv iota in R.
  match type of R with context [find ?f (impls ty)] => destruct (find f (impls ty)) as [i|] eqn:F1 in R end; [discriminate|].
  match type of R with context [find ?f (impls ty)] => destruct (find f (impls ty)) as [i|] eqn:F2 in R end; [discriminate|].
  match type of R with context [find ?f traits] => destruct (find f traits) as [[t p]|] eqn:F3 in R end; [discriminate|].
  destruct C as [i Ii Si Oi Hi|t i It Ii Si Ti Ai Hi|t i p It Ii Si Ti Hi P Q].
  - pose proof (find_none _ _ F1 _ Ii) as X. cbv beta in X. rewrite Oi, Hi, Si, String.eqb_refl in X. discriminate.
  - pose proof (find_none _ _ F2 _ Ii) as X. cbv beta in X. rewrite Hi, Ai, Si, String.eqb_refl in X.
    replace (in_trait (sc ++ prelude) i) with true in X by (symmetry; apply in_trait_many; eauto). discriminate.
  - pose proof (find_none _ _ F3 _ P) as X. cbv beta in X. cbn [fst snd] in X. rewrite Q in X.
    replace (member t (sc ++ prelude)) with true in X by (symmetry; apply member_In; auto).
    assert (existsb (fun i => if impl_self i =? ty then in_trait [t] i else false) (impls ty) = true) as E.
    { apply existsb_exists. exists i. rewrite Si, String.eqb_refl. auto. }
    rewrite E in X. discriminate.
Qed.
