(** C69: the model is what the source says.  Source.v is the text of the crate,
    translated by tools/gen_source.py; RustEval.v runs it.  A method call of Rust
    text gives, run that way, the value of the model function, for all values,
    orders, platforms and builds. *)
From Coq Require Import String.
From Verif Require Import Base ModelBound ModelRanges ModelSets ModelAlgebra ModelValue ModelStep ModelIter Instances InstancesStep
  Spec Reach RustSyntax Source RustEval RustEnc RustTac RustRuns RustSays RustClient RustClient2 RustClient3 PropertiesAlgebra PropertiesMore.
Open Scope Z_scope.
Open Scope string_scope.
Open Scope list_scope.

(** std's own ranges: their [contains] is std's, not in the crate's text. *)
Definition std_range {T} (v : value T) : bool :=
  match v with
  | VRange _ | VRangeInclusive _ | VRangeFrom _ | VRangeTo _ | VRangeToInclusive _ | VRangeFull _ => true
  | _ => false
  end.

Section Source.
Context (T : Type) (PF : Platform) (OT : Ord T) (ST : Step T) (dflt : option T) (m : mode).
Implicit Types (v w : value T).
Notation says := (says dflt m).
Notation tools := ["Rangetools"].
Notation ab v w := [("a", enc_value v); ("b", enc_value w)].

(** [a.union(b)], [a.intersection(b)], [a.complement()], [a.disjoint(b)], [a.intersects(b)]. *)
Theorem C69_union v w :
  says tools (EMethod (EVar "a") "union" [EVar "b"]) (ab v w) (x <- union v w ;; Ret (enc_value x)).
Proof.
  apply says_of; [|apply s_union]. pose proof (proj1 (C52_no_hang T OT v w)) as H. destruct (union v w); cbn; congruence.
Qed.
Theorem C69_intersection v w :
  says tools (EMethod (EVar "a") "intersection" [EVar "b"]) (ab v w) (x <- intersection v w ;; Ret (enc_value x)).
Proof.
  apply says_of; [|apply s_intersection]. pose proof (proj1 (proj2 (C52_no_hang T OT v w))) as H.
  destruct (intersection v w); cbn; congruence.
Qed.
Theorem C69_complement v :
  says tools (EMethod (EVar "a") "complement" []) [("a", enc_value v)] (x <- complement v ;; Ret (enc_value x)).
Proof.
  apply says_of; [|apply s_complement]. pose proof (proj1 (proj2 (proj2 (C52_no_hang T OT v v)))) as H.
  destruct (complement v); cbn; congruence.
Qed.
Theorem C69_disjoint v w :
  says tools (EMethod (EVar "a") "disjoint" [EVar "b"]) (ab v w) (x <- disjoint v w ;; Ret (DBool x)).
Proof.
  apply says_of; [|apply s_disjoint]. pose proof (proj1 (proj2 (proj2 (proj2 (C52_no_hang T OT v w))))) as H.
  destruct (disjoint v w); cbn; congruence.
Qed.
Theorem C69_intersects v w :
  says tools (EMethod (EVar "a") "intersects" [EVar "b"]) (ab v w) (x <- intersects v w ;; Ret (DBool x)).
Proof.
  apply says_of; [|apply s_intersects]. pose proof (proj2 (proj2 (proj2 (proj2 (C52_no_hang T OT v w))))) as H.
  destruct (intersects v w); cbn; congruence.
Qed.
Theorem C69_to_inner v :
  says tools (EMethod (EVar "a") "to_inner" []) [("a", enc_value v)] (Ret (enc_inner (to_inner v))).
Proof. apply says_of; [discriminate|apply s_to_inner]. Qed.
Theorem C69_to_set v :
  says tools (EMethod (EVar "a") "to_set" []) [("a", enc_value v)] (Ret (enc_setv (to_set v))).
Proof. apply says_of; [discriminate|apply s_to_set]. Qed.
(** [Rangetools::is_empty(&a)]; [a.is_empty()] on std's ranges is std's own. *)
Theorem C69_is_empty v :
  says tools (ECall "Rangetools" "is_empty" [ERef (EVar "a")]) [("a", enc_value v)] (Ret (DBool (is_empty v))).
Proof. apply says_of; [discriminate|apply s_is_empty]. Qed.
(** [a.contains(t)] for the crate's types. *)
Theorem C69_contains v (t : T) : std_range v = false ->
  says tools (EMethod (EVar "a") "contains" [EVar "t"]) [("a", enc_value v); ("t", DElt t)] (Ret (DBool (contains v t))).
Proof. intros H. apply says_of; [discriminate|apply s_contains]. destruct v; try discriminate H; exact Logic.I. Qed.

(** There is one outcome, and the encoding of the values as terms loses nothing. *)
Theorem C69_one_outcome sc x e (o o' : outcome (val T)) : says sc x e o -> says sc x e o' -> o = o'.
Proof.
  unfold RustSays.says. intros R R'. pose proof (runs_det dflt m _ _ R _ R') as E.
  destruct o, o'; cbn in E; try congruence; exfalso; eapply runs_not_diverge; eassumption.
Qed.
Theorem C69_encoding_exact v w : enc_value v = enc_value w -> v = w.
Proof. apply enc_value_inj. Qed.

(** Programs: an expression over the operations, each of them run in the source. *)
Inductive src_eval : ModelValue.expr T -> outcome (value T) -> Prop :=
| src_val v : src_eval (EVal v) (Ret v)
| src_bin (c : ModelValue.expr T -> ModelValue.expr T -> ModelValue.expr T) (n : string) a b x y o :
    (c = EUnion /\ n = "union") \/ (c = EInter /\ n = "intersection") ->
    src_eval a (Ret x) -> src_eval b (Ret y) ->
    says tools (EMethod (EVar "a") n [EVar "b"]) (ab x y) (r <- o ;; Ret (enc_value r)) -> src_eval (c a b) o
| src_un (c : ModelValue.expr T -> ModelValue.expr T) (n : string) a x o :
    (c = ECompl /\ n = "complement") \/ (c = EInner /\ n = "to_inner") \/ (c = ESet /\ n = "to_set") ->
    src_eval a (Ret x) ->
    says tools (EMethod (EVar "a") n []) [("a", enc_value x)] (r <- o ;; Ret (enc_value r)) -> src_eval (c a) o
| src_bin_left (c : ModelValue.expr T -> ModelValue.expr T -> ModelValue.expr T) a b : c = EUnion \/ c = EInter -> src_eval a Panic -> src_eval (c a b) Panic
| src_bin_right (c : ModelValue.expr T -> ModelValue.expr T -> ModelValue.expr T) a b x :
    c = EUnion \/ c = EInter -> src_eval a (Ret x) -> src_eval b Panic -> src_eval (c a b) Panic
| src_un_panic (c : ModelValue.expr T -> ModelValue.expr T) a : c = ECompl \/ c = EInner \/ c = ESet -> src_eval a Panic -> src_eval (c a) Panic.
Theorem C69_programs (e : ModelValue.expr T) : src_eval e (ModelValue.eval e).
Proof.
  pose proof (C52_programs_no_hang T OT) as N.
  induction e as [v|a IHa b IHb|a IHa b IHb|a IHa|a IHa|a IHa]; cbn [ModelValue.eval].
  - constructor.
  - specialize (N a) as Na. specialize (N b) as Nb.
    destruct (ModelValue.eval a) as [x| |]; [|apply src_bin_left; auto|congruence].
    destruct (ModelValue.eval b) as [y| |]; [|eapply src_bin_right; eauto|congruence].
    eapply src_bin; [left; split; reflexivity|exact IHa|exact IHb|apply C69_union].
  - specialize (N a) as Na. specialize (N b) as Nb.
    destruct (ModelValue.eval a) as [x| |]; [|apply src_bin_left; auto|congruence].
    destruct (ModelValue.eval b) as [y| |]; [|eapply src_bin_right; eauto|congruence].
    eapply src_bin; [right; split; reflexivity|exact IHa|exact IHb|apply C69_intersection].
  - specialize (N a) as Na. destruct (ModelValue.eval a) as [x| |]; [|apply src_un_panic; auto|congruence].
    eapply src_un; [left; split; reflexivity|exact IHa|apply C69_complement].
  - specialize (N a) as Na. destruct (ModelValue.eval a) as [x| |]; [|apply src_un_panic; auto|congruence].
    eapply (src_un EInner); [right; left; split; reflexivity|exact IHa|apply C69_to_inner].
  - specialize (N a) as Na. destruct (ModelValue.eval a) as [x| |]; [|apply src_un_panic; auto|congruence].
    eapply (src_un ESet); [right; right; split; reflexivity|exact IHa|apply C69_to_set].
Qed.

(** So what is proved of the model holds of the source.  The elements of a union,
    an intersection and a complement, asked for with [contains]: *)
Definition answers v (t : T) (b : bool) : Prop :=
  says tools (EMethod (EVar "a") "contains" [EVar "t"]) [("a", enc_value v); ("t", DElt t)] (Ret (DBool b)).
Lemma answers_contains v t : std_range v = false -> (answers v t true <-> contains v t = true).
Proof.
  intros H. split.
  - intros A. pose proof (C69_one_outcome _ _ _ _ _ A (C69_contains v t H)) as E. congruence.
  - intros E. pose proof (C69_contains v t H) as A. rewrite E in A. exact A.
Qed.
Ltac no_std :=
  unfold ret_bs, ret_lbs, ret_ubs, ret_us;
  repeat match goal with |- (_ <- ?x ;; _) = _ -> _ => destruct x; cbn end;
  intros [= <-]; auto; discriminate.
Theorem C69_union_members {OL : OrdLaws T} v w : fresh v -> fresh w ->
  exists r, says tools (EMethod (EVar "a") "union" [EVar "b"]) (ab v w) (Ret (enc_value r))
  /\ (std_range r = false -> forall t, answers r t true <-> mem v t \/ mem w t)
  /\ (std_range r = true -> r = v \/ r = w).
Proof.
  intros Fv Fw. destruct (C01_union_contains T OT OL v w Fv Fw) as (r & E & H). exists r.
  pose proof (C69_union v w) as S. rewrite E in S. split; [exact S|]. split.
  - intros N t. rewrite answers_contains by assumption. apply H.
  - clear S H. revert E. destruct v, w; cbn; no_std.
Qed.
(** Two [LowerBoundedSet]s excepted: see [C69_intersection_omits]. *)
Theorem C69_intersection_members {OL : OrdLaws T} v w : fresh v -> fresh w ->
  ~ (kind_of v = KLowerBoundedSet /\ kind_of w = KLowerBoundedSet) ->
  exists r, says tools (EMethod (EVar "a") "intersection" [EVar "b"]) (ab v w) (Ret (enc_value r))
  /\ (std_range r = false -> forall t, answers r t true <-> mem v t /\ mem w t)
  /\ (std_range r = true -> r = v \/ r = w).
Proof.
  intros Fv Fw K. destruct (C02_intersection_contains_partial T OT OL v w Fv Fw K) as (r & E & H). exists r.
  pose proof (C69_intersection v w) as S. rewrite E in S. split; [exact S|]. split.
  - intros N t. rewrite answers_contains by assumption. apply H.
  - clear S H. revert E. destruct v, w; cbn; no_std.
Qed.
Theorem C69_complement_members {OL : OrdLaws T} v : fresh v ->
  exists r, says tools (EMethod (EVar "a") "complement" []) [("a", enc_value v)] (Ret (enc_value r))
  /\ std_range r = false /\ forall t, answers r t true <-> ~ mem v t.
Proof.
  intros Fv. destruct (C03_complement_contains T OT OL v Fv) as (r & E & H). exists r.
  pose proof (C69_complement v) as S. rewrite E in S. split; [exact S|].
  assert (N : std_range r = false).
  { clear S H. revert E. destruct v; cbn; no_std. }
  split; [exact N|]. intros t. rewrite answers_contains by assumption. apply H.
Qed.
End Source.

(** ** Examples, run by the interpreter itself on u8. *)
#[local] Existing Instance pf64.
Definition U := mint U8.
Definition u (z : Z) : U := wrap U8 z.
Definition half (a b : Z) : BoundedRange U := BR (LB (Included (u a))) (UB (Excluded (u b))).
Definition run_of (x : RustSyntax.expr) (e : env U) : option (outcome (ans U)) :=
  exec (None : option U) Debug 200 (RustEval.eval None Debug ["Rangetools"] x e
    (fun r _ => match r with N v => Done (AVal v []) | _ => Stuck end)).
Definition set1 : value U := VBS (BS [half 1 5; half 8 9]).
Definition set2 : value U :=
  VUS (Piecewise (PUS (UBR (UB (Excluded (u 3)))) (BS [half 4 5; half 7 9]) (LBR (LB (Included (u 20)))))).
Definition ends1 : value U := VLBS (LBS (BS [half 1 5]) (LBR (LB (Included (u 10))))).
Definition ends2 : value U := VLBS (LBS (BS []) (LBR (LB (Included (u 3))))).

(** A set with a range. *)
Example C69_union_ex :
  run_of (EMethod (EVar "a") "union" [EVar "b"]) [("a", enc_value set1); ("b", enc_value (VRange (mkRange (u 3) (u 10))))]
    = Some (Ret (AVal (enc_value (VBS (BS [half 1 10]))) [])).
Proof. vm_compute. reflexivity. Qed.
Example C69_intersection_ex :
  run_of (EMethod (EVar "a") "intersection" [EVar "b"]) [("a", enc_value set1); ("b", enc_value set2)]
    = Some (Ret (AVal (enc_value (VBS (BS [half 1 3; half 4 5; half 8 9]))) [])).
Proof. vm_compute. reflexivity. Qed.
Example C69_complement_ex :
  run_of (EMethod (EVar "a") "complement" []) [("a", enc_value set2)]
    = Some (Ret (AVal (enc_value (VBS (BS [half 3 4; half 5 7; half 9 20]))) [])).
Proof. vm_compute. reflexivity. Qed.
Example C69_disjoint_ex :
  run_of (EMethod (EVar "a") "disjoint" [EVar "b"]) [("a", enc_value set1); ("b", enc_value (VBR (half 5 8)))]
    = Some (Ret (AVal (DBool true) []))
  /\ run_of (EMethod (EVar "a") "intersects" [EVar "b"]) [("a", enc_value set1); ("b", enc_value (VBR (half 4 8)))]
    = Some (Ret (AVal (DBool true) [])).
Proof. split; vm_compute; reflexivity. Qed.
(** Nested in one expression: [a.union(b).complement().contains(t)]. *)
Example C69_nested_ex (t : U) : t = u 6 ->
  run_of (EMethod (EMethod (EMethod (EVar "a") "union" [EVar "b"]) "complement" []) "contains" [EVar "t"])
    [("a", enc_value set1); ("b", enc_value (VRange (mkRange (u 3) (u 6)))); ("t", DElt t)]
    = Some (Ret (AVal (DBool true) [])).
Proof. intros ->. vm_compute. reflexivity. Qed.
(** Two values that differ are encoded differently. *)
Example C69_encoding_ex : enc_value set1 <> enc_value set2 /\ enc_value (VBR (half 1 2)) <> enc_value (VBS (BS [half 1 2])).
Proof. split; discriminate. Qed.
Example C69_members_ex : fresh set1 /\ fresh set2 /\ ~ (kind_of set1 = KLowerBoundedSet /\ kind_of set2 = KLowerBoundedSet)
  /\ mem set1 (u 4) /\ ~ mem set1 (u 6).
Proof.
  repeat split; try (intros [? _]; discriminate).
  - apply C00_contains_spec; [typeclasses eauto|]. vm_compute. reflexivity.
  - intros M. apply C00_contains_spec in M; [|typeclasses eauto]. vm_compute in M. discriminate M.
Qed.

(** The omission of C02 is in the text of the crate: the element 3 is in both sets
    and the run of [a.intersection(b)] ends with a set that says it is not in it. *)
Theorem C69_intersection_omits :
  exists (a b r : value U) (t : U),
    fresh a /\ fresh b /\ mem a t /\ mem b t
    /\ says None Debug ["Rangetools"] (EMethod (EVar "a") "intersection" [EVar "b"])
         [("a", enc_value a); ("b", enc_value b)] (Ret (enc_value r))
    /\ answers U pf64 _ _ None Debug r t false.
Proof.
  exists ends2, ends1, (VLBS (LBS (BS []) (LBR (LB (Included (u 10)))))), (u 3).
  repeat split; try (apply C00_contains_spec; [typeclasses eauto|vm_compute; reflexivity]).
  - apply exec_runs with (fuel := 200%nat); [vm_compute; reflexivity|discriminate].
  - apply exec_runs with (fuel := 200%nat); [vm_compute; reflexivity|discriminate].
Qed.

Print Assumptions C69_union.
Print Assumptions C69_intersection.
Print Assumptions C69_complement.
Print Assumptions C69_disjoint.
Print Assumptions C69_intersects.
Print Assumptions C69_to_inner.
Print Assumptions C69_to_set.
Print Assumptions C69_is_empty.
Print Assumptions C69_contains.
Print Assumptions C69_one_outcome.
Print Assumptions C69_encoding_exact.
Print Assumptions C69_programs.
Print Assumptions C69_union_members.
Print Assumptions C69_intersection_members.
Print Assumptions C69_complement_members.
Print Assumptions C69_intersection_omits.
