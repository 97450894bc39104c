(** C71: bounds, constructors and indexing of the model are what the source says.
    As in PropertiesSource.v (C69) and PropertiesSource2.v (C70), calls of Rust text are run
    by RustEval.v on Source.v, the translated text of the crate. *)
From Coq Require Import String.
From Verif Require Import Base ModelBound ModelRanges ModelSets ModelAlgebra ModelValue ModelStep ModelIter ModelConv ModelIndex
  Instances InstancesStep Spec SpecStep SpecIndex
  RustSyntax Source RustEval RustEnc RustTac RustRuns RustSays RustIter RustIterSet RustIterClient RustBounds
  PropertiesAlgebra PropertiesIndex PropertiesSource PropertiesSource2.
Open Scope Z_scope.
Open Scope string_scope.
Open Scope list_scope.

Section Bounds.
Context (T : Type) (PF : Platform) (OT : Ord T) (ST : Step T) (dflt : option T) (m : mode).
Notation says := (says dflt m).
Notation a_ n := (EMethod (EVar "a") n []).
Notation ab_ n := (EMethod (EVar "a") n [EVar "b"]).
Notation new ty n := (ECall ty n [EVar "a"]).
Implicit Types (x y : LowerBound T) (u w : UpperBound T) (t : T) (b : Bound T).
Ltac by_ L := apply says_of; [discriminate|apply L].

(** [a.cmp(&b)], [a.partial_cmp(&b)], [a.max(b)], [a.min(b)]. *)
Theorem C71_lower_bounds x y :
  let e := [("a", enc_lb x); ("b", enc_lb y)] in
  says [] (ab_ "cmp") e (Ret (ordering_val (lb_cmp x y))) /\
  says [] (ab_ "partial_cmp") e (Ret (some_val (ordering_val (lb_cmp x y)))) /\
  says [] (ab_ "max") e (Ret (enc_lb (lb_max x y))) /\
  says [] (ab_ "min") e (Ret (enc_lb (lb_min x y))).
Proof. repeat split; [by_ @s_lb_cmp|by_ @s_lb_partial_cmp|by_ @s_lb_max|by_ @s_lb_min]. Qed.
Theorem C71_upper_bounds u w :
  let e := [("a", enc_ub u); ("b", enc_ub w)] in
  says [] (ab_ "cmp") e (Ret (ordering_val (ub_cmp u w))) /\
  says [] (ab_ "partial_cmp") e (Ret (some_val (ordering_val (ub_cmp u w)))) /\
  says [] (ab_ "max") e (Ret (enc_ub (ub_max u w))) /\
  says [] (ab_ "min") e (Ret (enc_ub (ub_min u w))).
Proof. repeat split; [by_ @s_ub_cmp|by_ @s_ub_partial_cmp|by_ @s_ub_max|by_ @s_ub_min]. Qed.
(** Making bounds and taking them apart. *)
Theorem C71_make_bounds b t :
  says [] (a_ "flipped") [("a", enc_bound b)] (Ret (enc_bound (flipped b))) /\
  says [] (new "LowerBound" "from") [("a", enc_bound b)] (Ret (enc_lb (LB b))) /\
  says [] (new "UpperBound" "from") [("a", enc_bound b)] (Ret (enc_ub (UB b))) /\
  says [] (a_ "to_bound") [("a", enc_lb (LB b))] (Ret (enc_bound b)) /\
  says [] (a_ "to_bound") [("a", enc_ub (UB b))] (Ret (enc_bound b)) /\
  says [] (ECall "LowerBound" "excluded" [EVar "t"]) [("t", DElt t)] (Ret (enc_lb (LB (Excluded t)))) /\
  says [] (ECall "LowerBound" "included" [EVar "t"]) [("t", DElt t)] (Ret (enc_lb (LB (Included t)))) /\
  says [] (ECall "UpperBound" "excluded" [EVar "t"]) [("t", DElt t)] (Ret (enc_ub (UB (Excluded t)))) /\
  says [] (ECall "UpperBound" "included" [EVar "t"]) [("t", DElt t)] (Ret (enc_ub (UB (Included t)))).
Proof.
  repeat split; [by_ @s_flipped|by_ @s_lb_from|by_ @s_ub_from|by_ (@s_lb_to_bound T PF OT ST dflt m (LB b))|
    by_ (@s_ub_to_bound T PF OT ST dflt m (UB b))|by_ @s_lb_excluded|by_ @s_lb_included|by_ @s_ub_excluded|by_ @s_ub_included].
Qed.
(** [BoundedRange::new(a, b)] and the other constructors. *)
Theorem C71_constructors x u (p : UpperBoundedRange T) (q : LowerBoundedRange T) :
  says [] (ECall "BoundedRange" "new" [EVar "a"; EVar "b"]) [("a", enc_lb x); ("b", enc_ub u)] (Ret (enc_br (BR x u))) /\
  says [] (new "LowerBoundedRange" "new") [("a", enc_lb x)] (Ret (enc_lbr (LBR x))) /\
  says [] (new "UpperBoundedRange" "new") [("a", enc_ub u)] (Ret (enc_ubr (UBR u))) /\
  says [] (ECall "UnboundedRange" "new" []) [] (Ret (enc_unbr mkUnboundedRange)) /\
  says [] (ECall "EmptyRange" "new" []) [] (Ret (enc_empty mkEmptyRange)) /\
  says [] (ECall "BoundedSet" "empty" []) [] (Ret (enc_bs (BS []))) /\
  says [] (ECall "UnboundedSet" "new" [EVar "a"; EVar "b"]) [("a", enc_ubr p); ("b", enc_lbr q)] (Ret (enc_us (us_new p q))) /\
  (forall r : EmptyRange, says [] (a_ "into_iter") [("a", enc_empty r)] (Ret (DCon "Empty" "Empty" []))).
Proof.
  repeat split; [by_ @s_br_new|by_ @s_lbr_new|by_ @s_ubr_new|by_ @s_unbr_new|by_ @s_empty_new|by_ @s_bs_empty|by_ @s_us_new|
    intros; by_ @s_empty_into_iter].
Qed.
(** [a.map(f)] where [f] is a closure that computes [g], into any type of values (not references). *)
Theorem C71_map {V : Type} (enc : V -> val T) (g : T -> V) ce sc ps body :
  (forall z p, enc z <> DRef p) ->
  (forall t, runs dflt m (answer dflt m (RClo ce sc ps body [(false, DElt t)])) (Ret (AVal (enc (g t)) [None]))) ->
  let map v := says [] (EMethod (EVar "a") "map" [EVar "f"]) [("a", v); ("f", DClo ce sc ps body)] in
  (forall b, map (enc_bound b) (Ret (enc_bound_of enc (bound_map g b)))) /\
  (forall x, map (enc_lb x) (Ret (enc_lb_of enc (lb_map g x)))) /\
  (forall u, map (enc_ub u) (Ret (enc_ub_of enc (ub_map g u)))).
Proof.
  intros N C. repeat split; intros; (apply says_of; [discriminate|]); [apply s_bound_map|apply s_lb_map|apply s_ub_map]; assumption.
Qed.

(** Hence, for a total order, what a program sees of the half lines of the bounds (C15, C44). *)
Lemma enc_lb_inj x y : enc_lb x = enc_lb y -> x = y.
Proof. destruct x as [[]], y as [[]]; unfold enc_lb, enc_bound, bound_con, bound_elt; cbn [lb_bound]; congruence. Qed.
Lemma enc_ub_inj u w : enc_ub u = enc_ub w -> u = w.
Proof. destruct u as [[]], w as [[]]; unfold enc_ub, enc_bound, bound_con, bound_elt; cbn [ub_bound]; congruence. Qed.
Lemma enc_bound_inj b b' : enc_bound b = enc_bound b' -> b = b'.
Proof. destruct b, b'; unfold enc_bound, bound_con, bound_elt; congruence. Qed.
Lemma enc_br_inj (r r' : BoundedRange T) : enc_br r = enc_br r' -> r = r'.
Proof.
  destruct r as [x u], r' as [y w]. unfold enc_br. cbn [br_start br_end]. intros E.
  f_equal; [apply enc_lb_inj|apply enc_ub_inj]; congruence.
Qed.
Lemma ret_inj {A} (a b : A) : Ret a = Ret b -> a = b. Proof. congruence. Qed.
Ltac one H L := let E := fresh "E" in pose proof (ret_inj _ _ (C69_one_outcome _ _ _ _ _ _ _ _ _ _ _ H L)) as E.
Theorem C71_lower_half_lines {OL : OrdLaws T} x y z :
  (says [] (ab_ "max") [("a", enc_lb x); ("b", enc_lb y)] (Ret (enc_lb z)) -> forall t, above z t <-> above x t /\ above y t) /\
  (says [] (ab_ "min") [("a", enc_lb x); ("b", enc_lb y)] (Ret (enc_lb z)) -> forall t, above z t <-> above x t \/ above y t).
Proof.
  destruct (C71_lower_bounds x y) as (_ & _ & A & B).
  split; intros H t; [one H A|one H B]; apply enc_lb_inj in E; subst z; apply (C15_lower_half_lines T OT OL x y t).
Qed.
Theorem C71_upper_half_lines {OL : OrdLaws T} u w z :
  (says [] (ab_ "min") [("a", enc_ub u); ("b", enc_ub w)] (Ret (enc_ub z)) -> forall t, below z t <-> below u t /\ below w t) /\
  (says [] (ab_ "max") [("a", enc_ub u); ("b", enc_ub w)] (Ret (enc_ub z)) -> forall t, below z t <-> below u t \/ below w t).
Proof.
  destruct (C71_upper_bounds u w) as (_ & _ & A & B).
  split; intros H t; [one H B|one H A]; apply enc_ub_inj in E; subst z; apply (C15_upper_half_lines T OT OL u w t).
Qed.
Theorem C71_flipped_complements {OL : OrdLaws T} b b' :
  says [] (a_ "flipped") [("a", enc_bound b)] (Ret (enc_bound b')) ->
  forall t, (below (UB b') t <-> ~ above (LB b) t) /\ (above (LB b') t <-> ~ below (UB b) t).
Proof.
  intros H t. one H (proj1 (C71_make_bounds b t)). apply enc_bound_inj in E. subst b'. apply (C44_flipped T OT OL b t).
Qed.
(** A range made of two bounds has the elements between them. *)
Theorem C71_new_members x u (r : BoundedRange T) :
  says [] (ECall "BoundedRange" "new" [EVar "a"; EVar "b"]) [("a", enc_lb x); ("b", enc_ub u)] (Ret (enc_br r)) ->
  forall t, mem (VBR r) t <-> above x t /\ below u t.
Proof.
  intros H t. one H (proj1 (C71_constructors x u (UBR u) (LBR x))). apply enc_br_inj in E. subst r. reflexivity.
Qed.
End Bounds.

(** ** Indexing *)
Lemma conv_ends (T : Type) (PF : Platform) (OT : Ord T) (ST : Step T) (m : mode) : steps_end T m ->
  (forall r : BoundedRange T, range_from_br m r <> Diverge) /\
  (forall r : LowerBoundedRange T, range_from_from_lbr m r <> Diverge) /\
  (forall r : UpperBoundedRange T, range_to_from_ubr m r <> Diverge).
Proof.
  intros SE. assert (F : forall t : T, forward m t 1 <> Diverge) by (intros; apply SE).
  unfold range_from_br, range_from_from_lbr, range_to_from_ubr.
  repeat split; intros r; [destruct r as [[[s|s]] [[t|t]]]; pose proof (F t)|destruct r as [[[s|s]]]|destruct r as [[[s|s]]]]; pose proof (F s);
    cbn; repeat (match goal with |- context [forward ?m ?x ?n] => destruct (forward m x n) eqn:? end; cbn); congruence.
Qed.
(** The ranges std indexes with. *)
Inductive std_ix {PF : Platform} : Type :=
| SRange (r : Range (mint Usize))
| SFrom (r : RangeFrom (mint Usize))
| STo (r : RangeTo (mint Usize))
| SFull (r : RangeFull).
Section Index.
Context {PF : Platform}.
Notation usize := (mint Usize).
Definition enc_std (x : std_ix) : val usize :=
  match x with SRange r => enc_range r | SFrom r => enc_rf r | STo r => enc_rt r | SFull r => enc_rfull r end.
Definition ix_name (r : index_range) : string :=
  match r with
  | IxBounded _ => "BoundedRange" | IxLower _ => "LowerBoundedRange" | IxUpper _ => "UpperBoundedRange"
  | IxUnbounded _ => "UnboundedRange" | IxEmpty _ => "EmptyRange"
  end.
Definition enc_ix (r : index_range) : val usize :=
  match r with
  | IxBounded r => enc_br r | IxLower r => enc_lbr r | IxUpper r => enc_ubr r | IxUnbounded r => enc_unbr r | IxEmpty r => enc_empty r
  end.
(** [s[r]] where [s] is of the type [self]: the impl of the trait [tr] has a function [fn]
    whose text is [&self[e]] or [&mut self[e]] (the translation writes both so), the
    expression [e] ends with a range of std, and [std] says how std indexes with that. *)
Definition src_index {R : Type} (m : mode) (tr fn self : string) (std : std_ix -> outcome R) (r : index_range) (o : outcome R) : Prop :=
  exists sc k e q,
    lookup_fn (KFn (Some (tr, ix_name r)) self [] fn) = Some (sc, Fn fn k [PBind "r"] (ERef (EIndex (EVar "self") e))) /\
    (forall v, says (Some default) m sc e [("self", v); ("r", enc_ix r)] (x <- q ;; Ret (enc_std x))) /\
    o = (x <- q ;; std x).
(** How std indexes a slice or a vector with [len] elements, a string with the bytes [s],
    a C string with [len] bytes and the nul, and strings of the system. *)
Definition std_slice (len : Z) (x : std_ix) : outcome (Z * Z) :=
  match x with
  | SRange r => std_slice_range len r | SFrom r => std_slice_range_from len r
  | STo r => std_slice_range_to len r | SFull r => std_slice_range_full len r
  end.
Definition std_str (s : list Z) (x : std_ix) : outcome (Z * Z) :=
  match x with
  | SRange r => std_str_range s r | SFrom r => std_str_range_from s r
  | STo r => std_str_range_to s r | SFull r => std_str_range_full s r
  end.
Definition std_from (len : Z) (x : std_ix) : outcome (Z * Z) :=
  match x with SFrom r => std_cstr_range_from (len + 1) r | _ => Panic end.
Definition std_full {A : Type} (v : list A) (x : std_ix) : outcome (list A) :=
  match x with SFull _ => Ret v | _ => Panic end.

Lemma enc_std_inj x y : enc_std x = enc_std y -> x = y.
Proof.
  destruct x as [[]|[]|[]|[]], y as [[]|[]|[]|[]]; unfold enc_std, enc_range, enc_rf, enc_rt, enc_rfull;
    simpl; congruence.
Qed.
Lemma src_index_one {R : Type} m tr fn self (std : std_ix -> outcome R) r o o' :
  src_index m tr fn self std r o -> src_index m tr fn self std r o' -> o = o'.
Proof.
  intros (sc & k & e & q & L & H & ->) (sc' & k' & e' & q' & L' & H' & ->). rewrite L in L'. injection L' as <- <- <-.
  specialize (H unit_val). specialize (H' unit_val).
  pose proof (C69_one_outcome _ _ _ _ _ _ _ _ _ _ _ H H') as E.
  destruct q, q'; cbn in E |- *; try discriminate E; try reflexivity. now rewrite (enc_std_inj _ _ (ret_inj _ _ E)).
Qed.
Definition std_of (m : mode) (r : index_range) : outcome std_ix :=
  match r with
  | IxBounded r => x <- range_from_br m r ;; Ret (SRange x)
  | IxLower r => x <- range_from_from_lbr m r ;; Ret (SFrom x)
  | IxUpper r => x <- range_to_from_ubr m r ;; Ret (STo x)
  | IxUnbounded r => Ret (SFull (range_full_from_unbr r))
  | IxEmpty r => Ret (SRange (range_from_empty r))
  end.
Definition ix_expr (r : index_range) : RustSyntax.expr :=
  ECall match r with
        | IxBounded _ | IxEmpty _ => "Range" | IxLower _ => "RangeFrom" | IxUpper _ => "RangeTo" | IxUnbounded _ => "RangeFull"
        end "from" [EVar "r"].
Lemma ix_says m r v : says (Some default) m [] (ix_expr r) [("self", v); ("r", enc_ix r)] (x <- std_of m r ;; Ret (enc_std x)).
Proof.
  destruct (conv_ends usize PF _ _ m (C70_int_steps_end Usize m)) as (A & B & C).
  destruct r as [r|r|r|r|r]; cbn [std_of].
  - specialize (A r). replace (bind _ _) with (x <- range_from_br m r ;; Ret (enc_range x)) by (destruct range_from_br; reflexivity).
    apply says_of; [destruct range_from_br; discriminate || congruence|apply s_ix_br].
  - specialize (B r). replace (bind _ _) with (x <- range_from_from_lbr m r ;; Ret (enc_rf x)) by (destruct range_from_from_lbr; reflexivity).
    apply says_of; [destruct range_from_from_lbr; discriminate || congruence|apply s_ix_lbr].
  - specialize (C r). replace (bind _ _) with (x <- range_to_from_ubr m r ;; Ret (enc_rt x)) by (destruct range_to_from_ubr; reflexivity).
    apply says_of; [destruct range_to_from_ubr; discriminate || congruence|apply s_ix_ubr].
  - apply says_of; [discriminate|apply s_ix_unbr].
  - apply says_of; [discriminate|apply s_ix_empty].
Qed.
Lemma src_index_iff {R : Type} m tr fn self (std : std_ix -> outcome R) r (p : outcome R) :
  (exists k, lookup_fn (KFn (Some (tr, ix_name r)) self [] fn) = Some ([], Fn fn k [PBind "r"] (ERef (EIndex (EVar "self") (ix_expr r))))) ->
  (x <- std_of m r ;; std x) = p ->
  forall o, src_index m tr fn self std r o <-> o = p.
Proof.
  intros [k L] E o. assert (W : src_index m tr fn self std r p).
  { exists [], k, (ix_expr r), (std_of m r). split; [exact L|]. split; [intros v; apply ix_says|auto]. }
  split; [intros H; exact (src_index_one _ _ _ _ _ _ _ _ H W)|intros ->; exact W].
Qed.

(** The impls: [Index] with the five ranges and [IndexMut] with all but the empty one. *)
Definition has_mut (r : index_range) : bool := match r with IxEmpty _ => false | _ => true end.
Definition index_fn (tr fn : string) (r : index_range) : Prop :=
  tr = "Index" /\ fn = "index" \/ has_mut r = true /\ tr = "IndexMut" /\ fn = "index_mut".
Ltac found := eexists; vm_compute; reflexivity.
Theorem C71_slice_index m tr fn self len r : index_fn tr fn r -> self = "slice" \/ self = "Vec" ->
  forall o, src_index m tr fn self (std_slice len) r o <-> o = slice_positions m len r.
Proof.
  intros I S. apply src_index_iff.
  - destruct S as [-> | ->], I as [[-> ->] | (H & -> & ->)]; destruct r; try discriminate H; found.
  - destruct r as [r|r|r|r|r]; cbn [std_of slice_positions]; try reflexivity;
      [destruct range_from_br|destruct range_from_from_lbr|destruct range_to_from_ubr]; reflexivity.
Qed.
Theorem C71_str_index m tr fn self s r : index_fn tr fn r -> self = "str" \/ self = "String" ->
  forall o, src_index m tr fn self (std_str s) r o <-> o = str_positions m s r.
Proof.
  intros I S. apply src_index_iff.
  - destruct S as [-> | ->], I as [[-> ->] | (H & -> & ->)]; destruct r; try discriminate H; found.
  - destruct r as [r|r|r|r|r]; cbn [std_of str_positions]; try reflexivity;
      [destruct range_from_br|destruct range_from_from_lbr|destruct range_to_from_ubr]; reflexivity.
Qed.
Theorem C71_cstr_index m (v : list Z) (r : LowerBoundedRange usize) :
  forall o, src_index m "Index" "index" "CStr" (fun x => p <- std_from (Z.of_nat (length v)) x ;; Ret (part v p)) (IxLower r) o
    <-> o = cstr_index m v r.
Proof.
  apply src_index_iff; [found|]. cbn [std_of]. unfold cstr_index. destruct range_from_from_lbr; reflexivity.
Qed.
Theorem C71_full_index {A : Type} m tr fn self (v : list A) (r : UnboundedRange) :
  (tr, fn, self) = ("Index", "index", "CString") \/ (tr, fn, self) = ("Index", "index", "OsString") \/
  (tr, fn, self) = ("IndexMut", "index_mut", "OsString") ->
  forall o, src_index m tr fn self (std_full v) (IxUnbounded r) o <-> o = Ret (full_index v r).
Proof.
  intros I. apply src_index_iff; [destruct I as [I|[I|I]]; injection I as -> -> ->; found|].
  cbn [std_of bind std_full]. unfold full_index. destruct range_full_from_unbr. reflexivity.
Qed.
(** There are no others. *)
Definition headers (trs : list string) (l : list impl) : list (string * string * string) :=
  flat_map (fun i => match i with
                     | Impl (Some (t, a)) s _ _ _ _ => if existsb (String.eqb t) trs then [(t, a, s)] else []
                     | _ => []
                     end) l.
Definition uses (r s : string) : list (string * string * string) := [("Index", r, s); ("IndexMut", r, s)].
(** Every header of the first list is in the second. *)
Definition header_eqb (g h : string * string * string) : bool :=
  String.eqb (fst (fst g)) (fst (fst h)) && String.eqb (snd (fst g)) (snd (fst h)) && String.eqb (snd g) (snd h).
Lemma all_in (a b : list (string * string * string)) : forallb (fun g => existsb (header_eqb g) b) a = true ->
  forall h, In h a -> In h b.
Proof.
  intros H h Hh. rewrite forallb_forall in H. specialize (H h Hh). apply existsb_exists in H as (g & Hg & E).
  destruct g as [[x y] z], h as [[x' y'] z']. unfold header_eqb in E. cbn in E.
  apply andb_prop in E as [E E3]. apply andb_prop in E as [E1 E2]. apply String.eqb_eq in E1, E2, E3. subst. exact Hg.
Qed.
Theorem C71_index_impls : forall h, In h (headers ["Index"; "IndexMut"] source_impls) <->
  In h (flat_map (fun r => flat_map (uses r) ["slice"; "Vec"; "str"; "String"])
          ["BoundedRange"; "LowerBoundedRange"; "UpperBoundedRange"; "UnboundedRange"] ++
        map (fun s => ("Index", "EmptyRange", s)) ["slice"; "Vec"; "str"; "String"] ++
        [("Index", "LowerBoundedRange", "CStr"); ("Index", "UnboundedRange", "CString");
         ("Index", "UnboundedRange", "OsString"); ("IndexMut", "UnboundedRange", "OsString")]).
Proof.
  intros h. split; revert h; apply all_in; vm_compute; reflexivity.
Qed.

(** Hence (C38): in a debug build [&v[r]] on a slice or vector, as the source has it, is the
    elements of [v] at the positions that are in [r], or panics when [r] is not within [v]. *)
Theorem C71_slice_picks {A : Type} self (v : list A) r p : self = "slice" \/ self = "Vec" -> Z.of_nat (length v) <= usize_max ->
  src_index Debug "Index" "index" self (std_slice (Z.of_nat (length v))) r (Ret p) ->
  picks (selects r) v (part v p).
Proof.
  intros S L H. apply C71_slice_index in H; [|left; auto|exact S].
  apply (C38_selected_elements_partial PF A v (part v p) r L). unfold slice_index. rewrite <- H. reflexivity.
Qed.
Theorem C71_slice_panics {A : Type} self (v : list A) r : self = "slice" \/ self = "Vec" -> Z.of_nat (length v) <= usize_max ->
  (src_index Debug "Index" "index" self (std_slice (Z.of_nat (length v))) r Panic <->
   ~ ix_first r <= ix_stop (Z.of_nat (length v)) r <= Z.of_nat (length v)).
Proof.
  intros S L. rewrite C71_slice_index by (auto; left; auto).
  destruct (C38_debug_exact PF A v v r L) as (_ & <- & _). unfold slice_index. destruct slice_positions; cbn; split; congruence.
Qed.
End Index.

(** ** Examples *)
Example C71_bounds_ex :
  val_in Debug [] (EMethod (EVar "a") "cmp" [EVar "b"]) [("a", enc_lb (LB (Included (u 3)))); ("b", enc_lb (LB (Excluded (u 3))))]
    = Some (Ret (ordering_val Lt)) /\
  val_in Debug [] (EMethod (EVar "a") "cmp" [EVar "b"]) [("a", enc_ub (UB (Included (u 3)))); ("b", enc_ub (UB (Excluded (u 3))))]
    = Some (Ret (ordering_val Gt)) /\
  val_in Debug [] (EMethod (EVar "a") "max" [EVar "b"]) [("a", enc_lb (LB (Excluded (u 3)))); ("b", enc_lb (LB (Included (u 3))))]
    = Some (Ret (enc_lb (LB (Excluded (u 3))))) /\
  val_in Debug [] (EMethod (EVar "a") "min" [EVar "b"]) [("a", enc_ub (UB (Included (u 3)))); ("b", enc_ub (UB (Included (u 7))))]
    = Some (Ret (enc_ub (UB (Included (u 3))))).
Proof. repeat split; vm_compute; reflexivity. Qed.
Example C71_constructors_ex :
  val_in Debug [] (ECall "BoundedRange" "new" [ECall "LowerBound" "included" [EVar "a"]; ECall "UpperBound" "excluded" [EVar "b"]])
    [("a", DElt (u 3)); ("b", DElt (u 9))] = Some (Ret (enc_br (half 3 9))) /\
  val_in Debug [] (ECall "UnboundedSet" "new" [EVar "a"; EVar "b"])
    [("a", enc_ubr (UBR (UB (Excluded (u 5))))); ("b", enc_lbr (LBR (LB (Included (u 5)))))]
    = Some (Ret (enc_us (Piecewise (PUS (UBR (UB (Excluded (u 5)))) (BS []) (LBR (LB (Included (u 5)))))))) /\
  val_in Debug [] (ECall "UnboundedSet" "new" [EVar "a"; EVar "b"])
    [("a", enc_ubr (UBR (UB (Included (u 5))))); ("b", enc_lbr (LBR (LB (Included (u 5)))))]
    = Some (Ret (enc_us Full)).
Proof. repeat split; vm_compute; reflexivity. Qed.
(** [a.map(|x| Some(x))]. *)
Example C71_map_ex :
  (forall t : U, runs (PF := pf64) None Debug (answer (PF := pf64) None Debug (RClo [] [] [PBind "x"] (ECon "Some" [("0", EVar "x")]) [(false, DElt t)]))
    (Ret (AVal (enc_opt (@DElt U) (Some t)) [None]))) /\
  (forall (z : option U) p, enc_opt (@DElt U) z <> DRef p) /\
  val_in Debug [] (EMethod (EVar "a") "map" [EClo [PBind "x"] (ECon "Some" [("0", EVar "x")])]) [("a", enc_lb (LB (Excluded (u 3))))]
    = Some (Ret (DCon "LowerBound" "LowerBound" [("0", DCon "Bound" "Excluded" [("0", some_val (DElt (u 3)))])])).
Proof.
  split; [|split].
  - intros t. apply exec_runs with (fuel := 50%nat); [vm_compute; reflexivity|discriminate].
  - intros [|] p; discriminate.
  - vm_compute. reflexivity.
Qed.
Definition w6 (z : Z) : mint (PF := pf64) Usize := lit Usize z.
Example C71_slice_ex :
  src_index (PF := pf64) Debug "Index" "index" "Vec" (std_slice 6) (IxBounded (BR (LB (Excluded (w6 1))) (UB (Included (w6 3))))) (Ret (2, 4)) /\
  src_index (PF := pf64) Debug "IndexMut" "index_mut" "slice" (std_slice 6) (IxLower (LBR (LB (Included (w6 7))))) Panic /\
  src_index (PF := pf64) Release "Index" "index" "slice" (std_slice 6) (IxUpper (UBR (UB (Included (w6 (2 ^ 64 - 1)))))) (Ret (0, 0)) /\
  src_index (PF := pf64) Debug "Index" "index" "str" (std_str [0x61; 0xC3; 0xA9]) (IxLower (LBR (LB (Included (w6 2))))) Panic.
Proof.
  split; [|split; [|split]].
  - apply C71_slice_index; [left; auto|auto|vm_compute; reflexivity].
  - apply C71_slice_index; [right; auto|auto|vm_compute; reflexivity].
  - apply C71_slice_index; [left; auto|auto|vm_compute; reflexivity].
  - apply C71_str_index; [left; auto|auto|vm_compute; reflexivity].
Qed.

Print Assumptions C71_lower_bounds.
Print Assumptions C71_upper_bounds.
Print Assumptions C71_make_bounds.
Print Assumptions C71_constructors.
Print Assumptions C71_map.
Print Assumptions C71_lower_half_lines.
Print Assumptions C71_upper_half_lines.
Print Assumptions C71_flipped_complements.
Print Assumptions C71_new_members.
Print Assumptions C71_slice_index.
Print Assumptions C71_str_index.
Print Assumptions C71_cstr_index.
Print Assumptions C71_full_index.
Print Assumptions C71_index_impls.
Print Assumptions C71_slice_picks.
Print Assumptions C71_slice_panics.
