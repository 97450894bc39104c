(** The project's own tests run in the model: every #[test] function of
    src/test and every documentation example, translated by
    tools/gen_repo_tests.py (do not edit by hand).  The Rust code cannot be
    built here, so this is how the model is compared with what the authors
    observed of the program: a test that passes there must pass here. *)
From Verif Require Import Base ModelBound ModelRanges ModelSets ModelAlgebra ModelValue ModelEq
  ModelStep InstancesStep ModelIter ModelConv ModelIndex.
Open Scope Z_scope.

(** ** Test kit: [assert!], and a sum of the types to run methods on.
    Tests run with overflow checks ([Debug]) on a 64-bit target. *)
#[local] Existing Instance pf64.

Definition assert (b : bool) : outcome unit := if b then Ret tt else Panic.
Definition passes (m : outcome unit) : Prop := m = Ret tt.
Definition is_lt (c : comparison) : bool := match c with Lt => true | _ => false end.

Definition list_eqb (a b : list Z) : bool := vd_eqb Z.eqb a b.
Definition opt_eqb (a b : option Z) : bool :=
  match a, b with Some x, Some y => x =? y | None, None => true | _, _ => false end.
Definition hint_eqb (a b : Z * option Z) : bool := (fst a =? fst b) && opt_eqb (snd a) (snd b).

Section Kit.
Context {ty : ity}.
Notation T := (mint ty).

Definition unbounded_set_new (u l : value T) : outcome (value T) :=
  match u, l with VUBR u, VLBR l => Ret (VUS (us_new u l)) | _, _ => Panic end.
Definition start_of (v : value T) : outcome (LowerBound T) :=
  match v with VBR r => Ret (br_start r) | VLBR r => Ret (lbr_start r) | _ => Panic end.
Definition end_of (v : value T) : outcome (UpperBound T) :=
  match v with VBR r => Ret (br_end r) | VUBR r => Ret (ubr_end r) | _ => Panic end.

Definition to_std_range (v : value T) : outcome (value T) :=
  match v with
  | VBR r => x <- range_from_br Debug r ;; Ret (VRange x)
  | VEmpty r => Ret (VRange (range_from_empty r))
  | _ => Panic
  end.
Definition to_std_range_inclusive (v : value T) : outcome (value T) :=
  match v with
  | VBR r => x <- range_inclusive_from_br Debug r ;; Ret (VRangeInclusive x)
  | VEmpty r => x <- range_inclusive_from_empty Debug r ;; Ret (VRangeInclusive x)
  | _ => Panic
  end.
Definition to_std_range_from (v : value T) : outcome (value T) :=
  match v with VLBR r => x <- range_from_from_lbr Debug r ;; Ret (VRangeFrom x) | _ => Panic end.
Definition to_std_range_to (v : value T) : outcome (value T) :=
  match v with VUBR r => x <- range_to_from_ubr Debug r ;; Ret (VRangeTo x) | _ => Panic end.
Definition to_std_range_to_inclusive (v : value T) : outcome (value T) :=
  match v with VUBR r => x <- range_to_inclusive_from_ubr Debug r ;; Ret (VRangeToInclusive x) | _ => Panic end.
Definition to_std_range_full (v : value T) : outcome (value T) :=
  match v with VUnbR r => Ret (VRangeFull (range_full_from_unbr r)) | _ => Panic end.

Inductive iter : Type :=
| ItBR (i : BoundedRangeIter T) | ItBS (i : BoundedSetIter T)
| ItLBR (i : LowerBoundedRangeIter T) | ItLBS (i : LowerBoundedSetIter T)
| ItEmpty.
Definition into_iter (v : value T) : outcome iter :=
  match v with
  | VBR r => x <- br_into_iter Debug r ;; Ret (ItBR x)
  | VBS s => x <- bs_into_iter Debug s ;; Ret (ItBS x)
  | VLBR r => x <- lbr_into_iter Debug r ;; Ret (ItLBR x)
  | VLBS s => x <- lbs_into_iter Debug s ;; Ret (ItLBS x)
  | VEmpty _ => Ret ItEmpty
  | _ => Panic
  end.
Definition wrap_it {S : Type} (f : S -> iter) (m : outcome (option T * S)) : outcome (option Z * iter) :=
  p <- m ;; Ret (option_map mval (fst p), f (snd p)).
Definition it_next (i : iter) : outcome (option Z * iter) :=
  match i with
  | ItBR i => wrap_it ItBR (bri_next Debug i)
  | ItBS i => wrap_it ItBS (bsi_next Debug i)
  | ItLBR i => wrap_it ItLBR (lbri_next Debug i)
  | ItLBS i => wrap_it ItLBS (lbsi_next Debug i)
  | ItEmpty => Ret (None, ItEmpty)
  end.
Definition it_nth (i : iter) (n : Z) : outcome (option Z * iter) :=
  match i with
  | ItBR i => wrap_it ItBR (bri_nth Debug i n)
  | ItBS i => wrap_it ItBS (bsi_nth Debug i n)
  | ItLBR i => wrap_it ItLBR (lbri_nth Debug i n)
  | ItLBS i => wrap_it ItLBS (lbsi_nth Debug i n)
  | ItEmpty => Ret (None, ItEmpty)
  end.
Definition it_next_back (i : iter) : outcome (option Z * iter) :=
  match i with
  | ItBR i => wrap_it ItBR (bri_next_back Debug i)
  | ItBS i => wrap_it ItBS (bsi_next_back Debug i)
  | ItEmpty => Ret (None, ItEmpty)
  | _ => Panic
  end.
Definition it_nth_back (i : iter) (n : Z) : outcome (option Z * iter) :=
  match i with
  | ItBR i => wrap_it ItBR (bri_nth_back Debug i n)
  | ItBS i => wrap_it ItBS (bsi_nth_back Debug i n)
  | ItEmpty => Ret (None, ItEmpty)
  | _ => Panic
  end.
Definition it_size_hint (i : iter) : outcome (Z * option Z) :=
  match i with
  | ItBR i => bri_size_hint Debug i
  | ItBS i => bsi_size_hint Debug i
  | ItLBR i => Ret (lbri_size_hint i)
  | ItLBS i => Ret (lbsi_size_hint i)
  | ItEmpty => Ret (0, Some 0)
  end.
Definition it_count (i : iter) : outcome Z :=
  match i with
  | ItBR i => bri_count Debug i
  | ItBS i => bsi_count Debug i
  | ItEmpty => Ret 0
  | _ => Panic
  end.
Definition it_min (i : iter) : outcome (option Z) :=
  o <- match i with
       | ItBR i => bri_min Debug i
       | ItBS i => bsi_min Debug i
       | ItLBR i => lbri_min Debug i
       | ItLBS i => lbsi_min Debug i
       | ItEmpty => Ret None
       end ;; Ret (option_map mval o).
Definition it_max (i : iter) : outcome (option Z) :=
  o <- match i with
       | ItBR i => bri_max Debug i
       | ItBS i => bsi_max Debug i
       | ItEmpty => Ret None
       | _ => Panic
       end ;; Ret (option_map mval o).

(** [collect] with fuel; no test needs more than 50 elements. *)
Fixpoint drain {S A : Type} (next : S -> outcome (option A * S)) (fuel : nat) (s : S) : outcome (list A) :=
  match fuel with
  | O => Diverge
  | Datatypes.S fuel =>
    p <- next s ;;
    match fst p with
    | Some x => l <- drain next fuel (snd p) ;; Ret (x :: l)
    | None => Ret []
    end
  end.
Definition it_collect (i : iter) : outcome (list Z) := drain it_next 50 i.
Fixpoint take_nat (n : nat) (i : iter) : outcome (list Z) :=
  match n with
  | O => Ret []
  | Datatypes.S n =>
    p <- it_next i ;;
    match fst p with Some x => l <- take_nat n (snd p) ;; Ret (x :: l) | None => Ret [] end
  end.
Definition it_take (n : Z) (i : iter) : outcome (list Z) := take_nat (Z.to_nat n) i.
(** [last] of a set drains its last piece (see [bsi_last] in ModelIter.v). *)
Definition it_last (i : iter) : outcome (option Z) :=
  match i with
  | ItBR i => Ret (option_map mval (bri_last i))
  | ItBS i =>
    its <- trim Debug (rev (bsi_range_iters i)) ;;
    match its with
    | [] => Ret None
    | i :: _ => l <- drain (bri_next Debug) 50 i ;; Ret (option_map mval (vd_back l))
    end
  | ItEmpty => Ret None
  | _ => Panic
  end.
End Kit.

(** [drain] is the relation the theorems use. *)
Lemma drain_drains {S A : Type} (next : S -> outcome (option A * S)) (n : nat) :
  forall s l, drain next n s = Ret l -> drains next s (Ret l).
Proof.
  induction n as [|n IH]; intros s l H; cbn in H; [discriminate|].
  destruct (next s) as [[o s']| |] eqn:E; cbn in H; try discriminate.
  destruct o as [x|]; cbn in H.
  - destruct (drain next n s') as [k| |] eqn:E'; cbn in H; try discriminate.
    injection H as <-. apply (drains_item _ s s' x (Ret k) E), IH, E'.
  - injection H as <-. exact (drains_done _ s s' E).
Qed.

Definition index_of (v : value (mint Usize)) : outcome index_range :=
  match v with
  | VBR r => Ret (IxBounded r) | VLBR r => Ret (IxLower r) | VUBR r => Ret (IxUpper r)
  | VUnbR r => Ret (IxUnbounded r) | VEmpty r => Ret (IxEmpty r) | _ => Panic
  end.
Definition cstr_index_value (m : mode) (s : list Z) (v : value (mint Usize)) : outcome (list Z) :=
  match v with VLBR r => cstr_index m s r | VUnbR r => Ret (full_index s r) | _ => Panic end.
Definition full_index_mut_value (s : list Z) (v : value (mint Usize)) (f : list Z -> list Z) : outcome (list Z) :=
  match v with VUnbR r => Ret (full_index_mut s r f) | _ => Panic end.
(** [make_ascii_uppercase]. *)
Definition upper (l : list Z) : list Z := map (fun b => if (97 <=? b) && (b <=? 122) then b - 32 else b) l.
Definition set_nth (n : nat) (z : Z) (l : list Z) : list Z := firstn n l ++ z :: skipn (S n) l.

(** ** The tests *)


(** src/test/complement.rs:6-14 *)
Example test_complement_range : passes (
  let r := (VRange (mkRange (lit I32 5) (lit I32 10))) in
  x1 <- unbounded_set_new (VUBR (ubr_new (ub_excluded (lit I32 5)))) (VLBR (lbr_new (lb_included (lit I32 10)))) ;;
  let c := x1 in
  x2 <- complement r ;;
  _ <- assert (value_eqb x2 c) ;;
  Ret tt).
Proof. vm_compute. reflexivity. Qed.
(** src/test/complement.rs:16-24 *)
Example test_complement_range_inclusive : passes (
  let r := (VRangeInclusive (mkRangeInclusive (lit I32 5) (lit I32 10) false)) in
  x1 <- unbounded_set_new (VUBR (ubr_new (ub_excluded (lit I32 5)))) (VLBR (lbr_new (lb_excluded (lit I32 10)))) ;;
  let c := x1 in
  x2 <- complement r ;;
  _ <- assert (value_eqb x2 c) ;;
  Ret tt).
Proof. vm_compute. reflexivity. Qed.
(** src/test/complement.rs:26-31 *)
Example test_complement_range_to : passes (
  let r := (VRangeTo (mkRangeTo (lit I32 4))) in
  let c := (VLBR (lbr_new (lb_included (lit I32 4)))) in
  x1 <- complement r ;;
  _ <- assert (value_eqb x1 c) ;;
  Ret tt).
Proof. vm_compute. reflexivity. Qed.
(** src/test/complement.rs:33-38 *)
Example test_complement_range_to_inclusive : passes (
  let r := (VRangeToInclusive (mkRangeToInclusive (lit I32 4))) in
  let c := (VLBR (lbr_new (lb_excluded (lit I32 4)))) in
  x1 <- complement r ;;
  _ <- assert (value_eqb x1 c) ;;
  Ret tt).
Proof. vm_compute. reflexivity. Qed.
(** src/test/complement.rs:40-45 *)
Example test_complement_range_from : passes (
  let r := (VRangeFrom (mkRangeFrom (lit I32 2))) in
  let c := (VUBR (ubr_new (ub_excluded (lit I32 2)))) in
  x1 <- complement r ;;
  _ <- assert (value_eqb x1 c) ;;
  Ret tt).
Proof. vm_compute. reflexivity. Qed.
(** src/test/complement.rs:47-52 *)
Example test_complement_range_full : passes (
  let r := (VRangeFull mkRangeFull : value (mint I32)) in
  let c := (VEmpty mkEmptyRange : value (mint I32)) in
  x1 <- complement r ;;
  _ <- assert (value_eqb x1 c) ;;
  Ret tt).
Proof. vm_compute. reflexivity. Qed.
(** src/test/complement.rs:54-62 *)
Example test_complement_bounded_range : passes (
  let r := (value_of_inner (to_inner (VRange (mkRange (lit I128 1) (lit I128 3))))) in
  x1 <- unbounded_set_new (VUBR (ubr_new (ub_excluded (lit I128 1)))) (VLBR (lbr_new (lb_included (lit I128 3)))) ;;
  let c := x1 in
  x2 <- complement r ;;
  _ <- assert (value_eqb x2 c) ;;
  Ret tt).
Proof. vm_compute. reflexivity. Qed.
(** src/test/complement.rs:64-69 *)
Example test_complement_lower_bounded_range : passes (
  let r := (value_of_inner (to_inner (VRangeFrom (mkRangeFrom (lit I32 1))))) in
  let c := (VUBR (ubr_new (ub_excluded (lit I32 1)))) in
  x1 <- complement r ;;
  _ <- assert (value_eqb x1 c) ;;
  Ret tt).
Proof. vm_compute. reflexivity. Qed.
(** src/test/complement.rs:71-76 *)
Example test_complement_upper_bounded_range : passes (
  let r := (value_of_inner (to_inner (VRangeTo (mkRangeTo (lit I32 1))))) in
  let c := (VLBR (lbr_new (lb_included (lit I32 1)))) in
  x1 <- complement r ;;
  _ <- assert (value_eqb x1 c) ;;
  Ret tt).
Proof. vm_compute. reflexivity. Qed.
(** src/test/complement.rs:78-83 *)
Example test_complement_unbounded_range : passes (
  let r := (value_of_inner (to_inner (VRangeFull mkRangeFull : value (mint I32)))) in
  let c := (VEmpty mkEmptyRange : value (mint I32)) in
  x1 <- complement r ;;
  _ <- assert (value_eqb x1 c) ;;
  Ret tt).
Proof. vm_compute. reflexivity. Qed.
(** src/test/complement.rs:85-90 *)
Example test_complement_empty_range : passes (
  let r := (VEmpty mkEmptyRange : value (mint I32)) in
  let c := (VUnbR mkUnboundedRange : value (mint I32)) in
  x1 <- complement r ;;
  _ <- assert (value_eqb x1 c) ;;
  Ret tt).
Proof. vm_compute. reflexivity. Qed.
(** src/test/complement.rs:92-97 *)
Example test_complement_bounded_set : passes (
  x1 <- union (VRange (mkRange (lit I32 1) (lit I32 3))) (VRange (mkRange (lit I32 5) (lit I32 10))) ;;
  let s := x1 in
  x2 <- union (VRangeTo (mkRangeTo (lit I32 1))) (VRange (mkRange (lit I32 3) (lit I32 5))) ;;
  x3 <- union x2 (VRangeFrom (mkRangeFrom (lit I32 10))) ;;
  let c := x3 in
  x4 <- complement s ;;
  _ <- assert (value_eqb x4 c) ;;
  Ret tt).
Proof. vm_compute. reflexivity. Qed.
(** src/test/complement.rs:99-104 *)
Example test_complement_lower_bounded_set : passes (
  x1 <- union (VRange (mkRange (lit I32 1) (lit I32 2))) (VRangeFrom (mkRangeFrom (lit I32 4))) ;;
  let s := x1 in
  x2 <- union (VRangeTo (mkRangeTo (lit I32 1))) (VRange (mkRange (lit I32 2) (lit I32 4))) ;;
  let c := x2 in
  x3 <- complement s ;;
  _ <- assert (value_eqb x3 c) ;;
  Ret tt).
Proof. vm_compute. reflexivity. Qed.
(** src/test/complement.rs:106-111 *)
Example test_complement_upper_bounded_set : passes (
  x1 <- union (VRangeTo (mkRangeTo (lit I32 4))) (VRange (mkRange (lit I32 5) (lit I32 10))) ;;
  let s := x1 in
  x2 <- union (VRange (mkRange (lit I32 4) (lit I32 5))) (VRangeFrom (mkRangeFrom (lit I32 10))) ;;
  let c := x2 in
  x3 <- complement s ;;
  _ <- assert (value_eqb x3 c) ;;
  Ret tt).
Proof. vm_compute. reflexivity. Qed.
(** src/test/complement.rs:113-118 *)
Example test_complement_unbounded_set : passes (
  x1 <- union (VRangeTo (mkRangeTo (lit I32 1))) (VRange (mkRange (lit I32 3) (lit I32 5))) ;;
  x2 <- union x1 (VRangeFrom (mkRangeFrom (lit I32 10))) ;;
  let s := x2 in
  x3 <- union (VRange (mkRange (lit I32 1) (lit I32 3))) (VRange (mkRange (lit I32 5) (lit I32 10))) ;;
  let c := x3 in
  x4 <- complement s ;;
  _ <- assert (value_eqb x4 c) ;;
  Ret tt).
Proof. vm_compute. reflexivity. Qed.
(** src/test/conversions.rs:5-18 *)
Example test_conversions_range : passes (
  let a := (value_of_inner (to_inner (VRange (mkRange (lit I32 0) (lit I32 10))))) in
  x1 <- to_std_range a ;;
  let b := x1 in
  _ <- assert (value_eqb b (VRange (mkRange (lit I32 0) (lit I32 10)))) ;;
  let c := (value_of_inner (to_inner (VRangeInclusive (mkRangeInclusive (lit I32 0) (lit I32 10) false)))) in
  x2 <- to_std_range c ;;
  let d := x2 in
  _ <- assert (value_eqb d (VRange (mkRange (lit I32 0) (lit I32 11)))) ;;
  let e := (VEmpty mkEmptyRange : value (mint I32)) in
  x3 <- to_std_range e ;;
  let d := x3 in
  _ <- assert (is_empty d) ;;
  Ret tt).
Proof. vm_compute. reflexivity. Qed.
(** src/test/conversions.rs:20-33 *)
Example test_conversions_range_inclusive : passes (
  let a := (value_of_inner (to_inner (VRange (mkRange (lit I32 0) (lit I32 10))))) in
  x1 <- to_std_range_inclusive a ;;
  let b := x1 in
  _ <- assert (value_eqb b (VRangeInclusive (mkRangeInclusive (lit I32 0) (lit I32 9) false))) ;;
  let c := (value_of_inner (to_inner (VRangeInclusive (mkRangeInclusive (lit I32 0) (lit I32 10) false)))) in
  x2 <- to_std_range_inclusive c ;;
  let d := x2 in
  _ <- assert (value_eqb d (VRangeInclusive (mkRangeInclusive (lit I32 0) (lit I32 10) false))) ;;
  let e := (VEmpty mkEmptyRange : value (mint I32)) in
  x3 <- to_std_range_inclusive e ;;
  let d := x3 in
  _ <- assert (is_empty d) ;;
  Ret tt).
Proof. vm_compute. reflexivity. Qed.
(** src/test/conversions.rs:35-44 *)
Example test_conversions_range_to : passes (
  let a := (value_of_inner (to_inner (VRangeTo (mkRangeTo (lit I32 10))))) in
  x1 <- to_std_range_to a ;;
  let b := x1 in
  _ <- assert (value_eqb b (VRangeTo (mkRangeTo (lit I32 10)))) ;;
  let c := (value_of_inner (to_inner (VRangeToInclusive (mkRangeToInclusive (lit I32 10))))) in
  x2 <- to_std_range_to c ;;
  let d := x2 in
  _ <- assert (value_eqb d (VRangeTo (mkRangeTo (lit I32 11)))) ;;
  Ret tt).
Proof. vm_compute. reflexivity. Qed.
(** src/test/conversions.rs:46-55 *)
Example test_conversions_range_to_inclusive : passes (
  let a := (value_of_inner (to_inner (VRangeTo (mkRangeTo (lit I32 10))))) in
  x1 <- to_std_range_to_inclusive a ;;
  let b := x1 in
  _ <- assert (value_eqb b (VRangeToInclusive (mkRangeToInclusive (lit I32 9)))) ;;
  let c := (value_of_inner (to_inner (VRangeToInclusive (mkRangeToInclusive (lit I32 10))))) in
  x2 <- to_std_range_to_inclusive c ;;
  let d := x2 in
  _ <- assert (value_eqb d (VRangeToInclusive (mkRangeToInclusive (lit I32 10)))) ;;
  Ret tt).
Proof. vm_compute. reflexivity. Qed.
(** src/test/conversions.rs:57-66 *)
Example test_conversions_range_from : passes (
  let a := (value_of_inner (to_inner (VRangeFrom (mkRangeFrom (lit I32 10))))) in
  x1 <- to_std_range_from a ;;
  let b := x1 in
  _ <- assert (value_eqb b (VRangeFrom (mkRangeFrom (lit I32 10)))) ;;
  let c := (VLBR (lbr_new (lb_excluded (lit I32 10)))) in
  x2 <- to_std_range_from c ;;
  let d := x2 in
  _ <- assert (value_eqb d (VRangeFrom (mkRangeFrom (lit I32 11)))) ;;
  Ret tt).
Proof. vm_compute. reflexivity. Qed.
(** src/test/conversions.rs:68-73 *)
Example test_conversions_range_full : passes (
  let a := (VUnbR mkUnboundedRange : value (mint I32)) in
  x1 <- to_std_range_full a ;;
  let b := x1 in
  _ <- assert (value_eqb b (VRangeFull mkRangeFull : value (mint I32))) ;;
  Ret tt).
Proof. vm_compute. reflexivity. Qed.
(** src/test/index/bounded_range.rs:3-11 *)
Example test_index_bounded_range_string : passes (
  let s := [104; 101; 108; 108; 111; 44; 32; 119; 111; 114; 108; 100; 33] in
  let r1 := (value_of_inner (to_inner (VRange (mkRange (lit Usize 0) (lit Usize 5))))) in
  x1 <- index_of r1 ;;
  x2 <- str_index Debug s x1 ;;
  _ <- assert (list_eqb x2 [104; 101; 108; 108; 111]) ;;
  let r2 := (value_of_inner (to_inner (VRangeInclusive (mkRangeInclusive (lit Usize 7) (lit Usize 11) false)))) in
  x3 <- index_of r2 ;;
  x4 <- str_index Debug s x3 ;;
  _ <- assert (list_eqb x4 [119; 111; 114; 108; 100]) ;;
  Ret tt).
Proof. vm_compute. reflexivity. Qed.
(** src/test/index/bounded_range.rs:13-22 *)
Example test_index_bounded_range_string_mut : passes (
  let s := [104; 101; 108; 108; 111; 44; 32; 119; 111; 114; 108; 100; 33] in
  let r := (value_of_inner (to_inner (VRange (mkRange (lit Usize 0) (lit Usize 5))))) in
  x1 <- index_of r ;;
  s <- str_index_mut Debug s x1 (set_nth 2 110) ;;
  _ <- assert (list_eqb s [104; 101; 110; 108; 111; 44; 32; 119; 111; 114; 108; 100; 33]) ;;
  Ret tt).
Proof. vm_compute. reflexivity. Qed.
(** src/test/index/bounded_range.rs:24-32 *)
Example test_index_bounded_range_str : passes (
  let s := [104; 101; 108; 108; 111; 44; 32; 119; 111; 114; 108; 100; 33] in
  let r1 := (value_of_inner (to_inner (VRange (mkRange (lit Usize 0) (lit Usize 5))))) in
  x1 <- index_of r1 ;;
  x2 <- str_index Debug s x1 ;;
  _ <- assert (list_eqb x2 [104; 101; 108; 108; 111]) ;;
  let r2 := (value_of_inner (to_inner (VRangeInclusive (mkRangeInclusive (lit Usize 7) (lit Usize 11) false)))) in
  x3 <- index_of r2 ;;
  x4 <- str_index Debug s x3 ;;
  _ <- assert (list_eqb x4 [119; 111; 114; 108; 100]) ;;
  Ret tt).
Proof. vm_compute. reflexivity. Qed.
(** src/test/index/bounded_range.rs:34-44 *)
Example test_index_bounded_range_str_mut : passes (
  let outer := [104; 101; 108; 108; 111; 44; 32; 119; 111; 114; 108; 100; 33] in
  let s := outer in
  let r := (value_of_inner (to_inner (VRange (mkRange (lit Usize 0) (lit Usize 5))))) in
  x1 <- index_of r ;;
  s <- str_index_mut Debug s x1 (set_nth 2 110) ;;
  _ <- assert (list_eqb s [104; 101; 110; 108; 111; 44; 32; 119; 111; 114; 108; 100; 33]) ;;
  Ret tt).
Proof. vm_compute. reflexivity. Qed.
(** src/test/index/bounded_range.rs:46-55 *)
Example test_index_bounded_range_slice : passes (
  let outer := [1; 2; 3; 4; 5] in
  let slice := outer in
  let r1 := (value_of_inner (to_inner (VRange (mkRange (lit Usize 0) (lit Usize 2))))) in
  x1 <- index_of r1 ;;
  x2 <- slice_index Debug slice x1 ;;
  _ <- assert (list_eqb x2 [1; 2]) ;;
  let r2 := (value_of_inner (to_inner (VRangeInclusive (mkRangeInclusive (lit Usize 2) (lit Usize 4) false)))) in
  x3 <- index_of r2 ;;
  x4 <- slice_index Debug slice x3 ;;
  _ <- assert (list_eqb x4 [3; 4; 5]) ;;
  Ret tt).
Proof. vm_compute. reflexivity. Qed.
(** src/test/index/bounded_range.rs:57-64 *)
Example test_index_bounded_range_slice_mut : passes (
  let outer := [1; 2; 3; 4; 5] in
  let slice := outer in
  let r := (value_of_inner (to_inner (VRange (mkRange (lit Usize 1) (lit Usize 3))))) in
  x1 <- index_of r ;;
  slice <- slice_index_mut Debug slice x1 (set_nth 0 7) ;;
  _ <- assert (list_eqb slice [1; 7; 3; 4; 5]) ;;
  Ret tt).
Proof. vm_compute. reflexivity. Qed.
(** src/test/index/bounded_range.rs:66-74 *)
Example test_index_bounded_range_vec : passes (
  let v := [1; 2; 3; 4; 5] in
  let r1 := (value_of_inner (to_inner (VRange (mkRange (lit Usize 0) (lit Usize 2))))) in
  x1 <- index_of r1 ;;
  x2 <- slice_index Debug v x1 ;;
  _ <- assert (list_eqb x2 [1; 2]) ;;
  let r2 := (value_of_inner (to_inner (VRangeInclusive (mkRangeInclusive (lit Usize 2) (lit Usize 4) false)))) in
  x3 <- index_of r2 ;;
  x4 <- slice_index Debug v x3 ;;
  _ <- assert (list_eqb x4 [3; 4; 5]) ;;
  Ret tt).
Proof. vm_compute. reflexivity. Qed.
(** src/test/index/bounded_range.rs:76-82 *)
Example test_index_bounded_range_vec_mut : passes (
  let v := [1; 2; 3; 4; 5] in
  let r := (value_of_inner (to_inner (VRange (mkRange (lit Usize 1) (lit Usize 3))))) in
  x1 <- index_of r ;;
  v <- slice_index_mut Debug v x1 (set_nth 0 7) ;;
  _ <- assert (list_eqb v [1; 7; 3; 4; 5]) ;;
  Ret tt).
Proof. vm_compute. reflexivity. Qed.
(** src/test/index/empty_range.rs:3-8 *)
Example test_index_empty_range_string : passes (
  let s := [104; 101; 108; 108; 111; 44; 32; 119; 111; 114; 108; 100; 33] in
  let r := (VEmpty mkEmptyRange : value (mint Usize)) in
  x1 <- index_of r ;;
  x2 <- str_index Debug s x1 ;;
  _ <- assert (list_eqb x2 []) ;;
  Ret tt).
Proof. vm_compute. reflexivity. Qed.
(** src/test/index/empty_range.rs:10-15 *)
Example test_index_empty_range_str : passes (
  let s := [104; 101; 108; 108; 111; 44; 32; 119; 111; 114; 108; 100; 33] in
  let r := (VEmpty mkEmptyRange : value (mint Usize)) in
  x1 <- index_of r ;;
  x2 <- str_index Debug s x1 ;;
  _ <- assert (list_eqb x2 []) ;;
  Ret tt).
Proof. vm_compute. reflexivity. Qed.
(** src/test/index/empty_range.rs:17-23 *)
Example test_index_empty_range_slice : passes (
  let outer := [1; 2; 3; 4; 5] in
  let slice := outer in
  let r := (VEmpty mkEmptyRange : value (mint Usize)) in
  x1 <- index_of r ;;
  x2 <- slice_index Debug slice x1 ;;
  _ <- assert (list_eqb x2 []) ;;
  Ret tt).
Proof. vm_compute. reflexivity. Qed.
(** src/test/index/empty_range.rs:25-30 *)
Example test_index_empty_range_vec : passes (
  let v := [1; 2; 3; 4; 5] in
  let r := (VEmpty mkEmptyRange : value (mint Usize)) in
  x1 <- index_of r ;;
  x2 <- slice_index Debug v x1 ;;
  _ <- assert (list_eqb x2 []) ;;
  Ret tt).
Proof. vm_compute. reflexivity. Qed.
(** src/test/index/lower_bounded_range.rs:3-8 *)
Example test_index_lower_bounded_range_string : passes (
  let s := [104; 101; 108; 108; 111; 44; 32; 119; 111; 114; 108; 100; 33] in
  let r := (value_of_inner (to_inner (VRangeFrom (mkRangeFrom (lit Usize 7))))) in
  x1 <- index_of r ;;
  x2 <- str_index Debug s x1 ;;
  _ <- assert (list_eqb x2 [119; 111; 114; 108; 100; 33]) ;;
  Ret tt).
Proof. vm_compute. reflexivity. Qed.
(** src/test/index/lower_bounded_range.rs:10-21 *)
Example test_index_lower_bounded_range_string_mut : passes (
  let s := [104; 101; 108; 108; 111; 44; 32; 119; 111; 114; 108; 100; 33] in
  let r := (value_of_inner (to_inner (VRangeFrom (mkRangeFrom (lit Usize 7))))) in
  x1 <- index_of r ;;
  s <- str_index_mut Debug s x1 (set_nth 1 117) ;;
  _ <- assert (list_eqb s [104; 101; 108; 108; 111; 44; 32; 119; 117; 114; 108; 100; 33]) ;;
  Ret tt).
Proof. vm_compute. reflexivity. Qed.
(** src/test/index/lower_bounded_range.rs:23-28 *)
Example test_index_lower_bounded_range_str : passes (
  let s := [104; 101; 108; 108; 111; 44; 32; 119; 111; 114; 108; 100; 33] in
  let r := (value_of_inner (to_inner (VRangeFrom (mkRangeFrom (lit Usize 7))))) in
  x1 <- index_of r ;;
  x2 <- str_index Debug s x1 ;;
  _ <- assert (list_eqb x2 [119; 111; 114; 108; 100; 33]) ;;
  Ret tt).
Proof. vm_compute. reflexivity. Qed.
(** src/test/index/lower_bounded_range.rs:30-42 *)
Example test_index_lower_bounded_range_str_mut : passes (
  let outer := [104; 101; 108; 108; 111; 44; 32; 119; 111; 114; 108; 100; 33] in
  let s := outer in
  let r := (value_of_inner (to_inner (VRangeFrom (mkRangeFrom (lit Usize 7))))) in
  x1 <- index_of r ;;
  s <- str_index_mut Debug s x1 (set_nth 1 117) ;;
  _ <- assert (list_eqb s [104; 101; 108; 108; 111; 44; 32; 119; 117; 114; 108; 100; 33]) ;;
  Ret tt).
Proof. vm_compute. reflexivity. Qed.
(** src/test/index/lower_bounded_range.rs:44-50 *)
Example test_index_lower_bounded_range_c_str : passes (
  let outer := [104; 101; 108; 108; 111; 44; 32; 119; 111; 114; 108; 100; 33] in
  let s := outer in
  let r := (value_of_inner (to_inner (VRangeFrom (mkRangeFrom (lit Usize 7))))) in
  x1 <- index_of r ;;
  x2 <- cstr_index_value Debug s r ;;
  _ <- assert (list_eqb x2 [119; 111; 114; 108; 100; 33]) ;;
  Ret tt).
Proof. vm_compute. reflexivity. Qed.
(** src/test/index/lower_bounded_range.rs:52-58 *)
Example test_index_lower_bounded_range_slice : passes (
  let outer := [1; 2; 3; 4; 5] in
  let slice := outer in
  let r := (value_of_inner (to_inner (VRangeFrom (mkRangeFrom (lit Usize 2))))) in
  x1 <- index_of r ;;
  x2 <- slice_index Debug slice x1 ;;
  _ <- assert (list_eqb x2 [3; 4; 5]) ;;
  Ret tt).
Proof. vm_compute. reflexivity. Qed.
(** src/test/index/lower_bounded_range.rs:60-67 *)
Example test_index_lower_bounded_range_slice_mut : passes (
  let outer := [1; 2; 3; 4; 5] in
  let slice := outer in
  let r := (value_of_inner (to_inner (VRangeFrom (mkRangeFrom (lit Usize 1))))) in
  x1 <- index_of r ;;
  slice <- slice_index_mut Debug slice x1 (set_nth 0 7) ;;
  _ <- assert (list_eqb slice [1; 7; 3; 4; 5]) ;;
  Ret tt).
Proof. vm_compute. reflexivity. Qed.
(** src/test/index/lower_bounded_range.rs:69-74 *)
Example test_index_lower_bounded_range_vec : passes (
  let v := [1; 2; 3; 4; 5] in
  let r := (value_of_inner (to_inner (VRangeFrom (mkRangeFrom (lit Usize 2))))) in
  x1 <- index_of r ;;
  x2 <- slice_index Debug v x1 ;;
  _ <- assert (list_eqb x2 [3; 4; 5]) ;;
  Ret tt).
Proof. vm_compute. reflexivity. Qed.
(** src/test/index/lower_bounded_range.rs:76-82 *)
Example test_index_lower_bounded_range_vec_mut : passes (
  let v := [1; 2; 3; 4; 5] in
  let r := (value_of_inner (to_inner (VRangeFrom (mkRangeFrom (lit Usize 2))))) in
  x1 <- index_of r ;;
  v <- slice_index_mut Debug v x1 (set_nth 0 7) ;;
  _ <- assert (list_eqb v [1; 2; 7; 4; 5]) ;;
  Ret tt).
Proof. vm_compute. reflexivity. Qed.
(** src/test/index/unbounded_range.rs:3-8 *)
Example test_index_unbounded_range_string : passes (
  let s := [104; 101; 108; 108; 111; 44; 32; 119; 111; 114; 108; 100; 33] in
  let r := (VUnbR mkUnboundedRange : value (mint Usize)) in
  x1 <- index_of r ;;
  x2 <- str_index Debug s x1 ;;
  _ <- assert (list_eqb x2 [104; 101; 108; 108; 111; 44; 32; 119; 111; 114; 108; 100; 33]) ;;
  Ret tt).
Proof. vm_compute. reflexivity. Qed.
(** src/test/index/unbounded_range.rs:10-21 *)
Example test_index_unbounded_range_string_mut : passes (
  let s := [104; 101; 108; 108; 111; 44; 32; 119; 111; 114; 108; 100; 33] in
  let r := (VUnbR mkUnboundedRange : value (mint Usize)) in
  x1 <- index_of r ;;
  s <- str_index_mut Debug s x1 (set_nth 4 97) ;;
  _ <- assert (list_eqb s [104; 101; 108; 108; 97; 44; 32; 119; 111; 114; 108; 100; 33]) ;;
  Ret tt).
Proof. vm_compute. reflexivity. Qed.
(** src/test/index/unbounded_range.rs:23-28 *)
Example test_index_unbounded_range_str : passes (
  let s := [104; 101; 108; 108; 111; 44; 32; 119; 111; 114; 108; 100; 33] in
  let r := (VUnbR mkUnboundedRange : value (mint Usize)) in
  x1 <- index_of r ;;
  x2 <- str_index Debug s x1 ;;
  _ <- assert (list_eqb x2 [104; 101; 108; 108; 111; 44; 32; 119; 111; 114; 108; 100; 33]) ;;
  Ret tt).
Proof. vm_compute. reflexivity. Qed.
(** src/test/index/unbounded_range.rs:30-42 *)
Example test_index_unbounded_range_str_mut : passes (
  let outer := [104; 101; 108; 108; 111; 44; 32; 119; 111; 114; 108; 100; 33] in
  let s := outer in
  let r := (VUnbR mkUnboundedRange : value (mint Usize)) in
  x1 <- index_of r ;;
  s <- str_index_mut Debug s x1 (set_nth 4 97) ;;
  _ <- assert (list_eqb s [104; 101; 108; 108; 97; 44; 32; 119; 111; 114; 108; 100; 33]) ;;
  Ret tt).
Proof. vm_compute. reflexivity. Qed.
(** src/test/index/unbounded_range.rs:44-49 *)
Example test_index_unbounded_range_c_string : passes (
  let s := [104; 101; 108; 108; 111; 44; 32; 119; 111; 114; 108; 100; 33] in
  let r := (VUnbR mkUnboundedRange : value (mint Usize)) in
  x1 <- index_of r ;;
  x2 <- cstr_index_value Debug s r ;;
  _ <- assert (list_eqb x2 s) ;;
  Ret tt).
Proof. vm_compute. reflexivity. Qed.
(** src/test/index/unbounded_range.rs:51-56 *)
Example test_index_unbounded_range_os_string : passes (
  let s := [104; 101; 108; 108; 111; 44; 32; 119; 111; 114; 108; 100; 33] in
  let r := (VUnbR mkUnboundedRange : value (mint Usize)) in
  x1 <- index_of r ;;
  x2 <- cstr_index_value Debug s r ;;
  _ <- assert (list_eqb x2 s) ;;
  Ret tt).
Proof. vm_compute. reflexivity. Qed.
(** src/test/index/unbounded_range.rs:58-64 *)
Example test_index_unbounded_range_os_string_mut : passes (
  let s := [104; 101; 108; 108; 111; 44; 32; 119; 111; 114; 108; 100; 33] in
  let r := (VUnbR mkUnboundedRange : value (mint Usize)) in
  s <- full_index_mut_value s r upper ;;
  x1 <- index_of r ;;
  x2 <- cstr_index_value Debug s r ;;
  _ <- assert (list_eqb x2 [72; 69; 76; 76; 79; 44; 32; 87; 79; 82; 76; 68; 33]) ;;
  Ret tt).
Proof. vm_compute. reflexivity. Qed.
(** src/test/index/unbounded_range.rs:66-72 *)
Example test_index_unbounded_range_slice : passes (
  let outer := [1; 2; 3; 4; 5] in
  let slice := outer in
  let r := (VUnbR mkUnboundedRange : value (mint Usize)) in
  x1 <- index_of r ;;
  x2 <- slice_index Debug slice x1 ;;
  _ <- assert (list_eqb x2 [1; 2; 3; 4; 5]) ;;
  Ret tt).
Proof. vm_compute. reflexivity. Qed.
(** src/test/index/unbounded_range.rs:74-81 *)
Example test_index_unbounded_range_slice_mut : passes (
  let outer := [1; 2; 3; 4; 5] in
  let slice := outer in
  let r := (VUnbR mkUnboundedRange : value (mint Usize)) in
  x1 <- index_of r ;;
  slice <- slice_index_mut Debug slice x1 (set_nth 0 7) ;;
  _ <- assert (list_eqb slice [7; 2; 3; 4; 5]) ;;
  Ret tt).
Proof. vm_compute. reflexivity. Qed.
(** src/test/index/unbounded_range.rs:83-88 *)
Example test_index_unbounded_range_vec : passes (
  let v := [1; 2; 3; 4; 5] in
  let r := (VUnbR mkUnboundedRange : value (mint Usize)) in
  x1 <- index_of r ;;
  x2 <- slice_index Debug v x1 ;;
  _ <- assert (list_eqb x2 [1; 2; 3; 4; 5]) ;;
  Ret tt).
Proof. vm_compute. reflexivity. Qed.
(** src/test/index/unbounded_range.rs:90-96 *)
Example test_index_unbounded_range_vec_mut : passes (
  let v := [1; 2; 3; 4; 5] in
  let r := (VUnbR mkUnboundedRange : value (mint Usize)) in
  x1 <- index_of r ;;
  v <- slice_index_mut Debug v x1 (set_nth 1 7) ;;
  _ <- assert (list_eqb v [1; 7; 3; 4; 5]) ;;
  Ret tt).
Proof. vm_compute. reflexivity. Qed.
(** src/test/index/upper_bounded_range.rs:3-11 *)
Example test_index_upper_bounded_range_string : passes (
  let s := [104; 101; 108; 108; 111; 44; 32; 119; 111; 114; 108; 100; 33] in
  let r1 := (value_of_inner (to_inner (VRangeTo (mkRangeTo (lit Usize 5))))) in
  x1 <- index_of r1 ;;
  x2 <- str_index Debug s x1 ;;
  _ <- assert (list_eqb x2 [104; 101; 108; 108; 111]) ;;
  let r2 := (value_of_inner (to_inner (VRangeToInclusive (mkRangeToInclusive (lit Usize 5))))) in
  x3 <- index_of r2 ;;
  x4 <- str_index Debug s x3 ;;
  _ <- assert (list_eqb x4 [104; 101; 108; 108; 111; 44]) ;;
  Ret tt).
Proof. vm_compute. reflexivity. Qed.
(** src/test/index/upper_bounded_range.rs:13-24 *)
Example test_index_upper_bounded_range_string_mut : passes (
  let s := [104; 101; 108; 108; 111; 44; 32; 119; 111; 114; 108; 100; 33] in
  let r := (value_of_inner (to_inner (VRangeTo (mkRangeTo (lit Usize 5))))) in
  x1 <- index_of r ;;
  s <- str_index_mut Debug s x1 (set_nth 0 121) ;;
  _ <- assert (list_eqb s [121; 101; 108; 108; 111; 44; 32; 119; 111; 114; 108; 100; 33]) ;;
  Ret tt).
Proof. vm_compute. reflexivity. Qed.
(** src/test/index/upper_bounded_range.rs:26-34 *)
Example test_index_upper_bounded_range_str : passes (
  let s := [104; 101; 108; 108; 111; 44; 32; 119; 111; 114; 108; 100; 33] in
  let r1 := (value_of_inner (to_inner (VRangeTo (mkRangeTo (lit Usize 5))))) in
  x1 <- index_of r1 ;;
  x2 <- str_index Debug s x1 ;;
  _ <- assert (list_eqb x2 [104; 101; 108; 108; 111]) ;;
  let r2 := (value_of_inner (to_inner (VRangeToInclusive (mkRangeToInclusive (lit Usize 5))))) in
  x3 <- index_of r2 ;;
  x4 <- str_index Debug s x3 ;;
  _ <- assert (list_eqb x4 [104; 101; 108; 108; 111; 44]) ;;
  Ret tt).
Proof. vm_compute. reflexivity. Qed.
(** src/test/index/upper_bounded_range.rs:36-48 *)
Example test_index_upper_bounded_range_str_mut : passes (
  let outer := [104; 101; 108; 108; 111; 44; 32; 119; 111; 114; 108; 100; 33] in
  let s := outer in
  let r := (value_of_inner (to_inner (VRangeTo (mkRangeTo (lit Usize 5))))) in
  x1 <- index_of r ;;
  s <- str_index_mut Debug s x1 (set_nth 0 121) ;;
  _ <- assert (list_eqb s [121; 101; 108; 108; 111; 44; 32; 119; 111; 114; 108; 100; 33]) ;;
  Ret tt).
Proof. vm_compute. reflexivity. Qed.
(** src/test/index/upper_bounded_range.rs:50-56 *)
Example test_index_upper_bounded_range_slice : passes (
  let outer := [1; 2; 3; 4; 5] in
  let slice := outer in
  let r := (value_of_inner (to_inner (VRangeToInclusive (mkRangeToInclusive (lit Usize 2))))) in
  x1 <- index_of r ;;
  x2 <- slice_index Debug slice x1 ;;
  _ <- assert (list_eqb x2 [1; 2; 3]) ;;
  Ret tt).
Proof. vm_compute. reflexivity. Qed.
(** src/test/index/upper_bounded_range.rs:58-65 *)
Example test_index_upper_bounded_range_slice_mut : passes (
  let outer := [1; 2; 3; 4; 5] in
  let slice := outer in
  let r := (value_of_inner (to_inner (VRangeTo (mkRangeTo (lit Usize 2))))) in
  x1 <- index_of r ;;
  slice <- slice_index_mut Debug slice x1 (set_nth 0 7) ;;
  _ <- assert (list_eqb slice [7; 2; 3; 4; 5]) ;;
  Ret tt).
Proof. vm_compute. reflexivity. Qed.
(** src/test/index/upper_bounded_range.rs:67-72 *)
Example test_index_upper_bounded_range_vec : passes (
  let v := [1; 2; 3; 4; 5] in
  let r := (value_of_inner (to_inner (VRangeTo (mkRangeTo (lit Usize 1))))) in
  x1 <- index_of r ;;
  x2 <- slice_index Debug v x1 ;;
  _ <- assert (list_eqb x2 [1]) ;;
  Ret tt).
Proof. vm_compute. reflexivity. Qed.
(** src/test/index/upper_bounded_range.rs:74-80 *)
Example test_index_upper_bounded_range_vec_mut : passes (
  let v := [1; 2; 3; 4; 5] in
  let r := (value_of_inner (to_inner (VRangeToInclusive (mkRangeToInclusive (lit Usize 3))))) in
  x1 <- index_of r ;;
  v <- slice_index_mut Debug v x1 (set_nth 1 7) ;;
  _ <- assert (list_eqb v [1; 7; 3; 4; 5]) ;;
  Ret tt).
Proof. vm_compute. reflexivity. Qed.
(** src/test/intersection/bounded_range.rs:3-17 *)
Example test_intersection_bounded_range_range : passes (
  x1 <- intersection (VRange (mkRange (lit I32 1) (lit I32 4))) (VRange (mkRange (lit I32 2) (lit I32 5))) ;;
  let bounded_range := x1 in
  x2 <- intersection bounded_range (VRange (mkRange (lit I32 3) (lit I32 6))) ;;
  let i := x2 in
  x3 <- into_iter i ;;
  x4 <- it_collect x3 ;;
  _ <- assert (list_eqb x4 [3]) ;;
  _ <- assert (negb (contains i (lit I32 0))) ;;
  _ <- assert (negb (contains i (lit I32 1))) ;;
  _ <- assert (negb (contains i (lit I32 2))) ;;
  _ <- assert (contains i (lit I32 3)) ;;
  _ <- assert (negb (contains i (lit I32 4))) ;;
  _ <- assert (negb (contains i (lit I32 5))) ;;
  _ <- assert (negb (contains i (lit I32 6))) ;;
  _ <- assert (negb (is_empty i)) ;;
  x5 <- intersection bounded_range (VRange (mkRange (lit I32 10) (lit I32 20))) ;;
  _ <- assert (is_empty x5) ;;
  Ret tt).
Proof. vm_compute. reflexivity. Qed.
(** src/test/intersection/bounded_range.rs:19-33 *)
Example test_intersection_bounded_range_range_from : passes (
  x1 <- intersection (VRange (mkRange (lit I32 1) (lit I32 4))) (VRange (mkRange (lit I32 2) (lit I32 5))) ;;
  let bounded_range := x1 in
  x2 <- intersection bounded_range (VRangeFrom (mkRangeFrom (lit I32 3))) ;;
  let i := x2 in
  x3 <- into_iter i ;;
  x4 <- it_collect x3 ;;
  _ <- assert (list_eqb x4 [3]) ;;
  _ <- assert (negb (contains i (lit I32 0))) ;;
  _ <- assert (negb (contains i (lit I32 1))) ;;
  _ <- assert (negb (contains i (lit I32 2))) ;;
  _ <- assert (contains i (lit I32 3)) ;;
  _ <- assert (negb (contains i (lit I32 4))) ;;
  _ <- assert (negb (contains i (lit I32 5))) ;;
  _ <- assert (negb (contains i (lit I32 6))) ;;
  _ <- assert (negb (is_empty i)) ;;
  x5 <- intersection bounded_range (VRangeFrom (mkRangeFrom (lit I32 10))) ;;
  _ <- assert (is_empty x5) ;;
  Ret tt).
Proof. vm_compute. reflexivity. Qed.
(** src/test/intersection/bounded_range.rs:35-49 *)
Example test_intersection_bounded_range_range_full : passes (
  x1 <- intersection (VRange (mkRange (lit I32 1) (lit I32 4))) (VRange (mkRange (lit I32 2) (lit I32 5))) ;;
  let bounded_range := x1 in
  x2 <- intersection bounded_range (VRangeFull mkRangeFull : value (mint I32)) ;;
  let i := x2 in
  x3 <- into_iter i ;;
  x4 <- it_collect x3 ;;
  _ <- assert (list_eqb x4 [2; 3]) ;;
  _ <- assert (negb (contains i (lit I32 0))) ;;
  _ <- assert (negb (contains i (lit I32 1))) ;;
  _ <- assert (contains i (lit I32 2)) ;;
  _ <- assert (contains i (lit I32 3)) ;;
  _ <- assert (negb (contains i (lit I32 4))) ;;
  _ <- assert (negb (contains i (lit I32 5))) ;;
  _ <- assert (negb (contains i (lit I32 6))) ;;
  _ <- assert (negb (is_empty i)) ;;
  x5 <- intersection (VRange (mkRange (lit I32 1) (lit I32 3))) (VRange (mkRange (lit I32 5) (lit I32 10))) ;;
  x6 <- intersection x5 (VRangeFull mkRangeFull : value (mint I32)) ;;
  _ <- assert (is_empty x6) ;;
  Ret tt).
Proof. vm_compute. reflexivity. Qed.
(** src/test/intersection/bounded_range.rs:51-65 *)
Example test_intersection_bounded_range_range_inclusive : passes (
  x1 <- intersection (VRange (mkRange (lit I32 1) (lit I32 4))) (VRange (mkRange (lit I32 2) (lit I32 5))) ;;
  let bounded_range := x1 in
  x2 <- intersection bounded_range (VRangeInclusive (mkRangeInclusive (lit I32 1) (lit I32 3) false)) ;;
  let i := x2 in
  x3 <- into_iter i ;;
  x4 <- it_collect x3 ;;
  _ <- assert (list_eqb x4 [2; 3]) ;;
  _ <- assert (negb (contains i (lit I32 0))) ;;
  _ <- assert (negb (contains i (lit I32 1))) ;;
  _ <- assert (contains i (lit I32 2)) ;;
  _ <- assert (contains i (lit I32 3)) ;;
  _ <- assert (negb (contains i (lit I32 4))) ;;
  _ <- assert (negb (contains i (lit I32 5))) ;;
  _ <- assert (negb (contains i (lit I32 6))) ;;
  _ <- assert (negb (is_empty i)) ;;
  x5 <- intersection bounded_range (VRangeInclusive (mkRangeInclusive (lit I32 10) (lit I32 20) false)) ;;
  _ <- assert (is_empty x5) ;;
  Ret tt).
Proof. vm_compute. reflexivity. Qed.
(** src/test/intersection/bounded_range.rs:67-81 *)
Example test_intersection_bounded_range_range_to : passes (
  x1 <- intersection (VRange (mkRange (lit I32 1) (lit I32 4))) (VRange (mkRange (lit I32 2) (lit I32 5))) ;;
  let bounded_range := x1 in
  x2 <- intersection bounded_range (VRangeTo (mkRangeTo (lit I32 3))) ;;
  let i := x2 in
  x3 <- into_iter i ;;
  x4 <- it_collect x3 ;;
  _ <- assert (list_eqb x4 [2]) ;;
  _ <- assert (negb (contains i (lit I32 0))) ;;
  _ <- assert (negb (contains i (lit I32 1))) ;;
  _ <- assert (contains i (lit I32 2)) ;;
  _ <- assert (negb (contains i (lit I32 3))) ;;
  _ <- assert (negb (contains i (lit I32 4))) ;;
  _ <- assert (negb (contains i (lit I32 5))) ;;
  _ <- assert (negb (contains i (lit I32 6))) ;;
  _ <- assert (negb (is_empty i)) ;;
  x5 <- intersection bounded_range (VRangeTo (mkRangeTo (lit I32 1))) ;;
  _ <- assert (is_empty x5) ;;
  Ret tt).
Proof. vm_compute. reflexivity. Qed.
(** src/test/intersection/bounded_range.rs:83-97 *)
Example test_intersection_bounded_range_range_to_inclusive : passes (
  x1 <- intersection (VRange (mkRange (lit I32 1) (lit I32 4))) (VRange (mkRange (lit I32 2) (lit I32 5))) ;;
  let bounded_range := x1 in
  x2 <- intersection bounded_range (VRangeToInclusive (mkRangeToInclusive (lit I32 3))) ;;
  let i := x2 in
  x3 <- into_iter i ;;
  x4 <- it_collect x3 ;;
  _ <- assert (list_eqb x4 [2; 3]) ;;
  _ <- assert (negb (contains i (lit I32 0))) ;;
  _ <- assert (negb (contains i (lit I32 1))) ;;
  _ <- assert (contains i (lit I32 2)) ;;
  _ <- assert (contains i (lit I32 3)) ;;
  _ <- assert (negb (contains i (lit I32 4))) ;;
  _ <- assert (negb (contains i (lit I32 5))) ;;
  _ <- assert (negb (contains i (lit I32 6))) ;;
  _ <- assert (negb (is_empty i)) ;;
  x5 <- intersection bounded_range (VRangeToInclusive (mkRangeToInclusive (lit I32 1))) ;;
  _ <- assert (is_empty x5) ;;
  Ret tt).
Proof. vm_compute. reflexivity. Qed.
(** src/test/intersection/bounded_range.rs:99-117 *)
Example test_intersection_bounded_range_bounded_range : passes (
  x1 <- intersection (VRange (mkRange (lit I32 0) (lit I32 5))) (VRange (mkRange (lit I32 1) (lit I32 5))) ;;
  let r1 := x1 in
  x2 <- intersection (VRange (mkRange (lit I32 2) (lit I32 6))) (VRange (mkRange (lit I32 2) (lit I32 7))) ;;
  let r2 := x2 in
  x3 <- intersection r1 r2 ;;
  let i := x3 in
  x4 <- into_iter i ;;
  x5 <- it_collect x4 ;;
  _ <- assert (list_eqb x5 [2; 3; 4]) ;;
  _ <- assert (negb (contains i (lit I32 0))) ;;
  _ <- assert (negb (contains i (lit I32 1))) ;;
  _ <- assert (contains i (lit I32 2)) ;;
  _ <- assert (contains i (lit I32 3)) ;;
  _ <- assert (contains i (lit I32 4)) ;;
  _ <- assert (negb (contains i (lit I32 5))) ;;
  _ <- assert (negb (contains i (lit I32 6))) ;;
  _ <- assert (negb (contains i (lit I32 7))) ;;
  _ <- assert (negb (contains i (lit I32 8))) ;;
  _ <- assert (negb (is_empty i)) ;;
  x6 <- intersection (VRange (mkRange (lit I32 10) (lit I32 20))) (VRange (mkRange (lit I32 15) (lit I32 20))) ;;
  let r3 := x6 in
  x7 <- intersection i r3 ;;
  _ <- assert (is_empty x7) ;;
  Ret tt).
Proof. vm_compute. reflexivity. Qed.
(** src/test/intersection/bounded_range.rs:119-133 *)
Example test_intersection_bounded_range_lower_bounded_range : passes (
  x1 <- intersection (VRange (mkRange (lit I32 1) (lit I32 3))) (VRangeFull mkRangeFull : value (mint I32)) ;;
  let r1 := x1 in
  x2 <- intersection (VRangeFrom (mkRangeFrom (lit I32 1))) (VRangeFull mkRangeFull : value (mint I32)) ;;
  let r2 := x2 in
  x3 <- intersection r1 r2 ;;
  let i := x3 in
  x4 <- into_iter i ;;
  x5 <- it_collect x4 ;;
  _ <- assert (list_eqb x5 [1; 2]) ;;
  _ <- assert (negb (contains i (lit I32 0))) ;;
  _ <- assert (contains i (lit I32 1)) ;;
  _ <- assert (contains i (lit I32 2)) ;;
  _ <- assert (negb (contains i (lit I32 3))) ;;
  _ <- assert (negb (contains i (lit I32 4))) ;;
  _ <- assert (negb (is_empty i)) ;;
  x6 <- intersection (VRangeFrom (mkRangeFrom (lit I32 5))) (VRangeFull mkRangeFull : value (mint I32)) ;;
  let r3 := x6 in
  x7 <- intersection i r3 ;;
  _ <- assert (is_empty x7) ;;
  Ret tt).
Proof. vm_compute. reflexivity. Qed.
(** src/test/intersection/bounded_range.rs:135-149 *)
Example test_intersection_bounded_range_upper_bounded_range : passes (
  x1 <- intersection (VRange (mkRange (lit I32 1) (lit I32 3))) (VRangeFull mkRangeFull : value (mint I32)) ;;
  let r1 := x1 in
  x2 <- intersection (VRangeTo (mkRangeTo (lit I32 3))) (VRangeFull mkRangeFull : value (mint I32)) ;;
  let r2 := x2 in
  x3 <- intersection r1 r2 ;;
  let i := x3 in
  x4 <- into_iter i ;;
  x5 <- it_collect x4 ;;
  _ <- assert (list_eqb x5 [1; 2]) ;;
  _ <- assert (negb (contains i (lit I32 0))) ;;
  _ <- assert (contains i (lit I32 1)) ;;
  _ <- assert (contains i (lit I32 2)) ;;
  _ <- assert (negb (contains i (lit I32 3))) ;;
  _ <- assert (negb (contains i (lit I32 4))) ;;
  _ <- assert (negb (is_empty i)) ;;
  x6 <- intersection (VRangeTo (mkRangeTo (lit I32 1))) (VRangeFull mkRangeFull : value (mint I32)) ;;
  let r3 := x6 in
  x7 <- intersection i r3 ;;
  _ <- assert (is_empty x7) ;;
  Ret tt).
Proof. vm_compute. reflexivity. Qed.
(** src/test/intersection/bounded_range.rs:151-165 *)
Example test_intersection_bounded_range_unbounded_range : passes (
  x1 <- intersection (VRange (mkRange (lit I32 1) (lit I32 3))) (VRangeFull mkRangeFull : value (mint I32)) ;;
  let r1 := x1 in
  x2 <- intersection (VRangeFull mkRangeFull : value (mint I32)) (VRangeFull mkRangeFull : value (mint I32)) ;;
  let r2 := x2 in
  x3 <- intersection r1 r2 ;;
  let i := x3 in
  x4 <- into_iter i ;;
  x5 <- it_collect x4 ;;
  _ <- assert (list_eqb x5 [1; 2]) ;;
  _ <- assert (negb (contains i (lit I32 0))) ;;
  _ <- assert (contains i (lit I32 1)) ;;
  _ <- assert (contains i (lit I32 2)) ;;
  _ <- assert (negb (contains i (lit I32 3))) ;;
  _ <- assert (negb (contains i (lit I32 4))) ;;
  _ <- assert (negb (is_empty i)) ;;
  x6 <- intersection (VRange (mkRange (lit I32 1) (lit I32 3))) (VRange (mkRange (lit I32 5) (lit I32 10))) ;;
  let r3 := x6 in
  x7 <- intersection r3 (VRangeFull mkRangeFull : value (mint I32)) ;;
  _ <- assert (is_empty x7) ;;
  Ret tt).
Proof. vm_compute. reflexivity. Qed.
(** src/test/intersection/bounded_range.rs:167-174 *)
Example test_intersection_bounded_range_empty_range : passes (
  x1 <- intersection (VRange (mkRange (lit I32 1) (lit I32 4))) (VRangeFull mkRangeFull : value (mint I32)) ;;
  let r1 := x1 in
  let r2 := (VEmpty mkEmptyRange : value (mint I32)) in
  x2 <- intersection r1 r2 ;;
  let i := x2 in
  _ <- assert (is_empty i) ;;
  x3 <- into_iter i ;;
  x4 <- it_collect x3 ;;
  _ <- assert (list_eqb x4 []) ;;
  Ret tt).
Proof. vm_compute. reflexivity. Qed.
(** src/test/intersection/bounded_range.rs:176-191 *)
Example test_intersection_bounded_range_bounded_set : passes (
  x1 <- intersection (VRange (mkRange (lit I32 1) (lit I32 4))) (VRangeFull mkRangeFull : value (mint I32)) ;;
  let r := x1 in
  x2 <- union (VRange (mkRange (lit I32 1) (lit I32 2))) (VRange (mkRange (lit I32 3) (lit I32 4))) ;;
  let s := x2 in
  x3 <- intersection r s ;;
  let i := x3 in
  x4 <- into_iter i ;;
  x5 <- it_collect x4 ;;
  _ <- assert (list_eqb x5 [1; 3]) ;;
  _ <- assert (negb (contains i (lit I32 0))) ;;
  _ <- assert (contains i (lit I32 1)) ;;
  _ <- assert (negb (contains i (lit I32 2))) ;;
  _ <- assert (contains i (lit I32 3)) ;;
  _ <- assert (negb (contains i (lit I32 4))) ;;
  _ <- assert (negb (is_empty i)) ;;
  x6 <- intersection (VRange (mkRange (lit I32 1) (lit I32 1))) (VRangeFull mkRangeFull : value (mint I32)) ;;
  let r2 := x6 in
  x7 <- union (VRange (mkRange (lit I32 1) (lit I32 2))) (VRange (mkRange (lit I32 3) (lit I32 4))) ;;
  let s2 := x7 in
  x8 <- intersection r2 s2 ;;
  _ <- assert (is_empty x8) ;;
  Ret tt).
Proof. vm_compute. reflexivity. Qed.
(** src/test/intersection/bounded_range.rs:193-208 *)
Example test_intersection_bounded_range_lower_bounded_set : passes (
  x1 <- intersection (VRange (mkRange (lit I32 1) (lit I32 4))) (VRangeFull mkRangeFull : value (mint I32)) ;;
  let r := x1 in
  x2 <- union (VRange (mkRange (lit I32 1) (lit I32 2))) (VRangeFrom (mkRangeFrom (lit I32 3))) ;;
  let s := x2 in
  x3 <- intersection r s ;;
  let i := x3 in
  x4 <- into_iter i ;;
  x5 <- it_collect x4 ;;
  _ <- assert (list_eqb x5 [1; 3]) ;;
  _ <- assert (negb (contains i (lit I32 0))) ;;
  _ <- assert (contains i (lit I32 1)) ;;
  _ <- assert (negb (contains i (lit I32 2))) ;;
  _ <- assert (contains i (lit I32 3)) ;;
  _ <- assert (negb (contains i (lit I32 4))) ;;
  _ <- assert (negb (is_empty i)) ;;
  x6 <- intersection (VRange (mkRange (lit I32 2) (lit I32 3))) (VRangeFull mkRangeFull : value (mint I32)) ;;
  let r2 := x6 in
  x7 <- union (VRange (mkRange (lit I32 1) (lit I32 2))) (VRangeFrom (mkRangeFrom (lit I32 3))) ;;
  let s2 := x7 in
  x8 <- intersection r2 s2 ;;
  _ <- assert (is_empty x8) ;;
  Ret tt).
Proof. vm_compute. reflexivity. Qed.
(** src/test/intersection/bounded_range.rs:210-225 *)
Example test_intersection_bounded_range_upper_bounded_set : passes (
  x1 <- intersection (VRange (mkRange (lit I32 1) (lit I32 4))) (VRangeFull mkRangeFull : value (mint I32)) ;;
  let r := x1 in
  x2 <- union (VRangeTo (mkRangeTo (lit I32 2))) (VRange (mkRange (lit I32 3) (lit I32 4))) ;;
  let s := x2 in
  x3 <- intersection r s ;;
  let i := x3 in
  x4 <- into_iter i ;;
  x5 <- it_collect x4 ;;
  _ <- assert (list_eqb x5 [1; 3]) ;;
  _ <- assert (negb (contains i (lit I32 0))) ;;
  _ <- assert (contains i (lit I32 1)) ;;
  _ <- assert (negb (contains i (lit I32 2))) ;;
  _ <- assert (contains i (lit I32 3)) ;;
  _ <- assert (negb (contains i (lit I32 4))) ;;
  _ <- assert (negb (is_empty i)) ;;
  x6 <- intersection (VRange (mkRange (lit I32 1) (lit I32 1))) (VRangeFull mkRangeFull : value (mint I32)) ;;
  let r2 := x6 in
  x7 <- union (VRangeTo (mkRangeTo (lit I32 2))) (VRange (mkRange (lit I32 3) (lit I32 4))) ;;
  let s2 := x7 in
  x8 <- intersection r2 s2 ;;
  _ <- assert (is_empty x8) ;;
  Ret tt).
Proof. vm_compute. reflexivity. Qed.
(** src/test/intersection/bounded_range.rs:227-242 *)
Example test_intersection_bounded_range_unbounded_set : passes (
  let r := (value_of_inner (to_inner (VRange (mkRange (lit I32 1) (lit I32 4))))) in
  x1 <- union (VRangeTo (mkRangeTo (lit I32 1))) (VRange (mkRange (lit I32 2) (lit I32 3))) ;;
  x2 <- union x1 (VRangeFrom (mkRangeFrom (lit I32 4))) ;;
  let s := x2 in
  x3 <- intersection r s ;;
  let i := x3 in
  x4 <- into_iter i ;;
  x5 <- it_collect x4 ;;
  _ <- assert (list_eqb x5 [2]) ;;
  _ <- assert (negb (contains i (lit I32 0))) ;;
  _ <- assert (negb (contains i (lit I32 1))) ;;
  _ <- assert (contains i (lit I32 2)) ;;
  _ <- assert (negb (contains i (lit I32 3))) ;;
  _ <- assert (negb (contains i (lit I32 4))) ;;
  _ <- assert (negb (is_empty i)) ;;
  let r2 := (value_of_inner (to_inner (VRange (mkRange (lit I32 1) (lit I32 1))))) in
  x6 <- union (VRangeTo (mkRangeTo (lit I32 1))) (VRange (mkRange (lit I32 2) (lit I32 3))) ;;
  x7 <- union x6 (VRangeFrom (mkRangeFrom (lit I32 4))) ;;
  let s2 := x7 in
  x8 <- intersection r2 s2 ;;
  _ <- assert (is_empty x8) ;;
  Ret tt).
Proof. vm_compute. reflexivity. Qed.
(** src/test/intersection/bounded_set.rs:3-17 *)
Example test_intersection_bounded_set_range : passes (
  x1 <- union (VRange (mkRange (lit I32 1) (lit I32 3))) (VRange (mkRange (lit I32 4) (lit I32 6))) ;;
  let s := x1 in
  x2 <- intersection s (VRange (mkRange (lit I32 2) (lit I32 6))) ;;
  let i := x2 in
  x3 <- into_iter i ;;
  x4 <- it_collect x3 ;;
  _ <- assert (list_eqb x4 [2; 4; 5]) ;;
  _ <- assert (negb (contains i (lit I32 0))) ;;
  _ <- assert (negb (contains i (lit I32 1))) ;;
  _ <- assert (contains i (lit I32 2)) ;;
  _ <- assert (negb (contains i (lit I32 3))) ;;
  _ <- assert (contains i (lit I32 4)) ;;
  _ <- assert (contains i (lit I32 5)) ;;
  _ <- assert (negb (contains i (lit I32 6))) ;;
  _ <- assert (negb (is_empty i)) ;;
  x5 <- intersection s (VRange (mkRange (lit I32 10) (lit I32 20))) ;;
  _ <- assert (is_empty x5) ;;
  Ret tt).
Proof. vm_compute. reflexivity. Qed.
(** src/test/intersection/bounded_set.rs:19-33 *)
Example test_intersection_bounded_set_range_from : passes (
  x1 <- union (VRange (mkRange (lit I32 1) (lit I32 3))) (VRange (mkRange (lit I32 4) (lit I32 6))) ;;
  let s := x1 in
  x2 <- intersection s (VRangeFrom (mkRangeFrom (lit I32 2))) ;;
  let i := x2 in
  x3 <- into_iter i ;;
  x4 <- it_collect x3 ;;
  _ <- assert (list_eqb x4 [2; 4; 5]) ;;
  _ <- assert (negb (contains i (lit I32 0))) ;;
  _ <- assert (negb (contains i (lit I32 1))) ;;
  _ <- assert (contains i (lit I32 2)) ;;
  _ <- assert (negb (contains i (lit I32 3))) ;;
  _ <- assert (contains i (lit I32 4)) ;;
  _ <- assert (contains i (lit I32 5)) ;;
  _ <- assert (negb (contains i (lit I32 6))) ;;
  _ <- assert (negb (is_empty i)) ;;
  x5 <- intersection s (VRangeFrom (mkRangeFrom (lit I32 10))) ;;
  _ <- assert (is_empty x5) ;;
  Ret tt).
Proof. vm_compute. reflexivity. Qed.
(** src/test/intersection/bounded_set.rs:35-49 *)
Example test_intersection_bounded_set_range_full : passes (
  x1 <- union (VRange (mkRange (lit I32 1) (lit I32 3))) (VRangeInclusive (mkRangeInclusive (lit I32 4) (lit I32 5) false)) ;;
  let s := x1 in
  x2 <- intersection s (VRangeFull mkRangeFull : value (mint I32)) ;;
  let i := x2 in
  x3 <- into_iter i ;;
  x4 <- it_collect x3 ;;
  _ <- assert (list_eqb x4 [1; 2; 4; 5]) ;;
  _ <- assert (negb (contains i (lit I32 0))) ;;
  _ <- assert (contains i (lit I32 1)) ;;
  _ <- assert (contains i (lit I32 2)) ;;
  _ <- assert (negb (contains i (lit I32 3))) ;;
  _ <- assert (contains i (lit I32 4)) ;;
  _ <- assert (contains i (lit I32 5)) ;;
  _ <- assert (negb (contains i (lit I32 6))) ;;
  _ <- assert (negb (is_empty i)) ;;
  x5 <- union (VRange (mkRange (lit I32 1) (lit I32 1))) (VRange (mkRange (lit I32 2) (lit I32 2))) ;;
  x6 <- intersection x5 (VRangeFull mkRangeFull : value (mint I32)) ;;
  _ <- assert (is_empty x6) ;;
  Ret tt).
Proof. vm_compute. reflexivity. Qed.
(** src/test/intersection/bounded_set.rs:51-65 *)
Example test_intersection_bounded_set_range_inclusive : passes (
  x1 <- union (VRange (mkRange (lit I32 1) (lit I32 3))) (VRange (mkRange (lit I32 4) (lit I32 6))) ;;
  let s := x1 in
  x2 <- intersection s (VRangeInclusive (mkRangeInclusive (lit I32 2) (lit I32 5) false)) ;;
  let i := x2 in
  x3 <- into_iter i ;;
  x4 <- it_collect x3 ;;
  _ <- assert (list_eqb x4 [2; 4; 5]) ;;
  _ <- assert (negb (contains i (lit I32 0))) ;;
  _ <- assert (negb (contains i (lit I32 1))) ;;
  _ <- assert (contains i (lit I32 2)) ;;
  _ <- assert (negb (contains i (lit I32 3))) ;;
  _ <- assert (contains i (lit I32 4)) ;;
  _ <- assert (contains i (lit I32 5)) ;;
  _ <- assert (negb (contains i (lit I32 6))) ;;
  _ <- assert (negb (is_empty i)) ;;
  x5 <- intersection s (VRangeInclusive (mkRangeInclusive (lit I32 10) (lit I32 20) false)) ;;
  _ <- assert (is_empty x5) ;;
  Ret tt).
Proof. vm_compute. reflexivity. Qed.
(** src/test/intersection/bounded_set.rs:67-81 *)
Example test_intersection_bounded_set_range_to : passes (
  x1 <- union (VRange (mkRange (lit I32 1) (lit I32 3))) (VRange (mkRange (lit I32 4) (lit I32 6))) ;;
  let s := x1 in
  x2 <- intersection s (VRangeTo (mkRangeTo (lit I32 5))) ;;
  let i := x2 in
  x3 <- into_iter i ;;
  x4 <- it_collect x3 ;;
  _ <- assert (list_eqb x4 [1; 2; 4]) ;;
  _ <- assert (negb (contains i (lit I32 0))) ;;
  _ <- assert (contains i (lit I32 1)) ;;
  _ <- assert (contains i (lit I32 2)) ;;
  _ <- assert (negb (contains i (lit I32 3))) ;;
  _ <- assert (contains i (lit I32 4)) ;;
  _ <- assert (negb (contains i (lit I32 5))) ;;
  _ <- assert (negb (contains i (lit I32 6))) ;;
  _ <- assert (negb (is_empty i)) ;;
  x5 <- intersection s (VRangeTo (mkRangeTo (lit I32 1))) ;;
  _ <- assert (is_empty x5) ;;
  Ret tt).
Proof. vm_compute. reflexivity. Qed.
(** src/test/intersection/bounded_set.rs:83-97 *)
Example test_intersection_bounded_set_range_to_inclusive : passes (
  x1 <- union (VRange (mkRange (lit I32 1) (lit I32 3))) (VRange (mkRange (lit I32 4) (lit I32 6))) ;;
  let s := x1 in
  x2 <- intersection s (VRangeToInclusive (mkRangeToInclusive (lit I32 5))) ;;
  let i := x2 in
  x3 <- into_iter i ;;
  x4 <- it_collect x3 ;;
  _ <- assert (list_eqb x4 [1; 2; 4; 5]) ;;
  _ <- assert (negb (contains i (lit I32 0))) ;;
  _ <- assert (contains i (lit I32 1)) ;;
  _ <- assert (contains i (lit I32 2)) ;;
  _ <- assert (negb (contains i (lit I32 3))) ;;
  _ <- assert (contains i (lit I32 4)) ;;
  _ <- assert (contains i (lit I32 5)) ;;
  _ <- assert (negb (contains i (lit I32 6))) ;;
  _ <- assert (negb (is_empty i)) ;;
  x5 <- intersection s (VRangeToInclusive (mkRangeToInclusive (lit I32 0))) ;;
  _ <- assert (is_empty x5) ;;
  Ret tt).
Proof. vm_compute. reflexivity. Qed.
(** src/test/intersection/bounded_set.rs:99-115 *)
Example test_intersection_bounded_set_bounded_range : passes (
  x1 <- union (VRange (mkRange (lit I32 1) (lit I32 3))) (VRange (mkRange (lit I32 4) (lit I32 6))) ;;
  let s := x1 in
  x2 <- intersection (VRange (mkRange (lit I32 2) (lit I32 6))) (VRangeFull mkRangeFull : value (mint I32)) ;;
  let r := x2 in
  x3 <- intersection s r ;;
  let i := x3 in
  x4 <- into_iter i ;;
  x5 <- it_collect x4 ;;
  _ <- assert (list_eqb x5 [2; 4; 5]) ;;
  _ <- assert (negb (contains i (lit I32 0))) ;;
  _ <- assert (negb (contains i (lit I32 1))) ;;
  _ <- assert (contains i (lit I32 2)) ;;
  _ <- assert (negb (contains i (lit I32 3))) ;;
  _ <- assert (contains i (lit I32 4)) ;;
  _ <- assert (contains i (lit I32 5)) ;;
  _ <- assert (negb (contains i (lit I32 6))) ;;
  _ <- assert (negb (is_empty i)) ;;
  x6 <- intersection (VRange (mkRange (lit I32 10) (lit I32 20))) (VRangeFull mkRangeFull : value (mint I32)) ;;
  let r := x6 in
  x7 <- intersection s r ;;
  _ <- assert (is_empty x7) ;;
  Ret tt).
Proof. vm_compute. reflexivity. Qed.
(** src/test/intersection/bounded_set.rs:117-133 *)
Example test_intersection_bounded_set_lower_bounded_range : passes (
  x1 <- union (VRange (mkRange (lit I32 1) (lit I32 3))) (VRange (mkRange (lit I32 4) (lit I32 6))) ;;
  let s := x1 in
  x2 <- intersection (VRangeFrom (mkRangeFrom (lit I32 2))) (VRangeFrom (mkRangeFrom (lit I32 1))) ;;
  let r := x2 in
  x3 <- intersection s r ;;
  let i := x3 in
  x4 <- into_iter i ;;
  x5 <- it_collect x4 ;;
  _ <- assert (list_eqb x5 [2; 4; 5]) ;;
  _ <- assert (negb (contains i (lit I32 0))) ;;
  _ <- assert (negb (contains i (lit I32 1))) ;;
  _ <- assert (contains i (lit I32 2)) ;;
  _ <- assert (negb (contains i (lit I32 3))) ;;
  _ <- assert (contains i (lit I32 4)) ;;
  _ <- assert (contains i (lit I32 5)) ;;
  _ <- assert (negb (contains i (lit I32 6))) ;;
  _ <- assert (negb (is_empty i)) ;;
  x6 <- intersection (VRangeFrom (mkRangeFrom (lit I32 10))) (VRangeFrom (mkRangeFrom (lit I32 20))) ;;
  let r := x6 in
  x7 <- intersection s r ;;
  _ <- assert (is_empty x7) ;;
  Ret tt).
Proof. vm_compute. reflexivity. Qed.
(** src/test/intersection/bounded_set.rs:135-151 *)
Example test_intersection_bounded_set_upper_bounded_range : passes (
  x1 <- union (VRange (mkRange (lit I32 1) (lit I32 3))) (VRange (mkRange (lit I32 4) (lit I32 6))) ;;
  let s := x1 in
  x2 <- intersection (VRangeTo (mkRangeTo (lit I32 5))) (VRangeTo (mkRangeTo (lit I32 6))) ;;
  let r := x2 in
  x3 <- intersection s r ;;
  let i := x3 in
  x4 <- into_iter i ;;
  x5 <- it_collect x4 ;;
  _ <- assert (list_eqb x5 [1; 2; 4]) ;;
  _ <- assert (negb (contains i (lit I32 0))) ;;
  _ <- assert (contains i (lit I32 1)) ;;
  _ <- assert (contains i (lit I32 2)) ;;
  _ <- assert (negb (contains i (lit I32 3))) ;;
  _ <- assert (contains i (lit I32 4)) ;;
  _ <- assert (negb (contains i (lit I32 5))) ;;
  _ <- assert (negb (contains i (lit I32 6))) ;;
  _ <- assert (negb (is_empty i)) ;;
  x6 <- intersection (VRangeTo (mkRangeTo (lit I32 1))) (VRangeTo (mkRangeTo (lit I32 2))) ;;
  let r := x6 in
  x7 <- intersection s r ;;
  _ <- assert (is_empty x7) ;;
  Ret tt).
Proof. vm_compute. reflexivity. Qed.
(** src/test/intersection/bounded_set.rs:153-168 *)
Example test_intersection_bounded_set_unbounded_range : passes (
  x1 <- union (VRange (mkRange (lit I32 1) (lit I32 3))) (VRangeInclusive (mkRangeInclusive (lit I32 4) (lit I32 5) false)) ;;
  let s := x1 in
  let r := (value_of_inner (to_inner (VRangeFull mkRangeFull : value (mint I32)))) in
  x2 <- intersection s r ;;
  let i := x2 in
  x3 <- into_iter i ;;
  x4 <- it_collect x3 ;;
  _ <- assert (list_eqb x4 [1; 2; 4; 5]) ;;
  _ <- assert (negb (contains i (lit I32 0))) ;;
  _ <- assert (contains i (lit I32 1)) ;;
  _ <- assert (contains i (lit I32 2)) ;;
  _ <- assert (negb (contains i (lit I32 3))) ;;
  _ <- assert (contains i (lit I32 4)) ;;
  _ <- assert (contains i (lit I32 5)) ;;
  _ <- assert (negb (contains i (lit I32 6))) ;;
  _ <- assert (negb (is_empty i)) ;;
  x5 <- union (VRange (mkRange (lit I32 1) (lit I32 1))) (VRange (mkRange (lit I32 2) (lit I32 2))) ;;
  x6 <- intersection x5 r ;;
  _ <- assert (is_empty x6) ;;
  Ret tt).
Proof. vm_compute. reflexivity. Qed.
(** src/test/intersection/bounded_set.rs:170-177 *)
Example test_intersection_bounded_set_empty_range : passes (
  x1 <- union (VRange (mkRange (lit I32 1) (lit I32 3))) (VRange (mkRange (lit I32 4) (lit I32 5))) ;;
  let s := x1 in
  let r := (VEmpty mkEmptyRange : value (mint I32)) in
  x2 <- intersection s r ;;
  let i := x2 in
  _ <- assert (is_empty i) ;;
  x3 <- into_iter i ;;
  x4 <- it_collect x3 ;;
  _ <- assert (list_eqb x4 []) ;;
  Ret tt).
Proof. vm_compute. reflexivity. Qed.
(** src/test/intersection/bounded_set.rs:179-195 *)
Example test_intersection_bounded_set_bounded_set : passes (
  x1 <- union (VRange (mkRange (lit I32 1) (lit I32 3))) (VRange (mkRange (lit I32 4) (lit I32 6))) ;;
  let s1 := x1 in
  x2 <- union (VRangeInclusive (mkRangeInclusive (lit I32 2) (lit I32 2) false)) (VRange (mkRange (lit I32 4) (lit I32 5))) ;;
  let s2 := x2 in
  x3 <- intersection s1 s2 ;;
  let i := x3 in
  x4 <- into_iter i ;;
  x5 <- it_collect x4 ;;
  _ <- assert (list_eqb x5 [2; 4]) ;;
  _ <- assert (negb (contains i (lit I32 0))) ;;
  _ <- assert (negb (contains i (lit I32 1))) ;;
  _ <- assert (contains i (lit I32 2)) ;;
  _ <- assert (negb (contains i (lit I32 3))) ;;
  _ <- assert (contains i (lit I32 4)) ;;
  _ <- assert (negb (contains i (lit I32 5))) ;;
  _ <- assert (negb (contains i (lit I32 6))) ;;
  _ <- assert (negb (is_empty i)) ;;
  x6 <- union (VRange (mkRange (lit I32 10) (lit I32 20))) (VRange (mkRange (lit I32 30) (lit I32 40))) ;;
  let s2 := x6 in
  x7 <- intersection s1 s2 ;;
  _ <- assert (is_empty x7) ;;
  Ret tt).
Proof. vm_compute. reflexivity. Qed.
(** src/test/intersection/bounded_set.rs:197-213 *)
Example test_intersection_bounded_set_lower_bounded_set : passes (
  x1 <- union (VRange (mkRange (lit I32 1) (lit I32 3))) (VRange (mkRange (lit I32 4) (lit I32 6))) ;;
  let s1 := x1 in
  x2 <- union (VRangeFrom (mkRangeFrom (lit I32 2))) (VRangeFrom (mkRangeFrom (lit I32 3))) ;;
  let s2 := x2 in
  x3 <- intersection s1 s2 ;;
  let i := x3 in
  x4 <- into_iter i ;;
  x5 <- it_collect x4 ;;
  _ <- assert (list_eqb x5 [2; 4; 5]) ;;
  _ <- assert (negb (contains i (lit I32 0))) ;;
  _ <- assert (negb (contains i (lit I32 1))) ;;
  _ <- assert (contains i (lit I32 2)) ;;
  _ <- assert (negb (contains i (lit I32 3))) ;;
  _ <- assert (contains i (lit I32 4)) ;;
  _ <- assert (contains i (lit I32 5)) ;;
  _ <- assert (negb (contains i (lit I32 6))) ;;
  _ <- assert (negb (is_empty i)) ;;
  x6 <- union (VRangeFrom (mkRangeFrom (lit I32 10))) (VRangeFrom (mkRangeFrom (lit I32 20))) ;;
  let s2 := x6 in
  x7 <- intersection s1 s2 ;;
  _ <- assert (is_empty x7) ;;
  Ret tt).
Proof. vm_compute. reflexivity. Qed.
(** src/test/intersection/bounded_set.rs:215-231 *)
Example test_intersection_bounded_set_upper_bounded_set : passes (
  x1 <- union (VRange (mkRange (lit I32 1) (lit I32 2))) (VRange (mkRange (lit I32 3) (lit I32 5))) ;;
  let s1 := x1 in
  x2 <- union (VRangeTo (mkRangeTo (lit I32 3))) (VRange (mkRange (lit I32 4) (lit I32 6))) ;;
  let s2 := x2 in
  x3 <- intersection s1 s2 ;;
  let i := x3 in
  x4 <- into_iter i ;;
  x5 <- it_collect x4 ;;
  _ <- assert (list_eqb x5 [1; 4]) ;;
  _ <- assert (negb (contains i (lit I32 0))) ;;
  _ <- assert (contains i (lit I32 1)) ;;
  _ <- assert (negb (contains i (lit I32 2))) ;;
  _ <- assert (negb (contains i (lit I32 3))) ;;
  _ <- assert (contains i (lit I32 4)) ;;
  _ <- assert (negb (contains i (lit I32 5))) ;;
  _ <- assert (negb (contains i (lit I32 6))) ;;
  _ <- assert (negb (is_empty i)) ;;
  x6 <- union (VRangeTo (mkRangeTo (lit I32 1))) (VRangeTo (mkRangeTo (lit I32 0))) ;;
  let s2 := x6 in
  x7 <- intersection s1 s2 ;;
  _ <- assert (is_empty x7) ;;
  Ret tt).
Proof. vm_compute. reflexivity. Qed.
(** src/test/intersection/bounded_set.rs:233-249 *)
Example test_intersection_bounded_set_unbounded_set : passes (
  x1 <- union (VRange (mkRange (lit I32 1) (lit I32 3))) (VRangeInclusive (mkRangeInclusive (lit I32 4) (lit I32 5) false)) ;;
  let s := x1 in
  x2 <- union (VRangeToInclusive (mkRangeToInclusive (lit I32 1))) (VRange (mkRange (lit I32 2) (lit I32 3))) ;;
  x3 <- union x2 (VRangeFrom (mkRangeFrom (lit I32 5))) ;;
  let r := x3 in
  x4 <- intersection s r ;;
  let i := x4 in
  x5 <- into_iter i ;;
  x6 <- it_collect x5 ;;
  _ <- assert (list_eqb x6 [1; 2; 5]) ;;
  _ <- assert (negb (contains i (lit I32 0))) ;;
  _ <- assert (contains i (lit I32 1)) ;;
  _ <- assert (contains i (lit I32 2)) ;;
  _ <- assert (negb (contains i (lit I32 3))) ;;
  _ <- assert (negb (contains i (lit I32 4))) ;;
  _ <- assert (contains i (lit I32 5)) ;;
  _ <- assert (negb (contains i (lit I32 6))) ;;
  _ <- assert (negb (is_empty i)) ;;
  x7 <- union (VRangeTo (mkRangeTo (lit I32 1))) (VRange (mkRange (lit I32 3) (lit I32 4))) ;;
  x8 <- union x7 (VRangeFrom (mkRangeFrom (lit I32 6))) ;;
  let r := x8 in
  x9 <- intersection s r ;;
  _ <- assert (is_empty x9) ;;
  Ret tt).
Proof. vm_compute. reflexivity. Qed.
(** src/test/intersection/empty_range.rs:3-9 *)
Example test_intersection_empty_range_range : passes (
  let r := (VEmpty mkEmptyRange : value (mint I32)) in
  x1 <- intersection r (VRange (mkRange (lit I32 1) (lit I32 3))) ;;
  let i := x1 in
  _ <- assert (is_empty i) ;;
  x2 <- into_iter i ;;
  x3 <- it_collect x2 ;;
  _ <- assert (list_eqb x3 []) ;;
  Ret tt).
Proof. vm_compute. reflexivity. Qed.
(** src/test/intersection/empty_range.rs:11-17 *)
Example test_intersection_empty_range_range_from : passes (
  let r := (VEmpty mkEmptyRange : value (mint I32)) in
  x1 <- intersection r (VRangeFrom (mkRangeFrom (lit I32 1))) ;;
  let i := x1 in
  _ <- assert (is_empty i) ;;
  x2 <- into_iter i ;;
  x3 <- it_collect x2 ;;
  _ <- assert (list_eqb x3 []) ;;
  Ret tt).
Proof. vm_compute. reflexivity. Qed.
(** src/test/intersection/empty_range.rs:19-25 *)
Example test_intersection_empty_range_range_full : passes (
  let r := (VEmpty mkEmptyRange : value (mint I32)) in
  x1 <- intersection r (VRangeFull mkRangeFull : value (mint I32)) ;;
  let i := x1 in
  _ <- assert (is_empty i) ;;
  x2 <- into_iter i ;;
  x3 <- it_collect x2 ;;
  _ <- assert (list_eqb x3 []) ;;
  Ret tt).
Proof. vm_compute. reflexivity. Qed.
(** src/test/intersection/empty_range.rs:27-33 *)
Example test_intersection_empty_range_range_inclusive : passes (
  let r := (VEmpty mkEmptyRange : value (mint I32)) in
  x1 <- intersection r (VRangeInclusive (mkRangeInclusive (lit I32 1) (lit I32 3) false)) ;;
  let i := x1 in
  _ <- assert (is_empty i) ;;
  x2 <- into_iter i ;;
  x3 <- it_collect x2 ;;
  _ <- assert (list_eqb x3 []) ;;
  Ret tt).
Proof. vm_compute. reflexivity. Qed.
(** src/test/intersection/empty_range.rs:35-41 *)
Example test_intersection_empty_range_range_to : passes (
  let r := (VEmpty mkEmptyRange : value (mint I32)) in
  x1 <- intersection r (VRangeTo (mkRangeTo (lit I32 3))) ;;
  let i := x1 in
  _ <- assert (is_empty i) ;;
  x2 <- into_iter i ;;
  x3 <- it_collect x2 ;;
  _ <- assert (list_eqb x3 []) ;;
  Ret tt).
Proof. vm_compute. reflexivity. Qed.
(** src/test/intersection/empty_range.rs:43-49 *)
Example test_intersection_empty_range_range_to_inclusive : passes (
  let r := (VEmpty mkEmptyRange : value (mint I32)) in
  x1 <- intersection r (VRangeToInclusive (mkRangeToInclusive (lit I32 3))) ;;
  let i := x1 in
  _ <- assert (is_empty i) ;;
  x2 <- into_iter i ;;
  x3 <- it_collect x2 ;;
  _ <- assert (list_eqb x3 []) ;;
  Ret tt).
Proof. vm_compute. reflexivity. Qed.
(** src/test/intersection/empty_range.rs:51-58 *)
Example test_intersection_empty_range_bounded_range : passes (
  let r1 := (VEmpty mkEmptyRange : value (mint I32)) in
  x1 <- intersection (VRange (mkRange (lit I32 1) (lit I32 3))) (VRangeFull mkRangeFull : value (mint I32)) ;;
  let r2 := x1 in
  x2 <- intersection r1 r2 ;;
  let i := x2 in
  _ <- assert (is_empty i) ;;
  x3 <- into_iter i ;;
  x4 <- it_collect x3 ;;
  _ <- assert (list_eqb x4 []) ;;
  Ret tt).
Proof. vm_compute. reflexivity. Qed.
(** src/test/intersection/empty_range.rs:60-67 *)
Example test_intersection_empty_range_lower_bounded_range : passes (
  let r1 := (VEmpty mkEmptyRange : value (mint I32)) in
  x1 <- intersection (VRangeFrom (mkRangeFrom (lit I32 3))) (VRangeFull mkRangeFull : value (mint I32)) ;;
  let r2 := x1 in
  x2 <- intersection r1 r2 ;;
  let i := x2 in
  _ <- assert (is_empty i) ;;
  x3 <- into_iter i ;;
  x4 <- it_collect x3 ;;
  _ <- assert (list_eqb x4 []) ;;
  Ret tt).
Proof. vm_compute. reflexivity. Qed.
(** src/test/intersection/empty_range.rs:68-75 *)
Example test_intersection_empty_range_upper_bounded_range : passes (
  let r1 := (VEmpty mkEmptyRange : value (mint I32)) in
  x1 <- intersection (VRangeTo (mkRangeTo (lit I32 3))) (VRangeFull mkRangeFull : value (mint I32)) ;;
  let r2 := x1 in
  x2 <- intersection r1 r2 ;;
  let i := x2 in
  _ <- assert (is_empty i) ;;
  x3 <- into_iter i ;;
  x4 <- it_collect x3 ;;
  _ <- assert (list_eqb x4 []) ;;
  Ret tt).
Proof. vm_compute. reflexivity. Qed.
(** src/test/intersection/empty_range.rs:76-83 *)
Example test_intersection_empty_range_unbounded_range : passes (
  let r1 := (VEmpty mkEmptyRange : value (mint I32)) in
  x1 <- intersection (VRangeFull mkRangeFull : value (mint I32)) (VRangeFull mkRangeFull : value (mint I32)) ;;
  let r2 := x1 in
  x2 <- intersection r1 r2 ;;
  let i := x2 in
  _ <- assert (is_empty i) ;;
  x3 <- into_iter i ;;
  x4 <- it_collect x3 ;;
  _ <- assert (list_eqb x4 []) ;;
  Ret tt).
Proof. vm_compute. reflexivity. Qed.
(** src/test/intersection/empty_range.rs:85-92 *)
Example test_intersection_empty_range_empty_range : passes (
  let r1 := (VEmpty mkEmptyRange : value (mint I32)) in
  let r2 := (VEmpty mkEmptyRange : value (mint I32)) in
  x1 <- intersection r1 r2 ;;
  let i := x1 in
  _ <- assert (is_empty i) ;;
  x2 <- into_iter i ;;
  x3 <- it_collect x2 ;;
  _ <- assert (list_eqb x3 []) ;;
  Ret tt).
Proof. vm_compute. reflexivity. Qed.
(** src/test/intersection/empty_range.rs:94-101 *)
Example test_intersection_empty_range_bounded_set : passes (
  let r := (VEmpty mkEmptyRange : value (mint I32)) in
  x1 <- union (VRange (mkRange (lit I32 1) (lit I32 3))) (VRange (mkRange (lit I32 4) (lit I32 6))) ;;
  let s := x1 in
  x2 <- intersection r s ;;
  let i := x2 in
  _ <- assert (is_empty i) ;;
  x3 <- into_iter i ;;
  x4 <- it_collect x3 ;;
  _ <- assert (list_eqb x4 []) ;;
  Ret tt).
Proof. vm_compute. reflexivity. Qed.
(** src/test/intersection/empty_range.rs:103-110 *)
Example test_intersection_empty_range_lower_bounded_set : passes (
  let r := (VEmpty mkEmptyRange : value (mint I32)) in
  x1 <- union (VRangeFrom (mkRangeFrom (lit I32 3))) (VRange (mkRange (lit I32 0) (lit I32 2))) ;;
  let s := x1 in
  x2 <- intersection r s ;;
  let i := x2 in
  _ <- assert (is_empty i) ;;
  x3 <- into_iter i ;;
  x4 <- it_collect x3 ;;
  _ <- assert (list_eqb x4 []) ;;
  Ret tt).
Proof. vm_compute. reflexivity. Qed.
(** src/test/intersection/empty_range.rs:112-119 *)
Example test_intersection_empty_range_upper_bounded_set : passes (
  let r := (VEmpty mkEmptyRange : value (mint I32)) in
  x1 <- union (VRangeTo (mkRangeTo (lit I32 3))) (VRange (mkRange (lit I32 4) (lit I32 5))) ;;
  let s := x1 in
  x2 <- intersection r s ;;
  let i := x2 in
  _ <- assert (is_empty i) ;;
  x3 <- into_iter i ;;
  x4 <- it_collect x3 ;;
  _ <- assert (list_eqb x4 []) ;;
  Ret tt).
Proof. vm_compute. reflexivity. Qed.
(** src/test/intersection/empty_range.rs:121-128 *)
Example test_intersection_empty_range_unbounded_set : passes (
  let r := (VEmpty mkEmptyRange : value (mint I32)) in
  x1 <- union (VRange (mkRange (lit I32 2) (lit I32 3))) (VRangeTo (mkRangeTo (lit I32 1))) ;;
  x2 <- union x1 (VRangeFrom (mkRangeFrom (lit I32 4))) ;;
  let s := x2 in
  x3 <- intersection r s ;;
  let i := x3 in
  _ <- assert (is_empty i) ;;
  x4 <- into_iter i ;;
  x5 <- it_collect x4 ;;
  _ <- assert (list_eqb x5 []) ;;
  Ret tt).
Proof. vm_compute. reflexivity. Qed.
(** src/test/intersection/lower_bounded_range.rs:3-16 *)
Example test_intersection_lower_bounded_range_range : passes (
  x1 <- intersection (VRangeFrom (mkRangeFrom (lit I32 1))) (VRangeFull mkRangeFull : value (mint I32)) ;;
  let r := x1 in
  x2 <- intersection r (VRange (mkRange (lit I32 2) (lit I32 4))) ;;
  let i := x2 in
  x3 <- into_iter i ;;
  x4 <- it_collect x3 ;;
  _ <- assert (list_eqb x4 [2; 3]) ;;
  _ <- assert (negb (contains i (lit I32 0))) ;;
  _ <- assert (negb (contains i (lit I32 1))) ;;
  _ <- assert (contains i (lit I32 2)) ;;
  _ <- assert (contains i (lit I32 3)) ;;
  _ <- assert (negb (contains i (lit I32 4))) ;;
  _ <- assert (negb (contains i (lit I32 5))) ;;
  _ <- assert (negb (is_empty i)) ;;
  x5 <- intersection r (VRange (mkRange (lit I32 0) (lit I32 1))) ;;
  _ <- assert (is_empty x5) ;;
  Ret tt).
Proof. vm_compute. reflexivity. Qed.
(** src/test/intersection/lower_bounded_range.rs:18-30 *)
Example test_intersection_lower_bounded_range_range_from : passes (
  x1 <- intersection (VRangeFrom (mkRangeFrom (lit I32 1))) (VRangeFull mkRangeFull : value (mint I32)) ;;
  let r := x1 in
  x2 <- intersection r (VRangeFrom (mkRangeFrom (lit I32 2))) ;;
  let i := x2 in
  x3 <- into_iter i ;;
  x4 <- it_take 3 x3 ;;
  _ <- assert (list_eqb x4 [2; 3; 4]) ;;
  _ <- assert (negb (contains i (lit I32 0))) ;;
  _ <- assert (negb (contains i (lit I32 1))) ;;
  _ <- assert (contains i (lit I32 2)) ;;
  _ <- assert (contains i (lit I32 3)) ;;
  _ <- assert (contains i (lit I32 4)) ;;
  _ <- assert (contains i (lit I32 5)) ;;
  _ <- assert (negb (is_empty i)) ;;
  Ret tt).
Proof. vm_compute. reflexivity. Qed.
(** src/test/intersection/lower_bounded_range.rs:32-44 *)
Example test_intersection_lower_bounded_range_range_full : passes (
  x1 <- intersection (VRangeFrom (mkRangeFrom (lit I32 1))) (VRangeFull mkRangeFull : value (mint I32)) ;;
  let r := x1 in
  x2 <- intersection r (VRangeFull mkRangeFull : value (mint I32)) ;;
  let i := x2 in
  x3 <- into_iter i ;;
  x4 <- it_take 3 x3 ;;
  _ <- assert (list_eqb x4 [1; 2; 3]) ;;
  _ <- assert (negb (contains i (lit I32 0))) ;;
  _ <- assert (contains i (lit I32 1)) ;;
  _ <- assert (contains i (lit I32 2)) ;;
  _ <- assert (contains i (lit I32 3)) ;;
  _ <- assert (contains i (lit I32 4)) ;;
  _ <- assert (contains i (lit I32 5)) ;;
  _ <- assert (negb (is_empty i)) ;;
  Ret tt).
Proof. vm_compute. reflexivity. Qed.
(** src/test/intersection/lower_bounded_range.rs:46-59 *)
Example test_intersection_lower_bounded_range_range_inclusive : passes (
  x1 <- intersection (VRangeFrom (mkRangeFrom (lit I32 1))) (VRangeFull mkRangeFull : value (mint I32)) ;;
  let r := x1 in
  x2 <- intersection r (VRangeInclusive (mkRangeInclusive (lit I32 2) (lit I32 4) false)) ;;
  let i := x2 in
  x3 <- into_iter i ;;
  x4 <- it_collect x3 ;;
  _ <- assert (list_eqb x4 [2; 3; 4]) ;;
  _ <- assert (negb (contains i (lit I32 0))) ;;
  _ <- assert (negb (contains i (lit I32 1))) ;;
  _ <- assert (contains i (lit I32 2)) ;;
  _ <- assert (contains i (lit I32 3)) ;;
  _ <- assert (contains i (lit I32 4)) ;;
  _ <- assert (negb (contains i (lit I32 5))) ;;
  _ <- assert (negb (is_empty i)) ;;
  x5 <- intersection r (VRangeInclusive (mkRangeInclusive (lit I32 0) (lit I32 0) false)) ;;
  _ <- assert (is_empty x5) ;;
  Ret tt).
Proof. vm_compute. reflexivity. Qed.
(** src/test/intersection/lower_bounded_range.rs:61-74 *)
Example test_intersection_lower_bounded_range_range_to : passes (
  x1 <- intersection (VRangeFrom (mkRangeFrom (lit I32 1))) (VRangeFull mkRangeFull : value (mint I32)) ;;
  let r := x1 in
  x2 <- intersection r (VRangeTo (mkRangeTo (lit I32 4))) ;;
  let i := x2 in
  x3 <- into_iter i ;;
  x4 <- it_collect x3 ;;
  _ <- assert (list_eqb x4 [1; 2; 3]) ;;
  _ <- assert (negb (contains i (lit I32 0))) ;;
  _ <- assert (contains i (lit I32 1)) ;;
  _ <- assert (contains i (lit I32 2)) ;;
  _ <- assert (contains i (lit I32 3)) ;;
  _ <- assert (negb (contains i (lit I32 4))) ;;
  _ <- assert (negb (contains i (lit I32 5))) ;;
  _ <- assert (negb (is_empty i)) ;;
  x5 <- intersection r (VRangeTo (mkRangeTo (lit I32 1))) ;;
  _ <- assert (is_empty x5) ;;
  Ret tt).
Proof. vm_compute. reflexivity. Qed.
(** src/test/intersection/lower_bounded_range.rs:76-89 *)
Example test_intersection_lower_bounded_range_range_to_inclusive : passes (
  x1 <- intersection (VRangeFrom (mkRangeFrom (lit I32 1))) (VRangeFull mkRangeFull : value (mint I32)) ;;
  let r := x1 in
  x2 <- intersection r (VRangeToInclusive (mkRangeToInclusive (lit I32 4))) ;;
  let i := x2 in
  x3 <- into_iter i ;;
  x4 <- it_collect x3 ;;
  _ <- assert (list_eqb x4 [1; 2; 3; 4]) ;;
  _ <- assert (negb (contains i (lit I32 0))) ;;
  _ <- assert (contains i (lit I32 1)) ;;
  _ <- assert (contains i (lit I32 2)) ;;
  _ <- assert (contains i (lit I32 3)) ;;
  _ <- assert (contains i (lit I32 4)) ;;
  _ <- assert (negb (contains i (lit I32 5))) ;;
  _ <- assert (negb (is_empty i)) ;;
  x5 <- intersection r (VRangeToInclusive (mkRangeToInclusive (lit I32 0))) ;;
  _ <- assert (is_empty x5) ;;
  Ret tt).
Proof. vm_compute. reflexivity. Qed.
(** src/test/intersection/lower_bounded_range.rs:91-106 *)
Example test_intersection_lower_bounded_range_bounded_range : passes (
  x1 <- intersection (VRangeFrom (mkRangeFrom (lit I32 1))) (VRangeFull mkRangeFull : value (mint I32)) ;;
  let r1 := x1 in
  x2 <- intersection (VRange (mkRange (lit I32 2) (lit I32 5))) (VRangeFull mkRangeFull : value (mint I32)) ;;
  let r2 := x2 in
  x3 <- intersection r1 r2 ;;
  let i := x3 in
  x4 <- into_iter i ;;
  x5 <- it_collect x4 ;;
  _ <- assert (list_eqb x5 [2; 3; 4]) ;;
  _ <- assert (negb (contains i (lit I32 0))) ;;
  _ <- assert (negb (contains i (lit I32 1))) ;;
  _ <- assert (contains i (lit I32 2)) ;;
  _ <- assert (contains i (lit I32 3)) ;;
  _ <- assert (contains i (lit I32 4)) ;;
  _ <- assert (negb (contains i (lit I32 5))) ;;
  _ <- assert (negb (is_empty i)) ;;
  x6 <- intersection (VRange (mkRange (lit I32 0) (lit I32 1))) (VRangeFull mkRangeFull : value (mint I32)) ;;
  let r3 := x6 in
  x7 <- intersection r1 r3 ;;
  _ <- assert (is_empty x7) ;;
  Ret tt).
Proof. vm_compute. reflexivity. Qed.
(** src/test/intersection/lower_bounded_range.rs:108-121 *)
Example test_intersection_lower_bounded_range_lower_bounded_range : passes (
  x1 <- intersection (VRangeFrom (mkRangeFrom (lit I32 1))) (VRangeFull mkRangeFull : value (mint I32)) ;;
  let r1 := x1 in
  x2 <- intersection (VRangeFrom (mkRangeFrom (lit I32 2))) (VRangeFull mkRangeFull : value (mint I32)) ;;
  let r2 := x2 in
  x3 <- intersection r1 r2 ;;
  let i := x3 in
  x4 <- into_iter i ;;
  x5 <- it_take 3 x4 ;;
  _ <- assert (list_eqb x5 [2; 3; 4]) ;;
  _ <- assert (negb (contains i (lit I32 0))) ;;
  _ <- assert (negb (contains i (lit I32 1))) ;;
  _ <- assert (contains i (lit I32 2)) ;;
  _ <- assert (contains i (lit I32 3)) ;;
  _ <- assert (contains i (lit I32 4)) ;;
  _ <- assert (contains i (lit I32 5)) ;;
  _ <- assert (negb (is_empty i)) ;;
  Ret tt).
Proof. vm_compute. reflexivity. Qed.
(** src/test/intersection/lower_bounded_range.rs:123-138 *)
Example test_intersection_lower_bounded_range_upper_bounded_range : passes (
  x1 <- intersection (VRangeFrom (mkRangeFrom (lit I32 1))) (VRangeFull mkRangeFull : value (mint I32)) ;;
  let r1 := x1 in
  x2 <- intersection (VRangeTo (mkRangeTo (lit I32 5))) (VRangeFull mkRangeFull : value (mint I32)) ;;
  let r2 := x2 in
  x3 <- intersection r1 r2 ;;
  let i := x3 in
  x4 <- into_iter i ;;
  x5 <- it_collect x4 ;;
  _ <- assert (list_eqb x5 [1; 2; 3; 4]) ;;
  _ <- assert (negb (contains i (lit I32 0))) ;;
  _ <- assert (contains i (lit I32 1)) ;;
  _ <- assert (contains i (lit I32 2)) ;;
  _ <- assert (contains i (lit I32 3)) ;;
  _ <- assert (contains i (lit I32 4)) ;;
  _ <- assert (negb (contains i (lit I32 5))) ;;
  _ <- assert (negb (is_empty i)) ;;
  x6 <- intersection (VRangeTo (mkRangeTo (lit I32 1))) (VRangeFull mkRangeFull : value (mint I32)) ;;
  let r3 := x6 in
  x7 <- intersection r1 r3 ;;
  _ <- assert (is_empty x7) ;;
  Ret tt).
Proof. vm_compute. reflexivity. Qed.
(** src/test/intersection/lower_bounded_range.rs:140-153 *)
Example test_intersection_lower_bounded_range_unbounded_range : passes (
  x1 <- intersection (VRangeFrom (mkRangeFrom (lit I32 1))) (VRangeFull mkRangeFull : value (mint I32)) ;;
  let r1 := x1 in
  x2 <- intersection (VRangeFull mkRangeFull : value (mint I32)) (VRangeFull mkRangeFull : value (mint I32)) ;;
  let r2 := x2 in
  x3 <- intersection r1 r2 ;;
  let i := x3 in
  x4 <- into_iter i ;;
  x5 <- it_take 3 x4 ;;
  _ <- assert (list_eqb x5 [1; 2; 3]) ;;
  _ <- assert (negb (contains i (lit I32 0))) ;;
  _ <- assert (contains i (lit I32 1)) ;;
  _ <- assert (contains i (lit I32 2)) ;;
  _ <- assert (contains i (lit I32 3)) ;;
  _ <- assert (contains i (lit I32 4)) ;;
  _ <- assert (contains i (lit I32 5)) ;;
  _ <- assert (negb (is_empty i)) ;;
  Ret tt).
Proof. vm_compute. reflexivity. Qed.
(** src/test/intersection/lower_bounded_range.rs:155-162 *)
Example test_intersection_lower_bounded_range_empty_range : passes (
  x1 <- intersection (VRangeFrom (mkRangeFrom (lit I32 1))) (VRangeFull mkRangeFull : value (mint I32)) ;;
  let r1 := x1 in
  let r2 := (VEmpty mkEmptyRange : value (mint I32)) in
  x2 <- intersection r1 r2 ;;
  let i := x2 in
  _ <- assert (is_empty i) ;;
  x3 <- into_iter i ;;
  x4 <- it_collect x3 ;;
  _ <- assert (list_eqb x4 []) ;;
  Ret tt).
Proof. vm_compute. reflexivity. Qed.
(** src/test/intersection/lower_bounded_range.rs:164-179 *)
Example test_intersection_lower_bounded_range_bounded_set : passes (
  x1 <- intersection (VRangeFrom (mkRangeFrom (lit I32 1))) (VRangeFrom (mkRangeFrom (lit I32 2))) ;;
  let r := x1 in
  x2 <- union (VRange (mkRange (lit I32 2) (lit I32 3))) (VRange (mkRange (lit I32 4) (lit I32 5))) ;;
  let s := x2 in
  x3 <- intersection r s ;;
  let i := x3 in
  x4 <- into_iter i ;;
  x5 <- it_collect x4 ;;
  _ <- assert (list_eqb x5 [2; 4]) ;;
  _ <- assert (negb (contains i (lit I32 0))) ;;
  _ <- assert (negb (contains i (lit I32 1))) ;;
  _ <- assert (contains i (lit I32 2)) ;;
  _ <- assert (negb (contains i (lit I32 3))) ;;
  _ <- assert (contains i (lit I32 4)) ;;
  _ <- assert (negb (contains i (lit I32 5))) ;;
  _ <- assert (negb (is_empty i)) ;;
  x6 <- union (VRange (mkRange (lit I32 0) (lit I32 1))) (VRange (mkRange (lit I32 0) (lit I32 1))) ;;
  let s := x6 in
  x7 <- intersection r s ;;
  _ <- assert (is_empty x7) ;;
  Ret tt).
Proof. vm_compute. reflexivity. Qed.
(** src/test/intersection/lower_bounded_range.rs:181-193 *)
Example test_intersection_lower_bounded_range_lower_bounded_set : passes (
  x1 <- intersection (VRangeFrom (mkRangeFrom (lit I32 1))) (VRangeFrom (mkRangeFrom (lit I32 2))) ;;
  let r := x1 in
  x2 <- union (VRange (mkRange (lit I32 0) (lit I32 2))) (VRangeFrom (mkRangeFrom (lit I32 4))) ;;
  let s := x2 in
  x3 <- intersection r s ;;
  let i := x3 in
  _ <- assert (negb (contains i (lit I32 0))) ;;
  _ <- assert (negb (contains i (lit I32 1))) ;;
  _ <- assert (negb (contains i (lit I32 2))) ;;
  _ <- assert (negb (contains i (lit I32 3))) ;;
  _ <- assert (contains i (lit I32 4)) ;;
  _ <- assert (contains i (lit I32 5)) ;;
  _ <- assert (negb (is_empty i)) ;;
  Ret tt).
Proof. vm_compute. reflexivity. Qed.
(** src/test/intersection/lower_bounded_range.rs:195-210 *)
Example test_intersection_lower_bounded_range_upper_bounded_set : passes (
  let r := (value_of_inner (to_inner (VRangeFrom (mkRangeFrom (lit I32 1))))) in
  x1 <- union (VRangeTo (mkRangeTo (lit I32 2))) (VRange (mkRange (lit I32 3) (lit I32 4))) ;;
  let s := x1 in
  x2 <- intersection r s ;;
  let i := x2 in
  x3 <- into_iter i ;;
  x4 <- it_collect x3 ;;
  _ <- assert (list_eqb x4 [1; 3]) ;;
  _ <- assert (negb (contains i (lit I32 0))) ;;
  _ <- assert (contains i (lit I32 1)) ;;
  _ <- assert (negb (contains i (lit I32 2))) ;;
  _ <- assert (contains i (lit I32 3)) ;;
  _ <- assert (negb (contains i (lit I32 4))) ;;
  _ <- assert (negb (contains i (lit I32 5))) ;;
  _ <- assert (negb (is_empty i)) ;;
  x5 <- union (VRangeTo (mkRangeTo (lit I32 1))) (VRangeTo (mkRangeTo (lit I32 1))) ;;
  let s := x5 in
  x6 <- intersection r s ;;
  _ <- assert (is_empty x6) ;;
  Ret tt).
Proof. vm_compute. reflexivity. Qed.
(** src/test/intersection/lower_bounded_range.rs:212-224 *)
Example test_intersection_lower_bounded_range_unbounded_set : passes (
  x1 <- intersection (VRangeFrom (mkRangeFrom (lit I32 1))) (VRangeFrom (mkRangeFrom (lit I32 2))) ;;
  let r := x1 in
  x2 <- union (VRangeTo (mkRangeTo (lit I32 1))) (VRange (mkRange (lit I32 2) (lit I32 3))) ;;
  x3 <- union x2 (VRangeFrom (mkRangeFrom (lit I32 4))) ;;
  let s := x3 in
  x4 <- intersection r s ;;
  let i := x4 in
  _ <- assert (negb (contains i (lit I32 0))) ;;
  _ <- assert (negb (contains i (lit I32 1))) ;;
  _ <- assert (contains i (lit I32 2)) ;;
  _ <- assert (negb (contains i (lit I32 3))) ;;
  _ <- assert (contains i (lit I32 4)) ;;
  _ <- assert (contains i (lit I32 5)) ;;
  _ <- assert (negb (is_empty i)) ;;
  Ret tt).
Proof. vm_compute. reflexivity. Qed.
(** src/test/intersection/lower_bounded_set.rs:3-16 *)
Example test_intersection_lower_bounded_set_range : passes (
  x1 <- union (VRange (mkRange (lit I32 1) (lit I32 2))) (VRangeFrom (mkRangeFrom (lit I32 3))) ;;
  let s := x1 in
  x2 <- intersection s (VRange (mkRange (lit I32 1) (lit I32 4))) ;;
  let i := x2 in
  x3 <- into_iter i ;;
  x4 <- it_collect x3 ;;
  _ <- assert (list_eqb x4 [1; 3]) ;;
  _ <- assert (negb (contains i (lit I32 0))) ;;
  _ <- assert (contains i (lit I32 1)) ;;
  _ <- assert (negb (contains i (lit I32 2))) ;;
  _ <- assert (contains i (lit I32 3)) ;;
  _ <- assert (negb (contains i (lit I32 4))) ;;
  _ <- assert (negb (contains i (lit I32 5))) ;;
  _ <- assert (negb (is_empty i)) ;;
  x5 <- intersection s (VRange (mkRange (lit I32 2) (lit I32 3))) ;;
  _ <- assert (is_empty x5) ;;
  Ret tt).
Proof. vm_compute. reflexivity. Qed.
(** src/test/intersection/lower_bounded_set.rs:18-33 *)
Example test_intersection_lower_bounded_set_range_from : passes (
  x1 <- union (VRange (mkRange (lit I32 1) (lit I32 2))) (VRangeFrom (mkRangeFrom (lit I32 3))) ;;
  let s := x1 in
  x2 <- intersection s (VRangeFrom (mkRangeFrom (lit I32 1))) ;;
  let i := x2 in
  x3 <- into_iter i ;;
  x4 <- it_take 3 x3 ;;
  _ <- assert (list_eqb x4 [1; 3; 4]) ;;
  _ <- assert (negb (contains i (lit I32 0))) ;;
  _ <- assert (contains i (lit I32 1)) ;;
  _ <- assert (negb (contains i (lit I32 2))) ;;
  _ <- assert (contains i (lit I32 3)) ;;
  _ <- assert (contains i (lit I32 4)) ;;
  _ <- assert (contains i (lit I32 5)) ;;
  _ <- assert (negb (is_empty i)) ;;
  Ret tt).
Proof. vm_compute. reflexivity. Qed.
(** src/test/intersection/lower_bounded_set.rs:35-50 *)
Example test_intersection_lower_bounded_set_range_full : passes (
  x1 <- union (VRange (mkRange (lit I32 1) (lit I32 2))) (VRangeFrom (mkRangeFrom (lit I32 3))) ;;
  let s := x1 in
  x2 <- intersection s (VRangeFull mkRangeFull : value (mint I32)) ;;
  let i := x2 in
  x3 <- into_iter i ;;
  x4 <- it_take 3 x3 ;;
  _ <- assert (list_eqb x4 [1; 3; 4]) ;;
  _ <- assert (negb (contains i (lit I32 0))) ;;
  _ <- assert (contains i (lit I32 1)) ;;
  _ <- assert (negb (contains i (lit I32 2))) ;;
  _ <- assert (contains i (lit I32 3)) ;;
  _ <- assert (contains i (lit I32 4)) ;;
  _ <- assert (contains i (lit I32 5)) ;;
  _ <- assert (negb (is_empty i)) ;;
  Ret tt).
Proof. vm_compute. reflexivity. Qed.
(** src/test/intersection/lower_bounded_set.rs:52-65 *)
Example test_intersection_lower_bounded_set_range_inclusive : passes (
  x1 <- union (VRange (mkRange (lit I32 1) (lit I32 2))) (VRangeFrom (mkRangeFrom (lit I32 3))) ;;
  let s := x1 in
  x2 <- intersection s (VRangeInclusive (mkRangeInclusive (lit I32 1) (lit I32 4) false)) ;;
  let i := x2 in
  x3 <- into_iter i ;;
  x4 <- it_collect x3 ;;
  _ <- assert (list_eqb x4 [1; 3; 4]) ;;
  _ <- assert (negb (contains i (lit I32 0))) ;;
  _ <- assert (contains i (lit I32 1)) ;;
  _ <- assert (negb (contains i (lit I32 2))) ;;
  _ <- assert (contains i (lit I32 3)) ;;
  _ <- assert (contains i (lit I32 4)) ;;
  _ <- assert (negb (contains i (lit I32 5))) ;;
  _ <- assert (negb (is_empty i)) ;;
  x5 <- intersection s (VRangeInclusive (mkRangeInclusive (lit I32 2) (lit I32 2) false)) ;;
  _ <- assert (is_empty x5) ;;
  Ret tt).
Proof. vm_compute. reflexivity. Qed.
(** src/test/intersection/lower_bounded_set.rs:67-80 *)
Example test_intersection_lower_bounded_set_range_to : passes (
  x1 <- union (VRange (mkRange (lit I32 1) (lit I32 2))) (VRangeFrom (mkRangeFrom (lit I32 3))) ;;
  let s := x1 in
  x2 <- intersection s (VRangeTo (mkRangeTo (lit I32 5))) ;;
  let i := x2 in
  x3 <- into_iter i ;;
  x4 <- it_collect x3 ;;
  _ <- assert (list_eqb x4 [1; 3; 4]) ;;
  _ <- assert (negb (contains i (lit I32 0))) ;;
  _ <- assert (contains i (lit I32 1)) ;;
  _ <- assert (negb (contains i (lit I32 2))) ;;
  _ <- assert (contains i (lit I32 3)) ;;
  _ <- assert (contains i (lit I32 4)) ;;
  _ <- assert (negb (contains i (lit I32 5))) ;;
  _ <- assert (negb (is_empty i)) ;;
  x5 <- intersection s (VRangeTo (mkRangeTo (lit I32 1))) ;;
  _ <- assert (is_empty x5) ;;
  Ret tt).
Proof. vm_compute. reflexivity. Qed.
(** src/test/intersection/lower_bounded_set.rs:82-95 *)
Example test_intersection_lower_bounded_set_range_to_inclusive : passes (
  x1 <- union (VRange (mkRange (lit I32 1) (lit I32 2))) (VRangeFrom (mkRangeFrom (lit I32 3))) ;;
  let s := x1 in
  x2 <- intersection s (VRangeToInclusive (mkRangeToInclusive (lit I32 5))) ;;
  let i := x2 in
  x3 <- into_iter i ;;
  x4 <- it_collect x3 ;;
  _ <- assert (list_eqb x4 [1; 3; 4; 5]) ;;
  _ <- assert (negb (contains i (lit I32 0))) ;;
  _ <- assert (contains i (lit I32 1)) ;;
  _ <- assert (negb (contains i (lit I32 2))) ;;
  _ <- assert (contains i (lit I32 3)) ;;
  _ <- assert (contains i (lit I32 4)) ;;
  _ <- assert (contains i (lit I32 5)) ;;
  _ <- assert (negb (is_empty i)) ;;
  x5 <- intersection s (VRangeToInclusive (mkRangeToInclusive (lit I32 0))) ;;
  _ <- assert (is_empty x5) ;;
  Ret tt).
Proof. vm_compute. reflexivity. Qed.
(** src/test/intersection/lower_bounded_set.rs:97-112 *)
Example test_intersection_lower_bounded_set_bounded_range : passes (
  x1 <- union (VRange (mkRange (lit I32 1) (lit I32 2))) (VRangeFrom (mkRangeFrom (lit I32 3))) ;;
  let s := x1 in
  x2 <- intersection (VRange (mkRange (lit I32 0) (lit I32 8))) (VRange (mkRange (lit I32 1) (lit I32 5))) ;;
  let r := x2 in
  x3 <- intersection s r ;;
  let i := x3 in
  x4 <- into_iter i ;;
  x5 <- it_collect x4 ;;
  _ <- assert (list_eqb x5 [1; 3; 4]) ;;
  _ <- assert (negb (contains i (lit I32 0))) ;;
  _ <- assert (contains i (lit I32 1)) ;;
  _ <- assert (negb (contains i (lit I32 2))) ;;
  _ <- assert (contains i (lit I32 3)) ;;
  _ <- assert (contains i (lit I32 4)) ;;
  _ <- assert (negb (contains i (lit I32 5))) ;;
  _ <- assert (negb (is_empty i)) ;;
  x6 <- intersection (VRange (mkRange (lit I32 0) (lit I32 1))) (VRange (mkRange (lit I32 0) (lit I32 3))) ;;
  let r := x6 in
  x7 <- intersection s r ;;
  _ <- assert (is_empty x7) ;;
  Ret tt).
Proof. vm_compute. reflexivity. Qed.
(** src/test/intersection/lower_bounded_set.rs:114-130 *)
Example test_intersection_lower_bounded_set_lower_bounded_range : passes (
  x1 <- union (VRange (mkRange (lit I32 1) (lit I32 2))) (VRangeFrom (mkRangeFrom (lit I32 3))) ;;
  let s := x1 in
  x2 <- intersection (VRangeFrom (mkRangeFrom (lit I32 1))) (VRangeFull mkRangeFull : value (mint I32)) ;;
  let r := x2 in
  x3 <- intersection s r ;;
  let i := x3 in
  x4 <- into_iter i ;;
  x5 <- it_take 3 x4 ;;
  _ <- assert (list_eqb x5 [1; 3; 4]) ;;
  _ <- assert (negb (contains i (lit I32 0))) ;;
  _ <- assert (contains i (lit I32 1)) ;;
  _ <- assert (negb (contains i (lit I32 2))) ;;
  _ <- assert (contains i (lit I32 3)) ;;
  _ <- assert (contains i (lit I32 4)) ;;
  _ <- assert (contains i (lit I32 5)) ;;
  _ <- assert (negb (is_empty i)) ;;
  Ret tt).
Proof. vm_compute. reflexivity. Qed.
(** src/test/intersection/lower_bounded_set.rs:132-147 *)
Example test_intersection_lower_bounded_set_upper_bounded_range : passes (
  x1 <- union (VRange (mkRange (lit I32 1) (lit I32 2))) (VRangeFrom (mkRangeFrom (lit I32 3))) ;;
  let s := x1 in
  x2 <- intersection (VRangeTo (mkRangeTo (lit I32 5))) (VRangeFull mkRangeFull : value (mint I32)) ;;
  let r := x2 in
  x3 <- intersection s r ;;
  let i := x3 in
  x4 <- into_iter i ;;
  x5 <- it_collect x4 ;;
  _ <- assert (list_eqb x5 [1; 3; 4]) ;;
  _ <- assert (negb (contains i (lit I32 0))) ;;
  _ <- assert (contains i (lit I32 1)) ;;
  _ <- assert (negb (contains i (lit I32 2))) ;;
  _ <- assert (contains i (lit I32 3)) ;;
  _ <- assert (contains i (lit I32 4)) ;;
  _ <- assert (negb (contains i (lit I32 5))) ;;
  _ <- assert (negb (is_empty i)) ;;
  x6 <- intersection (VRange (mkRange (lit I32 0) (lit I32 1))) (VRangeFull mkRangeFull : value (mint I32)) ;;
  let r := x6 in
  x7 <- intersection s r ;;
  _ <- assert (is_empty x7) ;;
  Ret tt).
Proof. vm_compute. reflexivity. Qed.
(** src/test/intersection/lower_bounded_set.rs:149-165 *)
Example test_intersection_lower_bounded_set_unbounded_range : passes (
  x1 <- union (VRange (mkRange (lit I32 1) (lit I32 2))) (VRangeFrom (mkRangeFrom (lit I32 3))) ;;
  let s := x1 in
  let r := (value_of_inner (to_inner (VRangeFull mkRangeFull : value (mint I32)))) in
  x2 <- intersection s r ;;
  let i := x2 in
  x3 <- into_iter i ;;
  x4 <- it_take 3 x3 ;;
  _ <- assert (list_eqb x4 [1; 3; 4]) ;;
  _ <- assert (negb (contains i (lit I32 0))) ;;
  _ <- assert (contains i (lit I32 1)) ;;
  _ <- assert (negb (contains i (lit I32 2))) ;;
  _ <- assert (contains i (lit I32 3)) ;;
  _ <- assert (contains i (lit I32 4)) ;;
  _ <- assert (contains i (lit I32 5)) ;;
  _ <- assert (negb (is_empty i)) ;;
  Ret tt).
Proof. vm_compute. reflexivity. Qed.
(** src/test/intersection/lower_bounded_set.rs:167-174 *)
Example test_intersection_lower_bounded_set_empty_range : passes (
  x1 <- union (VRange (mkRange (lit I32 1) (lit I32 2))) (VRangeFrom (mkRangeFrom (lit I32 3))) ;;
  let s := x1 in
  let r := (VEmpty mkEmptyRange : value (mint I32)) in
  x2 <- intersection s r ;;
  let i := x2 in
  _ <- assert (is_empty i) ;;
  x3 <- into_iter i ;;
  x4 <- it_collect x3 ;;
  _ <- assert (list_eqb x4 []) ;;
  Ret tt).
Proof. vm_compute. reflexivity. Qed.
(** src/test/intersection/lower_bounded_set.rs:176-191 *)
Example test_intersection_lower_bounded_set_bounded_set : passes (
  x1 <- union (VRange (mkRange (lit I32 1) (lit I32 2))) (VRangeFrom (mkRangeFrom (lit I32 3))) ;;
  let s1 := x1 in
  x2 <- union (VRange (mkRange (lit I32 0) (lit I32 3))) (VRange (mkRange (lit I32 3) (lit I32 5))) ;;
  let s2 := x2 in
  x3 <- intersection s1 s2 ;;
  let i := x3 in
  x4 <- into_iter i ;;
  x5 <- it_collect x4 ;;
  _ <- assert (list_eqb x5 [1; 3; 4]) ;;
  _ <- assert (negb (contains i (lit I32 0))) ;;
  _ <- assert (contains i (lit I32 1)) ;;
  _ <- assert (negb (contains i (lit I32 2))) ;;
  _ <- assert (contains i (lit I32 3)) ;;
  _ <- assert (contains i (lit I32 4)) ;;
  _ <- assert (negb (contains i (lit I32 5))) ;;
  _ <- assert (negb (is_empty i)) ;;
  x6 <- union (VRange (mkRange (lit I32 0) (lit I32 1))) (VRange (mkRange (lit I32 4) (lit I32 1))) ;;
  let s3 := x6 in
  x7 <- intersection s1 s3 ;;
  _ <- assert (is_empty x7) ;;
  Ret tt).
Proof. vm_compute. reflexivity. Qed.
(** src/test/intersection/lower_bounded_set.rs:193-209 *)
Example test_intersection_lower_bounded_set_lower_bounded_set : passes (
  x1 <- union (VRange (mkRange (lit I32 1) (lit I32 2))) (VRangeFrom (mkRangeFrom (lit I32 3))) ;;
  let s1 := x1 in
  x2 <- union (VRange (mkRange (lit I32 0) (lit I32 2))) (VRangeFrom (mkRangeFrom (lit I32 4))) ;;
  let s2 := x2 in
  x3 <- intersection s1 s2 ;;
  let i := x3 in
  x4 <- into_iter i ;;
  x5 <- it_take 3 x4 ;;
  _ <- assert (list_eqb x5 [1; 4; 5]) ;;
  _ <- assert (negb (contains i (lit I32 0))) ;;
  _ <- assert (contains i (lit I32 1)) ;;
  _ <- assert (negb (contains i (lit I32 2))) ;;
  _ <- assert (negb (contains i (lit I32 3))) ;;
  _ <- assert (contains i (lit I32 4)) ;;
  _ <- assert (contains i (lit I32 5)) ;;
  _ <- assert (negb (is_empty i)) ;;
  Ret tt).
Proof. vm_compute. reflexivity. Qed.
(** src/test/intersection/lower_bounded_set.rs:211-226 *)
Example test_intersection_lower_bounded_set_upper_bounded_set : passes (
  x1 <- union (VRange (mkRange (lit I32 1) (lit I32 2))) (VRangeFrom (mkRangeFrom (lit I32 3))) ;;
  let s1 := x1 in
  x2 <- union (VRangeTo (mkRangeTo (lit I32 3))) (VRange (mkRange (lit I32 4) (lit I32 5))) ;;
  let s2 := x2 in
  x3 <- intersection s1 s2 ;;
  let i := x3 in
  x4 <- into_iter i ;;
  x5 <- it_collect x4 ;;
  _ <- assert (list_eqb x5 [1; 4]) ;;
  _ <- assert (negb (contains i (lit I32 0))) ;;
  _ <- assert (contains i (lit I32 1)) ;;
  _ <- assert (negb (contains i (lit I32 2))) ;;
  _ <- assert (negb (contains i (lit I32 3))) ;;
  _ <- assert (contains i (lit I32 4)) ;;
  _ <- assert (negb (contains i (lit I32 5))) ;;
  _ <- assert (negb (is_empty i)) ;;
  x6 <- union (VRangeTo (mkRangeTo (lit I32 1))) (VRange (mkRange (lit I32 2) (lit I32 3))) ;;
  let s2 := x6 in
  x7 <- intersection s1 s2 ;;
  _ <- assert (is_empty x7) ;;
  Ret tt).
Proof. vm_compute. reflexivity. Qed.
(** src/test/intersection/lower_bounded_set.rs:228-244 *)
Example test_intersection_lower_bounded_set_unbounded_set : passes (
  x1 <- union (VRange (mkRange (lit I32 1) (lit I32 2))) (VRangeFrom (mkRangeFrom (lit I32 3))) ;;
  let s := x1 in
  x2 <- union (VRangeTo (mkRangeTo (lit I32 3))) (VRange (mkRange (lit I32 3) (lit I32 4))) ;;
  x3 <- union x2 (VRangeFrom (mkRangeFrom (lit I32 5))) ;;
  let r := x3 in
  x4 <- intersection s r ;;
  let i := x4 in
  x5 <- into_iter i ;;
  x6 <- it_take 3 x5 ;;
  _ <- assert (list_eqb x6 [1; 3; 5]) ;;
  _ <- assert (negb (contains i (lit I32 0))) ;;
  _ <- assert (contains i (lit I32 1)) ;;
  _ <- assert (negb (contains i (lit I32 2))) ;;
  _ <- assert (contains i (lit I32 3)) ;;
  _ <- assert (negb (contains i (lit I32 4))) ;;
  _ <- assert (contains i (lit I32 5)) ;;
  _ <- assert (negb (is_empty i)) ;;
  Ret tt).
Proof. vm_compute. reflexivity. Qed.
(** src/test/intersection/range.rs:3-17 *)
Example test_intersection_range_range : passes (
  x1 <- intersection (VRange (mkRange (lit I32 0) (lit I32 3))) (VRange (mkRange (lit I32 1) (lit I32 5))) ;;
  let i := x1 in
  x2 <- into_iter i ;;
  x3 <- it_collect x2 ;;
  _ <- assert (list_eqb x3 [1; 2]) ;;
  _ <- assert (negb (contains i (lit I32 (-1)))) ;;
  _ <- assert (negb (contains i (lit I32 0))) ;;
  _ <- assert (contains i (lit I32 1)) ;;
  _ <- assert (contains i (lit I32 2)) ;;
  _ <- assert (negb (contains i (lit I32 3))) ;;
  _ <- assert (negb (contains i (lit I32 4))) ;;
  _ <- assert (negb (contains i (lit I32 5))) ;;
  _ <- assert (negb (contains i (lit I32 6))) ;;
  _ <- assert (negb (is_empty i)) ;;
  x4 <- intersection (VRange (mkRange (lit I32 0) (lit I32 10))) (VRange (mkRange (lit I32 10) (lit I32 20))) ;;
  _ <- assert (is_empty x4) ;;
  Ret tt).
Proof. vm_compute. reflexivity. Qed.
(** src/test/intersection/range.rs:19-31 *)
Example test_intersection_range_range_from : passes (
  x1 <- intersection (VRange (mkRange (lit I32 0) (lit I32 5))) (VRangeFrom (mkRangeFrom (lit I32 3))) ;;
  let i := x1 in
  x2 <- into_iter i ;;
  x3 <- it_collect x2 ;;
  _ <- assert (list_eqb x3 [3; 4]) ;;
  _ <- assert (negb (contains i (lit I32 1))) ;;
  _ <- assert (negb (contains i (lit I32 2))) ;;
  _ <- assert (contains i (lit I32 3)) ;;
  _ <- assert (contains i (lit I32 4)) ;;
  _ <- assert (negb (contains i (lit I32 5))) ;;
  _ <- assert (negb (contains i (lit I32 6))) ;;
  _ <- assert (negb (is_empty i)) ;;
  x4 <- intersection (VRange (mkRange (lit I32 0) (lit I32 3))) (VRangeFrom (mkRangeFrom (lit I32 3))) ;;
  _ <- assert (is_empty x4) ;;
  Ret tt).
Proof. vm_compute. reflexivity. Qed.
(** src/test/intersection/range.rs:33-47 *)
Example test_intersection_range_range_full : passes (
  x1 <- intersection (VRange (mkRange (lit I32 0) (lit I32 5))) (VRangeFull mkRangeFull : value (mint I32)) ;;
  let i := x1 in
  x2 <- into_iter i ;;
  x3 <- it_collect x2 ;;
  _ <- assert (list_eqb x3 [0; 1; 2; 3; 4]) ;;
  _ <- assert (negb (contains i (lit I32 (-1)))) ;;
  _ <- assert (contains i (lit I32 0)) ;;
  _ <- assert (contains i (lit I32 1)) ;;
  _ <- assert (contains i (lit I32 2)) ;;
  _ <- assert (contains i (lit I32 3)) ;;
  _ <- assert (contains i (lit I32 4)) ;;
  _ <- assert (negb (contains i (lit I32 5))) ;;
  _ <- assert (negb (contains i (lit I32 6))) ;;
  _ <- assert (negb (is_empty i)) ;;
  x4 <- intersection (VRange (mkRange (lit I32 0) (lit I32 3))) (VRangeFull mkRangeFull : value (mint I32)) ;;
  _ <- assert (negb (is_empty x4)) ;;
  Ret tt).
Proof. vm_compute. reflexivity. Qed.
(** src/test/intersection/range.rs:49-63 *)
Example test_intersection_range_range_inclusive : passes (
  x1 <- intersection (VRange (mkRange (lit I32 0) (lit I32 5))) (VRangeInclusive (mkRangeInclusive (lit I32 1) (lit I32 3) false)) ;;
  let i := x1 in
  x2 <- into_iter i ;;
  x3 <- it_collect x2 ;;
  _ <- assert (list_eqb x3 [1; 2; 3]) ;;
  _ <- assert (negb (contains i (lit I32 0))) ;;
  _ <- assert (negb (contains i (lit I32 0))) ;;
  _ <- assert (contains i (lit I32 1)) ;;
  _ <- assert (contains i (lit I32 2)) ;;
  _ <- assert (contains i (lit I32 3)) ;;
  _ <- assert (negb (contains i (lit I32 4))) ;;
  _ <- assert (negb (contains i (lit I32 5))) ;;
  _ <- assert (negb (contains i (lit I32 6))) ;;
  _ <- assert (negb (is_empty i)) ;;
  x4 <- intersection (VRange (mkRange (lit I32 0) (lit I32 3))) (VRangeInclusive (mkRangeInclusive (lit I32 3) (lit I32 5) false)) ;;
  _ <- assert (is_empty x4) ;;
  Ret tt).
Proof. vm_compute. reflexivity. Qed.
(** src/test/intersection/range.rs:65-77 *)
Example test_intersection_range_range_to : passes (
  x1 <- intersection (VRange (mkRange (lit I32 0) (lit I32 5))) (VRangeTo (mkRangeTo (lit I32 3))) ;;
  let i := x1 in
  x2 <- into_iter i ;;
  x3 <- it_collect x2 ;;
  _ <- assert (list_eqb x3 [0; 1; 2]) ;;
  _ <- assert (negb (contains i (lit I32 (-1)))) ;;
  _ <- assert (contains i (lit I32 0)) ;;
  _ <- assert (contains i (lit I32 1)) ;;
  _ <- assert (contains i (lit I32 2)) ;;
  _ <- assert (negb (contains i (lit I32 3))) ;;
  _ <- assert (negb (contains i (lit I32 4))) ;;
  _ <- assert (negb (is_empty i)) ;;
  x4 <- intersection (VRange (mkRange (lit I32 5) (lit I32 10))) (VRangeTo (mkRangeTo (lit I32 5))) ;;
  _ <- assert (is_empty x4) ;;
  Ret tt).
Proof. vm_compute. reflexivity. Qed.
(** src/test/intersection/range.rs:79-91 *)
Example test_intersection_range_range_to_inclusive : passes (
  x1 <- intersection (VRange (mkRange (lit I32 0) (lit I32 5))) (VRangeTo (mkRangeTo (lit I32 3))) ;;
  let i := x1 in
  x2 <- into_iter i ;;
  x3 <- it_collect x2 ;;
  _ <- assert (list_eqb x3 [0; 1; 2]) ;;
  _ <- assert (negb (contains i (lit I32 (-1)))) ;;
  _ <- assert (contains i (lit I32 0)) ;;
  _ <- assert (contains i (lit I32 1)) ;;
  _ <- assert (contains i (lit I32 2)) ;;
  _ <- assert (negb (contains i (lit I32 3))) ;;
  _ <- assert (negb (contains i (lit I32 4))) ;;
  _ <- assert (negb (is_empty i)) ;;
  x4 <- intersection (VRange (mkRange (lit I32 5) (lit I32 10))) (VRangeInclusive (mkRangeInclusive (lit I32 0) (lit I32 4) false)) ;;
  _ <- assert (is_empty x4) ;;
  Ret tt).
Proof. vm_compute. reflexivity. Qed.
(** src/test/intersection/range.rs:93-107 *)
Example test_intersection_range_bounded_range : passes (
  x1 <- intersection (VRange (mkRange (lit I32 1) (lit I32 5))) (VRange (mkRange (lit I32 2) (lit I32 4))) ;;
  x2 <- intersection (VRange (mkRange (lit I32 0) (lit I32 3))) x1 ;;
  let i := x2 in
  x3 <- into_iter i ;;
  x4 <- it_collect x3 ;;
  _ <- assert (list_eqb x4 [2]) ;;
  _ <- assert (negb (contains i (lit I32 0))) ;;
  _ <- assert (negb (contains i (lit I32 1))) ;;
  _ <- assert (contains i (lit I32 2)) ;;
  _ <- assert (negb (contains i (lit I32 3))) ;;
  _ <- assert (negb (contains i (lit I32 4))) ;;
  _ <- assert (negb (contains i (lit I32 5))) ;;
  _ <- assert (negb (is_empty i)) ;;
  x5 <- intersection (VRange (mkRange (lit I32 10) (lit I32 20))) (VRange (mkRange (lit I32 15) (lit I32 17))) ;;
  x6 <- intersection (VRange (mkRange (lit I32 0) (lit I32 3))) x5 ;;
  _ <- assert (is_empty x6) ;;
  Ret tt).
Proof. vm_compute. reflexivity. Qed.
(** src/test/intersection/range.rs:109-121 *)
Example test_intersection_range_lower_bounded_range : passes (
  x1 <- intersection (VRangeFrom (mkRangeFrom (lit I32 1))) (VRangeFull mkRangeFull : value (mint I32)) ;;
  x2 <- intersection (VRange (mkRange (lit I32 0) (lit I32 3))) x1 ;;
  let i := x2 in
  x3 <- into_iter i ;;
  x4 <- it_collect x3 ;;
  _ <- assert (list_eqb x4 [1; 2]) ;;
  _ <- assert (negb (contains i (lit I32 0))) ;;
  _ <- assert (contains i (lit I32 1)) ;;
  _ <- assert (contains i (lit I32 2)) ;;
  _ <- assert (negb (contains i (lit I32 3))) ;;
  _ <- assert (negb (contains i (lit I32 4))) ;;
  _ <- assert (negb (contains i (lit I32 5))) ;;
  _ <- assert (negb (is_empty i)) ;;
  x5 <- intersection (VRangeFrom (mkRangeFrom (lit I32 10))) (VRangeFull mkRangeFull : value (mint I32)) ;;
  x6 <- intersection (VRange (mkRange (lit I32 0) (lit I32 3))) x5 ;;
  _ <- assert (is_empty x6) ;;
  Ret tt).
Proof. vm_compute. reflexivity. Qed.
(** src/test/intersection/range.rs:123-135 *)
Example test_intersection_range_upper_bounded_range : passes (
  x1 <- intersection (VRangeTo (mkRangeTo (lit I32 2))) (VRangeFull mkRangeFull : value (mint I32)) ;;
  x2 <- intersection (VRange (mkRange (lit I32 0) (lit I32 3))) x1 ;;
  let i := x2 in
  x3 <- into_iter i ;;
  x4 <- it_collect x3 ;;
  _ <- assert (list_eqb x4 [0; 1]) ;;
  _ <- assert (contains i (lit I32 0)) ;;
  _ <- assert (contains i (lit I32 1)) ;;
  _ <- assert (negb (contains i (lit I32 2))) ;;
  _ <- assert (negb (contains i (lit I32 3))) ;;
  _ <- assert (negb (contains i (lit I32 4))) ;;
  _ <- assert (negb (contains i (lit I32 5))) ;;
  _ <- assert (negb (is_empty i)) ;;
  x5 <- intersection (VRangeTo (mkRangeTo (lit I32 3))) (VRangeFull mkRangeFull : value (mint I32)) ;;
  x6 <- intersection (VRange (mkRange (lit I32 5) (lit I32 10))) x5 ;;
  _ <- assert (is_empty x6) ;;
  Ret tt).
Proof. vm_compute. reflexivity. Qed.
(** src/test/intersection/range.rs:137-147 *)
Example test_intersection_range_unbounded_range : passes (
  x1 <- intersection (VRangeFull mkRangeFull : value (mint I32)) (VRangeFull mkRangeFull : value (mint I32)) ;;
  x2 <- intersection (VRange (mkRange (lit I32 0) (lit I32 3))) x1 ;;
  let i := x2 in
  _ <- assert (negb (contains i (lit I32 (-1)))) ;;
  _ <- assert (contains i (lit I32 0)) ;;
  _ <- assert (contains i (lit I32 1)) ;;
  _ <- assert (contains i (lit I32 2)) ;;
  _ <- assert (negb (contains i (lit I32 3))) ;;
  _ <- assert (negb (contains i (lit I32 4))) ;;
  _ <- assert (negb (is_empty i)) ;;
  Ret tt).
Proof. vm_compute. reflexivity. Qed.
(** src/test/intersection/range.rs:149-156 *)
Example test_intersection_range_empty_range : passes (
  let r1 := (VRange (mkRange (lit I32 0) (lit I32 3))) in
  let r2 := (VEmpty mkEmptyRange : value (mint I32)) in
  x1 <- intersection r1 r2 ;;
  let i := x1 in
  _ <- assert (is_empty i) ;;
  x2 <- into_iter i ;;
  x3 <- it_collect x2 ;;
  _ <- assert (list_eqb x3 []) ;;
  Ret tt).
Proof. vm_compute. reflexivity. Qed.
(** src/test/intersection/range.rs:158-172 *)
Example test_intersection_range_bounded_set : passes (
  x1 <- union (VRange (mkRange (lit I32 1) (lit I32 3))) (VRange (mkRange (lit I32 4) (lit I32 6))) ;;
  let s := x1 in
  x2 <- intersection (VRange (mkRange (lit I32 2) (lit I32 6))) s ;;
  let i := x2 in
  x3 <- into_iter i ;;
  x4 <- it_collect x3 ;;
  _ <- assert (list_eqb x4 [2; 4; 5]) ;;
  _ <- assert (negb (contains i (lit I32 0))) ;;
  _ <- assert (negb (contains i (lit I32 1))) ;;
  _ <- assert (contains i (lit I32 2)) ;;
  _ <- assert (negb (contains i (lit I32 3))) ;;
  _ <- assert (contains i (lit I32 4)) ;;
  _ <- assert (contains i (lit I32 5)) ;;
  _ <- assert (negb (contains i (lit I32 6))) ;;
  _ <- assert (negb (is_empty i)) ;;
  x5 <- intersection (VRange (mkRange (lit I32 10) (lit I32 15))) s ;;
  _ <- assert (is_empty x5) ;;
  Ret tt).
Proof. vm_compute. reflexivity. Qed.
(** src/test/intersection/range.rs:174-188 *)
Example test_intersection_range_lower_bounded_set : passes (
  x1 <- union (VRange (mkRange (lit I32 1) (lit I32 2))) (VRangeFrom (mkRangeFrom (lit I32 3))) ;;
  let s := x1 in
  x2 <- intersection (VRange (mkRange (lit I32 1) (lit I32 5))) s ;;
  let i := x2 in
  x3 <- into_iter i ;;
  x4 <- it_collect x3 ;;
  _ <- assert (list_eqb x4 [1; 3; 4]) ;;
  _ <- assert (negb (contains i (lit I32 0))) ;;
  _ <- assert (contains i (lit I32 1)) ;;
  _ <- assert (negb (contains i (lit I32 2))) ;;
  _ <- assert (contains i (lit I32 3)) ;;
  _ <- assert (contains i (lit I32 4)) ;;
  _ <- assert (negb (contains i (lit I32 5))) ;;
  _ <- assert (negb (contains i (lit I32 6))) ;;
  _ <- assert (negb (is_empty i)) ;;
  x5 <- intersection (VRange (mkRange (lit I32 0) (lit I32 1))) s ;;
  _ <- assert (is_empty x5) ;;
  Ret tt).
Proof. vm_compute. reflexivity. Qed.
(** src/test/intersection/range.rs:190-204 *)
Example test_intersection_range_upper_bounded_set : passes (
  x1 <- union (VRangeTo (mkRangeTo (lit I32 2))) (VRange (mkRange (lit I32 3) (lit I32 5))) ;;
  let s := x1 in
  x2 <- intersection (VRange (mkRange (lit I32 1) (lit I32 4))) s ;;
  let i := x2 in
  x3 <- into_iter i ;;
  x4 <- it_collect x3 ;;
  _ <- assert (list_eqb x4 [1; 3]) ;;
  _ <- assert (negb (contains i (lit I32 0))) ;;
  _ <- assert (contains i (lit I32 1)) ;;
  _ <- assert (negb (contains i (lit I32 2))) ;;
  _ <- assert (contains i (lit I32 3)) ;;
  _ <- assert (negb (contains i (lit I32 4))) ;;
  _ <- assert (negb (contains i (lit I32 5))) ;;
  _ <- assert (negb (contains i (lit I32 6))) ;;
  _ <- assert (negb (is_empty i)) ;;
  x5 <- intersection (VRange (mkRange (lit I32 5) (lit I32 6))) s ;;
  _ <- assert (is_empty x5) ;;
  Ret tt).
Proof. vm_compute. reflexivity. Qed.
(** src/test/intersection/range.rs:206-220 *)
Example test_intersection_range_unbounded_set : passes (
  x1 <- union (VRangeTo (mkRangeTo (lit I32 2))) (VRange (mkRange (lit I32 3) (lit I32 4))) ;;
  x2 <- union x1 (VRangeFrom (mkRangeFrom (lit I32 5))) ;;
  let s := x2 in
  x3 <- intersection (VRange (mkRange (lit I32 1) (lit I32 6))) s ;;
  let i := x3 in
  x4 <- into_iter i ;;
  x5 <- it_collect x4 ;;
  _ <- assert (list_eqb x5 [1; 3; 5]) ;;
  _ <- assert (negb (contains i (lit I32 0))) ;;
  _ <- assert (contains i (lit I32 1)) ;;
  _ <- assert (negb (contains i (lit I32 2))) ;;
  _ <- assert (contains i (lit I32 3)) ;;
  _ <- assert (negb (contains i (lit I32 4))) ;;
  _ <- assert (contains i (lit I32 5)) ;;
  _ <- assert (negb (contains i (lit I32 6))) ;;
  _ <- assert (negb (is_empty i)) ;;
  x6 <- intersection (VRange (mkRange (lit I32 2) (lit I32 3))) s ;;
  _ <- assert (is_empty x6) ;;
  Ret tt).
Proof. vm_compute. reflexivity. Qed.
(** src/test/intersection/range_from.rs:3-15 *)
Example test_intersection_range_from_range : passes (
  x1 <- intersection (VRangeFrom (mkRangeFrom (lit I32 3))) (VRange (mkRange (lit I32 1) (lit I32 5))) ;;
  let i := x1 in
  x2 <- into_iter i ;;
  x3 <- it_collect x2 ;;
  _ <- assert (list_eqb x3 [3; 4]) ;;
  _ <- assert (negb (contains i (lit I32 0))) ;;
  _ <- assert (negb (contains i (lit I32 1))) ;;
  _ <- assert (negb (contains i (lit I32 2))) ;;
  _ <- assert (contains i (lit I32 3)) ;;
  _ <- assert (contains i (lit I32 4)) ;;
  _ <- assert (negb (contains i (lit I32 5))) ;;
  _ <- assert (negb (is_empty i)) ;;
  x4 <- intersection (VRangeFrom (mkRangeFrom (lit I32 3))) (VRange (mkRange (lit I32 1) (lit I32 1))) ;;
  _ <- assert (is_empty x4) ;;
  Ret tt).
Proof. vm_compute. reflexivity. Qed.
(** src/test/intersection/range_from.rs:17-29 *)
Example test_intersection_range_from_range_from : passes (
  x1 <- intersection (VRangeFrom (mkRangeFrom (lit I32 3))) (VRangeFrom (mkRangeFrom (lit I32 5))) ;;
  let i := x1 in
  x2 <- into_iter i ;;
  x3 <- it_take 3 x2 ;;
  _ <- assert (list_eqb x3 [5; 6; 7]) ;;
  _ <- assert (negb (contains i (lit I32 0))) ;;
  _ <- assert (negb (contains i (lit I32 1))) ;;
  _ <- assert (negb (contains i (lit I32 2))) ;;
  _ <- assert (negb (contains i (lit I32 3))) ;;
  _ <- assert (negb (contains i (lit I32 4))) ;;
  _ <- assert (contains i (lit I32 5)) ;;
  _ <- assert (contains i (lit I32 6)) ;;
  _ <- assert (negb (is_empty i)) ;;
  Ret tt).
Proof. vm_compute. reflexivity. Qed.
(** src/test/intersection/range_from.rs:31-41 *)
Example test_intersection_range_from_range_full : passes (
  x1 <- intersection (VRangeFrom (mkRangeFrom (lit I32 3))) (VRangeFull mkRangeFull : value (mint I32)) ;;
  let i := x1 in
  _ <- assert (negb (contains i (lit I32 0))) ;;
  _ <- assert (negb (contains i (lit I32 1))) ;;
  _ <- assert (negb (contains i (lit I32 2))) ;;
  _ <- assert (contains i (lit I32 3)) ;;
  _ <- assert (contains i (lit I32 4)) ;;
  _ <- assert (contains i (lit I32 5)) ;;
  _ <- assert (negb (is_empty i)) ;;
  Ret tt).
Proof. vm_compute. reflexivity. Qed.
(** src/test/intersection/range_from.rs:43-56 *)
Example test_intersection_range_from_range_inclusive : passes (
  x1 <- intersection (VRangeFrom (mkRangeFrom (lit I32 3))) (VRangeInclusive (mkRangeInclusive (lit I32 1) (lit I32 5) false)) ;;
  let i := x1 in
  x2 <- into_iter i ;;
  x3 <- it_collect x2 ;;
  _ <- assert (list_eqb x3 [3; 4; 5]) ;;
  _ <- assert (negb (contains i (lit I32 0))) ;;
  _ <- assert (negb (contains i (lit I32 1))) ;;
  _ <- assert (negb (contains i (lit I32 2))) ;;
  _ <- assert (contains i (lit I32 3)) ;;
  _ <- assert (contains i (lit I32 4)) ;;
  _ <- assert (contains i (lit I32 5)) ;;
  _ <- assert (negb (contains i (lit I32 6))) ;;
  _ <- assert (negb (is_empty i)) ;;
  x4 <- intersection (VRangeFrom (mkRangeFrom (lit I32 3))) (VRangeInclusive (mkRangeInclusive (lit I32 1) (lit I32 0) false)) ;;
  _ <- assert (is_empty x4) ;;
  Ret tt).
Proof. vm_compute. reflexivity. Qed.
(** src/test/intersection/range_from.rs:58-70 *)
Example test_intersection_range_from_range_to : passes (
  x1 <- intersection (VRangeFrom (mkRangeFrom (lit I32 3))) (VRangeTo (mkRangeTo (lit I32 5))) ;;
  let i := x1 in
  x2 <- into_iter i ;;
  x3 <- it_collect x2 ;;
  _ <- assert (list_eqb x3 [3; 4]) ;;
  _ <- assert (negb (contains i (lit I32 0))) ;;
  _ <- assert (negb (contains i (lit I32 1))) ;;
  _ <- assert (negb (contains i (lit I32 2))) ;;
  _ <- assert (contains i (lit I32 3)) ;;
  _ <- assert (contains i (lit I32 4)) ;;
  _ <- assert (negb (contains i (lit I32 5))) ;;
  _ <- assert (negb (contains i (lit I32 6))) ;;
  x4 <- intersection (VRangeFrom (mkRangeFrom (lit I32 10))) (VRangeTo (mkRangeTo (lit I32 5))) ;;
  _ <- assert (is_empty x4) ;;
  Ret tt).
Proof. vm_compute. reflexivity. Qed.
(** src/test/intersection/range_from.rs:72-85 *)
Example test_intersection_range_from_range_to_inclusive : passes (
  x1 <- intersection (VRangeFrom (mkRangeFrom (lit I32 3))) (VRangeToInclusive (mkRangeToInclusive (lit I32 5))) ;;
  let i := x1 in
  x2 <- into_iter i ;;
  x3 <- it_collect x2 ;;
  _ <- assert (list_eqb x3 [3; 4; 5]) ;;
  _ <- assert (negb (contains i (lit I32 0))) ;;
  _ <- assert (negb (contains i (lit I32 1))) ;;
  _ <- assert (negb (contains i (lit I32 2))) ;;
  _ <- assert (contains i (lit I32 3)) ;;
  _ <- assert (contains i (lit I32 4)) ;;
  _ <- assert (contains i (lit I32 5)) ;;
  _ <- assert (negb (contains i (lit I32 6))) ;;
  _ <- assert (negb (is_empty i)) ;;
  x4 <- intersection (VRangeFrom (mkRangeFrom (lit I32 10))) (VRangeToInclusive (mkRangeToInclusive (lit I32 5))) ;;
  _ <- assert (is_empty x4) ;;
  Ret tt).
Proof. vm_compute. reflexivity. Qed.
(** src/test/intersection/range_from.rs:87-101 *)
Example test_intersection_range_from_bounded_range : passes (
  x1 <- intersection (VRange (mkRange (lit I32 2) (lit I32 5))) (VRangeFull mkRangeFull : value (mint I32)) ;;
  let br := x1 in
  x2 <- intersection (VRangeFrom (mkRangeFrom (lit I32 1))) br ;;
  let i := x2 in
  x3 <- into_iter i ;;
  x4 <- it_collect x3 ;;
  _ <- assert (list_eqb x4 [2; 3; 4]) ;;
  _ <- assert (negb (contains i (lit I32 0))) ;;
  _ <- assert (negb (contains i (lit I32 1))) ;;
  _ <- assert (contains i (lit I32 2)) ;;
  _ <- assert (contains i (lit I32 3)) ;;
  _ <- assert (contains i (lit I32 4)) ;;
  _ <- assert (negb (contains i (lit I32 5))) ;;
  _ <- assert (negb (contains i (lit I32 6))) ;;
  _ <- assert (negb (is_empty i)) ;;
  x5 <- intersection (VRangeFrom (mkRangeFrom (lit I32 10))) br ;;
  _ <- assert (is_empty x5) ;;
  Ret tt).
Proof. vm_compute. reflexivity. Qed.
(** src/test/intersection/range_from.rs:103-116 *)
Example test_intersection_range_from_lower_bounded_range : passes (
  x1 <- intersection (VRangeFrom (mkRangeFrom (lit I32 2))) (VRangeFull mkRangeFull : value (mint I32)) ;;
  let br := x1 in
  x2 <- intersection (VRangeFrom (mkRangeFrom (lit I32 3))) br ;;
  let i := x2 in
  x3 <- into_iter i ;;
  x4 <- it_take 3 x3 ;;
  _ <- assert (list_eqb x4 [3; 4; 5]) ;;
  _ <- assert (negb (contains i (lit I32 0))) ;;
  _ <- assert (negb (contains i (lit I32 1))) ;;
  _ <- assert (negb (contains i (lit I32 2))) ;;
  _ <- assert (contains i (lit I32 3)) ;;
  _ <- assert (contains i (lit I32 4)) ;;
  _ <- assert (contains i (lit I32 5)) ;;
  _ <- assert (contains i (lit I32 6)) ;;
  _ <- assert (negb (is_empty i)) ;;
  Ret tt).
Proof. vm_compute. reflexivity. Qed.
(** src/test/intersection/range_from.rs:117-132 *)
Example test_intersection_range_from_upper_bounded_range : passes (
  x1 <- intersection (VRangeTo (mkRangeTo (lit I32 5))) (VRangeFull mkRangeFull : value (mint I32)) ;;
  let r := x1 in
  x2 <- intersection (VRangeFrom (mkRangeFrom (lit I32 3))) r ;;
  let i := x2 in
  x3 <- into_iter i ;;
  x4 <- it_collect x3 ;;
  _ <- assert (list_eqb x4 [3; 4]) ;;
  _ <- assert (negb (contains i (lit I32 0))) ;;
  _ <- assert (negb (contains i (lit I32 1))) ;;
  _ <- assert (negb (contains i (lit I32 2))) ;;
  _ <- assert (contains i (lit I32 3)) ;;
  _ <- assert (contains i (lit I32 4)) ;;
  _ <- assert (negb (contains i (lit I32 5))) ;;
  _ <- assert (negb (contains i (lit I32 6))) ;;
  _ <- assert (negb (is_empty i)) ;;
  x5 <- intersection (VRangeTo (mkRangeTo (lit I32 1))) (VRangeFull mkRangeFull : value (mint I32)) ;;
  let r2 := x5 in
  x6 <- intersection (VRangeFrom (mkRangeFrom (lit I32 3))) r2 ;;
  _ <- assert (is_empty x6) ;;
  Ret tt).
Proof. vm_compute. reflexivity. Qed.
(** src/test/intersection/range_from.rs:133-145 *)
Example test_intersection_range_from_unbounded_range : passes (
  x1 <- intersection (VRangeFull mkRangeFull : value (mint I32)) (VRangeFull mkRangeFull : value (mint I32)) ;;
  let r := x1 in
  x2 <- intersection (VRangeFrom (mkRangeFrom (lit I32 3))) r ;;
  let i := x2 in
  x3 <- into_iter i ;;
  x4 <- it_take 3 x3 ;;
  _ <- assert (list_eqb x4 [3; 4; 5]) ;;
  _ <- assert (negb (contains i (lit I32 0))) ;;
  _ <- assert (negb (contains i (lit I32 1))) ;;
  _ <- assert (negb (contains i (lit I32 2))) ;;
  _ <- assert (contains i (lit I32 3)) ;;
  _ <- assert (contains i (lit I32 4)) ;;
  _ <- assert (contains i (lit I32 5)) ;;
  _ <- assert (negb (is_empty i)) ;;
  Ret tt).
Proof. vm_compute. reflexivity. Qed.
(** src/test/intersection/range_from.rs:147-154 *)
Example test_intersection_range_from_empty_range : passes (
  let r1 := (VRangeFrom (mkRangeFrom (lit I32 3))) in
  let r2 := (VEmpty mkEmptyRange : value (mint I32)) in
  x1 <- intersection r1 r2 ;;
  let i := x1 in
  _ <- assert (is_empty i) ;;
  x2 <- into_iter i ;;
  x3 <- it_collect x2 ;;
  _ <- assert (list_eqb x3 []) ;;
  Ret tt).
Proof. vm_compute. reflexivity. Qed.
(** src/test/intersection/range_from.rs:156-170 *)
Example test_intersection_range_from_bounded_set : passes (
  x1 <- union (VRange (mkRange (lit I32 2) (lit I32 3))) (VRange (mkRange (lit I32 4) (lit I32 5))) ;;
  let bs := x1 in
  x2 <- intersection (VRangeFrom (mkRangeFrom (lit I32 1))) bs ;;
  let i := x2 in
  x3 <- into_iter i ;;
  x4 <- it_collect x3 ;;
  _ <- assert (list_eqb x4 [2; 4]) ;;
  _ <- assert (negb (contains i (lit I32 0))) ;;
  _ <- assert (negb (contains i (lit I32 1))) ;;
  _ <- assert (contains i (lit I32 2)) ;;
  _ <- assert (negb (contains i (lit I32 3))) ;;
  _ <- assert (contains i (lit I32 4)) ;;
  _ <- assert (negb (contains i (lit I32 5))) ;;
  _ <- assert (negb (contains i (lit I32 6))) ;;
  _ <- assert (negb (is_empty i)) ;;
  x5 <- intersection (VRangeFrom (mkRangeFrom (lit I32 10))) bs ;;
  _ <- assert (is_empty x5) ;;
  Ret tt).
Proof. vm_compute. reflexivity. Qed.
(** src/test/intersection/range_from.rs:172-188 *)
Example test_intersection_range_from_lower_bounded_set : passes (
  x1 <- union (VRangeFrom (mkRangeFrom (lit I32 2))) (VRange (mkRange (lit I32 0) (lit I32 1))) ;;
  let bs := x1 in
  x2 <- intersection (VRangeFrom (mkRangeFrom (lit I32 3))) bs ;;
  let i := x2 in
  x3 <- into_iter i ;;
  x4 <- it_take 3 x3 ;;
  _ <- assert (list_eqb x4 [3; 4; 5]) ;;
  _ <- assert (negb (contains i (lit I32 0))) ;;
  _ <- assert (negb (contains i (lit I32 1))) ;;
  _ <- assert (negb (contains i (lit I32 2))) ;;
  _ <- assert (contains i (lit I32 3)) ;;
  _ <- assert (contains i (lit I32 4)) ;;
  _ <- assert (contains i (lit I32 5)) ;;
  _ <- assert (contains i (lit I32 6)) ;;
  _ <- assert (negb (is_empty i)) ;;
  Ret tt).
Proof. vm_compute. reflexivity. Qed.
(** src/test/intersection/range_from.rs:190-205 *)
Example test_intersection_range_from_upper_bounded_set : passes (
  x1 <- union (VRangeTo (mkRangeTo (lit I32 3))) (VRange (mkRange (lit I32 4) (lit I32 5))) ;;
  let s := x1 in
  x2 <- intersection (VRangeFrom (mkRangeFrom (lit I32 3))) s ;;
  let i := x2 in
  x3 <- into_iter i ;;
  x4 <- it_collect x3 ;;
  _ <- assert (list_eqb x4 [4]) ;;
  _ <- assert (negb (contains i (lit I32 0))) ;;
  _ <- assert (negb (contains i (lit I32 1))) ;;
  _ <- assert (negb (contains i (lit I32 2))) ;;
  _ <- assert (negb (contains i (lit I32 3))) ;;
  _ <- assert (contains i (lit I32 4)) ;;
  _ <- assert (negb (contains i (lit I32 5))) ;;
  _ <- assert (negb (contains i (lit I32 6))) ;;
  _ <- assert (negb (is_empty i)) ;;
  x5 <- union (VRangeTo (mkRangeTo (lit I32 1))) (VRange (mkRange (lit I32 2) (lit I32 3))) ;;
  let s2 := x5 in
  x6 <- intersection (VRangeFrom (mkRangeFrom (lit I32 3))) s2 ;;
  _ <- assert (is_empty x6) ;;
  Ret tt).
Proof. vm_compute. reflexivity. Qed.
(** src/test/intersection/range_from.rs:207-222 *)
Example test_intersection_range_from_unbounded_set : passes (
  x1 <- union (VRangeFrom (mkRangeFrom (lit I32 5))) (VRange (mkRange (lit I32 2) (lit I32 4))) ;;
  x2 <- union x1 (VRangeTo (mkRangeTo (lit I32 1))) ;;
  let s := x2 in
  x3 <- intersection (VRangeFrom (mkRangeFrom (lit I32 3))) s ;;
  let i := x3 in
  x4 <- into_iter i ;;
  x5 <- it_take 3 x4 ;;
  _ <- assert (list_eqb x5 [3; 5; 6]) ;;
  _ <- assert (negb (contains i (lit I32 0))) ;;
  _ <- assert (negb (contains i (lit I32 1))) ;;
  _ <- assert (negb (contains i (lit I32 2))) ;;
  _ <- assert (contains i (lit I32 3)) ;;
  _ <- assert (negb (contains i (lit I32 4))) ;;
  _ <- assert (contains i (lit I32 5)) ;;
  _ <- assert (negb (is_empty i)) ;;
  Ret tt).
Proof. vm_compute. reflexivity. Qed.
(** src/test/intersection/range_full.rs:3-14 *)
Example test_intersection_range_full_range : passes (
  x1 <- intersection (VRangeFull mkRangeFull : value (mint I32)) (VRange (mkRange (lit I32 1) (lit I32 3))) ;;
  let i := x1 in
  x2 <- into_iter i ;;
  x3 <- it_collect x2 ;;
  _ <- assert (list_eqb x3 [1; 2]) ;;
  _ <- assert (negb (contains i (lit I32 0))) ;;
  _ <- assert (contains i (lit I32 1)) ;;
  _ <- assert (contains i (lit I32 2)) ;;
  _ <- assert (negb (contains i (lit I32 3))) ;;
  _ <- assert (negb (contains i (lit I32 4))) ;;
  _ <- assert (negb (is_empty i)) ;;
  x4 <- intersection (VRangeFull mkRangeFull : value (mint I32)) (VRange (mkRange (lit I32 1) (lit I32 1))) ;;
  _ <- assert (is_empty x4) ;;
  Ret tt).
Proof. vm_compute. reflexivity. Qed.
(** src/test/intersection/range_full.rs:16-25 *)
Example test_intersection_range_full_range_from : passes (
  x1 <- intersection (VRangeFull mkRangeFull : value (mint I32)) (VRangeFrom (mkRangeFrom (lit I32 3))) ;;
  let i := x1 in
  _ <- assert (negb (contains i (lit I32 0))) ;;
  _ <- assert (negb (contains i (lit I32 1))) ;;
  _ <- assert (negb (contains i (lit I32 2))) ;;
  _ <- assert (contains i (lit I32 3)) ;;
  _ <- assert (contains i (lit I32 4)) ;;
  _ <- assert (negb (is_empty i)) ;;
  Ret tt).
Proof. vm_compute. reflexivity. Qed.
(** src/test/intersection/range_full.rs:27-34 *)
Example test_intersection_range_full_range_full : passes (
  x1 <- intersection (VRangeFull mkRangeFull : value (mint I32)) (VRangeFull mkRangeFull : value (mint I32)) ;;
  let i := x1 in
  _ <- assert (contains i (lit I32 0)) ;;
  _ <- assert (contains i (lit I32 100)) ;;
  _ <- assert (contains i (lit I32 1000)) ;;
  _ <- assert (negb (is_empty i)) ;;
  Ret tt).
Proof. vm_compute. reflexivity. Qed.
(** src/test/intersection/range_full.rs:36-47 *)
Example test_intersection_range_full_range_inclusive : passes (
  x1 <- intersection (VRangeFull mkRangeFull : value (mint I32)) (VRangeInclusive (mkRangeInclusive (lit I32 1) (lit I32 3) false)) ;;
  let i := x1 in
  x2 <- into_iter i ;;
  x3 <- it_collect x2 ;;
  _ <- assert (list_eqb x3 [1; 2; 3]) ;;
  _ <- assert (negb (contains i (lit I32 0))) ;;
  _ <- assert (contains i (lit I32 1)) ;;
  _ <- assert (contains i (lit I32 2)) ;;
  _ <- assert (contains i (lit I32 3)) ;;
  _ <- assert (negb (contains i (lit I32 4))) ;;
  _ <- assert (negb (is_empty i)) ;;
  x4 <- intersection (VRangeFull mkRangeFull : value (mint I32)) (VRangeInclusive (mkRangeInclusive (lit I32 1) (lit I32 0) false)) ;;
  _ <- assert (is_empty x4) ;;
  Ret tt).
Proof. vm_compute. reflexivity. Qed.
(** src/test/intersection/range_full.rs:49-58 *)
Example test_intersection_range_full_range_to : passes (
  x1 <- intersection (VRangeFull mkRangeFull : value (mint I32)) (VRangeTo (mkRangeTo (lit I32 3))) ;;
  let i := x1 in
  _ <- assert (contains i (lit I32 0)) ;;
  _ <- assert (contains i (lit I32 1)) ;;
  _ <- assert (contains i (lit I32 2)) ;;
  _ <- assert (negb (contains i (lit I32 3))) ;;
  _ <- assert (negb (contains i (lit I32 4))) ;;
  _ <- assert (negb (is_empty i)) ;;
  Ret tt).
Proof. vm_compute. reflexivity. Qed.
(** src/test/intersection/range_full.rs:60-69 *)
Example test_intersection_range_full_range_to_inclusive : passes (
  x1 <- intersection (VRangeFull mkRangeFull : value (mint I32)) (VRangeToInclusive (mkRangeToInclusive (lit I32 3))) ;;
  let i := x1 in
  _ <- assert (contains i (lit I32 0)) ;;
  _ <- assert (contains i (lit I32 1)) ;;
  _ <- assert (contains i (lit I32 2)) ;;
  _ <- assert (contains i (lit I32 3)) ;;
  _ <- assert (negb (contains i (lit I32 4))) ;;
  _ <- assert (negb (is_empty i)) ;;
  Ret tt).
Proof. vm_compute. reflexivity. Qed.
(** src/test/intersection/range_full.rs:71-84 *)
Example test_intersection_range_full_bounded_range : passes (
  x1 <- intersection (VRange (mkRange (lit I32 1) (lit I32 3))) (VRangeFull mkRangeFull : value (mint I32)) ;;
  let r := x1 in
  x2 <- intersection (VRangeFull mkRangeFull : value (mint I32)) r ;;
  let i := x2 in
  x3 <- into_iter i ;;
  x4 <- it_collect x3 ;;
  _ <- assert (list_eqb x4 [1; 2]) ;;
  _ <- assert (negb (contains i (lit I32 0))) ;;
  _ <- assert (contains i (lit I32 1)) ;;
  _ <- assert (contains i (lit I32 2)) ;;
  _ <- assert (negb (contains i (lit I32 3))) ;;
  _ <- assert (negb (contains i (lit I32 4))) ;;
  _ <- assert (negb (is_empty i)) ;;
  x5 <- intersection (VRange (mkRange (lit I32 1) (lit I32 3))) (VRange (mkRange (lit I32 5) (lit I32 10))) ;;
  let r2 := x5 in
  x6 <- intersection (VRangeFull mkRangeFull : value (mint I32)) r2 ;;
  _ <- assert (is_empty x6) ;;
  Ret tt).
Proof. vm_compute. reflexivity. Qed.
(** src/test/intersection/range_full.rs:86-97 *)
Example test_intersection_range_full_lower_bounded_range : passes (
  x1 <- intersection (VRangeFrom (mkRangeFrom (lit I32 3))) (VRangeFull mkRangeFull : value (mint I32)) ;;
  let r := x1 in
  x2 <- intersection (VRangeFull mkRangeFull : value (mint I32)) r ;;
  let i := x2 in
  x3 <- into_iter i ;;
  x4 <- it_take 3 x3 ;;
  _ <- assert (list_eqb x4 [3; 4; 5]) ;;
  _ <- assert (negb (contains i (lit I32 0))) ;;
  _ <- assert (negb (contains i (lit I32 1))) ;;
  _ <- assert (negb (contains i (lit I32 2))) ;;
  _ <- assert (contains i (lit I32 3)) ;;
  _ <- assert (contains i (lit I32 4)) ;;
  _ <- assert (negb (is_empty i)) ;;
  Ret tt).
Proof. vm_compute. reflexivity. Qed.
(** src/test/intersection/range_full.rs:98-108 *)
Example test_intersection_range_full_upper_bounded_range : passes (
  x1 <- intersection (VRangeTo (mkRangeTo (lit I32 3))) (VRangeFull mkRangeFull : value (mint I32)) ;;
  let r := x1 in
  x2 <- intersection (VRangeFull mkRangeFull : value (mint I32)) r ;;
  let i := x2 in
  _ <- assert (contains i (lit I32 0)) ;;
  _ <- assert (contains i (lit I32 1)) ;;
  _ <- assert (contains i (lit I32 2)) ;;
  _ <- assert (negb (contains i (lit I32 3))) ;;
  _ <- assert (negb (contains i (lit I32 4))) ;;
  _ <- assert (negb (is_empty i)) ;;
  Ret tt).
Proof. vm_compute. reflexivity. Qed.
(** src/test/intersection/range_full.rs:109-119 *)
Example test_intersection_range_full_unbounded_range : passes (
  x1 <- intersection (VRangeFull mkRangeFull : value (mint I32)) (VRangeFull mkRangeFull : value (mint I32)) ;;
  let r := x1 in
  x2 <- intersection (VRangeFull mkRangeFull : value (mint I32)) r ;;
  let i := x2 in
  _ <- assert (contains i (lit I32 0)) ;;
  _ <- assert (contains i (lit I32 1)) ;;
  _ <- assert (contains i (lit I32 2)) ;;
  _ <- assert (contains i (lit I32 3)) ;;
  _ <- assert (contains i (lit I32 4)) ;;
  _ <- assert (negb (is_empty i)) ;;
  Ret tt).
Proof. vm_compute. reflexivity. Qed.
(** src/test/intersection/range_full.rs:121-128 *)
Example test_intersection_range_full_empty_range : passes (
  let r1 := (VRangeFull mkRangeFull : value (mint I32)) in
  let r2 := (VEmpty mkEmptyRange : value (mint I32)) in
  x1 <- intersection r1 r2 ;;
  let i := x1 in
  _ <- assert (is_empty i) ;;
  x2 <- into_iter i ;;
  x3 <- it_collect x2 ;;
  _ <- assert (list_eqb x3 []) ;;
  Ret tt).
Proof. vm_compute. reflexivity. Qed.
(** src/test/intersection/range_full.rs:130-143 *)
Example test_intersection_range_full_bounded_set : passes (
  x1 <- union (VRange (mkRange (lit I32 1) (lit I32 2))) (VRange (mkRange (lit I32 3) (lit I32 4))) ;;
  let r := x1 in
  x2 <- intersection (VRangeFull mkRangeFull : value (mint I32)) r ;;
  let i := x2 in
  x3 <- into_iter i ;;
  x4 <- it_collect x3 ;;
  _ <- assert (list_eqb x4 [1; 3]) ;;
  _ <- assert (negb (contains i (lit I32 0))) ;;
  _ <- assert (contains i (lit I32 1)) ;;
  _ <- assert (negb (contains i (lit I32 2))) ;;
  _ <- assert (contains i (lit I32 3)) ;;
  _ <- assert (negb (contains i (lit I32 4))) ;;
  _ <- assert (negb (is_empty i)) ;;
  x5 <- union (VRange (mkRange (lit I32 1) (lit I32 1))) (VRange (mkRange (lit I32 5) (lit I32 5))) ;;
  let r2 := x5 in
  x6 <- intersection (VRangeFull mkRangeFull : value (mint I32)) r2 ;;
  _ <- assert (is_empty x6) ;;
  Ret tt).
Proof. vm_compute. reflexivity. Qed.
(** src/test/intersection/range_full.rs:145-159 *)
Example test_intersection_range_full_lower_bounded_set : passes (
  x1 <- union (VRangeFrom (mkRangeFrom (lit I32 3))) (VRange (mkRange (lit I32 0) (lit I32 2))) ;;
  let s := x1 in
  x2 <- intersection (VRangeFull mkRangeFull : value (mint I32)) s ;;
  let i := x2 in
  x3 <- into_iter i ;;
  x4 <- it_take 3 x3 ;;
  _ <- assert (list_eqb x4 [0; 1; 3]) ;;
  _ <- assert (contains i (lit I32 0)) ;;
  _ <- assert (contains i (lit I32 1)) ;;
  _ <- assert (negb (contains i (lit I32 2))) ;;
  _ <- assert (contains i (lit I32 3)) ;;
  _ <- assert (contains i (lit I32 4)) ;;
  _ <- assert (negb (is_empty i)) ;;
  Ret tt).
Proof. vm_compute. reflexivity. Qed.
(** src/test/intersection/range_full.rs:161-172 *)
Example test_intersection_range_full_upper_bounded_set : passes (
  x1 <- union (VRangeTo (mkRangeTo (lit I32 3))) (VRange (mkRange (lit I32 4) (lit I32 5))) ;;
  let s := x1 in
  x2 <- intersection (VRangeFull mkRangeFull : value (mint I32)) s ;;
  let i := x2 in
  _ <- assert (contains i (lit I32 0)) ;;
  _ <- assert (contains i (lit I32 1)) ;;
  _ <- assert (contains i (lit I32 2)) ;;
  _ <- assert (negb (contains i (lit I32 3))) ;;
  _ <- assert (contains i (lit I32 4)) ;;
  _ <- assert (negb (contains i (lit I32 5))) ;;
  _ <- assert (negb (is_empty i)) ;;
  Ret tt).
Proof. vm_compute. reflexivity. Qed.
(** src/test/intersection/range_full.rs:174-185 *)
Example test_intersection_range_full_unbounded_set : passes (
  x1 <- union (VRange (mkRange (lit I32 2) (lit I32 3))) (VRangeTo (mkRangeTo (lit I32 1))) ;;
  x2 <- union x1 (VRangeFrom (mkRangeFrom (lit I32 4))) ;;
  let s := x2 in
  x3 <- intersection (VRangeFull mkRangeFull : value (mint I32)) s ;;
  let i := x3 in
  _ <- assert (contains i (lit I32 0)) ;;
  _ <- assert (negb (contains i (lit I32 1))) ;;
  _ <- assert (contains i (lit I32 2)) ;;
  _ <- assert (negb (contains i (lit I32 3))) ;;
  _ <- assert (contains i (lit I32 4)) ;;
  _ <- assert (contains i (lit I32 5)) ;;
  _ <- assert (negb (is_empty i)) ;;
  Ret tt).
Proof. vm_compute. reflexivity. Qed.
(** src/test/intersection/range_inclusive.rs:3-16 *)
Example test_intersection_range_inclusive_range : passes (
  x1 <- intersection (VRangeInclusive (mkRangeInclusive (lit I32 0) (lit I32 3) false)) (VRange (mkRange (lit I32 2) (lit I32 5))) ;;
  let i := x1 in
  x2 <- into_iter i ;;
  x3 <- it_collect x2 ;;
  _ <- assert (list_eqb x3 [2; 3]) ;;
  _ <- assert (negb (contains i (lit I32 0))) ;;
  _ <- assert (negb (contains i (lit I32 1))) ;;
  _ <- assert (contains i (lit I32 2)) ;;
  _ <- assert (contains i (lit I32 3)) ;;
  _ <- assert (negb (contains i (lit I32 4))) ;;
  _ <- assert (negb (contains i (lit I32 5))) ;;
  _ <- assert (negb (contains i (lit I32 6))) ;;
  _ <- assert (negb (is_empty i)) ;;
  x4 <- intersection (VRangeInclusive (mkRangeInclusive (lit I32 0) (lit I32 3) false)) (VRange (mkRange (lit I32 10) (lit I32 20))) ;;
  _ <- assert (is_empty x4) ;;
  Ret tt).
Proof. vm_compute. reflexivity. Qed.
(** src/test/intersection/range_inclusive.rs:18-31 *)
Example test_intersection_range_inclusive_range_from : passes (
  x1 <- intersection (VRangeInclusive (mkRangeInclusive (lit I32 0) (lit I32 3) false)) (VRangeFrom (mkRangeFrom (lit I32 2))) ;;
  let i := x1 in
  x2 <- into_iter i ;;
  x3 <- it_collect x2 ;;
  _ <- assert (list_eqb x3 [2; 3]) ;;
  _ <- assert (negb (contains i (lit I32 0))) ;;
  _ <- assert (negb (contains i (lit I32 1))) ;;
  _ <- assert (contains i (lit I32 2)) ;;
  _ <- assert (contains i (lit I32 3)) ;;
  _ <- assert (negb (contains i (lit I32 4))) ;;
  _ <- assert (negb (contains i (lit I32 5))) ;;
  _ <- assert (negb (contains i (lit I32 6))) ;;
  _ <- assert (negb (is_empty i)) ;;
  x4 <- intersection (VRangeInclusive (mkRangeInclusive (lit I32 0) (lit I32 3) false)) (VRangeFrom (mkRangeFrom (lit I32 10))) ;;
  _ <- assert (is_empty x4) ;;
  Ret tt).
Proof. vm_compute. reflexivity. Qed.
(** src/test/intersection/range_inclusive.rs:33-45 *)
Example test_intersection_range_inclusive_range_full : passes (
  x1 <- intersection (VRangeInclusive (mkRangeInclusive (lit I32 0) (lit I32 3) false)) (VRangeFull mkRangeFull : value (mint I32)) ;;
  let i := x1 in
  x2 <- into_iter i ;;
  x3 <- it_collect x2 ;;
  _ <- assert (list_eqb x3 [0; 1; 2; 3]) ;;
  _ <- assert (negb (contains i (lit I32 (-1)))) ;;
  _ <- assert (contains i (lit I32 0)) ;;
  _ <- assert (contains i (lit I32 1)) ;;
  _ <- assert (contains i (lit I32 2)) ;;
  _ <- assert (contains i (lit I32 3)) ;;
  _ <- assert (negb (contains i (lit I32 4))) ;;
  _ <- assert (negb (is_empty i)) ;;
  x4 <- intersection (VRangeInclusive (mkRangeInclusive (lit I32 2) (lit I32 1) false)) (VRangeFull mkRangeFull : value (mint I32)) ;;
  _ <- assert (is_empty x4) ;;
  Ret tt).
Proof. vm_compute. reflexivity. Qed.
(** src/test/intersection/range_inclusive.rs:47-60 *)
Example test_intersection_range_inclusive_range_inclusive : passes (
  x1 <- intersection (VRangeInclusive (mkRangeInclusive (lit I32 0) (lit I32 3) false)) (VRangeInclusive (mkRangeInclusive (lit I32 1) (lit I32 2) false)) ;;
  let i := x1 in
  x2 <- into_iter i ;;
  x3 <- it_collect x2 ;;
  _ <- assert (list_eqb x3 [1; 2]) ;;
  _ <- assert (negb (contains i (lit I32 0))) ;;
  _ <- assert (contains i (lit I32 1)) ;;
  _ <- assert (contains i (lit I32 2)) ;;
  _ <- assert (negb (contains i (lit I32 3))) ;;
  _ <- assert (negb (contains i (lit I32 4))) ;;
  _ <- assert (negb (contains i (lit I32 5))) ;;
  _ <- assert (negb (contains i (lit I32 6))) ;;
  _ <- assert (negb (is_empty i)) ;;
  x4 <- intersection (VRangeInclusive (mkRangeInclusive (lit I32 0) (lit I32 3) false)) (VRangeInclusive (mkRangeInclusive (lit I32 10) (lit I32 20) false)) ;;
  _ <- assert (is_empty x4) ;;
  Ret tt).
Proof. vm_compute. reflexivity. Qed.
(** src/test/intersection/range_inclusive.rs:62-73 *)
Example test_intersection_range_inclusive_range_to : passes (
  x1 <- intersection (VRangeInclusive (mkRangeInclusive (lit I32 1) (lit I32 3) false)) (VRangeTo (mkRangeTo (lit I32 2))) ;;
  let i := x1 in
  x2 <- into_iter i ;;
  x3 <- it_collect x2 ;;
  _ <- assert (list_eqb x3 [1]) ;;
  _ <- assert (negb (contains i (lit I32 0))) ;;
  _ <- assert (contains i (lit I32 1)) ;;
  _ <- assert (negb (contains i (lit I32 2))) ;;
  _ <- assert (negb (contains i (lit I32 3))) ;;
  _ <- assert (negb (contains i (lit I32 4))) ;;
  _ <- assert (negb (is_empty i)) ;;
  x4 <- intersection (VRangeInclusive (mkRangeInclusive (lit I32 3) (lit I32 5) false)) (VRangeTo (mkRangeTo (lit I32 2))) ;;
  _ <- assert (is_empty x4) ;;
  Ret tt).
Proof. vm_compute. reflexivity. Qed.
(** src/test/intersection/range_inclusive.rs:75-86 *)
Example test_intersection_range_inclusive_range_to_inclusive : passes (
  x1 <- intersection (VRangeInclusive (mkRangeInclusive (lit I32 1) (lit I32 3) false)) (VRangeToInclusive (mkRangeToInclusive (lit I32 2))) ;;
  let i := x1 in
  x2 <- into_iter i ;;
  x3 <- it_collect x2 ;;
  _ <- assert (list_eqb x3 [1; 2]) ;;
  _ <- assert (negb (contains i (lit I32 0))) ;;
  _ <- assert (contains i (lit I32 1)) ;;
  _ <- assert (contains i (lit I32 2)) ;;
  _ <- assert (negb (contains i (lit I32 3))) ;;
  _ <- assert (negb (contains i (lit I32 4))) ;;
  _ <- assert (negb (is_empty i)) ;;
  x4 <- intersection (VRangeInclusive (mkRangeInclusive (lit I32 3) (lit I32 5) false)) (VRangeToInclusive (mkRangeToInclusive (lit I32 2))) ;;
  _ <- assert (is_empty x4) ;;
  Ret tt).
Proof. vm_compute. reflexivity. Qed.
(** src/test/intersection/range_inclusive.rs:88-102 *)
Example test_intersection_range_inclusive_bounded_range : passes (
  x1 <- intersection (VRange (mkRange (lit I32 2) (lit I32 5))) (VRangeFull mkRangeFull : value (mint I32)) ;;
  let br := x1 in
  x2 <- intersection (VRangeInclusive (mkRangeInclusive (lit I32 0) (lit I32 3) false)) br ;;
  let i := x2 in
  x3 <- into_iter i ;;
  x4 <- it_collect x3 ;;
  _ <- assert (list_eqb x4 [2; 3]) ;;
  _ <- assert (negb (contains i (lit I32 0))) ;;
  _ <- assert (negb (contains i (lit I32 1))) ;;
  _ <- assert (contains i (lit I32 2)) ;;
  _ <- assert (contains i (lit I32 3)) ;;
  _ <- assert (negb (contains i (lit I32 4))) ;;
  _ <- assert (negb (contains i (lit I32 5))) ;;
  _ <- assert (negb (contains i (lit I32 6))) ;;
  _ <- assert (negb (is_empty i)) ;;
  x5 <- intersection (VRangeInclusive (mkRangeInclusive (lit I32 10) (lit I32 20) false)) br ;;
  _ <- assert (is_empty x5) ;;
  Ret tt).
Proof. vm_compute. reflexivity. Qed.
(** src/test/intersection/range_inclusive.rs:104-118 *)
Example test_intersection_range_inclusive_lower_bounded_range : passes (
  x1 <- intersection (VRangeFrom (mkRangeFrom (lit I32 2))) (VRangeFull mkRangeFull : value (mint I32)) ;;
  let br := x1 in
  x2 <- intersection (VRangeInclusive (mkRangeInclusive (lit I32 0) (lit I32 3) false)) br ;;
  let i := x2 in
  x3 <- into_iter i ;;
  x4 <- it_collect x3 ;;
  _ <- assert (list_eqb x4 [2; 3]) ;;
  _ <- assert (negb (contains i (lit I32 0))) ;;
  _ <- assert (negb (contains i (lit I32 1))) ;;
  _ <- assert (contains i (lit I32 2)) ;;
  _ <- assert (contains i (lit I32 3)) ;;
  _ <- assert (negb (contains i (lit I32 4))) ;;
  _ <- assert (negb (contains i (lit I32 5))) ;;
  _ <- assert (negb (contains i (lit I32 6))) ;;
  _ <- assert (negb (is_empty i)) ;;
  x5 <- intersection (VRangeInclusive (mkRangeInclusive (lit I32 0) (lit I32 1) false)) br ;;
  _ <- assert (is_empty x5) ;;
  Ret tt).
Proof. vm_compute. reflexivity. Qed.
(** src/test/intersection/range_inclusive.rs:120-132 *)
Example test_intersection_range_inclusive_upper_bounded_range : passes (
  x1 <- intersection (VRangeTo (mkRangeTo (lit I32 2))) (VRangeFull mkRangeFull : value (mint I32)) ;;
  let br := x1 in
  x2 <- intersection (VRangeInclusive (mkRangeInclusive (lit I32 1) (lit I32 3) false)) br ;;
  let i := x2 in
  x3 <- into_iter i ;;
  x4 <- it_collect x3 ;;
  _ <- assert (list_eqb x4 [1]) ;;
  _ <- assert (negb (contains i (lit I32 0))) ;;
  _ <- assert (contains i (lit I32 1)) ;;
  _ <- assert (negb (contains i (lit I32 2))) ;;
  _ <- assert (negb (contains i (lit I32 3))) ;;
  _ <- assert (negb (contains i (lit I32 4))) ;;
  _ <- assert (negb (is_empty i)) ;;
  x5 <- intersection (VRangeInclusive (mkRangeInclusive (lit I32 3) (lit I32 5) false)) br ;;
  _ <- assert (is_empty x5) ;;
  Ret tt).
Proof. vm_compute. reflexivity. Qed.
(** src/test/intersection/range_inclusive.rs:134-147 *)
Example test_intersection_range_inclusive_unbounded_range : passes (
  x1 <- intersection (VRangeFull mkRangeFull : value (mint I32)) (VRangeFull mkRangeFull : value (mint I32)) ;;
  let r := x1 in
  x2 <- intersection (VRangeInclusive (mkRangeInclusive (lit I32 0) (lit I32 3) false)) r ;;
  let i := x2 in
  x3 <- into_iter i ;;
  x4 <- it_collect x3 ;;
  _ <- assert (list_eqb x4 [0; 1; 2; 3]) ;;
  _ <- assert (negb (contains i (lit I32 (-1)))) ;;
  _ <- assert (contains i (lit I32 0)) ;;
  _ <- assert (contains i (lit I32 1)) ;;
  _ <- assert (contains i (lit I32 2)) ;;
  _ <- assert (contains i (lit I32 3)) ;;
  _ <- assert (negb (contains i (lit I32 4))) ;;
  _ <- assert (negb (is_empty i)) ;;
  x5 <- intersection (VRangeInclusive (mkRangeInclusive (lit I32 2) (lit I32 1) false)) r ;;
  _ <- assert (is_empty x5) ;;
  Ret tt).
Proof. vm_compute. reflexivity. Qed.
(** src/test/intersection/range_inclusive.rs:149-156 *)
Example test_intersection_range_inclusive_empty_range : passes (
  let r1 := (VRangeInclusive (mkRangeInclusive (lit I32 0) (lit I32 3) false)) in
  let r2 := (VEmpty mkEmptyRange : value (mint I32)) in
  x1 <- intersection r1 r2 ;;
  let i := x1 in
  _ <- assert (is_empty i) ;;
  x2 <- into_iter i ;;
  x3 <- it_collect x2 ;;
  _ <- assert (list_eqb x3 []) ;;
  Ret tt).
Proof. vm_compute. reflexivity. Qed.
(** src/test/intersection/range_inclusive.rs:158-172 *)
Example test_intersection_range_inclusive_bounded_set : passes (
  x1 <- union (VRange (mkRange (lit I32 1) (lit I32 3))) (VRange (mkRange (lit I32 4) (lit I32 6))) ;;
  let s := x1 in
  x2 <- intersection (VRangeInclusive (mkRangeInclusive (lit I32 2) (lit I32 5) false)) s ;;
  let i := x2 in
  x3 <- into_iter i ;;
  x4 <- it_collect x3 ;;
  _ <- assert (list_eqb x4 [2; 4; 5]) ;;
  _ <- assert (negb (contains i (lit I32 0))) ;;
  _ <- assert (negb (contains i (lit I32 1))) ;;
  _ <- assert (contains i (lit I32 2)) ;;
  _ <- assert (negb (contains i (lit I32 3))) ;;
  _ <- assert (contains i (lit I32 4)) ;;
  _ <- assert (contains i (lit I32 5)) ;;
  _ <- assert (negb (contains i (lit I32 6))) ;;
  _ <- assert (negb (is_empty i)) ;;
  x5 <- intersection (VRangeInclusive (mkRangeInclusive (lit I32 10) (lit I32 15) false)) s ;;
  _ <- assert (is_empty x5) ;;
  Ret tt).
Proof. vm_compute. reflexivity. Qed.
(** src/test/intersection/range_inclusive.rs:174-188 *)
Example test_intersection_range_inclusive_lower_bounded_set : passes (
  x1 <- union (VRange (mkRange (lit I32 1) (lit I32 2))) (VRangeFrom (mkRangeFrom (lit I32 3))) ;;
  let s := x1 in
  x2 <- intersection (VRangeInclusive (mkRangeInclusive (lit I32 1) (lit I32 4) false)) s ;;
  let i := x2 in
  x3 <- into_iter i ;;
  x4 <- it_collect x3 ;;
  _ <- assert (list_eqb x4 [1; 3; 4]) ;;
  _ <- assert (negb (contains i (lit I32 0))) ;;
  _ <- assert (contains i (lit I32 1)) ;;
  _ <- assert (negb (contains i (lit I32 2))) ;;
  _ <- assert (contains i (lit I32 3)) ;;
  _ <- assert (contains i (lit I32 4)) ;;
  _ <- assert (negb (contains i (lit I32 5))) ;;
  _ <- assert (negb (contains i (lit I32 6))) ;;
  _ <- assert (negb (is_empty i)) ;;
  x5 <- intersection (VRangeInclusive (mkRangeInclusive (lit I32 0) (lit I32 0) false)) s ;;
  _ <- assert (is_empty x5) ;;
  Ret tt).
Proof. vm_compute. reflexivity. Qed.
(** src/test/intersection/range_inclusive.rs:190-204 *)
Example test_intersection_range_inclusive_upper_bounded_set : passes (
  x1 <- union (VRangeTo (mkRangeTo (lit I32 2))) (VRange (mkRange (lit I32 3) (lit I32 5))) ;;
  let s := x1 in
  x2 <- intersection (VRangeInclusive (mkRangeInclusive (lit I32 1) (lit I32 3) false)) s ;;
  let i := x2 in
  x3 <- into_iter i ;;
  x4 <- it_collect x3 ;;
  _ <- assert (list_eqb x4 [1; 3]) ;;
  _ <- assert (negb (contains i (lit I32 0))) ;;
  _ <- assert (contains i (lit I32 1)) ;;
  _ <- assert (negb (contains i (lit I32 2))) ;;
  _ <- assert (contains i (lit I32 3)) ;;
  _ <- assert (negb (contains i (lit I32 4))) ;;
  _ <- assert (negb (contains i (lit I32 5))) ;;
  _ <- assert (negb (contains i (lit I32 6))) ;;
  _ <- assert (negb (is_empty i)) ;;
  x5 <- intersection (VRangeInclusive (mkRangeInclusive (lit I32 5) (lit I32 5) false)) s ;;
  _ <- assert (is_empty x5) ;;
  Ret tt).
Proof. vm_compute. reflexivity. Qed.
(** src/test/intersection/range_inclusive.rs:206-220 *)
Example test_intersection_range_inclusive_unbounded_set : passes (
  x1 <- union (VRangeTo (mkRangeTo (lit I32 2))) (VRange (mkRange (lit I32 3) (lit I32 4))) ;;
  x2 <- union x1 (VRangeFrom (mkRangeFrom (lit I32 5))) ;;
  let s := x2 in
  x3 <- intersection (VRangeInclusive (mkRangeInclusive (lit I32 1) (lit I32 5) false)) s ;;
  let i := x3 in
  x4 <- into_iter i ;;
  x5 <- it_collect x4 ;;
  _ <- assert (list_eqb x5 [1; 3; 5]) ;;
  _ <- assert (negb (contains i (lit I32 0))) ;;
  _ <- assert (contains i (lit I32 1)) ;;
  _ <- assert (negb (contains i (lit I32 2))) ;;
  _ <- assert (contains i (lit I32 3)) ;;
  _ <- assert (negb (contains i (lit I32 4))) ;;
  _ <- assert (contains i (lit I32 5)) ;;
  _ <- assert (negb (contains i (lit I32 6))) ;;
  _ <- assert (negb (is_empty i)) ;;
  x6 <- intersection (VRangeInclusive (mkRangeInclusive (lit I32 2) (lit I32 2) false)) s ;;
  _ <- assert (is_empty x6) ;;
  Ret tt).
Proof. vm_compute. reflexivity. Qed.
(** src/test/intersection/range_to.rs:3-15 *)
Example test_intersection_range_to_range : passes (
  x1 <- intersection (VRangeTo (mkRangeTo (lit I32 3))) (VRange (mkRange (lit I32 2) (lit I32 4))) ;;
  let i := x1 in
  x2 <- into_iter i ;;
  x3 <- it_collect x2 ;;
  _ <- assert (list_eqb x3 [2]) ;;
  _ <- assert (negb (contains i (lit I32 0))) ;;
  _ <- assert (negb (contains i (lit I32 1))) ;;
  _ <- assert (contains i (lit I32 2)) ;;
  _ <- assert (negb (contains i (lit I32 3))) ;;
  _ <- assert (negb (contains i (lit I32 4))) ;;
  _ <- assert (negb (contains i (lit I32 5))) ;;
  _ <- assert (negb (is_empty i)) ;;
  x4 <- intersection (VRangeTo (mkRangeTo (lit I32 3))) (VRange (mkRange (lit I32 5) (lit I32 10))) ;;
  _ <- assert (is_empty x4) ;;
  Ret tt).
Proof. vm_compute. reflexivity. Qed.
(** src/test/intersection/range_to.rs:17-29 *)
Example test_intersection_range_to_range_from : passes (
  x1 <- intersection (VRangeTo (mkRangeTo (lit I32 3))) (VRangeFrom (mkRangeFrom (lit I32 2))) ;;
  let i := x1 in
  x2 <- into_iter i ;;
  x3 <- it_collect x2 ;;
  _ <- assert (list_eqb x3 [2]) ;;
  _ <- assert (negb (contains i (lit I32 0))) ;;
  _ <- assert (negb (contains i (lit I32 1))) ;;
  _ <- assert (contains i (lit I32 2)) ;;
  _ <- assert (negb (contains i (lit I32 3))) ;;
  _ <- assert (negb (contains i (lit I32 4))) ;;
  _ <- assert (negb (contains i (lit I32 5))) ;;
  _ <- assert (negb (is_empty i)) ;;
  x4 <- intersection (VRangeTo (mkRangeTo (lit I32 3))) (VRangeFrom (mkRangeFrom (lit I32 5))) ;;
  _ <- assert (is_empty x4) ;;
  Ret tt).
Proof. vm_compute. reflexivity. Qed.
(** src/test/intersection/range_to.rs:31-41 *)
Example test_intersection_range_to_range_full : passes (
  x1 <- intersection (VRangeTo (mkRangeTo (lit I32 3))) (VRangeFull mkRangeFull : value (mint I32)) ;;
  let i := x1 in
  _ <- assert (contains i (lit I32 0)) ;;
  _ <- assert (contains i (lit I32 1)) ;;
  _ <- assert (contains i (lit I32 2)) ;;
  _ <- assert (negb (contains i (lit I32 3))) ;;
  _ <- assert (negb (contains i (lit I32 4))) ;;
  _ <- assert (negb (contains i (lit I32 5))) ;;
  _ <- assert (negb (is_empty i)) ;;
  Ret tt).
Proof. vm_compute. reflexivity. Qed.
(** src/test/intersection/range_to.rs:43-55 *)
Example test_intersection_range_to_range_inclusive : passes (
  x1 <- intersection (VRangeTo (mkRangeTo (lit I32 3))) (VRangeInclusive (mkRangeInclusive (lit I32 2) (lit I32 4) false)) ;;
  let i := x1 in
  x2 <- into_iter i ;;
  x3 <- it_collect x2 ;;
  _ <- assert (list_eqb x3 [2]) ;;
  _ <- assert (negb (contains i (lit I32 0))) ;;
  _ <- assert (negb (contains i (lit I32 1))) ;;
  _ <- assert (contains i (lit I32 2)) ;;
  _ <- assert (negb (contains i (lit I32 3))) ;;
  _ <- assert (negb (contains i (lit I32 4))) ;;
  _ <- assert (negb (contains i (lit I32 5))) ;;
  _ <- assert (negb (is_empty i)) ;;
  x4 <- intersection (VRangeTo (mkRangeTo (lit I32 3))) (VRangeInclusive (mkRangeInclusive (lit I32 5) (lit I32 10) false)) ;;
  _ <- assert (is_empty x4) ;;
  Ret tt).
Proof. vm_compute. reflexivity. Qed.
(** src/test/intersection/range_to.rs:57-67 *)
Example test_intersection_range_to_range_to : passes (
  x1 <- intersection (VRangeTo (mkRangeTo (lit I32 3))) (VRangeTo (mkRangeTo (lit I32 2))) ;;
  let i := x1 in
  _ <- assert (contains i (lit I32 0)) ;;
  _ <- assert (contains i (lit I32 1)) ;;
  _ <- assert (negb (contains i (lit I32 2))) ;;
  _ <- assert (negb (contains i (lit I32 3))) ;;
  _ <- assert (negb (contains i (lit I32 4))) ;;
  _ <- assert (negb (contains i (lit I32 5))) ;;
  _ <- assert (negb (is_empty i)) ;;
  Ret tt).
Proof. vm_compute. reflexivity. Qed.
(** src/test/intersection/range_to.rs:69-79 *)
Example test_intersection_range_to_range_to_inclusive : passes (
  x1 <- intersection (VRangeTo (mkRangeTo (lit I32 3))) (VRangeToInclusive (mkRangeToInclusive (lit I32 2))) ;;
  let i := x1 in
  _ <- assert (contains i (lit I32 0)) ;;
  _ <- assert (contains i (lit I32 1)) ;;
  _ <- assert (contains i (lit I32 2)) ;;
  _ <- assert (negb (contains i (lit I32 3))) ;;
  _ <- assert (negb (contains i (lit I32 4))) ;;
  _ <- assert (negb (contains i (lit I32 5))) ;;
  _ <- assert (negb (is_empty i)) ;;
  Ret tt).
Proof. vm_compute. reflexivity. Qed.
(** src/test/intersection/range_to.rs:81-95 *)
Example test_intersection_range_to_bounded_range : passes (
  x1 <- intersection (VRange (mkRange (lit I32 2) (lit I32 4))) (VRangeFull mkRangeFull : value (mint I32)) ;;
  let r := x1 in
  x2 <- intersection (VRangeTo (mkRangeTo (lit I32 3))) r ;;
  let i := x2 in
  x3 <- into_iter i ;;
  x4 <- it_collect x3 ;;
  _ <- assert (list_eqb x4 [2]) ;;
  _ <- assert (negb (contains i (lit I32 0))) ;;
  _ <- assert (negb (contains i (lit I32 1))) ;;
  _ <- assert (contains i (lit I32 2)) ;;
  _ <- assert (negb (contains i (lit I32 3))) ;;
  _ <- assert (negb (contains i (lit I32 4))) ;;
  _ <- assert (negb (contains i (lit I32 5))) ;;
  _ <- assert (negb (is_empty i)) ;;
  x5 <- intersection (VRange (mkRange (lit I32 5) (lit I32 10))) (VRangeFull mkRangeFull : value (mint I32)) ;;
  let r2 := x5 in
  x6 <- intersection (VRangeTo (mkRangeTo (lit I32 3))) r2 ;;
  _ <- assert (is_empty x6) ;;
  Ret tt).
Proof. vm_compute. reflexivity. Qed.
(** src/test/intersection/range_to.rs:97-111 *)
Example test_intersection_range_to_lower_bounded_range : passes (
  x1 <- intersection (VRangeFrom (mkRangeFrom (lit I32 2))) (VRangeFull mkRangeFull : value (mint I32)) ;;
  let r := x1 in
  x2 <- intersection (VRangeTo (mkRangeTo (lit I32 3))) r ;;
  let i := x2 in
  x3 <- into_iter i ;;
  x4 <- it_collect x3 ;;
  _ <- assert (list_eqb x4 [2]) ;;
  _ <- assert (negb (contains i (lit I32 0))) ;;
  _ <- assert (negb (contains i (lit I32 1))) ;;
  _ <- assert (contains i (lit I32 2)) ;;
  _ <- assert (negb (contains i (lit I32 3))) ;;
  _ <- assert (negb (contains i (lit I32 4))) ;;
  _ <- assert (negb (contains i (lit I32 5))) ;;
  _ <- assert (negb (is_empty i)) ;;
  x5 <- intersection (VRangeFrom (mkRangeFrom (lit I32 5))) (VRangeFull mkRangeFull : value (mint I32)) ;;
  let r2 := x5 in
  x6 <- intersection (VRangeTo (mkRangeTo (lit I32 3))) r2 ;;
  _ <- assert (is_empty x6) ;;
  Ret tt).
Proof. vm_compute. reflexivity. Qed.
(** src/test/intersection/range_to.rs:113-124 *)
Example test_intersection_range_to_upper_bounded_range : passes (
  x1 <- intersection (VRangeTo (mkRangeTo (lit I32 2))) (VRangeFull mkRangeFull : value (mint I32)) ;;
  let r := x1 in
  x2 <- intersection (VRangeTo (mkRangeTo (lit I32 3))) r ;;
  let i := x2 in
  _ <- assert (contains i (lit I32 0)) ;;
  _ <- assert (contains i (lit I32 1)) ;;
  _ <- assert (negb (contains i (lit I32 2))) ;;
  _ <- assert (negb (contains i (lit I32 3))) ;;
  _ <- assert (negb (contains i (lit I32 4))) ;;
  _ <- assert (negb (contains i (lit I32 5))) ;;
  _ <- assert (negb (is_empty i)) ;;
  Ret tt).
Proof. vm_compute. reflexivity. Qed.
(** src/test/intersection/range_to.rs:126-137 *)
Example test_intersection_range_to_unbounded_range : passes (
  x1 <- intersection (VRangeFull mkRangeFull : value (mint I32)) (VRangeFull mkRangeFull : value (mint I32)) ;;
  let r := x1 in
  x2 <- intersection (VRangeTo (mkRangeTo (lit I32 3))) r ;;
  let i := x2 in
  _ <- assert (contains i (lit I32 0)) ;;
  _ <- assert (contains i (lit I32 1)) ;;
  _ <- assert (contains i (lit I32 2)) ;;
  _ <- assert (negb (contains i (lit I32 3))) ;;
  _ <- assert (negb (contains i (lit I32 4))) ;;
  _ <- assert (negb (contains i (lit I32 5))) ;;
  _ <- assert (negb (is_empty i)) ;;
  Ret tt).
Proof. vm_compute. reflexivity. Qed.
(** src/test/intersection/range_to.rs:139-146 *)
Example test_intersection_range_to_empty_range : passes (
  let r1 := (VRangeTo (mkRangeTo (lit I32 3))) in
  let r2 := (VEmpty mkEmptyRange : value (mint I32)) in
  x1 <- intersection r1 r2 ;;
  let i := x1 in
  _ <- assert (is_empty i) ;;
  x2 <- into_iter i ;;
  x3 <- it_collect x2 ;;
  _ <- assert (list_eqb x3 []) ;;
  Ret tt).
Proof. vm_compute. reflexivity. Qed.
(** src/test/intersection/range_to.rs:148-163 *)
Example test_intersection_range_to_bounded_set : passes (
  let r := (VRangeTo (mkRangeTo (lit I32 3))) in
  x1 <- union (VRange (mkRange (lit I32 1) (lit I32 2))) (VRange (mkRange (lit I32 3) (lit I32 4))) ;;
  let s := x1 in
  x2 <- intersection r s ;;
  let i := x2 in
  x3 <- into_iter i ;;
  x4 <- it_collect x3 ;;
  _ <- assert (list_eqb x4 [1]) ;;
  _ <- assert (negb (contains i (lit I32 0))) ;;
  _ <- assert (contains i (lit I32 1)) ;;
  _ <- assert (negb (contains i (lit I32 2))) ;;
  _ <- assert (negb (contains i (lit I32 3))) ;;
  _ <- assert (negb (contains i (lit I32 4))) ;;
  _ <- assert (negb (contains i (lit I32 5))) ;;
  _ <- assert (negb (is_empty i)) ;;
  x5 <- union (VRange (mkRange (lit I32 3) (lit I32 4))) (VRange (mkRange (lit I32 5) (lit I32 6))) ;;
  let s2 := x5 in
  x6 <- intersection r s2 ;;
  _ <- assert (is_empty x6) ;;
  Ret tt).
Proof. vm_compute. reflexivity. Qed.
(** src/test/intersection/range_to.rs:165-180 *)
Example test_intersection_range_to_lower_bounded_set : passes (
  let r := (VRangeTo (mkRangeTo (lit I32 3))) in
  x1 <- union (VRange (mkRange (lit I32 0) (lit I32 1))) (VRangeFrom (mkRangeFrom (lit I32 2))) ;;
  let s := x1 in
  x2 <- intersection r s ;;
  let i := x2 in
  x3 <- into_iter i ;;
  x4 <- it_collect x3 ;;
  _ <- assert (list_eqb x4 [0; 2]) ;;
  _ <- assert (contains i (lit I32 0)) ;;
  _ <- assert (negb (contains i (lit I32 1))) ;;
  _ <- assert (contains i (lit I32 2)) ;;
  _ <- assert (negb (contains i (lit I32 3))) ;;
  _ <- assert (negb (contains i (lit I32 4))) ;;
  _ <- assert (negb (contains i (lit I32 5))) ;;
  _ <- assert (negb (is_empty i)) ;;
  let s2 := (value_of_set (to_set (VRangeFrom (mkRangeFrom (lit I32 5))))) in
  x5 <- intersection r s2 ;;
  _ <- assert (is_empty x5) ;;
  Ret tt).
Proof. vm_compute. reflexivity. Qed.
(** src/test/intersection/range_to.rs:182-194 *)
Example test_intersection_range_to_upper_bounded_set : passes (
  let r := (VRangeTo (mkRangeTo (lit I32 3))) in
  x1 <- union (VRangeTo (mkRangeTo (lit I32 2))) (VRange (mkRange (lit I32 3) (lit I32 4))) ;;
  let s := x1 in
  x2 <- intersection r s ;;
  let i := x2 in
  _ <- assert (contains i (lit I32 0)) ;;
  _ <- assert (contains i (lit I32 1)) ;;
  _ <- assert (negb (contains i (lit I32 2))) ;;
  _ <- assert (negb (contains i (lit I32 3))) ;;
  _ <- assert (negb (contains i (lit I32 4))) ;;
  _ <- assert (negb (contains i (lit I32 5))) ;;
  _ <- assert (negb (is_empty i)) ;;
  Ret tt).
Proof. vm_compute. reflexivity. Qed.
(** src/test/intersection/range_to.rs:196-208 *)
Example test_intersection_range_to_unbounded_set : passes (
  let r := (VRangeTo (mkRangeTo (lit I32 3))) in
  x1 <- union (VRangeTo (mkRangeTo (lit I32 1))) (VRangeFrom (mkRangeFrom (lit I32 2))) ;;
  let s := x1 in
  x2 <- intersection r s ;;
  let i := x2 in
  _ <- assert (contains i (lit I32 0)) ;;
  _ <- assert (negb (contains i (lit I32 1))) ;;
  _ <- assert (contains i (lit I32 2)) ;;
  _ <- assert (negb (contains i (lit I32 3))) ;;
  _ <- assert (negb (contains i (lit I32 4))) ;;
  _ <- assert (negb (contains i (lit I32 5))) ;;
  _ <- assert (negb (is_empty i)) ;;
  Ret tt).
Proof. vm_compute. reflexivity. Qed.
(** src/test/intersection/range_to_inclusive.rs:3-15 *)
Example test_intersection_range_to_inclusive_range : passes (
  x1 <- intersection (VRangeToInclusive (mkRangeToInclusive (lit I32 3))) (VRange (mkRange (lit I32 2) (lit I32 4))) ;;
  let i := x1 in
  x2 <- into_iter i ;;
  x3 <- it_collect x2 ;;
  _ <- assert (list_eqb x3 [2; 3]) ;;
  _ <- assert (negb (contains i (lit I32 0))) ;;
  _ <- assert (negb (contains i (lit I32 1))) ;;
  _ <- assert (contains i (lit I32 2)) ;;
  _ <- assert (contains i (lit I32 3)) ;;
  _ <- assert (negb (contains i (lit I32 4))) ;;
  _ <- assert (negb (contains i (lit I32 5))) ;;
  _ <- assert (negb (is_empty i)) ;;
  x4 <- intersection (VRangeToInclusive (mkRangeToInclusive (lit I32 3))) (VRange (mkRange (lit I32 5) (lit I32 10))) ;;
  _ <- assert (is_empty x4) ;;
  Ret tt).
Proof. vm_compute. reflexivity. Qed.
(** src/test/intersection/range_to_inclusive.rs:17-29 *)
Example test_intersection_range_to_inclusive_range_from : passes (
  x1 <- intersection (VRangeToInclusive (mkRangeToInclusive (lit I32 3))) (VRangeFrom (mkRangeFrom (lit I32 2))) ;;
  let i := x1 in
  x2 <- into_iter i ;;
  x3 <- it_collect x2 ;;
  _ <- assert (list_eqb x3 [2; 3]) ;;
  _ <- assert (negb (contains i (lit I32 0))) ;;
  _ <- assert (negb (contains i (lit I32 1))) ;;
  _ <- assert (contains i (lit I32 2)) ;;
  _ <- assert (contains i (lit I32 3)) ;;
  _ <- assert (negb (contains i (lit I32 4))) ;;
  _ <- assert (negb (contains i (lit I32 5))) ;;
  _ <- assert (negb (is_empty i)) ;;
  x4 <- intersection (VRangeToInclusive (mkRangeToInclusive (lit I32 3))) (VRangeFrom (mkRangeFrom (lit I32 5))) ;;
  _ <- assert (is_empty x4) ;;
  Ret tt).
Proof. vm_compute. reflexivity. Qed.
(** src/test/intersection/range_to_inclusive.rs:31-41 *)
Example test_intersection_range_to_inclusive_range_full : passes (
  x1 <- intersection (VRangeToInclusive (mkRangeToInclusive (lit I32 3))) (VRangeFull mkRangeFull : value (mint I32)) ;;
  let i := x1 in
  _ <- assert (contains i (lit I32 0)) ;;
  _ <- assert (contains i (lit I32 1)) ;;
  _ <- assert (contains i (lit I32 2)) ;;
  _ <- assert (contains i (lit I32 3)) ;;
  _ <- assert (negb (contains i (lit I32 4))) ;;
  _ <- assert (negb (contains i (lit I32 5))) ;;
  _ <- assert (negb (is_empty i)) ;;
  Ret tt).
Proof. vm_compute. reflexivity. Qed.
(** src/test/intersection/range_to_inclusive.rs:43-55 *)
Example test_intersection_range_to_inclusive_range_inclusive : passes (
  x1 <- intersection (VRangeToInclusive (mkRangeToInclusive (lit I32 3))) (VRangeInclusive (mkRangeInclusive (lit I32 2) (lit I32 4) false)) ;;
  let i := x1 in
  x2 <- into_iter i ;;
  x3 <- it_collect x2 ;;
  _ <- assert (list_eqb x3 [2; 3]) ;;
  _ <- assert (negb (contains i (lit I32 0))) ;;
  _ <- assert (negb (contains i (lit I32 1))) ;;
  _ <- assert (contains i (lit I32 2)) ;;
  _ <- assert (contains i (lit I32 3)) ;;
  _ <- assert (negb (contains i (lit I32 4))) ;;
  _ <- assert (negb (contains i (lit I32 5))) ;;
  _ <- assert (negb (is_empty i)) ;;
  x4 <- intersection (VRangeToInclusive (mkRangeToInclusive (lit I32 3))) (VRangeInclusive (mkRangeInclusive (lit I32 5) (lit I32 10) false)) ;;
  _ <- assert (is_empty x4) ;;
  Ret tt).
Proof. vm_compute. reflexivity. Qed.
(** src/test/intersection/range_to_inclusive.rs:57-67 *)
Example test_intersection_range_to_inclusive_range_to : passes (
  x1 <- intersection (VRangeToInclusive (mkRangeToInclusive (lit I32 3))) (VRangeTo (mkRangeTo (lit I32 2))) ;;
  let i := x1 in
  _ <- assert (contains i (lit I32 0)) ;;
  _ <- assert (contains i (lit I32 1)) ;;
  _ <- assert (negb (contains i (lit I32 2))) ;;
  _ <- assert (negb (contains i (lit I32 3))) ;;
  _ <- assert (negb (contains i (lit I32 4))) ;;
  _ <- assert (negb (contains i (lit I32 5))) ;;
  _ <- assert (negb (is_empty i)) ;;
  Ret tt).
Proof. vm_compute. reflexivity. Qed.
(** src/test/intersection/range_to_inclusive.rs:69-79 *)
Example test_intersection_range_to_inclusive_range_to_inclusive : passes (
  x1 <- intersection (VRangeToInclusive (mkRangeToInclusive (lit I32 3))) (VRangeToInclusive (mkRangeToInclusive (lit I32 2))) ;;
  let i := x1 in
  _ <- assert (contains i (lit I32 0)) ;;
  _ <- assert (contains i (lit I32 1)) ;;
  _ <- assert (contains i (lit I32 2)) ;;
  _ <- assert (negb (contains i (lit I32 3))) ;;
  _ <- assert (negb (contains i (lit I32 4))) ;;
  _ <- assert (negb (contains i (lit I32 5))) ;;
  _ <- assert (negb (is_empty i)) ;;
  Ret tt).
Proof. vm_compute. reflexivity. Qed.
(** src/test/intersection/range_to_inclusive.rs:81-95 *)
Example test_intersection_range_to_inclusive_bounded_range : passes (
  x1 <- intersection (VRange (mkRange (lit I32 2) (lit I32 4))) (VRangeFull mkRangeFull : value (mint I32)) ;;
  let r := x1 in
  x2 <- intersection (VRangeToInclusive (mkRangeToInclusive (lit I32 3))) r ;;
  let i := x2 in
  x3 <- into_iter i ;;
  x4 <- it_collect x3 ;;
  _ <- assert (list_eqb x4 [2; 3]) ;;
  _ <- assert (negb (contains i (lit I32 0))) ;;
  _ <- assert (negb (contains i (lit I32 1))) ;;
  _ <- assert (contains i (lit I32 2)) ;;
  _ <- assert (contains i (lit I32 3)) ;;
  _ <- assert (negb (contains i (lit I32 4))) ;;
  _ <- assert (negb (contains i (lit I32 5))) ;;
  _ <- assert (negb (is_empty i)) ;;
  x5 <- intersection (VRange (mkRange (lit I32 5) (lit I32 10))) (VRangeFull mkRangeFull : value (mint I32)) ;;
  let r2 := x5 in
  x6 <- intersection (VRangeToInclusive (mkRangeToInclusive (lit I32 3))) r2 ;;
  _ <- assert (is_empty x6) ;;
  Ret tt).
Proof. vm_compute. reflexivity. Qed.
(** src/test/intersection/range_to_inclusive.rs:97-111 *)
Example test_intersection_range_to_inclusive_lower_bounded_range : passes (
  x1 <- intersection (VRangeFrom (mkRangeFrom (lit I32 2))) (VRangeFull mkRangeFull : value (mint I32)) ;;
  let r := x1 in
  x2 <- intersection (VRangeToInclusive (mkRangeToInclusive (lit I32 3))) r ;;
  let i := x2 in
  x3 <- into_iter i ;;
  x4 <- it_collect x3 ;;
  _ <- assert (list_eqb x4 [2; 3]) ;;
  _ <- assert (negb (contains i (lit I32 0))) ;;
  _ <- assert (negb (contains i (lit I32 1))) ;;
  _ <- assert (contains i (lit I32 2)) ;;
  _ <- assert (contains i (lit I32 3)) ;;
  _ <- assert (negb (contains i (lit I32 4))) ;;
  _ <- assert (negb (contains i (lit I32 5))) ;;
  _ <- assert (negb (is_empty i)) ;;
  x5 <- intersection (VRangeFrom (mkRangeFrom (lit I32 5))) (VRangeFull mkRangeFull : value (mint I32)) ;;
  let r2 := x5 in
  x6 <- intersection (VRangeToInclusive (mkRangeToInclusive (lit I32 3))) r2 ;;
  _ <- assert (is_empty x6) ;;
  Ret tt).
Proof. vm_compute. reflexivity. Qed.
(** src/test/intersection/range_to_inclusive.rs:113-124 *)
Example test_intersection_range_to_inclusive_upper_bounded_range : passes (
  x1 <- intersection (VRangeTo (mkRangeTo (lit I32 2))) (VRangeFull mkRangeFull : value (mint I32)) ;;
  let r := x1 in
  x2 <- intersection (VRangeToInclusive (mkRangeToInclusive (lit I32 3))) r ;;
  let i := x2 in
  _ <- assert (contains i (lit I32 0)) ;;
  _ <- assert (contains i (lit I32 1)) ;;
  _ <- assert (negb (contains i (lit I32 2))) ;;
  _ <- assert (negb (contains i (lit I32 3))) ;;
  _ <- assert (negb (contains i (lit I32 4))) ;;
  _ <- assert (negb (contains i (lit I32 5))) ;;
  _ <- assert (negb (is_empty i)) ;;
  Ret tt).
Proof. vm_compute. reflexivity. Qed.
(** src/test/intersection/range_to_inclusive.rs:126-137 *)
Example test_intersection_range_to_inclusive_unbounded_range : passes (
  x1 <- intersection (VRangeFull mkRangeFull : value (mint I32)) (VRangeFull mkRangeFull : value (mint I32)) ;;
  let r := x1 in
  x2 <- intersection (VRangeToInclusive (mkRangeToInclusive (lit I32 3))) r ;;
  let i := x2 in
  _ <- assert (contains i (lit I32 0)) ;;
  _ <- assert (contains i (lit I32 1)) ;;
  _ <- assert (contains i (lit I32 2)) ;;
  _ <- assert (contains i (lit I32 3)) ;;
  _ <- assert (negb (contains i (lit I32 4))) ;;
  _ <- assert (negb (contains i (lit I32 5))) ;;
  _ <- assert (negb (is_empty i)) ;;
  Ret tt).
Proof. vm_compute. reflexivity. Qed.
(** src/test/intersection/range_to_inclusive.rs:139-146 *)
Example test_intersection_range_to_inclusive_empty_range : passes (
  let r1 := (VRangeToInclusive (mkRangeToInclusive (lit I32 3))) in
  let r2 := (VEmpty mkEmptyRange : value (mint I32)) in
  x1 <- intersection r1 r2 ;;
  let i := x1 in
  _ <- assert (is_empty i) ;;
  x2 <- into_iter i ;;
  x3 <- it_collect x2 ;;
  _ <- assert (list_eqb x3 []) ;;
  Ret tt).
Proof. vm_compute. reflexivity. Qed.
(** src/test/intersection/range_to_inclusive.rs:148-163 *)
Example test_intersection_range_to_inclusive_bounded_set : passes (
  let r := (VRangeToInclusive (mkRangeToInclusive (lit I32 2))) in
  x1 <- union (VRange (mkRange (lit I32 1) (lit I32 2))) (VRange (mkRange (lit I32 3) (lit I32 4))) ;;
  let s := x1 in
  x2 <- intersection r s ;;
  let i := x2 in
  x3 <- into_iter i ;;
  x4 <- it_collect x3 ;;
  _ <- assert (list_eqb x4 [1]) ;;
  _ <- assert (negb (contains i (lit I32 0))) ;;
  _ <- assert (contains i (lit I32 1)) ;;
  _ <- assert (negb (contains i (lit I32 2))) ;;
  _ <- assert (negb (contains i (lit I32 3))) ;;
  _ <- assert (negb (contains i (lit I32 4))) ;;
  _ <- assert (negb (contains i (lit I32 5))) ;;
  _ <- assert (negb (is_empty i)) ;;
  x5 <- union (VRange (mkRange (lit I32 3) (lit I32 4))) (VRange (mkRange (lit I32 5) (lit I32 6))) ;;
  let s2 := x5 in
  x6 <- intersection r s2 ;;
  _ <- assert (is_empty x6) ;;
  Ret tt).
Proof. vm_compute. reflexivity. Qed.
(** src/test/intersection/range_to_inclusive.rs:165-180 *)
Example test_intersection_range_to_inclusive_lower_bounded_set : passes (
  let r := (VRangeToInclusive (mkRangeToInclusive (lit I32 2))) in
  x1 <- union (VRange (mkRange (lit I32 0) (lit I32 1))) (VRangeFrom (mkRangeFrom (lit I32 2))) ;;
  let s := x1 in
  x2 <- intersection r s ;;
  let i := x2 in
  x3 <- into_iter i ;;
  x4 <- it_collect x3 ;;
  _ <- assert (list_eqb x4 [0; 2]) ;;
  _ <- assert (contains i (lit I32 0)) ;;
  _ <- assert (negb (contains i (lit I32 1))) ;;
  _ <- assert (contains i (lit I32 2)) ;;
  _ <- assert (negb (contains i (lit I32 3))) ;;
  _ <- assert (negb (contains i (lit I32 4))) ;;
  _ <- assert (negb (contains i (lit I32 5))) ;;
  _ <- assert (negb (is_empty i)) ;;
  let s2 := (value_of_set (to_set (VRangeFrom (mkRangeFrom (lit I32 5))))) in
  x5 <- intersection r s2 ;;
  _ <- assert (is_empty x5) ;;
  Ret tt).
Proof. vm_compute. reflexivity. Qed.
(** src/test/intersection/range_to_inclusive.rs:182-194 *)
Example test_intersection_range_to_inclusive_upper_bounded_set : passes (
  let r := (VRangeToInclusive (mkRangeToInclusive (lit I32 2))) in
  x1 <- union (VRangeTo (mkRangeTo (lit I32 2))) (VRange (mkRange (lit I32 3) (lit I32 4))) ;;
  let s := x1 in
  x2 <- intersection r s ;;
  let i := x2 in
  _ <- assert (contains i (lit I32 0)) ;;
  _ <- assert (contains i (lit I32 1)) ;;
  _ <- assert (negb (contains i (lit I32 2))) ;;
  _ <- assert (negb (contains i (lit I32 3))) ;;
  _ <- assert (negb (contains i (lit I32 4))) ;;
  _ <- assert (negb (contains i (lit I32 5))) ;;
  _ <- assert (negb (is_empty i)) ;;
  Ret tt).
Proof. vm_compute. reflexivity. Qed.
(** src/test/intersection/range_to_inclusive.rs:196-208 *)
Example test_intersection_range_to_inclusive_unbounded_set : passes (
  let r := (VRangeToInclusive (mkRangeToInclusive (lit I32 2))) in
  x1 <- union (VRangeTo (mkRangeTo (lit I32 1))) (VRangeFrom (mkRangeFrom (lit I32 2))) ;;
  let s := x1 in
  x2 <- intersection r s ;;
  let i := x2 in
  _ <- assert (contains i (lit I32 0)) ;;
  _ <- assert (negb (contains i (lit I32 1))) ;;
  _ <- assert (contains i (lit I32 2)) ;;
  _ <- assert (negb (contains i (lit I32 3))) ;;
  _ <- assert (negb (contains i (lit I32 4))) ;;
  _ <- assert (negb (contains i (lit I32 5))) ;;
  _ <- assert (negb (is_empty i)) ;;
  Ret tt).
Proof. vm_compute. reflexivity. Qed.
(** src/test/intersection/unbounded_range.rs:3-15 *)
Example test_intersection_unbounded_range_range : passes (
  x1 <- intersection (VRangeFull mkRangeFull : value (mint I32)) (VRangeFull mkRangeFull : value (mint I32)) ;;
  let r := x1 in
  x2 <- intersection r (VRange (mkRange (lit I32 1) (lit I32 3))) ;;
  let i := x2 in
  x3 <- into_iter i ;;
  x4 <- it_collect x3 ;;
  _ <- assert (list_eqb x4 [1; 2]) ;;
  _ <- assert (negb (contains i (lit I32 0))) ;;
  _ <- assert (contains i (lit I32 1)) ;;
  _ <- assert (contains i (lit I32 2)) ;;
  _ <- assert (negb (contains i (lit I32 3))) ;;
  _ <- assert (negb (contains i (lit I32 4))) ;;
  _ <- assert (negb (is_empty i)) ;;
  x5 <- intersection r (VRange (mkRange (lit I32 1) (lit I32 1))) ;;
  _ <- assert (is_empty x5) ;;
  Ret tt).
Proof. vm_compute. reflexivity. Qed.
(** src/test/intersection/unbounded_range.rs:17-27 *)
Example test_intersection_unbounded_range_range_from : passes (
  x1 <- intersection (VRangeFull mkRangeFull : value (mint I32)) (VRangeFull mkRangeFull : value (mint I32)) ;;
  let r := x1 in
  x2 <- intersection r (VRangeFrom (mkRangeFrom (lit I32 3))) ;;
  let i := x2 in
  _ <- assert (negb (contains i (lit I32 0))) ;;
  _ <- assert (negb (contains i (lit I32 1))) ;;
  _ <- assert (negb (contains i (lit I32 2))) ;;
  _ <- assert (contains i (lit I32 3)) ;;
  _ <- assert (contains i (lit I32 4)) ;;
  _ <- assert (negb (is_empty i)) ;;
  Ret tt).
Proof. vm_compute. reflexivity. Qed.
(** src/test/intersection/unbounded_range.rs:29-37 *)
Example test_intersection_unbounded_range_range_full : passes (
  x1 <- intersection (VRangeFull mkRangeFull : value (mint I32)) (VRangeFull mkRangeFull : value (mint I32)) ;;
  let r := x1 in
  x2 <- intersection r (VRangeFull mkRangeFull : value (mint I32)) ;;
  let i := x2 in
  _ <- assert (contains i (lit I32 0)) ;;
  _ <- assert (contains i (lit I32 100)) ;;
  _ <- assert (contains i (lit I32 1000)) ;;
  _ <- assert (negb (is_empty i)) ;;
  Ret tt).
Proof. vm_compute. reflexivity. Qed.
(** src/test/intersection/unbounded_range.rs:39-51 *)
Example test_intersection_unbounded_range_range_inclusive : passes (
  x1 <- intersection (VRangeFull mkRangeFull : value (mint I32)) (VRangeFull mkRangeFull : value (mint I32)) ;;
  let r := x1 in
  x2 <- intersection r (VRangeInclusive (mkRangeInclusive (lit I32 1) (lit I32 3) false)) ;;
  let i := x2 in
  x3 <- into_iter i ;;
  x4 <- it_collect x3 ;;
  _ <- assert (list_eqb x4 [1; 2; 3]) ;;
  _ <- assert (negb (contains i (lit I32 0))) ;;
  _ <- assert (contains i (lit I32 1)) ;;
  _ <- assert (contains i (lit I32 2)) ;;
  _ <- assert (contains i (lit I32 3)) ;;
  _ <- assert (negb (contains i (lit I32 4))) ;;
  _ <- assert (negb (is_empty i)) ;;
  x5 <- intersection r (VRangeInclusive (mkRangeInclusive (lit I32 1) (lit I32 0) false)) ;;
  _ <- assert (is_empty x5) ;;
  Ret tt).
Proof. vm_compute. reflexivity. Qed.
(** src/test/intersection/unbounded_range.rs:53-63 *)
Example test_intersection_unbounded_range_range_to : passes (
  x1 <- intersection (VRangeFull mkRangeFull : value (mint I32)) (VRangeFull mkRangeFull : value (mint I32)) ;;
  let r := x1 in
  x2 <- intersection r (VRangeTo (mkRangeTo (lit I32 3))) ;;
  let i := x2 in
  _ <- assert (contains i (lit I32 0)) ;;
  _ <- assert (contains i (lit I32 1)) ;;
  _ <- assert (contains i (lit I32 2)) ;;
  _ <- assert (negb (contains i (lit I32 3))) ;;
  _ <- assert (negb (contains i (lit I32 4))) ;;
  _ <- assert (negb (is_empty i)) ;;
  Ret tt).
Proof. vm_compute. reflexivity. Qed.
(** src/test/intersection/unbounded_range.rs:65-75 *)
Example test_intersection_unbounded_range_range_to_inclusive : passes (
  x1 <- intersection (VRangeFull mkRangeFull : value (mint I32)) (VRangeFull mkRangeFull : value (mint I32)) ;;
  let r := x1 in
  x2 <- intersection r (VRangeToInclusive (mkRangeToInclusive (lit I32 3))) ;;
  let i := x2 in
  _ <- assert (contains i (lit I32 0)) ;;
  _ <- assert (contains i (lit I32 1)) ;;
  _ <- assert (contains i (lit I32 2)) ;;
  _ <- assert (contains i (lit I32 3)) ;;
  _ <- assert (negb (contains i (lit I32 4))) ;;
  _ <- assert (negb (is_empty i)) ;;
  Ret tt).
Proof. vm_compute. reflexivity. Qed.
(** src/test/intersection/unbounded_range.rs:77-91 *)
Example test_intersection_unbounded_range_bounded_range : passes (
  x1 <- intersection (VRangeFull mkRangeFull : value (mint I32)) (VRangeFull mkRangeFull : value (mint I32)) ;;
  let r1 := x1 in
  x2 <- intersection (VRange (mkRange (lit I32 1) (lit I32 3))) (VRangeFull mkRangeFull : value (mint I32)) ;;
  let r2 := x2 in
  x3 <- intersection r1 r2 ;;
  let i := x3 in
  x4 <- into_iter i ;;
  x5 <- it_collect x4 ;;
  _ <- assert (list_eqb x5 [1; 2]) ;;
  _ <- assert (negb (contains i (lit I32 0))) ;;
  _ <- assert (contains i (lit I32 1)) ;;
  _ <- assert (contains i (lit I32 2)) ;;
  _ <- assert (negb (contains i (lit I32 3))) ;;
  _ <- assert (negb (contains i (lit I32 4))) ;;
  _ <- assert (negb (is_empty i)) ;;
  x6 <- intersection (VRange (mkRange (lit I32 1) (lit I32 3))) (VRange (mkRange (lit I32 5) (lit I32 10))) ;;
  let r3 := x6 in
  x7 <- intersection r1 r3 ;;
  _ <- assert (is_empty x7) ;;
  Ret tt).
Proof. vm_compute. reflexivity. Qed.
(** src/test/intersection/unbounded_range.rs:93-105 *)
Example test_intersection_unbounded_range_lower_bounded_range : passes (
  x1 <- intersection (VRangeFull mkRangeFull : value (mint I32)) (VRangeFull mkRangeFull : value (mint I32)) ;;
  let r1 := x1 in
  x2 <- intersection (VRangeFrom (mkRangeFrom (lit I32 3))) (VRangeFull mkRangeFull : value (mint I32)) ;;
  let r2 := x2 in
  x3 <- intersection r1 r2 ;;
  let i := x3 in
  x4 <- into_iter i ;;
  x5 <- it_take 3 x4 ;;
  _ <- assert (list_eqb x5 [3; 4; 5]) ;;
  _ <- assert (negb (contains i (lit I32 0))) ;;
  _ <- assert (negb (contains i (lit I32 1))) ;;
  _ <- assert (negb (contains i (lit I32 2))) ;;
  _ <- assert (contains i (lit I32 3)) ;;
  _ <- assert (contains i (lit I32 4)) ;;
  _ <- assert (negb (is_empty i)) ;;
  Ret tt).
Proof. vm_compute. reflexivity. Qed.
(** src/test/intersection/unbounded_range.rs:106-117 *)
Example test_intersection_unbounded_range_upper_bounded_range : passes (
  x1 <- intersection (VRangeFull mkRangeFull : value (mint I32)) (VRangeFull mkRangeFull : value (mint I32)) ;;
  let r1 := x1 in
  x2 <- intersection (VRangeTo (mkRangeTo (lit I32 3))) (VRangeFull mkRangeFull : value (mint I32)) ;;
  let r2 := x2 in
  x3 <- intersection r1 r2 ;;
  let i := x3 in
  _ <- assert (contains i (lit I32 0)) ;;
  _ <- assert (contains i (lit I32 1)) ;;
  _ <- assert (contains i (lit I32 2)) ;;
  _ <- assert (negb (contains i (lit I32 3))) ;;
  _ <- assert (negb (contains i (lit I32 4))) ;;
  _ <- assert (negb (is_empty i)) ;;
  Ret tt).
Proof. vm_compute. reflexivity. Qed.
(** src/test/intersection/unbounded_range.rs:118-129 *)
Example test_intersection_unbounded_range_unbounded_range : passes (
  x1 <- intersection (VRangeFull mkRangeFull : value (mint I32)) (VRangeFull mkRangeFull : value (mint I32)) ;;
  let r1 := x1 in
  x2 <- intersection (VRangeFull mkRangeFull : value (mint I32)) (VRangeFull mkRangeFull : value (mint I32)) ;;
  let r2 := x2 in
  x3 <- intersection r1 r2 ;;
  let i := x3 in
  _ <- assert (contains i (lit I32 0)) ;;
  _ <- assert (contains i (lit I32 1)) ;;
  _ <- assert (contains i (lit I32 2)) ;;
  _ <- assert (contains i (lit I32 3)) ;;
  _ <- assert (contains i (lit I32 4)) ;;
  _ <- assert (negb (is_empty i)) ;;
  Ret tt).
Proof. vm_compute. reflexivity. Qed.
(** src/test/intersection/unbounded_range.rs:131-138 *)
Example test_intersection_unbounded_range_empty_range : passes (
  x1 <- intersection (VRangeFull mkRangeFull : value (mint I32)) (VRangeFull mkRangeFull : value (mint I32)) ;;
  let r1 := x1 in
  let r2 := (VEmpty mkEmptyRange : value (mint I32)) in
  x2 <- intersection r1 r2 ;;
  let i := x2 in
  _ <- assert (is_empty i) ;;
  x3 <- into_iter i ;;
  x4 <- it_collect x3 ;;
  _ <- assert (list_eqb x4 []) ;;
  Ret tt).
Proof. vm_compute. reflexivity. Qed.
(** src/test/intersection/unbounded_range.rs:140-158 *)
Example test_intersection_unbounded_range_bounded_set : passes (
  let r := (value_of_inner (to_inner (VRangeFull mkRangeFull : value (mint I32)))) in
  x1 <- union (VRange (mkRange (lit I32 1) (lit I32 3))) (VRange (mkRange (lit I32 4) (lit I32 6))) ;;
  let s := x1 in
  x2 <- intersection r s ;;
  let i := x2 in
  x3 <- into_iter i ;;
  x4 <- it_collect x3 ;;
  _ <- assert (list_eqb x4 [1; 2; 4; 5]) ;;
  _ <- assert (negb (contains i (lit I32 0))) ;;
  _ <- assert (contains i (lit I32 1)) ;;
  _ <- assert (contains i (lit I32 2)) ;;
  _ <- assert (negb (contains i (lit I32 3))) ;;
  _ <- assert (contains i (lit I32 4)) ;;
  _ <- assert (contains i (lit I32 5)) ;;
  _ <- assert (negb (contains i (lit I32 6))) ;;
  _ <- assert (negb (contains i (lit I32 7))) ;;
  _ <- assert (negb (contains i (lit I32 8))) ;;
  _ <- assert (negb (is_empty i)) ;;
  x5 <- union (VRange (mkRange (lit I32 1) (lit I32 1))) (VRange (mkRange (lit I32 2) (lit I32 2))) ;;
  let empty_set := x5 in
  x6 <- intersection r empty_set ;;
  _ <- assert (is_empty x6) ;;
  Ret tt).
Proof. vm_compute. reflexivity. Qed.
(** src/test/intersection/unbounded_range.rs:160-175 *)
Example test_intersection_unbounded_range_lower_bounded_set : passes (
  let r := (value_of_inner (to_inner (VRangeFull mkRangeFull : value (mint I32)))) in
  x1 <- union (VRangeFrom (mkRangeFrom (lit I32 3))) (VRange (mkRange (lit I32 0) (lit I32 2))) ;;
  let s := x1 in
  x2 <- intersection r s ;;
  let i := x2 in
  x3 <- into_iter i ;;
  x4 <- it_take 3 x3 ;;
  _ <- assert (list_eqb x4 [0; 1; 3]) ;;
  _ <- assert (contains i (lit I32 0)) ;;
  _ <- assert (contains i (lit I32 1)) ;;
  _ <- assert (negb (contains i (lit I32 2))) ;;
  _ <- assert (contains i (lit I32 3)) ;;
  _ <- assert (contains i (lit I32 4)) ;;
  _ <- assert (negb (is_empty i)) ;;
  Ret tt).
Proof. vm_compute. reflexivity. Qed.
(** src/test/intersection/unbounded_range.rs:177-189 *)
Example test_intersection_unbounded_range_upper_bounded_set : passes (
  let r := (value_of_inner (to_inner (VRangeFull mkRangeFull : value (mint I32)))) in
  x1 <- union (VRangeTo (mkRangeTo (lit I32 3))) (VRange (mkRange (lit I32 4) (lit I32 5))) ;;
  let s := x1 in
  x2 <- intersection r s ;;
  let i := x2 in
  _ <- assert (contains i (lit I32 0)) ;;
  _ <- assert (contains i (lit I32 1)) ;;
  _ <- assert (contains i (lit I32 2)) ;;
  _ <- assert (negb (contains i (lit I32 3))) ;;
  _ <- assert (contains i (lit I32 4)) ;;
  _ <- assert (negb (contains i (lit I32 5))) ;;
  _ <- assert (negb (is_empty i)) ;;
  Ret tt).
Proof. vm_compute. reflexivity. Qed.
(** src/test/intersection/unbounded_range.rs:191-203 *)
Example test_intersection_unbounded_range_unbounded_set : passes (
  let r := (value_of_inner (to_inner (VRangeFull mkRangeFull : value (mint I32)))) in
  x1 <- union (VRange (mkRange (lit I32 2) (lit I32 3))) (VRangeTo (mkRangeTo (lit I32 1))) ;;
  x2 <- union x1 (VRangeFrom (mkRangeFrom (lit I32 4))) ;;
  let s := x2 in
  x3 <- intersection r s ;;
  let i := x3 in
  _ <- assert (contains i (lit I32 0)) ;;
  _ <- assert (negb (contains i (lit I32 1))) ;;
  _ <- assert (contains i (lit I32 2)) ;;
  _ <- assert (negb (contains i (lit I32 3))) ;;
  _ <- assert (contains i (lit I32 4)) ;;
  _ <- assert (contains i (lit I32 5)) ;;
  _ <- assert (negb (is_empty i)) ;;
  Ret tt).
Proof. vm_compute. reflexivity. Qed.
(** src/test/intersection/unbounded_set.rs:3-18 *)
Example test_intersection_unbounded_set_range : passes (
  x1 <- union (VRangeTo (mkRangeTo (lit I32 2))) (VRange (mkRange (lit I32 3) (lit I32 4))) ;;
  x2 <- union x1 (VRangeFrom (mkRangeFrom (lit I32 5))) ;;
  let s := x2 in
  x3 <- intersection s (VRange (mkRange (lit I32 1) (lit I32 6))) ;;
  let i := x3 in
  x4 <- into_iter i ;;
  x5 <- it_collect x4 ;;
  _ <- assert (list_eqb x5 [1; 3; 5]) ;;
  _ <- assert (negb (contains i (lit I32 0))) ;;
  _ <- assert (contains i (lit I32 1)) ;;
  _ <- assert (negb (contains i (lit I32 2))) ;;
  _ <- assert (contains i (lit I32 3)) ;;
  _ <- assert (negb (contains i (lit I32 4))) ;;
  _ <- assert (contains i (lit I32 5)) ;;
  _ <- assert (negb (contains i (lit I32 6))) ;;
  _ <- assert (negb (contains i (lit I32 7))) ;;
  _ <- assert (negb (is_empty i)) ;;
  x6 <- intersection s (VRange (mkRange (lit I32 2) (lit I32 3))) ;;
  _ <- assert (is_empty x6) ;;
  Ret tt).
Proof. vm_compute. reflexivity. Qed.
(** src/test/intersection/unbounded_set.rs:20-37 *)
Example test_intersection_unbounded_set_range_from : passes (
  x1 <- union (VRangeTo (mkRangeTo (lit I32 2))) (VRange (mkRange (lit I32 3) (lit I32 4))) ;;
  x2 <- union x1 (VRangeFrom (mkRangeFrom (lit I32 5))) ;;
  let s := x2 in
  x3 <- intersection s (VRangeFrom (mkRangeFrom (lit I32 3))) ;;
  let i := x3 in
  x4 <- into_iter i ;;
  x5 <- it_take 3 x4 ;;
  _ <- assert (list_eqb x5 [3; 5; 6]) ;;
  _ <- assert (negb (contains i (lit I32 0))) ;;
  _ <- assert (negb (contains i (lit I32 1))) ;;
  _ <- assert (negb (contains i (lit I32 2))) ;;
  _ <- assert (contains i (lit I32 3)) ;;
  _ <- assert (negb (contains i (lit I32 4))) ;;
  _ <- assert (contains i (lit I32 5)) ;;
  _ <- assert (contains i (lit I32 6)) ;;
  _ <- assert (contains i (lit I32 7)) ;;
  _ <- assert (negb (is_empty i)) ;;
  Ret tt).
Proof. vm_compute. reflexivity. Qed.
(** src/test/intersection/unbounded_set.rs:39-52 *)
Example test_intersection_unbounded_set_range_full : passes (
  x1 <- union (VRangeTo (mkRangeTo (lit I32 2))) (VRange (mkRange (lit I32 3) (lit I32 4))) ;;
  x2 <- union x1 (VRangeFrom (mkRangeFrom (lit I32 5))) ;;
  let s := x2 in
  x3 <- intersection s (VRangeFull mkRangeFull : value (mint I32)) ;;
  let i := x3 in
  _ <- assert (contains i (lit I32 0)) ;;
  _ <- assert (contains i (lit I32 1)) ;;
  _ <- assert (negb (contains i (lit I32 2))) ;;
  _ <- assert (contains i (lit I32 3)) ;;
  _ <- assert (negb (contains i (lit I32 4))) ;;
  _ <- assert (contains i (lit I32 5)) ;;
  _ <- assert (contains i (lit I32 6)) ;;
  _ <- assert (contains i (lit I32 7)) ;;
  _ <- assert (negb (is_empty i)) ;;
  Ret tt).
Proof. vm_compute. reflexivity. Qed.
(** src/test/intersection/unbounded_set.rs:54-69 *)
Example test_intersection_unbounded_set_range_inclusive : passes (
  x1 <- union (VRangeTo (mkRangeTo (lit I32 2))) (VRange (mkRange (lit I32 3) (lit I32 4))) ;;
  x2 <- union x1 (VRangeFrom (mkRangeFrom (lit I32 5))) ;;
  let s := x2 in
  x3 <- intersection s (VRangeInclusive (mkRangeInclusive (lit I32 1) (lit I32 6) false)) ;;
  let i := x3 in
  x4 <- into_iter i ;;
  x5 <- it_collect x4 ;;
  _ <- assert (list_eqb x5 [1; 3; 5; 6]) ;;
  _ <- assert (negb (contains i (lit I32 0))) ;;
  _ <- assert (contains i (lit I32 1)) ;;
  _ <- assert (negb (contains i (lit I32 2))) ;;
  _ <- assert (contains i (lit I32 3)) ;;
  _ <- assert (negb (contains i (lit I32 4))) ;;
  _ <- assert (contains i (lit I32 5)) ;;
  _ <- assert (contains i (lit I32 6)) ;;
  _ <- assert (negb (contains i (lit I32 7))) ;;
  _ <- assert (negb (is_empty i)) ;;
  x6 <- intersection s (VRangeInclusive (mkRangeInclusive (lit I32 2) (lit I32 2) false)) ;;
  _ <- assert (is_empty x6) ;;
  Ret tt).
Proof. vm_compute. reflexivity. Qed.
(** src/test/intersection/unbounded_set.rs:71-84 *)
Example test_intersection_unbounded_set_range_to : passes (
  x1 <- union (VRangeTo (mkRangeTo (lit I32 2))) (VRange (mkRange (lit I32 3) (lit I32 4))) ;;
  x2 <- union x1 (VRangeFrom (mkRangeFrom (lit I32 5))) ;;
  let s := x2 in
  x3 <- intersection s (VRangeTo (mkRangeTo (lit I32 6))) ;;
  let i := x3 in
  _ <- assert (contains i (lit I32 0)) ;;
  _ <- assert (contains i (lit I32 1)) ;;
  _ <- assert (negb (contains i (lit I32 2))) ;;
  _ <- assert (contains i (lit I32 3)) ;;
  _ <- assert (negb (contains i (lit I32 4))) ;;
  _ <- assert (contains i (lit I32 5)) ;;
  _ <- assert (negb (contains i (lit I32 6))) ;;
  _ <- assert (negb (contains i (lit I32 7))) ;;
  _ <- assert (negb (is_empty i)) ;;
  Ret tt).
Proof. vm_compute. reflexivity. Qed.
(** src/test/intersection/unbounded_set.rs:86-99 *)
Example test_intersection_unbounded_set_range_to_inclusive : passes (
  x1 <- union (VRangeTo (mkRangeTo (lit I32 2))) (VRange (mkRange (lit I32 3) (lit I32 4))) ;;
  x2 <- union x1 (VRangeFrom (mkRangeFrom (lit I32 5))) ;;
  let s := x2 in
  x3 <- intersection s (VRangeToInclusive (mkRangeToInclusive (lit I32 5))) ;;
  let i := x3 in
  _ <- assert (contains i (lit I32 0)) ;;
  _ <- assert (contains i (lit I32 1)) ;;
  _ <- assert (negb (contains i (lit I32 2))) ;;
  _ <- assert (contains i (lit I32 3)) ;;
  _ <- assert (negb (contains i (lit I32 4))) ;;
  _ <- assert (contains i (lit I32 5)) ;;
  _ <- assert (negb (contains i (lit I32 6))) ;;
  _ <- assert (negb (contains i (lit I32 7))) ;;
  _ <- assert (negb (is_empty i)) ;;
  Ret tt).
Proof. vm_compute. reflexivity. Qed.
(** src/test/intersection/unbounded_set.rs:101-118 *)
Example test_intersection_unbounded_set_bounded_range : passes (
  x1 <- union (VRangeTo (mkRangeTo (lit I32 2))) (VRange (mkRange (lit I32 3) (lit I32 4))) ;;
  x2 <- union x1 (VRangeFrom (mkRangeFrom (lit I32 5))) ;;
  let s := x2 in
  x3 <- intersection (VRangeInclusive (mkRangeInclusive (lit I32 1) (lit I32 3) false)) (VRange (mkRange (lit I32 2) (lit I32 5))) ;;
  let r := x3 in
  x4 <- intersection s r ;;
  let i := x4 in
  x5 <- into_iter i ;;
  x6 <- it_collect x5 ;;
  _ <- assert (list_eqb x6 [3]) ;;
  _ <- assert (negb (contains i (lit I32 0))) ;;
  _ <- assert (negb (contains i (lit I32 1))) ;;
  _ <- assert (negb (contains i (lit I32 2))) ;;
  _ <- assert (contains i (lit I32 3)) ;;
  _ <- assert (negb (contains i (lit I32 4))) ;;
  _ <- assert (negb (contains i (lit I32 5))) ;;
  _ <- assert (negb (contains i (lit I32 6))) ;;
  _ <- assert (negb (contains i (lit I32 7))) ;;
  _ <- assert (negb (is_empty i)) ;;
  x7 <- intersection (VRange (mkRange (lit I32 2) (lit I32 3))) (VRangeFull mkRangeFull : value (mint I32)) ;;
  let r := x7 in
  x8 <- intersection s r ;;
  _ <- assert (is_empty x8) ;;
  Ret tt).
Proof. vm_compute. reflexivity. Qed.
(** src/test/intersection/unbounded_set.rs:120-138 *)
Example test_intersection_unbounded_set_lower_bounded_range : passes (
  x1 <- union (VRangeTo (mkRangeTo (lit I32 2))) (VRange (mkRange (lit I32 3) (lit I32 4))) ;;
  x2 <- union x1 (VRangeFrom (mkRangeFrom (lit I32 5))) ;;
  let s := x2 in
  let r := (value_of_inner (to_inner (VRangeFrom (mkRangeFrom (lit I32 3))))) in
  x3 <- intersection s r ;;
  let i := x3 in
  x4 <- into_iter i ;;
  x5 <- it_take 3 x4 ;;
  _ <- assert (list_eqb x5 [3; 5; 6]) ;;
  _ <- assert (negb (contains i (lit I32 0))) ;;
  _ <- assert (negb (contains i (lit I32 1))) ;;
  _ <- assert (negb (contains i (lit I32 2))) ;;
  _ <- assert (contains i (lit I32 3)) ;;
  _ <- assert (negb (contains i (lit I32 4))) ;;
  _ <- assert (contains i (lit I32 5)) ;;
  _ <- assert (contains i (lit I32 6)) ;;
  _ <- assert (contains i (lit I32 7)) ;;
  _ <- assert (negb (is_empty i)) ;;
  Ret tt).
Proof. vm_compute. reflexivity. Qed.
(** src/test/intersection/unbounded_set.rs:140-154 *)
Example test_intersection_unbounded_set_upper_bounded_range : passes (
  x1 <- union (VRangeTo (mkRangeTo (lit I32 2))) (VRange (mkRange (lit I32 3) (lit I32 4))) ;;
  x2 <- union x1 (VRangeFrom (mkRangeFrom (lit I32 5))) ;;
  let s := x2 in
  let r := (value_of_inner (to_inner (VRangeTo (mkRangeTo (lit I32 6))))) in
  x3 <- intersection s r ;;
  let i := x3 in
  _ <- assert (contains i (lit I32 0)) ;;
  _ <- assert (contains i (lit I32 1)) ;;
  _ <- assert (negb (contains i (lit I32 2))) ;;
  _ <- assert (contains i (lit I32 3)) ;;
  _ <- assert (negb (contains i (lit I32 4))) ;;
  _ <- assert (contains i (lit I32 5)) ;;
  _ <- assert (negb (contains i (lit I32 6))) ;;
  _ <- assert (negb (contains i (lit I32 7))) ;;
  _ <- assert (negb (is_empty i)) ;;
  Ret tt).
Proof. vm_compute. reflexivity. Qed.
(** src/test/intersection/unbounded_set.rs:156-170 *)
Example test_intersection_unbounded_set_unbounded_range : passes (
  x1 <- union (VRangeTo (mkRangeTo (lit I32 2))) (VRange (mkRange (lit I32 3) (lit I32 4))) ;;
  x2 <- union x1 (VRangeFrom (mkRangeFrom (lit I32 5))) ;;
  let s := x2 in
  let r := (value_of_inner (to_inner (VRangeFull mkRangeFull : value (mint I32)))) in
  x3 <- intersection s r ;;
  let i := x3 in
  _ <- assert (contains i (lit I32 0)) ;;
  _ <- assert (contains i (lit I32 1)) ;;
  _ <- assert (negb (contains i (lit I32 2))) ;;
  _ <- assert (contains i (lit I32 3)) ;;
  _ <- assert (negb (contains i (lit I32 4))) ;;
  _ <- assert (contains i (lit I32 5)) ;;
  _ <- assert (contains i (lit I32 6)) ;;
  _ <- assert (contains i (lit I32 7)) ;;
  _ <- assert (negb (is_empty i)) ;;
  Ret tt).
Proof. vm_compute. reflexivity. Qed.
(** src/test/intersection/unbounded_set.rs:172-179 *)
Example test_intersection_unbounded_set_empty_range : passes (
  x1 <- union (VRangeTo (mkRangeTo (lit I32 2))) (VRange (mkRange (lit I32 3) (lit I32 4))) ;;
  x2 <- union x1 (VRangeFrom (mkRangeFrom (lit I32 5))) ;;
  let s := x2 in
  let r := (VEmpty mkEmptyRange : value (mint I32)) in
  x3 <- intersection s r ;;
  let i := x3 in
  _ <- assert (is_empty i) ;;
  x4 <- into_iter i ;;
  x5 <- it_collect x4 ;;
  _ <- assert (list_eqb x5 []) ;;
  Ret tt).
Proof. vm_compute. reflexivity. Qed.
(** src/test/intersection/unbounded_set.rs:181-198 *)
Example test_intersection_unbounded_set_bounded_set : passes (
  x1 <- union (VRangeTo (mkRangeTo (lit I32 2))) (VRange (mkRange (lit I32 3) (lit I32 4))) ;;
  x2 <- union x1 (VRangeFrom (mkRangeFrom (lit I32 5))) ;;
  let s1 := x2 in
  x3 <- union (VRange (mkRange (lit I32 1) (lit I32 3))) (VRangeInclusive (mkRangeInclusive (lit I32 4) (lit I32 5) false)) ;;
  let s2 := x3 in
  x4 <- intersection s1 s2 ;;
  let i := x4 in
  x5 <- into_iter i ;;
  x6 <- it_collect x5 ;;
  _ <- assert (list_eqb x6 [1; 5]) ;;
  _ <- assert (negb (contains i (lit I32 0))) ;;
  _ <- assert (contains i (lit I32 1)) ;;
  _ <- assert (negb (contains i (lit I32 2))) ;;
  _ <- assert (negb (contains i (lit I32 3))) ;;
  _ <- assert (negb (contains i (lit I32 4))) ;;
  _ <- assert (contains i (lit I32 5)) ;;
  _ <- assert (negb (contains i (lit I32 6))) ;;
  _ <- assert (negb (contains i (lit I32 7))) ;;
  _ <- assert (negb (is_empty i)) ;;
  x7 <- union (VRange (mkRange (lit I32 2) (lit I32 3))) (VRange (mkRange (lit I32 4) (lit I32 5))) ;;
  let s2 := x7 in
  x8 <- intersection s1 s2 ;;
  _ <- assert (is_empty x8) ;;
  Ret tt).
Proof. vm_compute. reflexivity. Qed.
(** src/test/intersection/unbounded_set.rs:200-218 *)
Example test_intersection_unbounded_set_lower_bounded_set : passes (
  x1 <- union (VRangeTo (mkRangeTo (lit I32 2))) (VRange (mkRange (lit I32 3) (lit I32 4))) ;;
  x2 <- union x1 (VRangeFrom (mkRangeFrom (lit I32 5))) ;;
  let s := x2 in
  x3 <- union (VRangeFrom (mkRangeFrom (lit I32 3))) (VRange (mkRange (lit I32 5) (lit I32 6))) ;;
  let s2 := x3 in
  x4 <- intersection s s2 ;;
  let i := x4 in
  x5 <- into_iter i ;;
  x6 <- it_take 3 x5 ;;
  _ <- assert (list_eqb x6 [3; 5; 6]) ;;
  _ <- assert (negb (contains i (lit I32 0))) ;;
  _ <- assert (negb (contains i (lit I32 1))) ;;
  _ <- assert (negb (contains i (lit I32 2))) ;;
  _ <- assert (contains i (lit I32 3)) ;;
  _ <- assert (negb (contains i (lit I32 4))) ;;
  _ <- assert (contains i (lit I32 5)) ;;
  _ <- assert (contains i (lit I32 6)) ;;
  _ <- assert (contains i (lit I32 7)) ;;
  _ <- assert (negb (is_empty i)) ;;
  Ret tt).
Proof. vm_compute. reflexivity. Qed.
(** src/test/intersection/unbounded_set.rs:220-234 *)
Example test_intersection_unbounded_set_upper_bounded_set : passes (
  x1 <- union (VRangeTo (mkRangeTo (lit I32 2))) (VRange (mkRange (lit I32 3) (lit I32 4))) ;;
  x2 <- union x1 (VRangeFrom (mkRangeFrom (lit I32 5))) ;;
  let s := x2 in
  x3 <- union (VRangeTo (mkRangeTo (lit I32 6))) (VRange (mkRange (lit I32 7) (lit I32 8))) ;;
  let s2 := x3 in
  x4 <- intersection s s2 ;;
  let i := x4 in
  _ <- assert (contains i (lit I32 0)) ;;
  _ <- assert (contains i (lit I32 1)) ;;
  _ <- assert (negb (contains i (lit I32 2))) ;;
  _ <- assert (contains i (lit I32 3)) ;;
  _ <- assert (negb (contains i (lit I32 4))) ;;
  _ <- assert (contains i (lit I32 5)) ;;
  _ <- assert (negb (contains i (lit I32 6))) ;;
  _ <- assert (contains i (lit I32 7)) ;;
  _ <- assert (negb (is_empty i)) ;;
  Ret tt).
Proof. vm_compute. reflexivity. Qed.
(** src/test/intersection/unbounded_set.rs:236-250 *)
Example test_intersection_unbounded_set_unbounded_set : passes (
  x1 <- union (VRangeTo (mkRangeTo (lit I32 2))) (VRange (mkRange (lit I32 3) (lit I32 4))) ;;
  x2 <- union x1 (VRangeFrom (mkRangeFrom (lit I32 5))) ;;
  let s := x2 in
  x3 <- union (VRangeTo (mkRangeTo (lit I32 4))) (VRangeFrom (mkRangeFrom (lit I32 7))) ;;
  let s2 := x3 in
  x4 <- intersection s s2 ;;
  let i := x4 in
  _ <- assert (contains i (lit I32 0)) ;;
  _ <- assert (contains i (lit I32 1)) ;;
  _ <- assert (negb (contains i (lit I32 2))) ;;
  _ <- assert (contains i (lit I32 3)) ;;
  _ <- assert (negb (contains i (lit I32 4))) ;;
  _ <- assert (negb (contains i (lit I32 5))) ;;
  _ <- assert (negb (contains i (lit I32 6))) ;;
  _ <- assert (contains i (lit I32 7)) ;;
  _ <- assert (negb (is_empty i)) ;;
  Ret tt).
Proof. vm_compute. reflexivity. Qed.
(** src/test/intersection/upper_bounded_range.rs:3-16 *)
Example test_intersection_upper_bounded_range_range : passes (
  x1 <- intersection (VRangeTo (mkRangeTo (lit I32 3))) (VRangeFull mkRangeFull : value (mint I32)) ;;
  let r := x1 in
  x2 <- intersection r (VRange (mkRange (lit I32 2) (lit I32 4))) ;;
  let i := x2 in
  x3 <- into_iter i ;;
  x4 <- it_collect x3 ;;
  _ <- assert (list_eqb x4 [2]) ;;
  _ <- assert (negb (contains i (lit I32 0))) ;;
  _ <- assert (negb (contains i (lit I32 1))) ;;
  _ <- assert (contains i (lit I32 2)) ;;
  _ <- assert (negb (contains i (lit I32 3))) ;;
  _ <- assert (negb (contains i (lit I32 4))) ;;
  _ <- assert (negb (contains i (lit I32 5))) ;;
  _ <- assert (negb (is_empty i)) ;;
  x5 <- intersection r (VRange (mkRange (lit I32 5) (lit I32 10))) ;;
  _ <- assert (is_empty x5) ;;
  Ret tt).
Proof. vm_compute. reflexivity. Qed.
(** src/test/intersection/upper_bounded_range.rs:18-31 *)
Example test_intersection_upper_bounded_range_range_from : passes (
  x1 <- intersection (VRangeTo (mkRangeTo (lit I32 3))) (VRangeFull mkRangeFull : value (mint I32)) ;;
  let r := x1 in
  x2 <- intersection r (VRangeFrom (mkRangeFrom (lit I32 2))) ;;
  let i := x2 in
  x3 <- into_iter i ;;
  x4 <- it_collect x3 ;;
  _ <- assert (list_eqb x4 [2]) ;;
  _ <- assert (negb (contains i (lit I32 0))) ;;
  _ <- assert (negb (contains i (lit I32 1))) ;;
  _ <- assert (contains i (lit I32 2)) ;;
  _ <- assert (negb (contains i (lit I32 3))) ;;
  _ <- assert (negb (contains i (lit I32 4))) ;;
  _ <- assert (negb (contains i (lit I32 5))) ;;
  _ <- assert (negb (is_empty i)) ;;
  x5 <- intersection r (VRangeFrom (mkRangeFrom (lit I32 5))) ;;
  _ <- assert (is_empty x5) ;;
  Ret tt).
Proof. vm_compute. reflexivity. Qed.
(** src/test/intersection/upper_bounded_range.rs:33-44 *)
Example test_intersection_upper_bounded_range_range_full : passes (
  x1 <- intersection (VRangeTo (mkRangeTo (lit I32 3))) (VRangeFull mkRangeFull : value (mint I32)) ;;
  let r := x1 in
  x2 <- intersection r (VRangeFull mkRangeFull : value (mint I32)) ;;
  let i := x2 in
  _ <- assert (contains i (lit I32 0)) ;;
  _ <- assert (contains i (lit I32 1)) ;;
  _ <- assert (contains i (lit I32 2)) ;;
  _ <- assert (negb (contains i (lit I32 3))) ;;
  _ <- assert (negb (contains i (lit I32 4))) ;;
  _ <- assert (negb (contains i (lit I32 5))) ;;
  _ <- assert (negb (is_empty i)) ;;
  Ret tt).
Proof. vm_compute. reflexivity. Qed.
(** src/test/intersection/upper_bounded_range.rs:46-59 *)
Example test_intersection_upper_bounded_range_range_inclusive : passes (
  x1 <- intersection (VRangeTo (mkRangeTo (lit I32 3))) (VRangeFull mkRangeFull : value (mint I32)) ;;
  let r := x1 in
  x2 <- intersection r (VRangeInclusive (mkRangeInclusive (lit I32 2) (lit I32 4) false)) ;;
  let i := x2 in
  x3 <- into_iter i ;;
  x4 <- it_collect x3 ;;
  _ <- assert (list_eqb x4 [2]) ;;
  _ <- assert (negb (contains i (lit I32 0))) ;;
  _ <- assert (negb (contains i (lit I32 1))) ;;
  _ <- assert (contains i (lit I32 2)) ;;
  _ <- assert (negb (contains i (lit I32 3))) ;;
  _ <- assert (negb (contains i (lit I32 4))) ;;
  _ <- assert (negb (contains i (lit I32 5))) ;;
  _ <- assert (negb (is_empty i)) ;;
  x5 <- intersection r (VRangeInclusive (mkRangeInclusive (lit I32 5) (lit I32 10) false)) ;;
  _ <- assert (is_empty x5) ;;
  Ret tt).
Proof. vm_compute. reflexivity. Qed.
(** src/test/intersection/upper_bounded_range.rs:61-72 *)
Example test_intersection_upper_bounded_range_range_to : passes (
  x1 <- intersection (VRangeTo (mkRangeTo (lit I32 3))) (VRangeFull mkRangeFull : value (mint I32)) ;;
  let r := x1 in
  x2 <- intersection r (VRangeTo (mkRangeTo (lit I32 2))) ;;
  let i := x2 in
  _ <- assert (contains i (lit I32 0)) ;;
  _ <- assert (contains i (lit I32 1)) ;;
  _ <- assert (negb (contains i (lit I32 2))) ;;
  _ <- assert (negb (contains i (lit I32 3))) ;;
  _ <- assert (negb (contains i (lit I32 4))) ;;
  _ <- assert (negb (contains i (lit I32 5))) ;;
  _ <- assert (negb (is_empty i)) ;;
  Ret tt).
Proof. vm_compute. reflexivity. Qed.
(** src/test/intersection/upper_bounded_range.rs:74-85 *)
Example test_intersection_upper_bounded_range_range_to_inclusive : passes (
  x1 <- intersection (VRangeTo (mkRangeTo (lit I32 3))) (VRangeFull mkRangeFull : value (mint I32)) ;;
  let r := x1 in
  x2 <- intersection r (VRangeToInclusive (mkRangeToInclusive (lit I32 2))) ;;
  let i := x2 in
  _ <- assert (contains i (lit I32 0)) ;;
  _ <- assert (contains i (lit I32 1)) ;;
  _ <- assert (contains i (lit I32 2)) ;;
  _ <- assert (negb (contains i (lit I32 3))) ;;
  _ <- assert (negb (contains i (lit I32 4))) ;;
  _ <- assert (negb (contains i (lit I32 5))) ;;
  _ <- assert (negb (is_empty i)) ;;
  Ret tt).
Proof. vm_compute. reflexivity. Qed.
(** src/test/intersection/upper_bounded_range.rs:87-102 *)
Example test_intersection_upper_bounded_range_bounded_range : passes (
  x1 <- intersection (VRangeTo (mkRangeTo (lit I32 3))) (VRangeFull mkRangeFull : value (mint I32)) ;;
  let r1 := x1 in
  x2 <- intersection (VRange (mkRange (lit I32 2) (lit I32 4))) (VRangeFull mkRangeFull : value (mint I32)) ;;
  let r2 := x2 in
  x3 <- intersection r1 r2 ;;
  let i := x3 in
  x4 <- into_iter i ;;
  x5 <- it_collect x4 ;;
  _ <- assert (list_eqb x5 [2]) ;;
  _ <- assert (negb (contains i (lit I32 0))) ;;
  _ <- assert (negb (contains i (lit I32 1))) ;;
  _ <- assert (contains i (lit I32 2)) ;;
  _ <- assert (negb (contains i (lit I32 3))) ;;
  _ <- assert (negb (contains i (lit I32 4))) ;;
  _ <- assert (negb (contains i (lit I32 5))) ;;
  _ <- assert (negb (is_empty i)) ;;
  x6 <- intersection (VRange (mkRange (lit I32 5) (lit I32 10))) (VRangeFull mkRangeFull : value (mint I32)) ;;
  let r3 := x6 in
  x7 <- intersection r1 r3 ;;
  _ <- assert (is_empty x7) ;;
  Ret tt).
Proof. vm_compute. reflexivity. Qed.
(** src/test/intersection/upper_bounded_range.rs:104-119 *)
Example test_intersection_upper_bounded_range_lower_bounded_range : passes (
  x1 <- intersection (VRangeTo (mkRangeTo (lit I32 3))) (VRangeFull mkRangeFull : value (mint I32)) ;;
  let r1 := x1 in
  x2 <- intersection (VRangeFrom (mkRangeFrom (lit I32 2))) (VRangeFull mkRangeFull : value (mint I32)) ;;
  let r2 := x2 in
  x3 <- intersection r1 r2 ;;
  let i := x3 in
  x4 <- into_iter i ;;
  x5 <- it_collect x4 ;;
  _ <- assert (list_eqb x5 [2]) ;;
  _ <- assert (negb (contains i (lit I32 0))) ;;
  _ <- assert (negb (contains i (lit I32 1))) ;;
  _ <- assert (contains i (lit I32 2)) ;;
  _ <- assert (negb (contains i (lit I32 3))) ;;
  _ <- assert (negb (contains i (lit I32 4))) ;;
  _ <- assert (negb (contains i (lit I32 5))) ;;
  _ <- assert (negb (is_empty i)) ;;
  x6 <- intersection (VRangeFrom (mkRangeFrom (lit I32 5))) (VRangeFull mkRangeFull : value (mint I32)) ;;
  let r3 := x6 in
  x7 <- intersection r1 r3 ;;
  _ <- assert (is_empty x7) ;;
  Ret tt).
Proof. vm_compute. reflexivity. Qed.
(** src/test/intersection/upper_bounded_range.rs:121-133 *)
Example test_intersection_upper_bounded_range_upper_bounded_range : passes (
  x1 <- intersection (VRangeTo (mkRangeTo (lit I32 3))) (VRangeFull mkRangeFull : value (mint I32)) ;;
  let r1 := x1 in
  x2 <- intersection (VRangeTo (mkRangeTo (lit I32 2))) (VRangeFull mkRangeFull : value (mint I32)) ;;
  let r2 := x2 in
  x3 <- intersection r1 r2 ;;
  let i := x3 in
  _ <- assert (contains i (lit I32 0)) ;;
  _ <- assert (contains i (lit I32 1)) ;;
  _ <- assert (negb (contains i (lit I32 2))) ;;
  _ <- assert (negb (contains i (lit I32 3))) ;;
  _ <- assert (negb (contains i (lit I32 4))) ;;
  _ <- assert (negb (contains i (lit I32 5))) ;;
  _ <- assert (negb (is_empty i)) ;;
  Ret tt).
Proof. vm_compute. reflexivity. Qed.
(** src/test/intersection/upper_bounded_range.rs:135-147 *)
Example test_intersection_upper_bounded_range_unbounded_range : passes (
  x1 <- intersection (VRangeTo (mkRangeTo (lit I32 3))) (VRangeFull mkRangeFull : value (mint I32)) ;;
  let r1 := x1 in
  x2 <- intersection (VRangeFull mkRangeFull : value (mint I32)) (VRangeFull mkRangeFull : value (mint I32)) ;;
  let r2 := x2 in
  x3 <- intersection r1 r2 ;;
  let i := x3 in
  _ <- assert (contains i (lit I32 0)) ;;
  _ <- assert (contains i (lit I32 1)) ;;
  _ <- assert (contains i (lit I32 2)) ;;
  _ <- assert (negb (contains i (lit I32 3))) ;;
  _ <- assert (negb (contains i (lit I32 4))) ;;
  _ <- assert (negb (contains i (lit I32 5))) ;;
  _ <- assert (negb (is_empty i)) ;;
  Ret tt).
Proof. vm_compute. reflexivity. Qed.
(** src/test/intersection/upper_bounded_range.rs:149-156 *)
Example test_intersection_upper_bounded_range_empty_range : passes (
  x1 <- intersection (VRangeTo (mkRangeTo (lit I32 3))) (VRangeFull mkRangeFull : value (mint I32)) ;;
  let r1 := x1 in
  let r2 := (VEmpty mkEmptyRange : value (mint I32)) in
  x2 <- intersection r1 r2 ;;
  let i := x2 in
  _ <- assert (is_empty i) ;;
  x3 <- into_iter i ;;
  x4 <- it_collect x3 ;;
  _ <- assert (list_eqb x4 []) ;;
  Ret tt).
Proof. vm_compute. reflexivity. Qed.
(** src/test/intersection/upper_bounded_range.rs:158-173 *)
Example test_intersection_upper_bounded_range_bounded_set : passes (
  let r := (value_of_inner (to_inner (VRangeTo (mkRangeTo (lit I32 3))))) in
  x1 <- union (VRange (mkRange (lit I32 1) (lit I32 2))) (VRange (mkRange (lit I32 3) (lit I32 4))) ;;
  let s := x1 in
  x2 <- intersection r s ;;
  let i := x2 in
  x3 <- into_iter i ;;
  x4 <- it_collect x3 ;;
  _ <- assert (list_eqb x4 [1]) ;;
  _ <- assert (negb (contains i (lit I32 0))) ;;
  _ <- assert (contains i (lit I32 1)) ;;
  _ <- assert (negb (contains i (lit I32 2))) ;;
  _ <- assert (negb (contains i (lit I32 3))) ;;
  _ <- assert (negb (contains i (lit I32 4))) ;;
  _ <- assert (negb (contains i (lit I32 5))) ;;
  _ <- assert (negb (is_empty i)) ;;
  x5 <- union (VRange (mkRange (lit I32 3) (lit I32 4))) (VRange (mkRange (lit I32 5) (lit I32 6))) ;;
  let s2 := x5 in
  x6 <- intersection r s2 ;;
  _ <- assert (is_empty x6) ;;
  Ret tt).
Proof. vm_compute. reflexivity. Qed.
(** src/test/intersection/upper_bounded_range.rs:175-190 *)
Example test_intersection_upper_bounded_range_lower_bounded_set : passes (
  let r := (value_of_inner (to_inner (VRangeTo (mkRangeTo (lit I32 3))))) in
  x1 <- union (VRange (mkRange (lit I32 0) (lit I32 1))) (VRangeFrom (mkRangeFrom (lit I32 2))) ;;
  let s := x1 in
  x2 <- intersection r s ;;
  let i := x2 in
  x3 <- into_iter i ;;
  x4 <- it_collect x3 ;;
  _ <- assert (list_eqb x4 [0; 2]) ;;
  _ <- assert (contains i (lit I32 0)) ;;
  _ <- assert (negb (contains i (lit I32 1))) ;;
  _ <- assert (contains i (lit I32 2)) ;;
  _ <- assert (negb (contains i (lit I32 3))) ;;
  _ <- assert (negb (contains i (lit I32 4))) ;;
  _ <- assert (negb (contains i (lit I32 5))) ;;
  _ <- assert (negb (is_empty i)) ;;
  let s2 := (value_of_set (to_set (VRangeFrom (mkRangeFrom (lit I32 5))))) in
  x5 <- intersection r s2 ;;
  _ <- assert (is_empty x5) ;;
  Ret tt).
Proof. vm_compute. reflexivity. Qed.
(** src/test/intersection/upper_bounded_range.rs:192-204 *)
Example test_intersection_upper_bounded_range_upper_bounded_set : passes (
  let r := (value_of_inner (to_inner (VRangeTo (mkRangeTo (lit I32 3))))) in
  x1 <- union (VRangeTo (mkRangeTo (lit I32 2))) (VRange (mkRange (lit I32 3) (lit I32 4))) ;;
  let s := x1 in
  x2 <- intersection r s ;;
  let i := x2 in
  _ <- assert (contains i (lit I32 0)) ;;
  _ <- assert (contains i (lit I32 1)) ;;
  _ <- assert (negb (contains i (lit I32 2))) ;;
  _ <- assert (negb (contains i (lit I32 3))) ;;
  _ <- assert (negb (contains i (lit I32 4))) ;;
  _ <- assert (negb (contains i (lit I32 5))) ;;
  _ <- assert (negb (is_empty i)) ;;
  Ret tt).
Proof. vm_compute. reflexivity. Qed.
(** src/test/intersection/upper_bounded_range.rs:206-218 *)
Example test_intersection_upper_bounded_range_unbounded_set : passes (
  let r := (value_of_inner (to_inner (VRangeTo (mkRangeTo (lit I32 3))))) in
  x1 <- union (VRangeTo (mkRangeTo (lit I32 1))) (VRangeFrom (mkRangeFrom (lit I32 2))) ;;
  let s := x1 in
  x2 <- intersection r s ;;
  let i := x2 in
  _ <- assert (contains i (lit I32 0)) ;;
  _ <- assert (negb (contains i (lit I32 1))) ;;
  _ <- assert (contains i (lit I32 2)) ;;
  _ <- assert (negb (contains i (lit I32 3))) ;;
  _ <- assert (negb (contains i (lit I32 4))) ;;
  _ <- assert (negb (contains i (lit I32 5))) ;;
  _ <- assert (negb (is_empty i)) ;;
  Ret tt).
Proof. vm_compute. reflexivity. Qed.
(** src/test/intersection/upper_bounded_set.rs:3-19 *)
Example test_intersection_upper_bounded_set_range : passes (
  x1 <- union (VRangeTo (mkRangeTo (lit I32 3))) (VRange (mkRange (lit I32 5) (lit I32 7))) ;;
  let s := x1 in
  x2 <- intersection s (VRange (mkRange (lit I32 2) (lit I32 6))) ;;
  let i := x2 in
  x3 <- into_iter i ;;
  x4 <- it_collect x3 ;;
  _ <- assert (list_eqb x4 [2; 5]) ;;
  _ <- assert (negb (contains i (lit I32 0))) ;;
  _ <- assert (negb (contains i (lit I32 1))) ;;
  _ <- assert (contains i (lit I32 2)) ;;
  _ <- assert (negb (contains i (lit I32 3))) ;;
  _ <- assert (negb (contains i (lit I32 4))) ;;
  _ <- assert (contains i (lit I32 5)) ;;
  _ <- assert (negb (contains i (lit I32 6))) ;;
  _ <- assert (negb (contains i (lit I32 7))) ;;
  _ <- assert (negb (contains i (lit I32 8))) ;;
  _ <- assert (negb (is_empty i)) ;;
  x5 <- intersection s (VRange (mkRange (lit I32 10) (lit I32 20))) ;;
  _ <- assert (is_empty x5) ;;
  Ret tt).
Proof. vm_compute. reflexivity. Qed.
(** src/test/intersection/upper_bounded_set.rs:21-37 *)
Example test_intersection_upper_bounded_set_range_from : passes (
  x1 <- union (VRangeTo (mkRangeTo (lit I32 3))) (VRange (mkRange (lit I32 5) (lit I32 7))) ;;
  let s := x1 in
  x2 <- intersection s (VRangeFrom (mkRangeFrom (lit I32 2))) ;;
  let i := x2 in
  x3 <- into_iter i ;;
  x4 <- it_collect x3 ;;
  _ <- assert (list_eqb x4 [2; 5; 6]) ;;
  _ <- assert (negb (contains i (lit I32 0))) ;;
  _ <- assert (negb (contains i (lit I32 1))) ;;
  _ <- assert (contains i (lit I32 2)) ;;
  _ <- assert (negb (contains i (lit I32 3))) ;;
  _ <- assert (negb (contains i (lit I32 4))) ;;
  _ <- assert (contains i (lit I32 5)) ;;
  _ <- assert (contains i (lit I32 6)) ;;
  _ <- assert (negb (contains i (lit I32 7))) ;;
  _ <- assert (negb (contains i (lit I32 8))) ;;
  _ <- assert (negb (is_empty i)) ;;
  x5 <- intersection s (VRangeFrom (mkRangeFrom (lit I32 10))) ;;
  _ <- assert (is_empty x5) ;;
  Ret tt).
Proof. vm_compute. reflexivity. Qed.
(** src/test/intersection/upper_bounded_set.rs:39-53 *)
Example test_intersection_upper_bounded_set_range_full : passes (
  x1 <- union (VRangeTo (mkRangeTo (lit I32 3))) (VRange (mkRange (lit I32 5) (lit I32 7))) ;;
  let s := x1 in
  x2 <- intersection s (VRangeFull mkRangeFull : value (mint I32)) ;;
  let i := x2 in
  _ <- assert (contains i (lit I32 0)) ;;
  _ <- assert (contains i (lit I32 1)) ;;
  _ <- assert (contains i (lit I32 2)) ;;
  _ <- assert (negb (contains i (lit I32 3))) ;;
  _ <- assert (negb (contains i (lit I32 4))) ;;
  _ <- assert (contains i (lit I32 5)) ;;
  _ <- assert (contains i (lit I32 6)) ;;
  _ <- assert (negb (contains i (lit I32 7))) ;;
  _ <- assert (negb (contains i (lit I32 8))) ;;
  _ <- assert (negb (is_empty i)) ;;
  Ret tt).
Proof. vm_compute. reflexivity. Qed.
(** src/test/intersection/upper_bounded_set.rs:55-71 *)
Example test_intersection_upper_bounded_set_range_inclusive : passes (
  x1 <- union (VRangeTo (mkRangeTo (lit I32 3))) (VRange (mkRange (lit I32 5) (lit I32 7))) ;;
  let s := x1 in
  x2 <- intersection s (VRangeInclusive (mkRangeInclusive (lit I32 2) (lit I32 6) false)) ;;
  let i := x2 in
  x3 <- into_iter i ;;
  x4 <- it_collect x3 ;;
  _ <- assert (list_eqb x4 [2; 5; 6]) ;;
  _ <- assert (negb (contains i (lit I32 0))) ;;
  _ <- assert (negb (contains i (lit I32 1))) ;;
  _ <- assert (contains i (lit I32 2)) ;;
  _ <- assert (negb (contains i (lit I32 3))) ;;
  _ <- assert (negb (contains i (lit I32 4))) ;;
  _ <- assert (contains i (lit I32 5)) ;;
  _ <- assert (contains i (lit I32 6)) ;;
  _ <- assert (negb (contains i (lit I32 7))) ;;
  _ <- assert (negb (contains i (lit I32 8))) ;;
  _ <- assert (negb (is_empty i)) ;;
  x5 <- intersection s (VRangeInclusive (mkRangeInclusive (lit I32 10) (lit I32 20) false)) ;;
  _ <- assert (is_empty x5) ;;
  Ret tt).
Proof. vm_compute. reflexivity. Qed.
(** src/test/intersection/upper_bounded_set.rs:73-87 *)
Example test_intersection_upper_bounded_set_range_to : passes (
  x1 <- union (VRangeTo (mkRangeTo (lit I32 3))) (VRange (mkRange (lit I32 5) (lit I32 7))) ;;
  let s := x1 in
  x2 <- intersection s (VRangeTo (mkRangeTo (lit I32 6))) ;;
  let i := x2 in
  _ <- assert (contains i (lit I32 0)) ;;
  _ <- assert (contains i (lit I32 1)) ;;
  _ <- assert (contains i (lit I32 2)) ;;
  _ <- assert (negb (contains i (lit I32 3))) ;;
  _ <- assert (negb (contains i (lit I32 4))) ;;
  _ <- assert (contains i (lit I32 5)) ;;
  _ <- assert (negb (contains i (lit I32 6))) ;;
  _ <- assert (negb (contains i (lit I32 7))) ;;
  _ <- assert (negb (contains i (lit I32 8))) ;;
  _ <- assert (negb (is_empty i)) ;;
  Ret tt).
Proof. vm_compute. reflexivity. Qed.
(** src/test/intersection/upper_bounded_set.rs:89-103 *)
Example test_intersection_upper_bounded_set_range_to_inclusive : passes (
  x1 <- union (VRangeTo (mkRangeTo (lit I32 3))) (VRange (mkRange (lit I32 5) (lit I32 7))) ;;
  let s := x1 in
  x2 <- intersection s (VRangeToInclusive (mkRangeToInclusive (lit I32 6))) ;;
  let i := x2 in
  _ <- assert (contains i (lit I32 0)) ;;
  _ <- assert (contains i (lit I32 1)) ;;
  _ <- assert (contains i (lit I32 2)) ;;
  _ <- assert (negb (contains i (lit I32 3))) ;;
  _ <- assert (negb (contains i (lit I32 4))) ;;
  _ <- assert (contains i (lit I32 5)) ;;
  _ <- assert (contains i (lit I32 6)) ;;
  _ <- assert (negb (contains i (lit I32 7))) ;;
  _ <- assert (negb (contains i (lit I32 8))) ;;
  _ <- assert (negb (is_empty i)) ;;
  Ret tt).
Proof. vm_compute. reflexivity. Qed.
(** src/test/intersection/upper_bounded_set.rs:105-123 *)
Example test_intersection_upper_bounded_set_bounded_range : passes (
  x1 <- union (VRangeTo (mkRangeTo (lit I32 3))) (VRange (mkRange (lit I32 5) (lit I32 7))) ;;
  let s := x1 in
  x2 <- intersection (VRangeInclusive (mkRangeInclusive (lit I32 2) (lit I32 6) false)) (VRangeFull mkRangeFull : value (mint I32)) ;;
  let r := x2 in
  x3 <- intersection s r ;;
  let i := x3 in
  x4 <- into_iter i ;;
  x5 <- it_collect x4 ;;
  _ <- assert (list_eqb x5 [2; 5; 6]) ;;
  _ <- assert (negb (contains i (lit I32 0))) ;;
  _ <- assert (negb (contains i (lit I32 1))) ;;
  _ <- assert (contains i (lit I32 2)) ;;
  _ <- assert (negb (contains i (lit I32 3))) ;;
  _ <- assert (negb (contains i (lit I32 4))) ;;
  _ <- assert (contains i (lit I32 5)) ;;
  _ <- assert (contains i (lit I32 6)) ;;
  _ <- assert (negb (contains i (lit I32 7))) ;;
  _ <- assert (negb (contains i (lit I32 8))) ;;
  _ <- assert (negb (is_empty i)) ;;
  let r := (value_of_inner (to_inner (VRange (mkRange (lit I32 10) (lit I32 20))))) in
  x6 <- intersection s r ;;
  _ <- assert (is_empty x6) ;;
  Ret tt).
Proof. vm_compute. reflexivity. Qed.
(** src/test/intersection/upper_bounded_set.rs:125-143 *)
Example test_intersection_upper_bounded_set_lower_bounded_range : passes (
  x1 <- union (VRangeTo (mkRangeTo (lit I32 3))) (VRange (mkRange (lit I32 5) (lit I32 7))) ;;
  let s := x1 in
  x2 <- intersection (VRangeFrom (mkRangeFrom (lit I32 2))) (VRangeFull mkRangeFull : value (mint I32)) ;;
  let r := x2 in
  x3 <- intersection s r ;;
  let i := x3 in
  x4 <- into_iter i ;;
  x5 <- it_collect x4 ;;
  _ <- assert (list_eqb x5 [2; 5; 6]) ;;
  _ <- assert (negb (contains i (lit I32 0))) ;;
  _ <- assert (negb (contains i (lit I32 1))) ;;
  _ <- assert (contains i (lit I32 2)) ;;
  _ <- assert (negb (contains i (lit I32 3))) ;;
  _ <- assert (negb (contains i (lit I32 4))) ;;
  _ <- assert (contains i (lit I32 5)) ;;
  _ <- assert (contains i (lit I32 6)) ;;
  _ <- assert (negb (contains i (lit I32 7))) ;;
  _ <- assert (negb (contains i (lit I32 8))) ;;
  _ <- assert (negb (is_empty i)) ;;
  x6 <- intersection (VRangeFrom (mkRangeFrom (lit I32 10))) (VRangeFull mkRangeFull : value (mint I32)) ;;
  let r := x6 in
  x7 <- intersection s r ;;
  _ <- assert (is_empty x7) ;;
  Ret tt).
Proof. vm_compute. reflexivity. Qed.
(** src/test/intersection/upper_bounded_set.rs:145-160 *)
Example test_intersection_upper_bounded_set_upper_bounded_range : passes (
  x1 <- union (VRangeTo (mkRangeTo (lit I32 3))) (VRange (mkRange (lit I32 5) (lit I32 7))) ;;
  let s := x1 in
  x2 <- intersection (VRangeTo (mkRangeTo (lit I32 6))) (VRangeFull mkRangeFull : value (mint I32)) ;;
  let r := x2 in
  x3 <- intersection s r ;;
  let i := x3 in
  _ <- assert (contains i (lit I32 0)) ;;
  _ <- assert (contains i (lit I32 1)) ;;
  _ <- assert (contains i (lit I32 2)) ;;
  _ <- assert (negb (contains i (lit I32 3))) ;;
  _ <- assert (negb (contains i (lit I32 4))) ;;
  _ <- assert (contains i (lit I32 5)) ;;
  _ <- assert (negb (contains i (lit I32 6))) ;;
  _ <- assert (negb (contains i (lit I32 7))) ;;
  _ <- assert (negb (contains i (lit I32 8))) ;;
  _ <- assert (negb (is_empty i)) ;;
  Ret tt).
Proof. vm_compute. reflexivity. Qed.
(** src/test/intersection/upper_bounded_set.rs:162-177 *)
Example test_intersection_upper_bounded_set_unbounded_range : passes (
  x1 <- union (VRangeTo (mkRangeTo (lit I32 3))) (VRange (mkRange (lit I32 5) (lit I32 7))) ;;
  let s := x1 in
  let r := (value_of_inner (to_inner (VRangeFull mkRangeFull : value (mint I32)))) in
  x2 <- intersection s r ;;
  let i := x2 in
  _ <- assert (contains i (lit I32 0)) ;;
  _ <- assert (contains i (lit I32 1)) ;;
  _ <- assert (contains i (lit I32 2)) ;;
  _ <- assert (negb (contains i (lit I32 3))) ;;
  _ <- assert (negb (contains i (lit I32 4))) ;;
  _ <- assert (contains i (lit I32 5)) ;;
  _ <- assert (contains i (lit I32 6)) ;;
  _ <- assert (negb (contains i (lit I32 7))) ;;
  _ <- assert (negb (contains i (lit I32 8))) ;;
  _ <- assert (negb (is_empty i)) ;;
  Ret tt).
Proof. vm_compute. reflexivity. Qed.
(** src/test/intersection/upper_bounded_set.rs:179-186 *)
Example test_intersection_upper_bounded_set_empty_range : passes (
  x1 <- union (VRangeTo (mkRangeTo (lit I32 3))) (VRange (mkRange (lit I32 5) (lit I32 7))) ;;
  let s := x1 in
  let r := (VEmpty mkEmptyRange : value (mint I32)) in
  x2 <- intersection s r ;;
  let i := x2 in
  _ <- assert (is_empty i) ;;
  x3 <- into_iter i ;;
  x4 <- it_collect x3 ;;
  _ <- assert (list_eqb x4 []) ;;
  Ret tt).
Proof. vm_compute. reflexivity. Qed.
(** src/test/intersection/upper_bounded_set.rs:188-206 *)
Example test_intersection_upper_bounded_set_bounded_set : passes (
  x1 <- union (VRangeTo (mkRangeTo (lit I32 3))) (VRange (mkRange (lit I32 5) (lit I32 7))) ;;
  let s1 := x1 in
  x2 <- union (VRange (mkRange (lit I32 2) (lit I32 5))) (VRange (mkRange (lit I32 6) (lit I32 9))) ;;
  let s2 := x2 in
  x3 <- intersection s1 s2 ;;
  let i := x3 in
  x4 <- into_iter i ;;
  x5 <- it_collect x4 ;;
  _ <- assert (list_eqb x5 [2; 6]) ;;
  _ <- assert (negb (contains i (lit I32 0))) ;;
  _ <- assert (negb (contains i (lit I32 1))) ;;
  _ <- assert (contains i (lit I32 2)) ;;
  _ <- assert (negb (contains i (lit I32 3))) ;;
  _ <- assert (negb (contains i (lit I32 4))) ;;
  _ <- assert (negb (contains i (lit I32 5))) ;;
  _ <- assert (contains i (lit I32 6)) ;;
  _ <- assert (negb (contains i (lit I32 7))) ;;
  _ <- assert (negb (contains i (lit I32 8))) ;;
  _ <- assert (negb (is_empty i)) ;;
  x6 <- union (VRange (mkRange (lit I32 10) (lit I32 20))) (VRange (mkRange (lit I32 30) (lit I32 40))) ;;
  let s2 := x6 in
  x7 <- intersection s1 s2 ;;
  _ <- assert (is_empty x7) ;;
  Ret tt).
Proof. vm_compute. reflexivity. Qed.
(** src/test/intersection/upper_bounded_set.rs:208-226 *)
Example test_intersection_upper_bounded_set_lower_bounded_set : passes (
  x1 <- union (VRangeTo (mkRangeTo (lit I32 3))) (VRange (mkRange (lit I32 5) (lit I32 7))) ;;
  let s := x1 in
  x2 <- union (VRange (mkRange (lit I32 2) (lit I32 5))) (VRangeFrom (mkRangeFrom (lit I32 6))) ;;
  let s2 := x2 in
  x3 <- intersection s s2 ;;
  let i := x3 in
  x4 <- into_iter i ;;
  x5 <- it_collect x4 ;;
  _ <- assert (list_eqb x5 [2; 6]) ;;
  _ <- assert (negb (contains i (lit I32 0))) ;;
  _ <- assert (negb (contains i (lit I32 1))) ;;
  _ <- assert (contains i (lit I32 2)) ;;
  _ <- assert (negb (contains i (lit I32 3))) ;;
  _ <- assert (negb (contains i (lit I32 4))) ;;
  _ <- assert (negb (contains i (lit I32 5))) ;;
  _ <- assert (contains i (lit I32 6)) ;;
  _ <- assert (negb (contains i (lit I32 7))) ;;
  _ <- assert (negb (contains i (lit I32 8))) ;;
  _ <- assert (negb (is_empty i)) ;;
  x6 <- union (VRangeFrom (mkRangeFrom (lit I32 10))) (VRange (mkRange (lit I32 7) (lit I32 8))) ;;
  let s2 := x6 in
  x7 <- intersection s s2 ;;
  _ <- assert (is_empty x7) ;;
  Ret tt).
Proof. vm_compute. reflexivity. Qed.
(** src/test/intersection/upper_bounded_set.rs:228-243 *)
Example test_intersection_upper_bounded_set_upper_bounded_set : passes (
  x1 <- union (VRangeTo (mkRangeTo (lit I32 3))) (VRange (mkRange (lit I32 5) (lit I32 7))) ;;
  let s := x1 in
  x2 <- union (VRangeTo (mkRangeTo (lit I32 2))) (VRange (mkRange (lit I32 4) (lit I32 6))) ;;
  let s2 := x2 in
  x3 <- intersection s s2 ;;
  let i := x3 in
  _ <- assert (contains i (lit I32 0)) ;;
  _ <- assert (contains i (lit I32 1)) ;;
  _ <- assert (negb (contains i (lit I32 2))) ;;
  _ <- assert (negb (contains i (lit I32 3))) ;;
  _ <- assert (negb (contains i (lit I32 4))) ;;
  _ <- assert (contains i (lit I32 5)) ;;
  _ <- assert (negb (contains i (lit I32 6))) ;;
  _ <- assert (negb (contains i (lit I32 7))) ;;
  _ <- assert (negb (contains i (lit I32 8))) ;;
  _ <- assert (negb (is_empty i)) ;;
  Ret tt).
Proof. vm_compute. reflexivity. Qed.
(** src/test/intersection/upper_bounded_set.rs:245-260 *)
Example test_intersection_upper_bounded_set_unbounded_set : passes (
  x1 <- union (VRangeTo (mkRangeTo (lit I32 3))) (VRange (mkRange (lit I32 5) (lit I32 7))) ;;
  let s := x1 in
  x2 <- union (VRangeTo (mkRangeTo (lit I32 2))) (VRange (mkRange (lit I32 4) (lit I32 6))) ;;
  x3 <- union x2 (VRangeFrom (mkRangeFrom (lit I32 8))) ;;
  let s2 := x3 in
  x4 <- intersection s s2 ;;
  let i := x4 in
  _ <- assert (contains i (lit I32 0)) ;;
  _ <- assert (contains i (lit I32 1)) ;;
  _ <- assert (negb (contains i (lit I32 2))) ;;
  _ <- assert (negb (contains i (lit I32 3))) ;;
  _ <- assert (negb (contains i (lit I32 4))) ;;
  _ <- assert (contains i (lit I32 5)) ;;
  _ <- assert (negb (contains i (lit I32 6))) ;;
  _ <- assert (negb (contains i (lit I32 7))) ;;
  _ <- assert (negb (contains i (lit I32 8))) ;;
  _ <- assert (negb (is_empty i)) ;;
  Ret tt).
Proof. vm_compute. reflexivity. Qed.
(** src/test/iterator/bounded_range.rs:3-12 *)
Example test_iterator_bounded_range_next_included_included : passes (
  let r := (value_of_inner (to_inner (VRangeInclusive (mkRangeInclusive (lit I32 0) (lit I32 3) false)))) in
  x1 <- into_iter r ;;
  let it := x1 in
  x2 <- it_next it ;;
  let it := snd x2 in
  _ <- assert (opt_eqb (fst x2) (Some 0)) ;;
  x3 <- it_next it ;;
  let it := snd x3 in
  _ <- assert (opt_eqb (fst x3) (Some 1)) ;;
  x4 <- it_next it ;;
  let it := snd x4 in
  _ <- assert (opt_eqb (fst x4) (Some 2)) ;;
  x5 <- it_next it ;;
  let it := snd x5 in
  _ <- assert (opt_eqb (fst x5) (Some 3)) ;;
  x6 <- it_next it ;;
  let it := snd x6 in
  _ <- assert (opt_eqb (fst x6) None) ;;
  Ret tt).
Proof. vm_compute. reflexivity. Qed.
(** src/test/iterator/bounded_range.rs:14-22 *)
Example test_iterator_bounded_range_next_included_excluded : passes (
  let r := (value_of_inner (to_inner (VRange (mkRange (lit I32 0) (lit I32 3))))) in
  x1 <- into_iter r ;;
  let it := x1 in
  x2 <- it_next it ;;
  let it := snd x2 in
  _ <- assert (opt_eqb (fst x2) (Some 0)) ;;
  x3 <- it_next it ;;
  let it := snd x3 in
  _ <- assert (opt_eqb (fst x3) (Some 1)) ;;
  x4 <- it_next it ;;
  let it := snd x4 in
  _ <- assert (opt_eqb (fst x4) (Some 2)) ;;
  x5 <- it_next it ;;
  let it := snd x5 in
  _ <- assert (opt_eqb (fst x5) None) ;;
  Ret tt).
Proof. vm_compute. reflexivity. Qed.
(** src/test/iterator/bounded_range.rs:24-31 *)
Example test_iterator_bounded_range_next_excluded_included : passes (
  let r := (VBR (br_new (lb_excluded (lit I32 3)) (ub_included (lit I32 5)))) in
  x1 <- into_iter r ;;
  let it := x1 in
  x2 <- it_next it ;;
  let it := snd x2 in
  _ <- assert (opt_eqb (fst x2) (Some 4)) ;;
  x3 <- it_next it ;;
  let it := snd x3 in
  _ <- assert (opt_eqb (fst x3) (Some 5)) ;;
  x4 <- it_next it ;;
  let it := snd x4 in
  _ <- assert (opt_eqb (fst x4) None) ;;
  Ret tt).
Proof. vm_compute. reflexivity. Qed.
(** src/test/iterator/bounded_range.rs:33-39 *)
Example test_iterator_bounded_range_next_excluded_excluded : passes (
  let r := (VBR (br_new (lb_excluded (lit I32 3)) (ub_excluded (lit I32 5)))) in
  x1 <- into_iter r ;;
  let it := x1 in
  x2 <- it_next it ;;
  let it := snd x2 in
  _ <- assert (opt_eqb (fst x2) (Some 4)) ;;
  x3 <- it_next it ;;
  let it := snd x3 in
  _ <- assert (opt_eqb (fst x3) None) ;;
  Ret tt).
Proof. vm_compute. reflexivity. Qed.
(** src/test/iterator/bounded_range.rs:40-56 *)
Example test_iterator_bounded_range_size_hint : passes (
  let r1 := (VBR (br_new (lb_excluded (lit I32 5)) (ub_excluded (lit I32 10)))) in
  x1 <- into_iter r1 ;;
  x2 <- it_size_hint x1 ;;
  _ <- assert (hint_eqb x2 (4, (Some 4))) ;;
  let r2 := (VBR (br_new (lb_included (lit I32 5)) (ub_excluded (lit I32 10)))) in
  x3 <- into_iter r2 ;;
  x4 <- it_size_hint x3 ;;
  _ <- assert (hint_eqb x4 (5, (Some 5))) ;;
  let r3 := (VBR (br_new (lb_excluded (lit I32 5)) (ub_included (lit I32 10)))) in
  x5 <- into_iter r3 ;;
  x6 <- it_size_hint x5 ;;
  _ <- assert (hint_eqb x6 (5, (Some 5))) ;;
  let r4 := (VBR (br_new (lb_included (lit I32 5)) (ub_included (lit I32 10)))) in
  x7 <- into_iter r4 ;;
  x8 <- it_size_hint x7 ;;
  _ <- assert (hint_eqb x8 (6, (Some 6))) ;;
  x9 <- intersection (VRange (mkRange (lit I32 0) (lit I32 10))) (VRange (mkRange (lit I32 10) (lit I32 20))) ;;
  let r5 := x9 in
  x10 <- into_iter r5 ;;
  x11 <- it_size_hint x10 ;;
  _ <- assert (hint_eqb x11 (0, (Some 0))) ;;
  Ret tt).
Proof. vm_compute. reflexivity. Qed.
(** src/test/iterator/bounded_range.rs:58-74 *)
Example test_iterator_bounded_range_count : passes (
  let r1 := (VBR (br_new (lb_excluded (lit I32 5)) (ub_excluded (lit I32 10)))) in
  x1 <- into_iter r1 ;;
  x2 <- it_count x1 ;;
  _ <- assert (Z.eqb x2 4) ;;
  let r2 := (VBR (br_new (lb_included (lit I32 5)) (ub_excluded (lit I32 10)))) in
  x3 <- into_iter r2 ;;
  x4 <- it_count x3 ;;
  _ <- assert (Z.eqb x4 5) ;;
  let r3 := (VBR (br_new (lb_excluded (lit I32 5)) (ub_included (lit I32 10)))) in
  x5 <- into_iter r3 ;;
  x6 <- it_count x5 ;;
  _ <- assert (Z.eqb x6 5) ;;
  let r4 := (VBR (br_new (lb_included (lit I32 5)) (ub_included (lit I32 10)))) in
  x7 <- into_iter r4 ;;
  x8 <- it_count x7 ;;
  _ <- assert (Z.eqb x8 6) ;;
  x9 <- intersection (VRange (mkRange (lit I32 0) (lit I32 10))) (VRange (mkRange (lit I32 10) (lit I32 20))) ;;
  let r5 := x9 in
  x10 <- into_iter r5 ;;
  x11 <- it_count x10 ;;
  _ <- assert (Z.eqb x11 0) ;;
  Ret tt).
Proof. vm_compute. reflexivity. Qed.
(** src/test/iterator/bounded_range.rs:76-92 *)
Example test_iterator_bounded_range_last : passes (
  let r1 := (VBR (br_new (lb_excluded (lit I32 5)) (ub_excluded (lit I32 10)))) in
  x1 <- into_iter r1 ;;
  x2 <- it_last x1 ;;
  _ <- assert (opt_eqb x2 (Some 9)) ;;
  let r2 := (VBR (br_new (lb_included (lit I32 5)) (ub_excluded (lit I32 10)))) in
  x3 <- into_iter r2 ;;
  x4 <- it_last x3 ;;
  _ <- assert (opt_eqb x4 (Some 9)) ;;
  let r3 := (VBR (br_new (lb_excluded (lit I32 5)) (ub_included (lit I32 10)))) in
  x5 <- into_iter r3 ;;
  x6 <- it_last x5 ;;
  _ <- assert (opt_eqb x6 (Some 10)) ;;
  let r4 := (VBR (br_new (lb_included (lit I32 5)) (ub_included (lit I32 10)))) in
  x7 <- into_iter r4 ;;
  x8 <- it_last x7 ;;
  _ <- assert (opt_eqb x8 (Some 10)) ;;
  x9 <- intersection (VRange (mkRange (lit I32 0) (lit I32 10))) (VRange (mkRange (lit I32 10) (lit I32 20))) ;;
  let r5 := x9 in
  x10 <- into_iter r5 ;;
  x11 <- it_last x10 ;;
  _ <- assert (opt_eqb x11 None) ;;
  Ret tt).
Proof. vm_compute. reflexivity. Qed.
(** src/test/iterator/bounded_range.rs:94-110 *)
Example test_iterator_bounded_range_nth : passes (
  let r1 := (VBR (br_new (lb_excluded (lit I32 5)) (ub_excluded (lit I32 10)))) in
  x1 <- into_iter r1 ;;
  x2 <- it_nth x1 1 ;;
  _ <- assert (opt_eqb (fst x2) (Some 7)) ;;
  let r2 := (VBR (br_new (lb_included (lit I32 5)) (ub_excluded (lit I32 10)))) in
  x3 <- into_iter r2 ;;
  x4 <- it_nth x3 1 ;;
  _ <- assert (opt_eqb (fst x4) (Some 6)) ;;
  let r3 := (VBR (br_new (lb_excluded (lit I32 5)) (ub_included (lit I32 10)))) in
  x5 <- into_iter r3 ;;
  x6 <- it_nth x5 10 ;;
  _ <- assert (opt_eqb (fst x6) None) ;;
  let r4 := (VBR (br_new (lb_included (lit I32 5)) (ub_included (lit I32 10)))) in
  x7 <- into_iter r4 ;;
  x8 <- it_nth x7 10 ;;
  _ <- assert (opt_eqb (fst x8) None) ;;
  x9 <- intersection (VRange (mkRange (lit I32 0) (lit I32 10))) (VRange (mkRange (lit I32 10) (lit I32 20))) ;;
  let r5 := x9 in
  x10 <- into_iter r5 ;;
  x11 <- it_nth x10 0 ;;
  _ <- assert (opt_eqb (fst x11) None) ;;
  Ret tt).
Proof. vm_compute. reflexivity. Qed.
(** src/test/iterator/bounded_range.rs:112-128 *)
Example test_iterator_bounded_range_min : passes (
  let r1 := (VBR (br_new (lb_excluded (lit I32 5)) (ub_excluded (lit I32 10)))) in
  x1 <- into_iter r1 ;;
  x2 <- it_min x1 ;;
  _ <- assert (opt_eqb x2 (Some 6)) ;;
  let r2 := (VBR (br_new (lb_included (lit I32 5)) (ub_excluded (lit I32 10)))) in
  x3 <- into_iter r2 ;;
  x4 <- it_min x3 ;;
  _ <- assert (opt_eqb x4 (Some 5)) ;;
  let r3 := (VBR (br_new (lb_excluded (lit I32 5)) (ub_included (lit I32 10)))) in
  x5 <- into_iter r3 ;;
  x6 <- it_min x5 ;;
  _ <- assert (opt_eqb x6 (Some 6)) ;;
  let r4 := (VBR (br_new (lb_included (lit I32 5)) (ub_included (lit I32 10)))) in
  x7 <- into_iter r4 ;;
  x8 <- it_min x7 ;;
  _ <- assert (opt_eqb x8 (Some 5)) ;;
  x9 <- intersection (VRange (mkRange (lit I32 0) (lit I32 10))) (VRange (mkRange (lit I32 10) (lit I32 20))) ;;
  let r5 := x9 in
  x10 <- into_iter r5 ;;
  x11 <- it_min x10 ;;
  _ <- assert (opt_eqb x11 None) ;;
  Ret tt).
Proof. vm_compute. reflexivity. Qed.
(** src/test/iterator/bounded_range.rs:130-146 *)
Example test_iterator_bounded_range_max : passes (
  let r1 := (VBR (br_new (lb_excluded (lit I32 5)) (ub_excluded (lit I32 10)))) in
  x1 <- into_iter r1 ;;
  x2 <- it_max x1 ;;
  _ <- assert (opt_eqb x2 (Some 9)) ;;
  let r2 := (VBR (br_new (lb_included (lit I32 5)) (ub_excluded (lit I32 10)))) in
  x3 <- into_iter r2 ;;
  x4 <- it_max x3 ;;
  _ <- assert (opt_eqb x4 (Some 9)) ;;
  let r3 := (VBR (br_new (lb_excluded (lit I32 5)) (ub_included (lit I32 10)))) in
  x5 <- into_iter r3 ;;
  x6 <- it_max x5 ;;
  _ <- assert (opt_eqb x6 (Some 10)) ;;
  let r4 := (VBR (br_new (lb_included (lit I32 5)) (ub_included (lit I32 10)))) in
  x7 <- into_iter r4 ;;
  x8 <- it_max x7 ;;
  _ <- assert (opt_eqb x8 (Some 10)) ;;
  x9 <- intersection (VRange (mkRange (lit I32 0) (lit I32 10))) (VRange (mkRange (lit I32 10) (lit I32 20))) ;;
  let r5 := x9 in
  x10 <- into_iter r5 ;;
  x11 <- it_max x10 ;;
  _ <- assert (opt_eqb x11 None) ;;
  Ret tt).
Proof. vm_compute. reflexivity. Qed.
(** src/test/iterator/bounded_range.rs:148-176 *)
Example test_iterator_bounded_range_next_back : passes (
  let r1 := (VBR (br_new (lb_excluded (lit I32 5)) (ub_excluded (lit I32 7)))) in
  x1 <- into_iter r1 ;;
  let i1 := x1 in
  x2 <- it_next_back i1 ;;
  let i1 := snd x2 in
  _ <- assert (opt_eqb (fst x2) (Some 6)) ;;
  x3 <- it_next_back i1 ;;
  let i1 := snd x3 in
  _ <- assert (opt_eqb (fst x3) None) ;;
  let r2 := (VBR (br_new (lb_included (lit I32 5)) (ub_excluded (lit I32 7)))) in
  x4 <- into_iter r2 ;;
  let i2 := x4 in
  x5 <- it_next_back i2 ;;
  let i2 := snd x5 in
  _ <- assert (opt_eqb (fst x5) (Some 6)) ;;
  x6 <- it_next_back i2 ;;
  let i2 := snd x6 in
  _ <- assert (opt_eqb (fst x6) (Some 5)) ;;
  x7 <- it_next_back i2 ;;
  let i2 := snd x7 in
  _ <- assert (opt_eqb (fst x7) None) ;;
  let r3 := (VBR (br_new (lb_excluded (lit I32 5)) (ub_included (lit I32 7)))) in
  x8 <- into_iter r3 ;;
  let i3 := x8 in
  x9 <- it_next_back i3 ;;
  let i3 := snd x9 in
  _ <- assert (opt_eqb (fst x9) (Some 7)) ;;
  x10 <- it_next_back i3 ;;
  let i3 := snd x10 in
  _ <- assert (opt_eqb (fst x10) (Some 6)) ;;
  x11 <- it_next_back i3 ;;
  let i3 := snd x11 in
  _ <- assert (opt_eqb (fst x11) None) ;;
  let r4 := (VBR (br_new (lb_included (lit I32 5)) (ub_included (lit I32 7)))) in
  x12 <- into_iter r4 ;;
  let i4 := x12 in
  x13 <- it_next_back i4 ;;
  let i4 := snd x13 in
  _ <- assert (opt_eqb (fst x13) (Some 7)) ;;
  x14 <- it_next_back i4 ;;
  let i4 := snd x14 in
  _ <- assert (opt_eqb (fst x14) (Some 6)) ;;
  x15 <- it_next_back i4 ;;
  let i4 := snd x15 in
  _ <- assert (opt_eqb (fst x15) (Some 5)) ;;
  x16 <- it_next_back i4 ;;
  let i4 := snd x16 in
  _ <- assert (opt_eqb (fst x16) None) ;;
  x17 <- intersection (VRange (mkRange (lit I32 0) (lit I32 10))) (VRange (mkRange (lit I32 10) (lit I32 20))) ;;
  let r5 := x17 in
  x18 <- into_iter r5 ;;
  x19 <- it_next_back x18 ;;
  _ <- assert (opt_eqb (fst x19) None) ;;
  Ret tt).
Proof. vm_compute. reflexivity. Qed.
(** src/test/iterator/bounded_range.rs:178-194 *)
Example test_iterator_bounded_range_nth_back : passes (
  let r1 := (VBR (br_new (lb_excluded (lit I32 5)) (ub_excluded (lit I32 10)))) in
  x1 <- into_iter r1 ;;
  x2 <- it_nth_back x1 1 ;;
  _ <- assert (opt_eqb (fst x2) (Some 8)) ;;
  let r2 := (VBR (br_new (lb_included (lit I32 5)) (ub_excluded (lit I32 10)))) in
  x3 <- into_iter r2 ;;
  x4 <- it_nth_back x3 2 ;;
  _ <- assert (opt_eqb (fst x4) (Some 7)) ;;
  let r3 := (VBR (br_new (lb_excluded (lit I32 5)) (ub_included (lit I32 10)))) in
  x5 <- into_iter r3 ;;
  x6 <- it_nth_back x5 10 ;;
  _ <- assert (opt_eqb (fst x6) None) ;;
  let r4 := (VBR (br_new (lb_included (lit I32 5)) (ub_included (lit I32 10)))) in
  x7 <- into_iter r4 ;;
  x8 <- it_nth_back x7 10 ;;
  _ <- assert (opt_eqb (fst x8) None) ;;
  x9 <- intersection (VRange (mkRange (lit I32 0) (lit I32 10))) (VRange (mkRange (lit I32 10) (lit I32 20))) ;;
  let r5 := x9 in
  x10 <- into_iter r5 ;;
  x11 <- it_nth_back x10 0 ;;
  _ <- assert (opt_eqb (fst x11) None) ;;
  Ret tt).
Proof. vm_compute. reflexivity. Qed.
(** src/test/iterator/bounded_set.rs:3-14 *)
Example test_iterator_bounded_set_next : passes (
  x1 <- union (VRange (mkRange (lit I32 0) (lit I32 1))) (VRange (mkRange (lit I32 3) (lit I32 4))) ;;
  let s1 := x1 in
  x2 <- into_iter s1 ;;
  let i1 := x2 in
  x3 <- it_next i1 ;;
  let i1 := snd x3 in
  _ <- assert (opt_eqb (fst x3) (Some 0)) ;;
  x4 <- it_next i1 ;;
  let i1 := snd x4 in
  _ <- assert (opt_eqb (fst x4) (Some 3)) ;;
  x5 <- it_next i1 ;;
  let i1 := snd x5 in
  _ <- assert (opt_eqb (fst x5) None) ;;
  let s2 := (VBS bs_empty : value (mint I32)) in
  x6 <- into_iter s2 ;;
  let i2 := x6 in
  x7 <- it_next i2 ;;
  let i2 := snd x7 in
  _ <- assert (opt_eqb (fst x7) None) ;;
  Ret tt).
Proof. vm_compute. reflexivity. Qed.
(** src/test/iterator/bounded_set.rs:16-23 *)
Example test_iterator_bounded_set_size_hint : passes (
  x1 <- union (VRange (mkRange (lit I32 0) (lit I32 1))) (VRange (mkRange (lit I32 3) (lit I32 4))) ;;
  let s1 := x1 in
  x2 <- into_iter s1 ;;
  x3 <- it_size_hint x2 ;;
  _ <- assert (hint_eqb x3 (2, (Some 2))) ;;
  let s2 := (VBS bs_empty : value (mint I32)) in
  x4 <- into_iter s2 ;;
  x5 <- it_size_hint x4 ;;
  _ <- assert (hint_eqb x5 (0, (Some 0))) ;;
  Ret tt).
Proof. vm_compute. reflexivity. Qed.
(** src/test/iterator/bounded_set.rs:25-32 *)
Example test_iterator_bounded_set_count : passes (
  x1 <- union (VRange (mkRange (lit I32 0) (lit I32 1))) (VRange (mkRange (lit I32 3) (lit I32 4))) ;;
  let s1 := x1 in
  x2 <- into_iter s1 ;;
  x3 <- it_count x2 ;;
  _ <- assert (Z.eqb x3 2) ;;
  let s2 := (VBS bs_empty : value (mint I32)) in
  x4 <- into_iter s2 ;;
  x5 <- it_count x4 ;;
  _ <- assert (Z.eqb x5 0) ;;
  Ret tt).
Proof. vm_compute. reflexivity. Qed.
(** src/test/iterator/bounded_set.rs:34-41 *)
Example test_iterator_bounded_set_last : passes (
  x1 <- union (VRange (mkRange (lit I32 0) (lit I32 1))) (VRange (mkRange (lit I32 3) (lit I32 4))) ;;
  let s1 := x1 in
  x2 <- into_iter s1 ;;
  x3 <- it_last x2 ;;
  _ <- assert (opt_eqb x3 (Some 3)) ;;
  let s2 := (VBS bs_empty : value (mint I32)) in
  x4 <- into_iter s2 ;;
  x5 <- it_last x4 ;;
  _ <- assert (opt_eqb x5 None) ;;
  Ret tt).
Proof. vm_compute. reflexivity. Qed.
(** src/test/iterator/bounded_set.rs:43-50 *)
Example test_iterator_bounded_set_nth : passes (
  x1 <- union (VRange (mkRange (lit I32 0) (lit I32 1))) (VRange (mkRange (lit I32 3) (lit I32 4))) ;;
  let s1 := x1 in
  x2 <- into_iter s1 ;;
  x3 <- it_nth x2 1 ;;
  _ <- assert (opt_eqb (fst x3) (Some 3)) ;;
  let s2 := (VBS bs_empty : value (mint I32)) in
  x4 <- into_iter s2 ;;
  x5 <- it_nth x4 1 ;;
  _ <- assert (opt_eqb (fst x5) None) ;;
  Ret tt).
Proof. vm_compute. reflexivity. Qed.
(** src/test/iterator/bounded_set.rs:52-59 *)
Example test_iterator_bounded_set_min : passes (
  x1 <- union (VRange (mkRange (lit I32 0) (lit I32 1))) (VRange (mkRange (lit I32 3) (lit I32 4))) ;;
  let s1 := x1 in
  x2 <- into_iter s1 ;;
  x3 <- it_min x2 ;;
  _ <- assert (opt_eqb x3 (Some 0)) ;;
  let s2 := (VBS bs_empty : value (mint I32)) in
  x4 <- into_iter s2 ;;
  x5 <- it_min x4 ;;
  _ <- assert (opt_eqb x5 None) ;;
  Ret tt).
Proof. vm_compute. reflexivity. Qed.
(** src/test/iterator/bounded_set.rs:61-68 *)
Example test_iterator_bounded_set_max : passes (
  x1 <- union (VRange (mkRange (lit I32 0) (lit I32 1))) (VRange (mkRange (lit I32 3) (lit I32 4))) ;;
  let s1 := x1 in
  x2 <- into_iter s1 ;;
  x3 <- it_max x2 ;;
  _ <- assert (opt_eqb x3 (Some 3)) ;;
  let s2 := (VBS bs_empty : value (mint I32)) in
  x4 <- into_iter s2 ;;
  x5 <- it_max x4 ;;
  _ <- assert (opt_eqb x5 None) ;;
  Ret tt).
Proof. vm_compute. reflexivity. Qed.
(** src/test/iterator/bounded_set.rs:70-81 *)
Example test_iterator_bounded_set_next_back : passes (
  x1 <- union (VRange (mkRange (lit I32 0) (lit I32 1))) (VRange (mkRange (lit I32 3) (lit I32 4))) ;;
  let s1 := x1 in
  x2 <- into_iter s1 ;;
  let i1 := x2 in
  x3 <- it_next_back i1 ;;
  let i1 := snd x3 in
  _ <- assert (opt_eqb (fst x3) (Some 3)) ;;
  x4 <- it_next_back i1 ;;
  let i1 := snd x4 in
  _ <- assert (opt_eqb (fst x4) (Some 0)) ;;
  x5 <- it_next_back i1 ;;
  let i1 := snd x5 in
  _ <- assert (opt_eqb (fst x5) None) ;;
  let s2 := (VBS bs_empty : value (mint I32)) in
  x6 <- into_iter s2 ;;
  let i2 := x6 in
  x7 <- it_next_back i2 ;;
  let i2 := snd x7 in
  _ <- assert (opt_eqb (fst x7) None) ;;
  Ret tt).
Proof. vm_compute. reflexivity. Qed.
(** src/test/iterator/bounded_set.rs:83-90 *)
Example test_iterator_bounded_set_nth_back : passes (
  x1 <- union (VRange (mkRange (lit I32 0) (lit I32 1))) (VRange (mkRange (lit I32 3) (lit I32 4))) ;;
  let s1 := x1 in
  x2 <- into_iter s1 ;;
  x3 <- it_nth_back x2 1 ;;
  _ <- assert (opt_eqb (fst x3) (Some 0)) ;;
  let s2 := (VBS bs_empty : value (mint I32)) in
  x4 <- into_iter s2 ;;
  x5 <- it_nth_back x4 1 ;;
  _ <- assert (opt_eqb (fst x5) None) ;;
  Ret tt).
Proof. vm_compute. reflexivity. Qed.
(** src/test/iterator/empty_range.rs:3-7 *)
Example test_iterator_empty_range_next : passes (
  let r := (VEmpty mkEmptyRange : value (mint I32)) in
  x1 <- into_iter r ;;
  x2 <- it_next x1 ;;
  _ <- assert (opt_eqb (fst x2) None) ;;
  Ret tt).
Proof. vm_compute. reflexivity. Qed.
(** src/test/iterator/empty_range.rs:9-13 *)
Example test_iterator_empty_range_size_hint : passes (
  let r := (VEmpty mkEmptyRange : value (mint I32)) in
  x1 <- into_iter r ;;
  x2 <- it_size_hint x1 ;;
  _ <- assert (hint_eqb x2 (0, (Some 0))) ;;
  Ret tt).
Proof. vm_compute. reflexivity. Qed.
(** src/test/iterator/empty_range.rs:15-19 *)
Example test_iterator_empty_range_count : passes (
  let r := (VEmpty mkEmptyRange : value (mint I32)) in
  x1 <- into_iter r ;;
  x2 <- it_count x1 ;;
  _ <- assert (Z.eqb x2 0) ;;
  Ret tt).
Proof. vm_compute. reflexivity. Qed.
(** src/test/iterator/empty_range.rs:21-25 *)
Example test_iterator_empty_range_last : passes (
  let r := (VEmpty mkEmptyRange : value (mint I32)) in
  x1 <- into_iter r ;;
  x2 <- it_last x1 ;;
  _ <- assert (opt_eqb x2 None) ;;
  Ret tt).
Proof. vm_compute. reflexivity. Qed.
(** src/test/iterator/empty_range.rs:27-31 *)
Example test_iterator_empty_range_nth : passes (
  let r := (VEmpty mkEmptyRange : value (mint I32)) in
  x1 <- into_iter r ;;
  x2 <- it_nth x1 1 ;;
  _ <- assert (opt_eqb (fst x2) None) ;;
  Ret tt).
Proof. vm_compute. reflexivity. Qed.
(** src/test/iterator/empty_range.rs:33-37 *)
Example test_iterator_empty_range_next_back : passes (
  let r := (VEmpty mkEmptyRange : value (mint I32)) in
  x1 <- into_iter r ;;
  x2 <- it_next_back x1 ;;
  _ <- assert (opt_eqb (fst x2) None) ;;
  Ret tt).
Proof. vm_compute. reflexivity. Qed.
(** src/test/iterator/empty_range.rs:39-43 *)
Example test_iterator_empty_range_nth_back : passes (
  let r := (VEmpty mkEmptyRange : value (mint I32)) in
  x1 <- into_iter r ;;
  x2 <- it_nth_back x1 2 ;;
  _ <- assert (opt_eqb (fst x2) None) ;;
  Ret tt).
Proof. vm_compute. reflexivity. Qed.
(** src/test/iterator/lower_bounded_range.rs:3-16 *)
Example test_iterator_lower_bounded_range_next : passes (
  let r1 := (VLBR (lbr_new (lb_excluded (lit I32 2)))) in
  x1 <- into_iter r1 ;;
  let i1 := x1 in
  x2 <- it_next i1 ;;
  let i1 := snd x2 in
  _ <- assert (opt_eqb (fst x2) (Some 3)) ;;
  x3 <- it_next i1 ;;
  let i1 := snd x3 in
  _ <- assert (opt_eqb (fst x3) (Some 4)) ;;
  x4 <- it_next i1 ;;
  let i1 := snd x4 in
  _ <- assert (opt_eqb (fst x4) (Some 5)) ;;
  let r2 := (VLBR (lbr_new (lb_included (lit I32 2)))) in
  x5 <- into_iter r2 ;;
  let i2 := x5 in
  x6 <- it_next i2 ;;
  let i2 := snd x6 in
  _ <- assert (opt_eqb (fst x6) (Some 2)) ;;
  x7 <- it_next i2 ;;
  let i2 := snd x7 in
  _ <- assert (opt_eqb (fst x7) (Some 3)) ;;
  x8 <- it_next i2 ;;
  let i2 := snd x8 in
  _ <- assert (opt_eqb (fst x8) (Some 4)) ;;
  Ret tt).
Proof. vm_compute. reflexivity. Qed.
(** src/test/iterator/lower_bounded_range.rs:18-26 *)
Example test_iterator_lower_bounded_range_size_hint : passes (
  let hint := ((usize_max (PF := pf64)), None) in
  let r1 := (VLBR (lbr_new (lb_excluded (lit I32 2)))) in
  x1 <- into_iter r1 ;;
  x2 <- it_size_hint x1 ;;
  _ <- assert (hint_eqb x2 hint) ;;
  let r2 := (VLBR (lbr_new (lb_included (lit I32 2)))) in
  x3 <- into_iter r2 ;;
  x4 <- it_size_hint x3 ;;
  _ <- assert (hint_eqb x4 hint) ;;
  Ret tt).
Proof. vm_compute. reflexivity. Qed.
(** src/test/iterator/lower_bounded_range.rs:28-41 *)
Example test_iterator_lower_bounded_range_nth : passes (
  let r1 := (VLBR (lbr_new (lb_excluded (lit I32 2)))) in
  x1 <- into_iter r1 ;;
  let i1 := x1 in
  x2 <- it_nth i1 1 ;;
  let i1 := snd x2 in
  _ <- assert (opt_eqb (fst x2) (Some 4)) ;;
  x3 <- it_nth i1 2 ;;
  let i1 := snd x3 in
  _ <- assert (opt_eqb (fst x3) (Some 7)) ;;
  x4 <- it_nth i1 3 ;;
  let i1 := snd x4 in
  _ <- assert (opt_eqb (fst x4) (Some 11)) ;;
  let r2 := (VLBR (lbr_new (lb_included (lit I32 2)))) in
  x5 <- into_iter r2 ;;
  let i2 := x5 in
  x6 <- it_nth i2 1 ;;
  let i2 := snd x6 in
  _ <- assert (opt_eqb (fst x6) (Some 3)) ;;
  x7 <- it_nth i2 2 ;;
  let i2 := snd x7 in
  _ <- assert (opt_eqb (fst x7) (Some 6)) ;;
  x8 <- it_nth i2 3 ;;
  let i2 := snd x8 in
  _ <- assert (opt_eqb (fst x8) (Some 10)) ;;
  Ret tt).
Proof. vm_compute. reflexivity. Qed.
(** src/test/iterator/lower_bounded_range.rs:43-50 *)
Example test_iterator_lower_bounded_range_min : passes (
  let r1 := (VLBR (lbr_new (lb_excluded (lit I32 2)))) in
  x1 <- into_iter r1 ;;
  x2 <- it_min x1 ;;
  _ <- assert (opt_eqb x2 (Some 3)) ;;
  let r2 := (VLBR (lbr_new (lb_included (lit I32 2)))) in
  x3 <- into_iter r2 ;;
  x4 <- it_min x3 ;;
  _ <- assert (opt_eqb x4 (Some 2)) ;;
  Ret tt).
Proof. vm_compute. reflexivity. Qed.
(** src/test/iterator/lower_bounded_set.rs:3-14 *)
Example test_iterator_lower_bounded_set_next : passes (
  x1 <- union (VRangeFrom (mkRangeFrom (lit I32 4))) (VBS bs_empty : value (mint I32)) ;;
  let s1 := x1 in
  x2 <- into_iter s1 ;;
  let i1 := x2 in
  x3 <- it_next i1 ;;
  let i1 := snd x3 in
  _ <- assert (opt_eqb (fst x3) (Some 4)) ;;
  x4 <- it_next i1 ;;
  let i1 := snd x4 in
  _ <- assert (opt_eqb (fst x4) (Some 5)) ;;
  x5 <- union (VRange (mkRange (lit I32 1) (lit I32 2))) (VRangeFrom (mkRangeFrom (lit I32 4))) ;;
  let s2 := x5 in
  x6 <- into_iter s2 ;;
  let i2 := x6 in
  x7 <- it_next i2 ;;
  let i2 := snd x7 in
  _ <- assert (opt_eqb (fst x7) (Some 1)) ;;
  x8 <- it_next i2 ;;
  let i2 := snd x8 in
  _ <- assert (opt_eqb (fst x8) (Some 4)) ;;
  Ret tt).
Proof. vm_compute. reflexivity. Qed.
(** src/test/iterator/lower_bounded_set.rs:16-24 *)
Example test_iterator_lower_bounded_set_size_hint : passes (
  let hint := ((usize_max (PF := pf64)), None) in
  x1 <- union (VRangeFrom (mkRangeFrom (lit I32 4))) (VBS bs_empty : value (mint I32)) ;;
  let s1 := x1 in
  x2 <- into_iter s1 ;;
  x3 <- it_size_hint x2 ;;
  _ <- assert (hint_eqb x3 hint) ;;
  x4 <- union (VRange (mkRange (lit I32 1) (lit I32 2))) (VRangeFrom (mkRangeFrom (lit I32 4))) ;;
  let s2 := x4 in
  x5 <- into_iter s2 ;;
  x6 <- it_size_hint x5 ;;
  _ <- assert (hint_eqb x6 hint) ;;
  Ret tt).
Proof. vm_compute. reflexivity. Qed.
(** src/test/iterator/lower_bounded_set.rs:26-37 *)
Example test_iterator_lower_bounded_set_nth : passes (
  x1 <- union (VRangeFrom (mkRangeFrom (lit I32 4))) (VBS bs_empty : value (mint I32)) ;;
  let s1 := x1 in
  x2 <- into_iter s1 ;;
  let i1 := x2 in
  x3 <- it_nth i1 1 ;;
  let i1 := snd x3 in
  _ <- assert (opt_eqb (fst x3) (Some 5)) ;;
  x4 <- it_nth i1 2 ;;
  let i1 := snd x4 in
  _ <- assert (opt_eqb (fst x4) (Some 8)) ;;
  x5 <- union (VRange (mkRange (lit I32 1) (lit I32 2))) (VRangeFrom (mkRangeFrom (lit I32 4))) ;;
  let s2 := x5 in
  x6 <- into_iter s2 ;;
  let i2 := x6 in
  x7 <- it_nth i2 1 ;;
  let i2 := snd x7 in
  _ <- assert (opt_eqb (fst x7) (Some 4)) ;;
  x8 <- it_nth i2 2 ;;
  let i2 := snd x8 in
  _ <- assert (opt_eqb (fst x8) (Some 7)) ;;
  Ret tt).
Proof. vm_compute. reflexivity. Qed.
(** src/test/iterator/lower_bounded_set.rs:39-46 *)
Example test_iterator_lower_bounded_set_min : passes (
  x1 <- union (VRangeFrom (mkRangeFrom (lit I32 4))) (VBS bs_empty : value (mint I32)) ;;
  let s1 := x1 in
  x2 <- into_iter s1 ;;
  x3 <- it_min x2 ;;
  _ <- assert (opt_eqb x3 (Some 4)) ;;
  x4 <- union (VRange (mkRange (lit I32 1) (lit I32 2))) (VRangeFrom (mkRangeFrom (lit I32 4))) ;;
  let s2 := x4 in
  x5 <- into_iter s2 ;;
  x6 <- it_min x5 ;;
  _ <- assert (opt_eqb x6 (Some 1)) ;;
  Ret tt).
Proof. vm_compute. reflexivity. Qed.
(** src/test/union/bounded_range.rs:3-20 *)
Example test_union_bounded_range_range : passes (
  x1 <- intersection (VRange (mkRange (lit I32 1) (lit I32 3))) (VRangeFull mkRangeFull : value (mint I32)) ;;
  let r := x1 in
  x2 <- union r (VRange (mkRange (lit I32 5) (lit I32 7))) ;;
  let u := x2 in
  x3 <- into_iter u ;;
  x4 <- it_collect x3 ;;
  _ <- assert (list_eqb x4 [1; 2; 5; 6]) ;;
  _ <- assert (negb (contains u (lit I32 0))) ;;
  _ <- assert (contains u (lit I32 1)) ;;
  _ <- assert (contains u (lit I32 2)) ;;
  _ <- assert (negb (contains u (lit I32 3))) ;;
  _ <- assert (negb (contains u (lit I32 4))) ;;
  _ <- assert (contains u (lit I32 5)) ;;
  _ <- assert (contains u (lit I32 6)) ;;
  _ <- assert (negb (contains u (lit I32 7))) ;;
  _ <- assert (negb (contains u (lit I32 8))) ;;
  _ <- assert (negb (is_empty u)) ;;
  x5 <- intersection (VRange (mkRange (lit I32 1) (lit I32 1))) (VRangeFull mkRangeFull : value (mint I32)) ;;
  let r2 := x5 in
  x6 <- union r2 (VRange (mkRange (lit I32 1) (lit I32 1))) ;;
  _ <- assert (is_empty x6) ;;
  Ret tt).
Proof. vm_compute. reflexivity. Qed.
(** src/test/union/bounded_range.rs:22-38 *)
Example test_union_bounded_range_range_from : passes (
  let r := (value_of_inner (to_inner (VRange (mkRange (lit I32 1) (lit I32 5))))) in
  x1 <- union r (VRangeFrom (mkRangeFrom (lit I32 2))) ;;
  let u := x1 in
  x2 <- into_iter u ;;
  x3 <- it_take 3 x2 ;;
  _ <- assert (list_eqb x3 [1; 2; 3]) ;;
  _ <- assert (negb (contains u (lit I32 0))) ;;
  _ <- assert (contains u (lit I32 1)) ;;
  _ <- assert (contains u (lit I32 2)) ;;
  _ <- assert (contains u (lit I32 3)) ;;
  _ <- assert (contains u (lit I32 4)) ;;
  _ <- assert (contains u (lit I32 5)) ;;
  _ <- assert (contains u (lit I32 6)) ;;
  _ <- assert (negb (is_empty u)) ;;
  Ret tt).
Proof. vm_compute. reflexivity. Qed.
(** src/test/union/bounded_range.rs:40-54 *)
Example test_union_bounded_range_range_full : passes (
  x1 <- intersection (VRange (mkRange (lit I32 1) (lit I32 3))) (VRange (mkRange (lit I32 4) (lit I32 5))) ;;
  let r := x1 in
  x2 <- union r (VRangeFull mkRangeFull : value (mint I32)) ;;
  let u := x2 in
  _ <- assert (contains u (lit I32 0)) ;;
  _ <- assert (contains u (lit I32 1)) ;;
  _ <- assert (contains u (lit I32 2)) ;;
  _ <- assert (contains u (lit I32 3)) ;;
  _ <- assert (contains u (lit I32 4)) ;;
  _ <- assert (contains u (lit I32 5)) ;;
  _ <- assert (contains u (lit I32 6)) ;;
  _ <- assert (negb (is_empty u)) ;;
  x3 <- intersection (VRange (mkRange (lit I32 1) (lit I32 3))) (VRange (mkRange (lit I32 4) (lit I32 5))) ;;
  let empty_range := x3 in
  x4 <- union empty_range (VRangeFull mkRangeFull : value (mint I32)) ;;
  _ <- assert (negb (is_empty x4)) ;;
  Ret tt).
Proof. vm_compute. reflexivity. Qed.
(** src/test/union/bounded_range.rs:56-76 *)
Example test_union_bounded_range_range_inclusive : passes (
  x1 <- intersection (VRange (mkRange (lit I32 1) (lit I32 3))) (VRangeFull mkRangeFull : value (mint I32)) ;;
  let r := x1 in
  x2 <- union r (VRangeInclusive (mkRangeInclusive (lit I32 5) (lit I32 7) false)) ;;
  let u := x2 in
  x3 <- into_iter u ;;
  x4 <- it_collect x3 ;;
  _ <- assert (list_eqb x4 [1; 2; 5; 6; 7]) ;;
  _ <- assert (negb (contains u (lit I32 0))) ;;
  _ <- assert (contains u (lit I32 1)) ;;
  _ <- assert (contains u (lit I32 2)) ;;
  _ <- assert (negb (contains u (lit I32 3))) ;;
  _ <- assert (negb (contains u (lit I32 4))) ;;
  _ <- assert (contains u (lit I32 5)) ;;
  _ <- assert (contains u (lit I32 6)) ;;
  _ <- assert (contains u (lit I32 7)) ;;
  _ <- assert (negb (contains u (lit I32 8))) ;;
  _ <- assert (negb (is_empty u)) ;;
  x5 <- intersection (VRange (mkRange (lit I32 1) (lit I32 1))) (VRangeFull mkRangeFull : value (mint I32)) ;;
  let r2 := x5 in
  x6 <- union r2 (VRangeInclusive (mkRangeInclusive (lit I32 1) (lit I32 0) false)) ;;
  _ <- assert (is_empty x6) ;;
  Ret tt).
Proof. vm_compute. reflexivity. Qed.
(** src/test/union/bounded_range.rs:78-92 *)
Example test_union_bounded_range_range_to : passes (
  x1 <- intersection (VRange (mkRange (lit I32 1) (lit I32 3))) (VRangeFull mkRangeFull : value (mint I32)) ;;
  let r := x1 in
  x2 <- union r (VRangeTo (mkRangeTo (lit I32 2))) ;;
  let u := x2 in
  _ <- assert (contains u (lit I32 0)) ;;
  _ <- assert (contains u (lit I32 1)) ;;
  _ <- assert (contains u (lit I32 2)) ;;
  _ <- assert (negb (contains u (lit I32 3))) ;;
  _ <- assert (negb (contains u (lit I32 4))) ;;
  _ <- assert (negb (contains u (lit I32 5))) ;;
  _ <- assert (negb (contains u (lit I32 6))) ;;
  _ <- assert (negb (contains u (lit I32 7))) ;;
  _ <- assert (negb (contains u (lit I32 8))) ;;
  _ <- assert (negb (is_empty u)) ;;
  Ret tt).
Proof. vm_compute. reflexivity. Qed.
(** src/test/union/bounded_range.rs:94-108 *)
Example test_union_bounded_range_range_to_inclusive : passes (
  x1 <- intersection (VRange (mkRange (lit I32 1) (lit I32 3))) (VRangeFull mkRangeFull : value (mint I32)) ;;
  let r := x1 in
  x2 <- union r (VRangeToInclusive (mkRangeToInclusive (lit I32 4))) ;;
  let u := x2 in
  _ <- assert (contains u (lit I32 0)) ;;
  _ <- assert (contains u (lit I32 1)) ;;
  _ <- assert (contains u (lit I32 2)) ;;
  _ <- assert (contains u (lit I32 3)) ;;
  _ <- assert (contains u (lit I32 4)) ;;
  _ <- assert (negb (contains u (lit I32 5))) ;;
  _ <- assert (negb (contains u (lit I32 6))) ;;
  _ <- assert (negb (contains u (lit I32 7))) ;;
  _ <- assert (negb (contains u (lit I32 8))) ;;
  _ <- assert (negb (is_empty u)) ;;
  Ret tt).
Proof. vm_compute. reflexivity. Qed.
(** src/test/union/bounded_range.rs:110-128 *)
Example test_union_bounded_range_bounded_range : passes (
  x1 <- intersection (VRange (mkRange (lit I32 1) (lit I32 3))) (VRangeFull mkRangeFull : value (mint I32)) ;;
  let r1 := x1 in
  x2 <- intersection (VRange (mkRange (lit I32 5) (lit I32 7))) (VRangeFull mkRangeFull : value (mint I32)) ;;
  let r2 := x2 in
  x3 <- union r1 r2 ;;
  let u := x3 in
  x4 <- into_iter u ;;
  x5 <- it_collect x4 ;;
  _ <- assert (list_eqb x5 [1; 2; 5; 6]) ;;
  _ <- assert (negb (contains u (lit I32 0))) ;;
  _ <- assert (contains u (lit I32 1)) ;;
  _ <- assert (contains u (lit I32 2)) ;;
  _ <- assert (negb (contains u (lit I32 3))) ;;
  _ <- assert (negb (contains u (lit I32 4))) ;;
  _ <- assert (contains u (lit I32 5)) ;;
  _ <- assert (contains u (lit I32 6)) ;;
  _ <- assert (negb (contains u (lit I32 7))) ;;
  _ <- assert (negb (contains u (lit I32 8))) ;;
  _ <- assert (negb (is_empty u)) ;;
  x6 <- intersection (VRange (mkRange (lit I32 1) (lit I32 1))) (VRangeFull mkRangeFull : value (mint I32)) ;;
  let r3 := x6 in
  x7 <- union r3 (VRange (mkRange (lit I32 1) (lit I32 1))) ;;
  _ <- assert (is_empty x7) ;;
  Ret tt).
Proof. vm_compute. reflexivity. Qed.
(** src/test/union/bounded_range.rs:130-147 *)
Example test_union_bounded_range_lower_bounded_range : passes (
  let r1 := (value_of_inner (to_inner (VRange (mkRange (lit I32 1) (lit I32 5))))) in
  x1 <- intersection (VRangeFull mkRangeFull : value (mint I32)) (VRangeFrom (mkRangeFrom (lit I32 2))) ;;
  let r2 := x1 in
  x2 <- union r1 r2 ;;
  let u := x2 in
  x3 <- into_iter u ;;
  x4 <- it_take 5 x3 ;;
  _ <- assert (list_eqb x4 [1; 2; 3; 4; 5]) ;;
  _ <- assert (negb (contains u (lit I32 0))) ;;
  _ <- assert (contains u (lit I32 1)) ;;
  _ <- assert (contains u (lit I32 2)) ;;
  _ <- assert (contains u (lit I32 3)) ;;
  _ <- assert (contains u (lit I32 4)) ;;
  _ <- assert (contains u (lit I32 5)) ;;
  _ <- assert (contains u (lit I32 6)) ;;
  _ <- assert (negb (is_empty u)) ;;
  Ret tt).
Proof. vm_compute. reflexivity. Qed.
(** src/test/union/bounded_range.rs:149-164 *)
Example test_union_bounded_range_upper_bounded_range : passes (
  x1 <- intersection (VRange (mkRange (lit I32 1) (lit I32 3))) (VRangeFull mkRangeFull : value (mint I32)) ;;
  let r1 := x1 in
  x2 <- intersection (VRangeTo (mkRangeTo (lit I32 1))) (VRangeFull mkRangeFull : value (mint I32)) ;;
  let r2 := x2 in
  x3 <- union r1 r2 ;;
  let u := x3 in
  _ <- assert (contains u (lit I32 0)) ;;
  _ <- assert (contains u (lit I32 1)) ;;
  _ <- assert (contains u (lit I32 2)) ;;
  _ <- assert (negb (contains u (lit I32 3))) ;;
  _ <- assert (negb (contains u (lit I32 4))) ;;
  _ <- assert (negb (contains u (lit I32 5))) ;;
  _ <- assert (negb (contains u (lit I32 6))) ;;
  _ <- assert (negb (contains u (lit I32 7))) ;;
  _ <- assert (negb (contains u (lit I32 8))) ;;
  _ <- assert (negb (is_empty u)) ;;
  Ret tt).
Proof. vm_compute. reflexivity. Qed.
(** src/test/union/bounded_range.rs:166-181 *)
Example test_union_bounded_range_unbounded_range : passes (
  x1 <- intersection (VRange (mkRange (lit I32 1) (lit I32 3))) (VRangeFull mkRangeFull : value (mint I32)) ;;
  let r := x1 in
  x2 <- intersection (VRangeFull mkRangeFull : value (mint I32)) (VRangeFull mkRangeFull : value (mint I32)) ;;
  let ur := x2 in
  x3 <- union r ur ;;
  let u := x3 in
  _ <- assert (contains u (lit I32 0)) ;;
  _ <- assert (contains u (lit I32 1)) ;;
  _ <- assert (contains u (lit I32 2)) ;;
  _ <- assert (contains u (lit I32 3)) ;;
  _ <- assert (contains u (lit I32 4)) ;;
  _ <- assert (contains u (lit I32 5)) ;;
  _ <- assert (contains u (lit I32 6)) ;;
  _ <- assert (negb (is_empty u)) ;;
  x4 <- intersection (VRange (mkRange (lit I32 1) (lit I32 3))) (VRange (mkRange (lit I32 4) (lit I32 5))) ;;
  let empty_range := x4 in
  x5 <- union empty_range ur ;;
  _ <- assert (negb (is_empty x5)) ;;
  Ret tt).
Proof. vm_compute. reflexivity. Qed.
(** src/test/union/bounded_range.rs:183-188 *)
Example test_union_bounded_range_empty_range : passes (
  x1 <- intersection (VRange (mkRange (lit I32 1) (lit I32 3))) (VRangeFull mkRangeFull : value (mint I32)) ;;
  let r := x1 in
  x2 <- union r (VEmpty mkEmptyRange : value (mint I32)) ;;
  let u := x2 in
  _ <- assert (value_eqb r u) ;;
  Ret tt).
Proof. vm_compute. reflexivity. Qed.
(** src/test/union/bounded_range.rs:190-212 *)
Example test_union_bounded_range_bounded_set : passes (
  x1 <- intersection (VRange (mkRange (lit I32 1) (lit I32 3))) (VRangeFull mkRangeFull : value (mint I32)) ;;
  let r := x1 in
  x2 <- union (VRange (mkRange (lit I32 5) (lit I32 7))) (VRange (mkRange (lit I32 2) (lit I32 4))) ;;
  let s := x2 in
  x3 <- union r s ;;
  let u := x3 in
  x4 <- into_iter u ;;
  x5 <- it_collect x4 ;;
  _ <- assert (list_eqb x5 [1; 2; 3; 5; 6]) ;;
  _ <- assert (negb (contains u (lit I32 0))) ;;
  _ <- assert (contains u (lit I32 1)) ;;
  _ <- assert (contains u (lit I32 2)) ;;
  _ <- assert (contains u (lit I32 3)) ;;
  _ <- assert (negb (contains u (lit I32 4))) ;;
  _ <- assert (contains u (lit I32 5)) ;;
  _ <- assert (contains u (lit I32 6)) ;;
  _ <- assert (negb (contains u (lit I32 7))) ;;
  _ <- assert (negb (contains u (lit I32 8))) ;;
  _ <- assert (negb (is_empty u)) ;;
  x6 <- union (VRange (mkRange (lit I32 1) (lit I32 1))) (VRange (mkRange (lit I32 2) (lit I32 2))) ;;
  let empty_set := x6 in
  x7 <- intersection (VRange (mkRange (lit I32 1) (lit I32 3))) (VRange (mkRange (lit I32 4) (lit I32 5))) ;;
  let empty_range := x7 in
  x8 <- union empty_range empty_set ;;
  _ <- assert (is_empty x8) ;;
  Ret tt).
Proof. vm_compute. reflexivity. Qed.
(** src/test/union/bounded_range.rs:214-231 *)
Example test_union_bounded_range_lower_bounded_set : passes (
  let r := (value_of_inner (to_inner (VRange (mkRange (lit I32 1) (lit I32 5))))) in
  x1 <- union (VRange (mkRange (lit I32 2) (lit I32 3))) (VRangeFrom (mkRangeFrom (lit I32 5))) ;;
  let s := x1 in
  x2 <- union r s ;;
  let u := x2 in
  x3 <- into_iter u ;;
  x4 <- it_take 5 x3 ;;
  _ <- assert (list_eqb x4 [1; 2; 3; 4; 5]) ;;
  _ <- assert (negb (contains u (lit I32 0))) ;;
  _ <- assert (contains u (lit I32 1)) ;;
  _ <- assert (contains u (lit I32 2)) ;;
  _ <- assert (contains u (lit I32 3)) ;;
  _ <- assert (contains u (lit I32 4)) ;;
  _ <- assert (contains u (lit I32 5)) ;;
  _ <- assert (contains u (lit I32 6)) ;;
  _ <- assert (negb (is_empty u)) ;;
  Ret tt).
Proof. vm_compute. reflexivity. Qed.
(** src/test/union/bounded_range.rs:233-248 *)
Example test_union_bounded_range_upper_bounded_set : passes (
  x1 <- intersection (VRange (mkRange (lit I32 1) (lit I32 3))) (VRangeFull mkRangeFull : value (mint I32)) ;;
  let r := x1 in
  x2 <- union (VRangeTo (mkRangeTo (lit I32 1))) (VRange (mkRange (lit I32 4) (lit I32 5))) ;;
  let s := x2 in
  x3 <- union r s ;;
  let u := x3 in
  _ <- assert (contains u (lit I32 0)) ;;
  _ <- assert (contains u (lit I32 1)) ;;
  _ <- assert (contains u (lit I32 2)) ;;
  _ <- assert (negb (contains u (lit I32 3))) ;;
  _ <- assert (contains u (lit I32 4)) ;;
  _ <- assert (negb (contains u (lit I32 5))) ;;
  _ <- assert (negb (contains u (lit I32 6))) ;;
  _ <- assert (negb (contains u (lit I32 7))) ;;
  _ <- assert (negb (contains u (lit I32 8))) ;;
  _ <- assert (negb (is_empty u)) ;;
  Ret tt).
Proof. vm_compute. reflexivity. Qed.
(** src/test/union/bounded_range.rs:250-263 *)
Example test_union_bounded_range_unbounded_set : passes (
  x1 <- intersection (VRange (mkRange (lit I32 1) (lit I32 3))) (VRangeFull mkRangeFull : value (mint I32)) ;;
  let r := x1 in
  x2 <- union (VRangeTo (mkRangeTo (lit I32 2))) (VRangeFrom (mkRangeFrom (lit I32 5))) ;;
  let s := x2 in
  x3 <- union r s ;;
  let u := x3 in
  _ <- assert (contains u (lit I32 0)) ;;
  _ <- assert (contains u (lit I32 1)) ;;
  _ <- assert (contains u (lit I32 2)) ;;
  _ <- assert (negb (contains u (lit I32 3))) ;;
  _ <- assert (negb (contains u (lit I32 4))) ;;
  _ <- assert (contains u (lit I32 5)) ;;
  _ <- assert (contains u (lit I32 6)) ;;
  _ <- assert (negb (is_empty u)) ;;
  Ret tt).
Proof. vm_compute. reflexivity. Qed.
(** src/test/union/bounded_set.rs:3-17 *)
Example test_union_bounded_set_range : passes (
  x1 <- union (VRange (mkRange (lit I32 1) (lit I32 3))) (VRange (mkRange (lit I32 4) (lit I32 5))) ;;
  let s := x1 in
  x2 <- union s (VRange (mkRange (lit I32 4) (lit I32 6))) ;;
  let u := x2 in
  x3 <- into_iter u ;;
  x4 <- it_collect x3 ;;
  _ <- assert (list_eqb x4 [1; 2; 4; 5]) ;;
  _ <- assert (negb (contains u (lit I32 0))) ;;
  _ <- assert (contains u (lit I32 1)) ;;
  _ <- assert (contains u (lit I32 2)) ;;
  _ <- assert (negb (contains u (lit I32 3))) ;;
  _ <- assert (contains u (lit I32 4)) ;;
  _ <- assert (contains u (lit I32 5)) ;;
  _ <- assert (negb (contains u (lit I32 6))) ;;
  _ <- assert (negb (is_empty u)) ;;
  x5 <- union (VRange (mkRange (lit I32 1) (lit I32 1))) (VRange (mkRange (lit I32 2) (lit I32 2))) ;;
  x6 <- union x5 (VRange (mkRange (lit I32 0) (lit I32 0))) ;;
  _ <- assert (is_empty x6) ;;
  Ret tt).
Proof. vm_compute. reflexivity. Qed.
(** src/test/union/bounded_set.rs:19-35 *)
Example test_union_bounded_set_range_from : passes (
  x1 <- union (VRange (mkRange (lit I32 1) (lit I32 3))) (VRange (mkRange (lit I32 4) (lit I32 5))) ;;
  let s := x1 in
  x2 <- union s (VRangeFrom (mkRangeFrom (lit I32 3))) ;;
  let u := x2 in
  x3 <- into_iter u ;;
  x4 <- it_take 5 x3 ;;
  _ <- assert (list_eqb x4 [1; 2; 3; 4; 5]) ;;
  _ <- assert (negb (contains u (lit I32 0))) ;;
  _ <- assert (contains u (lit I32 1)) ;;
  _ <- assert (contains u (lit I32 2)) ;;
  _ <- assert (contains u (lit I32 3)) ;;
  _ <- assert (contains u (lit I32 4)) ;;
  _ <- assert (contains u (lit I32 5)) ;;
  _ <- assert (contains u (lit I32 6)) ;;
  _ <- assert (negb (is_empty u)) ;;
  Ret tt).
Proof. vm_compute. reflexivity. Qed.
(** src/test/union/bounded_set.rs:37-49 *)
Example test_union_bounded_set_range_full : passes (
  x1 <- union (VRange (mkRange (lit I32 1) (lit I32 3))) (VRange (mkRange (lit I32 4) (lit I32 5))) ;;
  let s := x1 in
  x2 <- union s (VRangeFull mkRangeFull : value (mint I32)) ;;
  let u := x2 in
  _ <- assert (contains u (lit I32 0)) ;;
  _ <- assert (contains u (lit I32 1)) ;;
  _ <- assert (contains u (lit I32 2)) ;;
  _ <- assert (contains u (lit I32 3)) ;;
  _ <- assert (contains u (lit I32 4)) ;;
  _ <- assert (contains u (lit I32 5)) ;;
  _ <- assert (contains u (lit I32 6)) ;;
  _ <- assert (negb (is_empty u)) ;;
  Ret tt).
Proof. vm_compute. reflexivity. Qed.
(** src/test/union/bounded_set.rs:51-68 *)
Example test_union_bounded_set_range_inclusive : passes (
  x1 <- union (VRange (mkRange (lit I32 1) (lit I32 3))) (VRange (mkRange (lit I32 4) (lit I32 5))) ;;
  let s := x1 in
  x2 <- union s (VRangeInclusive (mkRangeInclusive (lit I32 4) (lit I32 6) false)) ;;
  let u := x2 in
  x3 <- into_iter u ;;
  x4 <- it_collect x3 ;;
  _ <- assert (list_eqb x4 [1; 2; 4; 5; 6]) ;;
  _ <- assert (negb (contains u (lit I32 0))) ;;
  _ <- assert (contains u (lit I32 1)) ;;
  _ <- assert (contains u (lit I32 2)) ;;
  _ <- assert (negb (contains u (lit I32 3))) ;;
  _ <- assert (contains u (lit I32 4)) ;;
  _ <- assert (contains u (lit I32 5)) ;;
  _ <- assert (contains u (lit I32 6)) ;;
  _ <- assert (negb (is_empty u)) ;;
  x5 <- union (VRange (mkRange (lit I32 1) (lit I32 1))) (VRange (mkRange (lit I32 2) (lit I32 2))) ;;
  x6 <- union x5 (VRangeInclusive (mkRangeInclusive (lit I32 1) (lit I32 0) false)) ;;
  _ <- assert (is_empty x6) ;;
  Ret tt).
Proof. vm_compute. reflexivity. Qed.
(** src/test/union/bounded_set.rs:70-82 *)
Example test_union_bounded_set_range_to : passes (
  x1 <- union (VRange (mkRange (lit I32 1) (lit I32 3))) (VRange (mkRange (lit I32 4) (lit I32 5))) ;;
  let s := x1 in
  x2 <- union s (VRangeTo (mkRangeTo (lit I32 2))) ;;
  let u := x2 in
  _ <- assert (contains u (lit I32 0)) ;;
  _ <- assert (contains u (lit I32 1)) ;;
  _ <- assert (contains u (lit I32 2)) ;;
  _ <- assert (negb (contains u (lit I32 3))) ;;
  _ <- assert (contains u (lit I32 4)) ;;
  _ <- assert (negb (contains u (lit I32 5))) ;;
  _ <- assert (negb (contains u (lit I32 6))) ;;
  _ <- assert (negb (is_empty u)) ;;
  Ret tt).
Proof. vm_compute. reflexivity. Qed.
(** src/test/union/bounded_set.rs:84-96 *)
Example test_union_bounded_set_range_to_inclusive : passes (
  x1 <- union (VRange (mkRange (lit I32 1) (lit I32 3))) (VRange (mkRange (lit I32 4) (lit I32 5))) ;;
  let s := x1 in
  x2 <- union s (VRangeToInclusive (mkRangeToInclusive (lit I32 3))) ;;
  let u := x2 in
  _ <- assert (contains u (lit I32 0)) ;;
  _ <- assert (contains u (lit I32 1)) ;;
  _ <- assert (contains u (lit I32 2)) ;;
  _ <- assert (contains u (lit I32 3)) ;;
  _ <- assert (contains u (lit I32 4)) ;;
  _ <- assert (negb (contains u (lit I32 5))) ;;
  _ <- assert (negb (contains u (lit I32 6))) ;;
  _ <- assert (negb (is_empty u)) ;;
  Ret tt).
Proof. vm_compute. reflexivity. Qed.
(** src/test/union/bounded_set.rs:98-114 *)
Example test_union_bounded_set_bounded_range : passes (
  x1 <- union (VRange (mkRange (lit I32 1) (lit I32 3))) (VRange (mkRange (lit I32 4) (lit I32 5))) ;;
  let s := x1 in
  x2 <- intersection (VRange (mkRange (lit I32 4) (lit I32 6))) (VRangeFull mkRangeFull : value (mint I32)) ;;
  let r := x2 in
  x3 <- union s r ;;
  let u := x3 in
  x4 <- into_iter u ;;
  x5 <- it_collect x4 ;;
  _ <- assert (list_eqb x5 [1; 2; 4; 5]) ;;
  _ <- assert (negb (contains u (lit I32 0))) ;;
  _ <- assert (contains u (lit I32 1)) ;;
  _ <- assert (contains u (lit I32 2)) ;;
  _ <- assert (negb (contains u (lit I32 3))) ;;
  _ <- assert (contains u (lit I32 4)) ;;
  _ <- assert (contains u (lit I32 5)) ;;
  _ <- assert (negb (contains u (lit I32 6))) ;;
  _ <- assert (negb (is_empty u)) ;;
  x6 <- intersection (VRange (mkRange (lit I32 0) (lit I32 0))) (VRangeFull mkRangeFull : value (mint I32)) ;;
  let empty_range := x6 in
  x7 <- union (VRange (mkRange (lit I32 1) (lit I32 1))) (VRange (mkRange (lit I32 2) (lit I32 2))) ;;
  x8 <- union x7 empty_range ;;
  _ <- assert (is_empty x8) ;;
  Ret tt).
Proof. vm_compute. reflexivity. Qed.
(** src/test/union/bounded_set.rs:116-133 *)
Example test_union_bounded_set_lower_bounded_range : passes (
  x1 <- union (VRange (mkRange (lit I32 1) (lit I32 3))) (VRange (mkRange (lit I32 4) (lit I32 5))) ;;
  let s := x1 in
  x2 <- intersection (VRangeFrom (mkRangeFrom (lit I32 3))) (VRangeFull mkRangeFull : value (mint I32)) ;;
  let r := x2 in
  x3 <- union s r ;;
  let u := x3 in
  x4 <- into_iter u ;;
  x5 <- it_take 5 x4 ;;
  _ <- assert (list_eqb x5 [1; 2; 3; 4; 5]) ;;
  _ <- assert (negb (contains u (lit I32 0))) ;;
  _ <- assert (contains u (lit I32 1)) ;;
  _ <- assert (contains u (lit I32 2)) ;;
  _ <- assert (contains u (lit I32 3)) ;;
  _ <- assert (contains u (lit I32 4)) ;;
  _ <- assert (contains u (lit I32 5)) ;;
  _ <- assert (contains u (lit I32 6)) ;;
  _ <- assert (negb (is_empty u)) ;;
  Ret tt).
Proof. vm_compute. reflexivity. Qed.
(** src/test/union/bounded_set.rs:135-148 *)
Example test_union_bounded_set_upper_bounded_range : passes (
  x1 <- union (VRange (mkRange (lit I32 1) (lit I32 3))) (VRange (mkRange (lit I32 4) (lit I32 5))) ;;
  let s := x1 in
  x2 <- intersection (VRangeTo (mkRangeTo (lit I32 2))) (VRangeFull mkRangeFull : value (mint I32)) ;;
  let r := x2 in
  x3 <- union s r ;;
  let u := x3 in
  _ <- assert (contains u (lit I32 0)) ;;
  _ <- assert (contains u (lit I32 1)) ;;
  _ <- assert (contains u (lit I32 2)) ;;
  _ <- assert (negb (contains u (lit I32 3))) ;;
  _ <- assert (contains u (lit I32 4)) ;;
  _ <- assert (negb (contains u (lit I32 5))) ;;
  _ <- assert (negb (contains u (lit I32 6))) ;;
  _ <- assert (negb (is_empty u)) ;;
  Ret tt).
Proof. vm_compute. reflexivity. Qed.
(** src/test/union/bounded_set.rs:150-163 *)
Example test_union_bounded_set_unbounded_range : passes (
  x1 <- union (VRange (mkRange (lit I32 1) (lit I32 3))) (VRange (mkRange (lit I32 4) (lit I32 5))) ;;
  let s := x1 in
  let r := (value_of_inner (to_inner (VRangeFull mkRangeFull : value (mint I32)))) in
  x2 <- union s r ;;
  let u := x2 in
  _ <- assert (contains u (lit I32 0)) ;;
  _ <- assert (contains u (lit I32 1)) ;;
  _ <- assert (contains u (lit I32 2)) ;;
  _ <- assert (contains u (lit I32 3)) ;;
  _ <- assert (contains u (lit I32 4)) ;;
  _ <- assert (contains u (lit I32 5)) ;;
  _ <- assert (contains u (lit I32 6)) ;;
  _ <- assert (negb (is_empty u)) ;;
  Ret tt).
Proof. vm_compute. reflexivity. Qed.
(** src/test/union/bounded_set.rs:165-170 *)
Example test_union_bounded_set_empty_range : passes (
  x1 <- union (VRange (mkRange (lit I32 1) (lit I32 3))) (VRange (mkRange (lit I32 4) (lit I32 5))) ;;
  let s := x1 in
  x2 <- union s (VEmpty mkEmptyRange : value (mint I32)) ;;
  let u := x2 in
  _ <- assert (value_eqb s u) ;;
  Ret tt).
Proof. vm_compute. reflexivity. Qed.
(** src/test/union/bounded_set.rs:172-191 *)
Example test_union_bounded_set_bounded_set : passes (
  x1 <- union (VRange (mkRange (lit I32 1) (lit I32 3))) (VRange (mkRange (lit I32 4) (lit I32 5))) ;;
  let s1 := x1 in
  x2 <- union (VRange (mkRange (lit I32 2) (lit I32 4))) (VRange (mkRange (lit I32 5) (lit I32 6))) ;;
  let s2 := x2 in
  x3 <- union s1 s2 ;;
  let u := x3 in
  x4 <- into_iter u ;;
  x5 <- it_collect x4 ;;
  _ <- assert (list_eqb x5 [1; 2; 3; 4; 5]) ;;
  _ <- assert (negb (contains u (lit I32 0))) ;;
  _ <- assert (contains u (lit I32 1)) ;;
  _ <- assert (contains u (lit I32 2)) ;;
  _ <- assert (contains u (lit I32 3)) ;;
  _ <- assert (contains u (lit I32 4)) ;;
  _ <- assert (contains u (lit I32 5)) ;;
  _ <- assert (negb (contains u (lit I32 6))) ;;
  _ <- assert (negb (is_empty u)) ;;
  x6 <- union (VRange (mkRange (lit I32 0) (lit I32 0))) (VRange (mkRange (lit I32 1) (lit I32 1))) ;;
  let empty_set := x6 in
  x7 <- union empty_set empty_set ;;
  _ <- assert (is_empty x7) ;;
  Ret tt).
Proof. vm_compute. reflexivity. Qed.
(** src/test/union/bounded_set.rs:193-210 *)
Example test_union_bounded_set_lower_bounded_set : passes (
  x1 <- union (VRange (mkRange (lit I32 1) (lit I32 3))) (VRange (mkRange (lit I32 4) (lit I32 5))) ;;
  let s := x1 in
  x2 <- union (VRange (mkRange (lit I32 0) (lit I32 2))) (VRangeFrom (mkRangeFrom (lit I32 5))) ;;
  let s2 := x2 in
  x3 <- union s s2 ;;
  let u := x3 in
  x4 <- into_iter u ;;
  x5 <- it_take 5 x4 ;;
  _ <- assert (list_eqb x5 [0; 1; 2; 4; 5]) ;;
  _ <- assert (contains u (lit I32 0)) ;;
  _ <- assert (contains u (lit I32 1)) ;;
  _ <- assert (contains u (lit I32 2)) ;;
  _ <- assert (negb (contains u (lit I32 3))) ;;
  _ <- assert (contains u (lit I32 4)) ;;
  _ <- assert (contains u (lit I32 5)) ;;
  _ <- assert (contains u (lit I32 6)) ;;
  _ <- assert (negb (is_empty u)) ;;
  Ret tt).
Proof. vm_compute. reflexivity. Qed.
(** src/test/union/bounded_set.rs:212-225 *)
Example test_union_bounded_set_upper_bounded_set : passes (
  x1 <- union (VRange (mkRange (lit I32 1) (lit I32 3))) (VRange (mkRange (lit I32 4) (lit I32 5))) ;;
  let s := x1 in
  x2 <- union (VRangeTo (mkRangeTo (lit I32 2))) (VRange (mkRange (lit I32 5) (lit I32 6))) ;;
  let s2 := x2 in
  x3 <- union s s2 ;;
  let u := x3 in
  _ <- assert (contains u (lit I32 0)) ;;
  _ <- assert (contains u (lit I32 1)) ;;
  _ <- assert (contains u (lit I32 2)) ;;
  _ <- assert (negb (contains u (lit I32 3))) ;;
  _ <- assert (contains u (lit I32 4)) ;;
  _ <- assert (contains u (lit I32 5)) ;;
  _ <- assert (negb (contains u (lit I32 6))) ;;
  _ <- assert (negb (is_empty u)) ;;
  Ret tt).
Proof. vm_compute. reflexivity. Qed.
(** src/test/union/bounded_set.rs:227-240 *)
Example test_union_bounded_set_unbounded_set : passes (
  x1 <- union (VRange (mkRange (lit I32 1) (lit I32 3))) (VRange (mkRange (lit I32 4) (lit I32 5))) ;;
  let s := x1 in
  x2 <- union (VRangeTo (mkRangeTo (lit I32 2))) (VRangeFrom (mkRangeFrom (lit I32 6))) ;;
  let s2 := x2 in
  x3 <- union s s2 ;;
  let u := x3 in
  _ <- assert (contains u (lit I32 0)) ;;
  _ <- assert (contains u (lit I32 1)) ;;
  _ <- assert (contains u (lit I32 2)) ;;
  _ <- assert (negb (contains u (lit I32 3))) ;;
  _ <- assert (contains u (lit I32 4)) ;;
  _ <- assert (negb (contains u (lit I32 5))) ;;
  _ <- assert (contains u (lit I32 6)) ;;
  _ <- assert (negb (is_empty u)) ;;
  Ret tt).
Proof. vm_compute. reflexivity. Qed.
(** src/test/union/empty_range.rs:3-8 *)
Example test_union_empty_range_range : passes (
  let r := (VRange (mkRange (lit I32 1) (lit I32 3))) in
  x1 <- union (VEmpty mkEmptyRange : value (mint I32)) r ;;
  let u := x1 in
  _ <- assert (value_eqb r u) ;;
  Ret tt).
Proof. vm_compute. reflexivity. Qed.
(** src/test/union/empty_range.rs:10-15 *)
Example test_union_empty_range_range_from : passes (
  let r := (VRangeFrom (mkRangeFrom (lit I32 1))) in
  x1 <- union (VEmpty mkEmptyRange : value (mint I32)) r ;;
  let u := x1 in
  _ <- assert (value_eqb r u) ;;
  Ret tt).
Proof. vm_compute. reflexivity. Qed.
(** src/test/union/empty_range.rs:17-22 *)
Example test_union_empty_range_range_full : passes (
  let r := (VRangeFull mkRangeFull : value (mint I32)) in
  x1 <- union (VEmpty mkEmptyRange : value (mint I32)) r ;;
  let u := x1 in
  _ <- assert (value_eqb r u) ;;
  Ret tt).
Proof. vm_compute. reflexivity. Qed.
(** src/test/union/empty_range.rs:24-29 *)
Example test_union_empty_range_range_inclusive : passes (
  let r := (VRangeInclusive (mkRangeInclusive (lit I32 1) (lit I32 3) false)) in
  x1 <- union (VEmpty mkEmptyRange : value (mint I32)) r ;;
  let u := x1 in
  _ <- assert (value_eqb r u) ;;
  Ret tt).
Proof. vm_compute. reflexivity. Qed.
(** src/test/union/empty_range.rs:31-36 *)
Example test_union_empty_range_range_to : passes (
  let r := (VRangeTo (mkRangeTo (lit I32 3))) in
  x1 <- union (VEmpty mkEmptyRange : value (mint I32)) r ;;
  let u := x1 in
  _ <- assert (value_eqb r u) ;;
  Ret tt).
Proof. vm_compute. reflexivity. Qed.
(** src/test/union/empty_range.rs:38-43 *)
Example test_union_empty_range_range_to_inclusive : passes (
  let r := (VRangeToInclusive (mkRangeToInclusive (lit I32 3))) in
  x1 <- union (VEmpty mkEmptyRange : value (mint I32)) r ;;
  let u := x1 in
  _ <- assert (value_eqb r u) ;;
  Ret tt).
Proof. vm_compute. reflexivity. Qed.
(** src/test/union/empty_range.rs:45-50 *)
Example test_union_empty_range_bounded_range : passes (
  let r := (value_of_inner (to_inner (VRange (mkRange (lit I32 1) (lit I32 3))))) in
  x1 <- union (VEmpty mkEmptyRange : value (mint I32)) r ;;
  let u := x1 in
  _ <- assert (value_eqb r u) ;;
  Ret tt).
Proof. vm_compute. reflexivity. Qed.
(** src/test/union/empty_range.rs:52-57 *)
Example test_union_empty_range_lower_bounded_range : passes (
  let r := (value_of_inner (to_inner (VRangeFrom (mkRangeFrom (lit I32 1))))) in
  x1 <- union (VEmpty mkEmptyRange : value (mint I32)) r ;;
  let u := x1 in
  _ <- assert (value_eqb r u) ;;
  Ret tt).
Proof. vm_compute. reflexivity. Qed.
(** src/test/union/empty_range.rs:59-64 *)
Example test_union_empty_range_upper_bounded_range : passes (
  let r := (value_of_inner (to_inner (VRange (mkRange (lit I32 1) (lit I32 3))))) in
  x1 <- union (VEmpty mkEmptyRange : value (mint I32)) r ;;
  let u := x1 in
  _ <- assert (value_eqb r u) ;;
  Ret tt).
Proof. vm_compute. reflexivity. Qed.
(** src/test/union/empty_range.rs:66-71 *)
Example test_union_empty_range_unbounded_range : passes (
  let r := (value_of_inner (to_inner (VRangeFull mkRangeFull : value (mint I32)))) in
  x1 <- union (VEmpty mkEmptyRange : value (mint I32)) r ;;
  let u := x1 in
  _ <- assert (value_eqb r u) ;;
  Ret tt).
Proof. vm_compute. reflexivity. Qed.
(** src/test/union/empty_range.rs:73-78 *)
Example test_union_empty_range_empty_range : passes (
  let r := (VEmpty mkEmptyRange : value (mint I32)) in
  x1 <- union (VEmpty mkEmptyRange : value (mint I32)) r ;;
  let u := x1 in
  _ <- assert (value_eqb r u) ;;
  Ret tt).
Proof. vm_compute. reflexivity. Qed.
(** src/test/union/empty_range.rs:80-85 *)
Example test_union_empty_range_bounded_set : passes (
  x1 <- union (VRange (mkRange (lit I32 1) (lit I32 3))) (VRangeInclusive (mkRangeInclusive (lit I32 2) (lit I32 5) false)) ;;
  let s := x1 in
  x2 <- union (VEmpty mkEmptyRange : value (mint I32)) s ;;
  let u := x2 in
  _ <- assert (value_eqb s u) ;;
  Ret tt).
Proof. vm_compute. reflexivity. Qed.
(** src/test/union/empty_range.rs:87-92 *)
Example test_union_empty_range_lower_bounded_set : passes (
  x1 <- union (VRange (mkRange (lit I32 1) (lit I32 3))) (VRangeFrom (mkRangeFrom (lit I32 2))) ;;
  let s := x1 in
  x2 <- union (VEmpty mkEmptyRange : value (mint I32)) s ;;
  let u := x2 in
  _ <- assert (value_eqb s u) ;;
  Ret tt).
Proof. vm_compute. reflexivity. Qed.
(** src/test/union/empty_range.rs:94-99 *)
Example test_union_empty_range_upper_bounded_set : passes (
  x1 <- union (VRangeTo (mkRangeTo (lit I32 3))) (VRangeInclusive (mkRangeInclusive (lit I32 2) (lit I32 5) false)) ;;
  let s := x1 in
  x2 <- union (VEmpty mkEmptyRange : value (mint I32)) s ;;
  let u := x2 in
  _ <- assert (value_eqb s u) ;;
  Ret tt).
Proof. vm_compute. reflexivity. Qed.
(** src/test/union/empty_range.rs:101-106 *)
Example test_union_empty_range_unbounded_set : passes (
  x1 <- union (VRangeTo (mkRangeTo (lit I32 3))) (VRangeFrom (mkRangeFrom (lit I32 2))) ;;
  let s := x1 in
  x2 <- union (VEmpty mkEmptyRange : value (mint I32)) s ;;
  let u := x2 in
  _ <- assert (value_eqb s u) ;;
  Ret tt).
Proof. vm_compute. reflexivity. Qed.
(** src/test/union/lower_bounded_range.rs:3-19 *)
Example test_union_lower_bounded_range_range : passes (
  let r := (value_of_inner (to_inner (VRangeFrom (mkRangeFrom (lit I32 3))))) in
  x1 <- union r (VRange (mkRange (lit I32 2) (lit I32 4))) ;;
  let u := x1 in
  x2 <- into_iter u ;;
  x3 <- it_take 5 x2 ;;
  _ <- assert (list_eqb x3 [2; 3; 4; 5; 6]) ;;
  _ <- assert (negb (contains u (lit I32 0))) ;;
  _ <- assert (negb (contains u (lit I32 1))) ;;
  _ <- assert (contains u (lit I32 2)) ;;
  _ <- assert (contains u (lit I32 3)) ;;
  _ <- assert (contains u (lit I32 4)) ;;
  _ <- assert (contains u (lit I32 5)) ;;
  _ <- assert (contains u (lit I32 6)) ;;
  _ <- assert (negb (is_empty u)) ;;
  Ret tt).
Proof. vm_compute. reflexivity. Qed.
(** src/test/union/lower_bounded_range.rs:21-37 *)
Example test_union_lower_bounded_range_range_from : passes (
  let r := (value_of_inner (to_inner (VRangeFrom (mkRangeFrom (lit I32 3))))) in
  x1 <- union r (VRangeFrom (mkRangeFrom (lit I32 4))) ;;
  let u := x1 in
  x2 <- into_iter u ;;
  x3 <- it_take 5 x2 ;;
  _ <- assert (list_eqb x3 [3; 4; 5; 6; 7]) ;;
  _ <- assert (negb (contains u (lit I32 0))) ;;
  _ <- assert (negb (contains u (lit I32 1))) ;;
  _ <- assert (negb (contains u (lit I32 2))) ;;
  _ <- assert (contains u (lit I32 3)) ;;
  _ <- assert (contains u (lit I32 4)) ;;
  _ <- assert (contains u (lit I32 5)) ;;
  _ <- assert (contains u (lit I32 6)) ;;
  _ <- assert (negb (is_empty u)) ;;
  Ret tt).
Proof. vm_compute. reflexivity. Qed.
(** src/test/union/lower_bounded_range.rs:39-51 *)
Example test_union_lower_bounded_range_range_full : passes (
  let r := (value_of_inner (to_inner (VRangeFrom (mkRangeFrom (lit I32 3))))) in
  x1 <- union r (VRangeFull mkRangeFull : value (mint I32)) ;;
  let u := x1 in
  _ <- assert (contains u (lit I32 0)) ;;
  _ <- assert (contains u (lit I32 1)) ;;
  _ <- assert (contains u (lit I32 2)) ;;
  _ <- assert (contains u (lit I32 3)) ;;
  _ <- assert (contains u (lit I32 4)) ;;
  _ <- assert (contains u (lit I32 5)) ;;
  _ <- assert (contains u (lit I32 6)) ;;
  _ <- assert (negb (is_empty u)) ;;
  Ret tt).
Proof. vm_compute. reflexivity. Qed.
(** src/test/union/lower_bounded_range.rs:53-69 *)
Example test_union_lower_bounded_range_range_inclusive : passes (
  let r := (value_of_inner (to_inner (VRangeFrom (mkRangeFrom (lit I32 3))))) in
  x1 <- union r (VRangeInclusive (mkRangeInclusive (lit I32 1) (lit I32 2) false)) ;;
  let u := x1 in
  x2 <- into_iter u ;;
  x3 <- it_take 5 x2 ;;
  _ <- assert (list_eqb x3 [1; 2; 3; 4; 5]) ;;
  _ <- assert (negb (contains u (lit I32 0))) ;;
  _ <- assert (contains u (lit I32 1)) ;;
  _ <- assert (contains u (lit I32 2)) ;;
  _ <- assert (contains u (lit I32 3)) ;;
  _ <- assert (contains u (lit I32 4)) ;;
  _ <- assert (contains u (lit I32 5)) ;;
  _ <- assert (contains u (lit I32 6)) ;;
  _ <- assert (negb (is_empty u)) ;;
  Ret tt).
Proof. vm_compute. reflexivity. Qed.
(** src/test/union/lower_bounded_range.rs:71-92 *)
Example test_union_lower_bounded_range_range_to : passes (
  let r := (value_of_inner (to_inner (VRangeFrom (mkRangeFrom (lit I32 3))))) in
  x1 <- union r (VRangeTo (mkRangeTo (lit I32 2))) ;;
  let u := x1 in
  _ <- assert (contains u (lit I32 0)) ;;
  _ <- assert (contains u (lit I32 1)) ;;
  _ <- assert (negb (contains u (lit I32 2))) ;;
  _ <- assert (contains u (lit I32 3)) ;;
  _ <- assert (contains u (lit I32 4)) ;;
  _ <- assert (contains u (lit I32 5)) ;;
  _ <- assert (contains u (lit I32 6)) ;;
  _ <- assert (negb (is_empty u)) ;;
  x2 <- union r (VRangeTo (mkRangeTo (lit I32 4))) ;;
  let full := x2 in
  _ <- assert (negb (is_empty full)) ;;
  _ <- assert (contains full (lit I32 0)) ;;
  _ <- assert (contains full (lit I32 1)) ;;
  _ <- assert (contains full (lit I32 2)) ;;
  _ <- assert (contains full (lit I32 3)) ;;
  _ <- assert (contains full (lit I32 4)) ;;
  _ <- assert (contains full (lit I32 5)) ;;
  Ret tt).
Proof. vm_compute. reflexivity. Qed.
(** src/test/union/lower_bounded_range.rs:94-115 *)
Example test_union_lower_bounded_range_range_to_inclusive : passes (
  let r := (value_of_inner (to_inner (VRangeFrom (mkRangeFrom (lit I32 3))))) in
  x1 <- union r (VRangeToInclusive (mkRangeToInclusive (lit I32 1))) ;;
  let u := x1 in
  _ <- assert (contains u (lit I32 0)) ;;
  _ <- assert (contains u (lit I32 1)) ;;
  _ <- assert (negb (contains u (lit I32 2))) ;;
  _ <- assert (contains u (lit I32 3)) ;;
  _ <- assert (contains u (lit I32 4)) ;;
  _ <- assert (contains u (lit I32 5)) ;;
  _ <- assert (contains u (lit I32 6)) ;;
  _ <- assert (negb (is_empty u)) ;;
  x2 <- union r (VRangeToInclusive (mkRangeToInclusive (lit I32 4))) ;;
  let full := x2 in
  _ <- assert (negb (is_empty full)) ;;
  _ <- assert (contains full (lit I32 0)) ;;
  _ <- assert (contains full (lit I32 1)) ;;
  _ <- assert (contains full (lit I32 2)) ;;
  _ <- assert (contains full (lit I32 3)) ;;
  _ <- assert (contains full (lit I32 4)) ;;
  _ <- assert (contains full (lit I32 5)) ;;
  Ret tt).
Proof. vm_compute. reflexivity. Qed.
(** src/test/union/lower_bounded_range.rs:117-134 *)
Example test_union_lower_bounded_range_bounded_range : passes (
  let r := (value_of_inner (to_inner (VRangeFrom (mkRangeFrom (lit I32 3))))) in
  x1 <- intersection (VRange (mkRange (lit I32 2) (lit I32 4))) (VRangeFull mkRangeFull : value (mint I32)) ;;
  let r2 := x1 in
  x2 <- union r r2 ;;
  let u := x2 in
  x3 <- into_iter u ;;
  x4 <- it_take 5 x3 ;;
  _ <- assert (list_eqb x4 [2; 3; 4; 5; 6]) ;;
  _ <- assert (negb (contains u (lit I32 0))) ;;
  _ <- assert (negb (contains u (lit I32 1))) ;;
  _ <- assert (contains u (lit I32 2)) ;;
  _ <- assert (contains u (lit I32 3)) ;;
  _ <- assert (contains u (lit I32 4)) ;;
  _ <- assert (contains u (lit I32 5)) ;;
  _ <- assert (contains u (lit I32 6)) ;;
  _ <- assert (negb (is_empty u)) ;;
  Ret tt).
Proof. vm_compute. reflexivity. Qed.
(** src/test/union/lower_bounded_range.rs:136-153 *)
Example test_union_lower_bounded_range_lower_bounded_range : passes (
  let r := (value_of_inner (to_inner (VRangeFrom (mkRangeFrom (lit I32 3))))) in
  x1 <- intersection (VRangeFrom (mkRangeFrom (lit I32 4))) (VRangeFull mkRangeFull : value (mint I32)) ;;
  let r2 := x1 in
  x2 <- union r r2 ;;
  let u := x2 in
  x3 <- into_iter u ;;
  x4 <- it_take 5 x3 ;;
  _ <- assert (list_eqb x4 [3; 4; 5; 6; 7]) ;;
  _ <- assert (negb (contains u (lit I32 0))) ;;
  _ <- assert (negb (contains u (lit I32 1))) ;;
  _ <- assert (negb (contains u (lit I32 2))) ;;
  _ <- assert (contains u (lit I32 3)) ;;
  _ <- assert (contains u (lit I32 4)) ;;
  _ <- assert (contains u (lit I32 5)) ;;
  _ <- assert (contains u (lit I32 6)) ;;
  _ <- assert (negb (is_empty u)) ;;
  Ret tt).
Proof. vm_compute. reflexivity. Qed.
(** src/test/union/lower_bounded_range.rs:155-178 *)
Example test_union_lower_bounded_range_upper_bounded_range : passes (
  let r := (value_of_inner (to_inner (VRangeFrom (mkRangeFrom (lit I32 3))))) in
  x1 <- intersection (VRangeTo (mkRangeTo (lit I32 2))) (VRangeFull mkRangeFull : value (mint I32)) ;;
  let r2 := x1 in
  x2 <- union r r2 ;;
  let u := x2 in
  _ <- assert (contains u (lit I32 0)) ;;
  _ <- assert (contains u (lit I32 1)) ;;
  _ <- assert (negb (contains u (lit I32 2))) ;;
  _ <- assert (contains u (lit I32 3)) ;;
  _ <- assert (contains u (lit I32 4)) ;;
  _ <- assert (contains u (lit I32 5)) ;;
  _ <- assert (contains u (lit I32 6)) ;;
  _ <- assert (negb (is_empty u)) ;;
  x3 <- intersection (VRangeTo (mkRangeTo (lit I32 4))) (VRangeFull mkRangeFull : value (mint I32)) ;;
  let r3 := x3 in
  x4 <- union r r3 ;;
  let full := x4 in
  _ <- assert (negb (is_empty full)) ;;
  _ <- assert (contains full (lit I32 0)) ;;
  _ <- assert (contains full (lit I32 1)) ;;
  _ <- assert (contains full (lit I32 2)) ;;
  _ <- assert (contains full (lit I32 3)) ;;
  _ <- assert (contains full (lit I32 4)) ;;
  _ <- assert (contains full (lit I32 5)) ;;
  Ret tt).
Proof. vm_compute. reflexivity. Qed.
(** src/test/union/lower_bounded_range.rs:180-193 *)
Example test_union_lower_bounded_range_unbounded_range : passes (
  let r := (value_of_inner (to_inner (VRangeFrom (mkRangeFrom (lit I32 3))))) in
  x1 <- intersection (VRangeFull mkRangeFull : value (mint I32)) (VRangeFull mkRangeFull : value (mint I32)) ;;
  let r2 := x1 in
  x2 <- union r r2 ;;
  let u := x2 in
  _ <- assert (contains u (lit I32 0)) ;;
  _ <- assert (contains u (lit I32 1)) ;;
  _ <- assert (contains u (lit I32 2)) ;;
  _ <- assert (contains u (lit I32 3)) ;;
  _ <- assert (contains u (lit I32 4)) ;;
  _ <- assert (contains u (lit I32 5)) ;;
  _ <- assert (contains u (lit I32 6)) ;;
  _ <- assert (negb (is_empty u)) ;;
  Ret tt).
Proof. vm_compute. reflexivity. Qed.
(** src/test/union/lower_bounded_range.rs:195-200 *)
Example test_union_lower_bounded_range_empty_range : passes (
  let r := (value_of_inner (to_inner (VRangeFrom (mkRangeFrom (lit I32 3))))) in
  x1 <- union r (VEmpty mkEmptyRange : value (mint I32)) ;;
  let u := x1 in
  _ <- assert (value_eqb r u) ;;
  Ret tt).
Proof. vm_compute. reflexivity. Qed.
(** src/test/union/lower_bounded_range.rs:202-219 *)
Example test_union_lower_bounded_range_bounded_set : passes (
  let r := (value_of_inner (to_inner (VRangeFrom (mkRangeFrom (lit I32 3))))) in
  x1 <- union (VRange (mkRange (lit I32 2) (lit I32 4))) (VRange (mkRange (lit I32 4) (lit I32 5))) ;;
  let s := x1 in
  x2 <- union r s ;;
  let u := x2 in
  x3 <- into_iter u ;;
  x4 <- it_take 5 x3 ;;
  _ <- assert (list_eqb x4 [2; 3; 4; 5; 6]) ;;
  _ <- assert (negb (contains u (lit I32 0))) ;;
  _ <- assert (negb (contains u (lit I32 1))) ;;
  _ <- assert (contains u (lit I32 2)) ;;
  _ <- assert (contains u (lit I32 3)) ;;
  _ <- assert (contains u (lit I32 4)) ;;
  _ <- assert (contains u (lit I32 5)) ;;
  _ <- assert (contains u (lit I32 6)) ;;
  _ <- assert (negb (is_empty u)) ;;
  Ret tt).
Proof. vm_compute. reflexivity. Qed.
(** src/test/union/lower_bounded_range.rs:221-238 *)
Example test_union_lower_bounded_range_lower_bounded_set : passes (
  let r := (value_of_inner (to_inner (VRangeFrom (mkRangeFrom (lit I32 3))))) in
  x1 <- union (VRange (mkRange (lit I32 2) (lit I32 3))) (VRangeFrom (mkRangeFrom (lit I32 4))) ;;
  let s := x1 in
  x2 <- union r s ;;
  let u := x2 in
  x3 <- into_iter u ;;
  x4 <- it_take 5 x3 ;;
  _ <- assert (list_eqb x4 [2; 3; 4; 5; 6]) ;;
  _ <- assert (negb (contains u (lit I32 0))) ;;
  _ <- assert (negb (contains u (lit I32 1))) ;;
  _ <- assert (contains u (lit I32 2)) ;;
  _ <- assert (contains u (lit I32 3)) ;;
  _ <- assert (contains u (lit I32 4)) ;;
  _ <- assert (contains u (lit I32 5)) ;;
  _ <- assert (contains u (lit I32 6)) ;;
  _ <- assert (negb (is_empty u)) ;;
  Ret tt).
Proof. vm_compute. reflexivity. Qed.
(** src/test/union/lower_bounded_range.rs:240-263 *)
Example test_union_lower_bounded_range_upper_bounded_set : passes (
  let r := (value_of_inner (to_inner (VRangeFrom (mkRangeFrom (lit I32 4))))) in
  x1 <- union (VRangeTo (mkRangeTo (lit I32 1))) (VRange (mkRange (lit I32 2) (lit I32 3))) ;;
  let s := x1 in
  x2 <- union r s ;;
  let u := x2 in
  _ <- assert (contains u (lit I32 0)) ;;
  _ <- assert (negb (contains u (lit I32 1))) ;;
  _ <- assert (contains u (lit I32 2)) ;;
  _ <- assert (negb (contains u (lit I32 3))) ;;
  _ <- assert (contains u (lit I32 4)) ;;
  _ <- assert (contains u (lit I32 5)) ;;
  _ <- assert (contains u (lit I32 6)) ;;
  _ <- assert (negb (is_empty u)) ;;
  x3 <- union (VRangeTo (mkRangeTo (lit I32 4))) (VRange (mkRange (lit I32 5) (lit I32 6))) ;;
  let s := x3 in
  x4 <- union r s ;;
  let full := x4 in
  _ <- assert (negb (is_empty full)) ;;
  _ <- assert (contains full (lit I32 0)) ;;
  _ <- assert (contains full (lit I32 1)) ;;
  _ <- assert (contains full (lit I32 2)) ;;
  _ <- assert (contains full (lit I32 3)) ;;
  _ <- assert (contains full (lit I32 4)) ;;
  _ <- assert (contains full (lit I32 5)) ;;
  Ret tt).
Proof. vm_compute. reflexivity. Qed.
(** src/test/union/lower_bounded_range.rs:265-278 *)
Example test_union_lower_bounded_range_unbounded_set : passes (
  let r := (value_of_inner (to_inner (VRangeFrom (mkRangeFrom (lit I32 3))))) in
  x1 <- union (VRangeTo (mkRangeTo (lit I32 1))) (VRangeFrom (mkRangeFrom (lit I32 4))) ;;
  let s := x1 in
  x2 <- union r s ;;
  let u := x2 in
  _ <- assert (contains u (lit I32 0)) ;;
  _ <- assert (negb (contains u (lit I32 1))) ;;
  _ <- assert (negb (contains u (lit I32 2))) ;;
  _ <- assert (contains u (lit I32 3)) ;;
  _ <- assert (contains u (lit I32 4)) ;;
  _ <- assert (contains u (lit I32 5)) ;;
  _ <- assert (contains u (lit I32 6)) ;;
  _ <- assert (negb (is_empty u)) ;;
  Ret tt).
Proof. vm_compute. reflexivity. Qed.
(** src/test/union/lower_bounded_set.rs:3-19 *)
Example test_union_lower_bounded_set_range : passes (
  x1 <- union (VRange (mkRange (lit I32 3) (lit I32 4))) (VRangeFrom (mkRangeFrom (lit I32 4))) ;;
  let s := x1 in
  x2 <- union s (VRange (mkRange (lit I32 2) (lit I32 4))) ;;
  let u := x2 in
  x3 <- into_iter u ;;
  x4 <- it_take 5 x3 ;;
  _ <- assert (list_eqb x4 [2; 3; 4; 5; 6]) ;;
  _ <- assert (negb (contains u (lit I32 0))) ;;
  _ <- assert (negb (contains u (lit I32 1))) ;;
  _ <- assert (contains u (lit I32 2)) ;;
  _ <- assert (contains u (lit I32 3)) ;;
  _ <- assert (contains u (lit I32 4)) ;;
  _ <- assert (contains u (lit I32 5)) ;;
  _ <- assert (contains u (lit I32 6)) ;;
  _ <- assert (negb (is_empty u)) ;;
  Ret tt).
Proof. vm_compute. reflexivity. Qed.
(** src/test/union/lower_bounded_set.rs:21-37 *)
Example test_union_lower_bounded_set_range_from : passes (
  x1 <- union (VRange (mkRange (lit I32 3) (lit I32 4))) (VRangeFrom (mkRangeFrom (lit I32 4))) ;;
  let s := x1 in
  x2 <- union s (VRangeFrom (mkRangeFrom (lit I32 4))) ;;
  let u := x2 in
  x3 <- into_iter u ;;
  x4 <- it_take 5 x3 ;;
  _ <- assert (list_eqb x4 [3; 4; 5; 6; 7]) ;;
  _ <- assert (negb (contains u (lit I32 0))) ;;
  _ <- assert (negb (contains u (lit I32 1))) ;;
  _ <- assert (negb (contains u (lit I32 2))) ;;
  _ <- assert (contains u (lit I32 3)) ;;
  _ <- assert (contains u (lit I32 4)) ;;
  _ <- assert (contains u (lit I32 5)) ;;
  _ <- assert (contains u (lit I32 6)) ;;
  _ <- assert (negb (is_empty u)) ;;
  Ret tt).
Proof. vm_compute. reflexivity. Qed.
(** src/test/union/lower_bounded_set.rs:39-51 *)
Example test_union_lower_bounded_set_range_full : passes (
  x1 <- union (VRange (mkRange (lit I32 3) (lit I32 4))) (VRangeFrom (mkRangeFrom (lit I32 4))) ;;
  let s := x1 in
  x2 <- union s (VRangeFull mkRangeFull : value (mint I32)) ;;
  let u := x2 in
  _ <- assert (contains u (lit I32 0)) ;;
  _ <- assert (contains u (lit I32 1)) ;;
  _ <- assert (contains u (lit I32 2)) ;;
  _ <- assert (contains u (lit I32 3)) ;;
  _ <- assert (contains u (lit I32 4)) ;;
  _ <- assert (contains u (lit I32 5)) ;;
  _ <- assert (contains u (lit I32 6)) ;;
  _ <- assert (negb (is_empty u)) ;;
  Ret tt).
Proof. vm_compute. reflexivity. Qed.
(** src/test/union/lower_bounded_set.rs:53-69 *)
Example test_union_lower_bounded_set_range_inclusive : passes (
  x1 <- union (VRange (mkRange (lit I32 3) (lit I32 4))) (VRangeFrom (mkRangeFrom (lit I32 4))) ;;
  let s := x1 in
  x2 <- union s (VRangeInclusive (mkRangeInclusive (lit I32 1) (lit I32 2) false)) ;;
  let u := x2 in
  x3 <- into_iter u ;;
  x4 <- it_take 5 x3 ;;
  _ <- assert (list_eqb x4 [1; 2; 3; 4; 5]) ;;
  _ <- assert (negb (contains u (lit I32 0))) ;;
  _ <- assert (contains u (lit I32 1)) ;;
  _ <- assert (contains u (lit I32 2)) ;;
  _ <- assert (contains u (lit I32 3)) ;;
  _ <- assert (contains u (lit I32 4)) ;;
  _ <- assert (contains u (lit I32 5)) ;;
  _ <- assert (contains u (lit I32 6)) ;;
  _ <- assert (negb (is_empty u)) ;;
  Ret tt).
Proof. vm_compute. reflexivity. Qed.
(** src/test/union/lower_bounded_set.rs:71-92 *)
Example test_union_lower_bounded_set_range_to : passes (
  x1 <- union (VRange (mkRange (lit I32 3) (lit I32 4))) (VRangeFrom (mkRangeFrom (lit I32 4))) ;;
  let s := x1 in
  x2 <- union s (VRangeTo (mkRangeTo (lit I32 2))) ;;
  let u := x2 in
  _ <- assert (contains u (lit I32 0)) ;;
  _ <- assert (contains u (lit I32 1)) ;;
  _ <- assert (negb (contains u (lit I32 2))) ;;
  _ <- assert (contains u (lit I32 3)) ;;
  _ <- assert (contains u (lit I32 4)) ;;
  _ <- assert (contains u (lit I32 5)) ;;
  _ <- assert (contains u (lit I32 6)) ;;
  _ <- assert (negb (is_empty u)) ;;
  x3 <- union s (VRangeTo (mkRangeTo (lit I32 4))) ;;
  let full := x3 in
  _ <- assert (negb (is_empty full)) ;;
  _ <- assert (contains full (lit I32 0)) ;;
  _ <- assert (contains full (lit I32 1)) ;;
  _ <- assert (contains full (lit I32 2)) ;;
  _ <- assert (contains full (lit I32 3)) ;;
  _ <- assert (contains full (lit I32 4)) ;;
  _ <- assert (contains full (lit I32 5)) ;;
  Ret tt).
Proof. vm_compute. reflexivity. Qed.
(** src/test/union/lower_bounded_set.rs:94-115 *)
Example test_union_lower_bounded_set_range_to_inclusive : passes (
  x1 <- union (VRange (mkRange (lit I32 3) (lit I32 4))) (VRangeFrom (mkRangeFrom (lit I32 4))) ;;
  let s := x1 in
  x2 <- union s (VRangeToInclusive (mkRangeToInclusive (lit I32 1))) ;;
  let u := x2 in
  _ <- assert (contains u (lit I32 0)) ;;
  _ <- assert (contains u (lit I32 1)) ;;
  _ <- assert (negb (contains u (lit I32 2))) ;;
  _ <- assert (contains u (lit I32 3)) ;;
  _ <- assert (contains u (lit I32 4)) ;;
  _ <- assert (contains u (lit I32 5)) ;;
  _ <- assert (contains u (lit I32 6)) ;;
  _ <- assert (negb (is_empty u)) ;;
  x3 <- union s (VRangeToInclusive (mkRangeToInclusive (lit I32 4))) ;;
  let full := x3 in
  _ <- assert (negb (is_empty full)) ;;
  _ <- assert (contains full (lit I32 0)) ;;
  _ <- assert (contains full (lit I32 1)) ;;
  _ <- assert (contains full (lit I32 2)) ;;
  _ <- assert (contains full (lit I32 3)) ;;
  _ <- assert (contains full (lit I32 4)) ;;
  _ <- assert (contains full (lit I32 5)) ;;
  Ret tt).
Proof. vm_compute. reflexivity. Qed.
(** src/test/union/lower_bounded_set.rs:117-134 *)
Example test_union_lower_bounded_set_bounded_range : passes (
  x1 <- union (VRange (mkRange (lit I32 3) (lit I32 4))) (VRangeFrom (mkRangeFrom (lit I32 4))) ;;
  let s := x1 in
  x2 <- intersection (VRange (mkRange (lit I32 2) (lit I32 4))) (VRangeFull mkRangeFull : value (mint I32)) ;;
  let r := x2 in
  x3 <- union s r ;;
  let u := x3 in
  x4 <- into_iter u ;;
  x5 <- it_take 5 x4 ;;
  _ <- assert (list_eqb x5 [2; 3; 4; 5; 6]) ;;
  _ <- assert (negb (contains u (lit I32 0))) ;;
  _ <- assert (negb (contains u (lit I32 1))) ;;
  _ <- assert (contains u (lit I32 2)) ;;
  _ <- assert (contains u (lit I32 3)) ;;
  _ <- assert (contains u (lit I32 4)) ;;
  _ <- assert (contains u (lit I32 5)) ;;
  _ <- assert (contains u (lit I32 6)) ;;
  _ <- assert (negb (is_empty u)) ;;
  Ret tt).
Proof. vm_compute. reflexivity. Qed.
(** src/test/union/lower_bounded_set.rs:136-153 *)
Example test_union_lower_bounded_set_lower_bounded_range : passes (
  x1 <- union (VRange (mkRange (lit I32 3) (lit I32 4))) (VRangeFrom (mkRangeFrom (lit I32 4))) ;;
  let s := x1 in
  x2 <- intersection (VRangeFrom (mkRangeFrom (lit I32 4))) (VRangeFull mkRangeFull : value (mint I32)) ;;
  let r := x2 in
  x3 <- union s r ;;
  let u := x3 in
  x4 <- into_iter u ;;
  x5 <- it_take 5 x4 ;;
  _ <- assert (list_eqb x5 [3; 4; 5; 6; 7]) ;;
  _ <- assert (negb (contains u (lit I32 0))) ;;
  _ <- assert (negb (contains u (lit I32 1))) ;;
  _ <- assert (negb (contains u (lit I32 2))) ;;
  _ <- assert (contains u (lit I32 3)) ;;
  _ <- assert (contains u (lit I32 4)) ;;
  _ <- assert (contains u (lit I32 5)) ;;
  _ <- assert (contains u (lit I32 6)) ;;
  _ <- assert (negb (is_empty u)) ;;
  Ret tt).
Proof. vm_compute. reflexivity. Qed.
(** src/test/union/lower_bounded_set.rs:155-178 *)
Example test_union_lower_bounded_set_upper_bounded_range : passes (
  x1 <- union (VRange (mkRange (lit I32 3) (lit I32 4))) (VRangeFrom (mkRangeFrom (lit I32 4))) ;;
  let s := x1 in
  x2 <- intersection (VRangeTo (mkRangeTo (lit I32 2))) (VRangeFull mkRangeFull : value (mint I32)) ;;
  let r := x2 in
  x3 <- union s r ;;
  let u := x3 in
  _ <- assert (contains u (lit I32 0)) ;;
  _ <- assert (contains u (lit I32 1)) ;;
  _ <- assert (negb (contains u (lit I32 2))) ;;
  _ <- assert (contains u (lit I32 3)) ;;
  _ <- assert (contains u (lit I32 4)) ;;
  _ <- assert (contains u (lit I32 5)) ;;
  _ <- assert (contains u (lit I32 6)) ;;
  _ <- assert (negb (is_empty u)) ;;
  x4 <- intersection (VRangeTo (mkRangeTo (lit I32 4))) (VRangeFull mkRangeFull : value (mint I32)) ;;
  let r := x4 in
  x5 <- union s r ;;
  let full := x5 in
  _ <- assert (negb (is_empty full)) ;;
  _ <- assert (contains full (lit I32 0)) ;;
  _ <- assert (contains full (lit I32 1)) ;;
  _ <- assert (contains full (lit I32 2)) ;;
  _ <- assert (contains full (lit I32 3)) ;;
  _ <- assert (contains full (lit I32 4)) ;;
  _ <- assert (contains full (lit I32 5)) ;;
  Ret tt).
Proof. vm_compute. reflexivity. Qed.
(** src/test/union/lower_bounded_set.rs:180-193 *)
Example test_union_lower_bounded_set_unbounded_range : passes (
  x1 <- union (VRange (mkRange (lit I32 3) (lit I32 4))) (VRangeFrom (mkRangeFrom (lit I32 4))) ;;
  let s := x1 in
  x2 <- intersection (VRangeFull mkRangeFull : value (mint I32)) (VRangeFull mkRangeFull : value (mint I32)) ;;
  let r := x2 in
  x3 <- union s r ;;
  let u := x3 in
  _ <- assert (contains u (lit I32 0)) ;;
  _ <- assert (contains u (lit I32 1)) ;;
  _ <- assert (contains u (lit I32 2)) ;;
  _ <- assert (contains u (lit I32 3)) ;;
  _ <- assert (contains u (lit I32 4)) ;;
  _ <- assert (contains u (lit I32 5)) ;;
  _ <- assert (contains u (lit I32 6)) ;;
  _ <- assert (negb (is_empty u)) ;;
  Ret tt).
Proof. vm_compute. reflexivity. Qed.
(** src/test/union/lower_bounded_set.rs:195-200 *)
Example test_union_lower_bounded_set_empty_range : passes (
  x1 <- union (VRange (mkRange (lit I32 1) (lit I32 3))) (VRangeFrom (mkRangeFrom (lit I32 4))) ;;
  let s := x1 in
  x2 <- union s (VEmpty mkEmptyRange : value (mint I32)) ;;
  let u := x2 in
  _ <- assert (value_eqb s u) ;;
  Ret tt).
Proof. vm_compute. reflexivity. Qed.
(** src/test/union/lower_bounded_set.rs:202-219 *)
Example test_union_lower_bounded_set_bounded_set : passes (
  x1 <- union (VRange (mkRange (lit I32 3) (lit I32 4))) (VRangeFrom (mkRangeFrom (lit I32 4))) ;;
  let s := x1 in
  x2 <- union (VRange (mkRange (lit I32 2) (lit I32 4))) (VRange (mkRange (lit I32 4) (lit I32 5))) ;;
  let s2 := x2 in
  x3 <- union s s2 ;;
  let u := x3 in
  x4 <- into_iter u ;;
  x5 <- it_take 5 x4 ;;
  _ <- assert (list_eqb x5 [2; 3; 4; 5; 6]) ;;
  _ <- assert (negb (contains u (lit I32 0))) ;;
  _ <- assert (negb (contains u (lit I32 1))) ;;
  _ <- assert (contains u (lit I32 2)) ;;
  _ <- assert (contains u (lit I32 3)) ;;
  _ <- assert (contains u (lit I32 4)) ;;
  _ <- assert (contains u (lit I32 5)) ;;
  _ <- assert (contains u (lit I32 6)) ;;
  _ <- assert (negb (is_empty u)) ;;
  Ret tt).
Proof. vm_compute. reflexivity. Qed.
(** src/test/union/lower_bounded_set.rs:221-238 *)
Example test_union_lower_bounded_set_lower_bounded_set : passes (
  x1 <- union (VRange (mkRange (lit I32 3) (lit I32 4))) (VRangeFrom (mkRangeFrom (lit I32 4))) ;;
  let s := x1 in
  x2 <- union (VRange (mkRange (lit I32 2) (lit I32 3))) (VRangeFrom (mkRangeFrom (lit I32 4))) ;;
  let s2 := x2 in
  x3 <- union s s2 ;;
  let u := x3 in
  x4 <- into_iter u ;;
  x5 <- it_take 5 x4 ;;
  _ <- assert (list_eqb x5 [2; 3; 4; 5; 6]) ;;
  _ <- assert (negb (contains u (lit I32 0))) ;;
  _ <- assert (negb (contains u (lit I32 1))) ;;
  _ <- assert (contains u (lit I32 2)) ;;
  _ <- assert (contains u (lit I32 3)) ;;
  _ <- assert (contains u (lit I32 4)) ;;
  _ <- assert (contains u (lit I32 5)) ;;
  _ <- assert (contains u (lit I32 6)) ;;
  _ <- assert (negb (is_empty u)) ;;
  Ret tt).
Proof. vm_compute. reflexivity. Qed.
(** src/test/union/lower_bounded_set.rs:240-263 *)
Example test_union_lower_bounded_set_upper_bounded_set : passes (
  x1 <- union (VRange (mkRange (lit I32 4) (lit I32 5))) (VRangeFrom (mkRangeFrom (lit I32 5))) ;;
  let s := x1 in
  x2 <- union (VRangeTo (mkRangeTo (lit I32 1))) (VRange (mkRange (lit I32 2) (lit I32 3))) ;;
  let s2 := x2 in
  x3 <- union s s2 ;;
  let u := x3 in
  _ <- assert (contains u (lit I32 0)) ;;
  _ <- assert (negb (contains u (lit I32 1))) ;;
  _ <- assert (contains u (lit I32 2)) ;;
  _ <- assert (negb (contains u (lit I32 3))) ;;
  _ <- assert (contains u (lit I32 4)) ;;
  _ <- assert (contains u (lit I32 5)) ;;
  _ <- assert (contains u (lit I32 6)) ;;
  _ <- assert (negb (is_empty u)) ;;
  x4 <- union (VRangeTo (mkRangeTo (lit I32 4))) (VRange (mkRange (lit I32 5) (lit I32 6))) ;;
  let s2 := x4 in
  x5 <- union s s2 ;;
  let full := x5 in
  _ <- assert (negb (is_empty full)) ;;
  _ <- assert (contains full (lit I32 0)) ;;
  _ <- assert (contains full (lit I32 1)) ;;
  _ <- assert (contains full (lit I32 2)) ;;
  _ <- assert (contains full (lit I32 3)) ;;
  _ <- assert (contains full (lit I32 4)) ;;
  _ <- assert (contains full (lit I32 5)) ;;
  Ret tt).
Proof. vm_compute. reflexivity. Qed.
(** src/test/union/lower_bounded_set.rs:265-278 *)
Example test_union_lower_bounded_set_unbounded_set : passes (
  x1 <- union (VRange (mkRange (lit I32 3) (lit I32 4))) (VRangeFrom (mkRangeFrom (lit I32 4))) ;;
  let s := x1 in
  x2 <- union (VRangeTo (mkRangeTo (lit I32 1))) (VRangeFrom (mkRangeFrom (lit I32 4))) ;;
  let s2 := x2 in
  x3 <- union s s2 ;;
  let u := x3 in
  _ <- assert (contains u (lit I32 0)) ;;
  _ <- assert (negb (contains u (lit I32 1))) ;;
  _ <- assert (negb (contains u (lit I32 2))) ;;
  _ <- assert (contains u (lit I32 3)) ;;
  _ <- assert (contains u (lit I32 4)) ;;
  _ <- assert (contains u (lit I32 5)) ;;
  _ <- assert (contains u (lit I32 6)) ;;
  _ <- assert (negb (is_empty u)) ;;
  Ret tt).
Proof. vm_compute. reflexivity. Qed.
(** src/test/union/range.rs:3-21 *)
Example test_union_range_range : passes (
  x1 <- union (VRange (mkRange (lit I32 0) (lit I32 3))) (VRange (mkRange (lit I32 5) (lit I32 7))) ;;
  let u := x1 in
  x2 <- into_iter u ;;
  x3 <- it_collect x2 ;;
  _ <- assert (list_eqb x3 [0; 1; 2; 5; 6]) ;;
  _ <- assert (contains u (lit I32 0)) ;;
  _ <- assert (contains u (lit I32 1)) ;;
  _ <- assert (contains u (lit I32 2)) ;;
  _ <- assert (negb (contains u (lit I32 3))) ;;
  _ <- assert (negb (contains u (lit I32 4))) ;;
  _ <- assert (contains u (lit I32 5)) ;;
  _ <- assert (contains u (lit I32 6)) ;;
  _ <- assert (negb (contains u (lit I32 7))) ;;
  _ <- assert (negb (contains u (lit I32 8))) ;;
  _ <- assert (negb (is_empty u)) ;;
  x4 <- union (VRange (mkRange (lit I32 0) (lit I32 0))) (VRange (mkRange (lit I32 1) (lit I32 1))) ;;
  _ <- assert (is_empty x4) ;;
  Ret tt).
Proof. vm_compute. reflexivity. Qed.
(** src/test/union/range.rs:23-38 *)
Example test_union_range_range_from : passes (
  x1 <- union (VRange (mkRange (lit I32 1) (lit I32 3))) (VRangeFrom (mkRangeFrom (lit I32 2))) ;;
  let u := x1 in
  x2 <- into_iter u ;;
  x3 <- it_take 3 x2 ;;
  _ <- assert (list_eqb x3 [1; 2; 3]) ;;
  _ <- assert (negb (contains u (lit I32 0))) ;;
  _ <- assert (contains u (lit I32 1)) ;;
  _ <- assert (contains u (lit I32 2)) ;;
  _ <- assert (contains u (lit I32 3)) ;;
  _ <- assert (contains u (lit I32 4)) ;;
  _ <- assert (contains u (lit I32 5)) ;;
  _ <- assert (contains u (lit I32 6)) ;;
  _ <- assert (negb (is_empty u)) ;;
  Ret tt).
Proof. vm_compute. reflexivity. Qed.
(** src/test/union/range.rs:40-53 *)
Example test_union_range_range_full : passes (
  x1 <- union (VRange (mkRange (lit I32 1) (lit I32 3))) (VRangeFull mkRangeFull : value (mint I32)) ;;
  let u := x1 in
  _ <- assert (contains u (lit I32 0)) ;;
  _ <- assert (contains u (lit I32 1)) ;;
  _ <- assert (contains u (lit I32 2)) ;;
  _ <- assert (contains u (lit I32 3)) ;;
  _ <- assert (contains u (lit I32 4)) ;;
  _ <- assert (contains u (lit I32 5)) ;;
  _ <- assert (contains u (lit I32 6)) ;;
  _ <- assert (contains u (lit I32 7)) ;;
  _ <- assert (contains u (lit I32 8)) ;;
  _ <- assert (negb (is_empty u)) ;;
  Ret tt).
Proof. vm_compute. reflexivity. Qed.
(** src/test/union/range.rs:55-74 *)
Example test_union_range_range_inclusive : passes (
  x1 <- union (VRange (mkRange (lit I32 1) (lit I32 3))) (VRangeInclusive (mkRangeInclusive (lit I32 5) (lit I32 7) false)) ;;
  let u := x1 in
  x2 <- into_iter u ;;
  x3 <- it_collect x2 ;;
  _ <- assert (list_eqb x3 [1; 2; 5; 6; 7]) ;;
  _ <- assert (negb (contains u (lit I32 0))) ;;
  _ <- assert (contains u (lit I32 1)) ;;
  _ <- assert (contains u (lit I32 2)) ;;
  _ <- assert (negb (contains u (lit I32 3))) ;;
  _ <- assert (negb (contains u (lit I32 4))) ;;
  _ <- assert (contains u (lit I32 5)) ;;
  _ <- assert (contains u (lit I32 6)) ;;
  _ <- assert (contains u (lit I32 7)) ;;
  _ <- assert (negb (contains u (lit I32 8))) ;;
  _ <- assert (negb (is_empty u)) ;;
  x4 <- intersection (VRange (mkRange (lit I32 1) (lit I32 1))) (VRangeFull mkRangeFull : value (mint I32)) ;;
  let r2 := x4 in
  x5 <- union r2 (VRangeInclusive (mkRangeInclusive (lit I32 1) (lit I32 0) false)) ;;
  _ <- assert (is_empty x5) ;;
  Ret tt).
Proof. vm_compute. reflexivity. Qed.
(** src/test/union/range.rs:76-89 *)
Example test_union_range_range_to : passes (
  x1 <- union (VRange (mkRange (lit I32 1) (lit I32 3))) (VRangeTo (mkRangeTo (lit I32 2))) ;;
  let u := x1 in
  _ <- assert (contains u (lit I32 0)) ;;
  _ <- assert (contains u (lit I32 1)) ;;
  _ <- assert (contains u (lit I32 2)) ;;
  _ <- assert (negb (contains u (lit I32 3))) ;;
  _ <- assert (negb (contains u (lit I32 4))) ;;
  _ <- assert (negb (contains u (lit I32 5))) ;;
  _ <- assert (negb (contains u (lit I32 6))) ;;
  _ <- assert (negb (contains u (lit I32 7))) ;;
  _ <- assert (negb (contains u (lit I32 8))) ;;
  _ <- assert (negb (is_empty u)) ;;
  Ret tt).
Proof. vm_compute. reflexivity. Qed.
(** src/test/union/range.rs:91-104 *)
Example test_union_range_range_to_inclusive : passes (
  x1 <- union (VRange (mkRange (lit I32 1) (lit I32 3))) (VRangeToInclusive (mkRangeToInclusive (lit I32 4))) ;;
  let u := x1 in
  _ <- assert (contains u (lit I32 0)) ;;
  _ <- assert (contains u (lit I32 1)) ;;
  _ <- assert (contains u (lit I32 2)) ;;
  _ <- assert (contains u (lit I32 3)) ;;
  _ <- assert (contains u (lit I32 4)) ;;
  _ <- assert (negb (contains u (lit I32 5))) ;;
  _ <- assert (negb (contains u (lit I32 6))) ;;
  _ <- assert (negb (contains u (lit I32 7))) ;;
  _ <- assert (negb (contains u (lit I32 8))) ;;
  _ <- assert (negb (is_empty u)) ;;
  Ret tt).
Proof. vm_compute. reflexivity. Qed.
(** src/test/union/range.rs:106-123 *)
Example test_union_range_bounded_range : passes (
  x1 <- intersection (VRange (mkRange (lit I32 5) (lit I32 7))) (VRangeFull mkRangeFull : value (mint I32)) ;;
  let r := x1 in
  x2 <- union (VRange (mkRange (lit I32 1) (lit I32 3))) r ;;
  let u := x2 in
  x3 <- into_iter u ;;
  x4 <- it_collect x3 ;;
  _ <- assert (list_eqb x4 [1; 2; 5; 6]) ;;
  _ <- assert (negb (contains u (lit I32 0))) ;;
  _ <- assert (contains u (lit I32 1)) ;;
  _ <- assert (contains u (lit I32 2)) ;;
  _ <- assert (negb (contains u (lit I32 3))) ;;
  _ <- assert (negb (contains u (lit I32 4))) ;;
  _ <- assert (contains u (lit I32 5)) ;;
  _ <- assert (contains u (lit I32 6)) ;;
  _ <- assert (negb (contains u (lit I32 7))) ;;
  _ <- assert (negb (contains u (lit I32 8))) ;;
  _ <- assert (negb (is_empty u)) ;;
  x5 <- intersection (VRange (mkRange (lit I32 1) (lit I32 1))) (VRangeFull mkRangeFull : value (mint I32)) ;;
  let r := x5 in
  x6 <- union (VRange (mkRange (lit I32 1) (lit I32 1))) r ;;
  _ <- assert (is_empty x6) ;;
  Ret tt).
Proof. vm_compute. reflexivity. Qed.
(** src/test/union/range.rs:125-141 *)
Example test_union_range_lower_bounded_range : passes (
  x1 <- intersection (VRangeFull mkRangeFull : value (mint I32)) (VRangeFrom (mkRangeFrom (lit I32 2))) ;;
  let r := x1 in
  x2 <- union (VRange (mkRange (lit I32 1) (lit I32 3))) r ;;
  let u := x2 in
  x3 <- into_iter u ;;
  x4 <- it_take 5 x3 ;;
  _ <- assert (list_eqb x4 [1; 2; 3; 4; 5]) ;;
  _ <- assert (negb (contains u (lit I32 0))) ;;
  _ <- assert (contains u (lit I32 1)) ;;
  _ <- assert (contains u (lit I32 2)) ;;
  _ <- assert (contains u (lit I32 3)) ;;
  _ <- assert (contains u (lit I32 4)) ;;
  _ <- assert (contains u (lit I32 5)) ;;
  _ <- assert (contains u (lit I32 6)) ;;
  _ <- assert (negb (is_empty u)) ;;
  Ret tt).
Proof. vm_compute. reflexivity. Qed.
(** src/test/union/range.rs:143-157 *)
Example test_union_range_upper_bounded_range : passes (
  x1 <- intersection (VRangeTo (mkRangeTo (lit I32 1))) (VRangeFull mkRangeFull : value (mint I32)) ;;
  let r := x1 in
  x2 <- union (VRange (mkRange (lit I32 1) (lit I32 3))) r ;;
  let u := x2 in
  _ <- assert (contains u (lit I32 0)) ;;
  _ <- assert (contains u (lit I32 1)) ;;
  _ <- assert (contains u (lit I32 2)) ;;
  _ <- assert (negb (contains u (lit I32 3))) ;;
  _ <- assert (negb (contains u (lit I32 4))) ;;
  _ <- assert (negb (contains u (lit I32 5))) ;;
  _ <- assert (negb (contains u (lit I32 6))) ;;
  _ <- assert (negb (contains u (lit I32 7))) ;;
  _ <- assert (negb (contains u (lit I32 8))) ;;
  _ <- assert (negb (is_empty u)) ;;
  Ret tt).
Proof. vm_compute. reflexivity. Qed.
(** src/test/union/range.rs:159-172 *)
Example test_union_range_unbounded_range : passes (
  x1 <- intersection (VRangeFull mkRangeFull : value (mint I32)) (VRangeFull mkRangeFull : value (mint I32)) ;;
  let ur := x1 in
  x2 <- union (VRange (mkRange (lit I32 1) (lit I32 3))) ur ;;
  let u := x2 in
  _ <- assert (contains u (lit I32 0)) ;;
  _ <- assert (contains u (lit I32 1)) ;;
  _ <- assert (contains u (lit I32 2)) ;;
  _ <- assert (contains u (lit I32 3)) ;;
  _ <- assert (contains u (lit I32 4)) ;;
  _ <- assert (contains u (lit I32 5)) ;;
  _ <- assert (contains u (lit I32 6)) ;;
  _ <- assert (negb (is_empty u)) ;;
  x3 <- union (VRange (mkRange (lit I32 1) (lit I32 1))) ur ;;
  _ <- assert (negb (is_empty x3)) ;;
  Ret tt).
Proof. vm_compute. reflexivity. Qed.
(** src/test/union/range.rs:174-179 *)
Example test_union_range_empty_range : passes (
  let r := (VRange (mkRange (lit I32 5) (lit I32 10))) in
  x1 <- union r (VEmpty mkEmptyRange : value (mint I32)) ;;
  let u := x1 in
  _ <- assert (value_eqb r u) ;;
  Ret tt).
Proof. vm_compute. reflexivity. Qed.
(** src/test/union/range.rs:181-201 *)
Example test_union_range_bounded_set : passes (
  x1 <- union (VRange (mkRange (lit I32 5) (lit I32 7))) (VRange (mkRange (lit I32 2) (lit I32 4))) ;;
  let s := x1 in
  x2 <- union (VRange (mkRange (lit I32 1) (lit I32 3))) s ;;
  let u := x2 in
  x3 <- into_iter u ;;
  x4 <- it_collect x3 ;;
  _ <- assert (list_eqb x4 [1; 2; 3; 5; 6]) ;;
  _ <- assert (negb (contains u (lit I32 0))) ;;
  _ <- assert (contains u (lit I32 1)) ;;
  _ <- assert (contains u (lit I32 2)) ;;
  _ <- assert (contains u (lit I32 3)) ;;
  _ <- assert (negb (contains u (lit I32 4))) ;;
  _ <- assert (contains u (lit I32 5)) ;;
  _ <- assert (contains u (lit I32 6)) ;;
  _ <- assert (negb (contains u (lit I32 7))) ;;
  _ <- assert (negb (contains u (lit I32 8))) ;;
  _ <- assert (negb (is_empty u)) ;;
  x5 <- union (VRange (mkRange (lit I32 1) (lit I32 1))) (VRange (mkRange (lit I32 2) (lit I32 2))) ;;
  let s := x5 in
  x6 <- union (VRange (mkRange (lit I32 0) (lit I32 0))) s ;;
  _ <- assert (is_empty x6) ;;
  Ret tt).
Proof. vm_compute. reflexivity. Qed.
(** src/test/union/range.rs:203-219 *)
Example test_union_range_lower_bounded_set : passes (
  x1 <- union (VRange (mkRange (lit I32 2) (lit I32 3))) (VRangeFrom (mkRangeFrom (lit I32 5))) ;;
  let s := x1 in
  x2 <- union (VRange (mkRange (lit I32 1) (lit I32 3))) s ;;
  let u := x2 in
  x3 <- into_iter u ;;
  x4 <- it_take 5 x3 ;;
  _ <- assert (list_eqb x4 [1; 2; 5; 6; 7]) ;;
  _ <- assert (negb (contains u (lit I32 0))) ;;
  _ <- assert (contains u (lit I32 1)) ;;
  _ <- assert (contains u (lit I32 2)) ;;
  _ <- assert (negb (contains u (lit I32 3))) ;;
  _ <- assert (negb (contains u (lit I32 4))) ;;
  _ <- assert (contains u (lit I32 5)) ;;
  _ <- assert (contains u (lit I32 6)) ;;
  _ <- assert (negb (is_empty u)) ;;
  Ret tt).
Proof. vm_compute. reflexivity. Qed.
(** src/test/union/range.rs:221-235 *)
Example test_union_range_upper_bounded_set : passes (
  x1 <- union (VRangeTo (mkRangeTo (lit I32 1))) (VRange (mkRange (lit I32 4) (lit I32 5))) ;;
  let s := x1 in
  x2 <- union (VRange (mkRange (lit I32 1) (lit I32 3))) s ;;
  let u := x2 in
  _ <- assert (contains u (lit I32 0)) ;;
  _ <- assert (contains u (lit I32 1)) ;;
  _ <- assert (contains u (lit I32 2)) ;;
  _ <- assert (negb (contains u (lit I32 3))) ;;
  _ <- assert (contains u (lit I32 4)) ;;
  _ <- assert (negb (contains u (lit I32 5))) ;;
  _ <- assert (negb (contains u (lit I32 6))) ;;
  _ <- assert (negb (contains u (lit I32 7))) ;;
  _ <- assert (negb (contains u (lit I32 8))) ;;
  _ <- assert (negb (is_empty u)) ;;
  Ret tt).
Proof. vm_compute. reflexivity. Qed.
(** src/test/union/range.rs:237-249 *)
Example test_union_range_unbounded_set : passes (
  x1 <- union (VRangeTo (mkRangeTo (lit I32 2))) (VRangeFrom (mkRangeFrom (lit I32 5))) ;;
  let s := x1 in
  x2 <- union (VRange (mkRange (lit I32 1) (lit I32 3))) s ;;
  let u := x2 in
  _ <- assert (contains u (lit I32 0)) ;;
  _ <- assert (contains u (lit I32 1)) ;;
  _ <- assert (contains u (lit I32 2)) ;;
  _ <- assert (negb (contains u (lit I32 3))) ;;
  _ <- assert (negb (contains u (lit I32 4))) ;;
  _ <- assert (contains u (lit I32 5)) ;;
  _ <- assert (contains u (lit I32 6)) ;;
  _ <- assert (negb (is_empty u)) ;;
  Ret tt).
Proof. vm_compute. reflexivity. Qed.
(** src/test/union/range_from.rs:3-18 *)
Example test_union_range_from_range : passes (
  x1 <- union (VRangeFrom (mkRangeFrom (lit I32 3))) (VRange (mkRange (lit I32 2) (lit I32 4))) ;;
  let u := x1 in
  x2 <- into_iter u ;;
  x3 <- it_take 5 x2 ;;
  _ <- assert (list_eqb x3 [2; 3; 4; 5; 6]) ;;
  _ <- assert (negb (contains u (lit I32 0))) ;;
  _ <- assert (negb (contains u (lit I32 1))) ;;
  _ <- assert (contains u (lit I32 2)) ;;
  _ <- assert (contains u (lit I32 3)) ;;
  _ <- assert (contains u (lit I32 4)) ;;
  _ <- assert (contains u (lit I32 5)) ;;
  _ <- assert (contains u (lit I32 6)) ;;
  _ <- assert (negb (is_empty u)) ;;
  Ret tt).
Proof. vm_compute. reflexivity. Qed.
(** src/test/union/range_from.rs:20-35 *)
Example test_union_range_from_range_from : passes (
  x1 <- union (VRangeFrom (mkRangeFrom (lit I32 3))) (VRangeFrom (mkRangeFrom (lit I32 4))) ;;
  let u := x1 in
  x2 <- into_iter u ;;
  x3 <- it_take 5 x2 ;;
  _ <- assert (list_eqb x3 [3; 4; 5; 6; 7]) ;;
  _ <- assert (negb (contains u (lit I32 0))) ;;
  _ <- assert (negb (contains u (lit I32 1))) ;;
  _ <- assert (negb (contains u (lit I32 2))) ;;
  _ <- assert (contains u (lit I32 3)) ;;
  _ <- assert (contains u (lit I32 4)) ;;
  _ <- assert (contains u (lit I32 5)) ;;
  _ <- assert (contains u (lit I32 6)) ;;
  _ <- assert (negb (is_empty u)) ;;
  Ret tt).
Proof. vm_compute. reflexivity. Qed.
(** src/test/union/range_from.rs:37-48 *)
Example test_union_range_from_range_full : passes (
  x1 <- union (VRangeFrom (mkRangeFrom (lit I32 3))) (VRangeFull mkRangeFull : value (mint I32)) ;;
  let u := x1 in
  _ <- assert (contains u (lit I32 0)) ;;
  _ <- assert (contains u (lit I32 1)) ;;
  _ <- assert (contains u (lit I32 2)) ;;
  _ <- assert (contains u (lit I32 3)) ;;
  _ <- assert (contains u (lit I32 4)) ;;
  _ <- assert (contains u (lit I32 5)) ;;
  _ <- assert (contains u (lit I32 6)) ;;
  _ <- assert (negb (is_empty u)) ;;
  Ret tt).
Proof. vm_compute. reflexivity. Qed.
(** src/test/union/range_from.rs:50-65 *)
Example test_union_range_from_range_inclusive : passes (
  x1 <- union (VRangeFrom (mkRangeFrom (lit I32 3))) (VRangeInclusive (mkRangeInclusive (lit I32 1) (lit I32 2) false)) ;;
  let u := x1 in
  x2 <- into_iter u ;;
  x3 <- it_take 5 x2 ;;
  _ <- assert (list_eqb x3 [1; 2; 3; 4; 5]) ;;
  _ <- assert (negb (contains u (lit I32 0))) ;;
  _ <- assert (contains u (lit I32 1)) ;;
  _ <- assert (contains u (lit I32 2)) ;;
  _ <- assert (contains u (lit I32 3)) ;;
  _ <- assert (contains u (lit I32 4)) ;;
  _ <- assert (contains u (lit I32 5)) ;;
  _ <- assert (contains u (lit I32 6)) ;;
  _ <- assert (negb (is_empty u)) ;;
  Ret tt).
Proof. vm_compute. reflexivity. Qed.
(** src/test/union/range_from.rs:67-87 *)
Example test_union_range_from_range_to : passes (
  x1 <- union (VRangeFrom (mkRangeFrom (lit I32 3))) (VRangeTo (mkRangeTo (lit I32 2))) ;;
  let u := x1 in
  _ <- assert (contains u (lit I32 0)) ;;
  _ <- assert (contains u (lit I32 1)) ;;
  _ <- assert (negb (contains u (lit I32 2))) ;;
  _ <- assert (contains u (lit I32 3)) ;;
  _ <- assert (contains u (lit I32 4)) ;;
  _ <- assert (contains u (lit I32 5)) ;;
  _ <- assert (contains u (lit I32 6)) ;;
  _ <- assert (negb (is_empty u)) ;;
  x2 <- union (VRangeFrom (mkRangeFrom (lit I32 3))) (VRangeTo (mkRangeTo (lit I32 4))) ;;
  let full := x2 in
  _ <- assert (negb (is_empty full)) ;;
  _ <- assert (contains full (lit I32 0)) ;;
  _ <- assert (contains full (lit I32 1)) ;;
  _ <- assert (contains full (lit I32 2)) ;;
  _ <- assert (contains full (lit I32 3)) ;;
  _ <- assert (contains full (lit I32 4)) ;;
  _ <- assert (contains full (lit I32 5)) ;;
  Ret tt).
Proof. vm_compute. reflexivity. Qed.
(** src/test/union/range_from.rs:89-109 *)
Example test_union_range_from_range_to_inclusive : passes (
  x1 <- union (VRangeFrom (mkRangeFrom (lit I32 3))) (VRangeToInclusive (mkRangeToInclusive (lit I32 1))) ;;
  let u := x1 in
  _ <- assert (contains u (lit I32 0)) ;;
  _ <- assert (contains u (lit I32 1)) ;;
  _ <- assert (negb (contains u (lit I32 2))) ;;
  _ <- assert (contains u (lit I32 3)) ;;
  _ <- assert (contains u (lit I32 4)) ;;
  _ <- assert (contains u (lit I32 5)) ;;
  _ <- assert (contains u (lit I32 6)) ;;
  _ <- assert (negb (is_empty u)) ;;
  x2 <- union (VRangeFrom (mkRangeFrom (lit I32 3))) (VRangeToInclusive (mkRangeToInclusive (lit I32 4))) ;;
  let full := x2 in
  _ <- assert (negb (is_empty full)) ;;
  _ <- assert (contains full (lit I32 0)) ;;
  _ <- assert (contains full (lit I32 1)) ;;
  _ <- assert (contains full (lit I32 2)) ;;
  _ <- assert (contains full (lit I32 3)) ;;
  _ <- assert (contains full (lit I32 4)) ;;
  _ <- assert (contains full (lit I32 5)) ;;
  Ret tt).
Proof. vm_compute. reflexivity. Qed.
(** src/test/union/range_from.rs:111-127 *)
Example test_union_range_from_bounded_range : passes (
  x1 <- intersection (VRange (mkRange (lit I32 2) (lit I32 4))) (VRangeFull mkRangeFull : value (mint I32)) ;;
  let r := x1 in
  x2 <- union (VRangeFrom (mkRangeFrom (lit I32 3))) r ;;
  let u := x2 in
  x3 <- into_iter u ;;
  x4 <- it_take 5 x3 ;;
  _ <- assert (list_eqb x4 [2; 3; 4; 5; 6]) ;;
  _ <- assert (negb (contains u (lit I32 0))) ;;
  _ <- assert (negb (contains u (lit I32 1))) ;;
  _ <- assert (contains u (lit I32 2)) ;;
  _ <- assert (contains u (lit I32 3)) ;;
  _ <- assert (contains u (lit I32 4)) ;;
  _ <- assert (contains u (lit I32 5)) ;;
  _ <- assert (contains u (lit I32 6)) ;;
  _ <- assert (negb (is_empty u)) ;;
  Ret tt).
Proof. vm_compute. reflexivity. Qed.
(** src/test/union/range_from.rs:129-145 *)
Example test_union_range_from_lower_bounded_range : passes (
  x1 <- intersection (VRangeFrom (mkRangeFrom (lit I32 4))) (VRangeFull mkRangeFull : value (mint I32)) ;;
  let r := x1 in
  x2 <- union (VRangeFrom (mkRangeFrom (lit I32 3))) r ;;
  let u := x2 in
  x3 <- into_iter u ;;
  x4 <- it_take 5 x3 ;;
  _ <- assert (list_eqb x4 [3; 4; 5; 6; 7]) ;;
  _ <- assert (negb (contains u (lit I32 0))) ;;
  _ <- assert (negb (contains u (lit I32 1))) ;;
  _ <- assert (negb (contains u (lit I32 2))) ;;
  _ <- assert (contains u (lit I32 3)) ;;
  _ <- assert (contains u (lit I32 4)) ;;
  _ <- assert (contains u (lit I32 5)) ;;
  _ <- assert (contains u (lit I32 6)) ;;
  _ <- assert (negb (is_empty u)) ;;
  Ret tt).
Proof. vm_compute. reflexivity. Qed.
(** src/test/union/range_from.rs:147-169 *)
Example test_union_range_from_upper_bounded_range : passes (
  x1 <- intersection (VRangeTo (mkRangeTo (lit I32 2))) (VRangeFull mkRangeFull : value (mint I32)) ;;
  let r := x1 in
  x2 <- union (VRangeFrom (mkRangeFrom (lit I32 3))) r ;;
  let u := x2 in
  _ <- assert (contains u (lit I32 0)) ;;
  _ <- assert (contains u (lit I32 1)) ;;
  _ <- assert (negb (contains u (lit I32 2))) ;;
  _ <- assert (contains u (lit I32 3)) ;;
  _ <- assert (contains u (lit I32 4)) ;;
  _ <- assert (contains u (lit I32 5)) ;;
  _ <- assert (contains u (lit I32 6)) ;;
  _ <- assert (negb (is_empty u)) ;;
  x3 <- intersection (VRangeTo (mkRangeTo (lit I32 4))) (VRangeFull mkRangeFull : value (mint I32)) ;;
  let r := x3 in
  x4 <- union (VRangeFrom (mkRangeFrom (lit I32 3))) r ;;
  let full := x4 in
  _ <- assert (negb (is_empty full)) ;;
  _ <- assert (contains full (lit I32 0)) ;;
  _ <- assert (contains full (lit I32 1)) ;;
  _ <- assert (contains full (lit I32 2)) ;;
  _ <- assert (contains full (lit I32 3)) ;;
  _ <- assert (contains full (lit I32 4)) ;;
  _ <- assert (contains full (lit I32 5)) ;;
  Ret tt).
Proof. vm_compute. reflexivity. Qed.
(** src/test/union/range_from.rs:171-183 *)
Example test_union_range_from_unbounded_range : passes (
  x1 <- intersection (VRangeFull mkRangeFull : value (mint I32)) (VRangeFull mkRangeFull : value (mint I32)) ;;
  let r := x1 in
  x2 <- union (VRangeFrom (mkRangeFrom (lit I32 3))) r ;;
  let u := x2 in
  _ <- assert (contains u (lit I32 0)) ;;
  _ <- assert (contains u (lit I32 1)) ;;
  _ <- assert (contains u (lit I32 2)) ;;
  _ <- assert (contains u (lit I32 3)) ;;
  _ <- assert (contains u (lit I32 4)) ;;
  _ <- assert (contains u (lit I32 5)) ;;
  _ <- assert (contains u (lit I32 6)) ;;
  _ <- assert (negb (is_empty u)) ;;
  Ret tt).
Proof. vm_compute. reflexivity. Qed.
(** src/test/union/range_from.rs:185-190 *)
Example test_union_range_from_empty_range : passes (
  let r := (VRangeFrom (mkRangeFrom (lit I32 3))) in
  x1 <- union r (VEmpty mkEmptyRange : value (mint I32)) ;;
  let u := x1 in
  _ <- assert (value_eqb r u) ;;
  Ret tt).
Proof. vm_compute. reflexivity. Qed.
(** src/test/union/range_from.rs:192-208 *)
Example test_union_range_from_bounded_set : passes (
  x1 <- union (VRange (mkRange (lit I32 2) (lit I32 4))) (VRange (mkRange (lit I32 4) (lit I32 5))) ;;
  let s := x1 in
  x2 <- union (VRangeFrom (mkRangeFrom (lit I32 3))) s ;;
  let u := x2 in
  x3 <- into_iter u ;;
  x4 <- it_take 5 x3 ;;
  _ <- assert (list_eqb x4 [2; 3; 4; 5; 6]) ;;
  _ <- assert (negb (contains u (lit I32 0))) ;;
  _ <- assert (negb (contains u (lit I32 1))) ;;
  _ <- assert (contains u (lit I32 2)) ;;
  _ <- assert (contains u (lit I32 3)) ;;
  _ <- assert (contains u (lit I32 4)) ;;
  _ <- assert (contains u (lit I32 5)) ;;
  _ <- assert (contains u (lit I32 6)) ;;
  _ <- assert (negb (is_empty u)) ;;
  Ret tt).
Proof. vm_compute. reflexivity. Qed.
(** src/test/union/range_from.rs:210-226 *)
Example test_union_range_from_lower_bounded_set : passes (
  x1 <- union (VRange (mkRange (lit I32 2) (lit I32 3))) (VRangeFrom (mkRangeFrom (lit I32 4))) ;;
  let s := x1 in
  x2 <- union (VRangeFrom (mkRangeFrom (lit I32 3))) s ;;
  let u := x2 in
  x3 <- into_iter u ;;
  x4 <- it_take 5 x3 ;;
  _ <- assert (list_eqb x4 [2; 3; 4; 5; 6]) ;;
  _ <- assert (negb (contains u (lit I32 0))) ;;
  _ <- assert (negb (contains u (lit I32 1))) ;;
  _ <- assert (contains u (lit I32 2)) ;;
  _ <- assert (contains u (lit I32 3)) ;;
  _ <- assert (contains u (lit I32 4)) ;;
  _ <- assert (contains u (lit I32 5)) ;;
  _ <- assert (contains u (lit I32 6)) ;;
  _ <- assert (negb (is_empty u)) ;;
  Ret tt).
Proof. vm_compute. reflexivity. Qed.
(** src/test/union/range_from.rs:228-250 *)
Example test_union_range_from_upper_bounded_set : passes (
  x1 <- union (VRangeTo (mkRangeTo (lit I32 1))) (VRange (mkRange (lit I32 2) (lit I32 3))) ;;
  let s := x1 in
  x2 <- union (VRangeFrom (mkRangeFrom (lit I32 4))) s ;;
  let u := x2 in
  _ <- assert (contains u (lit I32 0)) ;;
  _ <- assert (negb (contains u (lit I32 1))) ;;
  _ <- assert (contains u (lit I32 2)) ;;
  _ <- assert (negb (contains u (lit I32 3))) ;;
  _ <- assert (contains u (lit I32 4)) ;;
  _ <- assert (contains u (lit I32 5)) ;;
  _ <- assert (contains u (lit I32 6)) ;;
  _ <- assert (negb (is_empty u)) ;;
  x3 <- union (VRangeTo (mkRangeTo (lit I32 4))) (VRange (mkRange (lit I32 5) (lit I32 6))) ;;
  let s := x3 in
  x4 <- union (VRangeFrom (mkRangeFrom (lit I32 3))) s ;;
  let full := x4 in
  _ <- assert (negb (is_empty full)) ;;
  _ <- assert (contains full (lit I32 0)) ;;
  _ <- assert (contains full (lit I32 1)) ;;
  _ <- assert (contains full (lit I32 2)) ;;
  _ <- assert (contains full (lit I32 3)) ;;
  _ <- assert (contains full (lit I32 4)) ;;
  _ <- assert (contains full (lit I32 5)) ;;
  Ret tt).
Proof. vm_compute. reflexivity. Qed.
(** src/test/union/range_from.rs:252-264 *)
Example test_union_range_from_unbounded_set : passes (
  x1 <- union (VRangeTo (mkRangeTo (lit I32 1))) (VRangeFrom (mkRangeFrom (lit I32 4))) ;;
  let s := x1 in
  x2 <- union (VRangeFrom (mkRangeFrom (lit I32 3))) s ;;
  let u := x2 in
  _ <- assert (contains u (lit I32 0)) ;;
  _ <- assert (negb (contains u (lit I32 1))) ;;
  _ <- assert (negb (contains u (lit I32 2))) ;;
  _ <- assert (contains u (lit I32 3)) ;;
  _ <- assert (contains u (lit I32 4)) ;;
  _ <- assert (contains u (lit I32 5)) ;;
  _ <- assert (contains u (lit I32 6)) ;;
  _ <- assert (negb (is_empty u)) ;;
  Ret tt).
Proof. vm_compute. reflexivity. Qed.
(** src/test/union/range_full.rs:3-15 *)
Example test_union_range_full_range : passes (
  let r := (VRangeFull mkRangeFull : value (mint I32)) in
  x1 <- union r (VRange (mkRange (lit I32 3) (lit I32 5))) ;;
  let u := x1 in
  _ <- assert (contains u (lit I32 0)) ;;
  _ <- assert (contains u (lit I32 1)) ;;
  _ <- assert (contains u (lit I32 2)) ;;
  _ <- assert (contains u (lit I32 5)) ;;
  _ <- assert (contains u (lit I32 10)) ;;
  _ <- assert (contains u (lit I32 100)) ;;
  _ <- assert (contains u (lit I32 1000)) ;;
  _ <- assert (negb (is_empty u)) ;;
  Ret tt).
Proof. vm_compute. reflexivity. Qed.
(** src/test/union/range_full.rs:17-29 *)
Example test_union_range_full_range_from : passes (
  let r := (VRangeFull mkRangeFull : value (mint I32)) in
  x1 <- union r (VRangeFrom (mkRangeFrom (lit I32 3))) ;;
  let u := x1 in
  _ <- assert (contains u (lit I32 0)) ;;
  _ <- assert (contains u (lit I32 1)) ;;
  _ <- assert (contains u (lit I32 2)) ;;
  _ <- assert (contains u (lit I32 5)) ;;
  _ <- assert (contains u (lit I32 10)) ;;
  _ <- assert (contains u (lit I32 100)) ;;
  _ <- assert (contains u (lit I32 1000)) ;;
  _ <- assert (negb (is_empty u)) ;;
  Ret tt).
Proof. vm_compute. reflexivity. Qed.
(** src/test/union/range_full.rs:31-43 *)
Example test_union_range_full_range_full : passes (
  let r := (VRangeFull mkRangeFull : value (mint I32)) in
  x1 <- union r (VRangeFull mkRangeFull : value (mint I32)) ;;
  let u := x1 in
  _ <- assert (contains u (lit I32 0)) ;;
  _ <- assert (contains u (lit I32 1)) ;;
  _ <- assert (contains u (lit I32 2)) ;;
  _ <- assert (contains u (lit I32 5)) ;;
  _ <- assert (contains u (lit I32 10)) ;;
  _ <- assert (contains u (lit I32 100)) ;;
  _ <- assert (contains u (lit I32 1000)) ;;
  _ <- assert (negb (is_empty u)) ;;
  Ret tt).
Proof. vm_compute. reflexivity. Qed.
(** src/test/union/range_full.rs:45-57 *)
Example test_union_range_full_range_inclusive : passes (
  let r := (VRangeFull mkRangeFull : value (mint I32)) in
  x1 <- union r (VRangeInclusive (mkRangeInclusive (lit I32 3) (lit I32 5) false)) ;;
  let u := x1 in
  _ <- assert (contains u (lit I32 0)) ;;
  _ <- assert (contains u (lit I32 1)) ;;
  _ <- assert (contains u (lit I32 2)) ;;
  _ <- assert (contains u (lit I32 5)) ;;
  _ <- assert (contains u (lit I32 10)) ;;
  _ <- assert (contains u (lit I32 100)) ;;
  _ <- assert (contains u (lit I32 1000)) ;;
  _ <- assert (negb (is_empty u)) ;;
  Ret tt).
Proof. vm_compute. reflexivity. Qed.
(** src/test/union/range_full.rs:59-71 *)
Example test_union_range_full_range_to : passes (
  let r := (VRangeFull mkRangeFull : value (mint I32)) in
  x1 <- union r (VRangeTo (mkRangeTo (lit I32 5))) ;;
  let u := x1 in
  _ <- assert (contains u (lit I32 0)) ;;
  _ <- assert (contains u (lit I32 1)) ;;
  _ <- assert (contains u (lit I32 2)) ;;
  _ <- assert (contains u (lit I32 5)) ;;
  _ <- assert (contains u (lit I32 10)) ;;
  _ <- assert (contains u (lit I32 100)) ;;
  _ <- assert (contains u (lit I32 1000)) ;;
  _ <- assert (negb (is_empty u)) ;;
  Ret tt).
Proof. vm_compute. reflexivity. Qed.
(** src/test/union/range_full.rs:73-85 *)
Example test_union_range_full_range_to_inclusive : passes (
  let r := (VRangeFull mkRangeFull : value (mint I32)) in
  x1 <- union r (VRangeToInclusive (mkRangeToInclusive (lit I32 5))) ;;
  let u := x1 in
  _ <- assert (contains u (lit I32 0)) ;;
  _ <- assert (contains u (lit I32 1)) ;;
  _ <- assert (contains u (lit I32 2)) ;;
  _ <- assert (contains u (lit I32 5)) ;;
  _ <- assert (contains u (lit I32 10)) ;;
  _ <- assert (contains u (lit I32 100)) ;;
  _ <- assert (contains u (lit I32 1000)) ;;
  _ <- assert (negb (is_empty u)) ;;
  Ret tt).
Proof. vm_compute. reflexivity. Qed.
(** src/test/union/range_full.rs:87-100 *)
Example test_union_range_full_bounded_range : passes (
  let r := (VRangeFull mkRangeFull : value (mint I32)) in
  x1 <- intersection (VRange (mkRange (lit I32 1) (lit I32 10))) (VRange (mkRange (lit I32 5) (lit I32 7))) ;;
  let r2 := x1 in
  x2 <- union r r2 ;;
  let u := x2 in
  _ <- assert (contains u (lit I32 0)) ;;
  _ <- assert (contains u (lit I32 1)) ;;
  _ <- assert (contains u (lit I32 2)) ;;
  _ <- assert (contains u (lit I32 5)) ;;
  _ <- assert (contains u (lit I32 10)) ;;
  _ <- assert (contains u (lit I32 100)) ;;
  _ <- assert (contains u (lit I32 1000)) ;;
  _ <- assert (negb (is_empty u)) ;;
  Ret tt).
Proof. vm_compute. reflexivity. Qed.
(** src/test/union/range_full.rs:102-115 *)
Example test_union_range_full_lower_bounded_range : passes (
  let r := (VRangeFull mkRangeFull : value (mint I32)) in
  x1 <- intersection (VRangeFrom (mkRangeFrom (lit I32 4))) (VRangeFrom (mkRangeFrom (lit I32 5))) ;;
  let r2 := x1 in
  x2 <- union r r2 ;;
  let u := x2 in
  _ <- assert (contains u (lit I32 0)) ;;
  _ <- assert (contains u (lit I32 1)) ;;
  _ <- assert (contains u (lit I32 2)) ;;
  _ <- assert (contains u (lit I32 5)) ;;
  _ <- assert (contains u (lit I32 10)) ;;
  _ <- assert (contains u (lit I32 100)) ;;
  _ <- assert (contains u (lit I32 1000)) ;;
  _ <- assert (negb (is_empty u)) ;;
  Ret tt).
Proof. vm_compute. reflexivity. Qed.
(** src/test/union/range_full.rs:117-130 *)
Example test_union_range_full_upper_bounded_range : passes (
  let r := (VRangeFull mkRangeFull : value (mint I32)) in
  x1 <- intersection (VRangeTo (mkRangeTo (lit I32 4))) (VRangeTo (mkRangeTo (lit I32 5))) ;;
  let r2 := x1 in
  x2 <- union r r2 ;;
  let u := x2 in
  _ <- assert (contains u (lit I32 0)) ;;
  _ <- assert (contains u (lit I32 1)) ;;
  _ <- assert (contains u (lit I32 2)) ;;
  _ <- assert (contains u (lit I32 5)) ;;
  _ <- assert (contains u (lit I32 10)) ;;
  _ <- assert (contains u (lit I32 100)) ;;
  _ <- assert (contains u (lit I32 1000)) ;;
  _ <- assert (negb (is_empty u)) ;;
  Ret tt).
Proof. vm_compute. reflexivity. Qed.
(** src/test/union/range_full.rs:132-145 *)
Example test_union_range_full_unbounded_range : passes (
  let r := (VRangeFull mkRangeFull : value (mint I32)) in
  x1 <- intersection (VRangeFull mkRangeFull : value (mint I32)) (VRangeFull mkRangeFull : value (mint I32)) ;;
  let r2 := x1 in
  x2 <- union r r2 ;;
  let u := x2 in
  _ <- assert (contains u (lit I32 0)) ;;
  _ <- assert (contains u (lit I32 1)) ;;
  _ <- assert (contains u (lit I32 2)) ;;
  _ <- assert (contains u (lit I32 5)) ;;
  _ <- assert (contains u (lit I32 10)) ;;
  _ <- assert (contains u (lit I32 100)) ;;
  _ <- assert (contains u (lit I32 1000)) ;;
  _ <- assert (negb (is_empty u)) ;;
  Ret tt).
Proof. vm_compute. reflexivity. Qed.
(** src/test/union/range_full.rs:147-152 *)
Example test_union_range_full_empty_range : passes (
  let r := (VRangeFull mkRangeFull : value (mint I32)) in
  x1 <- union r (VEmpty mkEmptyRange : value (mint I32)) ;;
  let u := x1 in
  _ <- assert (value_eqb r u) ;;
  Ret tt).
Proof. vm_compute. reflexivity. Qed.
(** src/test/union/range_full.rs:154-167 *)
Example test_union_range_full_bounded_set : passes (
  let r := (VRangeFull mkRangeFull : value (mint I32)) in
  x1 <- union (VRange (mkRange (lit I32 1) (lit I32 5))) (VRange (mkRange (lit I32 10) (lit I32 12))) ;;
  let s := x1 in
  x2 <- union r s ;;
  let u := x2 in
  _ <- assert (contains u (lit I32 0)) ;;
  _ <- assert (contains u (lit I32 1)) ;;
  _ <- assert (contains u (lit I32 2)) ;;
  _ <- assert (contains u (lit I32 5)) ;;
  _ <- assert (contains u (lit I32 10)) ;;
  _ <- assert (contains u (lit I32 100)) ;;
  _ <- assert (contains u (lit I32 1000)) ;;
  _ <- assert (negb (is_empty u)) ;;
  Ret tt).
Proof. vm_compute. reflexivity. Qed.
(** src/test/union/range_full.rs:169-182 *)
Example test_union_range_full_lower_bounded_set : passes (
  let r := (VRangeFull mkRangeFull : value (mint I32)) in
  x1 <- union (VRangeTo (mkRangeTo (lit I32 5))) (VRange (mkRange (lit I32 10) (lit I32 12))) ;;
  let s := x1 in
  x2 <- union r s ;;
  let u := x2 in
  _ <- assert (contains u (lit I32 0)) ;;
  _ <- assert (contains u (lit I32 1)) ;;
  _ <- assert (contains u (lit I32 2)) ;;
  _ <- assert (contains u (lit I32 5)) ;;
  _ <- assert (contains u (lit I32 10)) ;;
  _ <- assert (contains u (lit I32 100)) ;;
  _ <- assert (contains u (lit I32 1000)) ;;
  _ <- assert (negb (is_empty u)) ;;
  Ret tt).
Proof. vm_compute. reflexivity. Qed.
(** src/test/union/range_full.rs:184-197 *)
Example test_union_range_full_upper_bounded_set : passes (
  let r := (VRangeFull mkRangeFull : value (mint I32)) in
  x1 <- union (VRange (mkRange (lit I32 1) (lit I32 5))) (VRangeFrom (mkRangeFrom (lit I32 10))) ;;
  let s := x1 in
  x2 <- union r s ;;
  let u := x2 in
  _ <- assert (contains u (lit I32 0)) ;;
  _ <- assert (contains u (lit I32 1)) ;;
  _ <- assert (contains u (lit I32 2)) ;;
  _ <- assert (contains u (lit I32 5)) ;;
  _ <- assert (contains u (lit I32 10)) ;;
  _ <- assert (contains u (lit I32 100)) ;;
  _ <- assert (contains u (lit I32 1000)) ;;
  _ <- assert (negb (is_empty u)) ;;
  Ret tt).
Proof. vm_compute. reflexivity. Qed.
(** src/test/union/range_full.rs:199-212 *)
Example test_union_range_full_unbounded_set : passes (
  let r := (VRangeFull mkRangeFull : value (mint I32)) in
  x1 <- union (VRangeTo (mkRangeTo (lit I32 5))) (VRangeFrom (mkRangeFrom (lit I32 10))) ;;
  let s := x1 in
  x2 <- union r s ;;
  let u := x2 in
  _ <- assert (contains u (lit I32 0)) ;;
  _ <- assert (contains u (lit I32 1)) ;;
  _ <- assert (contains u (lit I32 2)) ;;
  _ <- assert (contains u (lit I32 5)) ;;
  _ <- assert (contains u (lit I32 10)) ;;
  _ <- assert (contains u (lit I32 100)) ;;
  _ <- assert (contains u (lit I32 1000)) ;;
  _ <- assert (negb (is_empty u)) ;;
  Ret tt).
Proof. vm_compute. reflexivity. Qed.
(** src/test/union/range_inclusive.rs:3-21 *)
Example test_union_range_inclusive_range : passes (
  x1 <- union (VRangeInclusive (mkRangeInclusive (lit I32 0) (lit I32 2) false)) (VRange (mkRange (lit I32 5) (lit I32 7))) ;;
  let u := x1 in
  x2 <- into_iter u ;;
  x3 <- it_collect x2 ;;
  _ <- assert (list_eqb x3 [0; 1; 2; 5; 6]) ;;
  _ <- assert (contains u (lit I32 0)) ;;
  _ <- assert (contains u (lit I32 1)) ;;
  _ <- assert (contains u (lit I32 2)) ;;
  _ <- assert (negb (contains u (lit I32 3))) ;;
  _ <- assert (negb (contains u (lit I32 4))) ;;
  _ <- assert (contains u (lit I32 5)) ;;
  _ <- assert (contains u (lit I32 6)) ;;
  _ <- assert (negb (contains u (lit I32 7))) ;;
  _ <- assert (negb (contains u (lit I32 8))) ;;
  _ <- assert (negb (is_empty u)) ;;
  x4 <- union (VRangeInclusive (mkRangeInclusive (lit I32 1) (lit I32 0) false)) (VRange (mkRange (lit I32 1) (lit I32 1))) ;;
  _ <- assert (is_empty x4) ;;
  Ret tt).
Proof. vm_compute. reflexivity. Qed.
(** src/test/union/range_inclusive.rs:23-38 *)
Example test_union_range_inclusive_range_from : passes (
  x1 <- union (VRangeInclusive (mkRangeInclusive (lit I32 1) (lit I32 2) false)) (VRangeFrom (mkRangeFrom (lit I32 2))) ;;
  let u := x1 in
  x2 <- into_iter u ;;
  x3 <- it_take 3 x2 ;;
  _ <- assert (list_eqb x3 [1; 2; 3]) ;;
  _ <- assert (negb (contains u (lit I32 0))) ;;
  _ <- assert (contains u (lit I32 1)) ;;
  _ <- assert (contains u (lit I32 2)) ;;
  _ <- assert (contains u (lit I32 3)) ;;
  _ <- assert (contains u (lit I32 4)) ;;
  _ <- assert (contains u (lit I32 5)) ;;
  _ <- assert (contains u (lit I32 6)) ;;
  _ <- assert (negb (is_empty u)) ;;
  Ret tt).
Proof. vm_compute. reflexivity. Qed.
(** src/test/union/range_inclusive.rs:40-53 *)
Example test_union_range_inclusive_range_full : passes (
  x1 <- union (VRangeInclusive (mkRangeInclusive (lit I32 1) (lit I32 2) false)) (VRangeFull mkRangeFull : value (mint I32)) ;;
  let u := x1 in
  _ <- assert (contains u (lit I32 0)) ;;
  _ <- assert (contains u (lit I32 1)) ;;
  _ <- assert (contains u (lit I32 2)) ;;
  _ <- assert (contains u (lit I32 3)) ;;
  _ <- assert (contains u (lit I32 4)) ;;
  _ <- assert (contains u (lit I32 5)) ;;
  _ <- assert (contains u (lit I32 6)) ;;
  _ <- assert (contains u (lit I32 7)) ;;
  _ <- assert (contains u (lit I32 8)) ;;
  _ <- assert (negb (is_empty u)) ;;
  Ret tt).
Proof. vm_compute. reflexivity. Qed.
(** src/test/union/range_inclusive.rs:55-73 *)
Example test_union_range_inclusive_range_inclusive : passes (
  x1 <- union (VRangeInclusive (mkRangeInclusive (lit I32 1) (lit I32 2) false)) (VRangeInclusive (mkRangeInclusive (lit I32 5) (lit I32 7) false)) ;;
  let u := x1 in
  x2 <- into_iter u ;;
  x3 <- it_collect x2 ;;
  _ <- assert (list_eqb x3 [1; 2; 5; 6; 7]) ;;
  _ <- assert (negb (contains u (lit I32 0))) ;;
  _ <- assert (contains u (lit I32 1)) ;;
  _ <- assert (contains u (lit I32 2)) ;;
  _ <- assert (negb (contains u (lit I32 3))) ;;
  _ <- assert (negb (contains u (lit I32 4))) ;;
  _ <- assert (contains u (lit I32 5)) ;;
  _ <- assert (contains u (lit I32 6)) ;;
  _ <- assert (contains u (lit I32 7)) ;;
  _ <- assert (negb (contains u (lit I32 8))) ;;
  _ <- assert (negb (is_empty u)) ;;
  x4 <- union (VRangeInclusive (mkRangeInclusive (lit I32 1) (lit I32 0) false)) (VRangeInclusive (mkRangeInclusive (lit I32 1) (lit I32 0) false)) ;;
  _ <- assert (is_empty x4) ;;
  Ret tt).
Proof. vm_compute. reflexivity. Qed.
(** src/test/union/range_inclusive.rs:75-88 *)
Example test_union_range_inclusive_range_to : passes (
  x1 <- union (VRangeInclusive (mkRangeInclusive (lit I32 1) (lit I32 2) false)) (VRangeTo (mkRangeTo (lit I32 2))) ;;
  let u := x1 in
  _ <- assert (contains u (lit I32 0)) ;;
  _ <- assert (contains u (lit I32 1)) ;;
  _ <- assert (contains u (lit I32 2)) ;;
  _ <- assert (negb (contains u (lit I32 3))) ;;
  _ <- assert (negb (contains u (lit I32 4))) ;;
  _ <- assert (negb (contains u (lit I32 5))) ;;
  _ <- assert (negb (contains u (lit I32 6))) ;;
  _ <- assert (negb (contains u (lit I32 7))) ;;
  _ <- assert (negb (contains u (lit I32 8))) ;;
  _ <- assert (negb (is_empty u)) ;;
  Ret tt).
Proof. vm_compute. reflexivity. Qed.
(** src/test/union/range_inclusive.rs:90-103 *)
Example test_union_range_inclusive_range_to_inclusive : passes (
  x1 <- union (VRangeInclusive (mkRangeInclusive (lit I32 1) (lit I32 2) false)) (VRangeToInclusive (mkRangeToInclusive (lit I32 4))) ;;
  let u := x1 in
  _ <- assert (contains u (lit I32 0)) ;;
  _ <- assert (contains u (lit I32 1)) ;;
  _ <- assert (contains u (lit I32 2)) ;;
  _ <- assert (contains u (lit I32 3)) ;;
  _ <- assert (contains u (lit I32 4)) ;;
  _ <- assert (negb (contains u (lit I32 5))) ;;
  _ <- assert (negb (contains u (lit I32 6))) ;;
  _ <- assert (negb (contains u (lit I32 7))) ;;
  _ <- assert (negb (contains u (lit I32 8))) ;;
  _ <- assert (negb (is_empty u)) ;;
  Ret tt).
Proof. vm_compute. reflexivity. Qed.
(** src/test/union/range_inclusive.rs:105-122 *)
Example test_union_range_inclusive_bounded_range : passes (
  x1 <- intersection (VRange (mkRange (lit I32 5) (lit I32 7))) (VRangeFull mkRangeFull : value (mint I32)) ;;
  let r := x1 in
  x2 <- union (VRangeInclusive (mkRangeInclusive (lit I32 1) (lit I32 2) false)) r ;;
  let u := x2 in
  x3 <- into_iter u ;;
  x4 <- it_collect x3 ;;
  _ <- assert (list_eqb x4 [1; 2; 5; 6]) ;;
  _ <- assert (negb (contains u (lit I32 0))) ;;
  _ <- assert (contains u (lit I32 1)) ;;
  _ <- assert (contains u (lit I32 2)) ;;
  _ <- assert (negb (contains u (lit I32 3))) ;;
  _ <- assert (negb (contains u (lit I32 4))) ;;
  _ <- assert (contains u (lit I32 5)) ;;
  _ <- assert (contains u (lit I32 6)) ;;
  _ <- assert (negb (contains u (lit I32 7))) ;;
  _ <- assert (negb (contains u (lit I32 8))) ;;
  _ <- assert (negb (is_empty u)) ;;
  x5 <- intersection (VRange (mkRange (lit I32 1) (lit I32 1))) (VRangeFull mkRangeFull : value (mint I32)) ;;
  let r := x5 in
  x6 <- union (VRangeInclusive (mkRangeInclusive (lit I32 1) (lit I32 0) false)) r ;;
  _ <- assert (is_empty x6) ;;
  Ret tt).
Proof. vm_compute. reflexivity. Qed.
(** src/test/union/range_inclusive.rs:124-140 *)
Example test_union_range_inclusive_lower_bounded_range : passes (
  x1 <- intersection (VRangeFull mkRangeFull : value (mint I32)) (VRangeFrom (mkRangeFrom (lit I32 2))) ;;
  let r := x1 in
  x2 <- union (VRangeInclusive (mkRangeInclusive (lit I32 1) (lit I32 2) false)) r ;;
  let u := x2 in
  x3 <- into_iter u ;;
  x4 <- it_take 5 x3 ;;
  _ <- assert (list_eqb x4 [1; 2; 3; 4; 5]) ;;
  _ <- assert (negb (contains u (lit I32 0))) ;;
  _ <- assert (contains u (lit I32 1)) ;;
  _ <- assert (contains u (lit I32 2)) ;;
  _ <- assert (contains u (lit I32 3)) ;;
  _ <- assert (contains u (lit I32 4)) ;;
  _ <- assert (contains u (lit I32 5)) ;;
  _ <- assert (contains u (lit I32 6)) ;;
  _ <- assert (negb (is_empty u)) ;;
  Ret tt).
Proof. vm_compute. reflexivity. Qed.
(** src/test/union/range_inclusive.rs:142-156 *)
Example test_union_range_inclusive_upper_bounded_range : passes (
  x1 <- intersection (VRangeTo (mkRangeTo (lit I32 1))) (VRangeFull mkRangeFull : value (mint I32)) ;;
  let r := x1 in
  x2 <- union (VRangeInclusive (mkRangeInclusive (lit I32 1) (lit I32 2) false)) r ;;
  let u := x2 in
  _ <- assert (contains u (lit I32 0)) ;;
  _ <- assert (contains u (lit I32 1)) ;;
  _ <- assert (contains u (lit I32 2)) ;;
  _ <- assert (negb (contains u (lit I32 3))) ;;
  _ <- assert (negb (contains u (lit I32 4))) ;;
  _ <- assert (negb (contains u (lit I32 5))) ;;
  _ <- assert (negb (contains u (lit I32 6))) ;;
  _ <- assert (negb (contains u (lit I32 7))) ;;
  _ <- assert (negb (contains u (lit I32 8))) ;;
  _ <- assert (negb (is_empty u)) ;;
  Ret tt).
Proof. vm_compute. reflexivity. Qed.
(** src/test/union/range_inclusive.rs:158-171 *)
Example test_union_range_inclusive_unbounded_range : passes (
  x1 <- intersection (VRangeFull mkRangeFull : value (mint I32)) (VRangeFull mkRangeFull : value (mint I32)) ;;
  let ur := x1 in
  x2 <- union (VRangeInclusive (mkRangeInclusive (lit I32 1) (lit I32 2) false)) ur ;;
  let u := x2 in
  _ <- assert (contains u (lit I32 0)) ;;
  _ <- assert (contains u (lit I32 1)) ;;
  _ <- assert (contains u (lit I32 2)) ;;
  _ <- assert (contains u (lit I32 3)) ;;
  _ <- assert (contains u (lit I32 4)) ;;
  _ <- assert (contains u (lit I32 5)) ;;
  _ <- assert (contains u (lit I32 6)) ;;
  _ <- assert (negb (is_empty u)) ;;
  x3 <- union (VRange (mkRange (lit I32 1) (lit I32 1))) ur ;;
  _ <- assert (negb (is_empty x3)) ;;
  Ret tt).
Proof. vm_compute. reflexivity. Qed.
(** src/test/union/range_inclusive.rs:173-178 *)
Example test_union_range_inclusive_empty_range : passes (
  let r := (VRangeInclusive (mkRangeInclusive (lit I32 1) (lit I32 2) false)) in
  x1 <- union r (VEmpty mkEmptyRange : value (mint I32)) ;;
  let u := x1 in
  _ <- assert (value_eqb r u) ;;
  Ret tt).
Proof. vm_compute. reflexivity. Qed.
(** src/test/union/range_inclusive.rs:180-200 *)
Example test_union_range_inclusive_bounded_set : passes (
  x1 <- union (VRange (mkRange (lit I32 5) (lit I32 7))) (VRange (mkRange (lit I32 2) (lit I32 4))) ;;
  let s := x1 in
  x2 <- union (VRangeInclusive (mkRangeInclusive (lit I32 1) (lit I32 2) false)) s ;;
  let u := x2 in
  x3 <- into_iter u ;;
  x4 <- it_collect x3 ;;
  _ <- assert (list_eqb x4 [1; 2; 3; 5; 6]) ;;
  _ <- assert (negb (contains u (lit I32 0))) ;;
  _ <- assert (contains u (lit I32 1)) ;;
  _ <- assert (contains u (lit I32 2)) ;;
  _ <- assert (contains u (lit I32 3)) ;;
  _ <- assert (negb (contains u (lit I32 4))) ;;
  _ <- assert (contains u (lit I32 5)) ;;
  _ <- assert (contains u (lit I32 6)) ;;
  _ <- assert (negb (contains u (lit I32 7))) ;;
  _ <- assert (negb (contains u (lit I32 8))) ;;
  _ <- assert (negb (is_empty u)) ;;
  x5 <- union (VRange (mkRange (lit I32 1) (lit I32 1))) (VRange (mkRange (lit I32 2) (lit I32 2))) ;;
  let s := x5 in
  x6 <- union (VRange (mkRange (lit I32 0) (lit I32 0))) s ;;
  _ <- assert (is_empty x6) ;;
  Ret tt).
Proof. vm_compute. reflexivity. Qed.
(** src/test/union/range_inclusive.rs:202-218 *)
Example test_union_range_inclusive_lower_bounded_set : passes (
  x1 <- union (VRange (mkRange (lit I32 2) (lit I32 3))) (VRangeFrom (mkRangeFrom (lit I32 5))) ;;
  let s := x1 in
  x2 <- union (VRangeInclusive (mkRangeInclusive (lit I32 1) (lit I32 2) false)) s ;;
  let u := x2 in
  x3 <- into_iter u ;;
  x4 <- it_take 5 x3 ;;
  _ <- assert (list_eqb x4 [1; 2; 5; 6; 7]) ;;
  _ <- assert (negb (contains u (lit I32 0))) ;;
  _ <- assert (contains u (lit I32 1)) ;;
  _ <- assert (contains u (lit I32 2)) ;;
  _ <- assert (negb (contains u (lit I32 3))) ;;
  _ <- assert (negb (contains u (lit I32 4))) ;;
  _ <- assert (contains u (lit I32 5)) ;;
  _ <- assert (contains u (lit I32 6)) ;;
  _ <- assert (negb (is_empty u)) ;;
  Ret tt).
Proof. vm_compute. reflexivity. Qed.
(** src/test/union/range_inclusive.rs:220-234 *)
Example test_union_range_inclusive_upper_bounded_set : passes (
  x1 <- union (VRangeTo (mkRangeTo (lit I32 1))) (VRange (mkRange (lit I32 4) (lit I32 5))) ;;
  let s := x1 in
  x2 <- union (VRangeInclusive (mkRangeInclusive (lit I32 1) (lit I32 2) false)) s ;;
  let u := x2 in
  _ <- assert (contains u (lit I32 0)) ;;
  _ <- assert (contains u (lit I32 1)) ;;
  _ <- assert (contains u (lit I32 2)) ;;
  _ <- assert (negb (contains u (lit I32 3))) ;;
  _ <- assert (contains u (lit I32 4)) ;;
  _ <- assert (negb (contains u (lit I32 5))) ;;
  _ <- assert (negb (contains u (lit I32 6))) ;;
  _ <- assert (negb (contains u (lit I32 7))) ;;
  _ <- assert (negb (contains u (lit I32 8))) ;;
  _ <- assert (negb (is_empty u)) ;;
  Ret tt).
Proof. vm_compute. reflexivity. Qed.
(** src/test/union/range_inclusive.rs:236-248 *)
Example test_union_range_inclusive_unbounded_set : passes (
  x1 <- union (VRangeTo (mkRangeTo (lit I32 2))) (VRangeFrom (mkRangeFrom (lit I32 5))) ;;
  let s := x1 in
  x2 <- union (VRangeInclusive (mkRangeInclusive (lit I32 1) (lit I32 2) false)) s ;;
  let u := x2 in
  _ <- assert (contains u (lit I32 0)) ;;
  _ <- assert (contains u (lit I32 1)) ;;
  _ <- assert (contains u (lit I32 2)) ;;
  _ <- assert (negb (contains u (lit I32 3))) ;;
  _ <- assert (negb (contains u (lit I32 4))) ;;
  _ <- assert (contains u (lit I32 5)) ;;
  _ <- assert (contains u (lit I32 6)) ;;
  _ <- assert (negb (is_empty u)) ;;
  Ret tt).
Proof. vm_compute. reflexivity. Qed.
(** src/test/union/range_to.rs:3-15 *)
Example test_union_range_to_range : passes (
  let r := (VRangeTo (mkRangeTo (lit I32 3))) in
  x1 <- union r (VRange (mkRange (lit I32 2) (lit I32 4))) ;;
  let u := x1 in
  _ <- assert (contains u (lit I32 0)) ;;
  _ <- assert (contains u (lit I32 1)) ;;
  _ <- assert (contains u (lit I32 2)) ;;
  _ <- assert (contains u (lit I32 3)) ;;
  _ <- assert (negb (contains u (lit I32 4))) ;;
  _ <- assert (negb (contains u (lit I32 5))) ;;
  _ <- assert (negb (contains u (lit I32 6))) ;;
  _ <- assert (negb (is_empty u)) ;;
  Ret tt).
Proof. vm_compute. reflexivity. Qed.
(** src/test/union/range_to.rs:17-29 *)
Example test_union_range_to_range_from : passes (
  let r := (VRangeTo (mkRangeTo (lit I32 3))) in
  x1 <- union r (VRangeFrom (mkRangeFrom (lit I32 4))) ;;
  let u := x1 in
  _ <- assert (contains u (lit I32 0)) ;;
  _ <- assert (contains u (lit I32 1)) ;;
  _ <- assert (contains u (lit I32 2)) ;;
  _ <- assert (negb (contains u (lit I32 3))) ;;
  _ <- assert (contains u (lit I32 4)) ;;
  _ <- assert (contains u (lit I32 5)) ;;
  _ <- assert (contains u (lit I32 6)) ;;
  _ <- assert (negb (is_empty u)) ;;
  Ret tt).
Proof. vm_compute. reflexivity. Qed.
(** src/test/union/range_to.rs:31-43 *)
Example test_union_range_to_range_full : passes (
  let r := (VRangeTo (mkRangeTo (lit I32 3))) in
  x1 <- union r (VRangeFull mkRangeFull : value (mint I32)) ;;
  let u := x1 in
  _ <- assert (contains u (lit I32 0)) ;;
  _ <- assert (contains u (lit I32 1)) ;;
  _ <- assert (contains u (lit I32 2)) ;;
  _ <- assert (contains u (lit I32 3)) ;;
  _ <- assert (contains u (lit I32 4)) ;;
  _ <- assert (contains u (lit I32 5)) ;;
  _ <- assert (contains u (lit I32 6)) ;;
  _ <- assert (negb (is_empty u)) ;;
  Ret tt).
Proof. vm_compute. reflexivity. Qed.
(** src/test/union/range_to.rs:45-57 *)
Example test_union_range_to_range_inclusive : passes (
  let r := (VRangeTo (mkRangeTo (lit I32 3))) in
  x1 <- union r (VRangeInclusive (mkRangeInclusive (lit I32 2) (lit I32 4) false)) ;;
  let u := x1 in
  _ <- assert (contains u (lit I32 0)) ;;
  _ <- assert (contains u (lit I32 1)) ;;
  _ <- assert (contains u (lit I32 2)) ;;
  _ <- assert (contains u (lit I32 3)) ;;
  _ <- assert (contains u (lit I32 4)) ;;
  _ <- assert (negb (contains u (lit I32 5))) ;;
  _ <- assert (negb (contains u (lit I32 6))) ;;
  _ <- assert (negb (is_empty u)) ;;
  Ret tt).
Proof. vm_compute. reflexivity. Qed.
(** src/test/union/range_to.rs:59-71 *)
Example test_union_range_to_range_to : passes (
  let r := (VRangeTo (mkRangeTo (lit I32 3))) in
  x1 <- union r (VRangeTo (mkRangeTo (lit I32 4))) ;;
  let u := x1 in
  _ <- assert (contains u (lit I32 0)) ;;
  _ <- assert (contains u (lit I32 1)) ;;
  _ <- assert (contains u (lit I32 2)) ;;
  _ <- assert (contains u (lit I32 3)) ;;
  _ <- assert (negb (contains u (lit I32 4))) ;;
  _ <- assert (negb (contains u (lit I32 5))) ;;
  _ <- assert (negb (contains u (lit I32 6))) ;;
  _ <- assert (negb (is_empty u)) ;;
  Ret tt).
Proof. vm_compute. reflexivity. Qed.
(** src/test/union/range_to.rs:73-85 *)
Example test_union_range_to_range_to_inclusive : passes (
  let r := (VRangeTo (mkRangeTo (lit I32 3))) in
  x1 <- union r (VRangeToInclusive (mkRangeToInclusive (lit I32 4))) ;;
  let u := x1 in
  _ <- assert (contains u (lit I32 0)) ;;
  _ <- assert (contains u (lit I32 1)) ;;
  _ <- assert (contains u (lit I32 2)) ;;
  _ <- assert (contains u (lit I32 3)) ;;
  _ <- assert (contains u (lit I32 4)) ;;
  _ <- assert (negb (contains u (lit I32 5))) ;;
  _ <- assert (negb (contains u (lit I32 6))) ;;
  _ <- assert (negb (is_empty u)) ;;
  Ret tt).
Proof. vm_compute. reflexivity. Qed.
(** src/test/union/range_to.rs:87-100 *)
Example test_union_range_to_bounded_range : passes (
  let r := (VRangeTo (mkRangeTo (lit I32 3))) in
  let r2 := (value_of_inner (to_inner (VRange (mkRange (lit I32 2) (lit I32 4))))) in
  x1 <- union r r2 ;;
  let u := x1 in
  _ <- assert (contains u (lit I32 0)) ;;
  _ <- assert (contains u (lit I32 1)) ;;
  _ <- assert (contains u (lit I32 2)) ;;
  _ <- assert (contains u (lit I32 3)) ;;
  _ <- assert (negb (contains u (lit I32 4))) ;;
  _ <- assert (negb (contains u (lit I32 5))) ;;
  _ <- assert (negb (contains u (lit I32 6))) ;;
  _ <- assert (negb (is_empty u)) ;;
  Ret tt).
Proof. vm_compute. reflexivity. Qed.
(** src/test/union/range_to.rs:102-115 *)
Example test_union_range_to_lower_bounded_range : passes (
  let r := (VRangeTo (mkRangeTo (lit I32 3))) in
  let r2 := (value_of_inner (to_inner (VRangeFrom (mkRangeFrom (lit I32 4))))) in
  x1 <- union r r2 ;;
  let u := x1 in
  _ <- assert (contains u (lit I32 0)) ;;
  _ <- assert (contains u (lit I32 1)) ;;
  _ <- assert (contains u (lit I32 2)) ;;
  _ <- assert (negb (contains u (lit I32 3))) ;;
  _ <- assert (contains u (lit I32 4)) ;;
  _ <- assert (contains u (lit I32 5)) ;;
  _ <- assert (contains u (lit I32 6)) ;;
  _ <- assert (negb (is_empty u)) ;;
  Ret tt).
Proof. vm_compute. reflexivity. Qed.
(** src/test/union/range_to.rs:117-130 *)
Example test_union_range_to_upper_bounded_range : passes (
  let r := (VRangeTo (mkRangeTo (lit I32 3))) in
  let r2 := (value_of_inner (to_inner (VRangeTo (mkRangeTo (lit I32 4))))) in
  x1 <- union r r2 ;;
  let u := x1 in
  _ <- assert (contains u (lit I32 0)) ;;
  _ <- assert (contains u (lit I32 1)) ;;
  _ <- assert (contains u (lit I32 2)) ;;
  _ <- assert (contains u (lit I32 3)) ;;
  _ <- assert (negb (contains u (lit I32 4))) ;;
  _ <- assert (negb (contains u (lit I32 5))) ;;
  _ <- assert (negb (contains u (lit I32 6))) ;;
  _ <- assert (negb (is_empty u)) ;;
  Ret tt).
Proof. vm_compute. reflexivity. Qed.
(** src/test/union/range_to.rs:132-145 *)
Example test_union_range_to_unbounded_range : passes (
  let r := (VRangeTo (mkRangeTo (lit I32 3))) in
  x1 <- intersection (VRangeFull mkRangeFull : value (mint I32)) (VRangeFull mkRangeFull : value (mint I32)) ;;
  let r2 := x1 in
  x2 <- union r r2 ;;
  let u := x2 in
  _ <- assert (contains u (lit I32 0)) ;;
  _ <- assert (contains u (lit I32 1)) ;;
  _ <- assert (contains u (lit I32 2)) ;;
  _ <- assert (contains u (lit I32 3)) ;;
  _ <- assert (contains u (lit I32 4)) ;;
  _ <- assert (contains u (lit I32 5)) ;;
  _ <- assert (contains u (lit I32 6)) ;;
  _ <- assert (negb (is_empty u)) ;;
  Ret tt).
Proof. vm_compute. reflexivity. Qed.
(** src/test/union/range_to.rs:147-152 *)
Example test_union_range_to_empty_range : passes (
  let r := (VRangeTo (mkRangeTo (lit I32 4))) in
  x1 <- union r (VEmpty mkEmptyRange : value (mint I32)) ;;
  let u := x1 in
  _ <- assert (value_eqb r u) ;;
  Ret tt).
Proof. vm_compute. reflexivity. Qed.
(** src/test/union/range_to.rs:154-167 *)
Example test_union_range_to_bounded_set : passes (
  let r := (VRangeTo (mkRangeTo (lit I32 3))) in
  x1 <- union (VRange (mkRange (lit I32 2) (lit I32 3))) (VRange (mkRange (lit I32 3) (lit I32 4))) ;;
  let s := x1 in
  x2 <- union r s ;;
  let u := x2 in
  _ <- assert (contains u (lit I32 0)) ;;
  _ <- assert (contains u (lit I32 1)) ;;
  _ <- assert (contains u (lit I32 2)) ;;
  _ <- assert (contains u (lit I32 3)) ;;
  _ <- assert (negb (contains u (lit I32 4))) ;;
  _ <- assert (negb (contains u (lit I32 5))) ;;
  _ <- assert (negb (contains u (lit I32 6))) ;;
  _ <- assert (negb (is_empty u)) ;;
  Ret tt).
Proof. vm_compute. reflexivity. Qed.
(** src/test/union/range_to.rs:169-182 *)
Example test_union_range_to_lower_bounded_set : passes (
  let r := (VRangeTo (mkRangeTo (lit I32 3))) in
  x1 <- union (VRange (mkRange (lit I32 4) (lit I32 5))) (VRangeFrom (mkRangeFrom (lit I32 5))) ;;
  let s := x1 in
  x2 <- union r s ;;
  let u := x2 in
  _ <- assert (contains u (lit I32 0)) ;;
  _ <- assert (contains u (lit I32 1)) ;;
  _ <- assert (contains u (lit I32 2)) ;;
  _ <- assert (negb (contains u (lit I32 3))) ;;
  _ <- assert (contains u (lit I32 4)) ;;
  _ <- assert (contains u (lit I32 5)) ;;
  _ <- assert (contains u (lit I32 6)) ;;
  _ <- assert (negb (is_empty u)) ;;
  Ret tt).
Proof. vm_compute. reflexivity. Qed.
(** src/test/union/range_to.rs:184-197 *)
Example test_union_range_to_upper_bounded_set : passes (
  let r := (VRangeTo (mkRangeTo (lit I32 3))) in
  x1 <- union (VRangeTo (mkRangeTo (lit I32 3))) (VRange (mkRange (lit I32 3) (lit I32 4))) ;;
  let s := x1 in
  x2 <- union r s ;;
  let u := x2 in
  _ <- assert (contains u (lit I32 0)) ;;
  _ <- assert (contains u (lit I32 1)) ;;
  _ <- assert (contains u (lit I32 2)) ;;
  _ <- assert (contains u (lit I32 3)) ;;
  _ <- assert (negb (contains u (lit I32 4))) ;;
  _ <- assert (negb (contains u (lit I32 5))) ;;
  _ <- assert (negb (contains u (lit I32 6))) ;;
  _ <- assert (negb (is_empty u)) ;;
  Ret tt).
Proof. vm_compute. reflexivity. Qed.
(** src/test/union/range_to.rs:199-212 *)
Example test_union_range_to_unbounded_set : passes (
  let r := (VRangeTo (mkRangeTo (lit I32 3))) in
  x1 <- union (VRangeTo (mkRangeTo (lit I32 2))) (VRangeFrom (mkRangeFrom (lit I32 5))) ;;
  let s := x1 in
  x2 <- union r s ;;
  let u := x2 in
  _ <- assert (contains u (lit I32 0)) ;;
  _ <- assert (contains u (lit I32 1)) ;;
  _ <- assert (contains u (lit I32 2)) ;;
  _ <- assert (negb (contains u (lit I32 3))) ;;
  _ <- assert (negb (contains u (lit I32 4))) ;;
  _ <- assert (contains u (lit I32 5)) ;;
  _ <- assert (contains u (lit I32 6)) ;;
  _ <- assert (negb (is_empty u)) ;;
  Ret tt).
Proof. vm_compute. reflexivity. Qed.
(** src/test/union/range_to_inclusive.rs:3-15 *)
Example test_union_range_to_inclusive_range : passes (
  let r := (VRangeToInclusive (mkRangeToInclusive (lit I32 2))) in
  x1 <- union r (VRange (mkRange (lit I32 2) (lit I32 4))) ;;
  let u := x1 in
  _ <- assert (contains u (lit I32 0)) ;;
  _ <- assert (contains u (lit I32 1)) ;;
  _ <- assert (contains u (lit I32 2)) ;;
  _ <- assert (contains u (lit I32 3)) ;;
  _ <- assert (negb (contains u (lit I32 4))) ;;
  _ <- assert (negb (contains u (lit I32 5))) ;;
  _ <- assert (negb (contains u (lit I32 6))) ;;
  _ <- assert (negb (is_empty u)) ;;
  Ret tt).
Proof. vm_compute. reflexivity. Qed.
(** src/test/union/range_to_inclusive.rs:17-29 *)
Example test_union_range_to_inclusive_range_from : passes (
  let r := (VRangeToInclusive (mkRangeToInclusive (lit I32 2))) in
  x1 <- union r (VRangeFrom (mkRangeFrom (lit I32 4))) ;;
  let u := x1 in
  _ <- assert (contains u (lit I32 0)) ;;
  _ <- assert (contains u (lit I32 1)) ;;
  _ <- assert (contains u (lit I32 2)) ;;
  _ <- assert (negb (contains u (lit I32 3))) ;;
  _ <- assert (contains u (lit I32 4)) ;;
  _ <- assert (contains u (lit I32 5)) ;;
  _ <- assert (contains u (lit I32 6)) ;;
  _ <- assert (negb (is_empty u)) ;;
  Ret tt).
Proof. vm_compute. reflexivity. Qed.
(** src/test/union/range_to_inclusive.rs:31-43 *)
Example test_union_range_to_inclusive_range_full : passes (
  let r := (VRangeToInclusive (mkRangeToInclusive (lit I32 2))) in
  x1 <- union r (VRangeFull mkRangeFull : value (mint I32)) ;;
  let u := x1 in
  _ <- assert (contains u (lit I32 0)) ;;
  _ <- assert (contains u (lit I32 1)) ;;
  _ <- assert (contains u (lit I32 2)) ;;
  _ <- assert (contains u (lit I32 3)) ;;
  _ <- assert (contains u (lit I32 4)) ;;
  _ <- assert (contains u (lit I32 5)) ;;
  _ <- assert (contains u (lit I32 6)) ;;
  _ <- assert (negb (is_empty u)) ;;
  Ret tt).
Proof. vm_compute. reflexivity. Qed.
(** src/test/union/range_to_inclusive.rs:45-57 *)
Example test_union_range_to_inclusive_range_inclusive : passes (
  let r := (VRangeToInclusive (mkRangeToInclusive (lit I32 2))) in
  x1 <- union r (VRangeInclusive (mkRangeInclusive (lit I32 2) (lit I32 4) false)) ;;
  let u := x1 in
  _ <- assert (contains u (lit I32 0)) ;;
  _ <- assert (contains u (lit I32 1)) ;;
  _ <- assert (contains u (lit I32 2)) ;;
  _ <- assert (contains u (lit I32 3)) ;;
  _ <- assert (contains u (lit I32 4)) ;;
  _ <- assert (negb (contains u (lit I32 5))) ;;
  _ <- assert (negb (contains u (lit I32 6))) ;;
  _ <- assert (negb (is_empty u)) ;;
  Ret tt).
Proof. vm_compute. reflexivity. Qed.
(** src/test/union/range_to_inclusive.rs:59-71 *)
Example test_union_range_to_inclusive_range_to : passes (
  let r := (VRangeToInclusive (mkRangeToInclusive (lit I32 2))) in
  x1 <- union r (VRangeTo (mkRangeTo (lit I32 4))) ;;
  let u := x1 in
  _ <- assert (contains u (lit I32 0)) ;;
  _ <- assert (contains u (lit I32 1)) ;;
  _ <- assert (contains u (lit I32 2)) ;;
  _ <- assert (contains u (lit I32 3)) ;;
  _ <- assert (negb (contains u (lit I32 4))) ;;
  _ <- assert (negb (contains u (lit I32 5))) ;;
  _ <- assert (negb (contains u (lit I32 6))) ;;
  _ <- assert (negb (is_empty u)) ;;
  Ret tt).
Proof. vm_compute. reflexivity. Qed.
(** src/test/union/range_to_inclusive.rs:73-85 *)
Example test_union_range_to_inclusive_range_to_inclusive : passes (
  let r := (VRangeToInclusive (mkRangeToInclusive (lit I32 2))) in
  x1 <- union r (VRangeToInclusive (mkRangeToInclusive (lit I32 4))) ;;
  let u := x1 in
  _ <- assert (contains u (lit I32 0)) ;;
  _ <- assert (contains u (lit I32 1)) ;;
  _ <- assert (contains u (lit I32 2)) ;;
  _ <- assert (contains u (lit I32 3)) ;;
  _ <- assert (contains u (lit I32 4)) ;;
  _ <- assert (negb (contains u (lit I32 5))) ;;
  _ <- assert (negb (contains u (lit I32 6))) ;;
  _ <- assert (negb (is_empty u)) ;;
  Ret tt).
Proof. vm_compute. reflexivity. Qed.
(** src/test/union/range_to_inclusive.rs:87-100 *)
Example test_union_range_to_inclusive_bounded_range : passes (
  let r := (VRangeToInclusive (mkRangeToInclusive (lit I32 2))) in
  let r2 := (value_of_inner (to_inner (VRange (mkRange (lit I32 2) (lit I32 4))))) in
  x1 <- union r r2 ;;
  let u := x1 in
  _ <- assert (contains u (lit I32 0)) ;;
  _ <- assert (contains u (lit I32 1)) ;;
  _ <- assert (contains u (lit I32 2)) ;;
  _ <- assert (contains u (lit I32 3)) ;;
  _ <- assert (negb (contains u (lit I32 4))) ;;
  _ <- assert (negb (contains u (lit I32 5))) ;;
  _ <- assert (negb (contains u (lit I32 6))) ;;
  _ <- assert (negb (is_empty u)) ;;
  Ret tt).
Proof. vm_compute. reflexivity. Qed.
(** src/test/union/range_to_inclusive.rs:102-115 *)
Example test_union_range_to_inclusive_lower_bounded_range : passes (
  let r := (VRangeToInclusive (mkRangeToInclusive (lit I32 2))) in
  let r2 := (value_of_inner (to_inner (VRangeFrom (mkRangeFrom (lit I32 4))))) in
  x1 <- union r r2 ;;
  let u := x1 in
  _ <- assert (contains u (lit I32 0)) ;;
  _ <- assert (contains u (lit I32 1)) ;;
  _ <- assert (contains u (lit I32 2)) ;;
  _ <- assert (negb (contains u (lit I32 3))) ;;
  _ <- assert (contains u (lit I32 4)) ;;
  _ <- assert (contains u (lit I32 5)) ;;
  _ <- assert (contains u (lit I32 6)) ;;
  _ <- assert (negb (is_empty u)) ;;
  Ret tt).
Proof. vm_compute. reflexivity. Qed.
(** src/test/union/range_to_inclusive.rs:117-130 *)
Example test_union_range_to_inclusive_upper_bounded_range : passes (
  let r := (VRangeToInclusive (mkRangeToInclusive (lit I32 2))) in
  let r2 := (value_of_inner (to_inner (VRangeTo (mkRangeTo (lit I32 4))))) in
  x1 <- union r r2 ;;
  let u := x1 in
  _ <- assert (contains u (lit I32 0)) ;;
  _ <- assert (contains u (lit I32 1)) ;;
  _ <- assert (contains u (lit I32 2)) ;;
  _ <- assert (contains u (lit I32 3)) ;;
  _ <- assert (negb (contains u (lit I32 4))) ;;
  _ <- assert (negb (contains u (lit I32 5))) ;;
  _ <- assert (negb (contains u (lit I32 6))) ;;
  _ <- assert (negb (is_empty u)) ;;
  Ret tt).
Proof. vm_compute. reflexivity. Qed.
(** src/test/union/range_to_inclusive.rs:132-145 *)
Example test_union_range_to_inclusive_unbounded_range : passes (
  let r := (VRangeToInclusive (mkRangeToInclusive (lit I32 2))) in
  x1 <- intersection (VRangeFull mkRangeFull : value (mint I32)) (VRangeFull mkRangeFull : value (mint I32)) ;;
  let r2 := x1 in
  x2 <- union r r2 ;;
  let u := x2 in
  _ <- assert (contains u (lit I32 0)) ;;
  _ <- assert (contains u (lit I32 1)) ;;
  _ <- assert (contains u (lit I32 2)) ;;
  _ <- assert (contains u (lit I32 3)) ;;
  _ <- assert (contains u (lit I32 4)) ;;
  _ <- assert (contains u (lit I32 5)) ;;
  _ <- assert (contains u (lit I32 6)) ;;
  _ <- assert (negb (is_empty u)) ;;
  Ret tt).
Proof. vm_compute. reflexivity. Qed.
(** src/test/union/range_to_inclusive.rs:147-152 *)
Example test_union_range_to_inclusive_empty_range : passes (
  let r := (VRangeToInclusive (mkRangeToInclusive (lit I32 4))) in
  x1 <- union r (VEmpty mkEmptyRange : value (mint I32)) ;;
  let u := x1 in
  _ <- assert (value_eqb r u) ;;
  Ret tt).
Proof. vm_compute. reflexivity. Qed.
(** src/test/union/range_to_inclusive.rs:154-167 *)
Example test_union_range_to_inclusive_bounded_set : passes (
  let r := (VRangeToInclusive (mkRangeToInclusive (lit I32 2))) in
  x1 <- union (VRange (mkRange (lit I32 2) (lit I32 3))) (VRange (mkRange (lit I32 3) (lit I32 4))) ;;
  let s := x1 in
  x2 <- union r s ;;
  let u := x2 in
  _ <- assert (contains u (lit I32 0)) ;;
  _ <- assert (contains u (lit I32 1)) ;;
  _ <- assert (contains u (lit I32 2)) ;;
  _ <- assert (contains u (lit I32 3)) ;;
  _ <- assert (negb (contains u (lit I32 4))) ;;
  _ <- assert (negb (contains u (lit I32 5))) ;;
  _ <- assert (negb (contains u (lit I32 6))) ;;
  _ <- assert (negb (is_empty u)) ;;
  Ret tt).
Proof. vm_compute. reflexivity. Qed.
(** src/test/union/range_to_inclusive.rs:169-182 *)
Example test_union_range_to_inclusive_lower_bounded_set : passes (
  let r := (VRangeToInclusive (mkRangeToInclusive (lit I32 2))) in
  x1 <- union (VRange (mkRange (lit I32 4) (lit I32 5))) (VRangeFrom (mkRangeFrom (lit I32 5))) ;;
  let s := x1 in
  x2 <- union r s ;;
  let u := x2 in
  _ <- assert (contains u (lit I32 0)) ;;
  _ <- assert (contains u (lit I32 1)) ;;
  _ <- assert (contains u (lit I32 2)) ;;
  _ <- assert (negb (contains u (lit I32 3))) ;;
  _ <- assert (contains u (lit I32 4)) ;;
  _ <- assert (contains u (lit I32 5)) ;;
  _ <- assert (contains u (lit I32 6)) ;;
  _ <- assert (negb (is_empty u)) ;;
  Ret tt).
Proof. vm_compute. reflexivity. Qed.
(** src/test/union/range_to_inclusive.rs:184-197 *)
Example test_union_range_to_inclusive_upper_bounded_set : passes (
  let r := (VRangeToInclusive (mkRangeToInclusive (lit I32 2))) in
  x1 <- union (VRangeTo (mkRangeTo (lit I32 3))) (VRange (mkRange (lit I32 3) (lit I32 4))) ;;
  let s := x1 in
  x2 <- union r s ;;
  let u := x2 in
  _ <- assert (contains u (lit I32 0)) ;;
  _ <- assert (contains u (lit I32 1)) ;;
  _ <- assert (contains u (lit I32 2)) ;;
  _ <- assert (contains u (lit I32 3)) ;;
  _ <- assert (negb (contains u (lit I32 4))) ;;
  _ <- assert (negb (contains u (lit I32 5))) ;;
  _ <- assert (negb (contains u (lit I32 6))) ;;
  _ <- assert (negb (is_empty u)) ;;
  Ret tt).
Proof. vm_compute. reflexivity. Qed.
(** src/test/union/range_to_inclusive.rs:199-212 *)
Example test_union_range_to_inclusive_unbounded_set : passes (
  let r := (VRangeToInclusive (mkRangeToInclusive (lit I32 2))) in
  x1 <- union (VRangeTo (mkRangeTo (lit I32 2))) (VRangeFrom (mkRangeFrom (lit I32 5))) ;;
  let s := x1 in
  x2 <- union r s ;;
  let u := x2 in
  _ <- assert (contains u (lit I32 0)) ;;
  _ <- assert (contains u (lit I32 1)) ;;
  _ <- assert (contains u (lit I32 2)) ;;
  _ <- assert (negb (contains u (lit I32 3))) ;;
  _ <- assert (negb (contains u (lit I32 4))) ;;
  _ <- assert (contains u (lit I32 5)) ;;
  _ <- assert (contains u (lit I32 6)) ;;
  _ <- assert (negb (is_empty u)) ;;
  Ret tt).
Proof. vm_compute. reflexivity. Qed.
(** src/test/union/unbounded_range.rs:3-15 *)
Example test_union_unbounded_range_range : passes (
  let r := (value_of_inner (to_inner (VRangeFull mkRangeFull : value (mint I32)))) in
  x1 <- union r (VRange (mkRange (lit I32 3) (lit I32 5))) ;;
  let u := x1 in
  _ <- assert (contains u (lit I32 0)) ;;
  _ <- assert (contains u (lit I32 1)) ;;
  _ <- assert (contains u (lit I32 2)) ;;
  _ <- assert (contains u (lit I32 5)) ;;
  _ <- assert (contains u (lit I32 10)) ;;
  _ <- assert (contains u (lit I32 100)) ;;
  _ <- assert (contains u (lit I32 1000)) ;;
  _ <- assert (negb (is_empty u)) ;;
  Ret tt).
Proof. vm_compute. reflexivity. Qed.
(** src/test/union/unbounded_range.rs:17-29 *)
Example test_union_unbounded_range_range_from : passes (
  let r := (value_of_inner (to_inner (VRangeFull mkRangeFull : value (mint I32)))) in
  x1 <- union r (VRangeFrom (mkRangeFrom (lit I32 3))) ;;
  let u := x1 in
  _ <- assert (contains u (lit I32 0)) ;;
  _ <- assert (contains u (lit I32 1)) ;;
  _ <- assert (contains u (lit I32 2)) ;;
  _ <- assert (contains u (lit I32 5)) ;;
  _ <- assert (contains u (lit I32 10)) ;;
  _ <- assert (contains u (lit I32 100)) ;;
  _ <- assert (contains u (lit I32 1000)) ;;
  _ <- assert (negb (is_empty u)) ;;
  Ret tt).
Proof. vm_compute. reflexivity. Qed.
(** src/test/union/unbounded_range.rs:31-43 *)
Example test_union_unbounded_range_range_full : passes (
  let r := (value_of_inner (to_inner (VRangeFull mkRangeFull : value (mint I32)))) in
  x1 <- union r (VRangeFull mkRangeFull : value (mint I32)) ;;
  let u := x1 in
  _ <- assert (contains u (lit I32 0)) ;;
  _ <- assert (contains u (lit I32 1)) ;;
  _ <- assert (contains u (lit I32 2)) ;;
  _ <- assert (contains u (lit I32 5)) ;;
  _ <- assert (contains u (lit I32 10)) ;;
  _ <- assert (contains u (lit I32 100)) ;;
  _ <- assert (contains u (lit I32 1000)) ;;
  _ <- assert (negb (is_empty u)) ;;
  Ret tt).
Proof. vm_compute. reflexivity. Qed.
(** src/test/union/unbounded_range.rs:45-57 *)
Example test_union_unbounded_range_range_inclusive : passes (
  let r := (value_of_inner (to_inner (VRangeFull mkRangeFull : value (mint I32)))) in
  x1 <- union r (VRangeInclusive (mkRangeInclusive (lit I32 3) (lit I32 5) false)) ;;
  let u := x1 in
  _ <- assert (contains u (lit I32 0)) ;;
  _ <- assert (contains u (lit I32 1)) ;;
  _ <- assert (contains u (lit I32 2)) ;;
  _ <- assert (contains u (lit I32 5)) ;;
  _ <- assert (contains u (lit I32 10)) ;;
  _ <- assert (contains u (lit I32 100)) ;;
  _ <- assert (contains u (lit I32 1000)) ;;
  _ <- assert (negb (is_empty u)) ;;
  Ret tt).
Proof. vm_compute. reflexivity. Qed.
(** src/test/union/unbounded_range.rs:59-71 *)
Example test_union_unbounded_range_range_to : passes (
  let r := (value_of_inner (to_inner (VRangeFull mkRangeFull : value (mint I32)))) in
  x1 <- union r (VRangeTo (mkRangeTo (lit I32 5))) ;;
  let u := x1 in
  _ <- assert (contains u (lit I32 0)) ;;
  _ <- assert (contains u (lit I32 1)) ;;
  _ <- assert (contains u (lit I32 2)) ;;
  _ <- assert (contains u (lit I32 5)) ;;
  _ <- assert (contains u (lit I32 10)) ;;
  _ <- assert (contains u (lit I32 100)) ;;
  _ <- assert (contains u (lit I32 1000)) ;;
  _ <- assert (negb (is_empty u)) ;;
  Ret tt).
Proof. vm_compute. reflexivity. Qed.
(** src/test/union/unbounded_range.rs:73-85 *)
Example test_union_unbounded_range_range_to_inclusive : passes (
  let r := (value_of_inner (to_inner (VRangeFull mkRangeFull : value (mint I32)))) in
  x1 <- union r (VRangeToInclusive (mkRangeToInclusive (lit I32 5))) ;;
  let u := x1 in
  _ <- assert (contains u (lit I32 0)) ;;
  _ <- assert (contains u (lit I32 1)) ;;
  _ <- assert (contains u (lit I32 2)) ;;
  _ <- assert (contains u (lit I32 5)) ;;
  _ <- assert (contains u (lit I32 10)) ;;
  _ <- assert (contains u (lit I32 100)) ;;
  _ <- assert (contains u (lit I32 1000)) ;;
  _ <- assert (negb (is_empty u)) ;;
  Ret tt).
Proof. vm_compute. reflexivity. Qed.
(** src/test/union/unbounded_range.rs:87-100 *)
Example test_union_unbounded_range_bounded_range : passes (
  let r := (value_of_inner (to_inner (VRangeFull mkRangeFull : value (mint I32)))) in
  x1 <- intersection (VRange (mkRange (lit I32 1) (lit I32 10))) (VRange (mkRange (lit I32 5) (lit I32 7))) ;;
  let r2 := x1 in
  x2 <- union r r2 ;;
  let u := x2 in
  _ <- assert (contains u (lit I32 0)) ;;
  _ <- assert (contains u (lit I32 1)) ;;
  _ <- assert (contains u (lit I32 2)) ;;
  _ <- assert (contains u (lit I32 5)) ;;
  _ <- assert (contains u (lit I32 10)) ;;
  _ <- assert (contains u (lit I32 100)) ;;
  _ <- assert (contains u (lit I32 1000)) ;;
  _ <- assert (negb (is_empty u)) ;;
  Ret tt).
Proof. vm_compute. reflexivity. Qed.
(** src/test/union/unbounded_range.rs:102-115 *)
Example test_union_unbounded_range_lower_bounded_range : passes (
  let r := (value_of_inner (to_inner (VRangeFull mkRangeFull : value (mint I32)))) in
  x1 <- intersection (VRangeFrom (mkRangeFrom (lit I32 4))) (VRangeFrom (mkRangeFrom (lit I32 5))) ;;
  let r2 := x1 in
  x2 <- union r r2 ;;
  let u := x2 in
  _ <- assert (contains u (lit I32 0)) ;;
  _ <- assert (contains u (lit I32 1)) ;;
  _ <- assert (contains u (lit I32 2)) ;;
  _ <- assert (contains u (lit I32 5)) ;;
  _ <- assert (contains u (lit I32 10)) ;;
  _ <- assert (contains u (lit I32 100)) ;;
  _ <- assert (contains u (lit I32 1000)) ;;
  _ <- assert (negb (is_empty u)) ;;
  Ret tt).
Proof. vm_compute. reflexivity. Qed.
(** src/test/union/unbounded_range.rs:117-130 *)
Example test_union_unbounded_range_upper_bounded_range : passes (
  let r := (value_of_inner (to_inner (VRangeFull mkRangeFull : value (mint I32)))) in
  x1 <- intersection (VRangeTo (mkRangeTo (lit I32 4))) (VRangeTo (mkRangeTo (lit I32 5))) ;;
  let r2 := x1 in
  x2 <- union r r2 ;;
  let u := x2 in
  _ <- assert (contains u (lit I32 0)) ;;
  _ <- assert (contains u (lit I32 1)) ;;
  _ <- assert (contains u (lit I32 2)) ;;
  _ <- assert (contains u (lit I32 5)) ;;
  _ <- assert (contains u (lit I32 10)) ;;
  _ <- assert (contains u (lit I32 100)) ;;
  _ <- assert (contains u (lit I32 1000)) ;;
  _ <- assert (negb (is_empty u)) ;;
  Ret tt).
Proof. vm_compute. reflexivity. Qed.
(** src/test/union/unbounded_range.rs:132-145 *)
Example test_union_unbounded_range_unbounded_range : passes (
  let r := (value_of_inner (to_inner (VRangeFull mkRangeFull : value (mint I32)))) in
  x1 <- intersection (VRangeFull mkRangeFull : value (mint I32)) (VRangeFull mkRangeFull : value (mint I32)) ;;
  let r2 := x1 in
  x2 <- union r r2 ;;
  let u := x2 in
  _ <- assert (contains u (lit I32 0)) ;;
  _ <- assert (contains u (lit I32 1)) ;;
  _ <- assert (contains u (lit I32 2)) ;;
  _ <- assert (contains u (lit I32 5)) ;;
  _ <- assert (contains u (lit I32 10)) ;;
  _ <- assert (contains u (lit I32 100)) ;;
  _ <- assert (contains u (lit I32 1000)) ;;
  _ <- assert (negb (is_empty u)) ;;
  Ret tt).
Proof. vm_compute. reflexivity. Qed.
(** src/test/union/unbounded_range.rs:147-152 *)
Example test_union_unbounded_range_empty_range : passes (
  x1 <- intersection (VRangeFull mkRangeFull : value (mint I32)) (VRangeFull mkRangeFull : value (mint I32)) ;;
  let r := x1 in
  x2 <- union r (VEmpty mkEmptyRange : value (mint I32)) ;;
  let u := x2 in
  _ <- assert (value_eqb r u) ;;
  Ret tt).
Proof. vm_compute. reflexivity. Qed.
(** src/test/union/unbounded_range.rs:154-167 *)
Example test_union_unbounded_range_bounded_set : passes (
  let r := (value_of_inner (to_inner (VRangeFull mkRangeFull : value (mint I32)))) in
  x1 <- union (VRange (mkRange (lit I32 1) (lit I32 5))) (VRange (mkRange (lit I32 10) (lit I32 12))) ;;
  let s := x1 in
  x2 <- union r s ;;
  let u := x2 in
  _ <- assert (contains u (lit I32 0)) ;;
  _ <- assert (contains u (lit I32 1)) ;;
  _ <- assert (contains u (lit I32 2)) ;;
  _ <- assert (contains u (lit I32 5)) ;;
  _ <- assert (contains u (lit I32 10)) ;;
  _ <- assert (contains u (lit I32 100)) ;;
  _ <- assert (contains u (lit I32 1000)) ;;
  _ <- assert (negb (is_empty u)) ;;
  Ret tt).
Proof. vm_compute. reflexivity. Qed.
(** src/test/union/unbounded_range.rs:169-182 *)
Example test_union_unbounded_range_lower_bounded_set : passes (
  let r := (value_of_inner (to_inner (VRangeFull mkRangeFull : value (mint I32)))) in
  x1 <- union (VRangeTo (mkRangeTo (lit I32 5))) (VRange (mkRange (lit I32 10) (lit I32 12))) ;;
  let s := x1 in
  x2 <- union r s ;;
  let u := x2 in
  _ <- assert (contains u (lit I32 0)) ;;
  _ <- assert (contains u (lit I32 1)) ;;
  _ <- assert (contains u (lit I32 2)) ;;
  _ <- assert (contains u (lit I32 5)) ;;
  _ <- assert (contains u (lit I32 10)) ;;
  _ <- assert (contains u (lit I32 100)) ;;
  _ <- assert (contains u (lit I32 1000)) ;;
  _ <- assert (negb (is_empty u)) ;;
  Ret tt).
Proof. vm_compute. reflexivity. Qed.
(** src/test/union/unbounded_range.rs:184-197 *)
Example test_union_unbounded_range_upper_bounded_set : passes (
  let r := (value_of_inner (to_inner (VRangeFull mkRangeFull : value (mint I32)))) in
  x1 <- union (VRange (mkRange (lit I32 1) (lit I32 5))) (VRangeFrom (mkRangeFrom (lit I32 10))) ;;
  let s := x1 in
  x2 <- union r s ;;
  let u := x2 in
  _ <- assert (contains u (lit I32 0)) ;;
  _ <- assert (contains u (lit I32 1)) ;;
  _ <- assert (contains u (lit I32 2)) ;;
  _ <- assert (contains u (lit I32 5)) ;;
  _ <- assert (contains u (lit I32 10)) ;;
  _ <- assert (contains u (lit I32 100)) ;;
  _ <- assert (contains u (lit I32 1000)) ;;
  _ <- assert (negb (is_empty u)) ;;
  Ret tt).
Proof. vm_compute. reflexivity. Qed.
(** src/test/union/unbounded_range.rs:199-212 *)
Example test_union_unbounded_range_unbounded_set : passes (
  let r := (value_of_inner (to_inner (VRangeFull mkRangeFull : value (mint I32)))) in
  x1 <- union (VRangeTo (mkRangeTo (lit I32 5))) (VRangeFrom (mkRangeFrom (lit I32 10))) ;;
  let s := x1 in
  x2 <- union r s ;;
  let u := x2 in
  _ <- assert (contains u (lit I32 0)) ;;
  _ <- assert (contains u (lit I32 1)) ;;
  _ <- assert (contains u (lit I32 2)) ;;
  _ <- assert (contains u (lit I32 5)) ;;
  _ <- assert (contains u (lit I32 10)) ;;
  _ <- assert (contains u (lit I32 100)) ;;
  _ <- assert (contains u (lit I32 1000)) ;;
  _ <- assert (negb (is_empty u)) ;;
  Ret tt).
Proof. vm_compute. reflexivity. Qed.
(** src/test/union/unbounded_set.rs:3-15 *)
Example test_union_unbounded_set_range : passes (
  x1 <- union (VRangeTo (mkRangeTo (lit I32 2))) (VRange (mkRange (lit I32 3) (lit I32 4))) ;;
  x2 <- union x1 (VRangeFrom (mkRangeFrom (lit I32 5))) ;;
  let s := x2 in
  x3 <- union s (VRange (mkRange (lit I32 2) (lit I32 4))) ;;
  let u := x3 in
  _ <- assert (contains u (lit I32 0)) ;;
  _ <- assert (contains u (lit I32 1)) ;;
  _ <- assert (contains u (lit I32 2)) ;;
  _ <- assert (contains u (lit I32 3)) ;;
  _ <- assert (negb (contains u (lit I32 4))) ;;
  _ <- assert (contains u (lit I32 5)) ;;
  _ <- assert (contains u (lit I32 6)) ;;
  _ <- assert (negb (is_empty u)) ;;
  Ret tt).
Proof. vm_compute. reflexivity. Qed.
(** src/test/union/unbounded_set.rs:17-29 *)
Example test_union_unbounded_set_range_from : passes (
  x1 <- union (VRangeTo (mkRangeTo (lit I32 2))) (VRange (mkRange (lit I32 3) (lit I32 4))) ;;
  x2 <- union x1 (VRangeFrom (mkRangeFrom (lit I32 5))) ;;
  let s := x2 in
  x3 <- union s (VRangeFrom (mkRangeFrom (lit I32 4))) ;;
  let u := x3 in
  _ <- assert (contains u (lit I32 0)) ;;
  _ <- assert (contains u (lit I32 1)) ;;
  _ <- assert (negb (contains u (lit I32 2))) ;;
  _ <- assert (contains u (lit I32 3)) ;;
  _ <- assert (contains u (lit I32 4)) ;;
  _ <- assert (contains u (lit I32 5)) ;;
  _ <- assert (contains u (lit I32 6)) ;;
  _ <- assert (negb (is_empty u)) ;;
  Ret tt).
Proof. vm_compute. reflexivity. Qed.
(** src/test/union/unbounded_set.rs:31-43 *)
Example test_union_unbounded_set_range_full : passes (
  x1 <- union (VRangeTo (mkRangeTo (lit I32 2))) (VRange (mkRange (lit I32 3) (lit I32 4))) ;;
  x2 <- union x1 (VRangeFrom (mkRangeFrom (lit I32 5))) ;;
  let s := x2 in
  x3 <- union s (VRangeFull mkRangeFull : value (mint I32)) ;;
  let u := x3 in
  _ <- assert (contains u (lit I32 0)) ;;
  _ <- assert (contains u (lit I32 1)) ;;
  _ <- assert (contains u (lit I32 2)) ;;
  _ <- assert (contains u (lit I32 3)) ;;
  _ <- assert (contains u (lit I32 4)) ;;
  _ <- assert (contains u (lit I32 5)) ;;
  _ <- assert (contains u (lit I32 6)) ;;
  _ <- assert (negb (is_empty u)) ;;
  Ret tt).
Proof. vm_compute. reflexivity. Qed.
(** src/test/union/unbounded_set.rs:45-57 *)
Example test_union_unbounded_set_range_inclusive : passes (
  x1 <- union (VRangeTo (mkRangeTo (lit I32 2))) (VRange (mkRange (lit I32 3) (lit I32 4))) ;;
  x2 <- union x1 (VRangeFrom (mkRangeFrom (lit I32 5))) ;;
  let s := x2 in
  x3 <- union s (VRangeInclusive (mkRangeInclusive (lit I32 2) (lit I32 3) false)) ;;
  let u := x3 in
  _ <- assert (contains u (lit I32 0)) ;;
  _ <- assert (contains u (lit I32 1)) ;;
  _ <- assert (contains u (lit I32 2)) ;;
  _ <- assert (contains u (lit I32 3)) ;;
  _ <- assert (negb (contains u (lit I32 4))) ;;
  _ <- assert (contains u (lit I32 5)) ;;
  _ <- assert (contains u (lit I32 6)) ;;
  _ <- assert (negb (is_empty u)) ;;
  Ret tt).
Proof. vm_compute. reflexivity. Qed.
(** src/test/union/unbounded_set.rs:59-71 *)
Example test_union_unbounded_set_range_to : passes (
  x1 <- union (VRangeTo (mkRangeTo (lit I32 2))) (VRange (mkRange (lit I32 3) (lit I32 4))) ;;
  x2 <- union x1 (VRangeFrom (mkRangeFrom (lit I32 5))) ;;
  let s := x2 in
  x3 <- union s (VRangeTo (mkRangeTo (lit I32 4))) ;;
  let u := x3 in
  _ <- assert (contains u (lit I32 0)) ;;
  _ <- assert (contains u (lit I32 1)) ;;
  _ <- assert (contains u (lit I32 2)) ;;
  _ <- assert (contains u (lit I32 3)) ;;
  _ <- assert (negb (contains u (lit I32 4))) ;;
  _ <- assert (contains u (lit I32 5)) ;;
  _ <- assert (contains u (lit I32 6)) ;;
  _ <- assert (negb (is_empty u)) ;;
  Ret tt).
Proof. vm_compute. reflexivity. Qed.
(** src/test/union/unbounded_set.rs:73-85 *)
Example test_union_unbounded_set_range_to_inclusive : passes (
  x1 <- union (VRangeTo (mkRangeTo (lit I32 2))) (VRange (mkRange (lit I32 3) (lit I32 4))) ;;
  x2 <- union x1 (VRangeFrom (mkRangeFrom (lit I32 5))) ;;
  let s := x2 in
  x3 <- union s (VRangeToInclusive (mkRangeToInclusive (lit I32 3))) ;;
  let u := x3 in
  _ <- assert (contains u (lit I32 0)) ;;
  _ <- assert (contains u (lit I32 1)) ;;
  _ <- assert (contains u (lit I32 2)) ;;
  _ <- assert (contains u (lit I32 3)) ;;
  _ <- assert (negb (contains u (lit I32 4))) ;;
  _ <- assert (contains u (lit I32 5)) ;;
  _ <- assert (contains u (lit I32 6)) ;;
  _ <- assert (negb (is_empty u)) ;;
  Ret tt).
Proof. vm_compute. reflexivity. Qed.
(** src/test/union/unbounded_set.rs:87-100 *)
Example test_union_unbounded_set_bounded_range : passes (
  x1 <- union (VRangeTo (mkRangeTo (lit I32 2))) (VRange (mkRange (lit I32 3) (lit I32 4))) ;;
  x2 <- union x1 (VRangeFrom (mkRangeFrom (lit I32 5))) ;;
  let s := x2 in
  x3 <- intersection (VRange (mkRange (lit I32 2) (lit I32 5))) (VRange (mkRange (lit I32 2) (lit I32 3))) ;;
  let r := x3 in
  x4 <- union s r ;;
  let u := x4 in
  _ <- assert (contains u (lit I32 0)) ;;
  _ <- assert (contains u (lit I32 1)) ;;
  _ <- assert (contains u (lit I32 2)) ;;
  _ <- assert (contains u (lit I32 3)) ;;
  _ <- assert (negb (contains u (lit I32 4))) ;;
  _ <- assert (contains u (lit I32 5)) ;;
  _ <- assert (contains u (lit I32 6)) ;;
  _ <- assert (negb (is_empty u)) ;;
  Ret tt).
Proof. vm_compute. reflexivity. Qed.
(** src/test/union/unbounded_set.rs:102-115 *)
Example test_union_unbounded_set_lower_bounded_range : passes (
  x1 <- union (VRangeTo (mkRangeTo (lit I32 2))) (VRange (mkRange (lit I32 3) (lit I32 4))) ;;
  x2 <- union x1 (VRangeFrom (mkRangeFrom (lit I32 5))) ;;
  let s := x2 in
  x3 <- intersection (VRangeFrom (mkRangeFrom (lit I32 4))) (VRangeFrom (mkRangeFrom (lit I32 3))) ;;
  let r := x3 in
  x4 <- union s r ;;
  let u := x4 in
  _ <- assert (contains u (lit I32 0)) ;;
  _ <- assert (contains u (lit I32 1)) ;;
  _ <- assert (negb (contains u (lit I32 2))) ;;
  _ <- assert (contains u (lit I32 3)) ;;
  _ <- assert (contains u (lit I32 4)) ;;
  _ <- assert (contains u (lit I32 5)) ;;
  _ <- assert (contains u (lit I32 6)) ;;
  _ <- assert (negb (is_empty u)) ;;
  Ret tt).
Proof. vm_compute. reflexivity. Qed.
(** src/test/union/unbounded_set.rs:117-130 *)
Example test_union_unbounded_set_upper_bounded_range : passes (
  x1 <- union (VRangeTo (mkRangeTo (lit I32 2))) (VRange (mkRange (lit I32 3) (lit I32 4))) ;;
  x2 <- union x1 (VRangeFrom (mkRangeFrom (lit I32 5))) ;;
  let s := x2 in
  x3 <- intersection (VRangeTo (mkRangeTo (lit I32 4))) (VRangeTo (mkRangeTo (lit I32 5))) ;;
  let r := x3 in
  x4 <- union s r ;;
  let u := x4 in
  _ <- assert (contains u (lit I32 0)) ;;
  _ <- assert (contains u (lit I32 1)) ;;
  _ <- assert (contains u (lit I32 2)) ;;
  _ <- assert (contains u (lit I32 3)) ;;
  _ <- assert (negb (contains u (lit I32 4))) ;;
  _ <- assert (contains u (lit I32 5)) ;;
  _ <- assert (contains u (lit I32 6)) ;;
  _ <- assert (negb (is_empty u)) ;;
  Ret tt).
Proof. vm_compute. reflexivity. Qed.
(** src/test/union/unbounded_set.rs:132-144 *)
Example test_union_unbounded_set_unbounded_range : passes (
  x1 <- union (VRangeTo (mkRangeTo (lit I32 2))) (VRange (mkRange (lit I32 3) (lit I32 4))) ;;
  x2 <- union x1 (VRangeFrom (mkRangeFrom (lit I32 5))) ;;
  let s := x2 in
  x3 <- union s (value_of_inner (to_inner (VRangeFull mkRangeFull : value (mint I32)))) ;;
  let u := x3 in
  _ <- assert (contains u (lit I32 0)) ;;
  _ <- assert (contains u (lit I32 1)) ;;
  _ <- assert (contains u (lit I32 2)) ;;
  _ <- assert (contains u (lit I32 3)) ;;
  _ <- assert (contains u (lit I32 4)) ;;
  _ <- assert (contains u (lit I32 5)) ;;
  _ <- assert (contains u (lit I32 6)) ;;
  _ <- assert (negb (is_empty u)) ;;
  Ret tt).
Proof. vm_compute. reflexivity. Qed.
(** src/test/union/unbounded_set.rs:146-151 *)
Example test_union_unbounded_set_empty_range : passes (
  x1 <- union (VRangeTo (mkRangeTo (lit I32 3))) (VRangeFrom (mkRangeFrom (lit I32 4))) ;;
  let s := x1 in
  x2 <- union s (VEmpty mkEmptyRange : value (mint I32)) ;;
  let u := x2 in
  _ <- assert (value_eqb s u) ;;
  Ret tt).
Proof. vm_compute. reflexivity. Qed.
(** src/test/union/unbounded_set.rs:153-166 *)
Example test_union_unbounded_set_bounded_set : passes (
  x1 <- union (VRangeTo (mkRangeTo (lit I32 2))) (VRange (mkRange (lit I32 3) (lit I32 4))) ;;
  x2 <- union x1 (VRangeFrom (mkRangeFrom (lit I32 5))) ;;
  let s := x2 in
  x3 <- union (VRange (mkRange (lit I32 2) (lit I32 3))) (VRange (mkRange (lit I32 3) (lit I32 4))) ;;
  let s2 := x3 in
  x4 <- union s s2 ;;
  let u := x4 in
  _ <- assert (contains u (lit I32 0)) ;;
  _ <- assert (contains u (lit I32 1)) ;;
  _ <- assert (contains u (lit I32 2)) ;;
  _ <- assert (contains u (lit I32 3)) ;;
  _ <- assert (negb (contains u (lit I32 4))) ;;
  _ <- assert (contains u (lit I32 5)) ;;
  _ <- assert (contains u (lit I32 6)) ;;
  _ <- assert (negb (is_empty u)) ;;
  Ret tt).
Proof. vm_compute. reflexivity. Qed.
(** src/test/union/unbounded_set.rs:168-181 *)
Example test_union_unbounded_set_lower_bounded_set : passes (
  x1 <- union (VRangeTo (mkRangeTo (lit I32 2))) (VRange (mkRange (lit I32 3) (lit I32 4))) ;;
  x2 <- union x1 (VRangeFrom (mkRangeFrom (lit I32 5))) ;;
  let s := x2 in
  x3 <- union (VRangeFrom (mkRangeFrom (lit I32 4))) (VRange (mkRange (lit I32 1) (lit I32 2))) ;;
  let s2 := x3 in
  x4 <- union s s2 ;;
  let u := x4 in
  _ <- assert (contains u (lit I32 0)) ;;
  _ <- assert (contains u (lit I32 1)) ;;
  _ <- assert (negb (contains u (lit I32 2))) ;;
  _ <- assert (contains u (lit I32 3)) ;;
  _ <- assert (contains u (lit I32 4)) ;;
  _ <- assert (contains u (lit I32 5)) ;;
  _ <- assert (contains u (lit I32 6)) ;;
  _ <- assert (negb (is_empty u)) ;;
  Ret tt).
Proof. vm_compute. reflexivity. Qed.
(** src/test/union/unbounded_set.rs:183-196 *)
Example test_union_unbounded_set_upper_bounded_set : passes (
  x1 <- union (VRangeTo (mkRangeTo (lit I32 2))) (VRange (mkRange (lit I32 3) (lit I32 4))) ;;
  x2 <- union x1 (VRangeFrom (mkRangeFrom (lit I32 5))) ;;
  let s := x2 in
  x3 <- union (VRangeTo (mkRangeTo (lit I32 4))) (VRange (mkRange (lit I32 5) (lit I32 10))) ;;
  let s2 := x3 in
  x4 <- union s s2 ;;
  let u := x4 in
  _ <- assert (contains u (lit I32 0)) ;;
  _ <- assert (contains u (lit I32 1)) ;;
  _ <- assert (contains u (lit I32 2)) ;;
  _ <- assert (contains u (lit I32 3)) ;;
  _ <- assert (negb (contains u (lit I32 4))) ;;
  _ <- assert (contains u (lit I32 5)) ;;
  _ <- assert (contains u (lit I32 6)) ;;
  _ <- assert (negb (is_empty u)) ;;
  Ret tt).
Proof. vm_compute. reflexivity. Qed.
(** src/test/union/unbounded_set.rs:198-211 *)
Example test_union_unbounded_set_unbounded_set : passes (
  x1 <- union (VRangeTo (mkRangeTo (lit I32 2))) (VRange (mkRange (lit I32 3) (lit I32 4))) ;;
  x2 <- union x1 (VRangeFrom (mkRangeFrom (lit I32 5))) ;;
  let s := x2 in
  x3 <- union (VRangeTo (mkRangeTo (lit I32 1))) (VRange (mkRange (lit I32 2) (lit I32 3))) ;;
  x4 <- union x3 (VRangeFrom (mkRangeFrom (lit I32 6))) ;;
  let s2 := x4 in
  x5 <- union s s2 ;;
  let u := x5 in
  _ <- assert (contains u (lit I32 0)) ;;
  _ <- assert (contains u (lit I32 1)) ;;
  _ <- assert (contains u (lit I32 2)) ;;
  _ <- assert (contains u (lit I32 3)) ;;
  _ <- assert (negb (contains u (lit I32 4))) ;;
  _ <- assert (contains u (lit I32 5)) ;;
  _ <- assert (contains u (lit I32 6)) ;;
  _ <- assert (negb (is_empty u)) ;;
  Ret tt).
Proof. vm_compute. reflexivity. Qed.
(** src/test/union/upper_bounded_range.rs:3-15 *)
Example test_union_upper_bounded_range_range : passes (
  let r := (value_of_inner (to_inner (VRangeTo (mkRangeTo (lit I32 3))))) in
  x1 <- union r (VRange (mkRange (lit I32 2) (lit I32 4))) ;;
  let u := x1 in
  _ <- assert (contains u (lit I32 0)) ;;
  _ <- assert (contains u (lit I32 1)) ;;
  _ <- assert (contains u (lit I32 2)) ;;
  _ <- assert (contains u (lit I32 3)) ;;
  _ <- assert (negb (contains u (lit I32 4))) ;;
  _ <- assert (negb (contains u (lit I32 5))) ;;
  _ <- assert (negb (contains u (lit I32 6))) ;;
  _ <- assert (negb (is_empty u)) ;;
  Ret tt).
Proof. vm_compute. reflexivity. Qed.
(** src/test/union/upper_bounded_range.rs:17-29 *)
Example test_union_upper_bounded_range_range_from : passes (
  let r := (value_of_inner (to_inner (VRangeTo (mkRangeTo (lit I32 3))))) in
  x1 <- union r (VRangeFrom (mkRangeFrom (lit I32 4))) ;;
  let u := x1 in
  _ <- assert (contains u (lit I32 0)) ;;
  _ <- assert (contains u (lit I32 1)) ;;
  _ <- assert (contains u (lit I32 2)) ;;
  _ <- assert (negb (contains u (lit I32 3))) ;;
  _ <- assert (contains u (lit I32 4)) ;;
  _ <- assert (contains u (lit I32 5)) ;;
  _ <- assert (contains u (lit I32 6)) ;;
  _ <- assert (negb (is_empty u)) ;;
  Ret tt).
Proof. vm_compute. reflexivity. Qed.
(** src/test/union/upper_bounded_range.rs:31-43 *)
Example test_union_upper_bounded_range_range_full : passes (
  let r := (value_of_inner (to_inner (VRangeTo (mkRangeTo (lit I32 3))))) in
  x1 <- union r (VRangeFull mkRangeFull : value (mint I32)) ;;
  let u := x1 in
  _ <- assert (contains u (lit I32 0)) ;;
  _ <- assert (contains u (lit I32 1)) ;;
  _ <- assert (contains u (lit I32 2)) ;;
  _ <- assert (contains u (lit I32 3)) ;;
  _ <- assert (contains u (lit I32 4)) ;;
  _ <- assert (contains u (lit I32 5)) ;;
  _ <- assert (contains u (lit I32 6)) ;;
  _ <- assert (negb (is_empty u)) ;;
  Ret tt).
Proof. vm_compute. reflexivity. Qed.
(** src/test/union/upper_bounded_range.rs:45-57 *)
Example test_union_upper_bounded_range_range_inclusive : passes (
  let r := (value_of_inner (to_inner (VRangeTo (mkRangeTo (lit I32 3))))) in
  x1 <- union r (VRangeInclusive (mkRangeInclusive (lit I32 2) (lit I32 4) false)) ;;
  let u := x1 in
  _ <- assert (contains u (lit I32 0)) ;;
  _ <- assert (contains u (lit I32 1)) ;;
  _ <- assert (contains u (lit I32 2)) ;;
  _ <- assert (contains u (lit I32 3)) ;;
  _ <- assert (contains u (lit I32 4)) ;;
  _ <- assert (negb (contains u (lit I32 5))) ;;
  _ <- assert (negb (contains u (lit I32 6))) ;;
  _ <- assert (negb (is_empty u)) ;;
  Ret tt).
Proof. vm_compute. reflexivity. Qed.
(** src/test/union/upper_bounded_range.rs:59-71 *)
Example test_union_upper_bounded_range_range_to : passes (
  let r := (value_of_inner (to_inner (VRangeTo (mkRangeTo (lit I32 3))))) in
  x1 <- union r (VRangeTo (mkRangeTo (lit I32 4))) ;;
  let u := x1 in
  _ <- assert (contains u (lit I32 0)) ;;
  _ <- assert (contains u (lit I32 1)) ;;
  _ <- assert (contains u (lit I32 2)) ;;
  _ <- assert (contains u (lit I32 3)) ;;
  _ <- assert (negb (contains u (lit I32 4))) ;;
  _ <- assert (negb (contains u (lit I32 5))) ;;
  _ <- assert (negb (contains u (lit I32 6))) ;;
  _ <- assert (negb (is_empty u)) ;;
  Ret tt).
Proof. vm_compute. reflexivity. Qed.
(** src/test/union/upper_bounded_range.rs:73-85 *)
Example test_union_upper_bounded_range_range_to_inclusive : passes (
  let r := (value_of_inner (to_inner (VRangeTo (mkRangeTo (lit I32 3))))) in
  x1 <- union r (VRangeToInclusive (mkRangeToInclusive (lit I32 4))) ;;
  let u := x1 in
  _ <- assert (contains u (lit I32 0)) ;;
  _ <- assert (contains u (lit I32 1)) ;;
  _ <- assert (contains u (lit I32 2)) ;;
  _ <- assert (contains u (lit I32 3)) ;;
  _ <- assert (contains u (lit I32 4)) ;;
  _ <- assert (negb (contains u (lit I32 5))) ;;
  _ <- assert (negb (contains u (lit I32 6))) ;;
  _ <- assert (negb (is_empty u)) ;;
  Ret tt).
Proof. vm_compute. reflexivity. Qed.
(** src/test/union/upper_bounded_range.rs:87-100 *)
Example test_union_upper_bounded_range_bounded_range : passes (
  let r := (value_of_inner (to_inner (VRangeTo (mkRangeTo (lit I32 3))))) in
  let r2 := (value_of_inner (to_inner (VRange (mkRange (lit I32 2) (lit I32 4))))) in
  x1 <- union r r2 ;;
  let u := x1 in
  _ <- assert (contains u (lit I32 0)) ;;
  _ <- assert (contains u (lit I32 1)) ;;
  _ <- assert (contains u (lit I32 2)) ;;
  _ <- assert (contains u (lit I32 3)) ;;
  _ <- assert (negb (contains u (lit I32 4))) ;;
  _ <- assert (negb (contains u (lit I32 5))) ;;
  _ <- assert (negb (contains u (lit I32 6))) ;;
  _ <- assert (negb (is_empty u)) ;;
  Ret tt).
Proof. vm_compute. reflexivity. Qed.
(** src/test/union/upper_bounded_range.rs:102-115 *)
Example test_union_upper_bounded_range_lower_bounded_range : passes (
  let r := (value_of_inner (to_inner (VRangeTo (mkRangeTo (lit I32 3))))) in
  let r2 := (value_of_inner (to_inner (VRangeFrom (mkRangeFrom (lit I32 4))))) in
  x1 <- union r r2 ;;
  let u := x1 in
  _ <- assert (contains u (lit I32 0)) ;;
  _ <- assert (contains u (lit I32 1)) ;;
  _ <- assert (contains u (lit I32 2)) ;;
  _ <- assert (negb (contains u (lit I32 3))) ;;
  _ <- assert (contains u (lit I32 4)) ;;
  _ <- assert (contains u (lit I32 5)) ;;
  _ <- assert (contains u (lit I32 6)) ;;
  _ <- assert (negb (is_empty u)) ;;
  Ret tt).
Proof. vm_compute. reflexivity. Qed.
(** src/test/union/upper_bounded_range.rs:117-130 *)
Example test_union_upper_bounded_range_upper_bounded_range : passes (
  let r := (value_of_inner (to_inner (VRangeTo (mkRangeTo (lit I32 3))))) in
  let r2 := (value_of_inner (to_inner (VRangeTo (mkRangeTo (lit I32 4))))) in
  x1 <- union r r2 ;;
  let u := x1 in
  _ <- assert (contains u (lit I32 0)) ;;
  _ <- assert (contains u (lit I32 1)) ;;
  _ <- assert (contains u (lit I32 2)) ;;
  _ <- assert (contains u (lit I32 3)) ;;
  _ <- assert (negb (contains u (lit I32 4))) ;;
  _ <- assert (negb (contains u (lit I32 5))) ;;
  _ <- assert (negb (contains u (lit I32 6))) ;;
  _ <- assert (negb (is_empty u)) ;;
  Ret tt).
Proof. vm_compute. reflexivity. Qed.
(** src/test/union/upper_bounded_range.rs:132-145 *)
Example test_union_upper_bounded_range_unbounded_range : passes (
  let r := (value_of_inner (to_inner (VRangeTo (mkRangeTo (lit I32 3))))) in
  x1 <- intersection (VRangeFull mkRangeFull : value (mint I32)) (VRangeFull mkRangeFull : value (mint I32)) ;;
  let r2 := x1 in
  x2 <- union r r2 ;;
  let u := x2 in
  _ <- assert (contains u (lit I32 0)) ;;
  _ <- assert (contains u (lit I32 1)) ;;
  _ <- assert (contains u (lit I32 2)) ;;
  _ <- assert (contains u (lit I32 3)) ;;
  _ <- assert (contains u (lit I32 4)) ;;
  _ <- assert (contains u (lit I32 5)) ;;
  _ <- assert (contains u (lit I32 6)) ;;
  _ <- assert (negb (is_empty u)) ;;
  Ret tt).
Proof. vm_compute. reflexivity. Qed.
(** src/test/union/upper_bounded_range.rs:147-152 *)
Example test_union_upper_bounded_range_empty_range : passes (
  let r := (value_of_inner (to_inner (VRangeTo (mkRangeTo (lit I32 3))))) in
  x1 <- union r (VEmpty mkEmptyRange : value (mint I32)) ;;
  let u := x1 in
  _ <- assert (value_eqb r u) ;;
  Ret tt).
Proof. vm_compute. reflexivity. Qed.
(** src/test/union/upper_bounded_range.rs:154-167 *)
Example test_union_upper_bounded_range_bounded_set : passes (
  let r := (value_of_inner (to_inner (VRangeTo (mkRangeTo (lit I32 3))))) in
  x1 <- union (VRange (mkRange (lit I32 2) (lit I32 3))) (VRange (mkRange (lit I32 3) (lit I32 4))) ;;
  let s := x1 in
  x2 <- union r s ;;
  let u := x2 in
  _ <- assert (contains u (lit I32 0)) ;;
  _ <- assert (contains u (lit I32 1)) ;;
  _ <- assert (contains u (lit I32 2)) ;;
  _ <- assert (contains u (lit I32 3)) ;;
  _ <- assert (negb (contains u (lit I32 4))) ;;
  _ <- assert (negb (contains u (lit I32 5))) ;;
  _ <- assert (negb (contains u (lit I32 6))) ;;
  _ <- assert (negb (is_empty u)) ;;
  Ret tt).
Proof. vm_compute. reflexivity. Qed.
(** src/test/union/upper_bounded_range.rs:169-182 *)
Example test_union_upper_bounded_range_lower_bounded_set : passes (
  let r := (value_of_inner (to_inner (VRangeTo (mkRangeTo (lit I32 3))))) in
  x1 <- union (VRange (mkRange (lit I32 4) (lit I32 5))) (VRangeFrom (mkRangeFrom (lit I32 5))) ;;
  let s := x1 in
  x2 <- union r s ;;
  let u := x2 in
  _ <- assert (contains u (lit I32 0)) ;;
  _ <- assert (contains u (lit I32 1)) ;;
  _ <- assert (contains u (lit I32 2)) ;;
  _ <- assert (negb (contains u (lit I32 3))) ;;
  _ <- assert (contains u (lit I32 4)) ;;
  _ <- assert (contains u (lit I32 5)) ;;
  _ <- assert (contains u (lit I32 6)) ;;
  _ <- assert (negb (is_empty u)) ;;
  Ret tt).
Proof. vm_compute. reflexivity. Qed.
(** src/test/union/upper_bounded_range.rs:184-197 *)
Example test_union_upper_bounded_range_upper_bounded_set : passes (
  let r := (value_of_inner (to_inner (VRangeTo (mkRangeTo (lit I32 3))))) in
  x1 <- union (VRangeTo (mkRangeTo (lit I32 3))) (VRange (mkRange (lit I32 3) (lit I32 4))) ;;
  let s := x1 in
  x2 <- union r s ;;
  let u := x2 in
  _ <- assert (contains u (lit I32 0)) ;;
  _ <- assert (contains u (lit I32 1)) ;;
  _ <- assert (contains u (lit I32 2)) ;;
  _ <- assert (contains u (lit I32 3)) ;;
  _ <- assert (negb (contains u (lit I32 4))) ;;
  _ <- assert (negb (contains u (lit I32 5))) ;;
  _ <- assert (negb (contains u (lit I32 6))) ;;
  _ <- assert (negb (is_empty u)) ;;
  Ret tt).
Proof. vm_compute. reflexivity. Qed.
(** src/test/union/upper_bounded_range.rs:199-212 *)
Example test_union_upper_bounded_range_unbounded_set : passes (
  let r := (value_of_inner (to_inner (VRangeTo (mkRangeTo (lit I32 3))))) in
  x1 <- union (VRangeTo (mkRangeTo (lit I32 2))) (VRangeFrom (mkRangeFrom (lit I32 5))) ;;
  let s := x1 in
  x2 <- union r s ;;
  let u := x2 in
  _ <- assert (contains u (lit I32 0)) ;;
  _ <- assert (contains u (lit I32 1)) ;;
  _ <- assert (contains u (lit I32 2)) ;;
  _ <- assert (negb (contains u (lit I32 3))) ;;
  _ <- assert (negb (contains u (lit I32 4))) ;;
  _ <- assert (contains u (lit I32 5)) ;;
  _ <- assert (contains u (lit I32 6)) ;;
  _ <- assert (negb (is_empty u)) ;;
  Ret tt).
Proof. vm_compute. reflexivity. Qed.
(** src/test/union/upper_bounded_set.rs:3-15 *)
Example test_union_upper_bounded_set_range : passes (
  x1 <- union (VRangeTo (mkRangeTo (lit I32 2))) (VRange (mkRange (lit I32 2) (lit I32 3))) ;;
  let s := x1 in
  x2 <- union s (VRange (mkRange (lit I32 2) (lit I32 4))) ;;
  let u := x2 in
  _ <- assert (contains u (lit I32 0)) ;;
  _ <- assert (contains u (lit I32 1)) ;;
  _ <- assert (contains u (lit I32 2)) ;;
  _ <- assert (contains u (lit I32 3)) ;;
  _ <- assert (negb (contains u (lit I32 4))) ;;
  _ <- assert (negb (contains u (lit I32 5))) ;;
  _ <- assert (negb (contains u (lit I32 6))) ;;
  _ <- assert (negb (is_empty u)) ;;
  Ret tt).
Proof. vm_compute. reflexivity. Qed.
(** src/test/union/upper_bounded_set.rs:17-29 *)
Example test_union_upper_bounded_set_range_from : passes (
  x1 <- union (VRangeTo (mkRangeTo (lit I32 2))) (VRange (mkRange (lit I32 2) (lit I32 3))) ;;
  let s := x1 in
  x2 <- union s (VRangeFrom (mkRangeFrom (lit I32 4))) ;;
  let u := x2 in
  _ <- assert (contains u (lit I32 0)) ;;
  _ <- assert (contains u (lit I32 1)) ;;
  _ <- assert (contains u (lit I32 2)) ;;
  _ <- assert (negb (contains u (lit I32 3))) ;;
  _ <- assert (contains u (lit I32 4)) ;;
  _ <- assert (contains u (lit I32 5)) ;;
  _ <- assert (contains u (lit I32 6)) ;;
  _ <- assert (negb (is_empty u)) ;;
  Ret tt).
Proof. vm_compute. reflexivity. Qed.
(** src/test/union/upper_bounded_set.rs:31-43 *)
Example test_union_upper_bounded_set_range_full : passes (
  x1 <- union (VRangeTo (mkRangeTo (lit I32 2))) (VRange (mkRange (lit I32 2) (lit I32 3))) ;;
  let s := x1 in
  x2 <- union s (VRangeFull mkRangeFull : value (mint I32)) ;;
  let u := x2 in
  _ <- assert (contains u (lit I32 0)) ;;
  _ <- assert (contains u (lit I32 1)) ;;
  _ <- assert (contains u (lit I32 2)) ;;
  _ <- assert (contains u (lit I32 3)) ;;
  _ <- assert (contains u (lit I32 4)) ;;
  _ <- assert (contains u (lit I32 5)) ;;
  _ <- assert (contains u (lit I32 6)) ;;
  _ <- assert (negb (is_empty u)) ;;
  Ret tt).
Proof. vm_compute. reflexivity. Qed.
(** src/test/union/upper_bounded_set.rs:45-57 *)
Example test_union_upper_bounded_set_range_inclusive : passes (
  x1 <- union (VRangeTo (mkRangeTo (lit I32 2))) (VRange (mkRange (lit I32 2) (lit I32 3))) ;;
  let s := x1 in
  x2 <- union s (VRangeInclusive (mkRangeInclusive (lit I32 2) (lit I32 4) false)) ;;
  let u := x2 in
  _ <- assert (contains u (lit I32 0)) ;;
  _ <- assert (contains u (lit I32 1)) ;;
  _ <- assert (contains u (lit I32 2)) ;;
  _ <- assert (contains u (lit I32 3)) ;;
  _ <- assert (contains u (lit I32 4)) ;;
  _ <- assert (negb (contains u (lit I32 5))) ;;
  _ <- assert (negb (contains u (lit I32 6))) ;;
  _ <- assert (negb (is_empty u)) ;;
  Ret tt).
Proof. vm_compute. reflexivity. Qed.
(** src/test/union/upper_bounded_set.rs:59-71 *)
Example test_union_upper_bounded_set_range_to : passes (
  x1 <- union (VRangeTo (mkRangeTo (lit I32 2))) (VRange (mkRange (lit I32 2) (lit I32 3))) ;;
  let s := x1 in
  x2 <- union s (VRangeTo (mkRangeTo (lit I32 4))) ;;
  let u := x2 in
  _ <- assert (contains u (lit I32 0)) ;;
  _ <- assert (contains u (lit I32 1)) ;;
  _ <- assert (contains u (lit I32 2)) ;;
  _ <- assert (contains u (lit I32 3)) ;;
  _ <- assert (negb (contains u (lit I32 4))) ;;
  _ <- assert (negb (contains u (lit I32 5))) ;;
  _ <- assert (negb (contains u (lit I32 6))) ;;
  _ <- assert (negb (is_empty u)) ;;
  Ret tt).
Proof. vm_compute. reflexivity. Qed.
(** src/test/union/upper_bounded_set.rs:73-85 *)
Example test_union_upper_bounded_set_range_to_inclusive : passes (
  x1 <- union (VRangeTo (mkRangeTo (lit I32 2))) (VRange (mkRange (lit I32 2) (lit I32 3))) ;;
  let s := x1 in
  x2 <- union s (VRangeToInclusive (mkRangeToInclusive (lit I32 4))) ;;
  let u := x2 in
  _ <- assert (contains u (lit I32 0)) ;;
  _ <- assert (contains u (lit I32 1)) ;;
  _ <- assert (contains u (lit I32 2)) ;;
  _ <- assert (contains u (lit I32 3)) ;;
  _ <- assert (contains u (lit I32 4)) ;;
  _ <- assert (negb (contains u (lit I32 5))) ;;
  _ <- assert (negb (contains u (lit I32 6))) ;;
  _ <- assert (negb (is_empty u)) ;;
  Ret tt).
Proof. vm_compute. reflexivity. Qed.
(** src/test/union/upper_bounded_set.rs:87-100 *)
Example test_union_upper_bounded_set_bounded_range : passes (
  x1 <- union (VRangeTo (mkRangeTo (lit I32 2))) (VRange (mkRange (lit I32 2) (lit I32 3))) ;;
  let s := x1 in
  let r := (value_of_inner (to_inner (VRange (mkRange (lit I32 2) (lit I32 4))))) in
  x2 <- union s r ;;
  let u := x2 in
  _ <- assert (contains u (lit I32 0)) ;;
  _ <- assert (contains u (lit I32 1)) ;;
  _ <- assert (contains u (lit I32 2)) ;;
  _ <- assert (contains u (lit I32 3)) ;;
  _ <- assert (negb (contains u (lit I32 4))) ;;
  _ <- assert (negb (contains u (lit I32 5))) ;;
  _ <- assert (negb (contains u (lit I32 6))) ;;
  _ <- assert (negb (is_empty u)) ;;
  Ret tt).
Proof. vm_compute. reflexivity. Qed.
(** src/test/union/upper_bounded_set.rs:102-115 *)
Example test_union_upper_bounded_set_lower_bounded_range : passes (
  x1 <- union (VRangeTo (mkRangeTo (lit I32 2))) (VRange (mkRange (lit I32 2) (lit I32 3))) ;;
  let s := x1 in
  let r := (value_of_inner (to_inner (VRangeFrom (mkRangeFrom (lit I32 4))))) in
  x2 <- union s r ;;
  let u := x2 in
  _ <- assert (contains u (lit I32 0)) ;;
  _ <- assert (contains u (lit I32 1)) ;;
  _ <- assert (contains u (lit I32 2)) ;;
  _ <- assert (negb (contains u (lit I32 3))) ;;
  _ <- assert (contains u (lit I32 4)) ;;
  _ <- assert (contains u (lit I32 5)) ;;
  _ <- assert (contains u (lit I32 6)) ;;
  _ <- assert (negb (is_empty u)) ;;
  Ret tt).
Proof. vm_compute. reflexivity. Qed.
(** src/test/union/upper_bounded_set.rs:117-130 *)
Example test_union_upper_bounded_set_upper_bounded_range : passes (
  x1 <- union (VRangeTo (mkRangeTo (lit I32 2))) (VRange (mkRange (lit I32 2) (lit I32 3))) ;;
  let s := x1 in
  let r := (value_of_inner (to_inner (VRangeTo (mkRangeTo (lit I32 4))))) in
  x2 <- union s r ;;
  let u := x2 in
  _ <- assert (contains u (lit I32 0)) ;;
  _ <- assert (contains u (lit I32 1)) ;;
  _ <- assert (contains u (lit I32 2)) ;;
  _ <- assert (contains u (lit I32 3)) ;;
  _ <- assert (negb (contains u (lit I32 4))) ;;
  _ <- assert (negb (contains u (lit I32 5))) ;;
  _ <- assert (negb (contains u (lit I32 6))) ;;
  _ <- assert (negb (is_empty u)) ;;
  Ret tt).
Proof. vm_compute. reflexivity. Qed.
(** src/test/union/upper_bounded_set.rs:132-145 *)
Example test_union_upper_bounded_set_unbounded_range : passes (
  x1 <- union (VRangeTo (mkRangeTo (lit I32 2))) (VRange (mkRange (lit I32 2) (lit I32 3))) ;;
  let s := x1 in
  x2 <- intersection (VRangeFull mkRangeFull : value (mint I32)) (VRangeFull mkRangeFull : value (mint I32)) ;;
  let r := x2 in
  x3 <- union s r ;;
  let u := x3 in
  _ <- assert (contains u (lit I32 0)) ;;
  _ <- assert (contains u (lit I32 1)) ;;
  _ <- assert (contains u (lit I32 2)) ;;
  _ <- assert (contains u (lit I32 3)) ;;
  _ <- assert (contains u (lit I32 4)) ;;
  _ <- assert (contains u (lit I32 5)) ;;
  _ <- assert (contains u (lit I32 6)) ;;
  _ <- assert (negb (is_empty u)) ;;
  Ret tt).
Proof. vm_compute. reflexivity. Qed.
(** src/test/union/upper_bounded_set.rs:147-152 *)
Example test_union_upper_bounded_set_empty_range : passes (
  x1 <- union (VRangeTo (mkRangeTo (lit I32 3))) (VRange (mkRange (lit I32 4) (lit I32 5))) ;;
  let s := x1 in
  x2 <- union s (VEmpty mkEmptyRange : value (mint I32)) ;;
  let u := x2 in
  _ <- assert (value_eqb s u) ;;
  Ret tt).
Proof. vm_compute. reflexivity. Qed.
(** src/test/union/upper_bounded_set.rs:154-167 *)
Example test_union_upper_bounded_set_bounded_set : passes (
  x1 <- union (VRangeTo (mkRangeTo (lit I32 2))) (VRange (mkRange (lit I32 2) (lit I32 3))) ;;
  let s := x1 in
  x2 <- union (VRange (mkRange (lit I32 2) (lit I32 3))) (VRange (mkRange (lit I32 3) (lit I32 4))) ;;
  let s2 := x2 in
  x3 <- union s s2 ;;
  let u := x3 in
  _ <- assert (contains u (lit I32 0)) ;;
  _ <- assert (contains u (lit I32 1)) ;;
  _ <- assert (contains u (lit I32 2)) ;;
  _ <- assert (contains u (lit I32 3)) ;;
  _ <- assert (negb (contains u (lit I32 4))) ;;
  _ <- assert (negb (contains u (lit I32 5))) ;;
  _ <- assert (negb (contains u (lit I32 6))) ;;
  _ <- assert (negb (is_empty u)) ;;
  Ret tt).
Proof. vm_compute. reflexivity. Qed.
(** src/test/union/upper_bounded_set.rs:169-182 *)
Example test_union_upper_bounded_set_lower_bounded_set : passes (
  x1 <- union (VRangeTo (mkRangeTo (lit I32 2))) (VRange (mkRange (lit I32 2) (lit I32 3))) ;;
  let s := x1 in
  x2 <- union (VRange (mkRange (lit I32 4) (lit I32 5))) (VRangeFrom (mkRangeFrom (lit I32 5))) ;;
  let s2 := x2 in
  x3 <- union s s2 ;;
  let u := x3 in
  _ <- assert (contains u (lit I32 0)) ;;
  _ <- assert (contains u (lit I32 1)) ;;
  _ <- assert (contains u (lit I32 2)) ;;
  _ <- assert (negb (contains u (lit I32 3))) ;;
  _ <- assert (contains u (lit I32 4)) ;;
  _ <- assert (contains u (lit I32 5)) ;;
  _ <- assert (contains u (lit I32 6)) ;;
  _ <- assert (negb (is_empty u)) ;;
  Ret tt).
Proof. vm_compute. reflexivity. Qed.
(** src/test/union/upper_bounded_set.rs:184-197 *)
Example test_union_upper_bounded_set_upper_bounded_set : passes (
  x1 <- union (VRangeTo (mkRangeTo (lit I32 2))) (VRange (mkRange (lit I32 2) (lit I32 3))) ;;
  let s := x1 in
  x2 <- union (VRangeTo (mkRangeTo (lit I32 3))) (VRange (mkRange (lit I32 3) (lit I32 4))) ;;
  let s2 := x2 in
  x3 <- union s s2 ;;
  let u := x3 in
  _ <- assert (contains u (lit I32 0)) ;;
  _ <- assert (contains u (lit I32 1)) ;;
  _ <- assert (contains u (lit I32 2)) ;;
  _ <- assert (contains u (lit I32 3)) ;;
  _ <- assert (negb (contains u (lit I32 4))) ;;
  _ <- assert (negb (contains u (lit I32 5))) ;;
  _ <- assert (negb (contains u (lit I32 6))) ;;
  _ <- assert (negb (is_empty u)) ;;
  Ret tt).
Proof. vm_compute. reflexivity. Qed.
(** src/test/union/upper_bounded_set.rs:199-212 *)
Example test_union_upper_bounded_set_unbounded_set : passes (
  x1 <- union (VRangeTo (mkRangeTo (lit I32 2))) (VRange (mkRange (lit I32 2) (lit I32 3))) ;;
  let s := x1 in
  x2 <- union (VRangeTo (mkRangeTo (lit I32 2))) (VRangeFrom (mkRangeFrom (lit I32 5))) ;;
  let s2 := x2 in
  x3 <- union s s2 ;;
  let u := x3 in
  _ <- assert (contains u (lit I32 0)) ;;
  _ <- assert (contains u (lit I32 1)) ;;
  _ <- assert (contains u (lit I32 2)) ;;
  _ <- assert (negb (contains u (lit I32 3))) ;;
  _ <- assert (negb (contains u (lit I32 4))) ;;
  _ <- assert (contains u (lit I32 5)) ;;
  _ <- assert (contains u (lit I32 6)) ;;
  _ <- assert (negb (is_empty u)) ;;
  Ret tt).
Proof. vm_compute. reflexivity. Qed.
(** src/bound.rs:22-28 *)
Example doc_bound_1 : passes (
  let b1 := (Included (lit I32 3)) in
  let b2 := (bound_map (fun n => lit I32 (mval n + 1)) b1) in
  _ <- assert (bound_eqb b2 (Included (lit I32 4))) ;;
  Ret tt).
Proof. vm_compute. reflexivity. Qed.
(** src/bound.rs:43-50 *)
Example doc_bound_2 : passes (
  let included := (Included (lit I32 3)) in
  let excluded := (Excluded (lit I32 3)) in
  _ <- assert (bound_eqb (flipped included) excluded) ;;
  _ <- assert (bound_eqb (flipped excluded) included) ;;
  Ret tt).
Proof. vm_compute. reflexivity. Qed.
(** src/bound.rs:106-112 *)
Example doc_bound_3 : passes (
  let b1 := (lb_excluded (lit I32 2)) in
  let b2 := (lb_excluded (lit I32 3)) in
  _ <- assert (is_lt (lb_cmp b1 b2)) ;;
  Ret tt).
Proof. vm_compute. reflexivity. Qed.
(** src/bound.rs:120-126 *)
Example doc_bound_4 : passes (
  let b := (lb_included (lit I32 2)) in
  let r := (value_of_inner (to_inner (VRangeFrom (mkRangeFrom (lit I32 2))))) in
  x1 <- start_of r ;;
  _ <- assert (lb_eqb b x1) ;;
  Ret tt).
Proof. vm_compute. reflexivity. Qed.
(** src/bound.rs:145-151 *)
Example doc_bound_5 : passes (
  let b1 := (lb_included (lit I32 3)) in
  let b2 := (lb_map (fun n => lit I32 (mval n + 1)) b1) in
  _ <- assert (lb_eqb b2 (lb_included (lit I32 4))) ;;
  Ret tt).
Proof. vm_compute. reflexivity. Qed.
(** src/bound.rs:207-213 *)
Example doc_bound_6 : passes (
  let b := (ub_excluded (lit I32 2)) in
  let r := (value_of_inner (to_inner (VRangeTo (mkRangeTo (lit I32 2))))) in
  x1 <- end_of r ;;
  _ <- assert (ub_eqb b x1) ;;
  Ret tt).
Proof. vm_compute. reflexivity. Qed.
(** src/bound.rs:221-227 *)
Example doc_bound_7 : passes (
  let b := (ub_included (lit I32 2)) in
  let r := (value_of_inner (to_inner (VRangeToInclusive (mkRangeToInclusive (lit I32 2))))) in
  x1 <- end_of r ;;
  _ <- assert (ub_eqb b x1) ;;
  Ret tt).
Proof. vm_compute. reflexivity. Qed.
(** src/bound.rs:246-252 *)
Example doc_bound_8 : passes (
  let b1 := (ub_included (lit I32 3)) in
  let b2 := (ub_map (fun n => lit I32 (mval n + 1)) b1) in
  _ <- assert (ub_eqb b2 (ub_included (lit I32 4))) ;;
  Ret tt).
Proof. vm_compute. reflexivity. Qed.
(** src/bounded_range.rs:13-18 *)
Example doc_bounded_range_1 : passes (
  x1 <- intersection (VRange (mkRange (lit I32 0) (lit I32 5))) (VRange (mkRange (lit I32 3) (lit I32 7))) ;;
  let i := x1 in
  _ <- assert (value_eqb i (VBR (BR (lb_included (lit I32 3)) (ub_excluded (lit I32 5))))) ;;
  Ret tt).
Proof. vm_compute. reflexivity. Qed.
(** src/bounded_range.rs:108-113 *)
Example doc_bounded_range_2 : passes (
  let r := (VBR (br_new (lb_included (lit I32 0)) (ub_included (lit I32 10)))) in
  _ <- assert (contains r (lit I32 5)) ;;
  Ret tt).
Proof. vm_compute. reflexivity. Qed.
(** src/bounded_range.rs:121-127 *)
Example doc_bounded_range_3 : passes (
  x1 <- intersection (VRange (mkRange (lit I32 1) (lit I32 10))) (VRange (mkRange (lit I32 5) (lit I32 7))) ;;
  let r := x1 in
  _ <- assert (contains r (lit I32 5)) ;;
  _ <- assert (negb (contains r (lit I32 3))) ;;
  Ret tt).
Proof. vm_compute. reflexivity. Qed.
(** src/bounded_range.rs:161-165 *)
Example doc_bounded_range_4 : passes (
  let r := (value_of_inner (to_inner (VRange (mkRange (lit I32 0) (lit I32 10))))) in
  x1 <- into_iter r ;;
  let iter := x1 in
  Ret tt).
Proof. vm_compute. reflexivity. Qed.
(** src/bounded_set.rs:10-14 *)
Example doc_bounded_set_1 : passes (
  x1 <- union (VRange (mkRange (lit I32 0) (lit I32 3))) (VRange (mkRange (lit I32 3) (lit I32 5))) ;;
  let s := x1 in
  Ret tt).
Proof. vm_compute. reflexivity. Qed.
(** src/bounded_set.rs:49-55 *)
Example doc_bounded_set_2 : passes (
  let s := (VBS bs_empty : value (mint I32)) in
  _ <- assert (is_empty s) ;;
  _ <- assert (negb (contains s (lit I32 5))) ;;
  Ret tt).
Proof. vm_compute. reflexivity. Qed.
(** src/bounded_set.rs:89-95 *)
Example doc_bounded_set_3 : passes (
  x1 <- union (VRange (mkRange (lit I32 1) (lit I32 5))) (VRange (mkRange (lit I32 10) (lit I32 20))) ;;
  let s := x1 in
  _ <- assert (contains s (lit I32 1)) ;;
  _ <- assert (negb (contains s (lit I32 42))) ;;
  Ret tt).
Proof. vm_compute. reflexivity. Qed.
(** src/bounded_set.rs:107-111 *)
Example doc_bounded_set_4 : passes (
  x1 <- union (VRange (mkRange (lit I32 0) (lit I32 1))) (VRange (mkRange (lit I32 2) (lit I32 3))) ;;
  let s := x1 in
  x2 <- into_iter s ;;
  let iter := x2 in
  Ret tt).
Proof. vm_compute. reflexivity. Qed.
(** src/empty_range.rs:11-13 *)
Example doc_empty_range_1 : passes (
  _ <- assert (is_empty (VRange (mkRange (lit I32 4) (lit I32 2)))) ;;
  Ret tt).
Proof. vm_compute. reflexivity. Qed.
(** src/empty_range.rs:56-61 *)
Example doc_empty_range_2 : passes (
  let r := (VEmpty mkEmptyRange : value (mint I32)) in
  _ <- assert (is_empty r) ;;
  Ret tt).
Proof. vm_compute. reflexivity. Qed.
(** src/empty_range.rs:75-80 *)
Example doc_empty_range_3 : passes (
  let r := (VEmpty mkEmptyRange : value (mint I32)) in
  _ <- assert (negb (contains r (lit I32 5))) ;;
  Ret tt).
Proof. vm_compute. reflexivity. Qed.
(** src/lib.rs:21-29 *)
Example doc_lib_1 : passes (
  x1 <- intersection (VRange (mkRange (lit I32 0) (lit I32 5))) (VRangeFrom (mkRangeFrom (lit I32 3))) ;;
  let i := x1 in
  _ <- assert (contains i (lit I32 4)) ;;
  x2 <- intersection (VRange (mkRange (lit I32 0) (lit I32 5))) (VRange (mkRange (lit I32 5) (lit I32 10))) ;;
  let i2 := x2 in
  _ <- assert (is_empty i2) ;;
  Ret tt).
Proof. vm_compute. reflexivity. Qed.
(** src/lib.rs:35-43 *)
Example doc_lib_2 : passes (
  x1 <- union (VRange (mkRange (lit I32 1) (lit I32 3))) (VRange (mkRange (lit I32 5) (lit I32 7))) ;;
  let u1 := x1 in
  x2 <- into_iter u1 ;;
  x3 <- it_collect x2 ;;
  _ <- assert (list_eqb x3 [1; 2; 5; 6]) ;;
  x4 <- union (VRange (mkRange (lit I32 1) (lit I32 3))) (VRangeFrom (mkRangeFrom (lit I32 10))) ;;
  let u2 := x4 in
  x5 <- into_iter u2 ;;
  x6 <- it_take 5 x5 ;;
  _ <- assert (list_eqb x6 [1; 2; 10; 11; 12]) ;;
  Ret tt).
Proof. vm_compute. reflexivity. Qed.
(** src/lib.rs:89-94 *)
Example doc_lib_3 : passes (
  _ <- assert (is_empty (VRange (mkRange (lit I32 3) (lit I32 2)))) ;;
  _ <- assert (negb (is_empty (VRange (mkRange (lit I32 0) (lit I32 5))))) ;;
  Ret tt).
Proof. vm_compute. reflexivity. Qed.
(** src/lib.rs:101-106 *)
Example doc_lib_4 : passes (
  let range := (VRange (mkRange (lit I32 2) (lit I32 4))) in
  x1 <- complement range ;;
  x2 <- union (VRangeTo (mkRangeTo (lit I32 2))) (VRangeFrom (mkRangeFrom (lit I32 4))) ;;
  _ <- assert (value_eqb x1 x2) ;;
  Ret tt).
Proof. vm_compute. reflexivity. Qed.
(** src/lib.rs:124-129 *)
Example doc_lib_5 : passes (
  let r := (value_of_inner (to_inner (VRange (mkRange (lit I32 0) (lit I32 5))))) in
  _ <- assert (value_eqb r (VBR (BR (lb_included (lit I32 0)) (ub_excluded (lit I32 5))))) ;;
  Ret tt).
Proof. vm_compute. reflexivity. Qed.
(** src/lib.rs:137-142 *)
Example doc_lib_6 : passes (
  x1 <- intersection (VRange (mkRange (lit I32 0) (lit I32 5))) (VRange (mkRange (lit I32 3) (lit I32 7))) ;;
  let i := x1 in
  _ <- assert (value_eqb i (VBR (BR (lb_included (lit I32 3)) (ub_excluded (lit I32 5))))) ;;
  Ret tt).
Proof. vm_compute. reflexivity. Qed.
(** src/lib.rs:154-159 *)
Example doc_lib_7 : passes (
  x1 <- disjoint (VRange (mkRange (lit I32 0) (lit I32 5))) (VRange (mkRange (lit I32 10) (lit I32 20))) ;;
  _ <- assert x1 ;;
  x2 <- disjoint (VRangeTo (mkRangeTo (lit I32 5))) (VRangeFrom (mkRangeFrom (lit I32 3))) ;;
  _ <- assert (negb x2) ;;
  Ret tt).
Proof. vm_compute. reflexivity. Qed.
(** src/lib.rs:172-177 *)
Example doc_lib_8 : passes (
  x1 <- intersects (VRangeTo (mkRangeTo (lit I32 5))) (VRangeFrom (mkRangeFrom (lit I32 3))) ;;
  _ <- assert x1 ;;
  x2 <- intersects (VRange (mkRange (lit I32 0) (lit I32 5))) (VRange (mkRange (lit I32 10) (lit I32 20))) ;;
  _ <- assert (negb x2) ;;
  Ret tt).
Proof. vm_compute. reflexivity. Qed.
(** src/lib.rs:196-200 *)
Example doc_lib_9 : passes (
  let s := (value_of_set (to_set (VRange (mkRange (lit I32 0) (lit I32 5))))) in
  Ret tt).
Proof. vm_compute. reflexivity. Qed.
(** src/lib.rs:208-215 *)
Example doc_lib_10 : passes (
  x1 <- union (VRangeTo (mkRangeTo (lit I32 3))) (VRangeFrom (mkRangeFrom (lit I32 5))) ;;
  let u := x1 in
  _ <- assert (contains u (lit I32 0)) ;;
  _ <- assert (negb (contains u (lit I32 4))) ;;
  _ <- assert (contains u (lit I32 5)) ;;
  Ret tt).
Proof. vm_compute. reflexivity. Qed.
(** src/lower_bounded_range.rs:12-17 *)
Example doc_lower_bounded_range_1 : passes (
  x1 <- intersection (VRangeFrom (mkRangeFrom (lit I32 5))) (VRangeFrom (mkRangeFrom (lit I32 10))) ;;
  let i := x1 in
  _ <- assert (value_eqb i (VLBR (LBR (lb_included (lit I32 10))))) ;;
  Ret tt).
Proof. vm_compute. reflexivity. Qed.
(** src/lower_bounded_range.rs:65-70 *)
Example doc_lower_bounded_range_2 : passes (
  let r := (VLBR (lbr_new (lb_included (lit I32 0)))) in
  _ <- assert (contains r (lit I32 5)) ;;
  Ret tt).
Proof. vm_compute. reflexivity. Qed.
(** src/lower_bounded_range.rs:78-84 *)
Example doc_lower_bounded_range_3 : passes (
  x1 <- intersection (VRangeFrom (mkRangeFrom (lit I32 5))) (VRangeFrom (mkRangeFrom (lit I32 10))) ;;
  let i := x1 in
  _ <- assert (contains i (lit I32 10)) ;;
  _ <- assert (negb (contains i (lit I32 5))) ;;
  Ret tt).
Proof. vm_compute. reflexivity. Qed.
(** src/lower_bounded_range.rs:99-103 *)
Example doc_lower_bounded_range_4 : passes (
  let r := (value_of_inner (to_inner (VRangeFrom (mkRangeFrom (lit I32 0))))) in
  x1 <- into_iter r ;;
  let iter := x1 in
  Ret tt).
Proof. vm_compute. reflexivity. Qed.
(** src/lower_bounded_set.rs:13-17 *)
Example doc_lower_bounded_set_1 : passes (
  x1 <- union (VRange (mkRange (lit I32 0) (lit I32 3))) (VRangeFrom (mkRangeFrom (lit I32 5))) ;;
  let s := x1 in
  Ret tt).
Proof. vm_compute. reflexivity. Qed.
(** src/lower_bounded_set.rs:86-92 *)
Example doc_lower_bounded_set_2 : passes (
  x1 <- union (VRange (mkRange (lit I32 1) (lit I32 5))) (VRangeFrom (mkRangeFrom (lit I32 10))) ;;
  let s := x1 in
  _ <- assert (contains s (lit I32 42)) ;;
  _ <- assert (negb (contains s (lit I32 0))) ;;
  Ret tt).
Proof. vm_compute. reflexivity. Qed.
(** src/lower_bounded_set.rs:104-108 *)
Example doc_lower_bounded_set_3 : passes (
  x1 <- union (VRange (mkRange (lit I32 1) (lit I32 2))) (VRangeFrom (mkRangeFrom (lit I32 3))) ;;
  let s := x1 in
  x2 <- into_iter s ;;
  let iter := x2 in
  Ret tt).
Proof. vm_compute. reflexivity. Qed.
(** src/unbounded_range.rs:10-15 *)
Example doc_unbounded_range_1 : passes (
  x1 <- intersection (VRangeFull mkRangeFull : value (mint I32)) (VRangeFull mkRangeFull : value (mint I32)) ;;
  let i := x1 in
  _ <- assert (value_eqb i (VUnbR mkUnboundedRange : value (mint I32))) ;;
  Ret tt).
Proof. vm_compute. reflexivity. Qed.
(** src/unbounded_range.rs:36-41 *)
Example doc_unbounded_range_2 : passes (
  let r := (VUnbR mkUnboundedRange : value (mint I32)) in
  _ <- assert (contains r (lit I32 42)) ;;
  Ret tt).
Proof. vm_compute. reflexivity. Qed.
(** src/unbounded_range.rs:53-59 *)
Example doc_unbounded_range_3 : passes (
  x1 <- intersection (VRangeFull mkRangeFull : value (mint I32)) (VRangeFull mkRangeFull : value (mint I32)) ;;
  let r := x1 in
  _ <- assert (contains r (lit I32 5)) ;;
  _ <- assert (contains r (lit I32 3)) ;;
  Ret tt).
Proof. vm_compute. reflexivity. Qed.
(** src/unbounded_set.rs:12-21 *)
Example doc_unbounded_set_1 : passes (
  x1 <- union (VRangeTo (mkRangeTo (lit I32 3))) (VRange (mkRange (lit I32 5) (lit I32 10))) ;;
  x2 <- union x1 (VRangeFrom (mkRangeFrom (lit I32 20))) ;;
  let piecewise := x2 in
  _ <- assert (contains piecewise (lit I32 0)) ;;
  _ <- assert (negb (contains piecewise (lit I32 4))) ;;
  _ <- assert (contains piecewise (lit I32 7)) ;;
  _ <- assert (negb (contains piecewise (lit I32 15))) ;;
  _ <- assert (contains piecewise (lit I32 42)) ;;
  Ret tt).
Proof. vm_compute. reflexivity. Qed.
(** src/unbounded_set.rs:35-42 *)
Example doc_unbounded_set_2 : passes (
  x1 <- union (VRangeTo (mkRangeTo (lit I32 5))) (VRangeFrom (mkRangeFrom (lit I32 10))) ;;
  let s := x1 in
  _ <- assert (contains s (lit I32 4)) ;;
  _ <- assert (negb (contains s (lit I32 7))) ;;
  _ <- assert (contains s (lit I32 10)) ;;
  Ret tt).
Proof. vm_compute. reflexivity. Qed.
(** src/unbounded_set.rs:76-82 *)
Example doc_unbounded_set_3 : passes (
  x1 <- union (VRangeTo (mkRangeTo (lit I32 3))) (VRangeFrom (mkRangeFrom (lit I32 5))) ;;
  let piecewise := x1 in
  x2 <- union (VRangeTo (mkRangeTo (lit I32 10))) (VRangeFrom (mkRangeFrom (lit I32 5))) ;;
  let full := x2 in
  _ <- assert (value_eqb full (VUS Full : value (mint I32))) ;;
  Ret tt).
Proof. vm_compute. reflexivity. Qed.
(** src/unbounded_set.rs:102-106 *)
Example doc_unbounded_set_4 : passes (
  x1 <- unbounded_set_new (value_of_inner (to_inner (VRangeTo (mkRangeTo (lit I32 5))))) (value_of_inner (to_inner (VRangeFrom (mkRangeFrom (lit I32 10))))) ;;
  let s := x1 in
  Ret tt).
Proof. vm_compute. reflexivity. Qed.
(** src/unbounded_set.rs:127-134 *)
Example doc_unbounded_set_5 : passes (
  let s := (VUS Full : value (mint I32)) in
  _ <- assert (contains s (lit I32 4)) ;;
  _ <- assert (contains s (lit I32 7)) ;;
  _ <- assert (contains s (lit I32 10)) ;;
  Ret tt).
Proof. vm_compute. reflexivity. Qed.
(** src/upper_bounded_range.rs:11-16 *)
Example doc_upper_bounded_range_1 : passes (
  x1 <- intersection (VRangeTo (mkRangeTo (lit I32 5))) (VRangeToInclusive (mkRangeToInclusive (lit I32 3))) ;;
  let i := x1 in
  _ <- assert (value_eqb i (VUBR (UBR (ub_included (lit I32 3))))) ;;
  Ret tt).
Proof. vm_compute. reflexivity. Qed.
(** src/upper_bounded_range.rs:68-73 *)
Example doc_upper_bounded_range_2 : passes (
  let r := (VUBR (ubr_new (ub_included (lit I32 10)))) in
  _ <- assert (contains r (lit I32 5)) ;;
  Ret tt).
Proof. vm_compute. reflexivity. Qed.
(** src/upper_bounded_range.rs:81-87 *)
Example doc_upper_bounded_range_3 : passes (
  x1 <- intersection (VRangeTo (mkRangeTo (lit I32 5))) (VRangeTo (mkRangeTo (lit I32 10))) ;;
  let i := x1 in
  _ <- assert (contains i (lit I32 4)) ;;
  _ <- assert (negb (contains i (lit I32 9))) ;;
  Ret tt).
Proof. vm_compute. reflexivity. Qed.
(** src/upper_bounded_set.rs:9-13 *)
Example doc_upper_bounded_set_1 : passes (
  x1 <- union (VRange (mkRange (lit I32 10) (lit I32 20))) (VRangeTo (mkRangeTo (lit I32 5))) ;;
  let s := x1 in
  Ret tt).
Proof. vm_compute. reflexivity. Qed.
(** src/upper_bounded_set.rs:66-72 *)
Example doc_upper_bounded_set_2 : passes (
  x1 <- union (VRange (mkRange (lit I32 10) (lit I32 20))) (VRangeTo (mkRangeTo (lit I32 5))) ;;
  let s := x1 in
  _ <- assert (contains s (lit I32 0)) ;;
  _ <- assert (negb (contains s (lit I32 42))) ;;
  Ret tt).
Proof. vm_compute. reflexivity. Qed.
(** README.md:23-29 *)
Example doc_readme_1 : passes (
  x1 <- intersection (VRange (mkRange (lit I32 0) (lit I32 5))) (VRangeFrom (mkRangeFrom (lit I32 3))) ;;
  let i := x1 in
  _ <- assert (contains i (lit I32 4)) ;;
  x2 <- intersection (VRange (mkRange (lit I32 0) (lit I32 5))) (VRange (mkRange (lit I32 5) (lit I32 10))) ;;
  let i2 := x2 in
  _ <- assert (is_empty i2) ;;
  Ret tt).
Proof. vm_compute. reflexivity. Qed.
(** README.md:35-45 *)
Example doc_readme_2 : passes (
  x1 <- union (VRange (mkRange (lit I32 1) (lit I32 3))) (VRange (mkRange (lit I32 5) (lit I32 7))) ;;
  let u1 := x1 in
  x2 <- into_iter u1 ;;
  x3 <- it_collect x2 ;;
  _ <- assert (list_eqb x3 [1; 2; 5; 6]) ;;
  x4 <- union (VRange (mkRange (lit I32 1) (lit I32 3))) (VRangeFrom (mkRangeFrom (lit I32 10))) ;;
  let u2 := x4 in
  x5 <- into_iter u2 ;;
  x6 <- it_take 5 x5 ;;
  _ <- assert (list_eqb x6 [1; 2; 10; 11; 12]) ;;
  x7 <- complement (VRange (mkRange (lit I32 1) (lit I32 3))) ;;
  let c := x7 in
  Ret tt).
Proof. vm_compute. reflexivity. Qed.
