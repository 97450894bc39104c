(** The project's own tests run in the model: every #[test] function of
    src/test and every documentation example, translated by
    tools/gen_repo_tests.py (do not edit by hand).  The Rust code cannot be
    built here, so this is how the model is compared with what the authors
    observed of the program: a test that passes there must pass here. *)
From Verif Require Import Base ModelBound ModelRanges ModelSets ModelAlgebra ModelValue ModelEq
  ModelStep InstancesStep ModelIter ModelConv ModelIndex.
Open Scope Z_scope.

(** ** Test kit: [assert!], and a sum of the types to run methods on.
    Tests run with overflow checks ([Debug]) on a 64-bit target. *)
#[local] Existing Instance pf64.

Definition assert (b : bool) : outcome unit := if b then Ret tt else Panic.
Definition passes (m : outcome unit) : Prop := m = Ret tt.
Definition is_lt (c : comparison) : bool := match c with Lt => true | _ => false end.

Definition list_eqb (a b : list Z) : bool := vd_eqb Z.eqb a b.
Definition opt_eqb (a b : option Z) : bool :=
  match a, b with Some x, Some y => x =? y | None, None => true | _, _ => false end.
Definition hint_eqb (a b : Z * option Z) : bool := (fst a =? fst b) && opt_eqb (snd a) (snd b).

Section Kit.
Context {ty : ity}.
Notation T := (mint ty).

Definition unbounded_set_new (u l : value T) : outcome (value T) :=
  match u, l with VUBR u, VLBR l => Ret (VUS (us_new u l)) | _, _ => Panic end.
Definition start_of (v : value T) : outcome (LowerBound T) :=
  match v with VBR r => Ret (br_start r) | VLBR r => Ret (lbr_start r) | _ => Panic end.
Definition end_of (v : value T) : outcome (UpperBound T) :=
  match v with VBR r => Ret (br_end r) | VUBR r => Ret (ubr_end r) | _ => Panic end.

Definition to_std_range (v : value T) : outcome (value T) :=
  match v with
  | VBR r => x <- range_from_br Debug r ;; Ret (VRange x)
  | VEmpty r => Ret (VRange (range_from_empty r))
  | _ => Panic
  end.
Definition to_std_range_inclusive (v : value T) : outcome (value T) :=
  match v with
  | VBR r => x <- range_inclusive_from_br Debug r ;; Ret (VRangeInclusive x)
  | VEmpty r => x <- range_inclusive_from_empty Debug r ;; Ret (VRangeInclusive x)
  | _ => Panic
  end.
Definition to_std_range_from (v : value T) : outcome (value T) :=
  match v with VLBR r => x <- range_from_from_lbr Debug r ;; Ret (VRangeFrom x) | _ => Panic end.
Definition to_std_range_to (v : value T) : outcome (value T) :=
  match v with VUBR r => x <- range_to_from_ubr Debug r ;; Ret (VRangeTo x) | _ => Panic end.
Definition to_std_range_to_inclusive (v : value T) : outcome (value T) :=
  match v with VUBR r => x <- range_to_inclusive_from_ubr Debug r ;; Ret (VRangeToInclusive x) | _ => Panic end.
Definition to_std_range_full (v : value T) : outcome (value T) :=
  match v with VUnbR r => Ret (VRangeFull (range_full_from_unbr r)) | _ => Panic end.

Inductive iter : Type :=
| ItBR (i : BoundedRangeIter T) | ItBS (i : BoundedSetIter T)
| ItLBR (i : LowerBoundedRangeIter T) | ItLBS (i : LowerBoundedSetIter T)
| ItEmpty.
Definition into_iter (v : value T) : outcome iter :=
  match v with
  | VBR r => x <- br_into_iter Debug r ;; Ret (ItBR x)
  | VBS s => x <- bs_into_iter Debug s ;; Ret (ItBS x)
  | VLBR r => x <- lbr_into_iter Debug r ;; Ret (ItLBR x)
  | VLBS s => x <- lbs_into_iter Debug s ;; Ret (ItLBS x)
  | VEmpty _ => Ret ItEmpty
  | _ => Panic
  end.
Definition wrap_it {S : Type} (f : S -> iter) (m : outcome (option T * S)) : outcome (option Z * iter) :=
  p <- m ;; Ret (option_map mval (fst p), f (snd p)).
Definition it_next (i : iter) : outcome (option Z * iter) :=
  match i with
  | ItBR i => wrap_it ItBR (bri_next Debug i)
  | ItBS i => wrap_it ItBS (bsi_next Debug i)
  | ItLBR i => wrap_it ItLBR (lbri_next Debug i)
  | ItLBS i => wrap_it ItLBS (lbsi_next Debug i)
  | ItEmpty => Ret (None, ItEmpty)
  end.
Definition it_nth (i : iter) (n : Z) : outcome (option Z * iter) :=
  match i with
  | ItBR i => wrap_it ItBR (bri_nth Debug i n)
  | ItBS i => wrap_it ItBS (bsi_nth Debug i n)
  | ItLBR i => wrap_it ItLBR (lbri_nth Debug i n)
  | ItLBS i => wrap_it ItLBS (lbsi_nth Debug i n)
  | ItEmpty => Ret (None, ItEmpty)
  end.
Definition it_next_back (i : iter) : outcome (option Z * iter) :=
  match i with
  | ItBR i => wrap_it ItBR (bri_next_back Debug i)
  | ItBS i => wrap_it ItBS (bsi_next_back Debug i)
  | ItEmpty => Ret (None, ItEmpty)
  | _ => Panic
  end.
Definition it_nth_back (i : iter) (n : Z) : outcome (option Z * iter) :=
  match i with
  | ItBR i => wrap_it ItBR (bri_nth_back Debug i n)
  | ItBS i => wrap_it ItBS (bsi_nth_back Debug i n)
  | ItEmpty => Ret (None, ItEmpty)
  | _ => Panic
  end.
Definition it_size_hint (i : iter) : outcome (Z * option Z) :=
  match i with
  | ItBR i => bri_size_hint Debug i
  | ItBS i => bsi_size_hint Debug i
  | ItLBR i => Ret (lbri_size_hint i)
  | ItLBS i => Ret (lbsi_size_hint i)
  | ItEmpty => Ret (0, Some 0)
  end.
Definition it_count (i : iter) : outcome Z :=
  match i with
  | ItBR i => bri_count Debug i
  | ItBS i => bsi_count Debug i
  | ItEmpty => Ret 0
  | _ => Panic
  end.
Definition it_min (i : iter) : outcome (option Z) :=
  o <- match i with
       | ItBR i => bri_min Debug i
       | ItBS i => bsi_min Debug i
       | ItLBR i => lbri_min Debug i
       | ItLBS i => lbsi_min Debug i
       | ItEmpty => Ret None
       end ;; Ret (option_map mval o).
Definition it_max (i : iter) : outcome (option Z) :=
  o <- match i with
       | ItBR i => bri_max Debug i
       | ItBS i => bsi_max Debug i
       | ItEmpty => Ret None
       | _ => Panic
       end ;; Ret (option_map mval o).

(** [collect] with fuel; no test needs more than 50 elements. *)
Fixpoint drain {S A : Type} (next : S -> outcome (option A * S)) (fuel : nat) (s : S) : outcome (list A) :=
  match fuel with
  | O => Diverge
  | Datatypes.S fuel =>
    p <- next s ;;
    match fst p with
    | Some x => l <- drain next fuel (snd p) ;; Ret (x :: l)
    | None => Ret []
    end
  end.
Definition it_collect (i : iter) : outcome (list Z) := drain it_next 50 i.
Fixpoint take_nat (n : nat) (i : iter) : outcome (list Z) :=
  match n with
  | O => Ret []
  | Datatypes.S n =>
    p <- it_next i ;;
    match fst p with Some x => l <- take_nat n (snd p) ;; Ret (x :: l) | None => Ret [] end
  end.
Definition it_take (n : Z) (i : iter) : outcome (list Z) := take_nat (Z.to_nat n) i.
(** [last] of a set drains its last piece (see [bsi_last] in ModelIter.v). *)
Definition it_last (i : iter) : outcome (option Z) :=
  match i with
  | ItBR i => Ret (option_map mval (bri_last i))
  | ItBS i =>
    its <- trim Debug (rev (bsi_range_iters i)) ;;
    match its with
    | [] => Ret None
    | i :: _ => l <- drain (bri_next Debug) 50 i ;; Ret (option_map mval (vd_back l))
    end
  | ItEmpty => Ret None
  | _ => Panic
  end.
End Kit.

(** [drain] is the relation the theorems use. *)
Lemma drain_drains {S A : Type} (next : S -> outcome (option A * S)) (n : nat) :
  forall s l, drain next n s = Ret l -> drains next s (Ret l).
Proof.
  induction n as [|n IH]; intros s l H; cbn in H; [discriminate|].
  destruct (next s) as [[o s']| |] eqn:E; cbn in H; try discriminate.
  destruct o as [x|]; cbn in H.
  - destruct (drain next n s') as [k| |] eqn:E'; cbn in H; try discriminate.
    injection H as <-. apply (drains_item _ s s' x (Ret k) E), IH, E'.
  - injection H as <-. exact (drains_done _ s s' E).
Qed.

Definition index_of (v : value (mint Usize)) : outcome index_range :=
  match v with
  | VBR r => Ret (IxBounded r) | VLBR r => Ret (IxLower r) | VUBR r => Ret (IxUpper r)
  | VUnbR r => Ret (IxUnbounded r) | VEmpty r => Ret (IxEmpty r) | _ => Panic
  end.
Definition cstr_index_value (m : mode) (s : list Z) (v : value (mint Usize)) : outcome (list Z) :=
  match v with VLBR r => cstr_index m s r | VUnbR r => Ret (full_index s r) | _ => Panic end.
Definition full_index_mut_value (s : list Z) (v : value (mint Usize)) (f : list Z -> list Z) : outcome (list Z) :=
  match v with VUnbR r => Ret (full_index_mut s r f) | _ => Panic end.
(** [make_ascii_uppercase]. *)
Definition upper (l : list Z) : list Z := map (fun b => if (97 <=? b) && (b <=? 122) then b - 32 else b) l.
Definition set_nth (n : nat) (z : Z) (l : list Z) : list Z := firstn n l ++ z :: skipn (S n) l.

(** ** The tests *)

