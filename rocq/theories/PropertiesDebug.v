(** C75: the texts of [Debug].  [debug] (ModelDebug.v) is what the derives and std's builders
    write, [false] for [{:?}] and [true] for [{:#?}]; [shape_of] and [layout] (SpecDebug.v) say
    what they should write. *)
From Coq Require Import String Lia.
From Verif Require Import Base ModelBound ModelRanges ModelSets ModelAlgebra ModelValue ModelIter ModelStep ModelEq ModelDebug
  SpecDebug DebugLemmas DebugCodes Canon EqProofs StepProofs InstancesStep.
#[local] Existing Instance pf64.

Section Debug.
Context {T : Type} {DT : Debug T} (alt : bool).

(** Every value and every iterator is written as the declaration of its type filled in: on one
    line, or with each part on its own line, four spaces in from what it is a part of. *)
Theorem C75_layout : one_line (fmt alt : T -> text) -> ~ In newline (phantom (T := T)) ->
  (forall v : value T, debug alt v = layout alt (shape_of (fmt alt) (phantom (T := T)) v)) /\
  (forall i : BoundedRangeIter T, d_bri alt i = layout alt (s_bri (fmt alt) i)) /\
  (forall i : BoundedSetIter T, d_bsi alt i = layout alt (s_bsi (fmt alt) i)) /\
  (forall i : LowerBoundedRangeIter T, d_lbri alt i = layout alt (s_lbri (fmt alt) i)) /\
  (forall i : LowerBoundedSetIter T, d_lbsi alt i = layout alt (s_lbsi (fmt alt) i)).
Proof.
  intros L P. split; [intros v; now apply debug_layout|]. split; [intros i; now apply l_bri|]. split; [intros i; now apply l_bsi|].
  split; [intros i; now apply l_lbri|intros i; now apply l_lbsi].
Qed.
(** Two values with the same text are the same value of the same type, and two iterators are in
    the same state. *)
Theorem C75_distinct {DL : DebugLaws T} :
  (forall v w : value T, debug alt v = debug alt w -> v = w) /\
  (forall i j : BoundedRangeIter T, d_bri alt i = d_bri alt j -> i = j) /\
  (forall i j : BoundedSetIter T, d_bsi alt i = d_bsi alt j -> i = j) /\
  (forall i j : LowerBoundedRangeIter T, d_lbri alt i = d_lbri alt j -> i = j) /\
  (forall i j : LowerBoundedSetIter T, d_lbsi alt i = d_lbsi alt j -> i = j).
Proof.
  split; [exact (debug_inj alt)|]. split; [exact (code_inj (d_bri alt) (code_bri alt))|]. split; [exact (code_inj (d_bsi alt) (code_bsi alt))|].
  split; [exact (code_inj (d_lbri alt) (code_lbri alt))|exact (code_inj (d_lbsi alt) (code_lbsi alt))].
Qed.
End Debug.
Print Assumptions C75_layout.
Print Assumptions C75_distinct.

(** So when [assert_eq!] fails it prints two texts that differ: two values are [==] iff they have
    the same text, if elements that compare as equal are the same. *)
Theorem C75_equal (T : Type) (OT : Ord T) (OL : OrdLaws T) (OS : OrdStrict T) (DT : Debug T) (DL : DebugLaws T) (alt : bool) (v w : value T) :
  value_eqb v w = true <-> debug alt v = debug alt w.
Proof.
  split; [intros E; now apply value_eqb_eq in E as ->|]. intros E. apply (debug_inj alt) in E as ->. apply value_eqb_refl.
Qed.
Print Assumptions C75_equal.

(** The integers and [char]s meet the hypotheses; [plain] is std's table of printable [char]s. *)
Theorem C75_integers (PF : Platform) (ty : ity) (alt : bool) (v w : value (mint ty)) :
  (value_eqb v w = true <-> debug alt v = debug alt w) /\ debug alt v = layout alt (shape_of (fmt alt) (phantom (T := mint ty)) v).
Proof.
  split; [apply C75_equal; apply _|]. apply debug_layout; [apply one_line_int|]. destruct ty; cbn; intuition discriminate.
Qed.
Theorem C75_chars (plain : Z -> bool) (alt : bool) (v w : value chr) :
  let D := Debug_char plain in
  (value_eqb v w = true <-> debug alt v = debug alt w) /\ debug alt v = layout alt (shape_of (fmt alt) (phantom (T := chr)) v).
Proof.
  intros D. split; [apply C75_equal; try apply _; apply DebugLaws_char|]. apply debug_layout; [apply one_line_char|]. cbn. intuition discriminate.
Qed.
Print Assumptions C75_integers.
Print Assumptions C75_chars.

(** [BoundedRange::from(3u8..7)], [UpperBoundedSet] of [..=0] and [5..9], and the iterator of [3..7]. *)
Definition r37 : BoundedRange (mint U8) := BR (LB (Included (u8 3))) (UB (Excluded (u8 7))).
Example C75_ex :
  debug false (VBR r37) = txt "BoundedRange { start: LowerBound(Included(3)), end: UpperBound(Excluded(7)) }" /\
  debug true (VBR r37) = concat (map (fun l => txt l ++ [newline]) [
    "BoundedRange {"; "    start: LowerBound("; "        Included("; "            3,"; "        ),"; "    ),";
    "    end: UpperBound("; "        Excluded("; "            7,"; "        ),"; "    ),"]%string) ++ txt "}" /\
  debug false (VUBS (UBS (UBR (UB (Included (u8 0)))) (BS [r37; r37]))) =
    txt "UpperBoundedSet { upper_bounded_range: UpperBoundedRange { end: UpperBound(Included(0)) }, ranges: BoundedSet { ranges: [BoundedRange { start: LowerBound(Included(3)), end: UpperBound(Excluded(7)) }, BoundedRange { start: LowerBound(Included(3)), end: UpperBound(Excluded(7)) }] } }" /\
  d_bsi true (BSI [BRI (u8 3) (u8 6)]) = concat (map (fun l => txt l ++ [newline]) [
    "BoundedSetIter {"; "    range_iters: ["; "        BoundedRangeIter {"; "            current: 3,"; "            last: 6,";
    "        },"; "    ],"]%string) ++ txt "}" /\
  debug true (VBS (BS (T := mint U8) [])) = concat (map (fun l => txt l ++ [newline]) ["BoundedSet {"; "    ranges: [],"]%string) ++ txt "}" /\
  debug false (VRangeInclusive {| ri_start := u8 3; ri_end := u8 3; ri_exhausted := true |}) = txt "3..=3@exhausted" /\
  debug false (VUS (Full (T := mint U8))) = txt "Full" /\
  debug true (VEmpty (T := mint U8) mkEmptyRange) = concat (map (fun l => txt l ++ [newline]) ["EmptyRange {"; "    t: PhantomData<u8>,"]%string) ++ txt "}" /\
  debug false (VLBR (LBR (LB (Excluded (lit I8 (-128)))))) = txt "LowerBoundedRange { start: LowerBound(Excluded(-128)) }".
Proof. repeat split; vm_compute; reflexivity. Qed.
(** [' '..'\n'], with what is printable in ASCII. *)
Example C75_chars_ex : let D := Debug_char (fun c => (32 <=? c)%Z && (c <? 127)%Z) in
  debug false (VRange {| rg_start := ch 32; rg_end := ch 10 |}) = txt "' '..'\n'" /\
  debug false (VRangeTo {| rt_end := ch 233 |}) = txt "..'\u{e9}'".
Proof. split; vm_compute; reflexivity. Qed.
(** The same contents cut at different places are told apart. *)
Example C75_distinct_ex :
  debug true (VBS (BS [BR (LB (Included (u8 0))) (UB (Excluded (u8 1))); BR (LB (Included (u8 1))) (UB (Excluded (u8 2)))])) <>
  debug true (VBS (BS [BR (LB (Included (u8 0))) (UB (Excluded (u8 2)))])).
Proof. intros E. apply (proj1 (C75_distinct true)) in E. discriminate. Qed.

(** Without the law: elements that write nothing. *)
Definition Silent : Debug Z := {| fmt := fun _ _ => []; phantom := [] |}.
Example C75_silent_ex : exists v w : value Z, v <> w /\ @debug _ Silent false v = @debug _ Silent false w.
Proof. exists (VRangeFrom {| rf_start := 0%Z |}), (VRangeFrom {| rf_start := 1%Z |}). split; [discriminate|reflexivity]. Qed.
