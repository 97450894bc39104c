(** Specification vocabulary for indexing: positions, selection, UTF-8. *)
From Coq Require Import Sorted.
From Verif Require Import Base ModelBound ModelRanges ModelSets ModelValue ModelStep ModelIndex Spec.
Open Scope Z_scope.

(** [w] is made of the elements of [v] at the positions satisfying [P], in order. *)
Definition picks {A : Type} (P : Z -> Prop) (v w : list A) : Prop :=
  exists ps, StronglySorted Z.lt ps /\
    (forall i, In i ps <-> 0 <= i < Z.of_nat (length v) /\ P i) /\
    map (fun i => nth_error v (Z.to_nat i)) ps = map Some w.

Section SpecIndex.
Context {PF : Platform}.

(** The range as a value, and the positions it contains. *)
Definition ix_value (r : index_range) : value (mint Usize) :=
  match r with
  | IxBounded r => VBR r
  | IxLower r => VLBR r
  | IxUpper r => VUBR r
  | IxUnbounded r => VUnbR r
  | IxEmpty r => VEmpty r
  end.
Definition selects (r : index_range) (i : Z) : Prop :=
  exists t : mint Usize, mval t = i /\ mem (ix_value r) t.

(** The first position of a lower bound and the position after an upper bound,
    as unbounded integers. *)
Definition first_pos (l : LowerBound (mint Usize)) : Z :=
  match l with LB (Included t) => mval t | LB (Excluded t) => mval t + 1 end.
Definition stop_pos (u : UpperBound (mint Usize)) : Z :=
  match u with UB (Included t) => mval t + 1 | UB (Excluded t) => mval t end.
(** The positions as [first, stop) inside something of length [len]. *)
Definition ix_first (r : index_range) : Z :=
  match r with IxBounded r => first_pos (br_start r) | IxLower r => first_pos (lbr_start r) | _ => 0 end.
Definition ix_stop (len : Z) (r : index_range) : Z :=
  match r with
  | IxBounded r => stop_pos (br_end r) | IxUpper r => stop_pos (ubr_end r)
  | IxEmpty _ => 0 | _ => len
  end.
(** An end that is not representable as [usize] wraps round to position 0. *)
Definition wrapped_first (l : LowerBound (mint Usize)) : LowerBound (mint Usize) :=
  match l with
  | LB (Excluded t) => if mval t =? usize_max then LB (Included (wrap Usize 0)) else l
  | _ => l
  end.
Definition wrapped_stop (u : UpperBound (mint Usize)) : UpperBound (mint Usize) :=
  match u with
  | UB (Included t) => if mval t =? usize_max then UB (Excluded (wrap Usize 0)) else u
  | _ => u
  end.
Definition wrapped (r : index_range) : index_range :=
  match r with
  | IxBounded r => IxBounded (BR (wrapped_first (br_start r)) (wrapped_stop (br_end r)))
  | IxLower r => IxLower (LBR (wrapped_first (lbr_start r)))
  | IxUpper r => IxUpper (UBR (wrapped_stop (ubr_end r)))
  | r => r
  end.
(** Both ends are representable as [usize]. *)
Definition convertible (r : index_range) : Prop := ix_first r <= usize_max /\ ix_stop 0 r <= usize_max.
End SpecIndex.

(** The UTF-8 encoding of a character and of a string. *)
Definition utf8_char (c : chr) : list Z :=
  let z := cval c in
  if z <? 0x80 then [z]
  else if z <? 0x800 then [0xC0 + z / 0x40; 0x80 + z mod 0x40]
  else if z <? 0x10000 then [0xE0 + z / 0x1000; 0x80 + z / 0x40 mod 0x40; 0x80 + z mod 0x40]
  else [0xF0 + z / 0x40000; 0x80 + z / 0x1000 mod 0x40; 0x80 + z / 0x40 mod 0x40; 0x80 + z mod 0x40].
Definition utf8 (cs : list chr) : list Z := flat_map utf8_char cs.
(** Position [i] of the string lies between two characters (or at an end). *)
Definition on_boundary (cs : list chr) (i : Z) : Prop := exists a b, cs = a ++ b /\ Z.of_nat (length (utf8 a)) = i.
