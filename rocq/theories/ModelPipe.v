(** Model of std's double-ended iterator adaptors (library/core/src/iter/adapters,
    outside /repo), as they run on the crate's iterators: which of [next],
    [next_back], [nth], [nth_back] and [len] each of them calls
    (src/bounded_range.rs:187-246, src/bounded_set.rs:141-214).
    Simplified: [len] stands for the exact [size_hint] from which std computes
    it; [advance_by] is the default loop over [next]; the closure of [map] neither
    panics nor has effects.  A method an adaptor does not have (the [len] of
    [Chain]) is a panic. *)
From Verif Require Import Base ModelBound ModelRanges ModelSets ModelStep ModelIter.
Open Scope Z_scope.

(** The methods of an iterator with state [S] and items [A]. *)
Record methods (S A : Type) : Type := Methods {
  m_next : S -> outcome (option A * S);
  m_next_back : S -> outcome (option A * S);
  m_nth : S -> Z -> outcome (option A * S);
  m_nth_back : S -> Z -> outcome (option A * S);
  m_len : S -> outcome Z
}.
Arguments Methods {S A}. Arguments m_next {S A}. Arguments m_next_back {S A}. Arguments m_nth {S A}.
Arguments m_nth_back {S A}. Arguments m_len {S A}.

Definition m_call {S A : Type} (M : methods S A) (s : S) (c : call) : outcome (reply A * S) :=
  match c with
  | Next => item (m_next M s)
  | NextBack => item (m_next_back M s)
  | Nth n => item (m_nth M s n)
  | NthBack n => item (m_nth_back M s n)
  | Len => n <- m_len M s ;; Ret (Count n, s)
  end.

(** The crate's iterators. *)
Definition bri_methods {T : Type} {PF : Platform} {OT : Ord T} {ST : Step T} (m : mode) : methods (BoundedRangeIter T) T :=
  Methods (bri_next m) (bri_next_back m) (bri_nth m) (bri_nth_back m) (bri_len m).
Definition bsi_methods {T : Type} {PF : Platform} {OT : Ord T} {ST : Step T} (m : mode) : methods (BoundedSetIter T) T :=
  Methods (bsi_next m) (bsi_next_back m) (bsi_nth m) (bsi_nth_back m) (bsi_len m).

(** [Iterator::advance_by]: the number of steps that could not be made. *)
Fixpoint advance {S A : Type} (next : S -> outcome (option A * S)) (k : nat) (s : S) : outcome (nat * S) :=
  match k with
  | O => Ret (O, s)
  | Datatypes.S k' =>
    p <- next s ;;
    match fst p with
    | Some _ => advance next k' (snd p)
    | None => Ret (k, snd p)
    end
  end.
(** The default [Iterator::nth] ([DoubleEndedIterator::nth_back]). *)
Definition default_nth {S A : Type} (next : S -> outcome (option A * S)) (s : S) (n : Z) : outcome (option A * S) :=
  p <- advance next (Z.to_nat n) s ;;
  match fst p with O => next (snd p) | _ => Ret (None, snd p) end.

(** [Rev]. *)
Definition rev_methods {S A : Type} (M : methods S A) : methods S A :=
  Methods (m_next_back M) (m_next M) (m_nth_back M) (m_nth M) (m_len M).

(** [Map]; [nth] and [nth_back] are the default ones. *)
Definition map_step {S A B : Type} (f : A -> B) (next : S -> outcome (option A * S)) (s : S) : outcome (option B * S) :=
  p <- next s ;; Ret (option_map f (fst p), snd p).
Definition map_methods {S A B : Type} (f : A -> B) (M : methods S A) : methods S B :=
  Methods (map_step f (m_next M)) (map_step f (m_next_back M))
    (default_nth (map_step f (m_next M))) (default_nth (map_step f (m_next_back M))) (m_len M).

(** [Enumerate]: the count of items passed, and the iterator. *)
Definition enum_methods {PF : Platform} {S A : Type} (m : mode) (M : methods S A) : methods (Z * S) (Z * A) :=
  let back (step : S -> outcome (option A * S)) (s : Z * S) :=
    p <- step (snd s) ;;
    match fst p with
    | None => Ret (None, (fst s, snd p))
    | Some a =>
      len <- m_len M (snd p) ;;
      i <- usize_add Release (fst s) len ;;
      Ret (Some (i, a), (fst s, snd p))
    end in
  Methods
    (fun s =>
      p <- m_next M (snd s) ;;
      match fst p with
      | None => Ret (None, (fst s, snd p))
      | Some a => c <- usize_add m (fst s) 1 ;; Ret (Some (fst s, a), (c, snd p))
      end)
    (back (m_next_back M))
    (fun s n =>
      p <- m_nth M (snd s) n ;;
      match fst p with
      | None => Ret (None, (fst s, snd p))
      | Some a =>
        i <- usize_add m (fst s) n ;;
        c <- usize_add m i 1 ;;
        Ret (Some (i, a), (c, snd p))
      end)
    (fun s n => back (fun t => m_nth_back M t n) s)
    (fun s => m_len M (snd s)).

(** [Zip]; before an item is taken from the back the longer side is cut to the
    length of the shorter. *)
Fixpoint drop_back {S A : Type} (M : methods S A) (k : nat) (s : S) : outcome S :=
  match k with
  | O => Ret s
  | Datatypes.S k' => p <- m_next_back M s ;; drop_back M k' (snd p)
  end.
Definition zip_next {S1 S2 A B : Type} (M1 : methods S1 A) (M2 : methods S2 B) (s : S1 * S2)
  : outcome (option (A * B) * (S1 * S2)) :=
  p <- m_next M1 (fst s) ;;
  match fst p with
  | None => Ret (None, (snd p, snd s))
  | Some a =>
    q <- m_next M2 (snd s) ;;
    match fst q with
    | None => Ret (None, (snd p, snd q))
    | Some b => Ret (Some (a, b), (snd p, snd q))
    end
  end.
Definition zip_next_back {S1 S2 A B : Type} (M1 : methods S1 A) (M2 : methods S2 B) (s : S1 * S2)
  : outcome (option (A * B) * (S1 * S2)) :=
  n1 <- m_len M1 (fst s) ;;
  n2 <- m_len M2 (snd s) ;;
  s1 <- drop_back M1 (Z.to_nat (n1 - n2)) (fst s) ;;
  s2 <- drop_back M2 (Z.to_nat (n2 - n1)) (snd s) ;;
  p <- m_next_back M1 s1 ;;
  q <- m_next_back M2 s2 ;;
  match fst p, fst q with
  | Some a, Some b => Ret (Some (a, b), (snd p, snd q))
  | None, None => Ret (None, (snd p, snd q))
  | _, _ => Panic
  end.
Definition zip_methods {S1 S2 A B : Type} (M1 : methods S1 A) (M2 : methods S2 B) : methods (S1 * S2) (A * B) :=
  Methods (zip_next M1 M2) (zip_next_back M1 M2) (default_nth (zip_next M1 M2)) (default_nth (zip_next_back M1 M2))
    (fun s => n1 <- m_len M1 (fst s) ;; n2 <- m_len M2 (snd s) ;; Ret (Z.min n1 n2)).

(** [Take]: the iterator, and how many items may still be taken. *)
Definition take_methods {S A : Type} (M : methods S A) : methods (S * Z) A :=
  Methods
    (fun s =>
      if snd s =? 0 then Ret (None, s)
      else p <- m_next M (fst s) ;; Ret (fst p, (snd p, snd s - 1)))
    (fun s =>
      if snd s =? 0 then Ret (None, s)
      else
        len <- m_len M (fst s) ;;
        p <- m_nth_back M (fst s) (Z.max 0 (len - snd s)) ;;
        Ret (fst p, (snd p, snd s - 1)))
    (fun s n =>
      if n <? snd s then
        p <- m_nth M (fst s) n ;; Ret (fst p, (snd p, snd s - (n + 1)))
      else if 0 <? snd s then
        p <- m_nth M (fst s) (snd s - 1) ;; Ret (None, (snd p, 0))
      else Ret (None, s))
    (fun s n =>
      len <- m_len M (fst s) ;;
      if n <? snd s then
        p <- m_nth_back M (fst s) (Z.max 0 (len - snd s) + n) ;;
        Ret (fst p, (snd p, snd s - (n + 1)))
      else if 0 <? len then
        p <- m_nth_back M (fst s) (len - 1) ;; Ret (None, (snd p, snd s))
      else Ret (None, s))
    (fun s => if snd s =? 0 then Ret 0 else n <- m_len M (fst s) ;; Ret (Z.min n (snd s))).

(** [Skip]: the iterator, and how many items are still to be skipped. *)
Definition skip_methods {PF : Platform} {S A : Type} (M : methods S A) : methods (S * Z) A :=
  let len (s : S * Z) := n <- m_len M (fst s) ;; Ret (Z.max 0 (n - snd s)) in
  Methods
    (fun s =>
      p <- (if 0 <? snd s then m_nth M (fst s) (snd s) else m_next M (fst s)) ;;
      Ret (fst p, (snd p, 0)))
    (fun s =>
      n <- len s ;;
      if 0 <? n then p <- m_next_back M (fst s) ;; Ret (fst p, (snd p, snd s))
      else Ret (None, s))
    (fun s n =>
      if 0 <? snd s then
        if snd s + n <=? usize_max then
          p <- m_nth M (fst s) (snd s + n) ;; Ret (fst p, (snd p, 0))
        else
          p <- m_nth M (fst s) (snd s - 1) ;;
          match fst p with
          | None => Ret (None, (snd p, 0))
          | Some _ => q <- m_nth M (snd p) n ;; Ret (fst q, (snd q, 0))
          end
      else p <- m_nth M (fst s) n ;; Ret (fst p, (snd p, 0)))
    (fun s n =>
      k <- len s ;;
      if n <? k then p <- m_nth_back M (fst s) n ;; Ret (fst p, (snd p, snd s))
      else if 0 <? k then p <- m_nth_back M (fst s) (k - 1) ;; Ret (None, (snd p, snd s))
      else Ret (None, s))
    len.

(** [Chain]: both iterators, each until it has been found exhausted at the seam. *)
Definition chain_methods {S1 S2 A : Type} (M1 : methods S1 A) (M2 : methods S2 A) : methods (option S1 * option S2) A :=
  let front (s : option S2) (k : S2 -> outcome (option A * S2)) : outcome (option A * (option S1 * option S2)) :=
    match s with None => Ret (None, (None, None)) | Some s2 => p <- k s2 ;; Ret (fst p, (None, Some (snd p))) end in
  let rear (s : option S1) (k : S1 -> outcome (option A * S1)) : outcome (option A * (option S1 * option S2)) :=
    match s with None => Ret (None, (None, None)) | Some s1 => p <- k s1 ;; Ret (fst p, (Some (snd p), None)) end in
  Methods
    (fun s =>
      match fst s with
      | None => front (snd s) (m_next M2)
      | Some s1 =>
        p <- m_next M1 s1 ;;
        match fst p with
        | Some a => Ret (Some a, (Some (snd p), snd s))
        | None => front (snd s) (m_next M2)
        end
      end)
    (fun s =>
      match snd s with
      | None => rear (fst s) (m_next_back M1)
      | Some s2 =>
        p <- m_next_back M2 s2 ;;
        match fst p with
        | Some a => Ret (Some a, (fst s, Some (snd p)))
        | None => rear (fst s) (m_next_back M1)
        end
      end)
    (fun s n =>
      match fst s with
      | None => front (snd s) (fun s2 => m_nth M2 s2 n)
      | Some s1 =>
        p <- advance (m_next M1) (Z.to_nat n) s1 ;;
        match fst p with
        | O =>
          q <- m_next M1 (snd p) ;;
          match fst q with
          | Some a => Ret (Some a, (Some (snd q), snd s))
          | None => front (snd s) (fun s2 => m_nth M2 s2 0)
          end
        | k => front (snd s) (fun s2 => m_nth M2 s2 (Z.of_nat k))
        end
      end)
    (fun s n =>
      match snd s with
      | None => rear (fst s) (fun s1 => m_nth_back M1 s1 n)
      | Some s2 =>
        p <- advance (m_next_back M2) (Z.to_nat n) s2 ;;
        match fst p with
        | O =>
          q <- m_next_back M2 (snd p) ;;
          match fst q with
          | Some a => Ret (Some a, (fst s, Some (snd q)))
          | None => rear (fst s) (fun s1 => m_nth_back M1 s1 0)
          end
        | k => rear (fst s) (fun s1 => m_nth_back M1 s1 (Z.of_nat k))
        end
      end)
    (fun _ => Panic).

(** Towers of adaptors over ranges and sets, with the type of their state and of their items. *)
Inductive pipe {PF : Platform} : Type -> Type -> Type :=
| PRange (T : Type) (OT : Ord T) (ST : Step T) (r : BoundedRange T) : pipe (BoundedRangeIter T) T
| PSet (T : Type) (OT : Ord T) (ST : Step T) (s : BoundedSet T) : pipe (BoundedSetIter T) T
| PRev {S A : Type} (p : pipe S A) : pipe S A
| PMap {S A B : Type} (f : A -> B) (p : pipe S A) : pipe S B
| PEnum {S A : Type} (p : pipe S A) : pipe (Z * S) (Z * A)
| PZip {S1 S2 A B : Type} (p : pipe S1 A) (q : pipe S2 B) : pipe (S1 * S2) (A * B)
| PTake {S A : Type} (n : Z) (p : pipe S A) : pipe (S * Z) A
| PSkip {S A : Type} (n : Z) (p : pipe S A) : pipe (S * Z) A
| PChain {S1 S2 A : Type} (p : pipe S1 A) (q : pipe S2 A) : pipe (option S1 * option S2) A.
Arguments PRange {PF T OT ST} r. Arguments PSet {PF T OT ST} s.

Fixpoint p_start {PF : Platform} (m : mode) {S A : Type} (p : pipe S A) : outcome S :=
  match p in pipe S A return outcome S with
  | PRange r => br_into_iter m r
  | PSet s => bs_into_iter m s
  | PRev p => p_start m p
  | PMap _ p => p_start m p
  | PEnum p => s <- p_start m p ;; Ret (0, s)
  | PZip p q => s <- p_start m p ;; t <- p_start m q ;; Ret (s, t)
  | PTake n p => s <- p_start m p ;; Ret (s, n)
  | PSkip n p => s <- p_start m p ;; Ret (s, n)
  | PChain p q => s <- p_start m p ;; t <- p_start m q ;; Ret (Some s, Some t)
  end.
Fixpoint p_methods {PF : Platform} (m : mode) {S A : Type} (p : pipe S A) : methods S A :=
  match p in pipe S A return methods S A with
  | PRange r => bri_methods m
  | PSet s => bsi_methods m
  | PRev p => rev_methods (p_methods m p)
  | PMap f p => map_methods f (p_methods m p)
  | PEnum p => enum_methods m (p_methods m p)
  | PZip p q => zip_methods (p_methods m p) (p_methods m q)
  | PTake n p => take_methods (p_methods m p)
  | PSkip n p => skip_methods (p_methods m p)
  | PChain p q => chain_methods (p_methods m p) (p_methods m q)
  end.

(** What Rust's types allow: [ExactSizeIterator], [DoubleEndedIterator], and
    that [rev] is only called on a [DoubleEndedIterator]. *)
Fixpoint has_len {PF : Platform} {S A : Type} (p : pipe S A) : bool :=
  match p with
  | PRange _ | PSet _ => true
  | PRev p | PMap _ p | PEnum p | PTake _ p | PSkip _ p => has_len p
  | PZip p q => has_len p && has_len q
  | PChain _ _ => false
  end.
Fixpoint has_back {PF : Platform} {S A : Type} (p : pipe S A) : bool :=
  match p with
  | PRange _ | PSet _ | PRev _ => true
  | PMap _ p => has_back p
  | PEnum p | PTake _ p | PSkip _ p => has_back p && has_len p
  | PZip p q => has_back p && has_len p && (has_back q && has_len q)
  | PChain p q => has_back p && has_back q
  end.
Fixpoint typed {PF : Platform} {S A : Type} (p : pipe S A) : bool :=
  match p with
  | PRange _ | PSet _ => true
  | PRev p => has_back p && typed p
  | PMap _ p | PEnum p | PTake _ p | PSkip _ p => typed p
  | PZip p q | PChain p q => typed p && typed q
  end.
Definition allows {PF : Platform} {S A : Type} (p : pipe S A) (c : call) : bool :=
  match c with
  | Len => has_len p
  | NextBack | NthBack _ => has_back p
  | Next | Nth _ => true
  end.
