(** Client programs of the crate: sets and iterators in variables, the operations on
    them, [if], [loop] and [for] loops over sets, as in the doc comments of src/lib.rs:1-60
    and the tests of src/lib.rs.  What they mean in terms of the model (ModelValue.v, ModelIter.v). *)
From Coq Require Import String.
From Verif Require Import Base ModelBound ModelRanges ModelSets ModelAlgebra ModelValue ModelStep ModelIter.
Open Scope string_scope.
Open Scope list_scope.

(** Variables are named by strings. *)
Fixpoint get {A : Type} (x : string) (l : list (string * A)) : option A :=
  match l with
  | [] => None
  | (y, a) :: l' => if String.eqb x y then Some a else get x l'
  end.
Fixpoint set {A : Type} (x : string) (a : A) (l : list (string * A)) : list (string * A) :=
  match l with
  | [] => []
  | (y, b) :: l' => if String.eqb x y then (y, a) :: l' else (y, b) :: set x a l'
  end.
(** The [n] oldest variables. *)
Definition oldest {A : Type} (n : nat) (l : list A) : list A := skipn (length l - n) l.

(** Expressions for a set: a variable (cloned), std's ranges between elements, the
    operations of src/lib.rs:115-375. *)
Inductive sexp : Type :=
| XVar (x : string)                     (* x.clone() *)
| XRange (x y : string)                 (* x..y *)
| XIncl (x y : string)                  (* x..=y *)
| XFrom (x : string)                    (* x.. *)
| XTo (x : string)                      (* ..x *)
| XToIncl (x : string)                  (* ..=x *)
| XFull                                 (* .. *)
| XUnion (a b : sexp)                   (* a.union(b) *)
| XInter (a b : sexp)                   (* a.intersection(b) *)
| XCompl (a : sexp)                     (* a.complement() *)
| XInner (a : sexp)                     (* a.to_inner() *)
| XSet (a : sexp).                      (* a.to_set() *)
(** Conditions. *)
Inductive cond : Type :=
| QEmpty (a : sexp)                     (* Rangetools::is_empty(&a) *)
| QHas (a : sexp) (x : string)          (* a.to_inner().contains(x) *)
| QDisjoint (a b : sexp)                (* a.disjoint(b) *)
| QMeets (a b : sexp)                   (* a.intersects(b) *)
| QLess (x y : string)                  (* x < y *)
| QSame (x y : string)                  (* x == y *)
| QNot (c : cond) | QAnd (c d : cond) | QOr (c d : cond).
(** Statements. *)
Inductive block : Type :=
| BEnd
| BBreak                                              (* break; *)
| BLet (x : string) (a : sexp) (b : block)            (* let mut x = a; b *)
| BPut (x : string) (a : sexp) (b : block)            (* x = a; b *)
| BIf (c : cond) (b1 b2 : block) (b : block)          (* if c { b1 } else { b2 } b *)
| BFor (t : string) (a : sexp) (body : block) (b : block)   (* for t in a { body } b *)
| BLoop (body : block) (b : block)                    (* loop { body } b *)
| BIter (x : string) (a : sexp) (b : block)           (* let mut x = a.into_iter(); b *)
| BNext (back : bool) (t x : string) (b1 b2 : block) (b : block).
    (* match x.next() { Some(t) => { b1 } _ => { b2 } } b, or with x.next_back() *)
(** What a program gives at its end. *)
Inductive fin : Type := FSet (a : sexp) | FCond (c : cond).

Section Meaning.
Context {T : Type} {PF : Platform} {OT : Ord T} {ST : Step T} (m : mode).

(** What an iteration may be over: the [IntoIterator] impls of the crate, but for that of
    [EmptyRange], whose iterator is of std. *)
Inductive iter : Type :=
| JBR (i : BoundedRangeIter T) | JBS (i : BoundedSetIter T)
| JLBR (i : LowerBoundedRangeIter T) | JLBS (i : LowerBoundedSetIter T).
(** The values of variables; [CIter]: also the hidden variable of a [for]. *)
Inductive cval : Type := CSet (v : value T) | CElt (t : T) | CIter (i : iter).
Definition state : Type := list (string * cval).

(** [None]: not a well-typed program. *)
Definition result (A : Type) : Type := option (outcome A).
Definition andthen {A B : Type} (x : result A) (f : A -> result B) : result B :=
  match x with
  | Some (Ret a) => f a
  | Some Panic => Some Panic
  | Some Diverge => Some Diverge
  | None => None
  end.
Definition elt (s : state) (x : string) : result T := match get x s with Some (CElt t) => Some (Ret t) | _ => None end.
Definition done {A : Type} (a : A) : result A := Some (Ret a).

Fixpoint sval (s : state) (a : sexp) : result (value T) :=
  match a with
  | XVar x => match get x s with Some (CSet v) => done v | _ => None end
  | XRange x y => andthen (elt s x) (fun t => andthen (elt s y) (fun u => done (VRange {| rg_start := t; rg_end := u |})))
  | XIncl x y => andthen (elt s x) (fun t => andthen (elt s y) (fun u =>
      done (VRangeInclusive {| ri_start := t; ri_end := u; ri_exhausted := false |})))
  | XFrom x => andthen (elt s x) (fun t => done (VRangeFrom {| rf_start := t |}))
  | XTo x => andthen (elt s x) (fun t => done (VRangeTo {| rt_end := t |}))
  | XToIncl x => andthen (elt s x) (fun t => done (VRangeToInclusive {| rti_end := t |}))
  | XFull => done (VRangeFull mkRangeFull)
  | XUnion a b => andthen (sval s a) (fun v => andthen (sval s b) (fun w => Some (union v w)))
  | XInter a b => andthen (sval s a) (fun v => andthen (sval s b) (fun w => Some (intersection v w)))
  | XCompl a => andthen (sval s a) (fun v => Some (complement v))
  | XInner a => andthen (sval s a) (fun v => done (value_of_inner (to_inner v)))
  | XSet a => andthen (sval s a) (fun v => done (value_of_set (to_set v)))
  end.
Fixpoint cval_of (s : state) (c : cond) : result bool :=
  match c with
  | QEmpty a => andthen (sval s a) (fun v => done (is_empty v))
  | QHas a x => andthen (sval s a) (fun v => andthen (elt s x) (fun t => done (contains (value_of_inner (to_inner v)) t)))
  | QDisjoint a b => andthen (sval s a) (fun v => andthen (sval s b) (fun w => Some (disjoint v w)))
  | QMeets a b => andthen (sval s a) (fun v => andthen (sval s b) (fun w => Some (intersects v w)))
  | QLess x y => andthen (elt s x) (fun t => andthen (elt s y) (fun u => done (t_lt t u)))
  | QSame x y => andthen (elt s x) (fun t => andthen (elt s y) (fun u => done (teq t u)))
  | QNot c => andthen (cval_of s c) (fun b => done (negb b))
  | QAnd c d => andthen (cval_of s c) (fun b => if b then cval_of s d else done false)
  | QOr c d => andthen (cval_of s c) (fun b => if b then done true else cval_of s d)
  end.

Definition into_iter (v : value T) : result iter :=
  match v with
  | VBR r => Some (i <- br_into_iter m r ;; Ret (JBR i))
  | VBS s => Some (i <- bs_into_iter m s ;; Ret (JBS i))
  | VLBR r => Some (i <- lbr_into_iter m r ;; Ret (JLBR i))
  | VLBS s => Some (i <- lbs_into_iter m s ;; Ret (JLBS i))
  | _ => None
  end.
Definition next (i : iter) : outcome (option T * iter) :=
  match i with
  | JBR i => p <- bri_next m i ;; Ret (fst p, JBR (snd p))
  | JBS i => p <- bsi_next m i ;; Ret (fst p, JBS (snd p))
  | JLBR i => p <- lbri_next m i ;; Ret (fst p, JLBR (snd p))
  | JLBS i => p <- lbsi_next m i ;; Ret (fst p, JLBS (snd p))
  end.

(** Only the iterators of [BoundedRange] and [BoundedSet] have a [next_back]
    (src/bounded_range.rs:224-242, src/bounded_set.rs:183-210). *)
Definition next_back (i : iter) : result (option T * iter) :=
  match i with
  | JBR i => Some (p <- bri_next_back m i ;; Ret (fst p, JBR (snd p)))
  | JBS i => Some (p <- bsi_next_back m i ;; Ret (fst p, JBS (snd p)))
  | _ => None
  end.
Definition take (back : bool) (i : iter) : result (option T * iter) := if back then next_back i else Some (next i).

(** A part of a statement panics, or is not well-typed. *)
Inductive fails {A B : Type} : result A -> result B -> Prop :=
| fails_panic : fails (Some Panic) (Some Panic)
| fails_wrong : fails None None.

(** How a block ends: at its end or by [break], and the variables then. *)
Inductive ending : Type := Through | Broken.
(** The hidden variable of a [for]. *)
Definition it_var : string := "%it".
(** The variables after a [next] on [x] that gave [o], and the branch taken. *)
Definition taken (x t : string) (o : option T) (i : iter) (s : state) : state :=
  match o with Some u => (t, CElt u) :: set x (CIter i) s | None => set x (CIter i) s end.
Definition chosen (o : option T) (b1 b2 : block) : block := match o with Some _ => b1 | None => b2 end.
(** Blocks, the turns of a [for] whose iterator is in [it_var], the turns of a [loop]. *)
Inductive brun : state -> block -> result (ending * state) -> Prop :=
| b_end s : brun s BEnd (done (Through, s))
| b_break s : brun s BBreak (done (Broken, s))
| b_let s x a v b r : sval s a = done v -> brun ((x, CSet v) :: s) b r -> brun s (BLet x a b) r
| b_let_fails s x a b r : fails (sval s a) r -> brun s (BLet x a b) r
| b_put s x a w v b r : sval s a = done v -> get x s = Some (CSet w) -> brun (set x (CSet v) s) b r -> brun s (BPut x a b) r
| b_put_wrong s x a v b : sval s a = done v -> (forall w, get x s <> Some (CSet w)) -> brun s (BPut x a b) None
| b_put_fails s x a b r : fails (sval s a) r -> brun s (BPut x a b) r
| b_if s c (t : bool) b1 b2 s' b r : cval_of s c = done t -> brun s (if t then b1 else b2) (done (Through, s')) ->
    brun (oldest (length s) s') b r -> brun s (BIf c b1 b2 b) r
| b_if_break s c (t : bool) b1 b2 s' b : cval_of s c = done t -> brun s (if t then b1 else b2) (done (Broken, s')) ->
    brun s (BIf c b1 b2 b) (done (Broken, oldest (length s) s'))
| b_if_stop s c (t : bool) b1 b2 b r0 r : cval_of s c = done t -> brun s (if t then b1 else b2) r0 -> fails r0 r ->
    brun s (BIf c b1 b2 b) r
| b_if_fails s c b1 b2 b r : fails (cval_of s c) r -> brun s (BIf c b1 b2 b) r
| b_for s t a v i body s' b r : sval s a = done v -> into_iter v = done i ->
    frun ((it_var, CIter i) :: s) t body (done s') -> brun (oldest (length s) s') b r -> brun s (BFor t a body b) r
| b_for_stop s t a v i body b r0 r : sval s a = done v -> into_iter v = done i ->
    frun ((it_var, CIter i) :: s) t body r0 -> fails r0 r -> brun s (BFor t a body b) r
| b_for_iter s t a v body b r : sval s a = done v -> fails (into_iter v) r -> brun s (BFor t a body b) r
| b_for_fails s t a body b r : fails (sval s a) r -> brun s (BFor t a body b) r
| b_loop s body s' b r : lrun s body (done s') -> brun s' b r -> brun s (BLoop body b) r
| b_loop_stop s body b r0 r : lrun s body r0 -> fails r0 r -> brun s (BLoop body b) r
| b_iter s x a v i b r : sval s a = done v -> into_iter v = done i -> brun ((x, CIter i) :: s) b r -> brun s (BIter x a b) r
| b_iter_into s x a v b r : sval s a = done v -> fails (into_iter v) r -> brun s (BIter x a b) r
| b_iter_fails s x a b r : fails (sval s a) r -> brun s (BIter x a b) r
| b_next s k t x b1 b2 i o i' s' b r : get x s = Some (CIter i) -> take k i = done (o, i') ->
    brun (taken x t o i' s) (chosen o b1 b2) (done (Through, s')) -> brun (oldest (length s) s') b r -> brun s (BNext k t x b1 b2 b) r
| b_next_break s k t x b1 b2 i o i' s' b : get x s = Some (CIter i) -> take k i = done (o, i') ->
    brun (taken x t o i' s) (chosen o b1 b2) (done (Broken, s')) -> brun s (BNext k t x b1 b2 b) (done (Broken, oldest (length s) s'))
| b_next_stop s k t x b1 b2 i o i' b r0 r : get x s = Some (CIter i) -> take k i = done (o, i') ->
    brun (taken x t o i' s) (chosen o b1 b2) r0 -> fails r0 r -> brun s (BNext k t x b1 b2 b) r
| b_next_fails s k t x b1 b2 i b r : get x s = Some (CIter i) -> fails (take k i) r -> brun s (BNext k t x b1 b2 b) r
| b_next_wrong s k t x b1 b2 b : (forall i, get x s <> Some (CIter i)) -> brun s (BNext k t x b1 b2 b) None
with frun : state -> string -> block -> result state -> Prop :=
| f_end s t body i i' : get it_var s = Some (CIter i) -> next i = Ret (None, i') ->
    frun s t body (done (set it_var (CIter i') s))
| f_turn s t body i x i' s' r : get it_var s = Some (CIter i) -> next i = Ret (Some x, i') ->
    brun ((t, CElt x) :: set it_var (CIter i') s) body (done (Through, s')) ->
    frun (oldest (length s) s') t body r -> frun s t body r
| f_break s t body i x i' s' : get it_var s = Some (CIter i) -> next i = Ret (Some x, i') ->
    brun ((t, CElt x) :: set it_var (CIter i') s) body (done (Broken, s')) ->
    frun s t body (done (oldest (length s) s'))
| f_stop s t body i x i' r0 r : get it_var s = Some (CIter i) -> next i = Ret (Some x, i') ->
    brun ((t, CElt x) :: set it_var (CIter i') s) body r0 -> fails r0 r -> frun s t body r
| f_panic s t body i : get it_var s = Some (CIter i) -> next i = Panic -> frun s t body (Some Panic)
| f_wrong s t body : (forall i, get it_var s <> Some (CIter i)) -> frun s t body None
with lrun : state -> block -> result state -> Prop :=
| r_turn s body s' r : brun s body (done (Through, s')) -> lrun (oldest (length s) s') body r -> lrun s body r
| r_break s body s' : brun s body (done (Broken, s')) -> lrun s body (done (oldest (length s) s'))
| r_stop s body r0 r : brun s body r0 -> fails r0 r -> lrun s body r.

(** A program: the block, then what it gives. *)
Inductive given : Type := GSet (v : value T) | GBool (b : bool).
Definition fin_val (s : state) (f : fin) : result given :=
  match f with
  | FSet a => andthen (sval s a) (fun v => done (GSet v))
  | FCond c => andthen (cval_of s c) (fun b => done (GBool b))
  end.
Inductive prun (s : state) (b : block) (f : fin) : result given -> Prop :=
| p_through s' r : brun s b (done (Through, s')) -> fin_val s' f = r -> prun s b f r
| p_broken s' : brun s b (done (Broken, s')) -> prun s b f None
| p_stop r0 r : brun s b r0 -> fails r0 r -> prun s b f r.
End Meaning.
Arguments CSet {T} v. Arguments CElt {T} t. Arguments CIter {T} i.
Arguments iter T : clear implicits. Arguments cval T : clear implicits. Arguments state T : clear implicits.
Arguments given T : clear implicits. Arguments GSet {T} v. Arguments GBool {T} b.
