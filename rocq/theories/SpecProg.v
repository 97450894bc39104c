(** What client programs (the syntax of ClientProg.v) mean as mathematics.  A set is a set
    of points of the filled-in order (SpecFill.v); the operations are union, intersection
    and complement of such sets, the questions are about points, and an iterator takes the
    elements among the points, the least first, or the greatest first with [next_back].
    No function of the model is used. *)
From Coq Require Import String.
From Verif Require Import Base ModelBound ModelRanges ModelSets ModelValue ModelStep Spec SpecMap SpecFill SpecStep ClientProg.
Open Scope Z_scope.
Open Scope string_scope.
Open Scope list_scope.

Section Meaning.
Context {T : Type} {PF : Platform} {OT : Ord T}.
Definition points : Type := filled T -> Prop.
(** [MSet]: a set, and the type of the value that stands for it; [MLeft]: the elements an
    iterator has still to take, and whether it has a [next_back]. *)
Inductive meaning : Type := MSet (k : kind) (P : points) | MElt (t : T) | MLeft (back : bool) (P : T -> Prop).
Definition world : Type := list (string * meaning).
Definition melt (w : world) (x : string) : option T := match get x w with Some (MElt t) => Some t | _ => None end.
Definition both {A B C : Type} (f : A -> B -> option C) (a : option A) (b : option B) : option C :=
  match a, b with Some x, Some y => f x y | _, _ => None end.

(** [None]: nothing is said here.  Those are ill-typed programs and the intersection of
    two [LowerBoundedSet]s, which the crate has wrong (C02). *)
Fixpoint mset (w : world) (a : sexp) : option (kind * points) :=
  match a with
  | XVar x => match get x w with Some (MSet k P) => Some (k, P) | _ => None end
  | XRange x y => both (fun t u => Some (KRange, fun p => le (point t) p /\ lt p (point u))) (melt w x) (melt w y)
  | XIncl x y => both (fun t u => Some (KRangeInclusive, fun p => le (point t) p /\ le p (point u))) (melt w x) (melt w y)
  | XFrom x => option_map (fun t => (KRangeFrom, fun p => le (point t) p)) (melt w x)
  | XTo x => option_map (fun t => (KRangeTo, fun p => lt p (point t))) (melt w x)
  | XToIncl x => option_map (fun t => (KRangeToInclusive, fun p => le p (point t))) (melt w x)
  | XFull => Some (KRangeFull, fun _ => True)
  | XUnion a b => both (fun A B => Some (union_kind (fst A) (fst B), fun p => snd A p \/ snd B p)) (mset w a) (mset w b)
  | XInter a b => both (fun A B => if both_lbs (fst A) (fst B) then None
                                   else Some (inter_kind (fst A) (fst B), fun p => snd A p /\ snd B p)) (mset w a) (mset w b)
  | XCompl a => option_map (fun A => (compl_kind (fst A), fun p => ~ snd A p)) (mset w a)
  | XInner a => option_map (fun A => (inner_kind (fst A), snd A)) (mset w a)
  | XSet a => option_map (fun A => (set_kind (fst A), snd A)) (mset w a)
  end.
(** What a condition asks. *)
Fixpoint mcond (w : world) (c : cond) : option Prop :=
  match c with
  | QEmpty a => option_map (fun A => forall p, ~ snd A p) (mset w a)
  | QHas a x => both (fun A t => Some (snd A (point t))) (mset w a) (melt w x)
  | QDisjoint a b => both (fun A B => Some (forall p, ~ (snd A p /\ snd B p))) (mset w a) (mset w b)
  | QMeets a b => both (fun A B => Some (exists p, snd A p /\ snd B p)) (mset w a) (mset w b)
  | QLess x y => both (fun t u => Some (lt t u)) (melt w x) (melt w y)
  | QSame x y => both (fun t u : T => Some (cmp t u = Eq)) (melt w x) (melt w y)
  | QNot c => option_map not (mcond w c)
  | QAnd c d => both (fun A B => Some (A /\ B)) (mcond w c) (mcond w d)
  | QOr c d => both (fun A B => Some (A \/ B)) (mcond w c) (mcond w d)
  end.

(** [t] is the least of [P]. *)
Definition first (P : T -> Prop) (t : T) : Prop := P t /\ forall u, P u -> le t u.
(** [t] is the greatest of [P]. *)
Definition final (P : T -> Prop) (t : T) : Prop := P t /\ forall u, P u -> le u t.
(** What [next] or [next_back] takes of [P]; what it cannot step from; what is left. *)
Definition end_of (back : bool) (P : T -> Prop) (t : T) : Prop := if back then final P t else first P t.
Definition extreme (back : bool) (t : T) : Prop := if back then least t else greatest t.
Definition beyond (back : bool) (t u : T) : Prop := if back then lt u t else lt t u.
(** Taking an element from the iterator in [x]. *)
Inductive mtake (back : bool) (w : world) (x : string) : result (option T * meaning) -> Prop :=
| t_none d P : get x w = Some (MLeft d P) -> implb back d = true -> (forall t, ~ P t) -> mtake back w x (done (None, MLeft d P))
| t_some d P t : get x w = Some (MLeft d P) -> implb back d = true -> end_of back P t -> ~ extreme back t ->
    mtake back w x (done (Some t, MLeft d (fun u => P u /\ beyond back t u)))
| t_panic d P t : get x w = Some (MLeft d P) -> implb back d = true -> end_of back P t -> extreme back t -> mtake back w x (Some Panic)
| t_wrong : (forall d P, get x w = Some (MLeft d P) -> implb back d = false) -> mtake back w x None.
Definition mtaken (x t : string) (o : option T) (y : meaning) (w : world) : world :=
  match o with Some u => (t, MElt u) :: set x y w | None => set x y w end.
(** More than [usize::MAX] consecutive elements. *)
Definition big (P : T -> Prop) : Prop :=
  exists a b l, lists (fun t => le a t /\ le t b) l /\ (forall t, In t l -> P t) /\ usize_max < Z.of_nat (length l).
(** The types of the crate with an iterator of its own. *)
Definition iterates (k : kind) : bool :=
  match k with KBoundedRange | KLowerBoundedRange | KBoundedSet | KLowerBoundedSet => true | _ => false end.
(** Those whose iterator has a [next_back]. *)
Definition two_ended (k : kind) : bool := match k with KBoundedRange | KBoundedSet => true | _ => false end.
(** A loop may panic before it starts: over a range of no elements, where the order has an
    extreme; over a set without upper bound, where the order has a greatest element. *)
Definition may_not_start (k : kind) (P : T -> Prop) : Prop :=
  match k with
  | KBoundedRange => (forall t, ~ P t) /\ exists t : T, greatest t \/ least t
  | KLowerBoundedRange => (forall t, ~ P t) /\ exists t : T, greatest t
  | KLowerBoundedSet => exists t : T, greatest t
  | _ => False
  end.

(** Blocks, the turns of a [for] whose elements are in [it_var], the turns of a [loop].  [None]: nothing is
    said, for the reasons above, or because a loop over a set meets more than
    [usize::MAX] consecutive elements. *)
Inductive mrun : world -> block -> result (ending * world) -> Prop :=
| m_end w : mrun w BEnd (done (Through, w))
| m_break w : mrun w BBreak (done (Broken, w))
| m_let w x a k P b r : mset w a = Some (k, P) -> mrun ((x, MSet k P) :: w) b r -> mrun w (BLet x a b) r
| m_let_none w x a b : mset w a = None -> mrun w (BLet x a b) None
| m_put w x a k P l Q b r : mset w a = Some (k, P) -> get x w = Some (MSet l Q) -> mrun (set x (MSet k P) w) b r -> mrun w (BPut x a b) r
| m_put_wrong w x a b : (forall l Q, get x w <> Some (MSet l Q)) -> mrun w (BPut x a b) None
| m_put_none w x a b : mset w a = None -> mrun w (BPut x a b) None
| m_if w c Q (t : bool) b1 b2 w' b r : mcond w c = Some Q -> (t = true <-> Q) -> mrun w (if t then b1 else b2) (done (Through, w')) ->
    mrun (oldest (length w) w') b r -> mrun w (BIf c b1 b2 b) r
| m_if_break w c Q (t : bool) b1 b2 w' b : mcond w c = Some Q -> (t = true <-> Q) -> mrun w (if t then b1 else b2) (done (Broken, w')) ->
    mrun w (BIf c b1 b2 b) (done (Broken, oldest (length w) w'))
| m_if_stop w c Q (t : bool) b1 b2 b r0 r : mcond w c = Some Q -> (t = true <-> Q) -> mrun w (if t then b1 else b2) r0 -> fails r0 r ->
    mrun w (BIf c b1 b2 b) r
| m_if_none w c b1 b2 b : mcond w c = None -> mrun w (BIf c b1 b2 b) None
| m_for w t a k P body w' b r : mset w a = Some (k, P) -> iterates k = true ->
    mloop ((it_var, MLeft (two_ended k) (fun t => P (point t))) :: w) t body (done w') -> mrun (oldest (length w) w') b r -> mrun w (BFor t a body b) r
| m_for_stop w t a k P body b r0 r : mset w a = Some (k, P) -> iterates k = true ->
    mloop ((it_var, MLeft (two_ended k) (fun t => P (point t))) :: w) t body r0 -> fails r0 r -> mrun w (BFor t a body b) r
| m_for_start w t a k P body b : mset w a = Some (k, P) -> may_not_start k (fun t => P (point t)) -> mrun w (BFor t a body b) (Some Panic)
| m_for_big w t a k P body b : mset w a = Some (k, P) -> is_set k = true -> big (fun t => P (point t)) -> mrun w (BFor t a body b) None
| m_for_wrong w t a k P body b : mset w a = Some (k, P) -> iterates k = false -> mrun w (BFor t a body b) None
| m_for_none w t a body b : mset w a = None -> mrun w (BFor t a body b) None
| m_loop w body w' b r : mturns w body (done w') -> mrun w' b r -> mrun w (BLoop body b) r
| m_loop_stop w body b r0 r : mturns w body r0 -> fails r0 r -> mrun w (BLoop body b) r
| m_iter w x a k P b r : mset w a = Some (k, P) -> iterates k = true ->
    mrun ((x, MLeft (two_ended k) (fun t => P (point t))) :: w) b r -> mrun w (BIter x a b) r
| m_iter_start w x a k P b : mset w a = Some (k, P) -> may_not_start k (fun t => P (point t)) -> mrun w (BIter x a b) (Some Panic)
| m_iter_big w x a k P b : mset w a = Some (k, P) -> is_set k = true -> big (fun t => P (point t)) -> mrun w (BIter x a b) None
| m_iter_wrong w x a k P b : mset w a = Some (k, P) -> iterates k = false -> mrun w (BIter x a b) None
| m_iter_none w x a b : mset w a = None -> mrun w (BIter x a b) None
| m_next w k t x b1 b2 o y w' b r : mtake k w x (done (o, y)) -> mrun (mtaken x t o y w) (chosen o b1 b2) (done (Through, w')) ->
    mrun (oldest (length w) w') b r -> mrun w (BNext k t x b1 b2 b) r
| m_next_break w k t x b1 b2 o y w' b : mtake k w x (done (o, y)) -> mrun (mtaken x t o y w) (chosen o b1 b2) (done (Broken, w')) ->
    mrun w (BNext k t x b1 b2 b) (done (Broken, oldest (length w) w'))
| m_next_stop w k t x b1 b2 o y b r0 r : mtake k w x (done (o, y)) -> mrun (mtaken x t o y w) (chosen o b1 b2) r0 -> fails r0 r ->
    mrun w (BNext k t x b1 b2 b) r
| m_next_fails w k t x b1 b2 b r0 r : mtake k w x r0 -> fails r0 r -> mrun w (BNext k t x b1 b2 b) r
with mloop : world -> string -> block -> result world -> Prop :=
| l_end w t body d P : get it_var w = Some (MLeft d P) -> (forall x, ~ P x) -> mloop w t body (done w)
| l_turn w t body d P x w' r : get it_var w = Some (MLeft d P) -> first P x -> ~ greatest x ->
    mrun ((t, MElt x) :: set it_var (MLeft d (fun y => P y /\ lt x y)) w) body (done (Through, w')) ->
    mloop (oldest (length w) w') t body r -> mloop w t body r
| l_break w t body d P x w' : get it_var w = Some (MLeft d P) -> first P x -> ~ greatest x ->
    mrun ((t, MElt x) :: set it_var (MLeft d (fun y => P y /\ lt x y)) w) body (done (Broken, w')) ->
    mloop w t body (done (oldest (length w) w'))
| l_stop w t body d P x r0 r : get it_var w = Some (MLeft d P) -> first P x -> ~ greatest x ->
    mrun ((t, MElt x) :: set it_var (MLeft d (fun y => P y /\ lt x y)) w) body r0 -> fails r0 r -> mloop w t body r
| l_panic w t body d P x : get it_var w = Some (MLeft d P) -> first P x -> greatest x -> mloop w t body (Some Panic)
| l_wrong w t body : (forall d P, get it_var w <> Some (MLeft d P)) -> mloop w t body None
with mturns : world -> block -> result world -> Prop :=
| c_turn w body w' r : mrun w body (done (Through, w')) -> mturns (oldest (length w) w') body r -> mturns w body r
| c_break w body w' : mrun w body (done (Broken, w')) -> mturns w body (done (oldest (length w) w'))
| c_stop w body r0 r : mrun w body r0 -> fails r0 r -> mturns w body r.

(** What a program stands for. *)
Inductive answer : Type := ASet (k : kind) (P : points) | ATruth (Q : Prop).
Definition mfin (w : world) (f : fin) : option answer :=
  match f with
  | FSet a => option_map (fun A => ASet (fst A) (snd A)) (mset w a)
  | FCond c => option_map ATruth (mcond w c)
  end.
Inductive mprog (w : world) (b : block) (f : fin) : result answer -> Prop :=
| mp_through w' x : mrun w b (done (Through, w')) -> mfin w' f = Some x -> mprog w b f (done x)
| mp_none w' : mrun w b (done (Through, w')) -> mfin w' f = None -> mprog w b f None
| mp_broken w' : mrun w b (done (Broken, w')) -> mprog w b f None
| mp_stop r0 r : mrun w b r0 -> fails r0 r -> mprog w b f r.
End Meaning.
Arguments points T : clear implicits. Arguments meaning T : clear implicits. Arguments world T : clear implicits. Arguments answer T : clear implicits.
