(** How a program of RustSyntax.v runs: an interpreter for the part of Rust the
    crate uses, with the std methods it calls built in.

    [eval] runs the body of one function.  Where that calls a function, calls
    a closure or goes round a loop, it stops with a request; [answer] says what
    running the request is, and the relation [runs] puts the two together: [runs p
    o] when the computation [p] ends with [o].  There is no fuel: a computation
    that goes on for ever is related to nothing.

    Values have no addresses.  [&mut self], and a [&mut] argument, are passed by
    copying in at the call and copying out at the return, which is what a
    borrow that is unique until the return amounts to; a panic is the end of the
    program (its effects on what was borrowed are the subject of
    ModelUnwind.v).  [&x] is a copy of [x]. *)
From Coq Require Import String.
From Verif Require Import Base ModelStep RustSyntax Source.
Open Scope Z_scope.
Open Scope string_scope.
Open Scope list_scope.

(** ** Values *)

(** A way into a value: a field, an element of a deque, its two ends. *)
Inductive proj : Type := JField (f : string) | JAt (i : nat) | JFront | JBack.
(** A place: a variable of the function and a way into it. *)
Definition path : Type := string * list proj.

Inductive val (T : Type) : Type :=
| DElt (t : T)                              (* an element, of type T *)
| DInt (ty : string) (z : Z)                (* an integer or char; "" before its type is known *)
| DBool (b : bool)
| DCon (ty c : string) (fs : list (string * val T))  (* a struct, variant or tuple *)
| DList (l : list (val T))                  (* a VecDeque, an array, an iterator over one *)
| DRef (p : path)                           (* a mutable reference *)
| DClo (env : list (string * val T)) (sc : list string) (ps : list pat) (b : expr)
| DFn (q n : string)                        (* a function named by its path *)
| DStr.
Arguments DElt {T} t. Arguments DInt {T} ty z. Arguments DBool {T} b.
Arguments DCon {T} ty c fs. Arguments DList {T} l. Arguments DRef {T} p.
Arguments DClo {T} env sc ps b. Arguments DFn {T} q n. Arguments DStr {T}.

Fixpoint assoc {A : Type} (x : string) (l : list (string * A)) : option A :=
  match l with
  | [] => None
  | (y, a) :: l' => if x =? y then Some a else assoc x l'
  end.
Fixpoint update {A : Type} (x : string) (a : A) (l : list (string * A)) : list (string * A) :=
  match l with
  | [] => []
  | (y, b) :: l' => if x =? y then (y, a) :: l' else (y, b) :: update x a l'
  end.
Fixpoint member (x : string) (l : list string) : bool :=
  match l with [] => false | y :: l' => if x =? y then true else member x l' end.
(** std's [++], [length] and [skipn] for the lists of the interpreter itself, which a
    proof computes away, unlike those of the values. *)
Fixpoint cat {A : Type} (l1 l2 : list A) : list A :=
  match l1 with [] => l2 | a :: l => a :: cat l l2 end.
Fixpoint size {A : Type} (l : list A) : nat := match l with [] => O | _ :: l' => S (size l') end.
Fixpoint drop {A : Type} (n : nat) (l : list A) : list A :=
  match n, l with S n', _ :: l' => drop n' l' | _, _ => l end.

(** ** The types and impls of the program *)

(** std types the crate builds or matches, as in [source_types]. *)
Definition std_types : list (string * list (string * list string)) := [
  ("Option", [("Some", ["0"]); ("None", [])]);
  ("Result", [("Ok", ["0"]); ("Err", ["0"])]);
  ("Ordering", [("Less", []); ("Equal", []); ("Greater", [])]);
  ("Range", [("Range", ["start"; "end"])]);
  ("RangeInclusive", [("RangeInclusive", ["start"; "end"; "exhausted"])]);
  ("RangeFrom", [("RangeFrom", ["start"])]);
  ("RangeTo", [("RangeTo", ["end"])]);
  ("RangeToInclusive", [("RangeToInclusive", ["end"])]);
  ("RangeFull", [("RangeFull", [])])].

(** The type of a constructor and its fields, in the order of the declaration. *)
Definition con_info (c : string) : option (string * list string) :=
  (fix go (l : list (string * list (string * list string))) :=
     match l with
     | [] => None
     | (ty, cs) :: l' => match assoc c cs with Some fs => Some (ty, fs) | None => go l' end
     end) (cat source_types std_types).

(** Provided methods of std traits, in the words of std.  [Ord::max] and
    [Ord::min]: core/src/cmp.rs ([max_by], [min_by]).  [ExactSizeIterator::len]:
    core/src/iter/traits/exact_size.rs.  [&mut I] is an iterator too when [I] is
    one (core/src/iter/traits/iterator.rs), with [last] provided. *)
Definition std_traits : list (string * impl) := [
  ("Ord", Impl None "" [] [] [] [
     Fn "max" ByVal [PBind "other"]
       (EMatch (EMethod (EVar "self") "cmp" [ERef (EVar "other")])
          [(PCon "Greater" [], EVar "self"); (PWild, EVar "other")]);
     Fn "min" ByVal [PBind "other"]
       (EMatch (EMethod (EVar "self") "cmp" [ERef (EVar "other")])
          [(PCon "Greater" [], EVar "other"); (PWild, EVar "self")])]);
  ("ExactSizeIterator", Impl None "" [] [] [] [
     Fn "len" ByRef []
       (EBlock [SLet (PCon "tuple" [("0", PBind "lower"); ("1", PBind "upper")])
                  (EMethod (EVar "self") "size_hint" []);
                SExpr (EMacro "assert" [EMatch (EVar "upper")
                         [(PCon "Some" [("0", PBind "u")], EBin "==" (EVar "u") (EVar "lower"));
                          (PWild, EBool false)]])]
          (EVar "lower"))]);
  ("&mut Iterator", Impl None "" [] [] [] [
     Fn "last" ByMut []
       (EBlock [SLet (PBind "last") (ECon "None" []);
                SExpr (EWhile (EBool true)
                  (EMatch (EMethod (EVar "self") "next" [])
                     [(PCon "Some" [("0", PBind "x")],
                       EAssign (EVar "last") (ECon "Some" [("0", EVar "x")]));
                      (PWild, EBreak)]))]
          (EVar "last"))])].

(** Traits of std whose methods are always in scope. *)
Definition prelude : list string :=
  ["PartialOrd"; "Ord"; "Iterator"; "DoubleEndedIterator"; "ExactSizeIterator"; "IntoIterator"].

(** Which function a call means: [fn name] of the impl with this header, or the
    method a trait provides. *)
Inductive key : Type :=
| KFn (tr : option (string * string)) (self : string) (cons : list (string * string)) (name : string)
| KDefault (tr name : string).

Definition fn_name (f : fn) : string := match f with Fn n _ _ _ => n end.
Definition impl_fn (n : string) (i : impl) : option fn :=
  match i with Impl _ _ _ _ _ fns => find (fun f => fn_name f =? n) fns end.
Definition has_fn (n : string) (i : impl) : bool :=
  match impl_fn n i with Some _ => true | None => false end.
Definition impl_self (i : impl) : string := match i with Impl _ s _ _ _ _ => s end.
Definition impl_trait (i : impl) : option (string * string) := match i with Impl t _ _ _ _ _ => t end.
Definition impl_cons (i : impl) : list (string * string) := match i with Impl _ _ _ c _ _ => c end.
Definition impl_key (n : string) (i : impl) : key := KFn (impl_trait i) (impl_self i) (impl_cons i) n.
Definition in_trait (trs : list string) (i : impl) : bool :=
  match impl_trait i with Some (t, _) => member t trs | None => false end.
Definition inherent (i : impl) : bool :=
  match impl_trait i with Some _ => false | None => true end.

Definition find_trait (l : list (string * impl)) (trs : list string) (n : string) : option (string * impl) :=
  find (fun p => if has_fn n (snd p) then member (fst p) trs else false) l.

(** [a && b], the second only if needed. *)
Local Notation "a '&&&' b" := (if a then b else false) (at level 40, left associativity).

(** The integer types. *)
Definition ity_of (s : string) : option ity :=
  assoc s [("u8", U8); ("u16", U16); ("u32", U32); ("u64", U64); ("u128", U128); ("usize", Usize);
           ("i8", I8); ("i16", I16); ("i32", I32); ("i64", I64); ("i128", I128); ("isize", Isize)].

Section Program.
Context {PF : Platform}.

(** The impls of the program for a type: those of the integer types depend on
    the pointer width. *)
Definition impls (ty : string) : list impl :=
  match ity_of ty with
  | Some _ => match ptr_width with
              | P16 => source_step_impls_16 | P32 => source_step_impls_32 | P64 => source_step_impls_64
              end
  | None => source_impls
  end.
Definition traits : list (string * impl) := source_traits ++ std_traits.

(** [<ty as Rangetools>::a]. *)
Definition assoc_type (ty a : string) : option string :=
  match find (fun i => (impl_self i =? ty) &&& in_trait ["Rangetools"] i) (impls ty) with
  | Some (Impl _ _ _ _ l _) => assoc a l
  | None => None
  end.

(** Does the impl apply to operands of these types?  A [From<A>] needs an
    operand of type [A]; the constraints [Inner = X], [Set = X] of the impls of
    intersection/*.rs and union/*.rs are on the type of the operand. *)
Definition applies (args : list string) (i : impl) : bool :=
  match impl_trait i, args with
  | Some (tr, a), t :: _ => if tr =? "From" then a =? t else true
  | _, _ => true
  end
  &&& forallb (fun c : string * string =>
       match rev args with
       | t :: _ => match assoc_type t (fst c) with Some x => x =? snd c | None => false end
       | [] => false
       end) (impl_cons i).

(** The function [n] for a value of type [ty]: an inherent one, else one of an
    impl of a trait in scope, else one provided by such a trait. *)
Definition resolve (ty n : string) (trs : list string) (args : list string) (inh : bool) : option key :=
  match (if inh then find (fun i => inherent i &&& (impl_self i =? ty) &&& has_fn n i) (impls ty) else None) with
  | Some i => Some (impl_key n i)
  | None =>
    match find (fun i => (impl_self i =? ty) &&& has_fn n i &&& in_trait trs i &&& applies args i) (impls ty) with
    | Some i => Some (impl_key n i)
    | None =>
      match find (fun p => has_fn n (snd p) &&& member (fst p) trs &&&
                           existsb (fun i => (impl_self i =? ty) &&& in_trait [fst p] i) (impls ty)) traits with
      | Some (t, _) => Some (KDefault t n)
      | None => None
      end
    end
  end.

(** [recv.n(args)], the receiver of type [ty]. *)
Definition resolve_method (sc : list string) (ty n : string) (args : list string) : option key :=
  resolve ty n (sc ++ prelude) args true.
(** [q::n(args)]: [q] a trait of the crate, resolved on the first operand, or a type. *)
Definition crate_traits : list string := ["Rangetools"; "RangeIntersection"; "RangeUnion"; "RangeComplement"; "Step"].
Definition resolve_path (q n : string) (args : list string) : option key :=
  if member q crate_traits
  then match args with t :: _ => resolve t n [q] args false | [] => None end
  else resolve q n ("From" :: "Step" :: crate_traits ++ prelude) args true.

(** The function a key names, with the traits in scope in its file. *)
Definition cons_eqb (a b : list (string * string)) : bool :=
  (fix go a b := match a, b with
                 | [], [] => true
                 | (x, y) :: a', (x', y') :: b' => (x =? x') && (y =? y') && go a' b'
                 | _, _ => false
                 end) a b.
Definition trait_eqb (a b : option (string * string)) : bool :=
  match a, b with
  | None, None => true
  | Some (x, y), Some (x', y') => (x =? x') && (y =? y')
  | _, _ => false
  end.
Definition with_scope (n : string) (i : impl) : option (list string * fn) :=
  match i with Impl _ _ sc _ _ _ => option_map (pair sc) (impl_fn n i) end.
Definition lookup_fn (k : key) : option (list string * fn) :=
  match k with
  | KFn tr self cs n =>
    match find (fun i => (impl_self i =? self) &&& has_fn n i &&& trait_eqb (impl_trait i) tr
                         &&& cons_eqb (impl_cons i) cs) (impls self) with
    | Some i => with_scope n i
    | None => None
    end
  | KDefault tr n =>
    match find_trait traits [tr] n with
    | Some (_, i) => with_scope n i
    | None => None
    end
  end.
Definition found : Type := key * (list string * fn).
Definition find_fn (k : option key) : option found :=
  match k with
  | Some k => match lookup_fn k with Some f => Some (k, f) | None => None end
  | None => None
  end.

(** ** Computations *)

Context {T : Type} {OT : Ord T} {ST : Step T} (dflt : option T) (m : mode).
Notation val := (val T).
Definition env : Type := list (string * val).

(** How an expression ends: with a value, by [break], by [return]. *)
Inductive res (A : Type) : Type := N (a : A) | Brk | Rtn (v : val).
Arguments N {A} a. Arguments Brk {A}. Arguments Rtn {A} v.

(** The methods of an iterator that take a closure. *)
Inductive iterk : Type := KPosition (i : Z) | KAny | KAll | KMap | KRetain | KFold (acc : val).

(** What [eval] asks for. *)
Inductive req : Type :=
| RFn (k : key) (args : list (bool * val))     (* a call; [true]: a mutable reference to the value *)
| RClo (env : env) (sc : list string) (ps : list pat) (b : expr) (args : list (bool * val))
| RWhile (sc : list string) (c b : expr) (env : env)
| RFor (sc : list string) (p : pat) (l : list val) (b : expr) (env : env)
| RIter (k : iterk) (sc : list string) (ps : list pat) (b : expr) (l : list val) (env : env).

(** The answer: to a call, the value returned and the values left in the
    arguments that were mutable references; to a loop, how it ended and the
    variables of the function after it. *)
Inductive ans : Type :=
| AVal (v : val) (outs : list (option val))
| AEnv (r : res val) (e : env).

(** A computation.  The decisions it depends on, which for a given run are
    known, are kept as nodes, and so is finding a function. *)
Inductive prog : Type :=
| Done (a : ans)
| Pan                                          (* a panic *)
| Stuck                                        (* not a Rust program *)
| If (b : bool) (p q : prog)
| Case (o : option val) (p : prog) (k : val -> prog)
| Cmp (c : comparison) (lt eq gt : prog)
| Out (o : outcome val) (k : val -> prog)
| Lst (l : list val) (k : list val -> prog)    (* a list made from another *)
| Find (o : option found) (k : found -> prog)
| Call (rq : req) (k : ans -> prog).

(** A computation inside a function: the variables, and what follows. *)
Definition M (A : Type) : Type := env -> (res A -> env -> prog) -> prog.
Definition ret {A : Type} (a : A) : M A := fun e k => k (N a) e.
Definition bindM {A B : Type} (c : M A) (f : A -> M B) : M B := fun e k =>
  c e (fun r e' => match r with
                   | N a => f a e' k
                   | Brk => k Brk e'
                   | Rtn v => k (Rtn v) e'
                   end).
Definition stuck {A : Type} : M A := fun _ _ => Stuck.
Definition pan {A : Type} : M A := fun _ _ => Pan.
Definition opt {A : Type} (o : option A) : M A :=
  match o with Some a => ret a | None => stuck end.
Definition branch {A : Type} (b : bool) (c d : M A) : M A := fun e k => If b (c e k) (d e k).
Definition case (o : option val) : M (option val) := fun e k =>
  Case o (k (N None) e) (fun v => k (N (Some v)) e).
Definition cmp3 (c : comparison) : M comparison := fun e k =>
  Cmp c (k (N Lt) e) (k (N Eq) e) (k (N Gt) e).
Definition out (o : outcome val) : M val := fun e k => Out o (fun v => k (N v) e).
Definition lst (l : list val) : M (list val) := fun e k => Lst l (fun l' => k (N l') e).
Definition which (k : option key) : M found := fun e c => Find (find_fn k) (fun x => c (N x) e).
Definition get : M env := fun e k => k (N e) e.
Notation "'do' x <- c ;; k" := (bindM c (fun x => k)) (at level 61, x name, c at next level, right associativity).

(** [k l]; the list is computed first. *)
Fixpoint force {A B : Type} (l : list A) (k : list A -> B) : B :=
  match l with
  | [] => k []
  | a :: l' => force l' (fun l1 => k (a :: l1))
  end.
Definition put (e : env) : M unit := fun _ k => force e (fun e' => k (N tt) e').

(** Variables declared inside [c] end with it. *)
Definition pop_to (n : nat) (e : env) : env := drop (size e - n) e.
Definition scoped {A : Type} (new : env) (c : M A) : M A := fun e k =>
  force (cat new e) (fun e1 => c e1 (fun r e2 => force (pop_to (size e) e2) (k r))).

(** *** Values *)
Definition unit_val : val := DCon "tuple" "tuple" [].
Definition some_val (v : val) : val := DCon "Option" "Some" [("0", v)].
Definition none_val : val := DCon "Option" "None" [].
Definition opt_val (o : option val) : val := match o with Some v => some_val v | None => none_val end.
Definition ordering_val (c : comparison) : val :=
  DCon "Ordering" (match c with Lt => "Less" | Eq => "Equal" | Gt => "Greater" end) [].

Definition type_of (v : val) : string :=
  match v with
  | DElt _ => "T" | DInt ty _ => ty | DBool _ => "bool" | DCon ty _ _ => ty | DList _ => "VecDeque"
  | DRef _ => "&mut" | DClo _ _ _ _ => "closure" | DFn _ _ => "fn" | DStr => "str"
  end.

Definition proj1v (v : val) (p : proj) : M val :=
  match p, v with
  | JField f, DCon _ _ fs => opt (assoc f fs)
  | JAt i, DList l => do o <- case (nth_error l i) ;; opt o
  | JFront, DList l => do o <- case (vd_front l) ;; opt o
  | JBack, DList l => do o <- case (vd_back l) ;; opt o
  | _, _ => stuck
  end.
(** [v] with the part [p], which is there, replaced. *)
Definition set_at (i : nat) (w : val) (l : list val) : list val := firstn i l ++ w :: skipn (S i) l.
Definition set_front (w : val) (l : list val) : list val := w :: tl l.
Definition set_back (w : val) (l : list val) : list val := removelast l ++ [w].
Definition set1 (v : val) (p : proj) (w : val) : M val :=
  match p, v with
  | JField f, DCon ty c fs => force (update f w fs) (fun fs' => ret (DCon ty c fs'))
  | JAt i, DList l => do l' <- lst (set_at i w l) ;; ret (DList l')
  | JFront, DList l => do l' <- lst (set_front w l) ;; ret (DList l')
  | JBack, DList l => do l' <- lst (set_back w l) ;; ret (DList l')
  | _, _ => stuck
  end.
Fixpoint getp (v : val) (ps : list proj) : M val :=
  match ps with
  | [] => ret v
  | p :: ps' => do u <- proj1v v p ;; getp u ps'
  end.
Fixpoint setp (v : val) (ps : list proj) (w : val) : M val :=
  match ps with
  | [] => ret w
  | p :: ps' => do u <- proj1v v p ;; do u' <- setp u ps' w ;; set1 v p u'
  end.
Definition read (p : path) : M val :=
  do e <- get ;; do v <- opt (assoc (fst p) e) ;; getp v (snd p).
Definition assign (p : path) (w : val) : M unit :=
  do e <- get ;; do v <- opt (assoc (fst p) e) ;; do v' <- setp v (snd p) w ;;
  put (update (fst p) v' e).
Definition sub (p : path) (j : proj) : path := (fst p, cat (snd p) [j]).

(** The value behind a mutable reference. *)
Definition deref (v : val) : M val :=
  match v with
  | DRef p => read p
  | _ => ret v
  end.

(** The place an expression names. *)
Fixpoint place (x : expr) (e : env) : option path :=
  match x with
  | EVar x => match assoc x e with Some (DRef p) => Some p | Some _ => Some (x, []) | None => None end
  | EField a f => match place a e with Some p => Some (sub p (JField f)) | None => None end
  | EDeref a => place a e
  | _ => None
  end.

Definition omap {A B : Type} (f : A -> B) (o : option A) : option B :=
  match o with Some a => Some (f a) | None => None end.
(** Matching a pattern: the variables bound.  Matching what a mutable
    reference [r] refers to binds references to the parts. *)
Fixpoint pmatch (r : option path) (p : pat) (v : val) {struct p} : option env :=
  match p with
  | PWild => Some []
  | PBind x => match r with Some q => Some [(x, DRef q)] | None => Some [(x, v)] end
  | PCon c fs =>
    match v with
    | DCon _ c' vs =>
      if c =? c' then
        (fix go (fs : list (string * pat)) : option env :=
           match fs with
           | [] => Some []
           | (f, q) :: fs' =>
             match assoc f vs with
             | Some w =>
               match pmatch (omap (fun s => sub s (JField f)) r) q w, go fs' with
               | Some e1, Some e2 => Some (cat e1 e2)
               | _, _ => None
               end
             | None => None
             end
           end) fs
      else None
    | _ => None
    end
  | POr ps =>
    (fix go (ps : list pat) : option env :=
       match ps with
       | [] => None
       | q :: ps' => match pmatch r q v with Some e => Some e | None => go ps' end
       end) ps
  end.
Fixpoint pmatch_all (ps : list pat) (vs : list val) : option env :=
  match ps, vs with
  | [], [] => Some []
  | p :: ps', v :: vs' =>
    match pmatch None p v, pmatch_all ps' vs' with Some a, Some b => Some (cat a b) | _, _ => None end
  | _, _ => None
  end.

(** *** Arithmetic *)
Definition unify (a b : string) : option string :=
  if a =? b then Some a else if a =? "" then Some b else if b =? "" then Some a else None.
(** [a + b], [a - b]: an overflow panics with overflow checks, else wraps. *)
Definition arith (op ty : string) (a b : Z) : M val :=
  if ty =? "usize" then
    if op =? "+" then out (z <- usize_add m a b ;; Ret (DInt "usize" z))
    else out (z <- usize_sub m a b ;; Ret (DInt "usize" z))
  else
    do t <- opt (ity_of ty) ;;
    let z := if op =? "+" then a + b else a - b in
    branch (fits t z) (ret (DInt ty z))
      match m with Debug => pan | Release => ret (DInt ty (wrapz t z)) end.
Definition compare (op : string) (c : comparison) : option bool :=
  if op =? "<" then Some (match c with Lt => true | _ => false end)
  else if op =? "<=" then Some (match c with Gt => false | _ => true end)
  else if op =? ">" then Some (match c with Gt => true | _ => false end)
  else if op =? ">=" then Some (match c with Lt => false | _ => true end)
  else None.
Definition compare_int (op : string) (a b : Z) : option bool :=
  if op =? "==" then Some (a =? b)%Z
  else if op =? "<" then Some (a <? b)%Z
  else if op =? "<=" then Some (a <=? b)%Z
  else if op =? ">" then Some (b <? a)%Z
  else if op =? ">=" then Some (b <=? a)%Z
  else None.
Definition is_arith (op : string) : bool := (op =? "+") || (op =? "-").
Definition ordering_of (v : val) : option comparison :=
  match v with
  | DCon _ _ [(_, DCon _ c _)] =>
    if c =? "Less" then Some Lt else if c =? "Equal" then Some Eq else if c =? "Greater" then Some Gt else None
  | _ => None
  end.

(** *** Calls *)
(** An argument: a mutable reference goes with the value it refers to. *)
Definition arg (v : val) : M (bool * val) :=
  match v with
  | DRef p => do w <- deref v ;; ret (true, w)
  | _ => ret (false, v)
  end.
Fixpoint args_of (vs : list val) : M (list (bool * val)) :=
  match vs with
  | [] => ret []
  | v :: vs' => do a <- arg v ;; do l <- args_of vs' ;; ret (a :: l)
  end.
(** At the return, what the references refer to gets its new value. *)
Fixpoint copy_out (ps : list (option path)) (outs : list (option val)) : M unit :=
  match ps, outs with
  | p :: ps', o :: outs' =>
    do _ <- match p, o with Some q, Some w => assign q w | _, _ => ret tt end ;;
    copy_out ps' outs'
  | _, _ => ret tt
  end.
Definition ref_path (v : val) : option path := match v with DRef p => Some p | _ => None end.
Fixpoint ref_paths (vs : list val) : list (option path) :=
  match vs with [] => [] | v :: vs' => ref_path v :: ref_paths vs' end.
Definition request (rq : req) (ps : list (option path)) : M val := fun e k =>
  Call rq (fun a => match a with
                    | AVal v outs => (do _ <- copy_out ps outs ;; ret v) e k
                    | AEnv _ _ => Stuck
                    end).
Definition loop (rq : env -> req) : M val := fun e k =>
  Call (rq e) (fun a => match a with
                        | AEnv r e' => k r e'
                        | AVal _ _ => Stuck
                        end).
(** A call of the function [k]; [recv]: where the receiver is, if it has a place. *)
Definition call (k : key) (recv : option path) (vs : list val) : M val :=
  do l <- args_of vs ;;
  request (RFn k l) (match recv, vs with
                     | Some p, _ :: vs' => Some p :: ref_paths vs'
                     | _, _ => ref_paths vs
                     end).

(** *** std methods without closures *)
Definition sum_vals (l : list val) : outcome Z :=
  foldM (fun acc v => match v with DInt _ z => usize_add m acc z | _ => Diverge end) l 0.
Definition nat_of (v : val) : nat := match v with DInt _ z => Z.to_nat z | _ => O end.
(** [recv.n(args)] where the receiver has the value [v] and is at [p], if it has
    a place; [None]: not one of these. *)
Definition some (v : val) : option (M val) := Some (ret v).
Definition option_of (o : option val) : M val := do c <- case o ;; ret (opt_val c).
(** A method that changes the receiver to [w]. *)
Definition changing (p : option path) (w : val) (v : val) : M val :=
  match p with
  | Some q => do _ <- assign q w ;; ret v
  | None => ret v
  end.
(** A method that takes an element out of the receiver. *)
Definition taken {A B : Type} (r : A * B) : A := fst r.
Definition remaining {A B : Type} (r : A * B) : B := snd r.
Definition taking (p : option path) (r : option val * list val) : M val :=
  do v <- option_of (taken r) ;; do l <- lst (remaining r) ;; changing p (DList l) v.
Definition count (l : list val) : Z := Z.of_nat (length l).
(** References to the elements of the list at [p]. *)
Definition refs (p : path) (l : list val) : list val := map (fun i => DRef (sub p (JAt i))) (seq 0 (length l)).
Definition builtin (n : string) (p : option path) (v : val) (args : list val) : option (M val) :=
  if n =? "clone" then some v else
  match v, args with
  | DList l, [] =>
    if member n ["iter"; "into_iter"; "collect"] then some v
    else if n =? "len" then some (DInt "usize" (count l))
    else if n =? "front" then Some (option_of (vd_front l))
    else if n =? "back" then Some (option_of (vd_back l))
    else if n =? "pop_front" then Some (taking p (vd_pop_front l))
    else if n =? "pop_back" then Some (taking p (vd_pop_back l))
    else if n =? "sum" then Some (out (z <- sum_vals l ;; Ret (DInt "usize" z)))
    else match p with
    | Some p =>
      if n =? "iter_mut" then Some (do l' <- lst (refs p l) ;; ret (DList l'))
      else if n =? "front_mut" then
        Some (do o <- case (vd_front l) ;; ret (opt_val (omap (fun _ => DRef (sub p JFront)) o)))
      else if n =? "back_mut" then
        Some (do o <- case (vd_back l) ;; ret (opt_val (omap (fun _ => DRef (sub p JBack)) o)))
      else None
    | None => None
    end
  | DList l, [i] =>
    if n =? "remove" then Some (taking p (vd_remove l (nat_of i))) else None
  | DList l, [i; x] =>
    if n =? "insert" then
      Some (do w <- out (l' <- vd_insert l (nat_of i) x ;; Ret (DList l')) ;; changing p w unit_val)
    else None
  | DElt a, [DElt b] =>
    if n =? "partial_cmp" then Some (do c <- cmp3 (cmp a b) ;; ret (some_val (ordering_val c))) else None
  | DInt ty a, [DInt _ b] =>
    match ity_of ty with
    | Some t =>
      if n =? "wrapping_add" then some (DInt ty (wrapz t (a + b)))
      else if n =? "wrapping_sub" then some (DInt ty (wrapz t (a - b)))
      else if n =? "checked_add" then
        Some (branch (fits t (a + b)) (ret (some_val (DInt ty (a + b)))) (ret none_val))
      else if n =? "checked_sub" then
        Some (branch (fits t (a - b)) (ret (some_val (DInt ty (a - b)))) (ret none_val))
      else None
    | None => None
    end
  | DCon ty c fs, _ =>
    if ty =? "Option" then
      match fs, args with
      | [(_, x)], [] =>
        if member n ["unwrap"; "expect"; "unwrap_or_default"; "flatten"] then some x
        else if n =? "is_none" then some (DBool false) else None
      | [(_, x)], [_] =>
        if member n ["unwrap_or"; "expect"] then some x else None
      | [], [] =>
        if n =? "unwrap" then Some pan
        else if n =? "unwrap_or_default" then some (DInt "usize" 0)
        else if n =? "flatten" then some none_val
        else if n =? "is_none" then some (DBool true) else None
      | [], [d] =>
        if n =? "unwrap_or" then some d
        else if n =? "expect" then Some pan else None
      | _, _ => None
      end
    else if ty =? "Result" then
      match fs, args with
      | [(_, x)], [] => if n =? "ok" then some (if c =? "Ok" then some_val x else none_val) else None
      | _, _ => None
      end
    else if ty =? "RangeInclusive" then
      match fs, args with
      | (_, a) :: (_, b) :: _, [] =>
        if n =? "start" then some a
        else if n =? "end" then some b
        else if n =? "into_inner" then some (DCon "tuple" "tuple" [("0", a); ("1", b)]) else None
      | _, _ => None
      end
    else None
  | _, _ => None
  end.

(** Functions of std named by a path, and [Step] on elements. *)
Definition builtin_path (q n : string) (args : list val) : option (M val) :=
  match args with
  | [] =>
    if n =? "new" then (if q =? "VecDeque" then some (DList []) else None)
    else if n =? "empty" then (if q =? "iter" then some (DCon "Empty" "Empty" []) else None)
    else None
  | [DElt a; DInt _ z] =>
    if q =? "Step" then
      if n =? "forward" then Some (out (t <- forward m a z ;; Ret (DElt t)))
      else if n =? "backward" then Some (out (t <- backward m a z ;; Ret (DElt t)))
      else None
    else None
  | [DElt a; DElt b] =>
    if (q =? "Step") && (n =? "steps_between") then
      Some (option_of (option_map (DInt "usize") (steps_between a b)))
    else None
  | [DInt _ z] =>
    if n =? "try_from" then
      match ity_of q with
      | Some t => Some (branch (fits t z) (ret (DCon "Result" "Ok" [("0", DInt q z)]))
                                          (ret (DCon "Result" "Err" [("0", unit_val)])))
      | None => None
      end
    else if (q =? "char") && (n =? "from_u32_unchecked") then
      Some (branch (scalar z) (ret (DInt "char" z)) stuck)
    else None
  | _ => None
  end.

(** *** Expressions *)
Definition path_val (q n : string) : M val :=
  match ity_of q with
  | Some t =>
    if n =? "MAX" then ret (DInt q (imax t)) else if n =? "MIN" then ret (DInt q (imin t)) else stuck
  | None => if (q =? "char") && (n =? "MAX") then ret (DInt "char" 0x10FFFF) else ret (DFn q n)
  end.
Definition con_val (c : string) (fs : list (string * val)) : option val :=
  if c =? "tuple" then Some (DCon "tuple" "tuple" fs)
  else match con_info c with
       | Some (ty, names) =>
         if Nat.eqb (size names) (size fs) then
           match (fix go (l : list string) : option (list (string * val)) :=
                    match l with
                    | [] => Some []
                    | f :: l' => match assoc f fs, go l' with
                                 | Some v, Some r => Some ((f, v) :: r)
                                 | _, _ => None
                                 end
                    end) names with
           | Some r => Some (DCon ty c r)
           | None => None
           end
         else None
       | None => None
       end.
Definition default_val (ty : string) : M val :=
  if ty =? "PhantomData" then ret (DCon "PhantomData" "PhantomData" [])
  else do d <- opt dflt ;;
       if ty =? "T" then ret (DElt d)
       else if ty =? "Range" then ret (DCon "Range" "Range" [("start", DElt d); ("end", DElt d)])
       else stuck.
Definition as_bool (v : val) : M bool := match v with DBool b => ret b | _ => stuck end.
(** A binary operator that is not [&&] or [||]. *)
Definition binary (sc : list string) (op : string) (a b : val) : M val :=
  match a, b with
  | DInt t1 x, DInt t2 y =>
    do ty <- opt (unify t1 t2) ;;
    if is_arith op then arith op ty x y
    else do r <- opt (compare_int op x y) ;; ret (DBool r)
  | DElt x, DElt y =>
    if op =? "==" then ret (DBool (teq x y))
    else if op =? "<" then ret (DBool (t_lt x y))
    else if op =? "<=" then ret (DBool (t_le x y))
    else if op =? ">" then ret (DBool (t_gt x y))
    else if op =? ">=" then ret (DBool (t_ge x y))
    else stuck
  | DCon ty _ _, DCon _ _ _ =>
    (* std: the operators are defined by partial_cmp *)
    do f <- which (resolve_method sc ty "partial_cmp" [type_of b]) ;;
    do o <- call (fst f) None [a; b] ;;
    do c <- opt (ordering_of o) ;;
    do r <- opt (compare op c) ;; ret (DBool r)
  | _, _ => stuck
  end.
Definition cast_val (v : val) (ty : string) : M val :=
  match v with
  | DInt _ z => do t <- opt (ity_of ty) ;; ret (DInt ty (wrapz t z))
  | _ => stuck
  end.
Definition of_iterator (k : key) : bool :=
  match k with KFn (Some (tr, _)) _ _ _ => tr =? "Iterator" | _ => false end.
(** [e.n(vs)]: a std method, else the function the receiver's type gives.  A
    method of [Iterator] that takes the receiver by value, called on a mutable
    reference, is that of [&mut I]. *)
Definition method (sc : list string) (n : string) (p : option path) (isref : bool) (v : val) (vs : list val) : M val :=
  match builtin n p v vs with
  | Some c => c
  | None =>
    do f <- which (resolve_method sc (type_of v) n (map type_of vs)) ;;
    match f with
    | (k, (_, Fn _ ByVal _ _)) =>
      if isref && of_iterator k then call (KDefault "&mut Iterator" n) p (v :: vs)
      else call k None (v :: vs)
    | (k, (_, Fn _ ByMut _ _)) => call k p (v :: vs)
    | (k, (_, Fn _ ByRef _ _)) => call k None (v :: vs)
    | _ => stuck
    end
  end.

(** [e.n(.., |ps| b)] on an iterator or an [Option]. *)
Definition iter_kind (n : string) : option iterk :=
  if n =? "position" then Some (KPosition 0) else if n =? "any" then Some KAny
  else if n =? "all" then Some KAll else if n =? "map" then Some KMap else None.

Fixpoint eval (sc : list string) (x : expr) {struct x} : M val :=
  let evals := fix go (l : list expr) : M (list val) :=
    match l with
    | [] => ret []
    | a :: l' => do v <- eval sc a ;; do vs <- go l' ;; ret (v :: vs)
    end in
  match x with
  | ELit z => ret (DInt "" z)
  | EBool b => ret (DBool b)
  | EStr => ret DStr
  | EVar x => do e <- get ;; opt (assoc x e)
  | EBreak => fun e k => k Brk e
  | EPath q n => path_val q n
  | ECon c fs =>
    do vs <- (fix go (l : list (string * expr)) : M (list (string * val)) :=
                match l with
                | [] => ret []
                | (f, a) :: l' =>
                  do v <- eval sc a ;; do w <- deref v ;; do vs <- go l' ;; ret ((f, w) :: vs)
                end) fs ;;
    opt (con_val c vs)
  | EApp f args =>
    do vs <- evals args ;;
    do e <- get ;;
    do fv <- opt (assoc f e) ;;
    match fv with
    | DClo ce csc ps b =>
      do l <- args_of vs ;; request (RClo ce csc ps b l) (ref_paths vs)
    | DFn q n =>
      do l <- args_of vs ;;
      do g <- which (resolve_path q n (map (fun p => type_of (snd p)) l)) ;; call (fst g) None vs
    | _ => stuck
    end
  | EDefault ty => default_val ty
  | ECall q n args =>
    do vs <- evals args ;;
    match builtin_path q n vs with
    | Some c => c
    | None => do g <- which (resolve_path q n (map type_of vs)) ;; call (fst g) None vs
    end
  | EInto a ty =>
    do v <- eval sc a ;;
    if (type_of v =? ty) || (ty =? "VecDeque") then ret v
    else do g <- which (resolve_path ty "from" [type_of v]) ;; call (fst g) None [v]
  | EMethod a n args =>
    do e <- get ;;
    do r <- match place a e with
            | Some p =>
              do v <- read p ;;
              ret (Some p, match a with
                           | EVar x => match assoc x e with Some (DRef _) => true | _ => false end
                           | _ => false
                           end, v)
            | None =>
              do v <- eval sc a ;;
              match v with
              | DRef p => do w <- deref v ;; ret (Some p, true, w)
              | _ => ret (None, false, v)
              end
            end ;;
    let '(p, isref, v) := r in
    let general := do vs <- evals args ;; method sc n p isref v vs in
    match args with
    | [EClo ps b] =>
      match v with
      | DList l =>
        if n =? "retain" then
          do w <- loop (RIter KRetain sc ps b l) ;;
          do q <- opt p ;; do _ <- assign q w ;; ret unit_val
        else do k <- opt (iter_kind n) ;; loop (RIter k sc ps b l)
      | DCon ty _ fs =>
        if ty =? "Option" then
          if n =? "map" then
            match fs with
            | [(_, w)] => do new <- opt (pmatch_all ps [w]) ;; do r <- scoped new (eval sc b) ;; ret (some_val r)
            | _ => ret none_val
            end
          else if n =? "or_else" then
            match fs with [] => eval sc b | _ => ret v end
          else stuck
        else general
      | _ => general
      end
    | [i; EClo ps b] =>
      match v with
      | DList l => if n =? "fold" then do acc <- eval sc i ;; loop (RIter (KFold acc) sc ps b l) else stuck
      | _ => stuck
      end
    | _ => general
    end
  | EField a f => do v <- eval sc a ;; do w <- deref v ;; proj1v w (JField f)
  | EIndex a i =>
    do v <- eval sc a ;; do w <- deref v ;; do j <- eval sc i ;;
    match w with DList l => out (vd_index l (nat_of j)) | _ => stuck end
  | EArray es => do vs <- evals es ;; ret (DList vs)
  | ENot a => do v <- eval sc a ;; do b <- as_bool v ;; ret (DBool (negb b))
  | EDeref a => do v <- eval sc a ;; deref v
  | ERef a => eval sc a
  | ETry a =>
    do v <- eval sc a ;;
    match v with
    | DCon _ _ [(_, w)] => ret w
    | DCon _ _ [] => fun e k => k (Rtn none_val) e
    | _ => stuck
    end
  | EBin op a b =>
    do v <- eval sc a ;;
    if op =? "&&" then do c <- as_bool v ;; branch c (eval sc b) (ret (DBool false))
    else if op =? "||" then do c <- as_bool v ;; branch c (ret (DBool true)) (eval sc b)
    else do v1 <- deref v ;; do w <- eval sc b ;; do w1 <- deref w ;; binary sc op v1 w1
  | ECast a ty => do v <- eval sc a ;; do w <- deref v ;; cast_val w ty
  | EAssign p a =>
    do v <- eval sc a ;; do e <- get ;; do q <- opt (place p e) ;; do _ <- assign q v ;; ret unit_val
  | EOpAssign op p a =>
    do v <- eval sc a ;; do e <- get ;; do q <- opt (place p e) ;;
    do old <- read q ;; do w <- binary sc op old v ;; do _ <- assign q w ;; ret unit_val
  | EIf c a b => do v <- eval sc c ;; do t <- as_bool v ;; branch t (eval sc a) (eval sc b)
  | EMatch a arms =>
    do v <- eval sc a ;; do w <- deref v ;;
    (fix go (l : list (pat * expr)) : M val :=
       match l with
       | [] => stuck
       | (p, b) :: l' =>
         match pmatch (ref_path v) p w with
         | Some new => scoped new (eval sc b)
         | None => go l'
         end
       end) arms
  | EWhile c b => loop (RWhile sc c b)
  | EFor p a b =>
    do v <- eval sc a ;;
    match v with DList l => loop (RFor sc p l b) | _ => stuck end
  | EClo ps b => do e <- get ;; ret (DClo e sc ps b)
  | EReturn a => do v <- eval sc a ;; fun e k => k (Rtn v) e
  | EMacro n args =>
    if n =? "assert" then
      match args with
      | [a] => do v <- eval sc a ;; do b <- as_bool v ;; branch b (ret unit_val) pan
      | _ => stuck
      end
    else stuck
  | EBlock ss a =>
    scoped []
      ((fix go (l : list (option pat * expr)) : M val :=
          match l with
          | [] => eval sc a
          | (None, s) :: l' => do _ <- eval sc s ;; go l'
          | (Some p, s) :: l' =>
            do v <- eval sc s ;; do new <- opt (pmatch None p v) ;;
            fun e k => force (cat new e) (fun e1 => go l' e1 k)
          end) ss)
  end.

(** ** Requests *)

(** The variables of a call: parameters with the arguments. *)
Definition mut_name (x : string) : string := ("%" ++ x)%string.
Fixpoint enter (ps : list pat) (args : list (bool * val)) : option env :=
  match ps, args with
  | [], [] => Some []
  | p :: ps', (r, v) :: args' =>
    match (if r then match p with
                     | PBind x => Some [(x, DRef (mut_name x, [])); (mut_name x, v)]
                     | _ => None
                     end
           else pmatch None p v), enter ps' args' with
    | Some a, Some b => Some (cat a b)
    | _, _ => None
    end
  | _, _ => None
  end.
Fixpoint leave (ps : list pat) (args : list (bool * val)) (e : env) : list (option val) :=
  match ps, args with
  | p :: ps', (r, _) :: args' =>
    (if r then match p with PBind x => assoc (mut_name x) e | _ => None end else None)
    :: leave ps' args' e
  | _, _ => []
  end.
Definition body (sc : list string) (ps : list pat) (b : expr) (args : list (bool * val)) (outer : env) : prog :=
  match enter ps args with
  | Some e =>
    force (cat e outer) (fun e =>
      eval sc b e (fun r e' =>
        match r with
        | N v | Rtn v =>
          deref v e' (fun r e2 =>
            match r with N w => Done (AVal w (leave ps args e2)) | _ => Stuck end)
        | Brk => Stuck
        end))
  | None => Stuck
  end.
Definition fn_params (k : selfk) (ps : list pat) : list pat :=
  match k with NoSelf => ps | _ => PBind "self" :: ps end.
Definition fn_args (k : selfk) (args : list (bool * val)) : list (bool * val) :=
  match k, args with
  | ByMut, (_, v) :: args' => (true, v) :: args'
  | (ByVal | ByRef), (_, v) :: args' => (false, v) :: args'
  | _, _ => args
  end.

(** One turn of a method taking a closure: the closure on the next element, then
    what follows from its value. *)
Definition turn (sc : list string) (ps : list pat) (b : expr) (vs : list val) (e : env)
  (k : val -> env -> prog) : prog :=
  match pmatch_all ps vs with
  | Some new =>
    scoped new (eval sc b) e (fun r e' => match r with N v => k v e' | _ => Stuck end)
  | None => Stuck
  end.
(** The rest of the iteration, then [f] on its value. *)
Definition rest (rq : req) (f : val -> option val) : prog :=
  Call rq (fun a => match a with
                    | AEnv (N v) e => match f v with Some w => Done (AEnv (N w) e) | None => Stuck end
                    | _ => Stuck
                    end).
Definition cons_val (v w : val) : option val :=
  match w with DList l => Some (DList (v :: l)) | _ => None end.

Definition answer (rq : req) : prog :=
  match rq with
  | RFn k args =>
    Find (find_fn (Some k)) (fun f =>
      match f with
      | (_, (sc, Fn _ self ps b)) => body sc (fn_params self ps) b (fn_args self args) []
      end)
  | RClo ce sc ps b args => body sc ps b args ce
  | RWhile sc c b e =>
    eval sc c e (fun r e1 =>
      match r with
      | N (DBool t) =>
        If t
          (eval sc b e1 (fun r e2 =>
             match r with
             | N _ => Call (RWhile sc c b e2) Done
             | Brk => Done (AEnv (N unit_val) e2)
             | Rtn v => Done (AEnv (Rtn v) e2)
             end))
          (Done (AEnv (N unit_val) e1))
      | _ => Stuck
      end)
  | RFor sc p l b e =>
    match l with
    | [] => Done (AEnv (N unit_val) e)
    | v :: l' =>
      match pmatch None p v with
      | Some new =>
        scoped new (eval sc b) e (fun r e1 =>
          match r with
          | N _ => Call (RFor sc p l' b e1) Done
          | Brk => Done (AEnv (N unit_val) e1)
          | Rtn v => Done (AEnv (Rtn v) e1)
          end)
      | None => Stuck
      end
    end
  | RIter k sc ps b l e =>
    match l with
    | [] =>
      Done (AEnv (N match k with
                    | KPosition _ => none_val
                    | KAny => DBool false
                    | KAll => DBool true
                    | KMap | KRetain => DList []
                    | KFold acc => acc
                    end) e)
    | v :: l' =>
      turn sc ps b (match k with KFold acc => [acc; v] | _ => [v] end) e (fun w e' =>
        match k, w with
        | KPosition i, DBool t =>
          If t (Done (AEnv (N (some_val (DInt "usize" i))) e'))
               (Call (RIter (KPosition (i + 1)) sc ps b l' e') Done)
        | KAny, DBool t =>
          If t (Done (AEnv (N (DBool true)) e')) (Call (RIter KAny sc ps b l' e') Done)
        | KAll, DBool t =>
          If t (Call (RIter KAll sc ps b l' e') Done) (Done (AEnv (N (DBool false)) e'))
        | KMap, w => rest (RIter KMap sc ps b l' e') (cons_val w)
        | KRetain, DBool t =>
          If t (rest (RIter KRetain sc ps b l' e') (cons_val v)) (Call (RIter KRetain sc ps b l' e') Done)
        | KFold _, w => Call (RIter (KFold w) sc ps b l' e') Done
        | _, _ => Stuck
        end)
    end
  end.

(** ** Runs *)

(** [runs p o]: the computation ends, with the value of [o] or a panic. *)
Inductive runs : prog -> outcome ans -> Prop :=
| runs_done a : runs (Done a) (Ret a)
| runs_pan : runs Pan Panic
| runs_if (b : bool) p q o : runs (if b then p else q) o -> runs (If b p q) o
| runs_none p k o : runs p o -> runs (Case None p k) o
| runs_some v p k o : runs (k v) o -> runs (Case (Some v) p k) o
| runs_cmp c lt eq gt o : runs (match c with Lt => lt | Eq => eq | Gt => gt end) o -> runs (Cmp c lt eq gt) o
| runs_out v k o : runs (k v) o -> runs (Out (Ret v) k) o
| runs_out_pan k : runs (Out Panic k) Panic
| runs_lst l k o : runs (k l) o -> runs (Lst l k) o
| runs_find f k o : runs (k f) o -> runs (Find (Some f) k) o
| runs_call rq k a o : runs (answer rq) (Ret a) -> runs (k a) o -> runs (Call rq k) o
| runs_call_pan rq k : runs (answer rq) Panic -> runs (Call rq k) Panic.

(** The same with fuel, to run programs; [Diverge] when the fuel is used up,
    [None] where [runs] has no outcome. *)
Fixpoint exec (fuel : nat) (p : prog) : option (outcome ans) :=
  match fuel with
  | O => Some Diverge
  | S fuel' =>
    (fix go (p : prog) : option (outcome ans) :=
       match p with
       | Done a => Some (Ret a)
       | Pan => Some Panic
       | Stuck => None
       | If b p q => if b then go p else go q
       | Case None p _ => go p
       | Case (Some v) _ k => go (k v)
       | Cmp c p q r => match c with Lt => go p | Eq => go q | Gt => go r end
       | Out (Ret v) k => go (k v)
       | Out Panic _ => Some Panic
       | Out Diverge _ => None
       | Lst l k => go (k l)
       | Find (Some f) k => go (k f)
       | Find None _ => None
       | Call rq k =>
         match exec fuel' (answer rq) with
         | Some (Ret a) => go (k a)
         | Some Panic => Some Panic
         | Some Diverge => Some Diverge
         | None => None
         end
       end) p
  end.

End Program.
Arguments N {T A} a. Arguments Brk {T A}. Arguments Rtn {T A} v.
Arguments Done {T} a. Arguments Pan {T}. Arguments Stuck {T}. Arguments If {T} b p q. Arguments Call {T} rq k.
Arguments Case {T} o p k. Arguments Cmp {T} c lt eq gt. Arguments Out {T} o k. Arguments Find {T} o k. Arguments Lst {T} l k.
Arguments ans T : clear implicits. Arguments req T : clear implicits.
Arguments prog T : clear implicits. Arguments env T : clear implicits.
