(** The part of Rust the crate is written in, as data.  Source.v, written by
    tools/gen_source.py, is the crate as a term of these types; RustEval.v
    says how such a term runs. *)
From Coq Require Import String ZArith List.
Import ListNotations.

(** Patterns; [&p] and [mut x] are [p] and [PBind x].  A field pattern is by
    name, tuples and tuple structs by "0", "1", .... *)
Inductive pat : Type :=
| PWild
| PBind (x : string)
| PCon (c : string) (fs : list (string * pat))
| POr (ps : list pat).

(** Expressions. *)
Inductive expr : Type :=
| ELit (z : Z)                                        (* 0, 0xD800 *)
| EBool (b : bool)
| EStr                                                (* "..." *)
| EVar (x : string)
| EBreak
| EPath (q n : string)                                (* u8::MAX, PiecewiseUnboundedSet::defragment *)
| ECon (c : string) (fs : list (string * expr))       (* structs, variants, tuples, a..b *)
| EApp (f : string) (args : list expr)                (* f(..), f a parameter *)
| EDefault (ty : string)                              (* Default::default() *)
| ECall (q n : string) (args : list expr)             (* Type::f(..), Trait::f(..) *)
| EInto (e : expr) (ty : string)                      (* e.into(), at type ty *)
| EMethod (e : expr) (n : string) (args : list expr)  (* e.n(..) *)
| EField (e : expr) (f : string)
| EIndex (e i : expr)
| EArray (es : list expr)
| ENot (e : expr)
| EDeref (e : expr)
| ERef (e : expr)                                     (* &e, &mut e *)
| ETry (e : expr)                                     (* e? *)
| EBin (op : string) (a b : expr)
| ECast (e : expr) (ty : string)                      (* e as ty *)
| EAssign (p e : expr)
| EOpAssign (op : string) (p e : expr)                (* p += e, p -= e *)
| EIf (c a b : expr)
| EMatch (e : expr) (arms : list (pat * expr))        (* also if let *)
| EWhile (c b : expr)                                 (* also while let *)
| EFor (p : pat) (e b : expr)
| EClo (ps : list pat) (e : expr)                     (* |p, q| e *)
| EReturn (e : expr)
| EMacro (n : string) (args : list expr)              (* assert!(..) *)
| EBlock (ss : list (option pat * expr)) (e : expr).  (* { let p = e; e; e } *)

(** Statements of a block: [let p = e;] and [e;]. *)
Notation SLet p e := (Some p, e).
Notation SExpr e := (@None pat, e).

(** The four forms of the receiver of a function. *)
Inductive selfk : Type := NoSelf | ByVal | ByRef | ByMut.

Inductive fn : Type := Fn (name : string) (self : selfk) (params : list pat) (body : expr).

(** [impl tr<arg> for self]: the trait and its first argument if that is not a
    parameter of the impl, the head of the self type, the traits of the crate in
    scope in the file, the constraints [A = ty] on the associated types of the
    operand, the associated types, the functions. *)
Inductive impl : Type :=
  Impl (tr : option (string * string)) (self : string) (scope : list string)
       (cons assoc : list (string * string)) (fns : list fn).
