(** Abstract syntax of the fragment of C++ that neon_sim.cpp is written in. *)
From Coq Require Import ZArith List String Bool.
From Verif Require Import Types.
Import ListNotations.
Open Scope Z_scope.

(** Object types.  [struct int8x8_t { int8_t val[8]; }] (neon_sim.h:12-330) has a
    single field and is modelled as the array itself: [TArr 8 (TScal I8)];
    [int8x8x2_t] is [TArr 2 (TArr 8 (TScal I8))].  [TStruct] is used for
    [struct float_parts] (neon_sim.cpp:4261-4284) only. *)
Inductive ty :=
| TVoid
| TScal (t : sty)
| TArr (n : nat) (t : ty)
| TStruct (l : list ty)
| TPtr (t : sty).

(** [TxN_t] and [TxNxK_t] *)
Definition tvec (t : sty) (n : nat) : ty := TArr n (TScal t).
Definition tvecs (k : nat) (t : sty) (n : nat) : ty := TArr k (tvec t n).

Inductive unop := UNot (* ~ *) | UNeg (* - *) | ULNot (* ! *).

Inductive binop :=
| BAdd | BSub | BMul | BDiv | BRem
| BAnd | BOr | BXor | BShl | BShr
| BLt | BGt | BLe | BGe | BEq | BNe.

(** Expressions.  None of the source's expressions has a side effect. *)
Inductive expr :=
| ELit (t : sty) (z : Z)          (* literal; floats as bit patterns *)
| EVar (x : string)               (* variable *)
| EIdx (a i : expr)               (* a.val[i], a[i] *)
| EUn (op : unop) (a : expr)
| EBin (op : binop) (a b : expr)
| EAndAlso (a b : expr)           (* a && b *)
| EOrElse (a b : expr)            (* a || b *)
| ECond (a b c : expr)            (* a ? b : c *)
| ECast (t : sty) (a : expr)      (* (t) a *)
| EMin (t : sty) (a b : expr)     (* std::min<t>(a, b) *)
| EMax (t : sty) (a b : expr)     (* std::max<t>(a, b) *)
| ECall (f : string) (a : expr).  (* f(a) *)

Inductive stmt :=
| SSkip
| SSeq (s1 s2 : stmt)
| SDecl (t : ty) (x : string) (init : option expr)
| SAssign (x : string) (path : list expr) (e : expr)  (* x.val[..].. = e *)
| SIf (e : expr) (s1 s2 : stmt)                       (* branches are blocks *)
| SFor (t : sty) (i : string) (init cond next : expr) (body : stmt)
     (* for (t i = init; cond; i = next) { body } *)
| SMemcpy (dst src : string) (n : expr)   (* memcpy(&dst, &src, n) *)
| SAbort                                  (* abort() *)
| SReturn (e : expr).

Record func := mkfunc {
  f_name : string;
  f_ret : ty;
  f_params : list (string * ty);
  f_body : stmt
}.

(** Concrete syntax for the generated files. *)
Declare Scope c_scope.
Delimit Scope c_scope with C.
Bind Scope c_scope with expr.
Coercion EVar : string >-> expr.
(** An integer literal without suffix has type [int]. *)
Definition lit (z : Z) : expr := ELit I32 z.

Notation "a '@' i" := (EIdx a%C i%C) (at level 20, left associativity) : c_scope.
Notation "a + b" := (EBin BAdd a b) : c_scope.
Notation "a - b" := (EBin BSub a b) : c_scope.
Notation "a * b" := (EBin BMul a b) : c_scope.
Notation "a / b" := (EBin BDiv a b) : c_scope.
Notation "a 'mod' b" := (EBin BRem a b) : c_scope.
Notation "a '&' b" := (EBin BAnd a b) (at level 45, left associativity) : c_scope.
Notation "a '|.' b" := (EBin BOr a b) (at level 47, left associativity) : c_scope.
Notation "a '^.' b" := (EBin BXor a b) (at level 46, left associativity) : c_scope.
Notation "a '<<' b" := (EBin BShl a b) (at level 51, left associativity) : c_scope.
Notation "a '>>' b" := (EBin BShr a b) (at level 51, left associativity) : c_scope.
Notation "a < b" := (EBin BLt a b) : c_scope.
Notation "a > b" := (EBin BGt a b) : c_scope.
Notation "a == b" := (EBin BEq a b) (at level 70, no associativity) : c_scope.
Notation "~ a" := (EUn UNot a) : c_scope.

Declare Scope cs_scope.
Delimit Scope cs_scope with CS.
Bind Scope cs_scope with stmt.
Notation "a ;; b" := (SSeq a%CS b%CS)
  (at level 100, right associativity, format "'[v' a ';;' '/' b ']'") : cs_scope.
