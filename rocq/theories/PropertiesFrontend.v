(** C66: the functions the theorems are about are those of the source text. *)
From Coq Require Import ZArith String List Bool Lia.
From Verif Require Import Types Syntax Interp ProgRecip Library Header Frontend SourceH SourceCpp.
From Verif Require Import Spec MetaSpec PropBase P_Frontend PropertiesMeta.
Import ListNotations.
Open Scope Z_scope.
Local Open Scope string_scope.

(** ** C66 Every definition and declaration of the two files is in the model, unchanged *)

(** The text of the files parses, completely. *)
Theorem C66_source_parses :
  front_end neon_sim_h neon_sim_cpp =
  Some (mkfile header [], mkfile [] (before_recip ++ helpers ++ after_recip)).
Proof. exact source_parsed. Qed.
Print Assumptions C66_source_parses.

Theorem C66_functions : forall h d,
  front_end neon_sim_h neon_sim_cpp = Some (h, d) ->
  forall f, In f (defs d) <->
    In f library \/ f = float_parts_ctor \/ f = float_parts_to_float.
Proof. exact source_functions. Qed.
Print Assumptions C66_functions.

Theorem C66_declarations : forall h d,
  front_end neon_sim_h neon_sim_cpp = Some (h, d) ->
  decls h = header /\ defs h = [] /\ decls d = [].
Proof. exact source_declarations. Qed.
Print Assumptions C66_declarations.

(** The hypothesis is met (C66_source_parses); the front end does read the text:
    changing, dropping or adding a character changes the answer. *)
Definition parse_text (l : list string) : option (list func) :=
  match front_end [] l with Some (_, d) => Some (defs d) | None => None end.

Example C66_example :
  parse_text ["int f(int a, const int b)"; "{"; "    // comment"; "    return a + b * 2;"; "}"] =
    Some [mkfunc "f" (TScal I32) [("a", TScal I32); ("b", TScal I32)]
      (SReturn (EBin BAdd (EVar "a") (EBin BMul (EVar "b") (ELit I32 2))))] /\
  parse_text ["int f(int a, int b)"; "{"; "    return (a + b) * 2;"; "}"] =
    Some [mkfunc "f" (TScal I32) [("a", TScal I32); ("b", TScal I32)]
      (SReturn (EBin BMul (EBin BAdd (EVar "a") (EVar "b")) (ELit I32 2)))] /\
  parse_text ["int f(int a) { return a - 1 - a << 2 & a == 3; }"] =
    Some [mkfunc "f" (TScal I32) [("a", TScal I32)]
      (SReturn (EBin BAnd
        (EBin BShl (EBin BSub (EBin BSub (EVar "a") (ELit I32 1)) (EVar "a")) (ELit I32 2))
        (EBin BEq (EVar "a") (ELit I32 3))))] /\
  parse_text ["int f(int a) { return a + }"] = None /\
  parse_text ["int f(int a) { return a }"] = None /\
  parse_text ["int f(int a) { return a; "] = None /\
  parse_text ["int f(int a) { while (a) return a; }"] = None /\
  parse_text ["int f(bool a) { return a; }"] = None /\
  parse_text ["#if X"; "int f(int a) { return a; }"; "#endif"] = Some [] /\
  parse_text ["#define X 1"; "#if X"; "int f(int a) { return a; }"; "#endif"] =
    Some [mkfunc "f" (TScal I32) [("a", TScal I32)] (SReturn (EVar "a"))].
Proof. vm_compute. repeat split. Qed.
