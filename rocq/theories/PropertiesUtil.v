(** C70, continued: the functions the theorems are about are those of the source text. *)
From Coq Require Import ZArith String List Bool.
From Verif Require Import Types Syntax Interp TestUtil Frontend SourceH UtilSource UtilFront P_UtilFront.
Import ListNotations.
Local Open Scope string_scope.

(** tests/test_util.hpp defines these nine functions and nothing else. *)
Theorem C70_source : util_front neon_sim_h test_util_hpp = Some comparisons.
Proof. exact util_parsed. Qed.
Print Assumptions C70_source.

(** The front end is not constant: with another comparison or another bound in the text it gives other functions, and text
    outside its fragment it refuses. *)
Example C70_source_example :
  option_map (map f_body) (util_front neon_sim_h
    ["static bool almostEqual(const int8x8_t& expected, const int8x8_t& actual, double eps=0)";
     "{";
     "    for (int i = 0; i < 7; i++)";
     "    {";
     "        const double diff = std::fabs((double)expected.val[i] - (double)actual.val[i]);";
     "        if (diff >= eps)";
     "        {";
     "            return false;";
     "        }";
     "    }";
     "    return true;";
     "}"])
  = Some [(SFor I32 "i" (lit 0)%C ("i" < lit 7)%C ("i" + lit 1)%C
             (SDecl (TScal F64) "diff" (Some (ECall "fabs"
                (EBin BSub (ECast F64 ("expected" @ "i")) (ECast F64 ("actual" @ "i")))%C)) ;;
              SIf (EBin BGe "diff" "eps") (SReturn (lit 0)) SSkip) ;;
           SReturn (lit 1))%CS] /\
  util_front neon_sim_h ["static bool f(const int8x8_t& a) { while (true) { } }"] = None.
Proof. split; vm_compute; reflexivity. Qed.
