(** The comparison functions the project's tests are written with
    (tests/test_util.hpp:17-147), translated by hand; UtilFront.v parses the text of that file
    to these definitions. *)
From Coq Require Import ZArith String List Bool.
From Verif Require Import Types FloatBits Syntax Interp.
Import ListNotations.
Open Scope Z_scope.
Local Open Scope string_scope.

(** std::fabs: the sign bit is cleared.  It is overloaded for float and double. *)
Definition fabs_bits (t : sty) (z : Z) : Z := z mod 2 ^ (width t - 1).
Definition fabs_call (f : string) (o : obj) : res obj :=
  if String.eqb f "fabs" then
    let* p := scalar o in
    if is_float (fst p) then Ok (rv (fst p) (fabs_bits (fst p) (snd p))) else Err EStuck
  else Err EStuck.

(** Lines 21-27, the body of the loop, for the elements [e] and [a]:
<<
    const double diff = std::fabs(d);
    if (diff > eps)
    {
        std::cerr << "array[" << i << "] (" << (int)a << ") != expected[" << i << "] (" << (int)e
                  << "), diff = " << diff << ", EPS = " << eps << std::endl;
        return false;
    }
>>
    Simplifications: what is printed is not modelled, but the two conversions to
    int that printing evaluates are, as declarations of unused variables; bool is
    int with the values 0 and 1. *)
Definition check (d e a eps : expr) : stmt :=
  (SDecl (TScal F64) "diff" (Some (ECall "fabs" d)) ;;
   SIf (EBin BGt "diff" eps)
     (SDecl (TScal I32) "_a" (Some (ECast I32 a)) ;;
      SDecl (TScal I32) "_e" (Some (ECast I32 e)) ;;
      SReturn (lit 0))
     SSkip)%CS.

(** The bodies of the overloads for vectors, whose texts differ in the type and in
    the number [n] of lanes only: lines 18-30, 33-45, 48-60, 63-75, 78-90, 105-117, 120-132.
<<
    for (int i = 0; i < n; i++)
    {
        const double diff = std::fabs((double)expected.val[i] - (double)actual.val[i]);
        ...
    }
    return true;
>> *)
Definition compare_body (n : Z) : stmt :=
  (SFor I32 "i" (lit 0)%C ("i" < lit n)%C ("i" + lit 1)%C
     (check (EBin BSub (ECast F64 ("expected" @ "i")) (ECast F64 ("actual" @ "i")))%C
            ("expected" @ "i")%C ("actual" @ "i")%C "eps") ;;
   SReturn (lit 1))%CS.

(** [bool almostEqual(const V& expected, const V& actual, double eps)] with V a vector of
    [n] lanes of type [t].  References are modelled as values: nothing is assigned. *)
Definition compare_fun (t : sty) (n : nat) : func :=
  mkfunc "almostEqual" (TScal I32) [("expected", tvec t n); ("actual", tvec t n); ("eps", TScal F64)]
    (compare_body (Z.of_nat n)).

(** tests/test_util.hpp:17-30 *)
Definition almostEqual_uint8x8 := compare_fun U8 8.
(** tests/test_util.hpp:32-45 *)
Definition almostEqual_int8x8 := compare_fun I8 8.
(** tests/test_util.hpp:47-60 *)
Definition almostEqual_uint16x8 := compare_fun U16 8.
(** tests/test_util.hpp:62-75 *)
Definition almostEqual_int16x8 := compare_fun I16 8.
(** tests/test_util.hpp:77-90 *)
Definition almostEqual_int8x16 := compare_fun I8 16.
(** tests/test_util.hpp:104-117 *)
Definition almostEqual_float32x4 := compare_fun F32 4.
(** tests/test_util.hpp:119-132 *)
Definition almostEqual_int16x4 := compare_fun I16 4.

(** tests/test_util.hpp:92-102
<<
    for (int i = 0; i < 2; i++)
    {
        if (!almostEqual(expected.val[i], actual.val[i]))
        {
            return false;
        }
    }
    return true;
>>
    The call to the overload for uint8x8_t, with eps = 0, is inlined: it returns
    false where the caller returns false at once, and its loop variable is [j]. *)
Definition almostEqual_uint8x8x2 : func :=
  mkfunc "almostEqual" (TScal I32) [("expected", tvecs 2 U8 8); ("actual", tvecs 2 U8 8)]
  (SFor I32 "i" (lit 0)%C ("i" < lit 2)%C ("i" + lit 1)%C
     (SFor I32 "j" (lit 0)%C ("j" < lit 8)%C ("j" + lit 1)%C
        (check (EBin BSub (ECast F64 ("expected" @ "i" @ "j")) (ECast F64 ("actual" @ "i" @ "j")))%C
               ("expected" @ "i" @ "j")%C ("actual" @ "i" @ "j")%C (ELit F64 0))) ;;
   SReturn (lit 1))%CS.

(** tests/test_util.hpp:134-147
<<
bool almostEqual(const std::vector<float>& expected, const std::vector<float>& actual, double eps)
    for (int i = 0; i < 4; i++)
    {
        const double diff = std::fabs(expected[i] - actual[i]);
        ...
>>
    The difference is a float here.  A std::vector<float> is modelled as a pointer
    to a block of its length; [operator[]] past its end is undefined, as in C++. *)
Definition almostEqual_vector : func :=
  mkfunc "almostEqual" (TScal I32) [("expected", TPtr F32); ("actual", TPtr F32); ("eps", TScal F64)]
  (SFor I32 "i" (lit 0)%C ("i" < lit 4)%C ("i" + lit 1)%C
     (check (EBin BSub ("expected" @ "i") ("actual" @ "i"))%C
            ("expected" @ "i")%C ("actual" @ "i")%C "eps") ;;
   SReturn (lit 1))%CS.

(** A call of one of these functions. *)
Definition compare_run (c : cfg) (m : memory) (f : func) (args : list obj) : outcome :=
  outcome_of (run_body c fabs_call 64 f args m).
