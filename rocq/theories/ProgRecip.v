(** struct float_parts and the reciprocal-estimate helpers, translated by hand
    (neon_sim.cpp:4261-4332); vrecpeq_f32 itself is in ProgShift.v. *)
From Coq Require Import ZArith List String.
From Verif Require Import Types Syntax Interp.
Import ListNotations.
Open Scope Z_scope.
Local Open Scope string_scope.

(** neon_sim.cpp:4261-4284, data members of struct float_parts, in order:
    0 sign, 1 fraction, 2 exp, 3 exp_bits[8], 4 fraction_bits[23],
    5 exp_bits_str (8 chars), 6 fraction_bits_str (23 chars).
    Simplification: a std::string of fixed length is an array of char. *)
Definition float_parts_t : ty :=
  TStruct [TScal U32; TScal U32; TScal U32; tvec I32 8; tvec I32 23; tvec I8 8; tvec I8 23].

(** neon_sim.cpp:4286-4291
<<
uint32_t RecipEstimate(uint32_t a)
{
    a = a * 2 + 1;
    uint32_t b = (1 << 19) / a;
    return (b + 1) / 2;
}
>> *)
Definition RecipEstimate : func := mkfunc "RecipEstimate" (TScal U32) [("a", TScal U32)]
  (
    SAssign "a" [] (("a" * lit 2) + lit 1)%C ;;
    SDecl (TScal U32) "b" (Some ((lit 1 << lit 19) / "a")%C) ;;
    SReturn (("b" + lit 1) / lit 2)%C
  )%CS.

(** neon_sim.cpp:4303-4323 [float_parts::float_parts(float v)], with the default
    member initialisers of lines 4272-4273 executed first and the private member
    function [int32_to_binary] (lines 4276-4283) inlined at its two call sites
    (its parameters are [data1], [n1] and [data2], [n2]; [bits] is the member array).
    The constructed object is the variable [this], returned by value. *)
Definition float_parts_ctor : func := mkfunc "float_parts::float_parts" float_parts_t
  [("v", TScal F32)]
  (
    SDecl float_parts_t "this" None ;;
    SFor I32 "k" (lit 0)%C ("k" < lit 8)%C ("k" + lit 1)%C (
      SAssign "this" [lit 5; EVar "k"]%C (ELit I8 48)
    ) ;;
    SFor I32 "k" (lit 0)%C ("k" < lit 23)%C ("k" + lit 1)%C (
      SAssign "this" [lit 6; EVar "k"]%C (ELit I8 48)
    ) ;;
    SDecl (TScal U32) "v_bits" None ;;
    SMemcpy "v_bits" "v" (ELit U64 4) ;;
    SAssign "this" [lit 0]%C (("v_bits" >> lit 31) & lit 1)%C ;;
    SAssign "this" [lit 1]%C ("v_bits" & ((lit 1 << lit 23) - lit 1))%C ;;
    SAssign "this" [lit 2]%C (("v_bits" >> lit 23) & lit 255)%C ;;
    (* int32_to_binary(exp, exp_bits, 8); *)
    SDecl (TScal I32) "data1" (Some ("this" @ (lit 2))%C) ;;
    SDecl (TScal I32) "n1" (Some (lit 8)) ;;
    SFor I32 "i" (lit 0)%C ("i" < "n1")%C ("i" + lit 1)%C (
      SAssign "this" [lit 3; ("n1" - lit 1) - "i"]%C ("data1" & lit 1)%C ;;
      SAssign "data1" [] ("data1" >> lit 1)%C
    ) ;;
    (* int32_to_binary(fraction, fraction_bits, 23); *)
    SDecl (TScal I32) "data2" (Some ("this" @ (lit 1))%C) ;;
    SDecl (TScal I32) "n2" (Some (lit 23)) ;;
    SFor I32 "i" (lit 0)%C ("i" < "n2")%C ("i" + lit 1)%C (
      SAssign "this" [lit 4; ("n2" - lit 1) - "i"]%C ("data2" & lit 1)%C ;;
      SAssign "data2" [] ("data2" >> lit 1)%C
    ) ;;
    SFor I32 "i" (lit 0)%C ("i" < lit 8)%C ("i" + lit 1)%C (
      SAssign "this" [lit 5; EVar "i"]%C (("this" @ (lit 3) @ "i") + (ELit I8 48))%C
    ) ;;
    SFor I32 "i" (lit 0)%C ("i" < lit 23)%C ("i" + lit 1)%C (
      SAssign "this" [lit 6; EVar "i"]%C (("this" @ (lit 4) @ "i") + (ELit I8 48))%C
    ) ;;
    SReturn "this"
  )%CS.

(** neon_sim.cpp:4325-4332 [float_parts::operator float() const] *)
Definition float_parts_to_float : func := mkfunc "float_parts::operator float" (TScal F32)
  [("this", float_parts_t)]
  (
    SDecl (TScal U32) "v_bits" (Some
      ((((("this" @ (lit 0)) & lit 1) << lit 31)
        |. (("this" @ (lit 1)) & ((lit 1 << lit 23) - lit 1)))
        |. ((("this" @ (lit 2)) & lit 255) << lit 23))%C) ;;
    SDecl (TScal F32) "result" None ;;
    SMemcpy "result" "v_bits" (ELit U64 4) ;;
    SReturn "result"
  )%CS.

(** neon_sim.cpp:4293-4301
<<
float FPRecipEstimate(float operand)
{
    float_parts parts{operand};
    parts.exp = 253 - parts.exp;
    uint32_t scaled = 0x100 | ((parts.fraction >> 15) & 0xFF);
    uint32_t estimate = RecipEstimate(scaled);
    parts.fraction = (estimate & 0xff) << 15;
    return float(parts);
}
>> *)
Definition FPRecipEstimate : func := mkfunc "FPRecipEstimate" (TScal F32)
  [("operand", TScal F32)]
  (
    SDecl float_parts_t "parts" (Some (ECall "float_parts::float_parts" "operand")) ;;
    SAssign "parts" [lit 2]%C (lit 253 - ("parts" @ (lit 2)))%C ;;
    SDecl (TScal U32) "scaled"
      (Some (lit 256 |. ((("parts" @ (lit 1)) >> lit 15) & lit 255))%C) ;;
    SDecl (TScal U32) "estimate" (Some (ECall "RecipEstimate" "scaled")) ;;
    SAssign "parts" [lit 1]%C (("estimate" & lit 255) << lit 15)%C ;;
    SReturn (ECall "float_parts::operator float" "parts")
  )%CS.

(** The functions that other functions of neon_sim.cpp call. *)
Definition helpers : list func :=
  [RecipEstimate; FPRecipEstimate; float_parts_ctor; float_parts_to_float].

(** ** Running a function

    Loop fuel: no loop of the library runs more than 23 iterations; call depth:
    vrecpeq_f32 -> FPRecipEstimate -> float_parts.  That neither limit
    matters is proved (no outcome is [Timeout] or [Stuck], and more fuel changes nothing). *)
Definition loop_fuel : nat := 40.
Definition call_depth : nat := 3.

Definition run (c : cfg) (m : memory) (f : func) (args : list obj) : outcome :=
  outcome_of (run_body c (call_helper c helpers loop_fuel call_depth) loop_fuel f args m).

(** A vector value with all lanes initialised: [vec I8 l] is an [int8x8_t] if
    [l] has 8 elements; and a tuple of vectors such as [int8x8x2_t]. *)
Definition vec (t : sty) (l : list Z) : obj := OArr (map (rv t) l).
Definition vecs (t : sty) (ls : list (list Z)) : obj := OArr (map (vec t) ls).
