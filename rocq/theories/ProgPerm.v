(** Generated by tools/translate.py from neon_sim.cpp: permutation, narrowing, table lookup, extraction.
    The C text is quoted above each definition (double quotes shown as single). *)
From Coq Require Import ZArith List String.
From Verif Require Import Types Syntax.
Import ListNotations.
Open Scope Z_scope.
Local Open Scope string_scope.

(** neon_sim.cpp:4355-4369
<<
int8x8x2_t vtrn_s8(int8x8_t a, int8x8_t b)
{
    int8x8x2_t r;
    for (int i = 0; i < 4; i++)
    {
        r.val[0].val[2 * i] = a.val[2 * i];
        r.val[0].val[2 * i + 1] = b.val[2 * i];
    }
    for (int i = 0; i < 4; i++)
    {
        r.val[1].val[2 * i] = a.val[2 * i + 1];
        r.val[1].val[2 * i + 1] = b.val[2 * i + 1];
    }
    return r;
}
>> *)
Definition vtrn_s8 : func := mkfunc "vtrn_s8" (tvecs 2 I8 8)
  [("a", tvec I8 8); ("b", tvec I8 8)]
  (
    SDecl (tvecs 2 I8 8) "r" None ;;
    SFor I32 "i" (lit 0)%C ("i" < (lit 4))%C ("i" + (lit 1))%C (
      SAssign "r" [lit 0; (lit 2) * "i"]%C
        ("a" @ ((lit 2) * "i"))%C ;;
      SAssign "r" [lit 0; ((lit 2) * "i") + (lit 1)]%C
        ("b" @ ((lit 2) * "i"))%C
    ) ;;
    SFor I32 "i" (lit 0)%C ("i" < (lit 4))%C ("i" + (lit 1))%C (
      SAssign "r" [lit 1; (lit 2) * "i"]%C
        ("a" @ (((lit 2) * "i") + (lit 1)))%C ;;
      SAssign "r" [lit 1; ((lit 2) * "i") + (lit 1)]%C
        ("b" @ (((lit 2) * "i") + (lit 1)))%C
    ) ;;
    SReturn ("r")%C
  )%CS.

(** neon_sim.cpp:4371-4385
<<
uint8x8x2_t vtrn_u8(uint8x8_t a, uint8x8_t b)
{
    uint8x8x2_t r;
    for (int i = 0; i < 4; i++)
    {
        r.val[0].val[2 * i] = a.val[2 * i];
        r.val[0].val[2 * i + 1] = b.val[2 * i];
    }
    for (int i = 0; i < 4; i++)
    {
        r.val[1].val[2 * i] = a.val[2 * i + 1];
        r.val[1].val[2 * i + 1] = b.val[2 * i + 1];
    }
    return r;
}
>> *)
Definition vtrn_u8 : func := mkfunc "vtrn_u8" (tvecs 2 U8 8)
  [("a", tvec U8 8); ("b", tvec U8 8)]
  (
    SDecl (tvecs 2 U8 8) "r" None ;;
    SFor I32 "i" (lit 0)%C ("i" < (lit 4))%C ("i" + (lit 1))%C (
      SAssign "r" [lit 0; (lit 2) * "i"]%C
        ("a" @ ((lit 2) * "i"))%C ;;
      SAssign "r" [lit 0; ((lit 2) * "i") + (lit 1)]%C
        ("b" @ ((lit 2) * "i"))%C
    ) ;;
    SFor I32 "i" (lit 0)%C ("i" < (lit 4))%C ("i" + (lit 1))%C (
      SAssign "r" [lit 1; (lit 2) * "i"]%C
        ("a" @ (((lit 2) * "i") + (lit 1)))%C ;;
      SAssign "r" [lit 1; ((lit 2) * "i") + (lit 1)]%C
        ("b" @ (((lit 2) * "i") + (lit 1)))%C
    ) ;;
    SReturn ("r")%C
  )%CS.

(** neon_sim.cpp:4387-4401
<<
int16x4x2_t vtrn_s16(int16x4_t a, int16x4_t b)
{
    int16x4x2_t r;
    for (int i = 0; i < 2; i++)
    {
        r.val[0].val[2 * i] = a.val[2 * i];
        r.val[0].val[2 * i + 1] = b.val[2 * i];
    }
    for (int i = 0; i < 2; i++)
    {
        r.val[1].val[2 * i] = a.val[2 * i + 1];
        r.val[1].val[2 * i + 1] = b.val[2 * i + 1];
    }
    return r;
}
>> *)
Definition vtrn_s16 : func := mkfunc "vtrn_s16" (tvecs 2 I16 4)
  [("a", tvec I16 4); ("b", tvec I16 4)]
  (
    SDecl (tvecs 2 I16 4) "r" None ;;
    SFor I32 "i" (lit 0)%C ("i" < (lit 2))%C ("i" + (lit 1))%C (
      SAssign "r" [lit 0; (lit 2) * "i"]%C
        ("a" @ ((lit 2) * "i"))%C ;;
      SAssign "r" [lit 0; ((lit 2) * "i") + (lit 1)]%C
        ("b" @ ((lit 2) * "i"))%C
    ) ;;
    SFor I32 "i" (lit 0)%C ("i" < (lit 2))%C ("i" + (lit 1))%C (
      SAssign "r" [lit 1; (lit 2) * "i"]%C
        ("a" @ (((lit 2) * "i") + (lit 1)))%C ;;
      SAssign "r" [lit 1; ((lit 2) * "i") + (lit 1)]%C
        ("b" @ (((lit 2) * "i") + (lit 1)))%C
    ) ;;
    SReturn ("r")%C
  )%CS.

(** neon_sim.cpp:4403-4417
<<
uint16x4x2_t vtrn_u16(uint16x4_t a, uint16x4_t b)
{
    uint16x4x2_t r;
    for (int i = 0; i < 2; i++)
    {
        r.val[0].val[2 * i] = a.val[2 * i];
        r.val[0].val[2 * i + 1] = b.val[2 * i];
    }
    for (int i = 0; i < 2; i++)
    {
        r.val[1].val[2 * i] = a.val[2 * i + 1];
        r.val[1].val[2 * i + 1] = b.val[2 * i + 1];
    }
    return r;
}
>> *)
Definition vtrn_u16 : func := mkfunc "vtrn_u16" (tvecs 2 U16 4)
  [("a", tvec U16 4); ("b", tvec U16 4)]
  (
    SDecl (tvecs 2 U16 4) "r" None ;;
    SFor I32 "i" (lit 0)%C ("i" < (lit 2))%C ("i" + (lit 1))%C (
      SAssign "r" [lit 0; (lit 2) * "i"]%C
        ("a" @ ((lit 2) * "i"))%C ;;
      SAssign "r" [lit 0; ((lit 2) * "i") + (lit 1)]%C
        ("b" @ ((lit 2) * "i"))%C
    ) ;;
    SFor I32 "i" (lit 0)%C ("i" < (lit 2))%C ("i" + (lit 1))%C (
      SAssign "r" [lit 1; (lit 2) * "i"]%C
        ("a" @ (((lit 2) * "i") + (lit 1)))%C ;;
      SAssign "r" [lit 1; ((lit 2) * "i") + (lit 1)]%C
        ("b" @ (((lit 2) * "i") + (lit 1)))%C
    ) ;;
    SReturn ("r")%C
  )%CS.

(** neon_sim.cpp:4419-4433
<<
int32x2x2_t vtrn_s32(int32x2_t a, int32x2_t b)
{
    int32x2x2_t r;
    for (int i = 0; i < 1; i++)
    {
        r.val[0].val[2 * i] = a.val[2 * i];
        r.val[0].val[2 * i + 1] = b.val[2 * i];
    }
    for (int i = 0; i < 1; i++)
    {
        r.val[1].val[2 * i] = a.val[2 * i + 1];
        r.val[1].val[2 * i + 1] = b.val[2 * i + 1];
    }
    return r;
}
>> *)
Definition vtrn_s32 : func := mkfunc "vtrn_s32" (tvecs 2 I32 2)
  [("a", tvec I32 2); ("b", tvec I32 2)]
  (
    SDecl (tvecs 2 I32 2) "r" None ;;
    SFor I32 "i" (lit 0)%C ("i" < (lit 1))%C ("i" + (lit 1))%C (
      SAssign "r" [lit 0; (lit 2) * "i"]%C
        ("a" @ ((lit 2) * "i"))%C ;;
      SAssign "r" [lit 0; ((lit 2) * "i") + (lit 1)]%C
        ("b" @ ((lit 2) * "i"))%C
    ) ;;
    SFor I32 "i" (lit 0)%C ("i" < (lit 1))%C ("i" + (lit 1))%C (
      SAssign "r" [lit 1; (lit 2) * "i"]%C
        ("a" @ (((lit 2) * "i") + (lit 1)))%C ;;
      SAssign "r" [lit 1; ((lit 2) * "i") + (lit 1)]%C
        ("b" @ (((lit 2) * "i") + (lit 1)))%C
    ) ;;
    SReturn ("r")%C
  )%CS.

(** neon_sim.cpp:4435-4449
<<
uint32x2x2_t vtrn_u32(uint32x2_t a, uint32x2_t b)
{
    uint32x2x2_t r;
    for (int i = 0; i < 1; i++)
    {
        r.val[0].val[2 * i] = a.val[2 * i];
        r.val[0].val[2 * i + 1] = b.val[2 * i];
    }
    for (int i = 0; i < 1; i++)
    {
        r.val[1].val[2 * i] = a.val[2 * i + 1];
        r.val[1].val[2 * i + 1] = b.val[2 * i + 1];
    }
    return r;
}
>> *)
Definition vtrn_u32 : func := mkfunc "vtrn_u32" (tvecs 2 U32 2)
  [("a", tvec U32 2); ("b", tvec U32 2)]
  (
    SDecl (tvecs 2 U32 2) "r" None ;;
    SFor I32 "i" (lit 0)%C ("i" < (lit 1))%C ("i" + (lit 1))%C (
      SAssign "r" [lit 0; (lit 2) * "i"]%C
        ("a" @ ((lit 2) * "i"))%C ;;
      SAssign "r" [lit 0; ((lit 2) * "i") + (lit 1)]%C
        ("b" @ ((lit 2) * "i"))%C
    ) ;;
    SFor I32 "i" (lit 0)%C ("i" < (lit 1))%C ("i" + (lit 1))%C (
      SAssign "r" [lit 1; (lit 2) * "i"]%C
        ("a" @ (((lit 2) * "i") + (lit 1)))%C ;;
      SAssign "r" [lit 1; ((lit 2) * "i") + (lit 1)]%C
        ("b" @ (((lit 2) * "i") + (lit 1)))%C
    ) ;;
    SReturn ("r")%C
  )%CS.

(** neon_sim.cpp:4452-4466
<<
uint16x8x2_t vtrnq_u16(uint16x8_t a, uint16x8_t b)
{
    uint16x8x2_t r;
    for (int i = 0; i < 4; i++)
    {
        r.val[0].val[2 * i] = a.val[2 * i];
        r.val[0].val[2 * i + 1] = b.val[2 * i];
    }
    for (int i = 0; i < 4; i++)
    {
        r.val[1].val[2 * i] = a.val[2 * i + 1];
        r.val[1].val[2 * i + 1] = b.val[2 * i + 1];
    }
    return r;
}
>> *)
Definition vtrnq_u16 : func := mkfunc "vtrnq_u16" (tvecs 2 U16 8)
  [("a", tvec U16 8); ("b", tvec U16 8)]
  (
    SDecl (tvecs 2 U16 8) "r" None ;;
    SFor I32 "i" (lit 0)%C ("i" < (lit 4))%C ("i" + (lit 1))%C (
      SAssign "r" [lit 0; (lit 2) * "i"]%C
        ("a" @ ((lit 2) * "i"))%C ;;
      SAssign "r" [lit 0; ((lit 2) * "i") + (lit 1)]%C
        ("b" @ ((lit 2) * "i"))%C
    ) ;;
    SFor I32 "i" (lit 0)%C ("i" < (lit 4))%C ("i" + (lit 1))%C (
      SAssign "r" [lit 1; (lit 2) * "i"]%C
        ("a" @ (((lit 2) * "i") + (lit 1)))%C ;;
      SAssign "r" [lit 1; ((lit 2) * "i") + (lit 1)]%C
        ("b" @ (((lit 2) * "i") + (lit 1)))%C
    ) ;;
    SReturn ("r")%C
  )%CS.

(** neon_sim.cpp:4468-4482
<<
uint32x4x2_t vtrnq_u32(uint32x4_t a, uint32x4_t b)
{
    uint32x4x2_t r;
    for (int i = 0; i < 2; i++)
    {
        r.val[0].val[2 * i] = a.val[2 * i];
        r.val[0].val[2 * i + 1] = b.val[2 * i];
    }
    for (int i = 0; i < 2; i++)
    {
        r.val[1].val[2 * i] = a.val[2 * i + 1];
        r.val[1].val[2 * i + 1] = b.val[2 * i + 1];
    }
    return r;
}
>> *)
Definition vtrnq_u32 : func := mkfunc "vtrnq_u32" (tvecs 2 U32 4)
  [("a", tvec U32 4); ("b", tvec U32 4)]
  (
    SDecl (tvecs 2 U32 4) "r" None ;;
    SFor I32 "i" (lit 0)%C ("i" < (lit 2))%C ("i" + (lit 1))%C (
      SAssign "r" [lit 0; (lit 2) * "i"]%C
        ("a" @ ((lit 2) * "i"))%C ;;
      SAssign "r" [lit 0; ((lit 2) * "i") + (lit 1)]%C
        ("b" @ ((lit 2) * "i"))%C
    ) ;;
    SFor I32 "i" (lit 0)%C ("i" < (lit 2))%C ("i" + (lit 1))%C (
      SAssign "r" [lit 1; (lit 2) * "i"]%C
        ("a" @ (((lit 2) * "i") + (lit 1)))%C ;;
      SAssign "r" [lit 1; ((lit 2) * "i") + (lit 1)]%C
        ("b" @ (((lit 2) * "i") + (lit 1)))%C
    ) ;;
    SReturn ("r")%C
  )%CS.

(** neon_sim.cpp:4484-4498
<<
int16x8x2_t vtrnq_s16(int16x8_t a, int16x8_t b)
{
    int16x8x2_t r;
    for (int i = 0; i < 4; i++)
    {
        r.val[0].val[2 * i] = a.val[2 * i];
        r.val[0].val[2 * i + 1] = b.val[2 * i];
    }
    for (int i = 0; i < 4; i++)
    {
        r.val[1].val[2 * i] = a.val[2 * i + 1];
        r.val[1].val[2 * i + 1] = b.val[2 * i + 1];
    }
    return r;
}
>> *)
Definition vtrnq_s16 : func := mkfunc "vtrnq_s16" (tvecs 2 I16 8)
  [("a", tvec I16 8); ("b", tvec I16 8)]
  (
    SDecl (tvecs 2 I16 8) "r" None ;;
    SFor I32 "i" (lit 0)%C ("i" < (lit 4))%C ("i" + (lit 1))%C (
      SAssign "r" [lit 0; (lit 2) * "i"]%C
        ("a" @ ((lit 2) * "i"))%C ;;
      SAssign "r" [lit 0; ((lit 2) * "i") + (lit 1)]%C
        ("b" @ ((lit 2) * "i"))%C
    ) ;;
    SFor I32 "i" (lit 0)%C ("i" < (lit 4))%C ("i" + (lit 1))%C (
      SAssign "r" [lit 1; (lit 2) * "i"]%C
        ("a" @ (((lit 2) * "i") + (lit 1)))%C ;;
      SAssign "r" [lit 1; ((lit 2) * "i") + (lit 1)]%C
        ("b" @ (((lit 2) * "i") + (lit 1)))%C
    ) ;;
    SReturn ("r")%C
  )%CS.

(** neon_sim.cpp:4501-4516
<<
int16x4x2_t vzip_s16(int16x4_t a, int16x4_t b)
{
    int16x4x2_t r;
    const int n = 2;
    for (int i = 0; i < n; i++)
    {
        r.val[0].val[2 * i] = a.val[i];
        r.val[0].val[2 * i + 1] = b.val[i];
    }
    for (int i = 0; i < n; i++)
    {
        r.val[1].val[2 * i] = a.val[n + i];
        r.val[1].val[2 * i + 1] = b.val[n + i];
    }
    return r;
}
>> *)
Definition vzip_s16 : func := mkfunc "vzip_s16" (tvecs 2 I16 4)
  [("a", tvec I16 4); ("b", tvec I16 4)]
  (
    SDecl (tvecs 2 I16 4) "r" None ;;
    SDecl (TScal I32) "n" (Some (lit 2)%C) ;;
    SFor I32 "i" (lit 0)%C ("i" < "n")%C ("i" + (lit 1))%C (
      SAssign "r" [lit 0; (lit 2) * "i"]%C
        ("a" @ "i")%C ;;
      SAssign "r" [lit 0; ((lit 2) * "i") + (lit 1)]%C
        ("b" @ "i")%C
    ) ;;
    SFor I32 "i" (lit 0)%C ("i" < "n")%C ("i" + (lit 1))%C (
      SAssign "r" [lit 1; (lit 2) * "i"]%C
        ("a" @ ("n" + "i"))%C ;;
      SAssign "r" [lit 1; ((lit 2) * "i") + (lit 1)]%C
        ("b" @ ("n" + "i"))%C
    ) ;;
    SReturn ("r")%C
  )%CS.

(** neon_sim.cpp:4519-4532
<<
uint8x16_t vcombine_u8(uint8x8_t low, uint8x8_t high)
{
    uint8x16_t r;
    const int n = 8;
    for (int i = 0; i < n; i++)
    {
        r.val[i] =  low.val[i];
    }
    for (int i = 0; i < n; i++)
    {
        r.val[n + i] = high.val[i];;
    }
    return r;
}
>> *)
Definition vcombine_u8 : func := mkfunc "vcombine_u8" (tvec U8 16)
  [("low", tvec U8 8); ("high", tvec U8 8)]
  (
    SDecl (tvec U8 16) "r" None ;;
    SDecl (TScal I32) "n" (Some (lit 8)%C) ;;
    SFor I32 "i" (lit 0)%C ("i" < "n")%C ("i" + (lit 1))%C (
      SAssign "r" [EVar "i"]%C
        ("low" @ "i")%C
    ) ;;
    SFor I32 "i" (lit 0)%C ("i" < "n")%C ("i" + (lit 1))%C (
      SAssign "r" ["n" + "i"]%C
        ("high" @ "i")%C
    ) ;;
    SReturn ("r")%C
  )%CS.

(** neon_sim.cpp:4533-4546
<<
uint16x8_t vcombine_u16(uint16x4_t low, uint16x4_t high)
{
    uint16x8_t r;
    const int n = 4;
    for (int i = 0; i < n; i++)
    {
        r.val[i] =  low.val[i];
    }
    for (int i = 0; i < n; i++)
    {
        r.val[n + i] = high.val[i];;
    }
    return r;
}
>> *)
Definition vcombine_u16 : func := mkfunc "vcombine_u16" (tvec U16 8)
  [("low", tvec U16 4); ("high", tvec U16 4)]
  (
    SDecl (tvec U16 8) "r" None ;;
    SDecl (TScal I32) "n" (Some (lit 4)%C) ;;
    SFor I32 "i" (lit 0)%C ("i" < "n")%C ("i" + (lit 1))%C (
      SAssign "r" [EVar "i"]%C
        ("low" @ "i")%C
    ) ;;
    SFor I32 "i" (lit 0)%C ("i" < "n")%C ("i" + (lit 1))%C (
      SAssign "r" ["n" + "i"]%C
        ("high" @ "i")%C
    ) ;;
    SReturn ("r")%C
  )%CS.

(** neon_sim.cpp:4547-4560
<<
uint32x4_t vcombine_u32(uint32x2_t low, uint32x2_t high)
{
    uint32x4_t r;
    const int n = 2;
    for (int i = 0; i < n; i++)
    {
        r.val[i] =  low.val[i];
    }
    for (int i = 0; i < n; i++)
    {
        r.val[n + i] = high.val[i];;
    }
    return r;
}
>> *)
Definition vcombine_u32 : func := mkfunc "vcombine_u32" (tvec U32 4)
  [("low", tvec U32 2); ("high", tvec U32 2)]
  (
    SDecl (tvec U32 4) "r" None ;;
    SDecl (TScal I32) "n" (Some (lit 2)%C) ;;
    SFor I32 "i" (lit 0)%C ("i" < "n")%C ("i" + (lit 1))%C (
      SAssign "r" [EVar "i"]%C
        ("low" @ "i")%C
    ) ;;
    SFor I32 "i" (lit 0)%C ("i" < "n")%C ("i" + (lit 1))%C (
      SAssign "r" ["n" + "i"]%C
        ("high" @ "i")%C
    ) ;;
    SReturn ("r")%C
  )%CS.

(** neon_sim.cpp:4562-4575
<<
int8x16_t vcombine_s8(int8x8_t low, int8x8_t high)
{
    int8x16_t r;
    const int n = 8;
    for (int i = 0; i < n; i++)
    {
        r.val[i] =  low.val[i];
    }
    for (int i = 0; i < n; i++)
    {
        r.val[n + i] = high.val[i];;
    }
    return r;
}
>> *)
Definition vcombine_s8 : func := mkfunc "vcombine_s8" (tvec I8 16)
  [("low", tvec I8 8); ("high", tvec I8 8)]
  (
    SDecl (tvec I8 16) "r" None ;;
    SDecl (TScal I32) "n" (Some (lit 8)%C) ;;
    SFor I32 "i" (lit 0)%C ("i" < "n")%C ("i" + (lit 1))%C (
      SAssign "r" [EVar "i"]%C
        ("low" @ "i")%C
    ) ;;
    SFor I32 "i" (lit 0)%C ("i" < "n")%C ("i" + (lit 1))%C (
      SAssign "r" ["n" + "i"]%C
        ("high" @ "i")%C
    ) ;;
    SReturn ("r")%C
  )%CS.

(** neon_sim.cpp:4576-4589
<<
int16x8_t vcombine_s16(int16x4_t low, int16x4_t high)
{
    int16x8_t r;
    const int n = 4;
    for (int i = 0; i < n; i++)
    {
        r.val[i] =  low.val[i];
    }
    for (int i = 0; i < n; i++)
    {
        r.val[n + i] = high.val[i];;
    }
    return r;
}
>> *)
Definition vcombine_s16 : func := mkfunc "vcombine_s16" (tvec I16 8)
  [("low", tvec I16 4); ("high", tvec I16 4)]
  (
    SDecl (tvec I16 8) "r" None ;;
    SDecl (TScal I32) "n" (Some (lit 4)%C) ;;
    SFor I32 "i" (lit 0)%C ("i" < "n")%C ("i" + (lit 1))%C (
      SAssign "r" [EVar "i"]%C
        ("low" @ "i")%C
    ) ;;
    SFor I32 "i" (lit 0)%C ("i" < "n")%C ("i" + (lit 1))%C (
      SAssign "r" ["n" + "i"]%C
        ("high" @ "i")%C
    ) ;;
    SReturn ("r")%C
  )%CS.

(** neon_sim.cpp:4590-4603
<<
int32x4_t vcombine_s32(int32x2_t low, int32x2_t high)
{
    int32x4_t r;
    const int n = 2;
    for (int i = 0; i < n; i++)
    {
        r.val[i] =  low.val[i];
    }
    for (int i = 0; i < n; i++)
    {
        r.val[n + i] = high.val[i];;
    }
    return r;
}
>> *)
Definition vcombine_s32 : func := mkfunc "vcombine_s32" (tvec I32 4)
  [("low", tvec I32 2); ("high", tvec I32 2)]
  (
    SDecl (tvec I32 4) "r" None ;;
    SDecl (TScal I32) "n" (Some (lit 2)%C) ;;
    SFor I32 "i" (lit 0)%C ("i" < "n")%C ("i" + (lit 1))%C (
      SAssign "r" [EVar "i"]%C
        ("low" @ "i")%C
    ) ;;
    SFor I32 "i" (lit 0)%C ("i" < "n")%C ("i" + (lit 1))%C (
      SAssign "r" ["n" + "i"]%C
        ("high" @ "i")%C
    ) ;;
    SReturn ("r")%C
  )%CS.

(** neon_sim.cpp:4606-4614
<<
int16x4_t vmovn_s32(int32x4_t a)
{
    int16x4_t r;
    for (int i = 0; i < 4; i++)
    {
        r.val[i] =  a.val[i];
    }
    return r;
}
>> *)
Definition vmovn_s32 : func := mkfunc "vmovn_s32" (tvec I16 4)
  [("a", tvec I32 4)]
  (
    SDecl (tvec I16 4) "r" None ;;
    SFor I32 "i" (lit 0)%C ("i" < (lit 4))%C ("i" + (lit 1))%C (
      SAssign "r" [EVar "i"]%C
        ("a" @ "i")%C
    ) ;;
    SReturn ("r")%C
  )%CS.

(** neon_sim.cpp:4616-4624
<<
uint16x4_t vmovn_u32(uint32x4_t a)
{
    uint16x4_t r;
    for (int i = 0; i < 4; i++)
    {
        r.val[i] =  a.val[i];
    }
    return r;
}
>> *)
Definition vmovn_u32 : func := mkfunc "vmovn_u32" (tvec U16 4)
  [("a", tvec U32 4)]
  (
    SDecl (tvec U16 4) "r" None ;;
    SFor I32 "i" (lit 0)%C ("i" < (lit 4))%C ("i" + (lit 1))%C (
      SAssign "r" [EVar "i"]%C
        ("a" @ "i")%C
    ) ;;
    SReturn ("r")%C
  )%CS.

(** neon_sim.cpp:4626-4634
<<
uint8x8_t vmovn_u16(uint16x8_t a)
{
    uint8x8_t r;
    for (int i = 0; i < 8; i++)
    {
        r.val[i] =  a.val[i];
    }
    return r;
}
>> *)
Definition vmovn_u16 : func := mkfunc "vmovn_u16" (tvec U8 8)
  [("a", tvec U16 8)]
  (
    SDecl (tvec U8 8) "r" None ;;
    SFor I32 "i" (lit 0)%C ("i" < (lit 8))%C ("i" + (lit 1))%C (
      SAssign "r" [EVar "i"]%C
        ("a" @ "i")%C
    ) ;;
    SReturn ("r")%C
  )%CS.

(** neon_sim.cpp:4637-4645
<<
uint16x8_t vmovl_u8(uint8x8_t a)
{
    uint16x8_t r;
    for (int i = 0; i < 8; i++)
    {
        r.val[i] =  a.val[i];
    }
    return r;
}
>> *)
Definition vmovl_u8 : func := mkfunc "vmovl_u8" (tvec U16 8)
  [("a", tvec U8 8)]
  (
    SDecl (tvec U16 8) "r" None ;;
    SFor I32 "i" (lit 0)%C ("i" < (lit 8))%C ("i" + (lit 1))%C (
      SAssign "r" [EVar "i"]%C
        ("a" @ "i")%C
    ) ;;
    SReturn ("r")%C
  )%CS.

(** neon_sim.cpp:4646-4654
<<
uint32x4_t vmovl_u16(uint16x4_t a)
{
    uint32x4_t r;
    for (int i = 0; i < 4; i++)
    {
        r.val[i] =  a.val[i];
    }
    return r;
}
>> *)
Definition vmovl_u16 : func := mkfunc "vmovl_u16" (tvec U32 4)
  [("a", tvec U16 4)]
  (
    SDecl (tvec U32 4) "r" None ;;
    SFor I32 "i" (lit 0)%C ("i" < (lit 4))%C ("i" + (lit 1))%C (
      SAssign "r" [EVar "i"]%C
        ("a" @ "i")%C
    ) ;;
    SReturn ("r")%C
  )%CS.

(** neon_sim.cpp:4655-4663
<<
uint64x2_t vmovl_u32(uint32x2_t a)
{
    uint64x2_t r;
    for (int i = 0; i < 2; i++)
    {
        r.val[i] =  a.val[i];
    }
    return r;
}
>> *)
Definition vmovl_u32 : func := mkfunc "vmovl_u32" (tvec U64 2)
  [("a", tvec U32 2)]
  (
    SDecl (tvec U64 2) "r" None ;;
    SFor I32 "i" (lit 0)%C ("i" < (lit 2))%C ("i" + (lit 1))%C (
      SAssign "r" [EVar "i"]%C
        ("a" @ "i")%C
    ) ;;
    SReturn ("r")%C
  )%CS.

(** neon_sim.cpp:4665-4673
<<
int16x8_t vmovl_s8(int8x8_t a)
{
    int16x8_t r;
    for (int i = 0; i < 8; i++)
    {
        r.val[i] =  a.val[i];
    }
    return r;
}
>> *)
Definition vmovl_s8 : func := mkfunc "vmovl_s8" (tvec I16 8)
  [("a", tvec I8 8)]
  (
    SDecl (tvec I16 8) "r" None ;;
    SFor I32 "i" (lit 0)%C ("i" < (lit 8))%C ("i" + (lit 1))%C (
      SAssign "r" [EVar "i"]%C
        ("a" @ "i")%C
    ) ;;
    SReturn ("r")%C
  )%CS.

(** neon_sim.cpp:4674-4682
<<
int32x4_t vmovl_s16(int16x4_t a)
{
    int32x4_t r;
    for (int i = 0; i < 4; i++)
    {
        r.val[i] =  a.val[i];
    }
    return r;
}
>> *)
Definition vmovl_s16 : func := mkfunc "vmovl_s16" (tvec I32 4)
  [("a", tvec I16 4)]
  (
    SDecl (tvec I32 4) "r" None ;;
    SFor I32 "i" (lit 0)%C ("i" < (lit 4))%C ("i" + (lit 1))%C (
      SAssign "r" [EVar "i"]%C
        ("a" @ "i")%C
    ) ;;
    SReturn ("r")%C
  )%CS.

(** neon_sim.cpp:4683-4691
<<
int64x2_t vmovl_s32(int32x2_t a)
{
    int64x2_t r;
    for (int i = 0; i < 2; i++)
    {
        r.val[i] =  a.val[i];
    }
    return r;
}
>> *)
Definition vmovl_s32 : func := mkfunc "vmovl_s32" (tvec I64 2)
  [("a", tvec I32 2)]
  (
    SDecl (tvec I64 2) "r" None ;;
    SFor I32 "i" (lit 0)%C ("i" < (lit 2))%C ("i" + (lit 1))%C (
      SAssign "r" [EVar "i"]%C
        ("a" @ "i")%C
    ) ;;
    SReturn ("r")%C
  )%CS.

(** neon_sim.cpp:4694-4709
<<
uint8x8_t vqmovn_u16(uint16x8_t a)
{
    uint8x8_t r;
    for (int i = 0; i < 8; i++)
    {
        if (a.val[i] > UINT8_MAX)
        {
            r.val[i] =  UINT8_MAX;
        }
        else
        {
            r.val[i] =  a.val[i];
        }
    }
    return r;
}
>> *)
Definition vqmovn_u16 : func := mkfunc "vqmovn_u16" (tvec U8 8)
  [("a", tvec U16 8)]
  (
    SDecl (tvec U8 8) "r" None ;;
    SFor I32 "i" (lit 0)%C ("i" < (lit 8))%C ("i" + (lit 1))%C (
      SIf (("a" @ "i") > (lit 255))%C (
        SAssign "r" [EVar "i"]%C
          (lit 255)%C
      ) (
        SAssign "r" [EVar "i"]%C
          ("a" @ "i")%C
      )
    ) ;;
    SReturn ("r")%C
  )%CS.

(** neon_sim.cpp:4711-4730
<<
uint8x8_t vqmovun_s16(int16x8_t a)
{
    uint8x8_t r;
    for (int i = 0; i < 8; i++)
    {
        if (a.val[i] < 0)
        {
            r.val[i] =  0;
        }
        else if (a.val[i] > UINT8_MAX)
        {
            r.val[i] =  UINT8_MAX;
        }
        else
        {
            r.val[i] =  a.val[i];
        }
    }
    return r;
}
>> *)
Definition vqmovun_s16 : func := mkfunc "vqmovun_s16" (tvec U8 8)
  [("a", tvec I16 8)]
  (
    SDecl (tvec U8 8) "r" None ;;
    SFor I32 "i" (lit 0)%C ("i" < (lit 8))%C ("i" + (lit 1))%C (
      SIf (("a" @ "i") < (lit 0))%C (
        SAssign "r" [EVar "i"]%C
          (lit 0)%C
      ) (
        SIf (("a" @ "i") > (lit 255))%C (
          SAssign "r" [EVar "i"]%C
            (lit 255)%C
        ) (
          SAssign "r" [EVar "i"]%C
            ("a" @ "i")%C
        )
      )
    ) ;;
    SReturn ("r")%C
  )%CS.

(** neon_sim.cpp:4733-4741
<<
uint8x8_t vqtbl1_u8(uint8x16_t t, uint8x8_t idx)
{
    uint8x8_t r;
    for (int i = 0; i < 8; i++)
    {
        r.val[i] =  t.val[idx.val[i]];
    }
    return r;
}
>> *)
Definition vqtbl1_u8 : func := mkfunc "vqtbl1_u8" (tvec U8 8)
  [("t", tvec U8 16); ("idx", tvec U8 8)]
  (
    SDecl (tvec U8 8) "r" None ;;
    SFor I32 "i" (lit 0)%C ("i" < (lit 8))%C ("i" + (lit 1))%C (
      SAssign "r" [EVar "i"]%C
        ("t" @ ("idx" @ "i"))%C
    ) ;;
    SReturn ("r")%C
  )%CS.

(** neon_sim.cpp:4744-4762
<<
uint8x8_t vext_u8(uint8x8_t a, uint8x8_t b, const int n)
{
    uint8x8_t r;
    int len = 8;
    if (n > 8 || n < 0)
    {
        fprintf(stderr, '%s: param n is not in range [0, 8]\n', __FUNCTION__);
        abort();
    }
    for (int i = 0; i < len - n; i++)
    {
        r.val[i] =  a.val[i + n];
    }
    for (int i = 0; i < n; i++)
    {
        r.val[i + len - n] = b.val[i];
    }
    return r;
}
>> *)
Definition vext_u8 : func := mkfunc "vext_u8" (tvec U8 8)
  [("a", tvec U8 8); ("b", tvec U8 8); ("n", TScal I32)]
  (
    SDecl (tvec U8 8) "r" None ;;
    SDecl (TScal I32) "len" (Some (lit 8)%C) ;;
    SIf (EOrElse ("n" > (lit 8)) ("n" < (lit 0)))%C (
      SAbort
    ) (
      SSkip
    ) ;;
    SFor I32 "i" (lit 0)%C ("i" < ("len" - "n"))%C ("i" + (lit 1))%C (
      SAssign "r" [EVar "i"]%C
        ("a" @ ("i" + "n"))%C
    ) ;;
    SFor I32 "i" (lit 0)%C ("i" < "n")%C ("i" + (lit 1))%C (
      SAssign "r" [("i" + "len") - "n"]%C
        ("b" @ "i")%C
    ) ;;
    SReturn ("r")%C
  )%CS.

(** neon_sim.cpp:4764-4782
<<
uint16x4_t vext_u16(uint16x4_t a, uint16x4_t b, const int n)
{
    uint16x4_t r;
    int len = 4;
    if (n > 3 || n < 0)
    {
        fprintf(stderr, '%s: param n is not in range [0, 4]\n', __FUNCTION__);
        abort();
    }
    for (int i = 0; i < len - n; i++)
    {
        r.val[i] =  a.val[i + n];
    }
    for (int i = 0; i < n; i++)
    {
        r.val[i + len - n] = b.val[i];
    }
    return r;
}
>> *)
Definition vext_u16 : func := mkfunc "vext_u16" (tvec U16 4)
  [("a", tvec U16 4); ("b", tvec U16 4); ("n", TScal I32)]
  (
    SDecl (tvec U16 4) "r" None ;;
    SDecl (TScal I32) "len" (Some (lit 4)%C) ;;
    SIf (EOrElse ("n" > (lit 3)) ("n" < (lit 0)))%C (
      SAbort
    ) (
      SSkip
    ) ;;
    SFor I32 "i" (lit 0)%C ("i" < ("len" - "n"))%C ("i" + (lit 1))%C (
      SAssign "r" [EVar "i"]%C
        ("a" @ ("i" + "n"))%C
    ) ;;
    SFor I32 "i" (lit 0)%C ("i" < "n")%C ("i" + (lit 1))%C (
      SAssign "r" [("i" + "len") - "n"]%C
        ("b" @ "i")%C
    ) ;;
    SReturn ("r")%C
  )%CS.

(** neon_sim.cpp:4784-4802
<<
int16x4_t vext_s16(int16x4_t a, int16x4_t b, const int n)
{
    int16x4_t r;
    int len = 4;
    if (n > 3 || n < 0)
    {
        fprintf(stderr, '%s: param n is not in range [0, 4]\n', __FUNCTION__);
        abort();
    }
    for (int i = 0; i < len - n; i++)
    {
        r.val[i] =  a.val[i + n];
    }
    for (int i = 0; i < n; i++)
    {
        r.val[i + len - n] = b.val[i];
    }
    return r;
}
>> *)
Definition vext_s16 : func := mkfunc "vext_s16" (tvec I16 4)
  [("a", tvec I16 4); ("b", tvec I16 4); ("n", TScal I32)]
  (
    SDecl (tvec I16 4) "r" None ;;
    SDecl (TScal I32) "len" (Some (lit 4)%C) ;;
    SIf (EOrElse ("n" > (lit 3)) ("n" < (lit 0)))%C (
      SAbort
    ) (
      SSkip
    ) ;;
    SFor I32 "i" (lit 0)%C ("i" < ("len" - "n"))%C ("i" + (lit 1))%C (
      SAssign "r" [EVar "i"]%C
        ("a" @ ("i" + "n"))%C
    ) ;;
    SFor I32 "i" (lit 0)%C ("i" < "n")%C ("i" + (lit 1))%C (
      SAssign "r" [("i" + "len") - "n"]%C
        ("b" @ "i")%C
    ) ;;
    SReturn ("r")%C
  )%CS.

(** neon_sim.cpp:4805-4823
<<
uint16x8_t vextq_u16(uint16x8_t a, uint16x8_t b, const int n)
{
    uint16x8_t r;
    int len = 8;
    if (n > 8 || n < 0)
    {
        fprintf(stderr, '%s: param n is not in range [0, 8]\n', __FUNCTION__);
        abort();
    }
    for (int i = 0; i < len - n; i++)
    {
        r.val[i] =  a.val[i + n];
    }
    for (int i = 0; i < n; i++)
    {
        r.val[i + len - n] = b.val[i];
    }
    return r;
}
>> *)
Definition vextq_u16 : func := mkfunc "vextq_u16" (tvec U16 8)
  [("a", tvec U16 8); ("b", tvec U16 8); ("n", TScal I32)]
  (
    SDecl (tvec U16 8) "r" None ;;
    SDecl (TScal I32) "len" (Some (lit 8)%C) ;;
    SIf (EOrElse ("n" > (lit 8)) ("n" < (lit 0)))%C (
      SAbort
    ) (
      SSkip
    ) ;;
    SFor I32 "i" (lit 0)%C ("i" < ("len" - "n"))%C ("i" + (lit 1))%C (
      SAssign "r" [EVar "i"]%C
        ("a" @ ("i" + "n"))%C
    ) ;;
    SFor I32 "i" (lit 0)%C ("i" < "n")%C ("i" + (lit 1))%C (
      SAssign "r" [("i" + "len") - "n"]%C
        ("b" @ "i")%C
    ) ;;
    SReturn ("r")%C
  )%CS.

(** neon_sim.cpp:4826-4834
<<
uint8x16_t vcgtq_u8(uint8x16_t N, uint8x16_t M)
{
    uint8x16_t D;
    for (int i = 0; i < 16; i++)
    {
        D.val[i] = N.val[i] > M.val[i] ? 0xFF : 0;
    }
    return D;
}
>> *)
Definition vcgtq_u8 : func := mkfunc "vcgtq_u8" (tvec U8 16)
  [("N", tvec U8 16); ("M", tvec U8 16)]
  (
    SDecl (tvec U8 16) "D" None ;;
    SFor I32 "i" (lit 0)%C ("i" < (lit 16))%C ("i" + (lit 1))%C (
      SAssign "D" [EVar "i"]%C
        (ECond (("N" @ "i") > ("M" @ "i")) (lit 255) (lit 0))%C
    ) ;;
    SReturn ("D")%C
  )%CS.

(** neon_sim.cpp:4840-4860
<<
uint8x16_t vbslq_u8(uint8x16_t mask, uint8x16_t src1, uint8x16_t src2)
{
    uint8x16_t r;
    for (int i = 0; i < 16; i++)
    {
        r.val[i] =  0;
        for (int j = 0; j < 8; j++)
        {
            uint8_t x = (1 << (8 - 1 - j));
            if ((mask.val[i] & x) == x)
            {
                r.val[i] += (src1.val[i] & x);
            }
            else
            {
                r.val[i] += (src2.val[i] & x);
            }
        }
    }
    return r;
}
>> *)
Definition vbslq_u8 : func := mkfunc "vbslq_u8" (tvec U8 16)
  [("mask", tvec U8 16); ("src1", tvec U8 16); ("src2", tvec U8 16)]
  (
    SDecl (tvec U8 16) "r" None ;;
    SFor I32 "i" (lit 0)%C ("i" < (lit 16))%C ("i" + (lit 1))%C (
      SAssign "r" [EVar "i"]%C
        (lit 0)%C ;;
      SFor I32 "j" (lit 0)%C ("j" < (lit 8))%C ("j" + (lit 1))%C (
        SDecl (TScal U8) "x" (Some ((lit 1) << (((lit 8) - (lit 1)) - "j"))%C) ;;
        SIf ((("mask" @ "i") & "x") == "x")%C (
          SAssign "r" [EVar "i"]%C
            (("r" @ "i") + (("src1" @ "i") & "x"))%C
        ) (
          SAssign "r" [EVar "i"]%C
            (("r" @ "i") + (("src2" @ "i") & "x"))%C
        )
      )
    ) ;;
    SReturn ("r")%C
  )%CS.

(** neon_sim.cpp:4863-4879
<<
uint8x8_t vtbl1_u8(uint8x8_t a, uint8x8_t idx)
{
    uint8x8_t r;
    for (int i = 0; i < 8; i++)
    {
        int index = idx.val[i];
        if (index < 0 || index > 7)
        {
            r.val[i] =  0;
        }
        else
        {
            r.val[i] =  a.val[index];
        }
    }
    return r;
}
>> *)
Definition vtbl1_u8 : func := mkfunc "vtbl1_u8" (tvec U8 8)
  [("a", tvec U8 8); ("idx", tvec U8 8)]
  (
    SDecl (tvec U8 8) "r" None ;;
    SFor I32 "i" (lit 0)%C ("i" < (lit 8))%C ("i" + (lit 1))%C (
      SDecl (TScal I32) "index" (Some ("idx" @ "i")%C) ;;
      SIf (EOrElse ("index" < (lit 0)) ("index" > (lit 7)))%C (
        SAssign "r" [EVar "i"]%C
          (lit 0)%C
      ) (
        SAssign "r" [EVar "i"]%C
          ("a" @ "index")%C
      )
    ) ;;
    SReturn ("r")%C
  )%CS.

(** neon_sim.cpp:4882-4910
<<
uint8x8_t vtbl4_u8(uint8x8x4_t a, uint8x8_t idx)
{
    uint8x8_t r;
    for (int i = 0; i < 8; i++)
    {
        int index = idx.val[i];
        if (index < 0 || index > 31)
        {
            r.val[i] =  0;
        }
        else if (index < 8)
        { // [0, 7]
            r.val[i] =  a.val[0].val[index];
        }
        else if (index < 16)
        { // [8, 15]
            r.val[i] =  a.val[1].val[index - 8];
        }
        else if (index < 24)
        { // [16, 23]
            r.val[i] =  a.val[2].val[index - 16];
        }
        else
        { // [24, 31]
            r.val[i] =  a.val[3].val[index - 24];
        }
    }
    return r;
}
>> *)
Definition vtbl4_u8 : func := mkfunc "vtbl4_u8" (tvec U8 8)
  [("a", tvecs 4 U8 8); ("idx", tvec U8 8)]
  (
    SDecl (tvec U8 8) "r" None ;;
    SFor I32 "i" (lit 0)%C ("i" < (lit 8))%C ("i" + (lit 1))%C (
      SDecl (TScal I32) "index" (Some ("idx" @ "i")%C) ;;
      SIf (EOrElse ("index" < (lit 0)) ("index" > (lit 31)))%C (
        SAssign "r" [EVar "i"]%C
          (lit 0)%C
      ) (
        SIf ("index" < (lit 8))%C (
          SAssign "r" [EVar "i"]%C
            ("a" @ (lit 0) @ "index")%C
        ) (
          SIf ("index" < (lit 16))%C (
            SAssign "r" [EVar "i"]%C
              ("a" @ (lit 1) @ ("index" - (lit 8)))%C
          ) (
            SIf ("index" < (lit 24))%C (
              SAssign "r" [EVar "i"]%C
                ("a" @ (lit 2) @ ("index" - (lit 16)))%C
            ) (
              SAssign "r" [EVar "i"]%C
                ("a" @ (lit 3) @ ("index" - (lit 24)))%C
            )
          )
        )
      )
    ) ;;
    SReturn ("r")%C
  )%CS.

(** neon_sim.cpp:4913-4933
<<
uint8x8_t vtbl2_u8(uint8x8x2_t a, uint8x8_t idx)
{
    uint8x8_t r;
    for (int i = 0; i < 8; i++)
    {
        int index = idx.val[i];
        if (index < 0 || index > 15)
        {
            r.val[i] =  0;
        }
        else if (index < 8)
        {
            r.val[i] =  a.val[0].val[index];
        }
        else
        { // index in [8, 15]
            r.val[i] =  a.val[1].val[index - 8];
        }
    }
    return r;
}
>> *)
Definition vtbl2_u8 : func := mkfunc "vtbl2_u8" (tvec U8 8)
  [("a", tvecs 2 U8 8); ("idx", tvec U8 8)]
  (
    SDecl (tvec U8 8) "r" None ;;
    SFor I32 "i" (lit 0)%C ("i" < (lit 8))%C ("i" + (lit 1))%C (
      SDecl (TScal I32) "index" (Some ("idx" @ "i")%C) ;;
      SIf (EOrElse ("index" < (lit 0)) ("index" > (lit 15)))%C (
        SAssign "r" [EVar "i"]%C
          (lit 0)%C
      ) (
        SIf ("index" < (lit 8))%C (
          SAssign "r" [EVar "i"]%C
            ("a" @ (lit 0) @ "index")%C
        ) (
          SAssign "r" [EVar "i"]%C
            ("a" @ (lit 1) @ ("index" - (lit 8)))%C
        )
      )
    ) ;;
    SReturn ("r")%C
  )%CS.
