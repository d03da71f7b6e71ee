(** Generated by tools/translate.py from neon_sim.cpp: bitwise logic.
    The C text is quoted above each definition (double quotes shown as single). *)
From Coq Require Import ZArith List String.
From Verif Require Import Types Syntax.
Import ListNotations.
Open Scope Z_scope.
Local Open Scope string_scope.

(** neon_sim.cpp:4936-4944
<<
int8x8_t vand_s8(int8x8_t a, int8x8_t b)
{
    int8x8_t r;
    for (int i = 0; i < 8; i++)
    {
        r.val[i] =  a.val[i] & b.val[i];
    }
    return r;
}
>> *)
Definition vand_s8 : func := mkfunc "vand_s8" (tvec I8 8)
  [("a", tvec I8 8); ("b", tvec I8 8)]
  (
    SDecl (tvec I8 8) "r" None ;;
    SFor I32 "i" (lit 0)%C ("i" < (lit 8))%C ("i" + (lit 1))%C (
      SAssign "r" [EVar "i"]%C
        (("a" @ "i") & ("b" @ "i"))%C
    ) ;;
    SReturn ("r")%C
  )%CS.

(** neon_sim.cpp:4946-4954
<<
int16x4_t vand_s16(int16x4_t a, int16x4_t b)
{
    int16x4_t r;
    for (int i = 0; i < 4; i++)
    {
        r.val[i] =  a.val[i] & b.val[i];
    }
    return r;
}
>> *)
Definition vand_s16 : func := mkfunc "vand_s16" (tvec I16 4)
  [("a", tvec I16 4); ("b", tvec I16 4)]
  (
    SDecl (tvec I16 4) "r" None ;;
    SFor I32 "i" (lit 0)%C ("i" < (lit 4))%C ("i" + (lit 1))%C (
      SAssign "r" [EVar "i"]%C
        (("a" @ "i") & ("b" @ "i"))%C
    ) ;;
    SReturn ("r")%C
  )%CS.

(** neon_sim.cpp:4956-4964
<<
int32x2_t vand_s32(int32x2_t a, int32x2_t b)
{
    int32x2_t r;
    for (int i = 0; i < 2; i++)
    {
        r.val[i] =  a.val[i] & b.val[i];
    }
    return r;
}
>> *)
Definition vand_s32 : func := mkfunc "vand_s32" (tvec I32 2)
  [("a", tvec I32 2); ("b", tvec I32 2)]
  (
    SDecl (tvec I32 2) "r" None ;;
    SFor I32 "i" (lit 0)%C ("i" < (lit 2))%C ("i" + (lit 1))%C (
      SAssign "r" [EVar "i"]%C
        (("a" @ "i") & ("b" @ "i"))%C
    ) ;;
    SReturn ("r")%C
  )%CS.

(** neon_sim.cpp:4966-4974
<<
int64x1_t vand_s64(int64x1_t a, int64x1_t b)
{
    int64x1_t r;
    for (int i = 0; i < 1; i++)
    {
        r.val[i] =  a.val[i] & b.val[i];
    }
    return r;
}
>> *)
Definition vand_s64 : func := mkfunc "vand_s64" (tvec I64 1)
  [("a", tvec I64 1); ("b", tvec I64 1)]
  (
    SDecl (tvec I64 1) "r" None ;;
    SFor I32 "i" (lit 0)%C ("i" < (lit 1))%C ("i" + (lit 1))%C (
      SAssign "r" [EVar "i"]%C
        (("a" @ "i") & ("b" @ "i"))%C
    ) ;;
    SReturn ("r")%C
  )%CS.

(** neon_sim.cpp:4976-4984
<<
uint8x8_t vand_u8(uint8x8_t a, uint8x8_t b)
{
    uint8x8_t r;
    for (int i = 0; i < 8; i++)
    {
        r.val[i] =  a.val[i] & b.val[i];
    }
    return r;
}
>> *)
Definition vand_u8 : func := mkfunc "vand_u8" (tvec U8 8)
  [("a", tvec U8 8); ("b", tvec U8 8)]
  (
    SDecl (tvec U8 8) "r" None ;;
    SFor I32 "i" (lit 0)%C ("i" < (lit 8))%C ("i" + (lit 1))%C (
      SAssign "r" [EVar "i"]%C
        (("a" @ "i") & ("b" @ "i"))%C
    ) ;;
    SReturn ("r")%C
  )%CS.

(** neon_sim.cpp:4986-4994
<<
uint16x4_t vand_u16(uint16x4_t a, uint16x4_t b)
{
    uint16x4_t r;
    for (int i = 0; i < 4; i++)
    {
        r.val[i] =  a.val[i] & b.val[i];
    }
    return r;
}
>> *)
Definition vand_u16 : func := mkfunc "vand_u16" (tvec U16 4)
  [("a", tvec U16 4); ("b", tvec U16 4)]
  (
    SDecl (tvec U16 4) "r" None ;;
    SFor I32 "i" (lit 0)%C ("i" < (lit 4))%C ("i" + (lit 1))%C (
      SAssign "r" [EVar "i"]%C
        (("a" @ "i") & ("b" @ "i"))%C
    ) ;;
    SReturn ("r")%C
  )%CS.

(** neon_sim.cpp:4996-5004
<<
uint32x2_t vand_u32(uint32x2_t a, uint32x2_t b)
{
    uint32x2_t r;
    for (int i = 0; i < 2; i++)
    {
        r.val[i] =  a.val[i] & b.val[i];
    }
    return r;
}
>> *)
Definition vand_u32 : func := mkfunc "vand_u32" (tvec U32 2)
  [("a", tvec U32 2); ("b", tvec U32 2)]
  (
    SDecl (tvec U32 2) "r" None ;;
    SFor I32 "i" (lit 0)%C ("i" < (lit 2))%C ("i" + (lit 1))%C (
      SAssign "r" [EVar "i"]%C
        (("a" @ "i") & ("b" @ "i"))%C
    ) ;;
    SReturn ("r")%C
  )%CS.

(** neon_sim.cpp:5006-5014
<<
uint64x1_t vand_u64(uint64x1_t a, uint64x1_t b)
{
    uint64x1_t r;
    for (int i = 0; i < 1; i++)
    {
        r.val[i] =  a.val[i] & b.val[i];
    }
    return r;
}
>> *)
Definition vand_u64 : func := mkfunc "vand_u64" (tvec U64 1)
  [("a", tvec U64 1); ("b", tvec U64 1)]
  (
    SDecl (tvec U64 1) "r" None ;;
    SFor I32 "i" (lit 0)%C ("i" < (lit 1))%C ("i" + (lit 1))%C (
      SAssign "r" [EVar "i"]%C
        (("a" @ "i") & ("b" @ "i"))%C
    ) ;;
    SReturn ("r")%C
  )%CS.

(** neon_sim.cpp:5017-5025
<<
int8x16_t vandq_s8(int8x16_t a, int8x16_t b)
{
    int8x16_t r;
    for (int i = 0; i < 16; i++)
    {
        r.val[i] =  a.val[i] & b.val[i];
    }
    return r;
}
>> *)
Definition vandq_s8 : func := mkfunc "vandq_s8" (tvec I8 16)
  [("a", tvec I8 16); ("b", tvec I8 16)]
  (
    SDecl (tvec I8 16) "r" None ;;
    SFor I32 "i" (lit 0)%C ("i" < (lit 16))%C ("i" + (lit 1))%C (
      SAssign "r" [EVar "i"]%C
        (("a" @ "i") & ("b" @ "i"))%C
    ) ;;
    SReturn ("r")%C
  )%CS.

(** neon_sim.cpp:5027-5035
<<
int16x8_t vandq_s16(int16x8_t a, int16x8_t b)
{
    int16x8_t r;
    for (int i = 0; i < 8; i++)
    {
        r.val[i] =  a.val[i] & b.val[i];
    }
    return r;
}
>> *)
Definition vandq_s16 : func := mkfunc "vandq_s16" (tvec I16 8)
  [("a", tvec I16 8); ("b", tvec I16 8)]
  (
    SDecl (tvec I16 8) "r" None ;;
    SFor I32 "i" (lit 0)%C ("i" < (lit 8))%C ("i" + (lit 1))%C (
      SAssign "r" [EVar "i"]%C
        (("a" @ "i") & ("b" @ "i"))%C
    ) ;;
    SReturn ("r")%C
  )%CS.

(** neon_sim.cpp:5037-5045
<<
int32x4_t vandq_s32(int32x4_t a, int32x4_t b)
{
    int32x4_t r;
    for (int i = 0; i < 4; i++)
    {
        r.val[i] =  a.val[i] & b.val[i];
    }
    return r;
}
>> *)
Definition vandq_s32 : func := mkfunc "vandq_s32" (tvec I32 4)
  [("a", tvec I32 4); ("b", tvec I32 4)]
  (
    SDecl (tvec I32 4) "r" None ;;
    SFor I32 "i" (lit 0)%C ("i" < (lit 4))%C ("i" + (lit 1))%C (
      SAssign "r" [EVar "i"]%C
        (("a" @ "i") & ("b" @ "i"))%C
    ) ;;
    SReturn ("r")%C
  )%CS.

(** neon_sim.cpp:5047-5055
<<
int64x2_t vandq_s64(int64x2_t a, int64x2_t b)
{
    int64x2_t r;
    for (int i = 0; i < 2; i++)
    {
        r.val[i] =  a.val[i] & b.val[i];
    }
    return r;
}
>> *)
Definition vandq_s64 : func := mkfunc "vandq_s64" (tvec I64 2)
  [("a", tvec I64 2); ("b", tvec I64 2)]
  (
    SDecl (tvec I64 2) "r" None ;;
    SFor I32 "i" (lit 0)%C ("i" < (lit 2))%C ("i" + (lit 1))%C (
      SAssign "r" [EVar "i"]%C
        (("a" @ "i") & ("b" @ "i"))%C
    ) ;;
    SReturn ("r")%C
  )%CS.

(** neon_sim.cpp:5057-5065
<<
uint8x16_t vandq_u8(uint8x16_t a, uint8x16_t b)
{
    uint8x16_t r;
    for (int i = 0; i < 16; i++)
    {
        r.val[i] =  a.val[i] & b.val[i];
    }
    return r;
}
>> *)
Definition vandq_u8 : func := mkfunc "vandq_u8" (tvec U8 16)
  [("a", tvec U8 16); ("b", tvec U8 16)]
  (
    SDecl (tvec U8 16) "r" None ;;
    SFor I32 "i" (lit 0)%C ("i" < (lit 16))%C ("i" + (lit 1))%C (
      SAssign "r" [EVar "i"]%C
        (("a" @ "i") & ("b" @ "i"))%C
    ) ;;
    SReturn ("r")%C
  )%CS.

(** neon_sim.cpp:5067-5075
<<
uint16x8_t vandq_u16(uint16x8_t a, uint16x8_t b)
{
    uint16x8_t r;
    for (int i = 0; i < 8; i++)
    {
        r.val[i] =  a.val[i] & b.val[i];
    }
    return r;
}
>> *)
Definition vandq_u16 : func := mkfunc "vandq_u16" (tvec U16 8)
  [("a", tvec U16 8); ("b", tvec U16 8)]
  (
    SDecl (tvec U16 8) "r" None ;;
    SFor I32 "i" (lit 0)%C ("i" < (lit 8))%C ("i" + (lit 1))%C (
      SAssign "r" [EVar "i"]%C
        (("a" @ "i") & ("b" @ "i"))%C
    ) ;;
    SReturn ("r")%C
  )%CS.

(** neon_sim.cpp:5077-5085
<<
uint32x4_t vandq_u32(uint32x4_t a, uint32x4_t b)
{
    uint32x4_t r;
    for (int i = 0; i < 4; i++)
    {
        r.val[i] =  a.val[i] & b.val[i];
    }
    return r;
}
>> *)
Definition vandq_u32 : func := mkfunc "vandq_u32" (tvec U32 4)
  [("a", tvec U32 4); ("b", tvec U32 4)]
  (
    SDecl (tvec U32 4) "r" None ;;
    SFor I32 "i" (lit 0)%C ("i" < (lit 4))%C ("i" + (lit 1))%C (
      SAssign "r" [EVar "i"]%C
        (("a" @ "i") & ("b" @ "i"))%C
    ) ;;
    SReturn ("r")%C
  )%CS.

(** neon_sim.cpp:5087-5095
<<
uint64x2_t vandq_u64(uint64x2_t a, uint64x2_t b)
{
    uint64x2_t r;
    for (int i = 0; i < 2; i++)
    {
        r.val[i] =  a.val[i] & b.val[i];
    }
    return r;
}
>> *)
Definition vandq_u64 : func := mkfunc "vandq_u64" (tvec U64 2)
  [("a", tvec U64 2); ("b", tvec U64 2)]
  (
    SDecl (tvec U64 2) "r" None ;;
    SFor I32 "i" (lit 0)%C ("i" < (lit 2))%C ("i" + (lit 1))%C (
      SAssign "r" [EVar "i"]%C
        (("a" @ "i") & ("b" @ "i"))%C
    ) ;;
    SReturn ("r")%C
  )%CS.

(** neon_sim.cpp:5098-5106
<<
int8x8_t vorr_s8(int8x8_t a, int8x8_t b)
{
    int8x8_t r;
    for (int i = 0; i < 8; i++)
    {
        r.val[i] =  a.val[i] | b.val[i];
    }
    return r;
}
>> *)
Definition vorr_s8 : func := mkfunc "vorr_s8" (tvec I8 8)
  [("a", tvec I8 8); ("b", tvec I8 8)]
  (
    SDecl (tvec I8 8) "r" None ;;
    SFor I32 "i" (lit 0)%C ("i" < (lit 8))%C ("i" + (lit 1))%C (
      SAssign "r" [EVar "i"]%C
        (("a" @ "i") |. ("b" @ "i"))%C
    ) ;;
    SReturn ("r")%C
  )%CS.

(** neon_sim.cpp:5108-5116
<<
int16x4_t vorr_s16(int16x4_t a, int16x4_t b)
{
    int16x4_t r;
    for (int i = 0; i < 4; i++)
    {
        r.val[i] =  a.val[i] | b.val[i];
    }
    return r;
}
>> *)
Definition vorr_s16 : func := mkfunc "vorr_s16" (tvec I16 4)
  [("a", tvec I16 4); ("b", tvec I16 4)]
  (
    SDecl (tvec I16 4) "r" None ;;
    SFor I32 "i" (lit 0)%C ("i" < (lit 4))%C ("i" + (lit 1))%C (
      SAssign "r" [EVar "i"]%C
        (("a" @ "i") |. ("b" @ "i"))%C
    ) ;;
    SReturn ("r")%C
  )%CS.

(** neon_sim.cpp:5118-5126
<<
int32x2_t vorr_s32(int32x2_t a, int32x2_t b)
{
    int32x2_t r;
    for (int i = 0; i < 2; i++)
    {
        r.val[i] =  a.val[i] | b.val[i];
    }
    return r;
}
>> *)
Definition vorr_s32 : func := mkfunc "vorr_s32" (tvec I32 2)
  [("a", tvec I32 2); ("b", tvec I32 2)]
  (
    SDecl (tvec I32 2) "r" None ;;
    SFor I32 "i" (lit 0)%C ("i" < (lit 2))%C ("i" + (lit 1))%C (
      SAssign "r" [EVar "i"]%C
        (("a" @ "i") |. ("b" @ "i"))%C
    ) ;;
    SReturn ("r")%C
  )%CS.

(** neon_sim.cpp:5128-5136
<<
int64x1_t vorr_s64(int64x1_t a, int64x1_t b)
{
    int64x1_t r;
    for (int i = 0; i < 1; i++)
    {
        r.val[i] =  a.val[i] | b.val[i];
    }
    return r;
}
>> *)
Definition vorr_s64 : func := mkfunc "vorr_s64" (tvec I64 1)
  [("a", tvec I64 1); ("b", tvec I64 1)]
  (
    SDecl (tvec I64 1) "r" None ;;
    SFor I32 "i" (lit 0)%C ("i" < (lit 1))%C ("i" + (lit 1))%C (
      SAssign "r" [EVar "i"]%C
        (("a" @ "i") |. ("b" @ "i"))%C
    ) ;;
    SReturn ("r")%C
  )%CS.

(** neon_sim.cpp:5138-5146
<<
uint8x8_t vorr_u8(uint8x8_t a, uint8x8_t b)
{
    uint8x8_t r;
    for (int i = 0; i < 8; i++)
    {
        r.val[i] =  a.val[i] | b.val[i];
    }
    return r;
}
>> *)
Definition vorr_u8 : func := mkfunc "vorr_u8" (tvec U8 8)
  [("a", tvec U8 8); ("b", tvec U8 8)]
  (
    SDecl (tvec U8 8) "r" None ;;
    SFor I32 "i" (lit 0)%C ("i" < (lit 8))%C ("i" + (lit 1))%C (
      SAssign "r" [EVar "i"]%C
        (("a" @ "i") |. ("b" @ "i"))%C
    ) ;;
    SReturn ("r")%C
  )%CS.

(** neon_sim.cpp:5148-5156
<<
uint16x4_t vorr_u16(uint16x4_t a, uint16x4_t b)
{
    uint16x4_t r;
    for (int i = 0; i < 4; i++)
    {
        r.val[i] =  a.val[i] | b.val[i];
    }
    return r;
}
>> *)
Definition vorr_u16 : func := mkfunc "vorr_u16" (tvec U16 4)
  [("a", tvec U16 4); ("b", tvec U16 4)]
  (
    SDecl (tvec U16 4) "r" None ;;
    SFor I32 "i" (lit 0)%C ("i" < (lit 4))%C ("i" + (lit 1))%C (
      SAssign "r" [EVar "i"]%C
        (("a" @ "i") |. ("b" @ "i"))%C
    ) ;;
    SReturn ("r")%C
  )%CS.

(** neon_sim.cpp:5158-5166
<<
uint32x2_t vorr_u32(uint32x2_t a, uint32x2_t b)
{
    uint32x2_t r;
    for (int i = 0; i < 2; i++)
    {
        r.val[i] =  a.val[i] | b.val[i];
    }
    return r;
}
>> *)
Definition vorr_u32 : func := mkfunc "vorr_u32" (tvec U32 2)
  [("a", tvec U32 2); ("b", tvec U32 2)]
  (
    SDecl (tvec U32 2) "r" None ;;
    SFor I32 "i" (lit 0)%C ("i" < (lit 2))%C ("i" + (lit 1))%C (
      SAssign "r" [EVar "i"]%C
        (("a" @ "i") |. ("b" @ "i"))%C
    ) ;;
    SReturn ("r")%C
  )%CS.

(** neon_sim.cpp:5168-5176
<<
uint64x1_t vorr_u64(uint64x1_t a, uint64x1_t b)
{
    uint64x1_t r;
    for (int i = 0; i < 1; i++)
    {
        r.val[i] =  a.val[i] | b.val[i];
    }
    return r;
}
>> *)
Definition vorr_u64 : func := mkfunc "vorr_u64" (tvec U64 1)
  [("a", tvec U64 1); ("b", tvec U64 1)]
  (
    SDecl (tvec U64 1) "r" None ;;
    SFor I32 "i" (lit 0)%C ("i" < (lit 1))%C ("i" + (lit 1))%C (
      SAssign "r" [EVar "i"]%C
        (("a" @ "i") |. ("b" @ "i"))%C
    ) ;;
    SReturn ("r")%C
  )%CS.

(** neon_sim.cpp:5179-5187
<<
int8x16_t vorrq_s8(int8x16_t a, int8x16_t b)
{
    int8x16_t r;
    for (int i = 0; i < 16; i++)
    {
        r.val[i] =  a.val[i] | b.val[i];
    }
    return r;
}
>> *)
Definition vorrq_s8 : func := mkfunc "vorrq_s8" (tvec I8 16)
  [("a", tvec I8 16); ("b", tvec I8 16)]
  (
    SDecl (tvec I8 16) "r" None ;;
    SFor I32 "i" (lit 0)%C ("i" < (lit 16))%C ("i" + (lit 1))%C (
      SAssign "r" [EVar "i"]%C
        (("a" @ "i") |. ("b" @ "i"))%C
    ) ;;
    SReturn ("r")%C
  )%CS.

(** neon_sim.cpp:5189-5197
<<
int16x8_t vorrq_s16(int16x8_t a, int16x8_t b)
{
    int16x8_t r;
    for (int i = 0; i < 8; i++)
    {
        r.val[i] =  a.val[i] | b.val[i];
    }
    return r;
}
>> *)
Definition vorrq_s16 : func := mkfunc "vorrq_s16" (tvec I16 8)
  [("a", tvec I16 8); ("b", tvec I16 8)]
  (
    SDecl (tvec I16 8) "r" None ;;
    SFor I32 "i" (lit 0)%C ("i" < (lit 8))%C ("i" + (lit 1))%C (
      SAssign "r" [EVar "i"]%C
        (("a" @ "i") |. ("b" @ "i"))%C
    ) ;;
    SReturn ("r")%C
  )%CS.

(** neon_sim.cpp:5199-5207
<<
int32x4_t vorrq_s32(int32x4_t a, int32x4_t b)
{
    int32x4_t r;
    for (int i = 0; i < 4; i++)
    {
        r.val[i] =  a.val[i] | b.val[i];
    }
    return r;
}
>> *)
Definition vorrq_s32 : func := mkfunc "vorrq_s32" (tvec I32 4)
  [("a", tvec I32 4); ("b", tvec I32 4)]
  (
    SDecl (tvec I32 4) "r" None ;;
    SFor I32 "i" (lit 0)%C ("i" < (lit 4))%C ("i" + (lit 1))%C (
      SAssign "r" [EVar "i"]%C
        (("a" @ "i") |. ("b" @ "i"))%C
    ) ;;
    SReturn ("r")%C
  )%CS.

(** neon_sim.cpp:5209-5217
<<
int64x2_t vorrq_s64(int64x2_t a, int64x2_t b)
{
    int64x2_t r;
    for (int i = 0; i < 2; i++)
    {
        r.val[i] =  a.val[i] | b.val[i];
    }
    return r;
}
>> *)
Definition vorrq_s64 : func := mkfunc "vorrq_s64" (tvec I64 2)
  [("a", tvec I64 2); ("b", tvec I64 2)]
  (
    SDecl (tvec I64 2) "r" None ;;
    SFor I32 "i" (lit 0)%C ("i" < (lit 2))%C ("i" + (lit 1))%C (
      SAssign "r" [EVar "i"]%C
        (("a" @ "i") |. ("b" @ "i"))%C
    ) ;;
    SReturn ("r")%C
  )%CS.

(** neon_sim.cpp:5219-5227
<<
uint8x16_t vorrq_u8(uint8x16_t a, uint8x16_t b)
{
    uint8x16_t r;
    for (int i = 0; i < 16; i++)
    {
        r.val[i] =  a.val[i] | b.val[i];
    }
    return r;
}
>> *)
Definition vorrq_u8 : func := mkfunc "vorrq_u8" (tvec U8 16)
  [("a", tvec U8 16); ("b", tvec U8 16)]
  (
    SDecl (tvec U8 16) "r" None ;;
    SFor I32 "i" (lit 0)%C ("i" < (lit 16))%C ("i" + (lit 1))%C (
      SAssign "r" [EVar "i"]%C
        (("a" @ "i") |. ("b" @ "i"))%C
    ) ;;
    SReturn ("r")%C
  )%CS.

(** neon_sim.cpp:5229-5237
<<
uint16x8_t vorrq_u16(uint16x8_t a, uint16x8_t b)
{
    uint16x8_t r;
    for (int i = 0; i < 8; i++)
    {
        r.val[i] =  a.val[i] | b.val[i];
    }
    return r;
}
>> *)
Definition vorrq_u16 : func := mkfunc "vorrq_u16" (tvec U16 8)
  [("a", tvec U16 8); ("b", tvec U16 8)]
  (
    SDecl (tvec U16 8) "r" None ;;
    SFor I32 "i" (lit 0)%C ("i" < (lit 8))%C ("i" + (lit 1))%C (
      SAssign "r" [EVar "i"]%C
        (("a" @ "i") |. ("b" @ "i"))%C
    ) ;;
    SReturn ("r")%C
  )%CS.

(** neon_sim.cpp:5239-5247
<<
uint32x4_t vorrq_u32(uint32x4_t a, uint32x4_t b)
{
    uint32x4_t r;
    for (int i = 0; i < 4; i++)
    {
        r.val[i] =  a.val[i] | b.val[i];
    }
    return r;
}
>> *)
Definition vorrq_u32 : func := mkfunc "vorrq_u32" (tvec U32 4)
  [("a", tvec U32 4); ("b", tvec U32 4)]
  (
    SDecl (tvec U32 4) "r" None ;;
    SFor I32 "i" (lit 0)%C ("i" < (lit 4))%C ("i" + (lit 1))%C (
      SAssign "r" [EVar "i"]%C
        (("a" @ "i") |. ("b" @ "i"))%C
    ) ;;
    SReturn ("r")%C
  )%CS.

(** neon_sim.cpp:5249-5257
<<
uint64x2_t vorrq_u64(uint64x2_t a, uint64x2_t b)
{
    uint64x2_t r;
    for (int i = 0; i < 2; i++)
    {
        r.val[i] =  a.val[i] | b.val[i];
    }
    return r;
}
>> *)
Definition vorrq_u64 : func := mkfunc "vorrq_u64" (tvec U64 2)
  [("a", tvec U64 2); ("b", tvec U64 2)]
  (
    SDecl (tvec U64 2) "r" None ;;
    SFor I32 "i" (lit 0)%C ("i" < (lit 2))%C ("i" + (lit 1))%C (
      SAssign "r" [EVar "i"]%C
        (("a" @ "i") |. ("b" @ "i"))%C
    ) ;;
    SReturn ("r")%C
  )%CS.

(** neon_sim.cpp:5260-5268
<<
int8x8_t veor_s8(int8x8_t a, int8x8_t b)
{
    int8x8_t r;
    for (int i = 0; i < 8; i++)
    {
        r.val[i] =  a.val[i] ^ b.val[i];
    }
    return r;
}
>> *)
Definition veor_s8 : func := mkfunc "veor_s8" (tvec I8 8)
  [("a", tvec I8 8); ("b", tvec I8 8)]
  (
    SDecl (tvec I8 8) "r" None ;;
    SFor I32 "i" (lit 0)%C ("i" < (lit 8))%C ("i" + (lit 1))%C (
      SAssign "r" [EVar "i"]%C
        (("a" @ "i") ^. ("b" @ "i"))%C
    ) ;;
    SReturn ("r")%C
  )%CS.

(** neon_sim.cpp:5270-5278
<<
int16x4_t veor_s16(int16x4_t a, int16x4_t b)
{
    int16x4_t r;
    for (int i = 0; i < 4; i++)
    {
        r.val[i] =  a.val[i] ^ b.val[i];
    }
    return r;
}
>> *)
Definition veor_s16 : func := mkfunc "veor_s16" (tvec I16 4)
  [("a", tvec I16 4); ("b", tvec I16 4)]
  (
    SDecl (tvec I16 4) "r" None ;;
    SFor I32 "i" (lit 0)%C ("i" < (lit 4))%C ("i" + (lit 1))%C (
      SAssign "r" [EVar "i"]%C
        (("a" @ "i") ^. ("b" @ "i"))%C
    ) ;;
    SReturn ("r")%C
  )%CS.

(** neon_sim.cpp:5280-5288
<<
int32x2_t veor_s32(int32x2_t a, int32x2_t b)
{
    int32x2_t r;
    for (int i = 0; i < 2; i++)
    {
        r.val[i] =  a.val[i] ^ b.val[i];
    }
    return r;
}
>> *)
Definition veor_s32 : func := mkfunc "veor_s32" (tvec I32 2)
  [("a", tvec I32 2); ("b", tvec I32 2)]
  (
    SDecl (tvec I32 2) "r" None ;;
    SFor I32 "i" (lit 0)%C ("i" < (lit 2))%C ("i" + (lit 1))%C (
      SAssign "r" [EVar "i"]%C
        (("a" @ "i") ^. ("b" @ "i"))%C
    ) ;;
    SReturn ("r")%C
  )%CS.

(** neon_sim.cpp:5290-5298
<<
int64x1_t veor_s64(int64x1_t a, int64x1_t b)
{
    int64x1_t r;
    for (int i = 0; i < 1; i++)
    {
        r.val[i] =  a.val[i] ^ b.val[i];
    }
    return r;
}
>> *)
Definition veor_s64 : func := mkfunc "veor_s64" (tvec I64 1)
  [("a", tvec I64 1); ("b", tvec I64 1)]
  (
    SDecl (tvec I64 1) "r" None ;;
    SFor I32 "i" (lit 0)%C ("i" < (lit 1))%C ("i" + (lit 1))%C (
      SAssign "r" [EVar "i"]%C
        (("a" @ "i") ^. ("b" @ "i"))%C
    ) ;;
    SReturn ("r")%C
  )%CS.

(** neon_sim.cpp:5300-5308
<<
uint8x8_t veor_u8(uint8x8_t a, uint8x8_t b)
{
    uint8x8_t r;
    for (int i = 0; i < 8; i++)
    {
        r.val[i] =  a.val[i] ^ b.val[i];
    }
    return r;
}
>> *)
Definition veor_u8 : func := mkfunc "veor_u8" (tvec U8 8)
  [("a", tvec U8 8); ("b", tvec U8 8)]
  (
    SDecl (tvec U8 8) "r" None ;;
    SFor I32 "i" (lit 0)%C ("i" < (lit 8))%C ("i" + (lit 1))%C (
      SAssign "r" [EVar "i"]%C
        (("a" @ "i") ^. ("b" @ "i"))%C
    ) ;;
    SReturn ("r")%C
  )%CS.

(** neon_sim.cpp:5310-5318
<<
uint16x4_t veor_u16(uint16x4_t a, uint16x4_t b)
{
    uint16x4_t r;
    for (int i = 0; i < 4; i++)
    {
        r.val[i] =  a.val[i] ^ b.val[i];
    }
    return r;
}
>> *)
Definition veor_u16 : func := mkfunc "veor_u16" (tvec U16 4)
  [("a", tvec U16 4); ("b", tvec U16 4)]
  (
    SDecl (tvec U16 4) "r" None ;;
    SFor I32 "i" (lit 0)%C ("i" < (lit 4))%C ("i" + (lit 1))%C (
      SAssign "r" [EVar "i"]%C
        (("a" @ "i") ^. ("b" @ "i"))%C
    ) ;;
    SReturn ("r")%C
  )%CS.

(** neon_sim.cpp:5320-5328
<<
uint32x2_t ver_u32(uint32x2_t a, uint32x2_t b)
{
    uint32x2_t r;
    for (int i = 0; i < 2; i++)
    {
        r.val[i] =  a.val[i] ^ b.val[i];
    }
    return r;
}
>> *)
Definition ver_u32 : func := mkfunc "ver_u32" (tvec U32 2)
  [("a", tvec U32 2); ("b", tvec U32 2)]
  (
    SDecl (tvec U32 2) "r" None ;;
    SFor I32 "i" (lit 0)%C ("i" < (lit 2))%C ("i" + (lit 1))%C (
      SAssign "r" [EVar "i"]%C
        (("a" @ "i") ^. ("b" @ "i"))%C
    ) ;;
    SReturn ("r")%C
  )%CS.

(** neon_sim.cpp:5330-5338
<<
uint64x1_t veor_u64(uint64x1_t a, uint64x1_t b)
{
    uint64x1_t r;
    for (int i = 0; i < 1; i++)
    {
        r.val[i] =  a.val[i] ^ b.val[i];
    }
    return r;
}
>> *)
Definition veor_u64 : func := mkfunc "veor_u64" (tvec U64 1)
  [("a", tvec U64 1); ("b", tvec U64 1)]
  (
    SDecl (tvec U64 1) "r" None ;;
    SFor I32 "i" (lit 0)%C ("i" < (lit 1))%C ("i" + (lit 1))%C (
      SAssign "r" [EVar "i"]%C
        (("a" @ "i") ^. ("b" @ "i"))%C
    ) ;;
    SReturn ("r")%C
  )%CS.

(** neon_sim.cpp:5341-5349
<<
int8x16_t veorq_s8(int8x16_t a, int8x16_t b)
{
    int8x16_t r;
    for (int i = 0; i < 16; i++)
    {
        r.val[i] =  a.val[i] ^ b.val[i];
    }
    return r;
}
>> *)
Definition veorq_s8 : func := mkfunc "veorq_s8" (tvec I8 16)
  [("a", tvec I8 16); ("b", tvec I8 16)]
  (
    SDecl (tvec I8 16) "r" None ;;
    SFor I32 "i" (lit 0)%C ("i" < (lit 16))%C ("i" + (lit 1))%C (
      SAssign "r" [EVar "i"]%C
        (("a" @ "i") ^. ("b" @ "i"))%C
    ) ;;
    SReturn ("r")%C
  )%CS.

(** neon_sim.cpp:5351-5359
<<
int16x8_t veorq_s16(int16x8_t a, int16x8_t b)
{
    int16x8_t r;
    for (int i = 0; i < 8; i++)
    {
        r.val[i] =  a.val[i] ^ b.val[i];
    }
    return r;
}
>> *)
Definition veorq_s16 : func := mkfunc "veorq_s16" (tvec I16 8)
  [("a", tvec I16 8); ("b", tvec I16 8)]
  (
    SDecl (tvec I16 8) "r" None ;;
    SFor I32 "i" (lit 0)%C ("i" < (lit 8))%C ("i" + (lit 1))%C (
      SAssign "r" [EVar "i"]%C
        (("a" @ "i") ^. ("b" @ "i"))%C
    ) ;;
    SReturn ("r")%C
  )%CS.

(** neon_sim.cpp:5361-5369
<<
int32x4_t veorq_s32(int32x4_t a, int32x4_t b)
{
    int32x4_t r;
    for (int i = 0; i < 4; i++)
    {
        r.val[i] =  a.val[i] ^ b.val[i];
    }
    return r;
}
>> *)
Definition veorq_s32 : func := mkfunc "veorq_s32" (tvec I32 4)
  [("a", tvec I32 4); ("b", tvec I32 4)]
  (
    SDecl (tvec I32 4) "r" None ;;
    SFor I32 "i" (lit 0)%C ("i" < (lit 4))%C ("i" + (lit 1))%C (
      SAssign "r" [EVar "i"]%C
        (("a" @ "i") ^. ("b" @ "i"))%C
    ) ;;
    SReturn ("r")%C
  )%CS.

(** neon_sim.cpp:5371-5379
<<
int64x2_t veorq_s64(int64x2_t a, int64x2_t b)
{
    int64x2_t r;
    for (int i = 0; i < 2; i++)
    {
        r.val[i] =  a.val[i] ^ b.val[i];
    }
    return r;
}
>> *)
Definition veorq_s64 : func := mkfunc "veorq_s64" (tvec I64 2)
  [("a", tvec I64 2); ("b", tvec I64 2)]
  (
    SDecl (tvec I64 2) "r" None ;;
    SFor I32 "i" (lit 0)%C ("i" < (lit 2))%C ("i" + (lit 1))%C (
      SAssign "r" [EVar "i"]%C
        (("a" @ "i") ^. ("b" @ "i"))%C
    ) ;;
    SReturn ("r")%C
  )%CS.

(** neon_sim.cpp:5381-5389
<<
uint8x16_t veorq_u8(uint8x16_t a, uint8x16_t b)
{
    uint8x16_t r;
    for (int i = 0; i < 16; i++)
    {
        r.val[i] =  a.val[i] ^ b.val[i];
    }
    return r;
}
>> *)
Definition veorq_u8 : func := mkfunc "veorq_u8" (tvec U8 16)
  [("a", tvec U8 16); ("b", tvec U8 16)]
  (
    SDecl (tvec U8 16) "r" None ;;
    SFor I32 "i" (lit 0)%C ("i" < (lit 16))%C ("i" + (lit 1))%C (
      SAssign "r" [EVar "i"]%C
        (("a" @ "i") ^. ("b" @ "i"))%C
    ) ;;
    SReturn ("r")%C
  )%CS.

(** neon_sim.cpp:5391-5399
<<
uint16x8_t veorq_u16(uint16x8_t a, uint16x8_t b)
{
    uint16x8_t r;
    for (int i = 0; i < 8; i++)
    {
        r.val[i] =  a.val[i] ^ b.val[i];
    }
    return r;
}
>> *)
Definition veorq_u16 : func := mkfunc "veorq_u16" (tvec U16 8)
  [("a", tvec U16 8); ("b", tvec U16 8)]
  (
    SDecl (tvec U16 8) "r" None ;;
    SFor I32 "i" (lit 0)%C ("i" < (lit 8))%C ("i" + (lit 1))%C (
      SAssign "r" [EVar "i"]%C
        (("a" @ "i") ^. ("b" @ "i"))%C
    ) ;;
    SReturn ("r")%C
  )%CS.

(** neon_sim.cpp:5401-5409
<<
uint32x4_t veorq_u32(uint32x4_t a, uint32x4_t b)
{
    uint32x4_t r;
    for (int i = 0; i < 4; i++)
    {
        r.val[i] =  a.val[i] ^ b.val[i];
    }
    return r;
}
>> *)
Definition veorq_u32 : func := mkfunc "veorq_u32" (tvec U32 4)
  [("a", tvec U32 4); ("b", tvec U32 4)]
  (
    SDecl (tvec U32 4) "r" None ;;
    SFor I32 "i" (lit 0)%C ("i" < (lit 4))%C ("i" + (lit 1))%C (
      SAssign "r" [EVar "i"]%C
        (("a" @ "i") ^. ("b" @ "i"))%C
    ) ;;
    SReturn ("r")%C
  )%CS.

(** neon_sim.cpp:5411-5419
<<
uint64x2_t veorq_u64(uint64x2_t a, uint64x2_t b)
{
    uint64x2_t r;
    for (int i = 0; i < 2; i++)
    {
        r.val[i] =  a.val[i] ^ b.val[i];
    }
    return r;
}
>> *)
Definition veorq_u64 : func := mkfunc "veorq_u64" (tvec U64 2)
  [("a", tvec U64 2); ("b", tvec U64 2)]
  (
    SDecl (tvec U64 2) "r" None ;;
    SFor I32 "i" (lit 0)%C ("i" < (lit 2))%C ("i" + (lit 1))%C (
      SAssign "r" [EVar "i"]%C
        (("a" @ "i") ^. ("b" @ "i"))%C
    ) ;;
    SReturn ("r")%C
  )%CS.

(** neon_sim.cpp:5422-5430
<<
int8x8_t vmvn_s8(int8x8_t a)
{
    int8x8_t r;
    for (int i = 0; i < 8; i++)
    {
        r.val[i] =  ~a.val[i];
    }
    return r;
}
>> *)
Definition vmvn_s8 : func := mkfunc "vmvn_s8" (tvec I8 8)
  [("a", tvec I8 8)]
  (
    SDecl (tvec I8 8) "r" None ;;
    SFor I32 "i" (lit 0)%C ("i" < (lit 8))%C ("i" + (lit 1))%C (
      SAssign "r" [EVar "i"]%C
        (~ ("a" @ "i"))%C
    ) ;;
    SReturn ("r")%C
  )%CS.

(** neon_sim.cpp:5432-5440
<<
int16x4_t vmvn_s16(int16x4_t a)
{
    int16x4_t r;
    for (int i = 0; i < 4; i++)
    {
        r.val[i] =  ~a.val[i];
    }
    return r;
}
>> *)
Definition vmvn_s16 : func := mkfunc "vmvn_s16" (tvec I16 4)
  [("a", tvec I16 4)]
  (
    SDecl (tvec I16 4) "r" None ;;
    SFor I32 "i" (lit 0)%C ("i" < (lit 4))%C ("i" + (lit 1))%C (
      SAssign "r" [EVar "i"]%C
        (~ ("a" @ "i"))%C
    ) ;;
    SReturn ("r")%C
  )%CS.

(** neon_sim.cpp:5442-5450
<<
int32x2_t vmvn_s32(int32x2_t a)
{
    int32x2_t r;
    for (int i = 0; i < 2; i++)
    {
        r.val[i] =  ~a.val[i];
    }
    return r;
}
>> *)
Definition vmvn_s32 : func := mkfunc "vmvn_s32" (tvec I32 2)
  [("a", tvec I32 2)]
  (
    SDecl (tvec I32 2) "r" None ;;
    SFor I32 "i" (lit 0)%C ("i" < (lit 2))%C ("i" + (lit 1))%C (
      SAssign "r" [EVar "i"]%C
        (~ ("a" @ "i"))%C
    ) ;;
    SReturn ("r")%C
  )%CS.

(** neon_sim.cpp:5452-5460
<<
uint8x8_t vmvn_u8(uint8x8_t a)
{
    uint8x8_t r;
    for (int i = 0; i < 8; i++)
    {
        r.val[i] =  ~a.val[i];
    }
    return r;
}
>> *)
Definition vmvn_u8 : func := mkfunc "vmvn_u8" (tvec U8 8)
  [("a", tvec U8 8)]
  (
    SDecl (tvec U8 8) "r" None ;;
    SFor I32 "i" (lit 0)%C ("i" < (lit 8))%C ("i" + (lit 1))%C (
      SAssign "r" [EVar "i"]%C
        (~ ("a" @ "i"))%C
    ) ;;
    SReturn ("r")%C
  )%CS.

(** neon_sim.cpp:5462-5470
<<
uint16x4_t vmvn_u16(uint16x4_t a)
{
    uint16x4_t r;
    for (int i = 0; i < 4; i++)
    {
        r.val[i] =  ~a.val[i];
    }
    return r;
}
>> *)
Definition vmvn_u16 : func := mkfunc "vmvn_u16" (tvec U16 4)
  [("a", tvec U16 4)]
  (
    SDecl (tvec U16 4) "r" None ;;
    SFor I32 "i" (lit 0)%C ("i" < (lit 4))%C ("i" + (lit 1))%C (
      SAssign "r" [EVar "i"]%C
        (~ ("a" @ "i"))%C
    ) ;;
    SReturn ("r")%C
  )%CS.

(** neon_sim.cpp:5472-5480
<<
uint32x2_t vmvn_u32(uint32x2_t a)
{
    uint32x2_t r;
    for (int i = 0; i < 2; i++)
    {
        r.val[i] =  ~a.val[i];
    }
    return r;
}
>> *)
Definition vmvn_u32 : func := mkfunc "vmvn_u32" (tvec U32 2)
  [("a", tvec U32 2)]
  (
    SDecl (tvec U32 2) "r" None ;;
    SFor I32 "i" (lit 0)%C ("i" < (lit 2))%C ("i" + (lit 1))%C (
      SAssign "r" [EVar "i"]%C
        (~ ("a" @ "i"))%C
    ) ;;
    SReturn ("r")%C
  )%CS.

(** neon_sim.cpp:5483-5491
<<
int8x16_t vmvnq_s8(int8x16_t a)
{
    int8x16_t r;
    for (int i = 0; i < 16; i++)
    {
        r.val[i] =  ~a.val[i];
    }
    return r;
}
>> *)
Definition vmvnq_s8 : func := mkfunc "vmvnq_s8" (tvec I8 16)
  [("a", tvec I8 16)]
  (
    SDecl (tvec I8 16) "r" None ;;
    SFor I32 "i" (lit 0)%C ("i" < (lit 16))%C ("i" + (lit 1))%C (
      SAssign "r" [EVar "i"]%C
        (~ ("a" @ "i"))%C
    ) ;;
    SReturn ("r")%C
  )%CS.

(** neon_sim.cpp:5493-5501
<<
int16x8_t vmvnq_s16(int16x8_t a)
{
    int16x8_t r;
    for (int i = 0; i < 8; i++)
    {
        r.val[i] =  ~a.val[i];
    }
    return r;
}
>> *)
Definition vmvnq_s16 : func := mkfunc "vmvnq_s16" (tvec I16 8)
  [("a", tvec I16 8)]
  (
    SDecl (tvec I16 8) "r" None ;;
    SFor I32 "i" (lit 0)%C ("i" < (lit 8))%C ("i" + (lit 1))%C (
      SAssign "r" [EVar "i"]%C
        (~ ("a" @ "i"))%C
    ) ;;
    SReturn ("r")%C
  )%CS.

(** neon_sim.cpp:5503-5511
<<
int32x4_t vmvnq_s32(int32x4_t a)
{
    int32x4_t r;
    for (int i = 0; i < 4; i++)
    {
        r.val[i] =  ~a.val[i];
    }
    return r;
}
>> *)
Definition vmvnq_s32 : func := mkfunc "vmvnq_s32" (tvec I32 4)
  [("a", tvec I32 4)]
  (
    SDecl (tvec I32 4) "r" None ;;
    SFor I32 "i" (lit 0)%C ("i" < (lit 4))%C ("i" + (lit 1))%C (
      SAssign "r" [EVar "i"]%C
        (~ ("a" @ "i"))%C
    ) ;;
    SReturn ("r")%C
  )%CS.

(** neon_sim.cpp:5513-5521
<<
uint8x16_t vmvnq_u8(uint8x16_t a)
{
    uint8x16_t r;
    for (int i = 0; i < 16; i++)
    {
        r.val[i] =  ~a.val[i];
    }
    return r;
}
>> *)
Definition vmvnq_u8 : func := mkfunc "vmvnq_u8" (tvec U8 16)
  [("a", tvec U8 16)]
  (
    SDecl (tvec U8 16) "r" None ;;
    SFor I32 "i" (lit 0)%C ("i" < (lit 16))%C ("i" + (lit 1))%C (
      SAssign "r" [EVar "i"]%C
        (~ ("a" @ "i"))%C
    ) ;;
    SReturn ("r")%C
  )%CS.

(** neon_sim.cpp:5523-5531
<<
uint16x8_t vmvnq_u16(uint16x8_t a)
{
    uint16x8_t r;
    for (int i = 0; i < 8; i++)
    {
        r.val[i] =  ~a.val[i];
    }
    return r;
}
>> *)
Definition vmvnq_u16 : func := mkfunc "vmvnq_u16" (tvec U16 8)
  [("a", tvec U16 8)]
  (
    SDecl (tvec U16 8) "r" None ;;
    SFor I32 "i" (lit 0)%C ("i" < (lit 8))%C ("i" + (lit 1))%C (
      SAssign "r" [EVar "i"]%C
        (~ ("a" @ "i"))%C
    ) ;;
    SReturn ("r")%C
  )%CS.

(** neon_sim.cpp:5533-5541
<<
uint32x4_t vmvnq_u32(uint32x4_t a)
{
    uint32x4_t r;
    for (int i = 0; i < 4; i++)
    {
        r.val[i] =  ~a.val[i];
    }
    return r;
}
>> *)
Definition vmvnq_u32 : func := mkfunc "vmvnq_u32" (tvec U32 4)
  [("a", tvec U32 4)]
  (
    SDecl (tvec U32 4) "r" None ;;
    SFor I32 "i" (lit 0)%C ("i" < (lit 4))%C ("i" + (lit 1))%C (
      SAssign "r" [EVar "i"]%C
        (~ ("a" @ "i"))%C
    ) ;;
    SReturn ("r")%C
  )%CS.

(** neon_sim.cpp:5544-5562
<<
int8x8x2_t vzip_s8(int8x8_t a, int8x8_t b)
{
    int8x8x2_t r;
    const int vlen = 8;
    for (int i = 0; i < 8; i++)
    {
        if (i % 2 == 0)
        {
            r.val[0].val[i] = a.val[i / 2];
            r.val[1].val[i] = a.val[i / 2 + vlen / 2];
        }
        else
        {
            r.val[0].val[i] = b.val[i / 2];
            r.val[1].val[i] = b.val[i / 2 + vlen / 2];
        }
    }
    return r;
}
>> *)
Definition vzip_s8 : func := mkfunc "vzip_s8" (tvecs 2 I8 8)
  [("a", tvec I8 8); ("b", tvec I8 8)]
  (
    SDecl (tvecs 2 I8 8) "r" None ;;
    SDecl (TScal I32) "vlen" (Some (lit 8)%C) ;;
    SFor I32 "i" (lit 0)%C ("i" < (lit 8))%C ("i" + (lit 1))%C (
      SIf (("i" mod (lit 2)) == (lit 0))%C (
        SAssign "r" [lit 0; EVar "i"]%C
          ("a" @ ("i" / (lit 2)))%C ;;
        SAssign "r" [lit 1; EVar "i"]%C
          ("a" @ (("i" / (lit 2)) + ("vlen" / (lit 2))))%C
      ) (
        SAssign "r" [lit 0; EVar "i"]%C
          ("b" @ ("i" / (lit 2)))%C ;;
        SAssign "r" [lit 1; EVar "i"]%C
          ("b" @ (("i" / (lit 2)) + ("vlen" / (lit 2))))%C
      )
    ) ;;
    SReturn ("r")%C
  )%CS.

(** neon_sim.cpp:5564-5582
<<
uint8x8x2_t vzip_u8(uint8x8_t a, uint8x8_t b)
{
    uint8x8x2_t r;
    const int vlen = 8;
    for (int i = 0; i < 8; i++)
    {
        if (i % 2 == 0)
        {
            r.val[0].val[i] = a.val[i / 2];
            r.val[1].val[i] = a.val[i / 2 + vlen / 2];
        }
        else
        {
            r.val[0].val[i] = b.val[i / 2];
            r.val[1].val[i] = b.val[i / 2 + vlen / 2];
        }
    }
    return r;
}
>> *)
Definition vzip_u8 : func := mkfunc "vzip_u8" (tvecs 2 U8 8)
  [("a", tvec U8 8); ("b", tvec U8 8)]
  (
    SDecl (tvecs 2 U8 8) "r" None ;;
    SDecl (TScal I32) "vlen" (Some (lit 8)%C) ;;
    SFor I32 "i" (lit 0)%C ("i" < (lit 8))%C ("i" + (lit 1))%C (
      SIf (("i" mod (lit 2)) == (lit 0))%C (
        SAssign "r" [lit 0; EVar "i"]%C
          ("a" @ ("i" / (lit 2)))%C ;;
        SAssign "r" [lit 1; EVar "i"]%C
          ("a" @ (("i" / (lit 2)) + ("vlen" / (lit 2))))%C
      ) (
        SAssign "r" [lit 0; EVar "i"]%C
          ("b" @ ("i" / (lit 2)))%C ;;
        SAssign "r" [lit 1; EVar "i"]%C
          ("b" @ (("i" / (lit 2)) + ("vlen" / (lit 2))))%C
      )
    ) ;;
    SReturn ("r")%C
  )%CS.
