(** Generated by tools/translate.py from neon_sim.cpp: subtraction.
    The C text is quoted above each definition (double quotes shown as single). *)
From Coq Require Import ZArith List String.
From Verif Require Import Types Syntax.
Import ListNotations.
Open Scope Z_scope.
Local Open Scope string_scope.

(** neon_sim.cpp:1789-1797
<<
int8x8_t vsub_s8(int8x8_t N, int8x8_t M)
{
    int8x8_t D;
    for (size_t i = 0; i < 8; i++)
    {
        D.val[i] = N.val[i] - M.val[i];
    }
    return D;
}
>> *)
Definition vsub_s8 : func := mkfunc "vsub_s8" (tvec I8 8)
  [("N", tvec I8 8); ("M", tvec I8 8)]
  (
    SDecl (tvec I8 8) "D" None ;;
    SFor U64 "i" (lit 0)%C ("i" < (lit 8))%C ("i" + (lit 1))%C (
      SAssign "D" [EVar "i"]%C
        (("N" @ "i") - ("M" @ "i"))%C
    ) ;;
    SReturn ("D")%C
  )%CS.

(** neon_sim.cpp:1798-1806
<<
int16x4_t vsub_s16(int16x4_t N, int16x4_t M)
{
    int16x4_t D;
    for (size_t i = 0; i < 4; i++)
    {
        D.val[i] = N.val[i] - M.val[i];
    }
    return D;
}
>> *)
Definition vsub_s16 : func := mkfunc "vsub_s16" (tvec I16 4)
  [("N", tvec I16 4); ("M", tvec I16 4)]
  (
    SDecl (tvec I16 4) "D" None ;;
    SFor U64 "i" (lit 0)%C ("i" < (lit 4))%C ("i" + (lit 1))%C (
      SAssign "D" [EVar "i"]%C
        (("N" @ "i") - ("M" @ "i"))%C
    ) ;;
    SReturn ("D")%C
  )%CS.

(** neon_sim.cpp:1807-1815
<<
int32x2_t vsub_s32(int32x2_t N, int32x2_t M)
{
    int32x2_t D;
    for (size_t i = 0; i < 2; i++)
    {
        D.val[i] = N.val[i] - M.val[i];
    }
    return D;
}
>> *)
Definition vsub_s32 : func := mkfunc "vsub_s32" (tvec I32 2)
  [("N", tvec I32 2); ("M", tvec I32 2)]
  (
    SDecl (tvec I32 2) "D" None ;;
    SFor U64 "i" (lit 0)%C ("i" < (lit 2))%C ("i" + (lit 1))%C (
      SAssign "D" [EVar "i"]%C
        (("N" @ "i") - ("M" @ "i"))%C
    ) ;;
    SReturn ("D")%C
  )%CS.

(** neon_sim.cpp:1816-1824
<<
int64x1_t vsub_s64(int64x1_t N, int64x1_t M)
{
    int64x1_t D;
    for (size_t i = 0; i < 1; i++)
    {
        D.val[i] = N.val[i] - M.val[i];
    }
    return D;
}
>> *)
Definition vsub_s64 : func := mkfunc "vsub_s64" (tvec I64 1)
  [("N", tvec I64 1); ("M", tvec I64 1)]
  (
    SDecl (tvec I64 1) "D" None ;;
    SFor U64 "i" (lit 0)%C ("i" < (lit 1))%C ("i" + (lit 1))%C (
      SAssign "D" [EVar "i"]%C
        (("N" @ "i") - ("M" @ "i"))%C
    ) ;;
    SReturn ("D")%C
  )%CS.

(** neon_sim.cpp:1825-1833
<<
uint8x8_t vsub_u8(uint8x8_t N, uint8x8_t M)
{
    uint8x8_t D;
    for (size_t i = 0; i < 8; i++)
    {
        D.val[i] = N.val[i] - M.val[i];
    }
    return D;
}
>> *)
Definition vsub_u8 : func := mkfunc "vsub_u8" (tvec U8 8)
  [("N", tvec U8 8); ("M", tvec U8 8)]
  (
    SDecl (tvec U8 8) "D" None ;;
    SFor U64 "i" (lit 0)%C ("i" < (lit 8))%C ("i" + (lit 1))%C (
      SAssign "D" [EVar "i"]%C
        (("N" @ "i") - ("M" @ "i"))%C
    ) ;;
    SReturn ("D")%C
  )%CS.

(** neon_sim.cpp:1834-1842
<<
uint16x4_t vsub_u16(uint16x4_t N, uint16x4_t M)
{
    uint16x4_t D;
    for (size_t i = 0; i < 4; i++)
    {
        D.val[i] = N.val[i] - M.val[i];
    }
    return D;
}
>> *)
Definition vsub_u16 : func := mkfunc "vsub_u16" (tvec U16 4)
  [("N", tvec U16 4); ("M", tvec U16 4)]
  (
    SDecl (tvec U16 4) "D" None ;;
    SFor U64 "i" (lit 0)%C ("i" < (lit 4))%C ("i" + (lit 1))%C (
      SAssign "D" [EVar "i"]%C
        (("N" @ "i") - ("M" @ "i"))%C
    ) ;;
    SReturn ("D")%C
  )%CS.

(** neon_sim.cpp:1843-1851
<<
uint32x2_t vsub_u32(uint32x2_t N, uint32x2_t M)
{
    uint32x2_t D;
    for (size_t i = 0; i < 2; i++)
    {
        D.val[i] = N.val[i] - M.val[i];
    }
    return D;
}
>> *)
Definition vsub_u32 : func := mkfunc "vsub_u32" (tvec U32 2)
  [("N", tvec U32 2); ("M", tvec U32 2)]
  (
    SDecl (tvec U32 2) "D" None ;;
    SFor U64 "i" (lit 0)%C ("i" < (lit 2))%C ("i" + (lit 1))%C (
      SAssign "D" [EVar "i"]%C
        (("N" @ "i") - ("M" @ "i"))%C
    ) ;;
    SReturn ("D")%C
  )%CS.

(** neon_sim.cpp:1852-1860
<<
uint64x1_t vsub_u64(uint64x1_t N, uint64x1_t M)
{
    uint64x1_t D;
    for (size_t i = 0; i < 1; i++)
    {
        D.val[i] = N.val[i] - M.val[i];
    }
    return D;
}
>> *)
Definition vsub_u64 : func := mkfunc "vsub_u64" (tvec U64 1)
  [("N", tvec U64 1); ("M", tvec U64 1)]
  (
    SDecl (tvec U64 1) "D" None ;;
    SFor U64 "i" (lit 0)%C ("i" < (lit 1))%C ("i" + (lit 1))%C (
      SAssign "D" [EVar "i"]%C
        (("N" @ "i") - ("M" @ "i"))%C
    ) ;;
    SReturn ("D")%C
  )%CS.

(** neon_sim.cpp:1862-1870
<<
float32x2_t vsub_f32(float32x2_t N, float32x2_t M)
{
    float32x2_t D;
    for (size_t i = 0; i < 2; i++)
    {
        D.val[i] = N.val[i] - M.val[i];
    }
    return D;
}
>> *)
Definition vsub_f32 : func := mkfunc "vsub_f32" (tvec F32 2)
  [("N", tvec F32 2); ("M", tvec F32 2)]
  (
    SDecl (tvec F32 2) "D" None ;;
    SFor U64 "i" (lit 0)%C ("i" < (lit 2))%C ("i" + (lit 1))%C (
      SAssign "D" [EVar "i"]%C
        (("N" @ "i") - ("M" @ "i"))%C
    ) ;;
    SReturn ("D")%C
  )%CS.

(** neon_sim.cpp:1872-1880
<<
float64x1_t vsub_f32(float64x1_t N, float64x1_t M)
{
    float64x1_t D;
    for (size_t i = 0; i < 1; i++)
    {
        D.val[i] = N.val[i] - M.val[i];
    }
    return D;
}
>> *)
Definition vsub_f32__F64x1 : func := mkfunc "vsub_f32" (tvec F64 1)
  [("N", tvec F64 1); ("M", tvec F64 1)]
  (
    SDecl (tvec F64 1) "D" None ;;
    SFor U64 "i" (lit 0)%C ("i" < (lit 1))%C ("i" + (lit 1))%C (
      SAssign "D" [EVar "i"]%C
        (("N" @ "i") - ("M" @ "i"))%C
    ) ;;
    SReturn ("D")%C
  )%CS.

(** neon_sim.cpp:1883-1891
<<
int8x16_t vsubq_s8(int8x16_t N, int8x16_t M)
{
    int8x16_t D;
    for (size_t i = 0; i < 16; i++)
    {
        D.val[i] = N.val[i] - M.val[i];
    }
    return D;
}
>> *)
Definition vsubq_s8 : func := mkfunc "vsubq_s8" (tvec I8 16)
  [("N", tvec I8 16); ("M", tvec I8 16)]
  (
    SDecl (tvec I8 16) "D" None ;;
    SFor U64 "i" (lit 0)%C ("i" < (lit 16))%C ("i" + (lit 1))%C (
      SAssign "D" [EVar "i"]%C
        (("N" @ "i") - ("M" @ "i"))%C
    ) ;;
    SReturn ("D")%C
  )%CS.

(** neon_sim.cpp:1892-1900
<<
int16x8_t vsubq_s16(int16x8_t N, int16x8_t M)
{
    int16x8_t D;
    for (size_t i = 0; i < 8; i++)
    {
        D.val[i] = N.val[i] - M.val[i];
    }
    return D;
}
>> *)
Definition vsubq_s16 : func := mkfunc "vsubq_s16" (tvec I16 8)
  [("N", tvec I16 8); ("M", tvec I16 8)]
  (
    SDecl (tvec I16 8) "D" None ;;
    SFor U64 "i" (lit 0)%C ("i" < (lit 8))%C ("i" + (lit 1))%C (
      SAssign "D" [EVar "i"]%C
        (("N" @ "i") - ("M" @ "i"))%C
    ) ;;
    SReturn ("D")%C
  )%CS.

(** neon_sim.cpp:1901-1909
<<
int32x4_t vsubq_s32(int32x4_t N, int32x4_t M)
{
    int32x4_t D;
    for (size_t i = 0; i < 4; i++)
    {
        D.val[i] = N.val[i] - M.val[i];
    }
    return D;
}
>> *)
Definition vsubq_s32 : func := mkfunc "vsubq_s32" (tvec I32 4)
  [("N", tvec I32 4); ("M", tvec I32 4)]
  (
    SDecl (tvec I32 4) "D" None ;;
    SFor U64 "i" (lit 0)%C ("i" < (lit 4))%C ("i" + (lit 1))%C (
      SAssign "D" [EVar "i"]%C
        (("N" @ "i") - ("M" @ "i"))%C
    ) ;;
    SReturn ("D")%C
  )%CS.

(** neon_sim.cpp:1910-1918
<<
int64x2_t vsubq_s64(int64x2_t N, int64x2_t M)
{
    int64x2_t D;
    for (size_t i = 0; i < 2; i++)
    {
        D.val[i] = N.val[i] - M.val[i];
    }
    return D;
}
>> *)
Definition vsubq_s64 : func := mkfunc "vsubq_s64" (tvec I64 2)
  [("N", tvec I64 2); ("M", tvec I64 2)]
  (
    SDecl (tvec I64 2) "D" None ;;
    SFor U64 "i" (lit 0)%C ("i" < (lit 2))%C ("i" + (lit 1))%C (
      SAssign "D" [EVar "i"]%C
        (("N" @ "i") - ("M" @ "i"))%C
    ) ;;
    SReturn ("D")%C
  )%CS.

(** neon_sim.cpp:1919-1927
<<
uint8x16_t vsubq_u8(uint8x16_t N, uint8x16_t M)
{
    uint8x16_t D;
    for (size_t i = 0; i < 16; i++)
    {
        D.val[i] = N.val[i] - M.val[i];
    }
    return D;
}
>> *)
Definition vsubq_u8 : func := mkfunc "vsubq_u8" (tvec U8 16)
  [("N", tvec U8 16); ("M", tvec U8 16)]
  (
    SDecl (tvec U8 16) "D" None ;;
    SFor U64 "i" (lit 0)%C ("i" < (lit 16))%C ("i" + (lit 1))%C (
      SAssign "D" [EVar "i"]%C
        (("N" @ "i") - ("M" @ "i"))%C
    ) ;;
    SReturn ("D")%C
  )%CS.

(** neon_sim.cpp:1928-1936
<<
uint16x8_t vsubq_u16(uint16x8_t N, uint16x8_t M)
{
    uint16x8_t D;
    for (size_t i = 0; i < 8; i++)
    {
        D.val[i] = N.val[i] - M.val[i];
    }
    return D;
}
>> *)
Definition vsubq_u16 : func := mkfunc "vsubq_u16" (tvec U16 8)
  [("N", tvec U16 8); ("M", tvec U16 8)]
  (
    SDecl (tvec U16 8) "D" None ;;
    SFor U64 "i" (lit 0)%C ("i" < (lit 8))%C ("i" + (lit 1))%C (
      SAssign "D" [EVar "i"]%C
        (("N" @ "i") - ("M" @ "i"))%C
    ) ;;
    SReturn ("D")%C
  )%CS.

(** neon_sim.cpp:1937-1945
<<
uint32x4_t vsubq_u32(uint32x4_t N, uint32x4_t M)
{
    uint32x4_t D;
    for (size_t i = 0; i < 4; i++)
    {
        D.val[i] = N.val[i] - M.val[i];
    }
    return D;
}
>> *)
Definition vsubq_u32 : func := mkfunc "vsubq_u32" (tvec U32 4)
  [("N", tvec U32 4); ("M", tvec U32 4)]
  (
    SDecl (tvec U32 4) "D" None ;;
    SFor U64 "i" (lit 0)%C ("i" < (lit 4))%C ("i" + (lit 1))%C (
      SAssign "D" [EVar "i"]%C
        (("N" @ "i") - ("M" @ "i"))%C
    ) ;;
    SReturn ("D")%C
  )%CS.

(** neon_sim.cpp:1946-1954
<<
uint64x2_t vsubq_u64(uint64x2_t N, uint64x2_t M)
{
    uint64x2_t D;
    for (size_t i = 0; i < 2; i++)
    {
        D.val[i] = N.val[i] - M.val[i];
    }
    return D;
}
>> *)
Definition vsubq_u64 : func := mkfunc "vsubq_u64" (tvec U64 2)
  [("N", tvec U64 2); ("M", tvec U64 2)]
  (
    SDecl (tvec U64 2) "D" None ;;
    SFor U64 "i" (lit 0)%C ("i" < (lit 2))%C ("i" + (lit 1))%C (
      SAssign "D" [EVar "i"]%C
        (("N" @ "i") - ("M" @ "i"))%C
    ) ;;
    SReturn ("D")%C
  )%CS.

(** neon_sim.cpp:1956-1964
<<
float32x4_t vsubq_f32(float32x4_t N, float32x4_t M)
{
    float32x4_t D;
    for (size_t i = 0; i < 4; i++)
    {
        D.val[i] = N.val[i] - M.val[i];
    }
    return D;
}
>> *)
Definition vsubq_f32 : func := mkfunc "vsubq_f32" (tvec F32 4)
  [("N", tvec F32 4); ("M", tvec F32 4)]
  (
    SDecl (tvec F32 4) "D" None ;;
    SFor U64 "i" (lit 0)%C ("i" < (lit 4))%C ("i" + (lit 1))%C (
      SAssign "D" [EVar "i"]%C
        (("N" @ "i") - ("M" @ "i"))%C
    ) ;;
    SReturn ("D")%C
  )%CS.

(** neon_sim.cpp:1967-1975
<<
int8x8_t vsubhn_s16(int16x8_t N, int16x8_t M)
{
    int8x8_t D;
    for (size_t i = 0; i < 8; i++)
    {
        D.val[i] = (N.val[i] - M.val[i]) >> 8;
    }
    return D;
}
>> *)
Definition vsubhn_s16 : func := mkfunc "vsubhn_s16" (tvec I8 8)
  [("N", tvec I16 8); ("M", tvec I16 8)]
  (
    SDecl (tvec I8 8) "D" None ;;
    SFor U64 "i" (lit 0)%C ("i" < (lit 8))%C ("i" + (lit 1))%C (
      SAssign "D" [EVar "i"]%C
        ((("N" @ "i") - ("M" @ "i")) >> (lit 8))%C
    ) ;;
    SReturn ("D")%C
  )%CS.

(** neon_sim.cpp:1977-1985
<<
int16x4_t vsubn_s32(int32x4_t N, int32x4_t M)
{
    int16x4_t D;
    for (size_t i = 0; i < 4; i++)
    {
        D.val[i] = (N.val[i] - M.val[i]) >> 8;
    }
    return D;
}
>> *)
Definition vsubn_s32 : func := mkfunc "vsubn_s32" (tvec I16 4)
  [("N", tvec I32 4); ("M", tvec I32 4)]
  (
    SDecl (tvec I16 4) "D" None ;;
    SFor U64 "i" (lit 0)%C ("i" < (lit 4))%C ("i" + (lit 1))%C (
      SAssign "D" [EVar "i"]%C
        ((("N" @ "i") - ("M" @ "i")) >> (lit 8))%C
    ) ;;
    SReturn ("D")%C
  )%CS.

(** neon_sim.cpp:1987-1995
<<
int32x2_t vsubn_s64(int64x2_t N, int64x2_t M)
{
    int32x2_t D;
    for (size_t i = 0; i < 2; i++)
    {
        D.val[i] = (N.val[i] - M.val[i]) >> 8;
    }
    return D;
}
>> *)
Definition vsubn_s64 : func := mkfunc "vsubn_s64" (tvec I32 2)
  [("N", tvec I64 2); ("M", tvec I64 2)]
  (
    SDecl (tvec I32 2) "D" None ;;
    SFor U64 "i" (lit 0)%C ("i" < (lit 2))%C ("i" + (lit 1))%C (
      SAssign "D" [EVar "i"]%C
        ((("N" @ "i") - ("M" @ "i")) >> (lit 8))%C
    ) ;;
    SReturn ("D")%C
  )%CS.

(** neon_sim.cpp:1997-2005
<<
uint8x8_t vsubhn_u16(uint16x8_t N, uint16x8_t M)
{
    uint8x8_t D;
    for (size_t i = 0; i < 8; i++)
    {
        D.val[i] = (N.val[i] - M.val[i]) >> 8;
    }
    return D;
}
>> *)
Definition vsubhn_u16 : func := mkfunc "vsubhn_u16" (tvec U8 8)
  [("N", tvec U16 8); ("M", tvec U16 8)]
  (
    SDecl (tvec U8 8) "D" None ;;
    SFor U64 "i" (lit 0)%C ("i" < (lit 8))%C ("i" + (lit 1))%C (
      SAssign "D" [EVar "i"]%C
        ((("N" @ "i") - ("M" @ "i")) >> (lit 8))%C
    ) ;;
    SReturn ("D")%C
  )%CS.

(** neon_sim.cpp:2007-2015
<<
uint16x4_t vsubn_u32(uint32x4_t N, uint32x4_t M)
{
    uint16x4_t D;
    for (size_t i = 0; i < 4; i++)
    {
        D.val[i] = (N.val[i] - M.val[i]) >> 8;
    }
    return D;
}
>> *)
Definition vsubn_u32 : func := mkfunc "vsubn_u32" (tvec U16 4)
  [("N", tvec U32 4); ("M", tvec U32 4)]
  (
    SDecl (tvec U16 4) "D" None ;;
    SFor U64 "i" (lit 0)%C ("i" < (lit 4))%C ("i" + (lit 1))%C (
      SAssign "D" [EVar "i"]%C
        ((("N" @ "i") - ("M" @ "i")) >> (lit 8))%C
    ) ;;
    SReturn ("D")%C
  )%CS.

(** neon_sim.cpp:2017-2025
<<
uint32x2_t vsubn_u64(uint64x2_t N, uint64x2_t M)
{
    uint32x2_t D;
    for (size_t i = 0; i < 2; i++)
    {
        D.val[i] = (N.val[i] - M.val[i]) >> 8;
    }
    return D;
}
>> *)
Definition vsubn_u64 : func := mkfunc "vsubn_u64" (tvec U32 2)
  [("N", tvec U64 2); ("M", tvec U64 2)]
  (
    SDecl (tvec U32 2) "D" None ;;
    SFor U64 "i" (lit 0)%C ("i" < (lit 2))%C ("i" + (lit 1))%C (
      SAssign "D" [EVar "i"]%C
        ((("N" @ "i") - ("M" @ "i")) >> (lit 8))%C
    ) ;;
    SReturn ("D")%C
  )%CS.

(** neon_sim.cpp:2027-2036
<<
int8x8_t vhsub_s8(int8x8_t N, int8x8_t M)
{
    int8x8_t D;
    for (int i = 0; i < 8; i++)
    {
        //D.val[i] = (N.val[i] - M.val[i]) / 2; //not ok: result differs with `>>1`. 说明，移位和除法，是不一样的！
        D.val[i] = (N.val[i] - M.val[i]) >> 1; //ok
    }
    return D;
}
>> *)
Definition vhsub_s8 : func := mkfunc "vhsub_s8" (tvec I8 8)
  [("N", tvec I8 8); ("M", tvec I8 8)]
  (
    SDecl (tvec I8 8) "D" None ;;
    SFor I32 "i" (lit 0)%C ("i" < (lit 8))%C ("i" + (lit 1))%C (
      SAssign "D" [EVar "i"]%C
        ((("N" @ "i") - ("M" @ "i")) >> (lit 1))%C
    ) ;;
    SReturn ("D")%C
  )%CS.

(** neon_sim.cpp:2038-2046
<<
int16x4_t vhsub_s16(int16x4_t N, int16x4_t M)
{
    int16x4_t D;
    for (int i = 0; i < 4; i++)
    {
        D.val[i] = (N.val[i] - M.val[i]) >> 1;
    }
    return D;
}
>> *)
Definition vhsub_s16 : func := mkfunc "vhsub_s16" (tvec I16 4)
  [("N", tvec I16 4); ("M", tvec I16 4)]
  (
    SDecl (tvec I16 4) "D" None ;;
    SFor I32 "i" (lit 0)%C ("i" < (lit 4))%C ("i" + (lit 1))%C (
      SAssign "D" [EVar "i"]%C
        ((("N" @ "i") - ("M" @ "i")) >> (lit 1))%C
    ) ;;
    SReturn ("D")%C
  )%CS.

(** neon_sim.cpp:2048-2056
<<
int32x2_t vhsub_s32(int32x2_t N, int32x2_t M)
{
    int32x2_t D;
    for (int i = 0; i < 2; i++)
    {
        D.val[i] = (N.val[i] - M.val[i]) >> 1;
    }
    return D;
}
>> *)
Definition vhsub_s32 : func := mkfunc "vhsub_s32" (tvec I32 2)
  [("N", tvec I32 2); ("M", tvec I32 2)]
  (
    SDecl (tvec I32 2) "D" None ;;
    SFor I32 "i" (lit 0)%C ("i" < (lit 2))%C ("i" + (lit 1))%C (
      SAssign "D" [EVar "i"]%C
        ((("N" @ "i") - ("M" @ "i")) >> (lit 1))%C
    ) ;;
    SReturn ("D")%C
  )%CS.

(** neon_sim.cpp:2058-2066
<<
uint8x8_t vhsub_u8(uint8x8_t N, uint8x8_t M)
{
    uint8x8_t D;
    for (int i = 0; i < 8; i++)
    {
        D.val[i] = (N.val[i] - M.val[i]) >> 1;
    }
    return D;
}
>> *)
Definition vhsub_u8 : func := mkfunc "vhsub_u8" (tvec U8 8)
  [("N", tvec U8 8); ("M", tvec U8 8)]
  (
    SDecl (tvec U8 8) "D" None ;;
    SFor I32 "i" (lit 0)%C ("i" < (lit 8))%C ("i" + (lit 1))%C (
      SAssign "D" [EVar "i"]%C
        ((("N" @ "i") - ("M" @ "i")) >> (lit 1))%C
    ) ;;
    SReturn ("D")%C
  )%CS.

(** neon_sim.cpp:2068-2076
<<
uint16x4_t vhsub_u16(uint16x4_t N, uint16x4_t M)
{
    uint16x4_t D;
    for (int i = 0; i < 4; i++)
    {
        D.val[i] = (N.val[i] - M.val[i]) >> 1;
    }
    return D;
}
>> *)
Definition vhsub_u16 : func := mkfunc "vhsub_u16" (tvec U16 4)
  [("N", tvec U16 4); ("M", tvec U16 4)]
  (
    SDecl (tvec U16 4) "D" None ;;
    SFor I32 "i" (lit 0)%C ("i" < (lit 4))%C ("i" + (lit 1))%C (
      SAssign "D" [EVar "i"]%C
        ((("N" @ "i") - ("M" @ "i")) >> (lit 1))%C
    ) ;;
    SReturn ("D")%C
  )%CS.

(** neon_sim.cpp:2078-2086
<<
uint32x2_t vhsub_u32(uint32x2_t N, uint32x2_t M)
{
    uint32x2_t D;
    for (int i = 0; i < 2; i++)
    {
        D.val[i] = (N.val[i] - M.val[i]) >> 1;
    }
    return D;
}
>> *)
Definition vhsub_u32 : func := mkfunc "vhsub_u32" (tvec U32 2)
  [("N", tvec U32 2); ("M", tvec U32 2)]
  (
    SDecl (tvec U32 2) "D" None ;;
    SFor I32 "i" (lit 0)%C ("i" < (lit 2))%C ("i" + (lit 1))%C (
      SAssign "D" [EVar "i"]%C
        ((("N" @ "i") - ("M" @ "i")) >> (lit 1))%C
    ) ;;
    SReturn ("D")%C
  )%CS.

(** neon_sim.cpp:2089-2097
<<
int8x16_t vhsubq_s8(int8x16_t N, int8x16_t M)
{
    int8x16_t D;
    for (int i = 0; i < 16; i++)
    {
        D.val[i] = (N.val[i] - M.val[i]) >> 1;
    }
    return D;
}
>> *)
Definition vhsubq_s8 : func := mkfunc "vhsubq_s8" (tvec I8 16)
  [("N", tvec I8 16); ("M", tvec I8 16)]
  (
    SDecl (tvec I8 16) "D" None ;;
    SFor I32 "i" (lit 0)%C ("i" < (lit 16))%C ("i" + (lit 1))%C (
      SAssign "D" [EVar "i"]%C
        ((("N" @ "i") - ("M" @ "i")) >> (lit 1))%C
    ) ;;
    SReturn ("D")%C
  )%CS.

(** neon_sim.cpp:2099-2107
<<
int16x8_t vhsubq_s16(int16x8_t N, int16x8_t M)
{
    int16x8_t D;
    for (int i = 0; i < 8; i++)
    {
        D.val[i] = (N.val[i] - M.val[i]) >> 1;
    }
    return D;
}
>> *)
Definition vhsubq_s16 : func := mkfunc "vhsubq_s16" (tvec I16 8)
  [("N", tvec I16 8); ("M", tvec I16 8)]
  (
    SDecl (tvec I16 8) "D" None ;;
    SFor I32 "i" (lit 0)%C ("i" < (lit 8))%C ("i" + (lit 1))%C (
      SAssign "D" [EVar "i"]%C
        ((("N" @ "i") - ("M" @ "i")) >> (lit 1))%C
    ) ;;
    SReturn ("D")%C
  )%CS.

(** neon_sim.cpp:2109-2117
<<
int32x4_t vhsubq_s32(int32x4_t N, int32x4_t M)
{
    int32x4_t D;
    for (int i = 0; i < 4; i++)
    {
        D.val[i] = (N.val[i] - M.val[i]) >> 1;
    }
    return D;
}
>> *)
Definition vhsubq_s32 : func := mkfunc "vhsubq_s32" (tvec I32 4)
  [("N", tvec I32 4); ("M", tvec I32 4)]
  (
    SDecl (tvec I32 4) "D" None ;;
    SFor I32 "i" (lit 0)%C ("i" < (lit 4))%C ("i" + (lit 1))%C (
      SAssign "D" [EVar "i"]%C
        ((("N" @ "i") - ("M" @ "i")) >> (lit 1))%C
    ) ;;
    SReturn ("D")%C
  )%CS.

(** neon_sim.cpp:2119-2127
<<
uint8x16_t vhsubq_u8(uint8x16_t N, uint8x16_t M)
{
    uint8x16_t D;
    for (int i = 0; i < 16; i++)
    {
        D.val[i] = (N.val[i] - M.val[i]) >> 1;
    }
    return D;
}
>> *)
Definition vhsubq_u8 : func := mkfunc "vhsubq_u8" (tvec U8 16)
  [("N", tvec U8 16); ("M", tvec U8 16)]
  (
    SDecl (tvec U8 16) "D" None ;;
    SFor I32 "i" (lit 0)%C ("i" < (lit 16))%C ("i" + (lit 1))%C (
      SAssign "D" [EVar "i"]%C
        ((("N" @ "i") - ("M" @ "i")) >> (lit 1))%C
    ) ;;
    SReturn ("D")%C
  )%CS.

(** neon_sim.cpp:2129-2137
<<
uint16x8_t vhsubq_u16(uint16x8_t N, uint16x8_t M)
{
    uint16x8_t D;
    for (int i = 0; i < 8; i++)
    {
        D.val[i] = (N.val[i] - M.val[i]) >> 1;
    }
    return D;
}
>> *)
Definition vhsubq_u16 : func := mkfunc "vhsubq_u16" (tvec U16 8)
  [("N", tvec U16 8); ("M", tvec U16 8)]
  (
    SDecl (tvec U16 8) "D" None ;;
    SFor I32 "i" (lit 0)%C ("i" < (lit 8))%C ("i" + (lit 1))%C (
      SAssign "D" [EVar "i"]%C
        ((("N" @ "i") - ("M" @ "i")) >> (lit 1))%C
    ) ;;
    SReturn ("D")%C
  )%CS.

(** neon_sim.cpp:2139-2147
<<
uint32x4_t vhsubq_u32(uint32x4_t N, uint32x4_t M)
{
    uint32x4_t D;
    for (int i = 0; i < 4; i++)
    {
        D.val[i] = (N.val[i] - M.val[i]) >> 1;
    }
    return D;
}
>> *)
Definition vhsubq_u32 : func := mkfunc "vhsubq_u32" (tvec U32 4)
  [("N", tvec U32 4); ("M", tvec U32 4)]
  (
    SDecl (tvec U32 4) "D" None ;;
    SFor I32 "i" (lit 0)%C ("i" < (lit 4))%C ("i" + (lit 1))%C (
      SAssign "D" [EVar "i"]%C
        ((("N" @ "i") - ("M" @ "i")) >> (lit 1))%C
    ) ;;
    SReturn ("D")%C
  )%CS.

(** neon_sim.cpp:2150-2170
<<
int8x8_t vqsub_s8(int8x8_t N, int8x8_t M)
{
    int8x8_t D;
    for (size_t i = 0; i < 8; i++)
    {
        int16_t temp = (int16_t)N.val[i] - (int16_t)M.val[i];
        if (temp > INT8_MAX)
        {
            D.val[i] = INT8_MAX;
        }
        else if (temp < INT8_MIN)
        {
            D.val[i] = INT8_MIN;
        }
        else
        {
            D.val[i] = temp;
        }
    }
    return D;
}
>> *)
Definition vqsub_s8 : func := mkfunc "vqsub_s8" (tvec I8 8)
  [("N", tvec I8 8); ("M", tvec I8 8)]
  (
    SDecl (tvec I8 8) "D" None ;;
    SFor U64 "i" (lit 0)%C ("i" < (lit 8))%C ("i" + (lit 1))%C (
      SDecl (TScal I16) "temp" (Some ((ECast I16 ("N" @ "i")) - (ECast I16 ("M" @ "i")))%C) ;;
      SIf ("temp" > (lit 127))%C (
        SAssign "D" [EVar "i"]%C
          (lit 127)%C
      ) (
        SIf ("temp" < (lit (-128)))%C (
          SAssign "D" [EVar "i"]%C
            (lit (-128))%C
        ) (
          SAssign "D" [EVar "i"]%C
            ("temp")%C
        )
      )
    ) ;;
    SReturn ("D")%C
  )%CS.

(** neon_sim.cpp:2172-2192
<<
int16x4_t vqsub_s16(int16x4_t N, int16x4_t M)
{
    int16x4_t D;
    for (size_t i = 0; i < 4; i++)
    {
        int32_t temp = (int32_t)N.val[i] - (int32_t)M.val[i];
        if (temp > INT16_MAX)
        {
            D.val[i] = INT16_MAX;
        }
        else if (temp < INT16_MIN)
        {
            D.val[i] = INT16_MIN;
        }
        else
        {
            D.val[i] = temp;
        }
    }
    return D;
}
>> *)
Definition vqsub_s16 : func := mkfunc "vqsub_s16" (tvec I16 4)
  [("N", tvec I16 4); ("M", tvec I16 4)]
  (
    SDecl (tvec I16 4) "D" None ;;
    SFor U64 "i" (lit 0)%C ("i" < (lit 4))%C ("i" + (lit 1))%C (
      SDecl (TScal I32) "temp" (Some ((ECast I32 ("N" @ "i")) - (ECast I32 ("M" @ "i")))%C) ;;
      SIf ("temp" > (lit 32767))%C (
        SAssign "D" [EVar "i"]%C
          (lit 32767)%C
      ) (
        SIf ("temp" < (lit (-32768)))%C (
          SAssign "D" [EVar "i"]%C
            (lit (-32768))%C
        ) (
          SAssign "D" [EVar "i"]%C
            ("temp")%C
        )
      )
    ) ;;
    SReturn ("D")%C
  )%CS.

(** neon_sim.cpp:2194-2214
<<
int32x2_t vqsub_s32(int32x2_t N, int32x2_t M)
{
    int32x2_t D;
    for (size_t i = 0; i < 2; i++)
    {
        int64_t temp = (int64_t)N.val[i] - (int64_t)M.val[i];
        if (temp > INT32_MAX)
        {
            D.val[i] = INT32_MAX;
        }
        else if (temp < INT32_MIN)
        {
            D.val[i] = INT32_MIN;
        }
        else
        {
            D.val[i] = temp;
        }
    }
    return D;
}
>> *)
Definition vqsub_s32 : func := mkfunc "vqsub_s32" (tvec I32 2)
  [("N", tvec I32 2); ("M", tvec I32 2)]
  (
    SDecl (tvec I32 2) "D" None ;;
    SFor U64 "i" (lit 0)%C ("i" < (lit 2))%C ("i" + (lit 1))%C (
      SDecl (TScal I64) "temp" (Some ((ECast I64 ("N" @ "i")) - (ECast I64 ("M" @ "i")))%C) ;;
      SIf ("temp" > (lit 2147483647))%C (
        SAssign "D" [EVar "i"]%C
          (lit 2147483647)%C
      ) (
        SIf ("temp" < (lit (-2147483648)))%C (
          SAssign "D" [EVar "i"]%C
            (lit (-2147483648))%C
        ) (
          SAssign "D" [EVar "i"]%C
            ("temp")%C
        )
      )
    ) ;;
    SReturn ("D")%C
  )%CS.

(** neon_sim.cpp:2216-2236
<<
int64x1_t vqsub_s64(int64x1_t N, int64x1_t M)
{
    int64x1_t D;
    for (size_t i = 0; i < 1; i++)
    {
        double temp = (double)N.val[i] - (double)M.val[i];
        if (temp > (double)(INT64_MAX))
        {
            D.val[i] = INT64_MAX;
        }
        else if (temp < INT64_MIN)
        {
            D.val[i] = INT64_MIN;
        }
        else
        {
            D.val[i] = temp;
        }
    }
    return D;
}
>> *)
Definition vqsub_s64 : func := mkfunc "vqsub_s64" (tvec I64 1)
  [("N", tvec I64 1); ("M", tvec I64 1)]
  (
    SDecl (tvec I64 1) "D" None ;;
    SFor U64 "i" (lit 0)%C ("i" < (lit 1))%C ("i" + (lit 1))%C (
      SDecl (TScal F64) "temp" (Some ((ECast F64 ("N" @ "i")) - (ECast F64 ("M" @ "i")))%C) ;;
      SIf ("temp" > (ECast F64 (ELit I64 9223372036854775807)))%C (
        SAssign "D" [EVar "i"]%C
          (ELit I64 9223372036854775807)%C
      ) (
        SIf ("temp" < (ELit I64 (-9223372036854775808)))%C (
          SAssign "D" [EVar "i"]%C
            (ELit I64 (-9223372036854775808))%C
        ) (
          SAssign "D" [EVar "i"]%C
            ("temp")%C
        )
      )
    ) ;;
    SReturn ("D")%C
  )%CS.

(** neon_sim.cpp:2239-2247
<<
int16x8_t vsubl_s8(int8x8_t N, int8x8_t M)
{
    int16x8_t D;
    for (size_t i = 0; i < 8; i++)
    {
        D.val[i] = (int16_t)(N.val[i]) - (int16_t)(M.val[i]);
    }
    return D;
}
>> *)
Definition vsubl_s8 : func := mkfunc "vsubl_s8" (tvec I16 8)
  [("N", tvec I8 8); ("M", tvec I8 8)]
  (
    SDecl (tvec I16 8) "D" None ;;
    SFor U64 "i" (lit 0)%C ("i" < (lit 8))%C ("i" + (lit 1))%C (
      SAssign "D" [EVar "i"]%C
        ((ECast I16 ("N" @ "i")) - (ECast I16 ("M" @ "i")))%C
    ) ;;
    SReturn ("D")%C
  )%CS.

(** neon_sim.cpp:2249-2257
<<
int32x4_t vsubl_s16(int16x4_t N, int16x4_t M)
{
    int32x4_t D;
    for (size_t i = 0; i < 4; i++)
    {
        D.val[i] = (int32_t)(N.val[i]) - (int32_t)(M.val[i]);
    }
    return D;
}
>> *)
Definition vsubl_s16 : func := mkfunc "vsubl_s16" (tvec I32 4)
  [("N", tvec I16 4); ("M", tvec I16 4)]
  (
    SDecl (tvec I32 4) "D" None ;;
    SFor U64 "i" (lit 0)%C ("i" < (lit 4))%C ("i" + (lit 1))%C (
      SAssign "D" [EVar "i"]%C
        ((ECast I32 ("N" @ "i")) - (ECast I32 ("M" @ "i")))%C
    ) ;;
    SReturn ("D")%C
  )%CS.

(** neon_sim.cpp:2259-2267
<<
int64x2_t vsubl_s32(int32x4_t N, int32x2_t M)
{
    int64x2_t D;
    for (size_t i = 0; i < 2; i++)
    {
        D.val[i] = (int64_t)(N.val[i]) - (int64_t)(M.val[i]);
    }
    return D;
}
>> *)
Definition vsubl_s32 : func := mkfunc "vsubl_s32" (tvec I64 2)
  [("N", tvec I32 4); ("M", tvec I32 2)]
  (
    SDecl (tvec I64 2) "D" None ;;
    SFor U64 "i" (lit 0)%C ("i" < (lit 2))%C ("i" + (lit 1))%C (
      SAssign "D" [EVar "i"]%C
        ((ECast I64 ("N" @ "i")) - (ECast I64 ("M" @ "i")))%C
    ) ;;
    SReturn ("D")%C
  )%CS.

(** neon_sim.cpp:2269-2277
<<
uint16x8_t vsubl_u8(uint8x8_t N, uint8x8_t M)
{
    uint16x8_t D;
    for (size_t i = 0; i < 8; i++)
    {
        D.val[i] = (uint16_t)(N.val[i]) - (uint16_t)(M.val[i]);
    }
    return D;
}
>> *)
Definition vsubl_u8 : func := mkfunc "vsubl_u8" (tvec U16 8)
  [("N", tvec U8 8); ("M", tvec U8 8)]
  (
    SDecl (tvec U16 8) "D" None ;;
    SFor U64 "i" (lit 0)%C ("i" < (lit 8))%C ("i" + (lit 1))%C (
      SAssign "D" [EVar "i"]%C
        ((ECast U16 ("N" @ "i")) - (ECast U16 ("M" @ "i")))%C
    ) ;;
    SReturn ("D")%C
  )%CS.

(** neon_sim.cpp:2279-2287
<<
uint32x4_t vsubl_u16(uint16x4_t N, uint16x4_t M)
{
    uint32x4_t D;
    for (size_t i = 0; i < 4; i++)
    {
        D.val[i] = (uint32_t)(N.val[i]) - (uint32_t)(M.val[i]);
    }
    return D;
}
>> *)
Definition vsubl_u16 : func := mkfunc "vsubl_u16" (tvec U32 4)
  [("N", tvec U16 4); ("M", tvec U16 4)]
  (
    SDecl (tvec U32 4) "D" None ;;
    SFor U64 "i" (lit 0)%C ("i" < (lit 4))%C ("i" + (lit 1))%C (
      SAssign "D" [EVar "i"]%C
        ((ECast U32 ("N" @ "i")) - (ECast U32 ("M" @ "i")))%C
    ) ;;
    SReturn ("D")%C
  )%CS.

(** neon_sim.cpp:2289-2297
<<
uint64x2_t vsubl_u32(uint32x4_t N, uint32x2_t M)
{
    uint64x2_t D;
    for (size_t i = 0; i < 2; i++)
    {
        D.val[i] = (uint64_t)(N.val[i]) - (uint64_t)(M.val[i]);
    }
    return D;
}
>> *)
Definition vsubl_u32 : func := mkfunc "vsubl_u32" (tvec U64 2)
  [("N", tvec U32 4); ("M", tvec U32 2)]
  (
    SDecl (tvec U64 2) "D" None ;;
    SFor U64 "i" (lit 0)%C ("i" < (lit 2))%C ("i" + (lit 1))%C (
      SAssign "D" [EVar "i"]%C
        ((ECast U64 ("N" @ "i")) - (ECast U64 ("M" @ "i")))%C
    ) ;;
    SReturn ("D")%C
  )%CS.

(** neon_sim.cpp:2300-2308
<<
int16x8_t vsubw_s8(int16x8_t N, int8x8_t M)
{
    int16x8_t D;
    for (size_t i = 0; i < 8; i++)
    {
        D.val[i] = N.val[i] - (int16_t)(M.val[i]);
    }
    return D;
}
>> *)
Definition vsubw_s8 : func := mkfunc "vsubw_s8" (tvec I16 8)
  [("N", tvec I16 8); ("M", tvec I8 8)]
  (
    SDecl (tvec I16 8) "D" None ;;
    SFor U64 "i" (lit 0)%C ("i" < (lit 8))%C ("i" + (lit 1))%C (
      SAssign "D" [EVar "i"]%C
        (("N" @ "i") - (ECast I16 ("M" @ "i")))%C
    ) ;;
    SReturn ("D")%C
  )%CS.

(** neon_sim.cpp:2310-2318
<<
int32x4_t vsubw_s16(int32x4_t N, int16x4_t M)
{
    int32x4_t D;
    for (size_t i = 0; i < 4; i++)
    {
        D.val[i] = N.val[i] - (int32_t)(M.val[i]);
    }
    return D;
}
>> *)
Definition vsubw_s16 : func := mkfunc "vsubw_s16" (tvec I32 4)
  [("N", tvec I32 4); ("M", tvec I16 4)]
  (
    SDecl (tvec I32 4) "D" None ;;
    SFor U64 "i" (lit 0)%C ("i" < (lit 4))%C ("i" + (lit 1))%C (
      SAssign "D" [EVar "i"]%C
        (("N" @ "i") - (ECast I32 ("M" @ "i")))%C
    ) ;;
    SReturn ("D")%C
  )%CS.

(** neon_sim.cpp:2320-2328
<<
int64x2_t vsubw_s32(int64x2_t N, int32x2_t M)
{
    int64x2_t D;
    for (size_t i = 0; i < 2; i++)
    {
        D.val[i] = N.val[i] - (int64_t)(M.val[i]);
    }
    return D;
}
>> *)
Definition vsubw_s32 : func := mkfunc "vsubw_s32" (tvec I64 2)
  [("N", tvec I64 2); ("M", tvec I32 2)]
  (
    SDecl (tvec I64 2) "D" None ;;
    SFor U64 "i" (lit 0)%C ("i" < (lit 2))%C ("i" + (lit 1))%C (
      SAssign "D" [EVar "i"]%C
        (("N" @ "i") - (ECast I64 ("M" @ "i")))%C
    ) ;;
    SReturn ("D")%C
  )%CS.

(** neon_sim.cpp:2330-2338
<<
uint16x8_t vsubw_u8(uint16x8_t N, uint8x8_t M)
{
    uint16x8_t D;
    for (size_t i = 0; i < 8; i++)
    {
        D.val[i] = N.val[i] - (uint16_t)(M.val[i]);
    }
    return D;
}
>> *)
Definition vsubw_u8 : func := mkfunc "vsubw_u8" (tvec U16 8)
  [("N", tvec U16 8); ("M", tvec U8 8)]
  (
    SDecl (tvec U16 8) "D" None ;;
    SFor U64 "i" (lit 0)%C ("i" < (lit 8))%C ("i" + (lit 1))%C (
      SAssign "D" [EVar "i"]%C
        (("N" @ "i") - (ECast U16 ("M" @ "i")))%C
    ) ;;
    SReturn ("D")%C
  )%CS.

(** neon_sim.cpp:2340-2348
<<
uint32x4_t vsubw_u16(uint32x4_t N, uint16x4_t M)
{
    uint32x4_t D;
    for (size_t i = 0; i < 4; i++)
    {
        D.val[i] = N.val[i] - (uint32_t)(M.val[i]);
    }
    return D;
}
>> *)
Definition vsubw_u16 : func := mkfunc "vsubw_u16" (tvec U32 4)
  [("N", tvec U32 4); ("M", tvec U16 4)]
  (
    SDecl (tvec U32 4) "D" None ;;
    SFor U64 "i" (lit 0)%C ("i" < (lit 4))%C ("i" + (lit 1))%C (
      SAssign "D" [EVar "i"]%C
        (("N" @ "i") - (ECast U32 ("M" @ "i")))%C
    ) ;;
    SReturn ("D")%C
  )%CS.

(** neon_sim.cpp:2350-2358
<<
uint64x2_t vsubw_u32(uint64x2_t N, uint32x2_t M)
{
    uint64x2_t D;
    for (size_t i = 0; i < 2; i++)
    {
        D.val[i] = N.val[i] - (uint64_t)(M.val[i]);
    }
    return D;
}
>> *)
Definition vsubw_u32 : func := mkfunc "vsubw_u32" (tvec U64 2)
  [("N", tvec U64 2); ("M", tvec U32 2)]
  (
    SDecl (tvec U64 2) "D" None ;;
    SFor U64 "i" (lit 0)%C ("i" < (lit 2))%C ("i" + (lit 1))%C (
      SAssign "D" [EVar "i"]%C
        (("N" @ "i") - (ECast U64 ("M" @ "i")))%C
    ) ;;
    SReturn ("D")%C
  )%CS.

(** neon_sim.cpp:2360-2380
<<
uint8x8_t vqsub_u8(uint8x8_t N, uint8x8_t M)
{
    uint8x8_t D;
    for (size_t i = 0; i < 8; i++)
    {
        int16_t temp = (int16_t)N.val[i] - (int16_t)M.val[i];
        if (temp > UINT8_MAX)
        {
            D.val[i] = UINT8_MAX;
        }
        else if (temp < 0)
        {
            D.val[i] = 0;
        }
        else
        {
            D.val[i] = temp;
        }
    }
    return D;
}
>> *)
Definition vqsub_u8 : func := mkfunc "vqsub_u8" (tvec U8 8)
  [("N", tvec U8 8); ("M", tvec U8 8)]
  (
    SDecl (tvec U8 8) "D" None ;;
    SFor U64 "i" (lit 0)%C ("i" < (lit 8))%C ("i" + (lit 1))%C (
      SDecl (TScal I16) "temp" (Some ((ECast I16 ("N" @ "i")) - (ECast I16 ("M" @ "i")))%C) ;;
      SIf ("temp" > (lit 255))%C (
        SAssign "D" [EVar "i"]%C
          (lit 255)%C
      ) (
        SIf ("temp" < (lit 0))%C (
          SAssign "D" [EVar "i"]%C
            (lit 0)%C
        ) (
          SAssign "D" [EVar "i"]%C
            ("temp")%C
        )
      )
    ) ;;
    SReturn ("D")%C
  )%CS.

(** neon_sim.cpp:2382-2402
<<
uint16x4_t vqsub_u16(uint16x4_t N, uint16x4_t M)
{
    uint16x4_t D;
    for (size_t i = 0; i < 4; i++)
    {
        int32_t temp = (int32_t)N.val[i] - (int32_t)M.val[i];
        if (temp > UINT16_MAX)
        {
            D.val[i] = UINT16_MAX;
        }
        else if (temp < 0)
        {
            D.val[i] = 0;
        }
        else
        {
            D.val[i] = temp;
        }
    }
    return D;
}
>> *)
Definition vqsub_u16 : func := mkfunc "vqsub_u16" (tvec U16 4)
  [("N", tvec U16 4); ("M", tvec U16 4)]
  (
    SDecl (tvec U16 4) "D" None ;;
    SFor U64 "i" (lit 0)%C ("i" < (lit 4))%C ("i" + (lit 1))%C (
      SDecl (TScal I32) "temp" (Some ((ECast I32 ("N" @ "i")) - (ECast I32 ("M" @ "i")))%C) ;;
      SIf ("temp" > (lit 65535))%C (
        SAssign "D" [EVar "i"]%C
          (lit 65535)%C
      ) (
        SIf ("temp" < (lit 0))%C (
          SAssign "D" [EVar "i"]%C
            (lit 0)%C
        ) (
          SAssign "D" [EVar "i"]%C
            ("temp")%C
        )
      )
    ) ;;
    SReturn ("D")%C
  )%CS.

(** neon_sim.cpp:2404-2424
<<
uint32x2_t vqsub_u32(uint32x2_t N, uint32x2_t M)
{
    uint32x2_t D;
    for (size_t i = 0; i < 2; i++)
    {
        int64_t temp = (int64_t)N.val[i] - (int64_t)M.val[i];
        if (temp > UINT32_MAX)
        {
            D.val[i] = UINT32_MAX;
        }
        else if (temp < 0)
        {
            D.val[i] = 0;
        }
        else
        {
            D.val[i] = temp;
        }
    }
    return D;
}
>> *)
Definition vqsub_u32 : func := mkfunc "vqsub_u32" (tvec U32 2)
  [("N", tvec U32 2); ("M", tvec U32 2)]
  (
    SDecl (tvec U32 2) "D" None ;;
    SFor U64 "i" (lit 0)%C ("i" < (lit 2))%C ("i" + (lit 1))%C (
      SDecl (TScal I64) "temp" (Some ((ECast I64 ("N" @ "i")) - (ECast I64 ("M" @ "i")))%C) ;;
      SIf ("temp" > (ELit U32 4294967295))%C (
        SAssign "D" [EVar "i"]%C
          (ELit U32 4294967295)%C
      ) (
        SIf ("temp" < (lit 0))%C (
          SAssign "D" [EVar "i"]%C
            (lit 0)%C
        ) (
          SAssign "D" [EVar "i"]%C
            ("temp")%C
        )
      )
    ) ;;
    SReturn ("D")%C
  )%CS.

(** neon_sim.cpp:2426-2446
<<
uint64x1_t vqsub_u64(uint64x1_t N, uint64x1_t M)
{
    uint64x1_t D;
    for (size_t i = 0; i < 1; i++)
    {
        double temp = (double)N.val[i] - (double)M.val[i];
        if (temp > (double)(UINT64_MAX))
        {
            D.val[i] = UINT64_MAX;
        }
        else if (temp < 0)
        {
            D.val[i] = 0;
        }
        else
        {
            D.val[i] = temp;
        }
    }
    return D;
}
>> *)
Definition vqsub_u64 : func := mkfunc "vqsub_u64" (tvec U64 1)
  [("N", tvec U64 1); ("M", tvec U64 1)]
  (
    SDecl (tvec U64 1) "D" None ;;
    SFor U64 "i" (lit 0)%C ("i" < (lit 1))%C ("i" + (lit 1))%C (
      SDecl (TScal F64) "temp" (Some ((ECast F64 ("N" @ "i")) - (ECast F64 ("M" @ "i")))%C) ;;
      SIf ("temp" > (ECast F64 (ELit U64 18446744073709551615)))%C (
        SAssign "D" [EVar "i"]%C
          (ELit U64 18446744073709551615)%C
      ) (
        SIf ("temp" < (lit 0))%C (
          SAssign "D" [EVar "i"]%C
            (lit 0)%C
        ) (
          SAssign "D" [EVar "i"]%C
            ("temp")%C
        )
      )
    ) ;;
    SReturn ("D")%C
  )%CS.

(** neon_sim.cpp:2449-2469
<<
int8x16_t vqsubq_s8(int8x16_t N, int8x16_t M)
{
    int8x16_t D;
    for (size_t i = 0; i < 16; i++)
    {
        int16_t temp = (int16_t)N.val[i] - (int16_t)M.val[i];
        if (temp > INT8_MAX)
        {
            D.val[i] = INT8_MAX;
        }
        else if (temp < INT8_MIN)
        {
            D.val[i] = INT8_MIN;
        }
        else
        {
            D.val[i] = temp;
        }
    }
    return D;
}
>> *)
Definition vqsubq_s8 : func := mkfunc "vqsubq_s8" (tvec I8 16)
  [("N", tvec I8 16); ("M", tvec I8 16)]
  (
    SDecl (tvec I8 16) "D" None ;;
    SFor U64 "i" (lit 0)%C ("i" < (lit 16))%C ("i" + (lit 1))%C (
      SDecl (TScal I16) "temp" (Some ((ECast I16 ("N" @ "i")) - (ECast I16 ("M" @ "i")))%C) ;;
      SIf ("temp" > (lit 127))%C (
        SAssign "D" [EVar "i"]%C
          (lit 127)%C
      ) (
        SIf ("temp" < (lit (-128)))%C (
          SAssign "D" [EVar "i"]%C
            (lit (-128))%C
        ) (
          SAssign "D" [EVar "i"]%C
            ("temp")%C
        )
      )
    ) ;;
    SReturn ("D")%C
  )%CS.

(** neon_sim.cpp:2471-2491
<<
int16x8_t vqsubq_s16(int16x8_t N, int16x8_t M)
{
    int16x8_t D;
    for (size_t i = 0; i < 8; i++)
    {
        int32_t temp = (int32_t)N.val[i] - (int32_t)M.val[i];
        if (temp > INT16_MAX)
        {
            D.val[i] = INT16_MAX;
        }
        else if (temp < INT16_MIN)
        {
            D.val[i] = INT16_MIN;
        }
        else
        {
            D.val[i] = temp;
        }
    }
    return D;
}
>> *)
Definition vqsubq_s16 : func := mkfunc "vqsubq_s16" (tvec I16 8)
  [("N", tvec I16 8); ("M", tvec I16 8)]
  (
    SDecl (tvec I16 8) "D" None ;;
    SFor U64 "i" (lit 0)%C ("i" < (lit 8))%C ("i" + (lit 1))%C (
      SDecl (TScal I32) "temp" (Some ((ECast I32 ("N" @ "i")) - (ECast I32 ("M" @ "i")))%C) ;;
      SIf ("temp" > (lit 32767))%C (
        SAssign "D" [EVar "i"]%C
          (lit 32767)%C
      ) (
        SIf ("temp" < (lit (-32768)))%C (
          SAssign "D" [EVar "i"]%C
            (lit (-32768))%C
        ) (
          SAssign "D" [EVar "i"]%C
            ("temp")%C
        )
      )
    ) ;;
    SReturn ("D")%C
  )%CS.

(** neon_sim.cpp:2493-2513
<<
int32x4_t vqsubq_s32(int32x4_t N, int32x4_t M)
{
    int32x4_t D;
    for (size_t i = 0; i < 4; i++)
    {
        int64_t temp = (int64_t)N.val[i] - (int64_t)M.val[i];
        if (temp > INT32_MAX)
        {
            D.val[i] = INT32_MAX;
        }
        else if (temp < INT32_MIN)
        {
            D.val[i] = INT32_MIN;
        }
        else
        {
            D.val[i] = temp;
        }
    }
    return D;
}
>> *)
Definition vqsubq_s32 : func := mkfunc "vqsubq_s32" (tvec I32 4)
  [("N", tvec I32 4); ("M", tvec I32 4)]
  (
    SDecl (tvec I32 4) "D" None ;;
    SFor U64 "i" (lit 0)%C ("i" < (lit 4))%C ("i" + (lit 1))%C (
      SDecl (TScal I64) "temp" (Some ((ECast I64 ("N" @ "i")) - (ECast I64 ("M" @ "i")))%C) ;;
      SIf ("temp" > (lit 2147483647))%C (
        SAssign "D" [EVar "i"]%C
          (lit 2147483647)%C
      ) (
        SIf ("temp" < (lit (-2147483648)))%C (
          SAssign "D" [EVar "i"]%C
            (lit (-2147483648))%C
        ) (
          SAssign "D" [EVar "i"]%C
            ("temp")%C
        )
      )
    ) ;;
    SReturn ("D")%C
  )%CS.

(** neon_sim.cpp:2515-2535
<<
int64x2_t vqsubq_s64(int64x2_t N, int64x2_t M)
{
    int64x2_t D;
    for (size_t i = 0; i < 2; i++)
    {
        double temp = (double)N.val[i] - (double)M.val[i];
        if (temp > (double)(INT64_MAX))
        {
            D.val[i] = INT64_MAX;
        }
        else if (temp < INT64_MIN)
        {
            D.val[i] = INT64_MIN;
        }
        else
        {
            D.val[i] = temp;
        }
    }
    return D;
}
>> *)
Definition vqsubq_s64 : func := mkfunc "vqsubq_s64" (tvec I64 2)
  [("N", tvec I64 2); ("M", tvec I64 2)]
  (
    SDecl (tvec I64 2) "D" None ;;
    SFor U64 "i" (lit 0)%C ("i" < (lit 2))%C ("i" + (lit 1))%C (
      SDecl (TScal F64) "temp" (Some ((ECast F64 ("N" @ "i")) - (ECast F64 ("M" @ "i")))%C) ;;
      SIf ("temp" > (ECast F64 (ELit I64 9223372036854775807)))%C (
        SAssign "D" [EVar "i"]%C
          (ELit I64 9223372036854775807)%C
      ) (
        SIf ("temp" < (ELit I64 (-9223372036854775808)))%C (
          SAssign "D" [EVar "i"]%C
            (ELit I64 (-9223372036854775808))%C
        ) (
          SAssign "D" [EVar "i"]%C
            ("temp")%C
        )
      )
    ) ;;
    SReturn ("D")%C
  )%CS.

(** neon_sim.cpp:2537-2557
<<
uint8x16_t vqsubq_u8(uint8x16_t N, uint8x16_t M)
{
    uint8x16_t D;
    for (size_t i = 0; i < 16; i++)
    {
        int16_t temp = (int16_t)N.val[i] - (int16_t)M.val[i];
        if (temp > UINT8_MAX)
        {
            D.val[i] = UINT8_MAX;
        }
        else if (temp < 0)
        {
            D.val[i] = 0;
        }
        else
        {
            D.val[i] = temp;
        }
    }
    return D;
}
>> *)
Definition vqsubq_u8 : func := mkfunc "vqsubq_u8" (tvec U8 16)
  [("N", tvec U8 16); ("M", tvec U8 16)]
  (
    SDecl (tvec U8 16) "D" None ;;
    SFor U64 "i" (lit 0)%C ("i" < (lit 16))%C ("i" + (lit 1))%C (
      SDecl (TScal I16) "temp" (Some ((ECast I16 ("N" @ "i")) - (ECast I16 ("M" @ "i")))%C) ;;
      SIf ("temp" > (lit 255))%C (
        SAssign "D" [EVar "i"]%C
          (lit 255)%C
      ) (
        SIf ("temp" < (lit 0))%C (
          SAssign "D" [EVar "i"]%C
            (lit 0)%C
        ) (
          SAssign "D" [EVar "i"]%C
            ("temp")%C
        )
      )
    ) ;;
    SReturn ("D")%C
  )%CS.

(** neon_sim.cpp:2559-2579
<<
uint16x8_t vqsubq_u16(uint16x8_t N, uint16x8_t M)
{
    uint16x8_t D;
    for (size_t i = 0; i < 8; i++)
    {
        int32_t temp = (int32_t)N.val[i] - (int32_t)M.val[i];
        if (temp > UINT16_MAX)
        {
            D.val[i] = UINT16_MAX;
        }
        else if (temp < 0)
        {
            D.val[i] = 0;
        }
        else
        {
            D.val[i] = temp;
        }
    }
    return D;
}
>> *)
Definition vqsubq_u16 : func := mkfunc "vqsubq_u16" (tvec U16 8)
  [("N", tvec U16 8); ("M", tvec U16 8)]
  (
    SDecl (tvec U16 8) "D" None ;;
    SFor U64 "i" (lit 0)%C ("i" < (lit 8))%C ("i" + (lit 1))%C (
      SDecl (TScal I32) "temp" (Some ((ECast I32 ("N" @ "i")) - (ECast I32 ("M" @ "i")))%C) ;;
      SIf ("temp" > (lit 65535))%C (
        SAssign "D" [EVar "i"]%C
          (lit 65535)%C
      ) (
        SIf ("temp" < (lit 0))%C (
          SAssign "D" [EVar "i"]%C
            (lit 0)%C
        ) (
          SAssign "D" [EVar "i"]%C
            ("temp")%C
        )
      )
    ) ;;
    SReturn ("D")%C
  )%CS.

(** neon_sim.cpp:2581-2601
<<
uint32x4_t vqsubq_u32(uint32x4_t N, uint32x4_t M)
{
    uint32x4_t D;
    for (size_t i = 0; i < 4; i++)
    {
        int64_t temp = (int64_t)N.val[i] - (int64_t)M.val[i];
        if (temp > UINT32_MAX)
        {
            D.val[i] = UINT32_MAX;
        }
        else if (temp < 0)
        {
            D.val[i] = 0;
        }
        else
        {
            D.val[i] = temp;
        }
    }
    return D;
}
>> *)
Definition vqsubq_u32 : func := mkfunc "vqsubq_u32" (tvec U32 4)
  [("N", tvec U32 4); ("M", tvec U32 4)]
  (
    SDecl (tvec U32 4) "D" None ;;
    SFor U64 "i" (lit 0)%C ("i" < (lit 4))%C ("i" + (lit 1))%C (
      SDecl (TScal I64) "temp" (Some ((ECast I64 ("N" @ "i")) - (ECast I64 ("M" @ "i")))%C) ;;
      SIf ("temp" > (ELit U32 4294967295))%C (
        SAssign "D" [EVar "i"]%C
          (ELit U32 4294967295)%C
      ) (
        SIf ("temp" < (lit 0))%C (
          SAssign "D" [EVar "i"]%C
            (lit 0)%C
        ) (
          SAssign "D" [EVar "i"]%C
            ("temp")%C
        )
      )
    ) ;;
    SReturn ("D")%C
  )%CS.

(** neon_sim.cpp:2603-2623
<<
uint64x2_t vqsubq_u64(uint64x2_t N, uint64x2_t M)
{
    uint64x2_t D;
    for (size_t i = 0; i < 2; i++)
    {
        double temp = (double)N.val[i] - (double)M.val[i];
        if (temp > (double)(UINT64_MAX))
        {
            D.val[i] = UINT64_MAX;
        }
        else if (temp < 0)
        {
            D.val[i] = 0;
        }
        else
        {
            D.val[i] = temp;
        }
    }
    return D;
}
>> *)
Definition vqsubq_u64 : func := mkfunc "vqsubq_u64" (tvec U64 2)
  [("N", tvec U64 2); ("M", tvec U64 2)]
  (
    SDecl (tvec U64 2) "D" None ;;
    SFor U64 "i" (lit 0)%C ("i" < (lit 2))%C ("i" + (lit 1))%C (
      SDecl (TScal F64) "temp" (Some ((ECast F64 ("N" @ "i")) - (ECast F64 ("M" @ "i")))%C) ;;
      SIf ("temp" > (ECast F64 (ELit U64 18446744073709551615)))%C (
        SAssign "D" [EVar "i"]%C
          (ELit U64 18446744073709551615)%C
      ) (
        SIf ("temp" < (lit 0))%C (
          SAssign "D" [EVar "i"]%C
            (lit 0)%C
        ) (
          SAssign "D" [EVar "i"]%C
            ("temp")%C
        )
      )
    ) ;;
    SReturn ("D")%C
  )%CS.

(** neon_sim.cpp:2625-2635
<<
int8x8_t vrsubhn_s16(int16x8_t N, int16x8_t M)
{
    int8x8_t D;
    const int16_t shift = 8;
    const int16_t delta = (1 << (shift - 1));
    for (int i = 0; i < 8; i++)
    {
        D.val[i] = (N.val[i] - M.val[i] + delta) >> shift;
    }
    return D;
}
>> *)
Definition vrsubhn_s16 : func := mkfunc "vrsubhn_s16" (tvec I8 8)
  [("N", tvec I16 8); ("M", tvec I16 8)]
  (
    SDecl (tvec I8 8) "D" None ;;
    SDecl (TScal I16) "shift" (Some (lit 8)%C) ;;
    SDecl (TScal I16) "delta" (Some ((lit 1) << ("shift" - (lit 1)))%C) ;;
    SFor I32 "i" (lit 0)%C ("i" < (lit 8))%C ("i" + (lit 1))%C (
      SAssign "D" [EVar "i"]%C
        (((("N" @ "i") - ("M" @ "i")) + "delta") >> "shift")%C
    ) ;;
    SReturn ("D")%C
  )%CS.

(** neon_sim.cpp:2637-2647
<<
int16x4_t vrsubhn_s32(int32x4_t N, int32x4_t M)
{
    int16x4_t D;
    const int32_t shift = 16;
    const int32_t delta = (1 << (shift - 1));
    for (int i = 0; i < 4; i++)
    {
        D.val[i] = (N.val[i] - M.val[i] + delta) >> shift;
    }
    return D;
}
>> *)
Definition vrsubhn_s32 : func := mkfunc "vrsubhn_s32" (tvec I16 4)
  [("N", tvec I32 4); ("M", tvec I32 4)]
  (
    SDecl (tvec I16 4) "D" None ;;
    SDecl (TScal I32) "shift" (Some (lit 16)%C) ;;
    SDecl (TScal I32) "delta" (Some ((lit 1) << ("shift" - (lit 1)))%C) ;;
    SFor I32 "i" (lit 0)%C ("i" < (lit 4))%C ("i" + (lit 1))%C (
      SAssign "D" [EVar "i"]%C
        (((("N" @ "i") - ("M" @ "i")) + "delta") >> "shift")%C
    ) ;;
    SReturn ("D")%C
  )%CS.

(** neon_sim.cpp:2649-2659
<<
int32x2_t vrsubhn_s64(int64x2_t N, int64x2_t M)
{
    int32x2_t D;
    const int64_t shift = 32;
    const int64_t delta = (1 << (shift - 1));
    for (int i = 0; i < 2; i++)
    {
        D.val[i] = (N.val[i] - M.val[i] + delta) >> shift;
    }
    return D;
}
>> *)
Definition vrsubhn_s64 : func := mkfunc "vrsubhn_s64" (tvec I32 2)
  [("N", tvec I64 2); ("M", tvec I64 2)]
  (
    SDecl (tvec I32 2) "D" None ;;
    SDecl (TScal I64) "shift" (Some (lit 32)%C) ;;
    SDecl (TScal I64) "delta" (Some ((lit 1) << ("shift" - (lit 1)))%C) ;;
    SFor I32 "i" (lit 0)%C ("i" < (lit 2))%C ("i" + (lit 1))%C (
      SAssign "D" [EVar "i"]%C
        (((("N" @ "i") - ("M" @ "i")) + "delta") >> "shift")%C
    ) ;;
    SReturn ("D")%C
  )%CS.

(** neon_sim.cpp:2661-2671
<<
uint8x8_t vrsubhn_u16(uint16x8_t N, uint16x8_t M)
{
    uint8x8_t D;
    const uint16_t shift = 8;
    const uint16_t delta = (1 << (shift - 1));
    for (int i = 0; i < 8; i++)
    {
        D.val[i] = (N.val[i] - M.val[i] + delta) >> shift;
    }
    return D;
}
>> *)
Definition vrsubhn_u16 : func := mkfunc "vrsubhn_u16" (tvec U8 8)
  [("N", tvec U16 8); ("M", tvec U16 8)]
  (
    SDecl (tvec U8 8) "D" None ;;
    SDecl (TScal U16) "shift" (Some (lit 8)%C) ;;
    SDecl (TScal U16) "delta" (Some ((lit 1) << ("shift" - (lit 1)))%C) ;;
    SFor I32 "i" (lit 0)%C ("i" < (lit 8))%C ("i" + (lit 1))%C (
      SAssign "D" [EVar "i"]%C
        (((("N" @ "i") - ("M" @ "i")) + "delta") >> "shift")%C
    ) ;;
    SReturn ("D")%C
  )%CS.

(** neon_sim.cpp:2673-2683
<<
uint16x4_t vrsubhn_u32(uint32x4_t N, uint32x4_t M)
{
    uint16x4_t D;
    const uint32_t shift = 16;
    const uint32_t delta = (1 << (shift - 1));
    for (int i = 0; i < 4; i++)
    {
        D.val[i] = (N.val[i] - M.val[i] + delta) >> shift;
    }
    return D;
}
>> *)
Definition vrsubhn_u32 : func := mkfunc "vrsubhn_u32" (tvec U16 4)
  [("N", tvec U32 4); ("M", tvec U32 4)]
  (
    SDecl (tvec U16 4) "D" None ;;
    SDecl (TScal U32) "shift" (Some (lit 16)%C) ;;
    SDecl (TScal U32) "delta" (Some ((lit 1) << ("shift" - (lit 1)))%C) ;;
    SFor I32 "i" (lit 0)%C ("i" < (lit 4))%C ("i" + (lit 1))%C (
      SAssign "D" [EVar "i"]%C
        (((("N" @ "i") - ("M" @ "i")) + "delta") >> "shift")%C
    ) ;;
    SReturn ("D")%C
  )%CS.

(** neon_sim.cpp:2685-2695
<<
uint32x2_t vrsubhn_u64(uint64x2_t N, uint64x2_t M)
{
    uint32x2_t D;
    const uint64_t shift = 32;
    const uint64_t delta = (1 << (shift - 1));
    for (int i = 0; i < 2; i++)
    {
        D.val[i] = (N.val[i] - M.val[i] + delta) >> shift;
    }
    return D;
}
>> *)
Definition vrsubhn_u64 : func := mkfunc "vrsubhn_u64" (tvec U32 2)
  [("N", tvec U64 2); ("M", tvec U64 2)]
  (
    SDecl (tvec U32 2) "D" None ;;
    SDecl (TScal U64) "shift" (Some (lit 32)%C) ;;
    SDecl (TScal U64) "delta" (Some ((lit 1) << ("shift" - (lit 1)))%C) ;;
    SFor I32 "i" (lit 0)%C ("i" < (lit 2))%C ("i" + (lit 1))%C (
      SAssign "D" [EVar "i"]%C
        (((("N" @ "i") - ("M" @ "i")) + "delta") >> "shift")%C
    ) ;;
    SReturn ("D")%C
  )%CS.
