(** Generated by tools/translate.py from neon_sim.cpp: max, addition.
    The C text is quoted above each definition (double quotes shown as single). *)
From Coq Require Import ZArith List String.
From Verif Require Import Types Syntax.
Import ListNotations.
Open Scope Z_scope.
Local Open Scope string_scope.

(** neon_sim.cpp:1212-1220
<<
int8x16_t vmaxq_s8(int8x16_t N, int8x16_t M)
{
    int8x16_t D;
    for (int i = 0; i < 16; i++)
    {
        D.val[i] = N.val[i] > M.val[i] ? N.val[i] : M.val[i];
    }
    return D;
}
>> *)
Definition vmaxq_s8 : func := mkfunc "vmaxq_s8" (tvec I8 16)
  [("N", tvec I8 16); ("M", tvec I8 16)]
  (
    SDecl (tvec I8 16) "D" None ;;
    SFor I32 "i" (lit 0)%C ("i" < (lit 16))%C ("i" + (lit 1))%C (
      SAssign "D" [EVar "i"]%C
        (ECond (("N" @ "i") > ("M" @ "i")) ("N" @ "i") ("M" @ "i"))%C
    ) ;;
    SReturn ("D")%C
  )%CS.

(** neon_sim.cpp:1222-1230
<<
int16x8_t vmaxq_s16(int16x8_t N, int16x8_t M)
{
    int16x8_t D;
    for (int i = 0; i < 8; i++)
    {
        D.val[i] = N.val[i] > M.val[i] ? N.val[i] : M.val[i];
    }
    return D;
}
>> *)
Definition vmaxq_s16 : func := mkfunc "vmaxq_s16" (tvec I16 8)
  [("N", tvec I16 8); ("M", tvec I16 8)]
  (
    SDecl (tvec I16 8) "D" None ;;
    SFor I32 "i" (lit 0)%C ("i" < (lit 8))%C ("i" + (lit 1))%C (
      SAssign "D" [EVar "i"]%C
        (ECond (("N" @ "i") > ("M" @ "i")) ("N" @ "i") ("M" @ "i"))%C
    ) ;;
    SReturn ("D")%C
  )%CS.

(** neon_sim.cpp:1232-1240
<<
int32x4_t vmaxq_s32(int32x4_t N, int32x4_t M)
{
    int32x4_t D;
    for (int i = 0; i < 4; i++)
    {
        D.val[i] = N.val[i] > M.val[i] ? N.val[i] : M.val[i];
    }
    return D;
}
>> *)
Definition vmaxq_s32 : func := mkfunc "vmaxq_s32" (tvec I32 4)
  [("N", tvec I32 4); ("M", tvec I32 4)]
  (
    SDecl (tvec I32 4) "D" None ;;
    SFor I32 "i" (lit 0)%C ("i" < (lit 4))%C ("i" + (lit 1))%C (
      SAssign "D" [EVar "i"]%C
        (ECond (("N" @ "i") > ("M" @ "i")) ("N" @ "i") ("M" @ "i"))%C
    ) ;;
    SReturn ("D")%C
  )%CS.

(** neon_sim.cpp:1242-1250
<<
int8x16_t vmaxq_u8(int8x16_t N, int8x16_t M)
{
    int8x16_t D;
    for (int i = 0; i < 16; i++)
    {
        D.val[i] = N.val[i] > M.val[i] ? N.val[i] : M.val[i];
    }
    return D;
}
>> *)
Definition vmaxq_u8 : func := mkfunc "vmaxq_u8" (tvec I8 16)
  [("N", tvec I8 16); ("M", tvec I8 16)]
  (
    SDecl (tvec I8 16) "D" None ;;
    SFor I32 "i" (lit 0)%C ("i" < (lit 16))%C ("i" + (lit 1))%C (
      SAssign "D" [EVar "i"]%C
        (ECond (("N" @ "i") > ("M" @ "i")) ("N" @ "i") ("M" @ "i"))%C
    ) ;;
    SReturn ("D")%C
  )%CS.

(** neon_sim.cpp:1252-1260
<<
int16x8_t vmaxq_u16(int16x8_t N, int16x8_t M)
{
    int16x8_t D;
    for (int i = 0; i < 8; i++)
    {
        D.val[i] = N.val[i] > M.val[i] ? N.val[i] : M.val[i];
    }
    return D;
}
>> *)
Definition vmaxq_u16 : func := mkfunc "vmaxq_u16" (tvec I16 8)
  [("N", tvec I16 8); ("M", tvec I16 8)]
  (
    SDecl (tvec I16 8) "D" None ;;
    SFor I32 "i" (lit 0)%C ("i" < (lit 8))%C ("i" + (lit 1))%C (
      SAssign "D" [EVar "i"]%C
        (ECond (("N" @ "i") > ("M" @ "i")) ("N" @ "i") ("M" @ "i"))%C
    ) ;;
    SReturn ("D")%C
  )%CS.

(** neon_sim.cpp:1262-1270
<<
int32x4_t vmaxq_u32(int32x4_t N, int32x4_t M)
{
    int32x4_t D;
    for (int i = 0; i < 4; i++)
    {
        D.val[i] = N.val[i] > M.val[i] ? N.val[i] : M.val[i];
    }
    return D;
}
>> *)
Definition vmaxq_u32 : func := mkfunc "vmaxq_u32" (tvec I32 4)
  [("N", tvec I32 4); ("M", tvec I32 4)]
  (
    SDecl (tvec I32 4) "D" None ;;
    SFor I32 "i" (lit 0)%C ("i" < (lit 4))%C ("i" + (lit 1))%C (
      SAssign "D" [EVar "i"]%C
        (ECond (("N" @ "i") > ("M" @ "i")) ("N" @ "i") ("M" @ "i"))%C
    ) ;;
    SReturn ("D")%C
  )%CS.

(** neon_sim.cpp:1272-1280
<<
float32x4_t vmaxq_f32(float32x4_t N, float32x4_t M)
{
    float32x4_t D;
    for (int i = 0; i < 4; i++)
    {
        D.val[i] = N.val[i] > M.val[i] ? N.val[i] : M.val[i];
    }
    return D;
}
>> *)
Definition vmaxq_f32 : func := mkfunc "vmaxq_f32" (tvec F32 4)
  [("N", tvec F32 4); ("M", tvec F32 4)]
  (
    SDecl (tvec F32 4) "D" None ;;
    SFor I32 "i" (lit 0)%C ("i" < (lit 4))%C ("i" + (lit 1))%C (
      SAssign "D" [EVar "i"]%C
        (ECond (("N" @ "i") > ("M" @ "i")) ("N" @ "i") ("M" @ "i"))%C
    ) ;;
    SReturn ("D")%C
  )%CS.

(** neon_sim.cpp:1285-1293
<<
int8x8_t vadd_s8(int8x8_t N, int8x8_t M)
{
    int8x8_t D;
    for (size_t i = 0; i < 8; i++)
    {
        D.val[i] = N.val[i] + M.val[i];
    }
    return D;
}
>> *)
Definition vadd_s8 : func := mkfunc "vadd_s8" (tvec I8 8)
  [("N", tvec I8 8); ("M", tvec I8 8)]
  (
    SDecl (tvec I8 8) "D" None ;;
    SFor U64 "i" (lit 0)%C ("i" < (lit 8))%C ("i" + (lit 1))%C (
      SAssign "D" [EVar "i"]%C
        (("N" @ "i") + ("M" @ "i"))%C
    ) ;;
    SReturn ("D")%C
  )%CS.

(** neon_sim.cpp:1295-1303
<<
int16x4_t vadd_s16(int16x4_t N, int16x4_t M)
{
    int16x4_t D;
    for (size_t i = 0; i < 4; i++)
    {
        D.val[i] = N.val[i] + M.val[i];
    }
    return D;
}
>> *)
Definition vadd_s16 : func := mkfunc "vadd_s16" (tvec I16 4)
  [("N", tvec I16 4); ("M", tvec I16 4)]
  (
    SDecl (tvec I16 4) "D" None ;;
    SFor U64 "i" (lit 0)%C ("i" < (lit 4))%C ("i" + (lit 1))%C (
      SAssign "D" [EVar "i"]%C
        (("N" @ "i") + ("M" @ "i"))%C
    ) ;;
    SReturn ("D")%C
  )%CS.

(** neon_sim.cpp:1305-1313
<<
int32x2_t vadd_s32(int32x2_t N, int32x2_t M)
{
    int32x2_t D;
    for (size_t i = 0; i < 2; i++)
    {
        D.val[i] = N.val[i] + M.val[i];
    }
    return D;
}
>> *)
Definition vadd_s32 : func := mkfunc "vadd_s32" (tvec I32 2)
  [("N", tvec I32 2); ("M", tvec I32 2)]
  (
    SDecl (tvec I32 2) "D" None ;;
    SFor U64 "i" (lit 0)%C ("i" < (lit 2))%C ("i" + (lit 1))%C (
      SAssign "D" [EVar "i"]%C
        (("N" @ "i") + ("M" @ "i"))%C
    ) ;;
    SReturn ("D")%C
  )%CS.

(** neon_sim.cpp:1315-1320
<<
int64x1_t vadd_s64(int64x1_t N, int64x1_t M)
{
    int64x1_t D;
    D.val[0] = N.val[0] + M.val[0];
    return D;
}
>> *)
Definition vadd_s64 : func := mkfunc "vadd_s64" (tvec I64 1)
  [("N", tvec I64 1); ("M", tvec I64 1)]
  (
    SDecl (tvec I64 1) "D" None ;;
    SAssign "D" [lit 0]%C
      (("N" @ (lit 0)) + ("M" @ (lit 0)))%C ;;
    SReturn ("D")%C
  )%CS.

(** neon_sim.cpp:1322-1330
<<
uint8x8_t vadd_u8(uint8x8_t N, uint8x8_t M)
{
    uint8x8_t D;
    for (size_t i = 0; i < 8; i++)
    {
        D.val[i] = N.val[i] + M.val[i];
    }
    return D;
}
>> *)
Definition vadd_u8 : func := mkfunc "vadd_u8" (tvec U8 8)
  [("N", tvec U8 8); ("M", tvec U8 8)]
  (
    SDecl (tvec U8 8) "D" None ;;
    SFor U64 "i" (lit 0)%C ("i" < (lit 8))%C ("i" + (lit 1))%C (
      SAssign "D" [EVar "i"]%C
        (("N" @ "i") + ("M" @ "i"))%C
    ) ;;
    SReturn ("D")%C
  )%CS.

(** neon_sim.cpp:1332-1340
<<
uint16x4_t vadd_u16(uint16x4_t N, uint16x4_t M)
{
    uint16x4_t D;
    for (size_t i = 0; i < 4; i++)
    {
        D.val[i] = N.val[i] + M.val[i];
    }
    return D;
}
>> *)
Definition vadd_u16 : func := mkfunc "vadd_u16" (tvec U16 4)
  [("N", tvec U16 4); ("M", tvec U16 4)]
  (
    SDecl (tvec U16 4) "D" None ;;
    SFor U64 "i" (lit 0)%C ("i" < (lit 4))%C ("i" + (lit 1))%C (
      SAssign "D" [EVar "i"]%C
        (("N" @ "i") + ("M" @ "i"))%C
    ) ;;
    SReturn ("D")%C
  )%CS.

(** neon_sim.cpp:1342-1350
<<
uint32x2_t vadd_u32(uint32x2_t N, uint32x2_t M)
{
    uint32x2_t D;
    for (size_t i = 0; i < 2; i++)
    {
        D.val[i] = N.val[i] + M.val[i];
    }
    return D;
}
>> *)
Definition vadd_u32 : func := mkfunc "vadd_u32" (tvec U32 2)
  [("N", tvec U32 2); ("M", tvec U32 2)]
  (
    SDecl (tvec U32 2) "D" None ;;
    SFor U64 "i" (lit 0)%C ("i" < (lit 2))%C ("i" + (lit 1))%C (
      SAssign "D" [EVar "i"]%C
        (("N" @ "i") + ("M" @ "i"))%C
    ) ;;
    SReturn ("D")%C
  )%CS.

(** neon_sim.cpp:1352-1357
<<
uint64x1_t vadd_u64(uint64x1_t N, uint64x1_t M)
{
    uint64x1_t D;
    D.val[0] = N.val[0] + M.val[0];
    return D;
}
>> *)
Definition vadd_u64 : func := mkfunc "vadd_u64" (tvec U64 1)
  [("N", tvec U64 1); ("M", tvec U64 1)]
  (
    SDecl (tvec U64 1) "D" None ;;
    SAssign "D" [lit 0]%C
      (("N" @ (lit 0)) + ("M" @ (lit 0)))%C ;;
    SReturn ("D")%C
  )%CS.

(** neon_sim.cpp:1360-1368
<<
uint16x8_t vaddl_u8(uint8x8_t a, uint8x8_t b)
{
    uint16x8_t D;
    for (size_t i = 0; i < 8; i++)
    {
        D.val[i] = (uint16_t)(a.val[i]) + (uint16_t)(b.val[i]);
    }
    return D;
}
>> *)
Definition vaddl_u8 : func := mkfunc "vaddl_u8" (tvec U16 8)
  [("a", tvec U8 8); ("b", tvec U8 8)]
  (
    SDecl (tvec U16 8) "D" None ;;
    SFor U64 "i" (lit 0)%C ("i" < (lit 8))%C ("i" + (lit 1))%C (
      SAssign "D" [EVar "i"]%C
        ((ECast U16 ("a" @ "i")) + (ECast U16 ("b" @ "i")))%C
    ) ;;
    SReturn ("D")%C
  )%CS.

(** neon_sim.cpp:1370-1378
<<
int16x8_t vaddw_s8(int16x8_t a, int8x8_t b)
{
    int16x8_t r;
    for (int i = 0; i < 8; i++)
    {
        r.val[i] =  a.val[i] + b.val[i];
    }
    return r;
}
>> *)
Definition vaddw_s8 : func := mkfunc "vaddw_s8" (tvec I16 8)
  [("a", tvec I16 8); ("b", tvec I8 8)]
  (
    SDecl (tvec I16 8) "r" None ;;
    SFor I32 "i" (lit 0)%C ("i" < (lit 8))%C ("i" + (lit 1))%C (
      SAssign "r" [EVar "i"]%C
        (("a" @ "i") + ("b" @ "i"))%C
    ) ;;
    SReturn ("r")%C
  )%CS.

(** neon_sim.cpp:1380-1388
<<
int32x4_t vaddw_s16(int32x4_t a, int16x4_t b)
{
    int32x4_t r;
    for (int i = 0; i < 4; i++)
    {
        r.val[i] =  a.val[i] + b.val[i];
    }
    return r;
}
>> *)
Definition vaddw_s16 : func := mkfunc "vaddw_s16" (tvec I32 4)
  [("a", tvec I32 4); ("b", tvec I16 4)]
  (
    SDecl (tvec I32 4) "r" None ;;
    SFor I32 "i" (lit 0)%C ("i" < (lit 4))%C ("i" + (lit 1))%C (
      SAssign "r" [EVar "i"]%C
        (("a" @ "i") + ("b" @ "i"))%C
    ) ;;
    SReturn ("r")%C
  )%CS.

(** neon_sim.cpp:1390-1398
<<
int64x2_t vaddw_s32(int64x2_t a, int32x2_t b)
{
    int64x2_t r;
    for (int i = 0; i < 2; i++)
    {
        r.val[i] =  a.val[i] + b.val[i];
    }
    return r;
}
>> *)
Definition vaddw_s32 : func := mkfunc "vaddw_s32" (tvec I64 2)
  [("a", tvec I64 2); ("b", tvec I32 2)]
  (
    SDecl (tvec I64 2) "r" None ;;
    SFor I32 "i" (lit 0)%C ("i" < (lit 2))%C ("i" + (lit 1))%C (
      SAssign "r" [EVar "i"]%C
        (("a" @ "i") + ("b" @ "i"))%C
    ) ;;
    SReturn ("r")%C
  )%CS.

(** neon_sim.cpp:1400-1408
<<
uint16x8_t vaddw_u8(uint16x8_t a, uint8x8_t b)
{
    uint16x8_t r;
    for (int i = 0; i < 8; i++)
    {
        r.val[i] =  a.val[i] + b.val[i];
    }
    return r;
}
>> *)
Definition vaddw_u8 : func := mkfunc "vaddw_u8" (tvec U16 8)
  [("a", tvec U16 8); ("b", tvec U8 8)]
  (
    SDecl (tvec U16 8) "r" None ;;
    SFor I32 "i" (lit 0)%C ("i" < (lit 8))%C ("i" + (lit 1))%C (
      SAssign "r" [EVar "i"]%C
        (("a" @ "i") + ("b" @ "i"))%C
    ) ;;
    SReturn ("r")%C
  )%CS.

(** neon_sim.cpp:1410-1418
<<
uint32x4_t vaddw_u16(uint32x4_t a, uint16x4_t b)
{
    uint32x4_t r;
    for (int i = 0; i < 4; i++)
    {
        r.val[i] =  a.val[i] + b.val[i];
    }
    return r;
}
>> *)
Definition vaddw_u16 : func := mkfunc "vaddw_u16" (tvec U32 4)
  [("a", tvec U32 4); ("b", tvec U16 4)]
  (
    SDecl (tvec U32 4) "r" None ;;
    SFor I32 "i" (lit 0)%C ("i" < (lit 4))%C ("i" + (lit 1))%C (
      SAssign "r" [EVar "i"]%C
        (("a" @ "i") + ("b" @ "i"))%C
    ) ;;
    SReturn ("r")%C
  )%CS.

(** neon_sim.cpp:1420-1428
<<
uint64x2_t vaddw_u32(uint64x2_t a, uint32x2_t b)
{
    uint64x2_t r;
    for (int i = 0; i < 2; i++)
    {
        r.val[i] =  a.val[i] + b.val[i];
    }
    return r;
}
>> *)
Definition vaddw_u32 : func := mkfunc "vaddw_u32" (tvec U64 2)
  [("a", tvec U64 2); ("b", tvec U32 2)]
  (
    SDecl (tvec U64 2) "r" None ;;
    SFor I32 "i" (lit 0)%C ("i" < (lit 2))%C ("i" + (lit 1))%C (
      SAssign "r" [EVar "i"]%C
        (("a" @ "i") + ("b" @ "i"))%C
    ) ;;
    SReturn ("r")%C
  )%CS.

(** neon_sim.cpp:1431-1440
<<
int16x8_t vaddw_high_s8(int16x8_t a, int8x16_t b)
{
    int16x8_t r;
    const int ofs = 8;
    for (int i = 0; i < 8; i++)
    {
        r.val[i] =  a.val[i] + b.val[ofs + i];
    }
    return r;
}
>> *)
Definition vaddw_high_s8 : func := mkfunc "vaddw_high_s8" (tvec I16 8)
  [("a", tvec I16 8); ("b", tvec I8 16)]
  (
    SDecl (tvec I16 8) "r" None ;;
    SDecl (TScal I32) "ofs" (Some (lit 8)%C) ;;
    SFor I32 "i" (lit 0)%C ("i" < (lit 8))%C ("i" + (lit 1))%C (
      SAssign "r" [EVar "i"]%C
        (("a" @ "i") + ("b" @ ("ofs" + "i")))%C
    ) ;;
    SReturn ("r")%C
  )%CS.

(** neon_sim.cpp:1442-1451
<<
int32x4_t vaddw_high_s16(int32x4_t a, int16x8_t b)
{
    int32x4_t r;
    const int ofs = 4;
    for (int i = 0; i < 4; i++)
    {
        r.val[i] =  a.val[i] + b.val[ofs + i];
    }
    return r;
}
>> *)
Definition vaddw_high_s16 : func := mkfunc "vaddw_high_s16" (tvec I32 4)
  [("a", tvec I32 4); ("b", tvec I16 8)]
  (
    SDecl (tvec I32 4) "r" None ;;
    SDecl (TScal I32) "ofs" (Some (lit 4)%C) ;;
    SFor I32 "i" (lit 0)%C ("i" < (lit 4))%C ("i" + (lit 1))%C (
      SAssign "r" [EVar "i"]%C
        (("a" @ "i") + ("b" @ ("ofs" + "i")))%C
    ) ;;
    SReturn ("r")%C
  )%CS.

(** neon_sim.cpp:1453-1462
<<
int64x2_t vaddw_high_s32(int64x2_t a, int32x4_t b)
{
    int64x2_t r;
    const int ofs = 2;
    for (int i = 0; i < 2; i++)
    {
        r.val[i] =  a.val[i] + b.val[ofs + i];
    }
    return r;
}
>> *)
Definition vaddw_high_s32 : func := mkfunc "vaddw_high_s32" (tvec I64 2)
  [("a", tvec I64 2); ("b", tvec I32 4)]
  (
    SDecl (tvec I64 2) "r" None ;;
    SDecl (TScal I32) "ofs" (Some (lit 2)%C) ;;
    SFor I32 "i" (lit 0)%C ("i" < (lit 2))%C ("i" + (lit 1))%C (
      SAssign "r" [EVar "i"]%C
        (("a" @ "i") + ("b" @ ("ofs" + "i")))%C
    ) ;;
    SReturn ("r")%C
  )%CS.

(** neon_sim.cpp:1464-1473
<<
uint16x8_t vaddw_high_u8(uint16x8_t a, uint8x16_t b)
{
    uint16x8_t r;
    const int ofs = 8;
    for (int i = 0; i < 8; i++)
    {
        r.val[i] =  a.val[i] + b.val[ofs + i];
    }
    return r;
}
>> *)
Definition vaddw_high_u8 : func := mkfunc "vaddw_high_u8" (tvec U16 8)
  [("a", tvec U16 8); ("b", tvec U8 16)]
  (
    SDecl (tvec U16 8) "r" None ;;
    SDecl (TScal I32) "ofs" (Some (lit 8)%C) ;;
    SFor I32 "i" (lit 0)%C ("i" < (lit 8))%C ("i" + (lit 1))%C (
      SAssign "r" [EVar "i"]%C
        (("a" @ "i") + ("b" @ ("ofs" + "i")))%C
    ) ;;
    SReturn ("r")%C
  )%CS.

(** neon_sim.cpp:1475-1484
<<
uint32x4_t vaddw_high_u16(uint32x4_t a, uint16x8_t b)
{
    uint32x4_t r;
    const int ofs = 4;
    for (int i = 0; i < 4; i++)
    {
        r.val[i] =  a.val[i] + b.val[ofs + i];
    }
    return r;
}
>> *)
Definition vaddw_high_u16 : func := mkfunc "vaddw_high_u16" (tvec U32 4)
  [("a", tvec U32 4); ("b", tvec U16 8)]
  (
    SDecl (tvec U32 4) "r" None ;;
    SDecl (TScal I32) "ofs" (Some (lit 4)%C) ;;
    SFor I32 "i" (lit 0)%C ("i" < (lit 4))%C ("i" + (lit 1))%C (
      SAssign "r" [EVar "i"]%C
        (("a" @ "i") + ("b" @ ("ofs" + "i")))%C
    ) ;;
    SReturn ("r")%C
  )%CS.

(** neon_sim.cpp:1486-1495
<<
uint64x2_t vaddw_high_u32(uint64x2_t a, uint32x4_t b)
{
    uint64x2_t r;
    const int ofs = 2;
    for (int i = 0; i < 2; i++)
    {
        r.val[i] =  a.val[i] + b.val[ofs + i];
    }
    return r;
}
>> *)
Definition vaddw_high_u32 : func := mkfunc "vaddw_high_u32" (tvec U64 2)
  [("a", tvec U64 2); ("b", tvec U32 4)]
  (
    SDecl (tvec U64 2) "r" None ;;
    SDecl (TScal I32) "ofs" (Some (lit 2)%C) ;;
    SFor I32 "i" (lit 0)%C ("i" < (lit 2))%C ("i" + (lit 1))%C (
      SAssign "r" [EVar "i"]%C
        (("a" @ "i") + ("b" @ ("ofs" + "i")))%C
    ) ;;
    SReturn ("r")%C
  )%CS.

(** neon_sim.cpp:1500-1508
<<
int8x16_t vaddhn_high_s16(int8x8_t r, int16x8_t a, int16x8_t b)
{
    int8x16_t ret;
    for (int i = 0; i < 8; i++)
        ret.val[i] = r.val[i];
    for (int i = 0; i < 8; i++)
        ret.val[i + 8] = (int8_t)((a.val[i] + b.val[i]) >> 8);
    return ret;
}
>> *)
Definition vaddhn_high_s16 : func := mkfunc "vaddhn_high_s16" (tvec I8 16)
  [("r", tvec I8 8); ("a", tvec I16 8); ("b", tvec I16 8)]
  (
    SDecl (tvec I8 16) "ret" None ;;
    SFor I32 "i" (lit 0)%C ("i" < (lit 8))%C ("i" + (lit 1))%C (
      SAssign "ret" [EVar "i"]%C
        ("r" @ "i")%C
    ) ;;
    SFor I32 "i" (lit 0)%C ("i" < (lit 8))%C ("i" + (lit 1))%C (
      SAssign "ret" ["i" + (lit 8)]%C
        (ECast I8 ((("a" @ "i") + ("b" @ "i")) >> (lit 8)))%C
    ) ;;
    SReturn ("ret")%C
  )%CS.

(** neon_sim.cpp:1510-1518
<<
int16x8_t vaddhn_high_s32(int16x4_t r, int32x4_t a, int32x4_t b)
{
    int16x8_t ret;
    for (int i = 0; i < 4; i++)
        ret.val[i] = r.val[i];
    for (int i = 0; i < 4; i++)
        ret.val[i + 4] = (int16_t)((a.val[i] + b.val[i]) >> 4);
    return ret;
}
>> *)
Definition vaddhn_high_s32 : func := mkfunc "vaddhn_high_s32" (tvec I16 8)
  [("r", tvec I16 4); ("a", tvec I32 4); ("b", tvec I32 4)]
  (
    SDecl (tvec I16 8) "ret" None ;;
    SFor I32 "i" (lit 0)%C ("i" < (lit 4))%C ("i" + (lit 1))%C (
      SAssign "ret" [EVar "i"]%C
        ("r" @ "i")%C
    ) ;;
    SFor I32 "i" (lit 0)%C ("i" < (lit 4))%C ("i" + (lit 1))%C (
      SAssign "ret" ["i" + (lit 4)]%C
        (ECast I16 ((("a" @ "i") + ("b" @ "i")) >> (lit 4)))%C
    ) ;;
    SReturn ("ret")%C
  )%CS.

(** neon_sim.cpp:1520-1528
<<
int32x4_t vaddhn_high_s64(int32x2_t r, int64x2_t a, int64x2_t b)
{
    int32x4_t ret;
    for (int i = 0; i < 2; i++)
        ret.val[i] = r.val[i];
    for (int i = 0; i < 2; i++)
        ret.val[i + 2] = (int32_t)((a.val[i] + b.val[i]) >> 2);
    return ret;
}
>> *)
Definition vaddhn_high_s64 : func := mkfunc "vaddhn_high_s64" (tvec I32 4)
  [("r", tvec I32 2); ("a", tvec I64 2); ("b", tvec I64 2)]
  (
    SDecl (tvec I32 4) "ret" None ;;
    SFor I32 "i" (lit 0)%C ("i" < (lit 2))%C ("i" + (lit 1))%C (
      SAssign "ret" [EVar "i"]%C
        ("r" @ "i")%C
    ) ;;
    SFor I32 "i" (lit 0)%C ("i" < (lit 2))%C ("i" + (lit 1))%C (
      SAssign "ret" ["i" + (lit 2)]%C
        (ECast I32 ((("a" @ "i") + ("b" @ "i")) >> (lit 2)))%C
    ) ;;
    SReturn ("ret")%C
  )%CS.

(** neon_sim.cpp:1530-1538
<<
uint8x16_t vaddhn_high_u16(uint8x8_t r, uint16x8_t a, uint16x8_t b)
{
    uint8x16_t ret;
    for (int i = 0; i < 8; i++)
        ret.val[i] = r.val[i];
    for (int i = 0; i < 8; i++)
        ret.val[i + 8] = (uint8_t)((a.val[i] + b.val[i]) >> 8);
    return ret;
}
>> *)
Definition vaddhn_high_u16 : func := mkfunc "vaddhn_high_u16" (tvec U8 16)
  [("r", tvec U8 8); ("a", tvec U16 8); ("b", tvec U16 8)]
  (
    SDecl (tvec U8 16) "ret" None ;;
    SFor I32 "i" (lit 0)%C ("i" < (lit 8))%C ("i" + (lit 1))%C (
      SAssign "ret" [EVar "i"]%C
        ("r" @ "i")%C
    ) ;;
    SFor I32 "i" (lit 0)%C ("i" < (lit 8))%C ("i" + (lit 1))%C (
      SAssign "ret" ["i" + (lit 8)]%C
        (ECast U8 ((("a" @ "i") + ("b" @ "i")) >> (lit 8)))%C
    ) ;;
    SReturn ("ret")%C
  )%CS.

(** neon_sim.cpp:1540-1548
<<
uint16x8_t vaddhn_high_u32(uint16x4_t r, uint32x4_t a, uint32x4_t b)
{
    uint16x8_t ret;
    for (int i = 0; i < 4; i++)
        ret.val[i] = r.val[i];
    for (int i = 0; i < 4; i++)
        ret.val[i + 4] = (uint16_t)((a.val[i] + b.val[i]) >> 4);
    return ret;
}
>> *)
Definition vaddhn_high_u32 : func := mkfunc "vaddhn_high_u32" (tvec U16 8)
  [("r", tvec U16 4); ("a", tvec U32 4); ("b", tvec U32 4)]
  (
    SDecl (tvec U16 8) "ret" None ;;
    SFor I32 "i" (lit 0)%C ("i" < (lit 4))%C ("i" + (lit 1))%C (
      SAssign "ret" [EVar "i"]%C
        ("r" @ "i")%C
    ) ;;
    SFor I32 "i" (lit 0)%C ("i" < (lit 4))%C ("i" + (lit 1))%C (
      SAssign "ret" ["i" + (lit 4)]%C
        (ECast U16 ((("a" @ "i") + ("b" @ "i")) >> (lit 4)))%C
    ) ;;
    SReturn ("ret")%C
  )%CS.

(** neon_sim.cpp:1550-1558
<<
uint32x4_t vaddhn_high_u64(uint32x2_t r, uint64x2_t a, uint64x2_t b)
{
    uint32x4_t ret;
    for (int i = 0; i < 2; i++)
        ret.val[i] = r.val[i];
    for (int i = 0; i < 2; i++)
        ret.val[i + 2] = (uint32_t)((a.val[i] + b.val[i]) >> 2);
    return ret;
}
>> *)
Definition vaddhn_high_u64 : func := mkfunc "vaddhn_high_u64" (tvec U32 4)
  [("r", tvec U32 2); ("a", tvec U64 2); ("b", tvec U64 2)]
  (
    SDecl (tvec U32 4) "ret" None ;;
    SFor I32 "i" (lit 0)%C ("i" < (lit 2))%C ("i" + (lit 1))%C (
      SAssign "ret" [EVar "i"]%C
        ("r" @ "i")%C
    ) ;;
    SFor I32 "i" (lit 0)%C ("i" < (lit 2))%C ("i" + (lit 1))%C (
      SAssign "ret" ["i" + (lit 2)]%C
        (ECast U32 ((("a" @ "i") + ("b" @ "i")) >> (lit 2)))%C
    ) ;;
    SReturn ("ret")%C
  )%CS.

(** neon_sim.cpp:1563-1571
<<
int8x16_t vaddq_s8(int8x16_t N, int8x16_t M)
{
    int8x16_t D;
    for (size_t i = 0; i < 16; i++)
    {
        D.val[i] = N.val[i] + M.val[i];
    }
    return D;
}
>> *)
Definition vaddq_s8 : func := mkfunc "vaddq_s8" (tvec I8 16)
  [("N", tvec I8 16); ("M", tvec I8 16)]
  (
    SDecl (tvec I8 16) "D" None ;;
    SFor U64 "i" (lit 0)%C ("i" < (lit 16))%C ("i" + (lit 1))%C (
      SAssign "D" [EVar "i"]%C
        (("N" @ "i") + ("M" @ "i"))%C
    ) ;;
    SReturn ("D")%C
  )%CS.

(** neon_sim.cpp:1573-1581
<<
int16x8_t vaddq_s16(int16x8_t N, int16x8_t M)
{
    int16x8_t D;
    for (size_t i = 0; i < 8; i++)
    {
        D.val[i] = N.val[i] + M.val[i];
    }
    return D;
}
>> *)
Definition vaddq_s16 : func := mkfunc "vaddq_s16" (tvec I16 8)
  [("N", tvec I16 8); ("M", tvec I16 8)]
  (
    SDecl (tvec I16 8) "D" None ;;
    SFor U64 "i" (lit 0)%C ("i" < (lit 8))%C ("i" + (lit 1))%C (
      SAssign "D" [EVar "i"]%C
        (("N" @ "i") + ("M" @ "i"))%C
    ) ;;
    SReturn ("D")%C
  )%CS.

(** neon_sim.cpp:1583-1591
<<
int32x4_t vaddq_s32(int32x4_t N, int32x4_t M)
{
    int32x4_t D;
    for (size_t i = 0; i < 4; i++)
    {
        D.val[i] = N.val[i] + M.val[i];
    }
    return D;
}
>> *)
Definition vaddq_s32 : func := mkfunc "vaddq_s32" (tvec I32 4)
  [("N", tvec I32 4); ("M", tvec I32 4)]
  (
    SDecl (tvec I32 4) "D" None ;;
    SFor U64 "i" (lit 0)%C ("i" < (lit 4))%C ("i" + (lit 1))%C (
      SAssign "D" [EVar "i"]%C
        (("N" @ "i") + ("M" @ "i"))%C
    ) ;;
    SReturn ("D")%C
  )%CS.

(** neon_sim.cpp:1593-1601
<<
int64x2_t vaddq_s64(int64x2_t N, int64x2_t M)
{
    int64x2_t D;
    for (size_t i = 0; i < 2; i++)
    {
        D.val[i] = N.val[i] + M.val[i];
    }
    return D;
}
>> *)
Definition vaddq_s64 : func := mkfunc "vaddq_s64" (tvec I64 2)
  [("N", tvec I64 2); ("M", tvec I64 2)]
  (
    SDecl (tvec I64 2) "D" None ;;
    SFor U64 "i" (lit 0)%C ("i" < (lit 2))%C ("i" + (lit 1))%C (
      SAssign "D" [EVar "i"]%C
        (("N" @ "i") + ("M" @ "i"))%C
    ) ;;
    SReturn ("D")%C
  )%CS.

(** neon_sim.cpp:1603-1611
<<
uint8x16_t vaddq_u8(uint8x16_t N, uint8x16_t M)
{
    uint8x16_t D;
    for (size_t i = 0; i < 16; i++)
    {
        D.val[i] = N.val[i] + M.val[i];
    }
    return D;
}
>> *)
Definition vaddq_u8 : func := mkfunc "vaddq_u8" (tvec U8 16)
  [("N", tvec U8 16); ("M", tvec U8 16)]
  (
    SDecl (tvec U8 16) "D" None ;;
    SFor U64 "i" (lit 0)%C ("i" < (lit 16))%C ("i" + (lit 1))%C (
      SAssign "D" [EVar "i"]%C
        (("N" @ "i") + ("M" @ "i"))%C
    ) ;;
    SReturn ("D")%C
  )%CS.

(** neon_sim.cpp:1613-1621
<<
uint16x8_t vaddq_u16(uint16x8_t N, uint16x8_t M)
{
    uint16x8_t D;
    for (size_t i = 0; i < 8; i++)
    {
        D.val[i] = N.val[i] + M.val[i];
    }
    return D;
}
>> *)
Definition vaddq_u16 : func := mkfunc "vaddq_u16" (tvec U16 8)
  [("N", tvec U16 8); ("M", tvec U16 8)]
  (
    SDecl (tvec U16 8) "D" None ;;
    SFor U64 "i" (lit 0)%C ("i" < (lit 8))%C ("i" + (lit 1))%C (
      SAssign "D" [EVar "i"]%C
        (("N" @ "i") + ("M" @ "i"))%C
    ) ;;
    SReturn ("D")%C
  )%CS.

(** neon_sim.cpp:1623-1631
<<
uint32x4_t vaddq_u32(uint32x4_t N, uint32x4_t M)
{
    uint32x4_t D;
    for (size_t i = 0; i < 4; i++)
    {
        D.val[i] = N.val[i] + M.val[i];
    }
    return D;
}
>> *)
Definition vaddq_u32 : func := mkfunc "vaddq_u32" (tvec U32 4)
  [("N", tvec U32 4); ("M", tvec U32 4)]
  (
    SDecl (tvec U32 4) "D" None ;;
    SFor U64 "i" (lit 0)%C ("i" < (lit 4))%C ("i" + (lit 1))%C (
      SAssign "D" [EVar "i"]%C
        (("N" @ "i") + ("M" @ "i"))%C
    ) ;;
    SReturn ("D")%C
  )%CS.

(** neon_sim.cpp:1632-1640
<<
float32x4_t vaddq_f32(float32x4_t a, float32x4_t b)
{
    float32x4_t r;
    for (int i = 0; i < 4; i++)
    {
        r.val[i] =  a.val[i] + b.val[i];
    }
    return r;
}
>> *)
Definition vaddq_f32 : func := mkfunc "vaddq_f32" (tvec F32 4)
  [("a", tvec F32 4); ("b", tvec F32 4)]
  (
    SDecl (tvec F32 4) "r" None ;;
    SFor I32 "i" (lit 0)%C ("i" < (lit 4))%C ("i" + (lit 1))%C (
      SAssign "r" [EVar "i"]%C
        (("a" @ "i") + ("b" @ "i"))%C
    ) ;;
    SReturn ("r")%C
  )%CS.

(** neon_sim.cpp:1642-1650
<<
uint64x2_t vaddq_u64(uint64x2_t N, uint64x2_t M)
{
    uint64x2_t D;
    for (size_t i = 0; i < 2; i++)
    {
        D.val[i] = N.val[i] + M.val[i];
    }
    return D;
}
>> *)
Definition vaddq_u64 : func := mkfunc "vaddq_u64" (tvec U64 2)
  [("N", tvec U64 2); ("M", tvec U64 2)]
  (
    SDecl (tvec U64 2) "D" None ;;
    SFor U64 "i" (lit 0)%C ("i" < (lit 2))%C ("i" + (lit 1))%C (
      SAssign "D" [EVar "i"]%C
        (("N" @ "i") + ("M" @ "i"))%C
    ) ;;
    SReturn ("D")%C
  )%CS.

(** neon_sim.cpp:1652-1668
<<
uint8x8_t vqadd_u8(uint8x8_t a, uint8x8_t b)
{
    uint8x8_t r;
    for (int i = 0; i < 8; i++)
    {
        uint16_t temp = (uint16_t)a.val[i] + (uint16_t)b.val[i];
        if (temp > UINT8_MAX)
        {
            r.val[i] =  UINT8_MAX;
        }
        else
        {
            r.val[i] =  temp;
        }
    }
    return r;
}
>> *)
Definition vqadd_u8 : func := mkfunc "vqadd_u8" (tvec U8 8)
  [("a", tvec U8 8); ("b", tvec U8 8)]
  (
    SDecl (tvec U8 8) "r" None ;;
    SFor I32 "i" (lit 0)%C ("i" < (lit 8))%C ("i" + (lit 1))%C (
      SDecl (TScal U16) "temp" (Some ((ECast U16 ("a" @ "i")) + (ECast U16 ("b" @ "i")))%C) ;;
      SIf ("temp" > (lit 255))%C (
        SAssign "r" [EVar "i"]%C
          (lit 255)%C
      ) (
        SAssign "r" [EVar "i"]%C
          ("temp")%C
      )
    ) ;;
    SReturn ("r")%C
  )%CS.

(** neon_sim.cpp:1672-1681
<<
int16x8_t vaddl_high_s8(int8x16_t a, int8x16_t b)
{
    int16x8_t r;
    const int ofs = 16 / 2;
    for (int i = 0; i < 8; i++)
    {
        r.val[i] =  a.val[ofs + i] + b.val[ofs + i];
    }
    return r;
}
>> *)
Definition vaddl_high_s8 : func := mkfunc "vaddl_high_s8" (tvec I16 8)
  [("a", tvec I8 16); ("b", tvec I8 16)]
  (
    SDecl (tvec I16 8) "r" None ;;
    SDecl (TScal I32) "ofs" (Some ((lit 16) / (lit 2))%C) ;;
    SFor I32 "i" (lit 0)%C ("i" < (lit 8))%C ("i" + (lit 1))%C (
      SAssign "r" [EVar "i"]%C
        (("a" @ ("ofs" + "i")) + ("b" @ ("ofs" + "i")))%C
    ) ;;
    SReturn ("r")%C
  )%CS.

(** neon_sim.cpp:1683-1692
<<
int32x4_t vaddl_high_s16(int16x8_t a, int16x8_t b)
{
    int32x4_t r;
    const int ofs = 8 / 2;
    for (int i = 0; i < 4; i++)
    {
        r.val[i] =  a.val[ofs + i] + b.val[ofs + i];
    }
    return r;
}
>> *)
Definition vaddl_high_s16 : func := mkfunc "vaddl_high_s16" (tvec I32 4)
  [("a", tvec I16 8); ("b", tvec I16 8)]
  (
    SDecl (tvec I32 4) "r" None ;;
    SDecl (TScal I32) "ofs" (Some ((lit 8) / (lit 2))%C) ;;
    SFor I32 "i" (lit 0)%C ("i" < (lit 4))%C ("i" + (lit 1))%C (
      SAssign "r" [EVar "i"]%C
        (("a" @ ("ofs" + "i")) + ("b" @ ("ofs" + "i")))%C
    ) ;;
    SReturn ("r")%C
  )%CS.

(** neon_sim.cpp:1694-1703
<<
int64x2_t vaddl_high_s32(int32x4_t a, int32x4_t b)
{
    int64x2_t r;
    const int ofs = 4 / 2;
    for (int i = 0; i < 2; i++)
    {
        r.val[i] =  a.val[ofs + i] + b.val[ofs + i];
    }
    return r;
}
>> *)
Definition vaddl_high_s32 : func := mkfunc "vaddl_high_s32" (tvec I64 2)
  [("a", tvec I32 4); ("b", tvec I32 4)]
  (
    SDecl (tvec I64 2) "r" None ;;
    SDecl (TScal I32) "ofs" (Some ((lit 4) / (lit 2))%C) ;;
    SFor I32 "i" (lit 0)%C ("i" < (lit 2))%C ("i" + (lit 1))%C (
      SAssign "r" [EVar "i"]%C
        (("a" @ ("ofs" + "i")) + ("b" @ ("ofs" + "i")))%C
    ) ;;
    SReturn ("r")%C
  )%CS.

(** neon_sim.cpp:1705-1714
<<
uint16x8_t vaddl_high_u8(uint8x16_t a, uint8x16_t b)
{
    uint16x8_t r;
    const int ofs = 16 / 2;
    for (int i = 0; i < 8; i++)
    {
        r.val[i] =  a.val[ofs + i] + b.val[ofs + i];
    }
    return r;
}
>> *)
Definition vaddl_high_u8 : func := mkfunc "vaddl_high_u8" (tvec U16 8)
  [("a", tvec U8 16); ("b", tvec U8 16)]
  (
    SDecl (tvec U16 8) "r" None ;;
    SDecl (TScal I32) "ofs" (Some ((lit 16) / (lit 2))%C) ;;
    SFor I32 "i" (lit 0)%C ("i" < (lit 8))%C ("i" + (lit 1))%C (
      SAssign "r" [EVar "i"]%C
        (("a" @ ("ofs" + "i")) + ("b" @ ("ofs" + "i")))%C
    ) ;;
    SReturn ("r")%C
  )%CS.

(** neon_sim.cpp:1716-1725
<<
uint32x4_t vaddl_high_u16(uint16x8_t a, uint16x8_t b)
{
    uint32x4_t r;
    const int ofs = 8 / 2;
    for (int i = 0; i < 4; i++)
    {
        r.val[i] =  a.val[ofs + i] + b.val[ofs + i];
    }
    return r;
}
>> *)
Definition vaddl_high_u16 : func := mkfunc "vaddl_high_u16" (tvec U32 4)
  [("a", tvec U16 8); ("b", tvec U16 8)]
  (
    SDecl (tvec U32 4) "r" None ;;
    SDecl (TScal I32) "ofs" (Some ((lit 8) / (lit 2))%C) ;;
    SFor I32 "i" (lit 0)%C ("i" < (lit 4))%C ("i" + (lit 1))%C (
      SAssign "r" [EVar "i"]%C
        (("a" @ ("ofs" + "i")) + ("b" @ ("ofs" + "i")))%C
    ) ;;
    SReturn ("r")%C
  )%CS.

(** neon_sim.cpp:1727-1736
<<
uint64x2_t vaddl_high_u32(uint32x4_t a, uint32x4_t b)
{
    uint64x2_t r;
    const int ofs = 4 / 2;
    for (int i = 0; i < 2; i++)
    {
        r.val[i] =  a.val[ofs + i] + b.val[ofs + i];
    }
    return r;
}
>> *)
Definition vaddl_high_u32 : func := mkfunc "vaddl_high_u32" (tvec U64 2)
  [("a", tvec U32 4); ("b", tvec U32 4)]
  (
    SDecl (tvec U64 2) "r" None ;;
    SDecl (TScal I32) "ofs" (Some ((lit 4) / (lit 2))%C) ;;
    SFor I32 "i" (lit 0)%C ("i" < (lit 2))%C ("i" + (lit 1))%C (
      SAssign "r" [EVar "i"]%C
        (("a" @ ("ofs" + "i")) + ("b" @ ("ofs" + "i")))%C
    ) ;;
    SReturn ("r")%C
  )%CS.

(** neon_sim.cpp:1740-1756
<<
uint8x16_t vqaddq_u8(uint8x16_t N, uint8x16_t M)
{
    uint8x16_t D;
    for (size_t i = 0; i < 16; i++)
    {
        uint16_t temp = (uint16_t)N.val[i] + (uint16_t)M.val[i];
        if (temp > UINT8_MAX)
        {
            D.val[i] = UINT8_MAX;
        }
        else
        {
            D.val[i] = temp;
        }
    }
    return D;
}
>> *)
Definition vqaddq_u8 : func := mkfunc "vqaddq_u8" (tvec U8 16)
  [("N", tvec U8 16); ("M", tvec U8 16)]
  (
    SDecl (tvec U8 16) "D" None ;;
    SFor U64 "i" (lit 0)%C ("i" < (lit 16))%C ("i" + (lit 1))%C (
      SDecl (TScal U16) "temp" (Some ((ECast U16 ("N" @ "i")) + (ECast U16 ("M" @ "i")))%C) ;;
      SIf ("temp" > (lit 255))%C (
        SAssign "D" [EVar "i"]%C
          (lit 255)%C
      ) (
        SAssign "D" [EVar "i"]%C
          ("temp")%C
      )
    ) ;;
    SReturn ("D")%C
  )%CS.

(** neon_sim.cpp:1758-1766
<<
uint16x4_t vpaddl_u8(uint8x8_t a)
{
    uint16x4_t r;
    for (int i = 0; i < 4; i++)
    {
        r.val[i] =  a.val[2 * i] + a.val[2 * i + 1];
    }
    return r;
}
>> *)
Definition vpaddl_u8 : func := mkfunc "vpaddl_u8" (tvec U16 4)
  [("a", tvec U8 8)]
  (
    SDecl (tvec U16 4) "r" None ;;
    SFor I32 "i" (lit 0)%C ("i" < (lit 4))%C ("i" + (lit 1))%C (
      SAssign "r" [EVar "i"]%C
        (("a" @ ((lit 2) * "i")) + ("a" @ (((lit 2) * "i") + (lit 1))))%C
    ) ;;
    SReturn ("r")%C
  )%CS.

(** neon_sim.cpp:1768-1776
<<
uint16x8_t vpaddlq_u8(uint8x16_t a)
{
    uint16x8_t r;
    for (int i = 0; i < 8; i++)
    {
        r.val[i] =  a.val[2 * i] + a.val[2 * i + 1];
    }
    return r;
}
>> *)
Definition vpaddlq_u8 : func := mkfunc "vpaddlq_u8" (tvec U16 8)
  [("a", tvec U8 16)]
  (
    SDecl (tvec U16 8) "r" None ;;
    SFor I32 "i" (lit 0)%C ("i" < (lit 8))%C ("i" + (lit 1))%C (
      SAssign "r" [EVar "i"]%C
        (("a" @ ((lit 2) * "i")) + ("a" @ (((lit 2) * "i") + (lit 1))))%C
    ) ;;
    SReturn ("r")%C
  )%CS.

(** neon_sim.cpp:1778-1786
<<
uint32x4_t vpaddlq_u16(uint16x8_t a)
{
    uint32x4_t r;
    for (int i = 0; i < 4; i++)
    {
        r.val[i] =  a.val[2 * i] + a.val[2 * i + 1];
    }
    return r;
}
>> *)
Definition vpaddlq_u16 : func := mkfunc "vpaddlq_u16" (tvec U32 4)
  [("a", tvec U16 8)]
  (
    SDecl (tvec U32 4) "r" None ;;
    SFor I32 "i" (lit 0)%C ("i" < (lit 4))%C ("i" + (lit 1))%C (
      SAssign "r" [EVar "i"]%C
        (("a" @ ((lit 2) * "i")) + ("a" @ (((lit 2) * "i") + (lit 1))))%C
    ) ;;
    SReturn ("r")%C
  )%CS.
