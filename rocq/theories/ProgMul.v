(** Generated by tools/translate.py from neon_sim.cpp: multiplication, broadcast, halves, pairwise, lane reads, min.
    The C text is quoted above each definition (double quotes shown as single). *)
From Coq Require Import ZArith List String.
From Verif Require Import Types Syntax.
Import ListNotations.
Open Scope Z_scope.
Local Open Scope string_scope.

(** neon_sim.cpp:2698-2706
<<
int8x8_t vmul_s8(int8x8_t N, int8x8_t M)
{
    int8x8_t D;
    for (int i = 0; i < 8; i++)
    {
        D.val[i] = N.val[i] * M.val[i];
    }
    return D;
}
>> *)
Definition vmul_s8 : func := mkfunc "vmul_s8" (tvec I8 8)
  [("N", tvec I8 8); ("M", tvec I8 8)]
  (
    SDecl (tvec I8 8) "D" None ;;
    SFor I32 "i" (lit 0)%C ("i" < (lit 8))%C ("i" + (lit 1))%C (
      SAssign "D" [EVar "i"]%C
        (("N" @ "i") * ("M" @ "i"))%C
    ) ;;
    SReturn ("D")%C
  )%CS.

(** neon_sim.cpp:2708-2716
<<
int16x4_t vmul_s16(int16x4_t N, int16x4_t M)
{
    int16x4_t D;
    for (int i = 0; i < 4; i++)
    {
        D.val[i] = N.val[i] * M.val[i];
    }
    return D;
}
>> *)
Definition vmul_s16 : func := mkfunc "vmul_s16" (tvec I16 4)
  [("N", tvec I16 4); ("M", tvec I16 4)]
  (
    SDecl (tvec I16 4) "D" None ;;
    SFor I32 "i" (lit 0)%C ("i" < (lit 4))%C ("i" + (lit 1))%C (
      SAssign "D" [EVar "i"]%C
        (("N" @ "i") * ("M" @ "i"))%C
    ) ;;
    SReturn ("D")%C
  )%CS.

(** neon_sim.cpp:2718-2726
<<
int32x2_t vmul_s32(int32x2_t N, int32x2_t M)
{
    int32x2_t D;
    for (int i = 0; i < 2; i++)
    {
        D.val[i] = N.val[i] * M.val[i];
    }
    return D;
}
>> *)
Definition vmul_s32 : func := mkfunc "vmul_s32" (tvec I32 2)
  [("N", tvec I32 2); ("M", tvec I32 2)]
  (
    SDecl (tvec I32 2) "D" None ;;
    SFor I32 "i" (lit 0)%C ("i" < (lit 2))%C ("i" + (lit 1))%C (
      SAssign "D" [EVar "i"]%C
        (("N" @ "i") * ("M" @ "i"))%C
    ) ;;
    SReturn ("D")%C
  )%CS.

(** neon_sim.cpp:2728-2736
<<
uint8x8_t vmul_u8(uint8x8_t N, uint8x8_t M)
{
    uint8x8_t D;
    for (int i = 0; i < 8; i++)
    {
        D.val[i] = N.val[i] * M.val[i];
    }
    return D;
}
>> *)
Definition vmul_u8 : func := mkfunc "vmul_u8" (tvec U8 8)
  [("N", tvec U8 8); ("M", tvec U8 8)]
  (
    SDecl (tvec U8 8) "D" None ;;
    SFor I32 "i" (lit 0)%C ("i" < (lit 8))%C ("i" + (lit 1))%C (
      SAssign "D" [EVar "i"]%C
        (("N" @ "i") * ("M" @ "i"))%C
    ) ;;
    SReturn ("D")%C
  )%CS.

(** neon_sim.cpp:2738-2746
<<
uint16x4_t vmul_u16(uint16x4_t N, uint16x4_t M)
{
    uint16x4_t D;
    for (int i = 0; i < 4; i++)
    {
        D.val[i] = N.val[i] * M.val[i];
    }
    return D;
}
>> *)
Definition vmul_u16 : func := mkfunc "vmul_u16" (tvec U16 4)
  [("N", tvec U16 4); ("M", tvec U16 4)]
  (
    SDecl (tvec U16 4) "D" None ;;
    SFor I32 "i" (lit 0)%C ("i" < (lit 4))%C ("i" + (lit 1))%C (
      SAssign "D" [EVar "i"]%C
        (("N" @ "i") * ("M" @ "i"))%C
    ) ;;
    SReturn ("D")%C
  )%CS.

(** neon_sim.cpp:2748-2756
<<
uint32x2_t vmul_u32(uint32x2_t N, uint32x2_t M)
{
    uint32x2_t D;
    for (int i = 0; i < 2; i++)
    {
        D.val[i] = N.val[i] * M.val[i];
    }
    return D;
}
>> *)
Definition vmul_u32 : func := mkfunc "vmul_u32" (tvec U32 2)
  [("N", tvec U32 2); ("M", tvec U32 2)]
  (
    SDecl (tvec U32 2) "D" None ;;
    SFor I32 "i" (lit 0)%C ("i" < (lit 2))%C ("i" + (lit 1))%C (
      SAssign "D" [EVar "i"]%C
        (("N" @ "i") * ("M" @ "i"))%C
    ) ;;
    SReturn ("D")%C
  )%CS.

(** neon_sim.cpp:2759-2767
<<
int8x16_t vmulq_s8(int8x16_t N, int8x16_t M)
{
    int8x16_t D;
    for (int i = 0; i < 16; i++)
    {
        D.val[i] = N.val[i] * M.val[i];
    }
    return D;
}
>> *)
Definition vmulq_s8 : func := mkfunc "vmulq_s8" (tvec I8 16)
  [("N", tvec I8 16); ("M", tvec I8 16)]
  (
    SDecl (tvec I8 16) "D" None ;;
    SFor I32 "i" (lit 0)%C ("i" < (lit 16))%C ("i" + (lit 1))%C (
      SAssign "D" [EVar "i"]%C
        (("N" @ "i") * ("M" @ "i"))%C
    ) ;;
    SReturn ("D")%C
  )%CS.

(** neon_sim.cpp:2768-2776
<<
int16x8_t vmulq_s16(int16x8_t N, int16x8_t M)
{
    int16x8_t D;
    for (int i = 0; i < 8; i++)
    {
        D.val[i] = N.val[i] * M.val[i];
    }
    return D;
}
>> *)
Definition vmulq_s16 : func := mkfunc "vmulq_s16" (tvec I16 8)
  [("N", tvec I16 8); ("M", tvec I16 8)]
  (
    SDecl (tvec I16 8) "D" None ;;
    SFor I32 "i" (lit 0)%C ("i" < (lit 8))%C ("i" + (lit 1))%C (
      SAssign "D" [EVar "i"]%C
        (("N" @ "i") * ("M" @ "i"))%C
    ) ;;
    SReturn ("D")%C
  )%CS.

(** neon_sim.cpp:2777-2785
<<
int32x4_t vmulq_s32(int32x4_t N, int32x4_t M)
{
    int32x4_t D;
    for (int i = 0; i < 4; i++)
    {
        D.val[i] = N.val[i] * M.val[i];
    }
    return D;
}
>> *)
Definition vmulq_s32 : func := mkfunc "vmulq_s32" (tvec I32 4)
  [("N", tvec I32 4); ("M", tvec I32 4)]
  (
    SDecl (tvec I32 4) "D" None ;;
    SFor I32 "i" (lit 0)%C ("i" < (lit 4))%C ("i" + (lit 1))%C (
      SAssign "D" [EVar "i"]%C
        (("N" @ "i") * ("M" @ "i"))%C
    ) ;;
    SReturn ("D")%C
  )%CS.

(** neon_sim.cpp:2786-2794
<<
uint8x16_t vmulq_u8(uint8x16_t N, uint8x16_t M)
{
    uint8x16_t D;
    for (int i = 0; i < 16; i++)
    {
        D.val[i] = N.val[i] * M.val[i];
    }
    return D;
}
>> *)
Definition vmulq_u8 : func := mkfunc "vmulq_u8" (tvec U8 16)
  [("N", tvec U8 16); ("M", tvec U8 16)]
  (
    SDecl (tvec U8 16) "D" None ;;
    SFor I32 "i" (lit 0)%C ("i" < (lit 16))%C ("i" + (lit 1))%C (
      SAssign "D" [EVar "i"]%C
        (("N" @ "i") * ("M" @ "i"))%C
    ) ;;
    SReturn ("D")%C
  )%CS.

(** neon_sim.cpp:2795-2803
<<
uint16x8_t vmulq_u16(uint16x8_t N, uint16x8_t M)
{
    uint16x8_t D;
    for (int i = 0; i < 8; i++)
    {
        D.val[i] = N.val[i] * M.val[i];
    }
    return D;
}
>> *)
Definition vmulq_u16 : func := mkfunc "vmulq_u16" (tvec U16 8)
  [("N", tvec U16 8); ("M", tvec U16 8)]
  (
    SDecl (tvec U16 8) "D" None ;;
    SFor I32 "i" (lit 0)%C ("i" < (lit 8))%C ("i" + (lit 1))%C (
      SAssign "D" [EVar "i"]%C
        (("N" @ "i") * ("M" @ "i"))%C
    ) ;;
    SReturn ("D")%C
  )%CS.

(** neon_sim.cpp:2804-2812
<<
uint32x4_t vmulq_u32(uint32x4_t N, uint32x4_t M)
{
    uint32x4_t D;
    for (int i = 0; i < 4; i++)
    {
        D.val[i] = N.val[i] * M.val[i];
    }
    return D;
}
>> *)
Definition vmulq_u32 : func := mkfunc "vmulq_u32" (tvec U32 4)
  [("N", tvec U32 4); ("M", tvec U32 4)]
  (
    SDecl (tvec U32 4) "D" None ;;
    SFor I32 "i" (lit 0)%C ("i" < (lit 4))%C ("i" + (lit 1))%C (
      SAssign "D" [EVar "i"]%C
        (("N" @ "i") * ("M" @ "i"))%C
    ) ;;
    SReturn ("D")%C
  )%CS.

(** neon_sim.cpp:2814-2822
<<
float32x4_t vmulq_f32(float32x4_t a, float32x4_t b)
{
    float32x4_t r;
    for (int i = 0; i < 4; i++)
    {
        r.val[i] =  a.val[i] * b.val[i];
    }
    return r;
}
>> *)
Definition vmulq_f32 : func := mkfunc "vmulq_f32" (tvec F32 4)
  [("a", tvec F32 4); ("b", tvec F32 4)]
  (
    SDecl (tvec F32 4) "r" None ;;
    SFor I32 "i" (lit 0)%C ("i" < (lit 4))%C ("i" + (lit 1))%C (
      SAssign "r" [EVar "i"]%C
        (("a" @ "i") * ("b" @ "i"))%C
    ) ;;
    SReturn ("r")%C
  )%CS.

(** neon_sim.cpp:2825-2833
<<
int16x4_t vmul_n_s16(int16x4_t N, int16_t M)
{
    int16x4_t D;
    for (int i = 0; i < 4; i++)
    {
        D.val[i] = N.val[i] * M;
    }
    return D;
}
>> *)
Definition vmul_n_s16 : func := mkfunc "vmul_n_s16" (tvec I16 4)
  [("N", tvec I16 4); ("M", TScal I16)]
  (
    SDecl (tvec I16 4) "D" None ;;
    SFor I32 "i" (lit 0)%C ("i" < (lit 4))%C ("i" + (lit 1))%C (
      SAssign "D" [EVar "i"]%C
        (("N" @ "i") * "M")%C
    ) ;;
    SReturn ("D")%C
  )%CS.

(** neon_sim.cpp:2835-2843
<<
int32x2_t vmul_n_s32(int32x2_t N, int32_t M)
{
    int32x2_t D;
    for (int i = 0; i < 2; i++)
    {
        D.val[i] = N.val[i] * M;
    }
    return D;
}
>> *)
Definition vmul_n_s32 : func := mkfunc "vmul_n_s32" (tvec I32 2)
  [("N", tvec I32 2); ("M", TScal I32)]
  (
    SDecl (tvec I32 2) "D" None ;;
    SFor I32 "i" (lit 0)%C ("i" < (lit 2))%C ("i" + (lit 1))%C (
      SAssign "D" [EVar "i"]%C
        (("N" @ "i") * "M")%C
    ) ;;
    SReturn ("D")%C
  )%CS.

(** neon_sim.cpp:2845-2853
<<
uint16x4_t vmul_n_u16(uint16x4_t N, uint16_t M)
{
    uint16x4_t D;
    for (int i = 0; i < 4; i++)
    {
        D.val[i] = N.val[i] * M;
    }
    return D;
}
>> *)
Definition vmul_n_u16 : func := mkfunc "vmul_n_u16" (tvec U16 4)
  [("N", tvec U16 4); ("M", TScal U16)]
  (
    SDecl (tvec U16 4) "D" None ;;
    SFor I32 "i" (lit 0)%C ("i" < (lit 4))%C ("i" + (lit 1))%C (
      SAssign "D" [EVar "i"]%C
        (("N" @ "i") * "M")%C
    ) ;;
    SReturn ("D")%C
  )%CS.

(** neon_sim.cpp:2855-2863
<<
uint32x2_t vmul_n_u32(uint32x2_t N, uint32_t M)
{
    uint32x2_t D;
    for (int i = 0; i < 2; i++)
    {
        D.val[i] = N.val[i] * M;
    }
    return D;
}
>> *)
Definition vmul_n_u32 : func := mkfunc "vmul_n_u32" (tvec U32 2)
  [("N", tvec U32 2); ("M", TScal U32)]
  (
    SDecl (tvec U32 2) "D" None ;;
    SFor I32 "i" (lit 0)%C ("i" < (lit 2))%C ("i" + (lit 1))%C (
      SAssign "D" [EVar "i"]%C
        (("N" @ "i") * "M")%C
    ) ;;
    SReturn ("D")%C
  )%CS.

(** neon_sim.cpp:2865-2873
<<
float32x2_t vmul_n_f32(float32x2_t N, float32_t M)
{
    float32x2_t D;
    for (int i = 0; i < 2; i++)
    {
        D.val[i] = N.val[i] * M;
    }
    return D;
}
>> *)
Definition vmul_n_f32 : func := mkfunc "vmul_n_f32" (tvec F32 2)
  [("N", tvec F32 2); ("M", TScal F32)]
  (
    SDecl (tvec F32 2) "D" None ;;
    SFor I32 "i" (lit 0)%C ("i" < (lit 2))%C ("i" + (lit 1))%C (
      SAssign "D" [EVar "i"]%C
        (("N" @ "i") * "M")%C
    ) ;;
    SReturn ("D")%C
  )%CS.

(** neon_sim.cpp:2876-2884
<<
float64x1_t vmul_n_f64(float64x1_t N, float64_t M)
{
    float64x1_t D;
    for (int i = 0; i < 1; i++)
    {
        D.val[i] = N.val[i] * M;
    }
    return D;
}
>> *)
Definition vmul_n_f64 : func := mkfunc "vmul_n_f64" (tvec F64 1)
  [("N", tvec F64 1); ("M", TScal F64)]
  (
    SDecl (tvec F64 1) "D" None ;;
    SFor I32 "i" (lit 0)%C ("i" < (lit 1))%C ("i" + (lit 1))%C (
      SAssign "D" [EVar "i"]%C
        (("N" @ "i") * "M")%C
    ) ;;
    SReturn ("D")%C
  )%CS.

(** neon_sim.cpp:2888-2896
<<
int16x8_t vmulq_n_s16(int16x8_t N, int16_t M)
{
    int16x8_t D;
    for (int i = 0; i < 8; i++)
    {
        D.val[i] = N.val[i] * M;
    }
    return D;
}
>> *)
Definition vmulq_n_s16 : func := mkfunc "vmulq_n_s16" (tvec I16 8)
  [("N", tvec I16 8); ("M", TScal I16)]
  (
    SDecl (tvec I16 8) "D" None ;;
    SFor I32 "i" (lit 0)%C ("i" < (lit 8))%C ("i" + (lit 1))%C (
      SAssign "D" [EVar "i"]%C
        (("N" @ "i") * "M")%C
    ) ;;
    SReturn ("D")%C
  )%CS.

(** neon_sim.cpp:2898-2906
<<
int32x4_t vmulq_n_s32(int32x4_t N, int32_t M)
{
    int32x4_t D;
    for (int i = 0; i < 4; i++)
    {
        D.val[i] = N.val[i] * M;
    }
    return D;
}
>> *)
Definition vmulq_n_s32 : func := mkfunc "vmulq_n_s32" (tvec I32 4)
  [("N", tvec I32 4); ("M", TScal I32)]
  (
    SDecl (tvec I32 4) "D" None ;;
    SFor I32 "i" (lit 0)%C ("i" < (lit 4))%C ("i" + (lit 1))%C (
      SAssign "D" [EVar "i"]%C
        (("N" @ "i") * "M")%C
    ) ;;
    SReturn ("D")%C
  )%CS.

(** neon_sim.cpp:2908-2916
<<
uint16x8_t vmulq_n_u16(uint16x8_t N, uint16_t M)
{
    uint16x8_t D;
    for (int i = 0; i < 8; i++)
    {
        D.val[i] = N.val[i] * M;
    }
    return D;
}
>> *)
Definition vmulq_n_u16 : func := mkfunc "vmulq_n_u16" (tvec U16 8)
  [("N", tvec U16 8); ("M", TScal U16)]
  (
    SDecl (tvec U16 8) "D" None ;;
    SFor I32 "i" (lit 0)%C ("i" < (lit 8))%C ("i" + (lit 1))%C (
      SAssign "D" [EVar "i"]%C
        (("N" @ "i") * "M")%C
    ) ;;
    SReturn ("D")%C
  )%CS.

(** neon_sim.cpp:2918-2926
<<
uint32x4_t vmulq_n_u32(uint32x4_t N, uint32_t M)
{
    uint32x4_t D;
    for (int i = 0; i < 4; i++)
    {
        D.val[i] = N.val[i] * M;
    }
    return D;
}
>> *)
Definition vmulq_n_u32 : func := mkfunc "vmulq_n_u32" (tvec U32 4)
  [("N", tvec U32 4); ("M", TScal U32)]
  (
    SDecl (tvec U32 4) "D" None ;;
    SFor I32 "i" (lit 0)%C ("i" < (lit 4))%C ("i" + (lit 1))%C (
      SAssign "D" [EVar "i"]%C
        (("N" @ "i") * "M")%C
    ) ;;
    SReturn ("D")%C
  )%CS.

(** neon_sim.cpp:2928-2936
<<
float32x4_t vmulq_n_f32(float32x4_t N, float32_t M)
{
    float32x4_t D;
    for (int i = 0; i < 4; i++)
    {
        D.val[i] = N.val[i] * M;
    }
    return D;
}
>> *)
Definition vmulq_n_f32 : func := mkfunc "vmulq_n_f32" (tvec F32 4)
  [("N", tvec F32 4); ("M", TScal F32)]
  (
    SDecl (tvec F32 4) "D" None ;;
    SFor I32 "i" (lit 0)%C ("i" < (lit 4))%C ("i" + (lit 1))%C (
      SAssign "D" [EVar "i"]%C
        (("N" @ "i") * "M")%C
    ) ;;
    SReturn ("D")%C
  )%CS.

(** neon_sim.cpp:2939-2947
<<
float64x2_t vmulq_n_f64(float64x2_t N, float64_t M)
{
    float64x2_t D;
    for (int i = 0; i < 2; i++)
    {
        D.val[i] = N.val[i] * M;
    }
    return D;
}
>> *)
Definition vmulq_n_f64 : func := mkfunc "vmulq_n_f64" (tvec F64 2)
  [("N", tvec F64 2); ("M", TScal F64)]
  (
    SDecl (tvec F64 2) "D" None ;;
    SFor I32 "i" (lit 0)%C ("i" < (lit 2))%C ("i" + (lit 1))%C (
      SAssign "D" [EVar "i"]%C
        (("N" @ "i") * "M")%C
    ) ;;
    SReturn ("D")%C
  )%CS.

(** neon_sim.cpp:2951-2959
<<
uint16x8_t vmull_u8(uint8x8_t a, uint8x8_t b)
{
    uint16x8_t r;
    for (int i = 0; i < 8; i++)
    {
        r.val[i] =  a.val[i] * b.val[i];
    }
    return r;
}
>> *)
Definition vmull_u8 : func := mkfunc "vmull_u8" (tvec U16 8)
  [("a", tvec U8 8); ("b", tvec U8 8)]
  (
    SDecl (tvec U16 8) "r" None ;;
    SFor I32 "i" (lit 0)%C ("i" < (lit 8))%C ("i" + (lit 1))%C (
      SAssign "r" [EVar "i"]%C
        (("a" @ "i") * ("b" @ "i"))%C
    ) ;;
    SReturn ("r")%C
  )%CS.

(** neon_sim.cpp:2960-2968
<<
uint32x4_t vmull_u16(uint16x4_t a, uint16x4_t b)
{
    uint32x4_t r;
    for (int i = 0; i < 4; i++)
    {
        r.val[i] =  a.val[i] * b.val[i];
    }
    return r;
}
>> *)
Definition vmull_u16 : func := mkfunc "vmull_u16" (tvec U32 4)
  [("a", tvec U16 4); ("b", tvec U16 4)]
  (
    SDecl (tvec U32 4) "r" None ;;
    SFor I32 "i" (lit 0)%C ("i" < (lit 4))%C ("i" + (lit 1))%C (
      SAssign "r" [EVar "i"]%C
        (("a" @ "i") * ("b" @ "i"))%C
    ) ;;
    SReturn ("r")%C
  )%CS.

(** neon_sim.cpp:2969-2977
<<
uint64x2_t vmull_u32(uint32x2_t a, uint32x2_t b)
{
    uint64x2_t r;
    for (int i = 0; i < 2; i++)
    {
        r.val[i] =  a.val[i] * b.val[i];
    }
    return r;
}
>> *)
Definition vmull_u32 : func := mkfunc "vmull_u32" (tvec U64 2)
  [("a", tvec U32 2); ("b", tvec U32 2)]
  (
    SDecl (tvec U64 2) "r" None ;;
    SFor I32 "i" (lit 0)%C ("i" < (lit 2))%C ("i" + (lit 1))%C (
      SAssign "r" [EVar "i"]%C
        (("a" @ "i") * ("b" @ "i"))%C
    ) ;;
    SReturn ("r")%C
  )%CS.

(** neon_sim.cpp:2979-2987
<<
int16x8_t vmull_s8(int8x8_t a, int8x8_t b)
{
    int16x8_t r;
    for (int i = 0; i < 8; i++)
    {
        r.val[i] =  a.val[i] * b.val[i];
    }
    return r;
}
>> *)
Definition vmull_s8 : func := mkfunc "vmull_s8" (tvec I16 8)
  [("a", tvec I8 8); ("b", tvec I8 8)]
  (
    SDecl (tvec I16 8) "r" None ;;
    SFor I32 "i" (lit 0)%C ("i" < (lit 8))%C ("i" + (lit 1))%C (
      SAssign "r" [EVar "i"]%C
        (("a" @ "i") * ("b" @ "i"))%C
    ) ;;
    SReturn ("r")%C
  )%CS.

(** neon_sim.cpp:2988-2996
<<
int32x4_t vmull_s16(int16x4_t a, int16x4_t b)
{
    int32x4_t r;
    for (int i = 0; i < 4; i++)
    {
        r.val[i] =  a.val[i] * b.val[i];
    }
    return r;
}
>> *)
Definition vmull_s16 : func := mkfunc "vmull_s16" (tvec I32 4)
  [("a", tvec I16 4); ("b", tvec I16 4)]
  (
    SDecl (tvec I32 4) "r" None ;;
    SFor I32 "i" (lit 0)%C ("i" < (lit 4))%C ("i" + (lit 1))%C (
      SAssign "r" [EVar "i"]%C
        (("a" @ "i") * ("b" @ "i"))%C
    ) ;;
    SReturn ("r")%C
  )%CS.

(** neon_sim.cpp:2997-3005
<<
int64x2_t vmull_s32(int32x2_t a, int32x2_t b)
{
    int64x2_t r;
    for (int i = 0; i < 2; i++)
    {
        r.val[i] =  a.val[i] * b.val[i];
    }
    return r;
}
>> *)
Definition vmull_s32 : func := mkfunc "vmull_s32" (tvec I64 2)
  [("a", tvec I32 2); ("b", tvec I32 2)]
  (
    SDecl (tvec I64 2) "r" None ;;
    SFor I32 "i" (lit 0)%C ("i" < (lit 2))%C ("i" + (lit 1))%C (
      SAssign "r" [EVar "i"]%C
        (("a" @ "i") * ("b" @ "i"))%C
    ) ;;
    SReturn ("r")%C
  )%CS.

(** neon_sim.cpp:3008-3016
<<
int32x4_t vmull_n_s16(int16x4_t N, int16_t M)
{
    int32x4_t D;
    for (int i = 0; i < 4; i++)
    {
        D.val[i] = N.val[i] * M;
    }
    return D;
}
>> *)
Definition vmull_n_s16 : func := mkfunc "vmull_n_s16" (tvec I32 4)
  [("N", tvec I16 4); ("M", TScal I16)]
  (
    SDecl (tvec I32 4) "D" None ;;
    SFor I32 "i" (lit 0)%C ("i" < (lit 4))%C ("i" + (lit 1))%C (
      SAssign "D" [EVar "i"]%C
        (("N" @ "i") * "M")%C
    ) ;;
    SReturn ("D")%C
  )%CS.

(** neon_sim.cpp:3018-3026
<<
int64x2_t vmull_n_s32(int32x2_t N, int32_t M)
{
    int64x2_t D;
    for (int i = 0; i < 2; i++)
    {
        D.val[i] = N.val[i] * M;
    }
    return D;
}
>> *)
Definition vmull_n_s32 : func := mkfunc "vmull_n_s32" (tvec I64 2)
  [("N", tvec I32 2); ("M", TScal I32)]
  (
    SDecl (tvec I64 2) "D" None ;;
    SFor I32 "i" (lit 0)%C ("i" < (lit 2))%C ("i" + (lit 1))%C (
      SAssign "D" [EVar "i"]%C
        (("N" @ "i") * "M")%C
    ) ;;
    SReturn ("D")%C
  )%CS.

(** neon_sim.cpp:3028-3036
<<
uint32x4_t vmull_n_u16(uint16x4_t N, uint16_t M)
{
    uint32x4_t D;
    for (int i = 0; i < 4; i++)
    {
        D.val[i] = N.val[i] * M;
    }
    return D;
}
>> *)
Definition vmull_n_u16 : func := mkfunc "vmull_n_u16" (tvec U32 4)
  [("N", tvec U16 4); ("M", TScal U16)]
  (
    SDecl (tvec U32 4) "D" None ;;
    SFor I32 "i" (lit 0)%C ("i" < (lit 4))%C ("i" + (lit 1))%C (
      SAssign "D" [EVar "i"]%C
        (("N" @ "i") * "M")%C
    ) ;;
    SReturn ("D")%C
  )%CS.

(** neon_sim.cpp:3038-3046
<<
uint64x2_t vmull_n_u32(uint32x2_t N, uint32_t M)
{
    uint64x2_t D;
    for (int i = 0; i < 2; i++)
    {
        D.val[i] = N.val[i] * M;
    }
    return D;
}
>> *)
Definition vmull_n_u32 : func := mkfunc "vmull_n_u32" (tvec U64 2)
  [("N", tvec U32 2); ("M", TScal U32)]
  (
    SDecl (tvec U64 2) "D" None ;;
    SFor I32 "i" (lit 0)%C ("i" < (lit 2))%C ("i" + (lit 1))%C (
      SAssign "D" [EVar "i"]%C
        (("N" @ "i") * "M")%C
    ) ;;
    SReturn ("D")%C
  )%CS.

(** neon_sim.cpp:3049-3065
<<
int32x4_t vqdmull_s16(int16x4_t M, int16x4_t N)
{
    int32x4_t D;
    for (int i = 0; i < 4; i++)
    {
        // saturating
        if (N.val[i] == INT16_MIN && M.val[i] == INT16_MIN)
        {
            D.val[i] = INT32_MAX;
        }
        else
        { // most cases
            D.val[i] = (M.val[i] * N.val[i]) * 2;
        }
    }
    return D;
}
>> *)
Definition vqdmull_s16 : func := mkfunc "vqdmull_s16" (tvec I32 4)
  [("M", tvec I16 4); ("N", tvec I16 4)]
  (
    SDecl (tvec I32 4) "D" None ;;
    SFor I32 "i" (lit 0)%C ("i" < (lit 4))%C ("i" + (lit 1))%C (
      SIf (EAndAlso (("N" @ "i") == (lit (-32768))) (("M" @ "i") == (lit (-32768))))%C (
        SAssign "D" [EVar "i"]%C
          (lit 2147483647)%C
      ) (
        SAssign "D" [EVar "i"]%C
          ((("M" @ "i") * ("N" @ "i")) * (lit 2))%C
      )
    ) ;;
    SReturn ("D")%C
  )%CS.

(** neon_sim.cpp:3068-3076
<<
int16x8_t vmlal_s8(int16x8_t N, int8x8_t M, int8x8_t P)
{
    int16x8_t D;
    for (int i = 0; i < 8; i++)
    {
        D.val[i] = N.val[i] + (M.val[i] * P.val[i]);
    }
    return D;
}
>> *)
Definition vmlal_s8 : func := mkfunc "vmlal_s8" (tvec I16 8)
  [("N", tvec I16 8); ("M", tvec I8 8); ("P", tvec I8 8)]
  (
    SDecl (tvec I16 8) "D" None ;;
    SFor I32 "i" (lit 0)%C ("i" < (lit 8))%C ("i" + (lit 1))%C (
      SAssign "D" [EVar "i"]%C
        (("N" @ "i") + (("M" @ "i") * ("P" @ "i")))%C
    ) ;;
    SReturn ("D")%C
  )%CS.

(** neon_sim.cpp:3078-3086
<<
int32x4_t vmlal_s16(int32x4_t N, int16x4_t M, int16x4_t P)
{
    int32x4_t D;
    for (int i = 0; i < 4; i++)
    {
        D.val[i] = N.val[i] + (M.val[i] * P.val[i]);
    }
    return D;
}
>> *)
Definition vmlal_s16 : func := mkfunc "vmlal_s16" (tvec I32 4)
  [("N", tvec I32 4); ("M", tvec I16 4); ("P", tvec I16 4)]
  (
    SDecl (tvec I32 4) "D" None ;;
    SFor I32 "i" (lit 0)%C ("i" < (lit 4))%C ("i" + (lit 1))%C (
      SAssign "D" [EVar "i"]%C
        (("N" @ "i") + (("M" @ "i") * ("P" @ "i")))%C
    ) ;;
    SReturn ("D")%C
  )%CS.

(** neon_sim.cpp:3088-3096
<<
int64x2_t vmlal_s32(int64x2_t N, int32x2_t M, int32x2_t P)
{
    int64x2_t D;
    for (int i = 0; i < 2; i++)
    {
        D.val[i] = N.val[i] + (M.val[i] * P.val[i]);
    }
    return D;
}
>> *)
Definition vmlal_s32 : func := mkfunc "vmlal_s32" (tvec I64 2)
  [("N", tvec I64 2); ("M", tvec I32 2); ("P", tvec I32 2)]
  (
    SDecl (tvec I64 2) "D" None ;;
    SFor I32 "i" (lit 0)%C ("i" < (lit 2))%C ("i" + (lit 1))%C (
      SAssign "D" [EVar "i"]%C
        (("N" @ "i") + (("M" @ "i") * ("P" @ "i")))%C
    ) ;;
    SReturn ("D")%C
  )%CS.

(** neon_sim.cpp:3098-3106
<<
uint16x8_t vmlal_u8(uint16x8_t N, uint8x8_t M, uint8x8_t P)
{
    uint16x8_t D;
    for (int i = 0; i < 8; i++)
    {
        D.val[i] = N.val[i] + (M.val[i] * P.val[i]);
    }
    return D;
}
>> *)
Definition vmlal_u8 : func := mkfunc "vmlal_u8" (tvec U16 8)
  [("N", tvec U16 8); ("M", tvec U8 8); ("P", tvec U8 8)]
  (
    SDecl (tvec U16 8) "D" None ;;
    SFor I32 "i" (lit 0)%C ("i" < (lit 8))%C ("i" + (lit 1))%C (
      SAssign "D" [EVar "i"]%C
        (("N" @ "i") + (("M" @ "i") * ("P" @ "i")))%C
    ) ;;
    SReturn ("D")%C
  )%CS.

(** neon_sim.cpp:3108-3116
<<
uint32x4_t vmlal_u16(uint32x4_t N, uint16x4_t M, uint16x4_t P)
{
    uint32x4_t D;
    for (int i = 0; i < 4; i++)
    {
        D.val[i] = N.val[i] + (M.val[i] * P.val[i]);
    }
    return D;
}
>> *)
Definition vmlal_u16 : func := mkfunc "vmlal_u16" (tvec U32 4)
  [("N", tvec U32 4); ("M", tvec U16 4); ("P", tvec U16 4)]
  (
    SDecl (tvec U32 4) "D" None ;;
    SFor I32 "i" (lit 0)%C ("i" < (lit 4))%C ("i" + (lit 1))%C (
      SAssign "D" [EVar "i"]%C
        (("N" @ "i") + (("M" @ "i") * ("P" @ "i")))%C
    ) ;;
    SReturn ("D")%C
  )%CS.

(** neon_sim.cpp:3118-3126
<<
uint64x2_t vmlal_u32(uint64x2_t N, uint32x2_t M, uint32x2_t P)
{
    uint64x2_t D;
    for (int i = 0; i < 2; i++)
    {
        D.val[i] = N.val[i] + (M.val[i] * P.val[i]);
    }
    return D;
}
>> *)
Definition vmlal_u32 : func := mkfunc "vmlal_u32" (tvec U64 2)
  [("N", tvec U64 2); ("M", tvec U32 2); ("P", tvec U32 2)]
  (
    SDecl (tvec U64 2) "D" None ;;
    SFor I32 "i" (lit 0)%C ("i" < (lit 2))%C ("i" + (lit 1))%C (
      SAssign "D" [EVar "i"]%C
        (("N" @ "i") + (("M" @ "i") * ("P" @ "i")))%C
    ) ;;
    SReturn ("D")%C
  )%CS.

(** neon_sim.cpp:3129-3137
<<
int16x8_t vmlsl_s8(int16x8_t N, int8x8_t M, int8x8_t P)
{
    int16x8_t D;
    for (int i = 0; i < 8; i++)
    {
        D.val[i] = N.val[i] - (M.val[i] * P.val[i]);
    }
    return D;
}
>> *)
Definition vmlsl_s8 : func := mkfunc "vmlsl_s8" (tvec I16 8)
  [("N", tvec I16 8); ("M", tvec I8 8); ("P", tvec I8 8)]
  (
    SDecl (tvec I16 8) "D" None ;;
    SFor I32 "i" (lit 0)%C ("i" < (lit 8))%C ("i" + (lit 1))%C (
      SAssign "D" [EVar "i"]%C
        (("N" @ "i") - (("M" @ "i") * ("P" @ "i")))%C
    ) ;;
    SReturn ("D")%C
  )%CS.

(** neon_sim.cpp:3139-3147
<<
int32x4_t vmlsl_s16(int32x4_t N, int16x4_t M, int16x4_t P)
{
    int32x4_t D;
    for (int i = 0; i < 4; i++)
    {
        D.val[i] = N.val[i] - (M.val[i] * P.val[i]);
    }
    return D;
}
>> *)
Definition vmlsl_s16 : func := mkfunc "vmlsl_s16" (tvec I32 4)
  [("N", tvec I32 4); ("M", tvec I16 4); ("P", tvec I16 4)]
  (
    SDecl (tvec I32 4) "D" None ;;
    SFor I32 "i" (lit 0)%C ("i" < (lit 4))%C ("i" + (lit 1))%C (
      SAssign "D" [EVar "i"]%C
        (("N" @ "i") - (("M" @ "i") * ("P" @ "i")))%C
    ) ;;
    SReturn ("D")%C
  )%CS.

(** neon_sim.cpp:3149-3157
<<
int64x2_t vmlsl_s32(int64x2_t N, int32x2_t M, int32x2_t P)
{
    int64x2_t D;
    for (int i = 0; i < 2; i++)
    {
        D.val[i] = N.val[i] - (M.val[i] * P.val[i]);
    }
    return D;
}
>> *)
Definition vmlsl_s32 : func := mkfunc "vmlsl_s32" (tvec I64 2)
  [("N", tvec I64 2); ("M", tvec I32 2); ("P", tvec I32 2)]
  (
    SDecl (tvec I64 2) "D" None ;;
    SFor I32 "i" (lit 0)%C ("i" < (lit 2))%C ("i" + (lit 1))%C (
      SAssign "D" [EVar "i"]%C
        (("N" @ "i") - (("M" @ "i") * ("P" @ "i")))%C
    ) ;;
    SReturn ("D")%C
  )%CS.

(** neon_sim.cpp:3159-3167
<<
uint16x8_t vmlsl_u8(uint16x8_t N, uint8x8_t M, uint8x8_t P)
{
    uint16x8_t D;
    for (int i = 0; i < 8; i++)
    {
        D.val[i] = N.val[i] - (M.val[i] * P.val[i]);
    }
    return D;
}
>> *)
Definition vmlsl_u8 : func := mkfunc "vmlsl_u8" (tvec U16 8)
  [("N", tvec U16 8); ("M", tvec U8 8); ("P", tvec U8 8)]
  (
    SDecl (tvec U16 8) "D" None ;;
    SFor I32 "i" (lit 0)%C ("i" < (lit 8))%C ("i" + (lit 1))%C (
      SAssign "D" [EVar "i"]%C
        (("N" @ "i") - (("M" @ "i") * ("P" @ "i")))%C
    ) ;;
    SReturn ("D")%C
  )%CS.

(** neon_sim.cpp:3169-3177
<<
uint32x4_t vmlsl_u16(uint32x4_t N, uint16x4_t M, uint16x4_t P)
{
    uint32x4_t D;
    for (int i = 0; i < 4; i++)
    {
        D.val[i] = N.val[i] - (M.val[i] * P.val[i]);
    }
    return D;
}
>> *)
Definition vmlsl_u16 : func := mkfunc "vmlsl_u16" (tvec U32 4)
  [("N", tvec U32 4); ("M", tvec U16 4); ("P", tvec U16 4)]
  (
    SDecl (tvec U32 4) "D" None ;;
    SFor I32 "i" (lit 0)%C ("i" < (lit 4))%C ("i" + (lit 1))%C (
      SAssign "D" [EVar "i"]%C
        (("N" @ "i") - (("M" @ "i") * ("P" @ "i")))%C
    ) ;;
    SReturn ("D")%C
  )%CS.

(** neon_sim.cpp:3179-3187
<<
uint64x2_t vmlsl_u32(uint64x2_t N, uint32x2_t M, uint32x2_t P)
{
    uint64x2_t D;
    for (int i = 0; i < 2; i++)
    {
        D.val[i] = N.val[i] - (M.val[i] * P.val[i]);
    }
    return D;
}
>> *)
Definition vmlsl_u32 : func := mkfunc "vmlsl_u32" (tvec U64 2)
  [("N", tvec U64 2); ("M", tvec U32 2); ("P", tvec U32 2)]
  (
    SDecl (tvec U64 2) "D" None ;;
    SFor I32 "i" (lit 0)%C ("i" < (lit 2))%C ("i" + (lit 1))%C (
      SAssign "D" [EVar "i"]%C
        (("N" @ "i") - (("M" @ "i") * ("P" @ "i")))%C
    ) ;;
    SReturn ("D")%C
  )%CS.

(** neon_sim.cpp:3190-3198
<<
int8x16_t vmlaq_s8(int8x16_t N, int8x16_t M, int8x16_t P)
{
    int8x16_t D;
    for (int i = 0; i < 16; i++)
    {
        D.val[i] = N.val[i] + M.val[i] * P.val[i];
    }
    return D;
}
>> *)
Definition vmlaq_s8 : func := mkfunc "vmlaq_s8" (tvec I8 16)
  [("N", tvec I8 16); ("M", tvec I8 16); ("P", tvec I8 16)]
  (
    SDecl (tvec I8 16) "D" None ;;
    SFor I32 "i" (lit 0)%C ("i" < (lit 16))%C ("i" + (lit 1))%C (
      SAssign "D" [EVar "i"]%C
        (("N" @ "i") + (("M" @ "i") * ("P" @ "i")))%C
    ) ;;
    SReturn ("D")%C
  )%CS.

(** neon_sim.cpp:3200-3208
<<
int16x8_t vmlaq_s16(int16x8_t N, int16x8_t M, int16x8_t P)
{
    int16x8_t D;
    for (int i = 0; i < 8; i++)
    {
        D.val[i] = N.val[i] + M.val[i] * P.val[i];
    }
    return D;
}
>> *)
Definition vmlaq_s16 : func := mkfunc "vmlaq_s16" (tvec I16 8)
  [("N", tvec I16 8); ("M", tvec I16 8); ("P", tvec I16 8)]
  (
    SDecl (tvec I16 8) "D" None ;;
    SFor I32 "i" (lit 0)%C ("i" < (lit 8))%C ("i" + (lit 1))%C (
      SAssign "D" [EVar "i"]%C
        (("N" @ "i") + (("M" @ "i") * ("P" @ "i")))%C
    ) ;;
    SReturn ("D")%C
  )%CS.

(** neon_sim.cpp:3210-3218
<<
int32x4_t vmlaq_s32(int32x4_t N, int32x4_t M, int32x4_t P)
{
    int32x4_t D;
    for (int i = 0; i < 4; i++)
    {
        D.val[i] = N.val[i] + M.val[i] * P.val[i];
    }
    return D;
}
>> *)
Definition vmlaq_s32 : func := mkfunc "vmlaq_s32" (tvec I32 4)
  [("N", tvec I32 4); ("M", tvec I32 4); ("P", tvec I32 4)]
  (
    SDecl (tvec I32 4) "D" None ;;
    SFor I32 "i" (lit 0)%C ("i" < (lit 4))%C ("i" + (lit 1))%C (
      SAssign "D" [EVar "i"]%C
        (("N" @ "i") + (("M" @ "i") * ("P" @ "i")))%C
    ) ;;
    SReturn ("D")%C
  )%CS.

(** neon_sim.cpp:3220-3228
<<
uint8x16_t vmlaq_u8(uint8x16_t N, uint8x16_t M, uint8x16_t P)
{
    uint8x16_t D;
    for (int i = 0; i < 16; i++)
    {
        D.val[i] = N.val[i] + M.val[i] * P.val[i];
    }
    return D;
}
>> *)
Definition vmlaq_u8 : func := mkfunc "vmlaq_u8" (tvec U8 16)
  [("N", tvec U8 16); ("M", tvec U8 16); ("P", tvec U8 16)]
  (
    SDecl (tvec U8 16) "D" None ;;
    SFor I32 "i" (lit 0)%C ("i" < (lit 16))%C ("i" + (lit 1))%C (
      SAssign "D" [EVar "i"]%C
        (("N" @ "i") + (("M" @ "i") * ("P" @ "i")))%C
    ) ;;
    SReturn ("D")%C
  )%CS.

(** neon_sim.cpp:3230-3238
<<
uint16x8_t vmlaq_u16(uint16x8_t N, uint16x8_t M, uint16x8_t P)
{
    uint16x8_t D;
    for (int i = 0; i < 8; i++)
    {
        D.val[i] = N.val[i] + M.val[i] * P.val[i];
    }
    return D;
}
>> *)
Definition vmlaq_u16 : func := mkfunc "vmlaq_u16" (tvec U16 8)
  [("N", tvec U16 8); ("M", tvec U16 8); ("P", tvec U16 8)]
  (
    SDecl (tvec U16 8) "D" None ;;
    SFor I32 "i" (lit 0)%C ("i" < (lit 8))%C ("i" + (lit 1))%C (
      SAssign "D" [EVar "i"]%C
        (("N" @ "i") + (("M" @ "i") * ("P" @ "i")))%C
    ) ;;
    SReturn ("D")%C
  )%CS.

(** neon_sim.cpp:3240-3248
<<
uint32x4_t vmlaq_u32(uint32x4_t N, uint32x4_t M, uint32x4_t P)
{
    uint32x4_t D;
    for (int i = 0; i < 4; i++)
    {
        D.val[i] = N.val[i] + M.val[i] * P.val[i];
    }
    return D;
}
>> *)
Definition vmlaq_u32 : func := mkfunc "vmlaq_u32" (tvec U32 4)
  [("N", tvec U32 4); ("M", tvec U32 4); ("P", tvec U32 4)]
  (
    SDecl (tvec U32 4) "D" None ;;
    SFor I32 "i" (lit 0)%C ("i" < (lit 4))%C ("i" + (lit 1))%C (
      SAssign "D" [EVar "i"]%C
        (("N" @ "i") + (("M" @ "i") * ("P" @ "i")))%C
    ) ;;
    SReturn ("D")%C
  )%CS.

(** neon_sim.cpp:3250-3258
<<
float32x4_t vmlaq_f32(float32x4_t N, float32x4_t M, float32x4_t P)
{
    float32x4_t D;
    for (int i = 0; i < 4; i++)
    {
        D.val[i] = N.val[i] + M.val[i] * P.val[i];
    }
    return D;
}
>> *)
Definition vmlaq_f32 : func := mkfunc "vmlaq_f32" (tvec F32 4)
  [("N", tvec F32 4); ("M", tvec F32 4); ("P", tvec F32 4)]
  (
    SDecl (tvec F32 4) "D" None ;;
    SFor I32 "i" (lit 0)%C ("i" < (lit 4))%C ("i" + (lit 1))%C (
      SAssign "D" [EVar "i"]%C
        (("N" @ "i") + (("M" @ "i") * ("P" @ "i")))%C
    ) ;;
    SReturn ("D")%C
  )%CS.

(** neon_sim.cpp:3261-3269
<<
float32x4_t vmlaq_n_f32(float32x4_t a, float32x4_t b, float32_t c)
{
    float32x4_t D;
    for (int i = 0; i < 4; i++)
    {
        D.val[i] = a.val[i] + b.val[i] * c;
    }
    return D;
}
>> *)
Definition vmlaq_n_f32 : func := mkfunc "vmlaq_n_f32" (tvec F32 4)
  [("a", tvec F32 4); ("b", tvec F32 4); ("c", TScal F32)]
  (
    SDecl (tvec F32 4) "D" None ;;
    SFor I32 "i" (lit 0)%C ("i" < (lit 4))%C ("i" + (lit 1))%C (
      SAssign "D" [EVar "i"]%C
        (("a" @ "i") + (("b" @ "i") * "c"))%C
    ) ;;
    SReturn ("D")%C
  )%CS.

(** neon_sim.cpp:3273-3281
<<
int8x8_t vdup_n_s8(int8_t N)
{
    int8x8_t D;
    for (size_t i = 0; i < 8; i++)
    {
        D.val[i] = N;
    }
    return D;
}
>> *)
Definition vdup_n_s8 : func := mkfunc "vdup_n_s8" (tvec I8 8)
  [("N", TScal I8)]
  (
    SDecl (tvec I8 8) "D" None ;;
    SFor U64 "i" (lit 0)%C ("i" < (lit 8))%C ("i" + (lit 1))%C (
      SAssign "D" [EVar "i"]%C
        ("N")%C
    ) ;;
    SReturn ("D")%C
  )%CS.

(** neon_sim.cpp:3283-3291
<<
int16x4_t vdup_n_s16(int16_t N)
{
    int16x4_t D;
    for (size_t i = 0; i < 4; i++)
    {
        D.val[i] = N;
    }
    return D;
}
>> *)
Definition vdup_n_s16 : func := mkfunc "vdup_n_s16" (tvec I16 4)
  [("N", TScal I16)]
  (
    SDecl (tvec I16 4) "D" None ;;
    SFor U64 "i" (lit 0)%C ("i" < (lit 4))%C ("i" + (lit 1))%C (
      SAssign "D" [EVar "i"]%C
        ("N")%C
    ) ;;
    SReturn ("D")%C
  )%CS.

(** neon_sim.cpp:3293-3301
<<
int32x2_t vdup_n_s32(int32_t N)
{
    int32x2_t D;
    for (size_t i = 0; i < 2; i++)
    {
        D.val[i] = N;
    }
    return D;
}
>> *)
Definition vdup_n_s32 : func := mkfunc "vdup_n_s32" (tvec I32 2)
  [("N", TScal I32)]
  (
    SDecl (tvec I32 2) "D" None ;;
    SFor U64 "i" (lit 0)%C ("i" < (lit 2))%C ("i" + (lit 1))%C (
      SAssign "D" [EVar "i"]%C
        ("N")%C
    ) ;;
    SReturn ("D")%C
  )%CS.

(** neon_sim.cpp:3303-3311
<<
int64x1_t vdup_n_s64(int64_t N)
{
    int64x1_t D;
    for (size_t i = 0; i < 1; i++)
    {
        D.val[i] = N;
    }
    return D;
}
>> *)
Definition vdup_n_s64 : func := mkfunc "vdup_n_s64" (tvec I64 1)
  [("N", TScal I64)]
  (
    SDecl (tvec I64 1) "D" None ;;
    SFor U64 "i" (lit 0)%C ("i" < (lit 1))%C ("i" + (lit 1))%C (
      SAssign "D" [EVar "i"]%C
        ("N")%C
    ) ;;
    SReturn ("D")%C
  )%CS.

(** neon_sim.cpp:3313-3321
<<
uint8x8_t vdup_n_u8(uint8_t N)
{
    uint8x8_t D;
    for (size_t i = 0; i < 8; i++)
    {
        D.val[i] = N;
    }
    return D;
}
>> *)
Definition vdup_n_u8 : func := mkfunc "vdup_n_u8" (tvec U8 8)
  [("N", TScal U8)]
  (
    SDecl (tvec U8 8) "D" None ;;
    SFor U64 "i" (lit 0)%C ("i" < (lit 8))%C ("i" + (lit 1))%C (
      SAssign "D" [EVar "i"]%C
        ("N")%C
    ) ;;
    SReturn ("D")%C
  )%CS.

(** neon_sim.cpp:3323-3331
<<
uint16x4_t vdup_n_u16(uint16_t N)
{
    uint16x4_t D;
    for (size_t i = 0; i < 4; i++)
    {
        D.val[i] = N;
    }
    return D;
}
>> *)
Definition vdup_n_u16 : func := mkfunc "vdup_n_u16" (tvec U16 4)
  [("N", TScal U16)]
  (
    SDecl (tvec U16 4) "D" None ;;
    SFor U64 "i" (lit 0)%C ("i" < (lit 4))%C ("i" + (lit 1))%C (
      SAssign "D" [EVar "i"]%C
        ("N")%C
    ) ;;
    SReturn ("D")%C
  )%CS.

(** neon_sim.cpp:3333-3341
<<
uint32x2_t vdup_n_u32(uint32_t N)
{
    uint32x2_t D;
    for (size_t i = 0; i < 2; i++)
    {
        D.val[i] = N;
    }
    return D;
}
>> *)
Definition vdup_n_u32 : func := mkfunc "vdup_n_u32" (tvec U32 2)
  [("N", TScal U32)]
  (
    SDecl (tvec U32 2) "D" None ;;
    SFor U64 "i" (lit 0)%C ("i" < (lit 2))%C ("i" + (lit 1))%C (
      SAssign "D" [EVar "i"]%C
        ("N")%C
    ) ;;
    SReturn ("D")%C
  )%CS.

(** neon_sim.cpp:3343-3351
<<
uint64x1_t vdup_n_u64(uint64_t N)
{
    uint64x1_t D;
    for (size_t i = 0; i < 1; i++)
    {
        D.val[i] = N;
    }
    return D;
}
>> *)
Definition vdup_n_u64 : func := mkfunc "vdup_n_u64" (tvec U64 1)
  [("N", TScal U64)]
  (
    SDecl (tvec U64 1) "D" None ;;
    SFor U64 "i" (lit 0)%C ("i" < (lit 1))%C ("i" + (lit 1))%C (
      SAssign "D" [EVar "i"]%C
        ("N")%C
    ) ;;
    SReturn ("D")%C
  )%CS.

(** neon_sim.cpp:3354-3362
<<
uint8x16_t vdupq_n_u8(uint8_t value)
{
    uint8x16_t r;
    for (int i = 0; i < 16; i++)
    {
        r.val[i] =  value;
    }
    return r;
}
>> *)
Definition vdupq_n_u8 : func := mkfunc "vdupq_n_u8" (tvec U8 16)
  [("value", TScal U8)]
  (
    SDecl (tvec U8 16) "r" None ;;
    SFor I32 "i" (lit 0)%C ("i" < (lit 16))%C ("i" + (lit 1))%C (
      SAssign "r" [EVar "i"]%C
        ("value")%C
    ) ;;
    SReturn ("r")%C
  )%CS.

(** neon_sim.cpp:3363-3371
<<
int8x16_t vdupq_n_s8(int8_t value)
{
    int8x16_t r;
    for (int i = 0; i < 16; i++)
    {
        r.val[i] =  value;
    }
    return r;
}
>> *)
Definition vdupq_n_s8 : func := mkfunc "vdupq_n_s8" (tvec I8 16)
  [("value", TScal I8)]
  (
    SDecl (tvec I8 16) "r" None ;;
    SFor I32 "i" (lit 0)%C ("i" < (lit 16))%C ("i" + (lit 1))%C (
      SAssign "r" [EVar "i"]%C
        ("value")%C
    ) ;;
    SReturn ("r")%C
  )%CS.

(** neon_sim.cpp:3372-3380
<<
uint16x8_t vdupq_n_u16(uint16_t value)
{
    uint16x8_t r;
    for (int i = 0; i < 8; i++)
    {
        r.val[i] =  value;
    }
    return r;
}
>> *)
Definition vdupq_n_u16 : func := mkfunc "vdupq_n_u16" (tvec U16 8)
  [("value", TScal U16)]
  (
    SDecl (tvec U16 8) "r" None ;;
    SFor I32 "i" (lit 0)%C ("i" < (lit 8))%C ("i" + (lit 1))%C (
      SAssign "r" [EVar "i"]%C
        ("value")%C
    ) ;;
    SReturn ("r")%C
  )%CS.

(** neon_sim.cpp:3381-3389
<<
int16x8_t vdupq_n_s16(int16_t value)
{
    int16x8_t r;
    for (int i = 0; i < 8; i++)
    {
        r.val[i] =  value;
    }
    return r;
}
>> *)
Definition vdupq_n_s16 : func := mkfunc "vdupq_n_s16" (tvec I16 8)
  [("value", TScal I16)]
  (
    SDecl (tvec I16 8) "r" None ;;
    SFor I32 "i" (lit 0)%C ("i" < (lit 8))%C ("i" + (lit 1))%C (
      SAssign "r" [EVar "i"]%C
        ("value")%C
    ) ;;
    SReturn ("r")%C
  )%CS.

(** neon_sim.cpp:3390-3398
<<
uint32x4_t vdupq_n_u32(uint32_t value)
{
    uint32x4_t r;
    for (int i = 0; i < 4; i++)
    {
        r.val[i] =  value;
    }
    return r;
}
>> *)
Definition vdupq_n_u32 : func := mkfunc "vdupq_n_u32" (tvec U32 4)
  [("value", TScal U32)]
  (
    SDecl (tvec U32 4) "r" None ;;
    SFor I32 "i" (lit 0)%C ("i" < (lit 4))%C ("i" + (lit 1))%C (
      SAssign "r" [EVar "i"]%C
        ("value")%C
    ) ;;
    SReturn ("r")%C
  )%CS.

(** neon_sim.cpp:3399-3407
<<
int32x4_t vdupq_n_s32(int32_t value)
{
    int32x4_t r;
    for (int i = 0; i < 4; i++)
    {
        r.val[i] =  value;
    }
    return r;
}
>> *)
Definition vdupq_n_s32 : func := mkfunc "vdupq_n_s32" (tvec I32 4)
  [("value", TScal I32)]
  (
    SDecl (tvec I32 4) "r" None ;;
    SFor I32 "i" (lit 0)%C ("i" < (lit 4))%C ("i" + (lit 1))%C (
      SAssign "r" [EVar "i"]%C
        ("value")%C
    ) ;;
    SReturn ("r")%C
  )%CS.

(** neon_sim.cpp:3408-3416
<<
float32x4_t vdupq_n_f32(float32_t value)
{
    float32x4_t r;
    for (int i = 0; i < 4; i++)
    {
        r.val[i] =  value;
    }
    return r;
}
>> *)
Definition vdupq_n_f32 : func := mkfunc "vdupq_n_f32" (tvec F32 4)
  [("value", TScal F32)]
  (
    SDecl (tvec F32 4) "r" None ;;
    SFor I32 "i" (lit 0)%C ("i" < (lit 4))%C ("i" + (lit 1))%C (
      SAssign "r" [EVar "i"]%C
        ("value")%C
    ) ;;
    SReturn ("r")%C
  )%CS.

(** neon_sim.cpp:3418-3426
<<
float32x4_t vmovq_n_f32(float32_t value)
{
    float32x4_t r;
    for (int i = 0; i < 4; i++)
    {
        r.val[i] =  value;
    }
    return r;
}
>> *)
Definition vmovq_n_f32 : func := mkfunc "vmovq_n_f32" (tvec F32 4)
  [("value", TScal F32)]
  (
    SDecl (tvec F32 4) "r" None ;;
    SFor I32 "i" (lit 0)%C ("i" < (lit 4))%C ("i" + (lit 1))%C (
      SAssign "r" [EVar "i"]%C
        ("value")%C
    ) ;;
    SReturn ("r")%C
  )%CS.

(** neon_sim.cpp:3429-3437
<<
float32x2_t vget_low_f32(float32x4_t a)
{
    float32x2_t r;
    for (int i = 0; i < 2; i++)
    {
        r.val[i] =  a.val[i];
    }
    return r;
}
>> *)
Definition vget_low_f32 : func := mkfunc "vget_low_f32" (tvec F32 2)
  [("a", tvec F32 4)]
  (
    SDecl (tvec F32 2) "r" None ;;
    SFor I32 "i" (lit 0)%C ("i" < (lit 2))%C ("i" + (lit 1))%C (
      SAssign "r" [EVar "i"]%C
        ("a" @ "i")%C
    ) ;;
    SReturn ("r")%C
  )%CS.

(** neon_sim.cpp:3439-3447
<<
int32x2_t vget_low_s32(int32x4_t a)
{
    int32x2_t r;
    for (int i = 0; i < 2; i++)
    {
        r.val[i] =  a.val[i];
    }
    return r;
}
>> *)
Definition vget_low_s32 : func := mkfunc "vget_low_s32" (tvec I32 2)
  [("a", tvec I32 4)]
  (
    SDecl (tvec I32 2) "r" None ;;
    SFor I32 "i" (lit 0)%C ("i" < (lit 2))%C ("i" + (lit 1))%C (
      SAssign "r" [EVar "i"]%C
        ("a" @ "i")%C
    ) ;;
    SReturn ("r")%C
  )%CS.

(** neon_sim.cpp:3449-3457
<<
uint32x2_t vget_low_u32(uint32x4_t a)
{
    uint32x2_t r;
    for (int i = 0; i < 2; i++)
    {
        r.val[i] =  a.val[i];
    }
    return r;
}
>> *)
Definition vget_low_u32 : func := mkfunc "vget_low_u32" (tvec U32 2)
  [("a", tvec U32 4)]
  (
    SDecl (tvec U32 2) "r" None ;;
    SFor I32 "i" (lit 0)%C ("i" < (lit 2))%C ("i" + (lit 1))%C (
      SAssign "r" [EVar "i"]%C
        ("a" @ "i")%C
    ) ;;
    SReturn ("r")%C
  )%CS.

(** neon_sim.cpp:3459-3467
<<
int16x4_t vget_low_s16(int16x8_t a)
{
    int16x4_t r;
    for (int i = 0; i < 4; i++)
    {
        r.val[i] =  a.val[i];
    }
    return r;
}
>> *)
Definition vget_low_s16 : func := mkfunc "vget_low_s16" (tvec I16 4)
  [("a", tvec I16 8)]
  (
    SDecl (tvec I16 4) "r" None ;;
    SFor I32 "i" (lit 0)%C ("i" < (lit 4))%C ("i" + (lit 1))%C (
      SAssign "r" [EVar "i"]%C
        ("a" @ "i")%C
    ) ;;
    SReturn ("r")%C
  )%CS.

(** neon_sim.cpp:3469-3477
<<
uint16x4_t vget_low_u16(uint16x8_t a)
{
    uint16x4_t r;
    for (int i = 0; i < 4; i++)
    {
        r.val[i] =  a.val[i];
    }
    return r;
}
>> *)
Definition vget_low_u16 : func := mkfunc "vget_low_u16" (tvec U16 4)
  [("a", tvec U16 8)]
  (
    SDecl (tvec U16 4) "r" None ;;
    SFor I32 "i" (lit 0)%C ("i" < (lit 4))%C ("i" + (lit 1))%C (
      SAssign "r" [EVar "i"]%C
        ("a" @ "i")%C
    ) ;;
    SReturn ("r")%C
  )%CS.

(** neon_sim.cpp:3480-3488
<<
int8x8_t vget_low_s8(int8x16_t a)
{
    int8x8_t r;
    for (int i = 0; i < 8; i++)
    {
        r.val[i] =  a.val[i];
    }
    return r;
}
>> *)
Definition vget_low_s8 : func := mkfunc "vget_low_s8" (tvec I8 8)
  [("a", tvec I8 16)]
  (
    SDecl (tvec I8 8) "r" None ;;
    SFor I32 "i" (lit 0)%C ("i" < (lit 8))%C ("i" + (lit 1))%C (
      SAssign "r" [EVar "i"]%C
        ("a" @ "i")%C
    ) ;;
    SReturn ("r")%C
  )%CS.

(** neon_sim.cpp:3490-3498
<<
uint8x8_t vget_low_u8(uint8x16_t a)
{
    uint8x8_t r;
    for (int i = 0; i < 8; i++)
    {
        r.val[i] =  a.val[i];
    }
    return r;
}
>> *)
Definition vget_low_u8 : func := mkfunc "vget_low_u8" (tvec U8 8)
  [("a", tvec U8 16)]
  (
    SDecl (tvec U8 8) "r" None ;;
    SFor I32 "i" (lit 0)%C ("i" < (lit 8))%C ("i" + (lit 1))%C (
      SAssign "r" [EVar "i"]%C
        ("a" @ "i")%C
    ) ;;
    SReturn ("r")%C
  )%CS.

(** neon_sim.cpp:3501-3510
<<
float32x2_t vget_high_f32(float32x4_t a)
{
    float32x2_t r;
    int mid = 4 / 2;
    for (int i = 0; i < 2; i++)
    {
        r.val[i] =  a.val[mid + i];
    }
    return r;
}
>> *)
Definition vget_high_f32 : func := mkfunc "vget_high_f32" (tvec F32 2)
  [("a", tvec F32 4)]
  (
    SDecl (tvec F32 2) "r" None ;;
    SDecl (TScal I32) "mid" (Some ((lit 4) / (lit 2))%C) ;;
    SFor I32 "i" (lit 0)%C ("i" < (lit 2))%C ("i" + (lit 1))%C (
      SAssign "r" [EVar "i"]%C
        ("a" @ ("mid" + "i"))%C
    ) ;;
    SReturn ("r")%C
  )%CS.

(** neon_sim.cpp:3512-3521
<<
int32x2_t vget_high_s32(int32x4_t a)
{
    int32x2_t r;
    int mid = 4 / 2;
    for (int i = 0; i < 2; i++)
    {
        r.val[i] =  a.val[mid + i];
    }
    return r;
}
>> *)
Definition vget_high_s32 : func := mkfunc "vget_high_s32" (tvec I32 2)
  [("a", tvec I32 4)]
  (
    SDecl (tvec I32 2) "r" None ;;
    SDecl (TScal I32) "mid" (Some ((lit 4) / (lit 2))%C) ;;
    SFor I32 "i" (lit 0)%C ("i" < (lit 2))%C ("i" + (lit 1))%C (
      SAssign "r" [EVar "i"]%C
        ("a" @ ("mid" + "i"))%C
    ) ;;
    SReturn ("r")%C
  )%CS.

(** neon_sim.cpp:3523-3532
<<
int16x4_t vget_high_s16(int16x8_t a)
{
    int16x4_t r;
    int mid = 8 / 2;
    for (int i = 0; i < 4; i++)
    {
        r.val[i] =  a.val[mid + i];
    }
    return r;
}
>> *)
Definition vget_high_s16 : func := mkfunc "vget_high_s16" (tvec I16 4)
  [("a", tvec I16 8)]
  (
    SDecl (tvec I16 4) "r" None ;;
    SDecl (TScal I32) "mid" (Some ((lit 8) / (lit 2))%C) ;;
    SFor I32 "i" (lit 0)%C ("i" < (lit 4))%C ("i" + (lit 1))%C (
      SAssign "r" [EVar "i"]%C
        ("a" @ ("mid" + "i"))%C
    ) ;;
    SReturn ("r")%C
  )%CS.

(** neon_sim.cpp:3534-3543
<<
uint16x4_t vget_high_u16(uint16x8_t a)
{
    uint16x4_t r;
    int mid = 8 / 2;
    for (int i = 0; i < 4; i++)
    {
        r.val[i] =  a.val[mid + i];
    }
    return r;
}
>> *)
Definition vget_high_u16 : func := mkfunc "vget_high_u16" (tvec U16 4)
  [("a", tvec U16 8)]
  (
    SDecl (tvec U16 4) "r" None ;;
    SDecl (TScal I32) "mid" (Some ((lit 8) / (lit 2))%C) ;;
    SFor I32 "i" (lit 0)%C ("i" < (lit 4))%C ("i" + (lit 1))%C (
      SAssign "r" [EVar "i"]%C
        ("a" @ ("mid" + "i"))%C
    ) ;;
    SReturn ("r")%C
  )%CS.

(** neon_sim.cpp:3545-3554
<<
uint32x2_t vget_high_u32(uint32x4_t a)
{
    uint32x2_t r;
    int mid = 4 / 2;
    for (int i = 0; i < 2; i++)
    {
        r.val[i] =  a.val[mid + i];
    }
    return r;
}
>> *)
Definition vget_high_u32 : func := mkfunc "vget_high_u32" (tvec U32 2)
  [("a", tvec U32 4)]
  (
    SDecl (tvec U32 2) "r" None ;;
    SDecl (TScal I32) "mid" (Some ((lit 4) / (lit 2))%C) ;;
    SFor I32 "i" (lit 0)%C ("i" < (lit 2))%C ("i" + (lit 1))%C (
      SAssign "r" [EVar "i"]%C
        ("a" @ ("mid" + "i"))%C
    ) ;;
    SReturn ("r")%C
  )%CS.

(** neon_sim.cpp:3556-3565
<<
int8x8_t vget_high_s8(int8x16_t a)
{
    int8x8_t r;
    int mid = 16 / 2;
    for (int i = 0; i < 8; i++)
    {
        r.val[i] =  a.val[mid + i];
    }
    return r;
}
>> *)
Definition vget_high_s8 : func := mkfunc "vget_high_s8" (tvec I8 8)
  [("a", tvec I8 16)]
  (
    SDecl (tvec I8 8) "r" None ;;
    SDecl (TScal I32) "mid" (Some ((lit 16) / (lit 2))%C) ;;
    SFor I32 "i" (lit 0)%C ("i" < (lit 8))%C ("i" + (lit 1))%C (
      SAssign "r" [EVar "i"]%C
        ("a" @ ("mid" + "i"))%C
    ) ;;
    SReturn ("r")%C
  )%CS.

(** neon_sim.cpp:3567-3576
<<
uint8x8_t vget_high_u8(uint8x16_t a)
{
    uint8x8_t r;
    int mid = 16 / 2;
    for (int i = 0; i < 8; i++)
    {
        r.val[i] =  a.val[mid + i];
    }
    return r;
}
>> *)
Definition vget_high_u8 : func := mkfunc "vget_high_u8" (tvec U8 8)
  [("a", tvec U8 16)]
  (
    SDecl (tvec U8 8) "r" None ;;
    SDecl (TScal I32) "mid" (Some ((lit 16) / (lit 2))%C) ;;
    SFor I32 "i" (lit 0)%C ("i" < (lit 8))%C ("i" + (lit 1))%C (
      SAssign "r" [EVar "i"]%C
        ("a" @ ("mid" + "i"))%C
    ) ;;
    SReturn ("r")%C
  )%CS.

(** neon_sim.cpp:3578-3584
<<
float32x2_t vpmax_f32(float32x2_t a, float32x2_t b)
{
    float32x2_t r;
    r.val[0] = a.val[0] > a.val[1] ? a.val[0] : a.val[1];
    r.val[1] = b.val[0] > b.val[1] ? b.val[0] : b.val[1];
    return r;
}
>> *)
Definition vpmax_f32 : func := mkfunc "vpmax_f32" (tvec F32 2)
  [("a", tvec F32 2); ("b", tvec F32 2)]
  (
    SDecl (tvec F32 2) "r" None ;;
    SAssign "r" [lit 0]%C
      (ECond (("a" @ (lit 0)) > ("a" @ (lit 1))) ("a" @ (lit 0)) ("a" @ (lit 1)))%C ;;
    SAssign "r" [lit 1]%C
      (ECond (("b" @ (lit 0)) > ("b" @ (lit 1))) ("b" @ (lit 0)) ("b" @ (lit 1)))%C ;;
    SReturn ("r")%C
  )%CS.

(** neon_sim.cpp:3586-3592
<<
float32x2_t vpmin_f32(float32x2_t a, float32x2_t b)
{
    float32x2_t r;
    r.val[0] = a.val[0] < a.val[1] ? a.val[0] : a.val[1];
    r.val[1] = b.val[0] < b.val[1] ? b.val[0] : b.val[1];
    return r;
}
>> *)
Definition vpmin_f32 : func := mkfunc "vpmin_f32" (tvec F32 2)
  [("a", tvec F32 2); ("b", tvec F32 2)]
  (
    SDecl (tvec F32 2) "r" None ;;
    SAssign "r" [lit 0]%C
      (ECond (("a" @ (lit 0)) < ("a" @ (lit 1))) ("a" @ (lit 0)) ("a" @ (lit 1)))%C ;;
    SAssign "r" [lit 1]%C
      (ECond (("b" @ (lit 0)) < ("b" @ (lit 1))) ("b" @ (lit 0)) ("b" @ (lit 1)))%C ;;
    SReturn ("r")%C
  )%CS.

(** neon_sim.cpp:3594-3597
<<
float32_t vget_lane_f32(float32x2_t v, const int lane)
{
    return v.val[lane];
}
>> *)
Definition vget_lane_f32 : func := mkfunc "vget_lane_f32" (TScal F32)
  [("v", tvec F32 2); ("lane", TScal I32)]
  (
    SReturn ("v" @ "lane")%C
  )%CS.

(** neon_sim.cpp:3599-3607
<<
float32_t vgetq_lane_f32(float32x4_t v, int lane)
{
    if (lane < 0 || lane > 3)
    {
        fprintf(stderr, '%s: lane should is out of range [0, 3]', __FUNCTION__);
        abort();
    }
    return v.val[lane];
}
>> *)
Definition vgetq_lane_f32 : func := mkfunc "vgetq_lane_f32" (TScal F32)
  [("v", tvec F32 4); ("lane", TScal I32)]
  (
    SIf (EOrElse ("lane" < (lit 0)) ("lane" > (lit 3)))%C (
      SAbort
    ) (
      SSkip
    ) ;;
    SReturn ("v" @ "lane")%C
  )%CS.

(** neon_sim.cpp:3610-3613
<<
uint8_t vgetq_lane_u8(uint8x16_t v, const int lane)
{
    return v.val[lane];
}
>> *)
Definition vgetq_lane_u8 : func := mkfunc "vgetq_lane_u8" (TScal U8)
  [("v", tvec U8 16); ("lane", TScal I32)]
  (
    SReturn ("v" @ "lane")%C
  )%CS.

(** neon_sim.cpp:3615-3618
<<
uint16_t vgetq_lane_u16(uint16x8_t v, const int lane)
{
    return v.val[lane];
}
>> *)
Definition vgetq_lane_u16 : func := mkfunc "vgetq_lane_u16" (TScal U16)
  [("v", tvec U16 8); ("lane", TScal I32)]
  (
    SReturn ("v" @ "lane")%C
  )%CS.

(** neon_sim.cpp:3620-3623
<<
uint32_t vgetq_lane_u32(uint32x4_t v, const int lane)
{
    return v.val[lane];
}
>> *)
Definition vgetq_lane_u32 : func := mkfunc "vgetq_lane_u32" (TScal U32)
  [("v", tvec U32 4); ("lane", TScal I32)]
  (
    SReturn ("v" @ "lane")%C
  )%CS.

(** neon_sim.cpp:3625-3628
<<
uint64_t vgetq_lane_u64(uint64x2_t v, const int lane)
{
    return v.val[lane];
}
>> *)
Definition vgetq_lane_u64 : func := mkfunc "vgetq_lane_u64" (TScal U64)
  [("v", tvec U64 2); ("lane", TScal I32)]
  (
    SReturn ("v" @ "lane")%C
  )%CS.

(** neon_sim.cpp:3630-3633
<<
int8_t vgetq_lane_s8(int8x16_t v, const int lane)
{
    return v.val[lane];
}
>> *)
Definition vgetq_lane_s8 : func := mkfunc "vgetq_lane_s8" (TScal I8)
  [("v", tvec I8 16); ("lane", TScal I32)]
  (
    SReturn ("v" @ "lane")%C
  )%CS.

(** neon_sim.cpp:3635-3638
<<
int16_t vgetq_lane_s16(int16x8_t v, const int lane)
{
    return v.val[lane];
}
>> *)
Definition vgetq_lane_s16 : func := mkfunc "vgetq_lane_s16" (TScal I16)
  [("v", tvec I16 8); ("lane", TScal I32)]
  (
    SReturn ("v" @ "lane")%C
  )%CS.

(** neon_sim.cpp:3640-3643
<<
int32_t vgetq_lane_s32(int32x4_t v, const int lane)
{
    return v.val[lane];
}
>> *)
Definition vgetq_lane_s32 : func := mkfunc "vgetq_lane_s32" (TScal I32)
  [("v", tvec I32 4); ("lane", TScal I32)]
  (
    SReturn ("v" @ "lane")%C
  )%CS.

(** neon_sim.cpp:3645-3648
<<
int64_t vgetq_lane_s64(int64x2_t v, const int lane)
{
    return v.val[lane];
}
>> *)
Definition vgetq_lane_s64 : func := mkfunc "vgetq_lane_s64" (TScal I64)
  [("v", tvec I64 2); ("lane", TScal I32)]
  (
    SReturn ("v" @ "lane")%C
  )%CS.

(** neon_sim.cpp:3650-3653
<<
float64_t vgetq_lane_f64(float64x2_t v, const int lane)
{
    return v.val[lane];
}
>> *)
Definition vgetq_lane_f64 : func := mkfunc "vgetq_lane_f64" (TScal F64)
  [("v", tvec F64 2); ("lane", TScal I32)]
  (
    SReturn ("v" @ "lane")%C
  )%CS.

(** neon_sim.cpp:3656-3664
<<
int8x16_t vminq_s8(int8x16_t N, int8x16_t M)
{
    int8x16_t D;
    for (int i = 0; i < 16; i++)
    {
        D.val[i] = N.val[i] < M.val[i] ? N.val[i] : M.val[i];
    }
    return D;
}
>> *)
Definition vminq_s8 : func := mkfunc "vminq_s8" (tvec I8 16)
  [("N", tvec I8 16); ("M", tvec I8 16)]
  (
    SDecl (tvec I8 16) "D" None ;;
    SFor I32 "i" (lit 0)%C ("i" < (lit 16))%C ("i" + (lit 1))%C (
      SAssign "D" [EVar "i"]%C
        (ECond (("N" @ "i") < ("M" @ "i")) ("N" @ "i") ("M" @ "i"))%C
    ) ;;
    SReturn ("D")%C
  )%CS.

(** neon_sim.cpp:3666-3674
<<
int16x8_t vminq_s16(int16x8_t N, int16x8_t M)
{
    int16x8_t D;
    for (int i = 0; i < 8; i++)
    {
        D.val[i] = N.val[i] < M.val[i] ? N.val[i] : M.val[i];
    }
    return D;
}
>> *)
Definition vminq_s16 : func := mkfunc "vminq_s16" (tvec I16 8)
  [("N", tvec I16 8); ("M", tvec I16 8)]
  (
    SDecl (tvec I16 8) "D" None ;;
    SFor I32 "i" (lit 0)%C ("i" < (lit 8))%C ("i" + (lit 1))%C (
      SAssign "D" [EVar "i"]%C
        (ECond (("N" @ "i") < ("M" @ "i")) ("N" @ "i") ("M" @ "i"))%C
    ) ;;
    SReturn ("D")%C
  )%CS.

(** neon_sim.cpp:3676-3684
<<
int32x4_t vminq_s32(int32x4_t N, int32x4_t M)
{
    int32x4_t D;
    for (int i = 0; i < 4; i++)
    {
        D.val[i] = N.val[i] < M.val[i] ? N.val[i] : M.val[i];
    }
    return D;
}
>> *)
Definition vminq_s32 : func := mkfunc "vminq_s32" (tvec I32 4)
  [("N", tvec I32 4); ("M", tvec I32 4)]
  (
    SDecl (tvec I32 4) "D" None ;;
    SFor I32 "i" (lit 0)%C ("i" < (lit 4))%C ("i" + (lit 1))%C (
      SAssign "D" [EVar "i"]%C
        (ECond (("N" @ "i") < ("M" @ "i")) ("N" @ "i") ("M" @ "i"))%C
    ) ;;
    SReturn ("D")%C
  )%CS.

(** neon_sim.cpp:3686-3694
<<
int8x16_t vminq_u8(int8x16_t N, int8x16_t M)
{
    int8x16_t D;
    for (int i = 0; i < 16; i++)
    {
        D.val[i] = N.val[i] < M.val[i] ? N.val[i] : M.val[i];
    }
    return D;
}
>> *)
Definition vminq_u8 : func := mkfunc "vminq_u8" (tvec I8 16)
  [("N", tvec I8 16); ("M", tvec I8 16)]
  (
    SDecl (tvec I8 16) "D" None ;;
    SFor I32 "i" (lit 0)%C ("i" < (lit 16))%C ("i" + (lit 1))%C (
      SAssign "D" [EVar "i"]%C
        (ECond (("N" @ "i") < ("M" @ "i")) ("N" @ "i") ("M" @ "i"))%C
    ) ;;
    SReturn ("D")%C
  )%CS.

(** neon_sim.cpp:3696-3704
<<
int16x8_t vminq_u16(int16x8_t N, int16x8_t M)
{
    int16x8_t D;
    for (int i = 0; i < 8; i++)
    {
        D.val[i] = N.val[i] < M.val[i] ? N.val[i] : M.val[i];
    }
    return D;
}
>> *)
Definition vminq_u16 : func := mkfunc "vminq_u16" (tvec I16 8)
  [("N", tvec I16 8); ("M", tvec I16 8)]
  (
    SDecl (tvec I16 8) "D" None ;;
    SFor I32 "i" (lit 0)%C ("i" < (lit 8))%C ("i" + (lit 1))%C (
      SAssign "D" [EVar "i"]%C
        (ECond (("N" @ "i") < ("M" @ "i")) ("N" @ "i") ("M" @ "i"))%C
    ) ;;
    SReturn ("D")%C
  )%CS.

(** neon_sim.cpp:3706-3714
<<
int32x4_t vminq_u32(int32x4_t N, int32x4_t M)
{
    int32x4_t D;
    for (int i = 0; i < 4; i++)
    {
        D.val[i] = N.val[i] < M.val[i] ? N.val[i] : M.val[i];
    }
    return D;
}
>> *)
Definition vminq_u32 : func := mkfunc "vminq_u32" (tvec I32 4)
  [("N", tvec I32 4); ("M", tvec I32 4)]
  (
    SDecl (tvec I32 4) "D" None ;;
    SFor I32 "i" (lit 0)%C ("i" < (lit 4))%C ("i" + (lit 1))%C (
      SAssign "D" [EVar "i"]%C
        (ECond (("N" @ "i") < ("M" @ "i")) ("N" @ "i") ("M" @ "i"))%C
    ) ;;
    SReturn ("D")%C
  )%CS.

(** neon_sim.cpp:3716-3724
<<
float32x4_t vminq_f32(float32x4_t N, float32x4_t M)
{
    float32x4_t D;
    for (int i = 0; i < 4; i++)
    {
        D.val[i] = N.val[i] < M.val[i] ? N.val[i] : M.val[i];
    }
    return D;
}
>> *)
Definition vminq_f32 : func := mkfunc "vminq_f32" (tvec F32 4)
  [("N", tvec F32 4); ("M", tvec F32 4)]
  (
    SDecl (tvec F32 4) "D" None ;;
    SFor I32 "i" (lit 0)%C ("i" < (lit 4))%C ("i" + (lit 1))%C (
      SAssign "D" [EVar "i"]%C
        (ECond (("N" @ "i") < ("M" @ "i")) ("N" @ "i") ("M" @ "i"))%C
    ) ;;
    SReturn ("D")%C
  )%CS.
