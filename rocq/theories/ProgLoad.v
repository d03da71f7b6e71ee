(** Generated by tools/translate.py from neon_sim.cpp: loads.
    The C text is quoted above each definition (double quotes shown as single). *)
From Coq Require Import ZArith List String.
From Verif Require Import Types Syntax.
Import ListNotations.
Open Scope Z_scope.
Local Open Scope string_scope.

(** neon_sim.cpp:14-22
<<
uint8x8_t vld1_u8(uint8_t const* ptr)
{
    uint8x8_t r;
    for (int i = 0; i < 8; i++)
    {
        r.val[i] =  ptr[i];
    }
    return r;
}
>> *)
Definition vld1_u8 : func := mkfunc "vld1_u8" (tvec U8 8)
  [("ptr", TPtr U8)]
  (
    SDecl (tvec U8 8) "r" None ;;
    SFor I32 "i" (lit 0)%C ("i" < (lit 8))%C ("i" + (lit 1))%C (
      SAssign "r" [EVar "i"]%C
        ("ptr" @ "i")%C
    ) ;;
    SReturn ("r")%C
  )%CS.

(** neon_sim.cpp:23-31
<<
int8x8_t vld1_s8(int8_t const* ptr)
{
    int8x8_t r;
    for (int i = 0; i < 8; i++)
    {
        r.val[i] =  ptr[i];
    }
    return r;
}
>> *)
Definition vld1_s8 : func := mkfunc "vld1_s8" (tvec I8 8)
  [("ptr", TPtr I8)]
  (
    SDecl (tvec I8 8) "r" None ;;
    SFor I32 "i" (lit 0)%C ("i" < (lit 8))%C ("i" + (lit 1))%C (
      SAssign "r" [EVar "i"]%C
        ("ptr" @ "i")%C
    ) ;;
    SReturn ("r")%C
  )%CS.

(** neon_sim.cpp:32-40
<<
uint16x4_t vld1_u16(uint16_t const* ptr)
{
    uint16x4_t r;
    for (int i = 0; i < 4; i++)
    {
        r.val[i] =  ptr[i];
    }
    return r;
}
>> *)
Definition vld1_u16 : func := mkfunc "vld1_u16" (tvec U16 4)
  [("ptr", TPtr U16)]
  (
    SDecl (tvec U16 4) "r" None ;;
    SFor I32 "i" (lit 0)%C ("i" < (lit 4))%C ("i" + (lit 1))%C (
      SAssign "r" [EVar "i"]%C
        ("ptr" @ "i")%C
    ) ;;
    SReturn ("r")%C
  )%CS.

(** neon_sim.cpp:41-49
<<
int16x4_t vld1_s16(int16_t const* ptr)
{
    int16x4_t r;
    for (int i = 0; i < 4; i++)
    {
        r.val[i] =  ptr[i];
    }
    return r;
}
>> *)
Definition vld1_s16 : func := mkfunc "vld1_s16" (tvec I16 4)
  [("ptr", TPtr I16)]
  (
    SDecl (tvec I16 4) "r" None ;;
    SFor I32 "i" (lit 0)%C ("i" < (lit 4))%C ("i" + (lit 1))%C (
      SAssign "r" [EVar "i"]%C
        ("ptr" @ "i")%C
    ) ;;
    SReturn ("r")%C
  )%CS.

(** neon_sim.cpp:50-58
<<
uint32x2_t vld1_u32(uint32_t const* ptr)
{
    uint32x2_t r;
    for (int i = 0; i < 2; i++)
    {
        r.val[i] =  ptr[i];
    }
    return r;
}
>> *)
Definition vld1_u32 : func := mkfunc "vld1_u32" (tvec U32 2)
  [("ptr", TPtr U32)]
  (
    SDecl (tvec U32 2) "r" None ;;
    SFor I32 "i" (lit 0)%C ("i" < (lit 2))%C ("i" + (lit 1))%C (
      SAssign "r" [EVar "i"]%C
        ("ptr" @ "i")%C
    ) ;;
    SReturn ("r")%C
  )%CS.

(** neon_sim.cpp:59-67
<<
uint64x1_t vld1_u64(uint64_t const* ptr)
{
    uint64x1_t r;
    for (int i = 0; i < 1; i++)
    {
        r.val[i] =  ptr[i];
    }
    return r;
}
>> *)
Definition vld1_u64 : func := mkfunc "vld1_u64" (tvec U64 1)
  [("ptr", TPtr U64)]
  (
    SDecl (tvec U64 1) "r" None ;;
    SFor I32 "i" (lit 0)%C ("i" < (lit 1))%C ("i" + (lit 1))%C (
      SAssign "r" [EVar "i"]%C
        ("ptr" @ "i")%C
    ) ;;
    SReturn ("r")%C
  )%CS.

(** neon_sim.cpp:68-76
<<
int32x2_t vld1_s32(int32_t const* ptr)
{
    int32x2_t r;
    for (int i = 0; i < 2; i++)
    {
        r.val[i] =  ptr[i];
    }
    return r;
}
>> *)
Definition vld1_s32 : func := mkfunc "vld1_s32" (tvec I32 2)
  [("ptr", TPtr I32)]
  (
    SDecl (tvec I32 2) "r" None ;;
    SFor I32 "i" (lit 0)%C ("i" < (lit 2))%C ("i" + (lit 1))%C (
      SAssign "r" [EVar "i"]%C
        ("ptr" @ "i")%C
    ) ;;
    SReturn ("r")%C
  )%CS.

(** neon_sim.cpp:77-85
<<
int64x1_t vld1_s64(int64_t const* ptr)
{
    int64x1_t r;
    for (int i = 0; i < 1; i++)
    {
        r.val[i] =  ptr[i];
    }
    return r;
}
>> *)
Definition vld1_s64 : func := mkfunc "vld1_s64" (tvec I64 1)
  [("ptr", TPtr I64)]
  (
    SDecl (tvec I64 1) "r" None ;;
    SFor I32 "i" (lit 0)%C ("i" < (lit 1))%C ("i" + (lit 1))%C (
      SAssign "r" [EVar "i"]%C
        ("ptr" @ "i")%C
    ) ;;
    SReturn ("r")%C
  )%CS.

(** neon_sim.cpp:86-94
<<
float32x2_t vld1_f32(float32_t const* ptr)
{
    float32x2_t r;
    for (int i = 0; i < 2; i++)
    {
        r.val[i] =  ptr[i];
    }
    return r;
}
>> *)
Definition vld1_f32 : func := mkfunc "vld1_f32" (tvec F32 2)
  [("ptr", TPtr F32)]
  (
    SDecl (tvec F32 2) "r" None ;;
    SFor I32 "i" (lit 0)%C ("i" < (lit 2))%C ("i" + (lit 1))%C (
      SAssign "r" [EVar "i"]%C
        ("ptr" @ "i")%C
    ) ;;
    SReturn ("r")%C
  )%CS.

(** neon_sim.cpp:95-100
<<
float64x1_t vld1_f64(float64_t const* ptr)
{
    float64x1_t r;
    r.val[0] = ptr[0];
    return r;
}
>> *)
Definition vld1_f64 : func := mkfunc "vld1_f64" (tvec F64 1)
  [("ptr", TPtr F64)]
  (
    SDecl (tvec F64 1) "r" None ;;
    SAssign "r" [lit 0]%C
      ("ptr" @ (lit 0))%C ;;
    SReturn ("r")%C
  )%CS.

(** neon_sim.cpp:103-111
<<
uint8x16_t vld1q_u8(uint8_t const* ptr)
{
    uint8x16_t r;
    for (int i = 0; i < 16; i++)
    {
        r.val[i] =  ptr[i];
    }
    return r;
}
>> *)
Definition vld1q_u8 : func := mkfunc "vld1q_u8" (tvec U8 16)
  [("ptr", TPtr U8)]
  (
    SDecl (tvec U8 16) "r" None ;;
    SFor I32 "i" (lit 0)%C ("i" < (lit 16))%C ("i" + (lit 1))%C (
      SAssign "r" [EVar "i"]%C
        ("ptr" @ "i")%C
    ) ;;
    SReturn ("r")%C
  )%CS.

(** neon_sim.cpp:112-120
<<
int8x16_t vld1q_s8(int8_t const* ptr)
{
    int8x16_t r;
    for (int i = 0; i < 16; i++)
    {
        r.val[i] =  ptr[i];
    }
    return r;
}
>> *)
Definition vld1q_s8 : func := mkfunc "vld1q_s8" (tvec I8 16)
  [("ptr", TPtr I8)]
  (
    SDecl (tvec I8 16) "r" None ;;
    SFor I32 "i" (lit 0)%C ("i" < (lit 16))%C ("i" + (lit 1))%C (
      SAssign "r" [EVar "i"]%C
        ("ptr" @ "i")%C
    ) ;;
    SReturn ("r")%C
  )%CS.

(** neon_sim.cpp:121-129
<<
uint16x8_t vld1q_u16(uint16_t const* ptr)
{
    uint16x8_t r;
    for (int i = 0; i < 8; i++)
    {
        r.val[i] =  ptr[i];
    }
    return r;
}
>> *)
Definition vld1q_u16 : func := mkfunc "vld1q_u16" (tvec U16 8)
  [("ptr", TPtr U16)]
  (
    SDecl (tvec U16 8) "r" None ;;
    SFor I32 "i" (lit 0)%C ("i" < (lit 8))%C ("i" + (lit 1))%C (
      SAssign "r" [EVar "i"]%C
        ("ptr" @ "i")%C
    ) ;;
    SReturn ("r")%C
  )%CS.

(** neon_sim.cpp:130-138
<<
int16x8_t vld1q_s16(int16_t const* ptr)
{
    int16x8_t r;
    for (int i = 0; i < 8; i++)
    {
        r.val[i] =  ptr[i];
    }
    return r;
}
>> *)
Definition vld1q_s16 : func := mkfunc "vld1q_s16" (tvec I16 8)
  [("ptr", TPtr I16)]
  (
    SDecl (tvec I16 8) "r" None ;;
    SFor I32 "i" (lit 0)%C ("i" < (lit 8))%C ("i" + (lit 1))%C (
      SAssign "r" [EVar "i"]%C
        ("ptr" @ "i")%C
    ) ;;
    SReturn ("r")%C
  )%CS.

(** neon_sim.cpp:139-147
<<
uint32x4_t vld1q_u32(uint32_t const* ptr)
{
    uint32x4_t r;
    for (int i = 0; i < 4; i++)
    {
        r.val[i] =  ptr[i];
    }
    return r;
}
>> *)
Definition vld1q_u32 : func := mkfunc "vld1q_u32" (tvec U32 4)
  [("ptr", TPtr U32)]
  (
    SDecl (tvec U32 4) "r" None ;;
    SFor I32 "i" (lit 0)%C ("i" < (lit 4))%C ("i" + (lit 1))%C (
      SAssign "r" [EVar "i"]%C
        ("ptr" @ "i")%C
    ) ;;
    SReturn ("r")%C
  )%CS.

(** neon_sim.cpp:148-156
<<
int32x4_t vld1q_s32(int32_t const* ptr)
{
    int32x4_t r;
    for (int i = 0; i < 4; i++)
    {
        r.val[i] =  ptr[i];
    }
    return r;
}
>> *)
Definition vld1q_s32 : func := mkfunc "vld1q_s32" (tvec I32 4)
  [("ptr", TPtr I32)]
  (
    SDecl (tvec I32 4) "r" None ;;
    SFor I32 "i" (lit 0)%C ("i" < (lit 4))%C ("i" + (lit 1))%C (
      SAssign "r" [EVar "i"]%C
        ("ptr" @ "i")%C
    ) ;;
    SReturn ("r")%C
  )%CS.

(** neon_sim.cpp:157-165
<<
int64x2_t vld1q_s64(int64_t const* ptr)
{
    int64x2_t r;
    for (int i = 0; i < 2; i++)
    {
        r.val[i] =  ptr[i];
    }
    return r;
}
>> *)
Definition vld1q_s64 : func := mkfunc "vld1q_s64" (tvec I64 2)
  [("ptr", TPtr I64)]
  (
    SDecl (tvec I64 2) "r" None ;;
    SFor I32 "i" (lit 0)%C ("i" < (lit 2))%C ("i" + (lit 1))%C (
      SAssign "r" [EVar "i"]%C
        ("ptr" @ "i")%C
    ) ;;
    SReturn ("r")%C
  )%CS.

(** neon_sim.cpp:166-174
<<
uint64x2_t vld1q_u64(uint64_t const* ptr)
{
    uint64x2_t r;
    for (int i = 0; i < 2; i++)
    {
        r.val[i] =  ptr[i];
    }
    return r;
}
>> *)
Definition vld1q_u64 : func := mkfunc "vld1q_u64" (tvec U64 2)
  [("ptr", TPtr U64)]
  (
    SDecl (tvec U64 2) "r" None ;;
    SFor I32 "i" (lit 0)%C ("i" < (lit 2))%C ("i" + (lit 1))%C (
      SAssign "r" [EVar "i"]%C
        ("ptr" @ "i")%C
    ) ;;
    SReturn ("r")%C
  )%CS.

(** neon_sim.cpp:175-183
<<
float32x4_t vld1q_f32(float32_t const* ptr)
{
    float32x4_t r;
    for (int i = 0; i < 4; i++)
    {
        r.val[i] =  ptr[i];
    }
    return r;
}
>> *)
Definition vld1q_f32 : func := mkfunc "vld1q_f32" (tvec F32 4)
  [("ptr", TPtr F32)]
  (
    SDecl (tvec F32 4) "r" None ;;
    SFor I32 "i" (lit 0)%C ("i" < (lit 4))%C ("i" + (lit 1))%C (
      SAssign "r" [EVar "i"]%C
        ("ptr" @ "i")%C
    ) ;;
    SReturn ("r")%C
  )%CS.

(** neon_sim.cpp:186-195
<<
uint8x8x2_t vld2_u8(uint8_t const* ptr)
{
    uint8x8x2_t r;
    for (int i = 0; i < 8; i++)
    {
        r.val[0].val[i] = ptr[2 * i + 0];
        r.val[1].val[i] = ptr[2 * i + 1];
    }
    return r;
}
>> *)
Definition vld2_u8 : func := mkfunc "vld2_u8" (tvecs 2 U8 8)
  [("ptr", TPtr U8)]
  (
    SDecl (tvecs 2 U8 8) "r" None ;;
    SFor I32 "i" (lit 0)%C ("i" < (lit 8))%C ("i" + (lit 1))%C (
      SAssign "r" [lit 0; EVar "i"]%C
        ("ptr" @ (((lit 2) * "i") + (lit 0)))%C ;;
      SAssign "r" [lit 1; EVar "i"]%C
        ("ptr" @ (((lit 2) * "i") + (lit 1)))%C
    ) ;;
    SReturn ("r")%C
  )%CS.

(** neon_sim.cpp:196-205
<<
int8x8x2_t vld2_s8(int8_t const* ptr)
{
    int8x8x2_t r;
    for (int i = 0; i < 8; i++)
    {
        r.val[0].val[i] = ptr[2 * i + 0];
        r.val[1].val[i] = ptr[2 * i + 1];
    }
    return r;
}
>> *)
Definition vld2_s8 : func := mkfunc "vld2_s8" (tvecs 2 I8 8)
  [("ptr", TPtr I8)]
  (
    SDecl (tvecs 2 I8 8) "r" None ;;
    SFor I32 "i" (lit 0)%C ("i" < (lit 8))%C ("i" + (lit 1))%C (
      SAssign "r" [lit 0; EVar "i"]%C
        ("ptr" @ (((lit 2) * "i") + (lit 0)))%C ;;
      SAssign "r" [lit 1; EVar "i"]%C
        ("ptr" @ (((lit 2) * "i") + (lit 1)))%C
    ) ;;
    SReturn ("r")%C
  )%CS.

(** neon_sim.cpp:206-215
<<
uint16x4x2_t vld2_u16(uint16_t const* ptr)
{
    uint16x4x2_t r;
    for (int i = 0; i < 4; i++)
    {
        r.val[0].val[i] = ptr[2 * i + 0];
        r.val[1].val[i] = ptr[2 * i + 1];
    }
    return r;
}
>> *)
Definition vld2_u16 : func := mkfunc "vld2_u16" (tvecs 2 U16 4)
  [("ptr", TPtr U16)]
  (
    SDecl (tvecs 2 U16 4) "r" None ;;
    SFor I32 "i" (lit 0)%C ("i" < (lit 4))%C ("i" + (lit 1))%C (
      SAssign "r" [lit 0; EVar "i"]%C
        ("ptr" @ (((lit 2) * "i") + (lit 0)))%C ;;
      SAssign "r" [lit 1; EVar "i"]%C
        ("ptr" @ (((lit 2) * "i") + (lit 1)))%C
    ) ;;
    SReturn ("r")%C
  )%CS.

(** neon_sim.cpp:216-225
<<
int16x4x2_t vld2_s16(int16_t const* ptr)
{
    int16x4x2_t r;
    for (int i = 0; i < 4; i++)
    {
        r.val[0].val[i] = ptr[2 * i + 0];
        r.val[1].val[i] = ptr[2 * i + 1];
    }
    return r;
}
>> *)
Definition vld2_s16 : func := mkfunc "vld2_s16" (tvecs 2 I16 4)
  [("ptr", TPtr I16)]
  (
    SDecl (tvecs 2 I16 4) "r" None ;;
    SFor I32 "i" (lit 0)%C ("i" < (lit 4))%C ("i" + (lit 1))%C (
      SAssign "r" [lit 0; EVar "i"]%C
        ("ptr" @ (((lit 2) * "i") + (lit 0)))%C ;;
      SAssign "r" [lit 1; EVar "i"]%C
        ("ptr" @ (((lit 2) * "i") + (lit 1)))%C
    ) ;;
    SReturn ("r")%C
  )%CS.

(** neon_sim.cpp:226-235
<<
uint32x2x2_t vld2_u32(uint32_t const* ptr)
{
    uint32x2x2_t r;
    for (int i = 0; i < 2; i++)
    {
        r.val[0].val[i] = ptr[2 * i + 0];
        r.val[1].val[i] = ptr[2 * i + 1];
    }
    return r;
}
>> *)
Definition vld2_u32 : func := mkfunc "vld2_u32" (tvecs 2 U32 2)
  [("ptr", TPtr U32)]
  (
    SDecl (tvecs 2 U32 2) "r" None ;;
    SFor I32 "i" (lit 0)%C ("i" < (lit 2))%C ("i" + (lit 1))%C (
      SAssign "r" [lit 0; EVar "i"]%C
        ("ptr" @ (((lit 2) * "i") + (lit 0)))%C ;;
      SAssign "r" [lit 1; EVar "i"]%C
        ("ptr" @ (((lit 2) * "i") + (lit 1)))%C
    ) ;;
    SReturn ("r")%C
  )%CS.

(** neon_sim.cpp:236-245
<<
int32x2x2_t vld_s32(int32_t const* ptr)
{
    int32x2x2_t r;
    for (int i = 0; i < 2; i++)
    {
        r.val[0].val[i] = ptr[2 * i + 0];
        r.val[1].val[i] = ptr[2 * i + 1];
    }
    return r;
}
>> *)
Definition vld_s32 : func := mkfunc "vld_s32" (tvecs 2 I32 2)
  [("ptr", TPtr I32)]
  (
    SDecl (tvecs 2 I32 2) "r" None ;;
    SFor I32 "i" (lit 0)%C ("i" < (lit 2))%C ("i" + (lit 1))%C (
      SAssign "r" [lit 0; EVar "i"]%C
        ("ptr" @ (((lit 2) * "i") + (lit 0)))%C ;;
      SAssign "r" [lit 1; EVar "i"]%C
        ("ptr" @ (((lit 2) * "i") + (lit 1)))%C
    ) ;;
    SReturn ("r")%C
  )%CS.

(** neon_sim.cpp:246-255
<<
float32x2x2_t vld2_f32(float const* ptr)
{
    float32x2x2_t r;
    for (int i = 0; i < 2; i++)
    {
        r.val[0].val[i] = ptr[2 * i + 0];
        r.val[1].val[i] = ptr[2 * i + 1];
    }
    return r;
}
>> *)
Definition vld2_f32 : func := mkfunc "vld2_f32" (tvecs 2 F32 2)
  [("ptr", TPtr F32)]
  (
    SDecl (tvecs 2 F32 2) "r" None ;;
    SFor I32 "i" (lit 0)%C ("i" < (lit 2))%C ("i" + (lit 1))%C (
      SAssign "r" [lit 0; EVar "i"]%C
        ("ptr" @ (((lit 2) * "i") + (lit 0)))%C ;;
      SAssign "r" [lit 1; EVar "i"]%C
        ("ptr" @ (((lit 2) * "i") + (lit 1)))%C
    ) ;;
    SReturn ("r")%C
  )%CS.

(** neon_sim.cpp:258-267
<<
uint8x16x2_t vld2q_u8(uint8_t const* ptr)
{
    uint8x16x2_t r;
    for (int i = 0; i < 16; i++)
    {
        r.val[0].val[i] = ptr[2 * i + 0];
        r.val[1].val[i] = ptr[2 * i + 1];
    }
    return r;
}
>> *)
Definition vld2q_u8 : func := mkfunc "vld2q_u8" (tvecs 2 U8 16)
  [("ptr", TPtr U8)]
  (
    SDecl (tvecs 2 U8 16) "r" None ;;
    SFor I32 "i" (lit 0)%C ("i" < (lit 16))%C ("i" + (lit 1))%C (
      SAssign "r" [lit 0; EVar "i"]%C
        ("ptr" @ (((lit 2) * "i") + (lit 0)))%C ;;
      SAssign "r" [lit 1; EVar "i"]%C
        ("ptr" @ (((lit 2) * "i") + (lit 1)))%C
    ) ;;
    SReturn ("r")%C
  )%CS.

(** neon_sim.cpp:268-277
<<
int8x16x2_t vld2q_s8(int8_t const* ptr)
{
    int8x16x2_t r;
    for (int i = 0; i < 16; i++)
    {
        r.val[0].val[i] = ptr[2 * i + 0];
        r.val[1].val[i] = ptr[2 * i + 1];
    }
    return r;
}
>> *)
Definition vld2q_s8 : func := mkfunc "vld2q_s8" (tvecs 2 I8 16)
  [("ptr", TPtr I8)]
  (
    SDecl (tvecs 2 I8 16) "r" None ;;
    SFor I32 "i" (lit 0)%C ("i" < (lit 16))%C ("i" + (lit 1))%C (
      SAssign "r" [lit 0; EVar "i"]%C
        ("ptr" @ (((lit 2) * "i") + (lit 0)))%C ;;
      SAssign "r" [lit 1; EVar "i"]%C
        ("ptr" @ (((lit 2) * "i") + (lit 1)))%C
    ) ;;
    SReturn ("r")%C
  )%CS.

(** neon_sim.cpp:278-287
<<
uint16x8x2_t vld2q_u16(uint16_t const* ptr)
{
    uint16x8x2_t r;
    for (int i = 0; i < 8; i++)
    {
        r.val[0].val[i] = ptr[2 * i + 0];
        r.val[1].val[i] = ptr[2 * i + 1];
    }
    return r;
}
>> *)
Definition vld2q_u16 : func := mkfunc "vld2q_u16" (tvecs 2 U16 8)
  [("ptr", TPtr U16)]
  (
    SDecl (tvecs 2 U16 8) "r" None ;;
    SFor I32 "i" (lit 0)%C ("i" < (lit 8))%C ("i" + (lit 1))%C (
      SAssign "r" [lit 0; EVar "i"]%C
        ("ptr" @ (((lit 2) * "i") + (lit 0)))%C ;;
      SAssign "r" [lit 1; EVar "i"]%C
        ("ptr" @ (((lit 2) * "i") + (lit 1)))%C
    ) ;;
    SReturn ("r")%C
  )%CS.

(** neon_sim.cpp:288-297
<<
int16x8x2_t vld2q_s16(int16_t const* ptr)
{
    int16x8x2_t r;
    for (int i = 0; i < 8; i++)
    {
        r.val[0].val[i] = ptr[2 * i + 0];
        r.val[1].val[i] = ptr[2 * i + 1];
    }
    return r;
}
>> *)
Definition vld2q_s16 : func := mkfunc "vld2q_s16" (tvecs 2 I16 8)
  [("ptr", TPtr I16)]
  (
    SDecl (tvecs 2 I16 8) "r" None ;;
    SFor I32 "i" (lit 0)%C ("i" < (lit 8))%C ("i" + (lit 1))%C (
      SAssign "r" [lit 0; EVar "i"]%C
        ("ptr" @ (((lit 2) * "i") + (lit 0)))%C ;;
      SAssign "r" [lit 1; EVar "i"]%C
        ("ptr" @ (((lit 2) * "i") + (lit 1)))%C
    ) ;;
    SReturn ("r")%C
  )%CS.

(** neon_sim.cpp:298-307
<<
uint32x4x2_t vld2q_u32(uint32_t const* ptr)
{
    uint32x4x2_t r;
    for (int i = 0; i < 4; i++)
    {
        r.val[0].val[i] = ptr[2 * i + 0];
        r.val[1].val[i] = ptr[2 * i + 1];
    }
    return r;
}
>> *)
Definition vld2q_u32 : func := mkfunc "vld2q_u32" (tvecs 2 U32 4)
  [("ptr", TPtr U32)]
  (
    SDecl (tvecs 2 U32 4) "r" None ;;
    SFor I32 "i" (lit 0)%C ("i" < (lit 4))%C ("i" + (lit 1))%C (
      SAssign "r" [lit 0; EVar "i"]%C
        ("ptr" @ (((lit 2) * "i") + (lit 0)))%C ;;
      SAssign "r" [lit 1; EVar "i"]%C
        ("ptr" @ (((lit 2) * "i") + (lit 1)))%C
    ) ;;
    SReturn ("r")%C
  )%CS.

(** neon_sim.cpp:308-317
<<
int32x4x2_t vld2q_s32(int32_t const* ptr)
{
    int32x4x2_t r;
    for (int i = 0; i < 4; i++)
    {
        r.val[0].val[i] = ptr[2 * i + 0];
        r.val[1].val[i] = ptr[2 * i + 1];
    }
    return r;
}
>> *)
Definition vld2q_s32 : func := mkfunc "vld2q_s32" (tvecs 2 I32 4)
  [("ptr", TPtr I32)]
  (
    SDecl (tvecs 2 I32 4) "r" None ;;
    SFor I32 "i" (lit 0)%C ("i" < (lit 4))%C ("i" + (lit 1))%C (
      SAssign "r" [lit 0; EVar "i"]%C
        ("ptr" @ (((lit 2) * "i") + (lit 0)))%C ;;
      SAssign "r" [lit 1; EVar "i"]%C
        ("ptr" @ (((lit 2) * "i") + (lit 1)))%C
    ) ;;
    SReturn ("r")%C
  )%CS.

(** neon_sim.cpp:320-330
<<
uint8x8x3_t vld3_u8(uint8_t const* ptr)
{
    uint8x8x3_t r;
    for (int i = 0; i < 8; i++)
    {
        r.val[0].val[i] = ptr[3 * i + 0];
        r.val[1].val[i] = ptr[3 * i + 1];
        r.val[2].val[i] = ptr[3 * i + 2];
    }
    return r;
}
>> *)
Definition vld3_u8 : func := mkfunc "vld3_u8" (tvecs 3 U8 8)
  [("ptr", TPtr U8)]
  (
    SDecl (tvecs 3 U8 8) "r" None ;;
    SFor I32 "i" (lit 0)%C ("i" < (lit 8))%C ("i" + (lit 1))%C (
      SAssign "r" [lit 0; EVar "i"]%C
        ("ptr" @ (((lit 3) * "i") + (lit 0)))%C ;;
      SAssign "r" [lit 1; EVar "i"]%C
        ("ptr" @ (((lit 3) * "i") + (lit 1)))%C ;;
      SAssign "r" [lit 2; EVar "i"]%C
        ("ptr" @ (((lit 3) * "i") + (lit 2)))%C
    ) ;;
    SReturn ("r")%C
  )%CS.

(** neon_sim.cpp:331-341
<<
int8x8x3_t vld3_s8(int8_t const* ptr)
{
    int8x8x3_t r;
    for (int i = 0; i < 8; i++)
    {
        r.val[0].val[i] = ptr[3 * i + 0];
        r.val[1].val[i] = ptr[3 * i + 1];
        r.val[2].val[i] = ptr[3 * i + 2];
    }
    return r;
}
>> *)
Definition vld3_s8 : func := mkfunc "vld3_s8" (tvecs 3 I8 8)
  [("ptr", TPtr I8)]
  (
    SDecl (tvecs 3 I8 8) "r" None ;;
    SFor I32 "i" (lit 0)%C ("i" < (lit 8))%C ("i" + (lit 1))%C (
      SAssign "r" [lit 0; EVar "i"]%C
        ("ptr" @ (((lit 3) * "i") + (lit 0)))%C ;;
      SAssign "r" [lit 1; EVar "i"]%C
        ("ptr" @ (((lit 3) * "i") + (lit 1)))%C ;;
      SAssign "r" [lit 2; EVar "i"]%C
        ("ptr" @ (((lit 3) * "i") + (lit 2)))%C
    ) ;;
    SReturn ("r")%C
  )%CS.

(** neon_sim.cpp:342-352
<<
uint16x4x3_t vld3_u16(uint16_t const* ptr)
{
    uint16x4x3_t r;
    for (int i = 0; i < 4; i++)
    {
        r.val[0].val[i] = ptr[3 * i + 0];
        r.val[1].val[i] = ptr[3 * i + 1];
        r.val[2].val[i] = ptr[3 * i + 2];
    }
    return r;
}
>> *)
Definition vld3_u16 : func := mkfunc "vld3_u16" (tvecs 3 U16 4)
  [("ptr", TPtr U16)]
  (
    SDecl (tvecs 3 U16 4) "r" None ;;
    SFor I32 "i" (lit 0)%C ("i" < (lit 4))%C ("i" + (lit 1))%C (
      SAssign "r" [lit 0; EVar "i"]%C
        ("ptr" @ (((lit 3) * "i") + (lit 0)))%C ;;
      SAssign "r" [lit 1; EVar "i"]%C
        ("ptr" @ (((lit 3) * "i") + (lit 1)))%C ;;
      SAssign "r" [lit 2; EVar "i"]%C
        ("ptr" @ (((lit 3) * "i") + (lit 2)))%C
    ) ;;
    SReturn ("r")%C
  )%CS.

(** neon_sim.cpp:353-363
<<
int16x4x3_t vld3_s16(int16_t const* ptr)
{
    int16x4x3_t r;
    for (int i = 0; i < 4; i++)
    {
        r.val[0].val[i] = ptr[3 * i + 0];
        r.val[1].val[i] = ptr[3 * i + 1];
        r.val[2].val[i] = ptr[3 * i + 2];
    }
    return r;
}
>> *)
Definition vld3_s16 : func := mkfunc "vld3_s16" (tvecs 3 I16 4)
  [("ptr", TPtr I16)]
  (
    SDecl (tvecs 3 I16 4) "r" None ;;
    SFor I32 "i" (lit 0)%C ("i" < (lit 4))%C ("i" + (lit 1))%C (
      SAssign "r" [lit 0; EVar "i"]%C
        ("ptr" @ (((lit 3) * "i") + (lit 0)))%C ;;
      SAssign "r" [lit 1; EVar "i"]%C
        ("ptr" @ (((lit 3) * "i") + (lit 1)))%C ;;
      SAssign "r" [lit 2; EVar "i"]%C
        ("ptr" @ (((lit 3) * "i") + (lit 2)))%C
    ) ;;
    SReturn ("r")%C
  )%CS.

(** neon_sim.cpp:364-374
<<
uint32x2x3_t vld3_u32(uint32_t const* ptr)
{
    uint32x2x3_t r;
    for (int i = 0; i < 2; i++)
    {
        r.val[0].val[i] = ptr[3 * i + 0];
        r.val[1].val[i] = ptr[3 * i + 1];
        r.val[2].val[i] = ptr[3 * i + 2];
    }
    return r;
}
>> *)
Definition vld3_u32 : func := mkfunc "vld3_u32" (tvecs 3 U32 2)
  [("ptr", TPtr U32)]
  (
    SDecl (tvecs 3 U32 2) "r" None ;;
    SFor I32 "i" (lit 0)%C ("i" < (lit 2))%C ("i" + (lit 1))%C (
      SAssign "r" [lit 0; EVar "i"]%C
        ("ptr" @ (((lit 3) * "i") + (lit 0)))%C ;;
      SAssign "r" [lit 1; EVar "i"]%C
        ("ptr" @ (((lit 3) * "i") + (lit 1)))%C ;;
      SAssign "r" [lit 2; EVar "i"]%C
        ("ptr" @ (((lit 3) * "i") + (lit 2)))%C
    ) ;;
    SReturn ("r")%C
  )%CS.

(** neon_sim.cpp:375-385
<<
int32x2x3_t vld3_s32(int32_t const* ptr)
{
    int32x2x3_t r;
    for (int i = 0; i < 2; i++)
    {
        r.val[0].val[i] = ptr[3 * i + 0];
        r.val[1].val[i] = ptr[3 * i + 1];
        r.val[2].val[i] = ptr[3 * i + 2];
    }
    return r;
}
>> *)
Definition vld3_s32 : func := mkfunc "vld3_s32" (tvecs 3 I32 2)
  [("ptr", TPtr I32)]
  (
    SDecl (tvecs 3 I32 2) "r" None ;;
    SFor I32 "i" (lit 0)%C ("i" < (lit 2))%C ("i" + (lit 1))%C (
      SAssign "r" [lit 0; EVar "i"]%C
        ("ptr" @ (((lit 3) * "i") + (lit 0)))%C ;;
      SAssign "r" [lit 1; EVar "i"]%C
        ("ptr" @ (((lit 3) * "i") + (lit 1)))%C ;;
      SAssign "r" [lit 2; EVar "i"]%C
        ("ptr" @ (((lit 3) * "i") + (lit 2)))%C
    ) ;;
    SReturn ("r")%C
  )%CS.

(** neon_sim.cpp:386-396
<<
float32x2x3_t vld3_f32(float const* ptr)
{
    float32x2x3_t r;
    for (int i = 0; i < 2; i++)
    {
        r.val[0].val[i] = ptr[3 * i + 0];
        r.val[1].val[i] = ptr[3 * i + 1];
        r.val[2].val[i] = ptr[3 * i + 2];
    }
    return r;
}
>> *)
Definition vld3_f32 : func := mkfunc "vld3_f32" (tvecs 3 F32 2)
  [("ptr", TPtr F32)]
  (
    SDecl (tvecs 3 F32 2) "r" None ;;
    SFor I32 "i" (lit 0)%C ("i" < (lit 2))%C ("i" + (lit 1))%C (
      SAssign "r" [lit 0; EVar "i"]%C
        ("ptr" @ (((lit 3) * "i") + (lit 0)))%C ;;
      SAssign "r" [lit 1; EVar "i"]%C
        ("ptr" @ (((lit 3) * "i") + (lit 1)))%C ;;
      SAssign "r" [lit 2; EVar "i"]%C
        ("ptr" @ (((lit 3) * "i") + (lit 2)))%C
    ) ;;
    SReturn ("r")%C
  )%CS.

(** neon_sim.cpp:399-409
<<
uint8x16x3_t vld3q_u8(uint8_t const* ptr)
{
    uint8x16x3_t r;
    for (int i = 0; i < 16; i++)
    {
        r.val[0].val[i] = ptr[3 * i + 0];
        r.val[1].val[i] = ptr[3 * i + 1];
        r.val[2].val[i] = ptr[3 * i + 2];
    }
    return r;
}
>> *)
Definition vld3q_u8 : func := mkfunc "vld3q_u8" (tvecs 3 U8 16)
  [("ptr", TPtr U8)]
  (
    SDecl (tvecs 3 U8 16) "r" None ;;
    SFor I32 "i" (lit 0)%C ("i" < (lit 16))%C ("i" + (lit 1))%C (
      SAssign "r" [lit 0; EVar "i"]%C
        ("ptr" @ (((lit 3) * "i") + (lit 0)))%C ;;
      SAssign "r" [lit 1; EVar "i"]%C
        ("ptr" @ (((lit 3) * "i") + (lit 1)))%C ;;
      SAssign "r" [lit 2; EVar "i"]%C
        ("ptr" @ (((lit 3) * "i") + (lit 2)))%C
    ) ;;
    SReturn ("r")%C
  )%CS.

(** neon_sim.cpp:410-420
<<
int8x16x3_t vld3q_s8(int8_t const* ptr)
{
    int8x16x3_t r;
    for (int i = 0; i < 16; i++)
    {
        r.val[0].val[i] = ptr[3 * i + 0];
        r.val[1].val[i] = ptr[3 * i + 1];
        r.val[2].val[i] = ptr[3 * i + 2];
    }
    return r;
}
>> *)
Definition vld3q_s8 : func := mkfunc "vld3q_s8" (tvecs 3 I8 16)
  [("ptr", TPtr I8)]
  (
    SDecl (tvecs 3 I8 16) "r" None ;;
    SFor I32 "i" (lit 0)%C ("i" < (lit 16))%C ("i" + (lit 1))%C (
      SAssign "r" [lit 0; EVar "i"]%C
        ("ptr" @ (((lit 3) * "i") + (lit 0)))%C ;;
      SAssign "r" [lit 1; EVar "i"]%C
        ("ptr" @ (((lit 3) * "i") + (lit 1)))%C ;;
      SAssign "r" [lit 2; EVar "i"]%C
        ("ptr" @ (((lit 3) * "i") + (lit 2)))%C
    ) ;;
    SReturn ("r")%C
  )%CS.

(** neon_sim.cpp:421-431
<<
uint16x8x3_t vld3q_u16(uint16_t const* ptr)
{
    uint16x8x3_t r;
    for (int i = 0; i < 8; i++)
    {
        r.val[0].val[i] = ptr[3 * i + 0];
        r.val[1].val[i] = ptr[3 * i + 1];
        r.val[2].val[i] = ptr[3 * i + 2];
    }
    return r;
}
>> *)
Definition vld3q_u16 : func := mkfunc "vld3q_u16" (tvecs 3 U16 8)
  [("ptr", TPtr U16)]
  (
    SDecl (tvecs 3 U16 8) "r" None ;;
    SFor I32 "i" (lit 0)%C ("i" < (lit 8))%C ("i" + (lit 1))%C (
      SAssign "r" [lit 0; EVar "i"]%C
        ("ptr" @ (((lit 3) * "i") + (lit 0)))%C ;;
      SAssign "r" [lit 1; EVar "i"]%C
        ("ptr" @ (((lit 3) * "i") + (lit 1)))%C ;;
      SAssign "r" [lit 2; EVar "i"]%C
        ("ptr" @ (((lit 3) * "i") + (lit 2)))%C
    ) ;;
    SReturn ("r")%C
  )%CS.

(** neon_sim.cpp:432-442
<<
int16x8x3_t vld3q_s16(int16_t const* ptr)
{
    int16x8x3_t r;
    for (int i = 0; i < 8; i++)
    {
        r.val[0].val[i] = ptr[3 * i + 0];
        r.val[1].val[i] = ptr[3 * i + 1];
        r.val[2].val[i] = ptr[3 * i + 2];
    }
    return r;
}
>> *)
Definition vld3q_s16 : func := mkfunc "vld3q_s16" (tvecs 3 I16 8)
  [("ptr", TPtr I16)]
  (
    SDecl (tvecs 3 I16 8) "r" None ;;
    SFor I32 "i" (lit 0)%C ("i" < (lit 8))%C ("i" + (lit 1))%C (
      SAssign "r" [lit 0; EVar "i"]%C
        ("ptr" @ (((lit 3) * "i") + (lit 0)))%C ;;
      SAssign "r" [lit 1; EVar "i"]%C
        ("ptr" @ (((lit 3) * "i") + (lit 1)))%C ;;
      SAssign "r" [lit 2; EVar "i"]%C
        ("ptr" @ (((lit 3) * "i") + (lit 2)))%C
    ) ;;
    SReturn ("r")%C
  )%CS.

(** neon_sim.cpp:443-453
<<
uint32x4x3_t vld3q_u32(uint32_t const* ptr)
{
    uint32x4x3_t r;
    for (int i = 0; i < 4; i++)
    {
        r.val[0].val[i] = ptr[3 * i + 0];
        r.val[1].val[i] = ptr[3 * i + 1];
        r.val[2].val[i] = ptr[3 * i + 2];
    }
    return r;
}
>> *)
Definition vld3q_u32 : func := mkfunc "vld3q_u32" (tvecs 3 U32 4)
  [("ptr", TPtr U32)]
  (
    SDecl (tvecs 3 U32 4) "r" None ;;
    SFor I32 "i" (lit 0)%C ("i" < (lit 4))%C ("i" + (lit 1))%C (
      SAssign "r" [lit 0; EVar "i"]%C
        ("ptr" @ (((lit 3) * "i") + (lit 0)))%C ;;
      SAssign "r" [lit 1; EVar "i"]%C
        ("ptr" @ (((lit 3) * "i") + (lit 1)))%C ;;
      SAssign "r" [lit 2; EVar "i"]%C
        ("ptr" @ (((lit 3) * "i") + (lit 2)))%C
    ) ;;
    SReturn ("r")%C
  )%CS.

(** neon_sim.cpp:454-464
<<
int32x4x3_t vld3q_s32(int32_t const* ptr)
{
    int32x4x3_t r;
    for (int i = 0; i < 4; i++)
    {
        r.val[0].val[i] = ptr[3 * i + 0];
        r.val[1].val[i] = ptr[3 * i + 1];
        r.val[2].val[i] = ptr[3 * i + 2];
    }
    return r;
}
>> *)
Definition vld3q_s32 : func := mkfunc "vld3q_s32" (tvecs 3 I32 4)
  [("ptr", TPtr I32)]
  (
    SDecl (tvecs 3 I32 4) "r" None ;;
    SFor I32 "i" (lit 0)%C ("i" < (lit 4))%C ("i" + (lit 1))%C (
      SAssign "r" [lit 0; EVar "i"]%C
        ("ptr" @ (((lit 3) * "i") + (lit 0)))%C ;;
      SAssign "r" [lit 1; EVar "i"]%C
        ("ptr" @ (((lit 3) * "i") + (lit 1)))%C ;;
      SAssign "r" [lit 2; EVar "i"]%C
        ("ptr" @ (((lit 3) * "i") + (lit 2)))%C
    ) ;;
    SReturn ("r")%C
  )%CS.

(** neon_sim.cpp:468-479
<<
uint8x8x4_t vld4_u8(uint8_t const* ptr)
{
    uint8x8x4_t r;
    for (int i = 0; i < 8; i++)
    {
        r.val[0].val[i] = ptr[4 * i + 0];
        r.val[1].val[i] = ptr[4 * i + 1];
        r.val[2].val[i] = ptr[4 * i + 2];
        r.val[3].val[i] = ptr[4 * i + 3];
    }
    return r;
}
>> *)
Definition vld4_u8 : func := mkfunc "vld4_u8" (tvecs 4 U8 8)
  [("ptr", TPtr U8)]
  (
    SDecl (tvecs 4 U8 8) "r" None ;;
    SFor I32 "i" (lit 0)%C ("i" < (lit 8))%C ("i" + (lit 1))%C (
      SAssign "r" [lit 0; EVar "i"]%C
        ("ptr" @ (((lit 4) * "i") + (lit 0)))%C ;;
      SAssign "r" [lit 1; EVar "i"]%C
        ("ptr" @ (((lit 4) * "i") + (lit 1)))%C ;;
      SAssign "r" [lit 2; EVar "i"]%C
        ("ptr" @ (((lit 4) * "i") + (lit 2)))%C ;;
      SAssign "r" [lit 3; EVar "i"]%C
        ("ptr" @ (((lit 4) * "i") + (lit 3)))%C
    ) ;;
    SReturn ("r")%C
  )%CS.

(** neon_sim.cpp:480-491
<<
int8x8x4_t vld4_s8(int8_t const* ptr)
{
    int8x8x4_t r;
    for (int i = 0; i < 8; i++)
    {
        r.val[0].val[i] = ptr[4 * i + 0];
        r.val[1].val[i] = ptr[4 * i + 1];
        r.val[2].val[i] = ptr[4 * i + 2];
        r.val[3].val[i] = ptr[4 * i + 3];
    }
    return r;
}
>> *)
Definition vld4_s8 : func := mkfunc "vld4_s8" (tvecs 4 I8 8)
  [("ptr", TPtr I8)]
  (
    SDecl (tvecs 4 I8 8) "r" None ;;
    SFor I32 "i" (lit 0)%C ("i" < (lit 8))%C ("i" + (lit 1))%C (
      SAssign "r" [lit 0; EVar "i"]%C
        ("ptr" @ (((lit 4) * "i") + (lit 0)))%C ;;
      SAssign "r" [lit 1; EVar "i"]%C
        ("ptr" @ (((lit 4) * "i") + (lit 1)))%C ;;
      SAssign "r" [lit 2; EVar "i"]%C
        ("ptr" @ (((lit 4) * "i") + (lit 2)))%C ;;
      SAssign "r" [lit 3; EVar "i"]%C
        ("ptr" @ (((lit 4) * "i") + (lit 3)))%C
    ) ;;
    SReturn ("r")%C
  )%CS.

(** neon_sim.cpp:492-503
<<
uint16x4x4_t vld4_u16(uint16_t const* ptr)
{
    uint16x4x4_t r;
    for (int i = 0; i < 4; i++)
    {
        r.val[0].val[i] = ptr[4 * i + 0];
        r.val[1].val[i] = ptr[4 * i + 1];
        r.val[2].val[i] = ptr[4 * i + 2];
        r.val[3].val[i] = ptr[4 * i + 3];
    }
    return r;
}
>> *)
Definition vld4_u16 : func := mkfunc "vld4_u16" (tvecs 4 U16 4)
  [("ptr", TPtr U16)]
  (
    SDecl (tvecs 4 U16 4) "r" None ;;
    SFor I32 "i" (lit 0)%C ("i" < (lit 4))%C ("i" + (lit 1))%C (
      SAssign "r" [lit 0; EVar "i"]%C
        ("ptr" @ (((lit 4) * "i") + (lit 0)))%C ;;
      SAssign "r" [lit 1; EVar "i"]%C
        ("ptr" @ (((lit 4) * "i") + (lit 1)))%C ;;
      SAssign "r" [lit 2; EVar "i"]%C
        ("ptr" @ (((lit 4) * "i") + (lit 2)))%C ;;
      SAssign "r" [lit 3; EVar "i"]%C
        ("ptr" @ (((lit 4) * "i") + (lit 3)))%C
    ) ;;
    SReturn ("r")%C
  )%CS.

(** neon_sim.cpp:504-515
<<
int16x4x4_t vld4_s16(int16_t const* ptr)
{
    int16x4x4_t r;
    for (int i = 0; i < 4; i++)
    {
        r.val[0].val[i] = ptr[4 * i + 0];
        r.val[1].val[i] = ptr[4 * i + 1];
        r.val[2].val[i] = ptr[4 * i + 2];
        r.val[3].val[i] = ptr[4 * i + 3];
    }
    return r;
}
>> *)
Definition vld4_s16 : func := mkfunc "vld4_s16" (tvecs 4 I16 4)
  [("ptr", TPtr I16)]
  (
    SDecl (tvecs 4 I16 4) "r" None ;;
    SFor I32 "i" (lit 0)%C ("i" < (lit 4))%C ("i" + (lit 1))%C (
      SAssign "r" [lit 0; EVar "i"]%C
        ("ptr" @ (((lit 4) * "i") + (lit 0)))%C ;;
      SAssign "r" [lit 1; EVar "i"]%C
        ("ptr" @ (((lit 4) * "i") + (lit 1)))%C ;;
      SAssign "r" [lit 2; EVar "i"]%C
        ("ptr" @ (((lit 4) * "i") + (lit 2)))%C ;;
      SAssign "r" [lit 3; EVar "i"]%C
        ("ptr" @ (((lit 4) * "i") + (lit 3)))%C
    ) ;;
    SReturn ("r")%C
  )%CS.

(** neon_sim.cpp:516-527
<<
uint32x2x4_t vld4_u32(uint32_t const* ptr)
{
    uint32x2x4_t r;
    for (int i = 0; i < 2; i++)
    {
        r.val[0].val[i] = ptr[4 * i + 0];
        r.val[1].val[i] = ptr[4 * i + 1];
        r.val[2].val[i] = ptr[4 * i + 2];
        r.val[3].val[i] = ptr[4 * i + 3];
    }
    return r;
}
>> *)
Definition vld4_u32 : func := mkfunc "vld4_u32" (tvecs 4 U32 2)
  [("ptr", TPtr U32)]
  (
    SDecl (tvecs 4 U32 2) "r" None ;;
    SFor I32 "i" (lit 0)%C ("i" < (lit 2))%C ("i" + (lit 1))%C (
      SAssign "r" [lit 0; EVar "i"]%C
        ("ptr" @ (((lit 4) * "i") + (lit 0)))%C ;;
      SAssign "r" [lit 1; EVar "i"]%C
        ("ptr" @ (((lit 4) * "i") + (lit 1)))%C ;;
      SAssign "r" [lit 2; EVar "i"]%C
        ("ptr" @ (((lit 4) * "i") + (lit 2)))%C ;;
      SAssign "r" [lit 3; EVar "i"]%C
        ("ptr" @ (((lit 4) * "i") + (lit 3)))%C
    ) ;;
    SReturn ("r")%C
  )%CS.

(** neon_sim.cpp:528-539
<<
int32x2x4_t vld4_s32(int32_t const* ptr)
{
    int32x2x4_t r;
    for (int i = 0; i < 2; i++)
    {
        r.val[0].val[i] = ptr[4 * i + 0];
        r.val[1].val[i] = ptr[4 * i + 1];
        r.val[2].val[i] = ptr[4 * i + 2];
        r.val[3].val[i] = ptr[4 * i + 3];
    }
    return r;
}
>> *)
Definition vld4_s32 : func := mkfunc "vld4_s32" (tvecs 4 I32 2)
  [("ptr", TPtr I32)]
  (
    SDecl (tvecs 4 I32 2) "r" None ;;
    SFor I32 "i" (lit 0)%C ("i" < (lit 2))%C ("i" + (lit 1))%C (
      SAssign "r" [lit 0; EVar "i"]%C
        ("ptr" @ (((lit 4) * "i") + (lit 0)))%C ;;
      SAssign "r" [lit 1; EVar "i"]%C
        ("ptr" @ (((lit 4) * "i") + (lit 1)))%C ;;
      SAssign "r" [lit 2; EVar "i"]%C
        ("ptr" @ (((lit 4) * "i") + (lit 2)))%C ;;
      SAssign "r" [lit 3; EVar "i"]%C
        ("ptr" @ (((lit 4) * "i") + (lit 3)))%C
    ) ;;
    SReturn ("r")%C
  )%CS.

(** neon_sim.cpp:540-551
<<
float32x2x4_t vld4_f32(float const* ptr)
{
    float32x2x4_t r;
    for (int i = 0; i < 2; i++)
    {
        r.val[0].val[i] = ptr[4 * i + 0];
        r.val[1].val[i] = ptr[4 * i + 1];
        r.val[2].val[i] = ptr[4 * i + 2];
        r.val[3].val[i] = ptr[4 * i + 3];
    }
    return r;
}
>> *)
Definition vld4_f32 : func := mkfunc "vld4_f32" (tvecs 4 F32 2)
  [("ptr", TPtr F32)]
  (
    SDecl (tvecs 4 F32 2) "r" None ;;
    SFor I32 "i" (lit 0)%C ("i" < (lit 2))%C ("i" + (lit 1))%C (
      SAssign "r" [lit 0; EVar "i"]%C
        ("ptr" @ (((lit 4) * "i") + (lit 0)))%C ;;
      SAssign "r" [lit 1; EVar "i"]%C
        ("ptr" @ (((lit 4) * "i") + (lit 1)))%C ;;
      SAssign "r" [lit 2; EVar "i"]%C
        ("ptr" @ (((lit 4) * "i") + (lit 2)))%C ;;
      SAssign "r" [lit 3; EVar "i"]%C
        ("ptr" @ (((lit 4) * "i") + (lit 3)))%C
    ) ;;
    SReturn ("r")%C
  )%CS.

(** neon_sim.cpp:554-565
<<
uint8x16x4_t vld4q_u8(uint8_t const* ptr)
{
    uint8x16x4_t r;
    for (int i = 0; i < 16; i++)
    {
        r.val[0].val[i] = ptr[4 * i + 0];
        r.val[1].val[i] = ptr[4 * i + 1];
        r.val[2].val[i] = ptr[4 * i + 2];
        r.val[3].val[i] = ptr[4 * i + 3];
    }
    return r;
}
>> *)
Definition vld4q_u8 : func := mkfunc "vld4q_u8" (tvecs 4 U8 16)
  [("ptr", TPtr U8)]
  (
    SDecl (tvecs 4 U8 16) "r" None ;;
    SFor I32 "i" (lit 0)%C ("i" < (lit 16))%C ("i" + (lit 1))%C (
      SAssign "r" [lit 0; EVar "i"]%C
        ("ptr" @ (((lit 4) * "i") + (lit 0)))%C ;;
      SAssign "r" [lit 1; EVar "i"]%C
        ("ptr" @ (((lit 4) * "i") + (lit 1)))%C ;;
      SAssign "r" [lit 2; EVar "i"]%C
        ("ptr" @ (((lit 4) * "i") + (lit 2)))%C ;;
      SAssign "r" [lit 3; EVar "i"]%C
        ("ptr" @ (((lit 4) * "i") + (lit 3)))%C
    ) ;;
    SReturn ("r")%C
  )%CS.

(** neon_sim.cpp:566-577
<<
int8x16x4_t vld4q_s8(int8_t const* ptr)
{
    int8x16x4_t r;
    for (int i = 0; i < 16; i++)
    {
        r.val[0].val[i] = ptr[4 * i + 0];
        r.val[1].val[i] = ptr[4 * i + 1];
        r.val[2].val[i] = ptr[4 * i + 2];
        r.val[3].val[i] = ptr[4 * i + 3];
    }
    return r;
}
>> *)
Definition vld4q_s8 : func := mkfunc "vld4q_s8" (tvecs 4 I8 16)
  [("ptr", TPtr I8)]
  (
    SDecl (tvecs 4 I8 16) "r" None ;;
    SFor I32 "i" (lit 0)%C ("i" < (lit 16))%C ("i" + (lit 1))%C (
      SAssign "r" [lit 0; EVar "i"]%C
        ("ptr" @ (((lit 4) * "i") + (lit 0)))%C ;;
      SAssign "r" [lit 1; EVar "i"]%C
        ("ptr" @ (((lit 4) * "i") + (lit 1)))%C ;;
      SAssign "r" [lit 2; EVar "i"]%C
        ("ptr" @ (((lit 4) * "i") + (lit 2)))%C ;;
      SAssign "r" [lit 3; EVar "i"]%C
        ("ptr" @ (((lit 4) * "i") + (lit 3)))%C
    ) ;;
    SReturn ("r")%C
  )%CS.

(** neon_sim.cpp:578-589
<<
uint16x8x4_t vld4q_u16(uint16_t const* ptr)
{
    uint16x8x4_t r;
    for (int i = 0; i < 8; i++)
    {
        r.val[0].val[i] = ptr[4 * i + 0];
        r.val[1].val[i] = ptr[4 * i + 1];
        r.val[2].val[i] = ptr[4 * i + 2];
        r.val[3].val[i] = ptr[4 * i + 3];
    }
    return r;
}
>> *)
Definition vld4q_u16 : func := mkfunc "vld4q_u16" (tvecs 4 U16 8)
  [("ptr", TPtr U16)]
  (
    SDecl (tvecs 4 U16 8) "r" None ;;
    SFor I32 "i" (lit 0)%C ("i" < (lit 8))%C ("i" + (lit 1))%C (
      SAssign "r" [lit 0; EVar "i"]%C
        ("ptr" @ (((lit 4) * "i") + (lit 0)))%C ;;
      SAssign "r" [lit 1; EVar "i"]%C
        ("ptr" @ (((lit 4) * "i") + (lit 1)))%C ;;
      SAssign "r" [lit 2; EVar "i"]%C
        ("ptr" @ (((lit 4) * "i") + (lit 2)))%C ;;
      SAssign "r" [lit 3; EVar "i"]%C
        ("ptr" @ (((lit 4) * "i") + (lit 3)))%C
    ) ;;
    SReturn ("r")%C
  )%CS.

(** neon_sim.cpp:590-601
<<
int16x8x4_t vld4q_s16(int16_t const* ptr)
{
    int16x8x4_t r;
    for (int i = 0; i < 8; i++)
    {
        r.val[0].val[i] = ptr[4 * i + 0];
        r.val[1].val[i] = ptr[4 * i + 1];
        r.val[2].val[i] = ptr[4 * i + 2];
        r.val[3].val[i] = ptr[4 * i + 3];
    }
    return r;
}
>> *)
Definition vld4q_s16 : func := mkfunc "vld4q_s16" (tvecs 4 I16 8)
  [("ptr", TPtr I16)]
  (
    SDecl (tvecs 4 I16 8) "r" None ;;
    SFor I32 "i" (lit 0)%C ("i" < (lit 8))%C ("i" + (lit 1))%C (
      SAssign "r" [lit 0; EVar "i"]%C
        ("ptr" @ (((lit 4) * "i") + (lit 0)))%C ;;
      SAssign "r" [lit 1; EVar "i"]%C
        ("ptr" @ (((lit 4) * "i") + (lit 1)))%C ;;
      SAssign "r" [lit 2; EVar "i"]%C
        ("ptr" @ (((lit 4) * "i") + (lit 2)))%C ;;
      SAssign "r" [lit 3; EVar "i"]%C
        ("ptr" @ (((lit 4) * "i") + (lit 3)))%C
    ) ;;
    SReturn ("r")%C
  )%CS.

(** neon_sim.cpp:602-613
<<
uint32x4x4_t vld4q_u32(uint32_t const* ptr)
{
    uint32x4x4_t r;
    for (int i = 0; i < 4; i++)
    {
        r.val[0].val[i] = ptr[4 * i + 0];
        r.val[1].val[i] = ptr[4 * i + 1];
        r.val[2].val[i] = ptr[4 * i + 2];
        r.val[3].val[i] = ptr[4 * i + 3];
    }
    return r;
}
>> *)
Definition vld4q_u32 : func := mkfunc "vld4q_u32" (tvecs 4 U32 4)
  [("ptr", TPtr U32)]
  (
    SDecl (tvecs 4 U32 4) "r" None ;;
    SFor I32 "i" (lit 0)%C ("i" < (lit 4))%C ("i" + (lit 1))%C (
      SAssign "r" [lit 0; EVar "i"]%C
        ("ptr" @ (((lit 4) * "i") + (lit 0)))%C ;;
      SAssign "r" [lit 1; EVar "i"]%C
        ("ptr" @ (((lit 4) * "i") + (lit 1)))%C ;;
      SAssign "r" [lit 2; EVar "i"]%C
        ("ptr" @ (((lit 4) * "i") + (lit 2)))%C ;;
      SAssign "r" [lit 3; EVar "i"]%C
        ("ptr" @ (((lit 4) * "i") + (lit 3)))%C
    ) ;;
    SReturn ("r")%C
  )%CS.

(** neon_sim.cpp:614-625
<<
int32x4x4_t vld4q_s32(int32_t const* ptr)
{
    int32x4x4_t r;
    for (int i = 0; i < 4; i++)
    {
        r.val[0].val[i] = ptr[4 * i + 0];
        r.val[1].val[i] = ptr[4 * i + 1];
        r.val[2].val[i] = ptr[4 * i + 2];
        r.val[3].val[i] = ptr[4 * i + 3];
    }
    return r;
}
>> *)
Definition vld4q_s32 : func := mkfunc "vld4q_s32" (tvecs 4 I32 4)
  [("ptr", TPtr I32)]
  (
    SDecl (tvecs 4 I32 4) "r" None ;;
    SFor I32 "i" (lit 0)%C ("i" < (lit 4))%C ("i" + (lit 1))%C (
      SAssign "r" [lit 0; EVar "i"]%C
        ("ptr" @ (((lit 4) * "i") + (lit 0)))%C ;;
      SAssign "r" [lit 1; EVar "i"]%C
        ("ptr" @ (((lit 4) * "i") + (lit 1)))%C ;;
      SAssign "r" [lit 2; EVar "i"]%C
        ("ptr" @ (((lit 4) * "i") + (lit 2)))%C ;;
      SAssign "r" [lit 3; EVar "i"]%C
        ("ptr" @ (((lit 4) * "i") + (lit 3)))%C
    ) ;;
    SReturn ("r")%C
  )%CS.

(** neon_sim.cpp:628-636
<<
float32x4_t vld1q_dup_f32(float32_t const* ptr)
{
    float32x4_t r;
    for (int i = 0; i < 4; i++)
    {
        r.val[i] =  ptr[0];
    }
    return r;
}
>> *)
Definition vld1q_dup_f32 : func := mkfunc "vld1q_dup_f32" (tvec F32 4)
  [("ptr", TPtr F32)]
  (
    SDecl (tvec F32 4) "r" None ;;
    SFor I32 "i" (lit 0)%C ("i" < (lit 4))%C ("i" + (lit 1))%C (
      SAssign "r" [EVar "i"]%C
        ("ptr" @ (lit 0))%C
    ) ;;
    SReturn ("r")%C
  )%CS.

(** neon_sim.cpp:638-647
<<
int8x8_t vld1_lane_s8(int8_t const* ptr, int8x8_t src, const int lane)
{
    int8x8_t r;
    for (int i = 0; i < 8; i++)
    {
        r.val[i] =  src.val[i];
    }
    r.val[lane] = ptr[0];
    return r;
}
>> *)
Definition vld1_lane_s8 : func := mkfunc "vld1_lane_s8" (tvec I8 8)
  [("ptr", TPtr I8); ("src", tvec I8 8); ("lane", TScal I32)]
  (
    SDecl (tvec I8 8) "r" None ;;
    SFor I32 "i" (lit 0)%C ("i" < (lit 8))%C ("i" + (lit 1))%C (
      SAssign "r" [EVar "i"]%C
        ("src" @ "i")%C
    ) ;;
    SAssign "r" [EVar "lane"]%C
      ("ptr" @ (lit 0))%C ;;
    SReturn ("r")%C
  )%CS.

(** neon_sim.cpp:649-658
<<
uint8x8_t vld1_lane_u8(uint8_t const* ptr, uint8x8_t src, const int lane)
{
    uint8x8_t r;
    for (int i = 0; i < 8; i++)
    {
        r.val[i] =  src.val[i];
    }
    r.val[lane] = ptr[0];
    return r;
}
>> *)
Definition vld1_lane_u8 : func := mkfunc "vld1_lane_u8" (tvec U8 8)
  [("ptr", TPtr U8); ("src", tvec U8 8); ("lane", TScal I32)]
  (
    SDecl (tvec U8 8) "r" None ;;
    SFor I32 "i" (lit 0)%C ("i" < (lit 8))%C ("i" + (lit 1))%C (
      SAssign "r" [EVar "i"]%C
        ("src" @ "i")%C
    ) ;;
    SAssign "r" [EVar "lane"]%C
      ("ptr" @ (lit 0))%C ;;
    SReturn ("r")%C
  )%CS.

(** neon_sim.cpp:661-684
<<
uint8x8x2_t vld2_lane_u8(uint8_t const* ptr, uint8x8x2_t src, const int lane)
{
    uint8x8x2_t res;
    if (!(lane >= 0 && lane <= 7))
    {
        fprintf(stderr, 'only support [0, 7] for param lane\n');
        abort();
    }
    for (int j = 0; j < 2; j++)
    {
        for (int i = 0; i < 8; i++)
        {
            if (i == lane)
            {
                res.val[j].val[i] = ptr[j];
            }
            else
            {
                res.val[j].val[i] = src.val[j].val[i];
            }
        }
    }
    return res;
}
>> *)
Definition vld2_lane_u8 : func := mkfunc "vld2_lane_u8" (tvecs 2 U8 8)
  [("ptr", TPtr U8); ("src", tvecs 2 U8 8); ("lane", TScal I32)]
  (
    SDecl (tvecs 2 U8 8) "res" None ;;
    SIf (EUn ULNot (EAndAlso (EBin BGe "lane" (lit 0)) (EBin BLe "lane" (lit 7))))%C (
      SAbort
    ) (
      SSkip
    ) ;;
    SFor I32 "j" (lit 0)%C ("j" < (lit 2))%C ("j" + (lit 1))%C (
      SFor I32 "i" (lit 0)%C ("i" < (lit 8))%C ("i" + (lit 1))%C (
        SIf ("i" == "lane")%C (
          SAssign "res" [EVar "j"; EVar "i"]%C
            ("ptr" @ "j")%C
        ) (
          SAssign "res" [EVar "j"; EVar "i"]%C
            ("src" @ "j" @ "i")%C
        )
      )
    ) ;;
    SReturn ("res")%C
  )%CS.

(** neon_sim.cpp:686-709
<<
uint8x8x3_t vld3_lane_u8(uint8_t const* ptr, uint8x8x3_t src, const int lane)
{
    if (!(lane >= 0 && lane <= 7))
    {
        fprintf(stderr, 'only support [0, 7] for param lane\n');
        abort();
    }
    uint8x8x3_t res;
    for (int j = 0; j < 3; j++)
    {
        for (int i = 0; i < 8; i++)
        {
            if (i == lane)
            {
                res.val[j].val[i] = ptr[j];
            }
            else
            {
                res.val[j].val[i] = src.val[j].val[i];
            }
        }
    }
    return res;
}
>> *)
Definition vld3_lane_u8 : func := mkfunc "vld3_lane_u8" (tvecs 3 U8 8)
  [("ptr", TPtr U8); ("src", tvecs 3 U8 8); ("lane", TScal I32)]
  (
    SIf (EUn ULNot (EAndAlso (EBin BGe "lane" (lit 0)) (EBin BLe "lane" (lit 7))))%C (
      SAbort
    ) (
      SSkip
    ) ;;
    SDecl (tvecs 3 U8 8) "res" None ;;
    SFor I32 "j" (lit 0)%C ("j" < (lit 3))%C ("j" + (lit 1))%C (
      SFor I32 "i" (lit 0)%C ("i" < (lit 8))%C ("i" + (lit 1))%C (
        SIf ("i" == "lane")%C (
          SAssign "res" [EVar "j"; EVar "i"]%C
            ("ptr" @ "j")%C
        ) (
          SAssign "res" [EVar "j"; EVar "i"]%C
            ("src" @ "j" @ "i")%C
        )
      )
    ) ;;
    SReturn ("res")%C
  )%CS.

(** neon_sim.cpp:711-734
<<
uint8x8x4_t vld4_lane_u8(uint8_t const* ptr, uint8x8x4_t src, const int lane)
{
    if (!(lane >= 0 && lane <= 7))
    {
        fprintf(stderr, 'only support [0, 7] for param lane\n');
        abort();
    }
    uint8x8x4_t res;
    for (int j = 0; j < 4; j++)
    {
        for (int i = 0; i < 8; i++)
        {
            if (i == lane)
            {
                res.val[j].val[i] = ptr[j];
            }
            else
            {
                res.val[j].val[i] = src.val[j].val[i];
            }
        }
    }
    return res;
}
>> *)
Definition vld4_lane_u8 : func := mkfunc "vld4_lane_u8" (tvecs 4 U8 8)
  [("ptr", TPtr U8); ("src", tvecs 4 U8 8); ("lane", TScal I32)]
  (
    SIf (EUn ULNot (EAndAlso (EBin BGe "lane" (lit 0)) (EBin BLe "lane" (lit 7))))%C (
      SAbort
    ) (
      SSkip
    ) ;;
    SDecl (tvecs 4 U8 8) "res" None ;;
    SFor I32 "j" (lit 0)%C ("j" < (lit 4))%C ("j" + (lit 1))%C (
      SFor I32 "i" (lit 0)%C ("i" < (lit 8))%C ("i" + (lit 1))%C (
        SIf ("i" == "lane")%C (
          SAssign "res" [EVar "j"; EVar "i"]%C
            ("ptr" @ "j")%C
        ) (
          SAssign "res" [EVar "j"; EVar "i"]%C
            ("src" @ "j" @ "i")%C
        )
      )
    ) ;;
    SReturn ("res")%C
  )%CS.
