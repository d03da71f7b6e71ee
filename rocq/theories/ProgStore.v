(** Generated by tools/translate.py from neon_sim.cpp: stores and lane stores.
    The C text is quoted above each definition (double quotes shown as single). *)
From Coq Require Import ZArith List String.
From Verif Require Import Types Syntax.
Import ListNotations.
Open Scope Z_scope.
Local Open Scope string_scope.

(** neon_sim.cpp:739-745
<<
void vst1_u8(uint8_t* ptr, uint8x8_t val)
{
    for (int i = 0; i < 8; i++)
    {
        ptr[i] = val.val[i];
    }
}
>> *)
Definition vst1_u8 : func := mkfunc "vst1_u8" (TVoid)
  [("ptr", TPtr U8); ("val", tvec U8 8)]
  (
    SFor I32 "i" (lit 0)%C ("i" < (lit 8))%C ("i" + (lit 1))%C (
      SAssign "ptr" [EVar "i"]%C
        ("val" @ "i")%C
    )
  )%CS.

(** neon_sim.cpp:746-752
<<
void vst1_s8(int8_t* ptr, int8x8_t val)
{
    for (int i = 0; i < 8; i++)
    {
        ptr[i] = val.val[i];
    }
}
>> *)
Definition vst1_s8 : func := mkfunc "vst1_s8" (TVoid)
  [("ptr", TPtr I8); ("val", tvec I8 8)]
  (
    SFor I32 "i" (lit 0)%C ("i" < (lit 8))%C ("i" + (lit 1))%C (
      SAssign "ptr" [EVar "i"]%C
        ("val" @ "i")%C
    )
  )%CS.

(** neon_sim.cpp:753-759
<<
void vst1_u16(uint16_t* ptr, uint16x4_t val)
{
    for (int i = 0; i < 4; i++)
    {
        ptr[i] = val.val[i];
    }
}
>> *)
Definition vst1_u16 : func := mkfunc "vst1_u16" (TVoid)
  [("ptr", TPtr U16); ("val", tvec U16 4)]
  (
    SFor I32 "i" (lit 0)%C ("i" < (lit 4))%C ("i" + (lit 1))%C (
      SAssign "ptr" [EVar "i"]%C
        ("val" @ "i")%C
    )
  )%CS.

(** neon_sim.cpp:760-766
<<
void vst1_s16(int16_t* ptr, int16x4_t val)
{
    for (int i = 0; i < 4; i++)
    {
        ptr[i] = val.val[i];
    }
}
>> *)
Definition vst1_s16 : func := mkfunc "vst1_s16" (TVoid)
  [("ptr", TPtr I16); ("val", tvec I16 4)]
  (
    SFor I32 "i" (lit 0)%C ("i" < (lit 4))%C ("i" + (lit 1))%C (
      SAssign "ptr" [EVar "i"]%C
        ("val" @ "i")%C
    )
  )%CS.

(** neon_sim.cpp:767-773
<<
void vst1_u32(uint32_t* ptr, uint32x2_t val)
{
    for (int i = 0; i < 2; i++)
    {
        ptr[i] = val.val[i];
    }
}
>> *)
Definition vst1_u32 : func := mkfunc "vst1_u32" (TVoid)
  [("ptr", TPtr U32); ("val", tvec U32 2)]
  (
    SFor I32 "i" (lit 0)%C ("i" < (lit 2))%C ("i" + (lit 1))%C (
      SAssign "ptr" [EVar "i"]%C
        ("val" @ "i")%C
    )
  )%CS.

(** neon_sim.cpp:774-780
<<
void vst1_s32(int32_t* ptr, int32x2_t val)
{
    for (int i = 0; i < 2; i++)
    {
        ptr[i] = val.val[i];
    }
}
>> *)
Definition vst1_s32 : func := mkfunc "vst1_s32" (TVoid)
  [("ptr", TPtr I32); ("val", tvec I32 2)]
  (
    SFor I32 "i" (lit 0)%C ("i" < (lit 2))%C ("i" + (lit 1))%C (
      SAssign "ptr" [EVar "i"]%C
        ("val" @ "i")%C
    )
  )%CS.

(** neon_sim.cpp:781-787
<<
void vst1_s64(int64_t* ptr, int64x1_t val)
{
    for (int i = 0; i < 1; i++)
    {
        ptr[i] = val.val[i];
    }
}
>> *)
Definition vst1_s64 : func := mkfunc "vst1_s64" (TVoid)
  [("ptr", TPtr I64); ("val", tvec I64 1)]
  (
    SFor I32 "i" (lit 0)%C ("i" < (lit 1))%C ("i" + (lit 1))%C (
      SAssign "ptr" [EVar "i"]%C
        ("val" @ "i")%C
    )
  )%CS.

(** neon_sim.cpp:788-794
<<
void vst1_u64(uint64_t* ptr, uint64x1_t val)
{
    for (int i = 0; i < 1; i++)
    {
        ptr[i] = val.val[i];
    }
}
>> *)
Definition vst1_u64 : func := mkfunc "vst1_u64" (TVoid)
  [("ptr", TPtr U64); ("val", tvec U64 1)]
  (
    SFor I32 "i" (lit 0)%C ("i" < (lit 1))%C ("i" + (lit 1))%C (
      SAssign "ptr" [EVar "i"]%C
        ("val" @ "i")%C
    )
  )%CS.

(** neon_sim.cpp:797-803
<<
void vst1q_u8(uint8_t* ptr, uint8x16_t val)
{
    for (int i = 0; i < 16; i++)
    {
        ptr[i] = val.val[i];
    }
}
>> *)
Definition vst1q_u8 : func := mkfunc "vst1q_u8" (TVoid)
  [("ptr", TPtr U8); ("val", tvec U8 16)]
  (
    SFor I32 "i" (lit 0)%C ("i" < (lit 16))%C ("i" + (lit 1))%C (
      SAssign "ptr" [EVar "i"]%C
        ("val" @ "i")%C
    )
  )%CS.

(** neon_sim.cpp:804-810
<<
void vst1q_s8(int8_t* ptr, int8x16_t val)
{
    for (int i = 0; i < 16; i++)
    {
        ptr[i] = val.val[i];
    }
}
>> *)
Definition vst1q_s8 : func := mkfunc "vst1q_s8" (TVoid)
  [("ptr", TPtr I8); ("val", tvec I8 16)]
  (
    SFor I32 "i" (lit 0)%C ("i" < (lit 16))%C ("i" + (lit 1))%C (
      SAssign "ptr" [EVar "i"]%C
        ("val" @ "i")%C
    )
  )%CS.

(** neon_sim.cpp:811-817
<<
void vst1q_u16(uint16_t* ptr, uint16x8_t val)
{
    for (int i = 0; i < 8; i++)
    {
        ptr[i] = val.val[i];
    }
}
>> *)
Definition vst1q_u16 : func := mkfunc "vst1q_u16" (TVoid)
  [("ptr", TPtr U16); ("val", tvec U16 8)]
  (
    SFor I32 "i" (lit 0)%C ("i" < (lit 8))%C ("i" + (lit 1))%C (
      SAssign "ptr" [EVar "i"]%C
        ("val" @ "i")%C
    )
  )%CS.

(** neon_sim.cpp:818-824
<<
void vst1q_s16(int16_t* ptr, int16x8_t val)
{
    for (int i = 0; i < 8; i++)
    {
        ptr[i] = val.val[i];
    }
}
>> *)
Definition vst1q_s16 : func := mkfunc "vst1q_s16" (TVoid)
  [("ptr", TPtr I16); ("val", tvec I16 8)]
  (
    SFor I32 "i" (lit 0)%C ("i" < (lit 8))%C ("i" + (lit 1))%C (
      SAssign "ptr" [EVar "i"]%C
        ("val" @ "i")%C
    )
  )%CS.

(** neon_sim.cpp:825-831
<<
void vst1q_u32(uint32_t* ptr, uint32x4_t val)
{
    for (int i = 0; i < 4; i++)
    {
        ptr[i] = val.val[i];
    }
}
>> *)
Definition vst1q_u32 : func := mkfunc "vst1q_u32" (TVoid)
  [("ptr", TPtr U32); ("val", tvec U32 4)]
  (
    SFor I32 "i" (lit 0)%C ("i" < (lit 4))%C ("i" + (lit 1))%C (
      SAssign "ptr" [EVar "i"]%C
        ("val" @ "i")%C
    )
  )%CS.

(** neon_sim.cpp:832-838
<<
void vst1q_s32(int32_t* ptr, int32x4_t val)
{
    for (int i = 0; i < 4; i++)
    {
        ptr[i] = val.val[i];
    }
}
>> *)
Definition vst1q_s32 : func := mkfunc "vst1q_s32" (TVoid)
  [("ptr", TPtr I32); ("val", tvec I32 4)]
  (
    SFor I32 "i" (lit 0)%C ("i" < (lit 4))%C ("i" + (lit 1))%C (
      SAssign "ptr" [EVar "i"]%C
        ("val" @ "i")%C
    )
  )%CS.

(** neon_sim.cpp:839-845
<<
void vst1q_s64(int64_t* ptr, int64x2_t val)
{
    for (int i = 0; i < 2; i++)
    {
        ptr[i] = val.val[i];
    }
}
>> *)
Definition vst1q_s64 : func := mkfunc "vst1q_s64" (TVoid)
  [("ptr", TPtr I64); ("val", tvec I64 2)]
  (
    SFor I32 "i" (lit 0)%C ("i" < (lit 2))%C ("i" + (lit 1))%C (
      SAssign "ptr" [EVar "i"]%C
        ("val" @ "i")%C
    )
  )%CS.

(** neon_sim.cpp:846-852
<<
void vst1q_u64(uint64_t* ptr, uint64x2_t val)
{
    for (int i = 0; i < 2; i++)
    {
        ptr[i] = val.val[i];
    }
}
>> *)
Definition vst1q_u64 : func := mkfunc "vst1q_u64" (TVoid)
  [("ptr", TPtr U64); ("val", tvec U64 2)]
  (
    SFor I32 "i" (lit 0)%C ("i" < (lit 2))%C ("i" + (lit 1))%C (
      SAssign "ptr" [EVar "i"]%C
        ("val" @ "i")%C
    )
  )%CS.

(** neon_sim.cpp:853-859
<<
void vst1q_f32(float32_t* ptr, float32x4_t val)
{
    for (int i = 0; i < 4; i++)
    {
        ptr[i] = val.val[i];
    }
}
>> *)
Definition vst1q_f32 : func := mkfunc "vst1q_f32" (TVoid)
  [("ptr", TPtr F32); ("val", tvec F32 4)]
  (
    SFor I32 "i" (lit 0)%C ("i" < (lit 4))%C ("i" + (lit 1))%C (
      SAssign "ptr" [EVar "i"]%C
        ("val" @ "i")%C
    )
  )%CS.

(** neon_sim.cpp:862-869
<<
void vst2_s8(int8_t* ptr, int8x8x2_t val)
{
    for (int i = 0; i < 8; i++)
    {
        ptr[2 * i + 0] = val.val[0].val[i];
        ptr[2 * i + 1] = val.val[1].val[i];
    }
}
>> *)
Definition vst2_s8 : func := mkfunc "vst2_s8" (TVoid)
  [("ptr", TPtr I8); ("val", tvecs 2 I8 8)]
  (
    SFor I32 "i" (lit 0)%C ("i" < (lit 8))%C ("i" + (lit 1))%C (
      SAssign "ptr" [((lit 2) * "i") + (lit 0)]%C
        ("val" @ (lit 0) @ "i")%C ;;
      SAssign "ptr" [((lit 2) * "i") + (lit 1)]%C
        ("val" @ (lit 1) @ "i")%C
    )
  )%CS.

(** neon_sim.cpp:870-877
<<
void vst2_s16(int16_t* ptr, int16x4x2_t val)
{
    for (int i = 0; i < 4; i++)
    {
        ptr[2 * i + 0] = val.val[0].val[i];
        ptr[2 * i + 1] = val.val[1].val[i];
    }
}
>> *)
Definition vst2_s16 : func := mkfunc "vst2_s16" (TVoid)
  [("ptr", TPtr I16); ("val", tvecs 2 I16 4)]
  (
    SFor I32 "i" (lit 0)%C ("i" < (lit 4))%C ("i" + (lit 1))%C (
      SAssign "ptr" [((lit 2) * "i") + (lit 0)]%C
        ("val" @ (lit 0) @ "i")%C ;;
      SAssign "ptr" [((lit 2) * "i") + (lit 1)]%C
        ("val" @ (lit 1) @ "i")%C
    )
  )%CS.

(** neon_sim.cpp:878-885
<<
void vst2_s32(int32_t* ptr, int32x2x2_t val)
{
    for (int i = 0; i < 2; i++)
    {
        ptr[2 * i + 0] = val.val[0].val[i];
        ptr[2 * i + 1] = val.val[1].val[i];
    }
}
>> *)
Definition vst2_s32 : func := mkfunc "vst2_s32" (TVoid)
  [("ptr", TPtr I32); ("val", tvecs 2 I32 2)]
  (
    SFor I32 "i" (lit 0)%C ("i" < (lit 2))%C ("i" + (lit 1))%C (
      SAssign "ptr" [((lit 2) * "i") + (lit 0)]%C
        ("val" @ (lit 0) @ "i")%C ;;
      SAssign "ptr" [((lit 2) * "i") + (lit 1)]%C
        ("val" @ (lit 1) @ "i")%C
    )
  )%CS.

(** neon_sim.cpp:887-894
<<
void vst2_u8(uint8_t* ptr, uint8x8x2_t val)
{
    for (int i = 0; i < 8; i++)
    {
        ptr[2 * i + 0] = val.val[0].val[i];
        ptr[2 * i + 1] = val.val[1].val[i];
    }
}
>> *)
Definition vst2_u8 : func := mkfunc "vst2_u8" (TVoid)
  [("ptr", TPtr U8); ("val", tvecs 2 U8 8)]
  (
    SFor I32 "i" (lit 0)%C ("i" < (lit 8))%C ("i" + (lit 1))%C (
      SAssign "ptr" [((lit 2) * "i") + (lit 0)]%C
        ("val" @ (lit 0) @ "i")%C ;;
      SAssign "ptr" [((lit 2) * "i") + (lit 1)]%C
        ("val" @ (lit 1) @ "i")%C
    )
  )%CS.

(** neon_sim.cpp:895-902
<<
void vst2_u16(uint16_t* ptr, uint16x4x2_t val)
{
    for (int i = 0; i < 4; i++)
    {
        ptr[2 * i + 0] = val.val[0].val[i];
        ptr[2 * i + 1] = val.val[1].val[i];
    }
}
>> *)
Definition vst2_u16 : func := mkfunc "vst2_u16" (TVoid)
  [("ptr", TPtr U16); ("val", tvecs 2 U16 4)]
  (
    SFor I32 "i" (lit 0)%C ("i" < (lit 4))%C ("i" + (lit 1))%C (
      SAssign "ptr" [((lit 2) * "i") + (lit 0)]%C
        ("val" @ (lit 0) @ "i")%C ;;
      SAssign "ptr" [((lit 2) * "i") + (lit 1)]%C
        ("val" @ (lit 1) @ "i")%C
    )
  )%CS.

(** neon_sim.cpp:903-910
<<
void vst2_u32(uint32_t* ptr, uint32x2x2_t val)
{
    for (int i = 0; i < 2; i++)
    {
        ptr[2 * i + 0] = val.val[0].val[i];
        ptr[2 * i + 1] = val.val[1].val[i];
    }
}
>> *)
Definition vst2_u32 : func := mkfunc "vst2_u32" (TVoid)
  [("ptr", TPtr U32); ("val", tvecs 2 U32 2)]
  (
    SFor I32 "i" (lit 0)%C ("i" < (lit 2))%C ("i" + (lit 1))%C (
      SAssign "ptr" [((lit 2) * "i") + (lit 0)]%C
        ("val" @ (lit 0) @ "i")%C ;;
      SAssign "ptr" [((lit 2) * "i") + (lit 1)]%C
        ("val" @ (lit 1) @ "i")%C
    )
  )%CS.

(** neon_sim.cpp:913-920
<<
void vst2q_s8(int8_t* ptr, int8x16x2_t val)
{
    for (int i = 0; i < 16; i++)
    {
        ptr[2 * i + 0] = val.val[0].val[i];
        ptr[2 * i + 1] = val.val[1].val[i];
    }
}
>> *)
Definition vst2q_s8 : func := mkfunc "vst2q_s8" (TVoid)
  [("ptr", TPtr I8); ("val", tvecs 2 I8 16)]
  (
    SFor I32 "i" (lit 0)%C ("i" < (lit 16))%C ("i" + (lit 1))%C (
      SAssign "ptr" [((lit 2) * "i") + (lit 0)]%C
        ("val" @ (lit 0) @ "i")%C ;;
      SAssign "ptr" [((lit 2) * "i") + (lit 1)]%C
        ("val" @ (lit 1) @ "i")%C
    )
  )%CS.

(** neon_sim.cpp:921-928
<<
void vst2q_s16(int16_t* ptr, int16x8x2_t val)
{
    for (int i = 0; i < 8; i++)
    {
        ptr[2 * i + 0] = val.val[0].val[i];
        ptr[2 * i + 1] = val.val[1].val[i];
    }
}
>> *)
Definition vst2q_s16 : func := mkfunc "vst2q_s16" (TVoid)
  [("ptr", TPtr I16); ("val", tvecs 2 I16 8)]
  (
    SFor I32 "i" (lit 0)%C ("i" < (lit 8))%C ("i" + (lit 1))%C (
      SAssign "ptr" [((lit 2) * "i") + (lit 0)]%C
        ("val" @ (lit 0) @ "i")%C ;;
      SAssign "ptr" [((lit 2) * "i") + (lit 1)]%C
        ("val" @ (lit 1) @ "i")%C
    )
  )%CS.

(** neon_sim.cpp:929-936
<<
void vst2q_s32(int32_t* ptr, int32x4x2_t val)
{
    for (int i = 0; i < 4; i++)
    {
        ptr[2 * i + 0] = val.val[0].val[i];
        ptr[2 * i + 1] = val.val[1].val[i];
    }
}
>> *)
Definition vst2q_s32 : func := mkfunc "vst2q_s32" (TVoid)
  [("ptr", TPtr I32); ("val", tvecs 2 I32 4)]
  (
    SFor I32 "i" (lit 0)%C ("i" < (lit 4))%C ("i" + (lit 1))%C (
      SAssign "ptr" [((lit 2) * "i") + (lit 0)]%C
        ("val" @ (lit 0) @ "i")%C ;;
      SAssign "ptr" [((lit 2) * "i") + (lit 1)]%C
        ("val" @ (lit 1) @ "i")%C
    )
  )%CS.

(** neon_sim.cpp:937-944
<<
void vst2q_u8(uint8_t* ptr, uint8x16x2_t val)
{
    for (int i = 0; i < 16; i++)
    {
        ptr[2 * i + 0] = val.val[0].val[i];
        ptr[2 * i + 1] = val.val[1].val[i];
    }
}
>> *)
Definition vst2q_u8 : func := mkfunc "vst2q_u8" (TVoid)
  [("ptr", TPtr U8); ("val", tvecs 2 U8 16)]
  (
    SFor I32 "i" (lit 0)%C ("i" < (lit 16))%C ("i" + (lit 1))%C (
      SAssign "ptr" [((lit 2) * "i") + (lit 0)]%C
        ("val" @ (lit 0) @ "i")%C ;;
      SAssign "ptr" [((lit 2) * "i") + (lit 1)]%C
        ("val" @ (lit 1) @ "i")%C
    )
  )%CS.

(** neon_sim.cpp:945-952
<<
void vst2q_u16(uint16_t* ptr, uint16x8x2_t val)
{
    for (int i = 0; i < 8; i++)
    {
        ptr[2 * i + 0] = val.val[0].val[i];
        ptr[2 * i + 1] = val.val[1].val[i];
    }
}
>> *)
Definition vst2q_u16 : func := mkfunc "vst2q_u16" (TVoid)
  [("ptr", TPtr U16); ("val", tvecs 2 U16 8)]
  (
    SFor I32 "i" (lit 0)%C ("i" < (lit 8))%C ("i" + (lit 1))%C (
      SAssign "ptr" [((lit 2) * "i") + (lit 0)]%C
        ("val" @ (lit 0) @ "i")%C ;;
      SAssign "ptr" [((lit 2) * "i") + (lit 1)]%C
        ("val" @ (lit 1) @ "i")%C
    )
  )%CS.

(** neon_sim.cpp:953-960
<<
void vst2q_u32(uint32_t* ptr, uint32x4x2_t val)
{
    for (int i = 0; i < 4; i++)
    {
        ptr[2 * i + 0] = val.val[0].val[i];
        ptr[2 * i + 1] = val.val[1].val[i];
    }
}
>> *)
Definition vst2q_u32 : func := mkfunc "vst2q_u32" (TVoid)
  [("ptr", TPtr U32); ("val", tvecs 2 U32 4)]
  (
    SFor I32 "i" (lit 0)%C ("i" < (lit 4))%C ("i" + (lit 1))%C (
      SAssign "ptr" [((lit 2) * "i") + (lit 0)]%C
        ("val" @ (lit 0) @ "i")%C ;;
      SAssign "ptr" [((lit 2) * "i") + (lit 1)]%C
        ("val" @ (lit 1) @ "i")%C
    )
  )%CS.

(** neon_sim.cpp:963-971
<<
void vst3_s8(int8_t* ptr, int8x8x3_t val)
{
    for (int i = 0; i < 8; i++)
    {
        ptr[3 * i + 0] = val.val[0].val[i];
        ptr[3 * i + 1] = val.val[1].val[i];
        ptr[3 * i + 2] = val.val[2].val[i];
    }
}
>> *)
Definition vst3_s8 : func := mkfunc "vst3_s8" (TVoid)
  [("ptr", TPtr I8); ("val", tvecs 3 I8 8)]
  (
    SFor I32 "i" (lit 0)%C ("i" < (lit 8))%C ("i" + (lit 1))%C (
      SAssign "ptr" [((lit 3) * "i") + (lit 0)]%C
        ("val" @ (lit 0) @ "i")%C ;;
      SAssign "ptr" [((lit 3) * "i") + (lit 1)]%C
        ("val" @ (lit 1) @ "i")%C ;;
      SAssign "ptr" [((lit 3) * "i") + (lit 2)]%C
        ("val" @ (lit 2) @ "i")%C
    )
  )%CS.

(** neon_sim.cpp:972-980
<<
void vst3_s16(int16_t* ptr, int16x4x3_t val)
{
    for (int i = 0; i < 4; i++)
    {
        ptr[3 * i + 0] = val.val[0].val[i];
        ptr[3 * i + 1] = val.val[1].val[i];
        ptr[3 * i + 2] = val.val[2].val[i];
    }
}
>> *)
Definition vst3_s16 : func := mkfunc "vst3_s16" (TVoid)
  [("ptr", TPtr I16); ("val", tvecs 3 I16 4)]
  (
    SFor I32 "i" (lit 0)%C ("i" < (lit 4))%C ("i" + (lit 1))%C (
      SAssign "ptr" [((lit 3) * "i") + (lit 0)]%C
        ("val" @ (lit 0) @ "i")%C ;;
      SAssign "ptr" [((lit 3) * "i") + (lit 1)]%C
        ("val" @ (lit 1) @ "i")%C ;;
      SAssign "ptr" [((lit 3) * "i") + (lit 2)]%C
        ("val" @ (lit 2) @ "i")%C
    )
  )%CS.

(** neon_sim.cpp:981-989
<<
void vst3_s32(int32_t* ptr, int32x2x3_t val)
{
    for (int i = 0; i < 2; i++)
    {
        ptr[3 * i + 0] = val.val[0].val[i];
        ptr[3 * i + 1] = val.val[1].val[i];
        ptr[3 * i + 2] = val.val[2].val[i];
    }
}
>> *)
Definition vst3_s32 : func := mkfunc "vst3_s32" (TVoid)
  [("ptr", TPtr I32); ("val", tvecs 3 I32 2)]
  (
    SFor I32 "i" (lit 0)%C ("i" < (lit 2))%C ("i" + (lit 1))%C (
      SAssign "ptr" [((lit 3) * "i") + (lit 0)]%C
        ("val" @ (lit 0) @ "i")%C ;;
      SAssign "ptr" [((lit 3) * "i") + (lit 1)]%C
        ("val" @ (lit 1) @ "i")%C ;;
      SAssign "ptr" [((lit 3) * "i") + (lit 2)]%C
        ("val" @ (lit 2) @ "i")%C
    )
  )%CS.

(** neon_sim.cpp:991-999
<<
void vst3_u8(uint8_t* ptr, uint8x8x3_t val)
{
    for (int i = 0; i < 8; i++)
    {
        ptr[3 * i + 0] = val.val[0].val[i];
        ptr[3 * i + 1] = val.val[1].val[i];
        ptr[3 * i + 2] = val.val[2].val[i];
    }
}
>> *)
Definition vst3_u8 : func := mkfunc "vst3_u8" (TVoid)
  [("ptr", TPtr U8); ("val", tvecs 3 U8 8)]
  (
    SFor I32 "i" (lit 0)%C ("i" < (lit 8))%C ("i" + (lit 1))%C (
      SAssign "ptr" [((lit 3) * "i") + (lit 0)]%C
        ("val" @ (lit 0) @ "i")%C ;;
      SAssign "ptr" [((lit 3) * "i") + (lit 1)]%C
        ("val" @ (lit 1) @ "i")%C ;;
      SAssign "ptr" [((lit 3) * "i") + (lit 2)]%C
        ("val" @ (lit 2) @ "i")%C
    )
  )%CS.

(** neon_sim.cpp:1000-1008
<<
void vst3_u16(uint16_t* ptr, uint16x4x3_t val)
{
    for (int i = 0; i < 4; i++)
    {
        ptr[3 * i + 0] = val.val[0].val[i];
        ptr[3 * i + 1] = val.val[1].val[i];
        ptr[3 * i + 2] = val.val[2].val[i];
    }
}
>> *)
Definition vst3_u16 : func := mkfunc "vst3_u16" (TVoid)
  [("ptr", TPtr U16); ("val", tvecs 3 U16 4)]
  (
    SFor I32 "i" (lit 0)%C ("i" < (lit 4))%C ("i" + (lit 1))%C (
      SAssign "ptr" [((lit 3) * "i") + (lit 0)]%C
        ("val" @ (lit 0) @ "i")%C ;;
      SAssign "ptr" [((lit 3) * "i") + (lit 1)]%C
        ("val" @ (lit 1) @ "i")%C ;;
      SAssign "ptr" [((lit 3) * "i") + (lit 2)]%C
        ("val" @ (lit 2) @ "i")%C
    )
  )%CS.

(** neon_sim.cpp:1009-1017
<<
void vst3_u32(uint32_t* ptr, uint32x2x3_t val)
{
    for (int i = 0; i < 2; i++)
    {
        ptr[3 * i + 0] = val.val[0].val[i];
        ptr[3 * i + 1] = val.val[1].val[i];
        ptr[3 * i + 2] = val.val[2].val[i];
    }
}
>> *)
Definition vst3_u32 : func := mkfunc "vst3_u32" (TVoid)
  [("ptr", TPtr U32); ("val", tvecs 3 U32 2)]
  (
    SFor I32 "i" (lit 0)%C ("i" < (lit 2))%C ("i" + (lit 1))%C (
      SAssign "ptr" [((lit 3) * "i") + (lit 0)]%C
        ("val" @ (lit 0) @ "i")%C ;;
      SAssign "ptr" [((lit 3) * "i") + (lit 1)]%C
        ("val" @ (lit 1) @ "i")%C ;;
      SAssign "ptr" [((lit 3) * "i") + (lit 2)]%C
        ("val" @ (lit 2) @ "i")%C
    )
  )%CS.

(** neon_sim.cpp:1020-1028
<<
void vst3q_s8(int8_t* ptr, int8x16x3_t val)
{
    for (int i = 0; i < 16; i++)
    {
        ptr[3 * i + 0] = val.val[0].val[i];
        ptr[3 * i + 1] = val.val[1].val[i];
        ptr[3 * i + 2] = val.val[2].val[i];
    }
}
>> *)
Definition vst3q_s8 : func := mkfunc "vst3q_s8" (TVoid)
  [("ptr", TPtr I8); ("val", tvecs 3 I8 16)]
  (
    SFor I32 "i" (lit 0)%C ("i" < (lit 16))%C ("i" + (lit 1))%C (
      SAssign "ptr" [((lit 3) * "i") + (lit 0)]%C
        ("val" @ (lit 0) @ "i")%C ;;
      SAssign "ptr" [((lit 3) * "i") + (lit 1)]%C
        ("val" @ (lit 1) @ "i")%C ;;
      SAssign "ptr" [((lit 3) * "i") + (lit 2)]%C
        ("val" @ (lit 2) @ "i")%C
    )
  )%CS.

(** neon_sim.cpp:1029-1037
<<
void vst3q_s16(int16_t* ptr, int16x8x3_t val)
{
    for (int i = 0; i < 8; i++)
    {
        ptr[3 * i + 0] = val.val[0].val[i];
        ptr[3 * i + 1] = val.val[1].val[i];
        ptr[3 * i + 2] = val.val[2].val[i];
    }
}
>> *)
Definition vst3q_s16 : func := mkfunc "vst3q_s16" (TVoid)
  [("ptr", TPtr I16); ("val", tvecs 3 I16 8)]
  (
    SFor I32 "i" (lit 0)%C ("i" < (lit 8))%C ("i" + (lit 1))%C (
      SAssign "ptr" [((lit 3) * "i") + (lit 0)]%C
        ("val" @ (lit 0) @ "i")%C ;;
      SAssign "ptr" [((lit 3) * "i") + (lit 1)]%C
        ("val" @ (lit 1) @ "i")%C ;;
      SAssign "ptr" [((lit 3) * "i") + (lit 2)]%C
        ("val" @ (lit 2) @ "i")%C
    )
  )%CS.

(** neon_sim.cpp:1038-1046
<<
void vst3q_s32(int32_t* ptr, int32x4x3_t val)
{
    for (int i = 0; i < 4; i++)
    {
        ptr[3 * i + 0] = val.val[0].val[i];
        ptr[3 * i + 1] = val.val[1].val[i];
        ptr[3 * i + 2] = val.val[2].val[i];
    }
}
>> *)
Definition vst3q_s32 : func := mkfunc "vst3q_s32" (TVoid)
  [("ptr", TPtr I32); ("val", tvecs 3 I32 4)]
  (
    SFor I32 "i" (lit 0)%C ("i" < (lit 4))%C ("i" + (lit 1))%C (
      SAssign "ptr" [((lit 3) * "i") + (lit 0)]%C
        ("val" @ (lit 0) @ "i")%C ;;
      SAssign "ptr" [((lit 3) * "i") + (lit 1)]%C
        ("val" @ (lit 1) @ "i")%C ;;
      SAssign "ptr" [((lit 3) * "i") + (lit 2)]%C
        ("val" @ (lit 2) @ "i")%C
    )
  )%CS.

(** neon_sim.cpp:1047-1055
<<
void vst3q_u8(uint8_t* ptr, uint8x16x3_t val)
{
    for (int i = 0; i < 16; i++)
    {
        ptr[3 * i + 0] = val.val[0].val[i];
        ptr[3 * i + 1] = val.val[1].val[i];
        ptr[3 * i + 2] = val.val[2].val[i];
    }
}
>> *)
Definition vst3q_u8 : func := mkfunc "vst3q_u8" (TVoid)
  [("ptr", TPtr U8); ("val", tvecs 3 U8 16)]
  (
    SFor I32 "i" (lit 0)%C ("i" < (lit 16))%C ("i" + (lit 1))%C (
      SAssign "ptr" [((lit 3) * "i") + (lit 0)]%C
        ("val" @ (lit 0) @ "i")%C ;;
      SAssign "ptr" [((lit 3) * "i") + (lit 1)]%C
        ("val" @ (lit 1) @ "i")%C ;;
      SAssign "ptr" [((lit 3) * "i") + (lit 2)]%C
        ("val" @ (lit 2) @ "i")%C
    )
  )%CS.

(** neon_sim.cpp:1056-1064
<<
void vst3q_u16(uint16_t* ptr, uint16x8x3_t val)
{
    for (int i = 0; i < 8; i++)
    {
        ptr[3 * i + 0] = val.val[0].val[i];
        ptr[3 * i + 1] = val.val[1].val[i];
        ptr[3 * i + 2] = val.val[2].val[i];
    }
}
>> *)
Definition vst3q_u16 : func := mkfunc "vst3q_u16" (TVoid)
  [("ptr", TPtr U16); ("val", tvecs 3 U16 8)]
  (
    SFor I32 "i" (lit 0)%C ("i" < (lit 8))%C ("i" + (lit 1))%C (
      SAssign "ptr" [((lit 3) * "i") + (lit 0)]%C
        ("val" @ (lit 0) @ "i")%C ;;
      SAssign "ptr" [((lit 3) * "i") + (lit 1)]%C
        ("val" @ (lit 1) @ "i")%C ;;
      SAssign "ptr" [((lit 3) * "i") + (lit 2)]%C
        ("val" @ (lit 2) @ "i")%C
    )
  )%CS.

(** neon_sim.cpp:1065-1073
<<
void vst3q_u32(uint32_t* ptr, uint32x4x3_t val)
{
    for (int i = 0; i < 4; i++)
    {
        ptr[3 * i + 0] = val.val[0].val[i];
        ptr[3 * i + 1] = val.val[1].val[i];
        ptr[3 * i + 2] = val.val[2].val[i];
    }
}
>> *)
Definition vst3q_u32 : func := mkfunc "vst3q_u32" (TVoid)
  [("ptr", TPtr U32); ("val", tvecs 3 U32 4)]
  (
    SFor I32 "i" (lit 0)%C ("i" < (lit 4))%C ("i" + (lit 1))%C (
      SAssign "ptr" [((lit 3) * "i") + (lit 0)]%C
        ("val" @ (lit 0) @ "i")%C ;;
      SAssign "ptr" [((lit 3) * "i") + (lit 1)]%C
        ("val" @ (lit 1) @ "i")%C ;;
      SAssign "ptr" [((lit 3) * "i") + (lit 2)]%C
        ("val" @ (lit 2) @ "i")%C
    )
  )%CS.

(** neon_sim.cpp:1077-1086
<<
void vst4_s8(int8_t* ptr, int8x8x4_t val)
{
    for (int i = 0; i < 8; i++)
    {
        ptr[4 * i + 0] = val.val[0].val[i];
        ptr[4 * i + 1] = val.val[1].val[i];
        ptr[4 * i + 2] = val.val[2].val[i];
        ptr[4 * i + 3] = val.val[3].val[i];
    }
}
>> *)
Definition vst4_s8 : func := mkfunc "vst4_s8" (TVoid)
  [("ptr", TPtr I8); ("val", tvecs 4 I8 8)]
  (
    SFor I32 "i" (lit 0)%C ("i" < (lit 8))%C ("i" + (lit 1))%C (
      SAssign "ptr" [((lit 4) * "i") + (lit 0)]%C
        ("val" @ (lit 0) @ "i")%C ;;
      SAssign "ptr" [((lit 4) * "i") + (lit 1)]%C
        ("val" @ (lit 1) @ "i")%C ;;
      SAssign "ptr" [((lit 4) * "i") + (lit 2)]%C
        ("val" @ (lit 2) @ "i")%C ;;
      SAssign "ptr" [((lit 4) * "i") + (lit 3)]%C
        ("val" @ (lit 3) @ "i")%C
    )
  )%CS.

(** neon_sim.cpp:1087-1096
<<
void vst4_s16(int16_t* ptr, int16x4x4_t val)
{
    for (int i = 0; i < 4; i++)
    {
        ptr[4 * i + 0] = val.val[0].val[i];
        ptr[4 * i + 1] = val.val[1].val[i];
        ptr[4 * i + 2] = val.val[2].val[i];
        ptr[4 * i + 3] = val.val[3].val[i];
    }
}
>> *)
Definition vst4_s16 : func := mkfunc "vst4_s16" (TVoid)
  [("ptr", TPtr I16); ("val", tvecs 4 I16 4)]
  (
    SFor I32 "i" (lit 0)%C ("i" < (lit 4))%C ("i" + (lit 1))%C (
      SAssign "ptr" [((lit 4) * "i") + (lit 0)]%C
        ("val" @ (lit 0) @ "i")%C ;;
      SAssign "ptr" [((lit 4) * "i") + (lit 1)]%C
        ("val" @ (lit 1) @ "i")%C ;;
      SAssign "ptr" [((lit 4) * "i") + (lit 2)]%C
        ("val" @ (lit 2) @ "i")%C ;;
      SAssign "ptr" [((lit 4) * "i") + (lit 3)]%C
        ("val" @ (lit 3) @ "i")%C
    )
  )%CS.

(** neon_sim.cpp:1097-1106
<<
void vst4_s32(int32_t* ptr, int32x2x4_t val)
{
    for (int i = 0; i < 2; i++)
    {
        ptr[4 * i + 0] = val.val[0].val[i];
        ptr[4 * i + 1] = val.val[1].val[i];
        ptr[4 * i + 2] = val.val[2].val[i];
        ptr[4 * i + 3] = val.val[3].val[i];
    }
}
>> *)
Definition vst4_s32 : func := mkfunc "vst4_s32" (TVoid)
  [("ptr", TPtr I32); ("val", tvecs 4 I32 2)]
  (
    SFor I32 "i" (lit 0)%C ("i" < (lit 2))%C ("i" + (lit 1))%C (
      SAssign "ptr" [((lit 4) * "i") + (lit 0)]%C
        ("val" @ (lit 0) @ "i")%C ;;
      SAssign "ptr" [((lit 4) * "i") + (lit 1)]%C
        ("val" @ (lit 1) @ "i")%C ;;
      SAssign "ptr" [((lit 4) * "i") + (lit 2)]%C
        ("val" @ (lit 2) @ "i")%C ;;
      SAssign "ptr" [((lit 4) * "i") + (lit 3)]%C
        ("val" @ (lit 3) @ "i")%C
    )
  )%CS.

(** neon_sim.cpp:1108-1117
<<
void vst4_u8(uint8_t* ptr, uint8x8x4_t val)
{
    for (int i = 0; i < 8; i++)
    {
        ptr[4 * i + 0] = val.val[0].val[i];
        ptr[4 * i + 1] = val.val[1].val[i];
        ptr[4 * i + 2] = val.val[2].val[i];
        ptr[4 * i + 4] = val.val[3].val[i];
    }
}
>> *)
Definition vst4_u8 : func := mkfunc "vst4_u8" (TVoid)
  [("ptr", TPtr U8); ("val", tvecs 4 U8 8)]
  (
    SFor I32 "i" (lit 0)%C ("i" < (lit 8))%C ("i" + (lit 1))%C (
      SAssign "ptr" [((lit 4) * "i") + (lit 0)]%C
        ("val" @ (lit 0) @ "i")%C ;;
      SAssign "ptr" [((lit 4) * "i") + (lit 1)]%C
        ("val" @ (lit 1) @ "i")%C ;;
      SAssign "ptr" [((lit 4) * "i") + (lit 2)]%C
        ("val" @ (lit 2) @ "i")%C ;;
      SAssign "ptr" [((lit 4) * "i") + (lit 4)]%C
        ("val" @ (lit 3) @ "i")%C
    )
  )%CS.

(** neon_sim.cpp:1118-1127
<<
void vst4_u16(uint16_t* ptr, uint16x4x4_t val)
{
    for (int i = 0; i < 4; i++)
    {
        ptr[4 * i + 0] = val.val[0].val[i];
        ptr[4 * i + 1] = val.val[1].val[i];
        ptr[4 * i + 2] = val.val[2].val[i];
        ptr[4 * i + 3] = val.val[3].val[i];
    }
}
>> *)
Definition vst4_u16 : func := mkfunc "vst4_u16" (TVoid)
  [("ptr", TPtr U16); ("val", tvecs 4 U16 4)]
  (
    SFor I32 "i" (lit 0)%C ("i" < (lit 4))%C ("i" + (lit 1))%C (
      SAssign "ptr" [((lit 4) * "i") + (lit 0)]%C
        ("val" @ (lit 0) @ "i")%C ;;
      SAssign "ptr" [((lit 4) * "i") + (lit 1)]%C
        ("val" @ (lit 1) @ "i")%C ;;
      SAssign "ptr" [((lit 4) * "i") + (lit 2)]%C
        ("val" @ (lit 2) @ "i")%C ;;
      SAssign "ptr" [((lit 4) * "i") + (lit 3)]%C
        ("val" @ (lit 3) @ "i")%C
    )
  )%CS.

(** neon_sim.cpp:1128-1137
<<
void vst4_u32(uint32_t* ptr, uint32x2x4_t val)
{
    for (int i = 0; i < 2; i++)
    {
        ptr[4 * i + 0] = val.val[0].val[i];
        ptr[4 * i + 1] = val.val[1].val[i];
        ptr[4 * i + 2] = val.val[2].val[i];
        ptr[4 * i + 2] = val.val[3].val[i];
    }
}
>> *)
Definition vst4_u32 : func := mkfunc "vst4_u32" (TVoid)
  [("ptr", TPtr U32); ("val", tvecs 4 U32 2)]
  (
    SFor I32 "i" (lit 0)%C ("i" < (lit 2))%C ("i" + (lit 1))%C (
      SAssign "ptr" [((lit 4) * "i") + (lit 0)]%C
        ("val" @ (lit 0) @ "i")%C ;;
      SAssign "ptr" [((lit 4) * "i") + (lit 1)]%C
        ("val" @ (lit 1) @ "i")%C ;;
      SAssign "ptr" [((lit 4) * "i") + (lit 2)]%C
        ("val" @ (lit 2) @ "i")%C ;;
      SAssign "ptr" [((lit 4) * "i") + (lit 2)]%C
        ("val" @ (lit 3) @ "i")%C
    )
  )%CS.

(** neon_sim.cpp:1140-1149
<<
void vst4q_s8(int8_t* ptr, int8x16x4_t val)
{
    for (int i = 0; i < 16; i++)
    {
        ptr[4 * i + 0] = val.val[0].val[i];
        ptr[4 * i + 1] = val.val[1].val[i];
        ptr[4 * i + 2] = val.val[2].val[i];
        ptr[4 * i + 3] = val.val[3].val[i];
    }
}
>> *)
Definition vst4q_s8 : func := mkfunc "vst4q_s8" (TVoid)
  [("ptr", TPtr I8); ("val", tvecs 4 I8 16)]
  (
    SFor I32 "i" (lit 0)%C ("i" < (lit 16))%C ("i" + (lit 1))%C (
      SAssign "ptr" [((lit 4) * "i") + (lit 0)]%C
        ("val" @ (lit 0) @ "i")%C ;;
      SAssign "ptr" [((lit 4) * "i") + (lit 1)]%C
        ("val" @ (lit 1) @ "i")%C ;;
      SAssign "ptr" [((lit 4) * "i") + (lit 2)]%C
        ("val" @ (lit 2) @ "i")%C ;;
      SAssign "ptr" [((lit 4) * "i") + (lit 3)]%C
        ("val" @ (lit 3) @ "i")%C
    )
  )%CS.

(** neon_sim.cpp:1150-1159
<<
void vst4q_s16(int16_t* ptr, int16x8x4_t val)
{
    for (int i = 0; i < 8; i++)
    {
        ptr[4 * i + 0] = val.val[0].val[i];
        ptr[4 * i + 1] = val.val[1].val[i];
        ptr[4 * i + 2] = val.val[2].val[i];
        ptr[4 * i + 3] = val.val[3].val[i];
    }
}
>> *)
Definition vst4q_s16 : func := mkfunc "vst4q_s16" (TVoid)
  [("ptr", TPtr I16); ("val", tvecs 4 I16 8)]
  (
    SFor I32 "i" (lit 0)%C ("i" < (lit 8))%C ("i" + (lit 1))%C (
      SAssign "ptr" [((lit 4) * "i") + (lit 0)]%C
        ("val" @ (lit 0) @ "i")%C ;;
      SAssign "ptr" [((lit 4) * "i") + (lit 1)]%C
        ("val" @ (lit 1) @ "i")%C ;;
      SAssign "ptr" [((lit 4) * "i") + (lit 2)]%C
        ("val" @ (lit 2) @ "i")%C ;;
      SAssign "ptr" [((lit 4) * "i") + (lit 3)]%C
        ("val" @ (lit 3) @ "i")%C
    )
  )%CS.

(** neon_sim.cpp:1160-1169
<<
void vst4q_s32(int32_t* ptr, int32x4x4_t val)
{
    for (int i = 0; i < 4; i++)
    {
        ptr[4 * i + 0] = val.val[0].val[i];
        ptr[4 * i + 1] = val.val[1].val[i];
        ptr[4 * i + 2] = val.val[2].val[i];
        ptr[4 * i + 3] = val.val[3].val[i];
    }
}
>> *)
Definition vst4q_s32 : func := mkfunc "vst4q_s32" (TVoid)
  [("ptr", TPtr I32); ("val", tvecs 4 I32 4)]
  (
    SFor I32 "i" (lit 0)%C ("i" < (lit 4))%C ("i" + (lit 1))%C (
      SAssign "ptr" [((lit 4) * "i") + (lit 0)]%C
        ("val" @ (lit 0) @ "i")%C ;;
      SAssign "ptr" [((lit 4) * "i") + (lit 1)]%C
        ("val" @ (lit 1) @ "i")%C ;;
      SAssign "ptr" [((lit 4) * "i") + (lit 2)]%C
        ("val" @ (lit 2) @ "i")%C ;;
      SAssign "ptr" [((lit 4) * "i") + (lit 3)]%C
        ("val" @ (lit 3) @ "i")%C
    )
  )%CS.

(** neon_sim.cpp:1170-1179
<<
void vst4q_u8(uint8_t* ptr, uint8x16x4_t val)
{
    for (int i = 0; i < 16; i++)
    {
        ptr[4 * i + 0] = val.val[0].val[i];
        ptr[4 * i + 1] = val.val[1].val[i];
        ptr[4 * i + 2] = val.val[2].val[i];
        ptr[4 * i + 3] = val.val[3].val[i];
    }
}
>> *)
Definition vst4q_u8 : func := mkfunc "vst4q_u8" (TVoid)
  [("ptr", TPtr U8); ("val", tvecs 4 U8 16)]
  (
    SFor I32 "i" (lit 0)%C ("i" < (lit 16))%C ("i" + (lit 1))%C (
      SAssign "ptr" [((lit 4) * "i") + (lit 0)]%C
        ("val" @ (lit 0) @ "i")%C ;;
      SAssign "ptr" [((lit 4) * "i") + (lit 1)]%C
        ("val" @ (lit 1) @ "i")%C ;;
      SAssign "ptr" [((lit 4) * "i") + (lit 2)]%C
        ("val" @ (lit 2) @ "i")%C ;;
      SAssign "ptr" [((lit 4) * "i") + (lit 3)]%C
        ("val" @ (lit 3) @ "i")%C
    )
  )%CS.

(** neon_sim.cpp:1180-1189
<<
void vst4q_u16(uint16_t* ptr, uint16x8x4_t val)
{
    for (int i = 0; i < 8; i++)
    {
        ptr[4 * i + 0] = val.val[0].val[i];
        ptr[4 * i + 1] = val.val[1].val[i];
        ptr[4 * i + 2] = val.val[2].val[i];
        ptr[4 * i + 3] = val.val[3].val[i];
    }
}
>> *)
Definition vst4q_u16 : func := mkfunc "vst4q_u16" (TVoid)
  [("ptr", TPtr U16); ("val", tvecs 4 U16 8)]
  (
    SFor I32 "i" (lit 0)%C ("i" < (lit 8))%C ("i" + (lit 1))%C (
      SAssign "ptr" [((lit 4) * "i") + (lit 0)]%C
        ("val" @ (lit 0) @ "i")%C ;;
      SAssign "ptr" [((lit 4) * "i") + (lit 1)]%C
        ("val" @ (lit 1) @ "i")%C ;;
      SAssign "ptr" [((lit 4) * "i") + (lit 2)]%C
        ("val" @ (lit 2) @ "i")%C ;;
      SAssign "ptr" [((lit 4) * "i") + (lit 3)]%C
        ("val" @ (lit 3) @ "i")%C
    )
  )%CS.

(** neon_sim.cpp:1190-1199
<<
void vst4q_u32(uint32_t* ptr, uint32x4x4_t val)
{
    for (int i = 0; i < 4; i++)
    {
        ptr[4 * i + 0] = val.val[0].val[i];
        ptr[4 * i + 1] = val.val[1].val[i];
        ptr[4 * i + 2] = val.val[2].val[i];
        ptr[4 * i + 3] = val.val[3].val[i];
    }
}
>> *)
Definition vst4q_u32 : func := mkfunc "vst4q_u32" (TVoid)
  [("ptr", TPtr U32); ("val", tvecs 4 U32 4)]
  (
    SFor I32 "i" (lit 0)%C ("i" < (lit 4))%C ("i" + (lit 1))%C (
      SAssign "ptr" [((lit 4) * "i") + (lit 0)]%C
        ("val" @ (lit 0) @ "i")%C ;;
      SAssign "ptr" [((lit 4) * "i") + (lit 1)]%C
        ("val" @ (lit 1) @ "i")%C ;;
      SAssign "ptr" [((lit 4) * "i") + (lit 2)]%C
        ("val" @ (lit 2) @ "i")%C ;;
      SAssign "ptr" [((lit 4) * "i") + (lit 3)]%C
        ("val" @ (lit 3) @ "i")%C
    )
  )%CS.

(** neon_sim.cpp:1203-1209
<<
void vst4q_lane_f32(float32_t* ptr, float32x4x4_t val, const int lane)
{
    for (int i = 0; i < 4; i++)
    {
        ptr[i] = val.val[i].val[lane];
    }
}
>> *)
Definition vst4q_lane_f32 : func := mkfunc "vst4q_lane_f32" (TVoid)
  [("ptr", TPtr F32); ("val", tvecs 4 F32 4); ("lane", TScal I32)]
  (
    SFor I32 "i" (lit 0)%C ("i" < (lit 4))%C ("i" + (lit 1))%C (
      SAssign "ptr" [EVar "i"]%C
        ("val" @ "i" @ "lane")%C
    )
  )%CS.
