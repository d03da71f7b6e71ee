(** Generated by tools/translate.py from neon_sim.cpp: unzip, reversal, division, narrowing saturating shifts.
    The C text is quoted above each definition (double quotes shown as single). *)
From Coq Require Import ZArith List String.
From Verif Require Import Types Syntax.
Import ListNotations.
Open Scope Z_scope.
Local Open Scope string_scope.

(** neon_sim.cpp:5585-5600
<<
uint8x8x2_t vuzp_u8(uint8x8_t a, uint8x8_t b)
{
    uint8x8x2_t r;
    for (int i = 0; i < 8; i += 2)
    {
        r.val[0].val[i / 2] = a.val[i];
        r.val[1].val[i / 2] = a.val[i + 1];
    }

    for (int i = 0; i < 8; i += 2)
    {
        r.val[0].val[i / 2 + 4] = b.val[i];
        r.val[1].val[i / 2 + 4] = b.val[i + 1];
    }
    return r;
}
>> *)
Definition vuzp_u8 : func := mkfunc "vuzp_u8" (tvecs 2 U8 8)
  [("a", tvec U8 8); ("b", tvec U8 8)]
  (
    SDecl (tvecs 2 U8 8) "r" None ;;
    SFor I32 "i" (lit 0)%C ("i" < (lit 8))%C ("i" + (lit 2))%C (
      SAssign "r" [lit 0; "i" / (lit 2)]%C
        ("a" @ "i")%C ;;
      SAssign "r" [lit 1; "i" / (lit 2)]%C
        ("a" @ ("i" + (lit 1)))%C
    ) ;;
    SFor I32 "i" (lit 0)%C ("i" < (lit 8))%C ("i" + (lit 2))%C (
      SAssign "r" [lit 0; ("i" / (lit 2)) + (lit 4)]%C
        ("b" @ "i")%C ;;
      SAssign "r" [lit 1; ("i" / (lit 2)) + (lit 4)]%C
        ("b" @ ("i" + (lit 1)))%C
    ) ;;
    SReturn ("r")%C
  )%CS.

(** neon_sim.cpp:5602-5617
<<
int8x8x2_t vuzp_s8(int8x8_t a, int8x8_t b)
{
    int8x8x2_t r;
    for (int i = 0; i < 8; i += 2)
    {
        r.val[0].val[i / 2] = a.val[i];
        r.val[1].val[i / 2] = a.val[i + 1];
    }

    for (int i = 0; i < 8; i += 2)
    {
        r.val[0].val[i / 2 + 4] = b.val[i];
        r.val[1].val[i / 2 + 4] = b.val[i + 1];
    }
    return r;
}
>> *)
Definition vuzp_s8 : func := mkfunc "vuzp_s8" (tvecs 2 I8 8)
  [("a", tvec I8 8); ("b", tvec I8 8)]
  (
    SDecl (tvecs 2 I8 8) "r" None ;;
    SFor I32 "i" (lit 0)%C ("i" < (lit 8))%C ("i" + (lit 2))%C (
      SAssign "r" [lit 0; "i" / (lit 2)]%C
        ("a" @ "i")%C ;;
      SAssign "r" [lit 1; "i" / (lit 2)]%C
        ("a" @ ("i" + (lit 1)))%C
    ) ;;
    SFor I32 "i" (lit 0)%C ("i" < (lit 8))%C ("i" + (lit 2))%C (
      SAssign "r" [lit 0; ("i" / (lit 2)) + (lit 4)]%C
        ("b" @ "i")%C ;;
      SAssign "r" [lit 1; ("i" / (lit 2)) + (lit 4)]%C
        ("b" @ ("i" + (lit 1)))%C
    ) ;;
    SReturn ("r")%C
  )%CS.

(** neon_sim.cpp:5620-5629
<<
int8x8_t vrev16_s8(int8x8_t vec)
{
    int8x8_t r;
    for (int i = 0; i < 8; i += 2)
    {
        r.val[i] =  vec.val[i + 1];
        r.val[i + 1] = vec.val[i];
    }
    return r;
}
>> *)
Definition vrev16_s8 : func := mkfunc "vrev16_s8" (tvec I8 8)
  [("vec", tvec I8 8)]
  (
    SDecl (tvec I8 8) "r" None ;;
    SFor I32 "i" (lit 0)%C ("i" < (lit 8))%C ("i" + (lit 2))%C (
      SAssign "r" [EVar "i"]%C
        ("vec" @ ("i" + (lit 1)))%C ;;
      SAssign "r" ["i" + (lit 1)]%C
        ("vec" @ "i")%C
    ) ;;
    SReturn ("r")%C
  )%CS.

(** neon_sim.cpp:5631-5640
<<
uint8x8_t vrev16_u8(uint8x8_t vec)
{
    uint8x8_t r;
    for (int i = 0; i < 8; i += 2)
    {
        r.val[i] =  vec.val[i + 1];
        r.val[i + 1] = vec.val[i];
    }
    return r;
}
>> *)
Definition vrev16_u8 : func := mkfunc "vrev16_u8" (tvec U8 8)
  [("vec", tvec U8 8)]
  (
    SDecl (tvec U8 8) "r" None ;;
    SFor I32 "i" (lit 0)%C ("i" < (lit 8))%C ("i" + (lit 2))%C (
      SAssign "r" [EVar "i"]%C
        ("vec" @ ("i" + (lit 1)))%C ;;
      SAssign "r" ["i" + (lit 1)]%C
        ("vec" @ "i")%C
    ) ;;
    SReturn ("r")%C
  )%CS.

(** neon_sim.cpp:5643-5652
<<
int8x16_t vrev16q_s8(int8x16_t vec)
{
    int8x16_t r;
    for (int i = 0; i < 16; i += 2)
    {
        r.val[i] =  vec.val[i + 1];
        r.val[i + 1] = vec.val[i];
    }
    return r;
}
>> *)
Definition vrev16q_s8 : func := mkfunc "vrev16q_s8" (tvec I8 16)
  [("vec", tvec I8 16)]
  (
    SDecl (tvec I8 16) "r" None ;;
    SFor I32 "i" (lit 0)%C ("i" < (lit 16))%C ("i" + (lit 2))%C (
      SAssign "r" [EVar "i"]%C
        ("vec" @ ("i" + (lit 1)))%C ;;
      SAssign "r" ["i" + (lit 1)]%C
        ("vec" @ "i")%C
    ) ;;
    SReturn ("r")%C
  )%CS.

(** neon_sim.cpp:5654-5663
<<
uint8x16_t vrev16q_u8(uint8x16_t vec)
{
    uint8x16_t r;
    for (int i = 0; i < 16; i += 2)
    {
        r.val[i] =  vec.val[i + 1];
        r.val[i + 1] = vec.val[i];
    }
    return r;
}
>> *)
Definition vrev16q_u8 : func := mkfunc "vrev16q_u8" (tvec U8 16)
  [("vec", tvec U8 16)]
  (
    SDecl (tvec U8 16) "r" None ;;
    SFor I32 "i" (lit 0)%C ("i" < (lit 16))%C ("i" + (lit 2))%C (
      SAssign "r" [EVar "i"]%C
        ("vec" @ ("i" + (lit 1)))%C ;;
      SAssign "r" ["i" + (lit 1)]%C
        ("vec" @ "i")%C
    ) ;;
    SReturn ("r")%C
  )%CS.

(** neon_sim.cpp:5666-5677
<<
int8x8_t vrev32_s8(int8x8_t vec)
{
    int8x8_t r;
    for (int i = 0; i < 16; i += 4)
    {
        r.val[i + 0] = vec.val[i + 3];
        r.val[i + 1] = vec.val[i + 2];
        r.val[i + 2] = vec.val[i + 1];
        r.val[i + 3] = vec.val[i + 0];
    }
    return r;
}
>> *)
Definition vrev32_s8 : func := mkfunc "vrev32_s8" (tvec I8 8)
  [("vec", tvec I8 8)]
  (
    SDecl (tvec I8 8) "r" None ;;
    SFor I32 "i" (lit 0)%C ("i" < (lit 16))%C ("i" + (lit 4))%C (
      SAssign "r" ["i" + (lit 0)]%C
        ("vec" @ ("i" + (lit 3)))%C ;;
      SAssign "r" ["i" + (lit 1)]%C
        ("vec" @ ("i" + (lit 2)))%C ;;
      SAssign "r" ["i" + (lit 2)]%C
        ("vec" @ ("i" + (lit 1)))%C ;;
      SAssign "r" ["i" + (lit 3)]%C
        ("vec" @ ("i" + (lit 0)))%C
    ) ;;
    SReturn ("r")%C
  )%CS.

(** neon_sim.cpp:5679-5688
<<
int16x4_t vrev32_s16(int16x4_t vec)
{
    int16x4_t r;
    for (int i = 0; i < 4; i += 2)
    {
        r.val[i + 0] = vec.val[i + 1];
        r.val[i + 1] = vec.val[i + 0];
    }
    return r;
}
>> *)
Definition vrev32_s16 : func := mkfunc "vrev32_s16" (tvec I16 4)
  [("vec", tvec I16 4)]
  (
    SDecl (tvec I16 4) "r" None ;;
    SFor I32 "i" (lit 0)%C ("i" < (lit 4))%C ("i" + (lit 2))%C (
      SAssign "r" ["i" + (lit 0)]%C
        ("vec" @ ("i" + (lit 1)))%C ;;
      SAssign "r" ["i" + (lit 1)]%C
        ("vec" @ ("i" + (lit 0)))%C
    ) ;;
    SReturn ("r")%C
  )%CS.

(** neon_sim.cpp:5690-5701
<<
uint8x8_t vrev32_u8(uint8x8_t vec)
{
    uint8x8_t r;
    for (int i = 0; i < 8; i += 4)
    {
        r.val[i + 0] = vec.val[i + 3];
        r.val[i + 1] = vec.val[i + 2];
        r.val[i + 2] = vec.val[i + 1];
        r.val[i + 3] = vec.val[i + 0];
    }
    return r;
}
>> *)
Definition vrev32_u8 : func := mkfunc "vrev32_u8" (tvec U8 8)
  [("vec", tvec U8 8)]
  (
    SDecl (tvec U8 8) "r" None ;;
    SFor I32 "i" (lit 0)%C ("i" < (lit 8))%C ("i" + (lit 4))%C (
      SAssign "r" ["i" + (lit 0)]%C
        ("vec" @ ("i" + (lit 3)))%C ;;
      SAssign "r" ["i" + (lit 1)]%C
        ("vec" @ ("i" + (lit 2)))%C ;;
      SAssign "r" ["i" + (lit 2)]%C
        ("vec" @ ("i" + (lit 1)))%C ;;
      SAssign "r" ["i" + (lit 3)]%C
        ("vec" @ ("i" + (lit 0)))%C
    ) ;;
    SReturn ("r")%C
  )%CS.

(** neon_sim.cpp:5703-5712
<<
uint16x4_t vrev32_u16(uint16x4_t vec)
{
    uint16x4_t r;
    for (int i = 0; i < 4; i += 2)
    {
        r.val[i + 0] = vec.val[i + 1];
        r.val[i + 1] = vec.val[i + 0];
    }
    return r;
}
>> *)
Definition vrev32_u16 : func := mkfunc "vrev32_u16" (tvec U16 4)
  [("vec", tvec U16 4)]
  (
    SDecl (tvec U16 4) "r" None ;;
    SFor I32 "i" (lit 0)%C ("i" < (lit 4))%C ("i" + (lit 2))%C (
      SAssign "r" ["i" + (lit 0)]%C
        ("vec" @ ("i" + (lit 1)))%C ;;
      SAssign "r" ["i" + (lit 1)]%C
        ("vec" @ ("i" + (lit 0)))%C
    ) ;;
    SReturn ("r")%C
  )%CS.

(** neon_sim.cpp:5715-5726
<<
int8x16_t vrev32q_s8(int8x16_t vec)
{
    int8x16_t r;
    for (int i = 0; i < 16; i += 4)
    {
        r.val[i + 0] = vec.val[i + 3];
        r.val[i + 1] = vec.val[i + 2];
        r.val[i + 2] = vec.val[i + 1];
        r.val[i + 3] = vec.val[i + 0];
    }
    return r;
}
>> *)
Definition vrev32q_s8 : func := mkfunc "vrev32q_s8" (tvec I8 16)
  [("vec", tvec I8 16)]
  (
    SDecl (tvec I8 16) "r" None ;;
    SFor I32 "i" (lit 0)%C ("i" < (lit 16))%C ("i" + (lit 4))%C (
      SAssign "r" ["i" + (lit 0)]%C
        ("vec" @ ("i" + (lit 3)))%C ;;
      SAssign "r" ["i" + (lit 1)]%C
        ("vec" @ ("i" + (lit 2)))%C ;;
      SAssign "r" ["i" + (lit 2)]%C
        ("vec" @ ("i" + (lit 1)))%C ;;
      SAssign "r" ["i" + (lit 3)]%C
        ("vec" @ ("i" + (lit 0)))%C
    ) ;;
    SReturn ("r")%C
  )%CS.

(** neon_sim.cpp:5728-5737
<<
int16x8_t vrev32q_s16(int16x8_t vec)
{
    int16x8_t r;
    for (int i = 0; i < 8; i += 2)
    {
        r.val[i + 0] = vec.val[i + 1];
        r.val[i + 1] = vec.val[i + 0];
    }
    return r;
}
>> *)
Definition vrev32q_s16 : func := mkfunc "vrev32q_s16" (tvec I16 8)
  [("vec", tvec I16 8)]
  (
    SDecl (tvec I16 8) "r" None ;;
    SFor I32 "i" (lit 0)%C ("i" < (lit 8))%C ("i" + (lit 2))%C (
      SAssign "r" ["i" + (lit 0)]%C
        ("vec" @ ("i" + (lit 1)))%C ;;
      SAssign "r" ["i" + (lit 1)]%C
        ("vec" @ ("i" + (lit 0)))%C
    ) ;;
    SReturn ("r")%C
  )%CS.

(** neon_sim.cpp:5739-5750
<<
uint8x16_t vrev32q_u8(uint8x16_t vec)
{
    uint8x16_t r;
    for (int i = 0; i < 16; i += 4)
    {
        r.val[i + 0] = vec.val[i + 3];
        r.val[i + 1] = vec.val[i + 2];
        r.val[i + 2] = vec.val[i + 1];
        r.val[i + 3] = vec.val[i + 0];
    }
    return r;
}
>> *)
Definition vrev32q_u8 : func := mkfunc "vrev32q_u8" (tvec U8 16)
  [("vec", tvec U8 16)]
  (
    SDecl (tvec U8 16) "r" None ;;
    SFor I32 "i" (lit 0)%C ("i" < (lit 16))%C ("i" + (lit 4))%C (
      SAssign "r" ["i" + (lit 0)]%C
        ("vec" @ ("i" + (lit 3)))%C ;;
      SAssign "r" ["i" + (lit 1)]%C
        ("vec" @ ("i" + (lit 2)))%C ;;
      SAssign "r" ["i" + (lit 2)]%C
        ("vec" @ ("i" + (lit 1)))%C ;;
      SAssign "r" ["i" + (lit 3)]%C
        ("vec" @ ("i" + (lit 0)))%C
    ) ;;
    SReturn ("r")%C
  )%CS.

(** neon_sim.cpp:5752-5761
<<
uint16x8_t vrev32q_u16(uint16x8_t vec)
{
    uint16x8_t r;
    for (int i = 0; i < 8; i += 2)
    {
        r.val[i + 0] = vec.val[i + 1];
        r.val[i + 1] = vec.val[i + 0];
    }
    return r;
}
>> *)
Definition vrev32q_u16 : func := mkfunc "vrev32q_u16" (tvec U16 8)
  [("vec", tvec U16 8)]
  (
    SDecl (tvec U16 8) "r" None ;;
    SFor I32 "i" (lit 0)%C ("i" < (lit 8))%C ("i" + (lit 2))%C (
      SAssign "r" ["i" + (lit 0)]%C
        ("vec" @ ("i" + (lit 1)))%C ;;
      SAssign "r" ["i" + (lit 1)]%C
        ("vec" @ ("i" + (lit 0)))%C
    ) ;;
    SReturn ("r")%C
  )%CS.

(** neon_sim.cpp:5764-5779
<<
int8x8_t vrev64_s8(int8x8_t vec)
{
    int8x8_t r;
    for (int i = 0; i < 8; i += 8)
    {
        r.val[i + 0] = vec.val[i + 7];
        r.val[i + 1] = vec.val[i + 6];
        r.val[i + 2] = vec.val[i + 5];
        r.val[i + 3] = vec.val[i + 4];
        r.val[i + 4] = vec.val[i + 3];
        r.val[i + 5] = vec.val[i + 2];
        r.val[i + 6] = vec.val[i + 1];
        r.val[i + 7] = vec.val[i + 0];
    }
    return r;
}
>> *)
Definition vrev64_s8 : func := mkfunc "vrev64_s8" (tvec I8 8)
  [("vec", tvec I8 8)]
  (
    SDecl (tvec I8 8) "r" None ;;
    SFor I32 "i" (lit 0)%C ("i" < (lit 8))%C ("i" + (lit 8))%C (
      SAssign "r" ["i" + (lit 0)]%C
        ("vec" @ ("i" + (lit 7)))%C ;;
      SAssign "r" ["i" + (lit 1)]%C
        ("vec" @ ("i" + (lit 6)))%C ;;
      SAssign "r" ["i" + (lit 2)]%C
        ("vec" @ ("i" + (lit 5)))%C ;;
      SAssign "r" ["i" + (lit 3)]%C
        ("vec" @ ("i" + (lit 4)))%C ;;
      SAssign "r" ["i" + (lit 4)]%C
        ("vec" @ ("i" + (lit 3)))%C ;;
      SAssign "r" ["i" + (lit 5)]%C
        ("vec" @ ("i" + (lit 2)))%C ;;
      SAssign "r" ["i" + (lit 6)]%C
        ("vec" @ ("i" + (lit 1)))%C ;;
      SAssign "r" ["i" + (lit 7)]%C
        ("vec" @ ("i" + (lit 0)))%C
    ) ;;
    SReturn ("r")%C
  )%CS.

(** neon_sim.cpp:5781-5792
<<
int16x4_t vrev64_s16(int16x4_t vec)
{
    int16x4_t r;
    for (int i = 0; i < 4; i += 4)
    {
        r.val[i + 0] = vec.val[i + 3];
        r.val[i + 1] = vec.val[i + 2];
        r.val[i + 2] = vec.val[i + 1];
        r.val[i + 3] = vec.val[i + 0];
    }
    return r;
}
>> *)
Definition vrev64_s16 : func := mkfunc "vrev64_s16" (tvec I16 4)
  [("vec", tvec I16 4)]
  (
    SDecl (tvec I16 4) "r" None ;;
    SFor I32 "i" (lit 0)%C ("i" < (lit 4))%C ("i" + (lit 4))%C (
      SAssign "r" ["i" + (lit 0)]%C
        ("vec" @ ("i" + (lit 3)))%C ;;
      SAssign "r" ["i" + (lit 1)]%C
        ("vec" @ ("i" + (lit 2)))%C ;;
      SAssign "r" ["i" + (lit 2)]%C
        ("vec" @ ("i" + (lit 1)))%C ;;
      SAssign "r" ["i" + (lit 3)]%C
        ("vec" @ ("i" + (lit 0)))%C
    ) ;;
    SReturn ("r")%C
  )%CS.

(** neon_sim.cpp:5794-5803
<<
int32x2_t vrev64_s32(int32x2_t vec)
{
    int32x2_t r;
    for (int i = 0; i < 2; i += 2)
    {
        r.val[i + 0] = vec.val[i + 1];
        r.val[i + 1] = vec.val[i + 0];
    }
    return r;
}
>> *)
Definition vrev64_s32 : func := mkfunc "vrev64_s32" (tvec I32 2)
  [("vec", tvec I32 2)]
  (
    SDecl (tvec I32 2) "r" None ;;
    SFor I32 "i" (lit 0)%C ("i" < (lit 2))%C ("i" + (lit 2))%C (
      SAssign "r" ["i" + (lit 0)]%C
        ("vec" @ ("i" + (lit 1)))%C ;;
      SAssign "r" ["i" + (lit 1)]%C
        ("vec" @ ("i" + (lit 0)))%C
    ) ;;
    SReturn ("r")%C
  )%CS.

(** neon_sim.cpp:5805-5820
<<
uint8x8_t vrev64_u8(uint8x8_t vec)
{
    uint8x8_t r;
    for (int i = 0; i < 8; i += 8)
    {
        r.val[i + 0] = vec.val[i + 7];
        r.val[i + 1] = vec.val[i + 6];
        r.val[i + 2] = vec.val[i + 5];
        r.val[i + 3] = vec.val[i + 4];
        r.val[i + 4] = vec.val[i + 3];
        r.val[i + 5] = vec.val[i + 2];
        r.val[i + 6] = vec.val[i + 1];
        r.val[i + 7] = vec.val[i + 0];
    }
    return r;
}
>> *)
Definition vrev64_u8 : func := mkfunc "vrev64_u8" (tvec U8 8)
  [("vec", tvec U8 8)]
  (
    SDecl (tvec U8 8) "r" None ;;
    SFor I32 "i" (lit 0)%C ("i" < (lit 8))%C ("i" + (lit 8))%C (
      SAssign "r" ["i" + (lit 0)]%C
        ("vec" @ ("i" + (lit 7)))%C ;;
      SAssign "r" ["i" + (lit 1)]%C
        ("vec" @ ("i" + (lit 6)))%C ;;
      SAssign "r" ["i" + (lit 2)]%C
        ("vec" @ ("i" + (lit 5)))%C ;;
      SAssign "r" ["i" + (lit 3)]%C
        ("vec" @ ("i" + (lit 4)))%C ;;
      SAssign "r" ["i" + (lit 4)]%C
        ("vec" @ ("i" + (lit 3)))%C ;;
      SAssign "r" ["i" + (lit 5)]%C
        ("vec" @ ("i" + (lit 2)))%C ;;
      SAssign "r" ["i" + (lit 6)]%C
        ("vec" @ ("i" + (lit 1)))%C ;;
      SAssign "r" ["i" + (lit 7)]%C
        ("vec" @ ("i" + (lit 0)))%C
    ) ;;
    SReturn ("r")%C
  )%CS.

(** neon_sim.cpp:5822-5833
<<
uint16x4_t vrev64_u16(uint16x4_t vec)
{
    uint16x4_t r;
    for (int i = 0; i < 4; i += 4)
    {
        r.val[i + 0] = vec.val[i + 3];
        r.val[i + 1] = vec.val[i + 2];
        r.val[i + 2] = vec.val[i + 1];
        r.val[i + 3] = vec.val[i + 0];
    }
    return r;
}
>> *)
Definition vrev64_u16 : func := mkfunc "vrev64_u16" (tvec U16 4)
  [("vec", tvec U16 4)]
  (
    SDecl (tvec U16 4) "r" None ;;
    SFor I32 "i" (lit 0)%C ("i" < (lit 4))%C ("i" + (lit 4))%C (
      SAssign "r" ["i" + (lit 0)]%C
        ("vec" @ ("i" + (lit 3)))%C ;;
      SAssign "r" ["i" + (lit 1)]%C
        ("vec" @ ("i" + (lit 2)))%C ;;
      SAssign "r" ["i" + (lit 2)]%C
        ("vec" @ ("i" + (lit 1)))%C ;;
      SAssign "r" ["i" + (lit 3)]%C
        ("vec" @ ("i" + (lit 0)))%C
    ) ;;
    SReturn ("r")%C
  )%CS.

(** neon_sim.cpp:5835-5844
<<
uint32x2_t vrev64_u32(uint32x2_t vec)
{
    uint32x2_t r;
    for (int i = 0; i < 2; i += 2)
    {
        r.val[i + 0] = vec.val[i + 1];
        r.val[i + 1] = vec.val[i + 0];
    }
    return r;
}
>> *)
Definition vrev64_u32 : func := mkfunc "vrev64_u32" (tvec U32 2)
  [("vec", tvec U32 2)]
  (
    SDecl (tvec U32 2) "r" None ;;
    SFor I32 "i" (lit 0)%C ("i" < (lit 2))%C ("i" + (lit 2))%C (
      SAssign "r" ["i" + (lit 0)]%C
        ("vec" @ ("i" + (lit 1)))%C ;;
      SAssign "r" ["i" + (lit 1)]%C
        ("vec" @ ("i" + (lit 0)))%C
    ) ;;
    SReturn ("r")%C
  )%CS.

(** neon_sim.cpp:5846-5855
<<
float32x2_t vrev64_f32(float32x2_t vec)
{
    float32x2_t r;
    for (int i = 0; i < 2; i += 2)
    {
        r.val[i + 0] = vec.val[i + 1];
        r.val[i + 1] = vec.val[i + 0];
    }
    return r;
}
>> *)
Definition vrev64_f32 : func := mkfunc "vrev64_f32" (tvec F32 2)
  [("vec", tvec F32 2)]
  (
    SDecl (tvec F32 2) "r" None ;;
    SFor I32 "i" (lit 0)%C ("i" < (lit 2))%C ("i" + (lit 2))%C (
      SAssign "r" ["i" + (lit 0)]%C
        ("vec" @ ("i" + (lit 1)))%C ;;
      SAssign "r" ["i" + (lit 1)]%C
        ("vec" @ ("i" + (lit 0)))%C
    ) ;;
    SReturn ("r")%C
  )%CS.

(** neon_sim.cpp:5858-5873
<<
int8x16_t vrev64q_s8(int8x16_t vec)
{
    int8x16_t r;
    for (int i = 0; i < 8; i += 8)
    {
        r.val[i + 0] = vec.val[i + 7];
        r.val[i + 1] = vec.val[i + 6];
        r.val[i + 2] = vec.val[i + 5];
        r.val[i + 3] = vec.val[i + 4];
        r.val[i + 4] = vec.val[i + 3];
        r.val[i + 5] = vec.val[i + 2];
        r.val[i + 6] = vec.val[i + 1];
        r.val[i + 7] = vec.val[i + 0];
    }
    return r;
}
>> *)
Definition vrev64q_s8 : func := mkfunc "vrev64q_s8" (tvec I8 16)
  [("vec", tvec I8 16)]
  (
    SDecl (tvec I8 16) "r" None ;;
    SFor I32 "i" (lit 0)%C ("i" < (lit 8))%C ("i" + (lit 8))%C (
      SAssign "r" ["i" + (lit 0)]%C
        ("vec" @ ("i" + (lit 7)))%C ;;
      SAssign "r" ["i" + (lit 1)]%C
        ("vec" @ ("i" + (lit 6)))%C ;;
      SAssign "r" ["i" + (lit 2)]%C
        ("vec" @ ("i" + (lit 5)))%C ;;
      SAssign "r" ["i" + (lit 3)]%C
        ("vec" @ ("i" + (lit 4)))%C ;;
      SAssign "r" ["i" + (lit 4)]%C
        ("vec" @ ("i" + (lit 3)))%C ;;
      SAssign "r" ["i" + (lit 5)]%C
        ("vec" @ ("i" + (lit 2)))%C ;;
      SAssign "r" ["i" + (lit 6)]%C
        ("vec" @ ("i" + (lit 1)))%C ;;
      SAssign "r" ["i" + (lit 7)]%C
        ("vec" @ ("i" + (lit 0)))%C
    ) ;;
    SReturn ("r")%C
  )%CS.

(** neon_sim.cpp:5875-5886
<<
int16x8_t vrev64q_s16(int16x8_t vec)
{
    int16x8_t r;
    for (int i = 0; i < 4; i += 4)
    {
        r.val[i + 0] = vec.val[i + 3];
        r.val[i + 1] = vec.val[i + 2];
        r.val[i + 2] = vec.val[i + 1];
        r.val[i + 3] = vec.val[i + 0];
    }
    return r;
}
>> *)
Definition vrev64q_s16 : func := mkfunc "vrev64q_s16" (tvec I16 8)
  [("vec", tvec I16 8)]
  (
    SDecl (tvec I16 8) "r" None ;;
    SFor I32 "i" (lit 0)%C ("i" < (lit 4))%C ("i" + (lit 4))%C (
      SAssign "r" ["i" + (lit 0)]%C
        ("vec" @ ("i" + (lit 3)))%C ;;
      SAssign "r" ["i" + (lit 1)]%C
        ("vec" @ ("i" + (lit 2)))%C ;;
      SAssign "r" ["i" + (lit 2)]%C
        ("vec" @ ("i" + (lit 1)))%C ;;
      SAssign "r" ["i" + (lit 3)]%C
        ("vec" @ ("i" + (lit 0)))%C
    ) ;;
    SReturn ("r")%C
  )%CS.

(** neon_sim.cpp:5888-5897
<<
int32x4_t vrev64q_s32(int32x4_t vec)
{
    int32x4_t r;
    for (int i = 0; i < 4; i += 2)
    {
        r.val[i + 0] = vec.val[i + 1];
        r.val[i + 1] = vec.val[i + 0];
    }
    return r;
}
>> *)
Definition vrev64q_s32 : func := mkfunc "vrev64q_s32" (tvec I32 4)
  [("vec", tvec I32 4)]
  (
    SDecl (tvec I32 4) "r" None ;;
    SFor I32 "i" (lit 0)%C ("i" < (lit 4))%C ("i" + (lit 2))%C (
      SAssign "r" ["i" + (lit 0)]%C
        ("vec" @ ("i" + (lit 1)))%C ;;
      SAssign "r" ["i" + (lit 1)]%C
        ("vec" @ ("i" + (lit 0)))%C
    ) ;;
    SReturn ("r")%C
  )%CS.

(** neon_sim.cpp:5899-5914
<<
uint8x16_t vrev64q_u8(uint8x16_t vec)
{
    uint8x16_t r;
    for (int i = 0; i < 16; i += 8)
    {
        r.val[i + 0] = vec.val[i + 7];
        r.val[i + 1] = vec.val[i + 6];
        r.val[i + 2] = vec.val[i + 5];
        r.val[i + 3] = vec.val[i + 4];
        r.val[i + 4] = vec.val[i + 3];
        r.val[i + 5] = vec.val[i + 2];
        r.val[i + 6] = vec.val[i + 1];
        r.val[i + 7] = vec.val[i + 0];
    }
    return r;
}
>> *)
Definition vrev64q_u8 : func := mkfunc "vrev64q_u8" (tvec U8 16)
  [("vec", tvec U8 16)]
  (
    SDecl (tvec U8 16) "r" None ;;
    SFor I32 "i" (lit 0)%C ("i" < (lit 16))%C ("i" + (lit 8))%C (
      SAssign "r" ["i" + (lit 0)]%C
        ("vec" @ ("i" + (lit 7)))%C ;;
      SAssign "r" ["i" + (lit 1)]%C
        ("vec" @ ("i" + (lit 6)))%C ;;
      SAssign "r" ["i" + (lit 2)]%C
        ("vec" @ ("i" + (lit 5)))%C ;;
      SAssign "r" ["i" + (lit 3)]%C
        ("vec" @ ("i" + (lit 4)))%C ;;
      SAssign "r" ["i" + (lit 4)]%C
        ("vec" @ ("i" + (lit 3)))%C ;;
      SAssign "r" ["i" + (lit 5)]%C
        ("vec" @ ("i" + (lit 2)))%C ;;
      SAssign "r" ["i" + (lit 6)]%C
        ("vec" @ ("i" + (lit 1)))%C ;;
      SAssign "r" ["i" + (lit 7)]%C
        ("vec" @ ("i" + (lit 0)))%C
    ) ;;
    SReturn ("r")%C
  )%CS.

(** neon_sim.cpp:5916-5927
<<
uint16x8_t vrev64q_u16(uint16x8_t vec)
{
    uint16x8_t r;
    for (int i = 0; i < 8; i += 4)
    {
        r.val[i + 0] = vec.val[i + 3];
        r.val[i + 1] = vec.val[i + 2];
        r.val[i + 2] = vec.val[i + 1];
        r.val[i + 3] = vec.val[i + 0];
    }
    return r;
}
>> *)
Definition vrev64q_u16 : func := mkfunc "vrev64q_u16" (tvec U16 8)
  [("vec", tvec U16 8)]
  (
    SDecl (tvec U16 8) "r" None ;;
    SFor I32 "i" (lit 0)%C ("i" < (lit 8))%C ("i" + (lit 4))%C (
      SAssign "r" ["i" + (lit 0)]%C
        ("vec" @ ("i" + (lit 3)))%C ;;
      SAssign "r" ["i" + (lit 1)]%C
        ("vec" @ ("i" + (lit 2)))%C ;;
      SAssign "r" ["i" + (lit 2)]%C
        ("vec" @ ("i" + (lit 1)))%C ;;
      SAssign "r" ["i" + (lit 3)]%C
        ("vec" @ ("i" + (lit 0)))%C
    ) ;;
    SReturn ("r")%C
  )%CS.

(** neon_sim.cpp:5929-5938
<<
uint32x4_t vrev64q_u32(uint32x4_t vec)
{
    uint32x4_t r;
    for (int i = 0; i < 4; i += 2)
    {
        r.val[i + 0] = vec.val[i + 1];
        r.val[i + 1] = vec.val[i + 0];
    }
    return r;
}
>> *)
Definition vrev64q_u32 : func := mkfunc "vrev64q_u32" (tvec U32 4)
  [("vec", tvec U32 4)]
  (
    SDecl (tvec U32 4) "r" None ;;
    SFor I32 "i" (lit 0)%C ("i" < (lit 4))%C ("i" + (lit 2))%C (
      SAssign "r" ["i" + (lit 0)]%C
        ("vec" @ ("i" + (lit 1)))%C ;;
      SAssign "r" ["i" + (lit 1)]%C
        ("vec" @ ("i" + (lit 0)))%C
    ) ;;
    SReturn ("r")%C
  )%CS.

(** neon_sim.cpp:5940-5949
<<
float32x4_t vrev64q_f32(float32x4_t vec)
{
    float32x4_t r;
    for (int i = 0; i < 4; i += 2)
    {
        r.val[i + 0] = vec.val[i + 1];
        r.val[i + 1] = vec.val[i + 0];
    }
    return r;
}
>> *)
Definition vrev64q_f32 : func := mkfunc "vrev64q_f32" (tvec F32 4)
  [("vec", tvec F32 4)]
  (
    SDecl (tvec F32 4) "r" None ;;
    SFor I32 "i" (lit 0)%C ("i" < (lit 4))%C ("i" + (lit 2))%C (
      SAssign "r" ["i" + (lit 0)]%C
        ("vec" @ ("i" + (lit 1)))%C ;;
      SAssign "r" ["i" + (lit 1)]%C
        ("vec" @ ("i" + (lit 0)))%C
    ) ;;
    SReturn ("r")%C
  )%CS.

(** neon_sim.cpp:5954-5962
<<
float32x2_t vdiv_f32(float32x2_t a, float32x2_t b)
{
    float32x2_t r;
    for (int i = 0; i < 2; i++)
    {
        r.val[i] =  a.val[i] / b.val[i];
    }
    return r;
}
>> *)
Definition vdiv_f32 : func := mkfunc "vdiv_f32" (tvec F32 2)
  [("a", tvec F32 2); ("b", tvec F32 2)]
  (
    SDecl (tvec F32 2) "r" None ;;
    SFor I32 "i" (lit 0)%C ("i" < (lit 2))%C ("i" + (lit 1))%C (
      SAssign "r" [EVar "i"]%C
        (("a" @ "i") / ("b" @ "i"))%C
    ) ;;
    SReturn ("r")%C
  )%CS.

(** neon_sim.cpp:5964-5972
<<
float64x1_t vdiv_f64(float64x1_t a, float64x1_t b)
{
    float64x1_t r;
    for (int i = 0; i < 1; i++)
    {
        r.val[i] =  a.val[i] / b.val[i];
    }
    return r;
}
>> *)
Definition vdiv_f64 : func := mkfunc "vdiv_f64" (tvec F64 1)
  [("a", tvec F64 1); ("b", tvec F64 1)]
  (
    SDecl (tvec F64 1) "r" None ;;
    SFor I32 "i" (lit 0)%C ("i" < (lit 1))%C ("i" + (lit 1))%C (
      SAssign "r" [EVar "i"]%C
        (("a" @ "i") / ("b" @ "i"))%C
    ) ;;
    SReturn ("r")%C
  )%CS.

(** neon_sim.cpp:5977-5985
<<
float32x4_t vdivq_f32(float32x4_t a, float32x4_t b)
{
    float32x4_t r;
    for (int i = 0; i < 4; i++)
    {
        r.val[i] =  a.val[i] / b.val[i];
    }
    return r;
}
>> *)
Definition vdivq_f32 : func := mkfunc "vdivq_f32" (tvec F32 4)
  [("a", tvec F32 4); ("b", tvec F32 4)]
  (
    SDecl (tvec F32 4) "r" None ;;
    SFor I32 "i" (lit 0)%C ("i" < (lit 4))%C ("i" + (lit 1))%C (
      SAssign "r" [EVar "i"]%C
        (("a" @ "i") / ("b" @ "i"))%C
    ) ;;
    SReturn ("r")%C
  )%CS.

(** neon_sim.cpp:5987-5995
<<
float64x2_t vdivq_f64(float64x2_t a, float64x2_t b)
{
    float64x2_t r;
    for (int i = 0; i < 2; i++)
    {
        r.val[i] =  a.val[i] / b.val[i];
    }
    return r;
}
>> *)
Definition vdivq_f64 : func := mkfunc "vdivq_f64" (tvec F64 2)
  [("a", tvec F64 2); ("b", tvec F64 2)]
  (
    SDecl (tvec F64 2) "r" None ;;
    SFor I32 "i" (lit 0)%C ("i" < (lit 2))%C ("i" + (lit 1))%C (
      SAssign "r" [EVar "i"]%C
        (("a" @ "i") / ("b" @ "i"))%C
    ) ;;
    SReturn ("r")%C
  )%CS.

(** neon_sim.cpp:6001-6009
<<
int8x8_t vqshrn_n_s16(int16x8_t a, const int n)
{
    int8x8_t r;
    for (int i = 0; i < 8; i++)
    {
        r.val[i] =  std::min(std::max(a.val[i] >> n, INT8_MIN), INT8_MAX);
    }
    return r;
}
>> *)
Definition vqshrn_n_s16 : func := mkfunc "vqshrn_n_s16" (tvec I8 8)
  [("a", tvec I16 8); ("n", TScal I32)]
  (
    SDecl (tvec I8 8) "r" None ;;
    SFor I32 "i" (lit 0)%C ("i" < (lit 8))%C ("i" + (lit 1))%C (
      SAssign "r" [EVar "i"]%C
        (EMin I32 (EMax I32 (("a" @ "i") >> "n") (lit (-128))) (lit 127))%C
    ) ;;
    SReturn ("r")%C
  )%CS.

(** neon_sim.cpp:6011-6019
<<
int16x4_t vqshrn_n_s32(int32x4_t a, const int n)
{
    int16x4_t r;
    for (int i = 0; i < 4; i++)
    {
        r.val[i] =  std::min(std::max(a.val[i] >> n, INT16_MIN), INT16_MAX);
    }
    return r;
}
>> *)
Definition vqshrn_n_s32 : func := mkfunc "vqshrn_n_s32" (tvec I16 4)
  [("a", tvec I32 4); ("n", TScal I32)]
  (
    SDecl (tvec I16 4) "r" None ;;
    SFor I32 "i" (lit 0)%C ("i" < (lit 4))%C ("i" + (lit 1))%C (
      SAssign "r" [EVar "i"]%C
        (EMin I32 (EMax I32 (("a" @ "i") >> "n") (lit (-32768))) (lit 32767))%C
    ) ;;
    SReturn ("r")%C
  )%CS.

(** neon_sim.cpp:6021-6029
<<
int32x2_t vqshrn_n_s64(int64x2_t a, const int n)
{
    int32x2_t r;
    for (int i = 0; i < 2; i++)
    {
        r.val[i] =  std::min<int32_t>(std::max<int64_t>(a.val[i] >> n, INT32_MIN), INT32_MAX);
    }
    return r;
}
>> *)
Definition vqshrn_n_s64 : func := mkfunc "vqshrn_n_s64" (tvec I32 2)
  [("a", tvec I64 2); ("n", TScal I32)]
  (
    SDecl (tvec I32 2) "r" None ;;
    SFor I32 "i" (lit 0)%C ("i" < (lit 2))%C ("i" + (lit 1))%C (
      SAssign "r" [EVar "i"]%C
        (EMin I32 (EMax I64 (("a" @ "i") >> "n") (lit (-2147483648))) (lit 2147483647))%C
    ) ;;
    SReturn ("r")%C
  )%CS.

(** neon_sim.cpp:6031-6039
<<
uint8x8_t vqshrn_n_u16(uint16x8_t a, const int n)
{
    uint8x8_t r;
    for (int i = 0; i < 8; i++)
    {
        r.val[i] =  std::min(a.val[i] >> n, UINT8_MAX);
    }
    return r;
}
>> *)
Definition vqshrn_n_u16 : func := mkfunc "vqshrn_n_u16" (tvec U8 8)
  [("a", tvec U16 8); ("n", TScal I32)]
  (
    SDecl (tvec U8 8) "r" None ;;
    SFor I32 "i" (lit 0)%C ("i" < (lit 8))%C ("i" + (lit 1))%C (
      SAssign "r" [EVar "i"]%C
        (EMin I32 (("a" @ "i") >> "n") (lit 255))%C
    ) ;;
    SReturn ("r")%C
  )%CS.

(** neon_sim.cpp:6041-6049
<<
uint16x4_t vqshrn_n_u32(uint32x4_t a, const int n)
{
    uint16x4_t r;
    for (int i = 0; i < 4; i++)
    {
        r.val[i] =  std::min<uint32_t>(a.val[i] >> n, UINT16_MAX);
    }
    return r;
}
>> *)
Definition vqshrn_n_u32 : func := mkfunc "vqshrn_n_u32" (tvec U16 4)
  [("a", tvec U32 4); ("n", TScal I32)]
  (
    SDecl (tvec U16 4) "r" None ;;
    SFor I32 "i" (lit 0)%C ("i" < (lit 4))%C ("i" + (lit 1))%C (
      SAssign "r" [EVar "i"]%C
        (EMin U32 (("a" @ "i") >> "n") (lit 65535))%C
    ) ;;
    SReturn ("r")%C
  )%CS.

(** neon_sim.cpp:6051-6059
<<
uint32x2_t vqshrn_n_u64(uint64x2_t a, const int n)
{
    uint32x2_t r;
    for (int i = 0; i < 2; i++)
    {
        r.val[i] =  std::min<uint64_t>(a.val[i] >> n, UINT32_MAX);
    }
    return r;
}
>> *)
Definition vqshrn_n_u64 : func := mkfunc "vqshrn_n_u64" (tvec U32 2)
  [("a", tvec U64 2); ("n", TScal I32)]
  (
    SDecl (tvec U32 2) "r" None ;;
    SFor I32 "i" (lit 0)%C ("i" < (lit 2))%C ("i" + (lit 1))%C (
      SAssign "r" [EVar "i"]%C
        (EMin U64 (("a" @ "i") >> "n") (ELit U32 4294967295))%C
    ) ;;
    SReturn ("r")%C
  )%CS.
