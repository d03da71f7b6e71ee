(** Generated by tools/translate.py from neon_sim.cpp: comparison, select, shifts, reinterpret, conversion.
    The C text is quoted above each definition (double quotes shown as single). *)
From Coq Require Import ZArith List String.
From Verif Require Import Types Syntax.
Import ListNotations.
Open Scope Z_scope.
Local Open Scope string_scope.

(** neon_sim.cpp:3726-3741
<<
uint32x4_t vcltq_f32(float32x4_t N, float32x4_t M)
{
    uint32x4_t D;
    for (int i = 0; i < 4; i++)
    {
        if (N.val[i] < M.val[i])
        {
            D.val[i] = 0xFFFFFFFF;
        }
        else
        {
            D.val[i] = 0;
        }
    }
    return D;
}
>> *)
Definition vcltq_f32 : func := mkfunc "vcltq_f32" (tvec U32 4)
  [("N", tvec F32 4); ("M", tvec F32 4)]
  (
    SDecl (tvec U32 4) "D" None ;;
    SFor I32 "i" (lit 0)%C ("i" < (lit 4))%C ("i" + (lit 1))%C (
      SIf (("N" @ "i") < ("M" @ "i"))%C (
        SAssign "D" [EVar "i"]%C
          (ELit U32 4294967295)%C
      ) (
        SAssign "D" [EVar "i"]%C
          (lit 0)%C
      )
    ) ;;
    SReturn ("D")%C
  )%CS.

(** neon_sim.cpp:3743-3751
<<
float32x4_t vbslq_f32(uint32x4_t mask, float32x4_t a, float32x4_t b)
{
    float32x4_t r;
    for (int i = 0; i < 4; i++)
    {
        r.val[i] =  mask.val[i] ? a.val[i] : b.val[i];
    }
    return r;
}
>> *)
Definition vbslq_f32 : func := mkfunc "vbslq_f32" (tvec F32 4)
  [("mask", tvec U32 4); ("a", tvec F32 4); ("b", tvec F32 4)]
  (
    SDecl (tvec F32 4) "r" None ;;
    SFor I32 "i" (lit 0)%C ("i" < (lit 4))%C ("i" + (lit 1))%C (
      SAssign "r" [EVar "i"]%C
        (ECond ("mask" @ "i") ("a" @ "i") ("b" @ "i"))%C
    ) ;;
    SReturn ("r")%C
  )%CS.

(** neon_sim.cpp:3754-3768
<<
int8x8_t vshrn_n_s16(int16x8_t a, const int n)
{
    if (n < 1 || n > 8)
    {
        fprintf(stderr, '%s: param n not in range [1, 8]\n', __FUNCTION__);
        abort();
    }

    int8x8_t r;
    for (int i = 0; i < 8; i++)
    {
        r.val[i] =  a.val[i] >> n;
    }
    return r;
}
>> *)
Definition vshrn_n_s16 : func := mkfunc "vshrn_n_s16" (tvec I8 8)
  [("a", tvec I16 8); ("n", TScal I32)]
  (
    SIf (EOrElse ("n" < (lit 1)) ("n" > (lit 8)))%C (
      SAbort
    ) (
      SSkip
    ) ;;
    SDecl (tvec I8 8) "r" None ;;
    SFor I32 "i" (lit 0)%C ("i" < (lit 8))%C ("i" + (lit 1))%C (
      SAssign "r" [EVar "i"]%C
        (("a" @ "i") >> "n")%C
    ) ;;
    SReturn ("r")%C
  )%CS.

(** neon_sim.cpp:3770-3784
<<
uint16x4_t vshr_n_u16(uint16x4_t v, const int n)
{
    if (n < 1 || n > 8)
    {
        fprintf(stderr, '%s: param n not in range [1, 8]\n', __FUNCTION__);
        abort();
    }

    uint16x4_t D;
    for (int i = 0; i < 4; i++)
    {
        D.val[i] = v.val[i] >> n;
    }
    return D;
}
>> *)
Definition vshr_n_u16 : func := mkfunc "vshr_n_u16" (tvec U16 4)
  [("v", tvec U16 4); ("n", TScal I32)]
  (
    SIf (EOrElse ("n" < (lit 1)) ("n" > (lit 8)))%C (
      SAbort
    ) (
      SSkip
    ) ;;
    SDecl (tvec U16 4) "D" None ;;
    SFor I32 "i" (lit 0)%C ("i" < (lit 4))%C ("i" + (lit 1))%C (
      SAssign "D" [EVar "i"]%C
        (("v" @ "i") >> "n")%C
    ) ;;
    SReturn ("D")%C
  )%CS.

(** neon_sim.cpp:3786-3800
<<
int16x4_t vshrn_n_s32(int32x4_t a, const int n)
{
    if (n < 1 || n > 16)
    {
        fprintf(stderr, '%s: param n not in range [1, 8]\n', __FUNCTION__);
        abort();
    }

    int16x4_t r;
    for (int i = 0; i < 4; i++)
    {
        r.val[i] =  a.val[i] >> n;
    }
    return r;
}
>> *)
Definition vshrn_n_s32 : func := mkfunc "vshrn_n_s32" (tvec I16 4)
  [("a", tvec I32 4); ("n", TScal I32)]
  (
    SIf (EOrElse ("n" < (lit 1)) ("n" > (lit 16)))%C (
      SAbort
    ) (
      SSkip
    ) ;;
    SDecl (tvec I16 4) "r" None ;;
    SFor I32 "i" (lit 0)%C ("i" < (lit 4))%C ("i" + (lit 1))%C (
      SAssign "r" [EVar "i"]%C
        (("a" @ "i") >> "n")%C
    ) ;;
    SReturn ("r")%C
  )%CS.

(** neon_sim.cpp:3802-3816
<<
int32x2_t vshrn_n_s64(int64x2_t a, const int n)
{
    if (n < 1 || n > 32)
    {
        fprintf(stderr, '%s: param n not in range [1, 8]\n', __FUNCTION__);
        abort();
    }

    int32x2_t r;
    for (int i = 0; i < 2; i++)
    {
        r.val[i] =  a.val[i] >> n;
    }
    return r;
}
>> *)
Definition vshrn_n_s64 : func := mkfunc "vshrn_n_s64" (tvec I32 2)
  [("a", tvec I64 2); ("n", TScal I32)]
  (
    SIf (EOrElse ("n" < (lit 1)) ("n" > (lit 32)))%C (
      SAbort
    ) (
      SSkip
    ) ;;
    SDecl (tvec I32 2) "r" None ;;
    SFor I32 "i" (lit 0)%C ("i" < (lit 2))%C ("i" + (lit 1))%C (
      SAssign "r" [EVar "i"]%C
        (("a" @ "i") >> "n")%C
    ) ;;
    SReturn ("r")%C
  )%CS.

(** neon_sim.cpp:3818-3832
<<
uint8x8_t vshrn_n_u16(uint16x8_t a, const int n)
{
    if (n < 1 || n > 8)
    {
        fprintf(stderr, '%s: param n not in range [1, 8]\n', __FUNCTION__);
        abort();
    }

    uint8x8_t r;
    for (int i = 0; i < 8; i++)
    {
        r.val[i] =  a.val[i] >> n;
    }
    return r;
}
>> *)
Definition vshrn_n_u16 : func := mkfunc "vshrn_n_u16" (tvec U8 8)
  [("a", tvec U16 8); ("n", TScal I32)]
  (
    SIf (EOrElse ("n" < (lit 1)) ("n" > (lit 8)))%C (
      SAbort
    ) (
      SSkip
    ) ;;
    SDecl (tvec U8 8) "r" None ;;
    SFor I32 "i" (lit 0)%C ("i" < (lit 8))%C ("i" + (lit 1))%C (
      SAssign "r" [EVar "i"]%C
        (("a" @ "i") >> "n")%C
    ) ;;
    SReturn ("r")%C
  )%CS.

(** neon_sim.cpp:3834-3848
<<
uint16x4_t vshrn_n_u32(uint32x4_t a, const int n)
{
    if (n < 1 || n > 16)
    {
        fprintf(stderr, '%s: param n not in range [1, 8]\n', __FUNCTION__);
        abort();
    }

    uint16x4_t r;
    for (int i = 0; i < 4; i++)
    {
        r.val[i] =  a.val[i] >> n;
    }
    return r;
}
>> *)
Definition vshrn_n_u32 : func := mkfunc "vshrn_n_u32" (tvec U16 4)
  [("a", tvec U32 4); ("n", TScal I32)]
  (
    SIf (EOrElse ("n" < (lit 1)) ("n" > (lit 16)))%C (
      SAbort
    ) (
      SSkip
    ) ;;
    SDecl (tvec U16 4) "r" None ;;
    SFor I32 "i" (lit 0)%C ("i" < (lit 4))%C ("i" + (lit 1))%C (
      SAssign "r" [EVar "i"]%C
        (("a" @ "i") >> "n")%C
    ) ;;
    SReturn ("r")%C
  )%CS.

(** neon_sim.cpp:3850-3864
<<
uint32x2_t vshrn_n_u64(uint64x2_t a, const int n)
{
    if (n < 1 || n > 32)
    {
        fprintf(stderr, '%s: param n not in range [1, 8]\n', __FUNCTION__);
        abort();
    }

    uint32x2_t r;
    for (int i = 0; i < 2; i++)
    {
        r.val[i] =  a.val[i] >> n;
    }
    return r;
}
>> *)
Definition vshrn_n_u64 : func := mkfunc "vshrn_n_u64" (tvec U32 2)
  [("a", tvec U64 2); ("n", TScal I32)]
  (
    SIf (EOrElse ("n" < (lit 1)) ("n" > (lit 32)))%C (
      SAbort
    ) (
      SSkip
    ) ;;
    SDecl (tvec U32 2) "r" None ;;
    SFor I32 "i" (lit 0)%C ("i" < (lit 2))%C ("i" + (lit 1))%C (
      SAssign "r" [EVar "i"]%C
        (("a" @ "i") >> "n")%C
    ) ;;
    SReturn ("r")%C
  )%CS.

(** neon_sim.cpp:3867-3890
<<
uint8x8_t vqshrun_n_s16(int16x8_t v, const int n)
{
    if (n < 1 || n > 8)
    {
        fprintf(stderr, '%s: param n not in range [1, 8]\n', __FUNCTION__);
        abort();
    }

    uint8x8_t D;
    for (int i = 0; i < 8; i++)
    {
        int16_t temp = v.val[i] >> n;
        if (temp > UINT8_MAX)
        {
            temp = UINT8_MAX;
        }
        else if (temp < 0)
        {
            temp = 0;
        }
        D.val[i] = temp;
    }
    return D;
}
>> *)
Definition vqshrun_n_s16 : func := mkfunc "vqshrun_n_s16" (tvec U8 8)
  [("v", tvec I16 8); ("n", TScal I32)]
  (
    SIf (EOrElse ("n" < (lit 1)) ("n" > (lit 8)))%C (
      SAbort
    ) (
      SSkip
    ) ;;
    SDecl (tvec U8 8) "D" None ;;
    SFor I32 "i" (lit 0)%C ("i" < (lit 8))%C ("i" + (lit 1))%C (
      SDecl (TScal I16) "temp" (Some (("v" @ "i") >> "n")%C) ;;
      SIf ("temp" > (lit 255))%C (
        SAssign "temp" []%C
          (lit 255)%C
      ) (
        SIf ("temp" < (lit 0))%C (
          SAssign "temp" []%C
            (lit 0)%C
        ) (
          SSkip
        )
      ) ;;
      SAssign "D" [EVar "i"]%C
        ("temp")%C
    ) ;;
    SReturn ("D")%C
  )%CS.

(** neon_sim.cpp:3892-3913
<<
uint16x4_t vqshrun_n_s32(int32x4_t v, const int n)
{
    if (n < 1 || n > 16)
    {
        fprintf(stderr, '%s: param n out of range\n', __FUNCTION__);
        abort();
    }
    uint16x4_t D;
    for (int i = 0; i < 4; i++)
    {
        int32_t temp = (v.val[i] + (1 << (n - 1))) >> n;
        if (temp > UINT16_MAX)
        {
            temp = UINT16_MAX;
        }
        else if (temp < 0)
        {
            temp = 0;
        }
    }
    return D;
}
>> *)
Definition vqshrun_n_s32 : func := mkfunc "vqshrun_n_s32" (tvec U16 4)
  [("v", tvec I32 4); ("n", TScal I32)]
  (
    SIf (EOrElse ("n" < (lit 1)) ("n" > (lit 16)))%C (
      SAbort
    ) (
      SSkip
    ) ;;
    SDecl (tvec U16 4) "D" None ;;
    SFor I32 "i" (lit 0)%C ("i" < (lit 4))%C ("i" + (lit 1))%C (
      SDecl (TScal I32) "temp" (Some ((("v" @ "i") + ((lit 1) << ("n" - (lit 1)))) >> "n")%C) ;;
      SIf ("temp" > (lit 65535))%C (
        SAssign "temp" []%C
          (lit 65535)%C
      ) (
        SIf ("temp" < (lit 0))%C (
          SAssign "temp" []%C
            (lit 0)%C
        ) (
          SSkip
        )
      )
    ) ;;
    SReturn ("D")%C
  )%CS.

(** neon_sim.cpp:3916-3937
<<
uint32x2_t vqshrun_n_s64(int64x2_t v, const int n)
{
    if (n < 1 || n > 32)
    {
        fprintf(stderr, '%s: param n out of range\n', __FUNCTION__);
        abort();
    }
    uint32x2_t D;
    for (int i = 0; i < 2; i++)
    {
        int64_t temp = (v.val[i] + (1 << (n - 1))) >> n;
        if (temp > UINT32_MAX)
        {
            temp = UINT32_MAX;
        }
        else if (temp < 0)
        {
            temp = 0;
        }
    }
    return D;
}
>> *)
Definition vqshrun_n_s64 : func := mkfunc "vqshrun_n_s64" (tvec U32 2)
  [("v", tvec I64 2); ("n", TScal I32)]
  (
    SIf (EOrElse ("n" < (lit 1)) ("n" > (lit 32)))%C (
      SAbort
    ) (
      SSkip
    ) ;;
    SDecl (tvec U32 2) "D" None ;;
    SFor I32 "i" (lit 0)%C ("i" < (lit 2))%C ("i" + (lit 1))%C (
      SDecl (TScal I64) "temp" (Some ((("v" @ "i") + ((lit 1) << ("n" - (lit 1)))) >> "n")%C) ;;
      SIf ("temp" > (ELit U32 4294967295))%C (
        SAssign "temp" []%C
          (ELit U32 4294967295)%C
      ) (
        SIf ("temp" < (lit 0))%C (
          SAssign "temp" []%C
            (lit 0)%C
        ) (
          SSkip
        )
      )
    ) ;;
    SReturn ("D")%C
  )%CS.

(** neon_sim.cpp:3939-3961
<<
uint8x8_t vqrshrun_n_s16(int16x8_t v, const int n)
{
    if (n < 1 || n > 8)
    {
        fprintf(stderr, '%s: param n not in range [1, 8]\n', __FUNCTION__);
        abort();
    }
    uint8x8_t D;
    for (int i = 0; i < 8; i++)
    {
        int16_t temp = (v.val[i] + (1 << (n - 1))) >> n;
        if (temp > UINT8_MAX)
        {
            temp = UINT8_MAX;
        }
        else if (temp < 0)
        {
            temp = 0;
        }
        D.val[i] = temp;
    }
    return D;
}
>> *)
Definition vqrshrun_n_s16 : func := mkfunc "vqrshrun_n_s16" (tvec U8 8)
  [("v", tvec I16 8); ("n", TScal I32)]
  (
    SIf (EOrElse ("n" < (lit 1)) ("n" > (lit 8)))%C (
      SAbort
    ) (
      SSkip
    ) ;;
    SDecl (tvec U8 8) "D" None ;;
    SFor I32 "i" (lit 0)%C ("i" < (lit 8))%C ("i" + (lit 1))%C (
      SDecl (TScal I16) "temp" (Some ((("v" @ "i") + ((lit 1) << ("n" - (lit 1)))) >> "n")%C) ;;
      SIf ("temp" > (lit 255))%C (
        SAssign "temp" []%C
          (lit 255)%C
      ) (
        SIf ("temp" < (lit 0))%C (
          SAssign "temp" []%C
            (lit 0)%C
        ) (
          SSkip
        )
      ) ;;
      SAssign "D" [EVar "i"]%C
        ("temp")%C
    ) ;;
    SReturn ("D")%C
  )%CS.

(** neon_sim.cpp:3963-3972
<<
uint8x8_t vrshrn_n_u16(uint16x8_t a, const int n)
{
    uint8x8_t r;
    const int delta = (1 << (n - 1));
    for (int i = 0; i < 8; i++)
    {
        r.val[i] =  (a.val[i] + delta) >> n;
    }
    return r;
}
>> *)
Definition vrshrn_n_u16 : func := mkfunc "vrshrn_n_u16" (tvec U8 8)
  [("a", tvec U16 8); ("n", TScal I32)]
  (
    SDecl (tvec U8 8) "r" None ;;
    SDecl (TScal I32) "delta" (Some ((lit 1) << ("n" - (lit 1)))%C) ;;
    SFor I32 "i" (lit 0)%C ("i" < (lit 8))%C ("i" + (lit 1))%C (
      SAssign "r" [EVar "i"]%C
        ((("a" @ "i") + "delta") >> "n")%C
    ) ;;
    SReturn ("r")%C
  )%CS.

(** neon_sim.cpp:3974-3982
<<
int32x4_t vsraq_n_s32(int32x4_t a, int32x4_t b, const int n)
{
    int32x4_t r;
    for (int i = 0; i < 4; i++)
    {
        r.val[i] =  (a.val[i] >> n) + (b.val[i] >> n);
    }
    return r;
}
>> *)
Definition vsraq_n_s32 : func := mkfunc "vsraq_n_s32" (tvec I32 4)
  [("a", tvec I32 4); ("b", tvec I32 4); ("n", TScal I32)]
  (
    SDecl (tvec I32 4) "r" None ;;
    SFor I32 "i" (lit 0)%C ("i" < (lit 4))%C ("i" + (lit 1))%C (
      SAssign "r" [EVar "i"]%C
        ((("a" @ "i") >> "n") + (("b" @ "i") >> "n"))%C
    ) ;;
    SReturn ("r")%C
  )%CS.

(** neon_sim.cpp:3985-3993
<<
int32x4_t vshlq_n_s32(int32x4_t M, const int n)
{
    int32x4_t D;
    for (int i = 0; i < 4; i++)
    {
        D.val[i] = M.val[i] << n;
    }
    return D;
}
>> *)
Definition vshlq_n_s32 : func := mkfunc "vshlq_n_s32" (tvec I32 4)
  [("M", tvec I32 4); ("n", TScal I32)]
  (
    SDecl (tvec I32 4) "D" None ;;
    SFor I32 "i" (lit 0)%C ("i" < (lit 4))%C ("i" + (lit 1))%C (
      SAssign "D" [EVar "i"]%C
        (("M" @ "i") << "n")%C
    ) ;;
    SReturn ("D")%C
  )%CS.

(** neon_sim.cpp:3995-4003
<<
uint16x8_t vshll_n_u8(uint8x8_t a, const int n)
{
    uint16x8_t r;
    for (int i = 0; i < 8; i++)
    {
        r.val[i] =  (uint16_t)a.val[i] << n;
    }
    return r;
}
>> *)
Definition vshll_n_u8 : func := mkfunc "vshll_n_u8" (tvec U16 8)
  [("a", tvec U8 8); ("n", TScal I32)]
  (
    SDecl (tvec U16 8) "r" None ;;
    SFor I32 "i" (lit 0)%C ("i" < (lit 8))%C ("i" + (lit 1))%C (
      SAssign "r" [EVar "i"]%C
        ((ECast U16 ("a" @ "i")) << "n")%C
    ) ;;
    SReturn ("r")%C
  )%CS.

(** neon_sim.cpp:4006-4011
<<
uint8x8_t vreinterpret_u8_s8(int8x8_t a)
{
    uint8x8_t r;
    memcpy(&r.val, &a.val, sizeof(uint8_t) * 8);
    return r;
}
>> *)
Definition vreinterpret_u8_s8 : func := mkfunc "vreinterpret_u8_s8" (tvec U8 8)
  [("a", tvec I8 8)]
  (
    SDecl (tvec U8 8) "r" None ;;
    SMemcpy "r" "a" ((ELit U64 1) * (lit 8))%C ;;
    SReturn ("r")%C
  )%CS.

(** neon_sim.cpp:4013-4018
<<
int16x8_t vreinterpretq_s16_u16(uint16x8_t a)
{
    int16x8_t r;
    memcpy(&r.val, &a.val, sizeof(int16_t) * 8);
    return r;
}
>> *)
Definition vreinterpretq_s16_u16 : func := mkfunc "vreinterpretq_s16_u16" (tvec I16 8)
  [("a", tvec U16 8)]
  (
    SDecl (tvec I16 8) "r" None ;;
    SMemcpy "r" "a" ((ELit U64 2) * (lit 8))%C ;;
    SReturn ("r")%C
  )%CS.

(** neon_sim.cpp:4020-4025
<<
uint16x8_t vreinterpretq_u16_s16(int16x8_t a)
{
    uint16x8_t r;
    memcpy(&r.val, &a.val, sizeof(uint16_t) * 8);
    return r;
}
>> *)
Definition vreinterpretq_u16_s16 : func := mkfunc "vreinterpretq_u16_s16" (tvec U16 8)
  [("a", tvec I16 8)]
  (
    SDecl (tvec U16 8) "r" None ;;
    SMemcpy "r" "a" ((ELit U64 2) * (lit 8))%C ;;
    SReturn ("r")%C
  )%CS.

(** neon_sim.cpp:4027-4032
<<
uint16x4_t vreinterpret_u16_u8(uint8x8_t a)
{
    uint16x4_t r;
    memcpy(&r.val, &a.val, sizeof(uint16_t) * 4);
    return r;
}
>> *)
Definition vreinterpret_u16_u8 : func := mkfunc "vreinterpret_u16_u8" (tvec U16 4)
  [("a", tvec U8 8)]
  (
    SDecl (tvec U16 4) "r" None ;;
    SMemcpy "r" "a" ((ELit U64 2) * (lit 4))%C ;;
    SReturn ("r")%C
  )%CS.

(** neon_sim.cpp:4034-4039
<<
uint32x2_t vreinterpret_u32_u16(uint16x4_t a)
{
    uint32x2_t r;
    memcpy(&r.val, &a.val, sizeof(uint32_t) * 2);
    return r;
}
>> *)
Definition vreinterpret_u32_u16 : func := mkfunc "vreinterpret_u32_u16" (tvec U32 2)
  [("a", tvec U16 4)]
  (
    SDecl (tvec U32 2) "r" None ;;
    SMemcpy "r" "a" ((ELit U64 4) * (lit 2))%C ;;
    SReturn ("r")%C
  )%CS.

(** neon_sim.cpp:4041-4046
<<
uint8x8_t vreinterpret_u8_u32(uint32x2_t a)
{
    uint8x8_t r;
    memcpy(&r.val, &a.val, sizeof(uint8_t) * 8);
    return r;
}
>> *)
Definition vreinterpret_u8_u32 : func := mkfunc "vreinterpret_u8_u32" (tvec U8 8)
  [("a", tvec U32 2)]
  (
    SDecl (tvec U8 8) "r" None ;;
    SMemcpy "r" "a" ((ELit U64 1) * (lit 8))%C ;;
    SReturn ("r")%C
  )%CS.

(** neon_sim.cpp:4048-4053
<<
uint32x2_t vreinterpret_u32_u8(uint8x8_t a)
{
    uint32x2_t r;
    memcpy(&r.val, &a.val, sizeof(uint32_t) * 2);
    return r;
}
>> *)
Definition vreinterpret_u32_u8 : func := mkfunc "vreinterpret_u32_u8" (tvec U32 2)
  [("a", tvec U8 8)]
  (
    SDecl (tvec U32 2) "r" None ;;
    SMemcpy "r" "a" ((ELit U64 4) * (lit 2))%C ;;
    SReturn ("r")%C
  )%CS.

(** neon_sim.cpp:4055-4060
<<
int8x8_t vreinterpret_s8_u8(uint8x8_t a)
{
    int8x8_t r;
    memcpy(&r.val, &a.val, sizeof(int8_t) * 8);
    return r;
}
>> *)
Definition vreinterpret_s8_u8 : func := mkfunc "vreinterpret_s8_u8" (tvec I8 8)
  [("a", tvec U8 8)]
  (
    SDecl (tvec I8 8) "r" None ;;
    SMemcpy "r" "a" ((ELit U64 1) * (lit 8))%C ;;
    SReturn ("r")%C
  )%CS.

(** neon_sim.cpp:4062-4067
<<
int32x2_t vreinterpret_s32_s16(int16x4_t a)
{
    int32x2_t r;
    memcpy(&r.val, &a.val, sizeof(int32_t) * 2);
    return r;
}
>> *)
Definition vreinterpret_s32_s16 : func := mkfunc "vreinterpret_s32_s16" (tvec I32 2)
  [("a", tvec I16 4)]
  (
    SDecl (tvec I32 2) "r" None ;;
    SMemcpy "r" "a" ((ELit U64 4) * (lit 2))%C ;;
    SReturn ("r")%C
  )%CS.

(** neon_sim.cpp:4069-4074
<<
int16x4_t vreinterpret_s16_s32(int32x2_t a)
{
    int16x4_t r;
    memcpy(&r.val, &a.val, sizeof(int16_t) * 4);
    return r;
}
>> *)
Definition vreinterpret_s16_s32 : func := mkfunc "vreinterpret_s16_s32" (tvec I16 4)
  [("a", tvec I32 2)]
  (
    SDecl (tvec I16 4) "r" None ;;
    SMemcpy "r" "a" ((ELit U64 2) * (lit 4))%C ;;
    SReturn ("r")%C
  )%CS.

(** neon_sim.cpp:4077-4082
<<
uint8x16_t vreinterpretq_u8_s8(int8x16_t a)
{
    uint8x16_t r;
    memcpy(&r.val, &a.val, sizeof(uint8_t) * 16);
    return r;
}
>> *)
Definition vreinterpretq_u8_s8 : func := mkfunc "vreinterpretq_u8_s8" (tvec U8 16)
  [("a", tvec I8 16)]
  (
    SDecl (tvec U8 16) "r" None ;;
    SMemcpy "r" "a" ((ELit U64 1) * (lit 16))%C ;;
    SReturn ("r")%C
  )%CS.

(** neon_sim.cpp:4084-4089
<<
uint8x16_t vreinterpretq_u8_s16(int16x8_t a)
{
    uint8x16_t r;
    memcpy(&r.val, &a.val, sizeof(uint8_t) * 16);
    return r;
}
>> *)
Definition vreinterpretq_u8_s16 : func := mkfunc "vreinterpretq_u8_s16" (tvec U8 16)
  [("a", tvec I16 8)]
  (
    SDecl (tvec U8 16) "r" None ;;
    SMemcpy "r" "a" ((ELit U64 1) * (lit 16))%C ;;
    SReturn ("r")%C
  )%CS.

(** neon_sim.cpp:4091-4096
<<
uint8x16_t vreinterpretq_u8_s32(int32x4_t a)
{
    uint8x16_t r;
    memcpy(&r.val, &a.val, sizeof(uint8_t) * 16);
    return r;
}
>> *)
Definition vreinterpretq_u8_s32 : func := mkfunc "vreinterpretq_u8_s32" (tvec U8 16)
  [("a", tvec I32 4)]
  (
    SDecl (tvec U8 16) "r" None ;;
    SMemcpy "r" "a" ((ELit U64 1) * (lit 16))%C ;;
    SReturn ("r")%C
  )%CS.

(** neon_sim.cpp:4098-4103
<<
uint8x16_t vreinterpretq_u8_f32(float32x4_t a)
{
    uint8x16_t r;
    memcpy(&r.val, &a.val, sizeof(uint8_t) * 16);
    return r;
}
>> *)
Definition vreinterpretq_u8_f32 : func := mkfunc "vreinterpretq_u8_f32" (tvec U8 16)
  [("a", tvec F32 4)]
  (
    SDecl (tvec U8 16) "r" None ;;
    SMemcpy "r" "a" ((ELit U64 1) * (lit 16))%C ;;
    SReturn ("r")%C
  )%CS.

(** neon_sim.cpp:4105-4110
<<
uint8x16_t vreinterpretq_u8_u16(uint16x8_t a)
{
    uint8x16_t r;
    memcpy(&r.val, &a.val, sizeof(uint8_t) * 16);
    return r;
}
>> *)
Definition vreinterpretq_u8_u16 : func := mkfunc "vreinterpretq_u8_u16" (tvec U8 16)
  [("a", tvec U16 8)]
  (
    SDecl (tvec U8 16) "r" None ;;
    SMemcpy "r" "a" ((ELit U64 1) * (lit 16))%C ;;
    SReturn ("r")%C
  )%CS.

(** neon_sim.cpp:4112-4117
<<
uint8x16_t vreinterpretq_u8_u32(uint32x4_t a)
{
    uint8x16_t r;
    memcpy(&r.val, &a.val, sizeof(uint8_t) * 16);
    return r;
}
>> *)
Definition vreinterpretq_u8_u32 : func := mkfunc "vreinterpretq_u8_u32" (tvec U8 16)
  [("a", tvec U32 4)]
  (
    SDecl (tvec U8 16) "r" None ;;
    SMemcpy "r" "a" ((ELit U64 1) * (lit 16))%C ;;
    SReturn ("r")%C
  )%CS.

(** neon_sim.cpp:4119-4124
<<
uint8x16_t vreinterpretq_u8_u64(uint64x2_t a)
{
    uint8x16_t r;
    memcpy(&r.val, &a.val, sizeof(uint8_t) * 16);
    return r;
}
>> *)
Definition vreinterpretq_u8_u64 : func := mkfunc "vreinterpretq_u8_u64" (tvec U8 16)
  [("a", tvec U64 2)]
  (
    SDecl (tvec U8 16) "r" None ;;
    SMemcpy "r" "a" ((ELit U64 1) * (lit 16))%C ;;
    SReturn ("r")%C
  )%CS.

(** neon_sim.cpp:4126-4131
<<
uint8x16_t vreinterpretq_u8_s64(int64x2_t a)
{
    uint8x16_t r;
    memcpy(&r.val, &a.val, sizeof(uint8_t) * 16);
    return r;
}
>> *)
Definition vreinterpretq_u8_s64 : func := mkfunc "vreinterpretq_u8_s64" (tvec U8 16)
  [("a", tvec I64 2)]
  (
    SDecl (tvec U8 16) "r" None ;;
    SMemcpy "r" "a" ((ELit U64 1) * (lit 16))%C ;;
    SReturn ("r")%C
  )%CS.

(** neon_sim.cpp:4140-4145
<<
uint8x16_t vreinterpretq_u8_f64(float64x2_t a)
{
    uint8x16_t r;
    memcpy(&r.val, &a.val, sizeof(uint8_t) * 16);
    return r;
}
>> *)
Definition vreinterpretq_u8_f64 : func := mkfunc "vreinterpretq_u8_f64" (tvec U8 16)
  [("a", tvec F64 2)]
  (
    SDecl (tvec U8 16) "r" None ;;
    SMemcpy "r" "a" ((ELit U64 1) * (lit 16))%C ;;
    SReturn ("r")%C
  )%CS.

(** neon_sim.cpp:4148-4153
<<
uint32x4_t vreinterpretq_u32_s8(int8x16_t a)
{
    uint32x4_t r;
    memcpy(&r.val, &a.val, sizeof(uint32_t) * 4);
    return r;
}
>> *)
Definition vreinterpretq_u32_s8 : func := mkfunc "vreinterpretq_u32_s8" (tvec U32 4)
  [("a", tvec I8 16)]
  (
    SDecl (tvec U32 4) "r" None ;;
    SMemcpy "r" "a" ((ELit U64 4) * (lit 4))%C ;;
    SReturn ("r")%C
  )%CS.

(** neon_sim.cpp:4155-4160
<<
uint32x4_t vreinterpretq_u32_s16(int16x8_t a)
{
    uint32x4_t r;
    memcpy(&r.val, &a.val, sizeof(uint32_t) * 4);
    return r;
}
>> *)
Definition vreinterpretq_u32_s16 : func := mkfunc "vreinterpretq_u32_s16" (tvec U32 4)
  [("a", tvec I16 8)]
  (
    SDecl (tvec U32 4) "r" None ;;
    SMemcpy "r" "a" ((ELit U64 4) * (lit 4))%C ;;
    SReturn ("r")%C
  )%CS.

(** neon_sim.cpp:4162-4167
<<
uint32x4_t vreinterpretq_u32_s32(int32x4_t a)
{
    uint32x4_t r;
    memcpy(&r.val, &a.val, sizeof(uint32_t) * 4);
    return r;
}
>> *)
Definition vreinterpretq_u32_s32 : func := mkfunc "vreinterpretq_u32_s32" (tvec U32 4)
  [("a", tvec I32 4)]
  (
    SDecl (tvec U32 4) "r" None ;;
    SMemcpy "r" "a" ((ELit U64 4) * (lit 4))%C ;;
    SReturn ("r")%C
  )%CS.

(** neon_sim.cpp:4169-4174
<<
uint32x4_t vreinterpretq_u32_f32(float32x4_t a)
{
    uint32x4_t r;
    memcpy(&r.val, &a.val, sizeof(uint32_t) * 4);
    return r;
}
>> *)
Definition vreinterpretq_u32_f32 : func := mkfunc "vreinterpretq_u32_f32" (tvec U32 4)
  [("a", tvec F32 4)]
  (
    SDecl (tvec U32 4) "r" None ;;
    SMemcpy "r" "a" ((ELit U64 4) * (lit 4))%C ;;
    SReturn ("r")%C
  )%CS.

(** neon_sim.cpp:4176-4181
<<
uint32x4_t vreinterpretq_u32_u8(uint8x16_t a)
{
    uint32x4_t r;
    memcpy(&r.val, &a.val, sizeof(uint32_t) * 4);
    return r;
}
>> *)
Definition vreinterpretq_u32_u8 : func := mkfunc "vreinterpretq_u32_u8" (tvec U32 4)
  [("a", tvec U8 16)]
  (
    SDecl (tvec U32 4) "r" None ;;
    SMemcpy "r" "a" ((ELit U64 4) * (lit 4))%C ;;
    SReturn ("r")%C
  )%CS.

(** neon_sim.cpp:4183-4188
<<
uint32x4_t vreinterpretq_u32_u16(uint16x8_t a)
{
    uint32x4_t r;
    memcpy(&r.val, &a.val, sizeof(uint32_t) * 4);
    return r;
}
>> *)
Definition vreinterpretq_u32_u16 : func := mkfunc "vreinterpretq_u32_u16" (tvec U32 4)
  [("a", tvec U16 8)]
  (
    SDecl (tvec U32 4) "r" None ;;
    SMemcpy "r" "a" ((ELit U64 4) * (lit 4))%C ;;
    SReturn ("r")%C
  )%CS.

(** neon_sim.cpp:4190-4195
<<
uint32x4_t vreinterpretq_u32_u64(uint64x2_t a)
{
    uint32x4_t r;
    memcpy(&r.val, &a.val, sizeof(uint32_t) * 4);
    return r;
}
>> *)
Definition vreinterpretq_u32_u64 : func := mkfunc "vreinterpretq_u32_u64" (tvec U32 4)
  [("a", tvec U64 2)]
  (
    SDecl (tvec U32 4) "r" None ;;
    SMemcpy "r" "a" ((ELit U64 4) * (lit 4))%C ;;
    SReturn ("r")%C
  )%CS.

(** neon_sim.cpp:4197-4202
<<
uint32x4_t vreinterpretq_u32_s64(int64x2_t a)
{
    uint32x4_t r;
    memcpy(&r.val, &a.val, sizeof(uint32_t) * 4);
    return r;
}
>> *)
Definition vreinterpretq_u32_s64 : func := mkfunc "vreinterpretq_u32_s64" (tvec U32 4)
  [("a", tvec I64 2)]
  (
    SDecl (tvec U32 4) "r" None ;;
    SMemcpy "r" "a" ((ELit U64 4) * (lit 4))%C ;;
    SReturn ("r")%C
  )%CS.

(** neon_sim.cpp:4211-4216
<<
uint32x4_t vreinterpretq_u32_f64(float64x2_t a)
{
    uint32x4_t r;
    memcpy(&r.val, &a.val, sizeof(uint32_t) * 4);
    return r;
}
>> *)
Definition vreinterpretq_u32_f64 : func := mkfunc "vreinterpretq_u32_f64" (tvec U32 4)
  [("a", tvec F64 2)]
  (
    SDecl (tvec U32 4) "r" None ;;
    SMemcpy "r" "a" ((ELit U64 4) * (lit 4))%C ;;
    SReturn ("r")%C
  )%CS.

(** neon_sim.cpp:4218-4226
<<
float32x4_t vcvtq_f32_s32(int32x4_t a)
{
    float32x4_t r;
    for (int i = 0; i < 4; i++)
    {
        r.val[i] =  a.val[i];
    }
    return r;
}
>> *)
Definition vcvtq_f32_s32 : func := mkfunc "vcvtq_f32_s32" (tvec F32 4)
  [("a", tvec I32 4)]
  (
    SDecl (tvec F32 4) "r" None ;;
    SFor I32 "i" (lit 0)%C ("i" < (lit 4))%C ("i" + (lit 1))%C (
      SAssign "r" [EVar "i"]%C
        ("a" @ "i")%C
    ) ;;
    SReturn ("r")%C
  )%CS.

(** neon_sim.cpp:4228-4236
<<
int32x4_t vcvtq_s32_f32(float32x4_t a)
{
    int32x4_t r;
    for (int i = 0; i < 4; i++)
    {
        r.val[i] =  a.val[i];
    }
    return r;
}
>> *)
Definition vcvtq_s32_f32 : func := mkfunc "vcvtq_s32_f32" (tvec I32 4)
  [("a", tvec F32 4)]
  (
    SDecl (tvec I32 4) "r" None ;;
    SFor I32 "i" (lit 0)%C ("i" < (lit 4))%C ("i" + (lit 1))%C (
      SAssign "r" [EVar "i"]%C
        ("a" @ "i")%C
    ) ;;
    SReturn ("r")%C
  )%CS.

(** neon_sim.cpp:4238-4246
<<
uint32x4_t vcvtq_u32_f32(float32x4_t a)
{
    uint32x4_t r;
    for (int i = 0; i < 4; i++)
    {
        r.val[i] =  a.val[i];
    }
    return r;
}
>> *)
Definition vcvtq_u32_f32 : func := mkfunc "vcvtq_u32_f32" (tvec U32 4)
  [("a", tvec F32 4)]
  (
    SDecl (tvec U32 4) "r" None ;;
    SFor I32 "i" (lit 0)%C ("i" < (lit 4))%C ("i" + (lit 1))%C (
      SAssign "r" [EVar "i"]%C
        ("a" @ "i")%C
    ) ;;
    SReturn ("r")%C
  )%CS.

(** neon_sim.cpp:4248-4256
<<
int32x4_t vcvtnq_s32_f32(float32x4_t a)
{
    int32x4_t r;
    for (int i = 0; i < 4; i++)
    {
        r.val[i] =  a.val[i];
    }
    return r;
}
>> *)
Definition vcvtnq_s32_f32 : func := mkfunc "vcvtnq_s32_f32" (tvec I32 4)
  [("a", tvec F32 4)]
  (
    SDecl (tvec I32 4) "r" None ;;
    SFor I32 "i" (lit 0)%C ("i" < (lit 4))%C ("i" + (lit 1))%C (
      SAssign "r" [EVar "i"]%C
        ("a" @ "i")%C
    ) ;;
    SReturn ("r")%C
  )%CS.

(** neon_sim.cpp:4334-4342
<<
float32x4_t vrecpeq_f32(float32x4_t N)
{
    float32x4_t D;
    for (int i = 0; i < 4; i++)
    {
        D.val[i] = FPRecipEstimate(N.val[i]);
    }
    return D;
}
>> *)
Definition vrecpeq_f32 : func := mkfunc "vrecpeq_f32" (tvec F32 4)
  [("N", tvec F32 4)]
  (
    SDecl (tvec F32 4) "D" None ;;
    SFor I32 "i" (lit 0)%C ("i" < (lit 4))%C ("i" + (lit 1))%C (
      SAssign "D" [EVar "i"]%C
        (ECall "FPRecipEstimate" ("N" @ "i"))%C
    ) ;;
    SReturn ("D")%C
  )%CS.

(** neon_sim.cpp:4344-4352
<<
float32x4_t vrecpsq_f32(float32x4_t a, float32x4_t b)
{
    float32x4_t r;
    for (int i = 0; i < 4; i++)
    {
        r.val[i] =  2.0 - (a.val[i] * b.val[i]);
    }
    return r;
}
>> *)
Definition vrecpsq_f32 : func := mkfunc "vrecpsq_f32" (tvec F32 4)
  [("a", tvec F32 4); ("b", tvec F32 4)]
  (
    SDecl (tvec F32 4) "r" None ;;
    SFor I32 "i" (lit 0)%C ("i" < (lit 4))%C ("i" + (lit 1))%C (
      SAssign "r" [EVar "i"]%C
        ((ELit F64 4611686018427387904) - (("a" @ "i") * ("b" @ "i")))%C
    ) ;;
    SReturn ("r")%C
  )%CS.
