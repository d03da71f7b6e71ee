(** Which functions make up each family of intrinsics: [(function, element
    type, number of lanes)].  Used in the statements of the theorems. *)
From Coq Require Import ZArith List.
From Verif Require Import Types Syntax Interp ProgRecip Spec ExecLemmas.
From Verif Require Import ProgLoad ProgStore ProgAdd ProgSub ProgMul ProgShift ProgPerm ProgBit ProgRev.
Import ListNotations.
Open Scope nat_scope.

(** Lane arithmetic in type [t] cannot overflow undefinedly: the compiler wraps
    ([-fwrapv]), or the type is unsigned, or it is narrower than [int] (and the
    operation is an addition or subtraction, computed in [int]). *)
Definition modular (c : cfg) (t : sty) : Prop :=
  wrapv c = true \/ is_signed t = false \/ (width t < 32)%Z.

(** A memory in which the segment [cells] of a block of elements of type [t] is
    singled out: [pre] and [post] are the elements before and after it in the same
    block, [m1] and [m2] the other blocks. *)
Definition heap (m1 : memory) (t : sty) (pre cells post : list (option Z)) (m2 : memory) : memory :=
  m1 ++ (t, pre ++ cells ++ post) :: m2.
(** The pointer to the beginning of that segment. *)
Definition pointer (m1 : memory) (t : sty) (pre : list (option Z)) : obj :=
  OPtr t (List.length m1) (Z.of_nat (List.length pre)).

(** vadd_T, vaddq_T on integers *)
Definition vadd_table : list (func * sty * nat) :=
  [ (vadd_s8, I8, 8); (vadd_s16, I16, 4); (vadd_s32, I32, 2); (vadd_s64, I64, 1);
    (vadd_u8, U8, 8); (vadd_u16, U16, 4); (vadd_u32, U32, 2); (vadd_u64, U64, 1);
    (vaddq_s8, I8, 16); (vaddq_s16, I16, 8); (vaddq_s32, I32, 4); (vaddq_s64, I64, 2);
    (vaddq_u8, U8, 16); (vaddq_u16, U16, 8); (vaddq_u32, U32, 4); (vaddq_u64, U64, 2) ].

(** vsub_T, vsubq_T on integers *)
Definition vsub_table : list (func * sty * nat) :=
  [ (vsub_s8, I8, 8); (vsub_s16, I16, 4); (vsub_s32, I32, 2); (vsub_s64, I64, 1);
    (vsub_u8, U8, 8); (vsub_u16, U16, 4); (vsub_u32, U32, 2); (vsub_u64, U64, 1);
    (vsubq_s8, I8, 16); (vsubq_s16, I16, 8); (vsubq_s32, I32, 4); (vsubq_s64, I64, 2);
    (vsubq_u8, U8, 16); (vsubq_u16, U16, 8); (vsubq_u32, U32, 4); (vsubq_u64, U64, 2) ].

(** [(function, narrow element type, lanes)]: the result and, for the w forms,
    the first operand have elements of type [wide t]. *)
Definition vaddl_table : list (func * sty * nat) := [ (vaddl_u8, U8, 8) ].

Definition vaddw_table : list (func * sty * nat) :=
  [ (vaddw_s8, I8, 8); (vaddw_s16, I16, 4); (vaddw_s32, I32, 2);
    (vaddw_u8, U8, 8); (vaddw_u16, U16, 4); (vaddw_u32, U32, 2) ].

Definition vsubl_table : list (func * sty * nat) :=
  [ (vsubl_s8, I8, 8); (vsubl_s16, I16, 4); (vsubl_u8, U8, 8); (vsubl_u16, U16, 4) ].

Definition vsubw_table : list (func * sty * nat) :=
  [ (vsubw_s8, I8, 8); (vsubw_s16, I16, 4); (vsubw_s32, I32, 2);
    (vsubw_u8, U8, 8); (vsubw_u16, U16, 4); (vsubw_u32, U32, 2) ].

(** Saturating subtraction and addition. *)
Definition vqsub_table : list (func * sty * nat) :=
  [ (vqsub_s8, I8, 8); (vqsub_s16, I16, 4); (vqsub_s32, I32, 2);
    (vqsub_u8, U8, 8); (vqsub_u16, U16, 4); (vqsub_u32, U32, 2);
    (vqsubq_s8, I8, 16); (vqsubq_s16, I16, 8); (vqsubq_s32, I32, 4);
    (vqsubq_u8, U8, 16); (vqsubq_u16, U16, 8); (vqsubq_u32, U32, 4) ].

Definition vqadd_table : list (func * sty * nat) := [ (vqadd_u8, U8, 8); (vqaddq_u8, U8, 16) ].

(** Halving subtraction. *)
Definition vhsub_table : list (func * sty * nat) :=
  [ (vhsub_s8, I8, 8); (vhsub_s16, I16, 4); (vhsub_s32, I32, 2);
    (vhsub_u8, U8, 8); (vhsub_u16, U16, 4); (vhsub_u32, U32, 2);
    (vhsubq_s8, I8, 16); (vhsubq_s16, I16, 8); (vhsubq_s32, I32, 4);
    (vhsubq_u8, U8, 16); (vhsubq_u16, U16, 8); (vhsubq_u32, U32, 4) ].

(** Subtraction returning the high half: [(function, operand type, lanes)]. *)
Definition vsubhn_table : list (func * sty * nat) := [ (vsubhn_s16, I16, 8); (vsubhn_u16, U16, 8) ].

Definition vrsubhn_table : list (func * sty * nat) :=
  [ (vrsubhn_s16, I16, 8); (vrsubhn_s32, I32, 4); (vrsubhn_u16, U16, 8); (vrsubhn_u32, U32, 4) ].

Definition vrsubhn64_table : list (func * sty * nat) :=
  [ (vrsubhn_s64, I64, 2); (vrsubhn_u64, U64, 2) ].

(** [(function, narrow type, lanes of the result)]; the narrow operands have
    twice as many lanes and the upper half is used. *)
Definition vaddw_high_table : list (func * sty * nat) :=
  [ (vaddw_high_s8, I8, 8); (vaddw_high_s16, I16, 4); (vaddw_high_s32, I32, 2);
    (vaddw_high_u8, U8, 8); (vaddw_high_u16, U16, 4); (vaddw_high_u32, U32, 2) ].

(** The members that are exact (8- and 16-bit lanes)... *)
Definition vaddl_high_table : list (func * sty * nat) :=
  [ (vaddl_high_s8, I8, 8); (vaddl_high_s16, I16, 4);
    (vaddl_high_u8, U8, 8); (vaddl_high_u16, U16, 4) ].
(** ... and the 32-bit ones, which add in 32 bits. *)
Definition vaddl_high32_table : list (func * sty * nat) :=
  [ (vaddl_high_s32, I32, 2); (vaddl_high_u32, U32, 2) ].

(** [(function, operand type, operand lanes)], correct and incorrect members *)
Definition vaddhn_high_table : list (func * sty * nat) :=
  [ (vaddhn_high_s16, I16, 8); (vaddhn_high_u16, U16, 8) ].
Definition vaddhn_high_bad_table : list (func * sty * nat) :=
  [ (vaddhn_high_s32, I32, 4); (vaddhn_high_s64, I64, 2);
    (vaddhn_high_u32, U32, 4); (vaddhn_high_u64, U64, 2) ].

(** [(function, narrow type, lanes of the result)] *)
Definition vpaddl_table : list (func * sty * nat) :=
  [ (vpaddl_u8, U8, 4); (vpaddlq_u8, U8, 8); (vpaddlq_u16, U16, 4) ].

Definition vsubl32_table : list (func * sty * nat) := [ (vsubl_s32, I32, 2); (vsubl_u32, U32, 2) ].

(** vsubn_T, the misnamed vsubhn_T of 32- and 64-bit lanes *)
Definition vsubn_table : list (func * sty * nat) :=
  [ (vsubn_s32, I32, 4); (vsubn_s64, I64, 2); (vsubn_u32, U32, 4); (vsubn_u64, U64, 2) ].

(** The same for products: of 8-bit and signed 16-bit lanes they fit in [int];
    of unsigned 16-bit lanes, computed in [int], they may not. *)
Definition mul_modular (c : cfg) (t : sty) : Prop :=
  (t = I8 \/ t = U8 \/ t = I16) \/ t = U32 \/ wrapv c = true.

(** vmul_T, vmulq_T on integers *)
Definition vmul_table : list (func * sty * nat) :=
  [ (vmul_s8, I8, 8); (vmul_s16, I16, 4); (vmul_s32, I32, 2);
    (vmul_u8, U8, 8); (vmul_u16, U16, 4); (vmul_u32, U32, 2);
    (vmulq_s8, I8, 16); (vmulq_s16, I16, 8); (vmulq_s32, I32, 4);
    (vmulq_u8, U8, 16); (vmulq_u16, U16, 8); (vmulq_u32, U32, 4) ].

(** vector by scalar *)
Definition vmul_n_table : list (func * sty * nat) :=
  [ (vmul_n_s16, I16, 4); (vmul_n_s32, I32, 2); (vmul_n_u16, U16, 4); (vmul_n_u32, U32, 2);
    (vmulq_n_s16, I16, 8); (vmulq_n_s32, I32, 4); (vmulq_n_u16, U16, 8); (vmulq_n_u32, U32, 4) ].

(** [(function, narrow type, lanes)]; the result has elements of type [wide t]. *)
Definition vmull_table : list (func * sty * nat) :=
  [ (vmull_s8, I8, 8); (vmull_s16, I16, 4); (vmull_s32, I32, 2);
    (vmull_u8, U8, 8); (vmull_u16, U16, 4); (vmull_u32, U32, 2) ].

Definition vmull_n_table : list (func * sty * nat) :=
  [ (vmull_n_s16, I16, 4); (vmull_n_s32, I32, 2); (vmull_n_u16, U16, 4); (vmull_n_u32, U32, 2) ].

Definition vmlal_table : list (func * sty * nat) :=
  [ (vmlal_s8, I8, 8); (vmlal_s16, I16, 4); (vmlal_s32, I32, 2);
    (vmlal_u8, U8, 8); (vmlal_u16, U16, 4); (vmlal_u32, U32, 2) ].

Definition vmlsl_table : list (func * sty * nat) :=
  [ (vmlsl_s8, I8, 8); (vmlsl_s16, I16, 4); (vmlsl_s32, I32, 2);
    (vmlsl_u8, U8, 8); (vmlsl_u16, U16, 4); (vmlsl_u32, U32, 2) ].

Definition vmlaq_table : list (func * sty * nat) :=
  [ (vmlaq_s8, I8, 16); (vmlaq_s16, I16, 8); (vmlaq_s32, I32, 4);
    (vmlaq_u8, U8, 16); (vmlaq_u16, U16, 8); (vmlaq_u32, U32, 4) ].

(** The integer max/min; [vmaxq_u8] and the other unsigned names are declared on
    signed vectors in neon_sim.cpp, so they are listed with the signed type. *)
Definition vmax_table : list (func * sty * nat) :=
  [ (vmaxq_s8, I8, 16); (vmaxq_s16, I16, 8); (vmaxq_s32, I32, 4) ].
Definition vmax_u_table : list (func * sty * nat) :=
  [ (vmaxq_u8, I8, 16); (vmaxq_u16, I16, 8); (vmaxq_u32, I32, 4) ].
Definition vmin_table : list (func * sty * nat) :=
  [ (vminq_s8, I8, 16); (vminq_s16, I16, 8); (vminq_s32, I32, 4) ].
Definition vmin_u_table : list (func * sty * nat) :=
  [ (vminq_u8, I8, 16); (vminq_u16, I16, 8); (vminq_u32, I32, 4) ].

(** Broadcast *)
Definition vdup_table : list (func * sty * nat) :=
  [ (vdup_n_s8, I8, 8); (vdup_n_s16, I16, 4); (vdup_n_s32, I32, 2); (vdup_n_s64, I64, 1);
    (vdup_n_u8, U8, 8); (vdup_n_u16, U16, 4); (vdup_n_u32, U32, 2); (vdup_n_u64, U64, 1);
    (vdupq_n_u8, U8, 16); (vdupq_n_s8, I8, 16); (vdupq_n_u16, U16, 8); (vdupq_n_s16, I16, 8);
    (vdupq_n_u32, U32, 4); (vdupq_n_s32, I32, 4); (vdupq_n_f32, F32, 4); (vmovq_n_f32, F32, 4) ].

(** Halves: [(function, element type, lanes of the result)] *)
Definition vget_low_table : list (func * sty * nat) :=
  [ (vget_low_f32, F32, 2); (vget_low_s32, I32, 2); (vget_low_u32, U32, 2); (vget_low_s16, I16, 4);
    (vget_low_u16, U16, 4); (vget_low_s8, I8, 8); (vget_low_u8, U8, 8) ].
Definition vget_high_table : list (func * sty * nat) :=
  [ (vget_high_f32, F32, 2); (vget_high_s32, I32, 2); (vget_high_u32, U32, 2); (vget_high_s16, I16, 4);
    (vget_high_u16, U16, 4); (vget_high_s8, I8, 8); (vget_high_u8, U8, 8) ].

(** Immediate shifts: [(function, operand type, lanes)] *)
Definition vshrn_table : list (func * sty * nat) :=
  [ (vshrn_n_s16, I16, 8); (vshrn_n_s32, I32, 4); (vshrn_n_s64, I64, 2);
    (vshrn_n_u16, U16, 8); (vshrn_n_u32, U32, 4); (vshrn_n_u64, U64, 2) ].
(** all of vqshrn_n_T but the s64 one *)
Definition vqshrn_table : list (func * sty * nat) :=
  [ (vqshrn_n_s16, I16, 8); (vqshrn_n_s32, I32, 4);
    (vqshrn_n_u16, U16, 8); (vqshrn_n_u32, U32, 4); (vqshrn_n_u64, U64, 2) ].

(** Bitwise operations.  [ver_u32] is the definition of what the header calls veor_u32. *)
Definition vand_table : list (func * sty * nat) :=
  [ (vand_s8, I8, 8); (vand_s16, I16, 4); (vand_s32, I32, 2); (vand_s64, I64, 1); (vand_u8, U8, 8);
    (vand_u16, U16, 4); (vand_u32, U32, 2); (vand_u64, U64, 1); (vandq_s8, I8, 16); (vandq_s16, I16, 8);
    (vandq_s32, I32, 4); (vandq_s64, I64, 2); (vandq_u8, U8, 16); (vandq_u16, U16, 8); (vandq_u32, U32, 4);
    (vandq_u64, U64, 2) ].
Definition vorr_table : list (func * sty * nat) :=
  [ (vorr_s8, I8, 8); (vorr_s16, I16, 4); (vorr_s32, I32, 2); (vorr_s64, I64, 1); (vorr_u8, U8, 8);
    (vorr_u16, U16, 4); (vorr_u32, U32, 2); (vorr_u64, U64, 1); (vorrq_s8, I8, 16); (vorrq_s16, I16, 8);
    (vorrq_s32, I32, 4); (vorrq_s64, I64, 2); (vorrq_u8, U8, 16); (vorrq_u16, U16, 8); (vorrq_u32, U32, 4);
    (vorrq_u64, U64, 2) ].
Definition veor_table : list (func * sty * nat) :=
  [ (veor_s8, I8, 8); (veor_s16, I16, 4); (veor_s32, I32, 2); (veor_s64, I64, 1); (veor_u8, U8, 8);
    (veor_u16, U16, 4); (veor_u64, U64, 1); (veorq_s8, I8, 16); (veorq_s16, I16, 8); (veorq_s32, I32, 4);
    (veorq_s64, I64, 2); (veorq_u8, U8, 16); (veorq_u16, U16, 8); (veorq_u32, U32, 4); (veorq_u64, U64, 2);
    (ver_u32, U32, 2) ].
Definition vmvn_table : list (func * sty * nat) :=
  [ (vmvn_s8, I8, 8); (vmvn_s16, I16, 4); (vmvn_s32, I32, 2); (vmvn_u8, U8, 8); (vmvn_u16, U16, 4);
    (vmvn_u32, U32, 2); (vmvnq_s8, I8, 16); (vmvnq_s16, I16, 8); (vmvnq_s32, I32, 4); (vmvnq_u8, U8, 16);
    (vmvnq_u16, U16, 8); (vmvnq_u32, U32, 4) ].

(** Widening and narrowing moves: [(function, source type, lanes)] *)
Definition vmovl_table : list (func * sty * nat) :=
  [ (vmovl_s8, I8, 8); (vmovl_s16, I16, 4); (vmovl_s32, I32, 2);
    (vmovl_u8, U8, 8); (vmovl_u16, U16, 4); (vmovl_u32, U32, 2) ].
Definition vmovn_table : list (func * sty * nat) :=
  [ (vmovn_s32, I32, 4); (vmovn_u32, U32, 4); (vmovn_u16, U16, 8) ].

(** Permutations: [(function, element type, lanes)] *)
Definition vtrn_table : list (func * sty * nat) :=
  [ (vtrn_s8, I8, 8); (vtrn_u8, U8, 8); (vtrn_s16, I16, 4); (vtrn_u16, U16, 4); (vtrn_s32, I32, 2);
    (vtrn_u32, U32, 2); (vtrnq_u16, U16, 8); (vtrnq_u32, U32, 4); (vtrnq_s16, I16, 8) ].
Definition vzip_table : list (func * sty * nat) := [ (vzip_s16, I16, 4); (vzip_s8, I8, 8); (vzip_u8, U8, 8) ].
Definition vuzp_table : list (func * sty * nat) := [ (vuzp_u8, U8, 8); (vuzp_s8, I8, 8) ].
(** lanes of the arguments *)
Definition vcombine_table : list (func * sty * nat) :=
  [ (vcombine_u8, U8, 8); (vcombine_u16, U16, 4); (vcombine_u32, U32, 2);
    (vcombine_s8, I8, 8); (vcombine_s16, I16, 4); (vcombine_s32, I32, 2) ].
Definition vext_table : list (func * sty * nat) :=
  [ (vext_u8, U8, 8); (vext_u16, U16, 4); (vext_s16, I16, 4); (vextq_u16, U16, 8) ].

(** Reversal within 16-, 32- and 64-bit groups; the three incorrect members
    vrev32_s8, vrev64q_s8, vrev64q_s16 are not in the tables. *)
Definition vrev16_table : list (func * sty * nat) :=
  [ (vrev16_s8, I8, 8); (vrev16_u8, U8, 8); (vrev16q_s8, I8, 16); (vrev16q_u8, U8, 16) ].
Definition vrev32_table : list (func * sty * nat) :=
  [ (vrev32_s16, I16, 4); (vrev32_u8, U8, 8); (vrev32_u16, U16, 4); (vrev32q_s8, I8, 16);
    (vrev32q_s16, I16, 8); (vrev32q_u8, U8, 16); (vrev32q_u16, U16, 8) ].
Definition vrev64_table : list (func * sty * nat) :=
  [ (vrev64_s8, I8, 8); (vrev64_s16, I16, 4); (vrev64_s32, I32, 2); (vrev64_u8, U8, 8); (vrev64_u16, U16, 4);
    (vrev64_u32, U32, 2); (vrev64_f32, F32, 2); (vrev64q_s32, I32, 4); (vrev64q_u8, U8, 16);
    (vrev64q_u16, U16, 8); (vrev64q_u32, U32, 4); (vrev64q_f32, F32, 4) ].

(** Reinterpretation: [((function, from type, lanes), to type, lanes)] *)
Definition vreinterpret_table : list ((func * sty * nat) * sty * nat) :=
  [ (vreinterpret_u8_s8, I8, 8, U8, 8); (vreinterpretq_s16_u16, U16, 8, I16, 8);
    (vreinterpretq_u16_s16, I16, 8, U16, 8); (vreinterpret_u16_u8, U8, 8, U16, 4);
    (vreinterpret_u32_u16, U16, 4, U32, 2); (vreinterpret_u8_u32, U32, 2, U8, 8);
    (vreinterpret_u32_u8, U8, 8, U32, 2); (vreinterpret_s8_u8, U8, 8, I8, 8);
    (vreinterpret_s32_s16, I16, 4, I32, 2); (vreinterpret_s16_s32, I32, 2, I16, 4);
    (vreinterpretq_u8_s8, I8, 16, U8, 16); (vreinterpretq_u8_s16, I16, 8, U8, 16);
    (vreinterpretq_u8_s32, I32, 4, U8, 16); (vreinterpretq_u8_f32, F32, 4, U8, 16);
    (vreinterpretq_u8_u16, U16, 8, U8, 16); (vreinterpretq_u8_u32, U32, 4, U8, 16);
    (vreinterpretq_u8_u64, U64, 2, U8, 16); (vreinterpretq_u8_s64, I64, 2, U8, 16);
    (vreinterpretq_u8_f64, F64, 2, U8, 16); (vreinterpretq_u32_s8, I8, 16, U32, 4);
    (vreinterpretq_u32_s16, I16, 8, U32, 4); (vreinterpretq_u32_s32, I32, 4, U32, 4);
    (vreinterpretq_u32_f32, F32, 4, U32, 4); (vreinterpretq_u32_u8, U8, 16, U32, 4);
    (vreinterpretq_u32_u16, U16, 8, U32, 4); (vreinterpretq_u32_u64, U64, 2, U32, 4);
    (vreinterpretq_u32_s64, I64, 2, U32, 4); (vreinterpretq_u32_f64, F64, 2, U32, 4) ].

(** Lane extraction: the unchecked functions (vgetq_lane_f32 is separate) *)
Definition vget_lane_table : list (func * sty * nat) :=
  [ (vget_lane_f32, F32, 2); (vgetq_lane_u8, U8, 16); (vgetq_lane_u16, U16, 8); (vgetq_lane_u32, U32, 4);
    (vgetq_lane_u64, U64, 2); (vgetq_lane_s8, I8, 16); (vgetq_lane_s16, I16, 8); (vgetq_lane_s32, I32, 4);
    (vgetq_lane_s64, I64, 2); (vgetq_lane_f64, F64, 2) ].

(** ** Loads and stores: [(function, element type, lanes)] *)

(** vld1_T, vld1q_T *)
Definition vld1_table : list (func * sty * nat) :=
  [ (vld1_u8, U8, 8); (vld1_s8, I8, 8); (vld1_u16, U16, 4); (vld1_s16, I16, 4);
    (vld1_u32, U32, 2); (vld1_u64, U64, 1); (vld1_s32, I32, 2); (vld1_s64, I64, 1);
    (vld1_f32, F32, 2); (vld1_f64, F64, 1); (vld1q_u8, U8, 16); (vld1q_s8, I8, 16);
    (vld1q_u16, U16, 8); (vld1q_s16, I16, 8); (vld1q_u32, U32, 4); (vld1q_s32, I32, 4);
    (vld1q_s64, I64, 2); (vld1q_u64, U64, 2); (vld1q_f32, F32, 4) ].

(** vld2_T, vld2q_T ([vld_s32] is vld2_s32 under a misspelt name) *)
Definition vld2_table : list (func * sty * nat) :=
  [ (vld2_u8, U8, 8); (vld2_s8, I8, 8); (vld2_u16, U16, 4); (vld2_s16, I16, 4);
    (vld2_u32, U32, 2); (vld_s32, I32, 2); (vld2_f32, F32, 2); (vld2q_u8, U8, 16);
    (vld2q_s8, I8, 16); (vld2q_u16, U16, 8); (vld2q_s16, I16, 8); (vld2q_u32, U32, 4);
    (vld2q_s32, I32, 4) ].

(** vld3_T, vld3q_T *)
Definition vld3_table : list (func * sty * nat) :=
  [ (vld3_u8, U8, 8); (vld3_s8, I8, 8); (vld3_u16, U16, 4); (vld3_s16, I16, 4);
    (vld3_u32, U32, 2); (vld3_s32, I32, 2); (vld3_f32, F32, 2); (vld3q_u8, U8, 16);
    (vld3q_s8, I8, 16); (vld3q_u16, U16, 8); (vld3q_s16, I16, 8); (vld3q_u32, U32, 4);
    (vld3q_s32, I32, 4) ].

(** vld4_T, vld4q_T *)
Definition vld4_table : list (func * sty * nat) :=
  [ (vld4_u8, U8, 8); (vld4_s8, I8, 8); (vld4_u16, U16, 4); (vld4_s16, I16, 4);
    (vld4_u32, U32, 2); (vld4_s32, I32, 2); (vld4_f32, F32, 2); (vld4q_u8, U8, 16);
    (vld4q_s8, I8, 16); (vld4q_u16, U16, 8); (vld4q_s16, I16, 8); (vld4q_u32, U32, 4);
    (vld4q_s32, I32, 4) ].

(** vst1_T, vst1q_T *)
Definition vst1_table : list (func * sty * nat) :=
  [ (vst1_u8, U8, 8); (vst1_s8, I8, 8); (vst1_u16, U16, 4); (vst1_s16, I16, 4);
    (vst1_u32, U32, 2); (vst1_s32, I32, 2); (vst1_s64, I64, 1); (vst1_u64, U64, 1);
    (vst1q_u8, U8, 16); (vst1q_s8, I8, 16); (vst1q_u16, U16, 8); (vst1q_s16, I16, 8);
    (vst1q_u32, U32, 4); (vst1q_s32, I32, 4); (vst1q_s64, I64, 2); (vst1q_u64, U64, 2);
    (vst1q_f32, F32, 4) ].

(** vst2_T, vst2q_T *)
Definition vst2_table : list (func * sty * nat) :=
  [ (vst2_s8, I8, 8); (vst2_s16, I16, 4); (vst2_s32, I32, 2); (vst2_u8, U8, 8);
    (vst2_u16, U16, 4); (vst2_u32, U32, 2); (vst2q_s8, I8, 16); (vst2q_s16, I16, 8);
    (vst2q_s32, I32, 4); (vst2q_u8, U8, 16); (vst2q_u16, U16, 8); (vst2q_u32, U32, 4) ].

(** vst3_T, vst3q_T *)
Definition vst3_table : list (func * sty * nat) :=
  [ (vst3_s8, I8, 8); (vst3_s16, I16, 4); (vst3_s32, I32, 2); (vst3_u8, U8, 8);
    (vst3_u16, U16, 4); (vst3_u32, U32, 2); (vst3q_s8, I8, 16); (vst3q_s16, I16, 8);
    (vst3q_s32, I32, 4); (vst3q_u8, U8, 16); (vst3q_u16, U16, 8); (vst3q_u32, U32, 4) ].

(** vst4_T, vst4q_T, except vst4_u8 and vst4_u32 *)
Definition vst4_table : list (func * sty * nat) :=
  [ (vst4_s8, I8, 8); (vst4_s16, I16, 4); (vst4_s32, I32, 2); (vst4_u16, U16, 4);
    (vst4q_s8, I8, 16); (vst4q_s16, I16, 8); (vst4q_s32, I32, 4); (vst4q_u8, U8, 16);
    (vst4q_u16, U16, 8); (vst4q_u32, U32, 4) ].

(** ** Floating point *)
Definition fadd_table : list (func * sty * nat) := [ (vaddq_f32, F32, 4) ].
Definition fsub_table : list (func * sty * nat) :=
  [ (vsub_f32, F32, 2); (vsub_f32__F64x1, F64, 1); (vsubq_f32, F32, 4) ].
Definition fmul_table : list (func * sty * nat) := [ (vmulq_f32, F32, 4) ].
Definition fmul_n_table : list (func * sty * nat) :=
  [ (vmul_n_f32, F32, 2); (vmul_n_f64, F64, 1); (vmulq_n_f32, F32, 4); (vmulq_n_f64, F64, 2) ].
Definition fdiv_table : list (func * sty * nat) :=
  [ (vdiv_f32, F32, 2); (vdiv_f64, F64, 1); (vdivq_f32, F32, 4); (vdivq_f64, F64, 2) ].

(** [vcvt]: the function, the integer type and the number of lanes of the result. *)
Definition to_int_table : list (func * sty * nat) :=
  [(vcvtq_s32_f32, I32, 4%nat); (vcvtq_u32_f32, U32, 4%nat); (vcvtnq_s32_f32, I32, 4%nat)].

(** [vqsub] on 64-bit lanes. *)
Definition vqsub64_table : list (func * sty * nat) :=
  [(vqsub_s64, I64, 1%nat); (vqsubq_s64, I64, 2%nat); (vqsub_u64, U64, 1%nat); (vqsubq_u64, U64, 2%nat)].

(** The k-vector loads and stores. *)
Definition vld_table (k : nat) : list (func * sty * nat) :=
  match k with 2%nat => vld2_table | 3%nat => vld3_table | 4%nat => vld4_table | _ => [] end.
Definition vst_table (k : nat) : list (func * sty * nat) :=
  match k with 2%nat => vst2_table | 3%nat => vst3_table | 4%nat => vst4_table | _ => [] end.

(** The laws of a binary function on vectors, as equations between calls. *)
Definition comm_law c m f t n := forall a b, lanes t n a -> lanes t n b ->
  exists r, run c m f [vec t a; vec t b] = Returns m (Some (vec t r))
         /\ run c m f [vec t b; vec t a] = Returns m (Some (vec t r)).
Definition assoc_law c m f t n := forall a b d, lanes t n a -> lanes t n b -> lanes t n d ->
  exists ab bd r, run c m f [vec t a; vec t b] = Returns m (Some (vec t ab))
    /\ run c m f [vec t b; vec t d] = Returns m (Some (vec t bd))
    /\ run c m f [vec t ab; vec t d] = Returns m (Some (vec t r))
    /\ run c m f [vec t a; vec t bd] = Returns m (Some (vec t r)).
Definition idem_law c m f t n := forall a, lanes t n a ->
  run c m f [vec t a; vec t a] = Returns m (Some (vec t a)).


(** The lane-wise operations on two vectors; on a vector and a scalar. *)
Definition lanewise2 : list (list (func * sty * nat)) :=
  [vadd_table; vsub_table; vqsub_table; vqsub64_table; vqadd_table; vhsub_table; vmul_table;
   vand_table; vorr_table; veor_table; fsub_table; fdiv_table].
Definition lanewise_n : list (list (func * sty * nat)) := [vmul_n_table; fmul_n_table].

(** The outcome of a 128-bit operation from the outcomes on its halves: both
    results one after the other, or else the first failure. *)
Definition both_halves (m : memory) (low high : outcome) : outcome :=
  match low, high with
  | Returns _ (Some (OArr l)), Returns _ (Some (OArr h)) => Returns m (Some (OArr (l ++ h)))
  | Returns _ _, _ => high
  | _, _ => low
  end.

(** ** When a multiply-accumulate is well-defined ([sub] for the subtracting form): [t] is the
    type of the factors, [u] of the accumulator; products are computed in the promoted [t], sums in
    the promoted [u]. *)
Open Scope Z_scope.
Definition mla_value (sub : bool) (x y z : Z) : Z := if sub then x - y * z else x + y * z.

(** The product is exact, or its truncation cannot be seen in a result of type
    [u]; the sum is exact, or reduced modulo. *)
Definition mla_safe (sub : bool) (c : cfg) (t u : sty) (x y z : Z) : Prop :=
  (in_range (computed_in t) (y * z)
   \/ ((wrapv c = true \/ is_signed (computed_in t) = false) /\ width u <= 32))
  /\ (in_range (computed_in u) (mla_value sub x y z)
      \/ wrapv c = true \/ is_signed (computed_in u) = false).

(** Undefined when the product, or the sum, is computed in a signed type and
    does not fit. *)
Definition mla_overflows (sub : bool) (t u : sty) (x y z : Z) : Prop :=
  (is_signed (computed_in t) = true /\ ~ in_range (computed_in t) (y * z))
  \/ (in_range (computed_in t) (y * z) /\ is_signed (computed_in u) = true
      /\ ~ in_range (computed_in u) (mla_value sub x y z)).
