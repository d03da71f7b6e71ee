(** Generated by tools/translate.py: the list of all function definitions of
    neon_sim.cpp, in source order. *)
From Coq Require Import ZArith List String.
From Verif Require Import Types Syntax Interp.
From Verif Require Export ProgRecip ProgLoad ProgStore ProgAdd ProgSub ProgMul ProgShift ProgPerm ProgBit ProgRev.
Import ListNotations.
Open Scope Z_scope.

(** The functions of neon_sim.cpp compiled for this target (the two under
    #if __fp16 are not). *)
Definition library : list func :=
  [ RecipEstimate; FPRecipEstimate;
    vld1_u8;
    vld1_s8;
    vld1_u16;
    vld1_s16;
    vld1_u32;
    vld1_u64;
    vld1_s32;
    vld1_s64;
    vld1_f32;
    vld1_f64;
    vld1q_u8;
    vld1q_s8;
    vld1q_u16;
    vld1q_s16;
    vld1q_u32;
    vld1q_s32;
    vld1q_s64;
    vld1q_u64;
    vld1q_f32;
    vld2_u8;
    vld2_s8;
    vld2_u16;
    vld2_s16;
    vld2_u32;
    vld_s32;
    vld2_f32;
    vld2q_u8;
    vld2q_s8;
    vld2q_u16;
    vld2q_s16;
    vld2q_u32;
    vld2q_s32;
    vld3_u8;
    vld3_s8;
    vld3_u16;
    vld3_s16;
    vld3_u32;
    vld3_s32;
    vld3_f32;
    vld3q_u8;
    vld3q_s8;
    vld3q_u16;
    vld3q_s16;
    vld3q_u32;
    vld3q_s32;
    vld4_u8;
    vld4_s8;
    vld4_u16;
    vld4_s16;
    vld4_u32;
    vld4_s32;
    vld4_f32;
    vld4q_u8;
    vld4q_s8;
    vld4q_u16;
    vld4q_s16;
    vld4q_u32;
    vld4q_s32;
    vld1q_dup_f32;
    vld1_lane_s8;
    vld1_lane_u8;
    vld2_lane_u8;
    vld3_lane_u8;
    vld4_lane_u8;
    vst1_u8;
    vst1_s8;
    vst1_u16;
    vst1_s16;
    vst1_u32;
    vst1_s32;
    vst1_s64;
    vst1_u64;
    vst1q_u8;
    vst1q_s8;
    vst1q_u16;
    vst1q_s16;
    vst1q_u32;
    vst1q_s32;
    vst1q_s64;
    vst1q_u64;
    vst1q_f32;
    vst2_s8;
    vst2_s16;
    vst2_s32;
    vst2_u8;
    vst2_u16;
    vst2_u32;
    vst2q_s8;
    vst2q_s16;
    vst2q_s32;
    vst2q_u8;
    vst2q_u16;
    vst2q_u32;
    vst3_s8;
    vst3_s16;
    vst3_s32;
    vst3_u8;
    vst3_u16;
    vst3_u32;
    vst3q_s8;
    vst3q_s16;
    vst3q_s32;
    vst3q_u8;
    vst3q_u16;
    vst3q_u32;
    vst4_s8;
    vst4_s16;
    vst4_s32;
    vst4_u8;
    vst4_u16;
    vst4_u32;
    vst4q_s8;
    vst4q_s16;
    vst4q_s32;
    vst4q_u8;
    vst4q_u16;
    vst4q_u32;
    vst4q_lane_f32;
    vmaxq_s8;
    vmaxq_s16;
    vmaxq_s32;
    vmaxq_u8;
    vmaxq_u16;
    vmaxq_u32;
    vmaxq_f32;
    vadd_s8;
    vadd_s16;
    vadd_s32;
    vadd_s64;
    vadd_u8;
    vadd_u16;
    vadd_u32;
    vadd_u64;
    vaddl_u8;
    vaddw_s8;
    vaddw_s16;
    vaddw_s32;
    vaddw_u8;
    vaddw_u16;
    vaddw_u32;
    vaddw_high_s8;
    vaddw_high_s16;
    vaddw_high_s32;
    vaddw_high_u8;
    vaddw_high_u16;
    vaddw_high_u32;
    vaddhn_high_s16;
    vaddhn_high_s32;
    vaddhn_high_s64;
    vaddhn_high_u16;
    vaddhn_high_u32;
    vaddhn_high_u64;
    vaddq_s8;
    vaddq_s16;
    vaddq_s32;
    vaddq_s64;
    vaddq_u8;
    vaddq_u16;
    vaddq_u32;
    vaddq_f32;
    vaddq_u64;
    vqadd_u8;
    vaddl_high_s8;
    vaddl_high_s16;
    vaddl_high_s32;
    vaddl_high_u8;
    vaddl_high_u16;
    vaddl_high_u32;
    vqaddq_u8;
    vpaddl_u8;
    vpaddlq_u8;
    vpaddlq_u16;
    vsub_s8;
    vsub_s16;
    vsub_s32;
    vsub_s64;
    vsub_u8;
    vsub_u16;
    vsub_u32;
    vsub_u64;
    vsub_f32;
    vsub_f32__F64x1;
    vsubq_s8;
    vsubq_s16;
    vsubq_s32;
    vsubq_s64;
    vsubq_u8;
    vsubq_u16;
    vsubq_u32;
    vsubq_u64;
    vsubq_f32;
    vsubhn_s16;
    vsubn_s32;
    vsubn_s64;
    vsubhn_u16;
    vsubn_u32;
    vsubn_u64;
    vhsub_s8;
    vhsub_s16;
    vhsub_s32;
    vhsub_u8;
    vhsub_u16;
    vhsub_u32;
    vhsubq_s8;
    vhsubq_s16;
    vhsubq_s32;
    vhsubq_u8;
    vhsubq_u16;
    vhsubq_u32;
    vqsub_s8;
    vqsub_s16;
    vqsub_s32;
    vqsub_s64;
    vsubl_s8;
    vsubl_s16;
    vsubl_s32;
    vsubl_u8;
    vsubl_u16;
    vsubl_u32;
    vsubw_s8;
    vsubw_s16;
    vsubw_s32;
    vsubw_u8;
    vsubw_u16;
    vsubw_u32;
    vqsub_u8;
    vqsub_u16;
    vqsub_u32;
    vqsub_u64;
    vqsubq_s8;
    vqsubq_s16;
    vqsubq_s32;
    vqsubq_s64;
    vqsubq_u8;
    vqsubq_u16;
    vqsubq_u32;
    vqsubq_u64;
    vrsubhn_s16;
    vrsubhn_s32;
    vrsubhn_s64;
    vrsubhn_u16;
    vrsubhn_u32;
    vrsubhn_u64;
    vmul_s8;
    vmul_s16;
    vmul_s32;
    vmul_u8;
    vmul_u16;
    vmul_u32;
    vmulq_s8;
    vmulq_s16;
    vmulq_s32;
    vmulq_u8;
    vmulq_u16;
    vmulq_u32;
    vmulq_f32;
    vmul_n_s16;
    vmul_n_s32;
    vmul_n_u16;
    vmul_n_u32;
    vmul_n_f32;
    vmul_n_f64;
    vmulq_n_s16;
    vmulq_n_s32;
    vmulq_n_u16;
    vmulq_n_u32;
    vmulq_n_f32;
    vmulq_n_f64;
    vmull_u8;
    vmull_u16;
    vmull_u32;
    vmull_s8;
    vmull_s16;
    vmull_s32;
    vmull_n_s16;
    vmull_n_s32;
    vmull_n_u16;
    vmull_n_u32;
    vqdmull_s16;
    vmlal_s8;
    vmlal_s16;
    vmlal_s32;
    vmlal_u8;
    vmlal_u16;
    vmlal_u32;
    vmlsl_s8;
    vmlsl_s16;
    vmlsl_s32;
    vmlsl_u8;
    vmlsl_u16;
    vmlsl_u32;
    vmlaq_s8;
    vmlaq_s16;
    vmlaq_s32;
    vmlaq_u8;
    vmlaq_u16;
    vmlaq_u32;
    vmlaq_f32;
    vmlaq_n_f32;
    vdup_n_s8;
    vdup_n_s16;
    vdup_n_s32;
    vdup_n_s64;
    vdup_n_u8;
    vdup_n_u16;
    vdup_n_u32;
    vdup_n_u64;
    vdupq_n_u8;
    vdupq_n_s8;
    vdupq_n_u16;
    vdupq_n_s16;
    vdupq_n_u32;
    vdupq_n_s32;
    vdupq_n_f32;
    vmovq_n_f32;
    vget_low_f32;
    vget_low_s32;
    vget_low_u32;
    vget_low_s16;
    vget_low_u16;
    vget_low_s8;
    vget_low_u8;
    vget_high_f32;
    vget_high_s32;
    vget_high_s16;
    vget_high_u16;
    vget_high_u32;
    vget_high_s8;
    vget_high_u8;
    vpmax_f32;
    vpmin_f32;
    vget_lane_f32;
    vgetq_lane_f32;
    vgetq_lane_u8;
    vgetq_lane_u16;
    vgetq_lane_u32;
    vgetq_lane_u64;
    vgetq_lane_s8;
    vgetq_lane_s16;
    vgetq_lane_s32;
    vgetq_lane_s64;
    vgetq_lane_f64;
    vminq_s8;
    vminq_s16;
    vminq_s32;
    vminq_u8;
    vminq_u16;
    vminq_u32;
    vminq_f32;
    vcltq_f32;
    vbslq_f32;
    vshrn_n_s16;
    vshr_n_u16;
    vshrn_n_s32;
    vshrn_n_s64;
    vshrn_n_u16;
    vshrn_n_u32;
    vshrn_n_u64;
    vqshrun_n_s16;
    vqshrun_n_s32;
    vqshrun_n_s64;
    vqrshrun_n_s16;
    vrshrn_n_u16;
    vsraq_n_s32;
    vshlq_n_s32;
    vshll_n_u8;
    vreinterpret_u8_s8;
    vreinterpretq_s16_u16;
    vreinterpretq_u16_s16;
    vreinterpret_u16_u8;
    vreinterpret_u32_u16;
    vreinterpret_u8_u32;
    vreinterpret_u32_u8;
    vreinterpret_s8_u8;
    vreinterpret_s32_s16;
    vreinterpret_s16_s32;
    vreinterpretq_u8_s8;
    vreinterpretq_u8_s16;
    vreinterpretq_u8_s32;
    vreinterpretq_u8_f32;
    vreinterpretq_u8_u16;
    vreinterpretq_u8_u32;
    vreinterpretq_u8_u64;
    vreinterpretq_u8_s64;
    vreinterpretq_u8_f64;
    vreinterpretq_u32_s8;
    vreinterpretq_u32_s16;
    vreinterpretq_u32_s32;
    vreinterpretq_u32_f32;
    vreinterpretq_u32_u8;
    vreinterpretq_u32_u16;
    vreinterpretq_u32_u64;
    vreinterpretq_u32_s64;
    vreinterpretq_u32_f64;
    vcvtq_f32_s32;
    vcvtq_s32_f32;
    vcvtq_u32_f32;
    vcvtnq_s32_f32;
    vrecpeq_f32;
    vrecpsq_f32;
    vtrn_s8;
    vtrn_u8;
    vtrn_s16;
    vtrn_u16;
    vtrn_s32;
    vtrn_u32;
    vtrnq_u16;
    vtrnq_u32;
    vtrnq_s16;
    vzip_s16;
    vcombine_u8;
    vcombine_u16;
    vcombine_u32;
    vcombine_s8;
    vcombine_s16;
    vcombine_s32;
    vmovn_s32;
    vmovn_u32;
    vmovn_u16;
    vmovl_u8;
    vmovl_u16;
    vmovl_u32;
    vmovl_s8;
    vmovl_s16;
    vmovl_s32;
    vqmovn_u16;
    vqmovun_s16;
    vqtbl1_u8;
    vext_u8;
    vext_u16;
    vext_s16;
    vextq_u16;
    vcgtq_u8;
    vbslq_u8;
    vtbl1_u8;
    vtbl4_u8;
    vtbl2_u8;
    vand_s8;
    vand_s16;
    vand_s32;
    vand_s64;
    vand_u8;
    vand_u16;
    vand_u32;
    vand_u64;
    vandq_s8;
    vandq_s16;
    vandq_s32;
    vandq_s64;
    vandq_u8;
    vandq_u16;
    vandq_u32;
    vandq_u64;
    vorr_s8;
    vorr_s16;
    vorr_s32;
    vorr_s64;
    vorr_u8;
    vorr_u16;
    vorr_u32;
    vorr_u64;
    vorrq_s8;
    vorrq_s16;
    vorrq_s32;
    vorrq_s64;
    vorrq_u8;
    vorrq_u16;
    vorrq_u32;
    vorrq_u64;
    veor_s8;
    veor_s16;
    veor_s32;
    veor_s64;
    veor_u8;
    veor_u16;
    ver_u32;
    veor_u64;
    veorq_s8;
    veorq_s16;
    veorq_s32;
    veorq_s64;
    veorq_u8;
    veorq_u16;
    veorq_u32;
    veorq_u64;
    vmvn_s8;
    vmvn_s16;
    vmvn_s32;
    vmvn_u8;
    vmvn_u16;
    vmvn_u32;
    vmvnq_s8;
    vmvnq_s16;
    vmvnq_s32;
    vmvnq_u8;
    vmvnq_u16;
    vmvnq_u32;
    vzip_s8;
    vzip_u8;
    vuzp_u8;
    vuzp_s8;
    vrev16_s8;
    vrev16_u8;
    vrev16q_s8;
    vrev16q_u8;
    vrev32_s8;
    vrev32_s16;
    vrev32_u8;
    vrev32_u16;
    vrev32q_s8;
    vrev32q_s16;
    vrev32q_u8;
    vrev32q_u16;
    vrev64_s8;
    vrev64_s16;
    vrev64_s32;
    vrev64_u8;
    vrev64_u16;
    vrev64_u32;
    vrev64_f32;
    vrev64q_s8;
    vrev64q_s16;
    vrev64q_s32;
    vrev64q_u8;
    vrev64q_u16;
    vrev64q_u32;
    vrev64q_f32;
    vdiv_f32;
    vdiv_f64;
    vdivq_f32;
    vdivq_f64;
    vqshrn_n_s16;
    vqshrn_n_s32;
    vqshrn_n_s64;
    vqshrn_n_u16;
    vqshrn_n_u32;
    vqshrn_n_u64 ].
