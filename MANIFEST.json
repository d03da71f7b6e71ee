{
 "claims": [
  {
   "property": "C01",
   "status": "proved",
   "theorems": [
    "C01_vld1"
   ],
   "note": "Every vld1 function of the library, all memory contents and addresses; out-of-range addresses are undefined."
  },
  {
   "property": "C02",
   "status": "proved",
   "theorems": [
    "C02_vldk"
   ],
   "note": "Every vld2/vld3/vld4 function."
  },
  {
   "property": "C03",
   "status": "proved",
   "theorems": [
    "C03_vst1"
   ],
   "note": "Every vst1 function."
  },
  {
   "property": "C04",
   "status": "partial",
   "theorems": [
    "C04_vstk_partial",
    "C04_vst4_u8_refuted",
    "C04_vst4_u32_refuted"
   ],
   "note": "Proved for every vst2/3/4 except vst4_u8 and vst4_u32, whose exact (wrong) effect is C04_vst4_u8_refuted and C04_vst4_u32_refuted: the code indexes ptr[4*i+4] and writes ptr[4*i+2] twice."
  },
  {
   "property": "C05",
   "status": "partial",
   "theorems": [
    "C05_store_load1",
    "C05_load_store1",
    "C05_store_loadk_partial",
    "C05_load_storek_partial",
    "C05_vst4_u32_refuted"
   ],
   "note": "Store-then-load and load-then-store are identities for every pair except the two broken vst4."
  },
  {
   "property": "C06",
   "status": "proved",
   "theorems": [
    "C06_vld1_lane",
    "C06_vldk_lane"
   ],
   "note": "Lane loads replace exactly the given lane."
  },
  {
   "property": "C07",
   "status": "partial",
   "theorems": [
    "C07_vgetq_lane_f32_partial",
    "C07_vldk_lane_partial",
    "C07_vget_lane_refuted",
    "C07_vld1_lane_refuted",
    "C07_vst4q_lane_refuted"
   ],
   "note": "Only vgetq_lane_f32 and vld2/3/4_lane_u8 check the lane number; for the others an invalid lane number is undefined behaviour (refuted theorems)."
  },
  {
   "property": "C08",
   "status": "proved",
   "theorems": [
    "C08_vst4q_lane"
   ],
   "note": "vst4q_lane_f32, valid lane numbers."
  },
  {
   "property": "C09",
   "status": "proved",
   "theorems": [
    "C09_vdup",
    "C09_vld1q_dup"
   ],
   "note": "vdup_n, vmov_n and vld1q_dup."
  },
  {
   "property": "C10",
   "status": "proved",
   "theorems": [
    "C10_vget_low",
    "C10_vget_high",
    "C10_vcombine",
    "C10_combine_halves",
    "C10_halves_combine"
   ],
   "note": "vget_low/high, vcombine and both round trips."
  },
  {
   "property": "C11",
   "status": "proved",
   "theorems": [
    "C11_vget_lane"
   ],
   "note": "vget_lane for every valid lane number."
  },
  {
   "property": "C12",
   "status": "partial",
   "theorems": [
    "C12_vadd_partial",
    "C12_vadd_refuted"
   ],
   "note": "Modular sum whenever the exact sums fit, the type is narrow or unsigned, or with -fwrapv; otherwise undefined behaviour, exactly then (refuted)."
  },
  {
   "property": "C13",
   "status": "partial",
   "theorems": [
    "C13_vsub_partial",
    "C13_vsub_refuted"
   ],
   "note": "As C12 for subtraction."
  },
  {
   "property": "C14",
   "status": "partial",
   "theorems": [
    "C14_vadd_comm",
    "C14_vadd_assoc_partial",
    "C14_vsub_vadd_partial",
    "C14_vsub_self",
    "C14_assoc_refuted"
   ],
   "note": "Commutativity and x - x = 0 for every input; associativity and (a+b)-b=a under the condition of C12; associativity fails through undefined behaviour (refuted)."
  },
  {
   "property": "C15",
   "status": "partial",
   "theorems": [
    "C15_vaddl",
    "C15_vaddl_high",
    "C15_vaddl_high32_partial",
    "C15_vpaddl",
    "C15_vaddw_partial",
    "C15_vaddw_high_partial",
    "C15_vaddl_high_u32_refuted",
    "C15_vaddl_high_s32_refuted",
    "C15_vaddw_refuted",
    "C15_vaddw_high_refuted"
   ],
   "note": "vaddl, vpaddl full; vaddl_high_32 and vaddw partial: overflow of 32- and 64-bit sums is undefined or wraps."
  },
  {
   "property": "C16",
   "status": "partial",
   "theorems": [
    "C16_vaddhn_high_partial",
    "C16_vsubhn",
    "C16_vrsubhn_partial",
    "C16_vaddhn_high_refuted",
    "C16_vsubn_refuted",
    "C16_vrsubhn64_refuted",
    "C16_vrsubhn_overflow_refuted",
    "C16_vaddhn_high_overflow_refuted",
    "C16_vsubn_overflow_refuted",
    "C16_vrsubhn64_overflow_refuted"
   ],
   "note": "vsubhn full; vaddhn_high and vrsubhn partial: shift counts 4 and 2 in vaddhn_high for 32/64-bit lanes, rounding off by one in vrsubhn 64-bit, vsubn_* shift by 8; the overflow cases are undefined (refuted theorems). Together the theorems give the outcome for every input."
  },
  {
   "property": "C17",
   "status": "partial",
   "theorems": [
    "C17_vqsub",
    "C17_vqadd",
    "C17_vqsub64_partial",
    "C17_vqsub64_refuted",
    "C17_vqsub64_value_refuted",
    "C17_vqsub64_cast_refuted",
    "C17_vqsub64_error_partial"
   ],
   "note": "8-, 16-, 32-bit variants full; the 64-bit vqsub go through double: C17_vqsub64_value_refuted and C17_vqsub64_cast_refuted give the outcome for every input; it is the saturated difference up to 2^53 (partial), within 4096 of it whenever the call returns."
  },
  {
   "property": "C18",
   "status": "partial",
   "theorems": [
    "C18_vhsub_partial",
    "C18_vhsub_s32_refuted",
    "C18_vhsub_u32_refuted"
   ],
   "note": "8- and 16-bit and in-range 32-bit; vhsub_s32 overflows (undefined) and vhsub_u32 wraps."
  },
  {
   "property": "C19",
   "status": "partial",
   "theorems": [
    "C19_vsubl",
    "C19_vsubl_signed",
    "C19_vsubl32_partial",
    "C19_vsubw_partial",
    "C19_vsubw_refuted"
   ],
   "note": "Long subtraction full; vsubw and vsubl 32-bit partial (overflow)."
  },
  {
   "property": "C20",
   "status": "partial",
   "theorems": [
    "C20_vmul_partial",
    "C20_vmul_n_partial",
    "C20_vmul_refuted",
    "C20_vmul_n_refuted"
   ],
   "note": "Modular product unless the promoted int product overflows (uint16 and int32), where it is undefined."
  },
  {
   "property": "C21",
   "status": "partial",
   "theorems": [
    "C21_vmull_partial",
    "C21_vmull_n_partial",
    "C21_vmull_overflow_refuted",
    "C21_vmull_n_overflow_refuted",
    "C21_vmull_u32_refuted",
    "C21_vmull_n_u32_refuted"
   ],
   "note": "Exact product for 8/16-bit and in-range products; vmull_u32 computes in 32 bits (refuted)."
  },
  {
   "property": "C22",
   "status": "proved",
   "theorems": [
    "C22_vqdmull",
    "C22_vqdmull_sat"
   ],
   "note": "vqdmull_s16 including the single saturating case."
  },
  {
   "property": "C23",
   "status": "partial",
   "theorems": [
    "C23_vmlal_partial",
    "C23_vmlsl_partial",
    "C23_vmlaq_partial",
    "C23_long8",
    "C23_long8_sub",
    "C23_short",
    "C23_vmlal_refuted",
    "C23_vmlsl_refuted",
    "C23_vmlaq_refuted",
    "C23_vmlal_u32_refuted",
    "C23_vmlal_u32_value_refuted",
    "C23_vmlsl_u32_value_refuted"
   ],
   "note": "Accumulation exact when nothing overflows; undefined exactly otherwise; the u32 variants reduce the product modulo 2^32 for every input (refuted)."
  },
  {
   "property": "C24",
   "status": "partial",
   "theorems": [
    "C24_vmax",
    "C24_vmin",
    "C24_vmax_laws",
    "C24_vmin_laws",
    "C24_unsigned_max_partial",
    "C24_unsigned_min_partial",
    "C24_unsigned_max_refuted",
    "C24_unsigned_min_refuted"
   ],
   "note": "Every integer vmax/vmin of the library, as it is defined. The unsigned ones are defined on signed vectors (see C51) and compare as signed: right when the top bits agree, the opposite when they differ (refuted)."
  },
  {
   "property": "C25",
   "status": "partial",
   "theorems": [
    "C25_vmaxq_partial",
    "C25_vminq_partial",
    "C25_vpmax_partial",
    "C25_vpmin_partial",
    "C25_vmaxq_select",
    "C25_vminq_select",
    "C25_vpmax_select",
    "C25_vpmin_select",
    "C25_vmaxq_refuted",
    "C25_vminq_refuted"
   ],
   "note": "Equivalence: the result is the IEEE one except when only the first operand is NaN and for the two zero orders; those are refuted. Exact behaviour for every operand in C25_*_select."
  },
  {
   "property": "C26",
   "status": "proved",
   "theorems": [
    "C26_vadd",
    "C26_vsub",
    "C26_vmul",
    "C26_vmul_n",
    "C26_vdiv"
   ],
   "note": "Every operand, both formats, all special cases; rounding by Flocq's round."
  },
  {
   "property": "C27",
   "status": "proved",
   "theorems": [
    "C27_vmlaq",
    "C27_vmlaq_n"
   ],
   "note": "Every operand."
  },
  {
   "property": "C28",
   "status": "partial",
   "theorems": [
    "C28_vshrn",
    "C28_vshr_n_u16_partial",
    "C28_vshr_n_u16_refuted"
   ],
   "note": "vshrn full; vshr_n_u16 accepts only shifts 1..8 (refuted)."
  },
  {
   "property": "C29",
   "status": "partial",
   "theorems": [
    "C29_vqshrun_n_s32_overflow_refuted",
    "C29_vqshrun_n_s32_wrapv_refuted",
    "C29_vqshrun_n_s64_value_refuted",
    "C29_vqshrun_n_s64_overflow_refuted",
    "C29_vqshrn",
    "C29_vqshrun_n_s16",
    "C29_vqrshrun_n_s16",
    "C29_vqshrn_n_s64_partial",
    "C29_vqshrn_n_s64_refuted",
    "C29_vqshrun_n_s32_refuted",
    "C29_vqshrun_n_s64_refuted"
   ],
   "note": "vqshrn_n_s64 truncates; vqshrun_n_s32 and _s64 return an uninitialised vector or overflow, for every accepted shift (refuted)."
  },
  {
   "property": "C30",
   "status": "partial",
   "theorems": [
    "C30_vrshrn_n_u16",
    "C30_vshll_n_u8",
    "C30_vshlq_n_s32_partial",
    "C30_vshlq_n_s32_refuted",
    "C30_vsraq_n_s32_refuted"
   ],
   "note": "vrshrn_n_u16 and vshll_n_u8 full; vshlq_n_s32 overflow undefined; vsraq_n_s32 shifts both operands (refuted)."
  },
  {
   "property": "C31",
   "status": "partial",
   "theorems": [
    "C31_vshll_n_u8_accepts_refuted",
    "C31_vshll_n_u8_refuted",
    "C31_vshlq_n_s32_any_refuted",
    "C31_vsraq_n_s32_zero_refuted",
    "C31_vsraq_n_s32_refuted",
    "C31_vrshrn_n_u16_min_refuted",
    "C31_vshrn",
    "C31_vshr_n_u16",
    "C31_vqshrun",
    "C31_vext",
    "C31_vext8_refuted",
    "C31_vqshrn_refuted",
    "C31_vqshrn_n_s64_refuted",
    "C31_vrshrn_n_u16_refuted",
    "C31_vshlq_n_s32_refuted"
   ],
   "note": "Checked functions abort outside their range; the unchecked ones are refuted, with the outcome for every immediate."
  },
  {
   "property": "C32",
   "status": "proved",
   "theorems": [
    "C32_vreinterpret",
    "C32_bytes_determine",
    "C32_round_trip"
   ],
   "note": "Every vreinterpret."
  },
  {
   "property": "C33",
   "status": "partial",
   "theorems": [
    "C33_vcvtq_f32_s32",
    "C33_vcvtq_int_partial",
    "C33_vcvtnq_partial",
    "C33_vcvtq_int_refuted",
    "C33_vcvtnq_refuted",
    "C33_round_trip",
    "C33_round_trip_refuted"
   ],
   "note": "vcvtq_f32_s32 full; float to integer: truncation where it fits, undefined exactly where it does not; vcvtnq truncates (refuted). Conversion and back: exact up to 2^24, undefined from 2^31 - 64."
  },
  {
   "property": "C34",
   "status": "partial",
   "theorems": [
    "C34_vrecpeq_partial",
    "C34_vrecpeq_estimate",
    "C34_vrecpeq_refuted"
   ],
   "note": "Relative error below 2^-8 for exponent fields 1..252, architected estimate bits for every operand; zero, infinity, NaN and exponents 253, 254 refuted."
  },
  {
   "property": "C35",
   "status": "partial",
   "theorems": [
    "C35_vrecpsq_partial",
    "C35_vrecpsq_two_step",
    "C35_vrecpsq_refuted"
   ],
   "note": "Rounds the product first: equals the fused step when the product is exact; refuted otherwise and for zero times infinity."
  },
  {
   "property": "C36",
   "status": "proved",
   "theorems": [
    "C36_vtrn",
    "C36_vzip",
    "C36_vuzp",
    "C36_vtrn_twice",
    "C36_vuzp_vzip",
    "C36_vzip_vuzp"
   ],
   "note": "Every vtrn/vzip/vuzp and the inverse laws."
  },
  {
   "property": "C37",
   "status": "partial",
   "theorems": [
    "C37_vrev16",
    "C37_vrev32_partial",
    "C37_vrev64_partial",
    "C37_vrev_twice_partial",
    "C37_vrev32_s8_refuted",
    "C37_vrev64q_refuted"
   ],
   "note": "vrev32_s8 reads out of bounds, vrev64q_s8/_s16 leave lanes uninitialised (refuted); all others full."
  },
  {
   "property": "C38",
   "status": "proved",
   "theorems": [
    "C38_vmovl",
    "C38_vmovn",
    "C38_vqmovn",
    "C38_vqmovun",
    "C38_vmovn_vmovl"
   ],
   "note": "Every widening and narrowing move."
  },
  {
   "property": "C39",
   "status": "partial",
   "theorems": [
    "C39_vtbl1",
    "C39_vtbl2",
    "C39_vtbl4",
    "C39_vqtbl1_partial",
    "C39_vqtbl1_refuted"
   ],
   "note": "vqtbl1_u8 with an index of 16 or more is undefined (refuted); vtbl1/2/4 full."
  },
  {
   "property": "C40",
   "status": "proved",
   "theorems": [
    "C40_vext"
   ],
   "note": "Every vext, valid counts."
  },
  {
   "property": "C41",
   "status": "partial",
   "theorems": [
    "C41_vcgtq_u8",
    "C41_vcltq_f32",
    "C41_vbslq_u8",
    "C41_vbslq_f32_partial",
    "C41_vbslq_f32_refuted"
   ],
   "note": "vbslq_f32 tests the whole mask lane (refuted for general masks)."
  },
  {
   "property": "C42",
   "status": "proved",
   "theorems": [
    "C42_vand",
    "C42_vorr",
    "C42_veor",
    "C42_vmvn"
   ],
   "note": "Every vand/vorr/veor/vmvn, bit by bit."
  },
  {
   "property": "C43",
   "status": "proved",
   "theorems": [
    "C43_and_laws",
    "C43_or_laws",
    "C43_xor_laws",
    "C43_absorption",
    "C43_distributivity",
    "C43_de_morgan",
    "C43_double_negation",
    "C43_xor_cancel",
    "C43_xor_self"
   ],
   "note": "Boolean-algebra laws for every type with the operations."
  },
  {
   "property": "C44",
   "status": "partial",
   "theorems": [
    "C44_vadd_partial",
    "C44_vsub_partial",
    "C44_vmul_partial",
    "C44_bitwise",
    "C44_vmvn",
    "C44_refuted"
   ],
   "note": "Add, sub, mul under the no-undefined-overflow conditions; bitwise unconditional."
  },
  {
   "property": "C45",
   "status": "proved",
   "theorems": [
    "C45_binary",
    "C45_scalar",
    "C45_vmvn",
    "C45_vdup"
   ],
   "note": "Every q/d pair of the lane-wise tables, including undefined outcomes."
  },
  {
   "property": "C46",
   "status": "proved",
   "theorems": [
    "C46_value_functions",
    "C46_stores",
    "C46_stores_are_vst"
   ],
   "note": "Whole library. C46_value_functions: memory unchanged; C46_stores: only blocks the pointer argument points into can change; element-level frame in C55."
  },
  {
   "property": "C47",
   "status": "proved",
   "theorems": [
    "C47_terminates"
   ],
   "note": "Whole library, arbitrary well-typed arguments. The interpreter's bounds (40 iterations, 3 nested calls) are shown irrelevant by C47_terminates: larger bounds give the same outcome."
  },
  {
   "property": "C48",
   "status": "proved",
   "theorems": [
    "C48_well_formed"
   ],
   "note": "Whole library, via a sound abstract interpreter (AbsSound.v)."
  },
  {
   "property": "C49",
   "status": "partial",
   "theorems": [
    "C49_no_ub_partial",
    "C49_no_ub_wrapv_partial",
    "C49_refuted",
    "C49_wrapv_refuted"
   ],
   "note": "No undefined behaviour outside the 57 names of ub_strict (11 of ub_wrapping with -fwrapv); every listed function has a valid call with undefined behaviour (refuted theorems), so the lists are exact."
  },
  {
   "property": "C50",
   "status": "partial",
   "theorems": [
    "C50_initialised_partial",
    "C50_refuted"
   ],
   "note": "Every function except the four of uninit_names; for those an uninitialised result is exhibited, so the list is exact."
  },
  {
   "property": "C51",
   "status": "partial",
   "theorems": [
    "C51_declared_partial",
    "C51_defined_partial",
    "C51_refuted",
    "C51_defined_once",
    "C51_declared_consistently"
   ],
   "note": "Exact comparison of the 1996 declarations with the 539 definitions: 1465 declarations have no definition, 8 have another signature, 17 definitions are not declared; no duplicate definitions, no inconsistent declarations."
  },
  {
   "property": "C52",
   "status": "proved",
   "theorems": [
    "C52_independent",
    "C52_rearranged",
    "C52_permuted"
   ],
   "note": "All 285 element-wise functions; also rearrangement by any lane map, not just permutations."
  },
  {
   "property": "C53",
   "status": "proved",
   "theorems": [
    "C53_value_functions",
    "C53_loads",
    "C53_any_call"
   ],
   "note": "Value functions give the same outcome in every memory; loads depend only on the elements they cover; in general only on the blocks pointed into."
  },
  {
   "property": "C54",
   "status": "partial",
   "theorems": [
    "C54_accepted_partial",
    "C54_vshr_n_u16_refuted"
   ],
   "note": "Every function except vshr_n_u16, which rejects 9..16 (refuted)."
  },
  {
   "property": "C55",
   "status": "partial",
   "theorems": [
    "C55_changes_partial",
    "C55_depends_partial",
    "C55_vst4_u8_refuted"
   ],
   "note": "All 118 functions with a pointer except vst4_u8, which writes one element too far (refuted)."
  },
  {
   "property": "C56",
   "status": "proved",
   "theorems": [
    "C56_wrapv"
   ],
   "note": "Whole language of the model, hence every function."
  },
  {
   "property": "C57",
   "status": "partial",
   "theorems": [
    "C57_memory_stays_typed",
    "C57_other_blocks",
    "C57_other_elements_partial",
    "C57_load_again_partial",
    "C57_stored_vector_stays_partial",
    "C57_vst4_u8_refuted"
   ],
   "note": "Typing and whole blocks for every history; elements, repeated loads and stored vectors for histories without vst4_u8 (refuted with it)."
  },
  {
   "property": "C58",
   "status": "proved",
   "theorems": [
    "C58_careful_program",
    "C58_careful_program_wrapv"
   ],
   "note": "Both overflow modes; the functions to avoid are exactly those of C49 and C54."
  },
  {
   "property": "C59",
   "status": "proved",
   "theorems": [
    "C59_zip_loop",
    "C59_map_loop",
    "C59_fold_loop",
    "C59_sum_loop",
    "C59_reorder_loop",
    "C59_gray_program"
   ],
   "note": "Functions and conditions are those of pointwise1 and pointwise2 in Client.v (signed additions of 32 and 64 bits need -fwrapv)."
  },
  {
   "property": "C60",
   "status": "proved",
   "theorems": [
    "C60_progress",
    "C60_every_schedule_ends",
    "C60_result",
    "C60_same_result"
   ],
   "note": "A call is one step of a thread; C64 refines the steps to single statements."
  },
  {
   "property": "C61",
   "status": "proved",
   "theorems": [
    "C61_parallel_map",
    "C61_parallel_zip"
   ],
   "note": "From C59 and C60; C64_parallel_map and C64_parallel_zip give the same for single statements."
  },
  {
   "property": "C62",
   "status": "partial",
   "theorems": [
    "C62_vmlal",
    "C62_vmlsl",
    "C62_vmlaq_partial",
    "C62_vmlaq_refuted",
    "C62_vmul_n",
    "C62_vmull_n",
    "C62_vaddw",
    "C62_vsubw",
    "C62_vaddl",
    "C62_vsubl",
    "C62_vaddw_high",
    "C62_vsubhn",
    "C62_vaddhn_high",
    "C62_vsubn_refuted",
    "C62_vqadd_u8",
    "C62_vshll",
    "C62_vshll_0",
    "C62_vbslq_u8",
    "C62_vld2",
    "C62_vst2",
    "C62_vrev64_u8"
   ],
   "note": "Holds except for vmlaq_u16 without -fwrapv (undefined where the two steps are not) and the 32/64-bit vsubn, which shift by 8."
  },
  {
   "property": "C63",
   "status": "proved",
   "theorems": [
    "C63_absolute_difference",
    "C63_unsigned_max",
    "C63_unsigned_min",
    "C63_select_max",
    "C63_negate",
    "C63_narrow_widened",
    "C63_rotate",
    "C63_ext_0",
    "C63_lane_of_broadcast",
    "C63_identity_lookup"
   ],
   "note": "For every width the library has."
  },
  {
   "property": "C64",
   "status": "proved",
   "theorems": [
    "C64_call_is_its_steps",
    "C64_single_access",
    "C64_progress",
    "C64_every_schedule_ends",
    "C64_same_as_whole_calls",
    "C64_result",
    "C64_parallel_map",
    "C64_parallel_zip"
   ],
   "note": "A step is one statement, or the test or increment of a loop; C64_call_is_its_steps ties the steps to the semantics of calls."
  },
  {
   "property": "C65",
   "status": "proved",
   "theorems": [
    "C65_accesses",
    "C65_no_data_race"
   ],
   "note": "The accesses of a step are those of step_reads and step_writes; C65_accesses shows that they are all."
  },
  {
   "property": "C66",
   "status": "proved",
   "theorems": [
    "C66_source_parses",
    "C66_functions",
    "C66_declarations"
   ],
   "note": "A front end in Gallina parses the embedded text of both files to exactly the model's trees and declarations; comments and the text of messages are not part of it."
  },
  {
   "property": "C67",
   "status": "proved",
   "theorems": [
    "C67_newton_raphson",
    "C67_division"
   ],
   "note": "The bounds are for the code as written (vrecpsq rounds twice, it is not fused); operands outside of the range are covered by C34 and C35."
  },
  {
   "property": "C68",
   "status": "proved",
   "theorems": [
    "C68_order"
   ],
   "note": "An interpreter with an oracle for the order (Order.v), equal in outcome to Interp.v for every oracle; helpers included."
  },
  {
   "property": "C69",
   "status": "partial",
   "theorems": [
    "C69_platform",
    "C69_integer_results",
    "C69_payloads",
    "C69_payloads_refuted"
   ],
   "note": "First two theorems cover all functions; the third is refuted for the four reinterpretations of floats and vrecpeq_f32, which look at the bits."
  },
  {
   "property": "C70",
   "status": "partial",
   "theorems": [
    "C70_integers",
    "C70_integers_exact",
    "C70_pairs",
    "C70_floats_refuted",
    "C70_floats_partial",
    "C70_message_refuted",
    "C70_vector_refuted",
    "C70_short_vector_refuted",
    "C70_source"
   ],
   "note": "The text of tests/test_util.hpp is parsed and gives the modelled functions. Proved for all integer overloads; the float overload accepts any value next to a NaN, its error message converts floats to int and may be undefined, and the std::vector overload compares four elements whatever the length."
  },
  {
   "property": "C71",
   "status": "partial",
   "theorems": [
    "C71_unaffected",
    "C71_vmlaq",
    "C71_vmlaq_n",
    "C71_vrecpsq",
    "C71_vmlaq_exact_partial",
    "C71_vmlaq_n_exact_partial",
    "C71_vrecpsq_exact_partial",
    "C71_refuted"
   ],
   "note": "Proved for all functions but vmlaq_f32, vmlaq_n_f32 and vrecpsq_f32, the only ones with a float product inside a float sum. For these every result of every choice is characterised (rounded twice or once), results agree where the products are exact, and a witness shows they differ otherwise."
  },
  {
   "property": "C72",
   "status": "partial",
   "theorems": [
    "C72_aborts_exactly",
    "C72_diagnostics",
    "C72_explained",
    "C72_range_partial",
    "C72_vshrn_refuted",
    "C72_vext_refuted",
    "C72_vqshrun_refuted",
    "C72_name_partial",
    "C72_name_refuted",
    "C72_line_partial",
    "C72_line_refuted"
   ],
   "note": "Which calls abort is proved exactly for all functions. Eight of the nineteen diagnostics do not state the range that is enforced (vshrn_n_s32/_u32/_s64/_u64 say [1, 8], vext_u16/_s16 say [0, 4], vqshrun_n_s32/_s64 say nothing), three do not name the function, one does not end its line; all refuted exactly."
  },
  {
   "property": "C73",
   "status": "partial",
   "theorems": [
    "C73_double_quad",
    "C73_x87",
    "C73_x87_vqsub64",
    "C73_refuted",
    "C73_x87_refuted"
   ],
   "note": "Proved for all functions but vmlaq_f32, vmlaq_n_f32 and vrecpsq_f32 in double and quadruple precision, and additionally but the five that compute in double in the x87 format (results rounded twice; vqsub of 64-bit lanes is proved unaffected for initialised lanes). Witnesses show that each of the excepted functions does depend on the format."
  },
  {
   "property": "C74",
   "status": "partial",
   "theorems": [
    "C74_any_host",
    "C74_size_t",
    "C74_little_endian",
    "C74_reinterpret",
    "C74_image_determines",
    "C74_round_trip",
    "C74_big_endian_refuted"
   ],
   "note": "Proved for all functions but the 21 vreinterpret functions between lanes of different sizes, on every machine; for all functions and any arguments on little-endian machines of either width. Reinterpretation keeps the bytes in memory and round trips on every machine (all 28 functions). Refuted for the 21: each has other lanes on big-endian machines (C74_big_endian_refuted)."
  },
  {
   "property": "C75",
   "status": "proved",
   "theorems": [
    "C75_block",
    "C75_matrix",
    "C75_elements",
    "C75_twice"
   ],
   "note": "Five sequences, blocks held in vectors and matrices in memory of any number of blocks; the transposed matrix is specified by index."
  },
  {
   "property": "C76",
   "status": "partial",
   "theorems": [
    "C76_blend",
    "C76_smooth",
    "C76_reverse",
    "C76_lookup",
    "C76_threshold",
    "C76_split",
    "C76_merge",
    "C76_merge_refuted",
    "C76_dot"
   ],
   "note": "Eight programs, loops of any length by induction. Merging four channels with vst4_u8 or vst4_u32 is refuted: those two functions are wrong (C04)."
  },
  {
   "property": "C77",
   "status": "partial",
   "theorems": [
    "C77_verdict_partial",
    "C77_skip_refuted",
    "C77_report",
    "C77_status_partial",
    "C77_status_refuted",
    "C77_options",
    "C77_list",
    "C77_abort",
    "C77_units_refuted",
    "C77_order",
    "C77_project"
   ],
   "note": "Report, order, command line, verdicts and aborting: proved for every set of tests. Refuted: the exit status is the number of failures modulo 256 (256 failures give 0; C77_status_partial for up to 255 tests, C77_project for the project's 46); UTEST_SKIP hides failures; a null unit is printed with --enable-mixed-units. Fixtures, XML output, colours and allocation failure are not modelled."
  },
  {
   "property": "C78",
   "status": "partial",
   "theorems": [
    "C78_sound",
    "C78_name",
    "C78_prefix",
    "C78_complete_refuted",
    "C78_project"
   ],
   "note": "Termination, staying within the strings, soundness, exact names and prefixes: proved for all strings. Refuted: completeness (a star at the end does not stand for nothing; no proper backtracking)."
  },
  {
   "property": "C79",
   "status": "partial",
   "theorems": [
    "C79_source",
    "C79_checks",
    "C79_program",
    "C79_sees",
    "C79_coverage_refuted",
    "C79_called",
    "C79_check_vectors",
    "C79_check_pairs",
    "C79_check_floats_partial",
    "C79_check_integers",
    "C79_check_numbers",
    "C79_verdict",
    "C79_means"
   ],
   "note": "The text of tests/test_*.cpp is parsed and run in Coq against the model of the library, the comparison functions and the runner: all checks hold, for every order, command line, duration and compiler behaviour modelled. With any other library linked, status 0 means that every check holds and that the answers are the expected ones (C79_verdict, C79_means). Refuted: that the tests cover the library (C79_coverage_refuted); C79_check_floats_partial: comparisons of floats outside the range of int or NaN are undefined or accepted (C70)."
  },
  {
   "property": "C80",
   "status": "partial",
   "theorems": [
    "C80_sort",
    "C80_zero_one",
    "C80_rank_filter",
    "C80_median",
    "C80_float_sort_partial",
    "C80_float_refuted",
    "C80_unsigned_refuted"
   ],
   "note": "Proved for the signed minima and maxima and for exchanges by unsigned saturating subtraction; with vminq_f32/vmaxq_f32 only for finite lanes without -0 (a NaN loses the other vector: refuted), and vminq_u8/vmaxq_u8 order pixels as signed numbers (refuted)."
  },
  {
   "property": "C81",
   "status": "proved",
   "theorems": [
    "C81_accumulate",
    "C81_matrix_product",
    "C81_filter",
    "C81_bound",
    "C81_cancellation"
   ],
   "note": "Proved for any number of accumulations under every contraction, and for matrix products and filters of any size. C81_cancellation shows why the bound has to be in terms of the magnitudes."
  },
  {
   "property": "C82",
   "status": "partial",
   "theorems": [
    "C82_types",
    "C82_distinct",
    "C82_meaning",
    "C82_initialisation",
    "C82_call",
    "C82_mismatch",
    "C82_list_compiles",
    "C82_list_lanes",
    "C82_links",
    "C82_links_refuted",
    "C82_conversion_refuted",
    "C82_lane_refuted"
   ],
   "note": "Soundness, the characterisations of what compiles and links, and initialiser lists are proved for all programs of the fragment. Refuted: the README's conversion between vectors of the same length (they are structures), the check of lane numbers (known issue 4), and that what compiles links."
  },
  {
   "property": "C83",
   "status": "partial",
   "theorems": [
    "C83_environment",
    "C83_rounding",
    "C83_default",
    "C83_lanes",
    "C83_lanes_n",
    "C83_lanes_mla",
    "C83_lanes_mla_n",
    "C83_lanes_cvt",
    "C83_lanes_recps",
    "C83_directed",
    "C83_enclosure",
    "C83_directed_exists",
    "C83_refuted",
    "C83_arithmetic_depends",
    "C83_flush_depends"
   ],
   "note": "Independence is proved for all functions but 29 (25 that compute with floats by purpose and 4 that should not), the lanes of the arithmetic functions in every environment, the directed roundings and interval sums for all finite operands. Refuted: vqsub(q)_s64/_u64 are integer functions but compute in double, so they depend on the rounding direction."
  },
  {
   "property": "C84",
   "status": "proved",
   "theorems": [
    "C84_order",
    "C84_forward",
    "C84_forward_only",
    "C84_backward",
    "C84_backward_only",
    "C84_tail",
    "C84_in_place",
    "C84_idempotent"
   ],
   "note": "Proved for all loads, stores and lane-wise functions of the library; the _only theorems show that the conditions on the order are needed."
  },
  {
   "property": "C85",
   "status": "partial",
   "theorems": [
    "C85_document",
    "C85_file",
    "C85_format",
    "C85_unique",
    "C85_verdict_partial",
    "C85_throw_refuted",
    "C85_less_refuted",
    "C85_format_refuted",
    "C85_project"
   ],
   "note": "Proved for names and messages that need no escaping, in particular for the project's tests. Violated in general: exceptions leave no trace, < in comparisons makes the file malformed, % in the source text is undefined. XML is modelled as far as the report needs it (elements, attributes, character data; characters are bytes)."
  },
  {
   "property": "C86",
   "status": "proved",
   "theorems": [
    "C86_source",
    "C86_integers",
    "C86_floats",
    "C86_registers",
    "C86_unique",
    "C86_types"
   ],
   "note": "The operators are compared with the text of the header line by line (C86_source). Of the stream's state the base and the text are modelled. The header is written for arm_neon.h: with the structs of neon_sim.h, which have no operator[], it does not compile."
  },
  {
   "property": "C87",
   "status": "partial",
   "theorems": [
    "C87_runs_partial",
    "C87_defined",
    "C87_exhausted_refuted",
    "C87_fixture_refuted",
    "C87_indexed"
   ],
   "note": "Violated: C87_defined gives the exact condition, C87_exhausted_refuted and C87_fixture_refuted the two ways to miss it. Reading a value that was not written counts as undefined (as in C++14), although the function that UTEST_F makes does not use the index it is given. A block has one owner and is modelled by its content."
  },
  {
   "property": "C88",
   "status": "partial",
   "theorems": [
    "C88_duration_partial",
    "C88_defined",
    "C88_windows_refuted",
    "C88_late_refuted",
    "C88_mach_refuted",
    "C88_mach_ticks",
    "C88_units",
    "C88_seed"
   ],
   "note": "Violated: C88_windows_refuted, C88_late_refuted and C88_mach_refuted; C88_defined is the exact condition. What the systems promise about their clocks is in ClockSpec.v (sane, same_clock). Emscripten's clock (a double) is left out. Durations of 10^13 ns and more: C77_units_refuted."
  },
  {
   "property": "C89",
   "status": "partial",
   "theorems": [
    "C89_isnan",
    "C89_fabs",
    "C89_near_exact",
    "C89_near_close",
    "C89_near_far_partial",
    "C89_near_nan",
    "C89_infinity_refuted",
    "C89_epsilon_refuted",
    "C89_streq",
    "C89_strneq",
    "C89_null_refuted"
   ],
   "note": "Violated: C89_infinity_refuted, C89_epsilon_refuted, C89_null_refuted; C89_near_far_partial leaves out distances above epsilon that are rounded to epsilon (C89_near_exact is the exact condition, the example has such a case). Arguments that are not doubles are taken after their conversion. strcmp and strncmp are those of the C standard."
  }
 ]
}