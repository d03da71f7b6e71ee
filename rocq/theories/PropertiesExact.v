(** The inputs the theorems for C16, C17, C23, C29, C30 and C31 leave open: with these, the
    outcome of each of the functions concerned is known for every input. *)
From Coq Require Import ZArith String List Bool Lia Reals Lra.
From Flocq Require Import Core.
From Verif Require Import Types FloatSpec Syntax Interp ProgRecip Spec Tables PropBase.
From Verif Require Import ProgAdd ProgSub ProgMul ProgShift P_Qsub64 P_Exact.
Import ListNotations.
Open Scope Z_scope.

(** ** C16 Overflow of the sum or difference *)

Theorem C16_vaddhn_high_overflow_refuted : forall f t n, In (f, t, n) vaddhn_high_bad_table -> forall c m r a b,
  lanes (narrow t) n r -> lanes t n a -> lanes t n b -> wrapv c = false -> is_signed t = true ->
  some_lane (fun x y => ~ in_range t (x + y)) a b ->
  run c m f [vec (narrow t) r; vec t a; vec t b] = Undefined SignedOverflow.
Proof. intros f t n H c m r a b. exact (vaddhn_high_bad_overflow f t n c m r a b H). Qed.
Print Assumptions C16_vaddhn_high_overflow_refuted.

Theorem C16_vsubn_overflow_refuted : forall f t n, In (f, t, n) vsubn_table -> forall c m a b,
  lanes t n a -> lanes t n b -> wrapv c = false -> is_signed t = true ->
  some_lane (fun x y => ~ in_range t (x - y)) a b ->
  run c m f [vec t a; vec t b] = Undefined SignedOverflow.
Proof. intros f t n H c m a b. exact (vsubn_overflow f t n c m a b H). Qed.
Print Assumptions C16_vsubn_overflow_refuted.

Theorem C16_vrsubhn64_overflow_refuted : forall f t n, In (f, t, n) vrsubhn64_table -> forall c m a b,
  lanes t n a -> lanes t n b -> wrapv c = false -> is_signed t = true ->
  some_lane (fun x y => ~ (in_range t (x - y) /\ in_range t (x - y - 2 ^ 31))) a b ->
  run c m f [vec t a; vec t b] = Undefined SignedOverflow.
Proof. intros f t n H c m a b. exact (vrsubhn64_overflow f t n c m a b H). Qed.
Print Assumptions C16_vrsubhn64_overflow_refuted.

Example C16_overflow_example :
  In (vaddhn_high_s32, I32, 4%nat) vaddhn_high_bad_table /\ In (vsubn_s64, I64, 2%nat) vsubn_table /\
  In (vrsubhn_s64, I64, 2%nat) vrsubhn64_table /\
  run strict [] vaddhn_high_s32 [vec I16 [1; 2; 3; 4]; vec I32 [2147483647; 0; 0; 0]; vec I32 [1; 0; 0; 0]] = Undefined SignedOverflow /\
  run strict [] vsubn_s64 [vec I64 [0; 9223372036854775807]; vec I64 [0; -1]] = Undefined SignedOverflow /\
  run strict [] vrsubhn_s64 [vec I64 [-9223372036854775808; 0]; vec I64 [0; 0]] = Undefined SignedOverflow.
Proof. lits. Qed.

(** ** C17 64-bit saturating subtraction, for every input: the operands are rounded to double, subtracted, the
    difference is rounded to double ([double_diff]), truncated and saturated.  When the rounded
    difference is exactly one past the largest lane value the conversion back is undefined. *)

Theorem C17_vqsub64_value_refuted : forall f t n, In (f, t, n) vqsub64_table -> forall c m a b,
  lanes t n a -> lanes t n b ->
  all_lanes (fun x y => double_diff x y <> IZR (hi t + 1)) a b ->
  run c m f [vec t a; vec t b]
  = Returns m (Some (vec t (map2 (fun x y => sat t (Ztrunc (double_diff x y))) a b))).
Proof. intros f t n H c m a b. exact (vqsub64_value f t n c m a b H). Qed.
Print Assumptions C17_vqsub64_value_refuted.

Theorem C17_vqsub64_cast_refuted : forall f t n, In (f, t, n) vqsub64_table -> forall c m a b,
  lanes t n a -> lanes t n b ->
  some_lane (fun x y => double_diff x y = IZR (hi t + 1)) a b ->
  run c m f [vec t a; vec t b] = Undefined FloatCast.
Proof. intros f t n H c m a b. exact (vqsub64_cast f t n c m a b H). Qed.
Print Assumptions C17_vqsub64_cast_refuted.

(** Wherever it returns, it is within 4096 of the saturated difference. *)
Theorem C17_vqsub64_error_partial : forall f t n, In (f, t, n) vqsub64_table -> forall c m a b m' r,
  lanes t n a -> lanes t n b ->
  run c m f [vec t a; vec t b] = Returns m' (Some (vec t r)) ->
  m' = m /\ List.length r = n /\
  forall i x y z, nth_error a i = Some x -> nth_error b i = Some y -> nth_error r i = Some z ->
    Z.abs (z - sat t (x - y)) <= 4096.
Proof. intros f t n H c m a b m' r. exact (vqsub64_near f t n c m a b m' r H). Qed.
Print Assumptions C17_vqsub64_error_partial.

Example C17_value_example : In (vqsubq_s64, I64, 2%nat) vqsub64_table /\
  run strict [] vqsubq_s64 [vec I64 [9223372036854775807; 5]; vec I64 [1024; 9]]
  = Returns [] (Some (vec I64 [9223372036854774784; -4])) /\
  Z.abs (9223372036854774784 - sat I64 (9223372036854775807 - 1024)) = 1.
Proof. lits. Qed.

(** ** C23 vmlal_u32 and vmlsl_u32 reduce the product modulo 2^32, for every input. *)

Theorem C23_vmlal_u32_value_refuted : forall c m a b d, lanes U64 2 a -> lanes U32 2 b -> lanes U32 2 d ->
  run c m vmlal_u32 [vec U64 a; vec U32 b; vec U32 d]
  = Returns m (Some (vec U64 (map3 (fun x y z => wrap U64 (x + wrap U32 (y * z))) a b d))).
Proof. exact vmlal_u32_run. Qed.
Print Assumptions C23_vmlal_u32_value_refuted.

Theorem C23_vmlsl_u32_value_refuted : forall c m a b d, lanes U64 2 a -> lanes U32 2 b -> lanes U32 2 d ->
  run c m vmlsl_u32 [vec U64 a; vec U32 b; vec U32 d]
  = Returns m (Some (vec U64 (map3 (fun x y z => wrap U64 (x - wrap U32 (y * z))) a b d))).
Proof. exact vmlsl_u32_run. Qed.
Print Assumptions C23_vmlsl_u32_value_refuted.

Example C23_value_example :
  run strict [] vmlal_u32 [vec U64 [7; 18446744073709551615]; vec U32 [65537; 2]; vec U32 [65536; 3]]
  = Returns [] (Some (vec U64 [65543; 5])) /\ wrap U64 (7 + 65537 * 65536) = 4295032839.
Proof. lits. Qed.

(** ** C29 The two functions that drop their result, for every accepted shift *)

Theorem C29_vqshrun_n_s32_overflow_refuted : forall c m a k, lanes I32 4 a -> 1 <= k <= 16 -> wrapv c = false ->
  Exists (fun x => ~ in_range I32 (x + 2 ^ (k - 1))) a ->
  run c m vqshrun_n_s32 [vec I32 a; rv I32 k] = Undefined SignedOverflow.
Proof. exact vqshrun_n_s32_overflow. Qed.
Print Assumptions C29_vqshrun_n_s32_overflow_refuted.

Theorem C29_vqshrun_n_s32_wrapv_refuted : forall c m a k, lanes I32 4 a -> 1 <= k <= 16 -> wrapv c = true ->
  run c m vqshrun_n_s32 [vec I32 a; rv I32 k] = Returns m (Some (OArr (repeat (OScal U16 None) 4))).
Proof. exact vqshrun_n_s32_wrapv. Qed.
Print Assumptions C29_vqshrun_n_s32_wrapv_refuted.

(** vqshrun_n_s64 computes its rounding constant in [int], so for n = 32 it is -2^31. *)
Theorem C29_vqshrun_n_s64_value_refuted : forall c m a k, lanes I64 2 a -> 1 <= k <= 32 ->
  wrapv c = true \/ Forall (fun x => in_range I64 (x + if k =? 32 then - 2 ^ 31 else 2 ^ (k - 1))) a ->
  run c m vqshrun_n_s64 [vec I64 a; rv I32 k] = Returns m (Some (OArr (repeat (OScal U32 None) 2))).
Proof. exact vqshrun_n_s64_run. Qed.
Print Assumptions C29_vqshrun_n_s64_value_refuted.

Theorem C29_vqshrun_n_s64_overflow_refuted : forall c m a k, lanes I64 2 a -> 1 <= k <= 32 -> wrapv c = false ->
  Exists (fun x => ~ in_range I64 (x + if k =? 32 then - 2 ^ 31 else 2 ^ (k - 1))) a ->
  run c m vqshrun_n_s64 [vec I64 a; rv I32 k] = Undefined SignedOverflow.
Proof. exact vqshrun_n_s64_overflow. Qed.
Print Assumptions C29_vqshrun_n_s64_overflow_refuted.

Example C29_overflow_example :
  run strict [] vqshrun_n_s32 [vec I32 [0; 0; 0; 2147483647]; rv I32 1] = Undefined SignedOverflow /\
  run strict [] vqshrun_n_s64 [vec I64 [0; -9223372036854775808]; rv I32 32] = Undefined SignedOverflow /\
  run strict [] vqshrun_n_s64 [vec I64 [0; 9223372036854775807]; rv I32 32] = Returns [] (Some (OArr (repeat (OScal U32 None) 2))).
Proof. lits. Qed.

(** ** C31 Immediates that are not checked *)

(** vshll_n_u8 documents n in 0..7.  It accepts more, and is undefined outside 0..31. *)
Theorem C31_vshll_n_u8_accepts_refuted : forall c m a k, lanes U8 8 a -> 0 <= k <= 31 ->
  wrapv c = true \/ Forall (fun x => x * 2 ^ k < 2 ^ 32) a ->
  run c m vshll_n_u8 [vec U8 a; rv I32 k]
  = Returns m (Some (vec U16 (map (fun x => wrap U16 (x * 2 ^ k)) a))).
Proof. exact vshll_n_u8_value. Qed.
Print Assumptions C31_vshll_n_u8_accepts_refuted.

Theorem C31_vshll_n_u8_refuted : forall c m a k, lanes U8 8 a ->
  ~ (0 <= k <= 31) \/ (wrapv c = false /\ Exists (fun x => 2 ^ 32 <= x * 2 ^ k) a) ->
  run c m vshll_n_u8 [vec U8 a; rv I32 k] = Undefined BadShift.
Proof. exact vshll_n_u8_bad. Qed.
Print Assumptions C31_vshll_n_u8_refuted.

(** vshlq_n_s32 documents n in 0..31; outside it is undefined, with -fwrapv too. *)
Theorem C31_vshlq_n_s32_any_refuted : forall c m a k, lanes I32 4 a -> ~ (0 <= k <= 31) ->
  run c m vshlq_n_s32 [vec I32 a; rv I32 k] = Undefined BadShift.
Proof. exact vshlq_n_s32_bad. Qed.
Print Assumptions C31_vshlq_n_s32_any_refuted.

(** vsraq_n_s32 documents n in 1..32.  It accepts 0, and is undefined for 32 and everything outside 0..31. *)
Theorem C31_vsraq_n_s32_zero_refuted : forall c m a b, lanes I32 4 a -> lanes I32 4 b ->
  (wrapv c = true \/ all_lanes (fun x y => in_range I32 (x + y)) a b ->
   run c m vsraq_n_s32 [vec I32 a; vec I32 b; rv I32 0]
   = Returns m (Some (vec I32 (map2 (fun x y => wrap I32 (x + y)) a b)))) /\
  (wrapv c = false -> some_lane (fun x y => ~ in_range I32 (x + y)) a b ->
   run c m vsraq_n_s32 [vec I32 a; vec I32 b; rv I32 0] = Undefined SignedOverflow).
Proof. exact vsraq_n_s32_zero. Qed.
Print Assumptions C31_vsraq_n_s32_zero_refuted.

Theorem C31_vsraq_n_s32_refuted : forall c m a b k, lanes I32 4 a -> lanes I32 4 b -> in_range I32 k ->
  ~ (0 <= k <= 31) ->
  run c m vsraq_n_s32 [vec I32 a; vec I32 b; rv I32 k] = Undefined BadShift.
Proof. exact vsraq_n_s32_bad. Qed.
Print Assumptions C31_vsraq_n_s32_refuted.

(** vrshrn_n_u16 with the smallest [int]: n - 1 overflows. *)
Theorem C31_vrshrn_n_u16_min_refuted : forall c m a, lanes U16 8 a -> wrapv c = false ->
  run c m vrshrn_n_u16 [vec U16 a; rv I32 (-2147483648)] = Undefined SignedOverflow.
Proof. exact vrshrn_n_u16_min. Qed.
Print Assumptions C31_vrshrn_n_u16_min_refuted.

Example C31_unchecked_example :
  run strict [] vshll_n_u8 [vec U8 [255; 1; 0; 0; 0; 0; 0; 0]; rv I32 9] = Returns [] (Some (vec U16 [65024; 512; 0; 0; 0; 0; 0; 0])) /\
  run strict [] vshll_n_u8 [vec U8 [255; 1; 0; 0; 0; 0; 0; 0]; rv I32 25] = Undefined BadShift /\
  run wrapping [] vshlq_n_s32 [vec I32 [1; 1; 1; 1]; rv I32 32] = Undefined BadShift /\
  run strict [] vsraq_n_s32 [vec I32 [1; 1; 1; 1]; vec I32 [1; 1; 1; 1]; rv I32 32] = Undefined BadShift /\
  run strict [] vrshrn_n_u16 [vec U16 [1; 2; 3; 4; 5; 6; 7; 8]; rv I32 (-2147483648)] = Undefined SignedOverflow.
Proof. lits. Qed.
