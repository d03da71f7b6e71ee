(** Immediate shifts and immediate validation: C28-C31. *)
From Coq Require Import ZArith String List Bool Lia.
From Verif Require Import Types Syntax Interp ProgRecip Spec Tables PropBase.
From Verif Require Import ProgShift ProgPerm ProgBit ProgRev.
From Verif Require Import P_Shift P_Perm.
Import ListNotations.
Open Scope Z_scope.

(** ** C28 Shift right (narrow).  Missing: vshr_n_u16 with n in 9..16, which aborts. *)

Theorem C28_vshrn : forall f t n, In (f, t, n) vshrn_table -> forall c m a k, lanes t n a -> 1 <= k <= width t / 2 ->
  run c m f [vec t a; rv I32 k]
  = Returns m (Some (vec (narrow t) (map (fun x => wrap (narrow t) (x / 2 ^ k)) a))).
Proof. intros f t n H c m a k. exact (vshrn_shift f t n c m a k H). Qed.
Print Assumptions C28_vshrn.

Theorem C28_vshr_n_u16_partial : forall c m a k, lanes U16 4 a -> 1 <= k <= 8 ->
  run c m vshr_n_u16 [vec U16 a; rv I32 k] = Returns m (Some (vec U16 (map (fun x => x / 2 ^ k) a))).
Proof. exact vshr_n_u16_shift. Qed.
Print Assumptions C28_vshr_n_u16_partial.

Theorem C28_vshr_n_u16_refuted : forall c m a k, lanes U16 4 a -> 9 <= k <= 16 ->
  run c m vshr_n_u16 [vec U16 a; rv I32 k] = Aborts.
Proof. intros c m a k Ha Hk. apply vshr_n_u16_reject; trivial; unfold in_range; cbn; lia. Qed.
Print Assumptions C28_vshr_n_u16_refuted.

Example C28_example : In (vshrn_n_s32, I32, 4%nat) vshrn_table /\ 1 <= 16 <= width I32 / 2 /\
  run strict [] vshrn_n_s32 [vec I32 [-1; 65536; -65537; 2147483647]; rv I32 16] = Returns [] (Some (vec I16 [-1; 1; -2; 32767])) /\
  run strict [] vshr_n_u16 [vec U16 [65535; 1; 2; 3]; rv I32 9] = Aborts.
Proof. lits. Qed.

(** ** C29 Saturating narrowing shifts *)

Theorem C29_vqshrn : forall f t n, In (f, t, n) vqshrn_table -> forall c m a k, lanes t n a ->
  0 <= k < width (computed_in t) ->
  run c m f [vec t a; rv I32 k]
  = Returns m (Some (vec (narrow t) (map (fun x => sat (narrow t) (x / 2 ^ k)) a))).
Proof. intros f t n H c m a k. exact (vqshrn_sat f t n c m a k H). Qed.
Print Assumptions C29_vqshrn.

Theorem C29_vqshrun_n_s16 : forall c m a k, lanes I16 8 a -> 1 <= k <= 8 ->
  run c m vqshrun_n_s16 [vec I16 a; rv I32 k]
  = Returns m (Some (vec U8 (map (fun x => sat U8 (x / 2 ^ k)) a))).
Proof. exact vqshrun_n_s16_sat. Qed.
Print Assumptions C29_vqshrun_n_s16.

Theorem C29_vqrshrun_n_s16 : forall c m a k, lanes I16 8 a -> 1 <= k <= 8 ->
  run c m vqrshrun_n_s16 [vec I16 a; rv I32 k]
  = Returns m (Some (vec U8 (map (fun x => sat U8 ((x + 2 ^ (k - 1)) / 2 ^ k)) a))).
Proof. exact vqrshrun_n_s16_sat. Qed.
Print Assumptions C29_vqrshrun_n_s16.

Theorem C29_vqshrn_n_s64_partial : forall c m a k, lanes I64 2 a -> 0 <= k < 64 ->
  Forall (fun x => x / 2 ^ k <= hi I32) a ->
  run c m vqshrn_n_s64 [vec I64 a; rv I32 k]
  = Returns m (Some (vec I32 (map (fun x => sat I32 (x / 2 ^ k)) a))).
Proof. exact vqshrn_n_s64_sat. Qed.
Print Assumptions C29_vqshrn_n_s64_partial.

Example C29_example : In (vqshrn_n_s16, I16, 8%nat) vqshrn_table /\ 0 <= 1 < width (computed_in I16) /\
  run strict [] vqshrn_n_s16 [vec I16 [32767; -32768; 255; 254; -256; -258; 1; 0]; rv I32 1]
  = Returns [] (Some (vec I8 [127; -128; 127; 127; -128; -128; 0; 0])) /\
  run strict [] vqrshrun_n_s16 [vec I16 [32767; -32768; 255; 254; -256; 3; 1; 0]; rv I32 1]
  = Returns [] (Some (vec U8 [255; 0; 128; 127; 0; 2; 1; 0])).
Proof. lits. Qed.

(** vqshrn_n_s64 clamps only from below: above 2^31-1 the value is reduced modulo 2^32. *)
Theorem C29_vqshrn_n_s64_refuted : forall c m a k, lanes I64 2 a -> 0 <= k < 64 ->
  run c m vqshrn_n_s64 [vec I64 a; rv I32 k]
  = Returns m (Some (vec I32 (map (fun x => wrap I32 (Z.max (x / 2 ^ k) (- 2 ^ 31))) a))).
Proof. exact vqshrn_n_s64_run. Qed.
Print Assumptions C29_vqshrn_n_s64_refuted.

(** vqshrun_n_s32 and vqshrun_n_s64 never assign their result: every lane is uninitialised. *)
Theorem C29_vqshrun_n_s32_refuted : forall c m a k, lanes I32 4 a -> 1 <= k <= 16 ->
  Forall (fun x => in_range I32 (x + 2 ^ (k - 1))) a ->
  run c m vqshrun_n_s32 [vec I32 a; rv I32 k] = Returns m (Some (OArr (repeat (OScal U16 None) 4))).
Proof. exact vqshrun_n_s32_dropped. Qed.
Print Assumptions C29_vqshrun_n_s32_refuted.

Theorem C29_vqshrun_n_s64_refuted : forall c m a k, lanes I64 2 a -> 1 <= k <= 31 ->
  Forall (fun x => in_range I64 (x + 2 ^ (k - 1))) a ->
  run c m vqshrun_n_s64 [vec I64 a; rv I32 k] = Returns m (Some (OArr (repeat (OScal U32 None) 2))).
Proof. exact vqshrun_n_s64_dropped. Qed.
Print Assumptions C29_vqshrun_n_s64_refuted.

Example C29_refuted_example :
  run strict [] vqshrn_n_s64 [vec I64 [4294967296; 2147483648]; rv I32 0] = Returns [] (Some (vec I32 [0; -2147483648])) /\
  sat I32 (4294967296 / 2 ^ 0) = 2147483647 /\
  run strict [] vqshrun_n_s32 [vec I32 [1; 2; 3; 4]; rv I32 1] = Returns [] (Some (OArr (repeat (OScal U16 None) 4))).
Proof. lits. Qed.

(** ** C30 Other immediate shifts *)

Theorem C30_vrshrn_n_u16 : forall c m a k, lanes U16 8 a -> 1 <= k <= 8 ->
  run c m vrshrn_n_u16 [vec U16 a; rv I32 k]
  = Returns m (Some (vec U8 (map (fun x => wrap U8 ((x + 2 ^ (k - 1)) / 2 ^ k)) a))).
Proof. intros c m a k Ha Hk. apply vrshrn_n_u16_round; trivial; lia. Qed.
Print Assumptions C30_vrshrn_n_u16.

Theorem C30_vshll_n_u8 : forall c m a k, lanes U8 8 a -> 0 <= k <= 8 ->
  run c m vshll_n_u8 [vec U8 a; rv I32 k] = Returns m (Some (vec U16 (map (fun x => x * 2 ^ k) a))).
Proof. exact vshll_n_u8_exact. Qed.
Print Assumptions C30_vshll_n_u8.

Theorem C30_vshlq_n_s32_partial : forall c m a k, lanes I32 4 a -> 0 <= k <= 31 ->
  wrapv c = true \/ Forall (fun x => 0 <= x /\ x * 2 ^ k < 2 ^ 32) a ->
  run c m vshlq_n_s32 [vec I32 a; rv I32 k]
  = Returns m (Some (vec I32 (map (fun x => wrap I32 (x * 2 ^ k)) a))).
Proof. exact vshlq_n_s32_ok. Qed.
Print Assumptions C30_vshlq_n_s32_partial.

Example C30_example : lanes U16 8 [65535; 1; 2; 3; 4; 5; 6; 7] /\
  run strict [] vrshrn_n_u16 [vec U16 [65535; 1; 2; 3; 4; 5; 6; 7]; rv I32 1] = Returns [] (Some (vec U8 [0; 1; 1; 2; 2; 3; 3; 4])) /\
  run strict [] vshlq_n_s32 [vec I32 [1; 2; 3; 1073741823]; rv I32 2] = Returns [] (Some (vec I32 [4; 8; 12; -4])).
Proof. lits. Qed.

(** Left shifts of negative lanes, or past bit 31, are undefined in C++11. *)
Theorem C30_vshlq_n_s32_refuted : forall c m a k, lanes I32 4 a -> 0 <= k <= 31 -> wrapv c = false ->
  Exists (fun x => x < 0 \/ 2 ^ 32 <= x * 2 ^ k) a ->
  run c m vshlq_n_s32 [vec I32 a; rv I32 k] = Undefined BadShift.
Proof. intros c m a k Ha Hk Hc He. apply vshlq_n_s32_ub; trivial; [unfold in_range; cbn; lia|now right]. Qed.
Print Assumptions C30_vshlq_n_s32_refuted.

(** vsraq_n_s32 shifts the accumulator too: (a>>n)+(b>>n), not a+(b>>n). *)
Theorem C30_vsraq_n_s32_refuted : forall c m a b k, lanes I32 4 a -> lanes I32 4 b -> 1 <= k <= 31 ->
  run c m vsraq_n_s32 [vec I32 a; vec I32 b; rv I32 k]
  = Returns m (Some (vec I32 (map2 (fun x y => x / 2 ^ k + y / 2 ^ k) a b))).
Proof. exact vsraq_n_s32_value. Qed.
Print Assumptions C30_vsraq_n_s32_refuted.

Example C30_refuted_example :
  run strict [] vsraq_n_s32 [vec I32 [100; 0; 0; 0]; vec I32 [4; 0; 0; 0]; rv I32 1] = Returns [] (Some (vec I32 [52; 0; 0; 0])) /\
  100 + 4 / 2 ^ 1 = 102 /\
  run strict [] vshlq_n_s32 [vec I32 [-1; 0; 0; 0]; rv I32 1] = Undefined BadShift.
Proof. lits. Qed.

(** ** C31 Validation of immediates: functions that abort exactly outside a range. *)

Theorem C31_vshrn : forall f t n, In (f, t, n) vshrn_table -> forall c m a k, lanes t n a -> in_range I32 k ->
  ~ (1 <= k <= width t / 2) -> run c m f [vec t a; rv I32 k] = Aborts.
Proof. intros f t n H c m a k. exact (vshrn_reject f t n c m a k H). Qed.
Print Assumptions C31_vshrn.

Theorem C31_vshr_n_u16 : forall c m a k, lanes U16 4 a -> in_range I32 k -> ~ (1 <= k <= 16) ->
  run c m vshr_n_u16 [vec U16 a; rv I32 k] = Aborts.
Proof. intros c m a k Ha Hk Hn. apply vshr_n_u16_reject; trivial; lia. Qed.
Print Assumptions C31_vshr_n_u16.

Theorem C31_vqshrun : forall f t n k0,
  In (f, t, n, k0) [(vqshrun_n_s16, I16, 8%nat, 8); (vqshrun_n_s32, I32, 4%nat, 16);
                    (vqshrun_n_s64, I64, 2%nat, 32); (vqrshrun_n_s16, I16, 8%nat, 8)] ->
  forall c m a k, lanes t n a -> in_range I32 k -> ~ (1 <= k <= k0) ->
  run c m f [vec t a; rv I32 k] = Aborts.
Proof. intros f t n k0 H c m a k. exact (vqshrun_reject f t n k0 c m a k H). Qed.
Print Assumptions C31_vqshrun.

Theorem C31_vext : forall f t n, In (f, t, n) vext_table -> forall c m a b k, lanes t n a -> lanes t n b ->
  in_range I32 k -> k < 0 \/ 8 < k \/ (n = 4%nat /\ 3 < k) ->
  run c m f [vec t a; vec t b; rv I32 k] = Aborts.
Proof. intros f t n H c m a b k. exact (vext_reject f t n c m a b k H). Qed.
Print Assumptions C31_vext.

Example C31_example : in_range I32 (-5) /\ ~ (1 <= -5 <= width I16 / 2) /\
  run strict [] vshrn_n_s16 [vec I16 (repeat 0 8); rv I32 (-5)] = Aborts /\
  run strict [] vext_s16 [vec I16 (repeat 0 4); vec I16 (repeat 0 4); rv I32 4] = Aborts.
Proof. lits. Qed.

(** vext_u8 and vextq_u16 accept n = 8, just outside the documented range, returning the second operand. *)
Theorem C31_vext8_refuted : forall f t, f = vext_u8 /\ t = U8 \/ f = vextq_u16 /\ t = U16 ->
  forall c m a b, lanes t 8 a -> lanes t 8 b ->
  run c m f [vec t a; vec t b; rv I32 8] = Returns m (Some (vec t b)).
Proof. intros f t H c m a b. exact (vext8_full f t c m a b H). Qed.
Print Assumptions C31_vext8_refuted.

(** The functions without a check shift by invalid amounts. *)
Theorem C31_vqshrn_refuted : forall f t n, In (f, t, n) vqshrn_table -> forall c m a k, lanes t n a -> in_range I32 k ->
  ~ (0 <= k < width (computed_in t)) ->
  run c m f [vec t a; rv I32 k] = Undefined BadShift.
Proof. intros f t n H c m a k. exact (vqshrn_bad f t n c m a k H). Qed.
Print Assumptions C31_vqshrn_refuted.

Theorem C31_vqshrn_n_s64_refuted : forall c m a k, lanes I64 2 a -> in_range I32 k -> ~ (0 <= k < 64) ->
  run c m vqshrn_n_s64 [vec I64 a; rv I32 k] = Undefined BadShift.
Proof. exact vqshrn_n_s64_bad. Qed.
Print Assumptions C31_vqshrn_n_s64_refuted.

Theorem C31_vrshrn_n_u16_refuted : forall c m a k, lanes U16 8 a -> in_range I32 k -> ~ (1 <= k <= 31) ->
  wrapv c = true \/ k <> -2147483648 ->
  run c m vrshrn_n_u16 [vec U16 a; rv I32 k] = Undefined BadShift.
Proof. exact vrshrn_n_u16_bad. Qed.
Print Assumptions C31_vrshrn_n_u16_refuted.

Theorem C31_vshlq_n_s32_refuted : forall c m a k, lanes I32 4 a -> in_range I32 k -> wrapv c = false -> ~ (0 <= k <= 31) ->
  run c m vshlq_n_s32 [vec I32 a; rv I32 k] = Undefined BadShift.
Proof. intros c m a k Ha Hk Hc Hn. apply vshlq_n_s32_ub; trivial; now left. Qed.
Print Assumptions C31_vshlq_n_s32_refuted.

Example C31_refuted_example :
  run strict [] vqshrn_n_s16 [vec I16 (repeat 0 8); rv I32 (-1)] = Undefined BadShift /\
  run strict [] vshlq_n_s32 [vec I32 (repeat 0 4); rv I32 32] = Undefined BadShift.
Proof. lits. Qed.
