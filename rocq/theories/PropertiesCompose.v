(** C62-C63: identities between intrinsics, and the rest of C24.  [and_then (f x) (fun v => g v)] is the outcome of
    calling f and then g on what f returned; the equalities below include the outcomes that are undefined behaviour. *)
From Coq Require Import ZArith String List Bool Lia.
From Verif Require Import Types Syntax Interp ProgRecip Library Spec Tables PropBase Compose.
From Verif Require Import ProgAdd ProgSub ProgMul ProgBit ProgShift ProgPerm ProgRev ProgLoad ProgStore P_Compose P_Compose2 P_Compose3.
Import ListNotations.
Open Scope Z_scope.

Ltac in_table := repeat (first [left; reflexivity | right]); fail.

(** ** C24 The unsigned maxima and minima.  [a] and [b] are vectors of unsigned numbers, handed to the library
    (whose vmaxq_u8 ... are defined on signed vectors) as the signed vectors with the same bits. *)

Theorem C24_unsigned_max_partial : forall f t n, In (f, t, n) vmax_u_table -> forall c m a b,
  lanes (unsigned_of t) n a -> lanes (unsigned_of t) n b -> (forall x y, In (x, y) (combine a b) -> same_half t x y = true) ->
  run c m f [vec t (map (wrap t) a); vec t (map (wrap t) b)] = Returns m (Some (vec t (map (wrap t) (map2 Z.max a b)))).
Proof. exact vmax_u_same. Qed.
Print Assumptions C24_unsigned_max_partial.

Theorem C24_unsigned_min_partial : forall f t n, In (f, t, n) vmin_u_table -> forall c m a b,
  lanes (unsigned_of t) n a -> lanes (unsigned_of t) n b -> (forall x y, In (x, y) (combine a b) -> same_half t x y = true) ->
  run c m f [vec t (map (wrap t) a); vec t (map (wrap t) b)] = Returns m (Some (vec t (map (wrap t) (map2 Z.min a b)))).
Proof. exact vmin_u_same. Qed.
Print Assumptions C24_unsigned_min_partial.

(** lanes whose top bits differ get the minimum instead *)
Theorem C24_unsigned_max_refuted : forall f t n, In (f, t, n) vmax_u_table -> forall c m a b,
  lanes (unsigned_of t) n a -> lanes (unsigned_of t) n b ->
  run c m f [vec t (map (wrap t) a); vec t (map (wrap t) b)]
  = Returns m (Some (vec t (map (wrap t) (map2 (fun x y => if same_half t x y then Z.max x y else Z.min x y) a b)))).
Proof. intros f t n H c m a b. exact (vmax_u_exact f t n c m a b H). Qed.
Print Assumptions C24_unsigned_max_refuted.

Theorem C24_unsigned_min_refuted : forall f t n, In (f, t, n) vmin_u_table -> forall c m a b,
  lanes (unsigned_of t) n a -> lanes (unsigned_of t) n b ->
  run c m f [vec t (map (wrap t) a); vec t (map (wrap t) b)]
  = Returns m (Some (vec t (map (wrap t) (map2 (fun x y => if same_half t x y then Z.min x y else Z.max x y) a b)))).
Proof. intros f t n H c m a b. exact (vmin_u_exact f t n c m a b H). Qed.
Print Assumptions C24_unsigned_min_refuted.

Example C24_unsigned_example : In (vmaxq_u32, I32, 4%nat) vmax_u_table /\ lanes (unsigned_of I32) 4 [1; 2; 3000000000; 4000000000] /\
  map (wrap I32) [1; 2; 3000000000; 4000000000] = [1; 2; -1294967296; -294967296] /\
  (forall x y, In (x, y) (combine [1; 2; 3000000000; 4000000000] [5; 1; 4000000000; 3000000000]) -> same_half I32 x y = true) /\
  (* the maximum of 1 and 3000000000, according to vmaxq_u32 *)
  run strict [] vmaxq_u32 [vec I32 [1; 0; 0; 0]; vec I32 [-1294967296; 0; 0; 0]] = Returns [] (Some (vec I32 [1; 0; 0; 0])).
Proof.
  split; [in_table|]. split; [lanes_lit|]. split; [reflexivity|]. split; [|vm_compute; reflexivity].
  cbn [combine In]. intros x y H. repeat (destruct H as [H|H]; [injection H as <- <-; reflexivity|]). destruct H.
Qed.

(** ** C62 An intrinsic that fuses two steps behaves as the two steps.  Missing from the [_partial] theorem:
    vmlaq_u16 when signed overflow is undefined behaviour. *)

Theorem C62_vmlal : forall f g h t n, In (f, t, n) vmlal_table -> In (g, t, n) vmull_table -> In (h, wide t, n) vadd_table ->
  forall c m a b d, lanes (wide t) n a -> lanes t n b -> lanes t n d ->
  run c m f [vec (wide t) a; vec t b; vec t d]
  = and_then (run c m g [vec t b; vec t d]) (fun p => run c m h [vec (wide t) a; p]).
Proof. intros f g h t n H1 H2 H3 c m a b d. exact (vmlal_compose f g h t n c m a b d H1 H2 H3). Qed.
Print Assumptions C62_vmlal.

Theorem C62_vmlsl : forall f g h t n, In (f, t, n) vmlsl_table -> In (g, t, n) vmull_table -> In (h, wide t, n) vsub_table ->
  forall c m a b d, lanes (wide t) n a -> lanes t n b -> lanes t n d ->
  run c m f [vec (wide t) a; vec t b; vec t d]
  = and_then (run c m g [vec t b; vec t d]) (fun p => run c m h [vec (wide t) a; p]).
Proof. intros f g h t n H1 H2 H3 c m a b d. exact (vmlsl_compose f g h t n c m a b d H1 H2 H3). Qed.
Print Assumptions C62_vmlsl.

Theorem C62_vmlaq_partial : forall f g h t n, In (f, t, n) vmlaq_table -> In (g, t, n) vmul_table -> In (h, t, n) vadd_table ->
  forall c m a b d, t <> U16 \/ wrapv c = true -> lanes t n a -> lanes t n b -> lanes t n d ->
  run c m f [vec t a; vec t b; vec t d] = and_then (run c m g [vec t b; vec t d]) (fun p => run c m h [vec t a; p]).
Proof. intros f g h t n H1 H2 H3 c m a b d. exact (vmlaq_compose f g h t n c m a b d H1 H2 H3). Qed.
Print Assumptions C62_vmlaq_partial.

Theorem C62_vmlaq_refuted : forall nan m,
  run (mkcfg false nan) m vmlaq_u16 [vec U16 (repeat 65535 8); vec U16 (repeat 65535 8); vec U16 (repeat 32768 8)] = Undefined SignedOverflow
  /\ and_then (run (mkcfg false nan) m vmulq_u16 [vec U16 (repeat 65535 8); vec U16 (repeat 32768 8)])
       (fun p => run (mkcfg false nan) m vaddq_u16 [vec U16 (repeat 65535 8); p]) = Returns m (Some (vec U16 (repeat 32767 8))).
Proof. exact vmlaq_u16_differs. Qed.
Print Assumptions C62_vmlaq_refuted.

Theorem C62_vmul_n : forall f g h t n, In (f, t, n) vmul_n_table -> In (g, t, n) vmul_table -> In (h, t, n) vdup_table ->
  forall c m a k, lanes t n a -> in_range t k ->
  run c m f [vec t a; rv t k] = and_then (run c m h [rv t k]) (fun p => run c m g [vec t a; p]).
Proof. intros f g h t n H1 H2 H3 c m a k. exact (vmul_n_compose f g h t n c m a k H1 H2 H3). Qed.
Print Assumptions C62_vmul_n.

Theorem C62_vmull_n : forall f g h t n, In (f, t, n) vmull_n_table -> In (g, t, n) vmull_table -> In (h, t, n) vdup_table ->
  forall c m a k, lanes t n a -> in_range t k ->
  run c m f [vec t a; rv t k] = and_then (run c m h [rv t k]) (fun p => run c m g [vec t a; p]).
Proof. intros f g h t n H1 H2 H3 c m a k. exact (vmull_n_compose f g h t n c m a k H1 H2 H3). Qed.
Print Assumptions C62_vmull_n.

Theorem C62_vaddw : forall f g h t n, In (f, t, n) vaddw_table -> In (g, wide t, n) vadd_table -> In (h, t, n) vmovl_table ->
  forall c m a b, lanes (wide t) n a -> lanes t n b ->
  run c m f [vec (wide t) a; vec t b] = and_then (run c m h [vec t b]) (fun w => run c m g [vec (wide t) a; w]).
Proof. intros f g h t n H1 H2 H3 c m a b. exact (vaddw_compose f g h t n c m a b H1 H2 H3). Qed.
Print Assumptions C62_vaddw.

Theorem C62_vsubw : forall f g h t n, In (f, t, n) vsubw_table -> In (g, wide t, n) vsub_table -> In (h, t, n) vmovl_table ->
  forall c m a b, lanes (wide t) n a -> lanes t n b ->
  run c m f [vec (wide t) a; vec t b] = and_then (run c m h [vec t b]) (fun w => run c m g [vec (wide t) a; w]).
Proof. intros f g h t n H1 H2 H3 c m a b. exact (vsubw_compose f g h t n c m a b H1 H2 H3). Qed.
Print Assumptions C62_vsubw.

Theorem C62_vaddl : forall f g h t n, In (f, t, n) vaddl_table -> In (g, t, n) vaddw_table -> In (h, t, n) vmovl_table ->
  forall c m a b, lanes t n a -> lanes t n b ->
  run c m f [vec t a; vec t b] = and_then (run c m h [vec t a]) (fun w => run c m g [w; vec t b]).
Proof. intros f g h t n H1 H2 H3 c m a b. exact (vaddl_compose f g h t n c m a b H1 H2 H3). Qed.
Print Assumptions C62_vaddl.

Theorem C62_vsubl : forall f g h t n, In (f, t, n) vsubl_table -> In (g, t, n) vsubw_table -> In (h, t, n) vmovl_table ->
  forall c m a b, lanes t n a -> lanes t n b ->
  run c m f [vec t a; vec t b] = and_then (run c m h [vec t a]) (fun w => run c m g [w; vec t b]).
Proof. intros f g h t n H1 H2 H3 c m a b. exact (vsubl_compose f g h t n c m a b H1 H2 H3). Qed.
Print Assumptions C62_vsubl.

Theorem C62_vaddw_high : forall f g h t n, In (f, t, n) vaddw_high_table -> In (g, t, n) vaddw_table -> In (h, t, n) vget_high_table ->
  forall c m a b, lanes (wide t) n a -> lanes t (2 * n) b ->
  run c m f [vec (wide t) a; vec t b] = and_then (run c m h [vec t b]) (fun w => run c m g [vec (wide t) a; w]).
Proof. intros f g h t n H1 H2 H3 c m a b. exact (vaddw_high_compose f g h t n c m a b H1 H2 H3). Qed.
Print Assumptions C62_vaddw_high.

Theorem C62_vsubhn : forall f g h t n, In (f, t, n) vsubhn_table -> In (g, t, n) vsub_table -> In (h, t, n) vshrn_table ->
  forall c m a b, lanes t n a -> lanes t n b ->
  run c m f [vec t a; vec t b] = and_then (run c m g [vec t a; vec t b]) (fun d => run c m h [d; rv I32 8]).
Proof. intros f g h t n H1 H2 H3 c m a b. exact (vsubhn_compose f g h t n c m a b H1 H2 H3). Qed.
Print Assumptions C62_vsubhn.

Theorem C62_vaddhn_high : forall f g h k t n, In (f, t, n) vaddhn_high_table -> In (g, t, n) vadd_table -> In (h, t, n) vshrn_table ->
  In (k, narrow t, n) vcombine_table -> forall c m r a b, lanes (narrow t) n r -> lanes t n a -> lanes t n b ->
  run c m f [vec (narrow t) r; vec t a; vec t b]
  = and_then (run c m g [vec t a; vec t b]) (fun s => and_then (run c m h [s; rv I32 8]) (fun d => run c m k [vec (narrow t) r; d])).
Proof. intros f g h k t n H1 H2 H3 H4 c m r a b. exact (vaddhn_high_compose f g h k t n c m r a b H1 H2 H3 H4). Qed.
Print Assumptions C62_vaddhn_high.

(** vsubn_T, the misnamed vsubhn_T of 32- and 64-bit lanes, shifts by 8 whatever the width of the lanes *)
Theorem C62_vsubn_refuted : forall f g h t n, In (f, t, n) vsubn_table -> In (g, t, n) vsub_table -> In (h, t, n) vshrn_table ->
  forall c m a b, lanes t n a -> lanes t n b ->
  run c m f [vec t a; vec t b] = and_then (run c m g [vec t a; vec t b]) (fun d => run c m h [d; rv I32 8]).
Proof. intros f g h t n H1 H2 H3 c m a b. exact (vsubn_compose f g h t n c m a b H1 H2 H3). Qed.
Print Assumptions C62_vsubn_refuted.

Theorem C62_vqadd_u8 : forall c m a b, lanes U8 8 a -> lanes U8 8 b ->
  run c m vqadd_u8 [vec U8 a; vec U8 b] = and_then (run c m vaddl_u8 [vec U8 a; vec U8 b]) (fun s => run c m vqmovn_u16 [s]).
Proof. exact vqadd_u8_compose. Qed.
Print Assumptions C62_vqadd_u8.

Theorem C62_vshll : forall c m a k, lanes U8 8 a -> 0 <= k <= 7 ->
  run c m vshll_n_u8 [vec U8 a; rv I32 k]
  = and_then (run c m vdup_n_u8 [rv U8 (2 ^ k)]) (fun p => run c m vmull_u8 [vec U8 a; p]).
Proof. exact vshll_compose. Qed.
Print Assumptions C62_vshll.

Theorem C62_vshll_0 : forall c m a, lanes U8 8 a -> run c m vshll_n_u8 [vec U8 a; rv I32 0] = run c m vmovl_u8 [vec U8 a].
Proof. exact vshll_0_vmovl. Qed.
Print Assumptions C62_vshll_0.

Theorem C62_vbslq_u8 : forall c m w a b, lanes U8 16 w -> lanes U8 16 a -> lanes U8 16 b ->
  run c m vbslq_u8 [vec U8 w; vec U8 a; vec U8 b]
  = and_then (run c m vandq_u8 [vec U8 w; vec U8 a]) (fun p =>
    and_then (run c m vmvnq_u8 [vec U8 w]) (fun nw =>
    and_then (run c m vandq_u8 [nw; vec U8 b]) (fun q => run c m vorrq_u8 [p; q]))).
Proof. exact vbsl_compose. Qed.
Print Assumptions C62_vbslq_u8.

Theorem C62_vld2 : forall f g h t n, In (f, t, n) vld2_table -> In (g, t, n) vld1_table -> In (h, t, n) vuzp_table ->
  forall c m1 m2 pre post l, lanes t (2 * n) l ->
  let M := heap m1 t pre (map Some l) post m2 in
  run c M f [pointer m1 t pre]
  = and_then (run c M g [pointer m1 t pre]) (fun a =>
    and_then (run c M g [pointer m1 t (pre ++ map Some (firstn n l))]) (fun b => run c M h [a; b])).
Proof. intros f g h t n H1 H2 H3 c m1 m2 pre post l. exact (vld2_compose f g h t n c m1 m2 pre post l H1 H2 H3). Qed.
Print Assumptions C62_vld2.

Theorem C62_vst2 : forall f g h t n, In (f, t, n) vst2_table -> In (g, t, n) vst1_table -> In (h, t, n) vzip_table -> n = 8%nat ->
  forall c m1 m2 pre post old a b, lanes t n a -> lanes t n b -> List.length old = (2 * n)%nat ->
  let M := heap m1 t pre old post m2 in
  exists p q M' M'', run c M h [vec t a; vec t b] = Returns M (Some (vecs t [p; q])) /\ lanes t n p /\ lanes t n q
    /\ run c M g [pointer m1 t pre; vec t p] = Returns M' None
    /\ run c M' g [pointer m1 t (pre ++ map Some p); vec t q] = Returns M'' None
    /\ run c M f [pointer m1 t pre; vecs t [a; b]] = Returns M'' None.
Proof. intros f g h t n H1 H2 H3 H4 c m1 m2 pre post old a b. exact (vst2_compose f g h t n c m1 m2 pre post old a b H1 H2 H3 H4). Qed.
Print Assumptions C62_vst2.

Theorem C62_vrev64_u8 : forall c m a, lanes U8 8 a ->
  run c m vrev64_u8 [vec U8 a] = run c m vtbl1_u8 [vec U8 a; vec U8 [7; 6; 5; 4; 3; 2; 1; 0]].
Proof. intros c m a H. symmetry. exact (vtbl1_reverse c m a H). Qed.
Print Assumptions C62_vrev64_u8.

(** the hypotheses are met, with an overflow that both sides report and one that neither has *)
Example C62_example :
  (In (vmlal_s32, I32, 2%nat) vmlal_table /\ In (vmull_s32, I32, 2%nat) vmull_table /\ In (vaddq_s64, wide I32, 2%nat) vadd_table) /\
  (In (vmlsl_u8, U8, 8%nat) vmlsl_table /\ In (vmull_u8, U8, 8%nat) vmull_table /\ In (vsubq_u16, wide U8, 8%nat) vsub_table) /\
  (In (vmlaq_s16, I16, 8%nat) vmlaq_table /\ In (vmulq_s16, I16, 8%nat) vmul_table /\ In (vaddq_s16, I16, 8%nat) vadd_table) /\
  (In (vmulq_n_u32, U32, 4%nat) vmul_n_table /\ In (vmulq_u32, U32, 4%nat) vmul_table /\ In (vdupq_n_u32, U32, 4%nat) vdup_table) /\
  (In (vmull_n_s16, I16, 4%nat) vmull_n_table /\ In (vmull_s16, I16, 4%nat) vmull_table /\ In (vdup_n_s16, I16, 4%nat) vdup_table) /\
  (In (vaddw_s32, I32, 2%nat) vaddw_table /\ In (vmovl_s32, I32, 2%nat) vmovl_table) /\
  (In (vsubw_u16, U16, 4%nat) vsubw_table /\ In (vsubq_u32, wide U16, 4%nat) vsub_table /\ In (vmovl_u16, U16, 4%nat) vmovl_table) /\
  (In (vaddl_u8, U8, 8%nat) vaddl_table /\ In (vaddw_u8, U8, 8%nat) vaddw_table /\ In (vmovl_u8, U8, 8%nat) vmovl_table) /\
  (In (vsubl_u16, U16, 4%nat) vsubl_table /\ In (vaddw_high_s16, I16, 4%nat) vaddw_high_table /\ In (vget_high_s16, I16, 4%nat) vget_high_table) /\
  (In (vsubhn_s16, I16, 8%nat) vsubhn_table /\ In (vsubq_s16, I16, 8%nat) vsub_table /\ In (vshrn_n_s16, I16, 8%nat) vshrn_table) /\
  (In (vaddhn_high_u16, U16, 8%nat) vaddhn_high_table /\ In (vcombine_u8, narrow U16, 8%nat) vcombine_table) /\
  (In (vld2_u8, U8, 8%nat) vld2_table /\ In (vld1_u8, U8, 8%nat) vld1_table /\ In (vuzp_u8, U8, 8%nat) vuzp_table) /\
  (In (vst2_s8, I8, 8%nat) vst2_table /\ In (vst1_s8, I8, 8%nat) vst1_table /\ In (vzip_s8, I8, 8%nat) vzip_table) /\
  lanes I64 2 [9223372036854775807; -5] /\ lanes I32 2 [3; -4] /\
  run strict [] vmlal_s32 [vec I64 [9223372036854775807; -5]; vec I32 [3; -4]; vec I32 [-5; 6]] = Returns [] (Some (vec I64 [9223372036854775792; -29])) /\
  run strict [] vmlal_s32 [vec I64 [9223372036854775807; -5]; vec I32 [3; -4]; vec I32 [5; 6]] = Undefined SignedOverflow.
Proof.
  split; [split; [in_table|split; in_table]|]. split; [split; [in_table|split; in_table]|]. split; [split; [in_table|split; in_table]|].
  split; [split; [in_table|split; in_table]|]. split; [split; [in_table|split; in_table]|]. split; [split; in_table|].
  split; [split; [in_table|split; in_table]|]. split; [split; [in_table|split; in_table]|]. split; [split; [in_table|split; in_table]|].
  split; [split; [in_table|split; in_table]|]. split; [split; in_table|]. split; [split; [in_table|split; in_table]|].
  split; [split; [in_table|split; in_table]|]. split; [lanes_lit|]. split; [lanes_lit|]. split; vm_compute; reflexivity.
Qed.

(** ** C63 Idioms: what well-known sequences of intrinsics compute *)

Theorem C63_absolute_difference : forall f g t n, In (f, t, n) vqsub_table -> In (g, t, n) vorr_table -> In t [U8; U16; U32] ->
  forall c m a b, lanes t n a -> lanes t n b ->
  and_then (run c m f [vec t a; vec t b]) (fun p => and_then (run c m f [vec t b; vec t a]) (fun q => run c m g [p; q]))
  = Returns m (Some (vec t (map2 (fun x y => Z.abs (x - y)) a b))).
Proof. intros f g t n H1 H2 H3 c m a b. exact (vqsub_absdiff f g t n c m a b H3 H1 H2). Qed.
Print Assumptions C63_absolute_difference.

Theorem C63_unsigned_max : forall f g t n, In (f, t, n) vqsub_table -> In (g, t, n) vadd_table -> In t [U8; U16; U32] ->
  forall c m a b, lanes t n a -> lanes t n b ->
  and_then (run c m f [vec t a; vec t b]) (fun p => run c m g [p; vec t b]) = Returns m (Some (vec t (map2 Z.max a b))).
Proof. intros f g t n H1 H2 H3 c m a b. exact (vqsub_max f g t n c m a b H3 H1 H2). Qed.
Print Assumptions C63_unsigned_max.

Theorem C63_unsigned_min : forall f g t n, In (f, t, n) vqsub_table -> In (g, t, n) vsub_table -> In t [U8; U16; U32] ->
  forall c m a b, lanes t n a -> lanes t n b ->
  and_then (run c m f [vec t a; vec t b]) (fun p => run c m g [vec t a; p]) = Returns m (Some (vec t (map2 Z.min a b))).
Proof. intros f g t n H1 H2 H3 c m a b. exact (vqsub_min f g t n c m a b H3 H1 H2). Qed.
Print Assumptions C63_unsigned_min.

Theorem C63_select_max : forall c m a b, lanes U8 16 a -> lanes U8 16 b ->
  and_then (run c m vcgtq_u8 [vec U8 a; vec U8 b]) (fun w => run c m vbslq_u8 [w; vec U8 a; vec U8 b])
  = Returns m (Some (vec U8 (map2 Z.max a b))).
Proof. exact vbsl_max. Qed.
Print Assumptions C63_select_max.

Theorem C63_negate : forall f g h t n, In (f, t, n) vsub_table -> In (g, t, n) vadd_table -> In (h, t, n) vmvn_table ->
  forall c m a, modular c t -> lanes t n a ->
  run c m f [vec t (repeat 0 n); vec t a] = and_then (run c m h [vec t a]) (fun q => run c m g [q; vec t (repeat 1 n)]).
Proof. intros f g h t n H1 H2 H3 c m a. exact (neg_compose f g h t n c m a H1 H2 H3). Qed.
Print Assumptions C63_negate.

Theorem C63_narrow_widened : forall c m a, lanes U8 8 a ->
  and_then (run c m vmovl_u8 [vec U8 a]) (fun w => run c m vqmovn_u16 [w]) = Returns m (Some (vec U8 a)).
Proof. exact vqmovn_vmovl. Qed.
Print Assumptions C63_narrow_widened.

Theorem C63_rotate : forall f t n, In (f, t, n) vext_table -> forall c m a k, lanes t n a -> 0 < k < Z.of_nat n ->
  and_then (run c m f [vec t a; vec t a; rv I32 k]) (fun r => run c m f [r; r; rv I32 (Z.of_nat n - k)]) = Returns m (Some (vec t a)).
Proof. intros f t n H c m a k. exact (vext_rotate f t n c m a k H). Qed.
Print Assumptions C63_rotate.

Theorem C63_ext_0 : forall f t n, In (f, t, n) vext_table -> forall c m a b, lanes t n a -> lanes t n b ->
  run c m f [vec t a; vec t b; rv I32 0] = Returns m (Some (vec t a)).
Proof. intros f t n H c m a b. exact (vext_0 f t n c m a b H). Qed.
Print Assumptions C63_ext_0.

Theorem C63_lane_of_broadcast : forall f g t n, In (f, t, n) vget_lane_table -> In (g, t, n) vdup_table ->
  forall c m x k, in_range t x -> 0 <= k < Z.of_nat n ->
  and_then (run c m g [rv t x]) (fun v => run c m f [v; rv I32 k]) = Returns m (Some (rv t x)).
Proof. intros f g t n H1 H2 c m x k. exact (vget_vdup f g t n c m x k H1 H2). Qed.
Print Assumptions C63_lane_of_broadcast.

Theorem C63_identity_lookup : forall c m a, lanes U8 8 a ->
  run c m vtbl1_u8 [vec U8 a; vec U8 [0; 1; 2; 3; 4; 5; 6; 7]] = Returns m (Some (vec U8 a)).
Proof. exact vtbl1_identity. Qed.
Print Assumptions C63_identity_lookup.

Example C63_example :
  (In (vqsubq_u16, U16, 8%nat) vqsub_table /\ In (vorrq_u16, U16, 8%nat) vorr_table /\ In (vaddq_u16, U16, 8%nat) vadd_table /\
   In (vsubq_u16, U16, 8%nat) vsub_table /\ In (vmvnq_u16, U16, 8%nat) vmvn_table /\ In (vext_s16, I16, 4%nat) vext_table /\ In U16 [U8; U16; U32]) /\
  (In (vgetq_lane_u16, U16, 8%nat) vget_lane_table /\ In (vdupq_n_u16, U16, 8%nat) vdup_table) /\
  modular strict U16 /\ lanes U16 8 [0; 1; 2; 65535; 4; 5; 6; 7] /\
  run strict [] vext_s16 [vec I16 [1; 2; 3; 4]; vec I16 [1; 2; 3; 4]; rv I32 3] = Returns [] (Some (vec I16 [4; 1; 2; 3])).
Proof.
  split; [split; [in_table|split; [in_table|split; [in_table|split; [in_table|split; [in_table|split; [in_table|in_table]]]]]]|].
  split; [split; in_table|]. split; [unfold modular; cbn; tauto|]. split; [lanes_lit|vm_compute; reflexivity].
Qed.
