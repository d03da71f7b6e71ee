(** Data movement: C10, C32, C36-C40. *)
From Coq Require Import ZArith String List Bool Lia.
From Verif Require Import Types Syntax Interp ProgRecip Spec Tables PropBase.
From Verif Require Import ProgShift ProgPerm ProgBit ProgRev ProgMul ProgAdd.
From Verif Require Import P_Mul P_Bit P_Perm P_Cast P_Tbl P_Laws P_Laws2.
Import ListNotations.
Open Scope Z_scope.

(** ** C10 Splitting and joining *)

Theorem C10_vget_low : forall f t n, In (f, t, n) vget_low_table -> forall c m a, lanes t (2 * n) a ->
  run c m f [vec t a] = Returns m (Some (vec t (firstn n a))).
Proof. intros f t n H c m a. exact (vget_low_exact f t n c m a H). Qed.
Print Assumptions C10_vget_low.

Theorem C10_vget_high : forall f t n, In (f, t, n) vget_high_table -> forall c m a, lanes t (2 * n) a ->
  run c m f [vec t a] = Returns m (Some (vec t (skipn n a))).
Proof. intros f t n H c m a. exact (vget_high_exact f t n c m a H). Qed.
Print Assumptions C10_vget_high.

Theorem C10_vcombine : forall f t n, In (f, t, n) vcombine_table -> forall c m a b, lanes t n a -> lanes t n b ->
  run c m f [vec t a; vec t b] = Returns m (Some (vec t (a ++ b))).
Proof. intros f t n H c m a b. exact (vcombine_exact f t n c m a b H). Qed.
Print Assumptions C10_vcombine.

Theorem C10_combine_halves : forall fl fh fc t n,
  In (fl, t, n) vget_low_table -> In (fh, t, n) vget_high_table -> In (fc, t, n) vcombine_table ->
  forall c m x, lanes t (2 * n) x ->
  exists l h, run c m fl [vec t x] = Returns m (Some (vec t l))
           /\ run c m fh [vec t x] = Returns m (Some (vec t h))
           /\ run c m fc [vec t l; vec t h] = Returns m (Some (vec t x)).
Proof. intros fl fh fc t n H1 H2 H3 c m x. exact (combine_halves fl fh fc t n c m x H1 H2 H3). Qed.
Print Assumptions C10_combine_halves.

Theorem C10_halves_combine : forall fl fh fc t n,
  In (fl, t, n) vget_low_table -> In (fh, t, n) vget_high_table -> In (fc, t, n) vcombine_table ->
  forall c m a b, lanes t n a -> lanes t n b ->
  exists x, run c m fc [vec t a; vec t b] = Returns m (Some (vec t x))
         /\ run c m fl [vec t x] = Returns m (Some (vec t a))
         /\ run c m fh [vec t x] = Returns m (Some (vec t b)).
Proof. intros fl fh fc t n H1 H2 H3 c m a b. exact (halves_combine fl fh fc t n c m a b H1 H2 H3). Qed.
Print Assumptions C10_halves_combine.

Example C10_example : In (vget_low_s16, I16, 4%nat) vget_low_table /\ In (vget_high_s16, I16, 4%nat) vget_high_table /\
  In (vcombine_s16, I16, 4%nat) vcombine_table /\ lanes I16 (2 * 4) [1; 2; 3; 4; 5; 6; 7; -8] /\
  run strict [] vget_high_s16 [vec I16 [1; 2; 3; 4; 5; 6; 7; -8]] = Returns [] (Some (vec I16 [5; 6; 7; -8])).
Proof. lits. Qed.

(** ** C32 Reinterpretation keeps the bytes *)

Theorem C32_vreinterpret : forall f t n t' n', In (f, t, n, t', n') vreinterpret_table -> forall c m a, lanes t n a ->
  exists r, run c m f [vec t a] = Returns m (Some (vec t' r)) /\ lanes t' n' r /\ vec_bytes t' r = vec_bytes t a.
Proof. intros f t n t' n' H c m a. exact (reinterpret_bytes f t n t' n' c m a H). Qed.
Print Assumptions C32_vreinterpret.

(** The bytes determine the result. *)
Theorem C32_bytes_determine : forall t n x y, lanes t n x -> lanes t n y -> vec_bytes t x = vec_bytes t y -> x = y.
Proof. exact vec_bytes_inj. Qed.
Print Assumptions C32_bytes_determine.

Theorem C32_round_trip : forall f g t n t' n',
  In (f, t, n, t', n') vreinterpret_table -> In (g, t', n', t, n) vreinterpret_table ->
  forall c m a, lanes t n a ->
  exists r, run c m f [vec t a] = Returns m (Some (vec t' r)) /\ run c m g [vec t' r] = Returns m (Some (vec t a)).
Proof. intros f g t n t' n' H1 H2 c m a. exact (reinterpret_round_trip f g t n t' n' c m a H1 H2). Qed.
Print Assumptions C32_round_trip.

Example C32_example : In (vreinterpret_u32_u8, U8, 8%nat, U32, 2%nat) vreinterpret_table /\
  In (vreinterpret_u8_u32, U32, 2%nat, U8, 8%nat) vreinterpret_table /\
  run strict [] vreinterpret_u32_u8 [vec U8 [1; 2; 3; 4; 255; 0; 0; 128]] = Returns [] (Some (vec U32 [67305985; 2147483903])) /\
  run strict [] vreinterpret_s32_s16 [vec I16 [-1; 0; 0; -32768]] = Returns [] (Some (vec I32 [65535; -2147483648])).
Proof. lits. Qed.

(** ** C36 Transpose, zip, unzip *)

Theorem C36_vtrn : forall f t n, In (f, t, n) vtrn_table -> forall c m a b, lanes t n a -> lanes t n b ->
  run c m f [vec t a; vec t b] = Returns m (Some (vecs t [trn 0 n a b; trn 1 n a b])).
Proof. intros f t n H c m a b. exact (vtrn_exact f t n c m a b H). Qed.
Print Assumptions C36_vtrn.

Theorem C36_vzip : forall f t n, In (f, t, n) vzip_table -> forall c m a b, lanes t n a -> lanes t n b ->
  run c m f [vec t a; vec t b] = Returns m (Some (vecs t [firstn n (zip a b); skipn n (zip a b)])).
Proof. intros f t n H c m a b. exact (vzip_exact f t n c m a b H). Qed.
Print Assumptions C36_vzip.

Theorem C36_vuzp : forall f t n, In (f, t, n) vuzp_table -> forall c m a b, lanes t n a -> lanes t n b ->
  run c m f [vec t a; vec t b] = Returns m (Some (vecs t [uzp 0 n a b; uzp 1 n a b])).
Proof. intros f t n H c m a b. exact (vuzp_exact f t n c m a b H). Qed.
Print Assumptions C36_vuzp.

Theorem C36_vtrn_twice : forall f t n, In (f, t, n) vtrn_table -> forall c m a b, lanes t n a -> lanes t n b ->
  exists p q, run c m f [vec t a; vec t b] = Returns m (Some (vecs t [p; q]))
           /\ run c m f [vec t p; vec t q] = Returns m (Some (vecs t [a; b])).
Proof. intros f t n H c m a b. exact (vtrn_twice f t n c m a b H). Qed.
Print Assumptions C36_vtrn_twice.

Theorem C36_vuzp_vzip : forall fz fu t n, In (fz, t, n) vzip_table -> In (fu, t, n) vuzp_table ->
  forall c m a b, lanes t n a -> lanes t n b ->
  exists p q, run c m fz [vec t a; vec t b] = Returns m (Some (vecs t [p; q]))
           /\ run c m fu [vec t p; vec t q] = Returns m (Some (vecs t [a; b])).
Proof. intros fz fu t n H1 H2 c m a b. exact (vuzp_vzip fz fu t n c m a b H1 H2). Qed.
Print Assumptions C36_vuzp_vzip.

Theorem C36_vzip_vuzp : forall fz fu t n, In (fz, t, n) vzip_table -> In (fu, t, n) vuzp_table ->
  forall c m a b, lanes t n a -> lanes t n b ->
  exists p q, run c m fu [vec t a; vec t b] = Returns m (Some (vecs t [p; q]))
           /\ run c m fz [vec t p; vec t q] = Returns m (Some (vecs t [a; b])).
Proof. intros fz fu t n H1 H2 c m a b. exact (vzip_vuzp fz fu t n c m a b H1 H2). Qed.
Print Assumptions C36_vzip_vuzp.

Example C36_example : In (vtrn_s16, I16, 4%nat) vtrn_table /\ In (vzip_u8, U8, 8%nat) vzip_table /\ In (vuzp_u8, U8, 8%nat) vuzp_table /\
  run strict [] vtrn_s16 [vec I16 [0; 1; 2; 3]; vec I16 [10; 11; 12; 13]]
  = Returns [] (Some (vecs I16 [[0; 10; 2; 12]; [1; 11; 3; 13]])) /\
  run strict [] vzip_s16 [vec I16 [0; 1; 2; 3]; vec I16 [10; 11; 12; 13]]
  = Returns [] (Some (vecs I16 [[0; 10; 1; 11]; [2; 12; 3; 13]])).
Proof. lits. Qed.

(** ** C37 Reversal.  Missing: vrev32_s8, vrev64q_s8, vrev64q_s16, which are wrong. *)

Theorem C37_vrev16 : forall f t n, In (f, t, n) vrev16_table -> forall c m a, lanes t n a ->
  run c m f [vec t a] = Returns m (Some (vec t (rev_groups 2 n a))).
Proof. intros f t n H c m a. exact (vrev16_exact f t n c m a H). Qed.
Print Assumptions C37_vrev16.

Theorem C37_vrev32_partial : forall f t n, In (f, t, n) vrev32_table -> forall c m a, lanes t n a ->
  run c m f [vec t a] = Returns m (Some (vec t (rev_groups (4 / nbytes t) n a))).
Proof. intros f t n H c m a. exact (vrev32_exact f t n c m a H). Qed.
Print Assumptions C37_vrev32_partial.

Theorem C37_vrev64_partial : forall f t n, In (f, t, n) vrev64_table -> forall c m a, lanes t n a ->
  run c m f [vec t a] = Returns m (Some (vec t (rev_groups (8 / nbytes t) n a))).
Proof. intros f t n H c m a. exact (vrev64_exact f t n c m a H). Qed.
Print Assumptions C37_vrev64_partial.

Theorem C37_vrev_twice_partial : forall f t n, In (f, t, n) (vrev16_table ++ vrev32_table ++ vrev64_table) ->
  forall c m a, lanes t n a ->
  exists r, run c m f [vec t a] = Returns m (Some (vec t r)) /\ run c m f [vec t r] = Returns m (Some (vec t a)).
Proof. intros f t n H c m a. exact (vrev_twice f t n c m a H). Qed.
Print Assumptions C37_vrev_twice_partial.

Example C37_example : In (vrev32_u8, U8, 8%nat) vrev32_table /\
  run strict [] vrev32_u8 [vec U8 [0; 1; 2; 3; 4; 5; 6; 7]] = Returns [] (Some (vec U8 [3; 2; 1; 0; 7; 6; 5; 4])) /\
  run strict [] vrev64q_u16 [vec U16 [0; 1; 2; 3; 4; 5; 6; 7]] = Returns [] (Some (vec U16 [3; 2; 1; 0; 7; 6; 5; 4])).
Proof. lits. Qed.

(** vrev32_s8 runs past the end of its 8 lanes on every input. *)
Theorem C37_vrev32_s8_refuted : forall c m a, lanes I8 8 a -> run c m vrev32_s8 [vec I8 a] = Undefined OutOfBounds.
Proof. exact vrev32_s8_ub. Qed.
Print Assumptions C37_vrev32_s8_refuted.

(** vrev64q_s8 and vrev64q_s16 reverse the low half and leave the high half uninitialised. *)
Theorem C37_vrev64q_refuted : forall f t n, In (f, t, n) [(vrev64q_s8, I8, 16%nat); (vrev64q_s16, I16, 8%nat)] ->
  forall c m a, lanes t n a ->
  run c m f [vec t a]
  = Returns m (Some (OArr (map (rv t) (rev (firstn (n / 2) a)) ++ repeat (OScal t None) (n / 2)))).
Proof. intros f t n H c m a. exact (vrev64q_half f t n c m a H). Qed.
Print Assumptions C37_vrev64q_refuted.

Example C37_refuted_example : lanes I8 8 [0; 1; 2; 3; 4; 5; 6; 7] /\
  run strict [] vrev32_s8 [vec I8 [0; 1; 2; 3; 4; 5; 6; 7]] = Undefined OutOfBounds.
Proof. lits. Qed.

(** ** C38 Widening and narrowing moves *)

Theorem C38_vmovl : forall f t n, In (f, t, n) vmovl_table -> forall c m a, lanes t n a ->
  run c m f [vec t a] = Returns m (Some (vec (wide t) a)).
Proof. intros f t n H c m a. exact (vmovl_exact f t n c m a H). Qed.
Print Assumptions C38_vmovl.

Theorem C38_vmovn : forall f t n, In (f, t, n) vmovn_table -> forall c m a, lanes t n a ->
  run c m f [vec t a] = Returns m (Some (vec (narrow t) (map (wrap (narrow t)) a))).
Proof. intros f t n H c m a. exact (vmovn_exact f t n c m a H). Qed.
Print Assumptions C38_vmovn.

Theorem C38_vqmovn : forall c m a, lanes U16 8 a ->
  run c m vqmovn_u16 [vec U16 a] = Returns m (Some (vec U8 (map (sat U8) a))).
Proof. exact vqmovn_u16_sat. Qed.
Print Assumptions C38_vqmovn.

Theorem C38_vqmovun : forall c m a, lanes I16 8 a ->
  run c m vqmovun_s16 [vec I16 a] = Returns m (Some (vec U8 (map (sat U8) a))).
Proof. exact vqmovun_s16_sat. Qed.
Print Assumptions C38_vqmovun.

Theorem C38_vmovn_vmovl : forall fl fn t n, In (fl, t, n) vmovl_table -> In (fn, wide t, n) vmovn_table ->
  forall c m a, lanes t n a ->
  exists w, run c m fl [vec t a] = Returns m (Some (vec (wide t) w))
         /\ run c m fn [vec (wide t) w] = Returns m (Some (vec t a)).
Proof. intros fl fn t n H1 H2 c m a. exact (vmovn_vmovl fl fn t n c m a H1 H2). Qed.
Print Assumptions C38_vmovn_vmovl.

Example C38_example : In (vmovl_u8, U8, 8%nat) vmovl_table /\ In (vmovn_u16, wide U8, 8%nat) vmovn_table /\
  run strict [] vqmovun_s16 [vec I16 [-1; 0; 255; 256; 32767; -32768; 5; 6]]
  = Returns [] (Some (vec U8 [0; 0; 255; 255; 255; 0; 5; 6])) /\
  run strict [] vmovn_s32 [vec I32 [65535; -1; 32768; 7]] = Returns [] (Some (vec I16 [-1; -1; -32768; 7])).
Proof. lits. Qed.

(** ** C39 Table lookup.  Missing: vqtbl1_u8 with an index of 16 or more. *)

Theorem C39_vtbl1 : forall c m a ix, lanes U8 8 a -> lanes U8 8 ix ->
  run c m vtbl1_u8 [vec U8 a; vec U8 ix] = Returns m (Some (vec U8 (map (lookup_table a) ix))).
Proof. exact vtbl1_u8_exact. Qed.
Print Assumptions C39_vtbl1.

Theorem C39_vtbl2 : forall c m a b ix, lanes U8 8 a -> lanes U8 8 b -> lanes U8 8 ix ->
  run c m vtbl2_u8 [vecs U8 [a; b]; vec U8 ix] = Returns m (Some (vec U8 (map (lookup_table (a ++ b)) ix))).
Proof. exact vtbl2_u8_exact. Qed.
Print Assumptions C39_vtbl2.

Theorem C39_vtbl4 : forall c m a b d e ix,
  lanes U8 8 a -> lanes U8 8 b -> lanes U8 8 d -> lanes U8 8 e -> lanes U8 8 ix ->
  run c m vtbl4_u8 [vecs U8 [a; b; d; e]; vec U8 ix]
  = Returns m (Some (vec U8 (map (lookup_table (a ++ b ++ d ++ e)) ix))).
Proof. exact vtbl4_u8_exact. Qed.
Print Assumptions C39_vtbl4.

Theorem C39_vqtbl1_partial : forall c m a ix, lanes U8 16 a -> lanes U8 8 ix -> Forall (fun x => x < 16) ix ->
  run c m vqtbl1_u8 [vec U8 a; vec U8 ix] = Returns m (Some (vec U8 (map (lookup_table a) ix))).
Proof. exact vqtbl1_u8_exact. Qed.
Print Assumptions C39_vqtbl1_partial.

Theorem C39_vqtbl1_refuted : forall c m a ix, lanes U8 16 a -> lanes U8 8 ix -> Exists (fun x => 16 <= x) ix ->
  run c m vqtbl1_u8 [vec U8 a; vec U8 ix] = Undefined OutOfBounds.
Proof. exact vqtbl1_u8_out. Qed.
Print Assumptions C39_vqtbl1_refuted.

Example C39_example : lanes U8 8 [0; 7; 8; 255; 1; 1; 2; 3] /\
  run strict [] vtbl1_u8 [vec U8 [10; 11; 12; 13; 14; 15; 16; 17]; vec U8 [0; 7; 8; 255; 1; 1; 2; 3]]
  = Returns [] (Some (vec U8 [10; 17; 0; 0; 11; 11; 12; 13])) /\
  run strict [] vqtbl1_u8 [vec U8 (repeat 1 16); vec U8 [0; 7; 8; 16; 1; 1; 2; 3]] = Undefined OutOfBounds.
Proof. lits. Qed.

(** ** C40 Vector extraction *)

Theorem C40_vext : forall f t n, In (f, t, n) vext_table -> forall c m a b k, lanes t n a -> lanes t n b ->
  0 <= k < Z.of_nat n ->
  run c m f [vec t a; vec t b; rv I32 k] = Returns m (Some (vec t (firstn n (skipn (Z.to_nat k) (a ++ b))))).
Proof. intros f t n H c m a b k. exact (vext_exact f t n c m a b k H). Qed.
Print Assumptions C40_vext.

Example C40_example : In (vext_u16, U16, 4%nat) vext_table /\
  run strict [] vext_u16 [vec U16 [0; 1; 2; 3]; vec U16 [4; 5; 6; 7]; rv I32 3] = Returns [] (Some (vec U16 [3; 4; 5; 6])).
Proof. lits. Qed.
