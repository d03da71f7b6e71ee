(** Integer arithmetic: C12-C24.

    [modular c t]: additions and subtractions in lanes of type [t] cannot overflow
    undefinedly (the compiler wraps, the type is unsigned, or it is narrower than
    [int]).  [wrap t z] is [z] modulo 2^width in the range of [t], [sat t z] is [z]
    clamped to that range, [high_half t z] the most significant half of [wrap t z]. *)
From Coq Require Import ZArith String List Bool Lia Reals.
From Flocq Require Import Core.
From Verif Require Import Types Syntax Interp ProgRecip Spec FloatSpec Tables PropBase.
From Verif Require Import ProgAdd ProgSub ProgMul.
From Verif Require Import ExecLemmas P_AddSub P_SubMore Ew P_AddHigh P_Mul P_Laws P_Laws2 P_Bool P_Qsub64.
Import ListNotations.
Open Scope Z_scope.

(** ** C12 Addition.  Missing: signed 32- and 64-bit sums that overflow, which are undefined. *)

Theorem C12_vadd_partial : forall f t n, In (f, t, n) vadd_table -> forall c m a b, lanes t n a -> lanes t n b ->
  modular c t \/ all_lanes (fun x y => in_range t (x + y)) a b ->
  run c m f [vec t a; vec t b] = Returns m (Some (vec t (map2 (fun x y => wrap t (x + y)) a b))).
Proof. exact vadd_wraps. Qed.
Print Assumptions C12_vadd_partial.

Example C12_example :
  In (vadd_s8, I8, 8%nat) vadd_table /\ modular strict I8 /\
  run strict [] vadd_s8 [vec I8 [127; 1; -128; 0; 5; 6; 7; 8]; vec I8 [1; 1; -1; 0; 5; 6; 7; 8]]
  = Returns [] (Some (vec I8 [-128; 2; 127; 0; 10; 12; 14; 16])).
Proof. split; [cbn; tauto|]. split; [right; right; reflexivity|]. vm_compute. reflexivity. Qed.

(** Exactly those sums are undefined behaviour (C++11 without -fwrapv). *)
Theorem C12_vadd_refuted : forall f t n, In (f, t, n) vadd_table -> forall c m a b, lanes t n a -> lanes t n b ->
  wrapv c = false -> is_signed t = true -> 32 <= width t ->
  some_lane (fun x y => ~ in_range t (x + y)) a b ->
  run c m f [vec t a; vec t b] = Undefined SignedOverflow.
Proof. exact vadd_overflow. Qed.
Print Assumptions C12_vadd_refuted.

Example C12_refuted_example : lanes I32 2 [2147483647; 0] /\ lanes I32 2 [1; 0] /\
  some_lane (fun x y => ~ in_range I32 (x + y)) [2147483647; 0] [1; 0] /\
  run strict [] vadd_s32 [vec I32 [2147483647; 0]; vec I32 [1; 0]] = Undefined SignedOverflow.
Proof.
  split; [lanes_lit|]. split; [lanes_lit|]. split; [|vm_compute; reflexivity].
  exists 0%nat, 2147483647, 1. repeat split; try reflexivity. unfold in_range; cbn; lia.
Qed.

(** ** C13 Subtraction *)

Theorem C13_vsub_partial : forall f t n, In (f, t, n) vsub_table -> forall c m a b, lanes t n a -> lanes t n b ->
  modular c t \/ all_lanes (fun x y => in_range t (x - y)) a b ->
  run c m f [vec t a; vec t b] = Returns m (Some (vec t (map2 (fun x y => wrap t (x - y)) a b))).
Proof. exact vsub_wraps. Qed.
Print Assumptions C13_vsub_partial.

Example C13_example :
  In (vsub_u16, U16, 4%nat) vsub_table /\ modular strict U16 /\
  run strict [] vsub_u16 [vec U16 [0; 5; 65535; 1]; vec U16 [1; 2; 65535; 65535]]
  = Returns [] (Some (vec U16 [65535; 3; 0; 2])).
Proof. split; [cbn; tauto|]. split; [right; left; reflexivity|]. vm_compute. reflexivity. Qed.

Theorem C13_vsub_refuted : forall f t n, In (f, t, n) vsub_table -> forall c m a b, lanes t n a -> lanes t n b ->
  wrapv c = false -> is_signed t = true -> 32 <= width t ->
  some_lane (fun x y => ~ in_range t (x - y)) a b ->
  run c m f [vec t a; vec t b] = Undefined SignedOverflow.
Proof. exact vsub_overflow. Qed.
Print Assumptions C13_vsub_refuted.

Example C13_refuted_example :
  run strict [] vsub_s64 [vec I64 [-9223372036854775808]; vec I64 [1]] = Undefined SignedOverflow.
Proof. vm_compute. reflexivity. Qed.

(** ** C14 Laws of addition and subtraction *)

Theorem C14_vadd_comm : forall f t n, In (f, t, n) vadd_table -> forall c m a b, lanes t n a -> lanes t n b ->
  run c m f [vec t a; vec t b] = run c m f [vec t b; vec t a].
Proof. exact vadd_comm. Qed.
Print Assumptions C14_vadd_comm.

Theorem C14_vadd_assoc_partial : forall f t n, In (f, t, n) vadd_table -> forall c m, modular c t -> assoc_law c m f t n.
Proof. intros f t n H c m Hm a b d Ha Hb Hd. exact (vadd_assoc f t n H c m a b d Ha Hb Hd Hm). Qed.
Print Assumptions C14_vadd_assoc_partial.

Theorem C14_vsub_vadd_partial : forall fa fs t n, In (fa, t, n) vadd_table -> In (fs, t, n) vsub_table ->
  forall c m a b, lanes t n a -> lanes t n b -> modular c t ->
  exists s, run c m fa [vec t a; vec t b] = Returns m (Some (vec t s))
         /\ run c m fs [vec t s; vec t b] = Returns m (Some (vec t a)).
Proof. exact vsub_vadd. Qed.
Print Assumptions C14_vsub_vadd_partial.

Theorem C14_vsub_self : forall f t n, In (f, t, n) vsub_table -> forall c m a, lanes t n a ->
  run c m f [vec t a; vec t a] = Returns m (Some (vec t (repeat 0 n))).
Proof. exact vsub_self. Qed.
Print Assumptions C14_vsub_self.

Example C14_example : In (vadd_u8, U8, 8%nat) vadd_table /\ In (vsub_u8, U8, 8%nat) vsub_table /\
  modular strict U8 /\ lanes U8 8 [250; 251; 252; 253; 254; 255; 0; 1].
Proof. lits. right; left; reflexivity. Qed.

(** Associativity fails for signed 32-bit lanes: (a+b)+d is undefined although a+(b+d) is not. *)
Theorem C14_assoc_refuted : exists a b d bd r, lanes I32 2 a /\ lanes I32 2 b /\ lanes I32 2 d /\
  run strict [] vadd_s32 [vec I32 a; vec I32 b] = Undefined SignedOverflow /\
  run strict [] vadd_s32 [vec I32 b; vec I32 d] = Returns [] (Some (vec I32 bd)) /\
  run strict [] vadd_s32 [vec I32 a; vec I32 bd] = Returns [] (Some (vec I32 r)).
Proof.
  exists [2147483647; 0], [1; 0], [-1; 0], [0; 0], [2147483647; 0].
  repeat (split; [first [lanes_lit | vm_compute; reflexivity]|]). vm_compute. reflexivity.
Qed.
Print Assumptions C14_assoc_refuted.

(** ** C15 Long and wide addition *)

Theorem C15_vaddl : forall f t n, In (f, t, n) vaddl_table -> forall c m a b, lanes t n a -> lanes t n b ->
  run c m f [vec t a; vec t b] = Returns m (Some (vec (wide t) (map2 Z.add a b))).
Proof. intros f t n H c m a b. exact (vaddl_exact f t n c m a b H). Qed.
Print Assumptions C15_vaddl.

Theorem C15_vaddl_high : forall f t n, In (f, t, n) vaddl_high_table -> forall c m a b,
  lanes t (2 * n) a -> lanes t (2 * n) b ->
  run c m f [vec t a; vec t b] = Returns m (Some (vec (wide t) (map2 Z.add (skipn n a) (skipn n b)))).
Proof. intros f t n H c m a b. exact (vaddl_high_exact f t n c m a b H). Qed.
Print Assumptions C15_vaddl_high.

Theorem C15_vaddl_high32_partial : forall f t n, In (f, t, n) vaddl_high32_table -> forall c m a b,
  lanes t (2 * n) a -> lanes t (2 * n) b ->
  all_lanes (fun x y => in_range t (x + y)) (skipn n a) (skipn n b) ->
  run c m f [vec t a; vec t b] = Returns m (Some (vec (wide t) (map2 Z.add (skipn n a) (skipn n b)))).
Proof. intros f t n H c m a b. exact (vaddl_high32_ok f t n c m a b H). Qed.
Print Assumptions C15_vaddl_high32_partial.

Theorem C15_vpaddl : forall f t n, In (f, t, n) vpaddl_table -> forall c m a, lanes t (2 * n) a ->
  run c m f [vec t a] = Returns m (Some (vec (wide t) (build n (fun i => nth (2 * i) a 0 + nth (2 * i + 1) a 0)))).
Proof. intros f t n H c m a. exact (vpaddl_exact f t n c m a H). Qed.
Print Assumptions C15_vpaddl.

Theorem C15_vaddw_partial : forall f t n, In (f, t, n) vaddw_table -> forall c m a b,
  lanes (wide t) n a -> lanes t n b ->
  modular c (wide t) \/ all_lanes (fun x y => in_range (wide t) (x + y)) a b ->
  run c m f [vec (wide t) a; vec t b]
  = Returns m (Some (vec (wide t) (map2 (fun x y => wrap (wide t) (x + y)) a b))).
Proof. intros f t n H c m a b Ha Hb Hm. rewrite (vaddw_run f t n) by assumption. now apply cpp2_ok. Qed.
Print Assumptions C15_vaddw_partial.

Theorem C15_vaddw_high_partial : forall f t n, In (f, t, n) vaddw_high_table -> forall c m a b,
  lanes (wide t) n a -> lanes t (2 * n) b ->
  modular c (wide t) \/ all_lanes (fun x y => in_range (wide t) (x + y)) a (skipn n b) ->
  run c m f [vec (wide t) a; vec t b]
  = Returns m (Some (vec (wide t) (map2 (fun x y => wrap (wide t) (x + y)) a (skipn n b)))).
Proof. intros f t n H c m a b Ha Hb Hm. rewrite (vaddw_high_run f t n) by assumption. now apply cpp2_ok. Qed.
Print Assumptions C15_vaddw_high_partial.

Example C15_example :
  In (vaddl_u8, U8, 8%nat) vaddl_table /\ In (vaddw_s8, I8, 8%nat) vaddw_table /\ modular strict (wide I8) /\
  run strict [] vpaddl_u8 [vec U8 [255; 255; 1; 2; 3; 4; 5; 6]] = Returns [] (Some (vec U16 [510; 3; 7; 11])) /\
  run strict [] vaddl_high_s16 [vec I16 [9;9;9;9;-32768;1;2;3]; vec I16 [9;9;9;9;-32768;1;2;3]]
  = Returns [] (Some (vec I32 [-65536; 2; 4; 6])).
Proof. lits. right; right; reflexivity. Qed.

(** vaddl_high_u32 adds modulo 2^32 before widening; vaddl_high_s32 overflows. *)
Theorem C15_vaddl_high_u32_refuted : forall c m a b, lanes U32 4 a -> lanes U32 4 b ->
  run c m vaddl_high_u32 [vec U32 a; vec U32 b]
  = Returns m (Some (vec U64 (map2 (fun x y => wrap U32 (x + y)) (skipn 2 a) (skipn 2 b)))).
Proof.
  intros c m a b Ha Hb. rewrite (vaddl_high32_run _ U32 2) by (trivial; cbn; tauto).
  apply arith2_modular. right. reflexivity.
Qed.
Print Assumptions C15_vaddl_high_u32_refuted.

Theorem C15_vaddl_high_s32_refuted : forall c m a b, lanes I32 4 a -> lanes I32 4 b -> wrapv c = false ->
  some_lane (fun x y => ~ in_range I32 (x + y)) (skipn 2 a) (skipn 2 b) ->
  run c m vaddl_high_s32 [vec I32 a; vec I32 b] = Undefined SignedOverflow.
Proof.
  intros c m a b Ha Hb Hc Hs. rewrite (vaddl_high32_run _ I32 2) by (trivial; cbn; tauto).
  apply arith2_ub; trivial.
Qed.
Print Assumptions C15_vaddl_high_s32_refuted.

Theorem C15_vaddw_refuted : forall f t n, In (f, t, n) vaddw_table -> forall c m a b,
  lanes (wide t) n a -> lanes t n b -> wrapv c = false -> is_signed t = true -> 16 <= width t ->
  some_lane (fun x y => ~ in_range (wide t) (x + y)) a b ->
  run c m f [vec (wide t) a; vec t b] = Undefined SignedOverflow.
Proof.
  intros f t n H c m a b Ha Hb Hc Ht Hw Hs. rewrite (vaddw_run f t n) by assumption.
  destruct t; try discriminate; try (cbn in Hw; lia); apply cpp2_ub; trivial; cbn; lia.
Qed.
Print Assumptions C15_vaddw_refuted.

Theorem C15_vaddw_high_refuted : forall f t n, In (f, t, n) vaddw_high_table -> forall c m a b,
  lanes (wide t) n a -> lanes t (2 * n) b -> wrapv c = false -> is_signed t = true -> 16 <= width t ->
  some_lane (fun x y => ~ in_range (wide t) (x + y)) a (skipn n b) ->
  run c m f [vec (wide t) a; vec t b] = Undefined SignedOverflow.
Proof.
  intros f t n H c m a b Ha Hb Hc Ht Hw Hs. rewrite (vaddw_high_run f t n) by assumption.
  destruct t; try discriminate; try (cbn in Hw; lia); apply cpp2_ub; trivial; cbn; lia.
Qed.
Print Assumptions C15_vaddw_high_refuted.

Example C15_refuted_example :
  run strict [] vaddl_high_u32 [vec U32 [0; 0; 4294967295; 1]; vec U32 [0; 0; 1; 1]]
  = Returns [] (Some (vec U64 [0; 2])) /\
  run strict [] vaddl_high_s32 [vec I32 [0; 0; 2147483647; 1]; vec I32 [0; 0; 1; 1]] = Undefined SignedOverflow /\
  run strict [] vaddw_s16 [vec I32 [2147483647; 1; 1; 1]; vec I16 [1; 1; 1; 1]] = Undefined SignedOverflow.
Proof. lits. Qed.

(** ** C16 High halves *)

Theorem C16_vaddhn_high_partial : forall f t n, In (f, t, n) vaddhn_high_table -> forall c m r a b,
  lanes (narrow t) n r -> lanes t n a -> lanes t n b ->
  run c m f [vec (narrow t) r; vec t a; vec t b]
  = Returns m (Some (vec (narrow t) (r ++ map2 (fun x y => high_half t (x + y)) a b))).
Proof. intros f t n H c m r a b. exact (vaddhn_high_exact f t n c m r a b H). Qed.
Print Assumptions C16_vaddhn_high_partial.

Theorem C16_vsubhn : forall f t n, In (f, t, n) vsubhn_table -> forall c m a b, lanes t n a -> lanes t n b ->
  run c m f [vec t a; vec t b]
  = Returns m (Some (vec (narrow t) (map2 (fun x y => high_half t (x - y)) a b))).
Proof. intros f t n H c m a b. exact (vsubhn_high f t n c m a b H). Qed.
Print Assumptions C16_vsubhn.

Theorem C16_vrsubhn_partial : forall f t n, In (f, t, n) vrsubhn_table -> forall c m a b,
  lanes t n a -> lanes t n b ->
  modular c t \/ all_lanes (fun x y => in_range t (x - y) /\ in_range t (x - y + 2 ^ (width t / 2 - 1))) a b ->
  run c m f [vec t a; vec t b]
  = Returns m (Some (vec (narrow t) (map2 (fun x y => high_half t (x - y + 2 ^ (width t / 2 - 1))) a b))).
Proof. intros f t n H c m a b. exact (vrsubhn_ok f t n c m a b H). Qed.
Print Assumptions C16_vrsubhn_partial.

Example C16_example : In (vsubhn_u16, U16, 8%nat) vsubhn_table /\ In (vrsubhn_s16, I16, 8%nat) vrsubhn_table /\
  modular strict I16 /\
  run strict [] vsubhn_u16 [vec U16 [513; 0; 0; 0; 0; 0; 0; 1000]; vec U16 [1; 1; 0; 0; 0; 0; 0; 0]]
  = Returns [] (Some (vec U8 [2; 255; 0; 0; 0; 0; 0; 3])) /\
  run strict [] vrsubhn_s16 [vec I16 [511; 127; 128; 0; 0; 0; 0; -128]; vec I16 [0; 0; 0; 0; 0; 0; 0; 0]]
  = Returns [] (Some (vec I8 [2; 0; 1; 0; 0; 0; 0; 0])).
Proof. lits. right; right; reflexivity. Qed.

(** vaddhn_high on 32-bit lanes shifts by 4 and on 64-bit lanes by 2 (the spec: 16, 32). *)
Theorem C16_vaddhn_high_refuted : forall f t n, In (f, t, n) vaddhn_high_bad_table -> forall c m r a b,
  lanes (narrow t) n r -> lanes t n a -> lanes t n b ->
  is_signed t = false \/ wrapv c = true \/ all_lanes (fun x y => in_range t (x + y)) a b ->
  run c m f [vec (narrow t) r; vec t a; vec t b]
  = Returns m (Some (vec (narrow t) (r ++ map2 (fun x y =>
      wrap (narrow t) (wrap t (x + y) / 2 ^ (if width t =? 32 then 4 else 2))) a b))).
Proof.
  intros f t n H c m r a b Hr Ha Hb Hs. rewrite (vaddhn_high_bad_run f t n) by assumption.
  assert (Ht : (2 ^ (if width t =? 32 then 4 else 2)) = 2 ^ addhn_shift t /\ 0 <= addhn_shift t)
    by (cbn [In vaddhn_high_bad_table] in H; repeat destruct H as [H|H]; try (injection H as <- <- <-; split; reflexivity || (cbn; lia)); destruct H).
  destruct Ht as [-> Hp].
  enough (E : Ew.mapM2 (fun x y => let* d := arith c t (x + y) in Ok (wrap (narrow t) (Z.shiftr d (addhn_shift t)))) a b
    = Ok (map2 (fun x y => wrap (narrow t) (wrap t (x + y) / 2 ^ addhn_shift t)) a b)).
  { rewrite E. cbn [bind]. apply Ew.vec_outcome_ok. }
  apply Ew.mapM2_ok. intros i x y Hx Hy. rewrite arith_total.
  - cbn [bind]. now rewrite Z.shiftr_div_pow2.
  - destruct Hs as [Hs|[Hs|Hs]]; [now right; left|now left|right; right; now apply (Hs i)].
Qed.
Print Assumptions C16_vaddhn_high_refuted.

(** The functions the source names vsubn shift by 8 for every element width. *)
Theorem C16_vsubn_refuted : forall f t n, In (f, t, n) vsubn_table -> forall c m a b, lanes t n a -> lanes t n b ->
  is_signed t = false \/ wrapv c = true \/ all_lanes (fun x y => in_range t (x - y)) a b ->
  run c m f [vec t a; vec t b]
  = Returns m (Some (vec (narrow t) (map2 (fun x y => wrap (narrow t) (wrap t (x - y) / 2 ^ 8)) a b))).
Proof.
  intros f t n H c m a b Ha Hb Hs. rewrite (vsubn_run f t n) by assumption.
  rewrite (Ew.mapM2_ok _ (fun x y => wrap (narrow t) (wrap t (x - y) / 2 ^ 8))).
  - apply Ew.vec_outcome_ok.
  - intros i x y Hx Hy. rewrite arith_total; [reflexivity|].
    destruct Hs as [Hs|[Hs|Hs]]; [now right; left|now left|right; right; now apply (Hs i)].
Qed.
Print Assumptions C16_vsubn_refuted.

(** vrsubhn on 64-bit lanes is always one less than it should be, modulo 2^32. *)
Theorem C16_vrsubhn64_refuted : forall f t n, In (f, t, n) vrsubhn64_table -> forall c m a b,
  lanes t n a -> lanes t n b ->
  wrapv c = true \/ is_signed t = false \/
  all_lanes (fun x y => in_range t (x - y) /\ in_range t (x - y - 2 ^ 31)) a b ->
  run c m f [vec t a; vec t b]
  = Returns m (Some (vec (narrow t) (map2 (fun x y => wrap (narrow t) (high_half t (x - y + 2 ^ 31) - 1)) a b))).
Proof. intros f t n H c m a b. exact (vrsubhn64_off_by_one f t n c m a b H). Qed.
Print Assumptions C16_vrsubhn64_refuted.

Theorem C16_vrsubhn_overflow_refuted : forall f t n, In (f, t, n) vrsubhn_table -> forall c m a b,
  lanes t n a -> lanes t n b -> wrapv c = false -> is_signed t = true -> 32 <= width t ->
  some_lane (fun x y => ~ (in_range t (x - y) /\ in_range t (x - y + 2 ^ (width t / 2 - 1)))) a b ->
  run c m f [vec t a; vec t b] = Undefined SignedOverflow.
Proof. intros f t n H c m a b. exact (vrsubhn_overflow f t n c m a b H). Qed.
Print Assumptions C16_vrsubhn_overflow_refuted.

Example C16_refuted_example :
  run strict [] vaddhn_high_u32 [vec U16 [1; 2; 3; 4]; vec U32 [65536; 0; 0; 0]; vec U32 [0; 0; 0; 0]]
    = Returns [] (Some (vec U16 [1; 2; 3; 4; 4096; 0; 0; 0])) /\ high_half U32 65536 = 1 /\
  run strict [] vsubn_u32 [vec U32 [65536; 0; 0; 0]; vec U32 [0; 0; 0; 0]] = Returns [] (Some (vec U16 [256; 0; 0; 0])) /\
  run strict [] vrsubhn_u64 [vec U64 [4294967296; 0]; vec U64 [0; 0]] = Returns [] (Some (vec U32 [0; 4294967295])) /\
  run strict [] vrsubhn_s32 [vec I32 [2147483647; 0; 0; 0]; vec I32 [0; 0; 0; 0]] = Undefined SignedOverflow.
Proof. lits. Qed.

(** ** C17 Saturating addition and subtraction.  Missing: 64-bit lanes beyond 2^53. *)

Theorem C17_vqsub : forall f t n, In (f, t, n) vqsub_table -> forall c m a b, lanes t n a -> lanes t n b ->
  run c m f [vec t a; vec t b] = Returns m (Some (vec t (map2 (fun x y => sat t (x - y)) a b))).
Proof. intros f t n H c m a b. exact (vqsub_sat f t n c m a b H). Qed.
Print Assumptions C17_vqsub.

Theorem C17_vqadd : forall f t n, In (f, t, n) vqadd_table -> forall c m a b, lanes t n a -> lanes t n b ->
  run c m f [vec t a; vec t b] = Returns m (Some (vec t (map2 (fun x y => sat t (x + y)) a b))).
Proof. intros f t n H c m a b. exact (vqadd_sat f t n c m a b H). Qed.
Print Assumptions C17_vqadd.

Theorem C17_vqsub64_partial : forall f t n, In (f, t, n) vqsub64_table -> forall c m a b, lanes t n a -> lanes t n b ->
  Forall (fun x => - 2 ^ 53 <= x <= 2 ^ 53) a -> Forall (fun x => - 2 ^ 53 <= x <= 2 ^ 53) b ->
  all_lanes (fun x y => - 2 ^ 53 <= x - y <= 2 ^ 53) a b ->
  run c m f [vec t a; vec t b] = Returns m (Some (vec t (map2 (fun x y => sat t (x - y)) a b))).
Proof. intros f t n H c m a b. exact (vqsub64_exact f t n c m a b H). Qed.
Print Assumptions C17_vqsub64_partial.

Example C17_example : In (vqsub_s32, I32, 2%nat) vqsub_table /\ In (vqadd_u8, U8, 8%nat) vqadd_table /\
  run strict [] vqsub_s32 [vec I32 [-2147483648; 7]; vec I32 [1; 9]] = Returns [] (Some (vec I32 [-2147483648; -2])) /\
  run strict [] vqsub_u64 [vec U64 [3]; vec U64 [9007199254740992]] = Returns [] (Some (vec U64 [0])).
Proof. lits. Qed.

(** The 64-bit forms subtract in double: 2^53+1 minus 0 gives 2^53, and 2^63-1 minus 0 is undefined. *)
Theorem C17_vqsub64_refuted :
  run strict [] vqsub_s64 [vec I64 [9007199254740993]; vec I64 [0]] = Returns [] (Some (vec I64 [9007199254740992])) /\
  run strict [] vqsub_u64 [vec U64 [9007199254740993]; vec U64 [0]] = Returns [] (Some (vec U64 [9007199254740992])) /\
  run strict [] vqsub_s64 [vec I64 [9223372036854775807]; vec I64 [0]] = Undefined FloatCast /\
  run strict [] vqsub_u64 [vec U64 [18446744073709551615]; vec U64 [0]] = Undefined FloatCast.
Proof. lits. Qed.
Print Assumptions C17_vqsub64_refuted.

(** ** C18 Halving subtraction *)

Theorem C18_vhsub_partial : forall f t n, In (f, t, n) vhsub_table -> forall c m a b, lanes t n a -> lanes t n b ->
  width t < 32 \/ all_lanes (fun x y => in_range t (x - y)) a b ->
  run c m f [vec t a; vec t b] = Returns m (Some (vec t (map2 (fun x y => wrap t ((x - y) / 2)) a b))).
Proof. intros f t n H c m a b. exact (vhsub_ok f t n c m a b H). Qed.
Print Assumptions C18_vhsub_partial.

Example C18_example : In (vhsub_s8, I8, 8%nat) vhsub_table /\ width I8 < 32 /\
  run strict [] vhsub_s8 [vec I8 [-128; 3; 2; 0; 0; 0; 0; 0]; vec I8 [127; 0; 3; 0; 0; 0; 0; 0]]
  = Returns [] (Some (vec I8 [-128; 1; -1; 0; 0; 0; 0; 0])).
Proof. lits. Qed.

Theorem C18_vhsub_s32_refuted : forall f t n, In (f, t, n) vhsub_table -> forall c m a b, lanes t n a -> lanes t n b ->
  wrapv c = false -> is_signed t = true -> 32 <= width t ->
  some_lane (fun x y => ~ in_range t (x - y)) a b ->
  run c m f [vec t a; vec t b] = Undefined SignedOverflow.
Proof. intros f t n H c m a b. exact (vhsub_overflow f t n c m a b H). Qed.
Print Assumptions C18_vhsub_s32_refuted.

(** In 32-bit lanes the difference is reduced modulo 2^32 before it is halved. *)
Theorem C18_vhsub_u32_refuted : forall f t n, In (f, t, n) vhsub_table -> forall c m a b, lanes t n a -> lanes t n b ->
  wrapv c = true \/ is_signed t = false -> width t = 32 ->
  run c m f [vec t a; vec t b] = Returns m (Some (vec t (map2 (fun x y => wrap t (x - y) / 2) a b))).
Proof. intros f t n H c m a b. exact (vhsub_modular f t n c m a b H). Qed.
Print Assumptions C18_vhsub_u32_refuted.

Example C18_refuted_example :
  run strict [] vhsub_u32 [vec U32 [0; 0]; vec U32 [2; 0]] = Returns [] (Some (vec U32 [2147483647; 0])) /\
  wrap U32 ((0 - 2) / 2) = 4294967295.
Proof. lits. Qed.

(** ** C19 Long and wide subtraction *)

Theorem C19_vsubl : forall f t n, In (f, t, n) vsubl_table -> forall c m a b, lanes t n a -> lanes t n b ->
  run c m f [vec t a; vec t b]
  = Returns m (Some (vec (wide t) (map2 (fun x y => wrap (wide t) (x - y)) a b))).
Proof. intros f t n H c m a b. exact (vsubl_exact f t n c m a b H). Qed.
Print Assumptions C19_vsubl.

(** For signed lanes that is the exact difference. *)
Theorem C19_vsubl_signed : forall f t n, In (f, t, n) vsubl_table -> is_signed t = true ->
  forall c m a b, lanes t n a -> lanes t n b ->
  run c m f [vec t a; vec t b] = Returns m (Some (vec (wide t) (map2 Z.sub a b))).
Proof.
  intros f t n H Hs c m a b Ha Hb. rewrite (vsubl_exact f t n) by assumption. do 3 f_equal.
  apply (P_Bool.map2_ext_lanes t n); trivial. intros x y Hx Hy. apply P_Laws2.wrap_id.
  cbn [In vsubl_table] in H; repeat destruct H as [H|H]; try (injection H as <- <- <-; try discriminate Hs;
    unfold in_range in *; cbn [lo hi wide] in *; lia); destruct H.
Qed.
Print Assumptions C19_vsubl_signed.

(** vsubl_s32/u32 are defined with a 128-bit first operand, whose low half they use. *)
Theorem C19_vsubl32_partial : forall f t n, In (f, t, n) vsubl32_table -> forall c m a b, lanes t (2 * n) a -> lanes t n b ->
  run c m f [vec t a; vec t b]
  = Returns m (Some (vec (wide t) (map2 (fun x y => wrap (wide t) (x - y)) (firstn n a) b))).
Proof. intros f t n H c m a b. exact (vsubl32_exact f t n c m a b H). Qed.
Print Assumptions C19_vsubl32_partial.

Theorem C19_vsubw_partial : forall f t n, In (f, t, n) vsubw_table -> forall c m a b,
  lanes (wide t) n a -> lanes t n b ->
  modular c (wide t) \/ all_lanes (fun x y => in_range (wide t) (x - y)) a b ->
  run c m f [vec (wide t) a; vec t b]
  = Returns m (Some (vec (wide t) (map2 (fun x y => wrap (wide t) (x - y)) a b))).
Proof. intros f t n H c m a b Ha Hb Hm. rewrite (vsubw_run f t n) by assumption. now apply cpp2_ok. Qed.
Print Assumptions C19_vsubw_partial.

Theorem C19_vsubw_refuted : forall f t n, In (f, t, n) vsubw_table -> forall c m a b,
  lanes (wide t) n a -> lanes t n b -> wrapv c = false -> is_signed t = true -> 16 <= width t ->
  some_lane (fun x y => ~ in_range (wide t) (x - y)) a b ->
  run c m f [vec (wide t) a; vec t b] = Undefined SignedOverflow.
Proof.
  intros f t n H c m a b Ha Hb Hc Ht Hw Hs. rewrite (vsubw_run f t n) by assumption.
  destruct t; try discriminate; try (cbn in Hw; lia); apply cpp2_ub; trivial; cbn; lia.
Qed.
Print Assumptions C19_vsubw_refuted.

Example C19_example : In (vsubl_s8, I8, 8%nat) vsubl_table /\
  run strict [] vsubl_u8 [vec U8 [0; 255; 1; 2; 3; 4; 5; 6]; vec U8 [1; 0; 1; 1; 1; 1; 1; 1]]
  = Returns [] (Some (vec U16 [65535; 255; 0; 1; 2; 3; 4; 5])) /\
  run strict [] vsubw_s16 [vec I32 [-2147483648; 0; 0; 0]; vec I16 [1; 0; 0; 0]] = Undefined SignedOverflow.
Proof. lits. Qed.

(** ** C20 Multiplication.  Missing: products of uint16 and int32 lanes that overflow int. *)

Theorem C20_vmul_partial : forall f t n, In (f, t, n) vmul_table -> forall c m a b, lanes t n a -> lanes t n b ->
  mul_modular c t \/ all_lanes (fun x y => in_range (computed_in t) (x * y)) a b ->
  run c m f [vec t a; vec t b] = Returns m (Some (vec t (map2 (fun x y => wrap t (x * y)) a b))).
Proof. exact vmul_wraps. Qed.
Print Assumptions C20_vmul_partial.

Theorem C20_vmul_n_partial : forall f t n, In (f, t, n) vmul_n_table -> forall c m a k, lanes t n a -> in_range t k ->
  mul_modular c t \/ Forall (fun x => in_range (computed_in t) (x * k)) a ->
  run c m f [vec t a; rv t k] = Returns m (Some (vec t (map (fun x => wrap t (x * k)) a))).
Proof. exact vmul_n_wraps. Qed.
Print Assumptions C20_vmul_n_partial.

Example C20_example : In (vmul_s16, I16, 4%nat) vmul_table /\ mul_modular strict I16 /\
  run strict [] vmul_s16 [vec I16 [-32768; 300; 2; 3]; vec I16 [-32768; 300; 2; 3]]
  = Returns [] (Some (vec I16 [0; 24464; 4; 9])) /\
  run strict [] vmul_n_u32 [vec U32 [4294967295; 3]; rv U32 2] = Returns [] (Some (vec U32 [4294967294; 6])).
Proof. lits. left; tauto. Qed.

Theorem C20_vmul_refuted : forall f t n, In (f, t, n) vmul_table -> forall c m a b, lanes t n a -> lanes t n b ->
  wrapv c = false -> is_signed (computed_in t) = true ->
  some_lane (fun x y => ~ in_range (computed_in t) (x * y)) a b ->
  run c m f [vec t a; vec t b] = Undefined SignedOverflow.
Proof. exact vmul_overflow. Qed.
Print Assumptions C20_vmul_refuted.

Theorem C20_vmul_n_refuted : forall f t n, In (f, t, n) vmul_n_table -> forall c m a k, lanes t n a -> in_range t k ->
  wrapv c = false -> is_signed (computed_in t) = true ->
  Exists (fun x => ~ in_range (computed_in t) (x * k)) a ->
  run c m f [vec t a; rv t k] = Undefined SignedOverflow.
Proof. exact vmul_n_overflow. Qed.
Print Assumptions C20_vmul_n_refuted.

Example C20_refuted_example :
  run strict [] vmul_u16 [vec U16 [65535; 0; 0; 0]; vec U16 [65535; 0; 0; 0]] = Undefined SignedOverflow /\
  run strict [] vmul_s32 [vec I32 [65536; 0]; vec I32 [32768; 0]] = Undefined SignedOverflow /\
  run wrapping [] vmul_u16 [vec U16 [65535; 0; 0; 0]; vec U16 [65535; 0; 0; 0]] = Returns [] (Some (vec U16 [1; 0; 0; 0])).
Proof. lits. Qed.

(** ** C21 Long multiplication *)

Theorem C21_vmull_partial : forall f t n, In (f, t, n) vmull_table -> forall c m a b, lanes t n a -> lanes t n b ->
  (t = I8 \/ t = U8 \/ t = I16) \/ (wrapv c = true /\ t = U16)
    \/ all_lanes (fun x y => in_range (computed_in t) (x * y)) a b ->
  run c m f [vec t a; vec t b] = Returns m (Some (vec (wide t) (map2 Z.mul a b))).
Proof.
  intros f t n H c m a b Ha Hb Hm. apply vmull_exact with (n := n); trivial.
  destruct Hm as [[->|[->| ->]]|Hm]; [now left..|now right].
Qed.
Print Assumptions C21_vmull_partial.

Theorem C21_vmull_n_partial : forall f t n, In (f, t, n) vmull_n_table -> forall c m a k, lanes t n a -> in_range t k ->
  t = I16 \/ (wrapv c = true /\ t = U16) \/ Forall (fun x => in_range (computed_in t) (x * k)) a ->
  run c m f [vec t a; rv t k] = Returns m (Some (vec (wide t) (map (fun x => x * k) a))).
Proof.
  intros f t n H c m a k Ha Hk Hm. apply vmull_n_exact with (n := n); trivial.
  destruct Hm as [->|Hm]; [now left|now right].
Qed.
Print Assumptions C21_vmull_n_partial.

Example C21_example : In (vmull_s16, I16, 4%nat) vmull_table /\
  run strict [] vmull_s16 [vec I16 [-32768; 300; 2; 3]; vec I16 [-32768; 300; 2; -3]]
  = Returns [] (Some (vec I32 [1073741824; 90000; 4; -9])) /\
  run strict [] vmull_n_s32 [vec I32 [46340; -7]; rv I32 46340] = Returns [] (Some (vec I64 [2147395600; -324380])).
Proof. lits. Qed.

Theorem C21_vmull_overflow_refuted : forall f t n, In (f, t, n) vmull_table -> forall c m a b, lanes t n a -> lanes t n b ->
  wrapv c = false -> is_signed (computed_in t) = true ->
  some_lane (fun x y => ~ in_range (computed_in t) (x * y)) a b ->
  run c m f [vec t a; vec t b] = Undefined SignedOverflow.
Proof. exact vmull_overflow. Qed.
Print Assumptions C21_vmull_overflow_refuted.

Theorem C21_vmull_n_overflow_refuted : forall f t n, In (f, t, n) vmull_n_table -> forall c m a k, lanes t n a -> in_range t k ->
  wrapv c = false -> is_signed (computed_in t) = true ->
  Exists (fun x => ~ in_range (computed_in t) (x * k)) a ->
  run c m f [vec t a; rv t k] = Undefined SignedOverflow.
Proof. exact vmull_n_overflow. Qed.
Print Assumptions C21_vmull_n_overflow_refuted.

(** vmull_u32 and vmull_n_u32 keep only the low 32 bits of the product. *)
Theorem C21_vmull_u32_refuted : forall c m a b, lanes U32 2 a -> lanes U32 2 b ->
  run c m vmull_u32 [vec U32 a; vec U32 b]
  = Returns m (Some (vec U64 (map2 (fun x y => wrap U32 (x * y)) a b))).
Proof. exact vmull_u32_truncates. Qed.
Print Assumptions C21_vmull_u32_refuted.

Theorem C21_vmull_n_u32_refuted : forall c m a k, lanes U32 2 a -> in_range U32 k ->
  run c m vmull_n_u32 [vec U32 a; rv U32 k]
  = Returns m (Some (vec U64 (map (fun x => wrap U32 (x * k)) a))).
Proof. exact vmull_n_u32_truncates. Qed.
Print Assumptions C21_vmull_n_u32_refuted.

Example C21_refuted_example :
  run strict [] vmull_u32 [vec U32 [65536; 2]; vec U32 [65536; 3]] = Returns [] (Some (vec U64 [0; 6])) /\
  run strict [] vmull_s32 [vec I32 [65536; 2]; vec I32 [65536; 3]] = Undefined SignedOverflow.
Proof. lits. Qed.

(** ** C22 Saturating doubling long multiply *)

Theorem C22_vqdmull : forall c m a b, lanes I16 4 a -> lanes I16 4 b ->
  run c m vqdmull_s16 [vec I16 a; vec I16 b]
  = Returns m (Some (vec I32 (map2 (fun x y => if (x =? -32768) && (y =? -32768) then 2147483647 else 2 * x * y) a b))).
Proof.
  intros c m a b Ha Hb. rewrite vqdmull_exact by assumption. do 3 f_equal.
  apply (P_Bool.map2_ext_lanes I16 4); trivial. intros x y Hx Hy. unfold in_range, sat in *. cbn [lo hi] in *.
  destruct (Z.eqb_spec x (-32768)), (Z.eqb_spec y (-32768)); cbn [andb]; subst; try reflexivity; nia.
Qed.
Print Assumptions C22_vqdmull.

Theorem C22_vqdmull_sat : forall c m a b, lanes I16 4 a -> lanes I16 4 b ->
  run c m vqdmull_s16 [vec I16 a; vec I16 b]
  = Returns m (Some (vec I32 (map2 (fun x y => sat I32 (2 * x * y)) a b))).
Proof. exact vqdmull_exact. Qed.
Print Assumptions C22_vqdmull_sat.

Example C22_example : lanes I16 4 [-32768; -32768; 5; 32767] /\
  run strict [] vqdmull_s16 [vec I16 [-32768; -32768; 5; 32767]; vec I16 [-32768; 32767; 6; 32767]]
  = Returns [] (Some (vec I32 [2147483647; -2147418112; 60; 2147352578])).
Proof. lits. Qed.

(** ** C23 Multiply-accumulate.  [mla_safe] says that product and sum fit where they are computed
    in a signed type (or are computed modulo a power of two that the result does not see);
    missing: the other inputs. *)

Theorem C23_vmlal_partial : forall f t n, In (f, t, n) vmlal_table -> forall c m a b d,
  lanes (wide t) n a -> lanes t n b -> lanes t n d -> all_lanes3 (mla_safe false c t (wide t)) a b d ->
  run c m f [vec (wide t) a; vec t b; vec t d]
  = Returns m (Some (vec (wide t) (map3 (fun x y z => wrap (wide t) (x + y * z)) a b d))).
Proof. exact vmlal_ok. Qed.
Print Assumptions C23_vmlal_partial.

Theorem C23_vmlsl_partial : forall f t n, In (f, t, n) vmlsl_table -> forall c m a b d,
  lanes (wide t) n a -> lanes t n b -> lanes t n d -> all_lanes3 (mla_safe true c t (wide t)) a b d ->
  run c m f [vec (wide t) a; vec t b; vec t d]
  = Returns m (Some (vec (wide t) (map3 (fun x y z => wrap (wide t) (x - y * z)) a b d))).
Proof. exact vmlsl_ok. Qed.
Print Assumptions C23_vmlsl_partial.

Theorem C23_vmlaq_partial : forall f t n, In (f, t, n) vmlaq_table -> forall c m a b d,
  lanes t n a -> lanes t n b -> lanes t n d -> all_lanes3 (mla_safe false c t t) a b d ->
  run c m f [vec t a; vec t b; vec t d]
  = Returns m (Some (vec t (map3 (fun x y z => wrap t (x + y * z)) a b d))).
Proof. exact vmlaq_ok. Qed.
Print Assumptions C23_vmlaq_partial.

(** The members for which that is every input. *)
Theorem C23_long8 : forall f t n, In (f, t, n) vmlal_table -> t = I8 \/ t = U8 -> forall c m a b d,
  lanes (wide t) n a -> lanes t n b -> lanes t n d ->
  run c m f [vec (wide t) a; vec t b; vec t d]
  = Returns m (Some (vec (wide t) (map3 (fun x y z => wrap (wide t) (x + y * z)) a b d))).
Proof.
  intros f t n H Ht c m a b d Ha Hb Hd. apply (vmlal_ok f t n); trivial.
  apply (all_lanes3_range _ (wide t) t t n); trivial. intros. now apply mla_safe_long8.
Qed.
Print Assumptions C23_long8.

Theorem C23_long8_sub : forall f t n, In (f, t, n) vmlsl_table -> t = I8 \/ t = U8 -> forall c m a b d,
  lanes (wide t) n a -> lanes t n b -> lanes t n d ->
  run c m f [vec (wide t) a; vec t b; vec t d]
  = Returns m (Some (vec (wide t) (map3 (fun x y z => wrap (wide t) (x - y * z)) a b d))).
Proof.
  intros f t n H Ht c m a b d Ha Hb Hd. apply (vmlsl_ok f t n); trivial.
  apply (all_lanes3_range _ (wide t) t t n); trivial. intros. now apply mla_safe_long8.
Qed.
Print Assumptions C23_long8_sub.

Theorem C23_short : forall f t n, In (f, t, n) vmlaq_table -> t = I8 \/ t = U8 \/ t = I16 -> forall c m a b d,
  lanes t n a -> lanes t n b -> lanes t n d ->
  run c m f [vec t a; vec t b; vec t d]
  = Returns m (Some (vec t (map3 (fun x y z => wrap t (x + y * z)) a b d))).
Proof.
  intros f t n H Ht c m a b d Ha Hb Hd. apply (vmlaq_ok f t n); trivial.
  apply (all_lanes3_range _ t t t n); trivial. intros. now apply mla_safe_short.
Qed.
Print Assumptions C23_short.

Example C23_example : In (vmlal_u8, U8, 8%nat) vmlal_table /\
  run strict [] vmlal_u8 [vec U16 [65535; 1; 0; 0; 0; 0; 0; 0]; vec U8 [255; 2; 0; 0; 0; 0; 0; 0]; vec U8 [255; 3; 0; 0; 0; 0; 0; 0]]
  = Returns [] (Some (vec U16 [65024; 7; 0; 0; 0; 0; 0; 0])) /\
  mla_safe false strict I16 I32 5 (-32768) 32767.
Proof. lits. unfold mla_safe, in_range. cbn. lia. Qed.

Theorem C23_vmlal_refuted : forall f t n, In (f, t, n) vmlal_table -> forall c m a b d,
  lanes (wide t) n a -> lanes t n b -> lanes t n d -> wrapv c = false ->
  some_lane3 (mla_overflows false t (wide t)) a b d ->
  run c m f [vec (wide t) a; vec t b; vec t d] = Undefined SignedOverflow.
Proof. exact vmlal_overflow. Qed.
Print Assumptions C23_vmlal_refuted.

Theorem C23_vmlsl_refuted : forall f t n, In (f, t, n) vmlsl_table -> forall c m a b d,
  lanes (wide t) n a -> lanes t n b -> lanes t n d -> wrapv c = false ->
  some_lane3 (mla_overflows true t (wide t)) a b d ->
  run c m f [vec (wide t) a; vec t b; vec t d] = Undefined SignedOverflow.
Proof. exact vmlsl_overflow. Qed.
Print Assumptions C23_vmlsl_refuted.

Theorem C23_vmlaq_refuted : forall f t n, In (f, t, n) vmlaq_table -> forall c m a b d,
  lanes t n a -> lanes t n b -> lanes t n d -> wrapv c = false ->
  some_lane3 (mla_overflows false t t) a b d ->
  run c m f [vec t a; vec t b; vec t d] = Undefined SignedOverflow.
Proof. exact vmlaq_overflow. Qed.
Print Assumptions C23_vmlaq_refuted.

(** vmlal_u32 and vmlsl_u32 reduce the product modulo 2^32. *)
Theorem C23_vmlal_u32_refuted :
  run strict [] vmlal_u32 [vec U64 [1; 0]; vec U32 [65536; 0]; vec U32 [65536; 0]] = Returns [] (Some (vec U64 [1; 0])) /\
  run strict [] vmlsl_u32 [vec U64 [1; 0]; vec U32 [65536; 0]; vec U32 [65536; 0]] = Returns [] (Some (vec U64 [1; 0])).
Proof. lits. Qed.
Print Assumptions C23_vmlal_u32_refuted.

(** ** C24 Integer maximum and minimum *)

Theorem C24_vmax : forall f t n, In (f, t, n) (vmax_table ++ vmax_u_table) -> forall c m a b,
  lanes t n a -> lanes t n b ->
  run c m f [vec t a; vec t b] = Returns m (Some (vec t (map2 Z.max a b))).
Proof. intros f t n H c m a b. exact (vmax_exact f t n c m a b H). Qed.
Print Assumptions C24_vmax.

Theorem C24_vmin : forall f t n, In (f, t, n) (vmin_table ++ vmin_u_table) -> forall c m a b,
  lanes t n a -> lanes t n b ->
  run c m f [vec t a; vec t b] = Returns m (Some (vec t (map2 Z.min a b))).
Proof. intros f t n H c m a b. exact (vmin_exact f t n c m a b H). Qed.
Print Assumptions C24_vmin.

Theorem C24_vmax_laws : forall f t n, In (f, t, n) (vmax_table ++ vmax_u_table) -> forall c m,
  comm_law c m f t n /\ assoc_law c m f t n /\ idem_law c m f t n.
Proof. intros f t n H c m. exact (vmax_laws f t n c m H). Qed.
Print Assumptions C24_vmax_laws.

Theorem C24_vmin_laws : forall f t n, In (f, t, n) (vmin_table ++ vmin_u_table) -> forall c m,
  comm_law c m f t n /\ assoc_law c m f t n /\ idem_law c m f t n.
Proof. intros f t n H c m. exact (vmin_laws f t n c m H). Qed.
Print Assumptions C24_vmin_laws.

Example C24_example : In (vmaxq_s32, I32, 4%nat) (vmax_table ++ vmax_u_table) /\
  run strict [] vmaxq_s32 [vec I32 [1; -5; 7; 0]; vec I32 [2; -6; 7; -1]] = Returns [] (Some (vec I32 [2; -5; 7; 0])) /\
  run strict [] vminq_s32 [vec I32 [1; -5; 7; 0]; vec I32 [2; -6; 7; -1]] = Returns [] (Some (vec I32 [1; -6; 7; -1])).
Proof. lits. Qed.
