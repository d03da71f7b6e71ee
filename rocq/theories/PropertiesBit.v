(** Comparison, selection, bitwise logic, and agreement between variants: C41-C45. *)
From Coq Require Import ZArith String List Bool Lia.
From Verif Require Import Types Syntax Interp ProgRecip Spec FloatSpec Tables PropBase.
From Verif Require Import ProgLoad ProgStore ProgAdd ProgSub ProgMul ProgShift ProgPerm ProgBit ProgRev.
From Verif Require Import P_Bit P_Bsl P_Float P_Halves P_Laws2 P_Bool P_Perm.
Import ListNotations.
Open Scope Z_scope.

(** ** C41 Comparison and selection.  Missing: vbslq_f32 with masks other than all zeros and all ones. *)

Theorem C41_vcgtq_u8 : forall c m a b, lanes U8 16 a -> lanes U8 16 b ->
  run c m vcgtq_u8 [vec U8 a; vec U8 b]
  = Returns m (Some (vec U8 (map2 (fun x y => if y <? x then 255 else 0) a b))).
Proof. exact vcgtq_u8_exact. Qed.
Print Assumptions C41_vcgtq_u8.

Theorem C41_vcltq_f32 : forall c m a b, lanes F32 4 a -> lanes F32 4 b ->
  exists r, run c m vcltq_f32 [vec F32 a; vec F32 b] = Returns m (Some (vec U32 r)) /\ lanes U32 4 r /\
    all_lanes3 (fun x y z => (flt F32 x y -> z = 4294967295) /\ (~ flt F32 x y -> z = 0)) a b r.
Proof. exact vcltq_f32_exact. Qed.
Print Assumptions C41_vcltq_f32.

Theorem C41_vbslq_u8 : forall c m w a b, lanes U8 16 w -> lanes U8 16 a -> lanes U8 16 b ->
  exists r, run c m vbslq_u8 [vec U8 w; vec U8 a; vec U8 b] = Returns m (Some (vec U8 r)) /\ lanes U8 16 r /\
    forall i k x y z v, nth_error w i = Some x -> nth_error a i = Some y -> nth_error b i = Some z ->
      nth_error r i = Some v -> 0 <= k ->
      Z.testbit v k = if Z.testbit x k then Z.testbit y k else Z.testbit z k.
Proof. exact vbslq_u8_bits. Qed.
Print Assumptions C41_vbslq_u8.

Theorem C41_vbslq_f32_partial : forall c m w a b, lanes U32 4 w -> lanes F32 4 a -> lanes F32 4 b ->
  Forall (fun x => x = 0 \/ x = 4294967295) w ->
  exists r, run c m vbslq_f32 [vec U32 w; vec F32 a; vec F32 b] = Returns m (Some (vec F32 r)) /\
    forall i k x y z v, nth_error w i = Some x -> nth_error a i = Some y -> nth_error b i = Some z ->
      nth_error r i = Some v -> 0 <= k < 32 ->
      Z.testbit v k = if Z.testbit x k then Z.testbit y k else Z.testbit z k.
Proof. exact vbslq_f32_bits. Qed.
Print Assumptions C41_vbslq_f32_partial.

(** vbslq_f32 selects whole lanes by "mask not zero". *)
Theorem C41_vbslq_f32_refuted : forall c m w a b, lanes U32 4 w -> lanes F32 4 a -> lanes F32 4 b ->
  run c m vbslq_f32 [vec U32 w; vec F32 a; vec F32 b]
  = Returns m (Some (vec F32 (map3 (fun x y z => if x =? 0 then z else y) w a b))).
Proof. exact vbslq_f32_run. Qed.
Print Assumptions C41_vbslq_f32_refuted.

Example C41_example : lanes U8 16 [1;2;3;4;5;6;7;8;9;10;11;12;13;14;15;255] /\
  run strict [] vbslq_u8 [vec U8 (repeat 240 16); vec U8 (repeat 171 16); vec U8 (repeat 205 16)]
  = Returns [] (Some (vec U8 (repeat 173 16))) /\
  run strict [] vcltq_f32 [vec F32 [0; 2147483648; 1065353216; 2143289344]; vec F32 [1065353216; 0; 0; 0]]
  = Returns [] (Some (vec U32 [4294967295; 0; 0; 0])) /\
  run strict [] vbslq_f32 [vec U32 [1; 0; 0; 0]; vec F32 [0; 0; 0; 0]; vec F32 [2; 0; 0; 0]] = Returns [] (Some (vec F32 [0; 0; 0; 0])).
Proof. lits. Qed.

(** ** C42 Bitwise logic *)

Theorem C42_vand : forall f t n, In (f, t, n) vand_table -> forall c m a b, lanes t n a -> lanes t n b ->
  exists r, run c m f [vec t a; vec t b] = Returns m (Some (vec t r)) /\ lanes t n r /\ all_lanes3 (bits2 t andb) a b r.
Proof. intros f t n H c m a b. exact (vand_bits f t n c m a b H). Qed.
Print Assumptions C42_vand.

Theorem C42_vorr : forall f t n, In (f, t, n) vorr_table -> forall c m a b, lanes t n a -> lanes t n b ->
  exists r, run c m f [vec t a; vec t b] = Returns m (Some (vec t r)) /\ lanes t n r /\ all_lanes3 (bits2 t orb) a b r.
Proof. intros f t n H c m a b. exact (vorr_bits f t n c m a b H). Qed.
Print Assumptions C42_vorr.

Theorem C42_veor : forall f t n, In (f, t, n) veor_table -> forall c m a b, lanes t n a -> lanes t n b ->
  exists r, run c m f [vec t a; vec t b] = Returns m (Some (vec t r)) /\ lanes t n r /\ all_lanes3 (bits2 t xorb) a b r.
Proof. intros f t n H c m a b. exact (veor_bits f t n c m a b H). Qed.
Print Assumptions C42_veor.

Theorem C42_vmvn : forall f t n, In (f, t, n) vmvn_table -> forall c m a, lanes t n a ->
  exists r, run c m f [vec t a] = Returns m (Some (vec t r)) /\ lanes t n r /\
    all_lanes (fun x z => forall k, 0 <= k < width t -> Z.testbit z k = negb (Z.testbit x k)) a r.
Proof. intros f t n H c m a. exact (vmvn_bits f t n c m a H). Qed.
Print Assumptions C42_vmvn.

Example C42_example : In (vand_s8, I8, 8%nat) vand_table /\ In (vmvn_u8, U8, 8%nat) vmvn_table /\
  run strict [] vand_s8 [vec I8 [-1; -128; 127; 85; 0; 1; 2; 3]; vec I8 [5; -1; -128; 51; 9; 9; 9; 9]]
  = Returns [] (Some (vec I8 [5; -128; 0; 17; 0; 1; 0; 1])) /\
  run strict [] vmvn_u8 [vec U8 [0; 255; 15; 1; 2; 3; 4; 5]] = Returns [] (Some (vec U8 [255; 0; 240; 254; 253; 252; 251; 250])).
Proof. lits. Qed.

(** ** C43 Boolean laws *)

Theorem C43_and_laws : forall f t n, In (f, t, n) vand_table -> forall c m,
  comm_law c m f t n /\ assoc_law c m f t n /\ idem_law c m f t n.
Proof. intros f t n H c m. exact (and_laws c m t n f H). Qed.
Print Assumptions C43_and_laws.

Theorem C43_or_laws : forall f t n, In (f, t, n) vorr_table -> forall c m,
  comm_law c m f t n /\ assoc_law c m f t n /\ idem_law c m f t n.
Proof. intros f t n H c m. exact (or_laws c m t n f H). Qed.
Print Assumptions C43_or_laws.

Theorem C43_xor_laws : forall f t n, In (f, t, n) veor_table -> forall c m, comm_law c m f t n /\ assoc_law c m f t n.
Proof. intros f t n H c m. exact (xor_laws c m t n f H). Qed.
Print Assumptions C43_xor_laws.

Theorem C43_absorption : forall fa fo t n, In (fa, t, n) vand_table -> In (fo, t, n) vorr_table ->
  forall c m a b, lanes t n a -> lanes t n b ->
  (exists o, run c m fo [vec t a; vec t b] = Returns m (Some (vec t o))
          /\ run c m fa [vec t a; vec t o] = Returns m (Some (vec t a))) /\
  (exists o, run c m fa [vec t a; vec t b] = Returns m (Some (vec t o))
          /\ run c m fo [vec t a; vec t o] = Returns m (Some (vec t a))).
Proof.
  intros fa fo t n Ha Ho c m a b La Lb. split.
  - exact (and_absorbs_or c m t n fa fo Ha Ho a b La Lb).
  - exact (or_absorbs_and c m t n fa fo Ha Ho a b La Lb).
Qed.
Print Assumptions C43_absorption.

Theorem C43_distributivity : forall fa fo t n, In (fa, t, n) vand_table -> In (fo, t, n) vorr_table ->
  forall c m a b d, lanes t n a -> lanes t n b -> lanes t n d ->
  exists o p q r, run c m fo [vec t b; vec t d] = Returns m (Some (vec t o))
    /\ run c m fa [vec t a; vec t b] = Returns m (Some (vec t p))
    /\ run c m fa [vec t a; vec t d] = Returns m (Some (vec t q))
    /\ run c m fa [vec t a; vec t o] = Returns m (Some (vec t r))
    /\ run c m fo [vec t p; vec t q] = Returns m (Some (vec t r)).
Proof. intros fa fo t n Ha Ho c m a b d. exact (and_over_or c m t n fa fo Ha Ho a b d). Qed.
Print Assumptions C43_distributivity.

Theorem C43_de_morgan : forall fa fo fn t n,
  In (fa, t, n) vand_table -> In (fo, t, n) vorr_table -> In (fn, t, n) vmvn_table ->
  forall c m a b, lanes t n a -> lanes t n b ->
  exists na nb p q r s,
       run c m fn [vec t a] = Returns m (Some (vec t na))
    /\ run c m fn [vec t b] = Returns m (Some (vec t nb))
    /\ run c m fa [vec t a; vec t b] = Returns m (Some (vec t p))
    /\ run c m fn [vec t p] = Returns m (Some (vec t r))
    /\ run c m fo [vec t na; vec t nb] = Returns m (Some (vec t r))
    /\ run c m fo [vec t a; vec t b] = Returns m (Some (vec t q))
    /\ run c m fn [vec t q] = Returns m (Some (vec t s))
    /\ run c m fa [vec t na; vec t nb] = Returns m (Some (vec t s)).
Proof. intros fa fo fn t n Ha Ho Hn c m a b. exact (de_morgan c m t n fa fo fn Ha Ho Hn a b). Qed.
Print Assumptions C43_de_morgan.

Theorem C43_double_negation : forall f t n, In (f, t, n) vmvn_table -> forall c m a, lanes t n a ->
  exists na, run c m f [vec t a] = Returns m (Some (vec t na)) /\ run c m f [vec t na] = Returns m (Some (vec t a)).
Proof. intros f t n H c m a. exact (not_not c m t n f H a). Qed.
Print Assumptions C43_double_negation.

Theorem C43_xor_cancel : forall f t n, In (f, t, n) veor_table -> forall c m a b, lanes t n a -> lanes t n b ->
  exists x, run c m f [vec t a; vec t b] = Returns m (Some (vec t x))
         /\ run c m f [vec t x; vec t b] = Returns m (Some (vec t a)).
Proof. intros f t n H c m a b. exact (xor_cancel' c m t n f H a b). Qed.
Print Assumptions C43_xor_cancel.

Theorem C43_xor_self : forall f t n, In (f, t, n) veor_table -> forall c m a, lanes t n a ->
  run c m f [vec t a; vec t a] = Returns m (Some (vec t (repeat 0 n))).
Proof. intros f t n H c m a. exact (xor_self' c m t n f H a). Qed.
Print Assumptions C43_xor_self.

Example C43_example : In (vandq_u16, U16, 8%nat) vand_table /\ In (vorrq_u16, U16, 8%nat) vorr_table /\
  In (veorq_u16, U16, 8%nat) veor_table /\ In (vmvnq_u16, U16, 8%nat) vmvn_table /\
  lanes U16 8 [1; 2; 4; 8; 65535; 0; 43690; 21845].
Proof. lits. Qed.

(** ** C44 Signed and unsigned agree.  [vec_bytes] are the bytes of a vector, that is, its value
    after any vreinterpret.  Missing: the overflows that are undefined for the signed variant. *)

Theorem C44_vadd_partial : forall f f' t n, let u := unsigned_of t in
  In (f, t, n) vadd_table -> In (f', u, n) vadd_table -> forall c m a b a' b', modular c t ->
  lanes t n a -> lanes t n b -> lanes u n a' -> lanes u n b' ->
  vec_bytes t a = vec_bytes u a' -> vec_bytes t b = vec_bytes u b' ->
  exists r r', run c m f [vec t a; vec t b] = Returns m (Some (vec t r))
            /\ run c m f' [vec u a'; vec u b'] = Returns m (Some (vec u r'))
            /\ vec_bytes t r = vec_bytes u r'.
Proof. intros f f' t n u H H' c m a b a' b'. exact (vadd_agree f f' t n c m a b a' b' H H'). Qed.
Print Assumptions C44_vadd_partial.

Theorem C44_vsub_partial : forall f f' t n, let u := unsigned_of t in
  In (f, t, n) vsub_table -> In (f', u, n) vsub_table -> forall c m a b a' b', modular c t ->
  lanes t n a -> lanes t n b -> lanes u n a' -> lanes u n b' ->
  vec_bytes t a = vec_bytes u a' -> vec_bytes t b = vec_bytes u b' ->
  exists r r', run c m f [vec t a; vec t b] = Returns m (Some (vec t r))
            /\ run c m f' [vec u a'; vec u b'] = Returns m (Some (vec u r'))
            /\ vec_bytes t r = vec_bytes u r'.
Proof. intros f f' t n u H H' c m a b a' b'. exact (vsub_agree f f' t n c m a b a' b' H H'). Qed.
Print Assumptions C44_vsub_partial.

Theorem C44_vmul_partial : forall f f' t n, let u := unsigned_of t in
  In (f, t, n) vmul_table -> In (f', u, n) vmul_table -> forall c m a b a' b', mul_modular c t -> mul_modular c u ->
  lanes t n a -> lanes t n b -> lanes u n a' -> lanes u n b' ->
  vec_bytes t a = vec_bytes u a' -> vec_bytes t b = vec_bytes u b' ->
  exists r r', run c m f [vec t a; vec t b] = Returns m (Some (vec t r))
            /\ run c m f' [vec u a'; vec u b'] = Returns m (Some (vec u r'))
            /\ vec_bytes t r = vec_bytes u r'.
Proof. intros f f' t n u H H' c m a b a' b'. exact (vmul_agree f f' t n c m a b a' b' H H'). Qed.
Print Assumptions C44_vmul_partial.

Theorem C44_bitwise : forall T f f' t n, let u := unsigned_of t in
  In T [vand_table; vorr_table; veor_table] -> In (f, t, n) T -> In (f', u, n) T -> forall c m a b a' b',
  lanes t n a -> lanes t n b -> lanes u n a' -> lanes u n b' ->
  vec_bytes t a = vec_bytes u a' -> vec_bytes t b = vec_bytes u b' ->
  exists r r', run c m f [vec t a; vec t b] = Returns m (Some (vec t r))
            /\ run c m f' [vec u a'; vec u b'] = Returns m (Some (vec u r'))
            /\ vec_bytes t r = vec_bytes u r'.
Proof. intros T f f' t n u HT H H' c m a b a' b'. exact (bitwise_agree T f f' t n c m a b a' b' HT H H'). Qed.
Print Assumptions C44_bitwise.

Theorem C44_vmvn : forall f f' t n, let u := unsigned_of t in
  In (f, t, n) vmvn_table -> In (f', u, n) vmvn_table -> forall c m a a',
  lanes t n a -> lanes u n a' -> vec_bytes t a = vec_bytes u a' ->
  exists r r', run c m f [vec t a] = Returns m (Some (vec t r))
            /\ run c m f' [vec u a'] = Returns m (Some (vec u r'))
            /\ vec_bytes t r = vec_bytes u r'.
Proof. intros f f' t n u H H' c m a a'. exact (vmvn_agree f f' t n c m a a' H H'). Qed.
Print Assumptions C44_vmvn.

Example C44_example : In (vadd_s8, I8, 8%nat) vadd_table /\ In (vadd_u8, unsigned_of I8, 8%nat) vadd_table /\
  modular strict I8 /\
  vec_bytes I8 [-1; -128; 127; 0; 1; 2; 3; 4] = vec_bytes U8 [255; 128; 127; 0; 1; 2; 3; 4].
Proof. lits. right; right; reflexivity. Qed.

(** The signed variant is undefined where the unsigned one wraps. *)
Theorem C44_refuted :
  vec_bytes I32 [2147483647; 0] = vec_bytes U32 [2147483647; 0] /\
  run strict [] vadd_s32 [vec I32 [2147483647; 0]; vec I32 [1; 0]] = Undefined SignedOverflow /\
  run strict [] vadd_u32 [vec U32 [2147483647; 0]; vec U32 [1; 0]] = Returns [] (Some (vec U32 [2147483648; 0])).
Proof. lits. Qed.
Print Assumptions C44_refuted.

(** ** C45 128-bit variants as two 64-bit halves.  The equation also covers the cases where a
    half is undefined: [both_halves] is the first failure then. *)

Theorem C45_binary : forall T fd fq t n, In T lanewise2 -> In (fd, t, n) T -> In (fq, t, (2 * n)%nat) T ->
  forall c m a1 a2 b1 b2, lanes t n a1 -> lanes t n a2 -> lanes t n b1 -> lanes t n b2 ->
  run c m fq [vec t (a1 ++ a2); vec t (b1 ++ b2)]
  = both_halves m (run c m fd [vec t a1; vec t b1]) (run c m fd [vec t a2; vec t b2]).
Proof. intros T fd fq t n HT Hd Hq c m a1 a2 b1 b2. exact (halves2 T fd fq t n c m a1 a2 b1 b2 HT Hd Hq). Qed.
Print Assumptions C45_binary.

Theorem C45_scalar : forall T fd fq t n, In T lanewise_n -> In (fd, t, n) T -> In (fq, t, (2 * n)%nat) T ->
  forall c m a1 a2 s, lanes t n a1 -> lanes t n a2 -> in_range t s ->
  run c m fq [vec t (a1 ++ a2); rv t s]
  = both_halves m (run c m fd [vec t a1; rv t s]) (run c m fd [vec t a2; rv t s]).
Proof. intros T fd fq t n HT Hd Hq c m a1 a2 s. exact (halves_n T fd fq t n c m a1 a2 s HT Hd Hq). Qed.
Print Assumptions C45_scalar.

Theorem C45_vmvn : forall fd fq t n, In (fd, t, n) vmvn_table -> In (fq, t, (2 * n)%nat) vmvn_table ->
  forall c m a1 a2, lanes t n a1 -> lanes t n a2 ->
  run c m fq [vec t (a1 ++ a2)] = both_halves m (run c m fd [vec t a1]) (run c m fd [vec t a2]).
Proof. intros fd fq t n Hd Hq c m a1 a2. exact (halves_mvn fd fq t n c m a1 a2 Hd Hq). Qed.
Print Assumptions C45_vmvn.

Theorem C45_vdup : forall fd fq t n, In (fd, t, n) vdup_table -> In (fq, t, (2 * n)%nat) vdup_table ->
  forall c m x, in_range t x ->
  run c m fq [rv t x] = both_halves m (run c m fd [rv t x]) (run c m fd [rv t x]).
Proof. intros fd fq t n Hd Hq c m x. exact (halves_dup fd fq t n c m x Hd Hq). Qed.
Print Assumptions C45_vdup.

Example C45_example : In vadd_table lanewise2 /\ In (vadd_s32, I32, 2%nat) vadd_table /\ In (vaddq_s32, I32, (2 * 2)%nat) vadd_table /\
  run strict [] vaddq_s32 [vec I32 [1; 2; 3; 4]; vec I32 [5; 6; 7; 8]] = Returns [] (Some (vec I32 [6; 8; 10; 12])) /\
  both_halves [] (run strict [] vadd_s32 [vec I32 [1; 2]; vec I32 [5; 6]]) (run strict [] vadd_s32 [vec I32 [3; 4]; vec I32 [7; 8]])
  = Returns [] (Some (vec I32 [6; 8; 10; 12])).
Proof. lits. Qed.
