(** Floating point: C25-C27, C33-C35. *)
From Coq Require Import ZArith String List Bool Lia Reals Lra.
From Flocq Require Import Core.
From Verif Require Import Types Syntax Interp ProgRecip Spec FloatSpec Tables PropBase.
From Verif Require Import ProgLoad ProgStore ProgAdd ProgSub ProgMul ProgShift ProgPerm ProgBit ProgRev.
From Verif Require Import P_Float P_Recip P_Recps P_FloatMore P_FloatWit.
Import ListNotations.
Open Scope Z_scope.

(** ** C25 Maximum and minimum.  Missing: the two cases listed in the equivalences, where the
    result is not the IEEE one: only the first operand is NaN; +0 and -0 in the wrong order. *)

Theorem C25_vmaxq_partial : forall c m a b, lanes F32 4 a -> lanes F32 4 b ->
  exists r, run c m vmaxq_f32 [vec F32 a; vec F32 b] = Returns m (Some (vec F32 r)) /\ lanes F32 4 r /\
    all_lanes3 (fun x y z => ieee_max F32 x y z <->
      (fnan F32 x -> fnan F32 y) /\ ~ (x = fzero F32 false /\ y = fzero F32 true)) a b r.
Proof. exact vmaxq_f32_ieee. Qed.
Print Assumptions C25_vmaxq_partial.

Theorem C25_vminq_partial : forall c m a b, lanes F32 4 a -> lanes F32 4 b ->
  exists r, run c m vminq_f32 [vec F32 a; vec F32 b] = Returns m (Some (vec F32 r)) /\ lanes F32 4 r /\
    all_lanes3 (fun x y z => ieee_min F32 x y z <->
      (fnan F32 x -> fnan F32 y) /\ ~ (x = fzero F32 true /\ y = fzero F32 false)) a b r.
Proof. exact vminq_f32_ieee. Qed.
Print Assumptions C25_vminq_partial.

Theorem C25_vpmax_partial : forall c m x0 x1 y0 y1,
  in_range F32 x0 -> in_range F32 x1 -> in_range F32 y0 -> in_range F32 y1 ->
  exists r0 r1, run c m vpmax_f32 [vec F32 [x0; x1]; vec F32 [y0; y1]] = Returns m (Some (vec F32 [r0; r1])) /\
    (ieee_max F32 x0 x1 r0 <-> (fnan F32 x0 -> fnan F32 x1) /\ ~ (x0 = fzero F32 false /\ x1 = fzero F32 true)) /\
    (ieee_max F32 y0 y1 r1 <-> (fnan F32 y0 -> fnan F32 y1) /\ ~ (y0 = fzero F32 false /\ y1 = fzero F32 true)).
Proof. exact vpmax_f32_ieee. Qed.
Print Assumptions C25_vpmax_partial.

Theorem C25_vpmin_partial : forall c m x0 x1 y0 y1,
  in_range F32 x0 -> in_range F32 x1 -> in_range F32 y0 -> in_range F32 y1 ->
  exists r0 r1, run c m vpmin_f32 [vec F32 [x0; x1]; vec F32 [y0; y1]] = Returns m (Some (vec F32 [r0; r1])) /\
    (ieee_min F32 x0 x1 r0 <-> (fnan F32 x0 -> fnan F32 x1) /\ ~ (x0 = fzero F32 true /\ x1 = fzero F32 false)) /\
    (ieee_min F32 y0 y1 r1 <-> (fnan F32 y0 -> fnan F32 y1) /\ ~ (y0 = fzero F32 true /\ y1 = fzero F32 false)).
Proof. exact vpmin_f32_ieee. Qed.
Print Assumptions C25_vpmin_partial.

(** What the functions are for every operand: x > y ? x : y and x < y ? x : y. *)
Theorem C25_vmaxq_select : forall c m a b, lanes F32 4 a -> lanes F32 4 b ->
  exists r, run c m vmaxq_f32 [vec F32 a; vec F32 b] = Returns m (Some (vec F32 r)) /\ lanes F32 4 r /\
    all_lanes3 (greater_or_second F32) a b r.
Proof. exact vmaxq_f32_exact. Qed.
Print Assumptions C25_vmaxq_select.

Theorem C25_vminq_select : forall c m a b, lanes F32 4 a -> lanes F32 4 b ->
  exists r, run c m vminq_f32 [vec F32 a; vec F32 b] = Returns m (Some (vec F32 r)) /\ lanes F32 4 r /\
    all_lanes3 (less_or_second F32) a b r.
Proof. exact vminq_f32_exact. Qed.
Print Assumptions C25_vminq_select.

Theorem C25_vpmax_select : forall c m x0 x1 y0 y1,
  in_range F32 x0 -> in_range F32 x1 -> in_range F32 y0 -> in_range F32 y1 ->
  exists r0 r1, run c m vpmax_f32 [vec F32 [x0; x1]; vec F32 [y0; y1]] = Returns m (Some (vec F32 [r0; r1])) /\
    greater_or_second F32 x0 x1 r0 /\ greater_or_second F32 y0 y1 r1.
Proof. exact vpmax_f32_exact. Qed.
Print Assumptions C25_vpmax_select.

Theorem C25_vpmin_select : forall c m x0 x1 y0 y1,
  in_range F32 x0 -> in_range F32 x1 -> in_range F32 y0 -> in_range F32 y1 ->
  exists r0 r1, run c m vpmin_f32 [vec F32 [x0; x1]; vec F32 [y0; y1]] = Returns m (Some (vec F32 [r0; r1])) /\
    less_or_second F32 x0 x1 r0 /\ less_or_second F32 y0 y1 r1.
Proof. exact vpmin_f32_exact. Qed.
Print Assumptions C25_vpmin_select.

(** A NaN first operand is dropped; max(+0, -0) is -0 and min(-0, +0) is +0. *)
Theorem C25_vmaxq_refuted : forall c m,
  run c m vmaxq_f32 [vec F32 [2143289344; 0; 0; 0]; vec F32 [1065353216; 2147483648; 0; 0]]
  = Returns m (Some (vec F32 [1065353216; 2147483648; 0; 0])) /\
  ~ ieee_max F32 2143289344 1065353216 1065353216 /\ ~ ieee_max F32 0 2147483648 2147483648.
Proof. exact vmaxq_wrong. Qed.
Print Assumptions C25_vmaxq_refuted.

Theorem C25_vminq_refuted : forall c m,
  run c m vminq_f32 [vec F32 [2143289344; 2147483648; 0; 0]; vec F32 [1065353216; 0; 0; 0]]
  = Returns m (Some (vec F32 [1065353216; 0; 0; 0])) /\
  ~ ieee_min F32 2143289344 1065353216 1065353216 /\ ~ ieee_min F32 2147483648 0 0.
Proof. exact vminq_wrong. Qed.
Print Assumptions C25_vminq_refuted.

Example C25_example : lanes F32 4 [1065353216; 2143289344; 4286578688; 3212836864] /\
  run strict [] vmaxq_f32 [vec F32 [1065353216; 1; 4286578688; 3212836864]; vec F32 [1073741824; 2143289344; 0; 3221225472]]
  = Returns [] (Some (vec F32 [1073741824; 2143289344; 0; 3212836864])) /\
  run strict [] vpmin_f32 [vec F32 [1065353216; 1073741824]; vec F32 [0; 3221225472]]
  = Returns [] (Some (vec F32 [1065353216; 3221225472])).
Proof. lits. Qed.

(** ** C26 Correctly rounded arithmetic *)

Theorem C26_vadd : forall f t n, In (f, t, n) fadd_table -> forall c m a b, lanes t n a -> lanes t n b ->
  exists r, run c m f [vec t a; vec t b] = Returns m (Some (vec t r)) /\ lanes t n r /\ all_lanes3 (ieee_add t) a b r.
Proof. intros f t n H c m a b. exact (fadd_exact f t n c m a b H). Qed.
Print Assumptions C26_vadd.

Theorem C26_vsub : forall f t n, In (f, t, n) fsub_table -> forall c m a b, lanes t n a -> lanes t n b ->
  exists r, run c m f [vec t a; vec t b] = Returns m (Some (vec t r)) /\ lanes t n r /\ all_lanes3 (ieee_sub t) a b r.
Proof. intros f t n H c m a b. exact (fsub_exact f t n c m a b H). Qed.
Print Assumptions C26_vsub.

Theorem C26_vmul : forall f t n, In (f, t, n) fmul_table -> forall c m a b, lanes t n a -> lanes t n b ->
  exists r, run c m f [vec t a; vec t b] = Returns m (Some (vec t r)) /\ lanes t n r /\ all_lanes3 (ieee_mul t) a b r.
Proof. intros f t n H c m a b. exact (fmul_exact f t n c m a b H). Qed.
Print Assumptions C26_vmul.

Theorem C26_vmul_n : forall f t n, In (f, t, n) fmul_n_table -> forall c m a s, lanes t n a -> in_range t s ->
  exists r, run c m f [vec t a; rv t s] = Returns m (Some (vec t r)) /\ lanes t n r /\
    all_lanes (fun x z => ieee_mul t x s z) a r.
Proof. intros f t n H c m a s. exact (fmul_n_exact f t n c m a s H). Qed.
Print Assumptions C26_vmul_n.

Theorem C26_vdiv : forall f t n, In (f, t, n) fdiv_table -> forall c m a b, lanes t n a -> lanes t n b ->
  exists r, run c m f [vec t a; vec t b] = Returns m (Some (vec t r)) /\ lanes t n r /\ all_lanes3 (ieee_div t) a b r.
Proof. intros f t n H c m a b. exact (fdiv_exact f t n c m a b H). Qed.
Print Assumptions C26_vdiv.

(** 1 + 1 = 2, 1 + 2^-24 rounds to 1 (tie), 1 + (2^-24 + 2^-47) rounds up, largest + largest overflows;
    1 / 3 and 1 / 0. *)
Example C26_example : In (vaddq_f32, F32, 4%nat) fadd_table /\ In (vdiv_f32, F32, 2%nat) fdiv_table /\
  run strict [] vaddq_f32 [vec F32 [1065353216; 1065353216; 1065353216; 2139095039]; vec F32 [1065353216; 864026624; 864026625; 2139095039]]
  = Returns [] (Some (vec F32 [1073741824; 1065353216; 1065353217; 2139095040])) /\
  run strict [] vdiv_f32 [vec F32 [1065353216; 1065353216]; vec F32 [1077936128; 2147483648]]
  = Returns [] (Some (vec F32 [1051372203; 4286578688])).
Proof. lits. Qed.

(** ** C27 Multiply-accumulate rounds twice *)

Theorem C27_vmlaq : forall c m a b d, lanes F32 4 a -> lanes F32 4 b -> lanes F32 4 d ->
  exists p r, run c m vmlaq_f32 [vec F32 a; vec F32 b; vec F32 d] = Returns m (Some (vec F32 r)) /\
    lanes F32 4 p /\ all_lanes3 (ieee_mul F32) b d p /\
    lanes F32 4 r /\ all_lanes3 (ieee_add F32) a p r.
Proof. exact vmlaq_f32_exact. Qed.
Print Assumptions C27_vmlaq.

Theorem C27_vmlaq_n : forall c m a b s, lanes F32 4 a -> lanes F32 4 b -> in_range F32 s ->
  exists p r, run c m vmlaq_n_f32 [vec F32 a; vec F32 b; rv F32 s] = Returns m (Some (vec F32 r)) /\
    lanes F32 4 p /\ all_lanes (fun y q => ieee_mul F32 y s q) b p /\
    lanes F32 4 r /\ all_lanes3 (ieee_add F32) a p r.
Proof. exact vmlaq_n_f32_exact. Qed.
Print Assumptions C27_vmlaq_n.

(** -1 + (1 + 2^-12)^2: the fused result would have a last bit 2^-24. *)
Example C27_example : lanes F32 4 [3212836864; 0; 0; 0] /\
  run strict [] vmlaq_f32 [vec F32 [3212836864; 0; 0; 0]; vec F32 [1065355264; 0; 0; 0]; vec F32 [1065355264; 0; 0; 0]]
  = Returns [] (Some (vec F32 [973078528; 0; 0; 0])).
Proof. lits. Qed.

(** ** C33 Conversions.  Missing: NaN and values that do not fit (undefined in C++, so no
    saturation), and vcvtnq_s32_f32 where rounding differs from truncation. *)

Theorem C33_vcvtq_f32_s32 : forall c m a, lanes I32 4 a ->
  exists r, run c m vcvtq_f32_s32 [vec I32 a] = Returns m (Some (vec F32 r)) /\ lanes F32 4 r /\
    all_lanes (fun x z => rounded F32 (IZR x) (x <? 0) z) a r.
Proof. exact vcvtq_f32_s32_exact. Qed.
Print Assumptions C33_vcvtq_f32_s32.

Theorem C33_vcvtq_int_partial : forall f u, In (f, u) [(vcvtq_s32_f32, I32); (vcvtq_u32_f32, U32)] ->
  forall c m a, lanes F32 4 a -> Forall (cvt_fits u) a ->
  run c m f [vec F32 a] = Returns m (Some (vec u (map (fun x => Ztrunc (fval F32 x)) a))).
Proof. exact vcvtq_fits. Qed.
Print Assumptions C33_vcvtq_int_partial.

Theorem C33_vcvtnq_partial : forall c m a, lanes F32 4 a -> Forall (cvt_fits I32) a ->
  Forall (fun x => ZnearestE (fval F32 x) = Ztrunc (fval F32 x)) a ->
  run c m vcvtnq_s32_f32 [vec F32 a] = Returns m (Some (vec I32 (map (fun x => ZnearestE (fval F32 x)) a))).
Proof. exact vcvtnq_nearest. Qed.
Print Assumptions C33_vcvtnq_partial.

(** No saturation: undefined behaviour exactly where some lane does not fit. *)
Theorem C33_vcvtq_int_refuted : forall f u n, In (f, u, n) to_int_table -> forall c m a x,
  lanes F32 n a -> In x a -> ~ cvt_fits u x -> run c m f [vec F32 a] = Undefined FloatCast.
Proof. intros f u n H c m a x. exact (to_int_ub f u n c m a x H). Qed.
Print Assumptions C33_vcvtq_int_refuted.

(** vcvtnq_s32_f32 truncates: 1.75 becomes 1, not 2. *)
Theorem C33_vcvtnq_refuted :
  (forall c m a, lanes F32 4 a -> Forall (cvt_fits I32) a ->
     run c m vcvtnq_s32_f32 [vec F32 a] = Returns m (Some (vec I32 (map (fun x => Ztrunc (fval F32 x)) a)))) /\
  (forall c m, run c m vcvtnq_s32_f32 [vec F32 [1071644672; 0; 0; 0]] = Returns m (Some (vec I32 [1; 0; 0; 0]))) /\
  ZnearestE (fval F32 1071644672) = 2.
Proof. exact vcvtnq_wrong. Qed.
Print Assumptions C33_vcvtnq_refuted.

(** 1.75, -2.5, 0 and 2^30 fit; 2^31 does not. *)
Example C33_example :
  run strict [] vcvtq_s32_f32 [vec F32 [1071644672; 3223322624; 0; 1317011456]] = Returns [] (Some (vec I32 [1; -2; 0; 1073741824])) /\
  run strict [] vcvtq_s32_f32 [vec F32 [1325400064; 0; 0; 0]] = Undefined FloatCast /\
  run strict [] vcvtq_u32_f32 [vec F32 [1325400064; 0; 0; 0]] = Returns [] (Some (vec U32 [2147483648; 0; 0; 0])) /\
  run strict [] vcvtq_f32_s32 [vec I32 [16777217; -1; 0; 2147483647]] = Returns [] (Some (vec F32 [1266679808; 3212836864; 0; 1325400064])).
Proof. lits. Qed.

(** ** C34 Reciprocal estimate.  Missing: operands whose exponent field is 0, 253, 254 or 255. *)

Theorem C34_vrecpeq_partial : forall c m a, lanes F32 4 a ->
  exists r, run c m vrecpeq_f32 [vec F32 a] = Returns m (Some (vec F32 r)) /\ lanes F32 4 r /\
    all_lanes (fun x z => sign_bit F32 z = sign_bit F32 x /\
      exp_field F32 z = (253 - exp_field F32 x) mod 256 /\
      (1 <= exp_field F32 x <= 252 ->
         ffin F32 z /\ (Rabs (fval F32 z * fval F32 x - 1) < / 256)%R)) a r.
Proof. exact vrecpeq_f32_exact. Qed.
Print Assumptions C34_vrecpeq_partial.

(** The eight bits of the estimate are the architected ones, for every operand. *)
Theorem C34_vrecpeq_estimate : forall c m a, lanes F32 4 a ->
  exists r, run c m vrecpeq_f32 [vec F32 a] = Returns m (Some (vec F32 r)) /\ lanes F32 4 r /\
    all_lanes (fun x z => sign_bit F32 z = sign_bit F32 x /\
      exp_field F32 z = (253 - exp_field F32 x) mod 256 /\
      exists e, recip_estimate (256 + frac_field F32 x / 2 ^ 15) e /\ frac_field F32 z = (e - 256) * 2 ^ 15) a r.
Proof. exact vrecpeq_f32_fields. Qed.
Print Assumptions C34_vrecpeq_estimate.

(** Zeros, infinities and NaNs give finite numbers (not infinity, zero, NaN), and an operand of the
    largest exponent gives an infinity or a NaN. *)
Theorem C34_vrecpeq_refuted : forall c m a, lanes F32 4 a ->
  exists r, run c m vrecpeq_f32 [vec F32 a] = Returns m (Some (vec F32 r)) /\ lanes F32 4 r /\
    all_lanes (fun x z => (fval F32 x = 0%R -> ffin F32 x -> ffin F32 z) /\ (finf F32 x -> ffin F32 z /\ fval F32 z <> 0%R) /\
      (fnan F32 x -> ffin F32 z) /\ (exp_field F32 x = 254 -> ~ ffin F32 z)) a r.
Proof. exact vrecpeq_f32_special. Qed.
Print Assumptions C34_vrecpeq_refuted.

(** The estimates of 1, 3, -0.75 and 2^125; and those of 0, infinity, 2^127 and the largest number below 2^127. *)
Example C34_example :
  run strict [] vrecpeq_f32 [vec F32 [1065353216; 1077936128; 3208642560; 2113929216]]
  = Returns [] (Some (vec F32 [1065320448; 1051361280; 3215622144; 16744448])) /\
  run strict [] vrecpeq_f32 [vec F32 [0; 2139095040; 2130706432; 2130706431]]
  = Returns [] (Some (vec F32 [2130673664; 2139062272; 2147450880; 0])).
Proof. lits. Qed.

(** ** C35 Reciprocal step.  Missing: products that are not exact, and zero times infinity. *)

Theorem C35_vrecpsq_partial : forall c m a b, lanes F32 4 a -> lanes F32 4 b ->
  exists r, run c m vrecpsq_f32 [vec F32 a; vec F32 b] = Returns m (Some (vec F32 r)) /\ lanes F32 4 r /\
    all_lanes3 (fun x y z =>
      (ffin F32 x -> ffin F32 y -> exact_product F32 x y) ->
      (finf F32 x -> ffin F32 y -> fval F32 y <> 0%R) ->
      (ffin F32 x -> finf F32 y -> fval F32 x <> 0%R) ->
      fused_two_minus F32 x y z) a b r.
Proof. exact vrecpsq_f32_fused. Qed.
Print Assumptions C35_vrecpsq_partial.

(** What it is for every operand: the rounded product, then the rounded difference. *)
Theorem C35_vrecpsq_two_step : forall c m a b, lanes F32 4 a -> lanes F32 4 b ->
  exists p r, run c m vrecpsq_f32 [vec F32 a; vec F32 b] = Returns m (Some (vec F32 r)) /\
    lanes F32 4 p /\ all_lanes3 (ieee_mul F32) a b p /\
    lanes F32 4 r /\ all_lanes (two_minus F32) p r.
Proof. exact vrecpsq_f32_exact. Qed.
Print Assumptions C35_vrecpsq_two_step.

(** (1 + 2^-12)^2 loses its last bit before the subtraction; 0 * infinity gives NaN instead of 2. *)
Theorem C35_vrecpsq_refuted :
  run strict [] vrecpsq_f32 [vec F32 [1065355264; 0; 0; 0]; vec F32 [1065355264; 2139095040; 0; 0]]
  = Returns [] (Some (vec F32 [1065345024; 2143289344; 1073741824; 1073741824])) /\
  ~ fused_two_minus F32 1065355264 1065355264 1065345024 /\
  ~ fused_two_minus F32 0 2139095040 2143289344.
Proof. exact vrecpsq_wrong. Qed.
Print Assumptions C35_vrecpsq_refuted.

(** 2 - 1 * 1 and 2 - 1.5 * 1.5; the products are exact. *)
Example C35_example : exact_product F32 1069547520 1069547520 /\
  run strict [] vrecpsq_f32 [vec F32 [1065353216; 1069547520; 0; 0]; vec F32 [1065353216; 1069547520; 0; 0]]
  = Returns [] (Some (vec F32 [1065353216; 3196059648; 1073741824; 1073741824])).
Proof. split; [exact exact_product_15 | lits]. Qed.
