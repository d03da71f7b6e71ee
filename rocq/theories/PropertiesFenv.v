(** C83: the floating-point environment. *)
From Coq Require Import ZArith Reals String List Bool Lia Lra.
From Flocq Require Import Core BinarySingleNaN.
From Verif Require Import Types FloatBits FloatSpec FloatR Syntax Interp ProgRecip ProgAdd ProgSub ProgMul ProgShift ProgPerm ProgRev Library Spec Tables PropBase MetaSpec P_Meta2.
From Verif Require Import Fenv FenvSpec P_Fenv2 P_Fenv3 P_Fenv4.
Import ListNotations.
Open Scope Z_scope.

(** In every environment, whatever its floating-point operations give, every call of every function but these 29 has the
    outcome it has in the default environment. *)
Theorem C83_environment : forall u c m f args, In f library ->
  ~ In f ([vaddq_f32; vsub_f32; vsub_f32__F64x1; vsubq_f32; vmulq_f32; vmul_n_f32; vmul_n_f64; vmulq_n_f32; vmulq_n_f64;
           vmlaq_f32; vmlaq_n_f32; vrecpsq_f32; vdiv_f32; vdiv_f64; vdivq_f32; vdivq_f64; vcvtq_f32_s32] ++
          [vmaxq_f32; vminq_f32; vpmax_f32; vpmin_f32; vcltq_f32; vcvtq_s32_f32; vcvtq_u32_f32; vcvtnq_s32_f32] ++
          [vqsub_s64; vqsub_u64; vqsubq_s64; vqsubq_u64]) ->
  typed_args m f args -> run_env u c m f args = run c m f args.
Proof. exact environment_irrelevant. Qed.
Print Assumptions C83_environment.

(** If the environment differs in rounding only, the maxima, minima, comparisons and truncations do not depend on it either. *)
Theorem C83_rounding : forall u c m f args, only_rounding u -> In f library ->
  ~ In f ([vaddq_f32; vsub_f32; vsub_f32__F64x1; vsubq_f32; vmulq_f32; vmul_n_f32; vmul_n_f64; vmulq_n_f32; vmulq_n_f64;
           vmlaq_f32; vmlaq_n_f32; vrecpsq_f32; vdiv_f32; vdiv_f64; vdivq_f32; vdivq_f64; vcvtq_f32_s32] ++
          [vqsub_s64; vqsub_u64; vqsubq_s64; vqsubq_u64]) ->
  typed_args m f args -> run_env u c m f args = run c m f args.
Proof. exact rounding_irrelevant. Qed.
Print Assumptions C83_rounding.

(** The default environment is the one of all other properties. *)
Theorem C83_default : forall c m f args, run_env (default_env c) c m f args = run c m f args.
Proof. exact run_default. Qed.
Print Assumptions C83_default.

(** The lanes of the others are what the environment makes of the operations, each done once, in the order written here. *)
Theorem C83_lanes : forall u c m f o t n a b, In (f, o, t, n)
    [(vaddq_f32, FAdd, F32, 4%nat); (vsub_f32, FSub, F32, 2%nat); (vsub_f32__F64x1, FSub, F64, 1%nat); (vsubq_f32, FSub, F32, 4%nat);
     (vmulq_f32, FMul, F32, 4%nat); (vdiv_f32, FDiv, F32, 2%nat); (vdiv_f64, FDiv, F64, 1%nat); (vdivq_f32, FDiv, F32, 4%nat); (vdivq_f64, FDiv, F64, 2%nat)] ->
  lanes t n a -> lanes t n b ->
  run_env u c m f [vec t a; vec t b] = Returns m (Some (vec t (map2 (operation u o t) a b))).
Proof. exact lanes_operation. Qed.
Print Assumptions C83_lanes.

Theorem C83_lanes_n : forall u c m f t n a b, In (f, t, n) [(vmul_n_f32, F32, 2%nat); (vmul_n_f64, F64, 1%nat); (vmulq_n_f32, F32, 4%nat); (vmulq_n_f64, F64, 2%nat)] ->
  lanes t n a -> run_env u c m f [vec t a; rv t b] = Returns m (Some (vec t (map (fun x => operation u FMul t x b) a))).
Proof. exact lanes_operation_n. Qed.
Print Assumptions C83_lanes_n.

Theorem C83_lanes_mla : forall u c m a x y, lanes F32 4 a -> lanes F32 4 x -> lanes F32 4 y ->
  run_env u c m vmlaq_f32 [vec F32 a; vec F32 x; vec F32 y] =
  Returns m (Some (vec F32 (map2 (operation u FAdd F32) a (map2 (operation u FMul F32) x y)))).
Proof. exact lanes_mla. Qed.
Print Assumptions C83_lanes_mla.

Theorem C83_lanes_mla_n : forall u c m a x y, lanes F32 4 a -> lanes F32 4 x ->
  run_env u c m vmlaq_n_f32 [vec F32 a; vec F32 x; rv F32 y] =
  Returns m (Some (vec F32 (map2 (operation u FAdd F32) a (map (fun x => operation u FMul F32 x y) x)))).
Proof. exact lanes_mla_n. Qed.
Print Assumptions C83_lanes_mla_n.

Theorem C83_lanes_cvt : forall u c m a, lanes I32 4 a ->
  run_env u c m vcvtq_f32_s32 [vec I32 a] = Returns m (Some (vec F32 (map (from_integer u F32) a))).
Proof. exact lanes_cvt. Qed.
Print Assumptions C83_lanes_cvt.

(** vrecpsq_f32 multiplies floats, subtracts the product from 2 in double, and makes the difference a float. *)
Theorem C83_lanes_recps : forall u c m a b, lanes F32 4 a -> lanes F32 4 b ->
  run_env u c m vrecpsq_f32 [vec F32 a; vec F32 b] =
  Returns m (Some (vec F32 (map2 (fun x y => from_float u F64 F32 (operation u FSub F64 4611686018427387904 (from_float u F32 F64 (operation u FMul F32 x y)))) a b))).
Proof. exact lanes_recps. Qed.
Print Assumptions C83_lanes_recps.

(** In an environment that rounds down (up), every lane of a sum, difference, product or quotient of finite numbers is the largest float not above (the
    smallest not below) the exact result. *)
Theorem C83_directed : forall down u f o t n c m a b, rounds_toward down u -> In (f, o, t, n)
    [(vaddq_f32, FAdd, F32, 4%nat); (vsub_f32, FSub, F32, 2%nat); (vsub_f32__F64x1, FSub, F64, 1%nat); (vsubq_f32, FSub, F32, 4%nat);
     (vmulq_f32, FMul, F32, 4%nat); (vdiv_f32, FDiv, F32, 2%nat); (vdiv_f64, FDiv, F64, 1%nat); (vdivq_f32, FDiv, F32, 4%nat); (vdivq_f64, FDiv, F64, 2%nat)] ->
  lanes t n a -> lanes t n b -> Forall (ffin t) a -> Forall (ffin t) b -> (o = FDiv -> Forall (fun y => fval t y <> 0%R) b) ->
  exists r, run_env u c m f [vec t a; vec t b] = Returns m (Some (vec t r)) /\
    forall q, (q < n)%nat -> closest down t (exact_result o (fval t (nth q a 0%Z)) (fval t (nth q b 0%Z))) (nth q r 0).
Proof. exact lanes_closest. Qed.
Print Assumptions C83_directed.

(** Interval arithmetic: if products are accumulated with vmlaq_f32 once with rounding down and once with rounding up, then
    every lane of the first is not above and every lane of the second not below the exact sum, for any number of finite operands; a bound that is not finite is the infinity
    of its side, never NaN. *)
Theorem C83_enclosure : forall ud uu c m a steps, rounds_toward true ud -> rounds_toward false uu -> finite_lanes a ->
  Forall (fun s => finite_lanes (fst s) /\ finite_lanes (snd s)) steps ->
  exists l h, accumulate_in ud c m (vec F32 a) steps = Returns m (Some (vec F32 l)) /\
    accumulate_in uu c m (vec F32 a) steps = Returns m (Some (vec F32 h)) /\
    forall q, (q < 4)%nat ->
      (nth q l 0 = infinity F32 true \/ ffin F32 (nth q l 0%Z) /\ (fval F32 (nth q l 0%Z) <= fval F32 (nth q a 0%Z) + products q steps)%R) /\
      (nth q h 0 = infinity F32 false \/ ffin F32 (nth q h 0%Z) /\ (fval F32 (nth q a 0%Z) + products q steps <= fval F32 (nth q h 0%Z))%R).
Proof. exact enclosure. Qed.
Print Assumptions C83_enclosure.

(** There are such environments: those with the operations of IEEE 754. *)
Theorem C83_directed_exists : forall down, rounds_toward down (ieee_env (if down then mode_DN else mode_UP)) /\
  only_rounding (ieee_env (if down then mode_DN else mode_UP)).
Proof. intros down. split; [exact (ieee_directed down)|apply ieee_only_rounding]. Qed.
Print Assumptions C83_directed_exists.

(** Functions on integers should not depend on the environment, but the saturating subtractions of 64-bit lanes do: they compute in double.  The same holds
    of every function of the list of [C83_rounding], so that the list cannot be shorter. *)
Theorem C83_refuted : forall f, In f ([vqsub_s64; vqsub_u64; vqsubq_s64; vqsubq_u64]) ->
  exists args, typed_args [] f args /\ run_env (ieee_env mode_UP) strict [] f args <> run strict [] f args.
Proof. intros f I. apply (upward_differs f). apply in_or_app. now right. Qed.
Print Assumptions C83_refuted.

Theorem C83_arithmetic_depends : forall f,
  In f [vaddq_f32; vsub_f32; vsub_f32__F64x1; vsubq_f32; vmulq_f32; vmul_n_f32; vmul_n_f64; vmulq_n_f32; vmulq_n_f64;
        vmlaq_f32; vmlaq_n_f32; vrecpsq_f32; vdiv_f32; vdiv_f64; vdivq_f32; vdivq_f64; vcvtq_f32_s32] ->
  exists args, typed_args [] f args /\ run_env (ieee_env mode_UP) strict [] f args <> run strict [] f args.
Proof. intros f I. apply (upward_differs f). apply in_or_app. now left. Qed.
Print Assumptions C83_arithmetic_depends.

(** Where denormal numbers are taken to be zero, the maxima, minima and comparisons depend on that. *)
Theorem C83_flush_depends : forall f, In f [vmaxq_f32; vminq_f32; vpmax_f32; vpmin_f32; vcltq_f32] ->
  exists args, typed_args [] f args /\ run_env (flushing (default_env strict)) strict [] f args <> run strict [] f args.
Proof. exact flushing_differs. Qed.
Print Assumptions C83_flush_depends.

(** 1/3 * 1/3 + 1/3 * 1/3, bounded from below and from above; the largest float times itself. *)
Definition thirds := [1051372203; 2139095039; 0; 0].
Example C83_example :
  finite_lanes [0; 0; 0; 0] /\ finite_lanes thirds /\
  accumulate_in (ieee_env mode_DN) strict [] (vec F32 [0; 0; 0; 0]) [(thirds, thirds); (thirds, thirds)] = Returns [] (Some (vec F32 [1046711865; 2139095039; 0; 0])) /\
  accumulate_in (ieee_env mode_UP) strict [] (vec F32 [0; 0; 0; 0]) [(thirds, thirds); (thirds, thirds)] = Returns [] (Some (vec F32 [1046711866; 2139095040; 0; 0])) /\
  typed_args [] vadd_u8 [vec U8 [1; 2; 3; 4; 5; 6; 7; 8]; vec U8 [255; 1; 1; 1; 1; 1; 1; 1]] /\
  run_env (flushing (ieee_env mode_UP)) strict [] vadd_u8 [vec U8 [1; 2; 3; 4; 5; 6; 7; 8]; vec U8 [255; 1; 1; 1; 1; 1; 1; 1]] = Returns [] (Some (vec U8 [0; 3; 4; 5; 6; 7; 8; 9])).
Proof.
  split; [split; [lits|repeat constructor; vm_compute; discriminate]|].
  split; [split; [lits|repeat constructor; vm_compute; discriminate]|].
  split; [vm_compute; reflexivity|]. split; [vm_compute; reflexivity|].
  split; [apply valid_typed_lit; vm_compute; reflexivity|]. vm_compute; reflexivity.
Qed.
