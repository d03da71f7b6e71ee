(** Floating point, continued: C33 (conversion and back), C67 (refined reciprocals). *)
From Coq Require Import ZArith String List Bool Lia Reals Lra.
From Flocq Require Import Core.
From Verif Require Import Types Syntax Interp ProgRecip Spec FloatSpec Tables PropBase.
From Verif Require Import Library P_Newton.
Import ListNotations.
Open Scope Z_scope.

(** ** C33 Conversion to float and back *)

(** Integers up to 2^24 in magnitude survive; *)
Theorem C33_round_trip : forall c m a, lanes I32 4 a -> Forall (fun z => Z.abs z <= 2 ^ 24) a ->
  exists r, run c m vcvtq_f32_s32 [vec I32 a] = Returns m (Some (vec F32 r)) /\
    run c m vcvtq_s32_f32 [vec F32 r] = Returns m (Some (vec I32 a)).
Proof. exact int_float_int. Qed.
Print Assumptions C33_round_trip.

(** the largest 64 become 2^31, and converting that back is undefined. *)
Theorem C33_round_trip_refuted : forall c m a, lanes I32 4 a -> Exists (fun z => 2 ^ 31 - 64 <= z) a ->
  exists r, run c m vcvtq_f32_s32 [vec I32 a] = Returns m (Some (vec F32 r)) /\
    run c m vcvtq_s32_f32 [vec F32 r] = Undefined FloatCast.
Proof. exact int_float_overflow. Qed.
Print Assumptions C33_round_trip_refuted.

Example C33_round_trip_example :
  lanes I32 4 [16777216; -16777215; 7; 0] /\ Forall (fun z => Z.abs z <= 2 ^ 24) [16777216; -16777215; 7; 0] /\
  lanes I32 4 [1; 2147483647; 3; 4] /\ Exists (fun z => 2 ^ 31 - 64 <= z) [1; 2147483647; 3; 4] /\
  run strict [] vcvtq_f32_s32 [vec I32 [1; 2147483583; 3; 4]] = Returns [] (Some (vec F32 [1065353216; 1325400063; 1077936128; 1082130432])) /\
  run strict [] vcvtq_s32_f32 [vec F32 [1065353216; 1325400063; 1077936128; 1082130432]] = Returns [] (Some (vec I32 [1; 2147483520; 3; 4])).
Proof.
  repeat split; try (repeat constructor; now compute); try (vm_compute; reflexivity).
Qed.

(** ** C67 Refining the estimate: one step vmulq(e, vrecpsq(x, e)) brings the relative error of
    the reciprocal below 2^-16 + 2^-22, a second one below 2^-22. *)

Theorem C67_newton_raphson : forall c m x, lanes F32 4 x -> Forall (fun z => 1 <= exp_field F32 z <= 251) x ->
  exists e0 s0 e1 s1 e2,
    run c m vrecpeq_f32 [vec F32 x] = Returns m (Some (vec F32 e0)) /\
    run c m vrecpsq_f32 [vec F32 x; vec F32 e0] = Returns m (Some (vec F32 s0)) /\
    run c m vmulq_f32 [vec F32 e0; vec F32 s0] = Returns m (Some (vec F32 e1)) /\
    run c m vrecpsq_f32 [vec F32 x; vec F32 e1] = Returns m (Some (vec F32 s1)) /\
    run c m vmulq_f32 [vec F32 e1; vec F32 s1] = Returns m (Some (vec F32 e2)) /\
    lanes F32 4 e1 /\ lanes F32 4 e2 /\
    all_lanes (fun x e => ffin F32 e /\ (Rabs (fval F32 e * fval F32 x - 1) < / 2 ^ 16 + / 2 ^ 22)%R) x e1 /\
    all_lanes (fun x e => ffin F32 e /\ (Rabs (fval F32 e * fval F32 x - 1) < / 2 ^ 22)%R) x e2.
Proof. exact newton. Qed.
Print Assumptions C67_newton_raphson.

(** Division: n * (1/x) differs from n/x by less than 2^-21 of it, when n/x is of normal magnitude. *)
Theorem C67_division : forall c m n x, lanes F32 4 n -> lanes F32 4 x ->
  Forall (fun z => 1 <= exp_field F32 z <= 251) x -> Forall (ffin F32) n ->
  all_lanes (fun n x => (bpow radix2 (-125) <= Rabs (fval F32 n / fval F32 x) <= bpow radix2 126)%R) n x ->
  exists e0 s0 e1 s1 e2 q,
    run c m vrecpeq_f32 [vec F32 x] = Returns m (Some (vec F32 e0)) /\
    run c m vrecpsq_f32 [vec F32 x; vec F32 e0] = Returns m (Some (vec F32 s0)) /\
    run c m vmulq_f32 [vec F32 e0; vec F32 s0] = Returns m (Some (vec F32 e1)) /\
    run c m vrecpsq_f32 [vec F32 x; vec F32 e1] = Returns m (Some (vec F32 s1)) /\
    run c m vmulq_f32 [vec F32 e1; vec F32 s1] = Returns m (Some (vec F32 e2)) /\
    run c m vmulq_f32 [vec F32 n; vec F32 e2] = Returns m (Some (vec F32 q)) /\ lanes F32 4 q /\
    all_lanes3 (fun n x q => ffin F32 q /\
      (Rabs (fval F32 q - fval F32 n / fval F32 x) < / 2 ^ 21 * Rabs (fval F32 n / fval F32 x))%R) n x q.
Proof. exact newton_division. Qed.
Print Assumptions C67_division.

(** 3, -0.1, 1e10 and 1e-20 are such operands; their refined reciprocals. *)
Example C67_example :
  lanes F32 4 [1077936128; 3184315597; 1343554297; 507307272] /\
  Forall (fun z => 1 <= exp_field F32 z <= 251) [1077936128; 3184315597; 1343554297; 507307272] /\
  match run strict [] vrecpeq_f32 [vec F32 [1077936128; 3184315597; 1343554297; 507307272]] with
  | Returns _ (Some e) =>
      match run strict [] vrecpsq_f32 [vec F32 [1077936128; 3184315597; 1343554297; 507307272]; e] with
      | Returns _ (Some s) => run strict [] vmulq_f32 [e; s]
      | o => o
      end
  | o => o
  end = Returns [] (Some (vec F32 [1051372192; 3240099840; 786163407; 1621981420])).
Proof. repeat split; try (repeat constructor; now compute); vm_compute; reflexivity. Qed.
