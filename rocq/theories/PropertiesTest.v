(** The comparison functions of the test suite: C70. *)
From Coq Require Import ZArith String List Bool Lia Reals Lra.
From Flocq Require Import Core.
From Verif Require Import Types Syntax Interp ProgRecip Spec FloatSpec TestUtil TestSpec PropBase.
From Verif Require Import P_TestUtil.
Import ListNotations.
Open Scope Z_scope.

(** ** C70 almostEqual accepts what is equal and nothing else *)

(** For vectors of 8- and 16-bit integers it accepts exactly the vectors that differ
    by at most eps in every lane, for every finite eps (negative ones included), *)
Theorem C70_integers : forall f t n, In (f, t, n) int_comparisons ->
  forall c m a b eps, lanes t n a -> lanes t n b -> in_range F64 eps -> ffin F64 eps ->
  exists r, compare_run c m f [vec t a; vec t b; rv F64 eps] = Returns m (Some (rv I32 r)) /\
    (r = 0 \/ r = 1) /\ (r = 1 <-> Forall2 (within (fval F64 eps)) a b).
Proof. exact int_compare. Qed.
Print Assumptions C70_integers.

(** so with the default eps = 0 it is equality, *)
Theorem C70_integers_exact : forall f t n, In (f, t, n) int_comparisons ->
  forall c m a b, lanes t n a -> lanes t n b ->
  compare_run c m f [vec t a; vec t b; rv F64 0] =
    Returns m (Some (rv I32 (if list_eq_dec Z.eq_dec a b then 1 else 0))).
Proof. exact int_compare_exact. Qed.
Print Assumptions C70_integers_exact.

Example C70_integers_exact_ex :
  compare_run strict [] almostEqual_int8x8 [vec I8 [-128; 2; 3; 4; 5; 6; 7; 127]; vec I8 [-128; 2; 3; 4; 5; 6; 7; 127]; rv F64 0]
    = Returns [] (Some (rv I32 1)) /\
  compare_run strict [] almostEqual_int8x8 [vec I8 [-128; 2; 3; 4; 5; 6; 7; 127]; vec I8 [-128; 2; 3; 4; 5; 6; 7; -128]; rv F64 0]
    = Returns [] (Some (rv I32 0)) /\
  In (almostEqual_int8x8, I8, 8%nat) int_comparisons /\ lanes I8 8 [-128; 2; 3; 4; 5; 6; 7; 127].
Proof. split; [vm_compute; reflexivity|]. split; [vm_compute; reflexivity|]. split; [cbn; auto|]. lits. Qed.

(** also for the pair of vectors uint8x8x2_t. *)
Theorem C70_pairs : forall c m vs ws, tuple U8 2 8 vs -> tuple U8 2 8 ws ->
  compare_run c m almostEqual_uint8x8x2 [vecs U8 vs; vecs U8 ws] =
    Returns m (Some (rv I32 (if list_eq_dec (list_eq_dec Z.eq_dec) vs ws then 1 else 0))).
Proof. exact int_compare_pair. Qed.
Print Assumptions C70_pairs.

Example C70_pairs_ex :
  compare_run strict [] almostEqual_uint8x8x2 [vecs U8 [[1; 2; 3; 4; 5; 6; 7; 8]; [1; 2; 3; 4; 5; 6; 7; 8]];
    vecs U8 [[1; 2; 3; 4; 5; 6; 7; 8]; [1; 2; 3; 4; 5; 6; 7; 9]]] = Returns [] (Some (rv I32 0)).
Proof. vm_compute; reflexivity. Qed.

(** float32x4_t: lanes within eps of each other are accepted; but a lane that is a NaN,
    in either vector, is accepted whatever stands in the other; *)
Theorem C70_floats_refuted : forall c m a b eps, lanes F32 4 a -> lanes F32 4 b -> in_range F64 eps -> ffin F64 eps ->
  Forall2 (fun x y => float_within (fval F64 eps) x y \/ some_nan x y) a b ->
  compare_run c m almostEqual_float32x4 [vec F32 a; vec F32 b; rv F64 eps] = Returns m (Some (rv I32 1)).
Proof. exact float_accepts. Qed.
Print Assumptions C70_floats_refuted.

(** expected 1, 2, 3, 4 and actual NaN, 2, NaN, 4 *)
Example C70_floats_refuted_ex :
  compare_run strict [] almostEqual_float32x4
    [vec F32 [1065353216; 1073741824; 1077936128; 1082130432]; vec F32 [2143289344; 1073741824; 2143289344; 1082130432]; rv F64 0]
    = Returns [] (Some (rv I32 1)) /\ some_nan 1065353216 2143289344.
Proof. split; [vm_compute; reflexivity|]. right. vm_compute. split; congruence. Qed.

(** with the default eps, lanes that denote different numbers are rejected if all lanes can
    be converted to int, which printing the message does; *)
Theorem C70_floats_partial : forall c m a b, lanes F32 4 a -> lanes F32 4 b ->
  Forall int_castable a -> Forall int_castable b ->
  some_lane (fun x y => ~ float_within 0 x y) a b ->
  compare_run c m almostEqual_float32x4 [vec F32 a; vec F32 b; rv F64 0] = Returns m (Some (rv I32 0)).
Proof. exact float_rejects. Qed.
Print Assumptions C70_floats_partial.

Example C70_floats_partial_ex :
  compare_run strict [] almostEqual_float32x4
    [vec F32 [1065353216; 1073741824; 1077936128; 1082130432]; vec F32 [1065353216; 1073741824; 1077936128; 1082130433]; rv F64 0]
    = Returns [] (Some (rv I32 0)).
Proof. vm_compute; reflexivity. Qed.

(** otherwise the message itself is undefined behaviour: 2^31 expected, 0 found. *)
Theorem C70_message_refuted : forall c m,
  compare_run c m almostEqual_float32x4 [vec F32 [1325400064; 0; 0; 0]; vec F32 [0; 0; 0; 0]; rv F64 0] = Undefined FloatCast.
Proof. intros c m. vm_compute. reflexivity. Qed.
Print Assumptions C70_message_refuted.

(** std::vector<float>: four elements are compared, whatever the length.  Longer
    vectors that agree in the first four are accepted, *)
Theorem C70_vector_refuted : forall c m p q bp bq,
  nth_error m bp = Some (F32, map Some p) -> nth_error m bq = Some (F32, map Some q) ->
  Forall (in_range F32) p -> (4 <= List.length p)%nat -> (4 <= List.length q)%nat -> firstn 4 p = firstn 4 q ->
  compare_run c m almostEqual_vector [OPtr F32 bp 0; OPtr F32 bq 0; rv F64 0] = Returns m (Some (rv I32 1)).
Proof. exact vector_prefix. Qed.
Print Assumptions C70_vector_refuted.

(** as in the test of vst1q_f32 (tests/test_vst.cpp:3-10), which passes vectors of
    five elements to see that the fifth is left alone: *)
Example C70_vector_refuted_ex :
  let m := [(F32, map Some [1065353216; 1073741824; 1077936128; 1082130432; 0]);
            (F32, map Some [1065353216; 1073741824; 1077936128; 1082130432; 1084227584])] in
  compare_run strict m almostEqual_vector [OPtr F32 0 0; OPtr F32 1 0; rv F64 0] = Returns m (Some (rv I32 1)).
Proof. vm_compute; reflexivity. Qed.

(** and two equal vectors of three elements are undefined behaviour. *)
Theorem C70_short_vector_refuted : forall c,
  compare_run c [(F32, map Some [0; 0; 0]); (F32, map Some [0; 0; 0])] almostEqual_vector
    [OPtr F32 0 0; OPtr F32 1 0; rv F64 0] = Undefined OutOfBounds.
Proof. intros c. vm_compute. reflexivity. Qed.
Print Assumptions C70_short_vector_refuted.
