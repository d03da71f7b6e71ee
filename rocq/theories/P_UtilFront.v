(** The text of tests/test_util.hpp, parsed by UtilFront.v, is TestUtil.v. *)
From Coq Require Import ZArith String List Bool.
From Verif Require Import Types Syntax Interp TestUtil Frontend SourceH UtilSource UtilFront.
Import ListNotations.
Open Scope string_scope.

Definition comparisons : list func :=
  [almostEqual_uint8x8; almostEqual_int8x8; almostEqual_uint16x8; almostEqual_int16x8; almostEqual_int8x16;
   almostEqual_uint8x8x2; almostEqual_float32x4; almostEqual_int16x4; almostEqual_vector].

Lemma util_parsed : util_front neon_sim_h test_util_hpp = Some comparisons.
Proof. vm_compute. reflexivity. Qed.
