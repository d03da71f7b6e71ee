(** EXPECT_NEAR and ASSERT_NEAR of tests/utest.h, for arguments that are doubles or have been converted to double. *)
From Coq Require Import ZArith Bool Floats.SpecFloat.
From Verif Require Import Types FloatBits.
Open Scope Z_scope.

(** utest_fabs (utest.h:1040-1048), on bit patterns *)
Definition utest_fabs (d : Z) : Z := Z.land d 9223372036854775807.

(** utest_isnan (utest.h:1053-1061) *)
Definition utest_isnan (d : Z) : bool := 9218868437227405312 <? Z.land d 9223372036854775807.

(** The condition of EXPECT_NEAR and ASSERT_NEAR (utest.h:688-692, 872-876): whether the check passes.  [k]: the NaN that an invalid subtraction gives. *)
Definition near (k x y epsilon : Z) : bool :=
  let diff := utest_fabs (encode F64 k (fsub F64 (decode F64 x) (decode F64 y))) in
  negb (SFltb (decode F64 epsilon) (decode F64 diff) || utest_isnan diff).
