(** The results of contracted expressions, in terms of FloatSpec.v only. *)
From Coq Require Import ZArith Reals Bool.
From Flocq Require Import Core.
From Verif Require Import Types FloatSpec.
Open Scope Z_scope.

(** x * y + z, rounded once (IEEE-754 fusedMultiplyAdd): a sum that is exactly zero is -0 only if the
    product and z are both negative. *)
Definition ieee_fma (t : sty) (x y z r : Z) : Prop :=
  let s := xorb (sign_bit t x) (sign_bit t y) in
  let zero_times_inf := (finf t x /\ ffin t y /\ fval t y = 0%R) \/ (ffin t x /\ fval t x = 0%R /\ finf t y) in
  let inf_product := ~ fnan t x /\ ~ fnan t y /\ (finf t x \/ finf t y) /\ ~ zero_times_inf in
  (fnan t x \/ fnan t y \/ fnan t z \/ zero_times_inf -> fnan t r) /\
  (inf_product -> finf t z -> if eqb s (sign_bit t z) then r = z else fnan t r) /\
  (inf_product -> ffin t z -> r = infinity t s) /\
  (ffin t x -> ffin t y -> finf t z -> r = z) /\
  (ffin t x -> ffin t y -> ffin t z ->
     rounded t (fval t x * fval t y + fval t z)
       (sign_of (fval t x * fval t y + fval t z) (s && sign_bit t z)) r).

(** x * y + z with two roundings. *)
Definition two_roundings (t : sty) (x y z r : Z) : Prop :=
  exists p, in_range t p /\ ieee_mul t x y p /\ ieee_add t z p r.

(** 2 - x * y for floats, computed in double with one rounding and then rounded to float. *)
Definition fused_in_double (x y r : Z) : Prop :=
  let s := xorb (sign_bit F32 x) (sign_bit F32 y) in
  let v := (2 - fval F32 x * fval F32 y)%R in
  let zero_times_inf := (finf F32 x /\ ffin F32 y /\ fval F32 y = 0%R) \/ (ffin F32 x /\ fval F32 x = 0%R /\ finf F32 y) in
  (fnan F32 x \/ fnan F32 y \/ zero_times_inf -> fnan F32 r) /\
  (~ fnan F32 x -> ~ fnan F32 y -> finf F32 x \/ finf F32 y -> ~ zero_times_inf -> r = infinity F32 (negb s)) /\
  (ffin F32 x -> ffin F32 y -> rounded F32 (rnd F64 v) (sign_of v false) r).
