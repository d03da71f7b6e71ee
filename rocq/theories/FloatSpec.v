(** IEEE-754 arithmetic as a specification: the real number a bit pattern denotes
    and the relation "this pattern is the correctly rounded result".

    Like [Spec], this file does not mention the interpreter or any program, nor the
    floating-point functions that the interpreter uses.  Rounding is Flocq's
    [round] with the format's exponent function, to nearest, ties to even. *)
From Coq Require Import ZArith Reals Bool.
From Flocq Require Import Core.
From Verif Require Import Types.
Open Scope Z_scope.

(** ** The two formats: binary32 ([F32]) and binary64 ([F64]) *)

(** precision; width of the exponent field; exponent of the smallest positive
    number; largest finite numbers are below 2^[max_exp] *)
Definition precision (t : sty) : Z := match t with F64 => 53 | _ => 24 end.
Definition exp_bits (t : sty) : Z := match t with F64 => 11 | _ => 8 end.
Definition min_exp (t : sty) : Z := match t with F64 => -1074 | _ => -149 end.
Definition max_exp (t : sty) : Z := match t with F64 => 1024 | _ => 128 end.

(** ** The fields of a bit pattern *)

Definition sign_bit (t : sty) (z : Z) : bool := Z.testbit z (width t - 1).
Definition exp_field (t : sty) (z : Z) : Z := (z / 2 ^ (precision t - 1)) mod 2 ^ exp_bits t.
Definition frac_field (t : sty) (z : Z) : Z := z mod 2 ^ (precision t - 1).

Definition fnan (t : sty) (z : Z) : Prop := exp_field t z = 2 ^ exp_bits t - 1 /\ frac_field t z <> 0.
Definition finf (t : sty) (z : Z) : Prop := exp_field t z = 2 ^ exp_bits t - 1 /\ frac_field t z = 0.
Definition ffin (t : sty) (z : Z) : Prop := exp_field t z <> 2 ^ exp_bits t - 1.

(** The number denoted by a finite pattern: subnormal if the exponent field is 0. *)
Definition fval (t : sty) (z : Z) : R :=
  let m := if exp_field t z =? 0 then frac_field t z else frac_field t z + 2 ^ (precision t - 1) in
  let e := if exp_field t z =? 0 then min_exp t else exp_field t z - 1 + min_exp t in
  ((if sign_bit t z then -1 else 1) * IZR m * bpow radix2 e)%R.

(** The patterns of the infinities and of the zeros. *)
Definition infinity (t : sty) (s : bool) : Z :=
  (if s then 2 ^ (width t - 1) else 0) + (2 ^ exp_bits t - 1) * 2 ^ (precision t - 1).
Definition fzero (t : sty) (s : bool) : Z := if s then 2 ^ (width t - 1) else 0.

(** ** Rounding *)

(** Round to nearest, ties to even. *)
Definition rnd (t : sty) (x : R) : R :=
  round radix2 (FLT_exp (min_exp t) (precision t)) ZnearestE x.

(** [r] is the rounded value of the real [v], with sign bit [s]; too large a value
    gives the infinity of that sign. *)
Definition rounded (t : sty) (v : R) (s : bool) (r : Z) : Prop :=
  if Rlt_bool (Rabs (rnd t v)) (bpow radix2 (max_exp t))
  then ffin t r /\ fval t r = rnd t v /\ sign_bit t r = s
  else r = infinity t s.

(** The sign of a nonzero real; [s] for zero. *)
Definition sign_of (v : R) (s : bool) : bool :=
  match Rcompare v 0 with Lt => true | Gt => false | Eq => s end.

(** ** The operations *)

(** x + y: a sum that is exactly zero is -0 only if both operands are negative. *)
Definition ieee_add (t : sty) (x y r : Z) : Prop :=
  (fnan t x \/ fnan t y -> fnan t r) /\
  (finf t x -> finf t y -> if eqb (sign_bit t x) (sign_bit t y) then r = x else fnan t r) /\
  (finf t x -> ffin t y -> r = x) /\
  (ffin t x -> finf t y -> r = y) /\
  (ffin t x -> ffin t y ->
     rounded t (fval t x + fval t y)
       (sign_of (fval t x + fval t y) (sign_bit t x && sign_bit t y)) r).

(** x - y *)
Definition ieee_sub (t : sty) (x y r : Z) : Prop :=
  (fnan t x \/ fnan t y -> fnan t r) /\
  (finf t x -> finf t y -> if eqb (sign_bit t x) (sign_bit t y) then fnan t r else r = x) /\
  (finf t x -> ffin t y -> r = x) /\
  (ffin t x -> finf t y -> r = infinity t (negb (sign_bit t y))) /\
  (ffin t x -> ffin t y ->
     rounded t (fval t x - fval t y)
       (sign_of (fval t x - fval t y) (sign_bit t x && negb (sign_bit t y))) r).

(** x * y *)
Definition ieee_mul (t : sty) (x y r : Z) : Prop :=
  let s := xorb (sign_bit t x) (sign_bit t y) in
  (fnan t x \/ fnan t y -> fnan t r) /\
  (finf t x -> finf t y -> r = infinity t s) /\
  (finf t x -> ffin t y -> if Req_bool (fval t y) 0 then fnan t r else r = infinity t s) /\
  (ffin t x -> finf t y -> if Req_bool (fval t x) 0 then fnan t r else r = infinity t s) /\
  (ffin t x -> ffin t y -> rounded t (fval t x * fval t y) s r).

(** x / y *)
Definition ieee_div (t : sty) (x y r : Z) : Prop :=
  let s := xorb (sign_bit t x) (sign_bit t y) in
  (fnan t x \/ fnan t y -> fnan t r) /\
  (finf t x -> finf t y -> fnan t r) /\
  (finf t x -> ffin t y -> r = infinity t s) /\
  (ffin t x -> finf t y -> r = fzero t s) /\
  (ffin t x -> ffin t y ->
     if Req_bool (fval t y) 0
     then if Req_bool (fval t x) 0 then fnan t r else r = infinity t s
     else rounded t (fval t x / fval t y) s r).

(** Every pattern is exactly one of NaN, infinity, finite. *)
Lemma fclass t z : fnan t z \/ finf t z \/ ffin t z.
Proof.
  unfold fnan, finf, ffin.
  destruct (Z.eq_dec (exp_field t z) (2 ^ exp_bits t - 1)); [|tauto].
  destruct (Z.eq_dec (frac_field t z) 0); tauto.
Qed.

(** ** Order

    x < y: both finite with the numbers in that order, or x is -infinity and y is
    not, or y is +infinity and x is not; a NaN is never in order with anything. *)
Definition flt (t : sty) (x y : Z) : Prop :=
  (ffin t x /\ ffin t y /\ (fval t x < fval t y)%R) \/
  (x = infinity t true /\ ~ fnan t y /\ y <> infinity t true) \/
  (y = infinity t false /\ ~ fnan t x /\ x <> infinity t false).

(** The larger of two numbers: NaN if there is one, +0 rather than -0. *)
Definition ieee_max (t : sty) (x y r : Z) : Prop :=
  (fnan t x \/ fnan t y -> fnan t r) /\
  (~ fnan t x -> ~ fnan t y ->
     (r = x \/ r = y) /\ ~ flt t r x /\ ~ flt t r y /\
     (r = fzero t true -> x <> fzero t false /\ y <> fzero t false)).

(** The smaller: -0 rather than +0. *)
Definition ieee_min (t : sty) (x y r : Z) : Prop :=
  (fnan t x \/ fnan t y -> fnan t r) /\
  (~ fnan t x -> ~ fnan t y ->
     (r = x \/ r = y) /\ ~ flt t x r /\ ~ flt t y r /\
     (r = fzero t false -> x <> fzero t true /\ y <> fzero t true)).

(** What [x > y ? x : y] and [x < y ? x : y] are. *)
Definition greater_or_second (t : sty) (x y r : Z) : Prop :=
  (flt t y x -> r = x) /\ (~ flt t y x -> r = y).
Definition less_or_second (t : sty) (x y r : Z) : Prop :=
  (flt t x y -> r = x) /\ (~ flt t x y -> r = y).

(** 2 - p, rounded once: the second step of the reciprocal step. *)
Definition two_minus (t : sty) (p r : Z) : Prop :=
  (fnan t p -> fnan t r) /\
  (finf t p -> r = infinity t (negb (sign_bit t p))) /\
  (ffin t p -> rounded t (2 - fval t p) (sign_of (2 - fval t p) false) r).

(** The difference as the code computes it: both operands and the difference
    rounded to double. *)
Definition double_diff (x y : Z) : R := rnd F64 (rnd F64 (IZR x) - rnd F64 (IZR y)).

(** Conversion to an integer type: truncation when the truncated value fits. *)
Definition cvt_fits (u : sty) (x : Z) : Prop := ffin F32 x /\ in_range u (Ztrunc (fval F32 x)).

(** The hardware's reciprocal step: 2 - x * y rounded once, and 2 for the product of
    zero and infinity. *)
Definition fused_two_minus (t : sty) (x y r : Z) : Prop :=
  let s := xorb (sign_bit t x) (sign_bit t y) in
  (fnan t x \/ fnan t y -> fnan t r) /\
  (finf t x -> finf t y -> r = infinity t (negb s)) /\
  (finf t x -> ffin t y -> if Req_bool (fval t y) 0 then ffin t r /\ fval t r = 2%R else r = infinity t (negb s)) /\
  (ffin t x -> finf t y -> if Req_bool (fval t x) 0 then ffin t r /\ fval t r = 2%R else r = infinity t (negb s)) /\
  (ffin t x -> ffin t y -> rounded t (2 - fval t x * fval t y) (sign_of (2 - fval t x * fval t y) false) r).

(** The product of two finite numbers is itself a number of the format. *)
Definition exact_product (t : sty) (x y : Z) : Prop :=
  rnd t (fval t x * fval t y) = (fval t x * fval t y)%R /\
  (Rabs (fval t x * fval t y) < bpow radix2 (max_exp t))%R.

(** The architected reciprocal estimate of a mantissa k/256 in [1, 2): the integer
    nearest to 2^18 / (2 k + 1), that is, 256 times (and scaled by 2) the reciprocal
    of the midpoint of the interval [k, k + 1). *)
Definition recip_estimate (k e : Z) : Prop := - (2 * k + 1) < 2 * (2 * k + 1) * e - 2 ^ 19 < 2 * k + 1.
