(** IEEE-754 binary32/binary64 bit patterns, and the floating-point operations
    of the model on them.  The arithmetic itself is the standard library's
    [SpecFloat] (round to nearest, ties to even). *)
From Coq Require Import ZArith Bool List.
From Coq Require Import Floats.SpecFloat.
From Verif Require Import Types.
Open Scope Z_scope.

(** Format parameters (F64 is binary64, every other tag is read as binary32). *)
Definition fprec (t : sty) : Z := match t with F64 => 53 | _ => 24 end.
Definition femax (t : sty) : Z := match t with F64 => 1024 | _ => 128 end.
Definition femin (t : sty) : Z := match t with F64 => -1074 | _ => -149 end.
(** 2^(prec-1): one more than the largest fraction field *)
Definition fhid (t : sty) : Z :=
  match t with F64 => 4503599627370496 | _ => 8388608 end.
(** 2^(exponent width) *)
Definition fexps (t : sty) : Z := match t with F64 => 2048 | _ => 256 end.
(** the weight of the sign bit *)
Definition fsgn (t : sty) : Z :=
  match t with F64 => 9223372036854775808 | _ => 2147483648 end.

(** Bit pattern to floating-point datum. *)
Definition decode (t : sty) (z : Z) : spec_float :=
  let m := z mod fhid t in
  let e := (z / fhid t) mod fexps t in
  let s := fsgn t <=? z in
  if e =? 0 then
    match m with
    | Zpos p => S754_finite s p (femin t)
    | _ => S754_zero s
    end
  else if e =? fexps t - 1 then
    if m =? 0 then S754_infinity s else S754_nan
  else
    match m + fhid t with
    | Zpos p => S754_finite s p (e + femin t - 1)
    | _ => S754_nan
    end.

Definition fsign (t : sty) (s : bool) : Z := if s then fsgn t else 0.

(** A quiet NaN pattern; [k] chooses its sign and payload. *)
Definition qnan (t : sty) (k : Z) : Z :=
  fsign t (Z.odd (k / (fhid t / 2)))
  + (fexps t - 1) * fhid t + fhid t / 2 + k mod (fhid t / 2).

(** Datum to bit pattern; NaN becomes the quiet NaN chosen by [k]. *)
Definition encode (t : sty) (k : Z) (x : spec_float) : Z :=
  match x with
  | S754_zero s => fsign t s
  | S754_infinity s => fsign t s + (fexps t - 1) * fhid t
  | S754_nan => qnan t k
  | S754_finite s m e =>
      if Zpos m <? fhid t then fsign t s + Zpos m
      else fsign t s + (e - femin t + 1) * fhid t + (Zpos m - fhid t)
  end.

Definition fadd (t : sty) := SFadd (fprec t) (femax t).
Definition fsub (t : sty) := SFsub (fprec t) (femax t).
Definition fmul (t : sty) := SFmul (fprec t) (femax t).
Definition fdiv (t : sty) := SFdiv (fprec t) (femax t).

(** Integer to float, correctly rounded (0 gives +0). *)
Definition sf_of_Z (t : sty) (z : Z) : spec_float :=
  binary_normalize (fprec t) (femax t) z 0 false.

(** Float to float. *)
Definition sf_cvt (t : sty) (x : spec_float) : spec_float :=
  match x with
  | S754_finite s m e =>
      binary_normalize (fprec t) (femax t) (cond_Zopp s (Zpos m)) e s
  | _ => x
  end.

(** Truncation toward zero; [None] for infinities and NaN. *)
Definition sf_trunc (x : spec_float) : option Z :=
  match x with
  | S754_zero _ => Some 0
  | S754_finite s m e =>
      Some (cond_Zopp s (if 0 <=? e then Zpos m * 2 ^ e
                         else Zpos m / 2 ^ (- e)))
  | _ => None
  end.

(** [x != 0] as a condition. *)
Definition sf_nonzero (x : spec_float) : bool :=
  match x with S754_zero _ => false | _ => true end.
