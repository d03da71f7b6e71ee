(** Floating-point environments of IEEE 754: what directed rounding means, and environments that round in a direction.
    Nothing here is code of neon_sim. *)
From Coq Require Import ZArith Reals String List Bool.
From Coq Require Import Floats.SpecFloat.
From Flocq Require Import Core BinarySingleNaN.
From Verif Require Import Types FloatBits FloatSpec FloatR Syntax Interp ProgRecip ProgMul Spec Tables Fenv.
Import ListNotations.
Open Scope Z_scope.

(** ** Directed rounding

    IEEE 754-2008, 4.3.2: the result of rounding toward negative is the number of the format, possibly -infinity, closest to and no greater than the
    infinitely precise result; toward positive, the one closest to and no less than it.  [down] is the direction. *)
Definition within (down : bool) (a v : R) : Prop := if down then (a <= v)%R else (v <= a)%R.

Definition closest (down : bool) (t : sty) (v : R) (r : Z) : Prop :=
  in_range t r /\
  (r = infinity t down /\ (forall z, in_range t z -> ffin t z -> ~ within down (fval t z) v) \/
   ffin t r /\ within down (fval t r) v /\
   (forall z, in_range t z -> ffin t z -> within down (fval t z) v -> within down (fval t z) (fval t r))).

(** [r] is a bound of [v]: it is on the right side of it, or the infinity on that side. *)
Definition bounds (down : bool) (t : sty) (v : R) (r : Z) : Prop :=
  r = infinity t down \/ ffin t r /\ within down (fval t r) v.

(** An environment in which the operations round in a direction. *)
Definition exact_result (o : fop) (x y : R) : R :=
  match o with FAdd => (x + y)%R | FSub => (x - y)%R | FMul => (x * y)%R | _ => (x / y)%R end.
Definition rounds_toward (down : bool) (u : fenv) : Prop :=
  forall t x y, fty t -> in_range t x -> in_range t y ->
    (ffin t x -> ffin t y -> forall o, In o [FAdd; FSub; FMul; FDiv] -> (o = FDiv -> fval t y <> 0%R) ->
       closest down t (exact_result o (fval t x) (fval t y)) (operation u o t x y)) /\
    (* IEEE 754-2008, 6.1 *)
    (x = infinity t down -> ffin t y \/ y = infinity t down -> operation u FAdd t x y = infinity t down) /\
    (ffin t x -> y = infinity t down -> operation u FAdd t x y = infinity t down).

(** ** Environments with Flocq's operations and any of the directions of rounding *)

Definition bits (t : sty) (x : Z) : bin t :=
  match valid_binary (fprec t) (femax t) (decode t x) as b return valid_binary (fprec t) (femax t) (decode t x) = b -> bin t with
  | true => fun H => SF2B (decode t x) H
  | false => fun _ => B754_nan
  end eq_refl.

Definition ieee_env (m : mode) : fenv := mkfenv
  (fun o t x y => encode t 0 (B2SF (match o with
     | FAdd => Bplus m (bits t x) (bits t y) | FSub => Bminus m (bits t x) (bits t y)
     | FMul => Bmult m (bits t x) (bits t y) | _ => Bdiv m (bits t x) (bits t y) end)))
  (fun op t x y => compare_float op (decode t x) (decode t y))
  (fun t z => encode t 0 (B2SF (binary_normalize (fprec t) (femax t) (Hprec t) (Hmax t) m z 0 false)))
  (fun t to z => encode to 0 (match decode t z with
     | S754_finite s k e => B2SF (binary_normalize (fprec to) (femax to) (Hprec to) (Hmax to) m (cond_Zopp s (Zpos k)) e s)
     | x => x end))
  (fun t z => sf_trunc (decode t z))
  (fun t z => sf_nonzero (decode t z)).

(** Denormal numbers are taken to be zero: operands and results. *)
Definition flush (t : sty) (z : Z) : Z := if exp_field t z =? 0 then fzero t (sign_bit t z) else z.
Definition flushing (u : fenv) : fenv := mkfenv
  (fun o t x y => flush t (operation u o t (flush t x) (flush t y)))
  (fun op t x y => comparison u op t (flush t x) (flush t y))
  (from_integer u)
  (fun t to z => flush to (from_float u t to (flush t z)))
  (fun t z => truncation u t (flush t z))
  (fun t z => nonzero u t (flush t z)).

(** ** Accumulating vectors: acc = vmlaq_f32(acc, a, b) for all (a, b) *)
Fixpoint accumulate_in (u : fenv) (c : cfg) (m : memory) (acc : obj) (steps : list (list Z * list Z)) : outcome :=
  match steps with
  | [] => Returns m (Some acc)
  | (a, b) :: steps' =>
      match run_env u c m vmlaq_f32 [acc; vec F32 a; vec F32 b] with
      | Returns m1 (Some acc') => accumulate_in u c m1 acc' steps'
      | o => o
      end
  end.
(** The exact sum of the products that lane [q] sees. *)
Fixpoint products (q : nat) (steps : list (list Z * list Z)) : R :=
  match steps with
  | [] => 0%R
  | (a, b) :: steps' => (fval F32 (nth q a 0%Z) * fval F32 (nth q b 0%Z) + products q steps')%R
  end.
Definition finite_lanes (a : list Z) : Prop := lanes F32 4 a /\ Forall (ffin F32) a.
