(** What comparing two vectors "up to eps" should mean. *)
From Coq Require Import ZArith Reals List.
From Flocq Require Import Core.
From Verif Require Import Types FloatSpec.
Open Scope Z_scope.

(** Two integers differ by at most [eps]. *)
Definition within (eps : R) (x y : Z) : Prop := (Rabs (IZR x - IZR y) <= eps)%R.

(** The same for two floats: two numbers, or the same infinity; a NaN is not within
    any distance of anything. *)
Definition float_within (eps : R) (x y : Z) : Prop :=
  (finf F32 x /\ x = y) \/ (ffin F32 x /\ ffin F32 y /\ (Rabs (fval F32 x - fval F32 y) <= eps)%R).

(** One of them is a NaN. *)
Definition some_nan (x y : Z) : Prop := fnan F32 x \/ fnan F32 y.

(** (int)x is defined for the float x. *)
Definition int_castable (x : Z) : Prop := ffin F32 x /\ - 2 ^ 31 <= Ztrunc (fval F32 x) < 2 ^ 31.
