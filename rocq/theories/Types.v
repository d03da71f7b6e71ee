(** Scalar types of the C fragment used by neon_sim.cpp, their widths and
    ranges (LP64, two's complement).  Shared by the model and the
    specification. *)
From Coq Require Import ZArith Bool List.
Open Scope Z_scope.

(** The scalar types that occur in neon_sim.h:12-330 (vector typedefs) and in
    neon_sim.cpp: int8_t .. uint64_t, float, double.  [int] is [I32],
    [size_t] is [U64], [char] is [I8]. *)
Inductive sty := I8 | I16 | I32 | I64 | U8 | U16 | U32 | U64 | F32 | F64.

Definition sty_eqb (a b : sty) : bool :=
  match a, b with
  | I8, I8 | I16, I16 | I32, I32 | I64, I64
  | U8, U8 | U16, U16 | U32, U32 | U64, U64
  | F32, F32 | F64, F64 => true
  | _, _ => false
  end.

(** Width in bits. *)
Definition width (t : sty) : Z :=
  match t with
  | I8 | U8 => 8
  | I16 | U16 => 16
  | I32 | U32 | F32 => 32
  | I64 | U64 | F64 => 64
  end.

(** Size in bytes, as a natural number. *)
Definition nbytes (t : sty) : nat :=
  match t with
  | I8 | U8 => 1
  | I16 | U16 => 2
  | I32 | U32 | F32 => 4
  | I64 | U64 | F64 => 8
  end%nat.

Definition is_float (t : sty) : bool :=
  match t with F32 | F64 => true | _ => false end.

Definition is_signed (t : sty) : bool :=
  match t with I8 | I16 | I32 | I64 => true | _ => false end.

(** Smallest and largest value.  A float is represented by its bit pattern,
    an unsigned number of its width. *)
Definition lo (t : sty) : Z :=
  match t with
  | I8 => -128 | I16 => -32768 | I32 => -2147483648
  | I64 => -9223372036854775808
  | _ => 0
  end.

Definition hi (t : sty) : Z :=
  match t with
  | I8 => 127 | I16 => 32767 | I32 => 2147483647 | I64 => 9223372036854775807
  | U8 => 255 | U16 => 65535 | U32 | F32 => 4294967295
  | U64 | F64 => 18446744073709551615
  end.

(** 2^width *)
Definition modulus (t : sty) : Z :=
  match t with
  | I8 | U8 => 256
  | I16 | U16 => 65536
  | I32 | U32 | F32 => 4294967296
  | I64 | U64 | F64 => 18446744073709551616
  end.

Definition in_range (t : sty) (z : Z) : Prop := lo t <= z <= hi t.
Definition in_rangeb (t : sty) (z : Z) : bool := (lo t <=? z) && (z <=? hi t).

(** The value of type [t] congruent to [z] modulo 2^width. *)
Definition wrap (t : sty) (z : Z) : Z := (z - lo t) mod modulus t + lo t.
