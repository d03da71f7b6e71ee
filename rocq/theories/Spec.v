(** What the intrinsics are supposed to compute, over plain lists of integers.

    This file does not mention the interpreter or any program.  It is what a
    reader should compare with the ARM documentation. *)
From Coq Require Import ZArith List Bool Lia.
From Verif Require Import Types.
Import ListNotations.
Open Scope Z_scope.

(** ** Vectors *)

(** [l] is the list of lanes of a vector of [n] elements of type [t]; a float
    lane is its 32- or 64-bit pattern. *)
Definition lanes (t : sty) (n : nat) (l : list Z) : Prop :=
  List.length l = n /\ Forall (in_range t) l.

(** The [k] vectors of a structure such as int8x8x2_t. *)
Definition tuple (t : sty) (k n : nat) (vs : list (list Z)) : Prop :=
  List.length vs = k /\ Forall (lanes t n) vs.

(** Lane-by-lane application. *)
Fixpoint map2 {A B C} (g : A -> B -> C) (a : list A) (b : list B) : list C :=
  match a, b with x :: a', y :: b' => g x y :: map2 g a' b' | _, _ => [] end.

Fixpoint map3 {A B C D} (g : A -> B -> C -> D) (a : list A) (b : list B) (d : list C) : list D :=
  match a, b, d with
  | x :: a', y :: b', z :: d' => g x y z :: map3 g a' b' d'
  | _, _, _ => []
  end.

(** Some pair of corresponding lanes satisfies [P]. *)
Definition some_lane {A B} (P : A -> B -> Prop) (a : list A) (b : list B) : Prop :=
  exists i x y, nth_error a i = Some x /\ nth_error b i = Some y /\ P x y.

(** Every pair of corresponding lanes satisfies [P]. *)
Definition all_lanes {A B} (P : A -> B -> Prop) (a : list A) (b : list B) : Prop :=
  forall i x y, nth_error a i = Some x -> nth_error b i = Some y -> P x y.

(** ** Numbers

    [wrap t z] of [Types] is reduction modulo 2^width into the range of [t];
    [wrap_spec] characterises it completely. *)
Theorem wrap_spec t z r :
  r = wrap t z <-> in_range t r /\ exists k, r = z + k * 2 ^ width t.
Proof.
  assert (Hm : 2 ^ width t = modulus t) by (destruct t; reflexivity).
  assert (Hp : 0 < modulus t) by (destruct t; reflexivity).
  assert (Hh : hi t = lo t + modulus t - 1) by (destruct t; reflexivity).
  rewrite Hm. unfold wrap, in_range. split.
  - intros ->. pose proof (Z.mod_pos_bound (z - lo t) (modulus t) Hp). split; [lia|].
    exists (- ((z - lo t) / modulus t)). pose proof (Z.div_mod (z - lo t) (modulus t)). lia.
  - intros [Hr [k ->]]. symmetry.
    replace (z + k * modulus t) with (z + k * modulus t - lo t + lo t) in Hr |- * by lia.
    f_equal. symmetry. rewrite <- (Z.mod_add (z - lo t) k) by lia.
    rewrite Z.mod_small; lia.
Qed.

(** Saturation: clamp into the range of [t]. *)
Definition sat (t : sty) (z : Z) : Z := Z.max (lo t) (Z.min (hi t) z).

(** The unsigned/signed type of the same width, of double width, of half width. *)
Definition unsigned_of (t : sty) : sty :=
  match t with I8 => U8 | I16 => U16 | I32 => U32 | I64 => U64 | t => t end.

Definition wide (t : sty) : sty :=
  match t with
  | I8 => I16 | I16 => I32 | I32 => I64 | U8 => U16 | U16 => U32 | U32 => U64 | t => t
  end.

Definition narrow (t : sty) : sty :=
  match t with
  | I16 => I8 | I32 => I16 | I64 => I32 | U16 => U8 | U32 => U16 | U64 => U32 | t => t
  end.

(** The most significant half of an element: [z] reduced to type [t], shifted
    right by half the width of [t]. *)
Definition high_half (t : sty) (z : Z) : Z := wrap (narrow t) (wrap t z / 2 ^ (width t / 2)).

(** The type in which C++ computes with operands of type [t]: types narrower
    than [int] are promoted to [int]. *)
Definition computed_in (t : sty) : sty :=
  match t with I8 | I16 | U8 | U16 => I32 | _ => t end.

(** Some / every triple of corresponding lanes. *)
Definition some_lane3 {A B C} (P : A -> B -> C -> Prop) (a : list A) (b : list B) (d : list C) : Prop :=
  exists i x y z, nth_error a i = Some x /\ nth_error b i = Some y /\ nth_error d i = Some z /\ P x y z.
Definition all_lanes3 {A B C} (P : A -> B -> C -> Prop) (a : list A) (b : list B) (d : list C) : Prop :=
  forall i x y z, nth_error a i = Some x -> nth_error b i = Some y -> nth_error d i = Some z -> P x y z.

(** ** Data movement *)

(** The vector whose lane [k] is [g k]. *)
Definition build (n : nat) (g : nat -> Z) : list Z := map g (seq 0 n).

(** Transpose: result [j] (0 or 1) takes lane [j] of each pair of lanes, of [a] in
    its even lanes and of [b] in its odd ones. *)
Definition trn (j n : nat) (a b : list Z) : list Z :=
  build n (fun k => nth (2 * (k / 2) + j) (if Nat.even k then a else b) 0).

(** Interleaving: a0 b0 a1 b1 ...; zip returns its two halves. *)
Definition zip (a b : list Z) : list Z := flat_map (fun p => [fst p; snd p]) (combine a b).

(** De-interleaving: the lanes [j], [j]+2, [j]+4 ... of [a] followed by [b]. *)
Definition uzp (j n : nat) (a b : list Z) : list Z := build n (fun k => nth (2 * k + j) (a ++ b) 0).

(** Reversal inside groups of [g] lanes: group by group, the last lane first. *)
Definition rev_groups (g n : nat) (a : list Z) : list Z :=
  build n (fun k => nth (g * (k / g) + (g - 1 - k mod g)) a 0).

(** The bytes of a vector in memory, little-endian, lane 0 first. *)
Definition lane_bytes (t : sty) (z : Z) : list Z :=
  map (fun k => (z / 256 ^ Z.of_nat k) mod 256) (seq 0 (nbytes t)).
Definition vec_bytes (t : sty) (a : list Z) : list Z := flat_map (lane_bytes t) a.

(** Table lookup: 0 outside the table. *)
Definition lookup_table (tab : list Z) (i : Z) : Z := nth (Z.to_nat i) tab 0.

(** The [k] vectors of a structure tuple [vs], interleaved: lane 0 of each
    vector in order, then lane 1 of each, and so on. *)
Definition interleave (n : nat) (vs : list (list Z)) : list Z :=
  flat_map (fun i => map (fun v => nth i v 0) vs) (seq 0 n).

(** Lane [k] replaced by [z]. *)
Definition replace_lane (k : nat) (z : Z) (a : list Z) : list Z := firstn k a ++ z :: skipn (S k) a.

(** De-interleaving [k] vectors of [n] lanes: lane i of vector j is element k*i+j. *)
Definition deinterleave (k n : nat) (zs : list Z) : list (list Z) :=
  map (fun j => build n (fun i => nth (k * i + j) zs 0)) (seq 0 k).

(** Each bit of [z] is [op] of the bits of [x] and [y] (the bits of a negative number are
    those of its two's complement form). *)
Definition bits2 (t : sty) (op : bool -> bool -> bool) (x y z : Z) : Prop :=
  forall k, 0 <= k < width t -> Z.testbit z k = op (Z.testbit x k) (Z.testbit y k).
