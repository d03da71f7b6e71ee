(** Programs that transpose matrices with the library, and what transposition is.  Nothing here is code of
    neon_sim: these are the sequences of intrinsics in use for this purpose. *)
From Coq Require Import ZArith String List Bool.
From Verif Require Import Types Syntax Interp ProgRecip Library Spec Tables Client.
Import ListNotations.
Open Scope Z_scope.

(** ** What they should compute *)

(** Row [j] of the result consists of the elements [j] of the [rows]; there are [n] elements in a row. *)
Definition transposed (n : nat) (rows : list (list Z)) : list (list Z) :=
  map (fun j => map (fun row => nth j row 0) rows) (seq 0 n).

(** The same for a matrix of [h] rows and [w] columns stored row by row: element (j, i) of the result is
    element (i, j) of [zs]. *)
Definition transposed_array (h w : nat) (zs : list Z) : list Z :=
  build (w * h) (fun p => let j := (p / h)%nat in let i := (p mod h)%nat in nth (i * w + j) zs 0).

(** ** Blocks *)

(** The calls [cs] one after the other; their results are passed on. *)
Fixpoint call_all (cs : list (func * list obj)) (next : list obj -> program) : program :=
  match cs with
  | [] => next []
  | (f, args) :: cs' => Call f args (fun v => call_all cs' (fun vs => next (value v :: vs)))
  end.

Definition item (i : nat) (l : list obj) : obj := nth i l (OArr []).
Definition first_of (i : nat) (l : list obj) : obj := component 0 (item i l).
Definition second_of (i : nat) (l : list obj) : obj := component 1 (item i l).

(** A program that goes on with the rows of the transposed block. *)
Definition transposer : Type := list obj -> (list obj -> program) -> program.

(** uint32x2x2_t p = vtrn_u32(r0, r1); *)
Definition transpose_2x2 (trn : func) : transposer := fun r next =>
  call_all [(trn, [item 0 r; item 1 r])] (fun p => next [first_of 0 p; second_of 0 p]).

(** p0 = vtrnq_u32(r0, r1);  p1 = vtrnq_u32(r2, r3);
    vcombine_u32(vget_low_u32(p0.val[0]), vget_low_u32(p1.val[0])),
    vcombine_u32(vget_low_u32(p0.val[1]), vget_low_u32(p1.val[1])),
    vcombine_u32(vget_high_u32(p0.val[0]), vget_high_u32(p1.val[0])),
    vcombine_u32(vget_high_u32(p0.val[1]), vget_high_u32(p1.val[1])) *)
Definition transpose_4x4_u32 : transposer := fun r next =>
  call_all [(vtrnq_u32, [item 0 r; item 1 r]); (vtrnq_u32, [item 2 r; item 3 r])] (fun p =>
  call_all [(vget_low_u32, [first_of 0 p]); (vget_low_u32, [first_of 1 p]);
            (vget_low_u32, [second_of 0 p]); (vget_low_u32, [second_of 1 p]);
            (vget_high_u32, [first_of 0 p]); (vget_high_u32, [first_of 1 p]);
            (vget_high_u32, [second_of 0 p]); (vget_high_u32, [second_of 1 p])] (fun q =>
  call_all [(vcombine_u32, [item 0 q; item 1 q]); (vcombine_u32, [item 2 q; item 3 q]);
            (vcombine_u32, [item 4 q; item 5 q]); (vcombine_u32, [item 6 q; item 7 q])] next)).

(** p = vtrn_s16 of the rows in pairs; their vectors as vectors of 32-bit lanes; s = vtrn_s32 of these in pairs;
    the result as vectors of 16-bit lanes. *)
Definition transpose_4x4_s16 : transposer := fun r next =>
  call_all [(vtrn_s16, [item 0 r; item 1 r]); (vtrn_s16, [item 2 r; item 3 r])] (fun p =>
  call_all [(vreinterpret_s32_s16, [first_of 0 p]); (vreinterpret_s32_s16, [first_of 1 p]);
            (vreinterpret_s32_s16, [second_of 0 p]); (vreinterpret_s32_s16, [second_of 1 p])] (fun q =>
  call_all [(vtrn_s32, [item 0 q; item 1 q]); (vtrn_s32, [item 2 q; item 3 q])] (fun s =>
  call_all [(vreinterpret_s16_s32, [first_of 0 s]); (vreinterpret_s16_s32, [first_of 1 s]);
            (vreinterpret_s16_s32, [second_of 0 s]); (vreinterpret_s16_s32, [second_of 1 s])] next))).

(** The same with bytes, in three rounds: vtrn_u8, vtrn_u16, vtrn_u32. *)
Definition transpose_8x8_u8 : transposer := fun r next =>
  call_all [(vtrn_u8, [item 0 r; item 1 r]); (vtrn_u8, [item 2 r; item 3 r]);
            (vtrn_u8, [item 4 r; item 5 r]); (vtrn_u8, [item 6 r; item 7 r])] (fun p =>
  call_all [(vreinterpret_u16_u8, [first_of 0 p]); (vreinterpret_u16_u8, [first_of 1 p]);
            (vreinterpret_u16_u8, [second_of 0 p]); (vreinterpret_u16_u8, [second_of 1 p]);
            (vreinterpret_u16_u8, [first_of 2 p]); (vreinterpret_u16_u8, [first_of 3 p]);
            (vreinterpret_u16_u8, [second_of 2 p]); (vreinterpret_u16_u8, [second_of 3 p])] (fun q =>
  call_all [(vtrn_u16, [item 0 q; item 1 q]); (vtrn_u16, [item 2 q; item 3 q]);
            (vtrn_u16, [item 4 q; item 5 q]); (vtrn_u16, [item 6 q; item 7 q])] (fun s =>
  call_all [(vreinterpret_u32_u16, [first_of 0 s]); (vreinterpret_u32_u16, [first_of 2 s]);
            (vreinterpret_u32_u16, [first_of 1 s]); (vreinterpret_u32_u16, [first_of 3 s]);
            (vreinterpret_u32_u16, [second_of 0 s]); (vreinterpret_u32_u16, [second_of 2 s]);
            (vreinterpret_u32_u16, [second_of 1 s]); (vreinterpret_u32_u16, [second_of 3 s])] (fun t =>
  call_all [(vtrn_u32, [item 0 t; item 1 t]); (vtrn_u32, [item 2 t; item 3 t]);
            (vtrn_u32, [item 4 t; item 5 t]); (vtrn_u32, [item 6 t; item 7 t])] (fun u =>
  call_all [(vreinterpret_u8_u32, [first_of 0 u]); (vreinterpret_u8_u32, [first_of 1 u]);
            (vreinterpret_u8_u32, [first_of 2 u]); (vreinterpret_u8_u32, [first_of 3 u]);
            (vreinterpret_u8_u32, [second_of 0 u]); (vreinterpret_u8_u32, [second_of 1 u]);
            (vreinterpret_u8_u32, [second_of 2 u]); (vreinterpret_u8_u32, [second_of 3 u])] next))))).

(** The blocks: the load and store to use with them, the element type and the size. *)
Definition transposers : list (func * func * transposer * sty * nat) :=
  [ (vld1_u8, vst1_u8, transpose_8x8_u8, U8, 8%nat);
    (vld1_s16, vst1_s16, transpose_4x4_s16, I16, 4%nat);
    (vld1q_u32, vst1q_u32, transpose_4x4_u32, U32, 4%nat);
    (vld1_u32, vst1_u32, transpose_2x2 vtrn_u32, U32, 2%nat);
    (vld1_s32, vst1_s32, transpose_2x2 vtrn_s32, I32, 2%nat) ].

(** ** Whole matrices *)

(** [n] vectors at [p + off], [p + off + stride], ... *)
Definition load_rows (ld : func) (t : sty) (n : nat) (p off stride : nat) (next : list obj -> program) : program :=
  call_all (map (fun r => (ld, [OPtr t p (Z.of_nat (off + r * stride))])) (seq 0 n)) next.
Definition store_rows (st : func) (t : sty) (n : nat) (p off stride : nat) (vs : list obj) (next : program) : program :=
  call_all (map (fun r => (st, [OPtr t p (Z.of_nat (off + r * stride)); item r vs])) (seq 0 n)) (fun _ => next).

(** From the matrix at [a] of [h] times [w] blocks of [n] times [n] elements to the one at [d]: the [todo] blocks
    from number [k] on, where the blocks are numbered row by row. *)
Fixpoint transpose_blocks (ld st : func) (tr : transposer) (t : sty) (n h w a d k todo : nat) : program :=
  match todo with
  | O => Finish
  | S todo' =>
      let i := (k / w)%nat in let j := (k mod w)%nat in
      load_rows ld t n a (i * n * (w * n) + j * n) (w * n) (fun rows =>
      tr rows (fun cols =>
      store_rows st t n d (j * n * (h * n) + i * n) (h * n) cols
        (transpose_blocks ld st tr t n h w a d (S k) todo')))
  end.
Definition transpose_matrix (ld st : func) (tr : transposer) (t : sty) (n h w a d : nat) : program :=
  transpose_blocks ld st tr t n h w a d 0 (h * w).
