(** Small image and signal processing programs written with the library.  Nothing here is code of neon_sim.
    Every program goes through its arrays in [k] steps, and makes one vector of the result in each. *)
From Coq Require Import ZArith String List Bool.
From Verif Require Import Types Syntax Interp ProgRecip Library Spec Tables Client Transpose.
Import ListNotations.
Open Scope Z_scope.

(** for (; todo > 0; k++, todo--) body(k);  and then [next] *)
Fixpoint steps_from (body : nat -> program -> program) (k todo : nat) (next : program) : program :=
  match todo with
  | O => next
  | S todo' => body k (steps_from body (S k) todo' next)
  end.

(** The address of element [e] of array [b]. *)
Definition at_ (t : sty) (b e : nat) : obj := OPtr t b (Z.of_nat e).

(** ** Blending two images with weights in 1/256, rounding to nearest *)

(** wx = vdup_n_u8(p); wy = vdup_n_u8(q);
    for (j = 0; j < 8 * k; j += 8) {
      s = vmull_u8(vld1_u8(a + j), wx);
      s = vmlal_u8(s, vld1_u8(b + j), wy);
      vst1_u8(d + j, vrshrn_n_u16(s, 8)); } *)
Definition blend_program (p q : Z) (a b d k : nat) : program :=
  Call vdup_n_u8 [rv U8 p] (fun wx =>
  Call vdup_n_u8 [rv U8 q] (fun wy =>
  steps_from (fun j next =>
    Call vld1_u8 [at_ U8 a (j * 8)] (fun x =>
    Call vmull_u8 [value x; value wx] (fun s =>
    Call vld1_u8 [at_ U8 b (j * 8)] (fun y =>
    Call vmlal_u8 [value s; value y; value wy] (fun s =>
    Call vrshrn_n_u16 [value s; rv I32 8] (fun r =>
    Call vst1_u8 [at_ U8 d (j * 8); value r] (fun _ => next))))))) 0 k Finish)).

Definition blended (p q : Z) (k : nat) (xs ys : list Z) : list Z :=
  build (k * 8) (fun i => (p * nth i xs 0 + q * nth i ys 0 + 128) / 256).

(** ** Smoothing with the weights 1/4, 1/2, 1/4 *)

(** two = vdup_n_u8(2);
    for (j = 0; j < 8 * k; j += 8) {
      x = vld1_u8(a + j); y = vld1_u8(a + j + 8);
      s = vaddl_u8(x, vext_u8(x, y, 2));
      s = vmlal_u8(s, vext_u8(x, y, 1), two);
      vst1_u8(d + j, vrshrn_n_u16(s, 2)); } *)
Definition smooth_program (a d k : nat) : program :=
  Call vdup_n_u8 [rv U8 2] (fun two =>
  steps_from (fun j next =>
    Call vld1_u8 [at_ U8 a (j * 8)] (fun x =>
    Call vld1_u8 [at_ U8 a (j * 8 + 8)] (fun y =>
    Call vext_u8 [value x; value y; rv I32 2] (fun e2 =>
    Call vaddl_u8 [value x; value e2] (fun s =>
    Call vext_u8 [value x; value y; rv I32 1] (fun e1 =>
    Call vmlal_u8 [value s; value e1; value two] (fun s =>
    Call vrshrn_n_u16 [value s; rv I32 2] (fun r =>
    Call vst1_u8 [at_ U8 d (j * 8); value r] (fun _ => next))))))))) 0 k Finish).

Definition smoothed (k : nat) (xs : list Z) : list Z :=
  build (k * 8) (fun i => (nth i xs 0 + 2 * nth (i + 1) xs 0 + nth (i + 2) xs 0 + 2) / 4).

(** ** Reversing an array *)

(** for (j = 0; j < n * k; j += n) st(d + n * k - n - j, rev(ld(a + j))); *)
Definition reverse_program (ld rv64 st : func) (t : sty) (n a d k : nat) : program :=
  steps_from (fun j next =>
    Call ld [at_ t a (j * n)] (fun x =>
    Call rv64 [value x] (fun r =>
    Call st [at_ t d ((k - 1 - j) * n); value r] (fun _ => next)))) 0 k Finish.

(** ** Looking up the elements of an array in a table of 32 bytes *)

(** t.val[i] = vld1_u8(tab + 8 * i) for i = 0, 1, 2, 3;
    for (j = 0; j < 8 * k; j += 8) vst1_u8(d + j, vtbl4_u8(t, vld1_u8(a + j))); *)
Definition lookup_program (tab a d k : nat) : program :=
  call_all (map (fun i => (vld1_u8, [at_ U8 tab (i * 8)])) (seq 0 4)) (fun t =>
  steps_from (fun j next =>
    Call vld1_u8 [at_ U8 a (j * 8)] (fun x =>
    Call vtbl4_u8 [OArr t; value x] (fun r =>
    Call vst1_u8 [at_ U8 d (j * 8); value r] (fun _ => next)))) 0 k Finish).

(** ** Making a mask of the bytes above a threshold *)

(** v = vdupq_n_u8(z);
    for (j = 0; j < 16 * k; j += 16) vst1q_u8(d + j, vcgtq_u8(vld1q_u8(a + j), v)); *)
Definition threshold_program (z : Z) (a d k : nat) : program :=
  Call vdupq_n_u8 [rv U8 z] (fun v =>
  steps_from (fun j next =>
    Call vld1q_u8 [at_ U8 a (j * 16)] (fun x =>
    Call vcgtq_u8 [value x; value v] (fun r =>
    Call vst1q_u8 [at_ U8 d (j * 16); value r] (fun _ => next)))) 0 k Finish).

(** ** From interleaved channels to separate ones and back *)

(** for (...) { x = ld(a + w * j); st(d[0] + j, x.val[0]); ...; st(d[w - 1] + j, x.val[w - 1]); } *)
Definition split_program (ld st : func) (t : sty) (w n a : nat) (ds : list nat) (k : nat) : program :=
  steps_from (fun j next =>
    Call ld [at_ t a (j * (w * n))] (fun x =>
    call_all (map (fun i => (st, [at_ t (nth i ds O) (j * n); component i (value x)])) (seq 0 w)) (fun _ => next))) 0 k Finish.

(** for (...) { x.val[0] = ld(s[0] + j); ...; st(d + w * j, x); } *)
Definition merge_program (ld st : func) (t : sty) (w n : nat) (ss : list nat) (d k : nat) : program :=
  steps_from (fun j next =>
    call_all (map (fun i => (ld, [at_ t (nth i ss O) (j * n)])) (seq 0 w)) (fun x =>
    Call st [at_ t d (j * (w * n)); OArr x] (fun _ => next))) 0 k Finish.

(** ** Dot product of two arrays of bytes *)

(** acc = vdupq_n_u32(0);
    for (j = 0; j < 8 * k; j += 8)
      acc = vaddq_u32(acc, vpaddlq_u16(vmull_u8(vld1_u8(a + j), vld1_u8(b + j))));
    and then [next] with the four lanes of acc *)
Fixpoint dot_loop (a b j k : nat) (acc : obj) (next : obj -> program) : program :=
  match k with
  | O => next acc
  | S k' =>
      Call vld1_u8 [at_ U8 a (j * 8)] (fun x =>
      Call vld1_u8 [at_ U8 b (j * 8)] (fun y =>
      Call vmull_u8 [value x; value y] (fun s =>
      Call vpaddlq_u16 [value s] (fun s =>
      Call vaddq_u32 [acc; value s] (fun s =>
      dot_loop a b (S j) k' (value s) next)))))
  end.
Definition dot_program (a b k : nat) (next : list obj -> program) : program :=
  Call vdupq_n_u32 [rv U32 0] (fun z =>
  dot_loop a b 0 k (value z) (fun acc =>
  call_all (map (fun l => (vgetq_lane_u32, [acc; rv I32 l])) [0; 1; 2; 3]) next)).

Definition sum (l : list Z) : Z := fold_right Z.add 0 l.
Definition dot (k : nat) (xs ys : list Z) : Z := sum (build (k * 8) (fun i => nth i xs 0 * nth i ys 0)).
