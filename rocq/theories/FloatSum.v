(** Sums of products of floats: what accuracy means, and programs that accumulate with vmlaq_f32.
    Nothing here is code of neon_sim. *)
From Coq Require Import ZArith Reals String List Bool.
From Flocq Require Import Core.
From Verif Require Import Types Syntax Interp ProgRecip Library Spec FloatSpec Tables Client Transpose Pixels Contract.
Import ListNotations.
Open Scope Z_scope.

(** ** Accuracy *)

(** A rounding to float moves a number by at most one part in 2^24, or by 2^-150 if the number is tiny. *)
Definition part : R := bpow radix2 (-24).
Definition tiny : R := bpow radix2 (-150).

(** The exact sum of the products of the pairs, and the sum of their magnitudes. *)
Fixpoint dot (l : list (Z * Z)) : R :=
  match l with [] => 0%R | (x, y) :: l' => (fval F32 x * fval F32 y + dot l')%R end.
Fixpoint dot_abs (l : list (Z * Z)) : R :=
  match l with [] => 0%R | (x, y) :: l' => (Rabs (fval F32 x * fval F32 y) + dot_abs l')%R end.

Definition all_finite (l : list (Z * Z)) : Prop := Forall (fun p => ffin F32 (fst p) /\ ffin F32 (snd p)) l.

(** The products are far enough from overflow. *)
Definition fits (l : list (Z * Z)) : Prop :=
  ((1 + part) ^ S (length l) * (dot_abs l + INR (2 * length l) * tiny) <= bpow radix2 127)%R.

(** [r] is a finite float that differs from the exact sum by no more than the usual error bound: k+1 roundings of every
    product, and 2k roundings of tiny numbers. *)
Definition accurate (l : list (Z * Z)) (r : Z) : Prop :=
  ffin F32 r /\
  (Rabs (fval F32 r - dot l)
   <= ((1 + part) ^ S (length l) - 1) * dot_abs l + INR (2 * length l) * tiny * (1 + part) ^ length l)%R.

(** The floats are integers. *)
Definition integral (l : list (Z * Z)) : Prop :=
  Forall (fun p => (exists n, fval F32 (fst p) = IZR n) /\ (exists n, fval F32 (snd p) = IZR n)) l.

(** What is known of a sum that was accumulated: it is accurate unless the products are too large, and exact if the floats
    are integers and the products are not larger than 2^24 together. *)
Definition right_sum (l : list (Z * Z)) (r : Z) : Prop :=
  all_finite l ->
  (fits l -> accurate l r) /\
  (integral l -> (dot_abs l <= 16777216)%R -> ffin F32 r /\ fval F32 r = dot l).

(** ** Accumulating vectors *)

(** acc = vmlaq_f32(acc, a, b) for all (a, b), one after the other; a call may be compiled with any contraction. *)
Fixpoint accumulate (c : cfg) (m : memory) (acc : obj) (steps : list (contraction * list Z * list Z)) : outcome :=
  match steps with
  | [] => Returns m (Some acc)
  | (x, a, b) :: steps' =>
      match run_contracted x c m vmlaq_f32 [acc; vec F32 a; vec F32 b] with
      | Returns m1 (Some acc') => accumulate c m1 acc' steps'
      | o => o
      end
  end.

(** The numbers lane [q] sees. *)
Definition lane_pairs (q : nat) (steps : list (contraction * list Z * list Z)) : list (Z * Z) :=
  map (fun s => (nth q (snd (fst s)) 0, nth q (snd s) 0)) steps.

(** ** Programs *)

(** for (; todo > 0; k++, todo--) acc = vmlaq_f32(acc, vld1q_dup_f32(a + pa(k)), vld1q_f32(b + pb(k)));  and then [next] *)
Fixpoint mla_steps (a b : nat) (pa pb : nat -> nat) (k todo : nat) (acc : option obj) (next : option obj -> program) : program :=
  match todo with
  | O => next acc
  | S todo' =>
      Call vld1q_dup_f32 [at_ F32 a (pa k)] (fun x =>
      Call vld1q_f32 [at_ F32 b (pb k)] (fun y =>
      Call vmlaq_f32 [value acc; value x; value y] (fun acc' =>
      mla_steps a b pa pb (S k) todo' acc' next)))
  end.

(** for (q = 0; q < blocks; q++) {
      acc = vdupq_n_f32(0);
      for (k = 0; k < K; k++) acc = vmlaq_f32(acc, vld1q_dup_f32(a + pa(q, k)), vld1q_f32(b + pb(q, k)));
      vst1q_f32(d + 4 * q, acc); } *)
Definition products_program (a b d : nat) (pa pb : nat -> nat -> nat) (blocks K : nat) : program :=
  steps_from (fun q next =>
    Call vdupq_n_f32 [rv F32 0] (fun acc =>
    mla_steps a b (pa q) (pb q) 0 K acc (fun acc =>
    Call vst1q_f32 [at_ F32 d (q * 4); value acc] (fun _ => next)))) 0 blocks Finish.

(** D = A B, where A has M rows of K elements, B has K rows of 4 N elements. *)
Definition matmul_program (a b d M N K : nat) : program :=
  products_program a b d (fun q k => q / N * K + k)%nat (fun q k => k * (4 * N) + q mod N * 4)%nat (M * N) K.

(** d[i] = w[0] b[i] + .. + w[K-1] b[i+K-1], for i < 4 blocks. *)
Definition filter_program (w b d blocks K : nat) : program :=
  products_program w b d (fun _ k => k) (fun q k => q * 4 + k)%nat blocks K.

(** The products whose sum element [i], [j] of the product of two matrices is. *)
Definition row_column (xs ys : list Z) (K width i j : nat) : list (Z * Z) :=
  map (fun k => (nth (i * K + k) xs 0, nth (k * width + j) ys 0)) (seq 0 K).

Definition window (ws ys : list Z) (K i : nat) : list (Z * Z) :=
  map (fun k => (nth k ws 0, nth (i + k) ys 0)) (seq 0 K).
