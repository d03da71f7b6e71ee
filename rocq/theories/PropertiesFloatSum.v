(** C81: sums of products of floats. *)
From Coq Require Import ZArith Reals String List Bool Lia Lra.
From Flocq Require Import Core.
From Verif Require Import Types FloatSpec Syntax Interp ProgRecip Library Spec Tables PropBase Client Transpose Pixels Contract FloatSum.
From Verif Require Import ProgMul P_FloatSum P_FloatSum2 P_FloatSumWit.
Import ListNotations.
Open Scope Z_scope.

(** ** C81 *)

(** Any number of vmlaq_f32 calls one after the other, however the compiler contracts them: every lane is the sum of the
    products of that lane, up to the roundings. *)
Theorem C81_accumulate : forall c m steps,
  Forall (fun s => lanes F32 4 (snd (fst s)) /\ lanes F32 4 (snd s)) steps ->
  exists r, accumulate c m (vec F32 (repeat 0 4)) steps = Returns m (Some (vec F32 r)) /\ lanes F32 4 r /\
    forall q, (q < 4)%nat -> right_sum (lane_pairs q steps) (nth q r 0).
Proof. exact accumulate_accurate. Qed.
Print Assumptions C81_accumulate.

(** The product of an M x K matrix and a K x 4N matrix. *)
Theorem C81_matrix_product : forall c m a b d M N K xs ys cd, a <> d -> b <> d ->
  array_at m a F32 xs -> array_at m b F32 ys -> nth_error m d = Some (F32, cd) ->
  length xs = (M * K)%nat -> length ys = (K * (4 * N))%nat -> (M * (4 * N) <= length cd)%nat ->
  exists zs, execute c m (matmul_program a b d M N K) = Returns (set_block d (F32, map Some zs ++ skipn (M * (4 * N)) cd) m) None /\
    length zs = (M * (4 * N))%nat /\
    forall i j, (i < M)%nat -> (j < 4 * N)%nat -> right_sum (row_column xs ys K (4 * N) i j) (nth (i * (4 * N) + j) zs 0).
Proof. exact matmul_right. Qed.
Print Assumptions C81_matrix_product.

(** A filter with K weights. *)
Theorem C81_filter : forall c m w b d blocks K ws ys cd, w <> d -> b <> d ->
  array_at m w F32 ws -> array_at m b F32 ys -> nth_error m d = Some (F32, cd) ->
  length ws = K -> (blocks * 4 + K <= length ys + 1)%nat -> (blocks * 4 <= length cd)%nat ->
  exists zs, execute c m (filter_program w b d blocks K) = Returns (set_block d (F32, map Some zs ++ skipn (blocks * 4) cd) m) None /\
    length zs = (blocks * 4)%nat /\
    forall i, (i < blocks * 4)%nat -> right_sum (window ws ys K i) (nth i zs 0).
Proof. exact filter_right. Qed.
Print Assumptions C81_filter.

(** What [accurate] means for up to eight million products. *)
Theorem C81_bound : forall l r, Z.of_nat (S (length l)) <= 8388608 -> accurate l r ->
  (Rabs (fval F32 r - dot l) <= INR (S (length l)) * bpow radix2 (-23) * dot_abs l + INR (length l) * bpow radix2 (-148))%R.
Proof. exact accurate_simple. Qed.
Print Assumptions C81_bound.

(** The bound is in terms of the magnitudes of the products: a sum may be entirely wrong if it is small compared to them.
    The integers 2^24, 1 and -2^24 are added up to 0. *)
Theorem C81_cancellation : ~ (forall c m steps, Forall (fun s => lanes F32 4 (snd (fst s)) /\ lanes F32 4 (snd s)) steps ->
  forall r, accumulate c m (vec F32 (repeat 0 4)) steps = Returns m (Some (vec F32 r)) ->
    forall q, (q < 4)%nat -> all_finite (lane_pairs q steps) -> integral (lane_pairs q steps) ->
      (Rabs (fval F32 (nth q r 0%Z) - dot (lane_pairs q steps)) <= Rabs (dot (lane_pairs q steps)) / 2)%R).
Proof. exact cancellation_refuted. Qed.
Print Assumptions C81_cancellation.

(** ** Cases that meet the hypotheses *)

(** (1 2; 3 0.5) times (1 2 3 0.5; 2 2 2 2) *)
Example C81_example_matrix :
  let xs := [1065353216; 1073741824; 1077936128; 1056964608] in
  let ys := [1065353216; 1073741824; 1077936128; 1056964608; 1073741824; 1073741824; 1073741824; 1073741824] in
  execute strict [(F32, map Some xs); (F32, map Some ys); (F32, repeat None 9)] (matmul_program 0 1 2 2 1 2)
  = Returns [(F32, map Some xs); (F32, map Some ys);
      (F32, map Some [1084227584; 1086324736; 1088421888; 1083179008; 1082130432; 1088421888; 1092616192; 1075838976] ++ [None])] None.
Proof. vm_compute. reflexivity. Qed.

Example C81_example_filter :
  let ws := [1065353216; 1073741824; 1065353216] in
  let ys := [1065353216; 1073741824; 1077936128; 1065353216; 0; 0] in
  execute strict [(F32, map Some ws); (F32, map Some ys); (F32, repeat None 4)] (filter_program 0 1 2 1 3)
  = Returns [(F32, map Some ws); (F32, map Some ys); (F32, map Some [1090519040; 1091567616; 1084227584; 1065353216])] None.
Proof. vm_compute. reflexivity. Qed.

(** 1 * 3 + 2 * 2 *)
Example C81_example_hypotheses :
  let l := [(1065353216, 1077936128); (1073741824, 1073741824)] in
  all_finite l /\ integral l /\ (dot_abs l <= 16777216)%R /\ dot l = 7%R /\ fits l /\ accurate l 1088421888.
Proof. exact example_hypotheses. Qed.
