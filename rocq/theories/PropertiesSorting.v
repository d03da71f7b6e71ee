(** C80: sorting networks and rank filters written with the library. *)
From Coq Require Import ZArith String List Bool Lia Permutation Sorted Reals.
From Verif Require Import Types FloatSpec Syntax Interp ProgRecip Library Spec Tables PropBase Client Transpose Pixels Sorting.
From Verif Require Import ProgAdd ProgSub ProgMul ProgLoad ProgStore P_Sorting P_Sorting2.
Import ListNotations.
Open Scope Z_scope.

(** ** C80 *)

(** Any number of vectors is sorted, lane by lane: afterwards every column is in ascending order and has the numbers it had. *)
Theorem C80_sort : forall x t n, written_for x t n -> forall c m rows next, Forall (lanes t n) rows ->
  exists rows', execute c m (exchanges x (sort_net (length rows)) (map (vec t) rows) next) = execute c m (next (map (vec t) rows')) /\
    length rows' = length rows /\ Forall (lanes t n) rows' /\
    forall q, (q < n)%nat -> Sorted Z.le (column q rows') /\ Permutation (column q rows') (column q rows).
Proof. exact sort_run. Qed.
Print Assumptions C80_sort.

(** The 0-1 principle: a network that selects the number of rank [r] from zeros and ones selects it from any numbers. *)
Theorem C80_zero_one : forall net k w r, on_registers net k -> (w < k)%nat -> selects_bits net k w r ->
  forall l, length l = k -> has_rank r l (nth w (on_numbers net l) 0).
Proof. exact zero_one. Qed.
Print Assumptions C80_zero_one.

(** A rank filter over any number of sources, with any network that is correct for zeros and ones: element [i] of the result
    is the number of rank [r] among the elements [i] of the sources, and nothing else is written. *)
Theorem C80_rank_filter : forall x ld st t n, written_for x t n -> In (ld, t, n) vld1_table -> In (st, t, n) vst1_table ->
  forall net w r srcs, on_registers net (length srcs) -> (w < length srcs)%nat -> selects_bits net (length srcs) w r ->
  forall c m d k A cd, (forall b p, In (b, p) srcs -> b <> d /\ array_at m b t (A b) /\ (p + k * n <= length (A b))%nat) ->
  nth_error m d = Some (t, cd) -> (k * n <= length cd)%nat ->
  exists zs, execute c m (rank_program x ld st t n srcs net w d k) = Returns (set_block d (t, map Some zs ++ skipn (k * n) cd) m) None /\
    length zs = (k * n)%nat /\
    forall i, (i < k * n)%nat -> has_rank r (map (fun s => nth (snd s + i) (A (fst s)) 0) srcs) (nth i zs 0).
Proof.
  intros x ld st t n X H1 H2 net w r srcs W Hw B.
  exact (rank_run x ld st t n X H1 H2 (vst1_lanes st t n H2) net w r srcs W Hw (zero_one net (length srcs) w r W Hw B)).
Qed.
Print Assumptions C80_rank_filter.

(** The 3x3 median filter with 19 exchanges, on an image with rows of [stride] pixels: the median of every window. *)
Theorem C80_median : forall x ld st t n, written_for x t n -> In (ld, t, n) vld1_table -> In (st, t, n) vst1_table ->
  forall c m a d stride p k xs cd, a <> d -> array_at m a t xs -> (p + 2 * stride + 2 + k * n <= length xs)%nat ->
  nth_error m d = Some (t, cd) -> (k * n <= length cd)%nat ->
  exists zs, execute c m (rank_program x ld st t n (window3x3 a stride p) median9_net 4 d k)
      = Returns (set_block d (t, map Some zs ++ skipn (k * n) cd) m) None /\
    length zs = (k * n)%nat /\
    forall i, (i < k * n)%nat ->
      has_rank 4 (flat_map (fun y => map (fun u => nth (p + y * stride + u + i) xs 0) [0; 1; 2]%nat) [0; 1; 2]%nat) (nth i zs 0).
Proof. exact median_run. Qed.
Print Assumptions C80_median.

(** Floats: without NaN, infinities and -0 the same network sorts by value. *)
Theorem C80_float_sort_partial : forall c m rows next, Forall (lanes F32 4) rows ->
  Forall (Forall (fun x => in_range F32 x /\ ffin F32 x /\ x <> fzero F32 true)) rows ->
  exists rows', execute c m (exchanges (min_max vminq_f32 vmaxq_f32) (sort_net (length rows)) (map (vec F32) rows) next)
      = execute c m (next (map (vec F32) rows')) /\
    length rows' = length rows /\ Forall (lanes F32 4) rows' /\
    forall q, (q < 4)%nat -> Sorted (fun x y => (fval F32 x <= fval F32 y)%R) (column q rows') /\ Permutation (column q rows') (column q rows).
Proof. exact float_sort_run. Qed.
Print Assumptions C80_float_sort_partial.

(** One exchange of a vector of NaNs with any other loses the NaNs and doubles the other; so does an exchange of zeros. *)
Theorem C80_float_refuted : forall c m next,
  (forall a b, lanes F32 4 a -> lanes F32 4 b -> Forall (fnan F32) a ->
     execute c m (min_max vminq_f32 vmaxq_f32 (vec F32 a) (vec F32 b) next) = execute c m (next (vec F32 b) (vec F32 b))) /\
  (let p := vec F32 (repeat (fzero F32 false) 4) in let q := vec F32 (repeat (fzero F32 true) 4) in
   execute c m (min_max vminq_f32 vmaxq_f32 p q next) = execute c m (next q q)).
Proof. intros c m next. split; [intros a b; exact (float_nan_lost c m a b next)|reflexivity]. Qed.
Print Assumptions C80_float_refuted.

(** vminq_u8 and vmaxq_u8, which are defined on signed vectors, do not sort unsigned pixels: 200 goes before 100. *)
Theorem C80_unsigned_refuted : forall c m next, exists a b, lanes U8 16 a /\ lanes U8 16 b /\
  let v l := vec I8 (map (wrap I8) l) in
  execute c m (min_max vminq_u8 vmaxq_u8 (v a) (v b) next) = execute c m (next (v b) (v a)) /\ all_lanes Z.lt a b.
Proof.
  intros c m next. exists (repeat 100 16), (repeat 200 16). split; [lanes_lit|]. split; [lanes_lit|]. split; [reflexivity|].
  intros i y z Hy Hz. apply nth_error_In, repeat_spec in Hy. apply nth_error_In, repeat_spec in Hz. lia.
Qed.
Print Assumptions C80_unsigned_refuted.

(** ** Cases that meet the hypotheses *)

Example C80_example_exchanges :
  written_for (min_max vminq_s16 vmaxq_s16) I16 8 /\ written_for (by_difference vqsubq_u8 vsubq_u8 vaddq_u8) U8 16 /\
  written_for (by_difference vqsub_u16 vsub_u16 vadd_u16) U16 4.
Proof. repeat split; constructor; cbn; tauto. Qed.

Example C80_example_sort : forall next, execute strict [] (exchanges (by_difference vqsub_u16 vsub_u16 vadd_u16) (sort_net 3)
    (map (vec U16) [[3; 9; 65535; 1]; [2; 9; 0; 1]; [1; 8; 7; 0]]) next)
  = execute strict [] (next (map (vec U16) [[1; 8; 0; 0]; [2; 9; 7; 1]; [3; 9; 65535; 1]])).
Proof. intros next. reflexivity. Qed.

Example C80_example_median :
  on_registers median9_net 9 /\ selects_bits median9_net 9 4 4 /\ ~ selects_bits (removelast median9_net) 9 4 4 /\
  (let xs := [9; 1; 2; 3; 4; 5; 6; 7; 8; 10; 0; 9; 7; 5; 3; 1; 2; 4; 6; 8; 255; 0; 255; 0; 255; 0; 255; 0; 255; 0] in
   execute strict [(U8, map Some xs); (U8, repeat None 9)]
     (rank_program (by_difference vqsub_u8 vsub_u8 vadd_u8) vld1_u8 vst1_u8 U8 8 (window3x3 0 10 0) median9_net 4 1 1)
   = Returns [(U8, map Some xs); (U8, map Some [7; 3; 4; 3; 4; 4; 6; 7] ++ [None])] None).
Proof.
  split; [exact median9_registers|]. split; [exact median9_bits|]. split.
  - intros H. pose proof (H [0; 0; 0; 1; 0; 0; 1; 1; 1] eq_refl ltac:(repeat constructor; tauto)) as R. apply rank_isort in R. vm_compute in R. discriminate.
  - vm_compute. reflexivity.
Qed.

Example C80_example_floats :
  Forall (Forall (fun x => in_range F32 x /\ ffin F32 x /\ x <> fzero F32 true))
    [[1065353216; 0; 3212836864; 1]; [0; 1065353216; 1078530011; 2155872255]] /\
  Forall (fnan F32) (repeat 2143289344 4).
Proof. split; repeat constructor; try discriminate; vm_compute; discriminate. Qed.
