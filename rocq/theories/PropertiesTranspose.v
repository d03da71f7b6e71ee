(** C75: transposing matrices with the sequences of intrinsics in use for it ([Transpose]). *)
From Coq Require Import ZArith String List Bool Lia.
From Verif Require Import Types Syntax Interp ProgRecip Library Spec Tables Client Transpose PropBase.
From Verif Require P_Transpose P_Transpose2.
Import ListNotations.
Open Scope Z_scope.

(** ** C75 Transposition *)

(** A block held in vectors: whatever is done next is done with the rows of the transposed block. *)
Theorem C75_block : forall ld st tr t n, In (ld, st, tr, t, n) transposers -> forall c m rows next,
  List.length rows = n -> Forall (lanes t n) rows ->
  execute c m (tr (map (vec t) rows) next) = execute c m (next (map (vec t) (transposed n rows))).
Proof. intros ld st tr t n H c. exact (proj1 (P_Transpose.transposers_ok c ld st tr t n H)). Qed.
Print Assumptions C75_block.

(** A matrix in memory, of any number of blocks in each direction. *)
Theorem C75_matrix : forall ld st tr t n, In (ld, st, tr, t, n) transposers -> forall c h w m a d zs cd, a <> d ->
  array_at m a t zs -> nth_error m d = Some (t, cd) ->
  List.length zs = (h * n * (w * n))%nat -> (h * n * (w * n) <= List.length cd)%nat ->
  execute c m (transpose_matrix ld st tr t n h w a d)
  = Returns (set_block d (t, map Some (transposed_array (h * n) (w * n) zs) ++ skipn (h * n * (w * n)) cd) m) None.
Proof. intros ld st tr t n H c h w m a d zs cd. exact (P_Transpose2.transpose_matrix_run c ld st tr t n h w m a d zs cd H). Qed.
Print Assumptions C75_matrix.

(** What [transposed_array] says: element (j, i) of the result is element (i, j) of the matrix. *)
Theorem C75_elements : forall h w zs i j, (i < h)%nat -> (j < w)%nat ->
  nth (j * h + i) (transposed_array h w zs) 0 = nth (i * w + j) zs 0.
Proof. exact P_Transpose2.transposed_elements. Qed.
Print Assumptions C75_elements.

(** Transposing the result gives the matrix back. *)
Theorem C75_twice : forall ld st tr t n, In (ld, st, tr, t, n) transposers -> forall c h w m a d zs cd, a <> d ->
  array_at m a t zs -> nth_error m d = Some (t, cd) ->
  List.length zs = (h * n * (w * n))%nat -> List.length cd = (h * n * (w * n))%nat ->
  exists m1, execute c m (transpose_matrix ld st tr t n h w a d) = Returns m1 None /\
             execute c m1 (transpose_matrix ld st tr t n w h d a) = Returns m1 None.
Proof. intros ld st tr t n H c h w m a d zs cd. exact (P_Transpose2.transpose_back c ld st tr t n h w m a d zs cd H). Qed.
Print Assumptions C75_twice.

Example C75_example :
  let zs := map Z.of_nat (seq 0 128) in let m := [(U8, map Some zs); (U8, repeat None 130)] in
  In (vld1_u8, vst1_u8, transpose_8x8_u8, U8, 8%nat) transposers /\ array_at m 0 U8 zs /\
  List.length zs = (1 * 8 * (2 * 8))%nat /\
  execute strict m (transpose_matrix vld1_u8 vst1_u8 transpose_8x8_u8 U8 8 1 2 0 1)
  = Returns [(U8, map Some zs); (U8, map Some (flat_map (fun j => map (fun i => Z.of_nat (16 * i + j)) (seq 0 8)) (seq 0 16)) ++ [None; None])] None.
Proof.
  cbv zeta. split; [left; reflexivity|]. split; [split; [reflexivity|repeat constructor; cbn; discriminate]|]. split; [reflexivity|].
  vm_compute. reflexivity.
Qed.
