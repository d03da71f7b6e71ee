(** Blocks of matrices. *)
From Coq Require Import ZArith String List Bool Lia.
From Verif Require Import Types Syntax Interp ProgRecip Library Spec Tables MetaSpec ExecLemmas Ew Client Transpose.
From Verif Require Import P_Mem P_Mul P_Perm P_Cast P_Laws P_Laws2 P_Client P_Kernels.
Import ListNotations.
Open Scope Z_scope.

Lemma call_one c m f args v next : run c m f args = Returns m (Some v) ->
  execute c m (Call f args next) = execute c m (next (Some v)).
Proof. intros H. cbn [execute]. now rewrite H. Qed.

Lemma reinterpret_to f t n t' n' c m a r : In (f, t, n, t', n') vreinterpret_table -> lanes t n a -> lanes t' n' r ->
  vec_bytes t' r = vec_bytes t a -> run c m f [vec t a] = Returns m (Some (vec t' r)).
Proof.
  intros H La Lr B. destruct (reinterpret_bytes f t n t' n' c m a H La) as (s & E & Ls & Bs). rewrite E. do 3 f_equal.
  apply (vec_bytes_inj t' n'); trivial. congruence.
Qed.

Ltac lanes_by := split; [reflexivity|repeat (apply Forall_cons; [solve [auto]|]); apply Forall_nil].

(** ** Arithmetic of bytes *)

Definition two8 (x y : Z) : Z := x + 256 * y.
Definition two16 (x y : Z) : Z := x + 65536 * y.
Definition stwo16 (x y : Z) : Z := x mod 65536 + 65536 * y.

Lemma two8_range x y : in_range U8 x -> in_range U8 y -> in_range U16 (two8 x y).
Proof. unfold in_range, two8. cbn [lo hi]. lia. Qed.
Lemma two16_range x y : in_range U16 x -> in_range U16 y -> in_range U32 (two16 x y).
Proof. unfold in_range, two16. cbn [lo hi]. lia. Qed.
Lemma stwo16_range x y : in_range I16 x -> in_range I16 y -> in_range I32 (stwo16 x y).
Proof. unfold in_range, stwo16. cbn [lo hi]. intros. pose proof (Z.mod_pos_bound x 65536 ltac:(lia)). lia. Qed.
#[local] Hint Resolve two8_range two16_range stwo16_range : core.

Ltac powers := unfold lane_bytes; cbn [nbytes seq map app lo hi];
  change (256 ^ Z.of_nat 0) with 1; change (256 ^ Z.of_nat 1) with 256; change (256 ^ Z.of_nat 2) with 65536;
  change (256 ^ Z.of_nat 3) with 16777216; rewrite ?Z.div_1_r.

Lemma bytes1 x : in_range U8 x -> lane_bytes U8 x = [x].
Proof. unfold in_range. powers. intros. f_equal. apply Z.mod_small. lia. Qed.
Lemma bytes_two8 x y : in_range U8 x -> in_range U8 y -> lane_bytes U16 (two8 x y) = [x; y].
Proof. unfold in_range, two8. powers. intros. repeat (apply f_equal2; [Z.div_mod_to_equations; lia|]); reflexivity. Qed.
Lemma bytes_two16 x y : in_range U16 x -> in_range U16 y -> lane_bytes U32 (two16 x y) = lane_bytes U16 x ++ lane_bytes U16 y.
Proof. unfold in_range, two16. powers. intros. repeat (apply f_equal2; [Z.div_mod_to_equations; lia|]); reflexivity. Qed.
Lemma bytes_stwo16 x y : in_range I16 x -> in_range I16 y -> lane_bytes I32 (stwo16 x y) = lane_bytes I16 x ++ lane_bytes I16 y.
Proof. unfold in_range, stwo16. powers. intros. repeat (apply f_equal2; [Z.div_mod_to_equations; lia|]); reflexivity. Qed.

(** ** Steps *)

Lemma trn_u8 c m a0 a1 a2 a3 a4 a5 a6 a7 b0 b1 b2 b3 b4 b5 b6 b7 :
  lanes U8 8 [a0;a1;a2;a3;a4;a5;a6;a7] -> lanes U8 8 [b0;b1;b2;b3;b4;b5;b6;b7] ->
  run c m vtrn_u8 [vec U8 [a0;a1;a2;a3;a4;a5;a6;a7]; vec U8 [b0;b1;b2;b3;b4;b5;b6;b7]]
  = Returns m (Some (vecs U8 [[a0;b0;a2;b2;a4;b4;a6;b6]; [a1;b1;a3;b3;a5;b5;a7;b7]])).
Proof. intros Ha Hb. exact (vtrn_exact vtrn_u8 U8 8 c m _ _ ltac:(cbn; tauto) Ha Hb). Qed.

Lemma trn4 f t c m a0 a1 a2 a3 b0 b1 b2 b3 : In (f, t, 4%nat) vtrn_table ->
  lanes t 4 [a0;a1;a2;a3] -> lanes t 4 [b0;b1;b2;b3] ->
  run c m f [vec t [a0;a1;a2;a3]; vec t [b0;b1;b2;b3]] = Returns m (Some (vecs t [[a0;b0;a2;b2]; [a1;b1;a3;b3]])).
Proof. intros H Ha Hb. exact (vtrn_exact f t 4 c m _ _ H Ha Hb). Qed.

Lemma trn2 f t c m a0 a1 b0 b1 : In (f, t, 2%nat) vtrn_table -> lanes t 2 [a0;a1] -> lanes t 2 [b0;b1] ->
  run c m f [vec t [a0;a1]; vec t [b0;b1]] = Returns m (Some (vecs t [[a0;b0]; [a1;b1]])).
Proof. intros H Ha Hb. exact (vtrn_exact f t 2 c m _ _ H Ha Hb). Qed.

Section Steps.
Context (c : cfg) (m : memory).

Lemma to_u16 x0 x1 x2 x3 x4 x5 x6 x7 : in_range U8 x0 -> in_range U8 x1 -> in_range U8 x2 -> in_range U8 x3 ->
  in_range U8 x4 -> in_range U8 x5 -> in_range U8 x6 -> in_range U8 x7 ->
  run c m vreinterpret_u16_u8 [vec U8 [x0;x1;x2;x3;x4;x5;x6;x7]]
  = Returns m (Some (vec U16 [two8 x0 x1; two8 x2 x3; two8 x4 x5; two8 x6 x7])).
Proof.
  intros. apply (reinterpret_to _ U8 8 U16 4); [cbn; tauto|lanes_by|lanes_by|].
  unfold vec_bytes. cbn [flat_map]. now rewrite !bytes_two8, !bytes1 by auto.
Qed.
Lemma to_u32 x0 x1 x2 x3 : in_range U16 x0 -> in_range U16 x1 -> in_range U16 x2 -> in_range U16 x3 ->
  run c m vreinterpret_u32_u16 [vec U16 [x0;x1;x2;x3]] = Returns m (Some (vec U32 [two16 x0 x1; two16 x2 x3])).
Proof.
  intros. apply (reinterpret_to _ U16 4 U32 2); [cbn; tauto|lanes_by|lanes_by|].
  unfold vec_bytes. cbn [flat_map]. now rewrite !bytes_two16, <- !app_assoc by auto.
Qed.
Lemma to_u8 x0 x1 x2 x3 x4 x5 x6 x7 : in_range U8 x0 -> in_range U8 x1 -> in_range U8 x2 -> in_range U8 x3 ->
  in_range U8 x4 -> in_range U8 x5 -> in_range U8 x6 -> in_range U8 x7 ->
  run c m vreinterpret_u8_u32 [vec U32 [two16 (two8 x0 x1) (two8 x2 x3); two16 (two8 x4 x5) (two8 x6 x7)]]
  = Returns m (Some (vec U8 [x0;x1;x2;x3;x4;x5;x6;x7])).
Proof.
  intros. apply (reinterpret_to _ U32 2 U8 8); [cbn; tauto|lanes_by|lanes_by|].
  unfold vec_bytes. cbn [flat_map]. now rewrite !bytes_two16, !bytes_two8, !bytes1 by auto.
Qed.
Lemma to_s32 x0 x1 x2 x3 : in_range I16 x0 -> in_range I16 x1 -> in_range I16 x2 -> in_range I16 x3 ->
  run c m vreinterpret_s32_s16 [vec I16 [x0;x1;x2;x3]] = Returns m (Some (vec I32 [stwo16 x0 x1; stwo16 x2 x3])).
Proof.
  intros. apply (reinterpret_to _ I16 4 I32 2); [cbn; tauto|lanes_by|lanes_by|].
  unfold vec_bytes. cbn [flat_map]. now rewrite !bytes_stwo16, <- !app_assoc by auto.
Qed.
Lemma to_s16 x0 x1 x2 x3 : in_range I16 x0 -> in_range I16 x1 -> in_range I16 x2 -> in_range I16 x3 ->
  run c m vreinterpret_s16_s32 [vec I32 [stwo16 x0 x1; stwo16 x2 x3]] = Returns m (Some (vec I16 [x0;x1;x2;x3])).
Proof.
  intros. apply (reinterpret_to _ I32 2 I16 4); [cbn; tauto|lanes_by|lanes_by|].
  unfold vec_bytes. cbn [flat_map]. now rewrite !bytes_stwo16, <- !app_assoc by auto.
Qed.
End Steps.

(** ** Blocks *)

Definition transposes (c : cfg) (tr : transposer) (t : sty) (n : nat) : Prop := forall m rows next,
  List.length rows = n -> Forall (lanes t n) rows ->
  execute c m (tr (map (vec t) rows) next) = execute c m (next (map (vec t) (transposed n rows))).

Ltac open_rows L F :=
  repeat match type of L with List.length ?r = S _ =>
    let a := fresh "a" in let r' := fresh "r" in destruct r as [|a r']; [discriminate L|injection L as L];
    let Fa := fresh "Fa" in apply Forall_inv in F as Fa; apply Forall_inv_tail in F end;
  match type of L with List.length ?r = O => destruct r; [|discriminate L] end; clear L F.
Ltac open_lanes :=
  repeat match goal with
  | H : lanes _ _ ?a |- _ => is_var a; let L := fresh "L" in let F := fresh "F" in destruct H as [L F];
      repeat match type of L with List.length ?r = S _ =>
        let x := fresh "x" in let r' := fresh "r" in destruct r as [|x r']; [discriminate L|injection L as L];
        let Fx := fresh "Fx" in apply Forall_inv in F as Fx; apply Forall_inv_tail in F end;
      match type of L with List.length ?r = O => destruct r; [|discriminate L] end; clear L F
  end.
Ltac open_calls := unfold first_of, second_of; cbn [call_all map item nth].
Ltac call lem := erewrite call_one by lem; cbn [value component nth vecs map].

Lemma two_by_two c f t : In (f, t, 2%nat) vtrn_table -> transposes c (transpose_2x2 f) t 2.
Proof.
  intros H m rows next L F. open_rows L F. open_lanes. unfold transpose_2x2. open_calls.
  call ltac:(apply (trn2 f t); [exact H|lanes_by|lanes_by]). reflexivity.
Qed.

Lemma four_by_four_u32 c : transposes c transpose_4x4_u32 U32 4.
Proof.
  intros m rows next L F. open_rows L F. open_lanes. unfold transpose_4x4_u32. open_calls.
  do 2 call ltac:(apply (trn4 vtrnq_u32 U32); [cbn; tauto|lanes_by|lanes_by]).
  do 4 call ltac:(apply (vget_low_exact vget_low_u32 U32 2); [cbn; tauto|lanes_by]).
  do 4 call ltac:(apply (vget_high_exact vget_high_u32 U32 2); [cbn; tauto|lanes_by]).
  do 4 call ltac:(apply (vcombine_exact vcombine_u32 U32 2); [cbn; tauto|lanes_by|lanes_by]).
  reflexivity.
Qed.

Lemma four_by_four_s16 c : transposes c transpose_4x4_s16 I16 4.
Proof.
  intros m rows next L F. open_rows L F. open_lanes. unfold transpose_4x4_s16. open_calls.
  do 2 call ltac:(apply (trn4 vtrn_s16 I16); [cbn; tauto|lanes_by|lanes_by]).
  do 4 call ltac:(apply to_s32; assumption).
  do 2 call ltac:(apply (trn2 vtrn_s32 I32); [cbn; tauto|lanes_by|lanes_by]).
  do 4 call ltac:(apply to_s16; assumption).
  reflexivity.
Qed.

Lemma eight_by_eight_u8 c : transposes c transpose_8x8_u8 U8 8.
Proof.
  intros m rows next L F. open_rows L F. open_lanes. unfold transpose_8x8_u8. open_calls.
  do 4 call ltac:(apply trn_u8; lanes_by).
  do 8 call ltac:(apply to_u16; assumption).
  do 4 call ltac:(apply (trn4 vtrn_u16 U16); [cbn; tauto|lanes_by|lanes_by]).
  do 8 call ltac:(apply to_u32; auto).
  do 4 call ltac:(apply (trn2 vtrn_u32 U32); [cbn; tauto|lanes_by|lanes_by]).
  do 8 call ltac:(apply to_u8; assumption).
  reflexivity.
Qed.

Lemma transposers_ok c ld st tr t n : In (ld, st, tr, t, n) transposers ->
  transposes c tr t n /\ In (ld, t, n) vld1_table /\ In (st, t, n) vst1_table /\ (0 < n)%nat.
Proof.
  intros H. cbn in H. repeat (destruct H as [H|H]; [injection H as <- <- <- <- <-|]); [| | | | |contradiction].
  - split; [apply eight_by_eight_u8|]. cbn; repeat split; try tauto; lia.
  - split; [apply four_by_four_s16|]. cbn; repeat split; try tauto; lia.
  - split; [apply four_by_four_u32|]. cbn; repeat split; try tauto; lia.
  - split; [apply two_by_two; cbn; tauto|]. cbn; repeat split; try tauto; lia.
  - split; [apply two_by_two; cbn; tauto|]. cbn; repeat split; try tauto; lia.
Qed.
