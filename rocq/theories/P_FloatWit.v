(** Concrete operands on which the floating-point functions are wrong. *)
From Coq Require Import ZArith String List Bool Lia Reals Lra.
From Flocq Require Import Core IEEE754.BinarySingleNaN.
From Verif Require Import Types FloatBits FloatSpec FloatR Syntax Interp ProgRecip ExecLemmas Lane Spec Ew Sym Tables PropBase.
From Verif Require Import ProgAdd ProgMul ProgShift ProgPerm P_AddSub P_Float P_Recip P_Recps P_FloatMore.
Import ListNotations.
Open Scope Z_scope.

Lemma vmaxq_wrong c m :
  run c m vmaxq_f32 [vec F32 [2143289344; 0; 0; 0]; vec F32 [1065353216; 2147483648; 0; 0]]
  = Returns m (Some (vec F32 [1065353216; 2147483648; 0; 0])) /\
  ~ ieee_max F32 2143289344 1065353216 1065353216 /\ ~ ieee_max F32 0 2147483648 2147483648.
Proof.
  split; [|split].
  - rewrite vmaxq_f32_run by lanes_lit. reflexivity.
  - intros [H _]. assert (N : fnan F32 1065353216) by (apply H; left; split; [reflexivity|discriminate]).
    destruct N as [N _]. discriminate N.
  - intros [_ H]. assert (P : ~ fnan F32 0) by (intros [N _]; discriminate N).
    assert (Q : ~ fnan F32 2147483648) by (intros [N _]; discriminate N).
    destruct (H P Q) as (_ & _ & _ & Z0). now destruct (Z0 eq_refl) as [Z1 _].
Qed.

Lemma vminq_wrong c m :
  run c m vminq_f32 [vec F32 [2143289344; 2147483648; 0; 0]; vec F32 [1065353216; 0; 0; 0]]
  = Returns m (Some (vec F32 [1065353216; 0; 0; 0])) /\
  ~ ieee_min F32 2143289344 1065353216 1065353216 /\ ~ ieee_min F32 2147483648 0 0.
Proof.
  split; [|split].
  - rewrite vminq_f32_run by lanes_lit. reflexivity.
  - intros [H _]. assert (N : fnan F32 1065353216) by (apply H; left; split; [reflexivity|discriminate]).
    destruct N as [N _]. discriminate N.
  - intros [_ H]. assert (P : ~ fnan F32 0) by (intros [N _]; discriminate N).
    assert (Q : ~ fnan F32 2147483648) by (intros [N _]; discriminate N).
    destruct (H Q P) as (_ & _ & _ & Z0). now destruct (Z0 eq_refl) as [Z1 _].
Qed.

Lemma vcvtq_fits f u : In (f, u) [(vcvtq_s32_f32, I32); (vcvtq_u32_f32, U32)] ->
  forall c m a, lanes F32 4 a -> Forall (cvt_fits u) a ->
  run c m f [vec F32 a] = Returns m (Some (vec u (map (fun x => Ztrunc (fval F32 x)) a))).
Proof.
  intros H c m a. assert (H' : In (f, u, 4%nat) to_int_table) by (cbn in *; intuition congruence).
  exact (to_int_exact f u 4 c m a H').
Qed.

Lemma vcvtnq_nearest c m a : lanes F32 4 a -> Forall (cvt_fits I32) a ->
  Forall (fun x => ZnearestE (fval F32 x) = Ztrunc (fval F32 x)) a ->
  run c m vcvtnq_s32_f32 [vec F32 a] = Returns m (Some (vec I32 (map (fun x => ZnearestE (fval F32 x)) a))).
Proof.
  intros Ha F N. rewrite (to_int_exact vcvtnq_s32_f32 I32 4 c m a) by (trivial; cbn; tauto).
  do 3 f_equal. apply map_ext_in. rewrite Forall_forall in N. intros x Hx. now rewrite N.
Qed.

Lemma fval_175 : fval F32 1071644672 = (7 / 4)%R.
Proof.
  unfold fval. change (exp_field F32 1071644672) with 127. change (frac_field F32 1071644672) with 6291456.
  change (sign_bit F32 1071644672) with false. cbn. lra.
Qed.

Lemma vcvtnq_wrong :
  (forall c m a, lanes F32 4 a -> Forall (cvt_fits I32) a ->
     run c m vcvtnq_s32_f32 [vec F32 a] = Returns m (Some (vec I32 (map (fun x => Ztrunc (fval F32 x)) a)))) /\
  (forall c m, run c m vcvtnq_s32_f32 [vec F32 [1071644672; 0; 0; 0]] = Returns m (Some (vec I32 [1; 0; 0; 0]))) /\
  ZnearestE (fval F32 1071644672) = 2.
Proof.
  split; [|split].
  - intros c m a Ha F. apply (to_int_exact vcvtnq_s32_f32 I32 4 c m a); trivial. cbn; tauto.
  - intros c m. rewrite (to_int_run vcvtnq_s32_f32 I32 4) by first [lanes_lit | cbn; tauto]. reflexivity.
  - rewrite fval_175. apply Znearest_imp. rewrite Rabs_left; lra.
Qed.

Lemma fval_x : fval F32 1065355264 = (4097 / 4096)%R.
Proof.
  unfold fval. change (exp_field F32 1065355264) with 127. change (frac_field F32 1065355264) with 2048.
  change (sign_bit F32 1065355264) with false. cbn. lra.
Qed.
Lemma fval_r : fval F32 1065345024 = (16769024 / 16777216)%R.
Proof.
  unfold fval. change (exp_field F32 1065345024) with 126. change (frac_field F32 1065345024) with 8380416.
  change (sign_bit F32 1065345024) with false. cbn. lra.
Qed.
Lemma fval_w : fval F32 1065345023 = (16769023 / 16777216)%R.
Proof.
  unfold fval. change (exp_field F32 1065345023) with 126. change (frac_field F32 1065345023) with 8380415.
  change (sign_bit F32 1065345023) with false. cbn. lra.
Qed.

Lemma vrecpsq_wrong :
  run strict [] vrecpsq_f32 [vec F32 [1065355264; 0; 0; 0]; vec F32 [1065355264; 2139095040; 0; 0]]
  = Returns [] (Some (vec F32 [1065345024; 2143289344; 1073741824; 1073741824])) /\
  ~ fused_two_minus F32 1065355264 1065355264 1065345024 /\
  ~ fused_two_minus F32 0 2139095040 2143289344.
Proof.
  split; [|split].
  - vm_compute. reflexivity.
  - intros (_ & _ & _ & _ & H). specialize (H ltac:(discriminate) ltac:(discriminate)).
    unfold rounded in H. rewrite fval_x in H.
    replace (2 - 4097 / 4096 * (4097 / 4096))%R with (fval F32 1065345023) in H by (rewrite fval_w; lra).
    rewrite (rnd_fval F32 1065345023) in H; [|now left|unfold in_range; cbn; lia|discriminate].
    destruct (Rlt_bool_spec (Rabs (fval F32 1065345023)) (bpow radix2 (max_exp F32))) as [_|L].
    + destruct H as (_ & V & _). rewrite fval_r, fval_w in V. lra.
    + rewrite fval_w, Rabs_right in L by lra. cbn in L. lra.
  - intros (_ & _ & _ & H & _). specialize (H ltac:(discriminate) ltac:(split; reflexivity)).
    destruct (Req_bool_spec (fval F32 0) 0) as [_|N].
    + destruct H as [F _]. apply F. reflexivity.
    + apply N. unfold fval. change (exp_field F32 0) with 0. change (frac_field F32 0) with 0. cbn. lra.
Qed.

Lemma fval_15 : fval F32 1069547520 = (3 / 2)%R.
Proof.
  unfold fval. change (exp_field F32 1069547520) with 127. change (frac_field F32 1069547520) with 4194304.
  change (sign_bit F32 1069547520) with false. cbn. lra.
Qed.
Lemma fval_225 : fval F32 1074790400 = (9 / 4)%R.
Proof.
  unfold fval. change (exp_field F32 1074790400) with 128. change (frac_field F32 1074790400) with 1048576.
  change (sign_bit F32 1074790400) with false. cbn. lra.
Qed.
Lemma exact_product_15 : exact_product F32 1069547520 1069547520.
Proof.
  unfold exact_product. rewrite fval_15. replace (3 / 2 * (3 / 2))%R with (fval F32 1074790400) by (rewrite fval_225; lra).
  split; [apply rnd_fval; [now left|unfold in_range; cbn; lia|discriminate]|].
  rewrite fval_225, Rabs_right by lra. cbn. lra.
Qed.
