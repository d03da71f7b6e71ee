(** What the functions that deviate from their specification compute on the inputs
    where they deviate: the cases the main theorems of each family leave open. *)
From Coq Require Import ZArith String List Bool Lia Reals Lra.
From Flocq Require Import Core.
From Verif Require Import Types FloatBits FloatSpec FloatR Syntax Interp ProgRecip ExecLemmas Lane Spec Ew Sym Tables.
From Verif Require Import ProgAdd ProgSub ProgMul ProgShift P_AddSub P_SubMore P_AddHigh P_Mul P_Shift P_Qsub64.
Import ListNotations.
Open Scope Z_scope.

(** ** Overflow in the narrowing additions and subtractions *)

Lemma arith_then_either c t z (g : Z -> Z) :
  (exists r, (let* d := arith c t z in Ok (g d)) = Ok r) \/ (let* d := arith c t z in Ok (g d)) = Err (EUB SignedOverflow).
Proof. destruct (arith_either c t z) as [[r ->]| ->]; cbn [bind]; eauto. Qed.

Lemma vaddhn_high_bad_overflow f t n c m r a b : In (f, t, n) vaddhn_high_bad_table ->
  lanes (narrow t) n r -> lanes t n a -> lanes t n b -> wrapv c = false -> is_signed t = true ->
  some_lane (fun x y => ~ in_range t (x + y)) a b ->
  run c m f [vec (narrow t) r; vec t a; vec t b] = Undefined SignedOverflow.
Proof.
  intros H Hr Ha Hb Hc Hs (i & x & y & Hx & Hy & Ho). rewrite (vaddhn_high_bad_run f t n) by assumption.
  rewrite (mapM2_err _ (EUB SignedOverflow)); [reflexivity| |].
  - intros j u v _ _. apply arith_then_either.
  - exists i, x, y. repeat split; trivial. now rewrite arith_ub.
Qed.

Lemma vsubn_overflow f t n c m a b : In (f, t, n) vsubn_table ->
  lanes t n a -> lanes t n b -> wrapv c = false -> is_signed t = true ->
  some_lane (fun x y => ~ in_range t (x - y)) a b ->
  run c m f [vec t a; vec t b] = Undefined SignedOverflow.
Proof.
  intros H Ha Hb Hc Hs (i & x & y & Hx & Hy & Ho). rewrite (vsubn_run f t n) by assumption.
  rewrite (mapM2_err _ (EUB SignedOverflow)); [reflexivity| |].
  - intros j u v _ _. apply arith_then_either.
  - exists i, x, y. repeat split; trivial. now rewrite arith_ub.
Qed.

Lemma vrsubhn64_overflow f t n c m a b : In (f, t, n) vrsubhn64_table -> lanes t n a -> lanes t n b ->
  wrapv c = false -> is_signed t = true ->
  some_lane (fun x y => ~ (in_range t (x - y) /\ in_range t (x - y - 2 ^ 31))) a b ->
  run c m f [vec t a; vec t b] = Undefined SignedOverflow.
Proof.
  intros H Ha Hb Hc Hs (i & x & y & Hx & Hy & Ho). rewrite (vrsubhn64_run f t n) by assumption.
  assert (Ht : t = I64).
  { cbn [In vrsubhn64_table] in H. destruct H as [H|[H|[]]]; injection H as _ <- _; [reflexivity|discriminate Hs]. }
  subst t. rewrite (mapM2_err _ (EUB SignedOverflow)); [reflexivity| |].
  - intros j u v _ _. unfold rsubhn64_lane. destruct (arith_either c I64 (u - v)) as [[d ->]| ->]; cbn [bind]; [|now right].
    apply arith_then_either.
  - exists i, x, y. repeat split; trivial. unfold rsubhn64_lane.
    destruct (in_rangeb I64 (x - y)) eqn:E.
    + apply in_rangeb_spec in E. rewrite arith_ok by exact E. cbn [bind].
      change (wrap I64 (- 2 ^ 31)) with (- 2 ^ 31).
      rewrite arith_ub; [reflexivity|reflexivity|exact Hc|]. intros G. apply Ho. split; [exact E|exact G].
    + rewrite arith_ub; [reflexivity|reflexivity|exact Hc|].
      intros G. apply in_rangeb_spec in G. congruence.
Qed.

(** ** Saturating subtraction of 64-bit lanes, through double *)

Lemma qsub64_sat c t x y : is64 t -> in_range t x -> in_range t y -> double_diff x y <> IZR (hi t + 1) ->
  qsub64 c t x y = Ok (sat t (Ztrunc (double_diff x y))).
Proof.
  intros Ht Hx Hy Hd. rewrite (qsub64_value c t x y Ht Hx Hy). cbv zeta. set (v := double_diff x y) in *.
  assert (Hl : lo t <= 0 <= hi t) by (destruct Ht as [-> | ->]; cbn; lia). unfold sat.
  destruct (Rlt_bool_spec (IZR (hi t + 1)) v) as [L1|L1].
  - assert (hi t + 1 <= Ztrunc v) by (rewrite <- (Ztrunc_IZR (hi t + 1)); apply Ztrunc_le; lra). f_equal. lia.
  - destruct (Rlt_bool_spec v (IZR (lo t))) as [L2|L2].
    + assert (Ztrunc v <= lo t) by (rewrite <- (Ztrunc_IZR (lo t)); apply Ztrunc_le; lra). f_equal. lia.
    + rewrite Rlt_bool_true by lra.
      assert (lo t <= Ztrunc v) by (rewrite <- (Ztrunc_IZR (lo t)); now apply Ztrunc_le).
      assert (Ztrunc v <= hi t).
      { destruct (Rle_or_lt 0 v) as [P|P].
        - rewrite Ztrunc_floor by exact P. pose proof (Zfloor_lb v) as Q.
          assert (Q2 : (IZR (Zfloor v) < IZR (hi t + 1))%R) by lra. apply lt_IZR in Q2. lia.
        - rewrite Ztrunc_ceil by lra. assert (Zceil v <= 0) by (apply Zceil_glb; cbn; lra). lia. }
      f_equal. lia.
Qed.

Lemma qsub64_ub c t x y : is64 t -> in_range t x -> in_range t y -> double_diff x y = IZR (hi t + 1) ->
  qsub64 c t x y = Err (EUB FloatCast).
Proof.
  intros Ht Hx Hy Hd. rewrite (qsub64_value c t x y Ht Hx Hy). cbv zeta. rewrite Hd.
  assert (Hl : lo t <= 0 <= hi t) by (destruct Ht as [-> | ->]; cbn; lia).
  rewrite (Rlt_bool_false (IZR (hi t + 1)) (IZR (hi t + 1))) by apply Rle_refl.
  rewrite (Rlt_bool_false (IZR (hi t + 1)) (IZR (lo t))) by (apply IZR_le; lia). reflexivity.
Qed.

Lemma vqsub64_value f t n c m a b : In (f, t, n) vqsub64_table -> lanes t n a -> lanes t n b ->
  all_lanes (fun x y => double_diff x y <> IZR (hi t + 1)) a b ->
  run c m f [vec t a; vec t b]
  = Returns m (Some (vec t (map2 (fun x y => sat t (Ztrunc (double_diff x y))) a b))).
Proof.
  intros H Ha Hb Hd. assert (Ht : is64 t) by (cbn in H; unfold is64; intuition congruence).
  rewrite (vqsub64_run f t n c m a b H Ha Hb), <- vec_outcome_ok. f_equal. apply mapM2_ok.
  intros i x y Ex Ey. apply qsub64_sat; trivial; [exact (lanes_nth t n a i x Ha Ex)|exact (lanes_nth t n b i y Hb Ey)|].
  exact (Hd i x y Ex Ey).
Qed.

Lemma vqsub64_cast f t n c m a b : In (f, t, n) vqsub64_table -> lanes t n a -> lanes t n b ->
  some_lane (fun x y => double_diff x y = IZR (hi t + 1)) a b ->
  run c m f [vec t a; vec t b] = Undefined FloatCast.
Proof.
  intros H Ha Hb (i & x & y & Ex & Ey & Hd). assert (Ht : is64 t) by (cbn in H; unfold is64; intuition congruence).
  rewrite (vqsub64_run f t n c m a b H Ha Hb). rewrite (mapM2_err _ (EUB FloatCast)); [reflexivity| |].
  - intros j u v Eu Ev. pose proof (lanes_nth t n a j u Ha Eu). pose proof (lanes_nth t n b j v Hb Ev).
    destruct (Req_dec (double_diff u v) (IZR (hi t + 1))) as [G|G].
    + right. now apply qsub64_ub.
    + left. eexists. now apply qsub64_sat.
  - exists i, x, y. repeat split; trivial.
    apply qsub64_ub; trivial; [exact (lanes_nth t n a i x Ha Ex)|exact (lanes_nth t n b i y Hb Ey)].
Qed.

(** How far from the true difference it can be. *)
Lemma rnd_error v e : (-1022 < e)%Z -> (Rabs v <= bpow radix2 e)%R ->
  (Rabs (rnd F64 v - v) <= bpow radix2 (e - 54))%R.
Proof.
  intros He Hv. unfold rnd. cbn [min_exp precision].
  destruct (Rle_lt_or_eq_dec _ _ Hv) as [L|L].
  - eapply Rle_trans; [apply error_le_half_ulp; now apply FLT_exp_valid|].
    assert (U : (ulp radix2 (FLT_exp (-1074) 53) v <= bpow radix2 (e - 53))%R).
    { destruct (Req_dec v 0) as [->|N].
      - rewrite ulp_FLT_0 by reflexivity. apply bpow_le. lia.
      - rewrite ulp_neq_0 by exact N. apply bpow_le. unfold cexp, FLT_exp.
        assert (mag radix2 v <= e)%Z by now apply mag_le_bpow. lia. }
    replace (e - 54)%Z with (-1 + (e - 53))%Z by lia. rewrite bpow_plus. change (bpow radix2 (-1)) with (/ 2)%R. lra.
  - rewrite round_generic; [|apply valid_rnd_N|].
    + rewrite Rminus_diag_eq, Rabs_R0 by reflexivity. apply bpow_ge_0.
    + destruct (Rle_or_lt 0 v) as [P|P].
      * rewrite Rabs_pos_eq in L by exact P. rewrite L. apply generic_format_bpow. unfold FLT_exp. lia.
      * rewrite Rabs_left in L by exact P. replace v with (- bpow radix2 e)%R by lra.
        apply generic_format_opp, generic_format_bpow. unfold FLT_exp. lia.
Qed.

Lemma double_diff_error x y : - 2 ^ 64 <= x <= 2 ^ 64 -> - 2 ^ 64 <= y <= 2 ^ 64 -> - 2 ^ 64 <= x - y <= 2 ^ 64 ->
  (Rabs (double_diff x y - IZR (x - y)) <= 4096)%R.
Proof.
  intros Hx Hy Hd.
  assert (E : forall z, - 2 ^ 64 <= z <= 2 ^ 64 -> (Rabs (rnd F64 (IZR z) - IZR z) <= 1024)%R).
  { intros z Hz. change 1024%R with (bpow radix2 (64 - 54)). apply rnd_error; [reflexivity|].
    rewrite <- abs_IZR, <- (IZR_Zpower radix2 64) by lia. apply IZR_le. change (Zpower radix2 64) with (2 ^ 64). lia. }
  pose proof (E x Hx) as Ex. pose proof (E y Hy) as Ey.
  assert (B : (Rabs (rnd F64 (IZR x) - rnd F64 (IZR y)) <= bpow radix2 65)%R).
  { change (bpow radix2 65) with (IZR (2 ^ 65)).
    assert (Bd : (Rabs (IZR (x - y)) <= IZR (2 ^ 64))%R) by (rewrite <- abs_IZR; apply IZR_le; lia).
    rewrite minus_IZR in Bd. change (IZR (2 ^ 65)) with (IZR (2 * 2 ^ 64)). rewrite mult_IZR.
    assert (IZR (2 ^ 64) >= 4096)%R by (apply Rle_ge, IZR_le; lia).
    unfold Rabs in *. repeat destruct Rcase_abs; lra. }
  pose proof (rnd_error _ 65 ltac:(reflexivity) B) as E2. change (bpow radix2 (65 - 54)) with 2048%R in E2.
  unfold double_diff. rewrite minus_IZR. unfold Rabs in *. repeat destruct Rcase_abs; lra.
Qed.

Lemma sat_lipschitz t x y d : lo t <= hi t -> Z.abs (x - y) <= d -> Z.abs (sat t x - sat t y) <= d.
Proof. intros Hl. unfold sat. lia. Qed.

Lemma trunc_error v z d : (Rabs (v - IZR z) <= IZR d)%R -> Z.abs (Ztrunc v - z) <= d.
Proof.
  intros H. assert (- d <= Ztrunc v - z <= d); [|lia].
  assert (IZR (z - d) <= v <= IZR (z + d))%R as [H1 H2].
  { rewrite minus_IZR, plus_IZR. unfold Rabs in H. destruct Rcase_abs; lra. }
  apply Ztrunc_le in H1. apply Ztrunc_le in H2. rewrite Ztrunc_IZR in H1, H2. lia.
Qed.

Lemma vqsub64_close t x y : is64 t -> in_range t x -> in_range t y ->
  Z.abs (sat t (Ztrunc (double_diff x y)) - sat t (x - y)) <= 4096.
Proof.
  intros Ht Hx Hy. apply sat_lipschitz; [destruct Ht as [-> | ->]; cbn; lia|]. apply trunc_error.
  unfold in_range in *. apply double_diff_error; destruct Ht as [-> | ->]; cbn [lo hi] in *; lia.
Qed.

(** ** vmlal_u32 and vmlsl_u32 *)

Lemma mla_u32 sub c x y z : in_range U64 x ->
  mla_lane sub c U32 U64 x y z = Ok (wrap U64 (if sub then x - wrap U32 (y * z) else x + wrap U32 (y * z))).
Proof.
  intros Hx. unfold mla_lane. cbn [promote]. rewrite arith_unsigned by reflexivity. cbn [bind].
  rewrite (wrap_id U64 (wrap U32 (y * z))).
  - rewrite arith_unsigned by reflexivity. cbn [bind]. rewrite wrap_id; [reflexivity|]. now apply wrap_range.
  - pose proof (wrap_range U32 (y * z)) as H. unfold in_range in *. cbn [lo hi] in *. lia.
Qed.

Lemma vmlal_u32_run c m a b d : lanes U64 2 a -> lanes U32 2 b -> lanes U32 2 d ->
  run c m vmlal_u32 [vec U64 a; vec U32 b; vec U32 d]
  = Returns m (Some (vec U64 (map3 (fun x y z => wrap U64 (x + wrap U32 (y * z))) a b d))).
Proof.
  intros Ha Hb Hd. rewrite (vmlal_run vmlal_u32 U32 2) by (trivial; cbn; tauto).
  rewrite <- vec_outcome_ok. f_equal. apply mapM3_ok. intros i x y z Hx _ _. apply mla_u32.
  exact (lanes_nth _ _ _ _ _ Ha Hx).
Qed.

Lemma vmlsl_u32_run c m a b d : lanes U64 2 a -> lanes U32 2 b -> lanes U32 2 d ->
  run c m vmlsl_u32 [vec U64 a; vec U32 b; vec U32 d]
  = Returns m (Some (vec U64 (map3 (fun x y z => wrap U64 (x - wrap U32 (y * z))) a b d))).
Proof.
  intros Ha Hb Hd. rewrite (vmlsl_run vmlsl_u32 U32 2) by (trivial; cbn; tauto).
  rewrite <- vec_outcome_ok. f_equal. apply mapM3_ok. intros i x y z Hx _ _. apply mla_u32.
  exact (lanes_nth _ _ _ _ _ Ha Hx).
Qed.

(** ** Shifts *)

Lemma vqshrun_n_s32_overflow c m a k : lanes I32 4 a -> 1 <= k <= 16 -> wrapv c = false ->
  Exists (fun x => ~ in_range I32 (x + 2 ^ (k - 1))) a ->
  run c m vqshrun_n_s32 [vec I32 a; rv I32 k] = Undefined SignedOverflow.
Proof.
  intros Ha Hk Hc Hs. apply Exists_exists in Hs. destruct Hs as (z & Hz & Ho).
  rewrite (run_ew 4) by (reflexivity || (apply ew_vec; [reflexivity|apply Ha|apply ew_scal; [reflexivity|constructor]])).
  apply In_nth_error in Hz. destruct Hz as [j Hj]. destruct Ha as [La Fa]. rewrite Forall_forall in Fa.
  assert (Hl : (j < 4)%nat) by (rewrite <- La; apply nth_error_Some; congruence).
  rewrite (mapM_seq_err _ _ (EUB SignedOverflow) j); [reflexivity| |exact Hl|].
  - intros i Hi. destruct (nth_error_lt a i ltac:(lia)) as [x Hx]. cbn [map]. rewrite (lane_of_vec _ _ _ _ Hx).
    pose proof (Fa x (nth_error_In _ _ Hx)) as Hr.
    destruct (in_rangeb I32 (x + 2 ^ (k - 1))) eqn:E.
    + left. exists (OScal U16 None). apply in_rangeb_spec in E.
      pose proof (shiftr_range I32 _ k eq_refl E ltac:(lia)) as Hr3.
      sx0. repeat ((rewrite one_shl by lia) || dec_cmp || sx_step || sx_cmp; sx0); reflexivity.
    + right. assert (N : ~ in_range I32 (x + 2 ^ (k - 1))) by (intros G; apply in_rangeb_spec in G; congruence).
      sx0. repeat ((rewrite one_shl by lia) || (rewrite (arith_ub c I32 (x + 2 ^ (k - 1))) by (trivial; reflexivity)) || dec_cmp || sx_step || sx_cmp; sx0); reflexivity.
  - cbn [map]. rewrite (lane_of_vec _ _ _ _ Hj). pose proof (Fa z (nth_error_In _ _ Hj)) as Hr.
    sx0. repeat ((rewrite one_shl by lia) || (rewrite (arith_ub c I32 (z + 2 ^ (k - 1))) by (trivial; reflexivity)) || dec_cmp || sx_step || sx_cmp; sx0); reflexivity.
Qed.

(** The rounding constant of vqshrun_n_s64 is computed in [int]: for n = 32 it is [1 << 31], which is negative. *)
Definition s64_bias (k : Z) : Z := if k =? 32 then - 2 ^ 31 else 2 ^ (k - 1).

Lemma one_shl_bias c k : 1 <= k <= 32 -> shift_left c I32 1 (k - 1) = Ok (s64_bias k).
Proof.
  intros H. unfold s64_bias. destruct (Z.eqb_spec k 32) as [->|N]; [|apply one_shl; lia].
  unfold shift_left. cbn. destruct (wrapv c); reflexivity.
Qed.

Lemma bias_range k : 1 <= k <= 32 -> in_range I32 (s64_bias k).
Proof.
  intros H. unfold s64_bias, in_range. cbn [lo hi]. destruct (Z.eqb_spec k 32); [lia|].
  pose proof (pow_bound (k - 1) 0 30 ltac:(lia) ltac:(lia)) as Hp. change (2 ^ 30) with 1073741824 in Hp. change (2 ^ 0) with 1 in Hp. lia.
Qed.

Lemma vqshrun_n_s64_lane c m x k : in_range I64 x -> 1 <= k <= 32 ->
  lane c m vqshrun_n_s64 [vec I64 [x]; rv I32 k] = let* _ := arith c I64 (x + s64_bias k) in Ok (OScal U32 None).
Proof.
  intros Hx Hk. pose proof (bias_range k Hk) as Hb. pose proof (one_shl_bias c k Hk) as Hs.
  assert (Hb2 : in_range I64 (s64_bias k)) by (unfold in_range in *; cbn [lo hi] in *; lia).
  generalize dependent (s64_bias k). intros q Hb Hs Hb2.
  destruct (arith c I64 (x + q)) as [r|e] eqn:E.
  - assert (Hr : in_range I64 r) by exact (arith_range _ _ _ _ E).
    pose proof (shiftr_range I64 r k eq_refl Hr ltac:(lia)) as Hr3.
    sx0. repeat ((rewrite Hs) || (rewrite E) || dec_cmp || sx_step || sx_cmp; sx0); reflexivity.
  - sx0. repeat ((rewrite Hs) || (rewrite E) || dec_cmp || sx_step || sx_cmp; sx0); reflexivity.
Qed.

Lemma vqshrun_n_s64_run c m a k : lanes I64 2 a -> 1 <= k <= 32 ->
  wrapv c = true \/ Forall (fun x => in_range I64 (x + s64_bias k)) a ->
  run c m vqshrun_n_s64 [vec I64 a; rv I32 k] = Returns m (Some (OArr (repeat (OScal U32 None) 2))).
Proof.
  intros Ha Hk Hs. rewrite (run_ew 2) by (reflexivity || (apply ew_vec; [reflexivity|apply Ha|apply ew_scal; [reflexivity|constructor]])).
  rewrite (mapM_ext _ (fun _ : nat => Ok (OScal U32 None)) (seq 0 2)).
  - rewrite mapM_const. reflexivity.
  - intros j Hj. apply in_seq in Hj. destruct Ha as [La Fa].
    destruct (nth_error_lt a j ltac:(lia)) as [x Hx]. cbn [map]. rewrite (lane_of_vec _ _ _ _ Hx).
    pose proof (nth_error_In _ _ Hx) as Hin. rewrite Forall_forall in Fa.
    change (lane_of j (rv I32 k)) with (rv I32 k). rewrite vqshrun_n_s64_lane by (trivial; now apply Fa).
    rewrite arith_total; [reflexivity|]. destruct Hs as [Hs|Hs]; [now left|]. right; right.
    rewrite Forall_forall in Hs. now apply Hs.
Qed.

Lemma vqshrun_n_s64_overflow c m a k : lanes I64 2 a -> 1 <= k <= 32 -> wrapv c = false ->
  Exists (fun x => ~ in_range I64 (x + s64_bias k)) a ->
  run c m vqshrun_n_s64 [vec I64 a; rv I32 k] = Undefined SignedOverflow.
Proof.
  intros Ha Hk Hc Hs. apply Exists_exists in Hs. destruct Hs as (z & Hz & Ho).
  rewrite (run_ew 2) by (reflexivity || (apply ew_vec; [reflexivity|apply Ha|apply ew_scal; [reflexivity|constructor]])).
  apply In_nth_error in Hz. destruct Hz as [j Hj]. destruct Ha as [La Fa]. rewrite Forall_forall in Fa.
  assert (Hl : (j < 2)%nat) by (rewrite <- La; apply nth_error_Some; congruence).
  rewrite (mapM_seq_err _ _ (EUB SignedOverflow) j); [reflexivity| |exact Hl|].
  - intros i Hi. destruct (nth_error_lt a i ltac:(lia)) as [x Hx]. cbn [map]. rewrite (lane_of_vec _ _ _ _ Hx).
    change (lane_of i (rv I32 k)) with (rv I32 k). rewrite vqshrun_n_s64_lane by (trivial; exact (Fa x (nth_error_In _ _ Hx))).
    destruct (arith_either c I64 (x + s64_bias k)) as [[d ->]| ->]; cbn [bind]; eauto.
  - cbn [map]. rewrite (lane_of_vec _ _ _ _ Hj). change (lane_of j (rv I32 k)) with (rv I32 k).
    rewrite vqshrun_n_s64_lane by (trivial; exact (Fa z (nth_error_In _ _ Hj))). now rewrite arith_ub.
Qed.

Lemma vqshrun_n_s32_wrapv c m a k : lanes I32 4 a -> 1 <= k <= 16 -> wrapv c = true ->
  run c m vqshrun_n_s32 [vec I32 a; rv I32 k] = Returns m (Some (OArr (repeat (OScal U16 None) 4))).
Proof.
  intros Ha Hk Hc. rewrite (run_ew 4) by (reflexivity || (apply ew_vec; [reflexivity|apply Ha|apply ew_scal; [reflexivity|constructor]])).
  rewrite (mapM_ext _ (fun _ : nat => Ok (OScal U16 None)) (seq 0 4)).
  - rewrite mapM_const. reflexivity.
  - intros j Hj. apply in_seq in Hj. destruct Ha as [La Fa].
    destruct (nth_error_lt a j ltac:(lia)) as [x Hx]. cbn [map]. rewrite (lane_of_vec _ _ _ _ Hx).
    pose proof (nth_error_In _ _ Hx) as Hin. rewrite Forall_forall in Fa.
    pose proof (Fa x Hin) as Hr. pose proof (arith_wrapv c I32 (x + 2 ^ (k - 1)) Hc) as E.
    pose proof (shiftr_range I32 _ k eq_refl (wrap_range I32 (x + 2 ^ (k - 1))) ltac:(lia)) as Hr3.
    sx0. repeat ((rewrite one_shl by lia) || (rewrite E) || dec_cmp || sx_step || sx_cmp; sx0); reflexivity.
Qed.

Lemma vrshrn_n_u16_min c m a : lanes U16 8 a -> wrapv c = false ->
  run c m vrshrn_n_u16 [vec U16 a; rv I32 (-2147483648)] = Undefined SignedOverflow.
Proof.
  intros Ha Hc. etransitivity; [|exact (err_all1 m U8 _ _ a (EUB SignedOverflow) Ha)].
  entry1s x Hx. sx0. rewrite arith_ub; [reflexivity|reflexivity|exact Hc|]. unfold in_range; cbn [lo hi]; lia.
Qed.

Lemma vshlq_n_s32_bad c m a k : lanes I32 4 a -> ~ (0 <= k <= 31) ->
  run c m vshlq_n_s32 [vec I32 a; rv I32 k] = Undefined BadShift.
Proof.
  intros Ha Hk. rewrite vshlq_n_s32_run by exact Ha.
  replace (mapM (shl_lane c k) a) with (mapM (fun _ : Z => @Err Z (EUB BadShift)) a); [exact (err_all1 m I32 _ _ a _ Ha)|].
  apply mapM_ext. intros x _. symmetry. apply shift_left_bad. cbn [width]. lia.
Qed.

Lemma err_all2 m t t1 t2 n a b e : lanes t1 (S n) a -> lanes t2 (S n) b ->
  vec_outcome m t (mapM2 (fun _ _ : Z => Err e) a b) = outcome_of (Err e).
Proof. intros [L _] [L2 _]. destruct a; [discriminate|]. destruct b; [discriminate|]. reflexivity. Qed.

Lemma vsraq_n_s32_bad c m a b k : lanes I32 4 a -> lanes I32 4 b -> in_range I32 k -> ~ (0 <= k <= 31) ->
  run c m vsraq_n_s32 [vec I32 a; vec I32 b; rv I32 k] = Undefined BadShift.
Proof.
  intros Ha Hb Hi Hk. etransitivity; [|exact (err_all2 m I32 _ _ _ a b (EUB BadShift) Ha Hb)].
  entry2s x y Hx Hy. sx0. rewrite shift_right_bad by (cbn [width]; lia). reflexivity.
Qed.

Lemma vsraq_n_s32_zero c m a b : lanes I32 4 a -> lanes I32 4 b ->
  (wrapv c = true \/ all_lanes (fun x y => in_range I32 (x + y)) a b ->
   run c m vsraq_n_s32 [vec I32 a; vec I32 b; rv I32 0] = Returns m (Some (vec I32 (map2 (fun x y => wrap I32 (x + y)) a b)))) /\
  (wrapv c = false -> some_lane (fun x y => ~ in_range I32 (x + y)) a b ->
   run c m vsraq_n_s32 [vec I32 a; vec I32 b; rv I32 0] = Undefined SignedOverflow).
Proof.
  intros Ha Hb. rewrite vsraq_n_s32_run by (trivial; lia). change (2 ^ 0) with 1. split.
  - intros Hs. rewrite (mapM2_ok _ (fun x y => wrap I32 (x + y))); [reflexivity|].
    intros i x y Hx Hy. rewrite !Z.div_1_r. apply arith_total. destruct Hs as [Hs|Hs]; [now left|].
    right; right. exact (Hs i x y Hx Hy).
  - intros Hc (i & x & y & Hx & Hy & Ho). rewrite (mapM2_err _ (EUB SignedOverflow)); [reflexivity| |].
    + intros j u v _ _. apply arith_either.
    + exists i, x, y. repeat split; trivial. rewrite !Z.div_1_r. now apply arith_ub.
Qed.

Definition shll_lane (c : cfg) (k x : Z) : res Z := let* z := shift_left c I32 x k in Ok (wrap U16 z).

Lemma vshll_n_u8_lanes c m a k : lanes U8 8 a ->
  run c m vshll_n_u8 [vec U8 a; rv I32 k] = vec_outcome m U16 (mapM (shll_lane c k) a).
Proof.
  intros Ha. entry1s x Hx. unfold shll_lane.
  assert (Hw : wrap U16 x = x) by (apply wrap_id; unfold in_range in *; cbn [lo hi] in *; lia).
  sx0. rewrite Hw. destruct (shift_left c I32 x k) eqn:E; sx0; reflexivity.
Qed.

Lemma vshll_n_u8_value c m a k : lanes U8 8 a -> 0 <= k <= 31 ->
  wrapv c = true \/ Forall (fun x => x * 2 ^ k < 2 ^ 32) a ->
  run c m vshll_n_u8 [vec U8 a; rv I32 k]
  = Returns m (Some (vec U16 (map (fun x => wrap U16 (x * 2 ^ k)) a))).
Proof.
  intros Ha Hk Hs. rewrite vshll_n_u8_lanes by exact Ha. destruct Ha as [_ Fa]. rewrite Forall_forall in Fa.
  rewrite (mapM_ok_map _ (fun x => wrap U16 (x * 2 ^ k))); [reflexivity|].
  intros x Hx. unfold shll_lane. pose proof (Fa x Hx) as Hr. unfold in_range in Hr; cbn [lo hi] in Hr.
  assert (E : shift_left c I32 x k = Ok (wrap I32 (x * 2 ^ k))).
  { destruct Hs as [Hs|Hs].
    - unfold shift_left. cbn [width is_signed]. rewrite Hs. destruct (Z.leb_spec 0 k); [|lia]. destruct (Z.ltb_spec k 32); [|lia]. reflexivity.
    - rewrite Forall_forall in Hs. specialize (Hs x Hx). apply shift_left_ok; cbn [width modulus is_signed]; try lia. }
  rewrite E. cbn [bind]. f_equal. apply (wrap_promote U16).
Qed.

Lemma vshll_n_u8_bad c m a k : lanes U8 8 a -> ~ (0 <= k <= 31) \/
  (wrapv c = false /\ Exists (fun x => 2 ^ 32 <= x * 2 ^ k) a) ->
  run c m vshll_n_u8 [vec U8 a; rv I32 k] = Undefined BadShift.
Proof.
  intros Ha H. rewrite vshll_n_u8_lanes by exact Ha.
  assert (D : forall x, ~ (0 <= k <= 31) -> shll_lane c k x = Err (EUB BadShift)).
  { intros x N. unfold shll_lane. rewrite shift_left_bad by (cbn [width]; lia). reflexivity. }
  assert (Either : forall x, (exists z, shll_lane c k x = Ok z) \/ shll_lane c k x = Err (EUB BadShift)).
  { intros x. unfold shll_lane, shift_left. destruct (_ && _); [|now right]. destruct (is_signed I32); [destruct (wrapv c)|]; cbn [bind]; eauto.
    destruct (_ && _); cbn [bind]; eauto. }
  rewrite (mapM_err_some _ (EUB BadShift)); [reflexivity|auto|].
  destruct H as [N|[Hc H]].
  - destruct Ha as [L _]. destruct a as [|x a]; [discriminate|]. exists x. split; [now left|auto].
  - apply Exists_exists in H. destruct H as (x & Hx & H). exists x. split; [exact Hx|].
    unfold shll_lane, shift_left. cbn [is_signed width modulus]. rewrite Hc.
    destruct ((0 <=? k) && (k <? 32)); [|reflexivity]. change 4294967296 with (2 ^ 32).
    destruct (Z.ltb_spec (x * 2 ^ k) (2 ^ 32)); [lia|]. rewrite andb_false_r. reflexivity.
Qed.

(** The result of a 64-bit saturating subtraction, when there is one. *)
Lemma vec_inj t a b : vec t a = vec t b -> a = b.
Proof.
  unfold vec. intros H. injection H as H. revert b H. induction a as [|x a IH]; intros [|y b] H; cbn in H; try discriminate; [reflexivity|].
  injection H as H1 H2. subst. f_equal. now apply IH.
Qed.

Lemma vqsub64_near f t n c m a b m' r : In (f, t, n) vqsub64_table -> lanes t n a -> lanes t n b ->
  run c m f [vec t a; vec t b] = Returns m' (Some (vec t r)) ->
  m' = m /\ List.length r = n /\
  forall i x y z, nth_error a i = Some x -> nth_error b i = Some y -> nth_error r i = Some z ->
    Z.abs (z - sat t (x - y)) <= 4096.
Proof.
  intros H Ha Hb Hr. assert (Ht : is64 t) by (cbn in H; unfold is64; intuition congruence).
  assert (D : all_lanes (fun x y => double_diff x y <> IZR (hi t + 1)) a b).
  { intros i x y Hx Hy E. rewrite (vqsub64_cast f t n c m a b H Ha Hb) in Hr; [discriminate|]. exists i, x, y. auto. }
  rewrite (vqsub64_value f t n c m a b H Ha Hb D) in Hr.
  assert (Hm : m' = m) by congruence.
  assert (E : vec t (map2 (fun x y => sat t (Ztrunc (double_diff x y))) a b) = vec t r) by congruence.
  apply vec_inj in E. subst r. split; [exact Hm|]. split.
  - rewrite map2_length. destruct Ha as [-> _], Hb as [-> _]. apply Nat.min_id.
  - intros i x y z Hx Hy Hz. rewrite (map2_nth _ _ _ _ _ _ Hx Hy) in Hz. injection Hz as <-.
    apply vqsub64_close; trivial; [exact (lanes_nth _ _ _ _ _ Ha Hx)|exact (lanes_nth _ _ _ _ _ Hb Hy)].
Qed.
