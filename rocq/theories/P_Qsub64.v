(** Saturating subtraction of 64-bit lanes, which the code computes in double. *)
From Coq Require Import ZArith String List Bool Lia Reals Lra.
From Flocq Require Import Core.
From Coq Require Import SpecFloat.
From Verif Require Import Types FloatBits FloatSpec FloatR Syntax Interp ProgRecip ExecLemmas Lane Spec Ew Sym Tables.
From Verif Require Import ProgSub P_AddSub P_SubMore P_Shift P_Float P_Recps.
Import ListNotations.
Open Scope Z_scope.

Definition dbl (z : Z) : Z := encode F64 0 (sf_of_Z F64 z).
Definition dsub (c : cfg) (x y : Z) : Z := fop2 c FSub F64 (fsub F64) (dbl x) (dbl y).
Definition to_int64 (t : sty) (z : Z) : res Z :=
  match sf_trunc (decode F64 z) with
  | Some i => if in_rangeb t i then Ok i else Err (EUB FloatCast)
  | None => Err (EUB FloatCast)
  end.
Definition qsub64 (c : cfg) (t : sty) (x y : Z) : res Z :=
  if compare_float BGt (decode F64 (dsub c x y)) (decode F64 (dbl (hi t))) then Ok (hi t)
  else if compare_float BLt (decode F64 (dsub c x y)) (decode F64 (dbl (lo t))) then Ok (lo t)
  else to_int64 t (dsub c x y).

Lemma vqsub64_run f t n c m a b : In (f, t, n) vqsub64_table -> lanes t n a -> lanes t n b ->
  run c m f [vec t a; vec t b] = vec_outcome m t (mapM2 (qsub64 c t) a b).
Proof.
  intros H Ha Hb. cbn [In vqsub64_table] in H.
  each_entry H ltac:(entry2 x y Hx Hy; unfold qsub64, to_int64, dsub, dbl, fop2; sx0;
    repeat (match goal with |- context [compare_float ?o ?a ?b] => destruct (compare_float o a b) end; sx);
    try reflexivity;
    match goal with |- context [sf_trunc ?z] => destruct (sf_trunc z) as [i|] end; sx; [|reflexivity];
    match goal with |- context [in_rangeb ?t ?i] => destruct (in_rangeb t i) end; sx; reflexivity).
Qed.

(** ** In terms of real numbers *)

Lemma rnd_bound v e : (-1074 < e)%Z -> (Rabs v <= bpow radix2 e)%R -> (Rabs (rnd F64 v) <= bpow radix2 e)%R.
Proof.
  intros He Hv. unfold rnd. cbn [min_exp precision].
  apply abs_round_le_generic; [now apply FLT_exp_valid|apply valid_rnd_N| |exact Hv].
  apply generic_format_bpow. unfold FLT_exp. lia.
Qed.

Lemma dbl_spec z : - 2 ^ 64 <= z <= 2 ^ 64 ->
  in_range F64 (dbl z) /\ ffin F64 (dbl z) /\ fval F64 (dbl z) = rnd F64 (IZR z) /\ (Rabs (rnd F64 (IZR z)) <= bpow radix2 64)%R.
Proof.
  intros Hz. split; [apply of_Z_range; now right|].
  assert (B : (Rabs (rnd F64 (IZR z)) <= bpow radix2 64)%R).
  { apply rnd_bound; [reflexivity|]. rewrite <- abs_IZR. rewrite <- (IZR_Zpower radix2 64) by lia.
    apply IZR_le. change (Zpower radix2 64) with (2 ^ 64). lia. }
  pose proof (of_Z_rounded F64 0 z (or_intror eq_refl)) as H. fold (dbl z) in H. unfold rounded in H.
  rewrite Rlt_bool_true in H; [tauto|]. eapply Rle_lt_trans; [exact B|]. now apply bpow_lt.
Qed.

Lemma dsub_spec c x y : - 2 ^ 64 <= x <= 2 ^ 64 -> - 2 ^ 64 <= y <= 2 ^ 64 ->
  in_range F64 (dsub c x y) /\ ffin F64 (dsub c x y) /\ fval F64 (dsub c x y) = double_diff x y.
Proof.
  intros Hx Hy. destruct (dbl_spec x Hx) as (R1 & F1 & V1 & B1). destruct (dbl_spec y Hy) as (R2 & F2 & V2 & B2).
  pose proof (fsub_range F64 (nan_of c FSub F64 (dbl x) (dbl y)) _ _ (or_intror eq_refl) R1 R2) as R.
  pose proof (fsub_ieee F64 (nan_of c FSub F64 (dbl x) (dbl y)) _ _ (or_intror eq_refl) R1 R2) as S.
  fold (fop2 c FSub F64 (fsub F64) (dbl x) (dbl y)) in R, S. fold (dsub c x y) in R, S.
  split; [exact R|]. destruct S as (_ & _ & _ & _ & S). specialize (S F1 F2). rewrite V1, V2 in S. fold (double_diff x y) in S.
  unfold rounded in S. fold (double_diff x y) in S. rewrite Rlt_bool_true in S; [tauto|].
  apply Rle_lt_trans with (bpow radix2 65); [|now apply bpow_lt]. apply rnd_bound; [reflexivity|].
  change 65%Z with (1 + 64)%Z. rewrite bpow_plus. change (bpow radix2 1) with 2%R.
  eapply Rle_trans; [apply Rabs_triang|]. rewrite Rabs_Ropp. lra.
Qed.

Lemma flt_fin t x y : fty t -> ffin t x -> ffin t y -> flt t x y <-> (fval t x < fval t y)%R.
Proof.
  intros Ht Fx Fy. unfold flt. split; [|auto].
  intros [(_ & _ & H)|[(-> & _)|(-> & _)]]; [exact H| |]; exfalso; eapply infinity_not_fin; eauto.
Qed.

Lemma ltb_val x y : in_range F64 x -> in_range F64 y -> ffin F64 x -> ffin F64 y ->
  SFltb (decode F64 x) (decode F64 y) = Rlt_bool (fval F64 x) (fval F64 y).
Proof.
  intros Hx Hy Fx Fy. pose proof (ltb_flt F64 x y (or_intror eq_refl) Hx Hy) as H.
  rewrite (flt_fin F64 x y (or_intror eq_refl) Fx Fy) in H.
  destruct (Rlt_bool_spec (fval F64 x) (fval F64 y)) as [L|L].
  - now apply H.
  - destruct (SFltb _ _); [|reflexivity]. exfalso. assert (fval F64 x < fval F64 y)%R by now apply H. lra.
Qed.

Definition is64 (t : sty) : Prop := t = I64 \/ t = U64.

Lemma dbl_bounds t : is64 t -> fval F64 (dbl (hi t)) = IZR (hi t + 1) /\ fval F64 (dbl (lo t)) = IZR (lo t).
Proof.
  assert (P : forall z k e, dbl z = k -> exp_field F64 k = e + 1075 -> frac_field F64 k = 0 -> sign_bit F64 k = false ->
      -1074 <= e -> fval F64 (dbl z) = bpow radix2 (e + 52)).
  { intros z k e -> E1 E2 E3 He. unfold fval. rewrite E1, E2, E3. destruct (Z.eqb_spec (e + 1075) 0); [lia|].
    cbn [precision min_exp]. rewrite Rmult_1_l, Z.add_0_l. change (2 ^ (53 - 1)) with (Zpower radix2 52).
    rewrite IZR_Zpower, <- bpow_plus by lia. f_equal. lia. }
  intros [-> | ->]; split.
  - rewrite (P (hi I64) 4890909195324358656 11) by (vm_compute; first [reflexivity | discriminate]).
    rewrite <- (IZR_Zpower radix2 (11 + 52)) by lia. reflexivity.
  - unfold fval. change (dbl (lo I64)) with 14114281232179134464.
    replace (exp_field F64 14114281232179134464) with 1086 by reflexivity.
    replace (frac_field F64 14114281232179134464) with 0 by reflexivity.
    replace (sign_bit F64 14114281232179134464) with true by reflexivity. cbn [Z.eqb precision min_exp].
    change (0 + 2 ^ (53 - 1)) with (Zpower radix2 52). rewrite IZR_Zpower by lia.
    rewrite Rmult_assoc, <- bpow_plus. change (52 + (1086 - 1 + -1074)) with 63.
    rewrite <- (IZR_Zpower radix2 63) by lia. rewrite <- mult_IZR. reflexivity.
  - rewrite (P (hi U64) 4895412794951729152 12) by (vm_compute; first [reflexivity | discriminate]).
    rewrite <- (IZR_Zpower radix2 (12 + 52)) by lia. reflexivity.
  - exact (proj2 (fzero_class F64 false (or_intror eq_refl))).
Qed.

Lemma qsub64_value c t x y : is64 t -> in_range t x -> in_range t y ->
  qsub64 c t x y =
    let v := double_diff x y in
    if Rlt_bool (IZR (hi t + 1)) v then Ok (hi t)
    else if Rlt_bool v (IZR (lo t)) then Ok (lo t)
    else if Rlt_bool v (IZR (hi t + 1)) then Ok (Ztrunc v)
    else Err (EUB FloatCast).
Proof.
  intros Ht Hx Hy. assert (B : - 2 ^ 64 <= lo t /\ hi t <= 2 ^ 64 /\ lo t <= 0 <= hi t) by (destruct Ht as [-> | ->]; cbn; lia).
  unfold in_range in Hx, Hy.
  destruct (dsub_spec c x y ltac:(lia) ltac:(lia)) as (R & F & V).
  destruct (dbl_spec (hi t) ltac:(lia)) as (Rh & Fh & _). destruct (dbl_spec (lo t) ltac:(lia)) as (Rl & Fl & _).
  destruct (dbl_bounds t Ht) as [Vh Vl].
  unfold qsub64. cbn [compare_float]. rewrite !ltb_val by assumption. rewrite V, Vh, Vl. cbv zeta.
  destruct (Rlt_bool_spec (IZR (hi t + 1)) (double_diff x y)) as [L1|L1]; [reflexivity|].
  destruct (Rlt_bool_spec (double_diff x y) (IZR (lo t))) as [L2|L2]; [reflexivity|].
  unfold to_int64. rewrite (trunc_spec F64 _ (or_intror eq_refl) R). rewrite V.
  destruct (Z.eq_dec _ _) as [E|_]; [contradiction|].
  destruct (Rlt_bool_spec (double_diff x y) (IZR (hi t + 1))) as [L3|L3].
  - replace (in_rangeb t (Ztrunc (double_diff x y))) with true; [reflexivity|]. symmetry. apply in_rangeb_spec. split.
    + rewrite <- (Ztrunc_IZR (lo t)). now apply Ztrunc_le.
    + destruct (Rle_or_lt 0 (double_diff x y)) as [P|P].
      * rewrite Ztrunc_floor by exact P. pose proof (Zfloor_lb (double_diff x y)) as Q.
        assert (IZR (Zfloor (double_diff x y)) < IZR (hi t + 1))%R by lra. apply lt_IZR in H. lia.
      * rewrite Ztrunc_ceil by lra. assert (Zceil (double_diff x y) <= 0) by (apply Zceil_glb; cbn; lra). lia.
  - replace (double_diff x y) with (IZR (hi t + 1)) by lra. rewrite Ztrunc_IZR.
    replace (in_rangeb t (hi t + 1)) with false; [reflexivity|].
    symmetry. destruct (in_rangeb t (hi t + 1)) eqn:E; [|reflexivity]. apply in_rangeb_spec in E. unfold in_range in E. lia.
Qed.

Lemma rnd_small z : - 2 ^ 53 <= z <= 2 ^ 53 -> rnd F64 (IZR z) = IZR z.
Proof.
  intros Hz. apply round_generic; [apply valid_rnd_N|]. cbn [min_exp precision].
  destruct (Z.eq_dec (Z.abs z) (2 ^ 53)) as [E|E].
  - assert (z = 2 ^ 53 \/ z = - 2 ^ 53) as [-> | ->] by lia.
    + change (2 ^ 53) with (Zpower radix2 53). rewrite IZR_Zpower by lia. apply generic_format_bpow. discriminate.
    + change (2 ^ 53) with (Zpower radix2 53). rewrite opp_IZR, IZR_Zpower by lia. apply generic_format_opp, generic_format_bpow. discriminate.
  - apply generic_format_FLT. exists (Float radix2 z 0); [unfold F2R; cbn; ring| |discriminate].
    cbn. change (Z.pow_pos 2 53) with (2 ^ 53). lia.
Qed.

Lemma double_diff_small x y : - 2 ^ 53 <= x <= 2 ^ 53 -> - 2 ^ 53 <= y <= 2 ^ 53 -> - 2 ^ 53 <= x - y <= 2 ^ 53 ->
  double_diff x y = IZR (x - y).
Proof. intros Hx Hy Hd. unfold double_diff. rewrite !rnd_small, <- minus_IZR, rnd_small by assumption. reflexivity. Qed.

(** Exact (and saturated) as long as the operands and the difference are at most
    2^53 in absolute value. *)
Theorem vqsub64_exact f t n c m a b : In (f, t, n) vqsub64_table -> lanes t n a -> lanes t n b ->
  Forall (fun x => - 2 ^ 53 <= x <= 2 ^ 53) a -> Forall (fun x => - 2 ^ 53 <= x <= 2 ^ 53) b ->
  all_lanes (fun x y => - 2 ^ 53 <= x - y <= 2 ^ 53) a b ->
  run c m f [vec t a; vec t b] = Returns m (Some (vec t (map2 (fun x y => sat t (x - y)) a b))).
Proof.
  intros H Ha Hb Fa Fb Fd. assert (Ht : is64 t) by (cbn in H; unfold is64; intuition congruence).
  rewrite (vqsub64_run f t n c m a b H Ha Hb), <- vec_outcome_ok. f_equal.
  apply mapM2_ok. intros i x y Ex Ey.
  pose proof (lanes_nth t n a i x Ha Ex) as Rx. pose proof (lanes_nth t n b i y Hb Ey) as Ry.
  specialize (Fd i x y Ex Ey). cbv beta in Fd. rewrite Forall_forall in Fa, Fb.
  pose proof (Fa x (nth_error_In _ _ Ex)) as Bx. pose proof (Fb y (nth_error_In _ _ Ey)) as By.
  rewrite (qsub64_value c t x y Ht Rx Ry), (double_diff_small x y Bx By Fd). cbv zeta.
  assert (B : lo t <= 0 /\ 2 ^ 53 <= hi t) by (destruct Ht as [-> | ->]; cbn; lia).
  rewrite (Rlt_bool_false (IZR (hi t + 1)) (IZR (x - y))) by (apply IZR_le; lia). rewrite Ztrunc_IZR.
  rewrite (Rlt_bool_true (IZR (x - y)) (IZR (hi t + 1))) by (apply IZR_lt; lia).
  unfold sat. destruct (Rlt_bool_spec (IZR (x - y)) (IZR (lo t))) as [L|L].
  - apply lt_IZR in L. f_equal. lia.
  - apply le_IZR in L. f_equal. lia.
Qed.
