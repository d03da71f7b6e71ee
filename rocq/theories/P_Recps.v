(** Reciprocal step: the product is rounded to float, 2 minus it is computed in
    double and rounded to float; the second rounding is harmless. *)
From Coq Require Import ZArith String List Bool Lia Reals Lra.
From Flocq Require Import Core Double_rounding.
From Coq Require Import SpecFloat.
From Verif Require Import Types FloatBits FloatSpec FloatR Syntax Interp ProgRecip ExecLemmas Lane Spec Ew Sym Tables.
From Verif Require Import ProgShift P_AddSub P_SubMore P_Shift P_Float.
Import ListNotations.
Open Scope Z_scope.

Definition to_double (c : cfg) (p : Z) : Z := encode F64 (nan_of c FCvt F64 p p) (sf_cvt F64 (decode F32 p)).
Definition to_single (c : cfg) (q : Z) : Z := encode F32 (nan_of c FCvt F32 q q) (sf_cvt F32 (decode F64 q)).
Definition two : Z := 4611686018427387904.

Definition recps2 (c : cfg) (p : Z) : Z := to_single c (fop2 c FSub F64 (fsub F64) two (to_double c p)).

Lemma vrecpsq_f32_run c m a b : lanes F32 4 a -> lanes F32 4 b ->
  run c m vrecpsq_f32 [vec F32 a; vec F32 b]
  = Returns m (Some (vec F32 (map (recps2 c) (map2 (fop2 c FMul F32 (fmul F32)) a b)))).
Proof.
  intros Ha Hb.
  replace (map (recps2 c) (map2 (fop2 c FMul F32 (fmul F32)) a b))
    with (map2 (fun x y => recps2 c (fop2 c FMul F32 (fmul F32) x y)) a b).
  2:{ clear. revert b. induction a as [|x a IH]; intros [|y b]; cbn; trivial. now rewrite IH. }
  rewrite <- (ok_all2 m _ (fun x y => Ok (recps2 c (fop2 c FMul F32 (fmul F32) x y))) _ _ _ _ a b Ha Hb) by reflexivity.
  entry2 x y Hx Hy; sx0; reflexivity.
Qed.

Lemma f32 : fty F32. Proof. now left. Qed.
Lemma f64 : fty F64. Proof. now right. Qed.
#[local] Hint Resolve f32 f64 : core.

Lemma fval_format t z : fty t -> in_range t z -> ffin t z -> generic_format radix2 (FLT_exp (min_exp t) (precision t)) (fval t z).
Proof.
  intros Ht Hz Hf. destruct (decode_denotes t z Ht Hz) as (b & _ & D). destruct (denotes_fin _ _ _ D Hf) as (F & V & _).
  rewrite <- V. pose proof (BinarySingleNaN.generic_format_B2R _ _ b) as G. destruct Ht as [-> | ->]; exact G.
Qed.

#[local] Instance prec24 : Prec_gt_0 24. Proof. reflexivity. Qed.
#[local] Instance prec53 : Prec_gt_0 53. Proof. reflexivity. Qed.

Lemma format_widen v : generic_format radix2 (FLT_exp (-149) 24) v -> generic_format radix2 (FLT_exp (-1074) 53) v.
Proof.
  intros G. apply FLT_format_generic in G; [|exact prec24]. destruct G as [f H1 H2 H3].
  apply generic_format_FLT. exists f; [exact H1| |].
  - eapply Z.lt_trans; [exact H2|]. reflexivity.
  - eapply Z.le_trans; [|exact H3]. discriminate.
Qed.

Lemma to_double_range c p : in_range F64 (to_double c p).
Proof. now apply cvt_range. Qed.

Lemma fval_bound t z : fty t -> in_range t z -> ffin t z -> (Rabs (fval t z) < bpow radix2 (max_exp t))%R.
Proof.
  intros Ht Hz Hf. destruct (decode_denotes t z Ht Hz) as (b & _ & D). destruct (denotes_fin _ _ _ D Hf) as (F & V & _).
  rewrite <- V. pose proof (BinarySingleNaN.abs_B2R_lt_emax _ _ b) as G. destruct Ht as [-> | ->]; exact G.
Qed.

(** The conversion to double is exact. *)
Lemma to_double_fin c p : in_range F32 p -> ffin F32 p ->
  ffin F64 (to_double c p) /\ fval F64 (to_double c p) = fval F32 p /\ sign_bit F64 (to_double c p) = sign_bit F32 p.
Proof.
  intros Hp Hf. pose proof (cvt_rounded F32 F64 (nan_of c FCvt F64 p p) p f32 f64 Hp Hf) as H.
  fold (to_double c p) in H. unfold rounded in H.
  assert (E : rnd F64 (fval F32 p) = fval F32 p).
  { apply round_generic; [apply valid_rnd_N|]. apply format_widen. now apply (fval_format F32). }
  rewrite E in H. rewrite Rlt_bool_true in H; [exact H|].
  eapply Rlt_trans; [now apply fval_bound|]. apply bpow_lt. reflexivity.
Qed.

Lemma to_double_nan c p : in_range F32 p -> fnan F32 p -> fnan F64 (to_double c p).
Proof.
  intros Hp N. destruct (decode_denotes F32 p f32 Hp) as (b & E & D). rewrite (denotes_nan _ _ _ D N) in E.
  unfold to_double. rewrite E. cbn [BinarySingleNaN.B2SF sf_cvt].
  apply denotes_nan_inv. exact (proj1 (encode_denotes F64 _ BinarySingleNaN.B754_nan f64)).
Qed.

Lemma to_double_inf c p : in_range F32 p -> finf F32 p -> to_double c p = infinity F64 (sign_bit F32 p).
Proof.
  intros Hp N. destruct (decode_denotes F32 p f32 Hp) as (b & E & D). rewrite (denotes_inf _ _ _ D N) in E.
  unfold to_double. rewrite E. cbn [BinarySingleNaN.B2SF sf_cvt].
  apply denotes_inf_inv. exact (proj1 (encode_denotes F64 _ (BinarySingleNaN.B754_infinity _) f64)).
Qed.

Lemma to_single_nan c q : in_range F64 q -> fnan F64 q -> fnan F32 (to_single c q).
Proof.
  intros Hp N. destruct (decode_denotes F64 q f64 Hp) as (b & E & D). rewrite (denotes_nan _ _ _ D N) in E.
  unfold to_single. rewrite E. cbn [BinarySingleNaN.B2SF sf_cvt].
  apply denotes_nan_inv. exact (proj1 (encode_denotes F32 _ BinarySingleNaN.B754_nan f32)).
Qed.

Lemma to_single_inf c q : in_range F64 q -> finf F64 q -> to_single c q = infinity F32 (sign_bit F64 q).
Proof.
  intros Hp N. destruct (decode_denotes F64 q f64 Hp) as (b & E & D). rewrite (denotes_inf _ _ _ D N) in E.
  unfold to_single. rewrite E. cbn [BinarySingleNaN.B2SF sf_cvt].
  apply denotes_inf_inv. exact (proj1 (encode_denotes F32 _ (BinarySingleNaN.B754_infinity _) f32)).
Qed.

Lemma two_facts : in_range F64 two /\ ffin F64 two /\ fval F64 two = 2%R /\ sign_bit F64 two = false.
Proof.
  split; [unfold two, in_range; cbn; lia|]. split; [vm_compute; discriminate|]. split; [|reflexivity].
  unfold fval. replace (exp_field F64 two) with 1024 by reflexivity. replace (frac_field F64 two) with 0 by reflexivity.
  replace (sign_bit F64 two) with false by reflexivity. cbn [Z.eqb precision min_exp].
  change (0 + 2 ^ (53 - 1)) with (2 ^ 52). replace (1024 - 1 + -1074) with (-51) by lia.
  change (IZR (2 ^ 52)) with (IZR (Zpower radix2 52)). rewrite IZR_Zpower by lia.
  rewrite Rmult_1_l, <- bpow_plus. reflexivity.
Qed.

Lemma two_format : generic_format radix2 (FLT_exp (-149) 24) 2.
Proof.
  change 2%R with (bpow radix2 1). apply generic_format_bpow. vm_compute. discriminate.
Qed.

Lemma recps2_spec c p : in_range F32 p -> two_minus F32 p (recps2 c p).
Proof.
  intros Hp. destruct two_facts as (T1 & T2 & T3 & T4). unfold recps2.
  pose proof (fsub_ieee F64 (nan_of c FSub F64 two (to_double c p)) two (to_double c p) f64 T1 (to_double_range c p)) as S.
  pose proof (fsub_range F64 (nan_of c FSub F64 two (to_double c p)) two (to_double c p) f64 T1 (to_double_range c p)) as R.
  fold (fop2 c FSub F64 (fsub F64) two (to_double c p)) in S, R.
  set (q := fop2 c FSub F64 (fsub F64) two (to_double c p)) in *. clearbody q.
  destruct S as (S1 & _ & _ & S4 & S5). split; [|split].
  - intros N. apply to_single_nan; [exact R|]. apply S1. right. now apply to_double_nan.
  - intros I. assert (Iq : finf F64 (to_double c p)).
    { rewrite to_double_inf by assumption. now apply infinity_class. }
    specialize (S4 T2 Iq). rewrite (to_double_inf c p Hp I) in S4.
    replace (sign_bit F64 (infinity F64 (sign_bit F32 p))) with (sign_bit F32 p) in S4
      by (symmetry; now apply infinity_class).
    rewrite to_single_inf; [|exact R|rewrite S4; now apply infinity_class].
    rewrite S4. f_equal. now apply infinity_class.
  - intros F. destruct (to_double_fin c p Hp F) as (D1 & D2 & D3). specialize (S5 T2 D1).
    rewrite T3, T4, D2 in S5. cbn [andb] in S5. unfold rounded in S5.
    assert (B : (Rabs (rnd F64 (2 - fval F32 p)) < bpow radix2 (max_exp F64))%R).
    { apply Rle_lt_trans with (bpow radix2 129); [|now apply bpow_lt].
      unfold rnd. cbn [min_exp precision].
      apply abs_round_le_generic; [now apply FLT_exp_valid|apply valid_rnd_N|apply generic_format_bpow; vm_compute; discriminate|].
      apply Rle_trans with (2 + Rabs (fval F32 p))%R.
      { eapply Rle_trans; [apply Rabs_triang|]. rewrite Rabs_Ropp, (Rabs_pos_eq 2) by lra. lra. }
      pose proof (fval_bound F32 p f32 Hp F) as Bp. cbn [max_exp] in Bp.
      change (bpow radix2 129) with (bpow radix2 (1 + 128)). rewrite bpow_plus.
      assert (2 <= bpow radix2 128)%R by (change 2%R with (bpow radix2 1); apply bpow_le; discriminate).
      change (bpow radix2 1) with 2%R. lra. }
    rewrite (Rlt_bool_true _ _ B) in S5. destruct S5 as (Q1 & Q2 & Q3).
    pose proof (cvt_rounded F64 F32 (nan_of c FCvt F32 q q) q f64 f32 R Q1) as H. fold (to_single c q) in H.
    rewrite Q2, Q3 in H.
    unfold rounded in *. replace (rnd F32 (rnd F64 (2 - fval F32 p))) with (rnd F32 (2 - fval F32 p)) in H; [exact H|].
    symmetry. apply (round_round_minus_FLT radix2 (-149) 24 (-1074) 53); [lia|lia| |].
    + apply FLT_format_generic; [exact prec24|exact two_format].
    + apply FLT_format_generic; [exact prec24|]. now apply (fval_format F32).
Qed.

Theorem vrecpsq_f32_exact c m a b : lanes F32 4 a -> lanes F32 4 b ->
  exists p r, run c m vrecpsq_f32 [vec F32 a; vec F32 b] = Returns m (Some (vec F32 r)) /\
    lanes F32 4 p /\ all_lanes3 (ieee_mul F32) a b p /\
    lanes F32 4 r /\ all_lanes (two_minus F32) p r.
Proof.
  intros Ha Hb. assert (Hp : lanes F32 4 (map2 (fop2 c FMul F32 (fmul F32)) a b)).
  { eapply map2_lanes; eauto. intros. now apply fmul_range. }
  exists (map2 (fop2 c FMul F32 (fmul F32)) a b), (map (recps2 c) (map2 (fop2 c FMul F32 (fmul F32)) a b)).
  split; [now apply vrecpsq_f32_run|]. split; [exact Hp|]. split.
  { eapply map2_all3; eauto. intros. now apply fmul_ieee. }
  split.
  - eapply map_lanes; eauto. intros x _. now apply cvt_range.
  - eapply map_all; eauto. intros. now apply recps2_spec.
Qed.
