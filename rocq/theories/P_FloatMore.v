(** Consequences of the floating-point results, in terms of what the hardware does. *)
From Coq Require Import ZArith String List Bool Lia Reals Lra.
From Flocq Require Import Core IEEE754.BinarySingleNaN.
From Verif Require Import Types FloatBits FloatSpec FloatR Syntax Interp ProgRecip ExecLemmas Lane Spec Ew Sym Tables.
From Verif Require Import ProgAdd ProgMul ProgShift ProgPerm P_AddSub P_Float P_Recip P_Recps.
Import ListNotations.
Open Scope Z_scope.

Lemma all_lanes3_impl {A B C} (P Q : A -> B -> C -> Prop) (RA : A -> Prop) (RB : B -> Prop) (RC : C -> Prop) a b d :
  Forall RA a -> Forall RB b -> Forall RC d ->
  (forall x y z, RA x -> RB y -> RC z -> P x y z -> Q x y z) -> all_lanes3 P a b d -> all_lanes3 Q a b d.
Proof.
  rewrite !Forall_forall. intros Fa Fb Fd H HP i x y z Hx Hy Hz.
  apply H; eauto using nth_error_In.
Qed.

Lemma all_lanes_impl {A B} (P Q : A -> B -> Prop) (RA : A -> Prop) (RB : B -> Prop) a b :
  Forall RA a -> Forall RB b ->
  (forall x y, RA x -> RB y -> P x y -> Q x y) -> all_lanes P a b -> all_lanes Q a b.
Proof.
  rewrite !Forall_forall. intros Fa Fb H HP i x y Hx Hy. apply H; eauto using nth_error_In.
Qed.

Theorem vmaxq_f32_ieee c m a b : lanes F32 4 a -> lanes F32 4 b ->
  exists r, run c m vmaxq_f32 [vec F32 a; vec F32 b] = Returns m (Some (vec F32 r)) /\ lanes F32 4 r /\
    all_lanes3 (fun x y z => ieee_max F32 x y z <->
      (fnan F32 x -> fnan F32 y) /\ ~ (x = fzero F32 false /\ y = fzero F32 true)) a b r.
Proof.
  intros Ha Hb. destruct (vmaxq_f32_exact c m a b Ha Hb) as (r & E & L & P). exists r. split; [exact E|]. split; [exact L|].
  destruct Ha as [_ Fa], Hb as [_ Fb], L as [_ Fr]. eapply all_lanes3_impl; [exact Fa|exact Fb|exact Fr| |exact P].
  intros x y z Hx Hy _ G. apply greater_is_max; trivial. now left.
Qed.

Theorem vminq_f32_ieee c m a b : lanes F32 4 a -> lanes F32 4 b ->
  exists r, run c m vminq_f32 [vec F32 a; vec F32 b] = Returns m (Some (vec F32 r)) /\ lanes F32 4 r /\
    all_lanes3 (fun x y z => ieee_min F32 x y z <->
      (fnan F32 x -> fnan F32 y) /\ ~ (x = fzero F32 true /\ y = fzero F32 false)) a b r.
Proof.
  intros Ha Hb. destruct (vminq_f32_exact c m a b Ha Hb) as (r & E & L & P). exists r. split; [exact E|]. split; [exact L|].
  destruct Ha as [_ Fa], Hb as [_ Fb], L as [_ Fr]. eapply all_lanes3_impl; [exact Fa|exact Fb|exact Fr| |exact P].
  intros x y z Hx Hy _ G. apply less_is_min; trivial. now left.
Qed.

Theorem vpmax_f32_ieee c m x0 x1 y0 y1 :
  in_range F32 x0 -> in_range F32 x1 -> in_range F32 y0 -> in_range F32 y1 ->
  exists r0 r1, run c m vpmax_f32 [vec F32 [x0; x1]; vec F32 [y0; y1]] = Returns m (Some (vec F32 [r0; r1])) /\
    (ieee_max F32 x0 x1 r0 <-> (fnan F32 x0 -> fnan F32 x1) /\ ~ (x0 = fzero F32 false /\ x1 = fzero F32 true)) /\
    (ieee_max F32 y0 y1 r1 <-> (fnan F32 y0 -> fnan F32 y1) /\ ~ (y0 = fzero F32 false /\ y1 = fzero F32 true)).
Proof.
  intros H0 H1 H2 H3. destruct (vpmax_f32_exact c m x0 x1 y0 y1 H0 H1 H2 H3) as (r0 & r1 & E & G0 & G1).
  exists r0, r1. split; [exact E|]. split; apply greater_is_max; trivial; now left.
Qed.

Theorem vpmin_f32_ieee c m x0 x1 y0 y1 :
  in_range F32 x0 -> in_range F32 x1 -> in_range F32 y0 -> in_range F32 y1 ->
  exists r0 r1, run c m vpmin_f32 [vec F32 [x0; x1]; vec F32 [y0; y1]] = Returns m (Some (vec F32 [r0; r1])) /\
    (ieee_min F32 x0 x1 r0 <-> (fnan F32 x0 -> fnan F32 x1) /\ ~ (x0 = fzero F32 true /\ x1 = fzero F32 false)) /\
    (ieee_min F32 y0 y1 r1 <-> (fnan F32 y0 -> fnan F32 y1) /\ ~ (y0 = fzero F32 true /\ y1 = fzero F32 false)).
Proof.
  intros H0 H1 H2 H3. destruct (vpmin_f32_exact c m x0 x1 y0 y1 H0 H1 H2 H3) as (r0 & r1 & E & G0 & G1).
  exists r0, r1. split; [exact E|]. split; apply less_is_min; trivial; now left.
Qed.

(** ** The reciprocal step *)

Lemma two_step_fused x y p r : in_range F32 x -> in_range F32 y ->
  ieee_mul F32 x y p -> two_minus F32 p r ->
  (ffin F32 x -> ffin F32 y -> exact_product F32 x y) ->
  (finf F32 x -> ffin F32 y -> fval F32 y <> 0%R) ->
  (ffin F32 x -> finf F32 y -> fval F32 x <> 0%R) ->
  fused_two_minus F32 x y r.
Proof.
  intros Hx Hy (M1 & M2 & M3 & M4 & M5) (T1 & T2 & T3) Ex Zy Zx. unfold fused_two_minus.
  assert (I : forall s, p = infinity F32 s -> r = infinity F32 (negb s)).
  { intros s ->. destruct (infinity_class F32 s (or_introl eq_refl)) as [I1 I2]. rewrite (T2 I1), I2. reflexivity. }
  split; [intros N; auto|]. split; [intros Ix Iy; auto|]. split.
  { intros Ix Fy. specialize (M3 Ix Fy). destruct (Req_bool_spec (fval F32 y) 0); [now destruct (Zy Ix Fy)|]. now apply I. }
  split.
  { intros Fx Iy. specialize (M4 Fx Iy). destruct (Req_bool_spec (fval F32 x) 0); [now destruct (Zx Fx Iy)|]. now apply I. }
  intros Fx Fy. specialize (M5 Fx Fy). destruct (Ex Fx Fy) as [E1 E2]. unfold rounded in M5. rewrite E1 in M5.
  destruct (Rlt_bool_spec (Rabs (fval F32 x * fval F32 y)) (bpow radix2 (max_exp F32))); [|lra].
  destruct M5 as (Fp & Vp & _). rewrite <- Vp. now apply T3.
Qed.

Theorem vrecpsq_f32_fused c m a b : lanes F32 4 a -> lanes F32 4 b ->
  exists r, run c m vrecpsq_f32 [vec F32 a; vec F32 b] = Returns m (Some (vec F32 r)) /\ lanes F32 4 r /\
    all_lanes3 (fun x y z =>
      (ffin F32 x -> ffin F32 y -> exact_product F32 x y) ->
      (finf F32 x -> ffin F32 y -> fval F32 y <> 0%R) ->
      (ffin F32 x -> finf F32 y -> fval F32 x <> 0%R) ->
      fused_two_minus F32 x y z) a b r.
Proof.
  intros Ha Hb. destruct (vrecpsq_f32_exact c m a b Ha Hb) as (p & r & E & Lp & Pp & Lr & Pr).
  exists r. split; [exact E|]. split; [exact Lr|]. intros i x y z Hx Hy Hz.
  destruct Ha as [La Fa], Hb as [Lb Fb], Lp as [Lp Fp]. rewrite Forall_forall in Fa, Fb.
  destruct (nth_error p i) as [q|] eqn:Hq.
  2:{ apply nth_error_None in Hq. assert (i < length a)%nat by (apply nth_error_Some; congruence). lia. }
  apply two_step_fused with (p := q); eauto using nth_error_In.
Qed.

(** A product that is not exact, and the product of zero and infinity. *)
Lemma rnd_fval t z : fty t -> in_range t z -> ffin t z -> rnd t (fval t z) = fval t z.
Proof.
  intros Ht Hz Fz. destruct (decode_denotes t z Ht Hz) as (b & _ & D).
  destruct (denotes_fin t z b D Fz) as (_ & V & _).
  rewrite rnd_eq by exact Ht. rewrite <- V. apply round_generic; [typeclasses eauto|]. apply BinarySingleNaN.generic_format_B2R.
Qed.

(** ** The reciprocal estimate *)

Definition nearest_ok (k : Z) : bool :=
  (- (2 * k + 1) <? 2 * (2 * k + 1) * estimate k - 2 ^ 19) && (2 * (2 * k + 1) * estimate k - 2 ^ 19 <? 2 * k + 1).
Lemma nearest_all : forallb nearest_ok (map Z.of_nat (seq 256 256)) = true.
Proof. vm_compute. reflexivity. Qed.
Lemma estimate_nearest k : 256 <= k <= 511 -> recip_estimate k (estimate k).
Proof.
  intros Hk. pose proof (proj1 (forallb_forall _ _) nearest_all k) as H.
  unfold nearest_ok in H. rewrite andb_true_iff, !Z.ltb_lt in H. apply H.
  apply in_map_iff. exists (Z.to_nat k). split; [lia|]. apply in_seq. lia.
Qed.

(** The specification determines the estimate. *)
Lemma recip_estimate_unique k e e' : 0 <= k -> recip_estimate k e -> recip_estimate k e' -> e = e'.
Proof. unfold recip_estimate. intros. nia. Qed.

Theorem vrecpeq_f32_fields c m a : lanes F32 4 a ->
  exists r, run c m vrecpeq_f32 [vec F32 a] = Returns m (Some (vec F32 r)) /\ lanes F32 4 r /\
    all_lanes (fun x z => sign_bit F32 z = sign_bit F32 x /\
      exp_field F32 z = (253 - exp_field F32 x) mod 256 /\
      exists e, recip_estimate (256 + frac_field F32 x / 2 ^ 15) e /\ frac_field F32 z = (e - 256) * 2 ^ 15) a r.
Proof.
  intros Ha. exists (map recip_bits a). split; [now apply vrecpeq_f32_run|]. split.
  - eapply map_lanes; eauto. intros x _. apply recip_fields.
  - eapply map_all; eauto. intros x _. destruct (recip_fields x) as (_ & H1 & H2 & H3).
    split; [exact H1|]. split; [exact H2|]. exists (estimate (mantissa x)). split; [|exact H3].
    apply estimate_nearest, mantissa_range.
Qed.

Lemma fval_nonzero x : exp_field F32 x = 254 -> fval F32 x <> 0%R.
Proof.
  intros E. unfold fval. rewrite E. cbn [Z.eqb precision min_exp]. change (2 ^ (24 - 1)) with 8388608.
  pose proof (frac_range x). pose proof (bpow_gt_0 radix2 (254 - 1 + -149)).
  assert (0 < IZR (frac_field F32 x + 8388608))%R by (apply IZR_lt; lia).
  apply Rmult_integral_contrapositive_currified; [|lra]. apply Rmult_integral_contrapositive_currified; [|lra].
  destruct (sign_bit F32 x); lra.
Qed.

(** The special operands: zero, infinity and NaN give finite numbers, the largest
    exponent gives an infinity or a NaN. *)
Theorem vrecpeq_f32_special c m a : lanes F32 4 a ->
  exists r, run c m vrecpeq_f32 [vec F32 a] = Returns m (Some (vec F32 r)) /\ lanes F32 4 r /\
    all_lanes (fun x z => (fval F32 x = 0%R -> ffin F32 x -> ffin F32 z) /\ (finf F32 x -> ffin F32 z /\ fval F32 z <> 0%R) /\
      (fnan F32 x -> ffin F32 z) /\ (exp_field F32 x = 254 -> ~ ffin F32 z)) a r.
Proof.
  intros Ha. destruct (vrecpeq_f32_exact c m a Ha) as (r & E & L & P). exists r. split; [exact E|]. split; [exact L|].
  destruct Ha as [_ Fa], L as [_ Fr]. eapply all_lanes_impl; [exact Fa|exact Fr| |exact P].
  intros x z Hx Hz (_ & He & _). unfold finf, fnan, ffin. rewrite He. cbn [exp_bits]. change (2 ^ 8 - 1) with 255.
  assert (Ex := exp_range x).
  split; [|split; [|split]].
  - intros V N. destruct (Z.eq_dec (exp_field F32 x) 254) as [E254|].
    + now destruct (fval_nonzero x E254).
    + intros H. Z.to_euclidean_division_equations; lia.
  - intros [H _]. split; [rewrite H; discriminate|]. apply fval_nonzero. now rewrite He, H.
  - intros [H _]. rewrite H. discriminate.
  - intros H. rewrite H. cbn. lia.
Qed.
