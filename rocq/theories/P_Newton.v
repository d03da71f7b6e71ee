(** Newton-Raphson refinement of the reciprocal estimate. *)
From Coq Require Import ZArith List Reals Bool Lia Psatz.
From Flocq Require Import Core Relative.
From Verif Require Import Types FloatBits FloatSpec FloatR Syntax Interp ProgRecip ExecLemmas Lane Spec Ew Sym Tables.
From Verif Require Import Library P_Float P_Recip P_Recps P_FloatMore.
Import ListNotations.
Open Scope Z_scope.

Local Notation eta := (/ 16777216)%R.

(** A result of normal magnitude is finite and has relative error at most 2^-24. *)
Lemma rounded_normal v s r : rounded F32 v s r ->
  (bpow radix2 (-126) <= Rabs v)%R -> (Rabs v <= bpow radix2 127)%R ->
  ffin F32 r /\ exists d, (Rabs d <= eta)%R /\ fval F32 r = (v * (1 + d))%R.
Proof.
  intros H Lo Hi. unfold rounded in H.
  destruct (relative_error_N_FLT_ex radix2 (-149) 24 ltac:(reflexivity) (fun z => negb (Z.even z)) v) as (d & D1 & D2).
  { exact Lo. }
  assert (D3 : (Rabs d <= eta)%R).
  { eapply Rle_trans; [exact D1|]. change (bpow radix2 (- (24) + 1)) with (/ 8388608)%R. lra. }
  assert (E : rnd F32 v = (v * (1 + d))%R) by exact D2.
  assert (B : (Rabs (rnd F32 v) < bpow radix2 128)%R).
  { rewrite E, Rabs_mult. change (bpow radix2 128) with (IZR (2 ^ 128)).
    change (bpow radix2 127) with (IZR (2 ^ 127)) in Hi.
    assert (Rabs (1 + d) <= 1 + eta)%R.
    { eapply Rle_trans; [apply Rabs_triang|]. rewrite Rabs_R1. lra. }
    assert (0 <= Rabs v)%R by apply Rabs_pos. assert (0 <= Rabs (1 + d))%R by apply Rabs_pos.
    eapply Rle_lt_trans; [apply Rmult_le_compat; [| |exact Hi|eassumption]; assumption|].
    change (2 ^ 128) with (2 ^ 127 * 2). rewrite mult_IZR.
    assert (0 < IZR (2 ^ 127))%R by (apply IZR_lt; reflexivity). nra. }
  change (max_exp F32) with 128 in H. rewrite Rlt_bool_true in H by exact B.
  destruct H as (H1 & H2 & _). split; [exact H1|]. exists d. split; [exact D3|]. now rewrite H2.
Qed.

Lemma step_algebra a d1 d2 d3 E : (0 <= E <= / 256)%R -> (Rabs a <= E)%R ->
  (Rabs d1 <= eta)%R -> (Rabs d2 <= eta)%R -> (Rabs d3 <= eta)%R ->
  (Rabs ((1 + a) * ((2 - (1 + a) * (1 + d1)) * (1 + d2)) * (1 + d3) - 1) <= E * E + 31 / 10 * eta)%R.
Proof.
  intros HE Ha H1 H2 H3.
  set (w := (1 - a * a - (1 + a) * (1 + a) * d1)%R).
  replace ((1 + a) * ((2 - (1 + a) * (1 + d1)) * (1 + d2)) * (1 + d3) - 1)%R
    with (- (a * a) + (- ((1 + a) * (1 + a) * d1) + w * (d2 + d3 + d2 * d3)))%R by (unfold w; ring).
  assert (Aa : (a * a <= E * E)%R).
  { replace (a * a)%R with (Rabs a * Rabs a)%R.
    - apply Rmult_le_compat; try apply Rabs_pos; assumption.
    - rewrite <- Rabs_mult. apply Rabs_pos_eq. nra. }
  apply Rabs_le_inv in Ha. 
  assert (Q : (0 <= (1 + a) * (1 + a) <= 101 / 100)%R) by nra.
  assert (N : forall x y z k : R, (0 <= x <= k)%R -> (Rabs y <= z)%R -> (Rabs (x * y) <= k * z)%R).
  { intros x y z k Hx Hy. rewrite Rabs_mult, (Rabs_pos_eq x) by lra.
    apply Rmult_le_compat; try lra. apply Rabs_pos. }
  assert (B1 : (Rabs ((1 + a) * (1 + a) * d1) <= 101 / 100 * eta)%R) by (apply N; assumption).
  assert (W : (0 <= w <= 102 / 100)%R).
  { unfold w. apply Rabs_le_inv in B1. nra. }
  assert (D : (Rabs (d2 + d3 + d2 * d3) <= 201 / 100 * eta)%R).
  { assert (Rabs (d2 * d3) <= eta * eta)%R.
    { rewrite Rabs_mult. apply Rmult_le_compat; try apply Rabs_pos; assumption. }
    apply Rabs_le_inv in H2, H3, H. apply Rabs_le. lra. }
  assert (B2 : (Rabs (w * (d2 + d3 + d2 * d3)) <= 102 / 100 * (201 / 100 * eta))%R) by (apply N; assumption).
  apply Rabs_le_inv in B1, B2. apply Rabs_le. nra.
Qed.

(** One step: error E becomes at most E^2 + 3.1 * 2^-24. *)
Lemma newton_step x e p s r E :
  ffin F32 x -> ffin F32 e -> (bpow radix2 (-126) <= Rabs (fval F32 x) <= bpow radix2 125)%R ->
  (0 <= E <= / 256)%R -> (Rabs (fval F32 e * fval F32 x - 1) <= E)%R ->
  ieee_mul F32 x e p -> two_minus F32 p s -> ieee_mul F32 e s r ->
  ffin F32 r /\ (Rabs (fval F32 r * fval F32 x - 1) <= E * E + 31 / 10 * eta)%R.
Proof.
  intros Fx Fe HX HE He Mp Ms Mr.
  set (X := fval F32 x) in *. set (u := fval F32 e) in *.
  set (a := (u * X - 1)%R) in *.
  assert (Ua : (u * X = 1 + a)%R) by (unfold a; ring).
  pose proof (Rabs_le_inv _ _ He) as Ha.
  assert (bpow radix2 (-126) = / IZR (2 ^ 126))%R as B126 by reflexivity.
  assert (bpow radix2 125 = IZR (2 ^ 125))%R as B125 by reflexivity.
  assert (bpow radix2 127 = IZR (2 ^ 127))%R as B127 by reflexivity.
  assert (P125 : (1 <= IZR (2 ^ 125))%R) by (apply IZR_le; now compute).
  assert (T126 : (IZR (2 ^ 126) = 2 * IZR (2 ^ 125))%R) by (rewrite <- mult_IZR; reflexivity).
  assert (T127 : (IZR (2 ^ 127) = 4 * IZR (2 ^ 125))%R) by (rewrite <- mult_IZR; reflexivity).
  rewrite B126, B125 in HX. set (K := IZR (2 ^ 125)) in *. clearbody K.
  assert (IK : (0 < / K)%R) by (apply Rinv_0_lt_compat; lra).
  assert (IK1 : (/ K <= 1)%R) by (rewrite <- Rinv_1; apply Rinv_le; lra).
  assert (KK : (K * / K = 1)%R) by (apply Rinv_r; lra).
  assert (I126 : (/ IZR (2 ^ 126) = / 2 * / K)%R) by (rewrite T126, Rinv_mult; reflexivity).
  rewrite I126 in *.
  assert (AX : (0 < Rabs X)%R) by lra.
  assert (UX : (Rabs u * Rabs X = 1 + a)%R) by (rewrite <- Rabs_mult, Ua; apply Rabs_pos_eq; lra).
  assert (U : (99 / 100 * / K <= Rabs u <= 202 / 100 * K)%R).
  { assert (0 <= Rabs u)%R by apply Rabs_pos. split.
    - apply Rmult_le_reg_r with (Rabs X); [exact AX|]. rewrite UX.
      apply Rle_trans with (99 / 100 * / K * K)%R; [|rewrite Rmult_assoc, Rinv_l; lra].
      apply Rmult_le_compat_l; lra.
    - apply Rmult_le_reg_r with (Rabs X); [exact AX|]. rewrite UX.
      apply Rle_trans with (202 / 100 * K * (/ 2 * / K))%R; [|apply Rmult_le_compat_l; lra].
      replace (202 / 100 * K * (/ 2 * / K))%R with (101 / 100 * (K * / K))%R by (field; apply Rgt_not_eq; lra).
      rewrite KK. lra. }
  destruct Mp as (_ & _ & _ & _ & Mp). specialize (Mp Fx Fe).
  fold X u in Mp. rewrite Rmult_comm, Ua in Mp.
  assert (R1 : (Rabs (1 + a) = 1 + a)%R) by (apply Rabs_pos_eq; lra).
  destruct (rounded_normal _ _ _ Mp) as (Fp & d1 & D1 & Vp).
  { rewrite R1, B126. lra. }
  { rewrite R1, B127, T127. lra. }
  destruct Ms as (_ & _ & Ms). specialize (Ms Fp). rewrite Vp in Ms.
  pose proof (Rabs_le_inv _ _ D1) as D1'.
  assert (P : (99 / 100 <= (1 + a) * (1 + d1) <= 101 / 100)%R) by nra.
  assert (R2 : (Rabs (2 - (1 + a) * (1 + d1)) = 2 - (1 + a) * (1 + d1))%R) by (apply Rabs_pos_eq; lra).
  destruct (rounded_normal _ _ _ Ms) as (Fs & d2 & D2 & Vs).
  { rewrite R2, B126. lra. }
  { rewrite R2, B127, T127. lra. }
  destruct Mr as (_ & _ & _ & _ & Mr). specialize (Mr Fe Fs). fold u in Mr. rewrite Vs in Mr.
  pose proof (Rabs_le_inv _ _ D2) as D2'.
  set (q := ((2 - (1 + a) * (1 + d1)) * (1 + d2))%R) in *.
  assert (Q : (98 / 100 <= q <= 102 / 100)%R) by (unfold q; nra).
  assert (AQ : (Rabs (u * q) = Rabs u * q)%R) by (rewrite Rabs_mult, (Rabs_pos_eq q) by lra; reflexivity).
  destruct (rounded_normal _ _ _ Mr) as (Fr & d3 & D3 & Vr).
  { rewrite AQ, B126. nra. }
  { rewrite AQ, B127, T127. nra. }
  split; [exact Fr|]. rewrite Vr.
  replace (u * q * (1 + d3) * X - 1)%R with ((u * X) * q * (1 + d3) - 1)%R by ring.
  rewrite Ua. unfold q. apply step_algebra; assumption.
Qed.

Lemma normal_bounds x : 1 <= exp_field F32 x <= 251 ->
  ffin F32 x /\ (bpow radix2 (-126) <= Rabs (fval F32 x) <= bpow radix2 125)%R.
Proof.
  intros H. split.
  { unfold ffin. change (2 ^ exp_bits F32 - 1) with 255. lia. }
  unfold fval. change (precision F32 - 1) with 23. change (min_exp F32) with (-149).
  replace (exp_field F32 x =? 0) with false by (symmetry; apply Z.eqb_neq; lia).
  set (s := (if sign_bit F32 x then -1 else 1)%R).
  assert (S : (Rabs s = 1)%R) by (unfold s; destruct (sign_bit F32 x); [change (-1)%R with (- (1))%R; rewrite Rabs_Ropp|]; apply Rabs_R1).
  pose proof (frac_range x) as Hf. set (f := frac_field F32 x) in *. set (e := exp_field F32 x) in *.
  rewrite !Rabs_mult, S, Rmult_1_l, (Rabs_pos_eq (bpow _ _)) by apply bpow_ge_0.
  rewrite Rabs_pos_eq by (apply IZR_le; lia). split.
  - replace (-126) with (23 + -149) by reflexivity. rewrite (bpow_plus radix2 23 (-149)).
    apply Rmult_le_compat; try apply bpow_ge_0.
    + change (bpow radix2 23) with (IZR (2 ^ 23)). apply IZR_le. lia.
    + apply bpow_le. lia.
  - replace 125 with (24 + 101) by reflexivity. rewrite (bpow_plus radix2 24 101).
    apply Rmult_le_compat; try apply bpow_ge_0.
    + apply IZR_le. lia.
    + change (bpow radix2 24) with (IZR (2 ^ 24)). apply IZR_le. change (2 ^ 23) with 8388608. change (2 ^ 24) with 16777216. lia.
    + apply bpow_le. lia.
Qed.

Lemma nth_lanes {A} t n (a : list Z) (b : list A) i (x : A) : lanes t n a -> length b = n ->
  nth_error b i = Some x -> exists y, nth_error a i = Some y.
Proof.
  intros [La _] Lb H. assert (i < length a)%nat by (rewrite La, <- Lb; apply nth_error_Some; congruence).
  destruct (nth_error a i) eqn:E; [eauto|]. apply nth_error_None in E. lia.
Qed.

(** vrecpsq then vmulq, on vectors. *)
Lemma newton_vec c m x e E : lanes F32 4 x -> lanes F32 4 e ->
  Forall (fun z => 1 <= exp_field F32 z <= 251) x -> (0 <= E <= / 256)%R ->
  all_lanes (fun x e => ffin F32 e /\ (Rabs (fval F32 e * fval F32 x - 1) <= E)%R) x e ->
  exists s r, run c m vrecpsq_f32 [vec F32 x; vec F32 e] = Returns m (Some (vec F32 s)) /\
    run c m vmulq_f32 [vec F32 e; vec F32 s] = Returns m (Some (vec F32 r)) /\
    lanes F32 4 s /\ lanes F32 4 r /\
    all_lanes (fun x r => ffin F32 r /\ (Rabs (fval F32 r * fval F32 x - 1) <= E * E + 31 / 10 * eta)%R) x r.
Proof.
  intros Hx He Hn HE Ha.
  destruct (vrecpsq_f32_exact c m x e Hx He) as (p & s & R1 & Lp & P1 & Ls & P2).
  destruct (fmul_exact vmulq_f32 F32 4 c m e s (or_introl eq_refl) He Ls) as (r & R2 & Lr & P3).
  exists s, r. split; [exact R1|]. split; [exact R2|]. split; [exact Ls|]. split; [exact Lr|].
  intros i xi ri Hxi Hri.
  destruct (nth_lanes F32 4 e x i xi He (proj1 Hx) Hxi) as [ei Hei].
  destruct (nth_lanes F32 4 p x i xi Lp (proj1 Hx) Hxi) as [pi Hpi].
  destruct (nth_lanes F32 4 s x i xi Ls (proj1 Hx) Hxi) as [si Hsi].
  destruct (Ha i xi ei Hxi Hei) as [F1 B1].
  rewrite Forall_forall in Hn. destruct (normal_bounds xi (Hn xi (nth_error_In _ _ Hxi))) as [F2 B2].
  exact (newton_step xi ei pi si ri E F2 F1 B2 HE B1 (P1 i xi ei pi Hxi Hei Hpi) (P2 i pi si Hpi Hsi) (P3 i ei si ri Hei Hsi Hri)).
Qed.

Theorem newton c m x : lanes F32 4 x -> Forall (fun z => 1 <= exp_field F32 z <= 251) x ->
  exists e0 s0 e1 s1 e2,
    run c m vrecpeq_f32 [vec F32 x] = Returns m (Some (vec F32 e0)) /\
    run c m vrecpsq_f32 [vec F32 x; vec F32 e0] = Returns m (Some (vec F32 s0)) /\
    run c m vmulq_f32 [vec F32 e0; vec F32 s0] = Returns m (Some (vec F32 e1)) /\
    run c m vrecpsq_f32 [vec F32 x; vec F32 e1] = Returns m (Some (vec F32 s1)) /\
    run c m vmulq_f32 [vec F32 e1; vec F32 s1] = Returns m (Some (vec F32 e2)) /\
    lanes F32 4 e1 /\ lanes F32 4 e2 /\
    all_lanes (fun x e => ffin F32 e /\ (Rabs (fval F32 e * fval F32 x - 1) < / 2 ^ 16 + / 2 ^ 22)%R) x e1 /\
    all_lanes (fun x e => ffin F32 e /\ (Rabs (fval F32 e * fval F32 x - 1) < / 2 ^ 22)%R) x e2.
Proof.
  intros Hx Hn.
  destruct (vrecpeq_f32_exact c m x Hx) as (e0 & R0 & L0 & P0).
  destruct (newton_vec c m x e0 (/ 256) Hx L0 Hn) as (s0 & e1 & R1 & R2 & _ & L1 & P1); [lra| |].
  { intros i a b Ha Hb. destruct (P0 i a b Ha Hb) as (_ & _ & P). rewrite Forall_forall in Hn.
    pose proof (Hn a (nth_error_In _ _ Ha)). destruct P as [F P]; [lia|]. split; [exact F|]. lra. }
  destruct (newton_vec c m x e1 (/ 65536 + / 4194304) Hx L1 Hn) as (s1 & e2 & R3 & R4 & _ & L2 & P2); [lra| |].
  { intros i a b Ha Hb. destruct (P1 i a b Ha Hb) as [F P]. split; [exact F|]. lra. }
  exists e0, s0, e1, s1, e2. do 7 (split; [assumption|]). split.
  - intros i a b Ha Hb. destruct (P1 i a b Ha Hb) as [F P]. split; [exact F|]. lra.
  - intros i a b Ha Hb. destruct (P2 i a b Ha Hb) as [F P]. split; [exact F|]. lra.
Qed.

(** Division by the refined reciprocal. *)
Lemma quotient n x e q E : ffin F32 n -> ffin F32 e -> (fval F32 x <> 0)%R -> (0 <= E <= / 256)%R ->
  (Rabs (fval F32 e * fval F32 x - 1) <= E)%R ->
  (bpow radix2 (-125) <= Rabs (fval F32 n / fval F32 x) <= bpow radix2 126)%R ->
  ieee_mul F32 n e q ->
  ffin F32 q /\ (Rabs (fval F32 q - fval F32 n / fval F32 x) <= (E + 11 / 10 * eta) * Rabs (fval F32 n / fval F32 x))%R.
Proof.
  intros Fn Fe NX HE He HQ (_ & _ & _ & _ & M). specialize (M Fn Fe).
  set (X := fval F32 x) in *. set (u := fval F32 e) in *. set (N := fval F32 n) in *.
  set (a := (u * X - 1)%R) in *. set (D := (N / X)%R) in *.
  assert (ND : (N * u = D * (1 + a))%R) by (unfold D, a; field; exact NX).
  pose proof (Rabs_le_inv _ _ He) as Ha. assert (PD : (0 <= Rabs D)%R) by apply Rabs_pos.
  assert (A1 : (Rabs (N * u) = Rabs D * (1 + a))%R) by (rewrite ND, Rabs_mult, (Rabs_pos_eq (1 + a)) by lra; reflexivity).
  assert (bpow radix2 (-125) = 2 * bpow radix2 (-126))%R as B1.
  { change (-125) with (1 + -126). rewrite bpow_plus. reflexivity. }
  assert (bpow radix2 127 = 2 * bpow radix2 126)%R as B2.
  { change 127 with (1 + 126). rewrite bpow_plus. reflexivity. }
  assert (0 <= bpow radix2 (-126))%R by apply bpow_ge_0.
  destruct (rounded_normal _ _ _ M) as (Fq & d & Hd & V).
  { rewrite A1. nra. }
  { rewrite A1, B2. nra. }
  split; [exact Fq|]. rewrite V, ND.
  replace (D * (1 + a) * (1 + d) - D)%R with ((a + (1 + a) * d) * D)%R by ring.
  rewrite Rabs_mult. apply Rmult_le_compat_r; [exact PD|].
  eapply Rle_trans; [apply Rabs_triang|]. apply Rplus_le_compat; [exact He|].
  rewrite Rabs_mult, (Rabs_pos_eq (1 + a)) by lra. apply Rmult_le_compat; try lra. apply Rabs_pos.
Qed.

Theorem newton_division c m n x : lanes F32 4 n -> lanes F32 4 x ->
  Forall (fun z => 1 <= exp_field F32 z <= 251) x -> Forall (ffin F32) n ->
  all_lanes (fun n x => (bpow radix2 (-125) <= Rabs (fval F32 n / fval F32 x) <= bpow radix2 126)%R) n x ->
  exists e0 s0 e1 s1 e2 q,
    run c m vrecpeq_f32 [vec F32 x] = Returns m (Some (vec F32 e0)) /\
    run c m vrecpsq_f32 [vec F32 x; vec F32 e0] = Returns m (Some (vec F32 s0)) /\
    run c m vmulq_f32 [vec F32 e0; vec F32 s0] = Returns m (Some (vec F32 e1)) /\
    run c m vrecpsq_f32 [vec F32 x; vec F32 e1] = Returns m (Some (vec F32 s1)) /\
    run c m vmulq_f32 [vec F32 e1; vec F32 s1] = Returns m (Some (vec F32 e2)) /\
    run c m vmulq_f32 [vec F32 n; vec F32 e2] = Returns m (Some (vec F32 q)) /\ lanes F32 4 q /\
    all_lanes3 (fun n x q => ffin F32 q /\
      (Rabs (fval F32 q - fval F32 n / fval F32 x) < / 2 ^ 21 * Rabs (fval F32 n / fval F32 x))%R) n x q.
Proof.
  intros Hn Hx Nx Fn Hr. destruct (newton c m x Hx Nx) as (e0 & s0 & e1 & s1 & e2 & R0 & R1 & R2 & R3 & R4 & _ & L2 & _ & P).
  destruct (fmul_exact vmulq_f32 F32 4 c m n e2 (or_introl eq_refl) Hn L2) as (q & R5 & Lq & P5).
  exists e0, s0, e1, s1, e2, q. do 7 (split; [assumption|]).
  intros i ni xi qi Hni Hxi Hqi. destruct (nth_lanes F32 4 e2 x i xi L2 (proj1 Hx) Hxi) as [ei Hei].
  destruct (P i xi ei Hxi Hei) as [Fe Be]. rewrite Forall_forall in Nx, Fn.
  destruct (normal_bounds xi (Nx xi (nth_error_In _ _ Hxi))) as [_ [B2 _]].
  pose proof (bpow_gt_0 radix2 (-126)) as B0.
  assert (NX : (fval F32 xi <> 0)%R) by (intros Z; rewrite Z, Rabs_R0 in B2; lra).
  destruct (quotient ni xi ei qi (/ 4194304) (Fn ni (nth_error_In _ _ Hni)) Fe NX ltac:(lra) ltac:(lra) (Hr i ni xi Hni Hxi) (P5 i ni ei qi Hni Hei Hqi)) as [Fq Bq].
  split; [exact Fq|]. eapply Rle_lt_trans; [exact Bq|]. destruct (Hr i ni xi Hni Hxi) as [B3 _].
  pose proof (bpow_gt_0 radix2 (-125)) as B4. nra.
Qed.

(** ** Integer to float and back *)
Lemma int_rnd z : Z.abs z <= 2 ^ 24 -> rnd F32 (IZR z) = IZR z.
Proof.
  intros H. unfold rnd. apply round_generic; [typeclasses eauto|].
  change (min_exp F32) with (-149). change (precision F32) with 24.
  destruct (Z.eq_dec (Z.abs z) (2 ^ 24)) as [E|N].
  - assert (G : generic_format radix2 (FLT_exp (-149) 24) (bpow radix2 24)) by (apply generic_format_bpow; now compute).
    destruct (Z.abs_spec z) as [[_ A]|[_ A]]; rewrite A in E.
    + rewrite E. exact G.
    + replace z with (- 2 ^ 24) by lia. rewrite opp_IZR. apply generic_format_opp. exact G.
  - apply generic_format_FLT. exists (Float radix2 z 0); cbn; [unfold F2R; cbn; ring|lia|lia].
Qed.

Theorem int_float_int c m a : lanes I32 4 a -> Forall (fun z => Z.abs z <= 2 ^ 24) a ->
  exists r, run c m vcvtq_f32_s32 [vec I32 a] = Returns m (Some (vec F32 r)) /\
    run c m vcvtq_s32_f32 [vec F32 r] = Returns m (Some (vec I32 a)).
Proof.
  intros Ha Hs. destruct (vcvtq_f32_s32_exact c m a Ha) as (r & R & Lr & P).
  exists r. split; [exact R|].
  assert (V : all_lanes (fun x z => cvt_fits I32 z /\ Ztrunc (fval F32 z) = x) a r).
  { intros i x z Hx Hz. specialize (P i x z Hx Hz). rewrite Forall_forall in Hs.
    pose proof (Hs x (nth_error_In _ _ Hx)) as B. unfold rounded in P. rewrite (int_rnd x B) in P.
    rewrite Rlt_bool_true in P.
    - destruct P as (F & V & _). unfold cvt_fits. rewrite V, Ztrunc_IZR. repeat split; trivial; unfold lo, hi; cbn; lia.
    - rewrite <- abs_IZR. change (bpow radix2 (max_exp F32)) with (IZR (2 ^ 128)). apply IZR_lt.
      assert (2 ^ 24 < 2 ^ 128) by reflexivity. lia. }
  assert (E : map (fun x => Ztrunc (fval F32 x)) r = a).
  { destruct Ha as [La _], Lr as [Lr _]. revert V. clear - La Lr. assert (L : length a = length r) by congruence. clear La Lr.
    revert r L. induction a as [|x a IH]; intros [|z r] L V; try discriminate; [reflexivity|].
    cbn. f_equal; [exact (proj2 (V 0%nat x z eq_refl eq_refl))|]. apply IH; [now injection L|].
    intros i. exact (V (S i)). }
  rewrite <- E. apply (to_int_exact vcvtq_s32_f32 I32 4); [cbn; tauto|exact Lr|].
  apply Forall_forall. intros z Hz. apply In_nth_error in Hz. destruct Hz as [i Hi].
  destruct (nth_lanes I32 4 a r i z Ha (proj1 Lr) Hi) as [x Hx]. exact (proj1 (V i x z Hx Hi)).
Qed.

(** Integers from 2^31 - 64 are rounded to 2^31, which is not an int32_t. *)
Lemma top_rnd : rnd F32 (IZR (2 ^ 31 - 64)) = IZR (2 ^ 31).
Proof.
  assert (L : lanes I32 4 [2 ^ 31 - 64; 0; 0; 0]) by (split; [reflexivity|repeat constructor; now compute]).
  destruct (vcvtq_f32_s32_exact (mkcfg false (fun _ _ _ _ => 0)) [] _ L) as (r & R & _ & P).
  vm_compute in R.
  assert (E : r = [1325400064; 0; 0; 0]) by (injection R as R; destruct r as [|? [|? [|? [|? [|]]]]]; cbn in R; congruence).
  subst r. specialize (P 0%nat _ _ eq_refl eq_refl). unfold rounded in P.
  destruct (Rlt_bool _ _).
  - destruct P as (_ & V & _). rewrite <- V. cbv [fval exp_field frac_field sign_bit precision exp_bits min_exp width].
    vm_compute (_ mod _). vm_compute (Z.testbit _ _). cbn [Z.eqb]. 
    vm_compute (_ + _). change (bpow radix2 8) with 256%R. rewrite <- !mult_IZR. reflexivity.
  - vm_compute in P. discriminate.
Qed.

Lemma top_rnd_all x : 2 ^ 31 - 64 <= x <= 2 ^ 31 -> rnd F32 (IZR x) = IZR (2 ^ 31).
Proof.
  intros H. apply Rle_antisym.
  - replace (IZR (2 ^ 31)) with (rnd F32 (IZR (2 ^ 31))).
    + apply round_le; try typeclasses eauto. apply IZR_le. lia.
    + apply round_generic; [typeclasses eauto|]. change (IZR (2 ^ 31)) with (bpow radix2 31).
      apply generic_format_bpow. now compute.
  - rewrite <- top_rnd. apply round_le; try typeclasses eauto. apply IZR_le. lia.
Qed.

Theorem int_float_overflow c m a : lanes I32 4 a -> Exists (fun z => 2 ^ 31 - 64 <= z) a ->
  exists r, run c m vcvtq_f32_s32 [vec I32 a] = Returns m (Some (vec F32 r)) /\
    run c m vcvtq_s32_f32 [vec F32 r] = Undefined FloatCast.
Proof.
  intros Ha Hs. destruct (vcvtq_f32_s32_exact c m a Ha) as (r & R & Lr & P).
  exists r. split; [exact R|]. apply Exists_exists in Hs. destruct Hs as (x & Ix & Hx).
  destruct (In_nth_error _ _ Ix) as [i Hi]. destruct (nth_lanes F32 4 r a i x Lr (proj1 Ha) Hi) as [z Hz].
  specialize (P i x z Hi Hz). unfold rounded in P.
  assert (Hr : in_range I32 x) by (destruct Ha as [_ Fa]; rewrite Forall_forall in Fa; auto).
  assert (B : x <= 2 ^ 31) by (destruct Hr as [_ Hr]; cbn in Hr; lia).
  rewrite (top_rnd_all x (conj Hx B)) in P. rewrite Rlt_bool_true in P.
  2:{ rewrite Rabs_pos_eq by (apply IZR_le; now compute). change (bpow radix2 (max_exp F32)) with (IZR (2 ^ 128)).
      apply IZR_lt. reflexivity. }
  destruct P as (_ & V & _).
  apply (to_int_ub vcvtq_s32_f32 I32 4 c m r z); [cbn; tauto|exact Lr|exact (nth_error_In _ _ Hz)|].
  intros [_ [_ K]]. rewrite V, Ztrunc_IZR in K. cbn in K. lia.
Qed.
