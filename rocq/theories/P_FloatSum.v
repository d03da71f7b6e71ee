(** Sums of products of floats: the error bound. *)
From Coq Require Import ZArith Arith Reals String List Bool Lia Lra.
From Flocq Require Import Core Relative.
From Verif Require Import Types FloatSpec Syntax Interp ProgRecip Library Spec Tables MetaSpec ExecLemmas Ew Client Transpose Pixels.
From Verif Require Import Contract ContractSpec FloatSum.
Import ListNotations.
Open Scope Z_scope.

#[local] Instance prec24 : Prec_gt_0 24. Proof. reflexivity. Qed.

(** ** One rounding *)

Lemma part_pos : (0 < part)%R. Proof. apply bpow_gt_0. Qed.
Lemma tiny_pos : (0 < tiny)%R. Proof. apply bpow_gt_0. Qed.

Lemma rnd_error v : (Rabs (rnd F32 v - v) <= part * Rabs v + tiny)%R.
Proof.
  unfold rnd. destruct (error_N_FLT radix2 (-149) 24 ltac:(reflexivity) (fun z => negb (Z.even z)) v) as (d & h & D & H & _ & E).
  change (min_exp F32) with (-149). change (precision F32) with 24. rewrite E.
  replace (v * (1 + d) + h - v)%R with (d * v + h)%R by ring.
  eapply Rle_trans; [apply Rabs_triang|]. rewrite Rabs_mult. apply Rplus_le_compat.
  - apply Rmult_le_compat_r; [apply Rabs_pos|]. eapply Rle_trans; [exact D|]. unfold part.
    change (- (24) + 1) with (1 + -24). rewrite bpow_plus. change (bpow radix2 1) with 2%R. lra.
  - eapply Rle_trans; [exact H|]. unfold tiny. change (-149) with (1 + -150). rewrite bpow_plus. change (bpow radix2 1) with 2%R. lra.
Qed.

Lemma rnd_bound v : (Rabs v <= bpow radix2 127)%R -> (Rabs (rnd F32 v) < bpow radix2 128)%R.
Proof.
  intros H. apply Rle_lt_trans with (bpow radix2 127); [|apply bpow_lt; lia].
  unfold rnd. apply abs_round_le_generic; [typeclasses eauto|typeclasses eauto| |exact H].
  apply generic_format_bpow. vm_compute. discriminate.
Qed.

Lemma rounded_value v s r : rounded F32 v s r -> (Rabs v <= bpow radix2 127)%R -> ffin F32 r /\ fval F32 r = rnd F32 v.
Proof.
  intros H B. unfold rounded in H. rewrite Rlt_bool_true in H by (apply rnd_bound; exact B). tauto.
Qed.

(** One accumulation of a lane, with or without contraction. *)
Definition lane_step (s x y r : Z) : Prop := two_roundings F32 x y s r \/ ieee_fma F32 x y s r.

(** There is a number near the product, and its sum is rounded. *)
Lemma lane_step_value s x y r : lane_step s x y r -> ffin F32 s -> ffin F32 x -> ffin F32 y ->
  (Rabs (fval F32 x * fval F32 y) <= bpow radix2 127)%R ->
  exists p, (p = fval F32 x * fval F32 y \/ p = rnd F32 (fval F32 x * fval F32 y))%R /\
    ((Rabs (fval F32 s + p) <= bpow radix2 127)%R -> ffin F32 r /\ fval F32 r = rnd F32 (fval F32 s + p)).
Proof.
  intros [(p & _ & M & A)|F] Fs Fx Fy B.
  - destruct M as (_ & _ & _ & _ & M). specialize (M Fx Fy). destruct (rounded_value _ _ _ M B) as [Fp Vp].
    exists (fval F32 p). split; [now right|]. intros B2. destruct A as (_ & _ & _ & _ & A). exact (rounded_value _ _ _ (A Fs Fp) B2).
  - exists (fval F32 x * fval F32 y)%R. split; [now left|]. intros B2. destruct F as (_ & _ & _ & _ & F). specialize (F Fx Fy Fs).
    rewrite (Rplus_comm (fval F32 x * fval F32 y)) in F. exact (rounded_value _ _ _ F B2).
Qed.

(** ** Any number of accumulations *)

Inductive lane_steps : Z -> list (Z * Z) -> Z -> Prop :=
| no_steps s : lane_steps s [] s
| one_more s x y l s1 r : lane_step s x y s1 -> lane_steps s1 l r -> lane_steps s ((x, y) :: l) r.

Lemma dot_abs_pos l : (0 <= dot_abs l)%R.
Proof. induction l as [|[x y] l IH]; cbn; [lra|]. pose proof (Rabs_pos (fval F32 x * fval F32 y)). lra. Qed.

Definition near (k : nat) (S T s : R) : Prop :=
  (Rabs S <= T /\ Rabs (s - S) <= ((1 + part) ^ (k + 1) - 1) * T + INR (2 * k) * tiny * (1 + part) ^ k)%R.

Lemma power_ge k : (1 <= (1 + part) ^ k)%R.
Proof. apply pow_R1_Rle. pose proof part_pos. lra. Qed.

Lemma power_le j k : (j <= k)%nat -> ((1 + part) ^ j <= (1 + part) ^ k)%R.
Proof. intros. apply Rle_pow; [pose proof part_pos; lra|assumption]. Qed.

Lemma near_pos k S T s : near k S T s -> (0 <= T)%R.
Proof. intros [H _]. pose proof (Rabs_pos S). lra. Qed.

Lemma near_step k S T s q p r : near k S T s ->
  (Rabs (p - q) <= part * Rabs q + tiny)%R -> (Rabs (r - (s + p)) <= part * Rabs (s + p) + tiny)%R ->
  near (k + 1) (S + q) (T + Rabs q) r.
Proof.
  intros N P R. pose proof (near_pos _ _ _ _ N) as T0. destruct N as [A B].
  pose proof part_pos as U. pose proof tiny_pos as E. pose proof (Rabs_pos q) as Q0.
  split; [eapply Rle_trans; [apply Rabs_triang|]; lra|].
  assert (X : (Rabs (s + p) <= Rabs (s - S) + Rabs (p - q) + (T + Rabs q))%R).
  { replace (s + p)%R with ((s - S) + ((p - q) + (S + q)))%R by ring.
    eapply Rle_trans; [apply Rabs_triang|]. pose proof (Rabs_triang (p - q) (S + q)). pose proof (Rabs_triang S q). lra. }
  assert (Y : (Rabs (r - (S + q)) <= Rabs (r - (s + p)) + (Rabs (s - S) + Rabs (p - q)))%R).
  { replace (r - (S + q))%R with ((r - (s + p)) + ((s - S) + (p - q)))%R by ring.
    eapply Rle_trans; [apply Rabs_triang|]. pose proof (Rabs_triang (s - S) (p - q)). lra. }
  set (D := Rabs (s - S)) in *. set (F := Rabs (p - q)) in *.
  assert (G1 : (1 <= (1 + part) ^ (k + 1))%R) by apply power_ge. assert (G0 : (1 <= (1 + part) ^ k)%R) by apply power_ge.
  assert (Ek1 : ((1 + part) ^ (k + 1) = (1 + part) * (1 + part) ^ k)%R) by (rewrite Nat.add_1_r; reflexivity).
  assert (Ek2 : ((1 + part) ^ (k + 1 + 1) = (1 + part) * (1 + part) ^ (k + 1))%R) by (rewrite (Nat.add_1_r (k + 1)); reflexivity).
  assert (I : (INR (2 * (k + 1)) = INR (2 * k) + 2)%R).
  { replace (2 * (k + 1))%nat with (2 * k + 2)%nat by lia. rewrite plus_INR. reflexivity. }
  rewrite Ek2, I. set (g := ((1 + part) ^ (k + 1))%R) in *. set (g0 := ((1 + part) ^ k)%R) in *. set (n := INR (2 * k)) in *.
  assert (N0 : (0 <= n)%R) by apply pos_INR.
  assert (Z1 : (Rabs (r - (S + q)) <= (1 + part) * (D + F) + part * (T + Rabs q) + tiny)%R).
  { eapply Rle_trans; [exact Y|]. assert (part * Rabs (s + p) <= part * (D + F + (T + Rabs q)))%R by (apply Rmult_le_compat_l; lra). lra. }
  assert (Z2 : ((1 + part) * (D + F) <= (1 + part) * ((g - 1) * T + n * tiny * g0 + part * Rabs q + tiny))%R)
    by (apply Rmult_le_compat_l; lra).
  assert (Z3 : ((1 + part) * part * Rabs q <= part * g * Rabs q)%R).
  { apply Rmult_le_compat_r; [exact Q0|]. rewrite (Rmult_comm part g). apply Rmult_le_compat_r; [lra|]. rewrite Ek1. nra. }
  assert (Z4 : ((g - 1) * Rabs q >= part * Rabs q)%R).
  { apply Rle_ge, Rmult_le_compat_r; [exact Q0|]. rewrite Ek1. nra. }
  assert (Z5 : (tiny * (2 + part) <= 2 * tiny * g)%R).
  { replace (2 * tiny * g)%R with (tiny * (2 * g))%R by ring. apply Rmult_le_compat_l; [lra|]. assert (1 + part <= g)%R by (rewrite Ek1; nra). lra. }
  replace ((n + 2) * tiny * g)%R with (n * tiny * g + 2 * tiny * g)%R by ring.
  rewrite Ek1 at 2.
  replace (((1 + part) * g - 1) * (T + Rabs q))%R
    with ((1 + part) * (g - 1) * T + part * T + (part * g * Rabs q + (g - 1) * Rabs q))%R by ring.
  replace (n * tiny * ((1 + part) * g0))%R with ((1 + part) * (n * tiny * g0))%R by ring.
  replace ((1 + part) * ((g - 1) * T + n * tiny * g0 + part * Rabs q + tiny))%R
    with ((1 + part) * (g - 1) * T + (1 + part) * (n * tiny * g0) + (1 + part) * part * Rabs q + tiny * (2 + part) - tiny)%R in Z2 by ring.
  lra.
Qed.

Lemma near_sum k S T s q p : near k S T s -> (Rabs (p - q) <= part * Rabs q + tiny)%R ->
  (Rabs (s + p) <= (1 + part) ^ (k + 1) * (T + Rabs q + INR (2 * (k + 1)) * tiny))%R.
Proof.
  intros N P. pose proof (near_pos _ _ _ _ N) as T0. destruct N as [A B].
  pose proof part_pos as U. pose proof tiny_pos as E. pose proof (Rabs_pos q) as Q0.
  assert (X : (Rabs (s + p) <= Rabs (s - S) + Rabs (p - q) + (T + Rabs q))%R).
  { replace (s + p)%R with ((s - S) + ((p - q) + (S + q)))%R by ring.
    eapply Rle_trans; [apply Rabs_triang|]. pose proof (Rabs_triang (p - q) (S + q)). pose proof (Rabs_triang S q). lra. }
  assert (G0 : (1 <= (1 + part) ^ k)%R) by apply power_ge.
  assert (Ek1 : ((1 + part) ^ (k + 1) = (1 + part) * (1 + part) ^ k)%R) by (rewrite Nat.add_1_r; reflexivity).
  assert (I : (INR (2 * (k + 1)) = INR (2 * k) + 2)%R).
  { replace (2 * (k + 1))%nat with (2 * k + 2)%nat by lia. rewrite plus_INR. reflexivity. }
  rewrite I. rewrite Ek1 in *. set (g0 := ((1 + part) ^ k)%R) in *. set (n := INR (2 * k)) in *.
  assert (N0 : (0 <= n)%R) by apply pos_INR. set (g := ((1 + part) * g0)%R) in *.
  assert (G : (1 + part <= g)%R) by (unfold g; nra).
  assert (H1 : (n * tiny * g0 <= n * tiny * g)%R) by (apply Rmult_le_compat_l; [apply Rmult_le_pos; lra|unfold g; nra]).
  assert (H2 : ((1 + part) * Rabs q <= g * Rabs q)%R) by (apply Rmult_le_compat_r; lra).
  assert (H3 : (1 * tiny <= g * (2 * tiny))%R) by nra.
  eapply Rle_trans; [exact X|].
  replace (g * (T + Rabs q + (n + 2) * tiny))%R with ((g - 1) * T + T + g * Rabs q + n * tiny * g + g * (2 * tiny))%R by ring.
  lra.
Qed.

Lemma lane_steps_near l : forall k S T s r, lane_steps s l r -> near k S T (fval F32 s) -> ffin F32 s -> all_finite l ->
  ((1 + part) ^ (k + length l + 1) * (T + dot_abs l + INR (2 * (k + length l)) * tiny) <= bpow radix2 127)%R ->
  ffin F32 r /\ near (k + length l) (S + dot l) (T + dot_abs l) (fval F32 r).
Proof.
  induction l as [|[x y] l IH]; intros k S T s r H N Fs Fl B.
  - inversion H; subst. cbn [length dot dot_abs]. rewrite Nat.add_0_r, !Rplus_0_r. now split.
  - inversion H as [|? ? ? ? s1 ? H1 H2]; subst. inversion Fl as [|? ? [Fx Fy] Fl']; subst. cbn [fst snd] in Fx, Fy.
    cbn [length dot dot_abs] in *. set (q := (fval F32 x * fval F32 y)%R) in *.
    pose proof (near_pos _ _ _ _ N) as T0. pose proof (dot_abs_pos l) as L0. pose proof (Rabs_pos q) as Q0.
    pose proof tiny_pos as E.
    replace (k + Datatypes.S (length l))%nat with (k + 1 + length l)%nat in * by lia.
    set (K := (k + 1 + length l)%nat) in *.
    assert (P0 : (0 <= INR (2 * K) * tiny)%R) by (apply Rmult_le_pos; [apply pos_INR|lra]).
    pose proof (power_ge (K + 1)) as G.
    assert (Bq : (Rabs q <= bpow radix2 127)%R).
    { eapply Rle_trans; [|exact B]. rewrite <- (Rmult_1_l (Rabs q)). apply Rmult_le_compat; lra. }
    destruct (lane_step_value _ _ _ _ H1 Fs Fx Fy Bq) as (p & P1 & P2). fold q in P1.
    assert (Ep : (Rabs (p - q) <= part * Rabs q + tiny)%R).
    { destruct P1 as [-> | ->]; [|apply rnd_error]. rewrite Rminus_diag_eq, Rabs_R0 by reflexivity.
      pose proof part_pos. assert (0 <= part * Rabs q)%R by (apply Rmult_le_pos; lra). lra. }
    assert (Bs : (Rabs (fval F32 s + p) <= bpow radix2 127)%R).
    { eapply Rle_trans; [exact (near_sum _ _ _ _ _ _ N Ep)|]. eapply Rle_trans; [|exact B].
      assert (I : (INR (2 * (k + 1)) <= INR (2 * K))%R) by (apply le_INR; unfold K; lia).
      assert (I2 : (INR (2 * (k + 1)) * tiny <= INR (2 * K) * tiny)%R) by (apply Rmult_le_compat_r; lra).
      assert (I3 : (0 <= INR (2 * (k + 1)) * tiny)%R) by (apply Rmult_le_pos; [apply pos_INR|lra]).
      apply Rmult_le_compat; [pose proof (power_ge (k + 1)); lra|lra|apply power_le; unfold K; lia|lra]. }
    destruct (P2 Bs) as [F1 V1].
    assert (N1 : near (k + 1) (S + q) (T + Rabs q) (fval F32 s1)).
    { apply (near_step _ _ _ _ _ _ _ N Ep). rewrite V1. apply rnd_error. }
    destruct (IH (k + 1)%nat _ _ _ _ H2 N1 F1 Fl') as [Fr Nr].
    { fold K. replace (T + Rabs q + dot_abs l)%R with (T + (Rabs q + dot_abs l))%R by ring. exact B. }
    split; [exact Fr|]. fold K in Nr. now rewrite <- !Rplus_assoc.
Qed.

Lemma zero_value : ffin F32 0 /\ fval F32 0 = 0%R.
Proof. split; [vm_compute; discriminate|]. unfold fval. 
  change (if exp_field F32 0 =? 0 then frac_field F32 0 else frac_field F32 0 + 2 ^ (precision F32 - 1)) with 0.
  cbv zeta. rewrite Rmult_0_r. apply Rmult_0_l.
Qed.

Theorem lane_steps_accurate l r : lane_steps 0 l r -> all_finite l -> fits l -> accurate l r.
Proof.
  intros H F B. destruct zero_value as [F0 V0].
  destruct (lane_steps_near l 0 0 0 0 r H) as [Fr Nr]; trivial.
  - rewrite V0. split; [rewrite Rabs_R0; lra|]. rewrite Rminus_0_r, Rabs_R0. change (2 * 0)%nat with 0%nat. cbn [INR]. right. ring.
  - rewrite Rplus_0_l. cbn [Nat.add]. rewrite Nat.add_1_r. exact B.
  - split; [exact Fr|]. destruct Nr as [_ Nr]. rewrite !Rplus_0_l in Nr. cbn [Nat.add] in Nr. rewrite Nat.add_1_r in Nr. exact Nr.
Qed.

(** ** Integers *)

Lemma rnd_integer n : (Rabs (IZR n) <= 16777216)%R -> rnd F32 (IZR n) = IZR n.
Proof.
  intros H. unfold rnd. apply round_generic; [typeclasses eauto|]. rewrite <- abs_IZR in H. apply le_IZR in H.
  destruct (Z.eq_dec (Z.abs n) 16777216) as [E|E].
  - apply generic_format_abs_inv. rewrite <- abs_IZR, E. change 16777216%R with (bpow radix2 24). apply generic_format_bpow. vm_compute. discriminate.
  - apply generic_format_FLT. exists (Float radix2 n 0).
    + unfold F2R. cbn [Fnum Fexp bpow]. ring.
    + cbn [Fnum]. change (radix2 ^ precision F32) with 16777216. lia.
    + cbn [Fexp]. discriminate.
Qed.

Lemma lane_steps_exact l : forall s n T r, lane_steps s l r -> fval F32 s = IZR n -> (Rabs (IZR n) <= T)%R -> ffin F32 s ->
  all_finite l -> integral l -> (T + dot_abs l <= 16777216)%R -> ffin F32 r /\ fval F32 r = (IZR n + dot l)%R.
Proof.
  induction l as [|[x y] l IH]; intros s n T r H V HT Fs Fl Il B.
  - inversion H; subst. cbn [dot]. rewrite Rplus_0_r. now split.
  - inversion H as [|? ? ? ? s1 ? H1 H2]; subst. inversion Fl as [|? ? [Fx Fy] Fl']; subst. cbn [fst snd] in Fx, Fy.
    inversion Il as [|? ? [[a Ea] [b Eb]] Il']; subst. cbn [fst snd] in Ea, Eb. cbn [dot dot_abs] in *.
    pose proof (dot_abs_pos l) as L0. pose proof (Rabs_pos (fval F32 x * fval F32 y)) as Q0. pose proof (Rabs_pos (IZR n)) as N0.
    assert (Eq : (fval F32 x * fval F32 y)%R = IZR (a * b)) by now rewrite mult_IZR, Ea, Eb.
    assert (Big : (16777216 <= bpow radix2 127)%R) by (change 16777216%R with (bpow radix2 24); apply bpow_le; lia).
    destruct (lane_step_value _ _ _ _ H1 Fs Fx Fy) as (p & P1 & P2); [lra|]. rewrite Eq in *.
    assert (Ep : p = IZR (a * b)) by (destruct P1 as [-> | ->]; [reflexivity|apply rnd_integer; lra]). subst p.
    pose proof (Rabs_triang (IZR n) (IZR (a * b))) as Tr.
    rewrite V in P2. rewrite <- plus_IZR in *. destruct P2 as [F1 V1]; [lra|]. rewrite rnd_integer in V1 by lra.
    destruct (IH s1 (n + a * b) (T + Rabs (IZR (a * b)))%R r H2 V1) as [Fr Vr]; trivial; [lra|lra|].
    split; [exact Fr|]. rewrite Vr, plus_IZR. ring.
Qed.

Theorem lane_steps_integers l r : lane_steps 0 l r -> all_finite l -> integral l -> (dot_abs l <= 16777216)%R ->
  ffin F32 r /\ fval F32 r = dot l.
Proof.
  intros H F I B. destruct zero_value as [F0 V0].
  destruct (lane_steps_exact l 0 0 0 r H V0) as [Fr Vr]; trivial; [rewrite Rabs_R0; lra|lra|]. split; [exact Fr|]. rewrite Vr. ring.
Qed.
