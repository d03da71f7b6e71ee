(** EXPECT_NEAR. *)
From Coq Require Import ZArith Reals Bool Lia Lra.
From Coq Require Import Floats.SpecFloat.
From Flocq Require Import Core.
From Verif Require Import Types FloatBits FloatSpec ExecLemmas FloatR Near.
Open Scope Z_scope.

Lemma f64 : fty F64. Proof. now right. Qed.

Lemma land_mod d : Z.land d 9223372036854775807 = d mod 2 ^ 63.
Proof. change 9223372036854775807 with (Z.ones 63). apply Z.land_ones. lia. Qed.

Lemma fabs_fields d : exp_field F64 (utest_fabs d) = exp_field F64 d /\ frac_field F64 (utest_fabs d) = frac_field F64 d /\
  sign_bit F64 (utest_fabs d) = false /\ in_range F64 (utest_fabs d) /\ 0 <= utest_fabs d < 2 ^ 63.
Proof.
  unfold utest_fabs. rewrite land_mod. pose proof (Z.mod_pos_bound d (2 ^ 63) ltac:(lia)) as B. pose proof (Z.div_mod d (2 ^ 63) ltac:(lia)) as E.
  set (r := d mod 2 ^ 63) in *. set (q := d / 2 ^ 63) in *. assert (E1 : d = r + q * 2 ^ 11 * 2 ^ 52) by (rewrite E; change (2 ^ 63) with (2 ^ 11 * 2 ^ 52); ring).
  unfold exp_field, frac_field. cbn [precision exp_bits]. change (53 - 1) with 52. split; [|split; [|split; [|split]]].
  - rewrite E1. rewrite Z.div_add by lia. rewrite Z.mod_add by lia. reflexivity.
  - rewrite E1. rewrite Z.mod_add by lia. reflexivity.
  - unfold sign_bit. cbn [width]. change (64 - 1) with 63. unfold r. rewrite Z.mod_pow2_bits_high by lia. reflexivity.
  - unfold in_range. cbn. lia.
  - exact B.
Qed.

Lemma fabs_class d : (fnan F64 (utest_fabs d) <-> fnan F64 d) /\ (finf F64 (utest_fabs d) <-> finf F64 d) /\ (ffin F64 (utest_fabs d) <-> ffin F64 d).
Proof. destruct (fabs_fields d) as (E & M & _). unfold fnan, finf, ffin. rewrite E, M. tauto. Qed.

Lemma fabs_value d : fval F64 (utest_fabs d) = Rabs (fval F64 d).
Proof.
  destruct (fabs_fields d) as (E & M & S0 & _). unfold fval. rewrite E, M, S0.
  set (m := if exp_field F64 d =? 0 then _ else _). set (e := if exp_field F64 d =? 0 then min_exp F64 else _).
  assert (P : 0 <= m).
  { pose proof (Z.mod_pos_bound d (2 ^ (precision F64 - 1)) ltac:(reflexivity)) as Q. unfold m, frac_field. destruct (_ =? 0); [lia|]. pose proof (Z.pow_nonneg 2 (precision F64 - 1)). lia. }
  assert (H : (0 <= IZR m * bpow radix2 e)%R) by (apply Rmult_le_pos; [now apply IZR_le|apply bpow_ge_0]).
  destruct (sign_bit F64 d); rewrite !Rmult_assoc, ?Rmult_1_l.
  - rewrite Rabs_mult, (Rabs_pos_eq _ H). replace (Rabs (-1)) with 1%R by (rewrite Rabs_left; lra). lra.
  - now rewrite Rabs_pos_eq.
Qed.

Lemma isnan_exact d : utest_isnan d = true <-> fnan F64 d.
Proof.
  destruct (fabs_class d) as (<- & _). destruct (fabs_fields d) as (_ & _ & _ & _ & B). unfold utest_isnan. fold (utest_fabs d). set (r := utest_fabs d) in *. clearbody r.
  rewrite Z.ltb_lt. unfold fnan, exp_field, frac_field. cbn [precision exp_bits]. change (53 - 1) with 52. change (2 ^ 11 - 1) with 2047.
  pose proof (Z.div_mod r (2 ^ 52) ltac:(lia)) as E. pose proof (Z.mod_pos_bound r (2 ^ 52) ltac:(lia)) as M.
  assert (Q : 0 <= r / 2 ^ 52 < 2 ^ 11). { split; [apply Z.div_pos; lia|apply Z.div_lt_upper_bound; lia]. }
  rewrite (Z.mod_small (r / 2 ^ 52)) by exact Q. set (a := r / 2 ^ 52) in *. set (b := r mod 2 ^ 52) in *. clearbody a b. lia.
Qed.

Lemma near_iff k x y e : in_range F64 x -> in_range F64 y -> in_range F64 e ->
  let r := encode F64 k (fsub F64 (decode F64 x) (decode F64 y)) in
  near k x y e = true <-> ~ fnan F64 r /\ ~ flt F64 e (utest_fabs r).
Proof.
  intros Hx Hy He r. unfold near. fold r. rewrite negb_true_iff, orb_false_iff. destruct (fabs_fields r) as (_ & _ & _ & Hr & _).
  pose proof (ltb_flt F64 e (utest_fabs r) f64 He Hr) as L. pose proof (isnan_exact (utest_fabs r)) as N. destruct (fabs_class r) as (C & _).
  destruct (SFltb (decode F64 e) (decode F64 (utest_fabs r))), (utest_isnan (utest_fabs r)); split; intros H; try (destruct H; discriminate); try tauto.
  all: try (split; [reflexivity|reflexivity]). all: try (exfalso; tauto).
  split; [intros Q; apply C in Q; apply N in Q; discriminate Q|]. intros Q. apply L in Q. discriminate Q.
Qed.

Lemma rnd_abs v : Rabs (rnd F64 v) = rnd F64 (Rabs v).
Proof. unfold rnd. rewrite <- round_NE_abs; [reflexivity|]. apply FLT_exp_valid. reflexivity. Qed.

Lemma fin_below e : in_range F64 e -> ffin F64 e -> (fval F64 e < bpow radix2 1024)%R /\ rnd F64 (fval F64 e) = fval F64 e.
Proof.
  intros H F. destruct (decode_denotes F64 e f64 H) as (b & _ & D). destruct (denotes_fin _ _ _ D F) as (Fb & V & _).
  split; [|rewrite rnd_eq by exact f64; rewrite <- V; apply round_generic; [typeclasses eauto|]; apply BinarySingleNaN.generic_format_B2R]. rewrite <- V.
  apply Rle_lt_trans with (Rabs (BinarySingleNaN.B2R b)); [apply Rle_abs|]. exact (BinarySingleNaN.abs_B2R_lt_emax _ _ b).
Qed.

Lemma infinity_abs s : utest_fabs (infinity F64 s) = infinity F64 false.
Proof. destruct s; reflexivity. Qed.

Lemma near_finite k x y e : in_range F64 x -> in_range F64 y -> in_range F64 e -> ffin F64 x -> ffin F64 y -> ffin F64 e ->
  near k x y e = true <-> (rnd F64 (Rabs (fval F64 x - fval F64 y)) <= fval F64 e)%R.
Proof.
  intros Hx Hy He Fx Fy Fe. rewrite (near_iff k x y e Hx Hy He). cbv zeta. pose proof (fsub_ieee F64 k x y f64 Hx Hy) as (_ & _ & _ & _ & Su). specialize (Su Fx Fy).
  set (r := encode F64 k _) in *. clearbody r. set (v := (fval F64 x - fval F64 y)%R) in *. set (s := sign_of v _) in *. clearbody s. rewrite <- rnd_abs. destruct (fin_below e He Fe) as [Le _].
  unfold rounded in Su. destruct (Rlt_bool_spec (Rabs (rnd F64 v)) (bpow radix2 (max_exp F64))) as [L|L]; cbn [max_exp] in L.
  - destruct Su as (Fr & Vr & _). rewrite <- Vr, <- fabs_value. assert (Fa : ffin F64 (utest_fabs r)) by (apply fabs_class; exact Fr). split.
    + intros [_ H]. apply Rnot_lt_le. intros Lt. apply H. left. tauto.
    + intros H. split; [intros N; exact (fin_not_nan F64 r Fr N)|]. intros [(_ & _ & Lt)|[(E & _)|(E & _)]]; [lra| |].
      * rewrite E in Fe. exact (infinity_not_fin F64 true f64 Fe).
      * rewrite E in Fa. exact (infinity_not_fin F64 false f64 Fa).
  - subst r. rewrite infinity_abs. split.
    + intros [_ H]. exfalso. apply H. right. right. split; [reflexivity|]. split; [intros N; exact (fin_not_nan F64 e Fe N)|]. intros E. rewrite E in Fe. exact (infinity_not_fin F64 false f64 Fe).
    + intros H. exfalso. lra.
Qed.

Lemma near_close k x y e : in_range F64 x -> in_range F64 y -> in_range F64 e -> ffin F64 x -> ffin F64 y -> ffin F64 e ->
  (Rabs (fval F64 x - fval F64 y) <= fval F64 e)%R -> near k x y e = true.
Proof.
  intros Hx Hy He Fx Fy Fe H. apply near_finite; try assumption. destruct (fin_below e He Fe) as [_ <-]. unfold rnd. apply round_le; [apply FLT_exp_valid; reflexivity|apply valid_rnd_N|exact H].
Qed.

Lemma near_far k x y e e' : in_range F64 x -> in_range F64 y -> in_range F64 e -> in_range F64 e' -> ffin F64 x -> ffin F64 y -> ffin F64 e -> ffin F64 e' ->
  (fval F64 e < fval F64 e')%R -> (fval F64 e' <= Rabs (fval F64 x - fval F64 y))%R -> near k x y e = false.
Proof.
  intros Hx Hy He He' Fx Fy Fe Fe' L H. destruct (near k x y e) eqn:N; [|reflexivity]. exfalso. apply near_finite in N; try assumption.
  assert (M : (fval F64 e' <= rnd F64 (Rabs (fval F64 x - fval F64 y)))%R).
  { destruct (fin_below e' He' Fe') as [_ <-]. unfold rnd. apply round_le; [apply FLT_exp_valid; reflexivity|apply valid_rnd_N|exact H]. }
  lra.
Qed.

Lemma near_nan k x y e : in_range F64 x -> in_range F64 y -> in_range F64 e -> fnan F64 x \/ fnan F64 y -> near k x y e = false.
Proof.
  intros Hx Hy He H. destruct (near k x y e) eqn:N; [|reflexivity]. exfalso. apply near_iff in N; try assumption. destruct N as [N _]. apply N.
  exact (proj1 (fsub_ieee F64 k x y f64 Hx Hy) H).
Qed.

Lemma near_infinite k s e : in_range F64 e -> near k (infinity F64 s) (infinity F64 s) e = false.
Proof.
  intros He. assert (Hs : in_range F64 (infinity F64 s)) by (destruct s; unfold in_range; cbn; lia). destruct (near k _ _ e) eqn:N; [|reflexivity]. exfalso.
  apply near_iff in N; try assumption. destruct N as [N _]. apply N. pose proof (fsub_ieee F64 k _ _ f64 Hs Hs) as (_ & I2 & _).
  destruct (infinity_class F64 s f64) as [F Sg]. specialize (I2 F F). now rewrite eqb_reflx in I2.
Qed.

Lemma near_anything k x y e : in_range F64 x -> in_range F64 y -> in_range F64 e -> ffin F64 x -> ffin F64 y -> fnan F64 e -> near k x y e = true.
Proof.
  intros Hx Hy He Fx Fy Ne. apply near_iff; try assumption. split; [|exact (flt_nan_l F64 e _ f64 Ne)].
  pose proof (fsub_ieee F64 k x y f64 Hx Hy) as (_ & _ & _ & _ & Su). specialize (Su Fx Fy). unfold rounded in Su. destruct (Rlt_bool _ _).
  - destruct Su as (Fr & _). intros N. exact (fin_not_nan F64 _ Fr N).
  - rewrite Su. destruct (infinity_class F64 (sign_of (fval F64 x - fval F64 y) (sign_bit F64 x && negb (sign_bit F64 y))) f64) as [Fi _]. intros N. exact (inf_not_nan F64 _ Fi N).
Qed.
