(** Rounding twice: an operation on numbers of a format, evaluated in a much wider one and rounded, is the operation of the format. *)
From Coq Require Import ZArith Reals Bool Lia Psatz.
From Coq Require Import Floats.SpecFloat.
From Flocq Require Import Core BinarySingleNaN Double_rounding.
From Verif Require Import Types FloatBits FloatR Excess.
Open Scope Z_scope.

Section Round.
  Variables p e p' e' : Z.
  Context (Hp : Prec_gt_0 p) (He : Prec_lt_emax p e) (Hp' : Prec_gt_0 p') (He' : Prec_lt_emax p' e').
  Hypothesis Wp : p <= p'.
  Hypothesis We : e <= e'.

  Notation rnd := (round radix2 (SpecFloat.fexp p e) ZnearestE).
  Notation rnd' := (round radix2 (SpecFloat.fexp p' e') ZnearestE).

  Definition narrow (x : spec_float) : spec_float :=
    match x with
    | S754_finite s m ex => SpecFloat.binary_normalize p e (cond_Zopp s (Zpos m)) ex s
    | _ => x
    end.
  Definition widen (x : spec_float) : spec_float :=
    match x with
    | S754_finite s m ex => SpecFloat.binary_normalize p' e' (cond_Zopp s (Zpos m)) ex s
    | _ => x
    end.

  Lemma format_in (x : binary_float p e) : generic_format radix2 (SpecFloat.fexp p' e') (B2R x).
  Proof.
    apply generic_inclusion_mag with (fexp1 := SpecFloat.fexp p e); [|apply generic_format_B2R].
    intros _. unfold SpecFloat.fexp, SpecFloat.emin. unfold Prec_gt_0, Prec_lt_emax in *. lia.
  Qed.

  Lemma below (x : binary_float p e) : (Rabs (B2R x) < bpow radix2 e')%R.
  Proof.
    eapply Rlt_le_trans; [apply abs_B2R_lt_emax|]. apply bpow_le. unfold Prec_gt_0, Prec_lt_emax in *. lia.
  Qed.

  (** Every number of the narrow format is one of the wide format. *)
  Lemma widened (x : binary_float p e) : exists y : binary_float p' e',
    widen (B2SF x) = B2SF y /\ B2R y = B2R x /\ Bsign y = Bsign x /\ is_finite y = is_finite x /\ is_nan y = is_nan x.
  Proof.
    destruct x as [s|s| |s m ex B].
    - exists (B754_zero s). repeat split.
    - exists (B754_infinity s). repeat split.
    - exists B754_nan. repeat split.
    - exists (binary_normalize p' e' Hp' He' mode_NE (cond_Zopp s (Zpos m)) ex s).
      pose proof (binary_normalize_correct p' e' Hp' He' mode_NE (cond_Zopp s (Zpos m)) ex s) as H.
      cbn zeta in H. change (F2R (Float radix2 (cond_Zopp s (Zpos m)) ex)) with (B2R (B754_finite s m ex B)) in H.
      rewrite round_generic in H; [|apply valid_rnd_N|apply format_in]. rewrite Rlt_bool_true in H by apply below.
      destruct H as (H1 & H2 & H3). split; [apply binary_normalize_equiv|]. split; [exact H1|]. cbn [is_finite is_nan Bsign].
      split; [|split; [exact H2|apply is_nan_binary_normalize]]. rewrite H3. cbn [B2R].
      destruct s; cbn [cond_Zopp].
      + rewrite Rcompare_Lt; [reflexivity|]. now apply F2R_lt_0.
      + rewrite Rcompare_Gt; [reflexivity|]. now apply F2R_gt_0.
  Qed.

  (** A wide result, rounded: [r] is the exact one and [s] the sign. *)
  Lemma narrowed (z : binary_float p' e') (y : binary_float p e) r s :
    is_finite z = true -> B2R z = rnd' r -> Bsign z = s ->
    (if Rlt_bool (Rabs (rnd r)) (bpow radix2 e) then B2R y = rnd r /\ is_finite y = true /\ Bsign y = s
     else B2SF y = S754_infinity s) ->
    rnd (rnd' r) = rnd r -> narrow (B2SF z) = B2SF y.
  Proof.
    intros Fz Rz Sz Hy D. destruct z as [s'|s'| |s' m ex B]; try discriminate Fz; cbn [B2SF narrow Bsign B2R] in *; subst s'.
    - rewrite <- Rz in D. rewrite round_0 in D by apply valid_rnd_N. rewrite <- D in Hy.
      rewrite Rabs_R0, Rlt_bool_true in Hy by apply bpow_gt_0. destruct Hy as (R & F & S).
      change (S754_zero s) with (B2SF (B754_zero s : binary_float p e)). f_equal. symmetry.
      apply B2R_Bsign_inj; trivial.
    - rewrite (binary_normalize_equiv p e Hp He).
      pose proof (binary_normalize_correct p e Hp He mode_NE (cond_Zopp s (Zpos m)) ex s) as H. cbn zeta in H.
      cbn [round_mode] in H. rewrite Rz, D in H.
      assert (NZ : match Rcompare (rnd' r) 0 with Eq => s | Lt => true | Gt => false end = s).
      { rewrite <- Rz. destruct s; cbn [cond_Zopp].
        + rewrite Rcompare_Lt; [reflexivity|]. now apply F2R_lt_0.
        + rewrite Rcompare_Gt; [reflexivity|]. now apply F2R_gt_0. }
      destruct (Rlt_bool (Rabs (rnd r)) (bpow radix2 e)).
      + destruct H as (H1 & H2 & H3). destruct Hy as (R & F & S). f_equal. apply B2R_Bsign_inj; trivial; congruence.
      + rewrite H, Hy. cbn [binary_overflow overflow_to_inf]. f_equal.
        rewrite <- Rz. destruct s; cbn [cond_Zopp]; [apply Rlt_bool_true; now apply F2R_lt_0|].
        apply Rlt_bool_false. apply Rlt_le. now apply F2R_gt_0.
  Qed.

  Lemma widened_finite s m ex B : exists m' ex' B',
    widen (S754_finite s m ex) = B2SF (B754_finite s m' ex' B' : binary_float p' e') /\
    B2R (B754_finite s m' ex' B' : binary_float p' e') = B2R (B754_finite s m ex B : binary_float p e).
  Proof.
    destruct (widened (B754_finite s m ex B)) as (y & E & R & S & F & _). cbn [B2SF] in E. cbn [is_finite Bsign] in *.
    destruct y as [s'|s'| |s' m' ex' B']; try discriminate F.
    - exfalso. cbn [B2R] in R. symmetry in R. destruct s; cbn [cond_Zopp] in R.
      + assert (H : (F2R (Float radix2 (- Zpos m) ex) < 0)%R) by now apply F2R_lt_0. rewrite R in H. lra.
      + assert (H : (0 < F2R (Float radix2 (Zpos m) ex))%R) by now apply F2R_gt_0. rewrite R in H. lra.
    - cbn [Bsign] in S. subst s'. eauto.
  Qed.

  Ltac widened :=
    repeat match goal with
    | |- context [widen (S754_finite ?s ?m ?ex)] =>
        let m' := fresh "m'" in let ex' := fresh "ex'" in let B' := fresh "B'" in let W := fresh "W" in let R := fresh "RV" in
        match goal with B : bounded p e m ex = true |- _ => destruct (widened_finite s m ex B) as (m' & ex' & B' & W & R); rewrite W; clear W end
    | |- context [widen (S754_zero ?s)] => change (widen (S754_zero s)) with (S754_zero s)
    end.

  Theorem compare_widened (x y : binary_float p e) :
    SFcompare (widen (B2SF x)) (widen (B2SF y)) = SFcompare (B2SF x) (B2SF y).
  Proof.
    destruct x as [sx|sx| |sx mx ex Bx]; destruct y as [sy|sy| |sy my ey By]; try reflexivity;
      cbn [B2SF]; widened; try reflexivity.
    change (Bcompare (B754_finite sx m' ex' B' : binary_float p' e') (B754_finite sy m'0 ex'0 B'0) =
            Bcompare (B754_finite sx mx ex Bx : binary_float p e) (B754_finite sy my ey By)).
    rewrite !Bcompare_correct by reflexivity. now rewrite RV, RV0.
  Qed.

  Lemma sum_below (x y : binary_float p e) : (Rabs (B2R x + B2R y) <= bpow radix2 (e + 1))%R.
  Proof.
    pose proof (abs_B2R_lt_emax _ _ x). pose proof (abs_B2R_lt_emax _ _ y). rewrite bpow_plus. change (bpow radix2 1) with 2%R.
    eapply Rle_trans; [apply Rabs_triang|]. lra.
  Qed.

  Lemma sign_of_sum (a b : R) (s : bool) : (a + b <> 0)%R -> (if s then (a <= 0 /\ b <= 0)%R else (0 <= a /\ 0 <= b)%R) ->
    forall u : bool, match Rcompare (a + b) 0 with Eq => u | Lt => true | Gt => false end = s.
  Proof.
    intros N S u. destruct s.
    - rewrite Rcompare_Lt; [reflexivity|]. lra.
    - rewrite Rcompare_Gt; [reflexivity|]. lra.
  Qed.

  Lemma sign_le (x : binary_float p e) : if Bsign x then (B2R x <= 0)%R else (0 <= B2R x)%R.
  Proof.
    destruct x as [s|s| |s m ex B]; cbn [Bsign B2R]; try (destruct s; lra); try lra.
    destruct s; cbn [cond_Zopp]; apply Rlt_le; [now apply F2R_lt_0|now apply F2R_gt_0].
  Qed.

  (** An exact difference: no rounding in the wide format. *)
  Lemma sub_exact (x y : binary_float p e) (x' y' : binary_float p' e') :
    is_finite x = true -> is_finite y = true -> is_finite x' = true -> is_finite y' = true ->
    B2R x' = B2R x -> B2R y' = B2R y -> Bsign x' = Bsign x -> Bsign y' = Bsign y ->
    e + 1 < e' -> generic_format radix2 (SpecFloat.fexp p' e') (B2R x - B2R y) ->
    narrow (B2SF (Bminus mode_NE x' y')) = B2SF (Bminus mode_NE x y).
  Proof.
    intros Fx Fy Fx' Fy' Rx Ry Sx Sy Ee G.
    pose proof (Bminus_correct p e Hp He mode_NE x y Fx Fy) as H.
    pose proof (Bminus_correct p' e' Hp' He' mode_NE x' y' Fx' Fy') as H'.
    cbn [round_mode] in *. rewrite Rx, Ry, Sx, Sy in H'.
    assert (D : rnd' (B2R x - B2R y) = (B2R x - B2R y)%R) by (apply round_generic; [apply valid_rnd_N|exact G]).
    rewrite D, Rlt_bool_true in H'.
    2:{ replace (B2R x - B2R y)%R with (B2R x + B2R (Bopp y))%R by (rewrite B2R_Bopp; ring).
        eapply Rle_lt_trans; [apply sum_below|]. apply bpow_lt. exact Ee. }
    destruct H' as (R' & F' & S').
    apply (narrowed (Bminus mode_NE x' y') (Bminus mode_NE x y) (B2R x - B2R y) _ F' (eq_trans R' (eq_sym D)) S').
    - destruct (Rlt_bool_spec (Rabs (rnd (B2R x - B2R y))) (bpow radix2 e)) as [L|L]; [exact H|].
      destruct H as [H HS]. rewrite H. cbn [binary_overflow overflow_to_inf]. f_equal. symmetry. unfold Rminus. apply sign_of_sum.
      + intros E. unfold Rminus in L. rewrite E, round_0, Rabs_R0 in L by apply valid_rnd_N. pose proof (bpow_gt_0 radix2 e). lra.
      + pose proof (sign_le x) as A. pose proof (sign_le y) as B. rewrite HS in *. destruct (Bsign y); cbn [negb] in *; split; lra.
    - now rewrite D.
  Qed.

  Theorem sub_exact_twice (x y : binary_float p e) : is_finite x = true -> is_finite y = true -> e + 1 < e' ->
    generic_format radix2 (SpecFloat.fexp p' e') (B2R x - B2R y) ->
    narrow (SFsub p' e' (widen (B2SF x)) (widen (B2SF y))) = SFsub p e (B2SF x) (B2SF y).
  Proof.
    intros Fx Fy Ee G. destruct (widened x) as (x' & -> & Rx & Sx & Fx' & _). destruct (widened y) as (y' & -> & Ry & Sy & Fy' & _).
    rewrite (SFsub_equiv p' e' Hp' He'), (SFsub_equiv p e Hp He). apply sub_exact; congruence.
  Qed.

  Hypothesis Dp : 2 * p + 2 <= p'.
  Hypothesis De : 4 * e <= e'.

  Lemma no_overflow r k : (Rabs r <= bpow radix2 k)%R -> SpecFloat.emin p' e' <= k < e' ->
    Rlt_bool (Rabs (rnd' r)) (bpow radix2 e') = true.
  Proof.
    intros H K. apply Rlt_bool_true. apply Rle_lt_trans with (bpow radix2 k); [|apply bpow_lt; lia].
    apply abs_round_le_generic; [apply fexp_correct; exact Hp'|apply valid_rnd_N| |exact H].
    apply generic_format_bpow. unfold SpecFloat.fexp. unfold Prec_gt_0, Prec_lt_emax in *. lia.
  Qed.

  Lemma in_FLT (x : binary_float p e) : FLT_format radix2 (SpecFloat.emin p e) p (B2R x).
  Proof. apply FLT_format_generic; [exact Hp|]. apply generic_format_B2R. Qed.

  Ltac ranges := unfold SpecFloat.emin; unfold Prec_gt_0, Prec_lt_emax in *; lia.

  Lemma add_finite (x y : binary_float p e) (x' y' : binary_float p' e') :
    is_finite x = true -> is_finite y = true -> is_finite x' = true -> is_finite y' = true ->
    B2R x' = B2R x -> B2R y' = B2R y -> Bsign x' = Bsign x -> Bsign y' = Bsign y ->
    narrow (B2SF (Bplus mode_NE x' y')) = B2SF (Bplus mode_NE x y).
  Proof.
    intros Fx Fy Fx' Fy' Rx Ry Sx Sy.
    pose proof (Bplus_correct p e Hp He mode_NE x y Fx Fy) as H.
    pose proof (Bplus_correct p' e' Hp' He' mode_NE x' y' Fx' Fy') as H'.
    cbn [round_mode] in *. rewrite Rx, Ry, Sx, Sy in H'.
    rewrite (no_overflow (B2R x + B2R y) (e + 1)) in H' by (first [apply sum_below|ranges]).
    destruct H' as (R' & F' & S').
    apply (narrowed (Bplus mode_NE x' y') (Bplus mode_NE x y) (B2R x + B2R y) _ F' R' S').
    - destruct (Rlt_bool_spec (Rabs (rnd (B2R x + B2R y))) (bpow radix2 e)) as [L|L]; [exact H|].
      destruct H as [H HS]. rewrite H. cbn [binary_overflow overflow_to_inf]. f_equal. symmetry. apply sign_of_sum.
      + intros E. rewrite E, round_0, Rabs_R0 in L by apply valid_rnd_N. pose proof (bpow_gt_0 radix2 e). lra.
      + pose proof (sign_le x) as A. pose proof (sign_le y) as B. rewrite <- HS in B. destruct (Bsign x); split; assumption.
    - apply round_round_plus_FLT; try assumption; try apply in_FLT; ranges.
  Qed.

  Lemma sub_finite (x y : binary_float p e) (x' y' : binary_float p' e') :
    is_finite x = true -> is_finite y = true -> is_finite x' = true -> is_finite y' = true ->
    B2R x' = B2R x -> B2R y' = B2R y -> Bsign x' = Bsign x -> Bsign y' = Bsign y ->
    narrow (B2SF (Bminus mode_NE x' y')) = B2SF (Bminus mode_NE x y).
  Proof.
    intros Fx Fy Fx' Fy' Rx Ry Sx Sy.
    pose proof (Bminus_correct p e Hp He mode_NE x y Fx Fy) as H.
    pose proof (Bminus_correct p' e' Hp' He' mode_NE x' y' Fx' Fy') as H'.
    cbn [round_mode] in *. rewrite Rx, Ry, Sx, Sy in H'.
    rewrite (no_overflow (B2R x - B2R y) (e + 1)) in H'.
    2:{ replace (B2R x - B2R y)%R with (B2R x + B2R (Bopp y))%R by (rewrite B2R_Bopp; ring). apply sum_below. }
    2: ranges.
    destruct H' as (R' & F' & S').
    apply (narrowed (Bminus mode_NE x' y') (Bminus mode_NE x y) (B2R x - B2R y) _ F' R' S').
    - destruct (Rlt_bool_spec (Rabs (rnd (B2R x - B2R y))) (bpow radix2 e)) as [L|L]; [exact H|].
      destruct H as [H HS]. rewrite H. cbn [binary_overflow overflow_to_inf]. f_equal. symmetry. unfold Rminus. apply sign_of_sum.
      + intros E. unfold Rminus in L. rewrite E, round_0, Rabs_R0 in L by apply valid_rnd_N. pose proof (bpow_gt_0 radix2 e). lra.
      + pose proof (sign_le x) as A. pose proof (sign_le y) as B. rewrite HS in *. destruct (Bsign y); cbn [negb] in *; split; lra.
    - apply round_round_minus_FLT; try assumption; try apply in_FLT; ranges.
  Qed.

  Lemma not_nan {q f} (x : binary_float q f) : is_finite x = true -> is_nan x = false.
  Proof. destruct x; cbn; congruence. Qed.

  Lemma mul_finite (x y : binary_float p e) (x' y' : binary_float p' e') :
    is_finite x = true -> is_finite y = true -> is_finite x' = true -> is_finite y' = true ->
    B2R x' = B2R x -> B2R y' = B2R y -> Bsign x' = Bsign x -> Bsign y' = Bsign y ->
    narrow (B2SF (Bmult mode_NE x' y')) = B2SF (Bmult mode_NE x y).
  Proof.
    intros Fx Fy Fx' Fy' Rx Ry Sx Sy.
    pose proof (Bmult_correct p e Hp He mode_NE x y) as H.
    pose proof (Bmult_correct p' e' Hp' He' mode_NE x' y') as H'.
    cbn [round_mode] in *. rewrite Rx, Ry, Sx, Sy, Fx', Fy' in H'. rewrite Fx, Fy in H. cbn [andb] in *.
    rewrite (no_overflow (B2R x * B2R y) (e + e)) in H'.
    2:{ rewrite Rabs_mult, bpow_plus. apply Rlt_le. apply Rmult_le_0_lt_compat; try apply Rabs_pos; apply abs_B2R_lt_emax. }
    2: ranges.
    destruct H' as (R' & F' & S'). specialize (S' (not_nan _ F')).
    apply (narrowed (Bmult mode_NE x' y') (Bmult mode_NE x y) (B2R x * B2R y) _ F' R' S').
    - destruct (Rlt_bool_spec (Rabs (rnd (B2R x * B2R y))) (bpow radix2 e)) as [L|L].
      + destruct H as (R & F & S). split; [exact R|]. split; [exact F|]. apply S. now apply not_nan.
      + rewrite H. reflexivity.
    - apply round_round_mult_FLT; try assumption; try apply in_FLT; try ranges. apply valid_rnd_N.
  Qed.

  Lemma div_finite (x y : binary_float p e) (x' y' : binary_float p' e') :
    is_finite x = true -> is_finite_strict y = true -> is_finite x' = true ->
    B2R x' = B2R x -> B2R y' = B2R y -> Bsign x' = Bsign x -> Bsign y' = Bsign y ->
    narrow (B2SF (Bdiv mode_NE x' y')) = B2SF (Bdiv mode_NE x y).
  Proof.
    intros Fx Fy Fx' Rx Ry Sx Sy.
    pose proof (abs_B2R_ge_emin p e y Fy) as GY. pose proof (bpow_gt_0 radix2 (SpecFloat.emin p e)) as G0.
    assert (NY : B2R y <> 0%R). { intros E. rewrite E, Rabs_R0 in GY. lra. }
    pose proof (Bdiv_correct p e Hp He mode_NE x y NY) as H.
    assert (NY' : B2R y' <> 0%R) by congruence.
    pose proof (Bdiv_correct p' e' Hp' He' mode_NE x' y' NY') as H'.
    cbn [round_mode] in *. rewrite Rx, Ry, Sx, Sy, Fx' in H'. rewrite Fx in H.
    rewrite (no_overflow (B2R x / B2R y) (e - SpecFloat.emin p e)) in H'.
    2:{ unfold Rdiv. rewrite Rabs_mult. unfold Z.sub. rewrite bpow_plus, bpow_opp. rewrite Rabs_inv.
        apply Rmult_le_compat; [apply Rabs_pos| |apply Rlt_le, abs_B2R_lt_emax|].
        - apply Rlt_le, Rinv_0_lt_compat. lra.
        - apply Rinv_le; lra. }
    2: ranges.
    destruct H' as (R' & F' & S'). specialize (S' (not_nan _ F')).
    apply (narrowed (Bdiv mode_NE x' y') (Bdiv mode_NE x y) (B2R x / B2R y) _ F' R' S').
    - destruct (Rlt_bool_spec (Rabs (rnd (B2R x / B2R y))) (bpow radix2 e)) as [L|L].
      + destruct H as (R & F & S). split; [exact R|]. split; [exact F|]. apply S. now apply not_nan.
      + rewrite H. reflexivity.
    - apply round_round_div_FLT; try assumption; try apply in_FLT; try ranges. exists 1. reflexivity.
  Qed.

  Theorem add_twice (x y : binary_float p e) :
    narrow (SFadd p' e' (widen (B2SF x)) (widen (B2SF y))) = SFadd p e (B2SF x) (B2SF y).
  Proof.
    destruct x as [sx|sx| |sx mx ex Bx]; destruct y as [sy|sy| |sy my ey By];
      try (cbn [B2SF widen narrow SFadd]; try match goal with |- context [if ?b then _ else _] => destruct b end; reflexivity);
      cbn [B2SF]; widened; try reflexivity.
    - change (S754_zero sx) with (B2SF (B754_zero sx : binary_float p' e')) at 1. rewrite (SFadd_equiv p' e' Hp' He').
      change (S754_zero sx) with (B2SF (B754_zero sx : binary_float p e)).
      change (S754_finite sy my ey) with (B2SF (B754_finite sy my ey By : binary_float p e)). rewrite (SFadd_equiv p e Hp He).
      apply add_finite; trivial.
    - change (S754_zero sy) with (B2SF (B754_zero sy : binary_float p' e')) at 1. rewrite (SFadd_equiv p' e' Hp' He').
      change (S754_zero sy) with (B2SF (B754_zero sy : binary_float p e)).
      change (S754_finite sx mx ex) with (B2SF (B754_finite sx mx ex Bx : binary_float p e)). rewrite (SFadd_equiv p e Hp He).
      apply add_finite; trivial.
    - rewrite (SFadd_equiv p' e' Hp' He').
      change (S754_finite sx mx ex) with (B2SF (B754_finite sx mx ex Bx : binary_float p e)).
      change (S754_finite sy my ey) with (B2SF (B754_finite sy my ey By : binary_float p e)). rewrite (SFadd_equiv p e Hp He).
      apply add_finite; trivial.
  Qed.

  Theorem sub_twice (x y : binary_float p e) :
    narrow (SFsub p' e' (widen (B2SF x)) (widen (B2SF y))) = SFsub p e (B2SF x) (B2SF y).
  Proof.
    destruct x as [sx|sx| |sx mx ex Bx]; destruct y as [sy|sy| |sy my ey By];
      try (cbn [B2SF widen narrow SFsub]; try match goal with |- context [if ?b then _ else _] => destruct b end; reflexivity);
      cbn [B2SF]; widened; try reflexivity.
    - change (S754_zero sx) with (B2SF (B754_zero sx : binary_float p' e')) at 1. rewrite (SFsub_equiv p' e' Hp' He').
      change (S754_zero sx) with (B2SF (B754_zero sx : binary_float p e)).
      change (S754_finite sy my ey) with (B2SF (B754_finite sy my ey By : binary_float p e)). rewrite (SFsub_equiv p e Hp He).
      apply sub_finite; trivial.
    - change (S754_zero sy) with (B2SF (B754_zero sy : binary_float p' e')) at 1. rewrite (SFsub_equiv p' e' Hp' He').
      change (S754_zero sy) with (B2SF (B754_zero sy : binary_float p e)).
      change (S754_finite sx mx ex) with (B2SF (B754_finite sx mx ex Bx : binary_float p e)). rewrite (SFsub_equiv p e Hp He).
      apply sub_finite; trivial.
    - rewrite (SFsub_equiv p' e' Hp' He').
      change (S754_finite sx mx ex) with (B2SF (B754_finite sx mx ex Bx : binary_float p e)).
      change (S754_finite sy my ey) with (B2SF (B754_finite sy my ey By : binary_float p e)). rewrite (SFsub_equiv p e Hp He).
      apply sub_finite; trivial.
  Qed.

  Theorem mul_twice (x y : binary_float p e) :
    narrow (SFmul p' e' (widen (B2SF x)) (widen (B2SF y))) = SFmul p e (B2SF x) (B2SF y).
  Proof.
    destruct x as [sx|sx| |sx mx ex Bx]; destruct y as [sy|sy| |sy my ey By]; try reflexivity;
      cbn [B2SF]; widened; try reflexivity.
    rewrite (SFmul_equiv p' e' Hp' He').
    change (S754_finite sx mx ex) with (B2SF (B754_finite sx mx ex Bx : binary_float p e)).
    change (S754_finite sy my ey) with (B2SF (B754_finite sy my ey By : binary_float p e)). rewrite (SFmul_equiv p e Hp He).
    apply mul_finite; trivial.
  Qed.

  Theorem div_twice (x y : binary_float p e) :
    narrow (SFdiv p' e' (widen (B2SF x)) (widen (B2SF y))) = SFdiv p e (B2SF x) (B2SF y).
  Proof.
    destruct x as [sx|sx| |sx mx ex Bx]; destruct y as [sy|sy| |sy my ey By]; try reflexivity;
      cbn [B2SF]; widened; try reflexivity.
    rewrite (SFdiv_equiv p' e' Hp' He').
    change (S754_finite sx mx ex) with (B2SF (B754_finite sx mx ex Bx : binary_float p e)).
    change (S754_finite sy my ey) with (B2SF (B754_finite sy my ey By : binary_float p e)). rewrite (SFdiv_equiv p e Hp He).
    apply div_finite; trivial.
  Qed.

End Round.

(** The same format. *)
Lemma narrow_same p e (Hp : Prec_gt_0 p) (He : Prec_lt_emax p e) (x : binary_float p e) : narrow p e (B2SF x) = B2SF x.
Proof.
  destruct x as [s|s| |s m ex B]; try reflexivity.
  destruct (widened p e p e Hp He ltac:(lia) ltac:(lia) (B754_finite s m ex B)) as (y & E & R & S & F & N).
  change (narrow p e (B2SF (B754_finite s m ex B)) = B2SF y) in E. rewrite E. f_equal. apply B2R_Bsign_inj; trivial.
Qed.
