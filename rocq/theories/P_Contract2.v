(** Proofs about the three functions that contain a sum with a floating-point product in it. *)
From Coq Require Import ZArith String List Bool Lia Reals Lra.
From Flocq Require Import Core.
From Coq Require Import SpecFloat.
From Verif Require Import Types FloatBits FloatSpec FloatR Syntax Interp ProgRecip Spec.
From Verif Require Import ProgMul ProgShift P_Recps Contract ContractSpec.
Import ListNotations.
Open Scope Z_scope.

(** ** The fused operation *)

Lemma rounded_zero t s r : fty t -> rounded t 0 s r -> ffin t r /\ fval t r = 0%R /\ sign_bit t r = s.
Proof.
  intros Ht H. unfold rounded in H. assert (E : rnd t 0 = 0%R) by (unfold rnd; apply round_0; apply valid_rnd_N).
  rewrite E, Rabs_R0, Rlt_bool_true in H by apply bpow_gt_0. exact H.
Qed.

Lemma sign_of_nonzero v s s' : v <> 0%R -> sign_of v s = sign_of v s'.
Proof. intros H. unfold sign_of. destruct (Rcompare_spec v 0); [reflexivity|contradiction|reflexivity]. Qed.

(** Through a product of the format: when it is exact. *)
Lemma fadd_fmul t k x y z : fty t -> in_range t x -> in_range t y -> in_range t z ->
  exists p, in_range t p /\ ieee_mul t x y p /\ ieee_add t p z (encode t k (fadd t (fmul t (decode t x) (decode t y)) (decode t z))).
Proof.
  intros Ht Hx Hy Hz. exists (encode t 0 (fmul t (decode t x) (decode t y))).
  destruct (decode_denotes t x Ht Hx) as (bx & Ex & _). destruct (decode_denotes t y Ht Hy) as (by_ & Ey & _).
  assert (V : valid_binary (fprec t) (femax t) (fmul t (decode t x) (decode t y)) = true).
  { rewrite Ex, Ey. unfold fmul. rewrite (SFmul_equiv _ _ (Hprec t) (Hmax t)). apply BinarySingleNaN.valid_binary_B2SF. }
  destruct (encode_spec t 0 _ Ht V) as [R D]. split; [exact R|]. split; [now apply fmul_ieee|].
  pose proof (fadd_ieee t k _ z Ht R Hz) as A. rewrite D in A. exact A.
Qed.

Lemma F2R_align p e' e : e' <= e -> F2R (Float radix2 (p * 2 ^ (e - e')) e') = F2R (Float radix2 p e).
Proof.
  intros H. unfold F2R. cbn [Fnum Fexp]. rewrite mult_IZR, (IZR_Zpower radix2) by lia.
  rewrite Rmult_assoc, <- bpow_plus. f_equal. f_equal. lia.
Qed.

Lemma F2R_prod a ea b eb : (F2R (Float radix2 a ea) * F2R (Float radix2 b eb))%R = F2R (Float radix2 (a * b) (ea + eb)).
Proof. unfold F2R. cbn [Fnum Fexp]. rewrite mult_IZR, bpow_plus. ring. Qed.

Lemma cond_mul sx sy mx my : cond_Zopp sx (Zpos mx) * cond_Zopp sy (Zpos my) = cond_Zopp (xorb sx sy) (Zpos mx * Zpos my).
Proof. destruct sx, sy; cbn [cond_Zopp xorb]; lia. Qed.

Lemma F2R_sign s m e : sign_of (F2R (Float radix2 (cond_Zopp s (Zpos m)) e)) s = s.
Proof.
  unfold sign_of. destruct s; cbn [cond_Zopp].
  - rewrite Rcompare_Lt; [reflexivity|]. now apply F2R_lt_0.
  - rewrite Rcompare_Gt; [reflexivity|]. now apply F2R_gt_0.
Qed.

Theorem fma_ieee t k x y z : fty t -> in_range t x -> in_range t y -> in_range t z ->
  ieee_fma t x y z (encode t k (sf_fma t (decode t x) (decode t y) (decode t z))).
Proof.
  intros Ht Hx Hy Hz.
  pose proof (fadd_fmul t k x y z Ht Hx Hy Hz) as FM.
  pose proof (decode_decoded t x Ht Hx) as Dx. pose proof (decode_decoded t y Ht Hy) as Dy. pose proof (decode_decoded t z Ht Hz) as Dz.
  (* the operands whose product is exact *)
  assert (VIA : (forall sx mx ex sy my ey, decode t x = S754_finite sx mx ex -> decode t y = S754_finite sy my ey -> False) ->
    ieee_fma t x y z (encode t k (fadd t (fmul t (decode t x) (decode t y)) (decode t z)))).
  { intros NF. set (r := encode t k _) in *. destruct FM as (p & Rp & Mp & Ap).
    assert (Z0 : ffin t x -> ffin t y -> (fval t x * fval t y = 0)%R).
    { intros Fx Fy. inversion Dx as [N E | I P E | F V P E | m e F V B E].
      - destruct (fin_not_nan _ _ Fx N).
      - destruct (fin_not_inf _ _ Fx I).
      - rewrite V. ring.
      - inversion Dy as [N' E' | I' P' E' | F' V' P' E' | m' e' F' V' B' E'].
        + destruct (fin_not_nan _ _ Fy N').
        + destruct (fin_not_inf _ _ Fy I').
        + rewrite V'. ring.
        + exfalso. exact (NF _ _ _ _ _ _ (eq_sym E) (eq_sym E')). }
    destruct Mp as (M1 & M2 & M3 & M4 & M5). destruct Ap as (A1 & A2 & A3 & A4 & A5).
    assert (INF : forall s, p = infinity t s -> finf t p /\ sign_bit t p = s) by (intros s ->; now apply infinity_class).
    assert (IP : ~ fnan t x /\ ~ fnan t y /\ (finf t x \/ finf t y) /\
      ~ ((finf t x /\ ffin t y /\ fval t y = 0%R) \/ (ffin t x /\ fval t x = 0%R /\ finf t y)) -> p = infinity t (xorb (sign_bit t x) (sign_bit t y))).
    { intros (Nx & Ny & Io & Nz). destruct (fclass t x) as [?|[Ix|Fx]]; [contradiction| |]; (destruct (fclass t y) as [?|[Iy|Fy]]; [contradiction| |]).
      - now apply M2.
      - specialize (M3 Ix Fy). destruct (Req_bool_spec (fval t y) 0); [exfalso; apply Nz; left; auto|exact M3].
      - specialize (M4 Fx Iy). destruct (Req_bool_spec (fval t x) 0); [exfalso; apply Nz; right; auto|exact M4].
      - exfalso. destruct Io; eauto using fin_not_inf. }
    refine (conj _ (conj _ (conj _ (conj _ _)))).
    - intros [N|[N|[N|[(Ix & Fy & V)|(Fx & V & Iy)]]]]; apply A1.
      + left. apply M1. now left.
      + left. apply M1. now right.
      + now right.
      + left. specialize (M3 Ix Fy). now rewrite Req_bool_true in M3.
      + left. specialize (M4 Fx Iy). now rewrite Req_bool_true in M4.
    - intros H Iz. apply IP in H. destruct (INF _ H) as [Ip Sp]. specialize (A2 Ip Iz). rewrite Sp in A2.
      destruct (eqb _ _) eqn:Q; [|exact A2]. rewrite A2. rewrite (inf_pattern t z Ht Hz Iz), H. f_equal. now apply eqb_prop.
    - intros H Fz. apply IP in H. destruct (INF _ H) as [Ip _]. now rewrite (A3 Ip Fz).
    - intros Fx Fy Iz. specialize (M5 Fx Fy). rewrite (Z0 Fx Fy) in M5. apply (rounded_zero t _ _ Ht) in M5. destruct M5 as (Fp & _ & _). now apply A4.
    - intros Fx Fy Fz. specialize (M5 Fx Fy). rewrite (Z0 Fx Fy) in *. apply (rounded_zero t _ _ Ht) in M5. destruct M5 as (Fp & Vp & Sp).
      specialize (A5 Fp Fz). rewrite Vp, Sp in A5. exact A5. }
  inversion Dx as [N E | I P E | F V P E | mx ex Fx Vx Bx E];
    try (rewrite <- E in VIA; apply VIA; intros; discriminate).
  inversion Dy as [N' E' | I' P' E' | F' V' P' E' | my ey Fy Vy By E'];
    try (rewrite <- E, <- E' in VIA; apply VIA; intros; discriminate).
  (* both finite and not zero *)
  clear VIA FM. assert (PV : (fval t x * fval t y)%R = F2R (Float radix2 (cond_Zopp (xorb (sign_bit t x) (sign_bit t y)) (Zpos mx * Zpos my)) (ex + ey))).
  { rewrite Vx, Vy, F2R_prod, cond_mul. reflexivity. }
  assert (FIN : ~ fnan t x /\ ~ fnan t y /\ ~ finf t x /\ ~ finf t y) by (repeat split; intros ?; eauto using fin_not_nan, fin_not_inf).
  destruct FIN as (Nx & Ny & Ix & Iy).
  assert (SKIP : forall r, (fnan t z -> fnan t r) -> (finf t z -> r = z) ->
     (ffin t z -> rounded t (fval t x * fval t y + fval t z)
       (sign_of (fval t x * fval t y + fval t z) (xorb (sign_bit t x) (sign_bit t y) && sign_bit t z)) r) -> ieee_fma t x y z r).
  { intros r H1 H2 H3. unfold ieee_fma. cbv zeta. refine (conj _ (conj _ (conj _ (conj _ _)))); tauto. }
  inversion Dz as [Nz Ez | Iz Pz Ez | Fz Vz Pz Ez | mz ez Fz Vz Bz Ez]; cbn [sf_fma].
  - apply SKIP; [|intros ?; exfalso; eauto using inf_not_nan|intros ?; exfalso; eauto using fin_not_nan].
    intros _. apply denotes_nan_inv. exact (proj1 (encode_denotes t k BinarySingleNaN.B754_nan Ht)).
  - apply SKIP; [intros ?; exfalso; eauto using inf_not_nan| |intros ?; exfalso; eauto using fin_not_inf].
    intros _. rewrite Pz at 2. apply denotes_inf_inv. exact (proj1 (encode_denotes t k (BinarySingleNaN.B754_infinity (sign_bit t z)) Ht)).
  - apply SKIP; [intros ?; exfalso; eauto using fin_not_nan|intros ?; exfalso; eauto using fin_not_inf|].
    intros _. rewrite Vz, Rplus_0_r, PV.
    pose proof (normalize_rounded t k (cond_Zopp (xorb (sign_bit t x) (sign_bit t y)) (Zpos mx * Zpos my)) (ex + ey) (xorb (sign_bit t x) (sign_bit t y)) Ht) as H.
    cbv zeta in H. erewrite sign_of_nonzero; [exact H|].
    intros Q. apply eq_0_F2R in Q. destruct (xorb _ _); discriminate Q.
  - apply SKIP; [intros ?; exfalso; eauto using fin_not_nan|intros ?; exfalso; eauto using fin_not_inf|].
    intros _. set (e := Z.min (ex + ey) ez).
    set (sp := xorb (sign_bit t x) (sign_bit t y)) in *.
    pose proof (normalize_rounded t k (cond_Zopp sp (Zpos mx * Zpos my) * 2 ^ (ex + ey - e) + cond_Zopp (sign_bit t z) (Zpos mz) * 2 ^ (ez - e)) e false Ht) as H.
    cbv zeta in H.
    assert (SV : F2R (Float radix2 (cond_Zopp sp (Zpos mx * Zpos my) * 2 ^ (ex + ey - e) + cond_Zopp (sign_bit t z) (Zpos mz) * 2 ^ (ez - e)) e)
       = (fval t x * fval t y + fval t z)%R).
    { rewrite PV, Vz. rewrite <- (F2R_align _ e (ex + ey)), <- (F2R_align _ e ez) by (unfold e; lia).
      unfold F2R. cbn [Fnum Fexp]. rewrite plus_IZR. ring. }
    rewrite SV in H. set (v := (fval t x * fval t y + fval t z)%R) in *.
    replace (sign_of v (sp && sign_bit t z)) with (sign_of v false); [exact H|].
    destruct (Req_dec v 0) as [Z|Z]; [|now apply sign_of_nonzero].
    (* a sum that is exactly zero has operands of opposite signs *)
    replace (sp && sign_bit t z) with false; [reflexivity|].
    unfold v in Z. rewrite PV, Vz in Z. destruct sp, (sign_bit t z); trivial. cbn [cond_Zopp] in Z. exfalso.
    assert (A : (F2R (Float radix2 (- (Zpos mx * Zpos my)) (ex + ey)) < 0)%R) by (apply F2R_lt_0; cbn; lia).
    assert (B : (F2R (Float radix2 (- Zpos mz) ez) < 0)%R) by (apply F2R_lt_0; cbn; lia).
    lra.
Qed.

(** The product of two floats, subtracted from 2 in double. *)
Definition fused2 (c : cfg) (k x y : Z) : Z :=
  to_single c (encode F64 k (sf_fma F64 (SFopp (decode F32 x)) (decode F32 y) (decode F64 two))).

Lemma two_decode : decode F64 two = S754_finite false 4503599627370496 (-51).
Proof. reflexivity. Qed.
Lemma two_value : F2R (Float radix2 4503599627370496 (-51)) = 2%R.
Proof.
  unfold F2R. cbn [Fnum Fexp]. change 4503599627370496 with (2 ^ 52). rewrite (IZR_Zpower radix2) by lia.
  rewrite <- bpow_plus. reflexivity.
Qed.
Lemma rnd_two : rnd F64 2 = 2%R.
Proof.
  rewrite <- two_value. apply round_generic; [apply valid_rnd_N|]. apply generic_format_FLT.
  exists (Float radix2 4503599627370496 (-51)); cbn; lia || reflexivity.
Qed.

Lemma single_of_rounded c v s q : in_range F64 q -> (Rabs (rnd F64 v) < bpow radix2 1024)%R -> rounded F64 v s q ->
  rounded F32 (rnd F64 v) s (to_single c q).
Proof.
  intros Hq Hv H. unfold rounded in H. change (max_exp F64) with 1024 in H. rewrite Rlt_bool_true in H by exact Hv. destruct H as (F & V & S).
  pose proof (cvt_rounded F64 F32 (nan_of c FCvt F32 q q) q (or_intror eq_refl) (or_introl eq_refl) Hq F) as H.
  rewrite V, S in H. exact H.
Qed.

Lemma single_inf c k s : to_single c (encode F64 k (S754_infinity s)) = infinity F32 s.
Proof.
  unfold to_single. destruct (encode_spec F64 k (S754_infinity s) (or_intror eq_refl) eq_refl) as [_ D]. rewrite D. cbn [sf_cvt].
  apply denotes_inf_inv. exact (proj1 (encode_denotes F32 _ (BinarySingleNaN.B754_infinity s) (or_introl eq_refl))).
Qed.
Lemma single_nan c k : fnan F32 (to_single c (encode F64 k S754_nan)).
Proof.
  unfold to_single. destruct (encode_spec F64 k S754_nan (or_intror eq_refl) eq_refl) as [_ D]. rewrite D. cbn [sf_cvt].
  apply denotes_nan_inv. exact (proj1 (encode_denotes F32 _ BinarySingleNaN.B754_nan (or_introl eq_refl))).
Qed.

Lemma product_small x y : in_range F32 x -> in_range F32 y -> ffin F32 x -> ffin F32 y ->
  (Rabs (rnd F64 (2 - fval F32 x * fval F32 y)) < bpow radix2 1024)%R.
Proof.
  intros Hx Hy Fx Fy.
  pose proof (fval_bound F32 x (or_introl eq_refl) Hx Fx) as Bx. pose proof (fval_bound F32 y (or_introl eq_refl) Hy Fy) as By.
  change (max_exp F32) with 128 in *.
  assert (P : (Rabs (2 - fval F32 x * fval F32 y) <= bpow radix2 257)%R).
  { eapply Rle_trans; [apply Rabs_triang|]. rewrite Rabs_Ropp, Rabs_mult.
    assert (M : (Rabs (fval F32 x) * Rabs (fval F32 y) <= bpow radix2 128 * bpow radix2 128)%R).
    { apply Rmult_le_compat; try apply Rabs_pos; lra. }
    rewrite <- bpow_plus in M. change (128 + 128) with 256 in M.
    assert (T : (Rabs 2 <= bpow radix2 256)%R).
    { rewrite Rabs_pos_eq by lra. change 2%R with (bpow radix2 1). apply bpow_le. lia. }
    change 257 with (256 + 1). rewrite bpow_plus_1. change (IZR radix2) with 2%R. lra. }
  eapply Rle_lt_trans with (bpow radix2 257); [|apply bpow_lt; lia].
  apply abs_round_le_generic; [typeclasses eauto|typeclasses eauto| |exact P].
  apply generic_format_bpow. unfold FLT_exp. cbn. lia.
Qed.

Theorem fused2_spec c k x y : in_range F32 x -> in_range F32 y ->
  fused_in_double x y (fused2 c k x y) /\ in_range F32 (fused2 c k x y).
Proof.
  intros Hx Hy. assert (f32 : fty F32) by now left. assert (f64 : fty F64) by now right.
  split.
  2: { unfold fused2. unfold to_single. now apply cvt_range. }
  pose proof (decode_decoded F32 x f32 Hx) as Dx. pose proof (decode_decoded F32 y f32 Hy) as Dy.
  pose proof (product_small x y Hx Hy) as SM.
  unfold fused2. rewrite two_decode. unfold fused_in_double. cbv zeta.
  assert (ON : forall u, fnan F32 u -> ~ finf F32 u /\ ~ ffin F32 u) by (intros u A; split; intros B; eauto using inf_not_nan, fin_not_nan).
  assert (OI : forall u, finf F32 u -> ~ fnan F32 u /\ ~ ffin F32 u) by (intros u A; split; intros B; eauto using inf_not_nan, fin_not_inf).
  assert (OF : forall u, ffin F32 u -> ~ fnan F32 u /\ ~ finf F32 u) by (intros u A; split; intros B; eauto using fin_not_nan, fin_not_inf).
  (* the result is not a number *)
  assert (NAN : forall v, v = S754_nan -> (~ ffin F32 x \/ ~ ffin F32 y) ->
    (fnan F32 x \/ fnan F32 y \/ (finf F32 x /\ ffin F32 y /\ fval F32 y = 0%R \/ ffin F32 x /\ fval F32 x = 0%R /\ finf F32 y)) ->
    fused_in_double x y (to_single c (encode F64 k v))).
  { intros v -> NF C. unfold fused_in_double. cbv zeta. split; [intros _; apply single_nan|]. split; [|tauto].
    intros Nx Ny _ NZ. exfalso. tauto. }
  (* it is infinite *)
  assert (INF : forall v, v = S754_infinity (negb (xorb (sign_bit F32 x) (sign_bit F32 y))) -> ~ fnan F32 x -> ~ fnan F32 y -> (finf F32 x \/ finf F32 y) ->
    ~ (finf F32 x /\ ffin F32 y /\ fval F32 y = 0%R \/ ffin F32 x /\ fval F32 x = 0%R /\ finf F32 y) ->
    fused_in_double x y (to_single c (encode F64 k v))).
  { intros v -> Nx Ny C NZ. unfold fused_in_double. cbv zeta. split; [tauto|]. split; [intros _ _ _ _; apply single_inf|].
    intros Fx Fy. destruct (OF _ Fx), (OF _ Fy). tauto. }
  (* it is finite *)
  assert (FIN : forall v, ffin F32 x -> ffin F32 y ->
    rounded F64 (2 - fval F32 x * fval F32 y) (sign_of (2 - fval F32 x * fval F32 y) false) (encode F64 k v) -> in_range F64 (encode F64 k v) ->
    fused_in_double x y (to_single c (encode F64 k v))).
  { intros v Fx Fy R Q. destruct (OF _ Fx), (OF _ Fy). unfold fused_in_double. cbv zeta. split; [tauto|]. split; [tauto|].
    intros _ _. apply single_of_rounded; auto. }
  assert (ZERO : forall v, v = S754_finite false 4503599627370496 (-51) -> ffin F32 x -> ffin F32 y -> (fval F32 x * fval F32 y = 0)%R ->
    fused_in_double x y (to_single c (encode F64 k v))).
  { intros v -> Fx Fy Z. apply FIN; trivial.
    - rewrite Z, Rminus_0_r. pose proof (normalize_rounded F64 k 4503599627370496 (-51) false f64) as H. cbv zeta in H.
      rewrite two_value in H. exact H.
    - apply encode_spec; [exact f64|reflexivity]. }
  assert (NZ : forall s m e, F2R (Float radix2 (cond_Zopp s (Zpos m)) e) <> 0%R) by (intros s m e Q; apply eq_0_F2R in Q; destruct s; discriminate Q).
  inversion Dx as [N E | I P E | F V P E | mx ex Fx Vx Bx E];
  inversion Dy as [N' E' | I' P' E' | F' V' P' E' | my ey Fy Vy By E']; cbn [SFopp];
  repeat match goal with
  | H : fnan F32 _ |- _ => destruct (ON _ H); revert H
  | H : finf F32 _ |- _ => destruct (OI _ H); revert H
  | H : ffin F32 _ |- _ => destruct (OF _ H); revert H
  end; intros.
  - apply NAN; [reflexivity|tauto|tauto].
  - apply NAN; [reflexivity|tauto|tauto].
  - apply NAN; [reflexivity|tauto|tauto].
  - apply NAN; [reflexivity|tauto|tauto].
  - apply NAN; [reflexivity|tauto|tauto].
  - apply INF; try tauto. destruct (sign_bit F32 x), (sign_bit F32 y); reflexivity.
  - apply NAN; [reflexivity|tauto|tauto].
  - apply INF; try tauto; [destruct (sign_bit F32 x), (sign_bit F32 y); reflexivity|].
    intros [(_ & _ & Q)|(? & _)]; [|tauto]. rewrite Vy in Q. now apply NZ in Q.
  - apply NAN; [reflexivity|tauto|tauto].
  - apply NAN; [reflexivity|tauto|tauto].
  - apply ZERO; trivial. rewrite V. ring.
  - apply ZERO; trivial. rewrite V. ring.
  - apply NAN; [reflexivity|tauto|tauto].
  - apply INF; try tauto; [destruct (sign_bit F32 x), (sign_bit F32 y); reflexivity|].
    intros [(? & _)|(_ & Q & _)]; [tauto|]. rewrite Vx in Q. now apply NZ in Q.
  - apply ZERO; trivial. rewrite V'. ring.
  - apply FIN; trivial.
    + unfold sf_fma. set (p := cond_Zopp (xorb _ _) (Zpos mx * Zpos my)). set (e := Z.min (ex + ey) (-51)).
      pose proof (normalize_rounded F64 k (p * 2 ^ (ex + ey - e) + cond_Zopp false 4503599627370496 * 2 ^ (-51 - e)) e false f64) as HR.
      cbv zeta in HR.
      replace (F2R (Float radix2 (p * 2 ^ (ex + ey - e) + cond_Zopp false 4503599627370496 * 2 ^ (-51 - e)) e)) with (2 - fval F32 x * fval F32 y)%R in HR; [exact HR|].
      assert (PV : (- (fval F32 x * fval F32 y))%R = F2R (Float radix2 p (ex + ey))).
      { rewrite Vx, Vy, F2R_prod, cond_mul, <- F2R_Zopp. f_equal. f_equal. unfold p. destruct (sign_bit F32 x), (sign_bit F32 y); reflexivity. }
      rewrite <- two_value at 1. unfold Rminus. rewrite PV. cbn [cond_Zopp].
      rewrite <- (F2R_align p e (ex + ey)), <- (F2R_align 4503599627370496 e (-51)) by (unfold e; lia).
      unfold F2R. cbn [Fnum Fexp]. rewrite plus_IZR. ring.
    + unfold sf_fma. apply normalize_range. exact f64.
Qed.

(** ** The loop of the three functions *)

Section Loop.
  Variables (x : contraction) (c : cfg) (callf : string -> obj -> res obj) (m : memory).
  Variables (D : string) (e : expr) (en0 : env).
  Variable Q : nat -> Z -> Prop.
  Hypothesis DI : String.eqb D "i" = false.

  Definition i_env (k : Z) (d : obj) : env := ("i"%string, rv I32 k) :: (D, d) :: en0.

  (** the expression that is assigned to lane k *)
  Hypothesis Step : forall k d, (k < 4)%nat ->
    exists t z v, eval_f x c callf (i_env (Z.of_nat k) d) m e = Ok (rv t z) /\ convert c t F32 z = Ok v /\ Q k v.

  Definition filled (l : list Z) : obj := OArr (map (fun z => OScal F32 (Some z)) l ++ repeat (OScal F32 None) (4 - List.length l)).

  Definition step_f (en : env) (m : memory) : res ctl :=
    let* r := exec_f x c callf loop_fuel (SAssign D [EVar "i"%string] e) en m in
    match pop_ctl (List.length en) r with
    | Normal en' m' =>
        let* v := eval_f x c callf en' m' (EBin BAdd (EVar "i"%string) (lit 1)) in
        let* r := assign c en' m' "i"%string [] v in
        Ok (Normal (fst r) (snd r))
    | Returned v m' => Ok (Returned v m')
    end.

  Lemma next_f en k : lookup "i"%string en = Some (rv I32 (Z.of_nat k)) -> (k < 4)%nat ->
    eval_f x c callf en m (EBin BAdd (EVar "i"%string) (lit 1)) = Ok (rv I32 (Z.of_nat (S k))).
  Proof.
    intros L K. cbn [eval_f lit additive]. rewrite L.
    assert (R : forall (r : res obj), r = r) by reflexivity.
    do 4 (destruct k as [|k]; [destruct (choose x en m _); reflexivity|]). lia.
  Qed.

  Lemma step_ok l : (List.length l < 4)%nat ->
    exists v, Q (List.length l) v /\
      step_f (i_env (Z.of_nat (List.length l)) (filled l)) m
      = Ok (Normal (i_env (Z.of_nat (S (List.length l))) (filled (l ++ [v]))) m).
  Proof.
    intros L. destruct (Step (List.length l) (filled l) L) as (t & z & v & E & C & q). exists v. split; [exact q|].
    unfold step_f. cbn [exec_f eval_path_f].
    assert (IV : eval_f x c callf (i_env (Z.of_nat (List.length l)) (filled l)) m (EVar "i"%string) = Ok (rv I32 (Z.of_nat (List.length l)))) by reflexivity.
    rewrite IV, E. cbn [bind int_value scalar rv fst snd is_float].
    assert (P : put c (filled l) [Z.of_nat (List.length l)] t z = Ok (filled (l ++ [v]))).
    { destruct l as [|a [|b [|d [|e' [|]]]]]; try (cbn in L; lia);  cbv -[convert]; rewrite C; reflexivity. }
    assert (A : assign c (i_env (Z.of_nat (List.length l)) (filled l)) m D [Z.of_nat (List.length l)] (OScal t (Some z))
      = Ok (i_env (Z.of_nat (List.length l)) (filled (l ++ [v])), m)).
    { unfold assign. cbn [scalar bind fst snd]. unfold i_env at 1. cbn [lookup]. rewrite DI, String.eqb_refl.
      unfold filled at 1. cbn [fst snd]. fold (filled l). rewrite P. cbn [bind]. unfold i_env. cbn [update]. rewrite DI, String.eqb_refl. reflexivity. }
    fold (rv t z) in A. rewrite A. cbn [bind fst snd].
    cbn [pop_ctl]. unfold pop. cbn [List.length]. rewrite Nat.sub_diag. cbn [skipn].
    rewrite (next_f _ (List.length l)) by (reflexivity || exact L).
    reflexivity.
  Qed.

  Lemma cond_f en k : lookup "i"%string en = Some (rv I32 (Z.of_nat k)) -> (k <= 4)%nat ->
    (let* o := eval_f x c callf en m (EBin BLt (EVar "i"%string) (lit 4)) in cond_value o) = Ok (k <? 4)%nat.
  Proof.
    intros L K. cbn [eval_f lit additive]. rewrite L. do 5 (destruct k as [|k]; [reflexivity|]). lia.
  Qed.

  Definition cond_fun (en : env) (m : memory) : res bool :=
    let* o := eval_f x c callf en m (EBin BLt (EVar "i"%string) (lit 4)) in cond_value o.
  Lemma loop_one n l v : (List.length l < 4)%nat ->
    step_f (i_env (Z.of_nat (List.length l)) (filled l)) m = Ok (Normal (i_env (Z.of_nat (S (List.length l))) (filled (l ++ [v]))) m) ->
    loop (S n) cond_fun step_f (i_env (Z.of_nat (List.length l)) (filled l)) m
    = loop n cond_fun step_f (i_env (Z.of_nat (S (List.length l))) (filled (l ++ [v]))) m.
  Proof.
    intros L E. cbn [loop]. unfold cond_fun at 1. rewrite (cond_f _ (List.length l)) by (reflexivity || lia).
    apply Nat.ltb_lt in L. rewrite L. cbn [bind]. rewrite E. reflexivity.
  Qed.
  Lemma loop_end n l : (List.length l = 4)%nat ->
    loop (S n) cond_fun step_f (i_env 4 (filled l)) m = Ok (Normal (i_env 4 (filled l)) m).
  Proof. intros L. cbn [loop]. unfold cond_fun at 1. rewrite (cond_f _ 4) by (reflexivity || lia). reflexivity. Qed.

  Lemma vec4_loop : exists r0 r1 r2 r3, Q 0 r0 /\ Q 1 r1 /\ Q 2 r2 /\ Q 3 r3 /\
    exec_f x c callf loop_fuel
      (SSeq (SDecl (tvec F32 4) D None)
        (SSeq (SFor I32 "i"%string (lit 0) (EBin BLt (EVar "i"%string) (lit 4)) (EBin BAdd (EVar "i"%string) (lit 1)) (SAssign D [EVar "i"%string] e))
              (SReturn (EVar D)))) en0 m
    = Ok (Returned (vec F32 [r0; r1; r2; r3]) m).
  Proof.
    destruct (step_ok []) as (r0 & q0 & S0); [cbn; lia|]. destruct (step_ok [r0]) as (r1 & q1 & S1); [cbn; lia|].
    destruct (step_ok [r0; r1]) as (r2 & q2 & S2); [cbn; lia|]. destruct (step_ok [r0; r1; r2]) as (r3 & q3 & S3); [cbn; lia|].
    exists r0, r1, r2, r3. repeat (split; [assumption|]).
    cbn [exec_f bind eval_f lit init_obj scalar rv fst snd convert sty_eqb].
    change (loop loop_fuel ?f ?g ?h m) with (loop (S (S (S (S (S 35))))) cond_fun step_f
      (i_env (Z.of_nat (List.length (@nil Z))) (filled [])) m).
    rewrite (loop_one _ [] r0) by (assumption || (cbn; lia)).
    rewrite (loop_one _ [r0] r1) by (assumption || (cbn; lia)).
    rewrite (loop_one _ [r0; r1] r2) by (assumption || (cbn; lia)).
    rewrite (loop_one _ [r0; r1; r2] r3) by (assumption || (cbn; lia)).
    change (Z.of_nat (S (List.length [r0; r1; r2]))) with 4. rewrite (loop_end _ ([r0; r1; r2] ++ [r3])) by reflexivity.
    cbn [bind pop_ctl]. unfold i_env, pop. cbn [List.length].
    replace (S (S (List.length en0)) - S (List.length en0))%nat with 1%nat by lia. cbn [skipn bind lookup].
    rewrite String.eqb_refl. reflexivity.
  Qed.
End Loop.

(** ** The three functions *)

Lemma four {t} a : lanes t 4 a -> exists a0 a1 a2 a3, a = [a0; a1; a2; a3] /\ in_range t a0 /\ in_range t a1 /\ in_range t a2 /\ in_range t a3.
Proof.
  intros [L F]. destruct a as [|a0 [|a1 [|a2 [|a3 [|]]]]]; try discriminate L. exists a0, a1, a2, a3.
  repeat match goal with H : Forall _ (_ :: _) |- _ => inversion H; clear H; subst end. auto.
Qed.

Definition mla_lane (b d a z : Z) : Prop := in_range F32 z /\ (two_roundings F32 b d a z \/ ieee_fma F32 b d a z).

Lemma mla_separate c a b d : in_range F32 a -> in_range F32 b -> in_range F32 d ->
  mla_lane b d a (P_Float.fmla c F32 a b d).
Proof.
  intros Ha Hb Hd. assert (f : fty F32) by now left.
  assert (R : in_range F32 (P_Float.fop2 c FMul F32 (fmul F32) b d)) by now apply fmul_range.
  split; [now apply fadd_range|]. left. exists (P_Float.fop2 c FMul F32 (fmul F32) b d).
  split; [exact R|]. split; [now apply fmul_ieee|]. now apply fadd_ieee.
Qed.

Lemma fma_range t k x y z : fty t -> in_range t x -> in_range t y -> in_range t z ->
  in_range t (encode t k (sf_fma t (decode t x) (decode t y) (decode t z))).
Proof.
  intros Ht Hx Hy Hz.
  destruct (decode_denotes t x Ht Hx) as (bx & Ex & _). destruct (decode_denotes t y Ht Hy) as (by_ & Ey & _). destruct (decode_denotes t z Ht Hz) as (bz & Ez & _).
  assert (A : in_range t (encode t k (fadd t (fmul t (decode t x) (decode t y)) (decode t z)))).
  { rewrite Ex, Ey, Ez. unfold fadd, fmul. rewrite (SFmul_equiv _ _ (Hprec t) (Hmax t)), (SFadd_equiv _ _ (Hprec t) (Hmax t)).
    apply encode_denotes. exact Ht. }
  unfold sf_fma. destruct (decode t x); try exact A. destruct (decode t y); try exact A.
  rewrite Ez. destruct bz; cbn [BinarySingleNaN.B2SF]; try (now apply normalize_range); apply encode_spec; trivial.
Qed.

Lemma mla_fused k a b d : in_range F32 a -> in_range F32 b -> in_range F32 d ->
  mla_lane b d a (encode F32 k (sf_fma F32 (decode F32 b) (decode F32 d) (decode F32 a))).
Proof.
  intros Ha Hb Hd. assert (f : fty F32) by now left. split; [now apply fma_range|]. right. now apply fma_ieee.
Qed.

(** the value of lane [k] *)
Definition lane3 (P : Z -> Z -> Z -> Z -> Prop) (a b d : list Z) (k : nat) (z : Z) : Prop :=
  P (nth k b 0) (nth k d 0) (nth k a 0) z.

(** what follows the body *)
Definition finish (c : cfg) (q : res ctl) : outcome :=
  outcome_of (let* r := q in
    match r, tvec F32 4 with
    | Returned _ _, TVoid => Err EStuck
    | Returned v m', t => let* v' := init_obj c t v in Ok (Some v', m')
    | Normal _ m', TVoid => Ok (None, m')
    | Normal _ _, _ => Err (EUB MissingReturn)
    end).

Theorem vmlaq_contracted x c m a b d : lanes F32 4 a -> lanes F32 4 b -> lanes F32 4 d ->
  exists r, run_contracted x c m vmlaq_f32 [vec F32 a; vec F32 b; vec F32 d] = Returns m (Some (vec F32 r)) /\ lanes F32 4 r /\
    forall i u v w z, nth_error a i = Some u -> nth_error b i = Some v -> nth_error d i = Some w -> nth_error r i = Some z ->
      two_roundings F32 v w u z \/ ieee_fma F32 v w u z.
Proof.
  intros Ha Hb Hd. apply four in Ha, Hb, Hd.
  destruct Ha as (a0 & a1 & a2 & a3 & -> & A0 & A1 & A2 & A3). destruct Hb as (b0 & b1 & b2 & b3 & -> & B0 & B1 & B2 & B3).
  destruct Hd as (d0 & d1 & d2 & d3 & -> & D0 & D1 & D2 & D3).
  set (a := [a0; a1; a2; a3]). set (b := [b0; b1; b2; b3]). set (d := [d0; d1; d2; d3]).
  destruct (vec4_loop x c (call_helper_f x c helpers loop_fuel call_depth) m "D"%string
    (EBin BAdd (EIdx (EVar "N"%string) (EVar "i"%string)) (EBin BMul (EIdx (EVar "M"%string) (EVar "i"%string)) (EIdx (EVar "P"%string) (EVar "i"%string))))
    [("N"%string, vec F32 a); ("M"%string, vec F32 b); ("P"%string, vec F32 d)] (lane3 mla_lane a b d) eq_refl) as (r0 & r1 & r2 & r3 & Q0 & Q1 & Q2 & Q3 & E).
  - intros k o K.
    do 4 (destruct k as [|k];
      [cbn [eval_f additive]; (destruct (choose x _ m _);
        (eexists; eexists; eexists; split; [reflexivity|]; split; [reflexivity|];
         first [apply mla_separate; assumption | apply mla_fused; assumption]))|]).
    lia.
  - exists [r0; r1; r2; r3]. split.
    + exact (f_equal (finish c) E).
    + unfold lane3 in *. cbn [nth a b d] in *. split.
      * split; [reflexivity|]. repeat constructor; apply Q0 || apply Q1 || apply Q2 || apply Q3.
      * intros i u v w z Eu Ev Ew Ez. do 4 (destruct i as [|i]; [cbn in Eu, Ev, Ew, Ez; injection Eu as <-; injection Ev as <-; injection Ew as <-; injection Ez as <-;
          first [exact (proj2 Q0) | exact (proj2 Q1) | exact (proj2 Q2) | exact (proj2 Q3)]|]). destruct i; discriminate Eu.
Qed.

Theorem vmlaq_n_contracted x c m a b s : lanes F32 4 a -> lanes F32 4 b -> in_range F32 s ->
  exists r, run_contracted x c m vmlaq_n_f32 [vec F32 a; vec F32 b; rv F32 s] = Returns m (Some (vec F32 r)) /\ lanes F32 4 r /\
    forall i u v z, nth_error a i = Some u -> nth_error b i = Some v -> nth_error r i = Some z ->
      two_roundings F32 v s u z \/ ieee_fma F32 v s u z.
Proof.
  intros Ha Hb Hs. apply four in Ha, Hb.
  destruct Ha as (a0 & a1 & a2 & a3 & -> & A0 & A1 & A2 & A3). destruct Hb as (b0 & b1 & b2 & b3 & -> & B0 & B1 & B2 & B3).
  set (a := [a0; a1; a2; a3]). set (b := [b0; b1; b2; b3]).
  destruct (vec4_loop x c (call_helper_f x c helpers loop_fuel call_depth) m "D"%string
    (EBin BAdd (EIdx (EVar "a"%string) (EVar "i"%string)) (EBin BMul (EIdx (EVar "b"%string) (EVar "i"%string)) (EVar "c"%string)))
    [("a"%string, vec F32 a); ("b"%string, vec F32 b); ("c"%string, rv F32 s)] (lane3 (fun y _ => mla_lane y s) a b []) eq_refl) as (r0 & r1 & r2 & r3 & Q0 & Q1 & Q2 & Q3 & E).
  - intros k o K.
    do 4 (destruct k as [|k];
      [cbn [eval_f additive]; (destruct (choose x _ m _);
        (eexists; eexists; eexists; split; [reflexivity|]; split; [reflexivity|];
         first [apply mla_separate; assumption | apply mla_fused; assumption]))|]).
    lia.
  - exists [r0; r1; r2; r3]. split.
    + exact (f_equal (finish c) E).
    + unfold lane3 in *. cbn [nth a b] in *. split.
      * split; [reflexivity|]. repeat constructor; apply Q0 || apply Q1 || apply Q2 || apply Q3.
      * intros i u v z Eu Ev Ez. do 4 (destruct i as [|i]; [cbn in Eu, Ev, Ez; injection Eu as <-; injection Ev as <-; injection Ez as <-;
          first [exact (proj2 Q0) | exact (proj2 Q1) | exact (proj2 Q2) | exact (proj2 Q3)]|]). destruct i; discriminate Eu.
Qed.

Definition recps_lane (u v z : Z) : Prop :=
  in_range F32 z /\ ((exists p, in_range F32 p /\ ieee_mul F32 u v p /\ two_minus F32 p z) \/ fused_in_double u v z).

Lemma recps_separate c u v : in_range F32 u -> in_range F32 v ->
  recps_lane u v (recps2 c (P_Float.fop2 c FMul F32 (fmul F32) u v)).
Proof.
  intros Hu Hv. assert (f : fty F32) by now left.
  assert (R : in_range F32 (P_Float.fop2 c FMul F32 (fmul F32) u v)) by now apply fmul_range.
  split; [now apply cvt_range|]. left. exists (P_Float.fop2 c FMul F32 (fmul F32) u v).
  split; [exact R|]. split; [now apply fmul_ieee|]. now apply recps2_spec.
Qed.

Lemma recps_fused c k u v : in_range F32 u -> in_range F32 v -> recps_lane u v (fused2 c k u v).
Proof. intros Hu Hv. destruct (fused2_spec c k u v Hu Hv) as [S R]. split; [exact R|]. now right. Qed.

Lemma recps_step x c cf en m tw A B u v :
  eval_f x c cf en m A = Ok (rv F32 u) -> eval_f x c cf en m B = Ok (rv F32 v) ->
  exists z, eval_f x c cf en m (EBin BSub (ELit F64 tw) (EBin BMul A B)) = Ok (rv F64 z) /\
    (z = P_Float.fop2 c FSub F64 (fsub F64) tw (to_double c (P_Float.fop2 c FMul F32 (fmul F32) u v)) \/
     exists k, z = encode F64 k (sf_fma F64 (SFopp (decode F32 u)) (decode F32 v) (decode F64 tw))).
Proof.
  intros EA EB. cbn [eval_f additive]. rewrite EA, EB. destruct (choose x en m _).
  - eexists. split; [reflexivity|]. left. reflexivity.
  - eexists. split; [reflexivity|]. left. reflexivity.
  - eexists. split; [reflexivity|]. right. eexists. reflexivity.
Qed.

Lemma recps2_eq c p : to_single c (P_Float.fop2 c FSub F64 (fsub F64) two (to_double c p)) = recps2 c p.
Proof. unfold recps2. reflexivity. Qed.
Lemma fused2_eq c k u v :
  to_single c (encode F64 k (sf_fma F64 (SFopp (decode F32 u)) (decode F32 v) (decode F64 two))) = fused2 c k u v.
Proof. unfold fused2. reflexivity. Qed.

Lemma recps_lanes x c cf en m A B u v : in_range F32 u -> in_range F32 v ->
  eval_f x c cf en m A = Ok (rv F32 u) -> eval_f x c cf en m B = Ok (rv F32 v) ->
  exists z, eval_f x c cf en m (EBin BSub (ELit F64 two) (EBin BMul A B)) = Ok (rv F64 z) /\ recps_lane u v (to_single c z).
Proof.
  intros Hu Hv EA EB. destruct (recps_step x c cf en m two A B u v EA EB) as (z & EZ & CZ). exists z. split; [exact EZ|].
  destruct CZ as [E | [k E]]; rewrite E; [rewrite recps2_eq; exact (recps_separate c u v Hu Hv) | rewrite fused2_eq; exact (recps_fused c k u v Hu Hv)].
Qed.

Theorem vrecpsq_contracted x c m a b : lanes F32 4 a -> lanes F32 4 b ->
  exists r, run_contracted x c m vrecpsq_f32 [vec F32 a; vec F32 b] = Returns m (Some (vec F32 r)) /\ lanes F32 4 r /\
    forall i u v z, nth_error a i = Some u -> nth_error b i = Some v -> nth_error r i = Some z ->
      (exists p, in_range F32 p /\ ieee_mul F32 u v p /\ two_minus F32 p z) \/ fused_in_double u v z.
Proof.
  intros Ha Hb. apply four in Ha, Hb.
  destruct Ha as (a0 & a1 & a2 & a3 & -> & A0 & A1 & A2 & A3). destruct Hb as (b0 & b1 & b2 & b3 & -> & B0 & B1 & B2 & B3).
  set (a := [a0; a1; a2; a3]). set (b := [b0; b1; b2; b3]).
  destruct (vec4_loop x c (call_helper_f x c helpers loop_fuel call_depth) m "r"%string
    (EBin BSub (ELit F64 two) (EBin BMul (EIdx (EVar "a"%string) (EVar "i"%string)) (EIdx (EVar "b"%string) (EVar "i"%string))))
    [("a"%string, vec F32 a); ("b"%string, vec F32 b)] (lane3 (fun y _ u => recps_lane u y) a b []) eq_refl) as (r0 & r1 & r2 & r3 & Q0 & Q1 & Q2 & Q3 & E).
  - intros k o K.
    do 4 (destruct k as [|k];
      [match goal with |- exists _ _ _, eval_f x c ?cf ?en m (EBin BSub _ (EBin BMul ?A ?B)) = _ /\ _ =>
         match goal with |- context [lane3 _ _ _ _ ?k'] =>
         destruct (recps_lanes x c cf en m A B (nth k' a 0) (nth k' b 0) ltac:(assumption) ltac:(assumption) eq_refl eq_refl) as (z & EZ & CZ);
         exists F64, z, (to_single c z); exact (conj EZ (conj eq_refl CZ)) end end|]).
    lia.
  - exists [r0; r1; r2; r3]. split.
    + exact (f_equal (finish c) E).
    + unfold lane3 in *. cbn [nth a b] in *. split.
      * split; [reflexivity|]. repeat constructor; apply Q0 || apply Q1 || apply Q2 || apply Q3.
      * intros i u v z Eu Ev Ez. do 4 (destruct i as [|i]; [cbn in Eu, Ev, Ez; injection Eu as <-; injection Ev as <-; injection Ez as <-;
          first [exact (proj2 Q0) | exact (proj2 Q1) | exact (proj2 Q2) | exact (proj2 Q3)]|]). destruct i; discriminate Eu.
Qed.
