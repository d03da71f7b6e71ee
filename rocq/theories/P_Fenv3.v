(** Floating-point environments: directed rounding. *)
From Coq Require Import ZArith Reals String List Bool Lia Lra.
From Coq Require Import Floats.SpecFloat.
From Flocq Require Import Core BinarySingleNaN.
From Verif Require Import Types FloatBits FloatSpec FloatR Syntax Interp ProgRecip ProgMul Spec Tables Fenv FenvSpec P_Fenv2.
Import ListNotations.
Open Scope Z_scope.

Definition direction (down : bool) : mode := if down then mode_DN else mode_UP.

Lemma bits_denotes t x : fty t -> in_range t x -> denotes t x (bits t x).
Proof.
  intros Ht Hx. pose proof (decode_decoded t x Ht Hx) as D. pose proof (decode_valid t x Ht Hx) as V.
  unfold denotes. replace (B2SF (bits t x)) with (decode t x); [exact D|].
  unfold bits. generalize (@eq_refl bool (valid_binary (fprec t) (femax t) (decode t x))).
  generalize (valid_binary (fprec t) (femax t) (decode t x)) at 2 3.
  intros b. destruct b; intros E; [symmetry; apply B2SF_SF2B|congruence].
Qed.

Notation rd t down := (round radix2 (fexp (fprec t) (femax t)) (round_mode (direction down))).

Lemma fin_bits t z : fty t -> in_range t z -> ffin t z ->
  exists b : bin t, is_finite b = true /\ B2R b = fval t z.
Proof.
  intros Ht Hz Fz. pose proof (bits_denotes t z Ht Hz) as D. destruct (denotes_fin _ _ _ D Fz) as (F & V & _). eauto.
Qed.

(** The rounded value is the closest number of the format on its side. *)
Lemma round_closest t down v : within down (rd t down v) v /\
  forall b : bin t, is_finite b = true -> within down (B2R b) v -> within down (B2R b) (rd t down v).
Proof.
  destruct down; cbn [direction within round_mode].
  - pose proof (round_DN_pt radix2 (fexp (fprec t) (femax t)) v) as (_ & L & G). split; [exact L|]. intros b _ H. apply G; [apply generic_format_B2R|exact H].
  - pose proof (round_UP_pt radix2 (fexp (fprec t) (femax t)) v) as (_ & L & G). split; [exact L|]. intros b _ H. apply G; [apply generic_format_B2R|exact H].
Qed.

Lemma finite_small t (b : bin t) : (Rabs (B2R b) <= bpow radix2 (femax t) - bpow radix2 (femax t - fprec t))%R.
Proof. apply abs_B2R_le_emax_minus_prec. apply Hprec. Qed.

Lemma overflow_value t (b : bin t) s : fty t -> B2SF b = S754_finite s (Z.to_pos (Zpower 2 (fprec t) - 1)) (femax t - fprec t) ->
  is_finite b = true /\ B2R b = (if s then - (bpow radix2 (femax t) - bpow radix2 (femax t - fprec t)) else bpow radix2 (femax t) - bpow radix2 (femax t - fprec t))%R.
Proof.
  intros Ht H. split; [destruct b; cbn in *; congruence|].
  rewrite <- SF2R_B2SF, H. cbn [SF2R]. unfold F2R. cbn [Fnum Fexp].
  assert (E : (IZR (Zpos (Z.to_pos (Zpower 2 (fprec t) - 1))) * bpow radix2 (femax t - fprec t) = bpow radix2 (femax t) - bpow radix2 (femax t - fprec t))%R).
  { rewrite Z2Pos.id by (destruct Ht as [-> | ->]; reflexivity). rewrite minus_IZR.
    change (IZR (Zpower 2 (fprec t))) with (IZR (Zpower radix2 (fprec t))). rewrite IZR_Zpower by (destruct Ht as [-> | ->]; cbn; lia).
    rewrite Rmult_minus_distr_r, <- bpow_plus. replace (fprec t + (femax t - fprec t)) with (femax t) by ring. ring. }
  destruct s; cbn [cond_Zopp]; [|exact E].
  change (Z.neg ?p) with (- Zpos p). rewrite opp_IZR, Ropp_mult_distr_l_reverse. now rewrite E.
Qed.

Lemma closest_of t down v (b : bin t) sg r : fty t -> denotes t r b -> in_range t r ->
  (if Rlt_bool (Rabs (rd t down v)) (bpow radix2 (femax t))
   then B2R b = rd t down v /\ is_finite b = true
   else B2SF b = binary_overflow (fprec t) (femax t) (direction down) sg /\ (if sg then v <= 0 else 0 <= v)%R) ->
  closest down t v r.
Proof.
  intros Ht Dr Rr H. split; [exact Rr|]. destruct (round_closest t down v) as [W G].
  destruct (Rlt_bool_spec (Rabs (rd t down v)) (bpow radix2 (femax t))) as [L|L].
  - right. destruct H as [V F]. destruct (denotes_fin_inv _ _ _ Dr F) as (Fr & Vr & _). split; [exact Fr|]. rewrite Vr, V. split; [exact W|].
    intros z Rz Fz Wz. destruct (fin_bits t z Ht Rz Fz) as (bz & Fb & Vz). rewrite <- Vz in *. exact (G bz Fb Wz).
  - destruct H as [H S].
    assert (P0 : (0 < bpow radix2 (femax t - fprec t))%R) by apply bpow_gt_0.
    assert (Z0 : rd t down 0 = 0%R) by (apply round_0; typeclasses eauto).
    assert (K : if sg then (rd t down v <= - bpow radix2 (femax t))%R else (bpow radix2 (femax t) <= rd t down v)%R).
    { destruct sg.
      - assert (N : (rd t down v <= 0)%R) by (rewrite <- Z0; apply round_le; [typeclasses eauto|typeclasses eauto|exact S]).
        rewrite Rabs_left1 in L by exact N. lra.
      - assert (N : (0 <= rd t down v)%R) by (rewrite <- Z0; apply round_le; [typeclasses eauto|typeclasses eauto|exact S]).
        rewrite Rabs_pos_eq in L by exact N. lra. }
    unfold binary_overflow in H.
    destruct (overflow_to_inf (direction down) sg) eqn:O.
    + assert (E : sg = down) by (clear -O; destruct down, sg; try discriminate O; reflexivity). subst sg. left.
      apply B2SF_inf in H. subst b. apply denotes_inf_inv in Dr. split; [exact Dr|].
      intros z Rz Fz Wz. destruct (fin_bits t z Ht Rz Fz) as (bz & Fb & Vz). rewrite <- Vz in Wz. specialize (G bz Fb Wz).
      pose proof (finite_small t bz) as B. apply Rabs_le_inv in B. destruct down; cbn [within] in G; lra.
    + assert (E : sg = negb down) by (clear -O; destruct down, sg; try discriminate O; reflexivity). subst sg. right.
      destruct (overflow_value t b _ Ht H) as [F V]. destruct (denotes_fin_inv _ _ _ Dr F) as (Fr & Vr & _). split; [exact Fr|]. rewrite Vr, V.
      split.
      * destruct down; cbn [negb within] in *; lra.
      * intros z Rz Fz _. destruct (fin_bits t z Ht Rz Fz) as (bz & Fb & <-). pose proof (finite_small t bz) as B. apply Rabs_le_inv in B.
        destruct down; cbn [negb within] in *; lra.
Qed.

Lemma sign_side t z b : denotes t z b -> is_finite b = true -> if Bsign b then (B2R b <= 0)%R else (0 <= B2R b)%R.
Proof.
  intros D Fb. destruct b as [s|s| |s m e B]; try discriminate Fb; cbn [B2R Bsign].
  - destruct s; lra.
  - destruct s; cbn [cond_Zopp]; [apply F2R_le_0; cbn; lia | apply F2R_ge_0; cbn; lia].
Qed.

Theorem ieee_directed down : rounds_toward down (ieee_env (direction down)).
Proof.
  intros t x y Ht Hx Hy. pose proof (bits_denotes t x Ht Hx) as Dx. pose proof (bits_denotes t y Ht Hy) as Dy.
  split; [|split].
  - intros Fx Fy o Io Nz. destruct (denotes_fin _ _ _ Dx Fx) as (Bx & Vx & Sx). destruct (denotes_fin _ _ _ Dy Fy) as (By & Vy & Sy).
    pose proof (sign_side t x _ Dx Bx) as Px. pose proof (sign_side t y _ Dy By) as Py.
    cbn [In] in Io. unfold ieee_env; cbn [operation]. rewrite <- Vx, <- Vy in *.
    assert (X : forall a b : bool, (if a then (B2R (bits t x) <= 0)%R else (0 <= B2R (bits t x))%R) -> True) by trivial. clear X.
    destruct Io as [<-|[<-|[<-|[<-|[]]]]]; cbn [exact_result].
    + pose proof (Bplus_correct _ _ _ _ (direction down) _ _ Bx By) as C.
      eapply closest_of with (b := Bplus (direction down) (bits t x) (bits t y)) (sg := Bsign (bits t x)); [exact Ht|now apply encode_denotes|now apply encode_denotes|].
      destruct (Rlt_bool _ _); [destruct C as (C1 & C2 & _); now split|]. destruct C as [C1 C2]. split; [exact C1|]. rewrite <- C2 in Py. destruct (Bsign (bits t x)); lra.
    + pose proof (Bminus_correct _ _ _ _ (direction down) _ _ Bx By) as C.
      eapply closest_of with (b := Bminus (direction down) (bits t x) (bits t y)) (sg := Bsign (bits t x)); [exact Ht|now apply encode_denotes|now apply encode_denotes|].
      destruct (Rlt_bool _ _); [destruct C as (C1 & C2 & _); now split|]. destruct C as [C1 C2]. split; [exact C1|].
      destruct (Bsign (bits t x)), (Bsign (bits t y)); cbn in C2; try discriminate C2; lra.
    + pose proof (Bmult_correct _ _ _ _ (direction down) (bits t x) (bits t y)) as C.
      eapply closest_of with (b := Bmult (direction down) (bits t x) (bits t y)) (sg := xorb (Bsign (bits t x)) (Bsign (bits t y))); [exact Ht|now apply encode_denotes|now apply encode_denotes|].
      destruct (Rlt_bool _ _); [destruct C as (C1 & C2 & _); rewrite Bx, By in C2; now split|]. split; [exact C|].
      destruct (Bsign (bits t x)), (Bsign (bits t y)); cbn [xorb]; nra.
    + specialize (Nz eq_refl). pose proof (Bdiv_correct _ _ _ _ (direction down) (bits t x) (bits t y) Nz) as C.
      eapply closest_of with (b := Bdiv (direction down) (bits t x) (bits t y)) (sg := xorb (Bsign (bits t x)) (Bsign (bits t y))); [exact Ht|now apply encode_denotes|now apply encode_denotes|].
      destruct (Rlt_bool _ _); [destruct C as (C1 & C2 & _); rewrite Bx in C2; now split|]. split; [exact C|].
      unfold Rdiv. set (p := B2R (bits t x)) in *. set (q := B2R (bits t y)) in *. clearbody p q.
      assert (Q : if Bsign (bits t y) then (/ q < 0)%R else (0 < / q)%R).
      { destruct (Bsign (bits t y)); [apply Rinv_lt_0_compat|apply Rinv_0_lt_compat]; lra. }
      destruct (Bsign (bits t x)), (Bsign (bits t y)); cbn [xorb]; nra.
  - intros -> Y. assert (Ix : bits t (infinity t down) = B754_infinity down).
    { destruct (infinity_class t down Ht) as [I S]. rewrite (denotes_inf _ _ _ Dx I). now rewrite S. }
    unfold ieee_env; cbn [operation]. rewrite Ix.
    assert (R : Bplus (direction down) (B754_infinity down) (bits t y) = B754_infinity down).
    { destruct Y as [Fy| ->].
      - destruct (denotes_fin _ _ _ Dy Fy) as (By & _). destruct (bits t y); try discriminate By; reflexivity.
      - rewrite Ix. cbn. now rewrite eqb_reflx. }
    rewrite R. destruct (encode_denotes t 0 (@B754_infinity (fprec t) (femax t) down) Ht) as [D _]. now apply denotes_inf_inv in D.
  - intros Fx ->. assert (Iy : bits t (infinity t down) = B754_infinity down).
    { destruct (infinity_class t down Ht) as [I S]. rewrite (denotes_inf _ _ _ Dy I). now rewrite S. }
    unfold ieee_env; cbn [operation]. rewrite Iy. destruct (denotes_fin _ _ _ Dx Fx) as (Bx & _).
    assert (R : Bplus (direction down) (bits t x) (B754_infinity down) = B754_infinity down).
    { destruct (bits t x); try discriminate Bx; reflexivity. }
    rewrite R. destruct (encode_denotes t 0 (@B754_infinity (fprec t) (femax t) down) Ht) as [D _]. now apply denotes_inf_inv in D.
Qed.

(** ** Bounds of sums of products *)

Definition good_bound (down : bool) (v : R) (r : Z) : Prop := in_range F32 r /\ bounds down F32 v r.

Lemma f32 : fty F32. Proof. now left. Qed.

Lemma bound_step down u a v x y : rounds_toward down u -> good_bound down v a ->
  in_range F32 x -> ffin F32 x -> in_range F32 y -> ffin F32 y ->
  good_bound down (v + fval F32 x * fval F32 y) (operation u FAdd F32 a (operation u FMul F32 x y)).
Proof.
  intros U [Ra Ba] Rx Fx Ry Fy.
  destruct (U F32 x y f32 Rx Ry) as (M & _). specialize (M Fx Fy FMul ltac:(cbn; tauto) ltac:(discriminate)). cbn [exact_result] in M.
  destruct M as [Rp Bp]. set (p := operation u FMul F32 x y) in *. clearbody p.
  destruct (U F32 a p f32 Ra Rp) as (A & I1 & I2).
  assert (Inf : in_range F32 (infinity F32 down)) by (destruct down; vm_compute; split; discriminate).
  destruct Ba as [-> | [Fa Wa]].
  - assert (E : operation u FAdd F32 (infinity F32 down) p = infinity F32 down) by (apply I1; [reflexivity|]; destruct Bp as [[-> _]|[Fp _]]; auto).
    rewrite E. split; [exact Inf|]. now left.
  - destruct Bp as [[-> _]|(Fp & Wp & _)].
    + rewrite (I2 Fa eq_refl). split; [exact Inf|]. now left.
    + specialize (A Fa Fp FAdd ltac:(cbn; tauto) ltac:(discriminate)). cbn [exact_result] in A. destruct A as [Rr [[-> _]|(Fr & Wr & _)]].
      * split; [exact Inf|]. now left.
      * split; [exact Rr|]. right. split; [exact Fr|]. destruct down; cbn [within] in *; lra.
Qed.

Lemma in_nth (P : Z -> Prop) l q : Forall P l -> (q < length l)%nat -> P (nth q l 0).
Proof. intros H L. rewrite Forall_forall in H. apply H. now apply nth_In. Qed.

Lemma accumulate_bounds down u c m : rounds_toward down u -> forall steps a (v : nat -> R),
  Forall (fun s => finite_lanes (fst s) /\ finite_lanes (snd s)) steps -> List.length a = 4%nat ->
  (forall q, (q < 4)%nat -> good_bound down (v q) (nth q a 0)) ->
  exists r, accumulate_in u c m (vec F32 a) steps = Returns m (Some (vec F32 r)) /\ List.length r = 4%nat /\
    forall q, (q < 4)%nat -> good_bound down (v q + products q steps) (nth q r 0).
Proof.
  intros U. induction steps as [|[x y] steps IH]; intros a v H La Ba.
  - exists a. split; [reflexivity|]. split; [exact La|]. intros q Hq. cbn [products]. rewrite Rplus_0_r. now apply Ba.
  - inversion H as [|? ? [[Lx Fx] [Ly Fy]] Hs]; subst. cbn [fst snd] in *. cbn [accumulate_in].
    assert (LA : lanes F32 4 a).
    { split; [exact La|]. apply Forall_forall. intros z Hz. apply (In_nth _ _ 0) in Hz. destruct Hz as (q & Hq & <-). rewrite La in Hq. now apply Ba. }
    rewrite lanes_mla by assumption.
    destruct (IH (map2 (operation u FAdd F32) a (map2 (operation u FMul F32) x y)) (fun q => (v q + fval F32 (nth q x 0%Z) * fval F32 (nth q y 0%Z))%R) Hs) as (r & E & Lr & Br).
    + clear -La Lx Ly. destruct Lx as [Lx _], Ly as [Ly _].
      do 4 (destruct a as [|? a]; try discriminate La). destruct a; try discriminate La.
      do 4 (destruct x as [|? x]; try discriminate Lx). destruct x; try discriminate Lx.
      do 4 (destruct y as [|? y]; try discriminate Ly). destruct y; try discriminate Ly. reflexivity.
    + intros q Hq.
      assert (N : nth q (map2 (operation u FAdd F32) a (map2 (operation u FMul F32) x y)) 0 = operation u FAdd F32 (nth q a 0) (operation u FMul F32 (nth q x 0) (nth q y 0))).
      { clear -La Lx Ly Hq. destruct Lx as [Lx _], Ly as [Ly _].
        do 4 (destruct a as [|? a]; try discriminate La). destruct a; try discriminate La.
        do 4 (destruct x as [|? x]; try discriminate Lx). destruct x; try discriminate Lx.
        do 4 (destruct y as [|? y]; try discriminate Ly). destruct y; try discriminate Ly.
        do 4 (destruct q as [|q]; [reflexivity|]). lia. }
      rewrite N. destruct Lx as [Lx Rx], Ly as [Ly Ry]. apply bound_step; trivial; [now apply Ba | ..]; (apply in_nth; [assumption|now rewrite ?Lx, ?Ly]).
    + exists r. split; [exact E|]. split; [exact Lr|]. intros q Hq. specialize (Br q Hq). cbn [products]. now rewrite <- Rplus_assoc.
Qed.

Theorem interval down u c m a steps : rounds_toward down u -> finite_lanes a ->
  Forall (fun s => finite_lanes (fst s) /\ finite_lanes (snd s)) steps ->
  exists r, accumulate_in u c m (vec F32 a) steps = Returns m (Some (vec F32 r)) /\ lanes F32 4 r /\
    forall q, (q < 4)%nat -> bounds down F32 (fval F32 (nth q a 0%Z) + products q steps) (nth q r 0).
Proof.
  intros U [[La Ra] Fa] H. destruct (accumulate_bounds down u c m U steps a (fun q => fval F32 (nth q a 0)) H La) as (r & E & Lr & Br).
  - intros q Hq. split; [apply in_nth; [exact Ra|now rewrite La]|]. right. split; [apply in_nth; [exact Fa|now rewrite La]|]. destruct down; cbn; lra.
  - exists r. split; [exact E|]. split; [split; [exact Lr|]|intros q Hq; now apply Br].
    apply Forall_forall. intros z Hz. apply (In_nth _ _ 0) in Hz. destruct Hz as (q & Hq & <-). rewrite Lr in Hq. now apply Br.
Qed.
