(** The floating-point operations of the interpreter compute the IEEE results. *)
From Coq Require Import ZArith Reals Bool Lia Psatz.
From Coq Require Import Floats.SpecFloat.
From Flocq Require Import Core BinarySingleNaN.
From Verif Require Import Types FloatBits FloatSpec ExecLemmas.
Open Scope Z_scope.

(** ** SpecFloat and Flocq compute the same (as in Flocq's PrimFloat, for any format) *)
Section Equiv.
  Variables prec emax : Z.
  Context (Hprec : Prec_gt_0 prec) (Hmax : Prec_lt_emax prec emax).

  Lemma round_nearest_even_equiv s m l : round_nearest_even m l = choice_mode mode_NE s m l.
  Proof.
    case l; [reflexivity|intro c]. case c; [ | reflexivity..].
    now simpl; unfold Round.cond_incr; case Z.even.
  Qed.

  Lemma binary_round_aux_equiv sx mx ex lx :
    SpecFloat.binary_round_aux prec emax sx mx ex lx
    = BinarySingleNaN.binary_round_aux prec emax mode_NE sx mx ex lx.
  Proof.
    unfold SpecFloat.binary_round_aux, BinarySingleNaN.binary_round_aux.
    set (mrse' := shr_fexp _ _ _ _ _). case mrse'; intros mrs' e'; simpl.
    now rewrite (round_nearest_even_equiv sx).
  Qed.

  Lemma binary_round_equiv s m e :
    SpecFloat.binary_round prec emax s m e = BinarySingleNaN.binary_round prec emax mode_NE s m e.
  Proof.
    unfold SpecFloat.binary_round, BinarySingleNaN.binary_round, shl_align_fexp.
    set (mez := shl_align _ _ _); case mez as [mz ez]. apply binary_round_aux_equiv.
  Qed.

  Lemma binary_normalize_equiv m e szero :
    SpecFloat.binary_normalize prec emax m e szero
    = B2SF (BinarySingleNaN.binary_normalize prec emax Hprec Hmax mode_NE m e szero).
  Proof.
    case m as [ | p | p].
    - now simpl.
    - simpl; rewrite B2SF_SF2B; apply binary_round_equiv.
    - simpl; rewrite B2SF_SF2B; apply binary_round_equiv.
  Qed.

  Lemma SFadd_equiv (x y : binary_float prec emax) :
    SFadd prec emax (B2SF x) (B2SF y) = B2SF (Bplus mode_NE x y).
  Proof.
    case x as [sx|sx| |sx mx ex Bx]; case y as [sy|sy| |sy my ey By];
      [now (trivial || simpl; case Bool.eqb).. | ].
    apply binary_normalize_equiv.
  Qed.

  Lemma SFsub_equiv (x y : binary_float prec emax) :
    SFsub prec emax (B2SF x) (B2SF y) = B2SF (Bminus mode_NE x y).
  Proof.
    case x as [sx|sx| |sx mx ex Bx]; case y as [sy|sy| |sy my ey By];
      [now (trivial || simpl; case Bool.eqb).. | ].
    simpl. unfold Zminus. rewrite <- cond_Zopp_negb. apply binary_normalize_equiv.
  Qed.

  Lemma SFmul_equiv (x y : binary_float prec emax) :
    SFmul prec emax (B2SF x) (B2SF y) = B2SF (Bmult mode_NE x y).
  Proof.
    case x as [sx|sx| |sx mx ex Bx]; case y as [sy|sy| |sy my ey By]; [now trivial.. | ].
    simpl. rewrite B2SF_SF2B. apply binary_round_aux_equiv.
  Qed.

  Lemma SFdiv_equiv (x y : binary_float prec emax) :
    SFdiv prec emax (B2SF x) (B2SF y) = B2SF (Bdiv mode_NE x y).
  Proof.
    case x as [sx|sx| |sx mx ex Bx]; case y as [sy|sy| |sy my ey By];
      [now (trivial || simpl; case Bool.eqb).. | ].
    simpl. rewrite B2SF_SF2B.
    set (melz := SFdiv_core_binary _ _ _ _ _ _). case melz as [[mz ez] lz].
    apply binary_round_aux_equiv.
  Qed.
End Equiv.

(** ** Bit patterns *)

Definition fty (t : sty) : Prop := t = F32 \/ t = F64.

#[global] Instance Hprec t : Prec_gt_0 (fprec t).
Proof. destruct t; reflexivity. Qed.
#[global] Instance Hmax t : Prec_lt_emax (fprec t) (femax t).
Proof. destruct t; reflexivity. Qed.

Lemma digits_le m k : Zpos m < 2 ^ k -> 0 <= k -> Zpos (digits2_pos m) <= k.
Proof.
  intros H Hk. rewrite Digits.Zpos_digits2_pos. apply Digits.Zdigits_le_Zpower. rewrite Z.abs_eq by lia. exact H.
Qed.

Lemma digits_eq m k : 2 ^ (k - 1) <= Zpos m < 2 ^ k -> Zpos (digits2_pos m) = k.
Proof.
  intros H. rewrite Digits.Zpos_digits2_pos. apply Digits.Zdigits_unique. rewrite Z.abs_eq by lia. exact H.
Qed.

(** The finite data of a format. *)
Lemma bounded_iff t m e : fty t ->
  bounded (fprec t) (femax t) m e = true <->
  (Zpos m < fhid t /\ e = femin t) \/ (fhid t <= Zpos m < 2 * fhid t /\ femin t <= e <= femax t - fprec t).
Proof.
  intros Ht. unfold bounded, canonical_mantissa. rewrite andb_true_iff, Z.leb_le.
  rewrite <- Zeq_is_eq_bool. unfold fexp, SpecFloat.emin.
  assert (D : forall k, 0 <= k -> Zpos m < 2 ^ k -> Zpos (digits2_pos m) <= k) by (intros; now apply digits_le).
  assert (E : forall k, 2 ^ (k - 1) <= Zpos m < 2 ^ k -> Zpos (digits2_pos m) = k) by (intros; now apply digits_eq).
  assert (G : forall k, 0 <= k -> Zpos (digits2_pos m) <= k -> Zpos m < 2 ^ k).
  { intros k Hk H. rewrite Digits.Zpos_digits2_pos in H. apply (Digits.Zpower_gt_Zdigits radix2) in H.
    change (Z.abs (Zpos m)) with (Zpos m) in H. exact H. }
  destruct Ht as [-> | ->]; cbn [fprec femax femin fhid].
  - pose proof (D 23 ltac:(lia)) as D1. pose proof (E 24) as E1. pose proof (G 23 ltac:(lia)) as G1.
    pose proof (G 24 ltac:(lia)) as G2.
    change (2 ^ 23) with 8388608 in *. change (2 ^ (24 - 1)) with 8388608 in *. change (2 ^ 24) with 16777216 in *. lia.
  - pose proof (D 52 ltac:(lia)) as D1. pose proof (E 53) as E1. pose proof (G 52 ltac:(lia)) as G1.
    pose proof (G 53 ltac:(lia)) as G2.
    change (2 ^ 52) with 4503599627370496 in *. change (2 ^ (53 - 1)) with 4503599627370496 in *.
    change (2 ^ 53) with 9007199254740992 in *. lia.
Qed.

Lemma fhid_pow t : fty t -> fhid t = 2 ^ (precision t - 1).
Proof. intros [-> | ->]; reflexivity. Qed.
Lemma fexps_pow t : fty t -> fexps t = 2 ^ exp_bits t.
Proof. intros [-> | ->]; reflexivity. Qed.
Lemma fsgn_pow t : fty t -> fsgn t = 2 ^ (width t - 1).
Proof. intros [-> | ->]; reflexivity. Qed.

(** What [decode] yields, in terms of the fields of the specification. *)
Lemma sign_bit_leb t z : fty t -> in_range t z -> sign_bit t z = (fsgn t <=? z).
Proof.
  intros Ht Hz. unfold sign_bit. rewrite (fsgn_pow t Ht).
  assert (Hw : 0 <= width t - 1) by (destruct Ht as [-> | ->]; cbn; lia).
  assert (Hr : 0 <= z < 2 * 2 ^ (width t - 1)).
  { unfold in_range in Hz. destruct Ht as [-> | ->]; cbn [lo hi width] in *;
    [change (2 ^ (32 - 1)) with 2147483648 | change (2 ^ (64 - 1)) with 9223372036854775808]; lia. }
  destruct (Z.leb_spec (2 ^ (width t - 1)) z).
  - rewrite Z.testbit_true by exact Hw. replace (z / 2 ^ (width t - 1)) with 1; [reflexivity|].
    apply (Z.div_unique _ _ 1 (z - 2 ^ (width t - 1))); lia.
  - rewrite Z.testbit_false by exact Hw. rewrite Z.div_small by lia. reflexivity.
Qed.

Inductive decoded (t : sty) (z : Z) : spec_float -> Prop :=
| dec_nan : fnan t z -> decoded t z S754_nan
| dec_inf : finf t z -> z = infinity t (sign_bit t z) -> decoded t z (S754_infinity (sign_bit t z))
| dec_zero : ffin t z -> fval t z = 0%R -> z = fzero t (sign_bit t z) -> decoded t z (S754_zero (sign_bit t z))
| dec_fin m e : ffin t z -> fval t z = F2R (Float radix2 (cond_Zopp (sign_bit t z) (Zpos m)) e) ->
    bounded (fprec t) (femax t) m e = true -> decoded t z (S754_finite (sign_bit t z) m e).

Lemma F2R_signed (s : bool) m e :
  ((if s then -1 else 1) * IZR m * bpow radix2 e)%R = F2R (Float radix2 (cond_Zopp s m) e).
Proof. unfold F2R. cbn [Fnum Fexp]. destruct s; cbn [cond_Zopp]; rewrite ?opp_IZR; ring. Qed.

Lemma decode_decoded t z : fty t -> in_range t z -> decoded t z (decode t z).
Proof.
  intros Ht Hz. unfold decode. rewrite <- (sign_bit_leb t z Ht Hz).
  assert (Hhp : 0 < fhid t) by (destruct Ht as [-> | ->]; reflexivity).
  assert (Hep : 2 <= fexps t) by (destruct Ht as [-> | ->]; cbn; lia).
  assert (Ef : exp_field t z = (z / fhid t) mod fexps t) by (unfold exp_field; now rewrite fhid_pow, fexps_pow).
  assert (Ff : frac_field t z = z mod fhid t) by (unfold frac_field; now rewrite fhid_pow).
  pose proof (Z.mod_pos_bound z (fhid t) Hhp) as Bm. rewrite <- Ff in Bm.
  pose proof (Z.mod_pos_bound (z / fhid t) (fexps t) ltac:(lia)) as Be. rewrite <- Ef in Be.
  (* the pattern is the sum of its fields *)
  assert (Hsum : z = fsign t (sign_bit t z) + exp_field t z * fhid t + frac_field t z).
  { rewrite (sign_bit_leb t z Ht Hz). rewrite Ef, Ff.
    pose proof (Z.div_mod z (fhid t) ltac:(lia)) as D1.
    unfold in_range in Hz. unfold fsign.
    assert (Hs : fsgn t = fexps t * fhid t /\ hi t = 2 * fsgn t - 1 /\ lo t = 0) by (destruct Ht as [-> | ->]; cbn; lia).
    destruct Hs as (Hs & Hh & Hl).
    destruct (Z.leb_spec (fsgn t) z).
    - assert (Hq : (z / fhid t) mod fexps t = z / fhid t - fexps t).
      { symmetry. apply (Z.mod_unique _ _ 1); [|lia]. left.
        assert (fexps t <= z / fhid t) by (apply Z.div_le_lower_bound; lia).
        assert (z / fhid t < 2 * fexps t) by (apply Z.div_lt_upper_bound; nia). lia. }
      rewrite Hq. nia.
    - assert (Hq : (z / fhid t) mod fexps t = z / fhid t).
      { apply Z.mod_small. split; [apply Z.div_pos; lia|]. apply Z.div_lt_upper_bound; nia. }
      rewrite Hq. nia. }
  rewrite <- Ef, <- Ff.
  assert (Ec : 2 ^ exp_bits t - 1 = fexps t - 1) by (now rewrite fexps_pow).
  destruct (Z.eqb_spec (exp_field t z) 0) as [E0|E0].
  - assert (Hfin : ffin t z) by (unfold ffin; rewrite Ec; lia).
    destruct (frac_field t z) as [|p|p] eqn:Ep; [| |lia].
    + apply dec_zero; [exact Hfin| |].
      * unfold fval. rewrite E0, Ep. cbn [Z.eqb]. ring.
      * unfold fzero. rewrite <- (fsgn_pow t Ht). rewrite Hsum at 1. rewrite E0. unfold fsign.
        destruct (sign_bit t z); lia.
    + replace (femin t) with (min_exp t) by (destruct Ht as [-> | ->]; reflexivity).
      apply dec_fin; [exact Hfin| |].
      * unfold fval. rewrite E0, Ep. cbn [Z.eqb]. apply F2R_signed.
      * apply bounded_iff; [exact Ht|]. left. split; [lia|]. destruct Ht as [-> | ->]; reflexivity.
  - destruct (Z.eqb_spec (exp_field t z) (fexps t - 1)) as [E1|E1].
    + destruct (Z.eqb_spec (frac_field t z) 0) as [Fz|Fz].
      * apply dec_inf; [split; [rewrite Ec; exact E1|exact Fz]|].
        unfold infinity. rewrite <- (fsgn_pow t Ht), <- (fhid_pow t Ht), Ec. rewrite Hsum at 1. rewrite E1, Fz. unfold fsign.
        destruct (sign_bit t z); lia.
      * apply dec_nan. split; [rewrite Ec; exact E1|exact Fz].
    + destruct (frac_field t z + fhid t) as [|p|p] eqn:Ep; [lia| |lia].
      apply dec_fin.
      * unfold ffin. rewrite Ec. exact E1.
      * unfold fval. destruct (Z.eqb_spec (exp_field t z) 0); [contradiction|].
        rewrite <- (fhid_pow t Ht), Ep.
        replace (exp_field t z - 1 + min_exp t) with (exp_field t z + femin t - 1)
          by (destruct Ht as [-> | ->]; cbn [min_exp femin]; lia).
        apply F2R_signed.
      * apply bounded_iff; [exact Ht|]. right. split; [lia|].
        destruct Ht as [-> | ->]; cbn [fexps fprec femin femax] in *; lia.
Qed.

Lemma decode_valid t z : fty t -> in_range t z -> valid_binary (fprec t) (femax t) (decode t z) = true.
Proof.
  intros Ht Hz. destruct (decode_decoded t z Ht Hz); try reflexivity. assumption.
Qed.

Lemma fields_build t s E M : fty t -> 0 <= E < fexps t -> 0 <= M < fhid t ->
  let z := fsign t s + E * fhid t + M in
  in_range t z /\ z mod fhid t = M /\ (z / fhid t) mod fexps t = E /\ (fsgn t <=? z) = s.
Proof.
  intros Ht HE HM z.
  assert (Hs : fsgn t = fexps t * fhid t /\ hi t = 2 * fsgn t - 1 /\ lo t = 0 /\ 0 < fhid t /\ 0 < fexps t)
    by (destruct Ht as [-> | ->]; cbn; lia).
  destruct Hs as (Hs & Hh & Hl & Hp & Hq).
  assert (Hd : z / fhid t = (if s then fexps t else 0) + E).
  { symmetry. apply (Z.div_unique _ _ _ M); [lia|]. unfold z, fsign. destruct s; rewrite ?Hs; ring. }
  assert (HEh : 0 <= E * fhid t /\ E * fhid t + M < fexps t * fhid t) by nia.
  repeat split.
  - unfold z, fsign. destruct s; lia.
  - unfold z, fsign. destruct s; lia.
  - symmetry. apply (Z.mod_unique _ _ ((if s then fexps t else 0) + E)); [lia|].
    unfold z, fsign. destruct s; rewrite ?Hs; ring.
  - rewrite Hd. symmetry. apply (Z.mod_unique _ _ (if s then 1 else 0)); [lia|]. destruct s; ring.
  - unfold z, fsign. destruct s; [apply Z.leb_le|apply Z.leb_gt]; lia.
Qed.

Lemma encode_spec t k x : fty t -> valid_binary (fprec t) (femax t) x = true ->
  in_range t (encode t k x) /\ decode t (encode t k x) = x.
Proof.
  intros Ht Hx.
  assert (Hp : 8 <= fhid t /\ 8 <= fexps t) by (destruct Ht as [-> | ->]; cbn; lia). destruct Hp as [Hp Hq].
  assert (Hh2 : fhid t / 2 * 2 = fhid t) by (destruct Ht as [-> | ->]; reflexivity).
  destruct x as [s|s| |s m e]; cbn [encode].
  - destruct (fields_build t s 0 0 Ht ltac:(lia) ltac:(lia)) as (R & H1 & H2 & H3).
    cbn [Z.mul] in *. rewrite !Z.add_0_r in *. split; [exact R|].
    unfold decode. rewrite H1, H2, H3. reflexivity.
  - destruct (fields_build t s (fexps t - 1) 0 Ht ltac:(lia) ltac:(lia)) as (R & H1 & H2 & H3).
    rewrite !Z.add_0_r in *. split; [exact R|].
    unfold decode. rewrite H1, H2, H3. destruct (Z.eqb_spec (fexps t - 1) 0); [lia|].
    rewrite Z.eqb_refl. reflexivity.
  - unfold qnan. pose proof (Z.mod_pos_bound k (fhid t / 2) ltac:(lia)).
    rewrite <- Z.add_assoc.
    destruct (fields_build t (Z.odd (k / (fhid t / 2))) (fexps t - 1) (fhid t / 2 + k mod (fhid t / 2)) Ht
      ltac:(lia) ltac:(lia)) as (R & H1 & H2 & H3).
    split; [exact R|]. unfold decode. rewrite H1, H2, H3. destruct (Z.eqb_spec (fexps t - 1) 0); [lia|].
    rewrite Z.eqb_refl. destruct (Z.eqb_spec (fhid t / 2 + k mod (fhid t / 2)) 0); [lia|]. reflexivity.
  - cbn [valid_binary] in Hx. apply bounded_iff in Hx; [|exact Ht].
    destruct (Z.ltb_spec (Zpos m) (fhid t)) as [Hm|Hm].
    + destruct Hx as [[_ ->]|[Hx _]]; [|lia].
      destruct (fields_build t s 0 (Zpos m) Ht ltac:(lia) ltac:(lia)) as (R & H1 & H2 & H3).
      cbn [Z.mul] in *. rewrite !Z.add_0_r in *. split; [exact R|].
      unfold decode. rewrite H1, H2, H3. reflexivity.
    + destruct Hx as [[Hx _]|[Hx He]]; [lia|].
      destruct (fields_build t s (e - femin t + 1) (Zpos m - fhid t) Ht) as (R & H1 & H2 & H3).
      { destruct Ht as [-> | ->]; cbn [fexps fprec femin femax] in *; lia. }
      { lia. }
      split; [exact R|]. unfold decode. rewrite H1, H2, H3.
      destruct (Z.eqb_spec (e - femin t + 1) 0); [lia|].
      destruct (Z.eqb_spec (e - femin t + 1) (fexps t - 1)).
      { destruct Ht as [-> | ->]; cbn [fexps fprec femin femax] in *; lia. }
      replace (Zpos m - fhid t + fhid t) with (Zpos m) by ring. f_equal. ring.
Qed.

(** The specification's reading of an encoded datum. *)
Lemma encode_decoded t k x : fty t -> valid_binary (fprec t) (femax t) x = true ->
  decoded t (encode t k x) x.
Proof.
  intros Ht Hx. destruct (encode_spec t k x Ht Hx) as [R D]. rewrite <- D at 2. now apply decode_decoded.
Qed.

Definition bin t := binary_float (fprec t) (femax t).

(** [b] is the datum denoted by the pattern [z]. *)
Definition denotes (t : sty) (z : Z) (b : bin t) : Prop := decoded t z (B2SF b).

Lemma decode_denotes t z : fty t -> in_range t z -> exists b : bin t, decode t z = B2SF b /\ denotes t z b.
Proof.
  intros Ht Hz. exists (SF2B _ (decode_valid t z Ht Hz)). unfold denotes. rewrite B2SF_SF2B.
  split; [reflexivity|]. now apply decode_decoded.
Qed.

Lemma encode_denotes t k (b : bin t) : fty t -> denotes t (encode t k (B2SF b)) b /\ in_range t (encode t k (B2SF b)).
Proof.
  intros Ht. split.
  - apply encode_decoded; [exact Ht|]. apply valid_binary_B2SF.
  - apply encode_spec; [exact Ht|]. apply valid_binary_B2SF.
Qed.

Lemma fin_not_nan t z : ffin t z -> fnan t z -> False.
Proof. unfold ffin, fnan. tauto. Qed.
Lemma fin_not_inf t z : ffin t z -> finf t z -> False.
Proof. unfold ffin, finf. tauto. Qed.
Lemma inf_not_nan t z : finf t z -> fnan t z -> False.
Proof. unfold finf, fnan. tauto. Qed.

Lemma denotes_fin t z b : denotes t z b -> ffin t z ->
  is_finite b = true /\ B2R b = fval t z /\ Bsign b = sign_bit t z.
Proof.
  unfold denotes. intros H Hf. destruct b as [s|s| |s m e B]; cbn [B2SF] in H; inversion H; subst;
    try (exfalso; now eauto using fin_not_nan, fin_not_inf).
  - cbn. auto.
  - split; [reflexivity|]. split; [symmetry; assumption | reflexivity].
Qed.

Lemma denotes_fin_inv t z b : denotes t z b -> is_finite b = true ->
  ffin t z /\ fval t z = B2R b /\ sign_bit t z = Bsign b.
Proof.
  unfold denotes. intros H Hf. destruct b as [s|s| |s m e B]; cbn [B2SF] in H; inversion H; subst; try discriminate Hf.
  - cbn. auto.
  - split; [assumption|]. split; [assumption | reflexivity].
Qed.

Lemma denotes_inf t z b : denotes t z b -> finf t z -> b = B754_infinity (sign_bit t z).
Proof.
  unfold denotes. intros H Hf. destruct b as [s|s| |s m e B]; cbn [B2SF] in H; inversion H; subst;
    try (exfalso; now eauto using inf_not_nan, fin_not_inf). reflexivity.
Qed.

Lemma denotes_nan t z b : denotes t z b -> fnan t z -> b = B754_nan.
Proof.
  unfold denotes. intros H Hf. destruct b as [s|s| |s m e B]; cbn [B2SF] in H; inversion H; subst;
    try (exfalso; now eauto using inf_not_nan, fin_not_nan). reflexivity.
Qed.

Lemma denotes_inf_inv t z s : denotes t z (B754_infinity s) -> z = infinity t s.
Proof. unfold denotes. intros H. inversion H; subst. assumption. Qed.
Lemma denotes_nan_inv t z : denotes t z B754_nan -> fnan t z.
Proof. unfold denotes. intros H. inversion H; subst. assumption. Qed.
Lemma denotes_zero_inv t z s : denotes t z (B754_zero s) -> z = fzero t s.
Proof. unfold denotes. intros H. inversion H; subst. assumption. Qed.

Lemma inf_pattern t z : fty t -> in_range t z -> finf t z -> z = infinity t (sign_bit t z).
Proof.
  intros Ht Hz Hf. pose proof (decode_decoded t z Ht Hz) as D. inversion D; trivial;
    exfalso; now eauto using inf_not_nan, fin_not_inf.
Qed.

Lemma B2SF_inf {p e} (b : binary_float p e) s : B2SF b = S754_infinity s -> b = B754_infinity s.
Proof. destruct b; cbn; congruence. Qed.

Lemma rnd_eq t x : fty t -> rnd t x = round radix2 (fexp (fprec t) (femax t)) (round_mode mode_NE) x.
Proof. intros [-> | ->]; reflexivity. Qed.

Lemma max_exp_eq t : fty t -> max_exp t = femax t.
Proof. intros [-> | ->]; reflexivity. Qed.

(** Addition. *)
Theorem fadd_ieee t k x y : fty t -> in_range t x -> in_range t y ->
  ieee_add t x y (encode t k (fadd t (decode t x) (decode t y))).
Proof.
  intros Ht Hx Hy.
  destruct (decode_denotes t x Ht Hx) as (bx & Ex & Dx). destruct (decode_denotes t y Ht Hy) as (by_ & Ey & Dy).
  rewrite Ex, Ey. unfold fadd. rewrite (SFadd_equiv _ _ (Hprec t) (Hmax t)).
  destruct (encode_denotes t k (Bplus mode_NE bx by_) Ht) as [Dr Hr].
  set (r := encode t k _) in *. clearbody r. clear Ex Ey.
  split; [|split; [|split; [|split]]].
  - intros [Hn|Hn].
    + apply (denotes_nan _ _ _ Dx) in Hn. subst bx. apply denotes_nan_inv. exact Dr.
    + apply (denotes_nan _ _ _ Dy) in Hn. subst by_. apply denotes_nan_inv. destruct bx; exact Dr.
  - intros Ix Iy. pose proof (inf_pattern t x Ht Hx Ix) as Px.
    apply (denotes_inf _ _ _ Dx) in Ix. apply (denotes_inf _ _ _ Dy) in Iy. subst bx by_.
    unfold Bplus in Dr. destruct (eqb (sign_bit t x) (sign_bit t y)).
    + apply denotes_inf_inv in Dr. congruence.
    + apply denotes_nan_inv. exact Dr.
  - intros Ix Fy. pose proof (inf_pattern t x Ht Hx Ix) as Px.
    apply (denotes_inf _ _ _ Dx) in Ix. apply (denotes_fin _ _ _ Dy) in Fy. subst bx.
    destruct Fy as (Fy & _). destruct by_; try discriminate Fy; apply denotes_inf_inv in Dr; congruence.
  - intros Fx Iy. pose proof (inf_pattern t y Ht Hy Iy) as Py.
    apply (denotes_inf _ _ _ Dy) in Iy. apply (denotes_fin _ _ _ Dx) in Fx. subst by_.
    destruct Fx as (Fx & _). destruct bx; try discriminate Fx; apply denotes_inf_inv in Dr; congruence.
  - intros Fx Fy. apply (denotes_fin _ _ _ Dx) in Fx. apply (denotes_fin _ _ _ Dy) in Fy.
    destruct Fx as (Fx & Vx & Sx). destruct Fy as (Fy & Vy & Sy).
    pose proof (Bplus_correct _ _ _ _ mode_NE bx by_ Fx Fy) as H.
    rewrite Vx, Vy, Sx, Sy in H. unfold rounded. rewrite (rnd_eq t _ Ht), (max_exp_eq t Ht).
    destruct (Rlt_bool _ _) eqn:Eb.
    + destruct H as (H1 & H2 & H3). destruct (denotes_fin_inv _ _ _ Dr H2) as (F & V & S).
      split; [exact F|]. split; [congruence|]. rewrite S, H3. reflexivity.
    + destruct H as (H1 & H2). cbn [binary_overflow overflow_to_inf] in H1.
      apply B2SF_inf in H1. rewrite H1 in Dr. apply denotes_inf_inv in Dr. rewrite Dr. f_equal.
      unfold sign_of. rewrite <- H2, andb_diag.
      assert (Hne : (fval t x + fval t y <> 0)%R).
      { intros E. rewrite E, round_0, Rabs_R0 in Eb by typeclasses eauto.
        rewrite Rlt_bool_true in Eb; [discriminate|]. apply bpow_gt_0. }
      assert (Hs : forall z b, denotes t z b -> is_finite b = true -> if sign_bit t z then (fval t z <= 0)%R else (0 <= fval t z)%R).
      { intros z b D Fb. destruct (denotes_fin_inv _ _ _ D Fb) as (_ & -> & ->).
        destruct b as [s|s| |s m e B]; try discriminate Fb; cbn [B2R Bsign].
        - destruct s; lra.
        - destruct s; cbn [cond_Zopp]; [apply F2R_le_0; cbn; lia | apply F2R_ge_0; cbn; lia]. }
      pose proof (Hs _ _ Dx Fx) as Hsx. pose proof (Hs _ _ Dy Fy) as Hsy. rewrite <- H2 in Hsy.
      destruct (sign_bit t x).
      * rewrite Rcompare_Lt; [reflexivity|lra].
      * rewrite Rcompare_Gt; [reflexivity|lra].
Qed.

Lemma denotes_sign t z b : denotes t z b -> is_finite b = true ->
  if sign_bit t z then (fval t z <= 0)%R else (0 <= fval t z)%R.
Proof.
  intros D Fb. destruct (denotes_fin_inv _ _ _ D Fb) as (_ & -> & ->).
  destruct b as [s|s| |s m e B]; try discriminate Fb; cbn [B2R Bsign].
  - destruct s; lra.
  - destruct s; cbn [cond_Zopp]; [apply F2R_le_0; cbn; lia | apply F2R_ge_0; cbn; lia].
Qed.

Lemma not_rounds_zero t v : fty t ->
  Rlt_bool (Rabs (round radix2 (fexp (fprec t) (femax t)) (round_mode mode_NE) v)) (bpow radix2 (femax t)) = false ->
  v <> 0%R.
Proof.
  intros Ht Eb E. rewrite E, round_0, Rabs_R0 in Eb by typeclasses eauto.
  rewrite Rlt_bool_true in Eb; [discriminate|]. apply bpow_gt_0.
Qed.

(** Subtraction. *)
Theorem fsub_ieee t k x y : fty t -> in_range t x -> in_range t y ->
  ieee_sub t x y (encode t k (fsub t (decode t x) (decode t y))).
Proof.
  intros Ht Hx Hy.
  destruct (decode_denotes t x Ht Hx) as (bx & Ex & Dx). destruct (decode_denotes t y Ht Hy) as (by_ & Ey & Dy).
  rewrite Ex, Ey. unfold fsub. rewrite (SFsub_equiv _ _ (Hprec t) (Hmax t)).
  destruct (encode_denotes t k (Bminus mode_NE bx by_) Ht) as [Dr Hr].
  set (r := encode t k _) in *. clearbody r. clear Ex Ey.
  split; [|split; [|split; [|split]]].
  - intros [Hn|Hn].
    + apply (denotes_nan _ _ _ Dx) in Hn. subst bx. apply denotes_nan_inv. exact Dr.
    + apply (denotes_nan _ _ _ Dy) in Hn. subst by_. apply denotes_nan_inv. destruct bx; exact Dr.
  - intros Ix Iy. pose proof (inf_pattern t x Ht Hx Ix) as Px.
    apply (denotes_inf _ _ _ Dx) in Ix. apply (denotes_inf _ _ _ Dy) in Iy. subst bx by_.
    unfold Bminus, Bplus in Dr. cbn [Bopp] in Dr.
    destruct (sign_bit t x), (sign_bit t y); cbn in Dr |- *;
      first [apply denotes_inf_inv in Dr; congruence | apply denotes_nan_inv; exact Dr].
  - intros Ix Fy. pose proof (inf_pattern t x Ht Hx Ix) as Px.
    apply (denotes_inf _ _ _ Dx) in Ix. apply (denotes_fin _ _ _ Dy) in Fy. subst bx.
    destruct Fy as (Fy & _). destruct by_; try discriminate Fy; apply denotes_inf_inv in Dr; congruence.
  - intros Fx Iy. 
    apply (denotes_inf _ _ _ Dy) in Iy. apply (denotes_fin _ _ _ Dx) in Fx. subst by_.
    destruct Fx as (Fx & _). destruct bx; try discriminate Fx; apply denotes_inf_inv in Dr; exact Dr.
  - intros Fx Fy. apply (denotes_fin _ _ _ Dx) in Fx. apply (denotes_fin _ _ _ Dy) in Fy.
    destruct Fx as (Fx & Vx & Sx). destruct Fy as (Fy & Vy & Sy).
    pose proof (Bminus_correct _ _ _ _ mode_NE bx by_ Fx Fy) as H.
    rewrite Vx, Vy, Sx, Sy in H. unfold rounded. rewrite (rnd_eq t _ Ht), (max_exp_eq t Ht).
    destruct (Rlt_bool _ _) eqn:Eb.
    + destruct H as (H1 & H2 & H3). destruct (denotes_fin_inv _ _ _ Dr H2) as (F & V & S).
      split; [exact F|]. split; [congruence|]. rewrite S, H3. reflexivity.
    + destruct H as (H1 & H2). cbn [binary_overflow overflow_to_inf] in H1.
      apply B2SF_inf in H1. rewrite H1 in Dr. apply denotes_inf_inv in Dr. rewrite Dr. f_equal.
      unfold sign_of. rewrite <- H2, andb_diag.
      assert (Hne := not_rounds_zero t _ Ht Eb).
      pose proof (denotes_sign _ _ _ Dx Fx) as Hsx. pose proof (denotes_sign _ _ _ Dy Fy) as Hsy.
      destruct (sign_bit t x), (sign_bit t y); try discriminate H2.
      * rewrite Rcompare_Lt; [reflexivity|lra].
      * rewrite Rcompare_Gt; [reflexivity|lra].
Qed.

(** A finite datum is a zero exactly if it denotes 0. *)
Lemma denotes_is_zero t z b : denotes t z b -> is_finite b = true ->
  Req_bool (fval t z) 0 = match b with B754_zero _ => true | _ => false end.
Proof.
  intros D Fb. destruct (denotes_fin_inv _ _ _ D Fb) as (_ & -> & _).
  destruct b as [s|s| |s m e B]; try discriminate Fb; cbn [B2R].
  - now rewrite Req_bool_true.
  - apply Req_bool_false. intros H. apply eq_0_F2R in H. destruct s; discriminate H.
Qed.

(** Multiplication. *)
Theorem fmul_ieee t k x y : fty t -> in_range t x -> in_range t y ->
  ieee_mul t x y (encode t k (fmul t (decode t x) (decode t y))).
Proof.
  intros Ht Hx Hy.
  destruct (decode_denotes t x Ht Hx) as (bx & Ex & Dx). destruct (decode_denotes t y Ht Hy) as (by_ & Ey & Dy).
  rewrite Ex, Ey. unfold fmul. rewrite (SFmul_equiv _ _ (Hprec t) (Hmax t)).
  destruct (encode_denotes t k (Bmult mode_NE bx by_) Ht) as [Dr Hr].
  set (r := encode t k _) in *. clearbody r. clear Ex Ey.
  cbv zeta. split; [|split; [|split; [|split]]].
  - intros [Hn|Hn].
    + apply (denotes_nan _ _ _ Dx) in Hn. subst bx. apply denotes_nan_inv. exact Dr.
    + apply (denotes_nan _ _ _ Dy) in Hn. subst by_. apply denotes_nan_inv. destruct bx; exact Dr.
  - intros Ix Iy.
    apply (denotes_inf _ _ _ Dx) in Ix. apply (denotes_inf _ _ _ Dy) in Iy. subst bx by_.
    apply denotes_inf_inv in Dr. exact Dr.
  - intros Ix Fy. apply (denotes_inf _ _ _ Dx) in Ix. apply (denotes_fin _ _ _ Dy) in Fy. subst bx.
    destruct Fy as (Fy & _ & Sy). rewrite (denotes_is_zero _ _ _ Dy Fy), <- Sy.
    destruct by_; try discriminate Fy.
    + apply denotes_nan_inv. exact Dr.
    + apply denotes_inf_inv in Dr. exact Dr.
  - intros Fx Iy. apply (denotes_inf _ _ _ Dy) in Iy. apply (denotes_fin _ _ _ Dx) in Fx. subst by_.
    destruct Fx as (Fx & _ & Sx). rewrite (denotes_is_zero _ _ _ Dx Fx), <- Sx.
    destruct bx; try discriminate Fx.
    + apply denotes_nan_inv. exact Dr.
    + apply denotes_inf_inv in Dr. exact Dr.
  - intros Fx Fy. apply (denotes_fin _ _ _ Dx) in Fx. apply (denotes_fin _ _ _ Dy) in Fy.
    destruct Fx as (Fx & Vx & Sx). destruct Fy as (Fy & Vy & Sy).
    pose proof (Bmult_correct _ _ _ _ mode_NE bx by_) as H.
    rewrite Vx, Vy, Sx, Sy in H. unfold rounded. rewrite (rnd_eq t _ Ht), (max_exp_eq t Ht).
    destruct (Rlt_bool _ _) eqn:Eb.
    + destruct H as (H1 & H2 & H3). rewrite Fx, Fy in H2. destruct (denotes_fin_inv _ _ _ Dr H2) as (F & V & S).
      split; [exact F|]. split; [congruence|]. rewrite S. apply H3. now destruct (Bmult mode_NE bx by_).
    + cbn [binary_overflow overflow_to_inf] in H.
      apply B2SF_inf in H. rewrite H in Dr. apply denotes_inf_inv in Dr. exact Dr.
Qed.

(** Division. *)
Theorem fdiv_ieee t k x y : fty t -> in_range t x -> in_range t y ->
  ieee_div t x y (encode t k (fdiv t (decode t x) (decode t y))).
Proof.
  intros Ht Hx Hy.
  destruct (decode_denotes t x Ht Hx) as (bx & Ex & Dx). destruct (decode_denotes t y Ht Hy) as (by_ & Ey & Dy).
  rewrite Ex, Ey. unfold fdiv. rewrite (SFdiv_equiv _ _ (Hprec t) (Hmax t)).
  destruct (encode_denotes t k (Bdiv mode_NE bx by_) Ht) as [Dr Hr].
  set (r := encode t k _) in *. clearbody r. clear Ex Ey.
  cbv zeta. split; [|split; [|split; [|split]]].
  - intros [Hn|Hn].
    + apply (denotes_nan _ _ _ Dx) in Hn. subst bx. apply denotes_nan_inv. exact Dr.
    + apply (denotes_nan _ _ _ Dy) in Hn. subst by_. apply denotes_nan_inv. destruct bx; exact Dr.
  - intros Ix Iy.
    apply (denotes_inf _ _ _ Dx) in Ix. apply (denotes_inf _ _ _ Dy) in Iy. subst bx by_.
    apply denotes_nan_inv. exact Dr.
  - intros Ix Fy. apply (denotes_inf _ _ _ Dx) in Ix. apply (denotes_fin _ _ _ Dy) in Fy. subst bx.
    destruct Fy as (Fy & _ & Sy). rewrite <- Sy.
    destruct by_; try discriminate Fy; apply denotes_inf_inv in Dr; exact Dr.
  - intros Fx Iy. apply (denotes_inf _ _ _ Dy) in Iy. apply (denotes_fin _ _ _ Dx) in Fx. subst by_.
    destruct Fx as (Fx & _ & Sx). rewrite <- Sx.
    destruct bx; try discriminate Fx; apply denotes_zero_inv in Dr; exact Dr.
  - intros Fx Fy. apply (denotes_fin _ _ _ Dx) in Fx. apply (denotes_fin _ _ _ Dy) in Fy.
    destruct Fx as (Fx & Vx & Sx). destruct Fy as (Fy & Vy & Sy).
    rewrite (denotes_is_zero _ _ _ Dy Fy), (denotes_is_zero _ _ _ Dx Fx).
    assert (Hz : forall s, by_ = B754_zero s -> if match bx with B754_zero _ => true | _ => false end
       then fnan t r else r = infinity t (xorb (sign_bit t x) (sign_bit t y))).
    { intros s ->. rewrite <- Sx, <- Sy. destruct bx; try discriminate Fx.
      - apply denotes_nan_inv. exact Dr.
      - apply denotes_inf_inv in Dr. exact Dr. }
    assert (Hnz : B2R by_ <> 0%R -> rounded t (fval t x / fval t y) (xorb (sign_bit t x) (sign_bit t y)) r).
    { intros Hn. pose proof (Bdiv_correct _ _ _ _ mode_NE bx by_ Hn) as H.
      rewrite Vx, Vy, Sx, Sy in H. unfold rounded. rewrite (rnd_eq t _ Ht), (max_exp_eq t Ht).
      destruct (Rlt_bool _ _) eqn:Eb.
      + destruct H as (H1 & H2 & H3). rewrite Fx in H2. destruct (denotes_fin_inv _ _ _ Dr H2) as (F & V & S).
        split; [exact F|]. split; [congruence|]. rewrite S. apply H3. now destruct (Bdiv mode_NE bx by_).
      + cbn [binary_overflow overflow_to_inf] in H.
        apply B2SF_inf in H. rewrite H in Dr. apply denotes_inf_inv in Dr. exact Dr. }
    destruct by_ as [s|s| |s m e B]; try discriminate Fy.
    + now apply (Hz s).
    + apply Hnz. cbn [B2R]. intros H. apply eq_0_F2R in H. destruct s; discriminate H.
Qed.

(** ** Conversions *)

(** A normalised datum rounds [m * 2^e]. *)
Lemma normalize_rounded t k m e s : fty t ->
  let v := F2R (Float radix2 m e) in
  rounded t v (sign_of v s) (encode t k (SpecFloat.binary_normalize (fprec t) (femax t) m e s)).
Proof.
  intros Ht v. rewrite (binary_normalize_equiv _ _ (Hprec t) (Hmax t)).
  pose proof (binary_normalize_correct _ _ (Hprec t) (Hmax t) mode_NE m e s) as H.
  set (b := BinarySingleNaN.binary_normalize _ _ _ _ _ _ _ _) in *.
  destruct (encode_denotes t k b Ht) as [Dr _]. cbv zeta in H. fold v in H.
  unfold rounded. rewrite (rnd_eq t _ Ht), (max_exp_eq t Ht). destruct (Rlt_bool (Rabs _) _) eqn:Eb.
  - destruct H as (H1 & H2 & H3). destruct (denotes_fin_inv _ _ _ Dr H2) as (F & V & S).
    split; [exact F|]. split; [congruence|]. rewrite S. exact H3.
  - cbn [binary_overflow overflow_to_inf] in H. apply B2SF_inf in H. rewrite H in Dr |- *.
    apply denotes_inf_inv in Dr. rewrite Dr. f_equal. unfold sign_of.
    pose proof (not_rounds_zero t v Ht Eb). destruct (Rcompare_spec v 0); [|contradiction|].
    + now apply Rlt_bool_true.
    + apply Rlt_bool_false. lra.
Qed.

(** Integer to float. *)
Lemma of_Z_rounded t k z : fty t -> rounded t (IZR z) (z <? 0) (encode t k (sf_of_Z t z)).
Proof.
  intros Ht. pose proof (normalize_rounded t k z 0 false Ht) as H. cbv zeta in H.
  replace (F2R (Float radix2 z 0)) with (IZR z) in H by (unfold F2R; cbn; ring).
  replace (sign_of (IZR z) false) with (z <? 0) in H; [exact H|].
  unfold sign_of. destruct (Rcompare_spec (IZR z) 0) as [L|L|L].
  - apply lt_IZR in L. now apply Z.ltb_lt.
  - apply eq_IZR in L. subst z. reflexivity.
  - apply lt_IZR in L. apply Z.ltb_ge. lia.
Qed.

(** Float to float of a finite datum. *)
Lemma cvt_rounded t t' k x : fty t -> fty t' -> in_range t x -> ffin t x ->
  rounded t' (fval t x) (sign_bit t x) (encode t' k (sf_cvt t' (decode t x))).
Proof.
  intros Ht Ht' Hx Hf. pose proof (decode_decoded t x Ht Hx) as D.
  inversion D as [N E | I P E | F V P E | m e F V B E].
  - exfalso; eauto using fin_not_nan.
  - exfalso; eauto using fin_not_inf.
  - cbn [sf_cvt]. rewrite V. pose proof (normalize_rounded t' k 0 0 (sign_bit t x) Ht') as H. cbv zeta in H.
    cbn [SpecFloat.binary_normalize] in H. rewrite F2R_0 in H.
    unfold sign_of in H. now rewrite Rcompare_Eq in H by reflexivity.
  - cbn [sf_cvt]. rewrite V.
    pose proof (normalize_rounded t' k (cond_Zopp (sign_bit t x) (Zpos m)) e (sign_bit t x) Ht') as H.
    cbv zeta in H. replace (sign_of _ _) with (sign_bit t x) in H; [exact H|].
    unfold sign_of. destruct (sign_bit t x); cbn [cond_Zopp].
    + rewrite Rcompare_Lt; [reflexivity|]. now apply F2R_lt_0.
    + rewrite Rcompare_Gt; [reflexivity|]. now apply F2R_gt_0.
Qed.

(** Truncation toward zero. *)
Lemma trunc_spec t x : fty t -> in_range t x ->
  sf_trunc (decode t x) = if Z.eq_dec (exp_field t x) (2 ^ exp_bits t - 1) then None else Some (Ztrunc (fval t x)).
Proof.
  intros Ht Hx. pose proof (decode_decoded t x Ht Hx) as D.
  destruct (Z.eq_dec _ _) as [Ee|Ee].
  - inversion D as [N E | I P E | F V P E | m e F V B E]; try reflexivity; contradiction.
  - inversion D as [N E | I P E | F V P E | m e F V B E].
    + exfalso. apply Ee, N.
    + exfalso. apply Ee, I.
    + cbn [sf_trunc]. rewrite V. f_equal. symmetry. apply Ztrunc_IZR.
    + cbn [sf_trunc]. rewrite V. f_equal.
      assert (P : (if 0 <=? e then Zpos m * 2 ^ e else Zpos m / 2 ^ (- e)) = Ztrunc (F2R (Float radix2 (Zpos m) e))).
      { rewrite Ztrunc_floor by (apply F2R_ge_0; cbn; lia). unfold F2R. cbn [Fnum Fexp].
        destruct (Z.leb_spec 0 e) as [L|L].
        - rewrite <- (IZR_Zpower radix2 e L), <- mult_IZR, Zfloor_IZR. reflexivity.
        - symmetry. replace e with (- (- e)) at 1 by ring.
          rewrite bpow_opp, <- IZR_Zpower by lia. cbn [radix_val radix2].
          exact (Zfloor_div (Zpos m) (2 ^ (- e)) ltac:(pose proof (Z.pow_pos_nonneg 2 (- e)); lia)). }
      rewrite P. destruct (sign_bit t x); cbn [cond_Zopp]; [|reflexivity].
      rewrite <- Ztrunc_opp. f_equal. rewrite F2R_Zopp. reflexivity.
Qed.

(** ** Comparison *)
Lemma infinity_class t s : fty t -> finf t (infinity t s) /\ sign_bit t (infinity t s) = s.
Proof. intros [-> | ->]; destruct s; vm_compute; auto. Qed.

Lemma denotes_not_inf t z b : fty t -> denotes t z b -> is_finite b = true -> forall s, z <> infinity t s.
Proof.
  intros Ht D F s ->. destruct (infinity_class t s Ht) as [I _].
  apply (denotes_inf _ _ _ D) in I. subst b. discriminate F.
Qed.

Lemma denotes_fnan t z b : denotes t z b -> is_nan b = false -> ~ fnan t z.
Proof. intros D F N. apply (denotes_nan _ _ _ D) in N. subst b. discriminate F. Qed.

Lemma infinity_inj t s s' : fty t -> infinity t s = infinity t s' -> s = s'.
Proof. intros [-> | ->]; destruct s, s'; vm_compute; congruence. Qed.

Lemma ltb_flt t x y : fty t -> in_range t x -> in_range t y ->
  SFltb (decode t x) (decode t y) = true <-> flt t x y.
Proof.
  intros Ht Hx Hy.
  destruct (decode_denotes t x Ht Hx) as (bx & Ex & Dx). destruct (decode_denotes t y Ht Hy) as (by_ & Ey & Dy).
  rewrite Ex, Ey. clear Ex Ey. unfold flt.
  assert (Cx : bx = B754_nan /\ fnan t x \/ (exists s, bx = B754_infinity s /\ x = infinity t s /\ finf t x) \/ is_finite bx = true /\ ffin t x).
  { destruct bx as [s|s| |s m e B].
    - right; right. split; [reflexivity|]. now apply (denotes_fin_inv _ _ _ Dx).
    - right; left. exists s. split; [reflexivity|]. apply denotes_inf_inv in Dx. split; [exact Dx|].
      rewrite Dx. now apply infinity_class.
    - left. split; [reflexivity|]. now apply denotes_nan_inv.
    - right; right. split; [reflexivity|]. now apply (denotes_fin_inv _ _ _ Dx). }
  assert (Cy : by_ = B754_nan /\ fnan t y \/ (exists s, by_ = B754_infinity s /\ y = infinity t s /\ finf t y) \/ is_finite by_ = true /\ ffin t y).
  { destruct by_ as [s|s| |s m e B].
    - right; right. split; [reflexivity|]. now apply (denotes_fin_inv _ _ _ Dy).
    - right; left. exists s. split; [reflexivity|]. apply denotes_inf_inv in Dy. split; [exact Dy|].
      rewrite Dy. now apply infinity_class.
    - left. split; [reflexivity|]. now apply denotes_nan_inv.
    - right; right. split; [reflexivity|]. now apply (denotes_fin_inv _ _ _ Dy). }
  assert (Ni : forall z, fnan t z -> forall s, z <> infinity t s).
  { intros z Hz s ->. eapply inf_not_nan; [apply (infinity_class t s Ht)|exact Hz]. }
  destruct Cx as [[-> Nx]|[(s & -> & Px & Ix)|[Fx Gx]]].
  - split; [cbn; discriminate|]. intros [(G & _)|[(P & _)|(P & N & _)]]; exfalso; [eauto using fin_not_nan | eapply Ni; eauto | tauto].
  - destruct Cy as [[-> Ny]|[(s' & -> & Py & Iy)|[Fy Gy]]].
    + split; [destruct s; cbn; discriminate|].
      intros [(_ & G & _)|[(_ & N & _)|(P & _)]]; exfalso; [eauto using fin_not_nan | tauto | eapply Ni; eauto].
    + split.
      * destruct s, s'; cbn; try discriminate. intros _. right; left. split; [exact Px|].
        split; [intros N; eauto using inf_not_nan|]. rewrite Py. intros E. now apply infinity_inj in E.
      * intros [(G & _)|[(P & _ & Q)|(P & _ & Q)]].
        -- exfalso; eauto using fin_not_inf.
        -- rewrite Px in P. apply infinity_inj in P; [|exact Ht]. subst s.
           destruct s'; [congruence|reflexivity].
        -- rewrite Py in P. apply infinity_inj in P; [|exact Ht]. subst s'.
           destruct s; [reflexivity|congruence].
    + assert (E : SFltb (B2SF (B754_infinity s : bin t)) (B2SF by_) = s) by (destruct by_; try discriminate Fy; destruct s; reflexivity).
      rewrite E. split.
      * intros ->. right; left. split; [exact Px|]. split; [intros N; eauto using fin_not_nan|].
        eapply denotes_not_inf; eauto.
      * intros [(G & _)|[(P & _ & Q)|(P & _ & Q)]].
        -- exfalso; eauto using fin_not_inf.
        -- rewrite Px in P. now apply infinity_inj in P.
        -- exfalso. eapply denotes_not_inf; eauto.
  - destruct Cy as [[-> Ny]|[(s' & -> & Py & Iy)|[Fy Gy]]].
    + split; [destruct bx as [[]|[]| |[] ? ? ?]; cbn; discriminate|].
      intros [(_ & G & _)|[(_ & N & _)|(P & _)]]; exfalso; [eauto using fin_not_nan | tauto | eapply Ni; eauto].
    + assert (E : SFltb (B2SF bx) (B2SF (B754_infinity s' : bin t)) = negb s') by (destruct bx; try discriminate Fx; destruct s'; reflexivity).
      rewrite E. split.
      * destruct s'; [discriminate|]. intros _. right; right. split; [exact Py|]. split; [intros N; eauto using fin_not_nan|].
        eapply denotes_not_inf; eauto.
      * intros [(_ & G & _)|[(P & _ & Q)|(P & _ & Q)]].
        -- exfalso; eauto using fin_not_inf.
        -- exfalso. exact (denotes_not_inf _ _ _ Ht Dx Fx _ P).
        -- rewrite Py in P. apply infinity_inj in P; [|exact Ht]. subst s'. reflexivity.
    + pose proof (Bltb_correct _ _ bx by_ Fx Fy) as H. unfold Bltb in H. rewrite H.
      destruct (denotes_fin_inv _ _ _ Dx Fx) as (_ & Vx & _). destruct (denotes_fin_inv _ _ _ Dy Fy) as (_ & Vy & _).
      rewrite Vx, Vy. destruct (Rlt_bool_spec (B2R bx) (B2R by_)) as [L|L].
      * split; [|reflexivity]. intros _. left. auto.
      * split; [discriminate|]. intros [(_ & _ & G)|[(P & _ & Q)|(P & _ & Q)]].
        -- lra.
        -- exfalso. exact (denotes_not_inf _ _ _ Ht Dx Fx _ P).
        -- exfalso. exact (denotes_not_inf _ _ _ Ht Dy Fy _ P).
Qed.

(** ** Ranges of the computed patterns *)
Lemma fadd_range t k x y : fty t -> in_range t x -> in_range t y -> in_range t (encode t k (fadd t (decode t x) (decode t y))).
Proof.
  intros Ht Hx Hy. destruct (decode_denotes t x Ht Hx) as (bx & Ex & _). destruct (decode_denotes t y Ht Hy) as (b_y & Ey & _).
  rewrite Ex, Ey. unfold fadd. rewrite (SFadd_equiv _ _ (Hprec t) (Hmax t)). now apply encode_denotes.
Qed.
Lemma fsub_range t k x y : fty t -> in_range t x -> in_range t y -> in_range t (encode t k (fsub t (decode t x) (decode t y))).
Proof.
  intros Ht Hx Hy. destruct (decode_denotes t x Ht Hx) as (bx & Ex & _). destruct (decode_denotes t y Ht Hy) as (b_y & Ey & _).
  rewrite Ex, Ey. unfold fsub. rewrite (SFsub_equiv _ _ (Hprec t) (Hmax t)). now apply encode_denotes.
Qed.
Lemma fmul_range t k x y : fty t -> in_range t x -> in_range t y -> in_range t (encode t k (fmul t (decode t x) (decode t y))).
Proof.
  intros Ht Hx Hy. destruct (decode_denotes t x Ht Hx) as (bx & Ex & _). destruct (decode_denotes t y Ht Hy) as (b_y & Ey & _).
  rewrite Ex, Ey. unfold fmul. rewrite (SFmul_equiv _ _ (Hprec t) (Hmax t)). now apply encode_denotes.
Qed.
Lemma fdiv_range t k x y : fty t -> in_range t x -> in_range t y -> in_range t (encode t k (fdiv t (decode t x) (decode t y))).
Proof.
  intros Ht Hx Hy. destruct (decode_denotes t x Ht Hx) as (bx & Ex & _). destruct (decode_denotes t y Ht Hy) as (b_y & Ey & _).
  rewrite Ex, Ey. unfold fdiv. rewrite (SFdiv_equiv _ _ (Hprec t) (Hmax t)). now apply encode_denotes.
Qed.
Lemma normalize_range t k m e s : fty t -> in_range t (encode t k (SpecFloat.binary_normalize (fprec t) (femax t) m e s)).
Proof. intros Ht. rewrite (binary_normalize_equiv _ _ (Hprec t) (Hmax t)). now apply encode_denotes. Qed.
Lemma of_Z_range t k z : fty t -> in_range t (encode t k (sf_of_Z t z)).
Proof. intros Ht. now apply normalize_range. Qed.
Lemma cvt_range t k x : fty t -> in_range t (encode t k (sf_cvt t x)).
Proof.
  intros Ht. destruct x as [s|s| |s m e]; cbn [sf_cvt]; [| | |now apply normalize_range];
  (apply encode_spec; [exact Ht|reflexivity]).
Qed.

(** ** Order *)
Lemma infinity_not_fin t s : fty t -> ~ ffin t (infinity t s).
Proof. intros Ht F. eapply fin_not_inf; [exact F|]. now apply infinity_class. Qed.
Lemma fzero_class t s : fty t -> ffin t (fzero t s) /\ fval t (fzero t s) = 0%R.
Proof.
  intros Ht. split.
  - destruct Ht as [-> | ->]; destruct s; vm_compute; discriminate.
  - unfold fval. replace (exp_field t (fzero t s)) with 0 by (destruct Ht as [-> | ->]; destruct s; reflexivity).
    replace (frac_field t (fzero t s)) with 0 by (destruct Ht as [-> | ->]; destruct s; reflexivity).
    cbn [Z.eqb]. ring.
Qed.

Lemma flt_asym t x y : fty t -> flt t x y -> flt t y x -> False.
Proof.
  intros Ht [(F1 & F2 & L)|[(P & N & Q)|(P & N & Q)]] [(F1' & F2' & L')|[(P' & N' & Q')|(P' & N' & Q')]]; try congruence; try lra;
  subst; try (eapply infinity_not_fin; eassumption);
  try (apply infinity_inj in P'; [discriminate P'|exact Ht]).
Qed.

Lemma flt_irrefl t x : fty t -> ~ flt t x x.
Proof. intros Ht H. eapply flt_asym; eauto. Qed.

Lemma flt_dec t x y : fty t -> in_range t x -> in_range t y -> {flt t x y} + {~ flt t x y}.
Proof.
  intros Ht Hx Hy. destruct (SFltb (decode t x) (decode t y)) eqn:E.
  - left. now apply ltb_flt.
  - right. intros H. apply ltb_flt in H; auto. congruence.
Qed.

Lemma flt_nan_l t x y : fty t -> fnan t x -> ~ flt t x y.
Proof.
  intros Ht N [(F & _)|[(P & _)|(_ & N' & _)]]; [eauto using fin_not_nan| |contradiction].
  subst. eapply inf_not_nan; [|exact N]. now apply infinity_class.
Qed.
Lemma flt_nan_r t x y : fty t -> fnan t y -> ~ flt t x y.
Proof.
  intros Ht N [(_ & F & _)|[(_ & N' & _)|(P & _)]]; [eauto using fin_not_nan|contradiction|].
  subst. eapply inf_not_nan; [|exact N]. now apply infinity_class.
Qed.
Lemma flt_zeros t s s' : fty t -> ~ flt t (fzero t s) (fzero t s').
Proof.
  intros Ht [(_ & _ & L)|[(P & _)|(P & _)]].
  - destruct (fzero_class t s Ht) as [_ E]. destruct (fzero_class t s' Ht) as [_ E']. lra.
  - eapply (infinity_not_fin t true Ht). rewrite <- P. now apply fzero_class.
  - eapply (infinity_not_fin t false Ht). rewrite <- P. now apply fzero_class.
Qed.

Lemma fnan_dec t x : {fnan t x} + {~ fnan t x}.
Proof.
  unfold fnan. destruct (Z.eq_dec (exp_field t x) (2 ^ exp_bits t - 1)); [|right; tauto].
  destruct (Z.eq_dec (frac_field t x) 0); [right|left]; tauto.
Qed.

(** [x > y ? x : y] is the IEEE maximum except that it returns the number when only
    the first operand is NaN, and -0 for (+0, -0). *)
Lemma greater_is_max t x y r : fty t -> in_range t x -> in_range t y -> greater_or_second t x y r ->
  (ieee_max t x y r <-> (fnan t x -> fnan t y) /\ ~ (x = fzero t false /\ y = fzero t true)).
Proof.
  intros Ht Hx Hy [G1 G2]. unfold ieee_max. split.
  - intros [M1 M2]. split.
    + intros N. rewrite (G2 (flt_nan_r t y x Ht N)) in M1. auto.
    + intros [-> ->]. rewrite (G2 (flt_zeros t true false Ht)) in M2.
      destruct M2 as (_ & _ & _ & M); try (intros N; eapply fin_not_nan; [|exact N]; now apply fzero_class).
      destruct (M eq_refl). congruence.
  - intros [H1 H2]. split.
    + intros N. assert (Ny : fnan t y) by tauto. now rewrite (G2 (flt_nan_l t y x Ht Ny)).
    + intros Nx Ny. destruct (flt_dec t y x Ht Hy Hx) as [L|L].
      * rewrite (G1 L). split; [now left|]. split; [now apply flt_irrefl|]. split; [intros L'; eapply flt_asym; eauto|].
        intros ->. split; [destruct Ht as [-> | ->]; discriminate|]. intros ->. now apply flt_zeros in L.
      * rewrite (G2 L). split; [now right|]. split; [exact L|]. split; [now apply flt_irrefl|].
        intros ->. split; [intros ->; tauto|destruct Ht as [-> | ->]; discriminate].
Qed.

Lemma less_is_min t x y r : fty t -> in_range t x -> in_range t y -> less_or_second t x y r ->
  (ieee_min t x y r <-> (fnan t x -> fnan t y) /\ ~ (x = fzero t true /\ y = fzero t false)).
Proof.
  intros Ht Hx Hy [G1 G2]. unfold ieee_min. split.
  - intros [M1 M2]. split.
    + intros N. rewrite (G2 (flt_nan_l t x y Ht N)) in M1. auto.
    + intros [-> ->]. rewrite (G2 (flt_zeros t true false Ht)) in M2.
      destruct M2 as (_ & _ & _ & M); try (intros N; eapply fin_not_nan; [|exact N]; now apply fzero_class).
      destruct (M eq_refl). congruence.
  - intros [H1 H2]. split.
    + intros N. assert (Ny : fnan t y) by tauto. now rewrite (G2 (flt_nan_r t x y Ht Ny)).
    + intros Nx Ny. destruct (flt_dec t x y Ht Hx Hy) as [L|L].
      * rewrite (G1 L). split; [now left|]. split; [now apply flt_irrefl|]. split; [intros L'; eapply flt_asym; eauto|].
        intros ->. split; [destruct Ht as [-> | ->]; discriminate|]. intros ->. now apply flt_zeros in L.
      * rewrite (G2 L). split; [now right|]. split; [exact L|]. split; [now apply flt_irrefl|].
        intros ->. split; [intros ->; tauto|destruct Ht as [-> | ->]; discriminate].
Qed.
