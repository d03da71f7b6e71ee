(** Bitwise operations, widening and narrowing moves, integer comparison. *)
From Coq Require Import ZArith String List Bool Lia.
From Verif Require Import Types FloatBits Syntax Interp ProgRecip ExecLemmas Lane Spec Ew Sym Tables.
From Verif Require Import ProgBit ProgPerm P_AddSub P_SubMore P_Shift.
Import ListNotations.
Open Scope Z_scope.

(** In range means that all bits from the sign bit (signed) or from bit [width]
    (unsigned) on are equal. *)
Definition sign_pos (t : sty) : Z := if is_signed t then width t - 1 else width t.

Lemma range_shift t x : is_float t = false ->
  in_range t x <-> (Z.shiftr x (sign_pos t) = 0 \/ (is_signed t = true /\ Z.shiftr x (sign_pos t) = -1)).
Proof.
  intros Hf. rewrite Z.shiftr_div_pow2 by (destruct t; cbn; lia).
  destruct t; try discriminate; unfold in_range, sign_pos; cbn [is_signed lo hi width];
  match goal with |- context [2 ^ ?k] => let v := eval vm_compute in (2 ^ k) in change (2 ^ k) with v;
     pose proof (Z.div_mod x v ltac:(lia)); pose proof (Z.mod_pos_bound x v ltac:(lia)) end;
  split; try (intros [H2|[Hs H2]]; try discriminate); lia.
Qed.

Ltac bit_range op_spec :=
  intros Hf Hx Hy; rewrite range_shift in * by assumption; rewrite op_spec;
  destruct Hx as [Hx|[Hs Hx]], Hy as [Hy|[Hs' Hy]]; rewrite Hx, Hy; cbn; auto.

Lemma land_range t x y : is_float t = false -> in_range t x -> in_range t y -> in_range t (Z.land x y).
Proof. bit_range Z.shiftr_land. Qed.
Lemma lor_range t x y : is_float t = false -> in_range t x -> in_range t y -> in_range t (Z.lor x y).
Proof. bit_range Z.shiftr_lor. Qed.
Lemma lxor_range t x y : is_float t = false -> in_range t x -> in_range t y -> in_range t (Z.lxor x y).
Proof. bit_range Z.shiftr_lxor. Qed.

Lemma vand_exact f t n c m a b : In (f, t, n) vand_table -> lanes t n a -> lanes t n b ->
  run c m f [vec t a; vec t b] = Returns m (Some (vec t (map2 Z.land a b))).
Proof.
  intros H Ha Hb. cbn [In vand_table] in H.
  each_entry H ltac:(rewrite <- (ok_all2 m _ (fun x y => Ok (Z.land x y)) _ _ _ _ a b Ha Hb) by reflexivity;
    entry2 x y Hx Hy;
    match type of Hx with in_range ?t _ => pose proof (land_range t x y eq_refl Hx Hy) end; sx; reflexivity).
Qed.
Lemma vorr_exact f t n c m a b : In (f, t, n) vorr_table -> lanes t n a -> lanes t n b ->
  run c m f [vec t a; vec t b] = Returns m (Some (vec t (map2 Z.lor a b))).
Proof.
  intros H Ha Hb. cbn [In vorr_table] in H.
  each_entry H ltac:(rewrite <- (ok_all2 m _ (fun x y => Ok (Z.lor x y)) _ _ _ _ a b Ha Hb) by reflexivity;
    entry2 x y Hx Hy;
    match type of Hx with in_range ?t _ => pose proof (lor_range t x y eq_refl Hx Hy) end; sx; reflexivity).
Qed.
Lemma veor_exact f t n c m a b : In (f, t, n) veor_table -> lanes t n a -> lanes t n b ->
  run c m f [vec t a; vec t b] = Returns m (Some (vec t (map2 Z.lxor a b))).
Proof.
  intros H Ha Hb. cbn [In veor_table] in H.
  each_entry H ltac:(rewrite <- (ok_all2 m _ (fun x y => Ok (Z.lxor x y)) _ _ _ _ a b Ha Hb) by reflexivity;
    entry2 x y Hx Hy;
    match type of Hx with in_range ?t _ => pose proof (lxor_range t x y eq_refl Hx Hy) end; sx; reflexivity).
Qed.

(** Complement: every bit of the lane inverted. *)
Lemma vmvn_exact f t n c m a : In (f, t, n) vmvn_table -> lanes t n a ->
  run c m f [vec t a] = Returns m (Some (vec t (map (fun x => wrap t (Z.lnot x)) a))).
Proof.
  intros H Ha. cbn [In vmvn_table] in H.
  each_entry H ltac:(
    rewrite <- (ok_all1 m _ (fun x => Ok (wrap _ (Z.lnot x))) _ _ _ a Ha) by reflexivity;
    entry1 x Hx; pose proof (Z.add_lnot_diag x); sx; reflexivity).
Qed.

(** ** Moves *)

Lemma vmovl_exact f t n c m a : In (f, t, n) vmovl_table -> lanes t n a ->
  run c m f [vec t a] = Returns m (Some (vec (wide t) a)).
Proof.
  intros H Ha. cbn [In vmovl_table] in H.
  each_entry H ltac:(
    rewrite <- (map_id a) at 2;
    rewrite <- (ok_all1 m _ (fun x => Ok x) _ _ _ a Ha) by reflexivity;
    entry1 x Hx; sx; reflexivity).
Qed.

Lemma vmovn_exact f t n c m a : In (f, t, n) vmovn_table -> lanes t n a ->
  run c m f [vec t a] = Returns m (Some (vec (narrow t) (map (wrap (narrow t)) a))).
Proof.
  intros H Ha. cbn [In vmovn_table] in H.
  each_entry H ltac:(
    rewrite <- (ok_all1 m _ (fun x => Ok (wrap (narrow _) x)) _ _ _ a Ha) by reflexivity;
    entry1 x Hx; sx; reflexivity).
Qed.

Lemma vqmovn_u16_sat c m a : lanes U16 8 a ->
  run c m vqmovn_u16 [vec U16 a] = Returns m (Some (vec U8 (map (sat U8) a))).
Proof.
  intros Ha. rewrite <- (ok_all1 m _ (fun x => Ok (sat U8 x)) _ _ _ a Ha) by reflexivity.
  entry1 x Hx; sx; fin.
Qed.

Lemma vqmovun_s16_sat c m a : lanes I16 8 a ->
  run c m vqmovun_s16 [vec I16 a] = Returns m (Some (vec U8 (map (sat U8) a))).
Proof.
  intros Ha. rewrite <- (ok_all1 m _ (fun x => Ok (sat U8 x)) _ _ _ a Ha) by reflexivity.
  entry1 x Hx; sx; fin.
Qed.

(** ** Comparison *)

Lemma vcgtq_u8_exact c m a b : lanes U8 16 a -> lanes U8 16 b ->
  run c m vcgtq_u8 [vec U8 a; vec U8 b]
  = Returns m (Some (vec U8 (map2 (fun x y => if y <? x then 255 else 0) a b))).
Proof.
  intros Ha Hb.
  rewrite <- (ok_all2 m _ (fun x y => Ok (if y <? x then 255 else 0)) _ _ _ _ a b Ha Hb) by reflexivity.
  entry2 x y Hx Hy. destruct (Z.ltb_spec y x); sxk; try reflexivity; lia.
Qed.
