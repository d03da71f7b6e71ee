(** Widening, saturating, halving and narrowing addition/subtraction. *)
From Coq Require Import ZArith String List Bool Lia.
From Verif Require Import Types FloatBits Syntax Interp ProgRecip ExecLemmas Lane Spec Ew Sym Tables.
From Verif Require Import ProgAdd ProgSub P_AddSub.
Import ListNotations.
Open Scope Z_scope.

Lemma ok_all2 m t h (g : Z -> Z -> Z) t1 t2 n a b : lanes t1 n a -> lanes t2 n b ->
  (forall x y, in_range t1 x -> in_range t2 y -> h x y = Ok (g x y)) ->
  vec_outcome m t (mapM2 h a b) = Returns m (Some (vec t (map2 g a b))).
Proof.
  intros Ha Hb H. rewrite (mapM2_ok h g); [reflexivity|]. now apply (all_lanes_range _ t1 t2 n).
Qed.

(** ** Long and wide *)

Lemma vaddl_exact f t n c m a b : In (f, t, n) vaddl_table -> lanes t n a -> lanes t n b ->
  run c m f [vec t a; vec t b] = Returns m (Some (vec (wide t) (map2 Z.add a b))).
Proof.
  intros H Ha Hb. cbn [In vaddl_table] in H.
  each_entry H ltac:(rewrite <- (ok_all2 m _ (fun x y => Ok (x + y)) Z.add _ _ _ a b Ha Hb) by reflexivity;
    entry2 x y Hx Hy; sx; fin).
Qed.

Lemma vsubl_exact f t n c m a b : In (f, t, n) vsubl_table -> lanes t n a -> lanes t n b ->
  run c m f [vec t a; vec t b]
  = Returns m (Some (vec (wide t) (map2 (fun x y => wrap (wide t) (x - y)) a b))).
Proof.
  intros H Ha Hb. cbn [In vsubl_table] in H.
  each_entry H ltac:(rewrite <- (ok_all2 m _ (fun x y => Ok (wrap (wide _) (x - y))) _ _ _ _ a b Ha Hb) by reflexivity;
    entry2 x y Hx Hy; sx; fin).
Qed.

Lemma vaddw_run f t n c m a b : In (f, t, n) vaddw_table -> lanes (wide t) n a -> lanes t n b ->
  run c m f [vec (wide t) a; vec t b]
  = vec_outcome m (wide t) (mapM2 (fun x y => cpp_result c (wide t) (x + y)) a b).
Proof.
  intros H Ha Hb. cbn [In vaddw_table] in H.
  each_entry H ltac:(cbn [wide] in *; entry2 x y Hx Hy; sx; arith_cases).
Qed.

Lemma vsubw_run f t n c m a b : In (f, t, n) vsubw_table -> lanes (wide t) n a -> lanes t n b ->
  run c m f [vec (wide t) a; vec t b]
  = vec_outcome m (wide t) (mapM2 (fun x y => cpp_result c (wide t) (x - y)) a b).
Proof.
  intros H Ha Hb. cbn [In vsubw_table] in H.
  each_entry H ltac:(cbn [wide] in *; entry2 x y Hx Hy; sx; arith_cases).
Qed.

(** ** Saturating *)

Lemma vqsub_sat f t n c m a b : In (f, t, n) vqsub_table -> lanes t n a -> lanes t n b ->
  run c m f [vec t a; vec t b] = Returns m (Some (vec t (map2 (fun x y => sat t (x - y)) a b))).
Proof.
  intros H Ha Hb. cbn [In vqsub_table] in H.
  each_entry H ltac:(rewrite <- (ok_all2 m _ (fun x y => Ok (sat _ (x - y))) _ _ _ _ a b Ha Hb) by reflexivity;
    entry2 x y Hx Hy; sx; fin).
Qed.

Lemma vqadd_sat f t n c m a b : In (f, t, n) vqadd_table -> lanes t n a -> lanes t n b ->
  run c m f [vec t a; vec t b] = Returns m (Some (vec t (map2 (fun x y => sat t (x + y)) a b))).
Proof.
  intros H Ha Hb. cbn [In vqadd_table] in H.
  each_entry H ltac:(rewrite <- (ok_all2 m _ (fun x y => Ok (sat _ (x + y))) _ _ _ _ a b Ha Hb) by reflexivity;
    entry2 x y Hx Hy; sx; fin).
Qed.

(** ** Halving *)

Definition hsub_lane (c : cfg) (t : sty) (x y : Z) : res Z :=
  let* d := (if width t <? 32 then Ok (x - y) else arith c t (x - y)) in Ok (wrap t (d / 2)).

Lemma shiftr_div x n k : 2 ^ n = k -> 0 <= n -> Z.shiftr x n = x / k.
Proof. intros <- H. now apply Z.shiftr_div_pow2. Qed.

Lemma half_range t x : in_range t x -> in_range t (x / 2).
Proof.
  unfold in_range. intros H. pose proof (Z.div_mod x 2 ltac:(lia)). pose proof (Z.mod_pos_bound x 2 ltac:(lia)).
  destruct t; cbn [lo hi] in *; lia.
Qed.

Lemma vhsub_run f t n c m a b : In (f, t, n) vhsub_table -> lanes t n a -> lanes t n b ->
  run c m f [vec t a; vec t b] = vec_outcome m t (mapM2 (hsub_lane c t) a b).
Proof.
  intros H Ha Hb. cbn [In vhsub_table] in H.
  each_entry H ltac:(entry2 x y Hx Hy; unfold hsub_lane;
    cbn [width Z.ltb Z.compare Pos.compare Pos.compare_cont]; sx;
    rewrite ?(shiftr_div _ 1 2) by (reflexivity || lia);
    try reflexivity;
    try (match goal with |- context [arith c ?t ?z] => destruct (arith c t z) eqn:Ea end; sx;
         [apply arith_range in Ea; apply half_range in Ea; rewrite ?(shiftr_div _ 1 2) by (reflexivity || lia);
          rewrite ?wrap_id by exact Ea |]; reflexivity);
    try (rewrite (wrap_id _ (wrap _ _ / 2)) by (apply half_range, wrap_range); reflexivity)).
Qed.

Lemma vhsub_ok f t n c m a b : In (f, t, n) vhsub_table -> lanes t n a -> lanes t n b ->
  width t < 32 \/ all_lanes (fun x y => in_range t (x - y)) a b ->
  run c m f [vec t a; vec t b] = Returns m (Some (vec t (map2 (fun x y => wrap t ((x - y) / 2)) a b))).
Proof.
  intros H Ha Hb Hs. rewrite (vhsub_run f t n) by assumption.
  rewrite (mapM2_ok _ (fun x y => wrap t ((x - y) / 2))); [reflexivity|].
  intros i x y Hx Hy. unfold hsub_lane. destruct Hs as [Hs|Hs].
  - destruct (Z.ltb_spec (width t) 32); [reflexivity|lia].
  - rewrite arith_ok by (eapply Hs; eauto). destruct (width t <? 32); reflexivity.
Qed.

Lemma vhsub_overflow f t n c m a b : In (f, t, n) vhsub_table -> lanes t n a -> lanes t n b ->
  wrapv c = false -> is_signed t = true -> 32 <= width t ->
  some_lane (fun x y => ~ in_range t (x - y)) a b ->
  run c m f [vec t a; vec t b] = Undefined SignedOverflow.
Proof.
  intros H Ha Hb Hc Hs Hw (i & x & y & Hx & Hy & Ho). rewrite (vhsub_run f t n) by assumption.
  rewrite (mapM2_err _ (EUB SignedOverflow)); [reflexivity| |].
  - intros j x' y' _ _. unfold hsub_lane, arith.
    destruct (width t <? 32), (is_signed t), (in_rangeb t (x' - y')), (wrapv c); cbn; eauto.
  - exists i, x, y. repeat split; trivial. unfold hsub_lane. destruct (Z.ltb_spec (width t) 32); [lia|].
    now rewrite arith_ub.
Qed.

(** What the unsigned 32-bit forms (and, with -fwrapv, the signed ones) compute. *)
Lemma vhsub_modular f t n c m a b : In (f, t, n) vhsub_table -> lanes t n a -> lanes t n b ->
  wrapv c = true \/ is_signed t = false -> width t = 32 ->
  run c m f [vec t a; vec t b] = Returns m (Some (vec t (map2 (fun x y => wrap t (x - y) / 2) a b))).
Proof.
  intros H Ha Hb Hc Hw. rewrite (vhsub_run f t n) by assumption.
  rewrite (mapM2_ok _ (fun x y => wrap t (x - y) / 2)); [reflexivity|].
  intros i x y Hx Hy. unfold hsub_lane. rewrite Hw. cbn [Z.ltb Z.compare Pos.compare Pos.compare_cont].
  replace (arith c t (x - y)) with (Ok (wrap t (x - y)))
    by (symmetry; destruct Hc; [now apply arith_wrapv | now apply arith_unsigned]).
  cbn [bind]. now rewrite (wrap_id t (wrap t _ / 2)) by (apply half_range, wrap_range).
Qed.

(** ** High half *)

(** The high half only depends on the value modulo 2^width. *)
Lemma high_half_shift t z : (t = I16 \/ t = I32 \/ t = I64 \/ t = U16 \/ t = U32 \/ t = U64) ->
  high_half t z = wrap (narrow t) (z / 2 ^ (width t / 2)).
Proof.
  intros Ht. unfold high_half. destruct (wrap_eqm t z) as [k ->].
  assert (Hm : modulus t = modulus (narrow t) * 2 ^ (width t / 2) /\ 0 < 2 ^ (width t / 2)).
  { destruct Ht as [-> | [-> | [-> | [-> | [-> | ->]]]]]; split; reflexivity. }
  destruct Hm as [-> Hp]. rewrite Z.mul_assoc, Z.div_add by lia. apply wrap_add_mult.
Qed.

Lemma vsubhn_high f t n c m a b : In (f, t, n) vsubhn_table -> lanes t n a -> lanes t n b ->
  run c m f [vec t a; vec t b]
  = Returns m (Some (vec (narrow t) (map2 (fun x y => high_half t (x - y)) a b))).
Proof.
  intros H Ha Hb. cbn [In vsubhn_table] in H.
  each_entry H ltac:(rewrite <- (ok_all2 m _ (fun x y => Ok (high_half _ (x - y))) _ _ _ _ a b Ha Hb) by reflexivity;
    entry2 x y Hx Hy; rewrite high_half_shift by tauto; sx;
    rewrite ?(shiftr_div _ 8 256) by (reflexivity || lia); reflexivity).
Qed.

(** The rounding constant the code adds: 2^(w/2-1), except for 64-bit lanes. *)
Definition rsubhn_lane (c : cfg) (t : sty) (x y : Z) : res Z :=
  if width t <? 32 then Ok (high_half t (x - y + 2 ^ (width t / 2 - 1)))
  else let* d := arith c t (x - y) in
       let* e := arith c t (d + 2 ^ (width t / 2 - 1)) in Ok (high_half t e).

Lemma vrsubhn_run f t n c m a b : In (f, t, n) vrsubhn_table -> lanes t n a -> lanes t n b ->
  run c m f [vec t a; vec t b] = vec_outcome m (narrow t) (mapM2 (rsubhn_lane c t) a b).
Proof.
  intros H Ha Hb. cbn [In vrsubhn_table] in H.
  each_entry H ltac:(entry2 x y Hx Hy; unfold rsubhn_lane;
    sxa; rewrite ?high_half_shift by tauto; sx;
    rewrite ?(shiftr_div _ 8 256), ?(shiftr_div _ 16 65536) by (reflexivity || lia); try reflexivity).

Qed.
Lemma high_half_wrap t z : high_half t (wrap t z) = high_half t z.
Proof. unfold high_half. now rewrite wrap_wrap. Qed.

Lemma vrsubhn_ok f t n c m a b : In (f, t, n) vrsubhn_table -> lanes t n a -> lanes t n b ->
  modular c t \/ all_lanes (fun x y => in_range t (x - y) /\ in_range t (x - y + 2 ^ (width t / 2 - 1))) a b ->
  run c m f [vec t a; vec t b]
  = Returns m (Some (vec (narrow t) (map2 (fun x y => high_half t (x - y + 2 ^ (width t / 2 - 1))) a b))).
Proof.
  intros H Ha Hb Hs. rewrite (vrsubhn_run f t n) by assumption.
  rewrite (mapM2_ok _ (fun x y => high_half t (x - y + 2 ^ (width t / 2 - 1)))); [reflexivity|].
  intros i x y Hx Hy. unfold rsubhn_lane. destruct (Z.ltb_spec (width t) 32) as [Hw|Hw]; [reflexivity|].
  destruct Hs as [Hs|Hs].
  - assert (Har : forall z, arith c t z = Ok (wrap t z)).
    { intros z. destruct Hs as [Hs|[Hs|Hs]]; [now apply arith_wrapv|now apply arith_unsigned|lia]. }
    rewrite !Har. cbn [bind]. rewrite Har. cbn [bind]. now rewrite high_half_wrap, <- high_half_wrap, wrap_add_l, high_half_wrap.
  - destruct (Hs i x y Hx Hy). rewrite arith_ok by assumption. cbn [bind]. rewrite arith_ok by assumption. reflexivity.
Qed.

Lemma vrsubhn_overflow f t n c m a b : In (f, t, n) vrsubhn_table -> lanes t n a -> lanes t n b ->
  wrapv c = false -> is_signed t = true -> 32 <= width t ->
  some_lane (fun x y => ~ (in_range t (x - y) /\ in_range t (x - y + 2 ^ (width t / 2 - 1)))) a b ->
  run c m f [vec t a; vec t b] = Undefined SignedOverflow.
Proof.
  intros H Ha Hb Hc Hs Hw (i & x & y & Hx & Hy & Ho). rewrite (vrsubhn_run f t n) by assumption.
  rewrite (mapM2_err _ (EUB SignedOverflow)); [reflexivity| |].
  - intros j x' y' _ _. unfold rsubhn_lane. destruct (width t <? 32); [eauto|]. unfold arith. rewrite Hs, Hc.
    destruct (in_rangeb t (x' - y')); cbn; [|eauto]. destruct (in_rangeb t _); cbn; eauto.
  - exists i, x, y. repeat split; trivial. unfold rsubhn_lane. destruct (Z.ltb_spec (width t) 32); [lia|].
    destruct (in_rangeb t (x - y)) eqn:E.
    + apply in_rangeb_spec in E. rewrite arith_ok by exact E. cbn [bind]. rewrite arith_ub; tauto.
    + apply in_rangeb_false in E. now rewrite arith_ub.
Qed.

(** 64-bit lanes: the constant is (int)(1 << 31), that is -2^31. *)
Definition rsubhn64_lane (c : cfg) (t : sty) (x y : Z) : res Z :=
  let* d := arith c t (x - y) in let* e := arith c t (d + wrap t (- 2 ^ 31)) in Ok (high_half t e).

Lemma vrsubhn64_run f t n c m a b : In (f, t, n) vrsubhn64_table -> lanes t n a -> lanes t n b ->
  run c m f [vec t a; vec t b] = vec_outcome m (narrow t) (mapM2 (rsubhn64_lane c t) a b).
Proof.
  intros H Ha Hb. cbn [In vrsubhn64_table] in H.
  each_entry H ltac:(entry2 x y Hx Hy; unfold rsubhn64_lane;
    sxa; rewrite ?high_half_shift by tauto; sx;
    rewrite ?(shiftr_div _ 32 4294967296) by (reflexivity || lia); try reflexivity).

Qed.
