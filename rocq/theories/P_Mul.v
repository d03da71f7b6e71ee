(** Multiplication, multiply-accumulate, maximum and minimum, broadcast. *)
From Coq Require Import ZArith String List Bool Lia.
From Verif Require Import Types FloatBits Syntax Interp ProgRecip ExecLemmas Lane Spec Ew Sym Tables.
From Verif Require Import ProgAdd ProgSub ProgMul P_AddSub P_SubMore.
Import ListNotations.
Open Scope Z_scope.

(** A product in C++: computed in the promoted type, converted to [u]. *)
Definition mul_lane (c : cfg) (t u : sty) (x y : Z) : res Z :=
  let* p := arith c (promote t) (x * y) in Ok (wrap u p).

Lemma vmul_run f t n c m a b : In (f, t, n) vmul_table -> lanes t n a -> lanes t n b ->
  run c m f [vec t a; vec t b] = vec_outcome m t (mapM2 (mul_lane c t t) a b).
Proof.
  intros H Ha Hb. cbn [In vmul_table] in H.
  each_entry H ltac:(entry2 x y Hx Hy; unfold mul_lane; sxla; reflexivity).
Qed.

Lemma vmul_n_run f t n c m a k : In (f, t, n) vmul_n_table -> lanes t n a -> in_range t k ->
  run c m f [vec t a; rv t k] = vec_outcome m t (mapM (fun x => mul_lane c t t x k) a).
Proof.
  intros H Ha Hk. cbn [In vmul_n_table] in H.
  each_entry H ltac:(entry1s x Hx; unfold mul_lane; sxla; reflexivity).
Qed.

Lemma vmull_run f t n c m a b : In (f, t, n) vmull_table -> lanes t n a -> lanes t n b ->
  run c m f [vec t a; vec t b] = vec_outcome m (wide t) (mapM2 (mul_lane c t (wide t)) a b).
Proof.
  intros H Ha Hb. cbn [In vmull_table] in H.
  each_entry H ltac:(entry2 x y Hx Hy; unfold mul_lane; sxla; reflexivity).
Qed.

Lemma vmull_n_run f t n c m a k : In (f, t, n) vmull_n_table -> lanes t n a -> in_range t k ->
  run c m f [vec t a; rv t k] = vec_outcome m (wide t) (mapM (fun x => mul_lane c t (wide t) x k) a).
Proof.
  intros H Ha Hk. cbn [In vmull_n_table] in H.
  each_entry H ltac:(entry1s x Hx; unfold mul_lane; sxla; reflexivity).
Qed.

(** Accumulate: the product, in the promoted type of its operands; the sum, in
    the promoted type [p] of the accumulator. *)
Definition mla_lane (sub : bool) (c : cfg) (t u : sty) (x y z : Z) : res Z :=
  let* q := arith c (promote t) (y * z) in
  let q' := wrap (promote u) q in
  let* s := arith c (promote u) (if sub then x - q' else x + q') in Ok (wrap u s).

Lemma vmlal_run f t n c m a b d : In (f, t, n) vmlal_table ->
  lanes (wide t) n a -> lanes t n b -> lanes t n d ->
  run c m f [vec (wide t) a; vec t b; vec t d]
  = vec_outcome m (wide t) (mapM3 (mla_lane false c t (wide t)) a b d).
Proof.
  intros H Ha Hb Hd. cbn [In vmlal_table] in H.
  each_entry H ltac:(cbn [wide] in *; entry3 x y z Hx Hy Hz; unfold mla_lane; sxla; reflexivity).
Qed.

Lemma vmlsl_run f t n c m a b d : In (f, t, n) vmlsl_table ->
  lanes (wide t) n a -> lanes t n b -> lanes t n d ->
  run c m f [vec (wide t) a; vec t b; vec t d]
  = vec_outcome m (wide t) (mapM3 (mla_lane true c t (wide t)) a b d).
Proof.
  intros H Ha Hb Hd. cbn [In vmlsl_table] in H.
  each_entry H ltac:(cbn [wide] in *; entry3 x y z Hx Hy Hz; unfold mla_lane; sxla; reflexivity).
Qed.

Lemma vmlaq_run f t n c m a b d : In (f, t, n) vmlaq_table ->
  lanes t n a -> lanes t n b -> lanes t n d ->
  run c m f [vec t a; vec t b; vec t d]
  = vec_outcome m t (mapM3 (mla_lane false c t t) a b d).
Proof.
  intros H Ha Hb Hd. cbn [In vmlaq_table] in H.
  each_entry H ltac:(entry3 x y z Hx Hy Hz; unfold mla_lane; sxla; reflexivity).
Qed.

Lemma vqdmull_exact c m a b : lanes I16 4 a -> lanes I16 4 b ->
  run c m vqdmull_s16 [vec I16 a; vec I16 b]
  = Returns m (Some (vec I32 (map2 (fun x y => sat I32 (2 * x * y)) a b))).
Proof.
  intros Ha Hb. rewrite <- (ok_all2 m _ (fun x y => Ok (sat _ (2 * x * y))) _ _ _ _ a b Ha Hb) by reflexivity.
  entry2 x y Hx Hy; sx; try fin.
  apply f_equal, f_equal, f_equal. unfold sat, in_range in *; cbn [lo hi] in *. nia.
Qed.

(** ** Maximum and minimum *)

Lemma vmax_exact f t n c m a b : In (f, t, n) (vmax_table ++ vmax_u_table) -> lanes t n a -> lanes t n b ->
  run c m f [vec t a; vec t b] = Returns m (Some (vec t (map2 Z.max a b))).
Proof.
  intros H Ha Hb. cbn [In vmax_table vmax_u_table app] in H.
  each_entry H ltac:(rewrite <- (ok_all2 m _ (fun x y => Ok (Z.max x y)) _ _ _ _ a b Ha Hb) by reflexivity;
    entry2 x y Hx Hy; sx; fin).
Qed.

Lemma vmin_exact f t n c m a b : In (f, t, n) (vmin_table ++ vmin_u_table) -> lanes t n a -> lanes t n b ->
  run c m f [vec t a; vec t b] = Returns m (Some (vec t (map2 Z.min a b))).
Proof.
  intros H Ha Hb. cbn [In vmin_table vmin_u_table app] in H.
  each_entry H ltac:(rewrite <- (ok_all2 m _ (fun x y => Ok (Z.min x y)) _ _ _ _ a b Ha Hb) by reflexivity;
    entry2 x y Hx Hy; sx; fin).
Qed.

(** ** Broadcast and halves *)

Lemma vdup_exact f t n c m x : In (f, t, n) vdup_table -> in_range t x ->
  run c m f [rv t x] = Returns m (Some (vec t (repeat x n))).
Proof.
  intros H Hx. cbn [In vdup_table] in H.
  each_entry H ltac:(vm_compute; reflexivity).
Qed.

Lemma vget_low_exact f t n c m a : In (f, t, n) vget_low_table -> lanes t (2 * n) a ->
  run c m f [vec t a] = Returns m (Some (vec t (firstn n a))).
Proof.
  intros H Ha. cbn [In vget_low_table] in H.
  each_entry H ltac:(cbn [Nat.mul Nat.add] in Ha; explode Ha; vm_compute; reflexivity).
Qed.

Lemma vget_high_exact f t n c m a : In (f, t, n) vget_high_table -> lanes t (2 * n) a ->
  run c m f [vec t a] = Returns m (Some (vec t (skipn n a))).
Proof.
  intros H Ha. cbn [In vget_high_table] in H.
  each_entry H ltac:(cbn [Nat.mul Nat.add] in Ha; explode Ha; vm_compute; reflexivity).
Qed.

(** ** When the result is the mathematical one *)

Definition narrow_product (t : sty) : bool := match t with I8 | U8 | I16 => true | _ => false end.

Lemma narrow_product_fits t x y : narrow_product t = true -> in_range t x -> in_range t y ->
  in_range (promote t) (x * y).
Proof. destruct t; try discriminate; intros _; unfold in_range; cbn [lo hi promote]; nia. Qed.

Lemma arith_total c t z : wrapv c = true \/ is_signed t = false \/ in_range t z -> arith c t z = Ok (wrap t z).
Proof.
  intros [H|[H|H]]; [now apply arith_wrapv|now apply arith_unsigned|].
  rewrite arith_ok by exact H. now rewrite wrap_id.
Qed.

Lemma arith_total_or c t z : (exists r, arith c t z = Ok r) \/ arith c t z = Err (EUB SignedOverflow).
Proof. unfold arith. destruct (is_signed t), (in_rangeb t z), (wrapv c); eauto. Qed.

Lemma modulus_promote t : (modulus t | modulus (promote t)).
Proof. destruct t; [exists (2^24)|exists (2^16)|exists 1|exists 1|exists (2^24)|exists (2^16)|exists 1|exists 1|exists 1|exists 1]; reflexivity. Qed.

Lemma wrap_promote t z : wrap t (wrap (promote t) z) = wrap t z.
Proof. apply wrap_wider, modulus_promote. Qed.

Lemma mul_lane_ok c t x y : in_range t x -> in_range t y ->
  narrow_product t = true \/ wrapv c = true \/ is_signed (promote t) = false \/ in_range (promote t) (x * y) ->
  mul_lane c t t x y = Ok (wrap t (x * y)).
Proof.
  intros Hx Hy H. unfold mul_lane. rewrite arith_total.
  - cbn [bind]. now rewrite wrap_promote.
  - destruct H as [H|H]; [|exact H]. right; right. now apply narrow_product_fits.
Qed.

Lemma mul_lane_either c t u x y : (exists r, mul_lane c t u x y = Ok r) \/ mul_lane c t u x y = Err (EUB SignedOverflow).
Proof.
  unfold mul_lane, arith.
  destruct (is_signed (promote t)), (in_rangeb (promote t) (x * y)), (wrapv c); cbn; eauto.
Qed.

Lemma mul_lane_ub c t u x y : wrapv c = false -> is_signed (promote t) = true -> ~ in_range (promote t) (x * y) ->
  mul_lane c t u x y = Err (EUB SignedOverflow).
Proof. intros. unfold mul_lane. now rewrite arith_ub. Qed.

Lemma vmul_wraps f t n : In (f, t, n) vmul_table -> forall c m a b, lanes t n a -> lanes t n b ->
  mul_modular c t \/ all_lanes (fun x y => in_range (computed_in t) (x * y)) a b ->
  run c m f [vec t a; vec t b] = Returns m (Some (vec t (map2 (fun x y => wrap t (x * y)) a b))).
Proof.
  intros H c m a b Ha Hb Hs. rewrite (vmul_run f t n) by assumption.
  rewrite (mapM2_ok _ (fun x y => wrap t (x * y))); [reflexivity|].
  intros i x y Hx Hy. apply mul_lane_ok; [exact (lanes_nth _ _ _ _ _ Ha Hx)|exact (lanes_nth _ _ _ _ _ Hb Hy)|].
  destruct Hs as [[[Hs|[Hs|Hs]]|[Hs|Hs]]|Hs]; try (subst t; cbn; tauto); auto.
  right; right; right. exact (Hs i x y Hx Hy).
Qed.

Lemma vmul_overflow f t n : In (f, t, n) vmul_table -> forall c m a b, lanes t n a -> lanes t n b ->
  wrapv c = false -> is_signed (computed_in t) = true ->
  some_lane (fun x y => ~ in_range (computed_in t) (x * y)) a b ->
  run c m f [vec t a; vec t b] = Undefined SignedOverflow.
Proof.
  intros H c m a b Ha Hb Hc Hs (i & x & y & Hx & Hy & Ho). rewrite (vmul_run f t n) by assumption.
  rewrite (mapM2_err _ (EUB SignedOverflow)); [reflexivity| |].
  - intros j x' y' _ _. apply mul_lane_either.
  - exists i, x, y. repeat split; trivial. now apply mul_lane_ub.
Qed.

Lemma vmul_n_wraps f t n : In (f, t, n) vmul_n_table -> forall c m a k, lanes t n a -> in_range t k ->
  mul_modular c t \/ Forall (fun x => in_range (computed_in t) (x * k)) a ->
  run c m f [vec t a; rv t k] = Returns m (Some (vec t (map (fun x => wrap t (x * k)) a))).
Proof.
  intros H c m a k Ha Hk Hs. rewrite (vmul_n_run f t n) by assumption.
  rewrite (mapM_ok_map _ (fun x => wrap t (x * k))); [reflexivity|].
  intros x Hx. destruct Ha as [_ Fa]. rewrite Forall_forall in Fa. apply mul_lane_ok; auto.
  destruct Hs as [[[Hs|[Hs|Hs]]|[Hs|Hs]]|Hs]; try (subst t; cbn; tauto); auto.
  right; right; right. rewrite Forall_forall in Hs. exact (Hs x Hx).
Qed.

Lemma vmul_n_overflow f t n : In (f, t, n) vmul_n_table -> forall c m a k, lanes t n a -> in_range t k ->
  wrapv c = false -> is_signed (computed_in t) = true ->
  Exists (fun x => ~ in_range (computed_in t) (x * k)) a ->
  run c m f [vec t a; rv t k] = Undefined SignedOverflow.
Proof.
  intros H c m a k Ha Hk Hc Hs Ho. rewrite (vmul_n_run f t n) by assumption.
  rewrite (mapM_err_some _ (EUB SignedOverflow)); [reflexivity| |].
  - intros x _. apply mul_lane_either.
  - apply Exists_exists in Ho. destruct Ho as (x & Hi & Ho). exists x. split; [exact Hi|]. now apply mul_lane_ub.
Qed.

(** *** Long products *)

Lemma wide_id t x y : in_range t x -> in_range t y -> (t = I8 \/ t = I16 \/ t = I32 \/ t = U8 \/ t = U16 \/ t = U32) ->
  wrap (wide t) (x * y) = x * y.
Proof.
  intros Hx Hy Ht. apply wrap_id.
  destruct Ht as [-> | [-> | [-> | [-> | [-> | ->]]]]]; unfold in_range in *; cbn [lo hi wide] in *; nia.
Qed.

Lemma vmull_types f t n : In (f, t, n) vmull_table -> t = I8 \/ t = I16 \/ t = I32 \/ t = U8 \/ t = U16 \/ t = U32.
Proof. cbn [In vmull_table]. intros H. each_entry H ltac:(tauto). Qed.
Lemma vmull_n_types f t n : In (f, t, n) vmull_n_table -> t = I8 \/ t = I16 \/ t = I32 \/ t = U8 \/ t = U16 \/ t = U32.
Proof. cbn [In vmull_n_table]. intros H. each_entry H ltac:(tauto). Qed.

Lemma mull_lane_ok c t x y : (t = I8 \/ t = I16 \/ t = I32 \/ t = U8 \/ t = U16 \/ t = U32) ->
  in_range t x -> in_range t y ->
  narrow_product t = true \/ (wrapv c = true /\ t = U16) \/ in_range (promote t) (x * y) ->
  mul_lane c t (wide t) x y = Ok (x * y).
Proof.
  intros Ht Hx Hy H. pose proof (wide_id t x y Hx Hy Ht) as Hw.
  assert (Hr : in_range (promote t) (x * y) -> mul_lane c t (wide t) x y = Ok (x * y)).
  { intros Hr. unfold mul_lane. rewrite arith_ok by exact Hr. cbn [bind]. now rewrite Hw. }
  destruct H as [H|[[H ->]|H]]; auto.
  - apply Hr. now apply narrow_product_fits.
  - unfold mul_lane. rewrite arith_wrapv by exact H. cbn [bind promote].
    rewrite <- Hw at 2. f_equal. apply (wrap_wider (wide U16) I32). exists 1. reflexivity.
Qed.

Lemma vmull_exact f t n : In (f, t, n) vmull_table -> forall c m a b, lanes t n a -> lanes t n b ->
  narrow_product t = true \/ (wrapv c = true /\ t = U16)
    \/ all_lanes (fun x y => in_range (computed_in t) (x * y)) a b ->
  run c m f [vec t a; vec t b] = Returns m (Some (vec (wide t) (map2 Z.mul a b))).
Proof.
  intros H c m a b Ha Hb Hs. rewrite (vmull_run f t n) by assumption.
  rewrite (mapM2_ok _ Z.mul); [reflexivity|].
  intros i x y Hx Hy. apply mull_lane_ok; [eapply vmull_types; eauto|exact (lanes_nth _ _ _ _ _ Ha Hx)|exact (lanes_nth _ _ _ _ _ Hb Hy)|].
  destruct Hs as [Hs|[Hs|Hs]]; auto. right; right. exact (Hs i x y Hx Hy).
Qed.

Lemma vmull_overflow f t n : In (f, t, n) vmull_table -> forall c m a b, lanes t n a -> lanes t n b ->
  wrapv c = false -> is_signed (computed_in t) = true ->
  some_lane (fun x y => ~ in_range (computed_in t) (x * y)) a b ->
  run c m f [vec t a; vec t b] = Undefined SignedOverflow.
Proof.
  intros H c m a b Ha Hb Hc Hs (i & x & y & Hx & Hy & Ho). rewrite (vmull_run f t n) by assumption.
  rewrite (mapM2_err _ (EUB SignedOverflow)); [reflexivity| |].
  - intros j x' y' _ _. apply mul_lane_either.
  - exists i, x, y. repeat split; trivial. now apply mul_lane_ub.
Qed.

(** vmull_u32 keeps the low 32 bits of the product only. *)
Lemma vmull_u32_truncates c m a b : lanes U32 2 a -> lanes U32 2 b ->
  run c m vmull_u32 [vec U32 a; vec U32 b]
  = Returns m (Some (vec U64 (map2 (fun x y => wrap U32 (x * y)) a b))).
Proof.
  intros Ha Hb. rewrite (vmull_run vmull_u32 U32 2) by (trivial; cbn; tauto).
  rewrite (mapM2_ok _ (fun x y => wrap U32 (x * y))); [reflexivity|].
  intros i x y _ _. unfold mul_lane. cbn [promote wide]. rewrite arith_unsigned by reflexivity. cbn [bind].
  rewrite wrap_id; [reflexivity|]. pose proof (wrap_range U32 (x * y)). range.
Qed.

Lemma vmull_n_exact f t n : In (f, t, n) vmull_n_table -> forall c m a k, lanes t n a -> in_range t k ->
  narrow_product t = true \/ (wrapv c = true /\ t = U16)
    \/ Forall (fun x => in_range (computed_in t) (x * k)) a ->
  run c m f [vec t a; rv t k] = Returns m (Some (vec (wide t) (map (fun x => x * k) a))).
Proof.
  intros H c m a k Ha Hk Hs. rewrite (vmull_n_run f t n) by assumption.
  rewrite (mapM_ok_map _ (fun x => x * k)); [reflexivity|].
  intros x Hx. destruct Ha as [_ Fa]. rewrite Forall_forall in Fa.
  apply mull_lane_ok; [eapply vmull_n_types; eauto|auto..|].
  destruct Hs as [Hs|[Hs|Hs]]; auto. right; right. rewrite Forall_forall in Hs. exact (Hs x Hx).
Qed.

Lemma vmull_n_overflow f t n : In (f, t, n) vmull_n_table -> forall c m a k, lanes t n a -> in_range t k ->
  wrapv c = false -> is_signed (computed_in t) = true ->
  Exists (fun x => ~ in_range (computed_in t) (x * k)) a ->
  run c m f [vec t a; rv t k] = Undefined SignedOverflow.
Proof.
  intros H c m a k Ha Hk Hc Hs Ho. rewrite (vmull_n_run f t n) by assumption.
  rewrite (mapM_err_some _ (EUB SignedOverflow)); [reflexivity| |].
  - intros x _. apply mul_lane_either.
  - apply Exists_exists in Ho. destruct Ho as (x & Hi & Ho). exists x. split; [exact Hi|]. now apply mul_lane_ub.
Qed.

Lemma vmull_n_u32_truncates c m a k : lanes U32 2 a -> in_range U32 k ->
  run c m vmull_n_u32 [vec U32 a; rv U32 k]
  = Returns m (Some (vec U64 (map (fun x => wrap U32 (x * k)) a))).
Proof.
  intros Ha Hk. rewrite (vmull_n_run vmull_n_u32 U32 2) by (trivial; cbn; tauto).
  rewrite (mapM_ok_map _ (fun x => wrap U32 (x * k))); [reflexivity|].
  intros x _. unfold mul_lane. cbn [promote wide]. rewrite arith_unsigned by reflexivity. cbn [bind].
  rewrite wrap_id; [reflexivity|]. pose proof (wrap_range U32 (x * k)). range.
Qed.

(** *** Multiply-accumulate *)

Lemma mod_trunc t u q z : width u <= 32 ->
  (u = t \/ u = wide t) -> is_float t = false ->
  q = wrap (promote t) z -> exists k, wrap (promote u) q = z + k * modulus u.
Proof.
  intros Hw Hu Hf ->.
  destruct (wrap_eqm (promote t) z) as [k1 E1]. rewrite E1.
  destruct (wrap_eqm (promote u) (z + k1 * modulus (promote t))) as [k2 E2]. rewrite E2.
  assert (H1 : exists j, modulus (promote t) = j * modulus u).
  { destruct Hu as [-> | ->], t; try discriminate; cbn in Hw; try lia; cbn [promote wide];
      [exists (2^24)|exists (2^16)|exists 1|exists (2^24)|exists (2^16)|exists 1|exists (2^16)|exists 1|exists (2^16)|exists 1]; reflexivity. }
  assert (H2 : exists j, modulus (promote u) = j * modulus u).
  { destruct (modulus_promote u) as [j Hj]. exists j. exact Hj. }
  destruct H1 as [j1 ->], H2 as [j2 ->]. exists (k1 * j1 + k2 * j2). ring.
Qed.

Lemma mla_lane_ok sub c t u x y z : (u = t \/ u = wide t) -> is_float t = false ->
  (is_signed t = false -> 0 <= y * z) ->
  mla_safe sub c t u x y z -> mla_lane sub c t u x y z = Ok (wrap u (mla_value sub x y z)).
Proof.
  intros Hu Hf Hn [Hp Hs]. unfold mla_lane.
  change (computed_in t) with (promote t) in Hp. change (computed_in u) with (promote u) in Hs.
  destruct Hp as [Hp|[Hp Hw]].
  - rewrite arith_ok by exact Hp. cbn [bind].
    assert (Hq : wrap (promote u) (y * z) = y * z).
    { apply wrap_id. destruct Hu as [-> | ->]; [exact Hp|].
      destruct t; try discriminate; unfold in_range in *; cbn [promote wide lo hi is_signed] in *;
        try specialize (Hn eq_refl); lia. }
    rewrite Hq. unfold mla_value in *.
    rewrite arith_total by (destruct sub; tauto). cbn [bind]. now rewrite wrap_promote.
  - rewrite (arith_total c (promote t)) by tauto. cbn [bind].
    destruct (mod_trunc t u _ (y * z) Hw Hu Hf eq_refl) as [k Hk]. rewrite Hk.
    rewrite arith_total.
    2: { destruct Hp as [Hp|Hp]; [now left|right; left].
         destruct Hu as [-> | ->], t; cbn in *; try discriminate; try reflexivity; lia. }
    cbn [bind]. rewrite wrap_promote. f_equal. unfold mla_value.
    destruct sub.
    + replace (x - (y * z + k * modulus u)) with (x - y * z + (- k) * modulus u) by ring. apply wrap_add_mult.
    + replace (x + (y * z + k * modulus u)) with (x + y * z + k * modulus u) by ring. apply wrap_add_mult.
Qed.

Lemma mla_lane_either sub c t u x y z :
  (exists r, mla_lane sub c t u x y z = Ok r) \/ mla_lane sub c t u x y z = Err (EUB SignedOverflow).
Proof.
  unfold mla_lane. destruct (arith_total_or c (promote t) (y * z)) as [[q ->]|H]; [cbn [bind]|now rewrite H; right].
  destruct (arith_total_or c (promote u) (if sub then x - wrap (promote u) q else x + wrap (promote u) q)) as [[r ->]|H];
    [left; cbn; eauto|right; now rewrite H].
Qed.

Lemma mla_lane_ub sub c t u x y z : (u = t \/ u = wide t) -> is_float t = false -> wrapv c = false ->
  (is_signed t = false -> 0 <= y * z) ->
  mla_overflows sub t u x y z -> mla_lane sub c t u x y z = Err (EUB SignedOverflow).
Proof.
  intros Hu Hf Hc Hn H. unfold mla_lane, mla_overflows in *.
  change (computed_in t) with (promote t) in H. change (computed_in u) with (promote u) in H.
  destruct H as [[H1 H2]|(Hp & H1 & H2)].
  - rewrite arith_ub by assumption. reflexivity.
  - rewrite arith_ok by exact Hp. cbn [bind].
    assert (Hq : wrap (promote u) (y * z) = y * z).
    { apply wrap_id. destruct Hu as [-> | ->]; [exact Hp|].
      destruct t; try discriminate; unfold in_range in *; cbn [promote wide lo hi is_signed] in *;
        try specialize (Hn eq_refl); lia. }
    rewrite Hq. unfold mla_value in H2. now rewrite arith_ub by (destruct sub; assumption).
Qed.

Lemma unsigned_product t y z : is_float t = false -> in_range t y -> in_range t z -> is_signed t = false -> 0 <= y * z.
Proof. intros Hf Hy Hz Hs. destruct t; try discriminate; unfold in_range in *; cbn [lo hi] in *; nia. Qed.

Lemma mla_outcome_ok sub c m t u n a b d : (u = t \/ u = wide t) -> is_float t = false ->
  lanes t n b -> lanes t n d ->
  all_lanes3 (mla_safe sub c t u) a b d ->
  vec_outcome m u (mapM3 (mla_lane sub c t u) a b d)
  = Returns m (Some (vec u (map3 (fun x y z => wrap u (mla_value sub x y z)) a b d))).
Proof.
  intros Hu Hf Hb Hd Hs. rewrite (mapM3_ok _ (fun x y z => wrap u (mla_value sub x y z))); [reflexivity|].
  intros i x y z Hx Hy Hz. apply mla_lane_ok; trivial.
  - apply unsigned_product; [exact Hf|exact (lanes_nth _ _ _ _ _ Hb Hy)|exact (lanes_nth _ _ _ _ _ Hd Hz)].
  - eapply Hs; eauto.
Qed.

Lemma mla_outcome_ub sub c m t u n a b d : (u = t \/ u = wide t) -> is_float t = false -> wrapv c = false ->
  lanes t n b -> lanes t n d ->
  some_lane3 (mla_overflows sub t u) a b d ->
  vec_outcome m u (mapM3 (mla_lane sub c t u) a b d) = Undefined SignedOverflow.
Proof.
  intros Hu Hf Hc Hb Hd (i & x & y & z & Hx & Hy & Hz & Ho).
  rewrite (mapM3_err _ (EUB SignedOverflow) a b d i x y z); trivial.
  - intros. apply mla_lane_either.
  - apply mla_lane_ub; trivial.
    apply unsigned_product; [exact Hf|exact (lanes_nth _ _ _ _ _ Hb Hy)|exact (lanes_nth _ _ _ _ _ Hd Hz)].
Qed.

Ltac no_float H := cbn [In vmlal_table vmlsl_table vmlaq_table] in H; each_entry H ltac:(reflexivity).

Lemma vmlal_ok f t n : In (f, t, n) vmlal_table -> forall c m a b d,
  lanes (wide t) n a -> lanes t n b -> lanes t n d -> all_lanes3 (mla_safe false c t (wide t)) a b d ->
  run c m f [vec (wide t) a; vec t b; vec t d]
  = Returns m (Some (vec (wide t) (map3 (fun x y z => wrap (wide t) (x + y * z)) a b d))).
Proof.
  intros H c m a b d Ha Hb Hd Hs. rewrite (vmlal_run f t n) by assumption.
  apply (mla_outcome_ok false) with (n := n); auto. no_float H.
Qed.

Lemma vmlal_overflow f t n : In (f, t, n) vmlal_table -> forall c m a b d,
  lanes (wide t) n a -> lanes t n b -> lanes t n d -> wrapv c = false ->
  some_lane3 (mla_overflows false t (wide t)) a b d ->
  run c m f [vec (wide t) a; vec t b; vec t d] = Undefined SignedOverflow.
Proof.
  intros H c m a b d Ha Hb Hd Hc Ho. rewrite (vmlal_run f t n) by assumption.
  apply mla_outcome_ub with (n := n); auto. no_float H.
Qed.

Lemma vmlsl_ok f t n : In (f, t, n) vmlsl_table -> forall c m a b d,
  lanes (wide t) n a -> lanes t n b -> lanes t n d -> all_lanes3 (mla_safe true c t (wide t)) a b d ->
  run c m f [vec (wide t) a; vec t b; vec t d]
  = Returns m (Some (vec (wide t) (map3 (fun x y z => wrap (wide t) (x - y * z)) a b d))).
Proof.
  intros H c m a b d Ha Hb Hd Hs. rewrite (vmlsl_run f t n) by assumption.
  apply (mla_outcome_ok true) with (n := n); auto. no_float H.
Qed.

Lemma vmlsl_overflow f t n : In (f, t, n) vmlsl_table -> forall c m a b d,
  lanes (wide t) n a -> lanes t n b -> lanes t n d -> wrapv c = false ->
  some_lane3 (mla_overflows true t (wide t)) a b d ->
  run c m f [vec (wide t) a; vec t b; vec t d] = Undefined SignedOverflow.
Proof.
  intros H c m a b d Ha Hb Hd Hc Ho. rewrite (vmlsl_run f t n) by assumption.
  apply mla_outcome_ub with (n := n); auto. no_float H.
Qed.

Lemma vmlaq_ok f t n : In (f, t, n) vmlaq_table -> forall c m a b d,
  lanes t n a -> lanes t n b -> lanes t n d -> all_lanes3 (mla_safe false c t t) a b d ->
  run c m f [vec t a; vec t b; vec t d]
  = Returns m (Some (vec t (map3 (fun x y z => wrap t (x + y * z)) a b d))).
Proof.
  intros H c m a b d Ha Hb Hd Hs. rewrite (vmlaq_run f t n) by assumption.
  apply (mla_outcome_ok false) with (n := n); auto. no_float H.
Qed.

Lemma vmlaq_overflow f t n : In (f, t, n) vmlaq_table -> forall c m a b d,
  lanes t n a -> lanes t n b -> lanes t n d -> wrapv c = false ->
  some_lane3 (mla_overflows false t t) a b d ->
  run c m f [vec t a; vec t b; vec t d] = Undefined SignedOverflow.
Proof.
  intros H c m a b d Ha Hb Hd Hc Ho. rewrite (vmlaq_run f t n) by assumption.
  apply mla_outcome_ub with (n := n); auto. no_float H.
Qed.

(** The members for which nothing can go wrong. *)
Lemma mla_safe_long8 sub c t x y z : t = I8 \/ t = U8 ->
  in_range (wide t) x -> in_range t y -> in_range t z -> mla_safe sub c t (wide t) x y z.
Proof.
  intros [-> | ->] Hx Hy Hz; unfold mla_safe, mla_value, in_range in *; cbn [computed_in wide lo hi] in *;
    split; left; destruct sub; nia.
Qed.

Lemma mla_safe_short c t x y z : t = I8 \/ t = U8 \/ t = I16 ->
  in_range t x -> in_range t y -> in_range t z -> mla_safe false c t t x y z.
Proof.
  intros [-> | [-> | ->]] Hx Hy Hz; unfold mla_safe, mla_value, in_range in *; cbn [computed_in lo hi] in *;
    split; left; nia.
Qed.

Lemma all_lanes3_range (P : Z -> Z -> Z -> Prop) t1 t2 t3 n a b d :
  lanes t1 n a -> lanes t2 n b -> lanes t3 n d ->
  (forall x y z, in_range t1 x -> in_range t2 y -> in_range t3 z -> P x y z) -> all_lanes3 P a b d.
Proof. intros Ha Hb Hd H i x y z Hx Hy Hz. apply H; [exact (lanes_nth _ _ _ _ _ Ha Hx)|exact (lanes_nth _ _ _ _ _ Hb Hy)|exact (lanes_nth _ _ _ _ _ Hd Hz)]. Qed.
