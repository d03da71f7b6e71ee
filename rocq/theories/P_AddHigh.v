(** Additions that use one half of a vector, and pairwise additions. *)
From Coq Require Import ZArith String List Bool Lia.
From Verif Require Import Types FloatBits Syntax Interp ProgRecip ExecLemmas Lane Spec Ew Sym Tables.
From Verif Require Import ProgAdd ProgSub P_AddSub P_SubMore.
Import ListNotations.
Open Scope Z_scope.

Lemma vaddw_high_run f t n c m a b : In (f, t, n) vaddw_high_table ->
  lanes (wide t) n a -> lanes t (2 * n) b ->
  run c m f [vec (wide t) a; vec t b]
  = vec_outcome m (wide t) (mapM2 (fun x y => cpp_result c (wide t) (x + y)) a (skipn n b)).
Proof.
  intros H Ha Hb. cbn [In vaddw_high_table] in H.
  each_entry H ltac:(cbn [wide Nat.mul Nat.add] in *; explode Ha; explode Hb; split_rhs;
    match goal with |- run _ _ ?f _ = _ => unfold f end; run_steps).
Qed.

Lemma vaddl_high_exact f t n c m a b : In (f, t, n) vaddl_high_table ->
  lanes t (2 * n) a -> lanes t (2 * n) b ->
  run c m f [vec t a; vec t b]
  = Returns m (Some (vec (wide t) (map2 Z.add (skipn n a) (skipn n b)))).
Proof.
  intros H Ha Hb. cbn [In vaddl_high_table] in H.
  each_entry H ltac:(cbn [wide Nat.mul Nat.add] in *; explode Ha; explode Hb;
    match goal with |- run _ _ ?f _ = _ => unfold f end; run_steps).
Qed.

Lemma vaddl_high32_run f t n c m a b : In (f, t, n) vaddl_high32_table ->
  lanes t (2 * n) a -> lanes t (2 * n) b ->
  run c m f [vec t a; vec t b]
  = vec_outcome m (wide t) (mapM2 (fun x y => arith c t (x + y)) (skipn n a) (skipn n b)).
Proof.
  intros H Ha Hb. cbn [In vaddl_high32_table] in H.
  each_entry H ltac:(cbn [wide Nat.mul Nat.add] in *; explode Ha; explode Hb; split_rhs;
    match goal with |- run _ _ ?f _ = _ => unfold f end;
    repeat match goal with E : arith _ _ _ = Ok ?r |- _ => 
       lazymatch goal with Hr : in_range _ r |- _ => fail | _ => pose proof (arith_range _ _ _ _ E) end end;
    run_steps).
Qed.

Lemma vaddl_high32_ok f t n c m a b : In (f, t, n) vaddl_high32_table ->
  lanes t (2 * n) a -> lanes t (2 * n) b ->
  all_lanes (fun x y => in_range t (x + y)) (skipn n a) (skipn n b) ->
  run c m f [vec t a; vec t b]
  = Returns m (Some (vec (wide t) (map2 Z.add (skipn n a) (skipn n b)))).
Proof.
  intros H Ha Hb Hs. rewrite (vaddl_high32_run f t n) by assumption.
  rewrite (mapM2_ok _ Z.add); [reflexivity|]. intros i x y Hx Hy. apply arith_ok. eapply Hs; eauto.
Qed.

Lemma arith_either c t z : (exists r, arith c t z = Ok r) \/ arith c t z = Err (EUB SignedOverflow).
Proof. unfold arith. destruct (is_signed t), (in_rangeb t z), (wrapv c); eauto. Qed.

Lemma arith2_ub (op : Z -> Z -> Z) c m t u a b :
  wrapv c = false -> is_signed t = true ->
  some_lane (fun x y => ~ in_range t (op x y)) a b ->
  vec_outcome m u (mapM2 (fun x y => arith c t (op x y)) a b) = Undefined SignedOverflow.
Proof.
  intros Hc Hs (i & x & y & Hx & Hy & Ho).
  rewrite (mapM2_err _ (EUB SignedOverflow)); [reflexivity| |].
  - intros j x' y' _ _. apply arith_either.
  - exists i, x, y. repeat split; trivial. now apply arith_ub.
Qed.

Lemma arith2_modular (op : Z -> Z -> Z) c m t u a b :
  wrapv c = true \/ is_signed t = false ->
  vec_outcome m u (mapM2 (fun x y => arith c t (op x y)) a b)
  = Returns m (Some (vec u (map2 (fun x y => wrap t (op x y)) a b))).
Proof.
  intros Hc. rewrite (mapM2_ok _ (fun x y => wrap t (op x y))); [reflexivity|].
  intros i x y _ _. destruct Hc; [now apply arith_wrapv | now apply arith_unsigned].
Qed.

(** ** Narrowing *)

Lemma vaddhn_high_exact f t n c m r a b : In (f, t, n) vaddhn_high_table ->
  lanes (narrow t) n r -> lanes t n a -> lanes t n b ->
  run c m f [vec (narrow t) r; vec t a; vec t b]
  = Returns m (Some (vec (narrow t) (r ++ map2 (fun x y => high_half t (x + y)) a b))).
Proof.
  intros H Hr Ha Hb. cbn [In vaddhn_high_table] in H.
  each_entry H ltac:(cbn [narrow Nat.mul Nat.add] in *; explode Hr; explode Ha; explode Hb;
    cbn [map2 map vec]; rewrite !high_half_shift by tauto;
    change (width I16 / 2) with 8; change (width U16 / 2) with 8;
    rewrite <- !Z.shiftr_div_pow2 by lia;
    match goal with |- run _ _ ?f _ = _ => unfold f end; run_steps).
Qed.

(** What the 32- and 64-bit members compute: they shift by 4 and 2 instead of
    16 and 32. *)
Definition addhn_shift (t : sty) : Z :=
  match t with I32 | U32 => 4 | _ => 2 end.

Lemma vaddhn_high_bad_run f t n c m r a b : In (f, t, n) vaddhn_high_bad_table ->
  lanes (narrow t) n r -> lanes t n a -> lanes t n b ->
  run c m f [vec (narrow t) r; vec t a; vec t b]
  = vec_outcome m (narrow t) (let* zs := mapM2 (fun x y => let* d := arith c t (x + y) in
        Ok (wrap (narrow t) (Z.shiftr d (addhn_shift t)))) a b in Ok (r ++ zs)).
Proof.
  intros H Hr Ha Hb. cbn [In vaddhn_high_bad_table] in H.
  each_entry H ltac:(cbn [narrow addhn_shift Nat.mul Nat.add] in *; explode Hr; explode Ha; explode Hb;
    split_rhs;
    match goal with |- run _ _ ?f _ = _ => unfold f end; run_steps).
Qed.

(** ** Pairwise *)

Lemma vpaddl_exact f t n c m a : In (f, t, n) vpaddl_table ->
  lanes t (2 * n) a ->
  run c m f [vec t a]
  = Returns m (Some (vec (wide t) (map (fun i => nth (2 * i) a 0 + nth (2 * i + 1) a 0) (seq 0 n)))).
Proof.
  intros H Ha. cbn [In vpaddl_table] in H.
  each_entry H ltac:(cbn [wide Nat.mul Nat.add] in *; explode Ha;
    match goal with |- run _ _ ?f _ = _ => unfold f end; run_steps).
Qed.

(** ** vsubl on 32-bit lanes: the first operand is declared with four lanes and
    its low half is used. *)
Lemma vsubl32_exact f t n c m a b : In (f, t, n) vsubl32_table ->
  lanes t (2 * n) a -> lanes t n b ->
  run c m f [vec t a; vec t b]
  = Returns m (Some (vec (wide t) (map2 (fun x y => wrap (wide t) (x - y)) (firstn n a) b))).
Proof.
  intros H Ha Hb. cbn [In vsubl32_table] in H.
  each_entry H ltac:(cbn [wide Nat.mul Nat.add] in *; explode Ha; explode Hb;
    match goal with |- run _ _ ?f _ = _ => unfold f end; run_steps).
Qed.

(** ** vsubn: shifts by 8 whatever the width. *)
Lemma vsubn_run f t n c m a b : In (f, t, n) vsubn_table ->
  lanes t n a -> lanes t n b ->
  run c m f [vec t a; vec t b]
  = vec_outcome m (narrow t) (mapM2 (fun x y => let* d := arith c t (x - y) in
        Ok (wrap (narrow t) (d / 256))) a b).
Proof.
  intros H Ha Hb. cbn [In vsubn_table] in H.
  each_entry H ltac:(entry2 x y Hx Hy; sxa; rewrite ?(shiftr_div _ 8 256) by (reflexivity || lia); reflexivity).
Qed.

(** ** vrsubhn on 64-bit lanes: the rounding constant has the wrong sign, and
    the result is always one less than the documented one. *)
Lemma vrsubhn64_off_by_one f t n c m a b : In (f, t, n) vrsubhn64_table -> lanes t n a -> lanes t n b ->
  wrapv c = true \/ is_signed t = false \/
  all_lanes (fun x y => in_range t (x - y) /\ in_range t (x - y - 2 ^ 31)) a b ->
  run c m f [vec t a; vec t b]
  = Returns m (Some (vec (narrow t)
      (map2 (fun x y => wrap (narrow t) (high_half t (x - y + 2 ^ 31) - 1)) a b))).
Proof.
  intros H Ha Hb Hs. rewrite (vrsubhn64_run f t n) by assumption.
  rewrite (mapM2_ok _ (fun x y => wrap (narrow t) (high_half t (x - y + 2 ^ 31) - 1))); [reflexivity|].
  intros i x y Hx Hy. unfold rsubhn64_lane.
  assert (Ht : t = I64 \/ t = U64).
  { cbn [In vrsubhn64_table] in H. destruct H as [H|[H|[]]]; injection H as _ <- _; auto. }
  assert (Hd : (let* d := arith c t (x - y) in let* e := arith c t (d + wrap t (- 2 ^ 31)) in Ok (high_half t e))
               = Ok (high_half t (x - y - 2 ^ 31))).
  { destruct Hs as [Hs|[Hs|Hs]].
    - rewrite !arith_wrapv by assumption. cbn [bind]. rewrite !arith_wrapv by assumption. cbn [bind].
      rewrite high_half_wrap, <- high_half_wrap, wrap_add_l, wrap_add_r, high_half_wrap. reflexivity.
    - rewrite !arith_unsigned by assumption. cbn [bind]. rewrite !arith_unsigned by assumption. cbn [bind].
      rewrite high_half_wrap, <- high_half_wrap, wrap_add_l, wrap_add_r, high_half_wrap. reflexivity.
    - destruct (Hs i x y Hx Hy) as [H1 H2].
      rewrite arith_ok by exact H1. cbn [bind].
      destruct Ht as [-> | ->].
      + change (wrap I64 (- 2 ^ 31)) with (- 2 ^ 31). rewrite arith_ok by exact H2. reflexivity.
      + rewrite arith_unsigned by reflexivity. cbn [bind].
        rewrite high_half_wrap, <- high_half_wrap, wrap_add_r, high_half_wrap. reflexivity. }
  rewrite Hd. f_equal.
  rewrite !high_half_shift by tauto.
  replace (2 ^ (width t / 2)) with 4294967296 by (destruct Ht as [-> | ->]; reflexivity).
  replace (x - y - 2 ^ 31) with (x - y + 2 ^ 31 + (-1) * 4294967296) by lia.
  rewrite Z.div_add by lia. rewrite wrap_sub_l. f_equal.
Qed.
