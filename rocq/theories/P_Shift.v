(** Shifts by an immediate. *)
From Coq Require Import ZArith String List Bool Lia.
From Verif Require Import Types FloatBits Syntax Interp ProgRecip ExecLemmas Lane Spec Ew Sym Tables.
From Verif Require Import ProgShift ProgRev P_AddSub P_SubMore.
Import ListNotations.
Open Scope Z_scope.

Lemma shiftr_range t x k : is_float t = false -> in_range t x -> 0 <= k -> in_range t (Z.shiftr x k).
Proof.
  intros Hf H Hk. rewrite Z.shiftr_div_pow2 by exact Hk.
  assert (Hp : 1 <= 2 ^ k) by (pose proof (Z.pow_pos_nonneg 2 k ltac:(lia) Hk); lia).
  assert (Hb : lo t <= 0 /\ 0 <= hi t) by (destruct t; cbn; lia).
  unfold in_range in *.
  pose proof (Z.div_mod x (2 ^ k) ltac:(lia)) as Hd. pose proof (Z.mod_pos_bound x (2 ^ k) ltac:(lia)) as Hm.
  split; [apply Z.div_le_lower_bound; nia | apply Z.div_le_upper_bound; nia].
Qed.

Ltac dec_cmp :=
  match goal with |- context [compare_int ?op ?a ?b] =>
    let H := fresh in
    first [ assert (H : compare_int op a b = true) by (cbn [compare_int]; lia)
          | assert (H : compare_int op a b = false) by (cbn [compare_int]; lia) ];
    rewrite H; clear H
  end.
Ltac sxk := sx0; repeat ((dec_cmp || sx_step || sx_cmp); sx0).

Lemma ok_all1 m t h (g : Z -> Z) t1 n a : lanes t1 n a ->
  (forall x, in_range t1 x -> h x = Ok (g x)) ->
  vec_outcome m t (mapM h a) = Returns m (Some (vec t (map g a))).
Proof.
  intros [_ Ha] H. rewrite (mapM_ok_map h g); [reflexivity|].
  rewrite Forall_forall in Ha. auto.
Qed.

Lemma err_all1 m t t1 n a e : lanes t1 (S n) a ->
  vec_outcome m t (mapM (fun _ : Z => Err e) a) = outcome_of (Err e).
Proof. intros [L _]. destruct a; [discriminate|]. reflexivity. Qed.

Lemma vshrn_shift f t n c m a k : In (f, t, n) vshrn_table -> lanes t n a -> 1 <= k <= width t / 2 ->
  run c m f [vec t a; rv I32 k]
  = Returns m (Some (vec (narrow t) (map (fun x => wrap (narrow t) (x / 2 ^ k)) a))).
Proof.
  intros H Ha Hk. cbn [In vshrn_table] in H.
  each_entry H ltac:(cbn [width] in Hk;
    match type of Hk with _ <= _ <= ?d => let d' := eval vm_compute in d in change d with d' in Hk end;
    rewrite <- (ok_all1 m _ (fun x => Ok (wrap (narrow _) (x / 2 ^ k))) _ _ _ a Ha) by reflexivity;
    entry1s x Hx; rewrite <- Z.shiftr_div_pow2 by lia; cbn [narrow]; sxk; reflexivity).
Qed.

Lemma vshrn_reject f t n c m a k : In (f, t, n) vshrn_table -> lanes t n a -> in_range I32 k ->
  ~ (1 <= k <= width t / 2) ->
  run c m f [vec t a; rv I32 k] = Aborts.
Proof.
  intros H Ha Hi Hk. cbn [In vshrn_table] in H.
  each_entry H ltac:(cbn [width] in Hk;
    match type of Hk with ~ (_ <= _ <= ?d) => let d' := eval vm_compute in d in change d with d' in Hk end;
    match type of Ha with lanes ?t _ _ => etransitivity; [|exact (err_all1 m (narrow t) _ _ a EAbort Ha)] end;
    entry1s x Hx; sxk; first [reflexivity | lia]).
Qed.

Lemma vshr_n_u16_shift c m a k : lanes U16 4 a -> 1 <= k <= 8 ->
  run c m vshr_n_u16 [vec U16 a; rv I32 k] = Returns m (Some (vec U16 (map (fun x => x / 2 ^ k) a))).
Proof.
  intros Ha Hk. rewrite <- (ok_all1 m _ (fun x => Ok (x / 2 ^ k)) _ _ _ a Ha) by reflexivity.
  entry1s x Hx. rewrite <- Z.shiftr_div_pow2 by lia.
  pose proof (shiftr_range U16 x k eq_refl Hx ltac:(lia)). sxk. reflexivity.
Qed.

Lemma vshr_n_u16_reject c m a k : lanes U16 4 a -> in_range I32 k -> ~ (1 <= k <= 8) ->
  run c m vshr_n_u16 [vec U16 a; rv I32 k] = Aborts.
Proof.
  intros Ha Hi Hk. etransitivity; [|exact (err_all1 m U16 _ _ a EAbort Ha)].
  entry1s x Hx. sxk; first [reflexivity | lia].
Qed.

Lemma vqshrun_n_s16_sat c m a k : lanes I16 8 a -> 1 <= k <= 8 ->
  run c m vqshrun_n_s16 [vec I16 a; rv I32 k]
  = Returns m (Some (vec U8 (map (fun x => sat U8 (x / 2 ^ k)) a))).
Proof.
  intros Ha Hk. rewrite <- (ok_all1 m _ (fun x => Ok (sat U8 (x / 2 ^ k))) _ _ _ a Ha) by reflexivity.
  entry1s x Hx. rewrite <- Z.shiftr_div_pow2 by lia.
  pose proof (shiftr_range I16 x k eq_refl Hx ltac:(lia)). sxk; fin.
Qed.

Lemma pow_pred k : 1 <= k -> 2 ^ k = 2 * 2 ^ (k - 1).
Proof. intros H. replace k with (Z.succ (k - 1)) at 1 by lia. now rewrite Z.pow_succ_r by lia. Qed.

Lemma pow_bound k a b : 0 <= a -> a <= k <= b -> 2 ^ a <= 2 ^ k <= 2 ^ b.
Proof. intros Ha H. split; apply Z.pow_le_mono_r; lia. Qed.

Lemma one_shl c k : 1 <= k <= 31 -> shift_left c I32 1 (k - 1) = Ok (2 ^ (k - 1)).
Proof.
  intros H. pose proof (pow_bound (k - 1) 0 30 ltac:(lia) ltac:(lia)) as Hp.
  change (2 ^ 30) with 1073741824 in Hp.
  rewrite shift_left_ok; cbn [width is_signed modulus]; try lia; try reflexivity.
  rewrite Z.mul_1_l, wrap_id; [reflexivity|]. unfold in_range; cbn [lo hi]; lia.
Qed.

Lemma vqrshrun_n_s16_sat c m a k : lanes I16 8 a -> 1 <= k <= 8 ->
  run c m vqrshrun_n_s16 [vec I16 a; rv I32 k]
  = Returns m (Some (vec U8 (map (fun x => sat U8 ((x + 2 ^ (k - 1)) / 2 ^ k)) a))).
Proof.
  intros Ha Hk. rewrite <- (ok_all1 m _ (fun x => Ok (sat U8 ((x + 2 ^ (k - 1)) / 2 ^ k))) _ _ _ a Ha) by reflexivity.
  entry1s x Hx.
  pose proof (pow_bound (k - 1) 0 7 ltac:(lia) ltac:(lia)) as Hp. change (2 ^ 7) with 128 in Hp. change (2 ^ 0) with 1 in Hp.
  pose proof (pow_pred k ltac:(lia)) as Hp2.
  assert (Hq : in_range I16 (Z.shiftr (x + 2 ^ (k - 1)) k)).
  { rewrite Z.shiftr_div_pow2, Hp2 by lia. unfold in_range in *; cbn [lo hi] in *.
    split; [apply Z.div_le_lower_bound|apply Z.div_le_upper_bound]; nia. }
  rewrite <- Z.shiftr_div_pow2 by lia.
  sx0. repeat ((rewrite one_shl by lia) || dec_cmp || sx_step || sx_cmp; sx0); fin.
Qed.

Lemma vrshrn_n_u16_round c m a k : lanes U16 8 a -> 1 <= k <= 31 ->
  run c m vrshrn_n_u16 [vec U16 a; rv I32 k]
  = Returns m (Some (vec U8 (map (fun x => wrap U8 ((x + 2 ^ (k - 1)) / 2 ^ k)) a))).
Proof.
  intros Ha Hk. rewrite <- (ok_all1 m _ (fun x => Ok (wrap U8 ((x + 2 ^ (k - 1)) / 2 ^ k))) _ _ _ a Ha) by reflexivity.
  entry1s x Hx.
  pose proof (pow_bound (k - 1) 0 30 ltac:(lia) ltac:(lia)) as Hp. change (2 ^ 30) with 1073741824 in Hp. change (2 ^ 0) with 1 in Hp.
  rewrite <- Z.shiftr_div_pow2 by lia.
  sx0. repeat ((rewrite one_shl by lia) || dec_cmp || sx_step || sx_cmp; sx0); fin.
Qed.

Lemma shift_left_bad c t x n : ~ (0 <= n < width t) -> shift_left c t x n = Err (EUB BadShift).
Proof.
  intros H. unfold shift_left. destruct (Z.leb_spec 0 n); destruct (Z.ltb_spec n (width t)); trivial; lia.
Qed.

Lemma vrshrn_n_u16_bad c m a k : lanes U16 8 a -> in_range I32 k -> ~ (1 <= k <= 31) ->
  wrapv c = true \/ k <> -2147483648 ->
  run c m vrshrn_n_u16 [vec U16 a; rv I32 k] = Undefined BadShift.
Proof.
  intros Ha Hi Hk Hw. etransitivity; [|exact (err_all1 m U8 _ _ a (EUB BadShift) Ha)].
  entry1s x Hx. sx0.
  destruct (Z.eq_dec k (-2147483648)) as [->|Hk2].
  - destruct Hw as [Hw|Hw]; [|congruence]. rewrite arith_wrapv by exact Hw.
    sx0. change (wrap I32 (-2147483648 - 1)) with 2147483647.
    rewrite shift_left_bad by (cbn; lia). reflexivity.
  - rewrite arith_ok by range. sx0.
    destruct (Z.eq_dec k 32) as [->|Hk3].
    + sxk. rewrite shift_right_bad by (cbn; lia). reflexivity.
    + rewrite shift_left_bad by (cbn [width]; lia). reflexivity.
Qed.

(** ** Saturating narrowing shifts without a check of the immediate *)

Lemma vqshrn_sat f t n c m a k : In (f, t, n) vqshrn_table -> lanes t n a -> 0 <= k < width (computed_in t) ->
  run c m f [vec t a; rv I32 k]
  = Returns m (Some (vec (narrow t) (map (fun x => sat (narrow t) (x / 2 ^ k)) a))).
Proof.
  intros H Ha Hk. cbn [In vqshrn_table] in H.
  each_entry H ltac:(cbn [width computed_in] in Hk;
    rewrite <- (ok_all1 m _ (fun x => Ok (sat (narrow _) (x / 2 ^ k))) _ _ _ a Ha) by reflexivity;
    entry1s x Hx; rewrite <- Z.shiftr_div_pow2 by lia; cbn [narrow];
    match type of Hx with in_range ?t _ => pose proof (shiftr_range t x k eq_refl Hx ltac:(lia)) end;
    sxk; fin).
Qed.

Lemma vqshrn_bad f t n c m a k : In (f, t, n) vqshrn_table -> lanes t n a -> in_range I32 k ->
  ~ (0 <= k < width (computed_in t)) ->
  run c m f [vec t a; rv I32 k] = Undefined BadShift.
Proof.
  intros H Ha Hi Hk. cbn [In vqshrn_table] in H.
  each_entry H ltac:(cbn [width computed_in] in Hk;
    match type of Ha with lanes ?t _ _ => etransitivity; [|exact (err_all1 m (narrow t) _ _ a (EUB BadShift) Ha)] end;
    entry1s x Hx; sx0; rewrite shift_right_bad by (cbn [width]; lia); reflexivity).
Qed.

(** vqshrn_n_s64 converts to int32_t before taking the minimum. *)
Lemma vqshrn_n_s64_run c m a k : lanes I64 2 a -> 0 <= k < 64 ->
  run c m vqshrn_n_s64 [vec I64 a; rv I32 k]
  = Returns m (Some (vec I32 (map (fun x => wrap I32 (Z.max (x / 2 ^ k) (- 2 ^ 31))) a))).
Proof.
  intros Ha Hk.
  rewrite <- (ok_all1 m _ (fun x => Ok (wrap I32 (Z.max (x / 2 ^ k) (- 2 ^ 31)))) _ _ _ a Ha) by reflexivity.
  entry1s x Hx. rewrite <- Z.shiftr_div_pow2 by lia.
  pose proof (shiftr_range I64 x k eq_refl Hx ltac:(lia)). sxk.
  change (- (2147483648)) with (-2147483648).
  pose proof (wrap_range I32 (Z.max (Z.shiftr x k) (-2147483648))) as Hr.
  do 3 apply f_equal. unfold in_range in Hr; cbn [lo hi] in Hr. lia.
Qed.

Lemma vqshrn_n_s64_sat c m a k : lanes I64 2 a -> 0 <= k < 64 ->
  Forall (fun x => x / 2 ^ k <= hi I32) a ->
  run c m vqshrn_n_s64 [vec I64 a; rv I32 k]
  = Returns m (Some (vec I32 (map (fun x => sat I32 (x / 2 ^ k)) a))).
Proof.
  intros Ha Hk Hs. rewrite vqshrn_n_s64_run by assumption. do 3 f_equal.
  apply map_ext_in. intros x Hx. rewrite Forall_forall in Hs. specialize (Hs x Hx).
  unfold sat. cbn [lo hi] in *. rewrite wrap_id; [lia|]. unfold in_range; cbn [lo hi]. lia.
Qed.

Lemma vqshrn_n_s64_bad c m a k : lanes I64 2 a -> in_range I32 k -> ~ (0 <= k < 64) ->
  run c m vqshrn_n_s64 [vec I64 a; rv I32 k] = Undefined BadShift.
Proof.
  intros Ha Hi Hk. etransitivity; [|exact (err_all1 m I32 _ _ a (EUB BadShift) Ha)].
  entry1s x Hx; sx0; rewrite shift_right_bad by (cbn [width]; lia); reflexivity.
Qed.

(** ** vshll_n_u8, vshlq_n_s32, vsraq_n_s32 *)

Lemma vshll_n_u8_run c m a k : lanes U8 8 a -> 0 <= k <= 24 ->
  run c m vshll_n_u8 [vec U8 a; rv I32 k]
  = Returns m (Some (vec U16 (map (fun x => wrap U16 (x * 2 ^ k)) a))).
Proof.
  intros Ha Hk. rewrite <- (ok_all1 m _ (fun x => Ok (wrap U16 (x * 2 ^ k))) _ _ _ a Ha) by reflexivity.
  entry1s x Hx. pose proof (pow_bound k 0 24 ltac:(lia) Hk) as Hp.
  change (2 ^ 0) with 1 in Hp. change (2 ^ 24) with 16777216 in Hp.
  sxk. unfold in_range in Hx; cbn [lo hi] in Hx.
  rewrite shift_left_ok; cbn [width is_signed modulus]; try lia; try reflexivity; try nia.
  sx0. rewrite (wrap_wider U16 I32) by (exists 65536; reflexivity). reflexivity.
Qed.

Lemma vshll_n_u8_exact c m a k : lanes U8 8 a -> 0 <= k <= 8 ->
  run c m vshll_n_u8 [vec U8 a; rv I32 k]
  = Returns m (Some (vec U16 (map (fun x => x * 2 ^ k) a))).
Proof.
  intros Ha Hk. rewrite vshll_n_u8_run by (trivial; lia). do 3 f_equal. apply map_ext_in. intros x Hx.
  destruct Ha as [_ Ha]. rewrite Forall_forall in Ha. specialize (Ha x Hx). apply wrap_id.
  pose proof (pow_bound k 0 8 ltac:(lia) Hk) as Hp.
  change (2 ^ 0) with 1 in Hp. change (2 ^ 8) with 256 in Hp. unfold in_range in *; cbn [lo hi] in *. nia.
Qed.

Definition shl_lane (c : cfg) (k x : Z) : res Z := shift_left c I32 x k.

Lemma vshlq_n_s32_run c m a k : lanes I32 4 a ->
  run c m vshlq_n_s32 [vec I32 a; rv I32 k] = vec_outcome m I32 (mapM (shl_lane c k) a).
Proof.
  intros Ha. entry1s x Hx. unfold shl_lane. sx0. destruct (shift_left c I32 x k) eqn:E; sx0; reflexivity.
Qed.

Lemma vshlq_n_s32_ok c m a k : lanes I32 4 a -> 0 <= k <= 31 ->
  wrapv c = true \/ Forall (fun x => 0 <= x /\ x * 2 ^ k < 2 ^ 32) a ->
  run c m vshlq_n_s32 [vec I32 a; rv I32 k]
  = Returns m (Some (vec I32 (map (fun x => wrap I32 (x * 2 ^ k)) a))).
Proof.
  intros Ha Hk Hs. rewrite vshlq_n_s32_run by exact Ha.
  rewrite (mapM_ok_map _ (fun x => wrap I32 (x * 2 ^ k))); [reflexivity|]. intros x Hx. unfold shl_lane.
  destruct Hs as [Hs|Hs]; [apply shift_left_wrapv; cbn [width]; trivial; lia|].
  rewrite Forall_forall in Hs. destruct (Hs x Hx). apply shift_left_ok; cbn [width is_signed modulus]; trivial; lia.
Qed.

Lemma vshlq_n_s32_ub c m a k : lanes I32 4 a -> in_range I32 k -> wrapv c = false ->
  ~ (0 <= k <= 31) \/ Exists (fun x => x < 0 \/ 2 ^ 32 <= x * 2 ^ k) a ->
  run c m vshlq_n_s32 [vec I32 a; rv I32 k] = Undefined BadShift.
Proof.
  intros Ha Hi Hc H. rewrite vshlq_n_s32_run by exact Ha.
  destruct (Z_le_dec 0 k) as [H0|H0]; [destruct (Z_le_dec k 31) as [H1|H1]|].
  - destruct H as [H|H]; [lia|]. apply Exists_exists in H. destruct H as (y & Hy & H).
    rewrite (mapM_err_some _ (EUB BadShift)); [reflexivity| |].
    + intros x Hx. unfold shl_lane, shift_left.
      destruct (_ && _); [|now right]. cbn [is_signed]. rewrite Hc. destruct (_ && _); eauto.
    + exists y. split; [exact Hy|]. unfold shl_lane, shift_left. cbn [is_signed width modulus]. rewrite Hc.
      destruct (Z.leb_spec 0 k); [|lia]. destruct (Z.ltb_spec k 32); [|lia]. cbn [andb].
      destruct (Z.leb_spec 0 y); [|reflexivity]. cbn [andb].
      change 4294967296 with (2 ^ 32). destruct (Z.ltb_spec (y * 2 ^ k) (2 ^ 32)); [lia|reflexivity].
  - replace (mapM (shl_lane c k) a) with (mapM (fun _ : Z => @Err Z (EUB BadShift)) a); [exact (err_all1 m I32 _ _ a _ Ha)|].
    apply mapM_ext. intros x _. symmetry. apply shift_left_bad. cbn [width]. lia.
  - replace (mapM (shl_lane c k) a) with (mapM (fun _ : Z => @Err Z (EUB BadShift)) a); [exact (err_all1 m I32 _ _ a _ Ha)|].
    apply mapM_ext. intros x _. symmetry. apply shift_left_bad. cbn [width]. lia.
Qed.

(** The addend is shifted as well. *)
Lemma vsraq_n_s32_run c m a b k : lanes I32 4 a -> lanes I32 4 b -> 0 <= k <= 31 ->
  run c m vsraq_n_s32 [vec I32 a; vec I32 b; rv I32 k]
  = vec_outcome m I32 (mapM2 (fun x y => arith c I32 (x / 2 ^ k + y / 2 ^ k)) a b).
Proof.
  intros Ha Hb Hk. entry2s x y Hx Hy. rewrite <- !Z.shiftr_div_pow2 by lia.
  pose proof (shiftr_range I32 x k eq_refl Hx ltac:(lia)).
  pose proof (shiftr_range I32 y k eq_refl Hy ltac:(lia)). sx0.
  repeat (rewrite shift_right_ok by (cbn [width]; lia); sx0).
  destruct (arith c I32 _); sx0; reflexivity.
Qed.

(** With [k >= 1] the sum always fits. *)
Lemma vsraq_n_s32_value c m a b k : lanes I32 4 a -> lanes I32 4 b -> 1 <= k <= 31 ->
  run c m vsraq_n_s32 [vec I32 a; vec I32 b; rv I32 k]
  = Returns m (Some (vec I32 (map2 (fun x y => x / 2 ^ k + y / 2 ^ k) a b))).
Proof.
  intros Ha Hb Hk. rewrite vsraq_n_s32_run by (trivial; lia).
  rewrite (mapM2_ok _ (fun x y => x / 2 ^ k + y / 2 ^ k)); [reflexivity|].
  apply (all_lanes_range _ I32 I32 4); trivial. intros x y Hx Hy. apply arith_ok.
  assert (Hd : forall z, in_range I32 z -> -1073741824 <= z / 2 ^ k <= 1073741823).
  { intros z Hz. unfold in_range in Hz; cbn [lo hi] in Hz.
    pose proof (pow_bound k 1 31 ltac:(lia) Hk) as Hp. change (2 ^ 1) with 2 in Hp.
    assert (z / 2 ^ k < 1073741824) by (apply Z.div_lt_upper_bound; lia).
    split; [apply Z.div_le_lower_bound; lia | lia]. }
  pose proof (Hd x Hx). pose proof (Hd y Hy). unfold in_range; cbn [lo hi]. lia.
Qed.

(** ** vqshrun_n_s32 and vqshrun_n_s64 compute a value and drop it *)

Lemma mapM_const {A B} (x : B) (l : list A) : mapM (fun _ => Ok x) l = Ok (repeat x (List.length l)).
Proof. induction l as [|a l IH]; [reflexivity|]. cbn. now rewrite IH. Qed.

Lemma vqshrun_n_s32_dropped c m a k : lanes I32 4 a -> 1 <= k <= 16 ->
  Forall (fun x => in_range I32 (x + 2 ^ (k - 1))) a ->
  run c m vqshrun_n_s32 [vec I32 a; rv I32 k] = Returns m (Some (OArr (repeat (OScal U16 None) 4))).
Proof.
  intros Ha Hk Hs. rewrite (run_ew 4) by (reflexivity || (apply ew_vec; [reflexivity|apply Ha|apply ew_scal; [reflexivity|constructor]])).
  rewrite (mapM_ext _ (fun _ : nat => Ok (OScal U16 None)) (seq 0 4)).
  - rewrite mapM_const. reflexivity.
  - intros j Hj. apply in_seq in Hj. destruct Ha as [La Fa].
    destruct (nth_error_lt a j ltac:(lia)) as [x Hx]. cbn [map]. rewrite (lane_of_vec _ _ _ _ Hx).
    pose proof (nth_error_In _ _ Hx) as Hin. rewrite Forall_forall in Fa, Hs.
    pose proof (Fa x Hin) as Hr. pose proof (Hs x Hin) as Hr2.
    pose proof (shiftr_range I32 _ k eq_refl Hr2 ltac:(lia)) as Hr3.
    sx0. repeat ((rewrite one_shl by lia) || dec_cmp || sx_step || sx_cmp; sx0); reflexivity.
Qed.

Lemma vqshrun_n_s64_dropped c m a k : lanes I64 2 a -> 1 <= k <= 31 ->
  Forall (fun x => in_range I64 (x + 2 ^ (k - 1))) a ->
  run c m vqshrun_n_s64 [vec I64 a; rv I32 k] = Returns m (Some (OArr (repeat (OScal U32 None) 2))).
Proof.
  intros Ha Hk Hs. rewrite (run_ew 2) by (reflexivity || (apply ew_vec; [reflexivity|apply Ha|apply ew_scal; [reflexivity|constructor]])).
  rewrite (mapM_ext _ (fun _ : nat => Ok (OScal U32 None)) (seq 0 2)).
  - rewrite mapM_const. reflexivity.
  - intros j Hj. apply in_seq in Hj. destruct Ha as [La Fa].
    destruct (nth_error_lt a j ltac:(lia)) as [x Hx]. cbn [map]. rewrite (lane_of_vec _ _ _ _ Hx).
    pose proof (nth_error_In _ _ Hx) as Hin. rewrite Forall_forall in Fa, Hs.
    pose proof (Fa x Hin) as Hr. pose proof (Hs x Hin) as Hr2.
    pose proof (shiftr_range I64 _ k eq_refl Hr2 ltac:(lia)) as Hr3.
    pose proof (pow_bound (k - 1) 0 30 ltac:(lia) ltac:(lia)) as Hp. change (2 ^ 30) with 1073741824 in Hp. change (2 ^ 0) with 1 in Hp.
    sx0. repeat ((rewrite one_shl by lia) || dec_cmp || sx_step || sx_cmp; sx0); reflexivity.
Qed.

(** The checked saturating shifts: (function, operand type, lanes, largest n). *)
Lemma vqshrun_reject f t n k0 c m a k :
  In (f, t, n, k0) [(vqshrun_n_s16, I16, 8%nat, 8); (vqshrun_n_s32, I32, 4%nat, 16);
                    (vqshrun_n_s64, I64, 2%nat, 32); (vqrshrun_n_s16, I16, 8%nat, 8)] ->
  lanes t n a -> in_range I32 k -> ~ (1 <= k <= k0) ->
  run c m f [vec t a; rv I32 k] = Aborts.
Proof.
  intros H Ha Hi Hk. cbn [In] in H.
  repeat destruct H as [H|H]; try (injection H as <- <- <- <-); [.. | destruct H];
    (etransitivity; [|exact (err_all1 m U8 _ _ a EAbort Ha)]);
    entry1s x Hx; sxk; first [reflexivity | lia].
Qed.
