(** More identities between intrinsics: narrowing, shifts, selection, saturation. *)
From Coq Require Import ZArith String List Bool Lia.
From Verif Require Import Types FloatBits Syntax Interp ProgRecip ExecLemmas Lane Spec Ew Sym Tables Compose.
From Verif Require Import ProgAdd ProgSub ProgMul ProgBit ProgShift ProgPerm ProgRev.
From Verif Require Import P_AddSub P_SubMore P_AddHigh P_Mul P_Laws2 P_Bool P_Bit P_Shift P_Perm P_Bsl P_Tbl P_Compose.
Import ListNotations.
Open Scope Z_scope.

Ltac in_table := repeat (first [left; reflexivity | right]); fail.

Lemma map2_lanes t n g a b : lanes t n a -> lanes t n b -> (forall x y, in_range t x -> in_range t y -> in_range t (g x y)) -> lanes t n (map2 g a b).
Proof.
  intros [La Fa] [Lb Fb] H. split; [rewrite map2_length; lia|].
  clear La Lb. revert b Fb. induction Fa as [|x a Hx Fa IH]; intros [|y b] Fb; cbn; try constructor.
  - inversion Fb; subst. now apply H.
  - inversion Fb; subst. now apply IH.
Qed.

Lemma map2_lanes' t u n g a b : lanes t n a -> lanes t n b -> (forall x y, in_range t x -> in_range t y -> in_range u (g x y)) -> lanes u n (map2 g a b).
Proof.
  intros [La Fa] [Lb Fb] H. split; [rewrite map2_length; lia|].
  clear La Lb. revert b Fb. induction Fa as [|x a Hx Fa IH]; intros [|y b] Fb; cbn; try constructor.
  - inversion Fb; subst. now apply H.
  - inversion Fb; subst. now apply IH.
Qed.

Lemma map_map2 {A B} (k : A -> B) (g : Z -> Z -> A) a b : map k (map2 g a b) = map2 (fun x y => k (g x y)) a b.
Proof. revert b. induction a as [|x a IH]; intros [|y b]; cbn; trivial. now rewrite IH. Qed.

Lemma map2_l (g h : Z -> Z -> Z) : forall a b, map2 g (map2 h a b) b = map2 (fun x y => g (h x y) y) a b.
Proof. induction a as [|x a IH]; intros [|y b]; cbn; trivial. now rewrite IH. Qed.

Lemma map2_r (g h : Z -> Z -> Z) : forall a b, map2 g a (map2 h a b) = map2 (fun x y => g x (h x y)) a b.
Proof. induction a as [|x a IH]; intros [|y b]; cbn; trivial. now rewrite IH. Qed.

Lemma map2_lr (g h k : Z -> Z -> Z) : forall a b, map2 g (map2 h a b) (map2 k a b) = map2 (fun x y => g (h x y) (k x y)) a b.
Proof. induction a as [|x a IH]; intros [|y b]; cbn; trivial. now rewrite IH. Qed.

Lemma map2_flip {A} (g : Z -> Z -> A) : forall a b, map2 g b a = map2 (fun x y => g y x) a b.
Proof. induction a as [|x a IH]; intros [|y b]; cbn; trivial. now rewrite IH. Qed.

Lemma map2_same {A} (g h : Z -> Z -> A) t n a b : lanes t n a -> lanes t n b ->
  (forall x y, in_range t x -> in_range t y -> g x y = h x y) -> map2 g a b = map2 h a b.
Proof.
  intros [_ Fa] [_ Fb] H. revert b Fb. induction Fa as [|x a Hx Fa IH]; intros [|y b] Fb; cbn; trivial.
  inversion Fb; subst. rewrite H by assumption. f_equal. now apply IH.
Qed.

Lemma map_same {A} (g h : Z -> A) t n a : lanes t n a -> (forall x, in_range t x -> g x = h x) -> map g a = map h a.
Proof. intros [_ F] H. apply map_ext_in. intros x Hx. apply H. rewrite Forall_forall in F. now apply F. Qed.

(** ** Narrowing the high half *)

Lemma vsubhn_compose f g h t n c m a b : In (f, t, n) vsubhn_table -> In (g, t, n) vsub_table -> In (h, t, n) vshrn_table ->
  lanes t n a -> lanes t n b ->
  run c m f [vec t a; vec t b] = and_then (run c m g [vec t a; vec t b]) (fun d => run c m h [d; rv I32 8]).
Proof.
  intros Hf Hg Hh Ha Hb. assert (Ht : width t = 16) by (destruct Hf as [Hf|[Hf|[]]]; injection Hf as <- <- <-; reflexivity).
  rewrite (vsubhn_high f t n), (vsub_run g t n) by assumption.
  rewrite (mapM2_ok _ (fun x y => wrap t (x - y))) by (intros; unfold cpp_result; now rewrite Ht).
  rewrite then_vec. cbv iota beta. rewrite (vshrn_shift h t n); [|trivial|apply (map2_lanes t n); trivial; intros; apply wrap_range|rewrite Ht; cbn; lia].
  rewrite map_map2. unfold high_half. rewrite Ht. reflexivity.
Qed.

Lemma vaddhn_high_compose f g h k t n c m r a b : In (f, t, n) vaddhn_high_table -> In (g, t, n) vadd_table -> In (h, t, n) vshrn_table ->
  In (k, narrow t, n) vcombine_table -> lanes (narrow t) n r -> lanes t n a -> lanes t n b ->
  run c m f [vec (narrow t) r; vec t a; vec t b]
  = and_then (run c m g [vec t a; vec t b]) (fun s => and_then (run c m h [s; rv I32 8]) (fun d => run c m k [vec (narrow t) r; d])).
Proof.
  intros Hf Hg Hh Hk Hr Ha Hb. assert (Ht : width t = 16) by (destruct Hf as [Hf|[Hf|[]]]; injection Hf as <- <- <-; reflexivity).
  rewrite (vaddhn_high_exact f t n), (vadd_run g t n) by assumption.
  rewrite (mapM2_ok _ (fun x y => wrap t (x + y))) by (intros; unfold cpp_result; now rewrite Ht).
  rewrite then_vec. cbv iota beta. rewrite (vshrn_shift h t n); [|trivial|apply (map2_lanes t n); trivial; intros; apply wrap_range|rewrite Ht; cbn; lia].
  cbn [and_then]. rewrite map_map2. rewrite (vcombine_exact k (narrow t) n); trivial.
  - unfold high_half. rewrite Ht. reflexivity.
  - apply (map2_lanes' t (narrow t) n); trivial. intros. apply wrap_range.
Qed.

(** vsubn_T (the header's vsubhn_T on 32- and 64-bit lanes) is vshrn_n_T by 8 of the difference, undefined behaviour included *)
Lemma mapM2_then (g : Z -> Z -> res Z) (k : Z -> Z) : forall a b,
  mapM2 (fun x y => let* d := g x y in Ok (k d)) a b = (let* ds := mapM2 g a b in Ok (map k ds)).
Proof.
  unfold mapM2. induction a as [|x a IH]; intros [|y b]; cbn; trivial. destruct (g x y); [|reflexivity]. cbn. rewrite IH.
  destruct (mapM _ _); reflexivity.
Qed.

Lemma vsubn_compose f g h t n c m a b : In (f, t, n) vsubn_table -> In (g, t, n) vsub_table -> In (h, t, n) vshrn_table ->
  lanes t n a -> lanes t n b ->
  run c m f [vec t a; vec t b] = and_then (run c m g [vec t a; vec t b]) (fun d => run c m h [d; rv I32 8]).
Proof.
  intros Hf Hg Hh Ha Hb. assert (Ht : width t = 32 \/ width t = 64) by (destruct Hf as [Hf|[Hf|[Hf|[Hf|[]]]]]; injection Hf as <- <- <-; cbn; tauto).
  rewrite (vsubn_run f t n), (vsub_run g t n) by assumption.
  rewrite mapM2_then, (bind_outcome _ _ _ _ t).
  assert (E : mapM2 (fun x y => cpp_result c t (x - y)) a b = mapM2 (fun x y => arith c t (x - y)) a b).
  { apply mapM2_ext. intros. unfold cpp_result. destruct Ht as [ -> | -> ]; reflexivity. }
  rewrite E. apply and_then_vec. intros ds D. rewrite D. rewrite (vshrn_shift h t n); trivial.
  - apply (mapM2_lanes t t n _ a b ds Ha Hb) in D; [exact D|]. intros x y z. apply arith_range.
  - destruct Ht as [ -> | -> ]; cbn; lia.
Qed.

(** ** Saturation *)

Lemma vqadd_u8_compose c m a b : lanes U8 8 a -> lanes U8 8 b ->
  run c m vqadd_u8 [vec U8 a; vec U8 b] = and_then (run c m vaddl_u8 [vec U8 a; vec U8 b]) (fun s => run c m vqmovn_u16 [s]).
Proof.
  intros Ha Hb. rewrite (vqadd_sat vqadd_u8 U8 8), (vaddl_exact vaddl_u8 U8 8) by (trivial; now left). cbn [and_then].
  change (wide U8) with U16. rewrite vqmovn_u16_sat.
  - now rewrite map_map2.
  - apply (map2_lanes' U8); trivial. unfold in_range. cbn. intros. lia.
Qed.

Lemma vqmovn_vmovl c m a : lanes U8 8 a ->
  and_then (run c m vmovl_u8 [vec U8 a]) (fun w => run c m vqmovn_u16 [w]) = Returns m (Some (vec U8 a)).
Proof.
  intros Ha. rewrite (vmovl_exact vmovl_u8 U8 8) by (trivial; in_table). cbn [and_then]. change (wide U8) with U16.
  rewrite vqmovn_u16_sat by (apply (widen_lanes U8); trivial; cbn; tauto).
  rewrite (map_same _ (fun x => x) U8 8 a Ha), map_id; [reflexivity|]. unfold in_range, sat. cbn. intros. lia.
Qed.

(** |a - b|, max and min of unsigned lanes from saturating subtraction *)

Definition is_unsigned (t : sty) : Prop := In t [U8; U16; U32].

Lemma unsigned_lo t : is_unsigned t -> lo t = 0.
Proof. intros [ <- |[ <- |[ <- |[]]]]; reflexivity. Qed.

Lemma vqsub_absdiff f g t n c m a b : is_unsigned t -> In (f, t, n) vqsub_table -> In (g, t, n) vorr_table -> lanes t n a -> lanes t n b ->
  and_then (run c m f [vec t a; vec t b]) (fun p => and_then (run c m f [vec t b; vec t a]) (fun q => run c m g [p; q]))
  = Returns m (Some (vec t (map2 (fun x y => Z.abs (x - y)) a b))).
Proof.
  intros Hu Hf Hg Ha Hb. rewrite !(vqsub_sat f t n) by assumption. cbn [and_then]. rewrite (vorr_exact g t n); trivial.
  - rewrite (map2_flip _ a b), map2_lr. do 3 f_equal. apply (map2_same _ _ t n); trivial. intros x y Hx Hy. unfold sat, in_range in *.
    rewrite (unsigned_lo t Hu) in *. destruct (Z.le_ge_cases x y).
    + rewrite (Z.max_l 0 (Z.min (hi t) (x - y))) by lia. rewrite Z.lor_0_l. lia.
    + rewrite (Z.max_l 0 (Z.min (hi t) (y - x))) by lia. rewrite Z.lor_0_r. lia.
  - apply (map2_lanes t n); trivial. intros x y Hx Hy. unfold sat, in_range in *. lia.
  - apply (map2_lanes t n); trivial. intros x y Hx Hy. unfold sat, in_range in *. lia.
Qed.

Lemma vqsub_max f g t n c m a b : is_unsigned t -> In (f, t, n) vqsub_table -> In (g, t, n) vadd_table -> lanes t n a -> lanes t n b ->
  and_then (run c m f [vec t a; vec t b]) (fun p => run c m g [p; vec t b]) = Returns m (Some (vec t (map2 Z.max a b))).
Proof.
  intros Hu Hf Hg Ha Hb. rewrite !(vqsub_sat f t n) by assumption. cbn [and_then]. rewrite (vadd_run g t n); trivial.
  - rewrite (mapM2_ok _ (fun x y => wrap t (x + y))).
    + unfold vec_outcome, outcome_of; cbn [bind]. rewrite map2_l. do 3 f_equal. apply (map2_same _ _ t n); trivial. intros x y Hx Hy. unfold sat, in_range in *.
      rewrite (unsigned_lo t Hu) in *. rewrite wrap_id by (unfold in_range; rewrite (unsigned_lo t Hu); lia). lia.
    + intros x y _ _. apply cpp_result_modular. left. destruct Hu as [ <- |[ <- |[ <- |[]]]]; unfold modular; tauto.
  - apply (map2_lanes t n); trivial. intros x y Hx Hy. unfold sat, in_range in *. lia.
Qed.

Lemma vqsub_min f g t n c m a b : is_unsigned t -> In (f, t, n) vqsub_table -> In (g, t, n) vsub_table -> lanes t n a -> lanes t n b ->
  and_then (run c m f [vec t a; vec t b]) (fun p => run c m g [vec t a; p]) = Returns m (Some (vec t (map2 Z.min a b))).
Proof.
  intros Hu Hf Hg Ha Hb. rewrite !(vqsub_sat f t n) by assumption. cbn [and_then]. rewrite (vsub_run g t n); trivial.
  - rewrite (mapM2_ok _ (fun x y => wrap t (x - y))).
    + unfold vec_outcome, outcome_of; cbn [bind]. rewrite map2_r. do 3 f_equal. apply (map2_same _ _ t n); trivial. intros x y Hx Hy. unfold sat, in_range in *.
      rewrite (unsigned_lo t Hu) in *. rewrite wrap_id by (unfold in_range; rewrite (unsigned_lo t Hu); lia). lia.
    + intros x y _ _. apply cpp_result_modular. left. destruct Hu as [ <- |[ <- |[ <- |[]]]]; unfold modular; tauto.
  - apply (map2_lanes t n); trivial. intros x y Hx Hy. unfold sat, in_range in *. lia.
Qed.

(** ** Shifts *)

Lemma vshll_compose c m a k : lanes U8 8 a -> 0 <= k <= 7 ->
  run c m vshll_n_u8 [vec U8 a; rv I32 k]
  = and_then (run c m vdup_n_u8 [rv U8 (2 ^ k)]) (fun p => run c m vmull_u8 [vec U8 a; p]).
Proof.
  intros Ha Hk. rewrite vshll_n_u8_exact by (trivial; lia).
  assert (P : 1 <= 2 ^ k <= 128).
  { split; [apply Z.pow_le_mono_r with (a := 2) (b := 0); lia|]. apply (Z.pow_le_mono_r 2 k 7); lia. }
  assert (Rk : in_range U8 (2 ^ k)) by (unfold in_range; cbn; lia).
  rewrite (vdup_exact vdup_n_u8 U8 8) by (trivial; in_table). cbn [and_then].
  rewrite (vmull_run vmull_u8 U8 8); [|in_table|trivial|now apply repeat_lanes]. rewrite mapM2_repeat by apply Ha.
  assert (E : mapM (fun x => mul_lane c U8 (wide U8) x (2 ^ k)) a = Ok (map (fun x => x * 2 ^ k) a)).
  { destruct Ha as [_ F]. induction F as [|x l Hx F IH]; [reflexivity|]. cbn [mapM map]. rewrite IH. unfold mul_lane.
    unfold in_range in Hx. cbn in Hx. cbn [promote wide]. rewrite arith_ok by (unfold in_range; cbn; nia). cbn [bind].
    now rewrite wrap_id by (unfold in_range; cbn; nia). }
  rewrite E. reflexivity.
Qed.

Lemma vshll_0_vmovl c m a : lanes U8 8 a -> run c m vshll_n_u8 [vec U8 a; rv I32 0] = run c m vmovl_u8 [vec U8 a].
Proof.
  intros Ha. rewrite vshll_n_u8_exact by (trivial; lia). rewrite (vmovl_exact vmovl_u8 U8 8) by (trivial; in_table).
  do 3 f_equal. rewrite <- (map_id a) at 2. apply map_ext. intros. lia.
Qed.

(** ** Negation *)

Lemma neg_compose f g h t n c m a : In (f, t, n) vsub_table -> In (g, t, n) vadd_table -> In (h, t, n) vmvn_table -> modular c t -> lanes t n a ->
  run c m f [vec t (repeat 0 n); vec t a] = and_then (run c m h [vec t a]) (fun q => run c m g [q; vec t (repeat 1 n)]).
Proof.
  intros Hf Hg Hh Hm Ha. assert (R0 : in_range t 0 /\ in_range t 1) by (unfold in_range; destruct t; cbn; lia || exact (conj Logic.I Logic.I)).
  rewrite (vsub_run f t n), (vmvn_exact h t n) by (trivial; now apply repeat_lanes). cbn [and_then].
  rewrite (vadd_run g t n); trivial.
  - rewrite mapM2_repeat by (rewrite map_length; apply Ha). rewrite (mapM2_ok _ (fun x y => wrap t (x - y))) by (intros; apply cpp_result_modular; now left).
    assert (E : map2 (fun x y => wrap t (x - y)) (repeat 0 n) a = map (fun y => wrap t (- y)) a).
    { destruct Ha as [ <- _]. clear. induction a as [|y a IH]; cbn; trivial. now rewrite IH. }
    rewrite E. clear E. destruct Ha as [_ F]. f_equal.
    induction F as [|x l Hx F IH]; [reflexivity|]. cbn [mapM map]. rewrite cpp_result_modular by (now left). cbn [bind]. rewrite <- IH. cbn [bind].
    rewrite wrap_add_l. do 3 f_equal. unfold Z.lnot. lia.
  - destruct Ha as [L F]. split; [now rewrite map_length|]. apply Forall_map. apply Forall_forall. intros. apply wrap_range.
  - now apply repeat_lanes.
Qed.

(** ** Selection *)

Lemma vbsl_compose c m w a b : lanes U8 16 w -> lanes U8 16 a -> lanes U8 16 b ->
  run c m vbslq_u8 [vec U8 w; vec U8 a; vec U8 b]
  = and_then (run c m vandq_u8 [vec U8 w; vec U8 a]) (fun p =>
    and_then (run c m vmvnq_u8 [vec U8 w]) (fun nw =>
    and_then (run c m vandq_u8 [nw; vec U8 b]) (fun q => run c m vorrq_u8 [p; q]))).
Proof.
  intros Hw Ha Hb. assert (Rand : forall x y, in_range U8 x -> in_range U8 y -> in_range U8 (Z.land x y)).
  { intros x y. now apply land_range. }
  assert (Hn : lanes U8 16 (map (fun x => wrap U8 (Z.lnot x)) w)).
  { destruct Hw as [L F]. split; [now rewrite map_length|]. apply Forall_map. apply Forall_forall. intros. apply wrap_range. }
  rewrite vbslq_u8_exact by assumption. rewrite (vand_exact vandq_u8 U8 16) by (trivial; in_table). cbn [and_then].
  rewrite (vmvn_exact vmvnq_u8 U8 16) by (trivial; in_table). cbn [and_then].
  rewrite (vand_exact vandq_u8 U8 16) by (trivial; in_table). cbn [and_then].
  rewrite (vorr_exact vorrq_u8 U8 16); [|in_table|now apply map2_lanes|now apply map2_lanes].
  do 3 f_equal. destruct Hw as [Lw Fw], Ha as [La _], Hb as [Lb Fb].
  clear Hn. rewrite <- Lw in La, Lb. clear Lw. revert a b La Lb Fb. induction Fw as [|x w Hx Fw IH]; intros [|y a] [|z b] La Lb Fb; cbn in *; try discriminate; trivial.
  inversion Fb; subst. rewrite IH by (trivial; lia). f_equal. unfold bsl_bits. f_equal.
  apply Z.bits_inj'. intros k Hk. rewrite Z.land_spec, Z.ldiff_spec.
  destruct (Z.ltb_spec k 8).
  - rewrite wrap_bit by (cbn; lia). rewrite Z.lnot_spec by lia. apply andb_comm.
  - rewrite (Z.bits_above_log2 z k); [now rewrite andb_false_r|unfold in_range in *; cbn in *; lia|].
    unfold in_range in *. cbn in *. destruct (Z.eq_dec z 0) as [ -> |]; [cbn; lia|]. apply Z.log2_lt_pow2; [lia|].
    apply Z.lt_le_trans with (2 ^ 8); [cbn; lia|]. apply Z.pow_le_mono_r; lia.
Qed.

Lemma vbsl_max c m a b : lanes U8 16 a -> lanes U8 16 b ->
  and_then (run c m vcgtq_u8 [vec U8 a; vec U8 b]) (fun w => run c m vbslq_u8 [w; vec U8 a; vec U8 b])
  = Returns m (Some (vec U8 (map2 Z.max a b))).
Proof.
  intros Ha Hb. rewrite vcgtq_u8_exact by assumption. cbn [and_then]. rewrite vbslq_u8_exact; trivial.
  - do 3 f_equal. destruct Ha as [La Fa], Hb as [Lb Fb]. rewrite <- La in Lb. clear La. revert b Lb Fb.
    induction Fa as [|x a Hx Fa IH]; intros [|y b] Lb Fb; cbn in *; try discriminate; trivial. inversion Fb; subst.
    rewrite <- IH by (trivial; lia). f_equal. unfold bsl_bits.
    unfold in_range in *. cbn in *. destruct (Z.ltb_spec y x).
    + rewrite Z.max_l by lia. change 255 with (Z.ones 8). rewrite Z.land_comm, Z.land_ones by lia. rewrite Z.mod_small by (cbn; lia).
      replace (Z.ldiff y (Z.ones 8)) with 0; [apply Z.lor_0_r|]. rewrite Z.ldiff_ones_r by lia. rewrite Z.shiftr_div_pow2 by lia. rewrite Z.div_small by (cbn; lia). reflexivity.
    + rewrite Z.max_r by lia. rewrite Z.land_0_l, Z.lor_0_l. apply Z.ldiff_0_r.
  - apply (map2_lanes U8); trivial. intros x y Hx Hy. unfold in_range. destruct (y <? x); cbn; lia.
Qed.

(** ** Permutations *)

Lemma vext_0 f t n c m a b : In (f, t, n) vext_table -> lanes t n a -> lanes t n b ->
  run c m f [vec t a; vec t b; rv I32 0] = Returns m (Some (vec t a)).
Proof.
  intros Hf Ha Hb. assert (0 < n)%nat by (cbn [In vext_table] in Hf; destruct Hf as [Hf|[Hf|[Hf|[Hf|[]]]]]; injection Hf as <- <- <-; lia).
  rewrite (vext_exact f t n) by (trivial; lia). cbn [Z.to_nat skipn]. destruct Ha as [L _]. rewrite <- L at 1. now rewrite firstn_app, firstn_all, Nat.sub_diag, firstn_O, app_nil_r.
Qed.

(** rotating by k and then by n - k *)
Lemma rotation {A} n k (a : list A) : List.length a = n -> (k <= n)%nat -> firstn n (skipn k (a ++ a)) = skipn k a ++ firstn k a.
Proof.
  intros L Hk. rewrite skipn_app. replace (k - List.length a)%nat with 0%nat by lia. cbn [skipn].
  rewrite firstn_app, firstn_all2 by (rewrite skipn_length; lia). rewrite skipn_length. f_equal. f_equal. lia.
Qed.

Lemma rotation_lanes t n k a : lanes t n a -> lanes t n (skipn k a ++ firstn k a).
Proof.
  intros [L F]. split; [rewrite app_length, skipn_length, firstn_length; lia|].
  apply Forall_app. rewrite <- (firstn_skipn k a) in F. apply Forall_app in F. tauto.
Qed.

Lemma vext_rotate f t n c m a k : In (f, t, n) vext_table -> lanes t n a -> 0 < k < Z.of_nat n ->
  and_then (run c m f [vec t a; vec t a; rv I32 k]) (fun r => run c m f [r; r; rv I32 (Z.of_nat n - k)]) = Returns m (Some (vec t a)).
Proof.
  intros Hf Ha Hk. rewrite (vext_exact f t n) by (trivial; lia). cbn [and_then].
  pose proof (rotation_lanes t n (Z.to_nat k) a Ha) as Hr. assert (L : List.length a = n) by apply Ha.
  rewrite rotation by (trivial; lia). rewrite (vext_exact f t n) by (trivial; lia).
  rewrite rotation by (trivial; try apply Hr; lia). do 3 f_equal.
  assert (K : Z.to_nat (Z.of_nat n - k) = List.length (skipn (Z.to_nat k) a)) by (rewrite skipn_length; lia).
  rewrite K, skipn_app, firstn_app, Nat.sub_diag, skipn_all, firstn_all. cbn [skipn firstn app]. rewrite app_nil_r. apply firstn_skipn.
Qed.

(** reading any lane of a broadcast *)
Lemma vget_vdup f g t n c m x k : In (f, t, n) vget_lane_table -> In (g, t, n) vdup_table -> in_range t x -> 0 <= k < Z.of_nat n ->
  and_then (run c m g [rv t x]) (fun v => run c m f [v; rv I32 k]) = Returns m (Some (rv t x)).
Proof.
  intros Hf Hg Hx Hk. rewrite (vdup_exact g t n) by assumption. cbn [and_then]. rewrite (vget_lane_exact f t n); [|trivial|now apply repeat_lanes|trivial].
  do 3 f_equal. apply (repeat_spec n x), nth_In. rewrite repeat_length. lia.
Qed.

(** looking up 7, 6, ..., 0 reverses; looking up 0, ..., 7 is the identity *)
Lemma vtbl1_identity c m a : lanes U8 8 a -> run c m vtbl1_u8 [vec U8 a; vec U8 [0; 1; 2; 3; 4; 5; 6; 7]] = Returns m (Some (vec U8 a)).
Proof.
  intros Ha. rewrite vtbl1_u8_exact; [|trivial|split; [reflexivity|repeat constructor; unfold in_range; cbn; lia]].
  destruct Ha as [L _]. destruct a as [|a0 [|a1 [|a2 [|a3 [|a4 [|a5 [|a6 [|a7 [|]]]]]]]]]; try discriminate. reflexivity.
Qed.

Lemma vtbl1_reverse c m a : lanes U8 8 a -> run c m vtbl1_u8 [vec U8 a; vec U8 [7; 6; 5; 4; 3; 2; 1; 0]] = run c m vrev64_u8 [vec U8 a].
Proof.
  intros Ha. rewrite vtbl1_u8_exact; [|trivial|split; [reflexivity|repeat constructor; unfold in_range; cbn; lia]].
  rewrite (vrev64_exact vrev64_u8 U8 8) by (trivial; in_table).
  destruct Ha as [L _]. destruct a as [|a0 [|a1 [|a2 [|a3 [|a4 [|a5 [|a6 [|a7 [|]]]]]]]]]; try discriminate. reflexivity.
Qed.
