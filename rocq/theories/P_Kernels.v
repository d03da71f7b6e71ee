(** Element-wise functions in loops, and a colour conversion. *)
From Coq Require Import ZArith String List Bool Lia.
From Verif Require Import Types Syntax Interp ProgRecip Library Spec Tables MetaSpec ExecLemmas Ew Client.
From Verif Require Import P_AddSub P_SubMore P_Mul P_Shift P_Bit P_Mem P_Laws P_Laws2 P_Float P_Client.
Import ListNotations.
Open Scope Z_scope.

Lemma sat_range t z : in_range t (sat t z).
Proof. unfold in_range, sat. destruct t; cbn; lia. Qed.

Ltac no_floats H := cbn in H; repeat (destruct H as [H|H]; [injection H as <- <- <-; reflexivity|]); contradiction.

Lemma vand_int f t n : In (f, t, n) vand_table -> is_float t = false.
Proof. intros H. no_floats H. Qed.
Lemma vorr_int f t n : In (f, t, n) vorr_table -> is_float t = false.
Proof. intros H. no_floats H. Qed.
Lemma veor_int f t n : In (f, t, n) veor_table -> is_float t = false.
Proof. intros H. no_floats H. Qed.

Lemma pointwise2_computes c f t u n g : pointwise2 c f t u n g -> computes2 c f t u n g.
Proof.
  intros H m x y Hx Hy. destruct H as [f t n H M|f t n H M|f t n H M|f t n H|f t n H|f t n H|f t n H|f t n H|f t n H|f t n H| |f t n H|f t n H|f t n H M].
  - split; [apply (map2_lanes t t n); trivial; intros; apply wrap_range|]. apply (vadd_wraps f t n H); auto.
  - split; [apply (map2_lanes t t n); trivial; intros; apply wrap_range|]. apply (vsub_wraps f t n H); auto.
  - split; [apply (map2_lanes t t n); trivial; intros; apply wrap_range|]. apply (vmul_wraps f t n H); auto.
  - split; [apply (map2_lanes t t n); trivial; intros; apply sat_range|]. now apply (vqadd_sat f t n).
  - split; [apply (map2_lanes t t n); trivial; intros; apply sat_range|]. now apply (vqsub_sat f t n).
  - split; [apply (map2_lanes t t n); trivial; unfold in_range; intros; lia|]. now apply (vmax_exact f t n).
  - split; [apply (map2_lanes t t n); trivial; unfold in_range; intros; lia|]. now apply (vmin_exact f t n).
  - split; [apply (map2_lanes t t n); trivial; intros; apply land_range; trivial; now apply (vand_int f t n)|]. now apply (vand_exact f t n).
  - split; [apply (map2_lanes t t n); trivial; intros; apply lor_range; trivial; now apply (vorr_int f t n)|]. now apply (vorr_exact f t n).
  - split; [apply (map2_lanes t t n); trivial; intros; apply lxor_range; trivial; now apply (veor_int f t n)|]. now apply (veor_exact f t n).
  - split; [apply (map2_lanes U8 U8 16); trivial; intros a b _ _; unfold in_range; cbn; destruct (b <? a); lia|]. now apply vcgtq_u8_exact.
  - split; [|now apply (vaddl_exact f t n)]. apply (map2_lanes t (wide t) n); trivial. cbn in H. destruct H as [H|[]]. injection H as <- <- <-.
    unfold in_range; cbn; lia.
  - split; [apply (map2_lanes t (wide t) n); trivial; intros; apply wrap_range|]. now apply (vsubl_exact f t n).
  - split; [|apply (vmull_exact f t n H); trivial; left; destruct M as [ -> |[ -> | -> ]]; reflexivity].
    apply (map2_lanes t (wide t) n); trivial. destruct M as [ -> |[ -> | -> ]]; unfold in_range; cbn; nia.
Qed.

Lemma pointwise1_computes c f t u n g : pointwise1 c f t u n g -> computes1 c f t u n g.
Proof.
  intros H m x Hx. destruct H as [f t n H|f t n H|f t n H| |].
  - split; [apply (map_lanes t t n); trivial; intros; apply wrap_range|]. rewrite (vmvn_exact f t n c m x H Hx).
    do 3 f_equal. apply map_ext. intros z. f_equal. unfold Z.lnot. lia.
  - rewrite map_id. split; [|now apply (vmovl_exact f t n)]. destruct Hx as [L F]. split; [exact L|]. revert F. apply Forall_impl. intros z.
    cbn in H. repeat (destruct H as [H|H]; [injection H as <- <- <-; unfold in_range; cbn; lia|]). contradiction.
  - split; [apply (map_lanes t (narrow t) n); trivial; intros; apply wrap_range|]. now apply (vmovn_exact f t n).
  - split; [apply (map_lanes U16 U8 8); trivial; intros; apply sat_range|]. now apply vqmovn_u16_sat.
  - split; [apply (map_lanes I16 U8 8); trivial; intros; apply sat_range|]. now apply vqmovun_s16_sat.
Qed.

(** ** The loops *)

Lemma mod_split (l n : nat) : (0 < n)%nat -> (l / n * n <= l)%nat.
Proof. intros P. pose proof (Nat.div_mod l n). nia. Qed.

(** Reading the first k * n elements of an array. *)
Lemma array_prefix (m : memory) b t xs k : array_at m b t xs -> (k <= List.length xs)%nat ->
  nth_error m b = Some (t, map Some xs) /\ skipn 0 (map (@Some Z) xs) = map Some (firstn k xs) ++ map Some (skipn k xs) /\
  Forall (in_range t) (firstn k xs) /\ List.length (firstn k xs) = k.
Proof.
  intros [H F] L. split; [exact H|]. split; [cbn; now rewrite <- map_app, firstn_skipn|].
  split; [|rewrite firstn_length; lia]. rewrite <- (firstn_skipn k xs) in F. now apply Forall_app in F.
Qed.

Lemma zip_loop_array c ld st op t u n g m a b d xs ys cd k : In (ld, t, n) vld1_table -> In (st, u, n) vst1_table ->
  pointwise2 c op t u n g -> array_at m a t xs -> array_at m b t ys -> nth_error m d = Some (u, cd) ->
  (k * n <= List.length xs)%nat -> (k * n <= List.length ys)%nat -> (k * n <= List.length cd)%nat ->
  execute c m (zip_loop ld op st t u n a b d 0 k)
  = Returns (set_block d (u, map Some (map2 g (firstn (k * n) xs) (firstn (k * n) ys)) ++ skipn (k * n) cd) m) None.
Proof.
  intros Hl Hs P Ha Hb Hd Lx Ly Ld. destruct (array_prefix m a t xs _ Ha Lx) as (Na & Ea & Fa & La).
  destruct (array_prefix m b t ys _ Hb Ly) as (Nb & Eb & Fb & Lb).
  rewrite (zip_loop_run ld st op t u n g c a b d Hl Hs (pointwise2_computes _ _ _ _ _ _ P) k 0 m _ _ cd _ _ _ _ Na Nb Hd Ea Eb Fa Fb La Lb Ld).
  reflexivity.
Qed.

Lemma map_loop_array c ld st op t u n g m a d xs cd k : In (ld, t, n) vld1_table -> In (st, u, n) vst1_table ->
  pointwise1 c op t u n g -> array_at m a t xs -> nth_error m d = Some (u, cd) ->
  (k * n <= List.length xs)%nat -> (k * n <= List.length cd)%nat ->
  execute c m (map_loop ld op st t u n a d 0 k)
  = Returns (set_block d (u, map Some (map g (firstn (k * n) xs)) ++ skipn (k * n) cd) m) None.
Proof.
  intros Hl Hs P Ha Hd Lx Ld. destruct (array_prefix m a t xs _ Ha Lx) as (Na & Ea & Fa & La).
  rewrite (map_loop_run ld st op t u n g c a d Hl Hs (pointwise1_computes _ _ _ _ _ _ P) k 0 m _ cd _ _ Na Hd Ea Fa La Ld).
  reflexivity.
Qed.

Lemma fold_loop_array c ld op t n g m a xs acc next k : In (ld, t, n) vld1_table -> pointwise2 c op t t n g ->
  array_at m a t xs -> lanes t n acc -> (k * n <= List.length xs)%nat ->
  execute c m (fold_loop ld op t n a 0 k (vec t acc) next)
  = execute c m (next (vec t (build n (fun l => fold_left g (column n l (firstn (k * n) xs)) (nth l acc 0))))).
Proof.
  intros Hl P Ha Hacc Lx. destruct (array_prefix m a t xs _ Ha Lx) as (Na & Ea & Fa & La).
  exact (fold_loop_run ld op t n g c a next Hl (pointwise2_computes _ _ _ _ _ _ P) k 0 m _ _ acc _ Na Ea Fa La Hacc).
Qed.

Lemma wrap_fold t : forall l z, in_range t z -> fold_left (fun x y => wrap t (x + y)) l z = wrap t (z + fold_left Z.add l 0).
Proof.
  induction l as [|y l IH]; intros z Hz; cbn [fold_left].
  - rewrite Z.add_0_r. symmetry. now apply P_Laws2.wrap_id.
  - rewrite IH by apply wrap_range. assert (E : forall l z, fold_left Z.add l z = z + fold_left Z.add l 0).
    { clear. induction l as [|y l IH]; intros z; cbn [fold_left]; [lia|]. rewrite IH, (IH (0 + y)). lia. }
    rewrite (E l (0 + y)). apply wrap_spec. split; [apply wrap_range|].
    set (S := fold_left Z.add l 0). destruct (proj1 (wrap_spec t (wrap t (z + y) + S) (wrap t (wrap t (z + y) + S))) eq_refl) as (_ & k1 & E1). rewrite E1.
    destruct (proj1 (wrap_spec t (z + y) (wrap t (z + y))) eq_refl) as (_ & k2 & E2). rewrite E2. exists (k1 + k2). lia.
Qed.

Lemma fold_sum_array c ld op t n m a xs acc next k : In (ld, t, n) vld1_table -> In (op, t, n) vadd_table -> modular c t ->
  array_at m a t xs -> lanes t n acc -> (k * n <= List.length xs)%nat ->
  execute c m (fold_loop ld op t n a 0 k (vec t acc) next)
  = execute c m (next (vec t (build n (fun l => wrap t (nth l acc 0 + fold_left Z.add (column n l (firstn (k * n) xs)) 0))))).
Proof.
  intros Hl Ho M Ha Hacc Lx. rewrite (fold_loop_array c ld op t n _ m a xs acc next k Hl (pw_vadd c op t n Ho M) Ha Hacc Lx).
  do 3 f_equal. apply map_ext_in. intros l Hi. apply in_seq in Hi. apply wrap_fold.
  destruct Hacc as [L F]. apply (proj1 (Forall_forall _ _) F). apply nth_In. lia.
Qed.

Lemma reorder_loop_array c w ld st t n p m a d zs cd k : In (ld, t, n) (vld_table w) -> In (st, t, n) (vst_table w) ->
  List.length p = w -> Forall (fun i => (i < w)%nat) p ->
  array_at m a t zs -> nth_error m d = Some (t, cd) ->
  (k * (w * n) <= List.length zs)%nat -> (k * (w * n) <= List.length cd)%nat ->
  execute c m (reorder_loop ld st t (w * n) a d p 0 k)
  = Returns (set_block d (t, map Some (reordered w p (firstn (k * (w * n)) zs)) ++ skipn (k * (w * n)) cd) m) None.
Proof.
  intros Hl Hs Lp Fp Ha Hd Lz Ld. destruct (array_prefix m a t zs _ Ha Lz) as (Na & Ea & Fa & La).
  rewrite (reorder_loop_run w ld st t n p c a d Hl Hs Lp Fp k 0 m _ cd _ _ Na Hd Ea Fa La Ld). reflexivity.
Qed.

(** ** Colour conversion *)

Lemma map_build (h : Z -> Z) n g : map h (build n g) = build n (fun i => h (g i)).
Proof. unfold build. apply map_map. Qed.
Lemma map2_build (h : Z -> Z -> Z) n g w : map2 h (build n g) (repeat w n) = build n (fun i => h (g i) w).
Proof.
  unfold build. generalize 0%nat. induction n as [|n IH]; intros s; [reflexivity|]. cbn. f_equal. apply IH.
Qed.
Lemma map3_build (h : Z -> Z -> Z -> Z) n g1 g2 w : map3 h (build n g1) (build n g2) (repeat w n) = build n (fun i => h (g1 i) (g2 i) w).
Proof.
  unfold build. generalize 0%nat. induction n as [|n IH]; intros s; [reflexivity|]. cbn. f_equal. apply IH.
Qed.
Lemma build_ext n g h : (forall i, (i < n)%nat -> g i = h i) -> build n g = build n h.
Proof. intros H. unfold build. apply map_ext_in. intros i Hi. apply in_seq in Hi. apply H. lia. Qed.
Lemma build_lanes_range t n g : (forall i, (i < n)%nat -> in_range t (g i)) -> lanes t n (build n g).
Proof.
  intros H. unfold build. split; [now rewrite map_length, seq_length|]. apply Forall_forall. intros z Hz.
  apply in_map_iff in Hz as (i & <- & Hi). apply in_seq in Hi. apply H. lia.
Qed.
Lemma repeat_lanes t n z : in_range t z -> lanes t n (repeat z n).
Proof. intros H. split; [apply repeat_length|]. apply Forall_forall. intros y Hy. apply repeat_spec in Hy. now subst. Qed.

Lemma vmlal_u8_run c m a b d : lanes U16 8 a -> lanes U8 8 b -> lanes U8 8 d ->
  run c m vmlal_u8 [vec U16 a; vec U8 b; vec U8 d] = Returns m (Some (vec U16 (map3 (fun x y z => wrap U16 (x + y * z)) a b d))).
Proof.
  intros Ha Hb Hd. apply (vmlal_ok vmlal_u8 U8 8); trivial; [cbn; tauto|].
  apply (all_lanes3_range _ U16 U8 U8 8); trivial. intros x y z Hx Hy Hz. apply (mla_safe_long8 false c U8); auto.
Qed.

Section Gray.
Context (c : cfg) (r g b : Z) (Hr : in_range U8 r) (Hg : in_range U8 g) (Hb : in_range U8 b) (Hsum : r + g + b <= 256).

Definition gray_value (zs : list Z) (i : nat) : Z := (r * nth (3 * i) zs 0 + g * nth (3 * i + 1) zs 0 + b * nth (3 * i + 2) zs 0) / 256.

Lemma nth_in_range t zs i : Forall (in_range t) zs -> (i < List.length zs)%nat -> in_range t (nth i zs 0).
Proof. intros F L. apply (proj1 (Forall_forall _ _) F). now apply nth_In. Qed.

Lemma gray_chunk m zs next : List.length zs = 24%nat -> Forall (in_range U8) zs ->
  execute c m (
      Call vmull_u8 [component 0 (vecs U8 (deinterleave 3 8 zs)); vec U8 (repeat r 8)] (fun s =>
      Call vmlal_u8 [value s; component 1 (vecs U8 (deinterleave 3 8 zs)); vec U8 (repeat g 8)] (fun s =>
      Call vmlal_u8 [value s; component 2 (vecs U8 (deinterleave 3 8 zs)); vec U8 (repeat b 8)] (fun s =>
      Call vshrn_n_u16 [value s; rv I32 8] (fun r => next (value r))))))
  = execute c m (next (vec U8 (build 8 (gray_value zs)))) /\ lanes U8 8 (build 8 (gray_value zs)).
Proof.
  intros L F.
  assert (R : forall i j, (i < 8)%nat -> (j < 3)%nat -> in_range U8 (nth (3 * i + j) zs 0)) by (intros; apply nth_in_range; [exact F|lia]).
  set (comp j := build 8 (fun i => nth (3 * i + j) zs 0)).
  assert (Hc : forall j, (j < 3)%nat -> lanes U8 8 (comp j)) by (intros j Hj; apply build_lanes_range; intros; now apply R).
  change (component 0 (vecs U8 (deinterleave 3 8 zs))) with (vec U8 (comp 0%nat)).
  change (component 1 (vecs U8 (deinterleave 3 8 zs))) with (vec U8 (comp 1%nat)).
  change (component 2 (vecs U8 (deinterleave 3 8 zs))) with (vec U8 (comp 2%nat)).
  assert (Bound : forall i, (i < 8)%nat -> 0 <= nth (3 * i + 0) zs 0 * r + nth (3 * i + 1) zs 0 * g + nth (3 * i + 2) zs 0 * b <= 65280
    /\ 0 <= nth (3 * i + 0) zs 0 * r /\ 0 <= nth (3 * i + 1) zs 0 * g /\ 0 <= nth (3 * i + 2) zs 0 * b).
  { intros i Hi. pose proof (R i 0%nat Hi ltac:(lia)) as R0. pose proof (R i 1%nat Hi ltac:(lia)) as R1. pose proof (R i 2%nat Hi ltac:(lia)) as R2.
    unfold in_range in *. cbn [lo hi] in *. nia. }
  assert (G : forall i, gray_value zs i = (nth (3 * i + 0) zs 0 * r + nth (3 * i + 1) zs 0 * g + nth (3 * i + 2) zs 0 * b) / 256).
  { intros i. unfold gray_value. rewrite Nat.add_0_r. f_equal. lia. }
  assert (GL : lanes U8 8 (build 8 (gray_value zs))).
  { apply build_lanes_range. intros i Hi. rewrite G. pose proof (Bound i Hi). unfold in_range. cbn [lo hi]. 
    pose proof (Z.div_le_mono _ 65280 256 ltac:(lia) (proj2 (proj1 H))). pose proof (Z.div_pos _ 256 (proj1 (proj1 H)) ltac:(lia)).
    change (65280 / 256) with 255 in *. lia. }
  split; [|exact GL].
  cbn [execute]. rewrite (vmull_exact vmull_u8 U8 8 ltac:(cbn; tauto) c m (comp 0%nat) (repeat r 8) (Hc 0%nat ltac:(lia)) (repeat_lanes U8 8 r Hr) (or_introl eq_refl)).
  unfold comp at 1. rewrite map2_build. cbn [wide value execute].
  rewrite vmlal_u8_run; [|apply build_lanes_range; intros i Hi; pose proof (Bound i Hi); unfold in_range; cbn [lo hi]; lia|apply Hc; lia|now apply repeat_lanes].
  unfold comp at 1. rewrite map3_build. cbn [value execute].
  rewrite (build_ext 8 _ (fun i => nth (3 * i + 0) zs 0 * r + nth (3 * i + 1) zs 0 * g))
    by (intros i Hi; pose proof (Bound i Hi); apply P_Laws2.wrap_id; unfold in_range; cbn [lo hi]; lia).
  rewrite vmlal_u8_run; [|apply build_lanes_range; intros i Hi; pose proof (Bound i Hi); unfold in_range; cbn [lo hi]; lia|apply Hc; lia|now apply repeat_lanes].
  unfold comp at 1. rewrite map3_build. cbn [value execute].
  rewrite (build_ext 8 _ (fun i => nth (3 * i + 0) zs 0 * r + nth (3 * i + 1) zs 0 * g + nth (3 * i + 2) zs 0 * b))
    by (intros i Hi; pose proof (Bound i Hi); apply P_Laws2.wrap_id; unfold in_range; cbn [lo hi]; lia).
  rewrite (vshrn_shift vshrn_n_u16 U16 8);
    [|cbn; tauto|apply build_lanes_range; intros i Hi; pose proof (Bound i Hi); unfold in_range; cbn [lo hi]; lia|cbn; lia].
  rewrite map_build. cbn [value narrow]. do 3 f_equal. apply build_ext. intros i Hi. change (2 ^ 8) with 256. rewrite <- G.
  apply P_Laws2.wrap_id. destruct GL as [Lg Fg]. pose proof (nth_in_range U8 _ i Fg ltac:(lia)) as K. rewrite nth_build in K by exact Hi. exact K.
Qed.

Lemma gray_image_split zs k : List.length zs = (24 + k * 24)%nat ->
  build (List.length zs / 3) (gray_value zs)
  = build 8 (gray_value (firstn 24 zs)) ++ build (List.length (skipn 24 zs) / 3) (gray_value (skipn 24 zs)).
Proof.
  intros L. rewrite skipn_length, L. replace (24 + k * 24)%nat with ((8 + k * 8) * 3)%nat by lia. rewrite Nat.div_mul by lia.
  replace ((8 + k * 8) * 3 - 24)%nat with (k * 8 * 3)%nat by lia. rewrite Nat.div_mul by lia.
  unfold build. rewrite seq_app, map_app. f_equal.
  - apply map_ext_in. intros i Hi. apply in_seq in Hi. unfold gray_value. now rewrite !nth_firstn by lia.
  - cbn [Nat.add]. rewrite (seq_shift_by 8), map_map. apply map_ext. intros i. unfold gray_value.
    assert (E : forall j, nth j (skipn 24 zs) 0 = nth (24 + j) zs 0).
    { intros j. rewrite <- (firstn_skipn 24 zs) at 2. rewrite app_nth2; rewrite firstn_length_le by lia; [|lia]. f_equal. lia. }
    rewrite !E. repeat (f_equal; try lia).
Qed.

Lemma gray_loop_run a d : a <> d -> forall k j m ca cd zs ra, nth_error m a = Some (U8, ca) -> nth_error m d = Some (U8, cd) ->
  skipn (3 * j) ca = map Some zs ++ ra -> Forall (in_range U8) zs -> List.length zs = (k * 24)%nat ->
  (j + k * 8 <= List.length cd)%nat ->
  execute c m (gray_loop (vec U8 (repeat r 8)) (vec U8 (repeat g 8)) (vec U8 (repeat b 8)) a d j k)
  = Returns (set_block d (U8, firstn j cd ++ map Some (build (List.length zs / 3) (gray_value zs)) ++ skipn (j + k * 8) cd) m) None.
Proof.
  intros Nad k. induction k as [|k IH]; intros j m ca cd zs ra Ha Hd Ea Fa Lz Ld.
  - cbn [gray_loop execute]. destruct zs; [|discriminate]. cbn [List.length]. rewrite Nat.add_0_r. cbn [Nat.div build seq map app fst Nat.divmod].
    rewrite firstn_skipn. now rewrite <- (split_block _ _ _ Hd).
  - cbn [Nat.mul] in Lz, Ld. destruct (chunk ca (3 * j) 24 (k * 24) zs ra ltac:(lia) Ea Lz) as (Ca & La & Nx).
    destruct (P_Client.lanes_firstn U8 24 _ zs Fa Lz) as [Lc Fc].
    cbn [gray_loop]. remember (gray_loop (vec U8 (repeat r 8)) (vec U8 (repeat g 8)) (vec U8 (repeat b 8)) a d (j + 8) k) as rest eqn:Er.
    cbn [execute]. rewrite (loadk_at 3 vld3_u8 U8 8 c m a ca (3 * j) (firstn 24 zs)); trivial; [|cbn; tauto].
    cbn [value].
    destruct (gray_chunk m (firstn 24 zs) (fun v => Call vst1_u8 [OPtr U8 d (Z.of_nat j); v] (fun _ => rest)) Lc Fc) as [E GL].
    etransitivity; [exact E|]. clear E. cbn [execute].
    rewrite (store_at vst1_u8 U8 8 c m d cd j _ ltac:(cbn; tauto) Hd ltac:(lia) GL). rewrite Er.
    set (rr := build 8 (gray_value (firstn 24 zs))) in *. destruct GL as [Lr Fr].
    assert (Ha' : nth_error (set_block d (U8, firstn j cd ++ map Some rr ++ skipn (j + 8) cd) m) a = Some (U8, ca))
      by (rewrite set_block_other by (trivial; now apply nth_lt in Hd); exact Ha).
    rewrite (IH (j + 8)%nat _ ca (firstn j cd ++ map Some rr ++ skipn (j + 8) cd) (skipn 24 zs) ra Ha').
    + rewrite (set_block_twice _ _ _ _ _ Hd). rewrite (store_chunks cd j 8 (k * 8) rr) by (trivial; lia).
      rewrite (gray_image_split zs k Lz). reflexivity.
    + apply (set_block_same _ _ _ _ Hd).
    + replace (3 * (j + 8))%nat with (3 * j + 24)%nat by lia. rewrite <- skipn_skipn, Ea, skipn_app, map_length.
      replace (24 - List.length zs)%nat with O by lia. now rewrite skipn_map.
    + now apply Forall_skipn.
    + rewrite skipn_length. lia.
    + rewrite (after_length cd j 8) by (trivial; lia). lia.
Qed.

Lemma gray_program_run m a d zs cd k : a <> d -> array_at m a U8 zs -> nth_error m d = Some (U8, cd) ->
  List.length zs = (k * 24)%nat -> (k * 8 <= List.length cd)%nat ->
  execute c m (gray_program r g b a d k)
  = Returns (set_block d (U8, map Some (gray_image r g b zs) ++ skipn (k * 8) cd) m) None.
Proof.
  intros N [Ha F] Hd Lz Ld. unfold gray_program. cbn [execute].
  rewrite (vdup_exact vdup_n_u8 U8 8) by (trivial; cbn; tauto). cbn [execute value].
  rewrite (vdup_exact vdup_n_u8 U8 8) by (trivial; cbn; tauto). cbn [execute value].
  rewrite (vdup_exact vdup_n_u8 U8 8) by (trivial; cbn; tauto). cbn [execute value].
  rewrite (gray_loop_run a d N k 0 m (map Some zs) cd zs [] Ha Hd) by (trivial; cbn; now rewrite app_nil_r).
  reflexivity.
Qed.
End Gray.
