(** Image and signal processing programs. *)
From Coq Require Import ZArith Arith String List Bool Lia.
From Verif Require Import Types Syntax Interp ProgRecip Library Spec Tables MetaSpec ExecLemmas Ew Client Transpose Pixels.
From Verif Require Import P_AddSub P_SubMore P_Mul P_Shift P_Bit P_Mem P_Perm P_Tbl P_AddHigh P_Laws P_Laws2 P_Client P_Kernels P_Transpose P_Transpose2.
Import ListNotations.
Open Scope Z_scope.

(** ** Programs that make one vector of the result in each step *)

Section Strip.
Context (c : cfg) (u : sty) (n d K : nat) (Pn : (0 < n)%nat) (place : nat -> nat) (F : nat -> Z) (Src : memory -> Prop)
  (body : nat -> program -> program).
Context (stable : forall m cells blk, Src m -> nth_error m d = Some blk -> Src (set_block d (u, cells) m)).
Context (place_in : forall j, (j < K)%nat -> (place j < K)%nat) (place_onto : forall b, (b < K)%nat -> exists j, (j < K)%nat /\ place j = b).
Context (body_run : forall j m cells next, (j < K)%nat -> Src m -> nth_error m d = Some (u, cells) -> (K * n <= List.length cells)%nat ->
  execute c m (body j next)
  = execute c (set_block d (u, overwrite n cells (place j * n) (build n (fun q => F (place j * n + q)%nat))) m) next).

Definition made (cd : list (option Z)) (k : nat) (cells : list (option Z)) : Prop := List.length cells = List.length cd /\
  forall p, nth p cells None = if ((p <? K * n)%nat && existsb (fun j => (place j =? p / n)%nat) (seq 0 k)) then Some (F p) else nth p cd None.

Lemma made_step cd k cells : (k < K)%nat -> (K * n <= List.length cd)%nat -> made cd k cells ->
  made cd (S k) (overwrite n cells (place k * n) (build n (fun q => F (place k * n + q)%nat))).
Proof.
  intros Hk Ld [L P]. pose proof (place_in k Hk) as Hb. pose proof (Nat.mul_le_mono_r (S (place k)) K n Hb) as B.
  assert (Lb : List.length (build n (fun q => F (place k * n + q)%nat)) = n) by (unfold build; now rewrite map_length, seq_length).
  split; [rewrite overwrite_length; trivial; lia|]. intros p. rewrite overwrite_nth by (trivial; lia).
  rewrite seq_S, existsb_app. cbn [existsb Nat.add]. rewrite orb_false_r.
  destruct (Nat.leb_spec (place k * n) p) as [G1|G1]; cbn [andb]; [destruct (Nat.ltb_spec p (place k * n + n)) as [G2|G2]|].
  - rewrite (proj2 (Nat.ltb_lt p (K * n))) by lia.
    assert (E : (p / n = place k)%nat) by (symmetry; apply (Nat.div_unique p n (place k) (p - place k * n)); lia).
    rewrite E, Nat.eqb_refl, orb_true_r. cbn [andb]. rewrite nth_build by lia. do 2 f_equal. lia.
  - rewrite P. destruct (Nat.eqb_spec (place k) (p / n)) as [E|E]; [|now rewrite orb_false_r].
    exfalso. pose proof (Nat.div_mod p n ltac:(lia)). pose proof (Nat.mod_upper_bound p n ltac:(lia)). rewrite <- E in *. lia.
  - rewrite P. destruct (Nat.eqb_spec (place k) (p / n)) as [E|E]; [|now rewrite orb_false_r].
    exfalso. pose proof (Nat.div_mod p n ltac:(lia)). rewrite <- E in *. lia.
Qed.

Lemma steps_made cd next : (K * n <= List.length cd)%nat -> forall todo k m cells, (k + todo = K)%nat -> Src m ->
  nth_error m d = Some (u, cells) -> made cd k cells ->
  exists cells', made cd K cells' /\ execute c m (steps_from body k todo next) = execute c (set_block d (u, cells') m) next.
Proof.
  intros Ld. induction todo as [|todo IH]; intros k m cells Hk Hs Hd M.
  - exists cells. rewrite Nat.add_0_r in Hk. subst k. split; [exact M|]. cbn [steps_from]. now rewrite <- (split_block m d _ Hd).
  - cbn [steps_from]. rewrite (body_run k m cells) by (trivial; try lia; now rewrite (proj1 M)).
    pose proof (made_step cd k cells ltac:(lia) Ld M) as M1. set (cells1 := overwrite n cells _ _) in *.
    destruct (IH (S k) (set_block d (u, cells1) m) cells1 ltac:(lia) (stable m cells1 _ Hs Hd) (set_block_same _ _ _ _ Hd) M1) as (cells' & M2 & E).
    exists cells'. split; [exact M2|]. rewrite E. now rewrite (set_block_twice _ _ _ _ _ Hd).
Qed.

Lemma made_all cd cells : (K * n <= List.length cd)%nat -> made cd K cells -> cells = map Some (build (K * n) F) ++ skipn (K * n) cd.
Proof.
  intros Ld [L P]. assert (LB : List.length (build (K * n) F) = (K * n)%nat) by (unfold build; now rewrite map_length, seq_length).
  apply (nth_ext _ _ None None); [rewrite app_length, map_length, skipn_length; lia|]. intros p Hp. rewrite P.
  destruct (Nat.ltb_spec p (K * n)) as [B|B]; cbn [andb].
  - replace (existsb _ _) with true.
    + rewrite app_nth1 by (rewrite map_length; lia). rewrite (nth_indep _ None (Some 0)) by (rewrite map_length; lia).
      rewrite map_nth. f_equal. now rewrite nth_build.
    + symmetry. apply existsb_exists. destruct (place_onto (p / n)) as (j & Hj & Ej); [apply Nat.div_lt_upper_bound; lia|].
      exists j. split; [apply in_seq; lia|]. now apply Nat.eqb_eq.
  - rewrite app_nth2; rewrite map_length; [|lia]. rewrite LB. rewrite <- (firstn_skipn (K * n) cd) at 1.
    rewrite app_nth2; rewrite firstn_length_le by lia; [|lia]. reflexivity.
Qed.

Lemma steps_run m cd next : Src m -> nth_error m d = Some (u, cd) -> (K * n <= List.length cd)%nat ->
  execute c m (steps_from body 0 K next) = execute c (set_block d (u, map Some (build (K * n) F) ++ skipn (K * n) cd) m) next.
Proof.
  intros Hs Hd Ld. destruct (steps_made cd next Ld K 0 m cd eq_refl Hs Hd) as (cells & M & E).
  - split; [reflexivity|]. intros p. cbn [seq existsb]. now rewrite andb_false_r.
  - rewrite E. now rewrite (made_all cd cells Ld M).
Qed.
End Strip.

Lemma straight_onto K b : (b < K)%nat -> exists j, (j < K)%nat /\ j = b.
Proof. intros H. now exists b. Qed.

(** ** Tools *)

Lemma array_stable m d u cells blk a t xs : a <> d -> array_at m a t xs -> nth_error m d = Some blk ->
  array_at (set_block d (u, cells) m) a t xs.
Proof. intros N [H F] Hd. split; [|exact F]. rewrite set_block_other by (trivial; now apply nth_lt in Hd). exact H. Qed.

Lemma build_firstn_skipn n off xs : (off + n <= List.length xs)%nat -> firstn n (skipn off xs) = build n (fun q => nth (off + q) xs 0).
Proof.
  intros L. apply (nth_ext _ _ 0 0); unfold build; rewrite firstn_length, skipn_length, ?map_length, ?seq_length; [lia|].
  intros q Hq. rewrite nth_firstn by lia. fold (build n (fun q => nth (off + q) xs 0)). rewrite nth_build by lia.
  rewrite <- (firstn_skipn off xs) at 2. rewrite app_nth2; rewrite firstn_length_le by lia; [|lia]. f_equal. lia.
Qed.

(** A vector loaded from an array. *)
Lemma load_array ld t n c m a xs e : In (ld, t, n) vld1_table -> array_at m a t xs -> (e + n <= List.length xs)%nat ->
  run c m ld [at_ t a e] = Returns m (Some (vec t (build n (fun q => nth (e + q) xs 0)))) /\ lanes t n (build n (fun q => nth (e + q) xs 0)).
Proof.
  intros H [Ha F] L. rewrite <- build_firstn_skipn by exact L. pose proof (firstn_array t n xs e F L) as R. split; [|exact R].
  apply (load_at ld t n c m a (map Some xs)); trivial; [now rewrite map_length|]. now rewrite skipn_map, firstn_map.
Qed.

Lemma store_step st t n c m d cells e v next : In (st, t, n) vst1_table -> nth_error m d = Some (t, cells) ->
  (e + n <= List.length cells)%nat -> lanes t n v ->
  execute c m (Call st [at_ t d e; vec t v] (fun _ => next)) = execute c (set_block d (t, overwrite n cells e v) m) next.
Proof. intros H Hd L R. cbn [execute]. unfold at_. now rewrite (store_at st t n c m d cells e v H Hd L R). Qed.

Lemma map2_builds (g : Z -> Z -> Z) n f1 f2 : map2 g (build n f1) (build n f2) = build n (fun i => g (f1 i) (f2 i)).
Proof. unfold build. generalize (seq 0 n). induction l as [|x l IH]; [reflexivity|]. cbn [map map2]. now rewrite IH. Qed.

Lemma nth_array_range t xs i : Forall (in_range t) xs -> in_range t 0 -> in_range t (nth i xs 0).
Proof. intros F Z0. destruct (Nat.lt_ge_cases i (List.length xs)); [now apply nth_in_range|]. now rewrite nth_overflow. Qed.

Lemma byte x : in_range U8 x <-> 0 <= x <= 255.
Proof. reflexivity. Qed.
Lemma half x : in_range U16 x <-> 0 <= x <= 65535.
Proof. reflexivity. Qed.

Lemma step_in j K n L : (j < K)%nat -> (K * n <= L)%nat -> (j * n + n <= L)%nat.
Proof. intros H1 H2. pose proof (Nat.mul_le_mono_r (S j) K n H1). lia. Qed.

(** ** Blending *)

Lemma blend_run c p q m a b d k xs ys cd : 0 <= p <= 255 -> 0 <= q <= 255 -> p + q <= 256 -> a <> d -> b <> d ->
  array_at m a U8 xs -> array_at m b U8 ys -> nth_error m d = Some (U8, cd) ->
  (k * 8 <= List.length xs)%nat -> (k * 8 <= List.length ys)%nat -> (k * 8 <= List.length cd)%nat ->
  execute c m (blend_program p q a b d k)
  = Returns (set_block d (U8, map Some (blended p q k xs ys) ++ skipn (k * 8) cd) m) None.
Proof.
  intros Hp Hq Hs Na Nb Ha Hb Hd Lx Ly Ld. unfold blend_program.
  rewrite (call_one _ _ _ _ _ _ (vdup_exact vdup_n_u8 U8 8 c m p ltac:(cbn; tauto) Hp)).
  rewrite (call_one _ _ _ _ _ _ (vdup_exact vdup_n_u8 U8 8 c m q ltac:(cbn; tauto) Hq)). cbn [value].
  assert (Fx := proj2 Ha). assert (Fy := proj2 Hb).
  assert (Bx : forall i, 0 <= nth i xs 0 <= 255) by (intros i; apply (nth_array_range U8); [exact Fx|apply byte; lia]).
  assert (By : forall i, 0 <= nth i ys 0 <= 255) by (intros i; apply (nth_array_range U8); [exact Fy|apply byte; lia]).
  rewrite (steps_run c U8 8 d k ltac:(lia) (fun j => j) (fun i => (p * nth i xs 0 + q * nth i ys 0 + 128) / 256)
    (fun m => array_at m a U8 xs /\ array_at m b U8 ys)) with (cd := cd); trivial; [| | |now split].
  - intros m' cells blk [A1 A2] B. split; now apply (array_stable _ _ _ _ blk).
  - intros j; apply straight_onto.
  - intros j m' cells next Hj [A1 A2] B L.
    destruct (load_array vld1_u8 U8 8 c m' a xs (j * 8) ltac:(cbn; tauto) A1 (step_in j k 8 _ Hj Lx)) as [E1 R1].
    rewrite (call_one _ _ _ _ _ _ E1). cbn [value].
    rewrite (call_one _ _ _ _ _ _ (vmull_exact vmull_u8 U8 8 ltac:(cbn; tauto) c m' _ _ R1 (repeat_lanes U8 8 p Hp) (or_introl eq_refl))).
    cbn [value wide]. rewrite map2_build.
    destruct (load_array vld1_u8 U8 8 c m' b ys (j * 8) ltac:(cbn; tauto) A2 (step_in j k 8 _ Hj Ly)) as [E2 R2].
    rewrite (call_one _ _ _ _ _ _ E2). cbn [value].
    rewrite (call_one _ _ _ _ (vec U16 (build 8 (fun i => nth (j * 8 + i) xs 0 * p + nth (j * 8 + i) ys 0 * q)))).
    2:{ rewrite vmlal_u8_run; [|apply build_lanes_range; intros i Hi; apply half; pose proof (Bx (j * 8 + i)%nat); nia|exact R2|now apply repeat_lanes].
        rewrite map3_build. do 3 f_equal. apply build_ext. intros i Hi. apply P_Laws2.wrap_id. apply half. pose proof (Bx (j * 8 + i)%nat). pose proof (By (j * 8 + i)%nat). nia. }
    cbn [value].
    assert (RS : lanes U16 8 (build 8 (fun i => nth (j * 8 + i) xs 0 * p + nth (j * 8 + i) ys 0 * q))).
    { apply build_lanes_range. intros i Hi. apply half. pose proof (Bx (j * 8 + i)%nat). pose proof (By (j * 8 + i)%nat). nia. }
    rewrite (call_one _ _ _ _ _ _ (vrshrn_n_u16_round c m' _ 8 RS ltac:(lia))). cbn [value]. rewrite map_build.
    rewrite (build_ext 8 _ (fun i => (p * nth (j * 8 + i) xs 0 + q * nth (j * 8 + i) ys 0 + 128) / 256)).
    + rewrite (store_step vst1_u8 U8 8 c m' d cells (j * 8)); trivial; [cbn; tauto|now apply (step_in j k 8)|].
      apply build_lanes_range. intros i Hi. apply byte. pose proof (Bx (j * 8 + i)%nat). pose proof (By (j * 8 + i)%nat).
      split; [apply Z.div_pos; nia|]. apply Z.lt_succ_r. apply Z.div_lt_upper_bound; nia.
    + intros i Hi. change (2 ^ (8 - 1)) with 128. change (2 ^ 8) with 256.
      replace (nth (j * 8 + i) xs 0 * p + nth (j * 8 + i) ys 0 * q + 128) with (p * nth (j * 8 + i) xs 0 + q * nth (j * 8 + i) ys 0 + 128) by ring.
      apply P_Laws2.wrap_id. apply byte. pose proof (Bx (j * 8 + i)%nat). pose proof (By (j * 8 + i)%nat).
      split; [apply Z.div_pos; nia|]. apply Z.lt_succ_r. apply Z.div_lt_upper_bound; nia.
Qed.

(** ** Smoothing *)

Lemma ext_of_array j xs (e : nat) : (j * 8 + 8 + 8 <= List.length xs)%nat -> (e <= 8)%nat ->
  firstn 8 (skipn e (build 8 (fun q => nth (j * 8 + q) xs 0) ++ build 8 (fun q => nth (j * 8 + 8 + q) xs 0)))
  = build 8 (fun q => nth (j * 8 + q + e) xs 0).
Proof.
  intros L He. rewrite <- !build_firstn_skipn by lia.
  replace (firstn 8 (skipn (j * 8) xs) ++ firstn 8 (skipn (j * 8 + 8) xs)) with (firstn 16 (skipn (j * 8) xs)).
  - rewrite (build_firstn_skipn 16) by lia. rewrite build_firstn_skipn by (unfold build; rewrite map_length, seq_length; lia).
    apply build_ext. intros i Hi. rewrite nth_build by lia. f_equal. lia.
  - rewrite <- skipn_skipn. rewrite <- (firstn_skipn 8 (firstn 16 (skipn (j * 8) xs))). rewrite firstn_firstn. cbn [Nat.min]. f_equal.
    now rewrite skipn_firstn_comm.
Qed.

Lemma smooth_run c m a d k xs cd : a <> d -> array_at m a U8 xs -> nth_error m d = Some (U8, cd) ->
  (k * 8 + 8 <= List.length xs)%nat -> (k * 8 <= List.length cd)%nat ->
  execute c m (smooth_program a d k) = Returns (set_block d (U8, map Some (smoothed k xs) ++ skipn (k * 8) cd) m) None.
Proof.
  intros Na Ha Hd Lx Ld. unfold smooth_program. assert (H2 : in_range U8 2) by (apply byte; lia).
  rewrite (call_one _ _ _ _ _ _ (vdup_exact vdup_n_u8 U8 8 c m 2 ltac:(cbn; tauto) H2)). cbn [value].
  assert (Bx : forall i, 0 <= nth i xs 0 <= 255) by (intros i; apply (nth_array_range U8); [apply Ha|apply byte; lia]).
  rewrite (steps_run c U8 8 d k ltac:(lia) (fun j => j) (fun i => (nth i xs 0 + 2 * nth (i + 1) xs 0 + nth (i + 2) xs 0 + 2) / 4)
    (fun m => array_at m a U8 xs)) with (cd := cd); trivial.
  - intros m' cells blk A1 B. now apply (array_stable _ _ _ _ blk).
  - intros j; apply straight_onto.
  - intros j m' cells next Hj A1 B L. pose proof (Nat.mul_le_mono_r (S j) k 8 Hj) as Lj.
    destruct (load_array vld1_u8 U8 8 c m' a xs (j * 8) ltac:(cbn; tauto) A1 ltac:(lia)) as [E1 R1].
    destruct (load_array vld1_u8 U8 8 c m' a xs (j * 8 + 8) ltac:(cbn; tauto) A1 ltac:(lia)) as [E2 R2].
    rewrite (call_one _ _ _ _ _ _ E1), (call_one _ _ _ _ _ _ E2). cbn [value].
    assert (RE : forall e : nat, lanes U8 8 (build 8 (fun q => nth (j * 8 + q + e) xs 0))).
    { intros e. apply build_lanes_range. intros i Hi. apply byte. apply Bx. }
    rewrite (call_one _ _ _ _ (vec U8 (build 8 (fun q => nth (j * 8 + q + 2) xs 0)))).
    2:{ rewrite (vext_exact vext_u8 U8 8 c m' _ _ 2 ltac:(cbn; tauto) R1 R2 ltac:(cbn; lia)).
        change (Z.to_nat 2) with 2%nat. now rewrite (ext_of_array j xs 2) by lia. }
    cbn [value].
    rewrite (call_one _ _ _ _ _ _ (vaddl_exact vaddl_u8 U8 8 c m' _ _ ltac:(cbn; tauto) R1 (RE 2%nat))). cbn [value wide]. rewrite map2_builds.
    rewrite (call_one _ _ _ _ (vec U8 (build 8 (fun q => nth (j * 8 + q + 1) xs 0)))).
    2:{ rewrite (vext_exact vext_u8 U8 8 c m' _ _ 1 ltac:(cbn; tauto) R1 R2 ltac:(cbn; lia)).
        change (Z.to_nat 1) with 1%nat. now rewrite (ext_of_array j xs 1) by lia. }
    cbn [value].
    set (S i := nth (j * 8 + i) xs 0 + nth (j * 8 + i + 2) xs 0 + nth (j * 8 + i + 1) xs 0 * 2).
    assert (BS : forall i, 0 <= S i <= 1020).
    { intros i. unfold S. pose proof (Bx (j * 8 + i)%nat). pose proof (Bx (j * 8 + i + 2)%nat). pose proof (Bx (j * 8 + i + 1)%nat). lia. }
    rewrite (call_one _ _ _ _ (vec U16 (build 8 S))).
    2:{ rewrite vmlal_u8_run; [|apply build_lanes_range; intros i Hi; apply half; pose proof (Bx (j * 8 + i)%nat); pose proof (Bx (j * 8 + i + 2)%nat); lia|apply RE|now apply repeat_lanes].
        rewrite map3_build. do 3 f_equal. apply build_ext. intros i Hi. apply P_Laws2.wrap_id. apply half. pose proof (BS i). unfold S in *. lia. }
    cbn [value].
    assert (RS : lanes U16 8 (build 8 S)) by (apply build_lanes_range; intros i Hi; apply half; pose proof (BS i); lia).
    rewrite (call_one _ _ _ _ _ _ (vrshrn_n_u16_round c m' _ 2 RS ltac:(lia))). cbn [value]. rewrite map_build.
    rewrite (build_ext 8 _ (fun i => (nth (j * 8 + i) xs 0 + 2 * nth (j * 8 + i + 1) xs 0 + nth (j * 8 + i + 2) xs 0 + 2) / 4)).
    + rewrite (store_step vst1_u8 U8 8 c m' d cells (j * 8)); trivial; [cbn; tauto|now apply (step_in j k 8)|].
      apply build_lanes_range. intros i Hi. apply byte. pose proof (BS i). unfold S in *.
      split; [apply Z.div_pos; lia|]. apply Z.lt_succ_r. apply Z.div_lt_upper_bound; lia.
    + intros i Hi. change (2 ^ (2 - 1)) with 2. change (2 ^ 2) with 4. pose proof (BS i) as Bi. unfold S in *.
      replace (nth (j * 8 + i) xs 0 + nth (j * 8 + i + 2) xs 0 + nth (j * 8 + i + 1) xs 0 * 2 + 2)
        with (nth (j * 8 + i) xs 0 + 2 * nth (j * 8 + i + 1) xs 0 + nth (j * 8 + i + 2) xs 0 + 2) by ring.
      apply P_Laws2.wrap_id. apply byte. split; [apply Z.div_pos; lia|]. apply Z.lt_succ_r. apply Z.div_lt_upper_bound; lia.
Qed.

(** ** Reversing *)

(** The functions whose groups of 64 bits are whole vectors. *)
Lemma reverse_groups f t n c m x : In (f, t, n) vrev64_table -> (n * nbytes t = 8)%nat -> lanes t n x ->
  run c m f [vec t x] = Returns m (Some (vec t (rev x))).
Proof.
  intros H E R. rewrite (vrev64_exact f t n c m x H R). do 3 f_equal.
  assert (G : (8 / nbytes t = n)%nat) by (rewrite <- E; apply Nat.div_mul; destruct t; discriminate). rewrite G.
  destruct R as [L _]. apply (nth_ext _ _ 0 0); unfold rev_groups; [unfold build; rewrite map_length, seq_length, rev_length; auto|].
  intros i Hi. unfold build in Hi. rewrite map_length, seq_length in Hi. rewrite nth_build by exact Hi.
  rewrite rev_nth by lia. rewrite Nat.div_small, Nat.mod_small by lia. f_equal. lia.
Qed.

Lemma reverse_run c ld rv64 st t n m a d k xs cd : In (ld, t, n) vld1_table -> In (rv64, t, n) vrev64_table -> In (st, t, n) vst1_table ->
  (n * nbytes t = 8)%nat -> a <> d -> array_at m a t xs -> nth_error m d = Some (t, cd) ->
  List.length xs = (k * n)%nat -> (k * n <= List.length cd)%nat ->
  execute c m (reverse_program ld rv64 st t n a d k) = Returns (set_block d (t, map Some (rev xs) ++ skipn (k * n) cd) m) None.
Proof.
  intros Hl Hr Hs E Na Ha Hd Lx Ld. unfold reverse_program. assert (Pn : (0 < n)%nat) by (destruct n; [discriminate|lia]).
  rewrite (steps_run c t n d k Pn (fun j => (k - 1 - j)%nat) (fun p => nth p (rev xs) 0) (fun m => array_at m a t xs)) with (cd := cd); trivial.
  - cbn [execute]. do 4 f_equal. rewrite <- Lx, <- rev_length. f_equal. apply build_nth. reflexivity.
  - intros m' cells blk A1 B. now apply (array_stable _ _ _ _ blk).
  - intros j Hj. lia.
  - intros b Hb. exists (k - 1 - b)%nat. lia.
  - intros j m' cells next Hj A1 B L.
    destruct (load_array ld t n c m' a xs (j * n) Hl A1 (step_in j k n _ Hj (Nat.eq_le_incl _ _ (eq_sym Lx)))) as [E1 R1].
    rewrite (call_one _ _ _ _ _ _ E1). cbn [value]. rewrite (call_one _ _ _ _ _ _ (reverse_groups rv64 t n c m' _ Hr E R1)). cbn [value].
    pose proof (step_in (k - 1 - j) k n _ ltac:(lia) L) as Lp.
    rewrite (store_step st t n c m' d cells ((k - 1 - j) * n)); trivial.
    + do 4 f_equal. rewrite <- (build_nth (rev (build n (fun q => nth (j * n + q) xs 0))) n) by (rewrite rev_length; apply R1).
      apply build_ext. intros i Hi. destruct R1 as [L1 _]. rewrite rev_nth by lia. rewrite L1, nth_build by lia.
      pose proof (Nat.mul_le_mono_r (S j) k n Hj). assert (Ek : (k * n = (k - 1 - j) * n + n + j * n)%nat) by (rewrite !Nat.mul_sub_distr_r; lia).
      rewrite rev_nth by lia. f_equal. lia.
    + destruct R1 as [L1 F1]. split; [now rewrite rev_length|]. apply Forall_forall. intros x Hx. apply in_rev in Hx. now apply (proj1 (Forall_forall _ _) F1).
Qed.

(** ** Table lookup *)

Lemma lookup_run c m tab a d k ts xs cd : tab <> d -> a <> d -> array_at m tab U8 ts -> List.length ts = 32%nat ->
  array_at m a U8 xs -> nth_error m d = Some (U8, cd) -> (k * 8 <= List.length xs)%nat -> (k * 8 <= List.length cd)%nat ->
  execute c m (lookup_program tab a d k)
  = Returns (set_block d (U8, map Some (map (lookup_table ts) (firstn (k * 8) xs)) ++ skipn (k * 8) cd) m) None.
Proof.
  intros Nt Na Ht Lt Ha Hd Lx Ld. unfold lookup_program.
  set (T i := build 8 (fun q => nth (i * 8 + q) ts 0)).
  assert (RT : forall i, (i < 4)%nat -> run c m vld1_u8 [at_ U8 tab (i * 8)] = Returns m (Some (vec U8 (T i))) /\ lanes U8 8 (T i)).
  { intros i Hi. apply (load_array vld1_u8 U8 8 c m tab ts (i * 8)); [cbn; tauto|exact Ht|lia]. }
  rewrite (call_all_pure c m (fun _ : nat => vld1_u8) (fun i => [at_ U8 tab (i * 8)]) (fun i => vec U8 (T i))).
  2:{ intros i Hi. apply in_seq in Hi. apply RT. lia. }
  change (OArr (map (fun i => vec U8 (T i)) (seq 0 4))) with (vecs U8 [T 0%nat; T 1%nat; T 2%nat; T 3%nat]).
  assert (ET : T 0%nat ++ T 1%nat ++ T 2%nat ++ T 3%nat = ts).
  { clear - Lt. unfold T. do 32 (destruct ts as [|? ts]; [discriminate Lt|]). destruct ts; [reflexivity|discriminate Lt]. }
  assert (Bt : forall z, 0 <= lookup_table ts z <= 255).
  { intros z. apply (nth_array_range U8); [apply Ht|apply byte; lia]. }
  rewrite (steps_run c U8 8 d k ltac:(lia) (fun j => j) (fun i => lookup_table ts (nth i xs 0)) (fun m => array_at m a U8 xs)) with (cd := cd); trivial.
  - cbn [execute]. do 4 f_equal. rewrite (build_firstn_skipn (k * 8) 0 xs Lx) at 1. now rewrite map_build.
  - intros m' cells blk A1 B. now apply (array_stable _ _ _ _ blk).
  - intros j; apply straight_onto.
  - intros j m' cells next Hj A1 B L.
    destruct (load_array vld1_u8 U8 8 c m' a xs (j * 8) ltac:(cbn; tauto) A1 (step_in j k 8 _ Hj Lx)) as [E1 R1].
    rewrite (call_one _ _ _ _ _ _ E1). cbn [value].
    rewrite (call_one _ _ _ _ _ _ (vtbl4_u8_exact c m' _ _ _ _ _ (proj2 (RT 0%nat ltac:(lia))) (proj2 (RT 1%nat ltac:(lia))) (proj2 (RT 2%nat ltac:(lia))) (proj2 (RT 3%nat ltac:(lia))) R1)).
    cbn [value]. rewrite ET, map_build.
    rewrite (store_step vst1_u8 U8 8 c m' d cells (j * 8)); trivial; [cbn; tauto|now apply (step_in j k 8)|].
    apply build_lanes_range. intros i Hi. apply byte, Bt.
Qed.

(** ** Thresholds *)

Lemma threshold_run c m z a d k xs cd : 0 <= z <= 255 -> a <> d -> array_at m a U8 xs -> nth_error m d = Some (U8, cd) ->
  (k * 16 <= List.length xs)%nat -> (k * 16 <= List.length cd)%nat ->
  execute c m (threshold_program z a d k)
  = Returns (set_block d (U8, map Some (map (fun x => if z <? x then 255 else 0) (firstn (k * 16) xs)) ++ skipn (k * 16) cd) m) None.
Proof.
  intros Hz Na Ha Hd Lx Ld. unfold threshold_program.
  rewrite (call_one _ _ _ _ _ _ (vdup_exact vdupq_n_u8 U8 16 c m z ltac:(cbn; tauto) Hz)). cbn [value].
  rewrite (steps_run c U8 16 d k ltac:(lia) (fun j => j) (fun i => if z <? nth i xs 0 then 255 else 0) (fun m => array_at m a U8 xs)) with (cd := cd); trivial.
  - cbn [execute]. do 4 f_equal. rewrite (build_firstn_skipn (k * 16) 0 xs Lx) at 1. now rewrite map_build.
  - intros m' cells blk A1 B. now apply (array_stable _ _ _ _ blk).
  - intros j; apply straight_onto.
  - intros j m' cells next Hj A1 B L.
    destruct (load_array vld1q_u8 U8 16 c m' a xs (j * 16) ltac:(cbn; tauto) A1 (step_in j k 16 _ Hj Lx)) as [E1 R1].
    rewrite (call_one _ _ _ _ _ _ E1). cbn [value].
    rewrite (call_one _ _ _ _ _ _ (vcgtq_u8_exact c m' _ _ R1 (repeat_lanes U8 16 z Hz))). cbn [value]. rewrite map2_build.
    rewrite (store_step vst1q_u8 U8 16 c m' d cells (j * 16)); trivial; [cbn; tauto|now apply (step_in j k 16)|].
    apply build_lanes_range. intros i Hi. apply byte. destruct (z <? nth (j * 16 + i) xs 0); lia.
Qed.
