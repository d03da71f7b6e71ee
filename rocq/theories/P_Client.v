(** Proofs about histories and programs. *)
From Coq Require Import ZArith String List Bool Lia.
From Verif Require Import Types Syntax Interp ProgRecip Library Spec Tables MetaSpec ExecLemmas Ew Client.
From Verif Require Import P_Mem P_Laws.
Import ListNotations.
Open Scope Z_scope.

(** ** Blocks and segments *)

Lemma split_block (m : memory) b blk : nth_error m b = Some blk -> m = set_block b blk m.
Proof.
  unfold set_block. revert b; induction m as [|x m IH]; intros [|b] H; cbn in *; try discriminate.
  - now injection H as ->.
  - f_equal. now apply IH.
Qed.

Lemma length_firstn_nth (m : memory) b blk : nth_error m b = Some blk -> List.length (firstn b m) = b.
Proof. intros H. rewrite firstn_length. assert (b < List.length m)%nat by (apply nth_error_Some; congruence). lia. Qed.

Lemma set_block_heap m b t cells pre seg post : nth_error m b = Some (t, cells) -> cells = pre ++ seg ++ post ->
  m = heap (firstn b m) t pre seg post (skipn (S b) m) /\
  OPtr t b (Z.of_nat (List.length pre)) = pointer (firstn b m) t pre.
Proof.
  intros H ->. split.
  - unfold heap. exact (split_block _ _ _ H).
  - unfold pointer. f_equal. symmetry. exact (length_firstn_nth _ _ _ H).
Qed.

Lemma set_block_same (m : memory) b blk blk' : nth_error m b = Some blk -> nth_error (set_block b blk' m) b = Some blk'.
Proof.
  intros H. unfold set_block. pose proof (length_firstn_nth _ _ _ H) as L.
  rewrite nth_error_app2 by lia. rewrite L, Nat.sub_diag. reflexivity.
Qed.

Lemma set_block_other (m : memory) b b' blk : (b < List.length m)%nat -> b' <> b -> nth_error (set_block b blk m) b' = nth_error m b'.
Proof.
  unfold set_block. revert b b'. induction m as [|x m IH]; intros [|b] [|b'] L N; cbn in *; try lia; trivial. apply IH; lia.
Qed.

Lemma set_block_twice (m : memory) b x y blk : nth_error m b = Some blk -> set_block b y (set_block b x m) = set_block b y m.
Proof.
  unfold set_block. revert b; induction m as [|z m IH]; intros [|b] H; cbn in *; try discriminate; trivial. f_equal. now apply IH.
Qed.

Lemma skipn_skipn {A} (l : list A) i j : skipn i (skipn j l) = skipn (j + i) l.
Proof. revert l; induction j as [|j IH]; intros [|x l]; cbn; trivial. now destruct i. Qed.

Lemma segment (cells : list (option Z)) off n : (off + n <= List.length cells)%nat ->
  cells = firstn off cells ++ firstn n (skipn off cells) ++ skipn (off + n) cells /\
  List.length (firstn off cells) = off /\ List.length (firstn n (skipn off cells)) = n.
Proof.
  intros L. split.
  - rewrite <- (firstn_skipn off cells) at 1. f_equal. rewrite <- (firstn_skipn n (skipn off cells)) at 1. f_equal.
    now rewrite skipn_skipn.
  - rewrite !firstn_length, skipn_length. lia.
Qed.

Lemma load_at ld t n c m b cells off a : In (ld, t, n) vld1_table -> nth_error m b = Some (t, cells) ->
  (off + n <= List.length cells)%nat -> firstn n (skipn off cells) = map Some a -> lanes t n a ->
  run c m ld [OPtr t b (Z.of_nat off)] = Returns m (Some (vec t a)).
Proof.
  intros H Hb L Ha R. destruct (segment cells off n L) as (E & L1 & L2). rewrite Ha in E.
  destruct (set_block_heap m b t cells _ _ _ Hb E) as [Em Ep]. rewrite L1 in Ep. rewrite Ep.
  set (m1 := firstn b m) in *. set (m2 := skipn (S b) m) in *. set (pre := firstn off cells) in *.
  rewrite Em. exact (vld1_exact ld t n c m1 m2 pre _ a H R).
Qed.

Lemma store_at st t n c m b cells off a : In (st, t, n) vst1_table -> nth_error m b = Some (t, cells) ->
  (off + n <= List.length cells)%nat -> lanes t n a ->
  run c m st [OPtr t b (Z.of_nat off); vec t a]
  = Returns (set_block b (t, firstn off cells ++ map Some a ++ skipn (off + n) cells) m) None.
Proof.
  intros H Hb L R. destruct (segment cells off n L) as (E & L1 & L2).
  destruct (set_block_heap m b t cells _ _ _ Hb E) as [Em Ep]. rewrite L1 in Ep. rewrite Ep. unfold set_block.
  set (m1 := firstn b m) in *. set (m2 := skipn (S b) m) in *. set (pre := firstn off cells) in *.
  rewrite Em at 1. exact (vst1_exact st t n c m1 m2 pre _ _ a H R L2).
Qed.

(** ** Strip-mined loops *)

Lemma firstn_all3 {A} (p q r : list A) n : List.length p = n -> firstn n (p ++ q ++ r) = p.
Proof. intros <-. rewrite firstn_app, Nat.sub_diag, firstn_all. cbn. apply app_nil_r. Qed.

Lemma skipn_mid {A} (p q r : list A) n k : List.length p = n -> List.length q = k -> skipn (n + k) (p ++ q ++ r) = r.
Proof. intros <- <-. rewrite app_assoc, <- app_length. rewrite skipn_app, skipn_all, Nat.sub_diag. reflexivity. Qed.

Lemma lanes_firstn t n k xs : Forall (in_range t) xs -> List.length xs = (n + k)%nat -> lanes t n (firstn n xs).
Proof.
  intros F L. split; [rewrite firstn_length; lia|]. rewrite <- (firstn_skipn n xs) in F. now apply Forall_app in F.
Qed.

Lemma Forall_skipn {A} (P : A -> Prop) n l : Forall P l -> Forall P (skipn n l).
Proof. intros F. rewrite <- (firstn_skipn n l) in F. now apply Forall_app in F. Qed.

Lemma map2_split {A B C} (g : A -> B -> C) n xs ys :
  map2 g xs ys = map2 g (firstn n xs) (firstn n ys) ++ map2 g (skipn n xs) (skipn n ys).
Proof.
  revert xs ys. induction n as [|n IH]; intros xs ys; [reflexivity|].
  destruct xs as [|x xs]; [reflexivity|]. destruct ys as [|y ys]; cbn; [now destruct (skipn n xs)|]. f_equal. apply IH.
Qed.

Lemma nth_lt (m : memory) b blk : nth_error m b = Some blk -> (b < List.length m)%nat.
Proof. intros H. apply nth_error_Some. congruence. Qed.

(** Reading another array, or the rest of the same one, after a chunk was stored. *)
Lemma after_store m a d (t u : sty) ca cd j n r xs ra :
  nth_error m a = Some (t, ca) -> nth_error m d = Some (u, cd) ->
  List.length r = n -> (j + n <= List.length cd)%nat -> (n <= List.length xs)%nat ->
  skipn j ca = map Some xs ++ ra ->
  exists ca', nth_error (set_block d (u, firstn j cd ++ map Some r ++ skipn (j + n) cd) m) a = Some (t, ca') /\
    skipn (j + n) ca' = map Some (skipn n xs) ++ ra.
Proof.
  intros Ha Hd Lr L Lx E.
  assert (K : skipn (j + n) ca = map Some (skipn n xs) ++ ra).
  { rewrite <- skipn_skipn, E, skipn_app, map_length. replace (n - List.length xs)%nat with O by lia. now rewrite skipn_map. }
  destruct (Nat.eq_dec a d) as [->|N].
  - rewrite Ha in Hd. injection Hd as <- <-. rewrite (set_block_same _ _ _ _ Ha). eexists. split; [reflexivity|].
    rewrite skipn_mid; [exact K|rewrite firstn_length; lia|now rewrite map_length].
  - rewrite set_block_other by (trivial; now apply nth_lt in Hd). exists ca. split; [exact Ha|exact K].
Qed.

Lemma store_chunks cd j n k r s : List.length r = n -> (j + n <= List.length cd)%nat ->
  let cd' := firstn j cd ++ map (@Some Z) r ++ skipn (j + n) cd in
  firstn (j + n) cd' ++ map (@Some Z) s ++ skipn (j + n + k) cd' = firstn j cd ++ map Some (r ++ s) ++ skipn (j + (n + k)) cd.
Proof.
  intros Lr L cd'. unfold cd'. rewrite !(app_assoc (firstn j cd)).
  assert (E : List.length (firstn j cd ++ map Some r) = (j + n)%nat) by (rewrite app_length, firstn_length, map_length; lia).
  rewrite firstn_app, skipn_app, E, Nat.sub_diag. cbn [firstn]. rewrite app_nil_r. rewrite <- E at 1. rewrite firstn_all.
  rewrite (skipn_all2 (firstn j cd ++ map Some r)) by lia. replace (j + n + k - (j + n))%nat with k by lia.
  rewrite skipn_skipn, map_app, <- !app_assoc. cbn [app]. now rewrite Nat.add_assoc.
Qed.

Lemma after_length cd j n r : List.length r = n -> (j + n <= List.length cd)%nat ->
  List.length (firstn j cd ++ map (@Some Z) r ++ skipn (j + n) cd) = List.length cd.
Proof. intros Lr L. rewrite !app_length, firstn_length, map_length, skipn_length. lia. Qed.

Lemma vld1_pos f t n : In (f, t, n) vld1_table -> (0 < n)%nat.
Proof. intros H. revert f t n H. assert (K : forall p, In p vld1_table -> (0 < snd p)%nat); [|intros f t n H; exact (K _ H)].
  apply Forall_forall. repeat constructor. Qed.

Lemma chunk ca j n k (xs : list Z) ra : (0 < n)%nat -> skipn j ca = map Some xs ++ ra -> List.length xs = (n + k)%nat ->
  firstn n (skipn j ca) = map Some (firstn n xs) /\ (j + n <= List.length ca)%nat /\ (n <= List.length xs)%nat.
Proof.
  intros P E L. split; [|split; [|lia]].
  - rewrite E, firstn_app, map_length. replace (n - List.length xs)%nat with O by lia. cbn [firstn]. now rewrite app_nil_r, firstn_map.
  - assert (List.length (skipn j ca) = (n + k + List.length ra)%nat) by (rewrite E, app_length, map_length; lia). rewrite skipn_length in H. lia.
Qed.

Lemma zip_loop_run ld st op t u n g c a b d : In (ld, t, n) vld1_table -> In (st, u, n) vst1_table ->
  computes2 c op t u n g ->
  forall k j m ca cb cd xs ys ra rb, nth_error m a = Some (t, ca) -> nth_error m b = Some (t, cb) -> nth_error m d = Some (u, cd) ->
  skipn j ca = map Some xs ++ ra -> skipn j cb = map Some ys ++ rb ->
  Forall (in_range t) xs -> Forall (in_range t) ys ->
  List.length xs = (k * n)%nat -> List.length ys = (k * n)%nat -> (j + k * n <= List.length cd)%nat ->
  execute c m (zip_loop ld op st t u n a b d j k)
  = Returns (set_block d (u, firstn j cd ++ map Some (map2 g xs ys) ++ skipn (j + k * n) cd) m) None.
Proof.
  intros Hld Hst Hop k. induction k as [|k IH]; intros j m ca cb cd xs ys ra rb Ha Hb Hd Ea Eb Fa Fb Lx Ly Ld.
  - cbn in *. destruct xs; [|discriminate]. cbn [map2 map]. cbn [app]. rewrite Nat.add_0_r, firstn_skipn.
    now rewrite <- (split_block _ _ _ Hd).
  - cbn [Nat.mul] in Lx, Ly, Ld. destruct (chunk ca j n _ xs _ (vld1_pos _ _ _ Hld) Ea Lx) as (Ca & La & Nx). destruct (chunk cb j n _ ys _ (vld1_pos _ _ _ Hld) Eb Ly) as (Cb & Lb & Ny).
    pose proof (lanes_firstn t n _ xs Fa Lx) as Hx. pose proof (lanes_firstn t n _ ys Fb Ly) as Hy.
    cbn [zip_loop execute]. rewrite (load_at ld t n c m a ca j _ Hld Ha La Ca Hx).
    cbn [execute]. rewrite (load_at ld t n c m b cb j _ Hld Hb Lb Cb Hy).
    cbn [execute value]. destruct (Hop m _ _ Hx Hy) as [Hr R]. rewrite R. cbn [execute value].
    assert (Ljd : (j + n <= List.length cd)%nat) by lia.
    rewrite (store_at st u n c m d cd j _ Hst Hd Ljd Hr). set (r := map2 g (firstn n xs) (firstn n ys)) in *.
    destruct Hr as [Lr Fr].
    destruct (after_store m a d t u ca cd j n r xs _ Ha Hd Lr Ljd Nx Ea) as (ca' & Ha' & Ea').
    destruct (after_store m b d t u cb cd j n r ys _ Hb Hd Lr Ljd Ny Eb) as (cb' & Hb' & Eb').
    rewrite (IH _ _ ca' cb' (firstn j cd ++ map Some r ++ skipn (j + n) cd) (skipn n xs) (skipn n ys) ra rb Ha' Hb').
    + rewrite (set_block_twice _ _ _ _ _ Hd). rewrite (store_chunks cd j _ _ r) by assumption.
      rewrite (map2_split g n xs ys). reflexivity.
    + apply (set_block_same _ _ _ _ Hd).
    + exact Ea'.
    + exact Eb'.
    + now apply Forall_skipn.
    + now apply Forall_skipn.
    + rewrite skipn_length. lia.
    + rewrite skipn_length. lia.
    + rewrite after_length by assumption. lia.
Qed.

Lemma map_loop_run ld st op t u n g c a d : In (ld, t, n) vld1_table -> In (st, u, n) vst1_table ->
  computes1 c op t u n g ->
  forall k j m ca cd xs ra, nth_error m a = Some (t, ca) -> nth_error m d = Some (u, cd) ->
  skipn j ca = map Some xs ++ ra -> Forall (in_range t) xs ->
  List.length xs = (k * n)%nat -> (j + k * n <= List.length cd)%nat ->
  execute c m (map_loop ld op st t u n a d j k)
  = Returns (set_block d (u, firstn j cd ++ map Some (map g xs) ++ skipn (j + k * n) cd) m) None.
Proof.
  intros Hld Hst Hop k. induction k as [|k IH]; intros j m ca cd xs ra Ha Hd Ea Fa Lx Ld.
  - cbn in *. destruct xs; [|discriminate]. cbn [map]. cbn [app]. rewrite Nat.add_0_r, firstn_skipn.
    now rewrite <- (split_block _ _ _ Hd).
  - cbn [Nat.mul] in Lx, Ld. destruct (chunk ca j n _ xs _ (vld1_pos _ _ _ Hld) Ea Lx) as (Ca & La & Nx).
    pose proof (lanes_firstn t n _ xs Fa Lx) as Hx.
    cbn [map_loop execute]. rewrite (load_at ld t n c m a ca j _ Hld Ha La Ca Hx).
    cbn [execute value]. destruct (Hop m _ Hx) as [Hr R]. rewrite R. cbn [execute value].
    assert (Ljd : (j + n <= List.length cd)%nat) by lia.
    rewrite (store_at st u n c m d cd j _ Hst Hd Ljd Hr). set (r := map g (firstn n xs)) in *.
    destruct Hr as [Lr Fr].
    destruct (after_store m a d t u ca cd j n r xs _ Ha Hd Lr Ljd Nx Ea) as (ca' & Ha' & Ea').
    rewrite (IH _ _ ca' (firstn j cd ++ map Some r ++ skipn (j + n) cd) (skipn n xs) ra Ha').
    + rewrite (set_block_twice _ _ _ _ _ Hd). rewrite (store_chunks cd j _ _ r) by assumption.
      replace (map g xs) with (r ++ map g (skipn n xs)); [reflexivity|]. unfold r. now rewrite <- map_app, firstn_skipn.
    + apply (set_block_same _ _ _ _ Hd).
    + exact Ea'.
    + now apply Forall_skipn.
    + rewrite skipn_length. lia.
    + rewrite after_length by assumption. lia.
Qed.

(** ** Reductions *)

Lemma seq_shift_by n k : seq n k = map (Nat.add n) (seq 0 k).
Proof.
  revert n. induction k as [|k IH]; intros n; [reflexivity|]. cbn [seq map]. rewrite Nat.add_0_r. f_equal.
  rewrite IH, <- seq_shift, map_map. apply map_ext. intros i. lia.
Qed.

Lemma build_nth (l : list Z) n : List.length l = n -> build n (fun i => nth i l 0) = l.
Proof.
  intros <-. unfold build. induction l as [|x l IH]; [reflexivity|]. cbn [List.length seq map nth]. f_equal.
  rewrite <- seq_shift, map_map. exact IH.
Qed.

Lemma div_mul_le (k n : nat) : (0 < n)%nat -> (k * n / n)%nat = k.
Proof. intros H. apply Nat.div_mul. lia. Qed.

Lemma column_step n l k xs : (0 < n)%nat -> (l < n)%nat -> List.length xs = (S k * n)%nat ->
  column n l xs = nth l xs 0 :: column n l (skipn n xs).
Proof.
  intros P Hl L. unfold column. rewrite skipn_length, L, div_mul_le by exact P.
  replace (S k * n - n)%nat with (k * n)%nat by (cbn; lia). rewrite div_mul_le by exact P.
  cbn [seq map]. f_equal; [f_equal; lia|]. rewrite <- seq_shift, map_map. apply map_ext. intros j.
  rewrite <- (firstn_skipn n xs) at 1. assert (List.length (firstn n xs) = n) by (rewrite firstn_length; cbn in L; lia).
  rewrite app_nth2 by nia. f_equal. nia.
Qed.

Lemma nth_map2 (g : Z -> Z -> Z) : forall x y l, List.length x = List.length y -> (l < List.length x)%nat ->
  nth l (map2 g x y) 0 = g (nth l x 0) (nth l y 0).
Proof.
  induction x as [|a x IH]; intros [|b y] l L H; cbn in *; try lia. destruct l; [reflexivity|]. apply IH; lia.
Qed.

Lemma nth_firstn {A} (l : list A) n i d : (i < n)%nat -> nth i (firstn n l) d = nth i l d.
Proof. revert n i. induction l as [|x l IH]; intros [|n] [|i] H; cbn; try lia; trivial. apply IH. lia. Qed.

Lemma fold_loop_run ld op t n g c a next : In (ld, t, n) vld1_table -> computes2 c op t t n g ->
  forall k j m ca xs acc ra, nth_error m a = Some (t, ca) ->
  skipn j ca = map Some xs ++ ra -> Forall (in_range t) xs -> List.length xs = (k * n)%nat -> lanes t n acc ->
  execute c m (fold_loop ld op t n a j k (vec t acc) next)
  = execute c m (next (vec t (build n (fun l => fold_left g (column n l xs) (nth l acc 0))))).
Proof.
  intros Hld Hop k. pose proof (vld1_pos _ _ _ Hld) as P. induction k as [|k IH]; intros j m ca xs acc ra Ha Ea Fa Lx Hacc.
  - cbn in Lx. destruct xs; [|discriminate]. cbn [fold_loop]. do 3 f_equal. unfold build.
    transitivity (map (fun i => nth i acc 0) (seq 0 n)); [symmetry; apply (build_nth acc n); apply Hacc|]. apply map_ext. intros l. unfold column. cbn [List.length].
    now rewrite Nat.div_0_l by lia.
  - pose proof Lx as Lx'. cbn [Nat.mul] in Lx'. destruct (chunk ca j n _ xs _ P Ea Lx') as (Ca & La & Nx).
    pose proof (lanes_firstn t n _ xs Fa Lx') as Hx.
    cbn [fold_loop execute]. rewrite (load_at ld t n c m a ca j _ Hld Ha La Ca Hx).
    cbn [execute value]. destruct (Hop m _ _ Hacc Hx) as [Hr R]. rewrite R. cbn [execute value].
    rewrite (IH (j + n)%nat m ca (skipn n xs) _ ra Ha).
    + do 3 f_equal. apply map_ext_in. intros l Hl. apply in_seq in Hl. rewrite (column_step n l k xs) by (trivial; lia).
      cbn [fold_left]. f_equal. destruct Hacc as [La' _], Hx as [Lx1 _].
      rewrite nth_map2 by lia. now rewrite nth_firstn by lia.
    + rewrite <- skipn_skipn, Ea, skipn_app, map_length. replace (n - List.length xs)%nat with O by lia. now rewrite skipn_map.
    + now apply Forall_skipn.
    + rewrite skipn_length. lia.
    + exact Hr.
Qed.

(** ** Permuting interleaved channels *)

Lemma loadk_at w ld t n c m b cells off zs : In (ld, t, n) (vld_table w) -> nth_error m b = Some (t, cells) ->
  (off + w * n <= List.length cells)%nat -> firstn (w * n) (skipn off cells) = map Some zs ->
  List.length zs = (w * n)%nat -> Forall (in_range t) zs ->
  run c m ld [OPtr t b (Z.of_nat off)] = Returns m (Some (vecs t (deinterleave w n zs))).
Proof.
  intros H Hb L Ha R F. destruct (segment cells off (w * n) L) as (E & L1 & L2). rewrite Ha in E.
  destruct (set_block_heap m b t cells _ _ _ Hb E) as [Em Ep]. rewrite L1 in Ep. rewrite Ep.
  set (m1 := firstn b m) in *. set (m2 := skipn (S b) m) in *. set (pre := firstn off cells) in *.
  rewrite Em. exact (vldk_lanes w ld t n c m1 m2 pre _ zs H R F).
Qed.

Lemma storek_at w st t n c m b cells off vs : In (st, t, n) (vst_table w) -> nth_error m b = Some (t, cells) ->
  (off + w * n <= List.length cells)%nat -> tuple t w n vs ->
  run c m st [OPtr t b (Z.of_nat off); vecs t vs]
  = Returns (set_block b (t, firstn off cells ++ map Some (interleave n vs) ++ skipn (off + w * n) cells) m) None.
Proof.
  intros H Hb L R. destruct (segment cells off (w * n) L) as (E & L1 & L2).
  destruct (set_block_heap m b t cells _ _ _ Hb E) as [Em Ep]. rewrite L1 in Ep. rewrite Ep. unfold set_block.
  set (m1 := firstn b m) in *. set (m2 := skipn (S b) m) in *. set (pre := firstn off cells) in *.
  rewrite Em at 1. exact (vstk_exact w st t n c m1 m2 pre _ _ vs H R L2).
Qed.

Lemma reorder_vecs p t vs : reorder p (vecs t vs) = vecs t (map (fun i => nth i vs []) p).
Proof.
  unfold reorder, vecs. f_equal. rewrite map_map. apply map_ext. intros i. exact (map_nth (vec t) vs [] i).
Qed.

Lemma nth_deinterleave w n zs i : (i < w)%nat -> nth i (deinterleave w n zs) [] = build n (fun l => nth (w * l + i) zs 0).
Proof.
  intros H. unfold deinterleave. rewrite (nth_indep _ [] ((fun j => build n (fun i => nth (w * i + j) zs 0)) 0%nat))
    by now rewrite map_length, seq_length.
  rewrite (map_nth (fun j => build n (fun i => nth (w * i + j) zs 0))). now rewrite seq_nth by exact H.
Qed.

Lemma reorder_tuple t w n zs p : List.length zs = (w * n)%nat -> Forall (in_range t) zs ->
  List.length p = w -> Forall (fun i => (i < w)%nat) p ->
  tuple t w n (map (fun i => nth i (deinterleave w n zs) []) p).
Proof.
  intros L F Lp Fp. split; [now rewrite map_length|]. apply Forall_forall. intros v Hv.
  apply in_map_iff in Hv as (i & <- & Hi). pose proof (proj1 (Forall_forall _ _) Fp i Hi) as Hw.
  destruct (deinterleave_tuple t w n zs L F) as [Ld Fd]. apply (proj1 (Forall_forall _ _) Fd). apply nth_In. now rewrite Ld.
Qed.

Lemma reorder_chunk w n zs p : (0 < w)%nat -> List.length zs = (w * n)%nat -> Forall (fun i => (i < w)%nat) p ->
  interleave n (map (fun i => nth i (deinterleave w n zs) []) p) = reordered w p zs.
Proof.
  intros P L Fp. unfold interleave, reordered. rewrite L. replace (w * n / w)%nat with n by (rewrite Nat.mul_comm; symmetry; now apply div_mul_le).
  apply flat_map_ext_in. intros l Hl. apply in_seq in Hl. rewrite map_map. apply map_ext_in. intros i Hi.
  pose proof (proj1 (Forall_forall _ _) Fp i Hi) as Hw. cbv beta in Hw. rewrite nth_deinterleave by exact Hw. apply nth_build. lia.
Qed.

Lemma reordered_app w p n k zs zs' : (0 < w)%nat -> List.length zs = (w * n)%nat -> List.length zs' = (w * k)%nat ->
  Forall (fun i => (i < w)%nat) p ->
  reordered w p (zs ++ zs') = reordered w p zs ++ reordered w p zs'.
Proof.
  intros P L L' Fp. unfold reordered. rewrite app_length, L, L'.
  replace (w * n + w * k)%nat with ((n + k) * w)%nat by lia. rewrite div_mul_le by exact P.
  replace (w * n)%nat with (n * w)%nat by lia. rewrite div_mul_le by exact P.
  replace (w * k)%nat with (k * w)%nat by lia. rewrite div_mul_le by exact P.
  rewrite seq_app, flat_map_app. f_equal.
  - apply flat_map_ext_in. intros i Hi. apply in_seq in Hi. apply map_ext_in. intros j Hj.
    pose proof (proj1 (Forall_forall _ _) Fp j Hj) as Hw. cbv beta in Hw. apply app_nth1. rewrite L. nia.
  - cbn [Nat.add]. rewrite (seq_shift_by n k). rewrite flat_map_concat_map, map_map, <- flat_map_concat_map.
    apply flat_map_ext_in. intros i Hi. apply map_ext_in. intros j Hj.
    rewrite app_nth2 by (rewrite L; nia). f_equal. rewrite L. nia.
Qed.

Lemma vld_pos w f t n : In (f, t, n) (vld_table w) -> (0 < n)%nat /\ (0 < w)%nat.
Proof.
  intros H. split; [|destruct w; [contradiction|lia]].
  assert (K : Forall (fun p : func * sty * nat => (0 < snd p)%nat) (vld2_table ++ vld3_table ++ vld4_table)) by repeat constructor.
  apply (proj1 (Forall_forall _ _) K (f, t, n)). rewrite !in_app_iff.
  destruct w as [|[|[|[|[|]]]]]; try contradiction; auto.
Qed.

Lemma reorder_loop_run w ld st t n p c a d : In (ld, t, n) (vld_table w) -> In (st, t, n) (vst_table w) ->
  List.length p = w -> Forall (fun i => (i < w)%nat) p ->
  forall k j m ca cd zs ra, nth_error m a = Some (t, ca) -> nth_error m d = Some (t, cd) ->
  skipn j ca = map Some zs ++ ra -> Forall (in_range t) zs ->
  List.length zs = (k * (w * n))%nat -> (j + k * (w * n) <= List.length cd)%nat ->
  execute c m (reorder_loop ld st t (w * n) a d p j k)
  = Returns (set_block d (t, firstn j cd ++ map Some (reordered w p zs) ++ skipn (j + k * (w * n)) cd) m) None.
Proof.
  intros Hld Hst Lp Fp k. destruct (vld_pos _ _ _ _ Hld) as [Pn Pw].
  assert (Pwn : (0 < w * n)%nat) by nia.
  induction k as [|k IH]; intros j m ca cd zs ra Ha Hd Ea Fa Lx Ld.
  - cbn in *. destruct zs; [|discriminate]. unfold reordered. cbn [List.length]. rewrite Nat.div_0_l by lia. cbn [seq flat_map map].
    cbn [app]. rewrite Nat.add_0_r, firstn_skipn. now rewrite <- (split_block _ _ _ Hd).
  - cbn [Nat.mul] in Lx, Ld. destruct (chunk ca j (w * n) _ zs _ Pwn Ea Lx) as (Ca & La & Nx).
    destruct (P_Client.lanes_firstn t (w * n) _ zs Fa Lx) as [Lz Fz].
    cbn [reorder_loop execute]. rewrite (loadk_at w ld t n c m a ca j _ Hld Ha La Ca Lz Fz).
    cbn [execute value]. rewrite reorder_vecs.
    assert (Ljd : (j + w * n <= List.length cd)%nat) by lia.
    rewrite (storek_at w st t n c m d cd j _ Hst Hd Ljd (reorder_tuple t w n _ p Lz Fz Lp Fp)).
    rewrite reorder_chunk by assumption.
    set (r := reordered w p (firstn (w * n) zs)) in *.
    assert (Lr : List.length r = (w * n)%nat).
    { unfold r. rewrite <- (reorder_chunk w n) by assumption. apply (interleave_length t w n). now apply reorder_tuple. }
    destruct (after_store m a d t t ca cd j (w * n) r zs _ Ha Hd Lr Ljd Nx Ea) as (ca' & Ha' & Ea').
    rewrite (IH _ _ ca' (firstn j cd ++ map Some r ++ skipn (j + w * n) cd) (skipn (w * n) zs) ra Ha').
    + rewrite (set_block_twice _ _ _ _ _ Hd). rewrite (store_chunks cd j _ _ r) by assumption.
      replace (reordered w p zs) with (r ++ reordered w p (skipn (w * n) zs)); [reflexivity|]. unfold r.
      rewrite <- (reordered_app w p n (k * n)) by (trivial; rewrite skipn_length; lia). now rewrite firstn_skipn.
    + apply (set_block_same _ _ _ _ Hd).
    + exact Ea'.
    + now apply Forall_skipn.
    + rewrite skipn_length. lia.
    + rewrite after_length by assumption. lia.
Qed.
