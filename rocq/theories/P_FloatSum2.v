(** Sums of products of floats: vectors and programs. *)
From Coq Require Import ZArith Arith Reals String List Bool Lia Lra.
From Flocq Require Import Core.
From Verif Require Import Types FloatBits FloatSpec FloatR Syntax Interp ProgRecip Library Spec Tables MetaSpec ExecLemmas Ew Client Transpose Pixels.
From Verif Require Import Contract ContractSpec FloatSum P_FloatSum.
From Verif Require Import P_AddSub P_SubMore P_Mul P_Mem P_Float P_Bsl P_Laws P_Client P_Kernels P_Transpose P_Transpose2 P_Pixels P_Contract2.
Import ListNotations.
Open Scope Z_scope.

(** ** Vectors *)

Lemma nth_error_lane t n a q : lanes t n a -> (q < n)%nat -> nth_error a q = Some (nth q a 0).
Proof. intros [L _] H. apply nth_error_nth'. lia. Qed.

Lemma accumulate_lanes c m : forall steps acc, lanes F32 4 acc ->
  Forall (fun s => lanes F32 4 (snd (fst s)) /\ lanes F32 4 (snd s)) steps ->
  exists r, accumulate c m (vec F32 acc) steps = Returns m (Some (vec F32 r)) /\ lanes F32 4 r /\
    forall q, (q < 4)%nat -> lane_steps (nth q acc 0) (lane_pairs q steps) (nth q r 0).
Proof.
  induction steps as [|[[x a] b] steps IH]; intros acc Ra F.
  - exists acc. split; [reflexivity|]. split; [exact Ra|]. intros q _. constructor.
  - inversion F as [|? ? [A B] F']; subst. cbn [fst snd] in A, B.
    destruct (vmlaq_contracted x c m acc a b Ra A B) as (v & E & Rv & S).
    destruct (IH v Rv F') as (r & E2 & Rr & S2). exists r. cbn [accumulate]. rewrite E. split; [exact E2|]. split; [exact Rr|].
    intros q Hq. cbn [lane_pairs map fst snd]. apply one_more with (nth q v 0); [|now apply S2].
    apply (S q); now apply (nth_error_lane F32 4).
Qed.

Lemma zeros : lanes F32 4 (repeat 0 4).
Proof. split; [reflexivity|]. repeat constructor; discriminate. Qed.

Theorem accumulate_accurate c m steps : Forall (fun s => lanes F32 4 (snd (fst s)) /\ lanes F32 4 (snd s)) steps ->
  exists r, accumulate c m (vec F32 (repeat 0 4)) steps = Returns m (Some (vec F32 r)) /\ lanes F32 4 r /\
    forall q, (q < 4)%nat -> right_sum (lane_pairs q steps) (nth q r 0).
Proof.
  intros F. destruct (accumulate_lanes c m steps _ zeros F) as (r & E & R & Hs). exists r. split; [exact E|]. split; [exact R|].
  intros q Hq A. specialize (Hs q Hq). replace (nth q (repeat 0 4) 0) with 0 in Hs by (do 4 (destruct q as [|q]; [reflexivity|]); lia).
  split; [now apply lane_steps_accurate|now apply lane_steps_integers].
Qed.

(** ** Programs *)

Definition chain (c : cfg) (s : Z) (l : list (Z * Z)) : Z := fold_left (fun s p => fmla c F32 s (fst p) (snd p)) l s.

Lemma chain_steps c : forall l s, in_range F32 s -> Forall (fun p => in_range F32 (fst p) /\ in_range F32 (snd p)) l ->
  in_range F32 (chain c s l) /\ lane_steps s l (chain c s l).
Proof.
  induction l as [|[x y] l IH]; intros s Hs F; [split; [exact Hs|constructor]|].
  inversion F as [|? ? [X Y] F']; subst. cbn [fst snd] in X, Y. destruct (mla_separate c s x y Hs X Y) as [R1 S1].
  destruct (IH _ R1 F') as [R2 S2]. split; [exact R2|]. exact (one_more _ _ _ _ _ _ S1 S2).
Qed.

Lemma dup_array c m a xs e : array_at m a F32 xs -> (e < List.length xs)%nat ->
  run c m vld1q_dup_f32 [at_ F32 a e] = Returns m (Some (vec F32 (repeat (nth e xs 0) 4))).
Proof.
  intros [Ha F] L. unfold at_. destruct (segment (map Some xs) e 1) as (E & L1 & L2); [rewrite map_length; lia|].
  assert (E1 : firstn 1 (skipn e (map Some xs)) = [Some (nth e xs 0)]).
  { rewrite skipn_map, firstn_map, (build_firstn_skipn 1 e xs) by lia. unfold build. cbn [seq map]. now rewrite Nat.add_0_r. }
  rewrite E1 in E.
  destruct (set_block_heap m a F32 _ _ _ _ Ha E) as [Em Ep]. rewrite L1 in Ep. rewrite Ep.
  assert (Hz : in_range F32 (nth e xs 0)) by now apply nth_in_range.
  pose proof (vld1q_dup_f32_exact c (firstn a m) (skipn (S a) m) (firstn e (map Some xs)) (skipn (e + 1) (map Some xs)) _ Hz) as X.
  refine (eq_trans (f_equal (fun mm => run c mm _ _) Em) (eq_trans X (f_equal (fun mm => Returns mm _) (eq_sym Em)))).
Qed.

Lemma in_f32_0 : in_range F32 0. Proof. split; discriminate || reflexivity. Qed.

Lemma map3_builds (g : Z -> Z -> Z -> Z) n f1 f2 f3 : map3 g (build n f1) (build n f2) (build n f3) = build n (fun i => g (f1 i) (f2 i) (f3 i)).
Proof. unfold build. generalize (seq 0 n). induction l as [|x l IH]; [reflexivity|]. cbn [map map3]. now rewrite IH. Qed.

Lemma repeat_build z n : repeat z n = build n (fun _ => z).
Proof. unfold build. generalize 0%nat. induction n as [|n IH]; intros k; [reflexivity|]. cbn [seq map repeat]. now rewrite <- IH. Qed.

Lemma build_lanes t n f : (forall i, (i < n)%nat -> in_range t (f i)) -> lanes t n (build n f).
Proof.
  intros H. unfold build. split; [now rewrite map_length, seq_length|]. apply Forall_forall. intros z Hz.
  apply in_map_iff in Hz as (i & <- & Hi). apply in_seq in Hi. apply H. lia.
Qed.

Definition pairs_from (xs ys : list Z) (pa pb : nat -> nat) (l k todo : nat) : list (Z * Z) :=
  map (fun k => (nth (pa k) xs 0, nth (pb k + l) ys 0)) (seq k todo).

Lemma mla_steps_run c m a b xs ys pa pb next : array_at m a F32 xs -> array_at m b F32 ys -> forall todo k f,
  (forall i, (i < 4)%nat -> in_range F32 (f i)) ->
  (forall j, (k <= j < k + todo)%nat -> (pa j < List.length xs)%nat /\ (pb j + 4 <= List.length ys)%nat) ->
  execute c m (mla_steps a b pa pb k todo (Some (vec F32 (build 4 f))) next)
  = execute c m (next (Some (vec F32 (build 4 (fun l => chain c (f l) (pairs_from xs ys pa pb l k todo)))))).
Proof.
  intros A B. induction todo as [|todo IH]; intros k f F L; [reflexivity|]. cbn [mla_steps].
  destruct (L k ltac:(lia)) as [L1 L2].
  rewrite (call_one _ _ _ _ _ _ (dup_array c m a xs (pa k) A L1)).
  destruct (load_array vld1q_f32 F32 4 c m b ys (pb k) ltac:(cbn; tauto) B L2) as [E1 R1].
  rewrite (call_one _ _ _ _ _ _ E1). cbn [value].
  assert (Rx : in_range F32 (nth (pa k) xs 0)) by (apply nth_in_range; [apply (proj2 A)|exact L1]).
  rewrite (call_one _ _ _ _ _ _ (vmlaq_f32_run c m _ _ _ (build_lanes _ _ _ F) (repeat_lanes F32 4 _ Rx) R1)).
  rewrite repeat_build, map3_builds. rewrite IH; [reflexivity| |intros j Hj; apply L; lia].
  intros i Hi. apply (mla_separate c (f i) (nth (pa k) xs 0) (nth (pb k + i) ys 0)); [now apply F|exact Rx|].
  apply nth_in_range; [apply (proj2 B)|lia].
Qed.

(** The products that are summed up in element [p] of the result. *)
Definition products_at (xs ys : list Z) (pa pb : nat -> nat -> nat) (K p : nat) : list (Z * Z) :=
  map (fun k => (nth (pa (p / 4) k)%nat xs 0, nth (pb (p / 4) k + p mod 4)%nat ys 0)) (seq 0 K).

Theorem products_run c m a b d pa pb blocks K xs ys cd : a <> d -> b <> d ->
  array_at m a F32 xs -> array_at m b F32 ys -> nth_error m d = Some (F32, cd) -> (blocks * 4 <= List.length cd)%nat ->
  (forall q k, (q < blocks)%nat -> (k < K)%nat -> (pa q k < List.length xs)%nat /\ (pb q k + 4 <= List.length ys)%nat) ->
  exists zs, execute c m (products_program a b d pa pb blocks K) = Returns (set_block d (F32, map Some zs ++ skipn (blocks * 4) cd) m) None /\
    List.length zs = (blocks * 4)%nat /\ forall p, (p < blocks * 4)%nat -> lane_steps 0 (products_at xs ys pa pb K p) (nth p zs 0).
Proof.
  intros Na Nb A B Hd Ld L.
  assert (RP : forall p, (p < blocks * 4)%nat -> Forall (fun q => in_range F32 (fst q) /\ in_range F32 (snd q)) (products_at xs ys pa pb K p)).
  { intros p Hp. apply Forall_forall. intros q Hq. apply in_map_iff in Hq as (k & <- & Hk). apply in_seq in Hk. cbn [fst snd].
    destruct (L (p / 4)%nat k ltac:(apply Nat.div_lt_upper_bound; lia) ltac:(lia)) as [L1 L2].
    pose proof (Nat.mod_upper_bound p 4 ltac:(lia)).
    split; apply nth_in_range; [apply (proj2 A)|exact L1|apply (proj2 B)|lia]. }
  set (F := fun p => chain c 0 (products_at xs ys pa pb K p)). exists (build (blocks * 4) F). split; [|split].
  - unfold products_program.
    rewrite (steps_run c F32 4 d blocks ltac:(lia) (fun j => j) F (fun m => array_at m a F32 xs /\ array_at m b F32 ys)) with (cd := cd);
      trivial; [| | |now split].
    + intros m' cells blk [A1 B1] H. split; now apply (array_stable _ _ _ _ blk).
    + intros j; apply straight_onto.
    + intros q m' cells next Hq [A1 B1] H Lc.
      rewrite (call_one _ _ _ _ _ _ (vdup_exact vdupq_n_f32 F32 4 c m' 0 ltac:(cbn; tauto) in_f32_0)). rewrite repeat_build.
      rewrite (mla_steps_run c m' a b xs ys); trivial; [|intros; apply in_f32_0|intros j Hj; apply L; trivial; lia].
      assert (E : build 4 (fun l => chain c 0 (pairs_from xs ys (pa q) (pb q) l 0 K)) = build 4 (fun l => F (q * 4 + l)%nat)).
      { unfold build. apply map_ext_in. intros l Hl. apply in_seq in Hl. unfold F, products_at, pairs_from.
        replace ((q * 4 + l) / 4)%nat with q by (symmetry; rewrite Nat.add_comm, Nat.div_add by lia; rewrite Nat.div_small by lia; reflexivity).
        replace ((q * 4 + l) mod 4)%nat with l by (symmetry; rewrite Nat.add_comm, Nat.mod_add by lia; apply Nat.mod_small; lia).
        reflexivity. }
      rewrite E. cbn [value]. apply store_step; [cbn; tauto|exact H|exact (step_in q blocks 4 _ Hq Lc)|].
      apply build_lanes. intros i Hi. apply chain_steps; [apply in_f32_0|apply RP; lia].
  - unfold build. now rewrite map_length, seq_length.
  - intros p Hp. rewrite nth_build by exact Hp. apply chain_steps; [apply in_f32_0|now apply RP].
Qed.

Lemma steps_right l r : lane_steps 0 l r -> right_sum l r.
Proof. intros H F. split; [now apply lane_steps_accurate|now apply lane_steps_integers]. Qed.

Theorem matmul_right c m a b d M N K xs ys cd : a <> d -> b <> d ->
  array_at m a F32 xs -> array_at m b F32 ys -> nth_error m d = Some (F32, cd) ->
  List.length xs = (M * K)%nat -> List.length ys = (K * (4 * N))%nat -> (M * (4 * N) <= List.length cd)%nat ->
  exists zs, execute c m (matmul_program a b d M N K) = Returns (set_block d (F32, map Some zs ++ skipn (M * (4 * N)) cd) m) None /\
    List.length zs = (M * (4 * N))%nat /\
    forall i j, (i < M)%nat -> (j < 4 * N)%nat -> right_sum (row_column xs ys K (4 * N) i j) (nth (i * (4 * N) + j) zs 0).
Proof.
  intros Na Nb A B Hd Lx Ly Ld. unfold matmul_program. assert (EM : (M * N * 4 = M * (4 * N))%nat) by lia. rewrite <- EM in *.
  destruct (products_run c m a b d (fun q k => q / N * K + k)%nat (fun q k => k * (4 * N) + q mod N * 4)%nat (M * N) K xs ys cd)
    as (zs & E & Lz & Hs); trivial.
  - intros q k Hq Hk. assert (N0 : N <> 0%nat) by (intros ->; lia).
    assert (Q : (q / N < M)%nat) by (apply Nat.div_lt_upper_bound; lia). pose proof (Nat.mod_upper_bound q N N0) as Q2.
    rewrite Lx, Ly. pose proof (Nat.mul_le_mono_r (S (q / N)) M K Q). pose proof (Nat.mul_le_mono_r (S k) K (4 * N) Hk).
    cbn [Nat.mul] in H, H0. lia.
  - exists zs. split; [exact E|]. split; [exact Lz|]. intros i j Hi Hj.
    assert (P : (i * (4 * N) + j < M * N * 4)%nat) by (pose proof (Nat.mul_le_mono_r (S i) M (4 * N) Hi); lia).
    specialize (Hs _ P). apply steps_right. replace (row_column xs ys K (4 * N) i j) with
      (products_at xs ys (fun q k => q / N * K + k)%nat (fun q k => k * (4 * N) + q mod N * 4)%nat K (i * (4 * N) + j)); [exact Hs|].
    unfold products_at, row_column. apply map_ext. intros k.
    assert (D4 : ((i * (4 * N) + j) / 4 = j / 4 + i * N)%nat).
    { replace (i * (4 * N) + j)%nat with (j + i * N * 4)%nat by lia. now rewrite Nat.div_add by lia. }
    assert (M4 : ((i * (4 * N) + j) mod 4 = j mod 4)%nat).
    { replace (i * (4 * N) + j)%nat with (j + i * N * 4)%nat by lia. now rewrite Nat.mod_add by lia. }
    assert (J : (j / 4 < N)%nat) by (apply Nat.div_lt_upper_bound; lia).
    rewrite D4, M4, Nat.div_add, Nat.mod_add, (Nat.div_small (j / 4) N), (Nat.mod_small (j / 4) N) by lia. cbn [Nat.add].
    pose proof (Nat.div_mod j 4 ltac:(lia)). f_equal. f_equal. lia.
Qed.

Theorem filter_right c m w b d blocks K ws ys cd : w <> d -> b <> d ->
  array_at m w F32 ws -> array_at m b F32 ys -> nth_error m d = Some (F32, cd) ->
  List.length ws = K -> (blocks * 4 + K <= List.length ys + 1)%nat -> (blocks * 4 <= List.length cd)%nat ->
  exists zs, execute c m (filter_program w b d blocks K) = Returns (set_block d (F32, map Some zs ++ skipn (blocks * 4) cd) m) None /\
    List.length zs = (blocks * 4)%nat /\
    forall i, (i < blocks * 4)%nat -> right_sum (window ws ys K i) (nth i zs 0).
Proof.
  intros Nw Nb A B Hd Lw Ly Ld. unfold filter_program.
  destruct (products_run c m w b d (fun _ k => k) (fun q k => q * 4 + k)%nat blocks K ws ys cd) as (zs & E & Lz & Hs); trivial.
  - intros q k Hq Hk. lia.
  - exists zs. split; [exact E|]. split; [exact Lz|]. intros i Hi. specialize (Hs i Hi). apply steps_right.
    replace (window ws ys K i) with (products_at ws ys (fun _ k => k) (fun q k => q * 4 + k)%nat K i); [exact Hs|].
    unfold products_at, window. apply map_ext. intros k. pose proof (Nat.div_mod i 4 ltac:(lia)). f_equal. f_equal. lia.
Qed.

(** ** Readable bounds *)

Lemma power_bound n : (INR n * part <= / 2)%R -> ((1 + part) ^ n <= 1 + 2 * (INR n * part))%R.
Proof.
  intros H. pose proof part_pos as U. pose proof (pos_INR n) as N0.
  assert (X : forall k, ((1 + part) ^ k * (1 - INR k * part) <= 1)%R).
  { induction k as [|k IH]; [cbn; lra|]. pose proof (power_ge k) as G. cbn [pow]. rewrite S_INR. pose proof (pos_INR k).
    eapply Rle_trans; [|exact IH].
    replace ((1 + part) * (1 + part) ^ k * (1 - (INR k + 1) * part))%R
      with ((1 + part) ^ k * ((1 + part) * (1 - (INR k + 1) * part)))%R by ring.
    apply Rmult_le_compat_l; [lra|]. assert (0 <= (INR k + 1) * (part * part))%R by (apply Rmult_le_pos; [lra|nra]). lra. }
  specialize (X n). set (v := (INR n * part)%R) in *. assert (V0 : (0 <= v)%R) by (unfold v; nra).
  set (g := ((1 + part) ^ n)%R) in *.
  assert (Y : (1 <= (1 - v) * (1 + 2 * v))%R) by nra.
  assert (G0 : (1 <= g)%R) by apply power_ge. nra.
Qed.

Theorem accurate_simple l r : Z.of_nat (S (length l)) <= 8388608 -> accurate l r ->
  (Rabs (fval F32 r - dot l) <= INR (S (length l)) * bpow radix2 (-23) * dot_abs l + INR (length l) * bpow radix2 (-148))%R.
Proof.
  intros L [_ H]. eapply Rle_trans; [exact H|]. pose proof (dot_abs_pos l) as T0. pose proof tiny_pos as E. pose proof part_pos as U.
  assert (P : part = (/ 16777216)%R) by reflexivity.
  assert (I : (INR (S (length l)) <= 8388608)%R).
  { rewrite INR_IZR_INZ. now apply IZR_le. }
  pose proof (pos_INR (length l)) as I0. assert (I1 : INR (S (length l)) = (INR (length l) + 1)%R) by apply S_INR.
  assert (B1 : ((1 + part) ^ S (length l) <= 1 + 2 * (INR (S (length l)) * part))%R) by (apply power_bound; rewrite P; lra).
  assert (B2 : ((1 + part) ^ length l <= 1 + 2 * (INR (length l) * part))%R) by (apply power_bound; rewrite P; lra).
  apply Rplus_le_compat.
  - apply Rmult_le_compat_r; [exact T0|]. replace (bpow radix2 (-23)) with (2 * part)%R; [lra|].
    unfold part. change (-23) with (1 + -24). rewrite bpow_plus. reflexivity.
  - replace (bpow radix2 (-148)) with (4 * tiny)%R by (unfold tiny; change (-148) with (2 + -150); rewrite bpow_plus; reflexivity).
    rewrite mult_INR. change (INR 2) with 2%R. assert (X : ((1 + part) ^ length l <= 2)%R) by (rewrite P in *; lra).
    assert (0 <= 2 * INR (length l) * tiny)%R by (apply Rmult_le_pos; lra). nra.
Qed.
