(** What happens when blocks are moved in a wrong order, and when a block is done twice. *)
From Coq Require Import ZArith Arith String List Bool Lia.
From Verif Require Import Types Syntax Interp ProgRecip Library Spec Tables MetaSpec ExecLemmas Ew Client Transpose Pixels Overlap.
From Verif Require Import P_Laws P_Client P_Kernels P_Transpose P_Transpose2 P_Pixels P_Overlap.
Import ListNotations.
Open Scope Z_scope.

Lemma moved_length g src dst len xs cd : (src + len <= List.length xs)%nat -> (dst + len <= List.length cd)%nat ->
  List.length (moved g src dst len xs cd) = List.length cd.
Proof. intros Lx Ld. unfold moved. rewrite !app_length, !map_length, !firstn_length, !skipn_length. lia. Qed.

Lemma moved_nth g src dst len xs cd p : (src + len <= List.length xs)%nat -> (dst + len <= List.length cd)%nat ->
  nth p (moved g src dst len xs cd) None
  = if ((dst <=? p) && (p <? dst + len))%nat then Some (g (nth (src + (p - dst)) xs 0)) else nth p cd None.
Proof.
  intros Lx Ld. set (v := map g (firstn len (skipn src xs))).
  assert (Lv : List.length v = len) by (unfold v; rewrite map_length, firstn_length, skipn_length; lia).
  change (moved g src dst len xs cd) with (overwrite (len) cd dst v). rewrite overwrite_nth by (trivial; lia).
  destruct (Nat.leb_spec dst p) as [G|G]; cbn [andb]; [|reflexivity]. destruct (Nat.ltb_spec p (dst + len)) as [G2|G2]; [|reflexivity].
  f_equal. unfold v. rewrite build_firstn_skipn by exact Lx. rewrite map_build, nth_build by lia. reflexivity.
Qed.

Lemma move_app c ld st t u K a src d dst js1 js2 : forall m m1,
  execute c m (move_blocks ld st t u K a src d dst js1) = Returns m1 None ->
  execute c m (move_blocks ld st t u K a src d dst (js1 ++ js2)) = execute c m1 (move_blocks ld st t u K a src d dst js2).
Proof.
  induction js1 as [|j js1 IH]; intros m m1 H.
  - cbn in H. injection H as ->. reflexivity.
  - cbn [app]. rewrite move_blocks_cons in H |- *. cbn [execute] in H |- *. destruct (run c m ld [at_ t a (src + j)]) as [m2 r| |k| |]; try discriminate H.
    destruct K as [|op|op w]; unfold one_block, put_block in H |- *; cbn [execute] in H |- *.
    + destruct (run c m2 st _) as [m3 r3| |k| |]; try discriminate H. now apply IH.
    + destruct (run c m2 op _) as [m3 r3| |k| |]; try discriminate H. destruct (run c m3 st _) as [m4 r4| |k| |]; try discriminate H. now apply IH.
    + destruct (run c m2 op _) as [m3 r3| |k| |]; try discriminate H. destruct (run c m3 st _) as [m4 r4| |k| |]; try discriminate H. now apply IH.
Qed.

Lemma move_shift ld st t u K a src d dst j : move_blocks ld st t u K a src d dst [j] = move_blocks ld st t u K a (src + j) d (dst + j) (forward 0 1).
Proof. cbn [move_blocks forward map seq Nat.mul]. now rewrite !Nat.add_0_r. Qed.

Lemma single_run c ld st t u n K g a src d dst m xs cd j : In (ld, t, n) vld1_table -> In (st, u, n) vst1_table -> acts c K t u n g ->
  array_at m a t xs -> nth_error m d = Some (u, cd) -> (src + j + n <= List.length xs)%nat -> (dst + j + n <= List.length cd)%nat ->
  execute c m (move_blocks ld st t u K a src d dst [j]) = Returns (set_block d (u, moved g (src + j) (dst + j) n xs cd) m) None.
Proof.
  intros H1 H2 Hg Ha Hd Lx Ld. rewrite move_shift. change (forward 0 1) with (forward n 1).
  pose proof (vld1_pos _ _ _ H1) as P. pose proof (forward_covers n 1 P) as C. rewrite Nat.mul_1_l in C.
  apply (schedule_run c ld st t u n K g a (src + j) d (dst + j) m xs cd n); trivial. right.
  intros pre i post i' E Hi. destruct (split_seq _ _ _ _ _ _ E Hi) as (x & x' & B & _). lia.
Qed.

(** ** In place *)

Lemma acts_range c K t u n g x : (0 < n)%nat -> acts c K t u n g -> in_range t x -> in_range u (g x).
Proof.
  intros P Hg R. pose proof (one_block_run c K t u n g [] (repeat x n) (fun _ => Finish) Hg (repeat_lanes t n _ R)) as [[_ F] _].
  rewrite Forall_forall in F. apply F. apply in_map_iff. exists x. split; [reflexivity|]. destruct n as [|n']; [lia|]. now left.
Qed.

Lemma nth_some xs i : (i < List.length xs)%nat -> nth i (map (@Some Z) xs) None = Some (nth i xs 0).
Proof. intros H. rewrite (nth_indep _ None (Some 0)) by (rewrite map_length; exact H). apply map_nth. Qed.

Lemma in_place_run c ld st t n K g a src m xs len : In (ld, t, n) vld1_table -> In (st, t, n) vst1_table -> acts c K t t n g ->
  array_at m a t xs -> (n <= len)%nat -> (src + len <= List.length xs)%nat ->
  execute c m (move_blocks ld st t t K a src a src (with_tail n len)) = Returns (set_block a (t, map Some (done_twice g n src len xs)) m) None.
Proof.
  intros H1 H2 Hg Ha Hn Lx. pose proof (vld1_pos _ _ _ H1) as P. set (k := (len / n)%nat).
  pose proof (Nat.div_mod len n ltac:(lia)) as D. pose proof (Nat.mod_upper_bound len n ltac:(lia)) as U. fold k in D.
  assert (Lk : (k * n <= len)%nat) by nia.
  set (xs1 := build (List.length xs) (fun i => if ((src <=? i) && (i <? src + k * n))%nat then g (nth i xs 0) else nth i xs 0)).
  assert (L1 : List.length xs1 = List.length xs) by (unfold xs1; apply build_length).
  assert (E1 : moved g src src (k * n) xs (map Some xs) = map Some xs1).
  { apply (nth_ext _ _ None None); [rewrite moved_length; rewrite ?map_length; lia|]. rewrite moved_length by (rewrite ?map_length; lia). rewrite map_length.
    intros p Hp. rewrite moved_nth by (rewrite ?map_length; lia). rewrite !nth_some by lia. unfold xs1. rewrite nth_build by lia.
    destruct (Nat.leb_spec src p) as [G|G]; cbn [andb]; [|reflexivity]. destruct (p <? src + k * n)%nat; [|reflexivity].
    do 3 f_equal. lia. }
  assert (F1 : Forall (in_range t) xs1).
  { unfold xs1. apply build_lanes. intros i Hi. assert (R : in_range t (nth i xs 0)) by (apply nth_in_range; [exact (proj2 Ha)|exact Hi]).
    destruct (_ && _); [|exact R]. now apply (acts_range c K t t n g). }
  unfold with_tail. fold k. rewrite (move_app c ld st t t K a src a src (forward n k) [(len - n)%nat] m _
    (forward_run c ld st t t n K g a src a src m xs (map Some xs) k H1 H2 Hg Ha (proj1 Ha) (or_intror (or_introl (le_n _)))
      ltac:(lia) ltac:(rewrite map_length; lia))). rewrite E1.
  assert (Ha1 : array_at (set_block a (t, map Some xs1) m) a t xs1) by (split; [exact (set_block_same m a _ _ (proj1 Ha))|exact F1]).
  rewrite (single_run c ld st t t n K g a src a src _ xs1 (map Some xs1) (len - n) H1 H2 Hg Ha1 (proj1 Ha1)) by (rewrite ?map_length; lia).
  rewrite (set_block_twice _ _ _ _ _ (proj1 Ha)). do 3 f_equal.
  apply (nth_ext _ _ None None); [rewrite moved_length; rewrite ?map_length; unfold done_twice; rewrite ?build_length; lia|].
  rewrite moved_length by (rewrite ?map_length; lia). rewrite map_length. intros p Hp. rewrite moved_nth by (rewrite ?map_length; lia).
  assert (LD : (p < List.length (done_twice g n src len xs))%nat) by (unfold done_twice; rewrite build_length; lia).
  rewrite (nth_some (done_twice g n src len xs)) by exact LD. rewrite (nth_some xs1) by exact Hp.
  unfold done_twice, xs1. rewrite !nth_build by lia. fold k. cbv zeta.
  destruct (Nat.leb_spec (src + (len - n)) p) as [G1|G1]; cbn [andb]; [destruct (Nat.ltb_spec p (src + (len - n) + n)) as [G2|G2]|].
  - replace (src + (len - n) + (p - (src + (len - n))))%nat with p by lia.
    rewrite (proj2 (Nat.leb_le src p)) by lia. rewrite (proj2 (Nat.ltb_ge p src)) by lia. rewrite (proj2 (Nat.leb_gt (src + len) p)) by lia.
    cbn [andb orb]. now destruct (p <? src + k * n)%nat.
  - rewrite (proj2 (Nat.leb_le (src + len) p)) by lia. rewrite (proj2 (Nat.ltb_ge p (src + k * n))) by lia. now rewrite orb_true_r, andb_false_r.
  - rewrite (proj2 (Nat.leb_gt (src + len) p)) by lia. rewrite orb_false_r. destruct (Nat.ltb_spec p src) as [G3|G3].
    + now rewrite (proj2 (Nat.leb_gt src p)) by lia.
    + rewrite (proj2 (Nat.leb_le src p)) by lia. rewrite (proj2 (Nat.ltb_lt p (src + k * n))) by nia. reflexivity.
Qed.

(** ** Wrong orders *)

Lemma zero_in_range ld t n : In (ld, t, n) vld1_table -> in_range t 0.
Proof.
  intros H. revert ld t n H. assert (K : forall p, In p vld1_table -> in_range (snd (fst p)) 0); [|intros f t n H; exact (K _ H)].
  apply Forall_forall. repeat (constructor; [unfold in_range; cbn; lia|]). constructor.
Qed.
Lemma one_in_range ld t n : In (ld, t, n) vld1_table -> in_range t 1.
Proof.
  intros H. revert ld t n H. assert (K : forall p, In p vld1_table -> in_range (snd (fst p)) 1); [|intros f t n H; exact (K _ H)].
  apply Forall_forall. repeat (constructor; [unfold in_range; cbn; lia|]). constructor.
Qed.

(** A copy all of whose blocks read zeros writes zeros. *)
Lemma zeros_run c ld st t n a src dst m N js : In (ld, t, n) vld1_table -> In (st, t, n) vst1_table -> array_at m a t (repeat 0 N) ->
  Forall (fun j => (src + j + n <= N /\ dst + j + n <= N)%nat) js ->
  execute c m (move_blocks ld st t t Copy a src a dst js) = Returns (set_block a (t, map Some (repeat 0 N)) m) None.
Proof.
  intros H1 H2 Ha F. pose proof (zero_in_range _ _ _ H1) as Z0. pose proof (proj1 Ha) as Hd.
  assert (Nz : forall i, nth i (repeat 0 N) 0 = 0) by (intros i; apply nth_repeat).
  destruct (move_from c ld st t t n Copy (fun x => x) a src a dst m (repeat 0 N) (map Some (repeat 0 N)) H1 H2 (acts_copy c t n) Ha Hd js)
    with (pre := @nil nat) (post := js) (cells := map (@Some Z) (repeat 0 N)) as (cells & A & E).
  - right. split; [reflexivity|]. intros. rewrite !Nz. now split.
  - rewrite map_length, repeat_length. exact F.
  - reflexivity.
  - split; [reflexivity|]. intros p. cbn [hits existsb]. now rewrite andb_false_r.
  - rewrite <- (split_block m a _ Hd) in E. rewrite E. do 3 f_equal. destruct A as [L Pc]. apply (nth_ext _ _ None None); [exact L|].
    intros p Hp. rewrite L, map_length, repeat_length in Hp. rewrite Pc, Nz, nth_some by (rewrite repeat_length; exact Hp). rewrite Nz. now destruct (_ && _).
Qed.

Definition unit_at (N e : nat) : list Z := build N (fun i => if (i =? e)%nat then 1 else 0).

(** If the first block overwrites an element that a later block should have copied, then a copy goes wrong for some contents. *)
Lemma clobber c ld st t n a src dst m blk N len j0 js e : In (ld, t, n) vld1_table -> In (st, t, n) vst1_table -> src <> dst ->
  nth_error m a = Some blk -> covers n len (j0 :: js) -> (src + len <= N)%nat -> (dst + len <= N)%nat ->
  (dst + j0 <= e < dst + j0 + n)%nat -> (e < src + j0 \/ src + j0 + n <= e)%nat -> (src <= e < src + len)%nat ->
  exists xs, List.length xs = N /\ Forall (in_range t) xs /\
    execute c (set_block a (t, map Some xs) m) (move_blocks ld st t t Copy a src a dst (j0 :: js))
    <> Returns (set_block a (t, moved (fun x => x) src dst len xs (map Some xs)) m) None.
Proof.
  intros H1 H2 Hne Hb Hc Ls Ld He1 He2 He3. pose proof (vld1_pos _ _ _ H1) as P. exists (unit_at N e).
  pose proof (zero_in_range _ _ _ H1) as Z0. pose proof (one_in_range _ _ _ H1) as Z1.
  assert (LN : List.length (unit_at N e) = N) by apply build_length.
  assert (FN : Forall (in_range t) (unit_at N e)) by (unfold unit_at; apply build_lanes; intros i _; now destruct (i =? e)%nat).
  split; [exact LN|]. split; [exact FN|]. set (m0 := set_block a (t, map Some (unit_at N e)) m).
  assert (B0 : (j0 + n <= len)%nat) by (apply (covers_in n len (j0 :: js)); [exact P|exact Hc|now left]).
  assert (Ha0 : array_at m0 a t (unit_at N e)) by (split; [exact (set_block_same m a _ _ Hb)|exact FN]).
  change (j0 :: js) with ([j0] ++ js).
  rewrite (move_app c ld st t t Copy a src a dst [j0] js m0 _
    (single_run c ld st t t n Copy (fun x => x) a src a dst m0 _ _ j0 H1 H2 (acts_copy c t n) Ha0 (proj1 Ha0)
      ltac:(rewrite LN; lia) ltac:(rewrite map_length, LN; lia))).
  unfold m0 at 1. rewrite (set_block_twice _ _ _ _ _ Hb).
  assert (E : moved (fun x => x) (src + j0) (dst + j0) n (unit_at N e) (map Some (unit_at N e)) = map Some (repeat 0 N)).
  { apply (nth_ext _ _ None None); [rewrite moved_length; rewrite ?map_length, ?repeat_length, ?LN; lia|].
    rewrite moved_length by (rewrite ?map_length, ?LN; lia). rewrite map_length, LN. intros p Hp.
    rewrite moved_nth by (rewrite ?map_length, ?LN; lia). rewrite !nth_some by (rewrite ?LN, ?repeat_length; lia). rewrite nth_repeat.
    destruct (Nat.leb_spec (dst + j0) p) as [G|G]; cbn [andb]; [destruct (Nat.ltb_spec p (dst + j0 + n)) as [G2|G2]|];
      f_equal; unfold unit_at; rewrite nth_build by lia; (rewrite (proj2 (Nat.eqb_neq _ _)) by lia); reflexivity. }
  rewrite E. set (m1 := set_block a (t, map Some (repeat 0 N)) m).
  assert (Ha1 : array_at m1 a t (repeat 0 N)).
  { split; [exact (set_block_same m a _ _ Hb)|]. apply Forall_forall. intros z Hz. apply repeat_spec in Hz. now subst z. }
  rewrite (zeros_run c ld st t n a src dst m1 N js H1 H2 Ha1).
  2:{ apply Forall_forall. intros j Hj. assert (Bj : (j + n <= len)%nat) by (apply (covers_in n len (j0 :: js)); [exact P|exact Hc|now right]). lia. }
  unfold m1. rewrite (set_block_twice _ _ _ _ _ Hb). intros W. injection W as W.
  apply (f_equal (fun mm => nth_error mm a)) in W. rewrite !(set_block_same m a _ _ Hb) in W. injection W as W.
  apply (f_equal (fun l => nth (dst + (e - src)) l None)) in W. rewrite moved_nth in W by (rewrite ?map_length, ?LN; lia).
  rewrite nth_some in W by (rewrite repeat_length; lia). rewrite nth_repeat in W.
  rewrite (proj2 (Nat.leb_le _ _)) in W by lia. rewrite (proj2 (Nat.ltb_lt _ _)) in W by lia. cbn [andb] in W.
  replace (src + (dst + (e - src) - dst))%nat with e in W by lia. unfold unit_at in W. rewrite nth_build in W by lia.
  rewrite Nat.eqb_refl in W. discriminate W.
Qed.

Lemma forward_clobbers c ld st t n a src dst m blk N k : In (ld, t, n) vld1_table -> In (st, t, n) vst1_table -> nth_error m a = Some blk ->
  (2 <= k)%nat -> (src < dst < src + k * n)%nat -> (dst + k * n <= N)%nat ->
  exists xs, List.length xs = N /\ Forall (in_range t) xs /\
    execute c (set_block a (t, map Some xs) m) (move_blocks ld st t t Copy a src a dst (forward n k))
    <> Returns (set_block a (t, moved (fun x => x) src dst (k * n) xs (map Some xs)) m) None.
Proof.
  intros H1 H2 Hb Hk Hd LN. pose proof (vld1_pos _ _ _ H1) as P. pose proof (forward_covers n k P) as C.
  destruct k as [|k']; [lia|]. unfold forward in *. cbn [seq map] in *.
  apply (clobber c ld st t n a src dst m blk N (S k' * n) (0 * n) _ (Nat.max dst (src + n))); trivial; try lia; nia.
Qed.

Lemma backward_clobbers c ld st t n a src dst m blk N k : In (ld, t, n) vld1_table -> In (st, t, n) vst1_table -> nth_error m a = Some blk ->
  (2 <= k)%nat -> (dst < src < dst + k * n)%nat -> (src + k * n <= N)%nat ->
  exists xs, List.length xs = N /\ Forall (in_range t) xs /\
    execute c (set_block a (t, map Some xs) m) (move_blocks ld st t t Copy a src a dst (backward n k))
    <> Returns (set_block a (t, moved (fun x => x) src dst (k * n) xs (map Some xs)) m) None.
Proof.
  intros H1 H2 Hb Hk Hd LN. pose proof (vld1_pos _ _ _ H1) as P. pose proof (backward_covers n k P) as C.
  destruct k as [|k']; [lia|]. unfold backward in *. cbn [seq map] in *. replace (S k' - 1 - 0)%nat with k' in * by lia.
  apply (clobber c ld st t n a src dst m blk N (S k' * n) (k' * n) _ (Nat.max src (dst + k' * n))); trivial; try lia; nia.
Qed.
