(** Loops split over threads that are interleaved statement by statement. *)
From Coq Require Import ZArith String List Bool Lia.
From Verif Require Import Types Syntax Interp ProgRecip Library Spec Tables MetaSpec ExecLemmas Ew Client Micro.
From Verif Require Import P_Valid2 P_Meta2 P_Det P_Client P_Kernels P_Threads P_Parallel P_Micro P_Micro2 P_Micro3 P_Race.
Import ListNotations.
Open Scope Z_scope.

Definition binary_table := vadd_table ++ vsub_table ++ vmul_table ++ vqadd_table ++ vqsub_table ++ vmax_table ++ vmax_u_table ++ vmin_table ++ vmin_u_table ++
  vand_table ++ vorr_table ++ veor_table ++ [(vcgtq_u8, U8, 16%nat)] ++ vaddl_table ++ vsubl_table ++ vmull_table.

Lemma binary_in f t n : In (f, t, n) binary_table -> In f library.
Proof. apply found_in. vm_compute. reflexivity. Qed.

Lemma binary_sig f t n : In (f, t, n) binary_table -> map snd (f_params f) = [tvec t n; tvec t n] /\ is_store f = false.
Proof.
  intros H.
  assert (E : map (fun p => (map snd (f_params (fst (fst p))), is_store (fst (fst p)))) binary_table = map (fun p => ([tvec (snd (fst p)) (snd p); tvec (snd (fst p)) (snd p)], false)) binary_table)
    by (vm_compute; reflexivity).
  assert (K : forall l, map (fun p : func * sty * nat => (map snd (f_params (fst (fst p))), is_store (fst (fst p)))) l = map (fun p => ([tvec (snd (fst p)) (snd p); tvec (snd (fst p)) (snd p)], false)) l ->
    In (f, t, n) l -> (map snd (f_params f), is_store f) = ([tvec t n; tvec t n], false)).
  { induction l as [|p l IH]; intros El Hl; [destruct Hl|]. cbn [map] in El. injection El as E1 E2 E3. destruct Hl as [->|Hl]; [cbn in E1, E2; congruence|now apply IH]. }
  specialize (K _ E H). now injection K.
Qed.

Lemma pointwise2_binary c f t u n g : pointwise2 c f t u n g -> In (f, t, n) binary_table.
Proof.
  unfold binary_table. intros H. rewrite !in_app_iff. destruct H; try (rewrite in_app_iff in H); intuition.
Qed.

Lemma binary_valid op t n m x y : In (op, t, n) binary_table -> lanes t n x -> lanes t n y -> valid_args m op [vec t x; vec t y].
Proof.
  intros H Hx Hy. destruct (binary_sig op t n H) as [S _]. unfold valid_args. destruct (f_params op) as [|[x0 t0] [|[x1 t1] [|? ?]]]; try discriminate.
  cbn in S. injection S as -> ->. constructor; [|constructor; [|constructor]].
  - destruct (vec_typed m t n x Hx) as [T I]. split; [exact T|]. split; [exact I|exact Logic.I].
  - destruct (vec_typed m t n y Hy) as [T I]. split; [exact T|]. split; [exact I|exact Logic.I].
Qed.

Lemma zip_loop_confined ld st op t u n g c a b d (A W : nat -> Z -> Prop) : In (ld, t, n) vld1_table -> In (st, u, n) vst1_table ->
  pointwise2 c op t u n g ->
  forall k j (m : memory) ca cb cd xs ys ra rb, nth_error m a = Some (t, ca) -> nth_error m b = Some (t, cb) -> nth_error m d = Some (u, cd) ->
  skipn j ca = map Some xs ++ ra -> skipn j cb = map Some ys ++ rb -> Forall (in_range t) xs -> Forall (in_range t) ys ->
  List.length xs = (k * n)%nat -> List.length ys = (k * n)%nat -> (j + k * n <= List.length cd)%nat ->
  (forall e, Z.of_nat j <= e < Z.of_nat (j + k * n) -> A a e /\ A b e /\ A d e /\ W d e) ->
  confined c A W m (zip_loop ld op st t u n a b d j k).
Proof.
  intros Hld Hst Hop k. pose proof (pointwise2_computes c op t u n g Hop) as Hc.
  pose proof (vld1_sig ld t n Hld) as Sl. unfold sig in Sl. injection Sl as _ Sl2 Sl3.
  pose proof (vst1_sig st u n Hst) as Ss. unfold sig in Ss. injection Ss as _ Ss2 Ss3.
  pose proof (pointwise2_binary _ _ _ _ _ _ Hop) as Hb2. destruct (binary_sig op t n Hb2) as [_ So].
  pose proof (vld1_in ld t n Hld) as Il. pose proof (vst1_in st u n Hst) as Is. pose proof (binary_in op t n Hb2) as Io.
  induction k as [|k IH]; intros j m ca cb cd xs ys ra rb Ha Hb Hd Ea Eb Fa Fb Lx Ly Ld HA; [exact Logic.I|].
  cbn [Nat.mul] in Lx, Ly, Ld, HA. destruct (chunk ca j n _ xs _ (vld1_pos _ _ _ Hld) Ea Lx) as (Ca & La & Nx).
  destruct (chunk cb j n _ ys _ (vld1_pos _ _ _ Hld) Eb Ly) as (Cb & Lb & Ny).
  pose proof (P_Client.lanes_firstn t n _ xs Fa Lx) as Hx. pose proof (P_Client.lanes_firstn t n _ ys Fb Ly) as Hy. destruct (Hc m _ _ Hx Hy) as [Hr R].
  assert (Ljd : (j + n <= List.length cd)%nat) by lia.
  cbn [zip_loop confined]. split; [exact Il|]. split; [now apply vst4_store|]. split; [exact (load_valid ld t n m a ca j _ Hld Ha La Ca)|].
  split.
  { intros b0 i (s & off & [Ein|[]] & Hi). injection Ein as <- <- <-. rewrite Sl3 in Hi. split; [apply HA; lia|]. rewrite Sl2. discriminate. }
  intros m1 v Rl. rewrite (load_at ld t n c m a ca j _ Hld Ha La Ca Hx) in Rl. injection Rl as <- <-. cbn [value].
  split; [exact Il|]. split; [now apply vst4_store|]. split; [exact (load_valid ld t n m b cb j _ Hld Hb Lb Cb)|].
  split.
  { intros b0 i (s & off & [Ein|[]] & Hi). injection Ein as <- <- <-. rewrite Sl3 in Hi. split; [apply HA; lia|]. rewrite Sl2. discriminate. }
  intros m1 v Rl. rewrite (load_at ld t n c m b cb j _ Hld Hb Lb Cb Hy) in Rl. injection Rl as <- <-. cbn [value].
  split; [exact Io|]. split; [now apply vst4_store|]. split; [exact (binary_valid op t n m _ _ Hb2 Hx Hy)|].
  split.
  { intros b0 i (s & off & [Ein|[Ein|[]]] & Hi); discriminate Ein. }
  intros m1 v Ro. rewrite R in Ro. injection Ro as <- <-. cbn [value].
  split; [exact Is|]. split; [destruct (not_vst4 st) as [K|K]; [right; eauto|exact K|congruence]|].
  split; [exact (store_valid st u n m d cd j _ Hst Hd Ljd Hr)|].
  split.
  { intros b0 i (s & off & [Ein|[Ein|[]]] & Hi); [|discriminate Ein]. injection Ein as <- <- <-. rewrite Ss3 in Hi.
    destruct (HA i ltac:(lia)) as (_ & _ & HAd & HW). auto. }
  intros m1 v Rs. rewrite (store_at st u n c m d cd j _ Hst Hd Ljd Hr) in Rs. injection Rs as <- <-.
  set (r := map2 g (firstn n xs) (firstn n ys)) in *. destruct Hr as [Lr Fr].
  destruct (after_store m a d t u ca cd j n r xs _ Ha Hd Lr Ljd Nx Ea) as (ca' & Ha' & Ea').
  destruct (after_store m b d t u cb cd j n r ys _ Hb Hd Lr Ljd Ny Eb) as (cb' & Hb' & Eb').
  apply (IH (j + n)%nat _ ca' cb' (firstn j cd ++ map Some r ++ skipn (j + n) cd) (skipn n xs) (skipn n ys) ra rb Ha' Hb').
  - apply (set_block_same _ _ _ _ Hd).
  - exact Ea'.
  - exact Eb'.
  - now apply Forall_skipn.
  - now apply Forall_skipn.
  - rewrite skipn_length. lia.
  - rewrite skipn_length. lia.
  - rewrite (after_length cd j n) by assumption. lia.
  - intros e He. apply HA. lia.
Qed.

(** ** Strips in general *)

Section Strips.
  Variables (c : cfg) (m : memory) (n d : nat) (src : nat -> Prop) (res : Z -> Z) (strips : list (nat * nat)) (prog : nat * nat -> program).
  Let A i b e := exists s, nth_error strips i = Some s /\ strip n s e /\ (src b \/ b = d).
  Let W i b e := exists s, nth_error strips i = Some s /\ strip n s e /\ b = d.
  Let ps := map prog strips.

  Hypothesis Wm : well_typed m.
  Hypothesis Hconf : forall i s, nth_error strips i = Some s -> confined c (A i) (W i) m (prog s).
  Hypothesis Hdis : forall i i' s s' e, i <> i' -> nth_error strips i = Some s -> nth_error strips i' = Some s' -> ~ (strip n s e /\ strip n s' e).
  Hypothesis Hrun : forall s, In s strips -> exists ms, execute c m (prog s) = Returns ms None /\ forall e, strip n s e -> element ms d e = Some (Some (res e)).

  Definition done (M : memory) : Prop :=
    same_blocks m M /\
    (forall s e, In s strips -> strip n s e -> element M d e = Some (Some (res e))) /\
    (forall b e, b <> d \/ (forall s, In s strips -> ~ strip n s e) -> element M b e = element m b e).

  Lemma s_nth i p : nth_error ps i = Some p -> exists s, nth_error strips i = Some s /\ p = prog s.
  Proof. unfold ps. rewrite nth_error_map. destruct (nth_error strips i) as [s|]; [|discriminate]. intros [= <-]. eauto. Qed.

  Lemma s_conf i p : nth_error ps i = Some p -> confined c (A i) (W i) m p.
  Proof. intros H. apply s_nth in H as (s & Hs & ->). now apply Hconf. Qed.
  Lemma s_dis i j b e : i <> j -> W i b e -> ~ A j b e.
  Proof. intros N (s & Hs & He & _) (s' & Hs' & He' & _). exact (Hdis i j s s' e N Hs Hs' (conj He He')). Qed.
  Lemma s_wa i b e : W i b e -> A i b e /\ (i < List.length ps)%nat.
  Proof.
    intros (s & Hs & He & ->). split; [exists s; auto|]. unfold ps. rewrite map_length. apply nth_error_Some. congruence.
  Qed.
  Lemma s_alone i p : nth_error ps i = Some p -> exists mi, execute c m p = Returns mi None.
  Proof. intros H. apply s_nth in H as (s & Hs & ->). destruct (Hrun s (nth_error_In _ _ Hs)) as (ms & R & _). eauto. Qed.

  Lemma strips_coarse M qs : steps c (m, ps) (M, qs) ->
    (forall q, In q qs -> q <> Finish -> exists M' qs', step c (M, qs) (M', qs')) /\ (finished qs -> done M).
  Proof.
    intros H. split.
    - intros q Hq Nq. destruct (threads_progress c m ps A W Wm s_conf s_dis s_alone M qs q H Hq Nq) as (q1 & q2 & f & args & next & M1 & v & _ & _ & _ & St). eauto.
    - intros F. destruct (threads_result c m ps A W Wm s_conf s_dis s_alone M qs H F) as (_ & B & Fr & Res). split; [exact B|]. split.
      + intros s e Hs He. destruct (Hrun s Hs) as (ms & R & E). apply In_nth_error in Hs as (i & Hs).
        assert (Hp : nth_error ps i = Some (prog s)) by (unfold ps; rewrite nth_error_map, Hs; reflexivity).
        rewrite (Res i _ _ Hp R d e); [now apply E|]. exists s. auto.
      + intros b e Hn. apply Fr. intros i (s & Hs & He & ->). destruct Hn as [Hn|Hn]; [congruence|]. exact (Hn s (nth_error_In _ _ Hs) He).
  Qed.

  Lemma strips_fine M ts : fine_steps c (m, map Between ps) (M, ts) ->
    (forall th, In th ts -> th <> Between Finish -> exists M' ts', fine_step c (M, ts) (M', ts')) /\
    Acc (fun s' s => fine_step c s s') (M, ts) /\
    (forall i j th th', i <> j -> nth_error ts i = Some th -> nth_error ts j = Some th' -> ~ race c M th th') /\
    (over ts -> done M).
  Proof.
    intros H. split; [|split; [|split]].
    - intros th Hth Nth. destruct (fine_progress c m ps A W Wm s_conf s_dis s_alone M ts th H Hth Nth) as (t1 & t2 & M' & th' & _ & _ & St). eauto.
    - exact (fine_ends c m ps A W Wm s_conf s_dis s_alone (M, ts) H).
    - exact (no_race c m ps A W Wm s_conf s_dis s_alone M ts H).
    - intros O. destruct (fine_coarse c m ps A W Wm s_conf s_dis s_wa s_alone M ts H O) as (qs & S & F). exact (proj2 (strips_coarse M qs S) F).
  Qed.
End Strips.

(** ** The result of one strip *)

Lemma segment t (xs : list Z) n j k : Forall (in_range t) xs -> (j + k * n <= List.length xs)%nat ->
  skipn j (map Some xs) = map Some (firstn (k * n) (skipn j xs)) ++ map Some (skipn (k * n) (skipn j xs)) /\
  Forall (in_range t) (firstn (k * n) (skipn j xs)) /\ List.length (firstn (k * n) (skipn j xs)) = (k * n)%nat.
Proof.
  intros Fx L. rewrite skipn_map, <- map_app, firstn_skipn. split; [reflexivity|]. split.
  - apply (Forall_skipn _ j) in Fx. rewrite <- (firstn_skipn (k * n) (skipn j xs)) in Fx. now apply Forall_app in Fx.
  - rewrite firstn_length, skipn_length. lia.
Qed.

Lemma stored_element (m : memory) d (u : sty) cd j len r e : nth_error m d = Some (u, cd) -> List.length r = len -> (j + len <= List.length cd)%nat ->
  Z.of_nat j <= e < Z.of_nat (j + len) ->
  element (set_block d (u, firstn j cd ++ map Some r ++ skipn (j + len) cd) m) d e = Some (Some (nth (Z.to_nat e - j) r 0)).
Proof.
  intros Hd Lr L He. unfold element. rewrite (set_block_same _ _ _ _ Hd). destruct (e <? 0) eqn:K; [apply Z.ltb_lt in K; lia|].
  assert (Lj : List.length (firstn j cd) = j) by (rewrite firstn_length; lia).
  rewrite nth_error_app2 by lia. rewrite Lj. rewrite nth_error_app1 by (rewrite map_length; lia).
  rewrite nth_error_map. rewrite (nth_error_nth' _ 0) by lia. reflexivity.
Qed.

Lemma nth_segment (xs : list Z) n j k i : (j + k * n <= List.length xs)%nat -> (j <= i < j + k * n)%nat ->
  nth (i - j) (firstn (k * n) (skipn j xs)) 0 = nth i xs 0.
Proof.
  intros L Hi. rewrite nth_firstn by lia. rewrite <- (firstn_skipn j xs) at 2. rewrite app_nth2; rewrite firstn_length_le by lia; [|lia]. f_equal.
Qed.

Lemma nth_map2 (g : Z -> Z -> Z) xs : forall ys i, (i < List.length xs)%nat -> List.length ys = List.length xs ->
  nth i (map2 g xs ys) 0 = g (nth i xs 0) (nth i ys 0).
Proof.
  induction xs as [|x xs IH]; intros [|y ys] i L Ly; cbn in *; try lia. destruct i; [reflexivity|]. apply IH; lia.
Qed.

Lemma map2_length (g : Z -> Z -> Z) xs : forall ys, List.length ys = List.length xs -> List.length (map2 g xs ys) = List.length xs.
Proof. induction xs as [|x xs IH]; intros [|y ys] L; cbn in *; try lia. f_equal. apply IH. lia. Qed.

(** ** The two loops *)

Definition map_strip ld op st t u n a d (s : nat * nat) := map_loop ld op st t u n a d (fst s) (snd s).
Definition zip_strip ld op st t u n a b d (s : nat * nat) := zip_loop ld op st t u n a b d (fst s) (snd s).

Section Map.
  Variables (c : cfg) (ld st op : func) (t u : sty) (n : nat) (g : Z -> Z) (m : memory) (a d : nat) (xs : list Z) (cd : list (option Z)) (strips : list (nat * nat)).
  Hypothesis Hld : In (ld, t, n) vld1_table.
  Hypothesis Hst : In (st, u, n) vst1_table.
  Hypothesis Hop : pointwise1 c op t u n g.
  Hypothesis Ha : array_at m a t xs.
  Hypothesis Hd : nth_error m d = Some (u, cd).
  Hypothesis Lcd : List.length cd = List.length xs.
  Hypothesis Hin : forall i j k, nth_error strips i = Some (j, k) -> (j + k * n <= List.length xs)%nat.

  Lemma map_conf i s : nth_error strips i = Some s ->
    confined c (fun b e => exists s, nth_error strips i = Some s /\ strip n s e /\ (b = a \/ b = d)) (fun b e => exists s, nth_error strips i = Some s /\ strip n s e /\ b = d)
      m (map_strip ld op st t u n a d s).
  Proof.
    intros Hs. destruct s as [j k]. destruct Ha as [Ha' Fx]. destruct (segment t xs n j k Fx (Hin i j k Hs)) as (S1 & S2 & S3).
    apply (map_loop_confined ld st op t u n g c a d _ _ Hld Hst Hop k j m (map Some xs) cd _ _ Ha' Hd S1 S2 S3).
    - rewrite Lcd. exact (Hin i j k Hs).
    - intros e He. repeat split; exists (j, k); auto.
  Qed.

  Lemma map_result s : In s strips -> exists ms, execute c m (map_strip ld op st t u n a d s) = Returns ms None /\
    forall e, strip n s e -> element ms d e = Some (Some (g (nth (Z.to_nat e) xs 0))).
  Proof.
    intros H. apply In_nth_error in H as (i & Hs). destruct s as [j k]. destruct Ha as [Ha' Fx]. pose proof (Hin i j k Hs) as L.
    destruct (segment t xs n j k Fx L) as (S1 & S2 & S3). unfold map_strip. cbn [fst snd].
    rewrite (map_loop_run ld st op t u n g c a d Hld Hst (pointwise1_computes _ _ _ _ _ _ Hop) k j m (map Some xs) cd _ _ Ha' Hd S1 S2 S3) by (rewrite Lcd; exact L).
    eexists. split; [reflexivity|]. intros e He. unfold strip in He. cbn [fst snd] in He.
    rewrite (stored_element m d u cd j (k * n)) by (rewrite ?map_length; trivial; lia).
    rewrite (nth_indep _ 0 (g 0)) by (rewrite map_length; lia). rewrite map_nth. rewrite nth_segment by lia. reflexivity.
  Qed.
End Map.

Section Zip.
  Variables (c : cfg) (ld st op : func) (t u : sty) (n : nat) (g : Z -> Z -> Z) (m : memory) (a b d : nat) (xs ys : list Z) (cd : list (option Z)) (strips : list (nat * nat)).
  Hypothesis Hld : In (ld, t, n) vld1_table.
  Hypothesis Hst : In (st, u, n) vst1_table.
  Hypothesis Hop : pointwise2 c op t u n g.
  Hypothesis Ha : array_at m a t xs.
  Hypothesis Hb : array_at m b t ys.
  Hypothesis Lys : List.length ys = List.length xs.
  Hypothesis Hd : nth_error m d = Some (u, cd).
  Hypothesis Lcd : List.length cd = List.length xs.
  Hypothesis Hin : forall i j k, nth_error strips i = Some (j, k) -> (j + k * n <= List.length xs)%nat.

  Lemma zip_conf i s : nth_error strips i = Some s ->
    confined c (fun b' e => exists s, nth_error strips i = Some s /\ strip n s e /\ ((b' = a \/ b' = b) \/ b' = d)) (fun b e => exists s, nth_error strips i = Some s /\ strip n s e /\ b = d)
      m (zip_strip ld op st t u n a b d s).
  Proof.
    intros Hs. destruct s as [j k]. destruct Ha as [Ha' Fx]. destruct Hb as [Hb' Fy]. pose proof (Hin i j k Hs) as L.
    destruct (segment t xs n j k Fx L) as (S1 & S2 & S3). destruct (segment t ys n j k Fy) as (T1 & T2 & T3); [lia|].
    apply (zip_loop_confined ld st op t u n g c a b d _ _ Hld Hst Hop k j m (map Some xs) (map Some ys) cd _ _ _ _ Ha' Hb' Hd S1 T1 S2 T2 S3 T3).
    - rewrite Lcd. exact L.
    - intros e He. repeat split; exists (j, k); auto.
  Qed.

  Lemma zip_result s : In s strips -> exists ms, execute c m (zip_strip ld op st t u n a b d s) = Returns ms None /\
    forall e, strip n s e -> element ms d e = Some (Some (g (nth (Z.to_nat e) xs 0) (nth (Z.to_nat e) ys 0))).
  Proof.
    intros H. apply In_nth_error in H as (i & Hs). destruct s as [j k]. destruct Ha as [Ha' Fx]. destruct Hb as [Hb' Fy]. pose proof (Hin i j k Hs) as L.
    destruct (segment t xs n j k Fx L) as (S1 & S2 & S3). destruct (segment t ys n j k Fy) as (T1 & T2 & T3); [lia|]. unfold zip_strip. cbn [fst snd].
    rewrite (zip_loop_run ld st op t u n g c a b d Hld Hst (pointwise2_computes _ _ _ _ _ _ Hop) k j m (map Some xs) (map Some ys) cd _ _ _ _ Ha' Hb' Hd S1 T1 S2 T2 S3 T3) by (rewrite Lcd; exact L).
    eexists. split; [reflexivity|]. intros e He. unfold strip in He. cbn [fst snd] in He.
    rewrite (stored_element m d u cd j (k * n)) by (rewrite ?map2_length; trivial; lia).
    rewrite nth_map2 by lia. rewrite !nth_segment by lia. reflexivity.
  Qed.
End Zip.
