(** Programs with several arrays of results or none. *)
From Coq Require Import ZArith Arith String List Bool Lia.
From Verif Require Import Types Syntax Interp ProgRecip Library Spec Tables MetaSpec ExecLemmas Ew Client Transpose Pixels.
From Verif Require Import P_AddSub P_SubMore P_Mul P_Mem P_Perm P_AddHigh P_Laws P_Laws2 P_Client P_Kernels P_Transpose P_Transpose2 P_Pixels.
Import ListNotations.
Open Scope Z_scope.

(** ** Merging channels *)

Lemma nth_interleave w N vs p : (0 < w)%nat -> List.length vs = w -> (p < w * N)%nat ->
  nth p (interleave N vs) 0 = nth (p / w) (nth (p mod w) vs []) 0.
Proof.
  intros Pw L. revert p. assert (G : forall l s p, (p < w * l)%nat ->
    nth p (flat_map (fun i => map (fun v => nth i v 0) vs) (seq s l)) 0 = nth (s + p / w) (nth (p mod w) vs []) 0).
  { induction l as [|l IH]; intros s p Hp; [lia|]. cbn [seq flat_map].
    destruct (Nat.lt_ge_cases p w) as [H|H].
    - rewrite app_nth1 by (rewrite map_length; lia). rewrite Nat.div_small, Nat.mod_small, Nat.add_0_r by exact H.
      rewrite (nth_indep _ 0 (nth s ([] : list Z) 0)) by (rewrite map_length; lia). now rewrite (map_nth (fun v => nth s v 0)).
    - rewrite app_nth2; rewrite map_length, L; [|exact H]. rewrite IH by lia.
      replace p with (p - w + 1 * w)%nat at 3 4 by lia. rewrite Nat.div_add, Nat.mod_add by lia. f_equal. lia. }
  intros p Hp. exact (G N 0%nat p Hp).
Qed.

Lemma interleaved_length w N vs : List.length vs = w -> List.length (interleave N vs) = (w * N)%nat.
Proof.
  intros L. unfold interleave. generalize 0%nat. induction N as [|N IH]; intros s; cbn [seq flat_map]; [cbn; lia|].
  rewrite app_length, map_length, L, IH. lia.
Qed.

Lemma vst_pos w f t n : In (f, t, n) (vst_table w) -> (0 < n)%nat /\ (0 < w)%nat.
Proof.
  intros H. destruct w as [|[|[|[|[|w]]]]]; try contradiction; cbn in H;
  repeat (destruct H as [H|H]; [injection H as <- <- <-; lia|]); contradiction.
Qed.

Lemma merge_run c w ld st t n ss d k m zss cd : In (ld, t, n) vld1_table -> In (st, t, n) (vst_table w) ->
  List.length ss = w -> ~ In d ss -> List.length zss = w ->
  (forall i, (i < w)%nat -> array_at m (nth i ss O) t (nth i zss []) /\ List.length (nth i zss []) = (k * n)%nat) ->
  nth_error m d = Some (t, cd) -> (k * (w * n) <= List.length cd)%nat ->
  execute c m (merge_program ld st t w n ss d k)
  = Returns (set_block d (t, map Some (interleave (k * n) zss) ++ skipn (k * (w * n)) cd) m) None.
Proof.
  intros Hl Hs Ls Nd Lz Hz Hd Ld. unfold merge_program. destruct (vst_pos w st t n Hs) as [Pn Pw].
  assert (Pwn : (0 < w * n)%nat) by (apply Nat.mul_pos_pos; assumption).
  assert (EL : (w * (k * n) = k * (w * n))%nat) by ring.
  rewrite (steps_run c t (w * n) d k Pwn (fun j => j) (fun p => nth p (interleave (k * n) zss) 0)
    (fun m => forall i, (i < w)%nat -> array_at m (nth i ss O) t (nth i zss []))) with (cd := cd); trivial.
  - cbn [execute]. do 4 f_equal. f_equal. apply build_nth. rewrite (interleaved_length w) by exact Lz. exact EL.
  - intros m' cells blk A B i Hi. apply (array_stable _ _ _ _ blk); trivial; [|now apply A].
    intros E. apply Nd. rewrite <- E. apply nth_In. now rewrite Ls.
  - intros j; apply straight_onto.
  - intros j m' cells next Hj A B L.
    set (V i := build n (fun q => nth (j * n + q) (nth i zss []) 0)).
    assert (RV : forall i, (i < w)%nat -> run c m' ld [at_ t (nth i ss O) (j * n)] = Returns m' (Some (vec t (V i))) /\ lanes t n (V i)).
    { intros i Hi. apply (load_array ld t n c m'); [exact Hl|now apply A|]. rewrite (proj2 (Hz i Hi)). now apply (step_in j k n). }
    rewrite (call_all_pure c m' (fun _ : nat => ld) (fun i => [at_ t (nth i ss O) (j * n)]) (fun i => vec t (V i))).
    2:{ intros i Hi. apply in_seq in Hi. apply RV. lia. }
    replace (OArr (map (fun i => vec t (V i)) (seq 0 w))) with (vecs t (map V (seq 0 w))) by (unfold vecs; now rewrite map_map).
    cbn [execute]. unfold at_.
    rewrite (storek_at w st t n c m' d cells (j * (w * n)) (map V (seq 0 w)) Hs B (step_in j k (w * n) _ Hj L)).
    2:{ split; [now rewrite map_length, seq_length|]. apply Forall_forall. intros v Hv. apply in_map_iff in Hv as (i & <- & Hi). apply in_seq in Hi. apply RV. lia. }
    do 3 f_equal. unfold overwrite. do 2 f_equal. f_equal. f_equal.
    assert (LV : List.length (map V (seq 0 w)) = w) by now rewrite map_length, seq_length.
    rewrite <- (build_nth (interleave n (map V (seq 0 w))) (w * n) (interleaved_length w n _ LV)). apply build_ext. intros q Hq.
    pose proof (Nat.mul_le_mono_r (S j) k (w * n) Hj) as Lj. pose proof (Nat.mod_upper_bound q w ltac:(lia)) as Hm.
    assert (Hqd : (q / w < n)%nat) by (apply Nat.div_lt_upper_bound; lia).
    rewrite (nth_interleave w n _ q Pw LV Hq). rewrite (nth_interleave w (k * n) _ (j * (w * n) + q) Pw Lz) by lia.
    replace (j * (w * n) + q)%nat with (q + j * n * w)%nat by ring. rewrite Nat.div_add, Nat.mod_add by lia.
    rewrite (nth_indep _ [] (V 0%nat)) by (rewrite LV; exact Hm). rewrite map_nth, seq_nth by exact Hm. cbn [Nat.add].
    unfold V. rewrite nth_build by exact Hqd. f_equal. lia.
  - intros i Hi. now apply Hz.
Qed.

(** ** Splitting channels *)

Section Split.
Context (c : cfg) (w : nat) (ld st : func) (t : sty) (n : nat) (Hl : In (ld, t, n) (vld_table w)) (Hs : In (st, t, n) vst1_table).
Context (a : nat) (ds : list nat) (k : nat) (zs : list Z) (m0 : memory) (cds : list (list (option Z))).
Context (Lds : List.length ds = w) (Nds : NoDup ds) (Na : ~ In a ds) (Lzs : List.length zs = (k * (w * n))%nat).
Context (Ha0 : array_at m0 a t zs) (Hds : forall i, (i < w)%nat -> nth_error m0 (nth i ds O) = Some (t, nth i cds [])
  /\ (k * n <= List.length (nth i cds []))%nat).

Definition channel (i : nat) : list Z := build (k * n) (fun l => nth (w * l + i) zs 0).
Definition partly (j i : nat) : list (option Z) := map Some (firstn (j * n) (channel i)) ++ skipn (j * n) (nth i cds []).

(** The first [lev i] vectors of channel [i] have been stored. *)
Definition split_state (lev : nat -> nat) (m : memory) : Prop := List.length m = List.length m0 /\
  (forall i, (i < w)%nat -> nth_error m (nth i ds O) = Some (t, partly (lev i) i)) /\
  (forall b, ~ In b ds -> nth_error m b = nth_error m0 b).

Lemma set_block_length (m : memory) b blk x : nth_error m b = Some x -> List.length (set_block b blk m) = List.length m.
Proof.
  intros H. apply nth_lt in H. unfold set_block. unfold memory, block in *. rewrite app_length. cbn [List.length].
  rewrite firstn_length, skipn_length. lia.
Qed.

Lemma partly_length j i : (i < w)%nat -> (j <= k)%nat -> List.length (partly j i) = List.length (nth i cds []).
Proof.
  intros Hi Hj. destruct (Hds i Hi) as [_ L]. pose proof (Nat.mul_le_mono_r j k n Hj). unfold partly, channel, build.
  rewrite app_length, map_length, firstn_length, map_length, seq_length, skipn_length. lia.
Qed.

Lemma partly_step j i : (i < w)%nat -> (j < k)%nat ->
  overwrite n (partly j i) (j * n) (build n (fun q => nth (w * (j * n + q) + i) zs 0)) = partly (S j) i.
Proof.
  intros Hi Hj. destruct (Hds i Hi) as [_ L]. pose proof (Nat.mul_le_mono_r (S j) k n Hj) as Lj.
  assert (Lch : List.length (channel i) = (k * n)%nat) by (unfold channel, build; now rewrite map_length, seq_length).
  unfold overwrite, partly.
  assert (L1 : List.length (map Some (firstn (j * n) (channel i))) = (j * n)%nat) by (rewrite map_length, firstn_length; lia).
  rewrite firstn_app, L1, Nat.sub_diag. cbn [firstn]. rewrite app_nil_r, (firstn_all2 (map Some (firstn (j * n) (channel i)))) by lia.
  rewrite skipn_app, L1. replace (j * n + n - j * n)%nat with n by lia.
  rewrite (skipn_all2 (map Some (firstn (j * n) (channel i)))) by lia. cbn [app]. rewrite skipn_skipn.
  rewrite app_assoc, <- map_app. replace (S j * n)%nat with (j * n + n)%nat by lia. f_equal. f_equal.
  rewrite <- (firstn_skipn (j * n) (firstn (j * n + n) (channel i))). rewrite firstn_firstn, Nat.min_l by lia. f_equal.
  rewrite skipn_firstn_comm. replace (j * n + n - j * n)%nat with n by lia. rewrite build_firstn_skipn by lia.
  apply build_ext. intros q Hq. unfold channel. rewrite nth_build by lia. reflexivity.
Qed.

Lemma split_store lev m j i next : split_state lev m -> (i < w)%nat -> (j < k)%nat -> lev i = j ->
  (forall q, (q < n)%nat -> in_range t (nth (w * (j * n + q) + i) zs 0)) ->
  exists m', split_state (fun i' => if (i' =? i)%nat then S j else lev i') m' /\
    execute c m (Call st [at_ t (nth i ds O) (j * n); vec t (build n (fun q => nth (w * (j * n + q) + i) zs 0))] next) = execute c m' (next None).
Proof.
  intros (Lm & Hm & Ho) Hi Hj El R. specialize (Hm i Hi) as Hmi. rewrite El in Hmi.
  exists (set_block (nth i ds O) (t, partly (S j) i) m). split.
  - split; [now rewrite (set_block_length _ _ _ _ Hmi)|]. split.
    + intros i' Hi'. destruct (Nat.eqb_spec i' i) as [->|E]; [apply (set_block_same _ _ _ _ Hmi)|].
      rewrite set_block_other by (try (now apply nth_lt in Hmi); intros E2; apply E; apply (proj1 (NoDup_nth ds O) Nds); lia). now apply Hm.
    + intros b Hb. rewrite set_block_other; [now apply Ho|now apply nth_lt in Hmi|]. intros E. apply Hb. rewrite E. apply nth_In. lia.
  - cbn [execute]. unfold at_. rewrite (store_at st t n c m _ _ (j * n) _ Hs Hmi).
    + fold (overwrite n (partly j i) (j * n) (build n (fun q => nth (w * (j * n + q) + i) zs 0))). now rewrite partly_step.
    + rewrite partly_length by lia. destruct (Hds i Hi) as [_ L]. now apply (step_in j k n).
    + apply build_lanes_range. exact R.
Qed.

Lemma split_stores j next : (j < k)%nat -> (forall i q, (i < w)%nat -> (q < n)%nat -> in_range t (nth (w * (j * n + q) + i) zs 0)) ->
  forall l s m lev, (s + l = w)%nat -> split_state lev m -> (forall i, (s <= i)%nat -> lev i = j) -> (forall i, (i < s)%nat -> lev i = S j) ->
  exists m', split_state (fun _ => S j) m' /\
    execute c m (call_all (map (fun i => (st, [at_ t (nth i ds O) (j * n); vec t (build n (fun q => nth (w * (j * n + q) + i) zs 0))])) (seq s l)) (fun _ => next))
    = execute c m' next.
Proof.
  intros Hj R. induction l as [|l IH]; intros s m lev Hsl S H1 H2.
  - exists m. split; [|reflexivity]. destruct S as (A & B & C). split; [exact A|]. split; [|exact C]. intros i Hi. rewrite <- (H2 i) by lia. now apply B.
  - cbn [seq map call_all].
    destruct (split_store lev m j s (fun v => call_all (map (fun i => (st, [at_ t (nth i ds O) (j * n); vec t (build n (fun q => nth (w * (j * n + q) + i) zs 0))])) (seq (Datatypes.S s) l)) (fun _ => next)) S ltac:(lia) Hj (H1 s (Nat.le_refl s)) ltac:(intros; apply R; lia)) as (m1 & S1 & E1).
    destruct (IH (Datatypes.S s) m1 _ ltac:(lia) S1) as (m2 & S2 & E2).
    + intros i Hi. destruct (Nat.eqb_spec i s); [lia|]. apply H1. lia.
    + intros i Hi. destruct (Nat.eqb_spec i s); [reflexivity|]. apply H2. lia.
    + exists m2. split; [exact S2|]. etransitivity; [exact E1|exact E2].
Qed.

Lemma split_steps : forall todo j m, (j + todo = k)%nat -> split_state (fun _ => j) m ->
  exists m', split_state (fun _ => k) m' /\
    execute c m (steps_from (fun j next =>
      Call ld [at_ t a (j * (w * n))] (fun x =>
      call_all (map (fun i => (st, [at_ t (nth i ds O) (j * n); component i (value x)])) (seq 0 w)) (fun _ => next))) j todo Finish) = Returns m' None.
Proof.
  destruct (vld_pos w ld t n Hl) as [Pn Pw].
  induction todo as [|todo IH]; intros j m Hj S.
  - exists m. rewrite Nat.add_0_r in Hj. subst j. split; [exact S|reflexivity].
  - cbn [steps_from]. assert (Hjk : (j < k)%nat) by lia. pose proof (Nat.mul_le_mono_r (Datatypes.S j) k (w * n) Hjk) as Lj.
    destruct S as (Lm & Hm & Ho). assert (Ha : nth_error m a = Some (t, map Some zs)) by (rewrite (Ho a Na); apply Ha0).
    assert (F := proj2 Ha0).
    assert (Rz : lanes t (w * n) (firstn (w * n) (skipn (j * (w * n)) zs))) by (apply firstn_array; [exact F|lia]).
    rewrite (call_one _ _ _ _ _ _ (loadk_at w ld t n c m a (map Some zs) (j * (w * n)) (firstn (w * n) (skipn (j * (w * n)) zs)) Hl Ha
      ltac:(rewrite map_length; lia) ltac:(now rewrite skipn_map, firstn_map) (proj1 Rz) (proj2 Rz))).
    cbn [value].
    rewrite (map_ext_in _ (fun i => (st, [at_ t (nth i ds O) (j * n); vec t (build n (fun q => nth (w * (j * n + q) + i) zs 0))]))).
    2:{ intros i Hi. apply in_seq in Hi. apply (f_equal (fun l => (st, at_ t (nth i ds O) (j * n) :: l))). cbn [component vecs]. change (OArr []) with (vec t []). rewrite (map_nth (vec t)).
        rewrite nth_deinterleave by lia. apply (f_equal (fun v => [vec t v])), build_ext. intros q Hq.
        pose proof (Nat.mul_le_mono_l (Datatypes.S q) n w Hq).
        rewrite nth_firstn by lia. rewrite <- (firstn_skipn (j * (w * n)) zs) at 2. rewrite app_nth2; rewrite firstn_length_le by lia; [|lia].
        f_equal. lia. }
    destruct (split_stores j (steps_from (fun j next =>
      Call ld [at_ t a (j * (w * n))] (fun x =>
      call_all (map (fun i => (st, [at_ t (nth i ds O) (j * n); component i (value x)])) (seq 0 w)) (fun _ => next))) (Datatypes.S j) todo Finish) Hjk) with (l := w) (s := 0%nat) (m := m) (lev := fun _ : nat => j) as (m1 & S1 & E1).
    + intros i q Hi Hq. apply nth_in_range; [exact F|]. pose proof (Nat.mul_le_mono_l (Datatypes.S q) n w Hq). lia.
    + reflexivity.
    + now split.
    + reflexivity.
    + intros i Hi. lia.
    + destruct (IH (Datatypes.S j) m1 ltac:(lia) S1) as (m2 & S2 & E2). exists m2. split; [exact S2|]. etransitivity; [exact E1|exact E2].
Qed.

Lemma split_run : exists m', execute c m0 (split_program ld st t w n a ds k) = Returns m' None /\ List.length m' = List.length m0 /\
  (forall i, (i < w)%nat -> nth_error m' (nth i ds O) = Some (t, map Some (build (k * n) (fun l => nth (w * l + i) zs 0)) ++ skipn (k * n) (nth i cds []))) /\
  (forall b, ~ In b ds -> nth_error m' b = nth_error m0 b).
Proof.
  destruct (split_steps k 0 m0 eq_refl) as (m' & (L & H & O) & E).
  - split; [reflexivity|]. split; [|reflexivity]. intros i Hi. exact (proj1 (Hds i Hi)).
  - exists m'. split; [exact E|]. split; [exact L|]. split; [|exact O]. intros i Hi. rewrite (H i Hi). unfold partly. do 4 f_equal.
    fold (channel i). apply firstn_all2. unfold channel, build. rewrite map_length, seq_length. lia.
Qed.
End Split.

(** ** Dot product *)

Lemma sum_app l l' : sum (l ++ l') = sum l + sum l'.
Proof. induction l as [|x l IH]; cbn [app sum fold_right]; [reflexivity|]. unfold sum in *. rewrite IH. lia. Qed.

Lemma sum_build_S n f : sum (build (S n) f) = sum (build n f) + f n.
Proof. unfold build. rewrite seq_S, map_app, sum_app. cbn. lia. Qed.

Section Dot.
Context (c : cfg) (a b : nat) (xs ys : list Z) (m : memory) (Ha : array_at m a U8 xs) (Hb : array_at m b U8 ys).

Definition term (i : nat) : Z := nth i xs 0 * nth i ys 0.
Definition part (q k : nat) : Z := sum (build k (fun s => term (s * 8 + 2 * q) + term (s * 8 + 2 * q + 1))).

Lemma term_range i : 0 <= term i <= 65025.
Proof.
  assert (Bx : 0 <= nth i xs 0 <= 255) by (apply (nth_array_range U8); [apply Ha|apply byte; lia]).
  assert (By : 0 <= nth i ys 0 <= 255) by (apply (nth_array_range U8); [apply Hb|apply byte; lia]). unfold term. nia.
Qed.
Lemma part_pos q k : 0 <= part q k.
Proof. induction k as [|k IH]; unfold part in *; [cbn; lia|]. rewrite sum_build_S. pose proof (term_range (k * 8 + 2 * q)). pose proof (term_range (k * 8 + 2 * q + 1)). lia. Qed.

Lemma parts_sum k : part 0 k + part 1 k + part 2 k + part 3 k = sum (build (k * 8) term).
Proof.
  induction k as [|k IH]; [reflexivity|]. unfold part in *. rewrite !sum_build_S.
  replace (S k * 8)%nat with (S (S (S (S (S (S (S (S (k * 8))))))))) by lia. rewrite !sum_build_S. rewrite <- IH.
  replace (k * 8 + 2 * 0 + 1)%nat with (S (k * 8)) by lia.
  replace (k * 8 + 2 * 1 + 1)%nat with (S (S (S (k * 8)))) by lia.
  replace (k * 8 + 2 * 2 + 1)%nat with (S (S (S (S (S (k * 8)))))) by lia.
  replace (k * 8 + 2 * 3 + 1)%nat with (S (S (S (S (S (S (S (k * 8)))))))) by lia.
  replace (k * 8 + 2 * 0)%nat with (k * 8)%nat by lia.
  replace (k * 8 + 2 * 1)%nat with (S (S (k * 8))) by lia.
  replace (k * 8 + 2 * 2)%nat with (S (S (S (S (k * 8))))) by lia.
  replace (k * 8 + 2 * 3)%nat with (S (S (S (S (S (S (k * 8))))))) by lia.
  lia.
Qed.

Lemma wrap_u32 z : wrap U32 z = z mod 2 ^ 32.
Proof. unfold wrap. cbn [lo modulus]. change (2 ^ 32) with 4294967296. rewrite Z.sub_0_r, Z.add_0_r. reflexivity. Qed.

Lemma dot_loop_run next : forall todo j, ((j + todo) * 8 <= List.length xs)%nat -> ((j + todo) * 8 <= List.length ys)%nat ->
  execute c m (dot_loop a b j todo (vec U32 (build 4 (fun q => wrap U32 (part q j)))) next)
  = execute c m (next (vec U32 (build 4 (fun q => wrap U32 (part q (j + todo)))))).
Proof.
  induction todo as [|todo IH]; intros j Lx Ly; [now rewrite Nat.add_0_r|]. cbn [dot_loop].
  destruct (load_array vld1_u8 U8 8 c m a xs (j * 8) ltac:(cbn; tauto) Ha ltac:(lia)) as [E1 R1].
  destruct (load_array vld1_u8 U8 8 c m b ys (j * 8) ltac:(cbn; tauto) Hb ltac:(lia)) as [E2 R2].
  rewrite (call_one _ _ _ _ _ _ E1), (call_one _ _ _ _ _ _ E2). cbn [value].
  rewrite (call_one _ _ _ _ _ _ (vmull_exact vmull_u8 U8 8 ltac:(cbn; tauto) c m _ _ R1 R2 (or_introl eq_refl))). cbn [value wide]. rewrite map2_builds.
  assert (R3 : lanes U16 8 (build 8 (fun i => term (j * 8 + i)))) by (apply build_lanes_range; intros i Hi; apply half; pose proof (term_range (j * 8 + i)); lia).
  assert (E3 : run c m vpaddlq_u16 [vec U16 (build 8 (fun i => term (j * 8 + i)))]
    = Returns m (Some (vec U32 (build 4 (fun q => term (j * 8 + 2 * q) + term (j * 8 + 2 * q + 1)))))).
  { rewrite (vpaddl_exact vpaddlq_u16 U16 4 c m _ ltac:(cbn; tauto) R3). cbn [wide]. apply (f_equal (fun v => Returns m (Some (vec U32 v)))).
    apply build_ext. intros q Hq. rewrite !nth_build by lia. now rewrite Nat.add_assoc. }
  etransitivity; [exact (call_one _ _ _ _ _ _ E3)|]. cbn [value].
  assert (R4 : lanes U32 4 (build 4 (fun q => term (j * 8 + 2 * q) + term (j * 8 + 2 * q + 1)))).
  { apply build_lanes_range. intros q Hq. pose proof (term_range (j * 8 + 2 * q)). pose proof (term_range (j * 8 + 2 * q + 1)). unfold in_range. cbn [lo hi]. lia. }
  assert (R5 : lanes U32 4 (build 4 (fun q => wrap U32 (part q j)))) by (apply build_lanes_range; intros q Hq; apply wrap_range).
  rewrite (call_one _ _ _ _ (vec U32 (build 4 (fun q => wrap U32 (part q (S j)))))).
  - cbn [value]. replace (j + S todo)%nat with (S j + todo)%nat by lia. apply IH; lia.
  - rewrite (vadd_wraps vaddq_u32 U32 4 ltac:(cbn; tauto) c m _ _ R5 R4 (or_introl (or_intror (or_introl eq_refl)))). rewrite map2_builds. do 3 f_equal. apply build_ext. intros q Hq.
    rewrite !wrap_u32, Zplus_mod_idemp_l. unfold part. now rewrite sum_build_S.
Qed.

Lemma dot_run k next : (k * 8 <= List.length xs)%nat -> (k * 8 <= List.length ys)%nat ->
  exists ls, lanes U32 4 ls /\ execute c m (dot_program a b k next) = execute c m (next (map (rv U32) ls)) /\
    sum ls mod 2 ^ 32 = dot k xs ys mod 2 ^ 32 /\ (dot k xs ys < 2 ^ 32 -> sum ls = dot k xs ys).
Proof.
  intros Lx Ly. set (ls := build 4 (fun q => wrap U32 (part q k))).
  assert (R : lanes U32 4 ls) by (apply build_lanes_range; intros q Hq; apply wrap_range).
  assert (Sum : sum ls = wrap U32 (part 0 k) + wrap U32 (part 1 k) + wrap U32 (part 2 k) + wrap U32 (part 3 k)) by (unfold ls, build, sum; cbn [seq map fold_right]; lia).
  assert (D : dot k xs ys = part 0 k + part 1 k + part 2 k + part 3 k) by (symmetry; apply parts_sum).
  exists ls. split; [exact R|]. split; [|split].
  - unfold dot_program. assert (H0 : in_range U32 0) by (unfold in_range; cbn [lo hi]; lia).
    rewrite (call_one _ _ _ _ _ _ (vdup_exact vdupq_n_u32 U32 4 c m 0 ltac:(cbn; tauto) H0)). cbn [value].
    change (repeat 0 4) with (build 4 (fun q => wrap U32 (part q 0))). rewrite dot_loop_run by trivial. cbn [Nat.add]. fold ls.
    rewrite (call_all_pure c m (fun _ : Z => vgetq_lane_u32) (fun l => [vec U32 ls; rv I32 l]) (fun l => rv U32 (nth (Z.to_nat l) ls 0))).
    + reflexivity.
    + intros l Hl. apply (vget_lane_exact vgetq_lane_u32 U32 4 c m ls l); [cbn; tauto|exact R|]. cbn in Hl. destruct Hl as [<-|[<-|[<-|[<-|[]]]]]; cbn; lia.
  - rewrite Sum, D, !wrap_u32. pose proof (part_pos 0 k). 
    rewrite (Z.add_mod (_ + _ + _) (part 3 k mod _)), Z.mod_mod by discriminate. rewrite <- (Z.add_mod _ (part 3 k)) by discriminate.
    rewrite (Z.add_mod (_ + _) (part 3 k)) by discriminate. rewrite (Z.add_mod (_ + _) (part 2 k mod _)), Z.mod_mod by discriminate. rewrite <- (Z.add_mod _ (part 2 k)) by discriminate.
    rewrite <- Z.add_mod by discriminate. rewrite <- !Z.add_assoc. rewrite !Zplus_mod_idemp_l. rewrite (Z.add_comm (part 0 k)).
    rewrite <- !Z.add_assoc, !Zplus_mod_idemp_l. f_equal. lia.
  - intros Hd. rewrite Sum, D. pose proof (part_pos 0 k). pose proof (part_pos 1 k). pose proof (part_pos 2 k). pose proof (part_pos 3 k).
    rewrite D in Hd. rewrite !wrap_u32, !Z.mod_small by lia. reflexivity.
Qed.
End Dot.
