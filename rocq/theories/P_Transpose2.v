(** Whole matrices. *)
From Coq Require Import ZArith Arith String List Bool Lia.
From Verif Require Import Types Syntax Interp ProgRecip Library Spec Tables MetaSpec ExecLemmas Ew Client Transpose.
From Verif Require Import P_Mem P_Laws P_Laws2 P_Client P_Kernels P_Transpose.
Import ListNotations.
Open Scope Z_scope.

(** ** Sequences of calls *)

Lemma call_all_pure c m {A} (F : A -> func) (G : A -> list obj) (V : A -> obj) : forall rs next,
  (forall r, In r rs -> run c m (F r) (G r) = Returns m (Some (V r))) ->
  execute c m (call_all (map (fun r => (F r, G r)) rs) next) = execute c m (next (map V rs)).
Proof.
  induction rs as [|r rs IH]; intros next H; [reflexivity|]. cbn [map call_all].
  rewrite (call_one c m _ _ _ _ (H r (or_introl eq_refl))). cbn [value]. rewrite IH; [reflexivity|]. intros q Hq. apply H. now right.
Qed.

Lemma firstn_array t n xs off : Forall (in_range t) xs -> (off + n <= List.length xs)%nat -> lanes t n (firstn n (skipn off xs)).
Proof.
  intros F L. split; [rewrite firstn_length, skipn_length; lia|]. apply Forall_forall. intros x Hx.
  apply (proj1 (Forall_forall _ _) F). rewrite <- (firstn_skipn off xs). apply in_or_app. right.
  rewrite <- (firstn_skipn n (skipn off xs)). apply in_or_app. now left.
Qed.

Lemma load_rows_run c m ld t n a zs off stride next : In (ld, t, n) vld1_table -> array_at m a t zs ->
  (forall r, (r < n)%nat -> (off + r * stride + n <= List.length zs)%nat) ->
  execute c m (load_rows ld t n a off stride next)
  = execute c m (next (map (vec t) (map (fun r => firstn n (skipn (off + r * stride) zs)) (seq 0 n)))).
Proof.
  intros H [Ha F] L. unfold load_rows.
  rewrite (call_all_pure c m (fun _ : nat => ld) (fun r => [OPtr t a (Z.of_nat (off + r * stride))])
    (fun r => vec t (firstn n (skipn (off + r * stride) zs)))).
  - now rewrite map_map.
  - intros r Hr. apply in_seq in Hr. specialize (L r ltac:(lia)).
    apply (load_at ld t n c m a (map Some zs)); trivial; [now rewrite map_length| |now apply firstn_array].
    now rewrite skipn_map, firstn_map.
Qed.

(** ** Stores *)

Definition overwrite (n : nat) (cells : list (option Z)) (off : nat) (v : list Z) : list (option Z) :=
  firstn off cells ++ map Some v ++ skipn (off + n) cells.

Lemma overwrite_length n cells off v : List.length v = n -> (off + n <= List.length cells)%nat ->
  List.length (overwrite n cells off v) = List.length cells.
Proof. intros Lv L. unfold overwrite. rewrite !app_length, firstn_length, map_length, skipn_length. lia. Qed.

Lemma overwrite_nth n cells off v p : List.length v = n -> (off + n <= List.length cells)%nat ->
  nth p (overwrite n cells off v) None
  = if ((off <=? p) && (p <? off + n))%nat then Some (nth (p - off) v 0) else nth p cells None.
Proof.
  intros Lv L. unfold overwrite. destruct (Nat.leb_spec off p) as [G|G]; cbn [andb].
  - rewrite app_nth2; rewrite firstn_length_le by lia; [|lia]. destruct (Nat.ltb_spec p (off + n)) as [G2|G2].
    + rewrite app_nth1 by (rewrite map_length; lia). rewrite (nth_indep _ None (Some 0)) by (rewrite map_length; lia). apply map_nth.
    + rewrite app_nth2; rewrite map_length; [|lia]. rewrite <- (firstn_skipn (off + n) cells) at 2.
      rewrite app_nth2; rewrite firstn_length_le by lia; [|lia]. f_equal. lia.
  - rewrite app_nth1 by (rewrite firstn_length_le by lia; lia). now apply nth_firstn.
Qed.

Section Stores.
Context (c : cfg) (st : func) (t : sty) (n d : nat) (Hs : In (st, t, n) vst1_table).

Lemma store_rows_run off stride vs next : Forall (lanes t n) vs -> forall rs m cells,
  (forall r, In r rs -> (r < List.length vs)%nat /\ (off + r * stride + n <= List.length cells)%nat) ->
  nth_error m d = Some (t, cells) ->
  execute c m (call_all (map (fun r => (st, [OPtr t d (Z.of_nat (off + r * stride)); item r (map (vec t) vs)])) rs) (fun _ => next))
  = execute c (set_block d (t, fold_left (fun cs r => overwrite n cs (off + r * stride) (nth r vs [])) rs cells) m) next.
Proof.
  intros F. induction rs as [|r rs IH]; intros m cells H Hd.
  - cbn [map call_all fold_left]. now rewrite <- (split_block m d _ Hd).
  - cbn [map call_all execute fold_left]. destruct (H r (or_introl eq_refl)) as [Hr Hl].
    assert (Lr : lanes t n (nth r vs [])) by (apply (proj1 (Forall_forall _ _) F); now apply nth_In).
    replace (item r (map (vec t) vs)) with (vec t (nth r vs [])) by (unfold item; change (OArr []) with (vec t []); symmetry; apply map_nth).
    rewrite (store_at st t n c m d cells _ _ Hs Hd Hl Lr). fold (overwrite n cells (off + r * stride) (nth r vs [])).
    rewrite IH with (cells := overwrite n cells (off + r * stride) (nth r vs [])).
    + now rewrite (set_block_twice _ _ _ _ _ Hd).
    + intros q Hq. rewrite overwrite_length by (trivial; apply Lr). apply H. now right.
    + apply (set_block_same _ _ _ _ Hd).
Qed.
End Stores.

(** ** The arithmetic of blocks *)

Section Blocks.
Context (n h w : nat) (Pn : (0 < n)%nat).
Local Open Scope nat_scope.

(** The store that writes element [p] of the result. *)
Definition store_no (p : nat) : nat := let j := p / (h * n) in let i := p mod (h * n) in n * (i / n * w + j / n) + j mod n.

Lemma block_row k : k < h * w -> k / w < h /\ k mod w < w /\ k = k / w * w + k mod w.
Proof.
  clear Pn n. intros H. assert (w <> 0) by (intros ->; lia). pose proof (Nat.mod_upper_bound k w ltac:(lia)). pose proof (Nat.div_mod k w ltac:(lia)).
  split; [apply Nat.div_lt_upper_bound; lia|]. split; lia.
Qed.

Lemma store_no_spec k r p : k < h * w -> r < n ->
  let off := k mod w * n * (h * n) + k / w * n + r * (h * n) in
  (off <= p /\ p < off + n) <-> (p < w * n * (h * n) /\ store_no p = n * k + r).
Proof.
  intros Hk Hr off. destruct (block_row k Hk) as (Hi & Hj & Ek). set (i := k / w) in *. set (j := k mod w) in *.
  assert (Hn : h * n <> 0) by nia.
  assert (B : i * n + n <= h * n) by (pose proof (Nat.mul_le_mono_r (S i) h n Hi); lia).
  assert (C : j * n + n <= w * n) by (pose proof (Nat.mul_le_mono_r (S j) w n Hj); lia).
  assert (Eo : off = (h * n) * (j * n + r) + i * n) by (unfold off; ring).
  split.
  - intros [H1 H2]. set (q := p - off). assert (Hq : q < n) by (unfold q; lia).
    assert (Ep : p = (h * n) * (j * n + r) + (i * n + q)) by (unfold q; lia).
    assert (D : p / (h * n) = j * n + r) by (symmetry; apply (Nat.div_unique p (h * n) (j * n + r) (i * n + q)); [lia|exact Ep]).
    assert (M : p mod (h * n) = i * n + q) by (symmetry; apply (Nat.mod_unique p (h * n) (j * n + r) (i * n + q)); [lia|exact Ep]).
    split; [pose proof (Nat.mul_le_mono_r (j * n + r + 1) (w * n) (h * n) ltac:(lia)); lia|]. unfold store_no. rewrite D, M.
    rewrite (Nat.add_comm (i * n)), Nat.div_add, (Nat.div_small q) by lia.
    rewrite (Nat.add_comm (j * n)), Nat.div_add, (Nat.div_small r), Nat.mod_add, (Nat.mod_small r) by lia. cbn [Nat.add]. now rewrite <- Ek.
  - intros [H1 H2]. unfold store_no in H2. set (y := p / (h * n)) in *. set (x := p mod (h * n)) in *.
    pose proof (Nat.div_mod p (h * n) Hn) as Ep. fold x y in Ep. pose proof (Nat.mod_upper_bound p (h * n) Hn) as Hx. fold x in Hx.
    assert (Hy : y < w * n) by (apply Nat.div_lt_upper_bound; lia).
    pose proof (Nat.mod_upper_bound y n ltac:(lia)) as Hym. pose proof (Nat.mod_upper_bound x n ltac:(lia)) as Hxm.
    pose proof (Nat.div_mod x n ltac:(lia)) as Ex. pose proof (Nat.div_mod y n ltac:(lia)) as Ey.
    assert (Hyd : y / n < w) by (apply Nat.div_lt_upper_bound; lia).
    set (x1 := x / n) in *. set (y1 := y / n) in *. set (x0 := x mod n) in *. set (y0 := y mod n) in *.
    destruct (Nat.div_mod_unique n (x1 * w + y1) k y0 r Hym Hr H2) as [E1 E2].
    destruct (Nat.div_mod_unique w x1 i y1 j Hyd Hj ltac:(lia)) as [E3 E4].
    rewrite Eo, Ep, Ex, Ey, E2, E3, E4, (Nat.mul_comm n j), (Nat.mul_comm n i). lia.
Qed.

Lemma store_no_bound p : p < w * n * (h * n) -> store_no p < n * (h * w).
Proof.
  intros H. assert (Hn : h * n <> 0) by nia. unfold store_no. set (y := p / (h * n)). set (x := p mod (h * n)).
  assert (Hx : x < h * n) by (apply Nat.mod_upper_bound; lia). assert (Hy : y < w * n) by (apply Nat.div_lt_upper_bound; lia).
  pose proof (Nat.mod_upper_bound y n ltac:(lia)). assert (y / n < w) by (apply Nat.div_lt_upper_bound; lia).
  assert (x / n < h) by (apply Nat.div_lt_upper_bound; lia).
  pose proof (Nat.mul_le_mono_r (S (x / n)) h w ltac:(lia)). pose proof (Nat.mul_le_mono_l (x / n * w + y / n + 1) (h * w) n ltac:(lia)). lia.
Qed.
End Blocks.

(** ** The loop *)

Section Matrix.
Context (c : cfg) (ld st : func) (tr : transposer) (t : sty) (n : nat) (Hl : In (ld, t, n) vld1_table) (Hs : In (st, t, n) vst1_table)
  (Htr : transposes c tr t n) (Pn : (0 < n)%nat).
Context (h w a d : nat) (zs : list Z) (cd : list (option Z)) (Nad : a <> d).
Context (Lz : List.length zs = (h * n * (w * n))%nat) (Fz : Forall (in_range t) zs) (Ld : (h * n * (w * n) <= List.length cd)%nat).

Definition source (p : nat) : Z := nth (p mod (h * n) * (w * n) + p / (h * n)) zs 0.
(** After [K] stores. *)
Definition progress (K : nat) (cells : list (option Z)) : Prop := List.length cells = List.length cd /\
  forall p, nth p cells None = if ((p <? w * n * (h * n)) && (store_no n h w p <? K))%nat then Some (source p) else nth p cd None.

Definition block_rows (k : nat) : list (list Z) :=
  map (fun r => firstn n (skipn (k / w * n * (w * n) + k mod w * n + r * (w * n)) zs)) (seq 0 n).

Lemma block_in k r : (k < h * w)%nat -> (r < n)%nat -> (k / w * n * (w * n) + k mod w * n + r * (w * n) + n <= List.length zs)%nat.
Proof.
  intros Hk Hr. destruct (block_row h w k Hk) as (Hi & Hj & _). rewrite Lz. set (i := (k / w)%nat) in *. set (j := (k mod w)%nat) in *.
  pose proof (Nat.mul_le_mono_r (S i) h n Hi). pose proof (Nat.mul_le_mono_r (S j) w n Hj).
  pose proof (Nat.mul_le_mono_r (i * n + r + 1) (h * n) (w * n) ltac:(lia)). lia.
Qed.

Lemma block_rows_lanes k : (k < h * w)%nat -> List.length (block_rows k) = n /\ Forall (lanes t n) (block_rows k).
Proof.
  intros Hk. unfold block_rows. split; [now rewrite map_length, seq_length|]. apply Forall_forall. intros v Hv.
  apply in_map_iff in Hv as (r & <- & Hr). apply in_seq in Hr. apply firstn_array; [exact Fz|]. apply block_in; [exact Hk|lia].
Qed.

Lemma nth_block k r q : (k < h * w)%nat -> (r < n)%nat -> (q < n)%nat ->
  nth q (nth r (transposed n (block_rows k)) []) 0 = nth (k / w * n * (w * n) + k mod w * n + q * (w * n) + r)%nat zs 0.
Proof.
  intros Hk Hr Hq. unfold transposed. 
  rewrite (nth_indep _ [] (map (fun row => nth 0 row 0) (block_rows k))) by (rewrite map_length, seq_length; lia).
  rewrite (map_nth (fun j => map (fun row => nth j row 0) (block_rows k)) (seq 0 n) 0%nat r), seq_nth by lia. cbn [Nat.add].
  assert (L : (q < List.length (block_rows k))%nat) by (rewrite (proj1 (block_rows_lanes k Hk)); exact Hq).
  rewrite (nth_indep _ 0 (nth r ([] : list Z) 0)) by (rewrite map_length; exact L).
  rewrite (map_nth (fun row => nth r row 0)). unfold block_rows.
  rewrite (nth_indep _ [] (firstn n (skipn (k / w * n * (w * n) + k mod w * n + 0 * (w * n)) zs))) by (rewrite map_length, seq_length; exact Hq).
  rewrite (map_nth (fun r => firstn n (skipn (k / w * n * (w * n) + k mod w * n + r * (w * n)) zs)) (seq 0 n) 0%nat q), seq_nth by exact Hq. cbn [Nat.add].
  rewrite nth_firstn by exact Hr. set (off := (k / w * n * (w * n) + k mod w * n + q * (w * n))%nat).
  pose proof (block_in k q Hk Hq) as B. fold off in B. rewrite <- (firstn_skipn off zs) at 2. rewrite app_nth2; rewrite firstn_length_le by lia; [|lia].
  f_equal. lia.
Qed.

Lemma transposed_lanes k : (k < h * w)%nat -> List.length (transposed n (block_rows k)) = n /\ Forall (lanes t n) (transposed n (block_rows k)).
Proof.
  intros Hk. destruct (block_rows_lanes k Hk) as [L F]. unfold transposed. split; [now rewrite map_length, seq_length|].
  apply Forall_forall. intros v Hv. apply in_map_iff in Hv as (j & <- & Hj). apply in_seq in Hj. split; [now rewrite map_length|].
  apply Forall_forall. intros x Hx. apply in_map_iff in Hx as (row & <- & Hr). destruct (proj1 (Forall_forall _ _) F row Hr) as [Lr Fr].
  apply nth_in_range; [exact Fr|lia].
Qed.

Lemma store_offset_in k r : (k < h * w)%nat -> (r < n)%nat -> (k mod w * n * (h * n) + k / w * n + r * (h * n) + n <= List.length cd)%nat.
Proof.
  intros Hk Hr. destruct (block_row h w k Hk) as (Hi & Hj & _). set (i := (k / w)%nat) in *. set (j := (k mod w)%nat) in *.
  pose proof (Nat.mul_le_mono_r (S i) h n Hi). pose proof (Nat.mul_le_mono_r (S j) w n Hj).
  pose proof (Nat.mul_le_mono_r (j * n + r + 1) (w * n) (h * n) ltac:(lia)). lia.
Qed.

Lemma one_store k r cells : (k < h * w)%nat -> (r < n)%nat -> progress (n * k + r) cells ->
  progress (n * k + S r) (overwrite n cells (k mod w * n * (h * n) + k / w * n + r * (h * n)) (nth r (transposed n (block_rows k)) [])).
Proof.
  intros Hk Hr [L P]. pose proof (store_offset_in k r Hk Hr) as O. destruct (transposed_lanes k Hk) as [Lt Ft].
  assert (Lv : List.length (nth r (transposed n (block_rows k)) []) = n).
  { destruct (proj1 (Forall_forall _ _) Ft (nth r (transposed n (block_rows k)) []) ltac:(apply nth_In; lia)) as [Lv _]. exact Lv. }
  split; [rewrite overwrite_length; trivial; lia|]. intros p. rewrite overwrite_nth by (trivial; lia).
  pose proof (store_no_spec n h w Pn k r p Hk Hr) as SP. cbn zeta in SP.
  set (off := (k mod w * n * (h * n) + k / w * n + r * (h * n))%nat) in *.
  destruct (Nat.leb_spec off p) as [G1|G1]; cbn [andb]; [destruct (Nat.ltb_spec p (off + n)) as [G2|G2]|].
  - destruct (proj1 SP (conj G1 G2)) as [B E]. rewrite (proj2 (Nat.ltb_lt _ _) B), E. rewrite (proj2 (Nat.ltb_lt _ _)) by lia. cbn [andb].
    f_equal. rewrite nth_block by (trivial; lia). unfold source. f_equal.
    destruct (block_row h w k Hk) as (Hi & Hj & _). set (i := (k / w)%nat) in *. set (j := (k mod w)%nat) in *.
    pose proof (Nat.mul_le_mono_r (S i) h n Hi). assert (Hn : (h * n <> 0)%nat) by lia. set (q := (p - off)%nat). assert (Hq : (q < n)%nat) by (unfold q; lia).
    assert (Ep : (p = (h * n) * (j * n + r) + (i * n + q))%nat) by (assert (Eo : off = ((h * n) * (j * n + r) + i * n)%nat) by (unfold off; ring); unfold q; lia).
    rewrite <- (Nat.div_unique p (h * n) (j * n + r) (i * n + q)) by (trivial; lia).
    rewrite <- (Nat.mod_unique p (h * n) (j * n + r) (i * n + q)) by (trivial; lia). ring.
  - rewrite P. replace (store_no n h w p <? n * k + S r)%nat with ((store_no n h w p <? n * k + r)%nat || (store_no n h w p =? n * k + r)%nat).
    + destruct (Nat.ltb_spec p (w * n * (h * n))) as [B|B]; cbn [andb]; [|reflexivity].
      destruct (Nat.eqb_spec (store_no n h w p) (n * k + r)) as [E|E]; [|now rewrite orb_false_r].
      exfalso. pose proof (proj2 SP (conj B E)). lia.
    + destruct (Nat.ltb_spec (store_no n h w p) (n * k + S r)), (Nat.ltb_spec (store_no n h w p) (n * k + r)), (Nat.eqb_spec (store_no n h w p) (n * k + r)); trivial; lia.
  - rewrite P. replace (store_no n h w p <? n * k + S r)%nat with ((store_no n h w p <? n * k + r)%nat || (store_no n h w p =? n * k + r)%nat).
    + destruct (Nat.ltb_spec p (w * n * (h * n))) as [B|B]; cbn [andb]; [|reflexivity].
      destruct (Nat.eqb_spec (store_no n h w p) (n * k + r)) as [E|E]; [|now rewrite orb_false_r].
      exfalso. pose proof (proj2 SP (conj B E)). lia.
    + destruct (Nat.ltb_spec (store_no n h w p) (n * k + S r)), (Nat.ltb_spec (store_no n h w p) (n * k + r)), (Nat.eqb_spec (store_no n h w p) (n * k + r)); trivial; lia.
Qed.

Lemma all_stores k : (k < h * w)%nat -> forall l r cells, (r + l <= n)%nat -> progress (n * k + r) cells ->
  progress (n * k + (r + l)) (fold_left (fun cs r => overwrite n cs (k mod w * n * (h * n) + k / w * n + r * (h * n)) (nth r (transposed n (block_rows k)) []))
    (seq r l) cells).
Proof.
  intros Hk. induction l as [|l IH]; intros r cells Hr P; [now rewrite Nat.add_0_r|]. cbn [seq fold_left].
  replace (r + S l)%nat with (S r + l)%nat by lia. apply IH; [lia|]. apply one_store; trivial; lia.
Qed.

Lemma blocks_run : forall todo k m cells, (k + todo = h * w)%nat -> array_at m a t zs -> nth_error m d = Some (t, cells) ->
  progress (n * k) cells ->
  exists cells', progress (n * (h * w)) cells' /\
    execute c m (transpose_blocks ld st tr t n h w a d k todo) = Returns (set_block d (t, cells') m) None.
Proof.
  induction todo as [|todo IH]; intros k m cells Hk Ha Hd P.
  - cbn [transpose_blocks execute]. exists cells. rewrite Nat.add_0_r in Hk. subst k. split; [exact P|]. now rewrite <- (split_block m d _ Hd).
  - cbn [transpose_blocks]. cbv zeta. assert (Hk' : (k < h * w)%nat) by lia.
    rewrite (load_rows_run c m ld t n a zs _ _ _ Hl Ha) by (intros r Hr; now apply block_in). fold (block_rows k).
    destruct (block_rows_lanes k Hk') as [Lr Fr]. rewrite (Htr m (block_rows k) _ Lr Fr). unfold store_rows.
    destruct (transposed_lanes k Hk') as [Lt Ft].
    rewrite (store_rows_run c st t n d Hs _ _ _ _ Ft (seq 0 n) m cells).
    + pose proof (all_stores k Hk' n 0 cells ltac:(lia) ltac:(now rewrite Nat.add_0_r)) as P'. cbn [Nat.add] in P'.
      replace (n * k + n)%nat with (n * S k)%nat in P' by lia.
      set (cells1 := fold_left _ (seq 0 n) cells) in *.
      assert (Ha' : array_at (set_block d (t, cells1) m) a t zs).
      { destruct Ha as [Ha F]. split; [|exact F]. rewrite set_block_other by (trivial; now apply nth_lt in Hd). exact Ha. }
      destruct (IH (S k) _ cells1 ltac:(lia) Ha' (set_block_same _ _ _ _ Hd) P') as (cells' & P2 & E). exists cells'. split; [exact P2|].
      rewrite E. now rewrite (set_block_twice _ _ _ _ _ Hd).
    + intros r Hr. apply in_seq in Hr. rewrite Lt. split; [lia|]. rewrite (proj1 P). apply store_offset_in; trivial; lia.
    + exact Hd.
Qed.

Lemma matrix_run m : array_at m a t zs -> nth_error m d = Some (t, cd) ->
  execute c m (transpose_matrix ld st tr t n h w a d)
  = Returns (set_block d (t, map Some (transposed_array (h * n) (w * n) zs) ++ skipn (h * n * (w * n)) cd) m) None.
Proof.
  intros Ha Hd. unfold transpose_matrix.
  destruct (blocks_run (h * w) 0 m cd eq_refl Ha Hd) as (cells & [L P] & E).
  - rewrite Nat.mul_0_r. split; [reflexivity|]. intros p. replace (store_no n h w p <? 0)%nat with false by (symmetry; apply Nat.ltb_ge; lia).
    now rewrite andb_false_r.
  - rewrite E. do 3 f_equal. apply (nth_ext _ _ None None).
    + rewrite app_length, map_length, skipn_length. unfold transposed_array, build. rewrite map_length, seq_length. lia.
    + intros p Hp. rewrite P. assert (LT : List.length (transposed_array (h * n) (w * n) zs) = (w * n * (h * n))%nat) by (unfold transposed_array, build; now rewrite map_length, seq_length).
      destruct (Nat.ltb_spec p (w * n * (h * n))) as [B|B]; cbn [andb].
      * rewrite (proj2 (Nat.ltb_lt _ _) (store_no_bound n h w Pn p B)).
        rewrite app_nth1 by (rewrite map_length; lia). rewrite (nth_indep _ None (Some 0)) by (rewrite map_length; lia).
        rewrite map_nth. f_equal. unfold transposed_array. now rewrite nth_build.
      * rewrite app_nth2; rewrite map_length; [|lia]. rewrite LT. rewrite <- (firstn_skipn (h * n * (w * n)) cd) at 1.
        rewrite app_nth2; rewrite firstn_length_le by lia; [|lia]. f_equal. lia.
Qed.
End Matrix.

Lemma transpose_matrix_run c ld st tr t n h w m a d zs cd : In (ld, st, tr, t, n) transposers -> a <> d ->
  array_at m a t zs -> nth_error m d = Some (t, cd) ->
  List.length zs = (h * n * (w * n))%nat -> (h * n * (w * n) <= List.length cd)%nat ->
  execute c m (transpose_matrix ld st tr t n h w a d)
  = Returns (set_block d (t, map Some (transposed_array (h * n) (w * n) zs) ++ skipn (h * n * (w * n)) cd) m) None.
Proof.
  intros H N Ha Hd Lz Ld. destruct (transposers_ok c ld st tr t n H) as (T & Hl & Hs & P).
  apply (matrix_run c ld st tr t n Hl Hs T P h w a d zs cd N Lz (proj2 Ha) Ld m Ha Hd).
Qed.

Lemma transposed_elements h w zs i j : (i < h)%nat -> (j < w)%nat ->
  nth (j * h + i) (transposed_array h w zs) 0 = nth (i * w + j) zs 0.
Proof.
  intros Hi Hj. unfold transposed_array. pose proof (Nat.mul_le_mono_r (S j) w h Hj).
  rewrite nth_build by lia. cbv zeta. rewrite <- (Nat.div_unique (j * h + i) h j i) by lia. now rewrite <- (Nat.mod_unique (j * h + i) h j i) by lia.
Qed.

Lemma transposed_length h w zs : List.length (transposed_array h w zs) = (w * h)%nat.
Proof. unfold transposed_array, build. now rewrite map_length, seq_length. Qed.

Lemma transposed_twice h w zs : List.length zs = (h * w)%nat -> transposed_array w h (transposed_array h w zs) = zs.
Proof.
  intros L. apply (nth_ext _ _ 0 0); rewrite transposed_length; [now rewrite L|]. intros p Hp.
  assert (Hw : w <> 0%nat) by (intros ->; lia).
  assert (Ep := Nat.div_mod p w Hw). assert (Hi := Nat.mod_upper_bound p w Hw). assert (Hj : (p / w < h)%nat) by (apply Nat.div_lt_upper_bound; lia).
  unfold transposed_array at 1. rewrite nth_build by exact Hp. cbv zeta. rewrite transposed_elements by trivial. f_equal. lia.
Qed.

Lemma transposed_range t h w zs : List.length zs = (h * w)%nat -> Forall (in_range t) zs -> Forall (in_range t) (transposed_array h w zs).
Proof.
  intros L F. unfold transposed_array. refine (proj2 (build_lanes_range t (w * h) _ _)). intros p Hp. cbv zeta.
  apply nth_in_range; [exact F|]. assert (Hh : h <> 0%nat) by (intros ->; lia).
  assert (Hi := Nat.mod_upper_bound p h Hh). assert (Hj : (p / h < w)%nat) by (apply Nat.div_lt_upper_bound; lia).
  pose proof (Nat.mul_le_mono_r (S (p mod h)) h w Hi). lia.
Qed.

Lemma transpose_back c ld st tr t n h w m a d zs cd : In (ld, st, tr, t, n) transposers -> a <> d ->
  array_at m a t zs -> nth_error m d = Some (t, cd) ->
  List.length zs = (h * n * (w * n))%nat -> List.length cd = (h * n * (w * n))%nat ->
  exists m1, execute c m (transpose_matrix ld st tr t n h w a d) = Returns m1 None /\
             execute c m1 (transpose_matrix ld st tr t n w h d a) = Returns m1 None.
Proof.
  intros H N Ha Hd Lz Lc. set (zs' := transposed_array (h * n) (w * n) zs).
  exists (set_block d (t, map Some zs') m). split.
  - rewrite (transpose_matrix_run c ld st tr t n h w m a d zs cd H N Ha Hd Lz ltac:(lia)). rewrite <- Lc, skipn_all, app_nil_r. reflexivity.
  - set (m1 := set_block d (t, map Some zs') m).
    assert (Ha1 : nth_error m1 a = Some (t, map Some zs)) by (unfold m1; rewrite set_block_other by (trivial; now apply nth_lt in Hd); apply Ha).
    assert (Hd1 : array_at m1 d t zs') by (split; [apply (set_block_same _ _ _ _ Hd)|apply transposed_range; [exact Lz|apply Ha]]).
    rewrite (transpose_matrix_run c ld st tr t n w h m1 d a zs' (map Some zs) H (not_eq_sym N) Hd1 Ha1).
    + unfold zs'. rewrite transposed_twice by exact Lz. rewrite skipn_all2 by (rewrite map_length, Lz; lia). rewrite app_nil_r.
      now rewrite <- (split_block m1 a _ Ha1).
    + unfold zs'. rewrite transposed_length. lia.
    + rewrite map_length, Lz. lia.
Qed.
