(** Sorting networks. *)
From Coq Require Import ZArith Arith String List Bool Lia Permutation Sorted.
From Verif Require Import Types Syntax Interp ProgRecip Library Spec Tables MetaSpec ExecLemmas Ew Client Transpose Pixels Sorting Compose.
From Verif Require Import P_SubMore P_AddSub P_Mul P_Laws P_Compose2 P_Kernels P_Client P_Transpose P_Transpose2 P_Pixels.
Import ListNotations.
Open Scope Z_scope.

(** ** Lists *)

Lemma put_length {A} (v : A) : forall i l, List.length (put i v l) = List.length l.
Proof. induction i as [|i IH]; intros [|x l]; cbn; trivial. now rewrite IH. Qed.

Lemma nth_put {A} (v d : A) : forall i l q, (i < List.length l)%nat -> nth q (put i v l) d = if (q =? i)%nat then v else nth q l d.
Proof.
  induction i as [|i IH]; intros [|x l] [|q] H; cbn in *; try lia; trivial. apply IH. lia.
Qed.

Lemma map_put {A B} (f : A -> B) v : forall i l, map f (put i v l) = put i (f v) (map f l).
Proof. induction i as [|i IH]; intros [|x l]; cbn; trivial. now rewrite IH. Qed.

Lemma nth_map_in {A B} (f : A -> B) (a : A) (b : B) l i : (i < List.length l)%nat -> nth i (map f l) b = f (nth i l a).
Proof. intros H. rewrite (nth_indep _ b (f a)) by (now rewrite map_length). apply map_nth. Qed.

Lemma on_numbers_length : forall net l, List.length (on_numbers net l) = List.length l.
Proof. induction net as [|[i j] net IH]; intros l; [reflexivity|]. cbn [on_numbers]. now rewrite IH, !put_length. Qed.

(** ** Sorted lists *)

Fixpoint insert (x : Z) (l : list Z) : list Z :=
  match l with [] => [x] | y :: l' => if x <=? y then x :: l else y :: insert x l' end.
Fixpoint isort (l : list Z) : list Z := match l with [] => [] | x :: l' => insert x (isort l') end.

Lemma insert_perm x : forall l, Permutation (insert x l) (x :: l).
Proof.
  induction l as [|y l IH]; [reflexivity|]. cbn. destruct (x <=? y); [reflexivity|].
  rewrite IH. apply perm_swap.
Qed.
Lemma isort_perm : forall l, Permutation (isort l) l.
Proof. induction l as [|x l IH]; [reflexivity|]. cbn. now rewrite insert_perm, IH. Qed.

Lemma insert_strong x : forall l, StronglySorted Z.le l -> StronglySorted Z.le (insert x l).
Proof.
  induction l as [|y l IH]; intros H; cbn; [repeat constructor|]. inversion H as [|? ? Hs Hf]; subst.
  destruct (Z.leb_spec x y) as [L|L].
  - constructor; [exact H|]. constructor; [exact L|]. eapply Forall_impl; [|exact Hf]. intros; lia.
  - constructor; [now apply IH|]. apply (Permutation_Forall (Permutation_sym (insert_perm x l))). constructor; [lia|exact Hf].
Qed.
Lemma isort_strong : forall l, StronglySorted Z.le (isort l).
Proof. induction l as [|x l IH]; [constructor|]. now apply insert_strong. Qed.

Lemma sorted_strong l : Sorted Z.le l -> StronglySorted Z.le l.
Proof. apply Sorted_StronglySorted. intros a b d; lia. Qed.

Lemma sorted_unique : forall a b, StronglySorted Z.le a -> StronglySorted Z.le b -> Permutation a b -> a = b.
Proof.
  induction a as [|x a IH]; intros b Ha Hb P; [now apply Permutation_nil in P|].
  destruct b as [|y b]; [symmetry in P; now apply Permutation_nil in P|].
  inversion Ha as [|? ? Sa Fa]; subst. inversion Hb as [|? ? Sb Fb]; subst.
  assert (x = y) as ->.
  { assert (In x (y :: b)) as [E|I] by (apply (Permutation_in _ P); now left); [now symmetry|].
    assert (In y (x :: a)) as [E|J] by (apply (Permutation_in _ (Permutation_sym P)); now left); [trivial|].
    pose proof (proj1 (Forall_forall _ _) Fb x I). pose proof (proj1 (Forall_forall _ _) Fa y J). cbn in *; lia. }
  f_equal. apply IH; trivial. now apply Permutation_cons_inv in P.
Qed.

Lemma rank_isort r l z : has_rank r l z <-> nth_error (isort l) r = Some z.
Proof.
  split.
  - intros (s & P & H & E). rewrite <- E. f_equal. apply sorted_unique; [apply isort_strong|now apply sorted_strong|].
    now rewrite isort_perm, P.
  - intros E. exists (isort l). split; [apply isort_perm|]. split; [apply StronglySorted_Sorted, isort_strong|exact E].
Qed.

(** ** The 0-1 principle *)

Definition above (t z : Z) : Z := if t <=? z then 1 else 0.

Lemma above_mono t x y : x <= y -> above t x <= above t y.
Proof. unfold above. destruct (Z.leb_spec t x), (Z.leb_spec t y); lia. Qed.

Lemma mono_min f x y : (forall a b, a <= b -> f a <= f b) -> f (Z.min x y) = Z.min (f x) (f y).
Proof. intros M. destruct (Z.le_ge_cases x y) as [H|H]; pose proof (M _ _ H); [rewrite !Z.min_l|rewrite !Z.min_r]; lia. Qed.
Lemma mono_max f x y : (forall a b, a <= b -> f a <= f b) -> f (Z.max x y) = Z.max (f x) (f y).
Proof. intros M. destruct (Z.le_ge_cases x y) as [H|H]; pose proof (M _ _ H); [rewrite !Z.max_r|rewrite !Z.max_l]; lia. Qed.

Lemma mono_network f : (forall a b, a <= b -> f a <= f b) -> forall net l, on_registers net (List.length l) ->
  map f (on_numbers net l) = on_numbers net (map f l).
Proof.
  intros M. induction net as [|[i j] net IH]; intros l W; [reflexivity|]. cbn [on_numbers].
  destruct (W i j (or_introl eq_refl)) as (Hi & Hj & _).
  rewrite IH by (intros i' j' H; rewrite !put_length; apply W; now right).
  rewrite !map_put, mono_min, mono_max by exact M. now rewrite !(nth_map_in f 0 0) by assumption.
Qed.

Lemma map_strong f : (forall a b, a <= b -> f a <= f b) -> forall l, StronglySorted Z.le l -> StronglySorted Z.le (map f l).
Proof.
  intros M. induction l as [|x l IH]; intros H; [constructor|]. inversion H as [|? ? Hs Hf]; subst. cbn. constructor; [now apply IH|].
  apply Forall_forall. intros y Hy. apply in_map_iff in Hy as (z & <- & Hz). apply M. exact (proj1 (Forall_forall _ _) Hf z Hz).
Qed.

Lemma above_eq x y : (forall t, above t x = above t y) -> x = y.
Proof.
  intros H. pose proof (H x) as H1. pose proof (H y) as H2. unfold above in *. rewrite Z.leb_refl in *.
  destruct (Z.leb_spec x y), (Z.leb_spec y x); lia.
Qed.

Lemma zero_one net k w r : on_registers net k -> (w < k)%nat -> selects_bits net k w r ->
  forall l, List.length l = k -> has_rank r l (nth w (on_numbers net l) 0).
Proof.
  intros W Hw B l L. apply rank_isort.
  assert (A : forall t, nth_error (map (above t) (isort l)) r = Some (above t (nth w (on_numbers net l) 0))).
  { intros t. pose proof (B (map (above t) l)) as H. rewrite map_length in H. specialize (H L).
    assert (F : Forall (fun z => z = 0 \/ z = 1) (map (above t) l)).
    { apply Forall_forall. intros z Hz. apply in_map_iff in Hz as (y & <- & _). unfold above. destruct (t <=? y); auto. }
    specialize (H F). rewrite <- mono_network in H by (try apply above_mono; now rewrite L).
    rewrite (nth_map_in (above t) 0 0) in H by (rewrite on_numbers_length; lia).
    destruct H as (s & P & S & E). rewrite <- E. f_equal. apply sorted_unique.
    - apply map_strong; [apply above_mono|apply isort_strong].
    - now apply sorted_strong.
    - rewrite P. apply Permutation_map, isort_perm. }
  destruct (nth_error (isort l) r) as [z|] eqn:E.
  - f_equal. apply above_eq. intros t. pose proof (A t) as At. rewrite nth_error_map, E in At. cbn in At. congruence.
  - pose proof (A 0) as A0. rewrite nth_error_map, E in A0. discriminate.
Qed.

(** All lists of zeros and ones. *)
Fixpoint bit_lists (k : nat) : list (list Z) :=
  match k with O => [[]] | S k' => flat_map (fun l => [0 :: l; 1 :: l]) (bit_lists k') end.

Lemma bit_lists_all : forall k l, List.length l = k -> Forall (fun z => z = 0 \/ z = 1) l -> In l (bit_lists k).
Proof.
  induction k as [|k IH]; intros [|x l] L F; try discriminate; [now left|]. inversion F as [|? ? Hx Hl]; subst.
  cbn [bit_lists]. apply in_flat_map. exists l. split; [apply IH; trivial; now injection L|]. destruct Hx as [->| ->]; cbn; auto.
Qed.

Definition bits_check (net : network) (k w r : nat) : bool :=
  forallb (fun l => match nth_error (isort l) r with Some z => z =? nth w (on_numbers net l) 0 | None => false end) (bit_lists k).

Lemma bits_check_ok net k w r : bits_check net k w r = true -> selects_bits net k w r.
Proof.
  intros H l L F. apply rank_isort. pose proof (proj1 (forallb_forall _ _) H l (bit_lists_all k l L F)) as E. cbn beta in E.
  destruct (nth_error (isort l) r) as [z|]; [|discriminate]. apply Z.eqb_eq in E. now subst.
Qed.

Definition regs_check (net : network) (k : nat) : bool :=
  forallb (fun p => ((fst p <? k)%nat && (snd p <? k)%nat && negb (fst p =? snd p)%nat)) net.
Lemma regs_check_ok net k : regs_check net k = true -> on_registers net k.
Proof.
  intros H i j I. pose proof (proj1 (forallb_forall _ _) H _ I) as E. cbn [fst snd] in E.
  apply andb_true_iff in E as [E E3]. apply andb_true_iff in E as [E1 E2].
  apply Nat.ltb_lt in E1. apply Nat.ltb_lt in E2. apply negb_true_iff, Nat.eqb_neq in E3. auto.
Qed.

Lemma median9_registers : on_registers median9_net 9.
Proof. apply regs_check_ok. reflexivity. Qed.
Lemma median9_bits : selects_bits median9_net 9 4 4.
Proof. apply bits_check_ok. vm_compute. reflexivity. Qed.

(** ** Insertion sort *)

Lemma shifted_numbers x : forall net l, on_numbers (shifted net) (x :: l) = x :: on_numbers net l.
Proof. induction net as [|[i j] net IH]; intros l; [reflexivity|]. cbn. apply IH. Qed.

Lemma numbers_app : forall n1 n2 l, on_numbers (n1 ++ n2) l = on_numbers n2 (on_numbers n1 l).
Proof. induction n1 as [|[i j] n1 IH]; intros n2 l; [reflexivity|]. cbn. apply IH. Qed.

Lemma insert_first y l : StronglySorted Z.le (y :: l) -> insert y l = y :: l.
Proof.
  intros H. inversion H as [|? ? _ F]; subst. destruct l as [|z l]; [reflexivity|]. cbn. inversion F; subst.
  rewrite (proj2 (Z.leb_le y z)) by assumption. reflexivity.
Qed.

Lemma insert_numbers : forall l x, StronglySorted Z.le l -> on_numbers (insert_net (List.length l)) (x :: l) = insert x l.
Proof.
  induction l as [|y l IH]; intros x H; [reflexivity|]. cbn [List.length insert_net on_numbers nth put insert].
  rewrite shifted_numbers. inversion H as [|? ? Hs Hf]; subst. rewrite IH by exact Hs.
  destruct (Z.leb_spec x y) as [L|L].
  - rewrite Z.min_l, Z.max_r by lia. f_equal. now apply insert_first.
  - rewrite Z.min_r, Z.max_l by lia. reflexivity.
Qed.

Lemma sort_numbers : forall l, on_numbers (sort_net (List.length l)) l = isort l.
Proof.
  induction l as [|x l IH]; [reflexivity|]. cbn [List.length sort_net isort]. rewrite numbers_app, shifted_numbers, IH.
  rewrite <- insert_numbers by apply isort_strong. do 2 f_equal. symmetry. apply Permutation_length, isort_perm.
Qed.

Lemma shifted_registers net k : on_registers net k -> on_registers (shifted net) (S k).
Proof.
  intros H i j I. apply in_map_iff in I as ([i' j'] & E & I). cbn in E. injection E as <- <-.
  destruct (H _ _ I) as (A & B & D). repeat split; lia.
Qed.
Lemma insert_registers : forall k, on_registers (insert_net k) (S k).
Proof.
  induction k as [|k IH]; intros i j I; [destruct I|]. destruct I as [E|I]; [injection E as <- <-; lia|].
  exact (shifted_registers _ _ IH i j I).
Qed.
Lemma sort_registers : forall k, on_registers (sort_net k) k.
Proof.
  induction k as [|k IH]; intros i j I; [destruct I|]. cbn [sort_net] in I. apply in_app_or in I as [I|I].
  - exact (shifted_registers _ _ IH i j I).
  - exact (insert_registers k i j I).
Qed.

Lemma sort_ranks l w : (w < List.length l)%nat -> has_rank w l (nth w (on_numbers (sort_net (List.length l)) l) 0).
Proof.
  intros H. apply rank_isort. rewrite sort_numbers. apply nth_error_nth'. rewrite (Permutation_length (isort_perm l)). exact H.
Qed.

(** ** Registers *)

Fixpoint on_rows (net : network) (rows : list (list Z)) : list (list Z) :=
  match net with
  | [] => rows
  | (i, j) :: net' =>
      on_rows net' (put i (map2 Z.min (nth i rows []) (nth j rows [])) (put j (map2 Z.max (nth i rows []) (nth j rows [])) rows))
  end.

Lemma lanes_min t n a b : lanes t n a -> lanes t n b -> lanes t n (map2 Z.min a b) /\ lanes t n (map2 Z.max a b).
Proof.
  intros [La Fa] [Lb Fb]. split; (split; [rewrite map2_length; lia|]); clear - Fa Fb; revert b Fb;
    induction Fa as [|x a Hx Fa IH]; intros b Fb; cbn [map2]; try constructor; destruct Fb as [|y b Hy Fb]; try constructor; auto;
    unfold in_range in *; lia.
Qed.

Lemma put_all {A} (P : A -> Prop) v : P v -> forall i l, Forall P l -> Forall P (put i v l).
Proof.
  intros Hv. induction i as [|i IH]; intros [|x l] H; cbn; trivial; inversion H; subst; constructor; auto.
Qed.

Lemma nth_all {A} (P : A -> Prop) d l i : Forall P l -> (i < List.length l)%nat -> P (nth i l d).
Proof. intros F L. apply (proj1 (Forall_forall _ _) F). now apply nth_In. Qed.

Lemma column_on_rows t n q : (q < n)%nat -> forall net rows, on_registers net (List.length rows) -> Forall (lanes t n) rows ->
  column q (on_rows net rows) = on_numbers net (column q rows).
Proof.
  intros Hq. induction net as [|[i j] net IH]; intros rows W F; [reflexivity|]. cbn [on_rows on_numbers].
  destruct (W i j (or_introl eq_refl)) as (Hi & Hj & _).
  pose proof (nth_all _ [] _ i F Hi) as Ri. pose proof (nth_all _ [] _ j F Hj) as Rj.
  destruct (lanes_min _ _ _ _ Ri Rj) as [Rm RM].
  rewrite IH.
  - unfold column. rewrite !map_put. rewrite !(nth_map_in (fun r => nth q r 0) [] 0) by assumption.
    rewrite !P_Client.nth_map2; trivial; rewrite ?(proj1 Ri), ?(proj1 Rj); trivial.
  - intros i' j' I. rewrite !put_length. apply W. now right.
  - now repeat apply put_all.
Qed.

Lemma on_rows_length : forall net rows, List.length (on_rows net rows) = List.length rows.
Proof. induction net as [|[i j] net IH]; intros rows; [reflexivity|]. cbn [on_rows]. now rewrite IH, !put_length. Qed.

Lemma on_rows_lanes t n : forall net rows, on_registers net (List.length rows) -> Forall (lanes t n) rows -> Forall (lanes t n) (on_rows net rows).
Proof.
  induction net as [|[i j] net IH]; intros rows W F; [exact F|]. cbn [on_rows]. destruct (W i j (or_introl eq_refl)) as (Hi & Hj & _).
  destruct (lanes_min _ _ _ _ (nth_all _ [] _ i F Hi) (nth_all _ [] _ j F Hj)) as [Rm RM]. apply IH.
  - intros i' j' I. rewrite !put_length. apply W. now right.
  - now repeat apply put_all.
Qed.

Definition exchanger (x : exchange) (c : cfg) (t : sty) (n : nat) : Prop := forall m a b next, lanes t n a -> lanes t n b ->
  execute c m (x (vec t a) (vec t b) next) = execute c m (next (vec t (map2 Z.min a b)) (vec t (map2 Z.max a b))).

Lemma written_exchanger x c t n : written_for x t n -> exchanger x c t n.
Proof.
  intros H m a b next Ha Hb. destruct H as [vmin vmax t n H1 H2|vqsub vsub vadd t n Ht H1 H2 H3].
  - unfold min_max. rewrite (call_one _ _ _ _ _ _ (vmin_exact vmin t n c m a b (in_or_app _ _ _ (or_introl H1)) Ha Hb)).
    rewrite (call_one _ _ _ _ _ _ (vmax_exact vmax t n c m a b (in_or_app _ _ _ (or_introl H2)) Ha Hb)). reflexivity.
  - unfold by_difference. pose proof (vqsub_max vqsub vadd t n c m a b Ht H1 H3 Ha Hb) as Emax.
    pose proof (vqsub_min vqsub vsub t n c m a b Ht H1 H2 Ha Hb) as Emin.
    rewrite !(vqsub_sat vqsub t n) in Emax, Emin by assumption. cbn [and_then] in Emax, Emin.
    rewrite (call_one _ _ _ _ _ _ (vqsub_sat vqsub t n c m a b H1 Ha Hb)). cbn [value].
    rewrite (call_one _ _ _ _ _ _ Emin). rewrite (call_one _ _ _ _ _ _ Emax). reflexivity.
Qed.

Lemma item_vec t i rows : (i < List.length rows)%nat -> item i (map (vec t) rows) = vec t (nth i rows []).
Proof. intros H. unfold item. now apply nth_map_in. Qed.

Lemma exchanges_run x c t n : exchanger x c t n -> forall net m rows next, on_registers net (List.length rows) -> Forall (lanes t n) rows ->
  execute c m (exchanges x net (map (vec t) rows) next) = execute c m (next (map (vec t) (on_rows net rows))).
Proof.
  intros X. induction net as [|[i j] net IH]; intros m rows next W F; [reflexivity|]. cbn [exchanges on_rows].
  destruct (W i j (or_introl eq_refl)) as (Hi & Hj & _).
  pose proof (nth_all _ [] _ i F Hi) as Ri. pose proof (nth_all _ [] _ j F Hj) as Rj.
  destruct (lanes_min _ _ _ _ Ri Rj) as [Rm RM].
  rewrite !item_vec by assumption. rewrite X by assumption. rewrite <- !map_put. apply IH.
  - intros i' j' I. rewrite !put_length. apply W. now right.
  - now repeat apply put_all.
Qed.

(** Every column of [k] vectors is sorted. *)
Lemma sort_run x t n : written_for x t n -> forall c m rows next, Forall (lanes t n) rows ->
  exists rows', execute c m (exchanges x (sort_net (List.length rows)) (map (vec t) rows) next) = execute c m (next (map (vec t) rows')) /\
    List.length rows' = List.length rows /\ Forall (lanes t n) rows' /\
    forall q, (q < n)%nat -> Sorted Z.le (column q rows') /\ Permutation (column q rows') (column q rows).
Proof.
  intros X c m rows next F. exists (on_rows (sort_net (List.length rows)) rows).
  pose proof (sort_registers (List.length rows)) as W.
  split; [|split; [|split]].
  - now apply (exchanges_run x c t n (written_exchanger _ _ _ _ X)).
  - apply on_rows_length.
  - now apply on_rows_lanes.
  - intros q Hq. rewrite (column_on_rows t n q Hq) by assumption.
    replace (List.length rows) with (List.length (column q rows)) by apply map_length. rewrite sort_numbers.
    split; [apply StronglySorted_Sorted, isort_strong|apply isort_perm].
Qed.

(** ** The filter *)

Lemma column_builds (A : nat -> list Z) (srcs : list (nat * nat)) (n e q : nat) : (q < n)%nat ->
  column q (map (fun s => build n (fun p => nth (snd s + e + p) (A (fst s)) 0)) srcs)
  = map (fun s => nth (snd s + (e + q)) (A (fst s)) 0) srcs.
Proof. intros H. unfold column. rewrite map_map. apply map_ext. intros s. rewrite nth_build by exact H. f_equal. lia. Qed.

Lemma rank_run x ld st t n : written_for x t n -> In (ld, t, n) vld1_table -> In (st, t, n) vst1_table -> (0 < n)%nat ->
  forall net w r srcs, on_registers net (List.length srcs) -> (w < List.length srcs)%nat ->
  (forall l, List.length l = List.length srcs -> has_rank r l (nth w (on_numbers net l) 0)) ->
  forall c m d k A cd, (forall b p, In (b, p) srcs -> b <> d /\ array_at m b t (A b) /\ (p + k * n <= List.length (A b))%nat) ->
  nth_error m d = Some (t, cd) -> (k * n <= List.length cd)%nat ->
  exists zs, execute c m (rank_program x ld st t n srcs net w d k) = Returns (set_block d (t, map Some zs ++ skipn (k * n) cd) m) None /\
    List.length zs = (k * n)%nat /\
    forall i, (i < k * n)%nat -> has_rank r (map (fun s => nth (snd s + i) (A (fst s)) 0) srcs) (nth i zs 0).
Proof.
  intros X H1 H2 Pn net w r srcs W Hw R c m d k A cd S Hd Ld.
  set (F := fun i => nth w (on_numbers net (map (fun s => nth (snd s + i) (A (fst s)) 0) srcs)) 0).
  exists (build (k * n) F). split; [|split].
  - unfold rank_program.
    rewrite (steps_run c t n d k Pn (fun j => j) F
      (fun m => forall b p, In (b, p) srcs -> b <> d /\ array_at m b t (A b) /\ (p + k * n <= List.length (A b))%nat)) with (cd := cd); trivial.
    + intros m' cells blk A1 B b p I. destruct (A1 b p I) as (N & A2 & L). split; [exact N|]. split; [|exact L]. now apply (array_stable _ _ _ _ blk).
    + intros j; apply straight_onto.
    + intros j m' cells next Hj A1 B L. pose proof (Nat.mul_le_mono_r (Datatypes.S j) k n Hj) as Lj.
      set (V := fun s : nat * nat => build n (fun p => nth (snd s + j * n + p) (A (fst s)) 0)).
      assert (LV : forall s, In s srcs -> run c m' ld [at_ t (fst s) (snd s + j * n)] = Returns m' (Some (vec t (V s))) /\ lanes t n (V s)).
      { intros [b p] I. destruct (A1 b p I) as (_ & A2 & L2). cbn [fst snd]. apply (load_array ld t n c m' b (A b)); trivial. lia. }
      rewrite (call_all_pure c m' (fun _ => ld) (fun s => [at_ t (fst s) (snd s + j * n)]) (fun s => vec t (V s))) by (intros s Hs; now apply LV).
      rewrite <- map_map.
      assert (FV : Forall (lanes t n) (map V srcs)).
      { apply Forall_forall. intros v Hv. apply in_map_iff in Hv as (s & <- & Hs). now apply LV. }
      assert (WV : on_registers net (List.length (map V srcs))) by (now rewrite map_length).
      rewrite (exchanges_run x c t n (written_exchanger _ _ _ _ X)) by assumption.
      assert (Hw' : (w < List.length (on_rows net (map V srcs)))%nat) by (now rewrite on_rows_length, map_length).
      rewrite item_vec by exact Hw'. pose proof (nth_all _ [] _ w (on_rows_lanes t n net _ WV FV) Hw') as Rw.
      rewrite (store_step st t n c m' d cells (j * n)); trivial; [|lia]. do 3 f_equal.
      replace (nth w (on_rows net (map V srcs)) []) with (build n (fun q => F (j * n + q)%nat)); [reflexivity|].
      apply (nth_ext _ _ 0 0); [unfold build at 1; rewrite map_length, seq_length; symmetry; apply Rw|].
      unfold build at 1. rewrite map_length, seq_length. intros q Hq. rewrite nth_build by exact Hq. unfold F.
      rewrite <- (column_builds A srcs n (j * n) q Hq). fold V. rewrite <- (column_on_rows t n q Hq) by assumption.
      unfold column. now rewrite (nth_map_in (fun r => nth q r 0) [] 0) by exact Hw'.
  - unfold build. now rewrite map_length, seq_length.
  - intros i Hi. rewrite nth_build by exact Hi. apply R. now rewrite map_length.
Qed.

Lemma vst1_lanes st t n : In (st, t, n) vst1_table -> (0 < n)%nat.
Proof. intros H. cbn [In vst1_table] in H. repeat (destruct H as [E|H]; [injection E as _ _ <-; lia|]). destruct H. Qed.

Lemma median_run x ld st t n : written_for x t n -> In (ld, t, n) vld1_table -> In (st, t, n) vst1_table ->
  forall c m a d stride p k xs cd, a <> d -> array_at m a t xs -> (p + 2 * stride + 2 + k * n <= List.length xs)%nat ->
  nth_error m d = Some (t, cd) -> (k * n <= List.length cd)%nat ->
  exists zs, execute c m (rank_program x ld st t n (window3x3 a stride p) median9_net 4 d k)
      = Returns (set_block d (t, map Some zs ++ skipn (k * n) cd) m) None /\
    List.length zs = (k * n)%nat /\
    forall i, (i < k * n)%nat ->
      has_rank 4 (flat_map (fun y => map (fun u => nth (p + y * stride + u + i) xs 0) [0; 1; 2]%nat) [0; 1; 2]%nat) (nth i zs 0).
Proof.
  intros X H1 H2 c m a d stride p k xs cd N Ha L Hd Ld.
  destruct (rank_run x ld st t n X H1 H2 (vst1_lanes st t n H2) median9_net 4 4 (window3x3 a stride p)) with (c := c) (m := m) (d := d) (k := k)
    (A := fun _ : nat => xs) (cd := cd) as (zs & E & Lz & R); trivial.
  - exact median9_registers.
  - cbn. lia.
  - exact (zero_one median9_net 9 4 4 median9_registers ltac:(lia) median9_bits).
  - intros b q I. apply in_map_iff in I as (o & E & Ho). injection E as <- <-. split; [exact N|]. split; [exact Ha|].
    assert (o <= 2 * stride + 2)%nat by (cbn [In] in Ho; repeat (destruct Ho as [<-|Ho]; [lia|]); destruct Ho). lia.
  - exists zs. split; [exact E|]. split; [exact Lz|]. intros i Hi. pose proof (R i Hi) as Q.
    replace (flat_map _ _) with (map (fun s : nat * nat => nth (snd s + i) xs 0) (window3x3 a stride p)); [exact Q|].
    unfold window3x3. cbn [map flat_map app snd]. repeat (apply f_equal2; [apply (f_equal (fun q => nth q xs 0)); lia|]). reflexivity.
Qed.
