(** C57-C61: histories of calls, whole programs, loops over arrays and threads. *)
From Coq Require Import ZArith String List Bool Lia.
From Verif Require Import Types Syntax Interp ProgRecip Library Spec Tables MetaSpec PropBase Client.
From Verif Require Import P_Meta2 P_Valid2 P_Det P_Client P_Kernels P_Threads P_Parallel.
Import ListNotations.
Open Scope Z_scope.

Ltac in_lib_tac := apply in_library; vm_compute; reflexivity.

(** ** C57 Histories of calls.  Missing from the [_partial] theorems: histories in which vst4_u8 is called. *)

Theorem C57_memory_stays_typed : forall c m h m', history c typed_args m h m' -> well_typed m -> well_typed m' /\ same_blocks m m'.
Proof. exact history_typed. Qed.
Print Assumptions C57_memory_stays_typed.

Theorem C57_other_blocks : forall c m h m' b, history c typed_args m h m' -> well_typed m ->
  (forall f args, In (f, args) h -> is_store f = true -> ~ reachable args b) -> nth_error m' b = nth_error m b.
Proof. exact history_untouched. Qed.
Print Assumptions C57_other_blocks.

Theorem C57_other_elements_partial : forall c m h m' b i, history c well_behaved m h m' -> well_typed m -> not_stored h b i ->
  element m' b i = element m b i.
Proof. exact history_elements. Qed.
Print Assumptions C57_other_elements_partial.

Theorem C57_load_again_partial : forall c m h m' f args v, history c well_behaved m h m' -> well_typed m ->
  In f library -> is_store f = false -> valid_args m f args ->
  (forall b i, in_footprint f args b i -> not_stored h b i) ->
  run c m f args = Returns m v -> valid_args m' f args /\ run c m' f args = Returns m' v.
Proof. exact history_load. Qed.
Print Assumptions C57_load_again_partial.

Theorem C57_stored_vector_stays_partial : forall fs fl t n, In (fs, t, n) vst1_table -> In (fl, t, n) vld1_table ->
  forall c m b cells off x m1 h m2,
  well_typed m -> nth_error m b = Some (t, cells) -> (off + n <= List.length cells)%nat -> lanes t n x ->
  run c m fs [OPtr t b (Z.of_nat off); vec t x] = Returns m1 None ->
  history c well_behaved m1 h m2 -> (forall i, Z.of_nat off <= i < Z.of_nat (off + n) -> not_stored h b i) ->
  run c m2 fl [OPtr t b (Z.of_nat off)] = Returns m2 (Some (vec t x)).
Proof. intros fs fl t n Hs Hl c m b cells off x m1 h m2. exact (stored_stays fs fl t n c m b cells off x m1 h m2 Hs Hl). Qed.
Print Assumptions C57_stored_vector_stays_partial.

(** A history of documented calls with vst4_u8 in it, after which an element that is in the footprint of no store has changed. *)
Theorem C57_vst4_u8_refuted : forall c, exists m h m' b i, well_typed m /\ history c valid_args m h m' /\ not_stored h b i /\
  element m' b i <> element m b i.
Proof.
  intros c.
  exists [(U8, repeat (Some 7) 40)], [(vst4_u8, [OPtr U8 0 0; vecs U8 (repeat (repeat 1 8) 4)])].
  eexists. exists 0%nat, 32. split; [now apply well_typedb_ok|]. split; [|split].
  - eapply history_cons; [in_lib_tac|now apply valid_argsb_ok|vm_compute; reflexivity|apply history_nil].
  - intros f args [E|[]] _ (s & off & H & Hi). injection E as <- <-. destruct H as [H|[H|[]]]; [|discriminate H].
    injection H as <- <- . change (extent vst4_u8) with 32 in Hi. lia.
  - vm_compute. discriminate.
Qed.
Print Assumptions C57_vst4_u8_refuted.

(** vst1_u8 to elements 0-7, then vst1_u8 to elements 8-15 of the same array and vqadd_u8: the first is still there. *)
Example C57_example : let m := [(U8, repeat (Some 0) 16)] in let m1 := [(U8, repeat (Some 3) 8 ++ repeat (Some 0) 8)] in
  let m2 := [(U8, repeat (Some 3) 8 ++ repeat (Some 9) 8)] in
  let h := [(vst1_u8, [OPtr U8 0 8; vec U8 (repeat 9 8)]); (vqadd_u8, [vec U8 (repeat 9 8); vec U8 (repeat 255 8)])] in
  well_typed m /\ run strict m vst1_u8 [OPtr U8 0 0; vec U8 (repeat 3 8)] = Returns m1 None /\
  history strict well_behaved m1 h m2 /\ (forall i, 0 <= i < 8 -> not_stored h 0 i).
Proof.
  cbn zeta. split; [now apply well_typedb_ok|]. split; [reflexivity|]. split.
  - eapply history_cons; [in_lib_tac|split; [discriminate|now apply valid_argsb_ok]|vm_compute; reflexivity|].
    eapply history_cons; [in_lib_tac|split; [discriminate|now apply valid_argsb_ok]|vm_compute; reflexivity|].
    apply history_nil.
  - intros i Hi f args [E|[E|[]]] S; injection E as <- <-; [|discriminate S].
    intros (s & off & [H|[H|[]]] & K); [|discriminate H]. injection H as <- <-. lia.
Qed.

(** ** C58 Programs that use the library as documented *)

Theorem C58_careful_program : forall c p m, careful c ("vshr_n_u16"%string :: ub_strict) m p -> wrapv c = false -> well_typed m ->
  exists m', execute c m p = Returns m' None /\ well_typed m' /\ same_blocks m m'.
Proof.
  intros c p m C E W. refine (careful_runs c _ m p _ W C). intros f I N. split; [intros Ev; apply N; left; now symmetry|].
  intros m0 args k W0 V R. apply N. right. apply (ub_exact_strict c f E I). eauto 8.
Qed.
Print Assumptions C58_careful_program.

Theorem C58_careful_program_wrapv : forall c p m, careful c ("vshr_n_u16"%string :: ub_wrapping) m p -> wrapv c = true -> well_typed m ->
  exists m', execute c m p = Returns m' None /\ well_typed m' /\ same_blocks m m'.
Proof.
  intros c p m C E W. refine (careful_runs c _ m p _ W C). intros f I N. split; [intros Ev; apply N; left; now symmetry|].
  intros m0 args k W0 V R. apply N. right. apply (ub_exact_wrapping c f E I). eauto 8.
Qed.
Print Assumptions C58_careful_program_wrapv.

(** A program whose second call depends on what the first returned. *)
Example C58_example : careful strict ("vshr_n_u16"%string :: ub_strict) [(U8, repeat (Some 250) 16)]
  (Call vld1_u8 [OPtr U8 0 0] (fun x => Call vqadd_u8 [value x; value x] (fun y => Call vst1_u8 [OPtr U8 0 8; value y] (fun _ => Finish)))) /\
  execute strict [(U8, repeat (Some 250) 16)]
    (Call vld1_u8 [OPtr U8 0 0] (fun x => Call vqadd_u8 [value x; value x] (fun y => Call vst1_u8 [OPtr U8 0 8; value y] (fun _ => Finish))))
  = Returns [(U8, repeat (Some 250) 8 ++ repeat (Some 255) 8)] None.
Proof.
  split; [|vm_compute; reflexivity].
  assert (B : forall n : string, existsb (String.eqb n) ("vshr_n_u16"%string :: ub_strict) = false -> ~ In n ("vshr_n_u16"%string :: ub_strict)).
  { intros n H I. assert (K : existsb (String.eqb n) ("vshr_n_u16"%string :: ub_strict) = true)
      by (apply existsb_exists; exists n; split; [exact I|apply String.eqb_refl]). congruence. }
  cbn [careful]. split; [in_lib_tac|]. split; [apply B; reflexivity|]. split; [now apply valid_argsb_ok|].
  intros m1 v R. vm_compute in R. injection R as <- <-.
  split; [in_lib_tac|]. split; [apply B; reflexivity|]. split; [now apply valid_argsb_ok|].
  intros m1 v R. vm_compute in R. injection R as <- <-.
  split; [in_lib_tac|]. split; [apply B; reflexivity|]. split; [now apply valid_argsb_ok|]. trivial.
Qed.

(** ** C59 Loops over arrays *)

Theorem C59_zip_loop : forall ld st op t u n, In (ld, t, n) vld1_table -> In (st, u, n) vst1_table ->
  forall c g m a b d xs ys cd k, pointwise2 c op t u n g -> array_at m a t xs -> array_at m b t ys -> nth_error m d = Some (u, cd) ->
  (k * n <= List.length xs)%nat -> (k * n <= List.length ys)%nat -> (k * n <= List.length cd)%nat ->
  execute c m (zip_loop ld op st t u n a b d 0 k)
  = Returns (set_block d (u, map Some (map2 g (firstn (k * n) xs) (firstn (k * n) ys)) ++ skipn (k * n) cd) m) None.
Proof. intros ld st op t u n Hl Hs c g m a b d xs ys cd k. exact (zip_loop_array c ld st op t u n g m a b d xs ys cd k Hl Hs). Qed.
Print Assumptions C59_zip_loop.

Theorem C59_map_loop : forall ld st op t u n, In (ld, t, n) vld1_table -> In (st, u, n) vst1_table ->
  forall c g m a d xs cd k, pointwise1 c op t u n g -> array_at m a t xs -> nth_error m d = Some (u, cd) ->
  (k * n <= List.length xs)%nat -> (k * n <= List.length cd)%nat ->
  execute c m (map_loop ld op st t u n a d 0 k)
  = Returns (set_block d (u, map Some (map g (firstn (k * n) xs)) ++ skipn (k * n) cd) m) None.
Proof. intros ld st op t u n Hl Hs c g m a d xs cd k. exact (map_loop_array c ld st op t u n g m a d xs cd k Hl Hs). Qed.
Print Assumptions C59_map_loop.

Theorem C59_fold_loop : forall ld op t n, In (ld, t, n) vld1_table ->
  forall c g m a xs acc next k, pointwise2 c op t t n g -> array_at m a t xs -> lanes t n acc -> (k * n <= List.length xs)%nat ->
  execute c m (fold_loop ld op t n a 0 k (vec t acc) next)
  = execute c m (next (vec t (build n (fun l => fold_left g (column n l (firstn (k * n) xs)) (nth l acc 0))))).
Proof. intros ld op t n Hl c g m a xs acc next k. exact (fold_loop_array c ld op t n g m a xs acc next k Hl). Qed.
Print Assumptions C59_fold_loop.

Theorem C59_sum_loop : forall ld op t n, In (ld, t, n) vld1_table -> In (op, t, n) vadd_table ->
  forall c m a xs acc next k, modular c t -> array_at m a t xs -> lanes t n acc -> (k * n <= List.length xs)%nat ->
  execute c m (fold_loop ld op t n a 0 k (vec t acc) next)
  = execute c m (next (vec t (build n (fun l => wrap t (nth l acc 0 + fold_left Z.add (column n l (firstn (k * n) xs)) 0))))).
Proof. intros ld op t n Hl Ho c m a xs acc next k. exact (fold_sum_array c ld op t n m a xs acc next k Hl Ho). Qed.
Print Assumptions C59_sum_loop.

Theorem C59_reorder_loop : forall w ld st t n, In (ld, t, n) (vld_table w) -> In (st, t, n) (vst_table w) ->
  forall c p m a d zs cd k, List.length p = w -> Forall (fun i => (i < w)%nat) p ->
  array_at m a t zs -> nth_error m d = Some (t, cd) ->
  (k * (w * n) <= List.length zs)%nat -> (k * (w * n) <= List.length cd)%nat ->
  execute c m (reorder_loop ld st t (w * n) a d p 0 k)
  = Returns (set_block d (t, map Some (reordered w p (firstn (k * (w * n)) zs)) ++ skipn (k * (w * n)) cd) m) None.
Proof. intros w ld st t n Hl Hs c p m a d zs cd k. exact (reorder_loop_array c w ld st t n p m a d zs cd k Hl Hs). Qed.
Print Assumptions C59_reorder_loop.

Theorem C59_gray_program : forall r g b, 0 <= r <= 255 -> 0 <= g <= 255 -> 0 <= b <= 255 -> r + g + b <= 256 ->
  forall c m a d zs cd k, a <> d -> array_at m a U8 zs -> nth_error m d = Some (U8, cd) ->
  List.length zs = (k * 24)%nat -> (k * 8 <= List.length cd)%nat ->
  execute c m (gray_program r g b a d k)
  = Returns (set_block d (U8, map Some (gray_image r g b zs) ++ skipn (k * 8) cd) m) None.
Proof. intros r g b Hr Hg Hb Hs c m a d zs cd k. exact (gray_program_run c r g b Hr Hg Hb Hs m a d zs cd k). Qed.
Print Assumptions C59_gray_program.

Ltac in_table := repeat (first [left; reflexivity | right]); fail.
Ltac array_lit := split; [reflexivity|apply Forall_forall; intros z H; vm_compute in H;
  repeat (destruct H as [ <- |H]; [vm_compute; split; discriminate|]); destruct H].

(** 32 of 40 bytes added with saturation in place. *)
Example C59_zip_example :
  let xs := map Z.of_nat (seq 100 40) in let ys := map Z.of_nat (seq 130 40) in let m := [(U8, map Some xs); (U8, map Some ys)] in
  In (vld1_u8, U8, 8%nat) vld1_table /\ In (vst1_u8, U8, 8%nat) vst1_table /\ pointwise2 strict vqadd_u8 U8 U8 8 (fun x y => sat U8 (x + y)) /\
  array_at m 0 U8 xs /\ array_at m 1 U8 ys /\
  execute strict m (zip_loop vld1_u8 vqadd_u8 vst1_u8 U8 U8 8 0 1 0 0 4)
  = Returns [(U8, map Some (map (fun i => Z.min 255 (230 + 2 * i)) (map Z.of_nat (seq 0 32)) ++ map Z.of_nat (seq 132 8))); (U8, map Some ys)] None.
Proof.
  cbn zeta. split; [in_table|]. split; [in_table|]. split; [apply pw_vqadd; in_table|]. split; [array_lit|]. split; [array_lit|].
  vm_compute. reflexivity.
Qed.

(** Sixteen unsigned halfwords narrowed with saturation. *)
Example C59_map_example :
  let xs := [0; 1; 255; 256; 65535; 7; 8; 9; 10; 11; 12; 13; 1000; 14; 15; 16] in let m := [(U16, map Some xs); (U8, repeat None 17)] in
  In (vld1q_u16, U16, 8%nat) vld1_table /\ In (vst1_u8, U8, 8%nat) vst1_table /\ pointwise1 strict vqmovn_u16 U16 U8 8 (sat U8) /\ array_at m 0 U16 xs /\
  execute strict m (map_loop vld1q_u16 vqmovn_u16 vst1_u8 U16 U8 8 0 1 0 2)
  = Returns [(U16, map Some xs); (U8, map Some [0; 1; 255; 255; 255; 7; 8; 9; 10; 11; 12; 13; 255; 14; 15; 16] ++ [None])] None.
Proof.
  cbn zeta. split; [in_table|]. split; [in_table|]. split; [constructor|]. split; [array_lit|]. vm_compute. reflexivity.
Qed.

(** A sum in two lanes. *)
Example C59_sum_example : let xs := [1; 4294967295; 3; 4; 5; 6] in let m := [(U32, map Some xs)] in
  In (vld1_u32, U32, 2%nat) vld1_table /\ In (vadd_u32, U32, 2%nat) vadd_table /\ modular strict U32 /\ array_at m 0 U32 xs /\
  execute strict m (fold_loop vld1_u32 vadd_u32 U32 2 0 0 3 (vec U32 [0; 0]) (fun acc => Call vst1_u32 [OPtr U32 0 0; acc] (fun _ => Finish)))
  = Returns [(U32, map Some [9; 9; 3; 4; 5; 6])] None.
Proof.
  cbn zeta. split; [in_table|]. split; [in_table|]. split; [vm_compute; tauto|]. split; [array_lit|]. vm_compute. reflexivity.
Qed.

(** Red and blue of sixteen pixels exchanged. *)
Example C59_reorder_example : let px := map Z.of_nat (seq 0 48) in
  In (vld3_u8, U8, 8%nat) (vld_table 3) /\ In (vst3_u8, U8, 8%nat) (vst_table 3) /\ array_at [(U8, map Some px)] 0 U8 px /\
  firstn 9 (reordered 3 [2; 1; 0]%nat px) = [2; 1; 0; 5; 4; 3; 8; 7; 6] /\
  execute strict [(U8, map Some px)] (reorder_loop vld3_u8 vst3_u8 U8 24 0 0 [2; 1; 0]%nat 0 2)
  = Returns [(U8, map Some (reordered 3 [2; 1; 0]%nat px))] None.
Proof.
  cbn zeta. split; [in_table|]. split; [in_table|]. split; [array_lit|]. split; [vm_compute; reflexivity|]. vm_compute. reflexivity.
Qed.

(** A grey image of sixteen pixels. *)
Example C59_gray_example : let px := map Z.of_nat (seq 0 48) in
  array_at [(U8, map Some px); (U8, repeat None 16)] 0 U8 px /\ firstn 4 (gray_image 77 151 28 px) = [0; 3; 6; 9] /\
  execute strict [(U8, map Some px); (U8, repeat None 16)] (gray_program 77 151 28 0 1 2)
  = Returns [(U8, map Some px); (U8, map Some (gray_image 77 151 28 px))] None.
Proof. cbn zeta. split; [array_lit|]. split; [vm_compute; reflexivity|]. vm_compute. reflexivity. Qed.

(** ** C60 Threads, interleaved in any order, one call at a time *)

(** No thread is ever stuck, *)
Theorem C60_progress : forall c m ps A W, well_typed m ->
  (forall i p, nth_error ps i = Some p -> confined c (A i) (W i) m p) ->
  (forall i j b e, i <> j -> W i b e -> ~ A j b e) ->
  (forall i p, nth_error ps i = Some p -> exists mi, execute c m p = Returns mi None) ->
  forall M qs q, steps c (m, ps) (M, qs) -> In q qs -> q <> Finish ->
  exists qs1 qs2 f args next M1 v, qs = qs1 ++ q :: qs2 /\ q = Call f args next /\ run c M f args = Returns M1 v /\
    step c (M, qs) (M1, qs1 ++ next v :: qs2).
Proof. intros c m ps A W Wm C D Al M qs q. exact (threads_progress c m ps A W Wm C D Al M qs q). Qed.
Print Assumptions C60_progress.

(** every schedule ends, *)
Theorem C60_every_schedule_ends : forall c s, Acc (fun s' s => step c s s') s.
Proof. exact step_acc. Qed.
Print Assumptions C60_every_schedule_ends.

(** and when the threads have ended, each has done what it does when it runs alone. *)
Theorem C60_result : forall c m ps A W, well_typed m ->
  (forall i p, nth_error ps i = Some p -> confined c (A i) (W i) m p) ->
  (forall i j b e, i <> j -> W i b e -> ~ A j b e) ->
  (forall i p, nth_error ps i = Some p -> exists mi, execute c m p = Returns mi None) ->
  forall M qs, steps c (m, ps) (M, qs) -> finished qs ->
  well_typed M /\ same_blocks m M /\
  (forall b e, (forall i, ~ W i b e) -> element M b e = element m b e) /\
  forall i p mi, nth_error ps i = Some p -> execute c m p = Returns mi None -> forall b e, A i b e -> element M b e = element mi b e.
Proof. intros c m ps A W Wm C D Al M qs. exact (threads_result c m ps A W Wm C D Al M qs). Qed.
Print Assumptions C60_result.

Theorem C60_same_result : forall c m ps A W, well_typed m ->
  (forall i p, nth_error ps i = Some p -> confined c (A i) (W i) m p) ->
  (forall i j b e, i <> j -> W i b e -> ~ A j b e) ->
  (forall i b e, W i b e -> A i b e /\ (i < List.length ps)%nat) ->
  (forall i p, nth_error ps i = Some p -> exists mi, execute c m p = Returns mi None) ->
  forall M qs M' qs', steps c (m, ps) (M, qs) -> finished qs -> steps c (m, ps) (M', qs') -> finished qs' -> M = M'.
Proof. exact threads_unique. Qed.
Print Assumptions C60_same_result.

(** Two threads, each doubling eight bytes of one array. *)
Definition doubler (j : Z) : program :=
  Call vld1_u8 [OPtr U8 0 j] (fun x => Call vqadd_u8 [value x; value x] (fun y => Call vst1_u8 [OPtr U8 0 j; value y] (fun _ => Finish))).

Example C60_example :
  let m := [(U8, map Some (map Z.of_nat (seq 100 16)))] in let ps := [doubler 0; doubler 8] in
  let A (i b : nat) (e : Z) := b = 0%nat /\ 8 * Z.of_nat i <= e < 8 * Z.of_nat i + 8 /\ (i < 2)%nat in
  well_typed m /\ (forall i p, nth_error ps i = Some p -> confined strict (A i) (A i) m p) /\
  (forall i j b e, i <> j -> A i b e -> ~ A j b e) /\ (forall i b e, A i b e -> A i b e /\ (i < List.length ps)%nat) /\
  (forall i p, nth_error ps i = Some p -> exists mi, execute strict m p = Returns mi None) /\
  exists M qs, steps strict (m, ps) (M, qs) /\ finished qs.
Proof.
  cbn zeta. split; [now apply well_typedb_ok|]. split; [|split; [|split; [|split]]].
  - assert (K : forall j i, j = 8 * Z.of_nat i -> (i < 2)%nat -> confined strict
      (fun b e => b = 0%nat /\ 8 * Z.of_nat i <= e < 8 * Z.of_nat i + 8 /\ (i < 2)%nat)
      (fun b e => b = 0%nat /\ 8 * Z.of_nat i <= e < 8 * Z.of_nat i + 8 /\ (i < 2)%nat)
      [(U8, map Some (map Z.of_nat (seq 100 16)))] (doubler j)).
    { intros j i -> Hi. assert (i = 0%nat \/ i = 1%nat) as [-> | ->] by lia.
      all: cbn [doubler confined]; split; [in_lib_tac|]; split; [discriminate|]; split; [now apply valid_argsb_ok|];
        (split; [intros b e (s & off & [H|[]] & He); injection H as <- <- <-; change (extent vld1_u8) with 8 in He; repeat split; try lia; intros; lia|]);
        intros m1 v R; vm_compute in R; injection R as <- <-;
        split; [in_lib_tac|]; split; [discriminate|]; split; [now apply valid_argsb_ok|];
        (split; [intros b e (s & off & [H|[H|[]]] & He); discriminate H|]);
        intros m1 v R; vm_compute in R; injection R as <- <-;
        split; [in_lib_tac|]; split; [discriminate|]; split; [now apply valid_argsb_ok|];
        (split; [intros b e (s & off & [H|[H|[]]] & He); [|discriminate H]; injection H as <- <- <-; change (extent vst1_u8) with 8 in He; repeat split; try lia; intros; lia|]); trivial. }
    intros [|[|i]] p H; cbn in H; try (destruct i; discriminate H); injection H as <-; apply K; lia.
  - intros i j b e N (_ & H & _) (_ & H' & _). lia.
  - intros i b e H. split; [exact H|]. cbn. tauto.
  - intros [|[|i]] p H; cbn in H; try (destruct i; discriminate H); injection H as <-; eexists; vm_compute; reflexivity.
  - eexists. exists [Finish; Finish]. split; [|repeat constructor].
    eapply steps_step; [eapply steps_step; [eapply steps_step; [eapply steps_step; [eapply steps_step; [eapply steps_step; [apply steps_refl|]|]|]|]|]|].
    + apply (step_call strict _ [] vld1_u8 _ _ [doubler 8]). vm_compute. reflexivity.
    + apply (step_call strict _ [_] vld1_u8 _ _ []). vm_compute. reflexivity.
    + apply (step_call strict _ [_] vqadd_u8 _ _ []). vm_compute. reflexivity.
    + apply (step_call strict _ [] vqadd_u8 _ _ [_]). vm_compute. reflexivity.
    + apply (step_call strict _ [_] vst1_u8 _ _ []). vm_compute. reflexivity.
    + apply (step_call strict _ [] vst1_u8 _ (fun _ => Finish) [Finish] _ None). vm_compute. reflexivity.
Qed.

(** ** C61 An element-wise loop whose steps are divided among threads *)

Theorem C61_parallel_map : forall ld st op t u n, In (ld, t, n) vld1_table -> In (st, u, n) vst1_table ->
  forall c g m a d xs cd strips, pointwise1 c op t u n g ->
  well_typed m -> array_at m a t xs -> nth_error m d = Some (u, cd) -> List.length cd = List.length xs ->
  (forall i j k, nth_error strips i = Some (j, k) -> (j + k * n <= List.length xs)%nat) ->
  (forall i i' s s' e, i <> i' -> nth_error strips i = Some s -> nth_error strips i' = Some s' -> ~ (strip n s e /\ strip n s' e)) ->
  forall M qs, steps c (m, map (fun s => map_loop ld op st t u n a d (fst s) (snd s)) strips) (M, qs) ->
    (forall q, In q qs -> q <> Finish -> exists M' qs', step c (M, qs) (M', qs')) /\
    (finished qs -> same_blocks m M /\
       (forall s e, In s strips -> strip n s e -> element M d e = Some (Some (g (nth (Z.to_nat e) xs 0)))) /\
       (forall b e, b <> d \/ (forall s, In s strips -> ~ strip n s e) -> element M b e = element m b e)).
Proof.
  intros ld st op t u n Hl Hs c g m a d xs cd strips Hop. exact (parallel_map c ld st op t u n g m a d xs cd strips Hl Hs Hop).
Qed.
Print Assumptions C61_parallel_map.

(** 48 bytes complemented in place by three threads. *)
Example C61_example : let xs := map Z.of_nat (seq 0 48) in let strips := [(0, 1); (8, 3); (32, 2)]%nat in
  pointwise1 strict vmvn_u8 U8 U8 8 (fun x => wrap U8 (-1 - x)) /\ well_typed [(U8, map Some xs)] /\ array_at [(U8, map Some xs)] 0 U8 xs /\
  (forall i j k, nth_error strips i = Some (j, k) -> (j + k * 8 <= List.length xs)%nat) /\
  (forall i i' s s' e, i <> i' -> nth_error strips i = Some s -> nth_error strips i' = Some s' -> ~ (strip 8 s e /\ strip 8 s' e)) /\
  wrap U8 (-1 - 40) = 215.
Proof.
  cbn zeta. split; [apply pw_vmvn; in_table|]. split; [now apply well_typedb_ok|]. split; [array_lit|]. split; [|split; [|reflexivity]].
  - intros [|[|[|i]]] j k H; cbn in H; try (destruct i; discriminate H); injection H as <- <-; vm_compute; lia.
  - intros [|[|[|i]]] [|[|[|i']]] s s' e N H H'; cbn in H, H'; try (destruct i; discriminate H); try (destruct i'; discriminate H');
      try congruence; injection H as <-; injection H' as <-; unfold strip; cbn [fst snd]; lia.
Qed.
