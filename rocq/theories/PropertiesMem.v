(** Loads and stores: C01-C09, C11.

    Reading guide.  [run c m f args] is the outcome of calling [f] in memory [m]
    under the configuration [c]; [vec t l] is the vector object whose lanes are
    [l], [vecs t vs] a tuple of vectors, [rv t z] a scalar.  [heap m1 t pre cells
    post m2] is a memory in which [cells] is a segment of some block, with anything
    before ([pre]) and after ([post]) it in that block and any other blocks ([m1],
    [m2]); [pointer m1 t pre] points to the first of [cells].  The tables list the
    functions of each family with their element type and number of lanes. *)
From Coq Require Import ZArith String List Bool Lia.
From Verif Require Import Types Syntax Interp ProgRecip Spec Tables PropBase.
From Verif Require Import ProgLoad ProgStore ProgMul ProgBit ProgPerm ProgShift.
From Verif Require Import P_Mem P_Laws P_Mul P_Perm.
Import ListNotations.
Open Scope Z_scope.

(** ** C01 Contiguous loads *)

Theorem C01_vld1 : forall f t n, In (f, t, n) vld1_table -> forall c m1 m2 pre post a, lanes t n a ->
  run c (heap m1 t pre (map Some a) post m2) f [pointer m1 t pre]
  = Returns (heap m1 t pre (map Some a) post m2) (Some (vec t a)).
Proof. intros f t n H c m1 m2 pre post a Ha. exact (vld1_exact f t n c m1 m2 pre post a H Ha). Qed.
Print Assumptions C01_vld1.

Example C01_example :
  In (vld1_s16, I16, 4%nat) vld1_table /\ lanes I16 4 [5; -6; 32767; -32768] /\
  run strict [(I16, [Some 1; Some 5; Some (-6); Some 32767; Some (-32768); None])] vld1_s16 [OPtr I16 0 1]
  = Returns [(I16, [Some 1; Some 5; Some (-6); Some 32767; Some (-32768); None])] (Some (vec I16 [5; -6; 32767; -32768])).
Proof. lits. Qed.

(** ** C02 De-interleaving loads *)

Theorem C02_vldk : forall k f t n, In (f, t, n) (vld_table k) -> forall c m1 m2 pre post zs,
  List.length zs = (k * n)%nat -> Forall (in_range t) zs ->
  run c (heap m1 t pre (map Some zs) post m2) f [pointer m1 t pre]
  = Returns (heap m1 t pre (map Some zs) post m2) (Some (vecs t (deinterleave k n zs))).
Proof. intros k f t n H c m1 m2 pre post zs L F. exact (vldk_lanes k f t n c m1 m2 pre post zs H L F). Qed.
Print Assumptions C02_vldk.

Example C02_example :
  In (vld3_u32, U32, 2%nat) (vld_table 3) /\
  run strict [(U32, map Some [10; 20; 30; 11; 21; 31])] vld3_u32 [OPtr U32 0 0]
  = Returns [(U32, map Some [10; 20; 30; 11; 21; 31])] (Some (vecs U32 [[10; 11]; [20; 21]; [30; 31]])).
Proof. lits. Qed.

(** ** C03 Contiguous stores: the memory afterwards is the memory before with
    exactly the n elements at the pointer replaced. *)

Theorem C03_vst1 : forall f t n, In (f, t, n) vst1_table -> forall c m1 m2 pre post old a,
  lanes t n a -> List.length old = n ->
  run c (heap m1 t pre old post m2) f [pointer m1 t pre; vec t a]
  = Returns (heap m1 t pre (map Some a) post m2) None.
Proof. intros f t n H c m1 m2 pre post old a Ha L. exact (vst1_exact f t n c m1 m2 pre post old a H Ha L). Qed.
Print Assumptions C03_vst1.

Example C03_example :
  In (vst1_s32, I32, 2%nat) vst1_table /\
  run strict [(U8, [Some 7]); (I32, [Some 1; None; Some 3; Some 4])] vst1_s32 [OPtr I32 1 1; vec I32 [-8; 9]]
  = Returns [(U8, [Some 7]); (I32, [Some 1; Some (-8); Some 9; Some 4])] None.
Proof. lits. Qed.

(** ** C04 Interleaving stores.  Missing: vst4_u8 and vst4_u32, which are wrong. *)

Theorem C04_vstk_partial : forall k f t n, In (f, t, n) (vst_table k) -> forall c m1 m2 pre post old vs,
  tuple t k n vs -> List.length old = (k * n)%nat ->
  run c (heap m1 t pre old post m2) f [pointer m1 t pre; vecs t vs]
  = Returns (heap m1 t pre (map Some (interleave n vs)) post m2) None.
Proof. intros k f t n H c m1 m2 pre post old vs Hv L. exact (vstk_exact k f t n c m1 m2 pre post old vs H Hv L). Qed.
Print Assumptions C04_vstk_partial.

Example C04_example :
  In (vst2_s32, I32, 2%nat) (vst_table 2) /\ tuple I32 2 2 [[1; 2]; [3; 4]] /\
  run strict [(I32, [None; None; None; None; Some 9])] vst2_s32 [OPtr I32 0 0; vecs I32 [[1; 2]; [3; 4]]]
  = Returns [(I32, [Some 1; Some 3; Some 2; Some 4; Some 9])] None.
Proof. lits. Qed.

(** vst4_u8 writes vector 3 one element too far: given exactly 32 elements it
    writes out of bounds, whatever the vectors. *)
Theorem C04_vst4_u8_refuted : forall c old vs, tuple U8 4 8 vs -> List.length old = 32%nat ->
  run c [(U8, old)] vst4_u8 [OPtr U8 0 0; vecs U8 vs] = Undefined OutOfBounds.
Proof. exact vst4_u8_ub. Qed.
Print Assumptions C04_vst4_u8_refuted.

(** vst4_u32 never stores vector 2; it puts vector 3 in its place and leaves the fourth
    element of each group unchanged. *)
Theorem C04_vst4_u32_refuted : forall c m1 m2 pre post old vs, tuple U32 4 2 vs -> List.length old = 8%nat ->
  run c (heap m1 U32 pre old post m2) vst4_u32 [pointer m1 U32 pre; vecs U32 vs]
  = Returns (heap m1 U32 pre
      (flat_map (fun i => map (fun j => Some (nth i (nth j vs []) 0)) [0; 1; 3]%nat ++ [nth (4 * i + 3) old None])
         (seq 0 2)) post m2) None.
Proof. exact vst4_u32_run. Qed.
Print Assumptions C04_vst4_u32_refuted.

Example C04_refuted_example :
  tuple U32 4 2 [[0; 1]; [10; 11]; [20; 21]; [30; 31]] /\
  run strict [(U32, repeat (Some 99) 8)] vst4_u32 [OPtr U32 0 0; vecs U32 [[0; 1]; [10; 11]; [20; 21]; [30; 31]]]
  = Returns [(U32, map Some [0; 10; 30; 99; 1; 11; 31; 99])] None.
Proof. lits. Qed.

(** ** C05 Round trips.  Missing: the pairs with vst4_u8 and vst4_u32. *)

Theorem C05_store_load1 : forall fs fl t n, In (fs, t, n) vst1_table -> In (fl, t, n) vld1_table ->
  forall c m1 m2 pre post old a, lanes t n a -> List.length old = n ->
  exists M, run c (heap m1 t pre old post m2) fs [pointer m1 t pre; vec t a] = Returns M None
         /\ run c M fl [pointer m1 t pre] = Returns M (Some (vec t a)).
Proof. intros fs fl t n Hs Hl c m1 m2 pre post old a Ha L. exact (store_load1 fs fl t n c m1 m2 pre post old a Hs Hl Ha L). Qed.
Print Assumptions C05_store_load1.

Theorem C05_load_store1 : forall fs fl t n, In (fs, t, n) vst1_table -> In (fl, t, n) vld1_table ->
  forall c m1 m2 pre post a, lanes t n a ->
  let M := heap m1 t pre (map Some a) post m2 in
  exists v, run c M fl [pointer m1 t pre] = Returns M (Some v)
         /\ run c M fs [pointer m1 t pre; v] = Returns M None.
Proof. intros fs fl t n Hs Hl c m1 m2 pre post a Ha. exact (load_store1 fs fl t n c m1 m2 pre post a Hs Hl Ha). Qed.
Print Assumptions C05_load_store1.

Theorem C05_store_loadk_partial : forall k fs fl t n, In (fs, t, n) (vst_table k) -> In (fl, t, n) (vld_table k) ->
  forall c m1 m2 pre post old vs, tuple t k n vs -> List.length old = (k * n)%nat ->
  exists M, run c (heap m1 t pre old post m2) fs [pointer m1 t pre; vecs t vs] = Returns M None
         /\ run c M fl [pointer m1 t pre] = Returns M (Some (vecs t vs)).
Proof.
  intros k fs fl t n Hs Hl c m1 m2 pre post old vs Hv L.
  exact (store_loadk k fs fl t n c m1 m2 pre post old vs Hs Hl Hv L).
Qed.
Print Assumptions C05_store_loadk_partial.

Theorem C05_load_storek_partial : forall k fs fl t n, In (fs, t, n) (vst_table k) -> In (fl, t, n) (vld_table k) ->
  forall c m1 m2 pre post zs, List.length zs = (k * n)%nat -> Forall (in_range t) zs ->
  let M := heap m1 t pre (map Some zs) post m2 in
  exists v, run c M fl [pointer m1 t pre] = Returns M (Some v)
         /\ run c M fs [pointer m1 t pre; v] = Returns M None.
Proof.
  intros k fs fl t n Hs Hl c m1 m2 pre post zs L F.
  exact (load_storek k fs fl t n c m1 m2 pre post zs Hs Hl L F).
Qed.
Print Assumptions C05_load_storek_partial.

Example C05_example :
  In (vst4q_u8, U8, 16%nat) (vst_table 4) /\ In (vld4q_u8, U8, 16%nat) (vld_table 4) /\
  tuple U8 4 16 [repeat 1 16; repeat 2 16; repeat 3 16; repeat 255 16].
Proof. lits. Qed.

(** Storing with vst4_u32 and loading back with vld4_u32 does not give the vectors back. *)
Theorem C05_vst4_u32_refuted : exists vs M, tuple U32 4 2 vs /\
  run strict [(U32, repeat (Some 0) 8)] vst4_u32 [OPtr U32 0 0; vecs U32 vs] = Returns M None /\
  exists vs', run strict M vld4_u32 [OPtr U32 0 0] = Returns M (Some (vecs U32 vs')) /\ vs' <> vs.
Proof.
  exists [[0; 1]; [10; 11]; [20; 21]; [30; 31]]. eexists. split; [tuple_lit|].
  split; [vm_compute; reflexivity|]. exists [[0; 1]; [10; 11]; [30; 31]; [0; 0]].
  split; [vm_compute; reflexivity | discriminate].
Qed.
Print Assumptions C05_vst4_u32_refuted.

(** ** C06 Single-lane loads *)

Theorem C06_vld1_lane : forall f t, f = vld1_lane_s8 /\ t = I8 \/ f = vld1_lane_u8 /\ t = U8 ->
  forall c m1 m2 pre post z a k, lanes t 8 a -> 0 <= k < 8 ->
  run c (heap m1 t pre [Some z] post m2) f [pointer m1 t pre; vec t a; rv I32 k]
  = Returns (heap m1 t pre [Some z] post m2) (Some (vec t (replace_lane (Z.to_nat k) z a))).
Proof. intros f t H c m1 m2 pre post z a k Ha Hk. exact (vld1_lane_exact f t c m1 m2 pre post z a k H Ha Hk). Qed.
Print Assumptions C06_vld1_lane.

Theorem C06_vldk_lane : forall f kk,
  f = vld2_lane_u8 /\ kk = 2%nat \/ f = vld3_lane_u8 /\ kk = 3%nat \/ f = vld4_lane_u8 /\ kk = 4%nat ->
  forall c m1 m2 pre post zs vs k, List.length zs = kk -> tuple U8 kk 8 vs -> 0 <= k < 8 ->
  run c (heap m1 U8 pre (map Some zs) post m2) f [pointer m1 U8 pre; vecs U8 vs; rv I32 k]
  = Returns (heap m1 U8 pre (map Some zs) post m2) (Some (vecs U8 (map2 (replace_lane (Z.to_nat k)) zs vs))).
Proof.
  intros f kk H c m1 m2 pre post zs vs k L Hv Hk. exact (vld_lane_exact c m1 m2 pre post zs vs k kk f H L Hv Hk).
Qed.
Print Assumptions C06_vldk_lane.

Example C06_example :
  run strict [(U8, map Some [100; 200; 5])] vld2_lane_u8 [OPtr U8 0 0; vecs U8 [[1;2;3;4;5;6;7;8]; [0;0;0;0;0;0;0;0]]; rv I32 3]
  = Returns [(U8, map Some [100; 200; 5])] (Some (vecs U8 [[1;2;3;100;5;6;7;8]; [0;0;0;200;0;0;0;0]])).
Proof. lits. Qed.

(** ** C07 Lane numbers.  The functions that check: for every int the lane is valid
    or the program aborts.  Missing: the functions that do not check. *)

Theorem C07_vgetq_lane_f32_partial : forall c m a k, lanes F32 4 a -> in_range I32 k ->
  run c m vgetq_lane_f32 [vec F32 a; rv I32 k]
  = if (0 <=? k) && (k <? 4) then Returns m (Some (rv F32 (nth (Z.to_nat k) a 0))) else Aborts.
Proof.
  intros c m a k Ha Hk. destruct (Z.leb_spec 0 k), (Z.ltb_spec k 4); cbn [andb].
  - apply vgetq_lane_f32_exact; trivial; lia.
  - apply vgetq_lane_f32_reject; trivial; lia.
  - apply vgetq_lane_f32_reject; trivial; lia.
  - apply vgetq_lane_f32_reject; trivial; lia.
Qed.
Print Assumptions C07_vgetq_lane_f32_partial.

Theorem C07_vldk_lane_partial : forall f kk,
  f = vld2_lane_u8 /\ kk = 2%nat \/ f = vld3_lane_u8 /\ kk = 3%nat \/ f = vld4_lane_u8 /\ kk = 4%nat ->
  forall c m p vs k, tuple U8 kk 8 vs -> in_range I32 k -> ~ 0 <= k < 8 ->
  run c m f [OPtr U8 (fst p) (snd p); vecs U8 vs; rv I32 k] = Aborts.
Proof. intros f kk H c m p vs k Hv Hk Hn. exact (vld_lane_reject c m p vs k kk f H Hv Hk Hn). Qed.
Print Assumptions C07_vldk_lane_partial.

Example C07_example : in_range I32 8 /\ ~ 0 <= 8 < 8 /\
  run strict [(U8, [Some 1; Some 2])] vld2_lane_u8 [OPtr U8 0 0; vecs U8 [repeat 0 8; repeat 0 8]; rv I32 8] = Aborts.
Proof. lits. Qed.

(** The other lane functions read (or write) outside the vector for every invalid lane. *)
Theorem C07_vget_lane_refuted : forall f t n, In (f, t, n) vget_lane_table -> forall c m a k,
  lanes t n a -> ~ (0 <= k < Z.of_nat n) ->
  run c m f [vec t a; rv I32 k] = Undefined OutOfBounds.
Proof. intros f t n H c m a k Ha Hk. exact (vget_lane_out f t n c m a k H Ha Hk). Qed.
Print Assumptions C07_vget_lane_refuted.

Theorem C07_vld1_lane_refuted : forall f t, f = vld1_lane_s8 /\ t = I8 \/ f = vld1_lane_u8 /\ t = U8 ->
  forall c m1 m2 pre post z a k, lanes t 8 a -> in_range I32 k -> ~ 0 <= k < 8 ->
  run c (heap m1 t pre [Some z] post m2) f [pointer m1 t pre; vec t a; rv I32 k] = Undefined OutOfBounds.
Proof. intros f t H c m1 m2 pre post z a k Ha Hk Hn. exact (vld1_lane_out f t c m1 m2 pre post z a k H Ha Hk Hn). Qed.
Print Assumptions C07_vld1_lane_refuted.

Theorem C07_vst4q_lane_refuted : forall c m b off vs k, tuple F32 4 4 vs -> in_range I32 k -> ~ 0 <= k < 4 ->
  run c m vst4q_lane_f32 [OPtr F32 b off; vecs F32 vs; rv I32 k] = Undefined OutOfBounds.
Proof. exact vst4q_lane_out. Qed.
Print Assumptions C07_vst4q_lane_refuted.

Example C07_refuted_example : In (vgetq_lane_s32, I32, 4%nat) vget_lane_table /\ ~ (0 <= 4 < Z.of_nat 4) /\
  run strict [] vgetq_lane_s32 [vec I32 [1; 2; 3; 4]; rv I32 4] = Undefined OutOfBounds.
Proof. lits. Qed.

(** ** C08 Single-lane store *)

Theorem C08_vst4q_lane : forall c m1 m2 pre post old vs k,
  tuple F32 4 4 vs -> List.length old = 4%nat -> 0 <= k < 4 ->
  run c (heap m1 F32 pre old post m2) vst4q_lane_f32 [pointer m1 F32 pre; vecs F32 vs; rv I32 k]
  = Returns (heap m1 F32 pre (map (fun v => Some (nth (Z.to_nat k) v 0)) vs) post m2) None.
Proof. exact vst4q_lane_exact. Qed.
Print Assumptions C08_vst4q_lane.

Example C08_example : tuple F32 4 4 [[0;1;2;3]; [10;11;12;13]; [20;21;22;23]; [30;31;32;33]] /\
  run strict [(F32, [Some 9; None; None; None; None; Some 8])] vst4q_lane_f32
    [OPtr F32 0 1; vecs F32 [[0;1;2;3]; [10;11;12;13]; [20;21;22;23]; [30;31;32;33]]; rv I32 2]
  = Returns [(F32, map Some [9; 2; 12; 22; 32; 8])] None.
Proof. lits. Qed.

(** ** C09 Broadcast *)

Theorem C09_vdup : forall f t n, In (f, t, n) vdup_table -> forall c m x, in_range t x ->
  run c m f [rv t x] = Returns m (Some (vec t (repeat x n))).
Proof. intros f t n H c m x Hx. exact (vdup_exact f t n c m x H Hx). Qed.
Print Assumptions C09_vdup.

Theorem C09_vld1q_dup : forall c m1 m2 pre post z, in_range F32 z ->
  run c (heap m1 F32 pre [Some z] post m2) vld1q_dup_f32 [pointer m1 F32 pre]
  = Returns (heap m1 F32 pre [Some z] post m2) (Some (vec F32 (repeat z 4))).
Proof. exact vld1q_dup_f32_exact. Qed.
Print Assumptions C09_vld1q_dup.

Example C09_example : In (vdup_n_s16, I16, 4%nat) vdup_table /\ in_range I16 (-32768) /\
  run strict [] vdup_n_s16 [rv I16 (-32768)] = Returns [] (Some (vec I16 [-32768; -32768; -32768; -32768])).
Proof. lits. Qed.

(** ** C11 Lane extraction *)

Theorem C11_vget_lane : forall f t n, In (f, t, n) (vget_lane_table ++ [(vgetq_lane_f32, F32, 4%nat)]) ->
  forall c m a k, lanes t n a -> 0 <= k < Z.of_nat n ->
  run c m f [vec t a; rv I32 k] = Returns m (Some (rv t (nth (Z.to_nat k) a 0))).
Proof.
  intros f t n H c m a k Ha Hk. apply in_app_iff in H as [H|[H|[]]].
  - exact (vget_lane_exact f t n c m a k H Ha Hk).
  - injection H as <- <- <-. exact (vgetq_lane_f32_exact c m a k Ha Hk).
Qed.
Print Assumptions C11_vget_lane.

Example C11_example : In (vgetq_lane_s64, I64, 2%nat) vget_lane_table /\
  run strict [] vgetq_lane_s64 [vec I64 [7; -9]; rv I32 1] = Returns [] (Some (rv I64 (-9))).
Proof. lits. Qed.
