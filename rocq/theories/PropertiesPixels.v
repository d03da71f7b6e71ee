(** C76: image and signal processing programs written with the library ([Pixels]). *)
From Coq Require Import ZArith String List Bool Lia.
From Verif Require Import Types Syntax Interp ProgRecip Library Spec Tables Client Transpose Pixels PropBase.
From Verif Require P_Pixels P_Pixels2.
Import ListNotations.
Open Scope Z_scope.

(** ** C76 Image and signal processing *)

(** Blending with weights [p] and [q] in 1/256. *)
Theorem C76_blend : forall c p q m a b d k xs ys cd, 0 <= p <= 255 -> 0 <= q <= 255 -> p + q <= 256 -> a <> d -> b <> d ->
  array_at m a U8 xs -> array_at m b U8 ys -> nth_error m d = Some (U8, cd) ->
  (k * 8 <= List.length xs)%nat -> (k * 8 <= List.length ys)%nat -> (k * 8 <= List.length cd)%nat ->
  execute c m (blend_program p q a b d k)
  = Returns (set_block d (U8, map Some (blended p q k xs ys) ++ skipn (k * 8) cd) m) None.
Proof. exact P_Pixels.blend_run. Qed.
Print Assumptions C76_blend.

(** Smoothing with the weights 1/4, 1/2, 1/4. *)
Theorem C76_smooth : forall c m a d k xs cd, a <> d -> array_at m a U8 xs -> nth_error m d = Some (U8, cd) ->
  (k * 8 + 8 <= List.length xs)%nat -> (k * 8 <= List.length cd)%nat ->
  execute c m (smooth_program a d k) = Returns (set_block d (U8, map Some (smoothed k xs) ++ skipn (k * 8) cd) m) None.
Proof. exact P_Pixels.smooth_run. Qed.
Print Assumptions C76_smooth.

(** Reversing an array, for every element type with vrev64 on vectors of 8 bytes. *)
Theorem C76_reverse : forall ld rv64 st t n, In (ld, t, n) vld1_table -> In (rv64, t, n) vrev64_table -> In (st, t, n) vst1_table ->
  (n * nbytes t = 8)%nat -> forall c m a d k xs cd, a <> d -> array_at m a t xs -> nth_error m d = Some (t, cd) ->
  List.length xs = (k * n)%nat -> (k * n <= List.length cd)%nat ->
  execute c m (reverse_program ld rv64 st t n a d k) = Returns (set_block d (t, map Some (rev xs) ++ skipn (k * n) cd) m) None.
Proof. intros ld rv64 st t n H1 H2 H3 H4 c m a d k xs cd. exact (P_Pixels.reverse_run c ld rv64 st t n m a d k xs cd H1 H2 H3 H4). Qed.
Print Assumptions C76_reverse.

(** Looking up bytes in a table of 32 entries; an index of 32 or more gives 0. *)
Theorem C76_lookup : forall c m tab a d k ts xs cd, tab <> d -> a <> d -> array_at m tab U8 ts -> List.length ts = 32%nat ->
  array_at m a U8 xs -> nth_error m d = Some (U8, cd) -> (k * 8 <= List.length xs)%nat -> (k * 8 <= List.length cd)%nat ->
  execute c m (lookup_program tab a d k)
  = Returns (set_block d (U8, map Some (map (fun x => nth (Z.to_nat x) ts 0) (firstn (k * 8) xs)) ++ skipn (k * 8) cd) m) None.
Proof. exact P_Pixels.lookup_run. Qed.
Print Assumptions C76_lookup.

(** A mask of the bytes above a threshold. *)
Theorem C76_threshold : forall c m z a d k xs cd, 0 <= z <= 255 -> a <> d -> array_at m a U8 xs -> nth_error m d = Some (U8, cd) ->
  (k * 16 <= List.length xs)%nat -> (k * 16 <= List.length cd)%nat ->
  execute c m (threshold_program z a d k)
  = Returns (set_block d (U8, map Some (map (fun x => if z <? x then 255 else 0) (firstn (k * 16) xs)) ++ skipn (k * 16) cd) m) None.
Proof. exact P_Pixels.threshold_run. Qed.
Print Assumptions C76_threshold.

(** Splitting an array of [w]-tuples into [w] arrays, for every structure load with a vld1/vst1 counterpart. *)
Theorem C76_split : forall w ld st t n, In (ld, t, n) (vld_table w) -> In (st, t, n) vst1_table ->
  forall c a ds k zs m cds, List.length ds = w -> NoDup ds -> ~ In a ds ->
  List.length zs = (k * (w * n))%nat -> array_at m a t zs ->
  (forall i, (i < w)%nat -> nth_error m (nth i ds O) = Some (t, nth i cds []) /\ (k * n <= List.length (nth i cds []))%nat) ->
  exists m', execute c m (split_program ld st t w n a ds k) = Returns m' None /\ List.length m' = List.length m /\
    (forall i, (i < w)%nat -> nth_error m' (nth i ds O)
       = Some (t, map Some (build (k * n) (fun l => nth (w * l + i) zs 0)) ++ skipn (k * n) (nth i cds []))) /\
    (forall b, ~ In b ds -> nth_error m' b = nth_error m b).
Proof.
  intros w ld st t n Hl Hs c a ds k zs m cds L N A Lz Z D.
  exact (P_Pixels2.split_run c w ld st t n Hl Hs a ds k zs m cds L N A Lz Z D).
Qed.
Print Assumptions C76_split.

(** Merging [w] arrays into one of [w]-tuples: the structure stores that are right (C04). *)
Theorem C76_merge : forall w ld st t n, In (ld, t, n) vld1_table -> In (st, t, n) (vst_table w) ->
  forall c ss d k m zss cd, List.length ss = w -> ~ In d ss -> List.length zss = w ->
  (forall i, (i < w)%nat -> array_at m (nth i ss O) t (nth i zss []) /\ List.length (nth i zss []) = (k * n)%nat) ->
  nth_error m d = Some (t, cd) -> (k * (w * n) <= List.length cd)%nat ->
  execute c m (merge_program ld st t w n ss d k)
  = Returns (set_block d (t, map Some (interleave (k * n) zss) ++ skipn (k * (w * n)) cd) m) None.
Proof. intros w ld st t n Hl Hs c ss d k m zss cd. exact (P_Pixels2.merge_run c w ld st t n ss d k m zss cd Hl Hs). Qed.
Print Assumptions C76_merge.

(** With vst4_u8 and vst4_u32 the same program goes wrong. *)
Theorem C76_merge_refuted : exists zss, List.length zss = 4%nat /\
  (let m := map (fun zs => (U8, map Some zs)) zss ++ [(U8, repeat None 32)] in
   Forall (lanes U8 8) zss /\ exists u, execute strict m (merge_program vld1_u8 vst4_u8 U8 4 8 [0; 1; 2; 3]%nat 4 1) = Undefined u) /\
  (let zss := map (firstn 2) zss in let m := map (fun zs => (U32, map Some zs)) zss ++ [(U32, repeat None 8)] in
   Forall (lanes U32 2) zss /\ exists r, execute strict m (merge_program vld1_u32 vst4_u32 U32 4 2 [0; 1; 2; 3]%nat 4 1)
     = Returns (map (fun zs => (U32, map Some zs)) zss ++ [(U32, r)]) None /\ r <> map Some (interleave 2 zss)).
Proof.
  exists (map (fun k => build 8 (fun i => Z.of_nat (4 * i + k))) [0; 1; 2; 3]%nat). split; [reflexivity|]. split.
  - cbv zeta. split; [repeat constructor; cbn; discriminate|]. eexists. vm_compute. reflexivity.
  - cbv zeta. split; [repeat constructor; cbn; discriminate|]. eexists. split; [vm_compute; reflexivity|]. vm_compute. discriminate.
Qed.
Print Assumptions C76_merge_refuted.

(** The dot product of two arrays of bytes: the lanes left at the end add up to it modulo 2^32, and exactly if it is below. *)
Theorem C76_dot : forall c a b xs ys m, array_at m a U8 xs -> array_at m b U8 ys ->
  forall k next, (k * 8 <= List.length xs)%nat -> (k * 8 <= List.length ys)%nat ->
  exists ls, lanes U32 4 ls /\ execute c m (dot_program a b k next) = execute c m (next (map (rv U32) ls)) /\
    sum ls mod 2 ^ 32 = dot k xs ys mod 2 ^ 32 /\ (dot k xs ys < 2 ^ 32 -> sum ls = dot k xs ys).
Proof. exact P_Pixels2.dot_run. Qed.
Print Assumptions C76_dot.

(** ** Cases that meet the hypotheses *)

Definition ramp (n : nat) (f : Z -> Z) : list Z := map (fun i => f (Z.of_nat i)) (seq 0 n).

Example C76_blend_example :
  let xs := ramp 16 (fun i => 255 - i) in let ys := ramp 16 (fun i => 16 * i) in
  let m := [(U8, map Some xs); (U8, map Some ys); (U8, repeat None 17)] in
  array_at m 0 U8 xs /\ array_at m 1 U8 ys /\
  execute strict m (blend_program 192 64 0 1 2 2)
  = Returns [(U8, map Some xs); (U8, map Some ys);
             (U8, map Some [191; 195; 198; 201; 204; 208; 211; 214; 217; 221; 224; 227; 230; 234; 237; 240] ++ [None])] None.
Proof.
  cbv zeta. split; [split; [reflexivity|repeat constructor; cbn; discriminate]|]. split; [split; [reflexivity|repeat constructor; cbn; discriminate]|].
  vm_compute. reflexivity.
Qed.

Example C76_smooth_example :
  let xs := ramp 16 (fun i => i * i) in let m := [(U8, map Some xs); (U8, repeat None 8)] in
  array_at m 0 U8 xs /\
  execute strict m (smooth_program 0 1 1) = Returns [(U8, map Some xs); (U8, map Some [2; 5; 10; 17; 26; 37; 50; 65])] None.
Proof. cbv zeta. split; [split; [reflexivity|repeat constructor; cbn; discriminate]|]. vm_compute. reflexivity. Qed.

Example C76_reverse_example :
  let xs := ramp 12 (fun i => 1000 * i - 5000) in let m := [(I16, map Some xs); (I16, repeat None 12)] in
  In (vld1_s16, I16, 4%nat) vld1_table /\ In (vrev64_s16, I16, 4%nat) vrev64_table /\ In (vst1_s16, I16, 4%nat) vst1_table /\
  array_at m 0 I16 xs /\
  execute strict m (reverse_program vld1_s16 vrev64_s16 vst1_s16 I16 4 0 1 3) = Returns [(I16, map Some xs); (I16, map Some (ramp 12 (fun i => 6000 - 1000 * i)))] None.
Proof.
  cbv zeta. split; [cbn; tauto|]. split; [cbn; tauto|]. split; [cbn; tauto|]. split; [split; [reflexivity|repeat constructor; cbn; discriminate]|].
  vm_compute. reflexivity.
Qed.

Example C76_lookup_example :
  let ts := ramp 32 (fun i => 255 - i) in let xs := [0; 31; 32; 255; 7; 8; 16; 1] in
  let m := [(U8, map Some ts); (U8, map Some xs); (U8, repeat None 8)] in
  array_at m 0 U8 ts /\ array_at m 1 U8 xs /\
  execute strict m (lookup_program 0 1 2 1)
  = Returns [(U8, map Some ts); (U8, map Some xs); (U8, map Some [255; 224; 0; 0; 248; 247; 239; 254])] None.
Proof.
  cbv zeta. split; [split; [reflexivity|repeat constructor; cbn; discriminate]|]. split; [split; [reflexivity|repeat constructor; cbn; discriminate]|].
  vm_compute. reflexivity.
Qed.

Example C76_threshold_example :
  let xs := ramp 16 (fun i => 17 * i) in let m := [(U8, map Some xs); (U8, repeat None 16)] in
  array_at m 0 U8 xs /\
  execute strict m (threshold_program 119 0 1 1) = Returns [(U8, map Some xs); (U8, map Some (repeat 0 8 ++ repeat 255 8))] None.
Proof. cbv zeta. split; [split; [reflexivity|repeat constructor; cbn; discriminate]|]. vm_compute. reflexivity. Qed.

(** RGB pixels, split and merged again *)
Example C76_split_merge_example :
  let zs := ramp 24 (fun i => i) in
  let m := [(U8, map Some zs); (U8, repeat None 8); (U8, repeat None 8); (U8, repeat None 8); (U8, repeat None 24)] in
  let r k := map Some (ramp 8 (fun i => 3 * i + k)) in
  In (vld3_u8, U8, 8%nat) (vld_table 3) /\ In (vst3_u8, U8, 8%nat) (vst_table 3) /\ array_at m 0 U8 zs /\
  execute strict m (split_program vld3_u8 vst1_u8 U8 3 8 0 [1; 2; 3]%nat 1)
  = Returns [(U8, map Some zs); (U8, r 0); (U8, r 1); (U8, r 2); (U8, repeat None 24)] None /\
  execute strict [(U8, map Some zs); (U8, r 0); (U8, r 1); (U8, r 2); (U8, repeat None 24)] (merge_program vld1_u8 vst3_u8 U8 3 8 [1; 2; 3]%nat 4 1)
  = Returns [(U8, map Some zs); (U8, r 0); (U8, r 1); (U8, r 2); (U8, map Some zs)] None.
Proof.
  cbv zeta. split; [cbn; tauto|]. split; [cbn; tauto|]. split; [split; [reflexivity|repeat constructor; cbn; discriminate]|].
  split; vm_compute; reflexivity.
Qed.

Example C76_dot_example :
  let xs := ramp 16 (fun i => 255 - i) in let m := [(U8, map Some xs); (U8, map Some xs); (U32, repeat None 4)] in
  array_at m 0 U8 xs /\ array_at m 1 U8 xs /\ dot 2 xs xs = 980440 /\ sum [251066; 247074; 243114; 239186] = dot 2 xs xs /\
  execute strict m (dot_program 0 1 2 (fun r => Call vst1q_u32 [at_ U32 2 0; OArr r] (fun _ => Finish)))
  = Returns [(U8, map Some xs); (U8, map Some xs); (U32, map Some [251066; 247074; 243114; 239186])] None.
Proof.
  cbv zeta. split; [split; [reflexivity|repeat constructor; cbn; discriminate]|]. split; [split; [reflexivity|repeat constructor; cbn; discriminate]|].
  split; [reflexivity|]. split; [reflexivity|]. vm_compute. reflexivity.
Qed.
