(** C84: going through arrays that overlap or whose length is not a multiple of the length of a vector ([Overlap]). *)
From Coq Require Import ZArith String List Bool Lia.
From Verif Require Import Types Syntax Interp ProgRecip Library Spec Tables Client Transpose Pixels Overlap PropBase.
From Verif Require P_Overlap P_Overlap2.
Import ListNotations.
Open Scope Z_scope.

(** ** C84 Overlapping arrays and lengths that are not multiples of the length of a vector *)

(** Any order of blocks that covers [len] elements, between two arrays, or within one if no block is read after it was changed. *)
Theorem C84_order : forall c ld st t u n K g a src d dst m xs cd len js,
  In (ld, t, n) vld1_table -> In (st, u, n) vst1_table -> acts c K t u n g ->
  array_at m a t xs -> nth_error m d = Some (u, cd) -> a <> d \/ no_hazard n src dst js -> covers n len js ->
  (src + len <= List.length xs)%nat -> (dst + len <= List.length cd)%nat ->
  execute c m (move_blocks ld st t u K a src d dst js) = Returns (set_block d (u, moved g src dst len xs cd) m) None.
Proof. exact P_Overlap.schedule_run. Qed.
Print Assumptions C84_order.

(** From the first block to the last: right unless the destination begins inside the source. *)
Theorem C84_forward : forall c ld st t u n K g a src d dst m xs cd k,
  In (ld, t, n) vld1_table -> In (st, u, n) vst1_table -> acts c K t u n g ->
  array_at m a t xs -> nth_error m d = Some (u, cd) -> a <> d \/ (dst <= src)%nat \/ (src + k * n <= dst)%nat ->
  (src + k * n <= List.length xs)%nat -> (dst + k * n <= List.length cd)%nat ->
  execute c m (move_blocks ld st t u K a src d dst (forward n k)) = Returns (set_block d (u, moved g src dst (k * n) xs cd) m) None.
Proof. exact P_Overlap.forward_run. Qed.
Print Assumptions C84_forward.

(** And if it does begin there, then copying two or more blocks goes wrong for some contents of the array. *)
Theorem C84_forward_only : forall c ld st t n a src dst m blk N k,
  In (ld, t, n) vld1_table -> In (st, t, n) vst1_table -> nth_error m a = Some blk ->
  (2 <= k)%nat -> (src < dst < src + k * n)%nat -> (dst + k * n <= N)%nat ->
  exists xs, List.length xs = N /\ Forall (in_range t) xs /\
    execute c (set_block a (t, map Some xs) m) (move_blocks ld st t t Copy a src a dst (forward n k))
    <> Returns (set_block a (t, moved (fun x => x) src dst (k * n) xs (map Some xs)) m) None.
Proof. exact P_Overlap2.forward_clobbers. Qed.
Print Assumptions C84_forward_only.

(** From the last block to the first: right unless the source begins inside the destination. *)
Theorem C84_backward : forall c ld st t u n K g a src d dst m xs cd k,
  In (ld, t, n) vld1_table -> In (st, u, n) vst1_table -> acts c K t u n g ->
  array_at m a t xs -> nth_error m d = Some (u, cd) -> a <> d \/ (src <= dst)%nat \/ (dst + k * n <= src)%nat ->
  (src + k * n <= List.length xs)%nat -> (dst + k * n <= List.length cd)%nat ->
  execute c m (move_blocks ld st t u K a src d dst (backward n k)) = Returns (set_block d (u, moved g src dst (k * n) xs cd) m) None.
Proof. exact P_Overlap.backward_run. Qed.
Print Assumptions C84_backward.

Theorem C84_backward_only : forall c ld st t n a src dst m blk N k,
  In (ld, t, n) vld1_table -> In (st, t, n) vst1_table -> nth_error m a = Some blk ->
  (2 <= k)%nat -> (dst < src < dst + k * n)%nat -> (src + k * n <= N)%nat ->
  exists xs, List.length xs = N /\ Forall (in_range t) xs /\
    execute c (set_block a (t, map Some xs) m) (move_blocks ld st t t Copy a src a dst (backward n k))
    <> Returns (set_block a (t, moved (fun x => x) src dst (k * n) xs (map Some xs)) m) None.
Proof. exact P_Overlap2.backward_clobbers. Qed.
Print Assumptions C84_backward_only.

(** Any length of at least one vector, with a last block that overlaps the one before it. *)
Theorem C84_tail : forall c ld st t u n K g a src d dst m xs cd len,
  In (ld, t, n) vld1_table -> In (st, u, n) vst1_table -> acts c K t u n g ->
  array_at m a t xs -> nth_error m d = Some (u, cd) -> (n <= len)%nat ->
  a <> d \/ (dst + n <= src + len mod n)%nat \/ (src + len <= dst)%nat ->
  (src + len <= List.length xs)%nat -> (dst + len <= List.length cd)%nat ->
  execute c m (move_blocks ld st t u K a src d dst (with_tail n len)) = Returns (set_block d (u, moved g src dst len xs cd) m) None.
Proof. exact P_Overlap.tail_run. Qed.
Print Assumptions C84_tail.

(** The same in place: the elements of the last block that were done already are done twice, ... *)
Theorem C84_in_place : forall c ld st t n K g a src m xs len,
  In (ld, t, n) vld1_table -> In (st, t, n) vst1_table -> acts c K t t n g ->
  array_at m a t xs -> (n <= len)%nat -> (src + len <= List.length xs)%nat ->
  execute c m (move_blocks ld st t t K a src a src (with_tail n len)) = Returns (set_block a (t, map Some (done_twice g n src len xs)) m) None.
Proof. exact P_Overlap2.in_place_run. Qed.
Print Assumptions C84_in_place.

(** ... which does no harm in any order if doing it twice is the same as doing it once. *)
Theorem C84_idempotent : forall c ld st t n K g a src m xs len js,
  In (ld, t, n) vld1_table -> In (st, t, n) vst1_table -> acts c K t t n g ->
  (forall x, in_range t x -> g (g x) = g x) -> array_at m a t xs -> covers n len js -> (src + len <= List.length xs)%nat ->
  execute c m (move_blocks ld st t t K a src a src js) = Returns (set_block a (t, moved g src src len xs (map Some xs)) m) None.
Proof. exact P_Overlap.idempotent_run. Qed.
Print Assumptions C84_idempotent.

(** ** Examples *)

Definition C84_array : list Z := [10; 11; 12; 13; 14; 15; 16; 17; 18; 19; 20; 21; 22; 23; 24; 25; 26; 27; 28; 29].
Definition C84_mem : memory := [(U8, map Some C84_array)].

Lemma C84_mem_ok : array_at C84_mem 0 U8 C84_array.
Proof. split; [reflexivity|]. repeat constructor; unfold in_range; cbn; lia. Qed.

(** Sixteen bytes, three places down and three places up. *)
Example C84_forward_example :
  execute strict C84_mem (move_blocks vld1_u8 vst1_u8 U8 U8 Copy 0 3 0 0 (forward 8 2))
  = Returns [(U8, map Some [13; 14; 15; 16; 17; 18; 19; 20; 21; 22; 23; 24; 25; 26; 27; 28; 26; 27; 28; 29])] None.
Proof.
  exact (C84_forward strict vld1_u8 vst1_u8 U8 U8 8 Copy (fun x => x) 0 3 0 0 C84_mem C84_array (map Some C84_array) 2
    ltac:(cbn; tauto) ltac:(cbn; tauto) (acts_copy _ _ _) C84_mem_ok eq_refl ltac:(lia) ltac:(cbn; lia) ltac:(cbn; lia)).
Qed.
Example C84_backward_example :
  execute strict C84_mem (move_blocks vld1_u8 vst1_u8 U8 U8 Copy 0 0 0 3 (backward 8 2))
  = Returns [(U8, map Some [10; 11; 12; 10; 11; 12; 13; 14; 15; 16; 17; 18; 19; 20; 21; 22; 23; 24; 25; 29])] None.
Proof.
  exact (C84_backward strict vld1_u8 vst1_u8 U8 U8 8 Copy (fun x => x) 0 0 0 3 C84_mem C84_array (map Some C84_array) 2
    ltac:(cbn; tauto) ltac:(cbn; tauto) (acts_copy _ _ _) C84_mem_ok eq_refl ltac:(lia) ltac:(cbn; lia) ltac:(cbn; lia)).
Qed.
(** The wrong order: elements 8 to 15 were overwritten before they were read. *)
Example C84_forward_only_example :
  execute strict C84_mem (move_blocks vld1_u8 vst1_u8 U8 U8 Copy 0 0 0 3 (forward 8 2))
  = Returns [(U8, map Some [10; 11; 12; 10; 11; 12; 13; 14; 15; 16; 17; 15; 16; 17; 21; 22; 23; 24; 25; 29])] None
  /\ exists xs, List.length xs = 20%nat /\ Forall (in_range U8) xs /\
    execute strict (set_block 0 (U8, map Some xs) C84_mem) (move_blocks vld1_u8 vst1_u8 U8 U8 Copy 0 0 0 3 (forward 8 2))
    <> Returns (set_block 0 (U8, moved (fun x => x) 0 3 16 xs (map Some xs)) C84_mem) None.
Proof.
  split; [vm_compute; reflexivity|].
  exact (C84_forward_only strict vld1_u8 vst1_u8 U8 8 0 0 3 C84_mem _ 20 2 ltac:(cbn; tauto) ltac:(cbn; tauto) eq_refl ltac:(lia) ltac:(cbn; lia) ltac:(cbn; lia)).
Qed.
(** Keeping the low four bits of 13 bytes in place, which is idempotent; adding 1 to them: the elements 5 to 7 are done twice. *)
Example C84_idempotent_example :
  execute strict C84_mem (move_blocks vld1_u8 vst1_u8 U8 U8 (ApplyWith vand_u8 (vec U8 (repeat 15 8))) 0 0 0 0 (with_tail 8 13))
  = Returns [(U8, map Some [10; 11; 12; 13; 14; 15; 0; 1; 2; 3; 4; 5; 6; 23; 24; 25; 26; 27; 28; 29])] None.
Proof.
  exact (C84_idempotent strict vld1_u8 vst1_u8 U8 8 _ _ 0 0 C84_mem C84_array 13 (with_tail 8 13) ltac:(cbn; tauto) ltac:(cbn; tauto)
    (acts_with strict vand_u8 U8 U8 8 Z.land 15 (pw_vand strict vand_u8 U8 8 ltac:(cbn; tauto)) ltac:(unfold in_range; cbn; lia))
    ltac:(intros; cbv beta; now rewrite <- Z.land_assoc) C84_mem_ok (P_Overlap.tail_covers 8 13 ltac:(lia)) ltac:(cbn; lia)).
Qed.
Example C84_in_place_example :
  execute strict C84_mem (move_blocks vld1_u8 vst1_u8 U8 U8 (ApplyWith vqadd_u8 (vec U8 (repeat 1 8))) 0 0 0 0 (with_tail 8 13))
  = Returns [(U8, map Some [11; 12; 13; 14; 15; 17; 18; 19; 19; 20; 21; 22; 23; 23; 24; 25; 26; 27; 28; 29])] None.
Proof.
  exact (C84_in_place strict vld1_u8 vst1_u8 U8 8 _ _ 0 0 C84_mem C84_array 13 ltac:(cbn; tauto) ltac:(cbn; tauto)
    (acts_with strict vqadd_u8 U8 U8 8 _ 1 (pw_vqadd strict vqadd_u8 U8 8 ltac:(cbn; tauto)) ltac:(unfold in_range; cbn; lia))
    C84_mem_ok ltac:(lia) ltac:(cbn; lia)).
Qed.
(** Between arrays the same 13 bytes are right. *)
Example C84_tail_example :
  execute strict (C84_mem ++ [(U8, repeat None 13)]) (move_blocks vld1_u8 vst1_u8 U8 U8 (ApplyWith vqadd_u8 (vec U8 (repeat 1 8))) 0 0 1 0 (with_tail 8 13))
  = Returns (C84_mem ++ [(U8, map Some [11; 12; 13; 14; 15; 16; 17; 18; 19; 20; 21; 22; 23])]) None.
Proof.
  refine (C84_tail strict vld1_u8 vst1_u8 U8 U8 8 _ _ 0 0 1 0 (C84_mem ++ [(U8, repeat None 13)]) C84_array (repeat None 13) 13 ltac:(cbn; tauto) ltac:(cbn; tauto)
    (acts_with strict vqadd_u8 U8 U8 8 _ 1 (pw_vqadd strict vqadd_u8 U8 8 ltac:(cbn; tauto)) ltac:(unfold in_range; cbn; lia))
    (conj eq_refl (proj2 C84_mem_ok)) eq_refl ltac:(lia) ltac:(left; discriminate) ltac:(cbn; lia) ltac:(cbn; lia)).
Qed.
