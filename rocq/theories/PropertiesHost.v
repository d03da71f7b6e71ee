(** C74: the order of bytes in memory and the width of size_t. *)
From Coq Require Import ZArith String List Bool Lia.
From Verif Require Import Types Syntax Interp ProgRecip ProgShift ProgAdd Library Spec Tables PropBase MetaSpec.
From Verif Require Import Host HostSpec P_Host P_Host2 P_Host3 P_Meta2.
Import ListNotations.
Open Scope Z_scope.

(** On every machine, little-endian or big-endian, 32-bit or 64-bit, every call of every function that
    does not reinterpret lanes as lanes of another size has the same outcome. *)
Theorem C74_any_host : forall h c m f args, real_host h -> In f library -> ~ In f repacking -> typed_args m f args ->
  run_host h c m f args = run c m f args.
Proof. exact host_irrelevant. Qed.
Print Assumptions C74_any_host.

(** The width of [size_t] matters to no call at all, whatever its arguments, *)
Theorem C74_size_t : forall h h' c m f args, real_host h -> real_host h' -> big_endian h = big_endian h' -> In f library ->
  run_host h c m f args = run_host h' c m f args.
Proof.
  intros h h' c m f args H H' E I. rewrite (width_irrelevant h c m f args H I), (width_irrelevant h' c m f args H' I). now rewrite E.
Qed.
Print Assumptions C74_size_t.

(** and on little-endian machines nothing differs. *)
Theorem C74_little_endian : forall h c m f args, real_host h -> big_endian h = false -> In f library ->
  run_host h c m f args = run c m f args.
Proof. exact little_irrelevant. Qed.
Print Assumptions C74_little_endian.

(** Reinterpretation keeps the bytes in the memory of the machine, *)
Theorem C74_reinterpret : forall h f t n t' n', In (f, t, n, t', n') vreinterpret_table -> forall c m a, lanes t n a ->
  exists r, run_host h c m f [vec t a] = Returns m (Some (vec t' r)) /\ lanes t' n' r /\
    image (big_endian h) t' r = image (big_endian h) t a.
Proof. intros h f t n t' n' H c m a. exact (reinterpret_image h f t n t' n' c m a H). Qed.
Print Assumptions C74_reinterpret.

(** which determine the result, *)
Theorem C74_image_determines : forall big t n x y, lanes t n x -> lanes t n y -> image big t x = image big t y -> x = y.
Proof. exact image_inj. Qed.
Print Assumptions C74_image_determines.

(** and back again gives the vector one started with. *)
Theorem C74_round_trip : forall h f g t n t' n',
  In (f, t, n, t', n') vreinterpret_table -> In (g, t', n', t, n) vreinterpret_table -> forall c m a, lanes t n a ->
  exists r, run_host h c m f [vec t a] = Returns m (Some (vec t' r)) /\ run_host h c m g [vec t' r] = Returns m (Some (vec t a)).
Proof. intros h f g t n t' n' H1 H2 c m a. exact (reinterpret_back h f g t n t' n' c m a H1 H2). Qed.
Print Assumptions C74_round_trip.

(** But the lanes differ: each of these functions has other results on big-endian machines than on
    little-endian ones. *)
Theorem C74_big_endian_refuted : forall f, In f repacking ->
  exists args, typed_args [] f args /\ forall s, s = U32 \/ s = U64 ->
    run_host (mkhost true s) strict [] f args <> run strict [] f args.
Proof.
  assert (W : Forall (fun f => exists t n, f_params f = [("a"%string, tvec t n)] /\
      typed_argsb [] f [vec t (1 :: repeat 0 (n - 1))] = true /\
      run_host (mkhost true U64) strict [] f [vec t (1 :: repeat 0 (n - 1))] <> run strict [] f [vec t (1 :: repeat 0 (n - 1))]) repacking).
  { unfold repacking. repeat (apply Forall_cons; [do 2 eexists; split; [reflexivity|]; split; [vm_compute; reflexivity|vm_compute; discriminate]|]). constructor. }
  intros f I. pose proof (proj1 (Forall_forall _ _) W f I) as (t & n & Ep & V & D). exists [vec t (1 :: repeat 0 (n - 1))].
  split; [now apply valid_typed_lit|]. intros s Hs. 
  assert (L : In f library).
  { assert (Q : Forall (fun f => In f library) repacking).
    { unfold repacking. repeat (apply Forall_cons; [repeat (first [left; reflexivity|right])|]). constructor. }
    exact (proj1 (Forall_forall _ _) Q f I). }
  rewrite (width_irrelevant (mkhost true s) strict [] f _ Hs L). exact D.
Qed.
Print Assumptions C74_big_endian_refuted.

Example C74_example :
  real_host (mkhost true U32) /\ In vadd_s16 library /\ ~ In vadd_s16 repacking /\
  typed_args [] vadd_s16 [vec I16 [1; 2; 3; 4]; vec I16 [10; 20; 30; -40]] /\
  run_host (mkhost true U32) strict [] vadd_s16 [vec I16 [1; 2; 3; 4]; vec I16 [10; 20; 30; -40]] = Returns [] (Some (vec I16 [11; 22; 33; -36])) /\
  run_host (mkhost true U32) strict [] vrecpeq_f32 [vec F32 [1073741824; 1065353216; 1056964608; 1082130432]]
    = run strict [] vrecpeq_f32 [vec F32 [1073741824; 1065353216; 1056964608; 1082130432]] /\
  In (vreinterpret_u32_u8, U8, 8%nat, U32, 2%nat) vreinterpret_table /\ lanes U8 8 [1; 2; 3; 4; 255; 0; 0; 128] /\
  run_host (mkhost false U32) strict [] vreinterpret_u32_u8 [vec U8 [1; 2; 3; 4; 255; 0; 0; 128]] = Returns [] (Some (vec U32 [67305985; 2147483903])) /\
  run_host (mkhost true U32) strict [] vreinterpret_u32_u8 [vec U8 [1; 2; 3; 4; 255; 0; 0; 128]] = Returns [] (Some (vec U32 [16909060; 4278190208])).
Proof.
  split; [now left|]. split; [repeat (first [left; reflexivity|right])|].
  split; [intros H; repeat (destruct H as [H|H]; [discriminate (f_equal f_name H)|]); destruct H|].
  split; [apply valid_typed_lit; vm_compute; reflexivity|]. split; [vm_compute; reflexivity|]. split; [vm_compute; reflexivity|].
  split; [repeat (first [left; reflexivity|right])|]. split; [lits|]. split; vm_compute; reflexivity.
Qed.
