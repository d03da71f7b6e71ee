(** C71: contraction of floating-point expressions. *)
From Coq Require Import ZArith String List Bool Lia Reals Lra.
From Flocq Require Import Core.
From Verif Require Import Types Syntax Interp ProgRecip ProgMul ProgShift Library Spec FloatSpec PropBase MetaSpec.
From Verif Require Import Contract ContractSpec P_Contract P_Contract2 P_Contract3 P_Meta2.
Import ListNotations.
Open Scope Z_scope.

(** Whatever sums the compiler fuses with products, every call of every function but three has the
    outcome it has without. *)
Theorem C71_unaffected : forall x c m f args, In f library ->
  ~ In f [vmlaq_f32; vmlaq_n_f32; vrecpsq_f32] -> typed_args m f args ->
  run_contracted x c m f args = run c m f args.
Proof. exact contraction_irrelevant. Qed.
Print Assumptions C71_unaffected.

(** Of those, the multiply-accumulates yield in each lane x * y + z rounded twice or rounded once, *)
Theorem C71_vmlaq : forall x c m a b d, lanes F32 4 a -> lanes F32 4 b -> lanes F32 4 d ->
  exists r, run_contracted x c m vmlaq_f32 [vec F32 a; vec F32 b; vec F32 d] = Returns m (Some (vec F32 r)) /\ lanes F32 4 r /\
    forall i u v w z, nth_error a i = Some u -> nth_error b i = Some v -> nth_error d i = Some w -> nth_error r i = Some z ->
      two_roundings F32 v w u z \/ ieee_fma F32 v w u z.
Proof. exact vmlaq_contracted. Qed.
Print Assumptions C71_vmlaq.

Theorem C71_vmlaq_n : forall x c m a b s, lanes F32 4 a -> lanes F32 4 b -> in_range F32 s ->
  exists r, run_contracted x c m vmlaq_n_f32 [vec F32 a; vec F32 b; rv F32 s] = Returns m (Some (vec F32 r)) /\ lanes F32 4 r /\
    forall i u v z, nth_error a i = Some u -> nth_error b i = Some v -> nth_error r i = Some z ->
      two_roundings F32 v s u z \/ ieee_fma F32 v s u z.
Proof. exact vmlaq_n_contracted. Qed.
Print Assumptions C71_vmlaq_n.

(** and the reciprocal step 2 minus the rounded product, or the fused difference in double. *)
Theorem C71_vrecpsq : forall x c m a b, lanes F32 4 a -> lanes F32 4 b ->
  exists r, run_contracted x c m vrecpsq_f32 [vec F32 a; vec F32 b] = Returns m (Some (vec F32 r)) /\ lanes F32 4 r /\
    forall i u v z, nth_error a i = Some u -> nth_error b i = Some v -> nth_error r i = Some z ->
      (exists p, in_range F32 p /\ ieee_mul F32 u v p /\ two_minus F32 p z) \/ fused_in_double u v z.
Proof. exact vrecpsq_contracted. Qed.
Print Assumptions C71_vrecpsq.

(** Which of the two makes no difference for finite lanes whose products are numbers of the format. *)
Theorem C71_vmlaq_exact_partial : forall x c m a b d, lanes F32 4 a -> lanes F32 4 b -> lanes F32 4 d ->
  Forall (ffin F32) a -> Forall (ffin F32) b -> Forall (ffin F32) d -> all_lanes (exact_product F32) b d ->
  run_contracted x c m vmlaq_f32 [vec F32 a; vec F32 b; vec F32 d] = run c m vmlaq_f32 [vec F32 a; vec F32 b; vec F32 d].
Proof. exact vmlaq_exact. Qed.
Print Assumptions C71_vmlaq_exact_partial.

Theorem C71_vmlaq_n_exact_partial : forall x c m a b s, lanes F32 4 a -> lanes F32 4 b -> in_range F32 s ->
  Forall (ffin F32) a -> Forall (ffin F32) b -> ffin F32 s -> Forall (fun y => exact_product F32 y s) b ->
  run_contracted x c m vmlaq_n_f32 [vec F32 a; vec F32 b; rv F32 s] = run c m vmlaq_n_f32 [vec F32 a; vec F32 b; rv F32 s].
Proof. exact vmlaq_n_exact. Qed.
Print Assumptions C71_vmlaq_n_exact_partial.

Theorem C71_vrecpsq_exact_partial : forall x c m a b, lanes F32 4 a -> lanes F32 4 b ->
  Forall (ffin F32) a -> Forall (ffin F32) b -> all_lanes (exact_product F32) a b ->
  run_contracted x c m vrecpsq_f32 [vec F32 a; vec F32 b] = run c m vrecpsq_f32 [vec F32 a; vec F32 b].
Proof. exact vrecpsq_exact_product. Qed.
Print Assumptions C71_vrecpsq_exact_partial.

(** For the three functions it does make a difference: -1 + (1 + 2^-12)^2 is 2^-11 + 2^-24 or 2^-11. *)
Definition always : contraction := mkcontraction (fun _ _ _ => FuseRight) (fun _ _ _ _ => 0).
Definition never : contraction := mkcontraction (fun _ _ _ => NoFuse) (fun _ _ _ _ => 0).
Definition minus_one := [3212836864; 0; 0; 0].
Definition one_and := [1065355264; 0; 0; 0].

Theorem C71_refuted : forall f, In f [vmlaq_f32; vmlaq_n_f32; vrecpsq_f32] ->
  exists args, typed_args [] f args /\ run_contracted never strict [] f args = run strict [] f args /\
    run_contracted always strict [] f args <> run strict [] f args.
Proof.
  intros f [<-|[<-|[<-|[]]]].
  - exists [vec F32 minus_one; vec F32 one_and; vec F32 one_and].
    split; [apply valid_typed_lit; vm_compute; reflexivity|]. split; [vm_compute; reflexivity|vm_compute; discriminate].
  - exists [vec F32 minus_one; vec F32 one_and; rv F32 1065355264].
    split; [apply valid_typed_lit; vm_compute; reflexivity|]. split; [vm_compute; reflexivity|vm_compute; discriminate].
  - exists [vec F32 one_and; vec F32 one_and].
    split; [apply valid_typed_lit; vm_compute; reflexivity|]. split; [vm_compute; reflexivity|vm_compute; discriminate].
Qed.
Print Assumptions C71_refuted.

Example C71_example :
  run_contracted always strict [] vmlaq_f32 [vec F32 minus_one; vec F32 one_and; vec F32 one_and] =
    Returns [] (Some (vec F32 [973079552; 0; 0; 0])) /\
  run strict [] vmlaq_f32 [vec F32 minus_one; vec F32 one_and; vec F32 one_and] =
    Returns [] (Some (vec F32 [973078528; 0; 0; 0])) /\
  In vmulq_f32 library /\ ~ In vmulq_f32 [vmlaq_f32; vmlaq_n_f32; vrecpsq_f32] /\
  typed_args [] vmulq_f32 [vec F32 one_and; vec F32 one_and] /\
  run_contracted always strict [] vmulq_f32 [vec F32 one_and; vec F32 one_and] =
    Returns [] (Some (vec F32 [1065357312; 0; 0; 0])).
Proof.
  split; [vm_compute; reflexivity|]. split; [vm_compute; reflexivity|].
  split; [repeat (first [left; reflexivity|right])|].
  split; [intros [H|[H|[H|[]]]]; discriminate (f_equal f_name H)|].
  split; [apply valid_typed_lit; vm_compute; reflexivity|]. vm_compute. reflexivity.
Qed.

(** 1 + 3 * 2: all hypotheses of the partial theorems hold. *)
Lemma three_times_two : ffin F32 1077936128 /\ ffin F32 1073741824 /\ exact_product F32 1077936128 1073741824.
Proof.
  assert (A : fval F32 1077936128 = 3%R).
  { unfold fval. replace (exp_field F32 1077936128) with 128 by reflexivity. replace (frac_field F32 1077936128) with 4194304 by reflexivity.
    replace (sign_bit F32 1077936128) with false by reflexivity. cbn [Z.eqb Pos.eqb min_exp precision].
    change (bpow radix2 (128 - 1 + -149)) with (/ 4194304)%R. change (4194304 + 2 ^ (24 - 1)) with 12582912. lra. }
  assert (B : fval F32 1073741824 = 2%R).
  { unfold fval. replace (exp_field F32 1073741824) with 128 by reflexivity. replace (frac_field F32 1073741824) with 0 by reflexivity.
    replace (sign_bit F32 1073741824) with false by reflexivity. cbn [Z.eqb Pos.eqb min_exp precision].
    change (bpow radix2 (128 - 1 + -149)) with (/ 4194304)%R. change (0 + 2 ^ (24 - 1)) with 8388608. lra. }
  split; [vm_compute; discriminate|]. split; [vm_compute; discriminate|]. unfold exact_product. rewrite A, B.
  replace (3 * 2)%R with (IZR 6) by lra. split.
  - unfold rnd. apply round_generic; [apply valid_rnd_N|]. apply generic_format_FLT. exists (Float radix2 6 0); [unfold F2R; cbn; lra|vm_compute; reflexivity|vm_compute; discriminate].
  - rewrite Rabs_pos_eq by lra. apply Rlt_trans with (bpow radix2 3); [change (bpow radix2 3) with 8%R; lra|]. now apply bpow_lt.
Qed.

Example C71_exact_example :
  let a := [1065353216; 1065353216; 1065353216; 1065353216] in
  let b := [1077936128; 1077936128; 1077936128; 1077936128] in
  let d := [1073741824; 1073741824; 1073741824; 1073741824] in
  lanes F32 4 a /\ lanes F32 4 b /\ lanes F32 4 d /\
  Forall (ffin F32) a /\ Forall (ffin F32) b /\ Forall (ffin F32) d /\ all_lanes (exact_product F32) b d /\
  Forall (fun y => exact_product F32 y 1073741824) b /\
  run strict [] vmlaq_f32 [vec F32 a; vec F32 b; vec F32 d] = Returns [] (Some (vec F32 [1088421888; 1088421888; 1088421888; 1088421888])).
Proof.
  destruct three_times_two as (A & B & C). cbv zeta.
  refine (conj _ (conj _ (conj _ (conj _ (conj _ (conj _ (conj _ (conj _ _)))))))).
  1-3: (split; [reflexivity|]; repeat constructor; cbn; lia).
  - repeat constructor; vm_compute; discriminate.
  - repeat constructor; exact A.
  - repeat constructor; exact B.
  - intros i x y Ex Ey. do 4 (destruct i as [|i]; [cbn in Ex, Ey; injection Ex as <-; injection Ey as <-; exact C|]). destruct i; discriminate Ex.
  - do 4 (apply Forall_cons; [exact C|]). apply Forall_nil.
  - vm_compute. reflexivity.
Qed.
