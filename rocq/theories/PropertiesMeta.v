(** Properties of the whole library: C46-C56. *)
From Coq Require Import ZArith String List Bool Lia Permutation.
From Verif Require Import Types Syntax Interp ProgRecip Header Spec Tables PropBase MetaSpec.
From Verif Require Import ProgLoad ProgStore ProgAdd ProgSub ProgMul ProgShift ProgPerm ProgBit ProgRev Library.
From Verif Require Import P_Meta Fuel Frame Wrapv P_Valid P_Valid2 P_Lanes P_Det P_Header P_Meta2.
Import ListNotations.
Open Scope Z_scope.

(** Every theorem below ranges over [library], all the functions the model has. *)
Example library_size : List.length library = 539%nat.
Proof. reflexivity. Qed.

(** ** C46 Memory effects *)

Theorem C46_value_functions : forall f c m args m' v, In f library -> is_store f = false ->
  well_typed m -> typed_args m f args -> run c m f args = Returns m' v -> m' = m.
Proof. intros f c m args m' v I S W T R. pose proof (any_call f c m args I W T) as K. rewrite R in K. now apply K. Qed.
Print Assumptions C46_value_functions.

Theorem C46_stores : forall f c m args m' v, In f library -> run c m f args = Returns m' v ->
  forall b, ~ reachable args b -> nth_error m' b = nth_error m b.
Proof.
  intros f c m args m' v I R. pose proof (call_frame f c args m m I (fun b _ => eq_refl)) as K. rewrite R in K. now apply K.
Qed.
Print Assumptions C46_stores.

(** The functions that may write are the vst intrinsics. *)
Theorem C46_stores_are_vst : forall f, In f library -> is_store f = String.prefix "vst" (f_name f).
Proof.
  intros f I. apply eqb_prop. revert f I. apply forallb_forall. vm_compute. reflexivity.
Qed.
Print Assumptions C46_stores_are_vst.

Example C46_example : is_store vst1_u8 = true /\ is_store vadd_u8 = false /\
  reachable [OPtr U8 1 3; vec U8 [1;2;3;4;5;6;7;8]] 1 /\ ~ reachable [OPtr U8 1 3; vec U8 [1;2;3;4;5;6;7;8]] 0 /\
  run strict [(U8, [Some 9]); (U8, repeat (Some 0) 12)] vst1_u8 [OPtr U8 1 3; vec U8 [1;2;3;4;5;6;7;8]]
  = Returns [(U8, [Some 9]); (U8, map Some [0;0;0;1;2;3;4;5;6;7;8;0])] None.
Proof.
  repeat split; try (vm_compute; reflexivity).
  - left. constructor.
  - intros H. inversion H as [? ? H0|? ? H0]; subst; [inversion H0|]. inversion H0 as [? ? H1|? ? H1]; subst; [|inversion H1].
    inversion H1 as [|? H2]; subst. repeat (inversion H2 as [? ? H3|? ? H3]; subst; [inversion H3|]; clear H2; rename H3 into H2).
    inversion H2.
Qed.

(** ** C47 Termination: one outcome, reached within 40 iterations of each loop and three nested calls, and the
    same whatever larger bounds the interpreter is given *)

Theorem C47_terminates : forall f c m args, In f library -> well_typed m -> typed_args m f args ->
  exists o, o <> Timeout /\ o <> Stuck /\
    forall fuel depth, (loop_fuel <= fuel)%nat -> (call_depth <= depth)%nat -> run_within fuel depth c m f args = o.
Proof.
  intros f c m args I W T. exists (run c m f args).
  assert (K : run c m f args <> Timeout /\ run c m f args <> Stuck).
  { pose proof (any_call f c m args I W T) as K. destruct (run c m f args); split; congruence || contradiction. }
  split; [apply K|]. split; [apply K|]. intros fuel depth H1 H2. now apply run_within_more.
Qed.
Print Assumptions C47_terminates.

(** An odd argument: a lane number far outside of the vector. *)
Example C47_example : typed_args [] vgetq_lane_u8 [vec U8 (repeat 7 16); rv I32 1000] /\ well_typed [] /\
  run strict [] vgetq_lane_u8 [vec U8 (repeat 7 16); rv I32 1000] = Undefined OutOfBounds.
Proof.
  split; [|split; [constructor|vm_compute; reflexivity]]. apply valid_typed_lit. vm_compute. reflexivity.
Qed.

(** ** C48 Results are well-formed *)

Theorem C48_well_formed : forall f c m args m' v, In f library -> well_typed m -> typed_args m f args ->
  run c m f args = Returns m' v ->
  match v with Some o => has_type m' (f_ret f) o | None => f_ret f = TVoid end /\ well_typed m' /\ same_blocks m m'.
Proof.
  intros f c m args m' v I W T R. pose proof (any_call f c m args I W T) as K. rewrite R in K.
  destruct K as (K1 & K2 & K3 & _). split; [|auto]. destruct v; exact K1.
Qed.
Print Assumptions C48_well_formed.

(** has_type does restrict the lanes: 300 is not a uint8_t. *)
Example C48_example : has_type [] (tvec U8 8) (vec U8 [0;1;2;3;4;5;6;255]) /\ ~ has_type [] (tvec U8 8) (vec U8 [300;1;2;3;4;5;6;255]) /\
  ~ has_type [] (tvec U8 8) (vec U8 [1;2]).
Proof.
  split; [apply has_typeb_ok; vm_compute; reflexivity|]. split; intros H; inversion H; subst.
  - match goal with F : Forall _ _ |- _ => inversion F as [|? ? F1 _]; subst end. inversion F1; subst.
    match goal with F : forall z, _ -> in_range _ z |- _ => specialize (F 300 eq_refl); unfold in_range in F; cbn in F; lia end.
  - discriminate.
Qed.

(** ** C49 Undefined behaviour.  Missing: the functions in [ub_strict] (57 of 539); each of them does have a
    documented call whose behaviour is undefined. *)

Theorem C49_no_ub_partial : forall f c m args k, In f library -> ~ In (f_name f) ub_strict ->
  well_typed m -> valid_args m f args -> run c m f args <> Undefined k.
Proof.
  intros f c m args k I N W V R. destruct (wrapv c) eqn:E.
  - apply N, in_or_app. left. apply (ub_exact_wrapping c f E I). eauto 8.
  - apply N. apply (ub_exact_strict c f E I). eauto 8.
Qed.
Print Assumptions C49_no_ub_partial.

Theorem C49_no_ub_wrapv_partial : forall f c m args k, In f library -> wrapv c = true -> ~ In (f_name f) ub_wrapping ->
  well_typed m -> valid_args m f args -> run c m f args <> Undefined k.
Proof. intros f c m args k I E N W V R. apply N. apply (ub_exact_wrapping c f E I). eauto 8. Qed.
Print Assumptions C49_no_ub_wrapv_partial.

Theorem C49_refuted : forall f c, In f library -> wrapv c = false -> In (f_name f) ub_strict ->
  exists m args k, well_typed m /\ valid_args m f args /\ run c m f args = Undefined k.
Proof. intros f c I E. exact (proj1 (ub_exact_strict c f E I)). Qed.
Print Assumptions C49_refuted.

Theorem C49_wrapv_refuted : forall f c, In f library -> wrapv c = true -> In (f_name f) ub_wrapping ->
  exists m args k, well_typed m /\ valid_args m f args /\ run c m f args = Undefined k.
Proof. intros f c I E. exact (proj1 (ub_exact_wrapping c f E I)). Qed.
Print Assumptions C49_wrapv_refuted.

Example C49_example : ~ In (f_name vqadd_u8) ub_strict /\ well_typed [] /\
  valid_args [] vqadd_u8 [vec U8 [0;1;2;3;4;5;6;255]; vec U8 [9;9;9;9;9;9;9;9]] /\
  List.length ub_strict = 57%nat /\ Forall (fun n => In n (map f_name library)) ub_strict.
Proof.
  split; [cbn; intros H; repeat (destruct H as [H|H]; [discriminate H|]); exact H|]. split; [constructor|].
  split; [apply valid_argsb_ok; vm_compute; reflexivity|]. split; [reflexivity|].
  apply Forall_forall. intros n. revert n. apply names_in. vm_compute. reflexivity.
Qed.

(** ** C50 Initialised results.  Missing: the four functions in [uninit_names]. *)

Theorem C50_initialised_partial : forall f c m args m' o, In f library -> ~ In (f_name f) uninit_names ->
  well_typed m -> valid_args m f args -> run c m f args = Returns m' (Some o) -> initialised o.
Proof.
  intros f c m args m' o I N W V R. destruct (initb o) eqn:E; [now apply initb_spec|]. exfalso. apply N.
  apply (uninit_exact c f I). exists m, args, m', o. repeat split; auto. intros K. apply initb_spec in K. congruence.
Qed.
Print Assumptions C50_initialised_partial.

Theorem C50_refuted : forall f c, In f library -> In (f_name f) uninit_names ->
  exists m args m' o, well_typed m /\ valid_args m f args /\ run c m f args = Returns m' (Some o) /\ ~ initialised o.
Proof. intros f c I. exact (proj1 (uninit_exact c f I)). Qed.
Print Assumptions C50_refuted.

Example C50_example : valid_args [] vrev64q_s8 [vec I8 (repeat 1 16)] /\
  (exists o, run strict [] vrev64q_s8 [vec I8 (repeat 1 16)] = Returns [] (Some o) /\ ~ initialised o) /\
  valid_args [] vrev64_s8 [vec I8 (repeat 1 8)] /\ ~ In (f_name vrev64_s8) uninit_names.
Proof.
  split; [apply valid_argsb_ok; vm_compute; reflexivity|]. split.
  - eexists. split; [vm_compute; reflexivity|]. rewrite <- initb_spec. vm_compute. discriminate.
  - split; [apply valid_argsb_ok; vm_compute; reflexivity|]. cbn. intros H. decompose [or] H; congruence || contradiction.
Qed.

(** ** C51 The header *)

Theorem C51_declared_partial : forall f, In f library ->
  (~ In (f_name f, map snd (f_params f)) undeclared <->
   exists line, In (f_name f, f_ret f, map snd (f_params f), line) header).
Proof. exact declared_iff. Qed.
Print Assumptions C51_declared_partial.

Theorem C51_defined_partial : forall n r ps line, In (n, r, ps, line) header ->
  In n (map f_name library) -> ~ In n mismatched ->
  exists f, In f library /\ f_name f = n /\ f_ret f = r /\ map snd (f_params f) = ps.
Proof. intros n r ps line. exact (defined_as_declared n r ps line). Qed.
Print Assumptions C51_defined_partial.

(** The rest: 1465 of the 1996 declarations name a function that is not defined at all. *)
Theorem C51_refuted :
  List.length header = 1996%nat /\
  List.length (filter (fun h => negb (existsb (String.eqb (declared_name h)) (map f_name library))) header) = 1465%nat.
Proof. split; [reflexivity|exact undefined_count]. Qed.
Print Assumptions C51_refuted.

(** No function is defined twice, and no name is declared with two types. *)
Theorem C51_defined_once : NoDup (map (fun f => (f_name f, map snd (f_params f))) library).
Proof. exact defined_once. Qed.
Print Assumptions C51_defined_once.

Theorem C51_declared_consistently : forall n r ps line r' ps' line',
  In (n, r, ps, line) header -> In (n, r', ps', line') header -> r = r' /\ ps = ps'.
Proof. intros n r ps l r' ps' l'. exact (header_consistent n r ps l r' ps' l'). Qed.
Print Assumptions C51_declared_consistently.

Example C51_example : exists line, In ("vadd_s8"%string, tvec I8 8, [tvec I8 8; tvec I8 8], line) header.
Proof.
  apply (proj1 (declared_iff vadd_s8 (in_library vadd_s8 eq_refl))). intros H. cbn in H. decompose [or] H; congruence || contradiction.
Qed.

(** ** C52 Lane independence *)

Theorem C52_independent : forall f c m args args' k n n' l l', In f library -> In (f_name f) element_wise ->
  typed_args m f args -> typed_args m f args' ->
  Forall2 (fun o o' => lane_at k o = lane_at k o') args args' ->
  run c m f args = Returns n (Some (OArr l)) -> run c m f args' = Returns n' (Some (OArr l')) ->
  nth_error l k = nth_error l' k.
Proof. exact lane_independent. Qed.
Print Assumptions C52_independent.

Theorem C52_rearranged : forall f c m args p n v, In f library -> In (f_name f) element_wise -> typed_args m f args ->
  List.length p = lane_count f -> Forall (fun i => (i < lane_count f)%nat) p ->
  run c m f args = Returns n (Some v) ->
  run c m f (map (rearrange p) args) = Returns n (Some (rearrange p v)).
Proof. exact lane_rearranged. Qed.
Print Assumptions C52_rearranged.

Theorem C52_permuted : forall f c m args p n v, In f library -> In (f_name f) element_wise -> typed_args m f args ->
  Permutation p (seq 0 (lane_count f)) ->
  run c m f (map (rearrange p) args) = Returns n (Some v) -> exists v', run c m f args = Returns n (Some v').
Proof. exact lane_permuted. Qed.
Print Assumptions C52_permuted.

Example C52_example : In (f_name vmlaq_s16) element_wise /\ In vmlaq_s16 library /\ List.length element_wise = 284%nat /\
  rearrange [3;2;1;0]%nat (vec I32 [10;20;30;40]) = vec I32 [40;30;20;10] /\
  run strict [] vaddq_s32 (map (rearrange [3;2;1;0]%nat) [vec I32 [1;2;3;4]; vec I32 [10;20;30;40]]) = Returns [] (Some (vec I32 [44;33;22;11])).
Proof.
  split; [apply (names_in [f_name vmlaq_s16] element_wise); [vm_compute; reflexivity|now left]|].
  split; [apply in_library; vm_compute; reflexivity|]. repeat split; vm_compute; reflexivity.
Qed.

(** ** C53 Determinism *)

Theorem C53_value_functions : forall f c m m' args, In f library -> no_pointers f -> typed_args m f args ->
  match run c m f args with
  | Returns n v => n = m /\ run c m' f args = Returns m' v
  | o => run c m' f args = o
  end.
Proof. exact memory_irrelevant. Qed.
Print Assumptions C53_value_functions.

Theorem C53_loads : forall f c m m' s b b' off off' rest, In f library -> is_store f = false ->
  well_typed m -> well_typed m' ->
  valid_args m f (OPtr s b off :: rest) -> valid_args m' f (OPtr s b' off' :: rest) ->
  (forall i, 0 <= i < extent f -> element m b (off + i) = element m' b' (off' + i)) ->
  exists v, run c m f (OPtr s b off :: rest) = Returns m v /\ run c m' f (OPtr s b' off' :: rest) = Returns m' v.
Proof. exact load_determined. Qed.
Print Assumptions C53_loads.

Theorem C53_any_call : forall f c args m m', In f library -> agree_on (reachable args) m m' ->
  match run c m f args, run c m' f args with
  | Returns n v, Returns n' v' => v = v' /\ agree_on (reachable args) n n' /\
      (forall b, ~ reachable args b -> nth_error n b = nth_error m b)
  | Returns _ _, _ | _, Returns _ _ => False
  | o, o' => o = o'
  end.
Proof. exact call_frame. Qed.
Print Assumptions C53_any_call.

Example C53_example :
  valid_args [(U8, map Some [1;2;3;4;5;6;7;8;9])] vld1_u8 [OPtr U8 0 1] /\
  valid_args [(I8, []); (U8, map Some [2;3;4;5;6;7;8;9])] vld1_u8 [OPtr U8 1 0] /\ extent vld1_u8 = 8 /\
  run strict [(U8, map Some [1;2;3;4;5;6;7;8;9])] vld1_u8 [OPtr U8 0 1]
  = Returns [(U8, map Some [1;2;3;4;5;6;7;8;9])] (Some (vec U8 [2;3;4;5;6;7;8;9])) /\ no_pointers vadd_u8.
Proof.
  split; [apply valid_argsb_ok; vm_compute; reflexivity|]. split; [apply valid_argsb_ok; vm_compute; reflexivity|].
  split; [reflexivity|]. split; [vm_compute; reflexivity|]. intros p s H. cbn in H. decompose [or] H; subst; (discriminate || contradiction).
Qed.

(** ** C54 Documented immediates are accepted.  Missing: vshr_n_u16. *)

Theorem C54_accepted_partial : forall f c m args, In f library -> f_name f <> "vshr_n_u16"%string ->
  well_typed m -> valid_args m f args -> run c m f args <> Aborts.
Proof. intros f c m args. exact (no_abort_valid c m f args). Qed.
Print Assumptions C54_accepted_partial.

Theorem C54_vshr_n_u16_refuted : forall c m a n, lanes U16 4 a -> 9 <= n <= 16 ->
  valid_args m vshr_n_u16 [vec U16 a; rv I32 n] /\ run c m vshr_n_u16 [vec U16 a; rv I32 n] = Aborts.
Proof. exact vshr_n_u16_rejects_valid. Qed.
Print Assumptions C54_vshr_n_u16_refuted.

Example C54_example : valid_args [] vshrn_n_s32 [vec I32 [1;2;3;4]; rv I32 16] /\ ~ valid_args [] vshrn_n_s32 [vec I32 [1;2;3;4]; rv I32 17].
Proof.
  split; [apply valid_argsb_ok; vm_compute; reflexivity|]. intros H. unfold valid_args in H. cbn in H.
  inversion H as [|? ? ? ? _ H1]; subst. inversion H1 as [|? ? ? ? H2 _]; subst. destruct H2 as (_ & _ & n & E & R).
  injection E as <-. lia.
Qed.

(** ** C55 Footprint of memory accesses.  Missing: vst4_u8. *)

Theorem C55_changes_partial : forall f c m s b off rest, In f library -> f_name f <> "vst4_u8"%string -> well_typed m ->
  valid_args m f (OPtr s b off :: rest) ->
  exists m' v, run c m f (OPtr s b off :: rest) = Returns m' v /\ List.length m' = List.length m /\
    forall b' i, ~ (b' = b /\ off <= i < off + extent f) -> element m' b' i = element m b' i.
Proof. exact footprint_writes. Qed.
Print Assumptions C55_changes_partial.

Theorem C55_depends_partial : forall f c m m' s b b' off off' rest, In f library -> f_name f <> "vst4_u8"%string ->
  well_typed m -> well_typed m' ->
  valid_args m f (OPtr s b off :: rest) -> valid_args m' f (OPtr s b' off' :: rest) ->
  (forall i, 0 <= i < extent f -> element m b (off + i) = element m' b' (off' + i)) ->
  exists n n' v, run c m f (OPtr s b off :: rest) = Returns n v /\ run c m' f (OPtr s b' off' :: rest) = Returns n' v /\
    forall i, 0 <= i < extent f -> element n b (off + i) = element n' b' (off' + i).
Proof. exact footprint_depends. Qed.
Print Assumptions C55_depends_partial.

(** vst4_u8 with a pointer to exactly its 32 elements writes a 33rd. *)
Theorem C55_vst4_u8_refuted : forall c, exists m m' s b off rest v, well_typed m /\
  valid_args m vst4_u8 (OPtr s b off :: rest) /\
  run c m vst4_u8 (OPtr s b off :: rest) = Returns m' v /\ element m' b (off + extent vst4_u8) <> element m b (off + extent vst4_u8).
Proof. exact vst4_u8_footprint. Qed.
Print Assumptions C55_vst4_u8_refuted.

Example C55_example : extent vst3_u8 = 24 /\ extent vld1q_dup_f32 = 1 /\ extent vst4q_lane_f32 = 4 /\ extent vld4_u8 = 32 /\
  valid_args [(U8, repeat None 24)] vst3_u8 [OPtr U8 0 0; vecs U8 (repeat (repeat 1 8) 3)].
Proof.
  repeat split; try reflexivity. constructor; [|constructor; [|constructor]].
  - split; [apply has_typeb_ok; reflexivity|]. split; [constructor|]. exists U8, 0%nat, 0, (repeat None 24).
    repeat split; try reflexivity; try (vm_compute; discriminate).
  - apply valid_argb_ok. vm_compute. reflexivity.
Qed.

(** ** C56 Compiling with -fwrapv changes nothing that was defined *)

Theorem C56_wrapv : forall c m f args,
  run c m f args <> Undefined SignedOverflow -> run c m f args <> Undefined BadShift ->
  run (with_wrapv c) m f args = run c m f args.
Proof. exact wrapv_conservative. Qed.
Print Assumptions C56_wrapv.

Example C56_example : with_wrapv strict = wrapping /\
  run strict [] vadd_s32 [vec I32 [2147483647; 0]; vec I32 [1; 0]] = Undefined SignedOverflow /\
  run wrapping [] vadd_s32 [vec I32 [2147483647; 0]; vec I32 [1; 0]] = Returns [] (Some (vec I32 [-2147483648; 0])) /\
  run strict [] vadd_s32 [vec I32 [2147483646; 0]; vec I32 [1; 0]] = Returns [] (Some (vec I32 [2147483647; 0])).
Proof. repeat split; vm_compute; reflexivity. Qed.
