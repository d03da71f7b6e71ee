(** Floating-point environments: the functions of the library. *)
From Coq Require Import ZArith Reals String List Bool Lia Lra.
From Verif Require Import Types FloatBits Syntax Interp ProgRecip ProgAdd ProgSub ProgMul ProgShift ProgPerm ProgRev Library Spec Tables Typing TypeSound MetaSpec Contract P_Contract Fenv P_Fenv FenvSpec.
Import ListNotations.
Open Scope Z_scope.

Section Level.
  Variable kp : bool.
  Variable u : fenv.
  Hypothesis Hk : kp = true -> only_rounding u.
  Variable c : cfg.
  Variable d : nat.
  Variables hs hs' : list func.
  Hypothesis Hfind : forall f h, find (fun h => String.eqb (f_name h) f) hs = Some h ->
    find (fun h => String.eqb (f_name h) f) helpers = Some h /\ pointer_free h = true /\ quiet_func kp hs' h = true.
  Hypothesis Hgood : forall m, map fst m = [] -> calls_good (call_helper c helpers loop_fuel d) hs' m.
  Hypothesis Hsame : forall m, map fst m = [] ->
    calls_alike (call_helper c helpers loop_fuel d) (call_helper_e u c helpers loop_fuel d) hs' m.

  Lemma level_quiet m : calls_alike (call_helper c helpers loop_fuel (S d)) (call_helper_e u c helpers loop_fuel (S d)) hs m.
  Proof.
    intros f h y p o Ef Ep Ho. destruct (Hfind f h Ef) as (Eh & PF & TC). cbn [call_helper call_helper_e]. rewrite Eh.
    assert (A : exact_args [] (f_params h) [o]).
    { rewrite Ep. constructor; [|constructor]. cbn [snd]. eapply plain_has; [|exact Ho]. unfold pointer_free in PF. rewrite Ep in PF. cbn in PF. now destruct (plain p). }
    pose proof (run_body_quiet kp u Hk c _ _ hs' loop_fuel [] Hgood Hsame h [o] [] TC A eq_refl) as R.
    exact (f_equal (fun r => let* r := r in match fst r with Some v => Ok v | None => Err EStuck end) R).
  Qed.
End Level.

Lemma leaves_quiet kp : forall f h, find (fun h => String.eqb (f_name h) f) leaves = Some h ->
  find (fun h => String.eqb (f_name h) f) helpers = Some h /\ pointer_free h = true /\ quiet_func kp [] h = true.
Proof.
  intros f h E. pose proof (find_some _ _ E) as [I N]. apply String.eqb_eq in N. subst f.
  cbn in I. destruct kp, I as [<- | [<- | [<- | []]]]; vm_compute; auto.
Qed.
Lemma helpers_quiet kp : forall f h, find (fun h => String.eqb (f_name h) f) helpers = Some h ->
  find (fun h => String.eqb (f_name h) f) helpers = Some h /\ pointer_free h = true /\ quiet_func kp leaves h = true.
Proof.
  intros f h E. split; [exact E|]. apply find_some in E. destruct E as [I _].
  cbn in I. destruct kp, I as [<- | [<- | [<- | [<- | []]]]]; vm_compute; auto.
Qed.
Lemma no_assumption u : false = true -> only_rounding u.
Proof. discriminate. Qed.
Lemma library_calls_quiet u c m :
  calls_alike (call_helper c helpers loop_fuel call_depth) (call_helper_e u c helpers loop_fuel call_depth) helpers m.
Proof.
  apply (level_quiet false u (no_assumption u) c 2 helpers leaves (helpers_quiet false)).
  - intros m' _. apply (level_good c 1 leaves [] leaves_level). intros m'' _. apply none_good.
  - intros m' _. apply (level_quiet false u (no_assumption u) c 1 leaves [] (leaves_quiet false)); intros m'' _; [apply none_good|]. intros f h y p o E. discriminate E.
Qed.

(** ** The functions that use the floating-point unit *)

Definition arithmetic : list func :=
  [vaddq_f32; vsub_f32; vsub_f32__F64x1; vsubq_f32; vmulq_f32; vmul_n_f32; vmul_n_f64; vmulq_n_f32; vmulq_n_f64;
   vmlaq_f32; vmlaq_n_f32; vrecpsq_f32; vdiv_f32; vdiv_f64; vdivq_f32; vdivq_f64; vcvtq_f32_s32].
Definition comparing : list func :=
  [vmaxq_f32; vminq_f32; vpmax_f32; vpmin_f32; vcltq_f32; vcvtq_s32_f32; vcvtq_u32_f32; vcvtnq_s32_f32].
Definition through_double : list func := [vqsub_s64; vqsub_u64; vqsubq_s64; vqsubq_u64].

Lemma others f : In f library -> quiet_func false helpers f = false -> In f (arithmetic ++ comparing ++ through_double).
Proof.
  intros I E. assert (K : In f (filter (fun f => negb (quiet_func false helpers f)) library)).
  { apply filter_In. split; [exact I|]. now rewrite E. }
  rewrite !in_app_iff. vm_compute in K. unfold arithmetic, comparing, through_double. cbn [In].
  repeat (destruct K as [K|K]; [subst f; tauto|]). destruct K.
Qed.
Lemma others_rounding f : In f library -> quiet_func true helpers f = false -> In f (arithmetic ++ through_double).
Proof.
  intros I E. assert (K : In f (filter (fun f => negb (quiet_func true helpers f)) library)).
  { apply filter_In. split; [exact I|]. now rewrite E. }
  rewrite !in_app_iff. vm_compute in K. unfold arithmetic, through_double. cbn [In].
  repeat (destruct K as [K|K]; [subst f; tauto|]). destruct K.
Qed.

Lemma typed_exact m f args : typed_args m f args -> exact_args (map fst m) (f_params f) args.
Proof. unfold typed_args, exact_args. intros H. induction H as [|[y t] o ps args Ho _ IH]; constructor; [|exact IH]. now apply has_type_has. Qed.

Lemma quiet_same kp u c m f args : (kp = true -> only_rounding u) -> quiet_func kp helpers f = true -> typed_args m f args ->
  run_env u c m f args = run c m f args.
Proof.
  intros Hk C T. unfold run_env, run. f_equal.
  apply (run_body_quiet kp u Hk c _ _ helpers loop_fuel (map fst m)).
  - intros m' _. apply library_calls_good.
  - intros m' _. apply library_calls_quiet.
  - exact C.
  - now apply typed_exact.
  - reflexivity.
Qed.

Lemma environment_irrelevant u c m f args : In f library -> ~ In f (arithmetic ++ comparing ++ through_double) ->
  typed_args m f args -> run_env u c m f args = run c m f args.
Proof.
  intros I N T. destruct (quiet_func false helpers f) eqn:E; [now apply (quiet_same false)|]. contradict N. now apply others.
Qed.
Lemma rounding_irrelevant u c m f args : only_rounding u -> In f library -> ~ In f (arithmetic ++ through_double) ->
  typed_args m f args -> run_env u c m f args = run c m f args.
Proof.
  intros O I N T. destruct (quiet_func true helpers f) eqn:E; [now apply (quiet_same true)|]. contradict N. now apply others_rounding.
Qed.

(** ** The default environment *)

Section Default.
  Variable c : cfg.
  Notation u := (default_env c).

  Lemma convert_default s t z : convert_e u s t z = convert c s t z.
  Proof. reflexivity. Qed.
  Lemma truth_default t z : truth_e u t z = truth t z.
  Proof. reflexivity. Qed.
  Lemma binary_default op s x t y : binary_e u c op s x t y = binary c op s x t y.
  Proof.
    unfold binary_e. destruct (is_float (usual s t)) eqn:F; [|reflexivity]. unfold binary.
    assert (SF : (is_float s || is_float t)%bool = true) by (destruct s, t; cbn in *; congruence). rewrite SF, F, !convert_default.
    assert (K : forall s' z, exists z', convert c s' (usual s t) z = Ok z').
    { intros s' z. unfold convert. destruct (sty_eqb s' (usual s t)); [eauto|]. rewrite F. destruct (is_float s'); eauto. }
    destruct (K s x) as [x' ->]. destruct (K t y) as [y' ->]. cbn [bind]. destruct op; reflexivity.
  Qed.
  Lemma unary_default op t x : unary_e u c op t x = unary c op t x.
  Proof. destruct op; reflexivity. Qed.
  Lemma cond_default o : cond_value_e u o = cond_value o.
  Proof. reflexivity. Qed.
  Lemma put_default t z : forall ks o, put_e u o ks t z = put c o ks t z.
  Proof.
    induction ks as [|k ks IH]; intros o; cbn [put_e put]; [reflexivity|]. destruct o; try reflexivity. apply bind_ext. intros x. now rewrite IH.
  Qed.
  Lemma assign_default en m y ks v : assign_e u en m y ks v = assign c en m y ks v.
  Proof.
    unfold assign_e, assign. apply bind_ext. intros p. destruct (lookup y en) as [[| |]|]; try reflexivity; now rewrite put_default.
  Qed.
  Lemma init_default t o : init_obj_e u t o = init_obj c t o.
  Proof. reflexivity. Qed.
  Lemma bind_params_default : forall ps args, bind_params_e u ps args = bind_params c ps args.
  Proof. induction ps as [|[y t] ps IH]; intros [|a args]; cbn [bind_params_e bind_params]; try reflexivity. Qed.

  Section Calls.
    Variables callf callf' : string -> obj -> res obj.
    Hypothesis Hcall : forall f o, callf' f o = callf f o.
    Variable fuel : nat.

    Lemma eval_default en m : forall e, eval_e u c callf' en m e = eval c callf en m e.
    Proof.
      induction e as [s z|y|a IHa i IHi|op a IHa|op a IHa b IHb|a IHa b IHb|a IHa b IHb|a IHa b IHb d IHd|s a IHa|s a IHa b IHb|s a IHa b IHb|f a IHa];
        cbn [eval eval_e]; rewrite ?IHa, ?IHb, ?IHd, ?IHi; try reflexivity.
      - apply bind_ext. intros o. apply bind_ext. intros p. apply unary_default.
      - apply bind_ext. intros o. apply bind_ext. intros p. apply bind_ext. intros o'. apply bind_ext. intros p'. apply binary_default.
      - apply bind_ext. intros o. apply Hcall.
    Qed.
    Lemma eval_path_default en m : forall p, eval_path_e u c callf' en m p = eval_path c callf en m p.
    Proof. induction p as [|e p IH]; cbn [eval_path_e eval_path]; [reflexivity|]. now rewrite eval_default, IH. Qed.
    Lemma loop_ext cond cond' step step' : (forall en m, cond' en m = cond en m) -> (forall en m, step' en m = step en m) ->
      forall k en m, loop k cond' step' en m = loop k cond step en m.
    Proof.
      intros HC HS. induction k as [|k IH]; intros en m; cbn [loop]; [reflexivity|]. rewrite HC. apply bind_ext. intros [|]; [|reflexivity].
      rewrite HS. apply bind_ext. intros [|]; [apply IH|reflexivity].
    Qed.
    Lemma exec_default : forall s en m, exec_e u c callf' fuel s en m = exec c callf fuel s en m.
    Proof.
      induction s as [|s1 IH1 s2 IH2|t y o|y path e|e s1 IH1 s2 IH2|t i init cond next body IH|d s n| |e]; intros en m; cbn [exec exec_e];
        rewrite ?eval_default, ?eval_path_default; try reflexivity.
      - rewrite IH1. apply bind_ext. intros [|]; [apply IH2|reflexivity].
      - destruct o as [e|]; [|reflexivity]. now rewrite eval_default.
      - apply bind_ext. intros ks. apply bind_ext. intros v. now rewrite assign_default.
      - apply bind_ext. intros o. apply bind_ext. intros b. now rewrite IH1, IH2.
      - apply bind_ext. intros o. apply bind_ext. intros o'. f_equal. apply loop_ext.
        + intros en1 m1. now rewrite eval_default.
        + intros en1 m1. rewrite IH. apply bind_ext. intros r. destruct (pop_ctl (List.length en1) r); [|reflexivity].
          rewrite eval_default. apply bind_ext. intros v. now rewrite assign_default.
    Qed.
    Lemma run_body_default f args m : run_body_e u c callf' fuel f args m = run_body c callf fuel f args m.
    Proof. unfold run_body_e, run_body. rewrite bind_params_default. apply bind_ext. intros en. now rewrite exec_default. Qed.
  End Calls.

  Lemma call_default prog fuel : forall d f o, call_helper_e u c prog fuel d f o = call_helper c prog fuel d f o.
  Proof.
    induction d as [|d IH]; intros f o; cbn [call_helper_e call_helper]; [reflexivity|]. destruct (find _ prog) as [h|]; [|reflexivity].
    now rewrite (run_body_default (call_helper c prog fuel d)).
  Qed.
  Lemma run_default m f args : run_env u c m f args = run c m f args.
  Proof. unfold run_env, run. f_equal. apply run_body_default. intros. apply call_default. Qed.
End Default.

(** ** Lanes: what the functions compute in any environment *)

Ltac split_lanes := repeat match goal with
  | H : lanes _ ?n ?l |- _ => destruct H as [H _]; repeat (destruct l as [|? l]; try discriminate H); clear H
  end.

Lemma lanes_operation u c m f o t n a b : In (f, o, t, n)
    [(vaddq_f32, FAdd, F32, 4%nat); (vsub_f32, FSub, F32, 2%nat); (vsub_f32__F64x1, FSub, F64, 1%nat); (vsubq_f32, FSub, F32, 4%nat);
     (vmulq_f32, FMul, F32, 4%nat); (vdiv_f32, FDiv, F32, 2%nat); (vdiv_f64, FDiv, F64, 1%nat); (vdivq_f32, FDiv, F32, 4%nat); (vdivq_f64, FDiv, F64, 2%nat)] ->
  lanes t n a -> lanes t n b ->
  run_env u c m f [vec t a; vec t b] = Returns m (Some (vec t (map2 (operation u o t) a b))).
Proof.
  intros I La Lb. cbn [In] in I.
  repeat (destruct I as [I|I]; [injection I as <- <- <- <-; split_lanes; vm_compute; reflexivity|]). destruct I.
Qed.
Lemma lanes_operation_n u c m f t n a b : In (f, t, n) [(vmul_n_f32, F32, 2%nat); (vmul_n_f64, F64, 1%nat); (vmulq_n_f32, F32, 4%nat); (vmulq_n_f64, F64, 2%nat)] ->
  lanes t n a -> run_env u c m f [vec t a; rv t b] = Returns m (Some (vec t (map (fun x => operation u FMul t x b) a))).
Proof.
  intros I La. cbn [In] in I.
  repeat (destruct I as [I|I]; [injection I as <- <- <-; split_lanes; vm_compute; reflexivity|]). destruct I.
Qed.
Lemma lanes_mla u c m a x y : lanes F32 4 a -> lanes F32 4 x -> lanes F32 4 y ->
  run_env u c m vmlaq_f32 [vec F32 a; vec F32 x; vec F32 y] =
  Returns m (Some (vec F32 (map2 (operation u FAdd F32) a (map2 (operation u FMul F32) x y)))).
Proof. intros. split_lanes. vm_compute. reflexivity. Qed.
Lemma lanes_mla_n u c m a x y : lanes F32 4 a -> lanes F32 4 x ->
  run_env u c m vmlaq_n_f32 [vec F32 a; vec F32 x; rv F32 y] =
  Returns m (Some (vec F32 (map2 (operation u FAdd F32) a (map (fun x => operation u FMul F32 x y) x)))).
Proof. intros. split_lanes. vm_compute. reflexivity. Qed.
Lemma lanes_cvt u c m a : lanes I32 4 a ->
  run_env u c m vcvtq_f32_s32 [vec I32 a] = Returns m (Some (vec F32 (map (from_integer u F32) a))).
Proof. intros. split_lanes. vm_compute. reflexivity. Qed.
Lemma lanes_recps u c m a b : lanes F32 4 a -> lanes F32 4 b ->
  run_env u c m vrecpsq_f32 [vec F32 a; vec F32 b] =
  Returns m (Some (vec F32 (map2 (fun x y => from_float u F64 F32 (operation u FSub F64 4611686018427387904 (from_float u F32 F64 (operation u FMul F32 x y)))) a b))).
Proof. intros. split_lanes. vm_compute. reflexivity. Qed.
