(** C69: the platform's NaN conventions. *)
From Coq Require Import ZArith String List Bool Lia.
From Verif Require Import Types Syntax Interp ProgRecip Library Spec FloatSpec Tables PropBase MetaSpec NanSpec P_Meta2 P_Nan2.
Import ListNotations.
Open Scope Z_scope.

(** IEEE-754 leaves open the bits of the NaNs an operation produces, and platforms differ.  On two
    platforms that differ in nothing else, every call has the same outcome but for the bits of NaNs: *)
Theorem C69_platform : forall f c c' m args, In f library -> wrapv c = wrapv c' -> well_typed m -> typed_args m f args ->
  Forall initialised args -> same_outcome (run c m f args) (run c' m f args).
Proof. exact platform. Qed.
Print Assumptions C69_platform.

(** the very same outcome if the result has no float lanes; *)
Theorem C69_integer_results : forall f c c' m args, In f library -> is_store f = false -> no_float (f_ret f) = true ->
  wrapv c = wrapv c' -> well_typed m -> typed_args m f args -> Forall initialised args ->
  run c m f args = run c' m f args.
Proof. exact integer_platform. Qed.
Print Assumptions C69_integer_results.

(** and differences in the bits of NaNs stay such differences when passed on to further calls, but for
    the functions that look at the bits. *)
Theorem C69_payloads : forall f c c' m m' args args', In f library -> ~ In (f_name f) inspects_bits -> wrapv c = wrapv c' ->
  well_typed m -> well_typed m' -> typed_args m f args -> typed_args m' f args' ->
  same_memory m m' -> Forall2 same_object args args' -> same_outcome (run c m f args) (run c' m' f args').
Proof. exact nan_payloads. Qed.
Print Assumptions C69_payloads.

(** For the functions that look at the bits, it does not hold: *)
Theorem C69_payloads_refuted : forall n, In n inspects_bits -> n <> "FPRecipEstimate"%string ->
  exists f args args', In f library /\ f_name f = n /\ typed_args [] f args /\ typed_args [] f args' /\
    Forall2 same_object args args' /\ ~ same_outcome (run strict [] f args) (run strict [] f args').
Proof. exact payloads_refuted. Qed.
Print Assumptions C69_payloads_refuted.

(** inf - inf on two platforms: the result is a NaN on both, of different sign. *)
Definition x86 := mkcfg false (fun _ _ _ _ => 4194304).
Definition arm := mkcfg false (fun _ _ _ _ => 0).
Example C69_example :
  In vaddq_f32 library /\ wrapv x86 = wrapv arm /\
  typed_args [] vaddq_f32 [vec F32 [2139095040; 0; 0; 1065353216]; vec F32 [4286578688; 0; 0; 1065353216]] /\
  run x86 [] vaddq_f32 [vec F32 [2139095040; 0; 0; 1065353216]; vec F32 [4286578688; 0; 0; 1065353216]] =
    Returns [] (Some (vec F32 [4290772992; 0; 0; 1073741824])) /\
  run arm [] vaddq_f32 [vec F32 [2139095040; 0; 0; 1065353216]; vec F32 [4286578688; 0; 0; 1065353216]] =
    Returns [] (Some (vec F32 [2143289344; 0; 0; 1073741824])) /\
  no_float (f_ret vcvtq_s32_f32) = true.
Proof.
  split; [repeat (first [left; reflexivity|right])|]. split; [reflexivity|].
  split; [apply valid_typed_lit; vm_compute; reflexivity|]. repeat split; vm_compute; reflexivity.
Qed.
