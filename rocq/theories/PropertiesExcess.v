(** C73: evaluation of floating-point expressions in wider formats. *)
From Coq Require Import ZArith String List Bool Lia.
From Verif Require Import Types Syntax Interp ProgRecip ProgSub ProgMul ProgShift ProgPerm ProgRev Library Spec PropBase MetaSpec Tables.
From Verif Require Import Excess P_Excess P_Excess2 P_Excess3 P_Meta2.
Import ListNotations.
Open Scope Z_scope.

(** If [float] and [double] expressions are evaluated in double or in quadruple precision, every call of
    every function but three has the outcome it has if they are evaluated in their own type. *)
Theorem C73_double_quad : forall w c m f args, In w [double_format; quad_format] -> In f library ->
  ~ In f [vmlaq_f32; vmlaq_n_f32; vrecpsq_f32] -> typed_args m f args ->
  run_excess w c m f args = run c m f args.
Proof. exact excess_irrelevant. Qed.
Print Assumptions C73_double_quad.

(** In the extended format of the x87 also the functions that compute in double are excepted, *)
Theorem C73_x87 : forall c m f args, In f library ->
  ~ In f ([vmlaq_f32; vmlaq_n_f32; vrecpsq_f32] ++
          [vsub_f32__F64x1; vmul_n_f64; vmulq_n_f64; vdiv_f64; vdivq_f64] ++
          [vqsub_s64; vqsub_u64; vqsubq_s64; vqsubq_u64]) -> typed_args m f args ->
  run_excess x87_format c m f args = run c m f args.
Proof. exact extended_irrelevant. Qed.
Print Assumptions C73_x87.

(** but the saturating subtractions of 64-bit lanes, which compute in double, have the same outcome nevertheless. *)
Theorem C73_x87_vqsub64 : forall f t n c m a b, In (f, t, n) vqsub64_table -> lanes t n a -> lanes t n b ->
  run_excess x87_format c m f [vec t a; vec t b] = run c m f [vec t a; vec t b].
Proof. exact x87_vqsub64. Qed.
Print Assumptions C73_x87_vqsub64.

(** The three functions do depend on it: -1 + (1 + 2^-12)^2 is 2^-11 + 2^-24 or 2^-11. *)
Definition minus_one := [3212836864; 0; 0; 0].
Definition one_and := [1065355264; 0; 0; 0].
Theorem C73_refuted : forall w f, In w [double_format; x87_format; quad_format] -> In f [vmlaq_f32; vmlaq_n_f32; vrecpsq_f32] ->
  exists args, typed_args [] f args /\ run_excess w strict [] f args <> run strict [] f args.
Proof.
  intros w f Hw [<-|[<-|[<-|[]]]].
  - exists [vec F32 minus_one; vec F32 one_and; vec F32 one_and].
    split; [apply valid_typed_lit; vm_compute; reflexivity|]. destruct Hw as [<-|[<-|[<-|[]]]]; vm_compute; discriminate.
  - exists [vec F32 minus_one; vec F32 one_and; rv F32 1065355264].
    split; [apply valid_typed_lit; vm_compute; reflexivity|]. destruct Hw as [<-|[<-|[<-|[]]]]; vm_compute; discriminate.
  - exists [vec F32 one_and; vec F32 one_and].
    split; [apply valid_typed_lit; vm_compute; reflexivity|]. destruct Hw as [<-|[<-|[<-|[]]]]; vm_compute; discriminate.
Qed.
Print Assumptions C73_refuted.

(** The functions on lanes of type double depend on the extended format: results are rounded twice. *)
Theorem C73_x87_refuted : forall f, In f [vsub_f32__F64x1; vmul_n_f64; vmulq_n_f64; vdiv_f64; vdivq_f64] ->
  exists args, typed_args [] f args /\ run_excess x87_format strict [] f args <> run strict [] f args.
Proof.
  intros f [<-|[<-|[<-|[<-|[<-|[]]]]]].
  - exists [vec F64 [4607182418800017408]; vec F64 [13591863675404156960]].
    split; [apply valid_typed_lit; vm_compute; reflexivity|vm_compute; discriminate].
  - exists [vec F64 [4607872249171897253]; rv F64 4608941478347381327].
    split; [apply valid_typed_lit; vm_compute; reflexivity|vm_compute; discriminate].
  - exists [vec F64 [4607872249171897253; 0]; rv F64 4608941478347381327].
    split; [apply valid_typed_lit; vm_compute; reflexivity|vm_compute; discriminate].
  - exists [vec F64 [4610879410818099766]; vec F64 [4607797577363198619]].
    split; [apply valid_typed_lit; vm_compute; reflexivity|vm_compute; discriminate].
  - exists [vec F64 [4610879410818099766; 0]; vec F64 [4607797577363198619; 4607182418800017408]].
    split; [apply valid_typed_lit; vm_compute; reflexivity|vm_compute; discriminate].
Qed.
Print Assumptions C73_x87_refuted.

Example C73_example :
  In vmulq_f32 library /\ ~ In vmulq_f32 [vmlaq_f32; vmlaq_n_f32; vrecpsq_f32] /\
  typed_args [] vmulq_f32 [vec F32 one_and; vec F32 one_and] /\
  run_excess x87_format strict [] vmulq_f32 [vec F32 one_and; vec F32 one_and] = Returns [] (Some (vec F32 [1065357312; 0; 0; 0])) /\
  run_excess double_format strict [] vmlaq_f32 [vec F32 minus_one; vec F32 one_and; vec F32 one_and] = Returns [] (Some (vec F32 [973079552; 0; 0; 0])) /\
  run strict [] vmlaq_f32 [vec F32 minus_one; vec F32 one_and; vec F32 one_and] = Returns [] (Some (vec F32 [973078528; 0; 0; 0])) /\
  lanes I64 1 [9007199254740993] /\ lanes I64 1 [3] /\
  run_excess x87_format strict [] vqsub_s64 [vec I64 [9007199254740993]; vec I64 [3]] = Returns [] (Some (vec I64 [9007199254740989])).
Proof.
  split; [repeat (first [left; reflexivity|right])|].
  split; [intros [H|[H|[H|[]]]]; discriminate (f_equal f_name H)|].
  split; [apply valid_typed_lit; vm_compute; reflexivity|]. split; [vm_compute; reflexivity|]. split; [vm_compute; reflexivity|].
  split; [vm_compute; reflexivity|]. split; [lits|]. split; [lits|]. vm_compute. reflexivity.
Qed.
