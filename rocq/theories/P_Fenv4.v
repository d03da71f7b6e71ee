(** Floating-point environments: lanes of directed environments, and functions that depend on the environment. *)
From Coq Require Import ZArith Reals String List Bool Lia Lra.
From Flocq Require Import Core BinarySingleNaN.
From Verif Require Import Types FloatBits FloatSpec FloatR Syntax Interp ProgRecip ProgAdd ProgSub ProgMul ProgShift ProgPerm ProgRev Library Spec Tables PropBase MetaSpec P_Meta2 Fenv FenvSpec P_Fenv2 P_Fenv3.
Import ListNotations.
Open Scope Z_scope.

Definition operation_table : list (func * fop * sty * nat) :=
  [(vaddq_f32, FAdd, F32, 4%nat); (vsub_f32, FSub, F32, 2%nat); (vsub_f32__F64x1, FSub, F64, 1%nat); (vsubq_f32, FSub, F32, 4%nat);
   (vmulq_f32, FMul, F32, 4%nat); (vdiv_f32, FDiv, F32, 2%nat); (vdiv_f64, FDiv, F64, 1%nat); (vdivq_f32, FDiv, F32, 4%nat); (vdivq_f64, FDiv, F64, 2%nat)].

Lemma map2_nth (f : Z -> Z -> Z) : forall a b q, (q < List.length a)%nat -> List.length b = List.length a ->
  nth q (map2 f a b) 0 = f (nth q a 0) (nth q b 0).
Proof.
  induction a as [|x a IH]; intros [|y b] q Hq L; cbn in *; try lia. destruct q; [reflexivity|]. apply IH; lia.
Qed.

Lemma lanes_closest down u f o t n c m a b : rounds_toward down u -> In (f, o, t, n) operation_table ->
  lanes t n a -> lanes t n b -> Forall (ffin t) a -> Forall (ffin t) b -> (o = FDiv -> Forall (fun y => fval t y <> 0%R) b) ->
  exists r, run_env u c m f [vec t a; vec t b] = Returns m (Some (vec t r)) /\
    forall q, (q < n)%nat -> closest down t (exact_result o (fval t (nth q a 0%Z)) (fval t (nth q b 0%Z))) (nth q r 0).
Proof.
  intros U I La Lb Fa Fb Nz. exists (map2 (operation u o t) a b). split; [now apply (lanes_operation u c m f o t n)|].
  assert (T : fty t /\ In o [FAdd; FSub; FMul; FDiv]).
  { unfold operation_table in I. cbn [In] in I. unfold fty. cbn [In]. decompose [or] I; try contradiction;
      match goal with H : _ = (f, o, t, n) |- _ => injection H as <- <- <- <- end; tauto. }
  destruct T as [Ht Io]. destruct La as [La Ra], Lb as [Lb Rb]. intros q Hq. rewrite map2_nth by congruence.
  assert (Qa : (q < List.length a)%nat) by congruence. assert (Qb : (q < List.length b)%nat) by congruence.
  apply U; trivial; try (now apply in_nth). intros E. specialize (Nz E). revert Nz. intros Nz. exact (in_nth (fun y => fval t y <> 0%R) b q Nz Qb).
Qed.

Lemma enclosure ud uu c m a steps : rounds_toward true ud -> rounds_toward false uu -> finite_lanes a ->
  Forall (fun s => finite_lanes (fst s) /\ finite_lanes (snd s)) steps ->
  exists l h, accumulate_in ud c m (vec F32 a) steps = Returns m (Some (vec F32 l)) /\
    accumulate_in uu c m (vec F32 a) steps = Returns m (Some (vec F32 h)) /\
    forall q, (q < 4)%nat ->
      (nth q l 0 = infinity F32 true \/ ffin F32 (nth q l 0%Z) /\ (fval F32 (nth q l 0%Z) <= fval F32 (nth q a 0%Z) + products q steps)%R) /\
      (nth q h 0 = infinity F32 false \/ ffin F32 (nth q h 0%Z) /\ (fval F32 (nth q a 0%Z) + products q steps <= fval F32 (nth q h 0%Z))%R).
Proof.
  intros Ud Uu Fa Fs. destruct (interval true ud c m a steps Ud Fa Fs) as (l & El & _ & Bl). destruct (interval false uu c m a steps Uu Fa Fs) as (h & Eh & _ & Bh).
  exists l, h. split; [exact El|]. split; [exact Eh|]. intros q Hq. split; [exact (Bl q Hq)|exact (Bh q Hq)].
Qed.

(** ** Dependence *)

Definition different (u : fenv) (f : func) (args : list obj) : Prop :=
  typed_args [] f args /\ run_env u strict [] f args <> run strict [] f args.
Ltac differs args := exists args; split; [apply valid_typed_lit; vm_compute; reflexivity|vm_compute; discriminate].

Definition third : Z := 1051372203. Definition one : Z := 1065353216. Definition small : Z := 796917760. Definition three : Z := 1077936128.
Definition one64 : Z := 4607182418800017408. Definition small64 : Z := 4197354852371111936. Definition odd64 : Z := 4607182418800017409. Definition three64 : Z := 4613937818241073152.

Lemma upward_differs f : In f (arithmetic ++ through_double) -> exists args, different (ieee_env mode_UP) f args.
Proof.
  intros I. unfold arithmetic, through_double in I. cbn [app In] in I.
  destruct I as [<-|I]; [differs [vec F32 [one;0;0;0]; vec F32 [small;0;0;0]]|].
  destruct I as [<-|I]; [differs [vec F32 [one;0]; vec F32 [2147483648 + small;0]]|].
  destruct I as [<-|I]; [differs [vec F64 [one64]; vec F64 [9223372036854775808 + small64]]|].
  destruct I as [<-|I]; [differs [vec F32 [one;0;0;0]; vec F32 [2147483648 + small;0;0;0]]|].
  destruct I as [<-|I]; [differs [vec F32 [one + 1;0;0;0]; vec F32 [one + 1;0;0;0]]|].
  destruct I as [<-|I]; [differs [vec F32 [one + 1;0]; rv F32 (one + 1)]|].
  destruct I as [<-|I]; [differs [vec F64 [odd64]; rv F64 odd64]|].
  destruct I as [<-|I]; [differs [vec F32 [one + 1;0;0;0]; rv F32 (one + 1)]|].
  destruct I as [<-|I]; [differs [vec F64 [odd64;0]; rv F64 odd64]|].
  destruct I as [<-|I]; [differs [vec F32 [0;0;0;0]; vec F32 [one + 1;0;0;0]; vec F32 [one + 1;0;0;0]]|].
  destruct I as [<-|I]; [differs [vec F32 [0;0;0;0]; vec F32 [one + 1;0;0;0]; rv F32 (one + 1)]|].
  destruct I as [<-|I]; [differs [vec F32 [one + 1;0;0;0]; vec F32 [one + 1;0;0;0]]|].
  destruct I as [<-|I]; [differs [vec F32 [one;one]; vec F32 [2147483648 + three;one]]|].
  destruct I as [<-|I]; [differs [vec F64 [one64]; vec F64 [three64]]|].
  destruct I as [<-|I]; [differs [vec F32 [one;one;one;one]; vec F32 [2147483648 + three;one;one;one]]|].
  destruct I as [<-|I]; [differs [vec F64 [one64;one64]; vec F64 [three64;one64]]|].
  destruct I as [<-|I]; [differs [vec I32 [16777217;0;0;0]]|].
  destruct I as [<-|I]; [differs [vec I64 [9007199254740993]; vec I64 [0]]|].
  destruct I as [<-|I]; [differs [vec U64 [9007199254740993]; vec U64 [0]]|].
  destruct I as [<-|I]; [differs [vec I64 [9007199254740993;0]; vec I64 [0;0]]|].
  destruct I as [<-|I]; [differs [vec U64 [9007199254740993;0]; vec U64 [0;0]]|].
  destruct I.
Qed.

Lemma flushing_differs f : In f [vmaxq_f32; vminq_f32; vpmax_f32; vpmin_f32; vcltq_f32] -> exists args, different (flushing (default_env strict)) f args.
Proof.
  intros I. cbn [In] in I.
  destruct I as [<-|I]; [differs [vec F32 [1;0;0;0]; vec F32 [0;0;0;0]]|].
  destruct I as [<-|I]; [differs [vec F32 [0;0;0;0]; vec F32 [1;0;0;0]]|].
  destruct I as [<-|I]; [differs [vec F32 [1;0]; vec F32 [0;0]]|].
  destruct I as [<-|I]; [differs [vec F32 [0;1]; vec F32 [0;0]]|].
  destruct I as [<-|I]; [differs [vec F32 [0;0;0;0]; vec F32 [1;0;0;0]]|].
  destruct I.
Qed.

Lemma ieee_only_rounding m : only_rounding (ieee_env m).
Proof. split; [|split]; reflexivity. Qed.
