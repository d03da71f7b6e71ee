(** Wider formats: the functions of the library. *)
From Coq Require Import ZArith String List Bool Lia.
From Coq Require Import Floats.SpecFloat.
From Verif Require P_Valid2.
From Verif Require Import Types FloatBits Syntax Interp ProgRecip ProgMul ProgPerm ProgRev ProgSub Library Typing TypeSound MetaSpec Contract P_Contract Excess P_Excess.
Import ListNotations.
Open Scope Z_scope.

Section Level.
  Variable w : format.
  Hypothesis Hw : In w formats.
  Variable c : cfg.
  Variable d : nat.
  Variables hs hs' : list func.
  Hypothesis Hfind : forall f h, find (fun h => String.eqb (f_name h) f) hs = Some h ->
    find (fun h => String.eqb (f_name h) f) helpers = Some h /\ pointer_free h = true /\ settled_func w hs' h = true.
  Hypothesis Hgood : forall m, map fst m = [] -> calls_good (call_helper c helpers loop_fuel d) hs' m.
  Hypothesis Hsame : forall m, map fst m = [] ->
    calls_same (call_helper c helpers loop_fuel d) (call_helper_x w c helpers loop_fuel d) hs' m.

  Lemma level_settled m : calls_same (call_helper c helpers loop_fuel (S d)) (call_helper_x w c helpers loop_fuel (S d)) hs m.
  Proof.
    intros f h y p t o Ef Ep Ei Ho. destruct (Hfind f h Ef) as (Eh & PF & TC). cbn [call_helper call_helper_x]. rewrite Eh.
    pose proof (run_body_settled w Hw c _ _ hs' loop_fuel [] Hgood Hsame h [o] [] TC (level_args h y p t o _ Ep PF Ei Ho) eq_refl) as R.
    exact (f_equal (fun r => let* r := r in match fst r with Some v => Ok v | None => Err EStuck end) R).
  Qed.
End Level.

Lemma leaves_settled w : In w formats -> forall f h, find (fun h => String.eqb (f_name h) f) leaves = Some h ->
  find (fun h => String.eqb (f_name h) f) helpers = Some h /\ pointer_free h = true /\ settled_func w [] h = true.
Proof.
  intros Iw f h E. pose proof (find_some _ _ E) as [I N]. apply String.eqb_eq in N. subst f.
  cbn in I. cbn in Iw. destruct Iw as [<- | [<- | [<- | []]]], I as [<- | [<- | [<- | []]]]; vm_compute; auto.
Qed.
Lemma helpers_settled w : In w formats -> forall f h, find (fun h => String.eqb (f_name h) f) helpers = Some h ->
  find (fun h => String.eqb (f_name h) f) helpers = Some h /\ pointer_free h = true /\ settled_func w leaves h = true.
Proof.
  intros Iw f h E. split; [exact E|]. apply find_some in E. destruct E as [I _].
  cbn in I. cbn in Iw. destruct Iw as [<- | [<- | [<- | []]]], I as [<- | [<- | [<- | [<- | []]]]]; vm_compute; auto.
Qed.

Lemma library_calls_settled w c m : In w formats ->
  calls_same (call_helper c helpers loop_fuel call_depth) (call_helper_x w c helpers loop_fuel call_depth) helpers m.
Proof.
  intros Iw. apply (level_settled w Iw c 2 helpers leaves (helpers_settled w Iw)).
  - intros m' _. apply (level_good c 1 leaves [] leaves_level). intros m'' _. apply none_good.
  - intros m' _. apply (level_settled w Iw c 1 leaves [] (leaves_settled w Iw)); intros m'' _; [apply none_good|apply none_same].
Qed.

(** ** The library *)

Definition mixed : list func := [vmlaq_f32; vmlaq_n_f32; vrecpsq_f32].
Definition in_double : list func := [vsub_f32__F64x1; vmul_n_f64; vmulq_n_f64; vdiv_f64; vdivq_f64].
Definition through_double : list func := [vqsub_s64; vqsub_u64; vqsubq_s64; vqsubq_u64].

Lemma others_wide w : In w [double_format; quad_format] -> forall f, In f library -> settled_func w helpers f = false -> In f mixed.
Proof.
  intros Iw f I E. assert (K : In f (filter (fun f => negb (settled_func w helpers f)) library)).
  { apply filter_In. split; [exact I|]. now rewrite E. }
  destruct Iw as [<-|[<-|[]]]; vm_compute in K; exact K.
Qed.

Lemma others_x87 f : In f library -> settled_func x87_format helpers f = false -> In f (mixed ++ in_double ++ through_double).
Proof.
  intros I E. assert (K : In f (filter (fun f => negb (settled_func x87_format helpers f)) library)).
  { apply filter_In. split; [exact I|]. now rewrite E. }
  rewrite !in_app_iff. vm_compute in K. unfold mixed, in_double, through_double. cbn [In].
  repeat (destruct K as [K|K]; [subst f; tauto|]). destruct K.
Qed.

Lemma settled_same w c m f args : In w formats -> settled_func w helpers f = true -> typed_args m f args ->
  run_excess w c m f args = run c m f args.
Proof.
  intros Iw C T. unfold run_excess, run. f_equal.
  apply (run_body_settled w Iw c _ _ helpers loop_fuel (map fst m)).
  - intros m' _. apply library_calls_good.
  - intros m' _. now apply library_calls_settled.
  - exact C.
  - now apply typed_args_ok.
  - reflexivity.
Qed.

Theorem excess_irrelevant w c m f args : In w [double_format; quad_format] -> In f library -> ~ In f mixed -> typed_args m f args ->
  run_excess w c m f args = run c m f args.
Proof.
  intros Iw I N T. apply settled_same; trivial.
  - destruct Iw as [<-|[<-|[]]]; [left|right; right; left]; reflexivity.
  - destruct (settled_func w helpers f) eqn:E; [reflexivity|]. exfalso. now apply N, (others_wide w Iw f I).
Qed.

Theorem extended_irrelevant c m f args : In f library -> ~ In f (mixed ++ in_double ++ through_double) -> typed_args m f args ->
  run_excess x87_format c m f args = run c m f args.
Proof.
  intros I N T. apply settled_same; trivial; [right; left; reflexivity|].
  destruct (settled_func x87_format helpers f) eqn:E; [reflexivity|]. exfalso. now apply N, others_x87.
Qed.
