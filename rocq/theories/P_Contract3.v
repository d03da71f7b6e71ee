(** Where the product is exact, contraction changes nothing. *)
From Coq Require Import ZArith String List Bool Lia Reals Lra.
From Flocq Require Import Core Double_rounding.
From Verif Require Import Types FloatBits FloatSpec FloatR Syntax Interp ProgRecip Spec.
From Verif Require Import ProgMul ProgShift P_Recps P_Det P_Nan2 Contract ContractSpec P_Contract2.
From Verif Require P_Float.
Import ListNotations.
Open Scope Z_scope.

(** ** A number and a sign determine the pattern *)

Lemma fin_inj t z z' : fty t -> in_range t z -> in_range t z' -> ffin t z -> ffin t z' ->
  fval t z = fval t z' -> sign_bit t z = sign_bit t z' -> z = z'.
Proof.
  intros Ht Hz Hz' F F' V S.
  destruct (decode_denotes t z Ht Hz) as (b & E & D). destruct (decode_denotes t z' Ht Hz') as (b' & E' & D').
  destruct (denotes_fin _ _ _ D F) as (Fb & Vb & Sb). destruct (denotes_fin _ _ _ D' F') as (Fb' & Vb' & Sb').
  assert (B : b = b') by (apply BinarySingleNaN.B2R_Bsign_inj; congruence).
  rewrite <- (enc_dec t 0 z Ht Hz), <- (enc_dec t 0 z' Ht Hz'); [rewrite E, E'; now subst| |];
    rewrite <- nan_decode by assumption; intros N; eauto using fin_not_nan.
Qed.

Lemma rounded_det t v s r r' : fty t -> in_range t r -> in_range t r' -> rounded t v s r -> rounded t v s r' -> r = r'.
Proof.
  intros Ht Hr Hr' H H'. unfold rounded in H, H'.
  destruct (Rlt_bool (Rabs (rnd t v)) (bpow radix2 (max_exp t))).
  - destruct H as (F & V & S), H' as (F' & V' & S'). apply (fin_inj t); trivial; congruence.
  - congruence.
Qed.

(** ** The product *)

Lemma exact_mul t x y p : fty t -> ffin t x -> ffin t y -> exact_product t x y -> ieee_mul t x y p ->
  ffin t p /\ fval t p = (fval t x * fval t y)%R /\ sign_bit t p = xorb (sign_bit t x) (sign_bit t y).
Proof.
  intros Ht Fx Fy [E B] (_ & _ & _ & _ & H). specialize (H Fx Fy). unfold rounded in H.
  rewrite E, (Rlt_bool_true _ _ B) in H. exact H.
Qed.

Lemma mla_agree x y z r r' : in_range F32 r -> in_range F32 r' -> ffin F32 x -> ffin F32 y -> ffin F32 z -> exact_product F32 x y ->
  two_roundings F32 x y z r -> ieee_fma F32 x y z r' -> r = r'.
Proof.
  intros Hr Hr' Fx Fy Fz X (p & _ & M & A) (_ & _ & _ & _ & H).
  destruct (exact_mul F32 x y p f32 Fx Fy X M) as (Fp & Vp & Sp). destruct A as (_ & _ & _ & _ & A).
  specialize (A Fz Fp). specialize (H Fx Fy Fz). rewrite Vp, Sp in A. rewrite Rplus_comm, andb_comm in A.
  now apply (rounded_det F32 _ _ r r' f32 Hr Hr' A).
Qed.

Lemma two_same x y z r r' : in_range F32 r -> in_range F32 r' -> ffin F32 x -> ffin F32 y -> ffin F32 z -> exact_product F32 x y ->
  two_roundings F32 x y z r -> two_roundings F32 x y z r' -> r = r'.
Proof.
  intros Hr Hr' Fx Fy Fz X (p & _ & M & A) (p' & _ & M' & A').
  destruct (exact_mul F32 x y p f32 Fx Fy X M) as (Fp & Vp & Sp). destruct (exact_mul F32 x y p' f32 Fx Fy X M') as (Fp' & Vp' & Sp').
  destruct A as (_ & _ & _ & _ & A). destruct A' as (_ & _ & _ & _ & A'). specialize (A Fz Fp). specialize (A' Fz Fp').
  rewrite Vp, Sp in A. rewrite Vp', Sp' in A'. now apply (rounded_det F32 _ _ r r' f32 Hr Hr' A).
Qed.

Lemma lanes_eq r r' : lanes F32 4 r -> lanes F32 4 r' ->
  (forall i z z', nth_error r i = Some z -> nth_error r' i = Some z' -> z = z') -> r = r'.
Proof.
  intros [L _] [L' _] H. apply list_ext; [congruence|]. intros i Hi.
  destruct (nth_error r i) as [z|] eqn:E; [|apply nth_error_None in E; lia].
  destruct (nth_error r' i) as [z'|] eqn:E'; [|apply nth_error_None in E'; lia].
  f_equal. now apply (H i).
Qed.

Lemma lane_range t n l i z : lanes t n l -> nth_error l i = Some z -> in_range t z.
Proof. intros [_ F] E. apply nth_error_In in E. rewrite Forall_forall in F. auto. Qed.

Lemma other_lane {A B} (l : list A) (l' : list B) i z : List.length l = List.length l' -> nth_error l i = Some z -> exists z', nth_error l' i = Some z'.
Proof.
  intros L E. destruct (nth_error l' i) as [z'|] eqn:E'; [eauto|]. apply nth_error_None in E'.
  assert (i < List.length l)%nat by (apply nth_error_Some; congruence). lia.
Qed.

Theorem vmlaq_exact x c m a b d : lanes F32 4 a -> lanes F32 4 b -> lanes F32 4 d ->
  Forall (ffin F32) a -> Forall (ffin F32) b -> Forall (ffin F32) d -> all_lanes (exact_product F32) b d ->
  run_contracted x c m vmlaq_f32 [vec F32 a; vec F32 b; vec F32 d] = run c m vmlaq_f32 [vec F32 a; vec F32 b; vec F32 d].
Proof.
  intros Ha Hb Hd Fa Fb Fd X. rewrite Forall_forall in Fa, Fb, Fd.
  destruct (vmlaq_contracted x c m a b d Ha Hb Hd) as (r & -> & Hr & S).
  destruct (P_Float.vmlaq_f32_exact c m a b d Ha Hb Hd) as (p & r' & -> & Hp & M & Hr' & A).
  do 3 f_equal. apply lanes_eq; [exact Hr|exact Hr'|]. intros i z z' Ez Ez'.
  pose proof Ha as [La _]. pose proof Hb as [Lb _]. pose proof Hd as [Ld _]. pose proof Hp as [Lp _]. pose proof Hr as [Lr _].
  destruct (other_lane r a i z ltac:(congruence) Ez) as [u Eu]. destruct (other_lane r b i z ltac:(congruence) Ez) as [v Ev].
  destruct (other_lane r d i z ltac:(congruence) Ez) as [w Ew]. destruct (other_lane r p i z ltac:(congruence) Ez) as [q Eq].
  assert (T : two_roundings F32 v w u z') by (exists q; eauto 6 using lane_range).
  assert (Fu : ffin F32 u) by (eapply Fa, nth_error_In; eassumption).
  assert (Fv : ffin F32 v) by (eapply Fb, nth_error_In; eassumption).
  assert (Fw : ffin F32 w) by (eapply Fd, nth_error_In; eassumption).
  assert (Xi : exact_product F32 v w) by (eapply X; eassumption).
  pose proof (lane_range F32 4 r i z Hr Ez) as Rz. pose proof (lane_range F32 4 r' i z' Hr' Ez') as Rz'.
  destruct (S i u v w z Eu Ev Ew Ez) as [T'|T']; [now apply (two_same v w u)|]. symmetry. now apply (mla_agree v w u).
Qed.

Theorem vmlaq_n_exact x c m a b s : lanes F32 4 a -> lanes F32 4 b -> in_range F32 s ->
  Forall (ffin F32) a -> Forall (ffin F32) b -> ffin F32 s -> Forall (fun y => exact_product F32 y s) b ->
  run_contracted x c m vmlaq_n_f32 [vec F32 a; vec F32 b; rv F32 s] = run c m vmlaq_n_f32 [vec F32 a; vec F32 b; rv F32 s].
Proof.
  intros Ha Hb Hs Fa Fb Fs X. rewrite Forall_forall in Fa, Fb, X.
  destruct (vmlaq_n_contracted x c m a b s Ha Hb Hs) as (r & -> & Hr & S).
  destruct (P_Float.vmlaq_n_f32_exact c m a b s Ha Hb Hs) as (p & r' & -> & Hp & M & Hr' & A).
  do 3 f_equal. apply lanes_eq; [exact Hr|exact Hr'|]. intros i z z' Ez Ez'.
  pose proof Ha as [La _]. pose proof Hb as [Lb _]. pose proof Hp as [Lp _]. pose proof Hr as [Lr _].
  destruct (other_lane r a i z ltac:(congruence) Ez) as [u Eu]. destruct (other_lane r b i z ltac:(congruence) Ez) as [v Ev].
  destruct (other_lane r p i z ltac:(congruence) Ez) as [q Eq].
  assert (T : two_roundings F32 v s u z').
  { exists q. split; [eauto using lane_range|]. split; [exact (M i v q Ev Eq)|]. exact (A i u q z' Eu Eq Ez'). }
  assert (Fu : ffin F32 u) by (eapply Fa, nth_error_In; eassumption).
  assert (Fv : ffin F32 v) by (eapply Fb, nth_error_In; eassumption).
  assert (Xi : exact_product F32 v s) by (eapply X, nth_error_In; eassumption).
  pose proof (lane_range F32 4 r i z Hr Ez) as Rz. pose proof (lane_range F32 4 r' i z' Hr' Ez') as Rz'.
  destruct (S i u v z Eu Ev Ez) as [T'|T']; [now apply (two_same v s u)|]. symmetry. now apply (mla_agree v s u).
Qed.

(** ** The reciprocal step *)

#[local] Existing Instances prec24 prec53.

Lemma recps_agree x y p r r' : in_range F32 p -> in_range F32 r -> in_range F32 r' -> ffin F32 x -> ffin F32 y -> exact_product F32 x y ->
  ieee_mul F32 x y p -> two_minus F32 p r -> fused_in_double x y r' -> r = r'.
Proof.
  intros Hp Hr Hr' Fx Fy X M (_ & _ & T) (_ & _ & H). specialize (H Fx Fy).
  destruct (exact_mul F32 x y p f32 Fx Fy X M) as (Fp & Vp & _). specialize (T Fp). rewrite <- Vp in H.
  apply (rounded_det F32 _ _ r r' f32 Hr Hr' T). unfold rounded in H |- *.
  replace (rnd F32 (2 - fval F32 p)) with (rnd F32 (rnd F64 (2 - fval F32 p))); [exact H|].
  apply (round_round_minus_FLT radix2 (-149) 24 (-1074) 53); [lia|lia| |].
  - apply FLT_format_generic; [exact prec24|exact two_format].
  - apply FLT_format_generic; [exact prec24|]. exact (fval_format F32 p f32 Hp Fp).
Qed.

Lemma recps_same x y p p' r r' : in_range F32 r -> in_range F32 r' -> ffin F32 x -> ffin F32 y -> exact_product F32 x y ->
  ieee_mul F32 x y p -> two_minus F32 p r -> ieee_mul F32 x y p' -> two_minus F32 p' r' -> r = r'.
Proof.
  intros Hr Hr' Fx Fy X M (_ & _ & T) M' (_ & _ & T').
  destruct (exact_mul F32 x y p f32 Fx Fy X M) as (Fp & Vp & _). destruct (exact_mul F32 x y p' f32 Fx Fy X M') as (Fp' & Vp' & _).
  specialize (T Fp). specialize (T' Fp'). rewrite Vp in T. rewrite Vp' in T'. now apply (rounded_det F32 _ _ r r' f32 Hr Hr' T).
Qed.

Theorem vrecpsq_exact_product x c m a b : lanes F32 4 a -> lanes F32 4 b ->
  Forall (ffin F32) a -> Forall (ffin F32) b -> all_lanes (exact_product F32) a b ->
  run_contracted x c m vrecpsq_f32 [vec F32 a; vec F32 b] = run c m vrecpsq_f32 [vec F32 a; vec F32 b].
Proof.
  intros Ha Hb Fa Fb X. rewrite Forall_forall in Fa, Fb.
  destruct (vrecpsq_contracted x c m a b Ha Hb) as (r & -> & Hr & S).
  destruct (vrecpsq_f32_exact c m a b Ha Hb) as (p & r' & -> & Hp & M & Hr' & A).
  do 3 f_equal. apply lanes_eq; [exact Hr|exact Hr'|]. intros i z z' Ez Ez'.
  pose proof Ha as [La _]. pose proof Hb as [Lb _]. pose proof Hp as [Lp _]. pose proof Hr as [Lr _].
  destruct (other_lane r a i z ltac:(congruence) Ez) as [u Eu]. destruct (other_lane r b i z ltac:(congruence) Ez) as [v Ev].
  destruct (other_lane r p i z ltac:(congruence) Ez) as [q Eq].
  assert (Fu : ffin F32 u) by (eapply Fa, nth_error_In; eassumption).
  assert (Fv : ffin F32 v) by (eapply Fb, nth_error_In; eassumption).
  assert (Xi : exact_product F32 u v) by (eapply X; eassumption).
  pose proof (M i u v q Eu Ev Eq) as Mi. pose proof (A i q z' Eq Ez') as Ai.
  pose proof (lane_range F32 4 r i z Hr Ez) as Rz. pose proof (lane_range F32 4 r' i z' Hr' Ez') as Rz'. pose proof (lane_range F32 4 p i q Hp Eq) as Rq.
  destruct (S i u v z Eu Ev Ez) as [(p' & _ & M' & T')|T']; [now apply (recps_same u v p' q)|]. symmetry. now apply (recps_agree u v q).
Qed.
