(** Sums of products of floats: concrete cases. *)
From Coq Require Import ZArith Reals String List Bool Lia Lra.
From Flocq Require Import Core.
From Verif Require Import Types FloatSpec Syntax Interp ProgRecip Library Spec Tables PropBase Contract FloatSum P_Kernels P_FloatSum P_FloatSum2.
Import ListNotations.
Open Scope Z_scope.

Ltac fval_lit :=
  unfold fval;
  repeat match goal with
  | |- context [exp_field ?t ?z] => let v := eval vm_compute in (exp_field t z) in change (exp_field t z) with v
  | |- context [frac_field ?t ?z] => let v := eval vm_compute in (frac_field t z) in change (frac_field t z) with v
  | |- context [sign_bit ?t ?z] => let v := eval vm_compute in (sign_bit t z) in change (sign_bit t z) with v
  end; cbn -[Rmult Rinv IZR]; lra.

Lemma v1 : fval F32 1065353216 = 1%R. Proof. fval_lit. Qed.
Lemma v2 : fval F32 1073741824 = 2%R. Proof. fval_lit. Qed.
Lemma v3 : fval F32 1077936128 = 3%R. Proof. fval_lit. Qed.
Lemma v7 : fval F32 1088421888 = 7%R. Proof. fval_lit. Qed.
Lemma vbig : fval F32 1266679808 = 16777216%R. Proof. fval_lit. Qed.
Lemma vneg : fval F32 3414163456 = (-16777216)%R. Proof. fval_lit. Qed.

Definition l7 : list (Z * Z) := [(1065353216, 1077936128); (1073741824, 1073741824)].

Lemma l7_abs : dot_abs l7 = 7%R.
Proof. cbn [dot_abs l7]. rewrite v1, v2, v3, !Rabs_pos_eq by lra. lra. Qed.
Lemma l7_dot : dot l7 = 7%R.
Proof. cbn [dot l7]. rewrite v1, v2, v3. lra. Qed.

Lemma example_hypotheses :
  all_finite l7 /\ integral l7 /\ (dot_abs l7 <= 16777216)%R /\ dot l7 = 7%R /\ fits l7 /\ accurate l7 1088421888.
Proof.
  split; [repeat constructor; vm_compute; discriminate|].
  split.
  { repeat constructor; cbn [fst snd]; [exists 1; apply v1|exists 3; apply v3|exists 2; apply v2|exists 2; apply v2]. }
  split; [rewrite l7_abs; lra|]. split; [exact l7_dot|].
  assert (P : part = (/ 16777216)%R) by reflexivity.
  assert (T : (0 < tiny <= 1)%R).
  { split; [apply tiny_pos|]. unfold tiny. apply (bpow_le radix2 (-150) 0). lia. }
  assert (I : INR (2 * length l7) = 4%R) by (cbn; lra).
  split.
  - unfold fits. rewrite l7_abs, I. apply Rle_trans with (bpow radix2 10); [|apply bpow_le; lia].
    change (bpow radix2 10) with 1024%R. change (length l7) with 2%nat. cbn [pow]. rewrite P. nra.
  - split; [vm_compute; discriminate|]. rewrite v7, l7_dot, l7_abs, I. rewrite Rminus_diag_eq, Rabs_R0 by reflexivity.
    pose proof (power_ge 3). pose proof (power_ge 2). change (length l7) with 2%nat. nra.
Qed.

Definition cancelling : list (contraction * list Z * list Z) :=
  map (fun z => (mkcontraction (fun _ _ _ => NoFuse) (fun _ _ _ _ => 0), repeat z 4, repeat 1065353216 4)) [1266679808; 1065353216; 3414163456].

Lemma cancellation_refuted : ~ (forall c m steps, Forall (fun s => lanes F32 4 (snd (fst s)) /\ lanes F32 4 (snd s)) steps ->
  forall r, accumulate c m (vec F32 (repeat 0 4)) steps = Returns m (Some (vec F32 r)) ->
    forall q, (q < 4)%nat -> all_finite (lane_pairs q steps) -> integral (lane_pairs q steps) ->
      (Rabs (fval F32 (nth q r 0%Z) - dot (lane_pairs q steps)) <= Rabs (dot (lane_pairs q steps)) / 2)%R).
Proof.
  intros H. specialize (H strict [] cancelling).
  assert (D : dot (lane_pairs 0 cancelling) = 1%R).
  { cbn [lane_pairs cancelling map fst snd nth repeat dot]. rewrite v1, vbig, vneg. lra. }
  assert (X : (Rabs (fval F32 0%Z - 1) <= Rabs 1 / 2)%R).
  { assert (F : Forall (fun s => lanes F32 4 (snd (fst s)) /\ lanes F32 4 (snd s)) cancelling).
    { apply Forall_forall. intros s Hs. apply in_map_iff in Hs as (z & <- & Hz). cbn [fst snd].
      split; apply P_Kernels.repeat_lanes; [cbn in Hz; destruct Hz as [<-|[<-|[<-|[]]]]|]; vm_compute; split; discriminate || reflexivity. }
    rewrite <- D. refine (H F (repeat 0 4) _ 0%nat _ _ _); [|lia| |].
    - vm_compute. reflexivity.
    - repeat constructor; vm_compute; discriminate.
    - repeat constructor; cbn [lane_pairs cancelling map fst snd nth repeat];
        first [exists 1; apply v1|exists 16777216; apply vbig|exists (-16777216); apply vneg]. }
  rewrite (proj2 zero_value) in X. rewrite Rabs_left in X by lra. rewrite Rabs_pos_eq in X by lra. lra.
Qed.
