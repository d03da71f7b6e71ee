(** Bitwise select. *)
From Coq Require Import ZArith String List Bool Lia.
From Verif Require Import Types FloatBits Syntax Interp ProgRecip ExecLemmas Lane Spec Ew Sym Tables.
From Verif Require Import ProgPerm P_Shift P_Bit.
Import ListNotations.
Open Scope Z_scope.
Local Open Scope string_scope.

(** The result bit by bit: the bits of [y] where [x] is 1, of [z] where it is 0. *)
Definition bsl_bits (x y z : Z) : Z := Z.lor (Z.land x y) (Z.ldiff z x).

Definition bit_at (x y z k : Z) : Z :=
  Z.b2z (if Z.testbit x k then Z.testbit y k else Z.testbit z k) * 2 ^ k.

Lemma land_pow2 x k : 0 <= k -> Z.land x (2 ^ k) = Z.b2z (Z.testbit x k) * 2 ^ k.
Proof.
  intros Hk. apply Z.bits_inj'. intros n Hn. rewrite Z.land_spec, Z.pow2_bits_eqb by exact Hk.
  destruct (Z.eqb_spec k n) as [->|Hne].
  - rewrite andb_true_r. destruct (Z.testbit x n); cbn [Z.b2z].
    + rewrite Z.mul_1_l, Z.pow2_bits_eqb, Z.eqb_refl by exact Hn. reflexivity.
    + rewrite Z.mul_0_l, Z.bits_0. reflexivity.
  - rewrite andb_false_r. symmetry. destruct (Z.testbit x k); cbn [Z.b2z].
    + rewrite Z.mul_1_l, Z.pow2_bits_eqb by exact Hk. apply Z.eqb_neq. exact Hne.
    + rewrite Z.mul_0_l. apply Z.bits_0.
Qed.

Lemma bit_at_range x y z k : 0 <= k -> 0 <= bit_at x y z k <= 2 ^ k.
Proof.
  intros Hk. unfold bit_at. pose proof (Z.pow_pos_nonneg 2 k ltac:(lia) Hk).
  destruct (if Z.testbit x k then _ else _); cbn [Z.b2z]; lia.
Qed.

(** A byte is the sum of its bits. *)
Definition byte_sum (w : Z) : Z :=
  fold_left (fun s k => s + Z.b2z (Z.testbit w k) * 2 ^ k)%Z [7; 6; 5; 4; 3; 2; 1; 0] 0.

Lemma byte_sum_eq w : 0 <= w < 256 -> byte_sum w = w.
Proof.
  intros H. assert (T : forallb (fun n => Z.eqb (byte_sum (Z.of_nat n)) (Z.of_nat n)) (seq 0 256) = true) by (vm_compute; reflexivity).
  rewrite forallb_forall in T. specialize (T (Z.to_nat w)). rewrite Z2Nat.id in T by lia.
  apply Z.eqb_eq, T, in_seq. lia.
Qed.

Lemma bsl_bits_spec x y z k : 0 <= k ->
  Z.testbit (bsl_bits x y z) k = if Z.testbit x k then Z.testbit y k else Z.testbit z k.
Proof.
  intros Hk. unfold bsl_bits. rewrite Z.lor_spec, Z.land_spec, Z.ldiff_spec.
  destruct (Z.testbit x k), (Z.testbit y k), (Z.testbit z k); reflexivity.
Qed.

Lemma bsl_bits_range x y z : in_range U8 x -> in_range U8 y -> in_range U8 z -> 0 <= bsl_bits x y z < 256.
Proof.
  intros Hx Hy Hz. unfold bsl_bits.
  assert (R : in_range U8 (Z.lor (Z.land x y) (Z.ldiff z x))).
  { apply lor_range; [reflexivity|now apply land_range|].
    apply range_shift in Hz; [|reflexivity]. apply range_shift; [reflexivity|].
    destruct Hz as [Hz|[Hz _]]; [|discriminate]. left. rewrite Z.shiftr_ldiff, Hz. reflexivity. }
  unfold in_range in R; cbn [lo hi] in R. lia.
Qed.

(** The loop over the bits. *)
Definition bsl_loop : stmt :=
  match f_body vbslq_u8 with
  | SSeq _ (SSeq (SFor _ _ _ _ _ (SSeq _ l)) _) => l | _ => SSkip end.
Definition bsl_body : stmt := match bsl_loop with SFor _ _ _ _ _ b => b | _ => SSkip end.

Definition bsl_env (j r x y z : Z) : env :=
  [("j", rv I32 j); ("i", rv I32 0); ("r", vec U8 [r]);
   ("mask", vec U8 [x]); ("src1", vec U8 [y]); ("src2", vec U8 [z])].

Lemma bsl_iter c cf fuel m j r x y z :
  In j [0; 1; 2; 3; 4; 5; 6; 7] -> 0 <= r -> r + 2 ^ (7 - j) <= 255 ->
  in_range U8 x -> in_range U8 y -> in_range U8 z ->
  exec c cf fuel bsl_body (bsl_env j r x y z) m
  = Ok (Normal (("x", rv U8 (2 ^ (7 - j))) :: bsl_env j (r + bit_at x y z (7 - j)) x y z) m).
Proof.
  intros Hj Hr Hm Hx Hy Hz.
  assert (Hk : 0 <= 7 - j) by (cbn [In] in Hj; lia).
  assert (Ex := land_pow2 x (7 - j) Hk). assert (Ey := land_pow2 y (7 - j) Hk). assert (Ez := land_pow2 z (7 - j) Hk).
  unfold bit_at.
  assert (By : 0 <= Z.b2z (Z.testbit y (7 - j)) <= 1) by (destruct (Z.testbit y _); cbn; lia).
  assert (Bz : 0 <= Z.b2z (Z.testbit z (7 - j)) <= 1) by (destruct (Z.testbit z _); cbn; lia).
  destruct (Z.testbit x (7 - j)); cbn [Z.b2z] in Ex;
  [ revert Ey By; generalize (Z.b2z (Z.testbit y (7 - j))) as b; intros b Ey By; clear Ez Bz
  | revert Ez Bz; generalize (Z.b2z (Z.testbit z (7 - j))) as b; intros b Ez Bz; clear Ey By ];
  (repeat (destruct Hj as [<-|Hj];
     [ match goal with |- context [2 ^ ?k] => let p := eval vm_compute in (2 ^ k) in change (2 ^ k) with p in * end;
       clear Hk; sxk;
       match goal with |- Ok (Normal (_ :: _ :: _ :: (_, OArr [OScal _ (Some ?u)]) :: _) _)
                        = Ok (Normal (_ :: _ :: _ :: (_, OArr [OScal _ (Some ?v)]) :: _) _) =>
         replace u with v by lia; reflexivity end
     |]); destruct Hj).
Qed.

Lemma bsl_step c cf m j r x y z :
  In j [0; 1; 2; 3; 4; 5; 6; 7] -> 0 <= r -> r + 2 ^ (7 - j) <= 255 ->
  in_range U8 x -> in_range U8 y -> in_range U8 z ->
  for_step c cf loop_fuel "j" ("j" + (lit 1))%C bsl_body (bsl_env j r x y z) m
  = Ok (Normal (bsl_env (j + 1) (r + bit_at x y z (7 - j)) x y z) m).
Proof.
  intros Hj Hr Hm Hx Hy Hz. unfold for_step. rewrite bsl_iter by assumption. cbn [bind pop_ctl].
  unfold pop, bsl_env at 1. cbn [List.length Nat.sub skipn].
  repeat (destruct Hj as [<-|Hj]; [reflexivity|]). destruct Hj.
Qed.

Lemma bsl_loop_run c cf m x y z : in_range U8 x -> in_range U8 y -> in_range U8 z ->
  exec c cf loop_fuel bsl_loop (tl (bsl_env 0 0 x y z)) m
  = Ok (Normal (tl (bsl_env 8 (bsl_bits x y z) x y z)) m).
Proof.
  intros Hx Hy Hz. unfold bsl_loop, vbslq_u8. cbn [f_body].
  eapply step_for; [reflexivity | reflexivity | |].
  - change (("j", rv I32 0) :: tl (bsl_env 0 0 x y z)) with (bsl_env 0 0 x y z).
    unfold loop_fuel at 1.
    pose proof (fun k H => bit_at_range x y z k H) as B.
    pose proof (B 7 ltac:(lia)); pose proof (B 6 ltac:(lia)); pose proof (B 5 ltac:(lia)); pose proof (B 4 ltac:(lia));
    pose proof (B 3 ltac:(lia)); pose proof (B 2 ltac:(lia)); pose proof (B 1 ltac:(lia)); pose proof (B 0 ltac:(lia)).
    clear B.
    repeat match goal with H : _ <= bit_at _ _ _ ?k <= 2 ^ ?k |- _ =>
      let p := eval vm_compute in (2 ^ k) in change (2 ^ k) with p in H end.
    do 8 (eapply step_loop; [reflexivity | apply bsl_step; [cbn; tauto | | | assumption ..] |];
          [ cbn [Z.sub Z.opp Z.add Z.pos_sub Pos.pred_double] ; lia
          | match goal with |- context [2 ^ ?k] => let p := eval vm_compute in (2 ^ k) in change (2 ^ k) with p end; lia
          | match goal with |- context [bsl_env (?j + 1) (?r + bit_at x y z (7 - ?j))] =>
              let j' := eval vm_compute in (j + 1) in let k' := eval vm_compute in (7 - j) in
              change (j + 1) with j'; change (7 - j) with k' end ]).
    eapply step_loop_end. reflexivity.
  - cbn [bind pop_ctl]. do 3 f_equal.
    assert (E := byte_sum_eq (bsl_bits x y z) (bsl_bits_range x y z Hx Hy Hz)).
    unfold byte_sum in E. cbn [fold_left] in E. rewrite !bsl_bits_spec in E by lia.
    unfold bit_at. rewrite E. reflexivity.
Qed.

Lemma vbslq_u8_exact c m x y z : lanes U8 16 x -> lanes U8 16 y -> lanes U8 16 z ->
  run c m vbslq_u8 [vec U8 x; vec U8 y; vec U8 z] = Returns m (Some (vec U8 (map3 bsl_bits x y z))).
Proof.
  intros Hx Hy Hz.
  rewrite <- vec_outcome_ok.
  rewrite <- (mapM3_ok (fun x y z => Ok (bsl_bits x y z)) bsl_bits x y z) by reflexivity.
  entry3 u v w Hu Hv Hw. unfold lane, run_body.
  pose proof (bsl_loop_run c (call_helper c helpers loop_fuel call_depth) m u v w Hu Hv Hw) as L.
  change (bind_params c (f_params (one_lane vbslq_u8)) [vec U8 [u]; vec U8 [v]; vec U8 [w]])
    with (Ok [("mask", vec U8 [u]); ("src1", vec U8 [v]); ("src2", vec U8 [w])]).
  cbn [bind].
  match goal with |- context [exec c ?cf ?fu (f_body (one_lane vbslq_u8)) ?en m] =>
    assert (E : exec c cf fu (f_body (one_lane vbslq_u8)) en m = Ok (Returned (vec U8 [bsl_bits u v w]) m)) end.
  { eapply step_seq; [reflexivity|]. eapply step_seq.
    - eapply step_seq; [reflexivity|].
      transitivity (let* r := exec c (call_helper c helpers loop_fuel call_depth) loop_fuel bsl_loop
                               (tl (bsl_env 0 0 u v w)) m in Ok (pop_ctl 5 r)); [reflexivity|].
      rewrite L. reflexivity.
    - reflexivity. }
  rewrite E. reflexivity.
Qed.

Lemma nth_map3_inv {A B C D} (g : A -> B -> C -> D) a b d i v x y z :
  nth_error (map3 g a b d) i = Some v ->
  nth_error a i = Some x -> nth_error b i = Some y -> nth_error d i = Some z -> v = g x y z.
Proof. intros Hv Hx Hy Hz. rewrite (map3_nth g a b d i x y z Hx Hy Hz) in Hv. congruence. Qed.

Lemma map3_lanes t t1 t2 t3 n (g : Z -> Z -> Z -> Z) (a b d : list Z) : lanes t1 n a -> lanes t2 n b -> lanes t3 n d ->
  (forall x y z, in_range t1 x -> in_range t2 y -> in_range t3 z -> in_range t (g x y z)) -> lanes t n (map3 g a b d).
Proof.
  intros [La Fa] [Lb Fb] [Ld Fd] H. split.
  - rewrite map3_length. lia.
  - clear -Fa Fb Fd H. revert b d Fb Fd. induction Fa as [|x a Hx Fa IH]; intros [|y b] [|z d] Fb Fd; cbn; try constructor.
    + inversion Fb; inversion Fd; subst; auto.
    + inversion Fb; inversion Fd; subst; auto.
Qed.

Lemma vbslq_u8_bits c m w a b : lanes U8 16 w -> lanes U8 16 a -> lanes U8 16 b ->
  exists r, run c m vbslq_u8 [vec U8 w; vec U8 a; vec U8 b] = Returns m (Some (vec U8 r)) /\ lanes U8 16 r /\
    forall i k x y z v, nth_error w i = Some x -> nth_error a i = Some y -> nth_error b i = Some z ->
      nth_error r i = Some v -> 0 <= k ->
      Z.testbit v k = if Z.testbit x k then Z.testbit y k else Z.testbit z k.
Proof.
  intros Hw Ha Hb. exists (map3 bsl_bits w a b). split; [now apply vbslq_u8_exact|]. split.
  - apply (map3_lanes U8 U8 U8 U8 16); trivial. intros x y z Hx Hy Hz.
    pose proof (bsl_bits_range x y z Hx Hy Hz). unfold in_range. cbn [lo hi]. lia.
  - intros i k x y z v Hx Hy Hz Hv Hk. rewrite (nth_map3_inv _ _ _ _ _ _ _ _ _ Hv Hx Hy Hz). now apply bsl_bits_spec.
Qed.
