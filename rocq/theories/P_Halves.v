(** 128-bit intrinsics act as two 64-bit halves. *)
From Coq Require Import ZArith String List Bool Lia.
From Verif Require Import Types FloatBits Syntax Interp ProgRecip ExecLemmas Lane Spec Ew Sym Tables.
From Verif Require Import P_AddSub P_SubMore P_Mul P_Shift P_Bit P_Float P_Qsub64 P_Laws.
Import ListNotations.
Open Scope Z_scope.

Lemma mapM_app {A B} (h : A -> res B) l1 l2 :
  mapM h (l1 ++ l2) = let* x := mapM h l1 in let* y := mapM h l2 in Ok (x ++ y).
Proof.
  induction l1 as [|a l1 IH]; cbn; [destruct (mapM h l2); reflexivity|].
  destruct (h a); cbn; [|reflexivity]. rewrite IH.
  destruct (mapM h l1); cbn; [|reflexivity]. destruct (mapM h l2); reflexivity.
Qed.

Lemma mapM2_app {A B C} (h : A -> B -> res C) a1 a2 b1 b2 : List.length a1 = List.length b1 ->
  mapM2 h (a1 ++ a2) (b1 ++ b2) = let* x := mapM2 h a1 b1 in let* y := mapM2 h a2 b2 in Ok (x ++ y).
Proof.
  intros L. unfold mapM2. rewrite <- mapM_app. f_equal.
  revert b1 L. induction a1 as [|x a1 IH]; intros [|y b1] L; try discriminate; [reflexivity|].
  cbn. f_equal. apply IH. now injection L.
Qed.

Lemma vec_outcome_app m t (r1 r2 : res (list Z)) :
  vec_outcome m t (let* x := r1 in let* y := r2 in Ok (x ++ y))
  = both_halves m (vec_outcome m t r1) (vec_outcome m t r2).
Proof.
  destruct r1 as [x|e]; cbn; [|destruct e as [[]| | |]; reflexivity].
  destruct r2 as [y|e]; cbn; [|destruct e as [[]| | |]; reflexivity].
  unfold vec. now rewrite map_app.
Qed.

(** A function that is given by one outcome per lane. *)
Definition by_lanes2 (T : list (func * sty * nat)) : Prop :=
  forall c t, exists u h, forall f n m a b, In (f, t, n) T -> lanes t n a -> lanes t n b ->
    run c m f [vec t a; vec t b] = vec_outcome m u (mapM2 h a b).

Lemma by_lanes2_total T (g : cfg -> sty -> Z -> Z -> Z) :
  (forall f t n c m a b, In (f, t, n) T -> lanes t n a -> lanes t n b ->
    run c m f [vec t a; vec t b] = Returns m (Some (vec t (map2 (g c t) a b)))) -> by_lanes2 T.
Proof.
  intros H c t. exists t, (fun x y => Ok (g c t x y)). intros f n m a b Hf Ha Hb.
  rewrite (H _ _ _ _ _ _ _ Hf Ha Hb). symmetry. now apply (ok_all2 m t _ (g c t) t t n).
Qed.

Lemma lanewise2_lanes T : In T lanewise2 -> by_lanes2 T.
Proof.
  intros H. cbn [In lanewise2] in H.
  repeat (destruct H as [<-|H]; [|]); [..|contradiction].
  - intros c t. do 2 eexists. intros. eapply vadd_run; eassumption.
  - intros c t. do 2 eexists. intros. eapply vsub_run; eassumption.
  - apply (by_lanes2_total _ (fun _ t x y => sat t (x - y))). intros. eapply vqsub_sat; eassumption.
  - intros c t. do 2 eexists. intros. eapply vqsub64_run; eassumption.
  - apply (by_lanes2_total _ (fun _ t x y => sat t (x + y))). intros. eapply vqadd_sat; eassumption.
  - intros c t. do 2 eexists. intros. eapply vhsub_run; eassumption.
  - intros c t. do 2 eexists. intros. eapply vmul_run; eassumption.
  - apply (by_lanes2_total _ (fun _ _ => Z.land)). intros. eapply vand_exact; eassumption.
  - apply (by_lanes2_total _ (fun _ _ => Z.lor)). intros. eapply vorr_exact; eassumption.
  - apply (by_lanes2_total _ (fun _ _ => Z.lxor)). intros. eapply veor_exact; eassumption.
  - apply (by_lanes2_total _ (fun c t => fop2 c FSub t (fsub t))). intros. eapply fsub_run; eassumption.
  - apply (by_lanes2_total _ (fun c t => fop2 c FDiv t (fdiv t))). intros. eapply fdiv_run; eassumption.
Qed.

Lemma halves2 T fd fq t n c m a1 a2 b1 b2 :
  In T lanewise2 -> In (fd, t, n) T -> In (fq, t, (2 * n)%nat) T ->
  lanes t n a1 -> lanes t n a2 -> lanes t n b1 -> lanes t n b2 ->
  run c m fq [vec t (a1 ++ a2); vec t (b1 ++ b2)]
  = both_halves m (run c m fd [vec t a1; vec t b1]) (run c m fd [vec t a2; vec t b2]).
Proof.
  intros HT Hd Hq Ha1 Ha2 Hb1 Hb2. destruct (lanewise2_lanes T HT c t) as (u & h & R).
  assert (E : (2 * n = n + n)%nat) by lia.
  rewrite (R _ _ _ _ _ Hq) by (rewrite E; now apply lanes_app).
  rewrite !(R _ _ _ _ _ Hd) by assumption.
  rewrite mapM2_app by (rewrite (proj1 Ha1), (proj1 Hb1); reflexivity). apply vec_outcome_app.
Qed.

Definition by_lanes_n (T : list (func * sty * nat)) : Prop :=
  forall c t s, in_range t s -> exists u h, forall f n m a, In (f, t, n) T -> lanes t n a ->
    run c m f [vec t a; rv t s] = vec_outcome m u (mapM h a).

Lemma lanewise_n_lanes T : In T lanewise_n -> by_lanes_n T.
Proof.
  intros H. cbn [In lanewise_n] in H.
  repeat (destruct H as [<-|H]; [|]); [..|contradiction]; intros c t s Hs.
  - do 2 eexists. intros. eapply vmul_n_run; eassumption.
  - exists t, (fun x => Ok (fop2 c FMul t (fmul t) x s)). intros f n m a Hf Ha.
    rewrite (fmul_n_run _ _ _ _ _ _ _ Hf Ha). symmetry. now apply (ok_all1 m t _ _ t n).
Qed.

Lemma halves_n T fd fq t n c m a1 a2 s :
  In T lanewise_n -> In (fd, t, n) T -> In (fq, t, (2 * n)%nat) T ->
  lanes t n a1 -> lanes t n a2 -> in_range t s ->
  run c m fq [vec t (a1 ++ a2); rv t s]
  = both_halves m (run c m fd [vec t a1; rv t s]) (run c m fd [vec t a2; rv t s]).
Proof.
  intros HT Hd Hq Ha1 Ha2 Hs. destruct (lanewise_n_lanes T HT c t s Hs) as (u & h & R).
  assert (E : (2 * n = n + n)%nat) by lia.
  rewrite (R _ _ _ _ Hq) by (rewrite E; now apply lanes_app).
  rewrite !(R _ _ _ _ Hd) by assumption.
  rewrite mapM_app. apply vec_outcome_app.
Qed.

Lemma halves_mvn fd fq t n c m a1 a2 : In (fd, t, n) vmvn_table -> In (fq, t, (2 * n)%nat) vmvn_table ->
  lanes t n a1 -> lanes t n a2 ->
  run c m fq [vec t (a1 ++ a2)] = both_halves m (run c m fd [vec t a1]) (run c m fd [vec t a2]).
Proof.
  intros Hd Hq Ha1 Ha2. assert (E : (2 * n = n + n)%nat) by lia.
  rewrite (vmvn_exact _ _ _ _ _ _ Hq) by (rewrite E; now apply lanes_app).
  rewrite !(vmvn_exact _ _ _ _ _ _ Hd) by assumption. cbn. unfold vec. now rewrite !map_app.
Qed.

Lemma halves_dup fd fq t n c m x : In (fd, t, n) vdup_table -> In (fq, t, (2 * n)%nat) vdup_table -> in_range t x ->
  run c m fq [rv t x] = both_halves m (run c m fd [rv t x]) (run c m fd [rv t x]).
Proof.
  intros Hd Hq Hx. rewrite (vdup_exact _ _ _ _ _ _ Hq Hx), (vdup_exact _ _ _ _ _ _ Hd Hx). cbn. unfold vec.
  rewrite <- map_app, <- repeat_app. do 5 f_equal. lia.
Qed.
