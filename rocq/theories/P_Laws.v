(** Algebraic laws between intrinsics, derived from the theorems of each family. *)
From Coq Require Import ZArith String List Bool Lia.
From Verif Require Import Types FloatBits Syntax Interp ProgRecip ExecLemmas Lane Spec Ew Sym Tables Local.
From Verif Require Import P_AddSub P_SubMore P_Mul P_Shift P_Bit P_Perm P_Cast P_Mem.
From Verif Require Import ProgBit.
Import ListNotations.
Open Scope Z_scope.

(** ** Loads and stores *)

Lemma nth_lane_range t n v i : lanes t n v -> (i < n)%nat -> in_range t (nth i v 0).
Proof. intros [L F] Hi. eapply Forall_forall; [exact F|]. apply nth_In. lia. Qed.

Lemma build_lanes t n g : (forall k, (k < n)%nat -> in_range t (g k)) -> lanes t n (build n g).
Proof.
  intros H. unfold build. split; [now rewrite map_length, seq_length|].
  apply Forall_forall. intros x Hx. apply in_map_iff in Hx as (k & <- & Hk). apply in_seq in Hk. apply H. lia.
Qed.

Lemma build_length n g : List.length (build n g) = n.
Proof. unfold build. now rewrite map_length, seq_length. Qed.

Lemma nth_build n g i d : (i < n)%nat -> nth i (build n g) d = g i.
Proof.
  intros H. unfold build. rewrite (nth_indep _ d (g 0%nat)) by (rewrite map_length, seq_length; lia).
  rewrite map_nth, seq_nth by lia. reflexivity.
Qed.

Lemma deinterleave_tuple t k n zs : List.length zs = (k * n)%nat -> Forall (in_range t) zs ->
  tuple t k n (deinterleave k n zs).
Proof.
  intros L F. unfold deinterleave. split; [now rewrite map_length, seq_length|].
  apply Forall_forall. intros v Hv. apply in_map_iff in Hv as (j & <- & Hj). apply in_seq in Hj.
  apply build_lanes. intros i Hi. eapply Forall_forall; [exact F|]. apply nth_In. rewrite L. nia.
Qed.

Lemma flat_map_rows (g : nat -> nat -> Z) k zs : forall n s,
  (forall i j, (i < n)%nat -> (j < k)%nat -> g (s + i)%nat j = nth (k * i + j) zs 0) ->
  List.length zs = (k * n)%nat ->
  flat_map (fun i => map (g i) (seq 0 k)) (seq s n) = zs.
Proof.
  intros n. revert zs. induction n as [|n IH]; intros zs s H L.
  - rewrite Nat.mul_0_r in L. destruct zs; [reflexivity|discriminate].
  - cbn [seq flat_map]. rewrite <- (firstn_skipn k zs) at 1. f_equal.
    + apply nth_ext with (d := 0) (d' := 0).
      * rewrite map_length, seq_length, firstn_length. nia.
      * intros j Hj. rewrite map_length, seq_length in Hj.
        rewrite (nth_indep _ 0 (g s 0%nat)) by (rewrite map_length, seq_length; lia).
        rewrite map_nth, seq_nth by lia. cbn [Nat.add].
        specialize (H 0%nat j ltac:(lia) Hj). rewrite Nat.add_0_r, Nat.mul_0_r in H. cbn [Nat.add] in H. rewrite H.
        rewrite <- (firstn_skipn k zs) at 1. rewrite app_nth1; [reflexivity|]. rewrite firstn_length. nia.
    + apply IH.
      * intros i j Hi Hj. specialize (H (S i) j ltac:(lia) Hj).
        replace (s + S i)%nat with (S s + i)%nat in H by lia. rewrite H.
        rewrite <- (firstn_skipn k zs) at 1. rewrite app_nth2; rewrite firstn_length; [|nia].
        f_equal. nia.
      * rewrite skipn_length. nia.
Qed.

Lemma flat_map_ext_in {A B} (g h : A -> list B) l : (forall x, In x l -> g x = h x) -> flat_map g l = flat_map h l.
Proof. induction l; cbn; intros H; [reflexivity|]. rewrite H by auto. f_equal. auto. Qed.

Lemma interleave_deinterleave k n zs : List.length zs = (k * n)%nat -> interleave n (deinterleave k n zs) = zs.
Proof.
  intros L. unfold interleave, deinterleave.
  erewrite flat_map_ext_in; [apply (flat_map_rows (fun i j => nth (k * i + j) zs 0) k zs n 0); [reflexivity|exact L]|].
  intros i Hi. apply in_seq in Hi. rewrite map_map. apply map_ext. intros j. apply nth_build. lia.
Qed.

Lemma deinterleave_interleave t k n vs : tuple t k n vs -> (0 < k)%nat -> deinterleave k n (interleave n vs) = vs.
Proof.
  intros [L F] Hk. unfold deinterleave.
  apply nth_ext with (d := []) (d' := []); [now rewrite map_length, seq_length|].
  intros j Hj. rewrite map_length, seq_length in Hj.
  rewrite (nth_indep _ [] ((fun j => build n (fun i => nth (k * i + j) (interleave n vs) 0)) 0%nat))
    by (rewrite map_length, seq_length; lia).
  rewrite (map_nth (fun j => build n (fun i => nth (k * i + j) (interleave n vs) 0))), seq_nth by lia. cbn [Nat.add].
  assert (Hv : lanes t n (nth j vs [])) by (eapply Forall_forall; [exact F|]; apply nth_In; lia).
  destruct Hv as [Lv _].
  apply nth_ext with (d := 0) (d' := 0); [now rewrite build_length|].
  intros i Hi. rewrite build_length in Hi. rewrite nth_build by lia.
  unfold interleave.
  assert (G : forall n s i, (i < n)%nat ->
    nth (k * i + j) (flat_map (fun i => map (fun v => nth i v 0) vs) (seq s n)) 0 = nth (s + i) (nth j vs []) 0).
  { clear - L Hj. induction n as [|n IH]; intros s i Hi; [lia|]. cbn [seq flat_map].
    destruct i as [|i].
    - rewrite Nat.mul_0_r, Nat.add_0_r. cbn [Nat.add]. rewrite app_nth1 by (rewrite map_length; lia).
      rewrite (nth_indep _ 0 ((fun v => nth s v 0) [])) by (rewrite map_length; lia).
      now rewrite (map_nth (fun v => nth s v 0)).
    - rewrite app_nth2; rewrite map_length; [|nia].
      replace (k * S i + j - List.length vs)%nat with (k * i + j)%nat by nia.
      rewrite IH by lia. f_equal. lia. }
  now rewrite G by lia.
Qed.

(** The load theorems with the contents of memory given as they are. *)
Lemma vldk_exact k f t n c m1 m2 pre post vs : In (f, t, n) (vld_table k) -> tuple t k n vs ->
  run c (heap m1 t pre (map Some (interleave n vs)) post m2) f [pointer m1 t pre]
  = Returns (heap m1 t pre (map Some (interleave n vs)) post m2) (Some (vecs t vs)).
Proof.
  destruct k as [|[|[|[|[|]]]]]; try contradiction; intros; eauto using vld2_exact, vld3_exact, vld4_exact.
Qed.

Lemma vldk_lanes k f t n c m1 m2 pre post zs : In (f, t, n) (vld_table k) ->
  List.length zs = (k * n)%nat -> Forall (in_range t) zs ->
  run c (heap m1 t pre (map Some zs) post m2) f [pointer m1 t pre]
  = Returns (heap m1 t pre (map Some zs) post m2) (Some (vecs t (deinterleave k n zs))).
Proof.
  intros H L F. rewrite <- (interleave_deinterleave k n zs L) at 1 2.
  apply (vldk_exact k); [exact H|]. now apply deinterleave_tuple.
Qed.

Lemma vstk_exact k f t n c m1 m2 pre post old vs : In (f, t, n) (vst_table k) -> tuple t k n vs ->
  List.length old = (k * n)%nat ->
  run c (heap m1 t pre old post m2) f [pointer m1 t pre; vecs t vs]
  = Returns (heap m1 t pre (map Some (interleave n vs)) post m2) None.
Proof.
  destruct k as [|[|[|[|[|]]]]]; try contradiction; intros; eauto using vst2_exact, vst3_exact, vst4_exact.
Qed.

Lemma interleave_length t k n vs : tuple t k n vs -> List.length (interleave n vs) = (k * n)%nat.
Proof.
  intros [L _]. unfold interleave. rewrite <- (seq_length n 0) at 2.
  induction (seq 0 n) as [|i l IH]; cbn; [lia|]. rewrite app_length, map_length, IH. nia.
Qed.

(** Store then load gives back the vectors; load then store leaves memory as it was. *)
Lemma store_load1 fs fl t n c m1 m2 pre post old a :
  In (fs, t, n) vst1_table -> In (fl, t, n) vld1_table -> lanes t n a -> List.length old = n ->
  exists M, run c (heap m1 t pre old post m2) fs [pointer m1 t pre; vec t a] = Returns M None
         /\ run c M fl [pointer m1 t pre] = Returns M (Some (vec t a)).
Proof.
  intros Hs Hl Ha L. eexists. split; [eapply vst1_exact; eassumption | eapply vld1_exact; eassumption].
Qed.

Lemma load_store1 fs fl t n c m1 m2 pre post a :
  In (fs, t, n) vst1_table -> In (fl, t, n) vld1_table -> lanes t n a ->
  let M := heap m1 t pre (map Some a) post m2 in
  exists v, run c M fl [pointer m1 t pre] = Returns M (Some v)
         /\ run c M fs [pointer m1 t pre; v] = Returns M None.
Proof.
  intros Hs Hl Ha. eexists. split; [eapply vld1_exact; eassumption|].
  eapply vst1_exact; [eassumption..|]. rewrite map_length. apply Ha.
Qed.

Lemma store_loadk k fs fl t n c m1 m2 pre post old vs :
  In (fs, t, n) (vst_table k) -> In (fl, t, n) (vld_table k) -> tuple t k n vs -> List.length old = (k * n)%nat ->
  exists M, run c (heap m1 t pre old post m2) fs [pointer m1 t pre; vecs t vs] = Returns M None
         /\ run c M fl [pointer m1 t pre] = Returns M (Some (vecs t vs)).
Proof.
  intros Hs Hl Ha L. eexists. split; [eapply vstk_exact; eassumption | eapply vldk_exact; eassumption].
Qed.

Lemma load_storek k fs fl t n c m1 m2 pre post zs :
  In (fs, t, n) (vst_table k) -> In (fl, t, n) (vld_table k) ->
  List.length zs = (k * n)%nat -> Forall (in_range t) zs ->
  let M := heap m1 t pre (map Some zs) post m2 in
  exists v, run c M fl [pointer m1 t pre] = Returns M (Some v)
         /\ run c M fs [pointer m1 t pre; v] = Returns M None.
Proof.
  intros Hs Hl L F. eexists. split; [eapply vldk_lanes; eassumption|].
  rewrite (vstk_exact k _ _ _ _ _ _ _ _ _ _ Hs (deinterleave_tuple t k n zs L F)).
  - now rewrite interleave_deinterleave.
  - now rewrite map_length.
Qed.

(** ** Halves *)

Lemma lanes_app t n1 n2 a b : lanes t n1 a -> lanes t n2 b -> lanes t (n1 + n2) (a ++ b).
Proof. intros [La Fa] [Lb Fb]. split; [rewrite app_length; lia | now apply Forall_app]. Qed.

Lemma lanes_firstn t n k a : lanes t n a -> (k <= n)%nat -> lanes t k (firstn k a).
Proof. intros [L F] Hk. split; [rewrite firstn_length; lia | now apply Forall_firstn]. Qed.

Lemma lanes_skipn t n k a : lanes t (k + n) a -> lanes t n (skipn k a).
Proof. intros [L F]. split; [rewrite skipn_length; lia | now apply Forall_skipn]. Qed.

Lemma combine_halves fl fh fc t n c m x :
  In (fl, t, n) vget_low_table -> In (fh, t, n) vget_high_table -> In (fc, t, n) vcombine_table ->
  lanes t (2 * n) x ->
  exists l h, run c m fl [vec t x] = Returns m (Some (vec t l))
           /\ run c m fh [vec t x] = Returns m (Some (vec t h))
           /\ run c m fc [vec t l; vec t h] = Returns m (Some (vec t x)).
Proof.
  intros Hl Hh Hc Hx. exists (firstn n x), (skipn n x).
  split; [eapply vget_low_exact; eassumption|]. split; [eapply vget_high_exact; eassumption|].
  rewrite (vcombine_exact _ _ _ _ _ _ _ Hc).
  - now rewrite firstn_skipn.
  - apply (lanes_firstn t (2 * n)); [exact Hx | lia].
  - apply lanes_skipn. now replace (n + n)%nat with (2 * n)%nat by lia.
Qed.

Lemma halves_combine fl fh fc t n c m a b :
  In (fl, t, n) vget_low_table -> In (fh, t, n) vget_high_table -> In (fc, t, n) vcombine_table ->
  lanes t n a -> lanes t n b ->
  exists x, run c m fc [vec t a; vec t b] = Returns m (Some (vec t x))
         /\ run c m fl [vec t x] = Returns m (Some (vec t a))
         /\ run c m fh [vec t x] = Returns m (Some (vec t b)).
Proof.
  intros Hl Hh Hc Ha Hb. exists (a ++ b).
  split; [eapply vcombine_exact; eassumption|].
  assert (Hx : lanes t (2 * n) (a ++ b)) by (replace (2 * n)%nat with (n + n)%nat by lia; now apply lanes_app).
  rewrite (vget_low_exact _ _ _ _ _ _ Hl Hx), (vget_high_exact _ _ _ _ _ _ Hh Hx).
  destruct Ha as [<- _]. rewrite firstn_app, firstn_all, Nat.sub_diag, app_nil_r.
  rewrite skipn_app, skipn_all, Nat.sub_diag. auto.
Qed.

(** ** Maximum and minimum *)

Lemma map2_idem (g : Z -> Z -> Z) a : (forall x, g x x = x) -> map2 g a a = a.
Proof. intros H. induction a; cbn; [reflexivity|]. now rewrite H, IHa. Qed.

Lemma map2_comm (g : Z -> Z -> Z) a b : (forall x y, g x y = g y x) -> map2 g a b = map2 g b a.
Proof. intros H. now apply map2_swap. Qed.

Lemma map2_in t n (g : Z -> Z -> Z) a b : lanes t n a -> lanes t n b -> (forall x y, g x y = x \/ g x y = y) ->
  lanes t n (map2 g a b).
Proof.
  intros Ha Hb H. destruct Ha as [La Fa], Hb as [Lb Fb]. split; [rewrite map2_length; lia|].
  clear La Lb. revert b Fb. induction Fa as [|x a Hx Fa IH]; intros [|y b] Fb; cbn; constructor.
  - inversion Fb; subst. destruct (H x y) as [-> | ->]; assumption.
  - apply IH. now inversion Fb.
Qed.

Section BinLaws.
  Variables (c : cfg) (m : memory) (f : func) (t : sty) (n : nat) (g : Z -> Z -> Z).
  Hypothesis Hrun : forall a b, lanes t n a -> lanes t n b ->
    run c m f [vec t a; vec t b] = Returns m (Some (vec t (map2 g a b))).
  Hypothesis Hrange : forall x y, in_range t x -> in_range t y -> in_range t (g x y).

  Lemma bin_range a b : lanes t n a -> lanes t n b -> lanes t n (map2 g a b).
  Proof.
    intros [La Fa] [Lb Fb]. split; [rewrite map2_length; lia|].
    clear La Lb. revert b Fb. induction Fa as [|x a Hx Fa IH]; intros [|y b] Fb; cbn; constructor.
    - inversion Fb; subst. now apply Hrange.
    - apply IH. now inversion Fb.
  Qed.

  Lemma bin_comm : (forall x y, g x y = g y x) -> comm_law c m f t n.
  Proof.
    intros H a b Ha Hb. eexists. split; [now apply Hrun|]. rewrite Hrun by assumption. now rewrite (map2_comm g a b).
  Qed.
  Lemma bin_assoc : (forall x y z, g (g x y) z = g x (g y z)) -> assoc_law c m f t n.
  Proof.
    intros H a b d Ha Hb Hd. do 3 eexists. split; [now apply Hrun|]. split; [now apply Hrun|].
    split; [apply Hrun; trivial; now apply bin_range|].
    rewrite Hrun; trivial; [|now apply bin_range]. now rewrite map2_assoc.
  Qed.
  Lemma bin_idem : (forall x, g x x = x) -> idem_law c m f t n.
  Proof. intros H a Ha. rewrite Hrun by assumption. now rewrite map2_idem. Qed.
End BinLaws.

Lemma max_range t x y : in_range t x -> in_range t y -> in_range t (Z.max x y).
Proof. unfold in_range. lia. Qed.
Lemma min_range t x y : in_range t x -> in_range t y -> in_range t (Z.min x y).
Proof. unfold in_range. lia. Qed.

Lemma vmax_laws f t n c m : In (f, t, n) (vmax_table ++ vmax_u_table) ->
  comm_law c m f t n /\ assoc_law c m f t n /\ idem_law c m f t n.
Proof.
  intros H.
  assert (R : forall a b, lanes t n a -> lanes t n b ->
    run c m f [vec t a; vec t b] = Returns m (Some (vec t (map2 Z.max a b)))) by (intros; now apply vmax_exact with n).
  split; [|split].
  - apply (bin_comm _ _ _ _ _ _ R). intros; lia.
  - apply (bin_assoc _ _ _ _ _ _ R (max_range t)). intros; lia.
  - apply (bin_idem _ _ _ _ _ _ R). intros; lia.
Qed.

Lemma vmin_laws f t n c m : In (f, t, n) (vmin_table ++ vmin_u_table) ->
  comm_law c m f t n /\ assoc_law c m f t n /\ idem_law c m f t n.
Proof.
  intros H.
  assert (R : forall a b, lanes t n a -> lanes t n b ->
    run c m f [vec t a; vec t b] = Returns m (Some (vec t (map2 Z.min a b)))) by (intros; now apply vmin_exact with n).
  split; [|split].
  - apply (bin_comm _ _ _ _ _ _ R). intros; lia.
  - apply (bin_assoc _ _ _ _ _ _ R (min_range t)). intros; lia.
  - apply (bin_idem _ _ _ _ _ _ R). intros; lia.
Qed.
