(** Lane independence of the element-wise operations. *)
From Coq Require Import ZArith String List Bool Lia Permutation.
From Verif Require Import Types FloatBits Syntax Interp ProgRecip Library ExecLemmas Lane AbsSound MetaSpec P_Meta P_Valid2.
Import ListNotations.
Open Scope Z_scope.

Lemma element_wise_library : forallb (fun f => negb (mem_name element_wise f) || ew (lane_count f) f) library = true.
Proof. vm_compute. reflexivity. Qed.

Lemma element_wise_ew f : In f library -> In (f_name f) element_wise -> ew (lane_count f) f = true.
Proof.
  intros I N. apply mem_name_in in N. pose proof (proj1 (forallb_forall _ _) element_wise_library f I) as H. cbv beta in H.
  rewrite N in H. exact H.
Qed.

(** Vector parameters of an element-wise function have its number of lanes. *)
Definition shape (n : nat) (o : obj) : Prop := match o with OArr l => List.length l = n | OScal _ _ => True | OPtr _ _ _ => False end.

Lemma ew_params n f : ew n f = true ->
  forallb (fun p => match snd p with TArr n' (TScal _) => Nat.eqb n n' | TScal _ => true | _ => false end) (f_params f) = true.
Proof. unfold ew. rewrite !andb_true_iff. tauto. Qed.

Lemma ew_shapes n f m args : ew n f = true -> typed_args m f args -> ew_args n (f_params f) args /\ Forall (shape n) args.
Proof.
  intros E. apply ew_params in E. unfold typed_args, ew_args. revert E. generalize (f_params f). intros ps E T.
  induction T as [|p o ps args H T IH]; [split; constructor|]. cbn in E. apply andb_prop in E. destruct E as [E1 E2].
  destruct (IH E2) as [I1 I2]. destruct (snd p) as [|s|n' t|ts|s] eqn:Ep; try discriminate.
  - apply has_type_inv in H. destruct H as (v & -> & _). split; constructor; auto; [now rewrite Ep|exact I].
  - destruct t; try discriminate. apply Nat.eqb_eq in E1. subst n'. apply has_type_inv in H. destruct H as (l & -> & L & _).
    split; constructor; auto. rewrite Ep. eauto.
Qed.

Lemma same_shape n f m m' args args' : ew n f = true -> typed_args m f args -> typed_args m' f args' ->
  Forall2 (fun o o' => match o, o' with OArr _, OArr _ | OScal _ _, OScal _ _ => True | _, _ => False end) args args'.
Proof.
  intros E. apply ew_params in E. unfold typed_args. revert E. generalize (f_params f). intros ps E T. revert args'.
  induction T as [|p o ps args H T IH]; intros args' T'; inversion T' as [|? o' ? ? H' T'']; subst; constructor.
  - cbn in E. apply andb_prop in E. destruct E as [E1 _]. destruct (snd p) as [|s|n' t|ts|s]; try discriminate.
    + apply has_type_inv in H, H'. destruct H as (? & -> & _), H' as (? & -> & _). exact I.
    + apply has_type_inv in H, H'. destruct H as (? & -> & _), H' as (? & -> & _). exact I.
  - cbn in E. apply andb_prop in E. now apply IH.
Qed.

Lemma mapM_nth {A B} (F : A -> res B) l zs : mapM F l = Ok zs ->
  List.length zs = List.length l /\ forall k a, nth_error l k = Some a -> exists z, F a = Ok z /\ nth_error zs k = Some z.
Proof.
  revert zs. induction l as [|a l IH]; intros zs H; cbn in H.
  - injection H as <-. split; [reflexivity|]. intros [|k] a; discriminate.
  - destruct (F a) as [z|e] eqn:E; [|discriminate]. cbn in H. destruct (mapM F l) as [zs'|e]; [|discriminate]. injection H as <-.
    destruct (IH _ eq_refl) as [L K]. split; [cbn; lia|]. intros [|k] b Hb; cbn in Hb |- *; [injection Hb as <-; eauto|auto].
Qed.

Lemma mapM_total {A B} (F : A -> res B) l : (forall a, In a l -> exists z, F a = Ok z) -> exists zs, mapM F l = Ok zs.
Proof.
  induction l as [|a l IH]; intros H; cbn; [eauto|]. destruct (H a (or_introl eq_refl)) as (z & ->). cbn.
  destruct IH as (zs & ->); [intros; apply H; now right|]. cbn. eauto.
Qed.

Lemma lane_of_nth n k o o' : shape n o -> (match o, o' with OArr _, OArr _ | OScal _ _, OScal _ _ => True | _, _ => False end) ->
  lane_at k o = lane_at k o' -> (k < n)%nat -> lane_of k o = lane_of k o'.
Proof.
  destruct o as [s v|l|]; destruct o' as [s' v'|l'|]; cbn; try easy; [congruence|].
  intros L _ E Hk. do 2 f_equal. destruct (nth_error l k) as [x|] eqn:E1; [|apply nth_error_None in E1; lia].
  rewrite (nth_error_nth _ _ _ E1). symmetry in E. now rewrite (nth_error_nth _ _ _ E).
Qed.

Theorem lane_independent f c m args args' k n n' l l' : In f library -> In (f_name f) element_wise ->
  typed_args m f args -> typed_args m f args' ->
  Forall2 (fun o o' => lane_at k o = lane_at k o') args args' ->
  run c m f args = Returns n (Some (OArr l)) -> run c m f args' = Returns n' (Some (OArr l')) ->
  nth_error l k = nth_error l' k.
Proof.
  intros I N T T' S R R'. pose proof (element_wise_ew f I N) as E. set (w := lane_count f) in *.
  destruct (ew_shapes w f m args E T) as [A A2]. destruct (ew_shapes w f m args' E T') as [A' A2'].
  rewrite (run_ew w f c m args E A) in R. rewrite (run_ew w f c m args' E A') in R'.
  destruct (mapM _ _) as [zs|e] eqn:M in R; [|destruct e; discriminate]. cbn in R. injection R as <- <-.
  destruct (mapM _ _) as [zs'|e] eqn:M' in R'; [|destruct e; discriminate]. cbn in R'. injection R' as <- <-.
  apply mapM_nth in M, M'. destruct M as [L M], M' as [L' M']. rewrite seq_length in L, L'.
  destruct (Nat.lt_ge_cases k w) as [Hk|Hk].
  - assert (Q : nth_error (seq 0 w) k = Some k).
    { rewrite (nth_error_nth' _ 0%nat) by (rewrite seq_length; exact Hk). now rewrite seq_nth by exact Hk. }
    destruct (M k k Q) as (z & F & ->). destruct (M' k k Q) as (z' & F' & ->). cbv beta in F, F'. f_equal.
    assert (X : map (lane_of k) args = map (lane_of k) args').
    { pose proof (same_shape w f m m args args' E T T') as SS. clear -A2 S SS Hk.
      revert SS. induction S as [|o o' a a' H S IH]; intros SS; [reflexivity|]. inversion SS; subst. inversion A2; subst.
      cbn. f_equal; [eapply lane_of_nth; eauto|auto]. }
    rewrite X in F. congruence.
  - rewrite (proj2 (nth_error_None zs k)) by lia. symmetry. apply nth_error_None. lia.
Qed.

Lemma lane_of_rearrange n p o k j : shape n o -> (j < n)%nat -> nth_error p k = Some j -> lane_of k (rearrange p o) = lane_of j o.
Proof.
  destruct o as [s v|l|]; cbn; try easy. intros L Hj Hk. do 2 f_equal.
  assert (K : nth_error (map (fun i => nth i l (OArr [])) p) k = Some (nth j l (OArr []))) by (rewrite nth_error_map, Hk; reflexivity).
  now apply nth_error_nth.
Qed.

Lemma typed_rearrange f m args p n : ew n f = true -> List.length p = n -> Forall (fun i => (i < n)%nat) p ->
  typed_args m f args -> typed_args m f (map (rearrange p) args).
Proof.
  intros E Lp P. apply ew_params in E. unfold typed_args. revert E. generalize (f_params f). intros ps E T.
  induction T as [|q o ps args H T IH]; [constructor|]. cbn in E. apply andb_prop in E. destruct E as [E1 E2].
  cbn [map]. constructor; [|now apply IH]. destruct (snd q) as [|s|n' t|ts|s]; try discriminate.
  - apply has_type_inv in H. destruct H as (v & -> & Hv). now constructor.
  - destruct t as [|s| | |]; try discriminate. apply Nat.eqb_eq in E1. subst n'. apply has_type_inv in H.
    destruct H as (l & -> & L & F). cbn. constructor; [now rewrite map_length|]. apply Forall_map.
    rewrite Forall_forall in P, F |- *. intros i Hi. apply F. apply nth_In. rewrite L. auto.
Qed.

Theorem lane_rearranged f c m args p n v : In f library -> In (f_name f) element_wise -> typed_args m f args ->
  List.length p = lane_count f -> Forall (fun i => (i < lane_count f)%nat) p ->
  run c m f args = Returns n (Some v) ->
  run c m f (map (rearrange p) args) = Returns n (Some (rearrange p v)).
Proof.
  intros I N T Lp P R. pose proof (element_wise_ew f I N) as E. set (w := lane_count f) in *.
  pose proof (typed_rearrange f m args p w E Lp P T) as T'.
  destruct (ew_shapes w f m args E T) as [A A2]. destruct (ew_shapes w f m _ E T') as [A' _].
  rewrite (run_ew w f c m args E A) in R. rewrite (run_ew w f c m _ E A').
  destruct (mapM _ _) as [zs|e] eqn:M in R; [|destruct e; discriminate]. cbn in R. injection R as <- <-.
  apply mapM_nth in M. destruct M as [L M]. rewrite seq_length in L.
  assert (K : mapM (fun k => lane c m f (map (lane_of k) (map (rearrange p) args))) (seq 0 w) = Ok (map (fun i => nth i zs (OArr [])) p)).
  { rewrite <- Lp. rewrite Forall_forall in P.
    assert (G : forall q done, p = done ++ q ->
      mapM (fun k => lane c m f (map (lane_of k) (map (rearrange p) args))) (seq (List.length done) (List.length q))
      = Ok (map (fun i => nth i zs (OArr [])) q)).
    { induction q as [|j q IH]; intros done Hp; [reflexivity|]. cbn [seq mapM List.length map].
      assert (Hj : nth_error p (List.length done) = Some j).
      { rewrite Hp, nth_error_app2 by lia. now rewrite Nat.sub_diag. }
      pose proof (P j (nth_error_In _ _ Hj)) as Jw.
      assert (Q : nth_error (seq 0 w) j = Some j).
      { rewrite (nth_error_nth' _ 0%nat) by (rewrite seq_length; exact Jw). now rewrite seq_nth by exact Jw. }
      destruct (M j j Q) as (z & F & Z). cbv beta in F.
      assert (X : map (lane_of (List.length done)) (map (rearrange p) args) = map (lane_of j) args).
      { rewrite map_map. apply map_ext_in. intros o Ho. rewrite Forall_forall in A2. apply (lane_of_rearrange w); auto. }
      rewrite X, F. cbn [bind]. rewrite (nth_error_nth _ _ _ Z).
      specialize (IH (done ++ [j])). rewrite <- app_assoc in IH. specialize (IH Hp).
      rewrite app_length in IH. cbn [List.length] in IH. rewrite Nat.add_1_r in IH. rewrite IH. reflexivity. }
    exact (G p [] eq_refl). }
  rewrite K. reflexivity.
Qed.

(** Permuting lanes does not change whether a call returns. *)
Theorem lane_permuted f c m args p n v : In f library -> In (f_name f) element_wise -> typed_args m f args ->
  Permutation p (seq 0 (lane_count f)) ->
  run c m f (map (rearrange p) args) = Returns n (Some v) -> exists v', run c m f args = Returns n (Some v').
Proof.
  intros I N T Pm R. pose proof (element_wise_ew f I N) as E. set (w := lane_count f) in *.
  assert (Lp : List.length p = w) by (rewrite (Permutation_length Pm); apply seq_length).
  assert (P : Forall (fun i => (i < w)%nat) p).
  { apply Forall_forall. intros i Hi. apply (Permutation_in _ Pm), in_seq in Hi. lia. }
  pose proof (typed_rearrange f m args p w E Lp P T) as T'.
  destruct (ew_shapes w f m args E T) as [A A2]. destruct (ew_shapes w f m _ E T') as [A' _].
  rewrite (run_ew w f c m _ E A') in R. rewrite (run_ew w f c m args E A).
  destruct (mapM _ _) as [zs|e] eqn:M in R; [|destruct e; discriminate]. cbn in R. injection R as <- <-.
  apply mapM_nth in M. destruct M as [L M].
  destruct (mapM_total (fun k => lane c m f (map (lane_of k) args)) (seq 0 w)) as (zs' & ->); [|cbn; eauto].
  intros j Hj. apply (Permutation_in _ (Permutation_sym Pm)) in Hj. apply In_nth_error in Hj. destruct Hj as (k & Hk).
  assert (Kw : (k < w)%nat) by (rewrite <- Lp; apply nth_error_Some; congruence).
  assert (Q : nth_error (seq 0 w) k = Some k).
  { rewrite (nth_error_nth' _ 0%nat) by (rewrite seq_length; exact Kw). now rewrite seq_nth by exact Kw. }
  destruct (M k k Q) as (z & F & _). exists z. cbv beta in F. rewrite <- F. f_equal. rewrite map_map. apply map_ext_in.
  intros o Ho. rewrite Forall_forall in A2, P. symmetry. apply (lane_of_rearrange w); auto. apply P. eapply nth_error_In; eauto.
Qed.
