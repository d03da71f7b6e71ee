(** The last steps of the proofs in PropertiesMeta.v. *)
From Coq Require Import ZArith String List Bool Lia.
From Verif Require Import Types Syntax Interp ProgRecip Spec Tables PropBase MetaSpec.
From Verif Require Import ProgLoad ProgStore ProgShift Library P_Shift.
From Verif Require Import AbsSound P_Meta P_Valid P_Valid2 P_Det.
Import ListNotations.
Open Scope Z_scope.

Lemma names_in (l l' : list string) : forallb (fun n => existsb (String.eqb n) l') l = true -> forall n, In n l -> In n l'.
Proof.
  intros H n I. pose proof (proj1 (forallb_forall _ _) H n I) as K. cbv beta in K. apply existsb_exists in K.
  destruct K as (x & Ix & E). apply String.eqb_eq in E. now subst.
Qed.

Definition typed_argsb (m : memory) (f : func) (args : list obj) : bool :=
  Nat.eqb (List.length (f_params f)) (List.length args) &&
  forallb (fun po => has_typeb m (snd (fst po)) (snd po)) (combine (f_params f) args).
Lemma valid_typed_lit m f args : typed_argsb m f args = true -> typed_args m f args.
Proof.
  unfold typed_argsb, typed_args. generalize (f_params f). intros ps. revert args.
  induction ps as [|p ps IH]; intros [|o args] H; cbn in H; try discriminate; [constructor|].
  apply andb_prop in H. destruct H as [L H]. apply andb_prop in H. destruct H as [H1 H2].
  constructor; [now apply has_typeb_ok|]. apply IH. now rewrite L, H2.
Qed.

Lemma pointer_ub : forallb (fun f => match f_params f with
  | (_, TPtr _) :: _ => negb (mem_name ub_strict f) || (String.eqb (f_name f) "vst4_u8" && is_store f)
  | _ => true end) library = true.
Proof. vm_compute. reflexivity. Qed.

Lemma pointer_not_ub f m s b off rest : In f library -> valid_args m f (OPtr s b off :: rest) ->
  In (f_name f) ub_strict -> f_name f = "vst4_u8"%string /\ is_store f = true.
Proof.
  intros I V N. pose proof (proj1 (forallb_forall _ _) pointer_ub f I) as K. cbv beta in K.
  unfold valid_args in V. destruct (f_params f) as [|p ps]; [inversion V|].
  destruct p as [x [|s0|n0 t0|ts0|s0]];
    try (exfalso; inversion V as [|? ? ? ? (T & _) _]; subst; cbn in T; inversion T; fail).
  apply mem_name_in in N. rewrite N in K. cbn in K. apply andb_prop in K. now rewrite String.eqb_eq in K.
Qed.

Lemma footprint_writes f c m s b off rest : In f library -> f_name f <> "vst4_u8"%string -> well_typed m ->
  valid_args m f (OPtr s b off :: rest) ->
  exists m' v, run c m f (OPtr s b off :: rest) = Returns m' v /\ List.length m' = List.length m /\
    forall b' i, ~ (b' = b /\ off <= i < off + extent f) -> element m' b' i = element m b' i.
Proof.
  intros I N W V. apply store_frame; auto. intros K. apply N. now apply (pointer_not_ub f m s b off rest I V).
Qed.

Lemma footprint_depends f c m m' s b b' off off' rest : In f library -> f_name f <> "vst4_u8"%string ->
  well_typed m -> well_typed m' ->
  valid_args m f (OPtr s b off :: rest) -> valid_args m' f (OPtr s b' off' :: rest) ->
  (forall i, 0 <= i < extent f -> element m b (off + i) = element m' b' (off' + i)) ->
  exists n n' v, run c m f (OPtr s b off :: rest) = Returns n v /\ run c m' f (OPtr s b' off' :: rest) = Returns n' v /\
    forall i, 0 <= i < extent f -> element n b (off + i) = element n' b' (off' + i).
Proof.
  intros I N W W' V V' E. apply extent_determines; auto. intros K. apply N. now apply (pointer_not_ub f m s b off rest I V).
Qed.

Lemma load_determined f c m m' s b b' off off' rest : In f library -> is_store f = false ->
  well_typed m -> well_typed m' ->
  valid_args m f (OPtr s b off :: rest) -> valid_args m' f (OPtr s b' off' :: rest) ->
  (forall i, 0 <= i < extent f -> element m b (off + i) = element m' b' (off' + i)) ->
  exists v, run c m f (OPtr s b off :: rest) = Returns m v /\ run c m' f (OPtr s b' off' :: rest) = Returns m' v.
Proof.
  intros I S W W' V V' E.
  destruct (extent_determines c f m m' s b b' off off' rest) as (n & n' & v & R & R' & _); auto.
  { intros K. destruct (pointer_not_ub f m s b off rest I V K). congruence. }
  pose proof (any_call f c m _ I W (valid_typed _ _ _ V)) as A. rewrite R in A.
  pose proof (any_call f c m' _ I W' (valid_typed _ _ _ V')) as A'. rewrite R' in A'.
  destruct A as (_ & _ & _ & A), A' as (_ & _ & _ & A'). exists v. rewrite R, R', (A S), (A' S). auto.
Qed.

Lemma vshr_n_u16_rejects_valid c m a n : lanes U16 4 a -> 9 <= n <= 16 ->
  valid_args m vshr_n_u16 [vec U16 a; rv I32 n] /\ run c m vshr_n_u16 [vec U16 a; rv I32 n] = Aborts.
Proof.
  intros Ha Hn. split; [|apply vshr_n_u16_reject; auto; unfold in_range; cbn; lia].
  destruct Ha as [L F]. constructor; [|constructor; [|constructor]].
  - split; [|split; [|exact I]].
    + constructor; [now rewrite map_length|]. apply Forall_map. apply (Forall_impl _ (fun z Hz => ht_scal m U16 (Some z) (fun z' E => eq_ind z _ Hz z' ltac:(now injection E)))). exact F.
    + constructor. apply Forall_map. apply Forall_forall. intros; constructor.
  - split; [|split].
    + constructor. intros z E. injection E as <-. unfold in_range. cbn. lia.
    + constructor.
    + exists n. split; [reflexivity|lia].
Qed.

Lemma vst4_u8_footprint c : exists m m' s b off rest v, well_typed m /\
  valid_args m vst4_u8 (OPtr s b off :: rest) /\
  run c m vst4_u8 (OPtr s b off :: rest) = Returns m' v /\ element m' b (off + extent vst4_u8) <> element m b (off + extent vst4_u8).
Proof.
  exists [(U8, repeat (Some 0) 33)]. do 6 eexists. split; [apply well_typedb_ok; vm_compute; reflexivity|].
  split; [apply (valid_argsb_ok _ _ [OPtr U8 0 0; vecs U8 (repeat (repeat 1 8) 4)]); vm_compute; reflexivity|].
  split; [vm_compute; reflexivity|]. vm_compute. discriminate.
Qed.

(** Membership in [library] from a name. *)
Lemma in_library f : filter (fun g => String.eqb (f_name g) (f_name f)) library = [f] -> In f library.
Proof.
  intros H. assert (K : In f (filter (fun g => String.eqb (f_name g) (f_name f)) library)) by (rewrite H; now left).
  exact (proj1 (proj1 (filter_In _ _ _) K)).
Qed.
