(** What loads and stores depend on and change, element by element. *)
From Coq Require Import ZArith String List Bool Lia.
From Verif Require Import Types FloatBits Syntax Interp ProgRecip Library Spec ExecLemmas Local.
From Verif Require Import AbsSound MetaSpec P_Meta Frame P_Valid P_Valid2.
Import ListNotations.
Open Scope Z_scope.

Definition pointer_shape (f : func) : bool :=
  match f_params f with
  | (_, TPtr _) :: r => forallb (fun p => plain_ty (snd p)) r && plain_ty (f_ret f) && localb (f_body f) && negb (String.eqb (f_name f) "vshr_n_u16")
                        && (0 <=? extent f)
  | ps => forallb (fun p => plain_ty (snd p)) ps
  end.
Lemma pointer_library : forallb pointer_shape library = true.
Proof. vm_compute. reflexivity. Qed.

Lemma plain_has_type m m' t : plain_ty t = true -> forall o, has_type m t o -> has_type m' t o.
Proof.
  induction t as [|s|n t IH|ts IH|s] using ty_ind'; intros P o H; inversion H; subst.
  - now constructor.
  - constructor; [reflexivity|]. rewrite Forall_forall in *. auto.
  - constructor. cbn in P. rewrite forallb_forall in P. rewrite Forall_forall in IH.
    match goal with F : Forall2 _ _ _ |- _ => rename F into HF end. clear H. revert P IH.
    induction HF as [|t o ts l Ho HF IHF]; intros P IH; constructor.
    + apply IH; [now left|apply P; now left|exact Ho].
    + apply IHF; intros; [apply P|apply IH]; auto; now right.
  - discriminate.
Qed.

Lemma plain_sh m m1 pre t : plain_ty t = true -> forall o, has_type m t o -> sh m1 pre o = o.
Proof.
  induction t as [|s|n t IH|ts IH|s] using ty_ind'; intros P o H; inversion H; subst; cbn [sh].
  - reflexivity.
  - f_equal. rewrite <- (map_id l) at 2. apply map_ext_in. intros o Ho. rewrite Forall_forall in *. apply IH; auto.
  - f_equal. cbn in P. rewrite forallb_forall in P. rewrite Forall_forall in IH.
    match goal with F : Forall2 _ _ _ |- _ => rename F into HF end. clear H. revert P IH.
    induction HF as [|t o ts l Ho HF IHF]; intros P IH; cbn; [reflexivity|]. f_equal.
    + apply (IH t); [now left|apply P; now left|exact Ho].
    + apply IHF; intros; [apply P|apply (IH x)]; auto; now right.
  - discriminate.
Qed.

Lemma valid_arg_plain m m' f p o : plain_ty (snd p) = true -> valid_arg m f p o -> valid_arg m' f p o.
Proof.
  intros P (T & I & V). split; [now apply (plain_has_type m)|]. split; [exact I|].
  destruct (snd p); try discriminate; exact V.
Qed.

Lemma valid_typed m f args : valid_args m f args -> typed_args m f args.
Proof. unfold valid_args, typed_args. induction 1 as [|p o ps args (T & _)]; constructor; auto. Qed.

Lemma defined_call c m f args : In f library -> ~ In (f_name f) ub_strict -> f_name f <> "vshr_n_u16"%string ->
  well_typed m -> valid_args m f args -> exists m' v, run c m f args = Returns m' v.
Proof.
  intros I N A M V. pose proof (any_call f c m args I M (valid_typed m f args V)) as K.
  pose proof (no_abort_valid c m f args I A M V) as NA.
  destruct (run c m f args) eqn:R; eauto; try contradiction.
  exfalso. apply N. destruct (wrapv c) eqn:W.
  - apply in_or_app. left. apply (ub_exact_wrapping c f W I). eauto 8.
  - apply (ub_exact_strict c f W I). eauto 8.
Qed.

Theorem local_call c f m1 m2 s pre seg post rest : In f library -> ~ In (f_name f) ub_strict ->
  let m := m1 ++ (s, pre ++ seg ++ post) :: m2 in
  let args := OPtr s (List.length m1) (Z.of_nat (List.length pre)) :: rest in
  well_typed m -> valid_args m f args -> Z.of_nat (List.length seg) = extent f ->
  exists seg' v,
    List.length seg' = List.length seg /\
    run c [(s, seg)] f (OPtr s 0 0 :: rest) = Returns [(s, seg')] v /\
    run c m f args = Returns (m1 ++ (s, pre ++ seg' ++ post) :: m2) v.
Proof.
  intros I N m args W V Ls.
  pose proof (proj1 (forallb_forall _ _) pointer_library f I) as S. unfold pointer_shape in S.
  unfold valid_args in V. destruct (f_params f) as [|p ps] eqn:Ep; [inversion V|].
  destruct p as [x [|s0|n0 t0|ts0|s0]];
    try (exfalso; inversion V as [|? ? ? ? (T & _) _]; subst; cbn in T; inversion T; fail).
  rewrite !andb_true_iff in S. destruct S as ((((S1 & S2) & S3) & S4) & S5). apply negb_true_iff, String.eqb_neq in S4.
  apply Z.leb_le in S5.
  inversion V as [|? ? ? ? Vp Vr]; subst. destruct Vp as (Tp & _ & Cp). cbn [snd] in Tp, Cp.
  assert (s0 = s) by (now inversion Tp). subst s0.
  assert (W' : well_typed [(s, seg)]).
  { constructor; [|constructor]. cbn. unfold well_typed in W. apply Forall_app in W. destruct W as [_ W]. inversion W as [|? ? W1 _]; subst.
    cbn in W1. apply Forall_app in W1. destruct W1 as [_ W1]. apply Forall_app in W1. tauto. }
  assert (V' : valid_args [(s, seg)] f (OPtr s 0 0 :: rest)).
  { unfold valid_args. rewrite Ep. constructor.
    - split; [constructor; intros s' cells; cbn; congruence|]. split; [constructor|]. cbn [snd].
      exists s, 0%nat, 0, seg. split; [reflexivity|]. split; [reflexivity|]. split; [lia|]. split; [lia|].
      intros E i Hi. destruct Cp as (s1 & b1 & off1 & cells & Eq & Nb & _ & _ & H). injection Eq as <- <- <-.
      unfold m in Nb. rewrite nth_error_app2, Nat.sub_diag in Nb by lia. cbn in Nb. injection Nb as <-.
      destruct (H E i Hi) as (z & Hz). exists z. rewrite nth_error_app2 in Hz by lia.
      replace (Z.to_nat (Z.of_nat (List.length pre) + i) - List.length pre)%nat with (Z.to_nat i) in Hz by lia.
      rewrite nth_error_app1 in Hz by lia. exact Hz.
    - rewrite forallb_forall in S1. clear -Vr S1. induction Vr as [|p o ps args H Vr IH]; constructor.
      + apply (valid_arg_plain m); [apply S1; now left|exact H].
      + apply IH. intros q Hq. apply S1. now right. }
  destruct (defined_call c _ f _ I N S4 W' V') as (m' & v & R).
  pose proof (any_call f c _ _ I W' (valid_typed _ _ _ V')) as K. rewrite R in K. destruct K as (RT & _ & (Lm & SB) & _).
  destruct (SB 0%nat s seg eq_refl) as (seg' & E' & Lseg & _).
  destruct m' as [|b' [|]]; try discriminate Lm. cbn in E'. injection E' as ->.
  exists seg', v. split; [exact Lseg|]. split; [exact R|].
  destruct (run_local c f (OPtr s 0 0 :: rest) m1 m2 pre post s seg S3) as [L _]. specialize (L s seg' v R).
  assert (Er : map (sh m1 pre) (OPtr s 0 0 :: rest) = args).
  { unfold args. cbn [map sh]. f_equal. rewrite forallb_forall in S1. clear -Vr S1. induction Vr as [|p o ps rest H Vr IH]; [reflexivity|].
    cbn [map]. f_equal; [|apply IH; intros q Hq; apply S1; now right].
    apply (plain_sh m m1 pre (snd p)); [apply S1; now left|]. exact (proj1 H). }
  rewrite Er in L. unfold m. rewrite L. f_equal.
  destruct v as [o|]; cbn; [|reflexivity]. f_equal. exact (plain_sh _ m1 pre (f_ret f) S2 o RT).
Qed.

(** Cutting a memory around the elements a valid call accesses. *)
Lemma cut m f s b off rest : In f library -> valid_args m f (OPtr s b off :: rest) ->
  exists m1 m2 pre seg post, m = m1 ++ (s, pre ++ seg ++ post) :: m2 /\ b = List.length m1 /\
    off = Z.of_nat (List.length pre) /\ Z.of_nat (List.length seg) = extent f.
Proof.
  intros I V. pose proof (proj1 (forallb_forall _ _) pointer_library f I) as S. unfold pointer_shape in S.
  unfold valid_args in V. destruct (f_params f) as [|p ps]; [inversion V|].
  destruct p as [x [|s0|n0 t0|ts0|s0]];
    try (exfalso; inversion V as [|? ? ? ? (T & _) _]; subst; cbn in T; inversion T; fail).
  rewrite !andb_true_iff in S. destruct S as (_ & S5). apply Z.leb_le in S5.
  inversion V as [|? ? ? ? (T & _ & C) _]; subst. cbn [snd] in C.
  destruct C as (s1 & b1 & off1 & cells & Eq & Nb & H1 & H2 & _). injection Eq as <- <- <-.
  apply nth_error_split in Nb. destruct Nb as (m1 & m2 & -> & Lb).
  exists m1, m2, (firstn (Z.to_nat off) cells), (firstn (Z.to_nat (extent f)) (skipn (Z.to_nat off) cells)),
    (skipn (Z.to_nat (extent f)) (skipn (Z.to_nat off) cells)).
  rewrite !firstn_skipn. split; [reflexivity|]. split; [now symmetry|].
  rewrite !firstn_length, skipn_length. lia.
Qed.

Lemma element_mid m1 s cells m2 i : element (m1 ++ (s, cells) :: m2) (List.length m1) i = if i <? 0 then None else nth_error cells (Z.to_nat i).
Proof. unfold element. rewrite nth_error_app2, Nat.sub_diag by lia. reflexivity. Qed.

Lemma element_other m1 x y m2 b i : b <> List.length m1 -> element (m1 ++ x :: m2) b i = element (m1 ++ y :: m2) b i.
Proof.
  intros H. unfold element. destruct (Nat.lt_ge_cases b (List.length m1)).
  - now rewrite !nth_error_app1 by lia.
  - rewrite !nth_error_app2 by lia. now destruct (b - List.length m1)%nat as [|k] eqn:E; [lia|].
Qed.

(** A call with a pointer argument accesses exactly its extent: elsewhere memory is unchanged. *)
Theorem store_frame c f m s b off rest : In f library -> ~ In (f_name f) ub_strict -> well_typed m ->
  valid_args m f (OPtr s b off :: rest) ->
  exists m' v, run c m f (OPtr s b off :: rest) = Returns m' v /\ List.length m' = List.length m /\
    forall b' i, ~ (b' = b /\ off <= i < off + extent f) -> element m' b' i = element m b' i.
Proof.
  intros I N W V. destruct (cut m f s b off rest I V) as (m1 & m2 & pre & seg & post & -> & -> & -> & Ls).
  destruct (local_call c f m1 m2 s pre seg post rest I N W V Ls) as (seg' & v & L & _ & R).
  do 2 eexists. split; [exact R|]. split; [now rewrite !app_length|].
  intros b' i H. destruct (Nat.eq_dec b' (List.length m1)) as [->|Hb]; [|now apply element_other].
  rewrite !element_mid. destruct (Z.ltb_spec i 0); [reflexivity|].
  destruct (Z.lt_ge_cases i (Z.of_nat (List.length pre))); [now rewrite !nth_error_app1 by lia|].
  rewrite !(nth_error_app2 pre) by lia.
  rewrite !(nth_error_app2 _ post) by lia. now rewrite L.
Qed.

Lemma list_ext {A} (l l' : list A) : List.length l = List.length l' -> (forall i, (i < List.length l)%nat -> nth_error l i = nth_error l' i) -> l = l'.
Proof.
  revert l'. induction l as [|a l IH]; intros [|a' l'] L H; try discriminate L; [reflexivity|].
  pose proof (H 0%nat ltac:(cbn; lia)) as H0. cbn in H0. injection H0 as ->. f_equal. apply IH; [now injection L|].
  intros i Hi. apply (H (S i)). cbn. lia.
Qed.

Lemma element_seg m1 s pre seg post m2 i : 0 <= i < Z.of_nat (List.length seg) ->
  element (m1 ++ (s, pre ++ seg ++ post) :: m2) (List.length m1) (Z.of_nat (List.length pre) + i) = nth_error seg (Z.to_nat i).
Proof.
  intros H. rewrite element_mid. destruct (Z.ltb_spec (Z.of_nat (List.length pre) + i) 0); [lia|].
  rewrite nth_error_app2 by lia. replace (Z.to_nat (Z.of_nat (List.length pre) + i) - List.length pre)%nat with (Z.to_nat i) by lia.
  apply nth_error_app1. lia.
Qed.

(** The result of such a call, and what it stores, depend only on the elements in its extent. *)
Theorem extent_determines c f m m' s b b' off off' rest : In f library -> ~ In (f_name f) ub_strict ->
  well_typed m -> well_typed m' ->
  valid_args m f (OPtr s b off :: rest) -> valid_args m' f (OPtr s b' off' :: rest) ->
  (forall i, 0 <= i < extent f -> element m b (off + i) = element m' b' (off' + i)) ->
  exists n n' v, run c m f (OPtr s b off :: rest) = Returns n v /\ run c m' f (OPtr s b' off' :: rest) = Returns n' v /\
    forall i, 0 <= i < extent f -> element n b (off + i) = element n' b' (off' + i).
Proof.
  intros I N W W' V V' E.
  destruct (cut m f s b off rest I V) as (m1 & m2 & pre & seg & post & -> & -> & -> & Ls).
  destruct (cut m' f s b' off' rest I V') as (m1' & m2' & pre' & seg' & post' & -> & -> & -> & Ls').
  assert (seg = seg').
  { apply list_ext; [lia|]. intros i Hi. specialize (E (Z.of_nat i) ltac:(lia)).
    rewrite !element_seg in E by lia. now rewrite Nat2Z.id in E. }
  subst seg'.
  destruct (local_call c f m1 m2 s pre seg post rest I N W V Ls) as (sg & v & L & R0 & R).
  destruct (local_call c f m1' m2' s pre' seg post' rest I N W' V' Ls') as (sg' & v' & L' & R0' & R').
  rewrite R0 in R0'. injection R0' as <- <-.
  do 3 eexists. split; [exact R|]. split; [exact R'|]. intros i Hi. rewrite !element_seg by lia. reflexivity.
Qed.

(** ** Functions without pointer parameters *)

Lemma list_ext_nth {A} (l l' : list A) : (forall i, nth_error l i = nth_error l' i) -> l = l'.
Proof.
  revert l'. induction l as [|a l IH]; intros [|a' l'] H; [reflexivity|specialize (H 0%nat); discriminate H|specialize (H 0%nat); discriminate H|].
  pose proof (H 0%nat) as H0. cbn in H0. injection H0 as ->. f_equal. apply IH. intros i. exact (H (S i)).
Qed.

Lemma plain_no_pointer m t : plain_ty t = true -> forall o b, has_type m t o -> ~ points_into b o.
Proof.
  induction t as [|s|n t IH|ts IH|s] using ty_ind'; intros P o b H K; inversion H; subst; inversion K; subst.
  - match goal with E : Exists _ _ |- _ => apply Exists_exists in E; destruct E as (o & Ho & E) end.
    rewrite Forall_forall in *. eapply IH; eauto.
  - cbn in P. rewrite forallb_forall in P. rewrite Forall_forall in IH.
    match goal with F : Forall2 _ _ _, E : Exists _ _ |- _ => rename F into HF; rename E into EX end. clear H K. revert P IH EX.
    induction HF as [|t o ts l Ho HF IHF]; intros P IH EX; inversion EX; subst.
    + eapply (IH t); eauto; [now left|apply P; now left].
    + apply IHF; auto; intros; [apply P|eapply IH]; eauto; now right.
  - discriminate.
Qed.

Theorem memory_irrelevant f c m m' args : In f library -> no_pointers f -> typed_args m f args ->
  match run c m f args with
  | Returns n v => n = m /\ run c m' f args = Returns m' v
  | o => run c m' f args = o
  end.
Proof.
  intros I NP T. pose proof (proj1 (forallb_forall _ _) pointer_library f I) as S. unfold pointer_shape in S.
  assert (S' : forallb (fun p => plain_ty (snd p)) (f_params f) = true).
  { destruct (f_params f) as [|[x t] ps] eqn:E; [reflexivity|]. destruct t as [| | | |s]; try exact S.
    exfalso. eapply (NP (x, TPtr s)); [rewrite E; now left|reflexivity]. }
  assert (R : forall b, ~ reachable args b).
  { intros b Hb. unfold reachable in Hb. unfold typed_args in T. rewrite forallb_forall in S'. clear -T S' Hb.
    induction T as [|p o ps args H T IH]; inversion Hb; subst; [|apply IH; auto; intros; apply S'; now right].
    eapply plain_no_pointer; eauto. apply S'. now left. }
  pose proof (call_frame f c args m m' I) as F. specialize (F ltac:(intros b Hb; exfalso; exact (R b Hb))).
  pose proof (call_frame f c args m' m I) as F'. specialize (F' ltac:(intros b Hb; exfalso; exact (R b Hb))).
  destruct (run c m f args) as [n v| | | |] eqn:E1, (run c m' f args) as [n' v'| | | |] eqn:E2; try contradiction; try congruence.
  destruct F as (-> & _ & F). destruct F' as (_ & _ & F').
  assert (En : n = m).
  { apply list_ext_nth. intros b. apply F, R. }
  assert (En' : n' = m').
  { apply list_ext_nth. intros b. apply F', R. }
  now subst.
Qed.
