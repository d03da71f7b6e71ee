(** Proofs about histories of calls and about interleaved programs. *)
From Coq Require Import ZArith String List Bool Lia.
From Verif Require Import Types Syntax Interp ProgRecip Library Spec AbsSound MetaSpec P_Meta P_Meta2 Frame P_Valid P_Valid2 P_Det Local Client.
Import ListNotations.
Open Scope Z_scope.

(** ** Shapes of memories *)

Definition shape (blk : block) : sty * nat := (fst blk, List.length (snd blk)).
Definition same_shape (m m' : memory) : Prop := forall b, option_map shape (nth_error m b) = option_map shape (nth_error m' b).

Lemma same_blocks_refl m : same_blocks m m.
Proof. split; [reflexivity|]. intros b s cells H. exists cells. eauto. Qed.

Lemma same_blocks_trans m1 m2 m3 : same_blocks m1 m2 -> same_blocks m2 m3 -> same_blocks m1 m3.
Proof.
  intros [L1 H1] [L2 H2]. split; [congruence|]. intros b s cells H. destruct (H1 b s cells H) as (c2 & N2 & E2 & I2).
  destruct (H2 b s c2 N2) as (c3 & N3 & E3 & I3). exists c3. split; [exact N3|]. split; [congruence|].
  intros i z Hz. destruct (I2 i z Hz) as (z2 & Hz2). exact (I3 i z2 Hz2).
Qed.

Lemma same_blocks_shape m m' : same_blocks m m' -> same_shape m m'.
Proof.
  intros [L H] b. destruct (nth_error m b) as [[s cells]|] eqn:E.
  - destruct (H b s cells E) as (c' & E' & L' & _). rewrite E'. cbn. unfold shape. cbn. now rewrite L'.
  - apply nth_error_None in E. rewrite <- L in E. apply nth_error_None in E. now rewrite E.
Qed.

Lemma same_shape_sym m m' : same_shape m m' -> same_shape m' m.
Proof. intros H b. symmetry. apply H. Qed.
Lemma same_shape_trans m1 m2 m3 : same_shape m1 m2 -> same_shape m2 m3 -> same_shape m1 m3.
Proof. intros H1 H2 b. rewrite H1. apply H2. Qed.

Lemma same_shape_nth m m' b s cells : same_shape m m' -> nth_error m b = Some (s, cells) ->
  exists cells', nth_error m' b = Some (s, cells') /\ List.length cells' = List.length cells.
Proof.
  intros H E. specialize (H b). rewrite E in H. destruct (nth_error m' b) as [[s' cells']|]; [|discriminate].
  cbn in H. injection H as Hs Hl. exists cells'. subst. auto.
Qed.

(** ** One call *)

Lemma store_shape : forallb (fun f => negb (is_store f) || match f_params f with (_, TPtr _) :: _ => true | _ => false end) library = true.
Proof. vm_compute. reflexivity. Qed.

(** A documented call either has no pointer, or its first argument is one and it is the only one. *)
Lemma arg_cases f m args : In f library -> valid_args m f args ->
  (no_pointers f /\ is_store f = false /\ Forall (fun p => plain_ty (snd p) = true) (f_params f)) \/
  (exists s b off rest, args = OPtr s b off :: rest).
Proof.
  intros I V. pose proof (proj1 (forallb_forall _ _) pointer_library f I) as S. unfold pointer_shape in S.
  pose proof (proj1 (forallb_forall _ _) store_shape f I) as St. cbv beta in St.
  unfold valid_args in V. destruct (f_params f) as [|[x t] ps] eqn:E.
  - left. split; [intros p s Hp; rewrite E in Hp; contradiction|]. split; [|constructor].
    rewrite orb_false_r in St. now apply negb_true_iff in St.
  - destruct t as [|s0|n0 t0|ts0|s0].
    5: { right. inversion V as [|? ? ? ? (T & _) _]; subst. cbn in T. inversion T; subst. eauto 6. }
    all: left; rewrite orb_false_r in St; apply negb_true_iff in St.
    all: assert (F : Forall (fun p => plain_ty (snd p) = true) ((x, _) :: ps)) by (apply Forall_forall; intros p Hp; exact (proj1 (forallb_forall _ _) S p Hp)).
    all: split; [intros p s Hp Eq; rewrite E in Hp; pose proof (proj1 (Forall_forall _ _) F p Hp) as K; cbv beta in K; rewrite Eq in K; discriminate|].
    all: split; [exact St|exact F].
Qed.

Lemma value_call f c m args m1 v : In f library -> is_store f = false -> well_typed m -> typed_args m f args ->
  run c m f args = Returns m1 v -> m1 = m.
Proof. intros I S W T R. pose proof (any_call f c m args I W T) as K. rewrite R in K. now apply K. Qed.

Lemma call_blocks f c m args m1 v : In f library -> well_typed m -> typed_args m f args ->
  run c m f args = Returns m1 v -> well_typed m1 /\ same_blocks m m1.
Proof. intros I W T R. pose proof (any_call f c m args I W T) as K. rewrite R in K. destruct K as (_ & K2 & K3 & _). auto. Qed.

Lemma call_effect f c m args m1 v : In f library -> f_name f <> "vst4_u8"%string -> well_typed m -> valid_args m f args ->
  run c m f args = Returns m1 v ->
  forall b i, (is_store f = true -> ~ in_footprint f args b i) -> element m1 b i = element m b i.
Proof.
  intros I N W V R b i F. destruct (is_store f) eqn:S.
  - destruct (arg_cases f m args I V) as [(_ & K & _)|(s & b0 & off & rest & ->)]; [congruence|].
    destruct (footprint_writes f c m s b0 off rest I N W V) as (m' & v' & R' & _ & K).
    rewrite R in R'. injection R' as <- <-. apply K. intros [-> H]. apply (F eq_refl). exists s, off. split; [now left|exact H].
  - now rewrite (value_call f c m args m1 v I S W (valid_typed m f args V) R).
Qed.

Lemma element_some (m : memory) b cells s i z : nth_error m b = Some (s, cells) -> 0 <= i ->
  (element m b i = Some z <-> nth_error cells (Z.to_nat i) = Some z).
Proof. intros E H. unfold element. rewrite E. destruct (i <? 0) eqn:K; [apply Z.ltb_lt in K; lia|]. reflexivity. Qed.

Lemma valid_arg_transfer m M f args p o : same_shape m M -> In o args ->
  (forall b i, in_footprint f args b i -> element M b i = element m b i) ->
  plain_ty (snd p) = true \/ (exists s, snd p = TPtr s) ->
  valid_arg m f p o -> valid_arg M f p o.
Proof.
  intros Sh Io Ag [P|[s P]] V; [now apply (valid_arg_plain m)|].
  destruct V as (T & In_ & C). rewrite P in *. inversion T as [| | |s' b off Ht]; subst.
  unfold valid_arg. rewrite P. split; [|split; [exact In_|]].
  - constructor. intros s' cells' H. destruct (same_shape_nth M m b s' cells' (same_shape_sym _ _ Sh) H) as (cells & Hc & _).
    exact (Ht s' cells Hc).
  - destruct C as (s1 & b1 & off1 & cells & Eq & Nb & H1 & H2 & H3). injection Eq as <- <- <-.
    destruct (same_shape_nth m M b s cells Sh Nb) as (cells' & Nb' & L').
    exists s, b, off, cells'. split; [reflexivity|]. split; [exact Nb'|]. split; [exact H1|]. split; [lia|].
    intros S i Hi. destruct (H3 S i Hi) as (z & Hz). exists z.
    apply (element_some M b cells' s (off + i) (Some z) Nb'); [lia|].
    rewrite Ag; [|exists s, off; split; [exact Io|lia]]. now apply (element_some m b cells s (off + i) (Some z) Nb); [lia|].
Qed.

Lemma Forall2_weaken {A B} (P Q : A -> B -> Prop) l l' : Forall2 P l l' ->
  (forall x y, In x l -> In y l' -> P x y -> Q x y) -> Forall2 Q l l'.
Proof.
  induction 1 as [|x y l l' H F IH]; intros K; constructor; [apply K; cbn; auto|].
  apply IH. intros a b Ha Hb. apply K; cbn; auto.
Qed.

Lemma param_kind f p : In f library -> In p (f_params f) -> plain_ty (snd p) = true \/ (exists s, snd p = TPtr s).
Proof.
  intros I Hp. pose proof (proj1 (forallb_forall _ _) pointer_library f I) as S. unfold pointer_shape in S.
  destruct (f_params f) as [|[x t] ps]; [contradiction|]. destruct t as [|s0|n0 t0|ts0|s0].
  5: { destruct Hp as [<-|Hp]; [right; eexists; reflexivity|]. left. rewrite !andb_true_iff in S. destruct S as ((((S & _) & _) & _) & _).
       exact (proj1 (forallb_forall _ _) S p Hp). }
  all: left; exact (proj1 (forallb_forall _ _) S p Hp).
Qed.

Lemma valid_transfer f m M args : In f library -> same_shape m M ->
  (forall b i, in_footprint f args b i -> element M b i = element m b i) ->
  valid_args m f args -> valid_args M f args.
Proof.
  intros I Sh Ag V. apply (Forall2_weaken _ _ _ _ V). intros p o Hp Ho H.
  exact (valid_arg_transfer m M f args p o Sh Ho Ag (param_kind f p I Hp) H).
Qed.

(** The same call in a memory that agrees on its footprint. *)
Lemma call_agree f c m M args m1 v : In f library -> f_name f <> "vst4_u8"%string -> well_typed m -> well_typed M ->
  same_shape m M -> (forall b i, in_footprint f args b i -> element M b i = element m b i) ->
  valid_args m f args -> run c m f args = Returns m1 v ->
  exists M1, run c M f args = Returns M1 v /\ (forall b i, in_footprint f args b i -> element M1 b i = element m1 b i).
Proof.
  intros I N W WM Sh Ag V R. pose proof (valid_transfer f m M args I Sh Ag V) as VM.
  destruct (arg_cases f m args I V) as [(Np & S & F)|(s & b0 & off & rest & ->)].
  - pose proof (memory_irrelevant f c m M args I Np (valid_typed m f args V)) as K. rewrite R in K. destruct K as [_ K].
    exists M. split; [exact K|]. intros b i (s & off & Hin & _). exfalso.
    apply (In_nth_error _ _) in Hin as (k & Hk).
    assert (exists p, In p (f_params f) /\ valid_arg m f p (OPtr s b off)) as (p & Hp & (T & _)).
    { clear -V Hk. unfold valid_args in V. revert k Hk. induction V as [|p o ps os Hpo V IH]; intros [|k] Hk; cbn in Hk; try discriminate.
      - injection Hk as ->. exists p. split; [now left|exact Hpo].
      - destruct (IH k Hk) as (q & Hq & H). exists q. split; [now right|exact H]. }
    inversion T as [| | |? ? ? ? Et]; subst. apply (Np p s Hp). now symmetry.
  - destruct (footprint_depends f c m M s b0 b0 off off rest I N W WM V VM) as (n & n' & v' & R1 & R2 & K).
    { intros i Hi. symmetry. apply Ag. exists s, off. split; [now left|lia]. }
    rewrite R in R1. injection R1 as <- <-. exists n'. split; [exact R2|].
    intros b i (s' & off' & Hin & Hi).
    (* the only pointer among the arguments is the first *)
    assert (E : s' = s /\ b = b0 /\ off' = off).
    { destruct Hin as [Hin|Hin]; [now injection Hin as -> -> ->|]. exfalso.
      pose proof (proj1 (forallb_forall _ _) pointer_library f I) as P. unfold pointer_shape in P. unfold valid_args in V.
      inversion V as [|p0 o0 ps os Hp0 HV Ep]; subst. rewrite <- Ep in P. destruct p0 as [x t0].
      destruct Hp0 as (T0 & _). cbn in T0. inversion T0; subst. rewrite !andb_true_iff in P. destruct P as ((((P & _) & _) & _) & _).
      apply (In_nth_error _ _) in Hin as (k & Hk).
      assert (exists p, In p ps /\ valid_arg m f p (OPtr s' b off')) as (p & Hp & (T & _)).
      { clear -HV Hk. revert k Hk. induction HV as [|p o ps os Hpo V IH]; intros [|k] Hk; cbn in Hk; try discriminate.
        - injection Hk as ->. exists p. split; [now left|exact Hpo].
        - destruct (IH k Hk) as (q & Hq & H). exists q. split; [now right|exact H]. }
      pose proof (proj1 (forallb_forall _ _) P p Hp) as Q. cbv beta in Q. inversion T as [| | |? ? ? ? Et]; subst. rewrite <- Et in Q. discriminate. }
    destruct E as (-> & -> & ->). symmetry. replace i with (off + (i - off)) by lia. apply K. lia.
Qed.

(** ** Histories *)

Lemma history_typed c m h m' : history c typed_args m h m' -> well_typed m -> well_typed m' /\ same_blocks m m'.
Proof.
  induction 1 as [m|m f args m1 v h m' I T R H IH]; intros W; [split; [exact W|apply same_blocks_refl]|].
  destruct (call_blocks f c m args m1 v I W T R) as [W1 B1]. destruct (IH W1) as [W' B']. split; [exact W'|].
  exact (same_blocks_trans _ _ _ B1 B').
Qed.

Lemma history_weaken c (P Q : memory -> func -> list obj -> Prop) m h m' : (forall m f args, P m f args -> Q m f args) ->
  history c P m h m' -> history c Q m h m'.
Proof. intros K. induction 1; econstructor; eauto. Qed.

Lemma history_untouched c m h m' b : history c typed_args m h m' -> well_typed m ->
  (forall f args, In (f, args) h -> is_store f = true -> ~ reachable args b) -> nth_error m' b = nth_error m b.
Proof.
  induction 1 as [m|m f args m1 v h m' I T R H IH]; intros W F; [reflexivity|].
  destruct (call_blocks f c m args m1 v I W T R) as [W1 B1]. rewrite IH; [|exact W1|intros g a Hg; apply (F g a); now right].
  destruct (is_store f) eqn:S.
  - pose proof (call_frame f c args m m I (fun b _ => eq_refl)) as K. rewrite R in K. apply K. apply (F f args); [now left|exact S].
  - now rewrite (value_call f c m args m1 v I S W T R).
Qed.

Lemma history_elements c m h m' b i : history c well_behaved m h m' -> well_typed m -> not_stored h b i ->
  element m' b i = element m b i.
Proof.
  induction 1 as [m|m f args m1 v h m' I [N V] R H IH]; intros W F; [reflexivity|].
  destruct (call_blocks f c m args m1 v I W (valid_typed m f args V) R) as [W1 B1].
  rewrite IH; [|exact W1|intros g a Hg; apply (F g a); now right].
  apply (call_effect f c m args m1 v I N W V R). intros S. apply (F f args); [now left|exact S].
Qed.

Lemma history_load c m h m' f args v : history c well_behaved m h m' -> well_typed m ->
  In f library -> is_store f = false -> valid_args m f args ->
  (forall b i, in_footprint f args b i -> not_stored h b i) ->
  run c m f args = Returns m v -> valid_args m' f args /\ run c m' f args = Returns m' v.
Proof.
  intros H W I S V F R.
  assert (HT : history c typed_args m h m') by (apply (history_weaken c well_behaved); [intros ? ? ? [_ K]; exact (valid_typed _ _ _ K)|exact H]).
  destruct (history_typed c m h m' HT W) as [W' B].
  assert (Ag : forall b i, in_footprint f args b i -> element m' b i = element m b i).
  { intros b i K. apply (history_elements c m h m' b i H W). now apply F. }
  assert (N : f_name f <> "vst4_u8"%string).
  { intros E. assert (f = vst4_u8) by (apply (unique "vst4_u8"%string vst4_u8 f); [vm_compute; reflexivity|exact I|exact E]). subst. discriminate S. }
  pose proof (valid_transfer f m m' args I (same_blocks_shape _ _ B) Ag V) as V'. split; [exact V'|].
  destruct (call_agree f c m m' args m v I N W W' (same_blocks_shape _ _ B) Ag V R) as (M1 & R' & _).
  rewrite R'. f_equal. exact (value_call f c m' args M1 v I S W' (valid_typed m' f args V') R').
Qed.

(** ** Careful programs *)

Lemma careful_runs c bad m p : (forall f, In f library -> ~ In (f_name f) bad -> f_name f <> "vshr_n_u16"%string /\
    forall m args k, well_typed m -> valid_args m f args -> run c m f args <> Undefined k) ->
  well_typed m -> careful c bad m p ->
  exists m', execute c m p = Returns m' None /\ well_typed m' /\ same_blocks m m'.
Proof.
  intros K. revert m. induction p as [|f args next IH]; intros m W C; cbn [execute careful] in *.
  - exists m. split; [reflexivity|]. split; [exact W|apply same_blocks_refl].
  - destruct C as (I & N & V & C). destruct (K f I N) as [NV NU].
    pose proof (any_call f c m args I W (valid_typed m f args V)) as T.
    pose proof (no_abort_valid c m f args I NV W V) as NA.
    destruct (run c m f args) as [m1 v| | | |] eqn:R; try contradiction.
    + destruct (call_blocks f c m args m1 v I W (valid_typed m f args V) R) as [W1 B1].
      destruct (IH v m1 W1 (C m1 v eq_refl)) as (m' & E & W' & B'). exists m'. split; [exact E|]. split; [exact W'|].
      exact (same_blocks_trans _ _ _ B1 B').
    + exfalso. exact (NU m args _ W V R).
Qed.

(** ** Threads *)

Section Threads.
Context (c : cfg) (m : memory) (ps : list program) (A W : nat -> nat -> Z -> Prop).
Context (Wm : well_typed m).
Context (Conf : forall i p, nth_error ps i = Some p -> confined c (A i) (W i) m p).
Context (Disj : forall i j b e, i <> j -> W i b e -> ~ A j b e).
Context (Alone : forall i p, nth_error ps i = Some p -> exists mi, execute c m p = Returns mi None).

Record inv (s : memory * list program) : Prop := {
  inv_len : List.length (snd s) = List.length ps;
  inv_wt : well_typed (fst s);
  inv_blocks : same_blocks m (fst s);
  inv_frame : forall b e, (forall i, ~ W i b e) -> element (fst s) b e = element m b e;
  inv_thread : forall i p q, nth_error ps i = Some p -> nth_error (snd s) i = Some q ->
    exists mi, confined c (A i) (W i) mi q /\ execute c mi q = execute c m p /\ well_typed mi /\ same_blocks m mi /\
      forall b e, A i b e -> element (fst s) b e = element mi b e }.

Lemma inv_start : inv (m, ps).
Proof.
  split; cbn; trivial; [apply same_blocks_refl|]. intros i p q Hp Hq. rewrite Hp in Hq. injection Hq as <-.
  exists m. split; [exact (Conf i p Hp)|]. split; [reflexivity|]. split; [exact Wm|]. split; [apply same_blocks_refl|reflexivity].
Qed.

Lemma shapes m1 m2 : same_blocks m m1 -> same_blocks m m2 -> same_shape m1 m2.
Proof. intros H1 H2. apply (same_shape_trans _ m); [apply same_shape_sym|]; now apply same_blocks_shape. Qed.

Lemma thread_of s i q : inv s -> nth_error (snd s) i = Some q -> exists p, nth_error ps i = Some p.
Proof.
  intros I H. destruct (nth_error ps i) as [p|] eqn:E; [eauto|]. apply nth_error_None in E. rewrite <- (inv_len s I) in E.
  apply nth_error_None in E. congruence.
Qed.

(** A thread that is not at its end makes its call as it does when it is alone. *)
Lemma inv_call M qs i f args next : inv (M, qs) -> nth_error qs i = Some (Call f args next) ->
  exists p mi ni v M1, nth_error ps i = Some p /\ confined c (A i) (W i) mi (Call f args next) /\
    run c mi f args = Returns ni v /\ run c M f args = Returns M1 v /\
    execute c ni (next v) = execute c m p /\ confined c (A i) (W i) ni (next v) /\
    well_typed ni /\ same_blocks m ni /\ well_typed M1 /\ same_blocks m M1 /\
    (forall b e, A i b e -> element M1 b e = element ni b e) /\
    (forall b e, ~ W i b e -> element M1 b e = element M b e).
Proof.
  intros I H. destruct (thread_of (M, qs) i _ I H) as (p & Hp).
  destruct (inv_thread _ I i p _ Hp H) as (mi & C & E & Wi & Bi & Ag). cbn [fst] in *.
  destruct (Alone i p Hp) as (me & Ee). pose proof C as C0. cbn [confined] in C. destruct C as (Il & N & V & Fp & C).
  pose proof E as E0. rewrite Ee in E. cbn [execute] in E.
  destruct (run c mi f args) as [ni v| | | |] eqn:R; try discriminate E.
  assert (AgF : forall b e, in_footprint f args b e -> element M b e = element mi b e).
  { intros b e K. apply Ag. now apply Fp. }
  pose proof (inv_wt _ I) as WM. pose proof (inv_blocks _ I) as BM. cbn [fst] in WM, BM.
  destruct (call_agree f c mi M args ni v Il N Wi WM (shapes _ _ Bi BM) AgF V R) as (M1 & RM & AgF1).
  pose proof (valid_transfer f mi M args Il (shapes _ _ Bi BM) AgF V) as VM.
  destruct (call_blocks f c mi args ni v Il Wi (valid_typed _ _ _ V) R) as [Wn Bn].
  destruct (call_blocks f c M args M1 v Il WM (valid_typed _ _ _ VM) RM) as [WM1 BM1].
  exists p, mi, ni, v, M1. split; [exact Hp|]. split; [exact C0|]. split; [exact R|]. split; [exact RM|].
  split; [cbn [execute] in E0; now rewrite R in E0|]. split; [exact (C ni v eq_refl)|]. split; [exact Wn|].
  split; [exact (same_blocks_trans _ _ _ Bi Bn)|]. split; [exact WM1|]. split; [exact (same_blocks_trans _ _ _ BM BM1)|].
  split.
  - intros b e Ha. destruct (is_store f) eqn:S.
    + (* decide whether the element is in the footprint *)
      destruct (arg_cases f mi args Il V) as [(_ & K & _)|(s & b0 & off & rest & Ea)]; [congruence|].
      destruct (Nat.eq_dec b b0) as [Eb|Nb]; [destruct (Z_le_gt_dec off e); [destruct (Z_lt_ge_dec e (off + extent f))|]|].
      1: { apply AgF1. exists s, off. subst args b. split; [now left|lia]. }
      all: assert (NF : ~ (b = b0 /\ off <= e < off + extent f)) by (intros [? ?]; try lia; contradiction).
      all: subst args; destruct (footprint_writes f c mi s b0 off rest Il N Wi V) as (? & ? & R1 & _ & K1); rewrite R in R1; injection R1 as <- <-.
      all: destruct (footprint_writes f c M s b0 off rest Il N WM VM) as (? & ? & R2 & _ & K2); rewrite RM in R2; injection R2 as <- <-.
      all: rewrite (K1 b e NF), (K2 b e NF); now apply Ag.
    + rewrite (value_call f c M args M1 v Il S WM (valid_typed _ _ _ VM) RM).
      rewrite (value_call f c mi args ni v Il S Wi (valid_typed _ _ _ V) R). now apply Ag.
  - intros b e Hw. apply (call_effect f c M args M1 v Il N WM VM RM). intros S K. apply Hw. now apply (proj2 (Fp b e K)).
Qed.

Lemma inv_step s s' : inv s -> step c s s' -> inv s'.
Proof.
  intros I St. inversion St as [M qs1 f args next qs2 M1 v R]; subst s s'.
  set (k := List.length qs1).
  assert (Hk : nth_error (qs1 ++ Call f args next :: qs2) k = Some (Call f args next))
    by (unfold k; rewrite nth_error_app2, Nat.sub_diag by lia; reflexivity).
  destruct (inv_call M _ k f args next I Hk) as (p & mi & ni & v' & M1' & Hp & C & Rn & RM & E & Cn & Wn & Bn & WM & BM & Ag & Fr).
  rewrite R in RM. injection RM as <- <-. split; cbn [fst snd].
  - rewrite <- (inv_len _ I). cbn [snd]. now rewrite !app_length.
  - exact WM.
  - exact BM.
  - intros b e H. rewrite (Fr b e (H k)). exact (inv_frame _ I b e H).
  - intros i p' q Hp' Hq. destruct (Nat.eq_dec i k) as [->|Nk].
    + unfold k in Hq. rewrite nth_error_app2, Nat.sub_diag in Hq by lia. injection Hq as <-.
      rewrite Hp in Hp'. injection Hp' as <-. exists ni. auto.
    + assert (Hq' : nth_error (qs1 ++ Call f args next :: qs2) i = Some q).
      { destruct (Nat.lt_ge_cases i (List.length qs1)) as [L|L].
        - now rewrite nth_error_app1 in Hq |- * by exact L.
        - rewrite nth_error_app2 in Hq |- * by exact L. fold k in Hq |- *. destruct (i - k)%nat eqn:D; [unfold k in *; lia|exact Hq]. }
      destruct (inv_thread _ I i p' q Hp' Hq') as (mj & Cj & Ej & Wj & Bj & Aj). exists mj.
      split; [exact Cj|]. split; [exact Ej|]. split; [exact Wj|]. split; [exact Bj|].
      intros b e Ha. rewrite (Fr b e); [exact (Aj b e Ha)|]. intros Hw. exact (Disj k i b e (fun H => Nk (eq_sym H)) Hw Ha).
Qed.

Lemma inv_steps s : steps c (m, ps) s -> inv s.
Proof.
  intros H. remember (m, ps) as s0. induction H as [s|s s' s'' H IH St]; subst; [apply inv_start|].
  exact (inv_step _ _ (IH eq_refl) St).
Qed.

Lemma threads_progress M qs q : steps c (m, ps) (M, qs) -> In q qs -> q <> Finish -> 
  exists qs1 qs2 f args next M1 v, qs = qs1 ++ q :: qs2 /\ q = Call f args next /\ run c M f args = Returns M1 v /\
    step c (M, qs) (M1, qs1 ++ next v :: qs2).
Proof.
  intros H Hq Nq. pose proof (inv_steps _ H) as I. destruct q as [|f args next]; [congruence|].
  destruct (in_split _ _ Hq) as (qs1 & qs2 & ->).
  assert (Hk : nth_error (qs1 ++ Call f args next :: qs2) (List.length qs1) = Some (Call f args next))
    by (rewrite nth_error_app2, Nat.sub_diag by lia; reflexivity).
  destruct (inv_call M _ _ f args next I Hk) as (p & mi & ni & v' & M1' & _ & _ & _ & RM & _).
  exists qs1, qs2, f, args, next, M1', v'. split; [reflexivity|]. split; [reflexivity|]. split; [exact RM|]. now constructor.
Qed.

Lemma threads_result M qs : steps c (m, ps) (M, qs) -> finished qs ->
  well_typed M /\ same_blocks m M /\
  (forall b e, (forall i, ~ W i b e) -> element M b e = element m b e) /\
  forall i p mi, nth_error ps i = Some p -> execute c m p = Returns mi None -> forall b e, A i b e -> element M b e = element mi b e.
Proof.
  intros H F. pose proof (inv_steps _ H) as I. split; [exact (inv_wt _ I)|]. split; [exact (inv_blocks _ I)|].
  split; [exact (inv_frame _ I)|]. intros i p mi Hp E b e Ha.
  destruct (nth_error qs i) as [q|] eqn:Hq.
  2: { apply nth_error_None in Hq. pose proof (inv_len _ I) as L. cbn in L. rewrite L in Hq. apply nth_error_None in Hq. congruence. }
  destruct (inv_thread _ I i p q Hp Hq) as (mj & Cj & Ej & _ & _ & Aj).
  assert (q = Finish) as -> by exact (proj1 (Forall_forall _ _) F q (nth_error_In _ _ Hq)).
  cbn in Ej. rewrite E in Ej. injection Ej as ->. exact (Aj b e Ha).
Qed.
End Threads.

Lemma memory_ext m m' : same_shape m m' -> (forall b e, element m b e = element m' b e) -> m = m'.
Proof.
  intros S E. apply list_ext_nth. intros b. specialize (S b).
  destruct (nth_error m b) as [[s cells]|] eqn:H; destruct (nth_error m' b) as [[s' cells']|] eqn:H'; cbn in S; try discriminate; [|reflexivity].
  injection S as <- L. do 2 f_equal. apply list_ext_nth. intros i. specialize (E b (Z.of_nat i)). unfold element in E. rewrite H, H' in E.
  destruct (Z.of_nat i <? 0) eqn:K; [apply Z.ltb_lt in K; lia|]. now rewrite Nat2Z.id in E.
Qed.

Lemma element_eq_dec (x y : option (option Z)) : {x = y} + {x <> y}.
Proof. decide equality. decide equality. apply Z.eq_dec. Qed.

Lemma threads_unique c m ps A W : well_typed m ->
  (forall i p, nth_error ps i = Some p -> confined c (A i) (W i) m p) ->
  (forall i j b e, i <> j -> W i b e -> ~ A j b e) ->
  (forall i b e, W i b e -> A i b e /\ (i < List.length ps)%nat) ->
  (forall i p, nth_error ps i = Some p -> exists mi, execute c m p = Returns mi None) ->
  forall M qs M' qs', steps c (m, ps) (M, qs) -> finished qs -> steps c (m, ps) (M', qs') -> finished qs' -> M = M'.
Proof.
  intros Wm Conf Disj WA Alone M qs M' qs' H F H' F'.
  destruct (threads_result c m ps A W Wm Conf Disj Alone M qs H F) as (_ & B & Fr & R).
  destruct (threads_result c m ps A W Wm Conf Disj Alone M' qs' H' F') as (_ & B' & Fr' & R').
  apply memory_ext; [apply (same_shape_trans _ m); [apply same_shape_sym|]; now apply same_blocks_shape|].
  intros b e. destruct (element_eq_dec (element M b e) (element M' b e)) as [|N]; [assumption|].
  rewrite Fr, Fr'; trivial; intros i Wi; apply N; destruct (WA i b e Wi) as [Ai Li].
  all: destruct (nth_error ps i) as [p|] eqn:Hp; [|apply nth_error_None in Hp; lia].
  all: destruct (Alone i p Hp) as (mi & E); rewrite (R i p mi Hp E b e Ai), (R' i p mi Hp E b e Ai); reflexivity.
Qed.

(** Every interleaving comes to an end. *)
Inductive child : program -> program -> Prop := child_next f args next v : child (next v) (Call f args next).
Inductive change : list program -> list program -> Prop :=
| change_here p' p l : child p' p -> change (p' :: l) (p :: l)
| change_later p l' l : change l' l -> change (p :: l') (p :: l).

Lemma child_acc p : Acc child p.
Proof. induction p as [|f args next IH]; constructor; intros q H; inversion H; subst. apply IH. Qed.

Lemma change_acc l : Acc change l.
Proof.
  induction l as [|p l IH]; [constructor; intros l' H; inversion H|].
  revert l IH. induction (child_acc p) as [p _ IHp]. intros l Hl. pose proof Hl as Hl0. induction Hl as [l Hl IHl].
  constructor. intros l' H. inversion H; subst.
  - apply IHp; assumption.
  - apply IHl; [assumption|]. apply Hl; assumption.
Qed.

Lemma step_change c s s' : step c s s' -> change (snd s') (snd s).
Proof.
  intros H. inversion H as [m ps1 f args next ps2 m1 v R]; subst. clear H. cbn. induction ps1 as [|p ps1 IH]; cbn.
  - apply change_here. constructor.
  - apply change_later. exact IH.
Qed.

Lemma step_acc c s : Acc (fun s' s => step c s s') s.
Proof.
  destruct s as [m ps]. revert m. induction (change_acc ps) as [ps _ IH]. intros m. constructor. intros [m' ps'] H.
  apply (IH ps'). exact (step_change c _ _ H).
Qed.
