(** Which elements a step accesses; threads with disjoint footprints never race. *)
From Coq Require Import ZArith String List Bool Lia.
From Verif Require Import Types Syntax Interp ProgRecip Library Spec ExecLemmas AbsSound MetaSpec P_Meta P_Meta2 Frame P_Valid P_Valid2 Local P_Det Client P_Threads Micro P_Micro P_Micro2 P_Micro3.
Import ListNotations.
Open Scope Z_scope.

(** ** A step depends on what it reads and changes what it writes *)

Lemma mem_read_agree m M t b i : same_shape m M -> element m b i = element M b i -> mem_read m t b i = mem_read M t b i.
Proof.
  intros Sh E. unfold mem_read. specialize (Sh b). unfold element in E.
  destruct (nth_error m b) as [[s cells]|]; destruct (nth_error M b) as [[s' cells']|]; cbn in Sh; try discriminate; [|reflexivity].
  injection Sh as <- L. destruct (sty_eqb t s); [|reflexivity]. unfold get_idx. destruct (i <? 0); [reflexivity|]. now rewrite E.
Qed.

Section Reads.
  Variables (c : cfg) (en : env) (m M : memory).
  Hypothesis Sh : same_shape m M.

  Lemma eval_reads e : (forall b i, In (b, i) (reads c en m e) -> element m b i = element M b i) -> evaluate c en M e = evaluate c en m e.
  Proof.
    unfold evaluate. induction e; cbn [reads eval]; intros H; try reflexivity.
    all: try (rewrite IHe by exact H; reflexivity).
    all: try (rewrite IHe1 by (intros; apply H; apply in_or_app; now left); rewrite IHe2 by (intros; apply H; apply in_or_app; now right); reflexivity).
    - rewrite IHe1 by (intros; apply H; apply in_or_app; now left).
      rewrite IHe2 by (intros; apply H; apply in_or_app; right; apply in_or_app; now left).
      fold (evaluate c en m e1) (evaluate c en m e2) in *. destruct (evaluate c en m e1) as [o|]; [|reflexivity]. cbn [bind].
      destruct (evaluate c en m e2) as [oi|]; [|reflexivity]. cbn [bind] in *. destruct (int_value oi) as [k|]; [|reflexivity]. cbn [bind].
      destruct o as [|l|t b off]; try reflexivity. cbn [index]. symmetry. apply mem_read_agree; [exact Sh|].
      apply H. apply in_or_app; right; apply in_or_app; right. now left.
    - rewrite IHe1 by (intros; apply H; apply in_or_app; now left).
      fold (evaluate c en m e1) in *. destruct (evaluate c en m e1) as [o|]; [|reflexivity]. cbn [bind] in *. destruct (cond_value o) as [[]|]; try reflexivity. cbn [bind].
      rewrite IHe2 by (intros; apply H; apply in_or_app; now right). reflexivity.
    - rewrite IHe1 by (intros; apply H; apply in_or_app; now left).
      fold (evaluate c en m e1) in *. destruct (evaluate c en m e1) as [o|]; [|reflexivity]. cbn [bind] in *. destruct (cond_value o) as [[]|]; try reflexivity. cbn [bind].
      rewrite IHe2 by (intros; apply H; apply in_or_app; now right). reflexivity.
    - rewrite IHe1 by (intros; apply H; apply in_or_app; now left).
      fold (evaluate c en m e1) in *. destruct (evaluate c en m e1) as [o|]; [|reflexivity]. cbn [bind] in *. destruct (cond_value o) as [[]|]; try reflexivity; cbn [bind].
      + apply IHe2. intros; apply H; apply in_or_app; now right.
      + apply IHe3. intros; apply H; apply in_or_app; now right.
  Qed.

  Lemma path_reads p : (forall b i, In (b, i) (flat_map (reads c en m) p) -> element m b i = element M b i) -> evaluate_path c en M p = evaluate_path c en m p.
  Proof.
    unfold evaluate_path. induction p as [|e p IH]; cbn [flat_map eval_path]; intros H; [reflexivity|].
    rewrite IH by (intros; apply H; apply in_or_app; now right). pose proof (eval_reads e) as K. unfold evaluate in K. rewrite K; [reflexivity|].
    intros; apply H; apply in_or_app; now left.
  Qed.
End Reads.

Lemma assign_writes c en m M x ks v : same_shape m M ->
  match assign c en m x ks v, assign c en M x ks v with
  | Ok r, Ok R => fst R = fst r /\ same_shape m (snd r) /\ same_shape M (snd R) /\
      ((snd r = m /\ snd R = M /\ forall t b off, lookup x en <> Some (OPtr t b off)) \/
       (exists t b off i z, lookup x en = Some (OPtr t b off) /\ ks = [i] /\
          (forall b' e, (b', e) <> (b, off + i) -> element (snd r) b' e = element m b' e /\ element (snd R) b' e = element M b' e) /\
          element (snd r) b (off + i) = Some (Some z) /\ element (snd R) b (off + i) = Some (Some z)))
  | Err e, Err e' => e = e'
  | _, _ => False
  end.
Proof.
  intros Sh. unfold assign. destruct (scalar v) as [p|]; [|reflexivity]. cbn [bind]. destruct (lookup x en) as [o|] eqn:El; [|reflexivity].
  assert (R0 : forall o, match (let* o' := put c o ks (fst p) (snd p) in Ok (update x o' en, m)), (let* o' := put c o ks (fst p) (snd p) in Ok (update x o' en, M)) with
    | Ok r, Ok R => fst R = fst r /\ same_shape m (snd r) /\ same_shape M (snd R) /\ (snd r = m /\ snd R = M)
    | Err e, Err e' => e = e' | _, _ => False end).
  { intros o1. destruct (put c o1 ks (fst p) (snd p)); cbn; [|reflexivity]. split; [reflexivity|]. split; [apply same_shape_refl|]. split; [apply same_shape_refl|auto]. }
  destruct o as [t w|l|t b off].
  { specialize (R0 (OScal t w)). destruct (put c (OScal t w) ks (fst p) (snd p)); cbn in *; [|tauto]. split; [tauto|]. split; [tauto|]. split; [tauto|]. left. split; [tauto|]. split; [tauto|]. discriminate. }
  { specialize (R0 (OArr l)). destruct (put c (OArr l) ks (fst p) (snd p)); cbn in *; [|tauto]. split; [tauto|]. split; [tauto|]. split; [tauto|]. left. split; [tauto|]. split; [tauto|]. discriminate. }
  clear R0. destruct ks as [|i [|? ?]]; try reflexivity. destruct (convert c (fst p) t (snd p)) as [z|]; [|reflexivity]. cbn [bind].
  unfold mem_write. pose proof (Sh b) as Sb.
  destruct (nth_error m b) as [[s cells]|] eqn:E1; destruct (nth_error M b) as [[s' cells']|] eqn:E2; cbn in Sb; try discriminate; [|reflexivity].
  injection Sb as <- L. destruct (sty_eqb t s); [|reflexivity]. unfold get_idx.
  destruct (Z.ltb_spec (off + i) 0) as [|G]; [reflexivity|].
  assert (Lt : forall cells1 : list (option Z), nth_error cells1 (Z.to_nat (off + i)) = None <-> (List.length cells1 <= Z.to_nat (off + i))%nat) by (intros; apply nth_error_None).
  destruct (nth_error cells (Z.to_nat (off + i))) eqn:N1; destruct (nth_error cells' (Z.to_nat (off + i))) eqn:N2; cbn [bind].
  2: { apply Lt in N2. assert (nth_error cells (Z.to_nat (off + i)) = None) by (apply Lt; lia). congruence. }
  2: { apply Lt in N1. assert (nth_error cells' (Z.to_nat (off + i)) = None) by (apply Lt; lia). congruence. }
  2: reflexivity.
  cbn [fst snd]. 
  assert (SW : forall (m0 : memory) s0 cs, nth_error m0 b = Some (s0, cs) -> nth_error cs (Z.to_nat (off + i)) <> None ->
    same_shape m0 (set_nth b (s0, set_nth (Z.to_nat (off + i)) (Some z) cs) m0) /\
    (forall b' e, (b', e) <> (b, off + i) -> element (set_nth b (s0, set_nth (Z.to_nat (off + i)) (Some z) cs) m0) b' e = element m0 b' e) /\
    element (set_nth b (s0, set_nth (Z.to_nat (off + i)) (Some z) cs) m0) b (off + i) = Some (Some z)).
  { intros m0 s0 cs Hn Hc. assert (Lb : (b < List.length m0)%nat) by (apply nth_error_Some; congruence).
    apply nth_error_Some in Hc.
    split; [|split].
    - intros b'. rewrite nth_error_set_nth by exact Lb. destruct (Nat.eqb_spec b' b); [|reflexivity]. subst. rewrite Hn. cbn. unfold shape. cbn. now rewrite length_set_nth.
    - intros b' e Ne. unfold element. rewrite nth_error_set_nth by exact Lb. destruct (Nat.eqb_spec b' b); [|reflexivity]. subst. rewrite Hn.
      destruct (Z.ltb_spec e 0); [reflexivity|]. rewrite nth_error_set_nth by exact Hc. destruct (Nat.eqb_spec (Z.to_nat e) (Z.to_nat (off + i))); [|reflexivity].
      exfalso. apply Ne. f_equal. lia.
    - unfold element. rewrite nth_error_set_nth by exact Lb. rewrite Nat.eqb_refl. destruct (Z.ltb_spec (off + i) 0); [lia|]. rewrite nth_error_set_nth by exact Hc. now rewrite Nat.eqb_refl. }
  destruct (SW m s cells E1 ltac:(congruence)) as (S1 & U1 & V1). destruct (SW M s cells' E2 ltac:(congruence)) as (S2 & U2 & V2).
  split; [reflexivity|]. split; [exact S1|]. split; [exact S2|]. right. exists t, b, off, i, z. split; [reflexivity|]. split; [reflexivity|].
  split; [intros b' e Ne; split; [now apply U1|now apply U2]|]. split; assumption.
Qed.

(** What a step does is determined by the elements it reads, and it changes only those it writes. *)
Definition same_step (c : cfg) (m M : memory) (th : thread) : Prop :=
  match advance c m th, advance c M th with
  | Ok (m', th1), Ok (M', th2) => th2 = th1 /\
      (forall b i, ~ In (b, i) (step_writes c m th) -> element m' b i = element m b i /\ element M' b i = element M b i) /\
      (forall b i, In (b, i) (step_writes c m th) -> element m' b i = element M' b i)
  | Err e, Err e' => e = e'
  | _, _ => False
  end.

Lemma same_step_pure c m M th r : advance c m th = (let* t := r in Ok (m, t)) -> advance c M th = (let* t := r in Ok (M, t)) ->
  step_writes c m th = [] -> same_step c m M th.
Proof.
  intros E1 E2 W. unfold same_step. rewrite E1, E2, W. destruct r as [t|e]; cbn; [|reflexivity]. split; [reflexivity|]. split; [auto|contradiction].
Qed.

Lemma access_sound c m M th : same_shape m M -> (forall b i, In (b, i) (step_reads c m th) -> element m b i = element M b i) -> same_step c m M th.
Proof.
  intros Sh H. destruct th as [[|f args next]|f k en next].
  - reflexivity.
  - eapply (same_step_pure _ _ _ _ (let* en := bind_params c (f_params f) args in Ok (Inside f [FStmt (f_body f)] en next))); try reflexivity;
      cbn [advance]; destruct (bind_params c (f_params f) args); reflexivity.
  - destruct k as [|fr k].
    { eapply (same_step_pure _ _ _ _ (match f_ret f with TVoid => Ok (Between (next None)) | _ => Err (EUB MissingReturn) end)); try reflexivity; cbn [advance]; destruct (f_ret f); reflexivity. }
    destruct fr as [s|n|i cond nx body|i nx]; cbn [step_reads] in H.
    + destruct s; cbn [step_reads] in H.
      * apply (same_step_pure _ _ _ _ (Ok (Inside f k en next))); reflexivity.
      * apply (same_step_pure _ _ _ _ (Ok (Inside f (FStmt s1 :: FStmt s2 :: k) en next))); reflexivity.
      * destruct init as [e|]; [|apply (same_step_pure _ _ _ _ (Ok (Inside f k ((x, fresh t) :: en) next))); reflexivity].
        pose proof (eval_reads c en m M Sh e H) as E.
        apply (same_step_pure _ _ _ _ (let* o := evaluate c en m e in let* o' := init_obj c t o in Ok (Inside f k ((x, o') :: en) next)));
          [| |reflexivity]; cbn [advance small]; rewrite ?E; destruct (evaluate c en m e) as [o|]; cbn [bind]; trivial; destruct (init_obj c t o); reflexivity.
      * pose proof (eval_reads c en m M Sh e (fun b i K => H b i (in_or_app _ _ _ (or_intror K)))) as E.
        pose proof (path_reads c en m M Sh path (fun b i K => H b i (in_or_app _ _ _ (or_introl K)))) as Ep.
        unfold same_step. cbn [advance small step_writes]. rewrite E, Ep. destruct (evaluate_path c en m path) as [ks|]; [|reflexivity]. cbn [bind].
        destruct (evaluate c en m e) as [v|]; [|reflexivity]. cbn [bind]. pose proof (assign_writes c en m M x ks v Sh) as K.
        destruct (assign c en m x ks v) as [r|], (assign c en M x ks v) as [R|]; cbn [bind]; trivial; try contradiction.
        destruct K as (Ef & _ & _ & D). cbn [fst snd]. split; [now rewrite Ef|]. destruct D as [(-> & -> & NP)|(t & b & off & i & z & -> & -> & U & V1 & V2)].
        -- split; [auto|]. destruct (lookup x en) as [[| |t b off]|]; try contradiction. exfalso. exact (NP t b off eq_refl).
        -- split.
           ++ intros b' i' N. apply U. intros Eq. apply N. left. now symmetry.
           ++ intros b' i' [Eq|[]]. injection Eq as <- <-. now rewrite V1, V2.
      * pose proof (eval_reads c en m M Sh e H) as E.
        apply (same_step_pure _ _ _ _ (let* o := evaluate c en m e in let* b := cond_value o in Ok (Inside f (FStmt (if b then s1 else s2) :: FPop (List.length en) :: k) en next)));
          [| |reflexivity]; cbn [advance small]; rewrite ?E; destruct (evaluate c en m e) as [o|]; cbn [bind]; trivial; destruct (cond_value o); reflexivity.
      * pose proof (eval_reads c en m M Sh init H) as E.
        apply (same_step_pure _ _ _ _ (let* o := evaluate c en m init in let* o' := init_obj c (TScal t) o in Ok (Inside f (FTest i cond next0 s :: FPop (List.length en) :: k) ((i, o') :: en) next)));
          [| |reflexivity]; cbn [advance small]; rewrite ?E; destruct (evaluate c en m init) as [o|]; cbn [bind]; trivial; destruct (init_obj c (TScal t) o); reflexivity.
      * pose proof (eval_reads c en m M Sh n H) as E.
        apply (same_step_pure _ _ _ _ (let* o := evaluate c en m n in let* j := int_value o in
            match lookup dst en, lookup src en with Some od, Some os => let* od' := memcpy_obj od os j in Ok (Inside f k (update dst od' en) next) | _, _ => Err EStuck end));
          [| |reflexivity]; cbn [advance small]; rewrite ?E; destruct (evaluate c en m n) as [o|]; cbn [bind]; trivial; destruct (int_value o); cbn [bind]; trivial;
          destruct (lookup dst en), (lookup src en); cbn [bind]; trivial; destruct (memcpy_obj _ _ _); reflexivity.
      * apply (same_step_pure _ _ _ _ (Err EAbort)); reflexivity.
      * pose proof (eval_reads c en m M Sh e H) as E.
        apply (same_step_pure _ _ _ _ (let* o := evaluate c en m e in match f_ret f with TVoid => Err EStuck | t => let* o' := init_obj c t o in Ok (Between (next (Some o'))) end));
          [| |reflexivity]; cbn [advance]; rewrite ?E; destruct (evaluate c en m e) as [o|]; cbn [bind]; trivial;
          destruct (f_ret f) as [|t| | |]; trivial; match goal with |- context [init_obj c ?t o] => destruct (init_obj c t o); reflexivity end.
    + apply (same_step_pure _ _ _ _ (Ok (Inside f k (pop n en) next))); reflexivity.
    + pose proof (eval_reads c en m M Sh cond H) as E.
      apply (same_step_pure _ _ _ _ (let* o := evaluate c en m cond in let* b := cond_value o in
           Ok (Inside f (if b then FStmt body :: FPop (List.length en) :: FNext i nx :: FTest i cond nx body :: k else k) en next)));
        [| |reflexivity]; cbn [advance small]; rewrite ?E; destruct (evaluate c en m cond) as [o|]; cbn [bind]; trivial; destruct (cond_value o); reflexivity.
    + pose proof (eval_reads c en m M Sh nx H) as E. unfold same_step. cbn [advance small step_writes]. rewrite E.
      destruct (evaluate c en m nx) as [v|]; [|reflexivity]. cbn [bind]. pose proof (assign_writes c en m M i [] v Sh) as K.
      destruct (assign c en m i [] v) as [r|], (assign c en M i [] v) as [R|]; cbn [bind]; trivial; try contradiction.
      destruct K as (Ef & _ & _ & D). cbn [fst snd]. split; [now rewrite Ef|]. destruct D as [(-> & -> & _)|(t & b & off & i0 & z & _ & K & _)]; [|discriminate K].
      split; [auto|contradiction].
Qed.

(** ** The accesses of a thread stay in its footprint *)

Section Inside.
  Variables (c : cfg) (m1 m2 : memory) (pre post : list (option Z)) (s : sty) (seg : list (option Z)) (len : env).
  Let M := m1 ++ (s, pre ++ seg ++ post) :: m2.
  Let lm := [(s, seg)].
  Definition within (x : nat * Z) : Prop :=
    fst x = List.length m1 /\ Z.of_nat (List.length pre) <= snd x < Z.of_nat (List.length pre) + Z.of_nat (List.length seg).

  Lemma evaluate_shift e o : no_call e = true -> evaluate c len lm e = Ok o -> evaluate c (shen m1 pre len) M e = Ok (sh m1 pre o).
  Proof.
    intros N E. pose proof (eval_sh m1 m2 pre post c (call_helper c helpers loop_fuel call_depth) len _ _ e (memR_mid m1 m2 pre post s seg) N) as K.
    unfold evaluate in E. unfold lm in E. rewrite E in K. destruct K as (o1 & K & ->). exact K.
  Qed.

  Lemma reads_within e : forall o, no_call e = true -> evaluate c len lm e = Ok o -> Forall within (reads c (shen m1 pre len) M e).
  Proof.
    induction e; intros o N E; cbn [reads]; try (constructor; fail); cbn [no_call] in N; rewrite ?andb_true_iff in N; unfold evaluate in E; cbn [eval] in E;
      try discriminate N; fold (evaluate c len lm) in E.
    - destruct N as [N1 N2]. fold (evaluate c len lm e1) in *. fold (evaluate c len lm e2) in *.
      destruct (evaluate c len lm e1) as [o1|] eqn:E1; [|discriminate E]. cbn [bind] in E.
      destruct (evaluate c len lm e2) as [o2|] eqn:E2; [|discriminate E]. cbn [bind] in E.
      destruct (int_value o2) as [k|] eqn:Ek; [|discriminate E]. cbn [bind] in E.
      apply Forall_app. split; [exact (IHe1 o1 N1 eq_refl)|]. apply Forall_app. split; [exact (IHe2 o2 N2 eq_refl)|].
      rewrite (evaluate_shift e1 o1 N1 E1), (evaluate_shift e2 o2 N2 E2). cbn [bind]. rewrite int_value_sh, Ek.
      destruct o1 as [t v|l|t b off]; cbn [sh]; try constructor; [|constructor].
      cbn [index] in E. unfold mem_read, lm in E. destruct b as [|b]; [|destruct b; discriminate E]. cbn [nth_error] in E.
      destruct (sty_eqb t s); [|discriminate E]. unfold get_idx in E. destruct (Z.ltb_spec (off + k) 0); [discriminate E|].
      destruct (nth_error seg (Z.to_nat (off + k))) eqn:En; [|discriminate E].
      assert (L : (Z.to_nat (off + k) < List.length seg)%nat) by (apply nth_error_Some; congruence).
      unfold within. cbn [fst snd]. split; [reflexivity|lia].
    - fold (evaluate c len lm e) in *. destruct (evaluate c len lm e) as [o1|] eqn:E1; [|discriminate E]. exact (IHe o1 N eq_refl).
    - destruct N as [N1 N2]. fold (evaluate c len lm e1) (evaluate c len lm e2) in *.
      destruct (evaluate c len lm e1) as [o1|] eqn:E1; [|discriminate E]. cbn [bind] in E. destruct (scalar o1); [|discriminate E]. cbn [bind] in E.
      destruct (evaluate c len lm e2) as [o2|] eqn:E2; [|discriminate E]. apply Forall_app. split; eauto.
    - destruct N as [N1 N2]. fold (evaluate c len lm e1) (evaluate c len lm e2) in *.
      destruct (evaluate c len lm e1) as [o1|] eqn:E1; [|discriminate E]. cbn [bind] in E. apply Forall_app. split; [eauto|].
      rewrite (evaluate_shift e1 o1 N1 E1). cbn [bind]. rewrite cond_value_sh. destruct (cond_value o1) as [[]|]; [|constructor|constructor]. cbn [bind] in E.
      destruct (evaluate c len lm e2) as [o2|] eqn:E2; [|discriminate E]. eauto.
    - destruct N as [N1 N2]. fold (evaluate c len lm e1) (evaluate c len lm e2) in *.
      destruct (evaluate c len lm e1) as [o1|] eqn:E1; [|discriminate E]. cbn [bind] in E. apply Forall_app. split; [eauto|].
      rewrite (evaluate_shift e1 o1 N1 E1). cbn [bind]. rewrite cond_value_sh. destruct (cond_value o1) as [[]|]; [constructor| |constructor]. cbn [bind] in E.
      destruct (evaluate c len lm e2) as [o2|] eqn:E2; [|discriminate E]. eauto.
    - destruct N as [[N1 N2] N3]. fold (evaluate c len lm e1) (evaluate c len lm e2) (evaluate c len lm e3) in *.
      destruct (evaluate c len lm e1) as [o1|] eqn:E1; [|discriminate E]. cbn [bind] in E. apply Forall_app. split; [eauto|].
      rewrite (evaluate_shift e1 o1 N1 E1). cbn [bind]. rewrite cond_value_sh. destruct (cond_value o1) as [[]|]; [| |constructor]; cbn [bind] in E; eauto.
    - fold (evaluate c len lm e) in *. destruct (evaluate c len lm e) as [o1|] eqn:E1; [|discriminate E]. exact (IHe o1 N eq_refl).
    - destruct N as [N1 N2]. fold (evaluate c len lm e1) (evaluate c len lm e2) in *.
      destruct (evaluate c len lm e1) as [o1|] eqn:E1; [|discriminate E]. cbn [bind] in E. destruct (scalar o1); [|discriminate E]. cbn [bind] in E.
      destruct (evaluate c len lm e2) as [o2|] eqn:E2; [|discriminate E]. apply Forall_app. split; eauto.
    - destruct N as [N1 N2]. fold (evaluate c len lm e1) (evaluate c len lm e2) in *.
      destruct (evaluate c len lm e1) as [o1|] eqn:E1; [|discriminate E]. cbn [bind] in E. destruct (scalar o1); [|discriminate E]. cbn [bind] in E.
      destruct (evaluate c len lm e2) as [o2|] eqn:E2; [|discriminate E]. apply Forall_app. split; eauto.
  Qed.

  Lemma path_within p : forall ks, forallb no_call p = true -> evaluate_path c len lm p = Ok ks ->
    Forall within (flat_map (reads c (shen m1 pre len) M) p) /\ evaluate_path c (shen m1 pre len) M p = Ok ks.
  Proof.
    induction p as [|e p IH]; intros ks N E; [split; [constructor|exact E]|]. cbn [forallb] in N. apply andb_true_iff in N. destruct N as [N1 N2].
    unfold evaluate_path in *. cbn [eval_path flat_map] in *. fold (evaluate c len lm e) in E. destruct (evaluate c len lm e) as [o|] eqn:E1; [|discriminate E]. cbn [bind] in E.
    destruct (int_value o) as [k|] eqn:Ek; [|discriminate E]. cbn [bind] in E. destruct (eval_path c _ len lm p) as [ks'|] eqn:E2; [|discriminate E].
    destruct (IH ks' N2 eq_refl) as [F1 F2]. split; [apply Forall_app; split; [exact (reads_within e o N1 E1)|exact F1]|].
    fold (evaluate c (shen m1 pre len) M e). rewrite (evaluate_shift e o N1 E1). cbn [bind]. rewrite int_value_sh, Ek. cbn [bind]. rewrite F2. exact E.
  Qed.

  Lemma assign_within x ks v r : assign c len lm x ks v = Ok r ->
    forall t b off i, lookup x len = Some (OPtr t b off) -> ks = [i] -> within ((b + List.length m1)%nat, off + Z.of_nat (List.length pre) + i).
  Proof.
    intros E t b off i El ->. unfold assign in E. destruct (scalar v) as [p|]; [|discriminate E]. cbn [bind] in E. rewrite El in E.
    destruct (convert c (fst p) t (snd p)); [|discriminate E]. cbn [bind] in E. unfold mem_write, lm in E.
    destruct b as [|b]; [|destruct b; discriminate E]. cbn [nth_error] in E. destruct (sty_eqb t s); [|discriminate E]. unfold get_idx in E.
    destruct (Z.ltb_spec (off + i) 0); [discriminate E|]. destruct (nth_error seg (Z.to_nat (off + i))) eqn:En; [|discriminate E].
    assert (L : (Z.to_nat (off + i) < List.length seg)%nat) by (apply nth_error_Some; congruence). unfold within. cbn [fst snd]. split; [reflexivity|lia].
  Qed.

  Lemma step_within f k next k' en' m' : forallb flocal k = true -> small c k len lm = Ok (k', en', m') ->
    Forall within (step_reads c M (Inside f k (shen m1 pre len) next)) /\ Forall within (step_writes c M (Inside f k (shen m1 pre len) next)).
  Proof.
    intros L E. destruct k as [|fr k]; [discriminate E|]. cbn [forallb] in L. apply andb_true_iff in L. destruct L as [L _].
    assert (EV : forall e o, no_call e = true -> evaluate c len lm e = Ok o -> Forall within (reads c (shen m1 pre len) M e)) by (intros; eapply reads_within; eauto).
    destruct fr as [st|n|i cond nx body|i nx]; cbn [flocal small step_reads step_writes] in *.
    - destruct st; cbn [localb] in L; rewrite ?andb_true_iff in L; try (split; constructor; fail); try discriminate E; try discriminate L.
      + destruct init as [e|]; [|split; constructor]. destruct (evaluate c len lm e) as [o|] eqn:Eo; [|discriminate E]. split; [eauto|constructor].
      + destruct L as [Lp Le]. destruct (evaluate_path c len lm path) as [ks|] eqn:Ep; [|discriminate E]. cbn [bind] in E.
        destruct (evaluate c len lm e) as [o|] eqn:Eo; [|discriminate E]. cbn [bind] in E.
        destruct (assign c len lm x ks o) as [r|] eqn:Ea; [|discriminate E].
        destruct (path_within path ks Lp Ep) as [F1 F2]. split; [apply Forall_app; split; [exact F1|eauto]|].
        rewrite F2, lookup_sh. destruct (lookup x len) as [[| |t b off]|] eqn:El; cbn [option_map sh]; try constructor.
        destruct ks as [|i [|]]; try constructor; [|constructor]. exact (assign_within x _ o r Ea t b off i El eq_refl).
      + destruct (evaluate c len lm e) as [o|] eqn:Eo; [|discriminate E]. split; [apply (EV e o); tauto|constructor].
      + destruct (evaluate c len lm init) as [o|] eqn:Eo; [|discriminate E]. split; [apply (EV init o); tauto|constructor].
    - split; constructor.
    - rewrite !andb_true_iff in L. destruct (evaluate c len lm cond) as [o|] eqn:Eo; [|discriminate E]. split; [apply (EV cond o); tauto|constructor].
    - destruct (evaluate c len lm nx) as [o|] eqn:Eo; [|discriminate E]. split; [eauto|constructor].
  Qed.
End Inside.

(** Without pointers there are no accesses. *)
Lemma reads_plain c en m e : oke nowhere en -> reads c en m e = [].
Proof.
  intros O. pose proof (call_helper_ok nowhere c helpers loop_fuel call_depth helpers_no_ptr_decl) as CO.
  induction e; cbn [reads]; trivial; try (now rewrite IHe1, IHe2).
  - rewrite IHe1, IHe2. cbn [app]. pose proof (eval_ok nowhere c _ CO en m e1 O) as K. unfold evaluate at 1.
    destruct (eval c _ en m e1) as [[| |t b off]|]; trivial. cbn in K. exfalso. exact (proj1 (okp_ptr nowhere t b off) K).
  - rewrite IHe1, IHe2. destruct (bind _ _) as [[]|]; reflexivity.
  - rewrite IHe1, IHe2. destruct (bind _ _) as [[]|]; reflexivity.
  - rewrite IHe1, IHe2, IHe3. destruct (bind _ _) as [[]|]; reflexivity.
Qed.

Lemma step_plain c m f k en next : oke nowhere en -> step_reads c m (Inside f k en next) = [] /\ step_writes c m (Inside f k en next) = [].
Proof.
  intros O. assert (R : forall e, reads c en m e = []) by (intros; now apply reads_plain).
  destruct k as [|fr k]; [split; reflexivity|]. destruct fr as [s|n|i cond nx body|i nx]; cbn [step_reads step_writes]; try (split; [apply R|reflexivity]); [|split; reflexivity].
  destruct s; try (split; [apply R|reflexivity]); try (split; reflexivity).
  - destruct init; [|split; reflexivity]. split; [apply R|reflexivity].
  - split.
    + rewrite R, app_nil_r. induction path as [|a path IH]; cbn; [reflexivity|]. now rewrite R, IH.
    + destruct (lookup x en) as [[| |t b off]|] eqn:E; trivial. exfalso. pose proof (lookup_ok nowhere x en _ O E) as K. exact (proj1 (okp_ptr nowhere t b off) K).
Qed.

Lemma tinv_accesses c m A W target M th r : tinv c m A W target M th r ->
  (forall x, In x (step_reads c M th) -> A (fst x) (snd x)) /\ (forall x, In x (step_writes c M th) -> A (fst x) (snd x) /\ W (fst x) (snd x)).
Proof.
  intros T. destruct T as [q mi S E|f k en next n ni v S E En Fp O|f k en len next n ni v s seg seg1 m1 m2 pre post x0 S EM Ee En Fl Ls Fa Fr Fo Fi Fv].
  - split; cbn; contradiction.
  - destruct (step_plain c M f k en next O) as [-> ->]. split; cbn; contradiction.
  - subst M en.
    assert (Win : forall x, within m1 pre seg x -> A (fst x) (snd x) /\ (is_store f = true -> W (fst x) (snd x))).
    { intros [b e] [Hb He]. cbn [fst snd] in *. subst b. replace e with (Z.of_nat (List.length pre) + (e - Z.of_nat (List.length pre))) by lia. apply Fa. lia. }
    assert (K : Forall (within m1 pre seg) (step_reads c (m1 ++ (s, pre ++ seg ++ post) :: m2) (Inside f k (shen m1 pre len) next)) /\
                Forall (within m1 pre seg) (step_writes c (m1 ++ (s, pre ++ seg ++ post) :: m2) (Inside f k (shen m1 pre len) next)) /\
                (is_store f = false -> step_writes c (m1 ++ (s, pre ++ seg ++ post) :: m2) (Inside f k (shen m1 pre len) next) = [])).
    { inversion En as [en0 m0 Er|e k0 en0 m0 o o' Ev Er Ei|n0 k0 en0 m0 k' en' lm v0 m' Es En']; subst.
      - repeat split; constructor.
      - cbn [step_reads step_writes]. split; [|split; [constructor|reflexivity]]. apply (reads_within c m1 m2 pre post s seg1 len e o); [|exact Ev].
        cbn [forallb flocal localb] in Fl. apply andb_true_iff in Fl. tauto.
      - destruct (step_within c m1 m2 pre post s seg len f k next k' en' lm Fl Es) as [F1 F2]. split; [exact F1|]. split; [exact F2|].
        intros St. destruct (Fr St) as [Rd On]. destruct k as [|[st| | |] k]; trivial. destruct st; trivial. cbn [step_writes]. rewrite lookup_sh.
        destruct (lookup x len) as [o|] eqn:El; trivial. cbn [forallb freads reads_only] in Rd. apply andb_true_iff in Rd. destruct Rd as [Rd _].
        apply negb_true_iff, String.eqb_neq in Rd. pose proof (only_lookup x0 len x o On Rd El) as P. destruct o; trivial; discriminate P. }
    destruct K as (K1 & K2 & K3). split.
    + intros x Hx. apply Win. exact (proj1 (Forall_forall _ _) K1 x Hx).
    + intros x Hx. pose proof (Win x (proj1 (Forall_forall _ _) K2 x Hx)) as [Wa Ww]. split; [exact Wa|]. destruct (is_store f); [now apply Ww|].
      rewrite K3 in Hx by reflexivity. contradiction.
Qed.

Lemma no_race c m ps A W : well_typed m ->
  (forall i p, nth_error ps i = Some p -> confined c (A i) (W i) m p) ->
  (forall i j b e, i <> j -> W i b e -> ~ A j b e) ->
  (forall i p, nth_error ps i = Some p -> exists mi, execute c m p = Returns mi None) ->
  forall M ts, fine_steps c (m, map Between ps) (M, ts) ->
  forall i j th th', i <> j -> nth_error ts i = Some th -> nth_error ts j = Some th' -> ~ race c M th th'.
Proof.
  intros Wm Conf Disj Alone M ts H i j th th' Nij Hi Hj (x & Hw & Hr).
  destruct (finv_steps c m ps A W Wm Conf Disj Alone (M, ts) H) as (rs & I).
  pose proof (f_len _ _ _ _ _ _ _ I) as L. pose proof (f_rlen _ _ _ _ _ _ _ I) as Lr. cbn [snd] in L.
  assert (T : forall i th, nth_error ts i = Some th -> exists p r, tinv c m (A i) (W i) (execute c m p) M th r).
  { intros i0 th0 H0. assert (Li : (i0 < List.length ps)%nat) by (rewrite <- L; apply nth_error_Some; congruence).
    destruct (nth_error ps i0) as [p|] eqn:Hp; [|apply nth_error_None in Hp; lia].
    destruct (nth_error rs i0) as [r|] eqn:Hr0; [|apply nth_error_None in Hr0; lia].
    exists p, r. exact (f_thread _ _ _ _ _ _ _ I i0 p th0 r Hp H0 Hr0). }
  destruct (T i th Hi) as (p & r & Ti). destruct (T j th' Hj) as (p' & r' & Tj).
  destruct (tinv_accesses _ _ _ _ _ _ _ _ Ti) as [_ Wi]. destruct (tinv_accesses _ _ _ _ _ _ _ _ Tj) as [Rj Wj].
  apply (Disj i j (fst x) (snd x) Nij); [exact (proj2 (Wi x Hw))|]. destruct Hr as [Hr|Hr]; [exact (Rj x Hr)|exact (proj1 (Wj x Hr))].
Qed.
