(** A step accesses memory at most once. *)
From Coq Require Import ZArith String List Bool Lia.
From Verif Require Import Types Syntax Interp ProgRecip Library Spec ExecLemmas AbsSound MetaSpec P_Meta P_Meta2 Frame P_Valid P_Valid2 Local P_Det Client P_Threads Micro P_Micro P_Micro2 P_Micro3 P_Race.
Import ListNotations.
Open Scope Z_scope.

(** ** The shape of the functions that take a pointer *)

Fixpoint tame (s : stmt) : bool :=
  match s with
  | SSkip | SAbort => true
  | SSeq a b => tame a && tame b
  | SDecl t _ None => no_ptr t
  | SDecl (TScal _) _ (Some e) => no_call e
  | SDecl _ _ (Some _) => false
  | SAssign _ p e => forallb no_call p && no_call e
  | SIf e a b => no_call e && tame a && tame b
  | SFor _ _ a b d s => no_call a && no_call b && no_call d && tame s
  | SMemcpy _ _ _ => false
  | SReturn e => no_call e
  end.

Definition ftame (fr : frame) : bool :=
  match fr with
  | FStmt s => tame s
  | FPop _ => true
  | FTest _ cond next body => no_call cond && no_call next && tame body
  | FNext _ next => no_call next
  end.

Definition fonce (x0 : string) (fr : frame) : bool :=
  match fr with
  | FStmt s => once x0 s
  | FPop _ => true
  | FTest _ cond next body => Nat.leb (mentions x0 cond) 1 && Nat.leb (mentions x0 next) 1 && once x0 body
  | FNext _ next => Nat.leb (mentions x0 next) 1
  end.

Lemma library_tame : forallb (fun f =>
    match f_params f with
    | (x, TPtr _) :: r => forallb (fun p => no_ptr (snd p)) r && tame (f_body f) && once x (f_body f)
    | r => forallb (fun p => no_ptr (snd p)) r && no_ptr_decl (f_body f)
    end) library = true.
Proof. vm_compute. reflexivity. Qed.

(** Only [x0] is a pointer, and there are none inside objects. *)
Definition env1 (x0 : string) (en : env) : Prop :=
  Forall (fun p => okp nowhere (snd p) \/ (fst p = x0 /\ is_ptr (snd p) = true)) en.

Lemma env1_lookup x0 en x o : env1 x0 en -> lookup x en = Some o -> okp nowhere o \/ (x = x0 /\ is_ptr o = true).
Proof.
  intros H. induction H as [|[y p] en Hp H IH]; cbn; [discriminate|]. destruct (String.eqb_spec x y); [|exact IH].
  intros [= <-]. subst. exact Hp.
Qed.
Lemma env1_update x0 en x o : env1 x0 en -> okp nowhere o -> env1 x0 (update x o en).
Proof.
  intros H K. induction H as [|[y p] en Hp H IH]; cbn; [constructor|]. destruct (String.eqb_spec x y); constructor; auto.
Qed.
Lemma env1_pop x0 n en : env1 x0 en -> env1 x0 (pop n en).
Proof. unfold pop. generalize (List.length en - n)%nat. intros k H. revert k. induction H; intros [|k]; cbn; auto; constructor; auto. Qed.

Lemma ptr_okp t b off : okp nowhere (OPtr t b off) -> False.
Proof. exact (proj1 (okp_ptr nowhere t b off)). Qed.

Section One.
  Variables (c : cfg) (x0 : string) (en : env) (m : memory).
  Hypothesis E1 : env1 x0 en.

  Lemma eval_one e : no_call e = true ->
    (List.length (reads c en m e) <= mentions x0 e)%nat /\
    forall o, evaluate c en m e = Ok o -> okp nowhere o \/ (is_ptr o = true /\ (List.length (reads c en m e) < mentions x0 e)%nat).
  Proof.
    induction e; intros N; cbn [no_call] in N; rewrite ?andb_true_iff in N; try discriminate N; unfold evaluate; cbn [reads mentions eval]; rewrite ?app_length;
      repeat match goal with |- context [eval c (call_helper c helpers loop_fuel call_depth) en m ?e] => fold (evaluate c en m e) end.
    - split; [cbn; lia|]. intros o [= <-]. left. apply okp_scal.
    - split; [cbn; lia|]. intros o. destruct (lookup x en) as [o'|] eqn:L; [|discriminate]. intros [= <-].
      destruct (env1_lookup x0 en x o' E1 L) as [K|[-> K]]; [now left|]. right. rewrite String.eqb_refl. split; [exact K|cbn; lia].
    - destruct N as [N1 N2]. destruct (IHe1 N1) as [A1 B1]. destruct (IHe2 N2) as [A2 B2].
      destruct (evaluate c en m e1) as [o1|] eqn:V1; cbn [bind].
      2: { split; [cbn; lia|discriminate]. }
      destruct (evaluate c en m e2) as [o2|] eqn:V2; cbn [bind].
      2: { split; [destruct o1; cbn; lia|discriminate]. }
      destruct (int_value o2) as [k|]; cbn [bind].
      2: { split; [destruct o1; cbn; lia|discriminate]. }
      destruct (B1 o1 eq_refl) as [K|[K1 K2]].
      + split; [destruct o1; [cbn; lia|cbn; lia|exfalso; exact (ptr_okp _ _ _ K)]|].
        intros o Ho. left. pose proof (index_ok nowhere m o1 k K) as R. rewrite Ho in R. exact R.
      + destruct o1 as [| |t b off]; try discriminate K1. split; [cbn; lia|]. intros o Ho. left. cbn [index] in Ho.
        pose proof (mem_read_ok nowhere m t b (off + k)) as R. rewrite Ho in R. exact R.
    - destruct (IHe N) as [A1 _]. split; [exact A1|]. intros o. destruct (evaluate c en m e) as [o1|]; [|discriminate]. cbn [bind].
      destruct (scalar o1) as [p|]; [|discriminate]. cbn [bind]. intros H. left. pose proof (unary_ok nowhere c op (fst p) (snd p)) as R. rewrite H in R. exact R.
    - destruct N as [N1 N2]. destruct (IHe1 N1) as [A1 _]. destruct (IHe2 N2) as [A2 _]. split; [lia|]. intros o.
      destruct (evaluate c en m e1) as [o1|]; [|discriminate]. cbn [bind]. destruct (scalar o1) as [p|]; [|discriminate]. cbn [bind].
      destruct (evaluate c en m e2) as [o2|]; [|discriminate]. cbn [bind]. destruct (scalar o2) as [q|]; [|discriminate]. cbn [bind].
      intros H. left. match type of H with ?r = _ => pose proof (binary_ok nowhere c op (fst p) (snd p) (fst q) (snd q)) as R end. rewrite H in R. exact R.
    - destruct N as [N1 N2]. destruct (IHe1 N1) as [A1 _]. destruct (IHe2 N2) as [A2 _].
      split; [destruct (bind _ _) as [[]|]; cbn; lia|]. intros o.
      destruct (evaluate c en m e1) as [o1|]; [|discriminate]. cbn [bind]. destruct (cond_value o1) as [[]|]; [| |discriminate]; cbn [bind].
      + destruct (evaluate c en m e2) as [o2|]; [|discriminate]. cbn [bind]. destruct (cond_value o2); [|discriminate]. cbn [bind]. intros [= <-]. left. apply okp_bool.
      + intros [= <-]. left. apply okp_bool.
    - destruct N as [N1 N2]. destruct (IHe1 N1) as [A1 _]. destruct (IHe2 N2) as [A2 _].
      split; [destruct (bind _ _) as [[]|]; cbn; lia|]. intros o.
      destruct (evaluate c en m e1) as [o1|]; [|discriminate]. cbn [bind]. destruct (cond_value o1) as [[]|]; [| |discriminate]; cbn [bind].
      + intros [= <-]. left. apply okp_bool.
      + destruct (evaluate c en m e2) as [o2|]; [|discriminate]. cbn [bind]. destruct (cond_value o2); [|discriminate]. cbn [bind]. intros [= <-]. left. apply okp_bool.
    - destruct N as [[N1 N2] N3]. destruct (IHe1 N1) as [A1 _]. destruct (IHe2 N2) as [A2 B2]. destruct (IHe3 N3) as [A3 B3].
      destruct (evaluate c en m e1) as [o1|]; [|split; [cbn; lia|discriminate]]. cbn [bind].
      destruct (cond_value o1) as [[]|]; [| |split; [cbn; lia|discriminate]]; cbn [bind].
      + split; [lia|]. intros o H. destruct (B2 o H) as [K|[K1 K2]]; [now left|right; split; [exact K1|lia]].
      + split; [lia|]. intros o H. destruct (B3 o H) as [K|[K1 K2]]; [now left|right; split; [exact K1|lia]].
    - destruct (IHe N) as [A1 _]. split; [exact A1|]. intros o. destruct (evaluate c en m e) as [o1|]; [|discriminate]. cbn [bind].
      destruct (scalar o1) as [p|]; [|discriminate]. cbn [bind]. destruct (convert c _ _ _); [|discriminate]. cbn [bind]. intros [= <-]. left. apply okp_scal.
    - destruct N as [N1 N2]. destruct (IHe1 N1) as [A1 _]. destruct (IHe2 N2) as [A2 _]. split; [lia|]. intros o.
      destruct (evaluate c en m e1) as [o1|]; [|discriminate]. cbn [bind]. destruct (scalar o1) as [p|]; [|discriminate]. cbn [bind].
      destruct (evaluate c en m e2) as [o2|]; [|discriminate]. cbn [bind]. destruct (scalar o2) as [q|]; [|discriminate]. cbn [bind].
      intros H. left. pose proof (minmax_ok nowhere c false t (fst p) (snd p) (fst q) (snd q)) as R. rewrite H in R. exact R.
    - destruct N as [N1 N2]. destruct (IHe1 N1) as [A1 _]. destruct (IHe2 N2) as [A2 _]. split; [lia|]. intros o.
      destruct (evaluate c en m e1) as [o1|]; [|discriminate]. cbn [bind]. destruct (scalar o1) as [p|]; [|discriminate]. cbn [bind].
      destruct (evaluate c en m e2) as [o2|]; [|discriminate]. cbn [bind]. destruct (scalar o2) as [q|]; [|discriminate]. cbn [bind].
      intros H. left. pose proof (minmax_ok nowhere c true t (fst p) (snd p) (fst q) (snd q)) as R. rewrite H in R. exact R.
  Qed.

  Lemma reads_one e : no_call e = true -> (List.length (reads c en m e) <= mentions x0 e)%nat.
  Proof. intros N. now apply eval_one. Qed.

  Lemma path_one p : forallb no_call p = true -> (List.length (flat_map (reads c en m) p) <= fold_right Nat.add 0 (map (mentions x0) p))%nat.
  Proof.
    induction p as [|e p IH]; cbn; intros H; [lia|]. apply andb_true_iff in H. destruct H as [H1 H2]. rewrite app_length.
    pose proof (reads_one e H1). specialize (IH H2). lia.
  Qed.

  Lemma step_one f k next : forallb ftame k = true -> forallb (fonce x0) k = true ->
    (List.length (step_reads c m (Inside f k en next)) + List.length (step_writes c m (Inside f k en next)) <= 1)%nat.
  Proof.
    intros T O. destruct k as [|fr k]; [cbn; lia|]. cbn [forallb] in T, O. apply andb_true_iff in T, O. destruct T as [T _], O as [O _].
    destruct fr as [s|n|i cond nx body|i nx]; cbn [ftame fonce step_reads step_writes] in *; rewrite ?andb_true_iff, ?Nat.leb_le in *; try (cbn; lia).
    - destruct s; cbn [tame once] in *; rewrite ?andb_true_iff, ?Nat.leb_le in *; try (cbn; lia).
      + destruct init as [e|]; [|cbn; lia]. destruct t; try discriminate T. apply Nat.leb_le in O. pose proof (reads_one e T). cbn. lia.
      + destruct T as [T1 T2]. rewrite app_length. pose proof (reads_one e T2). pose proof (path_one path T1).
        assert (W : (List.length (match lookup x en with
            | Some (OPtr _ b off) => match evaluate_path c en m path with Ok [i] => [(b, (off + i)%Z)] | _ => [] end
            | _ => [] end) <= (if String.eqb x x0 then 1 else 0))%nat).
        { destruct (lookup x en) as [[| |t b off]|] eqn:L; try (cbn; lia).
          destruct (env1_lookup x0 en x _ E1 L) as [K|[-> _]]; [exfalso; exact (ptr_okp _ _ _ K)|]. rewrite String.eqb_refl.
          destruct (evaluate_path c en m path) as [[|i [|]]|]; cbn; lia. }
        lia.
      + destruct T as [[T1 _] _], O as [[O1 _] _]. pose proof (reads_one e T1). cbn. lia.
      + destruct T as [[[T1 _] _] _], O as [[[O1 _] _] _]. pose proof (reads_one init T1). cbn. lia.
      + pose proof (reads_one e T). cbn. lia.
    - destruct T as [[T1 _] _], O as [[O1 _] _]. pose proof (reads_one cond T1). cbn. lia.
    - pose proof (reads_one nx T). cbn. lia.
  Qed.

  Lemma assign_one x path v r : assign c en m x path v = Ok r -> env1 x0 (fst r).
  Proof.
    unfold assign. destruct (scalar v) as [p|]; [|discriminate]. cbn [bind]. destruct (lookup x en) as [o|] eqn:E; [|discriminate].
    destruct (env1_lookup x0 en x o E1 E) as [P|[-> P]].
    - destruct o; intros R.
      3: { exfalso. exact (ptr_okp _ _ _ P). }
      all: match type of R with bind (put ?c ?o ?p ?t ?z) _ = _ => pose proof (put_ok nowhere c p o t z P) as Q; destruct (put c o p t z) eqn:Ep; [|discriminate R] end.
      all: cbn in R, Q |- *; injection R as <-; cbn; now apply env1_update.
    - destruct o; try discriminate P. destruct path as [|i [|]]; try discriminate. destruct (convert c _ _ _); [|discriminate]. cbn [bind].
      destruct (mem_write _ _ _ _ _); [|discriminate]. cbn [bind]. now intros [= <-].
  Qed.

  Lemma small_one k k' en' m' : forallb ftame k = true -> forallb (fonce x0) k = true -> small c k en m = Ok (k', en', m') ->
    forallb ftame k' = true /\ forallb (fonce x0) k' = true /\ env1 x0 en'.
  Proof.
    intros T O H. destruct k as [|fr k]; [discriminate H|]. cbn [forallb] in T, O. apply andb_true_iff in T, O. destruct T as [T1 T], O as [O1 O].
    destruct fr as [s|n|i cond next body|i next]; cbn [small ftame fonce] in *.
    - destruct s; cbn [tame once] in T1, O1; rewrite ?andb_true_iff in T1, O1; try discriminate H; try discriminate T1.
      + injection H as <- <- <-. auto.
      + injection H as <- <- <-. cbn [forallb ftame fonce]. rewrite !andb_true_iff. tauto.
      + destruct init as [e|].
        * destruct t; try discriminate T1. destruct (evaluate c en m e) as [o|]; [|discriminate H]. cbn [bind init_obj] in H.
          destruct (scalar o); [|discriminate H]. cbn [bind] in H. destruct (convert c _ _ _); [|discriminate H]. cbn [bind] in H. injection H as <- <- <-.
          split; [exact T|]. split; [exact O|]. constructor; [left; apply okp_scal|exact E1].
        * injection H as <- <- <-. split; [exact T|]. split; [exact O|]. constructor; [left|exact E1]. cbn [snd].
          apply fresh_ok. now destruct t.
      + destruct (evaluate_path c en m path); [|discriminate H]. cbn [bind] in H. destruct (evaluate c en m e); [|discriminate H]. cbn [bind] in H.
        destruct (assign c en m x a a0) as [r|] eqn:E; [|discriminate H]. cbn [bind] in H. injection H as <- <- <-.
        split; [exact T|]. split; [exact O|]. exact (assign_one _ _ _ _ E).
      + destruct (evaluate c en m e); [|discriminate H]. cbn [bind] in H. destruct (cond_value a) as [b|]; [|discriminate H]. cbn [bind] in H. injection H as <- <- <-.
        cbn [forallb ftame fonce]. rewrite !andb_true_iff. destruct b; tauto.
      + destruct (evaluate c en m init) as [o|]; [|discriminate H]. cbn [bind init_obj] in H.
        destruct (scalar o); [|discriminate H]. cbn [bind] in H. destruct (convert c _ _ _); [|discriminate H]. cbn [bind] in H. injection H as <- <- <-.
        cbn [forallb ftame fonce]. rewrite !andb_true_iff. split; [tauto|]. split; [tauto|]. constructor; [left; apply okp_scal|exact E1].
    - injection H as <- <- <-. split; [exact T|]. split; [exact O|]. now apply env1_pop.
    - rewrite !andb_true_iff in T1, O1. destruct (evaluate c en m cond); [|discriminate H]. cbn [bind] in H. destruct (cond_value a) as [b|]; [|discriminate H]. cbn [bind] in H. injection H as <- <- <-.
      destruct b; [|auto]. cbn [forallb ftame fonce]. rewrite !andb_true_iff. tauto.
    - destruct (evaluate c en m next); [|discriminate H]. cbn [bind] in H.
      destruct (assign c en m i [] a) as [r|] eqn:E; [|discriminate H]. cbn [bind] in H. injection H as <- <- <-.
      split; [exact T|]. split; [exact O|]. exact (assign_one _ _ _ _ E).
  Qed.
End One.

(** ** During a call *)

Lemma typed_plain m t o : no_ptr t = true -> has_type m t o -> okp nowhere o.
Proof.
  revert o. induction t as [|s|n t IH|l IH|s] using ty_ind'; cbn [no_ptr]; intros o N H; try discriminate N.
  - inversion H.
  - inversion H; subst. apply okp_scal.
  - inversion H; subst. apply okp_arr. eapply Forall_impl; [|eassumption]. intros a Ha. now apply IH.
  - inversion H; subst. apply okp_arr. match goal with K : Forall2 _ _ _ |- _ => revert K end. revert IH N. clear. intros IH N K.
    induction K as [|t o l os Hto K IHK]; [constructor|]. inversion IH; subst. cbn in N. apply andb_true_iff in N. destruct N. constructor; auto.
Qed.

Lemma bind_plain c m ps args en : forallb (fun p => no_ptr (snd p)) ps = true -> Forall2 (fun p o => has_type m (snd p) o) ps args ->
  bind_params c ps args = Ok en -> oke nowhere en.
Proof.
  intros N H E. assert (F : Forall (okp nowhere) args).
  { clear E. induction H as [|p o ps args Hp H IH]; [constructor|]. cbn in N. apply andb_true_iff in N. destruct N. constructor; [|auto].
    now apply (typed_plain m (snd p)). }
  pose proof (bind_params_ok nowhere c ps args F) as K. rewrite E in K. exact K.
Qed.

Definition calm (f : func) (th : thread) : Prop :=
  match th with
  | Between _ => True
  | Inside g k en _ => g = f /\
      ((forallb fplain k = true /\ oke nowhere en) \/
       exists x0, forallb ftame k = true /\ forallb (fonce x0) k = true /\ env1 x0 en)
  end.

Lemma oke_env1 x0 en : oke nowhere en -> env1 x0 en.
Proof. intros H. eapply Forall_impl; [|exact H]. intros p Hp. now left. Qed.

Lemma calm_enter c f m m0 m' args next th : In f library -> typed_args m0 f args ->
  advance c m (Between (Call f args next)) = Ok (m', th) -> calm f th.
Proof.
  intros I T H. pose proof (proj1 (forallb_forall _ _) library_tame f I) as K. cbv beta in K. cbn [advance] in H.
  destruct (bind_params c (f_params f) args) as [en|] eqn:E; [|discriminate H]. cbn [bind] in H. injection H as <- <-.
  cbn [calm]. split; [reflexivity|]. unfold typed_args in T. cbn [forallb fplain ftame fonce].
  assert (Plain : forallb (fun p => no_ptr (snd p)) (f_params f) && no_ptr_decl (f_body f) = true ->
    (no_ptr_decl (f_body f) && true = true /\ oke nowhere en)).
  { intros P. apply andb_true_iff in P. destruct P as [P1 P2]. split; [now rewrite P2|]. exact (bind_plain c m0 _ _ _ P1 T E). }
  destruct (f_params f) as [|[x t] r] eqn:P; [left; now apply Plain|].
  destruct t as [|s|n t|l|s]; try (left; apply Plain; exact K). right. exists x.
  rewrite !andb_true_iff in K. destruct K as [[K1 K2] K3]. rewrite K2, K3. split; [reflexivity|]. split; [reflexivity|].
  inversion T as [|p o ps' args' Hp Hr]; subst. cbn [bind_params] in E. cbn [snd] in Hp. inversion Hp; subst. cbn [init_obj bind] in E.
  destruct (bind_params c r args') as [en'|] eqn:E'; [|discriminate E]. cbn [bind] in E. injection E as <-.
  constructor; [right; split; reflexivity|]. apply oke_env1. exact (bind_plain c m0 _ _ _ K1 Hr E').
Qed.

Lemma calm_step c f m m' th th' : calm f th -> advance c m th = Ok (m', th') -> (exists g k en next, th = Inside g k en next) -> calm f th'.
Proof.
  intros C H (g & k & en & next & ->). cbn [calm] in C. destruct C as [-> C].
  destruct th' as [q|g k' en' next']; [exact I|].
  assert (S : small c k en m = Ok (k', en', m') /\ g = f).
  { destruct k as [|fr k]; cbn [advance] in H.
    - destruct (f_ret f); discriminate H.
    - destruct fr as [s| | |]; [destruct s | ..];
        try (match type of H with bind ?r _ = _ => destruct r as [[[? ?] ?]|] eqn:Es; [|discriminate H] end; cbn [bind fst snd] in H; injection H as <- <- <- <- <-; split; reflexivity).
      destruct (evaluate c en m e); [|discriminate H]. cbn [bind] in H. destruct (f_ret f); try discriminate H;
        (match type of H with bind ?r _ = _ => destruct r; [|discriminate H] end); discriminate H. }
  destruct S as [S ->]. cbn [calm]. split; [reflexivity|]. destruct C as [[C1 C2]|(x0 & C1 & C2 & C3)].
  - left. destruct (small_plain c k en m k' en' m' C1 C2 S) as (_ & S1 & S2 & _). auto.
  - right. exists x0. exact (small_one c x0 en m C3 k k' en' m' C1 C2 S).
Qed.

Lemma during_inside c f args next th : In f library -> during c f args next th -> forall m0, typed_args m0 f args ->
  calm f th /\ exists k en, th = Inside f k en next.
Proof.
  intros I H m0 T. induction H as [m m' th H|m th m' g k en H IH E].
  - split; [exact (calm_enter c f m m0 m' args next th I T H)|]. cbn [advance] in H. destruct (bind_params c (f_params f) args); [|discriminate H].
    injection H as _ <-. eauto.
  - destruct IH as [C (k0 & en0 & ->)]. pose proof (calm_step c f m m' _ _ C E ltac:(eauto)) as C'. split; [exact C'|].
    destruct C' as [-> _]. eauto.
Qed.

Theorem single_access f c m0 args next th : In f library -> typed_args m0 f args -> during c f args next th ->
  forall m, (List.length (step_reads c m th) + List.length (step_writes c m th) <= 1)%nat.
Proof.
  intros I T H m. destruct (during_inside c f args next th I H m0 T) as [C (k & en & ->)].
  destruct C as [_ [[C1 C2]|(x0 & C1 & C2 & C3)]].
  - destruct (step_plain c m f k en next C2) as [-> ->]. cbn. lia.
  - now apply (step_one c x0 en m C3).
Qed.
