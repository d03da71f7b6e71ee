(** The statement-by-statement semantics: adequacy, locality, and interleaved threads. *)
From Coq Require Import ZArith String List Bool Lia.
From Verif Require Import Types Syntax Interp ProgRecip Library Spec ExecLemmas AbsSound MetaSpec P_Meta P_Meta2 Frame P_Valid P_Valid2 Local P_Det Client P_Threads Micro.
Import ListNotations.
Open Scope Z_scope.

(** ** The two semantics agree *)

Section Adequacy.
  Variable c : cfg.
  Notation callf := (call_helper c helpers loop_fuel call_depth).

  Inductive star : list frame * env * memory -> list frame * env * memory -> Prop :=
  | star_refl s : star s s
  | star_step k en m s1 s2 : small c k en m = Ok s1 -> star s1 s2 -> star (k, en, m) s2.

  Lemma star_trans s1 s2 s3 : star s1 s2 -> star s2 s3 -> star s1 s3.
  Proof. induction 1; intros; [assumption|econstructor; eauto]. Qed.

  (** What the steps do when the interpreter answers [r]; [k] is what is left to do afterwards. *)
  Definition follows (s0 : list frame * env * memory) (k : list frame) (r : res ctl) : Prop :=
    match r with
    | Ok (Normal en m) => star s0 (k, en, m)
    | Ok (Returned v m) => exists e k' en, star s0 (FStmt (SReturn e) :: k', en, m) /\ evaluate c en m e = Ok v
    | Err ETimeout => True
    | Err e => exists k' en m, star s0 (k', en, m) /\
        match k' with
        | FStmt (SReturn x) :: _ => evaluate c en m x = Err e
        | _ => small c k' en m = Err e /\ k' <> []
        end
    end.

  Lemma follows_star s0 s1 k r : star s0 s1 -> follows s1 k r -> follows s0 k r.
  Proof.
    intros S. unfold follows. destruct r as [[en m|v m]|e].
    - apply star_trans, S.
    - intros (e & k' & en & S' & E). exists e, k', en. split; [exact (star_trans _ _ _ S S')|exact E].
    - destruct e; trivial; intros (k' & en & m & S' & E); exists k', en, m; (split; [exact (star_trans _ _ _ S S')|exact E]).
  Qed.

  Lemma follows_one k0 en m s1 k r : small c k0 en m = Ok s1 -> follows s1 k r -> follows (k0, en, m) k r.
  Proof. intros E. apply follows_star. econstructor; [exact E|constructor]. Qed.

  Lemma follows_err k0 en m k e : small c k0 en m = Err e -> k0 <> [] -> (forall x k', k0 <> FStmt (SReturn x) :: k') ->
    follows (k0, en, m) k (Err e).
  Proof.
    intros E N R. assert (K : exists k' en1 m1, star (k0, en, m) (k', en1, m1) /\
        match k' with FStmt (SReturn x) :: _ => evaluate c en1 m1 x = Err e | _ => small c k' en1 m1 = Err e /\ k' <> [] end).
    { exists k0, en, m. split; [constructor|]. destruct k0 as [|[s| | |] k1]; auto. destruct s; auto. exfalso. eapply R. reflexivity. }
    destruct e; first [exact I|exact K].
  Qed.

  Lemma follows_pop s0 n k r : follows s0 (FPop n :: k) r -> follows s0 k (let* x := r in Ok (pop_ctl n x)).
  Proof.
    destruct r as [[en m|v m]|e]; cbn [bind pop_ctl].
    - cbn [follows]. intros S. apply (star_trans _ _ _ S). econstructor; [reflexivity|constructor].
    - trivial.
    - trivial.
  Qed.

  Lemma follows_seq s0 k1 k r (g : env -> memory -> res ctl) : follows s0 k1 r ->
    (forall en m, follows (k1, en, m) k (g en m)) ->
    follows s0 k (let* x := r in match x with Normal en m => g en m | Returned _ _ => Ok x end).
  Proof.
    intros F G. destruct r as [[en m|v m]|e]; cbn [bind].
    - apply (follows_star _ (k1, en, m)); [exact F|apply G].
    - exact F.
    - exact F.
  Qed.

  Ltac err := apply follows_err; [|discriminate|intros; discriminate].

  Lemma exec_follows s : forall en m k, follows (FStmt s :: k, en, m) k (exec c callf loop_fuel s en m).
  Proof.
    induction s; intros en m k; cbn [exec].
    - eapply follows_one; [reflexivity|constructor].
    - eapply follows_one; [reflexivity|]. apply (follows_seq _ (FStmt s2 :: k)); [apply IHs1|]. intros. apply IHs2.
    - destruct init as [e|]; [|eapply follows_one; [reflexivity|constructor]].
      destruct (eval c callf en m e) as [o|y] eqn:E; cbn [bind].
      2: { err. cbn [small]. unfold evaluate. now rewrite E. }
      destruct (init_obj c t o) as [o'|y] eqn:E'; cbn [bind].
      2: { err. cbn [small]. unfold evaluate. rewrite E. cbn [bind]. now rewrite E'. }
      eapply follows_one; [cbn [small]; unfold evaluate; rewrite E; cbn [bind]; rewrite E'; reflexivity|constructor].
    - destruct (eval_path c callf en m path) as [ks|y] eqn:Ep; cbn [bind].
      2: { err. cbn [small]. unfold evaluate_path. now rewrite Ep. }
      destruct (eval c callf en m e) as [o|y] eqn:E; cbn [bind].
      2: { err. cbn [small]. unfold evaluate, evaluate_path. rewrite Ep. cbn [bind]. now rewrite E. }
      destruct (assign c en m x ks o) as [r|y] eqn:Ea; cbn [bind].
      2: { err. cbn [small]. unfold evaluate, evaluate_path. rewrite Ep. cbn [bind]. rewrite E. cbn [bind]. now rewrite Ea. }
      eapply follows_one; [cbn [small]; unfold evaluate, evaluate_path; rewrite Ep; cbn [bind]; rewrite E; cbn [bind]; rewrite Ea; reflexivity|constructor].
    - destruct (eval c callf en m e) as [o|y] eqn:E; cbn [bind].
      2: { err. cbn [small]. unfold evaluate. now rewrite E. }
      destruct (cond_value o) as [b|y] eqn:Ec; cbn [bind].
      2: { err. cbn [small]. unfold evaluate. rewrite E. cbn [bind]. now rewrite Ec. }
      eapply follows_one; [cbn [small]; unfold evaluate; rewrite E; cbn [bind]; rewrite Ec; reflexivity|].
      apply follows_pop. destruct b; [apply IHs1|apply IHs2].
    - destruct (eval c callf en m init) as [o|y] eqn:E; cbn [bind].
      2: { err. cbn [small]. unfold evaluate. now rewrite E. }
      destruct (init_obj c (TScal t) o) as [o'|y] eqn:E'; cbn [bind].
      2: { err. cbn [small]. unfold evaluate. rewrite E. cbn [bind]. now rewrite E'. }
      eapply follows_one; [cbn [small]; unfold evaluate; rewrite E; cbn [bind]; rewrite E'; reflexivity|].
      cbn zeta. apply follows_pop. generalize (FPop (List.length en) :: k). intros k1.
      generalize ((i, o') :: en). intros en1. clear o o' E E' en k. revert en1 m.
      generalize loop_fuel at 1. intros n. induction n as [|n IH]; intros en m; cbn [loop]; [exact I|].
      destruct (eval c callf en m cond) as [o|y] eqn:E; cbn [bind].
      2: { err. cbn [small]. unfold evaluate. now rewrite E. }
      destruct (cond_value o) as [b|y] eqn:Ec; cbn [bind].
      2: { err. cbn [small]. unfold evaluate. rewrite E. cbn [bind]. now rewrite Ec. }
      eapply follows_one; [cbn [small]; unfold evaluate; rewrite E; cbn [bind]; rewrite Ec; reflexivity|].
      destruct b; [|constructor].
      apply (follows_seq _ (FTest i cond next s :: k1)); [|intros; apply IH].
      specialize (IHs en m (FPop (List.length en) :: FNext i next :: FTest i cond next s :: k1)).
      apply follows_pop in IHs. destruct (exec c callf loop_fuel s en m) as [r|y]; cbn [bind] in IHs |- *; [|exact IHs].
      destruct (pop_ctl (List.length en) r) as [en' m'|v m']; [|exact IHs].
      eapply follows_star; [exact IHs|].
      destruct (eval c callf en' m' next) as [o1|y] eqn:E1; cbn [bind].
      2: { err. cbn [small]. unfold evaluate. now rewrite E1. }
      destruct (assign c en' m' i [] o1) as [r1|y] eqn:Ea; cbn [bind].
      2: { err. cbn [small]. unfold evaluate. rewrite E1. cbn [bind]. now rewrite Ea. }
      eapply follows_one; [cbn [small]; unfold evaluate; rewrite E1; cbn [bind]; rewrite Ea; reflexivity|constructor].
    - destruct (eval c callf en m n) as [o|y] eqn:E; cbn [bind].
      2: { err. cbn [small]. unfold evaluate. now rewrite E. }
      destruct (int_value o) as [b|y] eqn:Ec; cbn [bind].
      2: { err. cbn [small]. unfold evaluate. rewrite E. cbn [bind]. now rewrite Ec. }
      destruct (lookup dst en) as [od|] eqn:Ed; [destruct (lookup src en) as [os|] eqn:Es|].
      2, 3: err; cbn [small]; unfold evaluate; rewrite E; cbn [bind]; rewrite Ec; cbn [bind]; rewrite Ed; try rewrite Es; reflexivity.
      destruct (memcpy_obj od os b) as [od'|y] eqn:Em; cbn [bind].
      2: { err. cbn [small]. unfold evaluate. rewrite E. cbn [bind]. rewrite Ec. cbn [bind]. now rewrite Ed, Es, Em. }
      eapply follows_one; [cbn [small]; unfold evaluate; rewrite E; cbn [bind]; rewrite Ec; cbn [bind]; rewrite Ed, Es, Em; reflexivity|constructor].
    - err. reflexivity.
    - destruct (eval c callf en m e) as [o|y] eqn:E; cbn [bind].
      + exists e, k, en. split; [constructor|exact E].
      + assert (K : exists k' en1 m1, star (FStmt (SReturn e) :: k, en, m) (k', en1, m1) /\
          match k' with FStmt (SReturn x) :: _ => evaluate c en1 m1 x = Err y | _ => small c k' en1 m1 = Err y /\ k' <> [] end).
        { exists (FStmt (SReturn e) :: k), en, m. split; [constructor|exact E]. }
        destruct y; first [exact I|exact K].
  Qed.

  Lemma advances_trans s1 s2 s3 : advances c s1 s2 -> advances c s2 s3 -> advances c s1 s3.
  Proof. induction 1; intros; [assumption|econstructor; eauto]. Qed.

  Lemma small_return k en m s : small c k en m = Ok s -> forall e k', k <> FStmt (SReturn e) :: k'.
  Proof. intros H e k' ->. discriminate H. Qed.

  Lemma advance_small f k en m next : (forall e k', k <> FStmt (SReturn e) :: k') -> k <> [] ->
    advance c m (Inside f k en next) = let* r := small c k en m in Ok (snd r, Inside f (fst (fst r)) (snd (fst r)) next).
  Proof. intros R N. destruct k as [|[s| | |] k]; try reflexivity; [congruence|]. destruct s; try reflexivity. exfalso. eapply R. reflexivity. Qed.

  Lemma star_advances f next s1 s2 : star s1 s2 ->
    advances c (snd s1, Inside f (fst (fst s1)) (snd (fst s1)) next) (snd s2, Inside f (fst (fst s2)) (snd (fst s2)) next).
  Proof.
    induction 1 as [s|k en m s1 s2 E S IH]; [constructor|]. cbn [fst snd]. econstructor; [|exact IH].
    rewrite advance_small; [now rewrite E|exact (small_return _ _ _ _ E)|]. intros ->. discriminate E.
  Qed.

  Definition is_err (o : outcome) (e : err) : Prop :=
    match o with Aborts => e = EAbort | Undefined k => e = EUB k | Stuck => e = EStuck | _ => False end.

  Theorem adequate f args next m :
    match run c m f args with
    | Returns m' v => advances c (m, Between (Call f args next)) (m', Between (next v))
    | Timeout => True
    | o => exists m' th e, advances c (m, Between (Call f args next)) (m', th) /\ advance c m' th = Err e /\ is_err o e
    end.
  Proof.
    unfold run, run_body. destruct (bind_params c (f_params f) args) as [en|e] eqn:Eb; cbn [bind].
    2: { assert (K : advance c m (Between (Call f args next)) = Err e) by (cbn; now rewrite Eb).
         destruct e; cbn [outcome_of bind]; try exact I; do 3 eexists; (split; [constructor|]); (split; [exact K|]); cbn; reflexivity. }
    assert (S0 : advances c (m, Between (Call f args next)) (m, Inside f [FStmt (f_body f)] en next)).
    { econstructor; [cbn; rewrite Eb; reflexivity|constructor]. }
    pose proof (exec_follows (f_body f) en m []) as F.
    destruct (exec c callf loop_fuel (f_body f) en m) as [[en' m'|v m']|e]; cbn [bind].
    - cbn [follows] in F. apply (star_advances f next) in F. cbn [fst snd] in F.
      pose proof (advances_trans _ _ _ S0 F) as S1.
      destruct (f_ret f) eqn:Er; cbn [outcome_of];
        try (exists m', (Inside f [] en' next), (EUB MissingReturn); split; [exact S1|]; cbn; rewrite Er; split; reflexivity).
      apply (advances_trans _ _ _ S1). econstructor; [cbn; rewrite Er; reflexivity|constructor].
    - destruct F as (e & k' & en' & F & E). apply (star_advances f next) in F. cbn [fst snd] in F.
      pose proof (advances_trans _ _ _ S0 F) as S1.
      assert (K : forall t, t <> TVoid -> f_ret f = t ->
        match outcome_of (let* v' := init_obj c t v in Ok (Some v', m')) with
        | Returns m'0 v0 => advances c (m, Between (Call f args next)) (m'0, Between (next v0))
        | Timeout => True
        | o => exists m'0 th e0, advances c (m, Between (Call f args next)) (m'0, th) /\ advance c m'0 th = Err e0 /\ is_err o e0
        end).
      { intros t Nt Et.
        assert (A : advance c m' (Inside f (FStmt (SReturn e) :: k') en' next) = let* o' := init_obj c t v in Ok (m', Between (next (Some o')))).
        { cbn [advance]. rewrite E. cbn [bind]. rewrite Et. destruct t; congruence. }
        destruct (init_obj c t v) as [o'|x]; cbn [bind] in A |- *.
        - cbn. apply (advances_trans _ _ _ S1). econstructor; [exact A|constructor].
        - destruct x; cbn [outcome_of bind]; try exact I; do 3 eexists; (split; [exact S1|]); (split; [exact A|]); cbn; reflexivity. }
      destruct (f_ret f) eqn:Er; try (apply K; congruence).
      cbn. exists m', (Inside f (FStmt (SReturn e) :: k') en' next), EStuck. split; [exact S1|]. cbn. rewrite E. cbn [bind]. rewrite Er. split; reflexivity.
    - unfold follows in F.
      assert (G : e <> ETimeout -> exists m' th, advances c (m, Between (Call f args next)) (m', th) /\ advance c m' th = Err e).
      { intros Ne. assert (F' : exists k' en1 m1, star ([FStmt (f_body f)], en, m) (k', en1, m1) /\
          match k' with FStmt (SReturn x) :: _ => evaluate c en1 m1 x = Err e | _ => small c k' en1 m1 = Err e /\ k' <> [] end)
          by (destruct e; congruence). clear F.
        destruct F' as (k' & en' & m' & S & E). apply (star_advances f next) in S. cbn [fst snd] in S.
        exists m', (Inside f k' en' next). split; [exact (advances_trans _ _ _ S0 S)|].
        destruct k' as [|[s| | |] k']; [destruct E; congruence|destruct s| | |]; try (rewrite advance_small; [now rewrite (proj1 E)|intros; discriminate|discriminate]).
        cbn [advance]. now rewrite E. }
      destruct e; cbn [outcome_of]; try exact I; (destruct G as (m' & th & S & A); [discriminate|]); do 3 eexists; (split; [exact S|]); (split; [exact A|]); cbn; reflexivity.
  Qed.
End Adequacy.
