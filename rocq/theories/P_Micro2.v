(** Steps of a call and the memory around it. *)
From Coq Require Import ZArith String List Bool Lia.
From Verif Require Import Types Syntax Interp ProgRecip Library Spec ExecLemmas AbsSound MetaSpec P_Meta P_Meta2 Frame P_Valid P_Valid2 Local P_Det Client P_Threads Micro P_Micro.
Import ListNotations.
Open Scope Z_scope.

(** ** Complete runs *)

(** [n] steps, and then the last one, which returns [v]. *)
Inductive ends (c : cfg) (f : func) : nat -> list frame -> env -> memory -> option obj -> memory -> Prop :=
| ends_void en m : f_ret f = TVoid -> ends c f 0 [] en m None m
| ends_return e k en m o o' : evaluate c en m e = Ok o -> f_ret f <> TVoid -> init_obj c (f_ret f) o = Ok o' ->
    ends c f 0 (FStmt (SReturn e) :: k) en m (Some o') m
| ends_step n k en m k' en' m1 v m' : small c k en m = Ok (k', en', m1) -> ends c f n k' en' m1 v m' ->
    ends c f (S n) k en m v m'.

Lemma star_ends c f s1 s2 n v m' : star c s1 s2 -> ends c f n (fst (fst s2)) (snd (fst s2)) (snd s2) v m' ->
  exists n', ends c f n' (fst (fst s1)) (snd (fst s1)) (snd s1) v m'.
Proof.
  induction 1 as [s|k en m s1 s2 E St IH]; intros H; [eauto|]. destruct (IH H) as (n' & H'). exists (S n'). cbn [fst snd].
  destruct s1 as [[k1 en1] m1]. econstructor; [exact E|exact H'].
Qed.

Lemma run_ends c f args m m' v : run c m f args = Returns m' v ->
  exists en n, bind_params c (f_params f) args = Ok en /\ ends c f n [FStmt (f_body f)] en m v m'.
Proof.
  unfold run, run_body. intros R. destruct (bind_params c (f_params f) args) as [en|e]; cbn [bind] in R; [|destruct e; discriminate R].
  exists en. pose proof (exec_follows c (f_body f) en m []) as F.
  destruct (exec c _ loop_fuel (f_body f) en m) as [[en' m1|o m1]|e]; cbn [bind] in R; [| |destruct e; discriminate R].
  - cbn [follows] in F. destruct (f_ret f) eqn:Er; try discriminate R. cbn in R. injection R as -> <-.
    destruct (star_ends c f _ _ 0 None m' F) as (n & H); [now constructor|]. exists n. split; [reflexivity|exact H].
  - destruct F as (e & k' & en' & F & E).
    assert (K : f_ret f <> TVoid /\ exists o', init_obj c (f_ret f) o = Ok o' /\ v = Some o' /\ m' = m1).
    { destruct (f_ret f) eqn:Er; try discriminate R; (split; [discriminate|]);
        match type of R with outcome_of (let* _ := ?r in _) = _ => destruct r as [o'|x] eqn:Ei; cbn [bind] in R; [|destruct x; discriminate R] end;
        cbn in R; injection R as <- <-; eauto. }
    destruct K as (Nv & o' & Ei & -> & ->).
    destruct (star_ends c f _ _ 0 (Some o') m1 F) as (n & H); [now apply (ends_return c f e k' en' m1 o o')|].
    exists n. split; [reflexivity|exact H].
Qed.

(** ** Locality of one step *)

Definition flocal (fr : frame) : bool :=
  match fr with
  | FStmt s => localb s
  | FPop _ => true
  | FTest _ cond next body => no_call cond && no_call next && localb body
  | FNext _ next => no_call next
  end.

Lemma small_local c k en m k' en' m' : forallb flocal k = true -> small c k en m = Ok (k', en', m') -> forallb flocal k' = true.
Proof.
  intros L H. destruct k as [|fr k]; [discriminate H|]. cbn [forallb] in L. apply andb_true_iff in L. destruct L as [L1 L].
  destruct fr as [s|n|i cond next body|i next]; cbn [small flocal] in H, L1.
  - destruct s; cbn [localb] in L1; rewrite ?andb_true_iff in L1; try discriminate H;
      repeat (match type of H with
              | bind ?r _ = _ => destruct r; cbn [bind] in H; [|discriminate H]
              | match ?o with Some _ => _ | None => _ end = _ => destruct o; try discriminate H
              end); injection H as <- <- <-; try exact L; cbn [forallb flocal]; rewrite ?andb_true_iff; try tauto.
    destruct a0; tauto.
  - now injection H as <- <- <-.
  - rewrite !andb_true_iff in L1.
    repeat (match type of H with bind ?r _ = _ => destruct r; cbn [bind] in H; [|discriminate H] end).
    injection H as <- <- <-. destruct a0; [|exact L]. cbn [forallb flocal]. rewrite !andb_true_iff. tauto.
  - repeat (match type of H with bind ?r _ = _ => destruct r; cbn [bind] in H; [|discriminate H] end). now injection H as <- <- <-.
Qed.

Section Shift.
  Variables (m1 m2 : memory) (pre post : list (option Z)) (c : cfg).
  Notation memR := (memR m1 m2 pre post).
  Notation sh := (sh m1 pre).
  Notation shen := (shen m1 pre).

  Definition ssR (s S : list frame * env * memory) : Prop := fst (fst S) = fst (fst s) /\ snd (fst S) = shen (snd (fst s)) /\ memR (snd s) (snd S).

  Lemma small_sh k en m M : forallb flocal k = true -> memR m M -> resR ssR (small c k en m) (small c k (shen en) M).
  Proof.
    intros L Hm. destruct k as [|fr k]; [reflexivity|]. cbn [forallb] in L. apply andb_true_iff in L. destruct L as [L1 L].
    assert (EV : forall e, no_call e = true -> resR (objR m1 pre) (evaluate c en m e) (evaluate c (shen en) M e)).
    { intros e He. unfold evaluate. now apply (eval_sh m1 m2 pre post). }
    assert (OK : forall k1 en1, resR ssR (Ok (k1, en1, m)) (Ok (k1, shen en1, M))).
    { intros. eexists. split; [reflexivity|]. repeat split; assumption. }
    assert (SAME : forall A (r : res A) g g', (forall a, resR ssR (g a) (g' a)) -> resR ssR (bind r g) (bind r g')).
    { intros A r g g' G. eapply resR_bind; [apply resR_same|]. intros a ? <-. apply G. }
    destruct fr as [s|n|i cond next body|i next]; cbn [small flocal] in L1 |- *.
    - destruct s; cbn [localb] in L1; rewrite ?andb_true_iff in L1; try apply OK.
      + destruct init as [e|].
        * eapply resR_bind; [now apply EV|]. intros o ? ->. eapply resR_bind; [apply (init_sh m1 pre)|]. intros o' ? ->. apply (OK k ((x, o') :: en)).
        * rewrite <- (fresh_sh m1 pre t L1) at 2. apply (OK k ((x, fresh t) :: en)).
      + destruct L1 as [Lp Le]. unfold evaluate_path. eapply resR_bind; [now apply (eval_path_sh m1 m2 pre post)|]. intros ks ? <-.
        eapply resR_bind; [now apply EV|]. intros o ? ->.
        eapply resR_bind; [now apply (assign_sh m1 m2 pre post)|]. intros [e1 n1] [e2 n2] [He Hn]. cbn in He, Hn. subst e2.
        eexists. split; [reflexivity|]. repeat split; assumption.
      + eapply resR_bind; [now apply EV|]. intros o ? ->. rewrite cond_value_sh, (shen_length m1 pre). apply SAME. intros b. apply OK.
      + eapply resR_bind; [now apply EV|]. intros o ? ->. eapply resR_bind; [apply (init_sh m1 pre)|]. intros o' ? ->.
        rewrite (shen_length m1 pre). apply (OK (FTest i cond next s :: FPop (List.length en) :: k) ((i, o') :: en)).
      + discriminate.
      + reflexivity.
      + reflexivity.
    - rewrite (pop_sh m1 pre). apply OK.
    - rewrite !andb_true_iff in L1. eapply resR_bind; [now apply EV|]. intros o ? ->. rewrite cond_value_sh, (shen_length m1 pre). apply SAME. intros b. apply OK.
    - eapply resR_bind; [now apply EV|]. intros o ? ->.
      eapply resR_bind; [now apply (assign_sh m1 m2 pre post)|]. intros [e1 n1] [e2 n2] [He Hn]. cbn in He, Hn. subst e2.
      eexists. split; [reflexivity|]. repeat split; assumption.
  Qed.

  Lemma small_sh_ok k en m M k' en' m' : forallb flocal k = true -> memR m M -> small c k en m = Ok (k', en', m') ->
    exists M', small c k (shen en) M = Ok (k', shen en', M') /\ memR m' M'.
  Proof.
    intros L Hm H. pose proof (small_sh k en m M L Hm) as R. rewrite H in R. destruct R as ([[k1 en1] M'] & -> & E1 & E2 & E3).
    cbn in E1, E2, E3. subst. eauto.
  Qed.
End Shift.

(** ** Loads do not write *)

Fixpoint reads_only (x0 : string) (s : stmt) : bool :=
  match s with
  | SSeq a b | SIf _ a b => reads_only x0 a && reads_only x0 b
  | SDecl t x None => negb (String.eqb x x0) && plain_ty t
  | SDecl (TScal _) x (Some _) => negb (String.eqb x x0)
  | SDecl _ _ (Some _) => false
  | SAssign x _ _ => negb (String.eqb x x0)
  | SFor _ i _ _ _ body => negb (String.eqb i x0) && reads_only x0 body
  | SMemcpy _ _ _ => false
  | SSkip | SAbort | SReturn _ => true
  end.

Definition freads (x0 : string) (fr : frame) : bool :=
  match fr with
  | FStmt s => reads_only x0 s
  | FPop _ => true
  | FTest i _ _ body => negb (String.eqb i x0) && reads_only x0 body
  | FNext i _ => negb (String.eqb i x0)
  end.

Definition is_ptr (o : obj) : bool := match o with OPtr _ _ _ => true | _ => false end.
(** Only [x0] is a pointer. *)
Definition only (x0 : string) (en : env) : Prop := Forall (fun p => fst p <> x0 -> is_ptr (snd p) = false) en.

Lemma only_lookup x0 en x o : only x0 en -> x <> x0 -> lookup x en = Some o -> is_ptr o = false.
Proof.
  intros H N. induction H as [|[y p] en Hp H IH]; cbn; [discriminate|]. destruct (String.eqb_spec x y); [|exact IH].
  intros [= <-]. subst. now apply Hp.
Qed.
Lemma only_update x0 en x o : only x0 en -> (x <> x0 -> is_ptr o = false) -> only x0 (update x o en).
Proof.
  intros H K. induction H as [|[y p] en Hp H IH]; cbn; [constructor|]. destruct (String.eqb_spec x y); constructor; auto. subst. exact K.
Qed.
Lemma only_pop x0 n en : only x0 en -> only x0 (pop n en).
Proof. unfold pop. generalize (List.length en - n)%nat. intros k H. revert k. induction H; intros [|k]; cbn; auto; constructor; auto. Qed.

Lemma put_ptr c o path t z o' : put c o path t z = Ok o' -> is_ptr o' = false.
Proof.
  destruct path as [|i path]; cbn; destruct o; try discriminate; intros H.
  - destruct (convert c t t0 z); [|discriminate H]. now injection H as <-.
  - destruct (get_idx l i); [|discriminate H]. cbn in H. destruct (put c a path t z); [|discriminate H]. now injection H as <-.
Qed.

Lemma assign_only c x0 en m x path v r : only x0 en -> x <> x0 -> assign c en m x path v = Ok r -> snd r = m /\ only x0 (fst r).
Proof.
  intros H N. unfold assign. destruct (scalar v) as [p|]; [|discriminate]. cbn [bind]. destruct (lookup x en) as [o|] eqn:E; [|discriminate].
  pose proof (only_lookup x0 en x o H N E) as P. destruct o; try discriminate P; intros R;
    (match type of R with bind ?q _ = _ => destruct q eqn:Ep; [|discriminate R] end); cbn in R; injection R as <-; cbn;
    (split; [reflexivity|]); apply only_update; trivial; intros _; exact (put_ptr _ _ _ _ _ _ Ep).
Qed.

Lemma init_scal c s o o' : init_obj c (TScal s) o = Ok o' -> is_ptr o' = false.
Proof. cbn. destruct (scalar o); [|discriminate]. cbn. destruct (convert c _ _ _); [|discriminate]. now intros [= <-]. Qed.

Lemma fresh_ptr t : plain_ty t = true -> is_ptr (fresh t) = false.
Proof. destruct t; cbn; trivial; discriminate. Qed.

Lemma small_reads c x0 k en m k' en' m' : forallb (freads x0) k = true -> only x0 en ->
  small c k en m = Ok (k', en', m') -> m' = m /\ forallb (freads x0) k' = true /\ only x0 en'.
Proof.
  intros L O H. destruct k as [|fr k]; [discriminate H|]. cbn [forallb] in L. apply andb_true_iff in L. destruct L as [L1 L].
  destruct fr as [s|n|i cond next body|i next]; cbn [small freads] in H, L1.
  - destruct s; cbn [reads_only] in L1; rewrite ?andb_true_iff in L1; try discriminate H; try discriminate L1.
    + injection H as <- <- <-. auto.
    + injection H as <- <- <-. split; [reflexivity|]. split; [|exact O]. cbn [forallb freads]. rewrite !andb_true_iff. tauto.
    + destruct init as [e|].
      * destruct t; try discriminate L1. destruct (evaluate c en m e) as [o|]; [|discriminate H]. cbn [bind] in H.
        destruct (init_obj c (TScal t) o) as [o'|] eqn:E; [|discriminate H]. cbn [bind] in H. injection H as <- <- <-.
        split; [reflexivity|]. split; [exact L|]. constructor; [|exact O]. cbn. intros _. exact (init_scal _ _ _ _ E).
      * injection H as <- <- <-. assert (plain_ty t = true) by (destruct t; rewrite ?andb_true_iff in L1; tauto). split; [reflexivity|]. split; [exact L|]. constructor; [|exact O]. cbn [snd]. intros _. now apply fresh_ptr.
    + destruct (evaluate_path c en m path); [|discriminate H]. cbn [bind] in H. destruct (evaluate c en m e); [|discriminate H]. cbn [bind] in H.
      destruct (assign c en m x a a0) as [r|] eqn:E; [|discriminate H]. cbn [bind] in H. injection H as <- <- <-.
      apply negb_true_iff, String.eqb_neq in L1. destruct (assign_only c x0 en m x a a0 r O L1 E). auto.
    + destruct (evaluate c en m e); [|discriminate H]. cbn [bind] in H. destruct (cond_value a) as [b|]; [|discriminate H]. cbn [bind] in H. injection H as <- <- <-.
      split; [reflexivity|]. split; [|exact O]. cbn [forallb freads]. rewrite !andb_true_iff. destruct b; tauto.
    + destruct (evaluate c en m init); [|discriminate H]. cbn [bind] in H.
      destruct (init_obj c (TScal t) a) as [o'|] eqn:E; [|discriminate H]. cbn [bind] in H. injection H as <- <- <-.
      split; [reflexivity|]. split; [cbn [forallb freads]; rewrite !andb_true_iff; tauto|]. constructor; [|exact O]. cbn. intros _. exact (init_scal _ _ _ _ E).
  - injection H as <- <- <-. split; [reflexivity|]. split; [exact L|]. now apply only_pop.
  - destruct (evaluate c en m cond); [|discriminate H]. cbn [bind] in H. destruct (cond_value a) as [b|]; [|discriminate H]. cbn [bind] in H. injection H as <- <- <-.
    split; [reflexivity|]. split; [|exact O]. rewrite andb_true_iff in L1. destruct b; [|exact L]. cbn [forallb freads]. rewrite !andb_true_iff. tauto.
  - destruct (evaluate c en m next); [|discriminate H]. cbn [bind] in H.
    destruct (assign c en m i [] a) as [r|] eqn:E; [|discriminate H]. cbn [bind] in H. injection H as <- <- <-.
    apply negb_true_iff, String.eqb_neq in L1. destruct (assign_only c x0 en m i [] a r O L1 E). auto.
Qed.

Lemma library_reads : forallb (fun f => is_store f || match f_params f with (x, TPtr _) :: _ => reads_only x (f_body f) | _ => true end) library = true.
Proof. vm_compute. reflexivity. Qed.

(** ** Calls without pointers *)

Definition nowhere (b : nat) : Prop := False.
Definition fplain (fr : frame) : bool :=
  match fr with FStmt s => no_ptr_decl s | FTest _ _ _ body => no_ptr_decl body | _ => true end.

Lemma nowhere_agree m m' : agree_on nowhere m m'.
Proof. intros b []. Qed.

Lemma pop_ok n en : oke nowhere en -> oke nowhere (pop n en).
Proof. intros H. apply skipn_ok, H. Qed.

Lemma assign_plain c en m m' x path v r : oke nowhere en -> assign c en m x path v = Ok r ->
  snd r = m /\ oke nowhere (fst r) /\ assign c en m' x path v = Ok (fst r, m').
Proof.
  intros H. unfold assign. destruct (scalar v) as [p|]; [|discriminate]. cbn [bind]. destruct (lookup x en) as [o|] eqn:E; [|discriminate].
  pose proof (lookup_ok nowhere x en o H E) as P.
  destruct o; intros R.
  3: { exfalso. exact (proj1 (okp_ptr nowhere t b off) P). }
  all: match type of R with bind (put ?c ?o ?p ?t ?z) _ = _ => pose proof (put_ok nowhere c p o t z P) as Q; destruct (put c o p t z) eqn:Ep; [|discriminate R] end.
  all: cbn in R, Q |- *; injection R as <-; cbn; (split; [reflexivity|]); (split; [now apply update_ok|reflexivity]).
Qed.

Lemma small_plain c k en m k' en' m' : forallb fplain k = true -> oke nowhere en ->
  small c k en m = Ok (k', en', m') ->
  m' = m /\ forallb fplain k' = true /\ oke nowhere en' /\ forall M, small c k en M = Ok (k', en', M).
Proof.
  intros L O H.
  pose proof (call_helper_ok nowhere c helpers loop_fuel call_depth helpers_no_ptr_decl) as CO.
  assert (EV : forall e M, evaluate c en M e = evaluate c en m e) by (intros; apply (eval_eq nowhere c _ CO); [exact O|apply nowhere_agree]).
  assert (EP : forall p M, evaluate_path c en M p = evaluate_path c en m p) by (intros; apply (eval_path_eq nowhere c _ CO); [exact O|apply nowhere_agree]).
  assert (EO : forall e o, evaluate c en m e = Ok o -> okp nowhere o).
  { intros e o E. pose proof (eval_ok nowhere c _ CO en m e O) as K. unfold evaluate in E. rewrite E in K. exact K. }
  destruct k as [|fr k]; [discriminate H|]. cbn [forallb] in L. apply andb_true_iff in L. destruct L as [L1 L].
  destruct fr as [s|n|i cond next body|i next]; cbn [small fplain] in H, L1 |- *.
  - destruct s; cbn [no_ptr_decl] in L1; rewrite ?andb_true_iff in L1; try discriminate H.
    + injection H as <- <- <-. auto.
    + injection H as <- <- <-. split; [reflexivity|]. split; [cbn [forallb fplain]; rewrite !andb_true_iff; tauto|]. auto.
    + destruct init as [e|].
      * setoid_rewrite EV. destruct (evaluate c en m e) as [o|] eqn:Ee; [|discriminate H]. cbn [bind] in *.
        pose proof (init_ok nowhere c t o (EO e o Ee)) as Io.
        destruct (init_obj c t o) as [o'|] eqn:E; [|discriminate H]. cbn [bind rok] in *. injection H as <- <- <-.
        split; [reflexivity|]. split; [exact L|]. split; [constructor; assumption|reflexivity].
      * injection H as <- <- <-. split; [reflexivity|]. split; [exact L|]. split; [constructor; [now apply fresh_ok|exact O]|reflexivity].
    + setoid_rewrite EP. destruct (evaluate_path c en m path); [|discriminate H]. cbn [bind] in *. setoid_rewrite EV. destruct (evaluate c en m e); [|discriminate H]. cbn [bind] in *.
      destruct (assign c en m x a a0) as [r|] eqn:E; [|discriminate H]. cbn [bind] in H. injection H as <- <- <-.
      destruct (assign_plain c en m m x a a0 r O E) as (E1 & E2 & _). split; [exact E1|]. split; [exact L|]. split; [exact E2|].
      intros M. destruct (assign_plain c en m M x a a0 r O E) as (_ & _ & ->). reflexivity.
    + setoid_rewrite EV. destruct (evaluate c en m e); [|discriminate H]. cbn [bind] in *. destruct (cond_value a) as [b|]; [|discriminate H]. cbn [bind] in *. injection H as <- <- <-.
      split; [reflexivity|]. split; [cbn [forallb fplain]; rewrite !andb_true_iff; destruct b; tauto|]. auto.
    + setoid_rewrite EV. destruct (evaluate c en m init) as [o|] eqn:Ee; [|discriminate H]. cbn [bind] in *.
      pose proof (init_ok nowhere c (TScal t) o (EO init o Ee)) as Io.
      destruct (init_obj c (TScal t) o) as [o'|] eqn:E; [|discriminate H]. cbn [bind rok] in *. injection H as <- <- <-.
      split; [reflexivity|]. split; [cbn [forallb fplain]; rewrite !andb_true_iff; tauto|]. split; [constructor; assumption|reflexivity].
    + setoid_rewrite EV. destruct (evaluate c en m n); [|discriminate H]. cbn [bind] in *. destruct (int_value a) as [b|]; [|discriminate H]. cbn [bind] in *.
      destruct (lookup dst en) as [od|] eqn:Ed; [|discriminate H]. destruct (lookup src en) as [os|]; [|discriminate H].
      pose proof (memcpy_ok nowhere od os b (lookup_ok nowhere dst en od O Ed)) as K.
      destruct (memcpy_obj od os b) as [o'|]; [|discriminate H]. cbn [bind rok] in *. injection H as <- <- <-.
      split; [reflexivity|]. split; [exact L|]. split; [now apply update_ok|reflexivity].
  - injection H as <- <- <-. split; [reflexivity|]. split; [exact L|]. split; [now apply pop_ok|reflexivity].
  - setoid_rewrite EV. destruct (evaluate c en m cond); [|discriminate H]. cbn [bind] in *. destruct (cond_value a) as [b|]; [|discriminate H]. cbn [bind] in *. injection H as <- <- <-.
    split; [reflexivity|]. split; [destruct b; [cbn [forallb fplain]; rewrite !andb_true_iff; tauto|exact L]|]. auto.
  - setoid_rewrite EV. destruct (evaluate c en m next); [|discriminate H]. cbn [bind] in *.
    destruct (assign c en m i [] a) as [r|] eqn:E; [|discriminate H]. cbn [bind] in H. injection H as <- <- <-.
    destruct (assign_plain c en m m i [] a r O E) as (E1 & E2 & _). split; [exact E1|]. split; [exact L|]. split; [exact E2|].
    intros M. destruct (assign_plain c en m M i [] a r O E) as (_ & _ & ->). reflexivity.
Qed.

(** The steps of a call of a library function mention its pointer parameter at most once each. *)
Lemma library_once : forallb (fun f => forallb (fun p => match snd p with TPtr _ => once (fst p) (f_body f) | _ => true end) (f_params f)) library = true.
Proof. vm_compute. reflexivity. Qed.
