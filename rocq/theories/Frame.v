(** A call depends on, and changes, only the blocks its pointer arguments point into. *)
From Coq Require Import ZArith String List Bool Lia.
From Verif Require Import Types Syntax Interp ProgRecip Library MetaSpec AbsSound.
Import ListNotations.
Open Scope Z_scope.

Section ObjInd.
  Variable P : obj -> Prop.
  Hypothesis HS : forall t v, P (OScal t v).
  Hypothesis HA : forall l, Forall P l -> P (OArr l).
  Hypothesis HP : forall t b off, P (OPtr t b off).
  Fixpoint obj_ind' (o : obj) : P o :=
    match o with
    | OScal t v => HS t v
    | OArr l => HA l ((fix go l : Forall P l := match l with [] => Forall_nil P | x :: l' => Forall_cons x (obj_ind' x) (go l') end) l)
    | OPtr t b off => HP t b off
    end.
End ObjInd.

Section Frame.
  Variable B : nat -> Prop.

  (** Every pointer in the object points into a block of [B]. *)
  Definition okp (o : obj) : Prop := forall b, points_into b o -> B b.
  Definition oke (en : env) : Prop := Forall (fun p => okp (snd p)) en.

  Lemma okp_scal t v : okp (OScal t v).
  Proof. intros b H. inversion H. Qed.
  Lemma okp_arr l : okp (OArr l) <-> Forall okp l.
  Proof.
    split.
    - intros H. apply Forall_forall. intros o Ho b Hb. apply H. constructor. apply Exists_exists. eauto.
    - intros H b Hb. inversion Hb as [|? E]; subst. apply Exists_exists in E. destruct E as (o & Ho & K).
      rewrite Forall_forall in H. exact (H o Ho b K).
  Qed.
  Lemma okp_ptr t b off : okp (OPtr t b off) <-> B b.
  Proof. split; [intros H; apply H; constructor|]. intros H b' K. inversion K; subst. exact H. Qed.
  Lemma okp_bool b : okp (of_bool b).
  Proof. apply okp_scal. Qed.

  (** A successful result satisfies [P]. *)
  Definition rok {A} (P : A -> Prop) (r : res A) : Prop := match r with Ok a => P a | Err _ => True end.
  Lemma rok_bind {A A'} (P : A -> Prop) (Q : A' -> Prop) r f : rok P r -> (forall a, P a -> rok Q (f a)) -> rok Q (bind r f).
  Proof. destruct r; cbn; auto. Qed.
  Lemma rok_any {A} (r : res A) : rok (fun _ => True) r.
  Proof. destruct r; exact I. Qed.

  Lemma lookup_ok x en o : oke en -> lookup x en = Some o -> okp o.
  Proof.
    intros H. induction H as [|[y p] en Hp H IH]; cbn; [discriminate|]. destruct (String.eqb x y); [intros [= <-]; exact Hp|exact IH].
  Qed.
  Lemma update_ok x o en : oke en -> okp o -> oke (update x o en).
  Proof.
    intros H Ho. induction H as [|[y p] en Hp H IH]; cbn; [constructor|]. destruct (String.eqb x y); constructor; auto.
  Qed.
  Lemma get_idx_ok l i : Forall okp l -> rok okp (get_idx l i).
  Proof.
    intros H. unfold get_idx. destruct (i <? 0); [exact I|]. destruct (nth_error l (Z.to_nat i)) as [o|] eqn:E; [|exact I].
    apply nth_error_In in E. rewrite Forall_forall in H. exact (H o E).
  Qed.

  Lemma mem_read_eq m m' t b i : agree_on B m m' -> B b -> mem_read m t b i = mem_read m' t b i.
  Proof. intros H K. unfold mem_read. now rewrite (H b K). Qed.
  Lemma mem_read_ok m t b i : rok okp (mem_read m t b i).
  Proof.
    unfold mem_read. destruct (nth_error m b) as [[t' cells]|]; [|exact I]. destruct (sty_eqb t t'); [|exact I].
    destruct (get_idx cells i); [apply okp_scal|exact I].
  Qed.

  Lemma index_eq m m' o i : agree_on B m m' -> okp o -> index m o i = index m' o i.
  Proof. intros H K. destruct o; try reflexivity. apply mem_read_eq; [exact H|]. now apply okp_ptr in K. Qed.
  Lemma index_ok m o i : okp o -> rok okp (index m o i).
  Proof. intros H. destruct o; cbn; [exact I|now apply get_idx_ok, okp_arr|apply mem_read_ok]. Qed.

  Section Code.
    Variable c : cfg.
    Variable callf : string -> obj -> res obj.
    Hypothesis call_ok : forall f o, okp o -> rok okp (callf f o).

    Lemma binary_ok op t1 x1 t2 x2 : rok okp (binary c op t1 x1 t2 x2).
    Proof.
      unfold binary.
      assert (F : forall o t x y f, rok okp (fbin c o t x y f)) by (intros; apply okp_scal).
      destruct op; repeat match goal with
        | |- rok okp (if ?b then _ else _) => destruct b
        | |- rok okp (bind ?r _) => destruct r; cbn [bind]
        end; try exact I; try apply F; try apply okp_scal.
    Qed.
    Lemma unary_ok op t x : rok okp (unary c op t x).
    Proof.
      unfold unary. destruct op; repeat match goal with
        | |- rok okp (if ?b then _ else _) => destruct b
        | |- rok okp (bind ?r _) => destruct r; cbn [bind]
        end; try exact I; try apply okp_scal.
    Qed.
    Lemma minmax_ok mx t t1 x1 t2 x2 : rok okp (minmax c mx t t1 x1 t2 x2).
    Proof.
      unfold minmax. destruct (is_float t); [exact I|]. repeat match goal with |- rok okp (bind ?r _) => destruct r; cbn [bind] end; try exact I. apply okp_scal.
    Qed.

    Ltac rk := match goal with
      | |- rok _ (bind (scalar _) _) => eapply rok_bind; [apply rok_any|]; intros ? _
      | |- rok _ (bind (cond_value _) _) => eapply rok_bind; [apply rok_any|]; intros ? _
      | |- rok _ (bind (int_value _) _) => eapply rok_bind; [apply rok_any|]; intros ? _
      | |- rok _ (bind (convert _ _ _ _) _) => eapply rok_bind; [apply rok_any|]; intros ? _
      | |- rok _ (bind _ _) => eapply rok_bind; [eassumption|]; intros ? ?
      | |- rok _ (if ?b then _ else _) => destruct b
      | |- rok _ (Ok _) => first [apply okp_bool | apply okp_scal]
      end.

    Lemma eval_ok en m e : oke en -> rok okp (eval c callf en m e).
    Proof.
      intros H. induction e; cbn [eval]; repeat rk; try assumption;
        try apply okp_scal; try apply unary_ok; try apply binary_ok; try apply minmax_ok; auto.
      - destruct (lookup x en) eqn:E; [|exact I]. eapply lookup_ok; eauto.
      - now apply index_ok.
    Qed.

    Lemma bind_eq {A A'} (P : A -> Prop) (r r' : res A) (f f' : A -> res A') : r = r' -> rok P r -> (forall a, P a -> f a = f' a) -> bind r f = bind r' f'.
    Proof. intros <- H F. destruct r; cbn; auto. Qed.

    Lemma eval_eq en m m' e : oke en -> agree_on B m m' -> eval c callf en m e = eval c callf en m' e.
    Proof.
      intros H A. induction e; cbn [eval]; try reflexivity.
      all: try (rewrite IHe; reflexivity).
      all: try (rewrite IHe1, IHe2; reflexivity).
      - eapply bind_eq; [exact IHe1|now apply eval_ok|]. intros o Ho.
        rewrite IHe2. destruct (eval c callf en m' e2); [|reflexivity]. cbn. destruct (int_value a); [|reflexivity]. cbn. now apply index_eq.
      - rewrite IHe1, IHe2, IHe3. reflexivity.
    Qed.

    Lemma eval_path_eq en m m' p : oke en -> agree_on B m m' -> eval_path c callf en m p = eval_path c callf en m' p.
    Proof. intros H A. induction p as [|e p IH]; cbn [eval_path]; [reflexivity|]. now rewrite (eval_eq en m m' e H A), IH. Qed.

    Lemma put_ok path : forall o t z, okp o -> rok okp (put c o path t z).
    Proof.
      induction path as [|i path IH]; intros o t z H; cbn [put].
      - destruct o; try exact I. destruct (convert c t t0 z); cbn; [apply okp_scal|exact I].
      - destruct o as [|l|]; try exact I. apply okp_arr in H. eapply rok_bind; [now apply get_idx_ok|]. intros x Hx.
        eapply rok_bind; [now apply IH|]. intros x' Hx'. apply okp_arr. now apply Forall_set_nth.
    Qed.

    (** Block by block, what lies outside [B] is unchanged. *)
    Definition outside (m m' : memory) : Prop :=
      List.length m' = List.length m /\ forall b, ~ B b -> nth_error m' b = nth_error m b.

    Lemma outside_refl m : outside m m.
    Proof. split; auto. Qed.
    Lemma outside_trans m1 m2 m3 : outside m1 m2 -> outside m2 m3 -> outside m1 m3.
    Proof. intros [L1 H1] [L2 H2]. split; [congruence|]. intros b Hb. rewrite H2, H1 by exact Hb. reflexivity. Qed.

    Definition rel (m m' : memory) (r r' : res (env * memory)) : Prop :=
      match r, r' with
      | Ok (en1, n1), Ok (en2, n2) => en1 = en2 /\ oke en1 /\ agree_on B n1 n2 /\ outside m n1 /\ outside m' n2
      | Err e1, Err e2 => e1 = e2
      | _, _ => False
      end.

    Lemma mem_write_rel m m' t b i z : agree_on B m m' -> B b ->
      match mem_write m t b i z, mem_write m' t b i z with
      | Ok n1, Ok n2 => agree_on B n1 n2 /\ outside m n1 /\ outside m' n2
      | Err e1, Err e2 => e1 = e2
      | _, _ => False
      end.
    Proof.
      intros A K. unfold mem_write. pose proof (A b K) as E. destruct (nth_error m b) as [[t' cells]|] eqn:E1; rewrite <- E; [|reflexivity].
      destruct (sty_eqb t t'); [|reflexivity]. destruct (get_idx cells i); cbn [bind]; [|reflexivity].
      assert (L : (b < List.length m)%nat) by (apply nth_error_Some; congruence).
      assert (L' : (b < List.length m')%nat) by (apply nth_error_Some; congruence).
      split; [|split; (split; [apply length_set_nth|])].
      - intros b' Hb'. rewrite !nth_error_set_nth by assumption. destruct (Nat.eqb b' b); [reflexivity|now apply A].
      - intros b' Hb'. rewrite nth_error_set_nth by assumption. destruct (Nat.eqb_spec b' b); [subst; tauto|reflexivity].
      - intros b' Hb'. rewrite nth_error_set_nth by assumption. destruct (Nat.eqb_spec b' b); [subst; tauto|reflexivity].
    Qed.

    Lemma assign_rel en m m' x path v : oke en -> agree_on B m m' -> okp v ->
      rel m m' (assign c en m x path v) (assign c en m' x path v).
    Proof.
      intros H A Hv. unfold assign. destruct (scalar v) as [p|]; cbn [bind]; [|reflexivity].
      destruct (lookup x en) as [o|] eqn:E; [|reflexivity]. pose proof (lookup_ok x en o H E) as Ho.
      assert (P : rel m m' (bind (put c o path (fst p) (snd p)) (fun o' => Ok (update x o' en, m)))
                    (bind (put c o path (fst p) (snd p)) (fun o' => Ok (update x o' en, m')))).
      { pose proof (put_ok path o (fst p) (snd p) Ho) as K. destruct (put c o path (fst p) (snd p)) as [o'|]; cbn in *; [|reflexivity].
        split; [reflexivity|]. split; [now apply update_ok|]. split; [exact A|]. split; apply outside_refl. }
      destruct o as [t w|l|t b off]; try exact P. clear P. apply okp_ptr in Ho.
      destruct path as [|i [|? ?]]; try reflexivity. destruct (convert c (fst p) t (snd p)) as [z|]; cbn [bind]; [|reflexivity].
      pose proof (mem_write_rel m m' t b (off + i) z A Ho) as W.
      destruct (mem_write m t b (off + i) z), (mem_write m' t b (off + i) z); cbn in *; try tauto.
    Qed.

    Lemma memcpy_ok od os n : okp od -> rok okp (memcpy_obj od os n).
    Proof.
      intros H. unfold memcpy_obj. cbv zeta. match goal with |- rok _ (if ?b then _ else _) => destruct b end; [|exact I]. cbn.
      match goal with |- okp (fst (from_bytes _ ?l)) => generalize l end.
      induction od as [t v|l IH|t b off] using obj_ind'; intros bs; [cbn| |].
      - apply okp_scal.
      - assert (K : forall bs, Forall okp (fst (from_list l bs))).
        { apply okp_arr in H. clear bs. induction IH as [|o l Ho IH IHl]; intros bs; cbn; [constructor|].
          inversion H; subst. specialize (Ho H2 bs). destruct (from_bytes o bs) as [x bs1]. specialize (IHl H3 bs1).
          destruct (from_list l bs1). constructor; assumption. }
        specialize (K bs). rewrite from_bytes_arr. destruct (from_list l bs) as [xs bs']. cbn in *. now apply okp_arr.
      - exact H.
    Qed.

    Definition crel (m m' : memory) (r r' : res ctl) : Prop :=
      match r, r' with
      | Ok (Normal en1 n1), Ok (Normal en2 n2) => en1 = en2 /\ oke en1 /\ agree_on B n1 n2 /\ outside m n1 /\ outside m' n2
      | Ok (Returned v1 n1), Ok (Returned v2 n2) => v1 = v2 /\ okp v1 /\ agree_on B n1 n2 /\ outside m n1 /\ outside m' n2
      | Err e1, Err e2 => e1 = e2
      | _, _ => False
      end.

    Lemma crel_normal m m' en : oke en -> agree_on B m m' -> crel m m' (Ok (Normal en m)) (Ok (Normal en m')).
    Proof. intros. cbn. split; [reflexivity|]. split; [assumption|]. split; [assumption|]. split; apply outside_refl. Qed.

    Lemma crel_seq m m' r r' g g' : crel m m' r r' ->
      (forall en n n', oke en -> agree_on B n n' -> crel n n' (g en n) (g' en n')) ->
      crel m m' (bind r (fun r => match r with Normal en n => g en n | Returned _ _ => Ok r end))
                (bind r' (fun r => match r with Normal en n => g' en n | Returned _ _ => Ok r end)).
    Proof.
      intros H G. destruct r as [[en1 n1|v1 n1]|e1], r' as [[en2 n2|v2 n2]|e2]; cbn in *; try tauto.
      destruct H as (-> & Ho & Ha & O1 & O2). specialize (G en2 n1 n2 Ho Ha).
      destruct (g en2 n1) as [[? ?|? ?]|], (g' en2 n2) as [[? ?|? ?]|]; cbn in *; try tauto;
        destruct G as (? & ? & ? & ? & ?); (split; [assumption|]); (split; [assumption|]); (split; [assumption|]); split; eapply outside_trans; eauto.
    Qed.

    Lemma skipn_ok n en : oke en -> oke (skipn n en).
    Proof. intros H. revert n. induction H; intros [|n]; cbn; auto; constructor; auto. Qed.

    Lemma crel_pop n m m' r r' : crel m m' r r' ->
      crel m m' (bind r (fun r => Ok (pop_ctl n r))) (bind r' (fun r => Ok (pop_ctl n r))).
    Proof.
      destruct r as [[en1 n1|v1 n1]|e1], r' as [[en2 n2|v2 n2]|e2]; cbn; try tauto. intros (-> & Ho & R). split; [reflexivity|].
      split; [now apply skipn_ok|exact R].
    Qed.

    Lemma crel_bind {A} (P : A -> Prop) m m' (r r' : res A) g g' : r = r' -> rok P r -> (forall a, P a -> crel m m' (g a) (g' a)) ->
      crel m m' (bind r g) (bind r' g').
    Proof. intros <- H G. destruct r; cbn in *; auto. Qed.

    Lemma loop_rel k cc cs :
      (forall en m m', oke en -> agree_on B m m' -> cc en m = cc en m' :> res bool) ->
      (forall en m m', oke en -> agree_on B m m' -> crel m m' (cs en m) (cs en m')) ->
      forall en m m', oke en -> agree_on B m m' -> crel m m' (loop k cc cs en m) (loop k cc cs en m').
    Proof.
      intros HC HS. induction k as [|k IH]; intros en m m' H A; cbn [loop]; [reflexivity|].
      apply (crel_bind (fun _ => True)); [now apply HC|apply rok_any|]. intros b _. destruct b; [|now apply crel_normal].
      apply crel_seq; [now apply HS|]. intros. now apply IH.
    Qed.

    (** No local pointers without an initialiser. *)
    Fixpoint no_ptr (t : ty) : bool :=
      match t with TVoid | TScal _ => true | TArr _ t' => no_ptr t' | TStruct l => forallb no_ptr l | TPtr _ => false end.
    Fixpoint no_ptr_decl (s : stmt) : bool :=
      match s with
      | SDecl t _ None => no_ptr t
      | SSeq s1 s2 | SIf _ s1 s2 => no_ptr_decl s1 && no_ptr_decl s2
      | SFor _ _ _ _ _ s1 => no_ptr_decl s1
      | _ => true
      end.

    Lemma fresh_ok t : no_ptr t = true -> okp (fresh t).
    Proof.
      induction t as [|s|n t IH|l IH|s] using ty_ind'; cbn; intros H; try discriminate.
      - apply okp_arr. constructor.
      - apply okp_scal.
      - apply okp_arr. induction n; cbn; auto.
      - apply okp_arr. induction IH; cbn in *; [constructor|]. apply andb_prop in H. destruct H. constructor; auto.
    Qed.

    Lemma init_ok t o : okp o -> rok okp (init_obj c t o).
    Proof.
      intros H. destruct t; try exact H. cbn. destruct (scalar o) as [p|]; cbn; [|exact I]. destruct (convert c (fst p) t (snd p)); cbn; [apply okp_scal|exact I].
    Qed.

    Lemma assign_crel en m m' x path v : oke en -> agree_on B m m' -> okp v ->
      crel m m' (bind (assign c en m x path v) (fun r => Ok (Normal (fst r) (snd r))))
                (bind (assign c en m' x path v) (fun r => Ok (Normal (fst r) (snd r)))).
    Proof.
      intros H A Hv. pose proof (assign_rel en m m' x path v H A Hv) as R. unfold rel in R.
      destruct (assign c en m x path v) as [[? ?]|], (assign c en m' x path v) as [[? ?]|]; cbn in *; tauto.
    Qed.

    Lemma exec_rel fuel s : no_ptr_decl s = true -> forall en m m', oke en -> agree_on B m m' ->
      crel m m' (exec c callf fuel s en m) (exec c callf fuel s en m').
    Proof.
      induction s; intros N en m m' H A; cbn [exec]; cbn in N.
      - now apply crel_normal.
      - apply andb_prop in N. destruct N. apply crel_seq; auto.
      - destruct init as [e|].
        + apply (crel_bind okp); [now apply eval_eq|now apply eval_ok|]. intros o Ho.
          apply (crel_bind okp); [reflexivity|now apply init_ok|]. intros o' Ho'. apply crel_normal; [constructor; assumption|assumption].
        + apply crel_normal; [|exact A]. constructor; [now apply fresh_ok|exact H].
      - apply (crel_bind (fun _ => True)); [now apply eval_path_eq|apply rok_any|]. intros ks _.
        apply (crel_bind okp); [now apply eval_eq|now apply eval_ok|]. intros v Hv. now apply assign_crel.
      - apply andb_prop in N. destruct N. apply (crel_bind okp); [now apply eval_eq|now apply eval_ok|]. intros o Ho.
        apply (crel_bind (fun _ => True)); [reflexivity|apply rok_any|]. intros b _. apply crel_pop. destruct b; auto.
      - apply (crel_bind okp); [now apply eval_eq|now apply eval_ok|]. intros o Ho.
        apply (crel_bind okp); [reflexivity|now apply (init_ok (TScal t))|]. intros o' Ho'. apply crel_pop.
        apply loop_rel; [| |constructor; assumption|exact A].
        + intros en1 m1 m1' H1 A1. now rewrite (eval_eq en1 m1 m1' cond H1 A1).
        + intros en1 m1 m1' H1 A1.
          pose proof (crel_seq m1 m1' _ _
            (fun en2 m2 => let* v := eval c callf en2 m2 next in let* r := assign c en2 m2 i [] v in Ok (Normal (fst r) (snd r)))
            (fun en2 m2 => let* v := eval c callf en2 m2 next in let* r := assign c en2 m2 i [] v in Ok (Normal (fst r) (snd r)))
            (crel_pop (List.length en1) m1 m1' _ _ (IHs N en1 m1 m1' H1 A1))) as Q.
          assert (E : forall m2, bind (bind (exec c callf fuel s en1 m2) (fun r => Ok (pop_ctl (List.length en1) r)))
              (fun r => match r with Normal en n => let* v := eval c callf en n next in let* r := assign c en n i [] v in Ok (Normal (fst r) (snd r)) | Returned _ _ => Ok r end)
            = let* r := exec c callf fuel s en1 m2 in
               match pop_ctl (List.length en1) r with
               | Normal en' m' => let* v := eval c callf en' m' next in let* r := assign c en' m' i [] v in Ok (Normal (fst r) (snd r))
               | Returned v m' => Ok (Returned v m')
               end).
          { intros m2. destruct (exec c callf fuel s en1 m2) as [r|]; [|reflexivity]. cbn. destruct r; reflexivity. }
          rewrite !E in Q. apply Q. intros en2 m2 m2' H2 A2.
          apply (crel_bind okp); [now apply eval_eq|now apply eval_ok|]. intros v Hv. now apply assign_crel.
      - apply (crel_bind okp); [now apply eval_eq|now apply eval_ok|]. intros o Ho.
        apply (crel_bind (fun _ => True)); [reflexivity|apply rok_any|]. intros k _.
        destruct (lookup dst en) as [od|] eqn:Ed; [|reflexivity]. destruct (lookup src en) as [os|]; [|reflexivity].
        apply (crel_bind okp); [reflexivity|apply memcpy_ok; eapply lookup_ok; eauto|]. intros o' Ho'. apply crel_normal; [now apply update_ok|exact A].
      - reflexivity.
      - apply (crel_bind okp); [now apply eval_eq|now apply eval_ok|]. intros o Ho. cbn. split; [reflexivity|]. split; [exact Ho|].
        split; [exact A|]. split; apply outside_refl.
    Qed.

    Lemma bind_params_ok ps : forall args, Forall okp args -> rok oke (bind_params c ps args).
    Proof.
      induction ps as [|[x t] ps IH]; intros args H; cbn [bind_params].
      - destruct args; [constructor|exact I].
      - destruct H as [|a args Ha H]; [exact I|]. eapply rok_bind; [now apply init_ok|]. intros o Ho.
        eapply rok_bind; [now apply IH|]. intros en He. constructor; assumption.
    Qed.

    Definition brel (m m' : memory) (r r' : res (option obj * memory)) : Prop :=
      match r, r' with
      | Ok (v1, n1), Ok (v2, n2) => v1 = v2 /\ (forall v, v1 = Some v -> okp v) /\ agree_on B n1 n2 /\ outside m n1 /\ outside m' n2
      | Err e1, Err e2 => e1 = e2
      | _, _ => False
      end.

    Lemma run_body_rel fuel f args m m' : no_ptr_decl (f_body f) = true -> Forall okp args -> agree_on B m m' ->
      brel m m' (run_body c callf fuel f args m) (run_body c callf fuel f args m').
    Proof.
      intros N H A. unfold run_body. pose proof (bind_params_ok (f_params f) args H) as P.
      destruct (bind_params c (f_params f) args) as [en|]; cbn [bind]; [|reflexivity]. cbn in P.
      pose proof (exec_rel fuel (f_body f) N en m m' P A) as R. unfold crel in R.
      destruct (exec c callf fuel (f_body f) en m) as [[? ?|v1 n1]|], (exec c callf fuel (f_body f) en m') as [[? ?|v2 n2]|]; cbn [bind]; try tauto.
      - destruct (f_ret f); cbn; try reflexivity. destruct R as (_ & _ & R). split; [reflexivity|]. split; [discriminate|exact R].
      - destruct R as (<- & Hv & R).
        assert (K : forall t, brel m m' (let* v' := init_obj c t v1 in Ok (Some v', n1)) (let* v' := init_obj c t v1 in Ok (Some v', n2))).
        { intros t. pose proof (init_ok t v1 Hv) as Q. destruct (init_obj c t v1) as [o|]; cbn in *; [|reflexivity].
          split; [reflexivity|]. split; [intros v [= <-]; exact Q|exact R]. }
        destruct (f_ret f) eqn:ER; try apply K. reflexivity.
    Qed.
  End Code.

  Lemma call_helper_ok c prog fuel d : forallb (fun f => no_ptr_decl (f_body f)) prog = true ->
    forall f o, okp o -> rok okp (call_helper c prog fuel d f o).
  Proof.
    intros N. induction d as [|d IH]; intros name o H; cbn [call_helper]; [exact I|].
    destruct (find _ prog) as [f|] eqn:E; [|exact I]. apply find_some in E. destruct E as [E _].
    rewrite forallb_forall in N. specialize (N f E).
    pose proof (run_body_rel c (call_helper c prog fuel d) IH fuel f [o] [] [] N ltac:(constructor; [exact H|constructor]) ltac:(intros ? ?; reflexivity)) as R.
    unfold brel in R. destruct (run_body _ _ _ _ _ _) as [[v n]|]; cbn; [|exact I]. destruct v as [v|]; [|exact I]. cbn. destruct R as (_ & R & _). now apply R.
  Qed.
End Frame.

Lemma library_no_ptr_decl : forallb (fun f => no_ptr_decl (f_body f)) library = true.
Proof. vm_compute. reflexivity. Qed.
Lemma helpers_no_ptr_decl : forallb (fun f => no_ptr_decl (f_body f)) helpers = true.
Proof. vm_compute. reflexivity. Qed.

Theorem call_frame f c args m m' : In f library -> agree_on (reachable args) m m' ->
  match run c m f args, run c m' f args with
  | Returns n v, Returns n' v' => v = v' /\ agree_on (reachable args) n n' /\
      (forall b, ~ reachable args b -> nth_error n b = nth_error m b)
  | Returns _ _, _ | _, Returns _ _ => False
  | o, o' => o = o'
  end.
Proof.
  intros Hf A. pose proof (proj1 (forallb_forall _ _) library_no_ptr_decl f Hf) as N. cbv beta in N.
  assert (K : Forall (okp (reachable args)) args).
  { apply Forall_forall. intros o Ho b Hb. apply Exists_exists. eauto. }
  pose proof (run_body_rel (reachable args) c _ (call_helper_ok (reachable args) c helpers loop_fuel call_depth helpers_no_ptr_decl) loop_fuel f args m m' N K A) as R.
  unfold run. unfold brel in R.
  destruct (run_body c _ loop_fuel f args m) as [[v n]|e], (run_body c _ loop_fuel f args m') as [[v' n']|e']; cbn; try tauto.
  - destruct R as (E & _ & R1 & [_ R2] & _). auto.
  - subst e'. destruct e; reflexivity.
Qed.
