(** Locality: what a call does depends only on the part of memory it accesses.

    A call that runs without leaving a block [cells] does exactly the same when
    that block is a segment of a larger block of a larger memory, and leaves the
    rest of that memory alone. *)
From Coq Require Import ZArith String List Bool Lia.
From Verif Require Import Types FloatBits Syntax Interp ProgRecip ExecLemmas.
Import ListNotations.
Open Scope Z_scope.

(** No call, no pointer declared without an initialiser. *)
Fixpoint plain_ty (t : ty) : bool :=
  match t with
  | TVoid | TScal _ => true
  | TArr _ t' => plain_ty t'
  | TStruct l => forallb plain_ty l
  | TPtr _ => false
  end.

Fixpoint no_call (e : expr) : bool :=
  match e with
  | ELit _ _ | EVar _ => true
  | EIdx a b | EBin _ a b | EAndAlso a b | EOrElse a b | EMin _ a b | EMax _ a b => no_call a && no_call b
  | EUn _ a | ECast _ a => no_call a
  | ECond a b d => no_call a && no_call b && no_call d
  | ECall _ _ => false
  end.

Fixpoint localb (s : stmt) : bool :=
  match s with
  | SSkip | SAbort => true
  | SSeq a b => localb a && localb b
  | SDecl t _ None => plain_ty t
  | SDecl _ _ (Some e) => no_call e
  | SAssign _ p e => forallb no_call p && no_call e
  | SIf e a b => no_call e && localb a && localb b
  | SFor _ _ a b d s => no_call a && no_call b && no_call d && localb s
  | SMemcpy _ _ _ => false
  | SReturn e => no_call e
  end.

Section Local.
  Variables (m1 m2 : memory) (pre post : list (option Z)).

  Fixpoint sh (o : obj) : obj :=
    match o with
    | OScal t v => OScal t v
    | OArr l => OArr (map sh l)
    | OPtr t b off => OPtr t (b + List.length m1) (off + Z.of_nat (List.length pre))
    end.

  Definition shen (en : env) : env := map (fun p => (fst p, sh (snd p))) en.

  (** The small memory and the large one. *)
  Definition memR (m M : memory) : Prop :=
    exists t cells, m = [(t, cells)] /\ M = m1 ++ (t, pre ++ cells ++ post) :: m2.

  (** An out-of-bounds access in the small memory may be in bounds in the large one. *)
  Definition resR {A B} (R : A -> B -> Prop) (r : res A) (r' : res B) : Prop :=
    match r with
    | Ok a => exists b, r' = Ok b /\ R a b
    | Err (EUB OutOfBounds) => True
    | Err e => r' = Err e
    end.

  Lemma resR_bind {A B A' B'} (R : A -> A' -> Prop) (S : B -> B' -> Prop) r r' k k' :
    resR R r r' -> (forall a a', R a a' -> resR S (k a) (k' a')) -> resR S (bind r k) (bind r' k').
  Proof.
    intros H Hk. destruct r as [a|e]; cbn in H |- *.
    - destruct H as (b & -> & Hb). cbn. now apply Hk.
    - destruct e as [u| | |]; [destruct u | ..]; trivial; subst r'; reflexivity.
  Qed.

  Lemma resR_same {A} (r : res A) : resR eq r r.
  Proof. destruct r as [a|e]; cbn; [eauto|]. destruct e as [u| | |]; [destruct u | ..]; trivial. Qed.

  Lemma resR_ok {A B} (R : A -> B -> Prop) a b : R a b -> resR R (Ok a) (Ok b).
  Proof. cbn; eauto. Qed.

  Definition objR (o o' : obj) : Prop := o' = sh o.

  Lemma scalar_sh o : scalar (sh o) = scalar o.
  Proof. destruct o as [t [z|]| |]; reflexivity. Qed.

  Lemma int_value_sh o : int_value (sh o) = int_value o.
  Proof. unfold int_value. now rewrite scalar_sh. Qed.

  Lemma cond_value_sh o : cond_value (sh o) = cond_value o.
  Proof. unfold cond_value. now rewrite scalar_sh. Qed.

  Lemma lookup_sh x en : lookup x (shen en) = option_map sh (lookup x en).
  Proof. induction en as [|[y o] en IH]; cbn; [reflexivity|]. now destruct (String.eqb x y). Qed.

  Lemma update_sh x o en : update x (sh o) (shen en) = shen (update x o en).
  Proof.
    induction en as [|[y o'] en IH]; cbn; [reflexivity|]. destruct (String.eqb x y); cbn; [reflexivity|].
    f_equal. apply IH.
  Qed.

  Lemma get_idx_map {A B} (g : A -> B) l i : get_idx (map g l) i = let* a := get_idx l i in Ok (g a).
  Proof.
    unfold get_idx. destruct (i <? 0); [reflexivity|]. rewrite nth_error_map.
    destruct (nth_error l (Z.to_nat i)); reflexivity.
  Qed.

  Lemma get_idx_mid {A} (p c q : list A) i a :
    get_idx c i = Ok a -> get_idx (p ++ c ++ q) (i + Z.of_nat (List.length p)) = Ok a.
  Proof.
    unfold get_idx. destruct (Z.ltb_spec i 0); [discriminate|]. intros H1.
    destruct (Z.ltb_spec (i + Z.of_nat (List.length p)) 0); [lia|].
    replace (Z.to_nat (i + Z.of_nat (List.length p))) with (List.length p + Z.to_nat i)%nat by lia.
    rewrite nth_error_app2 by lia. replace (List.length p + Z.to_nat i - List.length p)%nat with (Z.to_nat i) by lia.
    destruct (nth_error c (Z.to_nat i)) eqn:E; [|discriminate].
    rewrite nth_error_app1 by (apply nth_error_Some; congruence). now rewrite E.
  Qed.

  Lemma get_idx_err {A} (l : list A) i e : get_idx l i = Err e -> e = EUB OutOfBounds.
  Proof. unfold get_idx. destruct (i <? 0); [congruence|]. destruct (nth_error l _); congruence. Qed.

  Lemma set_nth_mid {A} (p c q : list A) k a : (k < List.length c)%nat ->
    set_nth (k + List.length p) a (p ++ c ++ q) = p ++ set_nth k a c ++ q.
  Proof.
    intros H. induction p as [|x p IH]; cbn.
    - rewrite Nat.add_0_r. revert k H. induction c as [|y c IHc]; intros [|k] H; cbn in *; try lia; trivial.
      now rewrite IHc by lia.
    - rewrite Nat.add_succ_r. cbn. now rewrite IH.
  Qed.

  Lemma nth_error_block (x : block) b : nth_error (m1 ++ x :: m2) (b + List.length m1) =
    match b with O => Some x | S b' => nth_error m2 b' end.
  Proof.
    rewrite nth_error_app2 by lia. replace (b + List.length m1 - List.length m1)%nat with b by lia.
    now destruct b.
  Qed.

  Lemma mem_read_sh m M t b i : memR m M ->
    resR objR (mem_read m t b i) (mem_read M t (b + List.length m1) (i + Z.of_nat (List.length pre))).
  Proof.
    intros (t' & cells & -> & ->). unfold mem_read. rewrite nth_error_block.
    destruct b as [|b]; [|destruct b; exact I]. cbn [nth_error].
    destruct (sty_eqb t t'); [|reflexivity].
    destruct (get_idx cells i) as [v|e] eqn:E; cbn [bind].
    - rewrite (get_idx_mid pre cells post i v E). apply resR_ok. reflexivity.
    - apply get_idx_err in E. subst e. exact I.
  Qed.

  Lemma mem_write_sh m M t b i z : memR m M ->
    resR memR (mem_write m t b i z) (mem_write M t (b + List.length m1) (i + Z.of_nat (List.length pre)) z).
  Proof.
    intros (t' & cells & -> & ->). unfold mem_write. rewrite nth_error_block.
    destruct b as [|b]; [|destruct b; exact I]. cbn [nth_error].
    destruct (sty_eqb t t'); [|reflexivity].
    destruct (get_idx cells i) as [v|e] eqn:E; cbn [bind].
    - rewrite (get_idx_mid pre cells post i v E). apply resR_ok.
      unfold get_idx in E. destruct (Z.ltb_spec i 0); [discriminate|].
      destruct (nth_error cells (Z.to_nat i)) eqn:En; [|discriminate].
      exists t', (set_nth (Z.to_nat i) (Some z) cells). split; [reflexivity|].
      replace (Z.to_nat (i + Z.of_nat (List.length pre))) with (Z.to_nat i + List.length pre)%nat by lia.
      rewrite set_nth_mid by (apply nth_error_Some; congruence).
      cbn [Nat.add]. apply set_nth_app.
    - apply get_idx_err in E. subst e. exact I.
  Qed.

  Lemma index_sh m M o i : memR m M -> resR objR (index m o i) (index M (sh o) i).
  Proof.
    intros H. destruct o as [t v|l|t b off]; cbn [index sh].
    - reflexivity.
    - rewrite get_idx_map. destruct (get_idx l i) as [a|e] eqn:E; cbn [bind].
      + apply resR_ok. reflexivity.
      + apply get_idx_err in E. subst e. exact I.
    - replace (off + Z.of_nat (List.length pre) + i) with (off + i + Z.of_nat (List.length pre)) by ring.
      now apply mem_read_sh.
  Qed.

  Variables (c : cfg) (callf : string -> obj -> res obj) (fuel : nat).

  Lemma sh_plain_rv {A} (r : res A) (k : A -> res obj) :
    (forall a o, k a = Ok o -> sh o = o) -> resR objR (bind r k) (bind r k).
  Proof.
    intros H. destruct r as [a|e]; cbn.
    - destruct (k a) as [o|e] eqn:E; cbn; [|now destruct e as [[]| | |]].
      eexists; split; [reflexivity|]. unfold objR. symmetry. eauto.
    - now destruct e as [[]| | |].
  Qed.

  Lemma binary_sh op t1 x1 t2 x2 o : binary c op t1 x1 t2 x2 = Ok o -> sh o = o.
  Proof.
    unfold binary, fbin, of_bool, rv. intros H.
    destruct op; repeat (
      match type of H with
      | (let* _ := ?r in _) = _ => destruct r; cbn [bind] in H
      | (if ?b then _ else _) = _ => destruct b
      end); try discriminate; injection H as <-; reflexivity.
  Qed.

  Lemma unary_sh op t x o : unary c op t x = Ok o -> sh o = o.
  Proof.
    unfold unary, of_bool, rv. intros H.
    destruct op; repeat (
      match type of H with
      | (let _ := _ in _) = _ => cbv zeta in H
      | (let* _ := ?r in _) = _ => destruct r; cbn [bind] in H
      | (if ?b then _ else _) = _ => destruct b
      end); try discriminate; injection H as <-; reflexivity.
  Qed.

  Lemma minmax_sh mx t t1 x1 t2 x2 o : minmax c mx t t1 x1 t2 x2 = Ok o -> sh o = o.
  Proof.
    unfold minmax, rv. intros H.
    repeat (match type of H with
      | (let* _ := ?r in _) = _ => destruct r; cbn [bind] in H
      | (if ?b then _ else _) = _ => destruct b
      end); try discriminate; injection H as <-; reflexivity.
  Qed.

  Ltac rb := eapply resR_bind; [ eassumption | intros ? ? -> ].
  Ltac rsame := eapply resR_bind; [ rewrite ?scalar_sh, ?int_value_sh, ?cond_value_sh; apply resR_same | intros ? ? <- ].

  Lemma self_sh r : (forall o, r = Ok o -> sh o = o) -> resR objR r r.
  Proof.
    intros H. destruct r as [o|e]; cbn; [|now destruct e as [[]| | |]].
    eexists; split; [reflexivity|]. unfold objR. symmetry. auto.
  Qed.

  Lemma eval_sh en m M e : memR m M -> no_call e = true ->
    resR objR (eval c callf en m e) (eval c callf (shen en) M e).
  Proof.
    intros Hm. induction e; cbn [no_call]; intros Hn;
      rewrite ?andb_true_iff in Hn; cbn [eval];
      repeat match goal with H : _ /\ _ |- _ => destruct H end;
      repeat match goal with IH : ?P = true -> _, H : ?P = true |- _ => specialize (IH H) end.
    - apply resR_ok. reflexivity.
    - rewrite lookup_sh. destruct (lookup x en); cbn [option_map]; [now apply resR_ok|reflexivity].
    - rb. rb. rsame. now apply index_sh.
    - rb. rsame. apply self_sh. apply unary_sh.
    - rb. rsame. rb. rsame. apply self_sh. apply binary_sh.
    - rb. rsame. match goal with |- resR _ (if ?b then _ else _) _ => destruct b end.
      + rb. rsame. now apply resR_ok.
      + now apply resR_ok.
    - rb. rsame. match goal with |- resR _ (if ?b then _ else _) _ => destruct b end.
      + now apply resR_ok.
      + rb. rsame. now apply resR_ok.
    - rb. rsame. match goal with |- resR _ (if ?b then _ else _) _ => destruct b end; assumption.
    - rb. rsame. rsame. now apply resR_ok.
    - rb. rsame. rb. rsame. apply self_sh. apply minmax_sh.
    - rb. rsame. rb. rsame. apply self_sh. apply minmax_sh.
    - discriminate.
  Qed.

  Lemma eval_path_sh en m M p : memR m M -> forallb no_call p = true ->
    resR eq (eval_path c callf en m p) (eval_path c callf (shen en) M p).
  Proof.
    intros Hm. induction p as [|e p IH]; cbn [forallb eval_path]; intros Hn; [now apply resR_ok|].
    rewrite andb_true_iff in Hn. destruct Hn as [He Hp].
    eapply resR_bind; [apply eval_sh; eassumption|]. intros ? ? ->. rsame.
    eapply resR_bind; [apply IH; assumption|]. intros ? ? <-. now apply resR_ok.
  Qed.

  Lemma map_set_nth {A B} (g : A -> B) k a l : map g (set_nth k a l) = set_nth k (g a) (map g l).
  Proof. revert k; induction l; intros [|k]; cbn; trivial. now rewrite IHl. Qed.

  Lemma put_sh path o t z : resR objR (put c o path t z) (put c (sh o) path t z).
  Proof.
    revert o. induction path as [|i path IH]; intros o; cbn [put].
    - destruct o as [t' v|l|t' b off]; cbn [sh]; try reflexivity. rsame. now apply resR_ok.
    - destruct o as [t' v|l|t' b off]; cbn [sh]; try reflexivity.
      rewrite get_idx_map. eapply (resR_bind objR).
      + destruct (get_idx l i) as [o|e] eqn:E; cbn [bind]; [now apply resR_ok|].
        apply get_idx_err in E. now subst e.
      + intros a ? ->. eapply resR_bind; [apply IH|]. intros ? ? ->. apply resR_ok.
        unfold objR. cbn [sh]. now rewrite map_set_nth.
  Qed.

  Definition stR (p q : env * memory) : Prop := fst q = shen (fst p) /\ memR (snd p) (snd q).

  Lemma assign_sh en m M x path v : memR m M ->
    resR stR (assign c en m x path v) (assign c (shen en) M x path (sh v)).
  Proof.
    intros Hm. unfold assign. rsame. rewrite lookup_sh.
    destruct (lookup x en) as [o|]; cbn [option_map]; [|reflexivity].
    destruct o as [t w|l|t b off].
    - eapply resR_bind; [apply put_sh|]. intros ? ? ->. apply resR_ok. split; cbn; [apply update_sh|assumption].
    - eapply resR_bind; [apply put_sh|]. intros ? ? ->. apply resR_ok. split; cbn; [apply update_sh|assumption].
    - cbn [sh]. destruct path as [|i [|? ?]]; try reflexivity. rsame.
      replace (off + Z.of_nat (List.length pre) + i) with (off + i + Z.of_nat (List.length pre)) by ring.
      eapply resR_bind; [now apply mem_write_sh|]. intros ? ? ?. apply resR_ok. split; [reflexivity|assumption].
  Qed.

  Definition ctlR (r r' : ctl) : Prop :=
    match r with
    | Normal en m => exists M, r' = Normal (shen en) M /\ memR m M
    | Returned v m => exists M, r' = Returned (sh v) M /\ memR m M
    end.

  Lemma shen_length en : List.length (shen en) = List.length en.
  Proof. apply map_length. Qed.

  Lemma pop_sh n en : pop n (shen en) = shen (pop n en).
  Proof. unfold pop. rewrite shen_length. unfold shen. apply skipn_map. Qed.

  Lemma pop_ctl_sh n r r' : ctlR r r' -> ctlR (pop_ctl n r) (pop_ctl n r').
  Proof.
    destruct r as [en m|v m]; intros (M & -> & Hm); cbn; exists M; [rewrite pop_sh|]; auto.
  Qed.

  Lemma init_sh t o : resR objR (init_obj c t o) (init_obj c t (sh o)).
  Proof.
    destruct t; cbn [init_obj]; try (now apply resR_ok). rsame. rsame. now apply resR_ok.
  Qed.

  Lemma fresh_sh : forall t, plain_ty t = true -> sh (fresh t) = fresh t.
  Proof.
    fix IH 1. intros [| |n t|l|]; cbn [plain_ty fresh sh map]; intros H; try reflexivity; try discriminate.
    - f_equal. rewrite <- (IH t H) at 2. induction n; cbn; congruence.
    - f_equal. induction l as [|a l IHl]; [reflexivity|]. cbn in H |- *.
      apply andb_true_iff in H. destruct H as [Ha Hl]. rewrite (IH a Ha), (IHl Hl). reflexivity.
  Qed.

  Lemma loop_sh k cond cond' step step' en m M :
    (forall en m M, memR m M -> resR eq (cond en m) (cond' (shen en) M)) ->
    (forall en m M, memR m M -> resR ctlR (step en m) (step' (shen en) M)) ->
    memR m M -> resR ctlR (loop k cond step en m) (loop k cond' step' (shen en) M).
  Proof.
    intros Hc Hs. revert en m M. induction k as [|k IH]; intros en m M Hm; cbn [loop]; [reflexivity|].
    eapply resR_bind; [now apply Hc|]. intros b ? <-. destruct b.
    - eapply resR_bind; [now apply Hs|]. intros r r' Hr.
      destruct r as [en' m'|v m']; destruct Hr as (M' & -> & Hm').
      + now apply IH.
      + apply resR_ok. cbn. eauto.
    - apply resR_ok. cbn. eauto.
  Qed.

  Lemma exec_sh s en m M : memR m M -> localb s = true ->
    resR ctlR (exec c callf fuel s en m) (exec c callf fuel s (shen en) M).
  Proof.
    revert en m M. induction s; intros en m M Hm Hn; cbn [localb] in Hn;
      rewrite ?andb_true_iff in Hn; cbn [exec];
      repeat match goal with H : _ /\ _ |- _ => destruct H end.
    - apply resR_ok. cbn. eauto.
    - eapply resR_bind; [apply IHs1; assumption|]. intros r r' Hr.
      destruct r as [en' m'|v m']; destruct Hr as (M' & -> & Hm').
      + now apply IHs2.
      + apply resR_ok. cbn. eauto.
    - destruct init as [e|].
      + eapply resR_bind; [apply eval_sh; eassumption|]. intros ? ? ->.
        eapply resR_bind; [apply init_sh|]. intros ? ? ->. apply resR_ok. cbn. eauto.
      + apply resR_ok. cbn. exists M. rewrite fresh_sh by assumption. auto.
    - eapply resR_bind; [apply eval_path_sh; eassumption|]. intros ? ? <-.
      eapply resR_bind; [apply eval_sh; eassumption|]. intros ? ? ->.
      eapply resR_bind; [apply assign_sh; eassumption|]. intros [e1 n1] [e2 n2] [He Hm']. cbn in He, Hm'. subst e2.
      apply resR_ok. cbn. eauto.
    - eapply resR_bind; [apply eval_sh; eassumption|]. intros ? ? ->. rsame.
      eapply (resR_bind ctlR).
      + match goal with |- resR _ (if ?b then _ else _) _ => destruct b end; [apply IHs1|apply IHs2]; assumption.
      + intros r r' Hr. apply resR_ok. rewrite shen_length. now apply pop_ctl_sh.
    - eapply resR_bind; [apply eval_sh; eassumption|]. intros o ? ->.
      eapply resR_bind; [apply init_sh|]. intros o' ? ->.
      eapply (resR_bind ctlR).
      + change ((i, sh o') :: shen en) with (shen ((i, o') :: en)).
        apply loop_sh; [| |assumption].
        * intros en1 n1 M1 Hm1. eapply resR_bind; [apply eval_sh; eassumption|]. intros ? ? ->. rsame. now apply resR_ok.
        * intros en1 n1 M1 Hm1. eapply resR_bind; [apply IHs; assumption|]. intros r r' Hr.
          rewrite shen_length. apply (pop_ctl_sh (List.length en1)) in Hr.
          destruct (pop_ctl (List.length en1) r) as [en' m'|v m']; destruct Hr as (M' & -> & Hm').
          -- eapply resR_bind; [apply eval_sh; eassumption|]. intros ? ? ->.
             eapply resR_bind; [apply assign_sh; eassumption|].
             intros [e1 w1] [e2 w2] [He Hm2]. cbn in He, Hm2. subst e2. apply resR_ok. cbn. eauto.
          -- apply resR_ok. cbn. eauto.
      + intros r r' Hr. apply resR_ok. rewrite shen_length. now apply pop_ctl_sh.
    - discriminate.
    - reflexivity.
    - eapply resR_bind; [apply eval_sh; eassumption|]. intros ? ? ->. apply resR_ok. cbn. eauto.
  Qed.

  Lemma bind_params_sh ps args :
    resR (fun en en' => en' = shen en) (bind_params c ps args) (bind_params c ps (map sh args)).
  Proof.
    revert args. induction ps as [|[x t] ps IH]; intros [|a args]; cbn [bind_params map]; try reflexivity.
    - apply resR_ok. reflexivity.
    - eapply resR_bind; [apply init_sh|]. intros ? ? ->.
      eapply resR_bind; [apply IH|]. intros ? ? ->. apply resR_ok. reflexivity.
  Qed.
End Local.

(** Locality of a call. *)
Theorem run_local c f args m1 m2 pre post t cells :
  localb (f_body f) = true ->
  (forall t' cells' v, run c [(t, cells)] f args = Returns [(t', cells')] v ->
     run c (m1 ++ (t, pre ++ cells ++ post) :: m2) f (map (sh m1 pre) args)
     = Returns (m1 ++ (t', pre ++ cells' ++ post) :: m2) (option_map (sh m1 pre) v))
  /\ (run c [(t, cells)] f args = Aborts ->
     run c (m1 ++ (t, pre ++ cells ++ post) :: m2) f (map (sh m1 pre) args) = Aborts).
Proof.
  intros Hl.
  assert (H : resR (fun p q => fst q = option_map (sh m1 pre) (fst p) /\ memR m1 m2 pre post (snd p) (snd q))
    (run_body c (call_helper c helpers loop_fuel call_depth) loop_fuel f args [(t, cells)])
    (run_body c (call_helper c helpers loop_fuel call_depth) loop_fuel f (map (sh m1 pre) args)
       (m1 ++ (t, pre ++ cells ++ post) :: m2))).
  { unfold run_body. eapply resR_bind; [apply bind_params_sh|]. intros en ? ->.
    eapply resR_bind; [eapply exec_sh; [|exact Hl]; repeat eexists; reflexivity|].
    intros r r' Hr.
    destruct r as [en' m'|v m']; destruct Hr as (M' & -> & Hm'); destruct (f_ret f); try reflexivity.
    - apply resR_ok. cbn. auto.
    - eapply resR_bind; [apply init_sh|]. intros ? ? ->. apply resR_ok. cbn; auto.
    - eapply resR_bind; [apply init_sh|]. intros ? ? ->. apply resR_ok. cbn; auto.
    - eapply resR_bind; [apply init_sh|]. intros ? ? ->. apply resR_ok. cbn; auto.
    - eapply resR_bind; [apply init_sh|]. intros ? ? ->. apply resR_ok. cbn; auto. }
  unfold run. split.
  - intros t' cells' v E.
    destruct (run_body _ _ _ _ _ [(t, cells)]) as [[v' m']|[[]| | |]]; try discriminate E.
    cbn in E. injection E as -> ->. destruct H as ([v2 M2] & -> & Hv & Hm). cbn in Hv, Hm. subst v2.
    destruct Hm as (t2 & cells2 & Hc & ->). injection Hc as <- <-. reflexivity.
  - intros E.
    destruct (run_body _ _ _ _ _ [(t, cells)]) as [[v' m']|[[]| | |]]; try discriminate E.
    unfold resR in H. rewrite H. reflexivity.
Qed.
