(** Proofs about the contraction of floating-point expressions: the functions that contain no sum with a
    floating-point product in it behave as in Interp.v. *)
From Coq Require Import ZArith String List Bool Lia.
From Verif Require Import Types FloatBits Syntax Interp ProgRecip ProgMul ProgPerm Library Typing TypeSound MetaSpec Contract.
From Verif Require P_Valid2.
Import ListNotations.
Open Scope Z_scope.

(** ** What is checked of every expression: no operand of a sum or difference is a product of floating-point type *)

Fixpoint everywhere (p : expr -> bool) (e : expr) : bool :=
  p e && match e with
  | ELit _ _ | EVar _ => true
  | EIdx a b | EBin _ a b | EAndAlso a b | EOrElse a b | EMin _ a b | EMax _ a b => everywhere p a && everywhere p b
  | EUn _ a | ECast _ a | ECall _ a => everywhere p a
  | ECond a b d => everywhere p a && everywhere p b && everywhere p d
  end.

Definition float_product (hs : list func) (g : tenv) (e : expr) : bool :=
  match e with
  | EBin BMul _ _ => match type_of hs g e with Some (TScal t) => is_float t | _ => true end
  | _ => false
  end.

Definition no_candidate (hs : list func) (g : tenv) : expr -> bool :=
  everywhere (fun e => match e with
                       | EBin op a b => negb (additive op && (float_product hs g a || float_product hs g b))
                       | _ => true
                       end).

Lemma same_bind {A B} (r r' : res A) (k k' : A -> res B) (P : A -> Prop) :
  r' = r -> good P r -> (forall a, P a -> k' a = k a) -> bind r' k' = bind r k.
Proof. intros -> G H. destruct r as [a|e]; cbn in *; [now apply H|reflexivity]. Qed.

Lemma bind_ext {A B} (r : res A) (k k' : A -> res B) : (forall a, k a = k' a) -> bind r k = bind r k'.
Proof. intros H. destruct r; cbn; auto. Qed.

Section Same.
  Variable x : contraction.
  Variable c : cfg.
  Variables callf callf' : string -> obj -> res obj.
  Variable hs : list func.

  (** the functions that are called behave the same *)
  Definition calls_same (m : memory) : Prop := forall f h y p t o,
    find (fun h => String.eqb (f_name h) f) hs = Some h -> f_params h = [(y, p)] -> initialises t p = true ->
    has (map fst m) t o -> callf' f o = callf f o.

  Section Eval.
    Variable m : memory.
    Hypothesis Hgood : calls_good callf hs m.
    Hypothesis Hsame : calls_same m.
    Variable en : env.
    Variable g : tenv.
    Hypothesis HE : env_has (map fst m) en g.

    Lemma value_typed a s : type_of hs g a = Some (TScal s) ->
      good (is_ty s) (let* o := eval c callf en m a in scalar o).
    Proof.
      intros H. eapply good_bind; [apply (type_sound c callf hs m Hgood en g HE a _ H)|]. intros o Ho. eapply scalar_good; exact Ho.
    Qed.

    Definition same (e : expr) : Prop := forall t, type_of hs g e = Some t -> no_candidate hs g e = true ->
      eval_f x c callf' en m e = eval c callf en m e.
    Definition same' (e : expr) : Prop :=
      same e /\ match e with EBin BMul a b => same a /\ same b | _ => True end.

    (** The two operands of a product, when its static type is not a floating-point type. *)
    Lemma operands a1 a2 {B} (F S : sty * Z -> sty * Z -> res B) :
      float_product hs g (EBin BMul a1 a2) = false ->
      forall r1 r2, r1 = (let* o := eval c callf en m a1 in scalar o) -> r2 = (let* o := eval c callf en m a2 in scalar o) ->
      (let* p1 := r1 in let* p2 := r2 in if is_float (usual (fst p1) (fst p2)) then F p1 p2 else S p1 p2)
      = (let* p1 := r1 in let* p2 := r2 in S p1 p2).
    Proof.
      intros FP r1 r2 E1 E2. cbn [float_product type_of] in FP.
      destruct (type_of hs g a1) as [[|s1|? ?|?|?]|] eqn:T1; try discriminate FP.
      destruct (type_of hs g a2) as [[|s2|? ?|?|?]|] eqn:T2; try discriminate FP.
      pose proof (value_typed a1 s1 T1) as G1. pose proof (value_typed a2 s2 T2) as G2. rewrite <- E1 in G1. rewrite <- E2 in G2.
      destruct r1 as [p1|]; [|reflexivity]. destruct r2 as [p2|]; [|reflexivity]. cbn in *. unfold is_ty in *. subst. now rewrite FP.
    Qed.

    Lemma product_types a1 a2 : float_product hs g (EBin BMul a1 a2) = false ->
      exists s1 s2, type_of hs g a1 = Some (TScal s1) /\ type_of hs g a2 = Some (TScal s2).
    Proof.
      intros FP. cbn [float_product type_of] in FP.
      destruct (type_of hs g a1) as [[|s1|? ?|?|?]|] eqn:T1; try discriminate FP.
      destruct (type_of hs g a2) as [[|s2|? ?|?|?]|] eqn:T2; try discriminate FP. eauto.
    Qed.

    Lemma eval_same' : forall e, same' e.
    Proof.
      unfold same', same, no_candidate.
      induction e as [s z|y|a [IHa _] i [IHi _]|op a [IHa _]|op a IHa b IHb|a [IHa _] b [IHb _]|a [IHa _] b [IHb _]|a [IHa _] b [IHb _] d [IHd _]|s a [IHa _]|s a [IHa _] b [IHb _]|s a [IHa _] b [IHb _]|f a [IHa _]];
        (split; [|first [exact I | (destruct op; try exact I; split; [apply IHa|apply IHb])]]);
        intros t HT HN; cbn [type_of] in HT; cbn [everywhere] in HN;
        repeat match goal with H : (_ && _)%bool = true |- _ => apply andb_prop in H; destruct H end.
      - reflexivity.
      - reflexivity.
      - cbn [eval_f eval]. destruct (type_of hs g a) as [ta|]; [|discriminate]. destruct (type_of hs g i) as [ti|]; [|destruct ta; discriminate].
        rewrite (IHa _ eq_refl), (IHi _ eq_refl) by assumption. reflexivity.
      - cbn [eval_f eval]. destruct (type_of hs g a) as [ta|]; [|destruct op; discriminate]. rewrite (IHa _ eq_refl) by assumption. reflexivity.
      - destruct IHa as [IHa IHa']. destruct IHb as [IHb IHb'].
        destruct (type_of hs g a) as [ta|] eqn:Ea; [|discriminate HT]. destruct (type_of hs g b) as [tb|] eqn:Eb; [|destruct ta; discriminate HT].
        specialize (IHa _ eq_refl ltac:(assumption)). specialize (IHb _ eq_refl ltac:(assumption)).
        assert (SEP : (let* oa := eval_f x c callf' en m a in let* pa := scalar oa in let* ob := eval_f x c callf' en m b in let* pb := scalar ob in
          binary c op (fst pa) (snd pa) (fst pb) (snd pb)) = eval c callf en m (EBin op a b)).
        { rewrite IHa, IHb by assumption. reflexivity. }
        cbn [eval_f]. rewrite SEP.
        destruct (additive op) eqn:AO; [|reflexivity].
        match goal with H : negb _ = true |- _ => apply negb_true_iff in H; cbn [andb] in H; apply orb_false_elim in H; destruct H as [FA FB] end.
        destruct (choose x en m (EBin op a b)); [reflexivity| |].
        + destruct a as [| | | |op' a1 a2| | | | | | |]; try reflexivity. destruct op'; try reflexivity.
          destruct (product_types a1 a2 FA) as (s1 & s2 & T1 & T2). destruct IHa' as [I1 I2].
          cbn [everywhere] in *; repeat match goal with H : (_ && _)%bool = true |- _ => apply andb_prop in H; destruct H end.
          specialize (I1 _ T1 ltac:(assumption)). specialize (I2 _ T2 ltac:(assumption)).
          etransitivity; [apply (operands a1 a2 _ (fun _ _ => eval c callf en m (EBin op (EBin BMul a1 a2) b)) FA); [now rewrite I1|now rewrite I2]|].
          rewrite I1, I2. cbn [eval]. destruct (eval c callf en m a1) as [o1|]; cbn [bind]; [|reflexivity].
          destruct (scalar o1) as [p1|]; cbn [bind]; [|reflexivity]. destruct (eval c callf en m a2) as [o2|]; cbn [bind]; [|reflexivity].
          destruct (scalar o2) as [p2|]; cbn [bind]; reflexivity.
        + destruct b as [| | | |op' b1 b2| | | | | | |]; try reflexivity. destruct op'; try reflexivity.
          destruct (product_types b1 b2 FB) as (s1 & s2 & T1 & T2). destruct IHb' as [I1 I2].
          cbn [everywhere] in *; repeat match goal with H : (_ && _)%bool = true |- _ => apply andb_prop in H; destruct H end.
          specialize (I1 _ T1 ltac:(assumption)). specialize (I2 _ T2 ltac:(assumption)).
          transitivity (let* p3 := (let* o := eval_f x c callf' en m a in scalar o) in
            let* p1 := (let* o := eval_f x c callf' en m b1 in scalar o) in
            let* p2 := (let* o := eval_f x c callf' en m b2 in scalar o) in eval c callf en m (EBin op a (EBin BMul b1 b2))).
          { apply bind_ext. intros p3.
            apply (operands b1 b2 _ (fun _ _ => eval c callf en m (EBin op a (EBin BMul b1 b2))) FB); [now rewrite I1|now rewrite I2]. }
          rewrite IHa, I1, I2. cbn [eval]. destruct (eval c callf en m a) as [oa|]; cbn [bind]; [|reflexivity]. destruct (scalar oa) as [p3|]; cbn [bind]; [|reflexivity].
          destruct (eval c callf en m b1) as [o1|]; cbn [bind]; [|reflexivity].
          destruct (scalar o1) as [p1|]; cbn [bind]; [|reflexivity]. destruct (eval c callf en m b2) as [o2|]; cbn [bind]; [|reflexivity].
          destruct (scalar o2) as [p2|]; cbn [bind]; reflexivity.
      - cbn [eval_f eval]. destruct (type_of hs g a) as [ta|]; [|discriminate]. destruct (type_of hs g b) as [tb|]; [|destruct ta; discriminate].
        rewrite (IHa _ eq_refl), (IHb _ eq_refl) by assumption. reflexivity.
      - cbn [eval_f eval]. destruct (type_of hs g a) as [ta|]; [|discriminate]. destruct (type_of hs g b) as [tb|]; [|destruct ta; discriminate].
        rewrite (IHa _ eq_refl), (IHb _ eq_refl) by assumption. reflexivity.
      - cbn [eval_f eval]. destruct (type_of hs g a) as [ta|]; [|discriminate]. destruct (type_of hs g b) as [tb|]; [|destruct ta; discriminate].
        destruct (type_of hs g d) as [td|]; [|destruct ta; discriminate].
        rewrite (IHa _ eq_refl), (IHb _ eq_refl), (IHd _ eq_refl) by assumption. reflexivity.
      - cbn [eval_f eval]. destruct (type_of hs g a) as [ta|]; [|discriminate]. rewrite (IHa _ eq_refl) by assumption. reflexivity.
      - cbn [eval_f eval]. destruct (is_float s); [discriminate|]. destruct (type_of hs g a) as [ta|]; [|discriminate]. destruct (type_of hs g b) as [tb|]; [|destruct ta; discriminate].
        rewrite (IHa _ eq_refl), (IHb _ eq_refl) by assumption. reflexivity.
      - cbn [eval_f eval]. destruct (is_float s); [discriminate|]. destruct (type_of hs g a) as [ta|]; [|discriminate]. destruct (type_of hs g b) as [tb|]; [|destruct ta; discriminate].
        rewrite (IHa _ eq_refl), (IHb _ eq_refl) by assumption. reflexivity.
      - cbn [eval_f eval]. destruct (find _ hs) as [h|] eqn:Ef; [|discriminate HT]. destruct (type_of hs g a) as [ta|] eqn:Ea; [|discriminate HT].
        destruct (f_params h) as [|[y p] [|? ?]] eqn:Ep; try discriminate HT. destruct (initialises ta p) eqn:Ei; [|discriminate HT].
        rewrite (IHa _ eq_refl) by assumption.
        apply same_bind with (P := has (map fst m) ta); [reflexivity|exact (type_sound c callf hs m Hgood en g HE a _ Ea)|].
        intros o Ho. exact (Hsame f h y p ta o Ef Ep Ei Ho).
    Qed.

    Lemma eval_same e t : type_of hs g e = Some t -> no_candidate hs g e = true ->
      eval_f x c callf' en m e = eval c callf en m e.
    Proof. exact (proj1 (eval_same' e) t). Qed.
  End Eval.

  Section Exec.
    Variable fuel : nat.
    Variable sh : list sty.
    Hypothesis Hgood : forall m, map fst m = sh -> calls_good callf hs m.
    Hypothesis Hsame : forall m, map fst m = sh -> calls_same m.
    Let extra := no_candidate hs.

    Lemma eval_same_sh en g m e t : env_has sh en g -> map fst m = sh -> extra g e = true -> type_of hs g e = Some t ->
      eval_f x c callf' en m e = eval c callf en m e.
    Proof. intros HE HM HX HT. apply (eval_same m (Hgood m HM) (Hsame m HM) en g) with (t := t); trivial. now rewrite HM. Qed.

    Lemma scalar_same en g m e : env_has sh en g -> map fst m = sh -> scalar_ok hs extra g e = true ->
      eval_f x c callf' en m e = eval c callf en m e.
    Proof.
      intros HE HM H. unfold scalar_ok in H. apply andb_prop in H. destruct H as [HX H].
      destruct (type_of hs g e) as [t|] eqn:E; try discriminate H. eapply eval_same_sh; eauto.
    Qed.
    Lemma int_same en g m e : env_has sh en g -> map fst m = sh -> int_ok hs extra g e = true ->
      eval_f x c callf' en m e = eval c callf en m e.
    Proof.
      intros HE HM H. unfold int_ok in H. apply andb_prop in H. destruct H as [HX H].
      destruct (type_of hs g e) as [t|] eqn:E; try discriminate H. eapply eval_same_sh; eauto.
    Qed.
    Lemma type_same en g m u e : env_has sh en g -> map fst m = sh -> type_ok hs extra g u e = true ->
      eval_f x c callf' en m e = eval c callf en m e.
    Proof.
      intros HE HM H. unfold type_ok in H. apply andb_prop in H. destruct H as [HX H].
      destruct (type_of hs g e) as [t|] eqn:E; try discriminate H. eapply eval_same_sh; eauto.
    Qed.
    Lemma path_same en g m : env_has sh en g -> map fst m = sh -> forall path t u, path_type hs extra g t path = Some u ->
      eval_path_f x c callf' en m path = eval_path c callf en m path.
    Proof.
      intros HE HM. induction path as [|e path IH]; intros t u H; cbn [eval_path_f eval_path path_type] in *; [reflexivity|].
      destruct (int_ok hs extra g e) eqn:EI; [|discriminate]. rewrite (int_same en g m e HE HM EI).
      destruct t as [| |n t|ts|]; try discriminate H.
      - rewrite (IH t u H). reflexivity.
      - destruct e; try discriminate H. destruct (nth_error ts _) as [t'|]; [|discriminate]. rewrite (IH t' u H). reflexivity.
    Qed.

    Lemma loop_same ret g cond cond' step step' :
      (forall en m, state_ok sh g en m -> cond' en m = cond en m) ->
      (forall en m, state_ok sh g en m -> step' en m = step en m) ->
      (forall en m, state_ok sh g en m -> good (ctl_ok sh ret g) (step en m)) ->
      forall k en m, state_ok sh g en m -> loop k cond' step' en m = loop k cond step en m.
    Proof.
      intros HC HS HG. induction k as [|k IH]; intros en m H; cbn [loop]; [reflexivity|].
      rewrite (HC en m H). apply bind_ext. intros b. destruct b; [|reflexivity].
      apply same_bind with (P := ctl_ok sh ret g); [now apply HS|now apply HG|].
      intros r Hr. destruct r as [en' m'|v m']; [now apply IH|reflexivity].
    Qed.

    Theorem exec_same ret : forall s g g' en m, check_stmt hs extra ret g s = Some g' -> state_ok sh g en m ->
      exec_f x c callf' fuel s en m = exec c callf fuel s en m.
    Proof.
      induction s as [|s1 IH1 s2 IH2|t y o|y path e|e s1 IH1 s2 IH2|t i init cond next body IH|d s n| |e];
        intros g g' en m H HS; pose proof (exec_sound c callf hs extra fuel sh Hgood ret) as ES;
        cbn [check_stmt] in H; cbn [exec exec_f].
      - reflexivity.
      - destruct (check_stmt hs extra ret g s1) as [g1|] eqn:E1; [|discriminate].
        apply same_bind with (P := ctl_ok sh ret g1); [eapply IH1; eauto|eapply ES; eauto|].
        intros r Hr. destruct r as [en' m'|v m']; [eapply IH2; eauto|reflexivity].
      - destruct HS as [HE HM]. destruct o as [e|]; [|reflexivity].
        destruct (type_ok hs extra g t e) eqn:ET; [|discriminate]. now rewrite (type_same en g m t e HE HM ET).
      - destruct HS as [HE HM]. destruct (tfind y g) as [t|] eqn:ET; [|discriminate].
        assert (C : eval_path_f x c callf' en m path = eval_path c callf en m path /\ scalar_ok hs extra g e = true).
        { destruct t; try (match type of H with match ?p with _ => _ end = _ => destruct p as [[]|] eqn:EP end; try discriminate H;
            (destruct (scalar_ok hs extra g e); [|discriminate H]); split; [eapply path_same; eauto|reflexivity]).
          destruct path as [|i [|]]; try discriminate H. destruct (int_ok hs extra g i) eqn:EI; [|discriminate H].
          destruct (scalar_ok hs extra g e); [|discriminate H]. cbn [eval_path_f eval_path]. rewrite (int_same en g m i HE HM EI). now split. }
        destruct C as [C1 C2]. rewrite C1. now rewrite (scalar_same en g m e HE HM C2).
      - destruct (scalar_ok hs extra g e) eqn:EX; [|discriminate].
        destruct (check_stmt hs extra ret g s1) as [g1|] eqn:E1; [|discriminate]. destruct (check_stmt hs extra ret g s2) as [g2|] eqn:E2; [|discriminate].
        rewrite (scalar_same en g m e (proj1 HS) (proj2 HS) EX). rewrite (IH1 _ _ en m E1 HS), (IH2 _ _ en m E2 HS). reflexivity.
      - destruct (scalar_ok hs extra g init && scalar_ok hs extra ((i, TScal t) :: g) cond && scalar_ok hs extra ((i, TScal t) :: g) next)%bool eqn:EB; [|discriminate].
        destruct (check_stmt hs extra ret ((i, TScal t) :: g) body) as [gb|] eqn:Eb; [|discriminate]. injection H as <-.
        apply andb_prop in EB. destruct EB as [EB EN]. apply andb_prop in EB. destruct EB as [EI EC].
        destruct HS as [HE HM]. rewrite (scalar_same en g m init HE HM EI).
        destruct (check_extends hs extra ret _ _ _ Eb) as [db ->].
        apply same_bind with (P := fun o => exists s, has sh (TScal s) o); [reflexivity|eapply scalar_ok_good; eauto|]. intros o [s Ho].
        apply same_bind with (P := has sh (TScal t)); [reflexivity|apply (initialises_has c (TScal s) (TScal t) sh o eq_refl Ho)|]. intros o' Ho'.
        f_equal. apply loop_same with (ret := ret) (g := (i, TScal t) :: g).
        + intros en1 m1 [HE1 HM1]. now rewrite (scalar_same en1 _ m1 cond HE1 HM1 EC).
        + intros en1 m1 HS1. apply same_bind with (P := ctl_ok sh ret (db ++ (i, TScal t) :: g)); [eapply IH; eauto|eapply ES; eauto|].
          intros r Hr. assert (P := pop_ctl_ok sh ret ((i, TScal t) :: g) en1 db r (proj1 HS1) Hr).
          destruct (pop_ctl (List.length en1) r) as [en2 m2|v m2]; [|reflexivity].
          destruct P as [HE2 HM2]. now rewrite (scalar_same en2 _ m2 next HE2 HM2 EN).
        + intros en1 m1 HS1. eapply good_bind; [eapply ES; eauto|]. intros r Hr.
          assert (P := pop_ctl_ok sh ret ((i, TScal t) :: g) en1 db r (proj1 HS1) Hr).
          destruct (pop_ctl (List.length en1) r) as [en2 m2|v m2]; [|exact P].
          destruct P as [HE2 HM2]. eapply good_bind; [eapply scalar_ok_good; eauto|]. intros v [sv Hv].
          eapply good_bind; [eapply (assign_scalar c sh ((i, TScal t) :: g) en2 m2 i t v sv); [now split| |exact Hv]|].
          { cbn [tfind]. now rewrite String.eqb_refl. }
          intros r' Hr'. exact Hr'.
        + split; [|exact HM]. constructor; [now split|exact HE].
      - destruct HS as [HE HM]. destruct (tfind d g) as [td|]; [|discriminate]. destruct (tfind s g) as [ts|]; [|discriminate].
        destruct (int_ok hs extra g n) eqn:EI; [|discriminate]. now rewrite (int_same en g m n HE HM EI).
      - reflexivity.
      - destruct HS as [HE HM].
        assert (C : type_ok hs extra g ret e = true).
        { destruct ret; try discriminate; (destruct (type_ok hs extra g _ e); [reflexivity|discriminate]). }
        now rewrite (type_same en g m ret e HE HM C).
    Qed.

    Theorem run_body_same f args m : type_checks hs extra f = true -> args_ok sh (f_params f) args -> map fst m = sh ->
      run_body_f x c callf' fuel f args m = run_body c callf fuel f args m.
    Proof.
      intros H HA HM. unfold type_checks in H. destruct (check_stmt hs extra (f_ret f) (f_params f) (f_body f)) as [g'|] eqn:E; [|discriminate].
      unfold run_body_f, run_body. apply same_bind with (P := fun en => env_has sh en (f_params f)); [reflexivity|now apply params_good|].
      intros en He. rewrite (exec_same _ _ _ _ en m E (conj He HM)). reflexivity.
    Qed.
  End Exec.
End Same.

(** ** Calls of the helpers *)

Definition pointer_free (f : func) : bool :=
  forallb (fun p => plain (snd p)) (f_params f) && match f_ret f with TVoid => false | t => plain t end.

Lemma plain_has sh sh' : forall t o, plain t = true -> has sh t o -> has sh' t o.
Proof.
  induction t as [|s|n t IH|l IH|s] using ty_ind'; intros o P H; try discriminate P.
  - exact H.
  - destruct o; cbn [has] in *; try contradiction. destruct H as [L F]. split; [exact L|].
    eapply Forall_impl; [|exact F]. intros a Ha. now apply IH.
  - destruct o as [| l' |]; try (cbn [has] in H; contradiction). rewrite has_struct in *.
    revert l' H. induction IH as [|y r Hy _ IHr]; intros [|o l'] H; trivial.
    cbn [plain] in P. apply andb_prop in P. destruct P as [P1 P2]. destruct H as [H1 H2]. split; [now apply Hy|]. now apply IHr.
Qed.

Lemma initialises_plain t u : initialises t u = true -> plain u = true -> plain t = true.
Proof.
  intros I P. assert (E : (exists s, t = TScal s) \/ same_ty t u = true) by (destruct t, u; eauto).
  destruct E as [[s ->]|E]; [reflexivity|]. apply same_ty_eq in E. now subst u.
Qed.

(** One level of calls: the functions of [hs] call those of [hs'] only. *)
Section Level.
  Variable x : contraction.
  Variable c : cfg.
  Variable d : nat.
  Variables hs hs' : list func.
  Hypothesis Hfind : forall f h, find (fun h => String.eqb (f_name h) f) hs = Some h ->
    find (fun h => String.eqb (f_name h) f) helpers = Some h /\ pointer_free h = true /\ type_checks hs' (no_candidate hs') h = true.
  Hypothesis Hgood : forall m, map fst m = [] -> calls_good (call_helper c helpers loop_fuel d) hs' m.
  Hypothesis Hsame : forall m, map fst m = [] ->
    calls_same (call_helper c helpers loop_fuel d) (call_helper_f x c helpers loop_fuel d) hs' m.

  Lemma level_args h y p t o sh : f_params h = [(y, p)] -> pointer_free h = true -> initialises t p = true -> has sh t o -> args_ok [] (f_params h) [o].
  Proof.
    intros Ep PF Ei Ho. rewrite Ep. constructor; [|constructor]. exists t. split; [|exact Ei].
    eapply plain_has; [|exact Ho]. eapply initialises_plain; [exact Ei|].
    unfold pointer_free in PF. rewrite Ep in PF. cbn in PF. now destruct (plain p).
  Qed.

  Lemma level_good m : calls_good (call_helper c helpers loop_fuel (S d)) hs m.
  Proof.
    intros f h y p t o Ef Ep Ei Ho. destruct (Hfind f h Ef) as (Eh & PF & TC). cbn [call_helper]. rewrite Eh.
    eapply good_bind; [eapply (run_body_sound c _ hs' _ loop_fuel [] Hgood); [exact TC|eapply level_args; eauto|reflexivity]|].
    intros r [_ R]. unfold pointer_free in PF. apply andb_prop in PF. destruct PF as [_ PF].
    destruct (fst r) as [v|]; [|now rewrite R in PF].
    destruct R as [_ Hv]. cbn [good]. eapply plain_has; [|exact Hv]. now destruct (f_ret h).
  Qed.

  Lemma level_same m : calls_same (call_helper c helpers loop_fuel (S d)) (call_helper_f x c helpers loop_fuel (S d)) hs m.
  Proof.
    intros f h y p t o Ef Ep Ei Ho. destruct (Hfind f h Ef) as (Eh & PF & TC). cbn [call_helper call_helper_f]. rewrite Eh.
    pose proof (run_body_same x c _ _ hs' loop_fuel [] Hgood Hsame h [o] [] TC (level_args h y p t o _ Ep PF Ei Ho) eq_refl) as R.
    exact (f_equal (fun r => let* r := r in match fst r with Some v => Ok v | None => Err EStuck end) R).
  Qed.
End Level.

Lemma leaves_level : forall f h, find (fun h => String.eqb (f_name h) f) leaves = Some h ->
  find (fun h => String.eqb (f_name h) f) helpers = Some h /\ pointer_free h = true /\ type_checks [] (no_candidate []) h = true.
Proof.
  intros f h E. pose proof (find_some _ _ E) as [I N]. apply String.eqb_eq in N. subst f.
  cbn in I. destruct I as [<- | [<- | [<- | []]]]; vm_compute; auto.
Qed.
Lemma helpers_level : forall f h, find (fun h => String.eqb (f_name h) f) helpers = Some h ->
  find (fun h => String.eqb (f_name h) f) helpers = Some h /\ pointer_free h = true /\ type_checks leaves (no_candidate leaves) h = true.
Proof.
  intros f h E. split; [exact E|]. apply find_some in E. destruct E as [I _].
  cbn in I. destruct I as [<- | [<- | [<- | [<- | []]]]]; vm_compute; auto.
Qed.

Lemma none_good callf m : calls_good callf [] m.
Proof. intros f h y p t o E. discriminate E. Qed.
Lemma none_same callf callf' m : calls_same callf callf' [] m.
Proof. intros f h y p t o E. discriminate E. Qed.

Lemma library_calls_good c m : calls_good (call_helper c helpers loop_fuel call_depth) helpers m.
Proof.
  apply (level_good c 2 helpers leaves helpers_level). intros m' _.
  apply (level_good c 1 leaves [] leaves_level). intros m'' _. apply none_good.
Qed.
Lemma library_calls_same x c m :
  calls_same (call_helper c helpers loop_fuel call_depth) (call_helper_f x c helpers loop_fuel call_depth) helpers m.
Proof.
  apply (level_same x c 2 helpers leaves helpers_level).
  - intros m' _. apply (level_good c 1 leaves [] leaves_level). intros m'' _. apply none_good.
  - intros m' _. apply (level_same x c 1 leaves [] leaves_level); intros m'' _; [apply none_good|apply none_same].
Qed.

(** ** The library *)

Lemma has_type_has m : forall t o, has_type m t o -> has (map fst m) t o.
Proof.
  induction t as [|s|n t IH|l IH|s] using ty_ind'; intros o H; inversion H; subst.
  - reflexivity.
  - cbn [has]. split; [reflexivity|]. eapply Forall_impl; [|eassumption]. exact IH.
  - rewrite has_struct. match goal with H : Forall2 _ _ _ |- _ => clear - IH H; induction H as [|t o ts l' Ht _ IHl]; [exact I|] end.
    inversion IH; subst. split; [auto|]. now apply IHl.
  - cbn [has]. split; [reflexivity|]. rewrite nth_error_map. unfold memory, block in *. destruct (nth_error m b) as [[s' cells]|] eqn:E; cbn; [|exact I]. eauto.
Qed.

Lemma same_ty_refl : forall t, same_ty t t = true.
Proof.
  induction t as [|s|n t IH|l IH|s] using ty_ind'; cbn [same_ty]; trivial; try apply sty_eqb_same.
  - now rewrite Nat.eqb_refl.
  - induction IH as [|y r Hy _ IHr]; [reflexivity|]. now rewrite Hy.
Qed.

Lemma typed_args_ok m f args : typed_args m f args -> args_ok (map fst m) (f_params f) args.
Proof.
  unfold typed_args, args_ok. intros H. induction H as [|[y t] o ps args Ho _ IH]; constructor; [|exact IH].
  exists t. split; [now apply has_type_has|]. cbn. destruct t; try reflexivity; apply same_ty_refl.
Qed.

Definition fusible : list func := [vmlaq_f32; vmlaq_n_f32; vrecpsq_f32].

Lemma others_checked : forallb (fun f => type_checks helpers (no_candidate helpers) f || existsb (fun h => String.eqb (f_name h) (f_name f)) fusible) library = true.
Proof. vm_compute. reflexivity. Qed.

Theorem contraction_irrelevant x c m f args : In f library -> ~ In f fusible -> typed_args m f args ->
  run_contracted x c m f args = run c m f args.
Proof.
  intros I N T. unfold run_contracted, run. f_equal.
  pose proof (proj1 (forallb_forall _ _) others_checked f I) as C. apply orb_prop in C. destruct C as [C|C].
  - apply (run_body_same x c _ _ helpers loop_fuel (map fst m)).
    + intros m' _. apply library_calls_good.
    + intros m' _. apply library_calls_same.
    + exact C.
    + now apply typed_args_ok.
    + reflexivity.
  - exfalso. apply N. apply existsb_exists in C. destruct C as (h & Ih & E). apply String.eqb_eq in E.
    destruct Ih as [<-|[<-|[<-|[]]]]; [left|right; left|right; right; left]; symmetry.
    + refine (P_Valid2.unique "vmlaq_f32"%string vmlaq_f32 f _ I (eq_sym E)); vm_compute; reflexivity.
    + refine (P_Valid2.unique "vmlaq_n_f32"%string vmlaq_n_f32 f _ I (eq_sym E)); vm_compute; reflexivity.
    + refine (P_Valid2.unique "vrecpsq_f32"%string vrecpsq_f32 f _ I (eq_sym E)); vm_compute; reflexivity.
Qed.
