(** Proofs about floating-point environments: the functions that use no floating-point operation do not depend on them. *)
From Coq Require Import ZArith String List Bool Lia.
From Verif Require Import Types FloatBits Syntax Interp ProgRecip Library Typing TypeSound MetaSpec Contract P_Contract Fenv.
From Verif Require P_Excess.
Import ListNotations.
Open Scope Z_scope.

(** ** What is checked *)

(** In what follows [kp] says that the environment differs from the default one in rounding at most.  A conversion that does not depend on the environment. *)
Definition steady (kp : bool) (s s' : sty) : bool := sty_eqb s s' || negb (is_float s') && (kp || negb (is_float s)).
Definition settles (kp : bool) (t u : ty) : bool :=
  match u with TScal s' => match t with TScal s => steady kp s s' | _ => false end | _ => true end.
Definition integral (kp : bool) (hs : list func) (g : tenv) (e : expr) : bool :=
  match type_of hs g e with Some (TScal s) => kp || negb (is_float s) | _ => false end.
Definition becomes (kp : bool) (hs : list func) (g : tenv) (u : ty) (e : expr) : bool :=
  match type_of hs g e with Some t => settles kp t u | None => false end.

Definition is_compare (op : binop) : bool := match op with BLt | BGt | BLe | BGe | BEq | BNe => true | _ => false end.
Definition operands (kp : bool) (hs : list func) (g : tenv) (op : binop) (a b : expr) : bool :=
  match type_of hs g a, type_of hs g b with
  | Some (TScal s), Some (TScal s') => negb (is_float s) && negb (is_float s') || kp && is_compare op && sty_eqb s s'
  | _, _ => false
  end.

Definition quiet_expr (kp : bool) (hs : list func) (g : tenv) : expr -> bool :=
  everywhere (fun e => match e with
    | EBin op a b => operands kp hs g op a b
    | EAndAlso a b | EOrElse a b => integral kp hs g a && integral kp hs g b
    | EUn ULNot a | ECond a _ _ => integral kp hs g a
    | ECast t a => becomes kp hs g (TScal t) a
    | EMin t a b | EMax t a b => becomes kp hs g (TScal t) a && becomes kp hs g (TScal t) b
    | ECall f a =>
        match find (fun h => String.eqb (f_name h) f) hs, type_of hs g a with
        | Some h, Some t => match f_params h with [(_, p)] => same_ty t p | _ => false end
        | _, _ => false
        end
    | _ => true
    end).

Fixpoint quiet (kp : bool) (hs : list func) (ret : ty) (g : tenv) (s : stmt) : bool :=
  match s with
  | SSkip | SAbort | SDecl _ _ None => true
  | SSeq a b => quiet kp hs ret g a && match check_stmt hs no_more ret g a with Some g' => quiet kp hs ret g' b | None => false end
  | SDecl t x (Some e) => quiet_expr kp hs g e && becomes kp hs g t e
  | SAssign x path e =>
      forallb (quiet_expr kp hs g) path && quiet_expr kp hs g e &&
      match tfind x g with
      | Some (TPtr t) => becomes kp hs g (TScal t) e
      | Some t => match path_type hs no_more g t path with Some u => becomes kp hs g u e | None => false end
      | None => false
      end
  | SIf e a b => quiet_expr kp hs g e && integral kp hs g e && quiet kp hs ret g a && quiet kp hs ret g b
  | SFor t i init cond next body =>
      let g' := (i, TScal t) :: g in
      quiet_expr kp hs g init && becomes kp hs g (TScal t) init && quiet_expr kp hs g' cond && integral kp hs g' cond &&
      quiet_expr kp hs g' next && becomes kp hs g' (TScal t) next && quiet kp hs ret g' body
  | SMemcpy d s n => quiet_expr kp hs g n
  | SReturn e => quiet_expr kp hs g e && becomes kp hs g ret e
  end.

Definition quiet_func (kp : bool) (hs : list func) (f : func) : bool :=
  type_checks hs no_more f && quiet kp hs (f_ret f) (f_params f) (f_body f).

(** ** Operations *)

Section Ops.
  Variable kp : bool.
  Variable u : fenv.
  Hypothesis Hk : kp = true -> only_rounding u.
  Variable c : cfg.

  Lemma steady_same s s' z : steady kp s s' = true -> convert_e u s s' z = convert c s s' z.
  Proof.
    unfold steady, convert_e, convert. intros H. destruct (sty_eqb s s'); [reflexivity|]. cbn [orb] in H.
    apply andb_prop in H. destruct H as [H1 H2]. apply negb_true_iff in H1. rewrite H1. apply orb_prop in H2. destruct H2 as [H2|H2].
    - destruct (Hk H2) as (_ & T & _). now rewrite T.
    - apply negb_true_iff in H2. now rewrite H2.
  Qed.
  Definition usable (s : sty) : Prop := kp = true \/ is_float s = false.
  Lemma usable_of s : kp || negb (is_float s) = true -> usable s.
  Proof. intros H. apply orb_prop in H. destruct H as [H|H]; [now left|]. right. now apply negb_true_iff. Qed.
  Lemma binary_same op s s' x y : negb (is_float s) && negb (is_float s') || kp && is_compare op && sty_eqb s s' = true ->
    binary_e u c op s x s' y = binary c op s x s' y.
  Proof.
    intros H. apply orb_prop in H. unfold binary_e. destruct H as [H|H].
    - apply andb_prop in H. destruct H as [H H']. apply negb_true_iff in H, H'.
      replace (is_float (usual s s')) with false by (destruct s, s'; cbn in *; congruence). reflexivity.
    - apply andb_prop in H. destruct H as [H E]. apply andb_prop in H. destruct H as [H C]. apply sty_eqb_true in E. subst s'.
      destruct (Hk H) as (Cm & _). destruct (is_float (usual s s)) eqn:F; [|reflexivity].
      assert (U : usual s s = s) by (destruct s; cbn in *; congruence). unfold binary. rewrite F, U.
      unfold convert_e, convert. rewrite sty_eqb_same. cbn [bind].
      destruct op; try discriminate C; now rewrite Cm.
  Qed.
  Lemma truth_same s z : usable s -> truth_e u s z = truth s z.
  Proof. intros [H|H]; unfold truth_e, truth; [destruct (Hk H) as (_ & _ & N); now rewrite N|now rewrite H]. Qed.
  Lemma cond_same sh s o : usable s -> has sh (TScal s) o -> cond_value_e u o = cond_value o.
  Proof.
    intros H Ho. apply has_scal in Ho. destruct Ho as [[z|] ->]; [|reflexivity]. unfold cond_value_e, cond_value. cbn [scalar bind fst snd].
    now rewrite truth_same.
  Qed.
  Lemma settles_init sh t t' o : settles kp t t' = true -> has sh t o -> init_obj_e u t' o = init_obj c t' o.
  Proof.
    intros H Ho. destruct t' as [|s'|n t'|ts|s']; try reflexivity. destruct t as [|s| | |]; try discriminate H. cbn [settles] in H.
    apply has_scal in Ho. destruct Ho as [[z|] ->]; [|reflexivity]. cbn [init_obj_e init_obj scalar bind fst snd]. now rewrite steady_same.
  Qed.
End Ops.

Section Same.
  Variable kp : bool.
  Variable u : fenv.
  Hypothesis Hk : kp = true -> only_rounding u.
  Variable c : cfg.
  Variables callf callf' : string -> obj -> res obj.
  Variable hs : list func.

  Definition calls_alike (m : memory) : Prop := forall f h y p o,
    find (fun h => String.eqb (f_name h) f) hs = Some h -> f_params h = [(y, p)] ->
    has (map fst m) p o -> callf' f o = callf f o.

  Section Eval.
    Variable m : memory.
    Hypothesis Hgood : calls_good callf hs m.
    Hypothesis Hsame : calls_alike m.
    Variable en : env.
    Variable g : tenv.
    Hypothesis HE : env_has (map fst m) en g.

    Lemma eval_has e t : type_of hs g e = Some t -> good (has (map fst m) t) (eval c callf en m e).
    Proof. apply (type_sound c callf hs m Hgood en g HE). Qed.
    Lemma eval_int e : integral kp hs g e = true -> good (fun o => cond_value_e u o = cond_value o) (eval c callf en m e).
    Proof.
      intros H. unfold integral in H. destruct (type_of hs g e) as [[|s| | |]|] eqn:E; try discriminate. apply usable_of in H.
      pose proof (eval_has e _ E) as G. destruct (eval c callf en m e); cbn [good] in *; [|exact G]. now apply (cond_same kp u Hk (map fst m) s).
    Qed.
    Lemma eval_int2 e : integral kp hs g e = true -> good (fun o => exists s v, usable kp s /\ o = OScal s v) (eval c callf en m e).
    Proof.
      intros H. unfold integral in H. destruct (type_of hs g e) as [[|s| | |]|] eqn:E; try discriminate. apply usable_of in H.
      pose proof (eval_has e _ E) as G. destruct (eval c callf en m e); cbn [good] in *; [|exact G]. apply has_scal in G. destruct G as [v ->]. eauto.
    Qed.
    Lemma eval_steady e t : becomes kp hs g (TScal t) e = true -> good (fun o => exists s v, steady kp s t = true /\ o = OScal s v) (eval c callf en m e).
    Proof.
      intros H. unfold becomes in H. destruct (type_of hs g e) as [[|s| | |]|] eqn:E; try discriminate.
      pose proof (eval_has e _ E) as G. destruct (eval c callf en m e); cbn [good] in *; [|exact G]. apply has_scal in G. destruct G as [v ->]. eauto.
    Qed.
    Lemma eval_becomes e t : becomes kp hs g t e = true -> good (fun o => init_obj_e u t o = init_obj c t o) (eval c callf en m e).
    Proof.
      intros H. unfold becomes in H. destruct (type_of hs g e) as [t'|] eqn:E; try discriminate.
      pose proof (eval_has e _ E) as G. destruct (eval c callf en m e); cbn [good] in *; [|exact G]. now apply (settles_init kp u Hk c (map fst m) t').
    Qed.

    Lemma eval_quiet : forall e, quiet_expr kp hs g e = true -> eval_e u c callf' en m e = eval c callf en m e.
    Proof.
      unfold quiet_expr.
      induction e as [s z|y|a IHa i IHi|op a IHa|op a IHa b IHb|a IHa b IHb|a IHa b IHb|a IHa b IHb d IHd|s a IHa|s a IHa b IHb|s a IHa b IHb|f a IHa];
        intros HN; cbn [everywhere] in HN;
        repeat match goal with H : (_ && _)%bool = true |- _ => apply andb_prop in H; destruct H end;
        cbn [eval eval_e]; rewrite ?IHa, ?IHb, ?IHd, ?IHi by assumption; try reflexivity.
      - destruct op; try reflexivity. apply same_bind with (P := fun o => exists s v, usable kp s /\ o = OScal s v); [reflexivity|now apply eval_int2|].
        intros o (s & [z|] & F & ->); [|reflexivity]. cbn [scalar bind fst snd unary_e unary]. now rewrite (truth_same kp u Hk).
      - match goal with H : operands _ _ _ _ _ _ = true |- _ => unfold operands in H end.
        destruct (type_of hs g a) as [[|s| | |]|] eqn:Ea; try discriminate. destruct (type_of hs g b) as [[|s'| | |]|] eqn:Eb; try discriminate.
        apply same_bind with (P := has (map fst m) (TScal s)); [reflexivity|now apply eval_has|].
        intros o Ho. apply has_scal in Ho. destruct Ho as [[z|] ->]; [|reflexivity]. cbn [scalar bind fst snd].
        apply same_bind with (P := has (map fst m) (TScal s')); [reflexivity|now apply eval_has|].
        intros o Ho. apply has_scal in Ho. destruct Ho as [[z'|] ->]; [|reflexivity]. cbn [scalar bind fst snd]. now apply (binary_same kp u Hk).
      - apply same_bind with (P := fun o => cond_value_e u o = cond_value o); [reflexivity|now apply eval_int|]. intros o ->.
        apply bind_ext. intros [|]; [|reflexivity].
        apply same_bind with (P := fun o => cond_value_e u o = cond_value o); [reflexivity|now apply eval_int|]. intros o' ->. reflexivity.
      - apply same_bind with (P := fun o => cond_value_e u o = cond_value o); [reflexivity|now apply eval_int|]. intros o ->.
        apply bind_ext. intros [|]; [reflexivity|].
        apply same_bind with (P := fun o => cond_value_e u o = cond_value o); [reflexivity|now apply eval_int|]. intros o' ->. reflexivity.
      - apply same_bind with (P := fun o => cond_value_e u o = cond_value o); [reflexivity|now apply eval_int|]. intros o ->. reflexivity.
      - apply same_bind with (P := fun o => exists s0 v, steady kp s0 s = true /\ o = OScal s0 v); [reflexivity|now apply eval_steady|].
        intros o (s0 & [z|] & F & ->); [|reflexivity]. cbn [scalar bind fst snd]. now rewrite (steady_same kp u Hk c).
      - apply same_bind with (P := fun o => exists s0 v, steady kp s0 s = true /\ o = OScal s0 v); [reflexivity|now apply eval_steady|].
        intros o (s0 & [z|] & F & ->); [|reflexivity]. cbn [scalar bind fst snd].
        apply same_bind with (P := fun o => exists s0 v, steady kp s0 s = true /\ o = OScal s0 v); [reflexivity|now apply eval_steady|].
        intros o (s1 & [z'|] & F' & ->); [|reflexivity]. cbn [scalar bind fst snd]. unfold minmax_e, minmax. now rewrite !(steady_same kp u Hk c).
      - apply same_bind with (P := fun o => exists s0 v, steady kp s0 s = true /\ o = OScal s0 v); [reflexivity|now apply eval_steady|].
        intros o (s0 & [z|] & F & ->); [|reflexivity]. cbn [scalar bind fst snd].
        apply same_bind with (P := fun o => exists s0 v, steady kp s0 s = true /\ o = OScal s0 v); [reflexivity|now apply eval_steady|].
        intros o (s1 & [z'|] & F' & ->); [|reflexivity]. cbn [scalar bind fst snd]. unfold minmax_e, minmax. now rewrite !(steady_same kp u Hk c).
      - destruct (find _ hs) as [h|] eqn:Ef; [|discriminate]. destruct (type_of hs g a) as [ta|] eqn:Ea; [|discriminate].
        destruct (f_params h) as [|[y p] [|? ?]] eqn:Ep; try discriminate.
        match goal with H : same_ty _ _ = true |- _ => apply same_ty_eq in H; subst ta end.
        apply same_bind with (P := has (map fst m) p); [reflexivity|now apply eval_has|]. intros o Ho. exact (Hsame f h y p o Ef Ep Ho).
    Qed.
  End Eval.

  (** ** Statements *)

  Section Exec.
    Variable fuel : nat.
    Variable sh : list sty.
    Hypothesis Hgood : forall m, map fst m = sh -> calls_good callf hs m.
    Hypothesis Hsame : forall m, map fst m = sh -> calls_alike m.
    Let extra := no_more.

    Lemma eval_at en g m e : env_has sh en g -> map fst m = sh -> quiet_expr kp hs g e = true ->
      eval_e u c callf' en m e = eval c callf en m e.
    Proof. intros HE HM. apply eval_quiet; auto. now rewrite HM. Qed.
    Lemma int_at en g m e : env_has sh en g -> map fst m = sh -> integral kp hs g e = true ->
      good (fun o => cond_value_e u o = cond_value o) (eval c callf en m e).
    Proof. intros HE HM. apply eval_int; auto. now rewrite HM. Qed.
    Lemma becomes_at en g m e t : env_has sh en g -> map fst m = sh -> becomes kp hs g t e = true ->
      good (fun o => init_obj_e u t o = init_obj c t o) (eval c callf en m e).
    Proof. intros HE HM. apply eval_becomes; auto. now rewrite HM. Qed.
    Lemma steady_at en g m e t : env_has sh en g -> map fst m = sh -> becomes kp hs g (TScal t) e = true ->
      good (fun o => exists s v, steady kp s t = true /\ o = OScal s v) (eval c callf en m e).
    Proof. intros HE HM. apply eval_steady; auto. now rewrite HM. Qed.

    Lemma path_quiet en g m : env_has sh en g -> map fst m = sh -> forall path,
      forallb (quiet_expr kp hs g) path = true -> eval_path_e u c callf' en m path = eval_path c callf en m path.
    Proof.
      intros HE HM. induction path as [|e path IH]; intros HX; cbn [eval_path_e eval_path forallb] in *; [reflexivity|].
      apply andb_prop in HX. destruct HX as [X1 X2]. rewrite (eval_at en g m e HE HM X1), (IH X2). reflexivity.
    Qed.

    Lemma put_same s t z : steady kp t s = true -> forall ks o, P_Excess.at_type c o ks s -> put_e u o ks t z = put c o ks t z.
    Proof.
      intros H. induction ks as [|k ks IH]; intros o A.
      - destruct o as [t' v| |]; try reflexivity. cbn [put_e put].
        destruct A as [E|(er & E1 & E2)]; cbn [Excess.type_at] in *; [injection E as ->; now rewrite (steady_same kp u Hk c)|discriminate].
      - destruct o as [|l|]; try reflexivity. cbn [put_e put].
        unfold P_Excess.at_type in A. cbn [Excess.type_at put] in A. destruct (get_idx l k) as [x|er]; [|reflexivity]. cbn [bind] in *.
        rewrite IH; [reflexivity|]. destruct A as [E|(er & E1 & E2)]; [now left|]. right. exists er. split; [exact E1|]. intros t0 z0. specialize (E2 t0 z0).
        destruct (put c x ks t0 z0); [discriminate|]. exact E2.
    Qed.

    Lemma assign_same en m y ks o s t v : lookup y en = Some o -> steady kp t s = true ->
      P_Excess.at_type c o ks s \/ (exists b off k, o = OPtr s b off /\ ks = [k]) ->
      assign_e u en m y ks (OScal t v) = assign c en m y ks (OScal t v).
    Proof.
      intros L H A. unfold assign_e, assign. destruct v as [z|]; [|reflexivity]. cbn [scalar bind fst snd]. rewrite L.
      destruct A as [A|(b & off & k & -> & ->)].
      - destruct o as [t' v'|l|t' b off]; try (now rewrite (put_same s t z H)).
        destruct ks as [|k [|]]; try reflexivity.
        destruct A as [E|(er & E1 & E2)]; cbn [Excess.type_at] in *; [injection E as ->; now rewrite (steady_same kp u Hk c)|discriminate].
      - now rewrite (steady_same kp u Hk c).
    Qed.

    Theorem exec_quiet ret : forall s g g' en m, check_stmt hs extra ret g s = Some g' -> quiet kp hs ret g s = true ->
      state_ok sh g en m -> exec_e u c callf' fuel s en m = exec c callf fuel s en m.
    Proof.
      induction s as [|s1 IH1 s2 IH2|t y o|y path e|e s1 IH1 s2 IH2|t i init cond next body IH|d s n| |e];
        intros g g' en m H HX HS; pose proof (exec_sound c callf hs extra fuel sh Hgood ret) as ES;
        cbn [check_stmt] in H; cbn [quiet] in HX; cbn [exec exec_e].
      - reflexivity.
      - apply andb_prop in HX. destruct HX as [X1 X2]. change no_more with extra in X2.
        destruct (check_stmt hs extra ret g s1) as [g1|] eqn:E1; [|discriminate].
        apply same_bind with (P := ctl_ok sh ret g1); [eapply IH1; eauto|eapply ES; eauto|].
        intros r Hr. destruct r as [en' m'|v m']; [eapply IH2; eauto|reflexivity].
      - destruct HS as [HE HM]. destruct o as [e|]; [|reflexivity]. apply andb_prop in HX. destruct HX as [X1 X2].
        apply same_bind with (P := fun o => init_obj_e u t o = init_obj c t o); [now apply (eval_at en g)|now apply (becomes_at en g)|].
        intros o ->. reflexivity.
      - destruct HS as [HE HM]. apply andb_prop in HX. destruct HX as [HX XB]. apply andb_prop in HX. destruct HX as [XP XE].
        destruct (tfind y g) as [t|] eqn:ET; [|discriminate].
        destruct (lookup_has sh en g y t HE ET) as (o & EL & Ho).
        assert (C : exists w, becomes kp hs g (TScal w) e = true /\
                    good (fun ks => P_Excess.at_type c o ks w \/ (exists b off k, o = OPtr w b off /\ ks = [k])) (eval_path c callf en m path)).
        { assert (C : (exists s, t = TPtr s) \/ exists w, path_type hs extra g t path = Some (TScal w) /\ becomes kp hs g (TScal w) e = true).
          { destruct t; eauto; right; change no_more with extra in XB;
              match type of H with match ?p with _ => _ end = _ => destruct p as [[]|] eqn:EP end; try discriminate H; eauto. }
          destruct C as [[s ->]|(w & EP & XU)].
          - destruct path as [|i [|]]; try discriminate H. destruct (int_ok hs extra g i && scalar_ok hs extra g e)%bool eqn:EB; [|discriminate H].
            apply andb_prop in EB. destruct EB as [EI EO].
            exists s. split; [exact XB|]. cbn [eval_path].
            eapply good_bind; [eapply int_ok_good; eauto|]. intros oi (si & Hi & Fi). eapply good_bind; [eapply int_good; eauto|]. intros k _. cbn [bind good].
            right. destruct o; cbn [has] in Ho; try contradiction. destruct Ho as [<- _]. eauto.
          - exists w. split; [exact XU|].
            pose proof (P_Excess.path_at c callf hs sh Hgood en g m w HE HM path t EP) as G. destruct (eval_path c callf en m path); cbn [good] in *; [|exact G]. left. now apply G. }
        destruct C as (w & XU & G). rewrite (path_quiet en g m HE HM path XP).
        apply same_bind with (P := fun ks => P_Excess.at_type c o ks w \/ (exists b off k, o = OPtr w b off /\ ks = [k])); [reflexivity|exact G|].
        intros ks Hks. apply same_bind with (P := fun o => exists s v, steady kp s w = true /\ o = OScal s v); [now apply (eval_at en g)|now apply (steady_at en g)|].
        intros o' (s & v & Hs & ->). now rewrite (assign_same en m y ks o w s v EL Hs Hks).
      - repeat match goal with H : (_ && _)%bool = true |- _ => apply andb_prop in H; destruct H end.
        destruct (scalar_ok hs extra g e) eqn:EX; [|discriminate].
        destruct (check_stmt hs extra ret g s1) as [g1|] eqn:E1; [|discriminate]. destruct (check_stmt hs extra ret g s2) as [g2|] eqn:E2; [|discriminate].
        rewrite (IH1 _ _ en m E1) by assumption. rewrite (IH2 _ _ en m E2) by assumption.
        destruct HS as [HE HM].
        apply same_bind with (P := fun o => cond_value_e u o = cond_value o); [now apply (eval_at en g)|now apply (int_at en g)|]. intros o ->. reflexivity.
      - repeat match goal with H : (_ && _)%bool = true |- _ => apply andb_prop in H; destruct H end.
        destruct (scalar_ok hs extra g init && scalar_ok hs extra ((i, TScal t) :: g) cond && scalar_ok hs extra ((i, TScal t) :: g) next)%bool eqn:EB; [|discriminate].
        destruct (check_stmt hs extra ret ((i, TScal t) :: g) body) as [gb|] eqn:Eb; [|discriminate]. injection H as <-.
        apply andb_prop in EB. destruct EB as [EB EN]. apply andb_prop in EB. destruct EB as [EI EC].
        destruct HS as [HE HM]. destruct (check_extends hs extra ret _ _ _ Eb) as [db ->].
        assert (G : good (fun o => (exists s, has sh (TScal s) o) /\ init_obj_e u (TScal t) o = init_obj c (TScal t) o) (eval c callf en m init)).
        { assert (G1 := scalar_ok_good c callf hs extra sh Hgood en g m init HE HM EI).
          assert (G2 : good (fun o => init_obj_e u (TScal t) o = init_obj c (TScal t) o) (eval c callf en m init)) by (now apply (becomes_at en g)).
          destruct (eval c callf en m init); cbn [good] in *; [now split|exact G1]. }
        apply same_bind with (1 := eval_at en g m init HE HM ltac:(assumption)) (2 := G). intros o [[s Ho] ->].
        apply same_bind with (P := has sh (TScal t)); [reflexivity|apply (initialises_has c (TScal s) (TScal t) sh o eq_refl Ho)|]. intros o' Ho'.
        f_equal. apply P_Excess.loop_same_x with (sh := sh) (ret := ret) (g := (i, TScal t) :: g).
        + intros en1 m1 [HE1 HM1].
          apply same_bind with (P := fun o => cond_value_e u o = cond_value o); [now apply (eval_at en1 ((i, TScal t) :: g))|now apply (int_at en1 ((i, TScal t) :: g))|].
          intros oc ->. reflexivity.
        + intros en1 m1 HS1. apply same_bind with (P := ctl_ok sh ret (db ++ (i, TScal t) :: g)); [eapply IH; eauto|eapply ES; eauto|].
          intros r Hr. assert (P := pop_ctl_ok sh ret ((i, TScal t) :: g) en1 db r (proj1 HS1) Hr).
          destruct (pop_ctl (List.length en1) r) as [en2 m2|v m2]; [|reflexivity].
          destruct P as [HE2 HM2].
          apply same_bind with (P := fun o => exists s v, steady kp s t = true /\ o = OScal s v); [now apply (eval_at en2 ((i, TScal t) :: g))|now apply (steady_at en2 ((i, TScal t) :: g))|].
          intros ov (sv & v & Hs & ->).
          destruct (lookup_has sh en2 ((i, TScal t) :: g) i (TScal t) HE2) as (oi & EL & Hoi); [cbn [tfind]; now rewrite String.eqb_refl|].
          rewrite (assign_same en2 m2 i [] oi t sv v EL Hs); [reflexivity|]. left. apply has_scal in Hoi. destruct Hoi as [vi ->]. now left.
        + intros en1 m1 HS1. eapply good_bind; [eapply ES; eauto|]. intros r Hr.
          assert (P := pop_ctl_ok sh ret ((i, TScal t) :: g) en1 db r (proj1 HS1) Hr).
          destruct (pop_ctl (List.length en1) r) as [en2 m2|v m2]; [|exact P].
          destruct P as [HE2 HM2]. eapply good_bind; [eapply scalar_ok_good; eauto|]. intros v [sv Hv].
          eapply good_bind; [eapply (assign_scalar c sh ((i, TScal t) :: g) en2 m2 i t v sv); [now split| |exact Hv]|].
          { cbn [tfind]. now rewrite String.eqb_refl. }
          intros r' Hr'. exact Hr'.
        + split; [|exact HM]. constructor; [now split|exact HE].
      - destruct HS as [HE HM]. rewrite (eval_at en g m n HE HM HX). reflexivity.
      - reflexivity.
      - destruct HS as [HE HM]. apply andb_prop in HX. destruct HX as [X1 X2]. rewrite (eval_at en g m e HE HM X1). reflexivity.
    Qed.

    (** What is returned becomes a value of the return type without the floating-point unit. *)
    Definition ready (ret : ty) (r : res ctl) : Prop :=
      match r with Ok (Returned v _) => init_obj_e u ret v = init_obj c ret v | _ => True end.
    Lemma ready_bind {A} ret (P : A -> Prop) (r : res A) k : good P r -> (forall a, P a -> ready ret (k a)) -> ready ret (bind r k).
    Proof. destruct r; cbn [good bind]; [intros H K; now apply K|intros _ _; exact I]. Qed.
    Lemma ready_loop ret g cond step :
      (forall en m, state_ok sh g en m -> good (fun _ => True) (cond en m)) ->
      (forall en m, state_ok sh g en m -> good (ctl_ok sh ret g) (step en m)) ->
      (forall en m, state_ok sh g en m -> ready ret (step en m)) ->
      forall k en m, state_ok sh g en m -> ready ret (loop k cond step en m).
    Proof.
      intros HC HG HR. induction k as [|k IH]; intros en m H; cbn [loop]; [exact I|].
      apply ready_bind with (P := fun _ => True); [now apply HC|]. intros b _. destruct b; [|exact I].
      specialize (HG en m H). specialize (HR en m H). destruct (step en m) as [[en' m'|v m']|]; cbn [bind good] in *; [now apply IH|exact HR|exact I].
    Qed.
    Lemma ready_pop ret n r : ready ret r -> ready ret (let* r := r in Ok (pop_ctl n r)).
    Proof. destruct r as [[|]|]; cbn; trivial. Qed.

    Theorem exec_ready ret : forall s g g' en m, check_stmt hs extra ret g s = Some g' -> quiet kp hs ret g s = true ->
      state_ok sh g en m -> ready ret (exec c callf fuel s en m).
    Proof.
      induction s as [|s1 IH1 s2 IH2|t y o|y path e|e s1 IH1 s2 IH2|t i init cond next body IH|d s n| |e];
        intros g g' en m H HX HS; pose proof (exec_sound c callf hs extra fuel sh Hgood ret) as ES;
        cbn [check_stmt] in H; cbn [quiet] in HX; cbn [exec].
      - exact I.
      - apply andb_prop in HX. destruct HX as [X1 X2]. change no_more with extra in X2.
        destruct (check_stmt hs extra ret g s1) as [g1|] eqn:E1; [|discriminate].
        pose proof (IH1 g g1 en m E1 X1 HS) as R1. pose proof (ES s1 g g1 en m E1 HS) as G1.
        destruct (exec c callf fuel s1 en m) as [[en' m'|v m']|]; cbn [bind good] in *; [eapply IH2; eauto|exact R1|exact I].
      - destruct o as [e|]; [|exact I]. destruct (eval c callf en m e); cbn [bind]; [|exact I]. destruct (init_obj c t a); exact I.
      - destruct (eval_path c callf en m path); cbn [bind]; [|exact I]. destruct (eval c callf en m e); cbn [bind]; [|exact I].
        destruct (assign c en m y a a0); exact I.
      - repeat match goal with H : (_ && _)%bool = true |- _ => apply andb_prop in H; destruct H end.
        destruct (scalar_ok hs extra g e) eqn:EX; [|discriminate].
        destruct (check_stmt hs extra ret g s1) as [g1|] eqn:E1; [|discriminate]. destruct (check_stmt hs extra ret g s2) as [g2|] eqn:E2; [|discriminate].
        destruct (eval c callf en m e) as [o|]; cbn [bind]; [|exact I]. destruct (cond_value o) as [b|]; cbn [bind]; [|exact I].
        apply ready_pop. destruct b; [now apply (IH1 g g1)|now apply (IH2 g g2)].
      - repeat match goal with H : (_ && _)%bool = true |- _ => apply andb_prop in H; destruct H end.
        destruct (scalar_ok hs extra g init && scalar_ok hs extra ((i, TScal t) :: g) cond && scalar_ok hs extra ((i, TScal t) :: g) next)%bool eqn:EB; [|discriminate].
        destruct (check_stmt hs extra ret ((i, TScal t) :: g) body) as [gb|] eqn:Eb; [|discriminate]. injection H as <-.
        apply andb_prop in EB. destruct EB as [EB EN]. apply andb_prop in EB. destruct EB as [EI EC].
        destruct HS as [HE HM]. destruct (check_extends hs extra ret _ _ _ Eb) as [db ->].
        apply ready_bind with (P := fun o => exists s, has sh (TScal s) o); [eapply scalar_ok_good; eauto|]. intros o [s Ho].
        apply ready_bind with (P := has sh (TScal t)); [apply (initialises_has c (TScal s) (TScal t) sh o eq_refl Ho)|]. intros o' Ho'.
        apply ready_pop. apply ready_loop with (g := (i, TScal t) :: g).
        + intros en1 m1 [HE1 HM1]. eapply good_bind; [eapply scalar_ok_good; eauto|]. intros oc [sc Hc]. 
          pose proof (cond_good sh sc oc Hc) as CG. destruct (cond_value oc); cbn [good] in *; [exact I|exact CG].
        + intros en1 m1 HS1. eapply good_bind; [eapply ES; eauto|]. intros r Hr.
          assert (P := pop_ctl_ok sh ret ((i, TScal t) :: g) en1 db r (proj1 HS1) Hr).
          destruct (pop_ctl (List.length en1) r) as [en2 m2|v m2]; [|exact P].
          destruct P as [HE2 HM2]. eapply good_bind; [eapply scalar_ok_good; eauto|]. intros v [sv Hv].
          eapply good_bind; [eapply (assign_scalar c sh ((i, TScal t) :: g) en2 m2 i t v sv); [now split| |exact Hv]|].
          { cbn [tfind]. now rewrite String.eqb_refl. }
          intros r' Hr'. exact Hr'.
        + intros en1 m1 HS1. pose proof (IH _ _ en1 m1 Eb ltac:(assumption) HS1) as R1.
          destruct (exec c callf fuel body en1 m1) as [[en' m'|v m']|]; cbn [bind pop_ctl ready] in *; [|exact R1|exact I].
          destruct (eval c callf _ m' next); cbn [bind]; [|exact I]. destruct (assign c _ m' i [] a); exact I.
        + split; [|exact HM]. constructor; [now split|exact HE].
      - destruct (eval c callf en m n) as [o|]; cbn [bind]; [|exact I]. destruct (int_value o); cbn [bind]; [|exact I].
        destruct (lookup d en); [|exact I]. destruct (lookup s en); [|exact I]. destruct (memcpy_obj o0 o1 a); exact I.
      - exact I.
      - destruct HS as [HE HM]. apply andb_prop in HX. destruct HX as [X1 X2].
        pose proof (becomes_at en g m e ret HE HM X2) as G. destruct (eval c callf en m e); cbn [bind good ready] in *; [exact G|exact I].
    Qed.

    (** Arguments that have the parameters' types. *)
    Definition exact_args (ps : list (string * ty)) (args : list obj) : Prop := Forall2 (fun p o => has sh (snd p) o) ps args.
    Lemma settles_same t : settles kp t t = true.
    Proof. destruct t; try reflexivity. cbn. unfold steady. now rewrite sty_eqb_same. Qed.
    Lemma bind_exact_args ps args : exact_args ps args -> bind_params_e u ps args = bind_params c ps args.
    Proof.
      intros H. induction H as [|[y t] o ps args Ho H IH]; [reflexivity|]. cbn [bind_params_e bind_params snd] in *.
      now rewrite IH, (settles_init kp u Hk c sh t t o (settles_same t) Ho).
    Qed.
    Lemma same_ty_refl' t : initialises t t = true.
    Proof. destruct t; try reflexivity; apply same_ty_refl. Qed.
    Lemma exact_args_ok ps args : exact_args ps args -> args_ok sh ps args.
    Proof. intros H. induction H as [|[y t] o ps args Ho H IH]; constructor; [|exact IH]. exists t. split; [exact Ho|]. apply same_ty_refl'. Qed.

    Theorem run_body_quiet f args m : quiet_func kp hs f = true -> exact_args (f_params f) args -> map fst m = sh ->
      run_body_e u c callf' fuel f args m = run_body c callf fuel f args m.
    Proof.
      intros H HA HM. unfold quiet_func, type_checks in H. apply andb_prop in H. destruct H as [H HX].
      destruct (check_stmt hs no_more (f_ret f) (f_params f) (f_body f)) as [g'|] eqn:E; [|discriminate].
      unfold run_body_e, run_body. apply same_bind with (P := fun en => env_has sh en (f_params f)); [now apply bind_exact_args|now apply params_good; apply exact_args_ok|].
      intros en He. rewrite (exec_quiet _ _ _ _ en m E HX (conj He HM)).
      pose proof (exec_ready _ _ _ _ en m E HX (conj He HM)) as R.
      destruct (exec c callf fuel (f_body f) en m) as [[en' m'|v m']|]; cbn [bind ready] in *; trivial.
      destruct (f_ret f); trivial; now rewrite R.
    Qed.
  End Exec.
End Same.
