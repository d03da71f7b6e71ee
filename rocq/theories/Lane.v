(** Element-wise functions act lane by lane.

    A function of the shape
      [... T D; ... for (i = 0; i < n; i++) { ... x.val[i] ... D.val[i] = ... } return D;]
    in which vectors are only accessed at the loop index does, in lane k,
    exactly what its one-lane version does on lane k of its arguments.  This is
    proved once, for every function that passes the syntactic check [ew]. *)
From Coq Require Import ZArith String List Bool Lia.
From Verif Require Import Types FloatBits Syntax Interp ProgRecip ExecLemmas.
Import ListNotations.
Open Scope Z_scope.

Definition inb (x : string) (l : list string) : bool := existsb (String.eqb x) l.

(** Expressions that access the vectors [vs] only at index [i]. *)
Fixpoint lw_expr (i : string) (vs : list string) (e : expr) : bool :=
  match e with
  | ELit _ _ => true
  | EVar x => negb (String.eqb x i) && negb (inb x vs)
  | EIdx (EVar v) (EVar j) => inb v vs && String.eqb j i
  | EIdx _ _ => false
  | EUn _ a | ECast _ a | ECall _ a => lw_expr i vs a
  | EBin _ a b | EAndAlso a b | EOrElse a b | EMin _ a b | EMax _ a b =>
      lw_expr i vs a && lw_expr i vs b
  | ECond a b d => lw_expr i vs a && lw_expr i vs b && lw_expr i vs d
  end.

(** Statements that access the vectors [vs] only at index [i], and assign only
    to lane [i] of [D] and to the scalars [W] or to scalars they declare
    themselves.  Returns the assignable scalars afterwards. *)
Fixpoint lw_stmt (i : string) (vs : list string) (D : string) (W : list string)
  (s : stmt) : option (list string) :=
  match s with
  | SSkip => Some W
  | SSeq a b => match lw_stmt i vs D W a with
                | Some W' => lw_stmt i vs D W' b
                | None => None
                end
  | SDecl (TScal _) x init =>
      if negb (String.eqb x i) && negb (inb x vs)
         && match init with Some e => lw_expr i vs e | None => true end
      then Some (x :: W) else None
  | SAssign x [] e => if inb x W && lw_expr i vs e then Some W else None
  | SAssign x [EVar j] e =>
      if String.eqb x D && inb x vs && String.eqb j i && lw_expr i vs e then Some W else None
  | SIf e a b =>
      if lw_expr i vs e then
        match lw_stmt i vs D W a, lw_stmt i vs D W b with
        | Some _, Some _ => Some W
        | _, _ => None
        end
      else None
  | SFor t j init cond next body =>
      if negb (String.eqb j i) && negb (inb j vs) && lw_expr i vs init
         && lw_expr i vs cond && lw_expr i vs next then
        match lw_stmt i vs D (j :: W) body with Some _ => Some W | None => None end
      else None
  | SAbort => Some W
  | _ => None
  end.

(** The one-lane version of a vector object, and of a function body. *)
Definition lane_of (k : nat) (o : obj) : obj :=
  match o with
  | OArr l => OArr [nth k l (OArr [])]
  | _ => o
  end.

Fixpoint one_lane_body (s : stmt) : stmt :=
  match s with
  | SSeq (SDecl (TArr n (TScal t)) x None) r =>
      SSeq (SDecl (TArr 1 (TScal t)) x None) (one_lane_body r)
  | SSeq (SFor t i a (EBin BLt j (ELit ty n)) nx body) (SReturn e) =>
      SSeq (SSeq (SDecl (TScal t) i (Some (ELit t 0))) (SIf (lit 1) body SSkip)) (SReturn e)
  | SSeq s r => SSeq s (one_lane_body r)
  | s => s
  end.

Definition one_lane (f : func) : func :=
  mkfunc (f_name f) (f_ret f) (f_params f) (one_lane_body (f_body f)).

(** The main loop and return statement. *)
Definition ew_loop (n : nat) (vs ns : list string) (D : string) (s : stmt) : bool :=
  match s with
  | SSeq (SFor t i (ELit I32 0) (EBin BLt (EVar i1) (ELit I32 z))
                (EBin BAdd (EVar i2) (ELit I32 1)) body) (SReturn (EVar d)) =>
      match t with I32 | U64 => true | _ => false end
      && String.eqb i i1 && String.eqb i i2 && String.eqb d D
      && (z =? Z.of_nat n) && negb (String.eqb i D) && inb D vs
      && negb (inb i vs) && negb (inb i ns)
      && match lw_stmt i vs D [] body with Some _ => true | None => false end
  | _ => false
  end.

(** Statements before the loop: declarations of scalars, the declaration of the
    result vector (exactly one; [seen] says whether it has been met), argument
    checks.  [ns] are the parameters' names. *)
Fixpoint ew_body (n : nat) (vs ns : list string) (D : string) (seen : bool) (W : list string)
  (s : stmt) : bool :=
  (seen && ew_loop n vs (W ++ ns) D s) ||
  match s with
  | SSeq (SDecl (TArr n' (TScal t)) x None) r =>
      negb seen && Nat.eqb n n' && String.eqb x D && ew_body n vs ns D true W r
  | SSeq a r =>
      match lw_stmt "" vs "" W a with
      | Some W' => ew_body n vs ns D seen W' r
      | None => false
      end
  | _ => false
  end.

(** The vector parameters. *)
Definition vec_params (ps : list (string * ty)) : list string :=
  map fst (filter (fun p => match snd p with TArr _ _ => true | _ => false end) ps).

(** The result variable: what the last statement returns. *)
Fixpoint result_var (s : stmt) : string :=
  match s with
  | SSeq _ r => result_var r
  | SReturn (EVar d) => d
  | _ => ""
  end.

Fixpoint nodupb (l : list string) : bool :=
  match l with [] => true | x :: l' => negb (inb x l') && nodupb l' end.

(** [ew n f]: [f] is element-wise on vectors of [n] lanes. *)
Definition ew (n : nat) (f : func) : bool :=
  let ps := f_params f in
  let D := result_var (f_body f) in
  Nat.ltb 0 n && Nat.ltb n loop_fuel
  && forallb (fun p => match snd p with
                       | TArr n' (TScal _) => Nat.eqb n n' | TScal _ => true
                       | _ => false end) ps
  && match f_ret f with TArr n' (TScal _) => Nat.eqb n n' | _ => false end
  && negb (inb "" (map fst ps)) && negb (inb "" [D])
  && nodupb (D :: map fst ps)
  && ew_body n (D :: vec_params ps) (map fst ps) D false [] (f_body f).

(** ** Simulation *)

Lemma inb_In x l : inb x l = true <-> In x l.
Proof.
  unfold inb. rewrite existsb_exists. split.
  - intros (y & H1 & H2). apply String.eqb_eq in H2. now subst.
  - intros H. exists x. split; [exact H | apply String.eqb_refl].
Qed.

Lemma inb_not_In x l : inb x l = false <-> ~ In x l.
Proof. rewrite <- inb_In. destruct (inb x l); intuition congruence. Qed.

Lemma set_nth_set_nth {A} k (a b : A) l : set_nth k a (set_nth k b l) = set_nth k a l.
Proof. revert k; induction l; intros [|k]; cbn; congruence. Qed.

Lemma nth_error_set_nth {A} k (a : A) l : (k < List.length l)%nat ->
  nth_error (set_nth k a l) k = Some a.
Proof. revert k; induction l; intros [|k] H; cbn in *; try lia; [reflexivity|apply IHl; lia]. Qed.

Lemma nth_set_nth_neq {A} k j (a d : A) l : k <> j -> nth j (set_nth k a l) d = nth j l d.
Proof. revert k j; induction l; intros [|k] [|j] H; cbn; try reflexivity; try lia; apply IHl; lia. Qed.

Lemma set_nth_nth {A} k (d : A) l : (k < List.length l)%nat -> set_nth k (nth k l d) l = l.
Proof. revert k; induction l; intros [|k] H; cbn in *; try lia; f_equal; apply IHl; lia. Qed.

Lemma get_idx_set_nth {A} k (a : A) l : (k < List.length l)%nat ->
  get_idx (set_nth k a l) (Z.of_nat k) = Ok a.
Proof.
  intros H. unfold get_idx. destruct (Z.ltb_spec (Z.of_nat k) 0); [lia|].
  rewrite Nat2Z.id, nth_error_set_nth by exact H. reflexivity.
Qed.

Notation names := (map (@fst string obj)).

Lemma names_update x o en : names (update x o en) = names en.
Proof. induction en as [|[y o'] en IH]; cbn; [reflexivity|]. destruct (String.eqb x y); cbn; congruence. Qed.

Lemma pop_app n (l1 l2 : env) : List.length l2 = n -> pop n (l1 ++ l2) = l2.
Proof.
  intros H. unfold pop. rewrite app_length, H.
  replace (List.length l1 + n - n)%nat with (List.length l1) by lia.
  rewrite skipn_app, skipn_all, Nat.sub_diag. reflexivity.
Qed.

Lemma names_split new (en : env) en' : names en' = new ++ names en ->
  exists l1 l2, en' = l1 ++ l2 /\ names l1 = new /\ names l2 = names en
                /\ List.length l2 = List.length en.
Proof.
  intros H. exists (firstn (List.length new) en'), (skipn (List.length new) en').
  assert (H2 : names (skipn (List.length new) en') = names en).
  { rewrite <- skipn_map, H, skipn_app, skipn_all, Nat.sub_diag. reflexivity. }
  split; [symmetry; apply firstn_skipn|]. split; [|split; [exact H2|]].
  - rewrite <- firstn_map, H, firstn_app, Nat.sub_diag, firstn_all. cbn. apply app_nil_r.
  - rewrite <- (map_length (@fst string obj) (skipn _ _)), H2, map_length. reflexivity.
Qed.

Section Sim.
  Variables (c : cfg) (cf : string -> obj -> res obj) (fuel : nat).
  Variables (i : string) (ti : sty) (vs : list string) (D : string) (k : nat)
            (full : string -> list obj).
  Hypothesis Hti : is_float ti = false.
  Hypothesis Hi : inb i vs = false.
  Hypothesis Hfull : forall v, In v vs -> (k < List.length (full v))%nat.

  Definition emb_obj (x : string) (o : obj) : obj :=
    if String.eqb x i then rv ti (Z.of_nat k)
    else if inb x vs then
      match o with OArr [o'] => OArr (set_nth k o' (full x)) | _ => o end
    else o.

  Definition emb (en : env) : env := map (fun p => (fst p, emb_obj (fst p) (snd p))) en.

  Definition wf1 (p : string * obj) : Prop :=
    (fst p = i -> snd p = rv ti 0)
    /\ (inb (fst p) vs = true -> exists o', snd p = OArr [o']).
  Definition wf (en : env) : Prop := Forall wf1 en.

  Lemma lookup_emb x en : lookup x (emb en) = option_map (emb_obj x) (lookup x en).
  Proof.
    induction en as [|[y o] en IH]; cbn; [reflexivity|].
    destruct (String.eqb_spec x y); [now subst | exact IH].
  Qed.

  Lemma update_emb x o en : update x (emb_obj x o) (emb en) = emb (update x o en).
  Proof.
    induction en as [|[y o'] en IH]; cbn; [reflexivity|].
    destruct (String.eqb_spec x y); cbn; [now subst | f_equal; exact IH].
  Qed.

  Lemma names_emb en : names (emb en) = names en.
  Proof. unfold emb. rewrite map_map. reflexivity. Qed.

  Lemma length_emb en : List.length (emb en) = List.length en.
  Proof. apply map_length. Qed.

  Lemma wf_lookup x o en : wf en -> lookup x en = Some o ->
    (x = i -> o = rv ti 0) /\ (inb x vs = true -> exists o', o = OArr [o']).
  Proof.
    induction 1 as [|[y o'] en H _ IH]; cbn; [discriminate|].
    destruct (String.eqb_spec x y); [|exact IH]. subst. injection 1 as <-. exact H.
  Qed.

  Lemma wf_update x o en : wf en -> wf1 (x, o) -> wf (update x o en).
  Proof.
    intros H Ho. induction H as [|[y o'] en H Hen IH]; cbn; [constructor|].
    destruct (String.eqb_spec x y); constructor; trivial. now subst.
  Qed.

  Lemma emb_obj_scalar x o : String.eqb x i = false -> inb x vs = false -> emb_obj x o = o.
  Proof. intros H1 H2. unfold emb_obj. now rewrite H1, H2. Qed.

  Lemma emb_obj_i o : emb_obj i o = rv ti (Z.of_nat k).
  Proof. unfold emb_obj. now rewrite String.eqb_refl. Qed.

  Lemma emb_obj_vec x o : inb x vs = true -> emb_obj x (OArr [o]) = OArr (set_nth k o (full x)).
  Proof.
    intros H. unfold emb_obj. rewrite H. destruct (String.eqb_spec x i) as [->|]; [|reflexivity].
    rewrite Hi in H. discriminate H.
  Qed.

  Lemma eval_emb m en : wf en -> forall e, lw_expr i vs e = true ->
    eval c cf (emb en) m e = eval c cf en m e.
  Proof.
    intros Hwf. induction e; cbn [lw_expr eval]; intros H;
      rewrite ?andb_true_iff in H;
      try (rewrite ?IHe by tauto; rewrite ?IHe1 by tauto; rewrite ?IHe2 by tauto;
           rewrite ?IHe3 by tauto; reflexivity).
    - rewrite lookup_emb. rewrite !negb_true_iff in H. destruct H as [H1 H2].
      destruct (lookup x en); cbn; [|reflexivity]. now rewrite emb_obj_scalar.
    - destruct e1; try discriminate. destruct e2; try discriminate.
      apply andb_true_iff in H. destruct H as [Hv Hj]. apply String.eqb_eq in Hj. subst x0.
      cbn [eval]. rewrite !lookup_emb.
      destruct (lookup x en) as [o|] eqn:Ex; cbn [option_map bind]; [|reflexivity].
      destruct (wf_lookup _ _ _ Hwf Ex) as [_ Hx]. destruct (Hx Hv) as [o' ->].
      destruct (lookup i en) as [oi|] eqn:Ei; cbn [option_map bind]; [|reflexivity].
      destruct (wf_lookup _ _ _ Hwf Ei) as [Hi0 _]. rewrite (Hi0 eq_refl).
      rewrite emb_obj_i, emb_obj_vec by exact Hv.
      unfold int_value. cbn [rv scalar bind fst snd]. rewrite Hti. cbn [bind index].
      rewrite get_idx_set_nth by (apply Hfull; now apply inb_In). reflexivity.
  Qed.

  Definition sim (W' : list string) (en : env) (m : memory) (small big : res ctl) : Prop :=
    match small with
    | Err e => big = Err e
    | Ok (Normal en' m') =>
        big = Ok (Normal (emb en') m') /\ wf en' /\ m' = m
        /\ (exists new, names en' = new ++ names en /\ forall x, In x new -> inb x vs = false /\ x <> i /\ In x W')
    | Ok (Returned _ _) => False
    end.

  Definition okW (W : list string) : Prop := forall x, In x W -> inb x vs = false /\ x <> i.

  Lemma lw_stmt_okW : forall s W W', lw_stmt i vs D W s = Some W' -> okW W -> okW W'.
  Proof.
    induction s; cbn [lw_stmt]; intros W W' H HW.
    - now injection H as <-.
    - destruct (lw_stmt i vs D W s1) eqn:E1; [|discriminate]. eauto.
    - destruct t; try discriminate.
      destruct (negb (String.eqb x i) && negb (inb x vs) && _) eqn:E; [|discriminate].
      injection H as <-. rewrite !andb_true_iff, !negb_true_iff in E. destruct E as [[E1 E2] _].
      intros y [<-|Hy]; [|now apply HW]. split; [exact E2 | now apply String.eqb_neq].
    - destruct path as [|p [|]]; [| |destruct p; discriminate].
      + destruct (inb x W && lw_expr i vs e); [|discriminate]. now injection H as <-.
      + destruct p; try discriminate.
        destruct (_ && _ && _ && _); [|discriminate]. now injection H as <-.
    - destruct (lw_expr i vs e); [|discriminate].
      destruct (lw_stmt i vs D W s1); [|discriminate]. destruct (lw_stmt i vs D W s2); [|discriminate].
      now injection H as <-.
    - destruct (_ && _ && _ && _ && _); [|discriminate].
      destruct (lw_stmt i vs D (i0 :: W) s); [|discriminate]. now injection H as <-.
    - discriminate.
    - now injection H as <-.
    - discriminate.
  Qed.

  Lemma lw_stmt_mono : forall s W W' x, lw_stmt i vs D W s = Some W' -> In x W -> In x W'.
  Proof.
    induction s; cbn [lw_stmt]; intros W W' y H HW.
    - now injection H as <-.
    - destruct (lw_stmt i vs D W s1) eqn:E1; [|discriminate]. eauto.
    - destruct t; try discriminate.
      destruct (negb (String.eqb x i) && negb (inb x vs) && _) eqn:E; [|discriminate].
      injection H as <-. now right.
    - destruct path as [|p [|]]; [| |destruct p; discriminate].
      + destruct (inb x W && lw_expr i vs e); [|discriminate]. now injection H as <-.
      + destruct p; try discriminate.
        destruct (_ && _ && _ && _); [|discriminate]. now injection H as <-.
    - destruct (lw_expr i vs e); [|discriminate].
      destruct (lw_stmt i vs D W s1); [|discriminate]. destruct (lw_stmt i vs D W s2); [|discriminate].
      now injection H as <-.
    - destruct (_ && _ && _ && _ && _); [|discriminate].
      destruct (lw_stmt i vs D (i0 :: W) s); [|discriminate]. now injection H as <-.
    - discriminate.
    - now injection H as <-.
    - discriminate.
  Qed.

  Lemma scalar_init t o o' : init_obj c (TScal t) o = Ok o' -> exists z, o' = rv t z.
  Proof.
    cbn. destruct (scalar o) as [p|]; cbn; [|discriminate].
    destruct (convert c (fst p) t (snd p)); cbn; [|discriminate]. intros [= <-]. eauto.
  Qed.

  (** Assignment to a scalar variable. *)
  Lemma assign_scalar_sim en m x v : wf en -> inb x vs = false -> x <> i ->
    match assign c en m x [] v with
    | Err e => assign c (emb en) m x [] v = Err e
    | Ok (en', m') => assign c (emb en) m x [] v = Ok (emb en', m') /\ wf en' /\ m' = m
                      /\ names en' = names en
    end.
  Proof.
    intros Hwf Hv Hx. unfold assign. destruct (scalar v) as [p|]; cbn [bind]; [|reflexivity].
    rewrite lookup_emb. destruct (lookup x en) as [o|] eqn:El; cbn [option_map]; [|reflexivity].
    rewrite emb_obj_scalar by (try assumption; now apply String.eqb_neq).
    destruct o; cbn [put bind]; try reflexivity.
    destruct (convert c (fst p) t (snd p)) as [z|]; cbn [bind]; [|reflexivity].
    split; [|split; [|split; [reflexivity|apply names_update]]].
    - rewrite <- update_emb. now rewrite emb_obj_scalar by (try assumption; now apply String.eqb_neq).
    - apply wf_update; [exact Hwf|]. split; cbn; [congruence | rewrite Hv; discriminate].
  Qed.

  (** Assignment to lane [i] of a vector. *)
  Lemma assign_lane_sim en m x v : wf en -> inb x vs = true ->
    lookup i en = Some (rv ti 0) ->
    match assign c en m x [0] v with
    | Err e => assign c (emb en) m x [Z.of_nat k] v = Err e
    | Ok (en', m') => assign c (emb en) m x [Z.of_nat k] v = Ok (emb en', m') /\ wf en' /\ m' = m
                      /\ names en' = names en
    end.
  Proof.
    intros Hwf Hv _. unfold assign. destruct (scalar v) as [p|]; cbn [bind]; [|reflexivity].
    rewrite lookup_emb. destruct (lookup x en) as [o|] eqn:El; cbn [option_map]; [|reflexivity].
    destruct (wf_lookup _ _ _ Hwf El) as [_ Hx]. destruct (Hx Hv) as [o' ->].
    rewrite emb_obj_vec by exact Hv. cbn [put].
    rewrite get_idx_set_nth by (apply Hfull; now apply inb_In).
    change (get_idx [o'] 0) with (Ok o'). cbn [bind].
    destruct o'; cbn [put bind]; try reflexivity.
    destruct (convert c (fst p) t (snd p)) as [z|]; cbn [bind]; [|reflexivity].
    cbn [Z.to_nat set_nth]. rewrite Nat2Z.id, set_nth_set_nth.
    split; [|split; [|split; [reflexivity|apply names_update]]].
    - rewrite <- update_emb. now rewrite emb_obj_vec.
    - apply wf_update; [exact Hwf|]. split; cbn; [|eauto].
      intros ->. congruence.
  Qed.

  Lemma wf_app l1 l2 : wf (l1 ++ l2) <-> wf l1 /\ wf l2.
  Proof. apply Forall_app. Qed.

  Lemma emb_app l1 l2 : emb (l1 ++ l2) = emb l1 ++ emb l2.
  Proof. apply map_app. Qed.

  (** Leaving a block. *)
  Lemma sim_pop W1 W2 en m small big : sim W1 en m small big ->
    sim W2 en m (let* r := small in Ok (pop_ctl (List.length en) r))
             (let* r := big in Ok (pop_ctl (List.length (emb en)) r))
    /\ forall en' m', (let* r := small in Ok (pop_ctl (List.length en) r)) = Ok (Normal en' m') ->
         names en' = names en.
  Proof.
    unfold sim. destruct small as [[en' m'|v m']|e]; cbn [bind]; [|easy|].
    - intros (-> & Hwf & -> & new & Hnew & HW). cbn [bind pop_ctl].
      destruct (names_split new en en' Hnew) as (l1 & l2 & -> & Hl1 & Hl2 & Hlen).
      rewrite pop_app by exact Hlen. rewrite emb_app, pop_app by (now rewrite !length_emb).
      apply wf_app in Hwf. split.
      + split; [reflexivity|]. split; [tauto|]. split; [reflexivity|].
        exists []. split; [exact Hl2 | intros ? []].
      + intros ? ? [= <- <-]. exact Hl2.
    - intros ->. split; [reflexivity | discriminate].
  Qed.

  Theorem exec_emb : forall s W W' en m,
    lw_stmt i vs D W s = Some W' -> okW W -> wf en ->
    sim W' en m (exec c cf fuel s en m) (exec c cf fuel s (emb en) m).
  Proof.
    induction s; cbn [lw_stmt]; intros W W' en m H HW Hwf.
    - (* skip *) cbn. split; [reflexivity|]. split; [exact Hwf|]. split; [reflexivity|].
      exists []. split; [reflexivity | intros ? []].
    - (* seq *)
      destruct (lw_stmt i vs D W s1) as [W1|] eqn:E1; [|discriminate].
      specialize (IHs1 _ _ en m E1 HW Hwf). cbn [exec]. unfold sim in IHs1 at 1.
      destruct (exec c cf fuel s1 en m) as [[en1 m1|]|e]; cbn [bind]; [|easy|].
      + destruct IHs1 as (-> & Hwf1 & -> & new & Hnew & HWn). cbn [bind].
        specialize (IHs2 _ _ en1 m H (lw_stmt_okW _ _ _ E1 HW) Hwf1).
        unfold sim in *. destruct (exec c cf fuel s2 en1 m) as [[en2 m2|]|e]; [|easy|easy].
        destruct IHs2 as (-> & Hwf2 & -> & new2 & Hnew2 & HWn2).
        split; [reflexivity|]. split; [exact Hwf2|]. split; [reflexivity|].
        exists (new2 ++ new). split; [now rewrite Hnew2, Hnew, app_assoc|].
        intros x Hx. apply in_app_or in Hx. destruct Hx as [Hx|Hx]; [auto|].
        destruct (HWn x Hx) as (? & ? & ?). repeat split; trivial. eapply lw_stmt_mono; eauto.
      + rewrite IHs1. reflexivity.
    - (* decl *)
      destruct t; try discriminate.
      destruct (negb (String.eqb x i) && negb (inb x vs) && _) eqn:E; [|discriminate].
      rewrite !andb_true_iff, !negb_true_iff in E. destruct E as [[Ex1 Ex2] Ee].
      assert (Hone : forall o, sim W' en m (Ok (Normal ((x, o) :: en) m)) (Ok (Normal ((x, o) :: emb en) m))).
      { intros o. cbn. rewrite emb_obj_scalar by assumption. split; [reflexivity|].
        split; [constructor; [|exact Hwf]; split; cbn; [intros ->; now rewrite String.eqb_refl in Ex1|congruence]|].
        split; [reflexivity|]. exists [x]. split; [reflexivity|].
        intros y [<-|[]]. split; [exact Ex2 | split; [now apply String.eqb_neq|]].
        injection H as <-. now left. }
      destruct init as [e|]; cbn [exec]; [|apply Hone].
      rewrite (eval_emb m en Hwf e Ee).
      destruct (eval c cf en m e) as [o|]; cbn [bind]; [|reflexivity].
      destruct (init_obj c (TScal t) o); cbn [bind]; [apply Hone | reflexivity].
    - (* assign *)
      destruct path as [|p [|]]; [| |destruct p; discriminate].
      + destruct (inb x W && lw_expr i vs e) eqn:E; [|discriminate].
        apply andb_true_iff in E. destruct E as [Ex Ee]. apply inb_In in Ex.
        destruct (HW x Ex) as [Hx1 Hx2].
        cbn [exec eval_path bind]. rewrite (eval_emb m en Hwf e Ee).
        destruct (eval c cf en m e) as [o|]; cbn [bind]; [|reflexivity].
        pose proof (assign_scalar_sim en m x o Hwf Hx1 Hx2) as Ha.
        destruct (assign c en m x [] o) as [[en' m']|e']; cbn [bind fst snd].
        * destruct Ha as (-> & Hw & -> & Hn). cbn. split; [reflexivity|]. split; [exact Hw|].
          split; [reflexivity|]. exists []. split; [exact Hn | intros ? []].
        * now rewrite Ha.
      + destruct p; try discriminate.
        destruct (_ && _ && _ && _) eqn:E; [|discriminate].
        rewrite !andb_true_iff in E. destruct E as [[[Ex Exv] Ej] Ee].
        apply String.eqb_eq in Ej. subst x0.
        cbn [exec eval_path eval]. rewrite lookup_emb.
        destruct (lookup i en) as [oi|] eqn:El; cbn [option_map bind]; [|reflexivity].
        destruct (wf_lookup _ _ _ Hwf El) as [Hi0 _]. rewrite (Hi0 eq_refl) in *.
        rewrite emb_obj_i.
        unfold int_value. cbn [rv scalar bind fst snd]. rewrite Hti. cbn [bind].
        rewrite (eval_emb m en Hwf e Ee).
        destruct (eval c cf en m e) as [o|]; cbn [bind]; [|reflexivity].
        pose proof (assign_lane_sim en m x o Hwf Exv El) as Ha.
        destruct (assign c en m x [0] o) as [[en' m']|e']; cbn [bind fst snd].
        * destruct Ha as (-> & Hw & -> & Hn). cbn. split; [reflexivity|]. split; [exact Hw|].
          split; [reflexivity|]. exists []. split; [exact Hn | intros ? []].
        * now rewrite Ha.
    - (* if *)
      destruct (lw_expr i vs e) eqn:Ee; [|discriminate].
      destruct (lw_stmt i vs D W s1) eqn:E1; [|discriminate].
      destruct (lw_stmt i vs D W s2) eqn:E2; [|discriminate].
      cbn [exec]. rewrite (eval_emb m en Hwf e Ee).
      destruct (eval c cf en m e) as [o|]; cbn [bind]; [|reflexivity].
      destruct (cond_value o) as [b|]; cbn [bind]; [|reflexivity].
      destruct b; eapply sim_pop; eauto.
    - (* for *)
      destruct (negb (String.eqb i0 i) && negb (inb i0 vs) && lw_expr i vs init
                && lw_expr i vs cond && lw_expr i vs next) eqn:E; [|discriminate].
      rewrite !andb_true_iff, !negb_true_iff in E.
      destruct E as [[[[Ei1 Ei2] Einit] Econd] Enext].
      destruct (lw_stmt i vs D (i0 :: W) s) as [W1|] eqn:E1; [|discriminate].
      cbn [exec]. rewrite (eval_emb m en Hwf init Einit).
      destruct (eval c cf en m init) as [o|]; cbn [bind]; [|reflexivity].
      destruct (init_obj c (TScal t) o) as [o'|] eqn:Eo; cbn [bind]; [|reflexivity].
      assert (HW1 : okW (i0 :: W)).
      { intros y [<-|Hy]; [|auto]. split; [exact Ei2 | now apply String.eqb_neq]. }
      assert (Hloop : forall fl en1, wf en1 -> names en1 = i0 :: names en ->
        match
          loop fl (fun en m => let* o := eval c cf en m cond in cond_value o)
            (fun en m =>
               let* r := exec c cf fuel s en m in
               match pop_ctl (List.length en) r with
               | Normal en' m' =>
                   let* v := eval c cf en' m' next in
                   let* r := assign c en' m' i0 [] v in
                   Ok (Normal (fst r) (snd r))
               | Returned v m' => Ok (Returned v m')
               end) en1 m
        with
        | Err e => loop fl (fun en m => let* o := eval c cf en m cond in cond_value o)
            (fun en m =>
               let* r := exec c cf fuel s en m in
               match pop_ctl (List.length en) r with
               | Normal en' m' =>
                   let* v := eval c cf en' m' next in
                   let* r := assign c en' m' i0 [] v in
                   Ok (Normal (fst r) (snd r))
               | Returned v m' => Ok (Returned v m')
               end) (emb en1) m = Err e
        | Ok (Normal en' m') => loop fl (fun en m => let* o := eval c cf en m cond in cond_value o)
            (fun en m =>
               let* r := exec c cf fuel s en m in
               match pop_ctl (List.length en) r with
               | Normal en' m' =>
                   let* v := eval c cf en' m' next in
                   let* r := assign c en' m' i0 [] v in
                   Ok (Normal (fst r) (snd r))
               | Returned v m' => Ok (Returned v m')
               end) (emb en1) m = Ok (Normal (emb en') m') /\ wf en' /\ m' = m /\ names en' = i0 :: names en
        | Ok (Returned _ _) => False
        end).
      { induction fl as [|fl IHfl]; intros en1 Hwf1 Hn1; cbn [loop]; [reflexivity|].
        rewrite (eval_emb m en1 Hwf1 cond Econd).
        destruct (eval c cf en1 m cond) as [oc|]; cbn [bind]; [|reflexivity].
        destruct (cond_value oc) as [b|]; cbn [bind]; [|reflexivity].
        destruct b; [|now auto].
        pose proof (IHs _ _ en1 m E1 HW1 Hwf1) as Hs.
        destruct (sim_pop _ W _ _ _ _ Hs) as [Hp Hpn].
        unfold sim in Hp.
        destruct (exec c cf fuel s en1 m) as [r|e]; cbn [bind] in *.
        - destruct (pop_ctl (List.length en1) r) as [en2 m2|]; [|easy].
          destruct Hp as (Hb & Hwf2 & -> & _).
          destruct (exec c cf fuel s (emb en1) m) as [rb|]; cbn [bind] in *; [|discriminate].
          injection Hb as ->.
          rewrite (eval_emb m en2 Hwf2 next Enext).
          destruct (eval c cf en2 m next) as [ov|]; cbn [bind]; [|reflexivity].
          pose proof (assign_scalar_sim en2 m i0 ov Hwf2 Ei2 ltac:(now apply String.eqb_neq)) as Ha.
          destruct (assign c en2 m i0 [] ov) as [[en3 m3]|e']; cbn [bind fst snd].
          + destruct Ha as (-> & Hw & -> & Hn). cbn [bind fst snd].
            apply IHfl; [exact Hw|]. rewrite Hn, (Hpn _ _ eq_refl). exact Hn1.
          + rewrite Ha. reflexivity.
        - destruct (exec c cf fuel s (emb en1) m); cbn [bind] in *; [discriminate|].
          injection Hp as ->. reflexivity. }
      assert (Hwf0 : wf ((i0, o') :: en)).
      { constructor; [|exact Hwf]. split; cbn; [intros ->; now rewrite String.eqb_refl in Ei1|congruence]. }
      specialize (Hloop fuel ((i0, o') :: en) Hwf0 eq_refl).
      cbn [emb map fst snd] in Hloop. rewrite emb_obj_scalar in Hloop by assumption.
      fold (emb en) in Hloop.
      apply sim_pop with (W1 := i0 :: W).
      destruct (loop _ _ _ ((i0, o') :: en) m) as [[en' m'|]|e]; [|easy|exact Hloop].
      destruct Hloop as (-> & Hw & -> & Hn). split; [reflexivity|]. split; [exact Hw|].
      split; [reflexivity|]. exists [i0]. split; [exact Hn|].
      intros y [<-|[]]. split; [exact Ei2 | split; [now apply String.eqb_neq | now left]].
    - discriminate.
    - (* abort *) reflexivity.
    - discriminate.
  Qed.
End Sim.

(** ** Frame: what an element-wise body leaves alone *)

Section Frame.
  Variables (c : cfg) (cf : string -> obj -> res obj) (fuel : nat).
  Variables (i : string) (vs : list string) (D : string).
  Hypothesis HD : inb D vs = true.

  Definition upd (en en' : env) : Prop := en' = en \/ exists o, en' = update D o en.

  Lemma update_update x o o' en : update x o (update x o' en) = update x o en.
  Proof.
    induction en as [|[y oy] en IH]; cbn; [reflexivity|].
    destruct (String.eqb x y) eqn:E; cbn; rewrite E; congruence.
  Qed.

  Lemma upd_trans a b d : upd a b -> upd b d -> upd a d.
  Proof.
    intros [->|[o ->]] [->|[o' ->]]; unfold upd; eauto.
    rewrite update_update. eauto.
  Qed.

  Lemma update_app_l x o l1 l2 : In x (names l1) -> update x o (l1 ++ l2) = update x o l1 ++ l2.
  Proof.
    induction l1 as [|[y oy] l1 IH]; cbn; [easy|]. intros H.
    destruct (String.eqb_spec x y); [reflexivity|]. cbn. rewrite IH; [reflexivity|].
    destruct H; [congruence|exact H].
  Qed.

  Lemma update_app_r x o l1 l2 : ~ In x (names l1) -> update x o (l1 ++ l2) = l1 ++ update x o l2.
  Proof.
    induction l1 as [|[y oy] l1 IH]; cbn; [easy|]. intros H.
    destruct (String.eqb_spec x y); [exfalso; apply H; left; congruence|].
    cbn. f_equal. apply IH. tauto.
  Qed.

  Definition framed (W' : list string) (loc en0 en' : env) : Prop :=
    exists loc' en0', en' = loc' ++ en0' /\ upd en0 en0'
      /\ (exists new, names loc' = new ++ names loc)
      /\ (forall x, In x W' -> In x (names loc')) /\ ~ In D (names loc').

  Lemma assign_env en m x path v en' m' :
    assign c en m x path v = Ok (en', m') -> en' = en \/ exists o, en' = update x o en.
  Proof.
    unfold assign. destruct (scalar v) as [p|]; cbn [bind]; [|discriminate].
    destruct (lookup x en) as [o|]; [|discriminate].
    destruct o.
    - destruct (put c _ _ _ _) as [o'|]; cbn [bind]; [|discriminate]. intros [= <- <-]. eauto.
    - destruct (put c _ _ _ _) as [o'|]; cbn [bind]; [|discriminate]. intros [= <- <-]. eauto.
    - destruct path as [|? [|]]; try discriminate.
      destruct (convert c (fst p) t (snd p)); cbn [bind]; [|discriminate].
      destruct (mem_write m t b _ _); cbn [bind]; [|discriminate]. intros [= <- <-]. eauto.
  Qed.

  Lemma framed_pop W1 W2 loc en0 en1 : framed W1 loc en0 en1 ->
    (forall x, In x W2 -> In x (names loc)) -> ~ In D (names loc) ->
    framed W2 loc en0 (pop (List.length (loc ++ en0)) en1)
    /\ exists loc' en0', pop (List.length (loc ++ en0)) en1 = loc' ++ en0' /\ upd en0 en0' /\ names loc' = names loc.
  Proof.
    intros (loc' & en0' & -> & Hu & (new & Hnew) & _ & _) HW HDl.
    destruct (names_split new loc loc' Hnew) as (l1 & l2 & -> & Hl1 & Hl2 & Hlen).
    assert (Hlen0 : List.length en0' = List.length en0).
    { destruct Hu as [->|[o ->]]; [reflexivity|].
      rewrite <- (map_length (@fst string obj)), names_update, map_length. reflexivity. }
    rewrite <- app_assoc. rewrite pop_app by (rewrite !app_length; lia). split.
    - exists l2, en0'. split; [reflexivity|]. split; [exact Hu|]. split; [exists []; exact Hl2|].
      rewrite Hl2. auto.
    - exists l2, en0'. auto.
  Qed.

  Lemma framed_upd W loc en0 x o : In x (names loc) \/ x = D ->
    (forall y, In y W -> In y (names loc)) -> ~ In D (names loc) ->
    framed W loc en0 (update x o (loc ++ en0)).
  Proof.
    intros [Hx| ->] HW HDl.
    - rewrite update_app_l by exact Hx. exists (update x o loc), en0. split; [reflexivity|].
      split; [now left|]. rewrite !names_update. split; [now exists []|]. auto.
    - rewrite update_app_r by exact HDl. exists loc, (update D o en0). split; [reflexivity|].
      split; [right; eauto|]. split; [now exists []|]. auto.
  Qed.

  Lemma framed_refl W loc en0 : (forall y, In y W -> In y (names loc)) -> ~ In D (names loc) ->
    framed W loc en0 (loc ++ en0).
  Proof. intros HW HDl. exists loc, en0. split; [reflexivity|]. split; [now left|]. split; [now exists []|]. auto. Qed.

  Theorem exec_frame : forall s W W' loc en0 m en' m',
    lw_stmt i vs D W s = Some W' ->
    (forall x, In x W -> In x (names loc)) -> ~ In D (names loc) ->
    exec c cf fuel s (loc ++ en0) m = Ok (Normal en' m') ->
    framed W' loc en0 en'.
  Proof.
    induction s; cbn [lw_stmt]; intros W W' loc en0 m en' m' H HW HDl Hex.
    - cbn in Hex. injection Hex as <- <-. injection H as <-. now apply framed_refl.
    - destruct (lw_stmt i vs D W s1) as [W1|] eqn:E1; [|discriminate].
      cbn [exec] in Hex.
      destruct (exec c cf fuel s1 (loc ++ en0) m) as [[en1 m1|]|] eqn:Ex1; cbn [bind] in Hex; try discriminate.
      destruct (IHs1 _ _ _ _ _ _ _ E1 HW HDl Ex1) as (loc1 & en01 & -> & Hu1 & (new1 & Hn1) & HW1 & HD1).
      destruct (IHs2 _ _ _ _ _ _ _ H HW1 HD1 Hex) as (loc2 & en02 & -> & Hu2 & (new2 & Hn2) & HW2 & HD2).
      exists loc2, en02. split; [reflexivity|]. split; [eapply upd_trans; eauto|].
      split; [exists (new2 ++ new1); now rewrite Hn2, Hn1, app_assoc|]. auto.
    - destruct t; try discriminate.
      destruct (negb (String.eqb x i) && negb (inb x vs) && _) eqn:E; [|discriminate].
      injection H as <-. rewrite !andb_true_iff, !negb_true_iff in E. destruct E as [[E1 E2] _].
      assert (Hone : forall o, framed (x :: W) loc en0 ((x, o) :: loc ++ en0)).
      { intros o. exists ((x, o) :: loc), en0. split; [reflexivity|]. split; [now left|].
        split; [now exists [x]|]. split; cbn.
        - intros y [<-|Hy]; auto.
        - intros [->|Hy]; [congruence|auto]. }
      destruct init; cbn [exec] in Hex.
      + destruct (eval c cf (loc ++ en0) m e); cbn [bind] in Hex; [|discriminate].
        destruct (init_obj c (TScal t) a); cbn [bind] in Hex; [|discriminate].
        injection Hex as <- <-. apply Hone.
      + injection Hex as <- <-. apply Hone.
    - cbn [exec] in Hex.
      destruct (eval_path c cf (loc ++ en0) m path) as [ks|]; cbn [bind] in Hex; [|discriminate].
      destruct (eval c cf (loc ++ en0) m e) as [v|]; cbn [bind] in Hex; [|discriminate].
      destruct (assign c (loc ++ en0) m x ks v) as [[en1 m1]|] eqn:Ea; cbn [bind fst snd] in Hex; [|discriminate].
      injection Hex as -> ->.
      assert (Hx : In x (names loc) \/ x = D).
      { destruct path as [|p [|]]; [| |destruct p; discriminate].
        - destruct (inb x W && lw_expr i vs e) eqn:E; [|discriminate].
          apply andb_true_iff in E. left. apply HW, inb_In. tauto.
        - destruct p; try discriminate. destruct (_ && _ && _ && _) eqn:E; [|discriminate].
          rewrite !andb_true_iff in E. right. apply String.eqb_eq. tauto. }
      assert (HW2 : W' = W).
      { destruct path as [|p [|]]; [| |destruct p; discriminate].
        - destruct (_ && _); [|discriminate]. congruence.
        - destruct p; try discriminate. destruct (_ && _ && _ && _); [|discriminate]. congruence. }
      subst W'. destruct (assign_env _ _ _ _ _ _ _ Ea) as [->|[o ->]].
      + now apply framed_refl.
      + now apply framed_upd.
    - destruct (lw_expr i vs e); [|discriminate].
      destruct (lw_stmt i vs D W s1) as [W1|] eqn:E1; [|discriminate].
      destruct (lw_stmt i vs D W s2) as [W2|] eqn:E2; [|discriminate].
      injection H as <-. cbn [exec] in Hex.
      destruct (eval c cf (loc ++ en0) m e) as [o|]; cbn [bind] in Hex; [|discriminate].
      destruct (cond_value o) as [b|]; cbn [bind] in Hex; [|discriminate].
      destruct (if b then _ else _) as [[en1 m1|]|] eqn:Eb; cbn [bind pop_ctl] in Hex; try discriminate.
      injection Hex as <- <-.
      destruct b; [destruct (framed_pop W1 W loc en0 en1) | destruct (framed_pop W2 W loc en0 en1)]; eauto.
    - destruct (_ && _ && _ && _ && _) eqn:E; [|discriminate].
      rewrite !andb_true_iff, !negb_true_iff in E. destruct E as [[[[Ei1 Ei2] _] _] _].
      destruct (lw_stmt i vs D (i0 :: W) s) as [W1|] eqn:E1; [|discriminate].
      injection H as <-. cbn [exec] in Hex.
      destruct (eval c cf (loc ++ en0) m init) as [o|]; cbn [bind] in Hex; [|discriminate].
      destruct (init_obj c (TScal t) o) as [o'|]; cbn [bind] in Hex; [|discriminate].
      assert (Hloop : forall fl loc1 en01 m1 en2 m2, names loc1 = i0 :: names loc -> upd en0 en01 ->
        loop fl (fun en m => let* o := eval c cf en m cond in cond_value o)
            (fun en m =>
               let* r := exec c cf fuel s en m in
               match pop_ctl (List.length en) r with
               | Normal en' m' =>
                   let* v := eval c cf en' m' next in
                   let* r := assign c en' m' i0 [] v in
                   Ok (Normal (fst r) (snd r))
               | Returned v m' => Ok (Returned v m')
               end) (loc1 ++ en01) m1 = Ok (Normal en2 m2) ->
        exists loc2 en02, en2 = loc2 ++ en02 /\ upd en0 en02 /\ names loc2 = i0 :: names loc).
      { induction fl as [|fl IHfl]; intros loc1 en01 m1 en2 m2 Hn1 Hu1 Hl; cbn [loop] in Hl; [discriminate|].
        destruct (eval c cf (loc1 ++ en01) m1 cond) as [oc|]; cbn [bind] in Hl; [|discriminate].
        destruct (cond_value oc) as [b|]; cbn [bind] in Hl; [|discriminate].
        destruct b; [|injection Hl as <- <-; eauto].
        destruct (exec c cf fuel s (loc1 ++ en01) m1) as [[en3 m3|]|] eqn:Es; cbn [bind pop_ctl] in Hl; try discriminate.
        assert (Hf : framed W1 loc1 en01 en3).
        { eapply (IHs _ _ loc1 en01); [exact E1 | | |exact Es]; rewrite Hn1.
          - intros y [<-|Hy]; [now left | right; auto].
          - intros [->|Hy]; [congruence | auto]. }
        destruct (framed_pop W1 [] loc1 en01 en3 Hf) as (_ & loc3 & en03 & Hpop & Hu3 & Hn3).
        { intros ? []. } { rewrite Hn1. intros [->|Hy]; [congruence | auto]. }
        rewrite Hpop in Hl.
        destruct (eval c cf (loc3 ++ en03) m3 next) as [v|]; cbn [bind] in Hl; [|discriminate].
        destruct (assign c (loc3 ++ en03) m3 i0 [] v) as [[en4 m4]|] eqn:Ea; cbn [bind fst snd] in Hl; [|discriminate].
        destruct (assign_env _ _ _ _ _ _ _ Ea) as [->|[o1 ->]].
        - eapply IHfl; [| |exact Hl]; [congruence | eapply upd_trans; eauto].
        - rewrite update_app_l in Hl by (rewrite Hn3, Hn1; now left).
          eapply IHfl; [| |exact Hl]; [rewrite names_update; congruence | eapply upd_trans; eauto]. }
      destruct (loop fuel _ _ ((i0, o') :: loc ++ en0) m) as [[en1 m1|]|] eqn:El; cbn [bind pop_ctl] in Hex; try discriminate.
      injection Hex as <- <-.
      destruct (Hloop fuel ((i0, o') :: loc) en0 m en1 m1 eq_refl (or_introl eq_refl) El)
        as (loc2 & en02 & -> & Hu2 & Hn2).
      eapply (framed_pop (i0 :: W)); [|assumption|assumption].
      exists loc2, en02. split; [reflexivity|]. split; [exact Hu2|]. split; [now exists [i0]|].
      rewrite Hn2. split.
      + intros y [<-|Hy]; [now left | right; auto].
      + intros [->|Hy]; [congruence | auto].
    - discriminate.
    - discriminate.
    - discriminate.
  Qed.
End Frame.

(** ** The main loop *)

Definition lane_result (D : string) (len : nat) (r : res ctl) : res obj :=
  let* r := r in
  match pop_ctl len r with
  | Normal (_ :: en') _ =>
      match lookup D en' with Some (OArr [o]) => Ok o | _ => Err EStuck end
  | _ => Err EStuck
  end.

Definition uniq (D : string) (l : list string) : Prop :=
  exists p q, l = p ++ D :: q /\ ~ In D p /\ ~ In D q.

Lemma uniq_In D l : uniq D l -> In D l.
Proof. intros (p & q & -> & _). apply in_or_app. right. now left. Qed.

Lemma lookup_In x (en : env) : In x (names en) -> exists o, lookup x en = Some o.
Proof.
  induction en as [|[y o] en IH]; cbn; [easy|]. intros H.
  destruct (String.eqb_spec x y); [eauto|]. apply IH. destruct H; [congruence|exact H].
Qed.

Lemma lookup_update x o en : In x (names en) -> lookup x (update x o en) = Some o.
Proof.
  induction en as [|[y o'] en IH]; cbn; [easy|]. intros H.
  destruct (String.eqb_spec x y) as [->|Hn]; cbn.
  - now rewrite String.eqb_refl.
  - destruct (String.eqb_spec x y); [easy|]. apply IH. destruct H; [congruence|exact H].
Qed.

Lemma update_same x o en : lookup x en = Some o -> update x o en = en.
Proof.
  induction en as [|[y o'] en IH]; cbn; [easy|].
  destruct (String.eqb_spec x y) as [->|Hn]; [now intros [= ->]|]. intros H. now rewrite IH.
Qed.

Lemma emb_full_ext i ti vs k full full' en :
  (forall x, In x (names en) -> full x = full' x) ->
  emb i ti vs k full en = emb i ti vs k full' en.
Proof.
  intros H. unfold emb. apply map_ext_in. intros [x o] Hin. cbn. f_equal.
  unfold emb_obj. destruct (String.eqb x i); [reflexivity|]. destruct (inb x vs); [|reflexivity].
  rewrite H; [reflexivity|]. apply (in_map fst _ _ Hin).
Qed.

Lemma emb_update_full i ti vs k full full' D o en :
  inb D vs = true -> inb i vs = false -> uniq D (names en) ->
  (forall x, x <> D -> full' x = full x) ->
  emb i ti vs k full' (update D (OArr [o]) en)
  = update D (OArr (set_nth k o (full' D))) (emb i ti vs k full en).
Proof.
  intros HD Hi (p & q & Hn & Hp & Hq) Hf.
  rewrite <- update_emb. rewrite emb_obj_vec by assumption.
  revert p Hn Hp. induction en as [|[y oy] en IH]; intros p Hn Hp.
  - destruct p; discriminate.
  - cbn. destruct (String.eqb_spec D y) as [->|Hne].
    + f_equal. destruct p as [|y' p]; [|exfalso; apply Hp; left; injection Hn; congruence].
      injection Hn as Hn. apply (emb_full_ext i ti vs k full' full).
      intros x Hx. apply Hf. intros ->. apply Hq. rewrite <- Hn. exact Hx.
    + f_equal.
      * f_equal. unfold emb_obj. rewrite Hf by congruence. reflexivity.
      * destruct p as [|y' p]; [injection Hn; congruence|]. injection Hn as -> Hn.
        apply (IH p Hn). intros H. apply Hp. now right.
Qed.

Definition fset (full : string -> list obj) (D : string) (l : list obj) (x : string) :=
  if String.eqb x D then l else full x.

Section LoopLanes.
  Variables (c : cfg) (cf : string -> obj -> res obj) (fuel : nat) (m : memory).
  Variables (n : nat) (ti : sty) (i : string) (body : stmt) (vs : list string) (D : string)
            (W' : list string).
  Hypothesis Hlw : lw_stmt i vs D [] body = Some W'.
  Hypothesis Hti : ti = I32 \/ ti = U64.
  Hypothesis Hi : inb i vs = false.
  Hypothesis HD : inb D vs = true.
  Hypothesis HiD : i <> D.
  Hypothesis Hfuel : (n < fuel)%nat.
  Hypothesis Hn : (n < 1000)%nat.
  Variables (enb : env) (full : string -> list obj) (en1 : nat -> env).
  Hypothesis Hemb : forall k, (k < n)%nat -> enb = emb i ti vs k full (en1 k).
  Hypothesis Hwf : forall k, (k < n)%nat -> wf i ti vs (en1 k).
  Hypothesis Hfull : forall v, In v vs -> List.length (full v) = n.
  Hypothesis Hu : uniq D (names enb).

  Definition lane_body (k : nat) : res obj :=
    lane_result D (S (List.length enb))
      (exec c cf fuel body ((i, rv ti 0) :: en1 k) m).

  Let dflt := OArr [].

  Lemma iter_set : forall r done rest k (B : nat -> res obj), List.length done = k -> List.length rest = r ->
    iter_from (list obj) (fun k l => let* o := B k in Ok (set_nth k o l)) k r (done ++ rest)
    = let* zs := mapM B (seq k r) in Ok (done ++ zs).
  Proof.
    induction r as [|r IH]; intros done rest k B Hk Hr; cbn [iter_from seq mapM bind].
    - destruct rest; [|discriminate]. reflexivity.
    - destruct rest as [|x rest]; [discriminate|]. injection Hr as Hr.
      destruct (B k) as [o|]; cbn [bind]; [|reflexivity].
      rewrite <- Hk at 2. rewrite set_nth_app.
      replace (done ++ o :: rest) with ((done ++ [o]) ++ rest) by (now rewrite <- app_assoc).
      rewrite (IH (done ++ [o]) rest (S k) B) by (try assumption; rewrite app_length; cbn; lia).
      destruct (mapM B (seq (S k) r)); cbn [bind]; [|reflexivity]. now rewrite <- app_assoc.
  Qed.

  Lemma exec_loop_lanes : (0 < n)%nat ->
    exec c cf fuel
      (SFor ti i (lit 0) (EBin BLt (EVar i) (lit (Z.of_nat n))) (EBin BAdd (EVar i) (lit 1)) body)
      enb m
    = let* zs := mapM lane_body (seq 0 n) in Ok (Normal (update D (OArr zs) enb) m).
  Proof.
    intros Hn0.
    destruct (lookup_In D enb (uniq_In _ _ Hu)) as [oD HoD].
    assert (Hti' : is_float ti = false) by (destruct Hti as [-> | ->]; reflexivity).
    assert (Hsmall : forall k, (k < n)%nat -> exists o, lookup D (en1 k) = Some (OArr [o])
               /\ oD = OArr (set_nth k o (full D))).
    { intros k Hk. rewrite (Hemb k Hk), lookup_emb in HoD.
      destruct (lookup D (en1 k)) as [o'|] eqn:El; [|discriminate].
      destruct (wf_lookup _ _ _ _ _ _ (Hwf k Hk) El) as [_ Hv].
      destruct (Hv HD) as [o ->]. exists o. split; [reflexivity|].
      cbn [option_map] in HoD. rewrite emb_obj_vec in HoD by assumption. congruence. }
    destruct (Hsmall 0%nat Hn0) as (o0 & _ & HoD0).
    set (l0 := set_nth 0 o0 (full D)) in *. subst oD.
    assert (Hl0 : List.length l0 = n).
    { unfold l0. rewrite set_nth_length. apply Hfull. now apply inb_In. }
    assert (Hsm : forall k, (k < n)%nat -> lookup D (en1 k) = Some (OArr [nth k l0 dflt])).
    { intros k Hk. destruct (Hsmall k Hk) as (o & Ho & Heq). rewrite Ho. injection Heq as Heq.
      rewrite Heq. do 3 f_equal. symmetry. apply nth_error_nth.
      apply nth_error_set_nth. rewrite Hfull; [exact Hk | now apply inb_In]. }
    set (E := fun l : list obj => update D (OArr l) enb).
    assert (HE0 : E l0 = enb) by (now apply update_same).
    set (P := fun (k : nat) (l : list obj) => List.length l = n /\
                forall j, (k <= j < n)%nat -> nth j l dflt = nth j l0 dflt).
    set (G := fun k l => let* o := lane_body k in Ok (set_nth k o l)).
    assert (HF : exec c cf fuel
      (SFor ti i (lit 0) (EBin BLt (EVar i) (lit (Z.of_nat n))) (EBin BAdd (EVar i) (lit 1)) body)
      (E l0) m = let* s := iter_from (list obj) G 0 n l0 in Ok (Normal (E s) m)).
    { apply (exec_for c cf fuel ti i n body Hti Hn Hfuel (list obj) E (fun _ => m) G
               (List.length enb)) with (P := P).
      - intros l. unfold E. rewrite <- (map_length (@fst string obj)), names_update, map_length. reflexivity.
      - intros k l l' [Hl Hj] HG. unfold G in HG. destruct (lane_body k) as [o|]; cbn [bind] in HG; [|discriminate].
        injection HG as <-. split; [now rewrite set_nth_length|].
        intros j Hjr. rewrite nth_set_nth_neq by lia. apply Hj. lia.
      - intros k l Hk [Hl Hj]. unfold G, lane_body.
        set (full' := fset full D l).
        assert (Hf' : forall x, x <> D -> full' x = full x).
        { intros x Hx. unfold full', fset. now destruct (String.eqb_spec x D). }
        assert (HfD : full' D = l) by (unfold full', fset; now rewrite String.eqb_refl).
        assert (Hulen : List.length (en1 k) = List.length enb).
        { rewrite (Hemb k Hk). symmetry. apply length_emb. }
        assert (Huk : uniq D (names (en1 k))).
        { rewrite (Hemb k Hk), names_emb in Hu. exact Hu. }
        assert (HA : forall o, emb i ti vs k full' (update D (OArr [o]) (en1 k))
                       = E (set_nth k o l)).
        { intros o. rewrite (emb_update_full i ti vs k full full') by assumption.
          rewrite HfD. unfold E. now rewrite <- (Hemb k Hk). }
        assert (HB : emb i ti vs k full' (en1 k) = E l).
        { rewrite <- (update_same D _ _ (Hsm k Hk)), HA. f_equal.
          rewrite <- (Hj k) by lia. apply set_nth_nth. lia. }
        assert (HC : (i, rv ti (Z.of_nat k)) :: E l
                     = emb i ti vs k full' ((i, rv ti 0) :: en1 k)).
        { cbn [emb map fst snd]. rewrite emb_obj_i. f_equal. symmetry. exact HB. }
        rewrite HC.
        assert (Hfl' : forall v, In v vs -> (k < List.length (full' v))%nat).
        { intros v Hv. unfold full', fset. destruct (String.eqb v D); [lia|]. rewrite Hfull; [lia|exact Hv]. }
        assert (Hwf' : wf i ti vs ((i, rv ti 0) :: en1 k)).
        { constructor; [|now apply Hwf]. split; cbn; [reflexivity|congruence]. }
        pose proof (exec_emb c cf fuel i ti vs D k full' Hti' Hi Hfl' body [] W' _ m Hlw
                     (fun x (Hx : In x []) => match Hx with end) Hwf') as Hsim.
        eapply (sim_pop cf i ti vs k full' W' W') in Hsim. destruct Hsim as [Hsim Hnames].
        assert (Hl1 : List.length ((i, rv ti 0) :: en1 k) = S (List.length enb)) by (cbn; lia).
        rewrite length_emb, Hl1 in Hsim. rewrite Hl1 in Hnames.
        destruct (exec c cf fuel body ((i, rv ti 0) :: en1 k) m) as [r|e] eqn:Ex.
        + unfold lane_result. cbn [bind] in Hsim, Hnames |- *.
          destruct (pop_ctl (S (List.length enb)) r) as [en' m'|] eqn:Ep; [|contradiction].
          destruct Hsim as (Hbig & Hw & -> & _). rewrite Hbig.
          specialize (Hnames _ _ eq_refl). cbn [map fst] in Hnames.
          destruct r as [en2 m2|]; [|discriminate]. cbn [pop_ctl] in Ep. injection Ep as Ep ->.
          pose proof (exec_frame c cf fuel i vs D HD body [] W' [(i, rv ti 0)] (en1 k) m en2 m Hlw
                       (fun x (Hx : In x []) => match Hx with end)) as Hfr.
          destruct (framed_pop D W' [] [(i, rv ti 0)] (en1 k) en2) as (_ & loc' & en0' & Hpop & Hupd & Hloc).
          { apply Hfr; [|exact Ex]. cbn. intuition congruence. }
          { intros ? []. } { cbn. intuition congruence. }
          cbn [app] in Hpop. rewrite Hl1 in Hpop. rewrite Hpop in Ep. subst en'.
          destruct loc' as [|[i' oi] [|]]; try discriminate. cbn in Hloc. injection Hloc as ->.
          cbn [app] in *. pose proof (Forall_inv Hw) as [Hwi _]. apply Forall_inv_tail in Hw as Hw'. cbn in Hwi. rewrite (Hwi eq_refl).
          assert (Ho : exists o, en0' = update D (OArr [o]) (en1 k) /\ lookup D en0' = Some (OArr [o])).
          { destruct Hupd as [->|[o ->]].
            - exists (nth k l0 dflt). rewrite Hsm by exact Hk. split; [|reflexivity].
              symmetry. apply update_same. now apply Hsm.
            - pose proof (lookup_update D o (en1 k) (uniq_In _ _ Huk)) as Hlk.
              destruct (wf_lookup _ _ _ _ _ _ Hw' Hlk) as [_ Hv]. destruct (Hv HD) as [o' ->]. eauto. }
          destruct Ho as (o & -> & ->). cbn [bind]. do 2 f_equal.
          cbn [emb map fst snd]. rewrite emb_obj_i. f_equal. apply HA.
        + cbn [bind] in Hsim |- *. rewrite Hsim. reflexivity.
      - split; [exact Hl0 | reflexivity]. }
    rewrite HE0 in HF. rewrite HF.
    pose proof (iter_set n [] l0 0 lane_body eq_refl Hl0) as HI. cbn [app] in HI.
    unfold G. rewrite HI. destruct (mapM lane_body (seq 0 n)); reflexivity.
  Qed.
End LoopLanes.

(** ** Whole functions *)

Definition lane_return (r : res ctl) : res obj :=
  let* r := r in
  match r with
  | Returned (OArr [o]) _ => Ok o
  | Normal _ _ => Err (EUB MissingReturn)
  | _ => Err EStuck
  end.

Lemma emb_index_irrelevant i i' ti ti' vs k full en :
  ~ In i (names en) -> ~ In i' (names en) ->
  emb i ti vs k full en = emb i' ti' vs k full en.
Proof.
  intros H H'. unfold emb. apply map_ext_in. intros [x o] Hin.
  pose proof (in_map fst _ _ Hin) as Hx. cbn in *. f_equal. unfold emb_obj.
  destruct (String.eqb_spec x i); [congruence|]. destruct (String.eqb_spec x i'); [congruence|reflexivity].
Qed.

Lemma wf_index_irrelevant i i' ti ti' vs en :
  ~ In i' (names en) -> wf i ti vs en -> wf i' ti' vs en.
Proof.
  intros H. unfold wf. rewrite !Forall_forall. intros Hw [x o] Hin.
  pose proof (in_map fst _ _ Hin) as Hx. destruct (Hw _ Hin) as [_ H2]. cbn in *.
  split; cbn; [congruence | exact H2].
Qed.

Lemma mapM_err {A B} (f : A -> res B) l e : l <> [] -> (forall a, In a l -> f a = Err e) ->
  mapM f l = Err e.
Proof. destruct l as [|a l]; [easy|]. intros _ H. cbn. now rewrite H by (now left). Qed.

Lemma mapM_ext {A B} (f g : A -> res B) l : (forall a, In a l -> f a = g a) -> mapM f l = mapM g l.
Proof.
  induction l as [|a l IH]; intros H; [reflexivity|]. cbn.
  rewrite H by (now left). rewrite IH; [reflexivity|]. intros; apply H; now right.
Qed.

Section Body.
  Variables (c : cfg) (cf : string -> obj -> res obj) (fuel : nat) (m : memory).
  Variables (n : nat) (vs ns : list string) (D : string).
  Hypothesis Hn0 : (0 < n)%nat.
  Hypothesis Hfuel : (n < fuel)%nat.
  Hypothesis Hn : (n < 1000)%nat.
  Hypothesis HD : inb D vs = true.
  Hypothesis Hns : ~ In ""%string ns.
  Hypothesis HD0 : D <> ""%string.
  Hypothesis Hvs : inb ""%string vs = false.

  Theorem exec_ew : forall s seen W enb full en1,
    ew_body n vs ns D seen W s = true ->
    (forall k, (k < n)%nat -> enb = emb "" U64 vs k full (en1 k)) ->
    (forall k, (k < n)%nat -> wf "" U64 vs (en1 k)) ->
    (forall x, In x (names enb) -> In x (W ++ ns) \/ (seen = true /\ x = D)) ->
    okW "" vs W ->
    (if seen then uniq D (names enb) else ~ In D (names enb)) ->
    (forall v, In v vs -> List.length (full v) = n) ->
    exec c cf fuel s enb m
    = let* zs := mapM (fun k => lane_return (exec c cf fuel (one_lane_body s) (en1 k) m)) (seq 0 n) in
      Ok (Returned (OArr zs) m).
  Proof.
    induction s; intros seen W enb full en1 Hew Hemb Hwf Hnm HW Hseen Hfull;
      try (cbn in Hew; rewrite ?andb_false_r in Hew; discriminate).
    clear IHs1. apply orb_true_iff in Hew. destruct Hew as [Hew|Hew].
    - (* the loop *)
      apply andb_true_iff in Hew. destruct Hew as [-> Hew]. unfold ew_loop in Hew.
      destruct s1; try discriminate. destruct init; try discriminate. destruct t0; try discriminate.
      destruct z; try discriminate. destruct cond; try discriminate. destruct op; try discriminate.
      destruct cond1; try discriminate. destruct cond2; try discriminate. destruct t0; try discriminate.
      destruct next; try discriminate. destruct op; try discriminate. destruct next1; try discriminate.
      destruct next2; try discriminate. destruct t0; try discriminate. destruct z0; try discriminate.
      destruct p; try discriminate. destruct s2; try discriminate. destruct e; try discriminate.
      rewrite !andb_true_iff, !negb_true_iff in Hew.
      destruct Hew as [[[[[[[[[Ht E1] E2] E3] E4] E5] E6] E7] E7'] E8].
      apply String.eqb_eq in E1, E2, E3. apply Z.eqb_eq in E4. apply String.eqb_neq in E5.
      subst x x0 x1 z.
      destruct (lw_stmt i vs D [] s1) as [W1|] eqn:Elw; [|discriminate].
      assert (Hti : t = I32 \/ t = U64) by (destruct t; try discriminate; tauto).
      assert (Hnoti : ~ In i (names enb)).
      { intros Hin. apply Hnm in Hin. apply inb_not_In in E7'. destruct Hin as [Hin|[_ Hin]]; [tauto|congruence]. }
      assert (Hno0 : ~ In ""%string (names enb)).
      { intros Hin. apply Hnm in Hin. destruct Hin as [Hin|[_ Hin]]; [|congruence].
        apply in_app_or in Hin. destruct Hin as [Hin|Hin]; [|tauto]. destruct (HW _ Hin). congruence. }
      assert (Hnk : forall k, (k < n)%nat -> names (en1 k) = names enb).
      { intros k Hk. rewrite (Hemb k Hk). now rewrite names_emb. }
      assert (Hemb' : forall k, (k < n)%nat -> enb = emb i t vs k full (en1 k)).
      { intros k Hk. rewrite (Hemb k Hk) at 1. apply emb_index_irrelevant; now rewrite Hnk. }
      assert (Hwf' : forall k, (k < n)%nat -> wf i t vs (en1 k)).
      { intros k Hk. eapply wf_index_irrelevant; [now rewrite Hnk | now apply Hwf]. }
      change (ELit I32 0) with (lit 0). change (ELit I32 1) with (lit 1).
      cbn [one_lane_body].
      change (ELit I32 (Z.of_nat n)) with (lit (Z.of_nat n)).
      cbn [exec] in *.
      pose proof (exec_loop_lanes c cf fuel m n t i s1 vs D W1 Elw Hti E7 HD E5 Hfuel Hn enb full en1
                    Hemb' Hwf' Hfull Hseen Hn0) as HL.
      cbn [exec] in HL. rewrite HL.
      set (B := lane_body c cf fuel m t i s1 D enb en1) in *.
      assert (Hlanes : forall k, (k < n)%nat ->
        lane_return
          (exec c cf fuel (SSeq (SSeq (SDecl (TScal t) i (Some (ELit t 0))) (SIf (lit 1) s1 SSkip)) (SReturn D)) (en1 k) m)
        = B k).
      { intros k Hk.
        assert (Hulen : List.length (en1 k) = List.length enb).
        { rewrite (Hemb k Hk). symmetry. apply length_emb. }
        assert (Hconv : convert c t t 0 = Ok 0) by (destruct Hti; subst t; reflexivity).
        unfold lit. cbn [exec eval bind init_obj scalar rv fst snd]. rewrite Hconv.
        cbn [eval bind cond_value scalar rv fst snd truth is_float Z.eqb negb lit].
        unfold B, lane_body.
        pose proof (exec_emb c cf fuel i t vs D k full ltac:(destruct Hti; subst t; tauto) E7
                     (fun v Hv => eq_ind_r (fun l => (k < l)%nat) Hk (Hfull v Hv)) s1 [] W1 ((i, rv t 0) :: en1 k) m Elw
                     (fun x (Hx : In x []) => match Hx with end)) as Hsim.
        assert (Hwi : wf i t vs ((i, rv t 0) :: en1 k)).
        { constructor; [|now apply Hwf']. split; cbn; [reflexivity|congruence]. }
        specialize (Hsim Hwi). unfold sim in Hsim.
        destruct (exec c cf fuel s1 ((i, rv t 0) :: en1 k) m) as [[en2 m2|]|e] eqn:Ex; [|contradiction|reflexivity].
        cbn [bind pop_ctl]. unfold lane_result. cbn [bind pop_ctl List.length].
        pose proof (exec_frame c cf fuel i vs D HD s1 [] W1 [(i, rv t 0)] (en1 k) m en2 m2 Elw
                     (fun x (Hx : In x []) => match Hx with end)) as Hfr.
        destruct (framed_pop D W1 [] [(i, rv t 0)] (en1 k) en2) as (_ & loc' & en0' & Hpop & Hupd & Hloc).
        { apply Hfr; [|exact Ex]. cbn. intuition congruence. }
        { intros ? []. } { cbn. intuition congruence. }
        cbn [app List.length] in Hpop. rewrite Hulen in *. rewrite Hpop.
        destruct loc' as [|[i' oi] [|]]; try discriminate. cbn in Hloc. injection Hloc as ->.
        cbn [app]. unfold lane_return. cbn [bind eval lookup].
        destruct (String.eqb_spec D i) as [Heq|_]; [congruence|].
        destruct (lookup D en0') as [[| [|o []] |]|]; reflexivity. }
      cbn [exec] in Hlanes.
      match goal with |- _ = let* _ := mapM ?F (seq 0 n) in _ =>
        assert (Hls : forall k, In k (seq 0 n) -> F k = B k)
          by (intros k Hk; apply Hlanes; apply in_seq in Hk; lia);
        rewrite (mapM_ext F B (seq 0 n) Hls)
      end.
      destruct (mapM B (seq 0 n)); cbn [bind eval]; [|reflexivity].
      rewrite lookup_update by (now apply uniq_In). reflexivity.
    - destruct (match s1 with SDecl (TArr n' (TScal t)) x None => true | _ => false end) eqn:Edecl.
      + (* declaration of the result *)
        destruct s1; try discriminate. destruct t; try discriminate. destruct t; try discriminate.
        destruct init; try discriminate. clear Edecl.
        rewrite !andb_true_iff, negb_true_iff in Hew. destruct Hew as [[[-> E1] E2] E3].
        apply Nat.eqb_eq in E1. apply String.eqb_eq in E2. subst n0 x.
        cbn [exec one_lane_body bind].
        set (o := OScal t None) in *.
        apply (IHs2 true W _ (fset full D (repeat o n)) (fun k => (D, OArr [o]) :: en1 k)); trivial.
        * intros k Hk. cbn [emb map fst snd]. rewrite emb_obj_vec by assumption.
          unfold fset at 1. rewrite String.eqb_refl. f_equal.
          { f_equal. cbn. f_equal. fold o.
            assert (Ho : nth k (repeat o n) o = o) by (apply nth_repeat).
            rewrite <- Ho at 2. symmetry. apply set_nth_nth. now rewrite repeat_length. }
          { rewrite (Hemb k Hk). apply emb_full_ext. intros x Hx. unfold fset.
            destruct (String.eqb_spec x D) as [->|]; [|reflexivity].
            exfalso. apply Hseen. rewrite (Hemb k Hk), names_emb. exact Hx. }
        * intros k Hk. constructor; [|now apply Hwf]. split; cbn; [congruence | eauto].
        * intros x [<-|Hx]; [now right|]. apply Hnm in Hx. destruct Hx as [Hx|[Hx _]]; [tauto|discriminate].
        * exists [], (names enb). repeat split; [intros []|exact Hseen].
        * intros v Hv. unfold fset. destruct (String.eqb v D); [apply repeat_length | now apply Hfull].
      + (* a scalar statement *)
        assert (Hew' : match lw_stmt "" vs "" W s1 with
                       | Some W' => ew_body n vs ns D seen W' s2 | None => false end = true).
        { destruct s1; try exact Hew. destruct t; try exact Hew. destruct t; try exact Hew.
          destruct init; try exact Hew. discriminate Edecl. }
        assert (Hone : one_lane_body (SSeq s1 s2) = SSeq s1 (one_lane_body s2)).
        { destruct s1; try reflexivity; cbn [one_lane_body].
          - destruct t; try reflexivity. destruct t; try reflexivity. destruct init; try reflexivity. discriminate.
          - destruct cond; try reflexivity. destruct op; try reflexivity. destruct cond2; try reflexivity.
            destruct s2; try reflexivity. exfalso. clear -Hew'.
            destruct (lw_stmt _ _ _ _ _); [|discriminate Hew'].
            cbn [ew_body ew_loop] in Hew'. rewrite andb_false_r in Hew'. discriminate Hew'. }
        rewrite Hone. clear Hew Hone Edecl.
        destruct (lw_stmt "" vs "" W s1) as [W1|] eqn:Elw; [|discriminate].
        assert (Hsim : forall k, (k < n)%nat ->
          sim "" U64 vs k full W1 (en1 k) m (exec c cf fuel s1 (en1 k) m) (exec c cf fuel s1 enb m)).
        { intros k Hk. rewrite (Hemb k Hk) at 1.
          apply exec_emb with (W := W) (D := ""%string); trivial; [|now apply Hwf].
          intros v Hv. rewrite Hfull by exact Hv. exact Hk. }
        cbn [exec].
        destruct (exec c cf fuel s1 enb m) as [[enb' m'|v m']|e] eqn:Eb.
        * set (en1' := fun k => match exec c cf fuel s1 (en1 k) m with Ok (Normal e _) => e | _ => [] end).
          assert (Hk1 : forall k, (k < n)%nat -> exec c cf fuel s1 (en1 k) m = Ok (Normal (en1' k) m)
                    /\ enb' = emb "" U64 vs k full (en1' k) /\ m' = m /\ wf "" U64 vs (en1' k)
                    /\ exists new, names enb' = new ++ names enb /\ forall x, In x new -> inb x vs = false /\ In x W1).
          { intros k Hk. specialize (Hsim k Hk). unfold sim in Hsim. unfold en1'.
            destruct (exec c cf fuel s1 (en1 k) m) as [[e2 m2|]|]; [|contradiction|discriminate].
            destruct Hsim as (Heq & Hw2 & -> & new & Hnew & Hx). injection Heq as -> ->.
            repeat split; trivial. exists new. split.
            - rewrite names_emb, (Hemb k Hk), names_emb. exact Hnew.
            - intros x Hx'. destruct (Hx x Hx') as (? & ? & ?). auto. }
          destruct (Hk1 0%nat Hn0) as (_ & _ & -> & _ & new & Hnew & Hnewx).
          cbn [bind].
          rewrite (mapM_ext _ (fun k => lane_return (exec c cf fuel (one_lane_body s2) (en1' k) m))).
          2: { intros k Hk. apply in_seq in Hk. destruct (Hk1 k ltac:(lia)) as (-> & _). reflexivity. }
          apply (IHs2 seen W1 _ full); trivial.
          -- intros k Hk. now destruct (Hk1 k Hk) as (_ & ? & _).
          -- intros k Hk. now destruct (Hk1 k Hk) as (_ & _ & _ & ? & _).
          -- intros x Hx. rewrite Hnew in Hx. apply in_app_or in Hx. destruct Hx as [Hx|Hx].
             ++ left. apply in_or_app. left. now apply Hnewx.
             ++ apply Hnm in Hx. destruct Hx as [Hx|Hx]; [|now right]. left.
                apply in_app_or in Hx. apply in_or_app. destruct Hx as [Hx|Hx]; [|now right].
                left. eapply lw_stmt_mono; eauto.
          -- eapply lw_stmt_okW; eauto.
          -- rewrite Hnew. assert (HnD : ~ In D new) by (intros Hin; destruct (Hnewx D Hin); congruence).
             destruct seen.
             ++ destruct Hseen as (p & q & -> & Hp & Hq). exists (new ++ p), q.
                split; [now rewrite app_assoc|]. split; [|exact Hq].
                intros Hin. apply in_app_or in Hin. tauto.
             ++ intros Hin. apply in_app_or in Hin. tauto.
        * exfalso. specialize (Hsim 0%nat Hn0). unfold sim in Hsim.
          destruct (exec c cf fuel s1 (en1 0%nat) m) as [[]|]; [|exact Hsim|discriminate].
          destruct Hsim. discriminate.
        * cbn [bind]. rewrite (mapM_err _ (seq 0 n) e); [reflexivity | destruct n; [lia|discriminate] |].
          intros k Hk. apply in_seq in Hk. specialize (Hsim k ltac:(lia)). unfold sim in Hsim.
          destruct (exec c cf fuel s1 (en1 k) m) as [[]|]; [|contradiction|].
          -- destruct Hsim. discriminate.
          -- injection Hsim as ->. reflexivity.
  Qed.
End Body.

(** What a function does on one lane: run its one-lane version. *)
Definition lane (c : cfg) (m : memory) (f : func) (args : list obj) : res obj :=
  let* r := run_body c (call_helper c helpers loop_fuel call_depth) loop_fuel (one_lane f) args m in
  match fst r with Some (OArr [o]) => Ok o | _ => Err EStuck end.

(** Arguments whose vectors have [n] lanes. *)
Definition ew_args (n : nat) (ps : list (string * ty)) (args : list obj) : Prop :=
  Forall2 (fun p a => match snd p with
                      | TArr _ _ => exists l, a = OArr l /\ List.length l = n
                      | _ => True end) ps args.

Lemma bind_params_ew c n : forall ps args,
  forallb (fun p : string * ty => match snd p with TArr n' (TScal _) => Nat.eqb n n' | TScal _ => true | _ => false end) ps = true ->
  ew_args n ps args ->
  (exists e, bind_params c ps args = Err e /\ forall k, bind_params c ps (map (lane_of k) args) = Err e)
  \/ (exists en, bind_params c ps args = Ok en /\ names en = map fst ps
      /\ (forall k, bind_params c ps (map (lane_of k) args)
            = Ok (map (fun p => (fst p, lane_of k (snd p))) en))
      /\ (forall x o, In (x, o) en -> (In x (vec_params ps) /\ exists l, o = OArr l /\ List.length l = n)
                                   \/ (exists t z, o = rv t z /\ exists t', In (x, TScal t') ps))).
Proof.
  induction ps as [|[x t] ps IH]; intros args Hps Ha; inversion Ha as [|? a ? args' Ha1 Ha2]; subst.
  - right. exists []. repeat split; trivial. intros ? ? [].
  - cbn [forallb snd] in Hps. apply andb_true_iff in Hps. destruct Hps as [Hp Hps].
    specialize (IH args' Hps Ha2). cbn [bind_params map].
    destruct t as [|t|n' t| |]; try discriminate.
    + cbn [init_obj]. assert (Hlo : forall k, scalar (lane_of k a) = scalar a) by (intros k; destruct a; reflexivity).
      destruct (scalar a) as [p|e] eqn:Es.
      2: { left. exists e. split; [reflexivity|]. intros k. rewrite Hlo. reflexivity. }
      cbn [bind]. destruct (convert c (fst p) t (snd p)) as [z|e] eqn:Ec.
      2: { left. exists e. split; [reflexivity|]. intros k. rewrite Hlo. cbn [bind]. rewrite Ec. reflexivity. }
      cbn [bind]. destruct IH as [(e & He & Hek) | (en & He & Hn & Hk & Hin)].
      * left. exists e. rewrite He. split; [reflexivity|]. intros k. rewrite Hlo. cbn [bind]. rewrite Ec. cbn [bind].
        rewrite Hek. reflexivity.
      * right. rewrite He. cbn [bind]. exists ((x, rv t z) :: en). split; [reflexivity|].
        split; [cbn; now rewrite Hn|]. split.
        -- intros k. rewrite Hlo. cbn [bind]. rewrite Ec. cbn [bind]. rewrite Hk. reflexivity.
        -- intros y o [Heq|Hy].
           ++ injection Heq as <- <-. right. exists t, z. split; [reflexivity|]. exists t. now left.
           ++ destruct (Hin y o Hy) as [[H1 H2]|(t1 & z1 & H1 & t2 & H2)]; [left; split; assumption|].
              right. exists t1, z1. split; [exact H1|]. exists t2. now right.
    + destruct t; try discriminate. destruct Ha1 as (l & -> & Hl). cbn [init_obj bind lane_of].
      destruct IH as [(e & He & Hek) | (en & He & Hn & Hk & Hin)].
      * left. exists e. rewrite He. split; [reflexivity|]. intros k. rewrite Hek. reflexivity.
      * right. rewrite He. cbn [bind]. exists ((x, OArr l) :: en). split; [reflexivity|].
        split; [cbn; now rewrite Hn|]. split.
        -- intros k. rewrite Hk. reflexivity.
        -- intros y o [Heq|Hy].
           ++ injection Heq as <- <-. left. split; [now left|]. eauto.
           ++ destruct (Hin y o Hy) as [[H1 H2]|(t1 & z1 & H1 & t2 & H2)]; [left; split; [now right|assumption]|].
              right. exists t1, z1. split; [exact H1|]. exists t2. now right.
Qed.

Lemma nodupb_NoDup l : nodupb l = true -> NoDup l.
Proof.
  induction l as [|x l IH]; cbn; [constructor|]. rewrite andb_true_iff, negb_true_iff.
  intros [H1 H2]. constructor; [now apply inb_not_In | auto].
Qed.

Lemma NoDup_lookup (en : env) x o : NoDup (names en) -> In (x, o) en -> lookup x en = Some o.
Proof.
  induction en as [|[y oy] en IH]; cbn; intros Hnd Hin; [easy|].
  inversion Hnd as [|? ? Hy Hnd']; subst. destruct Hin as [Heq|Hin].
  - injection Heq as -> ->. now rewrite String.eqb_refl.
  - destruct (String.eqb_spec x y) as [->|]; [|auto].
    exfalso. apply Hy. apply (in_map fst _ _ Hin).
Qed.

(** ** The lane theorem *)
Theorem run_ew n f c m args :
  ew n f = true -> ew_args n (f_params f) args ->
  run c m f args
  = outcome_of (let* zs := mapM (fun k => lane c m f (map (lane_of k) args)) (seq 0 n) in
                Ok (Some (OArr zs), m)).
Proof.
  intros Hew Ha. unfold ew in Hew. set (D := result_var (f_body f)) in *.
  rewrite !andb_true_iff, !negb_true_iff in Hew.
  destruct Hew as [[[[[[[H0 Hfu] Hps] Hret] Hns] HD0] Hnd] Hb].
  apply Nat.ltb_lt in H0, Hfu.
  destruct (f_ret f) as [| |n' tr| |] eqn:Eret; try discriminate. destruct tr; try discriminate.
  unfold run. unfold run_body at 1. rewrite Eret.
  destruct (bind_params_ew c n (f_params f) args Hps Ha)
    as [(e & He & Hek)|(en & He & Hn & Hk & Hin)].
  - rewrite He. cbn [bind]. rewrite (mapM_err _ _ e); [reflexivity | destruct n; [lia|discriminate]|].
    intros k _. unfold lane, run_body. cbn [one_lane f_params]. rewrite Hek. reflexivity.
  - rewrite He. cbn [bind].
    apply nodupb_NoDup in Hnd. inversion Hnd as [|? ? HDn Hnd']; subst.
    assert (Hnd2 : NoDup (names en)) by (now rewrite Hn).
    assert (Hvp : forall x, In x (vec_params (f_params f)) -> In x (map fst (f_params f))).
    { intros x Hx. unfold vec_params in Hx. apply in_map_iff in Hx. destruct Hx as (p & <- & Hp).
      apply filter_In in Hp. now apply in_map. }
    apply inb_not_In in Hns, HD0.
    set (full := fun v => match lookup v en with Some (OArr l) => l | _ => repeat (OArr []) n end).
    set (vs := D :: vec_params (f_params f)) in *.
    assert (HDen : ~ In D (names en)) by (now rewrite Hn).
    assert (Hsc : forall x o, In (x, o) en -> (In x vs /\ exists l, o = OArr l /\ List.length l = n /\ full x = l)
                     \/ (~ In x vs /\ exists t z, o = rv t z)).
    { intros x o Hxo. pose proof (NoDup_lookup en x o Hnd2 Hxo) as Hlk.
      destruct (Hin x o Hxo) as [[Hv (l & -> & Hl)]|(t1 & z1 & -> & t2 & Hp)].
      - left. split; [now right|]. exists l. repeat split; trivial. unfold full. now rewrite Hlk.
      - right. split; [|eauto]. intros [Heq|Hv].
        + apply HDn. rewrite Heq. apply (in_map fst _ _ Hp).
        + unfold vec_params in Hv. apply in_map_iff in Hv. destruct Hv as ([x' t'] & Hx' & Hp').
          cbn in Hx'. subst x'. apply filter_In in Hp'. destruct Hp' as [Hp' Hty].
          assert (Heq : TScal t2 = t').
          { clear -Hp Hp' Hnd'. induction (f_params f) as [|[y ty] ps IH]; [easy|].
            cbn in Hnd'. inversion Hnd' as [|? ? Hy Hnd]; subst.
            destruct Hp as [E1|Hp], Hp' as [E2|Hp'].
            - congruence.
            - injection E1 as -> ->. exfalso. apply Hy. apply (in_map fst _ _ Hp').
            - injection E2 as -> ->. exfalso. apply Hy. apply (in_map fst _ _ Hp).
            - auto. }
          subst t'. cbn in Hty. discriminate. }
    rewrite (exec_ew c (call_helper c helpers loop_fuel call_depth) loop_fuel m n vs (map fst (f_params f)) D
               H0 Hfu ltac:(unfold loop_fuel in Hfu; lia)) with
        (seen := false) (W := []) (full := full)
        (en1 := fun k => map (fun p => (fst p, lane_of k (snd p))) en); trivial.
    + assert (Hm : forall k, lane_return (exec c (call_helper c helpers loop_fuel call_depth) loop_fuel
                     (one_lane_body (f_body f)) (map (fun p => (fst p, lane_of k (snd p))) en) m)
                   = lane c m f (map (lane_of k) args)).
      { intros k. unfold lane, run_body. cbn [one_lane f_params f_ret f_body]. rewrite Hk, Eret. cbn [bind].
        unfold lane_return. destruct (exec _ _ _ _ _ _) as [[? ?|v ?]|]; cbn [bind]; reflexivity. }
      rewrite (mapM_ext _ _ (seq 0 n) (fun k _ => Hm k)).
      destruct (mapM _ _); reflexivity.
    + apply inb_In. now left.
    + apply inb_not_In. intros [Hx|Hx]; [|now apply Hns, Hvp].
      apply HD0. left. exact Hx.
    + intros k Hkn. rewrite <- (map_id en) at 1. unfold emb. rewrite map_map. apply map_ext_in.
      intros [x o] Hxo. cbn. f_equal. unfold emb_obj.
      destruct (String.eqb_spec x "") as [->|Hx0].
      { exfalso. apply Hns. rewrite <- Hn. apply (in_map fst _ _ Hxo). }
      destruct (Hsc x o Hxo) as [[Hv (l & -> & Hl & Hf)]|[Hv (t1 & z1 & ->)]].
      * apply inb_In in Hv. rewrite Hv. cbn [lane_of]. rewrite Hf, set_nth_nth by lia. reflexivity.
      * apply inb_not_In in Hv. rewrite Hv. reflexivity.
    + intros k Hkn. apply Forall_forall. intros [x o1] Hx1. apply in_map_iff in Hx1.
      destruct Hx1 as ([x' o] & Heq & Hxo). cbn in Heq. injection Heq as <- <-.
      split; cbn.
      * intros ->. exfalso. apply Hns. rewrite <- Hn. apply (in_map fst _ _ Hxo).
      * intros Hv. apply (inb_In x' vs) in Hv. destruct (Hsc x' o Hxo) as [[_ (l & -> & _)]|[Hv' _]]; [|tauto].
        cbn. eauto.
    + intros x Hx. rewrite Hn in Hx. now left.
    + intros ? [].
    + intros v Hv. unfold full. destruct (lookup v en) as [o|] eqn:El; [|apply repeat_length].
      destruct o; try apply repeat_length.
      assert (Hvo : In (v, OArr l) en).
      { clear -El. induction en as [|[y oy] en IH]; cbn in *; [discriminate|].
        destruct (String.eqb_spec v y) as [->|]; [injection El as ->; now left | right; auto]. }
      destruct (Hsc _ _ Hvo) as [[_ (l' & Heq & Hl & _)]|[_ (t1 & z1 & Heq)]]; [|discriminate].
      injection Heq as ->. exact Hl.
Qed.
