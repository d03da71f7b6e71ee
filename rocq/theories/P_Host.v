(** Proofs about the width of [size_t]: counters of that type are used as indices only, and are small, so
    that their width changes nothing.  No types are needed for this, the arguments may be anything. *)
From Coq Require Import ZArith String List Bool Lia.
From Verif Require Import Types FloatBits Syntax Interp ExecLemmas ProgRecip Library Host.
Import ListNotations.
Open Scope Z_scope.

(** ** What is checked: [cs] are the names of the counters in scope *)

Definition member (x : string) (cs : list string) : bool := existsb (String.eqb x) cs.

Fixpoint free (cs : list string) (e : expr) : bool :=
  match e with
  | ELit _ _ => true
  | EVar x => negb (member x cs)
  | EIdx a i => free cs a && match i with EVar _ => true | _ => free cs i end
  | EUn _ a | ECast _ a | ECall _ a => free cs a
  | EBin _ a b | EAndAlso a b | EOrElse a b | EMin _ a b | EMax _ a b => free cs a && free cs b
  | ECond a b d => free cs a && free cs b && free cs d
  end.
Definition free_index (cs : list string) (e : expr) : bool := match e with EVar _ => true | _ => free cs e end.

Definition counts (i : string) (init cond next : expr) : bool :=
  match init, cond, next with
  | ELit I32 0, EBin BLt (EVar x) (ELit I32 n), EBin BAdd (EVar y) (ELit I32 1) =>
      String.eqb x i && String.eqb y i && (0 <=? n) && (n <? 2 ^ 31)
  | _, _, _ => false
  end.

Fixpoint indices_only (cs : list string) (s : stmt) : bool :=
  match s with
  | SSkip | SAbort => true
  | SSeq a b => indices_only cs a && indices_only cs b
  | SDecl _ _ None => true
  | SDecl _ _ (Some e) => free cs e
  | SAssign x path e => negb (member x cs) && forallb (free_index cs) path && free cs e
  | SIf e a b => free cs e && indices_only cs a && indices_only cs b
  | SFor t i init cond next body =>
      match t with
      | U64 => counts i init cond next && indices_only (i :: cs) body
      | _ => negb (member i cs) && free cs init && free cs cond && free cs next && indices_only cs body
      end
  | SMemcpy d s n => negb (member d cs) && negb (member s cs) && free cs n
  | SReturn e => free cs e
  end.

Lemma member_in x cs : In x cs -> member x cs = true.
Proof. intros H. apply existsb_exists. exists x. split; [exact H|apply String.eqb_refl]. Qed.

Lemma bind_ok {A B} (a : A) (k : A -> res B) : bind (Ok a) k = k a.
Proof. reflexivity. Qed.

(** ** Corresponding states: [ts] tells which variables are counters, and their values *)

Section Width.
  Variable s : sty.
  Hypothesis Hs : s = U32 \/ s = U64.

  Definition tags : Type := list (option (string * Z)).
  Inductive related : tags -> env -> env -> Prop :=
  | rel_nil : related [] [] []
  | rel_same ts en' en x o : related ts en' en -> related (None :: ts) ((x, o) :: en') ((x, o) :: en)
  | rel_counter ts en' en x k : related ts en' en ->
      related (Some (x, k) :: ts) ((x, OScal s (Some k)) :: en') ((x, OScal U64 (Some k)) :: en).
  Definition covers (cs : list string) (ts : tags) : Prop := forall x k, In (Some (x, k)) ts -> In x cs.

  Lemma covers_tail cs t ts : covers cs (t :: ts) -> covers cs ts.
  Proof. intros H x k I. apply (H x k). now right. Qed.
  Lemma covers_none cs j ts : covers cs ts -> covers cs (repeat None j ++ ts).
  Proof. intros H x k I. apply in_app_or in I. destruct I as [I|I]; [apply repeat_spec in I; discriminate|eauto]. Qed.
  Lemma related_length ts en' en : related ts en' en -> List.length en' = List.length en /\ List.length en = List.length ts.
  Proof. intros H. induction H; cbn; lia. Qed.

  Lemma lookup_free cs ts en' en x : related ts en' en -> covers cs ts -> member x cs = false -> lookup x en' = lookup x en.
  Proof.
    intros H C M. induction H as [|ts en' en y o _ IH|ts en' en y k _ IH]; cbn; [reflexivity| |].
    - now rewrite (IH (covers_tail _ _ _ C)).
    - destruct (String.eqb_spec x y) as [->|]; [|exact (IH (covers_tail _ _ _ C))].
      rewrite (member_in y cs (C y k (or_introl eq_refl))) in M. discriminate.
  Qed.
  Lemma lookup_index ts en' en x : related ts en' en ->
    (let* o := match lookup x en' with Some o => Ok o | None => Err EStuck end in int_value o)
    = (let* o := match lookup x en with Some o => Ok o | None => Err EStuck end in int_value o).
  Proof.
    intros H. induction H as [|ts en' en y o _ IH|ts en' en y k _ IH]; cbn [lookup]; [reflexivity| |].
    - destruct (String.eqb x y); [reflexivity|exact IH].
    - destruct (String.eqb x y); [|exact IH]. destruct Hs as [-> | ->]; reflexivity.
  Qed.
  Lemma update_free cs ts en' en x o : related ts en' en -> covers cs ts -> member x cs = false -> related ts (update x o en') (update x o en).
  Proof.
    intros H C M. induction H as [|ts en' en y o' H IH|ts en' en y k H IH]; cbn; [constructor| |].
    - destruct (String.eqb x y); constructor; eauto using covers_tail.
    - destruct (String.eqb_spec x y) as [->|]; [|constructor; eauto using covers_tail].
      rewrite (member_in y cs (C y k (or_introl eq_refl))) in M. discriminate.
  Qed.
  Lemma related_drop j ts en' en : related (repeat None j ++ ts) en' en -> related ts (skipn j en') (skipn j en).
  Proof. revert en' en. induction j as [|j IH]; intros en' en H; [exact H|]. cbn [repeat app] in H. inversion H; subst. cbn. now apply IH. Qed.

  Variable c : cfg.
  Variables callf callf' : string -> obj -> res obj.
  Hypothesis Hcall : forall f o, callf' f o = callf f o.

  Lemma eval_free cs ts en' en m : related ts en' en -> covers cs ts -> forall e, free cs e = true -> eval c callf' en' m e = eval c callf en m e.
  Proof.
    intros H C. induction e as [t z|x|a IHa i IHi|op a IHa|op a IHa b IHb|a IHa b IHb|a IHa b IHb|a IHa b IHb d IHd|t a IHa|t a IHa b IHb|t a IHa b IHb|f a IHa];
      cbn [free]; intros F; repeat match goal with H : (_ && _)%bool = true |- _ => apply andb_prop in H; destruct H end; cbn [eval];
      rewrite ?IHa by assumption; rewrite ?IHb by assumption; rewrite ?IHd by assumption; trivial.
    - apply negb_true_iff in F. now rewrite (lookup_free cs ts en' en x H C F).
    - destruct (eval c callf en m a) as [o|]; [|reflexivity]. cbn [bind].
      assert (E : (let* oi := eval c callf' en' m i in int_value oi) = (let* oi := eval c callf en m i in int_value oi)).
      { destruct i; try (now rewrite IHi). cbn [eval]. exact (lookup_index ts en' en x H). }
      transitivity (let* k := (let* oi := eval c callf' en' m i in int_value oi) in index m o k); [now destruct (eval c callf' en' m i)|].
      rewrite E. now destruct (eval c callf en m i).
    - destruct (eval c callf en m a); cbn [bind]; [apply Hcall|reflexivity].
  Qed.

  Lemma path_free cs ts en' en m : related ts en' en -> covers cs ts -> forall path, forallb (free_index cs) path = true ->
    eval_path c callf' en' m path = eval_path c callf en m path.
  Proof.
    intros H C. induction path as [|e path IH]; cbn [forallb eval_path]; [reflexivity|]. intros F. apply andb_prop in F. destruct F as [F1 F2].
    rewrite (IH F2).
    assert (E : (let* oi := eval c callf' en' m e in int_value oi) = (let* oi := eval c callf en m e in int_value oi)).
    { destruct e; try (cbn [free_index] in F1; now rewrite (eval_free cs ts en' en m H C) by exact F1).
      cbn [eval]. exact (lookup_index ts en' en x H). }
    transitivity (let* k := (let* oi := eval c callf' en' m e in int_value oi) in let* ks := eval_path c callf en m path in Ok (k :: ks)).
    { now destruct (eval c callf' en' m e). }
    rewrite E. now destruct (eval c callf en m e).
  Qed.

  (** ** Statements *)

  Inductive result (ts : tags) : res ctl -> res ctl -> Prop :=
  | res_err e : result ts (Err e) (Err e)
  | res_normal j en' en m : related (repeat None j ++ ts) en' en -> result ts (Ok (Normal en' m)) (Ok (Normal en m))
  | res_return v m : result ts (Ok (Returned v m)) (Ok (Returned v m)).

  (** Leaving a block. *)
  Lemma related_pop j ts en' en : related (repeat None j ++ ts) en' en -> related ts (pop (List.length ts) en') (pop (List.length ts) en).
  Proof.
    intros H. pose proof (related_length _ _ _ H) as [L1 L2]. unfold pop.
    rewrite L1, L2, app_length, repeat_length. replace (j + List.length ts - List.length ts)%nat with j by lia.
    now apply related_drop.
  Qed.
  Lemma result_pop ts n r' r : n = List.length ts -> result ts r' r ->
    result ts (let* x := r' in Ok (pop_ctl n x)) (let* x := r in Ok (pop_ctl n x)).
  Proof.
    intros -> H. destruct H as [e|j en' en m H|v m]; cbn [bind pop_ctl]; [constructor| |constructor].
    apply res_normal with (j := 0%nat). now apply related_pop with (j := j).
  Qed.

  Lemma result_shift j ts r' r : result (repeat None j ++ ts) r' r -> result ts r' r.
  Proof.
    intros H. destruct H as [e|k en' en m H|v m]; [constructor| |constructor]. rewrite app_assoc, <- repeat_app in H.
    now apply res_normal with (j := (k + j)%nat).
  Qed.

  Lemma assign_free cs ts en' en m x ks v : related ts en' en -> covers cs ts -> member x cs = false ->
    (exists e, assign c en' m x ks v = Err e /\ assign c en m x ks v = Err e) \/
    (exists en1' en1 m1, assign c en' m x ks v = Ok (en1', m1) /\ assign c en m x ks v = Ok (en1, m1) /\ related ts en1' en1).
  Proof.
    intros H C M. unfold assign. destruct (scalar v) as [p|]; cbn [bind]; [|left; eauto]. rewrite (lookup_free cs ts en' en x H C M).
    destruct (lookup x en) as [[t o|l|t b off]|]; [| | |left; eauto].
    - destruct (put c (OScal t o) ks (fst p) (snd p)); cbn [bind]; [|left; eauto]. right. do 3 eexists. eauto using update_free.
    - destruct (put c (OArr l) ks (fst p) (snd p)); cbn [bind]; [|left; eauto]. right. do 3 eexists. eauto using update_free.
    - destruct ks as [|i [|]]; try (left; now eauto). destruct (convert c (fst p) t (snd p)); cbn [bind]; [|left; eauto].
      destruct (mem_write m t b (off + i) a); cbn [bind]; [|left; eauto]. right. eauto 7.
  Qed.

  Variable big : bool.
  Notation host1 := (mkhost big s).
  Notation host2 := (mkhost big U64).

  (** The counter: comparing it and incrementing it. *)
  Lemma counter_less en' en m i k n : 0 <= k < 2 ^ 32 -> 0 <= n < 2 ^ 31 ->
    (let* o := eval c callf' ((i, OScal s (Some k)) :: en') m (EBin BLt (EVar i) (ELit I32 n)) in cond_value o) = Ok (k <? n) /\
    (let* o := eval c callf ((i, OScal U64 (Some k)) :: en) m (EBin BLt (EVar i) (ELit I32 n)) in cond_value o) = Ok (k <? n).
  Proof.
    intros Hk Hn. cbn [eval lookup]. rewrite String.eqb_refl.
    assert (W : forall t, t = U32 \/ t = U64 -> wrap t n = n).
    { intros t [-> | ->]; apply wrap_id; unfold in_range; cbn [lo hi]; lia. }
    split; [destruct Hs as [-> | ->]|]; cbn -[Z.pow wrap Z.ltb]; rewrite W by auto; now destruct (k <? n).
  Qed.
  Lemma counter_next en' en m i k : 0 <= k < 2 ^ 31 ->
    let en1' := (i, OScal s (Some k)) :: en' in let en1 := (i, OScal U64 (Some k)) :: en in
    (let* v := eval c callf' en1' m (EBin BAdd (EVar i) (ELit I32 1)) in let* r := assign c en1' m i [] v in Ok (Normal (fst r) (snd r)))
      = Ok (Normal ((i, OScal s (Some (k + 1))) :: en') m) /\
    (let* v := eval c callf en1 m (EBin BAdd (EVar i) (ELit I32 1)) in let* r := assign c en1 m i [] v in Ok (Normal (fst r) (snd r)))
      = Ok (Normal ((i, OScal U64 (Some (k + 1))) :: en) m).
  Proof.
    intros Hk en1' en1. subst en1' en1. cbn [eval lookup]. unfold assign. cbn [lookup update]. rewrite String.eqb_refl.
    assert (W : forall t, t = U32 \/ t = U64 -> wrap t (k + 1) = k + 1).
    { intros t [-> | ->]; apply wrap_id; unfold in_range; cbn [lo hi]; lia. }
    split; [destruct Hs as [-> | ->]|]; cbn -[Z.pow wrap Z.add]; change (wrap _ 1) with 1; rewrite W by auto; reflexivity.
  Qed.

  Theorem exec_width fuel : forall st cs ts en' en m, indices_only cs st = true -> related ts en' en -> covers cs ts ->
    result ts (exec_h host1 c callf' fuel st en' m) (exec_h host2 c callf fuel st en m).
  Proof.
    induction st as [|s1 IH1 s2 IH2|t y o|y path e|e s1 IH1 s2 IH2|t i init cond next body IH|d s0 n| |e];
      intros cs ts en' en m K H C; cbn [indices_only] in K; cbn [exec_h];
      repeat match goal with H : (_ && _)%bool = true |- _ => apply andb_prop in H; destruct H end;
      repeat match goal with H : negb _ = true |- _ => apply negb_true_iff in H end.
    - now apply res_normal with (j := 0%nat).
    - specialize (IH1 cs ts en' en m ltac:(assumption) H C). destruct IH1 as [e|j en1' en1 m1 HR|v m1]; cbn [bind]; [constructor| |constructor].
      apply result_shift with (j := j). apply IH2 with (cs := cs); try assumption. now apply covers_none.
    - destruct o as [e|].
      + rewrite (eval_free cs ts en' en m H C e K). destruct (eval c callf en m e) as [o|]; cbn [bind]; [|constructor].
        destruct (init_obj c t o) as [o'|]; cbn [bind]; [|constructor]. apply res_normal with (j := 1%nat). now constructor.
      + apply res_normal with (j := 1%nat). now constructor.
    - rewrite (path_free cs ts en' en m H C path ltac:(assumption)). destruct (eval_path c callf en m path) as [ks|]; cbn [bind]; [|constructor].
      rewrite (eval_free cs ts en' en m H C e ltac:(assumption)). destruct (eval c callf en m e) as [v|]; cbn [bind]; [|constructor].
      destruct (assign_free cs ts en' en m y ks v H C ltac:(assumption)) as [(e0 & -> & ->)|(e1' & e1 & m1 & -> & -> & R)]; cbn [bind]; [constructor|].
      now apply res_normal with (j := 0%nat).
    - rewrite (eval_free cs ts en' en m H C e ltac:(assumption)). destruct (eval c callf en m e) as [o|]; cbn [bind]; [|constructor].
      destruct (cond_value o) as [b|]; cbn [bind]; [|constructor].
      pose proof (related_length _ _ _ H) as [L1 L2]. rewrite L1, L2. apply result_pop; [reflexivity|].
      destruct b; [now apply IH1 with (cs := cs)|now apply IH2 with (cs := cs)].
    - pose proof (related_length _ _ _ H) as [L1 L2].
      destruct (match t with U64 => true | _ => false end) eqn:ET.
      + (* a counter of type size_t *)
        destruct t; try discriminate ET. clear ET. apply andb_prop in K. destruct K as [KC KB].
        unfold counts in KC. destruct init as [[] [| |]| | | | | | | | | | |]; try discriminate KC.
        destruct cond as [| | | |[] [|x| | | | | | | | | |] [[] n| | | | | | | | | | |]| | | | | | |]; try discriminate KC.
        destruct next as [| | | |[] [|y| | | | | | | | | |] [[] [|[]|]| | | | | | | | | | |]| | | | | | |]; try discriminate KC.
        apply andb_prop in KC. destruct KC as [KC N2]. apply andb_prop in KC. destruct KC as [KC N1]. apply andb_prop in KC. destruct KC as [EX EY].
        apply String.eqb_eq in EX, EY. subst x y. apply Z.leb_le in N1. apply Z.ltb_lt in N2.
        change (eval c callf' en' m (ELit I32 0)) with (Ok (rv I32 0)). change (eval c callf en m (ELit I32 0)) with (Ok (rv I32 0)).
        change (counter host1 U64) with s. change (counter host2 U64) with U64. rewrite !bind_ok; cbv beta.
        assert (E0' : init_obj c (TScal s) (rv I32 0) = Ok (OScal s (Some 0))) by (destruct Hs as [-> | ->]; reflexivity).
        assert (E0 : init_obj c (TScal U64) (rv I32 0) = Ok (OScal U64 (Some 0))) by reflexivity.
        rewrite E0', E0. rewrite !bind_ok; cbv beta zeta. rewrite L1, L2.
        match goal with |- result _ (bind ?l' _) (bind ?l _) =>
          assert (G : (exists e, l' = Err e /\ l = Err e) \/ (exists v m1, l' = Ok (Returned v m1) /\ l = Ok (Returned v m1)) \/
            (exists k en1' en1 m1, l' = Ok (Normal en1' m1) /\ l = Ok (Normal en1 m1) /\ related (Some (i, k) :: ts) en1' en1)) end.
        { assert (P0 : -1 < 0 <= n) by lia. clear E0 E0' L1 L2. revert en' en H P0. generalize 0. revert m.
          generalize fuel at 1 3 5 7 9 11 as f. induction f as [|f IHf]; intros m k en' en H P; cbn [loop]; [left; eauto|].
          destruct (counter_less en' en m i k n ltac:(lia) ltac:(lia)) as [-> ->]. cbn [bind].
          destruct (Z.ltb_spec k n) as [Lt|]; [|right; right; repeat eexists; now constructor].
          assert (CC : covers (i :: cs) (Some (i, k) :: ts)).
          { intros z k' [E|I]; [injection E as <- _; now left|right; eauto]. }
          pose proof (IH (i :: cs) (Some (i, k) :: ts) ((i, OScal s (Some k)) :: en') ((i, OScal U64 (Some k)) :: en) m KB (rel_counter _ _ _ _ _ H) CC) as R.
          destruct R as [e|j e1' e1 m1 R|v m1]; cbn [bind pop_ctl].
          - left; eauto.
          - pose proof (related_length _ _ _ H) as [L1 L2]. apply related_pop in R.
            replace (List.length ((i, OScal s (Some k)) :: en')) with (List.length (Some (i, k) :: ts)) by (cbn; lia).
            replace (List.length ((i, OScal U64 (Some k)) :: en)) with (List.length (Some (i, k) :: ts)) by (cbn; lia).
            revert R. generalize (pop (List.length (Some (i, k) :: ts)) e1'), (pop (List.length (Some (i, k) :: ts)) e1). intros p' p R.
            inversion R as [| |ts0 f1' f1 x k0 R1 Q1 Q2 Q3]; subst.
            destruct (counter_next f1' f1 m1 i k ltac:(lia)) as [X' X]. cbv zeta in X', X. rewrite X', X. cbn [bind].
            apply IHf; [exact R1|lia].
          - right; left; eauto. }
        destruct G as [(e & -> & ->)|[(v & m1 & -> & ->)|(k & e1' & e1 & m1 & -> & -> & R)]]; cbn [bind pop_ctl].
        * constructor.
        * constructor.
        * apply res_normal with (j := 0%nat). cbn [repeat app].
          inversion R as [| |ts0 f1' f1 x k0 R1 Q1 Q2 Q3]; subst. pose proof (related_length _ _ _ R1) as [M1 M2].
          unfold pop. cbn [List.length]. rewrite M1, M2. replace (S (List.length ts) - List.length ts)%nat with 1%nat by lia. exact R1.
      + (* a counter of another type *)
        assert (K' : (negb (member i cs) && free cs init && free cs cond && free cs next && indices_only cs body)%bool = true) by (destruct t; try exact K; discriminate ET).
        replace (counter host1 t) with t by (destruct t; try reflexivity; discriminate ET).
        replace (counter host2 t) with t by (destruct t; try reflexivity; discriminate ET). clear K.
        repeat match goal with H : (_ && _)%bool = true |- _ => apply andb_prop in H; destruct H end.
        match goal with H : negb _ = true |- _ => apply negb_true_iff in H end.
        rewrite (eval_free cs ts en' en m H C init ltac:(assumption)). destruct (eval c callf en m init) as [o|]; cbn [bind]; [|constructor].
        destruct (init_obj c (TScal t) o) as [o'|]; cbn [bind]; [|constructor]. rewrite L1, L2. apply result_pop; [reflexivity|].
        apply result_shift with (j := 1%nat). cbn [repeat app].
        assert (R0 : related (None :: ts) ((i, o') :: en') ((i, o') :: en)) by now constructor.
        assert (C0 : covers cs (None :: ts)) by exact (covers_none cs 1 ts C).
        revert R0. generalize ((i, o') :: en'), ((i, o') :: en). clear L1 L2. revert m. generalize fuel at 1 3 as f.
        induction f as [|f IHf]; intros m en1' en1 R; cbn [loop]; [constructor|].
        rewrite (eval_free cs _ en1' en1 m R C0 cond ltac:(assumption)). destruct (eval c callf en1 m cond) as [oc|]; cbn [bind]; [|constructor].
        destruct (cond_value oc) as [b|]; cbn [bind]; [|constructor]. destruct b; [|now apply res_normal with (j := 0%nat)].
        pose proof (IH cs _ en1' en1 m ltac:(assumption) R C0) as RB.
        destruct RB as [e|j e1' e1 m1 RB|v m1]; cbn [bind pop_ctl]; [constructor| |constructor].
        pose proof (related_length _ _ _ R) as [M1 M2]. rewrite M1, M2. apply related_pop in RB.
        rewrite (eval_free cs _ _ _ m1 RB C0 next ltac:(assumption)). destruct (eval c callf _ m1 next) as [v|]; cbn [bind]; [|constructor].
        destruct (assign_free cs _ _ _ m1 i [] v RB C0 ltac:(assumption)) as [(e0 & -> & ->)|(e2' & e2 & m2 & -> & -> & R2)]; cbn [bind]; [constructor|].
        now apply IHf.
    - rewrite (eval_free cs ts en' en m H C n ltac:(assumption)). destruct (eval c callf en m n) as [o|]; cbn [bind]; [|constructor].
      destruct (int_value o) as [k|]; cbn [bind]; [|constructor].
      rewrite (lookup_free cs ts en' en d H C), (lookup_free cs ts en' en s0 H C) by assumption.
      destruct (lookup d en) as [od|]; [|constructor]. destruct (lookup s0 en) as [os|]; [|constructor]. cbn [big_endian].
      destruct (memcpy_obj_h big od os k) as [od'|]; cbn [bind]; [|constructor]. apply res_normal with (j := 0%nat). now apply update_free with (cs := cs).
    - constructor.
    - rewrite (eval_free cs ts en' en m H C e K). destruct (eval c callf en m e) as [o|]; cbn [bind]; constructor.
  Qed.
End Width.

(** ** Calls *)

Lemma related_same s : forall en, related s (repeat None (List.length en)) en en.
Proof. induction en as [|[x o] en IH]; cbn; constructor. exact IH. Qed.

Lemma body_width s big c callf callf' fuel f args m : s = U32 \/ s = U64 -> (forall g o, callf' g o = callf g o) ->
  indices_only [] (f_body f) = true ->
  run_body_h (mkhost big s) c callf' fuel f args m = run_body_h (mkhost big U64) c callf fuel f args m.
Proof.
  intros Hs Hc K. unfold run_body_h. destruct (bind_params c (f_params f) args) as [en|]; cbn [bind]; [|reflexivity].
  assert (C : covers [] (repeat None (List.length en))) by (intros x k I; apply repeat_spec in I; discriminate I).
  pose proof (exec_width s Hs c callf callf' Hc big fuel (f_body f) [] _ en en m K (related_same s en) C) as R.
  inversion R as [e E1 E2|j en' en1 m1 RR E1 E2|v m1 E1 E2]; reflexivity.
Qed.

Lemma helpers_indices : forall f, In f helpers -> indices_only [] (f_body f) = true.
Proof. apply forallb_forall. vm_compute. reflexivity. Qed.
Lemma library_indices : forall f, In f library -> indices_only [] (f_body f) = true.
Proof. apply forallb_forall. vm_compute. reflexivity. Qed.

Lemma calls_width s big c fuel : s = U32 \/ s = U64 -> forall d g o,
  call_helper_h (mkhost big s) c helpers fuel d g o = call_helper_h (mkhost big U64) c helpers fuel d g o.
Proof.
  intros Hs. induction d as [|d IH]; intros g o; cbn [call_helper_h]; [reflexivity|].
  destruct (find _ helpers) as [f|] eqn:E; [|reflexivity]. apply find_some in E.
  now rewrite (body_width s big c _ _ fuel f [o] [] Hs IH (helpers_indices f (proj1 E))).
Qed.

Theorem width_irrelevant h c m f args : real_host h -> In f library ->
  run_host h c m f args = run_host (mkhost (big_endian h) U64) c m f args.
Proof.
  intros Hh I. destruct h as [big s]. unfold run_host. f_equal.
  exact (body_width s big c _ _ loop_fuel f args m Hh (calls_width s big c loop_fuel Hh call_depth) (library_indices f I)).
Qed.
