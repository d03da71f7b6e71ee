(** Proofs about the evaluation of floating-point expressions in a wider format. *)
From Coq Require Import ZArith String List Bool Lia.
From Coq Require Import Floats.SpecFloat.
From Flocq Require Import Core BinarySingleNaN.
From Verif Require Import Types FloatBits FloatR Syntax Interp ProgRecip ProgAdd ProgSub ProgMul ProgPerm ProgRev Library Typing TypeSound MetaSpec Excess P_Round P_Contract.
From Verif Require P_Valid2.
Import ListNotations.
Open Scope Z_scope.

(** ** Operations *)

Lemma decode_valid' t z : fty t -> valid_binary (fprec t) (femax t) (decode t z) = true.
Proof.
  intros Ht. unfold decode.
  assert (Hp : 0 < fhid t) by (destruct Ht as [-> | ->]; reflexivity).
  assert (Hq : 0 < fexps t) by (destruct Ht as [-> | ->]; reflexivity).
  pose proof (Z.mod_pos_bound z (fhid t) Hp) as B1. pose proof (Z.mod_pos_bound (z / fhid t) (fexps t) Hq) as B2.
  destruct (Z.eqb_spec ((z / fhid t) mod fexps t) 0) as [E0|E0].
  - destruct (z mod fhid t) as [|p|p]; try reflexivity. cbn [valid_binary]. apply bounded_iff; [exact Ht|]. left. lia.
  - destruct (Z.eqb_spec ((z / fhid t) mod fexps t) (fexps t - 1)) as [E1|E1].
    + destruct (z mod fhid t =? 0); reflexivity.
    + destruct (z mod fhid t + fhid t) as [|p|p] eqn:Ep; try reflexivity. cbn [valid_binary].
      apply bounded_iff; [exact Ht|]. right. split; [lia|].
      destruct Ht as [-> | ->]; cbn [fexps fprec femin femax] in *; lia.
Qed.

Lemma as_float t z : fty t -> exists x : binary_float (fprec t) (femax t), decode t z = B2SF x.
Proof. intros Ht. exists (SF2B (decode t z) (decode_valid' t z Ht)). symmetry. apply B2SF_SF2B. Qed.

Definition formats : list format := [double_format; x87_format; quad_format].

(** Rounding to the format first makes no difference. *)
Definition rounds_ok (w : format) (t : sty) : bool :=
  is_float t && ((2 * fprec t + 2 <=? digits w) && (4 * femax t <=? max_exp w) || (fprec t =? digits w) && (femax t =? max_exp w)).

Lemma is_float_fty t : is_float t = true -> fty t.
Proof. destruct t; cbn; intros; try discriminate; [left|right]; reflexivity. Qed.

Section Format.
  Variable w : format.
  Hypothesis Hw : In w formats.

  Lemma format_bounds : 53 <= digits w /\ 1024 <= max_exp w /\ digits w < max_exp w.
  Proof. cbn in Hw. destruct Hw as [<- | [<- | [<- | []]]]; cbn; lia. Qed.
  Lemma Hpw : Prec_gt_0 (digits w).
  Proof. unfold Prec_gt_0. destruct format_bounds. lia. Qed.
  Lemma Hew : Prec_lt_emax (digits w) (max_exp w).
  Proof. unfold Prec_lt_emax. destruct format_bounds. lia. Qed.
  Lemma narrower t : fty t -> fprec t <= digits w /\ femax t <= max_exp w.
  Proof. destruct format_bounds as (A & B & _). intros [-> | ->]; cbn; lia. Qed.

  Definition op_of (op : binop) : Z -> Z -> spec_float -> spec_float -> spec_float :=
    match op with BAdd => SFadd | BSub => SFsub | BMul => SFmul | _ => SFdiv end.
  Definition is_arith (op : binop) : bool := match op with BAdd | BSub | BMul | BDiv => true | _ => false end.
  Definition is_compare (op : binop) : bool := match op with BLt | BGt | BLe | BGe | BEq | BNe => true | _ => false end.

  Lemma op_valid op p e (Hp : Prec_gt_0 p) (He : Prec_lt_emax p e) (x y : binary_float p e) :
    exists z : binary_float p e, op_of op p e (B2SF x) (B2SF y) = B2SF z.
  Proof.
    destruct op; cbn [op_of]; rewrite ?(SFadd_equiv p e Hp He), ?(SFsub_equiv p e Hp He), ?(SFmul_equiv p e Hp He), ?(SFdiv_equiv p e Hp He); eauto.
  Qed.

  Lemma op_twice op t z1 z2 : rounds_ok w t = true ->
    sf_cvt t (op_of op (digits w) (max_exp w) (Excess.widen w (decode t z1)) (Excess.widen w (decode t z2))) =
    op_of op (fprec t) (femax t) (decode t z1) (decode t z2).
  Proof.
    intros R. apply andb_prop in R. destruct R as [F R]. apply is_float_fty in F.
    destruct (as_float t z1 F) as [x Ex]. destruct (as_float t z2 F) as [y Ey]. rewrite Ex, Ey.
    change (sf_cvt t) with (narrow (fprec t) (femax t)).
    change (Excess.widen w) with (P_Round.widen (digits w) (max_exp w)).
    pose proof (narrower t F) as [N1 N2]. apply orb_prop in R. destruct R as [R|R]; apply andb_prop in R; destruct R as [R1 R2].
    - apply Z.leb_le in R1, R2.
      destruct op; cbn [op_of]; first
        [ apply add_twice; trivial; first [apply Hprec|apply Hmax|apply Hpw|apply Hew]
        | apply sub_twice; trivial; first [apply Hprec|apply Hmax|apply Hpw|apply Hew]
        | apply mul_twice; trivial; first [apply Hprec|apply Hmax|apply Hpw|apply Hew]
        | apply div_twice; trivial; first [apply Hprec|apply Hmax|apply Hpw|apply Hew] ].
    - apply Z.eqb_eq in R1, R2. rewrite <- R1, <- R2.
      change (P_Round.widen (fprec t) (femax t)) with (narrow (fprec t) (femax t)).
      rewrite !(narrow_same (fprec t) (femax t) (Hprec t) (Hmax t)).
      destruct (op_valid op (fprec t) (femax t) (Hprec t) (Hmax t) x y) as [z ->]. apply narrow_same; [apply Hprec|apply Hmax].
  Qed.

  Lemma compare_same op t z1 z2 : is_float t = true ->
    compare_float op (Excess.widen w (decode t z1)) (Excess.widen w (decode t z2)) = compare_float op (decode t z1) (decode t z2).
  Proof.
    intros F. apply is_float_fty in F.
    destruct (as_float t z1 F) as [x Ex]. destruct (as_float t z2 F) as [y Ey]. rewrite Ex, Ey.
    change (Excess.widen w) with (P_Round.widen (digits w) (max_exp w)).
    pose proof (narrower t F) as [N1 N2]. unfold compare_float, SFltb, SFleb, SFeqb.
    rewrite !(compare_widened (fprec t) (femax t) (digits w) (max_exp w) Hpw Hew N1 N2). reflexivity.
  Qed.

  Lemma usual_same t : is_float t = true -> usual t t = t.
  Proof. destruct t; cbn; congruence. Qed.

  Lemma convert_same c t z : convert c t t z = Ok z.
  Proof. unfold convert. now rewrite sty_eqb_same. Qed.

  Lemma binary_compare c op t z1 z2 : is_float t = true -> is_compare op = true ->
    binary_x w c op t z1 None t z2 None = let* o := binary c op t z1 t z2 in Ok (exact o).
  Proof.
    intros F C. unfold binary_x, binary. rewrite (usual_same t F), F. cbn [convert_x]. rewrite !convert_same.
    cbn [bind operand]. rewrite F.
    destruct op; try discriminate C; cbn [bind]; now rewrite compare_same.
  Qed.

  Lemma binary_arith c op t z1 z2 : rounds_ok w t = true -> is_arith op = true ->
    exists z x, binary_x w c op t z1 None t z2 None = Ok (rv t z, Some x) /\ binary c op t z1 t z2 = Ok (rv t z).
  Proof.
    intros R A. pose proof R as F. apply andb_prop in F. destruct F as [F _].
    unfold binary_x, binary. rewrite (usual_same t F), F. cbn [convert_x]. rewrite !convert_same.
    cbn [bind operand]. rewrite F. unfold fbin.
    pose proof (op_twice op t z1 z2 R) as T.
    destruct op; try discriminate A; cbn [op_of] in T; rewrite T; eauto.
  Qed.
End Format.

(** ** Expressions *)

(** An integer literal that is a number of type [t]. *)
Definition float_eqb (x y : spec_float) : bool :=
  match x, y with
  | S754_zero s, S754_zero s' => Bool.eqb s s'
  | S754_finite s m e, S754_finite s' m' e' => Bool.eqb s s' && Pos.eqb m m' && Z.eqb e e'
  | _, _ => false
  end.
Definition exact_literal (w : format) (t s : sty) (z : Z) : bool :=
  is_float t && negb (is_float s) && float_eqb (SpecFloat.binary_normalize (digits w) (max_exp w) z 0 false) (Excess.widen w (decode t (encode t 0 (sf_of_Z t z)))).

Lemma float_eqb_eq x y : float_eqb x y = true -> x = y.
Proof.
  destruct x, y; cbn; try discriminate; intros H; repeat (apply andb_prop in H; destruct H as [H ?]);
    repeat match goal with
    | H : Bool.eqb _ _ = true |- _ => apply Bool.eqb_prop in H
    | H : Pos.eqb _ _ = true |- _ => apply Pos.eqb_eq in H
    | H : Z.eqb _ _ = true |- _ => apply Z.eqb_eq in H
    end; congruence.
Qed.

Lemma binary_literal w c op t s z1 z : In w formats -> exact_literal w t s z = true -> is_compare op = true ->
  binary_x w c op t z1 None s z None = let* o := binary c op t z1 s z in Ok (exact o).
Proof.
  intros Hw E C. unfold exact_literal in E. apply andb_prop in E. destruct E as [E D]. apply andb_prop in E. destruct E as [F N].
  apply float_eqb_eq in D. apply negb_true_iff in N.
  assert (U : usual t s = t) by (destruct t, s; try discriminate F; try discriminate N; reflexivity).
  assert (S : sty_eqb s t = false) by (destruct t, s; try discriminate F; try discriminate N; reflexivity).
  assert (K : convert c s t z = Ok (encode t 0 (sf_of_Z t z))) by (unfold convert; rewrite S, N, F; reflexivity).
  unfold binary_x, binary. rewrite U, F. cbn [convert_x]. rewrite convert_same, K. cbn [bind operand]. rewrite F, N, D.
  destruct op; try discriminate C; cbn [bind]; now rewrite (compare_same w Hw).
Qed.

(** Floating-point operators are comparisons of equal types or with literals. *)
Definition calm_expr (w : format) (hs : list func) (g : tenv) : expr -> bool :=
  everywhere (fun e => match e with
    | EBin op a b =>
        match type_of hs g a, type_of hs g b with
        | Some (TScal s), Some (TScal s') => negb (is_float (usual s s')) || is_compare op && (sty_eqb s s' || match b with ELit _ z => exact_literal w s s' z | _ => false end)
        | _, _ => false
        end
    | _ => true
    end).

(** An operation on floats, rounded as if there was no other format. *)
Definition root_expr (w : format) (hs : list func) (g : tenv) (e : expr) : bool :=
  match e with
  | EBin op a b =>
      is_arith op && calm_expr w hs g a && calm_expr w hs g b &&
      match type_of hs g a, type_of hs g b with
      | Some (TScal s), Some (TScal s') => sty_eqb s s' && rounds_ok w s
      | _, _ => false
      end
  | _ => false
  end.

(** The value of [e] becomes an object of type [u]. *)
Definition own_type (w : format) (hs : list func) (g : tenv) (u : ty) (e : expr) : bool :=
  calm_expr w hs g e || root_expr w hs g e && match type_of hs g e with Some t => same_ty t u | None => false end.

Fixpoint settled (w : format) (hs : list func) (ret : ty) (g : tenv) (s : stmt) : bool :=
  match s with
  | SSkip | SAbort | SDecl _ _ None => true
  | SSeq a b => settled w hs ret g a && match check_stmt hs no_more ret g a with Some g' => settled w hs ret g' b | None => false end
  | SDecl t x (Some e) => own_type w hs g t e
  | SAssign x path e =>
      forallb (calm_expr w hs g) path &&
      match tfind x g with
      | Some (TPtr t) => own_type w hs g (TScal t) e
      | Some t => match path_type hs no_more g t path with Some u => own_type w hs g u e | None => false end
      | None => false
      end
  | SIf e a b => calm_expr w hs g e && settled w hs ret g a && settled w hs ret g b
  | SFor t i init cond next body =>
      let g' := (i, TScal t) :: g in
      calm_expr w hs g init && calm_expr w hs g' cond && calm_expr w hs g' next && settled w hs ret g' body
  | SMemcpy d s n => calm_expr w hs g n
  | SReturn e => calm_expr w hs g e || root_expr w hs g e
  end.

Lemma exact_bind {A B} (r : res A) (k : A -> res B) (k' : A -> res B) : (forall a, k a = k' a) -> bind r k = bind r k'.
Proof. apply bind_ext. Qed.

Section Same.
  Variable w : format.
  Hypothesis Hw : In w formats.
  Variable c : cfg.
  Variables callf callf' : string -> obj -> res obj.
  Variable hs : list func.

  Section Eval.
    Variable m : memory.
    Hypothesis Hgood : calls_good callf hs m.
    Hypothesis Hsame : calls_same callf callf' hs m.
    Variable en : env.
    Variable g : tenv.
    Hypothesis HE : env_has (map fst m) en g.

    Notation exactly r := (let* o := r in Ok (exact o)).

    Lemma eval_calm : forall e t, type_of hs g e = Some t -> calm_expr w hs g e = true ->
      eval_x w c callf' en m e = exactly (eval c callf en m e).
    Proof.
      unfold calm_expr.
      induction e as [s z|y|a IHa i IHi|op a IHa|op a IHa b IHb|a IHa b IHb|a IHa b IHb|a IHa b IHb d IHd|s a IHa|s a IHa b IHb|s a IHa b IHb|f a IHa];
        intros t HT HN; cbn [type_of] in HT; cbn [everywhere] in HN;
        repeat match goal with H : (_ && _)%bool = true |- _ => apply andb_prop in H; destruct H end;
        cbn [eval eval_x].
      - reflexivity.
      - destruct (lookup y en); reflexivity.
      - destruct (type_of hs g a) as [ta|]; [|discriminate]. destruct (type_of hs g i) as [ti|]; [|destruct ta; discriminate].
        rewrite (IHa _ eq_refl), (IHi _ eq_refl) by assumption.
        destruct (eval c callf en m a) as [o|]; cbn [bind]; [|reflexivity]. destruct (eval c callf en m i) as [oi|]; cbn [bind exact fst]; [|reflexivity].
        destruct (int_value oi); reflexivity.
      - destruct (type_of hs g a) as [ta|]; [|destruct op; discriminate]. rewrite (IHa _ eq_refl) by assumption.
        destruct (eval c callf en m a) as [o|]; cbn [bind exact fst snd]; [|reflexivity]. destruct (scalar o); cbn [bind]; [|reflexivity]. destruct op; reflexivity.
      - destruct (type_of hs g a) as [ta|] eqn:Ea; [|discriminate HT]. destruct (type_of hs g b) as [tb|] eqn:Eb; [|destruct ta; discriminate HT].
        rewrite (IHa _ eq_refl), (IHb _ eq_refl) by assumption.
        destruct ta as [|s|? ?|?|?]; try discriminate HT. destruct tb as [|s'|? ?|?|?]; try discriminate HT.
        pose proof (type_sound c callf hs m Hgood en g HE a _ Ea) as Ga. pose proof (type_sound c callf hs m Hgood en g HE b _ Eb) as Gb.
        destruct (eval c callf en m a) as [oa|]; cbn [bind exact fst snd good] in *; [|reflexivity].
        apply has_scal in Ga. destruct Ga as [[za|] ->]; cbn [scalar bind]; [|reflexivity].
        destruct (eval c callf en m b) as [ob|] eqn:EV; cbn [bind exact fst snd good] in *; [|reflexivity].
        apply has_scal in Gb. destruct Gb as [[zb|] ->]; cbn [scalar bind fst snd]; [|reflexivity].
        match goal with H : (_ || _)%bool = true |- _ => apply orb_prop in H; destruct H as [H|H] end.
        + unfold binary_x. match goal with H : negb _ = true |- _ => apply negb_true_iff in H; rewrite H end. reflexivity.
        + match goal with H : (_ && _)%bool = true |- _ => apply andb_prop in H; destruct H as [C E] end. apply orb_prop in E. destruct E as [E|E]; [|destruct b; try discriminate E; cbn [type_of] in Eb; injection Eb as ->; cbn [eval] in EV; injection EV as <-; now apply binary_literal].
          apply sty_eqb_true in E. subst s'.
          destruct (is_float s) eqn:F.
          * now apply binary_compare.
          * unfold binary_x. replace (is_float (usual s s)) with false by (destruct s; cbn in *; congruence). reflexivity.
      - destruct (type_of hs g a) as [ta|]; [|discriminate]. destruct (type_of hs g b) as [tb|]; [|destruct ta; discriminate].
        rewrite (IHa _ eq_refl), (IHb _ eq_refl) by assumption.
        destruct (eval c callf en m a) as [o|]; cbn [bind]; [|reflexivity]. unfold cond_x. cbn [exact fst snd].
        destruct (cond_value o) as [[|]|]; cbn [bind]; try reflexivity. destruct (eval c callf en m b) as [o'|]; cbn [bind exact fst snd]; [|reflexivity].
        destruct (cond_value o'); reflexivity.
      - destruct (type_of hs g a) as [ta|]; [|discriminate]. destruct (type_of hs g b) as [tb|]; [|destruct ta; discriminate].
        rewrite (IHa _ eq_refl), (IHb _ eq_refl) by assumption.
        destruct (eval c callf en m a) as [o|]; cbn [bind]; [|reflexivity]. unfold cond_x. cbn [exact fst snd].
        destruct (cond_value o) as [[|]|]; cbn [bind]; try reflexivity. destruct (eval c callf en m b) as [o'|]; cbn [bind exact fst snd]; [|reflexivity].
        destruct (cond_value o'); reflexivity.
      - destruct (type_of hs g a) as [ta|]; [|discriminate]. destruct (type_of hs g b) as [tb|]; [|destruct ta; discriminate].
        destruct (type_of hs g d) as [td|]; [|destruct ta; discriminate].
        rewrite (IHa _ eq_refl), (IHb _ eq_refl), (IHd _ eq_refl) by assumption.
        destruct (eval c callf en m a) as [o|]; cbn [bind]; [|reflexivity]. unfold cond_x. cbn [exact fst snd].
        destruct (cond_value o) as [[|]|]; reflexivity.
      - destruct (type_of hs g a) as [ta|]; [|discriminate]. rewrite (IHa _ eq_refl) by assumption.
        destruct (eval c callf en m a) as [o|]; cbn [bind exact fst snd]; [|reflexivity]. destruct (scalar o) as [q|]; cbn [bind]; [|reflexivity].
        cbn [convert_x]. destruct (convert c (fst q) s (snd q)); reflexivity.
      - destruct (is_float s) eqn:F; [discriminate|]. destruct (type_of hs g a) as [ta|]; [|discriminate]. destruct (type_of hs g b) as [tb|]; [|destruct ta; discriminate].
        rewrite (IHa _ eq_refl), (IHb _ eq_refl) by assumption.
        destruct (eval c callf en m a) as [oa|]; cbn [bind exact fst snd]; [|reflexivity]. destruct (scalar oa) as [pa|]; cbn [bind]; [|reflexivity].
        destruct (eval c callf en m b) as [ob|]; cbn [bind exact fst snd]; [|reflexivity]. destruct (scalar ob) as [pb|]; cbn [bind]; [|reflexivity].
        unfold minmax. rewrite F. cbn [convert_x]. destruct (convert c (fst pa) s (snd pa)) as [xa|]; cbn [bind]; [|reflexivity].
        destruct (convert c (fst pb) s (snd pb)) as [xb|]; cbn [bind]; [|reflexivity]. rewrite !convert_same. reflexivity.
      - destruct (is_float s) eqn:F; [discriminate|]. destruct (type_of hs g a) as [ta|]; [|discriminate]. destruct (type_of hs g b) as [tb|]; [|destruct ta; discriminate].
        rewrite (IHa _ eq_refl), (IHb _ eq_refl) by assumption.
        destruct (eval c callf en m a) as [oa|]; cbn [bind exact fst snd]; [|reflexivity]. destruct (scalar oa) as [pa|]; cbn [bind]; [|reflexivity].
        destruct (eval c callf en m b) as [ob|]; cbn [bind exact fst snd]; [|reflexivity]. destruct (scalar ob) as [pb|]; cbn [bind]; [|reflexivity].
        unfold minmax. rewrite F. cbn [convert_x]. destruct (convert c (fst pa) s (snd pa)) as [xa|]; cbn [bind]; [|reflexivity].
        destruct (convert c (fst pb) s (snd pb)) as [xb|]; cbn [bind]; [|reflexivity]. rewrite !convert_same. reflexivity.
      - destruct (find _ hs) as [h|] eqn:Ef; [|discriminate HT]. destruct (type_of hs g a) as [ta|] eqn:Ea; [|discriminate HT].
        destruct (f_params h) as [|[y p] [|? ?]] eqn:Ep; try discriminate HT. destruct (initialises ta p) eqn:Ei; [|discriminate HT].
        rewrite (IHa _ eq_refl) by assumption. pose proof (type_sound c callf hs m Hgood en g HE a _ Ea) as Ga.
        destruct (eval c callf en m a) as [o|]; cbn [bind exact fst snd good] in *; [|reflexivity].
        now rewrite (Hsame f h y p ta o Ef Ep Ei Ga).
    Qed.

    (** The value of an operation: the same, and the one before rounding. *)
    Lemma eval_root e : root_expr w hs g e = true -> exists s,
      type_of hs g e = Some (TScal s) /\
      ((exists z x, eval_x w c callf' en m e = Ok (rv s z, Some x) /\ eval c callf en m e = Ok (rv s z)) \/
       (exists er, eval_x w c callf' en m e = Err er /\ eval c callf en m e = Err er)).
    Proof.
      destruct e as [| | | |op a b| | | | | | |]; try discriminate. cbn [root_expr]. intros H.
      repeat match goal with H : (_ && _)%bool = true |- _ => apply andb_prop in H; destruct H end.
      destruct (type_of hs g a) as [[|s|? ?|?|?]|] eqn:Ea; try discriminate. destruct (type_of hs g b) as [[|s'|? ?|?|?]|] eqn:Eb; try discriminate.
      match goal with H : (_ && _)%bool = true |- _ => apply andb_prop in H; destruct H as [Es R] end. apply sty_eqb_true in Es. subst s'.
      pose proof R as F. apply andb_prop in F. destruct F as [F _].
      exists s. split; [cbn [type_of]; rewrite Ea, Eb; destruct op; try discriminate; now rewrite usual_same|].
      cbn [eval eval_x]. rewrite (eval_calm a _ Ea), (eval_calm b _ Eb) by assumption.
      pose proof (type_sound c callf hs m Hgood en g HE a _ Ea) as Ga. pose proof (type_sound c callf hs m Hgood en g HE b _ Eb) as Gb.
      destruct (eval c callf en m a) as [oa|]; cbn [bind exact fst snd good] in *; [|eauto].
      apply has_scal in Ga. destruct Ga as [[za|] ->]; cbn [scalar bind]; [|eauto].
      destruct (eval c callf en m b) as [ob|]; cbn [bind exact fst snd good] in *; [|eauto].
      apply has_scal in Gb. destruct Gb as [[zb|] ->]; cbn [scalar bind fst snd]; [|eauto].
      left. apply binary_arith; assumption.
    Qed.

    Lemma eval_any e t : type_of hs g e = Some t -> calm_expr w hs g e || root_expr w hs g e = true ->
      (let* v := eval_x w c callf' en m e in Ok (fst v)) = eval c callf en m e.
    Proof.
      intros HT H. apply orb_prop in H. destruct H as [H|H].
      - rewrite (eval_calm e t HT H). destruct (eval c callf en m e); reflexivity.
      - destruct (eval_root e H) as (s & _ & [(z & x & -> & ->)|(er & -> & ->)]); reflexivity.
    Qed.

    Lemma init_own u e {B} (k : obj -> res B) : own_type w hs g u e = true -> type_of hs g e <> None ->
      (let* v := eval_x w c callf' en m e in let* o := init_x c u v in k o) =
      (let* v := eval c callf en m e in let* o := init_obj c u v in k o).
    Proof.
      intros H HT. unfold own_type in H. destruct (type_of hs g e) as [t|] eqn:ET; [|congruence]. clear HT.
      apply orb_prop in H. destruct H as [H|H].
      - rewrite (eval_calm e t ET H). destruct (eval c callf en m e) as [o|]; cbn [bind]; [|reflexivity]. destruct u; reflexivity.
      - apply andb_prop in H. destruct H as [H E]. apply same_ty_eq in E. subst u.
        destruct (eval_root e H) as (s & Es & [(z & x & -> & ->)|(er & -> & ->)]); [|reflexivity].
        rewrite ET in Es. injection Es as ->. cbn [bind init_x init_obj fst snd scalar rv convert_x].
        now rewrite sty_eqb_same, convert_same.
    Qed.
  End Eval.

  (** ** Statements *)

  Section Exec.
    Variable fuel : nat.
    Variable sh : list sty.
    Hypothesis Hgood : forall m, map fst m = sh -> calls_good callf hs m.
    Hypothesis Hsame : forall m, map fst m = sh -> calls_same callf callf' hs m.
    Let extra := no_more.

    Lemma typed_of en g m e : env_has sh en g -> map fst m = sh -> calm_expr w hs g e = true -> type_of hs g e <> None ->
      eval_x w c callf' en m e = (let* o := eval c callf en m e in Ok (exact o)).
    Proof.
      intros HE HM HX HT. destruct (type_of hs g e) as [t|] eqn:E; [|congruence].
      apply (eval_calm m (Hgood m HM) (Hsame m HM) en g) with (t := t); trivial. now rewrite HM.
    Qed.
    Lemma scalar_typed g e : scalar_ok hs extra g e = true -> type_of hs g e <> None.
    Proof. unfold scalar_ok. destruct (type_of hs g e); [discriminate|]. now rewrite andb_false_r. Qed.
    Lemma int_typed g e : int_ok hs extra g e = true -> type_of hs g e <> None.
    Proof. unfold int_ok. destruct (type_of hs g e); [discriminate|]. now rewrite andb_false_r. Qed.
    Lemma type_typed g u e : type_ok hs extra g u e = true -> type_of hs g e <> None.
    Proof. unfold type_ok. destruct (type_of hs g e); [discriminate|]. now rewrite andb_false_r. Qed.

    Lemma path_calm en g m : env_has sh en g -> map fst m = sh -> forall path t u, path_type hs extra g t path = Some u ->
      forallb (calm_expr w hs g) path = true -> eval_path_x w c callf' en m path = eval_path c callf en m path.
    Proof.
      intros HE HM. induction path as [|e path IH]; intros t u H HX; cbn [eval_path_x eval_path path_type forallb] in *; [reflexivity|].
      apply andb_prop in HX. destruct HX as [X1 X2].
      destruct (int_ok hs extra g e) eqn:EI; [|discriminate]. rewrite (typed_of en g m e HE HM X1 (int_typed _ _ EI)).
      assert (R : eval_path_x w c callf' en m path = eval_path c callf en m path).
      { destruct t as [| |n t|ts|]; try discriminate H; [now apply (IH t u)|].
        destruct e; try discriminate H. destruct (nth_error ts _) as [t'|]; [|discriminate]. now apply (IH t' u). }
      rewrite R. destruct (eval c callf en m e); reflexivity.
    Qed.

    (** The scalar at a path of type [s] has type [s]. *)
    Definition at_type (o : obj) (ks : list Z) (s : sty) : Prop :=
      type_at o ks = Ok s \/ exists er, type_at o ks = Err er /\ forall t z, put c o ks t z = Err er.
    Lemma path_at en g m s : env_has sh en g -> map fst m = sh -> forall path t,
      path_type hs extra g t path = Some (TScal s) ->
      good (fun ks => forall o, has sh t o -> at_type o ks s) (eval_path c callf en m path).
    Proof.
      intros HE HM. induction path as [|e path IH]; intros t H; cbn [path_type eval_path] in *.
      - injection H as ->. cbn [good]. intros o Ho. apply has_scal in Ho. destruct Ho as [v ->]. now left.
      - destruct (int_ok hs extra g e) eqn:EI; [|discriminate].
        assert (G := int_ok_good c callf hs extra sh Hgood en g m e HE HM EI).
        destruct t as [|s'|n t|ts|s']; try discriminate H.
        + eapply good_bind; [exact G|]. intros oi (si & Hi & Fi). eapply good_bind; [eapply int_good; eauto|]. intros k _.
          eapply good_bind; [apply (IH t H)|]. intros ks Hks. cbn [good]. intros o Ho.
          destruct o; cbn [has] in Ho; try contradiction. destruct Ho as [L F]. unfold at_type. cbn [type_at put].
          pose proof (get_good _ l k F) as GG. destruct (get_idx l k) as [x|er]; cbn [bind good] in *; [|right; eauto].
          destruct (Hks x GG) as [E|(er & E1 & E2)]; [now left|]. right. exists er. split; [exact E1|]. intros. now rewrite E2.
        + destruct e as [si z| | | | | | | | | | |]; try discriminate H.
          destruct (nth_error ts (Z.to_nat z)) as [t'|] eqn:EN; [|discriminate].
          cbn [eval bind int_value scalar rv fst snd] in *. destruct G as (si' & Hi & Fi). cbn in Hi. subst si'. rewrite Fi.
          cbn [bind]. eapply good_bind; [apply (IH t' H)|]. intros ks Hks. cbn [good]. intros o Ho.
          destruct o as [|l|]; try (cbn [has] in Ho; contradiction). rewrite has_struct in Ho. unfold at_type. cbn [type_at put].
          pose proof (get_good_nth sh ts l z t' Ho EN) as GG. destruct (get_idx l z) as [x|er]; cbn [bind good] in *; [|right; eauto].
          destruct (Hks x GG) as [E|(er & E1 & E2)]; [now left|]. right. exists er. split; [exact E1|]. intros. now rewrite E2.
    Qed.

    Lemma assign_own en m y ks o s z x : lookup y en = Some o -> at_type o ks s \/ (exists b off k, o = OPtr s b off /\ ks = [k]) ->
      assign_x c en m y ks (rv s z, Some x) = assign c en m y ks (rv s z).
    Proof.
      intros L H. unfold assign_x. cbn [fst snd scalar rv bind]. rewrite L.
      destruct H as [[E|(er & E1 & E2)]|(b & off & k & -> & ->)].
      - rewrite E. cbn [bind convert_x]. rewrite sty_eqb_same. reflexivity.
      - rewrite E1. cbn [bind]. unfold assign. cbn [scalar rv bind fst snd]. rewrite L.
        destruct o; rewrite ?E2; try reflexivity. destruct ks as [|? []]; cbn in *; try congruence.
      - cbn [type_at bind convert_x]. rewrite sty_eqb_same. reflexivity.
    Qed.

    Lemma loop_same_x ret g cond cond' step step' :
      (forall en m, state_ok sh g en m -> cond' en m = cond en m) ->
      (forall en m, state_ok sh g en m -> step' en m = step en m) ->
      (forall en m, state_ok sh g en m -> good (ctl_ok sh ret g) (step en m)) ->
      forall k en m, state_ok sh g en m -> loop k cond' step' en m = loop k cond step en m.
    Proof.
      intros HC HS HG. induction k as [|k IH]; intros en m H; cbn [loop]; [reflexivity|].
      rewrite (HC en m H). apply bind_ext. intros b. destruct b; [|reflexivity].
      apply same_bind with (P := ctl_ok sh ret g); [now apply HS|now apply HG|].
      intros r Hr. destruct r as [en' m'|v m']; [now apply IH|reflexivity].
    Qed.

    Lemma bind_nested {A B C} (r : res A) (k : A -> res B) (h : B -> res C) :
      bind r (fun a => bind (k a) h) = bind (bind r k) h.
    Proof. destruct r; reflexivity. Qed.

    Lemma bind_exact {A B} (r : res A) (k : wide -> res B) (f : A -> obj) :
      bind (let* o := r in Ok (exact (f o))) k = bind r (fun o => k (exact (f o))).
    Proof. destruct r; reflexivity. Qed.

    Lemma assigned en g m y ks o u e : env_has sh en g -> map fst m = sh -> type_of hs g e <> None ->
      lookup y en = Some o -> own_type w hs g (TScal u) e = true ->
      at_type o ks u \/ (exists b off k, o = OPtr u b off /\ ks = [k]) ->
      (let* v := eval_x w c callf' en m e in assign_x c en m y ks v) =
      (let* v := eval c callf en m e in assign c en m y ks v).
    Proof.
      intros HE HM HT L H A. unfold own_type in H. apply orb_prop in H. destruct H as [H|H].
      - rewrite (typed_of en g m e HE HM H HT). destruct (eval c callf en m e); reflexivity.
      - apply andb_prop in H. destruct H as [H ES].
        assert (HE' : env_has (map fst m) en g) by (now rewrite HM).
        destruct (eval_root m (Hgood m HM) (Hsame m HM) en g HE' e H) as (s & Es & R).
        rewrite Es in ES. apply same_ty_eq in ES. injection ES as <-.
        destruct R as [(z & x & -> & ->)|(er & -> & ->)]; [|reflexivity]. cbn [bind]. eapply assign_own; eauto.
    Qed.

    Theorem exec_settled ret : forall s g g' en m, check_stmt hs extra ret g s = Some g' -> settled w hs ret g s = true ->
      state_ok sh g en m -> exec_x w c callf' fuel s en m = exec c callf fuel s en m.
    Proof.
      induction s as [|s1 IH1 s2 IH2|t y o|y path e|e s1 IH1 s2 IH2|t i init cond next body IH|d s n| |e];
        intros g g' en m H HX HS; pose proof (exec_sound c callf hs extra fuel sh Hgood ret) as ES;
        cbn [check_stmt] in H; cbn [settled] in HX; cbn [exec exec_x].
      - reflexivity.
      - apply andb_prop in HX. destruct HX as [X1 X2]. change no_more with extra in X2.
        destruct (check_stmt hs extra ret g s1) as [g1|] eqn:E1; [|discriminate].
        apply same_bind with (P := ctl_ok sh ret g1); [eapply IH1; eauto|eapply ES; eauto|].
        intros r Hr. destruct r as [en' m'|v m']; [eapply IH2; eauto|reflexivity].
      - destruct HS as [HE HM]. destruct o as [e|]; [|reflexivity].
        destruct (type_ok hs extra g t e) eqn:ET; [|discriminate].
        assert (HE' : env_has (map fst m) en g) by (now rewrite HM).
        apply (init_own m (Hgood m HM) (Hsame m HM) en g HE' t e); [exact HX|now apply (type_typed g t)].
      - destruct HS as [HE HM]. apply andb_prop in HX. destruct HX as [XP XE]. destruct (tfind y g) as [t|] eqn:ET; [|discriminate].
        destruct (lookup_has sh en g y t HE ET) as (o & EL & Ho).
        assert (C : exists u, own_type w hs g (TScal u) e = true /\ type_of hs g e <> None /\
                    eval_path_x w c callf' en m path = eval_path c callf en m path /\
                    good (fun ks => at_type o ks u \/ (exists b off k, o = OPtr u b off /\ ks = [k])) (eval_path c callf en m path)).
        { assert (C : (exists s, t = TPtr s) \/ exists u, path_type hs extra g t path = Some (TScal u) /\ scalar_ok hs extra g e = true /\ own_type w hs g (TScal u) e = true).
          { destruct t; eauto; right; change no_more with extra in XE;
              match type of H with match ?p with _ => _ end = _ => destruct p as [[]|] eqn:EP end; try discriminate H;
              (destruct (scalar_ok hs extra g e); [|discriminate H]); eauto. }
          destruct C as [[s ->]|(u & EP & SO & XU)].
          - destruct path as [|i [|]]; try discriminate H. destruct (int_ok hs extra g i && scalar_ok hs extra g e)%bool eqn:EB; [|discriminate H].
            apply andb_prop in EB. destruct EB as [EI EO]. cbn [forallb] in XP. rewrite andb_true_r in XP.
            exists s. refine (conj XE (conj (scalar_typed g e EO) (conj _ _))); cbn [eval_path eval_path_x].
            + rewrite (typed_of en g m i HE HM XP (int_typed g i EI)). destruct (eval c callf en m i); reflexivity.
            + eapply good_bind; [eapply int_ok_good; eauto|]. intros oi (si & Hi & Fi). eapply good_bind; [eapply int_good; eauto|]. intros k _. cbn [bind good].
              right. destruct o; cbn [has] in Ho; try contradiction. destruct Ho as [<- _]. eauto.
          - exists u. refine (conj XU (conj (scalar_typed g e SO) (conj (path_calm en g m HE HM path t _ EP XP) _))).
            pose proof (path_at en g m u HE HM path t EP) as G. destruct (eval_path c callf en m path); cbn [good] in *; [|exact G]. left. now apply G. }
        destruct C as (u & XU & HT & -> & G). apply same_bind with (P := fun ks => at_type o ks u \/ (exists b off k, o = OPtr u b off /\ ks = [k])); [reflexivity|exact G|].
        intros ks Hks. pose proof (assigned en g m y ks o u e HE HM HT EL XU Hks) as A.
        exact (eq_trans (bind_nested _ _ _) (eq_trans (f_equal (fun r => let* r := r in Ok (Normal (fst r) (snd r))) A) (eq_sym (bind_nested _ _ _)))).
      - apply andb_prop in HX. destruct HX as [HX X2]. apply andb_prop in HX. destruct HX as [XE X1].
        destruct (scalar_ok hs extra g e) eqn:EX; [|discriminate].
        destruct (check_stmt hs extra ret g s1) as [g1|] eqn:E1; [|discriminate]. destruct (check_stmt hs extra ret g s2) as [g2|] eqn:E2; [|discriminate].
        rewrite (typed_of en g m e (proj1 HS) (proj2 HS) XE (scalar_typed g e EX)).
        rewrite (IH1 _ _ en m E1 X1 HS), (IH2 _ _ en m E2 X2 HS). destruct (eval c callf en m e); reflexivity.
      - repeat match goal with H : (_ && _)%bool = true |- _ => apply andb_prop in H; destruct H end.
        destruct (scalar_ok hs extra g init && scalar_ok hs extra ((i, TScal t) :: g) cond && scalar_ok hs extra ((i, TScal t) :: g) next)%bool eqn:EB; [|discriminate].
        destruct (check_stmt hs extra ret ((i, TScal t) :: g) body) as [gb|] eqn:Eb; [|discriminate]. injection H as <-.
        apply andb_prop in EB. destruct EB as [EB EN]. apply andb_prop in EB. destruct EB as [EI EC].
        destruct HS as [HE HM]. rewrite (typed_of en g m init HE HM) by (trivial; now apply scalar_typed). rewrite (bind_exact (eval c callf en m init) _ (fun o => o)).
        destruct (check_extends hs extra ret _ _ _ Eb) as [db ->].
        apply same_bind with (P := fun o => exists s, has sh (TScal s) o); [reflexivity|eapply scalar_ok_good; eauto|]. intros o [s Ho].
        apply same_bind with (P := has sh (TScal t)); [reflexivity|apply (initialises_has c (TScal s) (TScal t) sh o eq_refl Ho)|]. intros o' Ho'.
        f_equal. apply loop_same_x with (ret := ret) (g := (i, TScal t) :: g).
        + intros en1 m1 [HE1 HM1]. rewrite (typed_of en1 _ m1 cond HE1 HM1) by (trivial; now apply scalar_typed). destruct (eval c callf en1 m1 cond); reflexivity.
        + intros en1 m1 HS1. apply same_bind with (P := ctl_ok sh ret (db ++ (i, TScal t) :: g)); [eapply IH; eauto|eapply ES; eauto|].
          intros r Hr. assert (P := pop_ctl_ok sh ret ((i, TScal t) :: g) en1 db r (proj1 HS1) Hr).
          destruct (pop_ctl (List.length en1) r) as [en2 m2|v m2]; [|reflexivity].
          destruct P as [HE2 HM2]. rewrite (typed_of en2 _ m2 next HE2 HM2) by (trivial; now apply scalar_typed). destruct (eval c callf en2 m2 next); reflexivity.
        + intros en1 m1 HS1. eapply good_bind; [eapply ES; eauto|]. intros r Hr.
          assert (P := pop_ctl_ok sh ret ((i, TScal t) :: g) en1 db r (proj1 HS1) Hr).
          destruct (pop_ctl (List.length en1) r) as [en2 m2|v m2]; [|exact P].
          destruct P as [HE2 HM2]. eapply good_bind; [eapply scalar_ok_good; eauto|]. intros v [sv Hv].
          eapply good_bind; [eapply (assign_scalar c sh ((i, TScal t) :: g) en2 m2 i t v sv); [now split| |exact Hv]|].
          { cbn [tfind]. now rewrite String.eqb_refl. }
          intros r' Hr'. exact Hr'.
        + split; [|exact HM]. constructor; [now split|exact HE].
      - destruct HS as [HE HM]. destruct (tfind d g) as [td|]; [|discriminate]. destruct (tfind s g) as [ts|]; [|discriminate].
        destruct (int_ok hs extra g n) eqn:EI; [|discriminate]. rewrite (typed_of en g m n HE HM HX (int_typed g n EI)).
        destruct (eval c callf en m n); reflexivity.
      - reflexivity.
      - destruct HS as [HE HM].
        assert (C : type_ok hs extra g ret e = true).
        { destruct ret; try discriminate; (destruct (type_ok hs extra g _ e); [reflexivity|discriminate]). }
        destruct (type_of hs g e) as [t|] eqn:ET; [|now apply type_typed in C].
        assert (HE' : env_has (map fst m) en g) by (now rewrite HM).
        rewrite <- (eval_any m (Hgood m HM) (Hsame m HM) en g HE' e t ET HX). destruct (eval_x w c callf' en m e); reflexivity.
    Qed.

    Definition settled_func (f : func) : bool := type_checks hs extra f && settled w hs (f_ret f) (f_params f) (f_body f).

    Theorem run_body_settled f args m : settled_func f = true -> args_ok sh (f_params f) args -> map fst m = sh ->
      run_body_x w c callf' fuel f args m = run_body c callf fuel f args m.
    Proof.
      intros H HA HM. unfold settled_func, type_checks in H. apply andb_prop in H. destruct H as [H HX].
      destruct (check_stmt hs extra (f_ret f) (f_params f) (f_body f)) as [g'|] eqn:E; [|discriminate].
      unfold run_body_x, run_body. apply same_bind with (P := fun en => env_has sh en (f_params f)); [reflexivity|now apply params_good|].
      intros en He. rewrite (exec_settled _ _ _ _ en m E HX (conj He HM)). reflexivity.
    Qed.
  End Exec.
End Same.
