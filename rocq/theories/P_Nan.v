(** NaN conventions of the platform: two configurations that differ only in the bits of the
    NaNs they produce give results that differ only in the bits of NaNs. *)
From Coq Require Import ZArith List String Bool Lia.
From Coq Require Import Floats.SpecFloat.
From Verif Require Import Types FloatBits FloatSpec FloatR Syntax Interp ProgRecip Library Lane Spec Tables MetaSpec.
From Verif Require Import P_Cast P_Recip P_Valid.
Import ListNotations.
Open Scope Z_scope.

Lemma sty_eqb_eq a b : sty_eqb a b = true -> a = b.
Proof. destruct a, b; cbn; congruence. Qed.

(** Values that the operations cannot tell apart: floats with the same datum. *)
Definition srel (t : sty) (z z' : Z) : Prop := if is_float t then decode t z = decode t z' else z = z'.
Definition vrel (t : sty) (v v' : option Z) : Prop :=
  match v, v' with Some z, Some z' => srel t z z' | None, None => True | _, _ => False end.
Inductive orel : obj -> obj -> Prop :=
| or_scal t v v' : vrel t v v' -> orel (OScal t v) (OScal t v')
| or_arr l l' : Forall2 orel l l' -> orel (OArr l) (OArr l')
| or_ptr t b i : orel (OPtr t b i) (OPtr t b i).
Definition brel (b b' : block) : Prop := fst b = fst b' /\ Forall2 (vrel (fst b)) (snd b) (snd b').
Definition mrel : memory -> memory -> Prop := Forall2 brel.
Definition erel : env -> env -> Prop := Forall2 (fun p p' => fst p = fst p' /\ orel (snd p) (snd p')).
Definition rrel {A} (R : A -> A -> Prop) (r r' : res A) : Prop :=
  match r, r' with Ok a, Ok a' => R a a' | Err e, Err e' => e = e' | _, _ => False end.
Definition prel (p p' : sty * Z) : Prop := fst p = fst p' /\ srel (fst p) (snd p) (snd p').
Definition crel (r r' : ctl) : Prop :=
  match r, r' with
  | Normal en m, Normal en' m' => erel en en' /\ mrel m m'
  | Returned v m, Returned v' m' => orel v v' /\ mrel m m'
  | _, _ => False
  end.

Lemma srel_refl t z : srel t z z.
Proof. unfold srel. now destruct (is_float t). Qed.

Section OInd.
  Variable P : obj -> Prop.
  Hypothesis (HS : forall s v, P (OScal s v)) (HA : forall l, Forall P l -> P (OArr l)) (HP : forall s b off, P (OPtr s b off)).
  Fixpoint o_ind (o : obj) : P o :=
    match o with
    | OScal s v => HS s v
    | OArr l => HA l ((fix go l : Forall P l := match l with [] => Forall_nil P | x :: l' => Forall_cons x (o_ind x) (go l') end) l)
    | OPtr s b off => HP s b off
    end.
End OInd.

Lemma vrel_refl t v : vrel t v v.
Proof. destruct v; cbn; [apply srel_refl|exact I]. Qed.
Lemma orel_refl o : orel o o.
Proof.
  induction o using o_ind; constructor; [apply vrel_refl|]. induction H; constructor; trivial.
Qed.
Lemma Forall2_refl {A} (R : A -> A -> Prop) l : (forall x, R x x) -> Forall2 R l l.
Proof. intros H. induction l; constructor; auto. Qed.
Lemma Forall2_length {A B} (R : A -> B -> Prop) l l' : Forall2 R l l' -> List.length l = List.length l'.
Proof. induction 1; cbn; congruence. Qed.
Lemma mrel_refl m : mrel m m.
Proof. apply Forall2_refl. intros b. split; [reflexivity|]. apply Forall2_refl, vrel_refl. Qed.

Lemma rrel_bind {A B} (R : A -> A -> Prop) (S : B -> B -> Prop) (r r' : res A) (k k' : A -> res B) :
  rrel R r r' -> (forall a a', R a a' -> rrel S (k a) (k' a')) -> rrel S (bind r k) (bind r' k').
Proof. destruct r, r'; cbn; try contradiction; [auto|]. intros ->. auto. Qed.
Lemma rrel_eq {A} (R : A -> A -> Prop) (r : res A) : (forall a, R a a) -> rrel R r r.
Proof. intros H. destruct r; cbn; auto. Qed.

(** ** Primitive operations *)

Lemma dec_enc t k k' x : is_float t = true -> decode t (encode t k x) = decode t (encode t k' x).
Proof.
  intros F. destruct x; try reflexivity. cbn [encode].
  assert (N : forall k, decode t (qnan t k) = S754_nan); [|now rewrite !N].
  clear k k'. intros k. unfold decode, qnan, fsign.
  assert (T : t = F32 \/ t = F64) by (destruct t; try discriminate; auto).
  destruct T as [-> | ->]; cbn [fhid fexps fsgn femin].
  - replace (8388608 / 2) with 4194304 by reflexivity. set (b := Z.odd (k / 4194304)).
    pose proof (Z.mod_pos_bound k 4194304 ltac:(lia)) as R. set (p := k mod 4194304) in *. clearbody p b.
    assert (E : (((if b then 2147483648 else 0) + (256 - 1) * 8388608 + 4194304 + p) / 8388608) mod 256 = 255).
    { destruct b;
      [ replace (2147483648 + (256 - 1) * 8388608 + 4194304 + p) with (511 * 8388608 + (4194304 + p)) by lia
      | replace (0 + (256 - 1) * 8388608 + 4194304 + p) with (255 * 8388608 + (4194304 + p)) by lia];
      rewrite Z.div_add_l, (Z.div_small (4194304 + p)) by lia; reflexivity. }
    assert (M : ((if b then 2147483648 else 0) + (256 - 1) * 8388608 + 4194304 + p) mod 8388608 = 4194304 + p).
    { destruct b;
      [ replace (2147483648 + (256 - 1) * 8388608 + 4194304 + p) with (4194304 + p + 511 * 8388608) by lia
      | replace (0 + (256 - 1) * 8388608 + 4194304 + p) with (4194304 + p + 255 * 8388608) by lia];
      rewrite Z.mod_add, Z.mod_small by lia; reflexivity. }
    rewrite E, M. replace (4194304 + p =? 0) with false by lia. reflexivity.
  - replace (4503599627370496 / 2) with 2251799813685248 by reflexivity. set (b := Z.odd (k / 2251799813685248)).
    pose proof (Z.mod_pos_bound k 2251799813685248 ltac:(lia)) as R. set (p := k mod 2251799813685248) in *. clearbody p b.
    assert (E : (((if b then 9223372036854775808 else 0) + (2048 - 1) * 4503599627370496 + 2251799813685248 + p) / 4503599627370496) mod 2048 = 2047).
    { destruct b;
      [ replace (9223372036854775808 + (2048 - 1) * 4503599627370496 + 2251799813685248 + p) with (4095 * 4503599627370496 + (2251799813685248 + p)) by lia
      | replace (0 + (2048 - 1) * 4503599627370496 + 2251799813685248 + p) with (2047 * 4503599627370496 + (2251799813685248 + p)) by lia];
      rewrite Z.div_add_l, (Z.div_small (2251799813685248 + p)) by lia; reflexivity. }
    assert (M : ((if b then 9223372036854775808 else 0) + (2048 - 1) * 4503599627370496 + 2251799813685248 + p) mod 4503599627370496 = 2251799813685248 + p).
    { destruct b;
      [ replace (9223372036854775808 + (2048 - 1) * 4503599627370496 + 2251799813685248 + p) with (2251799813685248 + p + 4095 * 4503599627370496) by lia
      | replace (0 + (2048 - 1) * 4503599627370496 + 2251799813685248 + p) with (2251799813685248 + p + 2047 * 4503599627370496) by lia];
      rewrite Z.mod_add, Z.mod_small by lia; reflexivity. }
    rewrite E, M. replace (2251799813685248 + p =? 0) with false by lia. reflexivity.
Qed.

Section Ops.
  Variables c c' : cfg.
  Hypothesis HW : wrapv c = wrapv c'.

  Lemma convert_rel t t' z z' : srel t z z' -> rrel (srel t') (convert c t t' z) (convert c' t t' z').
  Proof.
    intros H. unfold convert. destruct (sty_eqb t t') eqn:E.
    - apply sty_eqb_eq in E. subst t'. exact H.
    - unfold srel in H. destruct (is_float t) eqn:F.
      + rewrite H. destruct (is_float t') eqn:F'.
        * cbn. unfold srel. rewrite F'. now apply dec_enc.
        * destruct (sf_trunc (decode t z')); [|reflexivity]. destruct (in_rangeb t' z0); [|reflexivity]. apply srel_refl.
      + subst z'. apply rrel_eq. apply srel_refl.
  Qed.

  Lemma arith_rel t z : arith c t z = arith c' t z.
  Proof. unfold arith. now rewrite HW. Qed.
  Lemma shl_rel t x n : shift_left c t x n = shift_left c' t x n.
  Proof. unfold shift_left. now rewrite HW. Qed.

  Lemma scalar_rel o o' : orel o o' -> rrel prel (scalar o) (scalar o').
  Proof. intros [t v v' H|l l' H|t b i]; cbn; trivial. destruct v, v'; cbn in H; try contradiction; cbn; [split; trivial|reflexivity]. Qed.
  Lemma truth_rel t z z' : srel t z z' -> truth t z = truth t z'.
  Proof. unfold srel, truth. destruct (is_float t); intros ->; reflexivity. Qed.
  Lemma int_rel o o' : orel o o' -> rrel eq (int_value o) (int_value o').
  Proof.
    intros H. eapply rrel_bind; [apply scalar_rel, H|]. intros [t z] [t' z'] [E S]. cbn in E, S. subst t'. cbn [fst snd].
    unfold srel in S. destruct (is_float t); [reflexivity|]. exact S.
  Qed.
  Lemma cond_rel o o' : orel o o' -> rrel eq (cond_value o) (cond_value o').
  Proof.
    intros H. eapply rrel_bind; [apply scalar_rel, H|]. intros [t z] [t' z'] [E S]. cbn in E, S. subst t'. cbn.
    now rewrite (truth_rel t z z').
  Qed.

  Lemma rv_rel t z z' : srel t z z' -> orel (rv t z) (rv t z').
  Proof. intros H. now constructor. Qed.
  Lemma int_eq t z z' : is_float t = false -> srel t z z' -> z = z'.
  Proof. unfold srel. now intros ->. Qed.
  Lemma dec_eq t z z' : is_float t = true -> srel t z z' -> decode t z = decode t z'.
  Proof. unfold srel. now intros ->. Qed.

  Lemma fbin_rel o t x x' y y' f : is_float t = true -> srel t x x' -> srel t y y' ->
    rrel orel (fbin c o t x y f) (fbin c' o t x' y' f).
  Proof.
    intros F X Y. unfold fbin. cbn. apply rv_rel. unfold srel. rewrite F.
    rewrite (dec_eq _ _ _ F X), (dec_eq _ _ _ F Y). now apply dec_enc.
  Qed.

  Lemma binary_rel op t1 x1 x1' t2 x2 x2' : srel t1 x1 x1' -> srel t2 x2 x2' ->
    rrel orel (binary c op t1 x1 t2 x2) (binary c' op t1 x1' t2 x2').
  Proof.
    intros H1 H2. unfold binary.
    assert (SH : forall k : Z -> Z -> res Z, rrel orel
        (if is_float t1 || is_float t2 then Err EStuck else let* z := k x1 x2 in Ok (rv (promote t1) z))
        (if is_float t1 || is_float t2 then Err EStuck else let* z := k x1' x2' in Ok (rv (promote t1) z))).
    { intros k. destruct (is_float t1) eqn:F1; [reflexivity|]. destruct (is_float t2) eqn:F2; [reflexivity|].
      rewrite (int_eq _ _ _ F1 H1), (int_eq _ _ _ F2 H2). apply rrel_eq, orel_refl. }
    assert (AR : forall k k' : Z -> Z -> res obj,
        (forall x x' y y', srel (usual t1 t2) x x' -> srel (usual t1 t2) y y' -> rrel orel (k x y) (k' x' y')) ->
        rrel orel (let* x := convert c t1 (usual t1 t2) x1 in let* y := convert c t2 (usual t1 t2) x2 in k x y)
                  (let* x := convert c' t1 (usual t1 t2) x1' in let* y := convert c' t2 (usual t1 t2) x2' in k' x y)).
    { intros k k' K. eapply rrel_bind; [apply convert_rel, H1|]. intros x x' X.
      eapply rrel_bind; [apply convert_rel, H2|]. intros y y' Y. now apply K. }
    destruct op;
      try (apply AR; intros x x' y y' X Y; destruct (is_float (usual t1 t2)) eqn:F;
       [ first [now apply fbin_rel | reflexivity |
                rewrite (dec_eq _ _ _ F X), (dec_eq _ _ _ F Y); apply rrel_eq, orel_refl]
       | rewrite (int_eq _ _ _ F X), (int_eq _ _ _ F Y), ?arith_rel; apply rrel_eq, orel_refl ]).
    - specialize (SH (fun a b => shift_left c (promote t1) a b)). cbn beta in SH.
      destruct (is_float t1 || is_float t2); [reflexivity|]. rewrite <- shl_rel. exact SH.
    - exact (SH (fun a b => shift_right (promote t1) a b)).
  Qed.

  Lemma unary_rel op t x x' : srel t x x' -> rrel orel (unary c op t x) (unary c' op t x').
  Proof.
    intros H. unfold unary. destruct op.
    all: try (rewrite (truth_rel t x x' H); apply orel_refl).
    all: destruct (is_float t) eqn:F; [reflexivity|]; rewrite (int_eq _ _ _ F H), ?arith_rel; apply rrel_eq, orel_refl.
  Qed.

  Lemma minmax_rel mx t t1 x1 x1' t2 x2 x2' : srel t1 x1 x1' -> srel t2 x2 x2' ->
    rrel orel (minmax c mx t t1 x1 t2 x2) (minmax c' mx t t1 x1' t2 x2').
  Proof.
    intros H1 H2. unfold minmax. destruct (is_float t) eqn:F; [reflexivity|].
    eapply rrel_bind; [apply convert_rel, H1|]. intros a a' A. eapply rrel_bind; [apply convert_rel, H2|]. intros b b' B.
    rewrite (int_eq _ _ _ F A), (int_eq _ _ _ F B). apply orel_refl.
  Qed.

  (** ** Memory and variables *)

  Lemma nth_rel {A} (R : A -> A -> Prop) l l' n : Forall2 R l l' ->
    match nth_error l n, nth_error l' n with Some x, Some x' => R x x' | None, None => True | _, _ => False end.
  Proof. intros H. revert n. induction H; intros [|n]; cbn; auto. apply IHForall2. Qed.
  Lemma get_rel {A} (R : A -> A -> Prop) l l' i : Forall2 R l l' -> rrel R (get_idx l i) (get_idx l' i).
  Proof.
    intros H. unfold get_idx. destruct (i <? 0); [reflexivity|]. pose proof (nth_rel R l l' (Z.to_nat i) H) as N.
    destruct (nth_error l _), (nth_error l' _); try contradiction; cbn; auto.
  Qed.
  Lemma set_rel {A} (R : A -> A -> Prop) l l' n x x' : Forall2 R l l' -> R x x' -> Forall2 R (set_nth n x l) (set_nth n x' l').
  Proof. intros H X. revert n. induction H; intros [|n]; cbn; constructor; auto. Qed.

  Lemma read_rel m m' t b i : mrel m m' -> rrel orel (mem_read m t b i) (mem_read m' t b i).
  Proof.
    intros H. unfold mem_read. pose proof (nth_rel brel m m' b H) as N.
    destruct (nth_error m b) as [[s l]|], (nth_error m' b) as [[s' l']|]; try contradiction; [|reflexivity].
    destruct N as [E L]. cbn in E, L. subst s'. destruct (sty_eqb t s) eqn:E; [|reflexivity].
    apply sty_eqb_eq in E. subst s. eapply rrel_bind; [apply (get_rel _ _ _ _ L)|]. intros v v' V. now constructor.
  Qed.
  Lemma write_rel m m' t b i z z' : mrel m m' -> srel t z z' -> rrel mrel (mem_write m t b i z) (mem_write m' t b i z').
  Proof.
    intros H Z. unfold mem_write. pose proof (nth_rel brel m m' b H) as N.
    destruct (nth_error m b) as [[s l]|], (nth_error m' b) as [[s' l']|]; try contradiction; [|reflexivity].
    destruct N as [E L]. cbn in E, L. subst s'. destruct (sty_eqb t s) eqn:E; [|reflexivity].
    apply sty_eqb_eq in E. subst s. eapply rrel_bind; [apply (get_rel _ _ _ _ L)|]. intros _ _ _. cbn.
    apply set_rel; [exact H|]. split; [reflexivity|]. now apply set_rel.
  Qed.
  Lemma index_rel m m' o o' i : mrel m m' -> orel o o' -> rrel orel (index m o i) (index m' o' i).
  Proof. intros M [t v v' H|l l' H|t b k]; cbn; [reflexivity|now apply get_rel|now apply read_rel]. Qed.

  Lemma lookup_rel x en en' : erel en en' ->
    match lookup x en, lookup x en' with Some o, Some o' => orel o o' | None, None => True | _, _ => False end.
  Proof. induction 1 as [|[y o] [y' o'] en en' [E O] _ IH]; cbn; [exact I|]. cbn in E, O. subst y'. now destruct (String.eqb x y). Qed.
  Lemma update_rel x o o' en en' : erel en en' -> orel o o' -> erel (update x o en) (update x o' en').
  Proof.
    intros H O. induction H as [|[y v] [y' v'] en en' [E V] H IH]; cbn; [constructor|]. cbn in E, V. subst y'.
    destruct (String.eqb x y); constructor; auto.
  Qed.

  Lemma put_rel p : forall o o' t z z', orel o o' -> srel t z z' -> rrel orel (put c o p t z) (put c' o' p t z').
  Proof.
    induction p as [|i p IH]; intros o o' t z z' O Z.
    - destruct O as [s v v' H|l l' H|s b k]; cbn; trivial. eapply rrel_bind; [apply convert_rel, Z|]. intros. now apply rv_rel.
    - destruct O as [s v v' H|l l' H|s b k]; cbn; trivial.
      eapply rrel_bind; [apply (get_rel _ _ _ _ H)|]. intros x x' X. eapply rrel_bind; [apply IH; eassumption|].
      intros y y' Y. constructor. now apply set_rel.
  Qed.

  Definition pairrel (r r' : env * memory) : Prop := erel (fst r) (fst r') /\ mrel (snd r) (snd r').

  Lemma assign_rel en en' m m' x p v v' : erel en en' -> mrel m m' -> orel v v' ->
    rrel pairrel (assign c en m x p v) (assign c' en' m' x p v').
  Proof.
    intros E M V. unfold assign. eapply rrel_bind; [apply scalar_rel, V|]. intros [s z] [s' z'] [Q S]. cbn in Q, S. subst s'.
    cbn [fst snd]. pose proof (lookup_rel x en en' E) as L. destruct (lookup x en) as [o|], (lookup x en') as [o'|]; try contradiction; [|reflexivity].
    assert (P : rrel pairrel (let* o1 := put c o p s z in Ok (update x o1 en, m)) (let* o1 := put c' o' p s z' in Ok (update x o1 en', m'))).
    { eapply rrel_bind; [apply put_rel; eassumption|]. intros y y' Y. split; [now apply update_rel|exact M]. }
    destruct L as [s1 w w' H|l l' H|s1 b k]; [exact P|exact P|].
    destruct p as [|i [|]]; try reflexivity. eapply rrel_bind; [apply convert_rel, S|]. intros a a' A.
    eapply rrel_bind; [apply write_rel; eassumption|]. intros n n' N. split; assumption.
  Qed.

  Lemma init_rel t o o' : orel o o' -> rrel orel (init_obj c t o) (init_obj c' t o').
  Proof.
    intros H. destruct t; cbn; trivial. eapply rrel_bind; [apply scalar_rel, H|]. intros [s1 z] [s1' z'] [E S]. cbn in E, S. subst s1'.
    eapply rrel_bind; [apply convert_rel, S|]. intros. now apply rv_rel.
  Qed.

  Lemma fresh_rel t : orel (fresh t) (fresh t).
  Proof. apply orel_refl. Qed.

  Lemma pop_rel en en' n n' r r' : crel r r' -> n = n' -> erel en en' -> crel (pop_ctl n r) (pop_ctl n' r').
  Proof.
    intros H <- _. destruct r, r'; cbn in *; try contradiction; [|exact H]. destruct H as [E M]. split; [|exact M].
    unfold pop, erel. rewrite (Forall2_length _ _ _ E). match goal with |- context [skipn ?k _] => generalize k end. clear -E. induction E; intros [|k]; cbn; auto; constructor; auto.
  Qed.

  (** ** Expressions and statements without memcpy and calls *)

  Fixpoint no_call (e : expr) : bool :=
    match e with
    | ELit _ _ | EVar _ => true
    | EUn _ a | ECast _ a => no_call a
    | EIdx a b | EBin _ a b | EAndAlso a b | EOrElse a b | EMin _ a b | EMax _ a b => no_call a && no_call b
    | ECond a b d => no_call a && no_call b && no_call d
    | ECall _ _ => false
    end.
  Fixpoint no_copy (s : stmt) : bool :=
    match s with
    | SSkip | SAbort | SDecl _ _ None => true
    | SDecl _ _ (Some e) | SReturn e => no_call e
    | SAssign _ p e => forallb no_call p && no_call e
    | SSeq a b => no_copy a && no_copy b
    | SIf e a b => no_call e && no_copy a && no_copy b
    | SFor _ _ i k n b => no_call i && no_call k && no_call n && no_copy b
    | SMemcpy _ _ _ => false
    end.

  Variables callf callf' : string -> obj -> res obj.

  Lemma eval_rel en en' m m' e : no_call e = true -> erel en en' -> mrel m m' ->
    rrel orel (eval c callf en m e) (eval c' callf' en' m' e).
  Proof.
    intros N E M. induction e; cbn [no_call] in N; cbn [eval]; repeat (apply andb_true_iff in N; destruct N as [N ?]).
    - apply orel_refl.
    - pose proof (lookup_rel x en en' E) as L. destruct (lookup x en), (lookup x en'); cbn; try contradiction; auto.
    - eapply rrel_bind; [auto|]. intros o o' O. eapply rrel_bind; [auto|]. intros k k' K.
      eapply rrel_bind; [apply int_rel, K|]. intros z z' <-. now apply index_rel.
    - eapply rrel_bind; [auto|]. intros o o' O. eapply rrel_bind; [apply scalar_rel, O|]. intros [s z] [s' z'] [Q S]. cbn in Q, S. subst s'. now apply unary_rel.
    - eapply rrel_bind; [auto|]. intros o o' O. eapply rrel_bind; [apply scalar_rel, O|]. intros [s z] [s' z'] [Q S]. cbn in Q, S. subst s'.
      eapply rrel_bind; [auto|]. intros o2 o2' O2. eapply rrel_bind; [apply scalar_rel, O2|]. intros [t2 z2] [t2' z2'] [Q2 S2]. cbn in Q2, S2. subst t2'.
      now apply binary_rel.
    - eapply rrel_bind; [auto|]. intros o o' O. eapply rrel_bind; [apply cond_rel, O|]. intros b b' <-. destruct b; [|apply orel_refl].
      eapply rrel_bind; [auto|]. intros p p' P. eapply rrel_bind; [apply cond_rel, P|]. intros b b' <-. apply orel_refl.
    - eapply rrel_bind; [auto|]. intros o o' O. eapply rrel_bind; [apply cond_rel, O|]. intros b b' <-. destruct b; [apply orel_refl|].
      eapply rrel_bind; [auto|]. intros p p' P. eapply rrel_bind; [apply cond_rel, P|]. intros b b' <-. apply orel_refl.
    - eapply rrel_bind; [auto|]. intros o o' O. eapply rrel_bind; [apply cond_rel, O|]. intros b b' <-. destruct b; auto.
    - eapply rrel_bind; [auto|]. intros o o' O. eapply rrel_bind; [apply scalar_rel, O|]. intros [s z] [s' z'] [Q S]. cbn in Q, S. subst s'.
      eapply rrel_bind; [apply convert_rel, S|]. intros. now apply rv_rel.
    - eapply rrel_bind; [auto|]. intros o o' O. eapply rrel_bind; [apply scalar_rel, O|]. intros [s z] [s' z'] [Q S]. cbn in Q, S. subst s'.
      eapply rrel_bind; [auto|]. intros o2 o2' O2. eapply rrel_bind; [apply scalar_rel, O2|]. intros [t2 z2] [t2' z2'] [Q2 S2]. cbn in Q2, S2. subst t2'.
      now apply minmax_rel.
    - eapply rrel_bind; [auto|]. intros o o' O. eapply rrel_bind; [apply scalar_rel, O|]. intros [s z] [s' z'] [Q S]. cbn in Q, S. subst s'.
      eapply rrel_bind; [auto|]. intros o2 o2' O2. eapply rrel_bind; [apply scalar_rel, O2|]. intros [t2 z2] [t2' z2'] [Q2 S2]. cbn in Q2, S2. subst t2'.
      now apply minmax_rel.
    - discriminate.
  Qed.

  Lemma path_rel en en' m m' p : forallb no_call p = true -> erel en en' -> mrel m m' ->
    rrel eq (eval_path c callf en m p) (eval_path c' callf' en' m' p).
  Proof.
    intros N E M. induction p as [|e p IH]; cbn in *; [reflexivity|]. apply andb_true_iff in N. destruct N as [N1 N2].
    eapply rrel_bind; [now apply eval_rel|]. intros o o' O. eapply rrel_bind; [apply int_rel, O|]. intros z z' <-.
    eapply rrel_bind; [now apply IH|]. intros l l' <-. reflexivity.
  Qed.

  Lemma loop_rel n k k' s s' : (forall en en' m m', erel en en' -> mrel m m' -> rrel eq (k en m) (k' en' m')) ->
    (forall en en' m m', erel en en' -> mrel m m' -> rrel crel (s en m) (s' en' m')) ->
    forall en en' m m', erel en en' -> mrel m m' -> rrel crel (loop n k s en m) (loop n k' s' en' m').
  Proof.
    intros K S. induction n as [|n IH]; intros en en' m m' E M; cbn [loop]; [reflexivity|].
    eapply rrel_bind; [now apply K|]. intros b b' <-. destruct b; [|now split].
    eapply rrel_bind; [now apply S|]. intros [e1 m1|v1 m1] [e1' m1'|v1' m1'] H; cbn in H; try contradiction; [apply IH; tauto|exact H].
  Qed.

  Variable fuel : nat.

  Lemma exec_rel s : no_copy s = true -> forall en en' m m', erel en en' -> mrel m m' ->
    rrel crel (exec c callf fuel s en m) (exec c' callf' fuel s en' m').
  Proof.
    induction s; cbn [no_copy]; intros N en en' m m' E M; cbn [exec]; repeat (apply andb_true_iff in N; destruct N as [N ?]).
    - now split.
    - eapply rrel_bind; [now apply IHs1|]. intros [e1 m1|v1 m1] [e1' m1'|v1' m1'] H'; cbn in H'; try contradiction; [apply IHs2; tauto|exact H'].
    - destruct init as [e|].
      + eapply rrel_bind; [now apply eval_rel|]. intros o o' O. eapply rrel_bind; [apply init_rel, O|]. intros v v' V.
        split; [constructor; [split; [reflexivity|exact V]|exact E]|exact M].
      + split; [constructor; [split; [reflexivity|apply orel_refl]|exact E]|exact M].
    - eapply rrel_bind; [now apply path_rel|]. intros ks ks' <-. eapply rrel_bind; [now apply eval_rel|]. intros v v' V.
      eapply rrel_bind; [apply assign_rel; eassumption|]. intros r r' R. exact R.
    - eapply rrel_bind; [now apply eval_rel|]. intros o o' O. eapply rrel_bind; [apply cond_rel, O|]. intros b b' <-.
      eapply rrel_bind with (R := crel); [destruct b; [now apply IHs1|now apply IHs2]|]. intros r r' R. cbn.
      apply (pop_rel en en'); [exact R|exact (Forall2_length _ _ _ E)|exact E].
    - eapply rrel_bind; [now apply eval_rel|]. intros o o' O. eapply rrel_bind; [apply (init_rel (TScal t)), O|]. intros v v' V.
      eapply rrel_bind with (R := crel).
      + apply loop_rel; [| |constructor; [split; [reflexivity|exact V]|exact E]|exact M].
        * intros. eapply rrel_bind; [now apply eval_rel|]. intros. now apply cond_rel.
        * intros e1 e1' m1 m1' E1 M1. eapply rrel_bind; [now apply IHs|]. intros r r' R.
          pose proof (pop_rel e1 e1' (List.length e1) (List.length e1') r r' R (Forall2_length _ _ _ E1) E1) as P.
          destruct (pop_ctl _ r) as [e2 m2|v2 m2], (pop_ctl _ r') as [e2' m2'|v2' m2']; cbn in P; try contradiction; [|exact P].
          destruct P as [E2 M2]. eapply rrel_bind; [now apply eval_rel|]. intros w w' W.
          eapply rrel_bind; [apply assign_rel; eassumption|]. intros q q' Q. exact Q.
      + intros r r' R. cbn. apply (pop_rel en en'); [exact R|exact (Forall2_length _ _ _ E)|exact E].
    - discriminate.
    - reflexivity.
    - eapply rrel_bind; [now apply eval_rel|]. intros o o' O. now split.
  Qed.

  Lemma params_rel ps args args' : Forall2 orel args args' -> rrel erel (bind_params c ps args) (bind_params c' ps args').
  Proof.
    intros H. revert ps. induction H as [|a a' l l' A _ IH]; intros [|[x t] ps]; cbn; trivial; [constructor|].
    eapply rrel_bind; [apply init_rel, A|]. intros o o' O. eapply rrel_bind; [apply IH|]. intros en en' E.
    constructor; [now split|exact E].
  Qed.

  Definition vmrel (r r' : option obj * memory) : Prop :=
    match fst r, fst r' with Some v, Some v' => orel v v' | None, None => True | _, _ => False end /\ mrel (snd r) (snd r').

  Lemma body_rel f args args' m m' : no_copy (f_body f) = true -> Forall2 orel args args' -> mrel m m' ->
    rrel vmrel (run_body c callf fuel f args m) (run_body c' callf' fuel f args' m').
  Proof.
    intros N A M. unfold run_body. eapply rrel_bind; [apply params_rel, A|]. intros en en' E.
    eapply rrel_bind; [now apply exec_rel|]. intros [e1 m1|v1 m1] [e1' m1'|v1' m1'] H; cbn in H; try contradiction; destruct H as [V M1].
    - destruct (f_ret f); try reflexivity. now split.
    - destruct (f_ret f) as [|s|k t|ts|s]; try reflexivity;
        (eapply rrel_bind; [eapply init_rel, V|]); intros; now split.
  Qed.
End Ops.
