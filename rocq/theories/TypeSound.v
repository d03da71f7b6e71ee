(** Soundness of the type checker of Typing.v: a function that is accepted keeps the
    types of its objects and never gets stuck, whatever the values of its arguments. *)
From Coq Require Import ZArith String List Bool Lia.
From Verif Require Import Types FloatBits Syntax Interp Typing.
Import ListNotations.
Open Scope Z_scope.

(** [sh]: the element types of the blocks of memory. *)
Fixpoint has (sh : list sty) (t : ty) (o : obj) {struct t} : Prop :=
  match t, o with
  | TVoid, OArr [] => True
  | TScal s, OScal s' _ => s = s'
  | TArr n t', OArr l => List.length l = n /\ Forall (has sh t') l
  | TStruct ts, OArr l =>
      (fix go ts l := match ts, l with
                      | [], [] => True
                      | t' :: ts', o' :: l' => has sh t' o' /\ go ts' l'
                      | _, _ => False
                      end) ts l
  | TPtr s, OPtr s' b _ => s = s' /\ match nth_error sh b with Some s'' => s'' = s | None => True end
  | _, _ => False
  end.

Fixpoint has_all (sh : list sty) (ts : list ty) (l : list obj) : Prop :=
  match ts, l with
  | [], [] => True
  | t' :: ts', o' :: l' => has sh t' o' /\ has_all sh ts' l'
  | _, _ => False
  end.

Lemma has_struct sh ts l : has sh (TStruct ts) (OArr l) = has_all sh ts l.
Proof. revert l. induction ts as [|t ts IH]; intros [|o l]; try reflexivity. cbn [has_all]. rewrite <- IH. reflexivity. Qed.

(** Induction over types. *)
Section TyInd.
  Variable P : ty -> Prop.
  Hypothesis Hv : P TVoid.
  Hypothesis Hs : forall s, P (TScal s).
  Hypothesis Ha : forall n t, P t -> P (TArr n t).
  Hypothesis Ht : forall l, Forall P l -> P (TStruct l).
  Hypothesis Hp : forall s, P (TPtr s).
  Fixpoint ty_ind' (t : ty) : P t :=
    match t with
    | TVoid => Hv
    | TScal s => Hs s
    | TArr n t' => Ha n t' (ty_ind' t')
    | TStruct l => Ht l ((fix go l : Forall P l := match l with [] => Forall_nil _ | x :: r => Forall_cons x (ty_ind' x) (go r) end) l)
    | TPtr s => Hp s
    end.
End TyInd.

Lemma sty_eqb_true a b : sty_eqb a b = true -> a = b.
Proof. destruct a, b; cbn; congruence. Qed.
Lemma sty_eqb_same a : sty_eqb a a = true.
Proof. destruct a; reflexivity. Qed.

Lemma same_ty_eq : forall a b, same_ty a b = true -> a = b.
Proof.
  induction a as [|s|n t IH|l IH|s] using ty_ind'; intros [|s'|n' t'|l'|s'] H; try discriminate H; try reflexivity.
  - f_equal. now apply sty_eqb_true.
  - cbn [same_ty] in H. apply andb_prop in H. destruct H as [H1 H2]. apply Nat.eqb_eq in H1. subst n'. f_equal. now apply IH.
  - f_equal. revert l' H. induction IH as [|x r Hx Hr IHr]; intros [|y r'] H; try discriminate H; [reflexivity|].
    cbn [same_ty] in H. apply andb_prop in H. destruct H as [H1 H2]. f_equal; [now apply Hx|]. apply IHr. exact H2.
  - f_equal. now apply sty_eqb_true.
Qed.

Lemma has_fresh sh : forall t, plain t = true -> has sh t (fresh t).
Proof.
  induction t as [|s|n t IH|l IH|s] using ty_ind'; intros H; try discriminate H; try reflexivity.
  - cbn [fresh has]. split; [apply repeat_length|]. apply Forall_forall. intros x Hx. apply repeat_spec in Hx. subst x. now apply IH.
  - cbn [fresh]. rewrite has_struct. induction IH as [|x r Hx Hr IHr]; [exact I|].
    cbn [plain] in H. apply andb_prop in H. destruct H as [H1 H2]. cbn [map has_all]. split; [now apply Hx|]. apply IHr. exact H2.
Qed.

Lemma has_scal sh s o : has sh (TScal s) o -> exists v, o = OScal s v.
Proof. destruct o; cbn; try contradiction. intros ->. eauto. Qed.

(** ** Results *)

Definition good {A} (P : A -> Prop) (r : res A) : Prop :=
  match r with Ok a => P a | Err e => e <> EStuck end.

Lemma good_bind {A B} (P : A -> Prop) (Q : B -> Prop) r (k : A -> res B) :
  good P r -> (forall a, P a -> good Q (k a)) -> good Q (bind r k).
Proof. destruct r; cbn; auto. Qed.

Lemma good_weaken {A} (P Q : A -> Prop) r : good P r -> (forall a, P a -> Q a) -> good Q r.
Proof. destruct r; cbn; auto. Qed.

Definition is_ty (s : sty) (p : sty * Z) : Prop := fst p = s.

Lemma scalar_good sh s o : has sh (TScal s) o -> good (is_ty s) (scalar o).
Proof. intros H. apply has_scal in H. destruct H as [[z|] ->]; cbn; [reflexivity|discriminate]. Qed.

Lemma int_good sh s o : has sh (TScal s) o -> is_float s = false -> good (fun _ => True) (int_value o).
Proof.
  intros H F. unfold int_value. eapply good_bind; [eapply scalar_good; exact H|].
  intros p E. rewrite E, F. exact I.
Qed.

Lemma cond_good sh s o : has sh (TScal s) o -> good (fun _ => True) (cond_value o).
Proof. intros H. unfold cond_value. eapply good_bind; [eapply scalar_good; exact H|]. intros p _. exact I. Qed.

Lemma convert_good c a b z : good (fun _ => True) (convert c a b z).
Proof.
  unfold convert. destruct (sty_eqb a b); [exact I|]. destruct (is_float a), (is_float b); try exact I.
  destruct (sf_trunc _); [|discriminate]. destruct (in_rangeb b z0); [exact I|discriminate].
Qed.

Lemma arith_good c t z : good (fun _ => True) (arith c t z).
Proof. unfold arith. destruct (is_signed t), (in_rangeb t z), (wrapv c); cbn; try exact I; discriminate. Qed.

Lemma get_good {A} (P : A -> Prop) (l : list A) i : Forall P l -> good P (get_idx l i).
Proof.
  intros F. unfold get_idx. destruct (i <? 0); [discriminate|].
  destruct (nth_error l (Z.to_nat i)) eqn:E; [|discriminate]. cbn. apply nth_error_In in E.
  rewrite Forall_forall in F. auto.
Qed.

Lemma get_good_nth (sh : list sty) ts l k t : has_all sh ts l -> nth_error ts (Z.to_nat k) = Some t ->
  good (has sh t) (get_idx l k).
Proof.
  intros H E. unfold get_idx. destruct (k <? 0); [discriminate|].
  revert l H E. generalize (Z.to_nat k). induction ts as [|t' ts IH]; intros n [|o l] H E; try (destruct n; discriminate); try contradiction.
  destruct H as [H1 H2]. destruct n as [|n]; cbn in E |- *.
  - injection E as ->. exact H1.
  - now apply IH.
Qed.

Lemma read_good m t b i : match nth_error (map fst m) b with Some s => s = t | None => True end ->
  good (has (map fst m) (TScal t)) (mem_read m t b i).
Proof.
  intros H. unfold mem_read. rewrite nth_error_map in H. unfold memory, block in *; destruct (nth_error m b) as [[t' l]|]; cbn in H; [|cbn; discriminate].
  subst t'. rewrite sty_eqb_same. eapply good_bind; [apply (get_good (fun _ => True)); now apply Forall_forall|]. intros v _. reflexivity.
Qed.

Lemma binary_good c op s x t y u :
  match op with
  | BLt | BGt | BLe | BGe | BEq | BNe => Some (TScal I32)
  | BShl | BShr => if is_float s || is_float t then None else Some (TScal (promote s))
  | BRem | BAnd | BOr | BXor => if is_float s || is_float t then None else Some (TScal (usual s t))
  | _ => Some (TScal (usual s t))
  end = Some u -> forall sh, good (has sh u) (binary c op s x t y).
Proof.
  intros H sh.
  assert (FU : is_float s || is_float t = false -> is_float (usual s t) = false) by (destruct s, t; cbn; congruence).
  assert (CV : forall (k : Z -> Z -> res obj), (forall a b, good (has sh u) (k a b)) ->
    good (has sh u) (let* a := convert c s (usual s t) x in let* b := convert c t (usual s t) y in k a b)).
  { intros k Hk. eapply good_bind; [apply convert_good|]. intros a _. eapply good_bind; [apply convert_good|]. auto. }
  unfold binary.
  destruct op;
    try (destruct (is_float s || is_float t) eqn:F; [discriminate H|]);
    injection H as <-;
    first
    [ (apply CV; intros a b; try rewrite (FU eq_refl);
       repeat (match goal with |- context [if ?x then _ else _] => destruct x end);
       first [ reflexivity | discriminate
             | (eapply good_bind; [apply arith_good|]; intros ? _; reflexivity)
             | (unfold fbin; reflexivity) ])
    | (eapply good_bind; [|intros z _; reflexivity]; unfold shift_left, shift_right;
       instantiate (1 := fun _ => True);
       repeat (match goal with |- context [if ?x then _ else _] => destruct x end); first [exact I | discriminate]) ].
Qed.

Lemma unary_good c op s x sh :
  (op <> ULNot -> is_float s = false) ->
  good (has sh (TScal (match op with ULNot => I32 | _ => promote s end))) (unary c op s x).
Proof.
  intros H. destruct op; cbn [unary].
  - rewrite H by discriminate. reflexivity.
  - rewrite H by discriminate. eapply good_bind; [apply arith_good|]. intros z _. reflexivity.
  - reflexivity.
Qed.

Lemma minmax_good c mx t a x b y sh : is_float t = false -> good (has sh (TScal t)) (minmax c mx t a x b y).
Proof.
  intros F. unfold minmax. rewrite F. eapply good_bind; [apply convert_good|]. intros u _.
  eapply good_bind; [apply convert_good|]. intros v _. reflexivity.
Qed.

(** ** Expressions *)

Definition env_has (sh : list sty) (en : env) (g : tenv) : Prop :=
  Forall2 (fun p q => fst p = fst q /\ has sh (snd q) (snd p)) en g.

Lemma lookup_has sh en g x t : env_has sh en g -> tfind x g = Some t ->
  exists o, lookup x en = Some o /\ has sh t o.
Proof.
  intros H. induction H as [|[y o] [y' t'] en g [E Ho] _ IH]; cbn; [discriminate|].
  cbn in E, Ho. subst y'. destruct (String.eqb x y); [|exact IH].
  intros E. injection E as ->. eauto.
Qed.

Lemma update_has sh en g x t o : env_has sh en g -> tfind x g = Some t -> has sh t o -> env_has sh (update x o en) g.
Proof.
  intros H. induction H as [|[y o'] [y' t'] en g [E Ho] H' IH]; cbn; [discriminate|].
  cbn in E, Ho. subst y'. destruct (String.eqb x y).
  - intros E Hn. injection E as ->. constructor; [split; [reflexivity|exact Hn]|exact H'].
  - intros E Hn. constructor; [split; [reflexivity|exact Ho]|]. now apply IH.
Qed.

Lemma initialises_has c t u sh o : initialises t u = true -> has sh t o -> good (has sh u) (init_obj c u o).
Proof.
  intros I H. assert (C : (exists s s', t = TScal s /\ u = TScal s') \/ t = u).
  { destruct t, u; cbn in I; eauto; right; apply same_ty_eq; exact I. }
  destruct C as [(s & s' & -> & ->)| ->].
  - cbn [init_obj]. eapply good_bind; [eapply scalar_good; exact H|]. intros p _.
    eapply good_bind; [apply convert_good|]. intros z _. reflexivity.
  - destruct u; cbn [init_obj good]; trivial.
    eapply good_bind; [eapply scalar_good; exact H|]. intros p _. eapply good_bind; [apply convert_good|]. intros z _. reflexivity.
Qed.

Section Expr.
  Variable c : cfg.
  Variable callf : string -> obj -> res obj.
  Variable hs : list func.
  Variable m : memory.
  Let sh := map fst m.

  (** what is assumed of the functions that are called *)
  Definition calls_good : Prop := forall f h x p t o,
    find (fun h => String.eqb (f_name h) f) hs = Some h -> f_params h = [(x, p)] -> initialises t p = true ->
    has sh t o -> good (has sh (f_ret h)) (callf f o).
  Hypothesis Hcall : calls_good.

  Lemma index_arr n t l i : has sh (TArr n t) (OArr l) -> good (has sh t) (index m (OArr l) i).
  Proof. intros [_ F]. cbn [index]. now apply get_good. Qed.

  Lemma type_sound en g : env_has sh en g -> forall e t, type_of hs g e = Some t -> good (has sh t) (eval c callf en m e).
  Proof.
    intros HE. induction e as [s z|x|a IHa i IHi|op a IHa|op a IHa b IHb|a IHa b IHb|a IHa b IHb|a IHa b IHb d IHd|s a IHa|s a IHa b IHb|s a IHa b IHb|f a IHa];
      intros t H; cbn [type_of] in H; cbn [eval].
    - injection H as <-. reflexivity.
    - destruct (lookup_has sh en g x t HE H) as (o & E & Ho). rewrite E. exact Ho.
    - destruct (type_of hs g a) as [ta|]; [|discriminate]. destruct (type_of hs g i) as [ti|]; [|destruct ta; discriminate].
      eapply good_bind; [apply (IHa _ eq_refl)|]. intros o Ho.
      destruct ta as [|sa|n ta|ts|sp]; try discriminate H; (destruct ti as [|si|? ?|?|?]; try discriminate H).
      + destruct (is_float si) eqn:F; [discriminate|]. injection H as <-.
        eapply good_bind; [apply (IHi _ eq_refl)|]. intros oi Hoi. eapply good_bind; [eapply int_good; eauto|]. intros k _.
        destruct o; cbn in Ho; try contradiction. exact (index_arr n ta l k Ho).
      + destruct i as [sl kl| | | | | | | | | | | ]; try discriminate H.
        destruct (is_float si) eqn:F; [discriminate|].
        specialize (IHi _ eq_refl). cbn in IHi. subst si.
        cbn [eval bind int_value scalar rv fst snd]. rewrite F. cbn [bind].
        destruct o; try (cbn in Ho; contradiction). rewrite has_struct in Ho. cbn [index]. eapply get_good_nth; eauto.
      + destruct (is_float si) eqn:F; [discriminate|]. injection H as <-.
        eapply good_bind; [apply (IHi _ eq_refl)|]. intros oi Hoi. eapply good_bind; [eapply int_good; eauto|]. intros k _.
        destruct o; cbn in Ho; try contradiction. destruct Ho as [<- Ho]. cbn [index]. now apply read_good.
    - assert (D : exists s, type_of hs g a = Some (TScal s) /\ (op <> ULNot -> is_float s = false) /\
        t = TScal (match op with ULNot => I32 | _ => promote s end)).
      { destruct op; destruct (type_of hs g a) as [[|s|? ?|?|?]|]; try discriminate H; exists s;
          try (destruct (is_float s) eqn:F; [discriminate H|]); injection H as <-; auto.
        split; [reflexivity|]. split; [congruence|reflexivity]. }
      destruct D as (s & E & F & ->). eapply good_bind; [apply (IHa _ E)|]. intros o Ho.
      eapply good_bind; [eapply scalar_good; exact Ho|]. intros p Ep. unfold is_ty in Ep. subst s. exact (unary_good c op (fst p) (snd p) sh F).
    - destruct (type_of hs g a) as [[|s|? ?|?|?]|]; try discriminate H. destruct (type_of hs g b) as [[|s'|? ?|?|?]|]; try discriminate H.
      eapply good_bind; [apply (IHa _ eq_refl)|]. intros oa Ha. eapply good_bind; [eapply scalar_good; exact Ha|]. intros pa Epa. unfold is_ty in Epa. subst s.
      eapply good_bind; [apply (IHb _ eq_refl)|]. intros ob Hb. eapply good_bind; [eapply scalar_good; exact Hb|]. intros pb Epb. unfold is_ty in Epb. subst s'.
      exact (binary_good c op (fst pa) (snd pa) (fst pb) (snd pb) t H sh).
    - destruct (type_of hs g a) as [[|s|? ?|?|?]|]; try discriminate H. destruct (type_of hs g b) as [[|s'|? ?|?|?]|]; try discriminate H.
      injection H as <-. eapply good_bind; [apply (IHa _ eq_refl)|]. intros oa Ha. eapply good_bind; [eapply cond_good; exact Ha|]. intros v _.
      destruct v; [|reflexivity]. eapply good_bind; [apply (IHb _ eq_refl)|]. intros ob Hb. eapply good_bind; [eapply cond_good; exact Hb|]. intros v _. reflexivity.
    - destruct (type_of hs g a) as [[|s|? ?|?|?]|]; try discriminate H. destruct (type_of hs g b) as [[|s'|? ?|?|?]|]; try discriminate H.
      injection H as <-. eapply good_bind; [apply (IHa _ eq_refl)|]. intros oa Ha. eapply good_bind; [eapply cond_good; exact Ha|]. intros v _.
      destruct v; [reflexivity|]. eapply good_bind; [apply (IHb _ eq_refl)|]. intros ob Hb. eapply good_bind; [eapply cond_good; exact Hb|]. intros v _. reflexivity.
    - destruct (type_of hs g a) as [[|s|? ?|?|?]|]; try discriminate H. destruct (type_of hs g b) as [tb|]; [|discriminate H].
      destruct (type_of hs g d) as [td|]; [|discriminate H]. destruct (same_ty tb td) eqn:E; [|discriminate H]. injection H as <-.
      apply same_ty_eq in E. subst td.
      eapply good_bind; [apply (IHa _ eq_refl)|]. intros oa Ha. eapply good_bind; [eapply cond_good; exact Ha|]. intros v _.
      destruct v; [now apply IHb|now apply IHd].
    - destruct (type_of hs g a) as [[|s'|? ?|?|?]|]; try discriminate H. injection H as <-.
      eapply good_bind; [apply (IHa _ eq_refl)|]. intros oa Ha. eapply good_bind; [eapply scalar_good; exact Ha|]. intros p _.
      eapply good_bind; [apply convert_good|]. intros z _. reflexivity.
    - destruct (is_float s) eqn:F; [discriminate H|].
      destruct (type_of hs g a) as [[|s1|? ?|?|?]|]; try discriminate H. destruct (type_of hs g b) as [[|s2|? ?|?|?]|]; try discriminate H.
      injection H as <-.
      eapply good_bind; [apply (IHa _ eq_refl)|]. intros oa Ha. eapply good_bind; [eapply scalar_good; exact Ha|]. intros pa _.
      eapply good_bind; [apply (IHb _ eq_refl)|]. intros ob Hb. eapply good_bind; [eapply scalar_good; exact Hb|]. intros pb _.
      now apply minmax_good.
    - destruct (is_float s) eqn:F; [discriminate H|].
      destruct (type_of hs g a) as [[|s1|? ?|?|?]|]; try discriminate H. destruct (type_of hs g b) as [[|s2|? ?|?|?]|]; try discriminate H.
      injection H as <-.
      eapply good_bind; [apply (IHa _ eq_refl)|]. intros oa Ha. eapply good_bind; [eapply scalar_good; exact Ha|]. intros pa _.
      eapply good_bind; [apply (IHb _ eq_refl)|]. intros ob Hb. eapply good_bind; [eapply scalar_good; exact Hb|]. intros pb _.
      now apply minmax_good.
    - destruct (find _ hs) as [h|] eqn:Ef; [|discriminate H]. destruct (type_of hs g a) as [ta|]; [|discriminate H].
      destruct (f_params h) as [|[x p] [|? ?]] eqn:Ep; try discriminate H. destruct (initialises ta p) eqn:Ei; [|discriminate H].
      injection H as <-. eapply good_bind; [apply (IHa _ eq_refl)|]. intros o Ho. exact (Hcall f h x p ta o Ef Ep Ei Ho).
  Qed.
End Expr.

(** ** Assignments and copies *)

Lemma set_nth_length {A} n (a : A) l : List.length (set_nth n a l) = List.length l.
Proof. revert n. induction l as [|x l IH]; intros [|n]; cbn; auto. Qed.

Lemma set_nth_Forall {A} (P : A -> Prop) n a l : P a -> Forall P l -> Forall P (set_nth n a l).
Proof. intros Ha. revert n. induction l as [|x l IH]; intros [|n] F; cbn; auto; inversion F; subst; constructor; auto. Qed.

Lemma set_nth_all sh ts l n t o : has_all sh ts l -> nth_error ts n = Some t -> has sh t o -> has_all sh ts (set_nth n o l).
Proof.
  revert l n. induction ts as [|t' ts IH]; intros [|x l] n H E Ho; try (destruct n; discriminate); try contradiction.
  destruct H as [H1 H2]. destruct n as [|n]; cbn in E |- *.
  - injection E as ->. now split.
  - split; [exact H1|]. now apply IH.
Qed.

Lemma set_nth_shape (m : memory) b s (l : list (option Z)) : nth_error (map fst m) b = Some s ->
  map fst (set_nth b (s, l) m) = map fst m.
Proof.
  revert b. induction m as [|[t l'] m IH]; intros [|b]; cbn; try discriminate.
  - intros E. injection E as ->. reflexivity.
  - intros E. f_equal. now apply IH.
Qed.

Lemma has_all_in sh ts l : has_all sh ts l -> Forall (fun o => exists t, has sh t o) l.
Proof. revert l. induction ts as [|t ts IH]; intros [|o l] H; try contradiction; constructor; destruct H; eauto. Qed.

Section ObjInd.
  Variable P : obj -> Prop.
  Hypothesis Hs : forall t v, P (OScal t v).
  Hypothesis Ha : forall l, Forall P l -> P (OArr l).
  Hypothesis Hp : forall t b off, P (OPtr t b off).
  Fixpoint obj_ind' (o : obj) : P o :=
    match o with
    | OScal t v => Hs t v
    | OArr l => Ha l ((fix go l : Forall P l := match l with [] => Forall_nil _ | x :: r => Forall_cons x (obj_ind' x) (go r) end) l)
    | OPtr t b off => Hp t b off
    end.
End ObjInd.

Fixpoint from_list (l : list obj) (bs : list (option Z)) : list obj * list (option Z) :=
  match l with
  | [] => ([], bs)
  | o' :: l' => let (x, bs1) := from_bytes o' bs in let (xs, bs2) := from_list l' bs1 in (x :: xs, bs2)
  end.
Lemma from_bytes_arr l bs : from_bytes (OArr l) bs = let (xs, r) := from_list l bs in (OArr xs, r).
Proof. reflexivity. Qed.

Lemma from_bytes_has sh : forall o t bs, has sh t o -> has sh t (fst (from_bytes o bs)).
Proof.
  induction o as [s v|l IH|s b off] using obj_ind'; intros t bs H.
  - destruct t; cbn in *; try contradiction; try assumption.
  - rewrite from_bytes_arr. destruct (from_list l bs) as [xs r] eqn:E. cbn [fst].
    destruct t as [|s|n t|ts|s]; try (cbn in H; contradiction).
    + destruct l; cbn in H; try contradiction. injection E as <- <-. exact I.
    + cbn [has] in *. destruct H as [Hl HF].
      revert bs n xs r E Hl. induction IH as [|x l' Hx _ IHl]; intros bs n xs r E Hl.
      * injection E as <- <-. split; [exact Hl|constructor].
      * cbn [from_list] in E. inversion HF; subst. specialize (Hx t bs H1). destruct (from_bytes x bs) as [x' bs1]. destruct (from_list l' bs1) as [xs' bs2] eqn:E2.
        injection E as <- <-. destruct (IHl H2 bs1 _ xs' bs2 E2 eq_refl) as [L F]. split; [cbn; now rewrite L|]. constructor; assumption.
    + rewrite has_struct in *. revert bs ts xs r E H. induction IH as [|x l' Hx _ IHl]; intros bs ts xs r E H.
      * injection E as <- <-. exact H.
      * cbn [from_list] in E. destruct ts as [|t ts]; [contradiction|]. destruct H as [H1 H2]. specialize (Hx t bs H1).
        destruct (from_bytes x bs) as [x' bs1]. destruct (from_list l' bs1) as [xs' bs2] eqn:E2.
        injection E as <- <-. split; [exact Hx|]. exact (IHl bs1 ts xs' bs2 E2 H2).
  - exact H.
Qed.

Lemma memcpy_good sh t od os k : has sh t od -> good (has sh t) (memcpy_obj od os k).
Proof.
  intros H. unfold memcpy_obj. destruct (_ && _ && _)%bool; [|cbn; discriminate]. cbn [good]. now apply from_bytes_has.
Qed.

(** ** Statements *)

Section Stmt.
  Variable c : cfg.
  Variable callf : string -> obj -> res obj.
  Variable hs : list func.
  Variable extra : tenv -> expr -> bool.
  Variable fuel : nat.
  Variable sh : list sty.
  Hypothesis Hcall : forall m, map fst m = sh -> calls_good callf hs m.

  Lemma eval_good en g m e t : env_has sh en g -> map fst m = sh -> type_of hs g e = Some t ->
    good (has sh t) (eval c callf en m e).
  Proof. intros HE HM HT. subst sh. apply (type_sound c callf hs m (Hcall m eq_refl) en g HE e t HT). Qed.

  Lemma scalar_ok_good en g m e : env_has sh en g -> map fst m = sh -> scalar_ok hs extra g e = true ->
    good (fun o => exists s, has sh (TScal s) o) (eval c callf en m e).
  Proof.
    intros HE HM H. unfold scalar_ok in H. apply andb_prop in H. destruct H as [_ H].
    destruct (type_of hs g e) as [[|s|? ?|?|?]|] eqn:E; try discriminate H.
    eapply good_weaken; [eapply eval_good; eauto|]. eauto.
  Qed.

  Lemma int_ok_good en g m e : env_has sh en g -> map fst m = sh -> int_ok hs extra g e = true ->
    good (fun o => exists s, has sh (TScal s) o /\ is_float s = false) (eval c callf en m e).
  Proof.
    intros HE HM H. unfold int_ok in H. apply andb_prop in H. destruct H as [_ H].
    destruct (type_of hs g e) as [[|s|? ?|?|?]|] eqn:E; try discriminate H.
    apply negb_true_iff in H. eapply good_weaken; [eapply eval_good; eauto|]. eauto.
  Qed.

  Lemma type_ok_good en g m u e : env_has sh en g -> map fst m = sh -> type_ok hs extra g u e = true ->
    good (fun o => exists t, has sh t o /\ initialises t u = true) (eval c callf en m e).
  Proof.
    intros HE HM H. unfold type_ok in H. apply andb_prop in H. destruct H as [_ H].
    destruct (type_of hs g e) as [t|] eqn:E; try discriminate H.
    eapply good_weaken; [eapply eval_good; eauto|]. eauto.
  Qed.

  Lemma path_good en g m s : env_has sh en g -> map fst m = sh -> forall path t,
    path_type hs extra g t path = Some (TScal s) ->
    good (fun ks => forall o t' z, has sh t o -> good (has sh t) (put c o ks t' z)) (eval_path c callf en m path).
  Proof.
    intros HE HM. induction path as [|e path IH]; intros t H; cbn [path_type eval_path] in *.
    - injection H as ->. cbn [good]. intros o t' z Ho. apply has_scal in Ho. destruct Ho as [v ->]. cbn [put].
      eapply good_bind; [apply convert_good|]. intros z' _. reflexivity.
    - destruct (int_ok hs extra g e) eqn:EI; [|discriminate].
      assert (G := int_ok_good en g m e HE HM EI).
      destruct t as [|s'|n t|ts|s']; try discriminate H.
      + eapply good_bind; [exact G|]. intros oi (si & Hi & Fi). eapply good_bind; [eapply int_good; eauto|]. intros k _.
        eapply good_bind; [apply (IH t H)|]. intros ks Hks. cbn [good]. intros o t' z Ho.
        destruct o; cbn [has] in Ho; try contradiction. destruct Ho as [L F]. cbn [put].
        eapply good_bind; [apply get_good; exact F|]. intros x Hx. eapply good_bind; [apply Hks; exact Hx|]. intros x' Hx'.
        cbn [good has]. split; [now rewrite set_nth_length|]. now apply set_nth_Forall.
      + destruct e as [sl kl| | | | | | | | | | | ]; try discriminate H.
        destruct (nth_error ts (Z.to_nat kl)) as [t'|] eqn:En; [|discriminate].
        cbn [eval bind int_value scalar rv fst snd] in *. destruct G as (si & Hi & Fi). cbn in Hi. subst si. rewrite Fi.
        cbn [bind]. eapply good_bind; [apply (IH t' H)|]. intros ks Hks. cbn [good]. intros o t'' z Ho.
        destruct o; try (cbn [has] in Ho; contradiction). rewrite has_struct in Ho. cbn [put].
        eapply good_bind; [eapply get_good_nth; eauto|]. intros x Hx. eapply good_bind; [apply Hks; exact Hx|]. intros x' Hx'.
        cbn [good]. rewrite has_struct. eapply set_nth_all; eauto.
  Qed.

  (** the state is well typed *)
  Definition state_ok (g : tenv) (en : env) (m : memory) : Prop := env_has sh en g /\ map fst m = sh.
  Definition ctl_ok (ret : ty) (g : tenv) (r : ctl) : Prop :=
    match r with
    | Normal en m => state_ok g en m
    | Returned v m => map fst m = sh /\ ret <> TVoid /\ exists t, has sh t v /\ initialises t ret = true
    end.

  Lemma env_length en g : env_has sh en g -> List.length en = List.length g.
  Proof. intros H. induction H; cbn; congruence. Qed.

  Lemma pop_has en0 g0 en d : env_has sh en0 g0 -> env_has sh en (d ++ g0) -> env_has sh (pop (List.length en0) en) g0.
  Proof.
    intros H0 H. unfold pop. rewrite (env_length _ _ H), (env_length _ _ H0), app_length.
    replace (List.length d + List.length g0 - List.length g0)%nat with (List.length d) by lia.
    clear H0 en0. revert en H. induction d as [|x d IH]; intros en H; [exact H|].
    cbn [app] in H. inversion H; subst. cbn [List.length skipn]. now apply IH.
  Qed.

  Lemma check_extends ret : forall s g g', check_stmt hs extra ret g s = Some g' -> exists d, g' = d ++ g.
  Proof.
    induction s as [|s1 IH1 s2 IH2|t x o|x path e|e s1 IH1 s2 IH2|t i init cond next body IH|d s n| |e]; intros g g' H; cbn [check_stmt] in H.
    - injection H as <-. now exists [].
    - destruct (check_stmt hs extra ret g s1) as [g1|] eqn:E1; [|discriminate].
      destruct (IH1 _ _ E1) as [d1 ->]. destruct (IH2 _ _ H) as [d2 ->]. exists (d2 ++ d1). now rewrite app_assoc.
    - destruct o as [e|].
      + destruct (type_ok hs extra g t e); [|discriminate]. injection H as <-. now exists [(x, t)].
      + destruct (plain t); [|discriminate]. injection H as <-. now exists [(x, t)].
    - exists []. cbn. destruct (tfind x g) as [t|]; [|discriminate].
      destruct t; try (destruct (path_type hs extra g _ path) as [[]|]; try discriminate; destruct (scalar_ok hs extra g e); congruence).
      destruct path as [|? [|]]; try discriminate. destruct (_ && _)%bool; congruence.
    - exists []. cbn. destruct (scalar_ok hs extra g e); [|discriminate].
      destruct (check_stmt hs extra ret g s1); [|discriminate]. destruct (check_stmt hs extra ret g s2); congruence.
    - exists []. cbn. destruct (_ && _ && _)%bool; [|discriminate]. destruct (check_stmt hs extra ret _ body); congruence.
    - exists []. cbn. destruct (tfind d g); [|discriminate]. destruct (tfind s g); [|discriminate]. destruct (int_ok hs extra g n); congruence.
    - injection H as <-. now exists [].
    - exists []. cbn. destruct ret; try discriminate; destruct (type_ok hs extra g _ e); congruence.
  Qed.

  Lemma pop_ctl_ok ret g0 en0 d r : env_has sh en0 g0 -> ctl_ok ret (d ++ g0) r -> ctl_ok ret g0 (pop_ctl (List.length en0) r).
  Proof. intros H0. destruct r as [en m|v m]; cbn; [|trivial]. intros [H HM]. split; [|exact HM]. eapply pop_has; eauto. Qed.

  Lemma assign_scalar g en m x t v s : state_ok g en m -> tfind x g = Some (TScal t) -> has sh (TScal s) v ->
    good (fun r => state_ok g (fst r) (snd r)) (assign c en m x [] v).
  Proof.
    intros [HE HM] HT Hv. unfold assign. eapply good_bind; [eapply scalar_good; exact Hv|]. intros p _.
    destruct (lookup_has sh en g x _ HE HT) as (o & E & Ho). rewrite E. apply has_scal in Ho. destruct Ho as [v0 ->].
    cbn [put]. eapply good_bind with (P := has sh (TScal t)).
    - eapply good_bind; [apply convert_good|]. intros z _. reflexivity.
    - intros o' Ho'. cbn [good fst snd]. split; [|exact HM]. eapply update_has; eauto.
  Qed.

  Lemma loop_good ret g cond step :
    (forall en m, state_ok g en m -> good (fun _ => True) (cond en m)) ->
    (forall en m, state_ok g en m -> good (ctl_ok ret g) (step en m)) ->
    forall k en m, state_ok g en m -> good (ctl_ok ret g) (loop k cond step en m).
  Proof.
    intros HC HS. induction k as [|k IH]; intros en m H; cbn [loop]; [cbn; discriminate|].
    eapply good_bind; [apply HC; exact H|]. intros b _. destruct b; [|exact H].
    eapply good_bind; [apply HS; exact H|]. intros r Hr. destruct r as [en' m'|v m']; [now apply IH|exact Hr].
  Qed.

  Theorem exec_sound ret : forall s g g' en m, check_stmt hs extra ret g s = Some g' -> state_ok g en m ->
    good (ctl_ok ret g') (exec c callf fuel s en m).
  Proof.
    induction s as [|s1 IH1 s2 IH2|t x o|x path e|e s1 IH1 s2 IH2|t i init cond next body IH|d s n| |e];
      intros g g' en m H HS; cbn [check_stmt] in H; cbn [exec].
    - injection H as <-. exact HS.
    - destruct (check_stmt hs extra ret g s1) as [g1|] eqn:E1; [|discriminate].
      eapply good_bind; [eapply IH1; eauto|]. intros r Hr. destruct r as [en' m'|v m']; [eapply IH2; eauto|exact Hr].
    - destruct HS as [HE HM]. destruct o as [e|].
      + destruct (type_ok hs extra g t e) eqn:ET; [|discriminate]. injection H as <-.
        eapply good_bind; [eapply type_ok_good; eauto|]. intros o (t' & Ho & Hi).
        eapply good_bind; [eapply initialises_has; eauto|]. intros o' Ho'. split; [|exact HM]. constructor; [now split|exact HE].
      + destruct (plain t) eqn:EP; [|discriminate]. injection H as <-. split; [|exact HM]. constructor; [|exact HE].
        split; [reflexivity|]. now apply has_fresh.
    - destruct HS as [HE HM]. destruct (tfind x g) as [t|] eqn:ET; [|discriminate].
      destruct (lookup_has sh en g x t HE ET) as (o & EL & Ho).
      assert (C : (exists s, t = TPtr s) \/ (path_type hs extra g t path <> None /\ (forall s, t <> TPtr s) /\
         match path_type hs extra g t path with Some (TScal _) => if scalar_ok hs extra g e then Some g else None | _ => None end = Some g')).
      { destruct t; eauto; right; (destruct (path_type hs extra g _ path); [|discriminate]); (repeat split; [discriminate|discriminate|exact H]). }
      destruct C as [[s ->]|(_ & NP & H')].
      + destruct path as [|i [|]]; try discriminate H. destruct (int_ok hs extra g i && scalar_ok hs extra g e)%bool eqn:EB; [|discriminate H].
        injection H as <-. apply andb_prop in EB. destruct EB as [EI ES].
        cbn [eval_path]. eapply good_bind with (P := fun ks => exists k, ks = [k]).
        { eapply good_bind; [eapply int_ok_good; eauto|]. intros oi (si & Hi & Fi). eapply good_bind; [eapply int_good; eauto|]. intros k _. cbn. eauto. }
        intros ks [k ->]. eapply good_bind; [eapply scalar_ok_good; eauto|]. intros v [sv Hv].
        eapply good_bind with (P := fun r => state_ok g (fst r) (snd r)); [|intros r Hr; exact Hr].
        unfold assign. eapply good_bind; [eapply scalar_good; exact Hv|]. intros p _. rewrite EL.
        destruct o; cbn [has] in Ho; try contradiction. destruct Ho as [<- Hb].
        eapply good_bind; [apply convert_good|]. intros z _.
        eapply good_bind with (P := fun m' => map fst m' = sh).
        * unfold mem_write. rewrite <- HM in Hb. rewrite nth_error_map in Hb. unfold memory, block in *. destruct (nth_error m b) as [[t' cells]|] eqn:Eb; cbn in Hb; [|cbn; discriminate].
          subst t'. rewrite sty_eqb_same. eapply good_bind; [apply (get_good (fun _ => True)); now apply Forall_forall|].
          intros w _. cbn [good]. rewrite <- HM. apply set_nth_shape. rewrite nth_error_map. unfold memory, block in *. rewrite Eb. reflexivity.
        * intros m' Hm'. cbn [good fst snd]. split; assumption.
      + destruct (path_type hs extra g t path) as [[|s|? ?|?|?]|] eqn:EP; try discriminate H'.
        destruct (scalar_ok hs extra g e) eqn:ES; [|discriminate H']. injection H' as <-.
        eapply good_bind; [eapply path_good; eauto|]. intros ks Hks.
        eapply good_bind; [eapply scalar_ok_good; eauto|]. intros v [sv Hv].
        eapply good_bind with (P := fun r => state_ok g (fst r) (snd r)); [|intros r Hr; exact Hr].
        unfold assign. eapply good_bind; [eapply scalar_good; exact Hv|]. intros p _. rewrite EL.
        assert (G : good (has sh t) (put c o ks (fst p) (snd p))) by (now apply Hks).
        assert (F : forall o', has sh t o' -> state_ok g (update x o' en) m) by (intros o' Ho'; split; [eapply update_has; eauto|exact HM]).
        destruct o; try (eapply good_bind; [exact G|]; intros o' Ho'; cbn [good fst snd]; now apply F).
        exfalso. destruct t; cbn [has] in Ho; try contradiction. eapply NP; reflexivity.
    - destruct (scalar_ok hs extra g e) eqn:ES; [|discriminate].
      destruct (check_stmt hs extra ret g s1) as [g1|] eqn:E1; [|discriminate]. destruct (check_stmt hs extra ret g s2) as [g2|] eqn:E2; [|discriminate].
      injection H as <-. destruct HS as [HE HM].
      eapply good_bind; [eapply scalar_ok_good; eauto|]. intros o [s Ho]. eapply good_bind; [eapply cond_good; exact Ho|]. intros b _.
      destruct (check_extends _ _ _ _ E1) as [d1 ->]. destruct (check_extends _ _ _ _ E2) as [d2 ->].
      eapply good_bind with (P := fun r => ctl_ok ret g (pop_ctl (List.length en) r)); [|intros r Hr; exact Hr].
      destruct b; (eapply good_weaken; [first [eapply IH1 | eapply IH2]; eauto; split; assumption|]; intros r Hr; eapply pop_ctl_ok; eauto).
    - destruct (scalar_ok hs extra g init && scalar_ok hs extra ((i, TScal t) :: g) cond && scalar_ok hs extra ((i, TScal t) :: g) next)%bool eqn:EB; [|discriminate].
      destruct (check_stmt hs extra ret ((i, TScal t) :: g) body) as [gb|] eqn:Eb; [|discriminate]. injection H as <-.
      apply andb_prop in EB. destruct EB as [EB EN]. apply andb_prop in EB. destruct EB as [EI EC].
      destruct HS as [HE HM]. eapply good_bind; [eapply scalar_ok_good; eauto|]. intros o [s Ho].
      eapply good_bind; [apply (initialises_has c (TScal s) (TScal t) sh o eq_refl Ho)|]. intros o' Ho'.
      destruct (check_extends _ _ _ _ Eb) as [db ->].
      eapply good_bind with (P := ctl_ok ret ((i, TScal t) :: g)).
      + apply loop_good.
        * intros en1 m1 [HE1 HM1]. eapply good_bind; [eapply scalar_ok_good; eauto|]. intros oc [sc Hc]. eapply cond_good; exact Hc.
        * intros en1 m1 HS1. eapply good_bind; [eapply IH; eauto|]. intros r Hr.
          assert (P := pop_ctl_ok ret ((i, TScal t) :: g) en1 db r (proj1 HS1) Hr).
          destruct (pop_ctl (List.length en1) r) as [en2 m2|v m2]; [|exact P].
          destruct P as [HE2 HM2]. eapply good_bind; [eapply scalar_ok_good; eauto|]. intros v [sv Hv].
          eapply good_bind; [eapply (assign_scalar ((i, TScal t) :: g) en2 m2 i t v sv); [now split| |exact Hv]|].
          { cbn [tfind]. now rewrite String.eqb_refl. }
          intros r' Hr'. exact Hr'.
        * split; [|exact HM]. constructor; [now split|exact HE].
      + intros r Hr. cbn [good]. apply (pop_ctl_ok ret g en [(i, TScal t)] r HE Hr).
    - destruct HS as [HE HM]. destruct (tfind d g) as [td|] eqn:Ed; [|discriminate]. destruct (tfind s g) as [ts|] eqn:Es; [|discriminate].
      destruct (int_ok hs extra g n) eqn:EI; [|discriminate]. injection H as <-.
      eapply good_bind; [eapply int_ok_good; eauto|]. intros oi (si & Hi & Fi). eapply good_bind; [eapply int_good; eauto|]. intros k _.
      destruct (lookup_has sh en g d td HE Ed) as (od & Ld & Hd). destruct (lookup_has sh en g s ts HE Es) as (os & Ls & Hs).
      rewrite Ld, Ls. eapply good_bind; [apply memcpy_good; exact Hd|]. intros od' Hd'. split; [|exact HM]. eapply update_has; eauto.
    - cbn. discriminate.
    - destruct HS as [HE HM].
      assert (C : type_ok hs extra g ret e = true /\ ret <> TVoid /\ g = g').
      { destruct ret; try discriminate; (destruct (type_ok hs extra g _ e); [|discriminate]; injection H as <-; repeat split; congruence). }
      destruct C as (ET & NV & <-). eapply good_bind; [eapply type_ok_good; eauto|]. intros o Ho. cbn [good ctl_ok]. auto.
  Qed.

  (** Arguments that fit the parameters, as objects that can initialise them. *)
  Definition args_ok (ps : list (string * ty)) (args : list obj) : Prop :=
    Forall2 (fun p a => exists t, has sh t a /\ initialises t (snd p) = true) ps args.

  Lemma params_good ps args : args_ok ps args -> good (fun en => env_has sh en ps) (bind_params c ps args).
  Proof.
    intros H. induction H as [|[x t] a ps args (t' & Ha & Hi) _ IH]; cbn [bind_params]; [constructor|].
    eapply good_bind; [eapply initialises_has; eauto|]. intros o Ho. eapply good_bind; [exact IH|]. intros en He.
    cbn [good]. constructor; [now split|exact He].
  Qed.

  Definition result_ok (ret : ty) (r : option obj * memory) : Prop :=
    map fst (snd r) = sh /\ match fst r with Some v => ret <> TVoid /\ has sh ret v | None => ret = TVoid end.

  Theorem run_body_sound f args m : type_checks hs extra f = true -> args_ok (f_params f) args -> map fst m = sh ->
    good (result_ok (f_ret f)) (run_body c callf fuel f args m).
  Proof.
    intros H HA HM. unfold type_checks in H. destruct (check_stmt hs extra (f_ret f) (f_params f) (f_body f)) as [g'|] eqn:E; [|discriminate].
    unfold run_body. eapply good_bind; [apply params_good; exact HA|]. intros en He.
    eapply good_bind; [eapply exec_sound; [exact E|now split]|]. intros r Hr.
    destruct r as [en' m'|v m'].
    - destruct Hr as [_ HM']. destruct (f_ret f) eqn:R; cbn; try discriminate. now split.
    - destruct Hr as (HM' & NV & t & Hv & Hi).
      assert (G := initialises_has c t (f_ret f) sh v Hi Hv).
      destruct (f_ret f) eqn:R; try contradiction; (eapply good_bind; [exact G|]; intros v' Hv'; split; [exact HM'|split; [discriminate|exact Hv']]).
  Qed.
End Stmt.
