(** Programs that compile and link have a meaning. *)
From Coq Require Import ZArith String List Bool Lia.
From Verif Require Import Types FloatBits FloatR Syntax Interp ProgRecip Library Header AbsSound MetaSpec P_Meta P_Threads P_Header Frontend Checked ExecLemmas.
From Verif Require Suite.
Import ListNotations.
Import Suite (texpr(..), tstmt(..)).
Open Scope Z_scope.

(** ** Types *)

Lemma same_type_eqb : same_type = ty_eqb.
Proof. reflexivity. Qed.
Lemma same_type_spec a b : same_type a b = true -> a = b.
Proof. rewrite same_type_eqb. apply ty_eqb_spec. Qed.
Lemma same_types_spec : forall a b, same_types a b = true -> a = b.
Proof.
  induction a as [|x a IH]; destruct b as [|y b]; cbn; try discriminate; intros H; [reflexivity|].
  apply andb_prop in H. destruct H as [H1 H2]. f_equal; [now apply same_type_spec|now apply IH].
Qed.
Lemma same_type_refl t : same_type t t = true.
Proof. rewrite same_type_eqb. now apply ty_eqb_spec. Qed.
Lemma same_types_refl : forall l, same_types l l = true.
Proof. induction l as [|x l IH]; [reflexivity|]. cbn. now rewrite same_type_refl. Qed.

Fixpoint plain_type (t : ty) : bool := match t with TScal _ => true | TArr _ t' => plain_type t' | _ => false end.
Lemma has_type_plain m m' : forall t o, plain_type t = true -> has_type m t o -> has_type m' t o.
Proof.
  induction t as [|s|n t IH|ts|s]; cbn; try discriminate; intros o P H.
  - inversion H; subst. now constructor.
  - inversion H as [|n' t' l L F| |]; subst. constructor; [reflexivity|].
    rewrite Forall_forall in *. intros x Hx. apply IH; auto.
Qed.

Lemma has_type_same m m' : same_blocks m m' -> forall t o, plain_type t = true \/ (exists s, t = TPtr s) -> has_type m t o -> has_type m' t o.
Proof.
  intros [L B] t o [P|[s ->]] H; [now apply (has_type_plain m)|]. inversion H; subst. constructor.
  intros s' cells N. assert (Hb : (b < length m)%nat) by (rewrite <- L; apply nth_error_Some; congruence).
  destruct (nth_error m b) as [[s2 c2]|] eqn:E; [|apply nth_error_None in E; lia].
  destruct (B _ _ _ E) as (c3 & N' & _). rewrite N' in N. injection N as <- <-. eauto.
Qed.

Lemma fresh_type m : forall t, plain_type t = true -> has_type m t (fresh t).
Proof.
  induction t as [|s|n t IH|ts|s]; cbn; try discriminate; intros H.
  - constructor. discriminate.
  - constructor; [apply repeat_length|]. apply Forall_forall. intros x Hx. apply repeat_spec in Hx. subst x. now apply IH.
Qed.
Lemma zero_range s : in_range s 0.
Proof. destruct s; cbv; split; congruence. Qed.
Lemma zero_type m : forall t, plain_type t = true -> has_type m t (zero t).
Proof.
  induction t as [|s|n t IH|ts|s]; cbn; try discriminate; intros H.
  - constructor. intros z [= <-]. apply zero_range.
  - constructor; [apply repeat_length|]. apply Forall_forall. intros x Hx. apply repeat_spec in Hx. subst x. now apply IH.
Qed.

(** ** Declarations *)

Definition value_type (t : ty) : bool := match t with TPtr _ => true | _ => plain_type t end.
Definition signature_ok (d : string * ty * list ty * Z) : bool :=
  match snd (fst (fst d)) with TVoid => true | t => plain_type t end && forallb value_type (snd (fst d)).
Lemma header_signatures : forallb signature_ok header = true.
Proof. vm_compute. reflexivity. Qed.

Lemma declared_in f r ps : declared f = Some (r, ps) -> exists line, In (f, r, ps, line) header.
Proof.
  unfold declared. destruct (find _ header) as [[[[n r'] ps'] l]|] eqn:E; [|discriminate]. intros [= <- <-].
  apply find_some in E. destruct E as [I E]. cbn in E. apply String.eqb_eq in E. subst n. eauto.
Qed.
Lemma declared_types f r ps : declared f = Some (r, ps) -> (r = TVoid \/ plain_type r = true) /\ Forall (fun t => value_type t = true) ps.
Proof.
  intros D. destruct (declared_in f r ps D) as [l I]. pose proof (proj1 (forallb_forall _ _) header_signatures _ I) as C.
  unfold signature_ok in C. cbn [fst snd] in C. apply andb_prop in C. destruct C as [C1 C2]. split.
  - destruct r; auto.
  - apply Forall_forall. now apply forallb_forall.
Qed.
Lemma value_cases t : value_type t = true -> plain_type t = true \/ exists s, t = TPtr s.
Proof. destruct t; cbn; eauto. Qed.

Lemma linked_spec f r ps fn : linked f r ps = Some fn -> In fn library /\ f_name fn = f /\ f_ret fn = r /\ map snd (f_params fn) = ps.
Proof.
  unfold linked. intros H. apply find_some in H. destruct H as [I H]. apply andb_prop in H. destruct H as [H H3]. apply andb_prop in H.
  destruct H as [H1 H2]. apply String.eqb_eq in H1. apply same_type_spec in H2. apply same_types_spec in H3. auto.
Qed.

Definition names_plain : bool := forallb (fun p => plain_type (snd p)) (filter (fun p => match snd p with TScal _ | TArr _ _ => true | _ => false end) type_names).
Lemma names_plain_true : names_plain = true.
Proof. vm_compute. reflexivity. Qed.
Lemma assoc_in {A} x : forall (l : list (string * A)) a, assoc x l = Some a -> In (x, a) l.
Proof.
  induction l as [|[y b] l IH]; cbn; intros a; [discriminate|]. destruct (String.eqb x y) eqn:E.
  - apply String.eqb_eq in E. subst. intros [= ->]. now left.
  - intros H. right. now apply IH.
Qed.
Lemma object_plain t ty : object_type t = Some ty -> plain_type ty = true.
Proof.
  unfold object_type. destruct (assoc t type_names) as [u|] eqn:E; [|discriminate]. apply assoc_in in E. intros H.
  assert (u = ty) as -> by (destruct u; congruence).
  apply (proj1 (forallb_forall _ _) names_plain_true (t, ty)). apply filter_In. split; [exact E|]. destruct ty; try discriminate H; reflexivity.
Qed.

(** ** Variables *)

(** The variables are those the compiler knows, and they are objects of their types. *)
Definition agree (m : memory) (k : string * kind) (v : string * variable) : Prop :=
  fst k = fst v /\
  match snd k, snd v with
  | KObj t, VObj t' o => t = t' /\ plain_type t = true /\ has_type m t o
  | KArr s, VArr s' b => s = s' /\ exists cells, nth_error m b = Some (s, cells)
  | _, _ => False
  end.

Lemma agree_assoc m sc en x k : Forall2 (agree m) sc en -> assoc x sc = Some k ->
  exists v, assoc x en = Some v /\ agree m (x, k) (x, v).
Proof.
  induction 1 as [|[y k'] [y' v'] sc en [E A] F IH]; cbn; [discriminate|]. cbn in E. subst y'.
  destruct (String.eqb x y); [|exact IH]. intros [= ->]. exists v'. split; [reflexivity|]. split; [reflexivity|exact A].
Qed.

Lemma agree_same m m' sc en : same_blocks m m' -> Forall2 (agree m) sc en -> Forall2 (agree m') sc en.
Proof.
  intros B H. induction H as [|k v sc en [E A] F IH]; constructor; [|exact IH]. split; [exact E|].
  destruct (snd k), (snd v); try exact A.
  - destruct A as (A1 & A2 & A3). repeat split; auto. now apply (has_type_plain m).
  - destruct A as (A1 & cells & A2). split; [exact A1|]. destruct B as [_ B]. destruct (B _ _ _ A2) as (c' & N & _). eauto.
Qed.
Lemma agree_more m x sc en : Forall2 (agree m) sc en -> Forall2 (agree (m ++ [x])) sc en.
Proof.
  intros H. induction H as [|k v sc en [E A] F IH]; constructor; [|exact IH]. split; [exact E|].
  destruct (snd k), (snd v); try exact A.
  - destruct A as (A1 & A2 & A3). repeat split; auto. now apply (has_type_plain m).
  - destruct A as (A1 & cells & A2). split; [exact A1|]. exists cells. rewrite nth_error_app1; [exact A2|]. apply nth_error_Some. congruence.
Qed.

(** ** Expressions *)

Lemma texpr_ind' (P : texpr -> Prop) :
  (forall x, P (XVar x)) -> (forall m k, P (XNum m k)) -> (forall f args, Forall P args -> P (XCall f args)) ->
  (forall x i, P (XVal x i)) -> (forall x, P (XAddr x)) -> (forall x, P (XData x)) -> forall e, P e.
Proof.
  intros H1 H2 H3 H4 H5 H6. fix self 1. intros [x|m k|f args|x i|x|x]; [apply H1|apply H2|apply H3|apply H4|apply H5|apply H6].
  induction args as [|a args IH]; constructor; [apply self|exact IH].
Qed.

Section Run.
Variable c : cfg.

Lemma convert_range from to z : in_range from z ->
  match convert c from to z with Ok z' => in_range to z' | Err (EUB _) => True | Err _ => False end.
Proof.
  intros H. unfold convert. destruct (sty_eqb from to) eqn:E; [apply sty_eqb_spec in E; now subst|].
  destruct (is_float from).
  - destruct (is_float to) eqn:F; [apply cvt_range; now apply fty_float|].
    destruct (sf_trunc _) as [i|]; [|exact I]. destruct (in_rangeb to i) eqn:R; [|exact I]. now apply in_rangeb_spec.
  - destruct (is_float to) eqn:F; [apply of_Z_range; now apply fty_float|apply wrap_range].
Qed.

Definition good {A} (P : A -> Prop) (r : result A) : Prop := match r with Fine a => P a | Meaningless => False | _ => True end.
Lemma good_after {A B} (P : A -> Prop) (Q : B -> Prop) r (f : A -> result B) : good P r -> (forall a, P a -> good Q (f a)) -> good Q (after r f).
Proof. destruct r; cbn; auto. Qed.

Lemma good_weaken {A} (P Q : A -> Prop) r : good P r -> (forall a, P a -> Q a) -> good Q r.
Proof. destruct r; cbn; auto. Qed.

Lemma adapt_good m t want o : usable t want = true -> has_type m t o -> good (fun o' => has_type m want o') (adapt c want o).
Proof.
  intros U H. destruct want as [|s|n u|ts|s]; cbn [adapt].
  - destruct t; try discriminate U. inversion H.
  - destruct t as [|s'|? ?|?|?]; try discriminate U. inversion H as [? v R| | |]; subst. destruct v as [z|]; [|exact I].
    pose proof (convert_range s' s z (R z eq_refl)) as C. destruct (convert c s' s z) as [z'|[]]; cbn in *; auto.
    constructor. intros ? [= <-]. exact C.
  - assert (t = TArr n u) as -> by (destruct t; try discriminate U; now apply same_type_spec). exact H.
  - assert (t = TStruct ts) as -> by (destruct t; try discriminate U; now apply same_type_spec). exact H.
  - assert (t = TPtr s) as -> by (destruct t; try discriminate U; now apply same_type_spec). exact H.
Qed.

Definition value_ok (m : memory) (want : ty) (r : obj * memory) : Prop :=
  (want = TVoid \/ has_type (snd r) want (fst r)) /\ well_typed (snd r) /\ same_blocks m (snd r).

Lemma i32_literal m z : in_rangeb I32 z = true -> has_type m (TScal I32) (rv I32 z).
Proof. intros H. constructor. intros ? [= <-]. now apply in_rangeb_spec. Qed.
Lemma double_range z k : in_range F64 (double_literal z k).
Proof. unfold double_literal. cbv zeta. apply fdiv_range; [now right| |]; apply of_Z_range; now right. Qed.

Lemma eval_good : forall e en sc m want, Forall2 (agree m) sc en -> well_typed m -> fits sc want e = true ->
  forallb found (Suite.calls e) = true -> good (value_ok m want) (eval c en m want e).
Proof.
  induction e as [x|z k|f args IH|x i|x|x] using texpr_ind'; intros en sc m want A W F L; cbn in F; try discriminate F.
  - destruct (assoc x sc) as [k|] eqn:E; [|discriminate]. destruct (agree_assoc m sc en x k A E) as (v & Ev & _ & Av). cbn [eval]. rewrite Ev. cbn [or_none after].
    cbn [snd] in Av. destruct k as [t|s], v as [t' o|s' b]; try contradiction.
    + destruct Av as (<- & P & H). rewrite F. apply (good_after (fun o' => has_type m want o')); [now apply (adapt_good m t)|].
      intros o' Ho. cbn. split; [now right|]. split; [exact W|apply same_blocks_refl].
    + destruct Av as (<- & cells & N). destruct want as [| | | |s']; try discriminate F. rewrite F. apply sty_eqb_spec in F. subst s'. cbn.
      split; [right|split; [exact W|apply same_blocks_refl]]. constructor. cbn. intros s' cells' N'. congruence.
  - cbn [eval]. destruct k as [k|].
    + destruct want as [|s|? ?|?|?]; try discriminate F. apply (good_after (fun o' => has_type m (TScal s) o')).
      { apply (adapt_good m (TScal F64)); [reflexivity|]. constructor. intros ? [= <-]. apply double_range. }
      intros o' Ho. cbn. split; [now right|]. split; [exact W|apply same_blocks_refl].
    + destruct want as [|s|? ?|?|?]; try discriminate F. apply (good_after (fun o' => has_type m (TScal s) o')).
      { apply (adapt_good m (TScal I32)); [reflexivity|]. now apply i32_literal. }
      intros o' Ho. cbn. split; [now right|]. split; [exact W|apply same_blocks_refl].
  - cbn [Suite.calls forallb] in L. apply andb_prop in L. destruct L as [Lf La].
    cbn [eval]. destruct (declared f) as [[r ps]|] eqn:D; [|discriminate]. apply andb_prop in F. destruct F as [U Fa].
    destruct (declared_types f r ps D) as [Tr Tp].
    unfold found in Lf. rewrite D in Lf. destruct (linked f r ps) as [fn|] eqn:LK; [|discriminate].
    destruct (linked_spec f r ps fn LK) as (Il & _ & R & Q). cbn [or_none after].
    apply (good_after (fun q => Forall2 (has_type (snd q)) ps (fst q) /\ well_typed (snd q) /\ same_blocks m (snd q))).
    + clear U Tr LK R Q D Lf. revert m ps A W Fa Tp. induction IH as [|a args Ha Hargs IHargs]; intros m ps A W Fa Tp.
      * destruct ps; [|discriminate]. cbn. split; [constructor|]. split; [exact W|apply same_blocks_refl].
      * destruct ps as [|p ps]; [discriminate|]. apply andb_prop in Fa. destruct Fa as [Fa Fb]. inversion Tp as [|? ? Tp1 Tp2]; subst.
        cbn [flat_map] in La. rewrite forallb_app in La. apply andb_prop in La. destruct La as [La Lb].
        apply (good_after (value_ok m p)); [now apply (Ha en sc)|]. intros [o m1] (Ho & W1 & B1). cbn [fst snd] in *.
        apply (good_after (fun q => Forall2 (has_type (snd q)) ps (fst q) /\ well_typed (snd q) /\ same_blocks m1 (snd q))).
        { apply IHargs; auto. now apply (agree_same m). }
        intros [os m2] (Hos & W2 & B2). cbn [fst snd good] in *. split; [|split; [exact W2|now apply (same_blocks_trans _ m1)]].
        constructor; [|exact Hos]. apply (has_type_same m1 m2 B2); [now apply value_cases|]. destruct Ho as [-> |Ho]; [discriminate Tp1|exact Ho].
    + intros [os m1] (Hos & W1 & B1). cbn [fst snd] in *.
      assert (TA : typed_args m1 fn os).
      { unfold typed_args. clear -Hos Q. subst ps. revert os Hos. induction (f_params fn) as [|p l IHl]; cbn; intros os H; inversion H; subst; constructor; auto. }
      rewrite LK. cbn [or_none after]. pose proof (any_call fn c m1 os Il W1 TA) as AC. destruct (run c m1 fn os) as [m2 [o|]| |k| |]; try exact AC; try exact I.
      * destruct AC as (Ro & W2 & B2 & _). cbn [ret_ok] in Ro. rewrite R in Ro. rewrite U.
        apply (good_after (fun o' => has_type m2 want o')); [now apply (adapt_good m2 r)|].
        intros o' Ho. cbn. split; [now right|]. split; [exact W2|now apply (same_blocks_trans _ m1)].
      * destruct AC as (Ro & W2 & B2 & _). cbn [ret_ok] in Ro. rewrite R in Ro. rewrite Ro in U. destruct want; try discriminate U. cbn.
        split; [now left|]. split; [exact W2|now apply (same_blocks_trans _ m1)].
  - destruct (assoc x sc) as [[[|?|n t|?|?]|?]|] eqn:E; try discriminate. destruct (agree_assoc m sc en x _ A E) as (v & Ev & _ & Av). cbn [eval]. rewrite Ev. cbn [or_none after].
    cbn [snd] in Av. destruct v as [t' o|]; [|contradiction]. destruct Av as (<- & P & H). inversion H as [|? ? l Ln Fl| |]; subst.
    rewrite F. destruct ((0 <=? i) && (i <? Z.of_nat (length l))) eqn:Ri; [|exact I]. apply andb_prop in Ri. destruct Ri as [R1 R2].
    apply Z.leb_le in R1. apply Z.ltb_lt in R2. destruct (nth_error l (Z.to_nat i)) as [o|] eqn:N.
    2:{ apply nth_error_None in N. lia. }
    cbn [or_none after]. apply (good_after (fun o' => has_type m want o')).
    { apply (adapt_good m t); [exact F|]. rewrite Forall_forall in Fl. apply Fl. now apply (nth_error_In _ (Z.to_nat i)). }
    intros o' Ho. cbn. split; [now right|]. split; [exact W|apply same_blocks_refl].
Qed.

Definition list_ok (m : memory) (t : ty) (n : nat) (r : list obj * memory) : Prop :=
  length (fst r) = n /\ Forall (has_type (snd r) t) (fst r) /\ well_typed (snd r) /\ same_blocks m (snd r).

Lemma eval_list_good : forall n l en sc m t, Forall2 (agree m) sc en -> well_typed m -> plain_type t = true -> (length l <= n)%nat ->
  forallb (fits sc t) l = true -> forallb found (flat_map Suite.calls l) = true -> good (list_ok m t n) (eval_list c en m t n l).
Proof.
  induction n as [|n IH]; intros l en sc m t A W P Ln F L; destruct l as [|e l]; cbn [eval_list].
  - cbn. split; [reflexivity|]. split; [constructor|]. split; [exact W|apply same_blocks_refl].
  - cbn in Ln. lia.
  - apply (good_after (list_ok m t n)); [apply (IH [] en sc); auto; cbn; lia|]. intros [os m1] (H1 & H2 & H3 & H4). cbn in *.
    split; [cbn [fst length]; congruence|]. split; [constructor; [now apply zero_type|exact H2]|]. now split.
  - cbn [flat_map] in L. rewrite forallb_app in L. apply andb_prop in L. destruct L as [La Lb]. cbn [forallb] in F. apply andb_prop in F. destruct F as [Fa Fb].
    cbn in Ln.
    apply (good_after (value_ok m t)); [now apply (eval_good e en sc)|]. intros [o m1] (Ho & W1 & B1). cbn [fst snd] in *.
    apply (good_after (list_ok m1 t n)); [apply (IH l en sc); auto; [now apply (agree_same m)|lia]|].
    intros [os m2] (H1 & H2 & H3 & H4). cbn in *. split; [cbn [fst length]; congruence|]. split; [|split; [exact H3|now apply (same_blocks_trans _ m1)]].
    constructor; [|exact H2]. destruct Ho as [-> |Ho]; [discriminate P|]. now apply (has_type_plain m1).
Qed.

Lemma elements_fits sc s n l : elements_fit sc s n l = true -> (length l <= n)%nat /\ forallb (fits sc (TScal s)) l = true.
Proof.
  unfold elements_fit. intros H. apply andb_prop in H. destruct H as [H1 H2]. apply Nat.leb_le in H1. split; [exact H1|].
  rewrite forallb_forall in *. intros e He. specialize (H2 e He). unfold listed in H2. now apply andb_prop in H2.
Qed.
Lemma braces_fits sc n t l : plain_type t = true -> braces_fit sc (TArr n t) l = true -> (length l <= n)%nat /\ forallb (fits sc t) l = true.
Proof.
  intros P. cbn [braces_fit]. destruct t; try discriminate P; [apply elements_fits|]. intros H. apply andb_prop in H. destruct H as [H1 H2].
  now apply Nat.leb_le in H1.
Qed.

(** ** Statements *)

Definition state_ok (m : memory) (sc : scope) (st : state) : Prop :=
  Forall2 (agree (snd st)) sc (fst st) /\ well_typed (snd st) /\
  forall b s cells, nth_error m b = Some (s, cells) -> exists cells', nth_error (snd st) b = Some (s, cells').

Lemma keep_refl (m : memory) b s cells : nth_error m b = Some (s, cells) -> exists cells', nth_error m b = Some (s, cells').
Proof. eauto. Qed.
Lemma keep_same m m' : same_blocks m m' -> forall b s cells, nth_error m b = Some (s, cells) -> exists cells', nth_error m' b = Some (s, cells').
Proof. intros [_ B] b s cells H. destruct (B _ _ _ H) as (c' & N & _). eauto. Qed.

Lemma cell_range m s o : has_type m (TScal s) o -> forall z, cell o = Some z -> in_range s z.
Proof. intros H. inversion H; subst. exact H1. Qed.

Lemma tstmt_ind' (P : tstmt -> Prop) :
  (forall s, match s with TBlock _ => True | _ => P s end) -> (forall l, Forall P l -> P (TBlock l)) -> forall s, P s.
Proof.
  intros H1 H2. fix self 1. intros s. destruct s; try (match goal with |- P ?s => exact (H1 s) end). apply H2. induction l as [|a l IH]; constructor; [apply self|exact IH].
Qed.

Lemma agree_keep m m' sc en : (forall b s cells, nth_error m b = Some (s, cells) -> exists cells', nth_error m' b = Some (s, cells')) ->
  Forall2 (agree m) sc en -> Forall2 (agree m') sc en.
Proof.
  intros K H. induction H as [|k v sc en [E A] F IH]; constructor; [|exact IH]. split; [exact E|].
  destruct (snd k), (snd v); try exact A.
  - destruct A as (A1 & A2 & A3). repeat split; auto. now apply (has_type_plain m).
  - destruct A as (A1 & cells & A2). split; [exact A1|]. exact (K _ _ _ A2).
Qed.

Lemma exec_good : forall s sc sc' en m, check s sc = Some sc' -> Forall2 (agree m) sc en -> well_typed m ->
  forallb found (Suite.called s) = true -> good (state_ok m sc') (exec c s (en, m)).
Proof.
  intros s. pattern s. apply tstmt_ind'; clear s; [intros s|intros l IH].
  - destruct s; try exact I; intros sc sc' en m C A W L; cbn [check] in C; cbn [exec]; try discriminate C.
    + destruct (object_type t) as [ty|] eqn:T; [|discriminate]. injection C as <-. cbn. split; [|split; [exact W|apply keep_refl]].
      constructor; [|exact A]. split; [reflexivity|]. pose proof (object_plain t ty T) as P. cbn. repeat split; [exact P|]. now apply fresh_type.
    + destruct (object_type t) as [ty|] eqn:T; [|discriminate]. destruct (braces_fit sc ty l) eqn:B; [|discriminate]. injection C as <-. cbn [or_none after].
      pose proof (object_plain t ty T) as P. destruct ty as [| |n u| |]; try discriminate B. destruct (braces_fits sc n u l P B) as [Ln F].
      apply (good_after (list_ok m u n)); [now apply (eval_list_good n l en sc)|]. intros [os m1] (H1 & H2 & H3 & H4). cbn in *.
      split; [|split; [exact H3|now apply keep_same]]. constructor; [|now apply (agree_same m)]. split; [reflexivity|]. cbn. repeat split; [exact P|]. now constructor.
    + destruct (object_type t) as [ty|] eqn:T; [|discriminate]. destruct (fits sc ty e) eqn:F; [|discriminate]. injection C as <-. cbn [or_none after].
      pose proof (object_plain t ty T) as P.
      apply (good_after (value_ok m ty)); [now apply (eval_good e en sc)|]. intros [o m1] (H1 & H3 & H4). cbn in *.
      split; [|split; [exact H3|now apply keep_same]]. constructor; [|now apply (agree_same m)]. split; [reflexivity|]. cbn. repeat split; [exact P|].
      destruct H1 as [-> |H1]; [discriminate P|exact H1].
    + destruct (object_type t) as [[|s| | |]|] eqn:T; try discriminate. destruct (elements_fit _ _ _ _) eqn:B in C; [|discriminate]. injection C as <-. cbn [or_none after].
      destruct (elements_fits _ _ _ _ B) as [Ln F].
      apply (good_after (list_ok m (TScal s) (match n with Some k => Z.to_nat k | None => length l end))); [now apply (eval_list_good _ l en sc)|].
      intros [os m1] (H1 & H2 & H3 & H4). cbn in *. split; [|split].
      * constructor; [|apply agree_more; now apply (agree_same m)]. split; [reflexivity|]. cbn. split; [reflexivity|]. exists (map cell os).
        rewrite nth_error_app2 by lia. now rewrite Nat.sub_diag.
      * unfold well_typed in *. apply Forall_app. split; [exact H3|]. constructor; [|constructor]. cbn. apply Forall_forall. intros v Hv. apply in_map_iff in Hv.
        destruct Hv as (o & <- & Ho). rewrite Forall_forall in H2. exact (cell_range m1 s o (H2 o Ho)).
      * intros b s' cells N. destruct (keep_same m m1 H4 _ _ _ N) as [c' N']. exists c'. refine (eq_trans (nth_error_app1 _ _ _) N'). apply nth_error_Some. congruence.
    + destruct e as [|? ?|f args|? ?|?|?]; try discriminate C. destruct (declared f) as [[r ps]|] eqn:D; [|discriminate].
      destruct (fits sc r (XCall f args)) eqn:F; [|discriminate]. injection C as <-. cbn [or_none after].
      apply (good_after (value_ok m r)); [now apply (eval_good (XCall f args) en sc)|]. intros [o m1] (H1 & H3 & H4). cbn in *.
      split; [now apply (agree_same m)|]. split; [exact H3|now apply keep_same].
  - intros sc sc' en m C A W L. cbn [check] in C. cbn [exec].
    match type of C with match ?x with _ => _ end = _ => destruct x as [sc1|] eqn:E; [|discriminate] end. injection C as <-.
    apply (good_after (state_ok m sc1)).
    + cbn [Suite.called] in L. clear -IH A W L E. revert sc en m A W L E. induction IH as [|s l Hs Hl IHl]; intros sc en m A W L E.
      * injection E as <-. cbn. split; [exact A|]. split; [exact W|apply keep_refl].
      * cbn [flat_map] in L. rewrite forallb_app in L. apply andb_prop in L. destruct L as [La Lb].
        destruct (check s sc) as [sc2|] eqn:C; [|discriminate].
        apply (good_after (state_ok m sc2)); [now apply (Hs sc)|]. intros [en2 m2] (H1 & H2 & H3). cbn [fst snd] in *.
        pose proof (IHl sc2 en2 m2 H1 H2 Lb E) as G. match goal with |- good _ ?r => destruct r as [[en3 m3]| | |]; try exact G end.
        destruct G as (G1 & G2 & G3). split; [exact G1|]. split; [exact G2|]. cbn [snd] in *. intros b s' cells N. destruct (H3 _ _ _ N) as [c' N']. exact (G3 _ _ _ N').
    + intros [en1 m1] (H1 & H2 & H3). cbn in *. split; [|split; [exact H2|exact H3]]. now apply (agree_keep m).
Qed.

Lemma exec_all_good : forall l sc sc' en m, check_all l sc = Some sc' -> Forall2 (agree m) sc en -> well_typed m ->
  forallb found (flat_map Suite.called l) = true -> good (state_ok m sc') (exec_all c l (en, m)).
Proof.
  induction l as [|s l IHl]; intros sc sc' en m E A W L; cbn [check_all exec_all] in *.
  - injection E as <-. cbn. split; [exact A|]. split; [exact W|apply keep_refl].
  - cbn [flat_map] in L. rewrite forallb_app in L. apply andb_prop in L. destruct L as [La Lb].
    destruct (check s sc) as [sc2|] eqn:C; [|discriminate].
    apply (good_after (state_ok m sc2)); [now apply (exec_good s sc)|]. intros [en2 m2] (H1 & H2 & H3). cbn [fst snd] in *.
    refine (good_weaken _ _ _ (IHl sc2 sc' en2 m2 E H1 H2 Lb) _). intros [en3 m3] (G1 & G2 & G3).
    split; [exact G1|]. split; [exact G2|]. cbn [snd] in *. intros b s' cells N. destruct (H3 _ _ _ N) as [c' N']. exact (G3 _ _ _ N').
Qed.
End Run.
