(** The abstract interpreter applied to every function of the library. *)
From Coq Require Import ZArith String List Bool Lia.
From Verif Require Import Types FloatBits Syntax Interp ProgRecip Library Spec ExecLemmas.
From Verif Require Import Abs AbsSound MetaSpec.
Import ListNotations.
Open Scope Z_scope.

(** ** Abstract arguments *)

Fixpoint aty (i : bool) (t : ty) : aobj :=
  match t with
  | TVoid => AArr []
  | TScal s => AScal s i (lo s) (hi s)
  | TArr n t' => AArr (repeat (aty i t') n)
  | TStruct l => AArr (map (aty i) l)
  | TPtr s => APtr s 0 false
  end.

Lemma well_typed_ok m : well_typed m <-> mem_ok m.
Proof.
  unfold well_typed, mem_ok. rewrite !Forall_forall. split; intros H b Hb; specialize (H b Hb); rewrite Forall_forall in *; intros v Hv; specialize (H v Hv).
  - destruct v; auto.
  - intros z ->. exact H.
Qed.

Lemma has_type_inv m t o : has_type m t o ->
  match t with
  | TVoid => False
  | TScal s => exists v, o = OScal s v /\ forall z, v = Some z -> in_range s z
  | TArr n t => exists l, o = OArr l /\ List.length l = n /\ Forall (has_type m t) l
  | TStruct ts => exists l, o = OArr l /\ Forall2 (has_type m) ts l
  | TPtr s => exists b off, o = OPtr s b off /\ forall s' cells, nth_error m b = Some (s', cells) -> s' = s
  end.
Proof. destruct 1; eauto 8. Qed.

Lemma initialised_arr l : initialised (OArr l) -> Forall initialised l.
Proof. inversion 1; assumption. Qed.

Lemma has_type_cov m t : forall o, has_type m t o -> cov m (aty false t) o.
Proof.
  induction t as [|s|n t IH|l IH|s] using ty_ind'; intros o H; apply has_type_inv in H; cbn [aty].
  - destruct H.
  - destruct H as (v & -> & R). exists v. split; [reflexivity|]. destruct v; auto. apply R. reflexivity.
  - destruct H as (l & -> & <- & F). apply cov_arr. eexists. split; [reflexivity|]. induction F; cbn; constructor; auto.
  - destruct H as (l' & -> & F). apply cov_arr. eexists. split; [reflexivity|]. induction F; cbn; constructor; inversion IH; subst; auto.
  - destruct H as (b & off & -> & R). exists b, off. split; [reflexivity|]. split; [auto|intros; lia].
Qed.

Lemma has_type_cov_init m t : forall o, has_type m t o -> initialised o -> cov m (aty true t) o.
Proof.
  induction t as [|s|n t IH|l IH|s] using ty_ind'; intros o H I; apply has_type_inv in H; cbn [aty].
  - destruct H.
  - destruct H as (v & -> & R). inversion I; subst. exists (Some z). split; [reflexivity|]. apply R. reflexivity.
  - destruct H as (l & -> & <- & F). apply cov_arr. eexists. split; [reflexivity|]. apply initialised_arr in I.
    induction F; cbn; constructor; inversion I; subst; auto.
  - destruct H as (l' & -> & F). apply cov_arr. eexists. split; [reflexivity|]. apply initialised_arr in I.
    induction F; cbn; constructor; inversion IH; inversion I; subst; auto.
  - destruct H as (b & off & -> & R). exists b, off. split; [reflexivity|]. split; [auto|intros; lia].
Qed.

(** ** Abstract results *)

(** [a] describes only objects of type [t]. *)
Fixpoint fits (t : ty) (a : aobj) {struct a} : bool :=
  match t, a with
  | TScal s, AScal s' _ l h => sty_eqb s s' && (lo s <=? l) && (h <=? hi s)
  | TArr n t', AArr l => Nat.eqb n (List.length l) && forallb (fits t') l
  | TStruct ts, AArr l =>
      (fix go (ts : list ty) (l : list aobj) {struct l} : bool :=
         match ts, l with [], [] => true | t :: ts', a :: l' => fits t a && go ts' l' | _, _ => false end) ts l
  | TPtr s, APtr s' k _ => sty_eqb s s' && (0 <=? k)
  | _, _ => false
  end.

Lemma fits_sound m a : forall t o, fits t a = true -> cov m a o -> has_type m t o.
Proof.
  induction a as [s i l h|l IH|s k rd] using aobj_ind'; intros [|s'|n t'|ts|s'] o F H; cbn in F; try discriminate.
  - rewrite !andb_true_iff, !Z.leb_le in F. destruct F as [[E H1] H2]. apply sty_eqb_spec in E. subst s'.
    rewrite cov_scal in H. destruct H as (v & -> & Hv). constructor. intros z ->. unfold in_range. lia.
  - apply andb_true_iff in F. destruct F as [E F]. apply Nat.eqb_eq in E. apply cov_arr in H. destruct H as (lo & -> & F2).
    constructor; [rewrite <- (Forall2_length _ _ _ F2); auto|]. clear E.
    induction F2 as [|x y l lo Hxy F2 IHF]; [constructor|]. cbn in F. apply andb_true_iff in F. destruct F as [F1 F].
    inversion IH as [|? ? I1 I2]; subst. constructor; [now apply I1|]. now apply IHF.
  - apply cov_arr in H. destruct H as (lo & -> & F2). constructor. revert ts F.
    induction F2 as [|x y l lo Hxy F2 IHF]; intros [|t ts] F; cbn in F; try discriminate; [constructor|].
    apply andb_true_iff in F. destruct F as [F1 F]. inversion IH as [|? ? I1 I2]; subst. constructor; [now apply I1|]. now apply IHF.
  - rewrite andb_true_iff, Z.leb_le in F. destruct F as [E K]. apply sty_eqb_spec in E. subst s'. rewrite cov_ptr in H. destruct H as (b & off & -> & H1 & _). constructor. exact (H1 K).
Qed.

Lemma all_init_sound m a : forall o, all_init a = true -> cov m a o -> initialised o.
Proof.
  induction a as [s i l h|l IH|s k rd] using aobj_ind'; intros o F H; cbn in F.
  - rewrite cov_scal in H. destruct H as (v & -> & Hv). destruct v; [constructor|congruence].
  - apply cov_arr in H. destruct H as (lo & -> & F2). constructor.
    induction F2 as [|x y l lo Hxy F2 IHF]; [constructor|]. cbn in F. apply andb_true_iff in F. destruct F as [F1 F].
    inversion IH as [|? ? I1 I2]; subst. constructor; [now apply I1|]. now apply IHF.
  - rewrite cov_ptr in H. destruct H as (b & off & -> & _). constructor.
Qed.

(** ** Any well-typed call *)

Definition has_err (e : err) (l : list err) : bool := existsb (err_eqb e) l.
Lemma has_err_in e l : has_err e l = true <-> In e l.
Proof.
  unfold has_err. rewrite existsb_exists. split; [intros (x & H & E); apply err_eqb_spec in E; now subst|].
  intros H. exists e. split; [exact H|now apply err_eqb_spec].
Qed.

Definition fits_ret (t : ty) (a : option aobj) : bool :=
  match t, a with TVoid, None => true | TVoid, Some _ => false | _, Some a => fits t a | _, None => false end.

Definition check_any (wv : bool) (f : func) : bool :=
  let '(vs, es, w) := arun wv f (map (fun p => aty false (snd p)) (f_params f)) in
  negb (has_err EStuck es) && negb (has_err ETimeout es) && forallb (fits_ret (f_ret f)) vs && (negb w || is_store f).

Lemma check_any_library : forallb (fun f => check_any true f && check_any false f) library = true.
Proof. vm_compute. reflexivity. Qed.

Lemma typed_args_cov m ps args : Forall2 (fun p o => has_type m (snd p) o) ps args ->
  Forall2 (cov m) (map (fun p : string * ty => aty false (snd p)) ps) args.
Proof. induction 1; cbn; constructor; auto. now apply has_type_cov. Qed.

Definition ret_ok (m : memory) (t : ty) (v : option obj) : Prop :=
  match v with None => t = TVoid | Some o => has_type m t o end.

Theorem any_call f c m args : In f library -> well_typed m -> typed_args m f args ->
  match run c m f args with
  | Returns m' v => ret_ok m' (f_ret f) v /\ well_typed m' /\ same_blocks m m' /\ (is_store f = false -> m' = m)
  | Aborts | Undefined _ => True
  | Timeout | Stuck => False
  end.
Proof.
  intros Hf M T. pose proof (proj1 (forallb_forall _ _) check_any_library f Hf) as C.
  assert (CK : check_any (wrapv c) f = true) by (cbv beta in C; apply andb_prop in C; destruct (wrapv c); [exact (proj1 C)|exact (proj2 C)]). clear C.
  pose proof (arun_sound c m f _ args (proj1 (well_typed_ok m) M) (typed_args_cov m _ _ T)) as S.
  unfold check_any in CK. destruct (arun _ _ _) as [[vs es] w]. unfold bsound in S. cbn [fst snd] in S.
  rewrite !andb_true_iff, !negb_true_iff in CK. destruct CK as [[[C1 C2] C3] C4].
  assert (N1 : ~ In EStuck es) by (rewrite <- has_err_in; congruence).
  assert (N2 : ~ In ETimeout es) by (rewrite <- has_err_in; congruence).
  specialize (S N1). unfold run. destruct (run_body _ _ _ _ _ _) as [[v m']|[k| | |]]; cbn; auto.
  destruct S as ((a & Ha & Hc) & (M' & L & W)).
  rewrite forallb_forall in C3. specialize (C3 a Ha).
  split; [|split; [now apply well_typed_ok|split; [exact L|]]].
  - unfold ret_ok. destruct a as [a|], v as [v|]; try destruct Hc; destruct (f_ret f); cbn in C3; try discriminate; try reflexivity; eapply fits_sound; eauto.
  - intros E. apply W. rewrite E, orb_false_r in C4. now apply negb_true_iff in C4.
Qed.
