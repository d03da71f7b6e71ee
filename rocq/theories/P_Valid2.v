(** Which documented calls go wrong: exact lists, with a witness for every entry. *)
From Coq Require Import ZArith String List Bool Lia.
From Verif Require Import Types FloatBits Syntax Interp ProgRecip Library Spec ExecLemmas P_Mul P_Tbl.
From Verif Require Import Abs AbsSound MetaSpec P_Meta P_Valid.
Import ListNotations.
Open Scope Z_scope.

(** ** Deciding the hypotheses, for the witnesses *)

Definition cell_okb (s : sty) (v : option Z) : bool := match v with Some z => in_rangeb s z | None => true end.
Definition well_typedb (m : memory) : bool := forallb (fun b : block => forallb (cell_okb (fst b)) (snd b)) m.
Lemma cell_okb_ok s v : cell_okb s v = true -> forall z, v = Some z -> in_range s z.
Proof. intros H z ->. now apply in_rangeb_spec. Qed.
Lemma well_typedb_ok m : well_typedb m = true -> well_typed m.
Proof.
  unfold well_typedb, well_typed. rewrite forallb_forall, Forall_forall. intros H b Hb. specialize (H b Hb).
  rewrite forallb_forall in H. rewrite Forall_forall. intros v Hv. now apply cell_okb_ok, H.
Qed.

Fixpoint has_typeb (m : memory) (t : ty) (o : obj) {struct t} : bool :=
  match t, o with
  | TScal s, OScal s' v => if sty_eqb s s' then cell_okb s v else false
  | TArr n t', OArr l => Nat.eqb (List.length l) n && forallb (has_typeb m t') l
  | TPtr s, OPtr s' b _ => sty_eqb s s' && match nth_error m b with Some (s2, _) => sty_eqb s s2 | None => true end
  | _, _ => false
  end.
Lemma has_typeb_ok m t : forall o, has_typeb m t o = true -> has_type m t o.
Proof.
  induction t as [|s|n t IH|ts IH|s] using ty_ind'; intros o H; destruct o as [s' v|l|s' b off]; try discriminate H; cbn [has_typeb] in H.
  - destruct (sty_eqb s s') eqn:E; [|discriminate]. apply sty_eqb_spec in E. subst s'. constructor. now apply cell_okb_ok.
  - apply andb_prop in H. destruct H as [H1 H2]. apply Nat.eqb_eq in H1. constructor; [exact H1|].
    rewrite forallb_forall in H2. rewrite Forall_forall. auto.
  - apply andb_prop in H. destruct H as [H1 H2]. apply sty_eqb_spec in H1. subst s'. constructor.
    intros s2 cells E. rewrite E in H2. symmetry. now apply sty_eqb_spec.
Qed.

Section ObjInd.
  Variable P : obj -> Prop.
  Hypothesis (HS : forall s v, P (OScal s v)) (HA : forall l, Forall P l -> P (OArr l)) (HP : forall s b off, P (OPtr s b off)).
  Fixpoint obj_ind' (o : obj) : P o :=
    match o with
    | OScal s v => HS s v
    | OArr l => HA l ((fix go l : Forall P l := match l with [] => Forall_nil P | x :: l' => Forall_cons x (obj_ind' x) (go l') end) l)
    | OPtr s b off => HP s b off
    end.
End ObjInd.

Fixpoint initb (o : obj) : bool :=
  match o with OScal _ (Some _) => true | OScal _ None => false | OArr l => forallb initb l | OPtr _ _ _ => true end.
Lemma initb_spec o : initb o = true <-> initialised o.
Proof.
  induction o as [s v|l IH|s b off] using obj_ind'.
  - destruct v; split; intros H; try discriminate H; try constructor; inversion H.
  - cbn [initb]. rewrite forallb_forall. split; intros H.
    + constructor. rewrite Forall_forall in *. intros x Hx. apply IH; auto.
    + inversion H as [|? F|]; subst. rewrite Forall_forall in *. intros x Hx. apply IH; auto.
  - split; constructor.
Qed.

Definition coversb (m : memory) (f : func) (o : obj) : bool :=
  match o with
  | OPtr s b off =>
      match nth_error m b with
      | Some (s', cells) =>
          sty_eqb s s' && (0 <=? off) && (off + extent f <=? Z.of_nat (List.length cells)) &&
          forallb (fun v => match v with Some _ => true | None => false end) cells
      | None => false
      end
  | _ => false
  end.
Lemma coversb_ok m f o : coversb m f o = true -> covers m f o.
Proof.
  destruct o as [|l|s b off]; try discriminate. cbn [coversb]. destruct (nth_error m b) as [[s' cells]|] eqn:E; [|discriminate].
  rewrite !andb_true_iff, !Z.leb_le, forallb_forall. intros (((E1 & H1) & H2) & H3). apply sty_eqb_spec in E1. subst s'.
  exists s, b, off, cells. repeat split; auto. intros _ i Hi.
  destruct (nth_error cells (Z.to_nat (off + i))) as [v|] eqn:N.
  - specialize (H3 v (nth_error_In _ _ N)). destruct v; [eauto|discriminate].
  - apply nth_error_None in N. lia.
Qed.

Definition valid_argb (m : memory) (f : func) (p : string * ty) (o : obj) : bool :=
  has_typeb m (snd p) o && initb o &&
  match snd p with
  | TPtr _ => coversb m f o
  | TScal I32 =>
      match immediate_of f with
      | Some (l, h) => match o with OScal I32 (Some n) => (l <=? n) && (n <=? h) | _ => false end
      | None => true
      end
  | _ => true
  end.
Lemma valid_argb_ok m f p o : valid_argb m f p o = true -> valid_arg m f p o.
Proof.
  unfold valid_argb, valid_arg. rewrite !andb_true_iff. intros [[H1 H2] H3]. split; [now apply has_typeb_ok|].
  split; [now apply initb_spec|]. destruct (snd p) as [|s|n t|ts|s]; auto; [|now apply coversb_ok].
  destruct s; auto. destruct (immediate_of f) as [[l h]|]; auto.
  destruct o as [[] [n|]| |]; try discriminate. apply andb_prop in H3. rewrite !Z.leb_le in H3. exists n. split; [reflexivity|lia].
Qed.

Definition valid_argsb (m : memory) (f : func) (args : list obj) : bool :=
  Nat.eqb (List.length (f_params f)) (List.length args) &&
  forallb (fun po => valid_argb m f (fst po) (snd po)) (combine (f_params f) args).
Lemma valid_argsb_ok m f args : valid_argsb m f args = true -> valid_args m f args.
Proof.
  unfold valid_argsb, valid_args. generalize (f_params f). intros ps. revert args.
  induction ps as [|p ps IH]; intros [|o args] H; cbn in H; try discriminate; [constructor|].
  apply andb_prop in H. destruct H as [L H]. apply andb_prop in H. destruct H as [H1 H2].
  constructor; [now apply valid_argb_ok|]. apply IH. now rewrite L, H2.
Qed.

(** ** The candidate witnesses: every argument filled with one value *)

Fixpoint fill (g : sty -> Z) (t : ty) : obj :=
  match t with
  | TScal s => rv s (g s)
  | TArr n t' => OArr (repeat (fill g t') n)
  | TStruct l => OArr (map (fill g) l)
  | TPtr s => OPtr s 0 0
  | TVoid => OArr []
  end.
Definition pointee (f : func) : sty :=
  match find (fun p => match snd p with TPtr _ => true | _ => false end) (f_params f) with Some (_, TPtr s) => s | _ => I8 end.
Definition candidates (f : func) : list (list obj) :=
  choices (map (fun p => match snd p, immediate_of f with
                         | TScal I32, Some (l, h) => map (rv I32) (zrange l h)
                         | t, _ => map (fun g => fill g t) [hi; lo; fun _ => 1; fun _ => 0]
                         end) (f_params f)).
Definition witness_memory (f : func) : memory := [(pointee f, repeat (Some 1) (Z.to_nat (extent f)))].

Definition find_call (bad : outcome -> bool) (c : cfg) (f : func) : bool :=
  well_typedb (witness_memory f) &&
  existsb (fun args => valid_argsb (witness_memory f) f args && bad (run c (witness_memory f) f args)) (candidates f).

Lemma find_call_ok bad c f : find_call bad c f = true ->
  exists m args, well_typed m /\ valid_args m f args /\ bad (run c m f args) = true.
Proof.
  unfold find_call. intros H. apply andb_prop in H. destruct H as [W H]. apply existsb_exists in H.
  destruct H as (args & _ & H). apply andb_prop in H. destruct H as [V B].
  exists (witness_memory f), args. split; [now apply well_typedb_ok|]. split; [now apply valid_argsb_ok|exact B].
Qed.

Definition is_ub (o : outcome) : bool := match o with Undefined _ => true | _ => false end.
Definition is_abort (o : outcome) : bool := match o with Aborts => true | _ => false end.
Definition is_uninit (o : outcome) : bool := match o with Returns _ (Some v) => negb (initb v) | _ => false end.

(** ** Checking the lists of MetaSpec *)

Definition special : list string := [ "RecipEstimate"; "vqdmull_s16"; "vtbl1_u8"; "vtbl2_u8"; "vtbl4_u8" ]%string.

Definition mem_name (l : list string) (f : func) : bool := existsb (String.eqb (f_name f)) l.
Lemma mem_name_in l f : mem_name l f = true <-> In (f_name f) l.
Proof.
  unfold mem_name. rewrite existsb_exists. split; [intros (x & H & E); apply String.eqb_eq in E; congruence|].
  intros H. exists (f_name f). split; [exact H|]. apply String.eqb_refl.
Qed.

Definition agree_ub (w : bool) (l : list string) (nan : cfg) (f : func) : bool :=
  if mem_name l f then find_call is_ub nan f else check no_ub w f || mem_name special f.

Lemma strict_library nan : forallb (agree_ub false ub_strict (mkcfg false nan)) library = true.
Proof. vm_compute. reflexivity. Qed.
Lemma wrapping_library nan : forallb (agree_ub true ub_wrapping (mkcfg true nan)) library = true.
Proof. vm_compute. reflexivity. Qed.

Lemma no_abort_library w : forallb (fun f => check no_abort w f || String.eqb (f_name f) "vshr_n_u16") library = true.
Proof. destruct w; vm_compute; reflexivity. Qed.
Lemma init_library c : forallb (fun f => if mem_name uninit_names f then find_call is_uninit c f else check init_results (wrapv c) f) library = true.
Proof. destruct c as [[] nan]; vm_compute; reflexivity. Qed.

Lemma unique nm f0 f : filter (fun f => String.eqb nm (f_name f)) library = [f0] -> In f library -> f_name f = nm -> f = f0.
Proof.
  intros E I N. assert (K : In f (filter (fun f => String.eqb nm (f_name f)) library)).
  { apply filter_In. split; [exact I|]. rewrite N. apply String.eqb_refl. }
  rewrite E in K. destruct K as [K|[]]. now symmetry.
Qed.

Lemma special_defined c m f args k : In f library -> In (f_name f) special -> valid_args m f args -> run c m f args <> Undefined k.
Proof.
  intros I N V.
  assert (K : f = RecipEstimate \/ f = vqdmull_s16 \/ f = vtbl1_u8 \/ f = vtbl2_u8 \/ f = vtbl4_u8).
  { unfold special in N. cbn [In] in N. destruct N as [N|[N|[N|[N|[N|[]]]]]]; symmetry in N.
    - left. refine (unique "RecipEstimate"%string RecipEstimate f _ I N); vm_compute; reflexivity.
    - right. left. refine (unique "vqdmull_s16"%string vqdmull_s16 f _ I N); vm_compute; reflexivity.
    - right. right. left. refine (unique "vtbl1_u8"%string vtbl1_u8 f _ I N); vm_compute; reflexivity.
    - right. right. right. left. refine (unique "vtbl2_u8"%string vtbl2_u8 f _ I N); vm_compute; reflexivity.
    - right. right. right. right. refine (unique "vtbl4_u8"%string vtbl4_u8 f _ I N); vm_compute; reflexivity. }
  clear I N. unfold valid_args in V. destruct K as [ ->|[ ->|[ ->|[ ->| ->]]]]; match type of V with Forall2 _ ?l _ => let l' := eval hnf in l in change l with l' in V end;
  repeat match goal with
  | H : Forall2 _ (_ :: _) _ |- _ => inversion H; clear H; subst
  | H : Forall2 _ [] _ |- _ => inversion H; clear H; subst
  | H : valid_arg _ _ _ _ |- _ => destruct H as (? & ? & _)
  end; cbn [snd] in *.
  - match goal with T : has_type _ _ ?y, J : initialised ?y |- _ => apply has_type_inv in T; destruct T as (v & -> & R); inversion J; subst end.
    change (OScal U32 (Some z)) with (rv U32 z). destruct (RecipEstimate_defined c m z (R z eq_refl)) as (r & ->). discriminate.
  - repeat match goal with T : has_type _ (tvec _ _) _, J : initialised _ |- _ => destruct (typed_vec _ _ _ _ T J) as (? & -> & ?); clear T end.
    rewrite vqdmull_exact by assumption. discriminate.
  - repeat match goal with T : has_type _ (tvec _ _) _, J : initialised _ |- _ => destruct (typed_vec _ _ _ _ T J) as (? & -> & ?); clear T end.
    rewrite vtbl1_u8_exact by assumption. discriminate.
  - match goal with T : has_type _ (tvecs _ _ _) ?y, J : initialised ?y |- _ => destruct (typed_vecs _ _ _ _ _ T J) as (vs & -> & Hv); clear T end.
    repeat match goal with T : has_type _ (tvec _ _) _, J : initialised _ |- _ => destruct (typed_vec _ _ _ _ T J) as (? & -> & ?); clear T end.
    destruct Hv as [L F]. destruct vs as [|v1 [|v2 [|? ?]]]; try discriminate L.
    inversion F as [|? ? F1 F']; subst. inversion F' as [|? ? F2 _]; subst.
    rewrite vtbl2_u8_exact by assumption. discriminate.
  - match goal with T : has_type _ (tvecs _ _ _) ?y, J : initialised ?y |- _ => destruct (typed_vecs _ _ _ _ _ T J) as (vs & -> & Hv); clear T end.
    repeat match goal with T : has_type _ (tvec _ _) _, J : initialised _ |- _ => destruct (typed_vec _ _ _ _ T J) as (? & -> & ?); clear T end.
    destruct Hv as [L F]. destruct vs as [|v1 [|v2 [|v3 [|v4 [|? ?]]]]]; try discriminate L.
    inversion F as [|? ? F1 F']; subst. inversion F' as [|? ? F2 F'']; subst. inversion F'' as [|? ? F3 F3']; subst. inversion F3' as [|? ? F4 _]; subst.
    rewrite vtbl4_u8_exact by assumption. discriminate.
Qed.

Lemma check_no_ub c m f args k : check no_ub (wrapv c) f = true -> well_typed m -> valid_args m f args -> run c m f args <> Undefined k.
Proof.
  intros C M V. destruct (check_sound no_ub c m f args C M V) as (vs & es & P & S). unfold run.
  destruct (run_body _ _ _ _ _ _) as [[v m']|e]; [discriminate|]. pose proof (proj1 (forallb_forall _ _) P e S) as Q. cbv beta in Q.
  destruct e; cbn; congruence.
Qed.

Lemma is_ub_ex o : is_ub o = true <-> exists k, o = Undefined k.
Proof. destruct o; cbn; split; try discriminate; try (intros [? ?]; discriminate); eauto. Qed.

Lemma agree_ub_exact c l f : agree_ub (wrapv c) l c f = true -> In f library ->
  (In (f_name f) l <-> exists m args k, well_typed m /\ valid_args m f args /\ run c m f args = Undefined k).
Proof.
  unfold agree_ub. intros A I. destruct (mem_name l f) eqn:E.
  - apply mem_name_in in E. split; [|auto]. intros _. apply find_call_ok in A. destruct A as (m & args & W & V & B).
    apply is_ub_ex in B. destruct B as [k B]. exists m, args, k. auto.
  - split; [intros N; apply mem_name_in in N; congruence|]. intros (m & args & k & W & V & R). exfalso. revert R.
    apply orb_prop in A. destruct A as [A|A]; [now apply check_no_ub|]. apply mem_name_in in A. now apply special_defined.
Qed.

Theorem ub_exact_strict c f : wrapv c = false -> In f library ->
  (In (f_name f) ub_strict <-> exists m args k, well_typed m /\ valid_args m f args /\ run c m f args = Undefined k).
Proof.
  intros W I. apply agree_ub_exact; [|exact I]. destruct c as [w nan]. cbn in W |- *. subst w.
  exact (proj1 (forallb_forall _ _) (strict_library nan) f I).
Qed.

Theorem ub_exact_wrapping c f : wrapv c = true -> In f library ->
  (In (f_name f) ub_wrapping <-> exists m args k, well_typed m /\ valid_args m f args /\ run c m f args = Undefined k).
Proof.
  intros W I. apply agree_ub_exact; [|exact I]. destruct c as [w nan]. cbn in W |- *. subst w.
  exact (proj1 (forallb_forall _ _) (wrapping_library nan) f I).
Qed.

Theorem no_abort_valid c m f args : In f library -> f_name f <> "vshr_n_u16"%string -> well_typed m -> valid_args m f args ->
  run c m f args <> Aborts.
Proof.
  intros I N M V. pose proof (proj1 (forallb_forall _ _) (no_abort_library (wrapv c)) f I) as A. cbv beta in A.
  apply orb_prop in A. destruct A as [A|A]; [|apply String.eqb_eq in A; contradiction].
  destruct (check_sound no_abort c m f args A M V) as (vs & es & P & S). unfold run.
  destruct (run_body _ _ _ _ _ _) as [[v m']|e]; [discriminate|].
  destruct e; try discriminate. unfold no_abort in P. apply negb_true_iff in P.
  assert (K : has_err EAbort es = true) by now apply has_err_in. congruence.
Qed.

Theorem uninit_exact c f : In f library ->
  (In (f_name f) uninit_names <->
   exists m args m' v, well_typed m /\ valid_args m f args /\ run c m f args = Returns m' (Some v) /\ ~ initialised v).
Proof.
  intros I. pose proof (proj1 (forallb_forall _ _) (init_library c) f I) as A. cbv beta in A.
  destruct (mem_name uninit_names f) eqn:E.
  - apply mem_name_in in E. split; [intros _|auto]. apply find_call_ok in A. destruct A as (m & args & W & V & B).
    destruct (run c m f args) as [m' [v|]| | | |] eqn:R; try discriminate B. exists m, args, m', v. repeat split; auto.
    cbn in B. apply negb_true_iff in B. intros K. apply initb_spec in K. congruence.
  - split; [intros N; apply mem_name_in in N; congruence|]. intros (m & args & m' & v & W & V & R & N). exfalso. apply N.
    destruct (check_sound init_results c m f args A W V) as (vs & es & P & S). unfold run in R.
    destruct (run_body _ _ _ _ _ _) as [[v0 m0]|e]; [|destruct e; discriminate]. cbn in R. inversion R; subst. clear R.
    destruct S as (a & Ia & C). pose proof (proj1 (forallb_forall _ _) P a Ia) as Q. cbv beta in Q.
    destruct a as [a|]; [|contradiction]. eapply all_init_sound; eauto.
Qed.
