(** The abstract interpreter applied to every documented call. *)
From Coq Require Import ZArith String List Bool Lia.
From Verif Require Import Types FloatBits Syntax Interp ProgRecip Library Spec ExecLemmas.
From Verif Require Import Sym P_Mul P_Tbl Abs AbsSound MetaSpec P_Meta.
Import ListNotations.
Open Scope Z_scope.

(** ** Abstract arguments of documented calls: one alternative per immediate *)

Definition zrange (l h : Z) : list Z := map (fun i => l + Z.of_nat i) (seq 0 (Z.to_nat (h - l + 1))).
Lemma zrange_in l h z : l <= z <= h -> In z (zrange l h).
Proof. intros H. apply in_map_iff. exists (Z.to_nat (z - l)). split; [lia|]. apply in_seq. lia. Qed.

Definition avalid (f : func) (p : string * ty) : list aobj :=
  match snd p with
  | TPtr s => [APtr s (extent f) (negb (is_store f))]
  | TScal I32 =>
      match immediate_of f with
      | Some (l, h) => map (fun n => AScal I32 true n n) (zrange l h)
      | None => [aty true (TScal I32)]
      end
  | t => [aty true t]
  end.

Fixpoint choices {A} (l : list (list A)) : list (list A) :=
  match l with
  | [] => [[]]
  | x :: l' => flat_map (fun a => map (cons a) (choices l')) x
  end.

Lemma valid_arg_cov m f p o : valid_arg m f p o -> exists a, In a (avalid f p) /\ cov m a o.
Proof.
  intros (T & I & V). unfold avalid. pose proof (has_type_cov_init m _ o T I) as C.
  destruct (snd p) as [|s|n t|ts|s].
  - eexists. split; [now left|exact C].
  - assert (D : forall s, s <> I32 -> exists a, In a [aty true (TScal s)] /\ cov m (aty true (TScal s)) o -> True) by (intros; exists (AArr []); auto).
    clear D. destruct s; try (eexists; split; [now left|exact C]).
    destruct (immediate_of f) as [[l h]|]; [|eexists; split; [now left|exact C]].
    destruct V as (n & -> & Hn). exists (AScal I32 true n n). split; [apply (in_map (fun n => AScal I32 true n n)), zrange_in, Hn|].
    exists (Some n). split; [reflexivity|lia].
  - eexists. split; [now left|exact C].
  - eexists. split; [now left|exact C].
  - eexists. split; [now left|]. destruct V as (s' & b & off & cells & -> & E & H1 & H2 & H3). inversion T; subst.
    exists b, off. split; [reflexivity|]. split; [auto|]. intros K. exists cells. split; [exact E|]. split; [exact H1|]. split; [exact H2|].
    intros S i Hi. apply H3; [|exact Hi]. now apply negb_true_iff in S.
Qed.

Lemma valid_args_cov m f ps args : Forall2 (valid_arg m f) ps args ->
  exists aa, In aa (choices (map (avalid f) ps)) /\ Forall2 (cov m) aa args.
Proof.
  induction 1 as [|p o ps args H F (aa & I & C)]; cbn; [exists []; split; [now left|constructor]|].
  destruct (valid_arg_cov m f p o H) as (a & Ia & Ca). exists (a :: aa). split; [|now constructor].
  apply in_flat_map. exists a. split; [exact Ia|]. now apply in_map.
Qed.

Definition check (P : list (option aobj) -> list err -> bool) (wv : bool) (f : func) : bool :=
  forallb (fun aa => let '(vs, es, _) := arun wv f aa in negb (has_err EStuck es) && P vs es) (choices (map (avalid f) (f_params f))).

Lemma check_sound P c m f args : check P (wrapv c) f = true -> well_typed m -> valid_args m f args ->
  exists vs es, P vs es = true /\
    match run_body c (call_helper c helpers loop_fuel call_depth) loop_fuel f args m with
    | Ok (v, m') => exists a, In a vs /\ covo m' a v
    | Err e => In e es
    end.
Proof.
  intros C M V. destruct (valid_args_cov m f _ _ V) as (aa & I & F).
  pose proof (proj1 (forallb_forall _ _) C aa I) as K. cbv beta in K.
  pose proof (arun_sound c m f aa args (proj1 (well_typed_ok m) M) F) as S.
  destruct (arun (wrapv c) f aa) as [[vs es] w]. apply andb_prop in K. destruct K as [K1 K2].
  exists vs, es. split; [exact K2|]. unfold bsound in S. cbn [fst snd] in S.
  apply negb_true_iff in K1. specialize (S ltac:(rewrite <- has_err_in; congruence)).
  destruct (run_body _ _ _ _ _ _) as [[v m']|e]; [exact (proj1 S)|exact S].
Qed.

Definition no_ub (vs : list (option aobj)) (es : list err) : bool := forallb (fun e => match e with EUB _ => false | _ => true end) es.
Definition no_abort (vs : list (option aobj)) (es : list err) : bool := negb (has_err EAbort es).
Definition init_results (vs : list (option aobj)) (es : list err) : bool := forallb (fun v => match v with Some a => all_init a | None => true end) vs.

(** ** The functions the intervals are too coarse for *)

Lemma typed_vec m t n o : has_type m (tvec t n) o -> initialised o -> exists l, o = vec t l /\ lanes t n l.
Proof.
  intros T I. apply has_type_inv in T. destruct T as (os & -> & <- & F). apply initialised_arr in I.
  assert (K : exists l, os = map (rv t) l /\ Forall (in_range t) l).
  { induction F as [|o os Ho F IH]; [exists []; split; [reflexivity|constructor]|]. inversion I as [|? ? I1 I2]; subst.
    destruct (IH I2) as (l & -> & R). apply has_type_inv in Ho. destruct Ho as (v & -> & Hv). inversion I1; subst.
    exists (z :: l). split; [reflexivity|]. constructor; [now apply Hv|exact R]. }
  destruct K as (l & -> & R). exists l. split; [reflexivity|]. split; [now rewrite map_length|exact R].
Qed.

Lemma typed_vecs m t k n o : has_type m (tvecs k t n) o -> initialised o -> exists vs, o = vecs t vs /\ tuple t k n vs.
Proof.
  intros T I. apply has_type_inv in T. destruct T as (os & -> & <- & F). apply initialised_arr in I.
  assert (K : exists vs, os = map (vec t) vs /\ Forall (lanes t n) vs).
  { induction F as [|o os Ho F IH]; [exists []; split; [reflexivity|constructor]|]. inversion I as [|? ? I1 I2]; subst.
    destruct (IH I2) as (vs & -> & R). destruct (typed_vec m t n o Ho I1) as (l & -> & L).
    exists (l :: vs). split; [reflexivity|]. now constructor. }
  destruct K as (vs & -> & R). exists vs. split; [reflexivity|]. split; [now rewrite map_length|exact R].
Qed.

Lemma RecipEstimate_defined c m a : in_range U32 a -> exists r, run c m RecipEstimate [rv U32 a] = Returns m (Some (rv U32 r)).
Proof.
  intros R. unfold run, run_body.
  assert (N : wrap U32 (wrap U32 (a * 2) + 1) <> 0).
  { unfold wrap. cbn [lo modulus]. Z.to_euclidean_division_equations. lia. }
  Local Ltac ua c := match goal with |- context [arith c U32 ?z] => change (arith c U32 z) with (Ok (wrap U32 z)) end.
  sx0. change (wrap U32 2) with 2. change (wrap U32 1) with 1. ua c. sx0. ua c. sx0.
  change (wrap U32 2) with 2. change (wrap U32 1) with 1.
  remember (wrap U32 (wrap U32 (a * 2) + 1)) as y eqn:Ey. pose proof (wrap_range U32 (wrap U32 (a * 2) + 1)) as Ry.
  rewrite <- Ey in Ry. clear Ey. unfold in_range in Ry. cbn in Ry. destruct y as [|q|q]; [lia| |lia].
  replace (shift_left c I32 1 19) with (Ok 524288 : res Z) by (destruct c as [[] ?]; reflexivity). sx0.
  change (wrap U32 524288) with 524288. eexists. repeat (try ua c; sx0). reflexivity.
Qed.
