(** Which calls abort, and what they print. *)
From Coq Require Import ZArith String Ascii List Bool Lia.
From Verif Require Import Types Syntax Interp ProgRecip ProgLoad ProgShift ProgPerm Library Spec MetaSpec.
From Verif Require Import Frontend SourceH SourceCpp Diag DiagSpec P_Order.
From Verif Require P_Valid2.
Import ListNotations.
Open Scope Z_scope.

(** ** Which calls abort *)

(** the functions that check a parameter: its position, and the range they accept *)
Definition checks : list (func * nat * Z * Z) :=
  [(vld2_lane_u8, 2%nat, 0, 7); (vld3_lane_u8, 2%nat, 0, 7); (vld4_lane_u8, 2%nat, 0, 7); (vgetq_lane_f32, 1%nat, 0, 3);
   (vshrn_n_s16, 1%nat, 1, 8); (vshr_n_u16, 1%nat, 1, 8); (vshrn_n_s32, 1%nat, 1, 16); (vshrn_n_s64, 1%nat, 1, 32);
   (vshrn_n_u16, 1%nat, 1, 8); (vshrn_n_u32, 1%nat, 1, 16); (vshrn_n_u64, 1%nat, 1, 32);
   (vqshrun_n_s16, 1%nat, 1, 8); (vqshrun_n_s32, 1%nat, 1, 16); (vqshrun_n_s64, 1%nat, 1, 32); (vqrshrun_n_s16, 1%nat, 1, 8);
   (vext_u8, 2%nat, 0, 8); (vext_u16, 2%nat, 0, 3); (vext_s16, 2%nat, 0, 3); (vextq_u16, 2%nat, 0, 8)].

Definition helper_calls c := call_helper c helpers loop_fuel call_depth.

Lemma aborts_err r : outcome_of r = Aborts <-> r = Err EAbort.
Proof. destruct r as [[v m]|[]]; cbn; split; intros H; try discriminate H; trivial. Qed.

Lemma no_abort_run c m f args : no_abort (f_body f) = true -> run c m f args <> Aborts.
Proof.
  intros H. unfold run. rewrite aborts_err. apply body_calm; [|exact H]. intros. apply helper_calm.
Qed.

(** past the declarations a body begins with *)
Fixpoint start (s : stmt) (en : env) : stmt * env :=
  match s with
  | SSeq (SDecl t x None) r => start r ((x, fresh t) :: en)
  | SSeq (SDecl (TScal t) x (Some (ELit t' z))) r => if sty_eqb t' t then start r ((x, rv t z) :: en) else (s, en)
  | _ => (s, en)
  end.
Lemma start_exec c callf m s : forall en, exec c callf loop_fuel s en m = exec c callf loop_fuel (fst (start s en)) (snd (start s en)) m.
Proof.
  induction s as [|s1 _ s2 IH| | | | | | |]; intros en; try reflexivity. destruct s1 as [| |t x [i|]| | | | | |]; try reflexivity.
  - destruct t as [|t| | |]; try reflexivity. destruct i as [t' z| | | | | | | | | | |]; try reflexivity. cbn [start].
    destruct (sty_eqb t' t) eqn:E; [|reflexivity]. rewrite <- IH. cbn [exec eval bind init_obj scalar rv fst snd]. unfold convert. rewrite E. reflexivity.
  - destruct t; cbn [start]; rewrite <- IH; reflexivity.
Qed.

Lemma run_guard c m f args en en' e r b :
  bind_params c (f_params f) args = Ok en -> start (f_body f) en = (SSeq (SIf e SAbort SSkip) r, en') ->
  eval c (helper_calls c) en' m e = Ok (of_bool b) -> no_abort r = true ->
  (run c m f args = Aborts <-> b = true).
Proof.
  intros B E G N. unfold run. rewrite aborts_err. unfold run_body. rewrite B. cbn [bind]. fold (helper_calls c). rewrite start_exec, E.
  cbn [exec fst snd]. rewrite G. cbn [bind]. replace (cond_value (of_bool b)) with (@Ok bool b) by (destruct b; reflexivity).
  cbn [bind]. destruct b; [split; reflexivity|]. split; [|discriminate]. cbn [bind pop_ctl]. intros K. exfalso. revert K.
  apply calm_bind.
  - apply exec_calm; [intros; apply helper_calm|exact N].
  - intros q. destruct q, (f_ret f); try discriminate; apply calm_bind; first [apply init_calm|discriminate].
Qed.

Definition out (lo hi k : Z) : bool := negb ((lo <=? k) && (k <=? hi)).
Lemma out_spec lo hi k : out lo hi k = true <-> ~ (lo <= k <= hi).
Proof. unfold out. destruct (Z.leb_spec lo k), (Z.leb_spec k hi); cbn; split; intros; try lia; try discriminate; trivial. Qed.

Ltac typed_inv H :=
  match type of H with
  | Forall2 _ (_ :: _) _ => let K := fresh "K" in let H' := fresh "T" in inversion H as [|? ? ? ? K H']; clear H; subst; typed_inv H'
  | Forall2 _ [] _ => inversion H; clear H; subst
  end.

Ltac vector :=
  match goal with
  | K : has_type _ (snd (_, TScal _)) _ |- _ => cbn [snd] in K; inversion K; clear K; subst
  end.

Lemma checked_aborts f p lo hi c m args : In (f, p, lo, hi) checks -> typed_args m f args ->
  (run c m f args = Aborts <-> exists k, nth_error args p = Some (rv I32 k) /\ ~ (lo <= k <= hi)).
Proof.
  intros H T. unfold typed_args in T. unfold checks in H. cbn [In] in H.
  decompose [or] H; clear H; try contradiction;
  match goal with H : _ = _ |- _ => injection H as <- <- <- <- end;
  cbn [f_params vld2_lane_u8 vld3_lane_u8 vld4_lane_u8 vgetq_lane_f32 vshrn_n_s16 vshr_n_u16 vshrn_n_s32 vshrn_n_s64 vshrn_n_u16 vshrn_n_u32 vshrn_n_u64
    vqshrun_n_s16 vqshrun_n_s32 vqshrun_n_s64 vqrshrun_n_s16 vext_u8 vext_u16 vext_s16 vextq_u16] in T;
  typed_inv T; vector;
  match goal with v : option Z |- _ => destruct v as [k|] end.
  all: try (split; [intros E; exfalso; revert E; unfold run; rewrite aborts_err; cbn [run_body bind_params f_params]; discriminate|intros (k & E & _); discriminate E]).
  all: (etransitivity;
    [match goal with |- run _ _ ?f _ = Aborts <-> _ => unfold f end; eapply run_guard with (b := out _ _ k); [reflexivity|reflexivity| |reflexivity]
    |rewrite out_spec; split; [intros N; exists k; split; [reflexivity|exact N]|intros (k' & E & N); injection E as <-; exact N]]).
  all: lazy -[Z.ltb Z.leb Z.gtb Z.geb helper_calls].
  all: rewrite ?Z.gtb_ltb, ?Z.geb_leb.
  all: repeat match goal with |- context [Z.leb ?a ?b] => destruct (Z.leb_spec a b) | |- context [Z.ltb ?a ?b] => destruct (Z.ltb_spec a b) end; first [reflexivity|exfalso; lia].
Qed.

Lemma others_no_abort : forallb (fun f => no_abort (f_body f) || existsb (fun h => String.eqb (f_name (fst (fst (fst h)))) (f_name f)) checks) library = true.
Proof. vm_compute. reflexivity. Qed.
Lemma checks_abort : forallb (fun h => negb (no_abort (f_body (fst (fst (fst h)))))) checks = true.
Proof. vm_compute. reflexivity. Qed.
Lemma checks_unique : forallb (fun h => match filter (fun f => String.eqb (f_name (fst (fst (fst h)))) (f_name f)) library with [_] => true | _ => false end) checks = true.
Proof. vm_compute. reflexivity. Qed.
Lemma checks_library h : In h checks -> In (fst (fst (fst h))) library.
Proof.
  unfold checks. intros H. cbn [In] in H. decompose [or] H; clear H; try contradiction; subst h; cbn [fst];
  repeat (first [left; reflexivity|right]).
Qed.

Lemma same_function f h : In f library -> In h checks -> f_name (fst (fst (fst h))) = f_name f -> f = fst (fst (fst h)).
Proof.
  intros I H E. pose proof (proj1 (forallb_forall _ _) checks_unique h H) as U. cbv beta in U.
  destruct (filter _ library) as [|g [|]] eqn:F; try discriminate U.
  rewrite (P_Valid2.unique _ g f F I (eq_sym E)). symmetry. exact (P_Valid2.unique _ g _ F (checks_library h H) eq_refl).
Qed.

Theorem aborts_exactly f c m args : In f library -> typed_args m f args ->
  (run c m f args = Aborts <->
   exists p lo hi k, In (f, p, lo, hi) checks /\ nth_error args p = Some (rv I32 k) /\ ~ (lo <= k <= hi)).
Proof.
  intros I T. split.
  - intros A. pose proof (proj1 (forallb_forall _ _) others_no_abort f I) as O. apply orb_prop in O. destruct O as [O|O].
    + exfalso. exact (no_abort_run c m f args O A).
    + apply existsb_exists in O. destruct O as ([[[g p] lo] hi] & Ig & E). cbn [fst] in E. apply String.eqb_eq in E.
      pose proof (same_function f _ I Ig E) as ->. cbn [fst] in *.
      apply (checked_aborts g p lo hi c m args Ig T) in A. destruct A as (k & K). exists p, lo, hi, k. tauto.
  - intros (p & lo & hi & k & Ic & K & N). apply (checked_aborts f p lo hi c m args Ic T). eauto.
Qed.

(** ** What they print *)

Definition newline : string := String (ascii_of_nat 10) "".
Definition texts : list (string * string) :=
  concat [map (fun x => (x, "only support [0, 7] for param lane" ++ newline)) ["vld2_lane_u8"; "vld3_lane_u8"; "vld4_lane_u8"];
   [("vgetq_lane_f32", "vgetq_lane_f32: lane should is out of range [0, 3]")];
   map (fun x => (x, x ++ ": param n not in range [1, 8]" ++ newline))
     ["vshrn_n_s16"; "vshr_n_u16"; "vshrn_n_s32"; "vshrn_n_s64"; "vshrn_n_u16"; "vshrn_n_u32"; "vshrn_n_u64"; "vqshrun_n_s16"];
   map (fun x => (x, x ++ ": param n out of range" ++ newline)) ["vqshrun_n_s32"; "vqshrun_n_s64"];
   [("vqrshrun_n_s16", "vqrshrun_n_s16: param n not in range [1, 8]" ++ newline);
    ("vext_u8", "vext_u8: param n is not in range [0, 8]" ++ newline);
    ("vext_u16", "vext_u16: param n is not in range [0, 4]" ++ newline);
    ("vext_s16", "vext_s16: param n is not in range [0, 4]" ++ newline);
    ("vextq_u16", "vextq_u16: param n is not in range [0, 8]" ++ newline)]]%string.

Lemma diagnostics_texts : diagnostics neon_sim_h neon_sim_cpp = Some texts.
Proof. vm_compute. reflexivity. Qed.

(** the part of a text that a pair of brackets encloses *)
Fixpoint find_part (part text : string) : option (string * string) :=
  if String.prefix part text then Some (""%string, substring (String.length part) (String.length text - String.length part) text)
  else match text with
       | EmptyString => None
       | String a r => match find_part part r with Some (b, e) => Some (String a b, e) | None => None end
       end.
Definition mentionsb (text part : string) : bool :=
  match find_part part text with Some (b, e) => String.eqb text (b ++ part ++ e) | None => false end.
Lemma mentionsb_ok text part : mentionsb text part = true -> mentions text part.
Proof. unfold mentionsb. destruct (find_part part text) as [[b e]|]; [|discriminate]. intros H. apply String.eqb_eq in H. now exists b, e. Qed.

Lemma has_char_app a s s' : has_char a (s ++ s') = has_char a s || has_char a s'.
Proof. induction s as [|b s IH]; [reflexivity|]. cbn. now rewrite IH, orb_assoc. Qed.
Lemma mentions_char text part a : mentions text part -> has_char a part = true -> has_char a text = true.
Proof. intros (b & e & ->) H. rewrite !has_char_app, H. now rewrite orb_true_l, orb_true_r. Qed.

Definition out_of_step : list string :=
  ["vshrn_n_s32"; "vshrn_n_s64"; "vshrn_n_u32"; "vshrn_n_u64"; "vqshrun_n_s32"; "vqshrun_n_s64"; "vext_u16"; "vext_s16"]%string.
Definition anonymous : list string := ["vld2_lane_u8"; "vld3_lane_u8"; "vld4_lane_u8"]%string.

Lemma checks_texts : forallb (fun h => existsb (fun d => String.eqb (fst d) (f_name (fst (fst (fst h))))) texts) checks = true.
Proof. vm_compute. reflexivity. Qed.

Theorem explained f c m args l : diagnostics neon_sim_h neon_sim_cpp = Some l -> In f library -> typed_args m f args ->
  run c m f args = Aborts -> exists text, In (f_name f, text) l.
Proof.
  intros D I T A. rewrite diagnostics_texts in D. injection D as <-. apply (aborts_exactly f c m args I T) in A.
  destruct A as (p & lo & hi & k & Ic & _). pose proof (proj1 (forallb_forall _ _) checks_texts _ Ic) as C. cbn [fst] in C.
  apply existsb_exists in C. destruct C as ([x t] & It & E). apply String.eqb_eq in E. cbn [fst] in E. subst x. eauto.
Qed.

Definition lookups (h : func * nat * Z * Z) (d : string * string) : bool :=
  negb (String.eqb (fst d) (f_name (fst (fst (fst h))))) || existsb (String.eqb (fst d)) out_of_step ||
  mentionsb (snd d) ("[" ++ decimal (snd (fst h)) ++ ", " ++ decimal (snd h) ++ "]").
Lemma ranges_checked : forallb (fun h => forallb (lookups h) texts) checks = true.
Proof. vm_compute. reflexivity. Qed.
Lemma texts_checked : forallb (fun d => existsb (fun h => String.eqb (fst d) (f_name (fst (fst (fst h))))) checks) texts = true.
Proof. vm_compute. reflexivity. Qed.
Lemma checks_once : forallb (fun h => match filter (fun g => String.eqb (f_name (fst (fst (fst h)))) (f_name (fst (fst (fst g))))) checks with [_] => true | _ => false end) checks = true.
Proof. vm_compute. reflexivity. Qed.

Lemma existsb_member x l : existsb (String.eqb x) l = true -> In x l.
Proof. intros H. apply existsb_exists in H. destruct H as (y & I & E). apply String.eqb_eq in E. now subst. Qed.

Theorem ranges f text l : diagnostics neon_sim_h neon_sim_cpp = Some l -> In f library -> In (f_name f, text) l ->
  ~ In (f_name f) out_of_step ->
  exists p lo hi, states_range text lo hi /\
    forall c m args k, typed_args m f args -> nth_error args p = Some (rv I32 k) ->
      (run c m f args = Aborts <-> ~ (lo <= k <= hi)).
Proof.
  intros D I It N. rewrite diagnostics_texts in D. injection D as <-.
  pose proof (proj1 (forallb_forall _ _) texts_checked _ It) as C. apply existsb_exists in C. destruct C as ([[[g p] lo] hi] & Ig & E).
  cbn [fst] in E. apply String.eqb_eq in E. pose proof (same_function f _ I Ig (eq_sym E)) as ->. cbn [fst] in *.
  exists p, lo, hi. split.
  - pose proof (proj1 (forallb_forall _ _) (proj1 (forallb_forall _ _) ranges_checked _ Ig) _ It) as R. unfold lookups in R. cbn [fst snd] in R.
    rewrite String.eqb_refl in R. cbn [negb orb] in R. apply orb_prop in R. destruct R as [R|R]; [exfalso; apply N; now apply existsb_member|].
    now apply mentionsb_ok.
  - intros c m args k T K. rewrite (checked_aborts g p lo hi c m args Ig T). rewrite K. split; [intros (k' & E' & O); injection E' as <-; exact O|eauto].
Qed.

Lemma names_checked : forallb (fun d => existsb (String.eqb (fst d)) anonymous || mentionsb (snd d) (fst d)) texts = true.
Proof. vm_compute. reflexivity. Qed.
Theorem names f text l : diagnostics neon_sim_h neon_sim_cpp = Some l -> In (f, text) l -> ~ In f anonymous -> mentions text f.
Proof.
  intros D It N. rewrite diagnostics_texts in D. injection D as <-.
  pose proof (proj1 (forallb_forall _ _) names_checked _ It) as C. cbn [fst snd] in C. apply orb_prop in C.
  destruct C as [C|C]; [exfalso; apply N; now apply existsb_member|now apply mentionsb_ok].
Qed.

Lemma anonymous_checked : forallb (fun d => negb (existsb (String.eqb (fst d)) anonymous) || negb (has_char "v"%char (snd d)) && has_char "v"%char (fst d)) texts = true.
Proof. vm_compute. reflexivity. Qed.
Theorem anonymous_refuted f text l : diagnostics neon_sim_h neon_sim_cpp = Some l -> In (f, text) l -> In f anonymous -> ~ mentions text f.
Proof.
  intros D It A M. rewrite diagnostics_texts in D. injection D as <-.
  pose proof (proj1 (forallb_forall _ _) anonymous_checked _ It) as C. cbn [fst snd] in C. apply orb_prop in C. destruct C as [C|C].
  - rewrite (proj2 (existsb_exists (String.eqb f) anonymous)) in C; [discriminate C|]. exists f. split; [exact A|apply String.eqb_refl].
  - apply andb_prop in C. destruct C as [C1 C2]. rewrite (mentions_char _ _ _ M C2) in C1. discriminate C1.
Qed.

(** ** The ranges that are out of step *)

Theorem too_narrow f hi : In (f, hi) [(vshrn_n_s32, 16); (vshrn_n_u32, 16); (vshrn_n_s64, 32); (vshrn_n_u64, 32)] ->
  forall l, diagnostics neon_sim_h neon_sim_cpp = Some l ->
  exists text, In (f_name f, text) l /\ states_range text 1 8 /\
    forall c m a k, typed_args m f [a; rv I32 k] -> 8 < k <= hi -> run c m f [a; rv I32 k] <> Aborts.
Proof.
  intros H l D. rewrite diagnostics_texts in D. injection D as <-.
  assert (C : In (f, 1%nat, 1, hi) checks).
  { cbn [In] in H. decompose [or] H; clear H; try contradiction; match goal with H : _ = _ |- _ => injection H as <- <- end;
    unfold checks; repeat (first [left; reflexivity|right]). }
  exists (f_name f ++ ": param n not in range [1, 8]" ++ newline)%string. split; [|split].
  - cbn [In] in H. decompose [or] H; clear H; try contradiction; match goal with H : _ = _ |- _ => injection H as <- <- end;
    unfold texts; cbn [map concat List.app]; repeat (first [left; reflexivity|right]).
  - exists (f_name f ++ ": param n not in range ")%string, newline. generalize (f_name f). intros x. induction x as [|a x IH]; [reflexivity|]. cbn. f_equal. exact IH.
  - intros c m a k T K A. apply (checked_aborts f 1 1 hi c m _ C T) in A. destruct A as (k' & E & N). injection E as <-. lia.
Qed.

Theorem too_wide f : In f [vext_u16; vext_s16] -> forall l, diagnostics neon_sim_h neon_sim_cpp = Some l ->
  exists text, In (f_name f, text) l /\ states_range text 0 4 /\
    forall c m a b, typed_args m f [a; b; rv I32 4] -> run c m f [a; b; rv I32 4] = Aborts.
Proof.
  intros H l D. rewrite diagnostics_texts in D. injection D as <-.
  assert (C : In (f, 2%nat, 0, 3) checks).
  { cbn [In] in H. decompose [or] H; clear H; try contradiction; subst f; unfold checks; repeat (first [left; reflexivity|right]). }
  exists (f_name f ++ ": param n is not in range [0, 4]" ++ newline)%string. split; [|split].
  - cbn [In] in H. decompose [or] H; clear H; try contradiction; subst f;
    unfold texts; cbn [map concat List.app]; repeat (first [left; reflexivity|right]).
  - exists (f_name f ++ ": param n is not in range ")%string, newline. generalize (f_name f). intros x. induction x as [|a x IH]; [reflexivity|]. cbn. f_equal. exact IH.
  - intros c m a b T. apply (checked_aborts f 2 0 3 c m _ C T). exists 4. split; [reflexivity|lia].
Qed.

Theorem no_range f : In f [vqshrun_n_s32; vqshrun_n_s64] -> forall l text, diagnostics neon_sim_h neon_sim_cpp = Some l ->
  In (f_name f, text) l -> forall lo hi, ~ states_range text lo hi.
Proof.
  intros H l text D It lo hi M. rewrite diagnostics_texts in D. injection D as <-.
  assert (C : forallb (fun d => negb (existsb (String.eqb (fst d)) ["vqshrun_n_s32"; "vqshrun_n_s64"]%string) || negb (has_char "["%char (snd d))) texts = true) by (vm_compute; reflexivity).
  pose proof (proj1 (forallb_forall _ _) C _ It) as K. cbn [fst snd] in K.
  assert (E : existsb (String.eqb (f_name f)) ["vqshrun_n_s32"; "vqshrun_n_s64"]%string = true).
  { destruct H as [<-|[<-|[]]]; reflexivity. }
  rewrite E in K. cbn [negb orb] in K. rewrite (mentions_char text _ "["%char M) in K; [discriminate K|]. reflexivity.
Qed.

Theorem lines f text l : diagnostics neon_sim_h neon_sim_cpp = Some l -> In (f, text) l -> f <> "vgetq_lane_f32"%string -> ends_line text.
Proof.
  intros D It N. rewrite diagnostics_texts in D. injection D as <-.
  assert (C : forallb (fun d => String.eqb (fst d) "vgetq_lane_f32" || String.eqb (snd d) (substring 0 (String.length (snd d) - 1) (snd d) ++ newline)) texts = true) by (vm_compute; reflexivity).
  pose proof (proj1 (forallb_forall _ _) C _ It) as K. cbn [fst snd] in K. apply orb_prop in K. destruct K as [K|K]; apply String.eqb_eq in K; [contradiction|].
  exists (substring 0 (String.length text - 1) text). exact K.
Qed.

Theorem unfinished_line l : diagnostics neon_sim_h neon_sim_cpp = Some l -> exists text, In ("vgetq_lane_f32"%string, text) l /\ ~ ends_line text.
Proof.
  intros D. rewrite diagnostics_texts in D. injection D as <-. eexists. split.
  - unfold texts. cbn [map concat List.app]. do 3 right. left. reflexivity.
  - intros (b & E). assert (H : has_char (ascii_of_nat 10) (b ++ String (ascii_of_nat 10) "") = true).
    { rewrite has_char_app. cbn. now rewrite orb_true_r. }
    rewrite <- E in H. vm_compute in H. discriminate H.
Qed.
