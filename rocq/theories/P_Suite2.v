(** The project's tests: what a check says, and what a passing test program says about the library. *)
From Coq Require Import ZArith String Ascii List Bool Lia Permutation Reals Lra.
From Flocq Require Import Core BinarySingleNaN.
From Verif Require Import Types FloatBits FloatSpec FloatR Syntax Interp ProgRecip ExecLemmas TestUtil TestSpec Library Spec Suite Runner RunnerSpec SuiteSpec P_Suite.
From Verif Require P_Runner2 Frontend P_TestUtil.
Import ListNotations.
Open Scope Z_scope.

(** ** Checks *)

Definition int_vectors : list (sty * nat) := [(U8, 8%nat); (I8, 8%nat); (U16, 8%nat); (I16, 8%nat); (I8, 16%nat); (I16, 4%nat)].

Lemma almost_ints c t n m en x y a b : In (t, n) int_vectors -> lanes t n a -> lanes t n b ->
  Frontend.assoc x en = Some (VObj (tvec t n) (vec t a)) -> Frontend.assoc y en = Some (VObj (tvec t n) (vec t b)) ->
  almost c en m (XVar x) (XVar y) = Done (if list_eq_dec Z.eq_dec a b then true else false).
Proof.
  intros I La Lb Ex Ey. unfold almost. rewrite Ex, Ey. cbn [some next].
  assert (S : forall f, In (f, t, n) P_TestUtil.int_comparisons ->
    match compare_run c m f [vec t a; vec t b; rv F64 0] with
    | Returns _ (Some (OScal I32 (Some z))) => Done (negb (z =? 0)%Z) | _ => Wrong end = Done (if list_eq_dec Z.eq_dec a b then true else false)).
  { intros f Hf. rewrite (P_TestUtil.int_compare_exact f t n Hf c m a b La Lb). cbn. now destruct (list_eq_dec Z.eq_dec a b). }
  cbn in I. repeat (destruct I as [I|I]; [injection I as <- <-; cbn -[compare_run vec]; apply S; cbn; tauto|]). destruct I.
Qed.

Lemma almost_pairs c m en x y vs ws : tuple U8 2 8 vs -> tuple U8 2 8 ws ->
  Frontend.assoc x en = Some (VObj (tvecs 2 U8 8) (vecs U8 vs)) -> Frontend.assoc y en = Some (VObj (tvecs 2 U8 8) (vecs U8 ws)) ->
  almost c en m (XVar x) (XVar y) = Done (if list_eq_dec (list_eq_dec Z.eq_dec) vs ws then true else false).
Proof.
  intros Hv Hw Ex Ey. unfold almost. rewrite Ex, Ey. cbn -[compare_run vecs].
  rewrite (P_TestUtil.int_compare_pair c m vs ws Hv Hw). cbn. now destruct (list_eq_dec (list_eq_dec Z.eq_dec) vs ws).
Qed.

Lemma ffin_zero : in_range F64 0 /\ ffin F64 0.
Proof. split; [vm_compute; split; congruence|vm_compute; congruence]. Qed.

Lemma almost_floats c m en x y a b r : lanes F32 4 a -> lanes F32 4 b ->
  Frontend.assoc x en = Some (VObj (tvec F32 4) (vec F32 a)) -> Frontend.assoc y en = Some (VObj (tvec F32 4) (vec F32 b)) ->
  compare_run c m almostEqual_float32x4 [vec F32 a; vec F32 b; rv F64 0] = Returns m (Some (rv I32 r)) ->
  almost c en m (XVar x) (XVar y) = Done (negb (r =? 0)).
Proof. intros La Lb Ex Ey E. unfold almost. rewrite Ex, Ey. cbn -[compare_run vec]. rewrite E. reflexivity. Qed.

Lemma usual_range t z : is_float t = false -> in_range t z -> in_range (usual t t) z.
Proof. intros Ft H. destruct t; try discriminate; unfold in_range in *; cbn in *; lia. Qed.

Lemma convert_usual c t z : is_float t = false -> in_range t z -> convert c t (usual t t) z = Ok z.
Proof.
  intros Ft H. pose proof (usual_range t z Ft H) as G. destruct t; try discriminate; unfold convert; cbn in *;
    first [reflexivity | rewrite wrap_id by exact G; reflexivity | idtac].
Qed.

Lemma equal_ints c m en x y t z z' : is_float t = false -> in_range t z -> in_range t z' ->
  Frontend.assoc x en = Some (VObj (TScal t) (rv t z)) -> Frontend.assoc y en = Some (VObj (TScal t) (rv t z')) ->
  equal c en m (XVar x) (XVar y) = Done (z =? z').
Proof.
  intros Ft Hz Hz' Ex Ey. unfold equal. rewrite Ex, Ey. cbn [some next rv].
  assert (E : binary c BEq t z t z' = Ok (of_bool (z =? z'))).
  { unfold binary. rewrite !convert_usual by assumption. destruct t; try discriminate; reflexivity. }
  rewrite E. cbn. now destruct (z =? z').
Qed.

Lemma equal_floats c m en x y z z' : in_range F32 z -> in_range F32 z' -> ffin F32 z -> ffin F32 z' ->
  Frontend.assoc x en = Some (VObj (TScal F32) (rv F32 z)) -> Frontend.assoc y en = Some (VObj (TScal F32) (rv F32 z')) ->
  exists b, equal c en m (XVar x) (XVar y) = Done b /\ (b = true <-> fval F32 z = fval F32 z').
Proof.
  intros Hz Hz' Fz Fz' Ex Ey. unfold equal. rewrite Ex, Ey. cbn [some next rv].
  destruct (decode_denotes F32 z (or_introl eq_refl) Hz) as (u & Eu & Du). destruct (decode_denotes F32 z' (or_introl eq_refl) Hz') as (v & Ev & Dv).
  pose proof (denotes_fin _ _ _ Du Fz) as (Fu & Vu & _). pose proof (denotes_fin _ _ _ Dv Fz') as (Fv & Vv & _).
  change (binary c BEq F32 z F32 z') with (Ok (of_bool (SpecFloat.SFeqb (decode F32 z) (decode F32 z')))). rewrite Eu, Ev.
  change (SpecFloat.SFeqb (B2SF u) (B2SF v)) with (Beqb u v). rewrite Beqb_correct by assumption.
  exists (Req_bool (B2R u) (B2R v)). split; [now destruct (Req_bool (B2R u) (B2R v))|]. rewrite <- Vu, <- Vv.
  destruct (Req_bool_spec (B2R u) (B2R v)); split; congruence.
Qed.

Lemma exec_ints c lib st x y t n a b : In (t, n) int_vectors -> lanes t n a -> lanes t n b ->
  Frontend.assoc x (known st) = Some (VObj (tvec t n) (vec t a)) -> Frontend.assoc y (known st) = Some (VObj (tvec t n) (vec t b)) ->
  exec c lib (TAlmost (XVar x) (XVar y)) st = Done (mkstate (known st) (memo st) (Expect (if list_eq_dec Z.eq_dec a b then true else false) :: told st)).
Proof. intros I La Lb Ex Ey. cbn [exec]. rewrite (almost_ints c t n _ _ x y a b I La Lb Ex Ey). reflexivity. Qed.

Lemma exec_pairs c lib st x y vs ws : tuple U8 2 8 vs -> tuple U8 2 8 ws ->
  Frontend.assoc x (known st) = Some (VObj (tvecs 2 U8 8) (vecs U8 vs)) -> Frontend.assoc y (known st) = Some (VObj (tvecs 2 U8 8) (vecs U8 ws)) ->
  exec c lib (TAlmost (XVar x) (XVar y)) st =
    Done (mkstate (known st) (memo st) (Expect (if list_eq_dec (list_eq_dec Z.eq_dec) vs ws then true else false) :: told st)).
Proof. intros Hv Hw Ex Ey. cbn [exec]. rewrite (almost_pairs c _ _ x y vs ws Hv Hw Ex Ey). reflexivity. Qed.

Lemma exec_floats c lib st x y a b : lanes F32 4 a -> lanes F32 4 b ->
  Frontend.assoc x (known st) = Some (VObj (tvec F32 4) (vec F32 a)) -> Frontend.assoc y (known st) = Some (VObj (tvec F32 4) (vec F32 b)) ->
  Forall int_castable a -> Forall int_castable b ->
  exists r, exec c lib (TAlmost (XVar x) (XVar y)) st = Done (mkstate (known st) (memo st) (Expect r :: told st)) /\
    (r = true <-> Forall2 (fun u v => fval F32 u = fval F32 v) a b).
Proof.
  intros La Lb Ex Ey Ca Cb.
  assert (W : forall u v, int_castable u -> int_castable v -> float_within 0 u v <-> fval F32 u = fval F32 v).
  { intros u v [Fu _] [Fv _]. unfold float_within. split.
    - intros [[X _]|(_ & _ & H)]; [destruct (fin_not_inf _ _ Fu X)|]. pose proof (Rabs_pos (fval F32 u - fval F32 v)). assert (A : Rabs (fval F32 u - fval F32 v) = 0%R) by lra.
      destruct (Req_dec (fval F32 u - fval F32 v) 0) as [Z0|N0]; [lra|]. now apply Rabs_no_R0 in N0.
    - intros E. right. split; [exact Fu|]. split; [exact Fv|]. rewrite E. unfold Rminus. rewrite Rplus_opp_r, Rabs_R0. lra. }
  assert (Dc : Forall2 (fun u v => fval F32 u = fval F32 v) a b \/ ~ Forall2 (fun u v => fval F32 u = fval F32 v) a b /\ some_lane (fun u v => ~ float_within 0 u v) a b).
  { assert (L : List.length a = List.length b) by (rewrite (proj1 La), (proj1 Lb); reflexivity). clear - W Ca Cb L. revert b Cb L.
    induction Ca as [|u a Hu Ca IH]; intros [|v b] Cb L; try discriminate; [left; constructor|]. apply Forall_cons_iff in Cb as [Hv Cb]. injection L as L.
    destruct (Req_dec (fval F32 u) (fval F32 v)) as [E|N].
    - destruct (IH b Cb L) as [F|[NF F]]; [left; constructor; assumption|right]. split; [intros X; apply NF; now inversion X|].
      destruct F as (i & x & y & H1 & H2 & H3). exists (S i), x, y. cbn [nth_error]. auto.
    - right. split; [intros X; apply N; now inversion X|]. exists 0%nat, u, v. split; [reflexivity|]. split; [reflexivity|]. intros X. apply N. now apply W. }
  destruct Dc as [E|[NE E]].
  - exists true. split; [|tauto]. cbn [exec].
    rewrite (almost_floats c (memo st) (known st) x y a b 1 La Lb Ex Ey); [reflexivity|]. apply P_TestUtil.float_accepts; [exact La|exact Lb|apply ffin_zero|apply ffin_zero|].
    rewrite P_TestUtil.fval_zero. clear - W Ca Cb E. induction E as [|u v a b Euv E IH]; [constructor|].
    apply Forall_cons_iff in Ca as [Hu Ca]. apply Forall_cons_iff in Cb as [Hv Cb]. constructor; [left; now apply W|now apply IH].
  - exists false. split; [|split; [discriminate|tauto]]. cbn [exec].
    rewrite (almost_floats c (memo st) (known st) x y a b 0 La Lb Ex Ey); [reflexivity|]. apply P_TestUtil.float_rejects; assumption.
Qed.

Lemma exec_equal_ints c lib st x y t z z' : is_float t = false -> in_range t z -> in_range t z' ->
  Frontend.assoc x (known st) = Some (VObj (TScal t) (rv t z)) -> Frontend.assoc y (known st) = Some (VObj (TScal t) (rv t z')) ->
  exec c lib (TEqual (XVar x) (XVar y)) st = Done (mkstate (known st) (memo st) (Expect (z =? z') :: told st)).
Proof. intros Ft Hz Hz' Ex Ey. cbn [exec]. rewrite (equal_ints c _ _ x y t z z' Ft Hz Hz' Ex Ey). reflexivity. Qed.

Lemma exec_equal_floats c lib st x y z z' : in_range F32 z -> in_range F32 z' -> ffin F32 z -> ffin F32 z' ->
  Frontend.assoc x (known st) = Some (VObj (TScal F32) (rv F32 z)) -> Frontend.assoc y (known st) = Some (VObj (TScal F32) (rv F32 z')) ->
  exists b, exec c lib (TEqual (XVar x) (XVar y)) st = Done (mkstate (known st) (memo st) (Expect b :: told st)) /\ (b = true <-> fval F32 z = fval F32 z').
Proof.
  intros Hz Hz' Fz Fz' Ex Ey. destruct (equal_floats c (memo st) (known st) x y z z' Hz Hz' Fz Fz' Ex Ey) as (b & E & B).
  exists b. split; [|exact B]. cbn [exec]. rewrite E. reflexivity.
Qed.

(** ** What the runner is told *)

Definition checks_only (l : list event) : Prop := Forall (fun e => exists b, e = Expect b) l.

Section Told.
Variable c : cfg.
Variable lib : string -> option func.

Lemma next_done {A B} (s : step A) (f : A -> step B) b : next s f = Done b -> exists a, s = Done a /\ f a = Done b.
Proof. destruct s; try discriminate. intros H. now exists a. Qed.

Ltac nd := match goal with
  | H : next ?s _ = Done _ |- _ => let a := fresh "a" in let E := fresh "E" in apply next_done in H; destruct H as (a & E & H)
  | H : (let (_, _) := ?p in _) = Done _ |- _ => destruct p
  | H : match ?x with _ => _ end = Done _ |- _ => destruct x; try discriminate H
  | H : Done _ = Done _ |- _ => injection H as <-
  end.

(** A statement only adds checks. *)
Fixpoint exec_told (s : tstmt) : forall st st', exec c lib s st = Done st' -> exists new, told st' = new ++ told st /\ checks_only new.
Proof.
  destruct s as [t x|t x l|t x e|t x n l|x l|x n|x i t l|e|e a|e a|l]; intros st st' H.
  all: try (cbn [exec] in H; repeat nd; exists []; split; [reflexivity|constructor]).
  - cbn [exec] in H. repeat nd. eexists [_]. split; [reflexivity|]. repeat constructor. eexists; reflexivity.
  - cbn [exec] in H. repeat nd. eexists [_]. split; [reflexivity|]. repeat constructor. eexists; reflexivity.
  - rewrite exec_block in H. apply next_done in H as (st1 & H & E). injection E as <-. cbn [told].
    revert st H. induction l as [|s l IH]; intros st H.
    + cbn in H. injection H as <-. exists []. split; [reflexivity|constructor].
    + cbn [block] in H. apply next_done in H as (st2 & H1 & H2). apply exec_told in H1 as (n1 & E1 & C1). apply IH in H2 as (n2 & E2 & C2).
      exists (n2 ++ n1). split; [rewrite E2, E1; apply app_assoc|]. now apply Forall_app.
Qed.

Lemma events_shape l : forall st b, events c lib l st = Some b -> checks_only (told st) ->
  checks_only b \/ exists pre, b = pre ++ [Die] /\ checks_only pre.
Proof.
  induction l as [|s l IH]; intros st b H T; cbn [events] in H.
  - injection H as <-. left. now apply Forall_rev.
  - destruct (exec c lib s st) as [st1| |] eqn:E; [|injection H as <-|discriminate].
    + apply IH in H; [exact H|]. apply exec_told in E as (new & -> & N). now apply Forall_app.
    + right. exists (rev (told st)). split; [reflexivity|]. now apply Forall_rev.
Qed.
End Told.

Lemma reaches_die pre : checks_only pre -> reaches (pre ++ [Die]) Die.
Proof.
  intros C. exists pre, []. split; [reflexivity|]. revert C. apply Forall_impl. intros e ([] & ->); auto.
Qed.
Lemma checks_reach l e : checks_only l -> reaches l e -> exists b, e = Expect b.
Proof. intros C (pre & post & -> & _). apply Forall_app in C as [_ C]. now inversion C. Qed.
Lemma checks_wrong l : checks_only l -> goes_wrong l <-> ~ Forall (fun e => e = Expect true) l.
Proof.
  intros C. split.
  - intros [R|[R|R]]; [|apply checks_reach in R as ([] & [=]); exact C..].
    destruct R as (pre & post & -> & _). intros F. apply Forall_app in F as [_ F]. inversion F. discriminate.
  - intros N. left. induction C as [|e l (b & ->) C IH]; [destruct N; constructor|]. destruct b.
    + assert (N' : ~ Forall (fun e => e = Expect true) l) by (intros F; apply N; now constructor).
      destruct (IH N') as (pre & post & -> & F). exists (Expect true :: pre), post. split; [reflexivity|]. constructor; auto.
    + exists [], l. split; [reflexivity|constructor].
Qed.

Lemma linked_shape_of c lib su ts t : Permutation (map (fun t => (name t, Some (body t))) ts) (map (fun p => (chars (fst p), test_events c lib (snd p))) su) ->
  In t ts -> In (name t) (map chars (map fst su)) /\ (checks_only (body t) \/ exists pre, body t = pre ++ [Die] /\ checks_only pre).
Proof.
  intros K Ht.
  assert (I : In (name t, Some (body t)) (map (fun p => (chars (fst p), test_events c lib (snd p))) su))
    by exact (Permutation_in _ K (in_map (fun t => (name t, Some (body t))) ts t Ht)).
  apply in_map_iff in I as (p & E & Hp). injection E as E1 E2. split.
  - rewrite <- E1. apply (in_map chars). exact (in_map fst su p Hp).
  - unfold test_events in E2. apply events_shape in E2; [exact E2|constructor].
Qed.

Lemma linked_shape c lib ts t : linked c lib ts -> In t ts -> In (name t) (map chars project_tests) /\
  (checks_only (body t) \/ exists pre, body t = pre ++ [Die] /\ checks_only pre).
Proof. intros K. rewrite <- suite_names. exact (linked_shape_of c lib suite ts t K). Qed.

(** The program, whatever the library: killed if a selected test dies; otherwise the status is 0 exactly if all checks hold. *)
Lemma program_verdict c lib ts clock args o : linked c lib ts ->
  parse clock (mkoptions None false None) args = Options o -> c_filter (opt_filter o) ->
  Forall (fun t => opt_mixed o = false \/ duration t < 10 ^ 13) ts ->
  ((exists t, In t ts /\ is_selected (opt_filter o) t = true /\ In Die (body t)) -> utest_main clock args ts = Killed) /\
  (~ (exists t, In t ts /\ is_selected (opt_filter o) t = true /\ In Die (body t)) ->
   exists out st, utest_main clock args ts = Exit out st /\
     (st = 0 <-> forall t, In t ts -> is_selected (opt_filter o) t = true -> Forall (fun e => e = Expect true) (body t))).
Proof.
  intros K P F D. rewrite Forall_forall in D.
  assert (N : count ts < 256) by (unfold count; apply Permutation_length in K; rewrite !map_length in K; rewrite K, suite_length; reflexivity).
  assert (Sh := fun t => linked_shape c lib ts t K).
  assert (Cs : forall t, In t ts -> c_string (name t)).
  { intros t Ht. destruct (Sh t Ht) as [I _]. apply in_map_iff in I as (s & <- & Hs). now apply project_c_strings. }
  split.
  - intros (t & Ht & Hs & Hd). apply (P_Runner2.main_killed clock args ts o P F); [lia| |].
    + apply Forall_forall. intros u Hu. exact (conj (Cs u Hu) (D u Hu)).
        + exists t. split; [exact Ht|]. split; [exact Hs|]. destruct (Sh t Ht) as [_ [C|(pre & -> & C)]]; [|now apply reaches_die].
      unfold checks_only in C. rewrite Forall_forall in C. destruct (C Die Hd). discriminate.
  - intros Nd.
    assert (C : forall t, In t ts -> is_selected (opt_filter o) t = true -> checks_only (body t)).
    { intros t Ht Hs. destruct (Sh t Ht) as [_ [C|(pre & E & C)]]; [exact C|]. destruct Nd. exists t. split; [exact Ht|]. split; [exact Hs|].
      rewrite E. apply in_app_iff. right. now left. }
    destruct (P_Runner2.main_status clock args ts o P F N) as (out & st & E & Ss).
    + apply Forall_forall. intros t Ht. split; [auto|]. intros Hs. specialize (C t Ht Hs).
      split; [|split; [|exact (D t Ht)]]; intros R; apply (checks_reach _ _ C) in R as (b & [=]).
    + exists out, st. split; [exact E|]. rewrite Ss. split; intros H t Ht Hs; specialize (H t Ht Hs); specialize (C t Ht Hs).
      * destruct (Forall_dec (fun e => e = Expect true)) with (l := body t) as [Y|Y]; [|exact Y|].
        -- intros [[]| | | |]; first [left; reflexivity | right; discriminate].
        -- destruct H. apply (checks_wrong _ C). exact Y.
      * intros W. exact (proj1 (checks_wrong _ C) W H).
Qed.

(** ** Answers *)

Lemma value_call c lib en m want f g xs m2 o : lib f = Some g -> same (f_ret g) want = true ->
  Forall2 (fun p xo => Frontend.assoc (fst xo) en = Some (VObj (snd p) (snd xo)) /\ same (snd p) (snd p) = true) (f_params g) xs ->
  run c m g (map snd xs) = Returns m2 (Some o) ->
  value c lib en m want (XCall f (map (fun xo => XVar (fst xo)) xs)) = Done (o, m2).
Proof.
  intros L Sr A R. unfold value, depth. cbn [value_of]. rewrite L. cbn [some next]. rewrite Sr. cbn [orb].
  match goal with |- next (?F _ _ _) _ = _ => enough (E : forall ps xs, Forall2 (fun p xo => Frontend.assoc (fst xo) en = Some (VObj (snd p) (snd xo)) /\ same (snd p) (snd p) = true) ps xs ->
    F ps m (map (fun xo => XVar (fst xo)) xs) = Done (map snd xs, m)) end.
  - rewrite (E _ _ A). cbn [next]. rewrite R. reflexivity.
  - clear. intros ps xs H. induction H as [|[n t] [x v] ps xs [E S] H IH]; [reflexivity|].
    cbn [map fst snd] in *. rewrite E. cbn [some next]. rewrite S. cbn [next]. rewrite IH. reflexivity.
Qed.

Lemma exec_call c lib st t ty x f g xs m2 o : Frontend.assoc t type_named = Some ty -> lib f = Some g -> same (f_ret g) ty = true ->
  Forall2 (fun p xo => Frontend.assoc (fst xo) (known st) = Some (VObj (snd p) (snd xo)) /\ same (snd p) (snd p) = true) (f_params g) xs ->
  run c (memo st) g (map snd xs) = Returns m2 (Some o) ->
  exec c lib (TInit t x (XCall f (map (fun xo => XVar (fst xo)) xs))) st = Done (mkstate ((x, VObj ty o) :: known st) m2 (told st)).
Proof.
  intros T L Sr A R. cbn [exec]. unfold type_of. rewrite T. cbn [some next]. rewrite (value_call c lib _ _ ty f g xs m2 o L Sr A R). reflexivity.
Qed.

Lemma events_step c lib s l st st' b : exec c lib s st = Done st' -> events c lib l st' = b -> events c lib (s :: l) st = b.
Proof. intros E <-. cbn [events]. now rewrite E. Qed.

(** The test that asks for it, with the library's answer a variable. *)
Ltac args_of l := lazymatch l with [XVar ?x] => constr:([x]) | XVar ?x :: ?l' => let r := args_of l' in constr:(x :: r) end.
Ltac in_env x en := lazymatch en with (x, VObj _ ?o) :: _ => o | _ :: ?en' => in_env x en' end.
Ltac paired l en := lazymatch l with nil => constr:(@nil (string * obj)) | ?x :: ?l' => let o := in_env x en in let r := paired l' en in constr:((x, o) :: r) end.
Ltac test_list := eapply events_step; [vm_compute; reflexivity|].
Ltac test_call L R :=
  lazymatch goal with |- events _ _ (TInit ?t ?x (XCall ?f ?args) :: _) (mkstate ?en ?m ?tl) = _ =>
    let xs := args_of args in let ps := paired xs en in
    eapply events_step; [eapply (exec_call _ _ _ t _ x f _ ps); [reflexivity|exact L|reflexivity|repeat (constructor; [split; reflexivity|]); constructor|exact R]|cbn [memo told known]]
  end.
Ltac test_check ty n e r :=
  eapply events_step; [eapply (exec_ints _ _ _ _ _ ty n e r); [cbn; tauto|split; [reflexivity|repeat constructor; vm_compute; congruence]|assumption|reflexivity|reflexivity]|reflexivity].

Ltac test_all L R ty n e r :=
  lazymatch goal with
  | |- events _ _ (TList _ _ _ :: _) _ = _ => test_list; test_all L R ty n e r
  | |- events _ _ (TInit _ _ _ :: _) _ = _ => test_call L R; test_all L R ty n e r
  | |- events _ _ (TAlmost _ _ :: _) _ = _ => test_check ty n e r
  end.

Definition suite_text : list (string * list tstmt) := Eval vm_compute in suite.
Lemma suite_is : suite = suite_text.
Proof. vm_compute. reflexivity. Qed.

Definition same_signature (g : func) (f : string) : Prop :=
  exists h, named library f = Some h /\ f_ret g = f_ret h /\ f_params g = f_params h.
Definition signatures : list (string * (ty * list (string * ty))) :=
  Eval vm_compute in map (fun f => (f, match named library f with Some h => (f_ret h, f_params h) | None => (TVoid, []) end)) (map (fun a => fst (fst (fst (fst a)))) answers).
Lemma signatures_are : map (fun f => option_map (fun h => (f_ret h, f_params h)) (named library f)) (map fst signatures) = map (fun s => Some (snd s)) signatures.
Proof. vm_compute. reflexivity. Qed.
Lemma signature_of g f s : same_signature g f -> In (f, s) signatures -> f_ret g = fst s /\ f_params g = snd s.
Proof.
  intros (h & N & Er & Ep) I. pose proof signatures_are as A. rewrite map_map in A. pose proof (ext_in_map A _ I) as B.
  cbv beta in B. cbn [fst snd] in B. rewrite N in B. cbn [option_map] in B. injection B as <-. now split.
Qed.

Lemma nth_text i : (i < 46)%nat -> In (nth i suite_text (EmptyString, [])) suite.
Proof. intros H. rewrite suite_is. apply nth_In. exact H. Qed.

Ltac row i k :=
  match goal with
  | S : same_signature ?g ?f, L : _ = Some ?g, R : run _ _ ?g _ = Returns _ (Some (vec ?t ?r)), Hr : lanes ?t ?n ?r |- exists p, _ /\ _ = Some [Expect (if list_eq_dec _ ?e _ then _ else _)] =>
      exists (nth i suite_text (EmptyString, [])); split; [apply nth_text; repeat constructor|];
      let l := eval cbv in (snd (nth i suite_text (EmptyString, []))) in change (snd (nth i suite_text (EmptyString, []))) with l;
      let S1 := fresh in let S2 := fresh in
      destruct (signature_of g f _ S (nth_In signatures (EmptyString, (TVoid, [])) (n := k) ltac:(repeat constructor))) as [S1 S2];
      destruct g as [gn gr gp gb]; cbn in S1, S2; subst gr gp;
      unfold test_events; test_all L R t n e r
  end.

Lemma answers_tested c lib f args t n e g r : In (f, args, t, n, e) answers -> lib f = Some g -> same_signature g f ->
  run c [] g args = Returns [] (Some (vec t r)) -> lanes t n r ->
  exists p, In p suite /\ test_events c lib (snd p) = Some [Expect (if list_eq_dec Z.eq_dec e r then true else false)].
Proof.
  intros I L S R Hr. cbn [In answers] in I.
  destruct I as [I|I]; [injection I as <- <- <- <- <-; row 4%nat 0%nat|].
  destruct I as [I|I]; [injection I as <- <- <- <- <-; row 5%nat 1%nat|].
  destruct I as [I|I]; [injection I as <- <- <- <- <-; row 6%nat 2%nat|].
  destruct I as [I|I]; [injection I as <- <- <- <- <-; row 7%nat 3%nat|].
  destruct I as [I|I]; [injection I as <- <- <- <- <-; row 8%nat 4%nat|].
  destruct I as [I|I]; [injection I as <- <- <- <- <-; row 9%nat 5%nat|].
  destruct I as [I|I]; [injection I as <- <- <- <- <-; row 11%nat 6%nat|].
  destruct I as [I|I]; [injection I as <- <- <- <- <-; row 13%nat 7%nat|].
  destruct I as [I|I]; [injection I as <- <- <- <- <-; row 26%nat 8%nat|].
  destruct I as [I|I]; [injection I as <- <- <- <- <-; row 31%nat 9%nat|].
  destruct I as [I|I]; [injection I as <- <- <- <- <-; row 32%nat 10%nat|].
  destruct I as [I|I]; [injection I as <- <- <- <- <-; row 33%nat 11%nat|].
  destruct I as [I|I]; [injection I as <- <- <- <- <-; row 38%nat 12%nat|].
  destruct I as [I|I]; [injection I as <- <- <- <- <-; row 40%nat 13%nat|].
  destruct I as [I|I]; [injection I as <- <- <- <- <-; row 41%nat 14%nat|].
  destruct I.
Qed.

Lemma test_in_program c lib ts su p b : Permutation (map (fun t => (name t, Some (body t))) ts) (map (fun p => (chars (fst p), test_events c lib (snd p))) su) ->
  In p su -> test_events c lib (snd p) = Some b -> exists t, In t ts /\ body t = b.
Proof.
  intros K Hp E. apply Permutation_sym in K.
  pose proof (Permutation_in _ K (in_map (fun p => (chars (fst p), test_events c lib (snd p))) su p Hp)) as I. cbv beta in I.
  apply in_map_iff in I as (t & Et & Ht). exists t. split; [exact Ht|]. rewrite E in Et. now injection Et.
Qed.

Lemma passing_means c lib ts clock args o out f a t n e g r : linked c lib ts ->
  parse clock (mkoptions None false None) args = Options o -> opt_filter o = None ->
  Forall (fun t => opt_mixed o = false \/ duration t < 10 ^ 13) ts ->
  utest_main clock args ts = Exit out 0 ->
  In (f, a, t, n, e) answers -> lib f = Some g -> same_signature g f -> run c [] g a = Returns [] (Some (vec t r)) -> lanes t n r -> r = e.
Proof.
  intros K P F D U I L S R Hr. destruct (answers_tested c lib f a t n e g r I L S R Hr) as (p & Hp & E).
  destruct (test_in_program c lib ts suite p _ K Hp E) as (u & Hu & Eb).
  assert (Sel : forall u, is_selected (opt_filter o) u = true) by (intros v; rewrite F; reflexivity).
  destruct (program_verdict c lib ts clock args o K P) as [Kd Ex]; [rewrite F; constructor|exact D|].
  assert (Nd : ~ (exists t, In t ts /\ is_selected (opt_filter o) t = true /\ In Die (body t))) by (intros X; rewrite (Kd X) in U; discriminate U).
  destruct (Ex Nd) as (out' & st & U' & Q). rewrite U in U'. injection U' as <- <-.
  pose proof (proj1 Q eq_refl u Hu (Sel u)) as A. rewrite Eb in A. apply Forall_inv in A.
  destruct (list_eq_dec Z.eq_dec e r) as [->|]; [reflexivity|discriminate].
Qed.
