(** The project's tests: they pass, whatever the order and the options, and they see only the functions they call. *)
From Coq Require Import ZArith String Ascii List Bool Lia Permutation.
From Verif Require Import Types Syntax Interp ProgRecip TestUtil Library Suite Runner RunnerSpec SuiteSpec.
From Verif Require P_Runner2 Frontend.
Import ListNotations.
Open Scope Z_scope.

(** ** Every check of every test holds *)

Definition checks_hold (o : option (list event)) : bool :=
  match o with
  | Some (e :: l) => forallb (fun e => match e with Expect true => true | _ => false end) (e :: l)
  | _ => false
  end.

Lemma checks_hold_spec o : checks_hold o = true -> exists n, o = Some (repeat (Expect true) (S n)).
Proof.
  destruct o as [[|e l]|]; try discriminate. intros H. exists (List.length l). cbn [checks_hold] in H. rewrite forallb_forall in H.
  f_equal. change (S (List.length l)) with (List.length (e :: l)). revert H. generalize (e :: l). clear.
  induction l as [|a l IH]; intros H; [reflexivity|]. cbn [List.length repeat]. rewrite <- IH by (intros; apply H; now right).
  specialize (H a (or_introl eq_refl)). now destruct a as [[]|[]| | |].
Qed.

Lemma suite_passes_bool c : forallb (fun p => checks_hold (test_events c (named library) (snd p))) suite = true.
Proof. destruct c as [[] nan]; vm_compute; reflexivity. Qed.

Lemma suite_passes c p : In p suite -> exists n, test_events c (named library) (snd p) = Some (repeat (Expect true) (S n)).
Proof. intros H. apply checks_hold_spec. exact (proj1 (forallb_forall _ _) (suite_passes_bool c) p H). Qed.

(** ** A test depends on the functions it calls only *)

Local Opaque suite value_of.

Section Agree.
Variable c : cfg.
Variables l1 l2 : string -> option func.

Lemma next_ext {A B} (s : step A) (f g : A -> step B) : (forall a, s = Done a -> f a = g a) -> next s f = next s g.
Proof. destruct s; cbn; auto. Qed.

Lemma value_ext fuel : forall e en m want, (forall f, In f (calls e) -> l1 f = l2 f) ->
  value_of c l1 fuel en m want e = value_of c l2 fuel en m want e.
Proof.
  Local Transparent value_of.
  induction fuel as [|fuel IH]; [reflexivity|]. intros e en m want H. destruct e as [x|n k|f args|x i|x|x]; try reflexivity.
  cbn [value_of]. rewrite (H f) by now left. destruct (l2 f) as [fn|]; [|reflexivity]. cbn [some next].
  destruct (same (f_ret fn) want || match f_ret fn with TVoid => match want with TVoid => true | _ => false end | _ => false end); [|reflexivity].
  assert (E : forall args ps m, (forall f, In f (flat_map calls args) -> l1 f = l2 f) ->
    (fix values (ps : list (string * ty)) (m : memory) (l : list texpr) {struct ps} : step (list obj * memory) :=
        match ps, l with
        | [], [] => Done ([], m)
        | (_, t) :: ps', a :: l' => next (value_of c l1 fuel en m t a) (fun '(o, m1) => next (values ps' m1 l') (fun '(os, m2) => Done (o :: os, m2)))
        | _, _ => Wrong
        end) ps m args
    = (fix values (ps : list (string * ty)) (m : memory) (l : list texpr) {struct ps} : step (list obj * memory) :=
        match ps, l with
        | [], [] => Done ([], m)
        | (_, t) :: ps', a :: l' => next (value_of c l2 fuel en m t a) (fun '(o, m1) => next (values ps' m1 l') (fun '(os, m2) => Done (o :: os, m2)))
        | _, _ => Wrong
        end) ps m args).
  { clear args H. induction args as [|a args IHa]; intros ps m' H; [destruct ps as [|[]]; reflexivity|]. destruct ps as [|[? t] ps]; [reflexivity|].
    rewrite IH by (intros g Hg; apply H; cbn; apply in_app_iff; now left). apply next_ext. intros [o m1] _.
    rewrite IHa by (intros g Hg; apply H; cbn; apply in_app_iff; now right). reflexivity. }
  rewrite E by (intros g Hg; apply H; now right). reflexivity.
Qed.

Local Opaque value_of.
Lemma elements_ext t n : forall l en m, (forall f, In f (flat_map calls l) -> l1 f = l2 f) -> elements c l1 en m t n l = elements c l2 en m t n l.
Proof.
  induction n as [|n IH]; intros l en m H; destruct l as [|e l]; cbn [elements].
  - reflexivity.
  - reflexivity.
  - rewrite IH by exact H. reflexivity.
  - unfold value. rewrite value_ext by (intros; apply H; cbn; apply in_app_iff; now left).
    rewrite IH by (intros; apply H; cbn; apply in_app_iff; now right). reflexivity.
Qed.
Lemma parts_ext t n : forall l en m, (forall f, In f (flat_map calls l) -> l1 f = l2 f) -> parts c l1 en m t n l = parts c l2 en m t n l.
Proof.
  induction n as [|n IH]; intros l en m H; destruct l as [|e l]; cbn [parts]; [reflexivity..|].
  unfold value. rewrite value_ext by (intros; apply H; cbn; apply in_app_iff; now left).
  rewrite IH by (intros; apply H; cbn; apply in_app_iff; now right). reflexivity.
Qed.
Lemma aggregate_ext t : forall l en m, (forall f, In f (flat_map calls l) -> l1 f = l2 f) -> aggregate c l1 en m t l = aggregate c l2 en m t l.
Proof. intros l en m H. unfold aggregate. destruct t as [| |n [| | | |]| |]; [reflexivity|reflexivity| | | | | |reflexivity|reflexivity];
  first [rewrite elements_ext by exact H | rewrite parts_ext by exact H]; reflexivity. Qed.

Definition agree_on (s : tstmt) : Prop := forall st, (forall f, In f (called s) -> l1 f = l2 f) -> exec c l1 s st = exec c l2 s st.

Lemma exec_block l st lib : exec c lib (TBlock l) st = next (block c lib l st) (fun st' => Done (mkstate (known st) (memo st') (told st'))).
Proof. reflexivity. Qed.

Fixpoint exec_ext (s : tstmt) : agree_on s.
Proof.
  destruct s as [t x|t x l|t x e|t x n l|x l|x n|x i t l|e|e a|e a|l]; intros st H.
  - reflexivity.
  - cbn [exec]. apply next_ext. intros ty _. rewrite aggregate_ext by exact H. reflexivity.
  - cbn [exec]. apply next_ext. intros ty _. unfold value. rewrite value_ext by exact H. reflexivity.
  - cbn [exec]. apply next_ext. intros ty _. destruct ty; [reflexivity| |reflexivity..]. rewrite elements_ext by exact H. reflexivity.
  - cbn [exec]. rewrite elements_ext by exact H. reflexivity.
  - reflexivity.
  - cbn [exec]. apply next_ext. intros ty _. rewrite aggregate_ext by exact H. reflexivity.
  - cbn [exec]. unfold value. rewrite value_ext by exact H. reflexivity.
  - reflexivity.
  - reflexivity.
  - rewrite !exec_block. enough (E : block c l1 l st = block c l2 l st) by now rewrite E.
    revert l st H. fix blocks_ext 1. intros [|s l] st H; [reflexivity|]. cbn [block].
    rewrite (exec_ext s) by (intros f Hf; apply H; cbn; apply in_app_iff; now left). apply next_ext. intros st1 _.
    apply (blocks_ext l). intros f Hf. apply H. cbn. apply in_app_iff. now right.
Qed.

Lemma events_ext l : (forall f, In f (flat_map called l) -> l1 f = l2 f) -> forall st, events c l1 l st = events c l2 l st.
Proof.
  induction l as [|s l IH]; intros H st; [reflexivity|]. cbn [events].
  rewrite (exec_ext s) by (intros f Hf; apply H; cbn; apply in_app_iff; now left).
  destruct (exec c l2 s st) as [st1| |]; [|reflexivity..]. apply IH. intros f Hf. apply H. cbn. apply in_app_iff. now right.
Qed.
End Agree.

Lemma calls_in (ts : list (string * list tstmt)) p f : In p ts -> In f (flat_map called (snd p)) ->
  In f (nodup string_dec (flat_map (fun p => flat_map called (snd p)) ts)).
Proof. intros Hp Hf. apply nodup_In. apply in_flat_map. now exists p. Qed.

Lemma suite_ext c l1 l2 : (forall f, In f suite_calls -> l1 f = l2 f) -> forall p, In p suite -> test_events c l1 (snd p) = test_events c l2 (snd p).
Proof. intros H p Hp. unfold test_events. apply events_ext. intros f Hf. apply H. exact (calls_in suite p f Hp Hf). Qed.

(** ** The program *)

Local Transparent suite.
Lemma suite_names : map fst suite = project_tests.
Proof. vm_compute. reflexivity. Qed.
Lemma suite_length : List.length suite = 46%nat.
Proof. vm_compute. reflexivity. Qed.
Local Opaque suite.

Definition all_true (t : test) : Prop := exists n, body t = repeat (Expect true) (S n).

Lemma all_true_passes t : all_true t -> ends_with Passed t = true /\ ~ reaches (body t) Die /\ ~ reaches (body t) Skip.
Proof.
  intros (n & E). split.
  - unfold ends_with. rewrite E. assert (R : forall k, run_body Passed (repeat (Expect true) k) = Some Passed) by (induction k; auto). now rewrite R.
  - assert (N : forall e, e <> Expect true -> ~ reaches (body t) e).
    { intros e He (pre & post & E' & _). rewrite E in E'. apply He. apply (repeat_spec (S n) (Expect true)). rewrite E'. apply in_app_iff. right. now left. }
    split; apply N; discriminate.
Qed.

Lemma run_all_pass clock args ts o : parse clock (mkoptions None false None) args = Options o -> c_filter (opt_filter o) -> count ts < 2 ^ 31 ->
  Forall (fun t => c_string (name t) /\ (opt_mixed o = false \/ duration t < 10 ^ 13)) ts -> Forall all_true ts ->
  exists order, Permutation ts order /\ (opt_seed o = None -> order = ts) /\
    let sel := filter (is_selected (opt_filter o)) order in
    Forall (fun t => ends_with Passed t = true) sel /\ utest_main clock args ts = Exit (report (opt_mixed o) sel) 0.
Proof.
  intros P F C H T. rewrite Forall_forall in H, T.
  destruct (P_Runner2.main_run clock args ts o P F C) as (order & Pm & Eo & R).
  - apply Forall_forall. intros t Ht. destruct (H t Ht) as [Hn Hd]. split; [exact Hn|]. intros _. split; [|exact Hd].
    apply (all_true_passes t). now apply T.
  - exists order. split; [exact Pm|]. split; [exact Eo|]. cbv zeta in *.
    assert (A : Forall (fun t => ends_with Passed t = true) (filter (is_selected (opt_filter o)) order)).
    { apply Forall_forall. intros t Ht. apply filter_In in Ht as [Ht _]. apply all_true_passes. apply T. eapply Permutation_in; [apply Permutation_sym; exact Pm|exact Ht]. }
    split; [exact A|]. rewrite R. f_equal.
    enough (Z0 : filter (ends_with Failure) (filter (is_selected (opt_filter o)) order) = []) by now rewrite Z0.
    revert A. generalize (filter (is_selected (opt_filter o)) order). clear. induction l as [|t l IH]; intros A; [reflexivity|].
    inversion A as [|? ? A1 A2]; subst. cbn [filter]. rewrite IH by exact A2.
    unfold ends_with in *. destruct (run_body Passed (body t)) as [[]|]; try discriminate. reflexivity.
Qed.

Lemma project_c_strings s : In s project_tests -> c_string (chars s).
Proof.
  intros Hs HN. assert (D : forallb (fun s => negb (existsb (Ascii.eqb NUL) s)) (map chars project_tests) = true) by (vm_compute; reflexivity).
  rewrite forallb_forall in D. specialize (D (chars s) (in_map chars _ _ Hs)). apply negb_true_iff in D.
  assert (existsb (Ascii.eqb NUL) (chars s) = true); [|congruence]. apply existsb_exists. exists NUL. split; [exact HN|reflexivity].
Qed.


Lemma linked_true c lib su ts : Permutation (map (fun t => (name t, Some (body t))) ts) (map (fun p => (chars (fst p), test_events c lib (snd p))) su) ->
  (forall p, In p su -> exists n, test_events c lib (snd p) = Some (repeat (Expect true) (S n))) ->
  forall t, In t ts -> In (name t) (map chars (map fst su)) /\ all_true t.
Proof.
  intros K H t Ht.
  assert (I : In (name t, Some (body t)) (map (fun p => (chars (fst p), test_events c lib (snd p))) su))
    by exact (Permutation_in _ K (in_map (fun t => (name t, Some (body t))) ts t Ht)).
  apply in_map_iff in I as (p & E & Hp). destruct (H p Hp) as (n & En). rewrite En in E. injection E as E1 E2.
  split; [|exists n; exact (eq_sym E2)]. rewrite <- E1. apply (in_map chars). exact (in_map fst su p Hp).
Qed.

Lemma program_passes c lib ts clock args o : (forall f, In f suite_calls -> lib f = named library f) -> linked c lib ts ->
  parse clock (mkoptions None false None) args = Options o -> c_filter (opt_filter o) ->
  Forall (fun t => opt_mixed o = false \/ duration t < 10 ^ 13) ts ->
  exists order, Permutation ts order /\ (opt_seed o = None -> order = ts) /\
    let sel := filter (is_selected (opt_filter o)) order in
    Forall (fun t => ends_with Passed t = true) sel /\ utest_main clock args ts = Exit (report (opt_mixed o) sel) 0.
Proof.
  intros L K P F D.
  assert (G : forall t, In t ts -> In (name t) (map chars project_tests) /\ all_true t).
  { rewrite <- suite_names. apply (linked_true c lib suite ts K). intros p Hp. rewrite (suite_ext c lib (named library) L p Hp). exact (suite_passes c p Hp). }
  apply run_all_pass; [exact P|exact F| | |].
  - assert (N : List.length ts = List.length suite) by (apply Permutation_length in K; rewrite !map_length in K; exact K).
    unfold count. rewrite N, suite_length. reflexivity.
  - apply Forall_forall. intros t Ht. rewrite Forall_forall in D. split; [|now apply D]. destruct (G t Ht) as [I _].
    apply in_map_iff in I as (s & <- & Hs). now apply project_c_strings.
  - apply Forall_forall. intros t Ht. apply (G t Ht).
Qed.

(** ** Wrong libraries *)


Lemma named_replaced (l : list func) f b g : g <> f ->
  named (map (fun g => if String.eqb (f_name g) f then mkfunc (f_name g) (f_ret g) (f_params g) b else g) l) g = named l g.
Proof.
  intros H. unfold named. induction l as [|x l IH]; [reflexivity|]. cbn [map find].
  destruct (String.eqb_spec (f_name x) f) as [E|E]; [|now rewrite IH].
  cbn [f_name]. destruct (String.eqb_spec (f_name x) g) as [E'|E']; [congruence|exact IH].
Qed.

Lemma unused_unseen c f b ts clock args o : ~ In f suite_calls -> linked c (named (with_body f b)) ts ->
  parse clock (mkoptions None false None) args = Options o -> c_filter (opt_filter o) ->
  Forall (fun t => opt_mixed o = false \/ duration t < 10 ^ 13) ts ->
  exists out, utest_main clock args ts = Exit out 0.
Proof.
  intros N K P F D. destruct (program_passes c (named (with_body f b)) ts clock args o) as (order & _ & _ & _ & E); try assumption.
  - intros g Hg. apply named_replaced. intros ->. now apply N.
  - eexists. exact E.
Qed.

Local Transparent suite.
Lemma suite_parsed : p_files SuiteSource.test_sources = Some suite.
Proof. vm_compute. reflexivity. Qed.

Definition ends_dead (o : option (list event)) : bool :=
  match o with Some l => existsb (fun e => match e with Die => true | _ => false end) l | None => false end.

Definition all_seen (c : cfg) (lb : list func) (su : list (string * list tstmt)) (fs : list string) : bool :=
  forallb (fun f => let lib := replaced lb f SAbort in
    existsb (fun p => if existsb (String.eqb f) (flat_map called (snd p)) then ends_dead (test_events c (named lib) (snd p)) else false) su) fs.

Lemma all_seen_spec c lb su fs f : all_seen c lb su fs = true -> In f fs ->
  exists p l, In p su /\ test_events c (named (replaced lb f SAbort)) (snd p) = Some l /\ In Die l.
Proof.
  intros A H. pose proof (proj1 (forallb_forall _ _) A f H) as G. cbv zeta in G. apply existsb_exists in G as (p & Hp & G).
  destruct (existsb (String.eqb f) (flat_map called (snd p))); [|discriminate]. unfold ends_dead in G. destruct (test_events c (named (replaced lb f SAbort)) (snd p)) as [l|] eqn:E; [|discriminate].
  exists p, l. split; [exact Hp|]. split; [exact E|]. apply existsb_exists in G as (e & He & G). destruct e; try discriminate. exact He.
Qed.

Lemma used_seen_bool c : all_seen c library suite suite_calls = true.
Proof. destruct c as [[] nan]; vm_compute; reflexivity. Qed.

Lemma used_seen c f : In f suite_calls -> exists p l, In p suite /\ test_events c (named (with_body f SAbort)) (snd p) = Some l /\ In Die l.
Proof. exact (all_seen_spec c library suite suite_calls f (used_seen_bool c)). Qed.

(** A test program there is. *)
Definition program_of (c : cfg) (lib : string -> option func) (time : Z) (su : list (string * list tstmt)) : list test :=
  map (fun p => mktest (chars (fst p)) (match test_events c lib (snd p) with Some l => l | None => [] end) time) su.

Lemma program_of_spec c lib time su : (forall p, In p su -> exists n, test_events c lib (snd p) = Some (repeat (Expect true) (S n))) ->
  map (fun t => (name t, Some (body t))) (program_of c lib time su) = map (fun p => (chars (fst p), test_events c lib (snd p))) su.
Proof.
  intros H. unfold program_of. rewrite map_map. apply map_ext_in. intros p Hp. destruct (H p Hp) as (n & E). cbn [name body]. rewrite E. reflexivity.
Qed.

Lemma linked_program c time : linked c (named library) (program_of c (named library) time suite).
Proof. unfold linked. rewrite (program_of_spec c (named library) time suite (suite_passes c)). apply Permutation_refl. Qed.
