(** C77, C78: the test runner of the test suite (tests/utest.h; [Runner], and [RunnerSpec] for what is expected). *)
From Coq Require Import ZArith String Ascii List Bool Lia Permutation.
From Verif Require Import Runner RunnerSpec.
From Verif Require P_Runner P_Runner2.
Import ListNotations.
Open Scope Z_scope.

Definition no_options : options := mkoptions None false None.

(** ** C77 The verdict of the test program *)

(** A test fails exactly if a check in it fails or an exception leaves it, provided that it is not skipped. *)
Theorem C77_verdict_partial : forall b, ~ reaches b Skip -> ~ reaches b Die ->
  (goes_wrong b -> run_body Passed b = Some Failure) /\ (~ goes_wrong b -> run_body Passed b = Some Passed).
Proof. intros b. exact (P_Runner.body_verdict b Passed). Qed.
Print Assumptions C77_verdict_partial.

(** UTEST_SKIP after a failed check hides the failure. *)
Theorem C77_skip_refuted : exists b, goes_wrong b /\ run_body Passed b = Some Skipped /\
  forall clock n, exists out, utest_main clock [] [mktest n b 0] = Exit out 0.
Proof.
  exists [Expect false; Skip]. split; [left; exists [], [Skip]; split; [reflexivity|constructor]|]. split; [reflexivity|].
  intros clock n. eexists. reflexivity.
Qed.
Print Assumptions C77_skip_refuted.

(** Whatever the options: every selected test is run exactly once, in the order of registration or in a permutation of
    it; the report says so, test by test, with the right counts and lists; the status is the number of failed tests,
    modulo 256. *)
Theorem C77_report : forall clock args ts o, parse clock no_options args = Options o ->
  c_filter (opt_filter o) -> count ts < 2 ^ 31 ->
  Forall (fun t => c_string (name t) /\ (is_selected (opt_filter o) t = true ->
    ~ reaches (body t) Die /\ (opt_mixed o = false \/ duration t < 10 ^ 13))) ts ->
  exists order, Permutation ts order /\ (opt_seed o = None -> order = ts) /\
    let sel := filter (is_selected (opt_filter o)) order in
    utest_main clock args ts = Exit (report (opt_mixed o) sel) (count (filter (ends_with Failure) sel) mod 256).
Proof. exact P_Runner2.main_run. Qed.
Print Assumptions C77_report.

(** The status is 0 exactly if nothing goes wrong in any selected test: true of up to 255 tests. *)
Theorem C77_status_partial : forall clock args ts o, parse clock no_options args = Options o ->
  c_filter (opt_filter o) -> count ts < 256 ->
  Forall (fun t => c_string (name t) /\ (is_selected (opt_filter o) t = true ->
    ~ reaches (body t) Die /\ ~ reaches (body t) Skip /\ (opt_mixed o = false \/ duration t < 10 ^ 13))) ts ->
  exists out st, utest_main clock args ts = Exit out st /\
    (st = 0 <-> forall t, In t ts -> is_selected (opt_filter o) t = true -> ~ goes_wrong (body t)).
Proof. exact P_Runner2.main_status. Qed.
Print Assumptions C77_status_partial.

(** 256 failing tests are reported as success. *)
Theorem C77_status_refuted : exists ts, count ts = 256 /\ Forall (fun t => goes_wrong (body t)) ts /\
  forall clock, exists out, utest_main clock [] ts = Exit out 0.
Proof.
  exists (repeat (mktest (chars "t.t") [Expect false] 0) 256). split; [reflexivity|]. split.
  - apply Forall_forall. intros t Ht. apply repeat_spec in Ht as ->. left. exists [], []. split; [reflexivity|constructor].
  - intros clock. eexists. vm_compute. reflexivity.
Qed.
Print Assumptions C77_status_refuted.

(** What the command line asks for is what the runner does: of each kind of request the last one holds. *)
Theorem C77_options : forall clock rs, Forall (fun r => match r with OrderFrom ds => Forall (fun d => (d < 10)%nat) ds | _ => True end) rs ->
  parse clock no_options (map spelled rs) = Options (mkoptions (wanted_filter rs) (wanted_mixed rs) (wanted_seed clock rs)).
Proof. exact P_Runner2.parse_all. Qed.
Print Assumptions C77_options.

(** --list-tests and --help run nothing. *)
Theorem C77_list : forall clock rs rest ts, Forall (fun r => match r with OrderFrom ds => Forall (fun d => (d < 10)%nat) ds | _ => True end) rs ->
  utest_main clock (map spelled rs ++ chars "--list-tests" :: rest) ts = Exit (map (fun t => Name (name t)) ts) 0 /\
  utest_main clock (map spelled rs ++ chars "--help" :: rest) ts = Exit [Usage] 0.
Proof. exact P_Runner2.main_list. Qed.
Print Assumptions C77_list.

(** A test that is aborted ends the program at once. *)
Theorem C77_abort : forall clock args ts o, parse clock no_options args = Options o ->
  c_filter (opt_filter o) -> count ts < 2 ^ 31 ->
  Forall (fun t => c_string (name t) /\ (opt_mixed o = false \/ duration t < 10 ^ 13)) ts ->
  (exists t, In t ts /\ is_selected (opt_filter o) t = true /\ reaches (body t) Die) -> utest_main clock args ts = Killed.
Proof. exact P_Runner2.main_killed. Qed.
Print Assumptions C77_abort.

(** With --enable-mixed-units a test of 10000 seconds or more makes the runner print a null pointer as a string. *)
Theorem C77_units_refuted : forall clock args ts o, parse clock no_options args = Options o -> opt_mixed o = true ->
  c_filter (opt_filter o) -> count ts < 2 ^ 31 ->
  Forall (fun t => c_string (name t) /\ (is_selected (opt_filter o) t = true -> ~ reaches (body t) Die)) ts ->
  (exists t, In t ts /\ is_selected (opt_filter o) t = true /\ 10 ^ 13 <= duration t) -> utest_main clock args ts = NullPrinted.
Proof. exact P_Runner2.main_null. Qed.
Print Assumptions C77_units_refuted.

(** --random-order: for every seed the loop stays within the array and its result is a permutation. *)
Theorem C77_order : forall (A : Type) seed (l : list A), count l < 2 ^ 32 ->
  exists l', shuffle (List.length l) seed l = Some l' /\ Permutation l l'.
Proof. intros A seed l H. apply P_Runner.shuffle_perm; [lia|exact H]. Qed.
Print Assumptions C77_order.

(** The project's test program: its tests contain EXPECT_ checks only. *)
Theorem C77_project : forall clock bodies times, List.length bodies = List.length project_tests -> List.length times = List.length project_tests ->
  Forall (Forall (fun e => exists b, e = Expect b)) bodies ->
  let ts := map (fun p => mktest (chars (fst p)) (fst (snd p)) (snd (snd p))) (combine project_tests (combine bodies times)) in
  exists out st, utest_main clock [] ts = Exit out st /\ (st = 0 <-> Forall (Forall (fun e => e = Expect true)) bodies).
Proof.
  intros clock bodies times Lb Lt F ts.
  assert (Lc : List.length (combine project_tests (combine bodies times)) = List.length project_tests)
    by (rewrite !combine_length, Lb, Lt; apply PeanoNat.Nat.min_id || (rewrite PeanoNat.Nat.min_id; apply PeanoNat.Nat.min_id)).
  assert (Inb : forall t, In t ts -> In (body t) bodies /\ In (name t) (map chars project_tests)).
  { intros t Ht. apply in_map_iff in Ht as ([n [b d]] & <- & H). apply in_combine_l in H as Hn. apply in_combine_r in H as Hb. apply in_combine_l in Hb.
    split; [exact Hb|]. cbn [name fst]. now apply (in_map chars). }
  assert (Nb : forall b, In b bodies -> exists t, In t ts /\ body t = b).
  { intros b Hb. apply (In_nth _ _ []) in Hb as (i & Hi & <-).
    exists (mktest (chars (nth i project_tests ""%string)) (nth i bodies []) (nth i times 0)). split; [|reflexivity].
    apply in_map_iff. exists (nth i project_tests ""%string, (nth i bodies [], nth i times 0)). split; [reflexivity|].
    rewrite <- (combine_nth bodies times i [] 0) by (now rewrite Lb, Lt).
    rewrite <- (combine_nth project_tests (combine bodies times) i ""%string ([], 0)) by (rewrite combine_length, Lb, Lt; symmetry; apply PeanoNat.Nat.min_id).
    apply nth_In. rewrite Lc, <- Lb. exact Hi. }
  rewrite Forall_forall in F.
  assert (Fe : forall t e, In t ts -> e <> Expect true -> e <> Expect false -> ~ reaches (body t) e).
  { intros t e Ht N1 N2 (pre & post & E & _). pose proof (F (body t) (proj1 (Inb t Ht))) as G. rewrite Forall_forall in G.
    destruct (G e) as (b & ->); [rewrite E; apply in_app_iff; right; now left|]. destruct b; congruence. }
  destruct (P_Runner2.main_status clock [] ts no_options eq_refl I) as (out & st & E & S).
  - unfold count, ts. rewrite map_length, Lc. vm_compute. reflexivity.
  - apply Forall_forall. intros t Ht. split.
    + destruct (Inb t Ht) as [_ Hn]. unfold c_string. assert (G : Forall (fun s => ~ In NUL s) (map chars project_tests)).
      { apply Forall_forall. intros s Hs HN. assert (D : forallb (fun s => negb (existsb (Ascii.eqb NUL) s)) (map chars project_tests) = true) by (vm_compute; reflexivity).
        rewrite forallb_forall in D. specialize (D s Hs). apply negb_true_iff in D. assert (existsb (Ascii.eqb NUL) s = true); [|congruence].
        apply existsb_exists. exists NUL. split; [exact HN|reflexivity]. }
      rewrite Forall_forall in G. now apply G.
    + intros _. split; [apply Fe; [exact Ht|discriminate..]|]. split; [apply Fe; [exact Ht|discriminate..]|]. now left.
  - exists out, st. split; [exact E|]. rewrite S. split.
    + intros H. apply Forall_forall. intros b Hb. destruct (Nb b Hb) as (t & Ht & <-). apply Forall_forall. intros e He.
      pose proof (F (body t) (proj1 (Inb t Ht))) as G. rewrite Forall_forall in G. destruct (G e He) as ([|] & ->); [reflexivity|exfalso].
      apply (H t Ht eq_refl). left. apply in_split in He as (pre & post & Es). exists pre, post. split; [exact Es|].
      apply Forall_forall. intros x Hx. destruct (G x) as ([|] & ->); [rewrite Es; apply in_app_iff; now left|auto|auto].
    + intros H t Ht _ W. rewrite Forall_forall in H. pose proof (H (body t) (proj1 (Inb t Ht))) as G. rewrite Forall_forall in G.
      destruct W as [W|[W|W]].
      * destruct W as (pre & post & Es & _). specialize (G (Expect false)). rewrite Es in G. assert (X : Expect false = Expect true) by (apply G; apply in_app_iff; right; now left). discriminate.
      * apply (Fe t (Assert false) Ht) in W; [exact W|discriminate|discriminate].
      * apply (Fe t Throw Ht) in W; [exact W|discriminate|discriminate].
Qed.
Print Assumptions C77_project.

(** A run of three tests, of which the second fails and the third is skipped. *)
Example C77_example :
  let ts := [mktest (chars "a.x") [Expect true; Assert true] 5; mktest (chars "a.y") [Expect false; Expect true] 20000; mktest (chars "b.z") [Skip] 1] in
  parse 0 no_options [chars "--enable-mixed-units"; chars "--filter=a.*"; chars "--other"] = Options (mkoptions (Some (chars "a.*")) true None) /\
  utest_main 0 [chars "--enable-mixed-units"; chars "--filter=a.*"] ts
  = Exit [Running 2; Run (chars "a.x"); Ended Passed (chars "a.x") 5 "ns"; Run (chars "a.y"); Ended Failure (chars "a.y") 20 "us";
          Ran 2; PassedCount 1; FailedCount 1; FailedName (chars "a.y")] 1 /\
  utest_main 0 [] ts
  = Exit [Running 3; Run (chars "a.x"); Ended Passed (chars "a.x") 5 "ns"; Run (chars "a.y"); Ended Failure (chars "a.y") 20000 "ns";
          Run (chars "b.z"); Ended Skipped (chars "b.z") 1 "ns"; Ran 3; PassedCount 1; SkippedCount 1; SkippedName (chars "b.z"); FailedCount 1; FailedName (chars "a.y")] 1 /\
  utest_main 0 [chars "--list-tests"] ts = Exit [Name (chars "a.x"); Name (chars "a.y"); Name (chars "b.z")] 0 /\
  parse 7 no_options (map spelled [OnlyTests (chars "x"); OrderFrom [4; 2]%nat; OnlyTests (chars "v*")]) = Options (mkoptions (Some (chars "v*")) false (Some 42)) /\
  shuffle 5 42 [0; 1; 2; 3; 4]%nat <> Some [0; 1; 2; 3; 4]%nat.
Proof. cbv zeta. repeat split; try (vm_compute; reflexivity). vm_compute. discriminate. Qed.

(** ** C78 Selecting tests by name *)

(** The loops end and stay within both strings; a test that is run matches the pattern. *)
Theorem C78_sound : forall f n, c_string f -> c_string n ->
  exists out, should_filter (Some f) n = Answer out /\ (out = false -> glob f n).
Proof. exact P_Runner.filter_sound. Qed.
Print Assumptions C78_sound.

(** A pattern without star selects that name and no other. *)
Theorem C78_name : forall f n, c_string f -> c_string n -> ~ In star f -> (should_filter (Some f) n = Answer false <-> n = f).
Proof. exact P_Runner.filter_exact. Qed.
Print Assumptions C78_name.

(** A pattern with a star at its end selects the names that begin with it and go on. *)
Theorem C78_prefix : forall p n, c_string p -> c_string n -> ~ In star p ->
  (should_filter (Some (p ++ [star])) n = Answer false <-> exists a r, n = p ++ a :: r).
Proof. exact P_Runner.filter_prefix. Qed.
Print Assumptions C78_prefix.

(** But some names that match are left out: nothing for a star at the end to stand for, or the text after a star occurs
    twice.  Both happen with tests of the project. *)
Theorem C78_complete_refuted :
  (exists f n, In n (map chars project_tests) /\ f = chars "vadd.s8*" /\ glob f n /\ should_filter (Some f) n = Answer true) /\
  (exists f n, In n (map chars project_tests) /\ f = chars "*sub" /\ glob f n /\ should_filter (Some f) n = Answer true) /\
  (exists f n, f = chars "*ab" /\ n = chars "aab" /\ glob f n /\ should_filter (Some f) n = Answer true).
Proof.
  split; [|split].
  - exists (chars "vadd.s8*"), (chars "vadd.s8"). split; [apply in_map; cbn; tauto|]. split; [reflexivity|]. split; [|reflexivity].
    cbn. repeat (apply glob_char; [discriminate|]). exact (glob_star [] [] [] glob_nil).
  - exists (chars "*sub"), (chars "sub.vsub"). split; [apply in_map; cbn; tauto|]. split; [reflexivity|]. split; [|reflexivity].
    exact (glob_star (chars "sub.v") (chars "sub") (chars "sub") ltac:(repeat (apply glob_char; [discriminate|]); apply glob_nil)).
  - exists (chars "*ab"), (chars "aab"). split; [reflexivity|]. split; [reflexivity|]. split; [|reflexivity].
    exact (glob_star (chars "a") (chars "ab") (chars "ab") ltac:(repeat (apply glob_char; [discriminate|]); apply glob_nil)).
Qed.
Print Assumptions C78_complete_refuted.

(** The names --list-tests prints can be passed to --filter: of the project's tests exactly the one named is run. *)
Theorem C78_project : forall n, In n project_tests -> forall clock ts, map name ts = map chars project_tests ->
  parse clock no_options [chars ("--filter=" ++ n)] = Options (mkoptions (Some (chars n)) false None) /\
  map name (filter (is_selected (Some (chars n))) ts) = [chars n].
Proof.
  intros n Hn clock ts Hts.
  assert (D : forallb (fun n => match filter (fun s => match should_filter (Some (chars n)) s with Answer false => true | _ => false end) (map chars project_tests) with
                                | [s] => if list_eq_dec ascii_dec s (chars n) then true else false | _ => false end) project_tests = true) by (vm_compute; reflexivity).
  rewrite forallb_forall in D. specialize (D n Hn). split.
  - cbn in Hn. repeat (destruct Hn as [<-|Hn]; [reflexivity|]). contradiction.
  - assert (E : map name (filter (is_selected (Some (chars n))) ts)
      = filter (fun s => match should_filter (Some (chars n)) s with Answer false => true | _ => false end) (map name ts)).
    { clear. induction ts as [|t ts IH]; [reflexivity|]. cbn [filter map]. unfold is_selected at 1. destruct (should_filter (Some (chars n)) (name t)) as [[]| |]; cbn [map]; now rewrite IH. }
    rewrite E, Hts. destruct (filter _ (map chars project_tests)) as [|s [|? ?]]; try discriminate.
    destruct (list_eq_dec ascii_dec s (chars n)) as [->|]; [reflexivity|discriminate].
Qed.
Print Assumptions C78_project.

Example C78_example :
  should_filter (Some (chars "v*.u8")) (chars "vaddl.u8") = Answer false /\ should_filter (Some (chars "*q*32")) (chars "vmulq_n.f32") = Answer false /\
  should_filter (Some (chars "v*.u8")) (chars "sub.vsub") = Answer true /\ should_filter (Some []) (chars "sub.vsub") = Answer true /\
  c_string (chars "v*.u8") /\ ~ In star (chars "vaddl.u8").
Proof. repeat split; try (vm_compute; reflexivity); vm_compute; intros H; repeat (destruct H as [H|H]; [discriminate|]); exact H. Qed.
