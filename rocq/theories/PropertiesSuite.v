(** C79: the project's own test program. *)
From Coq Require Import ZArith String Ascii List Bool Lia Permutation.
From Verif Require Import Types Syntax Interp ProgRecip Library PropBase Suite Runner RunnerSpec SuiteSpec.
From Verif Require P_Suite SuiteSource.
Import ListNotations.
Open Scope Z_scope.

(** ** C79 The project's tests pass; what they do not call they do not test *)

(** The text of the test files is in the fragment that is modelled, and its tests are the 46 of [project_tests]. *)
Theorem C79_source : p_files SuiteSource.test_sources = Some suite /\ map fst suite = project_tests.
Proof. exact (conj P_Suite.suite_parsed P_Suite.suite_names). Qed.
Print Assumptions C79_source.

(** Every check of every test holds and none of them is undefined, whatever the compiler does about overflow and NaNs. *)
Theorem C79_checks : forall c p, In p suite -> exists n, test_events c (named library) (snd p) = Some (repeat (Expect true) (S n)).
Proof. exact P_Suite.suite_passes. Qed.
Print Assumptions C79_checks.

(** So the program ends with status 0 and reports that every selected test passed, for every order of registration and
    every command line, however long the tests take (below 10000 s with --enable-mixed-units: C77). *)
Theorem C79_program : forall c ts clock args o, linked c (named library) ts ->
  parse clock (mkoptions None false None) args = Options o -> c_filter (opt_filter o) ->
  Forall (fun t => opt_mixed o = false \/ duration t < 10 ^ 13) ts ->
  exists order, Permutation ts order /\ (opt_seed o = None -> order = ts) /\
    let sel := filter (is_selected (opt_filter o)) order in
    Forall (fun t => ends_with Passed t = true) sel /\ utest_main clock args ts = Exit (report (opt_mixed o) sel) 0.
Proof. intros c ts clock args o. apply P_Suite.program_passes. reflexivity. Qed.
Print Assumptions C79_program.

(** A test sees nothing of the library but the functions it calls. *)
Theorem C79_sees : forall c lib, (forall f, In f suite_calls -> lib f = named library f) ->
  forall p, In p suite -> test_events c lib (snd p) = test_events c (named library) (snd p).
Proof. intros c lib H. exact (P_Suite.suite_ext c lib (named library) H). Qed.
Print Assumptions C79_sees.

(** Passing tests tell nothing about most of the library: whatever the body of a function that no test calls, the status
    is 0.  The tests call 53 functions of the 539. *)
Theorem C79_coverage_refuted : forall g b, In g library -> ~ In (f_name g) suite_calls -> ~ In g helpers ->
  forall c ts clock args o, linked c (named (with_body (f_name g) b)) ts ->
  parse clock (mkoptions None false None) args = Options o -> c_filter (opt_filter o) ->
  Forall (fun t => opt_mixed o = false \/ duration t < 10 ^ 13) ts ->
  exists out, utest_main clock args ts = Exit out 0.
Proof. intros g b _ N _ c ts clock args o. exact (P_Suite.unused_unseen c (f_name g) b ts clock args o N). Qed.
Print Assumptions C79_coverage_refuted.

(** Each of these 53 is called indeed: if it aborted, so would a test. *)
Theorem C79_called : forall c f, In f suite_calls ->
  exists p l, In p suite /\ test_events c (named (with_body f SAbort)) (snd p) = Some l /\ In Die l.
Proof. exact P_Suite.used_seen. Qed.
Print Assumptions C79_called.

(** There are such test programs, and such functions: vst4_u8, whose write beyond the end of the array (C04) goes unnoticed;
    and a wrong vadd_s8 does not. *)
Example C79_example :
  (forall c time, linked c (named library) (P_Suite.program_of c (named library) time suite)) /\
  utest_main 0 [] (P_Suite.program_of strict (named library) 1000 suite) = Exit (report false (P_Suite.program_of strict (named library) 1000 suite)) 0 /\
  List.length suite_calls = 53%nat /\ List.length library = 539%nat /\
  existsb (String.eqb "vst4_u8") (map f_name library) = true /\ existsb (String.eqb "vst4_u8") suite_calls = false /\
  forallb (fun f => existsb (fun g => String.eqb (f_name g) f) library) suite_calls = true /\
  match named library "vsub_s8" with
  | Some g => test_events strict (named (with_body "vadd_s8" (f_body g))) (nth 3 (map snd suite) []) = Some [Expect false; Expect false]
  | None => False
  end.
Proof.
  split; [exact P_Suite.linked_program|]. split. vm_compute; reflexivity. split. vm_compute; reflexivity. split. vm_compute; reflexivity. split. vm_compute; reflexivity. split. vm_compute; reflexivity. split. vm_compute; reflexivity. vm_compute; reflexivity. Qed.
