(** C87: the memory of the test runner (tests/utest.h). *)
From Coq Require Import ZArith String Ascii List Bool Lia.
From Verif Require Import Runner Alloc AllocSpec.
From Verif Require P_Alloc.
Import ListNotations.
Open Scope nat_scope.

(** If the allocations succeed, every test made with UTEST or UTEST_I is run once, in order of registration and with its own index; the names of the skipped and
    of the failed tests are listed, whole and in order; and nothing stays allocated. *)
Theorem C87_runs_partial : forall o outcome rs, Forall index_ok rs -> succeed o (allocations outcome rs) -> Forall (fun r => r_kind r <> Fixture) rs ->
  program o outcome rs = Some (mkreport (map (run_of outcome) rs) (map title (with_verdict outcome Skipped rs)) (map title (with_verdict outcome Failure rs)) 0).
Proof. exact P_Alloc.program_good. Qed.
Print Assumptions C87_runs_partial.

(** These are the only runs that are defined. *)
Theorem C87_defined : forall o outcome rs, Forall index_ok rs ->
  ((exists rep, program o outcome rs = Some rep) <-> succeed o (allocations outcome rs) /\ Forall (fun r => r_kind r <> Fixture) rs).
Proof. exact P_Alloc.program_iff. Qed.
Print Assumptions C87_defined.

(** Whichever allocation fails, the run is undefined, although the code looks for failed allocations in three places. *)
Theorem C87_exhausted_refuted : forall o outcome rs k, Forall index_ok rs -> k < allocations outcome rs -> o k = false -> program o outcome rs = None.
Proof. exact P_Alloc.program_exhausted. Qed.
Print Assumptions C87_exhausted_refuted.

(** A test made with UTEST_F makes the run undefined: its index is read and has not been written. *)
Theorem C87_fixture_refuted : forall o outcome rs, Forall index_ok rs -> Exists (fun r => r_kind r = Fixture) rs -> program o outcome rs = None.
Proof. exact P_Alloc.program_fixture. Qed.
Print Assumptions C87_fixture_refuted.

(** The tests of UTEST_I have different names. *)
Theorem C87_indexed : forall name f n, (Z.of_nat n < 2 ^ 64)%Z -> NoDup (map title (indexed name f n)) /\ Forall index_ok (indexed name f n).
Proof. exact P_Alloc.indexed_names. Qed.
Print Assumptions C87_indexed.

(** A plain test and three indexed tests, of which one fails and one is skipped: ten allocations; each of them matters. *)
Definition some_tests : list reg := mkreg Plain (chars "a.b") 0 :: indexed (chars "c.d") 1 3.
Definition some_outcome (f i : nat) : verdict := match f, i with 1, 1 => Failure | 1, 2 => Skipped | _, _ => Passed end.
Example C87_example :
  allocations some_outcome some_tests = 10 /\
  program (fun _ => true) some_outcome some_tests =
    Some (mkreport [(chars "a.b", 0, 0, Passed); (chars "c.d/0", 1, 0, Passed); (chars "c.d/1", 1, 1, Failure); (chars "c.d/2", 1, 2, Skipped)]
                   [chars "c.d/2"] [chars "c.d/1"] 0) /\
  program (fun k => negb (Nat.eqb k 3)) some_outcome some_tests = None /\
  program (fun k => negb (Nat.eqb k 9)) some_outcome some_tests = None /\
  (exists rep, program (fun k => negb (Nat.eqb k 10)) some_outcome some_tests = Some rep) /\
  program (fun _ => true) some_outcome (some_tests ++ [mkreg Fixture (chars "e.f") 2]) = None.
Proof. split; [reflexivity|]. split; [vm_compute; reflexivity|]. split; [vm_compute; reflexivity|]. split; [vm_compute; reflexivity|]. split; [|vm_compute; reflexivity]. eexists. vm_compute. reflexivity. Qed.
