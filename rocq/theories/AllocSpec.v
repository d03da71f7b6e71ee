(** What the test program should do with its memory.  Nothing here is code of neon_sim. *)
From Coq Require Import ZArith String Ascii List Bool.
From Verif Require Import Runner Alloc.
Import ListNotations.
Local Open Scope nat_scope.

(** The index a test is run with. *)
Definition index_of (r : reg) : nat := match r_kind r with Indexed i => i | _ => 0 end.
(** The index is a size_t. *)
Definition index_ok (r : reg) : Prop := (Z.of_nat (index_of r) < 2 ^ 64)%Z.
Definition verdict_at (outcome : nat -> nat -> verdict) (r : reg) : verdict := outcome (r_func r) (index_of r).
(** The run of a test: its name, its function, its index and the verdict. *)
Definition run_of (outcome : nat -> nat -> verdict) (r : reg) := (title r, r_func r, index_of r, verdict_at outcome r).
(** The tests with a verdict. *)
Definition with_verdict (outcome : nat -> nat -> verdict) (v : verdict) (rs : list reg) : list reg :=
  filter (fun r => match verdict_at outcome r, v with Failure, Failure | Skipped, Skipped | Passed, Passed => true | _, _ => false end) rs.
(** The number of allocations: a name and an array for each test, and a list for each test that fails or is skipped. *)
Definition allocations (outcome : nat -> nat -> verdict) (rs : list reg) : nat :=
  2 * List.length rs + List.length (with_verdict outcome Failure rs) + List.length (with_verdict outcome Skipped rs).
(** The first [n] allocations succeed. *)
Definition succeed (o : supply) (n : nat) : Prop := forall k, k < n -> o k = true.
