(** The memory of the test runner (tests/utest.h): registration of tests by UTEST, UTEST_F and UTEST_I, the lists of failed and skipped tests, and what is
    freed at the end, when any allocation may fail.

    Every block has one owner, so that a pointer to a block is modelled by the content of the block, and the null pointer by [None]; [live] is
    the number of blocks that were allocated and not freed.  Left out, as they do not allocate: the filter, the order, the XML file and
    the texts that are printed (Runner.v, Xml.v). *)
From Coq Require Import ZArith String Ascii List Bool.
From Verif Require Import Runner Xml.
From Verif Require Helper.
Import ListNotations.
Open Scope Z_scope.

(** ** Blocks *)

(** struct utest_test_state_s (utest.h:344-348).  The outer [option]: [None] if the member has not been written.  The pointer [c_name]: the null pointer or
    a block with a string. *)
Record cell := mkcell { c_func : option nat; c_index : option nat; c_name : option (option text) }.
Definition blank : cell := mkcell None None None.

(** Which allocation succeeds: the n-th one in the run of the program. *)
Definition supply := nat -> bool.
(** The number of allocations tried, and of blocks that are allocated. *)
Record mem := mkmem { calls : nat; live : Z }.

(** malloc: whether it succeeds. *)
Definition malloc (o : supply) (m : mem) : bool * mem :=
  if o (calls m) then (true, mkmem (S (calls m)) (live m + 1)) else (false, mkmem (S (calls m)) (live m)).

(** utest_realloc (utest.h:297-305), to [n] elements.  If it fails the old block stays allocated (free is called for the null pointer). *)
Definition realloc {A} (fresh : A) (o : supply) (m : mem) (p : option (list A)) (n : nat) : option (list A) * mem :=
  if o (calls m)
  then match p with
       | None => (Some (repeat fresh n), mkmem (S (calls m)) (live m + 1))
       | Some l => (Some (firstn n l ++ repeat fresh (n - List.length l)), mkmem (S (calls m)) (live m))
       end
  else (None, mkmem (S (calls m)) (live m)).

(** free *)
Definition free {A} (m : mem) (p : option A) : mem := match p with Some _ => mkmem (calls m) (live m - 1) | None => m end.

(** p[i] = x; [None]: undefined (null pointer, or outside the block). *)
Fixpoint replace {A} (i : nat) (x : A) (l : list A) : option (list A) :=
  match l, i with
  | [], _ => None
  | _ :: r, O => Some (x :: r)
  | a :: r, S i => option_map (cons a) (replace i x r)
  end.
Definition store {A} (p : option (list A)) (i : nat) (x : A) : option (list A) :=
  match p with Some l => replace i x l | None => None end.

(** ** Registration *)

(** UTEST(SET, NAME), UTEST_F(FIXTURE, NAME), and one turn of the loop of UTEST_I(FIXTURE, NAME, INDEX): the name and the function. *)
Inductive kind := Plain | Fixture | Indexed (i : nat).
Record reg := mkreg { r_kind : kind; r_name : text; r_func : nat }.

(** The name that is printed: utest.h:934, 985 ("%s") and 1029 ("%s/%llu"). *)
Definition title (r : reg) : text :=
  match r_kind r with Indexed i => r_name r ++ chars "/" ++ Helper.digits 64 10 (Z.of_nat i) [] | _ => r_name r end.
(** The size of the block: utest.h:922, 976, 1020. *)
Definition name_size (r : reg) : nat := match r_kind r with Indexed _ => List.length (r_name r) + 32 | _ => List.length (r_name r) + 1 end.
(** What snprintf writes to a block of this size, without the NUL. *)
Definition snprintf (size : nat) (t : text) : text := firstn (size - 1) t.

(** The tests that UTEST_I(FIXTURE, NAME, n) registers (utest.h:1014-1031). *)
Definition indexed (name : text) (f n : nat) : list reg := map (fun i => mkreg (Indexed i) name f) (seq 0 n).

(** utest_state (utest.h:350-354) *)
Record state := mkstate { tests : option (list cell); tests_length : nat; memory : mem }.
Definition start : state := mkstate None 0 (mkmem 0 0).

(** The body of UTEST_INITIALIZER: utest.h:919-935 (UTEST), 973-986 (UTEST_F), 1016-1030 (UTEST_I).  [None]: undefined; in particular
    snprintf to the null pointer.  UTEST alone tests whether the array could be allocated; UTEST_F does not write the member index. *)
Definition register (o : supply) (s : state) (r : reg) : option state :=
  let index := tests_length s in
  let (named, m1) := malloc o (memory s) in
  let (t, m2) := realloc blank o m1 (tests s) (S index) in
  let c := mkcell (Some (r_func r)) (match r_kind r with Plain => Some O | Fixture => None | Indexed i => Some i end)
                  (Some (if named then Some (snprintf (name_size r) (title r)) else None)) in
  match (match t, r_kind r with None, Plain => Some None | _, _ => option_map Some (store t index c) end) with
  | None => None
  | Some t' => if named then Some (mkstate t' (S index) m2) else None
  end.

Fixpoint register_all (o : supply) (s : state) (rs : list reg) : option state :=
  match rs with
  | [] => Some s
  | r :: rest => match register o s r with Some s' => register_all o s' rest | None => None end
  end.

(** ** Running *)

(** tests[i]: its name, function and index; [None]: undefined (no array, outside of it, not written, or no name). *)
Definition fetch (s : state) (i : nat) : option (text * nat * nat) :=
  match tests s with
  | Some l =>
      match nth_error l i with
      | Some (mkcell (Some f) (Some j) (Some (Some name))) => Some (name, f, j)
      | _ => None
      end
  | None => None
  end.

(** failed_testcases and skipped_testcases (utest.h:1316-1334): an element is [None] if it has not been written. *)
Definition indices := option (list (option nat)).
Definition record (o : supply) (m : mem) (p : indices) (n : nat) (i : nat) : option (indices * mem) :=
  let (q, m1) := realloc None o m p (S n) in
  match q with
  | None => Some (None, m1)
  | Some _ => match store q n (Some i) with Some l => Some (Some l, m1) | None => None end
  end.

(** The loop over the tests (utest.h:1276-1365); [outcome]: the verdict of a function for an index.  What was run is remembered in [log]. *)
Record running := mkrunning { log : list (text * nat * nat * verdict); bad : indices; bad_n : nat; skip : indices; skip_n : nat; rmem : mem }.
Fixpoint run_loop (o : supply) (outcome : nat -> nat -> verdict) (s : state) (todo i : nat) (r : running) : option running :=
  match todo with
  | O => Some r
  | S todo =>
      match fetch s i with
      | None => None
      | Some (name, f, j) =>
          let entry := log r ++ [(name, f, j, outcome f j)] in
          match outcome f j with
          | Passed => run_loop o outcome s todo (S i) (mkrunning entry (bad r) (bad_n r) (skip r) (skip_n r) (rmem r))
          | Failure =>
              match record o (rmem r) (bad r) (bad_n r) i with
              | Some (b, m) => run_loop o outcome s todo (S i) (mkrunning entry b (S (bad_n r)) (skip r) (skip_n r) m)
              | None => None
              end
          | Skipped =>
              match record o (rmem r) (skip r) (skip_n r) i with
              | Some (b, m) => run_loop o outcome s todo (S i) (mkrunning entry (bad r) (bad_n r) b (S (skip_n r)) m)
              | None => None
              end
          end
      end
  end.

(** The lists at the end (utest.h:1372-1388): tests[list[j]].name for j < n. *)
Fixpoint names (s : state) (p : indices) (n j : nat) : option (list text) :=
  match n with
  | O => Some []
  | S n =>
      match p with
      | Some l =>
          match nth_error l j with
          | Some (Some i) =>
              match fetch s i with
              | Some (name, _, _) => option_map (cons name) (names s p n (S j))
              | None => None
              end
          | _ => None
          end
      | None => None
      end
  end.

(** cleanup (utest.h:1395-1401) *)
Fixpoint free_names (s : state) (n i : nat) (m : mem) : option mem :=
  match n with
  | O => Some m
  | S n =>
      match tests s with
      | Some l => match nth_error l i with Some (mkcell _ _ (Some p)) => free_names s n (S i) (free m p) | _ => None end
      | None => None
      end
  end.

(** The program: registration before main, then utest_main without arguments.  [None]: undefined behaviour. *)
Record report := mkreport { r_log : list (text * nat * nat * verdict); r_skipped : list text; r_failed : list text; r_live : Z }.
Definition program (o : supply) (outcome : nat -> nat -> verdict) (rs : list reg) : option report :=
  match register_all o start rs with
  | None => None
  | Some s =>
      match run_loop o outcome s (tests_length s) 0 (mkrunning [] None 0 None 0 (memory s)) with
      | None => None
      | Some r =>
          match names s (skip r) (skip_n r) 0, names s (bad r) (bad_n r) 0 with
          | Some sk, Some fl =>
              match free_names s (tests_length s) 0 (rmem r) with
              | Some m => Some (mkreport (log r) sk fl (live (free (free (free m (skip r)) (bad r)) (tests s))))
              | None => None
              end
          | _, _ => None
          end
      end
  end.
