(** The test runner of the test suite: tests/utest.h (a copy of a third-party header), as tests/test_util.cpp uses it
    through UTEST_MAIN.  Modelled: the checks, the loop over the tests, the selection by name, the order, the
    arguments, what is listed on standard output and the exit status.  Not modelled: colours, the text of failed
    checks, the XML file of --output (Xml.v), fixtures (UTEST_F, UTEST_I: Alloc.v); memory allocation is taken
    to succeed (Alloc.v). *)
From Coq Require Import ZArith String Ascii List Bool.
Import ListNotations.
Open Scope Z_scope.

(** ** Checks *)

(** What the body of a test does that the runner can notice, in order:
    utest.h:609-619 (EXPECT_TRUE), 577-595 (UTEST_EXPECT): a check that holds or not, after which the body goes on;
    utest.h:787-798 (ASSERT_TRUE), 753-772 (UTEST_ASSERT): a check after which the body returns if it does not hold;
    utest.h:544-549 (UTEST_SKIP): returns;
    an exception that leaves the body; a call of abort, as for a rejected lane number. *)
Inductive event := Expect (holds : bool) | Assert (holds : bool) | Skip | Throw | Die.

(** utest.h:103-105 *)
Inductive verdict := Passed | Failure | Skipped.

(** Running the body with *utest_result = [r]: utest.h:577-595, 609-619, 753-772, 787-798, 544-549; an exception: 1296-1304
    (try/catch).  [None]: the process has ended. *)
Fixpoint run_body (r : verdict) (body : list event) : option verdict :=
  match body with
  | [] => Some r
  | Expect true :: rest => run_body r rest
  | Expect false :: rest => run_body Failure rest
  | Assert true :: rest => run_body r rest
  | Assert false :: _ => Some Failure
  | Skip :: _ => Some Skipped
  | Throw :: _ => Some Failure
  | Die :: _ => None
  end.

(** utest.h:344-348 (utest_test_state_s): a name and a function, here with the time the function takes, in ns. *)
Record test := mktest { name : list ascii; body : list event; duration : Z }.

(** ** Selection by name *)

Definition NUL : ascii := "000"%char.
Definition star : ascii := "*"%char.

(** A C string: the characters and, at the end of them, the character 0; no reading beyond. *)
Definition char_at (s : list ascii) (i : nat) : option ascii :=
  if (i <? List.length s)%nat then Some (nth i s NUL) else if (i =? List.length s)%nat then Some NUL else None.

(** A run of the function: its result (0 or 1 in C), a read outside a string, or a loop that has not ended. *)
Inductive answer := Answer (filtered_out : bool) | Outside | Unfinished.

(** The two loops of utest_should_filter_test (utest.h:1065-1129).  [fc] and [tc] are the positions filter_cur and
    testcase_cur; [wild] is filter_wildcard, and says in which loop we are: [None] in the outer one (1072), [Some wc]
    in the inner one (1080) with the wildcard at [wc]. *)
Fixpoint filter_loop (fuel : nat) (f t : list ascii) (wild : option nat) (fc tc : nat) : answer :=
  match fuel with
  | O => Unfinished
  | S fuel' =>
      match char_at f fc, char_at t tc with
      | Some a, Some b =>
          let more := negb (Ascii.eqb a NUL) && negb (Ascii.eqb b NUL) in
          match wild with
          | None =>
              if more then
                if Ascii.eqb a star then filter_loop fuel' f t (Some fc) (S fc) tc     (* 1073-1078 *)
                else if negb (Ascii.eqb b a) then Answer true                           (* 1109-1111 *)
                else filter_loop fuel' f t None (S fc) (S tc)                           (* 1112-1116 *)
              else                                                                      (* 1120-1128 *)
                if negb (Ascii.eqb a NUL) then Answer true
                else if Ascii.eqb b NUL then Answer false
                else match fc with
                     | O => Answer true
                     | S p => match char_at f p with
                              | Some l => Answer (negb (Ascii.eqb l star))
                              | None => Outside
                              end
                     end
          | Some wc =>
              if more then
                if Ascii.eqb a star then                                                (* 1081-1087: break *)
                  filter_loop fuel' f t None fc tc
                else if negb (Ascii.eqb a b) then filter_loop fuel' f t (Some wc) (S wc) (S tc)   (* 1088-1097 *)
                else filter_loop fuel' f t (Some wc) (S fc) (S tc)
              else if Ascii.eqb a NUL && Ascii.eqb b NUL then Answer false              (* 1100-1102 *)
              else if Ascii.eqb b NUL then Answer true                                  (* 1105-1107 *)
              else filter_loop fuel' f t None fc tc
          end
      | _, _ => Outside
      end
  end.

(** More turns than the loops can take ([filter_terminates]). *)
Definition turns (f t : list ascii) : nat := (List.length t + 1) * (2 * List.length f + 4).

(** utest_should_filter_test: utest.h:1065-1129.  [None] is the null pointer. *)
Definition should_filter (filter : option (list ascii)) (t : list ascii) : answer :=
  match filter with
  | None => Answer false
  | Some f => filter_loop (turns f t) f t None 0 0
  end.

(** ** Order *)

Definition u32 (z : Z) : Z := z mod 2 ^ 32.

(** copy = a[i]; a[i] = a[j]; a[j] = copy: utest.h:1246-1248.  [None]: outside the array. *)
Definition swap {A} (l : list A) (i j : nat) : option (list A) :=
  match nth_error l i, nth_error l j with
  | Some x, Some y => Some (map (fun k => if (k =? j)%nat then x else if (k =? i)%nat then y else nth k l x) (seq 0 (List.length l)))
  | _, _ => None
  end.

(** utest.h:1239-1243: the position to swap with, one of [index].  [None]: division by zero. *)
Definition pick (seed : Z) (index : nat) : option nat :=
  let word := u32 (Z.lxor (Z.shiftr seed (Z.shiftr seed 28 + 4)) seed * 277803737) in
  if u32 (Z.of_nat index) =? 0 then None else Some (Z.to_nat (Z.lxor (Z.shiftr word 22) word mod u32 (Z.of_nat index))).

(** for (index = tests_length; index > 1; index--): utest.h:1234-1253 *)
Fixpoint shuffle {A} (index : nat) (seed : Z) (l : list A) : option (list A) :=
  match index with
  | S (S _ as index') =>
      match pick seed index with
      | Some next => match swap l index' next with
                     | Some l' => shuffle index' (u32 (seed * 747796405 + 2891336453)) l'
                     | None => None
                     end
      | None => None
      end
  | _ => Some l
  end.

(** ** Arguments *)

(** 0 == strncmp(arg, prefix, strlen(prefix)) *)
Fixpoint starts_with (prefix arg : list ascii) : bool :=
  match prefix, arg with
  | [], _ => true
  | a :: p, b :: s => Ascii.eqb a b && starts_with p s
  | _, [] => false
  end.

Definition chars (s : string) : list ascii := list_ascii_of_string s.

Record options := mkoptions { opt_filter : option (list ascii); opt_mixed : bool; opt_seed : option Z }.

Inductive arguments := Options (o : options) | Help | ListTests.

(** strtoul(s, NULL, 10) of a number without sign or leading spaces, as a 32-bit number; the model stops at the first
    other character, and does not model the saturation of numbers beyond 2^64. *)
Fixpoint number (acc : Z) (s : list ascii) : Z :=
  match s with
  | a :: rest => let d := Z.of_nat (nat_of_ascii a) - 48 in if (0 <=? d) && (d <=? 9) then number (acc * 10 + d) rest else acc
  | [] => acc
  end.

(** utest.h:1169-1232.  [clock] is the seed made from the time.  --output= is accepted and not modelled further. *)
Fixpoint parse (clock : Z) (o : options) (args : list (list ascii)) : arguments :=
  match args with
  | [] => Options o
  | a :: rest =>
      if starts_with (chars "--help") a then Help
      else if starts_with (chars "--filter=") a then parse clock (mkoptions (Some (skipn 9 a)) (opt_mixed o) (opt_seed o)) rest
      else if starts_with (chars "--output=") a then parse clock o rest
      else if starts_with (chars "--list-tests") a then ListTests
      else if starts_with (chars "--enable-mixed-units") a then parse clock (mkoptions (opt_filter o) true (opt_seed o)) rest
      else if starts_with (chars "--random-order=") a then parse clock (mkoptions (opt_filter o) (opt_mixed o) (Some (u32 (number 0 (skipn 15 a))))) rest
      else if starts_with (chars "--random-order") a then parse clock (mkoptions (opt_filter o) (opt_mixed o) (Some (u32 clock))) rest
      else parse clock o rest
  end.

(** ** The loop over the tests *)

(** The lines of the report. *)
Inductive line :=
| Usage                                             (* utest.h:1182-1195 *)
| Name (n : list ascii)                             (* 1206 *)
| Running (count : Z)                               (* 1263 *)
| Run (n : list ascii)                              (* 1284 *)
| Ended (v : verdict) (n : list ascii) (time : Z) (unit : string) (* 1351-1363 *)
| Ran (count : Z)                                   (* 1367 *)
| PassedCount (count : Z)                           (* 1369 *)
| SkippedCount (count : Z) | SkippedName (n : list ascii)   (* 1372-1379 *)
| FailedCount (count : Z) | FailedName (n : list ascii).    (* 1381-1388 *)

(** units[], utest.h:1337; the fifth element is the null pointer. *)
Definition units : list string := ["ns"; "us"; "ms"; "s"]%string.

(** utest.h:1341-1349: for (unit_index = 0; units[unit_index]; unit_index++) { if (10000 > time) break; time /= 1000; } *)
Fixpoint scale (todo : nat) (unit_index : nat) (time : Z) : nat * Z :=
  match todo with
  | O => (unit_index, time)
  | S todo' => if 10000 >? time then (unit_index, time) else scale todo' (S unit_index) (Z.quot time 1000)
  end.
Definition shown (mixed : bool) (time : Z) : nat * Z := if mixed then scale (List.length units) 0 time else (0%nat, time).

(** What becomes of the process: it ends with a status, or is ended by abort, or a null pointer is printed with %s, or
    memory outside a string or array is accessed (or a division by zero made). *)
Inductive result := Exit (out : list line) (status : Z) | Killed | NullPrinted | ReadOutside | Endless.

(** The state of the loop: utest.h:1146-1152.  The lists are the arrays failed_testcases and skipped_testcases, of
    positions in the array of tests. *)
Record tally := mktally { lines : list line; failed : Z; skipped : Z; failed_list : list nat; skipped_list : list nat }.

Definition u64 (z : Z) : Z := z mod 2 ^ 64.

(** The test at position [index], which is run: utest.h:1284-1364 *)
Definition run_test (mixed : bool) (s : tally) (index : nat) (t : test) (k : tally -> result) : result :=
  match run_body Passed (body t) with
  | None => Killed
  | Some v =>
      let s1 := match v with
                | Failure => mktally (lines s) (u64 (failed s + 1)) (skipped s) (failed_list s ++ [index]) (skipped_list s)
                | Skipped => mktally (lines s) (failed s) (u64 (skipped s + 1)) (failed_list s) (skipped_list s ++ [index])
                | Passed => s
                end in
      let (ui, time) := shown mixed (duration t) in
      match nth_error units ui with
      | Some u => k (mktally (lines s ++ [Run (name t); Ended v (name t) time u]) (failed s1) (skipped s1) (failed_list s1) (skipped_list s1))
      | None => NullPrinted
      end
  end.

(** for (index = 0; index < tests_length; index++) { if (utest_should_filter_test(...)) continue; ... }: 1276-1365 *)
Fixpoint run_tests (filter : option (list ascii)) (mixed : bool) (s : tally) (index : nat) (ts : list test) (k : tally -> result) : result :=
  match ts with
  | [] => k s
  | t :: rest =>
      match should_filter filter (name t) with
      | Answer true => run_tests filter mixed s (S index) rest k
      | Answer false => run_test mixed s index t (fun s' => run_tests filter mixed s' (S index) rest k)
      | Outside => ReadOutside
      | Unfinished => Endless
      end
  end.

(** The loop that counts the tests to run: utest.h:1255-1261 *)
Fixpoint count_tests (filter : option (list ascii)) (n : Z) (ts : list test) (k : Z -> result) : result :=
  match ts with
  | [] => k n
  | t :: rest =>
      match should_filter filter (name t) with
      | Answer true => count_tests filter n rest k
      | Answer false => count_tests filter (u64 (n + 1)) rest k
      | Outside => ReadOutside
      | Unfinished => Endless
      end
  end.

(** UTEST_CAST(int, failed) (utest.h:1407), and what the parent process sees of the value that main returns on a POSIX system. *)
Definition to_int (z : Z) : Z := (z + 2 ^ 31) mod 2 ^ 32 - 2 ^ 31.
Definition exit_status (z : Z) : Z := to_int z mod 256.

(** for (index = 0; index < length; index++) printf("...", tests[list[index]].name): utest.h:1375-1378, 1384-1387.  The
    model goes through the list before it looks whether the count is 0, in which case the list is empty. *)
Fixpoint names_at (make : list ascii -> line) (ts : list test) (l : list nat) (k : list line -> result) : result :=
  match l with
  | [] => k []
  | i :: rest => match nth_error ts i with
                 | Some t => names_at make ts rest (fun out => k (make (name t) :: out))
                 | None => ReadOutside
                 end
  end.

(** utest_main: utest.h:1145-1408.  [ts] are the tests in the order in which they are registered (UTEST, 912-937: each
    registration appends one). *)
Definition utest_main (clock : Z) (args : list (list ascii)) (ts : list test) : result :=
  match parse clock (mkoptions None false None) args with
  | Help => Exit [Usage] 0
  | ListTests => Exit (map (fun t => Name (name t)) ts) 0
  | Options o =>
      match (match opt_seed o with Some seed => shuffle (List.length ts) seed ts | None => Some ts end) with
      | None => ReadOutside
      | Some ts =>
      count_tests (opt_filter o) 0 ts (fun ran =>
      run_tests (opt_filter o) (opt_mixed o) (mktally [Running ran] 0 0 [] []) 0 ts (fun s =>
      names_at SkippedName ts (skipped_list s) (fun sk =>
      names_at FailedName ts (failed_list s) (fun fl =>
      Exit (lines s ++ [Ran ran; PassedCount (u64 (ran - failed s - skipped s))]
            ++ (if skipped s =? 0 then [] else SkippedCount (skipped s) :: sk)
            ++ (if failed s =? 0 then [] else FailedCount (failed s) :: fl))
           (exit_status (failed s))))))
      end
  end.

(** ** The tests of the project *)

(** The names TEST(set, name) makes, in the order of the files: tests/test_*.cpp *)
Definition project_tests : list string :=
  [ "array.lane"; "vcltq.f32"; "vaddq.f32"; "vadd.s8"; "vadd.s8_exceed"; "vadd.u8"; "vaddhn_high_s16.normal";
    "vaddl.u8"; "vaddl_high.s8"; "vaddw_high.s8"; "vaddw.s8"; "vand.u8"; "vext.u8"; "vget.low_s8"; "sub.vhsub";
    "vld1q.f32"; "vld1q_dup.f32"; "vmaxq.f32"; "vpmax.f32"; "vminq.f32"; "vpmin.f32"; "vmlaq.f32"; "vmlaq_n.f32";
    "vmovq_n.f32"; "vmulq.f32"; "vmulq_n.f32"; "vmul.s8"; "mul.vmul_n_s16"; "sub.vqsub"; "vrecpeq.f32";
    "vrecpeq.f32_more_precise"; "vrev16.u8"; "vrev32.u8"; "vrev64.u8"; "sub.vrsubhn"; "vst1q.f32";
    "vst4q_lane.f32"; "sub.vsub"; "sub.vsubhn"; "sub.vsubl"; "sub.vsubw"; "vtbl1.u8"; "vtbl2.u8"; "vtrn.u8";
    "vuzp.u8"; "vzip.u8" ]%string.
