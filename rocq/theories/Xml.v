(** The file that the test runner (tests/utest.h) writes with --output=, byte by byte.
    Modelled: the messages of all checks, which UTEST_PRINTF (utest.h:376-380) writes to the file too, the loop over the tests and what
    surrounds it.  The text is that of g++ (utest.h:575-595; clang++ prints the same).  Not modelled: files opened by an earlier --output=
    (they stay empty), write errors, the time of the tests. *)
From Coq Require Import ZArith String Ascii List Bool DecimalString.
From Verif Require Import Runner.
Import ListNotations.
Open Scope Z_scope.

Notation text := (list ascii).
Definition newline : text := ["010"%char].
Definition quote : text := ["034"%char].
Definition percent : ascii := "%"%char.

(** printf with %PRIu64: of a natural number *)
Definition digits (z : Z) : text := chars (NilZero.string_of_uint (N.to_uint (Z.to_N z))).

(** ** Checks *)

(** What is checked, with the texts that are printed when it does not hold:
    - EXPECT_TRUE and EXPECT_FALSE (utest.h:609-632): [again] is the value of the expression when it is evaluated once more, for the message;
    - EXPECT_EQ and so on (UTEST_EXPECT, 577-595): the operands and the operator as they are written in the source, and the
      operands' values as utest_type_printer (409-475) prints them;
    - EXPECT_STREQ and so on (641-686): the strings, or the part of them that is printed;
    - EXPECT_NEAR (688-700): the numbers as printf prints them;
    - EXPECT_EXCEPTION (702-723): the type, and whether there was another exception.
    The ASSERT_ macros (725-906) print the same. *)
Inductive check :=
| Truth (wanted again : bool)
| Compare (x cond y : text) (shown_x shown_y : text)
| Strings (x y : text)
| Near (x y : text)
| Exception (type : text) (other : bool).

(** [stop]: ASSERT_ instead of EXPECT_.  [file] and [line]: __FILE__ and __LINE__ as printed. *)
Inductive xevent :=
| Check (stop : bool) (k : check) (file line : text) (holds : bool)
| SkipWith (msg : text)
| ThrowOut
| DieNow.

(** The events of Runner.v. *)
Definition erase (e : xevent) : event :=
  match e with
  | Check false _ _ _ h => Expect h
  | Check true _ _ _ h => Assert h
  | SkipWith _ => Skip
  | ThrowOut => Throw
  | DieNow => Die
  end.

(** printf(s) with no further argument: a conversion specification other than %% has no argument to print, which is undefined
    (C11 7.21.6.1, 9).  [None]: undefined. *)
Fixpoint format (s : text) : option text :=
  match s with
  | [] => Some []
  | a :: rest =>
      if Ascii.eqb a percent then
        match rest with
        | b :: rest' => if Ascii.eqb b percent then option_map (cons percent) (format rest') else None
        | [] => None
        end
      else option_map (cons a) (format rest)
  end.

Definition yes_no (b : bool) : text := chars (if b then "true" else "false").

(** The message of a check that does not hold: utest.h:581-589 (Compare), 612-614, 624-626 (Truth), 644-646 (Strings), 693-695 (Near),
    713-717 (Exception). *)
Definition message (k : check) (file line : text) : option text :=
  let head := file ++ chars ":" ++ line ++ chars ": Failure" ++ newline in
  match k with
  | Truth wanted again =>
      Some (head ++ chars "  Expected : " ++ yes_no wanted ++ newline ++ chars "    Actual : " ++ yes_no again ++ newline)
  | Compare x cond y vx vy =>
      match format (x ++ chars ") " ++ cond ++ chars " (" ++ y) with
      | Some s => Some (head ++ chars "  Expected : (" ++ s ++ chars ")" ++ newline
                        ++ chars "    Actual : " ++ vx ++ chars " vs " ++ vy ++ newline)
      | None => None
      end
  | Strings x y =>
      Some (head ++ chars "  Expected : " ++ quote ++ x ++ quote ++ newline ++ chars "    Actual : " ++ quote ++ y ++ quote ++ newline)
  | Near x y =>
      Some (head ++ chars "  Expected : " ++ x ++ newline ++ chars "    Actual : " ++ y ++ newline)
  | Exception ty other =>
      Some (head ++ chars "  Expected : " ++ ty ++ chars " exception" ++ newline
            ++ chars "    Actual : " ++ chars (if other then "Unexpected exception" else "No exception") ++ newline)
  end.

(** What the body of a test writes to the file; [Dead]: the process has ended; [BadFormat]: undefined. *)
Inductive spoken := Said (s : text) | Dead | BadFormat.

(** utest.h:577-595 and so on; UTEST_SKIP: 544-549; an exception is printed to standard output only: 1298-1304 *)
Fixpoint say (acc : text) (b : list xevent) : spoken :=
  match b with
  | [] => Said acc
  | Check stop k file line true :: rest => say acc rest
  | Check stop k file line false :: rest =>
      match message k file line with
      | Some s => if stop then Said (acc ++ s) else say (acc ++ s) rest
      | None => BadFormat
      end
  | SkipWith msg :: _ => Said (acc ++ chars "   Skipped : '" ++ msg ++ chars "'" ++ newline)
  | ThrowOut :: _ => Said acc
  | DieNow :: _ => Dead
  end.

(** ** The file *)

(** utest.h:344-348 *)
Record xtest := mkxtest { xname : text; xbody : list xevent }.

(** What becomes of the file. *)
Inductive file := NoFile | Written (path content : text) | Unfinished_file | Undefined_file.

(** The path of the last --output= that is read: the loop of utest.h:1169-1232, which stops at --help and --list-tests. *)
Fixpoint output_arg (o : option text) (args : list text) : option text :=
  match args with
  | [] => o
  | a :: rest =>
      if starts_with (chars "--help") a then o
      else if starts_with (chars "--filter=") a then output_arg o rest
      else if starts_with (chars "--output=") a then output_arg (Some (skipn 9 a)) rest
      else if starts_with (chars "--list-tests") a then o
      else output_arg o rest
  end.

(** The tests that are not filtered out: utest.h:1255-1261 and 1280-1282.  [None]: memory outside a string is read, or the filter
    does not come to an end (which C78 excludes). *)
Fixpoint chosen (filter : option text) (ts : list xtest) : option (list xtest) :=
  match ts with
  | [] => Some []
  | t :: rest =>
      match should_filter filter (xname t) with
      | Answer true => chosen filter rest
      | Answer false => option_map (cons t) (chosen filter rest)
      | _ => None
      end
  end.

(** The tests are run: utest.h:1287-1290, 1293-1308, 1311-1313 *)
Fixpoint cases (acc : text) (ts : list xtest) : spoken :=
  match ts with
  | [] => Said acc
  | t :: rest =>
      match say (acc ++ chars "<testcase name=" ++ quote ++ xname t ++ quote ++ chars ">") (xbody t) with
      | Said s => cases (s ++ chars "</testcase>" ++ newline) rest
      | r => r
      end
  end.

(** utest.h:1266-1274 *)
Definition prologue (ran : Z) : text :=
  chars "<?xml version=" ++ quote ++ chars "1.0" ++ quote ++ chars " encoding=" ++ quote ++ chars "UTF-8" ++ quote ++ chars "?>" ++ newline
  ++ chars "<testsuites tests=" ++ quote ++ digits ran ++ quote ++ chars " name=" ++ quote ++ chars "All" ++ quote ++ chars ">" ++ newline
  ++ chars "<testsuite name=" ++ quote ++ chars "Tests" ++ quote ++ chars " tests=" ++ quote ++ digits ran ++ quote ++ chars ">" ++ newline.
(** utest.h:1390-1392 *)
Definition epilogue : text := chars "</testsuite>" ++ newline ++ chars "</testsuites>" ++ newline.

(** utest_main (utest.h:1145-1408) with regard to the file.  [opens]: whether fopen(path, "w+") succeeds; if not, output is the null pointer
    and nothing is written. *)
Definition xml_main (opens : text -> bool) (clock : Z) (args : list text) (ts : list xtest) : file :=
  match output_arg None args with
  | None => NoFile
  | Some path =>
      if opens path then
        match parse clock (mkoptions None false None) args with
        | Help => Written path []
        | ListTests => Written path (flat_map (fun t => xname t ++ newline) ts)
        | Options o =>
            match (match opt_seed o with Some seed => shuffle (List.length ts) seed ts | None => Some ts end) with
            | None => Undefined_file
            | Some ts =>
                match chosen (opt_filter o) ts with
                | None => Undefined_file
                | Some sel =>
                    match cases (prologue (u64 (Z.of_nat (List.length sel)))) sel with
                    | Said s => Written path (s ++ epilogue)
                    | Dead => Unfinished_file
                    | BadFormat => Undefined_file
                    end
                end
            end
        end
      else NoFile
  end.
