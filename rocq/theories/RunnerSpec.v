(** What one expects of a test runner. *)
From Coq Require Import ZArith String Ascii List Bool.
From Verif Require Import Runner.
Import ListNotations.
Open Scope Z_scope.

(** A name matches a pattern in which the star stands for any characters, also none. *)
Inductive glob : list ascii -> list ascii -> Prop :=
| glob_nil : glob [] []
| glob_star s f t : glob f t -> glob (star :: f) (s ++ t)
| glob_char a f t : a <> star -> glob f t -> glob (a :: f) (a :: t).

(** A C string. *)
Definition c_string (s : list ascii) : Prop := ~ In NUL s.

(** The body of a test comes to the event [e]: nothing before it ends the body. *)
Definition reaches (b : list event) (e : event) : Prop :=
  exists pre post, b = pre ++ e :: post /\ Forall (fun x => x = Expect true \/ x = Expect false \/ x = Assert true) pre.

(** Something went wrong in the test. *)
Definition goes_wrong (b : list event) : Prop := reaches b (Expect false) \/ reaches b (Assert false) \/ reaches b Throw.

(** The tests to run. *)
Definition is_selected (filter : option (list ascii)) (t : test) : bool :=
  match should_filter filter (name t) with Answer false => true | _ => false end.
Definition ends_with (v : verdict) (t : test) : bool :=
  match run_body Passed (body t), v with
  | Some Passed, Passed | Some Failure, Failure | Some Skipped, Skipped => true
  | _, _ => false
  end.

Definition count {A} (l : list A) : Z := Z.of_nat (List.length l).

(** The lines printed while the test [t] is run. *)
Definition test_lines (mixed : bool) (t : test) : list line :=
  match run_body Passed (body t) with
  | Some v => [Run (name t); Ended v (name t) (snd (shown mixed (duration t))) (nth (fst (shown mixed (duration t))) units ""%string)]
  | None => []
  end.

(** The report on the tests [sel]. *)
Definition report (mixed : bool) (sel : list test) : list line :=
  let bad := filter (ends_with Failure) sel in
  let skip := filter (ends_with Skipped) sel in
  Running (count sel) :: flat_map (test_lines mixed) sel
  ++ [Ran (count sel); PassedCount (count (filter (ends_with Passed) sel))]
  ++ (match skip with [] => [] | _ => SkippedCount (count skip) :: map (fun t => SkippedName (name t)) skip end)
  ++ (match bad with [] => [] | _ => FailedCount (count bad) :: map (fun t => FailedName (name t)) bad end).

(** The filter, if there is one, is a C string. *)
Definition c_filter (fo : option (list ascii)) : Prop := match fo with Some f => c_string f | None => True end.

(** ** The command line *)

(** What the user asks for, and how they spell it. *)
Inductive request := OnlyTests (pattern : list ascii) | MixedUnits | OrderFrom (seed : list nat) | RandomOrder.
Definition digit (d : nat) : ascii := ascii_of_nat (48 + d).
Definition spelled (r : request) : list ascii :=
  match r with
  | OnlyTests f => chars "--filter=" ++ f
  | MixedUnits => chars "--enable-mixed-units"
  | OrderFrom ds => chars "--random-order=" ++ map digit ds
  | RandomOrder => chars "--random-order"
  end.
Definition decimal (ds : list nat) : Z := fold_left (fun v d => 10 * v + Z.of_nat d) ds 0.

(** The last request of a kind holds. *)
Definition wanted_filter (rs : list request) : option (list ascii) :=
  fold_left (fun w r => match r with OnlyTests f => Some f | _ => w end) rs None.
Definition wanted_mixed (rs : list request) : bool := existsb (fun r => match r with MixedUnits => true | _ => false end) rs.
Definition wanted_seed (clock : Z) (rs : list request) : option Z :=
  fold_left (fun w r => match r with OrderFrom ds => Some (decimal ds mod 2 ^ 32) | RandomOrder => Some (clock mod 2 ^ 32) | _ => w end) rs None.
