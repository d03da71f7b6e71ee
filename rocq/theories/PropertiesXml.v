(** C85: the XML file the test runner writes with --output=. *)
From Coq Require Import ZArith String Ascii List Bool Permutation.
From Verif Require Import Runner RunnerSpec Xml XmlSpec.
From Verif Require P_Xml P_Xml2.
Import ListNotations.
Open Scope Z_scope.

(** The file holds one XML document: one element for each test that was run, in the order they were run, with its name and what its checks had to
    say, and their number.  It is well-formed when names and messages need no escaping. *)
Theorem C85_document : forall opens clock args ts o path, output_arg None args = Some path -> opens path = true ->
  parse clock (mkoptions None false None) args = Options o -> c_filter (opt_filter o) -> count ts < 2 ^ 31 ->
  Forall (fun t => c_string (xname t) /\ (selected (opt_filter o) t = true -> printable t /\ unescaped t)) ts ->
  exists order, Permutation ts order /\ (opt_seed o = None -> order = ts) /\
    let sel := filter (selected (opt_filter o)) order in
    xml_main opens clock args ts = Written path (document (report_of sel)) /\ wellformed (report_of sel).
Proof. exact P_Xml.main_document. Qed.
Print Assumptions C85_document.

(** The file is the one that the last --output= names; without --output= there is none. *)
Theorem C85_file : (forall before path after, Forall (fun a => ~ begins (chars "--help") a /\ ~ begins (chars "--list-tests") a) before ->
    Forall (fun a => ~ begins (chars "--output=") a) after -> output_arg None (before ++ (chars "--output=" ++ path) :: after) = Some path) /\
  (forall opens clock args ts, Forall (fun a => ~ begins (chars "--output=") a) args -> xml_main opens clock args ts = NoFile).
Proof. split; [intros; now apply P_Xml2.output_last|exact P_Xml2.no_output]. Qed.
Print Assumptions C85_file.

(** What a text prints when it is used as a format, and that nothing else is defined. *)
Theorem C85_format : forall s r, format s = Some r <-> s = doubled r.
Proof. exact P_Xml2.format_exact. Qed.
Print Assumptions C85_format.

(** Names and messages can be read back from the file. *)
Theorem C85_unique : forall sel sel', Forall unescaped sel -> Forall unescaped sel' -> document (report_of sel) = document (report_of sel') ->
  map (fun t => (xname t, words t)) sel = map (fun t => (xname t, words t)) sel'.
Proof. exact P_Xml.report_unique. Qed.
Print Assumptions C85_unique.

(** The element of a test is empty exactly if the test passed, as long as no exception leaves the test. *)
Theorem C85_verdict_partial : forall t, printable t -> ~ In ThrowOut (reached (xbody t)) -> (words t = [] <-> verdict_of t = Some Passed).
Proof. exact P_Xml.verdict_run. Qed.
Print Assumptions C85_verdict_partial.

(** Exceptions leave no trace in the file: with them and without them the file is the same, although the verdict is not. *)
Theorem C85_throw_refuted : (forall opens clock args ts, xml_main opens clock args (map without_throw ts) = xml_main opens clock args ts) /\
  exists t, verdict_of t = Some Failure /\ verdict_of (without_throw t) = Some Passed /\ printable t /\ words t = [].
Proof.
  split; [exact P_Xml.main_throw|]. exists (mkxtest (chars "vadd.s8") [Check false (Truth true true) (chars "a.cpp") (chars "7") true; ThrowOut]).
  split; [reflexivity|]. split; [reflexivity|]. split; [|reflexivity]. split.
  - cbn. intros [H|[H|[]]]; discriminate H.
  - cbn. intros e stop k f l [ <- |[ <- |[]]] H; discriminate H.
Qed.
Print Assumptions C85_throw_refuted.

(** Messages are not escaped: a comparison with < or <= that does not hold makes the file something that is not XML. *)
Theorem C85_less_refuted : forall opens clock args ts o path pre t post stop x cond y vx vy f l rest,
  output_arg None args = Some path -> opens path = true -> parse clock (mkoptions None false None) args = Options o -> opt_seed o = None ->
  c_filter (opt_filter o) -> count ts < 2 ^ 31 -> Forall (fun t => c_string (xname t)) ts ->
  filter (selected (opt_filter o)) ts = pre ++ t :: post -> Forall unescaped pre -> Forall printable (pre ++ t :: post) ->
  a_value (xname t) -> xbody t = Check stop (Compare x cond y vx vy) f l false :: rest ->
  In cond [chars "<"; chars "<="] -> ~ In percent x -> ~ In "<"%char x -> ~ In "<"%char f -> ~ In "<"%char l ->
  exists s, xml_main opens clock args ts = Written path s /\ malformed s.
Proof. exact P_Xml2.less_run. Qed.
Print Assumptions C85_less_refuted.

(** The source text of a comparison is used as a format: if it does not hold and contains the operator %, the behaviour is undefined. *)
Theorem C85_format_refuted : forall opens clock args ts o path pre t post stop u v cond y vx vy f l rest,
  output_arg None args = Some path -> opens path = true -> parse clock (mkoptions None false None) args = Options o -> opt_seed o = None ->
  c_filter (opt_filter o) -> Forall (fun t => c_string (xname t)) ts ->
  filter (selected (opt_filter o)) ts = pre ++ t :: post -> Forall printable pre ->
  xbody t = Check stop (Compare (u ++ chars " % " ++ v) cond y vx vy) f l false :: rest -> ~ In percent u ->
  xml_main opens clock args ts = Undefined_file.
Proof. exact P_Xml2.percent_run. Qed.
Print Assumptions C85_format_refuted.

(** For the project's own tests, whatever their checks say, the file is a well-formed document with all of them, and the elements of the tests
    all whose checks hold are the empty ones. *)
Theorem C85_project : forall opens clock path ts, map xname ts = map chars project_tests -> Forall (fun t => Forall project_check (xbody t)) ts ->
  opens path = true ->
  xml_main opens clock [chars "--output=" ++ path] ts = Written path (document (report_of ts)) /\ wellformed (report_of ts) /\
  Forall (fun t => words t = [] <-> Forall holds (xbody t)) ts.
Proof. exact P_Xml2.project_run. Qed.
Print Assumptions C85_project.

(** Two tests, one of which fails; the file as it is written. *)
Definition two : list xtest :=
  [ mkxtest (chars "vadd.s8") [Check false (Truth true true) (chars "a.cpp") (chars "7") true];
    mkxtest (chars "vget_lane.u8") [Check false (Compare (chars "expected") (chars "==") (chars "actual") (chars "1") (chars "2")) (chars "b.cpp") (chars "12") false] ].
Example C85_example : exists s, xml_main (fun _ => true) 0 [chars "--output=r.xml"] two = Written (chars "r.xml") s /\
  s = chars "<?xml version=" ++ quote ++ chars "1.0" ++ quote ++ chars " encoding=" ++ quote ++ chars "UTF-8" ++ quote ++ chars "?>" ++ newline
   ++ chars "<testsuites tests=" ++ quote ++ chars "2" ++ quote ++ chars " name=" ++ quote ++ chars "All" ++ quote ++ chars ">" ++ newline
   ++ chars "<testsuite name=" ++ quote ++ chars "Tests" ++ quote ++ chars " tests=" ++ quote ++ chars "2" ++ quote ++ chars ">" ++ newline
   ++ chars "<testcase name=" ++ quote ++ chars "vadd.s8" ++ quote ++ chars "></testcase>" ++ newline
   ++ chars "<testcase name=" ++ quote ++ chars "vget_lane.u8" ++ quote ++ chars ">b.cpp:12: Failure" ++ newline
   ++ chars "  Expected : (expected) == (actual)" ++ newline ++ chars "    Actual : 1 vs 2" ++ newline
   ++ chars "</testcase>" ++ newline ++ chars "</testsuite>" ++ newline ++ chars "</testsuites>" ++ newline.
Proof. eexists. split; [reflexivity|]. vm_compute. reflexivity. Qed.

Example C85_document_example : Forall (fun t => c_string (xname t) /\ (selected None t = true -> printable t /\ unescaped t)) two /\
  map verdict_of two = [Some Passed; Some Failure].
Proof.
  split; [|reflexivity].
  constructor; [|constructor; [|constructor]]; (split; [unfold c_string; cbn; intuition discriminate|]; intros _; split).
  - split; cbn; [intuition discriminate|]. intros e stop k f l [ <- |[]] H. discriminate H.
  - split; [split; [|split]; cbn; intuition discriminate|]. split; [|split]; cbn; try tauto. intros (p & q & E). destruct p; discriminate E.
  - split; cbn; [intuition discriminate|]. intros e stop k f l [ <- |[]] H. injection H as <- <- <- <-. discriminate.
  - split; [split; [|split]; cbn; intuition discriminate|]. apply P_Xml2.plain_data. vm_compute. intuition discriminate.
Qed.

(** The hypotheses of C85_less_refuted and C85_format_refuted. *)
Example C85_less_example :
  let t := mkxtest (chars "a.b") [Check false (Compare (chars "x") (chars "<") (chars "y") (chars "2") (chars "1")) (chars "a.cpp") (chars "7") false] in
  (exists s, xml_main (fun _ => true) 0 [chars "--output=r.xml"] [t] = Written (chars "r.xml") s /\ malformed s) /\
  let u := mkxtest (chars "a.b") [Check false (Compare (chars "x % 2") (chars "==") (chars "0") (chars "1") (chars "0")) (chars "a.cpp") (chars "7") false] in
  xml_main (fun _ => true) 0 [chars "--output=r.xml"] [u] = Undefined_file.
Proof.
  cbv zeta. split; [|reflexivity].
  eapply (C85_less_refuted (fun _ => true) 0 [chars "--output=r.xml"] _ (mkoptions None false None) (chars "r.xml") [] _ []);
    try reflexivity; try (cbn; intuition discriminate); try exact Logic.I.
  - constructor; [unfold c_string; cbn; intuition discriminate|constructor].
  - constructor.
  - constructor; [|constructor]. split; cbn; [intuition discriminate|]. intros e stop k f l [ <- |[]] H. injection H as <- <- <- <-. discriminate.
  - split; [|split]; cbn; intuition discriminate.
Qed.

Example C85_project_example :
  let ts := map (fun n => mkxtest (chars n) [Check false (Truth true false) (chars "a.cpp") (chars "7") false]) project_tests in
  map xname ts = map chars project_tests /\ Forall (fun t => Forall project_check (xbody t)) ts.
Proof.
  cbv zeta. split; [rewrite map_map; reflexivity|]. apply Forall_forall. intros t Ht. apply in_map_iff in Ht. destruct Ht as (n & <- & _).
  constructor; [|constructor]. constructor; (split; [|split]); cbn; intuition discriminate.
Qed.
