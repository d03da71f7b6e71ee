(** XML documents, as far as the report of the test runner needs them, and what the report should be.  Nothing here is code of neon_sim. *)
From Coq Require Import ZArith String Ascii List Bool.
From Verif Require Import Runner RunnerSpec Xml.
Import ListNotations.
Open Scope Z_scope.

(** ** Documents *)

(** An element with attributes and content, or character data. *)
Inductive node := Text (s : text) | Element (tag : text) (attributes : list (text * text)) (content : list node).

Definition attribute (p : text * text) : text := chars " " ++ fst p ++ chars "=" ++ quote ++ snd p ++ quote.

Fixpoint render (n : node) : text :=
  match n with
  | Text s => s
  | Element tag attrs content =>
      chars "<" ++ tag ++ flat_map attribute attrs ++ chars ">" ++ flat_map render content ++ chars "</" ++ tag ++ chars ">"
  end.

Definition declaration : text :=
  chars "<?xml version=" ++ quote ++ chars "1.0" ++ quote ++ chars " encoding=" ++ quote ++ chars "UTF-8" ++ quote ++ chars "?>" ++ newline.

(** XML 1.0, 2.4 (14): character data are free of <, & and ]]>; 2.3 (10): so are attribute values of <, & and the quote.  Names are letters here.
    Characters are bytes: that they are UTF-8 and not control characters is left out. *)
Definition contains (w s : text) : Prop := exists p q, s = p ++ w ++ q.
Definition letter (a : ascii) : Prop := (65 <= nat_of_ascii a <= 90 \/ 97 <= nat_of_ascii a <= 122)%nat.
Definition data (s : text) : Prop := ~ In "<"%char s /\ ~ In "&"%char s /\ ~ contains (chars "]]>") s.
Definition a_name (s : text) : Prop := s <> [] /\ Forall letter s.
Definition a_value (s : text) : Prop := ~ In "<"%char s /\ ~ In "&"%char s /\ ~ In "034"%char s.
Inductive wellformed : node -> Prop :=
| wf_text s : data s -> wellformed (Text s)
| wf_element tag attrs content : a_name tag -> Forall (fun p => a_name (fst p) /\ a_value (snd p)) attrs -> NoDup (map fst attrs) ->
    Forall wellformed content -> wellformed (Element tag attrs content).

(** The document with root [n]. *)
Definition document (n : node) : text := declaration ++ render n ++ newline.

(** A text that cannot be an XML document: after the declaration there are only tags and character data up to a < that does not begin a tag, since
    neither a letter, a slash nor anything else that may follow it (?, !, _, :) comes after it. *)
Definition tags_only (s : text) : Prop := forall p a q, s = p ++ "<"%char :: a :: q -> letter a \/ a = "/"%char.
Definition malformed (s : text) : Prop :=
  exists before a after, s = declaration ++ before ++ "<"%char :: a :: after /\ tags_only before /\ last before " "%char <> "<"%char /\
    ~ letter a /\ ~ In a (chars "/?!_:").

(** ** The report *)

(** The events a test comes to: up to one that ends its body. *)
Fixpoint reached (b : list xevent) : list xevent :=
  match b with
  | [] => []
  | Check false k f l h :: rest => Check false k f l h :: reached rest
  | Check true k f l true :: rest => Check true k f l true :: reached rest
  | e :: _ => [e]
  end.
(** What they have to say. *)
Definition word (e : xevent) : text :=
  match e with
  | Check _ k f l false => match message k f l with Some s => s | None => [] end
  | SkipWith msg => chars "   Skipped : '" ++ msg ++ chars "'" ++ newline
  | _ => []
  end.
Definition words (t : xtest) : text := flat_map word (reached (xbody t)).

Definition nl : node := Text newline.
Definition case (t : xtest) : node := Element (chars "testcase") [(chars "name", xname t)] [Text (words t)].
(** One element for each of the tests, in order, with its name and its messages, and their number. *)
Definition report_of (sel : list xtest) : node :=
  Element (chars "testsuites") [(chars "tests", digits (count sel)); (chars "name", chars "All")]
    [ nl; Element (chars "testsuite") [(chars "name", chars "Tests"); (chars "tests", digits (count sel))]
            (nl :: flat_map (fun t => [case t; nl]) sel); nl ].

(** ** Tests *)

Definition selected (filter : option text) (t : xtest) : bool :=
  match should_filter filter (xname t) with Answer false => true | _ => false end.
(** A test that ends, and prints what it should (no % in the source text of a failed comparison). *)
Definition printable (t : xtest) : Prop := ~ In DieNow (reached (xbody t)) /\
  forall e stop k f l, In e (reached (xbody t)) -> e = Check stop k f l false -> message k f l <> None.
(** A test whose name and messages need no escaping. *)
Definition unescaped (t : xtest) : Prop := a_value (xname t) /\ data (words t).

(** The test without the exception that ends it. *)
Fixpoint before_throw (b : list xevent) : list xevent :=
  match b with [] => [] | ThrowOut :: _ => [] | e :: rest => e :: before_throw rest end.
Definition without_throw (t : xtest) : xtest := mkxtest (xname t) (before_throw (xbody t)).

Definition verdict_of (t : xtest) : option verdict := run_body Passed (map erase (xbody t)).

(** A text without the characters that matter to XML. *)
Definition plain (s : text) : Prop := ~ In "<"%char s /\ ~ In "&"%char s /\ ~ In "]"%char s.
(** The checks of the project's tests (tests/*.cpp): EXPECT_TRUE(almostEqual(...)) and EXPECT_EQ(expected, actual). *)
Inductive project_check : xevent -> Prop :=
| expect_true again f l h : plain f -> plain l -> project_check (Check false (Truth true again) f l h)
| expect_eq vx vy f l h : plain f -> plain l -> plain vx -> plain vy ->
    project_check (Check false (Compare (chars "expected") (chars "==") (chars "actual") vx vy) f l h).
Definition holds (e : xevent) : Prop := match e with Check _ _ _ _ h => h = true | _ => False end.

(** Every % written twice. *)
Definition doubled (s : text) : text := flat_map (fun a => if Ascii.eqb a percent then [percent; percent] else [a]) s.
(** An argument that begins with [w]. *)
Definition begins (w a : text) : Prop := exists r, a = w ++ r.
