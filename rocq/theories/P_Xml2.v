(** Files that are not XML, and the project's tests. *)
From Coq Require Import ZArith Arith String Ascii List Bool Lia Permutation DecimalString.
From Verif Require Import Runner RunnerSpec P_Runner Xml XmlSpec P_Xml.
Import ListNotations.
Open Scope Z_scope.

(** ** Tags *)

Definition letterb (a : ascii) : bool :=
  let n := nat_of_ascii a in (((65 <=? n) && (n <=? 90)) || ((97 <=? n) && (n <=? 122)))%nat.
Lemma letterb_letter a : letterb a = true -> letter a.
Proof.
  unfold letterb, letter. intros H. apply orb_true_iff in H. destruct H as [H|H]; apply andb_true_iff in H; destruct H as [A B];
    apply Nat.leb_le in A; apply Nat.leb_le in B; [left|right]; now split.
Qed.

(** Every < is followed by a letter or a slash. *)
Fixpoint closed (s : text) : bool :=
  match s with
  | [] => true
  | a :: rest =>
      if Ascii.eqb a "<" then match rest with b :: _ => (letterb b || Ascii.eqb b "/") && closed rest | [] => false end
      else closed rest
  end.

Lemma closed_cons a s : closed (a :: s)
  = if Ascii.eqb a "<" then match s with b :: _ => (letterb b || Ascii.eqb b "/") && closed s | [] => false end else closed s.
Proof. reflexivity. Qed.

Lemma closed_app s t : closed s = true -> closed t = true -> closed (s ++ t) = true.
Proof.
  induction s as [|a s IH]; intros Hs Ht; [exact Ht|]. rewrite closed_cons in Hs. cbn [app]. rewrite closed_cons.
  destruct (Ascii.eqb a "<"); [|now apply IH]. destruct s as [|b s]; [discriminate Hs|]. cbn [app].
  apply andb_true_iff in Hs. destruct Hs as [H1 H2]. rewrite H1. cbn [andb]. exact (IH H2 Ht).
Qed.

Lemma closed_free s : ~ In "<"%char s -> closed s = true.
Proof.
  induction s as [|a s IH]; intros H; [reflexivity|]. rewrite closed_cons. destruct (Ascii.eqb_spec a "<") as [->|N]; [exfalso; apply H; now left|].
  apply IH. intros C. apply H. now right.
Qed.

Lemma closed_tags s : closed s = true -> tags_only s.
Proof.
  induction s as [|a s IH]; intros H p b q E; [destruct p; discriminate E|]. rewrite closed_cons in H. destruct p as [|c p]; cbn [app] in E.
  - injection E as -> ->. rewrite Ascii.eqb_refl in H. apply andb_true_iff in H. destruct H as [H _]. apply orb_true_iff in H.
    destruct H as [H|H]; [left; now apply letterb_letter|right; now apply Ascii.eqb_eq].
  - injection E as _ E. apply (IH) with (p := p) (q := q); [|exact E]. destruct (Ascii.eqb a "<"); [|exact H].
    destruct s as [|x s]; [discriminate H|]. now apply andb_true_iff in H.
Qed.

Lemma closed_last s d : d <> "<"%char -> closed s = true -> last s d <> "<"%char.
Proof.
  induction s as [|a s IH]; intros Hd H; [exact Hd|]. rewrite closed_cons in H. destruct s as [|b s].
  - cbn [last]. destruct (Ascii.eqb_spec a "<") as [E|N]; [discriminate H|exact N].
  - change (last (a :: b :: s) d) with (last (b :: s) d). apply IH; [exact Hd|]. destruct (Ascii.eqb a "<"); [|exact H]. now apply andb_true_iff in H.
Qed.

Lemma one_closed t : unescaped t -> closed (one t) = true.
Proof.
  intros [(V & _) (D & _)]. rewrite one_parts. repeat (apply closed_app; [first [reflexivity|now apply closed_free]|]). reflexivity.
Qed.

Lemma ones_closed sel : Forall unescaped sel -> closed (flat_map one sel) = true.
Proof. induction 1 as [|t sel U F IH]; [reflexivity|]. cbn [flat_map]. apply closed_app; [now apply one_closed|exact IH]. Qed.

Definition rest_of_prologue (ran : Z) : text :=
  chars "<testsuites tests=" ++ quote ++ digits ran ++ quote ++ chars " name=" ++ quote ++ chars "All" ++ quote ++ chars ">" ++ newline
  ++ chars "<testsuite name=" ++ quote ++ chars "Tests" ++ quote ++ chars " tests=" ++ quote ++ digits ran ++ quote ++ chars ">" ++ newline.
Lemma prologue_parts ran : prologue ran = declaration ++ rest_of_prologue ran.
Proof. unfold prologue, declaration, rest_of_prologue. rewrite <- ?app_assoc. reflexivity. Qed.
Lemma prologue_closed ran : closed (rest_of_prologue ran) = true.
Proof.
  unfold rest_of_prologue. pose proof (proj1 (digits_value ran)) as D.
  repeat (apply closed_app; [first [reflexivity|now apply closed_free]|]). reflexivity.
Qed.

(** ** Formats *)

Lemma format_plain s : ~ In percent s -> format s = Some s.
Proof.
  induction s as [|a s IH]; intros H; [reflexivity|]. cbn [format]. destruct (Ascii.eqb_spec a percent) as [->|N]; [exfalso; apply H; now left|].
  rewrite IH; [reflexivity|]. intros C. apply H. now right.
Qed.

Lemma format_app s t : ~ In percent s -> format (s ++ t) = option_map (fun r => s ++ r) (format t).
Proof.
  induction s as [|a s IH]; intros H; [cbn [app]; now destruct (format t)|]. cbn [app format]. destruct (Ascii.eqb_spec a percent) as [->|N]; [exfalso; apply H; now left|].
  rewrite IH by (intros C; apply H; now right). now destruct (format t).
Qed.

(** ** Orders of comparison *)

(** After some tests that are all right, a test whose first check is a comparison with < that does not hold. *)
Lemma less_run opens clock args ts o path pre t post stop x cond y vx vy f l rest :
  output_arg None args = Some path -> opens path = true -> parse clock (mkoptions None false None) args = Options o -> opt_seed o = None ->
  c_filter (opt_filter o) -> count ts < 2 ^ 31 -> Forall (fun t => c_string (xname t)) ts ->
  filter (selected (opt_filter o)) ts = pre ++ t :: post -> Forall unescaped pre -> Forall printable (pre ++ t :: post) ->
  a_value (xname t) -> xbody t = Check stop (Compare x cond y vx vy) f l false :: rest ->
  In cond [chars "<"; chars "<="] -> ~ In percent x -> ~ In "<"%char x -> ~ In "<"%char f -> ~ In "<"%char l ->
  exists s, xml_main opens clock args ts = Written path s /\ malformed s.
Proof.
  intros Eo Op Ep Es Cf Ln Fc Ef Fu Fp Vn Eb Hc Px Lx Lf Ll. unfold xml_main. rewrite Eo, Op, Ep, Es.
  rewrite (chosen_run _ Cf ts Fc). rewrite (u64_count _ ts ts (Permutation_refl _) Ln). rewrite Ef.
  rewrite cases_run by exact Fp. eexists. split; [reflexivity|].
  assert (W : exists c tail, words t = (f ++ chars ":" ++ l ++ chars ": Failure" ++ newline ++ chars "  Expected : (" ++ x ++ chars ") ") ++ "<"%char :: c :: tail
    /\ ~ letter c /\ ~ In c (chars "/?!_:")).
  { assert (Pt : printable t) by (rewrite Forall_forall in Fp; apply Fp; apply in_or_app; right; now left).
    destruct Pt as [_ M]. rewrite Eb in M. assert (In0 : In (Check stop (Compare x cond y vx vy) f l false) (reached (Check stop (Compare x cond y vx vy) f l false :: rest)))
      by (destruct stop; now left). specialize (M _ stop _ f l In0 eq_refl).
    assert (Ew : exists tl, words t = match message (Compare x cond y vx vy) f l with Some s => s | None => [] end ++ tl).
    { unfold words. rewrite Eb. destruct stop; cbn [reached flat_map word]; eexists; reflexivity. }
    destruct Ew as (tl & Ew). cbn [message] in M, Ew.
    assert (Fm : format (x ++ chars ") " ++ cond ++ chars " (" ++ y) = option_map (fun r => (x ++ chars ") " ++ cond ++ chars " (") ++ r) (format y)).
    { replace (x ++ chars ") " ++ cond ++ chars " (" ++ y) with ((x ++ chars ") " ++ cond ++ chars " (") ++ y) by (rewrite <- !app_assoc; reflexivity).
      apply format_app. intros H. apply in_app_or in H. destruct H as [H|H]; [exact (Px H)|].
      destruct Hc as [ <- |[ <- |[]]]; cbn in H; repeat (destruct H as [H|H]; [discriminate H|]); exact H. }
    rewrite Fm in M, Ew. destruct (format y) as [sy|]; [|now contradiction M]. cbn [option_map] in Ew. rewrite Ew. clear Ew M Fm.
    destruct Hc as [ <- |[ <- |[]]].
    - exists " "%char, (chars "(" ++ sy ++ chars ")" ++ newline ++ chars "    Actual : " ++ vx ++ chars " vs " ++ vy ++ newline ++ tl).
      split; [rewrite <- !app_assoc; reflexivity|]. split; [unfold letter; cbn; lia|]. cbn. intuition discriminate.
    - exists "="%char, (chars " (" ++ sy ++ chars ")" ++ newline ++ chars "    Actual : " ++ vx ++ chars " vs " ++ vy ++ newline ++ tl).
      split; [rewrite <- !app_assoc; reflexivity|]. split; [unfold letter; cbn; lia|]. cbn. intuition discriminate. }
  destruct W as (c & tail & Ew & Nl & Ni).
  exists (rest_of_prologue (count (pre ++ t :: post)) ++ flat_map one pre ++ (chars "<testcase name=" ++ quote ++ xname t ++ quote ++ chars ">")
    ++ (f ++ chars ":" ++ l ++ chars ": Failure" ++ newline ++ chars "  Expected : (" ++ x ++ chars ") ")), c.
  eexists. split.
  { rewrite prologue_parts, flat_map_app. cbn [flat_map]. rewrite one_parts, Ew. repeat rewrite <- app_assoc. cbn [app]. reflexivity. }
  assert (Cl : closed (rest_of_prologue (count (pre ++ t :: post)) ++ flat_map one pre ++ (chars "<testcase name=" ++ quote ++ xname t ++ quote ++ chars ">")
    ++ (f ++ chars ":" ++ l ++ chars ": Failure" ++ newline ++ chars "  Expected : (" ++ x ++ chars ") ")) = true).
  { apply closed_app; [apply prologue_closed|]. apply closed_app; [now apply ones_closed|]. apply closed_app.
    - pose proof (proj1 Vn) as V. repeat (apply closed_app; [first [reflexivity|now apply closed_free]|]). reflexivity.
    - repeat (apply closed_app; [first [now apply closed_free|reflexivity]|]). reflexivity. }
  split; [now apply closed_tags|]. split; [apply closed_last; [discriminate|exact Cl]|]. now split.
Qed.

(** A comparison that does not hold and whose left side is written with the operator % is undefined. *)
Lemma percent_run opens clock args ts o path pre t post stop u v cond y vx vy f l rest :
  output_arg None args = Some path -> opens path = true -> parse clock (mkoptions None false None) args = Options o -> opt_seed o = None ->
  c_filter (opt_filter o) -> Forall (fun t => c_string (xname t)) ts ->
  filter (selected (opt_filter o)) ts = pre ++ t :: post -> Forall printable pre ->
  xbody t = Check stop (Compare (u ++ chars " % " ++ v) cond y vx vy) f l false :: rest -> ~ In percent u ->
  xml_main opens clock args ts = Undefined_file.
Proof.
  intros Eo Op Ep Es Cf Fc Ef Fp Eb Pu. unfold xml_main. rewrite Eo, Op, Ep, Es, (chosen_run _ Cf ts Fc), Ef.
  rewrite (cases_app pre (t :: post) Fp). cbn [cases]. rewrite Eb. cbn [say].
  assert (M : message (Compare (u ++ chars " % " ++ v) cond y vx vy) f l = None).
  { cbn [message]. replace ((u ++ chars " % " ++ v) ++ chars ") " ++ cond ++ chars " (" ++ y) with (u ++ (chars " % " ++ v ++ chars ") " ++ cond ++ chars " (" ++ y))
      by (rewrite <- !app_assoc; reflexivity). rewrite (format_app u _ Pu). reflexivity. }
  now rewrite M.
Qed.

(** ** Plain texts *)

Lemma plain_app s t : plain s -> plain t -> plain (s ++ t).
Proof. intros (A & B & C) (A' & B' & C'). repeat split; intros H; apply in_app_or in H; tauto. Qed.

Lemma plain_data s : plain s -> data s.
Proof.
  intros (A & B & C). repeat split; [exact A|exact B|]. intros (p & q & E). apply C. rewrite E. apply in_or_app. right. now left.
Qed.

Ltac plain_tac := first [assumption | split; [|split]; cbn; intuition discriminate].

Lemma project_word e : project_check e -> plain (word e).
Proof.
  intros [again f l [] Pf Pl|vx vy f l [] Pf Pl Px Py]; cbn [word]; try (split; [|split]; intros []).
  - unfold message. cbv zeta. rewrite <- ?app_assoc. repeat (apply plain_app; [first [assumption|destruct again; plain_tac|plain_tac]|]). plain_tac.
  - unfold message.
    assert (E : format (chars "expected" ++ chars ") " ++ chars "==" ++ chars " (" ++ chars "actual") = Some (chars "expected) == (actual")) by reflexivity.
    cbv zeta. rewrite E, <- ?app_assoc. repeat (apply plain_app; [plain_tac|]). plain_tac.
Qed.

Lemma project_reached b : Forall project_check b -> reached b = b.
Proof. induction 1 as [|e b P F IH]; [reflexivity|]. destruct P; cbn [reached]; now rewrite IH. Qed.

Lemma project_words b : Forall project_check b -> plain (flat_map word b).
Proof. induction 1 as [|e b P F IH]; [split; [|split]; intros []|]. cbn [flat_map]. apply plain_app; [now apply project_word|exact IH]. Qed.

Lemma project_quiet b : Forall project_check b -> (flat_map word b = [] <-> Forall holds b).
Proof.
  induction 1 as [|e b P F IH]; [split; [constructor|reflexivity]|]. cbn [flat_map].
  destruct P as [again f l h Pf Pl|vx vy f l h Pf Pl Px Py]; destruct h; cbn [word app].
  - rewrite IH. split; [intros H; constructor; [reflexivity|exact H]|intros H; now inversion H].
  - split; [|intros H; inversion H as [|? ? C]; discriminate C]. intros H. exfalso. apply app_eq_nil in H. destruct H as [H _].
    unfold message in H. destruct f; discriminate H.
  - rewrite IH. split; [intros H; constructor; [reflexivity|exact H]|intros H; now inversion H].
  - split; [|intros H; inversion H as [|? ? C]; discriminate C]. intros H. exfalso. apply app_eq_nil in H. destruct H as [H _].
    unfold message in H. cbn [format] in H. destruct f; discriminate H.
Qed.

Lemma project_printable t : Forall project_check (xbody t) -> printable t.
Proof.
  intros F. split; rewrite (project_reached _ F); rewrite Forall_forall in F.
  - intros H. apply F in H. inversion H.
  - intros e stop k f l H ->. apply F in H. inversion H; subst; discriminate.
Qed.

Lemma project_names_plain : Forall a_value (map chars project_tests).
Proof.
  assert (D : forallb (fun s => negb (existsb (fun a => Ascii.eqb a "<" || Ascii.eqb a "&" || Ascii.eqb a "034") s)) (map chars project_tests) = true) by (vm_compute; reflexivity).
  rewrite forallb_forall in D. apply Forall_forall. intros s Hs. specialize (D s Hs). apply negb_true_iff in D.
  repeat split; intros H; assert (C : existsb (fun a => Ascii.eqb a "<" || Ascii.eqb a "&" || Ascii.eqb a "034") s = true)
    by (apply existsb_exists; eexists; split; [exact H|reflexivity]); rewrite C in D; discriminate D.
Qed.

Lemma project_names_c : Forall c_string (map chars project_tests).
Proof.
  assert (D : forallb (fun s => negb (existsb (Ascii.eqb NUL) s)) (map chars project_tests) = true) by (vm_compute; reflexivity).
  rewrite forallb_forall in D. apply Forall_forall. intros s Hs H. specialize (D s Hs). apply negb_true_iff in D.
  assert (C : existsb (Ascii.eqb NUL) s = true) by (apply existsb_exists; eexists; split; [exact H|reflexivity]). rewrite C in D; discriminate D.
Qed.

Lemma filter_id {A} (p : A -> bool) l : Forall (fun x => p x = true) l -> filter p l = l.
Proof. induction 1 as [|x l E F IH]; [reflexivity|]. cbn [filter]. now rewrite E, IH. Qed.

Lemma project_run opens clock path ts : map xname ts = map chars project_tests -> Forall (fun t => Forall project_check (xbody t)) ts -> opens path = true ->
  xml_main opens clock [chars "--output=" ++ path] ts = Written path (document (report_of ts)) /\ wellformed (report_of ts) /\
  Forall (fun t => words t = [] <-> Forall holds (xbody t)) ts.
Proof.
  intros Hn Hb Ho.
  assert (Hu : Forall (fun t => c_string (xname t) /\ (selected None t = true -> printable t /\ unescaped t)) ts).
  { apply Forall_forall. intros t Ht. rewrite Forall_forall in Hb. specialize (Hb t Ht).
    assert (Hi : In (xname t) (map chars project_tests)) by (rewrite <- Hn; now apply in_map).
    split; [exact (proj1 (Forall_forall _ _) project_names_c _ Hi)|]. intros _. split; [now apply project_printable|].
    split; [exact (proj1 (Forall_forall _ _) project_names_plain _ Hi)|]. apply plain_data. unfold words. rewrite (project_reached _ Hb). now apply project_words. }
  assert (Hl : count ts < 2 ^ 31).
  { unfold count. rewrite <- (map_length xname), Hn, map_length. vm_compute. reflexivity. }
  destruct (main_document opens clock [chars "--output=" ++ path] ts (mkoptions None false None) path eq_refl Ho eq_refl Logic.I Hl Hu)
    as (order & P & E & M). specialize (E eq_refl). subst order. cbn [opt_filter] in M.
  assert (F : filter (selected None) ts = ts) by (apply filter_id, Forall_forall; reflexivity). cbv zeta in M. rewrite F in M. destruct M as [M W].
  split; [exact M|]. split; [exact W|]. apply Forall_forall. intros t Ht. rewrite Forall_forall in Hb. specialize (Hb t Ht).
  unfold words. rewrite (project_reached _ Hb). now apply project_quiet.
Qed.

(** ** Formats and arguments *)

Lemma format_exact s : forall r, format s = Some r <-> s = doubled r.
Proof.
  assert (H : forall n s, (List.length s <= n)%nat -> forall r, format s = Some r <-> s = doubled r).
  { clear. induction n as [|n IH]; intros s L r.
    - destruct s; [|cbn in L; lia]. split; [intros H; injection H as <-; reflexivity|]. destruct r as [|a r]; [reflexivity|]. cbn. destruct (Ascii.eqb a percent); discriminate.
    - destruct s as [|a s]. { apply IH. cbn. lia. }
      cbn [format]. destruct (Ascii.eqb_spec a percent) as [->|N].
      + destruct s as [|b s]. { split; [discriminate|]. destruct r as [|c r]; [discriminate|]. cbn. destruct (Ascii.eqb_spec c percent) as [->|N]; [discriminate|]. intros E. now injection E as <- _. }
        destruct (Ascii.eqb_spec b percent) as [->|Nb].
        * split.
          -- destruct (format s) as [r'|] eqn:E; [|discriminate]. intros H. injection H as <-. apply IH in E; [|cbn in L; lia]. now subst s.
          -- destruct r as [|c r]; [discriminate|]. cbn. destruct (Ascii.eqb_spec c percent) as [->|N]; intros E; [|now injection E as <- _].
             injection E as E. assert (F : format s = Some r) by (apply IH; [cbn in L; lia|exact E]). now rewrite F.
        * split; [discriminate|]. destruct r as [|c r]; [discriminate|]. cbn. destruct (Ascii.eqb_spec c percent) as [->|N]; intros E; [now injection E as -> _|now injection E as <- _].
      + split.
        * destruct (format s) as [r'|] eqn:E; [|discriminate]. intros H. injection H as <-. apply IH in E; [|cbn in L; lia]. subst s. cbn. destruct (Ascii.eqb_spec a percent); [contradiction|reflexivity].
        * destruct r as [|c r]; [discriminate|]. cbn. destruct (Ascii.eqb_spec c percent) as [->|Nc]; intros E; [now injection E as -> _|].
          injection E as -> E. assert (F : format s = Some r) by (apply IH; [cbn in L; lia|exact E]). now rewrite F. }
  exact (H (List.length s) s (Nat.le_refl _)).
Qed.

Lemma begins_spec w a : starts_with w a = true <-> begins w a.
Proof.
  revert a. induction w as [|c w IH]; intros a; [split; [intros _; now exists a|now destruct a]|]. destruct a as [|d a].
  - split; [discriminate|]. intros (r & E). discriminate E.
  - cbn [starts_with]. rewrite andb_true_iff, Ascii.eqb_eq, IH. split.
    + intros (-> & r & ->). now exists r.
    + intros (r & E). injection E as -> ->. split; [reflexivity|now exists r].
Qed.

Lemma begins_not w a : ~ begins w a -> starts_with w a = false.
Proof. intros H. destruct (starts_with w a) eqn:E; [|reflexivity]. apply begins_spec in E. contradiction. Qed.

Lemma output_kept args : Forall (fun a => ~ begins (chars "--output=") a) args -> forall o, output_arg o args = o.
Proof.
  induction 1 as [|a args N F IH]; intros o; [reflexivity|]. cbn [output_arg]. rewrite (begins_not _ _ N), !IH.
  repeat match goal with |- context [if ?b then _ else _] => destruct b end; reflexivity.
Qed.

Lemma output_last before path after : Forall (fun a => ~ begins (chars "--help") a /\ ~ begins (chars "--list-tests") a) before ->
  Forall (fun a => ~ begins (chars "--output=") a) after -> forall o, output_arg o (before ++ (chars "--output=" ++ path) :: after) = Some path.
Proof.
  intros Fb Fa. induction Fb as [|a before [Nh Nl] F IH]; intros o.
  - exact (output_kept after Fa (Some path)).
  - cbn [app output_arg]. rewrite (begins_not _ _ Nh), (begins_not _ _ Nl). repeat match goal with |- context [if ?b then _ else _] => destruct b end; apply IH.
Qed.

Lemma no_output opens clock args ts : Forall (fun a => ~ begins (chars "--output=") a) args -> xml_main opens clock args ts = NoFile.
Proof. intros F. unfold xml_main. now rewrite (output_kept args F). Qed.
