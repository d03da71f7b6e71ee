(** The file of --output=. *)
From Coq Require Import ZArith Arith String Ascii List Bool Lia Permutation DecimalString.
From Verif Require Import Runner RunnerSpec P_Runner Xml XmlSpec.
Import ListNotations.
Open Scope Z_scope.

(** ** Messages *)

Lemma say_words b : ~ In DieNow (reached b) ->
  (forall e stop k f l, In e (reached b) -> e = Check stop k f l false -> message k f l <> None) ->
  forall acc, say acc b = Said (acc ++ flat_map word (reached b)).
Proof.
  induction b as [|e b IH]; intros D M acc; [cbn; now rewrite app_nil_r|].
  destruct e as [stop k f l h|msg| |]; cbn [say reached flat_map] in *.
  - destruct h.
    + assert (E : reached (Check stop k f l true :: b) = Check stop k f l true :: reached b) by (now destruct stop).
      cbn [reached] in E. rewrite E in *. cbn [flat_map word app]. apply IH; [intros C; apply D; now right|intros e s1 k1 f1 l1 He; apply M; now right].
    + destruct stop.
      * pose proof (M _ true k f l (or_introl eq_refl) eq_refl) as Me. cbn [flat_map word]. destruct (message k f l); [|now contradiction Me]. now rewrite app_nil_r.
      * pose proof (M _ false k f l (or_introl eq_refl) eq_refl) as Me. cbn [flat_map word]. destruct (message k f l) as [s|]; [|now contradiction Me].
        rewrite app_assoc. apply IH; [intros C; apply D; now right|intros e s1 k1 f1 l1 He; apply M; now right].
  - cbn [word]. now rewrite app_nil_r.
  - cbn [word]. now rewrite app_nil_r.
  - exfalso. apply D. now left.
Qed.

Lemma say_test t acc : printable t -> say acc (xbody t) = Said (acc ++ words t).
Proof. intros [D M]. now apply say_words. Qed.

Definition one (t : xtest) : text := render (case t) ++ newline.

Lemma one_parts t : one t = chars "<testcase name=" ++ quote ++ xname t ++ quote ++ chars ">" ++ words t ++ chars "</testcase>" ++ newline.
Proof. unfold one, case. cbn [render flat_map attribute fst snd]. rewrite ?app_nil_r, <- ?app_assoc. unfold attribute. cbn [fst snd]. rewrite <- ?app_assoc. reflexivity. Qed.

Lemma cases_run sel : Forall printable sel -> forall acc, cases acc sel = Said (acc ++ flat_map one sel).
Proof.
  induction sel as [|t sel IH]; intros F acc; [cbn; now rewrite app_nil_r|]. inversion F as [|? ? P F']; subst.
  cbn [cases flat_map]. rewrite (say_test t _ P). rewrite (IH F'). f_equal. rewrite one_parts, <- ?app_assoc. reflexivity.
Qed.

Lemma cases_app pre post : Forall printable pre -> forall acc, cases acc (pre ++ post) = cases (acc ++ flat_map one pre) post.
Proof.
  induction pre as [|t pre IH]; intros F acc; [cbn; now rewrite app_nil_r|]. inversion F as [|? ? P F']; subst.
  cbn [app flat_map]. cbn [cases]. rewrite (say_test t _ P). rewrite (IH F'). f_equal. rewrite one_parts, <- ?app_assoc. reflexivity.
Qed.

Lemma report_text sel : prologue (count sel) ++ flat_map one sel ++ epilogue = document (report_of sel).
Proof.
  unfold document, report_of, prologue, epilogue. cbn [render flat_map nl].
  assert (E : flat_map render (flat_map (fun t => [case t; nl]) sel) = flat_map one sel).
  { induction sel as [|t l IH]; [reflexivity|]. cbn [flat_map app]. rewrite IH. unfold one. rewrite <- app_assoc. reflexivity. }
  rewrite E. unfold attribute, declaration. cbn [fst snd]. rewrite ?app_nil_r, <- ?app_assoc. reflexivity.
Qed.

(** ** Well-formedness *)

Lemma digits_chars z : Forall (fun a => (48 <= nat_of_ascii a <= 57)%nat) (digits z).
Proof.
  unfold digits. assert (H : forall u, Forall (fun a => (48 <= nat_of_ascii a <= 57)%nat) (chars (NilEmpty.string_of_uint u))).
  { induction u as [|u IH|u IH|u IH|u IH|u IH|u IH|u IH|u IH|u IH|u IH]; [constructor|..]; (constructor; [cbn; lia|exact IH]). }
  destruct (N.to_uint (Z.to_N z)) as [|u|u|u|u|u|u|u|u|u|u]; cbn [NilZero.string_of_uint];
    [constructor; [cbn; lia|constructor]|..]; match goal with |- Forall _ (chars (NilEmpty.string_of_uint ?x)) => exact (H x) end.
Qed.

Lemma digits_value z : a_value (digits z).
Proof.
  pose proof (digits_chars z) as F. rewrite Forall_forall in F.
  repeat split; intros H; apply F in H; cbn in H; lia.
Qed.

Ltac name_tac := split; [discriminate|]; repeat (constructor; [unfold letter; cbn; lia|]); constructor.

Lemma newline_data : data newline.
Proof.
  repeat split; [intros [H|[]]; discriminate H|intros [H|[]]; discriminate H|].
  intros (p & q & H). apply (f_equal (@List.length ascii)) in H. rewrite !app_length in H. cbn in H. lia.
Qed.

Lemma word_value : a_value (chars "All") /\ a_value (chars "Tests").
Proof. repeat split; intros H; cbn in H; repeat (destruct H as [H|H]; [discriminate H|]); contradiction. Qed.

Lemma report_wellformed sel : Forall unescaped sel -> wellformed (report_of sel).
Proof.
  intros F. assert (N : wellformed nl) by (constructor; exact newline_data).
  assert (Nd : NoDup [chars "tests"; chars "name"] /\ NoDup [chars "name"; chars "tests"]).
  { split; (constructor; [intros [H|[]]; discriminate H|constructor; [intros []|constructor]]). }
  unfold report_of. apply wf_element; [name_tac| |exact (proj1 Nd)|].
  - constructor; [split; [name_tac|apply digits_value]|constructor; [split; [name_tac|apply word_value]|constructor]].
  - constructor; [exact N|]. constructor; [|constructor; [exact N|constructor]].
    apply wf_element; [name_tac| |exact (proj2 Nd)|].
    + constructor; [split; [name_tac|apply word_value]|constructor; [split; [name_tac|apply digits_value]|constructor]].
    + constructor; [exact N|]. induction F as [|t sel [V D] F IH]; [constructor|]. cbn [flat_map app]. constructor; [|constructor; [exact N|exact IH]].
      apply wf_element; [name_tac| |constructor; [intros []|constructor]|].
      * constructor; [split; [name_tac|exact V]|constructor].
      * constructor; [constructor; exact D|constructor].
Qed.

(** ** The program *)

Lemma chosen_run fo : c_filter fo -> forall ts, Forall (fun t => c_string (xname t)) ts -> chosen fo ts = Some (filter (selected fo) ts).
Proof.
  intros Cf. induction ts as [|t ts IH]; intros F; [reflexivity|]. inversion F as [|? ? C F']; subst. cbn [chosen filter]. rewrite (IH F').
  unfold selected. destruct fo as [f|]; [|reflexivity]. destruct (filter_sound f (xname t) Cf C) as (b & -> & _). now destruct b.
Qed.

Lemma order_run (o : options) (ts : list xtest) : count ts < 2 ^ 31 ->
  exists order, (match opt_seed o with Some seed => shuffle (List.length ts) seed ts | None => Some ts end) = Some order /\
    Permutation ts order /\ (opt_seed o = None -> order = ts).
Proof.
  intros Ln. destruct (opt_seed o) as [seed|]; [|exists ts; auto].
  destruct (shuffle_perm (List.length ts) seed ts (Nat.le_refl _)) as (l & E & P); [unfold count in Ln; lia|]. exists l. now repeat split.
Qed.

Lemma filter_count {A} (p : A -> bool) l : (List.length (filter p l) <= List.length l)%nat.
Proof. induction l as [|a l IH]; [cbn; lia|]. cbn [filter]. destruct (p a); cbn [List.length]; lia. Qed.

Lemma u64_count {A} (p : A -> bool) l l' : Permutation l l' -> count l < 2 ^ 31 -> u64 (Z.of_nat (List.length (filter p l'))) = count (filter p l').
Proof.
  intros P L. unfold u64, count in *. pose proof (filter_count p l'). rewrite (Permutation_length P) in L. apply Z.mod_small. lia.
Qed.

Lemma main_document opens clock args ts o path : output_arg None args = Some path -> opens path = true ->
  parse clock (mkoptions None false None) args = Options o -> c_filter (opt_filter o) -> count ts < 2 ^ 31 ->
  Forall (fun t => c_string (xname t) /\ (selected (opt_filter o) t = true -> printable t /\ unescaped t)) ts ->
  exists order, Permutation ts order /\ (opt_seed o = None -> order = ts) /\
    let sel := filter (selected (opt_filter o)) order in
    xml_main opens clock args ts = Written path (document (report_of sel)) /\ wellformed (report_of sel).
Proof.
  intros Eo Op Ep Cf Ln F. unfold xml_main. rewrite Eo, Op, Ep. destruct (order_run o ts Ln) as (order & -> & P & En).
  exists order. split; [exact P|]. split; [exact En|]. cbv zeta.
  assert (F' : forall t, In t order -> c_string (xname t) /\ (selected (opt_filter o) t = true -> printable t /\ unescaped t)).
  { intros t Ht. rewrite Forall_forall in F. apply F. now apply (Permutation_in t (Permutation_sym P)). }
  rewrite (chosen_run (opt_filter o) Cf order) by (apply Forall_forall; intros t Ht; now apply F').
  rewrite (u64_count _ _ _ P Ln). set (sel := filter (selected (opt_filter o)) order).
  assert (Fs : Forall (fun t => printable t /\ unescaped t) sel).
  { apply Forall_forall. intros t Ht. apply filter_In in Ht. destruct Ht as [H1 H2]. now apply (F' t H1). }
  rewrite cases_run by (eapply Forall_impl; [|exact Fs]; now intros t [A _]).
  rewrite <- app_assoc, report_text. split; [reflexivity|]. apply report_wellformed. eapply Forall_impl; [|exact Fs]. now intros t [_ B].
Qed.

(** ** What can be read from the file *)

Lemma split_at (q : ascii) : forall a b x y, ~ In q a -> ~ In q b -> a ++ q :: x = b ++ q :: y -> a = b /\ x = y.
Proof.
  induction a as [|c a IH]; intros [|d b] x y Ha Hb E; cbn [app] in E.
  - injection E as E. now split.
  - injection E as E1 E2. exfalso. apply Hb. now left.
  - injection E as E1 E2. exfalso. apply Ha. now left.
  - injection E as E1 E2. destruct (IH b x y) as [A B]; [intros H; apply Ha; now right|intros H; apply Hb; now right|exact E2|].
    subst. now split.
Qed.

Lemma cases_unique sel : forall sel', Forall unescaped sel -> Forall unescaped sel' ->
  flat_map one sel ++ epilogue = flat_map one sel' ++ epilogue -> map (fun t => (xname t, words t)) sel = map (fun t => (xname t, words t)) sel'.
Proof.
  assert (Nil : forall t l, epilogue = flat_map one (t :: l) ++ epilogue -> False).
  { intros t l E. cbn [flat_map] in E. rewrite one_parts in E. rewrite <- !app_assoc in E. discriminate E. }
  induction sel as [|t sel IH]; intros [|t' sel'] F F' E.
  - reflexivity.
  - exfalso. exact (Nil _ _ E).
  - exfalso. exact (Nil _ _ (eq_sym E)).
  - inversion F as [|? ? [(V1 & V2 & V3) (D1 & D2 & D3)] Fr]; subst. inversion F' as [|? ? [(V1' & V2' & V3') (D1' & D2' & D3')] Fr']; subst.
    cbn [flat_map] in E. rewrite !one_parts in E. rewrite <- !app_assoc in E. apply app_inv_head in E. apply app_inv_head in E.
    change (quote ++ ?x) with ("034"%char :: x) in E.
    assert (E1 := split_at "034"%char _ _ _ _ V3 V3' E). destruct E1 as [En E1]. apply app_inv_head in E1.
    change (chars "</testcase>" ++ ?x) with ("<"%char :: (chars "/testcase>" ++ x)) in E1.
    destruct (split_at "<"%char _ _ _ _ D1 D1' E1) as [Ew E2]. apply app_inv_head in E2. apply app_inv_head in E2.
    cbn [map]. rewrite En, Ew. f_equal. now apply IH.
Qed.

Lemma report_unique sel sel' : Forall unescaped sel -> Forall unescaped sel' -> document (report_of sel) = document (report_of sel') ->
  map (fun t => (xname t, words t)) sel = map (fun t => (xname t, words t)) sel'.
Proof.
  intros F F' E. rewrite <- !report_text in E. unfold prologue in E. rewrite <- !app_assoc in E.
  do 12 apply app_inv_head in E.
  destruct (split_at "034"%char _ _ _ _ (proj2 (proj2 (digits_value (count sel)))) (proj2 (proj2 (digits_value (count sel')))) E) as [Ed E1].
  rewrite Ed in E1. repeat apply app_inv_head in E1. now apply cases_unique.
Qed.

(** ** Verdicts *)

Lemma message_nonempty k f l s : message k f l = Some s -> s <> [].
Proof.
  intros H C. subst s. assert (L : forall r : text, Some (f ++ (chars ":" ++ r)) <> Some []).
  { intros r E. injection E as E. destruct f; discriminate E. }
  destruct k as [w a|x cd y vx vy|x y|x y|ty o]; cbn [message] in H; try destruct (format _); try discriminate H;
    repeat rewrite <- app_assoc in H; exact (L _ H).
Qed.

Lemma words_verdict b : ~ In ThrowOut (reached b) -> ~ In DieNow (reached b) ->
  (forall e stop k f l, In e (reached b) -> e = Check stop k f l false -> message k f l <> None) ->
  (flat_map word (reached b) = [] <-> run_body Passed (map erase b) = Some Passed).
Proof.
  assert (Bad : forall b, ~ run_body Failure (map erase b) = Some Passed).
  { induction b0 as [|e b0 IH]; [discriminate|]. destruct e as [[] k f l []|msg| |]; cbn [map erase run_body]; try discriminate; exact IH. }
  induction b as [|e b IH]; intros T D M; [now split|].
  destruct e as [stop k f l h|msg| |]; cbn [reached] in *.
  - destruct h.
    + assert (E : reached (Check stop k f l true :: b) = Check stop k f l true :: reached b) by (now destruct stop).
      cbn [reached] in E. rewrite E in *. cbn [flat_map word app]. rewrite IH.
      * cbn [map erase run_body]. now destruct stop.
      * intros C. apply T. now right.
      * intros C. apply D. now right.
      * intros e s1 k1 f1 l1 He. apply M. now right.
    + split; intros H; exfalso.
      * assert (Me : message k f l <> None).
        { destruct stop; exact (M _ _ k f l (or_introl eq_refl) eq_refl). }
        destruct (message k f l) as [s|] eqn:Es; [|now apply Me]. apply (message_nonempty _ _ _ _ Es).
        destruct stop; cbn [flat_map word] in H; rewrite Es in H; now apply app_eq_nil in H.
      * destruct stop; cbn [map erase run_body] in H; [discriminate H|exact (Bad _ H)].
  - split; [discriminate|]. cbn. discriminate.
  - exfalso. apply T. now left.
  - exfalso. apply D. now left.
Qed.

Lemma verdict_run t : printable t -> ~ In ThrowOut (reached (xbody t)) -> (words t = [] <-> verdict_of t = Some Passed).
Proof. intros [D M] T. now apply words_verdict. Qed.

(** ** Exceptions *)

Lemma swap_map {A B} (f : A -> B) (l : list A) i j : swap (map f l) i j = option_map (map f) (swap l i j).
Proof.
  unfold swap. rewrite !nth_error_map. destruct (nth_error l i) as [x|]; [|reflexivity]. cbn [option_map].
  destruct (nth_error l j) as [y|]; [|reflexivity]. cbn [option_map]. f_equal. rewrite map_map, map_length. apply map_ext. intros k.
  destruct (k =? j)%nat; [reflexivity|]. destruct (k =? i)%nat; [reflexivity|]. apply map_nth.
Qed.

Lemma shuffle_map {A B} (f : A -> B) : forall index seed (l : list A), shuffle index seed (map f l) = option_map (map f) (shuffle index seed l).
Proof.
  induction index as [|[|index] IH]; intros seed l; [reflexivity..|]. cbn [shuffle]. destruct (pick seed (S (S index))) as [next|]; [|reflexivity].
  rewrite swap_map. destruct (swap l (S index) next) as [l'|]; [|reflexivity]. cbn [option_map]. apply IH.
Qed.

Lemma chosen_map fo ts : chosen fo (map without_throw ts) = option_map (map without_throw) (chosen fo ts).
Proof.
  induction ts as [|t ts IH]; [reflexivity|]. cbn [map chosen without_throw xname]. rewrite IH.
  destruct (should_filter fo (xname t)) as [[]| |]; try reflexivity. now destruct (chosen fo ts).
Qed.

Lemma say_throw b : forall acc, say acc (before_throw b) = say acc b.
Proof.
  induction b as [|e b IH]; intros acc; [reflexivity|]. destruct e as [stop k f l []|msg| |]; cbn [before_throw say]; trivial.
  destruct (message k f l) as [s|]; [|reflexivity]. destruct stop; [reflexivity|]. apply IH.
Qed.

Lemma cases_throw ts : forall acc, cases acc (map without_throw ts) = cases acc ts.
Proof.
  induction ts as [|t ts IH]; intros acc; [reflexivity|]. cbn [map cases without_throw xname xbody]. rewrite say_throw.
  destruct (say _ _) as [s| |]; trivial.
Qed.

Lemma main_throw opens clock args ts : xml_main opens clock args (map without_throw ts) = xml_main opens clock args ts.
Proof.
  unfold xml_main. destruct (output_arg None args) as [path|]; [|reflexivity]. destruct (opens path); [|reflexivity].
  destruct (parse clock _ args) as [o| |]; [|reflexivity|].
  - rewrite map_length. assert (E : match opt_seed o with Some seed => shuffle (List.length ts) seed (map without_throw ts) | None => Some (map without_throw ts) end
      = option_map (map without_throw) (match opt_seed o with Some seed => shuffle (List.length ts) seed ts | None => Some ts end)).
    { destruct (opt_seed o); [apply shuffle_map|reflexivity]. }
    rewrite E. destruct (match opt_seed o with Some seed => shuffle (List.length ts) seed ts | None => Some ts end) as [ts'|]; [|reflexivity].
    cbn [option_map]. rewrite chosen_map. destruct (chosen (opt_filter o) ts') as [sel|]; [|reflexivity]. cbn [option_map].
    now rewrite cases_throw, map_length.
  - f_equal. induction ts as [|t ts IH]; [reflexivity|]. cbn [map flat_map without_throw xname]. now rewrite IH.
Qed.
