(** The loop of the test runner and its report. *)
From Coq Require Import ZArith Arith String Ascii List Bool Lia Permutation.
From Verif Require Import Runner RunnerSpec P_Runner.
Import ListNotations.
Open Scope Z_scope.


Lemma answers fo t : c_filter fo -> c_string (name t) -> should_filter fo (name t) = Answer (negb (is_selected fo t)).
Proof.
  intros Cf Ct. unfold is_selected. destruct fo as [f|]; [|reflexivity].
  destruct (filter_sound f (name t) Cf Ct) as (b & -> & _). now destruct b.
Qed.

Lemma count_tests_run fo k : c_filter fo -> forall ts n, Forall (fun t => c_string (name t)) ts -> 0 <= n -> n + count ts < 2 ^ 64 ->
  count_tests fo n ts k = k (n + count (filter (is_selected fo) ts)).
Proof.
  intros Cf. unfold count. induction ts as [|t ts IH]; intros n F P B; cbn [count_tests filter].
  - f_equal. cbn. lia.
  - inversion F as [|? ? Ht F']; subst. rewrite (answers fo t Cf Ht). cbn [List.length] in B. destruct (is_selected fo t); cbn [negb].
    + assert (U : u64 (n + 1) = n + 1) by (apply Z.mod_small; lia). rewrite U, IH by (trivial; lia). f_equal. cbn [List.length]. lia.
    + apply IH; trivial. lia.
Qed.

(** ** Units *)

Lemma shown_unit mixed d : (fst (shown mixed d) < 4)%nat \/ mixed = true /\ 10 ^ 13 <= d /\ nth_error units (fst (shown mixed d)) = None.
Proof.
  destruct mixed; [|left; cbn; lia]. cbn [shown units List.length scale].
  destruct (10000 >? d) eqn:E0; [left; cbn; lia|]. destruct (10000 >? Z.quot d 1000) eqn:E1; [left; cbn; lia|].
  destruct (10000 >? Z.quot (Z.quot d 1000) 1000) eqn:E2; [left; cbn; lia|].
  destruct (10000 >? Z.quot (Z.quot (Z.quot d 1000) 1000) 1000) eqn:E3; [left; cbn; lia|].
  right. split; [reflexivity|]. split; [|reflexivity].
  rewrite Z.gtb_ltb in E0, E1, E2, E3. apply Z.ltb_ge in E0, E1, E2, E3.
  rewrite (Z.quot_div_nonneg d) in E3 by lia. pose proof (Z.div_pos d 1000 ltac:(lia) ltac:(lia)) as Q1.
  rewrite (Z.quot_div_nonneg (d / 1000)) in E3 by lia. pose proof (Z.div_pos (d / 1000) 1000 Q1 ltac:(lia)) as Q2.
  rewrite (Z.quot_div_nonneg (d / 1000 / 1000)) in E3 by lia.
  replace (d / 1000 / 1000 / 1000) with (d / 1000000000) in E3 by (rewrite !Z.div_div by lia; reflexivity). change (10 ^ 13) with (1000000000 * 10000).
  pose proof (Z.mul_div_le d 1000000000 ltac:(lia)). lia.
Qed.

Lemma shown_null d : 10 ^ 13 <= d -> nth_error units (fst (shown true d)) = None.
Proof.
  intros H. change (10 ^ 13) with 10000000000000 in H. cbn [shown units List.length scale].
  assert (D1 : Z.quot d 1000 = d / 1000) by (apply Z.quot_div_nonneg; lia).
  assert (B1 : 10000000000 <= d / 1000) by (apply Z.div_le_lower_bound; lia).
  assert (D2 : Z.quot (d / 1000) 1000 = d / 1000 / 1000) by (apply Z.quot_div_nonneg; lia).
  assert (B2 : 10000000 <= d / 1000 / 1000) by (apply Z.div_le_lower_bound; lia).
  assert (D3 : Z.quot (d / 1000 / 1000) 1000 = d / 1000 / 1000 / 1000) by (apply Z.quot_div_nonneg; lia).
  assert (B3 : 10000 <= d / 1000 / 1000 / 1000) by (apply Z.div_le_lower_bound; lia).
  assert (B : forall z, 10000 <= z -> (10000 >? z) = false) by (intros z Hz; rewrite Z.gtb_ltb; now apply Z.ltb_ge).
  rewrite D1, D2, D3, (B d), (B (d / 1000)), (B (d / 1000 / 1000)), (B _ B3) by lia. reflexivity.
Qed.

(** ** The loop *)

Fixpoint positions (p : test -> bool) (index : nat) (ts : list test) : list nat :=
  match ts with
  | [] => []
  | t :: rest => (if p t then [index] else []) ++ positions p (S index) rest
  end.

Definition time_ok (mixed : bool) (t : test) : Prop := mixed = false \/ duration t < 10 ^ 13.

Lemma time_unit mixed t : time_ok mixed t -> nth_error units (fst (shown mixed (duration t))) = Some (nth (fst (shown mixed (duration t))) units ""%string).
Proof.
  intros H. destruct (shown_unit mixed (duration t)) as [L|(E & G & _)].
  - now apply nth_error_nth'.
  - destruct H as [H|H]; [congruence|lia].
Qed.

Definition both (fo : option (list ascii)) (v : verdict) (t : test) : bool := is_selected fo t && ends_with v t.

Lemma run_tests_run fo mixed k : c_filter fo -> forall ts s index,
  Forall (fun t => c_string (name t) /\ (is_selected fo t = true -> ~ reaches (body t) Die /\ time_ok mixed t)) ts ->
  0 <= failed s -> 0 <= skipped s -> failed s + count ts < 2 ^ 64 -> skipped s + count ts < 2 ^ 64 ->
  run_tests fo mixed s index ts k
  = k (mktally (lines s ++ flat_map (test_lines mixed) (filter (is_selected fo) ts))
               (failed s + count (filter (both fo Failure) ts)) (skipped s + count (filter (both fo Skipped) ts))
               (failed_list s ++ positions (both fo Failure) index ts) (skipped_list s ++ positions (both fo Skipped) index ts)).
Proof.
  intros Cf. unfold count. induction ts as [|t ts IH]; intros s index F P1 P2 B1 B2; cbn [run_tests filter positions flat_map].
  - destruct s. cbn. now rewrite !Z.add_0_r, !app_nil_r.
  - inversion F as [|? ? [Ct Hs] F']; subst. rewrite (answers fo t Cf Ct). cbn [List.length] in B1, B2.
    assert (EB : forall v, both fo v t = is_selected fo t && ends_with v t) by reflexivity. rewrite !EB.
    destruct (is_selected fo t) eqn:Es; cbn [negb andb app].
    + destruct (Hs eq_refl) as [Nd Tm]. unfold run_test. destruct (run_body Passed (body t)) as [v|] eqn:Ev.
      2:{ exfalso. apply Nd. now apply (body_dies (body t) Passed). }
      pose proof (time_unit mixed t Tm) as Un. destruct (shown mixed (duration t)) as [ui tm] eqn:Sh. cbn [fst] in Un. rewrite Un.
      assert (TL : test_lines mixed t = [Run (name t); Ended v (name t) tm (nth ui units ""%string)]) by (unfold test_lines; rewrite Ev, Sh; reflexivity).
      cbn [flat_map]. rewrite TL.
      assert (EV : forall v', ends_with v' t = match v, v' with Passed, Passed | Failure, Failure | Skipped, Skipped => true | _, _ => false end)
        by (intros v'; unfold ends_with; rewrite Ev; destruct v; reflexivity). rewrite !EV. clear EV EB.
      destruct v; cbn [failed skipped failed_list skipped_list lines].
      * rewrite IH; cbn [failed skipped failed_list skipped_list lines]; trivial; try lia. rewrite <- app_assoc. reflexivity.
      * assert (U : u64 (failed s + 1) = failed s + 1) by (apply Z.mod_small; lia).
        rewrite IH; cbn [failed skipped failed_list skipped_list lines]; trivial; try (rewrite ?U; lia). rewrite U, <- !app_assoc. f_equal. f_equal. cbn [List.length]. lia.
      * assert (U : u64 (skipped s + 1) = skipped s + 1) by (apply Z.mod_small; lia).
        rewrite IH; cbn [failed skipped failed_list skipped_list lines]; trivial; try (rewrite ?U; lia). rewrite U, <- !app_assoc. f_equal. f_equal. cbn [List.length]. lia.
    + apply IH; trivial; lia.
Qed.

Lemma names_at_positions make p (k : list line -> result) : forall ts pre k',
  (forall out, k' out = k (out)) ->
  names_at make (pre ++ ts) (positions p (List.length pre) ts) k' = k (map (fun t => make (name t)) (filter p ts)).
Proof.
  intros ts. revert k. induction ts as [|t ts IH]; intros k pre k' Hk; cbn [positions filter]; [apply Hk|].
  assert (E : pre ++ t :: ts = (pre ++ [t]) ++ ts) by (now rewrite <- app_assoc).
  assert (L : S (List.length pre) = List.length (pre ++ [t])) by (rewrite app_length; cbn; lia).
  destruct (p t); cbn [app].
  - cbn [names_at]. rewrite nth_error_app2, Nat.sub_diag by lia. cbn [nth_error map]. rewrite E, L.
    rewrite (IH (fun out => k (make (name t) :: out))); [reflexivity|]. intros out. apply Hk.
  - rewrite E, L. now apply IH.
Qed.

Lemma filter_both fo v ts : filter (both fo v) ts = filter (ends_with v) (filter (is_selected fo) ts).
Proof.
  induction ts as [|t ts IH]; [reflexivity|]. cbn [filter]. unfold both at 1. destruct (is_selected fo t); cbn [andb filter].
  - now rewrite IH.
  - exact IH.
Qed.

Lemma three_verdicts sel : Forall (fun t => ~ reaches (body t) Die) sel ->
  count sel = count (filter (ends_with Passed) sel) + count (filter (ends_with Failure) sel) + count (filter (ends_with Skipped) sel).
Proof.
  unfold count. induction 1 as [|t sel Nd _ IH]; [reflexivity|]. cbn [filter].
  destruct (run_body Passed (body t)) as [v|] eqn:E.
  { assert (EV : forall v', ends_with v' t = match v, v' with Passed, Passed | Failure, Failure | Skipped, Skipped => true | _, _ => false end)
      by (intros v'; unfold ends_with; rewrite E; destruct v; reflexivity). rewrite !EV. destruct v; cbn [List.length]; lia. }
  exfalso. apply Nd. now apply (body_dies (body t) Passed).
Qed.

Lemma count_zero {A} (l : list A) : (count l =? 0) = match l with [] => true | _ => false end.
Proof. destruct l; reflexivity. Qed.

Lemma count_filter_le {A} (p : A -> bool) l : 0 <= count (filter p l) <= count l.
Proof. unfold count. induction l as [|x l IH]; cbn [filter List.length]; [lia|]. destruct (p x); cbn [List.length]; lia. Qed.

Lemma exit_small n : 0 <= n < 2 ^ 31 -> exit_status n = n mod 256.
Proof. intros H. unfold exit_status, to_int. rewrite (Z.mod_small (n + 2 ^ 31)) by lia. f_equal. lia. Qed.

(** ** The program *)

Lemma main_run clock args ts o : parse clock (mkoptions None false None) args = Options o ->
  c_filter (opt_filter o) -> count ts < 2 ^ 31 ->
  Forall (fun t => c_string (name t) /\ (is_selected (opt_filter o) t = true -> ~ reaches (body t) Die /\ time_ok (opt_mixed o) t)) ts ->
  exists order, Permutation ts order /\ (opt_seed o = None -> order = ts) /\
    let sel := filter (is_selected (opt_filter o)) order in
    utest_main clock args ts = Exit (report (opt_mixed o) sel) (count (filter (ends_with Failure) sel) mod 256).
Proof.
  intros Ep Cf Ln F. unfold utest_main. rewrite Ep.
  assert (Ord : exists order, (match opt_seed o with Some seed => shuffle (List.length ts) seed ts | None => Some ts end) = Some order
    /\ Permutation ts order /\ (opt_seed o = None -> order = ts)).
  { destruct (opt_seed o) as [seed|]; [|exists ts; auto]. destruct (shuffle_perm (List.length ts) seed ts (Nat.le_refl _)) as (l & E & P); [unfold count in Ln; lia|].
    exists l. split; [exact E|]. split; [exact P|discriminate]. }
  destruct Ord as (order & -> & P & Eo). exists order. split; [exact P|]. split; [exact Eo|]. cbv zeta.
  assert (Lo : count order = count ts) by (unfold count; now rewrite (Permutation_length P)).
  assert (F' : Forall (fun t => c_string (name t) /\ (is_selected (opt_filter o) t = true -> ~ reaches (body t) Die /\ time_ok (opt_mixed o) t)) order)
    by (apply Forall_forall; intros t Ht; rewrite Forall_forall in F; apply F; now apply (Permutation_in t (Permutation_sym P))).
  rewrite count_tests_run; [|exact Cf|eapply Forall_impl; [|exact F']; now intros t [H _]|lia|lia].
  rewrite run_tests_run; cbn [failed skipped failed_list skipped_list lines]; trivial; try lia.
  rewrite !Z.add_0_l, !app_nil_l.
  pose proof (names_at_positions SkippedName (both (opt_filter o) Skipped)) as NS.
  pose proof (names_at_positions FailedName (both (opt_filter o) Failure)) as NF.
  rewrite (NS _ order [] _ (fun out => eq_refl)). cbv beta. rewrite (NF _ order [] _ (fun out => eq_refl)). cbv beta.
  rewrite !filter_both. set (sel := filter (is_selected (opt_filter o)) order).
  assert (Fd : Forall (fun t => ~ reaches (body t) Die) sel).
  { apply Forall_forall. intros t Ht. apply filter_In in Ht as [Ht Hs]. rewrite Forall_forall in F'. now apply (F' t Ht). }
  pose proof (three_verdicts sel Fd) as T3. pose proof (count_filter_le (is_selected (opt_filter o)) order) as C0. fold sel in C0.
  pose proof (count_filter_le (ends_with Failure) sel) as C1. pose proof (count_filter_le (ends_with Passed) sel) as C2.
  pose proof (count_filter_le (ends_with Skipped) sel) as C3.
  f_equal.
  - unfold report. cbn [app]. f_equal. f_equal. f_equal. f_equal.
    + f_equal. unfold u64. rewrite Z.mod_small by lia. lia.
    + rewrite !count_zero. f_equal.
      * destruct (filter (ends_with Skipped) sel); reflexivity.
      * destruct (filter (ends_with Failure) sel); reflexivity.
  - apply exit_small. lia.
Qed.

(** ** Other ends *)

Lemma run_tests_killed fo mixed k : c_filter fo -> forall ts s index, Forall (fun t => c_string (name t) /\ time_ok mixed t) ts ->
  (exists t, In t ts /\ is_selected fo t = true /\ reaches (body t) Die) -> run_tests fo mixed s index ts k = Killed.
Proof.
  intros Cf. induction ts as [|t ts IH]; intros s index F (t' & Ht & Hs & Hd); [contradiction|].
  inversion F as [|? ? [Ct Tm] F']; subst. cbn [run_tests]. rewrite (answers fo t Cf Ct). destruct Ht as [->|Ht].
  - rewrite Hs. cbn [negb]. unfold run_test. now rewrite (proj2 (body_dies (body t') Passed) Hd).
  - destruct (is_selected fo t); cbn [negb]; [|now apply IH; [|exists t']].
    unfold run_test. destruct (run_body Passed (body t)) as [v|]; [|reflexivity].
    pose proof (time_unit mixed t Tm) as Un. destruct (shown mixed (duration t)) as [ui tm]. cbn [fst] in Un. rewrite Un. now apply IH; [|exists t'].
Qed.

Lemma run_tests_null fo k : c_filter fo -> forall ts s index,
  Forall (fun t => c_string (name t) /\ (is_selected fo t = true -> ~ reaches (body t) Die)) ts ->
  (exists t, In t ts /\ is_selected fo t = true /\ 10 ^ 13 <= duration t) -> run_tests fo true s index ts k = NullPrinted.
Proof.
  intros Cf. induction ts as [|t ts IH]; intros s index F (t' & Ht & Hs & Hd); [contradiction|].
  inversion F as [|? ? [Ct Nd] F']; subst. cbn [run_tests]. rewrite (answers fo t Cf Ct).
  destruct (is_selected fo t) eqn:Es; cbn [negb].
  - unfold run_test. destruct (run_body Passed (body t)) as [v|] eqn:Ev; [|exfalso; apply (Nd eq_refl); now apply (body_dies (body t) Passed)].
    destruct Ht as [->|Ht].
    + pose proof (shown_null (duration t') Hd) as Un. destruct (shown true (duration t')) as [ui tm]. cbn [fst] in Un. now rewrite Un.
    + destruct (shown true (duration t)) as [ui tm]. destruct (nth_error units ui); [|reflexivity]. now apply IH; [|exists t'].
  - destruct Ht as [->|Ht]; [congruence|]. now apply IH; [|exists t'].
Qed.

Lemma main_order (o : options) (ts : list test) : count ts < 2 ^ 31 ->
  exists order, (match opt_seed o with Some seed => shuffle (List.length ts) seed ts | None => Some ts end) = Some order /\ Permutation ts order.
Proof.
  intros Ln. destruct (opt_seed o) as [seed|]; [|exists ts; auto].
  destruct (shuffle_perm (List.length ts) seed ts (Nat.le_refl _)) as (l & E & P); [unfold count in Ln; lia|]. now exists l.
Qed.

Lemma main_killed clock args ts o : parse clock (mkoptions None false None) args = Options o ->
  c_filter (opt_filter o) -> count ts < 2 ^ 31 -> Forall (fun t => c_string (name t) /\ time_ok (opt_mixed o) t) ts ->
  (exists t, In t ts /\ is_selected (opt_filter o) t = true /\ reaches (body t) Die) -> utest_main clock args ts = Killed.
Proof.
  intros Ep Cf Ln F (t & Ht & Hs & Hd). unfold utest_main. rewrite Ep. destruct (main_order o ts Ln) as (order & -> & P).
  assert (Lo : count order = count ts) by (unfold count; now rewrite (Permutation_length P)).
  assert (F' : Forall (fun t => c_string (name t) /\ time_ok (opt_mixed o) t) order)
    by (apply Forall_forall; intros x Hx; rewrite Forall_forall in F; apply F; now apply (Permutation_in x (Permutation_sym P))).
  rewrite count_tests_run; [|exact Cf|eapply Forall_impl; [|exact F']; now intros x [H _]|lia|lia].
  apply run_tests_killed; trivial. exists t. split; [now apply (Permutation_in t P)|now split].
Qed.

Lemma main_null clock args ts o : parse clock (mkoptions None false None) args = Options o -> opt_mixed o = true ->
  c_filter (opt_filter o) -> count ts < 2 ^ 31 ->
  Forall (fun t => c_string (name t) /\ (is_selected (opt_filter o) t = true -> ~ reaches (body t) Die)) ts ->
  (exists t, In t ts /\ is_selected (opt_filter o) t = true /\ 10 ^ 13 <= duration t) -> utest_main clock args ts = NullPrinted.
Proof.
  intros Ep Em Cf Ln F (t & Ht & Hs & Hd). unfold utest_main. rewrite Ep. destruct (main_order o ts Ln) as (order & -> & P).
  assert (Lo : count order = count ts) by (unfold count; now rewrite (Permutation_length P)).
  assert (F' : Forall (fun t => c_string (name t) /\ (is_selected (opt_filter o) t = true -> ~ reaches (body t) Die)) order)
    by (apply Forall_forall; intros x Hx; rewrite Forall_forall in F; apply F; now apply (Permutation_in x (Permutation_sym P))).
  rewrite count_tests_run; [|exact Cf|eapply Forall_impl; [|exact F']; now intros x [H _]|lia|lia].
  rewrite Em. apply run_tests_null; trivial. exists t. split; [now apply (Permutation_in t P)|now split].
Qed.

(** ** The exit status *)

Lemma wrong_fails t : ~ reaches (body t) Skip -> ~ reaches (body t) Die -> (ends_with Failure t = true <-> goes_wrong (body t)).
Proof.
  intros Ns Nd. destruct (body_verdict (body t) Passed Ns Nd) as [A B]. unfold ends_with. split.
  - intros H. destruct (run_body Passed (body t)) as [v|] eqn:E; [|discriminate]. destruct v; try discriminate.
    (* the events decide *)
    assert (D : goes_wrong (body t) \/ ~ goes_wrong (body t)).
    { clear. generalize (body t). intros b. induction b as [|x b IH].
      - right. intros [H|[H|H]]; destruct H as ([|? ?] & ? & E & _); discriminate.
      - destruct x as [[]|[]| | |].
        + destruct IH as [H|H]; [left|right].
          * destruct H as [H|[H|H]]; [left|right; left|right; right]; apply reaches_cons; auto.
          * intros G. apply H. destruct G as [G|[G|G]]; [left|right; left|right; right]; (apply reaches_tail in G; [exact G|discriminate]).
        + left. left. apply reaches_now.
        + destruct IH as [H|H]; [left|right].
          * destruct H as [H|[H|H]]; [left|right; left|right; right]; apply reaches_cons; auto.
          * intros G. apply H. destruct G as [G|[G|G]]; [left|right; left|right; right]; (apply reaches_tail in G; [exact G|discriminate]).
        + left. right; left. apply reaches_now.
        + right. intros [G|[G|G]]; apply reaches_stop in G; discriminate.
        + left. right; right. apply reaches_now.
        + right. intros [G|[G|G]]; apply reaches_stop in G; discriminate. }
    destruct D as [D|D]; [exact D|]. specialize (B D). discriminate.
  - intros H. now rewrite (A H).
Qed.

Lemma main_status clock args ts o : parse clock (mkoptions None false None) args = Options o ->
  c_filter (opt_filter o) -> count ts < 256 ->
  Forall (fun t => c_string (name t) /\ (is_selected (opt_filter o) t = true ->
    ~ reaches (body t) Die /\ ~ reaches (body t) Skip /\ time_ok (opt_mixed o) t)) ts ->
  exists out st, utest_main clock args ts = Exit out st /\
    (st = 0 <-> forall t, In t ts -> is_selected (opt_filter o) t = true -> ~ goes_wrong (body t)).
Proof.
  intros Ep Cf Ln F.
  destruct (main_run clock args ts o Ep Cf ltac:(lia)) as (order & P & _ & E).
  { eapply Forall_impl; [|exact F]. intros t [Ct H]. split; [exact Ct|]. intros Hs. destruct (H Hs) as (? & ? & ?). now split. }
  cbv zeta in E. eexists _, _. split; [exact E|].
  pose proof (count_filter_le (is_selected (opt_filter o)) order) as C0.
  pose proof (count_filter_le (ends_with Failure) (filter (is_selected (opt_filter o)) order)) as C1.
  assert (Lo : count order = count ts) by (unfold count; now rewrite (Permutation_length P)).
  rewrite Z.mod_small by lia. rewrite Forall_forall in F. split.
  - intros Z t Ht Hs G. destruct (F t Ht) as [_ H]. destruct (H Hs) as (Nd & Ns & _).
    assert (I : In t (filter (ends_with Failure) (filter (is_selected (opt_filter o)) order))).
    { apply filter_In. split; [apply filter_In; split; [now apply (Permutation_in t P)|exact Hs]|now apply wrong_fails]. }
    unfold count in Z. destruct (filter (ends_with Failure) _); [contradiction|cbn in Z; lia].
  - intros H. destruct (filter (ends_with Failure) (filter (is_selected (opt_filter o)) order)) as [|t l] eqn:El; [reflexivity|exfalso].
    assert (I : In t (filter (ends_with Failure) (filter (is_selected (opt_filter o)) order))) by (rewrite El; now left).
    apply filter_In in I as [I Hf]. apply filter_In in I as [I Hs]. apply (Permutation_in t (Permutation_sym P)) in I.
    destruct (F t I) as [_ G]. destruct (G Hs) as (Nd & Ns & _). apply (H t I Hs). now apply (wrong_fails t Ns Nd).
Qed.

(** ** The command line *)

Lemma number_decimal ds : Forall (fun d => (d < 10)%nat) ds -> forall v, number v (map digit ds) = fold_left (fun v d => 10 * v + Z.of_nat d) ds v.
Proof.
  induction 1 as [|d ds Hd _ IH]; intros v; [reflexivity|]. cbn [map number fold_left].
  cbv zeta. assert (E : Z.of_nat (nat_of_ascii (digit d)) - 48 = Z.of_nat d) by (unfold digit; rewrite nat_ascii_embedding; lia). rewrite E.
  assert (G : (0 <=? Z.of_nat d) && (Z.of_nat d <=? 9) = true) by (apply andb_true_iff; split; apply Z.leb_le; lia).
  rewrite G, IH. f_equal. lia.
Qed.

Definition good_request (r : request) : Prop := match r with OrderFrom ds => Forall (fun d => (d < 10)%nat) ds | _ => True end.

Lemma parse_requests clock rest rs : Forall good_request rs -> forall o,
  parse clock o (map spelled rs ++ rest)
  = parse clock (mkoptions (fold_left (fun w r => match r with OnlyTests f => Some f | _ => w end) rs (opt_filter o))
                   (opt_mixed o || wanted_mixed rs)
                   (fold_left (fun w r => match r with OrderFrom ds => Some (decimal ds mod 2 ^ 32) | RandomOrder => Some (clock mod 2 ^ 32) | _ => w end) rs (opt_seed o))) rest.
Proof.
  induction 1 as [|r rs Hr _ IH]; intros o.
  - cbn. rewrite orb_false_r. now destruct o.
  - cbn [map app fold_left]. unfold wanted_mixed. cbn [existsb]. destruct r as [f| |ds|]; cbn [spelled] in *.
    + change (parse clock o ((chars "--filter=" ++ f) :: map spelled rs ++ rest))
        with (parse clock (mkoptions (Some f) (opt_mixed o) (opt_seed o)) (map spelled rs ++ rest)). rewrite IH. reflexivity.
    + change (parse clock o (chars "--enable-mixed-units" :: map spelled rs ++ rest))
        with (parse clock (mkoptions (opt_filter o) true (opt_seed o)) (map spelled rs ++ rest)). rewrite IH. cbn [opt_filter opt_mixed opt_seed orb]. now rewrite orb_true_r.
    + change (parse clock o ((chars "--random-order=" ++ map digit ds) :: map spelled rs ++ rest))
        with (parse clock (mkoptions (opt_filter o) (opt_mixed o) (Some (u32 (number 0 (map digit ds))))) (map spelled rs ++ rest)).
      rewrite IH, number_decimal by exact Hr. reflexivity.
    + change (parse clock o (chars "--random-order" :: map spelled rs ++ rest))
        with (parse clock (mkoptions (opt_filter o) (opt_mixed o) (Some (u32 clock))) (map spelled rs ++ rest)).
      rewrite IH. reflexivity.
Qed.

Lemma parse_all clock rs : Forall good_request rs ->
  parse clock (mkoptions None false None) (map spelled rs) = Options (mkoptions (wanted_filter rs) (wanted_mixed rs) (wanted_seed clock rs)).
Proof. intros H. rewrite <- (app_nil_r (map spelled rs)), parse_requests by exact H. reflexivity. Qed.

Lemma main_list clock rs rest ts : Forall good_request rs ->
  utest_main clock (map spelled rs ++ chars "--list-tests" :: rest) ts = Exit (map (fun t => Name (name t)) ts) 0 /\
  utest_main clock (map spelled rs ++ chars "--help" :: rest) ts = Exit [Usage] 0.
Proof. intros H. unfold utest_main. rewrite !parse_requests by exact H. split; reflexivity. Qed.
