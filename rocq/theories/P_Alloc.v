(** The memory of the test runner. *)
From Coq Require Import ZArith Arith String Ascii List Bool Lia.
From Verif Require Import Runner Alloc AllocSpec.
From Verif Require Helper P_Helper.
Import ListNotations.
Open Scope nat_scope.

(** ** Arrays *)

Lemma replace_last {A} (x y : A) l : replace (List.length l) x (l ++ [y]) = Some (l ++ [x]).
Proof. induction l as [|a l IH]; [reflexivity|]. cbn [List.length app replace]. now rewrite IH. Qed.

Lemma replace_other {A} (x : A) : forall l i l', replace i x l = Some l' -> nth_error l' i = Some x /\ forall j, j <> i -> nth_error l' j = nth_error l j.
Proof.
  induction l as [|a l IH]; intros i l' H; [destruct i; discriminate H|]. destruct i as [|i]; cbn [replace] in H.
  - injection H as <-. split; [reflexivity|]. intros [|j] N; [contradiction|reflexivity].
  - destruct (replace i x l) as [r|] eqn:E; [|discriminate H]. injection H as <-. destruct (IH _ _ E) as [H1 H2]. split; [exact H1|].
    intros [|j] N; [reflexivity|]. cbn. apply H2. lia.
Qed.

Lemma grown_last {A} (b : A) l : firstn (S (List.length l)) l ++ repeat b (S (List.length l) - List.length l) = l ++ [b].
Proof. rewrite firstn_all2 by lia. replace (S (List.length l) - List.length l) with 1 by lia. reflexivity. Qed.

Lemma grown_nth {A} (b c : A) l n j : nth_error l j = Some c -> j < n -> nth_error (firstn n l ++ repeat b (n - List.length l)) j = Some c.
Proof.
  intros H L. assert (J : j < List.length l) by (apply nth_error_Some; congruence).
  rewrite nth_error_app1 by (rewrite firstn_length; lia). rewrite <- H. clear -L. revert n l L. induction j as [|j IH]; intros [|n] [|a l] L; try lia; try reflexivity.
  cbn. apply IH. lia.
Qed.

Lemma repeat_nth {A} (b : A) n j : j < n -> nth_error (repeat b n) j = Some b.
Proof. revert j. induction n as [|n IH]; intros [|j] L; try lia; [reflexivity|]. cbn. apply IH. lia. Qed.

(** ** Names *)

Lemma digits_length : forall fuel k z acc, (0 <= z < 10 ^ Z.of_nat (S k))%Z -> List.length (Helper.digits fuel 10 z acc) <= S k + List.length acc.
Proof.
  induction fuel as [|fuel IH]; intros k z acc H; [cbn; lia|]. cbn [Helper.digits]. destruct (Z.eqb_spec (z / 10) 0) as [E|E]; [cbn; lia|].
  destruct k as [|k]; [exfalso; apply E; apply Z.div_small; exact H|].
  assert (B : (0 <= z / 10 < 10 ^ Z.of_nat (S k))%Z).
  { rewrite (Nat2Z.inj_succ (S k)), Z.pow_succ_r in H by lia. split; [apply Z.div_pos; lia|apply Z.div_lt_upper_bound; lia]. }
  specialize (IH k (z / 10)%Z (Helper.digit_char (z mod 10) :: acc) B). cbn [List.length] in IH. lia.
Qed.

Lemma name_fits r : index_ok r -> snprintf (name_size r) (title r) = title r.
Proof.
  intros H. apply firstn_all2. unfold title, name_size. unfold index_ok, index_of in H. destruct (r_kind r) as [| |i]; try lia. rewrite !app_length.
  assert (L : List.length (Helper.digits 64 10 (Z.of_nat i) []) <= 20 + 0).
  { apply (digits_length 64 19). split; [lia|]. eapply Z.lt_trans; [exact H|reflexivity]. }
  change (List.length (Runner.chars "/")) with 1. lia.
Qed.

(** ** Everything succeeds *)

Definition cell_of (r : reg) : cell := mkcell (Some (r_func r)) (Some (index_of r)) (Some (Some (title r))).
Definition array {A} (l : list A) : option (list A) := match l with [] => None | _ => Some l end.
Definition blocks {A} (l : list A) : Z := match l with [] => 0%Z | _ => 1%Z end.

Lemma grow_good {A B} (b : A) o m (f : B -> A) (d : list B) (x : B) : o (calls m) = true ->
  exists l, realloc b o m (array (map f d)) (S (List.length d)) = (Some l, mkmem (S (calls m)) (live m + (1 - blocks d))%Z) /\
    replace (List.length d) (f x) l = Some (map f (d ++ [x])).
Proof.
  intros O. unfold realloc. rewrite O. destruct d as [|e d].
  - cbn. eexists. split; [f_equal; f_equal; lia|reflexivity].
  - cbn [array map]. change (f e :: map f d) with (map f (e :: d)). rewrite <- (map_length f (e :: d)). rewrite grown_last.
    eexists. split; [f_equal; f_equal; cbn [blocks]; lia|]. rewrite replace_last, map_app. reflexivity.
Qed.

Lemma array_snoc {A} (l : list A) x : array (l ++ [x]) = Some (l ++ [x]).
Proof. now destruct l. Qed.
Lemma blocks_snoc {A} (l : list A) x : blocks (l ++ [x]) = 1%Z.
Proof. now destruct l. Qed.

Definition good (d : list reg) : state :=
  mkstate (array (map cell_of d)) (List.length d) (mkmem (2 * List.length d) (Z.of_nat (List.length d) + blocks d)%Z).

Lemma register_good o d r : index_ok r -> o (2 * List.length d) = true -> o (S (2 * List.length d)) = true -> r_kind r <> Fixture ->
  register o (good d) r = Some (good (d ++ [r])).
Proof.
  intros Ok O1 O2 K. unfold register, good. cbn [tests tests_length memory calls live]. unfold malloc. cbn [calls live]. rewrite O1.
  destruct (grow_good blank o (mkmem (S (2 * List.length d)) (Z.of_nat (List.length d) + blocks d + 1)%Z) cell_of d r O2) as (l & E & R).
  rewrite E. cbn [calls live]. rewrite (name_fits r Ok). assert (C : mkcell (Some (r_func r)) (match r_kind r with Plain => Some 0 | Fixture => None | Indexed i => Some i end) (Some (Some (title r))) = cell_of r).
  { unfold cell_of, index_of. destruct (r_kind r); [reflexivity|contradiction|reflexivity]. }
  rewrite C. cbn [store]. rewrite R. cbn [option_map]. f_equal. rewrite app_length, blocks_snoc. rewrite map_app. cbn [map]. rewrite array_snoc. cbn [List.length].
  f_equal; [lia|]. f_equal; lia.
Qed.

Lemma register_all_good o rs : forall d, succeed o (2 * (List.length d + List.length rs)) -> Forall (fun r => r_kind r <> Fixture) rs -> Forall index_ok rs ->
  register_all o (good d) rs = Some (good (d ++ rs)).
Proof.
  induction rs as [|r rs IH]; intros d O F Ok; [now rewrite app_nil_r|]. inversion F as [|? ? K F']; inversion Ok as [|? ? Ok1 Ok']; subst. cbn [register_all List.length] in *.
  rewrite register_good; [|exact Ok1|apply O; lia|apply O; lia|exact K]. rewrite IH; [now rewrite <- app_assoc| |exact F'|exact Ok'].
  rewrite app_length. cbn. intros k L. apply O. lia.
Qed.

Lemma fetch_good d i r : nth_error d i = Some r -> fetch (good d) i = Some (title r, r_func r, index_of r).
Proof.
  intros H. unfold fetch, good. cbn [tests]. destruct d as [|e d]; [destruct i; discriminate H|]. cbn [array map]. change (cell_of e :: map cell_of d) with (map cell_of (e :: d)).
  rewrite nth_error_map, H. reflexivity.
Qed.

(** The positions of tests with a verdict. *)
Definition is_verdict (v w : verdict) : bool := match v, w with Failure, Failure | Skipped, Skipped | Passed, Passed => true | _, _ => false end.
Fixpoint positions (outcome : nat -> nat -> verdict) (v : verdict) (i : nat) (rs : list reg) : list nat :=
  match rs with [] => [] | r :: rest => (if is_verdict (verdict_at outcome r) v then [i] else []) ++ positions outcome v (S i) rest end.

Lemma positions_length outcome v rs : forall i, List.length (positions outcome v i rs) = List.length (with_verdict outcome v rs).
Proof. induction rs as [|r rs IH]; intros i; [reflexivity|]. cbn. rewrite app_length, IH. unfold is_verdict. destruct (verdict_at outcome r), v; reflexivity. Qed.

Lemma positions_app outcome v rs rs' : forall i, positions outcome v i (rs ++ rs') = positions outcome v i rs ++ positions outcome v (i + List.length rs) rs'.
Proof.
  induction rs as [|r rs IH]; intros i; [cbn; now rewrite Nat.add_0_r|]. cbn [app positions List.length]. rewrite IH, <- app_assoc. cbn [Nat.add]. rewrite Nat.add_succ_r. reflexivity.
Qed.

Lemma record_good o m (is : list nat) i : o (calls m) = true ->
  record o m (array (map Some is)) (List.length is) i = Some (array (map Some (is ++ [i])), mkmem (S (calls m)) (live m + (1 - blocks is))%Z).
Proof.
  intros O. unfold record. destruct (grow_good None o m Some is i O) as (l & E & R). rewrite E. cbn [store]. rewrite R. rewrite map_app. cbn [map]. now rewrite array_snoc.
Qed.

Definition at_ (outcome : nat -> nat -> verdict) (d : list reg) (base : mem) : running :=
  mkrunning (map (run_of outcome) d) (array (map Some (positions outcome Failure 0 d))) (List.length (positions outcome Failure 0 d))
    (array (map Some (positions outcome Skipped 0 d))) (List.length (positions outcome Skipped 0 d))
    (mkmem (calls base + List.length (positions outcome Failure 0 d) + List.length (positions outcome Skipped 0 d))
           (live base + blocks (positions outcome Failure 0 d) + blocks (positions outcome Skipped 0 d))%Z).

Lemma loop_good o outcome all base rest : forall d, all = d ++ rest ->
  succeed o (calls base + List.length (positions outcome Failure 0 all) + List.length (positions outcome Skipped 0 all)) ->
  run_loop o outcome (good all) (List.length rest) (List.length d) (at_ outcome d base) = Some (at_ outcome all base).
Proof.
  induction rest as [|r rest IH]; intros d E O; [rewrite app_nil_r in E; now subst|]. cbn [List.length run_loop].
  rewrite (fetch_good all (List.length d) r) by (rewrite E, nth_error_app2, Nat.sub_diag by lia; reflexivity).
  assert (E' : all = (d ++ [r]) ++ rest) by (rewrite <- app_assoc; exact E).
  assert (Pf : forall v, positions outcome v 0 all = positions outcome v 0 d ++ (if is_verdict (verdict_at outcome r) v then [List.length d] else []) ++ positions outcome v (S (List.length d)) rest).
  { intros v. rewrite E, positions_app. reflexivity. }
  assert (Ps : forall v, positions outcome v 0 (d ++ [r]) = positions outcome v 0 d ++ (if is_verdict (verdict_at outcome r) v then [List.length d] else [])).
  { intros v. rewrite positions_app. cbn. now rewrite app_nil_r. }
  specialize (IH (d ++ [r]) E' O). rewrite app_length in IH. cbn [List.length] in IH. rewrite Nat.add_comm in IH. cbn [Nat.add] in IH.
  change (outcome (r_func r) (index_of r)) with (verdict_at outcome r).
  pose proof (Pf Failure) as PF. pose proof (Pf Skipped) as PS. pose proof (Ps Failure) as QF. pose proof (Ps Skipped) as QS.
  unfold at_ in *. cbn [log bad bad_n skip skip_n rmem] in *.
  rewrite QF, QS in IH. rewrite map_app in IH. cbn [map] in IH. unfold run_of at 2 in IH.
  destruct (verdict_at outcome r) eqn:V; cbn [is_verdict] in *; rewrite ?app_nil_r in IH.
  - exact IH.
  - rewrite record_good by (cbn [calls]; apply O; rewrite PF, PS, !app_length; cbn; lia). cbn [calls live].
    rewrite app_length in IH. cbn [List.length] in IH. rewrite blocks_snoc in IH. rewrite <- IH. f_equal. f_equal; [lia|]. f_equal; lia.
  - rewrite record_good by (cbn [calls]; apply O; rewrite PF, PS, !app_length; cbn; lia). cbn [calls live].
    rewrite app_length in IH. cbn [List.length] in IH. rewrite blocks_snoc in IH. rewrite <- IH. f_equal. f_equal; [lia|]. f_equal; lia.
Qed.

Lemma names_good all (is : list nat) (rs : list reg) : Forall2 (fun i r => nth_error all i = Some r) is rs ->
  names (good all) (array (map Some is)) (List.length is) 0 = Some (map title rs).
Proof.
  intros H. destruct is as [|i0 is0]; [inversion H; reflexivity|]. cbn [array map]. change (Some i0 :: map Some is0) with (map Some (i0 :: is0)).
  remember (i0 :: is0) as is eqn:Ei. clear Ei i0 is0.
  assert (G : forall pre post rs, Forall2 (fun i r => nth_error all i = Some r) post rs -> is = pre ++ post ->
    names (good all) (Some (map Some is)) (List.length post) (List.length pre) = Some (map title rs)).
  { clear H rs. intros pre post. revert pre. induction post as [|i post IH]; intros pre rs H E; inversion H as [|? r ? rs' Hr H']; subst; [reflexivity|].
    cbn [List.length names]. rewrite nth_error_map, nth_error_app2, Nat.sub_diag by lia. cbn [nth_error option_map]. rewrite (fetch_good _ _ _ Hr).
    specialize (IH (pre ++ [i]) rs' H'). rewrite app_length in IH. cbn [List.length] in IH. rewrite Nat.add_comm in IH. cbn [Nat.add] in IH.
    rewrite IH by (now rewrite <- app_assoc). reflexivity. }
  exact (G [] is rs H eq_refl).
Qed.

Lemma positions_named outcome v rest : forall d, Forall2 (fun i r => nth_error (d ++ rest) i = Some r) (positions outcome v (List.length d) rest) (with_verdict outcome v rest).
Proof.
  induction rest as [|r rest IH]; intros d; [constructor|]. specialize (IH (d ++ [r])). rewrite <- app_assoc in IH. rewrite app_length in IH. cbn [List.length app] in IH.
  rewrite Nat.add_comm in IH. cbn [Nat.add] in IH. cbn [positions with_verdict filter]. fold (with_verdict outcome v rest).
  change (match verdict_at outcome r with Passed => _ | Failure => _ | Skipped => _ end) with (is_verdict (verdict_at outcome r) v).
  destruct (is_verdict (verdict_at outcome r) v); [|exact IH]. constructor; [|exact IH]. rewrite nth_error_app2, Nat.sub_diag by lia. reflexivity.
Qed.

Lemma free_good all rest : forall d m, all = d ++ rest ->
  free_names (good all) (List.length rest) (List.length d) m = Some (mkmem (calls m) (live m - Z.of_nat (List.length rest))%Z).
Proof.
  induction rest as [|r rest IH]; intros d m E; [cbn; destruct m; cbn; do 2 f_equal; lia|]. cbn [List.length free_names].
  assert (N : nth_error (map cell_of all) (List.length d) = Some (cell_of r)) by (rewrite nth_error_map, E, nth_error_app2, Nat.sub_diag by lia; reflexivity).
  unfold good at 1. cbn [tests]. assert (A : array (map cell_of all) = Some (map cell_of all)) by (rewrite E; now destruct d). rewrite A, N. unfold cell_of at 1.
  specialize (IH (d ++ [r]) (free m (Some (title r)))). rewrite app_length in IH. cbn [List.length] in IH. rewrite Nat.add_comm in IH. cbn [Nat.add] in IH.
  rewrite IH by (now rewrite <- app_assoc). cbn [free calls live]. do 2 f_equal. lia.
Qed.

Lemma program_good o outcome rs : Forall index_ok rs -> succeed o (allocations outcome rs) -> Forall (fun r => r_kind r <> Fixture) rs ->
  program o outcome rs = Some (mkreport (map (run_of outcome) rs) (map title (with_verdict outcome Skipped rs)) (map title (with_verdict outcome Failure rs)) 0).
Proof.
  intros Ok O F. unfold program. assert (O1 : succeed o (2 * (List.length (@nil reg) + List.length rs))) by (intros k L; apply O; unfold allocations; cbn in L; lia).
  pose proof (register_all_good o rs [] O1 F Ok) as R. change (good []) with start in R. rewrite R. cbn [app].
  set (s := good rs). pose proof (loop_good o outcome rs (memory s) rs [] eq_refl) as L. unfold at_ in L at 1. cbn [positions map array List.length blocks] in L.
  assert (M : mkmem (calls (memory s) + 0 + 0) (live (memory s) + 0 + 0)%Z = memory s) by (destruct (memory s) as [c v]; cbn; f_equal; lia).
  rewrite M in L. fold s in L. change (tests_length s) with (List.length rs). rewrite L.
  2: { intros k Hk. apply O. unfold allocations. rewrite !positions_length in Hk. unfold s, good in Hk. cbn [memory calls] in Hk. lia. }
  unfold at_. cbn [skip skip_n bad bad_n rmem log].
  pose proof (names_good rs _ _ (positions_named outcome Skipped rs [])) as N1. pose proof (names_good rs _ _ (positions_named outcome Failure rs [])) as N2.
  cbn [List.length] in N1, N2. fold s in N1, N2. rewrite N1, N2.
  pose proof (free_good rs rs [] (mkmem (calls (memory s) + List.length (positions outcome Failure 0 rs) + List.length (positions outcome Skipped 0 rs))
    (live (memory s) + blocks (positions outcome Failure 0 rs) + blocks (positions outcome Skipped 0 rs))%Z) eq_refl) as Fr. cbn [List.length] in Fr.
  fold s in Fr. rewrite Fr. cbn [calls live]. do 2 f_equal. unfold s, good. cbn [tests memory live].
  destruct (positions outcome Skipped 0 rs), (positions outcome Failure 0 rs), rs; cbn [map array free live calls blocks]; lia.
Qed.

(** ** Something fails *)

Definition broken (s : state) : Prop := 1 <= tests_length s /\
  (tests s = None \/ exists l c i, tests s = Some l /\ i < tests_length s /\ nth_error l i = Some c /\ (c_index c = None \/ c_name c = None)).

Lemma broken_fetch s : broken s -> exists i, i < tests_length s /\ fetch s i = None.
Proof.
  intros [L [E|(l & c & i & E & Li & N & H)]].
  - exists 0. split; [lia|]. unfold fetch. now rewrite E.
  - exists i. split; [exact Li|]. unfold fetch. rewrite E, N. destruct c as [f j n]. cbn in H. destruct H as [-> | ->]; destruct f; try reflexivity. now destruct j.
Qed.

Lemma loop_none o outcome s k : fetch s k = None -> forall todo i r, i <= k < i + todo -> run_loop o outcome s todo i r = None.
Proof.
  intros N. induction todo as [|todo IH]; intros i r L; [lia|]. cbn [run_loop]. destruct (Nat.eq_dec i k) as [->|D]; [now rewrite N|].
  destruct (fetch s i) as [[[name f] j]|]; [|reflexivity]. destruct (outcome f j).
  - apply IH. lia.
  - destruct (record _ _ _ _ _) as [[b m]|]; [apply IH; lia|reflexivity].
  - destruct (record _ _ _ _ _) as [[b m]|]; [apply IH; lia|reflexivity].
Qed.

Lemma succeed_S o n : succeed o n -> o n = true -> succeed o (S n).
Proof. intros H E k L. destruct (Nat.eq_dec k n) as [->|D]; [exact E|]. apply H. lia. Qed.

Lemma realloc_calls {A} (b : A) o m p n : calls (snd (realloc b o m p n)) = S (calls m).
Proof. unfold realloc. now destruct (o (calls m)), p. Qed.

Lemma register_any o s r s' : register o s r = Some s' -> tests_length s' = S (tests_length s) /\ calls (memory s') = 2 + calls (memory s) /\
  (broken s -> broken s') /\ (r_kind r = Fixture -> broken s') /\ (succeed o (calls (memory s)) -> succeed o (calls (memory s')) \/ broken s').
Proof.
  unfold register, malloc. intros H. destruct (o (calls (memory s))) eqn:O1; cbn [fst snd] in H.
  2: { destruct (realloc _ _ _ _ _) as [t m2]. destruct (match t with Some _ => _ | None => _ end); discriminate H. }
  pose proof (realloc_calls blank o (mkmem (S (calls (memory s))) (live (memory s) + 1)) (tests s) (S (tests_length s))) as C.
  destruct (realloc blank o _ (tests s) (S (tests_length s))) as [t m2] eqn:R. cbn [snd calls] in C.
  set (c := mkcell (Some (r_func r)) (match r_kind r with Plain => Some 0 | Fixture => None | Indexed i => Some i end) (Some (Some (snprintf (name_size r) (title r))))) in *.
  destruct t as [l|].
  - destruct (option_map Some (store (Some l) (tests_length s) c)) as [t'|] eqn:St; [|discriminate H]. injection H as <-. cbn [tests_length memory tests].
    cbn [store] in St. destruct (replace (tests_length s) c l) as [l'|] eqn:Re; [|discriminate St]. injection St as <-.
    destruct (replace_other c _ _ _ Re) as [R1 R2]. unfold realloc in R. cbn [calls live] in R. destruct (o (S (calls (memory s)))) eqn:O2; [|discriminate R].
    split; [reflexivity|]. split; [exact C|]. split; [|split].
    + intros [L B]. split; [cbn; lia|]. right. cbn [tests tests_length]. destruct (tests s) as [l0|] eqn:T.
      * destruct B as [B|(l1 & c1 & i & E & Li & N & Hc)]; [discriminate B|]. injection E as <-. injection R as Rl _. exists l', c1, i.
        split; [reflexivity|]. split; [lia|]. split; [|exact Hc]. rewrite R2 by lia. rewrite <- Rl. apply (grown_nth blank c1 l0 (S (tests_length s)) i N). lia.
      * injection R as Rl _. exists l', blank, 0. split; [reflexivity|]. split; [lia|]. split; [|now left]. rewrite R2 by lia. rewrite <- Rl. reflexivity.
    + intros K. split; [cbn; lia|]. right. cbn [tests tests_length]. exists l', c, (tests_length s). split; [reflexivity|]. split; [lia|]. split; [exact R1|]. left. unfold c. now rewrite K.
    + intros S0. left. rewrite C. apply succeed_S; [apply succeed_S; assumption|exact O2].
  - assert (B : broken s').
    { destruct (r_kind r); cbn in H; try discriminate H. injection H as <-. split; [cbn; lia|]. now left. }
    assert (E : tests_length s' = S (tests_length s) /\ memory s' = m2) by (destruct (r_kind r); cbn in H; try discriminate H; injection H as <-; now split).
    destruct E as [E1 E2]. rewrite E1, E2. split; [reflexivity|]. split; [exact C|]. split; [now intros _|]. split; [now intros _|]. intros _. now right.
Qed.

Lemma register_all_any o rs : forall s s', register_all o s rs = Some s' -> tests_length s' = tests_length s + List.length rs /\
  calls (memory s') = calls (memory s) + 2 * List.length rs /\ (broken s -> broken s') /\
  (succeed o (calls (memory s)) -> (succeed o (calls (memory s')) /\ Forall (fun r => r_kind r <> Fixture) rs) \/ broken s').
Proof.
  induction rs as [|r rs IH]; intros s s' H; cbn [register_all] in H.
  - injection H as <-. split; [cbn; lia|]. split; [cbn; lia|]. split; [auto|]. intros S0. left. split; [exact S0|constructor].
  - destruct (register o s r) as [s1|] eqn:R; [|discriminate H]. destruct (register_any _ _ _ _ R) as (E1 & E2 & B1 & K1 & S1).
    destruct (IH _ _ H) as (E3 & E4 & B2 & S2). split; [cbn; lia|]. split; [cbn; lia|]. split; [auto|]. intros S0.
    destruct (S1 S0) as [G|B]; [|right; auto]. destruct (S2 G) as [[G2 F]|B]; [|now right].
    destruct (r_kind r) eqn:K; try (left; split; [exact G2|constructor; [congruence|exact F]]). right. auto.
Qed.

Definition gap (p : indices) (n : nat) : Prop := 1 <= n /\ (p = None \/ exists l j, p = Some l /\ j < n /\ nth_error l j = Some None).

Lemma gap_names s p n : gap p n -> names s p n 0 = None.
Proof.
  intros [L [->|(l & j & -> & Lj & N)]].
  - destruct n; [lia|reflexivity].
  - assert (G : forall n i, i <= j < i + n -> names s (Some l) n i = None).
    { clear -N. induction n as [|n IH]; intros i L; [lia|]. cbn [names]. destruct (Nat.eq_dec i j) as [->|D]; [now rewrite N|].
      destruct (nth_error l i) as [[k|]|]; try reflexivity. destruct (fetch s k) as [[[name f] x]|]; [|reflexivity]. rewrite IH by lia. reflexivity. }
    apply G. lia.
Qed.

Lemma record_any o m p n i q m' : record o m p n i = Some (q, m') -> calls m' = S (calls m) /\ (gap p n -> gap q (S n)) /\
  (succeed o (calls m) -> succeed o (calls m') \/ gap q (S n)).
Proof.
  unfold record. intros H. pose proof (realloc_calls None o m p (S n)) as C. destruct (realloc None o m p (S n)) as [t m1] eqn:R. cbn [snd] in C.
  destruct t as [l|].
  - destruct (store (Some l) n (Some i)) as [l'|] eqn:St; [|discriminate H]. injection H as <- <-. split; [exact C|]. cbn [store] in St.
    destruct (replace_other (Some i) _ _ _ St) as [R1 R2]. unfold realloc in R. destruct (o (calls m)) eqn:O; [|discriminate R]. split.
    + intros [L B]. split; [lia|]. right. destruct p as [l0|].
      * destruct B as [B|(l1 & j & E & Lj & N)]; [discriminate B|]. injection E as <-. injection R as Rl _. exists l', j. split; [reflexivity|]. split; [lia|].
        rewrite R2 by lia. rewrite <- Rl. apply (grown_nth None None l0 (S n) j N). lia.
      * injection R as Rl _. exists l', 0. split; [reflexivity|]. split; [lia|]. rewrite R2 by lia. rewrite <- Rl. reflexivity.
    + intros S0. left. rewrite C. now apply succeed_S.
  - injection H as <- <-. split; [exact C|]. split; [intros _|intros _; right]; (split; [lia|now left]).
Qed.

Definition fine (o : supply) (r : running) : Prop := succeed o (calls (rmem r)) \/ gap (bad r) (bad_n r) \/ gap (skip r) (skip_n r).

Lemma loop_any o outcome s rs rest : (forall i r, nth_error rs i = Some r -> forall x, fetch s i = Some x -> x = (title r, r_func r, index_of r)) ->
  forall d r r', rs = d ++ rest -> fine o r -> run_loop o outcome s (List.length rest) (List.length d) r = Some r' ->
  fine o r' /\ calls (rmem r') = calls (rmem r) + List.length (with_verdict outcome Failure rest) + List.length (with_verdict outcome Skipped rest).
Proof.
  intros Hf. induction rest as [|t rest IH]; intros d r r' E Fi H; cbn [List.length run_loop] in H.
  - injection H as <-. split; [exact Fi|cbn; lia].
  - destruct (fetch s (List.length d)) as [x|] eqn:Fe; [|discriminate H].
    assert (N : nth_error rs (List.length d) = Some t) by (rewrite E, nth_error_app2, Nat.sub_diag by lia; reflexivity).
    pose proof (Hf _ _ N x Fe) as ->. assert (E' : rs = (d ++ [t]) ++ rest) by (rewrite <- app_assoc; exact E).
    assert (Ln : List.length (d ++ [t]) = S (List.length d)) by (rewrite app_length; cbn; lia). specialize (IH (d ++ [t])). rewrite Ln in IH.
    cbn [with_verdict filter]. fold (with_verdict outcome Failure rest). fold (with_verdict outcome Skipped rest).
    change (outcome (r_func t) (index_of t)) with (verdict_at outcome t) in H. destruct (verdict_at outcome t) eqn:V.
    + destruct (IH (mkrunning (log r ++ [(title t, r_func t, index_of t, Passed)]) (bad r) (bad_n r) (skip r) (skip_n r) (rmem r)) r' E' Fi H) as [F' C']. split; [exact F'|exact C'].
    + destruct (record o (rmem r) (bad r) (bad_n r) (List.length d)) as [[b m]|] eqn:Re; [|discriminate H]. destruct (record_any _ _ _ _ _ _ _ Re) as (C & G & S0).
      assert (Fi' : fine o (mkrunning (log r ++ [(title t, r_func t, index_of t, Failure)]) b (S (bad_n r)) (skip r) (skip_n r) m)).
      { destruct Fi as [Fi|[Fi|Fi]]; [destruct (S0 Fi); [now left|right; now left]|right; left; exact (G Fi)|right; now right]. }
      destruct (IH _ _ E' Fi' H) as [F' C']. split; [exact F'|]. cbn [rmem] in C'. cbn [List.length]. lia.
    + destruct (record o (rmem r) (skip r) (skip_n r) (List.length d)) as [[b m]|] eqn:Re; [|discriminate H]. destruct (record_any _ _ _ _ _ _ _ Re) as (C & G & S0).
      assert (Fi' : fine o (mkrunning (log r ++ [(title t, r_func t, index_of t, Skipped)]) (bad r) (bad_n r) b (S (skip_n r)) m)).
      { destruct Fi as [Fi|[Fi|Fi]]; [destruct (S0 Fi); [now left|right; now right]|right; now left|right; right; exact (G Fi)]. }
      destruct (IH _ _ E' Fi' H) as [F' C']. split; [exact F'|]. cbn [rmem] in C'. cbn [List.length]. lia.
Qed.

Lemma program_only o outcome rs rep : Forall index_ok rs -> program o outcome rs = Some rep -> succeed o (allocations outcome rs) /\ Forall (fun r => r_kind r <> Fixture) rs.
Proof.
  intros Ok. unfold program. intros H. destruct (register_all o start rs) as [s|] eqn:R; [|discriminate H]. destruct (register_all_any _ _ _ _ R) as (E1 & E2 & _ & S1).
  assert (S0 : succeed o (calls (memory start))) by (intros k L; cbn in L; lia). destruct (S1 S0) as [[G F]|B].
  2: { destruct (broken_fetch s B) as (i & Li & N). rewrite (loop_none o outcome s i N) in H by lia. discriminate H. }
  cbn in E1, E2. assert (Eg : s = good rs).
  { assert (O1 : succeed o (2 * (List.length (@nil reg) + List.length rs))) by (intros k L; apply G; cbn in L |- *; lia).
    pose proof (register_all_good o rs [] O1 F Ok) as Rg. change (good []) with start in Rg. rewrite R in Rg. cbn [app] in Rg. now injection Rg. }
  destruct (run_loop o outcome s (tests_length s) 0 _) as [r|] eqn:L; [|discriminate H].
  assert (Hf : forall i r, nth_error rs i = Some r -> forall x, fetch s i = Some x -> x = (title r, r_func r, index_of r)).
  { intros i t N x Fx. rewrite Eg, (fetch_good _ _ _ N) in Fx. now injection Fx. }
  rewrite E1 in L. destruct (loop_any o outcome s rs rs Hf [] (mkrunning [] None 0 None 0 (memory s)) r eq_refl (or_introl G) L) as [Fi C]. cbn [rmem] in C.
  split; [|exact F]. destruct Fi as [Fi|[Fi|Fi]].
  - intros k Lk. apply Fi. unfold allocations in Lk. lia.
  - rewrite (gap_names s _ _ Fi) in H. destruct (names s (skip r) (skip_n r) 0); discriminate H.
  - rewrite (gap_names s _ _ Fi) in H. discriminate H.
Qed.

(** ** The consequences *)

Lemma program_iff o outcome rs : Forall index_ok rs ->
  ((exists rep, program o outcome rs = Some rep) <-> succeed o (allocations outcome rs) /\ Forall (fun r => r_kind r <> Fixture) rs).
Proof.
  intros Ok. split; [intros [rep H]; exact (program_only _ _ _ _ Ok H)|]. intros [S0 F]. eexists. apply program_good; assumption.
Qed.

Lemma program_exhausted o outcome rs k : Forall index_ok rs -> k < allocations outcome rs -> o k = false -> program o outcome rs = None.
Proof.
  intros Ok L O. destruct (program o outcome rs) as [rep|] eqn:E; [|reflexivity]. destruct (program_only _ _ _ _ Ok E) as [S0 _]. rewrite (S0 k L) in O. discriminate O.
Qed.

Lemma program_fixture o outcome rs : Forall index_ok rs -> Exists (fun r => r_kind r = Fixture) rs -> program o outcome rs = None.
Proof.
  intros Ok X. destruct (program o outcome rs) as [rep|] eqn:E; [|reflexivity]. destruct (program_only _ _ _ _ Ok E) as [_ F]. exfalso.
  apply Exists_exists in X. destruct X as (r & Hr & K). rewrite Forall_forall in F. exact (F r Hr K).
Qed.

Lemma indexed_names name f n : (Z.of_nat n < 2 ^ 64)%Z -> NoDup (map title (indexed name f n)) /\ Forall index_ok (indexed name f n).
Proof.
  intros L. unfold indexed. split.
  - rewrite map_map. unfold title. cbn [r_kind r_name].
    assert (G : forall l, NoDup l -> (forall i, In i l -> i < n) -> NoDup (map (fun i => name ++ Runner.chars "/" ++ Helper.digits 64 10 (Z.of_nat i) []) l)).
    { induction l as [|i l IH]; intros N B; [constructor|]. inversion N as [|? ? N1 N2]; subst. cbn [map]. constructor.
      - intros H. apply in_map_iff in H. destruct H as (j & E & Hj). apply app_inv_head in E. apply app_inv_head in E. apply N1.
        assert (Bi : (0 <= Z.of_nat i < 2 ^ 64)%Z) by (specialize (B i (or_introl eq_refl)); lia).
        assert (Bj : (0 <= Z.of_nat j < 2 ^ 64)%Z) by (specialize (B j (or_intror Hj)); lia).
        destruct (P_Helper.digits_numeral 10 (Z.of_nat i) ltac:(cbn; tauto) Bi) as (_ & _ & _ & Vi).
        destruct (P_Helper.digits_numeral 10 (Z.of_nat j) ltac:(cbn; tauto) Bj) as (_ & _ & _ & Vj).
        rewrite E in Vj. rewrite Vi in Vj. apply Nat2Z.inj in Vj. rewrite Vj. exact Hj.
      - apply IH; [exact N2|]. intros k Hk. apply B. now right. }
    apply G; [apply seq_NoDup|]. intros i Hi. apply in_seq in Hi. lia.
  - apply Forall_forall. intros r Hr. apply in_map_iff in Hr. destruct Hr as (i & <- & Hi). apply in_seq in Hi. unfold index_ok, index_of. cbn [r_kind]. lia.
Qed.
