(** The test runner. *)
From Coq Require Import ZArith Arith String Ascii List Bool Lia Permutation.
From Verif Require Import Runner RunnerSpec.
Import ListNotations.
Open Scope Z_scope.

(** ** Bodies *)

Lemma reaches_cons x b e : (x = Expect true \/ x = Expect false \/ x = Assert true) -> reaches b e -> reaches (x :: b) e.
Proof. intros Hx (pre & post & -> & F). exists (x :: pre), post. split; [reflexivity|now constructor]. Qed.
Lemma reaches_tail x b e : x <> e -> reaches (x :: b) e -> reaches b e.
Proof.
  intros N (pre & post & E & F). destruct pre as [|y pre]; cbn in E; injection E as -> E; [congruence|].
  exists pre, post. split; [exact E|now inversion F].
Qed.
Lemma reaches_now e b : reaches (e :: b) e.
Proof. exists [], b. split; [reflexivity|constructor]. Qed.
Lemma reaches_stop x b e : x <> Expect true -> x <> Expect false -> x <> Assert true -> reaches (x :: b) e -> x = e.
Proof.
  intros N1 N2 N3 (pre & post & E & F). destruct pre as [|y pre]; cbn in E; injection E as -> E; [reflexivity|].
  inversion F as [|? ? H]; subst. destruct H as [H|[H|H]]; congruence.
Qed.

Lemma failed_stays : forall b, ~ reaches b Skip -> ~ reaches b Die -> run_body Failure b = Some Failure.
Proof.
  induction b as [|x b IH]; intros Ns Nd; [reflexivity|].
  assert (Tl : x = Expect true \/ x = Expect false \/ x = Assert true -> run_body Failure b = Some Failure).
  { intros Hx. apply IH; intros H; [apply Ns|apply Nd]; now apply reaches_cons. }
  destruct x as [[]|[]| | |]; cbn [run_body]; auto; exfalso; [apply Ns|apply Nd]; apply reaches_now.
Qed.

(** A body that neither skips nor dies ends with [Failure] if something goes wrong, and else as it began. *)
Lemma body_verdict : forall b r, ~ reaches b Skip -> ~ reaches b Die ->
  (goes_wrong b -> run_body r b = Some Failure) /\ (~ goes_wrong b -> run_body r b = Some r).
Proof.
  induction b as [|x b IH]; intros r Ns Nd.
  - split; [|reflexivity]. intros [H|[H|H]]; destruct H as ([|? ?] & ? & E & _); discriminate.
  - assert (Tl : x = Expect true \/ x = Expect false \/ x = Assert true -> ~ reaches b Skip /\ ~ reaches b Die).
    { intros Hx. split; intros H; [apply Ns|apply Nd]; now apply reaches_cons. }
    assert (On : x = Expect true \/ x = Assert true ->
      (goes_wrong (x :: b) -> run_body r b = Some Failure) /\ (~ goes_wrong (x :: b) -> run_body r b = Some r)).
    { intros Hx. assert (Hx' : x = Expect true \/ x = Expect false \/ x = Assert true) by tauto.
      destruct (Tl Hx') as [N1 N2]. destruct (IH r N1 N2) as [A B]. split; intros H.
      - apply A. destruct H as [H|[H|H]]; [left|right; left|right; right]; (apply reaches_tail in H; [exact H|destruct Hx as [-> | ->]; discriminate]).
      - apply B. intros G. apply H. destruct G as [G|[G|G]]; [left|right; left|right; right]; now apply reaches_cons. }
    destruct x as [[]|[]| | |]; cbn [run_body]; auto.
    + destruct (Tl ltac:(auto)) as [N1 N2]. split; intros H; [now apply failed_stays|]. exfalso. apply H. left. apply reaches_now.
    + split; intros H; [reflexivity|]. exfalso. apply H. right; left. apply reaches_now.
    + exfalso. apply Ns, reaches_now.
    + split; intros H; [reflexivity|]. exfalso. apply H. right; right. apply reaches_now.
    + exfalso. apply Nd, reaches_now.
Qed.

(** Only abort ends the process. *)
Lemma body_dies : forall b r, run_body r b = None <-> reaches b Die.
Proof.
  induction b as [|x b IH]; intros r; cbn [run_body].
  - split; [discriminate|]. intros ([|? ?] & ? & E & _); discriminate.
  - destruct x as [[]|[]| | |];
    try (rewrite IH; split; intros H; [apply reaches_cons; auto|apply reaches_tail in H; [exact H|discriminate]]);
    try (split; [discriminate|intros H; apply reaches_stop in H; discriminate]).
    split; [intros _; apply reaches_now|reflexivity].
Qed.

(** ** Order *)

Lemma swap_perm {A} (l : list A) i j : (i < List.length l)%nat -> (j < List.length l)%nat ->
  exists l', swap l i j = Some l' /\ Permutation l l' /\ List.length l' = List.length l.
Proof.
  intros Hi Hj. unfold swap.
  destruct (nth_error l i) as [x|] eqn:Ei; [|apply nth_error_None in Ei; lia].
  destruct (nth_error l j) as [y|] eqn:Ej; [|apply nth_error_None in Ej; lia].
  eexists. split; [reflexivity|]. split; [|now rewrite map_length, seq_length].
  apply (Permutation_nth l _ x). rewrite map_length, seq_length. split; [reflexivity|].
  exists (fun k => if (k =? j)%nat then i else if (k =? i)%nat then j else k). split; [|split].
  - intros k Hk. destruct (k =? i)%nat, (k =? j)%nat; assumption.
  - intros k k' Hk Hk' E. destruct (Nat.eqb_spec k i), (Nat.eqb_spec k j), (Nat.eqb_spec k' i), (Nat.eqb_spec k' j); lia.
  - intros k Hk. set (f := fun k => if (k =? j)%nat then x else if (k =? i)%nat then y else nth k l x).
    rewrite (nth_indep _ x (f 0%nat)) by (now rewrite map_length, seq_length). rewrite map_nth, seq_nth by exact Hk. cbn [Nat.add]. unfold f.
    destruct (Nat.eqb_spec k j) as [->|Nj].
    + apply (nth_error_nth _ _ x) in Ei. now rewrite Ei.
    + destruct (Nat.eqb_spec k i) as [->|Ni]; [|reflexivity]. apply (nth_error_nth _ _ x) in Ej. now rewrite Ej.
Qed.

Lemma pick_in seed index : (0 < index)%nat -> Z.of_nat index < 2 ^ 32 -> exists k, pick seed index = Some k /\ (k < index)%nat.
Proof.
  intros P H. unfold pick, u32. rewrite (Z.mod_small (Z.of_nat index)) by lia.
  destruct (Z.eqb_spec (Z.of_nat index) 0) as [E|E]; [lia|]. eexists. split; [reflexivity|].
  set (w := Z.lxor _ _). pose proof (Z.mod_pos_bound w (Z.of_nat index) ltac:(lia)). lia.
Qed.

Lemma shuffle_perm {A} : forall index seed (l : list A), (index <= List.length l)%nat -> Z.of_nat (List.length l) < 2 ^ 32 ->
  exists l', shuffle index seed l = Some l' /\ Permutation l l'.
Proof.
  induction index as [|[|i] IH]; intros seed l L B; [exists l; split; [reflexivity|apply Permutation_refl]..|].
  destruct (pick_in seed (S (S i)) ltac:(lia) ltac:(lia)) as (k & Ek & Hk).
  destruct (swap_perm l (S i) k ltac:(lia) ltac:(lia)) as (l1 & E1 & P1 & L1).
  destruct (IH (u32 (seed * 747796405 + 2891336453)) l1 ltac:(lia) ltac:(rewrite L1; exact B)) as (l2 & E2 & P2).
  exists l2. split; [|eapply Permutation_trans; eassumption].
  cbn [shuffle]. rewrite Ek, E1. exact E2.
Qed.

(** ** Selection by name *)

Lemma glob_app f g t u : glob f t -> glob g u -> glob (f ++ g) (t ++ u).
Proof.
  induction 1 as [|s f t _ IH|a f t N _ IH]; intros G; cbn [app]; [exact G| |].
  - rewrite <- app_assoc. constructor. now apply IH.
  - constructor; [exact N|]. now apply IH.
Qed.

Lemma glob_any s : glob [star] s.
Proof. rewrite <- (app_nil_r s). constructor. constructor. Qed.
Lemma glob_one a : a <> star -> glob [a] [a].
Proof. intros N. constructor; [exact N|constructor]. Qed.

Lemma glob_more f : forall t s, glob (f ++ [star]) t -> glob (f ++ [star]) (t ++ s).
Proof.
  induction f as [|a f IH]; intros t s H; cbn [app] in *; [apply glob_any|].
  inversion H as [|s0 f0 t0 G|a0 f0 t0 N G]; subst.
  - rewrite <- app_assoc. constructor. now apply IH.
  - cbn [app]. constructor; [exact N|]. now apply IH.
Qed.

Lemma glob_plain f : ~ In star f -> forall t, glob f t -> t = f.
Proof.
  induction f as [|a f IH]; intros N t H; inversion H as [|s0 f0 t0 G|a0 f0 t0 Na G]; subst; [reflexivity| |].
  - exfalso. apply N. now left.
  - f_equal. apply IH; [|exact G]. intros I. apply N. now right.
Qed.

Lemma glob_prefix p : ~ In star p -> forall t, glob (p ++ [star]) t -> exists r, t = p ++ r.
Proof.
  induction p as [|a p IH]; intros N t H; cbn [app] in *; [now exists t|].
  inversion H as [|s0 f0 t0 G|a0 f0 t0 Na G]; subst.
  - exfalso. apply N. now left.
  - destruct (IH (fun I => N (or_intror I)) t0 G) as (r & ->). now exists r.
Qed.

Lemma char_end s : char_at s (List.length s) = Some NUL.
Proof. unfold char_at. now rewrite Nat.ltb_irrefl, Nat.eqb_refl. Qed.
Lemma char_in s i a : nth_error s i = Some a -> char_at s i = Some a.
Proof.
  intros H. unfold char_at. assert (L : (i < List.length s)%nat) by (apply nth_error_Some; congruence).
  apply Nat.ltb_lt in L. rewrite L. f_equal. now apply nth_error_nth.
Qed.

(** A position in a C string is at a character other than 0, or at the end. *)
Lemma char_cases s i : c_string s -> (i <= List.length s)%nat ->
  (exists a, nth_error s i = Some a /\ char_at s i = Some a /\ Ascii.eqb a NUL = false /\ (i < List.length s)%nat)
  \/ (i = List.length s /\ char_at s i = Some NUL).
Proof.
  intros C L. destruct (Nat.eq_dec i (List.length s)) as [->|N]; [right; split; [reflexivity|apply char_end]|left].
  destruct (nth_error s i) as [a|] eqn:E; [|apply nth_error_None in E; lia]. exists a. split; [reflexivity|]. split; [now apply char_in|]. split; [|lia].
  apply Ascii.eqb_neq. intros ->. apply C. now apply nth_error_In in E.
Qed.

Lemma firstn_next {A} (s : list A) i a : nth_error s i = Some a -> firstn (S i) s = firstn i s ++ [a].
Proof.
  revert i. induction s as [|x s IH]; intros [|i] H; try discriminate; [now injection H as ->|].
  cbn [firstn app]. f_equal. now apply IH.
Qed.

Section Filter.
Context (f t : list ascii) (Cf : c_string f) (Ct : c_string t).

Definition weight (wild : option nat) (fc tc : nat) : nat :=
  ((List.length t - tc) * (2 * List.length f + 4) + 2 * (List.length f - fc) + (if wild then 1 else 0))%nat.

(** What has been read of the pattern matches what has been read of the name; in the inner loop the pattern up to the
    star matches some shorter part of the name. *)
Definition so_far (wild : option nat) (fc tc : nat) : Prop :=
  (fc <= List.length f)%nat /\ (tc <= List.length t)%nat /\ glob (firstn fc f) (firstn tc t) /\
  match wild with
  | None => True
  | Some wc => nth_error f wc = Some star /\ (wc < fc)%nat /\ exists j, (j <= tc)%nat /\ glob (firstn wc f) (firstn j t)
  end.

Lemma filter_sound_gen : forall fuel wild fc tc, so_far wild fc tc -> (weight wild fc tc < fuel)%nat ->
  exists b, filter_loop fuel f t wild fc tc = Answer b /\ (b = false -> glob f t).
Proof.
  induction fuel as [|fuel IH]; intros wild fc tc Inv W; [lia|].
  destruct Inv as (Lf & Lt & G & Iw). cbn [filter_loop].
  destruct (char_cases f fc Cf Lf) as [(a & Ea & -> & Na & Ba)|(Ef & ->)];
  destruct (char_cases t tc Ct Lt) as [(b & Eb & -> & Nb & Bb)|(Et & ->)]; rewrite ?Na, ?Nb, ?Ascii.eqb_refl; cbn [negb andb].
  - assert (Next : a <> star -> a = b -> glob (firstn (S fc) f) (firstn (S tc) t)).
    { intros N ->. rewrite (firstn_next f fc b Ea), (firstn_next t tc b Eb). apply glob_app; [exact G|now apply glob_one]. }
    assert (W1 : (List.length t - tc = S (List.length t - S tc))%nat) by lia.
    assert (W2 : ((List.length t - tc) * (2 * List.length f + 4) = 2 * List.length f + 4 + (List.length t - S tc) * (2 * List.length f + 4))%nat) by (rewrite W1 at 1; reflexivity).
    destruct wild as [wc|].
    + destruct Iw as (Ew & Lw & j & Hj & Gj). destruct (Ascii.eqb_spec a star) as [->|Ns]; [|destruct (Ascii.eqb_spec a b) as [E|N]; cbn [negb]].
      * apply IH; [now split|]. unfold weight in *. lia.
      * apply IH; [|unfold weight in *; lia]. split; [lia|]. split; [lia|]. split; [now apply Next|]. split; [exact Ew|]. split; [lia|]. exists j. split; [lia|exact Gj].
      * apply IH; [|unfold weight in *; lia]. split; [lia|]. split; [lia|]. split; [|split; [exact Ew|]; split; [lia|]; exists j; split; [lia|exact Gj]].
        rewrite (firstn_next f wc star Ew). replace (firstn (S tc) t) with (firstn j t ++ skipn j (firstn (S tc) t)).
        -- apply glob_app; [exact Gj|apply glob_any].
        -- rewrite <- (firstn_skipn j (firstn (S tc) t)) at 2. f_equal. rewrite firstn_firstn. f_equal. lia.
    + destruct (Ascii.eqb_spec a star) as [->|Ns]; [|destruct (Ascii.eqb_spec b a) as [E|N]; cbn [negb]].
      * apply IH; [|unfold weight in *; lia]. split; [lia|]. split; [exact Lt|]. split.
        -- rewrite (firstn_next f fc star Ea). rewrite <- (app_nil_r (firstn tc t)). apply glob_app; [exact G|apply glob_any].
        -- split; [exact Ea|]. split; [lia|]. exists tc. split; [lia|exact G].
      * apply IH; [|unfold weight in *; lia]. split; [lia|]. split; [lia|]. split; [apply Next; congruence|exact I].
      * exists true. split; [reflexivity|discriminate].
  - destruct wild; exists true; (split; [reflexivity|discriminate]).
  - subst fc. rewrite firstn_all in G. destruct wild as [wc|].
    + apply IH; [|unfold weight in *; lia]. split; [lia|]. split; [exact Lt|]. split; [now rewrite firstn_all|exact I].
    + destruct (List.length f) as [|p] eqn:Lp; [exists true; split; [reflexivity|discriminate]|].
      assert (exists l, nth_error f p = Some l) as (l & El) by (destruct (nth_error f p) as [l|] eqn:E; [now exists l|apply nth_error_None in E; lia]).
      rewrite (char_in f p l El). destruct (Ascii.eqb_spec l star) as [->|N]; cbn [negb]; [|exists true; split; [reflexivity|discriminate]].
      exists false. split; [reflexivity|]. intros _.
      assert (Ef : f = firstn p f ++ [star]) by (rewrite <- (firstn_next f p star El), <- Lp; symmetry; apply firstn_all).
      rewrite <- (firstn_skipn tc t). rewrite Ef in G |- *. now apply glob_more.
  - subst fc tc. rewrite !firstn_all in G. destruct wild; exists false; (split; [reflexivity|intros _; exact G]).
Qed.

Lemma filter_sound : exists b, should_filter (Some f) t = Answer b /\ (b = false -> glob f t).
Proof.
  unfold should_filter. apply filter_sound_gen.
  - repeat split; try lia. cbn [firstn]. constructor.
  - unfold weight, turns. lia.
Qed.

(** Characters that agree are passed over. *)
Lemma filter_skip p : forall k fuel, (k <= List.length p)%nat -> ~ In star p -> (exists r, f = p ++ r) -> (exists r, t = p ++ r) ->
  (List.length p - k <= fuel)%nat ->
  filter_loop fuel f t None k k = filter_loop (fuel - (List.length p - k)) f t None (List.length p) (List.length p).
Proof.
  intros k fuel Hk Np (r & Ef) (r' & Et). remember (List.length p - k)%nat as todo eqn:E. revert k fuel Hk E.
  induction todo as [|todo IH]; intros k fuel Hk E Hf.
  - replace k with (List.length p) by lia. now rewrite Nat.sub_0_r.
  - destruct fuel as [|fuel]; [lia|]. rewrite Nat.sub_succ. rewrite <- (IH (S k) fuel) by lia.
    assert (Hp : exists a, nth_error p k = Some a) by (destruct (nth_error p k) as [a|] eqn:Ek; [now exists a|apply nth_error_None in Ek; lia]).
    destruct Hp as (a & Ea). assert (Fa : nth_error f k = Some a) by (rewrite Ef, nth_error_app1 by lia; exact Ea).
    assert (Ta : nth_error t k = Some a) by (rewrite Et, nth_error_app1 by lia; exact Ea).
    assert (Z : Ascii.eqb a NUL = false) by (apply Ascii.eqb_neq; intros ->; apply Cf; now apply nth_error_In in Fa).
    assert (St : Ascii.eqb a star = false) by (apply Ascii.eqb_neq; intros ->; apply Np; now apply nth_error_In in Ea).
    cbn [filter_loop]. rewrite (char_in f k a Fa), (char_in t k a Ta), Z, St, Ascii.eqb_refl. reflexivity.
Qed.
End Filter.

Lemma filter_exact f t : c_string f -> c_string t -> ~ In star f -> (should_filter (Some f) t = Answer false <-> t = f).
Proof.
  intros Cf Ct N. split.
  - intros H. destruct (filter_sound f t Cf Ct) as (b & E & S). rewrite H in E. injection E as <-. apply (glob_plain f N). now apply S.
  - intros ->. unfold should_filter. rewrite (filter_skip f f Cf f 0); try lia; [| exact N|exists []; symmetry; apply app_nil_r..|unfold turns; lia].
    assert (P : exists k, (turns f f - (List.length f - 0) = S k)%nat) by (exists (turns f f - List.length f - 1)%nat; unfold turns; lia).
    destruct P as (k & ->). cbn [filter_loop]. rewrite char_end. reflexivity.
Qed.

Lemma filter_prefix p t : c_string p -> c_string t -> ~ In star p ->
  (should_filter (Some (p ++ [star])) t = Answer false <-> exists a r, t = p ++ a :: r).
Proof.
  intros Cp Ct N.
  assert (Cf : c_string (p ++ [star])) by (intros H; apply in_app_iff in H as [H|[H|[]]]; [now apply Cp|discriminate]).
  assert (Run : forall r, t = p ++ r -> exists fuel, should_filter (Some (p ++ [star])) t = filter_loop (S (S (S fuel))) (p ++ [star]) t None (List.length p) (List.length p)).
  { intros r ->. unfold should_filter. rewrite (filter_skip (p ++ [star]) (p ++ r) Cf p 0); try lia; [|exact N|now eexists|now eexists|unfold turns; rewrite !app_length; cbn [List.length]; lia].
    exists (turns (p ++ [star]) (p ++ r) - List.length p - 3)%nat. f_equal. unfold turns. rewrite !app_length. cbn [List.length]. lia. }
  assert (Fs : char_at (p ++ [star]) (List.length p) = Some star) by (apply char_in; rewrite nth_error_app2, Nat.sub_diag by lia; reflexivity).
  assert (Fe : char_at (p ++ [star]) (S (List.length p)) = Some NUL) by (replace (S (List.length p)) with (List.length (p ++ [star])) by (rewrite app_length; cbn [List.length]; lia); apply char_end).
  split.
  - intros H. destruct (filter_sound (p ++ [star]) t Cf Ct) as (b & E & S). rewrite H in E. injection E as <-.
    destruct (glob_prefix p N t (S eq_refl)) as ([|a r] & E); [|now exists a, r].
    destruct (Run [] E) as (k & R). rewrite R in H. rewrite app_nil_r in E. subst t. cbn [filter_loop] in H.
    rewrite Fs, char_end in H. cbn in H. discriminate.
  - intros (a & r & E). destruct (Run (a :: r) E) as (k & ->).
    assert (Ta : char_at t (List.length p) = Some a) by (apply char_in; rewrite E, nth_error_app2, Nat.sub_diag by lia; reflexivity).
    assert (Z : Ascii.eqb a NUL = false) by (apply Ascii.eqb_neq; intros ->; apply Ct; rewrite E; apply in_app_iff; right; now left).
    cbn [filter_loop]. rewrite !Fs, !Ta, !Fe, !Z. reflexivity.
Qed.
