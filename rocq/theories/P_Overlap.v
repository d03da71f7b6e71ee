(** Moving blocks within and between arrays. *)
From Coq Require Import ZArith Arith String List Bool Lia.
From Verif Require Import Types Syntax Interp ProgRecip Library Spec Tables MetaSpec ExecLemmas Ew Client Transpose Pixels Overlap.
From Verif Require Import P_AddSub P_SubMore P_Mul P_Shift P_Bit P_Mem P_Perm P_Tbl P_AddHigh P_Laws P_Laws2 P_Client P_Kernels P_Transpose P_Transpose2 P_Pixels.
Import ListNotations.
Open Scope Z_scope.

Definition hits (n : nat) (js : list nat) (i : nat) : bool := existsb (fun j => ((j <=? i) && (i <? j + n))%nat) js.

Lemma hits_spec n js i : hits n js i = true <-> exists j, In j js /\ (j <= i < j + n)%nat.
Proof.
  unfold hits. rewrite existsb_exists. split; intros (j & H1 & H2); exists j; (split; [exact H1|]).
  - apply andb_true_iff in H2. destruct H2 as [A B]. apply Nat.leb_le in A. apply Nat.ltb_lt in B. lia.
  - apply andb_true_iff. split; [apply Nat.leb_le|apply Nat.ltb_lt]; lia.
Qed.

Lemma map2_repeat (g : Z -> Z -> Z) (x : list Z) (w : Z) : map2 g x (repeat w (List.length x)) = map (fun z => g z w) x.
Proof. induction x as [|z x IH]; [reflexivity|]. cbn [List.length repeat map2 map]. now rewrite IH. Qed.

Lemma repeat_lanes t n w : in_range t w -> lanes t n (repeat w n).
Proof. intros H. split; [apply repeat_length|]. apply Forall_forall. intros z Hz. apply repeat_spec in Hz. now subst z. Qed.

(** One block. *)
Definition put_block (st : func) (u : sty) (d e : nat) (r : obj) (next : program) : program := Call st [at_ u d e; r] (fun _ => next).
Definition one_block (K : kernel) (x : obj) (put : obj -> program) : program :=
  match K with
  | Copy => put x
  | Apply op => Call op [x] (fun r => put (value r))
  | ApplyWith op w => Call op [x; w] (fun r => put (value r))
  end.

Lemma one_block_run c K t u n g m x put : acts c K t u n g -> lanes t n x ->
  lanes u n (map g x) /\ execute c m (one_block K (vec t x) put) = execute c m (put (vec u (map g x))).
Proof.
  intros H Hx. destruct H as [t n|op t u n g H|op t u n g w H Hw]; cbn [one_block].
  - rewrite map_id. now split.
  - destruct (pointwise1_computes c op t u n g H m x Hx) as [L E]. split; [exact L|]. cbn [execute]. now rewrite E.
  - destruct (pointwise2_computes c op t u n g H m x (repeat w n) Hx (repeat_lanes t n w Hw)) as [L E].
    assert (R : map2 g x (repeat w n) = map (fun z => g z w) x) by (rewrite <- (proj1 Hx); apply map2_repeat).
    rewrite R in L, E. split; [exact L|]. cbn [execute]. now rewrite E.
Qed.

Lemma move_blocks_cons ld st t u K a src d dst j js :
  move_blocks ld st t u K a src d dst (j :: js)
  = Call ld [at_ t a (src + j)] (fun x => one_block K (value x) (fun r => put_block st u d (dst + j) r (move_blocks ld st t u K a src d dst js))).
Proof. reflexivity. Qed.

Lemma build_lanes t n f : (forall q, (q < n)%nat -> in_range t (f q)) -> lanes t n (build n f).
Proof.
  intros H. unfold build. split; [now rewrite map_length, seq_length|]. apply Forall_forall. intros z Hz. apply in_map_iff in Hz.
  destruct Hz as (q & <- & Hq). apply in_seq in Hq. apply H. lia.
Qed.

Lemma covers_in n len js j : (0 < n)%nat -> covers n len js -> In j js -> (j + n <= len)%nat.
Proof.
  intros P Hc Hj. assert (X : (j + n - 1 < len)%nat); [|lia]. apply Hc. exists j. split; [exact Hj|]. lia.
Qed.

Section Move.
Context (c : cfg) (ld st : func) (t u : sty) (n : nat) (K : kernel) (g : Z -> Z) (a src d dst : nat) (m : memory) (xs : list Z) (cd : list (option Z)).
Context (Hl : In (ld, t, n) vld1_table) (Hs : In (st, u, n) vst1_table) (Hg : acts c K t u n g).
Context (Ha : array_at m a t xs) (Hd : nth_error m d = Some (u, cd)).

(** The destination after the blocks [pre]. *)
Definition after (pre : list nat) (cells : list (option Z)) : Prop := List.length cells = List.length cd /\
  forall p, nth p cells None = if ((dst <=? p)%nat && hits n pre (p - dst)) then Some (g (nth (src + (p - dst)) xs 0)) else nth p cd None.

(** What a block that was changed already must look like. *)
Definition harmless (js : list nat) : Prop := a <> d \/ (t = u /\ forall pre j post q, js = pre ++ j :: post -> (q < n)%nat ->
  let e := (src + j + q)%nat in (dst <= e)%nat -> hits n pre (e - dst) = true ->
  in_range t (g (nth (src + (e - dst)) xs 0)) /\ g (g (nth (src + (e - dst)) xs 0)) = g (nth e xs 0)).

Lemma move_from js : harmless js -> Forall (fun j => (src + j + n <= List.length xs /\ dst + j + n <= List.length cd)%nat) js ->
  forall pre post cells, js = pre ++ post -> after pre cells ->
  exists cells', after js cells' /\
    execute c (set_block d (u, cells) m) (move_blocks ld st t u K a src d dst post) = Returns (set_block d (u, cells') m) None.
Proof.
  intros Hh Fj. assert (Pn : (0 < n)%nat) by exact (vld1_pos _ _ _ Hl).
  intros pre post. revert pre. induction post as [|j post IH]; intros pre cells E A.
  { rewrite app_nil_r in E. subst pre. exists cells. now split. }
  rewrite move_blocks_cons. assert (Bj : (src + j + n <= List.length xs /\ dst + j + n <= List.length cd)%nat).
  { rewrite Forall_forall in Fj. apply Fj. rewrite E. apply in_or_app. right. now left. }
  destruct Bj as [B1 B2]. destruct A as [Lc Pc]. pose proof (set_block_same m d _ (u, cells) Hd) as Hc.
  assert (Load : exists y, lanes t n y /\ map g y = build n (fun q => g (nth (src + j + q) xs 0)) /\
    run c (set_block d (u, cells) m) ld [at_ t a (src + j)] = Returns (set_block d (u, cells) m) (Some (vec t y))).
  { assert (Far : a <> d -> exists y, lanes t n y /\ map g y = build n (fun q => g (nth (src + j + q) xs 0)) /\
      run c (set_block d (u, cells) m) ld [at_ t a (src + j)] = Returns (set_block d (u, cells) m) (Some (vec t y))).
    { intros N. pose proof (array_stable m d u cells _ a t xs N Ha Hd) as Ha'.
      destruct (load_array ld t n c _ a xs (src + j) Hl Ha' B1) as [R L]. eexists. split; [exact L|]. split; [|exact R]. apply map_build. }
    destruct (Nat.eq_dec a d) as [Ead|Nad]; [|exact (Far Nad)]. clear Far.
    destruct Hh as [N|[Etu Hh]]; [contradiction|]. destruct Ha as [Ha1 Fx].
    assert (Ecd : cd = map Some xs) by (rewrite Ead, Hd in Ha1; injection Ha1 as _ Q; exact Q).
    set (f := fun q => match nth (src + j + q) cells None with Some z => z | None => 0 end).
    assert (Cell : forall q, (q < n)%nat -> nth (src + j + q) cells None = Some (f q) /\ in_range t (f q) /\ g (f q) = g (nth (src + j + q) xs 0)).
    { intros q Hq. unfold f. rewrite Pc. destruct (Nat.leb_spec dst (src + j + q)) as [G|G]; cbn [andb].
      - destruct (hits n pre (src + j + q - dst)) eqn:Hh1.
        + destruct (Hh pre j post q E Hq G Hh1) as [R1 R2]. split; [reflexivity|]. split; assumption.
        + rewrite Ecd. rewrite (nth_indep _ None (Some 0)) by (rewrite map_length; lia). rewrite map_nth. split; [reflexivity|]. split; [|reflexivity].
          apply nth_in_range; [exact Fx|lia].
      - rewrite Ecd. rewrite (nth_indep _ None (Some 0)) by (rewrite map_length; lia). rewrite map_nth. split; [reflexivity|]. split; [|reflexivity].
        apply nth_in_range; [exact Fx|lia]. }
    exists (build n f). assert (L : lanes t n (build n f)) by (apply build_lanes; intros q Hq; now apply Cell).
    split; [exact L|]. split; [rewrite map_build; apply build_ext; intros q Hq; now apply Cell|].
    unfold at_. rewrite Ead. apply (load_at ld t n c _ d cells); trivial; [now rewrite Etu|rewrite Lc, Ecd, map_length; exact B1|].
    assert (LL : (src + j + n <= List.length cells)%nat) by (rewrite Lc, Ecd, map_length; exact B1).
    apply (nth_ext _ _ None None); [rewrite firstn_length, skipn_length, map_length, (proj1 L); lia|].
    intros q Hq. rewrite firstn_length, skipn_length in Hq. rewrite nth_firstn by lia.
    rewrite (nth_indep (map Some _) None (Some 0)) by (rewrite map_length, (proj1 L); lia). rewrite map_nth, nth_build by lia.
    rewrite <- (proj1 (Cell q ltac:(lia))). rewrite <- (firstn_skipn (src + j) cells) at 2.
    rewrite app_nth2; rewrite firstn_length_le by lia; [|lia]. f_equal. lia. }
  destruct Load as (y & Ly & Ey & Ry). cbn [execute]. rewrite Ry. cbn [value].
  destruct (one_block_run c K t u n g (set_block d (u, cells) m) y
    (fun r => put_block st u d (dst + j) r (move_blocks ld st t u K a src d dst post)) Hg Ly) as [L2 E2].
  rewrite E2. rewrite Ey in *. unfold put_block.
  rewrite (store_step st u n c _ d cells (dst + j) _ _ Hs Hc ltac:(lia) L2). rewrite (set_block_twice _ _ _ _ _ Hd).
  set (v := build n (fun q => g (nth (src + j + q) xs 0))) in *. set (cells1 := overwrite n cells (dst + j) v).
  apply (IH (pre ++ [j]) cells1); [now rewrite <- app_assoc|].
  split; [unfold cells1; rewrite overwrite_length; [exact Lc|exact (proj1 L2)|lia]|].
  intros p. unfold cells1. rewrite overwrite_nth by (try exact (proj1 L2); lia). rewrite Pc. unfold hits. rewrite existsb_app. cbn [existsb].
  rewrite orb_false_r. fold (hits n pre (p - dst)).
  destruct (Nat.leb_spec (dst + j) p) as [G1|G1]; cbn [andb].
  - destruct (Nat.ltb_spec p (dst + j + n)) as [G2|G2].
    + rewrite (proj2 (Nat.leb_le dst p)) by lia. rewrite (proj2 (Nat.leb_le j (p - dst))) by lia. rewrite (proj2 (Nat.ltb_lt (p - dst) (j + n))) by lia.
      rewrite orb_true_r. cbn [andb]. unfold v. rewrite nth_build by lia. do 3 f_equal. lia.
    + rewrite (proj2 (Nat.ltb_ge (p - dst) (j + n))) by lia. now rewrite andb_false_r, orb_false_r.
  - destruct (Nat.leb_spec dst p) as [G2|G2]; [|reflexivity]. rewrite (proj2 (Nat.leb_gt j (p - dst))) by lia. cbn [andb]. now rewrite orb_false_r.
Qed.

Lemma after_moved len js cells : covers n len js -> (src + len <= List.length xs)%nat -> (dst + len <= List.length cd)%nat ->
  after js cells -> cells = moved g src dst len xs cd.
Proof.
  intros Hc Lx Ld [L P]. assert (LM : List.length (firstn len (skipn src xs)) = len) by (rewrite firstn_length, skipn_length; lia).
  apply (nth_ext _ _ None None).
  { unfold moved. rewrite !app_length, firstn_length, !map_length, LM, skipn_length. lia. }
  intros p Hp. rewrite P. unfold moved. destruct (Nat.leb_spec dst p) as [G|G]; cbn [andb].
  - rewrite app_nth2; rewrite firstn_length_le by lia; [|lia]. destruct (Nat.lt_ge_cases (p - dst) len) as [B|B].
    + rewrite (proj2 (hits_spec n js (p - dst)) (proj1 (Hc _) B)). rewrite app_nth1 by (rewrite !map_length; lia).
      rewrite (nth_indep _ None (Some (g 0))) by (rewrite !map_length; lia). rewrite map_nth, map_nth. do 2 f_equal.
      rewrite nth_firstn by lia. rewrite <- (firstn_skipn src xs) at 1. rewrite app_nth2; rewrite firstn_length_le by lia; [|lia]. f_equal. lia.
    + destruct (hits n js (p - dst)) eqn:E; [apply hits_spec in E; apply Hc in E; lia|].
      rewrite app_nth2; rewrite !map_length; [|lia]. rewrite LM. rewrite <- (firstn_skipn (dst + len) cd) at 1.
      rewrite app_nth2; rewrite firstn_length_le by lia; [|lia]. f_equal. lia.
  - rewrite app_nth1 by (rewrite firstn_length_le by lia; lia). symmetry. now apply nth_firstn.
Qed.

Lemma covers_bound len js j : covers n len js -> In j js -> (j + n <= len)%nat.
Proof.
  apply covers_in. exact (vld1_pos _ _ _ Hl).
Qed.

Lemma move_run len js : harmless js -> covers n len js -> (src + len <= List.length xs)%nat -> (dst + len <= List.length cd)%nat ->
  execute c m (move_blocks ld st t u K a src d dst js) = Returns (set_block d (u, moved g src dst len xs cd) m) None.
Proof.
  intros Hh Hc Lx Ld. destruct (move_from js Hh) with (pre := @nil nat) (post := js) (cells := cd) as (cells & A & E).
  - apply Forall_forall. intros j Hj. pose proof (covers_bound len js j Hc Hj). lia.
  - reflexivity.
  - split; [reflexivity|]. intros p. cbn [hits existsb]. now rewrite andb_false_r.
  - rewrite <- (split_block m d _ Hd) in E. rewrite E. now rewrite (after_moved len js cells Hc Lx Ld A).
Qed.

Lemma free_harmless js : a <> d \/ no_hazard n src dst js -> t = u \/ a <> d -> harmless js.
Proof.
  intros [N|H]; [intros _; now left|]. intros [Etu|N]; [|now left]. right. split; [exact Etu|]. intros pre j post q E Hq e He Hh.
  apply hits_spec in Hh. destruct Hh as (j' & Hj' & B). destruct (H pre j post j' E Hj') as [X|X]; exfalso; unfold e in *; lia.
Qed.

Lemma same_type : t = u \/ a <> d.
Proof.
  destruct (Nat.eq_dec a d) as [E|N]; [left|now right]. destruct Ha as [Ha1 _]. rewrite E, Hd in Ha1. now injection Ha1 as -> _.
Qed.
End Move.

(** ** Orders *)

Lemma forward_covers n k : (0 < n)%nat -> covers n (k * n) (forward n k).
Proof.
  intros P i. split.
  - intros H. exists (i / n * n)%nat. split; [apply in_map_iff; exists (i / n)%nat; split; [reflexivity|]; apply in_seq|].
    + split; [lia|]. apply Nat.div_lt_upper_bound; lia.
    + pose proof (Nat.div_mod i n ltac:(lia)). pose proof (Nat.mod_upper_bound i n ltac:(lia)). nia.
  - intros (j & Hj & B). apply in_map_iff in Hj. destruct Hj as (q & <- & Hq). apply in_seq in Hq. nia.
Qed.

Lemma nth_map_seq (f : nat -> nat) k i : (i < k)%nat -> nth i (map f (seq 0 k)) O = f i.
Proof. intros H. rewrite (nth_indep _ O (f O)) by (rewrite map_length, seq_length; lia). rewrite map_nth, seq_nth by lia. reflexivity. Qed.

Lemma backward_rev n k : backward n k = rev (forward n k).
Proof.
  unfold backward, forward. apply (nth_ext _ _ O O); [now rewrite rev_length, !map_length, !seq_length|].
  intros i Hi. rewrite map_length, seq_length in Hi. rewrite rev_nth by (rewrite map_length, seq_length; lia). rewrite map_length, seq_length.
  rewrite !nth_map_seq by lia. f_equal. lia.
Qed.

Lemma covers_rev n len js : covers n len js -> covers n len (rev js).
Proof. intros H i. rewrite (H i). split; intros (j & Hj & B); exists j; (split; [|exact B]); [now apply -> in_rev|now apply in_rev]. Qed.

Lemma backward_covers n k : (0 < n)%nat -> covers n (k * n) (backward n k).
Proof. intros P. rewrite backward_rev. now apply covers_rev, forward_covers. Qed.

Lemma tail_covers n len : (0 < n <= len)%nat -> covers n len (with_tail n len).
Proof.
  intros P i. unfold with_tail. pose proof (forward_covers n (len / n) ltac:(lia) i) as F.
  pose proof (Nat.div_mod len n ltac:(lia)) as D. pose proof (Nat.mod_upper_bound len n ltac:(lia)) as U. split.
  - intros H. destruct (Nat.lt_ge_cases i (len / n * n)) as [B|B].
    + apply F in B. destruct B as (j & Hj & B). exists j. split; [apply in_or_app; now left|exact B].
    + exists (len - n)%nat. split; [apply in_or_app; right; now left|]. nia.
  - intros (j & Hj & B). apply in_app_or in Hj. destruct Hj as [Hj|[<-|[]]]; [|lia].
    pose proof (proj2 F (ex_intro _ j (conj Hj B))). nia.
Qed.

(** Elements before a place in a list of increasing numbers. *)
Lemma split_seq (f : nat -> nat) k pre j post j' : map f (seq 0 k) = pre ++ j :: post -> In j' pre -> exists i i', (i' < i < k)%nat /\ j = f i /\ j' = f i'.
Proof.
  intros E Hj. assert (Lk : (List.length pre < k)%nat).
  { apply (f_equal (@List.length nat)) in E. rewrite map_length, seq_length, app_length in E. cbn in E. lia. }
  apply (In_nth _ _ O) in Hj. destruct Hj as (i' & Hi' & Ej').
  assert (N : forall i, (i < k)%nat -> nth i (pre ++ j :: post) O = f i).
  { intros i Hi. rewrite <- E. now apply nth_map_seq. }
  exists (List.length pre), i'. repeat split; trivial.
  - rewrite <- N by exact Lk. rewrite app_nth2 by lia. now rewrite Nat.sub_diag.
  - rewrite <- N by lia. rewrite app_nth1 by exact Hi'. now symmetry.
Qed.

Lemma forward_free n k src dst : (dst <= src)%nat -> no_hazard n src dst (forward n k).
Proof. intros H pre j post j' E Hj. destruct (split_seq _ _ _ _ _ _ E Hj) as (i & i' & B & -> & ->). right. nia. Qed.

Lemma backward_free n k src dst : (src <= dst)%nat -> no_hazard n src dst (backward n k).
Proof. intros H pre j post j' E Hj. destruct (split_seq _ _ _ _ _ _ E Hj) as (i & i' & B & -> & ->). left. nia. Qed.

Lemma apart_free n len src dst js : covers n len js -> (0 < n)%nat -> (src + len <= dst \/ dst + len <= src)%nat -> no_hazard n src dst js.
Proof.
  intros Hc P H pre j post j' E Hj.
  assert (B : forall x, In x js -> (x + n <= len)%nat) by (intros x; now apply covers_in).
  pose proof (B j ltac:(rewrite E; apply in_or_app; right; now left)). pose proof (B j' ltac:(rewrite E; apply in_or_app; now left)). lia.
Qed.

Lemma tail_free n len src dst : (0 < n <= len)%nat -> (dst + n <= src + len mod n)%nat -> no_hazard n src dst (with_tail n len).
Proof.
  intros P H pre j post j' E Hj. unfold with_tail in E. pose proof (Nat.div_mod len n ltac:(lia)) as D. pose proof (Nat.mod_upper_bound len n ltac:(lia)) as U.
  destruct (exists_last (l := j :: post) ltac:(discriminate)) as (post' & z & Ez). rewrite Ez, app_assoc in E.
  apply app_inj_tail in E. destruct E as [E <-]. destruct post' as [|y post'].
  - cbn in Ez. injection Ez as -> _. rewrite app_nil_r in E. subst pre. apply in_map_iff in Hj. destruct Hj as (q & <- & Hq). apply in_seq in Hq. right. nia.
  - cbn in Ez. injection Ez as <- _. apply (forward_free n (len / n) src dst ltac:(lia) pre j post' j'); [exact E|exact Hj].
Qed.

(** ** The programs *)

Lemma schedule_run c ld st t u n K g a src d dst m xs cd len js : In (ld, t, n) vld1_table -> In (st, u, n) vst1_table -> acts c K t u n g ->
  array_at m a t xs -> nth_error m d = Some (u, cd) -> a <> d \/ no_hazard n src dst js -> covers n len js ->
  (src + len <= List.length xs)%nat -> (dst + len <= List.length cd)%nat ->
  execute c m (move_blocks ld st t u K a src d dst js) = Returns (set_block d (u, moved g src dst len xs cd) m) None.
Proof.
  intros H1 H2 Hg Ha Hd Hz Hc Lx Ld. apply (move_run c ld st t u n K g a src d dst m xs cd H1 H2 Hg Ha Hd len js); trivial.
  apply free_harmless; [exact Hz|]. eapply same_type; eassumption.
Qed.

Lemma forward_run c ld st t u n K g a src d dst m xs cd k : In (ld, t, n) vld1_table -> In (st, u, n) vst1_table -> acts c K t u n g ->
  array_at m a t xs -> nth_error m d = Some (u, cd) -> a <> d \/ (dst <= src)%nat \/ (src + k * n <= dst)%nat ->
  (src + k * n <= List.length xs)%nat -> (dst + k * n <= List.length cd)%nat ->
  execute c m (move_blocks ld st t u K a src d dst (forward n k)) = Returns (set_block d (u, moved g src dst (k * n) xs cd) m) None.
Proof.
  intros H1 H2 Hg Ha Hd Hz Lx Ld. pose proof (vld1_pos _ _ _ H1) as P. pose proof (forward_covers n k P) as C.
  apply (schedule_run c ld st t u n K g a src d dst m xs cd (k * n)); trivial.
  destruct Hz as [N|[Z1|Z1]]; [now left|right; now apply forward_free|right; apply (apart_free n (k * n)); trivial; now left].
Qed.

Lemma backward_run c ld st t u n K g a src d dst m xs cd k : In (ld, t, n) vld1_table -> In (st, u, n) vst1_table -> acts c K t u n g ->
  array_at m a t xs -> nth_error m d = Some (u, cd) -> a <> d \/ (src <= dst)%nat \/ (dst + k * n <= src)%nat ->
  (src + k * n <= List.length xs)%nat -> (dst + k * n <= List.length cd)%nat ->
  execute c m (move_blocks ld st t u K a src d dst (backward n k)) = Returns (set_block d (u, moved g src dst (k * n) xs cd) m) None.
Proof.
  intros H1 H2 Hg Ha Hd Hz Lx Ld. pose proof (vld1_pos _ _ _ H1) as P. pose proof (backward_covers n k P) as C.
  apply (schedule_run c ld st t u n K g a src d dst m xs cd (k * n)); trivial.
  destruct Hz as [N|[Z1|Z1]]; [now left|right; now apply backward_free|right; apply (apart_free n (k * n)); trivial; now right].
Qed.

Lemma tail_run c ld st t u n K g a src d dst m xs cd len : In (ld, t, n) vld1_table -> In (st, u, n) vst1_table -> acts c K t u n g ->
  array_at m a t xs -> nth_error m d = Some (u, cd) -> (n <= len)%nat ->
  a <> d \/ (dst + n <= src + len mod n)%nat \/ (src + len <= dst)%nat ->
  (src + len <= List.length xs)%nat -> (dst + len <= List.length cd)%nat ->
  execute c m (move_blocks ld st t u K a src d dst (with_tail n len)) = Returns (set_block d (u, moved g src dst len xs cd) m) None.
Proof.
  intros H1 H2 Hg Ha Hd Hn Hz Lx Ld. pose proof (vld1_pos _ _ _ H1) as P. pose proof (tail_covers n len (conj P Hn)) as C.
  apply (schedule_run c ld st t u n K g a src d dst m xs cd len); trivial.
  destruct Hz as [N|[Z1|Z1]]; [now left|right; apply tail_free; trivial; lia|right; apply (apart_free n len); trivial; now left].
Qed.

(** In place, when doing it twice is the same as doing it once. *)
Lemma idempotent_run c ld st t n K g a src m xs len js : In (ld, t, n) vld1_table -> In (st, t, n) vst1_table -> acts c K t t n g ->
  (forall x, in_range t x -> g (g x) = g x) -> array_at m a t xs -> covers n len js -> (src + len <= List.length xs)%nat ->
  execute c m (move_blocks ld st t t K a src a src js) = Returns (set_block a (t, moved g src src len xs (map Some xs)) m) None.
Proof.
  intros H1 H2 Hg Hi Ha Hc Lx. pose proof (vld1_pos _ _ _ H1) as P.
  apply (move_run c ld st t t n K g a src a src m xs (map Some xs) H1 H2 Hg Ha (proj1 Ha) len js); trivial; [|now rewrite map_length].
  right. split; [reflexivity|]. intros pre j post q E Hq e He _. replace (src + (e - src))%nat with e by lia.
  assert (Bj : (j + n <= len)%nat).
  { assert (Hj : In j js) by (rewrite E; apply in_or_app; right; now left).
    now apply (covers_in n len js). }
  assert (R : in_range t (nth e xs 0)) by (apply nth_in_range; [exact (proj2 Ha)|unfold e; lia]).
  split; [|now apply Hi].
  pose proof (one_block_run c K t t n g [] (repeat (nth e xs 0) n) (fun _ => Finish) Hg (repeat_lanes t n _ R)) as [[_ F] _].
  rewrite Forall_forall in F. apply F. apply in_map_iff. exists (nth e xs 0). split; [reflexivity|].
  destruct n as [|n']; [lia|]. now left.
Qed.
