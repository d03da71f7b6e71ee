(** Threads interleaved between any two steps. *)
From Coq Require Import ZArith String List Bool Lia.
From Verif Require Import Types Syntax Interp ProgRecip Library Spec ExecLemmas AbsSound MetaSpec P_Meta P_Meta2 Frame P_Valid P_Valid2 Local P_Det Client P_Threads Micro P_Micro P_Micro2.
Import ListNotations.
Open Scope Z_scope.

(** ** Segments *)

Lemma sh_ext m1 m1' pre pre' : List.length m1 = List.length m1' -> List.length pre = List.length pre' -> forall o, sh m1 pre o = sh m1' pre' o.
Proof.
  intros L1 L2. induction o as [t v|l IH|t b off] using obj_ind'; cbn [sh]; [reflexivity| |now rewrite L1, L2].
  f_equal. induction IH as [|o l Ho IH IHl]; cbn; [reflexivity|]. now rewrite Ho, IHl.
Qed.
Lemma shen_ext m1 m1' pre pre' en : List.length m1 = List.length m1' -> List.length pre = List.length pre' -> shen m1 pre en = shen m1' pre' en.
Proof. intros L1 L2. unfold shen. apply map_ext. intros [x o]. cbn. now rewrite (sh_ext m1 m1' pre pre'). Qed.

Lemma same_shape_refl m : same_shape m m.
Proof. intros b. reflexivity. Qed.

Lemma shape_mid m1 m2 s cells cells' : List.length cells = List.length cells' ->
  same_shape (m1 ++ (s, cells) :: m2) (m1 ++ (s, cells') :: m2).
Proof.
  intros L b. destruct (Nat.lt_ge_cases b (List.length m1)).
  - now rewrite !nth_error_app1 by lia.
  - rewrite !nth_error_app2 by lia. destruct (b - List.length m1)%nat; cbn; [|reflexivity]. unfold shape. cbn. now rewrite L.
Qed.

Lemma nth_error_first {A} n (l : list A) i : (i < n)%nat -> nth_error (firstn n l) i = nth_error l i.
Proof. revert l i. induction n as [|n IH]; intros l i H; [lia|]. destruct l, i; cbn; trivial. apply IH. lia. Qed.
Lemma skipn_add {A} a b (l : list A) : skipn b (skipn a l) = skipn (a + b) l.
Proof. revert l. induction a as [|a IH]; intros l; [reflexivity|]. destruct l; [now rewrite !skipn_nil|]. apply IH. Qed.

Lemma resplit m1 m2 s pre seg post M' :
  same_shape (m1 ++ (s, pre ++ seg ++ post) :: m2) M' ->
  (forall j, 0 <= j < Z.of_nat (List.length seg) ->
     element M' (List.length m1) (Z.of_nat (List.length pre) + j) = nth_error seg (Z.to_nat j)) ->
  exists m1' m2' pre' post', M' = m1' ++ (s, pre' ++ seg ++ post') :: m2' /\
    List.length m1' = List.length m1 /\ List.length pre' = List.length pre.
Proof.
  intros Sh E. destruct (same_shape_nth _ M' (List.length m1) s (pre ++ seg ++ post) Sh) as (cells & N & L).
  { rewrite nth_error_app2, Nat.sub_diag by lia. reflexivity. }
  rewrite !app_length in L. apply nth_error_split in N. destruct N as (m1' & m2' & -> & L1).
  exists m1', m2', (firstn (List.length pre) cells), (skipn (List.length pre + List.length seg) cells).
  assert (Es : seg = firstn (List.length seg) (skipn (List.length pre) cells)).
  { apply list_ext; [rewrite firstn_length, skipn_length; lia|]. intros i Hi. specialize (E (Z.of_nat i) ltac:(lia)).
    rewrite Nat2Z.id in E. rewrite <- E, <- L1, element_mid. destruct (Z.ltb_spec (Z.of_nat (List.length pre) + Z.of_nat i) 0); [lia|].
    replace (Z.to_nat (Z.of_nat (List.length pre) + Z.of_nat i)) with (List.length pre + i)%nat by lia.
    rewrite nth_error_first by exact Hi.
    rewrite <- (firstn_skipn (List.length pre) cells) at 1. rewrite nth_error_app2 by (rewrite firstn_length; lia).
    rewrite firstn_length. f_equal. lia. }
  split; [|split; [exact L1|rewrite firstn_length; lia]]. do 3 f_equal.
  rewrite Es at 1. rewrite <- (firstn_skipn (List.length pre) cells) at 1. f_equal.
  rewrite <- (firstn_skipn (List.length seg) (skipn (List.length pre) cells)) at 1. f_equal.
  now rewrite skipn_add.
Qed.

Lemma assign_shape c en m x path v r : assign c en m x path v = Ok r -> map shape (snd r) = map shape m.
Proof.
  unfold assign. destruct (scalar v) as [p|]; [|discriminate]. cbn [bind]. destruct (lookup x en) as [o|]; [|discriminate].
  destruct o as [t w|l|t b off].
  1, 2: intros R; match type of R with bind ?q _ = _ => destruct q; [|discriminate R] end; cbn in R; now injection R as <-.
  destruct path as [|i [|? ?]]; try discriminate. destruct (convert c (fst p) t (snd p)) as [z|]; [|discriminate]. cbn [bind]. unfold mem_write.
  destruct (nth_error m b) as [[t' cells]|] eqn:E; [|discriminate]. destruct (sty_eqb t t'); [|discriminate].
  destruct (get_idx cells (off + i)); [|discriminate]. cbn. intros [= <-]. cbn [snd].
  clear -E. revert m E. induction b as [|b IH]; intros [|x m] E; cbn in *; try discriminate.
  - injection E as ->. f_equal. unfold shape. cbn. now rewrite length_set_nth.
  - f_equal. now apply IH.
Qed.

Lemma small_shape c k en m k' en' m' : small c k en m = Ok (k', en', m') -> map shape m' = map shape m.
Proof.
  intros H. destruct k as [|fr k]; [discriminate H|]. destruct fr as [s|n|i cond next body|i next]; cbn [small] in H.
  - destruct s; try discriminate H; try (now injection H as <- <- <-).
    + destruct init; [|now injection H as <- <- <-]. destruct (evaluate c en m e); [|discriminate H]. cbn [bind] in H. destruct (init_obj c t a); [|discriminate H]. now injection H as <- <- <-.
    + destruct (evaluate_path c en m path); [|discriminate H]. cbn [bind] in H. destruct (evaluate c en m e); [|discriminate H]. cbn [bind] in H.
      destruct (assign c en m x a a0) as [r|] eqn:E; [|discriminate H]. cbn [bind] in H. injection H as <- <- <-. exact (assign_shape _ _ _ _ _ _ _ E).
    + destruct (evaluate c en m e); [|discriminate H]. cbn [bind] in H. destruct (cond_value a); [|discriminate H]. now injection H as <- <- <-.
    + destruct (evaluate c en m init); [|discriminate H]. cbn [bind] in H. destruct (init_obj c (TScal t) a); [|discriminate H]. now injection H as <- <- <-.
    + destruct (evaluate c en m n); [|discriminate H]. cbn [bind] in H. destruct (int_value a); [|discriminate H]. cbn [bind] in H.
      destruct (lookup dst en); [|discriminate H]. destruct (lookup src en); [|discriminate H]. destruct (memcpy_obj o o0 a0); [|discriminate H]. now injection H as <- <- <-.
  - now injection H as <- <- <-.
  - destruct (evaluate c en m cond); [|discriminate H]. cbn [bind] in H. destruct (cond_value a); [|discriminate H]. now injection H as <- <- <-.
  - destruct (evaluate c en m next); [|discriminate H]. cbn [bind] in H.
    destruct (assign c en m i [] a) as [r|] eqn:E; [|discriminate H]. cbn [bind] in H. injection H as <- <- <-. exact (assign_shape _ _ _ _ _ _ _ E).
Qed.

(** ** Ranks: why every schedule ends *)

Inductive rank := RB (p : program) | RI (next : option obj -> program) (n : nat).
Inductive below : rank -> rank -> Prop :=
| below_enter f args next n : below (RI next n) (RB (Call f args next))
| below_step next n : below (RI next n) (RI next (S n))
| below_leave next n v : below (RB (next v)) (RI next n).

Lemma below_acc r : Acc below r.
Proof.
  assert (K : forall next, (forall v, Acc below (RB (next v))) -> forall n, Acc below (RI next n)).
  { intros next H. induction n as [|n IH]; constructor; intros r' R; inversion R; subst; auto. }
  assert (B : forall p, Acc below (RB p)).
  { induction p as [|f args next IH]; constructor; intros r' R; inversion R; subst. now apply K. }
  destruct r as [p|next n]; auto.
Qed.

Inductive lower : list rank -> list rank -> Prop :=
| lower_here r' r l : below r' r -> lower (r' :: l) (r :: l)
| lower_later r l' l : lower l' l -> lower (r :: l') (r :: l).

Lemma lower_acc l : Acc lower l.
Proof.
  induction l as [|p l IH]; [constructor; intros l' H; inversion H|].
  revert l IH. induction (below_acc p) as [p _ IHp]. intros l Hl. pose proof Hl as Hl0. induction Hl as [l Hl IHl].
  constructor. intros l' H. inversion H; subst.
  - apply IHp; assumption.
  - apply IHl; [assumption|]. apply Hl; assumption.
Qed.

Lemma lower_app l1 r' r l2 : below r' r -> lower (l1 ++ r' :: l2) (l1 ++ r :: l2).
Proof. intros H. induction l1; cbn; constructor; assumption. Qed.

(** ** One thread *)

Section Thread.
Context (c : cfg) (m : memory) (A W : nat -> Z -> Prop) (target : outcome).

(** What is left of the thread when it runs alone. *)
Definition settled (mi : memory) (q : program) : Prop :=
  confined c A W mi q /\ execute c mi q = target /\ well_typed mi /\ same_blocks m mi.

Inductive tinv (M : memory) : thread -> rank -> Prop :=
| ti_between q mi : settled mi q -> (forall b e, A b e -> element M b e = element mi b e) -> tinv M (Between q) (RB q)
| ti_plain f k en next n ni v : settled ni (next v) -> (forall b e, A b e -> element M b e = element ni b e) ->
    ends c f n k en [] v [] -> forallb fplain k = true -> oke nowhere en ->
    tinv M (Inside f k en next) (RI next n)
| ti_pointer f k en len next n ni v s seg seg1 m1 m2 pre post x0 : settled ni (next v) ->
    M = m1 ++ (s, pre ++ seg ++ post) :: m2 -> en = shen m1 pre len ->
    ends c f n k len [(s, seg)] v [(s, seg1)] -> forallb flocal k = true ->
    List.length seg1 = List.length seg ->
    (forall j, 0 <= j < Z.of_nat (List.length seg) ->
       A (List.length m1) (Z.of_nat (List.length pre) + j) /\ (is_store f = true -> W (List.length m1) (Z.of_nat (List.length pre) + j))) ->
    (is_store f = false -> forallb (freads x0) k = true /\ only x0 len) ->
    (forall b e, A b e -> ~ (b = List.length m1 /\ Z.of_nat (List.length pre) <= e < Z.of_nat (List.length pre) + Z.of_nat (List.length seg)) ->
       element M b e = element ni b e) ->
    (forall j, 0 <= j < Z.of_nat (List.length seg) ->
       element ni (List.length m1) (Z.of_nat (List.length pre) + j) = nth_error seg1 (Z.to_nat j)) ->
    (forall o, v = Some o -> sh m1 pre o = o) ->
    tinv M (Inside f k en next) (RI next n).

Lemma tinv_frame M M' th r : tinv M th r -> same_shape M M' -> (forall b e, A b e -> element M' b e = element M b e) -> tinv M' th r.
Proof.
  intros T Sh Ag. destruct T as [q mi S E|f k en next n ni v S E En Fp O|f k en len next n ni v s seg seg1 m1 m2 pre post x0 S EM Ee En Fl Ls Fa Fr Fo Fi Fv].
  - econstructor; [exact S|]. intros b e H. now rewrite Ag, E.
  - econstructor; eauto. intros b e H. now rewrite Ag, E.
  - subst M. destruct (resplit m1 m2 s pre seg post M' Sh) as (m1' & m2' & pre' & post' & -> & L1 & L2).
    { intros j Hj. rewrite Ag by (apply Fa; exact Hj). apply element_seg. exact Hj. }
    eapply (ti_pointer _ f k en len next n ni v s seg seg1 m1' m2' pre' post' x0); rewrite ?L1, ?L2; eauto.
    + rewrite Ee. now apply shen_ext.
    + intros b e Ha Nf. rewrite Ag by exact Ha. now apply Fo.
    + intros o Eo. rewrite (sh_ext m1' m1 pre' pre L1 L2). now apply Fv.
Qed.

Lemma memR_mid m1 m2 pre post s seg : memR m1 m2 pre post [(s, seg)] (m1 ++ (s, pre ++ seg ++ post) :: m2).
Proof. exists s, seg. auto. Qed.

(** One step of the thread: it is possible, and the thread goes on as it would alone. *)
Lemma tinv_advance (Al : exists me, target = Returns me None) M th r : tinv M th r -> th <> Between Finish -> same_shape m M ->
  exists M' th' r', advance c M th = Ok (M', th') /\ tinv M' th' r' /\ below r' r /\ same_shape M M' /\
    (forall b e, ~ W b e -> element M' b e = element M b e).
Proof.
  intros T Nf ShM. destruct T as [q mi S E|f k en next n ni v S E En Fp O|f k en len next n ni v s seg seg1 m1 m2 pre post x0 S EM Ee En Fl Ls Fa Fr Fo Fi Fv].
  - (* a call begins *)
    destruct q as [|f args next]; [congruence|]. destruct S as (C & Ex & Wm & B). cbn [confined execute] in C, Ex.
    destruct C as (Il & N & V & Fp & C). destruct Al as (me & Eme). rewrite Eme in Ex.
    destruct (run c mi f args) as [ni v| | | |] eqn:R; try discriminate Ex.
    destruct (call_blocks f c mi args ni v Il Wm (valid_typed _ _ _ V) R) as [Wn Bn].
    assert (S' : settled ni (next v)).
    { split; [exact (C ni v eq_refl)|]. split; [rewrite Eme; exact Ex|]. split; [exact Wn|exact (same_blocks_trans _ _ _ B Bn)]. }
    destruct (arg_cases f mi args Il V) as [(Np & St & F)|(s & b & off & rest & Ea)].
    + pose proof (memory_irrelevant f c mi [] args Il Np (valid_typed _ _ _ V)) as K. rewrite R in K. destruct K as [-> R0].
      destruct (run_ends c f args [] [] v R0) as (en & n & Eb & En).
      exists M, (Inside f [FStmt (f_body f)] en next), (RI next n). split; [cbn; now rewrite Eb|].
      split; [|split; [constructor|split; [apply same_shape_refl|reflexivity]]].
      econstructor; [exact S'|exact E|exact En| |].
      * cbn. rewrite andb_true_r. exact (proj1 (forallb_forall _ _) library_no_ptr_decl f Il).
      * pose proof (bind_params_ok nowhere c (f_params f) args) as K. rewrite Eb in K. apply K.
        unfold valid_args in V. clear -V F. induction V as [|p o ps args (T & _) V IH]; constructor; inversion F; subst.
        -- intros b Hb. exact (plain_no_pointer mi (snd p) H1 o b T Hb).
        -- now apply IH.
    + subst args.
      destruct (cut mi f s b off rest Il V) as (m1 & m2 & pre & seg & post & -> & -> & -> & Ls).
      assert (Nu : ~ In (f_name f) ub_strict) by (intros K; apply N; now apply (pointer_not_ub f _ _ _ _ _ Il V)).
      destruct (local_call c f m1 m2 s pre seg post rest Il Nu Wm V Ls) as (seg1 & v' & L1 & R0 & R1).
      rewrite R1 in R. injection R as <- ->.
      destruct (run_ends c f _ _ _ v R0) as (len & n & Eb & En).
      assert (Fp' : forall j, 0 <= j < Z.of_nat (List.length seg) -> in_footprint f (OPtr s (List.length m1) (Z.of_nat (List.length pre)) :: rest) (List.length m1) (Z.of_nat (List.length pre) + j)).
      { intros j Hj. exists s, (Z.of_nat (List.length pre)). split; [now left|lia]. }
      destruct (resplit m1 m2 s pre seg post M) as (m1' & m2' & pre' & post' & -> & Lm & Lp).
      { apply (same_shape_trans _ m); [apply same_shape_sym; now apply same_blocks_shape|exact ShM]. }
      { intros j Hj. rewrite E by (apply (Fp _ _ (Fp' j Hj))). apply element_seg. exact Hj. }
      pose proof (proj1 (forallb_forall _ _) pointer_library f Il) as PS. unfold pointer_shape in PS.
      pose proof (proj1 (forallb_forall _ _) library_reads f Il) as RS. cbv beta in RS.
      pose proof (bind_params_sh m1' pre' c (f_params f) (OPtr s 0 0 :: rest)) as Bs. rewrite Eb in Bs.
      destruct Bs as (en & Eb' & ->).
      assert (Plain : forall o, v = Some o -> sh m1' pre' o = o).
      { pose proof (any_call f c _ _ Il Wm (valid_typed _ _ _ V)) as K. rewrite R1 in K. destruct K as (RT & _).
        intros o ->. unfold valid_args in V. destruct (f_params f) as [|[x t] ps]; [inversion V|]. destruct t;
          try (exfalso; inversion V as [|? ? ? ? (T & _) _]; subst; cbn in T; inversion T; fail).
        rewrite !andb_true_iff in PS. destruct PS as ((((_ & P2) & _) & _) & _). exact (plain_sh _ m1' pre' (f_ret f) P2 o RT). }
      assert (Er : map (sh m1' pre') (OPtr s 0 0 :: rest) = OPtr s (List.length m1) (Z.of_nat (List.length pre)) :: rest).
      { cbn [map sh]. f_equal; [f_equal; [exact Lm|rewrite Lp; lia]|]. unfold valid_args in V. destruct (f_params f) as [|[x t] ps]; [inversion V|]. destruct t;
          try (exfalso; inversion V as [|? ? ? ? (T & _) _]; subst; cbn in T; inversion T; fail).
        rewrite !andb_true_iff in PS. destruct PS as ((((P1 & _) & _) & _) & _). rewrite forallb_forall in P1.
        inversion V as [|? ? ? ? _ Vr]; subst. clear -Vr P1. induction Vr as [|p o ps rest H Vr IH]; [reflexivity|].
        cbn [map]. f_equal; [|apply IH; intros q Hq; apply P1; now right].
        apply (plain_sh (m1 ++ (s, pre ++ seg ++ post) :: m2) m1' pre' (snd p)); [apply P1; now left|]. exact (proj1 H). }
      rewrite Er in Eb'.
      assert (Loc : localb (f_body f) = true /\ (is_store f = false -> exists x0, reads_only x0 (f_body f) = true /\ only x0 len)).
      { unfold valid_args in V. destruct (f_params f) as [|[x t] ps] eqn:Eps; [inversion V|]. destruct t;
          try (exfalso; inversion V as [|? ? ? ? (T & _) _]; subst; cbn in T; inversion T; fail).
        rewrite !andb_true_iff in PS. destruct PS as ((((P1 & _) & P3) & _) & _). split; [exact P3|]. intros St. rewrite St in RS. cbn in RS. exists x. split; [exact RS|].
        cbn [bind_params init_obj bind] in Eb. destruct (bind_params c ps rest) as [en1|] eqn:Eb1; [|discriminate Eb]. cbn [bind] in Eb. injection Eb as <-.
        constructor; [cbn; congruence|]. inversion V as [|? ? ? ? _ Vr]; subst. clear -Eb1 Vr P1. revert en1 Eb1.
        induction Vr as [|p o ps rest H Vr IH]; intros en1 Eb1; cbn [bind_params] in Eb1.
        - injection Eb1 as <-. constructor.
        - cbn [forallb] in P1. apply andb_true_iff in P1. destruct P1 as [P0 P1]. destruct p as [y t]. cbn [snd] in P0, H.
          destruct (init_obj c t o) as [o'|] eqn:Eo; [|discriminate Eb1]. cbn [bind] in Eb1.
          destruct (bind_params c ps rest) as [en2|]; [|discriminate Eb1]. cbn [bind] in Eb1. injection Eb1 as <-. constructor; [|now apply IH].
          cbn. intros _. destruct H as (T & _). destruct t; try discriminate P0; try (exact (init_scal _ _ _ _ Eo)); cbn in Eo; injection Eo as <-; cbn in T; inversion T; reflexivity. }
      destruct Loc as [Loc Rd].
      assert (RX : exists x0, is_store f = false -> forallb (freads x0) [FStmt (f_body f)] = true /\ only x0 len).
      { destruct (is_store f); [exists EmptyString; discriminate|]. destruct (Rd eq_refl) as (x0 & H1 & H2). exists x0. intros _. cbn [forallb freads]. now rewrite H1. }
      destruct RX as (x0 & RX).
      exists (m1' ++ (s, pre' ++ seg ++ post') :: m2'), (Inside f [FStmt (f_body f)] (shen m1' pre' len) next), (RI next n).
      split; [cbn [advance]; rewrite Eb'; reflexivity|]. split; [|split; [constructor|split; [apply same_shape_refl|reflexivity]]].
      eapply (ti_pointer _ f _ _ len next n _ v s seg seg1 m1' m2' pre' post' x0 S'); rewrite ?Lm, ?Lp; eauto.
      * cbn [forallb flocal]. now rewrite Loc.
      * intros b e Ha Ne. rewrite (E b e Ha).
        destruct (Nat.eq_dec b (List.length m1)) as [->|Nb]; [|now apply element_other].
        rewrite !element_mid. destruct (Z.ltb_spec e 0); [reflexivity|].
        destruct (Z.lt_ge_cases e (Z.of_nat (List.length pre))); [now rewrite !nth_error_app1 by lia|].
        rewrite !(nth_error_app2 pre) by lia. rewrite !(nth_error_app2 _ post) by lia. now rewrite L1.
      * intros j Hj. apply element_seg. now rewrite L1.
  - (* inside a call without pointers *)
    inversion En as [en0 m0 Er|e k0 en0 m0 o o' Ee Er Ei|n0 k0 en0 m0 k' en' m1 v0 m' Es En']; subst.
    + exists M, (Between (next None)), (RB (next None)). split; [cbn; now rewrite Er|].
      split; [now apply (ti_between M _ ni)|]. split; [constructor|]. split; [apply same_shape_refl|reflexivity].
    + pose proof (call_helper_ok nowhere c helpers loop_fuel call_depth helpers_no_ptr_decl) as CO.
      assert (EV : evaluate c en M e = Ok o) by (rewrite <- Ee; apply (eval_eq nowhere c _ CO); [exact O|apply nowhere_agree]).
      exists M, (Between (next (Some o'))), (RB (next (Some o'))).
      split; [cbn [advance]; rewrite EV; cbn [bind]; destruct (f_ret f); try congruence; rewrite Ei; reflexivity|].
      split; [now apply (ti_between M _ ni)|]. split; [constructor|]. split; [apply same_shape_refl|reflexivity].
    + destruct (small_plain c k en [] k' en' m1 Fp O Es) as (-> & Fp' & O' & Ks).
      exists M, (Inside f k' en' next), (RI next n0).
      split; [rewrite advance_small; [now rewrite Ks|exact (small_return _ _ _ _ _ Es)|intros ->; discriminate Es]|].
      split; [now apply (ti_plain M f k' en' next n0 ni v)|]. split; [constructor|]. split; [apply same_shape_refl|reflexivity].
  - (* inside a call with a pointer *)
    inversion En as [en0 m0 Er|e k0 en0 m0 o o' Ev Er Ei|n0 k0 en0 m0 k' en' lm v0 m' Es En']; subst.
    + exists (m1 ++ (s, pre ++ seg1 ++ post) :: m2), (Between (next None)), (RB (next None)). split; [cbn; now rewrite Er|].
      split; [|split; [constructor|split; [apply same_shape_refl|reflexivity]]].
      apply (ti_between _ _ ni S). intros b e Ha.
      destruct (Nat.eq_dec b (List.length m1)) as [Eb|Nb]; [|apply Fo; tauto].
      destruct (Z_le_gt_dec (Z.of_nat (List.length pre)) e); [|apply Fo; [exact Ha|lia]].
      destruct (Z_lt_ge_dec e (Z.of_nat (List.length pre) + Z.of_nat (List.length seg1))); [|apply Fo; [exact Ha|lia]].
      subst b. replace e with (Z.of_nat (List.length pre) + (e - Z.of_nat (List.length pre))) by lia.
      rewrite Fi by lia. apply element_seg. lia.
    + pose proof (memR_mid m1 m2 pre post s seg1) as Hm.
      assert (Ne : no_call e = true) by (cbn [forallb flocal localb] in Fl; apply andb_true_iff in Fl; tauto).
      pose proof (eval_sh m1 m2 pre post c (call_helper c helpers loop_fuel call_depth) len _ _ e Hm Ne) as K.
      unfold evaluate in Ev. rewrite Ev in K. destruct K as (o1 & K & ->).
      pose proof (init_sh m1 pre c (f_ret f) o) as Ki. rewrite Ei in Ki. destruct Ki as (o2 & Ki & ->).
      rewrite (Fv o' eq_refl) in Ki.
      exists (m1 ++ (s, pre ++ seg1 ++ post) :: m2), (Between (next (Some o'))), (RB (next (Some o'))).
      split; [cbn [advance]; unfold evaluate at 1; match goal with |- bind ?x _ = _ => replace x with (Ok (sh m1 pre o)) by (symmetry; exact K) end; cbn [bind]; destruct (f_ret f); try congruence; rewrite Ki; reflexivity|].
      split; [|split; [constructor|split; [apply same_shape_refl|reflexivity]]].
      apply (ti_between _ _ ni S). intros b e' Ha.
      destruct (Nat.eq_dec b (List.length m1)) as [Eb|Nb]; [|apply Fo; tauto].
      destruct (Z_le_gt_dec (Z.of_nat (List.length pre)) e'); [|apply Fo; [exact Ha|lia]].
      destruct (Z_lt_ge_dec e' (Z.of_nat (List.length pre) + Z.of_nat (List.length seg1))); [|apply Fo; [exact Ha|lia]].
      subst b. replace e' with (Z.of_nat (List.length pre) + (e' - Z.of_nat (List.length pre))) by lia.
      rewrite Fi by lia. apply element_seg. lia.
    + destruct (small_sh_ok m1 m2 pre post c k len _ _ k' en' lm Fl (memR_mid m1 m2 pre post s seg) Es) as (M' & Es' & (s' & seg' & -> & ->)).
      pose proof (small_shape _ _ _ _ _ _ _ Es) as Sp. cbn in Sp. unfold shape in Sp. cbn in Sp. injection Sp as -> Ls'.
      exists (m1 ++ (s, pre ++ seg' ++ post) :: m2), (Inside f k' (shen m1 pre en') next), (RI next n0).
      split; [rewrite advance_small; [match type of Es' with _ = ?r => match goal with |- bind ?x _ = _ => replace x with r by (symmetry; exact Es') end end; reflexivity|exact (small_return _ _ _ _ _ Es')|intros ->; discriminate Es']|].
      assert (Out : forall b e, ~ (b = List.length m1 /\ Z.of_nat (List.length pre) <= e < Z.of_nat (List.length pre) + Z.of_nat (List.length seg)) ->
        element (m1 ++ (s, pre ++ seg' ++ post) :: m2) b e = element (m1 ++ (s, pre ++ seg ++ post) :: m2) b e).
      { intros b e Ne. destruct (Nat.eq_dec b (List.length m1)) as [->|Nb]; [|now apply element_other].
        rewrite !element_mid. destruct (Z.ltb_spec e 0); [reflexivity|].
        destruct (Z.lt_ge_cases e (Z.of_nat (List.length pre))); [now rewrite !nth_error_app1 by lia|].
        rewrite !(nth_error_app2 pre) by lia. rewrite !(nth_error_app2 _ post) by lia. now rewrite Ls'. }
      split; [|split; [constructor|split; [apply shape_mid; rewrite !app_length; lia|]]].
      * eapply (ti_pointer _ f _ _ en' next n0 ni v s seg' seg1 m1 m2 pre post x0 S); rewrite ?Ls'; eauto.
        -- exact (small_local _ _ _ _ _ _ _ Fl Es).
        -- intros St. destruct (Fr St) as [F1 F2]. destruct (small_reads c x0 k len _ k' en' _ F1 F2 Es) as (_ & G1 & G2). auto.
        -- intros b e Ha Ne. rewrite (Out b e Ne). now apply Fo.
      * intros b e Nw. destruct (is_store f) eqn:St.
        -- apply Out. intros [-> He]. apply Nw. replace e with (Z.of_nat (List.length pre) + (e - Z.of_nat (List.length pre))) by lia. apply Fa; [lia|reflexivity].
        -- destruct (Fr eq_refl) as [F1 F2]. destruct (small_reads c x0 k len _ k' en' _ F1 F2 Es) as (Eseg & _ & _). injection Eseg as ->. reflexivity.
Qed.
End Thread.

(** ** All threads *)

Section Threads.
Context (c : cfg) (m : memory) (ps : list program) (A W : nat -> nat -> Z -> Prop).
Context (Wm : well_typed m).
Context (Conf : forall i p, nth_error ps i = Some p -> confined c (A i) (W i) m p).
Context (Disj : forall i j b e, i <> j -> W i b e -> ~ A j b e).
Context (Alone : forall i p, nth_error ps i = Some p -> exists mi, execute c m p = Returns mi None).

Record finv (s : memory * list thread) (rs : list rank) : Prop := {
  f_len : List.length (snd s) = List.length ps;
  f_rlen : List.length rs = List.length ps;
  f_shape : same_shape m (fst s);
  f_frame : forall b e, (forall i, ~ W i b e) -> element (fst s) b e = element m b e;
  f_thread : forall i p th r, nth_error ps i = Some p -> nth_error (snd s) i = Some th -> nth_error rs i = Some r ->
    tinv c m (A i) (W i) (execute c m p) (fst s) th r }.

Lemma finv_start : finv (m, map Between ps) (map RB ps).
Proof.
  split; cbn [fst snd]; rewrite ?map_length; trivial; [apply same_shape_refl|]. intros i p th r Hp Ht Hr.
  rewrite nth_error_map, Hp in Ht, Hr. cbn in Ht, Hr. injection Ht as <-. injection Hr as <-.
  apply (ti_between _ _ _ _ _ _ p m); [|reflexivity]. split; [exact (Conf i p Hp)|]. split; [reflexivity|]. split; [exact Wm|apply same_blocks_refl].
Qed.

Lemma nth_mid {X} (l1 : list X) x l2 : nth_error (l1 ++ x :: l2) (List.length l1) = Some x.
Proof. rewrite nth_error_app2, Nat.sub_diag by lia. reflexivity. Qed.
Lemma nth_other {X} (l1 : list X) x y l2 i : i <> List.length l1 -> nth_error (l1 ++ x :: l2) i = nth_error (l1 ++ y :: l2) i.
Proof.
  intros N. destruct (Nat.lt_ge_cases i (List.length l1)) as [L|L]; [now rewrite !nth_error_app1 by exact L|].
  rewrite !nth_error_app2 by exact L. destruct (i - List.length l1)%nat eqn:D; [lia|reflexivity].
Qed.

Lemma finv_advance M ts1 th ts2 rs : finv (M, ts1 ++ th :: ts2) rs -> th <> Between Finish ->
  exists M' th' rs', advance c M th = Ok (M', th') /\ finv (M', ts1 ++ th' :: ts2) rs' /\ lower rs' rs.
Proof.
  intros I N. set (k := List.length ts1).
  pose proof (f_len _ _ I) as L. pose proof (f_rlen _ _ I) as Lr. cbn [snd] in L. rewrite app_length in L. cbn [List.length] in L.
  assert (Hp : exists p, nth_error ps k = Some p). { destruct (nth_error ps k) as [p|] eqn:E; [eauto|]. apply nth_error_None in E. unfold k in *. lia. }
  destruct Hp as (p & Hp).
  assert (Hr : exists r, nth_error rs k = Some r). { destruct (nth_error rs k) as [r|] eqn:E; [eauto|]. apply nth_error_None in E. unfold k in *. lia. }
  destruct Hr as (r & Hr).
  pose proof (f_thread _ _ I k p th r Hp (nth_mid ts1 th ts2) Hr) as T. cbn [fst] in T.
  destruct (tinv_advance c m (A k) (W k) _ (Alone k p Hp) M th r T N (f_shape _ _ I)) as (M' & th' & r' & Ad & T' & Lo & Sh & Fr).
  apply nth_error_split in Hr. destruct Hr as (rs1 & rs2 & -> & L1).
  exists M', th', (rs1 ++ r' :: rs2). split; [exact Ad|]. split; [|now apply lower_app].
  split; cbn [fst snd].
  - rewrite app_length. exact L.
  - rewrite app_length in Lr |- *. exact Lr.
  - exact (same_shape_trans _ _ _ (f_shape _ _ I) Sh).
  - intros b e H. rewrite (Fr b e (H k)). exact (f_frame _ _ I b e H).
  - intros i p' q r0 Hp' Hq Hr0. destruct (Nat.eq_dec i k) as [->|Nk].
    + unfold k in Hq. rewrite nth_mid in Hq. injection Hq as <-. rewrite <- L1, nth_mid in Hr0. injection Hr0 as <-.
      rewrite Hp in Hp'. injection Hp' as <-. exact T'.
    + rewrite (nth_other ts1 th' th ts2 i Nk) in Hq. rewrite <- L1 in Nk. rewrite (nth_other rs1 r' r rs2 i Nk) in Hr0.
      apply (tinv_frame c m (A i) (W i) _ M M'); [exact (f_thread _ _ I i p' q r0 Hp' Hq Hr0)|exact Sh|].
      intros b e Ha. apply Fr. intros Hw. rewrite L1 in Nk. exact (Disj k i b e (fun H => Nk (eq_sym H)) Hw Ha).
Qed.

Lemma finish_dec (th : thread) : {th = Between Finish} + {th <> Between Finish}.
Proof. destruct th as [[|]|]; [now left|right; discriminate|right; discriminate]. Qed.

Lemma finv_step s s' rs : finv s rs -> fine_step c s s' -> exists rs', finv s' rs' /\ lower rs' rs.
Proof.
  intros I St. inversion St as [M ts1 th ts2 M' th' Ad]; subst s s'.
  destruct (finish_dec th) as [->|N]; [discriminate Ad|].
  destruct (finv_advance M ts1 th ts2 rs I N) as (M1 & th1 & rs' & Ad' & I' & Lo). rewrite Ad in Ad'. injection Ad' as <- <-. eauto.
Qed.

Lemma finv_steps s : fine_steps c (m, map Between ps) s -> exists rs, finv s rs.
Proof.
  intros H. remember (m, map Between ps) as s0. induction H as [s|s s' s'' H IH St]; subst; [exists (map RB ps); apply finv_start|].
  destruct (IH eq_refl) as (rs & I). destruct (finv_step _ _ _ I St) as (rs' & I' & _). eauto.
Qed.

Lemma fine_progress M ts th : fine_steps c (m, map Between ps) (M, ts) -> In th ts -> th <> Between Finish ->
  exists ts1 ts2 M' th', ts = ts1 ++ th :: ts2 /\ advance c M th = Ok (M', th') /\ fine_step c (M, ts) (M', ts1 ++ th' :: ts2).
Proof.
  intros H Hi N. destruct (finv_steps _ H) as (rs & I). destruct (in_split _ _ Hi) as (ts1 & ts2 & ->).
  destruct (finv_advance M ts1 th ts2 rs I N) as (M' & th' & rs' & Ad & _ & _). exists ts1, ts2, M', th'. split; [reflexivity|]. split; [exact Ad|]. now constructor.
Qed.

Lemma fine_ends s : fine_steps c (m, map Between ps) s -> Acc (fun s' s => fine_step c s s') s.
Proof.
  intros H. destruct (finv_steps _ H) as (rs & I). clear H. revert s I. induction (lower_acc rs) as [rs _ IH]. intros s I. constructor. intros s' St.
  destruct (finv_step _ _ _ I St) as (rs' & I' & Lo). exact (IH rs' Lo s' I').
Qed.

Lemma fine_elements M ts : fine_steps c (m, map Between ps) (M, ts) -> over ts ->
  same_shape m M /\ (forall b e, (forall i, ~ W i b e) -> element M b e = element m b e) /\
  forall i p mi, nth_error ps i = Some p -> execute c m p = Returns mi None -> forall b e, A i b e -> element M b e = element mi b e.
Proof.
  intros H F. destruct (finv_steps _ H) as (rs & I). split; [exact (f_shape _ _ I)|]. split; [exact (f_frame _ _ I)|].
  intros i p mi Hp E b e Ha. pose proof (f_len _ _ I) as L. pose proof (f_rlen _ _ I) as Lr. cbn [snd] in L.
  assert (Li : (i < List.length ps)%nat) by (apply nth_error_Some; congruence).
  destruct (nth_error ts i) as [th|] eqn:Ht; [|apply nth_error_None in Ht; lia].
  destruct (nth_error rs i) as [r|] eqn:Hr; [|apply nth_error_None in Hr; lia].
  pose proof (f_thread _ _ I i p th r Hp Ht Hr) as T.
  assert (th = Between Finish) as -> by exact (proj1 (Forall_forall _ _) F th (nth_error_In _ _ Ht)).
  inversion T as [q mj S Ag| |]; subst. destruct S as (_ & Ex & _). cbn in Ex. rewrite E in Ex. injection Ex as ->. exact (Ag b e Ha).
Qed.

(** Some schedule of whole calls comes to its end. *)
Lemma coarse_end : exists M qs, steps c (m, ps) (M, qs) /\ finished qs.
Proof.
  assert (K : forall s, steps c (m, ps) s -> exists M qs, steps c (m, ps) (M, qs) /\ finished qs).
  { intros s. induction (step_acc c s) as [s _ IH]. intros H. destruct s as [M qs].
    assert (D : finished qs \/ exists q, In q qs /\ q <> Finish).
    { clear. induction qs as [|q qs IH]; [left; constructor|]. destruct q as [|f args next].
      - destruct IH as [IH|(q & Hq & N)]; [left; constructor; auto|right; exists q; cbn; auto].
      - right. exists (Call f args next). split; [now left|discriminate]. }
    destruct D as [D|(q & Hq & N)]; [eauto|].
    destruct (threads_progress c m ps A W Wm Conf Disj Alone M qs q H Hq N) as (q1 & q2 & f & args & next & M1 & v & _ & _ & _ & St).
    apply (IH _ St). econstructor; [exact H|exact St]. }
  apply (K (m, ps)). constructor.
Qed.
End Threads.

(** Whatever the steps of the threads are interleaved like, the outcome is one of whole calls. *)
Lemma fine_coarse c m ps A W : well_typed m ->
  (forall i p, nth_error ps i = Some p -> confined c (A i) (W i) m p) ->
  (forall i j b e, i <> j -> W i b e -> ~ A j b e) ->
  (forall i b e, W i b e -> A i b e /\ (i < List.length ps)%nat) ->
  (forall i p, nth_error ps i = Some p -> exists mi, execute c m p = Returns mi None) ->
  forall M ts, fine_steps c (m, map Between ps) (M, ts) -> over ts ->
  exists qs, steps c (m, ps) (M, qs) /\ finished qs.
Proof.
  intros Wm Conf Disj WA Alone M ts H F. destruct (coarse_end c m ps A W Wm Conf Disj Alone) as (M' & qs & H' & F').
  exists qs. split; [|exact F']. replace M with M'; [exact H'|].
  destruct (fine_elements c m ps A W Wm Conf Disj Alone M ts H F) as (B & Fr & R).
  destruct (threads_result c m ps A W Wm Conf Disj Alone M' qs H' F') as (_ & B' & Fr' & R').
  apply memory_ext; [apply (same_shape_trans _ m); [apply same_shape_sym; now apply same_blocks_shape|exact B]|].
  intros b e. destruct (element_eq_dec (element M' b e) (element M b e)) as [|N]; [assumption|].
  rewrite Fr, Fr'; trivial; intros i Wi; apply N; destruct (WA i b e Wi) as [Ai Li].
  all: destruct (nth_error ps i) as [p|] eqn:Hp; [|apply nth_error_None in Hp; lia].
  all: destruct (Alone i p Hp) as (mi & E); rewrite (R i p mi Hp E b e Ai), (R' i p mi Hp E b e Ai); reflexivity.
Qed.
