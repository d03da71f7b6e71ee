(** Consequences of the lane theorem [run_ew], one per argument shape, and the
    symbolic execution of one lane. *)
From Coq Require Import ZArith String List Bool Lia.
From Verif Require Import Types FloatBits Syntax Interp ProgRecip ExecLemmas Lane Spec.
Import ListNotations.
Open Scope Z_scope.

Lemma nth_error_lt {A} (l : list A) k : (k < List.length l)%nat -> exists x, nth_error l k = Some x.
Proof. intros H. destruct (nth_error l k) eqn:E; [eauto|]. apply nth_error_None in E. lia. Qed.

Lemma lane_of_vec t l k x : nth_error l k = Some x -> lane_of k (vec t l) = vec t [x].
Proof.
  intros H. unfold lane_of, vec. cbn. do 2 f_equal.
  apply nth_error_nth. erewrite map_nth_error by exact H. reflexivity.
Qed.

Lemma map2_length {A B C} (g : A -> B -> C) a b :
  List.length (map2 g a b) = Nat.min (List.length a) (List.length b).
Proof. revert b; induction a; intros [|]; cbn; trivial. now rewrite IHa. Qed.

Lemma map2_nth {A B C} (g : A -> B -> C) a b k x y :
  nth_error a k = Some x -> nth_error b k = Some y -> nth_error (map2 g a b) k = Some (g x y).
Proof. revert b k; induction a; intros [|] [|k] H1 H2; cbn in *; try discriminate; [congruence|eauto]. Qed.

Lemma map3_length {A B C D} (g : A -> B -> C -> D) a b d :
  List.length (map3 g a b d) = Nat.min (List.length a) (Nat.min (List.length b) (List.length d)).
Proof. revert b d; induction a; intros [|] [|]; cbn; trivial. now rewrite IHa. Qed.

Lemma map3_nth {A B C D} (g : A -> B -> C -> D) a b d k x y z :
  nth_error a k = Some x -> nth_error b k = Some y -> nth_error d k = Some z ->
  nth_error (map3 g a b d) k = Some (g x y z).
Proof.
  revert b d k; induction a; intros [|] [|] [|k] H1 H2 H3; cbn in *; try discriminate; [congruence|eauto].
Qed.

Lemma lanes_nth t n l k x : lanes t n l -> nth_error l k = Some x -> in_range t x.
Proof. intros [_ H] Hk. eapply Forall_forall; [exact H|]. eapply nth_error_In; eauto. Qed.

Lemma mapM_seq_ok {B} (f : nat -> res B) (l : list B) :
  (forall k x, nth_error l k = Some x -> f k = Ok x) -> mapM f (seq 0 (List.length l)) = Ok l.
Proof.
  intros H. assert (G : forall s, (forall k x, nth_error l k = Some x -> f (s + k)%nat = Ok x) ->
    mapM f (seq s (List.length l)) = Ok l); [|now apply G].
  clear H. induction l as [|b l IH]; intros s H; [reflexivity|]. cbn.
  rewrite <- (Nat.add_0_r s), (H 0%nat b eq_refl). cbn. rewrite IH; [reflexivity|].
  intros k x Hk. rewrite Nat.add_0_r. replace (S s + k)%nat with (s + S k)%nat by lia. now apply H.
Qed.

Lemma mapM_seq_err {B} (f : nat -> res B) n e k :
  (forall j, (j < n)%nat -> (exists x, f j = Ok x) \/ f j = Err e) ->
  (k < n)%nat -> f k = Err e -> mapM f (seq 0 n) = Err e.
Proof.
  assert (G : forall s, (forall j, (j < n)%nat -> (exists x, f (s + j)%nat = Ok x) \/ f (s + j)%nat = Err e) ->
    (exists k, (k < n)%nat /\ f (s + k)%nat = Err e) -> mapM f (seq s n) = Err e).
  2: { intros H Hk Hf. apply G; eauto. }
  clear k. induction n as [|n IH]; intros s H (k & Hk & Hf); [lia|]. cbn.
  destruct (H 0%nat ltac:(lia)) as [[x Hx]|Hx]; rewrite Nat.add_0_r in Hx; rewrite Hx; [|reflexivity].
  cbn. rewrite IH; [reflexivity| |].
  - intros j Hj. replace (S s + j)%nat with (s + S j)%nat by lia. apply H. lia.
  - destruct k as [|k]; [rewrite Nat.add_0_r in Hf; congruence|].
    exists k. replace (S s + k)%nat with (s + S k)%nat by lia. split; [lia|exact Hf].
Qed.

(** Monadic lane-by-lane application: the first failing lane decides. *)
Definition mapM2 {A B C} (h : A -> B -> res C) (a : list A) (b : list B) : res (list C) :=
  mapM (fun p => h (fst p) (snd p)) (combine a b).
Definition mapM3 {A B C D} (h : A -> B -> C -> res D) (a : list A) (b : list B) (d : list C) : res (list D) :=
  mapM (fun p => h (fst p) (fst (snd p)) (snd (snd p))) (combine a (combine b d)).

Lemma mapM2_ok {A B C} (h : A -> B -> res C) g a b :
  all_lanes (fun x y => h x y = Ok (g x y)) a b -> mapM2 h a b = Ok (map2 g a b).
Proof.
  unfold mapM2. revert b. induction a as [|x a IH]; intros [|y b] H; try reflexivity. cbn.
  rewrite (H 0%nat x y eq_refl eq_refl). cbn. rewrite IH; [reflexivity|].
  intros i. exact (H (S i)).
Qed.

Lemma mapM2_err {A B C} (h : A -> B -> res C) e a b :
  all_lanes (fun x y => (exists z, h x y = Ok z) \/ h x y = Err e) a b ->
  some_lane (fun x y => h x y = Err e) a b -> mapM2 h a b = Err e.
Proof.
  unfold mapM2. revert b. induction a as [|x a IH]; intros [|y b] H (k & x' & y' & Hx & Hy & He);
    try (now destruct k). cbn.
  destruct (H 0%nat x y eq_refl eq_refl) as [[z Hz]|Hz]; rewrite Hz; [|reflexivity]. cbn.
  destruct k as [|k].
  - cbn in Hx, Hy. congruence.
  - rewrite IH; [reflexivity | intros i; exact (H (S i)) | exists k, x', y'; auto].
Qed.

Lemma mapM3_ok {A B C D} (h : A -> B -> C -> res D) g a b d :
  (forall i x y z, nth_error a i = Some x -> nth_error b i = Some y -> nth_error d i = Some z ->
     h x y z = Ok (g x y z)) -> mapM3 h a b d = Ok (map3 g a b d).
Proof.
  unfold mapM3. revert b d. induction a as [|x a IH]; intros [|y b] [|z d] H; try reflexivity. cbn.
  rewrite (H 0%nat x y z eq_refl eq_refl eq_refl). cbn. rewrite IH; [reflexivity|].
  intros i. exact (H (S i)).
Qed.

Lemma mapM3_err {A B C D} (h : A -> B -> C -> res D) e a b d k x' y' z' :
  (forall i x y z, nth_error a i = Some x -> nth_error b i = Some y -> nth_error d i = Some z ->
     (exists w, h x y z = Ok w) \/ h x y z = Err e) ->
  nth_error a k = Some x' -> nth_error b k = Some y' -> nth_error d k = Some z' ->
  h x' y' z' = Err e -> mapM3 h a b d = Err e.
Proof.
  unfold mapM3. revert b d k. induction a as [|x a IH]; intros [|y b] [|z d] k H Hx Hy Hz He;
    try (now destruct k). cbn.
  destruct (H 0%nat x y z eq_refl eq_refl eq_refl) as [[w Hw]|Hw]; rewrite Hw; [|reflexivity]. cbn.
  destruct k as [|k].
  - cbn in Hx, Hy, Hz. congruence.
  - rewrite (IH b d k); trivial. intros i. exact (H (S i)).
Qed.

Lemma mapM_ok_map {A B} (h : A -> res B) g a : (forall x, In x a -> h x = Ok (g x)) -> mapM h a = Ok (map g a).
Proof.
  induction a as [|x a IH]; intros H; [reflexivity|]. cbn. rewrite H by (now left). cbn.
  rewrite IH; [reflexivity|]. intros; apply H; now right.
Qed.

Lemma mapM_err_some {A B} (h : A -> res B) e a :
  (forall x, In x a -> (exists z, h x = Ok z) \/ h x = Err e) -> (exists x, In x a /\ h x = Err e) ->
  mapM h a = Err e.
Proof.
  induction a as [|x a IH]; intros H (y & Hy & He); [easy|]. cbn.
  destruct (H x (or_introl eq_refl)) as [[z Hz]|Hz]; rewrite Hz; [|reflexivity]. cbn.
  rewrite IH; [reflexivity | intros; apply H; now right |].
  destruct Hy as [<-|Hy]; [congruence|]. eauto.
Qed.

Lemma mapM_map_Ok {A B C} (h : A -> res B) (g : B -> C) l :
  mapM (fun a => let* z := h a in Ok (g z)) l = let* zs := mapM h l in Ok (map g zs).
Proof.
  induction l as [|a l IH]; [reflexivity|]. cbn. destruct (h a); cbn; [|reflexivity].
  rewrite IH. destruct (mapM h l); reflexivity.
Qed.

Lemma mapM_seq_list {A B} (F : nat -> res B) (h : A -> res B) (l : list A) :
  (forall k x, nth_error l k = Some x -> F k = h x) -> mapM F (seq 0 (List.length l)) = mapM h l.
Proof.
  assert (G : forall s, (forall k x, nth_error l k = Some x -> F (s + k)%nat = h x) ->
    mapM F (seq s (List.length l)) = mapM h l); [|intros H; exact (G 0%nat H)].
  induction l as [|a l IH]; intros s H; [reflexivity|]. cbn.
  rewrite <- (H 0%nat a eq_refl), Nat.add_0_r. destruct (F s); cbn; [|reflexivity].
  rewrite IH; [reflexivity|].
  intros k x Hk. replace (S s + k)%nat with (s + S k)%nat by lia. now apply H.
Qed.

Lemma combine_nth_error {A B} (a : list A) (b : list B) k p :
  nth_error (combine a b) k = Some p -> nth_error a k = Some (fst p) /\ nth_error b k = Some (snd p).
Proof.
  revert b k; induction a as [|x a IH]; intros [|y b] [|k] H; cbn in *; try discriminate; [|now apply IH].
  injection H as <-. auto.
Qed.

(** What a call returns when its lanes are computed by [r]. *)
Definition vec_outcome (m : memory) (t : sty) (r : res (list Z)) : outcome :=
  outcome_of (let* zs := r in Ok (Some (vec t zs), m)).

Section Shapes.
  Variables (n : nat) (f : func) (c : cfg) (m : memory).
  Hypothesis Hew : ew n f = true.

  Lemma ew_vec t (l : list Z) p ps args :
    snd p = TArr n (TScal t) -> List.length l = n -> ew_args n ps args ->
    ew_args n (p :: ps) (vec t l :: args).
  Proof.
    intros Hp Hl Ha. constructor; [|exact Ha]. rewrite Hp. eexists. split; [reflexivity|].
    now rewrite map_length.
  Qed.

  Lemma ew_scal t z p ps args :
    snd p = TScal t -> ew_args n ps args -> ew_args n (p :: ps) (rv t z :: args).
  Proof. intros Hp Ha. constructor; [|exact Ha]. now rewrite Hp. Qed.

  Lemma run_ew_list {A} args t (l : list A) (h : A -> res Z) :
    ew_args n (f_params f) args -> List.length l = n ->
    (forall k x, nth_error l k = Some x ->
       lane c m f (map (lane_of k) args) = let* z := h x in Ok (rv t z)) ->
    run c m f args = vec_outcome m t (mapM h l).
  Proof.
    intros Ha Hl H. rewrite (run_ew n) by assumption. rewrite <- Hl.
    rewrite (mapM_seq_list _ (fun x => let* z := h x in Ok (rv t z))) by exact H.
    rewrite mapM_map_Ok. unfold vec_outcome. destruct (mapM h l); reflexivity.
  Qed.

  (** One vector. *)
  Lemma run_ew1 t1 t x1 h a :
    f_params f = [(x1, TArr n (TScal t1))] -> lanes t1 n a ->
    (forall x, in_range t1 x -> lane c m f [vec t1 [x]] = let* z := h x in Ok (rv t z)) ->
    run c m f [vec t1 a] = vec_outcome m t (mapM h a).
  Proof.
    intros Hp Ha H. apply run_ew_list.
    - rewrite Hp. apply ew_vec; [reflexivity|apply Ha|constructor].
    - apply Ha.
    - intros k x Hk. cbn [map]. rewrite (lane_of_vec _ _ _ _ Hk). apply H. eapply lanes_nth; eauto.
  Qed.

  (** Two vectors. *)
  Lemma run_ew2 t1 t2 t x1 x2 h a b :
    f_params f = [(x1, TArr n (TScal t1)); (x2, TArr n (TScal t2))] -> lanes t1 n a -> lanes t2 n b ->
    (forall x y, in_range t1 x -> in_range t2 y ->
       lane c m f [vec t1 [x]; vec t2 [y]] = let* z := h x y in Ok (rv t z)) ->
    run c m f [vec t1 a; vec t2 b] = vec_outcome m t (mapM2 h a b).
  Proof.
    intros Hp Ha Hb H. apply run_ew_list.
    - rewrite Hp. apply ew_vec; [reflexivity|apply Ha|]. apply ew_vec; [reflexivity|apply Hb|constructor].
    - rewrite combine_length. destruct Ha, Hb. lia.
    - intros k p Hk. apply combine_nth_error in Hk. destruct Hk as [Hx Hy].
      cbn [map]. rewrite (lane_of_vec _ _ _ _ Hx), (lane_of_vec _ _ _ _ Hy).
      apply H; eapply lanes_nth; eauto.
  Qed.

  (** Three vectors. *)
  Lemma run_ew3 t1 t2 t3 t x1 x2 x3 h a b d :
    f_params f = [(x1, TArr n (TScal t1)); (x2, TArr n (TScal t2)); (x3, TArr n (TScal t3))] ->
    lanes t1 n a -> lanes t2 n b -> lanes t3 n d ->
    (forall x y z, in_range t1 x -> in_range t2 y -> in_range t3 z ->
       lane c m f [vec t1 [x]; vec t2 [y]; vec t3 [z]] = let* w := h x y z in Ok (rv t w)) ->
    run c m f [vec t1 a; vec t2 b; vec t3 d] = vec_outcome m t (mapM3 h a b d).
  Proof.
    intros Hp Ha Hb Hd H. apply run_ew_list.
    - rewrite Hp. apply ew_vec; [reflexivity|apply Ha|]. apply ew_vec; [reflexivity|apply Hb|].
      apply ew_vec; [reflexivity|apply Hd|constructor].
    - rewrite !combine_length. destruct Ha, Hb, Hd. lia.
    - intros k p Hk. apply combine_nth_error in Hk. destruct Hk as [Hx Hk].
      apply combine_nth_error in Hk. destruct Hk as [Hy Hz].
      cbn [map]. rewrite (lane_of_vec _ _ _ _ Hx), (lane_of_vec _ _ _ _ Hy), (lane_of_vec _ _ _ _ Hz).
      apply H; eapply lanes_nth; eauto.
  Qed.

  (** A vector and a scalar. *)
  Lemma run_ew1s t1 ts t x1 x2 h a s :
    f_params f = [(x1, TArr n (TScal t1)); (x2, TScal ts)] -> lanes t1 n a ->
    (forall x, in_range t1 x -> lane c m f [vec t1 [x]; rv ts s] = let* z := h x in Ok (rv t z)) ->
    run c m f [vec t1 a; rv ts s] = vec_outcome m t (mapM h a).
  Proof.
    intros Hp Ha H. apply run_ew_list.
    - rewrite Hp. apply ew_vec; [reflexivity|apply Ha|]. apply ew_scal; [reflexivity|constructor].
    - apply Ha.
    - intros k x Hk. cbn [map]. rewrite (lane_of_vec _ _ _ _ Hk). apply H. eapply lanes_nth; eauto.
  Qed.

  (** Two vectors and a scalar. *)
  Lemma run_ew2s t1 t2 ts t x1 x2 x3 h a b s :
    f_params f = [(x1, TArr n (TScal t1)); (x2, TArr n (TScal t2)); (x3, TScal ts)] ->
    lanes t1 n a -> lanes t2 n b ->
    (forall x y, in_range t1 x -> in_range t2 y ->
       lane c m f [vec t1 [x]; vec t2 [y]; rv ts s] = let* z := h x y in Ok (rv t z)) ->
    run c m f [vec t1 a; vec t2 b; rv ts s] = vec_outcome m t (mapM2 h a b).
  Proof.
    intros Hp Ha Hb H. apply run_ew_list.
    - rewrite Hp. apply ew_vec; [reflexivity|apply Ha|]. apply ew_vec; [reflexivity|apply Hb|].
      apply ew_scal; [reflexivity|constructor].
    - rewrite combine_length. destruct Ha, Hb. lia.
    - intros k p Hk. apply combine_nth_error in Hk. destruct Hk as [Hx Hy].
      cbn [map]. rewrite (lane_of_vec _ _ _ _ Hx), (lane_of_vec _ _ _ _ Hy).
      apply H; eapply lanes_nth; eauto.
  Qed.

  (** A scalar alone. *)
  Lemma run_ews ts t x1 s z :
    f_params f = [(x1, TScal ts)] ->
    lane c m f [rv ts s] = Ok (rv t z) ->
    run c m f [rv ts s] = Returns m (Some (vec t (repeat z n))).
  Proof.
    intros Hp H. rewrite (run_ew_list [rv ts s] t (repeat z n) (fun z => Ok z)).
    - rewrite (mapM_ok_map _ (fun z => z)) by reflexivity. rewrite map_id. reflexivity.
    - rewrite Hp. apply ew_scal; [reflexivity|constructor].
    - apply repeat_length.
    - intros k w Hk. apply nth_error_In in Hk. apply repeat_spec in Hk. subst w. exact H.
  Qed.
End Shapes.

(** [vec_outcome] in the two cases that matter. *)
Lemma vec_outcome_ok m t l : vec_outcome m t (Ok l) = Returns m (Some (vec t l)).
Proof. reflexivity. Qed.
Lemma vec_outcome_ub m t k : vec_outcome m t (Err (EUB k)) = Undefined k.
Proof. reflexivity. Qed.

Lemma all_lanes_range (P : Z -> Z -> Prop) t1 t2 n a b : lanes t1 n a -> lanes t2 n b ->
  (forall x y, in_range t1 x -> in_range t2 y -> P x y) -> all_lanes P a b.
Proof. intros Ha Hb H i x y Hx Hy. apply H; eapply lanes_nth; eauto. Qed.
