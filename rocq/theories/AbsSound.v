(** Soundness of the abstract interpreter [Abs] with respect to [Interp]. *)
From Coq Require Import ZArith List String Bool Lia.
From Verif Require Import Types FloatBits Syntax Interp ProgRecip ExecLemmas FloatR P_Bit Abs.
Import ListNotations.
Open Scope Z_scope.

(** ** Lists of errors *)

Lemma err_eqb_spec a b : err_eqb a b = true <-> a = b.
Proof. destruct a as [[]| | |], b as [[]| | |]; cbn; split; congruence. Qed.

Lemma adde_in e l l' : In e (adde l l') <-> In e l \/ In e l'.
Proof.
  induction l as [|a l IH]; cbn; [tauto|]. fold (adde l l').
  destruct (existsb (err_eqb a) (adde l l')) eqn:E.
  - rewrite IH. apply existsb_exists in E. destruct E as (b & Hb & E). apply err_eqb_spec in E. subst b.
    split; [tauto|]. intros [[<-|H]|H]; try tauto.
  - cbn. rewrite IH. tauto.
Qed.

(** ** Relations between abstract and concrete results *)

(** An [EStuck] among the possible errors stands for giving up: nothing is claimed. *)
Definition rsound {A B} (R : A -> B -> Prop) (x : ar A) (r : res B) : Prop :=
  ~ In EStuck (snd x) ->
  match r with Ok b => exists a, In a (fst x) /\ R a b | Err e => In e (snd x) end.

Lemma abinds_in {A B} (l : list A) (f : A -> ar B) a : In a l ->
  incl (fst (f a)) (fst (abinds l f)) /\ incl (snd (f a)) (snd (abinds l f)).
Proof.
  induction l as [|x l IH]; intros H; [destruct H|]. cbn. destruct l as [|y l].
  - destruct H as [->|[]]. split; apply incl_refl.
  - destruct H as [->|H]; cbn [fst snd].
    + split; [apply incl_appl, incl_refl|]. intros e He. apply adde_in. now left.
    + destruct (IH H) as [H1 H2]. split; [now apply incl_appr|]. intros e He. apply adde_in. right. now apply H2.
Qed.

Lemma aret_sound {A B} (R : A -> B -> Prop) a b : R a b -> rsound R (aret a) (Ok b).
Proof. intros H _. exists a. split; [now left|exact H]. Qed.
Lemma afail_sound {A B} (R : A -> B -> Prop) e : rsound R (afail e) (Err e).
Proof. now left. Qed.
Lemma giveup_sound {A B} (R : A -> B -> Prop) r : rsound R (afail EStuck) r.
Proof. intros H. exfalso. apply H. now left. Qed.

Lemma abind_sound {A B A' B'} (R : A -> B -> Prop) (S : A' -> B' -> Prop) x r f g :
  rsound R x r -> (forall a b, R a b -> rsound S (f a) (g b)) -> rsound S (abind x f) (bind r g).
Proof.
  intros H F N. unfold rsound in *. cbn [abind snd] in N. rewrite adde_in in N.
  specialize (H ltac:(tauto)). destruct r as [b|e]; cbn in *.
  - destruct H as (a & Ha & Hab). destruct (abinds_in (fst x) f a Ha) as [I1 I2].
    specialize (F a b Hab ltac:(intros K; apply I2 in K; tauto)). destruct (g b); cbn.
    + destruct F as (a' & Ha' & HS). exists a'. split; [now apply I1|exact HS].
    + apply adde_in. right. now apply I2.
  - apply adde_in. now left.
Qed.

(** ** Coverage *)

Definition mem_ok (m : memory) : Prop :=
  Forall (fun b : block => Forall (fun v => match v with Some z => in_range (fst b) z | None => True end) (snd b)) m.

(** Same blocks, of the same types and lengths; what was initialised still is. *)
Definition mem_le (m m' : memory) : Prop :=
  List.length m' = List.length m /\
  forall b t cells, nth_error m b = Some (t, cells) ->
    exists cells', nth_error m' b = Some (t, cells') /\ List.length cells' = List.length cells /\
      forall i z, nth_error cells i = Some (Some z) -> exists z', nth_error cells' i = Some (Some z').

Lemma mem_le_refl m : mem_le m m.
Proof. split; [reflexivity|]. intros b t cells H. exists cells. split; [exact H|]. split; [reflexivity|]. eauto. Qed.

Lemma mem_le_trans m1 m2 m3 : mem_le m1 m2 -> mem_le m2 m3 -> mem_le m1 m3.
Proof.
  intros [L1 H1] [L2 H2]. split; [congruence|]. intros b t cells H.
  destruct (H1 b t cells H) as (c2 & E2 & N2 & I2). destruct (H2 b t c2 E2) as (c3 & E3 & N3 & I3).
  exists c3. split; [exact E3|]. split; [congruence|]. intros i z Hz. destruct (I2 i z Hz) as [z' Hz']. eauto.
Qed.

Fixpoint cov (m : memory) (a : aobj) (o : obj) {struct a} : Prop :=
  match a with
  | AScal t i l h => exists v, o = OScal t v /\ match v with Some z => l <= z <= h | None => i = false end
  | AArr la => exists l, o = OArr l /\
      (fix all (la : list aobj) (l : list obj) : Prop :=
         match la, l with
         | [], [] => True
         | x :: la', y :: l' => cov m x y /\ all la' l'
         | _, _ => False
         end) la l
  | APtr t k rd => exists b off, o = OPtr t b off /\
      (0 <= k -> forall t' cells, nth_error m b = Some (t', cells) -> t' = t) /\
      (0 < k -> exists cells, nth_error m b = Some (t, cells) /\ 0 <= off /\ off + k <= Z.of_nat (List.length cells) /\
         (rd = true -> forall i, 0 <= i < k -> exists z, nth_error cells (Z.to_nat (off + i)) = Some (Some z)))
  end.

Lemma cov_arr m la o : cov m (AArr la) o <-> exists l, o = OArr l /\ Forall2 (cov m) la l.
Proof.
  cbn. split; intros (l & -> & H); exists l; (split; [reflexivity|]).
  - revert l H. induction la as [|a la IH]; intros [|x l] H; try destruct H; constructor; auto.
  - induction H; cbn; auto.
Qed.
Arguments cov : simpl never.

Lemma cov_scal m t i l h o : cov m (AScal t i l h) o <-> exists v, o = OScal t v /\ match v with Some z => l <= z <= h | None => i = false end.
Proof. reflexivity. Qed.
Lemma cov_ptr m t k rd o : cov m (APtr t k rd) o <-> exists b off, o = OPtr t b off /\
      (0 <= k -> forall t' cells, nth_error m b = Some (t', cells) -> t' = t) /\
      (0 < k -> exists cells, nth_error m b = Some (t, cells) /\ 0 <= off /\ off + k <= Z.of_nat (List.length cells) /\
         (rd = true -> forall i, 0 <= i < k -> exists z, nth_error cells (Z.to_nat (off + i)) = Some (Some z))).
Proof. reflexivity. Qed.

Section AobjInd.
  Variable P : aobj -> Prop.
  Hypothesis HS : forall t i l h, P (AScal t i l h).
  Hypothesis HA : forall l, Forall P l -> P (AArr l).
  Hypothesis HP : forall t k rd, P (APtr t k rd).
  Fixpoint aobj_ind' (a : aobj) : P a :=
    match a with
    | AScal t i l h => HS t i l h
    | AArr l => HA l ((fix go l : Forall P l := match l with [] => Forall_nil P | x :: l' => Forall_cons x (aobj_ind' x) (go l') end) l)
    | APtr t k rd => HP t k rd
    end.
End AobjInd.

Lemma cov_le m m' a : mem_le m m' -> forall o, cov m a o -> cov m' a o.
Proof.
  intros [L HL]. induction a as [t i l h|l IH|t k rd] using aobj_ind'; intros o H.
  - exact H.
  - apply cov_arr in H. destruct H as (l' & -> & F). apply cov_arr. exists l'. split; [reflexivity|].
    induction F; constructor; inversion IH; subst; auto.
  - rewrite cov_ptr in H. destruct H as (b & off & -> & H1 & H2). apply cov_ptr. exists b, off. split; [reflexivity|]. split.
    + intros Hk t' cells' E. destruct (nth_error m b) as [[t0 c0]|] eqn:Eb.
      * destruct (HL b t0 c0 Eb) as (c1 & E1 & _). rewrite E1 in E. injection E as <- <-. now apply (H1 Hk t0 c0).
      * apply nth_error_None in Eb. assert (b < List.length m')%nat by (apply nth_error_Some; congruence). lia.
    + intros Hk. destruct (H2 Hk) as (cells & E & Ho & Hl & Hr). destruct (HL b t cells E) as (c1 & E1 & N1 & I1).
      exists c1. split; [exact E1|]. split; [exact Ho|]. split; [lia|]. intros Er i Hi. destruct (Hr Er i Hi) as [z Hz]. eauto.
Qed.

Definition iin (i : itv) (z : Z) : Prop := fst i <= z <= snd i.

Lemma cov_av m t i z : iin i z -> cov m (av t i) (rv t z).
Proof. intros H. exists (Some z). split; [reflexivity|exact H]. Qed.

(** ** Joins *)

Lemma sty_eqb_spec a b : sty_eqb a b = true -> a = b.
Proof. destruct a, b; cbn; congruence. Qed.
Lemma sty_eqb_refl a : sty_eqb a a = true.
Proof. destruct a; reflexivity. Qed.

Lemma ajoin_sound m : forall a b u o, ajoin a b = Some u -> cov m a o \/ cov m b o -> cov m u o.
Proof.
  induction a as [t i l h|l IH|t k rd] using aobj_ind'; intros [t' i' l' h'|lb|t' k' rd'] u o E H; try discriminate E.
  - cbn in E. destruct (sty_eqb t t') eqn:T; [|discriminate]. apply sty_eqb_spec in T. subst t'. injection E as <-.
    rewrite !cov_scal in *. destruct H as [(v & -> & H)|(v & -> & H)]; exists v; (split; [reflexivity|]);
      destruct v; try lia; rewrite H; try reflexivity; apply andb_false_r.
  - cbn in E.
    match type of E with match ?g l lb with _ => _ end = _ => set (go := g) in E end.
    destruct (go l lb) as [r|] eqn:G; [|discriminate]. injection E as <-.
    assert (K : forall l0, Forall2 (cov m) l l0 \/ Forall2 (cov m) lb l0 -> Forall2 (cov m) r l0).
    { clear H o. revert lb r G. induction IH as [|x l Hx IH IHl]; intros [|y lb] r G; cbn in G; try discriminate.
      - injection G as <-. intros l0 [H|H]; exact H.
      - destruct (ajoin x y) as [z|] eqn:J; [|discriminate]. destruct (go l lb) as [r'|] eqn:G'; [|discriminate]. injection G as <-.
        intros l0 H. destruct l0 as [|o l0]; [destruct H as [H|H]; inversion H|].
        assert (cov m x o \/ cov m y o) by (destruct H as [H|H]; inversion H; subst; auto).
        assert (Forall2 (cov m) l l0 \/ Forall2 (cov m) lb l0) by (destruct H as [H|H]; inversion H; subst; auto).
        constructor; [eapply Hx; eauto|]. eapply IHl; eauto. }
    apply cov_arr. destruct H as [H|H]; apply cov_arr in H; destruct H as (l0 & -> & F); exists l0; auto.
  - cbn in E. destruct (sty_eqb t t') eqn:T; [|discriminate]. apply sty_eqb_spec in T. subst t'. injection E as <-.
    rewrite !cov_ptr in *. destruct H as [(b & off & -> & H1 & H2)|(b & off & -> & H1 & H2)]; exists b, off; (split; [reflexivity|]); split.
    1,3: intros Hk; apply H1; lia.
    + intros Hk. destruct (H2 ltac:(lia)) as (cells & E & Ho & Hl & Hr). exists cells. split; [exact E|]. split; [exact Ho|]. split; [lia|].
      intros Hrd j Hj. apply andb_true_iff in Hrd. apply Hr; [tauto|lia].
    + intros Hk. destruct (H2 ltac:(lia)) as (cells & E & Ho & Hl & Hr). exists cells. split; [exact E|]. split; [exact Ho|]. split; [lia|].
      intros Hrd j Hj. apply andb_true_iff in Hrd. apply Hr; [tauto|lia].
Qed.

Definition cove (m : memory) (a : aenv) (en : env) : Prop :=
  Forall2 (fun p q => fst p = fst q /\ cov m (snd p) (snd q)) a en.

Lemma cove_le m m' a en : mem_le m m' -> cove m a en -> cove m' a en.
Proof. intros L H. induction H as [|p q a en [H1 H2]]; constructor; auto. split; [exact H1|]. eapply cov_le; eauto. Qed.

Lemma ejoin_sound m : forall a b u en, ejoin a b = Some u -> cove m a en \/ cove m b en -> cove m u en.
Proof.
  induction a as [|[x o] a IH]; intros [|[y o'] b] u en E H; cbn in E; try discriminate.
  - injection E as <-. destruct H as [H|H]; exact H.
  - destruct (String.eqb_spec x y) as [->|]; [|discriminate]. destruct (ajoin o o') as [w|] eqn:J; [|discriminate].
    destruct (ejoin a b) as [r|] eqn:G; [|discriminate]. injection E as <-.
    destruct en as [|[z q] en]; [destruct H as [H|H]; inversion H|].
    assert (y = z /\ (cov m o q \/ cov m o' q)) as [-> Hq] by (destruct H as [H|H]; inversion H; subst; cbn in *; tauto).
    assert (cove m a en \/ cove m b en) by (destruct H as [H|H]; inversion H; subst; auto).
    constructor; [|eapply IH; eauto]. split; [reflexivity|]. cbn. eapply ajoin_sound; eauto.
Qed.

Lemma compact_sound {A} (j : A -> A -> option A) (R : A -> Prop) l :
  (forall a b u, j a b = Some u -> R a \/ R b -> R u) ->
  (exists a, In a l /\ R a) -> exists a, In a (compact j l) /\ R a.
Proof.
  intros J. induction l as [|x l IH]; intros (a & Ha & Hr); [destruct Ha|]. cbn.
  assert (K : R x \/ exists b, In b (compact j l) /\ R b).
  { destruct Ha as [->|Ha]; [now left|right]. apply IH. eauto. }
  clear IH Ha Hr. destruct (compact j l) as [|b r]; cbn.
  - destruct K as [K|(b & [] & _)]. exists x. auto.
  - destruct (j x b) as [u|] eqn:E.
    + destruct K as [K|(d & [<-|Hd] & K)]; [exists u|exists u|exists d]; cbn; eauto.
    + destruct K as [K|(d & Hd & K)]; [exists x; cbn; auto|exists d; cbn; cbn in Hd; auto].
Qed.

Lemma compact_rsound {A B} (j : A -> A -> option A) (R : A -> B -> Prop) x r :
  (forall a b u o, j a b = Some u -> R a o \/ R b o -> R u o) ->
  rsound R x r -> rsound R (compact j (fst x), snd x) r.
Proof.
  intros J H N. specialize (H N). destruct r as [b|e]; cbn in *; [|exact H].
  apply (compact_sound j (fun a => R a b)); eauto.
Qed.

(** ** Scalars *)

Lemma within_spec t i z : within t i = true -> iin i z -> in_range t z.
Proof. unfold within, iin, in_range. rewrite andb_true_iff, !Z.leb_le. lia. Qed.
Lemma full_in t z : in_range t z -> iin (full t) z.
Proof. unfold in_range, iin, full. cbn. lia. Qed.

Lemma fty_float t : is_float t = true -> fty t.
Proof. destruct t; try discriminate; intros _; unfold fty; tauto. Qed.

Section Sound.
  Variable c : cfg.

  Lemma aconvert_sound from to i z : iin i z -> rsound iin (aconvert from to i) (convert c from to z).
  Proof.
    intros H. unfold aconvert, convert. destruct (sty_eqb from to); [now apply aret_sound|].
    destruct (is_float from).
    - destruct (is_float to) eqn:F.
      + apply aret_sound, full_in, cvt_range. now apply fty_float.
      + destruct (sf_trunc (decode from z)) as [k|]; [|now left]. destruct (in_rangeb to k) eqn:R; [|now left].
        apply in_rangeb_spec in R. exists (full to). split; [now left|now apply full_in].
    - destruct (is_float to) eqn:F.
      + apply aret_sound, full_in, of_Z_range. now apply fty_float.
      + destruct (within to i) eqn:W.
        * apply aret_sound. rewrite wrap_id; [exact H|]. eapply within_spec; eauto.
        * apply aret_sound, full_in, wrap_range.
  Qed.

  Lemma aarith_sound t i z : iin i z -> rsound iin (aarith (wrapv c) t i) (arith c t z).
  Proof.
    intros H. unfold aarith, arith. destruct (within t i) eqn:W.
    - pose proof (within_spec t i z W H) as R. rewrite (proj2 (in_rangeb_spec t z) R), (wrap_id t z R).
      destruct (is_signed t); now apply aret_sound.
    - destruct (is_signed t); cbn.
      + destruct (in_rangeb t z) eqn:R.
        * apply in_rangeb_spec in R. destruct (wrapv c); exists (full t); (split; [now left|now apply full_in]).
        * destruct (wrapv c); cbn; [|now left]. exists (full t). split; [now left|]. apply full_in, wrap_range.
      + apply aret_sound, full_in, wrap_range.
  Qed.

  Lemma ascalar_sound m a o : cov m a o -> rsound (fun p q => fst p = fst q /\ iin (snd p) (snd q)) (ascalar a) (scalar o).
  Proof.
    destruct a as [t i l h|l|t k rd]; intros H.
    - rewrite cov_scal in H. destruct H as (v & -> & H); destruct v as [z|]; cbn.
      + exists (t, (l, h)). split; [now left|]. split; [reflexivity|exact H].
      + subst i. now left.
    - apply cov_arr in H. destruct H as (l' & -> & _). now left.
    - rewrite cov_ptr in H. destruct H as (b & off & -> & _). now left.
  Qed.

  Lemma atruth_sound t i z : iin i z -> In (truth t z) (atruth (t, i)).
  Proof.
    destruct i as [l h]. unfold iin, truth, atruth. cbn. intros H. destruct (is_float t).
    - destruct (sf_nonzero _); cbn; auto.
    - destruct (Z.ltb_spec 0 l); cbn; [left; destruct (Z.eqb_spec z 0); cbn; [lia|reflexivity]|].
      destruct (Z.ltb_spec h 0); cbn; [left; destruct (Z.eqb_spec z 0); cbn; [lia|reflexivity]|].
      destruct (Z.leb_spec 0 l); destruct (Z.leb_spec h 0); cbn; destruct (Z.eqb_spec z 0); cbn; auto; lia.
  Qed.

  Lemma acond_sound m a o : cov m a o -> rsound eq (acond a) (cond_value o).
  Proof.
    intros H. unfold acond, cond_value. eapply abind_sound; [eapply ascalar_sound; eauto|].
    intros [t i] [t' z] [E Hi]. cbn in E, Hi. subst t'. cbn [fst snd]. exists (truth t z). split; [|reflexivity]. now apply atruth_sound.
  Qed.

  Lemma cov_bool m b : cov m (abool b) (of_bool b).
  Proof. exists (Some (if b then 1 else 0)). split; [reflexivity|]. destruct b; cbn; lia. Qed.
  Lemma cov_01 m b : cov m a01 (of_bool b).
  Proof. exists (Some (if b then 1 else 0)). split; [reflexivity|]. destruct b; cbn; lia. Qed.

  Lemma alt_sound m x y a b : iin x a -> iin y b -> cov m (alt x y) (of_bool (a <? b)).
  Proof.
    unfold iin, alt. intros. destruct (Z.ltb_spec (snd x) (fst y)); [|destruct (Z.leb_spec (snd y) (fst x))]; [| |apply cov_01];
      destruct (Z.ltb_spec a b); try lia; apply cov_bool.
  Qed.
  Lemma ale_sound m x y a b : iin x a -> iin y b -> cov m (ale x y) (of_bool (a <=? b)).
  Proof.
    unfold iin, ale. intros. destruct (Z.leb_spec (snd x) (fst y)); [|destruct (Z.ltb_spec (snd y) (fst x))]; [| |apply cov_01];
      destruct (Z.leb_spec a b); try lia; apply cov_bool.
  Qed.
  Ltac eqs := repeat match goal with |- context [?a =? ?b] => destruct (Z.eqb_spec a b) | |- context [?a <? ?b] => destruct (Z.ltb_spec a b) end.
  Lemma aeq_sound m x y a b : iin x a -> iin y b -> cov m (aeq x y) (of_bool (a =? b)).
  Proof. unfold iin, aeq. intros. eqs; cbn [andb orb]; try lia; first [apply cov_01 | apply cov_bool]. Qed.
  Lemma ane_sound m x y a b : iin x a -> iin y b -> cov m (ane x y) (of_bool (negb (a =? b))).
  Proof. unfold iin, ane. intros. eqs; cbn [andb orb negb]; try lia; first [apply cov_01 | apply cov_bool]. Qed.

  Lemma acompare_sound m op x y a b : iin x a -> iin y b -> cov m (acompare op x y) (of_bool (compare_int op a b)).
  Proof.
    intros Hx Hy. destruct op; cbn [acompare compare_int];
      auto using alt_sound, ale_sound, aeq_sound, ane_sound.
  Qed.

  Lemma mul_between p q a b : p <= a <= q -> Z.min (p * b) (q * b) <= a * b <= Z.max (p * b) (q * b).
  Proof. intros H. destruct (Z_le_gt_dec 0 b); nia. Qed.

  Lemma imul_sound x y a b : iin x a -> iin y b -> iin (imul x y) (a * b).
  Proof.
    destruct x as [p q], y as [u v]. unfold iin, imul. cbn [fst snd]. intros H1 H2.
    pose proof (mul_between p q a b H1) as K1.
    pose proof (mul_between u v b p H2) as K2. pose proof (mul_between u v b q H2) as K3.
    rewrite (Z.mul_comm b p), (Z.mul_comm u p), (Z.mul_comm v p) in K2.
    rewrite (Z.mul_comm b q), (Z.mul_comm u q), (Z.mul_comm v q) in K3.
    lia.
  Qed.

  Lemma mask_of_spec z : 0 <= z -> exists k, 0 <= k /\ mask_of z = 2 ^ k - 1 /\ z < 2 ^ k.
  Proof.
    intros H. exists (Z.log2 (Z.max z 1) + 1). split; [pose proof (Z.log2_nonneg (Z.max z 1)); lia|]. split; [reflexivity|].
    pose proof (Z.log2_spec (Z.max z 1) ltac:(lia)) as [_ L]. unfold Z.succ in L. lia.
  Qed.

  Lemma bits_below k x : 0 <= k -> 0 <= x -> (0 <= x < 2 ^ k <-> forall i, k <= i -> Z.testbit x i = false).
  Proof.
    intros Hk Hx. split.
    - intros H i Hi. rewrite <- (Z.mod_small x (2 ^ k)) by lia. now apply Z.mod_pow2_bits_high.
    - intros H. split; [exact Hx|]. destruct (Z.eq_dec x 0) as [->|N]; [lia|].
      destruct (Z_lt_le_dec x (2 ^ k)) as [|L]; [assumption|]. exfalso.
      assert (k <= Z.log2 x) by (apply Z.log2_le_pow2; lia).
      pose proof (Z.bit_log2 x ltac:(lia)) as B. rewrite H in B by lia. discriminate.
  Qed.

  Lemma lor_below k x y : 0 <= k -> 0 <= x < 2 ^ k -> 0 <= y < 2 ^ k -> 0 <= Z.lor x y < 2 ^ k.
  Proof.
    intros Hk Hx Hy. apply bits_below; [lia|apply Z.lor_nonneg; lia|]. intros i Hi.
    rewrite Z.lor_spec, (proj1 (bits_below k x Hk ltac:(lia)) Hx i Hi), (proj1 (bits_below k y Hk ltac:(lia)) Hy i Hi). reflexivity.
  Qed.
  Lemma lxor_below k x y : 0 <= k -> 0 <= x < 2 ^ k -> 0 <= y < 2 ^ k -> 0 <= Z.lxor x y < 2 ^ k.
  Proof.
    intros Hk Hx Hy. apply bits_below; [lia|apply Z.lxor_nonneg; lia|]. intros i Hi.
    rewrite Z.lxor_spec, (proj1 (bits_below k x Hk ltac:(lia)) Hx i Hi), (proj1 (bits_below k y Hk ltac:(lia)) Hy i Hi). reflexivity.
  Qed.

  Lemma land_le_l x y : 0 <= x -> 0 <= Z.land x y <= x.
  Proof.
    intros H. split; [apply Z.land_nonneg; now left|].
    assert (E : Z.ldiff (Z.land x y) x = 0).
    { apply Z.bits_inj_0. intros i. rewrite Z.ldiff_spec, Z.land_spec. destruct (Z.testbit x i), (Z.testbit y i); reflexivity. }
    apply Z.sub_nocarry_ldiff in E. assert (0 <= Z.ldiff x (Z.land x y)) by (apply Z.ldiff_nonneg; now left). lia.
  Qed.
  Lemma land_le_r x y : 0 <= y -> 0 <= Z.land x y <= y.
  Proof. rewrite Z.land_comm. apply land_le_l. Qed.

  Lemma arith_obj_sound m t i z : iin i z ->
    rsound (cov m) (abind (aarith (wrapv c) t i) (fun i => aret (av t i))) (bind (arith c t z) (fun z => Ok (rv t z))).
  Proof.
    intros H. eapply abind_sound; [now apply aarith_sound|]. intros j z' Hj. apply aret_sound, cov_av, Hj.
  Qed.

  Lemma aquot_sound m t x y a b : iin x a -> iin y b ->
    rsound (cov m) (aquot (wrapv c) t x y)
      (if b =? 0 then Err (EUB DivByZero) else bind (arith c t (Z.quot a b)) (fun z => Ok (rv t z))).
  Proof.
    destruct x as [p q], y as [u v]. unfold iin, aquot. cbn [fst snd]. intros H1 H2.
    destruct (Z.leb_spec 0 p) as [Hp|Hp]; cbn [andb].
    - destruct (Z.ltb_spec 0 u) as [Hu|Hu].
      + destruct (Z.eqb_spec b 0); [lia|]. apply arith_obj_sound. unfold iin. cbn [fst snd].
        rewrite !Z.quot_div_nonneg by lia. split.
        * transitivity (a / v); [apply Z.div_le_mono; lia|]. apply Z.div_le_compat_l; lia.
        * transitivity (q / b); [apply Z.div_le_mono; lia|]. apply Z.div_le_compat_l; lia.
      + destruct (Z.eqb_spec b 0); [now left|]. unfold arith. destruct (is_signed t).
        * destruct (in_rangeb t (Z.quot a b)) eqn:R; [|destruct (wrapv c)]; cbn.
          -- eexists. split; [now left|]. apply cov_av, full_in. now apply in_rangeb_spec.
          -- eexists. split; [now left|]. apply cov_av, full_in, wrap_range.
          -- intros _. cbn. auto.
        * cbn. eexists. split; [now left|]. apply cov_av, full_in, wrap_range.
    - destruct (Z.eqb_spec b 0); [now left|]. unfold arith. destruct (is_signed t).
      * destruct (in_rangeb t (Z.quot a b)) eqn:R; [|destruct (wrapv c)]; cbn.
        -- eexists. split; [now left|]. apply cov_av, full_in. now apply in_rangeb_spec.
        -- eexists. split; [now left|]. apply cov_av, full_in, wrap_range.
        -- intros _. cbn. auto.
      * cbn. eexists. split; [now left|]. apply cov_av, full_in, wrap_range.
  Qed.

  Lemma lo_nonpos t : lo t <= 0.
  Proof. destruct t; cbn; lia. Qed.

  Lemma arem_sound m t x y a b : iin x a -> iin y b ->
    rsound (cov m) (arem (wrapv c) t x y)
      (if b =? 0 then Err (EUB DivByZero) else bind (arith c t (Z.quot a b)) (fun _ => Ok (rv t (Z.rem a b)))).
  Proof.
    destruct x as [p q], y as [u v]. unfold iin, arem. cbn [fst snd]. intros H1 H2.
    destruct ((0 <=? p) && (0 <? u) && within t (p, q)) eqn:E; [|apply giveup_sound].
    rewrite !andb_true_iff, Z.leb_le, Z.ltb_lt in E. destruct E as [[Hp Hu] W].
    destruct (Z.eqb_spec b 0); [lia|].
    assert (0 <= Z.quot a b <= a).
    { rewrite Z.quot_div_nonneg by lia. split; [apply Z.div_pos; lia|]. apply Z.div_le_upper_bound; nia. }
    rewrite arith_ok.
    - cbn. eexists. split; [now left|]. apply cov_av. unfold iin. cbn.
      rewrite Z.rem_mod_nonneg by lia. pose proof (Z.mod_pos_bound a b ltac:(lia)). pose proof (Z.mod_le a b ltac:(lia) ltac:(lia)). lia.
    - pose proof (within_spec t (p, q) q W ltac:(unfold iin; cbn; lia)) as R. unfold in_range in *. pose proof (lo_nonpos t). lia.
  Qed.

  Lemma aland_sound m t x y a b : is_float t = false -> iin x a -> iin y b -> rsound (cov m) (aland t x y) (Ok (rv t (Z.land a b))).
  Proof.
    destruct x as [p q], y as [u v]. unfold iin, aland. cbn [fst snd]. intros F H1 H2.
    destruct (Z.leb_spec 0 p); destruct (Z.leb_spec 0 u); cbn [andb].
    - apply aret_sound, cov_av. unfold iin. cbn. pose proof (land_le_l a b ltac:(lia)). pose proof (land_le_r a b ltac:(lia)). lia.
    - apply aret_sound, cov_av. unfold iin. cbn. pose proof (land_le_l a b ltac:(lia)). lia.
    - apply aret_sound, cov_av. unfold iin. cbn. pose proof (land_le_r a b ltac:(lia)). lia.
    - destruct (within t (p, q)) eqn:W1; cbn [andb]; [|apply giveup_sound]. destruct (within t (u, v)) eqn:W2; [|apply giveup_sound].
      apply aret_sound, cov_av, full_in, land_range; [exact F|exact (within_spec t (p, q) a W1 H1)|exact (within_spec t (u, v) b W2 H2)].
  Qed.

  Lemma mask_lt z k : mask_of z = 2 ^ k - 1 -> z < 2 ^ k -> z <= mask_of z.
  Proof. lia. Qed.

  Lemma alor_sound m t x y a b : is_float t = false -> iin x a -> iin y b ->
    rsound (cov m) (alor t x y) (Ok (rv t (Z.lor a b))) /\ rsound (cov m) (alor t x y) (Ok (rv t (Z.lxor a b))).
  Proof.
    destruct x as [p q], y as [u v]. unfold iin, alor. cbn [fst snd]. intros F H1 H2.
    destruct ((0 <=? p) && (0 <=? u)) eqn:E.
    - rewrite andb_true_iff, !Z.leb_le in E. destruct (mask_of_spec (Z.max q v) ltac:(lia)) as (k & Hk & -> & Hq).
      split; apply aret_sound, cov_av; unfold iin; cbn.
      + pose proof (lor_below k a b Hk ltac:(lia) ltac:(lia)). lia.
      + pose proof (lxor_below k a b Hk ltac:(lia) ltac:(lia)). lia.
    - destruct (within t (p, q)) eqn:W1; cbn [andb]; [|split; apply giveup_sound]. destruct (within t (u, v)) eqn:W2; [|split; apply giveup_sound].
      split; apply aret_sound, cov_av, full_in; [apply lor_range|apply lxor_range]; first [exact F|exact (within_spec t (p, q) a W1 H1)|exact (within_spec t (u, v) b W2 H2)].
  Qed.

  Lemma ashl_sound t x n a k : iin x a -> iin n k -> rsound iin (ashl (wrapv c) t x n) (shift_left c t a k).
  Proof.
    destruct x as [p q], n as [u v]. unfold iin, ashl, shift_left. cbn [fst snd]. intros H1 H2.
    assert (F : rsound iin ([full t], [EUB BadShift]) (if (0 <=? k) && (k <? width t) then
      if is_signed t then if wrapv c then Ok (wrap t (a * 2 ^ k)) else if (0 <=? a) && (a * 2 ^ k <? modulus t) then Ok (wrap t (a * 2 ^ k)) else Err (EUB BadShift)
      else Ok (wrap t (a * 2 ^ k)) else Err (EUB BadShift))).
    { intros _. cbn. destruct (_ && _); [destruct (is_signed t); [destruct (wrapv c); [|destruct (_ && _)]|]|]; auto;
        exists (full t); (split; [now left|apply full_in, wrap_range]). }
    destruct ((0 <=? u) && (v <? width t)) eqn:E; [|exact F].
    rewrite andb_true_iff, Z.leb_le, Z.ltb_lt in E. clear F.
    rewrite (proj2 (Z.leb_le 0 k)), (proj2 (Z.ltb_lt k (width t))) by lia. cbn [andb].
    assert (W : iin (if (0 <=? p) && (q * 2 ^ v <=? hi t) then (p * 2 ^ u, q * 2 ^ v) else full t) (wrap t (a * 2 ^ k))).
    { destruct (Z.leb_spec 0 p); cbn [andb]; [|apply full_in, wrap_range].
      destruct (Z.leb_spec (q * 2 ^ v) (hi t)); [|apply full_in, wrap_range].
      assert (2 ^ u <= 2 ^ k) by (apply Z.pow_le_mono_r; lia). assert (2 ^ k <= 2 ^ v) by (apply Z.pow_le_mono_r; lia).
      assert (0 < 2 ^ u) by (apply Z.pow_pos_nonneg; lia).
      assert (p * 2 ^ u <= a * 2 ^ k <= q * 2 ^ v) by (split; nia).
      rewrite wrap_id; [unfold iin; cbn; lia|]. unfold in_range. pose proof (lo_nonpos t). nia. }
    destruct (is_signed t); cbn [negb orb]; [|intros _; eexists; split; [now left|exact W]].
    destruct (wrapv c); cbn [orb]; [intros _; eexists; split; [now left|exact W]|].
    intros _. cbn [fst snd]. destruct ((0 <=? a) && (a * 2 ^ k <? modulus t)) eqn:B; [eexists; split; [now left|exact W]|].
    destruct ((0 <=? p) && (q * 2 ^ v <? modulus t)) eqn:B'; [|now left]. exfalso.
    rewrite andb_true_iff, Z.leb_le, Z.ltb_lt in B'. rewrite andb_false_iff, Z.leb_gt, Z.ltb_ge in B.
    assert (2 ^ k <= 2 ^ v) by (apply Z.pow_le_mono_r; lia). assert (0 < 2 ^ k) by (apply Z.pow_pos_nonneg; lia). nia.
  Qed.

  Lemma div_pow_nonneg z p q : 0 <= z -> 0 <= p <= q -> z / 2 ^ q <= z / 2 ^ p.
  Proof. intros. apply Z.div_le_compat_l; [lia|]. split; [apply Z.pow_pos_nonneg; lia|apply Z.pow_le_mono_r; lia]. Qed.
  Lemma div_pow_neg z p q : z < 0 -> 0 <= p <= q -> z / 2 ^ p <= z / 2 ^ q.
  Proof.
    intros Hz H. replace q with (p + (q - p)) by lia. rewrite Z.pow_add_r, <- Z.div_div by (try apply Z.pow_pos_nonneg; try apply Z.pow_nonzero; lia).
    assert (z / 2 ^ p < 0) by (apply Z.div_lt_upper_bound; [apply Z.pow_pos_nonneg; lia|lia]).
    assert (0 < 2 ^ (q - p)) by (apply Z.pow_pos_nonneg; lia). apply Z.div_le_lower_bound; nia.
  Qed.

  Lemma ashr_sound t x n a k : iin x a -> iin n k -> rsound iin (ashr t x n) (shift_right t a k).
  Proof.
    destruct x as [p q], n as [u v]. unfold iin, ashr, shift_right. cbn [fst snd]. intros H1 H2.
    destruct ((0 <=? u) && (v <? width t)) eqn:E.
    - rewrite andb_true_iff, Z.leb_le, Z.ltb_lt in E.
      rewrite (proj2 (Z.leb_le 0 k)), (proj2 (Z.ltb_lt k (width t))) by lia. cbn [andb].
      apply aret_sound. unfold iin. cbn [fst snd]. rewrite !Z.shiftr_div_pow2 by lia.
      assert (0 < 2 ^ k) by (apply Z.pow_pos_nonneg; lia).
      pose proof (Z.div_le_mono p a (2 ^ k) ltac:(lia) ltac:(lia)). pose proof (Z.div_le_mono a q (2 ^ k) ltac:(lia) ltac:(lia)).
      split.
      + destruct (Z.leb_spec 0 p); [pose proof (div_pow_nonneg p k v)|pose proof (div_pow_neg p u k)]; lia.
      + destruct (Z.leb_spec 0 q); [pose proof (div_pow_nonneg q u k)|pose proof (div_pow_neg q k v)]; lia.
    - intros _. destruct ((0 <=? k) && (k <? width t)) eqn:B; [|now left].
      rewrite andb_true_iff, Z.leb_le, Z.ltb_lt in B. eexists. split; [now left|]. unfold iin. cbn [fst snd]. rewrite Z.shiftr_div_pow2 by lia.
      assert (K : Z.min a 0 <= a / 2 ^ k <= Z.max a 0); [|lia].
      destruct (Z_lt_le_dec a 0).
      + pose proof (div_pow_neg a 0 k ltac:(lia) ltac:(lia)) as D. rewrite Z.pow_0_r, Z.div_1_r in D.
        assert (a / 2 ^ k < 0) by (apply Z.div_lt_upper_bound; [apply Z.pow_pos_nonneg; lia|lia]). lia.
      + pose proof (div_pow_nonneg a 0 k ltac:(lia) ltac:(lia)) as D. rewrite Z.pow_0_r, Z.div_1_r in D.
        assert (0 <= a / 2 ^ k) by (apply Z.div_pos; [lia|apply Z.pow_pos_nonneg; lia]). lia.
  Qed.

  Lemma afop_sound m t x y a b o f : is_float t = true -> iin x a -> iin y b ->
    (forall k a b, in_range t a -> in_range t b -> in_range t (encode t k (f (decode t a) (decode t b)))) ->
    rsound (cov m) (afop t x y) (fbin c o t a b f).
  Proof.
    intros F Hx Hy R. unfold afop, fbin. destruct (within t x) eqn:W1; cbn [andb]; [|apply giveup_sound].
    destruct (within t y) eqn:W2; [|apply giveup_sound]. apply aret_sound, cov_av, full_in, R; [exact (within_spec t x a W1 Hx)|exact (within_spec t y b W2 Hy)].
  Qed.

  Lemma abinary_sound m op t1 i1 z1 t2 i2 z2 : iin i1 z1 -> iin i2 z2 ->
    rsound (cov m) (abinary (wrapv c) op t1 i1 t2 i2) (binary c op t1 z1 t2 z2).
  Proof.
    intros H1 H2. unfold abinary, binary.
    assert (SH : forall (sh : bool), rsound (cov m)
      (if is_float t1 || is_float t2 then afail EStuck else
        abind (if sh then ashl (wrapv c) (promote t1) i1 i2 else ashr (promote t1) i1 i2) (fun i => aret (av (promote t1) i)))
      (if is_float t1 || is_float t2 then Err EStuck else
        bind (if sh then shift_left c (promote t1) z1 z2 else shift_right (promote t1) z1 z2) (fun z => Ok (rv (promote t1) z)))).
    { intros sh. destruct (_ || _); [apply giveup_sound|]. eapply abind_sound.
      - destruct sh; [apply ashl_sound|apply ashr_sound]; eauto.
      - intros i z Hi. apply aret_sound, cov_av, Hi. }
    assert (C : forall (F : itv -> itv -> ar aobj) (G : Z -> Z -> res obj),
      (forall x y a b, iin x a -> iin y b -> rsound (cov m) (F x y) (G a b)) ->
      rsound (cov m) (abind (aconvert t1 (usual t1 t2) i1) (fun x => abind (aconvert t2 (usual t1 t2) i2) (F x)))
        (bind (convert c t1 (usual t1 t2) z1) (fun x => bind (convert c t2 (usual t1 t2) z2) (G x)))).
    { intros F G FG. eapply abind_sound; [now apply aconvert_sound|]. intros x a Hx.
      eapply abind_sound; [now apply aconvert_sound|]. intros y b Hy. now apply FG. }
    destruct op; try (apply (SH true)); try (apply (SH false)); apply C; intros x y a b Hx Hy;
      destruct (is_float (usual t1 t2)) eqn:F; try apply giveup_sound;
      try (apply aret_sound; first [apply cov_01 | now apply acompare_sound]).
    all: try (apply afop_sound; auto; intros; first [apply fadd_range | apply fsub_range | apply fmul_range | apply fdiv_range]; auto; now apply fty_float).
    - apply arith_obj_sound. unfold iin in *. cbn. lia.
    - apply arith_obj_sound. unfold iin in *. cbn. lia.
    - apply arith_obj_sound, imul_sound; auto.
    - apply aquot_sound; auto.
    - apply arem_sound; auto.
    - apply aland_sound; auto.
    - apply alor_sound; auto.
    - apply alor_sound; auto.
  Qed.

  Lemma aunary_sound m op t i z : iin i z -> rsound (cov m) (aunary (wrapv c) op t i) (unary c op t z).
  Proof.
    intros H. destruct op; cbn [aunary unary].
    - destruct (is_float t); [apply giveup_sound|]. apply aret_sound, cov_av.
      destruct (within (promote t) (- snd i - 1, - fst i - 1)) eqn:W; [|apply full_in, wrap_range].
      assert (J : iin (- snd i - 1, - fst i - 1) (Z.lnot z)) by (unfold iin, Z.lnot in *; cbn; lia).
      rewrite wrap_id; [exact J|]. eapply within_spec; eauto.
    - destruct (is_float t); [apply giveup_sound|]. apply arith_obj_sound. unfold iin in *. cbn. lia.
    - pose proof (atruth_sound t i z H) as K.
      destruct (atruth (t, i)) as [|[] [|? ?]]; try destruct K as [<- |[]]; try destruct K; apply aret_sound; try apply cov_01; apply cov_bool.
  Qed.

  Lemma aminmax_sound m mx t t1 i1 z1 t2 i2 z2 : iin i1 z1 -> iin i2 z2 ->
    rsound (cov m) (aminmax mx t t1 i1 t2 i2) (minmax c mx t t1 z1 t2 z2).
  Proof.
    intros H1 H2. unfold aminmax, minmax. destruct (is_float t); [apply giveup_sound|].
    eapply abind_sound; [now apply aconvert_sound|]. intros x a Hx.
    eapply abind_sound; [now apply aconvert_sound|]. intros y b Hy.
    apply aret_sound, cov_av. unfold iin in *. destruct mx; cbn; [destruct (Z.ltb_spec a b)|destruct (Z.ltb_spec b a)]; lia.
  Qed.

  Lemma aint_sound m a o : cov m a o -> rsound iin (aint a) (int_value o).
  Proof.
    intros H. unfold aint, int_value. eapply abind_sound; [eapply ascalar_sound; eauto|].
    intros [t i] [t' z] [E Hi]. cbn in *. subst t'. destruct (is_float t); [apply giveup_sound|now apply aret_sound].
  Qed.

  Lemma nth_error_combine_seq {A} (l : list A) n k a : nth_error l k = Some a -> In (n + k, a)%nat (combine (seq n (List.length l)) l).
  Proof.
    revert n k. induction l as [|x l IH]; intros n [|k] E; cbn in *; try discriminate.
    - injection E as ->. left. now rewrite Nat.add_0_r.
    - right. rewrite <- Nat.add_succ_comm. now apply IH.
  Qed.

  Lemma Forall2_length {A B} (R : A -> B -> Prop) la lb : Forall2 R la lb -> List.length la = List.length lb.
  Proof. induction 1; cbn; congruence. Qed.
  Lemma Forall2_nth {A B} (R : A -> B -> Prop) la lb k b : Forall2 R la lb -> nth_error lb k = Some b -> exists a, nth_error la k = Some a /\ R a b.
  Proof.
    intros F. revert k. induction F; intros [|k] E; cbn in *; try discriminate; [injection E as <-; eauto|auto].
  Qed.
  Lemma Forall2_nth_l {A B} (R : A -> B -> Prop) la lb k a : Forall2 R la lb -> nth_error la k = Some a -> exists b, nth_error lb k = Some b /\ R a b.
  Proof.
    intros F. revert k. induction F; intros [|k] E; cbn in *; try discriminate; [injection E as <-; eauto|auto].
  Qed.

  Lemma aget_sound {A B} (R : A -> B -> Prop) la lb i k : Forall2 R la lb -> iin i k ->
    rsound (fun p b => fst p = Z.to_nat k /\ R (snd p) b) (aget la i) (get_idx lb k).
  Proof.
    intros F [H1 H2]. unfold aget, get_idx. destruct (Z.eqb_spec (fst i) (snd i)) as [E|E].
    - assert (k = fst i) by lia. subst k. destruct (fst i <? 0); [apply afail_sound|].
      destruct (nth_error la (Z.to_nat (fst i))) as [a|] eqn:Ea.
      + destruct (Forall2_nth_l R la lb _ a F Ea) as (b & -> & Hr). apply aret_sound. cbn. auto.
      + apply nth_error_None in Ea. rewrite (Forall2_length R la lb F) in Ea. apply nth_error_None in Ea. rewrite Ea. apply afail_sound.
    - intros _. cbn [fst snd]. destruct (Z.ltb_spec k 0).
      + rewrite (proj2 (Z.leb_gt 0 (fst i))) by lia. now left.
      + destruct (nth_error lb (Z.to_nat k)) as [b|] eqn:Eb.
        * destruct (Forall2_nth R la lb _ b F Eb) as (a & Ea & Hr). exists (Z.to_nat k, a). split; [|cbn; auto].
          apply filter_In. split; [exact (nth_error_combine_seq la 0 _ _ Ea)|]. cbn. rewrite andb_true_iff, !Z.leb_le. lia.
        * apply nth_error_None in Eb. rewrite <- (Forall2_length R la lb F) in Eb.
          rewrite (proj2 (Z.ltb_ge (snd i) (Z.of_nat (List.length la)))) by lia. rewrite andb_false_r. now left.
  Qed.

  Lemma mem_ok_read m b t cells i v : mem_ok m -> nth_error m b = Some (t, cells) -> nth_error cells i = Some (Some v) -> in_range t v.
  Proof.
    intros M E1 E2. unfold mem_ok in M. rewrite Forall_forall in M. specialize (M _ (nth_error_In _ _ E1)). cbn in M.
    rewrite Forall_forall in M. exact (M _ (nth_error_In _ _ E2)).
  Qed.

  Lemma aindex_sound m a o i k : mem_ok m -> cov m a o -> iin i k -> rsound (cov m) (aindex a i) (index m o k).
  Proof.
    intros M H Hi. destruct a as [t ini l h|l|t n rd]; cbn [aindex].
    - apply giveup_sound.
    - apply cov_arr in H. destruct H as (lo & -> & F). cbn [index].
      pose proof (aget_sound (cov m) l lo i k F Hi) as G. intros N. cbn [fst snd] in *. specialize (G N).
      destruct (get_idx lo k) as [o|e]; [|exact G]. destruct G as ((p & a) & Ha & _ & Hc). cbn in Hc.
      apply (compact_sound ajoin (fun a => cov m a o)); [intros; eapply ajoin_sound; eauto|].
      exists a. split; [|exact Hc]. now apply (in_map snd) in Ha.
    - rewrite cov_ptr in H. destruct H as (b & off & -> & H1 & H2). cbn [index]. unfold mem_read. unfold iin in Hi.
      intros N. cbn [fst snd] in *. destruct (Z.ltb_spec n 0) as [Hn|Hn]; [exfalso; apply N; apply in_or_app; right; now left|].
      rewrite app_nil_r in *. clear N.
      destruct ((0 <=? fst i) && (snd i <? n)) eqn:E.
      + rewrite andb_true_iff, Z.leb_le, Z.ltb_lt in E. destruct (H2 ltac:(lia)) as (cells & Eb & Ho & Hl & Hr). rewrite Eb, sty_eqb_refl.
        unfold get_idx. rewrite (proj2 (Z.ltb_ge (off + k) 0)) by lia.
        destruct (nth_error cells (Z.to_nat (off + k))) as [v|] eqn:Ev; [|apply nth_error_None in Ev; lia]. cbn.
        eexists. split; [now left|]. apply cov_scal. exists v. split; [reflexivity|]. destruct v as [z|].
        * exact (mem_ok_read m b t cells _ z M Eb Ev).
        * destruct rd; [|reflexivity]. destruct (Hr eq_refl k ltac:(lia)) as [z Hz]. congruence.
      + destruct (nth_error m b) as [[t' cells]|] eqn:Eb; [|now left]. specialize (H1 ltac:(lia) t' cells eq_refl). subst t'. rewrite sty_eqb_refl.
        unfold get_idx. destruct (off + k <? 0); [now left|]. destruct (nth_error cells (Z.to_nat (off + k))) as [v|] eqn:Ev; [|now left].
        cbn. eexists. split; [now left|]. apply cov_scal. exists v. split; [reflexivity|]. destruct v as [z|]; [|reflexivity].
        exact (mem_ok_read m b t cells _ z M Eb Ev).
  Qed.

  (** ** Expressions *)

  Section Call.
    Variable callf : string -> obj -> res obj.
    Variable acall : string -> aobj -> ar aobj.
    Hypothesis call_sound : forall f m a o, cov m a o -> rsound (cov m) (acall f a) (callf f o).

    Lemma alookup_sound m ae en x : cove m ae en ->
      match alookup x ae, lookup x en with Some a, Some o => cov m a o | None, None => True | _, _ => False end.
    Proof.
      intros H. induction H as [|[y a] [y' o] ae en [E H1] H IH]; cbn in *; [exact I|]. subst y'.
      destruct (String.eqb x y); [exact H1|exact IH].
    Qed.

    Ltac sc := match goal with
      | |- rsound _ (abind (ascalar _) _) _ => eapply abind_sound; [eapply ascalar_sound; eassumption|]; intros [? ?] [? ?] [? ?]; cbn [fst snd] in *; subst
      end.

    Lemma eval_sound m ae en e : mem_ok m -> cove m ae en ->
      rsound (cov m) (aeval (wrapv c) acall ae e) (eval c callf en m e).
    Proof.
      intros M He. induction e; cbn [aeval eval].
      - apply aret_sound. exists (Some z). split; [reflexivity|]. lia.
      - pose proof (alookup_sound m ae en x He) as K. destruct (alookup x ae), (lookup x en); try destruct K; [now apply aret_sound|apply giveup_sound].
      - eapply abind_sound; [exact IHe1|]. intros a o Ho. eapply abind_sound; [exact IHe2|]. intros ai oi Hoi.
        eapply abind_sound; [eapply aint_sound; eauto|]. intros i k Hi. now apply aindex_sound.
      - eapply abind_sound; [exact IHe|]. intros a o Ho. sc. now apply aunary_sound.
      - eapply abind_sound; [exact IHe1|]. intros a o Ho. sc. eapply abind_sound; [exact IHe2|]. intros a' o' Ho'. sc. now apply abinary_sound.
      - eapply abind_sound; [exact IHe1|]. intros a o Ho. eapply abind_sound; [eapply acond_sound; eauto|]. intros va ? <-.
        destruct va; [|apply aret_sound, cov_bool].
        eapply abind_sound; [exact IHe2|]. intros a' o' Ho'. eapply abind_sound; [eapply acond_sound; eauto|]. intros vb ? <-. apply aret_sound, cov_bool.
      - eapply abind_sound; [exact IHe1|]. intros a o Ho. eapply abind_sound; [eapply acond_sound; eauto|]. intros va ? <-.
        destruct va; [apply aret_sound, cov_bool|].
        eapply abind_sound; [exact IHe2|]. intros a' o' Ho'. eapply abind_sound; [eapply acond_sound; eauto|]. intros vb ? <-. apply aret_sound, cov_bool.
      - cbv zeta. apply (compact_rsound ajoin); [intros; eapply ajoin_sound; eauto|].
        eapply abind_sound; [exact IHe1|]. intros a o Ho. eapply abind_sound; [eapply acond_sound; eauto|]. intros va ? <-. destruct va; assumption.
      - eapply abind_sound; [exact IHe|]. intros a o Ho. sc. eapply abind_sound; [now apply aconvert_sound|]. intros j z' Hj. apply aret_sound, cov_av, Hj.
      - eapply abind_sound; [exact IHe1|]. intros a o Ho. sc. eapply abind_sound; [exact IHe2|]. intros a' o' Ho'. sc. now apply aminmax_sound.
      - eapply abind_sound; [exact IHe1|]. intros a o Ho. sc. eapply abind_sound; [exact IHe2|]. intros a' o' Ho'. sc. now apply aminmax_sound.
      - eapply abind_sound; [exact IHe|]. intros a o Ho. now apply call_sound.
    Qed.

    Lemma eval_path_sound m ae en p : mem_ok m -> cove m ae en ->
      rsound (Forall2 iin) (aeval_path (wrapv c) acall ae p) (eval_path c callf en m p).
    Proof.
      intros M He. induction p as [|e p IH]; cbn [aeval_path eval_path]; [apply aret_sound; constructor|].
      eapply abind_sound; [now apply eval_sound|]. intros a o Ho. eapply abind_sound; [eapply aint_sound; eauto|]. intros i k Hi.
      eapply abind_sound; [exact IH|]. intros is ks H. apply aret_sound. now constructor.
    Qed.

    (** ** Assignment *)

    Lemma Forall2_set_nth {A B} (R : A -> B -> Prop) n a b la lb : Forall2 R la lb -> R a b -> Forall2 R (set_nth n a la) (set_nth n b lb).
    Proof. intros F H. revert n. induction F; intros [|n]; cbn; constructor; auto. Qed.

    Lemma put_sound m ks path : Forall2 iin ks path -> forall a o t i z, cov m a o -> iin i z ->
      rsound (cov m) (aput a ks t i) (put c o path t z).
    Proof.
      intros F. induction F as [|k n ks path Hk F IH]; intros a o t i z H Hi; cbn [aput put].
      - destruct a; try apply giveup_sound. rewrite cov_scal in H. destruct H as (v & -> & _).
        eapply abind_sound; [now apply aconvert_sound|]. intros j z' Hj. apply aret_sound, cov_av, Hj.
      - destruct a as [|l|]; try apply giveup_sound. apply cov_arr in H. destruct H as (lo & -> & FA). cbv zeta.
        apply (compact_rsound ajoin); [intros; eapply ajoin_sound; eauto|].
        eapply abind_sound; [eapply aget_sound; eauto|]. intros [p a] o [Ep Ho]. cbn [fst snd] in *. subst p.
        eapply abind_sound; [apply IH; eauto|]. intros a' o' Ho'. apply aret_sound, cov_arr. eexists. split; [reflexivity|]. now apply Forall2_set_nth.
    Qed.

    Lemma cove_update m x a o ae en : cove m ae en -> cov m a o -> cove m (aupdate x a ae) (update x o en).
    Proof.
      intros H Ho. induction H as [|[y b] [y' q] ae en [E H1] H IH]; cbn in *; [constructor|]. subst y'.
      destruct (String.eqb x y); constructor; cbn; auto.
    Qed.

    Lemma length_set_nth {A} n (a : A) l : List.length (set_nth n a l) = List.length l.
    Proof. revert n. induction l; intros [|n]; cbn; auto. Qed.
    Lemma nth_error_set_nth {A} n (a : A) l k : (n < List.length l)%nat ->
      nth_error (set_nth n a l) k = if Nat.eqb k n then Some a else nth_error l k.
    Proof.
      revert n k. induction l as [|x l IH]; intros [|n] [|k] H; cbn in *; try lia; try reflexivity. apply IH. lia.
    Qed.
    Lemma Forall_set_nth {A} (P : A -> Prop) n a l : Forall P l -> P a -> Forall P (set_nth n a l).
    Proof. intros F H. revert n. induction F; intros [|n]; cbn; constructor; auto. Qed.

    Lemma mem_write_le m t b i z m' : mem_ok m -> in_range t z -> mem_write m t b i z = Ok m' -> mem_ok m' /\ mem_le m m'.
    Proof.
      intros M R. unfold mem_write. destruct (nth_error m b) as [[t' cells]|] eqn:Eb; [|discriminate].
      destruct (sty_eqb t t') eqn:T; [|discriminate]. apply sty_eqb_spec in T. subst t'.
      unfold get_idx. destruct (i <? 0); [discriminate|]. destruct (nth_error cells (Z.to_nat i)) as [v|] eqn:Ev; [|discriminate].
      cbn. intros [= <-].
      assert (Lb : (b < List.length m)%nat) by (apply nth_error_Some; congruence).
      assert (Lc : (Z.to_nat i < List.length cells)%nat) by (apply nth_error_Some; congruence).
      split.
      - apply Forall_set_nth; [exact M|]. cbn. apply Forall_set_nth; [|exact R].
        unfold mem_ok in M. rewrite Forall_forall in M. exact (M _ (nth_error_In _ _ Eb)).
      - split; [apply length_set_nth|]. intros b' t' c' E. rewrite nth_error_set_nth by exact Lb.
        destruct (Nat.eqb_spec b' b) as [->|].
        + rewrite Eb in E. injection E as <- <-. eexists. split; [reflexivity|]. split; [apply length_set_nth|].
          intros j w Ej. rewrite nth_error_set_nth by exact Lc. destruct (Nat.eqb j (Z.to_nat i)); eauto.
        + exists c'. split; [exact E|]. split; [reflexivity|]. eauto.
    Qed.

    Definition trans (m m' : memory) (w : bool) : Prop := mem_ok m' /\ mem_le m m' /\ (w = false -> m' = m).

    Lemma trans_refl m w : mem_ok m -> trans m m w.
    Proof. intros M. split; [exact M|]. split; [apply mem_le_refl|reflexivity]. Qed.
    Lemma trans_trans m1 m2 m3 w w' : trans m1 m2 w -> trans m2 m3 w' -> trans m1 m3 (w || w').
    Proof.
      intros (A1 & B1 & C1) (A2 & B2 & C2). split; [exact A2|]. split; [eapply mem_le_trans; eauto|].
      intros E. apply orb_false_iff in E. destruct E as [E1 E2]. rewrite (C2 E2). now apply C1.
    Qed.
    Lemma trans_wr m m' w w' : trans m m' w -> (w = true -> w' = true) -> trans m m' w'.
    Proof. intros (A & B & C) H. split; [exact A|]. split; [exact B|]. intros E. apply C. destruct w; [rewrite H in E by reflexivity; discriminate|reflexivity]. Qed.

    Definition asound (m : memory) (p : aenv * bool) (q : env * memory) : Prop :=
      cove (snd q) (fst p) (fst q) /\ trans m (snd q) (snd p).

    Lemma assign_sound m ae en x ks path a v : mem_ok m -> cove m ae en -> Forall2 iin ks path -> cov m a v ->
      rsound (asound m) (aassign ae x ks a) (assign c en m x path v).
    Proof.
      intros M He F Hv. unfold aassign, assign. eapply abind_sound; [eapply ascalar_sound; eauto|].
      intros [t i] [t' z] [E Hi]. cbn [fst snd] in *. subst t'.
      pose proof (alookup_sound m ae en x He) as K. destruct (alookup x ae) as [o|] eqn:La, (lookup x en) as [q|] eqn:Lq; try destruct K; [|apply giveup_sound].
      assert (P : forall o q, cov m o q -> rsound (asound m) (abind (aput o ks t i) (fun o' => aret (aupdate x o' ae, false)))
                    (bind (put c q path t z) (fun o' => Ok (update x o' en, m)))).
      { clear - M He F Hi. intros o q H. eapply abind_sound; [eapply put_sound; eauto|]. intros a' o' Ho. apply aret_sound.
        split; cbn; [now apply cove_update|now apply trans_refl]. }
      destruct o as [t0 i0 l0 h0|l0|t0 k rd].
      - rewrite cov_scal in K. destruct K as (w & -> & Hw). apply P. exists w. auto.
      - apply cov_arr in K. destruct K as (l & -> & Fl). apply P. apply cov_arr. eauto.
      - rewrite cov_ptr in K. destruct K as (b & off & -> & H1 & H2).
        inversion F as [|k0 n0 ks' p' Hk F']; subst; [apply giveup_sound|]. inversion F'; subst; [|apply giveup_sound].
        eapply abind_sound; [now apply aconvert_sound|]. intros j z' Hj.
        intros N. cbn [fst snd] in *.
        assert (W : within t0 j = true). { destruct (within t0 j); [reflexivity|]. exfalso. apply N. now left. }
        assert (Hk0 : 0 <= k). { destruct (Z.ltb_spec k 0); [|lia]. exfalso. apply N. rewrite !in_app_iff. right. right. now left. }
        clear N. pose proof (within_spec t0 j z' W Hj) as R.
        destruct (mem_write m t0 b (off + n0) z') as [m'|e] eqn:EW; cbn [bind].
        + destruct (mem_write_le _ _ _ _ _ _ M R EW) as [M' L]. exists (ae, true). split; [now left|].
          split; cbn; [eapply cove_le; eauto|]. split; [exact M'|]. split; [exact L|discriminate].
        + rewrite !in_app_iff. right. left. unfold mem_write in EW. unfold iin in Hk.
          destruct (nth_error m b) as [[t' cells]|] eqn:Eb.
          * rewrite (H1 Hk0 t' cells eq_refl), sty_eqb_refl in EW.
            destruct ((0 <=? fst k0) && (snd k0 <? k)) eqn:EK.
            -- exfalso. rewrite andb_true_iff, Z.leb_le, Z.ltb_lt in EK. destruct (H2 ltac:(lia)) as (c' & Ec & Ho & Hl & _). injection Ec as _ Ec. subst c'.
               unfold get_idx in EW. rewrite (proj2 (Z.ltb_ge (off + n0) 0)) in EW by lia.
               destruct (nth_error cells (Z.to_nat (off + n0))) eqn:En; [discriminate|]. apply nth_error_None in En. lia.
            -- unfold get_idx in EW. destruct (off + n0 <? 0); [injection EW as <-; now left|].
               destruct (nth_error cells (Z.to_nat (off + n0))); [discriminate|]. injection EW as <-. now left.
          * injection EW as <-. destruct ((0 <=? fst k0) && (snd k0 <? k)) eqn:EK; [|now left].
            exfalso. rewrite andb_true_iff, Z.leb_le, Z.ltb_lt in EK. destruct (H2 ltac:(lia)) as (c' & Ec & _). congruence.
    Qed.

    (** ** memcpy *)

    Lemma length_le_bytes n z : List.length (le_bytes n z) = n.
    Proof. revert z. induction n; intros z; cbn; auto. Qed.

    Lemma bytes_length m a : forall o, cov m a o -> List.length (bytes_of o) = asize a.
    Proof.
      induction a as [t i l h|l IH|t k rd] using aobj_ind'; intros o H.
      - rewrite cov_scal in H. destruct H as (v & -> & _). destruct v; cbn; [rewrite map_length; apply length_le_bytes|apply repeat_length].
      - apply cov_arr in H. destruct H as (lo & -> & F). cbn. induction F; cbn; [reflexivity|]. inversion IH; subst.
        rewrite app_length. f_equal; auto.
      - rewrite cov_ptr in H. destruct H as (b & off & -> & _). reflexivity.
    Qed.

    Definition known (b : option Z) : Prop := b <> None.

    Lemma bytes_known m a : forall o, cov m a o -> all_init a = true -> Forall known (bytes_of o).
    Proof.
      induction a as [t i l h|l IH|t k rd] using aobj_ind'; intros o H A.
      - rewrite cov_scal in H. destruct H as (v & -> & Hv). destruct v; cbn in *; [|congruence].
        apply Forall_map, Forall_forall. intros. discriminate.
      - apply cov_arr in H. destruct H as (lo & -> & F). cbn in *. induction F; cbn in *; [constructor|].
        apply andb_true_iff in A. destruct A. inversion IH; subst. apply Forall_app. auto.
      - rewrite cov_ptr in H. destruct H as (b & off & -> & _). constructor.
    Qed.

    Lemma all_some_known l : Forall known l -> exists r, all_some l = Some r.
    Proof.
      induction 1 as [|x l H _ [r IH]]; cbn; [eauto|]. destruct x; [rewrite IH; eauto|destruct (H eq_refl)].
    Qed.

    Fixpoint from_list (l : list obj) (bs : list (option Z)) : list obj * list (option Z) :=
      match l with
      | [] => ([], bs)
      | o' :: l' => let (x, bs1) := from_bytes o' bs in let (xs, bs2) := from_list l' bs1 in (x :: xs, bs2)
      end.
    Lemma from_bytes_arr l bs : from_bytes (OArr l) bs = let (xs, bs') := from_list l bs in (OArr xs, bs').
    Proof.
      reflexivity.
    Qed.

    Lemma firstn_plus {A} p q (l : list A) : firstn (p + q) l = firstn p l ++ firstn q (skipn p l).
    Proof. revert l. induction p; intros [|x l]; cbn; [reflexivity| |now rewrite firstn_nil|now rewrite IHp]. reflexivity. Qed.
    Lemma skipn_plus {A} p q (l : list A) : skipn (p + q) l = skipn q (skipn p l).
    Proof. revert l. induction p; intros [|x l]; cbn; [reflexivity|reflexivity|now rewrite skipn_nil|now rewrite IHp]. Qed.

    Lemma from_bytes_sound m a : forall o bs, cov m a o ->
      snd (from_bytes o bs) = skipn (asize a) bs /\
      cov m (refill false a) (fst (from_bytes o bs)) /\
      (Forall known (firstn (asize a) bs) -> cov m (refill true a) (fst (from_bytes o bs))).
    Proof.
      induction a as [t i l h|l IH|t k rd] using aobj_ind'; intros o bs H.
      - rewrite cov_scal in H. destruct H as (v & -> & _). cbn [from_bytes refill asize fst snd]. split; [reflexivity|]. split.
        + eexists. split; [reflexivity|]. destruct (all_some _); [apply wrap_range|reflexivity].
        + intros K. destruct (all_some_known _ K) as [r Er]. eexists. split; [reflexivity|]. rewrite Er. apply wrap_range.
      - apply cov_arr in H. destruct H as (lo & -> & F). rewrite from_bytes_arr.
        assert (K : snd (from_list lo bs) = skipn (asize (AArr l)) bs /\
          Forall2 (cov m) (map (refill false) l) (fst (from_list lo bs)) /\
          (Forall known (firstn (asize (AArr l)) bs) -> Forall2 (cov m) (map (refill true) l) (fst (from_list lo bs)))).
        { revert bs. induction F as [|a o l lo Ho F IHF]; intros bs; [cbn; repeat split; constructor|].
          inversion IH as [|? ? Ha IHl]; subst. specialize (IHF IHl). destruct (Ha o bs Ho) as (S1 & C1 & D1).
          cbn [from_list]. destruct (from_bytes o bs) as [x bs1]. cbn [fst snd] in *. subst bs1.
          destruct (IHF (skipn (asize a) bs)) as (S2 & C2 & D2). destruct (from_list lo (skipn (asize a) bs)) as [xs bs2].
          change (asize (AArr (a :: l))) with (asize a + asize (AArr l))%nat. cbn [fst snd map] in *.
          rewrite firstn_plus, skipn_plus. split; [exact S2|]. split; [constructor; auto|].
          intros K. apply Forall_app in K. destruct K. constructor; auto. }
        destruct (from_list lo bs) as [xs bs']. cbn [fst snd] in *. destruct K as (K1 & K2 & K3). split; [exact K1|]. split; [apply cov_arr; eauto|].
        intros K. apply cov_arr. eauto.
      - rewrite cov_ptr in H. destruct H as (b & off & -> & H). split; [reflexivity|]. split; [|intros _]; exists b, off; (split; [reflexivity|exact H]).
    Qed.

    Lemma memcpy_sound m ad od as' os i n : cov m ad od -> cov m as' os -> iin i n ->
      rsound (cov m) (amemcpy ad as' i) (memcpy_obj od os n).
    Proof.
      intros Hd Hs Hi. unfold amemcpy, memcpy_obj. rewrite (bytes_length m ad od Hd), (bytes_length m as' os Hs).
      destruct ((fst i =? snd i) && (fst i =? Z.of_nat (asize ad)) && (fst i <=? Z.of_nat (asize as')) && all_init as') eqn:E.
      - rewrite !andb_true_iff, !Z.eqb_eq, Z.leb_le in E. destruct E as [[[E1 E2] E3] E4]. unfold iin in Hi. assert (n = Z.of_nat (asize ad)) by lia. subst n.
        rewrite (proj2 (Z.leb_le _ _)), (proj2 (Z.leb_le (Z.of_nat (asize ad)) _)), (proj2 (Z.leb_le (Z.of_nat (asize ad)) (Z.of_nat (asize as')))) by lia. cbn [andb].
        rewrite Nat2Z.id. rewrite (skipn_all2 (bytes_of od)) by (rewrite (bytes_length m ad od Hd); lia). rewrite app_nil_r.
        apply aret_sound. apply (from_bytes_sound m ad od _ Hd). rewrite firstn_firstn, Nat.min_id.
        pose proof (bytes_known m as' os Hs E4) as K. rewrite <- (firstn_skipn (asize ad)) in K. apply Forall_app in K. tauto.
      - intros _. cbv zeta. match goal with |- context [if ?b then Ok _ else _] => destruct b end; [|now left]. eexists. split; [now left|]. now apply from_bytes_sound.
    Qed.

    (** ** Statements *)

    Definition osound (m : memory) (o : aout) (r : res ctl) : Prop :=
      ~ In EStuck (errs o) ->
      match r with
      | Ok (Normal en m') => (exists a, In a (nrm o) /\ cove m' a en) /\ trans m m' (wr o)
      | Ok (Returned v m') => (exists a, In a (rets o) /\ cov m' a v) /\ trans m m' (wr o)
      | Err e => In e (errs o)
      end.

    Lemma ex_app_l {A} (P : A -> Prop) l l' : (exists a, In a l /\ P a) -> exists a, In a (l ++ l') /\ P a.
    Proof. intros (a & H & K). exists a. rewrite in_app_iff. auto. Qed.
    Lemma ex_app_r {A} (P : A -> Prop) l l' : (exists a, In a l' /\ P a) -> exists a, In a (l ++ l') /\ P a.
    Proof. intros (a & H & K). exists a. rewrite in_app_iff. auto. Qed.

    Lemma ojoin_l m a b r : osound m a r -> osound m (ojoin a b) r.
    Proof.
      intros H N. unfold osound in H. cbn in *. rewrite adde_in in N. specialize (H ltac:(tauto)).
      destruct r as [[en m'|v m']|e]; [| |apply adde_in; auto]; destruct H as [H T]; (split; [|eapply trans_wr; [exact T|intros ->; reflexivity]]).
      - apply (compact_sound ejoin (fun a => cove m' a en)); [intros; eapply ejoin_sound; eauto|]. now apply ex_app_l.
      - apply (compact_sound ajoin (fun a => cov m' a v)); [intros; eapply ajoin_sound; eauto|]. now apply ex_app_l.
    Qed.
    Lemma ojoin_r m a b r : osound m b r -> osound m (ojoin a b) r.
    Proof.
      intros H N. unfold osound in H. cbn in *. rewrite adde_in in N. specialize (H ltac:(tauto)).
      destruct r as [[en m'|v m']|e]; [| |apply adde_in; auto]; destruct H as [H T]; (split; [|eapply trans_wr; [exact T|intros ->; apply orb_true_r]]).
      - apply (compact_sound ejoin (fun a => cove m' a en)); [intros; eapply ejoin_sound; eauto|]. now apply ex_app_r.
      - apply (compact_sound ajoin (fun a => cov m' a v)); [intros; eapply ajoin_sound; eauto|]. now apply ex_app_r.
    Qed.

    Lemma oall_sound {A} m (l : list A) f a r : In a l -> osound m (f a) r -> osound m (oall l f) r.
    Proof.
      intros H K. induction l as [|x l IH]; [destruct H|]. cbn. destruct l as [|y l].
      - destruct H as [->|[]]. exact K.
      - destruct H as [->|H]; [now apply ojoin_l|]. apply ojoin_r. now apply IH.
    Qed.

    Lemma oerr_sound m e : osound m (oerr [e]) (Err e).
    Proof. intros _. now left. Qed.
    Lemma onrm_sound m a en : mem_ok m -> cove m a en -> osound m (onrm a) (Ok (Normal en m)).
    Proof. intros M H _. split; [exists a; split; [now left|exact H]|now apply trans_refl]. Qed.

    Lemma obind_sound {A B} (R : A -> B -> Prop) m x r (f : A -> aout) (g : B -> res ctl) :
      rsound R x r -> (forall a b, R a b -> osound m (f a) (g b)) -> osound m (obind x f) (bind r g).
    Proof.
      intros H F N. unfold rsound in H. cbn [obind errs nrm rets wr] in *. rewrite adde_in in N. specialize (H ltac:(tauto)).
      destruct r as [b|e]; [|apply adde_in; auto]. destruct H as (a & Ha & Hab).
      pose proof (oall_sound m (fst x) f a (g b) Ha (F a b Hab)) as K. unfold osound in K. specialize (K ltac:(tauto)). cbn [bind].
      destruct (g b) as [[en m'|v m']|e]; [exact K|exact K|]. apply adde_in. auto.
    Qed.

    Lemma oseq_sound m x r (f : aenv -> aout) (g : env -> memory -> res ctl) :
      osound m x r -> (forall a en m', mem_ok m' -> cove m' a en -> osound m' (f a) (g en m')) ->
      osound m (oseq x f) (bind r (fun r => match r with Normal en' m' => g en' m' | Returned _ _ => Ok r end)).
    Proof.
      intros H F N. unfold osound in H. cbn [oseq errs nrm rets wr] in *. rewrite adde_in in N. specialize (H ltac:(tauto)).
      destruct r as [[en m'|v m']|e]; cbn [bind].
      - destruct H as ((a & Ha & Hc) & T). pose proof (oall_sound m' (nrm x) f a _ Ha (F a en m' (proj1 T) Hc)) as K.
        unfold osound in K. specialize (K ltac:(tauto)). destruct (g en m') as [[en2 m2|v m2]|e].
        + destruct K as [K T2]. split; [exact K|]. eapply trans_trans; eauto.
        + destruct K as [K T2]. split; [|eapply trans_trans; eauto]. destruct (rets x); [exact K|].
          apply (compact_sound ajoin (fun a => cov m2 a v)); [intros; eapply ajoin_sound; eauto|]. now apply ex_app_r.
        + apply adde_in. auto.
      - destruct H as (H & T). split; [|eapply trans_wr; [exact T|intros ->; reflexivity]].
        destruct H as (a & Ha & Hc). destruct (rets x) as [|b l] eqn:E; [destruct Ha|]. rewrite <- E in *.
        apply (compact_sound ajoin (fun a => cov m' a v)); [intros; eapply ajoin_sound; eauto|]. apply ex_app_l. eauto.
      - apply adde_in. auto.
    Qed.

    Lemma Forall2_skipn {A B} (R : A -> B -> Prop) n la lb : Forall2 R la lb -> Forall2 R (skipn n la) (skipn n lb).
    Proof. intros F. revert n. induction F; intros [|n]; cbn; auto. Qed.

    Lemma apop_sound m n a en : cove m a en -> cove m (apop n a) (pop n en).
    Proof. intros H. unfold apop, pop. rewrite (Forall2_length _ _ _ H). now apply Forall2_skipn. Qed.

    Lemma opop_sound m n o r : osound m o r -> osound m (opop n o) (bind r (fun r => Ok (pop_ctl n r))).
    Proof.
      intros H N. specialize (H N). destruct r as [[en m'|v m']|e]; cbn in *; [|exact H|exact H].
      destruct H as ((a & Ha & Hc) & T). split; [|exact T]. exists (apop n a). split; [now apply in_map|now apply apop_sound].
    Qed.

    Lemma aloop_sound fuel ac as' cc cs :
      (forall m a en, mem_ok m -> cove m a en -> rsound eq (ac a) (cc en m)) ->
      (forall m a en, mem_ok m -> cove m a en -> osound m (as' a) (cs en m)) ->
      forall m a en, mem_ok m -> cove m a en -> osound m (aloop fuel ac as' a) (loop fuel cc cs en m).
    Proof.
      intros HC HS. induction fuel as [|k IH]; intros m a en M H; cbn [aloop loop]; [apply oerr_sound|].
      eapply obind_sound; [now apply HC|]. intros b ? <-. destruct b; [|now apply onrm_sound].
      apply oseq_sound; [now apply HS|]. intros; now apply IH.
    Qed.

    Section TyInd.
      Variable P : ty -> Prop.
      Hypothesis HV : P TVoid.
      Hypothesis HS : forall s, P (TScal s).
      Hypothesis HA : forall n t, P t -> P (TArr n t).
      Hypothesis HT : forall l, Forall P l -> P (TStruct l).
      Hypothesis HP : forall s, P (TPtr s).
      Fixpoint ty_ind' (t : ty) : P t :=
        match t with
        | TVoid => HV
        | TScal s => HS s
        | TArr n t => HA n t (ty_ind' t)
        | TStruct l => HT l ((fix go l : Forall P l := match l with [] => Forall_nil P | x :: l' => Forall_cons x (ty_ind' x) (go l') end) l)
        | TPtr s => HP s
        end.
    End TyInd.

    Lemma fresh_sound m t : cov m (afresh t) (fresh t).
    Proof.
      induction t as [|s|n t IH|l IH|s] using ty_ind'; cbn [afresh fresh].
      - apply cov_arr. eauto.
      - exists None. auto.
      - apply cov_arr. eexists. split; [reflexivity|]. induction n; cbn; auto.
      - apply cov_arr. eexists. split; [reflexivity|]. induction IH; cbn; auto.
      - exists 0%nat, 0. split; [reflexivity|]. split; intros; lia.
    Qed.

    Lemma init_sound m t a o : cov m a o -> rsound (cov m) (ainit t a) (init_obj c t o).
    Proof.
      intros H. destruct t; cbn [ainit init_obj]; try now apply aret_sound.
      eapply abind_sound; [eapply ascalar_sound; eauto|]. intros [t1 i] [t2 z] [E Hi]. cbn [fst snd] in *. subst t2.
      eapply abind_sound; [now apply aconvert_sound|]. intros j z' Hj. apply aret_sound, cov_av, Hj.
    Qed.

    Lemma bind_assoc {A B C} (r : res A) (f : A -> res B) (g : B -> res C) : bind r (fun x => bind (f x) g) = bind (bind r f) g.
    Proof. now destruct r. Qed.

    Lemma osound_bind_ext {A} m x (r : res A) g g' : (forall b, g b = g' b) -> osound m x (bind r g) -> osound m x (bind r g').
    Proof. intros E. destruct r; cbn; [now rewrite E|auto]. Qed.

    Lemma assign_stmt_sound m ae en x ks path a v : mem_ok m -> cove m ae en -> Forall2 iin ks path -> cov m a v ->
      osound m (obind (aassign ae x ks a) (fun r => mkout [fst r] [] [] (snd r)))
        (bind (assign c en m x path v) (fun r => Ok (Normal (fst r) (snd r)))).
    Proof.
      intros M He F Hv. eapply obind_sound; [eapply assign_sound; eauto|]. intros p q [H1 H2] _. cbn. split; [|exact H2]. eauto.
    Qed.

    Lemma exec_sound fuel s : forall m ae en, mem_ok m -> cove m ae en ->
      osound m (aexec (wrapv c) acall fuel s ae) (exec c callf fuel s en m).
    Proof.
      induction s; intros m ae en M He; cbn [aexec exec].
      - now apply onrm_sound.
      - apply oseq_sound; auto.
      - destruct init as [e|].
        + rewrite bind_assoc. eapply obind_sound; [eapply abind_sound; [now apply eval_sound|]; intros a o Ho; apply (init_sound m); exact Ho|].
          intros a o Ho. apply onrm_sound; [exact M|]. constructor; cbn; auto.
        + apply onrm_sound; [exact M|]. constructor; cbn; auto. split; [reflexivity|apply fresh_sound].
      - eapply obind_sound; [now apply eval_path_sound|]. intros ks is Hk. eapply obind_sound; [now apply eval_sound|]. intros a v Hv.
        now apply assign_stmt_sound.
      - rewrite <- (Forall2_length _ _ _ He).
        match goal with |- osound _ _ ?rr => replace rr with
          (bind (bind (bind (eval c callf en m e) cond_value) (fun b : bool => if b then exec c callf fuel s1 en m else exec c callf fuel s2 en m)) (fun r => Ok (pop_ctl (List.length ae) r)))
          by now rewrite <- !bind_assoc end.
        apply opop_sound. eapply obind_sound; [eapply abind_sound; [now apply eval_sound|]; intros a o Ho; eapply acond_sound; eauto|].
        intros b ? <-. destruct b; auto.
      - rewrite bind_assoc. eapply obind_sound; [eapply abind_sound; [now apply eval_sound|]; intros a o Ho; apply (init_sound m); exact Ho|].
        intros a o Ho. rewrite <- (Forall2_length _ _ _ He). apply opop_sound. apply aloop_sound; [| |exact M|constructor; cbn; auto].
        + intros m' a' en' M' He'. eapply abind_sound; [now apply eval_sound|]. intros x y Hxy. eapply acond_sound; eauto.
        + intros m' a' en' M' He'. rewrite <- (Forall2_length _ _ _ He').
          match goal with |- osound _ _ (bind ?rr ?k) => apply (osound_bind_ext m' _ rr (fun r => bind (Ok (pop_ctl (List.length a') r)) (fun r => match r with
               | Normal en' m' => let* v := eval c callf en' m' next in let* r := assign c en' m' i [] v in Ok (Normal (fst r) (snd r))
               | Returned v m' => Ok r end))); [intros []; reflexivity|] end.
          rewrite bind_assoc. apply oseq_sound; [apply opop_sound; auto|].
          intros a2 en2 m2 M2 He2. eapply obind_sound; [now apply eval_sound|]. intros a3 v Hv. apply assign_stmt_sound; auto.
      - rewrite bind_assoc. eapply obind_sound; [eapply abind_sound; [now apply eval_sound|]; intros a o Ho; eapply aint_sound; eauto|].
        intros k n' Hk. pose proof (alookup_sound m ae en dst He) as Kd. pose proof (alookup_sound m ae en src He) as Ks.
        destruct (alookup dst ae), (lookup dst en); try destruct Kd; [|apply oerr_sound].
        destruct (alookup src ae), (lookup src en); try destruct Ks; [|apply oerr_sound].
        eapply obind_sound; [eapply memcpy_sound; eauto|]. intros a' o' Ho'. apply onrm_sound; [exact M|]. now apply cove_update.
      - apply oerr_sound.
      - eapply obind_sound; [now apply eval_sound|]. intros a o Ho _. cbn. split; [eauto|now apply trans_refl].
    Qed.

    Lemma bind_params_sound m ps : forall aargs args, Forall2 (cov m) aargs args ->
      rsound (cove m) (abind_params ps aargs) (bind_params c ps args).
    Proof.
      induction ps as [|[x t] ps IH]; intros aargs args F; cbn [abind_params bind_params].
      - destruct F; [apply aret_sound; constructor|apply giveup_sound].
      - destruct F as [|a o aargs args H F]; [apply giveup_sound|].
        eapply abind_sound; [apply (init_sound m); exact H|]. intros a' o' Ho'. eapply abind_sound; [now apply IH|]. intros ae en He.
        apply aret_sound. constructor; cbn; auto.
    Qed.

    Definition covo (m : memory) (a : option aobj) (o : option obj) : Prop :=
      match a, o with Some a, Some o => cov m a o | None, None => True | _, _ => False end.

    Definition bsound (m : memory) (x : list (option aobj) * list err * bool) (r : res (option obj * memory)) : Prop :=
      ~ In EStuck (snd (fst x)) ->
      match r with
      | Ok (v, m') => (exists a, In a (fst (fst x)) /\ covo m' a v) /\ trans m m' (snd x)
      | Err e => In e (snd (fst x))
      end.

    Lemma run_body_sound fuel f m aargs args : mem_ok m -> Forall2 (cov m) aargs args ->
      bsound m (arun_body (wrapv c) acall fuel f aargs) (run_body c callf fuel f args m).
    Proof.
      intros M F. unfold arun_body, run_body.
      pose proof (obind_sound (cove m) m (abind_params (f_params f) aargs) (bind_params c (f_params f) args)
        (aexec (wrapv c) acall fuel (f_body f)) (fun en => exec c callf fuel (f_body f) en m)
        (bind_params_sound m _ _ _ F) (fun a en H => exec_sound fuel (f_body f) m a en M H)) as O.
      set (o := obind _ _) in *. rewrite bind_assoc. match goal with |- bsound _ _ (bind ?r0 _) => set (r := r0) in * end. clearbody o r. clear F.
      unfold osound in O.
      assert (NV : forall t, t <> TVoid -> bsound m
        (map Some (fst (abinds (rets o) (ainit t))),
         adde match nrm o with [] => [] | _ => [EUB MissingReturn] end (adde (snd (abinds (rets o) (ainit t))) (errs o)), wr o)
        (bind r (fun r => match r with Returned v m' => let* v' := init_obj c t v in Ok (Some v', m') | Normal _ _ => Err (EUB MissingReturn) end))).
      { intros t _ N. cbn [fst snd] in *. rewrite !adde_in in N. specialize (O ltac:(tauto)).
        destruct r as [[en m'|v m']|e]; cbn [bind].
        - destruct O as ((a & Ha & _) & _). apply adde_in. left. destruct (nrm o); [destruct Ha|now left].
        - destruct O as ((a & Ha & Hc) & T). destruct (abinds_in (rets o) (ainit t) a Ha) as [I1 I2].
          pose proof (init_sound m' t a v Hc) as K. unfold rsound in K. specialize (K ltac:(intros K'; apply I2 in K'; tauto)).
          destruct (init_obj c t v) as [v'|e]; cbn [bind].
          + destruct K as (a' & Ha' & Hc'). split; [|exact T]. exists (Some a'). split; [apply in_map; auto|exact Hc'].
          + rewrite !adde_in. right. left. auto.
        - rewrite !adde_in. auto. }
      destruct (f_ret f) eqn:ER.
      - intros N. cbn [fst snd] in *. rewrite !adde_in in N. specialize (O ltac:(tauto)).
        destruct r as [[en m'|v m']|e]; cbn [bind].
        + destruct O as ((a & Ha & _) & T). split; [|exact T]. exists None. split; [|exact I]. destruct (nrm o); [destruct Ha|now left].
        + exfalso. destruct O as ((a & Ha & _) & _). apply N. left. destruct (rets o); [destruct Ha|now left].
        + rewrite adde_in. auto.
      - intros N. specialize (NV (TScal t) ltac:(discriminate) N). destruct r as [[|]|]; exact NV.
      - intros N. specialize (NV (TArr n t) ltac:(discriminate) N). destruct r as [[|]|]; exact NV.
      - intros N. specialize (NV (TStruct l) ltac:(discriminate) N). destruct r as [[|]|]; exact NV.
      - intros N. specialize (NV (TPtr t) ltac:(discriminate) N). destruct r as [[|]|]; exact NV.
    Qed.
  End Call.

  Lemma forget_cov m m' a : forall o, cov m a o -> cov m' (forget a) o.
  Proof.
    induction a as [t i l h|l IH|t k rd] using aobj_ind'; intros o H; cbn [forget].
    - exact H.
    - apply cov_arr in H. destruct H as (lo & -> & F). apply cov_arr. eexists. split; [reflexivity|].
      induction F; cbn; constructor; inversion IH; subst; auto.
    - rewrite cov_ptr in H. destruct H as (b & off & -> & _). exists b, off. split; [reflexivity|]. split; intros; lia.
  Qed.

  Lemma call_helper_sound prog fuel depth : forall f m a o, cov m a o ->
    rsound (cov m) (acall_helper (wrapv c) prog fuel depth f a) (call_helper c prog fuel depth f o).
  Proof.
    induction depth as [|d IH]; intros name m a o H; cbn [acall_helper call_helper]; [apply giveup_sound|].
    destruct (find _ prog) as [f|]; [|apply giveup_sound].
    pose proof (run_body_sound (call_helper c prog fuel d) (acall_helper (wrapv c) prog fuel d) IH fuel f [] [forget a] [o]
      ltac:(constructor) ltac:(constructor; [eapply forget_cov; eauto|constructor])) as B.
    destruct (arun_body _ _ _ _ _) as [[vs es] w]. unfold bsound in B. cbn [fst snd] in B.
    eapply (abind_sound (fun a (p : option obj * memory) => exists m, covo m a (fst p))).
    - intros N. cbn [fst snd] in *. specialize (B N). destruct (run_body _ _ _ _ _ _) as [[v m']|e]; [|exact B].
      destruct B as ((a' & Ha & Hc) & _). exists a'. split; [exact Ha|]. exists m'. exact Hc.
    - intros a' [v m'] (m2 & Hc). cbn [fst] in *. destruct a' as [a'|], v as [v|]; try destruct Hc; [|apply giveup_sound].
      apply aret_sound. eapply forget_cov; eauto.
  Qed.
End Sound.

(** Every call is covered by the abstract call. *)
Theorem arun_sound c m f aargs args : mem_ok m -> Forall2 (cov m) aargs args ->
  bsound m (arun (wrapv c) f aargs) (run_body c (call_helper c helpers loop_fuel call_depth) loop_fuel f args m).
Proof.
  intros M F. unfold arun.
  exact (run_body_sound c _ _ (fun f m a o H => call_helper_sound c helpers loop_fuel call_depth f m a o H) loop_fuel f m aargs args M F).
Qed.
