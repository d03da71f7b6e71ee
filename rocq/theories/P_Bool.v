(** The bitwise intrinsics form a Boolean algebra; signed and unsigned variants
    compute the same bits. *)
From Coq Require Import ZArith String List Bool Lia.
From Verif Require Import Types FloatBits Syntax Interp ProgRecip ExecLemmas Lane Spec Ew Sym Tables.
From Verif Require Import P_AddSub P_SubMore P_Mul P_Shift P_Bit P_Perm P_Cast P_Laws P_Laws2.
Import ListNotations.
Open Scope Z_scope.

Lemma lists_eq t n (a b : list Z) : lanes t n a -> lanes t n b ->
  (forall i x y, nth_error a i = Some x -> nth_error b i = Some y -> x = y) -> a = b.
Proof.
  intros [La _] [Lb _] H. apply nth_ext with (d := 0) (d' := 0); [congruence|].
  intros i Hi. destruct (nth_error_lt a i Hi) as [x Hx]. destruct (nth_error_lt b i ltac:(lia)) as [y Hy].
  rewrite (nth_error_nth a i 0 Hx), (nth_error_nth b i 0 Hy). eauto.
Qed.

Section Algebra.
  Variables (c : cfg) (m : memory) (t : sty) (n : nat) (fa fo fx fn : func).
  Hypothesis (Ha : In (fa, t, n) vand_table) (Ho : In (fo, t, n) vorr_table)
             (Hx : In (fx, t, n) veor_table) (Hn : In (fn, t, n) vmvn_table).

  Lemma Hint : is_float t = false. Proof. now apply (int_of vand_table fa t n). Qed.

  Definition NOT (x : Z) : Z := wrap t (Z.lnot x).
  Lemma and_l a b : lanes t n a -> lanes t n b -> lanes t n (map2 Z.land a b).
  Proof. apply bin_range. intros; apply land_range; trivial. apply Hint. Qed.
  Lemma or_l a b : lanes t n a -> lanes t n b -> lanes t n (map2 Z.lor a b).
  Proof. apply bin_range. intros; apply lor_range; trivial. apply Hint. Qed.
  Lemma xor_l a b : lanes t n a -> lanes t n b -> lanes t n (map2 Z.lxor a b).
  Proof. apply bin_range. intros; apply lxor_range; trivial. apply Hint. Qed.
  Lemma not_l a : lanes t n a -> lanes t n (map NOT a).
  Proof.
    intros [L F]. split; [now rewrite map_length|]. apply Forall_forall. intros z Hz.
    apply in_map_iff in Hz as (x & <- & _). apply wrap_range.
  Qed.

  Lemma nth_map2_inv {A B C} (g : A -> B -> C) a b i z : nth_error (map2 g a b) i = Some z ->
    exists x y, nth_error a i = Some x /\ nth_error b i = Some y /\ z = g x y.
  Proof.
    revert b i. induction a as [|x a IH]; intros [|y b] [|i] H; cbn in *; try discriminate; [|now apply IH].
    injection H as <-. eauto.
  Qed.
  Lemma nth_map_inv {A B} (g : A -> B) a i z : nth_error (map g a) i = Some z ->
    exists x, nth_error a i = Some x /\ z = g x.
  Proof. rewrite nth_error_map. destruct (nth_error a i); cbn; [|discriminate]. intros [= <-]. eauto. Qed.
End Algebra.

(** Prove an equation between vectors built from [map2] and [map NOT] bit by bit. *)
Ltac lanes_tac Hi :=
  repeat first [assumption | apply (and_l _ _ _ Hi) | apply (or_l _ _ _ Hi) | apply (xor_l _ _ _ Hi) | apply not_l].
Ltac bitwise t n Hi :=
  apply (lists_eq t n); [lanes_tac Hi | lanes_tac Hi |];
  let i := fresh in let x := fresh in let y := fresh in let H1 := fresh in let H2 := fresh in
  intros i x y H1 H2;
  assert (in_range t x /\ in_range t y) as [? ?] by
    (split; [refine (lanes_nth t n _ i x _ H1) | refine (lanes_nth t n _ i y _ H2)]; lanes_tac Hi);
  repeat match goal with
  | H : nth_error (map2 _ _ _) _ = Some _ |- _ => apply nth_map2_inv in H as (? & ? & ? & ? & ?)
  | H : nth_error (map _ _) _ = Some _ |- _ => apply nth_map_inv in H as (? & ? & ?)
  end; subst;
  repeat match goal with
  | H : nth_error ?a ?i = Some ?u, H' : nth_error ?a ?i = Some ?v |- _ => rewrite H in H'; injection H' as ->
  end;
  apply (bits_eq t); [assumption..|];
  let k := fresh in intros k ?; unfold NOT;
  repeat first [rewrite wrap_bit by assumption | rewrite Z.land_spec | rewrite Z.lor_spec | rewrite Z.lxor_spec
               | rewrite Z.lnot_spec by lia];
  repeat match goal with |- context [Z.testbit ?u k] => destruct (Z.testbit u k) end; reflexivity.

Section Laws.
  Variables (c : cfg) (m : memory) (t : sty) (n : nat) (fa fo fx fn : func).
  Hypothesis (Ha : In (fa, t, n) vand_table) (Ho : In (fo, t, n) vorr_table)
             (Hx : In (fx, t, n) veor_table) (Hn : In (fn, t, n) vmvn_table).

  Ltac runs := repeat first
    [ rewrite (vand_exact fa t n c m _ _ Ha) by lanes_tac Ha
    | rewrite (vorr_exact fo t n c m _ _ Ho) by lanes_tac Ha
    | rewrite (veor_exact fx t n c m _ _ Hx) by lanes_tac Ha
    | rewrite (vmvn_exact fn t n c m _ Hn) by lanes_tac Ha ].
  Ltac done := repeat split; runs; trivial; do 3 f_equal; bitwise t n Ha.

  Lemma and_laws : comm_law c m fa t n /\ assoc_law c m fa t n /\ idem_law c m fa t n.
  Proof.
    assert (R : forall a b, lanes t n a -> lanes t n b ->
      run c m fa [vec t a; vec t b] = Returns m (Some (vec t (map2 Z.land a b)))) by (intros; now apply vand_exact with n).
    split; [|split].
    - apply (bin_comm _ _ _ _ _ _ R). intros; apply Z.land_comm.
    - apply (bin_assoc _ _ _ _ _ _ R); [intros; apply land_range; trivial; now apply (int_of vand_table fa t n)|].
      intros; symmetry; apply Z.land_assoc.
    - apply (bin_idem _ _ _ _ _ _ R). intros; apply Z.land_diag.
  Qed.
  Lemma or_laws : comm_law c m fo t n /\ assoc_law c m fo t n /\ idem_law c m fo t n.
  Proof.
    assert (R : forall a b, lanes t n a -> lanes t n b ->
      run c m fo [vec t a; vec t b] = Returns m (Some (vec t (map2 Z.lor a b)))) by (intros; now apply vorr_exact with n).
    split; [|split].
    - apply (bin_comm _ _ _ _ _ _ R). intros; apply Z.lor_comm.
    - apply (bin_assoc _ _ _ _ _ _ R); [intros; apply lor_range; trivial; now apply (int_of vorr_table fo t n)|].
      intros; symmetry; apply Z.lor_assoc.
    - apply (bin_idem _ _ _ _ _ _ R). intros; apply Z.lor_diag.
  Qed.
  Lemma xor_laws : comm_law c m fx t n /\ assoc_law c m fx t n.
  Proof.
    assert (R : forall a b, lanes t n a -> lanes t n b ->
      run c m fx [vec t a; vec t b] = Returns m (Some (vec t (map2 Z.lxor a b)))) by (intros; now apply veor_exact with n).
    split.
    - apply (bin_comm _ _ _ _ _ _ R). intros; apply Z.lxor_comm.
    - apply (bin_assoc _ _ _ _ _ _ R); [intros; apply lxor_range; trivial; now apply (int_of veor_table fx t n)|].
      intros; apply Z.lxor_assoc.
  Qed.

  Lemma and_absorbs_or a b : lanes t n a -> lanes t n b ->
    exists o, run c m fo [vec t a; vec t b] = Returns m (Some (vec t o))
           /\ run c m fa [vec t a; vec t o] = Returns m (Some (vec t a)).
  Proof. intros La Lb. exists (map2 Z.lor a b). done. Qed.
  Lemma or_absorbs_and a b : lanes t n a -> lanes t n b ->
    exists o, run c m fa [vec t a; vec t b] = Returns m (Some (vec t o))
           /\ run c m fo [vec t a; vec t o] = Returns m (Some (vec t a)).
  Proof. intros La Lb. exists (map2 Z.land a b). done. Qed.

  Lemma and_over_or a b d : lanes t n a -> lanes t n b -> lanes t n d ->
    exists o p q r, run c m fo [vec t b; vec t d] = Returns m (Some (vec t o))
      /\ run c m fa [vec t a; vec t b] = Returns m (Some (vec t p))
      /\ run c m fa [vec t a; vec t d] = Returns m (Some (vec t q))
      /\ run c m fa [vec t a; vec t o] = Returns m (Some (vec t r))
      /\ run c m fo [vec t p; vec t q] = Returns m (Some (vec t r)).
  Proof.
    intros La Lb Ld. exists (map2 Z.lor b d), (map2 Z.land a b), (map2 Z.land a d), (map2 Z.land a (map2 Z.lor b d)). done.
  Qed.

  Lemma demorgan_and a b : lanes t n a -> lanes t n b ->
    exists p na nb r, run c m fa [vec t a; vec t b] = Returns m (Some (vec t p))
      /\ run c m fn [vec t a] = Returns m (Some (vec t na))
      /\ run c m fn [vec t b] = Returns m (Some (vec t nb))
      /\ run c m fn [vec t p] = Returns m (Some (vec t r))
      /\ run c m fo [vec t na; vec t nb] = Returns m (Some (vec t r)).
  Proof.
    intros La Lb. exists (map2 Z.land a b), (map (NOT t) a), (map (NOT t) b), (map (NOT t) (map2 Z.land a b)). done.
  Qed.
  Lemma demorgan_or a b : lanes t n a -> lanes t n b ->
    exists p na nb r, run c m fo [vec t a; vec t b] = Returns m (Some (vec t p))
      /\ run c m fn [vec t a] = Returns m (Some (vec t na))
      /\ run c m fn [vec t b] = Returns m (Some (vec t nb))
      /\ run c m fn [vec t p] = Returns m (Some (vec t r))
      /\ run c m fa [vec t na; vec t nb] = Returns m (Some (vec t r)).
  Proof.
    intros La Lb. exists (map2 Z.lor a b), (map (NOT t) a), (map (NOT t) b), (map (NOT t) (map2 Z.lor a b)). done.
  Qed.

  Lemma not_not a : lanes t n a ->
    exists na, run c m fn [vec t a] = Returns m (Some (vec t na))
            /\ run c m fn [vec t na] = Returns m (Some (vec t a)).
  Proof. intros La. exists (map (NOT t) a). done. Qed.

  Lemma xor_cancel a b : lanes t n a -> lanes t n b ->
    exists x, run c m fx [vec t a; vec t b] = Returns m (Some (vec t x))
           /\ run c m fx [vec t x; vec t b] = Returns m (Some (vec t a)).
  Proof. intros La Lb. exists (map2 Z.lxor a b). done. Qed.
  Lemma xor_self a : lanes t n a ->
    run c m fx [vec t a; vec t a] = Returns m (Some (vec t (repeat 0 n))).
  Proof.
    intros La. runs. do 3 f_equal. destruct La as [L _]. clear -L. subst n.
    induction a; cbn; [reflexivity|]. rewrite IHa. f_equal. apply Z.lxor_nilpotent.
  Qed.
  Lemma de_morgan a b : lanes t n a -> lanes t n b ->
    exists na nb p q r s,
         run c m fn [vec t a] = Returns m (Some (vec t na))
      /\ run c m fn [vec t b] = Returns m (Some (vec t nb))
      /\ run c m fa [vec t a; vec t b] = Returns m (Some (vec t p))
      /\ run c m fn [vec t p] = Returns m (Some (vec t r))
      /\ run c m fo [vec t na; vec t nb] = Returns m (Some (vec t r))
      /\ run c m fo [vec t a; vec t b] = Returns m (Some (vec t q))
      /\ run c m fn [vec t q] = Returns m (Some (vec t s))
      /\ run c m fa [vec t na; vec t nb] = Returns m (Some (vec t s)).
  Proof.
    intros La Lb. exists (map (NOT t) a), (map (NOT t) b), (map2 Z.land a b), (map2 Z.lor a b),
      (map (NOT t) (map2 Z.land a b)), (map (NOT t) (map2 Z.lor a b)). done.
  Qed.
End Laws.

(** Every type and length with an exclusive-or also has a conjunction. *)
Lemma xor_and f t n : In (f, t, n) veor_table -> exists fa, In (fa, t, n) vand_table.
Proof.
  intros H. cbn [In veor_table] in H.
  repeat destruct H as [H|H]; try (injection H as <- <- <-); [.. | destruct H]; eexists; cbn; eauto 20.
Qed.
Lemma xor_cancel' c m t n fx : In (fx, t, n) veor_table -> forall a b, lanes t n a -> lanes t n b ->
  exists x, run c m fx [vec t a; vec t b] = Returns m (Some (vec t x))
         /\ run c m fx [vec t x; vec t b] = Returns m (Some (vec t a)).
Proof. intros H. destruct (xor_and fx t n H) as [fa Ha]. exact (xor_cancel c m t n fa fx Ha H). Qed.
Lemma xor_self' c m t n fx : In (fx, t, n) veor_table -> forall a, lanes t n a ->
  run c m fx [vec t a; vec t a] = Returns m (Some (vec t (repeat 0 n))).
Proof. intros H. destruct (xor_and fx t n H) as [fa Ha]. exact (xor_self c m t n fx H). Qed.

(** ** Signed and unsigned *)

(** Two vectors of elements of the same width with the same bytes. *)
Definition int_sty (t : sty) : Prop := is_float t = false.

Lemma wrap_lane_bytes t u x : nbytes t = nbytes u -> lane_bytes u (wrap u x) = lane_bytes t x.
Proof.
  intros E. unfold lane_bytes. rewrite E. apply map_ext_in. intros k Hk. apply in_seq in Hk.
  assert (W : width u = 8 * Z.of_nat (nbytes u)) by (destruct u; reflexivity).
  assert (Q : exists q, wrap u x = x + q * 2 ^ width u) by (now apply wrap_spec). destruct Q as [q ->].
  change 256 with (2 ^ 8). rewrite <- Z.pow_mul_r by lia.
  apply Z.bits_inj'. intros j Hj. destruct (Z.lt_ge_cases j 8).
  - rewrite !Z.mod_pow2_bits_low by lia. rewrite !Z.div_pow2_bits by lia.
    rewrite <- (Z.mod_pow2_bits_low (x + q * 2 ^ width u) (width u)) by lia.
    rewrite Z.mod_add by (apply Z.pow_nonzero; lia). now rewrite Z.mod_pow2_bits_low by lia.
  - now rewrite !Z.mod_pow2_bits_high by lia.
Qed.

Lemma wrap_vec_bytes t u a : nbytes t = nbytes u -> vec_bytes u (map (wrap u) a) = vec_bytes t a.
Proof.
  intros E. unfold vec_bytes. induction a as [|x a IH]; cbn; [reflexivity|]. now rewrite IH, (wrap_lane_bytes t u).
Qed.

Lemma map_wrap_lanes u n a : List.length a = n -> lanes u n (map (wrap u) a).
Proof.
  intros L. split; [now rewrite map_length|]. apply Forall_forall. intros z Hz.
  apply in_map_iff in Hz as (x & <- & _). apply wrap_range.
Qed.

Lemma same_bytes_wrap t u n a a' : nbytes t = nbytes u -> lanes t n a -> lanes u n a' ->
  vec_bytes t a = vec_bytes u a' -> a' = map (wrap u) a.
Proof.
  intros E Ha Ha' B. apply (vec_bytes_inj u n); [exact Ha' | apply map_wrap_lanes; apply Ha |].
  rewrite (wrap_vec_bytes t u) by exact E. congruence.
Qed.

Lemma map2_maps (g : Z -> Z -> Z) (h : Z -> Z) (a b : list Z) : map2 g (map h a) (map h b) = map2 (fun x y => g (h x) (h y)) a b.
Proof. revert b. induction a; intros [|]; cbn; trivial. now rewrite IHa. Qed.
Lemma map_map2 (g : Z -> Z -> Z) (h : Z -> Z) (a b : list Z) : map h (map2 g a b) = map2 (fun x y => h (g x y)) a b.
Proof. revert b. induction a; intros [|]; cbn; trivial. now rewrite IHa. Qed.
Lemma map2_ext_lanes t n (g h : Z -> Z -> Z) (a b : list Z) : lanes t n a -> lanes t n b ->
  (forall x y, in_range t x -> in_range t y -> g x y = h x y) -> map2 g a b = map2 h a b.
Proof.
  intros [_ Fa] [_ Fb] H. revert b Fb. induction Fa as [|x a Hx Fa IH]; intros [|y b] Fb; cbn; trivial.
  inversion Fb; subst. rewrite H, IH; trivial.
Qed.

Lemma wrap_eq t x y : (exists k, x = y + k * 2 ^ width t) -> wrap t x = wrap t y.
Proof.
  intros [k E]. apply wrap_spec. split; [apply wrap_range|].
  assert (Q : exists q, wrap t x = x + q * 2 ^ width t) by (now apply wrap_spec). destruct Q as [q ->].
  exists (q + k). rewrite E. ring.
Qed.

(** The unsigned operation on the same bits gives the same bits. *)
Definition sign_agnostic (op : Z -> Z -> Z) : Prop := forall u x y, wrap u (op (wrap u x) (wrap u y)) = wrap u (op x y).

Lemma add_agnostic : sign_agnostic Z.add.
Proof.
  intros u x y. apply wrap_eq.
  assert (exists q, wrap u x = x + q * 2 ^ width u) as [p ->] by (now apply wrap_spec).
  assert (exists q, wrap u y = y + q * 2 ^ width u) as [q ->] by (now apply wrap_spec).
  exists (p + q). ring.
Qed.
Lemma sub_agnostic : sign_agnostic Z.sub.
Proof.
  intros u x y. apply wrap_eq.
  assert (exists q, wrap u x = x + q * 2 ^ width u) as [p ->] by (now apply wrap_spec).
  assert (exists q, wrap u y = y + q * 2 ^ width u) as [q ->] by (now apply wrap_spec).
  exists (p - q). ring.
Qed.
Lemma mul_agnostic : sign_agnostic Z.mul.
Proof.
  intros u x y. apply wrap_eq.
  assert (exists q, wrap u x = x + q * 2 ^ width u) as [p ->] by (now apply wrap_spec).
  assert (exists q, wrap u y = y + q * 2 ^ width u) as [q ->] by (now apply wrap_spec).
  exists (x * q + p * y + p * q * 2 ^ width u). ring.
Qed.
Lemma bit_agnostic op (o : bool -> bool -> bool) : (forall x y k, Z.testbit (op x y) k = o (Z.testbit x k) (Z.testbit y k)) ->
  sign_agnostic op.
Proof.
  intros H u x y. apply (bits_eq u); try apply wrap_range. intros k Hk.
  now rewrite !wrap_bit, !H, !wrap_bit by exact Hk.
Qed.

Lemma agree2 (op : Z -> Z -> Z) t u n c m f f' a b a' b' :
  sign_agnostic op -> nbytes t = nbytes u ->
  lanes t n a -> lanes t n b -> lanes u n a' -> lanes u n b' ->
  vec_bytes t a = vec_bytes u a' -> vec_bytes t b = vec_bytes u b' ->
  run c m f [vec t a; vec t b] = Returns m (Some (vec t (map2 (fun x y => wrap t (op x y)) a b))) ->
  run c m f' [vec u a'; vec u b'] = Returns m (Some (vec u (map2 (fun x y => wrap u (op x y)) a' b'))) ->
  exists r r', run c m f [vec t a; vec t b] = Returns m (Some (vec t r))
            /\ run c m f' [vec u a'; vec u b'] = Returns m (Some (vec u r'))
            /\ vec_bytes t r = vec_bytes u r'.
Proof.
  intros Hop E Ha Hb Ha' Hb' Ba Bb R R'. do 2 eexists. split; [exact R|]. split; [exact R'|].
  rewrite (same_bytes_wrap t u n a a' E Ha Ha' Ba), (same_bytes_wrap t u n b b' E Hb Hb' Bb).
  rewrite map2_maps, <- (wrap_vec_bytes t u) by exact E. f_equal. rewrite map_map2.
  apply (map2_ext_lanes t n); trivial. intros x y _ _. rewrite (Hop u x y).
  apply wrap_eq.
  assert (exists q, wrap t (op x y) = op x y + q * 2 ^ width t) as [q ->] by (now apply wrap_spec).
  exists q. replace (width u) with (width t); [reflexivity|]. destruct t, u; try discriminate E; reflexivity.
Qed.

Lemma unsigned_bytes t : nbytes t = nbytes (unsigned_of t). Proof. destruct t; reflexivity. Qed.
Lemma unsigned_modular c t : modular c (unsigned_of t). Proof. right. left. destruct t; reflexivity. Qed.

Lemma vadd_agree f f' t n c m a b a' b' : let u := unsigned_of t in
  In (f, t, n) vadd_table -> In (f', u, n) vadd_table -> modular c t ->
  lanes t n a -> lanes t n b -> lanes u n a' -> lanes u n b' ->
  vec_bytes t a = vec_bytes u a' -> vec_bytes t b = vec_bytes u b' ->
  exists r r', run c m f [vec t a; vec t b] = Returns m (Some (vec t r))
            /\ run c m f' [vec u a'; vec u b'] = Returns m (Some (vec u r'))
            /\ vec_bytes t r = vec_bytes u r'.
Proof.
  intros u Hf Hf' Hm Ha Hb Ha' Hb' Ba Bb. apply (agree2 Z.add t u n); trivial.
  - apply add_agnostic.
  - apply unsigned_bytes.
  - apply (vadd_wraps f t n Hf); auto.
  - apply (vadd_wraps f' u n Hf'); trivial. left. apply unsigned_modular.
Qed.

Lemma vsub_agree f f' t n c m a b a' b' : let u := unsigned_of t in
  In (f, t, n) vsub_table -> In (f', u, n) vsub_table -> modular c t ->
  lanes t n a -> lanes t n b -> lanes u n a' -> lanes u n b' ->
  vec_bytes t a = vec_bytes u a' -> vec_bytes t b = vec_bytes u b' ->
  exists r r', run c m f [vec t a; vec t b] = Returns m (Some (vec t r))
            /\ run c m f' [vec u a'; vec u b'] = Returns m (Some (vec u r'))
            /\ vec_bytes t r = vec_bytes u r'.
Proof.
  intros u Hf Hf' Hm Ha Hb Ha' Hb' Ba Bb. apply (agree2 Z.sub t u n); trivial.
  - apply sub_agnostic.
  - apply unsigned_bytes.
  - apply (vsub_wraps f t n Hf); auto.
  - apply (vsub_wraps f' u n Hf'); trivial. left. apply unsigned_modular.
Qed.

Lemma vmul_agree f f' t n c m a b a' b' : let u := unsigned_of t in
  In (f, t, n) vmul_table -> In (f', u, n) vmul_table -> mul_modular c t -> mul_modular c u ->
  lanes t n a -> lanes t n b -> lanes u n a' -> lanes u n b' ->
  vec_bytes t a = vec_bytes u a' -> vec_bytes t b = vec_bytes u b' ->
  exists r r', run c m f [vec t a; vec t b] = Returns m (Some (vec t r))
            /\ run c m f' [vec u a'; vec u b'] = Returns m (Some (vec u r'))
            /\ vec_bytes t r = vec_bytes u r'.
Proof.
  intros u Hf Hf' Hm Hm' Ha Hb Ha' Hb' Ba Bb. apply (agree2 Z.mul t u n); trivial.
  - apply mul_agnostic.
  - apply unsigned_bytes.
  - apply (vmul_wraps f t n Hf); auto.
  - apply (vmul_wraps f' u n Hf'); auto.
Qed.

Lemma wrap_out (op : Z -> Z -> Z) t n a b : lanes t n a -> lanes t n b ->
  (forall x y, in_range t x -> in_range t y -> in_range t (op x y)) ->
  map2 op a b = map2 (fun x y => wrap t (op x y)) a b.
Proof. intros Ha Hb H. apply (map2_ext_lanes t n); trivial. intros. symmetry. apply wrap_id. auto. Qed.

Lemma bit_agree op o T (Hop : forall x y k, Z.testbit (op x y) k = o (Z.testbit x k) (Z.testbit y k))
  (HT : forall f t n c m a b, In (f, t, n) T -> lanes t n a -> lanes t n b ->
        run c m f [vec t a; vec t b] = Returns m (Some (vec t (map2 op a b))))
  (HR : forall t x y, is_float t = false -> in_range t x -> in_range t y -> in_range t (op x y))
  (HI : forallb (fun e : func * sty * nat => negb (is_float (snd (fst e)))) T = true)
  f f' t n c m a b a' b' : let u := unsigned_of t in
  In (f, t, n) T -> In (f', u, n) T ->
  lanes t n a -> lanes t n b -> lanes u n a' -> lanes u n b' ->
  vec_bytes t a = vec_bytes u a' -> vec_bytes t b = vec_bytes u b' ->
  exists r r', run c m f [vec t a; vec t b] = Returns m (Some (vec t r))
            /\ run c m f' [vec u a'; vec u b'] = Returns m (Some (vec u r'))
            /\ vec_bytes t r = vec_bytes u r'.
Proof.
  intros u Hf Hf' Ha Hb Ha' Hb' Ba Bb. apply (agree2 op t u n); trivial.
  - now apply (bit_agnostic op o).
  - apply unsigned_bytes.
  - rewrite <- (wrap_out op t n) by (trivial; intros; apply HR; trivial; now apply (int_of T f t n)). now apply HT with n.
  - rewrite <- (wrap_out op u n) by (trivial; intros; apply HR; trivial; now apply (int_of T f' u n)). now apply HT with n.
Qed.

Lemma bitwise_agree T f f' t n c m a b a' b' : let u := unsigned_of t in
  In T [vand_table; vorr_table; veor_table] ->
  In (f, t, n) T -> In (f', u, n) T ->
  lanes t n a -> lanes t n b -> lanes u n a' -> lanes u n b' ->
  vec_bytes t a = vec_bytes u a' -> vec_bytes t b = vec_bytes u b' ->
  exists r r', run c m f [vec t a; vec t b] = Returns m (Some (vec t r))
            /\ run c m f' [vec u a'; vec u b'] = Returns m (Some (vec u r'))
            /\ vec_bytes t r = vec_bytes u r'.
Proof.
  intros u [<-|[<-|[<-|[]]]].
  - apply (bit_agree Z.land andb vand_table); [apply Z.land_spec | intros; eapply vand_exact; eassumption | apply land_range | reflexivity].
  - apply (bit_agree Z.lor orb vorr_table); [apply Z.lor_spec | intros; eapply vorr_exact; eassumption | apply lor_range | reflexivity].
  - apply (bit_agree Z.lxor xorb veor_table); [apply Z.lxor_spec | intros; eapply veor_exact; eassumption | apply lxor_range | reflexivity].
Qed.

Lemma vmvn_agree f f' t n c m a a' : let u := unsigned_of t in
  In (f, t, n) vmvn_table -> In (f', u, n) vmvn_table ->
  lanes t n a -> lanes u n a' -> vec_bytes t a = vec_bytes u a' ->
  exists r r', run c m f [vec t a] = Returns m (Some (vec t r))
            /\ run c m f' [vec u a'] = Returns m (Some (vec u r'))
            /\ vec_bytes t r = vec_bytes u r'.
Proof.
  intros u Hf Hf' Ha Ha' Ba. do 2 eexists.
  split; [now apply vmvn_exact with n|]. split; [now apply vmvn_exact with n|].
  pose proof (unsigned_bytes t) as E.
  rewrite (same_bytes_wrap t u n a a' E Ha Ha' Ba), <- (wrap_vec_bytes t u) by exact E. f_equal.
  rewrite !map_map. apply map_ext. intros x.
  assert (W : width t = width u) by (unfold u; destruct t; reflexivity).
  apply (bits_eq u); try apply wrap_range. intros k Hk.
  rewrite !wrap_bit by (rewrite ?W; exact Hk). now rewrite !Z.lnot_spec, wrap_bit by lia.
Qed.
