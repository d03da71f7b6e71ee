(** Laws of permutations, casts and bitwise operations; agreement of signed and
    unsigned variants. *)
From Coq Require Import ZArith String List Bool Lia.
From Verif Require Import Types FloatBits Syntax Interp ProgRecip ExecLemmas Lane Spec Ew Sym Tables.
From Verif Require Import P_AddSub P_SubMore P_Mul P_Shift P_Bit P_Perm P_Cast P_Laws.
Import ListNotations.
Open Scope Z_scope.

(** ** Permutations *)

Lemma trn_involution n a b : (exists k, n = 2 * k)%nat -> List.length a = n -> List.length b = n ->
  trn 0 n (trn 0 n a b) (trn 1 n a b) = a /\ trn 1 n (trn 0 n a b) (trn 1 n a b) = b.
Proof.
  intros [h Hn] La Lb.
  assert (G : forall i k, (i < h)%nat -> (k < 2)%nat -> ((2 * i + k) / 2 = i)%nat /\ Nat.even (2 * i + k) = (k =? 0)%nat).
  { intros i k Hi Hk. split.
    - rewrite Nat.mul_comm, Nat.div_add_l, Nat.div_small by lia. lia.
    - rewrite Nat.even_add, Nat.even_mul. destruct k as [|[|]]; [reflexivity|reflexivity|lia]. }
  split; (apply nth_ext with (d := 0) (d' := 0); [unfold trn; now rewrite build_length|]);
    intros k Hk; unfold trn at 1 in Hk; rewrite build_length in Hk; unfold trn at 1; rewrite nth_build by lia;
    pose proof (Nat.div_mod k 2 ltac:(lia)) as D; pose proof (Nat.mod_upper_bound k 2 ltac:(lia)) as U;
    set (i := (k / 2)%nat) in *; set (j := (k mod 2)%nat) in *;
    (replace (Nat.even k) with (j =? 0)%nat by (rewrite D; symmetry; apply G; lia));
    destruct j as [|[|]]; try lia; cbn [Nat.eqb]; unfold trn; rewrite nth_build by lia;
    match goal with |- nth (2 * (?x / 2) + _) _ _ = _ => 
      destruct (G i (x - 2 * i)%nat ltac:(lia) ltac:(lia)) as [G1 G2];
      replace (2 * i + (x - 2 * i))%nat with x in G1, G2 by lia; rewrite G1, G2 end;
    (match goal with |- nth _ (if ?c then _ else _) _ = _ => let v := eval cbn in c in idtac end);
    (match goal with |- context [(?x - 2 * i =? 0)%nat] => 
       first [replace (x - 2 * i)%nat with 0%nat by lia | replace (x - 2 * i)%nat with 1%nat by lia] end);
    cbn [Nat.eqb]; f_equal; lia.
Qed.

Lemma vtrn_even f t n : In (f, t, n) vtrn_table -> exists k, (n = 2 * k)%nat.
Proof.
  intros H. cbn [In vtrn_table] in H.
  each_entry H ltac:(first [exists 4%nat; reflexivity | exists 2%nat; reflexivity | exists 1%nat; reflexivity]).
Qed.

Lemma trn_lanes t n j a b : lanes t n a -> lanes t n b -> (exists k, n = 2 * k)%nat -> (j < 2)%nat ->
  lanes t n (trn j n a b).
Proof.
  intros Ha Hb [h Hn] Hj. apply build_lanes. intros k Hk.
  pose proof (Nat.div_mod k 2 ltac:(lia)). pose proof (Nat.mod_upper_bound k 2 ltac:(lia)).
  destruct (Nat.even k); apply nth_lane_range with n; trivial; lia.
Qed.

Lemma vtrn_twice f t n c m a b : In (f, t, n) vtrn_table -> lanes t n a -> lanes t n b ->
  exists p q, run c m f [vec t a; vec t b] = Returns m (Some (vecs t [p; q]))
           /\ run c m f [vec t p; vec t q] = Returns m (Some (vecs t [a; b])).
Proof.
  intros H Ha Hb. pose proof (vtrn_even _ _ _ H) as E. exists (trn 0 n a b), (trn 1 n a b).
  split; [eapply vtrn_exact; eassumption|].
  rewrite (vtrn_exact _ _ _ c m _ _ H) by (apply trn_lanes; trivial; lia).
  destruct (trn_involution n a b E (proj1 Ha) (proj1 Hb)) as [-> ->]. reflexivity.
Qed.

Lemma zip_length a b : List.length a = List.length b -> List.length (zip a b) = (2 * List.length a)%nat.
Proof.
  intros L. unfold zip. revert b L. induction a as [|x a IH]; intros [|y b] L; try discriminate; [reflexivity|].
  cbn in *. rewrite IH; lia.
Qed.

Lemma zip_nth a b i j : List.length a = List.length b -> (j < 2)%nat -> (i < List.length a)%nat ->
  nth (2 * i + j) (zip a b) 0 = nth i (if (j =? 0)%nat then a else b) 0.
Proof.
  intros L Hj. unfold zip. revert b i L. induction a as [|x a IH]; intros [|y b] i L Hi; try discriminate; cbn in Hi; [lia|].
  destruct i as [|i].
  - destruct j as [|[|]]; [reflexivity|reflexivity|lia].
  - cbn [combine flat_map fst snd app]. replace (2 * S i + j)%nat with (S (S (2 * i + j))) by lia. cbn [nth].
    rewrite IH; [|now injection L|lia]. destruct (j =? 0)%nat; reflexivity.
Qed.

Lemma uzp_zip n a b : List.length a = n -> List.length b = n ->
  uzp 0 n (firstn n (zip a b)) (skipn n (zip a b)) = a /\ uzp 1 n (firstn n (zip a b)) (skipn n (zip a b)) = b.
Proof.
  intros La Lb. unfold uzp. rewrite firstn_skipn.
  split; (apply nth_ext with (d := 0) (d' := 0); [now rewrite build_length|]); intros k Hk; rewrite build_length in Hk;
    rewrite nth_build by lia; rewrite zip_nth by lia; reflexivity.
Qed.

Lemma uzp_length j n a b : List.length (uzp j n a b) = n.
Proof. apply build_length. Qed.

Lemma zip_uzp n a b : List.length a = n -> List.length b = n -> zip (uzp 0 n a b) (uzp 1 n a b) = a ++ b.
Proof.
  intros La Lb. apply nth_ext with (d := 0) (d' := 0).
  - rewrite zip_length; rewrite !uzp_length, ?app_length; lia.
  - intros k Hk. rewrite zip_length, uzp_length in Hk by (now rewrite !uzp_length).
    pose proof (Nat.div_mod k 2 ltac:(lia)) as D. pose proof (Nat.mod_upper_bound k 2 ltac:(lia)) as U.
    rewrite D at 1. rewrite zip_nth; rewrite ?uzp_length; try lia.
    destruct (k mod 2)%nat as [|[|]] eqn:E; try lia; cbn [Nat.eqb]; unfold uzp; rewrite nth_build by lia; f_equal; lia.
Qed.

Lemma zip_lanes t n a b : lanes t n a -> lanes t n b -> lanes t (n + n) (zip a b).
Proof.
  intros [La Fa] [Lb Fb]. split; [rewrite zip_length; lia|]. clear La Lb. unfold zip.
  revert b Fb. induction Fa as [|x a Hx Fa IH]; intros [|y b] Fb; cbn; constructor.
  - exact Hx.
  - inversion Fb; subst. constructor; auto.
Qed.

Lemma uzp_lanes t n j a b : lanes t n a -> lanes t n b -> (j < 2)%nat -> lanes t n (uzp j n a b).
Proof.
  intros Ha Hb Hj. apply build_lanes. intros k Hk. apply nth_lane_range with (n + n)%nat; [now apply lanes_app|lia].
Qed.

Lemma vuzp_vzip fz fu t n c m a b : In (fz, t, n) vzip_table -> In (fu, t, n) vuzp_table ->
  lanes t n a -> lanes t n b ->
  exists p q, run c m fz [vec t a; vec t b] = Returns m (Some (vecs t [p; q]))
           /\ run c m fu [vec t p; vec t q] = Returns m (Some (vecs t [a; b])).
Proof.
  intros Hz Hu Ha Hb. do 2 eexists. split; [eapply vzip_exact; eassumption|].
  pose proof (zip_lanes t n a b Ha Hb) as Z2.
  rewrite (vuzp_exact _ _ _ c m _ _ Hu).
  - destruct (uzp_zip n a b (proj1 Ha) (proj1 Hb)) as [-> ->]. reflexivity.
  - apply (lanes_firstn t (n + n)); [exact Z2|lia].
  - now apply lanes_skipn.
Qed.

Lemma vzip_vuzp fz fu t n c m a b : In (fz, t, n) vzip_table -> In (fu, t, n) vuzp_table ->
  lanes t n a -> lanes t n b ->
  exists p q, run c m fu [vec t a; vec t b] = Returns m (Some (vecs t [p; q]))
           /\ run c m fz [vec t p; vec t q] = Returns m (Some (vecs t [a; b])).
Proof.
  intros Hz Hu Ha Hb. do 2 eexists. split; [eapply vuzp_exact; eassumption|].
  rewrite (vzip_exact _ _ _ c m _ _ Hz) by (apply uzp_lanes; trivial; lia).
  rewrite zip_uzp by (apply Ha || apply Hb).
  destruct Ha as [<- _]. rewrite firstn_app, firstn_all, Nat.sub_diag, app_nil_r.
  rewrite skipn_app, skipn_all, Nat.sub_diag. reflexivity.
Qed.

(** ** Reversal *)

Lemma rev_groups_twice g n a : (0 < g)%nat -> (exists k, n = g * k)%nat -> List.length a = n ->
  rev_groups g n (rev_groups g n a) = a.
Proof.
  intros Hg [h Hn] La. unfold rev_groups at 1.
  apply nth_ext with (d := 0) (d' := 0); [now rewrite build_length|].
  intros k Hk. rewrite build_length in Hk. rewrite nth_build by lia.
  pose proof (Nat.div_mod k g ltac:(lia)) as D. pose proof (Nat.mod_upper_bound k g ltac:(lia)) as U.
  set (i := (k / g)%nat) in *. set (j := (k mod g)%nat) in *.
  assert (Hi : (i < h)%nat) by nia.
  unfold rev_groups. rewrite nth_build by nia.
  replace ((g * i + (g - 1 - j)) / g)%nat with i
    by (rewrite Nat.mul_comm, Nat.div_add_l, Nat.div_small by lia; lia).
  replace ((g * i + (g - 1 - j)) mod g)%nat with (g - 1 - j)%nat
    by (rewrite Nat.add_comm, Nat.mul_comm, Nat.mod_add, Nat.mod_small by lia; reflexivity).
  f_equal. lia.
Qed.

Lemma rev_groups_lanes t g n a : (0 < g)%nat -> (exists k, n = g * k)%nat -> lanes t n a -> lanes t n (rev_groups g n a).
Proof.
  intros Hg [h Hn] Ha. apply build_lanes. intros k Hk. apply nth_lane_range with n; [exact Ha|].
  pose proof (Nat.div_mod k g ltac:(lia)). pose proof (Nat.mod_upper_bound k g ltac:(lia)).
  assert (k / g < h)%nat by nia. nia.
Qed.

Definition vrev_tables := vrev16_table ++ vrev32_table ++ vrev64_table.

Lemma vrev_twice f t n c m a : In (f, t, n) vrev_tables -> lanes t n a ->
  exists r, run c m f [vec t a] = Returns m (Some (vec t r)) /\ run c m f [vec t r] = Returns m (Some (vec t a)).
Proof.
  intros H Ha.
  assert (G : exists g, (0 < g)%nat /\ (exists k, n = g * k)%nat /\
    forall x, lanes t n x -> run c m f [vec t x] = Returns m (Some (vec t (rev_groups g n x)))).
  { unfold vrev_tables in H. rewrite !in_app_iff in H. destruct H as [H|[H|H]].
    - exists 2%nat. split; [lia|]. split; [|intros; now apply vrev16_exact].
      cbn [In vrev16_table] in H. each_entry H ltac:(first [exists 4%nat; reflexivity | exists 8%nat; reflexivity]).
    - exists (4 / nbytes t)%nat. split; [|split; [|intros; now apply vrev32_exact]];
      cbn [In vrev32_table] in H;
      each_entry H ltac:(first [cbn; lia | exists 2%nat; reflexivity | exists 4%nat; reflexivity | exists 1%nat; reflexivity]).
    - exists (8 / nbytes t)%nat. split; [|split; [|intros; now apply vrev64_exact]];
      cbn [In vrev64_table] in H;
      each_entry H ltac:(first [cbn; lia | exists 2%nat; reflexivity | exists 1%nat; reflexivity]). }
  destruct G as (g & Hg & E & R). exists (rev_groups g n a). split; [now apply R|].
  rewrite R by (now apply rev_groups_lanes). now rewrite rev_groups_twice by (trivial; apply Ha).
Qed.

(** ** Moves and casts *)

Lemma wrap_id t x : in_range t x -> wrap t x = x.
Proof. intros H. symmetry. apply wrap_spec. split; [exact H|]. exists 0. lia. Qed.

Lemma vmovl_types f t n : In (f, t, n) vmovl_table ->
  narrow (wide t) = t /\ forall x, in_range t x -> in_range (wide t) x.
Proof.
  intros H. cbn [In vmovl_table] in H.
  each_entry H ltac:(split; [reflexivity|]; unfold in_range; cbn [lo hi wide]; intros; lia).
Qed.

Lemma vmovn_vmovl fl fn t n c m a : In (fl, t, n) vmovl_table -> In (fn, wide t, n) vmovn_table -> lanes t n a ->
  exists w, run c m fl [vec t a] = Returns m (Some (vec (wide t) w))
         /\ run c m fn [vec (wide t) w] = Returns m (Some (vec t a)).
Proof.
  intros Hl Hn Ha. destruct (vmovl_types _ _ _ Hl) as [E R]. exists a.
  split; [eapply vmovl_exact; eassumption|].
  rewrite (vmovn_exact _ _ _ c m a Hn).
  - rewrite E. do 3 f_equal. rewrite <- (map_id a) at 2. apply map_ext_in. intros x Hx. apply wrap_id.
    eapply Forall_forall; [apply Ha|exact Hx].
  - destruct Ha as [L F]. split; [exact L|]. eapply Forall_impl; [|exact F]. exact R.
Qed.

Lemma reinterpret_round_trip f g t n t' n' c m a :
  In (f, t, n, t', n') vreinterpret_table -> In (g, t', n', t, n) vreinterpret_table -> lanes t n a ->
  exists r, run c m f [vec t a] = Returns m (Some (vec t' r)) /\ run c m g [vec t' r] = Returns m (Some (vec t a)).
Proof.
  intros Hf Hg Ha. destruct (reinterpret_bytes _ _ _ _ _ c m a Hf Ha) as (r & Hr & Lr & Br).
  destruct (reinterpret_bytes _ _ _ _ _ c m r Hg Lr) as (s & Hs & Ls & Bs).
  exists r. split; [exact Hr|]. rewrite Hs. do 3 f_equal. apply (vec_bytes_inj t n); trivial. congruence.
Qed.

(** ** Bits *)

Lemma width_pos t : 0 < width t. Proof. destruct t; reflexivity. Qed.
Lemma modulus_pow t : modulus t = 2 ^ width t. Proof. destruct t; reflexivity. Qed.

Lemma wrap_bit t z k : 0 <= k < width t -> Z.testbit (wrap t z) k = Z.testbit z k.
Proof.
  intros Hk. assert (E : exists q, wrap t z = z + q * 2 ^ width t) by (apply wrap_spec; reflexivity).
  destruct E as [q ->].
  rewrite <- (Z.mod_pow2_bits_low (z + q * 2 ^ width t) (width t) k) by lia.
  rewrite Z.mod_add by (apply Z.pow_nonzero; lia). now rewrite Z.mod_pow2_bits_low by lia.
Qed.

Lemma bits_eq t x y : in_range t x -> in_range t y ->
  (forall k, 0 <= k < width t -> Z.testbit x k = Z.testbit y k) -> x = y.
Proof.
  intros Hx Hy H.
  assert (E : x mod 2 ^ width t = y mod 2 ^ width t).
  { apply Z.bits_inj'. intros k Hk. destruct (Z.lt_ge_cases k (width t)) as [L|L].
    - rewrite !Z.mod_pow2_bits_low by lia. apply H. lia.
    - now rewrite !Z.mod_pow2_bits_high by (pose proof (width_pos t); lia). }
  rewrite <- (wrap_id t x Hx). symmetry. apply wrap_spec. split; [exact Hy|].
  pose proof (Z.div_mod x (2 ^ width t) ltac:(apply Z.pow_nonzero; pose proof (width_pos t); lia)).
  pose proof (Z.div_mod y (2 ^ width t) ltac:(apply Z.pow_nonzero; pose proof (width_pos t); lia)).
  exists (y / 2 ^ width t - x / 2 ^ width t). nia.
Qed.

Lemma wrap_range t z : in_range t (wrap t z).
Proof. now apply (wrap_spec t z). Qed.

Lemma int_of (T : list (func * sty * nat)) f t n :
  forallb (fun e => negb (is_float (snd (fst e)))) T = true -> In (f, t, n) T -> is_float t = false.
Proof. intros H Hi. rewrite forallb_forall in H. apply H in Hi. cbn in Hi. now apply negb_true_iff in Hi. Qed.

Lemma all3_map2 (P : Z -> Z -> Z -> Prop) (g : Z -> Z -> Z) a b : (forall x y, P x y (g x y)) -> all_lanes3 P a b (map2 g a b).
Proof. intros H i x y z Hx Hy Hz. rewrite (map2_nth g a b i x y Hx Hy) in Hz. injection Hz as <-. apply H. Qed.

Lemma vand_bits f t n c m a b : In (f, t, n) vand_table -> lanes t n a -> lanes t n b ->
  exists r, run c m f [vec t a; vec t b] = Returns m (Some (vec t r)) /\ lanes t n r /\ all_lanes3 (bits2 t andb) a b r.
Proof.
  intros H Ha Hb. exists (map2 Z.land a b). split; [eapply vand_exact; eassumption|]. split.
  - apply (bin_range t n Z.land); trivial. intros; apply land_range; trivial; apply (int_of vand_table f t n); trivial.
  - apply all3_map2. intros x y k Hk. apply Z.land_spec.
Qed.
Lemma vorr_bits f t n c m a b : In (f, t, n) vorr_table -> lanes t n a -> lanes t n b ->
  exists r, run c m f [vec t a; vec t b] = Returns m (Some (vec t r)) /\ lanes t n r /\ all_lanes3 (bits2 t orb) a b r.
Proof.
  intros H Ha Hb. exists (map2 Z.lor a b). split; [eapply vorr_exact; eassumption|]. split.
  - apply (bin_range t n Z.lor); trivial. intros; apply lor_range; trivial; apply (int_of vorr_table f t n); trivial.
  - apply all3_map2. intros x y k Hk. apply Z.lor_spec.
Qed.
Lemma veor_bits f t n c m a b : In (f, t, n) veor_table -> lanes t n a -> lanes t n b ->
  exists r, run c m f [vec t a; vec t b] = Returns m (Some (vec t r)) /\ lanes t n r /\ all_lanes3 (bits2 t xorb) a b r.
Proof.
  intros H Ha Hb. exists (map2 Z.lxor a b). split; [eapply veor_exact; eassumption|]. split.
  - apply (bin_range t n Z.lxor); trivial. intros; apply lxor_range; trivial; apply (int_of veor_table f t n); trivial.
  - apply all3_map2. intros x y k Hk. apply Z.lxor_spec.
Qed.
Lemma vmvn_bits f t n c m a : In (f, t, n) vmvn_table -> lanes t n a ->
  exists r, run c m f [vec t a] = Returns m (Some (vec t r)) /\ lanes t n r /\
    all_lanes (fun x z => forall k, 0 <= k < width t -> Z.testbit z k = negb (Z.testbit x k)) a r.
Proof.
  intros H Ha. exists (map (fun x => wrap t (Z.lnot x)) a). split; [eapply vmvn_exact; eassumption|]. split.
  - destruct Ha as [L F]. split; [now rewrite map_length|]. apply Forall_forall. intros z Hz.
    apply in_map_iff in Hz as (x & <- & _). apply wrap_range.
  - intros i x z Hx Hz k Hk. rewrite (map_nth_error _ _ _ Hx) in Hz. injection Hz as <-.
    rewrite wrap_bit by exact Hk. apply Z.lnot_spec. lia.
Qed.
