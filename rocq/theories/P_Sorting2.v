(** Sorting networks on vectors of floats without NaN and -0. *)
From Coq Require Import ZArith Arith String List Bool Lia Permutation Sorted Reals Lra FinFun.
From Flocq Require Import Core.
From Verif Require Import Types FloatBits FloatSpec FloatR Syntax Interp ProgRecip Library Spec Tables MetaSpec ExecLemmas Ew Client Transpose Pixels Sorting.
From Verif Require Import ProgMul P_Kernels P_Client P_Transpose P_Transpose2 P_Pixels P_Recps P_Qsub64 P_Contract2 P_Contract3 P_TestUtil P_Sorting.
From Verif Require P_Float.
Import ListNotations.
Open Scope Z_scope.

(** ** Exchanging two elements *)

Lemma swap_perm (l : list Z) i j : (i < List.length l)%nat -> (j < List.length l)%nat -> i <> j ->
  Permutation (put i (nth j l 0) (put j (nth i l 0) l)) l.
Proof.
  intros Hi Hj N. symmetry. apply (Permutation_nth _ _ 0). split; [now rewrite !put_length|].
  exists (fun q => if (q =? i)%nat then j else if (q =? j)%nat then i else q).
  split; [|split].
  - intros q Hq. destruct (q =? i)%nat; trivial. destruct (q =? j)%nat; trivial.
  - intros p q Hp Hq. destruct (Nat.eqb_spec p i), (Nat.eqb_spec p j), (Nat.eqb_spec q i), (Nat.eqb_spec q j); lia.
  - intros q Hq. rewrite !nth_put by (rewrite ?put_length; lia).
    destruct (q =? i)%nat; trivial. destruct (q =? j)%nat; trivial.
Qed.

Lemma same_put (l : list Z) : forall i, (i < List.length l)%nat -> put i (nth i l 0) l = l.
Proof. induction l as [|x l IH]; intros [|i] H; cbn in *; try lia; trivial. rewrite IH by lia. reflexivity. Qed.

Lemma put_put_same (l : list Z) i j : (i < List.length l)%nat -> (j < List.length l)%nat -> put i (nth i l 0) (put j (nth j l 0) l) = l.
Proof. intros Hi Hj. rewrite (same_put l j Hj). now apply same_put. Qed.

(** ** Any order *)

Section Order.
Context (mn mx : Z -> Z -> Z) (k : Z -> Z) (D : Z -> Prop).
Context (kmin : forall x y, D x -> D y -> k (mn x y) = Z.min (k x) (k y)) (kmax : forall x y, D x -> D y -> k (mx x y) = Z.max (k x) (k y)).
Context (both : forall x y, D x -> D y -> (mn x y = x /\ mx x y = y) \/ (mn x y = y /\ mx x y = x)).

Fixpoint by_order (net : network) (l : list Z) : list Z :=
  match net with
  | [] => l
  | (i, j) :: net' => by_order net' (put i (mn (nth i l 0) (nth j l 0)) (put j (mx (nth i l 0) (nth j l 0)) l))
  end.

Lemma by_order_step l i j : Forall D l -> (i < List.length l)%nat -> (j < List.length l)%nat -> i <> j ->
  let l' := put i (mn (nth i l 0) (nth j l 0)) (put j (mx (nth i l 0) (nth j l 0)) l) in Permutation l' l /\ Forall D l'.
Proof.
  intros F Hi Hj N l'. pose proof (nth_all D 0 l i F Hi) as Di. pose proof (nth_all D 0 l j F Hj) as Dj.
  assert (P : Permutation l' l).
  { unfold l'. destruct (both _ _ Di Dj) as [[-> ->]|[-> ->]]; [now rewrite put_put_same|now apply swap_perm]. }
  split; [exact P|]. exact (Permutation_Forall (Permutation_sym P) F).
Qed.

Lemma by_order_spec : forall net l, on_registers net (List.length l) -> Forall D l ->
  Permutation (by_order net l) l /\ map k (by_order net l) = on_numbers net (map k l).
Proof.
  induction net as [|[i j] net IH]; intros l W F; [split; reflexivity|]. cbn [by_order on_numbers].
  destruct (W i j (or_introl eq_refl)) as (Hi & Hj & N). destruct (by_order_step l i j F Hi Hj N) as [P F'].
  pose proof (nth_all D 0 l i F Hi) as Di. pose proof (nth_all D 0 l j F Hj) as Dj.
  cbv zeta in P, F'. set (l' := put i _ (put j _ l)) in *.
  assert (W' : on_registers net (List.length l')).
  { intros i' j' I. unfold l'. rewrite !put_length. apply W. now right. }
  destruct (IH l' W' F') as [P2 E2]. split.
  - exact (Permutation_trans P2 P).
  - rewrite E2. unfold l'. rewrite !map_put, kmin, kmax by assumption. now rewrite !(nth_map_in k 0 0) by assumption.
Qed.

Fixpoint rows_by (net : network) (rows : list (list Z)) : list (list Z) :=
  match net with
  | [] => rows
  | (i, j) :: net' => rows_by net' (put i (map2 mn (nth i rows []) (nth j rows [])) (put j (map2 mx (nth i rows []) (nth j rows [])) rows))
  end.

Context (t : sty) (n : nat).
Context (rmin : forall x y, in_range t x -> in_range t y -> in_range t (mn x y)) (rmax : forall x y, in_range t x -> in_range t y -> in_range t (mx x y)).

Lemma lanes_by (g : Z -> Z -> Z) a b : (forall x y, in_range t x -> in_range t y -> in_range t (g x y)) -> lanes t n a -> lanes t n b -> lanes t n (map2 g a b).
Proof.
  intros G [La Fa] [Lb Fb]. split; [rewrite map2_length; lia|]. clear - Fa Fb G. revert b Fb.
  induction Fa as [|x a Hx Fa IH]; intros b Fb; cbn [map2]; [constructor|]. destruct Fb as [|y b Hy Fb]; constructor; auto.
Qed.

Lemma rows_by_lanes : forall net rows, on_registers net (List.length rows) -> Forall (lanes t n) rows -> Forall (lanes t n) (rows_by net rows).
Proof.
  induction net as [|[i j] net IH]; intros rows W F; [exact F|]. cbn [rows_by]. destruct (W i j (or_introl eq_refl)) as (Hi & Hj & _).
  pose proof (nth_all _ [] _ i F Hi) as Ri. pose proof (nth_all _ [] _ j F Hj) as Rj. apply IH.
  - intros i' j' I. rewrite !put_length. apply W. now right.
  - repeat apply put_all; trivial; now apply lanes_by.
Qed.

Lemma rows_by_length : forall net rows, List.length (rows_by net rows) = List.length rows.
Proof. induction net as [|[i j] net IH]; intros rows; [reflexivity|]. cbn [rows_by]. now rewrite IH, !put_length. Qed.

Lemma column_rows_by q : (q < n)%nat -> forall net rows, on_registers net (List.length rows) -> Forall (lanes t n) rows ->
  column q (rows_by net rows) = by_order net (column q rows).
Proof.
  intros Hq. induction net as [|[i j] net IH]; intros rows W F; [reflexivity|]. cbn [rows_by by_order].
  destruct (W i j (or_introl eq_refl)) as (Hi & Hj & _).
  pose proof (nth_all _ [] _ i F Hi) as Ri. pose proof (nth_all _ [] _ j F Hj) as Rj.
  rewrite IH.
  - unfold column. rewrite !map_put. rewrite !(nth_map_in (fun r => nth q r 0) [] 0) by assumption.
    rewrite !P_Client.nth_map2; trivial; rewrite ?(proj1 Ri), ?(proj1 Rj); trivial.
  - intros i' j' I. rewrite !put_length. apply W. now right.
  - repeat apply put_all; trivial; now apply lanes_by.
Qed.

Lemma exchanges_by x c : (forall m a b next, lanes t n a -> lanes t n b ->
    execute c m (x (vec t a) (vec t b) next) = execute c m (next (vec t (map2 mn a b)) (vec t (map2 mx a b)))) ->
  forall net m rows next, on_registers net (List.length rows) -> Forall (lanes t n) rows ->
  execute c m (exchanges x net (map (vec t) rows) next) = execute c m (next (map (vec t) (rows_by net rows))).
Proof.
  intros X. induction net as [|[i j] net IH]; intros m rows next W F; [reflexivity|]. cbn [exchanges rows_by].
  destruct (W i j (or_introl eq_refl)) as (Hi & Hj & _).
  pose proof (nth_all _ [] _ i F Hi) as Ri. pose proof (nth_all _ [] _ j F Hj) as Rj.
  rewrite !item_vec by assumption. rewrite X by assumption. rewrite <- !map_put. apply IH.
  - intros i' j' I. rewrite !put_length. apply W. now right.
  - repeat apply put_all; trivial; now apply lanes_by.
Qed.
End Order.

(** ** Floats *)

Definition ordinary (x : Z) : Prop := in_range F32 x /\ ffin F32 x /\ x <> fzero F32 true.

Definition fkey (x : Z) : Z := Ztrunc (fval F32 x * bpow radix2 149).

Lemma fkey_val x : in_range F32 x -> ffin F32 x -> fval F32 x = (IZR (fkey x) * bpow radix2 (-149))%R.
Proof.
  intros Hx Fx. destruct (float_multiple x Hx Fx) as [i E]. unfold fkey. rewrite E at 2.
  rewrite Rmult_assoc, <- bpow_plus. change (bpow radix2 (-149 + 149)) with 1%R. rewrite Rmult_1_r, Ztrunc_IZR. exact E.
Qed.

Lemma fkey_lt x y : in_range F32 x -> ffin F32 x -> in_range F32 y -> ffin F32 y -> (fval F32 x < fval F32 y)%R <-> fkey x < fkey y.
Proof.
  intros Hx Fx Hy Fy. rewrite (fkey_val x), (fkey_val y) by assumption. pose proof (bpow_gt_0 radix2 (-149)) as P. split; intros H.
  - apply lt_IZR. nra.
  - apply IZR_lt in H. nra.
Qed.

Lemma sign_of_fval x : (0 < fval F32 x)%R -> sign_bit F32 x = false.
Proof.
  unfold fval. destruct (sign_bit F32 x); [|reflexivity]. set (m := if exp_field F32 x =? 0 then _ else _).
  set (e := if exp_field F32 x =? 0 then _ else _). intros H. exfalso.
  assert (0 <= IZR m)%R.
  { apply IZR_le. unfold m, frac_field. pose proof (Z.mod_pos_bound x (2 ^ (precision F32 - 1)) eq_refl). destruct (_ =? 0); [lia|].
    change (2 ^ (precision F32 - 1)) with 8388608 in *. lia. }
  pose proof (bpow_gt_0 radix2 e). nra.
Qed.
Lemma sign_of_fval_neg x : (fval F32 x < 0)%R -> sign_bit F32 x = true.
Proof.
  unfold fval. destruct (sign_bit F32 x); [reflexivity|]. set (m := if exp_field F32 x =? 0 then _ else _).
  set (e := if exp_field F32 x =? 0 then _ else _). intros H. exfalso.
  assert (0 <= IZR m)%R.
  { apply IZR_le. unfold m, frac_field. pose proof (Z.mod_pos_bound x (2 ^ (precision F32 - 1)) eq_refl). destruct (_ =? 0); [lia|].
    change (2 ^ (precision F32 - 1)) with 8388608 in *. lia. }
  pose proof (bpow_gt_0 radix2 e). nra.
Qed.

Lemma ordinary_zero x : ordinary x -> fval F32 x = 0%R -> x = fzero F32 false.
Proof.
  intros (Hx & Fx & N) E. destruct (sign_bit F32 x) eqn:S.
  - exfalso. apply N. destruct (fzero_class F32 true (or_introl eq_refl)) as [F0 V0].
    apply (fin_inj F32); trivial; [now left|split; discriminate|congruence].
  - destruct (fzero_class F32 false (or_introl eq_refl)) as [F0 V0].
    apply (fin_inj F32); trivial; [now left|split; discriminate|congruence].
Qed.

Lemma fkey_inj x y : ordinary x -> ordinary y -> fkey x = fkey y -> x = y.
Proof.
  intros Ox Oy E. pose proof Ox as (Hx & Fx & _). pose proof Oy as (Hy & Fy & _).
  assert (V : fval F32 x = fval F32 y) by (now rewrite (fkey_val x), (fkey_val y), E).
  destruct (Rtotal_order (fval F32 x) 0) as [L|[L|L]].
  - apply (fin_inj F32); trivial; [now left|]. rewrite !sign_of_fval_neg; [reflexivity|now rewrite <- V|exact L].
  - rewrite (ordinary_zero x Ox L). symmetry. apply (ordinary_zero y Oy). congruence.
  - apply (fin_inj F32); trivial; [now left|]. rewrite !sign_of_fval; [reflexivity|now rewrite <- V|exact L].
Qed.

Lemma fmin_fmax x y : ordinary x -> ordinary y ->
  (fkey x <= fkey y /\ P_Float.fmin2 x y = x /\ P_Float.fmax2 x y = y) \/ (fkey y <= fkey x /\ P_Float.fmin2 x y = y /\ P_Float.fmax2 x y = x).
Proof.
  intros Ox Oy. pose proof Ox as (Hx & Fx & _). pose proof Oy as (Hy & Fy & _).
  destruct (P_Float.fmin2_spec x y Hx Hy) as [m1 m2]. destruct (P_Float.fmax2_spec x y Hx Hy) as [M1 M2].
  pose proof (flt_fin F32 x y (or_introl eq_refl) Fx Fy) as Lxy. pose proof (flt_fin F32 y x (or_introl eq_refl) Fy Fx) as Lyx.
  rewrite fkey_lt in Lxy, Lyx by assumption.
  destruct (Z.lt_trichotomy (fkey x) (fkey y)) as [L|[L|L]].
  - left. split; [lia|]. split; [apply m1; tauto|]. apply M2. rewrite Lyx. lia.
  - assert (x = y) as <- by (now apply fkey_inj). left. split; [lia|]. split; [apply m2|apply M2]; rewrite ?Lxy; lia.
  - right. split; [lia|]. split; [|apply M1; tauto]. apply m2. rewrite Lxy. lia.
Qed.

Lemma float_exchange c m a b next : lanes F32 4 a -> lanes F32 4 b ->
  execute c m (min_max vminq_f32 vmaxq_f32 (vec F32 a) (vec F32 b) next)
  = execute c m (next (vec F32 (map2 P_Float.fmin2 a b)) (vec F32 (map2 P_Float.fmax2 a b))).
Proof.
  intros Ha Hb. unfold min_max. rewrite (call_one _ _ _ _ _ _ (P_Float.vminq_f32_run c m a b Ha Hb)).
  rewrite (call_one _ _ _ _ _ _ (P_Float.vmaxq_f32_run c m a b Ha Hb)). reflexivity.
Qed.

Lemma sorted_map_le (P : Z -> Prop) : forall l, Forall P l -> (forall x, P x -> in_range F32 x /\ ffin F32 x) -> StronglySorted Z.le (map fkey l) ->
  Sorted (fun x y => (fval F32 x <= fval F32 y)%R) l.
Proof.
  intros l F HP H. apply StronglySorted_Sorted. revert F H. induction l as [|x l IH]; intros F H; [constructor|].
  inversion F as [|? ? Hx Fl]; subst. inversion H as [|? ? Hs Hf]; subst. constructor; [now apply IH|].
  apply Forall_forall. intros y Hy. pose proof (proj1 (Forall_forall _ _) Fl y Hy) as Py.
  pose proof (proj1 (Forall_forall _ _) Hf (fkey y) (in_map fkey l y Hy)) as L. cbn beta in L.
  destruct (HP x Hx) as [Rx Fx]. destruct (HP y Py) as [Ry Fy]. apply Rnot_lt_le. intros K. apply (fkey_lt y x) in K; trivial. lia.
Qed.

Lemma float_sort_run c m rows next : Forall (lanes F32 4) rows -> Forall (Forall ordinary) rows ->
  exists rows', execute c m (exchanges (min_max vminq_f32 vmaxq_f32) (sort_net (List.length rows)) (map (vec F32) rows) next)
      = execute c m (next (map (vec F32) rows')) /\
    List.length rows' = List.length rows /\ Forall (lanes F32 4) rows' /\
    forall q, (q < 4)%nat -> Sorted (fun x y => (fval F32 x <= fval F32 y)%R) (column q rows') /\ Permutation (column q rows') (column q rows).
Proof.
  intros F O. pose proof (sort_registers (List.length rows)) as W.
  exists (rows_by P_Float.fmin2 P_Float.fmax2 (sort_net (List.length rows)) rows). split; [|split; [|split]].
  - apply (exchanges_by P_Float.fmin2 P_Float.fmax2 F32 4); trivial; [apply P_Float.fmin2_range|apply P_Float.fmax2_range|].
    intros; now apply float_exchange.
  - apply rows_by_length.
  - apply rows_by_lanes; trivial; [apply P_Float.fmin2_range|apply P_Float.fmax2_range].
  - intros q Hq. rewrite (column_rows_by P_Float.fmin2 P_Float.fmax2 F32 4); trivial; [|apply P_Float.fmin2_range|apply P_Float.fmax2_range].
    assert (Oc : Forall ordinary (column q rows)).
    { apply Forall_forall. intros z Hz. apply in_map_iff in Hz as (r & <- & Hr).
      apply nth_all; [exact (proj1 (Forall_forall _ _) O r Hr)|]. now rewrite (proj1 (proj1 (Forall_forall _ _) F r Hr)). }
    destruct (by_order_spec P_Float.fmin2 P_Float.fmax2 fkey ordinary) with (net := sort_net (List.length rows)) (l := column q rows) as [P E]; trivial.
    + intros x y Ox Oy. destruct (fmin_fmax x y Ox Oy) as [(L & -> & _)|(L & -> & _)]; lia.
    + intros x y Ox Oy. destruct (fmin_fmax x y Ox Oy) as [(L & _ & ->)|(L & _ & ->)]; lia.
    + intros x y Ox Oy. destruct (fmin_fmax x y Ox Oy) as [(L & -> & ->)|(L & -> & ->)]; auto.
    + unfold column. now rewrite map_length.
    + split; [|exact P]. apply (sorted_map_le ordinary).
      * exact (Permutation_Forall (Permutation_sym P) Oc).
      * intros x (A & B & _). now split.
      * rewrite E. replace (List.length rows) with (List.length (map fkey (column q rows))) by (unfold column; now rewrite !map_length).
        rewrite sort_numbers. apply isort_strong.
Qed.

(** With a NaN one of the two vectors is lost. *)
Lemma float_nan_lost c m a b next : lanes F32 4 a -> lanes F32 4 b -> Forall (fnan F32) a ->
  execute c m (min_max vminq_f32 vmaxq_f32 (vec F32 a) (vec F32 b) next) = execute c m (next (vec F32 b) (vec F32 b)).
Proof.
  intros Ha Hb N. rewrite float_exchange by assumption.
  assert (E : map2 P_Float.fmin2 a b = b /\ map2 P_Float.fmax2 a b = b).
  { destruct Ha as [La Fa], Hb as [Lb Fb]. rewrite <- Lb in La. clear Lb. revert b La Fb. induction N as [|x a Nx N IH]; intros [|y b] La Fb;
      try discriminate; [split; reflexivity|]. inversion Fa as [|? ? Hx Fa']; subst. inversion Fb as [|? ? Hy Fb']; subst.
    destruct (IH Fa' b ltac:(now injection La) Fb') as [E1 E2]. cbn [map2]. rewrite E1, E2.
    destruct (P_Float.fmin2_spec x y Hx Hy) as [_ m2]. destruct (P_Float.fmax2_spec x y Hx Hy) as [_ M2].
    rewrite m2, M2; [split; reflexivity| |]; [apply flt_nan_r|apply flt_nan_l]; trivial; now left. }
  destruct E as [-> ->]. reflexivity.
Qed.
