(** Lane-wise integer addition and subtraction: C12, C13, C14. *)
From Coq Require Import ZArith String List Bool Lia.
From Verif Require Import Types FloatBits Syntax Interp ProgRecip ExecLemmas Lane Spec Ew Sym Tables.
From Verif Require Import ProgAdd ProgSub.
Import ListNotations.
Open Scope Z_scope.

(** The result of [z] computed in C++ on operands of type [t] and stored in a
    [t]: types narrower than int are computed in int and reduced. *)
Definition cpp_result (c : cfg) (t : sty) (z : Z) : res Z :=
  if width t <? 32 then Ok (wrap t z) else arith c t z.

Lemma cpp_result_modular c t z : modular c t \/ in_range t z -> cpp_result c t z = Ok (wrap t z).
Proof.
  unfold cpp_result. intros H. destruct (Z.ltb_spec (width t) 32); [reflexivity|].
  destruct H as [[H|[H|H]]|H]; [now apply arith_wrapv|now apply arith_unsigned|lia|].
  rewrite arith_ok by exact H. now rewrite wrap_id.
Qed.

Lemma cpp_result_ub c t z : wrapv c = false -> is_signed t = true -> 32 <= width t -> ~ in_range t z ->
  cpp_result c t z = Err (EUB SignedOverflow).
Proof.
  intros. unfold cpp_result. destruct (Z.ltb_spec (width t) 32); [lia|]. now apply arith_ub.
Qed.

Lemma cpp_result_either c t z : (exists r, cpp_result c t z = Ok r) \/ cpp_result c t z = Err (EUB SignedOverflow).
Proof.
  unfold cpp_result, arith. destruct (width t <? 32), (is_signed t), (in_rangeb t z), (wrapv c); eauto.
Qed.

Lemma vadd_run f t n c m a b : In (f, t, n) vadd_table -> lanes t n a -> lanes t n b ->
  run c m f [vec t a; vec t b] = vec_outcome m t (mapM2 (fun x y => cpp_result c t (x + y)) a b).
Proof.
  intros H Ha Hb. cbn [In vadd_table] in H.
  each_entry H ltac:(entry2 x y Hx Hy; sx; arith_cases).
Qed.

Lemma vsub_run f t n c m a b : In (f, t, n) vsub_table -> lanes t n a -> lanes t n b ->
  run c m f [vec t a; vec t b] = vec_outcome m t (mapM2 (fun x y => cpp_result c t (x - y)) a b).
Proof.
  intros H Ha Hb. cbn [In vsub_table] in H.
  each_entry H ltac:(entry2 x y Hx Hy; sx; arith_cases).
Qed.

(** From the exact outcome to the two readings. *)
Lemma cpp2_ok (op : Z -> Z -> Z) c m t a b :
  modular c t \/ all_lanes (fun x y => in_range t (op x y)) a b ->
  vec_outcome m t (mapM2 (fun x y => cpp_result c t (op x y)) a b)
  = Returns m (Some (vec t (map2 (fun x y => wrap t (op x y)) a b))).
Proof.
  intros H. rewrite (mapM2_ok _ (fun x y => wrap t (op x y))); [reflexivity|].
  intros i x y Hx Hy. apply cpp_result_modular. destruct H as [H|H]; [now left|right; eauto].
Qed.

Lemma cpp2_ub (op : Z -> Z -> Z) c m t a b :
  wrapv c = false -> is_signed t = true -> 32 <= width t ->
  some_lane (fun x y => ~ in_range t (op x y)) a b ->
  vec_outcome m t (mapM2 (fun x y => cpp_result c t (op x y)) a b) = Undefined SignedOverflow.
Proof.
  intros Hc Hs Hw (i & x & y & Hx & Hy & Ho).
  rewrite (mapM2_err _ (EUB SignedOverflow)); [reflexivity| |].
  - intros j x' y' _ _. apply cpp_result_either.
  - exists i, x, y. repeat split; trivial. now apply cpp_result_ub.
Qed.

Lemma vadd_wraps f t n : In (f, t, n) vadd_table -> forall c m a b, lanes t n a -> lanes t n b ->
  modular c t \/ all_lanes (fun x y => in_range t (x + y)) a b ->
  run c m f [vec t a; vec t b] = Returns m (Some (vec t (map2 (fun x y => wrap t (x + y)) a b))).
Proof.
  intros H c m a b Ha Hb Hs. rewrite (vadd_run f t n) by assumption. now apply (cpp2_ok Z.add).
Qed.

Lemma vadd_overflow f t n : In (f, t, n) vadd_table -> forall c m a b, lanes t n a -> lanes t n b ->
  wrapv c = false -> is_signed t = true -> 32 <= width t ->
  some_lane (fun x y => ~ in_range t (x + y)) a b ->
  run c m f [vec t a; vec t b] = Undefined SignedOverflow.
Proof.
  intros H c m a b Ha Hb Hc Hs Hw Ho. rewrite (vadd_run f t n) by assumption. now apply (cpp2_ub Z.add).
Qed.

Lemma vsub_wraps f t n : In (f, t, n) vsub_table -> forall c m a b, lanes t n a -> lanes t n b ->
  modular c t \/ all_lanes (fun x y => in_range t (x - y)) a b ->
  run c m f [vec t a; vec t b] = Returns m (Some (vec t (map2 (fun x y => wrap t (x - y)) a b))).
Proof.
  intros H c m a b Ha Hb Hs. rewrite (vsub_run f t n) by assumption. now apply (cpp2_ok Z.sub).
Qed.

Lemma vsub_overflow f t n : In (f, t, n) vsub_table -> forall c m a b, lanes t n a -> lanes t n b ->
  wrapv c = false -> is_signed t = true -> 32 <= width t ->
  some_lane (fun x y => ~ in_range t (x - y)) a b ->
  run c m f [vec t a; vec t b] = Undefined SignedOverflow.
Proof.
  intros H c m a b Ha Hb Hc Hs Hw Ho. rewrite (vsub_run f t n) by assumption. now apply (cpp2_ub Z.sub).
Qed.

(** ** Laws *)

Lemma lanes_map2 t n (g : Z -> Z -> Z) a b : List.length a = n -> List.length b = n ->
  (forall x y, in_range t (g x y)) -> lanes t n (map2 g a b).
Proof.
  intros La Lb H. split; [rewrite map2_length; lia|].
  apply Forall_forall. intros z Hz. clear La Lb.
  revert b Hz. induction a as [|x a IH]; intros [|y b] Hz; cbn in Hz; try easy.
  destruct Hz as [<-|Hz]; [apply H | eauto].
Qed.

Lemma map2_swap {C} (g h : Z -> Z -> C) a b : (forall x y, g x y = h y x) -> map2 g a b = map2 h b a.
Proof. intros H. revert b; induction a as [|x a IH]; intros [|y b]; cbn; trivial. now rewrite H, IH. Qed.

Lemma mapM2_swap {C} (g h : Z -> Z -> res C) a b : (forall x y, g x y = h y x) -> mapM2 g a b = mapM2 h b a.
Proof.
  intros H. unfold mapM2. revert b; induction a as [|x a IH]; intros [|y b]; cbn; trivial.
  rewrite H, IH. reflexivity.
Qed.

Lemma map2_assoc (g : Z -> Z -> Z) a b d : (forall x y z, g (g x y) z = g x (g y z)) ->
  map2 g (map2 g a b) d = map2 g a (map2 g b d).
Proof.
  intros H. revert b d; induction a as [|x a IH]; intros [|y b] [|z d]; cbn; trivial. now rewrite H, IH.
Qed.

Lemma vadd_comm f t n : In (f, t, n) vadd_table -> forall c m a b, lanes t n a -> lanes t n b ->
  run c m f [vec t a; vec t b] = run c m f [vec t b; vec t a].
Proof.
  intros H c m a b Ha Hb. rewrite !(vadd_run f t n) by assumption. f_equal.
  apply mapM2_swap. intros x y. now rewrite Z.add_comm.
Qed.

Lemma vadd_assoc f t n : In (f, t, n) vadd_table -> forall c m a b d,
  lanes t n a -> lanes t n b -> lanes t n d -> modular c t ->
  exists ab bd r, run c m f [vec t a; vec t b] = Returns m (Some (vec t ab))
    /\ run c m f [vec t b; vec t d] = Returns m (Some (vec t bd))
    /\ run c m f [vec t ab; vec t d] = Returns m (Some (vec t r))
    /\ run c m f [vec t a; vec t bd] = Returns m (Some (vec t r)).
Proof.
  intros H c m a b d Ha Hb Hd Hs.
  set (g := fun x y => wrap t (x + y)).
  assert (Hl : forall a b, lanes t n a -> lanes t n b -> lanes t n (map2 g a b)).
  { intros a' b' [? _] [? _]. apply lanes_map2; trivial. intros. apply wrap_range. }
  exists (map2 g a b), (map2 g b d), (map2 g a (map2 g b d)).
  rewrite !(vadd_wraps f t n H) by (auto using Hl). repeat split. fold g.
  rewrite map2_assoc; [reflexivity|].
  intros x y z. unfold g. rewrite wrap_add_l, wrap_add_r. f_equal. ring.
Qed.

Lemma map2_fst (g : Z -> Z -> Z) a b : List.length a = List.length b -> (forall x y, In x a -> g x y = x) -> map2 g a b = a.
Proof.
  revert b; induction a as [|x a IH]; intros [|y b] Hl H; cbn in *; try lia; trivial.
  rewrite H by (now left). rewrite IH; auto.
Qed.

Lemma map2_map2_r (g h : Z -> Z -> Z) a b : map2 h (map2 g a b) b = map2 (fun x y => h (g x y) y) a b.
Proof. revert b; induction a as [|x a IH]; intros [|y b]; cbn; trivial. now rewrite IH. Qed.

Lemma vsub_vadd fa fs t n : In (fa, t, n) vadd_table -> In (fs, t, n) vsub_table -> forall c m a b,
  lanes t n a -> lanes t n b -> modular c t ->
  exists s, run c m fa [vec t a; vec t b] = Returns m (Some (vec t s))
         /\ run c m fs [vec t s; vec t b] = Returns m (Some (vec t a)).
Proof.
  intros H1 H2 c m a b Ha Hb Hs. exists (map2 (fun x y => wrap t (x + y)) a b).
  assert (Hl : lanes t n (map2 (fun x y => wrap t (x + y)) a b)).
  { destruct Ha, Hb. apply lanes_map2; trivial. intros. apply wrap_range. }
  split; [apply (vadd_wraps fa t n); trivial; now left|].
  rewrite (vsub_wraps fs t n H2) by (trivial; now left). rewrite map2_map2_r, map2_fst; [reflexivity| |].
  - destruct Ha, Hb. congruence.
  - intros x y Hx. rewrite wrap_sub_l. replace (x + y - y) with x by ring. apply wrap_id.
    destruct Ha as [_ Ha]. rewrite Forall_forall in Ha. auto.
Qed.

Lemma vsub_self f t n : In (f, t, n) vsub_table -> forall c m a, lanes t n a ->
  run c m f [vec t a; vec t a] = Returns m (Some (vec t (repeat 0 n))).
Proof.
  intros H c m a Ha.
  assert (Hint : is_float t = false) by (cbn in H; each_entry H reflexivity).
  rewrite (vsub_wraps f t n H); trivial.
  2: { right. intros i x y Hx Hy. assert (x = y) by congruence. subst y. rewrite Z.sub_diag.
       unfold in_range. destruct t; cbn; lia. }
  do 3 f_equal. destruct Ha as [La _]. subst n. clear H. induction a as [|x a IH]; [reflexivity|].
  cbn. rewrite IH, Z.sub_diag. f_equal. apply wrap_id. unfold in_range. destruct t; cbn; lia.
Qed.
