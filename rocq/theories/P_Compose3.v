(** Interleaving accesses as two contiguous ones and a permutation; the unsigned maxima and minima. *)
From Coq Require Import ZArith String List Bool Lia.
From Verif Require Import Types FloatBits Syntax Interp ProgRecip ExecLemmas Lane Spec Ew Sym Tables Compose.
From Verif Require Import ProgAdd ProgSub ProgMul ProgBit ProgShift ProgPerm ProgRev ProgLoad ProgStore.
From Verif Require Import P_Mul P_Perm P_Mem P_Compose P_Compose2.
Import ListNotations.
Open Scope Z_scope.

Lemma heap_split m1 t pre l r post m2 : heap m1 t pre (l ++ r) post m2 = heap m1 t (pre ++ l) r post m2.
Proof. unfold heap. now rewrite <- !app_assoc. Qed.

Lemma heap_first m1 t pre l r post m2 : heap m1 t pre (l ++ r) post m2 = heap m1 t pre l (r ++ post) m2.
Proof. unfold heap. now rewrite <- !app_assoc. Qed.

Lemma split_lanes t n l : lanes t (2 * n) l -> lanes t n (firstn n l) /\ lanes t n (skipn n l).
Proof.
  intros [L F]. rewrite <- (firstn_skipn n l) in F. apply Forall_app in F as [F1 F2].
  split; split; trivial; [rewrite firstn_length|rewrite skipn_length]; lia.
Qed.

Lemma uzp_interleave l : List.length l = 16%nat -> interleave 8 [uzp 0 8 (firstn 8 l) (skipn 8 l); uzp 1 8 (firstn 8 l) (skipn 8 l)] = l.
Proof. intros L. do 16 (destruct l as [|? l]; [discriminate|]). destruct l; [reflexivity|discriminate]. Qed.

Lemma zip_interleave a b : List.length a = 8%nat -> List.length b = 8%nat -> interleave 8 [a; b] = firstn 8 (zip a b) ++ skipn 8 (zip a b).
Proof.
  intros La Lb. do 8 (destruct a as [|? a]; [discriminate|]). destruct a; [|discriminate].
  do 8 (destruct b as [|? b]; [discriminate|]). destruct b; [|discriminate]. reflexivity.
Qed.

Lemma uzp_lanes t l k : (k < 2)%nat -> lanes t 16 l -> lanes t 8 (uzp k 8 (firstn 8 l) (skipn 8 l)).
Proof.
  intros Hk [L F]. do 16 (destruct l as [|? l]; [discriminate|]). destruct l; [|discriminate].
  repeat match goal with F : Forall _ (_ :: _) |- _ => inversion F; clear F; subst end.
  destruct k as [|[|]]; [| |lia]; (split; [reflexivity|]); cbn; repeat (apply Forall_cons; [assumption|]); apply Forall_nil.
Qed.

Lemma zip_halves_lanes t a b : lanes t 8 a -> lanes t 8 b -> lanes t 8 (firstn 8 (zip a b)) /\ lanes t 8 (skipn 8 (zip a b)).
Proof.
  intros [La Fa] [Lb Fb]. do 8 (destruct a as [|? a]; [discriminate|]). destruct a; [|discriminate].
  do 8 (destruct b as [|? b]; [discriminate|]). destruct b; [|discriminate].
  repeat match goal with F : Forall _ (_ :: _) |- _ => inversion F; clear F; subst end.
  split; (split; [reflexivity|]); cbn; repeat (apply Forall_cons; [assumption|]); apply Forall_nil.
Qed.

Lemma vld2_compose f g h t n c m1 m2 pre post l : In (f, t, n) vld2_table -> In (g, t, n) vld1_table -> In (h, t, n) vuzp_table ->
  lanes t (2 * n) l ->
  let M := heap m1 t pre (map Some l) post m2 in
  run c M f [pointer m1 t pre]
  = and_then (run c M g [pointer m1 t pre]) (fun a =>
    and_then (run c M g [pointer m1 t (pre ++ map Some (firstn n l))]) (fun b => run c M h [a; b])).
Proof.
  intros Hf Hg Hh Hl M. assert (n = 8%nat) as -> by (destruct Hh as [Hh|[Hh|[]]]; congruence).
  destruct (split_lanes t 8 l Hl) as [H1 H2]. change (2 * 8)%nat with 16%nat in Hl.
  assert (E1 : M = heap m1 t pre (map Some (firstn 8 l)) (map Some (skipn 8 l) ++ post) m2).
  { unfold M. rewrite <- heap_first, <- map_app. now rewrite firstn_skipn. }
  assert (E2 : M = heap m1 t (pre ++ map Some (firstn 8 l)) (map Some (skipn 8 l)) post m2).
  { unfold M. rewrite <- heap_split, <- map_app. now rewrite firstn_skipn. }
  rewrite E1 at 2. rewrite (vld1_exact g t 8) by assumption. rewrite <- E1. cbn [and_then].
  rewrite E2 at 2. rewrite (vld1_exact g t 8) by assumption. rewrite <- E2. cbn [and_then].
  rewrite (vuzp_exact h t 8) by assumption.
  pose proof (uzp_interleave l (proj1 Hl)) as I.
  assert (E3 : M = heap m1 t pre (map Some (interleave 8 [uzp 0 8 (firstn 8 l) (skipn 8 l); uzp 1 8 (firstn 8 l) (skipn 8 l)])) post m2).
  { unfold M. now rewrite I. }
  rewrite E3 at 1. rewrite (vld2_exact f t 8); trivial; [now rewrite <- E3|].
  split; [reflexivity|]. constructor; [apply uzp_lanes; trivial; lia|]. constructor; [apply uzp_lanes; trivial; lia|constructor].
Qed.

Lemma vst2_compose f g h t n c m1 m2 pre post old a b : In (f, t, n) vst2_table -> In (g, t, n) vst1_table -> In (h, t, n) vzip_table -> n = 8%nat ->
  lanes t n a -> lanes t n b -> List.length old = (2 * n)%nat ->
  let M := heap m1 t pre old post m2 in
  exists p q M' M'', run c M h [vec t a; vec t b] = Returns M (Some (vecs t [p; q])) /\ lanes t n p /\ lanes t n q
    /\ run c M g [pointer m1 t pre; vec t p] = Returns M' None
    /\ run c M' g [pointer m1 t (pre ++ map Some p); vec t q] = Returns M'' None
    /\ run c M f [pointer m1 t pre; vecs t [a; b]] = Returns M'' None.
Proof.
  intros Hf Hg Hh -> Ha Hb Lo M. destruct (zip_halves_lanes t a b Ha Hb) as [Hp Hq].
  exists (firstn 8 (zip a b)), (skipn 8 (zip a b)).
  exists (heap m1 t pre (map Some (firstn 8 (zip a b))) (skipn 8 old ++ post) m2).
  exists (heap m1 t (pre ++ map Some (firstn 8 (zip a b))) (map Some (skipn 8 (zip a b))) post m2).
  split; [now apply (vzip_exact h t 8)|]. split; [exact Hp|]. split; [exact Hq|]. split; [|split].
  - unfold M. rewrite <- (firstn_skipn 8 old) at 1. rewrite heap_first. apply (vst1_exact g t 8); trivial. rewrite firstn_length. lia.
  - rewrite <- heap_first, heap_split. apply (vst1_exact g t 8); trivial. rewrite skipn_length. lia.
  - rewrite <- heap_split, <- map_app. rewrite <- zip_interleave by (apply Ha || apply Hb).
    apply (vst2_exact f t 8); trivial. split; [reflexivity|]. constructor; [exact Ha|]. constructor; [exact Hb|constructor].
Qed.

(** ** vmaxq_uN, vminq_uN compare as signed numbers *)

Ltac pows := change (2 ^ (width I8 - 1)) with 128 in *; change (2 ^ width I8) with 256 in *;
  change (2 ^ (width I16 - 1)) with 32768 in *; change (2 ^ width I16) with 65536 in *;
  change (2 ^ (width I32 - 1)) with 2147483648 in *; change (2 ^ width I32) with 4294967296 in *; cbn [lo hi unsigned_of] in *.

Lemma signed_of_unsigned t x : In t [I8; I16; I32] -> in_range (unsigned_of t) x ->
  wrap t x = if x <? 2 ^ (width t - 1) then x else x - 2 ^ width t.
Proof.
  intros Ht Hx. unfold in_range in Hx. destruct (Z.ltb_spec x (2 ^ (width t - 1))).
  - apply wrap_id. unfold in_range. destruct Ht as [ <- |[ <- |[ <- |[]]]]; pows; lia.
  - symmetry. apply wrap_unique; [|exists (-1); unfold modulus; destruct Ht as [ <- |[ <- |[ <- |[]]]]; pows; cbn [width] in *; lia]. unfold in_range. destruct Ht as [ <- |[ <- |[ <- |[]]]]; pows; lia.
Qed.

Lemma map2_maps' (g : Z -> Z -> Z) (h : Z -> Z) : forall a b, map2 g (map h a) (map h b) = map2 (fun x y => g (h x) (h y)) a b.
Proof. induction a as [|x a IH]; intros [|y b]; cbn; trivial. now rewrite IH. Qed.

Lemma wrap_lanes t u n a : lanes u n a -> lanes t n (map (wrap t) a).
Proof. intros [L _]. split; [now rewrite map_length|]. apply Forall_map, Forall_forall. intros. apply wrap_range. Qed.

Lemma vmax_u_exact f t n c m a b : In (f, t, n) vmax_u_table -> lanes (unsigned_of t) n a -> lanes (unsigned_of t) n b ->
  run c m f [vec t (map (wrap t) a); vec t (map (wrap t) b)]
  = Returns m (Some (vec t (map (wrap t) (map2 (fun x y => if same_half t x y then Z.max x y else Z.min x y) a b)))).
Proof.
  intros H Ha Hb. assert (Ht : In t [I8; I16; I32]) by (destruct H as [H|[H|[H|[]]]]; injection H as <- <- <-; cbn; tauto).
  rewrite (vmax_exact f t n); [|apply in_or_app; now right|exact (wrap_lanes _ _ _ _ Ha)|exact (wrap_lanes _ _ _ _ Hb)].
  rewrite map2_maps', map_map2. do 3 f_equal. apply (map2_same _ _ (unsigned_of t) n); trivial. intros x y Hx Hy.
  unfold same_half. rewrite (signed_of_unsigned t x), (signed_of_unsigned t y) by assumption.
  pose proof Hx as Hx'. pose proof Hy as Hy'. unfold in_range in Hx', Hy'.
  destruct (Z.ltb_spec x (2 ^ (width t - 1))), (Z.ltb_spec y (2 ^ (width t - 1))); cbn [Bool.eqb].
  - destruct (Z.le_ge_cases x y); [rewrite !Z.max_r by lia|rewrite !Z.max_l by lia]; rewrite signed_of_unsigned by assumption;
      match goal with |- _ = if ?e then _ else _ => destruct e eqn:E; [reflexivity|apply Z.ltb_ge in E; lia] end.
  - assert (2 ^ width t = 2 * 2 ^ (width t - 1)) by (destruct Ht as [ <- |[ <- |[ <- |[]]]]; reflexivity).
    rewrite Z.max_l by (destruct Ht as [ <- |[ <- |[ <- |[]]]]; pows; lia). rewrite Z.min_l by lia. rewrite signed_of_unsigned by assumption.
    destruct (Z.ltb_spec x (2 ^ (width t - 1))); lia.
  - rewrite Z.max_r by (destruct Ht as [ <- |[ <- |[ <- |[]]]]; pows; lia). rewrite Z.min_r by lia. rewrite signed_of_unsigned by assumption.
    destruct (Z.ltb_spec y (2 ^ (width t - 1))); lia.
  - destruct (Z.le_ge_cases x y); [rewrite !Z.max_r by lia|rewrite !Z.max_l by lia]; rewrite signed_of_unsigned by assumption;
      match goal with |- _ = if ?e then _ else _ => destruct e eqn:E; [apply Z.ltb_lt in E; lia|reflexivity] end.
Qed.

Lemma vmin_u_exact f t n c m a b : In (f, t, n) vmin_u_table -> lanes (unsigned_of t) n a -> lanes (unsigned_of t) n b ->
  run c m f [vec t (map (wrap t) a); vec t (map (wrap t) b)]
  = Returns m (Some (vec t (map (wrap t) (map2 (fun x y => if same_half t x y then Z.min x y else Z.max x y) a b)))).
Proof.
  intros H Ha Hb. assert (Ht : In t [I8; I16; I32]) by (destruct H as [H|[H|[H|[]]]]; injection H as <- <- <-; cbn; tauto).
  rewrite (vmin_exact f t n); [|apply in_or_app; now right|exact (wrap_lanes _ _ _ _ Ha)|exact (wrap_lanes _ _ _ _ Hb)].
  rewrite map2_maps', map_map2. do 3 f_equal. apply (map2_same _ _ (unsigned_of t) n); trivial. intros x y Hx Hy.
  unfold same_half. rewrite (signed_of_unsigned t x), (signed_of_unsigned t y) by assumption.
  pose proof Hx as Hx'. pose proof Hy as Hy'. unfold in_range in Hx', Hy'.
  destruct (Z.ltb_spec x (2 ^ (width t - 1))), (Z.ltb_spec y (2 ^ (width t - 1))); cbn [Bool.eqb].
  - destruct (Z.le_ge_cases x y); [rewrite !Z.min_l by lia|rewrite !Z.min_r by lia]; rewrite signed_of_unsigned by assumption;
      match goal with |- _ = if ?e then _ else _ => destruct e eqn:E; [reflexivity|apply Z.ltb_ge in E; lia] end.
  - rewrite Z.min_r by (destruct Ht as [ <- |[ <- |[ <- |[]]]]; pows; lia). rewrite Z.max_r by lia. rewrite signed_of_unsigned by assumption.
    destruct (Z.ltb_spec y (2 ^ (width t - 1))); lia.
  - rewrite Z.min_l by (destruct Ht as [ <- |[ <- |[ <- |[]]]]; pows; lia). rewrite Z.max_l by lia. rewrite signed_of_unsigned by assumption.
    destruct (Z.ltb_spec x (2 ^ (width t - 1))); lia.
  - destruct (Z.le_ge_cases x y); [rewrite !Z.min_l by lia|rewrite !Z.min_r by lia]; rewrite signed_of_unsigned by assumption;
      match goal with |- _ = if ?e then _ else _ => destruct e eqn:E; [apply Z.ltb_lt in E; lia|reflexivity] end.
Qed.

Lemma map2_combine (g h : Z -> Z -> Z) : forall a b, (forall x y, In (x, y) (combine a b) -> g x y = h x y) -> map2 g a b = map2 h a b.
Proof. induction a as [|x a IH]; intros [|y b] H; cbn; trivial. rewrite (H x y) by (now left). f_equal. apply IH. intros. apply H. now right. Qed.

Lemma vmax_u_same f t n : In (f, t, n) vmax_u_table -> forall c m a b,
  lanes (unsigned_of t) n a -> lanes (unsigned_of t) n b -> (forall x y, In (x, y) (combine a b) -> same_half t x y = true) ->
  run c m f [vec t (map (wrap t) a); vec t (map (wrap t) b)] = Returns m (Some (vec t (map (wrap t) (map2 Z.max a b)))).
Proof.
  intros H c m a b Ha Hb S. rewrite (vmax_u_exact f t n) by assumption. do 4 f_equal. apply map2_combine. intros x y K. now rewrite S.
Qed.

Lemma vmin_u_same f t n : In (f, t, n) vmin_u_table -> forall c m a b,
  lanes (unsigned_of t) n a -> lanes (unsigned_of t) n b -> (forall x y, In (x, y) (combine a b) -> same_half t x y = true) ->
  run c m f [vec t (map (wrap t) a); vec t (map (wrap t) b)] = Returns m (Some (vec t (map (wrap t) (map2 Z.min a b)))).
Proof.
  intros H c m a b Ha Hb S. rewrite (vmin_u_exact f t n) by assumption. do 4 f_equal. apply map2_combine. intros x y K. now rewrite S.
Qed.
