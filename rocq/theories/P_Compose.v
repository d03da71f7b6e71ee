(** Fused intrinsics and the compositions they stand for. *)
From Coq Require Import ZArith String List Bool Lia.
From Verif Require Import Types FloatBits Syntax Interp ProgRecip ExecLemmas Lane Spec Ew Sym Tables Compose.
From Verif Require Import ProgAdd ProgSub ProgMul ProgBit ProgShift ProgPerm ProgRev P_AddSub P_SubMore P_AddHigh P_Mul P_Laws2 P_Bool P_Bit P_Shift P_Perm P_Bsl P_Tbl.
Import ListNotations.
Open Scope Z_scope.

(** ** Monadic maps all of whose failures are the same *)

Definition either {A} (e : err) (r : res A) : Prop := (exists z, r = Ok z) \/ r = Err e.

Lemma mapM_either {A B} e (h : A -> res B) l : (forall x, In x l -> either e (h x)) -> either e (mapM h l).
Proof.
  induction l as [|x l IH]; intros H; [left; now exists []|]. cbn.
  destruct (H x (or_introl eq_refl)) as [[z ->]| ->]; [|now right]. cbn.
  destruct IH as [[zs ->]| ->]; [intros; apply H; now right|left; cbn; eauto|now right].
Qed.

Lemma mapM_length {A B} (h : A -> res B) l r : mapM h l = Ok r -> List.length r = List.length l.
Proof.
  revert r. induction l as [|x l IH]; intros r H; cbn in H; [now injection H as <-|].
  destruct (h x); cbn in H; try discriminate. destruct (mapM h l); cbn in H; try discriminate. injection H as <-. cbn. now rewrite IH.
Qed.

Lemma mapM3_split {A B C D E} e (g : B -> C -> res D) (h : A -> D -> res E) a b d :
  (forall y z, In (y, z) (combine b d) -> either e (g y z)) -> (forall x q, In x a -> either e (h x q)) ->
  List.length a = List.length b -> List.length b = List.length d ->
  mapM3 (fun x y z => let* q := g y z in h x q) a b d = (let* qs := mapM2 g b d in mapM2 h a qs).
Proof.
  unfold mapM3, mapM2. revert b d. induction a as [|x a IH]; intros [|y b] [|z d] G H L L'; try discriminate; [reflexivity|].
  cbn in L, L'. injection L as L. injection L' as L'. cbn [combine mapM fst snd].
  specialize (IH b d (fun y z K => G y z (or_intror K)) (fun x q K => H x q (or_intror K)) L L').
  assert (Gs : either e (mapM (fun p => g (fst p) (snd p)) (combine b d))).
  { apply mapM_either. intros [y' z'] K. apply G. now right. }
  destruct (G y z (or_introl eq_refl)) as [[q Eq]|Eq]; rewrite Eq; cbn.
  - rewrite IH. destruct Gs as [[qs Es]|Es]; rewrite Es; cbn.
    + reflexivity.
    + destruct (H x q (or_introl eq_refl)) as [[w Ew]|Ew]; rewrite Ew; reflexivity.
  - reflexivity.
Qed.

Lemma mapM2_ext {A B C} (g h : A -> B -> res C) a b : (forall x y, In (x, y) (combine a b) -> g x y = h x y) -> mapM2 g a b = mapM2 h a b.
Proof. intros H. unfold mapM2. apply Lane.mapM_ext. intros [x y] K. exact (H x y K). Qed.

Lemma mapM3_ext {A B C D} (g h : A -> B -> C -> res D) a b d :
  (forall x y z, In x a -> In y b -> In z d -> g x y z = h x y z) -> mapM3 g a b d = mapM3 h a b d.
Proof.
  intros H. unfold mapM3. apply Lane.mapM_ext. intros [x [y z]] K. cbn [fst snd].
  apply in_combine_r in K as K'. apply in_combine_l in K. apply H; [exact K|exact (in_combine_l _ _ _ _ K')|exact (in_combine_r _ _ _ _ K')].
Qed.

Lemma vec_outcome_then m t r k : (forall e, r = Err e -> vec_outcome m t r = outcome_of (Err e)) ->
  and_then (vec_outcome m t r) k = match r with Ok zs => k (vec t zs) | Err e => vec_outcome m t r end.
Proof. destruct r as [zs|e]; [reflexivity|]. intros _. unfold vec_outcome. cbn. destruct e; reflexivity. Qed.

Lemma then_vec m t r k : and_then (vec_outcome m t r) k = match r with Ok zs => k (vec t zs) | Err e => vec_outcome m t (Err e) end.
Proof. destruct r as [zs|e]; [reflexivity|]. unfold vec_outcome. cbn. destruct e; reflexivity. Qed.

Lemma lanes_in t n a x : lanes t n a -> In x a -> in_range t x.
Proof. intros [_ F]. apply (proj1 (Forall_forall _ _) F). Qed.

(** ** Multiply-accumulate *)

Lemma arith_either c t z : either (EUB SignedOverflow) (arith c t z).
Proof. unfold either, arith. destruct (is_signed t), (in_rangeb t z), (wrapv c); eauto. Qed.

Lemma mul_either c t u x y : either (EUB SignedOverflow) (mul_lane c t u x y).
Proof. unfold mul_lane. destruct (arith_either c (promote t) (x * y)) as [[z ->]| ->]; [left; cbn; eauto|now right]. Qed.

Lemma cpp_either c t z : either (EUB SignedOverflow) (cpp_result c t z).
Proof. destruct (cpp_result_either c t z) as [H|H]; [now left|now right]. Qed.

Definition combined (sub : bool) (x q : Z) : Z := if sub then x - q else x + q.

Lemma arith_range c t z q : arith c t z = Ok q -> in_range t q.
Proof.
  unfold arith. destruct (is_signed t) eqn:S.
  - destruct (in_rangeb t z) eqn:R; [intros K; injection K as <-; unfold in_rangeb in R; apply andb_true_iff in R as [R1 R2]; apply Z.leb_le in R1, R2; now split|].
    destruct (wrapv c); [intros K; injection K as <-; apply wrap_range|discriminate].
  - intros K. injection K as <-. apply wrap_range.
Qed.

Lemma mla_lane_split sub c t x y z : In t [I8; I16; I32; U8; U16; U32] -> in_range (wide t) x -> in_range t y -> in_range t z ->
  mla_lane sub c t (wide t) x y z = (let* q := mul_lane c t (wide t) y z in cpp_result c (wide t) (combined sub x q)).
Proof.
  intros Ht Hx Hy Hz. unfold mla_lane, mul_lane, cpp_result.
  destruct (arith c (promote t) (y * z)) as [q|e] eqn:Q; [|reflexivity]. cbn [bind].
  pose proof (arith_range _ _ _ _ Q) as Rq.
  assert (Hbig : forall u, promote u = u -> (let* s := arith c u (combined sub x (wrap u q)) in Ok (wrap u s)) = arith c u (combined sub x (wrap u q))).
  { intros u _. destruct (arith c u (combined sub x (wrap u q))) as [s|e] eqn:S; [|reflexivity]. cbn. now rewrite wrap_id by exact (arith_range _ _ _ _ S). }
  cbn [In] in Ht. decompose [or] Ht; try contradiction; subst t; cbn [wide promote] in *;
    match goal with |- context[width ?u <? 32] => let b := eval vm_compute in (width u <? 32) in change (width u <? 32) with b end; cbv iota.
  all: try (unfold combined in *; apply Hbig; reflexivity).
  all: assert (Q' : q = y * z) by (unfold arith in Q; cbn [is_signed] in Q;
         assert (Rz : in_rangeb I32 (y * z) = true) by (unfold in_rangeb, in_range in *; cbn [lo hi] in *; apply andb_true_iff; split; apply Z.leb_le; nia);
         rewrite Rz in Q; now injection Q).
  all: subst q; rewrite (wrap_id I32) by exact Rq.
  all: rewrite arith_ok by (unfold in_range, combined in *; cbn [lo hi] in *; destruct sub; nia).
  all: cbn [bind]; f_equal; unfold combined; destruct sub; now rewrite ?wrap_sub_r, ?wrap_add_r.
Qed.

Lemma mapM2_lanes t u n g a b r : lanes t n a -> lanes t n b -> (forall x y z, g x y = Ok z -> in_range u z) ->
  mapM2 g a b = Ok r -> lanes u n r.
Proof.
  intros [La _] [Lb _] R H. unfold mapM2 in H. split.
  - rewrite (mapM_length _ _ _ H), combine_length. lia.
  - clear La Lb. revert r H. induction (combine a b) as [|[x y] l IH]; intros r H; cbn in H; [injection H as <-; constructor|].
    destruct (g x y) as [z|] eqn:G; cbn in H; [|discriminate]. destruct (mapM _ l) as [zs|] eqn:M; cbn in H; [|discriminate]. injection H as <-.
    constructor; [exact (R _ _ _ G)|now apply IH].
Qed.

Lemma mul_lane_range c t u x y z : mul_lane c t u x y = Ok z -> in_range u z.
Proof. unfold mul_lane. destruct (arith c (promote t) (x * y)); cbn; [|discriminate]. intros K. injection K as <-. apply wrap_range. Qed.

Lemma table_type {A} (l : list (func * sty * A)) (ts : list sty) : (forall p, In p l -> In (snd (fst p)) ts) ->
  forall f t n, In (f, t, n) l -> In t ts.
Proof. intros H f t n K. exact (H _ K). Qed.

Ltac types_of H := refine (table_type _ _ _ _ _ _ H); apply Forall_forall; repeat constructor; cbn; tauto.

Lemma vmlal_types f t n : In (f, t, n) vmlal_table -> In t [I8; I16; I32; U8; U16; U32].
Proof. intros H. types_of H. Qed.
Lemma vmlsl_types f t n : In (f, t, n) vmlsl_table -> In t [I8; I16; I32; U8; U16; U32].
Proof. intros H. types_of H. Qed.

Lemma mla_compose sub c t n a b d : In t [I8; I16; I32; U8; U16; U32] -> lanes (wide t) n a -> lanes t n b -> lanes t n d ->
  mapM3 (mla_lane sub c t (wide t)) a b d
  = (let* qs := mapM2 (mul_lane c t (wide t)) b d in mapM2 (fun x q => cpp_result c (wide t) (combined sub x q)) a qs).
Proof.
  intros Ht Ha Hb Hd. rewrite (mapM3_ext _ (fun x y z => let* q := mul_lane c t (wide t) y z in cpp_result c (wide t) (combined sub x q))).
  - apply (mapM3_split (EUB SignedOverflow)); [intros; apply mul_either|intros; apply cpp_either| |].
    + destruct Ha, Hb; congruence.
    + destruct Hb, Hd; congruence.
  - intros x y z Hx Hy Hz. apply mla_lane_split; [exact Ht|exact (lanes_in _ _ _ _ Ha Hx)|exact (lanes_in _ _ _ _ Hb Hy)|exact (lanes_in _ _ _ _ Hd Hz)].
Qed.

Lemma bind_outcome m u (r : res (list Z)) (k : list Z -> res (list Z)) t :
  vec_outcome m u (let* zs := r in k zs) = and_then (vec_outcome m t r) (fun o => match r with Ok zs => vec_outcome m u (k zs) | Err _ => Undefined SignedOverflow end).
Proof. destruct r as [zs|e]; [reflexivity|]. unfold vec_outcome. cbn. destruct e; reflexivity. Qed.

Lemma and_then_vec m t r k k' : (forall zs, r = Ok zs -> k (vec t zs) = k' (vec t zs)) -> and_then (vec_outcome m t r) k = and_then (vec_outcome m t r) k'.
Proof. rewrite !then_vec. destruct r; [|reflexivity]. intros H. now apply H. Qed.

Lemma vmlal_compose f g h t n c m a b d : In (f, t, n) vmlal_table -> In (g, t, n) vmull_table -> In (h, wide t, n) vadd_table ->
  lanes (wide t) n a -> lanes t n b -> lanes t n d ->
  run c m f [vec (wide t) a; vec t b; vec t d]
  = and_then (run c m g [vec t b; vec t d]) (fun p => run c m h [vec (wide t) a; p]).
Proof.
  intros Hf Hg Hh Ha Hb Hd. rewrite (vmlal_run f t n) by assumption. rewrite (vmull_run g t n) by assumption.
  rewrite (mla_compose false c t n) by (trivial; exact (vmlal_types f t n Hf)). rewrite (bind_outcome _ _ _ _ (wide t)).
  apply and_then_vec. intros qs E. rewrite E. symmetry. apply (vadd_run h (wide t) n); trivial.
  exact (mapM2_lanes t (wide t) n _ b d qs Hb Hd (mul_lane_range c t (wide t)) E).
Qed.

Lemma vmlsl_compose f g h t n c m a b d : In (f, t, n) vmlsl_table -> In (g, t, n) vmull_table -> In (h, wide t, n) vsub_table ->
  lanes (wide t) n a -> lanes t n b -> lanes t n d ->
  run c m f [vec (wide t) a; vec t b; vec t d]
  = and_then (run c m g [vec t b; vec t d]) (fun p => run c m h [vec (wide t) a; p]).
Proof.
  intros Hf Hg Hh Ha Hb Hd. rewrite (vmlsl_run f t n) by assumption. rewrite (vmull_run g t n) by assumption.
  rewrite (mla_compose true c t n) by (trivial; exact (vmlsl_types f t n Hf)). rewrite (bind_outcome _ _ _ _ (wide t)).
  apply and_then_vec. intros qs E. rewrite E. symmetry. apply (vsub_run h (wide t) n); trivial.
  exact (mapM2_lanes t (wide t) n _ b d qs Hb Hd (mul_lane_range c t (wide t)) E).
Qed.

(** vmlaq: the sum of an unsigned halfword and a product is computed in int, and may overflow where the product does not *)

Lemma mla_lane_split_same c t x y z : In t [I8; I16; I32; U8; U16; U32] -> t <> U16 \/ wrapv c = true ->
  in_range t x -> in_range t y -> in_range t z ->
  mla_lane false c t t x y z = (let* q := mul_lane c t t y z in cpp_result c t (x + q)).
Proof.
  intros Ht Hu Hx Hy Hz. unfold mla_lane, mul_lane, cpp_result.
  destruct (arith c (promote t) (y * z)) as [q|e] eqn:Q; [|reflexivity]. cbn [bind].
  pose proof (arith_range _ _ _ _ Q) as Rq.
  assert (Hbig : forall u, promote u = u -> (let* s := arith c u (x + wrap u q) in Ok (wrap u s)) = arith c u (x + wrap u q)).
  { intros u _. destruct (arith c u (x + wrap u q)) as [s|e] eqn:S; [|reflexivity]. cbn. now rewrite wrap_id by exact (arith_range _ _ _ _ S). }
  assert (W : forall z, wrap U16 (wrap I32 z) = wrap U16 z) by (intros z'; apply wrap_wider; exists 65536; reflexivity).
  cbn [In] in Ht. destruct Ht as [ <- |[ <- |[ <- |[ <- |[ <- |[ <- |[]]]]]]]; cbn [promote] in *;
    match goal with |- context[width ?u <? 32] => let b := eval vm_compute in (width u <? 32) in change (width u <? 32) with b end; cbv iota.
  all: try (apply Hbig; reflexivity).
  all: rewrite (wrap_id I32) by exact Rq.
  1, 2, 3: assert (Ryz : -1073741824 <= y * z <= 1073741824) by (unfold in_range in *; cbn [lo hi] in *; nia).
  1, 2, 3: rewrite arith_ok in Q by (unfold in_range; cbn [lo hi]; lia); injection Q as <-;
    rewrite arith_ok by (unfold in_range in *; cbn [lo hi] in *; lia); cbn [bind]; f_equal; now rewrite wrap_add_r.
  (* U16 *)
  unfold arith in *. cbn [is_signed] in *. destruct (in_rangeb I32 (y * z)) eqn:Rz.
  - injection Q as <-. destruct (in_rangeb I32 (x + y * z)) eqn:Rs; [cbn [bind]; f_equal; now rewrite wrap_add_r|].
    destruct (wrapv c) eqn:Wc; [cbn [bind]; f_equal; rewrite W; now rewrite wrap_add_r|].
    exfalso. unfold in_rangeb, in_range in *. cbn [lo hi] in *. apply andb_true_iff in Rz as [R1 R2]. apply Z.leb_le in R1, R2.
    apply andb_false_iff in Rs. destruct Rs as [Rs|Rs]; apply Z.leb_gt in Rs; destruct Hu as [Hu|Hu]; congruence.
  - destruct (wrapv c) eqn:Wc; [|discriminate]. injection Q as <-.
    destruct (in_rangeb I32 (x + wrap I32 (y * z))); cbn [bind]; f_equal; rewrite ?W;
      rewrite <- (wrap_add_r U16 x (wrap I32 (y * z))), ?W, ?wrap_add_r; reflexivity.
Qed.

Lemma vmlaq_types f t n : In (f, t, n) vmlaq_table -> In t [I8; I16; I32; U8; U16; U32].
Proof. intros H. types_of H. Qed.

Lemma vmlaq_compose f g h t n c m a b d : In (f, t, n) vmlaq_table -> In (g, t, n) vmul_table -> In (h, t, n) vadd_table ->
  t <> U16 \/ wrapv c = true -> lanes t n a -> lanes t n b -> lanes t n d ->
  run c m f [vec t a; vec t b; vec t d] = and_then (run c m g [vec t b; vec t d]) (fun p => run c m h [vec t a; p]).
Proof.
  intros Hf Hg Hh Hu Ha Hb Hd. rewrite (vmlaq_run f t n) by assumption. rewrite (vmul_run g t n) by assumption.
  rewrite (mapM3_ext _ (fun x y z => let* q := mul_lane c t t y z in cpp_result c t (x + q))).
  - rewrite (mapM3_split (EUB SignedOverflow)); [|intros; apply mul_either|intros; apply cpp_either|destruct Ha, Hb; congruence|destruct Hb, Hd; congruence].
    rewrite (bind_outcome _ _ _ _ t). apply and_then_vec. intros qs E. rewrite E. symmetry. apply (vadd_run h t n); trivial.
    exact (mapM2_lanes t t n _ b d qs Hb Hd (mul_lane_range c t t) E).
  - intros x y z Hx Hy Hz. apply mla_lane_split_same; [exact (vmlaq_types f t n Hf)|exact Hu|exact (lanes_in _ _ _ _ Ha Hx)|exact (lanes_in _ _ _ _ Hb Hy)|exact (lanes_in _ _ _ _ Hd Hz)].
Qed.

(** the product 65535 * 32768 fits in int, the sum of it and 65535 does not *)
Lemma vmlaq_u16_differs nan m :
  run (mkcfg false nan) m vmlaq_u16 [vec U16 (repeat 65535 8); vec U16 (repeat 65535 8); vec U16 (repeat 32768 8)] = Undefined SignedOverflow
  /\ and_then (run (mkcfg false nan) m vmulq_u16 [vec U16 (repeat 65535 8); vec U16 (repeat 32768 8)])
       (fun p => run (mkcfg false nan) m vaddq_u16 [vec U16 (repeat 65535 8); p]) = Returns m (Some (vec U16 (repeat 32767 8))).
Proof. split; vm_compute; reflexivity. Qed.

Lemma mapM2_repeat {A} (g : Z -> Z -> res A) k : forall a n, List.length a = n -> mapM2 g a (repeat k n) = mapM (fun x => g x k) a.
Proof.
  unfold mapM2. induction a as [|x a IH]; intros [|n] L; cbn in *; try discriminate; [reflexivity|].
  destruct (g x k); [|reflexivity]. cbn [bind]. rewrite IH by lia. reflexivity.
Qed.

Lemma repeat_lanes t n k : in_range t k -> lanes t n (repeat k n).
Proof. intros H. split; [apply repeat_length|]. apply Forall_forall. intros x Hx. apply repeat_spec in Hx. now subst. Qed.

Lemma vmul_n_compose f g h t n c m a k : In (f, t, n) vmul_n_table -> In (g, t, n) vmul_table -> In (h, t, n) vdup_table ->
  lanes t n a -> in_range t k ->
  run c m f [vec t a; rv t k] = and_then (run c m h [rv t k]) (fun p => run c m g [vec t a; p]).
Proof.
  intros Hf Hg Hh Ha Hk. rewrite (vmul_n_run f t n), (vdup_exact h t n) by assumption. cbn [and_then].
  rewrite (vmul_run g t n); [|trivial..|now apply repeat_lanes]. rewrite mapM2_repeat by apply Ha. reflexivity.
Qed.

Lemma vmull_n_compose f g h t n c m a k : In (f, t, n) vmull_n_table -> In (g, t, n) vmull_table -> In (h, t, n) vdup_table ->
  lanes t n a -> in_range t k ->
  run c m f [vec t a; rv t k] = and_then (run c m h [rv t k]) (fun p => run c m g [vec t a; p]).
Proof.
  intros Hf Hg Hh Ha Hk. rewrite (vmull_n_run f t n), (vdup_exact h t n) by assumption. cbn [and_then].
  rewrite (vmull_run g t n); [|trivial..|now apply repeat_lanes]. rewrite mapM2_repeat by apply Ha. reflexivity.
Qed.

(** the wide and long additions and subtractions *)

Lemma widen_range t x : In t [I8; I16; I32; U8; U16; U32] -> in_range t x -> in_range (wide t) x.
Proof. intros H K. unfold in_range in *. destruct t; cbn in *; try lia; exfalso; clear K; intuition discriminate. Qed.

Lemma widen_lanes t n a : In t [I8; I16; I32; U8; U16; U32] -> lanes t n a -> lanes (wide t) n a.
Proof. intros H [L F]. split; [exact L|]. eapply Forall_impl; [|exact F]. intros x. now apply widen_range. Qed.

Lemma vmovl_types f t n : In (f, t, n) vmovl_table -> In t [I8; I16; I32; U8; U16; U32].
Proof. intros H. types_of H. Qed.

Lemma vaddw_compose f g h t n c m a b : In (f, t, n) vaddw_table -> In (g, wide t, n) vadd_table -> In (h, t, n) vmovl_table ->
  lanes (wide t) n a -> lanes t n b ->
  run c m f [vec (wide t) a; vec t b] = and_then (run c m h [vec t b]) (fun w => run c m g [vec (wide t) a; w]).
Proof.
  intros Hf Hg Hh Ha Hb. rewrite (vaddw_run f t n), (vmovl_exact h t n) by assumption. cbn [and_then].
  rewrite (vadd_run g (wide t) n); [reflexivity|trivial..|exact (widen_lanes t n b (vmovl_types h t n Hh) Hb)].
Qed.

Lemma vsubw_compose f g h t n c m a b : In (f, t, n) vsubw_table -> In (g, wide t, n) vsub_table -> In (h, t, n) vmovl_table ->
  lanes (wide t) n a -> lanes t n b ->
  run c m f [vec (wide t) a; vec t b] = and_then (run c m h [vec t b]) (fun w => run c m g [vec (wide t) a; w]).
Proof.
  intros Hf Hg Hh Ha Hb. rewrite (vsubw_run f t n), (vmovl_exact h t n) by assumption. cbn [and_then].
  rewrite (vsub_run g (wide t) n); [reflexivity|trivial..|exact (widen_lanes t n b (vmovl_types h t n Hh) Hb)].
Qed.

Lemma mapM2_ok {A} (g : Z -> Z -> res A) (k : Z -> Z -> A) : forall a b, (forall x y, In x a -> In y b -> g x y = Ok (k x y)) ->
  mapM2 g a b = Ok (map2 k a b).
Proof.
  unfold mapM2, map2. induction a as [|x a IH]; intros [|y b] H; cbn; try reflexivity.
  rewrite (H x y) by (now left). cbn [bind]. rewrite IH by (intros; apply H; now right). reflexivity.
Qed.

Lemma vaddl_compose f g h t n c m a b : In (f, t, n) vaddl_table -> In (g, t, n) vaddw_table -> In (h, t, n) vmovl_table ->
  lanes t n a -> lanes t n b ->
  run c m f [vec t a; vec t b] = and_then (run c m h [vec t a]) (fun w => run c m g [w; vec t b]).
Proof.
  intros Hf Hg Hh Ha Hb. rewrite (vaddl_exact f t n), (vmovl_exact h t n) by assumption. cbn [and_then].
  rewrite (vaddw_run g t n); [|trivial|exact (widen_lanes t n a (vmovl_types h t n Hh) Ha)|trivial].
  rewrite (mapM2_ok _ Z.add); [reflexivity|]. intros x y Hx Hy. apply (lanes_in _ _ _ _ Ha) in Hx. apply (lanes_in _ _ _ _ Hb) in Hy.
  assert (t = U8) as -> by (destruct Hf as [Hf|[]]; congruence).
  rewrite cpp_result_modular by (right; unfold in_range in *; cbn in *; lia). rewrite wrap_id by (unfold in_range in *; cbn in *; lia). reflexivity.
Qed.

Lemma vsubl_compose f g h t n c m a b : In (f, t, n) vsubl_table -> In (g, t, n) vsubw_table -> In (h, t, n) vmovl_table ->
  lanes t n a -> lanes t n b ->
  run c m f [vec t a; vec t b] = and_then (run c m h [vec t a]) (fun w => run c m g [w; vec t b]).
Proof.
  intros Hf Hg Hh Ha Hb. rewrite (vsubl_exact f t n), (vmovl_exact h t n) by assumption. cbn [and_then].
  rewrite (vsubw_run g t n); [|trivial|exact (widen_lanes t n a (vmovl_types h t n Hh) Ha)|trivial].
  assert (Ht : In t [I8; I16; U8; U16]) by (types_of Hf).
  rewrite (mapM2_ok _ (fun x y => wrap (wide t) (x - y))); [reflexivity|]. intros x y Hx Hy. apply (lanes_in _ _ _ _ Ha) in Hx. apply (lanes_in _ _ _ _ Hb) in Hy.
  cbn [In] in Ht. destruct Ht as [ <- |[ <- |[ <- |[ <- |[]]]]].
  1, 2, 3: unfold cpp_result; cbn [wide width]; try reflexivity; change (32 <? 32) with false; cbv iota; apply arith_total; right; right; unfold in_range in *; cbn in *; lia.
  unfold cpp_result. cbn [wide width]. change (32 <? 32) with false. cbv iota. apply arith_unsigned. reflexivity.
Qed.

Lemma vaddw_high_compose f g h t n c m a b : In (f, t, n) vaddw_high_table -> In (g, t, n) vaddw_table -> In (h, t, n) vget_high_table ->
  lanes (wide t) n a -> lanes t (2 * n) b ->
  run c m f [vec (wide t) a; vec t b] = and_then (run c m h [vec t b]) (fun w => run c m g [vec (wide t) a; w]).
Proof.
  intros Hf Hg Hh Ha Hb. rewrite (vaddw_high_run f t n), (vget_high_exact h t n) by assumption. cbn [and_then].
  rewrite (vaddw_run g t n); [reflexivity|trivial..|]. destruct Hb as [L F]. split; [rewrite skipn_length; lia|].
  rewrite <- (firstn_skipn n b) in F. now apply Forall_app in F.
Qed.
