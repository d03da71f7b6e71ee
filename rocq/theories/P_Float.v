(** Floating-point arithmetic, selection and conversions. *)
From Coq Require Import ZArith String List Bool Lia Reals.
From Flocq Require Import Core.
From Verif Require Import Types FloatBits FloatSpec FloatR Syntax Interp ProgRecip ExecLemmas Lane Spec Ew Sym Tables.
From Verif Require Import ProgAdd ProgSub ProgMul ProgShift ProgPerm ProgBit ProgRev P_AddSub P_SubMore P_Mul P_Shift.
Import ListNotations.
Open Scope Z_scope.

(** The pattern computed by one operation. *)
Definition fop2 (c : cfg) (o : fop) (t : sty) (g : SpecFloat.spec_float -> SpecFloat.spec_float -> SpecFloat.spec_float)
  (x y : Z) : Z := encode t (nan_of c o t x y) (g (decode t x) (decode t y)).

Ltac sxf := sx0.

Lemma fadd_run f t n c m a b : In (f, t, n) fadd_table -> lanes t n a -> lanes t n b ->
  run c m f [vec t a; vec t b] = Returns m (Some (vec t (map2 (fop2 c FAdd t (fadd t)) a b))).
Proof.
  intros H Ha Hb. cbn [In fadd_table] in H.
  each_entry H ltac:(rewrite <- (ok_all2 m _ (fun x y => Ok (fop2 c FAdd _ (fadd _) x y)) _ _ _ _ a b Ha Hb) by reflexivity;
    entry2 x y Hx Hy; sxf; reflexivity).
Qed.

Lemma fsub_run f t n c m a b : In (f, t, n) fsub_table -> lanes t n a -> lanes t n b ->
  run c m f [vec t a; vec t b] = Returns m (Some (vec t (map2 (fop2 c FSub t (fsub t)) a b))).
Proof.
  intros H Ha Hb. cbn [In fsub_table] in H.
  each_entry H ltac:(rewrite <- (ok_all2 m _ (fun x y => Ok (fop2 c FSub _ (fsub _) x y)) _ _ _ _ a b Ha Hb) by reflexivity;
    entry2 x y Hx Hy; sxf; reflexivity).
Qed.

Lemma fmul_run f t n c m a b : In (f, t, n) fmul_table -> lanes t n a -> lanes t n b ->
  run c m f [vec t a; vec t b] = Returns m (Some (vec t (map2 (fop2 c FMul t (fmul t)) a b))).
Proof.
  intros H Ha Hb. cbn [In fmul_table] in H.
  each_entry H ltac:(rewrite <- (ok_all2 m _ (fun x y => Ok (fop2 c FMul _ (fmul _) x y)) _ _ _ _ a b Ha Hb) by reflexivity;
    entry2 x y Hx Hy; sxf; reflexivity).
Qed.

Lemma fdiv_run f t n c m a b : In (f, t, n) fdiv_table -> lanes t n a -> lanes t n b ->
  run c m f [vec t a; vec t b] = Returns m (Some (vec t (map2 (fop2 c FDiv t (fdiv t)) a b))).
Proof.
  intros H Ha Hb. cbn [In fdiv_table] in H.
  each_entry H ltac:(rewrite <- (ok_all2 m _ (fun x y => Ok (fop2 c FDiv _ (fdiv _) x y)) _ _ _ _ a b Ha Hb) by reflexivity;
    entry2 x y Hx Hy; sxf; reflexivity).
Qed.

Lemma fmul_n_run f t n c m a s : In (f, t, n) fmul_n_table -> lanes t n a ->
  run c m f [vec t a; rv t s] = Returns m (Some (vec t (map (fun x => fop2 c FMul t (fmul t) x s) a))).
Proof.
  intros H Ha. cbn [In fmul_n_table] in H.
  each_entry H ltac:(rewrite <- (ok_all1 m _ (fun x => Ok (fop2 c FMul _ (fmul _) x s)) _ _ _ a Ha) by reflexivity;
    entry1s x Hx; sxf; reflexivity).
Qed.

(** ** Correct rounding, lane by lane *)

Lemma map2_all3 (P : Z -> Z -> Z -> Prop) g t n a b : lanes t n a -> lanes t n b ->
  (forall x y, in_range t x -> in_range t y -> P x y (g x y)) -> all_lanes3 P a b (map2 g a b).
Proof.
  intros [La Ra] [Lb Rb] H. revert n b La Lb Rb. induction a as [|x a IH]; intros n b La Lb Rb.
  - destruct b; cbn in *; [|lia]. intros i x y z E. destruct i; discriminate.
  - destruct b as [|y b]; cbn in *; [lia|]. inversion Ra; subst. inversion Rb; subst.
    intros i x' y' z' E1 E2 E3. destruct i; cbn in *.
    + inversion E1; inversion E2; inversion E3; subst. now apply H.
    + eapply (IH ltac:(assumption) (length a) b); eauto.
Qed.

Lemma map2_lanes t t' n g a b : lanes t n a -> lanes t n b ->
  (forall x y, in_range t x -> in_range t y -> in_range t' (g x y)) -> lanes t' n (map2 g a b).
Proof.
  intros [La Ra] [Lb Rb] H. split.
  - rewrite map2_length, La, Lb. apply Nat.min_id.
  - revert b n La Lb Rb. induction a as [|x a IH]; intros b n La Lb Rb; [constructor|].
    destruct b as [|y b]; [constructor|]. inversion Ra; subst. inversion Rb; subst. cbn in *.
    constructor; [now apply H|]. eapply (IH ltac:(assumption) b (length a)); auto.
Qed.

Lemma map_lanes t t' n g a : lanes t n a -> (forall x, in_range t x -> in_range t' (g x)) -> lanes t' n (map g a).
Proof.
  intros [La Ra] H. split; [now rewrite map_length|]. apply Forall_map. eapply Forall_impl; eauto.
Qed.

Lemma map_all (P : Z -> Z -> Prop) g t n a : lanes t n a ->
  (forall x, in_range t x -> P x (g x)) -> all_lanes P a (map g a).
Proof.
  intros Ha H i x y E1 E2. rewrite (map_nth_error g _ _ E1) in E2. injection E2 as <-.
  apply H. eapply lanes_nth; eauto.
Qed.

Theorem fadd_exact f t n c m a b : In (f, t, n) fadd_table -> lanes t n a -> lanes t n b ->
  exists r, run c m f [vec t a; vec t b] = Returns m (Some (vec t r)) /\ lanes t n r /\ all_lanes3 (ieee_add t) a b r.
Proof.
  intros H Ha Hb. assert (Ht : fty t) by (cbn in H; unfold fty; intuition congruence).
  exists (map2 (fop2 c FAdd t (fadd t)) a b). split; [now apply fadd_run with (n := n)|]. split.
  - eapply map2_lanes; eauto. intros. now apply fadd_range.
  - eapply map2_all3; eauto. intros. now apply fadd_ieee.
Qed.

Theorem fsub_exact f t n c m a b : In (f, t, n) fsub_table -> lanes t n a -> lanes t n b ->
  exists r, run c m f [vec t a; vec t b] = Returns m (Some (vec t r)) /\ lanes t n r /\ all_lanes3 (ieee_sub t) a b r.
Proof.
  intros H Ha Hb. assert (Ht : fty t) by (cbn in H; unfold fty; intuition congruence).
  exists (map2 (fop2 c FSub t (fsub t)) a b). split; [now apply fsub_run with (n := n)|]. split.
  - eapply map2_lanes; eauto. intros. now apply fsub_range.
  - eapply map2_all3; eauto. intros. now apply fsub_ieee.
Qed.

Theorem fmul_exact f t n c m a b : In (f, t, n) fmul_table -> lanes t n a -> lanes t n b ->
  exists r, run c m f [vec t a; vec t b] = Returns m (Some (vec t r)) /\ lanes t n r /\ all_lanes3 (ieee_mul t) a b r.
Proof.
  intros H Ha Hb. assert (Ht : fty t) by (cbn in H; unfold fty; intuition congruence).
  exists (map2 (fop2 c FMul t (fmul t)) a b). split; [now apply fmul_run with (n := n)|]. split.
  - eapply map2_lanes; eauto. intros. now apply fmul_range.
  - eapply map2_all3; eauto. intros. now apply fmul_ieee.
Qed.

Theorem fdiv_exact f t n c m a b : In (f, t, n) fdiv_table -> lanes t n a -> lanes t n b ->
  exists r, run c m f [vec t a; vec t b] = Returns m (Some (vec t r)) /\ lanes t n r /\ all_lanes3 (ieee_div t) a b r.
Proof.
  intros H Ha Hb. assert (Ht : fty t) by (cbn in H; unfold fty; intuition congruence).
  exists (map2 (fop2 c FDiv t (fdiv t)) a b). split; [now apply fdiv_run with (n := n)|]. split.
  - eapply map2_lanes; eauto. intros. now apply fdiv_range.
  - eapply map2_all3; eauto. intros. now apply fdiv_ieee.
Qed.

Theorem fmul_n_exact f t n c m a s : In (f, t, n) fmul_n_table -> lanes t n a -> in_range t s ->
  exists r, run c m f [vec t a; rv t s] = Returns m (Some (vec t r)) /\ lanes t n r /\ all_lanes (fun x z => ieee_mul t x s z) a r.
Proof.
  intros H Ha Hs. assert (Ht : fty t) by (cbn in H; unfold fty; intuition congruence).
  exists (map (fun x => fop2 c FMul t (fmul t) x s) a). split; [now apply fmul_n_run with (n := n)|]. split.
  - eapply map_lanes; eauto. intros. now apply fmul_range.
  - eapply map_all; eauto. intros. now apply fmul_ieee.
Qed.

(** ** Multiply-accumulate *)

Definition fmla (c : cfg) (t : sty) (x y z : Z) : Z := fop2 c FAdd t (fadd t) x (fop2 c FMul t (fmul t) y z).


Lemma vmlaq_f32_run c m a b d : lanes F32 4 a -> lanes F32 4 b -> lanes F32 4 d ->
  run c m vmlaq_f32 [vec F32 a; vec F32 b; vec F32 d] = Returns m (Some (vec F32 (map3 (fmla c F32) a b d))).
Proof.
  intros Ha Hb Hd. rewrite <- vec_outcome_ok.
  rewrite <- (mapM3_ok (fun x y z => Ok (fmla c F32 x y z)) (fmla c F32) a b d) by reflexivity.
  entry3 x y z Hx Hy Hz; sxf; reflexivity.
Qed.

Lemma vmlaq_n_f32_run c m a b s : lanes F32 4 a -> lanes F32 4 b ->
  run c m vmlaq_n_f32 [vec F32 a; vec F32 b; rv F32 s] = Returns m (Some (vec F32 (map2 (fun x y => fmla c F32 x y s) a b))).
Proof.
  intros Ha Hb. rewrite <- (ok_all2 m _ (fun x y => Ok (fmla c F32 x y s)) _ _ _ _ a b Ha Hb) by reflexivity.
  entry2s x y Hx Hy; sxf; reflexivity.
Qed.

Lemma map3_map2 {A B C D E} (g : A -> E -> D) (h : B -> C -> E) a b d :
  map3 (fun x y z => g x (h y z)) a b d = map2 g a (map2 h b d).
Proof. revert b d. induction a as [|x a IH]; intros [|y b] [|z d]; cbn; trivial. now rewrite IH. Qed.

Lemma map2_map {A B D E} (g : A -> E -> D) (h : B -> E) a b :
  map2 (fun x y => g x (h y)) a b = map2 g a (map h b).
Proof. revert b. induction a as [|x a IH]; intros [|y b]; cbn; trivial. now rewrite IH. Qed.

Theorem vmlaq_f32_exact c m a b d : lanes F32 4 a -> lanes F32 4 b -> lanes F32 4 d ->
  exists p r, run c m vmlaq_f32 [vec F32 a; vec F32 b; vec F32 d] = Returns m (Some (vec F32 r)) /\
    lanes F32 4 p /\ all_lanes3 (ieee_mul F32) b d p /\
    lanes F32 4 r /\ all_lanes3 (ieee_add F32) a p r.
Proof.
  intros Ha Hb Hd. assert (Ht : fty F32) by now left.
  assert (Hp : lanes F32 4 (map2 (fop2 c FMul F32 (fmul F32)) b d)).
  { eapply map2_lanes; eauto. intros. now apply fmul_range. }
  exists (map2 (fop2 c FMul F32 (fmul F32)) b d), (map3 (fmla c F32) a b d).
  split; [now apply vmlaq_f32_run|]. split; [exact Hp|]. split.
  { eapply map2_all3; eauto. intros. now apply fmul_ieee. }
  unfold fmla. rewrite (map3_map2 (fop2 c FAdd F32 (fadd F32))). split.
  - eapply map2_lanes; eauto. intros. now apply fadd_range.
  - eapply map2_all3; eauto. intros. now apply fadd_ieee.
Qed.

Theorem vmlaq_n_f32_exact c m a b s : lanes F32 4 a -> lanes F32 4 b -> in_range F32 s ->
  exists p r, run c m vmlaq_n_f32 [vec F32 a; vec F32 b; rv F32 s] = Returns m (Some (vec F32 r)) /\
    lanes F32 4 p /\ all_lanes (fun y q => ieee_mul F32 y s q) b p /\
    lanes F32 4 r /\ all_lanes3 (ieee_add F32) a p r.
Proof.
  intros Ha Hb Hs. assert (Ht : fty F32) by now left.
  assert (Hp : lanes F32 4 (map (fun y => fop2 c FMul F32 (fmul F32) y s) b)).
  { eapply map_lanes; eauto. intros. now apply fmul_range. }
  exists (map (fun y => fop2 c FMul F32 (fmul F32) y s) b), (map2 (fun x y => fmla c F32 x y s) a b).
  split; [now apply vmlaq_n_f32_run|]. split; [exact Hp|]. split.
  { eapply map_all; eauto. intros. now apply fmul_ieee. }
  unfold fmla. rewrite (map2_map (fop2 c FAdd F32 (fadd F32))). split.
  - eapply map2_lanes; eauto. intros. now apply fadd_range.
  - eapply map2_all3; eauto. intros. now apply fadd_ieee.
Qed.

(** ** Maximum, minimum, comparison, selection *)

Definition fmax2 (x y : Z) : Z := if compare_float BGt (decode F32 x) (decode F32 y) then x else y.
Definition fmin2 (x y : Z) : Z := if compare_float BLt (decode F32 x) (decode F32 y) then x else y.
Definition flt_mask (x y : Z) : Z := if compare_float BLt (decode F32 x) (decode F32 y) then 4294967295 else 0.

Ltac fcmp := sx0; repeat (match goal with |- context [compare_float ?o ?a ?b] => destruct (compare_float o a b) end; sx); reflexivity.

Lemma vmaxq_f32_run c m a b : lanes F32 4 a -> lanes F32 4 b ->
  run c m vmaxq_f32 [vec F32 a; vec F32 b] = Returns m (Some (vec F32 (map2 fmax2 a b))).
Proof.
  intros Ha Hb. rewrite <- (ok_all2 m _ (fun x y => Ok (fmax2 x y)) _ _ _ _ a b Ha Hb) by reflexivity.
  entry2 x y Hx Hy. unfold fmax2. fcmp.
Qed.

Lemma vminq_f32_run c m a b : lanes F32 4 a -> lanes F32 4 b ->
  run c m vminq_f32 [vec F32 a; vec F32 b] = Returns m (Some (vec F32 (map2 fmin2 a b))).
Proof.
  intros Ha Hb. rewrite <- (ok_all2 m _ (fun x y => Ok (fmin2 x y)) _ _ _ _ a b Ha Hb) by reflexivity.
  entry2 x y Hx Hy. unfold fmin2. fcmp.
Qed.

Lemma vpmax_f32_run c m x0 x1 y0 y1 :
  run c m vpmax_f32 [vec F32 [x0; x1]; vec F32 [y0; y1]] = Returns m (Some (vec F32 [fmax2 x0 x1; fmax2 y0 y1])).
Proof. unfold fmax2. unfold run, run_body. fcmp. Qed.

Lemma vpmin_f32_run c m x0 x1 y0 y1 :
  run c m vpmin_f32 [vec F32 [x0; x1]; vec F32 [y0; y1]] = Returns m (Some (vec F32 [fmin2 x0 x1; fmin2 y0 y1])).
Proof. unfold fmin2. unfold run, run_body. fcmp. Qed.

Lemma vcltq_f32_run c m a b : lanes F32 4 a -> lanes F32 4 b ->
  run c m vcltq_f32 [vec F32 a; vec F32 b] = Returns m (Some (vec U32 (map2 flt_mask a b))).
Proof.
  intros Ha Hb. rewrite <- (ok_all2 m _ (fun x y => Ok (flt_mask x y)) _ _ _ _ a b Ha Hb) by reflexivity.
  entry2 x y Hx Hy. unfold flt_mask. fcmp.
Qed.

Lemma fmax2_spec x y : in_range F32 x -> in_range F32 y -> greater_or_second F32 x y (fmax2 x y).
Proof.
  intros Hx Hy. unfold greater_or_second, fmax2. cbn [compare_float].
  pose proof (ltb_flt F32 y x (or_introl eq_refl) Hy Hx). destruct (SpecFloat.SFltb _ _); split; intros L; trivial.
  - exfalso. tauto.
  - apply H in L. discriminate.
Qed.

Lemma fmin2_spec x y : in_range F32 x -> in_range F32 y -> less_or_second F32 x y (fmin2 x y).
Proof.
  intros Hx Hy. unfold less_or_second, fmin2. cbn [compare_float].
  pose proof (ltb_flt F32 x y (or_introl eq_refl) Hx Hy). destruct (SpecFloat.SFltb _ _); split; intros L; trivial.
  - exfalso. tauto.
  - apply H in L. discriminate.
Qed.

Lemma fmax2_range x y : in_range F32 x -> in_range F32 y -> in_range F32 (fmax2 x y).
Proof. unfold fmax2. now destruct (compare_float _ _ _). Qed.
Lemma fmin2_range x y : in_range F32 x -> in_range F32 y -> in_range F32 (fmin2 x y).
Proof. unfold fmin2. now destruct (compare_float _ _ _). Qed.

Theorem vmaxq_f32_exact c m a b : lanes F32 4 a -> lanes F32 4 b ->
  exists r, run c m vmaxq_f32 [vec F32 a; vec F32 b] = Returns m (Some (vec F32 r)) /\ lanes F32 4 r /\
    all_lanes3 (greater_or_second F32) a b r.
Proof.
  intros Ha Hb. exists (map2 fmax2 a b). split; [now apply vmaxq_f32_run|]. split.
  - eapply map2_lanes; eauto using fmax2_range.
  - eapply map2_all3; eauto using fmax2_spec.
Qed.

Theorem vminq_f32_exact c m a b : lanes F32 4 a -> lanes F32 4 b ->
  exists r, run c m vminq_f32 [vec F32 a; vec F32 b] = Returns m (Some (vec F32 r)) /\ lanes F32 4 r /\
    all_lanes3 (less_or_second F32) a b r.
Proof.
  intros Ha Hb. exists (map2 fmin2 a b). split; [now apply vminq_f32_run|]. split.
  - eapply map2_lanes; eauto using fmin2_range.
  - eapply map2_all3; eauto using fmin2_spec.
Qed.

Theorem vpmax_f32_exact c m x0 x1 y0 y1 :
  in_range F32 x0 -> in_range F32 x1 -> in_range F32 y0 -> in_range F32 y1 ->
  exists r0 r1, run c m vpmax_f32 [vec F32 [x0; x1]; vec F32 [y0; y1]] = Returns m (Some (vec F32 [r0; r1])) /\
    greater_or_second F32 x0 x1 r0 /\ greater_or_second F32 y0 y1 r1.
Proof.
  intros. exists (fmax2 x0 x1), (fmax2 y0 y1). split; [apply vpmax_f32_run|].
  split; now apply fmax2_spec.
Qed.

Theorem vpmin_f32_exact c m x0 x1 y0 y1 :
  in_range F32 x0 -> in_range F32 x1 -> in_range F32 y0 -> in_range F32 y1 ->
  exists r0 r1, run c m vpmin_f32 [vec F32 [x0; x1]; vec F32 [y0; y1]] = Returns m (Some (vec F32 [r0; r1])) /\
    less_or_second F32 x0 x1 r0 /\ less_or_second F32 y0 y1 r1.
Proof.
  intros. exists (fmin2 x0 x1), (fmin2 y0 y1). split; [apply vpmin_f32_run|].
  split; now apply fmin2_spec.
Qed.

Theorem vcltq_f32_exact c m a b : lanes F32 4 a -> lanes F32 4 b ->
  exists r, run c m vcltq_f32 [vec F32 a; vec F32 b] = Returns m (Some (vec U32 r)) /\ lanes U32 4 r /\
    all_lanes3 (fun x y z => (flt F32 x y -> z = 4294967295) /\ (~ flt F32 x y -> z = 0)) a b r.
Proof.
  intros Ha Hb. exists (map2 flt_mask a b). split; [now apply vcltq_f32_run|]. split.
  - eapply map2_lanes; eauto. intros x y _ _. unfold flt_mask. destruct (compare_float _ _ _); unfold in_range; cbn; lia.
  - eapply map2_all3; eauto. intros x y Hx Hy. unfold flt_mask. cbn [compare_float].
    pose proof (ltb_flt F32 x y (or_introl eq_refl) Hx Hy). destruct (SpecFloat.SFltb _ _); split; intros L; trivial.
    + exfalso. tauto.
    + apply H in L. discriminate.
Qed.

(** Selection by a whole-lane test of the mask. *)
Lemma vbslq_f32_run c m k a b : lanes U32 4 k -> lanes F32 4 a -> lanes F32 4 b ->
  run c m vbslq_f32 [vec U32 k; vec F32 a; vec F32 b]
  = Returns m (Some (vec F32 (map3 (fun w x y => if w =? 0 then y else x) k a b))).
Proof.
  intros Hk Ha Hb. rewrite <- vec_outcome_ok.
  rewrite <- (mapM3_ok (fun w x y => Ok (if w =? 0 then y else x)) (fun w x y => if w =? 0 then y else x) k a b) by reflexivity.
  entry3 w x y Hw Hx Hy; destruct w; sxf; reflexivity.
Qed.

(** ** Conversions *)

Theorem vcvtq_f32_s32_exact c m a : lanes I32 4 a ->
  exists r, run c m vcvtq_f32_s32 [vec I32 a] = Returns m (Some (vec F32 r)) /\ lanes F32 4 r /\
    all_lanes (fun x z => rounded F32 (IZR x) (x <? 0) z) a r.
Proof.
  intros Ha. exists (map (fun x => encode F32 0 (sf_of_Z F32 x)) a). split; [|split].
  - rewrite <- (ok_all1 m _ (fun x => Ok (encode F32 0 (sf_of_Z F32 x))) _ _ _ a Ha) by reflexivity.
    entry1 x Hx. sxf. reflexivity.
  - eapply map_lanes; eauto. intros. apply of_Z_range. now left.
  - eapply map_all; eauto. intros. apply of_Z_rounded. now left.
Qed.

Definition to_int (u : sty) (x : Z) : res Z :=
  match sf_trunc (decode F32 x) with
  | Some i => if in_rangeb u i then Ok i else Err (EUB FloatCast)
  | None => Err (EUB FloatCast)
  end.

Lemma to_int_run f u n c m a : In (f, u, n) to_int_table -> lanes F32 n a ->
  run c m f [vec F32 a] = vec_outcome m u (mapM (to_int u) a).
Proof.
  intros H Ha. cbn [In to_int_table] in H.
  each_entry H ltac:(entry1 x Hx; unfold to_int; sxf;
    destruct (sf_trunc (decode F32 x)) as [z|]; sxf; [|reflexivity]; destruct (in_rangeb _ z); sxf; reflexivity).
Qed.

Lemma in_rangeb_spec u z : in_rangeb u z = true <-> in_range u z.
Proof. unfold in_rangeb, in_range. rewrite andb_true_iff, !Z.leb_le. tauto. Qed.

Lemma to_int_ok u x : in_range F32 x -> cvt_fits u x -> to_int u x = Ok (Ztrunc (fval F32 x)).
Proof.
  intros Hx [F R]. unfold to_int. rewrite (trunc_spec F32 x (or_introl eq_refl) Hx).
  destruct (Z.eq_dec _ _); [contradiction|]. apply in_rangeb_spec in R. now rewrite R.
Qed.

Lemma to_int_err u x : in_range F32 x -> ~ cvt_fits u x -> to_int u x = Err (EUB FloatCast).
Proof.
  intros Hx N. unfold to_int. rewrite (trunc_spec F32 x (or_introl eq_refl) Hx).
  destruct (Z.eq_dec _ _); [reflexivity|]. destruct (in_rangeb _ _) eqn:E; [|reflexivity].
  exfalso. apply N. split; [assumption|]. now apply in_rangeb_spec.
Qed.

Theorem to_int_exact f u n c m a : In (f, u, n) to_int_table -> lanes F32 n a -> Forall (cvt_fits u) a ->
  run c m f [vec F32 a] = Returns m (Some (vec u (map (fun x => Ztrunc (fval F32 x)) a))).
Proof.
  intros H Ha Hf. rewrite (to_int_run f u n c m a H Ha).
  rewrite (mapM_ok_map (to_int u) (fun x => Ztrunc (fval F32 x))); [reflexivity|].
  intros x Hx. destruct Ha as [_ Ra]. rewrite Forall_forall in Ra, Hf. apply to_int_ok; auto.
Qed.

Theorem to_int_ub f u n c m a x : In (f, u, n) to_int_table -> lanes F32 n a -> In x a -> ~ cvt_fits u x ->
  run c m f [vec F32 a] = Undefined FloatCast.
Proof.
  intros H Ha Hi Hn. rewrite (to_int_run f u n c m a H Ha).
  destruct Ha as [_ Ra]. rewrite Forall_forall in Ra.
  rewrite (mapM_err_some (to_int u) (EUB FloatCast) a); [reflexivity| |].
  - intros y Hy. unfold to_int. destruct (sf_trunc _) as [z|]; [|now right]. destruct (in_rangeb u z); eauto.
  - exists x. split; [exact Hi|]. apply to_int_err; auto.
Qed.

Lemma vbslq_f32_bits c m w a b : lanes U32 4 w -> lanes F32 4 a -> lanes F32 4 b ->
  Forall (fun x => x = 0 \/ x = 4294967295) w ->
  exists r, run c m vbslq_f32 [vec U32 w; vec F32 a; vec F32 b] = Returns m (Some (vec F32 r)) /\
    forall i k x y z v, nth_error w i = Some x -> nth_error a i = Some y -> nth_error b i = Some z ->
      nth_error r i = Some v -> 0 <= k < 32 ->
      Z.testbit v k = if Z.testbit x k then Z.testbit y k else Z.testbit z k.
Proof.
  intros Hw Ha Hb F. eexists. split; [now apply vbslq_f32_run|].
  intros i k x y z v Hx Hy Hz Hv Hk.
  rewrite (map3_nth _ _ _ _ i x y z Hx Hy Hz) in Hv. injection Hv as <-.
  rewrite Forall_forall in F. destruct (F x (nth_error_In _ _ Hx)) as [-> | ->].
  - now rewrite Z.bits_0.
  - change 4294967295 with (Z.ones 32). now rewrite Z.ones_spec_low by lia.
Qed.
