(** The extended format of the x87: the saturating subtractions of 64-bit lanes, which are computed in double. *)
From Coq Require Import ZArith String List Bool Lia Reals Lra.
From Coq Require Import Floats.SpecFloat.
From Flocq Require Import Core BinarySingleNaN.
From Verif Require Import Types FloatBits FloatSpec FloatR Syntax Interp ProgRecip ExecLemmas Lane Spec Ew Sym Tables.
From Verif Require Import ProgSub P_AddSub P_SubMore P_Shift P_Float P_Recps P_Qsub64 Excess P_Round P_Excess P_Excess2.
Import ListNotations.
Open Scope Z_scope.

Lemma x87_in : In x87_format formats.
Proof. right. left. reflexivity. Qed.

(** An integer of at most 64 digits, rounded to double, is an integer; so is a difference of two, and
    it has at most 65 digits: the 64 of the format are enough unless it is 2^64, a power. *)
Lemma rnd_integer z : exists k, rnd F64 (IZR z) = IZR k.
Proof.
  unfold rnd. cbn [min_exp precision].
  destruct (Z.eq_dec z 0) as [->|N]; [exists 0; rewrite round_0; [reflexivity|apply valid_rnd_N]|].
  unfold round, F2R, scaled_mantissa, cexp. cbn [Fnum Fexp]. set (e := FLT_exp (-1074) 53 (mag radix2 (IZR z))).
  destruct (Z_le_gt_dec 0 e) as [L|L].
  - exists (ZnearestE (IZR z * bpow radix2 (- e)) * 2 ^ e). rewrite mult_IZR. f_equal.
    rewrite <- (IZR_Zpower radix2 e) by exact L. reflexivity.
  - exists z. replace (IZR z * bpow radix2 (- e))%R with (IZR (z * 2 ^ (- e))).
    2:{ rewrite mult_IZR. f_equal. rewrite <- (IZR_Zpower radix2 (- e)) by lia. reflexivity. }
    rewrite (Zrnd_IZR ZnearestE), mult_IZR. replace (IZR (2 ^ (- e))) with (bpow radix2 (- e)) by (rewrite <- (IZR_Zpower radix2 (- e)) by lia; reflexivity).
    rewrite Rmult_assoc, <- bpow_plus. replace (- e + e) with 0 by lia. cbn [bpow]. ring.
Qed.

Lemma integer_in k : Z.abs k <= 2 ^ 64 -> generic_format radix2 (SpecFloat.fexp 64 16384) (IZR k).
Proof.
  intros H. destruct (Z.eq_dec (Z.abs k) (2 ^ 64)) as [E|E].
  - assert (C : (IZR k = bpow radix2 64 \/ IZR k = - bpow radix2 64)%R).
    { rewrite <- (IZR_Zpower radix2 64) by lia. rewrite <- opp_IZR. change (Zpower radix2 64) with (2 ^ 64).
      assert (k = 2 ^ 64 \/ k = - 2 ^ 64) as [-> | ->] by lia; auto. }
    destruct C as [-> | ->]; [|apply generic_format_opp]; apply generic_format_bpow; cbn; lia.
  - replace (IZR k) with (F2R (Float radix2 k 0)) by (unfold F2R; cbn; ring).
    apply (generic_format_FLT radix2 (3 - 16384 - 64) 64). exists (Float radix2 k 0); cbn [Fnum Fexp]; [reflexivity| |lia].
    change (Zpower radix2 64) with (2 ^ 64). lia.
Qed.

Lemma diff_in t x y : is64 t -> in_range t x -> in_range t y ->
  generic_format radix2 (SpecFloat.fexp 64 16384) (rnd F64 (IZR x) - rnd F64 (IZR y)).
Proof.
  intros Ht Hx Hy.
  destruct (rnd_integer x) as [i Ei]. destruct (rnd_integer y) as [j Ej]. rewrite Ei, Ej, <- minus_IZR.
  apply integer_in.
  assert (M : forall a b, a <= b -> (rnd F64 (IZR a) <= rnd F64 (IZR b))%R).
  { intros a b L. unfold rnd. cbn [min_exp precision]. apply round_le; [now apply FLT_exp_valid|apply valid_rnd_N|now apply IZR_le]. }
  assert (P : forall k, 0 <= k <= 64 -> rnd F64 (IZR (2 ^ k)) = IZR (2 ^ k) /\ rnd F64 (IZR (- 2 ^ k)) = IZR (- 2 ^ k)).
  { intros k Hk. unfold rnd. cbn [min_exp precision].
    assert (G : generic_format radix2 (FLT_exp (-1074) 53) (IZR (2 ^ k))).
    { change (2 ^ k) with (Zpower radix2 k). rewrite IZR_Zpower by lia. apply generic_format_bpow. unfold FLT_exp. lia. }
    split; (rewrite round_generic; [reflexivity|apply valid_rnd_N|]); [exact G|]. rewrite opp_IZR. now apply generic_format_opp. }
  assert (Z0 : rnd F64 (IZR 0) = IZR 0) by (unfold rnd; apply round_0; apply valid_rnd_N).
  destruct Ht as [-> | ->]; cbn [lo hi] in *; unfold in_range in *; cbn [lo hi] in *.
  - destruct (P 63 ltac:(lia)) as [P1 P2].
    assert (Bi : - 2 ^ 63 <= i <= 2 ^ 63) by (split; apply le_IZR; [rewrite <- P2|rewrite <- P1]; rewrite <- Ei; apply M; lia).
    assert (Bj : - 2 ^ 63 <= j <= 2 ^ 63) by (split; apply le_IZR; [rewrite <- P2|rewrite <- P1]; rewrite <- Ej; apply M; lia). lia.
  - destruct (P 64 ltac:(lia)) as [P1 P2].
    assert (Bi : 0 <= i <= 2 ^ 64) by (split; apply le_IZR; [rewrite <- Z0|rewrite <- P1]; rewrite <- Ei; apply M; lia).
    assert (Bj : 0 <= j <= 2 ^ 64) by (split; apply le_IZR; [rewrite <- Z0|rewrite <- P1]; rewrite <- Ej; apply M; lia). lia.
Qed.

Lemma diff_twice t x y : is64 t -> in_range t x -> in_range t y ->
  sf_cvt F64 (SFsub 64 16384 (Excess.widen x87_format (decode F64 (dbl x))) (Excess.widen x87_format (decode F64 (dbl y)))) =
  SFsub 53 1024 (decode F64 (dbl x)) (decode F64 (dbl y)).
Proof.
  intros Ht Hx Hy.
  assert (B : forall z, in_range t z -> - 2 ^ 64 <= z <= 2 ^ 64) by (intros z; unfold in_range; destruct Ht as [-> | ->]; cbn [lo hi]; lia).
  destruct (dbl_spec x (B x Hx)) as (R1 & F1 & V1 & _). destruct (dbl_spec y (B y Hy)) as (R2 & F2 & V2 & _).
  destruct (decode_denotes F64 (dbl x) (or_intror eq_refl) R1) as (bx & Ex & Dx).
  destruct (decode_denotes F64 (dbl y) (or_intror eq_refl) R2) as (by_ & Ey & Dy).
  rewrite Ex, Ey. destruct (denotes_fin _ _ _ Dx F1) as (G1 & W1 & _). destruct (denotes_fin _ _ _ Dy F2) as (G2 & W2 & _).
  change (sf_cvt F64) with (P_Round.narrow 53 1024).
  change (Excess.widen x87_format) with (P_Round.widen 64 16384).
  apply (sub_exact_twice 53 1024 64 16384 ltac:(reflexivity) ltac:(reflexivity) ltac:(reflexivity) ltac:(reflexivity) ltac:(lia) ltac:(lia) bx by_ G1 G2 ltac:(lia)).
  change (generic_format radix2 (SpecFloat.fexp 64 16384) (@B2R (fprec F64) (femax F64) bx - @B2R (fprec F64) (femax F64) by_)).
  rewrite W1, W2, V1, V2. now apply (diff_in t).
Qed.

Lemma widen_literal z : In z [lo I64; lo U64] -> SpecFloat.binary_normalize 64 16384 z 0 false = Excess.widen x87_format (decode F64 (dbl z)).
Proof. intros [<-|[<-|[]]]; vm_compute; reflexivity. Qed.

Lemma x87_compare op z1 z2 :
  compare_float op (Excess.widen x87_format (decode F64 z1)) (Excess.widen x87_format (decode F64 z2)) = compare_float op (decode F64 z1) (decode F64 z2).
Proof. now apply (compare_same x87_format x87_in op F64). Qed.

Lemma loop_step k cond step en m : loop (S k) cond step en m =
  let* b := cond en m in
  if b then let* r := step en m in match r with Normal en' m' => loop k cond step en' m' | Returned _ _ => Ok r end
  else Ok (Normal en m).
Proof. reflexivity. Qed.

Ltac symb t := eval lazy -[encode decode SFsub sf_cvt sf_trunc sf_of_Z sf_nonzero compare_float Excess.widen SpecFloat.binary_normalize in_rangeb dsub] in t.
Ltac known t := let v := symb t in change t with v.
Ltac one :=
  match goal with
  | |- context [eval_x ?w ?c ?f ?en ?m ?e] => known (eval_x w c f en m e)
  | |- context [eval ?c ?f ?en ?m ?e] => known (eval c f en m e)
  | |- context [eval_path_x ?w ?c ?f ?en ?m ?e] => known (eval_path_x w c f en m e)
  | |- context [eval_path ?c ?f ?en ?m ?e] => known (eval_path c f en m e)
  | |- context [bind_params ?c ?p ?a] => known (bind_params c p a)
  | |- context [init_x ?c ?t ?v] => known (init_x c t v)
  | |- context [init_obj ?c ?t ?v] => known (init_obj c t v)
  | |- context [assign_x ?c ?en ?m ?x ?p ?v] => known (assign_x c en m x p v)
  | |- context [assign ?c ?en ?m ?x ?p ?v] => known (assign c en m x p v)
  | |- context [cond_x ?v] => known (cond_x v)
  | |- context [cond_value ?v] => known (cond_value v)
  | |- context [pop_ctl ?n ?r] => known (pop_ctl n r)
  | |- context [loop (S ?k) ?cond ?step ?en ?m] => rewrite (loop_step k cond step en m); cbv beta
  end; cbn [bind fst snd].



(** The difference after its two roundings is the one of the unwidened evaluation. *)
Lemma diff_dsub c t x y : is64 t -> in_range t x -> in_range t y ->
  encode F64 (nan_of c FSub F64 (dbl x) (dbl y))
    (sf_cvt F64 (SFsub 64 16384 (Excess.widen x87_format (decode F64 (dbl x))) (Excess.widen x87_format (decode F64 (dbl y))))) = dsub c x y.
Proof. intros Ht Hx Hy. rewrite (diff_twice t) by assumption. reflexivity. Qed.

Ltac facts :=
  match goal with
  | c : cfg, Hx : in_range ?t ?x, Hy : in_range ?t ?y |-
      context [encode F64 ?k (sf_cvt F64 (SFsub 64 16384 (Excess.widen ?w (decode F64 (encode F64 0 (sf_of_Z F64 ?x)))) (Excess.widen ?w (decode F64 (encode F64 0 (sf_of_Z F64 ?y))))))] =>
      let d := constr:(encode F64 k (sf_cvt F64 (SFsub 64 16384 (Excess.widen w (decode F64 (encode F64 0 (sf_of_Z F64 x)))) (Excess.widen w (decode F64 (encode F64 0 (sf_of_Z F64 y))))))) in
      replace d with (dsub c x y) by (symmetry; exact (diff_dsub c t x y ltac:(first [now left|now right]) Hx Hy))
  | |- context [SpecFloat.binary_normalize 64 16384 ?z 0 false] =>
      let E := fresh in pose proof (widen_literal z ltac:(first [now left|right; now left])) as E; unfold dbl in E; rewrite E; clear E
  | |- context [compare_float ?op (Excess.widen ?w (decode F64 ?a)) (Excess.widen ?w' (decode F64 ?b))] =>
      replace (compare_float op (Excess.widen w (decode F64 a)) (Excess.widen w' (decode F64 b))) with (compare_float op (decode F64 a) (decode F64 b)) by (symmetry; exact (x87_compare op a b))
  | E : compare_float ?op ?a ?b = _ |- context [compare_float ?op ?a ?b] => rewrite E
  | E : sf_trunc ?a = _ |- context [sf_trunc ?a] => rewrite E
  | E : in_rangeb ?a ?b = _ |- context [in_rangeb ?a ?b] => rewrite E
  end; cbn [bind fst snd].

Ltac cases_of c t x y :=
  let E1 := fresh "E" in let E2 := fresh "E" in let E3 := fresh "E" in let E4 := fresh "E" in let i := fresh "i" in
  destruct (compare_float BGt (decode F64 (dsub c x y)) (decode F64 (dbl (hi t)))) eqn:E1;
  [|destruct (compare_float BLt (decode F64 (dsub c x y)) (decode F64 (dbl (lo t)))) eqn:E2;
    [|destruct (sf_trunc (decode F64 (dsub c x y))) as [i|] eqn:E3; [destruct (in_rangeb t i) eqn:E4|]]];
  unfold dbl in *;
  (let h := eval vm_compute in (hi t) in change (hi t) with h in * );
  (let l := eval vm_compute in (lo t) in change (lo t) with l in * );
  cbn [bind].

Definition loop_body (f : func) : stmt := match f_body f with SSeq _ (SSeq (SFor _ _ _ _ _ b) _) => b | _ => SSkip end.

Ltac iteration f c t x y :=
  cases_of c t x y;
  (let b := eval lazy in (loop_body f) in change (loop_body f) with b);
  cbn [exec_x bind];
  match goal with |- _ = ?r => known r end;
  repeat first [facts | one]; reflexivity.

Definition cells (t : sty) (l : list (option Z)) : obj := OArr (map (OScal t) l).

Lemma iter_s64 c cf k m x y d : in_range I64 x -> in_range I64 y ->
  exec_x x87_format c cf k (loop_body vqsub_s64) [("i"%string, rv U64 0); ("D"%string, cells I64 [d]); ("N"%string, vec I64 [x]); ("M"%string, vec I64 [y])] m =
  let* z := qsub64 c I64 x y in
  Ok (Normal [("temp"%string, rv F64 (dsub c x y)); ("i"%string, rv U64 0); ("D"%string, cells I64 [Some z]); ("N"%string, vec I64 [x]); ("M"%string, vec I64 [y])] m).
Proof. intros Hx Hy. iteration vqsub_s64 c I64 x y. Qed.
Lemma iter_u64 c cf k m x y d : in_range U64 x -> in_range U64 y ->
  exec_x x87_format c cf k (loop_body vqsub_u64) [("i"%string, rv U64 0); ("D"%string, cells U64 [d]); ("N"%string, vec U64 [x]); ("M"%string, vec U64 [y])] m =
  let* z := qsub64 c U64 x y in
  Ok (Normal [("temp"%string, rv F64 (dsub c x y)); ("i"%string, rv U64 0); ("D"%string, cells U64 [Some z]); ("N"%string, vec U64 [x]); ("M"%string, vec U64 [y])] m).
Proof. intros Hx Hy. iteration vqsub_u64 c U64 x y. Qed.
Lemma iterq_s64_0 c cf k m x y x' y' d d' : in_range I64 x -> in_range I64 y ->
  exec_x x87_format c cf k (loop_body vqsubq_s64) [("i"%string, rv U64 0); ("D"%string, cells I64 [d; d']); ("N"%string, vec I64 [x; x']); ("M"%string, vec I64 [y; y'])] m =
  let* z := qsub64 c I64 x y in
  Ok (Normal [("temp"%string, rv F64 (dsub c x y)); ("i"%string, rv U64 0); ("D"%string, cells I64 [Some z; d']); ("N"%string, vec I64 [x; x']); ("M"%string, vec I64 [y; y'])] m).
Proof. intros Hx Hy. iteration vqsubq_s64 c I64 x y. Qed.
Lemma iterq_s64_1 c cf k m x y x' y' d d' : in_range I64 x' -> in_range I64 y' ->
  exec_x x87_format c cf k (loop_body vqsubq_s64) [("i"%string, rv U64 1); ("D"%string, cells I64 [d; d']); ("N"%string, vec I64 [x; x']); ("M"%string, vec I64 [y; y'])] m =
  let* z := qsub64 c I64 x' y' in
  Ok (Normal [("temp"%string, rv F64 (dsub c x' y')); ("i"%string, rv U64 1); ("D"%string, cells I64 [d; Some z]); ("N"%string, vec I64 [x; x']); ("M"%string, vec I64 [y; y'])] m).
Proof. intros Hx Hy. iteration vqsubq_s64 c I64 x' y'. Qed.
Lemma iterq_u64_0 c cf k m x y x' y' d d' : in_range U64 x -> in_range U64 y ->
  exec_x x87_format c cf k (loop_body vqsubq_u64) [("i"%string, rv U64 0); ("D"%string, cells U64 [d; d']); ("N"%string, vec U64 [x; x']); ("M"%string, vec U64 [y; y'])] m =
  let* z := qsub64 c U64 x y in
  Ok (Normal [("temp"%string, rv F64 (dsub c x y)); ("i"%string, rv U64 0); ("D"%string, cells U64 [Some z; d']); ("N"%string, vec U64 [x; x']); ("M"%string, vec U64 [y; y'])] m).
Proof. intros Hx Hy. iteration vqsubq_u64 c U64 x y. Qed.
Lemma iterq_u64_1 c cf k m x y x' y' d d' : in_range U64 x' -> in_range U64 y' ->
  exec_x x87_format c cf k (loop_body vqsubq_u64) [("i"%string, rv U64 1); ("D"%string, cells U64 [d; d']); ("N"%string, vec U64 [x; x']); ("M"%string, vec U64 [y; y'])] m =
  let* z := qsub64 c U64 x' y' in
  Ok (Normal [("temp"%string, rv F64 (dsub c x' y')); ("i"%string, rv U64 1); ("D"%string, cells U64 [d; Some z]); ("N"%string, vec U64 [x; x']); ("M"%string, vec U64 [y; y'])] m).
Proof. intros Hx Hy. iteration vqsubq_u64 c U64 x' y'. Qed.


Ltac two_lanes Ha x Hx x' Hx' :=
  let La := fresh in let Fa := fresh in
  destruct Ha as [La Fa];
  match type of Fa with Forall _ ?a =>
    destruct a as [|x [|x' [|? ?]]]; try discriminate La; pose proof (Forall_inv Fa) as Hx; pose proof (Forall_inv (Forall_inv_tail Fa)) as Hx'; clear La Fa end.

(** The statement with its loop body replaced by a name. *)
Definition with_body (s b : stmt) : stmt :=
  match s with SSeq a (SSeq (SFor t i e1 e2 e3 _) r) => SSeq a (SSeq (SFor t i e1 e2 e3 b) r) | s => s end.
Ltac open_call f :=
  unfold run_excess, run_body_x; change (f_body f) with (with_body (f_body f) (loop_body f));
  generalize dependent (loop_body f); intros body I0;
  cbn [f f_params f_body f_ret with_body exec_x bind]; change loop_fuel with 40%nat.


Ltac this_body body E :=
  match goal with |- context [exec_x x87_format ?c ?cf ?k body ?en ?m] =>
    match type of (E cf k) with exec_x _ _ _ _ _ ?en' _ = _ => change en with en'; rewrite (E cf k) end end.
Ltac open_vec := match goal with |- _ = vec_outcome _ _ ?r => let v := eval lazy -[qsub64] in r in change r with v end.

Lemma x87_vqsub64 f t n c m a b : In (f, t, n) vqsub64_table -> lanes t n a -> lanes t n b ->
  run_excess x87_format c m f [vec t a; vec t b] = run c m f [vec t a; vec t b].
Proof.
  intros H Ha Hb. rewrite (vqsub64_run f t n c m a b H Ha Hb). cbn [In vqsub64_table] in H.
  destruct H as [H|[H|[H|[H|[]]]]]; injection H as <- <- <-.
  - one_lane_vec Ha x Hx. one_lane_vec Hb y Hy. open_vec. pose proof iter_s64 as I0. open_call vqsub_s64. do 5 one.
    this_body body (fun cf k => I0 c cf k m x y None Hx Hy).
    destruct (qsub64 c I64 x y) as [z|er]; cbn [bind]; [|reflexivity]. repeat one. reflexivity.
  - two_lanes Ha x Hx x' Hx'. two_lanes Hb y Hy y' Hy'. open_vec.
    pose proof (conj iterq_s64_0 iterq_s64_1) as I0. open_call vqsubq_s64. destruct I0 as [I0 I1]. do 5 one.
    this_body body (fun cf k => I0 c cf k m x y x' y' None None Hx Hy).
    destruct (qsub64 c I64 x y) as [z|er]; cbn [bind]; [|reflexivity]. do 6 one.
    this_body body (fun cf k => I1 c cf k m x y x' y' (Some z) None Hx' Hy').
    destruct (qsub64 c I64 x' y') as [z'|er]; cbn [bind]; [|reflexivity]. repeat one. reflexivity.
  - one_lane_vec Ha x Hx. one_lane_vec Hb y Hy. open_vec. pose proof iter_u64 as I0. open_call vqsub_u64. do 5 one.
    this_body body (fun cf k => I0 c cf k m x y None Hx Hy).
    destruct (qsub64 c U64 x y) as [z|er]; cbn [bind]; [|reflexivity]. repeat one. reflexivity.
  - two_lanes Ha x Hx x' Hx'. two_lanes Hb y Hy y' Hy'. open_vec.
    pose proof (conj iterq_u64_0 iterq_u64_1) as I0. open_call vqsubq_u64. destruct I0 as [I0 I1]. do 5 one.
    this_body body (fun cf k => I0 c cf k m x y x' y' None None Hx Hy).
    destruct (qsub64 c U64 x y) as [z|er]; cbn [bind]; [|reflexivity]. do 6 one.
    this_body body (fun cf k => I1 c cf k m x y x' y' (Some z) None Hx' Hy').
    destruct (qsub64 c U64 x' y') as [z'|er]; cbn [bind]; [|reflexivity]. repeat one. reflexivity.
Qed.
