(** The comparison functions of the tests. *)
From Coq Require Import ZArith String List Bool Lia Reals Lra.
From Flocq Require Import Core.
From Coq Require Import SpecFloat.
From Verif Require Import Types FloatBits FloatSpec FloatR Syntax Interp ProgRecip ExecLemmas Lane Spec Ew Sym Tables.
From Verif Require Import P_AddSub P_SubMore P_Shift P_Float P_Recps P_Qsub64 TestUtil TestSpec.
Import ListNotations.
Open Scope Z_scope.

(** ** The absolute value *)

Lemma fabs_fields t z : fty t -> in_range t z ->
  in_range t (fabs_bits t z) /\ exp_field t (fabs_bits t z) = exp_field t z /\
  frac_field t (fabs_bits t z) = frac_field t z /\ sign_bit t (fabs_bits t z) = false.
Proof.
  intros Ht Hz. unfold fabs_bits, exp_field, frac_field.
  assert (W : width t - 1 = exp_bits t + (precision t - 1)) by (destruct Ht as [-> | ->]; reflexivity).
  assert (P1 : 0 <= exp_bits t) by (destruct Ht as [-> | ->]; discriminate).
  assert (P2 : 0 <= precision t - 1) by (destruct Ht as [-> | ->]; discriminate).
  assert (PP : 2 ^ (width t - 1) = 2 ^ exp_bits t * 2 ^ (precision t - 1)) by (rewrite W; now apply Z.pow_add_r).
  pose proof (Z.pow_pos_nonneg 2 _ eq_refl P1) as Q1. pose proof (Z.pow_pos_nonneg 2 _ eq_refl P2) as Q2.
  assert (B : 0 <= z mod 2 ^ (width t - 1) < 2 ^ (width t - 1)) by (apply Z.mod_pos_bound; rewrite PP; lia).
  assert (R1 : in_range t (z mod 2 ^ (width t - 1))).
  { unfold in_range in *. destruct Ht as [-> | ->]; cbn [lo hi width] in *; lia. }
  split; [exact R1|].
  pose proof (Z.div_mod z (2 ^ (width t - 1)) ltac:(lia)) as E.
  assert (E' : z = z mod 2 ^ (width t - 1) + (z / 2 ^ (width t - 1) * 2 ^ exp_bits t) * 2 ^ (precision t - 1)).
  { rewrite E at 1. rewrite PP at 1. ring. }
  clear E. split; [|split].
  - rewrite E' at 2. rewrite Z.div_add by lia. now rewrite Z.mod_add by lia.
  - rewrite E' at 2. now rewrite Z.mod_add by lia.
  - rewrite (sign_bit_leb t _ Ht R1). replace (fsgn t) with (2 ^ (width t - 1)) by (destruct Ht as [-> | ->]; reflexivity).
    apply Z.leb_gt. lia.
Qed.

Lemma fabs_nan t z : fty t -> in_range t z -> fnan t z -> fnan t (fabs_bits t z).
Proof. intros Ht Hz. destruct (fabs_fields t z Ht Hz) as (_ & E & F & _). unfold fnan. now rewrite E, F. Qed.

Lemma fabs_inf t z : fty t -> in_range t z -> finf t z -> finf t (fabs_bits t z).
Proof. intros Ht Hz. destruct (fabs_fields t z Ht Hz) as (_ & E & F & _). unfold finf. now rewrite E, F. Qed.

Lemma fabs_fin t z : fty t -> in_range t z -> ffin t z ->
  ffin t (fabs_bits t z) /\ fval t (fabs_bits t z) = Rabs (fval t z).
Proof.
  intros Ht Hz Fz. destruct (fabs_fields t z Ht Hz) as (R & E & F & S).
  split; [unfold ffin; now rewrite E|]. unfold fval. rewrite E, F, S.
  set (m := if exp_field t z =? 0 then frac_field t z else frac_field t z + 2 ^ (precision t - 1)).
  set (e := if exp_field t z =? 0 then _ else _).
  assert (M : (0 <= IZR m)%R).
  { apply IZR_le. assert (0 < 2 ^ (precision t - 1)) by (destruct Ht as [-> | ->]; reflexivity).
    pose proof (Z.mod_pos_bound z (2 ^ (precision t - 1)) ltac:(assumption)).
    unfold m, frac_field. destruct (_ =? 0); lia. }
  assert (P : (0 <= IZR m * bpow radix2 e)%R) by (apply Rmult_le_pos; [exact M|apply bpow_ge_0]).
  rewrite Rmult_1_l. destruct (sign_bit t z).
  - rewrite Rmult_assoc, Rabs_mult. rewrite (Rabs_pos_eq _ P).
    replace (Rabs (-1)) with 1%R by (rewrite Rabs_left; lra). ring.
  - rewrite Rmult_1_l. symmetry. now apply Rabs_pos_eq.
Qed.

(** ** The loop *)

Lemma ok_inj {A} (x y : A) : Ok x = Ok y -> x = y.
Proof. congruence. Qed.

Lemma pop_same (en : env) : pop (List.length en) en = en.
Proof. unfold pop. now rewrite Nat.sub_diag. Qed.
Lemma pop_one p (en : env) : pop (List.length en) (p :: en) = en.
Proof. unfold pop. cbn [List.length]. now replace (S (List.length en) - List.length en)%nat with 1%nat by lia. Qed.

(** The loop of all overloads: distances [dist k] compared with [eps], rejected
    elements [xs k], [ys k] of type [t] converted to int. *)
Section Loop.
  Variables (c : cfg) (t : sty) (eps : Z) (dist xs ys : nat -> Z).

  Definition rejected (k : nat) : bool := SFltb (decode F64 eps) (decode F64 (dist k)).

  (** true: all accepted; false: one rejected and printed *)
  Fixpoint scan (d k : nat) : res bool :=
    match d with
    | O => Ok true
    | S d' =>
        if rejected k then
          let* _ := convert c t I32 (ys k) in let* _ := convert c t I32 (xs k) in Ok false
        else scan d' (S k)
    end.

  Variables (m : memory) (i : string) (en : env) (n : nat) (de ee ae eps_e : expr).
  Definition at_k (k : nat) : env := (i, rv I32 (Z.of_nat k)) :: en.
  Definition with_diff (k : nat) : env := ("diff"%string, rv F64 (dist k)) :: at_k k.
  Hypothesis Hd : forall k, (k < n)%nat ->
    (let* o := eval c fabs_call (at_k k) m (ECall "fabs" de) in init_obj c (TScal F64) o) = Ok (rv F64 (dist k)).
  Hypothesis Heps : forall k, (k < n)%nat -> eval c fabs_call (with_diff k) m eps_e = Ok (rv F64 eps).
  Hypothesis Ha : forall k, (k < n)%nat -> eval c fabs_call (with_diff k) m ae = Ok (rv t (ys k)).
  Hypothesis He : forall k z, (k < n)%nat -> eval c fabs_call (("_a"%string, rv I32 z) :: with_diff k) m ee = Ok (rv t (xs k)).
  Hypothesis Hn : (n < 64)%nat.

  Lemma body_run k : (k < n)%nat ->
    (let* r := exec c fabs_call 64 (check de ee ae eps_e) (at_k k) m in Ok (pop_ctl (List.length (at_k k)) r)) =
    if rejected k then
      let* _ := convert c t I32 (ys k) in let* _ := convert c t I32 (xs k) in Ok (Returned (rv I32 0) m)
    else Ok (Normal (at_k k) m).
  Proof.
    intros Hk. unfold check. cbn [exec]. pose proof (Hd k Hk) as D.
    destruct (eval c fabs_call (at_k k) m (ECall "fabs" de)) as [o|]; cbn [bind] in D |- *; [|discriminate D].
    rewrite D. cbn [bind]. fold (with_diff k).
    change (eval c fabs_call (with_diff k) m (EBin BGt "diff"%string eps_e)) with
      (let* ob := eval c fabs_call (with_diff k) m eps_e in let* pb := scalar ob in binary c BGt F64 (dist k) (fst pb) (snd pb)).
    rewrite (Heps k Hk). cbn [bind scalar rv fst snd binary usual convert sty_eqb is_float compare_float].
    fold (rejected k). unfold of_bool, cond_value. cbn [bind scalar rv fst snd].
    destruct (rejected k).
    - change (truth I32 1) with true. cbn iota.
      change (eval c fabs_call (with_diff k) m (ECast I32 ae)) with
        (let* o := eval c fabs_call (with_diff k) m ae in let* p := scalar o in
         let* z := convert c (fst p) I32 (snd p) in Ok (rv I32 z)).
      rewrite (Ha k Hk). cbn [bind scalar rv fst snd].
      destruct (convert c t I32 (ys k)) as [iy|e]; cbn [bind]; [|reflexivity].
      cbn [init_obj scalar rv bind fst snd convert sty_eqb]. fold (rv I32 iy).
      change (eval c fabs_call (("_a"%string, rv I32 iy) :: with_diff k) m (ECast I32 ee)) with
        (let* o := eval c fabs_call (("_a"%string, rv I32 iy) :: with_diff k) m ee in let* p := scalar o in
         let* z := convert c (fst p) I32 (snd p) in Ok (rv I32 z)).
      rewrite (He k iy Hk). cbn [bind scalar rv fst snd].
      destruct (convert c t I32 (xs k)) as [ix|e]; cbn [bind]; reflexivity.
    - change (truth I32 0) with false. cbn iota. cbn [exec bind pop_ctl]. rewrite pop_same.
      cbn [bind pop_ctl]. unfold with_diff. now rewrite pop_one.
  Qed.

  Definition for_c : env -> memory -> res bool := for_cond c fabs_call (EBin BLt i (lit (Z.of_nat n)))%C.
  Definition for_s : env -> memory -> res ctl := for_step c fabs_call 64 i (EBin BAdd i (lit 1))%C (check de ee ae eps_e).

  Lemma cond_run k : for_c (at_k k) m = Ok (Z.of_nat k <? Z.of_nat n).
  Proof.
    unfold for_c, for_cond, at_k. cbn [eval lookup lit]. rewrite String.eqb_refl.
    cbn [bind scalar rv fst snd lit binary usual convert sty_eqb is_float compare_int].
    unfold of_bool, cond_value. cbn [bind scalar rv fst snd]. destruct (Z.of_nat k <? Z.of_nat n); reflexivity.
  Qed.

  Lemma next_run k : (k < n)%nat -> for_s (at_k k) m =
    if rejected k then
      let* _ := convert c t I32 (ys k) in let* _ := convert c t I32 (xs k) in Ok (Returned (rv I32 0) m)
    else Ok (Normal (at_k (S k)) m).
  Proof.
    intros Hk. unfold for_s, for_step. pose proof (body_run k Hk) as B.
    destruct (exec c fabs_call 64 (check de ee ae eps_e) (at_k k) m) as [r|e]; cbn [bind] in B |- *.
    - destruct (rejected k).
      + destruct (convert c t I32 (ys k)); cbn [bind] in B |- *; [|discriminate B].
        destruct (convert c t I32 (xs k)); cbn [bind] in B |- *; [|discriminate B].
        apply ok_inj in B. rewrite B. reflexivity.
      + apply ok_inj in B. rewrite B. unfold at_k at 1. cbn [eval lookup lit]. rewrite String.eqb_refl.
        cbn [bind scalar rv fst snd lit binary usual convert sty_eqb is_float].
        rewrite (arith_ok c I32) by (unfold in_range; cbn [lo hi]; lia).
        cbn [bind]. unfold assign, at_k. cbn [scalar rv bind fst snd lookup]. rewrite String.eqb_refl.
        cbn [put convert sty_eqb rv bind update]. rewrite String.eqb_refl. cbn [fst snd].
        replace (Z.of_nat k + 1) with (Z.of_nat (S k)) by lia. reflexivity.
    - destruct (rejected k).
      + destruct (convert c t I32 (ys k)); cbn [bind] in B |- *; [|exact B].
        destruct (convert c t I32 (xs k)); cbn [bind] in B |- *; [discriminate B|exact B].
      + discriminate B.
  Qed.

  Lemma loop_run d : forall k, (k + d = n)%nat ->
    loop (64 - k) for_c for_s (at_k k) m =
    let* r := scan d k in Ok (if r then Normal (at_k n) m else Returned (rv I32 0) m).
  Proof.
    induction d as [|d IH]; intros k Hk.
    - assert (k = n) by lia. subst k. cbn [scan bind].
      replace (64 - n)%nat with (S (63 - n)) by lia. cbn [loop]. rewrite cond_run, Z.ltb_irrefl. reflexivity.
    - replace (64 - k)%nat with (S (64 - S k)) by lia. cbn [loop scan]. rewrite cond_run.
      destruct (Z.ltb_spec (Z.of_nat k) (Z.of_nat n)); [|lia]. cbn [bind]. rewrite next_run by lia.
      destruct (rejected k).
      + destruct (convert c t I32 (ys k)); cbn [bind]; [|reflexivity].
        destruct (convert c t I32 (xs k)); cbn [bind]; reflexivity.
      + cbn [bind]. apply IH. lia.
  Qed.

  Lemma for_run :
    exec c fabs_call 64 (SFor I32 i (lit 0) (EBin BLt i (lit (Z.of_nat n))) (EBin BAdd i (lit 1)) (check de ee ae eps_e))%C en m =
    let* r := scan n 0 in Ok (if r then Normal en m else Returned (rv I32 0) m).
  Proof.
    rewrite (step_for c fabs_call 64 I32 i (lit 0) _ _ (check de ee ae eps_e) en m (rv I32 0) (rv I32 0) _ _ eq_refl eq_refl
      (loop_run n 0 eq_refl) eq_refl).
    destruct (scan n 0) as [[|]|e]; cbn [bind pop_ctl]; try reflexivity. unfold at_k. now rewrite pop_one.
  Qed.
End Loop.

(** ** The overloads for vectors *)

Section Vectors.
  Variables (c : cfg) (t : sty) (eps : Z).

  Definition widened (x : Z) : Z := match convert c t F64 x with Ok z => z | Err _ => 0 end.
  Definition distance (x y : Z) : Z := fabs_bits F64 (fop2 c FSub F64 (fsub F64) (widened x) (widened y)).
  Definition rejects (x y : Z) : bool := SFltb (decode F64 eps) (decode F64 (distance x y)).

  (** the same as [scan], on lists *)
  Fixpoint comparison (a b : list Z) : res bool :=
    match a, b with
    | x :: a', y :: b' =>
        if rejects x y then
          let* _ := convert c t I32 y in let* _ := convert c t I32 x in Ok false
        else comparison a' b'
    | _, _ => Ok true
    end.

  Lemma scan_comparison dist xs ys : forall (a b : list Z) k, List.length a = List.length b ->
    (forall j x y, nth_error a j = Some x -> nth_error b j = Some y ->
       dist (k + j)%nat = distance x y /\ xs (k + j)%nat = x /\ ys (k + j)%nat = y) ->
    scan c t eps dist xs ys (List.length a) k = comparison a b.
  Proof.
    induction a as [|x a IH]; intros [|y b] k L H; try discriminate L; [reflexivity|].
    cbn [List.length scan comparison]. destruct (H 0%nat x y eq_refl eq_refl) as (D & X & Y).
    rewrite Nat.add_0_r in D, X, Y. unfold rejected. rewrite D, X, Y. fold (rejects x y).
    destruct (rejects x y); [reflexivity|]. apply IH; [now injection L|].
    intros j u v Hu Hv. replace (S k + j)%nat with (k + S j)%nat by lia. now apply H.
  Qed.

  Hypothesis Hw : forall x, convert c t F64 x = Ok (widened x).

  Lemma idx_nth (l : list Z) k x : nth_error l k = Some x -> get_idx (map (rv t) l) (Z.of_nat k) = Ok (rv t x).
  Proof.
    intros H. unfold get_idx. destruct (Z.ltb_spec (Z.of_nat k) 0); [lia|].
    rewrite Nat2Z.id. now rewrite (map_nth_error _ _ _ H).
  Qed.

  (** Expressions that denote lane [k] of [a] and of [b], compared. *)
  Lemma fabs_run en m (ee ae : expr) x y :
    eval c fabs_call en m ee = Ok (rv t x) -> eval c fabs_call en m ae = Ok (rv t y) ->
    (let* o := eval c fabs_call en m (ECall "fabs" (EBin BSub (ECast F64 ee) (ECast F64 ae))) in init_obj c (TScal F64) o) =
    Ok (rv F64 (distance x y)).
  Proof.
    intros E1 E2. cbn [eval]. rewrite E1. cbn [bind scalar rv fst snd]. rewrite Hw. cbn [bind scalar rv fst snd].
    rewrite E2. cbn [bind scalar rv fst snd]. rewrite Hw. cbn [bind scalar rv fst snd]. reflexivity.
  Qed.

  Variables (n : nat) (a b : list Z) (m : memory).
  Hypothesis Hn : (n < 64)%nat.
  Hypothesis La : List.length a = n.
  Hypothesis Lb : List.length b = n.

  (** the loop over the lanes, in any surroundings *)
  Lemma lanes_run i en (ee ae eps_e : expr) :
    (forall pre k x, In pre [[]; [("diff"%string)]; [("_a"%string); ("diff"%string)]] ->
       nth_error a k = Some x -> forall os, List.length os = List.length pre ->
       eval c fabs_call (combine pre os ++ (i, rv I32 (Z.of_nat k)) :: en) m ee = Ok (rv t x)) ->
    (forall pre k y, In pre [[]; [("diff"%string)]; [("_a"%string); ("diff"%string)]] ->
       nth_error b k = Some y -> forall os, List.length os = List.length pre ->
       eval c fabs_call (combine pre os ++ (i, rv I32 (Z.of_nat k)) :: en) m ae = Ok (rv t y)) ->
    (forall k o, eval c fabs_call (("diff"%string, o) :: (i, rv I32 (Z.of_nat k)) :: en) m eps_e = Ok (rv F64 eps)) ->
    exec c fabs_call 64 (SFor I32 i (lit 0) (EBin BLt i (lit (Z.of_nat n))) (EBin BAdd i (lit 1))
      (check (EBin BSub (ECast F64 ee) (ECast F64 ae)) ee ae eps_e))%C en m =
    let* r := comparison a b in Ok (if r then Normal en m else Returned (rv I32 0) m).
  Proof.
    intros Hee Hae Heps.
    assert (Na : forall k, (k < n)%nat -> nth_error a k = Some (nth k a 0)) by (intros k Hk; apply nth_error_nth'; lia).
    assert (Nb : forall k, (k < n)%nat -> nth_error b k = Some (nth k b 0)) by (intros k Hk; apply nth_error_nth'; lia).
    rewrite (for_run c t eps (fun k => distance (nth k a 0) (nth k b 0)) (fun k => nth k a 0) (fun k => nth k b 0) m i en n); trivial.
    - rewrite <- La. rewrite (scan_comparison _ _ _ a b 0); [reflexivity|congruence|].
      intros j x y Hx Hy. cbn. rewrite (nth_error_nth _ _ 0 Hx), (nth_error_nth _ _ 0 Hy). auto.
    - intros k Hk. apply fabs_run.
      + exact (Hee [] k _ ltac:(cbn; auto) (Na k Hk) [] eq_refl).
      + exact (Hae [] k _ ltac:(cbn; auto) (Nb k Hk) [] eq_refl).
    - intros k Hk. apply Heps.
    - intros k Hk. exact (Hae [_] k _ ltac:(cbn; auto) (Nb k Hk) [_] eq_refl).
    - intros k z Hk. exact (Hee [_; _] k _ ltac:(cbn; auto) (Na k Hk) [_; _] eq_refl).
  Qed.

  Lemma compare_fun_run :
    compare_run c m (compare_fun t n) [vec t a; vec t b; rv F64 eps] =
    outcome_of (let* r := comparison a b in Ok (Some (rv I32 (if r then 1 else 0)), m)).
  Proof.
    unfold compare_run, run_body, compare_fun. cbn [f_params f_body f_ret].
    unfold vec at 1 2. cbn [bind_params init_obj tvec bind scalar rv fst snd convert sty_eqb].
    fold (vec t a). fold (vec t b). fold (rv F64 eps).
    set (en := [("expected"%string, vec t a); ("actual"%string, vec t b); ("eps"%string, rv F64 eps)]).
    assert (E : exec c fabs_call 64 (compare_body (Z.of_nat n)) en m =
      let* r := comparison a b in Ok (Returned (rv I32 (if r then 1 else 0)) m)).
    { unfold compare_body.
      match goal with |- exec _ _ _ (SSeq ?s ?s') _ _ = _ =>
        change (exec c fabs_call 64 (SSeq s s') en m) with
          (let* r := exec c fabs_call 64 s en m in
           match r with Normal en' m' => exec c fabs_call 64 s' en' m' | Returned _ _ => Ok r end) end.
      rewrite lanes_run.
      - destruct (comparison a b) as [[|]|e]; reflexivity.
      - intros pre k x Hpre Hx os Hos. pose proof (idx_nth a k x Hx) as I.
        destruct Hpre as [<-|[<-|[<-|[]]]]; repeat (destruct os as [|? os]; try discriminate Hos);
          cbn [combine app eval lookup String.eqb Ascii.eqb Bool.eqb bind int_value scalar rv index fst snd is_float en];
          exact I.
      - intros pre k x Hpre Hx os Hos. pose proof (idx_nth b k x Hx) as I.
        destruct Hpre as [<-|[<-|[<-|[]]]]; repeat (destruct os as [|? os]; try discriminate Hos);
          cbn [combine app eval lookup String.eqb Ascii.eqb Bool.eqb bind int_value scalar rv index fst snd is_float en];
          exact I.
      - intros k o. reflexivity. }
    rewrite E. destruct (comparison a b) as [[|]|e]; reflexivity.
  Qed.
End Vectors.

(** ** What is rejected: integers *)

Definition small_int (t : sty) : Prop := t = I8 \/ t = U8 \/ t = I16 \/ t = U16.

Lemma small_range t x : small_int t -> in_range t x -> - 2 ^ 16 <= x <= 2 ^ 16.
Proof. intros [-> | [-> | [-> | ->]]]; unfold in_range; cbn [lo hi]; lia. Qed.

Lemma widened_int c t x : small_int t -> convert c t F64 x = Ok (dbl x).
Proof. intros [-> | [-> | [-> | ->]]]; reflexivity. Qed.

Lemma rnd_int z : - 2 ^ 53 < z < 2 ^ 53 -> rnd F64 (IZR z) = IZR z.
Proof.
  intros Hz. apply round_generic; [apply valid_rnd_N|].
  apply generic_format_FLT. exists (Float radix2 z 0).
  - unfold F2R. cbn. ring.
  - cbn [Fnum precision]. change (Zpower radix2 53) with (2 ^ 53). lia.
  - cbn. lia.
Qed.

Lemma eps_rejects eps d : in_range F64 eps -> ffin F64 eps -> in_range F64 d -> ffin F64 d ->
  SFltb (decode F64 eps) (decode F64 (fabs_bits F64 d)) = Rlt_bool (fval F64 eps) (Rabs (fval F64 d)).
Proof.
  intros He Fe Hd Fd. destruct (fabs_fin F64 d f64 Hd Fd) as (Fa & Va). destruct (fabs_fields F64 d f64 Hd) as (Ra & _).
  rewrite (ltb_val _ _ He Ra Fe Fa). now rewrite Va.
Qed.

Lemma rejects_int c t eps x y : small_int t -> in_range F64 eps -> ffin F64 eps -> in_range t x -> in_range t y ->
  rejects c t eps x y = false <-> within (fval F64 eps) x y.
Proof.
  intros Ht He Fe Hx Hy. pose proof (small_range t x Ht Hx) as Bx. pose proof (small_range t y Ht Hy) as By.
  unfold rejects, distance, widened. rewrite !(widened_int c t _ Ht). fold (dsub c x y).
  destruct (dsub_spec c x y) as (R & F & V); [lia|lia|].
  rewrite (eps_rejects eps _ He Fe R F), V. unfold double_diff, within.
  rewrite !rnd_int by lia. rewrite <- minus_IZR, rnd_int by lia.
  destruct (Rlt_bool_spec (fval F64 eps) (Rabs (IZR (x - y)))); split; intros; try discriminate; trivial; lra.
Qed.

Lemma comparison_int c t eps : small_int t -> in_range F64 eps -> ffin F64 eps ->
  forall a b, Forall (in_range t) a -> Forall (in_range t) b -> List.length a = List.length b ->
  exists r, comparison c t eps a b = Ok r /\ (r = true <-> Forall2 (within (fval F64 eps)) a b).
Proof.
  intros Ht He Fe. induction a as [|x a IH]; intros [|y b] Ha Hb L; try discriminate L.
  - exists true. split; [reflexivity|]. split; [constructor|reflexivity].
  - inversion Ha as [|? ? Hx Ha']; subst. inversion Hb as [|? ? Hy Hb']; subst.
    pose proof (rejects_int c t eps x y Ht He Fe Hx Hy) as R. cbn [comparison].
    destruct (rejects c t eps x y).
    + assert (E : forall z, convert c t I32 z = Ok (wrap I32 z)) by (intros z; destruct Ht as [-> | [-> | [-> | ->]]]; reflexivity).
      rewrite !E. cbn [bind]. exists false. split; [reflexivity|]. split; [discriminate|].
      intros F. inversion F; subst. assert (true = false) by now apply R. discriminate.
    + destruct (IH b Ha' Hb' ltac:(now injection L)) as (r & E & I). exists r. split; [exact E|].
      rewrite I. split; intros F; [constructor; [now apply R|exact F]|now inversion F].
Qed.

Definition int_comparisons : list (func * sty * nat) :=
  [(almostEqual_uint8x8, U8, 8%nat); (almostEqual_int8x8, I8, 8%nat); (almostEqual_uint16x8, U16, 8%nat);
   (almostEqual_int16x8, I16, 8%nat); (almostEqual_int8x16, I8, 16%nat); (almostEqual_int16x4, I16, 4%nat)].

Lemma compare_int_fun t n c m a b eps : small_int t -> (n < 64)%nat -> lanes t n a -> lanes t n b ->
  in_range F64 eps -> ffin F64 eps ->
  exists r, compare_run c m (compare_fun t n) [vec t a; vec t b; rv F64 eps] = Returns m (Some (rv I32 r)) /\
    (r = 0 \/ r = 1) /\ (r = 1 <-> Forall2 (within (fval F64 eps)) a b).
Proof.
  intros Ht Hn [La Fa] [Lb Fb] He Fe.
  rewrite (compare_fun_run c t eps) by (try assumption; intros x; unfold widened; now rewrite (widened_int c t x Ht)).
  destruct (comparison_int c t eps Ht He Fe a b Fa Fb ltac:(congruence)) as (r & E & I). rewrite E.
  exists (if r then 1 else 0). split; [reflexivity|]. split; [destruct r; auto|].
  rewrite <- I. destruct r; split; congruence.
Qed.

Theorem int_compare : forall f t n, In (f, t, n) int_comparisons ->
  forall c m a b eps, lanes t n a -> lanes t n b -> in_range F64 eps -> ffin F64 eps ->
  exists r, compare_run c m f [vec t a; vec t b; rv F64 eps] = Returns m (Some (rv I32 r)) /\
    (r = 0 \/ r = 1) /\ (r = 1 <-> Forall2 (within (fval F64 eps)) a b).
Proof.
  intros f t n H. unfold int_comparisons in H. cbn [In] in H.
  each_entry H ltac:(intros; apply compare_int_fun; trivial; [unfold small_int; tauto | lia]).
Qed.

Lemma fval_zero : fval F64 0 = 0%R.
Proof. exact (proj2 (fzero_class F64 false (or_intror eq_refl))). Qed.

Lemma within_zero a b : Forall2 (within (fval F64 0)) a b <-> a = b.
Proof.
  rewrite fval_zero. split.
  - induction 1 as [|x y a b H _ IH]; [reflexivity|]. f_equal; [|exact IH].
    unfold within in H. apply eq_IZR. pose proof (Rabs_pos (IZR x - IZR y)).
    assert (E : Rabs (IZR x - IZR y) = 0%R) by lra. apply Rabs_eq_0 in E || apply Rabs_eq_R0 in E. lra.
  - intros ->. induction b as [|y b IH]; constructor; [|exact IH]. unfold within. rewrite Rminus_diag_eq by reflexivity. rewrite Rabs_R0. lra.
Qed.

(** With the default eps the comparison is equality. *)
Theorem int_compare_exact : forall f t n, In (f, t, n) int_comparisons ->
  forall c m a b, lanes t n a -> lanes t n b ->
  compare_run c m f [vec t a; vec t b; rv F64 0] =
    Returns m (Some (rv I32 (if list_eq_dec Z.eq_dec a b then 1 else 0))).
Proof.
  intros f t n H c m a b Ha Hb.
  destruct (int_compare f t n H c m a b 0 Ha Hb) as (r & E & R & I); [unfold in_range; cbn; lia|vm_compute; discriminate|].
  rewrite E. rewrite within_zero in I. do 3 f_equal. destruct (list_eq_dec Z.eq_dec a b) as [D|D].
  - now apply I.
  - destruct R as [R|R]; [exact R|]. exfalso. tauto.
Qed.

(** ** The overload for uint8x8x2_t *)

Lemma idx_vecs t (l : list (list Z)) k x : nth_error l k = Some x -> get_idx (map (vec t) l) (Z.of_nat k) = Ok (vec t x).
Proof.
  intros H. unfold get_idx. destruct (Z.ltb_spec (Z.of_nat k) 0); [lia|].
  rewrite Nat2Z.id. now rewrite (map_nth_error _ _ _ H).
Qed.

Lemma comparison_exact c t a b : small_int t -> Forall (in_range t) a -> Forall (in_range t) b -> List.length a = List.length b ->
  comparison c t 0 a b = Ok (if list_eq_dec Z.eq_dec a b then true else false).
Proof.
  intros Ht Ha Hb L.
  destruct (comparison_int c t 0 Ht ltac:(unfold in_range; cbn; lia) ltac:(vm_compute; discriminate) a b Ha Hb L) as (r & E & I).
  rewrite E. f_equal. rewrite within_zero in I. destruct (list_eq_dec Z.eq_dec a b) as [D|D]; [now apply I|].
  destruct r; [|reflexivity]. exfalso. now apply D, I.
Qed.

Theorem int_compare_pair c m vs ws : tuple U8 2 8 vs -> tuple U8 2 8 ws ->
  compare_run c m almostEqual_uint8x8x2 [vecs U8 vs; vecs U8 ws] =
    Returns m (Some (rv I32 (if list_eq_dec (list_eq_dec Z.eq_dec) vs ws then 1 else 0))).
Proof.
  intros [L1 F1] [L2 F2].
  destruct vs as [|a1 [|a2 [|? ?]]]; try discriminate L1. destruct ws as [|b1 [|b2 [|? ?]]]; try discriminate L2.
  inversion F1 as [|? ? A1 F1']; subst. inversion F1' as [|? ? A2 _]; subst.
  inversion F2 as [|? ? B1 F2']; subst. inversion F2' as [|? ? B2 _]; subst. clear F1 F1' F2 F2' L1 L2.
  unfold compare_run, run_body, almostEqual_uint8x8x2. cbn [f_params f_body f_ret].
  unfold vecs at 1 2. cbn [bind_params init_obj tvecs bind]. fold (vecs U8 [a1; a2]). fold (vecs U8 [b1; b2]).
  set (en := [("expected"%string, vecs U8 [a1; a2]); ("actual"%string, vecs U8 [b1; b2])]).
  match goal with |- context [SFor I32 "i" _ _ _ ?b] => set (body := b) end.
  assert (St : forall k a b, nth_error [a1; a2] k = Some a -> nth_error [b1; b2] k = Some b -> lanes U8 8 a -> lanes U8 8 b ->
    for_step c fabs_call 64 "i" (EBin BAdd "i"%string (lit 1))%C body (("i"%string, rv I32 (Z.of_nat k)) :: en) m =
    Ok (if list_eq_dec Z.eq_dec a b then Normal (("i"%string, rv I32 (Z.of_nat (S k))) :: en) m else Returned (rv I32 0) m)).
  { intros k a b Ha Hb [La Fa] [Lb Fb]. unfold for_step, body. change 8%Z with (Z.of_nat 8).
    assert (Hk : (k < 2)%nat) by (apply nth_error_Some || idtac; assert (H : nth_error [a1; a2] k <> None) by congruence; apply nth_error_Some in H; exact H).
    rewrite (lanes_run c U8 0 (fun x => eq_refl) 8 a b m ltac:(lia) La Lb).
    - rewrite comparison_exact by (first [assumption | congruence | unfold small_int; tauto]).
      cbn [bind]. destruct (list_eq_dec Z.eq_dec a b); [|reflexivity].
      cbn [pop_ctl]. rewrite pop_same.
      cbn [eval lookup lit String.eqb Ascii.eqb Bool.eqb bind scalar rv fst snd binary usual convert sty_eqb is_float].
      rewrite (arith_ok c I32) by (unfold in_range; cbn [lo hi]; lia).
      cbn [bind]. unfold assign. cbn [scalar rv bind fst snd lookup String.eqb Ascii.eqb Bool.eqb put convert sty_eqb update].
      replace (Z.of_nat k + 1) with (Z.of_nat (S k)) by lia. reflexivity.
    - intros pre j x Hpre Hx os Hos. pose proof (idx_nth U8 a j x Hx) as I. pose proof (idx_vecs U8 _ _ _ Ha) as I2.
      destruct Hpre as [<-|[<-|[<-|[]]]]; repeat (destruct os as [|? os]; try discriminate Hos);
        cbn [combine app eval lookup String.eqb Ascii.eqb Bool.eqb bind int_value scalar rv index fst snd is_float en];
        unfold vecs; cbn [index]; rewrite I2; cbn [bind]; unfold vec; cbn [index]; exact I.
    - intros pre j x Hpre Hx os Hos. pose proof (idx_nth U8 b j x Hx) as I. pose proof (idx_vecs U8 _ _ _ Hb) as I2.
      destruct Hpre as [<-|[<-|[<-|[]]]]; repeat (destruct os as [|? os]; try discriminate Hos);
        cbn [combine app eval lookup String.eqb Ascii.eqb Bool.eqb bind int_value scalar rv index fst snd is_float en];
        unfold vecs; cbn [index]; rewrite I2; cbn [bind]; unfold vec; cbn [index]; exact I.
    - intros j o. reflexivity. }
  pose proof (St 0%nat a1 b1 eq_refl eq_refl A1 B1) as S0. pose proof (St 1%nat a2 b2 eq_refl eq_refl A2 B2) as S1.
  assert (E : exec c fabs_call 64 (SFor I32 "i" (lit 0) (EBin BLt "i"%string (lit 2)) (EBin BAdd "i"%string (lit 1)) body)%C en m =
    Ok (if list_eq_dec (list_eq_dec Z.eq_dec) [a1; a2] [b1; b2] then Normal en m else Returned (rv I32 0) m)).
  { eapply (step_for c fabs_call 64 I32 "i" (lit 0) _ _ body en m (rv I32 (Z.of_nat 0)) (rv I32 (Z.of_nat 0))); [reflexivity|reflexivity| |].
    - change 64%nat with (S (S (S 61))) at 1. cbn [loop].
      change (for_cond c fabs_call (EBin BLt "i"%string (lit 2)) (("i"%string, rv I32 (Z.of_nat 0)) :: en) m) with (@Ok bool true).
      cbn [bind]. rewrite S0.
      instantiate (1 := Ok (if list_eq_dec (list_eq_dec Z.eq_dec) [a1; a2] [b1; b2] then
         Normal (("i"%string, rv I32 2) :: en) m else Returned (rv I32 0) m)).
      destruct (list_eq_dec Z.eq_dec a1 b1) as [D1|D1].
      + cbn [bind].
        change (for_cond c fabs_call (EBin BLt "i"%string (lit 2)) (("i"%string, rv I32 (Z.of_nat 1)) :: en) m) with (@Ok bool true).
        cbn [bind]. rewrite S1. destruct (list_eq_dec Z.eq_dec a2 b2) as [D2|D2].
        * cbn [bind].
          change (for_cond c fabs_call (EBin BLt "i"%string (lit 2)) (("i"%string, rv I32 (Z.of_nat 2)) :: en) m) with (@Ok bool false).
          cbn [bind]. destruct (list_eq_dec (list_eq_dec Z.eq_dec) [a1; a2] [b1; b2]) as [D|D]; [reflexivity|]. exfalso. apply D. congruence.
        * cbn [bind]. destruct (list_eq_dec (list_eq_dec Z.eq_dec) [a1; a2] [b1; b2]) as [D|D]; [|reflexivity]. exfalso. apply D2. congruence.
      + cbn [bind]. destruct (list_eq_dec (list_eq_dec Z.eq_dec) [a1; a2] [b1; b2]) as [D|D]; [|reflexivity]. exfalso. apply D1. congruence.
    - cbn [bind]. destruct (list_eq_dec (list_eq_dec Z.eq_dec) [a1; a2] [b1; b2]); reflexivity. }
  match goal with |- context [exec ?c ?f ?n (SSeq ?s ?s') ?e ?m] =>
    change (exec c f n (SSeq s s') e m) with
      (let* r := exec c f n s e m in match r with Normal en' m' => exec c f n s' en' m' | Returned _ _ => Ok r end) end.
  rewrite E. destruct (list_eq_dec (list_eq_dec Z.eq_dec) [a1; a2] [b1; b2]); reflexivity.
Qed.

(** ** The overload for float32x4_t *)

Lemma nan_accepted eps d : in_range F64 eps -> in_range F64 d -> fnan F64 d ->
  SFltb (decode F64 eps) (decode F64 (fabs_bits F64 d)) = false.
Proof.
  intros He Hd Nd. destruct (fabs_fields F64 d f64 Hd) as (Ra & _). pose proof (fabs_nan F64 d f64 Hd Nd) as Na.
  pose proof (ltb_flt F64 eps (fabs_bits F64 d) f64 He Ra) as H.
  destruct (SFltb _ _); [|reflexivity]. exfalso. destruct (proj1 H eq_refl) as [(_ & F & _)|[(_ & N & _)|(E & _)]].
  - exact (fin_not_nan _ _ F Na).
  - exact (N Na).
  - rewrite E in Na. eapply inf_not_nan; [apply (infinity_class F64 false f64)|exact Na].
Qed.

Lemma inf_rejected eps s : in_range F64 eps -> ffin F64 eps ->
  SFltb (decode F64 eps) (decode F64 (fabs_bits F64 (infinity F64 s))) = true.
Proof.
  intros He Fe. replace (fabs_bits F64 (infinity F64 s)) with (infinity F64 false) by (destruct s; reflexivity).
  apply (ltb_flt F64 _ _ f64 He); [unfold in_range; vm_compute; split; discriminate|].
  right; right. split; [reflexivity|]. split; [intros N; exact (fin_not_nan _ _ Fe N)|].
  intros ->. exact (infinity_not_fin F64 false f64 Fe).
Qed.

Section Float.
  Variables (c : cfg) (eps : Z).
  Hypothesis He : in_range F64 eps.
  Hypothesis Fe : ffin F64 eps.
  Variables (x y : Z).
  Hypothesis Hx : in_range F32 x.
  Hypothesis Hy : in_range F32 y.

  Let d : Z := fop2 c FSub F64 (fsub F64) (to_double c x) (to_double c y).

  Lemma d_range : in_range F64 d.
  Proof. apply fsub_range; [exact f64| |]; apply to_double_range. Qed.

  Lemma d_ieee : ieee_sub F64 (to_double c x) (to_double c y) d.
  Proof. apply fsub_ieee; [exact f64| |]; apply to_double_range. Qed.

  Lemma rejects_d : rejects c F32 eps x y = SFltb (decode F64 eps) (decode F64 (fabs_bits F64 d)).
  Proof. reflexivity. Qed.

  Lemma float_nan_accepted : some_nan x y -> rejects c F32 eps x y = false.
  Proof.
    intros N. rewrite rejects_d. apply nan_accepted; [exact He|exact d_range|].
    apply d_ieee. destruct N as [N|N]; [left|right]; now apply to_double_nan.
  Qed.

  Lemma float_finite : ffin F32 x -> ffin F32 y ->
    rejects c F32 eps x y = Rlt_bool (fval F64 eps) (Rabs (rnd F64 (fval F32 x - fval F32 y))).
  Proof.
    intros Fx Fy. rewrite rejects_d.
    destruct (to_double_fin c x Hx Fx) as (Fx' & Vx & _). destruct (to_double_fin c y Hy Fy) as (Fy' & Vy & _).
    destruct d_ieee as (_ & _ & _ & _ & S). specialize (S Fx' Fy'). rewrite Vx, Vy in S. unfold rounded in S.
    rewrite Rlt_bool_true in S.
    - destruct S as (Fd & Vd & _). rewrite (eps_rejects eps d He Fe d_range Fd). now rewrite Vd.
    - apply Rle_lt_trans with (bpow radix2 129); [|now apply bpow_lt]. apply rnd_bound; [reflexivity|].
      pose proof (fval_bound F32 x f32 Hx Fx) as Bx. pose proof (fval_bound F32 y f32 Hy Fy) as By. cbn [max_exp] in Bx, By.
      change 129%Z with (1 + 128)%Z. rewrite bpow_plus. change (bpow radix2 1) with 2%R.
      unfold Rminus. eapply Rle_trans; [apply Rabs_triang|]. rewrite Rabs_Ropp. lra.
  Qed.

  Lemma float_within_accepted : float_within (fval F64 eps) x y -> rejects c F32 eps x y = false.
  Proof.
    intros [(Ix & E)|(Fx & Fy & W)].
    - rewrite rejects_d. apply nan_accepted; [exact He|exact d_range|].
      destruct d_ieee as (_ & S & _). rewrite <- E in S. rewrite (to_double_inf c x Hx Ix) in S.
      destruct (infinity_class F64 (sign_bit F32 x) f64) as (I & _). specialize (S I I).
      rewrite Bool.eqb_reflx in S. exact S.
    - rewrite (float_finite Fx Fy). apply Rlt_bool_false.
      apply abs_round_le_generic; [now apply FLT_exp_valid|apply valid_rnd_N| |exact W].
      exact (fval_format F64 eps f64 He Fe).
  Qed.

  Lemma float_infinite_rejected : finf F32 x \/ finf F32 y -> ~ some_nan x y -> x <> y -> rejects c F32 eps x y = true.
  Proof.
    intros I N D. rewrite rejects_d.
    assert (Ex : finf F32 x \/ ffin F32 x).
    { destruct (fclass F32 x) as [C|[C|C]]; auto. exfalso. apply N. now left. }
    assert (Ey : finf F32 y \/ ffin F32 y).
    { destruct (fclass F32 y) as [C|[C|C]]; auto. exfalso. apply N. now right. }
    destruct d_ieee as (_ & S1 & S2 & S3 & _).
    assert (IC : forall s, finf F64 (infinity F64 s)) by (intros s; apply (infinity_class F64 s f64)).
    destruct Ex as [Ix|Fx], Ey as [Iy|Fy].
    - rewrite (to_double_inf c x Hx Ix), (to_double_inf c y Hy Iy) in S1. specialize (S1 (IC _) (IC _)).
      rewrite !(proj2 (infinity_class F64 _ f64)) in S1.
      destruct (Bool.eqb (sign_bit F32 x) (sign_bit F32 y)) eqn:E.
      + exfalso. apply D. apply Bool.eqb_prop in E. rewrite (inf_pattern F32 x f32 Hx Ix), (inf_pattern F32 y f32 Hy Iy). congruence.
      + rewrite S1. now apply inf_rejected.
    - rewrite (to_double_inf c x Hx Ix) in S2. rewrite (S2 (IC _) (proj1 (to_double_fin c y Hy Fy))). now apply inf_rejected.
    - rewrite (to_double_inf c y Hy Iy) in S3. rewrite (S3 (proj1 (to_double_fin c x Hx Fx)) (IC _)). now apply inf_rejected.
    - exfalso. destruct I as [I|I]; [exact (fin_not_inf _ _ Fx I)|exact (fin_not_inf _ _ Fy I)].
  Qed.
End Float.

Lemma float_multiple x : in_range F32 x -> ffin F32 x -> exists k, fval F32 x = (IZR k * bpow radix2 (-149))%R.
Proof.
  intros Hx Fx. pose proof (fval_format F32 x f32 Hx Fx) as G. cbn [min_exp precision] in G.
  apply FLT_format_generic in G; [|reflexivity]. destruct G as [f H1 H2 H3]. cbn [Fexp] in H3.
  exists (Fnum f * 2 ^ (Fexp f + 149)). rewrite H1. unfold F2R. rewrite mult_IZR.
  change (2 ^ (Fexp f + 149)) with (Zpower radix2 (Fexp f + 149)). rewrite IZR_Zpower by lia.
  rewrite Rmult_assoc, <- bpow_plus. do 2 f_equal. lia.
Qed.

Lemma rnd_nonzero v k : v = (IZR k * bpow radix2 (-149))%R -> v <> 0%R -> (0 < Rabs (rnd F64 v))%R.
Proof.
  intros E N. assert (K : k <> 0) by (intros ->; apply N; rewrite E; ring).
  apply Rlt_le_trans with (bpow radix2 (-149)); [apply bpow_gt_0|].
  apply abs_round_ge_generic; [now apply FLT_exp_valid|apply valid_rnd_N| |].
  - apply generic_format_bpow. unfold FLT_exp. cbn [precision min_exp]. lia.
  - rewrite E, Rabs_mult. rewrite (Rabs_pos_eq (bpow radix2 (-149))) by apply bpow_ge_0.
    rewrite <- (Rmult_1_l (bpow radix2 (-149))) at 1. apply Rmult_le_compat_r; [apply bpow_ge_0|].
    rewrite <- abs_IZR. apply IZR_le. lia.
Qed.

Lemma float_unequal_rejected c x y : in_range F32 x -> in_range F32 y ->
  ~ some_nan x y -> ~ float_within 0 x y -> rejects c F32 0 x y = true.
Proof.
  intros Hx Hy N W.
  assert (He : in_range F64 0) by (unfold in_range; cbn; lia). assert (Fe : ffin F64 0) by (vm_compute; discriminate).
  destruct (fclass F32 x) as [C|[C|C]]; [exfalso; apply N; now left| |].
  - apply float_infinite_rejected; auto. intros ->. apply W. left. auto.
  - destruct (fclass F32 y) as [D|[D|D]]; [exfalso; apply N; now right| |].
    + apply float_infinite_rejected; auto. intros ->. apply W. left. auto.
    + rewrite float_finite by assumption. rewrite fval_zero. apply Rlt_bool_true.
      destruct (float_multiple x Hx C) as (k & Ek). destruct (float_multiple y Hy D) as (j & Ej).
      apply (rnd_nonzero _ (k - j)).
      * rewrite Ek, Ej, minus_IZR. ring.
      * intros E. apply W. right. split; [exact C|]. split; [exact D|]. rewrite E, Rabs_R0. lra.
Qed.

Lemma comparison_accepts c t eps : forall a b, Forall2 (fun x y => rejects c t eps x y = false) a b ->
  comparison c t eps a b = Ok true.
Proof. induction 1 as [|x y a b H _ IH]; [reflexivity|]. cbn [comparison]. now rewrite H. Qed.

Lemma comparison_rejects c t eps : forall a b, List.length a = List.length b ->
  Forall (fun x => exists z, convert c t I32 x = Ok z) a -> Forall (fun x => exists z, convert c t I32 x = Ok z) b ->
  some_lane (fun x y => rejects c t eps x y = true) a b ->
  comparison c t eps a b = Ok false.
Proof.
  induction a as [|x a IH]; intros [|y b] L Ca Cb (i & u & v & Hu & Hv & R); try discriminate L; try (destruct i; discriminate).
  inversion Ca as [|? ? [zx Ex] Ca']; subst. inversion Cb as [|? ? [zy Ey] Cb']; subst.
  cbn [comparison]. destruct (rejects c t eps x y) eqn:E.
  - rewrite Ey. cbn [bind]. rewrite Ex. reflexivity.
  - destruct i as [|i]; cbn in Hu, Hv; [congruence|]. apply IH; auto. exists i, u, v. auto.
Qed.

Lemma castable_convert c x : in_range F32 x -> int_castable x -> exists z, convert c F32 I32 x = Ok z.
Proof.
  intros Hx [F T]. unfold convert. cbn [sty_eqb is_float].
  rewrite (trunc_spec F32 x f32 Hx). destruct (Z.eq_dec _ _) as [E|_]; [contradiction|].
  destruct (in_rangeb I32 (Ztrunc (fval F32 x))) eqn:R; [eauto|].
  exfalso. assert (in_rangeb I32 (Ztrunc (fval F32 x)) = true); [|congruence].
  apply in_rangeb_spec. unfold in_range. cbn [lo hi]. lia.
Qed.

Lemma float_run c m a b eps : lanes F32 4 a -> lanes F32 4 b ->
  compare_run c m almostEqual_float32x4 [vec F32 a; vec F32 b; rv F64 eps] =
  outcome_of (let* r := comparison c F32 eps a b in Ok (Some (rv I32 (if r then 1 else 0)), m)).
Proof. intros [La _] [Lb _]. apply (compare_fun_run c F32 eps (fun x => eq_refl) 4); trivial. lia. Qed.

Lemma Forall2_lanes (P Q : Z -> Z -> Prop) t a b : Forall (in_range t) a -> Forall (in_range t) b ->
  (forall x y, in_range t x -> in_range t y -> P x y -> Q x y) -> Forall2 P a b -> Forall2 Q a b.
Proof.
  intros Ha Hb H F. induction F as [|x y a b F1 F2 IH]; [constructor|].
  inversion Ha; inversion Hb; subst. constructor; auto.
Qed.

(** Floats that are within eps are accepted, and so is anything next to a NaN; *)
Theorem float_accepts c m a b eps : lanes F32 4 a -> lanes F32 4 b -> in_range F64 eps -> ffin F64 eps ->
  Forall2 (fun x y => float_within (fval F64 eps) x y \/ some_nan x y) a b ->
  compare_run c m almostEqual_float32x4 [vec F32 a; vec F32 b; rv F64 eps] = Returns m (Some (rv I32 1)).
Proof.
  intros Ha Hb He Fe F. rewrite (float_run c m a b eps Ha Hb). rewrite comparison_accepts; [reflexivity|].
  eapply (Forall2_lanes _ _ F32); [apply Ha|apply Hb| |exact F]. cbn beta.
  intros x y Hx Hy [W|N]; [now apply float_within_accepted|now apply float_nan_accepted].
Qed.

(** with the default eps everything else is rejected, if it can be printed. *)
Theorem float_rejects c m a b : lanes F32 4 a -> lanes F32 4 b ->
  Forall int_castable a -> Forall int_castable b ->
  some_lane (fun x y => ~ float_within 0 x y) a b ->
  compare_run c m almostEqual_float32x4 [vec F32 a; vec F32 b; rv F64 0] = Returns m (Some (rv I32 0)).
Proof.
  intros Ha Hb Ca Cb S. rewrite (float_run c m a b 0 Ha Hb).
  assert (Conv : forall l, Forall (in_range F32) l -> Forall int_castable l -> Forall (fun x => exists z, convert c F32 I32 x = Ok z) l).
  { intros l R C. rewrite Forall_forall in *. intros x Hx. apply castable_convert; auto. }
  rewrite comparison_rejects; [reflexivity| |apply Conv; [apply Ha|exact Ca]|apply Conv; [apply Hb|exact Cb]|].
  - destruct Ha as [-> _], Hb as [-> _]. reflexivity.
  - destruct S as (i & x & y & Hx & Hy & W). exists i, x, y. split; [exact Hx|]. split; [exact Hy|].
    apply float_unequal_rejected; [exact (lanes_nth F32 4 a i x Ha Hx)|exact (lanes_nth F32 4 b i y Hb Hy)| |exact W].
    assert (K : forall l z, Forall int_castable l -> nth_error l i = Some z -> ~ fnan F32 z).
    { intros l z F E N. apply nth_error_In in E. rewrite Forall_forall in F. destruct (F _ E) as [G _]. exact (fin_not_nan _ _ G N). }
    intros NN. destruct NN as [N|N]; [exact (K a x Ca Hx N)|exact (K b y Cb Hy N)].
Qed.

(** ** The overload for std::vector<float> *)

Definition vdistance (c : cfg) (x y : Z) : Z :=
  to_double c (fabs_bits F32 (fop2 c FSub F32 (fsub F32) x y)).

Lemma mem_nth m bk l k x : nth_error m bk = Some (F32, map Some l) -> nth_error l k = Some x ->
  mem_read m F32 bk (0 + Z.of_nat k) = Ok (rv F32 x).
Proof.
  intros Hm Hx. unfold mem_read, block in *. rewrite Hm. cbn [sty_eqb]. unfold get_idx. rewrite Z.add_0_l.
  destruct (Z.ltb_spec (Z.of_nat k) 0); [lia|]. rewrite Nat2Z.id. now rewrite (map_nth_error _ _ _ Hx).
Qed.

Lemma vdistance_run c en m (ee ae : expr) x y :
  eval c fabs_call en m ee = Ok (rv F32 x) -> eval c fabs_call en m ae = Ok (rv F32 y) ->
  (let* o := eval c fabs_call en m (ECall "fabs" (EBin BSub ee ae)) in init_obj c (TScal F64) o) =
  Ok (rv F64 (vdistance c x y)).
Proof.
  intros E1 E2. cbn [eval]. rewrite E1. cbn [bind scalar rv fst snd].
  rewrite E2. cbn [bind scalar rv fst snd]. reflexivity.
Qed.

(** The difference of a float and itself is zero or a NaN: never rejected. *)
Lemma vself_accepted c x : in_range F32 x -> SFltb (decode F64 0) (decode F64 (vdistance c x x)) = false.
Proof.
  intros Hx. set (d := fop2 c FSub F32 (fsub F32) x x).
  assert (Rd : in_range F32 d) by (apply fsub_range; [exact f32|exact Hx|exact Hx]).
  assert (I : ieee_sub F32 x x d) by (apply fsub_ieee; [exact f32|exact Hx|exact Hx]).
  destruct (fabs_fields F32 d f32 Rd) as (Ra & _).
  assert (C : fnan F32 d \/ (ffin F32 d /\ fval F32 d = 0%R)).
  { destruct I as (I1 & I2 & _ & _ & I5). destruct (fclass F32 x) as [C|[C|C]].
    - left. apply I1. now left.
    - left. specialize (I2 C C). now rewrite Bool.eqb_reflx in I2.
    - right. specialize (I5 C C). unfold rounded in I5. rewrite Rminus_diag_eq in I5 by reflexivity.
      replace (rnd F32 0) with 0%R in I5 by (symmetry; apply round_0, valid_rnd_N).
      rewrite Rabs_R0 in I5. rewrite Rlt_bool_true in I5 by apply bpow_gt_0. tauto. }
  assert (H0 : in_range F64 0) by (unfold in_range; cbn; lia). assert (F0 : ffin F64 0) by (vm_compute; discriminate).
  unfold vdistance. fold d.
  pose proof (to_double_range c (fabs_bits F32 d)) as Rt.
  destruct C as [N|[F V]].
  - pose proof (to_double_nan c _ Ra (fabs_nan F32 d f32 Rd N)) as N'.
    pose proof (ltb_flt F64 0 _ f64 H0 Rt) as H.
    destruct (SFltb _ _); [|reflexivity]. exfalso. destruct (proj1 H eq_refl) as [(_ & G & _)|[(_ & G & _)|(E & _)]].
    + exact (fin_not_nan _ _ G N').
    + exact (G N').
    + rewrite E in N'. eapply inf_not_nan; [apply (infinity_class F64 false f64)|exact N'].
  - destruct (fabs_fin F32 d f32 Rd F) as (Fa & Va). destruct (to_double_fin c _ Ra Fa) as (Ft & Vt & _).
    rewrite (ltb_val 0 _ H0 Rt F0 Ft), fval_zero, Vt, Va, V, Rabs_R0. apply Rlt_bool_false. lra.
Qed.

(** Whatever follows the first four elements is not looked at. *)
Theorem vector_prefix c m p q bp bq :
  nth_error m bp = Some (F32, map Some p) -> nth_error m bq = Some (F32, map Some q) ->
  Forall (in_range F32) p -> (4 <= List.length p)%nat -> (4 <= List.length q)%nat -> firstn 4 p = firstn 4 q ->
  compare_run c m almostEqual_vector [OPtr F32 bp 0; OPtr F32 bq 0; rv F64 0] = Returns m (Some (rv I32 1)).
Proof.
  intros Hp Hq Rp Lp Lq E.
  assert (Np : forall k, (k < 4)%nat -> nth_error p k = Some (nth k p 0)) by (intros k Hk; apply nth_error_nth'; lia).
  assert (Nq : forall k, (k < 4)%nat -> nth_error q k = Some (nth k p 0)).
  { intros k Hk. rewrite <- (Np k Hk). rewrite <- (firstn_skipn 4 q), <- (firstn_skipn 4 p).
    rewrite !nth_error_app1 by (rewrite firstn_length; lia). now rewrite E. }
  unfold compare_run, run_body, almostEqual_vector. cbn [f_params f_body f_ret].
  cbn [bind_params init_obj bind scalar rv fst snd convert sty_eqb]. fold (rv F64 0).
  set (en := [("expected"%string, OPtr F32 bp 0); ("actual"%string, OPtr F32 bq 0); ("eps"%string, rv F64 0)]).
  match goal with |- context [exec ?c ?f ?n (SSeq ?s ?s') ?e ?m] =>
    change (exec c f n (SSeq s s') e m) with
      (let* r := exec c f n s e m in match r with Normal en' m' => exec c f n s' en' m' | Returned _ _ => Ok r end) end.
  change (lit 4) with (lit (Z.of_nat 4)).
  assert (X : forall pre k, In pre [[]; [("diff"%string)]; [("_a"%string); ("diff"%string)]] -> (k < 4)%nat ->
     forall os, List.length os = List.length pre ->
     eval c fabs_call (combine pre os ++ ("i"%string, rv I32 (Z.of_nat k)) :: en) m (EIdx "expected"%string "i"%string) = Ok (rv F32 (nth k p 0)) /\
     eval c fabs_call (combine pre os ++ ("i"%string, rv I32 (Z.of_nat k)) :: en) m (EIdx "actual"%string "i"%string) = Ok (rv F32 (nth k p 0))).
  { intros pre k Hpre Hk os Hos. pose proof (mem_nth m bp p k _ Hp (Np k Hk)) as I1. pose proof (mem_nth m bq q k _ Hq (Nq k Hk)) as I2.
    destruct Hpre as [<-|[<-|[<-|[]]]]; repeat (destruct os as [|? os]; try discriminate Hos); split; assumption. }
  rewrite (for_run c F32 0 (fun k => vdistance c (nth k p 0) (nth k p 0)) (fun k => nth k p 0) (fun k => nth k p 0) m "i" en 4).
  - assert (A : forall k, (k < 4)%nat -> rejected 0 (fun k => vdistance c (nth k p 0) (nth k p 0)) k = false).
    { intros k Hk. apply vself_accepted. rewrite Forall_forall in Rp. apply Rp. eapply nth_error_In. exact (Np k Hk). }
    cbn [scan]. rewrite !A by lia. reflexivity.
  - intros k Hk. apply vdistance_run; apply (X [] k ltac:(cbn; auto) Hk [] eq_refl).
  - intros k Hk. reflexivity.
  - intros k Hk. apply (X [_] k ltac:(cbn; auto) Hk [_] eq_refl).
  - intros k z Hk. apply (X [_; _] k ltac:(cbn; auto) Hk [_; _] eq_refl).
  - lia.
Qed.
