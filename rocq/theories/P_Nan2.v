(** From the relation of P_Nan.v to the specification of NanSpec.v. *)
From Coq Require Import ZArith List String Bool Lia.
From Coq Require Import Floats.SpecFloat.
From Verif Require Import Types FloatBits FloatSpec FloatR Syntax Interp ProgRecip Library Lane Spec Tables MetaSpec NanSpec PropBase.
From Verif Require Import P_Cast P_Recip P_Meta P_Valid P_Valid2 P_Det P_Nan.
Import ListNotations.
Open Scope Z_scope.

Lemma enc_dec t k z : fty t -> in_range t z -> decode t z <> S754_nan -> encode t k (decode t z) = z.
Proof.
  intros Ht Hz N.
  assert (Hs : fsgn t = fexps t * fhid t /\ hi t = 2 * fsgn t - 1 /\ lo t = 0 /\ 0 < fhid t /\ 2 < fexps t)
    by (destruct Ht as [-> | ->]; cbn; lia).
  destruct Hs as (Hs & Hh & Hl & Hp & Hq). unfold in_range in Hz.
  pose proof (Z.div_mod z (fhid t) ltac:(lia)) as D. pose proof (Z.mod_pos_bound z (fhid t) Hp) as B.
  assert (Q : z / fhid t = (if fsgn t <=? z then fexps t else 0) + (z / fhid t) mod fexps t).
  { destruct (Z.leb_spec (fsgn t) z).
    - assert (fexps t <= z / fhid t) by (apply Z.div_le_lower_bound; lia).
      assert (z / fhid t < 2 * fexps t) by (apply Z.div_lt_upper_bound; nia).
      replace ((z / fhid t) mod fexps t) with (z / fhid t - fexps t); [lia|]. apply (Z.mod_unique _ _ 1); lia.
    - rewrite Z.mod_small; [lia|]. split; [apply Z.div_pos; lia|]. apply Z.div_lt_upper_bound; nia. }
  pose proof (Z.mod_pos_bound (z / fhid t) (fexps t) ltac:(lia)) as Be.
  revert N. unfold decode. set (m := z mod fhid t) in *. set (e := (z / fhid t) mod fexps t) in *.
  assert (S : z = fsign t (fsgn t <=? z) + e * fhid t + m).
  { unfold fsign. destruct (fsgn t <=? z); nia. }
  clearbody m e. destruct (fsgn t <=? z) eqn:Es; clear Es.
  all: destruct (Z.eqb_spec e 0) as [E0|E0]; [|destruct (Z.eqb_spec e (fexps t - 1)) as [E1|E1]].
  all: intros N.
  all: try (destruct (Z.eqb_spec m 0); [|contradiction]; cbn [encode]; rewrite S; subst; lia).
  all: try (destruct m as [|p|p]; cbn [encode]; [rewrite S; subst; lia| |lia]; destruct (Z.ltb_spec (Zpos p) (fhid t)); [|lia]; rewrite S; subst; lia).
  all: destruct (m + fhid t) as [|p|p] eqn:Ep; [lia| |lia]; cbn [encode]; destruct (Z.ltb_spec (Zpos p) (fhid t)); [lia|]; rewrite S; nia.
Qed.

Lemma float_ty t : is_float t = true -> fty t.
Proof. unfold fty. destruct t; try discriminate; auto. Qed.

Lemma nan_decode t z : fty t -> in_range t z -> (fnan t z <-> decode t z = S754_nan).
Proof.
  intros Ht Hz. destruct (decode_decoded t z Ht Hz) as [N|F E|F V E|m e F V B]; split; intros H; try discriminate; try reflexivity; try exact N; exfalso.
  - destruct H as [_ H], F as [_ F]. contradiction.
  - destruct H as [H _]. contradiction.
  - destruct H as [H _]. contradiction.
Qed.

Lemma srel_same t z z' : in_range t z -> in_range t z' -> srel t z z' -> same_value t z z'.
Proof.
  intros R R' H. unfold srel in H. destruct (is_float t) eqn:F; [|left; exact H]. pose proof (float_ty t F) as T.
  assert (C : decode t z = S754_nan \/ decode t z <> S754_nan) by (destruct (decode t z); (now left) || (now right)).
  destruct C as [C|C].
  - right. split; [destruct T; auto|]. split; apply nan_decode; trivial. congruence.
  - left. rewrite <- (enc_dec t 0 z T R C), H. apply enc_dec; trivial. congruence.
Qed.
Lemma same_srel t z z' : in_range t z -> in_range t z' -> same_value t z z' -> srel t z z'.
Proof.
  intros R R' [->|(T & N & N')]; [apply srel_refl|]. unfold srel.
  assert (T' : fty t) by exact T. replace (is_float t) with true by (destruct T as [-> | ->]; reflexivity).
  rewrite (proj1 (nan_decode t z T' R) N), (proj1 (nan_decode t z' T' R') N'). reflexivity.
Qed.

Definition cell_in (t : sty) (v : option Z) : Prop := forall z, v = Some z -> in_range t z.
Lemma vrel_same t v v' : cell_in t v -> cell_in t v' -> vrel t v v' <-> same_cell t v v'.
Proof.
  intros R R'. destruct v as [z|], v' as [z'|]; cbn; split; intros H; try contradiction; try (now inversion H); try (now constructor).
  - apply same_some, srel_same; auto.
  - inversion H; subst. apply same_srel; auto.
Qed.

(** All scalars in range. *)
Inductive ranged : obj -> Prop :=
| ra_scal t v : cell_in t v -> ranged (OScal t v)
| ra_arr l : Forall ranged l -> ranged (OArr l)
| ra_ptr t b i : ranged (OPtr t b i).

Lemma typed_ranged m o : forall t, has_type m t o -> ranged o.
Proof.
  induction o as [s v|l IH|s b i] using o_ind; intros t H; inversion H; subst; constructor; trivial.
  - rewrite Forall_forall in *. intros x I. eapply IH; eauto.
  - match goal with F : Forall2 _ _ _ |- _ => clear H; induction F; constructor; inversion IH; subst; eauto end.
Qed.

Lemma orel_same o : forall o', ranged o -> ranged o' -> orel o o' <-> same_object o o'.
Proof.
  induction o as [s v|l IH|s b i] using o_ind; intros o' R R'.
  - split; intros H; inversion H; subst; inversion R; inversion R'; subst; constructor; now apply vrel_same.
  - assert (K : forall k, Forall ranged l -> Forall ranged k -> Forall2 orel l k <-> Forall2 same_object l k).
    { clear R R'. induction IH as [|x l Hx _ IH]; intros k R R'; [split; intros H; inversion H; constructor|].
      inversion R; subst. split; intros H; inversion H; subst; inversion R'; subst; (constructor; [now apply Hx|now apply IH]). }
    split; intros H; inversion H; subst; inversion R; inversion R'; subst; constructor; now apply K.
  - split; intros H; inversion H; subst; constructor.
Qed.

Lemma mrel_same m m' : well_typed m -> well_typed m' -> mrel m m' <-> same_memory m m'.
Proof.
  intros W W'. unfold mrel, same_memory.
  assert (C : forall t l l', Forall (cell_in t) l -> Forall (cell_in t) l' -> Forall2 (vrel t) l l' <-> Forall2 (same_cell t) l l').
  { intros t l. induction l as [|v l IH]; intros l' R R'; [split; intros H; inversion H; constructor|].
    inversion R; subst. split; intros H; inversion H; subst; inversion R'; subst; (constructor; [now apply vrel_same|now apply IH]). }
  revert m' W'. induction W as [|[t l] m B _ IH]; intros m' W'; [split; intros H; inversion H; constructor|].
  cbn [fst snd] in B.
  split; intros H; inversion H as [|? [t' l'] ? ? [E L]]; subst; cbn [fst snd] in *; subst t'; inversion W' as [|? ? B' W2]; subst; cbn [fst snd] in *;
    (constructor; [split; [reflexivity|now apply C]|now apply IH]).
Qed.

Lemma args_ranged m f args : typed_args m f args -> Forall ranged args.
Proof. unfold typed_args. induction 1; constructor; eauto using typed_ranged. Qed.
Lemma args_rel args args' : Forall ranged args -> Forall ranged args' -> Forall2 same_object args args' -> Forall2 orel args args'.
Proof.
  intros R R' H. revert R R'. induction H; intros R R'; constructor; inversion R; inversion R'; subst; [now apply orel_same|now apply IHForall2].
Qed.

Definition exempt : list func :=
  FPRecipEstimate :: vrecpeq_f32 :: map (fun e => fst (fst (fst (fst e)))) vreinterpret_table.

Lemma library_no_copy : forallb (fun f => no_copy (f_body f) || existsb (fun g => String.eqb (f_name f) (f_name g)) exempt) library = true.
Proof. vm_compute. reflexivity. Qed.

Lemma exempt_unique : Forall (fun g => filter (fun f => String.eqb (f_name g) (f_name f)) library = [g]) exempt.
Proof. repeat (constructor; [vm_compute; reflexivity|]). constructor. Qed.

Lemma library_cases f : In f library -> no_copy (f_body f) = true \/ In f exempt.
Proof.
  intros I. pose proof (proj1 (forallb_forall _ _) library_no_copy f I) as H. cbv beta in H.
  apply orb_true_iff in H. destruct H as [H|H]; [now left|]. right. apply existsb_exists in H. destruct H as (g & G & E).
  apply String.eqb_eq in E. pose proof (proj1 (Forall_forall _ _) exempt_unique g G) as U. cbv beta in U.
  now rewrite (unique (f_name g) g f U I E).
Qed.

Lemma reinterpret_same f t n t' n' : In (f, t, n, t', n') vreinterpret_table -> forall c c' m o, run c m f [o] = run c' m f [o].
Proof.
  intros H c c' m o. cbn [In vreinterpret_table] in H.
  repeat (destruct H as [H|H]; [injection H as <- <- <- <- <-; reflexivity|]). contradiction.
Qed.

Lemma outcome_rel r r' : rrel vmrel r r' ->
  match outcome_of r, outcome_of r' with
  | Returns m v, Returns m' v' => vmrel (v, m) (v', m')
  | o, o' => o = o'
  end.
Proof. destruct r as [[v m]|e], r' as [[v' m']|e']; cbn; try contradiction; [auto|]. intros ->. now destruct e'. Qed.

Lemma outcome_same f c c' m m' args args' : In f library -> well_typed m -> well_typed m' ->
  typed_args m f args -> typed_args m' f args' ->
  match run c m f args, run c' m' f args' with
  | Returns m v, Returns m' v' => vmrel (v, m) (v', m')
  | o, o' => o = o'
  end -> same_outcome (run c m f args) (run c' m' f args').
Proof.
  intros I W W' T T' H. pose proof (any_call f c m args I W T) as K. pose proof (any_call f c' m' args' I W' T') as K'.
  destruct (run c m f args) as [n v| |k| |], (run c' m' f args') as [n' v'| |k'| |]; try discriminate; try contradiction.
  - destruct H as [V M]. cbn [fst snd] in V, M. destruct K as (K1 & K2 & _), K' as (K1' & K2' & _).
    apply (mrel_same n n' K2 K2') in M. destruct v as [v|], v' as [v'|]; try contradiction; constructor; trivial.
    apply orel_same; trivial; eapply typed_ranged; eassumption.
  - constructor.
  - injection H as <-. constructor.
Qed.


Lemma reinterpret_params f t n t' n' : In (f, t, n, t', n') vreinterpret_table ->
  map snd (f_params f) = [tvec t n] /\ (is_float t = true -> In (f_name f) inspects_bits).
Proof.
  intros H. cbn [In vreinterpret_table] in H.
  repeat (destruct H as [H|H]; [injection H as <- <- <- <- <-; split; [reflexivity|intros F; try discriminate F; cbn; tauto]|]). contradiction.
Qed.

Lemma int_vec_eq m m' t n o o' : is_float t = false -> has_type m (tvec t n) o -> has_type m' (tvec t n) o' -> orel o o' -> o = o'.
Proof.
  intros F T T' R. inversion T as [|? ? l L FL| |]; subst. inversion T' as [|? ? l' L' FL'| |]; subst. inversion R as [|? ? RL|]; subst.
  f_equal. clear -F FL FL' RL. revert FL FL'. induction RL as [|x y l l' X _ IH]; intros A B; [reflexivity|].
  inversion A as [|? ? A1 A2]; subst. inversion B as [|? ? B1 B2]; subst. f_equal; [|now apply IH].
  inversion A1; subst. inversion B1; subst. inversion X as [? ? ? V| |]; subst. f_equal.
  destruct v, v0; cbn in V; try contradiction; trivial. unfold srel in V. rewrite F in V. now subst.
Qed.

Lemma vmrel_refl m v m' : mrel m m' -> vmrel (v, m) (v, m').
Proof. intros H. split; [|exact H]. cbn. destruct v; [apply orel_refl|exact I]. Qed.

Lemma params_no_pointers f t n : map snd (f_params f) = [tvec t n] -> no_pointers f.
Proof.
  intros E p s I K. apply (in_map snd) in I. rewrite E in I. destruct I as [I|[]]. rewrite K in I. discriminate I.
Qed.

Theorem nan_payloads f c c' m m' args args' : In f library -> ~ In (f_name f) inspects_bits -> wrapv c = wrapv c' ->
  well_typed m -> well_typed m' -> typed_args m f args -> typed_args m' f args' ->
  same_memory m m' -> Forall2 same_object args args' -> same_outcome (run c m f args) (run c' m' f args').
Proof.
  intros I NI HW W W' T T' M A. apply outcome_same; trivial.
  pose proof (args_rel _ _ (args_ranged _ _ _ T) (args_ranged _ _ _ T') A) as R. apply (mrel_same m m' W W') in M.
  destruct (library_cases f I) as [N|[<-|[<-|E]]].
  - apply outcome_rel. apply body_rel; trivial.
  - exfalso. apply NI. now left.
  - exfalso. apply NI. right. now left.
  - apply in_map_iff in E. destruct E as ([[[[g t] n] t'] n'] & <- & E). cbn [fst] in *.
    destruct (reinterpret_params _ _ _ _ _ E) as [P F].
    assert (Ft : is_float t = false) by (destruct (is_float t); [exfalso; auto|reflexivity]).
    pose proof (params_no_pointers _ _ _ P) as NP. pose proof (memory_irrelevant g c m m' args I NP T) as MI.
    assert (EA : exists o, args = [o] /\ args' = [o]).
    { unfold typed_args in T, T'. destruct (f_params g) as [|[x u] [|]]; try discriminate P. injection P as ->.
      inversion T as [|? o ? ? T1 T2]; subst. inversion T2; subst. inversion T' as [|? o' ? ? T1' T2']; subst. inversion T2'; subst.
      inversion R; subst. exists o. split; [reflexivity|]. f_equal. symmetry. cbn [snd] in *. eapply int_vec_eq; eassumption. }
    destruct EA as (o & -> & ->). rewrite (reinterpret_same _ _ _ _ _ E c' c m' o).
    destruct (run c m g [o]) as [n1 v| |k| |]; [|rewrite MI; reflexivity..].
    destruct MI as [-> ->]. now apply vmrel_refl.
Qed.

Lemma recip_run c m x : in_range F32 x -> run c m FPRecipEstimate [rv F32 x] = Returns m (Some (rv F32 (recip_bits x))).
Proof.
  intros R. pose proof (call_recip c 2 x R) as H. rewrite (call_run c loop_fuel 3 _ FPRecipEstimate) in H by reflexivity.
  assert (I : In FPRecipEstimate library) by (cbn; tauto).
  assert (T : forall n, typed_args n FPRecipEstimate [rv F32 x]).
  { intros n. constructor; [|constructor]. constructor. intros z E. injection E as <-. exact R. }
  assert (NP : no_pointers FPRecipEstimate) by (intros p s [<-|[]]; discriminate).
  pose proof (memory_irrelevant FPRecipEstimate c [] m _ I NP (T [])) as MI.
  unfold run in MI at 1. destruct (run_body c _ loop_fuel FPRecipEstimate [rv F32 x] []) as [[v n]|e] eqn:E.
  - cbn [outcome_of] in MI. destruct MI as [_ ->]. cbn [bind fst] in H. destruct v; congruence.
  - discriminate H.
Qed.

Theorem platform f c c' m args : In f library -> wrapv c = wrapv c' -> well_typed m -> typed_args m f args ->
  Forall initialised args -> same_outcome (run c m f args) (run c' m f args).
Proof.
  intros I HW W T J. apply outcome_same; trivial.
  assert (Same : forall o, match o with Returns m v => match o with Returns m' v' => vmrel (v, m) (v', m') | _ => o = o end | _ => o = o end).
  { intros [n v| | | |]; trivial. apply vmrel_refl, mrel_refl. }
  assert (Eq : run c m f args = run c' m f args -> match run c m f args, run c' m f args with
      | Returns m v, Returns m' v' => vmrel (v, m) (v', m') | o, o' => o = o' end).
  { intros ->. destruct (run c' m f args); trivial. apply vmrel_refl, mrel_refl. }
  destruct (library_cases f I) as [N|[<-|[<-|E]]].
  - apply outcome_rel. apply body_rel; trivial; [|apply mrel_refl]. apply Forall2_refl, orel_refl.
  - apply Eq. unfold typed_args in T. cbn in T. inversion T as [|? o ? ? T1 T2]; subst. inversion T2; subst. cbn in T1.
    inversion T1 as [s v V| | |]; subst. inversion J as [|? ? J1]; subst. inversion J1; subst.
    etransitivity; [|symmetry]; apply recip_run; now apply V.
  - apply Eq. unfold typed_args in T. cbn in T. inversion T as [|? o ? ? T1 T2]; subst. inversion T2; subst. cbn [snd] in T1.
    inversion J as [|? ? J1]; subst. destruct (typed_vec m F32 4 o T1 J1) as (l & -> & L). rewrite !vrecpeq_f32_run by exact L. reflexivity.
  - apply in_map_iff in E. destruct E as ([[[[g t] n] t'] n'] & <- & E). cbn [fst] in *. apply Eq.
    destruct (reinterpret_params _ _ _ _ _ E) as [P _]. unfold typed_args in T. destruct (f_params g) as [|[x u] [|]]; try discriminate P.
    inversion T as [|? o ? ? T1 T2]; subst. inversion T2; subst. apply (reinterpret_same _ _ _ _ _ E).
Qed.

Lemma no_float_struct ts : no_float (TStruct ts) = forallb no_float ts.
Proof. induction ts as [|t ts IH]; [reflexivity|]. cbn in *. now rewrite IH. Qed.

Lemma same_equal o : forall m m' t o', no_float t = true -> has_type m t o -> has_type m' t o' -> same_object o o' -> o = o'.
Proof.
  induction o as [s v|l IH|s b i] using o_ind; intros m m' t o' N T T' S; inversion S as [? ? w C|? k L|]; subst.
  - f_equal. inversion C as [|x y [E|(F & _)]]; subst; try reflexivity. exfalso. inversion T; subst. destruct F as [-> | ->]; discriminate.
  - f_equal. inversion T as [|n u l0 EL FL|ts l0 FL|]; subst.
    + inversion T' as [|n' u' l1 EL' FL'| |]; subst. cbn in N. clear -IH N L FL FL'. revert FL FL'.
      induction L as [|x y l k X _ IHL]; intros A B; [reflexivity|]. inversion A; inversion B; inversion IH; subst. f_equal; eauto.
    + inversion T' as [| |ts' l1 FL'|]; subst. rewrite no_float_struct in N. clear -IH N L FL FL'. revert ts FL FL' N.
      induction L as [|x y l k X _ IHL]; intros ts A B N; [reflexivity|]. inversion A; subst. inversion B; subst. inversion IH; subst.
      cbn in N. apply andb_true_iff in N. destruct N. f_equal; eauto.
  - reflexivity.
Qed.

Theorem integer_platform f c c' m args : In f library -> is_store f = false -> no_float (f_ret f) = true -> wrapv c = wrapv c' ->
  well_typed m -> typed_args m f args -> Forall initialised args -> run c m f args = run c' m f args.
Proof.
  intros I S N HW W T J. pose proof (platform f c c' m args I HW W T J) as P.
  pose proof (any_call f c m args I W T) as K. pose proof (any_call f c' m args I W T) as K'.
  inversion P as [n n' v w M O E E'|n n' M E E'|E E'|k E E']; try reflexivity.
  - rewrite <- E in K. rewrite <- E' in K'. destruct K as (K1 & _ & _ & K2), K' as (K1' & _ & _ & K2').
    rewrite (K2 S), (K2' S). do 2 f_equal. eapply same_equal; eassumption.
  - rewrite <- E in K. rewrite <- E' in K'. destruct K as (K1 & _ & _ & K2), K' as (K1' & _ & _ & K2'). now rewrite (K2 S), (K2' S).
Qed.

Theorem payloads_refuted : forall n, In n inspects_bits -> n <> "FPRecipEstimate"%string ->
  exists f args args', In f library /\ f_name f = n /\ typed_args [] f args /\ typed_args [] f args' /\
    Forall2 same_object args args' /\ ~ same_outcome (run strict [] f args) (run strict [] f args').
Proof.
  assert (V : forall x y, fnan F32 x -> fnan F32 y -> Forall2 same_object [vec F32 [x; 0; 0; 0]] [vec F32 [y; 0; 0; 0]]).
  { intros x y X Y. constructor; [|constructor]. constructor. constructor; [constructor; constructor; right; auto|].
    repeat (constructor; [constructor; constructor; now left|]). constructor. }
  assert (D : forall x y, fnan F64 x -> fnan F64 y -> Forall2 same_object [vec F64 [x; 0]] [vec F64 [y; 0]]).
  { intros x y X Y. constructor; [|constructor]. constructor. constructor; [constructor; constructor; right; auto|].
    repeat (constructor; [constructor; constructor; now left|]). constructor. }
  assert (N1 : fnan F32 2143289344) by (split; [reflexivity|discriminate]).
  assert (N2 : fnan F32 4290772992) by (split; [reflexivity|discriminate]).
  assert (M1 : fnan F64 9221120237041090560) by (split; [reflexivity|discriminate]).
  assert (M2 : fnan F64 18444492273895866368) by (split; [reflexivity|discriminate]).
  assert (T : forall f x, f_params f = [("a"%string, tvec F32 4)] \/ f_params f = [("N"%string, tvec F32 4)] -> in_range F32 x -> typed_args [] f [vec F32 [x; 0; 0; 0]]).
  { intros f x P X. unfold typed_args.
    assert (has_type [] (tvec F32 4) (vec F32 [x; 0; 0; 0])).
    { constructor; [reflexivity|]. repeat (apply Forall_cons; [apply ht_scal; intros z E; injection E as <-; trivial; unfold in_range; cbn; lia|]). apply Forall_nil. }
    destruct P as [-> | ->]; (constructor; [assumption|constructor]). }
  assert (T' : forall f x, f_params f = [("a"%string, tvec F64 2)] -> in_range F64 x -> typed_args [] f [vec F64 [x; 0]]).
  { intros f x P X. unfold typed_args.
    assert (has_type [] (tvec F64 2) (vec F64 [x; 0])).
    { constructor; [reflexivity|]. repeat (apply Forall_cons; [apply ht_scal; intros z E; injection E as <-; trivial; unfold in_range; cbn; lia|]). apply Forall_nil. }
    rewrite P; (constructor; [assumption|constructor]). }
  assert (R : forall t x y l k, (t = U8 \/ t = U32 \/ (t = F32 /\ ~ fnan F32 x)) -> x <> y ->
     ~ same_outcome (Returns [] (Some (OArr (OScal t (Some x) :: l)))) (Returns [] (Some (OArr (OScal t (Some y) :: k))))).
  { intros t x y l k Ht Hxy H. inversion H as [? ? ? ? _ O| | |]; subst. inversion O as [|? ? L|]; subst. inversion L as [|? ? ? ? A]; subst.
    inversion A as [? ? ? C| |]; subst. inversion C as [|? ? [E|(F & N & _)]]; subst; [contradiction|]. destruct Ht as [->|[->|[-> Q]]]; [destruct F; discriminate..|contradiction]. }
  assert (L : forall f, In f [vrecpeq_f32; vreinterpretq_u8_f32; vreinterpretq_u8_f64; vreinterpretq_u32_f32; vreinterpretq_u32_f64] -> In f library).
  { intros f H. cbn in H. repeat (destruct H as [<-|H]; [repeat (first [left; reflexivity|right])|]). contradiction. }
  intros n [<-|H] Hn; [contradiction|].
  cbn in H. repeat (destruct H as [<-|H]; [|]); [| | | | |contradiction].
  - exists vrecpeq_f32, [vec F32 [2143289344; 0; 0; 0]], [vec F32 [4290772992; 0; 0; 0]].
    split; [apply L; cbn; tauto|]. split; [reflexivity|]. split; [apply T; [now right|unfold in_range; cbn; lia]|]. split; [apply T; [now right|unfold in_range; cbn; lia]|].
    split; [now apply V|].
    match goal with |- ~ same_outcome ?a ?b => let a' := eval vm_compute in a in let b' := eval vm_compute in b in
      change (~ same_outcome a' b') end.
    apply (R F32); [|discriminate]. right. right. split; [reflexivity|]. intros [E _]. discriminate E.
  - exists vreinterpretq_u8_f32, [vec F32 [2143289344; 0; 0; 0]], [vec F32 [2143289345; 0; 0; 0]].
    split; [apply L; cbn; tauto|]. split; [reflexivity|]. split; [apply T; [now left|unfold in_range; cbn; lia]|]. split; [apply T; [now left|unfold in_range; cbn; lia]|].
    split; [apply V; trivial; split; [reflexivity|discriminate]|].
    match goal with |- ~ same_outcome ?a ?b => let a' := eval vm_compute in a in let b' := eval vm_compute in b in
      change (~ same_outcome a' b') end.
    apply (R U8); [tauto|discriminate].
  - exists vreinterpretq_u8_f64, [vec F64 [9221120237041090560; 0]], [vec F64 [9221120237041090561; 0]].
    split; [apply L; cbn; tauto|]. split; [reflexivity|]. split; [apply T'; [reflexivity|unfold in_range; cbn; lia]|]. split; [apply T'; [reflexivity|unfold in_range; cbn; lia]|].
    split; [apply D; trivial; split; [reflexivity|discriminate]|].
    match goal with |- ~ same_outcome ?a ?b => let a' := eval vm_compute in a in let b' := eval vm_compute in b in
      change (~ same_outcome a' b') end.
    apply (R U8); [tauto|discriminate].
  - exists vreinterpretq_u32_f32, [vec F32 [2143289344; 0; 0; 0]], [vec F32 [2143289345; 0; 0; 0]].
    split; [apply L; cbn; tauto|]. split; [reflexivity|]. split; [apply T; [now left|unfold in_range; cbn; lia]|]. split; [apply T; [now left|unfold in_range; cbn; lia]|].
    split; [apply V; trivial; split; [reflexivity|discriminate]|].
    match goal with |- ~ same_outcome ?a ?b => let a' := eval vm_compute in a in let b' := eval vm_compute in b in
      change (~ same_outcome a' b') end.
    apply (R U32); [tauto|discriminate].
  - exists vreinterpretq_u32_f64, [vec F64 [9221120237041090560; 0]], [vec F64 [9221120237041090561; 0]].
    split; [apply L; cbn; tauto|]. split; [reflexivity|]. split; [apply T'; [reflexivity|unfold in_range; cbn; lia]|]. split; [apply T'; [reflexivity|unfold in_range; cbn; lia]|].
    split; [apply D; trivial; split; [reflexivity|discriminate]|].
    match goal with |- ~ same_outcome ?a ?b => let a' := eval vm_compute in a in let b' := eval vm_compute in b in
      change (~ same_outcome a' b') end.
    apply (R U32); [tauto|discriminate].
Qed.
