(** Reciprocal estimate and step. *)
From Coq Require Import ZArith String List Bool Lia Reals Lra.
From Flocq Require Import Core.
From Verif Require Import Types FloatBits FloatSpec FloatR Syntax Interp ProgRecip ExecLemmas Lane Spec Ew Sym Tables.
From Verif Require Import ProgShift P_AddSub P_SubMore P_Shift P_Float.
Import ListNotations.
Open Scope Z_scope.

(** ** The constructor of float_parts *)

Definition parts (s f e : Z) (l3 l4 l5 l6 : list Z) : obj :=
  OArr [rv U32 s; rv U32 f; rv U32 e; vec I32 l3; vec I32 l4; vec I8 l5; vec I8 l6].

Ltac rx := cbv -[Z.land Z.shiftr wrap Z.modulo Z.div Z.mul].

(** the statements of the constructor after [memcpy], split at the two string loops *)
Definition str_env s f e l3 l4 l5 l6 d2 d1 v x : env :=
  [("n2", rv I32 23); ("data2", rv I32 d2); ("n1", rv I32 8); ("data1", rv I32 d1);
   ("v_bits", rv U32 v); ("this", parts s f e l3 l4 l5 l6); ("v", rv F32 x)]%string.

Fixpoint drop_seq (k : nat) (s : stmt) : stmt :=
  match k, s with S k', SSeq _ s2 => drop_seq k' s2 | _, _ => s end.
Definition head_seq (s : stmt) : stmt := match s with SSeq s1 _ => s1 | _ => s end.


Local Open Scope string_scope.
Local Open Scope Z_scope.
Local Open Scope list_scope.

Lemma shift_l23 c : shift_left c I32 1 23 = Ok 8388608.
Proof. unfold shift_left. destruct (wrapv c); reflexivity. Qed.

Section Ctor.
  Variables (c : cfg) (cf : string -> obj -> res obj).
  Let ex := exec c cf loop_fuel.

  Lemma str_loop1 s f e b0 b1 b2 b3 b4 b5 b6 b7 l4 l5 l6 d2 d1 v x m :
    Forall (fun b => 0 <= b <= 1) [b0; b1; b2; b3; b4; b5; b6; b7] -> lanes I8 8 l5 ->
    ex (head_seq (drop_seq 14 (f_body float_parts_ctor))) (str_env s f e [b0; b1; b2; b3; b4; b5; b6; b7] l4 l5 l6 d2 d1 v x) m
    = Ok (Normal (str_env s f e [b0; b1; b2; b3; b4; b5; b6; b7] l4 (map (fun b => b + 48) [b0; b1; b2; b3; b4; b5; b6; b7]) l6 d2 d1 v x) m).
  Proof.
    intros H H5. repeat (apply Forall_cons_iff in H; destruct H as [? H]). clear H.
    explode H5. unfold ex, str_env, parts. cbn [head_seq drop_seq f_body float_parts_ctor]. stepper.
  Qed.

  Lemma str_loop2 s f e l3 b0 b1 b2 b3 b4 b5 b6 b7 b8 b9 b10 b11 b12 b13 b14 b15 b16 b17 b18 b19 b20 b21 b22 l5 l6 d2 d1 v x m :
    Forall (fun b => 0 <= b <= 1) [b0; b1; b2; b3; b4; b5; b6; b7; b8; b9; b10; b11; b12; b13; b14; b15; b16; b17; b18; b19; b20; b21; b22] -> lanes I8 23 l6 ->
    ex (head_seq (drop_seq 15 (f_body float_parts_ctor))) (str_env s f e l3 [b0; b1; b2; b3; b4; b5; b6; b7; b8; b9; b10; b11; b12; b13; b14; b15; b16; b17; b18; b19; b20; b21; b22] l5 l6 d2 d1 v x) m
    = Ok (Normal (str_env s f e l3 [b0; b1; b2; b3; b4; b5; b6; b7; b8; b9; b10; b11; b12; b13; b14; b15; b16; b17; b18; b19; b20; b21; b22] l5 (map (fun b => b + 48) [b0; b1; b2; b3; b4; b5; b6; b7; b8; b9; b10; b11; b12; b13; b14; b15; b16; b17; b18; b19; b20; b21; b22]) d2 d1 v x) m).
  Proof.
    intros H H6. repeat (apply Forall_cons_iff in H; destruct H as [? H]). clear H.
    explode H6. unfold ex, str_env, parts. cbn [head_seq drop_seq f_body float_parts_ctor]. stepper.
  Qed.

  Lemma land1 z : 0 <= Z.land z 1 <= 1.
  Proof. change 1 with (Z.ones 1). rewrite (Z.land_ones z 1) by lia. pose proof (Z.mod_pos_bound z (2 ^ 1) ltac:(lia)). cbn in *. lia. Qed.

  Definition bits_env s f e (l3 l4 : list (option Z)) l5 l6 v x : env :=
    [("v_bits", rv U32 v);
     ("this", OArr [rv U32 s; rv U32 f; rv U32 e; OArr (map (OScal I32) l3); OArr (map (OScal I32) l4); vec I8 l5; vec I8 l6]);
     ("v", rv F32 x)].

  Fixpoint bits_upto (n : nat) (d : Z) (acc : list Z) : list Z :=
    match n with O => acc | S n' => bits_upto n' (Z.shiftr d 1) (Z.land d 1 :: acc) end.

  Lemma bits_loop1 s f e l4 l5 l6 v x m d1 :
    exists d', ex (head_seq (drop_seq 10 (f_body float_parts_ctor)))
      ([("n1", rv I32 8); ("data1", rv I32 d1)] ++ bits_env s f e (repeat None 8) l4 l5 l6 v x) m
    = Ok (Normal ([("n1", rv I32 8); ("data1", rv I32 d')] ++ bits_env s f e (map Some (bits_upto 8 d1 [])) l4 l5 l6 v x) m).
  Proof.
    eexists. unfold ex, bits_env. cbn [head_seq drop_seq f_body float_parts_ctor]. rx. reflexivity.
  Qed.

  Lemma bits_loop2 s f e l3 l5 l6 v x m d2 d1 :
    exists d', ex (head_seq (drop_seq 13 (f_body float_parts_ctor)))
      ([("n2", rv I32 23); ("data2", rv I32 d2); ("n1", rv I32 8); ("data1", rv I32 d1)] ++ bits_env s f e l3 (repeat None 23) l5 l6 v x) m
    = Ok (Normal ([("n2", rv I32 23); ("data2", rv I32 d'); ("n1", rv I32 8); ("data1", rv I32 d1)] ++
          bits_env s f e l3 (map Some (bits_upto 23 d2 [])) l5 l6 v x) m).
  Proof.
    eexists. unfold ex, bits_env. cbn [head_seq drop_seq f_body float_parts_ctor]. rx. reflexivity.
  Qed.

  Lemma bits_upto_spec n d acc : Forall (fun b => 0 <= b <= 1) acc ->
    Forall (fun b => 0 <= b <= 1) (bits_upto n d acc) /\ length (bits_upto n d acc) = (n + length acc)%nat.
  Proof.
    revert d acc. induction n as [|n IH]; intros d acc H; cbn [bits_upto]; [now split|].
    destruct (IH (Z.shiftr d 1) (Z.land d 1 :: acc)) as [H1 H2].
    { constructor; [apply land1|exact H]. }
    split; [exact H1|]. rewrite H2. cbn. lia.
  Qed.

  Lemma memcpy_bits x : in_range F32 x -> memcpy_obj (OScal U32 None) (rv F32 x) 4 = Ok (rv U32 x).
  Proof.
    intros Hx. cbv -[wrap Z.add Z.mul Z.div Z.modulo].
    do 3 f_equal. rewrite wrap_id; unfold in_range in *; cbn [lo hi] in *; Z.to_euclidean_division_equations; lia.
  Qed.

  Lemma explode_bits n d : Forall (fun b => 0 <= b <= 1) (bits_upto n d []) /\ length (bits_upto n d []) = n.
  Proof. destruct (bits_upto_spec n d [] (Forall_nil _)) as [H1 H2]. split; [exact H1|]. rewrite H2. cbn. lia. Qed.

  Lemma ctor_run x m : in_range F32 x -> exists l3 l4 l5 l6,
    ex (f_body float_parts_ctor) [("v", rv F32 x)] m
    = Ok (Returned (parts (Z.land (Z.shiftr x 31) 1) (Z.land x 8388607) (Z.land (Z.shiftr x 23) 255) l3 l4 l5 l6) m).
  Proof.
    intros Hx. set (s := Z.land (Z.shiftr x 31) 1). set (f := Z.land x 8388607). set (e := Z.land (Z.shiftr x 23) 255).
    destruct (bits_loop1 s f e (repeat None 23) (repeat 48 8) (repeat 48 23) x x m (wrap I32 e)) as [d1 L1].
    set (l3 := bits_upto 8 (wrap I32 e) []) in *.
    destruct (bits_loop2 s f e (map Some l3) (repeat 48 8) (repeat 48 23) x x m (wrap I32 f) d1) as [d2 L2].
    set (l4 := bits_upto 23 (wrap I32 f) []) in *.
    destruct (explode_bits 8 (wrap I32 e)) as [F3 N3]. fold l3 in F3, N3. clearbody l3.
    destruct (explode_bits 23 (wrap I32 f)) as [F4 N4]. fold l4 in F4, N4. clearbody l4.
    assert (L3 : ex (head_seq (drop_seq 14 (f_body float_parts_ctor)))
        (str_env s f e l3 l4 (repeat 48 8) (repeat 48 23) d2 d1 x x) m
      = Ok (Normal (str_env s f e l3 l4 (map (fun b => b + 48) l3) (repeat 48 23) d2 d1 x x) m)).
    { do 8 (destruct l3 as [|? l3]; [discriminate N3|]). destruct l3; [|discriminate N3].
      apply str_loop1; [exact F3|]. split; [reflexivity|]. repeat constructor; discriminate. }
    assert (L4 : ex (head_seq (drop_seq 15 (f_body float_parts_ctor)))
        (str_env s f e l3 l4 (map (fun b => b + 48) l3) (repeat 48 23) d2 d1 x x) m
      = Ok (Normal (str_env s f e l3 l4 (map (fun b => b + 48) l3) (map (fun b => b + 48) l4) d2 d1 x x) m)).
    { clear L1 L2 L3. do 23 (destruct l4 as [|? l4]; [discriminate N4|]). destruct l4; [|discriminate N4].
      apply str_loop2; [exact F4|]. split; [reflexivity|]. repeat constructor; discriminate. }
    exists l3, l4, (map (fun b => b + 48) l3), (map (fun b => b + 48) l4).
    unfold ex in *. cbn [f_body float_parts_ctor head_seq drop_seq] in *.
    eapply step_seq; [reflexivity|].
    eapply step_seq; [cbv -[Z.land]; reflexivity|].
    eapply step_seq; [cbv -[Z.land]; reflexivity|].
    eapply step_seq; [cbv -[Z.land]; reflexivity|].
    eapply step_seq.
    { cbn [exec eval bind int_value scalar rv fst snd is_float lookup String.eqb Ascii.eqb Bool.eqb].
      change (OScal F32 (Some x)) with (rv F32 x). change (fresh (TScal U32)) with (OScal U32 None).
      rewrite (memcpy_bits x Hx). reflexivity. }
    eapply step_seq; [leaf|].
    eapply step_seq; [leaf|].
    eapply step_seq; [leaf|].
    eapply step_seq; [leaf|].
    eapply step_seq; [leaf|].
    eapply step_seq; [exact L1|].
    eapply step_seq; [reflexivity|].
    eapply step_seq; [leaf|].
    eapply step_seq; [exact L2|].
    assert (E : [("n2", rv I32 23); ("data2", rv I32 d2); ("n1", rv I32 8); ("data1", rv I32 d1)] ++
      bits_env s f e (map Some l3) (map Some l4) (repeat 48 8) (repeat 48 23) x x
      = str_env s f e l3 l4 (repeat 48 8) (repeat 48 23) d2 d1 x x).
    { unfold bits_env, str_env, parts, vec. rewrite !map_map. reflexivity. }
    rewrite E.
    eapply step_seq; [exact L3|].
    eapply step_seq; [exact L4|].
    reflexivity.
  Qed.
End Ctor.

(** ** The estimate *)

Definition estimate (k : Z) : Z := (524288 / (2 * k + 1) + 1) / 2.

Lemma call_run c fuel d name f a : find (fun g => String.eqb (f_name g) name) helpers = Some f ->
  call_helper c helpers fuel (S d) name a
  = let* r := run_body c (call_helper c helpers fuel d) fuel f [a] [] in
    match fst r with Some v => Ok v | None => Err EStuck end.
Proof. intros H. cbn [call_helper]. now rewrite H. Qed.

Lemma call_ctor c d x : in_range F32 x -> exists l3 l4 l5 l6,
  call_helper c helpers loop_fuel (S d) "float_parts::float_parts" (rv F32 x)
  = Ok (parts (Z.land (Z.shiftr x 31) 1) (Z.land x 8388607) (Z.land (Z.shiftr x 23) 255) l3 l4 l5 l6).
Proof.
  intros Hx. destruct (ctor_run c (call_helper c helpers loop_fuel d) x [] Hx) as (l3 & l4 & l5 & l6 & E).
  exists l3, l4, l5, l6. rewrite (call_run c loop_fuel d _ float_parts_ctor) by reflexivity.
  unfold run_body. change (bind_params c (f_params float_parts_ctor) [rv F32 x]) with (Ok [("v", rv F32 x)]).
  cbn [bind]. rewrite E. reflexivity.
Qed.

Lemma call_estimate c d k : 256 <= k <= 511 ->
  call_helper c helpers loop_fuel (S d) "RecipEstimate" (rv U32 k) = Ok (rv U32 (estimate k)).
Proof.
  intros Hk. rewrite (call_run c loop_fuel d _ RecipEstimate) by reflexivity. unfold run_body.
  sx. remember (k * 2 + 1) as q eqn:Eq. destruct q as [|q|q]; [lia| |lia].
  assert (Hq : 0 <= 524288 / Zpos q < 1023).
  { split; [apply Z.div_pos; lia|]. apply Z.div_lt_upper_bound; lia. }
  rewrite Z.quot_div_nonneg by lia. sx.
  rewrite Z.quot_div_nonneg by lia.
  assert (Hr : 0 <= (524288 / Zpos q + 1) / 2 <= 512) by (Z.to_euclidean_division_equations; lia).
  sx. unfold estimate. rewrite (Z.mul_comm 2 k), <- Eq. reflexivity.
Qed.

Lemma estimate_range k : 256 <= k <= 511 -> 256 <= estimate k <= 511.
Proof.
  intros Hk. unfold estimate. assert (512 <= 524288 / (2 * k + 1) < 1023).
  { split; [apply Z.div_le_lower_bound; lia|]. apply Z.div_lt_upper_bound; lia. }
  Z.to_euclidean_division_equations; lia.
Qed.

Lemma lor_add n a b : 0 <= n -> 0 <= b < 2 ^ n -> Z.lor (a * 2 ^ n) b = a * 2 ^ n + b.
Proof.
  intros Hn Hb. rewrite <- Z.lxor_lor, <- Z.add_nocarry_lxor; trivial; apply Z.bits_inj'; intros i Hi;
  rewrite Z.land_spec, Z.bits_0; (destruct (Z.lt_ge_cases i n);
   [rewrite Z.mul_pow2_bits_low by lia; reflexivity |
    replace (Z.testbit b i) with false; [apply andb_false_r|];
    symmetry; destruct (Z.eq_dec b 0) as [->|]; [apply Z.bits_0|]; apply Z.bits_above_log2; [lia|];
    apply Z.log2_lt_pow2; [lia|]; pose proof (Z.pow_le_mono_r 2 n i); lia]).
Qed.

(** The pattern the estimate computes, by fields: same sign, exponent 253 minus the
    exponent, and the leading fraction bits of the 9-bit estimate. *)
Definition recip_bits (x : Z) : Z :=
  (if sign_bit F32 x then 2 ^ 31 else 0) + (253 - exp_field F32 x) mod 256 * 2 ^ 23
  + (estimate (256 + frac_field F32 x / 2 ^ 15) - 256) * 2 ^ 15.

Lemma shl_u32 c z k : 0 <= k < 32 -> shift_left c U32 z k = Ok (wrap U32 (z * 2 ^ k)).
Proof.
  intros Hk. unfold shift_left. cbn [width is_signed].
  rewrite (proj2 (Z.leb_le 0 k)), (proj2 (Z.ltb_lt k 32)) by lia. reflexivity.
Qed.

Lemma land_small n z : 0 <= n -> 0 <= z < 2 ^ n -> Z.land z (Z.ones n) = z.
Proof. intros Hn Hz. rewrite Z.land_ones by exact Hn. now apply Z.mod_small. Qed.

Lemma pack_fields s f e : 0 <= s <= 1 -> 0 <= f < 2 ^ 23 ->
  Z.lor (Z.lor (wrap U32 (Z.land s 1 * 2 ^ 31)) (Z.land f 8388607)) (wrap U32 (Z.land e 255 * 2 ^ 23))
  = s * 2 ^ 31 + e mod 256 * 2 ^ 23 + f.
Proof.
  intros Hs Hf. change 1 with (Z.ones 1) at 1. change 8388607 with (Z.ones 23). change 255 with (Z.ones 8).
  rewrite (land_small 1 s), (land_small 23 f) by (cbn; lia). rewrite Z.land_ones by lia.
  change (2 ^ 8) with 256. assert (He : 0 <= e mod 256 < 256) by (apply Z.mod_pos_bound; lia).
  set (q := e mod 256) in *. clearbody q.
  rewrite !wrap_id by (unfold in_range; cbn [lo hi]; change (2 ^ 31) with 2147483648 in *; change (2 ^ 23) with 8388608 in *; lia).
  rewrite <- Z.lor_assoc, (Z.lor_comm f), Z.lor_assoc.
  replace (s * 2 ^ 31) with (s * 256 * 2 ^ 23) by lia.
  replace (Z.lor (s * 256 * 2 ^ 23) (q * 2 ^ 23)) with ((s * 256 + q) * 2 ^ 23).
  - rewrite lor_add by lia. lia.
  - rewrite <- !Z.shiftl_mul_pow2 by lia. rewrite <- Z.shiftl_lor. f_equal.
    symmetry. change 256 with (2 ^ 8) at 1. apply lor_add; lia.
Qed.

Lemma memcpy_back v : in_range U32 v -> memcpy_obj (OScal F32 None) (rv U32 v) 4 = Ok (rv F32 v).
Proof.
  intros Hx. cbv -[wrap Z.add Z.mul Z.div Z.modulo].
  do 3 f_equal. rewrite wrap_id; unfold in_range in *; cbn [lo hi] in *; Z.to_euclidean_division_equations; lia.
Qed.

Lemma call_to_float c d s f e l3 l4 l5 l6 : 0 <= s <= 1 -> 0 <= f < 2 ^ 23 ->
  call_helper c helpers loop_fuel (S d) "float_parts::operator float" (parts s f e l3 l4 l5 l6)
  = Ok (rv F32 (s * 2 ^ 31 + e mod 256 * 2 ^ 23 + f)).
Proof.
  intros Hs Hf. rewrite (call_run c loop_fuel d _ float_parts_to_float) by reflexivity. unfold run_body.
  change (bind_params c (f_params float_parts_to_float) [parts s f e l3 l4 l5 l6]) with (Ok [("this", parts s f e l3 l4 l5 l6)]).
  cbn [bind]. pose proof (pack_fields s f e Hs Hf) as P.
  assert (R : in_range U32 (s * 2 ^ 31 + e mod 256 * 2 ^ 23 + f)).
  { pose proof (Z.mod_pos_bound e 256 ltac:(lia)). unfold in_range; cbn [lo hi].
    change (2 ^ 31) with 2147483648 in *; change (2 ^ 23) with 8388608 in *; lia. }
  set (v := s * 2 ^ 31 + e mod 256 * 2 ^ 23 + f) in *. clearbody v.
  match goal with |- context [exec c ?cf ?fu (f_body float_parts_to_float) ?en []] =>
    assert (E : exec c cf fu (f_body float_parts_to_float) en [] = Ok (Returned (rv F32 v) [])) end.
  { cbn [f_body float_parts_to_float]. eapply step_seq with (en1 := [("v_bits", rv U32 v); ("this", parts s f e l3 l4 l5 l6)]).
    { unfold parts. rewrite <- P. clear P. change (2 ^ 31) with 2147483648; change (2 ^ 23) with 8388608. sx0.
      rewrite shl_u32, shift_l23 by lia. sx0. sx_step. sx_step. sx0. sx_step. sx0. sx_step. sx0.
      rewrite shl_u32 by lia. sx0. reflexivity. }
    eapply step_seq; [reflexivity|]. eapply step_seq.
    { cbn [exec eval bind int_value scalar rv fst snd is_float lookup String.eqb Ascii.eqb Bool.eqb].
      change (OScal U32 (Some v)) with (rv U32 v). change (fresh (TScal F32)) with (OScal F32 None).
      rewrite (memcpy_back v R). reflexivity. }
    reflexivity. }
  rewrite E. reflexivity.
Qed.

Lemma call_recip c d x : in_range F32 x ->
  call_helper c helpers loop_fuel (S (S d)) "FPRecipEstimate" (rv F32 x) = Ok (rv F32 (recip_bits x)).
Proof.
  intros Hx. rewrite (call_run c loop_fuel (S d) _ FPRecipEstimate) by reflexivity. unfold run_body.
  change (bind_params c (f_params FPRecipEstimate) [rv F32 x]) with (Ok [("operand", rv F32 x)]).
  cbn [bind]. destruct (call_ctor c d x Hx) as (l3 & l4 & l5 & l6 & C).
  set (s := Z.land (Z.shiftr x 31) 1) in *. set (f := Z.land x 8388607) in *. set (e := Z.land (Z.shiftr x 23) 255) in *.
  assert (Hf : f = frac_field F32 x) by (subst f; change 8388607 with (Z.ones 23); now rewrite Z.land_ones by lia).
  assert (He : e = exp_field F32 x).
  { subst e. change 255 with (Z.ones 8). rewrite Z.land_ones, Z.shiftr_div_pow2 by lia. reflexivity. }
  assert (Hs : s * 2 ^ 31 = if sign_bit F32 x then 2 ^ 31 else 0).
  { subst s. unfold sign_bit. cbn [width].
    replace (Z.land (Z.shiftr x 31) 1) with (Z.shiftr x 31 mod 2) by (symmetry; exact (Z.land_ones (Z.shiftr x 31) 1 ltac:(lia))).
    change (32 - 1) with 31. rewrite Zmod_odd.
    replace (Z.testbit x 31) with (Z.odd (Z.shiftr x 31)) by (rewrite <- Z.bit0_odd, Z.shiftr_spec by lia; reflexivity).
    destruct (Z.odd _); reflexivity. }
  assert (Rs : 0 <= s <= 1) by apply land1.
  assert (Rf : 0 <= f < 8388608) by (rewrite Hf; apply Z.mod_pos_bound; reflexivity).
  assert (Re : 0 <= e < 256) by (rewrite He; apply Z.mod_pos_bound; reflexivity).
  clearbody s f e.
  set (k := 256 + f / 2 ^ 15).
  assert (Rk : 256 <= k <= 511) by (subst k; change (2 ^ 15) with 32768; Z.to_euclidean_division_equations; lia).
  assert (Ek : Z.lor 256 (Z.land (Z.shiftr f 15) 255) = k).
  { subst k. rewrite Z.shiftr_div_pow2 by lia. change 255 with (Z.ones 8).
    rewrite land_small; [|lia|change (2 ^ 15) with 32768; change (2 ^ 8) with 256; Z.to_euclidean_division_equations; lia].
    change 256 with (1 * 2 ^ 8). apply lor_add; [lia|]. change (2 ^ 15) with 32768; change (2 ^ 8) with 256; Z.to_euclidean_division_equations; lia. }
  pose proof (estimate_range k Rk) as Rt.
  assert (Et : wrap U32 (Z.land (estimate k) 255 * 2 ^ 15) = (estimate k - 256) * 2 ^ 15).
  { change 255 with (Z.ones 8). rewrite Z.land_ones by lia. change (2 ^ 8) with 256; change (2 ^ 15) with 32768.
    replace (estimate k mod 256) with (estimate k - 256) by (apply (Z.mod_unique _ _ 1); lia).
    apply wrap_id. unfold in_range; cbn [lo hi]; lia. }
  match goal with |- context [exec c ?cf ?fu (f_body FPRecipEstimate) ?en []] =>
    assert (E : exec c cf fu (f_body FPRecipEstimate) en [] = Ok (Returned (rv F32 (recip_bits x)) [])) end.
  { cbn [f_body FPRecipEstimate].
    eapply step_seq with (en1 := [("parts", parts s f e l3 l4 l5 l6); ("operand", rv F32 x)]).
    { cbn [exec eval lookup String.eqb Ascii.eqb Bool.eqb bind]. rewrite C. reflexivity. }
    eapply step_seq with (en1 := [("parts", parts s f (wrap U32 (253 - e)) l3 l4 l5 l6); ("operand", rv F32 x)]).
    { sx0. reflexivity. }
    eapply step_seq with (en1 := [("scaled", rv U32 k); ("parts", parts s f (wrap U32 (253 - e)) l3 l4 l5 l6); ("operand", rv F32 x)]).
    { rewrite <- Ek. clear Ek. sx0. rewrite shift_right_ok by (cbn [width]; lia). sx0. reflexivity. }
    eapply step_seq with (en1 := [("estimate", rv U32 (estimate k)); ("scaled", rv U32 k); ("parts", parts s f (wrap U32 (253 - e)) l3 l4 l5 l6); ("operand", rv F32 x)]).
    { cbn [exec eval lookup String.eqb Ascii.eqb Bool.eqb bind]. rewrite call_estimate by exact Rk. reflexivity. }
    eapply step_seq with (en1 := [("estimate", rv U32 (estimate k)); ("scaled", rv U32 k);
      ("parts", parts s ((estimate k - 256) * 2 ^ 15) (wrap U32 (253 - e)) l3 l4 l5 l6); ("operand", rv F32 x)]).
    { rewrite <- Et. clear Et. generalize (estimate k). intros q. sx0. rewrite shl_u32 by lia. sx0. reflexivity. }
    cbn [exec eval lookup String.eqb Ascii.eqb Bool.eqb bind].
    rewrite call_to_float by (try change (2 ^ 23) with 8388608; try change (2 ^ 15) with 32768; lia).
    cbn [bind]. do 4 f_equal. unfold recip_bits. rewrite <- Hs, <- Hf, <- He. fold k. do 2 f_equal. f_equal.
    unfold wrap. cbn [lo modulus]. Z.to_euclidean_division_equations; lia. }
  rewrite E. reflexivity.
Qed.

Lemma vrecpeq_f32_run c m a : lanes F32 4 a ->
  run c m vrecpeq_f32 [vec F32 a] = Returns m (Some (vec F32 (map recip_bits a))).
Proof.
  intros Ha. rewrite <- (ok_all1 m _ (fun x => Ok (recip_bits x)) _ _ _ a Ha) by reflexivity.
  entry1 x Hx. unfold lane, run_body.
  change (bind_params c (f_params (one_lane vrecpeq_f32)) [vec F32 [x]]) with (Ok [("N", vec F32 [x])]).
  cbn [bind].
  match goal with |- context [exec c ?cf ?fu (f_body (one_lane vrecpeq_f32)) ?en m] =>
    assert (E : exec c cf fu (f_body (one_lane vrecpeq_f32)) en m = Ok (Returned (vec F32 [recip_bits x]) m)) end.
  { eapply step_seq; [reflexivity|]. eapply step_seq.
    - eapply step_seq; [reflexivity|].
      cbn [exec eval eval_path lookup String.eqb Ascii.eqb Bool.eqb bind int_value scalar rv fst snd is_float].
      unfold index, vec. cbn [map]. change (get_idx [rv F32 x] 0) with (Ok (rv F32 x)). cbn [bind].
      unfold call_depth. rewrite call_recip by exact Hx. reflexivity.
    - reflexivity. }
  rewrite E. reflexivity.
Qed.

(** ** Properties of the estimate *)

Definition mantissa (x : Z) : Z := 256 + frac_field F32 x / 2 ^ 15.

Lemma frac_range x : 0 <= frac_field F32 x < 8388608.
Proof. apply Z.mod_pos_bound. reflexivity. Qed.
Lemma exp_range x : 0 <= exp_field F32 x < 256.
Proof. apply Z.mod_pos_bound. reflexivity. Qed.

Lemma mantissa_range x : 256 <= mantissa x <= 511.
Proof.
  pose proof (frac_range x). unfold mantissa. change (2 ^ 15) with 32768. Z.to_euclidean_division_equations; lia.
Qed.

Lemma recip_fields x : in_range F32 (recip_bits x) /\ sign_bit F32 (recip_bits x) = sign_bit F32 x /\
  exp_field F32 (recip_bits x) = (253 - exp_field F32 x) mod 256 /\
  frac_field F32 (recip_bits x) = (estimate (mantissa x) - 256) * 2 ^ 15.
Proof.
  pose proof (estimate_range _ (mantissa_range x)) as Rt.
  pose proof (Z.mod_pos_bound (253 - exp_field F32 x) 256 ltac:(lia)) as Re.
  pose proof (fields_build F32 (sign_bit F32 x) ((253 - exp_field F32 x) mod 256) ((estimate (mantissa x) - 256) * 2 ^ 15)
    (or_introl eq_refl) Re ltac:(cbn [fhid]; change (2 ^ 15) with 32768; lia)) as H.
  cbv zeta in H. change (fhid F32) with (2 ^ 23) in H. change (fexps F32) with 256 in H.
  change (fsign F32 (sign_bit F32 x) + (253 - exp_field F32 x) mod 256 * 2 ^ 23 + (estimate (mantissa x) - 256) * 2 ^ 15)
    with (recip_bits x) in H.
  destruct H as (H1 & H2 & H3 & H4). split; [exact H1|]. split; [|split; [exact H3|exact H2]].
  rewrite (sign_bit_leb F32 _ (or_introl eq_refl) H1). exact H4.
Qed.

Definition estimate_ok (k : Z) : bool :=
  (131072 - 512 <? estimate k * k) && (estimate k * (k + 1) <=? 131072 + 512).

Lemma estimate_all : forallb estimate_ok (map Z.of_nat (seq 256 256)) = true.
Proof. vm_compute. reflexivity. Qed.

Lemma estimate_error k : 256 <= k <= 511 ->
  131072 - 512 < estimate k * k /\ estimate k * (k + 1) <= 131072 + 512.
Proof.
  intros Hk. pose proof (proj1 (forallb_forall _ _) estimate_all k) as H.
  unfold estimate_ok in H. rewrite andb_true_iff, Z.ltb_lt, Z.leb_le in H. apply H.
  apply in_map_iff. exists (Z.to_nat k). split; [lia|]. apply in_seq. lia.
Qed.

Lemma recip_error x : 1 <= exp_field F32 x <= 252 ->
  ffin F32 (recip_bits x) /\ (Rabs (fval F32 (recip_bits x) * fval F32 x - 1) < / 256)%R.
Proof.
  intros He. destruct (recip_fields x) as (_ & Hs & Hx & Hf).
  assert (Hm : (253 - exp_field F32 x) mod 256 = 253 - exp_field F32 x) by (apply Z.mod_small; lia).
  rewrite Hm in Hx. split.
  { unfold ffin. rewrite Hx. cbn [exp_bits]. change (2 ^ 8 - 1) with 255. lia. }
  unfold fval. rewrite Hs, Hx, Hf.
  destruct (Z.eqb_spec (253 - exp_field F32 x) 0); [lia|]. destruct (Z.eqb_spec (exp_field F32 x) 0); [lia|].
  cbn [precision min_exp]. change (2 ^ (24 - 1)) with 8388608. change (2 ^ 15) with 32768.
  pose proof (mantissa_range x) as Rk. pose proof (estimate_error _ Rk) as [E1 E2].
  pose proof (estimate_range _ Rk) as Rt. pose proof (frac_range x) as Rf.
  assert (Hk : (mantissa x - 256) * 32768 <= frac_field F32 x < (mantissa x - 256 + 1) * 32768).
  { unfold mantissa. change (2 ^ 15) with 32768. Z.to_euclidean_division_equations; lia. }
  set (k := mantissa x) in *. clearbody k. set (q := estimate k) in *. clearbody q.
  set (f := frac_field F32 x) in *. clearbody f. set (e := exp_field F32 x) in *. clearbody e.
  set (sg := if sign_bit F32 x then _ else _).
  assert (Hsg : (sg * sg = 1)%R) by (subst sg; destruct (sign_bit F32 x); ring).
  replace ((q - 256) * 32768 + 8388608) with (q * 32768) by ring.
  replace (sg * IZR (q * 32768) * bpow radix2 (253 - e - 1 + -149) * (sg * IZR (f + 8388608) * bpow radix2 (e - 1 + -149)))%R
    with ((sg * sg) * IZR (q * 32768 * (f + 8388608)) * (bpow radix2 (253 - e - 1 + -149) * bpow radix2 (e - 1 + -149)))%R
    by (rewrite mult_IZR; ring).
  rewrite <- bpow_plus, Hsg. replace (253 - e - 1 + -149 + (e - 1 + -149)) with (-47) by ring.
  assert (Hn : 2 ^ 47 - 2 ^ 39 < q * 32768 * (f + 8388608) < 2 ^ 47 + 2 ^ 39).
  { assert (q * ((k - 256) * 32768 + 8388608) <= q * (f + 8388608) <= q * ((k - 256 + 1) * 32768 + 8388608 - 1)) by nia.
    assert (q * ((k - 256) * 32768 + 8388608) = q * k * 32768) by ring.
    assert (q * ((k - 256 + 1) * 32768 + 8388608 - 1) = q * (k + 1) * 32768 - q) by ring.
    change (2 ^ 47) with (4294967296 * 32768). change (2 ^ 39) with (16777216 * 32768). lia. }
  set (p := q * 32768 * (f + 8388608)) in *. clearbody p.
  change (bpow radix2 (-47)) with (/ 140737488355328)%R.
  destruct Hn as [N1 N2]. apply IZR_lt in N1, N2. cbn in N1, N2.
  apply Rabs_def1; lra.
Qed.

(** Normal operands whose exponent allows a normal estimate. *)
Theorem vrecpeq_f32_exact c m a : lanes F32 4 a ->
  exists r, run c m vrecpeq_f32 [vec F32 a] = Returns m (Some (vec F32 r)) /\ lanes F32 4 r /\
    all_lanes (fun x z => sign_bit F32 z = sign_bit F32 x /\
      exp_field F32 z = (253 - exp_field F32 x) mod 256 /\
      (1 <= exp_field F32 x <= 252 ->
         ffin F32 z /\ (Rabs (fval F32 z * fval F32 x - 1) < / 256)%R)) a r.
Proof.
  intros Ha. exists (map recip_bits a). split; [now apply vrecpeq_f32_run|]. split.
  - eapply map_lanes; eauto. intros x _. apply recip_fields.
  - eapply map_all; eauto. intros x _. destruct (recip_fields x) as (_ & H1 & H2 & _).
    split; [exact H1|]. split; [exact H2|]. apply recip_error.
Qed.
