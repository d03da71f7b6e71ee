(** Symbolic execution of one lane: [cbv] with the value-level operations kept
    folded, then rewriting each of them with the facts at hand. *)
From Coq Require Import ZArith String List Bool Lia Psatz.
From Verif Require Import Types FloatBits Syntax Interp ProgRecip ExecLemmas Lane Spec Ew.
Import ListNotations.
Open Scope Z_scope.

Lemma shift_right_ok t x n : 0 <= n < width t -> shift_right t x n = Ok (Z.shiftr x n).
Proof.
  intros H. unfold shift_right. destruct (Z.leb_spec 0 n); [|lia]. destruct (Z.ltb_spec n (width t)); [|lia].
  reflexivity.
Qed.

Lemma shift_right_bad t x n : ~ (0 <= n < width t) -> shift_right t x n = Err (EUB BadShift).
Proof.
  intros H. unfold shift_right. destruct (Z.leb_spec 0 n); destruct (Z.ltb_spec n (width t)); trivial; lia.
Qed.

Lemma shift_left_ok c t x n : 0 <= n < width t -> is_signed t = true ->
  0 <= x -> x * 2 ^ n < modulus t -> shift_left c t x n = Ok (wrap t (x * 2 ^ n)).
Proof.
  intros H Hs Hx Hm. unfold shift_left. rewrite Hs.
  destruct (Z.leb_spec 0 n); [|lia]. destruct (Z.ltb_spec n (width t)); [|lia]. cbn.
  destruct (wrapv c); [reflexivity|].
  destruct (Z.leb_spec 0 x); [|lia]. destruct (Z.ltb_spec (x * 2 ^ n) (modulus t)); [|lia]. reflexivity.
Qed.

Lemma shift_left_unsigned c t x n : 0 <= n < width t -> is_signed t = false ->
  shift_left c t x n = Ok (wrap t (x * 2 ^ n)).
Proof.
  intros H Hs. unfold shift_left. rewrite Hs.
  destruct (Z.leb_spec 0 n); [|lia]. destruct (Z.ltb_spec n (width t)); [|lia]. reflexivity.
Qed.

Lemma shift_left_wrapv c t x n : 0 <= n < width t -> wrapv c = true ->
  shift_left c t x n = Ok (wrap t (x * 2 ^ n)).
Proof.
  intros H Hs. unfold shift_left. rewrite Hs.
  destruct (Z.leb_spec 0 n); [|lia]. destruct (Z.ltb_spec n (width t)); [|lia].
  destruct (is_signed t); reflexivity.
Qed.

Lemma minmax_min c t x y : is_float t = false -> minmax c false t t x t y = Ok (rv t (Z.min x y)).
Proof.
  intros H. unfold minmax. rewrite H. unfold convert.
  replace (sty_eqb t t) with true by (destruct t; reflexivity). cbn.
  destruct (Z.ltb_spec y x); do 2 f_equal; lia.
Qed.

Lemma minmax_max c t x y : is_float t = false -> minmax c true t t x t y = Ok (rv t (Z.max x y)).
Proof.
  intros H. unfold minmax. rewrite H. unfold convert.
  replace (sty_eqb t t) with true by (destruct t; reflexivity). cbn.
  destruct (Z.ltb_spec x y); do 2 f_equal; lia.
Qed.

Definition conv_int (from to : sty) (x : Z) : Z := if sty_eqb from to then x else wrap to x.

Lemma minmax_any c mx t t1 x1 t2 x2 : is_float t = false -> is_float t1 = false -> is_float t2 = false ->
  minmax c mx t t1 x1 t2 x2
  = Ok (rv t (if mx then Z.max (conv_int t1 t x1) (conv_int t2 t x2)
              else Z.min (conv_int t1 t x1) (conv_int t2 t x2))).
Proof.
  intros H H1 H2. unfold minmax. rewrite H. unfold convert, conv_int. rewrite H, H1, H2.
  destruct (sty_eqb t1 t), (sty_eqb t2 t); cbn; do 2 f_equal; destruct mx;
    match goal with |- context [?a <? ?b] => destruct (Z.ltb_spec a b) end; lia.
Qed.

Ltac sx0 :=
  cbv -[arith wrap shift_left shift_right compare_int compare_float truth minmax in_rangeb
        Z.add Z.sub Z.mul Z.opp Z.quot Z.rem Z.land Z.lor Z.lxor Z.lnot Z.shiftr Z.pow Z.min Z.max
        Z.div Z.modulo
        encode decode fadd fsub fmul fdiv sf_cvt sf_trunc sf_of_Z sf_nonzero sat high_half].

Ltac range_hyps :=
  repeat match goal with
  | H : in_range _ _ |- _ => unfold in_range in H; cbn [lo hi] in H
  end.

(** Solve [in_range t e]. *)
Ltac range :=
  range_hyps; unfold in_range; cbn [lo hi width modulus];
  first [ lia | match goal with |- context [(_ * _)%Z] => nia end ].

Ltac is_pos_lit p :=
  lazymatch p with xH => idtac | xO ?q => is_pos_lit q | xI ?q => is_pos_lit q end.
Ltac is_lit e :=
  lazymatch e with
  | Z0 => idtac | Zpos ?p => is_pos_lit p | Zneg ?p => is_pos_lit p
  | Z.add ?a ?b => is_lit a; is_lit b
  | Z.sub ?a ?b => is_lit a; is_lit b
  | Z.mul ?a ?b => is_lit a; is_lit b
  | Z.opp ?a => is_lit a
  | Z.pow ?a ?b => is_lit a; is_lit b
  | Z.div ?a ?b => is_lit a; is_lit b
  | Z.quot ?a ?b => is_lit a; is_lit b
  | wrap _ ?a => is_lit a
  end.

Ltac ground_op e z :=
  is_lit z; let v := eval vm_compute in e in change e with v.

Ltac sx_step :=
  match goal with
  | |- context [truth ?t ?z] => ground_op (truth t z) z
  | |- context [compare_int ?op ?a ?b] =>
      is_lit a; is_lit b; let v := eval vm_compute in (compare_int op a b) in
      change (compare_int op a b) with v
  | |- context [wrap ?t ?z] => ground_op (wrap t z) z
  | |- context [Z.pow ?a ?b] => is_lit a; ground_op (Z.pow a b) b
  | |- context [wrap ?t (wrap ?u ?z)] =>
      rewrite (wrap_id t (wrap u z)) by (pose proof (wrap_range u z); range)
  | |- context [wrap ?t ?z] => rewrite (wrap_id t z) by range
  | H : arith ?c ?t ?z = _ |- context [arith ?c ?t ?z] => rewrite H
  | |- context [arith ?c ?t ?z] =>
      is_lit z; let v := eval vm_compute in z in
      replace (arith c t z) with (@Ok Z v) by reflexivity
  | |- context [arith ?c ?t ?z] =>
      first [ rewrite (arith_ok c t z) by range
            | rewrite (arith_unsigned c t z) by reflexivity
            | match goal with H : wrapv c = true |- _ => rewrite (arith_wrapv c t z H) end ]
  | |- context [shift_left ?c ?t ?x ?n] =>
      is_lit x; is_lit n;
      let v := eval vm_compute in (wrap t (x * 2 ^ n)) in
      replace (shift_left c t x n) with (@Ok Z v) by (destruct c as [[] ?]; reflexivity)
  | |- context [shift_right ?t ?x ?n] => rewrite (shift_right_ok t x n) by range
  | |- context [minmax ?c false ?t ?t ?x ?t ?y] => rewrite (minmax_min c t x y) by reflexivity
  | |- context [minmax ?c true ?t ?t ?x ?t ?y] => rewrite (minmax_max c t x y) by reflexivity
  | |- context [minmax ?c ?mx ?t ?t1 ?x ?t2 ?y] => rewrite (minmax_any c mx t t1 x t2 y) by reflexivity
  end.

(** Case analysis on a comparison of two integers. *)
Ltac cmp_facts H :=
  cbn [compare_int] in H;
  first [ apply Z.ltb_lt in H | apply Z.ltb_ge in H | apply Z.leb_le in H | apply Z.leb_gt in H
        | apply Z.eqb_eq in H | apply Z.eqb_neq in H
        | apply negb_true_iff in H; apply Z.eqb_neq in H
        | apply negb_false_iff in H; apply Z.eqb_eq in H ].
Ltac sx_cmp :=
  match goal with
  | |- context [compare_int ?op ?a ?b] =>
      let H := fresh "Hc" in destruct (compare_int op a b) eqn:H; cmp_facts H
  end.

(** Run the lane as far as the facts allow. *)
Ltac sx := sx0; repeat ((sx_step || sx_cmp); sx0).

(** Case analysis on the remaining arithmetic that may overflow. *)
Lemma arith_range c t z r : arith c t z = Ok r -> in_range t r.
Proof.
  unfold arith. destruct (is_signed t).
  - destruct (in_rangeb t z) eqn:E.
    + intros [= <-]. now apply in_rangeb_spec.
    + destruct (wrapv c); [intros [= <-]; apply wrap_range | discriminate].
  - intros [= <-]. apply wrap_range.
Qed.

Ltac sx_arith :=
  match goal with
  | |- context [arith ?c ?t ?z] =>
      let H := fresh "Ha" in destruct (arith c t z) eqn:H; [apply arith_range in H|]
  end.
Ltac sxa := sx; repeat (sx_arith; sx).

(** Close [Ok (OScal t (Some a)) = Ok (OScal t (Some b))]. *)
Ltac fin :=
  first [ reflexivity
        | apply f_equal; apply f_equal; apply f_equal; range_hyps;
          first [ reflexivity | unfold sat; cbn [lo hi]; lia ] ].

(** Split membership in an explicit table and run [tac] on each entry. *)
Ltac each_entry H tac :=
  lazymatch type of H with
  | False => destruct H
  | _ \/ _ => destruct H as [H|H]; [injection H as <- <- <-; tac | each_entry H tac]
  end.

(** Reduce a call on vectors to one lane; a one-lane loop-free function is
    executed as it is. *)
Ltac one_lane_vec Ha x Hx :=
  let La := fresh in let Fa := fresh in
  destruct Ha as [La Fa];
  match type of Fa with Forall _ ?a =>
    destruct a as [|x [|? ?]]; try discriminate La; apply Forall_inv in Fa; rename Fa into Hx; clear La end.

Ltac entry2 x y Hx Hy :=
  match goal with
  | Ha : lanes _ ?n ?a, Hb : lanes _ ?n ?b |- run _ _ _ [vec _ ?a; vec _ ?b] = _ =>
      first
      [ eapply (run_ew2 n); [reflexivity | reflexivity | eassumption | eassumption |];
        intros x y Hx Hy
      | one_lane_vec Ha x Hx; one_lane_vec Hb y Hy ]
  end.

Ltac entry1 x Hx :=
  match goal with
  | Ha : lanes _ ?n ?a |- run _ _ _ [vec _ ?a] = _ =>
      first
      [ eapply (run_ew1 n); [reflexivity | reflexivity | eassumption |]; intros x Hx
      | one_lane_vec Ha x Hx ]
  end.

Ltac entry3 x y z Hx Hy Hz :=
  match goal with
  | Ha : lanes _ ?n ?a, Hb : lanes _ ?n ?b, Hd : lanes _ ?n ?d |- run _ _ _ [vec _ ?a; vec _ ?b; vec _ ?d] = _ =>
      eapply (run_ew3 n); [reflexivity | reflexivity | eassumption | eassumption | eassumption |];
      intros x y z Hx Hy Hz
  end.

Ltac entry1s x Hx :=
  match goal with
  | Ha : lanes _ ?n ?a |- run _ _ _ [vec _ ?a; rv _ _] = _ =>
      first
      [ eapply (run_ew1s n); [reflexivity | reflexivity | eassumption |]; intros x Hx
      | one_lane_vec Ha x Hx ]
  end.

Ltac entry2s x y Hx Hy :=
  match goal with
  | Ha : lanes _ ?n ?a, Hb : lanes _ ?n ?b |- run _ _ _ [vec _ ?a; vec _ ?b; rv _ _] = _ =>
      eapply (run_ew2s n); [reflexivity | reflexivity | eassumption | eassumption |];
      intros x y Hx Hy
  end.

(** Close a goal where one arithmetic operation may still fail. *)
Ltac arith_cases :=
  try reflexivity;
  match goal with |- context [arith ?c ?t ?z] => destruct (arith c t z); sx; try reflexivity end.

(** Replace a vector of known length by its lanes. *)
Lemma lanes_cons t n a : lanes t (S n) a -> exists x a', a = x :: a' /\ in_range t x /\ lanes t n a'.
Proof.
  intros [L F]. destruct a as [|x a]; [discriminate L|].
  exists x, a. inversion F; subst. split; [reflexivity|]. split; [assumption|]. split; [|assumption]. now injection L.
Qed.
Lemma lanes_nil t a : lanes t 0 a -> a = [].
Proof. intros [L _]. now destruct a. Qed.

Ltac explode H :=
  lazymatch type of H with
  | lanes _ O ?a => apply lanes_nil in H; subst a
  | lanes _ (S _) ?a =>
      let x := fresh "x" in let a' := fresh "a" in let Hx := fresh "Hx" in
      apply lanes_cons in H; destruct H as (x & a' & ? & Hx & H); subst a; explode H
  end.

(** ** Statement by statement

    For functions that are not element-wise: run one statement at a time, so
    that only that statement is normalised. *)
Section Steps.
  Variables (c : cfg) (cf : string -> obj -> res obj) (fuel : nat).

  Lemma step_seq s1 s2 en m en1 m1 r :
    exec c cf fuel s1 en m = Ok (Normal en1 m1) -> exec c cf fuel s2 en1 m1 = r ->
    exec c cf fuel (SSeq s1 s2) en m = r.
  Proof. intros H1 H2. cbn [exec]. now rewrite H1. Qed.

  Lemma step_seq_err s1 s2 en m e :
    exec c cf fuel s1 en m = Err e -> exec c cf fuel (SSeq s1 s2) en m = Err e.
  Proof. intros H1. cbn [exec]. now rewrite H1. Qed.

  Definition for_cond (cond : expr) (en : env) (m : memory) : res bool :=
    let* o := eval c cf en m cond in cond_value o.
  Definition for_step (i : string) (next : expr) (body : stmt) (en : env) (m : memory) : res ctl :=
    let* r := exec c cf fuel body en m in
    match pop_ctl (List.length en) r with
    | Normal en' m' =>
        let* v := eval c cf en' m' next in
        let* r := assign c en' m' i [] v in
        Ok (Normal (fst r) (snd r))
    | Returned v m' => Ok (Returned v m')
    end.

  Lemma step_for t i init cond next body en m o o' r r' :
    eval c cf en m init = Ok o -> init_obj c (TScal t) o = Ok o' ->
    loop fuel (for_cond cond) (for_step i next body) ((i, o') :: en) m = r ->
    (let* x := r in Ok (pop_ctl (List.length en) x)) = r' ->
    exec c cf fuel (SFor t i init cond next body) en m = r'.
  Proof.
    intros H1 H2 H3 H4. cbn [exec]. rewrite H1. cbn [bind]. rewrite H2. cbn [bind].
    change ((let* r := loop fuel (for_cond cond) (for_step i next body) ((i, o') :: en) m in
             Ok (pop_ctl (List.length en) r)) = r').
    now rewrite H3.
  Qed.

  Lemma step_loop_end k cond step en m :
    cond en m = Ok false -> loop (S k) cond step en m = Ok (Normal en m).
  Proof. intros H. cbn [loop]. now rewrite H. Qed.

  Lemma step_loop k cond step en m en1 m1 r :
    cond en m = Ok true -> step en m = Ok (Normal en1 m1) -> loop k cond step en1 m1 = r ->
    loop (S k) cond step en m = r.
  Proof. intros H1 H2 H3. cbn [loop]. rewrite H1. cbn [bind]. rewrite H2. exact H3. Qed.

  Lemma step_loop_err k cond step en m e :
    cond en m = Ok true -> step en m = Err e -> loop (S k) cond step en m = Err e.
  Proof. intros H1 H2. cbn [loop]. rewrite H1. cbn [bind]. now rewrite H2. Qed.

  Lemma step_body i next body en m r0 :
    exec c cf fuel body en m = r0 ->
    for_step i next body en m =
      let* r := r0 in
      match pop_ctl (List.length en) r with
      | Normal en' m' =>
          let* v := eval c cf en' m' next in
          let* r := assign c en' m' i [] v in
          Ok (Normal (fst r) (snd r))
      | Returned v m' => Ok (Returned v m')
      end.
  Proof. intros <-. reflexivity. Qed.
End Steps.

Lemma step_run c m f args en r o :
  bind_params c (f_params f) args = Ok en ->
  exec c (call_helper c helpers loop_fuel call_depth) loop_fuel (f_body f) en m = r ->
  outcome_of (let* x := r in
    match x, f_ret f with
    | Returned _ _, TVoid => Err EStuck
    | Returned v m', t => let* v' := init_obj c t v in Ok (Some v', m')
    | Normal _ m', TVoid => Ok (None, m')
    | Normal _ _, _ => Err (EUB MissingReturn)
    end) = o ->
  run c m f args = o.
Proof. intros H1 H2 H3. unfold run, run_body. rewrite H1. cbn [bind]. rewrite H2. exact H3. Qed.

Ltac leaf := sx; reflexivity.
Ltac stepper :=
  lazymatch goal with
  | |- exec _ _ _ (SSeq _ _) _ _ = _ =>
      first [ eapply step_seq; [stepper | stepper] | eapply step_seq_err; stepper ]
  | |- exec _ _ _ (SFor _ _ _ _ _ _) _ _ = _ =>
      eapply step_for; [leaf | leaf | stepper | leaf]
  | |- loop (S _) _ _ _ _ = _ =>
      first [ eapply step_loop_end; leaf
            | eapply step_loop; [leaf | stepper | stepper]
            | eapply step_loop_err; [leaf | stepper] ]
  | |- for_step _ _ _ _ _ _ _ _ = _ =>
      etransitivity; [eapply step_body; stepper | leaf]
  | |- loop loop_fuel _ _ _ _ = _ => unfold loop_fuel; stepper
  | |- _ => leaf
  end.
Ltac run_steps :=
  eapply step_run; [leaf | cbn [f_body]; stepper | leaf].

(** The same when operations may fail: first split on each operation that
    appears in the right-hand side, then run the program with those facts. *)
Ltac split_rhs :=
  match goal with |- run ?c ?m ?f ?args = _ =>
    let L := fresh "L" in let HL := fresh "HL" in
    remember (run c m f args) as L eqn:HL;
    sx; repeat (match goal with |- context [arith ?c ?t ?z] => destruct (arith c t z) eqn:? end; sx);
    rewrite HL; clear HL L
  end.

(** A lighter variant that leaves the arithmetic alone: only literals are
    evaluated. *)
Ltac range_lia := range_hyps; unfold in_range; cbn [lo hi width modulus]; lia.
Ltac sx_lit :=
  match goal with
  | |- context [truth ?t ?z] => ground_op (truth t z) z
  | |- context [wrap ?t ?z] => ground_op (wrap t z) z
  | |- context [wrap ?t (wrap ?t ?z)] => rewrite (wrap_wrap t z)
  | |- context [wrap ?t ?z] => is_var z; rewrite (wrap_id t z) by range_lia
  end.
Ltac sxl := sx0; repeat (sx_lit; sx0).
Ltac sxl_arith :=
  match goal with
  | |- context [arith ?c ?t ?z] =>
      let H := fresh "Ha" in destruct (arith c t z) eqn:H; [apply arith_range in H|]
  end.
Ltac sxla := sxl; repeat (sxl_arith; sxl).
