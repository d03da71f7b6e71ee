(** Reinterpretation of vectors: memcpy keeps the bytes. *)
From Coq Require Import ZArith String List Bool Lia.
From Verif Require Import Types FloatBits Syntax Interp ProgRecip ExecLemmas Lane Spec Ew Sym Tables.
From Verif Require Import ProgShift.
Import ListNotations.
Open Scope Z_scope.

Definition is_byte (b : Z) : Prop := 0 <= b < 256.

Lemma le_bytes_spec n z : le_bytes n z = map (fun k => (z / 256 ^ Z.of_nat k) mod 256) (seq 0 n).
Proof.
  revert z. induction n as [|n IH]; intros z; [reflexivity|].
  cbn [le_bytes]. rewrite IH. rewrite <- cons_seq, <- seq_shift, map_cons, map_map.
  rewrite Z.pow_0_r, Z.div_1_r. f_equal. apply map_ext. intros k.
  rewrite Nat2Z.inj_succ, Z.pow_succ_r by lia. rewrite <- Z.div_div by lia. reflexivity.
Qed.

Lemma le_bytes_lane t z : le_bytes (nbytes t) z = lane_bytes t z.
Proof. apply le_bytes_spec. Qed.

Lemma le_bytes_length n z : List.length (le_bytes n z) = n.
Proof. rewrite le_bytes_spec, map_length. apply seq_length. Qed.

Lemma le_bytes_byte n z : Forall is_byte (le_bytes n z).
Proof. revert z; induction n; intros z; constructor; [apply Z.mod_pos_bound; lia|apply IHn]. Qed.

Lemma of_le_bytes_range l : Forall is_byte l -> 0 <= of_le_bytes l < 256 ^ Z.of_nat (List.length l).
Proof.
  induction 1 as [|b l Hb Hl IH]; [cbn; lia|]. cbn [of_le_bytes List.length].
  rewrite Nat2Z.inj_succ, Z.pow_succ_r by lia. unfold is_byte in Hb. lia.
Qed.

(** Two's-complement values congruent modulo 256^n have the same bytes. *)
Lemma le_bytes_of l z : Forall is_byte l -> (z - of_le_bytes l) mod 256 ^ Z.of_nat (List.length l) = 0 ->
  le_bytes (List.length l) z = l.
Proof.
  revert z. induction l as [|b l IH]; intros z H Hz; [reflexivity|].
  inversion H as [|? ? Hb Hl]; subst. cbn [List.length le_bytes of_le_bytes] in *.
  rewrite Nat2Z.inj_succ, Z.pow_succ_r in Hz by lia.
  pose proof (Z.pow_pos_nonneg 256 (Z.of_nat (List.length l)) ltac:(lia) ltac:(lia)) as Hp.
  apply Z.mod_divide in Hz; [|lia]. destruct Hz as [q Hq].
  assert (E : z = b + (of_le_bytes l + q * 256 ^ Z.of_nat (List.length l)) * 256) by lia.
  rewrite E, Z.mod_add, Z.div_add by lia. unfold is_byte in Hb.
  rewrite Z.mod_small, Z.div_small by lia. f_equal. apply IH; [exact Hl|].
  rewrite Z.add_0_l. replace (of_le_bytes l + q * 256 ^ Z.of_nat (List.length l) - of_le_bytes l)
    with (q * 256 ^ Z.of_nat (List.length l)) by lia.
  apply Z.mod_mul. lia.
Qed.

Lemma modulus_bytes t : modulus t = 256 ^ Z.of_nat (nbytes t).
Proof. destruct t; reflexivity. Qed.

Lemma wrap_bytes t l : Forall is_byte l -> List.length l = nbytes t ->
  le_bytes (nbytes t) (wrap t (of_le_bytes l)) = l.
Proof.
  intros H L. rewrite <- L. apply le_bytes_of; [exact H|].
  rewrite L, <- modulus_bytes. unfold wrap.
  pose proof (Z.div_mod (of_le_bytes l - lo t) (modulus t) ltac:(destruct t; discriminate)) as D.
  apply Z.mod_divide; [destruct t; discriminate|].
  exists (- ((of_le_bytes l - lo t) / modulus t)). lia.
Qed.

(** The lanes of type [t] that a list of bytes represents. *)
Fixpoint unpack (t : sty) (n : nat) (bs : list Z) : list Z :=
  match n with
  | O => []
  | S n' => wrap t (of_le_bytes (firstn (nbytes t) bs)) :: unpack t n' (skipn (nbytes t) bs)
  end.

Lemma unpack_lanes t n bs : lanes t n (unpack t n bs).
Proof.
  revert bs. induction n as [|n IH]; intros bs; [repeat constructor|].
  destruct (IH (skipn (nbytes t) bs)) as [L F]. split; cbn; [now rewrite L|].
  constructor; [apply wrap_range|exact F].
Qed.

Lemma Forall_firstn {A} (P : A -> Prop) n l : Forall P l -> Forall P (firstn n l).
Proof. intros H. revert n. induction H; intros [|n]; cbn; constructor; auto. Qed.
Lemma Forall_skipn {A} (P : A -> Prop) n l : Forall P l -> Forall P (skipn n l).
Proof. intros H. revert n. induction H; intros [|n]; cbn; auto. Qed.

Lemma unpack_bytes t n bs : Forall is_byte bs -> List.length bs = (n * nbytes t)%nat ->
  vec_bytes t (unpack t n bs) = bs.
Proof.
  revert bs. induction n as [|n IH]; intros bs H L; [now destruct bs|].
  cbn [unpack vec_bytes flat_map]. unfold vec_bytes in IH. rewrite IH.
  - rewrite <- le_bytes_lane, wrap_bytes.
    + apply firstn_skipn.
    + now apply Forall_firstn.
    + rewrite firstn_length. lia.
  - now apply Forall_skipn.
  - rewrite skipn_length. lia.
Qed.

Lemma vec_bytes_length t a : List.length (vec_bytes t a) = (List.length a * nbytes t)%nat.
Proof.
  induction a; [reflexivity|]. cbn. rewrite app_length. unfold vec_bytes in IHa. rewrite IHa.
  unfold lane_bytes. now rewrite map_length, seq_length.
Qed.

Lemma vec_bytes_byte t a : Forall is_byte (vec_bytes t a).
Proof.
  induction a; [constructor|]. cbn. apply Forall_app. split; [|exact IHa].
  rewrite <- le_bytes_lane. apply le_bytes_byte.
Qed.

Lemma bytes_of_vec t a : bytes_of (vec t a) = map Some (vec_bytes t a).
Proof.
  unfold vec. cbn [bytes_of]. induction a as [|z a IH]; [reflexivity|].
  cbn [map flat_map]. rewrite IH. cbn [bytes_of rv]. rewrite le_bytes_lane.
  unfold vec_bytes. cbn [flat_map]. now rewrite map_app.
Qed.

Lemma bytes_of_fresh t n : bytes_of (fresh (tvec t n)) = repeat None (n * nbytes t).
Proof.
  unfold tvec. cbn [fresh bytes_of]. induction n as [|n IH]; [reflexivity|].
  cbn [repeat flat_map]. rewrite IH. cbn [fresh bytes_of]. now rewrite <- repeat_app.
Qed.

Lemma all_some_map {A} (l : list A) : all_some (map Some l) = Some l.
Proof. induction l; cbn; [reflexivity|]. now rewrite IHl. Qed.

Lemma from_bytes_vec t n bs : List.length bs = (n * nbytes t)%nat ->
  from_bytes (fresh (tvec t n)) (map Some bs) = (vec t (unpack t n bs), []).
Proof.
  unfold tvec, vec. cbn [fresh from_bytes]. intros L.
  assert (G : (fix go (l : list obj) (bs : list (option Z)) {struct l} : list obj * list (option Z) :=
      match l with
      | [] => ([], bs)
      | o' :: l' => let (x, bs1) := from_bytes o' bs in let (xs, bs2) := go l' bs1 in (x :: xs, bs2)
      end) (repeat (OScal t None) n) (map Some bs) = (map (rv t) (unpack t n bs), [])).
  { revert bs L. induction n as [|n IH]; intros bs L; [destruct bs; [reflexivity|discriminate]|].
    cbn [repeat from_bytes]. rewrite firstn_map, skipn_map, all_some_map, IH.
    - reflexivity.
    - rewrite skipn_length. lia. }
  cbn [fresh]. rewrite G. reflexivity.
Qed.

Lemma memcpy_vec t n a t' n' k : List.length a = n -> (n * nbytes t = n' * nbytes t')%nat ->
  k = Z.of_nat (n * nbytes t) ->
  memcpy_obj (fresh (tvec t' n')) (vec t a) k = Ok (vec t' (unpack t' n' (vec_bytes t a))).
Proof.
  intros L E ->. unfold memcpy_obj. rewrite bytes_of_vec, bytes_of_fresh, map_length, repeat_length, vec_bytes_length, L, <- E.
  destruct (Z.leb_spec 0 (Z.of_nat (n * nbytes t))); [|lia]. rewrite !Z.leb_refl. cbn [andb].
  rewrite Nat2Z.id. rewrite firstn_all2 by (rewrite map_length, vec_bytes_length, L; lia).
  rewrite skipn_all2 by (rewrite repeat_length; lia). rewrite app_nil_r.
  rewrite from_bytes_vec; [reflexivity|]. rewrite vec_bytes_length, L. exact E.
Qed.

Ltac each_entry5 H tac :=
  lazymatch type of H with
  | False => destruct H
  | _ \/ _ => destruct H as [H|H]; [injection H as <- <- <- <- <-; tac | each_entry5 H tac]
  end.

Lemma reinterpret_run f t n t' n' c m a : In (f, t, n, t', n') vreinterpret_table -> lanes t n a ->
  run c m f [vec t a] = Returns m (Some (vec t' (unpack t' n' (vec_bytes t a)))).
Proof.
  intros H [L _]. cbn [In vreinterpret_table] in H.
  each_entry5 H ltac:(
    match goal with |- run _ _ _ [vec ?t _] = Returns _ (Some (vec ?t' (unpack _ ?n' _))) =>
      match type of L with _ = ?n =>
      let k := eval vm_compute in (Z.of_nat (n * nbytes t)) in
      pose proof (memcpy_vec t n a t' n' k L eq_refl eq_refl) as E end end;
    unfold vec, tvec in *; cbn [fresh repeat] in E;
    match type of E with memcpy_obj (OArr ?x) (OArr ?y) _ = Ok (OArr ?z) =>
      generalize dependent y; generalize dependent z; intros zz yy E end;
    eapply step_run;
    [ leaf
    | cbn [f_body]; eapply step_seq; [leaf|]; eapply step_seq;
      [ cbv -[memcpy_obj]; rewrite E; reflexivity | leaf ]
    | leaf ]).
Qed.

(** Same bytes, right type. *)
Lemma reinterpret_bytes f t n t' n' c m a : In (f, t, n, t', n') vreinterpret_table -> lanes t n a ->
  exists r, run c m f [vec t a] = Returns m (Some (vec t' r)) /\ lanes t' n' r /\ vec_bytes t' r = vec_bytes t a.
Proof.
  intros H Ha. eexists. split; [exact (reinterpret_run f t n t' n' c m a H Ha)|].
  split; [apply unpack_lanes|]. apply unpack_bytes; [apply vec_bytes_byte|].
  rewrite vec_bytes_length. destruct Ha as [-> _].
  cbn [In vreinterpret_table] in H. each_entry5 H ltac:(reflexivity).
Qed.

(** The bytes determine the vector. *)
Lemma lane_bytes_inj t x y : in_range t x -> in_range t y -> lane_bytes t x = lane_bytes t y -> x = y.
Proof.
  rewrite <- !le_bytes_lane. intros Hx Hy H.
  assert (G : forall n x y, le_bytes n x = le_bytes n y -> (x - y) mod 256 ^ Z.of_nat n = 0).
  { clear. induction n as [|n IH]; intros x y H; [now rewrite Z.mod_1_r|].
    cbn [le_bytes] in H. injection H as H1 H2. apply IH in H2.
    rewrite Nat2Z.inj_succ, Z.pow_succ_r by lia.
    pose proof (Z.pow_pos_nonneg 256 (Z.of_nat n) ltac:(lia) ltac:(lia)) as Hp.
    apply Z.mod_divide in H2; [|lia]. destruct H2 as [q Hq].
    apply Z.mod_divide; [lia|]. exists q.
    pose proof (Z.div_mod x 256). pose proof (Z.div_mod y 256). lia. }
  apply G in H. rewrite <- modulus_bytes in H. apply Z.mod_divide in H; [|destruct t; discriminate].
  destruct H as [q Hq]. unfold in_range in *. destruct t; cbn [lo hi modulus] in *; lia.
Qed.

Lemma vec_bytes_inj t n x y : lanes t n x -> lanes t n y -> vec_bytes t x = vec_bytes t y -> x = y.
Proof.
  revert x y. induction n as [|n IH]; intros x y Hx Hy E.
  - now rewrite (lanes_nil _ _ Hx), (lanes_nil _ _ Hy).
  - destruct (lanes_cons _ _ _ Hx) as (u & x' & -> & Hu & Hx').
    destruct (lanes_cons _ _ _ Hy) as (v & y' & -> & Hv & Hy').
    cbn [vec_bytes flat_map] in E.
    assert (Eu : lane_bytes t u = lane_bytes t v /\ vec_bytes t x' = vec_bytes t y').
    { assert (Lu : List.length (lane_bytes t u) = List.length (lane_bytes t v))
        by (unfold lane_bytes; now rewrite !map_length).
      clear -E Lu. revert E. unfold vec_bytes. generalize (flat_map (lane_bytes t) x'), (flat_map (lane_bytes t) y').
      revert Lu. generalize (lane_bytes t u), (lane_bytes t v). induction l as [|b l IH]; intros [|b' l'] L p q E;
        try discriminate; [auto|]. cbn in *. injection E as -> E. injection L as L.
      destruct (IH _ L _ _ E) as [-> ->]. auto. }
    destruct Eu as [Eu Ex]. f_equal; [now apply (lane_bytes_inj t)|now apply IH].
Qed.
