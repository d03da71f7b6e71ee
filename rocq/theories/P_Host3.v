(** Proofs about byte order: the vreinterpret functions, and the whole library. *)
From Coq Require Import ZArith String List Bool Lia.
From Verif Require Import Types FloatBits Syntax Interp ProgRecip ProgShift Library Spec Tables Typing TypeSound MetaSpec Host HostSpec P_Cast P_Laws2 P_Contract P_Host P_Host2.
From Verif Require P_Valid2.
Import ListNotations.
Open Scope Z_scope.

(** ** Little-endian machines *)

Lemma exec_little c callf callf' fuel : (forall f o, callf' f o = callf f o) -> forall s en m,
  exec_h (mkhost false U64) c callf' fuel s en m = exec c callf fuel s en m.
Proof.
  intros HC.
  assert (HV : forall en m e, eval c callf' en m e = eval c callf en m e).
  { intros en m. induction e; cbn [eval]; rewrite ?IHe, ?IHe1, ?IHe2, ?IHe3; trivial. destruct (eval c callf en m e); cbn; auto. }
  assert (HP : forall en m p, eval_path c callf' en m p = eval_path c callf en m p).
  { intros en m. induction p; cbn [eval_path]; [reflexivity|]. now rewrite HV, IHp. }
  induction s as [|s1 IH1 s2 IH2|t y o|y path e|e s1 IH1 s2 IH2|t i init cond next body IH|d s n| |e]; intros en m; cbn [exec_h exec]; trivial.
  - rewrite IH1. apply bind_ext. intros [|]; [apply IH2|reflexivity].
  - destruct o; [now rewrite HV|reflexivity].
  - now rewrite HV, HP.
  - now rewrite HV, IH1, IH2.
  - rewrite HV. replace (counter (mkhost false U64) t) with t by now destruct t.
    apply bind_ext. intros o. apply bind_ext. intros o'.
    match goal with |- bind ?l _ = bind ?l' _ => assert (E : l = l'); [|now rewrite E] end.
    generalize ((i, o') :: en). revert m. generalize fuel at 1 3 as k. induction k as [|k IHk]; intros m en1; cbn [loop]; [reflexivity|].
    rewrite HV. apply bind_ext. intros b. destruct b; [|reflexivity]. rewrite IH.
    match goal with |- bind ?x _ = bind ?y _ => assert (E : x = y); [|rewrite E; apply bind_ext; intros [|]; [apply IHk|reflexivity]] end.
    apply bind_ext. intros r. destruct (pop_ctl _ r); [now rewrite HV|reflexivity].
  - rewrite HV. apply bind_ext. intros o. apply bind_ext. intros k. destruct (lookup d en), (lookup s en); trivial. cbn [big_endian]. now rewrite memcpy_little.
  - now rewrite HV.
Qed.

Lemma body_little c callf callf' fuel f args m : (forall f o, callf' f o = callf f o) ->
  run_body_h (mkhost false U64) c callf' fuel f args m = run_body c callf fuel f args m.
Proof. intros H. unfold run_body_h, run_body. apply bind_ext. intros en. now rewrite (exec_little c callf callf' fuel H). Qed.

Lemma calls_little c prog fuel d : forall f o, call_helper_h (mkhost false U64) c prog fuel d f o = call_helper c prog fuel d f o.
Proof.
  induction d as [|d IH]; intros f o; cbn [call_helper_h call_helper]; [reflexivity|].
  destruct (find _ prog); [|reflexivity]. now rewrite (body_little c _ _ fuel _ _ _ IH).
Qed.

Theorem little_same c m f args : run_host (mkhost false U64) c m f args = run c m f args.
Proof. unfold run_host, run. f_equal. apply body_little. apply calls_little. Qed.

Theorem little_irrelevant h c m f args : real_host h -> big_endian h = false -> In f library -> run_host h c m f args = run c m f args.
Proof. intros H B I. rewrite (width_irrelevant h c m f args H I), B. apply little_same. Qed.

(** ** The functions that copy between lanes of different sizes *)

Lemma others_copy : filter (fun f => negb (copies_cells helpers f)) library = repacking.
Proof. vm_compute. reflexivity. Qed.

Theorem host_irrelevant h c m f args : real_host h -> In f library -> ~ In f repacking -> typed_args m f args ->
  run_host h c m f args = run c m f args.
Proof.
  intros H I N T. rewrite (width_irrelevant h c m f args H I). apply order_irrelevant; [|exact T].
  destruct (copies_cells helpers f) eqn:E; [reflexivity|]. exfalso. apply N. rewrite <- others_copy. apply filter_In. now rewrite E.
Qed.

(** ** vreinterpret on any machine: the bytes in memory are kept *)

Fixpoint unpack_h (big : bool) (t : sty) (n : nat) (bs : list Z) : list Z :=
  match n with
  | O => []
  | S n' => wrap t (of_host_bytes big (firstn (nbytes t) bs)) :: unpack_h big t n' (skipn (nbytes t) bs)
  end.

Lemma unpack_h_lanes big t n bs : lanes t n (unpack_h big t n bs).
Proof.
  revert bs. induction n as [|n IH]; intros bs; [repeat constructor|].
  destruct (IH (skipn (nbytes t) bs)) as [L F]. split; cbn; [now rewrite L|].
  constructor; [apply wrap_range|exact F].
Qed.

Lemma unpack_h_image big t n bs : Forall is_byte bs -> List.length bs = (n * nbytes t)%nat -> image big t (unpack_h big t n bs) = bs.
Proof.
  revert bs. induction n as [|n IH]; intros bs H L; [now destruct bs|].
  cbn [unpack_h]. unfold image in *. cbn [flat_map]. rewrite IH by first [now apply Forall_skipn | rewrite skipn_length; cbn in L; lia].
  assert (E : (if big then rev (lane_bytes t (wrap t (of_host_bytes big (firstn (nbytes t) bs)))) else lane_bytes t (wrap t (of_host_bytes big (firstn (nbytes t) bs)))) = firstn (nbytes t) bs).
  { unfold of_host_bytes. assert (Lf : List.length (firstn (nbytes t) bs) = nbytes t) by (rewrite firstn_length; cbn in L; lia).
    assert (Hf : Forall is_byte (firstn (nbytes t) bs)) by now apply Forall_firstn.
    destruct big; rewrite <- le_bytes_lane, wrap_bytes; rewrite ?rev_involutive, ?rev_length; trivial. now apply Forall_rev. }
  rewrite E. apply firstn_skipn.
Qed.

Lemma image_length big t a : List.length (image big t a) = (List.length a * nbytes t)%nat.
Proof.
  induction a as [|z a IH]; [reflexivity|]. unfold image in *. cbn [flat_map]. rewrite app_length, IH. cbn [List.length].
  assert (L : List.length (lane_bytes t z) = nbytes t) by (unfold lane_bytes; now rewrite map_length, seq_length).
  destruct big; rewrite ?rev_length; lia.
Qed.
Lemma image_byte big t a : Forall is_byte (image big t a).
Proof.
  induction a as [|z a IH]; [constructor|]. unfold image in *. cbn [flat_map]. apply Forall_app. split; [|exact IH].
  rewrite <- le_bytes_lane. destruct big; [apply Forall_rev|]; apply le_bytes_byte.
Qed.

Lemma bytes_of_vec_h big t a : bytes_of_h big (vec t a) = map Some (image big t a).
Proof.
  unfold vec. cbn [bytes_of_h]. induction a as [|z a IH]; [reflexivity|].
  cbn [map flat_map]. rewrite IH. unfold image. cbn [flat_map]. rewrite map_app. f_equal.
  cbn [rv bytes_of_h]. unfold host_bytes. now rewrite le_bytes_lane.
Qed.
Lemma bytes_of_fresh_h big t n : bytes_of_h big (fresh (tvec t n)) = repeat None (n * nbytes t).
Proof.
  unfold tvec. cbn [fresh bytes_of_h]. induction n as [|n IH]; [reflexivity|].
  cbn [repeat flat_map]. rewrite IH. cbn [fresh bytes_of_h]. now rewrite <- repeat_app.
Qed.
Lemma from_bytes_vec_h big t n bs : List.length bs = (n * nbytes t)%nat ->
  from_bytes_h big (fresh (tvec t n)) (map Some bs) = (vec t (unpack_h big t n bs), []).
Proof.
  intros L. unfold tvec, vec. cbn [fresh]. rewrite from_arr.
  assert (G : from_all big (repeat (OScal t None) n) (map Some bs) = (map (rv t) (unpack_h big t n bs), [])).
  { revert bs L. induction n as [|n IH]; intros bs L; [destruct bs; [reflexivity|discriminate]|].
    cbn [repeat from_all from_bytes_h]. rewrite firstn_map, skipn_map, all_some_map, IH; [reflexivity|]. rewrite skipn_length. cbn in L. lia. }
  now rewrite G.
Qed.

Lemma memcpy_vec_h big t n a t' n' : List.length a = n -> (n * nbytes t = n' * nbytes t')%nat ->
  memcpy_obj_h big (fresh (tvec t' n')) (vec t a) (Z.of_nat (n * nbytes t)) = Ok (vec t' (unpack_h big t' n' (image big t a))).
Proof.
  intros L E. unfold memcpy_obj_h. rewrite bytes_of_vec_h, bytes_of_fresh_h, map_length, repeat_length, image_length, L, <- E.
  destruct (Z.leb_spec 0 (Z.of_nat (n * nbytes t))); [|lia]. rewrite !Z.leb_refl. cbn [andb].
  rewrite Nat2Z.id. rewrite firstn_all2 by (rewrite map_length, image_length, L; lia).
  rewrite skipn_all2 by (rewrite repeat_length; lia). rewrite app_nil_r.
  rewrite from_bytes_vec_h; [reflexivity|]. rewrite image_length, L. exact E.
Qed.

Lemma reinterpret_shape f t n t' n' : In (f, t, n, t', n') vreinterpret_table ->
  (n * nbytes t = n' * nbytes t')%nat /\ In f library /\ exists name b d, f = mkfunc name (tvec t' n') [("a"%string, tvec t n)]
    (SSeq (SDecl (tvec t' n') "r" None) (SSeq (SMemcpy "r" "a" (EBin BMul (ELit U64 b) (ELit I32 d))) (SReturn (EVar "r")))) /\
    amount (EBin BMul (ELit U64 b) (ELit I32 d)) = Some (Z.of_nat (n * nbytes t)).
Proof.
  intros H. cbn [In vreinterpret_table] in H.
  each_entry5 H ltac:(split; [reflexivity|]; split; [repeat (first [left; reflexivity|right])|]; do 3 eexists; split; [reflexivity|vm_compute; reflexivity]).
Qed.

Lemma reinterpret_run_h h f t n t' n' c m a : In (f, t, n, t', n') vreinterpret_table -> lanes t n a ->
  run_host h c m f [vec t a] = Returns m (Some (vec t' (unpack_h (big_endian h) t' n' (image (big_endian h) t a)))).
Proof.
  intros H [L _]. destruct (reinterpret_shape f t n t' n' H) as (E & _ & name & b & d & -> & A).
  unfold run_host, run_body_h. cbn [f_params f_body f_ret bind_params]. unfold tvec at 1. cbn [init_obj bind exec_h].
  pose proof (amount_eval c (call_helper_h h c helpers loop_fuel call_depth) [("r"%string, fresh (tvec t' n')); ("a"%string, vec t a)] m _ _ A) as Q.
  destruct (eval c _ _ m (EBin BMul (ELit U64 b) (ELit I32 d))) as [o|]; [|discriminate Q]. cbn [bind] in Q |- *. rewrite Q. cbn [bind].
  cbn [lookup String.eqb Ascii.eqb Bool.eqb]. rewrite (memcpy_vec_h (big_endian h) t n a t' n' L E). cbn [bind].
  cbn [update String.eqb Ascii.eqb Bool.eqb eval lookup bind]. reflexivity.
Qed.

Theorem reinterpret_image h f t n t' n' c m a : In (f, t, n, t', n') vreinterpret_table -> lanes t n a ->
  exists r, run_host h c m f [vec t a] = Returns m (Some (vec t' r)) /\ lanes t' n' r /\ image (big_endian h) t' r = image (big_endian h) t a.
Proof.
  intros H Ha. eexists. split; [exact (reinterpret_run_h h f t n t' n' c m a H Ha)|]. split; [apply unpack_h_lanes|].
  apply unpack_h_image; [apply image_byte|]. rewrite image_length. destruct Ha as [-> _]. exact (proj1 (reinterpret_shape f t n t' n' H)).
Qed.

Lemma app_inj_length {A} (l1 l2 r1 r2 : list A) : l1 ++ r1 = l2 ++ r2 -> List.length l1 = List.length l2 -> l1 = l2 /\ r1 = r2.
Proof.
  revert l2. induction l1 as [|a l1 IH]; intros [|b l2] E L; try discriminate L; [now split|].
  cbn in E. injection E as -> E. destruct (IH l2 E) as [-> ->]; [now injection L|]. now split.
Qed.
Lemma image_inj big t n x y : lanes t n x -> lanes t n y -> image big t x = image big t y -> x = y.
Proof.
  intros [L F] [L' F']. revert y n L L' F'. induction F as [|u x Hu _ IH]; intros [|v y] n L L' F' E; cbn in L, L'; try lia; [reflexivity|].
  inversion F' as [|? ? Hv F2]; subst. unfold image in E. cbn [flat_map] in E.
  assert (LB : forall z, List.length (lane_bytes t z) = nbytes t) by (intros; unfold lane_bytes; now rewrite map_length, seq_length).
  apply app_inj_length in E; [|destruct big; rewrite ?rev_length, !LB; reflexivity]. destruct E as [E1 E2]. f_equal.
  - destruct big; [apply (f_equal (@rev Z)) in E1; rewrite !rev_involutive in E1|]; exact (lane_bytes_inj t u v Hu Hv E1).
  - injection L' as L'. exact (IH y _ eq_refl L' F2 E2).
Qed.

Theorem reinterpret_back h f g t n t' n' c m a : In (f, t, n, t', n') vreinterpret_table -> In (g, t', n', t, n) vreinterpret_table -> lanes t n a ->
  exists r, run_host h c m f [vec t a] = Returns m (Some (vec t' r)) /\ run_host h c m g [vec t' r] = Returns m (Some (vec t a)).
Proof.
  intros H1 H2 Ha. destruct (reinterpret_image h f t n t' n' c m a H1 Ha) as (r & R & Hr & Er). exists r. split; [exact R|].
  destruct (reinterpret_image h g t' n' t n c m r H2 Hr) as (r2 & R2 & Hr2 & Er2). rewrite R2. do 3 f_equal.
  apply (image_inj (big_endian h) t n r2 a Hr2 Ha). now rewrite Er2.
Qed.
