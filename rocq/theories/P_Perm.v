(** Permutations, extraction, lane access. *)
From Coq Require Import ZArith String List Bool Lia.
From Verif Require Import Types FloatBits Syntax Interp ProgRecip ExecLemmas Lane Spec Ew Sym Tables.
From Verif Require Import ProgMul ProgBit ProgPerm ProgRev P_Shift.
Import ListNotations.
Open Scope Z_scope.

Lemma vtrn_exact f t n c m a b : In (f, t, n) vtrn_table -> lanes t n a -> lanes t n b ->
  run c m f [vec t a; vec t b] = Returns m (Some (vecs t [trn 0 n a b; trn 1 n a b])).
Proof.
  intros H Ha Hb. cbn [In vtrn_table] in H.
  each_entry H ltac:(explode Ha; explode Hb; vm_compute; reflexivity).
Qed.

Lemma vzip_exact f t n c m a b : In (f, t, n) vzip_table -> lanes t n a -> lanes t n b ->
  run c m f [vec t a; vec t b] = Returns m (Some (vecs t [firstn n (zip a b); skipn n (zip a b)])).
Proof.
  intros H Ha Hb. cbn [In vzip_table] in H.
  each_entry H ltac:(explode Ha; explode Hb; vm_compute; reflexivity).
Qed.

Lemma vuzp_exact f t n c m a b : In (f, t, n) vuzp_table -> lanes t n a -> lanes t n b ->
  run c m f [vec t a; vec t b] = Returns m (Some (vecs t [uzp 0 n a b; uzp 1 n a b])).
Proof.
  intros H Ha Hb. cbn [In vuzp_table] in H.
  each_entry H ltac:(explode Ha; explode Hb; vm_compute; reflexivity).
Qed.

Lemma vcombine_exact f t n c m a b : In (f, t, n) vcombine_table -> lanes t n a -> lanes t n b ->
  run c m f [vec t a; vec t b] = Returns m (Some (vec t (a ++ b))).
Proof.
  intros H Ha Hb. cbn [In vcombine_table] in H.
  each_entry H ltac:(explode Ha; explode Hb; vm_compute; reflexivity).
Qed.

Ltac split_range k n :=
  lazymatch n with
  | O => idtac
  | S ?n' => let z := eval vm_compute in (Z.of_nat n') in
      destruct (Z.eq_dec k z) as [->|]; [|split_range k n']
  end.

(** Every offset the function accepts, not only the documented ones. *)
Lemma vext_exact f t n c m a b k : In (f, t, n) vext_table -> lanes t n a -> lanes t n b ->
  0 <= k < Z.of_nat n ->
  run c m f [vec t a; vec t b; rv I32 k] = Returns m (Some (vec t (firstn n (skipn (Z.to_nat k) (a ++ b))))).
Proof.
  intros H Ha Hb Hk. cbn [In vext_table] in H.
  each_entry H ltac:(explode Ha; explode Hb; cbn [Z.of_nat Pos.of_succ_nat Pos.succ] in Hk;
    split_range k 8%nat; try lia; vm_compute; reflexivity).
Qed.

(** vext_u8 and vextq_u16 also accept n = 8 and return the second operand. *)
Lemma vext8_full f t c m a b : f = vext_u8 /\ t = U8 \/ f = vextq_u16 /\ t = U16 -> lanes t 8 a -> lanes t 8 b ->
  run c m f [vec t a; vec t b; rv I32 8] = Returns m (Some (vec t b)).
Proof.
  intros [[-> ->]|[-> ->]] Ha Hb; explode Ha; explode Hb; vm_compute; reflexivity.
Qed.

Lemma vext_reject f t n c m a b k : In (f, t, n) vext_table -> lanes t n a -> lanes t n b ->
  in_range I32 k -> k < 0 \/ 8 < k \/ (n = 4%nat /\ 3 < k) ->
  run c m f [vec t a; vec t b; rv I32 k] = Aborts.
Proof.
  intros H Ha Hb Hi Hk. cbn [In vext_table] in H.
  each_entry H ltac:(
    eapply step_run;
    [ leaf
    | cbn [f_body]; eapply step_seq; [leaf|]; eapply step_seq; [leaf|];
      eapply step_seq_err; sxk; first [reflexivity | exfalso; lia]
    | reflexivity ]).
Qed.

Lemma vrev16_exact f t n c m a : In (f, t, n) vrev16_table -> lanes t n a ->
  run c m f [vec t a] = Returns m (Some (vec t (rev_groups 2 n a))).
Proof.
  intros H Ha. cbn [In vrev16_table] in H.
  each_entry H ltac:(explode Ha; vm_compute; reflexivity).
Qed.

Lemma vrev32_exact f t n c m a : In (f, t, n) vrev32_table -> lanes t n a ->
  run c m f [vec t a] = Returns m (Some (vec t (rev_groups (4 / nbytes t) n a))).
Proof.
  intros H Ha. cbn [In vrev32_table] in H.
  each_entry H ltac:(explode Ha; vm_compute; reflexivity).
Qed.

Lemma vrev64_exact f t n c m a : In (f, t, n) vrev64_table -> lanes t n a ->
  run c m f [vec t a] = Returns m (Some (vec t (rev_groups (8 / nbytes t) n a))).
Proof.
  intros H Ha. cbn [In vrev64_table] in H.
  each_entry H ltac:(explode Ha; vm_compute; reflexivity).
Qed.

(** The three incorrect members. *)
Lemma vrev32_s8_ub c m a : lanes I8 8 a -> run c m vrev32_s8 [vec I8 a] = Undefined OutOfBounds.
Proof. intros Ha. explode Ha. vm_compute. reflexivity. Qed.

Lemma vrev64q_half f t n c m a : In (f, t, n) [(vrev64q_s8, I8, 16%nat); (vrev64q_s16, I16, 8%nat)] -> lanes t n a ->
  run c m f [vec t a]
  = Returns m (Some (OArr (map (rv t) (rev (firstn (n / 2) a)) ++ repeat (OScal t None) (n / 2)))).
Proof.
  intros H Ha. cbn [In] in H.
  each_entry H ltac:(explode Ha; vm_compute; reflexivity).
Qed.

(** ** Lane access *)

Lemma get_idx_nth {A} (l : list A) k d : 0 <= k < Z.of_nat (List.length l) ->
  get_idx l k = Ok (nth (Z.to_nat k) l d).
Proof.
  intros H. unfold get_idx. destruct (Z.ltb_spec k 0); [lia|].
  rewrite (nth_error_nth' l d) by lia. reflexivity.
Qed.

Lemma get_idx_out {A} (l : list A) k : ~ (0 <= k < Z.of_nat (List.length l)) ->
  get_idx l k = Err (EUB OutOfBounds).
Proof.
  intros H. unfold get_idx. destruct (Z.ltb_spec k 0); [reflexivity|].
  replace (nth_error l (Z.to_nat k)) with (@None A); [reflexivity|]. symmetry. apply nth_error_None. lia.
Qed.

Lemma vget_lane_exact f t n c m a k : In (f, t, n) vget_lane_table -> lanes t n a -> 0 <= k < Z.of_nat n ->
  run c m f [vec t a; rv I32 k] = Returns m (Some (rv t (nth (Z.to_nat k) a 0))).
Proof.
  intros H Ha Hk. cbn [In vget_lane_table] in H.
  each_entry H ltac:(explode Ha; cbn [Z.of_nat Pos.of_succ_nat Pos.succ] in Hk;
    split_range k 16%nat; try lia; vm_compute; reflexivity).
Qed.

Lemma vget_lane_out f t n c m a k : In (f, t, n) vget_lane_table -> lanes t n a -> ~ (0 <= k < Z.of_nat n) ->
  run c m f [vec t a; rv I32 k] = Undefined OutOfBounds.
Proof.
  intros H [L _] Hk. rewrite <- L in Hk.
  assert (G : get_idx (map (rv t) a) k = Err (EUB OutOfBounds)) by (apply get_idx_out; now rewrite map_length).
  cbn [In vget_lane_table] in H.
  each_entry H ltac:(
    unfold vec; match goal with |- context [map ?g a] => set (A := map g a) in *; clearbody A end;
    eapply step_run; [leaf | cbn [f_body]; cbv -[get_idx]; rewrite G; reflexivity | reflexivity]).
Qed.

Lemma vgetq_lane_f32_exact c m a k : lanes F32 4 a -> 0 <= k < 4 ->
  run c m vgetq_lane_f32 [vec F32 a; rv I32 k] = Returns m (Some (rv F32 (nth (Z.to_nat k) a 0))).
Proof. intros Ha Hk. explode Ha. split_range k 4%nat; try lia; vm_compute; reflexivity. Qed.

Lemma vgetq_lane_f32_reject c m a k : lanes F32 4 a -> in_range I32 k -> ~ (0 <= k < 4) ->
  run c m vgetq_lane_f32 [vec F32 a; rv I32 k] = Aborts.
Proof. intros Ha Hi Hk. sxk; first [reflexivity | exfalso; lia]. Qed.
