(** Loads and stores. *)
From Coq Require Import ZArith String List Bool Lia.
From Verif Require Import Types FloatBits Syntax Interp ProgRecip ExecLemmas Lane Spec Ew Sym Tables Local.
From Verif Require Import ProgLoad ProgStore P_Shift.
Import ListNotations.
Open Scope Z_scope.

Lemma sh_vec m1 pre t l : sh m1 pre (vec t l) = vec t l.
Proof. unfold vec. cbn. f_equal. rewrite map_map. apply map_ext. reflexivity. Qed.

Lemma sh_vecs m1 pre t ls : sh m1 pre (vecs t ls) = vecs t ls.
Proof. unfold vecs. cbn. f_equal. rewrite map_map. apply map_ext. intros; apply sh_vec. Qed.

(** From the small memory to any memory. *)
Lemma heap_run c f t t' cells cells' args v m1 m2 pre post :
  localb (f_body f) = true -> (forall o, In o args -> sh m1 pre o = o) -> option_map (sh m1 pre) v = v ->
  run c [(t, cells)] f (OPtr t' 0 0 :: args) = Returns [(t, cells')] v ->
  run c (heap m1 t pre cells post m2) f (pointer m1 t' pre :: args) = Returns (heap m1 t pre cells' post m2) v.
Proof.
  intros Hl Ha Hv H. destruct (run_local c f (OPtr t' 0 0 :: args) m1 m2 pre post t cells Hl) as [L _].
  specialize (L _ _ _ H). rewrite Hv in L. unfold heap, pointer. etransitivity; [|exact L]. f_equal.
  cbn [map]. f_equal. symmetry. rewrite <- (map_id args) at 2. apply map_ext_in. exact Ha.
Qed.

Lemma heap_abort c f t t' cells args m1 m2 pre post :
  localb (f_body f) = true -> (forall o, In o args -> sh m1 pre o = o) ->
  run c [(t, cells)] f (OPtr t' 0 0 :: args) = Aborts ->
  run c (heap m1 t pre cells post m2) f (pointer m1 t' pre :: args) = Aborts.
Proof.
  intros Hl Ha H. destruct (run_local c f (OPtr t' 0 0 :: args) m1 m2 pre post t cells Hl) as [_ L].
  specialize (L H). unfold heap, pointer. etransitivity; [|exact L]. f_equal.
  cbn [map]. f_equal. symmetry. rewrite <- (map_id args) at 2. apply map_ext_in. exact Ha.
Qed.

Ltac sh_args := let o := fresh in let H := fresh in
  intros o H; cbn [In] in H; decompose [or] H; subst; try contradiction; first [apply sh_vec | apply sh_vecs | reflexivity].
Ltac sh_ret := cbn [option_map]; first [reflexivity | rewrite sh_vec; reflexivity | rewrite sh_vecs; reflexivity].
Ltac to_heap := apply heap_run; [reflexivity | sh_args | sh_ret | ].

(** ** Loads *)

Lemma vld1_exact f t n c m1 m2 pre post a : In (f, t, n) vld1_table -> lanes t n a ->
  run c (heap m1 t pre (map Some a) post m2) f [pointer m1 t pre]
  = Returns (heap m1 t pre (map Some a) post m2) (Some (vec t a)).
Proof.
  intros H Ha. cbn [In vld1_table] in H.
  each_entry H ltac:(to_heap; explode Ha; vm_compute; reflexivity).
Qed.

Lemma tuple_cons t k n vs : tuple t (S k) n vs -> exists v vs', vs = v :: vs' /\ lanes t n v /\ tuple t k n vs'.
Proof.
  intros [L F]. destruct vs as [|v vs]; [discriminate L|]. exists v, vs.
  inversion F; subst. split; [reflexivity|]. split; [assumption|]. split; [|assumption]. now injection L.
Qed.
Lemma tuple_nil t n vs : tuple t 0 n vs -> vs = [].
Proof. intros [L _]. now destruct vs. Qed.

Ltac explode_tuple H :=
  lazymatch type of H with
  | tuple _ O _ ?a => apply tuple_nil in H; subst a
  | tuple _ (S _) _ ?a =>
      let v := fresh "v" in let a' := fresh "vs" in let Hv := fresh "Hv" in
      apply tuple_cons in H; destruct H as (v & a' & ? & Hv & H); subst a; explode Hv; explode_tuple H
  end.

Lemma vld2_exact f t n c m1 m2 pre post vs : In (f, t, n) vld2_table -> tuple t 2 n vs ->
  run c (heap m1 t pre (map Some (interleave n vs)) post m2) f [pointer m1 t pre]
  = Returns (heap m1 t pre (map Some (interleave n vs)) post m2) (Some (vecs t vs)).
Proof.
  intros H Ha. cbn [In vld2_table] in H.
  each_entry H ltac:(to_heap; explode_tuple Ha; vm_compute; reflexivity).
Qed.

Lemma vld3_exact f t n c m1 m2 pre post vs : In (f, t, n) vld3_table -> tuple t 3 n vs ->
  run c (heap m1 t pre (map Some (interleave n vs)) post m2) f [pointer m1 t pre]
  = Returns (heap m1 t pre (map Some (interleave n vs)) post m2) (Some (vecs t vs)).
Proof.
  intros H Ha. cbn [In vld3_table] in H.
  each_entry H ltac:(to_heap; explode_tuple Ha; vm_compute; reflexivity).
Qed.

Lemma vld4_exact f t n c m1 m2 pre post vs : In (f, t, n) vld4_table -> tuple t 4 n vs ->
  run c (heap m1 t pre (map Some (interleave n vs)) post m2) f [pointer m1 t pre]
  = Returns (heap m1 t pre (map Some (interleave n vs)) post m2) (Some (vecs t vs)).
Proof.
  intros H Ha. cbn [In vld4_table] in H.
  each_entry H ltac:(to_heap; explode_tuple Ha; vm_compute; reflexivity).
Qed.

(** ** Stores *)

Ltac explode_len H :=
  lazymatch type of H with
  | List.length ?l = O => apply length_zero_iff_nil in H; subst l
  | List.length ?l = S _ =>
      let x := fresh "o" in let l' := fresh "l" in
      destruct l as [|x l']; [discriminate H|]; cbn [List.length] in H; apply Nat.succ_inj in H; explode_len H
  end.
Ltac explode_old H :=
  match type of H with List.length ?l = ?k => let k' := eval vm_compute in k in change (List.length l = k') in H end;
  explode_len H.

Lemma vst1_exact f t n c m1 m2 pre post old a : In (f, t, n) vst1_table -> lanes t n a -> List.length old = n ->
  run c (heap m1 t pre old post m2) f [pointer m1 t pre; vec t a]
  = Returns (heap m1 t pre (map Some a) post m2) None.
Proof.
  intros H Ha Ho. cbn [In vst1_table] in H.
  each_entry H ltac:(to_heap; explode Ha; explode_old Ho; vm_compute; reflexivity).
Qed.

Lemma vst2_exact f t n c m1 m2 pre post old vs : In (f, t, n) vst2_table -> tuple t 2 n vs ->
  List.length old = (2 * n)%nat ->
  run c (heap m1 t pre old post m2) f [pointer m1 t pre; vecs t vs]
  = Returns (heap m1 t pre (map Some (interleave n vs)) post m2) None.
Proof.
  intros H Ha Ho. cbn [In vst2_table] in H.
  each_entry H ltac:(to_heap; explode_tuple Ha; explode_old Ho; vm_compute; reflexivity).
Qed.

Lemma vst3_exact f t n c m1 m2 pre post old vs : In (f, t, n) vst3_table -> tuple t 3 n vs ->
  List.length old = (3 * n)%nat ->
  run c (heap m1 t pre old post m2) f [pointer m1 t pre; vecs t vs]
  = Returns (heap m1 t pre (map Some (interleave n vs)) post m2) None.
Proof.
  intros H Ha Ho. cbn [In vst3_table] in H.
  each_entry H ltac:(to_heap; explode_tuple Ha; explode_old Ho; vm_compute; reflexivity).
Qed.

Lemma vst4_exact f t n c m1 m2 pre post old vs : In (f, t, n) vst4_table -> tuple t 4 n vs ->
  List.length old = (4 * n)%nat ->
  run c (heap m1 t pre old post m2) f [pointer m1 t pre; vecs t vs]
  = Returns (heap m1 t pre (map Some (interleave n vs)) post m2) None.
Proof.
  intros H Ha Ho. cbn [In vst4_table] in H.
  each_entry H ltac:(to_heap; explode_tuple Ha; explode_old Ho; vm_compute; reflexivity).
Qed.

(** vst4_u8 stores the fourth vector one element too far, where the next round
    overwrites it; element 4i+3 is never written and element 32 is. *)
Lemma vst4_u8_run c m1 m2 pre post old vs : tuple U8 4 8 vs -> List.length old = 33%nat ->
  run c (heap m1 U8 pre old post m2) vst4_u8 [pointer m1 U8 pre; vecs U8 vs]
  = Returns (heap m1 U8 pre
      (flat_map (fun i => map (fun v => Some (nth i v 0)) (firstn 3 vs) ++ [nth (4 * i + 3) old None]) (seq 0 8)
       ++ [Some (nth 7 (nth 3 vs []) 0)]) post m2) None.
Proof. intros Ha Ho. to_heap; explode_tuple Ha; explode_old Ho. vm_compute. reflexivity. Qed.

(** In a buffer of exactly 32 elements it writes past the end. *)
Lemma vst4_u8_ub c old vs : tuple U8 4 8 vs -> List.length old = 32%nat ->
  run c [(U8, old)] vst4_u8 [OPtr U8 0 0; vecs U8 vs] = Undefined OutOfBounds.
Proof. intros Ha Ho. explode_tuple Ha; explode_old Ho. vm_compute. reflexivity. Qed.

(** vst4_u32 stores the fourth vector over the third. *)
Lemma vst4_u32_run c m1 m2 pre post old vs : tuple U32 4 2 vs -> List.length old = 8%nat ->
  run c (heap m1 U32 pre old post m2) vst4_u32 [pointer m1 U32 pre; vecs U32 vs]
  = Returns (heap m1 U32 pre
      (flat_map (fun i => map (fun j => Some (nth i (nth j vs []) 0)) [0; 1; 3]%nat ++ [nth (4 * i + 3) old None])
         (seq 0 2)) post m2) None.
Proof. intros Ha Ho. to_heap; explode_tuple Ha; explode_old Ho. vm_compute. reflexivity. Qed.

(** ** One lane *)

Lemma vld1q_dup_f32_exact c m1 m2 pre post z : in_range F32 z ->
  run c (heap m1 F32 pre [Some z] post m2) vld1q_dup_f32 [pointer m1 F32 pre]
  = Returns (heap m1 F32 pre [Some z] post m2) (Some (vec F32 (repeat z 4))).
Proof. intros Hz. to_heap. vm_compute. reflexivity. Qed.

Ltac lit_range k n :=
  lazymatch n with
  | O => idtac
  | S ?n' => let z := eval vm_compute in (Z.of_nat n') in
      destruct (Z.eq_dec k z) as [->|]; [|lit_range k n']
  end.

Lemma vld1_lane_exact f t c m1 m2 pre post z a k :
  f = vld1_lane_s8 /\ t = I8 \/ f = vld1_lane_u8 /\ t = U8 ->
  lanes t 8 a -> 0 <= k < 8 ->
  run c (heap m1 t pre [Some z] post m2) f [pointer m1 t pre; vec t a; rv I32 k]
  = Returns (heap m1 t pre [Some z] post m2) (Some (vec t (replace_lane (Z.to_nat k) z a))).
Proof.
  intros [[-> ->]|[-> ->]] Ha Hk; to_heap; explode Ha; lit_range k 8%nat; try lia; vm_compute; reflexivity.
Qed.

Lemma vld_lane_exact c m1 m2 pre post zs vs k kk f :
  f = vld2_lane_u8 /\ kk = 2%nat \/ f = vld3_lane_u8 /\ kk = 3%nat \/ f = vld4_lane_u8 /\ kk = 4%nat ->
  List.length zs = kk -> tuple U8 kk 8 vs -> 0 <= k < 8 ->
  run c (heap m1 U8 pre (map Some zs) post m2) f [pointer m1 U8 pre; vecs U8 vs; rv I32 k]
  = Returns (heap m1 U8 pre (map Some zs) post m2) (Some (vecs U8 (map2 (replace_lane (Z.to_nat k)) zs vs))).
Proof.
  intros [[-> ->]|[[-> ->]|[-> ->]]] Hz Hv Hk; to_heap; explode_len Hz; explode_tuple Hv;
    lit_range k 8%nat; try lia; vm_compute; reflexivity.
Qed.

Lemma vld_lane_reject c m p vs k kk f :
  f = vld2_lane_u8 /\ kk = 2%nat \/ f = vld3_lane_u8 /\ kk = 3%nat \/ f = vld4_lane_u8 /\ kk = 4%nat ->
  tuple U8 kk 8 vs -> in_range I32 k -> ~ 0 <= k < 8 ->
  run c m f [OPtr U8 (fst p) (snd p); vecs U8 vs; rv I32 k] = Aborts.
Proof.
  intros [[-> ->]|[[-> ->]|[-> ->]]] Hv Hi Hk;
   (eapply step_run;
    [ leaf
    | cbn [f_body];
      first [ eapply step_seq_err; sxk; first [reflexivity | exfalso; lia]
            | eapply step_seq; [leaf|]; eapply step_seq_err; sxk; first [reflexivity | exfalso; lia] ]
    | reflexivity ]).
Qed.

Lemma vst4q_lane_exact c m1 m2 pre post old vs k : tuple F32 4 4 vs -> List.length old = 4%nat -> 0 <= k < 4 ->
  run c (heap m1 F32 pre old post m2) vst4q_lane_f32 [pointer m1 F32 pre; vecs F32 vs; rv I32 k]
  = Returns (heap m1 F32 pre (map (fun v => Some (nth (Z.to_nat k) v 0)) vs) post m2) None.
Proof.
  intros Hv Ho Hk. to_heap. explode_tuple Hv. explode_old Ho.
  lit_range k 4%nat; try lia; vm_compute; reflexivity.
Qed.

(** No check of the lane number: out of range is undefined. *)
Lemma vld1_lane_out f t c m1 m2 pre post z a k :
  f = vld1_lane_s8 /\ t = I8 \/ f = vld1_lane_u8 /\ t = U8 ->
  lanes t 8 a -> in_range I32 k -> ~ 0 <= k < 8 ->
  run c (heap m1 t pre [Some z] post m2) f [pointer m1 t pre; vec t a; rv I32 k] = Undefined OutOfBounds.
Proof.
  intros Hf Ha Hi Hk.
  assert (E : forall l : list obj, List.length l = 8%nat -> get_idx l k = Err (EUB OutOfBounds)).
  { intros l Hl. unfold get_idx. destruct (Z.ltb_spec k 0); [reflexivity|].
    replace (nth_error l (Z.to_nat k)) with (@None obj); [reflexivity|].
    symmetry. apply nth_error_None. lia. }
  assert (R : mem_read (heap m1 t pre [Some z] post m2) t (List.length m1) (Z.of_nat (List.length pre) + 0)
              = Ok (rv t z)).
  { pose proof (mem_read_sh m1 m2 pre post [(t, [Some z])] (heap m1 t pre [Some z] post m2) t 0 0
      ltac:(repeat eexists; reflexivity)) as M.
    replace (mem_read [(t, [Some z])] t 0 0) with (Ok (rv t z)) in M by (destruct Hf as [[_ ->]|[_ ->]]; reflexivity).
    destruct M as (b & Hb & ->). rewrite Z.add_0_r. exact Hb. }
  generalize dependent (heap m1 t pre [Some z] post m2). intros M R. unfold pointer.
  generalize dependent (Z.of_nat (List.length pre)). generalize dependent (List.length m1). intros nb zo R.
  destruct Hf as [[-> ->]|[-> ->]]; explode Ha;
  (eapply step_run;
    [ reflexivity
    | cbn [f_body]; eapply step_seq; [reflexivity|]; eapply step_seq; [vm_compute; reflexivity|];
      eapply step_seq_err; cbn [exec eval_path eval]; cbn -[get_idx mem_read Z.add]; rewrite R;
      cbn -[get_idx]; rewrite E by reflexivity; reflexivity
    | reflexivity ]).
Qed.

Lemma vst4q_lane_out c m b off vs k : tuple F32 4 4 vs -> in_range I32 k -> ~ 0 <= k < 4 ->
  run c m vst4q_lane_f32 [OPtr F32 b off; vecs F32 vs; rv I32 k] = Undefined OutOfBounds.
Proof.
  intros Hv Hi Hk.
  assert (E : forall l : list obj, List.length l = 4%nat -> get_idx l k = Err (EUB OutOfBounds)).
  { intros l Hl. unfold get_idx. destruct (Z.ltb_spec k 0); [reflexivity|].
    replace (nth_error l (Z.to_nat k)) with (@None obj); [reflexivity|].
    symmetry. apply nth_error_None. lia. }
  apply tuple_cons in Hv. destruct Hv as (v & vs' & -> & Hv & _).
  eapply step_run;
    [ reflexivity
    | cbn [f_body]; eapply step_for; [reflexivity | reflexivity | | ];
      [ unfold loop_fuel at 1; eapply step_loop_err; [reflexivity|] |];
      [ etransitivity; [eapply step_body; cbn [exec eval_path eval];
          cbn -[get_idx vec]; change (get_idx (vec F32 v :: map (vec F32) vs') 0) with (@Ok obj (vec F32 v));
          cbn -[get_idx]; rewrite E by (rewrite map_length; apply Hv); reflexivity | reflexivity]
      | reflexivity ]
    | reflexivity ].
Qed.
