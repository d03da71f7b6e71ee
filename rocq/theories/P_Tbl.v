(** Table lookup: one lemma per loop body, then eight iterations. *)
From Coq Require Import ZArith String List Bool Lia.
From Verif Require Import Types FloatBits Syntax Interp ProgRecip ExecLemmas Lane Spec Ew Sym Tables.
From Verif Require Import ProgPerm P_Shift P_Perm.
Import ListNotations.
Open Scope Z_scope.
Local Open Scope string_scope.

(** The body of the [for] loop that is the second statement. *)
Definition loop_body (f : func) : stmt :=
  match f_body f with SSeq _ (SSeq (SFor _ _ _ _ _ b) _) => b | _ => SSkip end.

Section Lookup.
  Variables (c : cfg) (m : memory) (f : func) (ps : env) (N : nat).
  (** [ps] are the bound parameters; [h x] is what an iteration stores for index [x]. *)
  Variable ix : list Z.
  Variable h : Z -> res Z.
  Variable out : env -> Z -> env.

  Let cf := call_helper c helpers loop_fuel call_depth.

  Hypothesis Hbody : forall k r x, (k < 8)%nat -> nth_error ix k = Some x -> List.length r = 8%nat ->
    exec c cf loop_fuel (loop_body f) (("i", rv I32 (Z.of_nat k)) :: ("r", OArr (map (OScal U8) r)) :: ps) m
    = let* z := h x in
      Ok (Normal (out (("i", rv I32 (Z.of_nat k)) :: ("r", OArr (map (OScal U8) (set_nth k (Some z) r))) :: ps) x) m).
  Hypothesis Hout : forall en x, pop (List.length en) (out en x) = en.

  Lemma lookup_loop k r todo : List.length r = 8%nat -> (k + List.length todo = 8)%nat -> skipn k ix = todo ->
    (8 - k < N)%nat ->
    loop N (for_cond c cf ("i" < (lit 8))%C) (for_step c cf loop_fuel "i" ("i" + (lit 1))%C (loop_body f))
      (("i", rv I32 (Z.of_nat k)) :: ("r", OArr (map (OScal U8) r)) :: ps) m
    = let* zs := mapM h todo in
      Ok (Normal (("i", rv I32 8) :: ("r", OArr (map (OScal U8) (firstn k r ++ map Some zs))) :: ps) m).
  Proof.
    revert k r N. induction todo as [|x todo IH]; intros k r n Hr Hk Hs Hn.
    - assert (k = 8%nat) by (cbn in Hk; lia). subst k. destruct n as [|n]; [lia|].
      erewrite step_loop_end by reflexivity. cbn [mapM bind].
      rewrite app_nil_r, firstn_all2 by lia. reflexivity.
    - destruct n as [|n]; [lia|]. cbn [List.length] in Hk.
      assert (Hx : nth_error ix k = Some x).
      { rewrite <- (firstn_skipn k ix), Hs. rewrite nth_error_app2; rewrite firstn_length_le; try lia.
        - now rewrite Nat.sub_diag.
        - assert (L := f_equal (@List.length Z) Hs). rewrite skipn_length in L. cbn in L. lia.
        - assert (L := f_equal (@List.length Z) Hs). rewrite skipn_length in L. cbn in L. lia. }
      assert (Hs' : skipn (S k) ix = todo).
      { clear -Hs. revert ix Hs. induction k as [|k IH]; intros [|y l] Hs; try discriminate.
        - now injection Hs.
        - now apply IH. }
      assert (Hlt : (Z.of_nat k <? 8)%Z = true) by (apply Z.ltb_lt; lia).
      assert (Hc : for_cond c cf ("i" < (lit 8))%C
        (("i", rv I32 (Z.of_nat k)) :: ("r", OArr (map (OScal U8) r)) :: ps) m = Ok true).
      { transitivity (cond_value (of_bool (Z.of_nat k <? 8)%Z)); [reflexivity|]. now rewrite Hlt. }
      cbn [loop]. rewrite Hc. cbn [bind].
      unfold for_step at 1. rewrite (Hbody k r x) by (trivial; lia). cbn [mapM].
      destruct (h x) as [z|e]; [|reflexivity]. cbn [bind pop_ctl].
      change (List.length (("i", rv I32 (Z.of_nat k)) :: ("r", OArr (map (OScal U8) r)) :: ps))
        with (List.length (("i", rv I32 (Z.of_nat k)) :: ("r", OArr (map (OScal U8) (set_nth k (Some z) r))) :: ps)).
      rewrite Hout.
      assert (E : eval c cf (("i", rv I32 (Z.of_nat k)) :: ("r", OArr (map (OScal U8) (set_nth k (Some z) r))) :: ps) m
                  ("i" + (lit 1))%C = Ok (rv I32 (Z.of_nat (S k)))).
      { cbn -[Z.of_nat arith]. rewrite arith_ok by range. cbn -[Z.of_nat].
        replace (Z.of_nat k + 1) with (Z.of_nat (S k)) by lia. reflexivity. }
      rewrite E. cbn [bind].
      match goal with |- context [assign ?c ?en ?m "i" [] ?v] =>
        replace (assign c en m "i" [] v) with
          (Ok (("i", rv I32 (Z.of_nat (S k))) :: ("r", OArr (map (OScal U8) (set_nth k (Some z) r))) :: ps, m))
          by reflexivity end.
      cbn [bind fst snd]. rewrite IH; try lia; trivial.
      + destruct (mapM h todo) as [zs|e]; [|reflexivity]. cbn [bind map]. do 7 f_equal.
        rewrite <- app_assoc || idtac.
        assert (Hk' : (k < List.length r)%nat) by lia. clear -Hk'.
        revert k Hk'. induction r as [|o r IH]; intros k Hk; [cbn in Hk; lia|].
        destruct k as [|k]; [reflexivity|]. change (o :: (firstn (S k) (set_nth k (Some z) r) ++ map Some zs) = o :: (firstn k r ++ Some z :: map Some zs)). f_equal. apply IH. cbn in Hk. lia.
      + rewrite <- Hr. clear. revert k. induction r; intros [|k]; cbn; auto.
  Qed.
End Lookup.

Ltac index_cases x n :=
  let K := fresh in
  destruct (Z_lt_le_dec x (Z.of_nat n)) as [K|K]; cbn [Z.of_nat Pos.of_succ_nat Pos.succ] in K; [split_range x n; try lia|].

Definition ptable (f : func) : string := match f_params f with (x, _) :: _ => x | _ => "" end.

Lemma tbl_run c m f tab ix h (out : env -> Z -> env) :
  lanes U8 8 ix ->
  f_ret f = tvec U8 8 -> f_params f = [(ptable f, snd (hd ("", TVoid) (f_params f))); ("idx", tvec U8 8)] ->
  (exists k t, snd (hd ("", TVoid) (f_params f)) = TArr k t) ->
  f_body f = SSeq (SDecl (tvec U8 8) "r" None)
    (SSeq (SFor I32 "i" (lit 0) ("i" < (lit 8))%C ("i" + (lit 1))%C (loop_body f)) (SReturn "r")) ->
  (forall en x, pop (List.length en) (out en x) = en) ->
  (forall k r x, (k < 8)%nat -> nth_error ix k = Some x -> List.length r = 8%nat ->
    exec c (call_helper c helpers loop_fuel call_depth) loop_fuel (loop_body f)
      (("i", rv I32 (Z.of_nat k)) :: ("r", OArr (map (OScal U8) r)) :: [(ptable f, tab); ("idx", vec U8 ix)]) m
    = let* z := h x in
      Ok (Normal (out (("i", rv I32 (Z.of_nat k)) :: ("r", OArr (map (OScal U8) (set_nth k (Some z) r)))
                       :: [(ptable f, tab); ("idx", vec U8 ix)]) x) m)) ->
  run c m f [tab; vec U8 ix] = vec_outcome m U8 (mapM h ix).
Proof.
  intros Hix Hret Hps (kt & tt & Ht) Hb Hout Hbody.
  eapply step_run.
  - rewrite Hps, Ht. reflexivity.
  - rewrite Hb. eapply step_seq; [reflexivity|].
    replace (fresh (tvec U8 8)) with (OArr (map (OScal U8) (repeat None 8))) by reflexivity.
    instantiate (1 := let* zs := mapM h ix in Ok (Returned (vec U8 zs) m)).
    assert (F : exec c (call_helper c helpers loop_fuel call_depth) loop_fuel
        (SFor I32 "i" (lit 0) ("i" < (lit 8))%C ("i" + (lit 1))%C (loop_body f))
        [("r", OArr (map (OScal U8) (repeat None 8))); (ptable f, tab); ("idx", vec U8 ix)] m
      = let* zs := mapM h ix in
        Ok (Normal [("r", vec U8 zs); (ptable f, tab); ("idx", vec U8 ix)] m)).
    { eapply step_for; [reflexivity | reflexivity | |].
      - destruct Hix as [L _].
        apply (lookup_loop c m f [(ptable f, tab); ("idx", vec U8 ix)] loop_fuel ix h out Hbody Hout 0 (repeat None 8) ix);
          trivial; try lia. unfold loop_fuel. lia.
      - destruct (mapM h ix) as [zs|e]; [|reflexivity]. cbn [bind firstn app]. unfold vec. rewrite map_map. reflexivity. }
    cbn [exec] in F |- *. rewrite F. destruct (mapM h ix) as [zs|e]; reflexivity.
  - rewrite Hret. unfold vec_outcome. destruct (mapM h ix) as [zs|[]]; reflexivity.
Qed.

Ltac lit_nat k := first [exfalso; lia | destruct k as [|k]; [|lit_nat k]].

(** One iteration of each function: lane and index fixed, table symbolic. *)
Ltac tbl_body n :=
  intros kk rr xx HHk HHx Hr;
  assert (Hxr : in_range U8 xx) by (match goal with Hix : lanes U8 8 _ |- _ => exact (lanes_nth _ _ _ _ _ Hix HHx) end);
  unfold in_range in Hxr; cbn [lo hi] in Hxr;
  match goal with Hix : lanes U8 8 _ |- _ => explode Hix end;
  do 9 (try (destruct rr as [|? rr]; try discriminate Hr)); clear Hr;
  lit_nat kk; cbn in HHx; injection HHx as ->; clear HHk;
  (index_cases xx n; [vm_compute; reflexivity ..|]).

Lemma lookup_out a x : Z.of_nat (List.length a) <= x -> lookup_table a x = 0.
Proof. intros H. unfold lookup_table. apply nth_overflow. lia. Qed.

Lemma pop1 (en : env) y : pop (List.length en) (y :: en) = en.
Proof.
  unfold pop. cbn [List.length]. replace (S (List.length en) - List.length en)%nat with 1%nat by lia. reflexivity.
Qed.

Lemma vtbl1_u8_exact c m a ix : lanes U8 8 a -> lanes U8 8 ix ->
  run c m vtbl1_u8 [vec U8 a; vec U8 ix] = Returns m (Some (vec U8 (map (lookup_table a) ix))).
Proof.
  intros Ha Hix. rewrite <- (ok_all1 m _ (fun x => Ok (lookup_table a x)) _ _ _ ix Hix) by reflexivity.
  apply (tbl_run c m vtbl1_u8 (vec U8 a) ix _ (fun en x => ("index", rv I32 x) :: en)); trivial.
  - eexists _, _; reflexivity.
  - intros. apply pop1.
  - assert (Hlt : forall x, (8 <= x)%Z -> lookup_table a x = 0).
    { intros x Hx. apply lookup_out. destruct Ha as [-> _]. exact Hx. }
    explode Ha. tbl_body 8%nat. all: rewrite Hlt by assumption; sxk; reflexivity.
Qed.

Lemma vtbl2_u8_exact c m a b ix : lanes U8 8 a -> lanes U8 8 b -> lanes U8 8 ix ->
  run c m vtbl2_u8 [vecs U8 [a; b]; vec U8 ix] = Returns m (Some (vec U8 (map (lookup_table (a ++ b)) ix))).
Proof.
  intros Ha Hb Hix. rewrite <- (ok_all1 m _ (fun x => Ok (lookup_table (a ++ b) x)) _ _ _ ix Hix) by reflexivity.
  apply (tbl_run c m vtbl2_u8 (vecs U8 [a; b]) ix _ (fun en x => ("index", rv I32 x) :: en)); trivial.
  - eexists _, _; reflexivity.
  - intros. apply pop1.
  - assert (Hlt : forall x, (16 <= x)%Z -> lookup_table (a ++ b) x = 0).
    { intros x Hx. apply lookup_out. rewrite app_length. destruct Ha as [-> _], Hb as [-> _]. exact Hx. }
    explode Ha. explode Hb. cbn [app] in *. tbl_body 16%nat. all: rewrite Hlt by assumption; sxk; reflexivity.
Qed.

Lemma vtbl4_u8_exact c m a b d e ix : lanes U8 8 a -> lanes U8 8 b -> lanes U8 8 d -> lanes U8 8 e -> lanes U8 8 ix ->
  run c m vtbl4_u8 [vecs U8 [a; b; d; e]; vec U8 ix]
  = Returns m (Some (vec U8 (map (lookup_table (a ++ b ++ d ++ e)) ix))).
Proof.
  intros Ha Hb Hd He Hix.
  rewrite <- (ok_all1 m _ (fun x => Ok (lookup_table (a ++ b ++ d ++ e) x)) _ _ _ ix Hix) by reflexivity.
  apply (tbl_run c m vtbl4_u8 (vecs U8 [a; b; d; e]) ix _ (fun en x => ("index", rv I32 x) :: en)); trivial.
  - eexists _, _; reflexivity.
  - intros. apply pop1.
  - assert (Hlt : forall x, (32 <= x)%Z -> lookup_table (a ++ b ++ d ++ e) x = 0).
    { intros x Hx. apply lookup_out. rewrite !app_length.
      destruct Ha as [-> _], Hb as [-> _], Hd as [-> _], He as [-> _]. exact Hx. }
    explode Ha. explode Hb. explode Hd. explode He. cbn [app] in *.
    tbl_body 32%nat. all: rewrite Hlt by assumption; sxk; reflexivity.
Qed.

(** vqtbl1_u8 does not check the index: one outside the table is undefined behaviour. *)
Lemma vqtbl1_u8_run c m a ix : lanes U8 16 a -> lanes U8 8 ix ->
  run c m vqtbl1_u8 [vec U8 a; vec U8 ix]
  = vec_outcome m U8 (mapM (fun x => if (x <? 16)%Z then Ok (lookup_table a x) else Err (EUB OutOfBounds)) ix).
Proof.
  intros Ha Hix.
  apply (tbl_run c m vqtbl1_u8 (vec U8 a) ix _ (fun en x => en)); trivial.
  - eexists _, _; reflexivity.
  - intros. unfold pop. now rewrite Nat.sub_diag.
  - assert (Hgo : forall x, (16 <= x)%Z -> get_idx (map (rv U8) a) x = Err (EUB OutOfBounds)).
    { intros x Hx. apply get_idx_out. rewrite map_length. destruct Ha as [-> _]. cbn. lia. }
    explode Ha. cbn [map] in Hgo. tbl_body 16%nat.
    all: (destruct (Z.ltb_spec xx 16); [exfalso; lia|]); specialize (Hgo _ H); cbn [bind];
      match goal with |- exec ?c _ _ _ ?en ?m = _ =>
        match type of Hgo with get_idx ?T _ = _ =>
        match en with (_, rv I32 ?k) :: _ =>
          transitivity (let* o := get_idx T xx in let* r := assign c en m "r" [k] o in Ok (Normal (fst r) (snd r)));
          [reflexivity | rewrite Hgo; reflexivity] end end end.
Qed.

Lemma vqtbl1_u8_exact c m a ix : lanes U8 16 a -> lanes U8 8 ix -> Forall (fun x => (x < 16)%Z) ix ->
  run c m vqtbl1_u8 [vec U8 a; vec U8 ix] = Returns m (Some (vec U8 (map (lookup_table a) ix))).
Proof.
  intros Ha Hix Hlt. rewrite vqtbl1_u8_run by assumption.
  rewrite (mapM_ok_map _ (lookup_table a)); [reflexivity|].
  intros x Hx. rewrite Forall_forall in Hlt. specialize (Hlt x Hx).
  destruct (Z.ltb_spec x 16); [reflexivity|lia].
Qed.

Lemma vqtbl1_u8_out c m a ix : lanes U8 16 a -> lanes U8 8 ix -> Exists (fun x => (16 <= x)%Z) ix ->
  run c m vqtbl1_u8 [vec U8 a; vec U8 ix] = Undefined OutOfBounds.
Proof.
  intros Ha Hix Hlt. rewrite vqtbl1_u8_run by assumption.
  rewrite (mapM_err_some _ (EUB OutOfBounds)); [reflexivity| |].
  - intros x _. destruct (Z.ltb_spec x 16); eauto.
  - apply Exists_exists in Hlt. destruct Hlt as (x & Hx & Hl). exists x. split; [exact Hx|].
    destruct (Z.ltb_spec x 16); [lia|reflexivity].
Qed.
