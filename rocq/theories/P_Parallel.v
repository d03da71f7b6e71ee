(** An element-wise loop split over threads. *)
From Coq Require Import ZArith String List Bool Lia.
From Verif Require Import Types Syntax Interp ProgRecip Library Spec Tables MetaSpec ExecLemmas Ew Client.
From Verif Require Import P_Valid2 P_Meta2 P_Det P_Client P_Kernels P_Threads.
Import ListNotations.
Open Scope Z_scope.

(** ** The functions of the tables are in the library, and their parameters are what the tables say *)

Definition in_lib (f : func) : bool :=
  match find (fun g => String.eqb (f_name g) (f_name f)) library with Some g => true | None => false end.

Definition found (l : list (func * sty * nat)) : list (option func) :=
  map (fun p => find (fun g => String.eqb (f_name g) (f_name (fst (fst p)))) library) l.

Lemma found_in l : found l = map (fun p => Some (fst (fst p))) l -> forall f t n, In (f, t, n) l -> In f library.
Proof.
  intros H f t n I. unfold found in H.
  assert (K : forall p, In p l -> find (fun g => String.eqb (f_name g) (f_name (fst (fst p)))) library = Some (fst (fst p))).
  { clear I f t n. revert H. induction l as [|p l IH]; intros H q Hq; [destruct Hq|]. cbn in H. injection H as H1 H2. destruct Hq as [ <- |Hq]; [exact H1|now apply IH]. }
  exact (proj1 (find_some _ _ (K _ I))).
Qed.

Lemma vld1_in f t n : In (f, t, n) vld1_table -> In f library.
Proof. apply found_in. vm_compute. reflexivity. Qed.
Lemma vst1_in f t n : In (f, t, n) vst1_table -> In f library.
Proof. apply found_in. vm_compute. reflexivity. Qed.
Lemma unary_in f t n : In (f, t, n) (vmvn_table ++ vmovl_table ++ vmovn_table ++ [(vqmovn_u16, U16, 8%nat); (vqmovun_s16, I16, 8%nat)]) -> In f library.
Proof. apply found_in. vm_compute. reflexivity. Qed.

Definition sig (f : func) := (map snd (f_params f), is_store f, extent f).

Lemma table_sig l (s : sty -> nat -> list ty * bool * Z) : map (fun p => sig (fst (fst p))) l = map (fun p => s (snd (fst p)) (snd p)) l ->
  forall f t n, In (f, t, n) l -> sig f = s t n.
Proof.
  intros H f t n I.
  assert (K : forall p, In p l -> sig (fst (fst p)) = s (snd (fst p)) (snd p)).
  { clear I f t n. revert H. induction l as [|p l IH]; intros H q Hq; [destruct Hq|]. cbn in H. injection H as H1 H2. destruct Hq as [ <- |Hq]; [exact H1|now apply IH]. }
  exact (K _ I).
Qed.

Lemma vld1_sig f t n : In (f, t, n) vld1_table -> sig f = ([TPtr t], false, Z.of_nat n).
Proof. apply (table_sig vld1_table (fun t n => ([TPtr t], false, Z.of_nat n))). vm_compute. reflexivity. Qed.
Lemma vst1_sig f t n : In (f, t, n) vst1_table -> sig f = ([TPtr t; tvec t n], true, Z.of_nat n).
Proof. apply (table_sig vst1_table (fun t n => ([TPtr t; tvec t n], true, Z.of_nat n))). vm_compute. reflexivity. Qed.
Lemma unary_sig f t n : In (f, t, n) (vmvn_table ++ vmovl_table ++ vmovn_table ++ [(vqmovn_u16, U16, 8%nat); (vqmovun_s16, I16, 8%nat)]) ->
  map snd (f_params f) = [tvec t n] /\ is_store f = false.
Proof.
  intros H.
  assert (K : forall p, In p (vmvn_table ++ vmovl_table ++ vmovn_table ++ [(vqmovn_u16, U16, 8%nat); (vqmovun_s16, I16, 8%nat)]) ->
    (map snd (f_params (fst (fst p))), is_store (fst (fst p))) = ([tvec (snd (fst p)) (snd p)], false)).
  { apply Forall_forall. repeat constructor. }
  specialize (K _ H). cbn in K. now injection K as -> ->.
Qed.

Lemma vec_typed m t n x : lanes t n x -> has_type m (tvec t n) (vec t x) /\ initialised (vec t x).
Proof.
  intros [L F]. split.
  - constructor; [now rewrite map_length|]. apply Forall_forall. intros o Ho. apply in_map_iff in Ho as (z & <- & Hz).
    constructor. intros z' E. injection E as <-. exact (proj1 (Forall_forall _ _) F z Hz).
  - constructor. apply Forall_forall. intros o Ho. apply in_map_iff in Ho as (z & <- & Hz). constructor.
Qed.

Lemma load_valid ld t n (m : memory) b cells off xs : In (ld, t, n) vld1_table -> nth_error m b = Some (t, cells) ->
  (off + n <= List.length cells)%nat -> firstn n (skipn off cells) = map Some xs ->
  valid_args m ld [OPtr t b (Z.of_nat off)].
Proof.
  intros H Hb L E. pose proof (vld1_sig ld t n H) as S. unfold sig in S. injection S as S1 S2 S3.
  unfold valid_args. destruct (f_params ld) as [|[x t0] [|? ?]]; try discriminate. cbn in S1. injection S1 as ->.
  constructor; [|constructor]. split; [|split]; cbn [snd].
  - constructor. intros s' c' Hc. rewrite Hb in Hc. now injection Hc.
  - constructor.
  - exists t, b, (Z.of_nat off), cells. split; [reflexivity|]. split; [exact Hb|]. rewrite S3. split; [lia|]. split; [lia|].
    intros _ i Hi. replace (Z.to_nat (Z.of_nat off + i)) with (off + Z.to_nat i)%nat by lia.
    assert (Hn : nth_error cells (off + Z.to_nat i) = nth_error (map Some xs) (Z.to_nat i)).
    { rewrite <- E. rewrite <- (firstn_skipn off cells) at 1. rewrite nth_error_app2 by (rewrite firstn_length_le; lia).
      rewrite firstn_length_le by lia. replace (off + Z.to_nat i - off)%nat with (Z.to_nat i) by lia.
      rewrite <- (firstn_skipn n (skipn off cells)) at 1. rewrite nth_error_app1; [reflexivity|]. rewrite firstn_length_le; [lia|]. rewrite skipn_length. lia. }
    rewrite Hn. rewrite nth_error_map. destruct (nth_error xs (Z.to_nat i)) as [z|] eqn:N; [exists z; reflexivity|].
    exfalso. apply nth_error_None in N. assert (List.length (firstn n (skipn off cells)) = n) by (rewrite firstn_length_le; [lia|]; rewrite skipn_length; lia).
    rewrite E, map_length in H0. lia.
Qed.

Lemma store_valid st t n (m : memory) b cells off x : In (st, t, n) vst1_table -> nth_error m b = Some (t, cells) ->
  (off + n <= List.length cells)%nat -> lanes t n x -> valid_args m st [OPtr t b (Z.of_nat off); vec t x].
Proof.
  intros H Hb L Hx. pose proof (vst1_sig st t n H) as S. unfold sig in S. injection S as S1 S2 S3.
  unfold valid_args. destruct (f_params st) as [|[x0 t0] [|[x1 t1] [|? ?]]]; try discriminate. cbn in S1. injection S1 as -> ->.
  constructor; [|constructor; [|constructor]].
  - split; [|split]; cbn [snd].
    + constructor. intros s' c' Hc. rewrite Hb in Hc. now injection Hc.
    + constructor.
    + exists t, b, (Z.of_nat off), cells. split; [reflexivity|]. split; [exact Hb|]. rewrite S3. split; [lia|]. split; [lia|].
      rewrite S2. discriminate.
  - destruct (vec_typed m t n x Hx) as [T I]. split; [exact T|]. split; [exact I|]. exact Logic.I.
Qed.

Lemma unary_valid op t n m x : In (op, t, n) (vmvn_table ++ vmovl_table ++ vmovn_table ++ [(vqmovn_u16, U16, 8%nat); (vqmovun_s16, I16, 8%nat)]) ->
  lanes t n x -> valid_args m op [vec t x].
Proof.
  intros H Hx. destruct (unary_sig op t n H) as [S _]. unfold valid_args. destruct (f_params op) as [|[x0 t0] [|? ?]]; try discriminate.
  cbn in S. injection S as ->. constructor; [|constructor]. destruct (vec_typed m t n x Hx) as [T I]. split; [exact T|]. split; [exact I|exact Logic.I].
Qed.

Lemma pointwise1_unary c f t u n g : pointwise1 c f t u n g ->
  In (f, t, n) (vmvn_table ++ vmovl_table ++ vmovn_table ++ [(vqmovn_u16, U16, 8%nat); (vqmovun_s16, I16, 8%nat)]).
Proof.
  intros H. rewrite !in_app_iff. destruct H; auto.
  - right. right. right. now left.
  - right. right. right. right. now left.
Qed.

Lemma not_vst4 f : is_store f = false \/ (exists t n, In (f, t, n) vst1_table) -> f_name f <> "vst4_u8"%string \/ is_store f = false.
Proof. intros [H|(t & n & H)]; [now right|]. left.
  assert (K : forall p, In p vst1_table -> String.eqb (f_name (fst (fst p))) "vst4_u8" = false) by (apply Forall_forall; repeat constructor).
  specialize (K _ H). cbn in K. now apply String.eqb_neq in K.
Qed.

Lemma vst4_store f : In f library -> is_store f = false -> f_name f <> "vst4_u8"%string.
Proof.
  intros I S E. assert (f = vst4_u8) by (apply (unique "vst4_u8"%string vst4_u8 f); [vm_compute; reflexivity|exact I|exact E]). subst. discriminate S.
Qed.

(** ** One strip of the loop is confined to it *)

Lemma map_loop_confined ld st op t u n g c a d (A W : nat -> Z -> Prop) : In (ld, t, n) vld1_table -> In (st, u, n) vst1_table ->
  pointwise1 c op t u n g ->
  forall k j (m : memory) ca cd xs ra, nth_error m a = Some (t, ca) -> nth_error m d = Some (u, cd) ->
  skipn j ca = map Some xs ++ ra -> Forall (in_range t) xs ->
  List.length xs = (k * n)%nat -> (j + k * n <= List.length cd)%nat ->
  (forall e, Z.of_nat j <= e < Z.of_nat (j + k * n) -> A a e /\ A d e /\ W d e) ->
  confined c A W m (map_loop ld op st t u n a d j k).
Proof.
  intros Hld Hst Hop k. pose proof (pointwise1_computes c op t u n g Hop) as Hc.
  pose proof (vld1_sig ld t n Hld) as Sl. unfold sig in Sl. injection Sl as _ Sl2 Sl3.
  pose proof (vst1_sig st u n Hst) as Ss. unfold sig in Ss. injection Ss as _ Ss2 Ss3.
  destruct (unary_sig op t n (pointwise1_unary _ _ _ _ _ _ Hop)) as [_ So].
  pose proof (vld1_in ld t n Hld) as Il. pose proof (vst1_in st u n Hst) as Is. pose proof (unary_in op t n (pointwise1_unary _ _ _ _ _ _ Hop)) as Io.
  induction k as [|k IH]; intros j m ca cd xs ra Ha Hd Ea Fa Lx Ld HA; [exact Logic.I|].
  cbn [Nat.mul] in Lx, Ld, HA. destruct (chunk ca j n _ xs _ (vld1_pos _ _ _ Hld) Ea Lx) as (Ca & La & Nx).
  pose proof (P_Client.lanes_firstn t n _ xs Fa Lx) as Hx. destruct (Hc m _ Hx) as [Hr R].
  assert (Ljd : (j + n <= List.length cd)%nat) by lia.
  cbn [map_loop confined]. split; [exact Il|]. split; [now apply vst4_store|]. split; [exact (load_valid ld t n m a ca j _ Hld Ha La Ca)|].
  split.
  { intros b i (s & off & [Ein|[]] & Hi). injection Ein as <- <- <-. rewrite Sl3 in Hi. split; [apply HA; lia|]. rewrite Sl2. discriminate. }
  intros m1 v Rl. rewrite (load_at ld t n c m a ca j _ Hld Ha La Ca Hx) in Rl. injection Rl as <- <-. cbn [value].
  split; [exact Io|]. split; [now apply vst4_store|]. split; [exact (unary_valid op t n m _ (pointwise1_unary _ _ _ _ _ _ Hop) Hx)|].
  split.
  { intros b i (s & off & [Ein|[]] & Hi). discriminate Ein. }
  intros m1 v Ro. rewrite R in Ro. injection Ro as <- <-. cbn [value].
  split; [exact Is|]. split; [destruct (not_vst4 st) as [K|K]; [right; eauto|exact K|congruence]|].
  split; [exact (store_valid st u n m d cd j _ Hst Hd Ljd Hr)|].
  split.
  { intros b i (s & off & [Ein|[Ein|[]]] & Hi); [|discriminate Ein]. injection Ein as <- <- <-. rewrite Ss3 in Hi.
    destruct (HA i ltac:(lia)) as (_ & HAd & HW). auto. }
  intros m1 v Rs. rewrite (store_at st u n c m d cd j _ Hst Hd Ljd Hr) in Rs. injection Rs as <- <-.
  set (r := map g (firstn n xs)) in *. destruct Hr as [Lr Fr].
  destruct (after_store m a d t u ca cd j n r xs _ Ha Hd Lr Ljd Nx Ea) as (ca' & Ha' & Ea').
  apply (IH (j + n)%nat _ ca' (firstn j cd ++ map Some r ++ skipn (j + n) cd) (skipn n xs) ra Ha').
  - apply (set_block_same _ _ _ _ Hd).
  - exact Ea'.
  - now apply Forall_skipn.
  - rewrite skipn_length. lia.
  - rewrite (after_length cd j n) by assumption. lia.
  - intros e He. apply HA. lia.
Qed.

(** ** Strips run by threads *)

Lemma element_array (m : memory) b t xs e : nth_error m b = Some (t, map Some xs) -> 0 <= e < Z.of_nat (List.length xs) ->
  element m b e = Some (Some (nth (Z.to_nat e) xs 0)).
Proof.
  intros H L. unfold element. rewrite H. destruct (e <? 0) eqn:K; [apply Z.ltb_lt in K; lia|].
  rewrite nth_error_map. rewrite (nth_error_nth' xs 0) by lia. reflexivity.
Qed.

Lemma parallel_map c ld st op t u n g (m : memory) a d xs cd strips :
  In (ld, t, n) vld1_table -> In (st, u, n) vst1_table -> pointwise1 c op t u n g ->
  well_typed m -> array_at m a t xs -> nth_error m d = Some (u, cd) -> List.length cd = List.length xs ->
  (forall i j k, nth_error strips i = Some (j, k) -> (j + k * n <= List.length xs)%nat) ->
  (forall i i' s s' e, i <> i' -> nth_error strips i = Some s -> nth_error strips i' = Some s' -> ~ (strip n s e /\ strip n s' e)) ->
  forall M qs, steps c (m, map (fun s => map_loop ld op st t u n a d (fst s) (snd s)) strips) (M, qs) ->
    (forall q, In q qs -> q <> Finish -> exists M' qs', step c (M, qs) (M', qs')) /\
    (finished qs -> same_blocks m M /\
       (forall s e, In s strips -> strip n s e -> element M d e = Some (Some (g (nth (Z.to_nat e) xs 0)))) /\
       (forall b e, b <> d \/ (forall s, In s strips -> ~ strip n s e) -> element M b e = element m b e)).
Proof.
  intros Hld Hst Hop Wm [Ha Fx] Hd Lcd Hin Hdis M qs H.
  set (A i b e := exists s, nth_error strips i = Some s /\ strip n s e /\ (b = a \/ b = d)).
  set (W i b e := exists s, nth_error strips i = Some s /\ strip n s e /\ b = d).
  set (ps := map (fun s => map_loop ld op st t u n a d (fst s) (snd s)) strips) in *.
  assert (Seg : forall j k, (j + k * n <= List.length xs)%nat ->
    skipn j (map Some xs) = map Some (firstn (k * n) (skipn j xs)) ++ map Some (skipn (k * n) (skipn j xs)) /\
    Forall (in_range t) (firstn (k * n) (skipn j xs)) /\ List.length (firstn (k * n) (skipn j xs)) = (k * n)%nat).
  { intros j k L. rewrite skipn_map, <- map_app, firstn_skipn. split; [reflexivity|]. split.
    - apply (Forall_skipn _ j) in Fx. rewrite <- (firstn_skipn (k * n) (skipn j xs)) in Fx. now apply Forall_app in Fx.
    - rewrite firstn_length, skipn_length. lia. }
  assert (Nth : forall i p, nth_error ps i = Some p -> exists j k, nth_error strips i = Some (j, k) /\ p = map_loop ld op st t u n a d j k).
  { intros i p Hp. unfold ps in Hp. rewrite nth_error_map in Hp. destruct (nth_error strips i) as [[j k]|]; [|discriminate].
    injection Hp as <-. eauto. }
  assert (Conf : forall i p, nth_error ps i = Some p -> confined c (A i) (W i) m p).
  { intros i p Hp. destruct (Nth i p Hp) as (j & k & Hs & ->). destruct (Seg j k (Hin i j k Hs)) as (S1 & S2 & S3).
    apply (map_loop_confined ld st op t u n g c a d (A i) (W i) Hld Hst Hop k j m (map Some xs) cd _ _ Ha Hd S1 S2 S3).
    - rewrite Lcd. exact (Hin i j k Hs).
    - intros e He. unfold A, W. repeat split; exists (j, k); auto. }
  assert (Dis : forall i j b e, i <> j -> W i b e -> ~ A j b e).
  { intros i j b e N (s & Hs & He & _) (s' & Hs' & He' & _). exact (Hdis i j s s' e N Hs Hs' (conj He He')). }
  assert (Run : forall i j k, nth_error strips i = Some (j, k) -> execute c m (map_loop ld op st t u n a d j k)
    = Returns (set_block d (u, firstn j cd ++ map Some (map g (firstn (k * n) (skipn j xs))) ++ skipn (j + k * n) cd) m) None).
  { intros i j k Hs. destruct (Seg j k (Hin i j k Hs)) as (S1 & S2 & S3).
    apply (map_loop_run ld st op t u n g c a d Hld Hst (pointwise1_computes _ _ _ _ _ _ Hop) k j m (map Some xs) cd _ _ Ha Hd S1 S2 S3).
    rewrite Lcd. exact (Hin i j k Hs). }
  assert (Al : forall i p, nth_error ps i = Some p -> exists mi, execute c m p = Returns mi None).
  { intros i p Hp. destruct (Nth i p Hp) as (j & k & Hs & ->). eexists. exact (Run i j k Hs). }
  split.
  - intros q Hq Nq. destruct (threads_progress c m ps A W Wm Conf Dis Al M qs q H Hq Nq) as (q1 & q2 & f & args & next & M1 & v & _ & _ & _ & St).
    eauto.
  - intros F. destruct (threads_result c m ps A W Wm Conf Dis Al M qs H F) as (_ & B & Fr & Res). split; [exact B|]. split.
    + intros s e Hs He. apply In_nth_error in Hs as (i & Hs). destruct s as [j k].
      assert (Hp : nth_error ps i = Some (map_loop ld op st t u n a d j k)) by (unfold ps; rewrite nth_error_map, Hs; reflexivity).
      rewrite (Res i _ _ Hp (Run i j k Hs) d e) by (exists (j, k); auto).
      pose proof (Hin i j k Hs) as L. unfold strip in He. cbn [fst snd] in He. destruct (Seg j k L) as (_ & _ & S3).
      unfold element. rewrite (set_block_same _ _ _ _ Hd). destruct (e <? 0) eqn:K; [apply Z.ltb_lt in K; lia|].
      assert (Lj : List.length (firstn j cd) = j) by (rewrite firstn_length; lia).
      rewrite nth_error_app2 by lia. rewrite Lj. rewrite nth_error_app1 by (rewrite !map_length; lia).
      rewrite !nth_error_map. rewrite (nth_error_nth' _ 0) by lia. cbn [option_map]. do 3 f_equal.
      rewrite nth_firstn by lia. rewrite <- (firstn_skipn j xs) at 2. rewrite app_nth2; rewrite firstn_length_le by lia; [|lia]. f_equal. 
    + intros b e Hn. apply Fr. intros i (s & Hs & He & ->). destruct Hn as [Hn|Hn]; [congruence|].
      exact (Hn s (nth_error_In _ _ Hs) He).
Qed.

(** ** A stored vector stays until it is stored over *)

Lemma stored_stays fs fl t n c (m : memory) b cells off x m1 h m2 : In (fs, t, n) vst1_table -> In (fl, t, n) vld1_table ->
  well_typed m -> nth_error m b = Some (t, cells) -> (off + n <= List.length cells)%nat -> lanes t n x ->
  run c m fs [OPtr t b (Z.of_nat off); vec t x] = Returns m1 None ->
  history c well_behaved m1 h m2 -> (forall i, Z.of_nat off <= i < Z.of_nat (off + n) -> not_stored h b i) ->
  run c m2 fl [OPtr t b (Z.of_nat off)] = Returns m2 (Some (vec t x)).
Proof.
  intros Hs Hl W Hb L Hx R H F.
  pose proof (store_valid fs t n m b cells off x Hs Hb L Hx) as V.
  destruct (call_blocks fs c m _ m1 None (vst1_in _ _ _ Hs) W (valid_typed _ _ _ V) R) as [W1 _].
  rewrite (store_at fs t n c m b cells off x Hs Hb L Hx) in R. injection R as R. subst m1.
  set (m1 := set_block b _ m) in *.
  assert (Hb1 : nth_error m1 b = Some (t, firstn off cells ++ map Some x ++ skipn (off + n) cells)) by (apply (set_block_same _ _ _ _ Hb)).
  assert (Lo : List.length (firstn off cells) = off) by (rewrite firstn_length; lia).
  assert (E : firstn n (skipn off (firstn off cells ++ map Some x ++ skipn (off + n) cells)) = map Some x).
  { rewrite skipn_app, Lo, Nat.sub_diag. rewrite (skipn_all2 (firstn off cells)) by lia. cbn [skipn app].
    destruct Hx as [Lx _]. rewrite <- Lx. rewrite <- (map_length Some x). rewrite firstn_app, Nat.sub_diag. cbn [firstn].
    rewrite app_nil_r. apply firstn_all. }
  assert (L1 : (off + n <= List.length (firstn off cells ++ map Some x ++ skipn (off + n) cells))%nat)
    by (rewrite !app_length, map_length; destruct Hx as [Lx _]; lia).
  pose proof (load_valid fl t n m1 b _ off x Hl Hb1 L1 E) as V1.
  pose proof (load_at fl t n c m1 b _ off x Hl Hb1 L1 E Hx) as R1.
  pose proof (vld1_sig fl t n Hl) as S. unfold sig in S. injection S as _ S2 S3.
  refine (proj2 (history_load c m1 h m2 fl _ _ H W1 (vld1_in _ _ _ Hl) S2 V1 _ R1)).
  intros b' i (s & o & [Ein|[]] & Hi). injection Ein as <- <- <-. apply F. rewrite S3 in Hi. lia.
Qed.
