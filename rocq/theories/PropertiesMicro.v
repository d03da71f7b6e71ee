(** C61, C64, C65: threads interleaved statement by statement, and data races. *)
From Coq Require Import ZArith String List Bool Lia.
From Verif Require Import Types Syntax Interp ProgRecip Library Spec Tables MetaSpec PropBase Client Micro.
From Verif Require Import P_Meta2 P_Valid2 P_Det P_Client P_Kernels P_Threads P_Parallel P_Parallel2 P_Micro3 P_Race P_Once P_Sched PropertiesClient.
Import ListNotations.
Open Scope Z_scope.

(** ** C61 A loop over two arrays whose steps are divided among threads *)

Theorem C61_parallel_zip : forall ld st op t u n, In (ld, t, n) vld1_table -> In (st, u, n) vst1_table ->
  forall c g m a b d xs ys cd strips, pointwise2 c op t u n g ->
  well_typed m -> array_at m a t xs -> array_at m b t ys -> List.length ys = List.length xs ->
  nth_error m d = Some (u, cd) -> List.length cd = List.length xs ->
  (forall i j k, nth_error strips i = Some (j, k) -> (j + k * n <= List.length xs)%nat) ->
  (forall i i' s s' e, i <> i' -> nth_error strips i = Some s -> nth_error strips i' = Some s' -> ~ (strip n s e /\ strip n s' e)) ->
  forall M qs, steps c (m, map (fun s => zip_loop ld op st t u n a b d (fst s) (snd s)) strips) (M, qs) ->
    (forall q, In q qs -> q <> Finish -> exists M' qs', step c (M, qs) (M', qs')) /\
    (finished qs -> same_blocks m M /\
       (forall s e, In s strips -> strip n s e -> element M d e = Some (Some (g (nth (Z.to_nat e) xs 0) (nth (Z.to_nat e) ys 0)))) /\
       (forall b' e, b' <> d \/ (forall s, In s strips -> ~ strip n s e) -> element M b' e = element m b' e)).
Proof.
  intros ld st op t u n Hl Hs c g m a b d xs ys cd strips Hop Wm Ha Hb Ly Hd Ld Hin Hdis M qs.
  exact (strips_coarse c m n d (fun b' => b' = a \/ b' = b) (fun e => g (nth (Z.to_nat e) xs 0) (nth (Z.to_nat e) ys 0)) strips (zip_strip ld op st t u n a b d) Wm
    (zip_conf c ld st op t u n g m a b d xs ys cd strips Hl Hs Hop Ha Hb Ly Hd Ld Hin) Hdis (zip_result c ld st op t u n g m a b d xs ys cd strips Hl Hs Hop Ha Hb Ly Hd Ld Hin) M qs).
Qed.
Print Assumptions C61_parallel_zip.

(** ** C64 Threads, interleaved in any order, one statement at a time *)

(** The steps of a call do what the call does, *)
Theorem C64_call_is_its_steps : forall f c m args next, In f library -> well_typed m -> typed_args m f args ->
  match run c m f args with
  | Returns m' v => advances c (m, Between (Call f args next)) (m', Between (next v))
  | Undefined k => exists m' th, advances c (m, Between (Call f args next)) (m', th) /\ advance c m' th = Err (EUB k)
  | Aborts => exists m' th, advances c (m, Between (Call f args next)) (m', th) /\ advance c m' th = Err EAbort
  | Timeout | Stuck => False
  end.
Proof. exact call_steps. Qed.
Print Assumptions C64_call_is_its_steps.

(** and none of them accesses memory more than once, whatever other threads do to it in the meantime. *)
Theorem C64_single_access : forall f c m0 args next th, In f library -> typed_args m0 f args -> during c f args next th ->
  forall m, (List.length (step_reads c m th) + List.length (step_writes c m th) <= 1)%nat.
Proof. exact single_access. Qed.
Print Assumptions C64_single_access.

(** Under the hypotheses of C60, no thread is ever stuck, *)
Theorem C64_progress : forall c m ps A W, well_typed m ->
  (forall i p, nth_error ps i = Some p -> confined c (A i) (W i) m p) ->
  (forall i j b e, i <> j -> W i b e -> ~ A j b e) ->
  (forall i p, nth_error ps i = Some p -> exists mi, execute c m p = Returns mi None) ->
  forall M ts th, fine_steps c (m, map Between ps) (M, ts) -> In th ts -> th <> Between Finish ->
  exists ts1 ts2 M' th', ts = ts1 ++ th :: ts2 /\ advance c M th = Ok (M', th') /\ fine_step c (M, ts) (M', ts1 ++ th' :: ts2).
Proof. exact fine_progress. Qed.
Print Assumptions C64_progress.

(** every schedule ends, *)
Theorem C64_every_schedule_ends : forall c m ps A W, well_typed m ->
  (forall i p, nth_error ps i = Some p -> confined c (A i) (W i) m p) ->
  (forall i j b e, i <> j -> W i b e -> ~ A j b e) ->
  (forall i p, nth_error ps i = Some p -> exists mi, execute c m p = Returns mi None) ->
  forall s, fine_steps c (m, map Between ps) s -> Acc (fun s' s => fine_step c s s') s.
Proof. exact fine_ends. Qed.
Print Assumptions C64_every_schedule_ends.

(** it leaves the memory that some order of whole calls leaves, *)
Theorem C64_same_as_whole_calls : forall c m ps A W, well_typed m ->
  (forall i p, nth_error ps i = Some p -> confined c (A i) (W i) m p) ->
  (forall i j b e, i <> j -> W i b e -> ~ A j b e) ->
  (forall i b e, W i b e -> A i b e /\ (i < List.length ps)%nat) ->
  (forall i p, nth_error ps i = Some p -> exists mi, execute c m p = Returns mi None) ->
  forall M ts, fine_steps c (m, map Between ps) (M, ts) -> over ts -> exists qs, steps c (m, ps) (M, qs) /\ finished qs.
Proof. exact fine_coarse. Qed.
Print Assumptions C64_same_as_whole_calls.

(** and each thread has done what it does when it runs alone. *)
Theorem C64_result : forall c m ps A W, well_typed m ->
  (forall i p, nth_error ps i = Some p -> confined c (A i) (W i) m p) ->
  (forall i j b e, i <> j -> W i b e -> ~ A j b e) ->
  (forall i b e, W i b e -> A i b e /\ (i < List.length ps)%nat) ->
  (forall i p, nth_error ps i = Some p -> exists mi, execute c m p = Returns mi None) ->
  forall M ts, fine_steps c (m, map Between ps) (M, ts) -> over ts ->
  well_typed M /\ same_blocks m M /\
  (forall b e, (forall i, ~ W i b e) -> element M b e = element m b e) /\
  forall i p mi, nth_error ps i = Some p -> execute c m p = Returns mi None -> forall b e, A i b e -> element M b e = element mi b e.
Proof.
  intros c m ps A W Wm C D WA Al M ts H O. destruct (fine_coarse c m ps A W Wm C D WA Al M ts H O) as (qs & S & F).
  exact (threads_result c m ps A W Wm C D Al M qs S F).
Qed.
Print Assumptions C64_result.

(** Loops divided among threads. *)
Theorem C64_parallel_map : forall ld st op t u n, In (ld, t, n) vld1_table -> In (st, u, n) vst1_table ->
  forall c g m a d xs cd strips, pointwise1 c op t u n g ->
  well_typed m -> array_at m a t xs -> nth_error m d = Some (u, cd) -> List.length cd = List.length xs ->
  (forall i j k, nth_error strips i = Some (j, k) -> (j + k * n <= List.length xs)%nat) ->
  (forall i i' s s' e, i <> i' -> nth_error strips i = Some s -> nth_error strips i' = Some s' -> ~ (strip n s e /\ strip n s' e)) ->
  forall M ts, fine_steps c (m, map Between (map (fun s => map_loop ld op st t u n a d (fst s) (snd s)) strips)) (M, ts) ->
    (forall th, In th ts -> th <> Between Finish -> exists M' ts', fine_step c (M, ts) (M', ts')) /\
    Acc (fun s' s => fine_step c s s') (M, ts) /\
    (forall i j th th', i <> j -> nth_error ts i = Some th -> nth_error ts j = Some th' -> ~ race c M th th') /\
    (over ts -> same_blocks m M /\
       (forall s e, In s strips -> strip n s e -> element M d e = Some (Some (g (nth (Z.to_nat e) xs 0)))) /\
       (forall b e, b <> d \/ (forall s, In s strips -> ~ strip n s e) -> element M b e = element m b e)).
Proof.
  intros ld st op t u n Hl Hs c g m a d xs cd strips Hop Wm Ha Hd Ld Hin Hdis M ts.
  exact (strips_fine c m n d (fun b => b = a) (fun e => g (nth (Z.to_nat e) xs 0)) strips (map_strip ld op st t u n a d) Wm
    (map_conf c ld st op t u n g m a d xs cd strips Hl Hs Hop Ha Hd Ld Hin) Hdis (map_result c ld st op t u n g m a d xs cd strips Hl Hs Hop Ha Hd Ld Hin) M ts).
Qed.
Print Assumptions C64_parallel_map.

Theorem C64_parallel_zip : forall ld st op t u n, In (ld, t, n) vld1_table -> In (st, u, n) vst1_table ->
  forall c g m a b d xs ys cd strips, pointwise2 c op t u n g ->
  well_typed m -> array_at m a t xs -> array_at m b t ys -> List.length ys = List.length xs ->
  nth_error m d = Some (u, cd) -> List.length cd = List.length xs ->
  (forall i j k, nth_error strips i = Some (j, k) -> (j + k * n <= List.length xs)%nat) ->
  (forall i i' s s' e, i <> i' -> nth_error strips i = Some s -> nth_error strips i' = Some s' -> ~ (strip n s e /\ strip n s' e)) ->
  forall M ts, fine_steps c (m, map Between (map (fun s => zip_loop ld op st t u n a b d (fst s) (snd s)) strips)) (M, ts) ->
    (forall th, In th ts -> th <> Between Finish -> exists M' ts', fine_step c (M, ts) (M', ts')) /\
    Acc (fun s' s => fine_step c s s') (M, ts) /\
    (forall i j th th', i <> j -> nth_error ts i = Some th -> nth_error ts j = Some th' -> ~ race c M th th') /\
    (over ts -> same_blocks m M /\
       (forall s e, In s strips -> strip n s e -> element M d e = Some (Some (g (nth (Z.to_nat e) xs 0) (nth (Z.to_nat e) ys 0)))) /\
       (forall b' e, b' <> d \/ (forall s, In s strips -> ~ strip n s e) -> element M b' e = element m b' e)).
Proof.
  intros ld st op t u n Hl Hs c g m a b d xs ys cd strips Hop Wm Ha Hb Ly Hd Ld Hin Hdis M ts.
  exact (strips_fine c m n d (fun b' => b' = a \/ b' = b) (fun e => g (nth (Z.to_nat e) xs 0) (nth (Z.to_nat e) ys 0)) strips (zip_strip ld op st t u n a b d) Wm
    (zip_conf c ld st op t u n g m a b d xs ys cd strips Hl Hs Hop Ha Hb Ly Hd Ld Hin) Hdis (zip_result c ld st op t u n g m a b d xs ys cd strips Hl Hs Hop Ha Hb Ly Hd Ld Hin) M ts).
Qed.
Print Assumptions C64_parallel_zip.

(** The threads of C60_example, which meet the hypotheses, taking turns: after fifty steps each they
    are both inside a call, and after 149 steps each they have ended. *)
Example C64_example :
  let m := [(U8, map Some (map Z.of_nat (seq 100 16)))] in let start := (m, map Between [doubler 0; doubler 8]) in
  let turns n := List.concat (repeat [0; 1]%nat n) in
  (exists M f k en next f' k' en' next', fine_steps strict start (M, [Inside f k en next; Inside f' k' en' next']) /\
     schedule strict (turns 50%nat) start = Some (M, [Inside f k en next; Inside f' k' en' next'])) /\
  (fine_steps strict start ([(U8, map (fun i => Some (200 + 2 * Z.of_nat i)) (seq 0 16))], [Between Finish; Between Finish]) /\
     schedule strict (turns 149%nat) start = Some ([(U8, map (fun i => Some (200 + 2 * Z.of_nat i)) (seq 0 16))], [Between Finish; Between Finish])).
Proof.
  cbn zeta. split.
  - assert (K : match schedule strict (List.concat (repeat [0; 1]%nat 50)) ([(U8, map Some (map Z.of_nat (seq 100 16)))], map Between [doubler 0; doubler 8])
      with Some (_, [Inside _ _ _ _; Inside _ _ _ _]) => true | _ => false end = true) by (vm_compute; reflexivity).
    destruct (schedule strict _ _) as [[M [|[|] [|[|] [|]]]]|] eqn:E; try discriminate K. clear K.
    do 9 eexists. split; [exact (schedule_steps _ _ _ _ E)|reflexivity].
  - assert (E : schedule strict (List.concat (repeat [0; 1]%nat 149)) ([(U8, map Some (map Z.of_nat (seq 100 16)))], map Between [doubler 0; doubler 8])
      = Some ([(U8, map (fun i => Some (200 + 2 * Z.of_nat i)) (seq 0 16))], [Between Finish; Between Finish])) by (vm_compute; reflexivity).
    split; [exact (schedule_steps _ _ _ _ E)|exact E].
Qed.

(** A step that reads memory and one that writes it. *)
Example C64_access_example : exists th th', during strict vld1_u8 [OPtr U8 0 0] (fun _ => Finish) th /\ step_reads strict [(U8, repeat (Some 7) 8)] th = [(0%nat, 0)] /\
  during strict vst1_u8 [OPtr U8 0 0; vec U8 [1; 2; 3; 4; 5; 6; 7; 8]] (fun _ => Finish) th' /\ step_writes strict [(U8, repeat (Some 7) 8)] th' = [(0%nat, 0)].
Proof.
  assert (L : option_map (step_reads strict [(U8, repeat (Some 7) 8)]) (inside strict [(U8, repeat (Some 7) 8)] vld1_u8 [OPtr U8 0 0] (fun _ => Finish) 5) = Some [(0%nat, 0)])
    by (vm_compute; reflexivity).
  assert (S : option_map (step_writes strict [(U8, repeat (Some 7) 8)])
    (inside strict [(U8, repeat (Some 7) 8)] vst1_u8 [OPtr U8 0 0; vec U8 [1; 2; 3; 4; 5; 6; 7; 8]] (fun _ => Finish) 2) = Some [(0%nat, 0)]) by (vm_compute; reflexivity).
  destruct (inside strict _ vld1_u8 _ _ _) as [th|] eqn:E; [|discriminate L]. destruct (inside strict _ vst1_u8 _ _ _) as [th'|] eqn:E'; [|discriminate S].
  exists th, th'. split; [exact (inside_during _ _ _ _ _ _ _ E)|]. split; [now injection L|]. split; [exact (inside_during _ _ _ _ _ _ _ E')|now injection S].
Qed.

(** ** C65 Data races *)

(** A step depends on the elements it reads, and changes those it writes. *)
Theorem C65_accesses : forall c m m' th,
  (forall b, option_map (fun blk => (fst blk, List.length (snd blk))) (nth_error m b) = option_map (fun blk => (fst blk, List.length (snd blk))) (nth_error m' b)) ->
  (forall b i, In (b, i) (step_reads c m th) -> element m b i = element m' b i) ->
  match advance c m th, advance c m' th with
  | Ok (m1, th1), Ok (m1', th1') => th1' = th1 /\
      (forall b i, ~ In (b, i) (step_writes c m th) -> element m1 b i = element m b i /\ element m1' b i = element m' b i) /\
      (forall b i, In (b, i) (step_writes c m th) -> element m1 b i = element m1' b i)
  | Err e, Err e' => e = e'
  | _, _ => False
  end.
Proof. exact access_sound. Qed.
Print Assumptions C65_accesses.

(** Two threads never are about to access the same element when one of them writes it. *)
Theorem C65_no_data_race : forall c m ps A W, well_typed m ->
  (forall i p, nth_error ps i = Some p -> confined c (A i) (W i) m p) ->
  (forall i j b e, i <> j -> W i b e -> ~ A j b e) ->
  (forall i p, nth_error ps i = Some p -> exists mi, execute c m p = Returns mi None) ->
  forall M ts, fine_steps c (m, map Between ps) (M, ts) ->
  forall i j th th', i <> j -> nth_error ts i = Some th -> nth_error ts j = Some th' -> ~ race c M th th'.
Proof. exact no_race. Qed.
Print Assumptions C65_no_data_race.

(** Two threads that store eight bytes at the same place do race, and memory may end up with bytes of both. *)
Example C65_race_example :
  let store z := Between (Call vst1_u8 [OPtr U8 0 0; vec U8 (repeat z 8)] (fun _ => Finish)) in
  let start := ([(U8, repeat (Some 0) 8)], [store 1; store 2]) in
  (exists M th th', fine_steps strict start (M, [th; th']) /\ race strict M th th') /\
  exists M, fine_steps strict start (M, [Between Finish; Between Finish]) /\ M = [(U8, [Some 2; Some 2; Some 2; Some 2; Some 1; Some 1; Some 1; Some 1])].
Proof.
  cbn zeta. split.
  - set (start := ([(U8, repeat (Some 0) 8)], _)).
    assert (K : match schedule strict [0; 0; 0; 1; 1; 1]%nat start with Some (M, [th; th']) => (step_writes strict M th, step_writes strict M th') | _ => ([], []) end
      = ([(0%nat, 0)], [(0%nat, 0)])) by (vm_compute; reflexivity).
    destruct (schedule strict [0; 0; 0; 1; 1; 1]%nat start) as [[M [|th [|th' [|]]]]|] eqn:E; try discriminate K. injection K as K1 K2.
    exists M, th, th'. split; [exact (schedule_steps _ _ _ _ E)|]. exists (0%nat, 0). rewrite K1, K2. split; [now left|right; now left].
  - eexists. split; [|reflexivity]. apply (schedule_steps strict (repeat 0 16 ++ repeat 1 37 ++ repeat 0 21)%nat). vm_compute. reflexivity.
Qed.
