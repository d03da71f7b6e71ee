(** Printing of vectors. *)
From Coq Require Import ZArith Arith String Ascii List Bool Lia.
From Verif Require Import Types ExecLemmas Spec Helper HelperSpec HelperSource.
From Verif Require P_Xml.
Import ListNotations.
Open Scope Z_scope.

Lemma source_lines : significant neon_helper_hpp = header_lines.
Proof. vm_compute. reflexivity. Qed.

(** ** Digits *)

Lemma digit_place d : 0 <= d < 16 -> place (digit_char d) alphabet = d.
Proof.
  intros H. assert (C : forallb (fun d => Z.eqb (place (digit_char d) alphabet) d) (map Z.of_nat (seq 0 16)) = true) by (vm_compute; reflexivity).
  rewrite forallb_forall in C. apply Z.eqb_eq, C. apply in_map_iff. exists (Z.to_nat d). split; [lia|]. apply in_seq. lia.
Qed.

Lemma digit_in b d : 0 <= d < b -> b <= 16 -> In (digit_char d) (firstn (Z.to_nat b) alphabet).
Proof.
  intros H B. unfold digit_char. change (chars "0123456789abcdef") with alphabet.
  replace (nth (Z.to_nat d) alphabet "0"%char) with (nth (Z.to_nat d) (firstn (Z.to_nat b) alphabet) "0"%char).
  - apply nth_In. rewrite firstn_length. change (List.length alphabet) with 16%nat. lia.
  - rewrite <- (firstn_skipn (Z.to_nat b) alphabet) at 2. rewrite app_nth1; [reflexivity|]. rewrite firstn_length. change (List.length alphabet) with 16%nat. lia.
Qed.

Lemma digit_zero d : 0 <= d < 16 -> digit_char d = "0"%char -> d = 0.
Proof. intros H E. rewrite <- (digit_place d H), E. reflexivity. Qed.

Lemma value_from b s v : fold_left (fun v a => v * b + place a alphabet) s v = v * b ^ Z.of_nat (List.length s) + value b s.
Proof.
  unfold value. revert v. induction s as [|a s IH]; intros v; [cbn; lia|]. cbn [fold_left List.length]. rewrite IH, (IH (0 * b + _)).
  rewrite Nat2Z.inj_succ, Z.pow_succ_r by lia. ring.
Qed.

Lemma digits_spec b : 2 <= b <= 16 -> forall fuel z acc, 0 <= z < b ^ Z.of_nat fuel -> (0 < fuel)%nat ->
  exists s, digits fuel b z acc = s ++ acc /\ numeral b z s.
Proof.
  intros B. induction fuel as [|fuel IH]; intros z acc Hz Hf; [lia|]. cbn [digits].
  pose proof (Z.mod_pos_bound z b ltac:(lia)) as M. destruct (Z.eqb_spec (z / b) 0) as [E|N].
  - exists [digit_char (z mod b)]. split; [reflexivity|]. assert (Ez : z mod b = z) by (rewrite (Z.div_mod z b) at 2 by lia; rewrite E; lia). rewrite Ez in *.
    split; [discriminate|]. split; [constructor; [apply digit_in; lia|constructor]|]. split; [|unfold value; cbn [fold_left]; rewrite digit_place; lia].
    cbn [hd]. intros Q. now rewrite Q.
  - assert (Q : 0 <= z / b) by (apply Z.div_pos; lia).
    assert (F : (0 < fuel)%nat). { destruct fuel; [|lia]. change (Z.of_nat 1) with 1 in Hz. rewrite Z.pow_1_r in Hz. exfalso. apply N. apply Z.div_small. lia. }
    destruct (IH (z / b) (digit_char (z mod b) :: acc)) as (s & Es & Ns & Fs & Zs & Vs); [|exact F|].
    + split; [exact Q|]. rewrite Nat2Z.inj_succ, Z.pow_succ_r in Hz by lia. apply Z.div_lt_upper_bound; lia.
    + exists (s ++ [digit_char (z mod b)]). split; [rewrite Es, <- app_assoc; reflexivity|].
      split; [destruct s; discriminate|]. split; [apply Forall_app; split; [exact Fs|constructor; [apply digit_in; lia|constructor]]|]. split.
      * intros H. exfalso. destruct s as [|a s]; [now apply Ns|]. cbn [app hd] in H. specialize (Zs H). rewrite Zs in Vs. change (value b (chars "0")) with 0 in Vs. lia.
      * unfold value. rewrite fold_left_app. fold (value b s). cbn [fold_left]. rewrite Vs, digit_place by lia. pose proof (Z.div_mod z b ltac:(lia)). lia.
Qed.

Lemma digits_numeral b z : In b [8; 10; 16] -> 0 <= z < 2 ^ 64 -> numeral b z (digits 64 b z []).
Proof.
  intros B Hz. assert (R : 2 <= b <= 16) by (destruct B as [ <- |[ <- |[ <- |[]]]]; lia).
  destruct (digits_spec b R 64 z []) as (s & E & N); [|lia|].
  - split; [lia|]. apply Z.lt_le_trans with (2 ^ 64); [lia|]. apply Z.pow_le_mono_l. lia.
  - rewrite app_nil_r in E. now rewrite E.
Qed.

(** ** Lanes *)

Definition lane_text (sf : sty -> Z -> text) (cast : bool) (b : Z) (t : sty) (z : Z) : text :=
  if cast then shown sf b I32 (wrap I32 z) else shown sf b t z.

Lemma put_put s v w : put (put s v) w = put s (v ++ w).
Proof. unfold put. cbn. now rewrite app_assoc. Qed.
Lemma put_nil s : put s [] = s.
Proof. unfold put. rewrite app_nil_r. now destruct s. Qed.
Lemma put_base s w : base (put s w) = base s.
Proof. reflexivity. Qed.

Lemma join_cons sep s ss : ss <> [] -> join sep (s :: ss) = s ++ sep ++ join sep ss.
Proof. destruct ss; [contradiction|reflexivity]. Qed.

Lemma loop_run sf t sep cast l : forall todo i s, (i + todo)%nat = List.length l ->
  run_loop sf t sep cast l todo i s
  = Some (put s (flat_map (fun z => sep ++ z) (match i with O => [] | _ => map (lane_text sf cast (base s) t) (skipn i l) end)
                 ++ match i with O => join sep (map (lane_text sf cast (base s) t) l) | _ => [] end)).
Proof.
  assert (G : forall todo i s, (i + todo)%nat = List.length l -> (0 < i)%nat ->
    run_loop sf t sep cast l todo i s = Some (put s (flat_map (fun z => sep ++ z) (map (lane_text sf cast (base s) t) (skipn i l))))).
  { induction todo as [|todo IH]; intros i s E Hi.
    - rewrite skipn_all2 by lia. cbn. now rewrite put_nil.
    - cbn [run_loop]. destruct (nth_error l i) as [z|] eqn:N; [|apply nth_error_None in N; lia].
      destruct (Nat.ltb_spec 0 i) as [_|C]; [|lia]. cbv zeta. rewrite IH by lia.
      assert (Sk : skipn i l = z :: skipn (S i) l).
      { clear -N. revert i N. induction l as [|x l IH]; intros i N; [destruct i; discriminate N|]. destruct i as [|i]; [injection N as <-; reflexivity|]. cbn [skipn]. now rewrite (IH i N). }
      rewrite Sk. cbn [map flat_map]. rewrite !put_base, !put_put. f_equal. f_equal. fold (lane_text sf cast (base s) t z). now rewrite <- app_assoc. }
  intros todo i s E. destruct i as [|i].
  - cbn [flat_map app]. destruct todo as [|todo]; [destruct l; [|discriminate E]; cbn; now rewrite put_nil|].
    destruct l as [|z l]; [discriminate E|]. cbn [run_loop nth_error Nat.ltb Nat.leb]. cbv zeta. rewrite G by (cbn in E |- *; lia).
    cbn [skipn]. rewrite put_base, put_put. f_equal. f_equal. fold (lane_text sf cast (base s) t z). clear. cbn [map].
    revert z. induction l as [|y l IH]; intros z; [cbn; now rewrite app_nil_r|]. cbn [map flat_map]. rewrite join_cons by discriminate.
    rewrite <- (IH y). now rewrite <- app_assoc.
  - rewrite G by lia. now rewrite app_nil_r.
Qed.

Definition casts (t : sty) : bool := match t with U8 | I8 | U16 => true | _ => false end.
Definition printed (sf : sty -> Z -> text) (b : Z) (t : sty) (z : Z) : text := lane_text sf (casts t) b t z.

Lemma overload_vectors a : forallb (fun p => match overload (operators a) (Vec (fst p) (snd p)) with
  | Some (Loop n sep c) => Nat.eqb n (snd p) && (if list_eq_dec ascii_dec sep (chars ", ") then true else false) && Bool.eqb c (casts (fst p)) | _ => false end) vectors = true.
Proof. destruct a; vm_compute; reflexivity. Qed.

Lemma overload_arrays : forallb (fun a => forallb (fun p => forallb (fun k => (negb a && sty_eqb (fst p) F64) || match overload (operators a) (Arr (fst p) (snd p) k) with
  | Some (Chain ks) => if list_eq_dec Nat.eq_dec ks (seq 0 k) then true else false | _ => false end) [2; 3; 4]%nat) vectors) [true; false] = true.
Proof. vm_compute. reflexivity. Qed.

Lemma vector_run sf a t n l s : In (t, n) vectors -> List.length l = n ->
  print_vector sf (operators a) t n l s = Some (put s (join (chars ", ") (map (printed sf (base s) t) l))).
Proof.
  intros H E. pose proof (overload_vectors a) as O. rewrite forallb_forall in O. specialize (O _ H). cbn [fst snd] in O. unfold print_vector.
  destruct (overload (operators a) (Vec t n)) as [[k sep c|ks]|]; [|discriminate O..]. apply andb_true_iff in O. destruct O as [O C].
  apply andb_true_iff in O. destruct O as [O S]. apply Nat.eqb_eq in O. apply Bool.eqb_prop in C. destruct (list_eq_dec ascii_dec sep (chars ", ")) as [->|]; [|discriminate S].
  subst k c. rewrite loop_run by (cbn; lia). reflexivity.
Qed.

Lemma chain_run sf a t n : In (t, n) vectors -> forall m l s, Forall (fun v => List.length v = n) (skipn m l) -> (m <= List.length l)%nat ->
  run_chain sf (operators a) t n l (seq m (List.length l - m)) s
  = Some (put s (join ["010"%char] (map (fun v => join (chars ", ") (map (printed sf (base s) t) v)) (skipn m l)))).
Proof.
  intros H m l. remember (List.length l - m)%nat as k eqn:Ek. revert m Ek. induction k as [|k IH]; intros m Ek s F L.
  - rewrite skipn_all2 by lia. cbn. now rewrite put_nil.
  - cbn [seq run_chain]. destruct (nth_error l m) as [v|] eqn:N; [|apply nth_error_None in N; lia].
    assert (Sk : skipn m l = v :: skipn (S m) l).
    { clear -N. revert m N. induction l as [|x l IH]; intros m N; [destruct m; discriminate N|]. destruct m as [|m]; [injection N as <-; reflexivity|]. cbn [skipn]. now rewrite (IH m N). }
    rewrite Sk in F |- *. inversion F as [|? ? Lv F']; subst. rewrite (vector_run sf a t _ v s H eq_refl). destruct k as [|k].
    + cbn [seq]. rewrite (skipn_all2 l) by lia. reflexivity.
    + change (match seq (S m) (S k) with [] => ?x | _ :: _ => ?y end) with y. rewrite IH; [|lia|exact F'|lia]. rewrite !put_put, !put_base. f_equal. f_equal.
      cbn [map]. rewrite join_cons; [rewrite <- ?app_assoc; reflexivity|]. intros C. apply map_eq_nil in C. assert (Q : List.length (skipn (S m) l) = O) by now rewrite C. rewrite skipn_length in Q. lia.
Qed.

Lemma array_run sf a t n k l s : In (t, n) vectors -> (2 <= k <= 4)%nat -> (t = F64 -> a = true) -> List.length l = k -> Forall (fun v => List.length v = n) l ->
  print sf a (Arr t n k) (Registers l) s
  = Some (put s (join ["010"%char] (map (fun v => join (chars ", ") (map (printed sf (base s) t) v)) l))).
Proof.
  intros H Hk Ha E F. pose proof overload_arrays as O. rewrite forallb_forall in O. assert (Ia : In a [true; false]) by (destruct a; cbn; tauto). specialize (O a Ia).
  rewrite forallb_forall in O. specialize (O _ H). cbn [fst snd] in O. rewrite forallb_forall in O.
  assert (Ik : In k [2; 3; 4]%nat) by (cbn; lia). specialize (O k Ik). cbn [print].
  assert (Z0 : (negb a && sty_eqb t F64) = false). { destruct t, a; try reflexivity. now specialize (Ha eq_refl). }
  rewrite Z0 in O. cbn [orb] in O. destruct (overload (operators a) (Arr t n k)) as [[|ks]|]; [discriminate O| |discriminate O].
  destruct (list_eq_dec Nat.eq_dec ks (seq 0 k)) as [->|]; [|discriminate O].
  pose proof (chain_run sf a t n H 0 l s F (Nat.le_0_l _)) as C. rewrite Nat.sub_0_r, E in C. exact C.
Qed.

(** ** Numbers *)

Lemma vectors_element t n : In (t, n) vectors -> (1 <= n)%nat.
Proof. cbn. intros H. repeat (destruct H as [H|H]; [injection H as <- <-; lia|]). destruct H. Qed.

Lemma shown_stands sf b t z : In b [8; 10; 16] -> ~ In t [I8; U8; F32; F64] -> in_range t z -> stands b (width t) z (shown sf b t z).
Proof.
  intros B T Hz. unfold stands.
  assert (R : - 2 ^ 63 <= z < 2 ^ 64) by (unfold in_range in Hz; destruct t; cbn [lo hi] in Hz; lia).
  assert (W : 0 <= z mod 2 ^ width t < 2 ^ 64).
  { assert (P : 0 < 2 ^ width t <= 2 ^ 64) by (destruct t; cbn; lia). pose proof (Z.mod_pos_bound z (2 ^ width t)). lia. }
  assert (E : shown sf b t z = if b =? 10 then (if z <? 0 then "-"%char :: digits 64 10 (- z) [] else digits 64 10 z []) else digits 64 b (z mod 2 ^ width t) []).
  { destruct t; try reflexivity; exfalso; apply T; cbn; tauto. }
  rewrite E. destruct (Z.eqb_spec b 10) as [->|N].
  - destruct (Z.ltb_spec z 0) as [L|L].
    + right. split; [exact L|]. eexists. split; [reflexivity|]. apply digits_numeral; [exact B|lia].
    + left. split; [exact L|]. apply digits_numeral; [exact B|lia].
  - apply digits_numeral; [exact B|exact W].
Qed.

Lemma printed_stands sf b t z : In b [8; 10; 16] -> is_float t = false -> in_range t z -> stands b (bits_of t) z (printed sf b t z).
Proof.
  intros B T Hz. unfold printed, lane_text. destruct (casts t) eqn:C.
  - assert (R : in_range I32 z) by (unfold in_range in *; destruct t; try discriminate C; cbn [lo hi] in *; lia).
    rewrite wrap_id by exact R. replace (bits_of t) with (width I32) by (now destruct t). apply shown_stands; [exact B| |exact R].
    intros [H|[H|[H|[H|[]]]]]; discriminate H.
  - replace (bits_of t) with (width t) by (now destruct t). apply shown_stands; [exact B| |exact Hz].
    intros [H|[H|[H|[H|[]]]]]; subst t; discriminate.
Qed.

Lemma numeral_chars b z s a : In b [8; 10; 16] -> numeral b z s -> In a s -> In a alphabet.
Proof.
  intros B (_ & F & _) H. rewrite Forall_forall in F. specialize (F a H). rewrite <- (firstn_skipn (Z.to_nat b) alphabet). apply in_or_app. now left.
Qed.

Lemma stands_chars b n z s a : In b [8; 10; 16] -> stands b n z s -> In a s -> In a (chars "-0123456789abcdef").
Proof.
  intros B H Ha. unfold stands in H. change (chars "-0123456789abcdef") with ("-"%char :: alphabet). destruct (b =? 10).
  - destruct H as [[_ H]|[_ (r & -> & H)]].
    + right. exact (numeral_chars 10 z s a ltac:(cbn; tauto) H Ha).
    + destruct Ha as [<-|Ha]; [now left|]. right. exact (numeral_chars 10 _ r a ltac:(cbn; tauto) H Ha).
  - right. exact (numeral_chars b _ s a B H Ha).
Qed.

(** A text stands for one number only. *)
Lemma stands_unique b t s z z' : In b [8; 10; 16] -> is_float t = false -> in_range t z -> in_range t z' -> stands b (bits_of t) z s -> stands b (bits_of t) z' s -> z = z'.
Proof.
  intros B T Hz Hz' H H'. unfold stands in H, H'. destruct (b =? 10).
  - assert (X : forall r y, ~ numeral 10 y ("-"%char :: r)).
    { intros r y (_ & F & _). inversion F as [|? ? C]; subst. vm_compute in C. intuition discriminate. }
    destruct H as [[_ H]|[_ (r & E & H)]]; destruct H' as [[_ H']|[_ (r' & E' & H')]].
    + destruct H as (_ & _ & _ & V), H' as (_ & _ & _ & V'). congruence.
    + exfalso. subst s. exact (X _ _ H).
    + exfalso. subst s. exact (X _ _ H').
    + rewrite E in E'. injection E' as <-. destruct H as (_ & _ & _ & V), H' as (_ & _ & _ & V'). lia.
  - destruct H as (_ & _ & _ & V), H' as (_ & _ & _ & V'). rewrite V in V'.
    assert (W : exists k, 2 ^ bits_of t = modulus t * k /\ 0 < k /\ 0 < modulus t /\ hi t - lo t < modulus t).
    { destruct t; try discriminate T; cbn; [exists (2^24)|exists 1|exists 1|exists 1|exists (2^24)|exists (2^16)|exists 1|exists 1]; cbn; lia. }
    destruct W as (k & E & K & P & L). rewrite E in V'. unfold in_range in Hz, Hz'.
    assert (D : (modulus t | z - z')).
    { apply Z.divide_trans with (modulus t * k); [exists k; lia|]. apply Z.mod_divide; [nia|]. rewrite Zminus_mod, V', Z.sub_diag. apply Z.mod_0_l. nia. }
    destruct D as (q & D). assert (B1 : - modulus t < q * modulus t < modulus t) by lia.
    assert (Q : q = 0) by (clear - B1 P; nia). subst q. lia.
Qed.

(** ** Reading back *)

Lemma joined sep q rest : sep = q :: rest -> forall ss ss', Forall (fun s => ~ In q s) ss -> Forall (fun s => ~ In q s) ss' -> List.length ss = List.length ss' ->
  join sep ss = join sep ss' -> ss = ss'.
Proof.
  intros Es. induction ss as [|s ss IH]; intros ss' F F' L E; [destruct ss'; [reflexivity|discriminate L]|]. destruct ss' as [|s' ss']; [discriminate L|].
  inversion F as [|? ? N F1]; subst. inversion F' as [|? ? N' F1']; subst. destruct ss as [|u ss].
  - destruct ss'; [|discriminate L]. cbn in E. now subst.
  - destruct ss' as [|u' ss']; [discriminate L|]. rewrite !join_cons in E by discriminate. cbn [app] in E.
    destruct (P_Xml.split_at q _ _ _ _ N N' E) as [-> E']. apply app_inv_head in E'. f_equal. apply IH; [exact F1|exact F1'|cbn in L |- *; lia|exact E'].
Qed.

Definition text_of (sf : sty -> Z -> text) (b : Z) (v : vtype) (d : datum) : text :=
  match d with
  | Lanes l => join (chars ", ") (map (printed sf b (element_type v)) l)
  | Registers l => join ["010"%char] (map (fun x => join (chars ", ") (map (printed sf b (element_type v)) x)) l)
  end.

Lemma print_run sf a v d s : printable a v -> of_type v d -> print sf a v d s = Some (put s (text_of sf (base s) v d)).
Proof.
  intros P T. destruct v as [t n|t n k], d as [l|l]; try contradiction T.
  - apply vector_run; [exact P|exact (proj1 T)].
  - destruct P as (P & K & A). destruct T as [L F]. apply array_run; auto. revert F. apply Forall_impl. now intros x [E _].
Qed.

Lemma line_unique sf b t l l' : In b [8; 10; 16] -> is_float t = false -> Forall (in_range t) l -> Forall (in_range t) l' -> List.length l = List.length l' ->
  join (chars ", ") (map (printed sf b t) l) = join (chars ", ") (map (printed sf b t) l') -> l = l'.
Proof.
  intros B T F F' L E.
  assert (C : forall x, Forall (in_range t) x -> Forall (fun s => ~ In ","%char s) (map (printed sf b t) x)).
  { intros x Fx. apply Forall_map. revert Fx. apply Forall_impl. intros z Hz H. apply (stands_chars b _ z _ _ B (printed_stands sf b t z B T Hz)) in H. vm_compute in H. intuition discriminate. }
  assert (Em : map (printed sf b t) l = map (printed sf b t) l').
  { apply (joined (chars ", ") ","%char [" "%char] eq_refl); [now apply C|now apply C|now rewrite !map_length|exact E]. }
  clear E C. revert l' F' L Em. induction F as [|z l Hz F IH]; intros l' F' L Em; [destruct l'; [reflexivity|discriminate L]|].
  destruct F' as [|z' l' Hz' F']; [discriminate L|]. cbn [map] in Em. injection Em as E1 E2. f_equal.
  - apply (stands_unique b t (printed sf b t z) z z' B T Hz Hz'); [now apply printed_stands|]. rewrite E1. now apply printed_stands.
  - apply IH; [exact F'|cbn in L |- *; lia|exact E2].
Qed.

Lemma print_unique sf a v d d' s : In (base s) [8; 10; 16] -> printable a v -> is_float (element_type v) = false -> of_type v d -> of_type v d' ->
  print sf a v d s = print sf a v d' s -> d = d'.
Proof.
  intros B P Ft T T' E. rewrite (print_run sf a v d s P T), (print_run sf a v d' s P T') in E. injection E as E. apply app_inv_head in E.
  destruct v as [t n|t n k], d as [l|l], d' as [l'|l']; try contradiction T; try contradiction T'; cbn [text_of element_type] in *.
  - destruct T as [L F], T' as [L' F']. f_equal. apply (line_unique sf (base s) t); auto. congruence.
  - destruct T as [L F], T' as [L' F']. f_equal.
    assert (C : forall x, Forall (lanes t n) x -> Forall (fun s => ~ In "010"%char s) (map (fun x => join (chars ", ") (map (printed sf (base s) t) x)) x)).
    { intros x Fx. apply Forall_map. revert Fx. apply Forall_impl. intros y [_ Fy]. induction Fy as [|z y Hz Fy IH]; [intros []|].
      assert (Nz : ~ In "010"%char (printed sf (base s) t z)).
      { intros H. apply (stands_chars (base s) _ z _ _ B (printed_stands sf (base s) t z B Ft Hz)) in H. vm_compute in H. intuition discriminate. }
      destruct y as [|w y]; [exact Nz|]. cbn [map] in *. rewrite join_cons by discriminate. intros H. apply in_app_or in H. destruct H as [H|H]; [exact (Nz H)|].
      apply in_app_or in H. destruct H as [H|H]; [vm_compute in H; intuition discriminate|exact (IH H)]. }
    assert (Em : map (fun x => join (chars ", ") (map (printed sf (base s) t) x)) l = map (fun x => join (chars ", ") (map (printed sf (base s) t) x)) l').
    { apply (joined ["010"%char] "010"%char [] eq_refl); [now apply C|now apply C|rewrite !map_length; congruence|exact E]. }
    assert (Le : List.length l = List.length l') by congruence. clear E C L L'. revert l' F' Le Em.
    induction F as [|x l [Lx Fx] F IH]; intros l' F' Le Em; [destruct l'; [reflexivity|discriminate Le]|].
    destruct F' as [|x' l' [Lx' Fx'] F']; [discriminate Le|]. cbn [map] in Em. injection Em as E1 E2. f_equal; [|apply IH; [exact F'|cbn in Le |- *; lia|exact E2]].
    apply (line_unique sf (base s) t); auto. congruence.
Qed.

Lemma print_lanes sf a t n l s : In (t, n) vectors -> is_float t = false -> In (base s) [8; 10; 16] -> lanes t n l ->
  exists ss, print sf a (Vec t n) (Lanes l) s = Some (put s (join (chars ", ") ss)) /\ Forall2 (stands (base s) (bits_of t)) l ss.
Proof.
  intros H T B L. exists (map (printed sf (base s) t) l). split; [exact (print_run sf a (Vec t n) (Lanes l) s H L)|].
  destruct L as [_ F]. induction F as [|z l Hz F IH]; [constructor|]. constructor; [now apply printed_stands|exact IH].
Qed.

Lemma print_floats sf a t n l s : In (t, n) vectors -> is_float t = true -> lanes t n l ->
  print sf a (Vec t n) (Lanes l) s = Some (put s (join (chars ", ") (map (sf t) l))).
Proof.
  intros H T L. rewrite (print_run sf a (Vec t n) (Lanes l) s H L). cbn [text_of element_type]. do 3 f_equal.
  apply map_ext. intros z. now destruct t.
Qed.

Lemma print_registers sf a t n k l s : printable a (Arr t n k) -> of_type (Arr t n k) (Registers l) ->
  exists ss, print sf a (Arr t n k) (Registers l) s = Some (put s (join ["010"%char] ss)) /\
    Forall2 (fun x w => print sf a (Vec t n) (Lanes x) s = Some (put s w)) l ss.
Proof.
  intros P T. exists (map (fun x => text_of sf (base s) (Vec t n) (Lanes x)) l). split; [exact (print_run sf a (Arr t n k) (Registers l) s P T)|].
  destruct T as [_ F]. destruct P as (P & _). induction F as [|x l Lx F IH]; [constructor|]. constructor; [now apply print_run|exact IH].
Qed.

(** Only these types can be printed. *)
Lemma print_only sf a v d s s' : print sf a v d s = Some s' -> printable a v.
Proof.
  assert (O : forall a v b, overload (operators a) v = Some b -> printable a v).
  { clear. intros a v b H. unfold overload in H. destruct (find _ (operators a)) as [o|] eqn:E; [|discriminate H]. apply find_some in E. destruct E as [I E].
    assert (Ev : op_type o = v).
    { assert (S0 : forall x y, sty_eqb x y = true -> x = y) by (intros [] []; cbn; congruence).
      destruct (op_type o) as [t n|t n k], v as [u m|u m j]; cbn [vtype_eqb] in E; try discriminate E.
      - apply andb_true_iff in E. destruct E as [A B]. apply S0 in A. apply Nat.eqb_eq in B. now subst.
      - apply andb_true_iff in E. destruct E as [E C]. apply andb_true_iff in E. destruct E as [A B]. apply S0 in A. apply Nat.eqb_eq in B. apply Nat.eqb_eq in C. now subst. }
    subst v. clear E H b. revert o I. apply Forall_forall. destruct a;
      repeat (constructor; [cbn; first [tauto|split; [tauto|split; [lia|first [reflexivity|discriminate]]]]|]); constructor. }
  intros H. unfold print in H. destruct v as [t n|t n k], d as [l|l]; try discriminate H.
  - unfold print_vector in H. destruct (overload (operators a) (Vec t n)) as [b|] eqn:E; [exact (O _ _ _ E)|discriminate H].
  - destruct (overload (operators a) (Arr t n k)) as [b|] eqn:E; [exact (O _ _ _ E)|discriminate H].
Qed.
