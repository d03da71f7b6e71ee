(** Generic lemmas about the interpreter: modular reduction, array access and
    the two loop shapes that the library uses. *)
From Coq Require Import ZArith List String Bool Lia.
From Verif Require Import Types FloatBits Syntax Interp ProgRecip.
Import ListNotations.
Open Scope Z_scope.

(** ** Modular reduction *)

Lemma modulus_pos t : 0 < modulus t.
Proof. destruct t; reflexivity. Qed.

Lemma hi_lo t : hi t = lo t + modulus t - 1.
Proof. destruct t; reflexivity. Qed.

Lemma wrap_range t z : in_range t (wrap t z).
Proof.
  unfold in_range, wrap. rewrite hi_lo.
  pose proof (Z.mod_pos_bound (z - lo t) _ (modulus_pos t)). lia.
Qed.

Lemma wrap_id t z : in_range t z -> wrap t z = z.
Proof.
  unfold in_range, wrap. rewrite hi_lo. intros H.
  rewrite Z.mod_small; lia.
Qed.

Lemma wrap_eqm t z : exists k, wrap t z = z + k * modulus t.
Proof.
  unfold wrap. exists (- ((z - lo t) / modulus t)).
  rewrite Z.mod_eq by (pose proof (modulus_pos t); lia). ring.
Qed.

Lemma wrap_add_mult t z k : wrap t (z + k * modulus t) = wrap t z.
Proof.
  unfold wrap. replace (z + k * modulus t - lo t) with (z - lo t + k * modulus t) by ring.
  rewrite Z.mod_add; [reflexivity | pose proof (modulus_pos t); lia].
Qed.

Lemma wrap_wrap t z : wrap t (wrap t z) = wrap t z.
Proof. apply wrap_id, wrap_range. Qed.

Lemma wrap_unique t y z : in_range t y -> (exists k, y = z + k * modulus t) -> y = wrap t z.
Proof. intros H [k ->]. rewrite <- (wrap_add_mult t z k). symmetry. now apply wrap_id. Qed.

Lemma wrap_add_l t x y : wrap t (wrap t x + y) = wrap t (x + y).
Proof.
  destruct (wrap_eqm t x) as [k ->].
  replace (x + k * modulus t + y) with (x + y + k * modulus t) by ring.
  apply wrap_add_mult.
Qed.
Lemma wrap_add_r t x y : wrap t (x + wrap t y) = wrap t (x + y).
Proof. rewrite Z.add_comm, wrap_add_l. f_equal; ring. Qed.
Lemma wrap_sub_l t x y : wrap t (wrap t x - y) = wrap t (x - y).
Proof. exact (wrap_add_l t x (- y)). Qed.
Lemma wrap_sub_r t x y : wrap t (x - wrap t y) = wrap t (x - y).
Proof.
  destruct (wrap_eqm t y) as [k ->].
  replace (x - (y + k * modulus t)) with (x - y + (- k) * modulus t) by ring.
  apply wrap_add_mult.
Qed.
Lemma wrap_mul_l t x y : wrap t (wrap t x * y) = wrap t (x * y).
Proof.
  destruct (wrap_eqm t x) as [k ->].
  replace ((x + k * modulus t) * y) with (x * y + (k * y) * modulus t) by ring.
  apply wrap_add_mult.
Qed.
Lemma wrap_mul_r t x y : wrap t (x * wrap t y) = wrap t (x * y).
Proof. rewrite Z.mul_comm, wrap_mul_l. f_equal; ring. Qed.

(** Reducing through a type at least as wide changes nothing. *)
Lemma wrap_wider t t' z : (modulus t | modulus t') -> wrap t (wrap t' z) = wrap t z.
Proof.
  intros [q Hq]. destruct (wrap_eqm t' z) as [k ->].
  rewrite Hq. replace (z + k * (q * modulus t)) with (z + (k * q) * modulus t) by ring.
  apply wrap_add_mult.
Qed.

Lemma in_rangeb_spec t z : in_rangeb t z = true <-> in_range t z.
Proof. unfold in_rangeb, in_range. rewrite andb_true_iff, !Z.leb_le. tauto. Qed.

Lemma in_rangeb_false t z : in_rangeb t z = false <-> ~ in_range t z.
Proof. rewrite <- in_rangeb_spec. destruct (in_rangeb t z); intuition congruence. Qed.

Lemma arith_ok c t z : in_range t z -> arith c t z = Ok z.
Proof.
  intros H. unfold arith. rewrite (proj2 (in_rangeb_spec t z) H), (wrap_id t z H).
  destruct (is_signed t); reflexivity.
Qed.

Lemma arith_wrapv c t z : wrapv c = true -> arith c t z = Ok (wrap t z).
Proof.
  intros H. unfold arith. rewrite H.
  destruct (is_signed t); [|reflexivity].
  destruct (in_rangeb t z) eqn:E; [|reflexivity].
  apply in_rangeb_spec in E. now rewrite wrap_id.
Qed.

Lemma arith_unsigned c t z : is_signed t = false -> arith c t z = Ok (wrap t z).
Proof. intros H. unfold arith. now rewrite H. Qed.

Lemma arith_ub c t z : is_signed t = true -> wrapv c = false -> ~ in_range t z ->
  arith c t z = Err (EUB SignedOverflow).
Proof.
  intros H1 H2 H3. unfold arith. rewrite H1, H2.
  apply in_rangeb_false in H3. now rewrite H3.
Qed.

(** ** Lists *)

Lemma nth_error_nth_lt {A} (l : list A) k d : (k < List.length l)%nat ->
  nth_error l k = Some (nth k l d).
Proof. revert k; induction l; intros [|k] H; cbn in *; try lia; [reflexivity | apply IHl; lia]. Qed.

Lemma get_idx_nat {A} (l : list A) k d : (k < List.length l)%nat ->
  get_idx l (Z.of_nat k) = Ok (nth k l d).
Proof.
  intros H. unfold get_idx. destruct (Z.ltb_spec (Z.of_nat k) 0); [lia|].
  rewrite Nat2Z.id. now rewrite (nth_error_nth_lt l k d H).
Qed.

Lemma get_idx_vec t l k : (k < List.length l)%nat ->
  get_idx (map (rv t) l) (Z.of_nat k) = Ok (OScal t (Some (nth k l 0))).
Proof.
  intros H. rewrite (get_idx_nat _ k (rv t 0)) by (now rewrite map_length).
  now rewrite map_nth.
Qed.

Lemma get_idx_vecs t ls k : (k < List.length ls)%nat ->
  get_idx (map (vec t) ls) (Z.of_nat k) = Ok (vec t (nth k ls [])).
Proof.
  intros H. rewrite (get_idx_nat _ k (vec t [])) by (now rewrite map_length).
  now rewrite map_nth.
Qed.

Lemma set_nth_length {A} n (a : A) l : List.length (set_nth n a l) = List.length l.
Proof. revert n; induction l; intros [|n]; cbn; congruence. Qed.

Lemma set_nth_app {A} (a x : A) l1 l2 :
  set_nth (List.length l1) a (l1 ++ x :: l2) = l1 ++ a :: l2.
Proof. induction l1; cbn; congruence. Qed.

(** ** Sequencing results *)

Fixpoint mapM {A B} (f : A -> res B) (l : list A) : res (list B) :=
  match l with
  | [] => Ok []
  | a :: l' => let* b := f a in let* bs := mapM f l' in Ok (b :: bs)
  end.

Lemma mapM_ok {A B} (f : A -> res B) (g : A -> B) l :
  (forall a, In a l -> f a = Ok (g a)) -> mapM f l = Ok (map g l).
Proof.
  induction l as [|a l IH]; intros H; [reflexivity|].
  cbn. rewrite (H a) by (now left). cbn. rewrite IH by (intros; apply H; now right). reflexivity.
Qed.

Lemma mapM_app {A B} (f : A -> res B) l1 l2 :
  mapM f (l1 ++ l2) =
  let* a := mapM f l1 in let* b := mapM f l2 in Ok (a ++ b).
Proof.
  induction l1 as [|a l1 IH]; cbn.
  - destruct (mapM f l2); reflexivity.
  - destruct (f a); cbn; [|reflexivity]. rewrite IH.
    destruct (mapM f l1); cbn; [|reflexivity]. destruct (mapM f l2); reflexivity.
Qed.

Lemma mapM_length {A B} (f : A -> res B) l r : mapM f l = Ok r -> List.length r = List.length l.
Proof.
  revert r; induction l as [|a l IH]; cbn; intros r H; [now injection H as <-|].
  destruct (f a); cbn in H; [|discriminate].
  destruct (mapM f l) eqn:E; cbn in H; [|discriminate].
  injection H as <-. cbn. now rewrite (IH _ eq_refl).
Qed.

(** ** Loops *)

Lemma eval_lt c callf en m i t N k : (t = I32 \/ t = U64) ->
  lookup i en = Some (rv t (Z.of_nat k)) -> (k <= N)%nat -> (N < 1000)%nat ->
  (let* o := eval c callf en m (EBin BLt (EVar i) (lit (Z.of_nat N))) in cond_value o)
  = Ok (Nat.ltb k N).
Proof.
  intros Ht Hl Hk HN. unfold lit. cbn [eval]. rewrite Hl. cbn [bind scalar rv fst snd].
  assert (Hw : forall j, (j <= N)%nat -> wrap U64 (Z.of_nat j) = Z.of_nat j).
  { intros j Hj. apply wrap_id. unfold in_range; cbn. lia. }
  destruct Ht as [-> | ->]; cbn -[Z.of_nat wrap Z.ltb Nat.ltb]; rewrite ?Hw by lia;
    cbn -[Z.of_nat wrap Z.ltb Nat.ltb];
    destruct (Nat.ltb_spec k N); destruct (Z.ltb_spec (Z.of_nat k) (Z.of_nat N));
      try lia; reflexivity.
Qed.

Lemma eval_next c callf en m i t k : (t = I32 \/ t = U64) ->
  lookup i en = Some (rv t (Z.of_nat k)) -> (k < 1000)%nat ->
  eval c callf en m (EBin BAdd (EVar i) (lit 1)) = Ok (rv t (Z.of_nat (S k))).
Proof.
  intros Ht Hl Hk. unfold lit. cbn [eval]. rewrite Hl. cbn [bind scalar rv fst snd].
  assert (Hw : forall t, t = I32 \/ t = U64 -> in_range t (Z.of_nat k + 1)).
  { intros ? [-> | ->]; unfold in_range; cbn; lia. }
  destruct Ht as [-> | ->]; cbn -[Z.of_nat wrap arith Z.add]; 
    change (wrap U64 1) with 1;
    rewrite arith_ok by (apply Hw; tauto); cbn [bind rv];
    do 3 f_equal; lia.
Qed.

Section ForLoop.
  Variables (c : cfg) (callf : string -> obj -> res obj) (fuel : nat).
  Variables (t : sty) (i : string) (N : nat) (body : stmt).
  Hypothesis Ht : t = I32 \/ t = U64.
  Hypothesis HN : (N < 1000)%nat.
  Hypothesis Hfuel : (N < fuel)%nat.
  (** [St] is the state of the abstract computation, [E] and [M] its
      environment and memory, [g k] one iteration of it. *)
  Variables (St : Type) (E : St -> env) (M : St -> memory) (g : nat -> St -> res St).
  Variable len : nat.
  Hypothesis Hlen : forall s, List.length (E s) = len.
  Variable P : nat -> St -> Prop.
  Hypothesis HP : forall k s s', P k s -> g k s = Ok s' -> P (S k) s'.
  Hypothesis Hbody : forall k s, (k < N)%nat -> P k s ->
    (let* r := exec c callf fuel body ((i, rv t (Z.of_nat k)) :: E s) (M s) in
     Ok (pop_ctl (S len) r))
    = let* s' := g k s in Ok (Normal ((i, rv t (Z.of_nat k)) :: E s') (M s')).

  Fixpoint iter_from (k n : nat) (s : St) : res St :=
    match n with
    | O => Ok s
    | S n' => let* s' := g k s in iter_from (S k) n' s'
    end.

  Lemma exec_for s0 : P 0 s0 ->
    exec c callf fuel
      (SFor t i (lit 0) (EBin BLt (EVar i) (lit (Z.of_nat N))) (EBin BAdd (EVar i) (lit 1)) body)
      (E s0) (M s0)
    = let* s := iter_from 0 N s0 in Ok (Normal (E s) (M s)).
  Proof.
    intros HP0. cbn [exec].
    change (eval c callf (E s0) (M s0) (lit 0)) with (@Ok obj (rv I32 0)). cbn [bind].
    assert (Hinit : init_obj c (TScal t) (rv I32 0) = Ok (rv t (Z.of_nat 0))).
    { destruct Ht as [-> | ->]; reflexivity. }
    rewrite Hinit. cbn [bind]. rewrite Hlen.
    set (cond := fun en m => _). set (step := fun en m => _).
    assert (Hl : forall n k s fl, (k + n = N)%nat -> (n < fl)%nat -> P k s ->
      loop fl cond step ((i, rv t (Z.of_nat k)) :: E s) (M s)
      = let* s := iter_from k n s in Ok (Normal ((i, rv t (Z.of_nat N)) :: E s) (M s))).
    { induction n as [|n IH]; intros k s fl Hk Hfl HPk; (destruct fl as [|fl]; [lia|]); cbn [loop].
      - unfold cond at 1. rewrite (eval_lt c callf _ _ i t N k) by
          (try assumption; try lia; cbn [lookup]; now rewrite String.eqb_refl).
        cbn [bind]. replace (Nat.ltb k N) with false by (symmetry; apply Nat.ltb_ge; lia).
        cbn [iter_from bind]. replace k with N by lia. reflexivity.
      - unfold cond at 1. rewrite (eval_lt c callf _ _ i t N k) by
          (try assumption; try lia; cbn [lookup]; now rewrite String.eqb_refl).
        cbn [bind]. replace (Nat.ltb k N) with true by (symmetry; apply Nat.ltb_lt; lia).
        cbn [iter_from]. unfold step at 1.
        pose proof (Hbody k s ltac:(lia) HPk) as Hb.
        destruct (exec c callf fuel body _ _) as [r|e] eqn:Er; cbn [bind] in Hb |- *.
        + cbn [List.length]. rewrite Hlen.
          destruct (g k s) as [s'|e'] eqn:Eg; cbn [bind] in Hb |- *; [|discriminate].
          injection Hb as Hb. rewrite Hb.
          rewrite (eval_next c callf _ _ i t k) by
            (try assumption; try lia; cbn [lookup]; now rewrite String.eqb_refl).
          cbn [bind]. unfold assign. cbn [rv scalar bind fst snd lookup].
          rewrite String.eqb_refl. cbv [rv]. cbn [put bind fst snd]. fold (rv t).
          assert (Hc : convert c t t (Z.of_nat (S k)) = Ok (Z.of_nat (S k))).
          { destruct Ht as [-> | ->]; reflexivity. }
          rewrite Hc. cbn [bind update fst snd].  rewrite String.eqb_refl.
          apply IH; [lia | lia | eapply HP; eauto].
        + destruct (g k s); cbn [bind] in Hb |- *; congruence. }
    rewrite (Hl N 0%nat s0 fuel) by (try lia; assumption).
    destruct (iter_from 0 N s0); cbn [bind]; [|reflexivity].
    unfold pop_ctl, pop. cbn [List.length]. rewrite Hlen.
    replace (S len - len)%nat with 1%nat by lia. reflexivity.
  Qed.
End ForLoop.

(** ** The shape [T D; for (i = 0; i < n; i++) { ... D.val[i] = ...; } return D;] *)

(** [lanewise g n] runs the lane computations in order. *)
Definition lanewise (g : nat -> res Z) (n : nat) : res (list Z) := mapM g (seq 0 n).

Lemma firstn_seq_S n : seq 0 (S n) = seq 0 n ++ [n].
Proof. apply seq_S. Qed.

Section MapLoop.
  Variables (c : cfg) (callf : string -> obj -> res obj) (fuel : nat).
  Variables (ti : sty) (i x : string) (n : nat) (T : sty) (body : stmt).
  Variables (en0 : env) (m : memory) (g : nat -> res Z).
  Hypothesis Hti : ti = I32 \/ ti = U64.
  Hypothesis Hn : (n < 1000)%nat.
  Hypothesis Hfuel : (n < fuel)%nat.
  Hypothesis Hbody : forall k l, (k < n)%nat -> List.length l = n -> nth_error l k = Some (OScal T None) ->
    (let* r := exec c callf fuel body ((i, rv ti (Z.of_nat k)) :: (x, OArr l) :: en0) m in
     Ok (pop_ctl (S (S (List.length en0))) r))
    = let* z := g k in
      Ok (Normal ((i, rv ti (Z.of_nat k)) :: (x, OArr (set_nth k (rv T z) l)) :: en0) m).

  Let E (l : list obj) : env := (x, OArr l) :: en0.
  Let G (k : nat) (l : list obj) : res (list obj) := let* z := g k in Ok (set_nth k (rv T z) l).

  Lemma iter_map : forall r done k, List.length done = k ->
    iter_from (list obj) G k r (map (rv T) done ++ repeat (OScal T None) r)
    = let* zs := mapM g (seq k r) in Ok (map (rv T) (done ++ zs)).
  Proof.
    induction r as [|r IH]; intros done k Hk; cbn [iter_from seq mapM bind repeat].
    - now rewrite !app_nil_r.
    - unfold G at 1. destruct (g k) as [z|e]; cbn [bind]; [|reflexivity].
      rewrite <- Hk. rewrite <- (map_length (rv T) done) at 2. rewrite set_nth_app.
      replace (map (rv T) done ++ rv T z :: repeat (OScal T None) r)
        with (map (rv T) (done ++ [z]) ++ repeat (OScal T None) r)
        by (rewrite map_app, <- app_assoc; reflexivity).
      rewrite (IH (done ++ [z]) (S (List.length done))) by (rewrite app_length; cbn; lia).
      destruct (mapM g (seq (S (List.length done)) r)); cbn [bind]; [|reflexivity].
      now rewrite <- app_assoc.
  Qed.

  Lemma exec_map_loop :
    exec c callf fuel
      (SFor ti i (lit 0) (EBin BLt (EVar i) (lit (Z.of_nat n))) (EBin BAdd (EVar i) (lit 1)) body)
      ((x, fresh (tvec T n)) :: en0) m
    = let* zs := lanewise g n in Ok (Normal ((x, vec T zs) :: en0) m).
  Proof.
    change ((x, fresh (tvec T n)) :: en0) with (E (repeat (OScal T None) n)).
    set (P := fun (k : nat) (l : list obj) =>
                exists done, List.length done = k /\ l = map (rv T) done ++ repeat (OScal T None) (n - k)).
    assert (HPs : forall k s s', (k < n)%nat -> P k s -> G k s = Ok s' -> P (S k) s').
    { intros k s s' Hk (done & Hd & ->) HG. unfold G in HG.
      destruct (g k) as [z|]; cbn [bind] in HG; [|discriminate]. injection HG as <-.
      exists (done ++ [z]). split; [rewrite app_length; cbn; lia|].
      replace (n - k)%nat with (S (n - S k)) by lia. cbn [repeat].
      rewrite <- Hd at 1. rewrite <- (map_length (rv T) done). rewrite set_nth_app.
      rewrite map_app, <- app_assoc. reflexivity. }
    pose proof (exec_for c callf fuel ti i n body Hti Hn Hfuel (list obj) E (fun _ => m) G
                  (S (List.length en0)) (fun _ => eq_refl)
                  (fun k l => (k < n)%nat -> P k l)) as HF.
    assert (Hpre : exec c callf fuel
      (SFor ti i (lit 0) (EBin BLt (EVar i) (lit (Z.of_nat n))) (EBin BAdd (EVar i) (lit 1)) body)
      (E (repeat (OScal T None) n)) m = let* s := iter_from (list obj) G 0 n (repeat (OScal T None) n) in Ok (Normal (E s) m)).
    { apply HF.
      - intros k s s' HP HG Hk. apply (HPs k s s'); [lia | apply HP; lia | exact HG].
      - intros k s Hk HP. destruct (HP Hk) as (done & Hd & ->).
        unfold E. rewrite Hbody; [unfold G; destruct (g k); reflexivity | exact Hk | |].
        + rewrite app_length, map_length, repeat_length. lia.
        + rewrite nth_error_app2 by (rewrite map_length; lia).
          rewrite map_length, Hd, Nat.sub_diag. now destruct (n - k)%nat eqn:?; [lia|].
      - intros _. exists []. split; [reflexivity|]. rewrite Nat.sub_0_r. reflexivity. }
    rewrite Hpre. pose proof (iter_map n [] 0 eq_refl) as HI. cbn [map app] in HI. rewrite HI.
    unfold lanewise. destruct (mapM g (seq 0 n)); reflexivity.
  Qed.

  Lemma exec_map_fun :
    exec c callf fuel
      (SSeq (SDecl (tvec T n) x None)
        (SSeq (SFor ti i (lit 0) (EBin BLt (EVar i) (lit (Z.of_nat n))) (EBin BAdd (EVar i) (lit 1)) body)
              (SReturn (EVar x))))
      en0 m
    = let* zs := lanewise g n in Ok (Returned (vec T zs) m).
  Proof.
    cbn [exec bind]. fold (exec c callf fuel). 
    pose proof exec_map_loop as HL. cbn [exec] in HL. rewrite HL.
    destruct (lanewise g n); cbn [bind eval lookup]; [|reflexivity].
    rewrite String.eqb_refl. reflexivity.
  Qed.
End MapLoop.
