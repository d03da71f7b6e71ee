(** Proofs about the order of bytes: copying an object over one whose scalars have the same size does not
    depend on it. *)
From Coq Require Import ZArith String List Bool Lia.
From Verif Require Import Types FloatBits Syntax Interp ProgRecip Library Typing TypeSound MetaSpec Host P_Cast P_Contract P_Host.
Import ListNotations.
Open Scope Z_scope.

(** ** The machine of Interp.v *)

Fixpoint obj_ind' (P : obj -> Prop) (H1 : forall t v, P (OScal t v)) (H2 : forall l, Forall P l -> P (OArr l))
  (H3 : forall t b off, P (OPtr t b off)) (o : obj) : P o :=
  match o with
  | OScal t v => H1 t v
  | OArr l => H2 l ((fix go l : Forall P l := match l with [] => Forall_nil P | x :: r => Forall_cons x (obj_ind' P H1 H2 H3 x) (go r) end) l)
  | OPtr t b off => H3 t b off
  end.

Lemma bytes_little o : bytes_of_h false o = bytes_of o.
Proof.
  induction o as [t [z|]|l IH|t b off] using obj_ind'; try reflexivity.
  cbn [bytes_of_h bytes_of]. induction IH as [|x r Hx _ IHr]; cbn; [reflexivity|]. now rewrite Hx, IHr.
Qed.

(** [from_bytes_h] on the elements of an array. *)
Fixpoint from_all (big : bool) (l : list obj) (bs : list (option Z)) : list obj * list (option Z) :=
  match l with
  | [] => ([], bs)
  | o' :: l' => let (x, bs1) := from_bytes_h big o' bs in let (xs, bs2) := from_all big l' bs1 in (x :: xs, bs2)
  end.
Lemma from_arr big l bs : from_bytes_h big (OArr l) bs = let (xs, bs') := from_all big l bs in (OArr xs, bs').
Proof.
  cbn [from_bytes_h].
  match goal with |- (let (xs, bs') := ?F l bs in _) = _ => assert (E : F l bs = from_all big l bs) end; [|now rewrite E].
  revert bs. induction l as [|x r IH]; intros bs; cbn [from_all]; [reflexivity|]. destruct (from_bytes_h big x bs) as [x' bs1]. now rewrite IH.
Qed.

Lemma from_little o : forall bs, from_bytes_h false o bs = from_bytes o bs.
Proof.
  induction o as [t v|l IH|t b off] using obj_ind'; intros bs; try reflexivity.
  cbn [from_bytes_h from_bytes].
  match goal with |- (let (xs, bs') := ?F l bs in _) = (let (xs, bs') := ?G l bs in _) => assert (E : F l bs = G l bs) end; [|now rewrite E].
  revert bs. induction IH as [|x r Hx _ IHr]; intros bs; [reflexivity|]. rewrite Hx. destruct (from_bytes x bs) as [x' bs1]. now rewrite IHr.
Qed.

Lemma memcpy_little d s n : memcpy_obj_h false d s n = memcpy_obj d s n.
Proof. unfold memcpy_obj_h, memcpy_obj. now rewrite !bytes_little, from_little. Qed.

(** ** Scalars of one size *)

Definition encode_h (big : bool) (w : nat) (v : option Z) : list (option Z) :=
  match v with Some z => map Some (host_bytes big w z) | None => repeat None w end.

Lemma host_bytes_length big w z : List.length (host_bytes big w z) = w.
Proof.
  assert (L : List.length (le_bytes w z) = w) by (revert z; induction w; intros z; cbn; auto).
  destruct big; cbn; rewrite ?rev_length; exact L.
Qed.
Lemma encode_length big w v : List.length (encode_h big w v) = w.
Proof. destruct v; cbn; [now rewrite map_length, host_bytes_length|apply repeat_length]. Qed.

Lemma of_host_bytes_encode big w z : of_host_bytes big (host_bytes big w z) = of_le_bytes (le_bytes w z).
Proof. unfold of_host_bytes, host_bytes. destruct big; [now rewrite rev_involutive|reflexivity]. Qed.

Lemma firstn_exact {A} (l r : list A) n : List.length l = n -> firstn n (l ++ r) = l.
Proof. intros <-. rewrite firstn_app, Nat.sub_diag, firstn_all. apply app_nil_r. Qed.
Lemma skipn_exact {A} (l r : list A) n : List.length l = n -> skipn n (l ++ r) = r.
Proof. intros <-. rewrite skipn_app, Nat.sub_diag, skipn_all. reflexivity. Qed.

(** How many scalars an object of type [t] has, if all are [w] bytes long. *)
Fixpoint cells (w : nat) (t : ty) : option nat :=
  match t with
  | TScal s => if Nat.eqb (nbytes s) w then Some 1%nat else None
  | TArr n t' => match cells w t' with Some k => Some (n * k)%nat | None => None end
  | _ => None
  end.

Lemma bytes_uniform w sh : forall t k o, cells w t = Some k -> has sh t o ->
  exists zs, List.length zs = k /\ forall big, bytes_of_h big o = flat_map (encode_h big w) zs.
Proof.
  induction t as [|s|n t IH|l|s]; intros k o E H; cbn [cells] in E; try discriminate E.
  - destruct (Nat.eqb_spec (nbytes s) w) as [<-|]; [|discriminate]. injection E as <-.
    destruct o as [s' v|l|]; cbn [has] in H; try contradiction. subst s'. exists [v]. split; [reflexivity|].
    intros big. cbn [flat_map]. rewrite app_nil_r. now destruct v.
  - destruct (cells w t) as [k'|]; [|discriminate]. injection E as <-. destruct o as [|l|]; cbn [has] in H; try contradiction.
    destruct H as [L F]. revert n L. induction F as [|o l Ho _ IHl]; intros n L; cbn in L; subst n.
    + exists []. now split.
    + destruct (IH k' o eq_refl Ho) as (zs & Lz & Ez). destruct (IHl _ eq_refl) as (zs' & Lz' & Ez').
      exists (zs ++ zs'). rewrite app_length. split; [cbn; lia|].
      intros big. specialize (Ez' big). cbn [bytes_of_h flat_map] in *. rewrite flat_map_app. now rewrite Ez, Ez'.
Qed.

Lemma from_uniform w sh : (0 < w)%nat -> forall t k o, cells w t = Some k -> has sh t o -> forall zs, List.length zs = k ->
  exists o', forall big rest, from_bytes_h big o (flat_map (encode_h big w) zs ++ rest) = (o', rest).
Proof.
  intros W. induction t as [|s|n t IH|l|s]; intros k o E H zs L; cbn [cells] in E; try discriminate E.
  - destruct (Nat.eqb_spec (nbytes s) w) as [Ew|]; [|discriminate]. injection E as <-.
    destruct o as [s' v|l|]; cbn [has] in H; try contradiction. subst s'.
    destruct zs as [|z [|]]; try discriminate L. exists (OScal s (match z with Some z => Some (wrap s (of_le_bytes (le_bytes w z))) | None => None end)).
    intros big rest. cbn [flat_map]. rewrite app_nil_r. cbn [from_bytes_h]. rewrite Ew.
    rewrite firstn_exact, skipn_exact by apply encode_length. do 2 f_equal. destruct z as [z|]; cbn [encode_h].
    + now rewrite all_some_map, of_host_bytes_encode.
    + destruct w; [lia|]. reflexivity.
  - destruct (cells w t) as [k'|]; [|discriminate]. injection E as <-. destruct o as [|l|]; cbn [has] in H; try contradiction.
    destruct H as [Ln F].
    assert (G : exists l', forall big rest, from_all big l (flat_map (encode_h big w) zs ++ rest) = (l', rest)).
    { revert n Ln zs L. induction F as [|o l Ho _ IHl]; intros n Ln zs L; cbn in Ln; subst n.
      - destruct zs; [|discriminate]. exists []. reflexivity.
      - destruct (IH k' o eq_refl Ho (firstn k' zs)) as [o' Eo]; [rewrite firstn_length; cbn in L; lia|].
        destruct (IHl _ eq_refl (skipn k' zs)) as [l' El]; [rewrite skipn_length; cbn in L; lia|].
        exists (o' :: l'). intros big rest. rewrite <- (firstn_skipn k' zs) at 1. rewrite flat_map_app, <- app_assoc.
        cbn [from_all]. now rewrite Eo, El. }
    destruct G as [l' G]. exists (OArr l'). intros big rest. now rewrite from_arr, G.
Qed.

Lemma memcpy_uniform w sh td ts k od os n big : (0 < w)%nat -> cells w td = Some k -> cells w ts = Some k ->
  has sh td od -> has sh ts os -> n = Z.of_nat (k * w) -> memcpy_obj_h big od os n = memcpy_obj od os n.
Proof.
  intros W Cd Cs Hd Hs ->. rewrite <- memcpy_little.
  destruct (bytes_uniform w sh td k od Cd Hd) as (zd & Ld & Ed). destruct (bytes_uniform w sh ts k os Cs Hs) as (zs & Ls & Es).
  destruct (from_uniform w sh W td k od Cd Hd zs Ls) as (o' & Eo).
  assert (LL : forall b zs, List.length (flat_map (encode_h b w) zs) = (List.length zs * w)%nat).
  { intros b. induction zs0; cbn; [reflexivity|]. now rewrite app_length, encode_length, IHzs0. }
  assert (G : forall b, memcpy_obj_h b od os (Z.of_nat (k * w)) = Ok o').
  { intros b. unfold memcpy_obj_h. rewrite Ed, Es, !LL, Ld, Ls, Z.leb_refl.
    destruct (Z.leb_spec 0 (Z.of_nat (k * w))); [|lia]. cbn [andb]. rewrite Nat2Z.id.
    rewrite firstn_all2 by (rewrite LL; lia). rewrite skipn_all2 by (rewrite LL; lia). now rewrite Eo. }
  now rewrite !G.
Qed.

(** ** What is checked of the functions *)

(** The number of bytes in a call of memcpy: [sizeof (t)] or [sizeof (t) * n]. *)
Definition amount (n : expr) : option Z :=
  match n with
  | ELit U64 z => Some z
  | EBin BMul (ELit U64 a) (ELit I32 b) => Some (wrap U64 (a * wrap U64 b))
  | _ => None
  end.
Lemma amount_eval c callf en m n k : amount n = Some k -> (let* o := eval c callf en m n in int_value o) = Ok k.
Proof.
  intros E. destruct n as [[]| | | |[] [[]| | | | | | | | | | |] [[]| | | | | | | | | | |]| | | | | | |]; try discriminate E; injection E as <-; reflexivity.
Qed.

Fixpoint innermost (t : ty) : nat := match t with TScal s => nbytes s | TArr _ t' => innermost t' | _ => 0%nat end.

Definition same_cells (td ts : ty) (n : expr) : bool :=
  let w := innermost td in
  match cells w td, cells w ts, amount n with
  | Some k, Some k', Some a => (0 <? w)%nat && Nat.eqb k k' && (a =? Z.of_nat (k * w))
  | _, _, _ => false
  end.

Section Check.
  Variable hs : list func.
  Fixpoint copies (ret : ty) (g : tenv) (s : stmt) : bool :=
    match s with
    | SSeq a b => copies ret g a && match check_stmt hs no_more ret g a with Some g' => copies ret g' b | None => false end
    | SIf _ a b => copies ret g a && copies ret g b
    | SFor t i _ _ _ body => copies ret ((i, TScal t) :: g) body
    | SMemcpy d s n => match tfind d g, tfind s g with Some td, Some ts => same_cells td ts n | _, _ => false end
    | _ => true
    end.
  Definition copies_cells (f : func) : bool := type_checks hs no_more f && copies (f_ret f) (f_params f) (f_body f).
End Check.

(** ** Simulation *)

Section Same.
  Variable big : bool.
  Variable c : cfg.
  Variables callf callf' : string -> obj -> res obj.
  Variable hs : list func.
  Notation host1 := (mkhost big U64).

  Section Eval.
    Variable m : memory.
    Hypothesis Hgood : calls_good callf hs m.
    Hypothesis Hsame : calls_same callf callf' hs m.
    Variable en : env.
    Variable g : tenv.
    Hypothesis HE : env_has (map fst m) en g.

    Lemma eval_calls : forall e t, type_of hs g e = Some t -> eval c callf' en m e = eval c callf en m e.
    Proof.
      induction e as [s z|y|a IHa i IHi|op a IHa|op a IHa b IHb|a IHa b IHb|a IHa b IHb|a IHa b IHb d IHd|s a IHa|s a IHa b IHb|s a IHa b IHb|f a IHa];
        intros t HT; cbn [type_of] in HT; cbn [eval]; trivial.
      all: try (destruct (is_float s); [discriminate|]).
      all: try (destruct (find _ hs) as [h|] eqn:Ef; [|discriminate HT]).
      all: destruct (type_of hs g a) as [ta|] eqn:Ea; [|try discriminate HT; try (destruct op; discriminate HT)].
      all: try (destruct (type_of hs g i) as [ti|] eqn:Ei; [|destruct ta; discriminate HT]).
      all: try (destruct (type_of hs g b) as [tb|] eqn:Eb; [|destruct ta; discriminate HT]).
      all: try (destruct (type_of hs g d) as [td|] eqn:Ed; [|destruct ta; discriminate HT]).
      all: rewrite (IHa _ eq_refl); rewrite ?(IHi _ eq_refl), ?(IHb _ eq_refl), ?(IHd _ eq_refl); trivial.
      destruct (f_params h) as [|[y p] [|? ?]] eqn:Ep; try discriminate HT. destruct (initialises ta p) eqn:Ei; [|discriminate HT].
      apply same_bind with (P := has (map fst m) ta); [reflexivity|exact (type_sound c callf hs m Hgood en g HE a _ Ea)|].
      intros o Ho. exact (Hsame f h y p ta o Ef Ep Ei Ho).
    Qed.
  End Eval.

  Section Exec.
    Variable fuel : nat.
    Variable sh : list sty.
    Hypothesis Hgood : forall m, map fst m = sh -> calls_good callf hs m.
    Hypothesis Hsame : forall m, map fst m = sh -> calls_same callf callf' hs m.
    Let extra := no_more.

    Lemma eval_calls_sh en g m e t : env_has sh en g -> map fst m = sh -> type_of hs g e = Some t ->
      eval c callf' en m e = eval c callf en m e.
    Proof. intros HE HM HT. apply (eval_calls m (Hgood m HM) (Hsame m HM) en g) with (t := t); trivial. now rewrite HM. Qed.

    Lemma scalar_calls en g m e : env_has sh en g -> map fst m = sh -> scalar_ok hs extra g e = true ->
      eval c callf' en m e = eval c callf en m e.
    Proof.
      intros HE HM H. unfold scalar_ok in H. apply andb_prop in H. destruct H as [_ H].
      destruct (type_of hs g e) as [t|] eqn:E; try discriminate H. eapply eval_calls_sh; eauto.
    Qed.
    Lemma int_calls en g m e : env_has sh en g -> map fst m = sh -> int_ok hs extra g e = true ->
      eval c callf' en m e = eval c callf en m e.
    Proof.
      intros HE HM H. unfold int_ok in H. apply andb_prop in H. destruct H as [_ H].
      destruct (type_of hs g e) as [t|] eqn:E; try discriminate H. eapply eval_calls_sh; eauto.
    Qed.
    Lemma type_calls en g m u e : env_has sh en g -> map fst m = sh -> type_ok hs extra g u e = true ->
      eval c callf' en m e = eval c callf en m e.
    Proof.
      intros HE HM H. unfold type_ok in H. apply andb_prop in H. destruct H as [_ H].
      destruct (type_of hs g e) as [t|] eqn:E; try discriminate H. eapply eval_calls_sh; eauto.
    Qed.
    Lemma path_calls en g m : env_has sh en g -> map fst m = sh -> forall path t u, path_type hs extra g t path = Some u ->
      eval_path c callf' en m path = eval_path c callf en m path.
    Proof.
      intros HE HM. induction path as [|e path IH]; intros t u H; cbn [eval_path path_type] in *; [reflexivity|].
      destruct (int_ok hs extra g e) eqn:EI; [|discriminate]. rewrite (int_calls en g m e HE HM EI).
      destruct t as [| |n t|ts|]; try discriminate H.
      - rewrite (IH t u H). reflexivity.
      - destruct e; try discriminate H. destruct (nth_error ts _) as [t'|]; [|discriminate]. rewrite (IH t' u H). reflexivity.
    Qed.

    Theorem exec_order ret : forall s g g' en m, check_stmt hs extra ret g s = Some g' -> copies hs ret g s = true -> state_ok sh g en m ->
      exec_h host1 c callf' fuel s en m = exec c callf fuel s en m.
    Proof.
      induction s as [|s1 IH1 s2 IH2|t y o|y path e|e s1 IH1 s2 IH2|t i init cond next body IH|d s n| |e];
        intros g g' en m H K HS; pose proof (exec_sound c callf hs extra fuel sh Hgood ret) as ES;
        cbn [check_stmt] in H; cbn [copies] in K; cbn [exec exec_h].
      - reflexivity.
      - apply andb_prop in K. destruct K as [K1 K2]. unfold extra in *.
        destruct (check_stmt hs no_more ret g s1) as [g1|] eqn:E1; [|discriminate].
        apply same_bind with (P := ctl_ok sh ret g1); [eapply IH1; eauto|eapply ES; eauto|].
        intros r Hr. destruct r as [en' m'|v m']; [eapply IH2; eauto|reflexivity].
      - destruct HS as [HE HM]. destruct o as [e|]; [|reflexivity].
        destruct (type_ok hs extra g t e) eqn:ET; [|discriminate]. now rewrite (type_calls en g m t e HE HM ET).
      - destruct HS as [HE HM]. destruct (tfind y g) as [t|] eqn:ET; [|discriminate].
        assert (C : eval_path c callf' en m path = eval_path c callf en m path /\ scalar_ok hs extra g e = true).
        { destruct t; try (match type of H with match ?p with _ => _ end = _ => destruct p as [[]|] eqn:EP end; try discriminate H;
            (destruct (scalar_ok hs extra g e); [|discriminate H]); split; [eapply path_calls; eauto|reflexivity]).
          destruct path as [|i [|]]; try discriminate H. destruct (int_ok hs extra g i) eqn:EI; [|discriminate H].
          destruct (scalar_ok hs extra g e); [|discriminate H]. cbn [eval_path]. rewrite (int_calls en g m i HE HM EI). now split. }
        destruct C as [C1 C2]. rewrite C1. now rewrite (scalar_calls en g m e HE HM C2).
      - apply andb_prop in K. destruct K as [K1 K2]. destruct (scalar_ok hs extra g e) eqn:EX; [|discriminate].
        destruct (check_stmt hs extra ret g s1) as [g1|] eqn:E1; [|discriminate]. destruct (check_stmt hs extra ret g s2) as [g2|] eqn:E2; [|discriminate].
        rewrite (scalar_calls en g m e (proj1 HS) (proj2 HS) EX). rewrite (IH1 _ _ en m E1 K1 HS), (IH2 _ _ en m E2 K2 HS). reflexivity.
      - destruct (scalar_ok hs extra g init && scalar_ok hs extra ((i, TScal t) :: g) cond && scalar_ok hs extra ((i, TScal t) :: g) next)%bool eqn:EB; [|discriminate].
        destruct (check_stmt hs extra ret ((i, TScal t) :: g) body) as [gb|] eqn:Eb; [|discriminate]. injection H as <-.
        apply andb_prop in EB. destruct EB as [EB EN]. apply andb_prop in EB. destruct EB as [EI EC].
        destruct HS as [HE HM]. rewrite (scalar_calls en g m init HE HM EI).
        replace (counter host1 t) with t by now destruct t.
        destruct (check_extends hs extra ret _ _ _ Eb) as [db ->].
        apply same_bind with (P := fun o => exists s, has sh (TScal s) o); [reflexivity|eapply scalar_ok_good; eauto|]. intros o [s Ho].
        apply same_bind with (P := has sh (TScal t)); [reflexivity|apply (initialises_has c (TScal s) (TScal t) sh o eq_refl Ho)|]. intros o' Ho'.
        f_equal. apply loop_same with (sh := sh) (ret := ret) (g := (i, TScal t) :: g).
        + intros en1 m1 [HE1 HM1]. now rewrite (scalar_calls en1 _ m1 cond HE1 HM1 EC).
        + intros en1 m1 HS1. apply same_bind with (P := ctl_ok sh ret (db ++ (i, TScal t) :: g)); [eapply IH; eauto|eapply ES; eauto|].
          intros r Hr. assert (P := pop_ctl_ok sh ret ((i, TScal t) :: g) en1 db r (proj1 HS1) Hr).
          destruct (pop_ctl (List.length en1) r) as [en2 m2|v m2]; [|reflexivity].
          destruct P as [HE2 HM2]. now rewrite (scalar_calls en2 _ m2 next HE2 HM2 EN).
        + intros en1 m1 HS1. eapply good_bind; [eapply ES; eauto|]. intros r Hr.
          assert (P := pop_ctl_ok sh ret ((i, TScal t) :: g) en1 db r (proj1 HS1) Hr).
          destruct (pop_ctl (List.length en1) r) as [en2 m2|v m2]; [|exact P].
          destruct P as [HE2 HM2]. eapply good_bind; [eapply scalar_ok_good; eauto|]. intros v [sv Hv].
          eapply good_bind; [eapply (assign_scalar c sh ((i, TScal t) :: g) en2 m2 i t v sv); [now split| |exact Hv]|].
          { cbn [tfind]. now rewrite String.eqb_refl. }
          intros r' Hr'. exact Hr'.
        + split; [|exact HM]. constructor; [now split|exact HE].
      - destruct HS as [HE HM]. destruct (tfind d g) as [td|] eqn:Ed; [|discriminate]. destruct (tfind s g) as [ts|] eqn:Es; [|discriminate].
        unfold same_cells in K. destruct (cells (innermost td) td) as [k|] eqn:Cd; [|discriminate]. destruct (cells (innermost td) ts) as [k'|] eqn:Cs; [|discriminate].
        destruct (amount n) as [a|] eqn:Ea; [|discriminate]. apply andb_prop in K. destruct K as [K Ka]. apply andb_prop in K. destruct K as [Kw Kk].
        apply Nat.ltb_lt in Kw. apply Nat.eqb_eq in Kk. subst k'. apply Z.eqb_eq in Ka.
        destruct (lookup_has sh en g d td HE Ed) as (od & Ld & Hd). destruct (lookup_has sh en g s ts HE Es) as (os & Ls & Hos).
        pose proof (amount_eval c callf en m n a Ea) as A. pose proof (amount_eval c callf' en m n a Ea) as A'.
        destruct (eval c callf en m n) as [o|]; [|discriminate A]. destruct (eval c callf' en m n) as [o'|]; [|discriminate A']. cbn [bind] in *. rewrite A, A'. cbn [bind].
        rewrite Ld, Ls. cbn [big_endian]. now rewrite (memcpy_uniform _ sh td ts k od os a big Kw Cd Cs Hd Hos Ka).
      - reflexivity.
      - destruct HS as [HE HM].
        assert (C : type_ok hs extra g ret e = true).
        { destruct ret; try discriminate; (destruct (type_ok hs extra g _ e); [reflexivity|discriminate]). }
        now rewrite (type_calls en g m ret e HE HM C).
    Qed.

    Theorem body_order f args m : copies_cells hs f = true -> args_ok sh (f_params f) args -> map fst m = sh ->
      run_body_h host1 c callf' fuel f args m = run_body c callf fuel f args m.
    Proof.
      intros H HA HM. unfold copies_cells in H. apply andb_prop in H. destruct H as [H K]. unfold type_checks in H.
      destruct (check_stmt hs no_more (f_ret f) (f_params f) (f_body f)) as [g'|] eqn:E; [|discriminate].
      unfold run_body_h, run_body. apply same_bind with (P := fun en => env_has sh en (f_params f)); [reflexivity|now apply params_good|].
      intros en He. rewrite (exec_order _ _ _ _ en m E K (conj He HM)). reflexivity.
    Qed.
  End Exec.
End Same.

Section Level.
  Variable big : bool.
  Variable c : cfg.
  Variable d : nat.
  Variables hs hs' : list func.
  Hypothesis Hfind : forall f h, find (fun h => String.eqb (f_name h) f) hs = Some h ->
    find (fun h => String.eqb (f_name h) f) helpers = Some h /\ pointer_free h = true /\ copies_cells hs' h = true.
  Hypothesis Hgood : forall m, map fst m = [] -> calls_good (call_helper c helpers loop_fuel d) hs' m.
  Hypothesis Hsame : forall m, map fst m = [] ->
    calls_same (call_helper c helpers loop_fuel d) (call_helper_h (mkhost big U64) c helpers loop_fuel d) hs' m.

  Lemma level_order m : calls_same (call_helper c helpers loop_fuel (S d)) (call_helper_h (mkhost big U64) c helpers loop_fuel (S d)) hs m.
  Proof.
    intros f h y p t o Ef Ep Ei Ho. destruct (Hfind f h Ef) as (Eh & PF & TC). cbn [call_helper call_helper_h]. rewrite Eh.
    pose proof (body_order big c _ _ hs' loop_fuel [] Hgood Hsame h [o] [] TC (level_args h y p t o _ Ep PF Ei Ho) eq_refl) as R.
    exact (f_equal (fun r => let* r := r in match fst r with Some v => Ok v | None => Err EStuck end) R).
  Qed.
End Level.

Lemma leaves_order : forall f h, find (fun h => String.eqb (f_name h) f) leaves = Some h ->
  find (fun h => String.eqb (f_name h) f) helpers = Some h /\ pointer_free h = true /\ copies_cells [] h = true.
Proof.
  intros f h E. pose proof (find_some _ _ E) as [I N]. apply String.eqb_eq in N. subst f.
  cbn in I. destruct I as [<- | [<- | [<- | []]]]; vm_compute; auto.
Qed.
Lemma helpers_order : forall f h, find (fun h => String.eqb (f_name h) f) helpers = Some h ->
  find (fun h => String.eqb (f_name h) f) helpers = Some h /\ pointer_free h = true /\ copies_cells leaves h = true.
Proof.
  intros f h E. split; [exact E|]. apply find_some in E. destruct E as [I _].
  cbn in I. destruct I as [<- | [<- | [<- | [<- | []]]]]; vm_compute; auto.
Qed.

Lemma calls_order big c m :
  calls_same (call_helper c helpers loop_fuel call_depth) (call_helper_h (mkhost big U64) c helpers loop_fuel call_depth) helpers m.
Proof.
  apply (level_order big c 2 helpers leaves helpers_order).
  - intros m' _. apply (level_good c 1 leaves [] leaves_level). intros m'' _. apply none_good.
  - intros m' _. apply (level_order big c 1 leaves [] leaves_order); intros m'' _; [apply none_good|apply none_same].
Qed.

Theorem order_irrelevant big c m f args : copies_cells helpers f = true -> typed_args m f args ->
  run_host (mkhost big U64) c m f args = run c m f args.
Proof.
  intros C T. unfold run_host, run. f_equal. apply (body_order big c _ _ helpers loop_fuel (map fst m)).
  - intros m' _. apply library_calls_good.
  - intros m' _. apply calls_order.
  - exact C.
  - now apply typed_args_ok.
  - reflexivity.
Qed.
