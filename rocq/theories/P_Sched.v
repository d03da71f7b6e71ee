(** Running a given schedule. *)
From Coq Require Import ZArith String List Bool Lia.
From Verif Require Import Types Syntax Interp ProgRecip Library MetaSpec P_Meta Client Micro P_Micro.
Import ListNotations.
Open Scope Z_scope.

Fixpoint schedule (c : cfg) (l : list nat) (s : memory * list thread) : option (memory * list thread) :=
  match l with
  | [] => Some s
  | i :: l' =>
      match nth_error (snd s) i with
      | Some th =>
          match advance c (fst s) th with
          | Ok (m', th') => schedule c l' (m', firstn i (snd s) ++ th' :: skipn (S i) (snd s))
          | Err _ => None
          end
      | None => None
      end
  end.

Lemma nth_split {A} i (l : list A) x : nth_error l i = Some x -> l = firstn i l ++ x :: skipn (S i) l.
Proof. revert i. induction l as [|y l IH]; intros [|i] H; cbn in *; try discriminate; [now injection H as -> |]. f_equal. now apply IH. Qed.

Lemma schedule_from c l : forall s0 s s', fine_steps c s0 s -> schedule c l s = Some s' -> fine_steps c s0 s'.
Proof.
  induction l as [|i l IH]; intros s0 s s' F H; cbn [schedule] in H; [now injection H as <-|].
  destruct s as [m ts]. cbn [fst snd] in H. destruct (nth_error ts i) as [th|] eqn:E; [|discriminate H].
  destruct (advance c m th) as [[m' th']|] eqn:A; [|discriminate H]. refine (IH s0 _ s' (fine_more _ _ _ _ F _) H).
  rewrite (nth_split i ts th E) at 1. now constructor.
Qed.

Lemma schedule_steps c l s s' : schedule c l s = Some s' -> fine_steps c s s'.
Proof. apply schedule_from. constructor. Qed.

(** The outcome of a call and the outcome of its steps. *)
Lemma call_steps f c m args next : In f library -> well_typed m -> typed_args m f args ->
  match run c m f args with
  | Returns m' v => advances c (m, Between (Call f args next)) (m', Between (next v))
  | Undefined k => exists m' th, advances c (m, Between (Call f args next)) (m', th) /\ advance c m' th = Err (EUB k)
  | Aborts => exists m' th, advances c (m, Between (Call f args next)) (m', th) /\ advance c m' th = Err EAbort
  | Timeout | Stuck => False
  end.
Proof.
  intros I W T. pose proof (any_call f c m args I W T) as K. pose proof (adequate c f args next m) as A.
  destruct (run c m f args) as [m' v| |k| |]; trivial.
  - destruct A as (m' & th & e & A1 & A2 & A3). cbn in A3. subst. eauto.
  - destruct A as (m' & th & e & A1 & A2 & A3). cbn in A3. subst. eauto.
Qed.

(** The state of a call after entering it and [n] more steps. *)
Fixpoint inside (c : cfg) (m : memory) (f : func) (args : list obj) (next : option obj -> program) (n : nat) : option thread :=
  match n with
  | O => match advance c m (Between (Call f args next)) with Ok (_, th) => Some th | Err _ => None end
  | S n' =>
      match inside c m f args next n' with
      | Some (Inside g k en nx) => match small c k en m with Ok r => Some (Inside g (fst (fst r)) (snd (fst r)) nx) | Err _ => None end
      | _ => None
      end
  end.

Lemma inside_during c m f args next n th : inside c m f args next n = Some th -> during c f args next th.
Proof.
  intros H. assert (K : during c f args next th /\ exists k en, th = Inside f k en next); [|tauto].
  revert th H. induction n as [|n IH]; intros th H; cbn [inside] in H.
  - destruct (advance c m (Between (Call f args next))) as [[m' th']|] eqn:E; [|discriminate H]. injection H as ->.
    split; [econstructor; exact E|]. cbn in E. destruct (bind_params c (f_params f) args); [|discriminate E]. injection E as _ <-. eauto.
  - destruct (inside c m f args next n) as [t|]; [|discriminate H]. destruct (IH t eq_refl) as [D (k & en & ->)].
    destruct (small c k en m) as [[[k' en'] m']|] eqn:E; [|discriminate H]. cbn [fst snd] in H. injection H as <-.
    split; [|eauto]. apply (during_step c f args next m (Inside f k en next) m' f k' en' D).
    rewrite advance_small; [now rewrite E|exact (small_return _ _ _ _ _ E)|]. intros ->. discriminate E.
Qed.
