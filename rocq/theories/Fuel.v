(** The loop bound and the call depth of [run] are not restrictions: a call that ends
    within them has the same outcome for any larger bounds. *)
From Coq Require Import ZArith String List Bool Lia.
From Verif Require Import Types Syntax Interp ProgRecip.
Import ListNotations.
Open Scope Z_scope.

(** [r'] is [r], unless [r] ran into a bound. *)
Definition rle {A} (r r' : res A) : Prop := r <> Err ETimeout -> r <> Err EStuck -> r' = r.

Lemma rle_refl {A} (r : res A) : rle r r.
Proof. intros _ _. reflexivity. Qed.

Lemma rle_bind {A B} (r r' : res A) (f f' : A -> res B) :
  rle r r' -> (forall a, rle (f a) (f' a)) -> rle (bind r f) (bind r' f').
Proof.
  intros H F. destruct r as [a|e]; cbn.
  - rewrite (H ltac:(discriminate) ltac:(discriminate)). apply F.
  - intros H1 H2. rewrite H by congruence. reflexivity.
Qed.

Section Mono.
  Variable c : cfg.
  Variables callf callf' : string -> obj -> res obj.
  Hypothesis call_le : forall f o, rle (callf f o) (callf' f o).

  Ltac go := repeat (first [apply rle_refl | assumption | apply rle_bind; [|intros ?] | apply call_le]).

  Lemma eval_le en m e : rle (eval c callf en m e) (eval c callf' en m e).
  Proof.
    induction e; cbn [eval]; go.
    all: match goal with |- rle (if ?b then _ else _) _ => destruct b end; go.
  Qed.

  Lemma eval_path_le en m p : rle (eval_path c callf en m p) (eval_path c callf' en m p).
  Proof. induction p; cbn [eval_path]; go. apply eval_le. Qed.

  Lemma loop_le k k' (cc cc' : env -> memory -> res bool) cs cs' : (k <= k')%nat ->
    (forall en m, rle (cc en m) (cc' en m)) -> (forall en m, rle (cs en m) (cs' en m)) ->
    forall en m, rle (loop k cc cs en m) (loop k' cc' cs' en m).
  Proof.
    intros L HC HS. revert k' L. induction k as [|k IH]; intros k' L en m.
    - intros H. destruct (H eq_refl).
    - destruct k' as [|k']; [lia|]. cbn [loop]. apply rle_bind; [apply HC|]. intros b. destruct b; [|apply rle_refl].
      apply rle_bind; [apply HS|]. intros [en' m'|v m']; [apply IH; lia|apply rle_refl].
  Qed.

  Variables fuel fuel' : nat.
  Hypothesis fuel_le : (fuel <= fuel')%nat.

  Lemma exec_le s : forall en m, rle (exec c callf fuel s en m) (exec c callf' fuel' s en m).
  Proof.
    induction s; intros en m; cbn [exec].
    - apply rle_refl.
    - apply rle_bind; [apply IHs1|]. intros [en' m'|v m']; [apply IHs2|apply rle_refl].
    - destruct init; [|apply rle_refl]. apply rle_bind; [apply eval_le|]. intros. apply rle_refl.
    - apply rle_bind; [apply eval_path_le|]. intros. apply rle_bind; [apply eval_le|]. intros. apply rle_refl.
    - apply rle_bind; [apply eval_le|]. intros. apply rle_bind; [apply rle_refl|]. intros b.
      apply rle_bind; [destruct b; auto|]. intros. apply rle_refl.
    - apply rle_bind; [apply eval_le|]. intros o. apply rle_bind; [apply rle_refl|]. intros o'.
      apply rle_bind; [|intros; apply rle_refl]. apply loop_le; [exact fuel_le| |].
      + intros. apply rle_bind; [apply eval_le|intros; apply rle_refl].
      + intros en1 m1. apply rle_bind; [apply IHs|]. intros r. destruct (pop_ctl _ r); [|apply rle_refl].
        apply rle_bind; [apply eval_le|]. intros. apply rle_refl.
    - apply rle_bind; [apply eval_le|]. intros. apply rle_refl.
    - apply rle_refl.
    - apply rle_bind; [apply eval_le|]. intros. apply rle_refl.
  Qed.

  Lemma run_body_le f args m : rle (run_body c callf fuel f args m) (run_body c callf' fuel' f args m).
  Proof.
    unfold run_body. apply rle_bind; [apply rle_refl|]. intros en. apply rle_bind; [apply exec_le|]. intros. apply rle_refl.
  Qed.
End Mono.

Lemma call_helper_le c prog fuel fuel' : (fuel <= fuel')%nat -> forall d d', (d <= d')%nat ->
  forall f o, rle (call_helper c prog fuel d f o) (call_helper c prog fuel' d' f o).
Proof.
  intros Hf d. induction d as [|d IH]; intros d' L f o.
  - intros _ H. destruct (H eq_refl).
  - destruct d' as [|d']; [lia|]. cbn [call_helper]. destruct (find _ prog); [|apply rle_refl].
    apply rle_bind; [|intros; apply rle_refl]. apply run_body_le; [|exact Hf]. apply IH. lia.
Qed.

(** [run] with other bounds. *)
Definition run_within (fuel depth : nat) (c : cfg) (m : memory) (f : func) (args : list obj) : outcome :=
  outcome_of (run_body c (call_helper c helpers fuel depth) fuel f args m).

Theorem run_within_more c m f args fuel depth : (loop_fuel <= fuel)%nat -> (call_depth <= depth)%nat ->
  run c m f args <> Timeout -> run c m f args <> Stuck -> run_within fuel depth c m f args = run c m f args.
Proof.
  intros Hf Hd H1 H2. unfold run, run_within in *. f_equal.
  apply (run_body_le c (call_helper c helpers loop_fuel call_depth) (call_helper c helpers fuel depth)
           (call_helper_le c helpers loop_fuel fuel Hf call_depth depth Hd) loop_fuel fuel Hf);
    intros E; rewrite E in *; cbn in *; congruence.
Qed.
