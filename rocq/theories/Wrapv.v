(** -fwrapv: defining signed overflow never changes an outcome that was already defined. *)
From Coq Require Import ZArith String List Bool Lia.
From Verif Require Import Types FloatBits Syntax Interp ProgRecip.
Import ListNotations.
Open Scope Z_scope.

Definition with_wrapv (c : cfg) : cfg := mkcfg true (nan_of c).

(** [r'] is [r], unless [r] is an overflow or a shift that -fwrapv may define. *)
Definition wle {A} (r r' : res A) : Prop := r <> Err (EUB SignedOverflow) -> r <> Err (EUB BadShift) -> r' = r.

Lemma wle_refl {A} (r : res A) : wle r r.
Proof. intros _ _. reflexivity. Qed.

Lemma wle_bind {A B} (r r' : res A) (f f' : A -> res B) :
  wle r r' -> (forall a, wle (f a) (f' a)) -> wle (bind r f) (bind r' f').
Proof.
  intros H F. destruct r as [a|e]; cbn.
  - rewrite (H ltac:(discriminate) ltac:(discriminate)). apply F.
  - intros H1 H2. rewrite H by congruence. reflexivity.
Qed.

Section W.
  Variable c : cfg.
  Let c' := with_wrapv c.

  Lemma arith_wle t z : wle (arith c t z) (arith c' t z).
  Proof.
    unfold arith. destruct (is_signed t); [|apply wle_refl]. destruct (in_rangeb t z); [apply wle_refl|].
    cbn. destruct (wrapv c); [apply wle_refl|]. intros H. destruct (H eq_refl).
  Qed.
  Lemma shift_left_wle t x n : wle (shift_left c t x n) (shift_left c' t x n).
  Proof.
    unfold shift_left. destruct (_ && _); [|apply wle_refl]. destruct (is_signed t); [|apply wle_refl]. cbn.
    destruct (wrapv c); [apply wle_refl|]. destruct (_ && _); [apply wle_refl|]. intros _ H. destruct (H eq_refl).
  Qed.

  Ltac go := repeat (first [apply wle_refl | assumption | apply arith_wle | apply shift_left_wle | apply wle_bind; [|intros ?]
    | match goal with |- wle (if ?b then _ else _) (if ?b then _ else _) => destruct b end ]).

  Lemma binary_wle op t1 x1 t2 x2 : wle (binary c op t1 x1 t2 x2) (binary c' op t1 x1 t2 x2).
  Proof. unfold binary. destruct op; go; apply wle_refl. Qed.
  Lemma unary_wle op t x : wle (unary c op t x) (unary c' op t x).
  Proof. unfold unary. destruct op; go. Qed.
  Lemma minmax_wle mx t t1 x1 t2 x2 : wle (minmax c mx t t1 x1 t2 x2) (minmax c' mx t t1 x1 t2 x2).
  Proof. apply wle_refl. Qed.

  Section Call.
    Variables callf callf' : string -> obj -> res obj.
    Hypothesis call_le : forall f o, wle (callf f o) (callf' f o).

    Lemma eval_wle en m e : wle (eval c callf en m e) (eval c' callf' en m e).
    Proof.
      induction e; cbn [eval]; repeat (first [apply unary_wle | apply binary_wle | apply minmax_wle | apply call_le | progress go]).
    Qed.
    Lemma eval_path_wle en m p : wle (eval_path c callf en m p) (eval_path c' callf' en m p).
    Proof. induction p; cbn [eval_path]; [apply wle_refl|]. apply wle_bind; [apply eval_wle|]. intros. go. Qed.

    Lemma put_same path : forall o t z, put c' o path t z = put c o path t z.
    Proof.
      induction path as [|i path IH]; intros o t z; [reflexivity|]. cbn. destruct o; try reflexivity.
      destruct (get_idx l i); [|reflexivity]. cbn. now rewrite IH.
    Qed.
    Lemma assign_same en m x path v : assign c' en m x path v = assign c en m x path v.
    Proof.
      unfold assign. destruct (scalar v); [|reflexivity]. cbn [bind]. destruct (lookup x en) as [o|]; [|reflexivity].
      destruct o; rewrite ?put_same; reflexivity.
    Qed.

    Lemma loop_wle k (cc cc' : env -> memory -> res bool) cs cs' :
      (forall en m, wle (cc en m) (cc' en m)) -> (forall en m, wle (cs en m) (cs' en m)) ->
      forall en m, wle (loop k cc cs en m) (loop k cc' cs' en m).
    Proof.
      intros HC HS. induction k as [|k IH]; intros en m; [apply wle_refl|].
      cbn [loop]. apply wle_bind; [apply HC|]. intros b. destruct b; [|apply wle_refl].
      apply wle_bind; [apply HS|]. intros [en' m'|v m']; [apply IH|apply wle_refl].
    Qed.

    Lemma exec_wle fuel s : forall en m, wle (exec c callf fuel s en m) (exec c' callf' fuel s en m).
    Proof.
      induction s; intros en m; cbn [exec].
      - apply wle_refl.
      - apply wle_bind; [apply IHs1|]. intros [en' m'|v m']; [apply IHs2|apply wle_refl].
      - destruct init; [|apply wle_refl]. apply wle_bind; [apply eval_wle|]. intros. apply wle_refl.
      - apply wle_bind; [apply eval_path_wle|]. intros. apply wle_bind; [apply eval_wle|]. intros. rewrite assign_same. apply wle_refl.
      - apply wle_bind; [apply eval_wle|]. intros. apply wle_bind; [apply wle_refl|]. intros b.
        apply wle_bind; [destruct b; [apply IHs1|apply IHs2]|]. intros. apply wle_refl.
      - apply wle_bind; [apply eval_wle|]. intros o. apply wle_bind; [apply wle_refl|]. intros o'.
        apply wle_bind; [|intros; apply wle_refl]. apply loop_wle.
        + intros. apply wle_bind; [apply eval_wle|intros; apply wle_refl].
        + intros en1 m1. apply wle_bind; [apply IHs|]. intros r. destruct (pop_ctl _ r); [|apply wle_refl].
          apply wle_bind; [apply eval_wle|]. intros. rewrite assign_same. apply wle_refl.
      - apply wle_bind; [apply eval_wle|]. intros. apply wle_refl.
      - apply wle_refl.
      - apply wle_bind; [apply eval_wle|]. intros. apply wle_refl.
    Qed.

    Lemma bind_params_same ps : forall args, bind_params c' ps args = bind_params c ps args.
    Proof. reflexivity. Qed.

    Lemma run_body_wle fuel f args m : wle (run_body c callf fuel f args m) (run_body c' callf' fuel f args m).
    Proof.
      unfold run_body. rewrite bind_params_same. apply wle_bind; [apply wle_refl|]. intros en. apply wle_bind; [apply exec_wle|]. intros. apply wle_refl.
    Qed.
  End Call.

  Lemma call_helper_wle prog fuel d : forall f o, wle (call_helper c prog fuel d f o) (call_helper c' prog fuel d f o).
  Proof.
    induction d as [|d IH]; intros f o; [apply wle_refl|]. cbn [call_helper]. destruct (find _ prog); [|apply wle_refl].
    apply wle_bind; [|intros; apply wle_refl]. now apply run_body_wle.
  Qed.
End W.

Theorem wrapv_conservative c m f args :
  run c m f args <> Undefined SignedOverflow -> run c m f args <> Undefined BadShift ->
  run (with_wrapv c) m f args = run c m f args.
Proof.
  intros H1 H2. unfold run in *. apply (f_equal outcome_of).
  apply (run_body_wle c _ _ (call_helper_wle c helpers loop_fuel call_depth) loop_fuel f args m);
    intros E; rewrite E in *; cbn in *; congruence.
Qed.
