(** The order of evaluation does not matter. *)
From Coq Require Import ZArith List String Bool Lia.
From Verif Require Import Types Syntax Interp ProgRecip Library Order.
Import ListNotations.
Open Scope Z_scope.

(** Results of expressions: the same value, or errors that are not abort(). *)
Definition sim {A} (r r' : res A) : Prop :=
  match r, r' with
  | Ok a, Ok b => a = b
  | Err e, Err e' => e <> EAbort /\ e' <> EAbort
  | _, _ => False
  end.
Definition calm {A} (r : res A) : Prop := r <> Err EAbort.

Lemma sim_refl {A} (r : res A) : calm r -> sim r r.
Proof. unfold calm. destruct r as [a|e]; cbn; [reflexivity|]. intros H. assert (e <> EAbort) by congruence. tauto. Qed.

Lemma sim_calm {A} (r r' : res A) : sim r r' -> calm r.
Proof. unfold calm. destruct r, r'; cbn; intros H E; try discriminate; try contradiction. destruct H. congruence. Qed.

Lemma sim_bind {A B} (r r' : res A) (k k' : A -> res B) : sim r r' -> (forall a, sim (k a) (k' a)) ->
  sim (bind r k) (bind r' k').
Proof. destruct r, r'; cbn; try contradiction; [intros ->|]; auto. Qed.

Lemma sim_both {A B C} (s : bool) (x x' : res A) (y y' : res B) (k k' : A -> B -> res C) : sim x x' -> sim y y' ->
  (forall a b, sim (k a b) (k' a b)) ->
  sim (bind x (fun a => bind y (fun b => k a b))) (bind (both s x' y') (fun p => k' (fst p) (snd p))).
Proof.
  intros Hx Hy Hk. unfold both.
  destruct x, x', y, y', s; cbn in *; try contradiction; subst; auto; tauto.
Qed.

Lemma calm_bind {A B} (r : res A) (k : A -> res B) : calm r -> (forall a, calm (k a)) -> calm (bind r k).
Proof. unfold calm. destruct r; cbn; auto. intros H _ E. apply H. congruence. Qed.

Ltac calm1 := repeat (apply calm_bind; [|intros ?]) || (unfold calm in *; repeat (match goal with |- context [match ?x with _ => _ end] => destruct x end); discriminate).

Lemma calm_scalar o : calm (scalar o).
Proof. unfold calm. destruct o as [t [z|]| |]; cbn; discriminate. Qed.
Lemma calm_int o : calm (int_value o).
Proof. apply calm_bind; [apply calm_scalar|]. intros p. unfold calm. destruct (is_float (fst p)); discriminate. Qed.
Lemma calm_cond o : calm (cond_value o).
Proof. apply calm_bind; [apply calm_scalar|]. intros p. discriminate. Qed.
Lemma calm_get {A} (l : list A) i : calm (get_idx l i).
Proof. unfold calm, get_idx. destruct (i <? 0); [discriminate|]. destruct (nth_error l (Z.to_nat i)); discriminate. Qed.
Lemma calm_read m t b i : calm (mem_read m t b i).
Proof.
  unfold mem_read. destruct (nth_error m b) as [[t' l]|]; [|discriminate]. destruct (sty_eqb t t'); [|discriminate].
  apply calm_bind; [apply calm_get|]. discriminate.
Qed.
Lemma calm_index m o i : calm (index m o i).
Proof. destruct o; cbn; [discriminate|apply calm_get|apply calm_read]. Qed.
Lemma calm_convert c a b z : calm (convert c a b z).
Proof.
  unfold calm, convert. destruct (sty_eqb a b); [discriminate|]. destruct (is_float a), (is_float b); try discriminate.
  destruct (FloatBits.sf_trunc _); [|discriminate]. destruct (in_rangeb b z0); discriminate.
Qed.
Lemma calm_arith c t z : calm (arith c t z).
Proof. unfold calm, arith. destruct (is_signed t), (in_rangeb t z), (wrapv c); discriminate. Qed.
Lemma calm_shl c t x n : calm (shift_left c t x n).
Proof.
  unfold calm, shift_left. destruct (_ && _); [|discriminate]. destruct (is_signed t), (wrapv c); try discriminate.
  destruct (_ && _); discriminate.
Qed.
Lemma calm_shr t x n : calm (shift_right t x n).
Proof. unfold calm, shift_right. destruct (_ && _); discriminate. Qed.
Lemma calm_binary c op t1 x1 t2 x2 : calm (binary c op t1 x1 t2 x2).
Proof.
  unfold binary.
  assert (A : forall t z, calm (let* z := arith c t z in Ok (rv t z))).
  { intros. apply calm_bind; [apply calm_arith|]. discriminate. }
  destruct op; try (destruct (is_float t1 || is_float t2); [discriminate|];
    apply calm_bind; [first [apply calm_shl|apply calm_shr]|discriminate]);
    (apply calm_bind; [apply calm_convert|]; intros x; apply calm_bind; [apply calm_convert|]; intros y;
     destruct (is_float (usual t1 t2)); try discriminate; try apply A;
     destruct (y =? 0); try discriminate; try apply A;
     (apply calm_bind; [apply calm_arith|discriminate])).
Qed.
Lemma calm_unary c op t x : calm (unary c op t x).
Proof.
  unfold unary. destruct op; try discriminate; destruct (is_float t); try discriminate.
  apply calm_bind; [apply calm_arith|discriminate].
Qed.
Lemma calm_minmax c mx t t1 x1 t2 x2 : calm (minmax c mx t t1 x1 t2 x2).
Proof.
  unfold minmax. destruct (is_float t); [discriminate|]. apply calm_bind; [apply calm_convert|]. intros a.
  apply calm_bind; [apply calm_convert|]. discriminate.
Qed.

(** ** Expressions *)
Section Sim.
  Variable w : order.
  Variable c : cfg.
  Variables callf callf' : string -> obj -> res obj.
  Hypothesis Hcall : forall f o, sim (callf f o) (callf' f o).

  Lemma bind_assoc {A B C} (r : res A) (k : A -> res B) (h : B -> res C) :
    bind r (fun a => bind (k a) h) = bind (bind r k) h.
  Proof. destruct r; reflexivity. Qed.

  Lemma eval_order en m e : sim (eval c callf en m e) (eval_w w c callf' en m e).
  Proof.
    assert (V : forall r r', sim r r' -> sim (bind r scalar) (bind r' scalar)).
    { intros r r' H. apply sim_bind; [exact H|]. intros o. apply sim_refl, calm_scalar. }
    induction e; cbn [eval eval_w].
    - reflexivity.
    - destruct (lookup x en); cbn; [reflexivity|]. split; discriminate.
    - set (P := bind (eval c callf en m e2) (fun oi => int_value oi)).
      replace (let* o := eval c callf en m e1 in let* oi := eval c callf en m e2 in let* k := int_value oi in index m o k)
        with (let* o := eval c callf en m e1 in let* k := P in index m o k)
        by (destruct (eval c callf en m e1); [|reflexivity]; cbn; unfold P; now rewrite <- bind_assoc).
      apply (sim_both (of_expr w en m (EIdx e1 e2)) _ _ _ _ (fun o k => index m o k) (fun o k => index m o k)); [assumption| |].
      + apply sim_bind; [assumption|]. intros o. apply sim_refl, calm_int.
      + intros. apply sim_refl, calm_index.
    - rewrite bind_assoc. apply sim_bind; [now apply V|]. intros p. apply sim_refl, calm_unary.
    - replace (let* oa := eval c callf en m e1 in let* pa := scalar oa in let* ob := eval c callf en m e2 in
               let* pb := scalar ob in binary c op (fst pa) (snd pa) (fst pb) (snd pb))
        with (let* pa := bind (eval c callf en m e1) scalar in let* pb := bind (eval c callf en m e2) scalar in
              binary c op (fst pa) (snd pa) (fst pb) (snd pb))
        by (rewrite <- bind_assoc; destruct (eval c callf en m e1) as [oa|]; [|reflexivity]; cbn; destruct (scalar oa); [|reflexivity]; cbn; now rewrite <- bind_assoc).
      apply (sim_both (of_expr w en m (EBin op e1 e2)) _ _ _ _ (fun a b => binary c op (fst a) (snd a) (fst b) (snd b)) (fun a b => binary c op (fst a) (snd a) (fst b) (snd b))); [now apply V..|].
      intros. apply sim_refl, calm_binary.
    - apply sim_bind; [assumption|]. intros o. apply sim_bind; [apply sim_refl, calm_cond|]. intros [|]; [|apply sim_refl; discriminate].
      apply sim_bind; [assumption|]. intros o'. apply sim_refl. apply calm_bind; [apply calm_cond|discriminate].
    - apply sim_bind; [assumption|]. intros o. apply sim_bind; [apply sim_refl, calm_cond|]. intros [|]; [apply sim_refl; discriminate|].
      apply sim_bind; [assumption|]. intros o'. apply sim_refl. apply calm_bind; [apply calm_cond|discriminate].
    - apply sim_bind; [assumption|]. intros o. apply sim_bind; [apply sim_refl, calm_cond|]. intros [|]; assumption.
    - rewrite bind_assoc. apply sim_bind; [now apply V|]. intros p. apply sim_refl. apply calm_bind; [apply calm_convert|discriminate].
    - replace (let* oa := eval c callf en m e1 in let* pa := scalar oa in let* ob := eval c callf en m e2 in
               let* pb := scalar ob in minmax c false t (fst pa) (snd pa) (fst pb) (snd pb))
        with (let* pa := bind (eval c callf en m e1) scalar in let* pb := bind (eval c callf en m e2) scalar in
              minmax c false t (fst pa) (snd pa) (fst pb) (snd pb))
        by (rewrite <- bind_assoc; destruct (eval c callf en m e1) as [oa|]; [|reflexivity]; cbn; destruct (scalar oa); [|reflexivity]; cbn; now rewrite <- bind_assoc).
      apply (sim_both (of_expr w en m (EMin t e1 e2)) _ _ _ _ (fun a b => minmax c false t (fst a) (snd a) (fst b) (snd b)) (fun a b => minmax c false t (fst a) (snd a) (fst b) (snd b))); [now apply V..|].
      intros. apply sim_refl, calm_minmax.
    - replace (let* oa := eval c callf en m e1 in let* pa := scalar oa in let* ob := eval c callf en m e2 in
               let* pb := scalar ob in minmax c true t (fst pa) (snd pa) (fst pb) (snd pb))
        with (let* pa := bind (eval c callf en m e1) scalar in let* pb := bind (eval c callf en m e2) scalar in
              minmax c true t (fst pa) (snd pa) (fst pb) (snd pb))
        by (rewrite <- bind_assoc; destruct (eval c callf en m e1) as [oa|]; [|reflexivity]; cbn; destruct (scalar oa); [|reflexivity]; cbn; now rewrite <- bind_assoc).
      apply (sim_both (of_expr w en m (EMax t e1 e2)) _ _ _ _ (fun a b => minmax c true t (fst a) (snd a) (fst b) (snd b)) (fun a b => minmax c true t (fst a) (snd a) (fst b) (snd b))); [now apply V..|].
      intros. apply sim_refl, calm_minmax.
    - apply sim_bind; [assumption|]. intros o. apply Hcall.
  Qed.

  Lemma path_order en m p : sim (eval_path c callf en m p) (eval_path_w w c callf' en m p).
  Proof.
    induction p as [|e p IH]; cbn [eval_path eval_path_w]; [reflexivity|].
    replace (let* o := eval c callf en m e in let* k := int_value o in let* ks := eval_path c callf en m p in Ok (k :: ks))
      with (let* k := (let* o := eval c callf en m e in int_value o) in let* ks := eval_path c callf en m p in Ok (k :: ks))
      by (symmetry; apply bind_assoc).
    apply (sim_both (of_expr w en m e) _ _ _ _ (fun k ks => Ok (k :: ks)) (fun k ks => Ok (k :: ks))); [|exact IH|reflexivity].
    apply sim_bind; [apply eval_order|]. intros o. apply sim_refl, calm_int.
  Qed.
End Sim.

(** ** Statements: abort() on one side is abort() on the other. *)
Definition simx {A} (r r' : res A) : Prop :=
  match r, r' with
  | Ok a, Ok b => a = b
  | Err e, Err e' => e = EAbort <-> e' = EAbort
  | _, _ => False
  end.

Lemma simx_refl {A} (r : res A) : simx r r.
Proof. destruct r; cbn; [reflexivity|tauto]. Qed.
Lemma sim_simx {A} (r r' : res A) : sim r r' -> simx r r'.
Proof. destruct r, r'; cbn; tauto. Qed.
Lemma simx_bind {A B} (r r' : res A) (k k' : A -> res B) : simx r r' -> (forall a, simx (k a) (k' a)) ->
  simx (bind r k) (bind r' k').
Proof. destruct r, r'; cbn; try contradiction; [intros ->|]; auto. Qed.

Lemma simx_loop n cond cond' step step' : (forall en m, simx (cond en m) (cond' en m)) ->
  (forall en m, simx (step en m) (step' en m)) -> forall en m, simx (loop n cond step en m) (loop n cond' step' en m).
Proof.
  intros Hc Hs. induction n as [|n IH]; intros en m; cbn [loop]; [apply simx_refl|].
  apply simx_bind; [apply Hc|]. intros [|]; [|apply simx_refl]. apply simx_bind; [apply Hs|].
  intros [en' m'|v m']; [apply IH|apply simx_refl].
Qed.

Section SimX.
  Variable w : order.
  Variable c : cfg.
  Variables callf callf' : string -> obj -> res obj.
  Variable fuel : nat.
  Hypothesis Hcall : forall f o, sim (callf f o) (callf' f o).

  Lemma exec_order s : forall en m, simx (exec c callf fuel s en m) (exec_w w c callf' fuel s en m).
  Proof.
    assert (E : forall en m e, simx (eval c callf en m e) (eval_w w c callf' en m e)).
    { intros. now apply sim_simx, eval_order. }
    induction s; intros en m; cbn [exec exec_w].
    - apply simx_refl.
    - apply simx_bind; [apply IHs1|]. intros [en' m'|v m']; [apply IHs2|apply simx_refl].
    - destruct init as [e|]; [|apply simx_refl]. apply simx_bind; [apply E|]. intros o. apply simx_refl.
    - set (K := fun (ks : list Z) (v : obj) => let* r := assign c en m x ks v in Ok (Normal (fst r) (snd r))).
      assert (S : forall s (x x' : res (list Z)) (y y' : res obj), sim x x' -> sim y y' ->
        simx (bind x (fun a => bind y (fun b => K a b))) (bind (both s x' y') (fun p => K (fst p) (snd p)))).
      { intros s a a' b b' Ha Hb. unfold both. destruct a, a', b, b', s; cbn in *; try contradiction; subst; try apply simx_refl; tauto. }
      apply (S (of_stmt w en m (SAssign x path e))); [now apply path_order|now apply eval_order].
    - apply simx_bind; [apply E|]. intros o. apply simx_bind; [apply simx_refl|]. intros b.
      apply simx_bind; [|intros r; apply simx_refl]. destruct b; [apply IHs1|apply IHs2].
    - apply simx_bind; [apply E|]. intros o. apply simx_bind; [apply simx_refl|]. intros o'.
      apply simx_bind; [|intros r; apply simx_refl]. apply simx_loop.
      + intros en' m'. apply simx_bind; [apply E|]. intros. apply simx_refl.
      + intros en' m'. apply simx_bind; [apply IHs|]. intros r.
        destruct (pop_ctl (List.length en') r) as [en2 m2|v m2]; [|apply simx_refl].
        apply simx_bind; [apply E|]. intros. apply simx_refl.
    - apply simx_bind; [apply E|]. intros o. apply simx_refl.
    - apply simx_refl.
    - apply simx_bind; [apply E|]. intros o. apply simx_refl.
  Qed.

  Lemma body_order f args m : simx (run_body c callf fuel f args m) (run_body_w w c callf' fuel f args m).
  Proof.
    apply simx_bind; [apply simx_refl|]. intros en. apply simx_bind; [apply exec_order|]. intros r. apply simx_refl.
  Qed.
End SimX.

(** ** No helper calls abort() *)
Fixpoint no_abort (s : stmt) : bool :=
  match s with
  | SSeq a b | SIf _ a b => no_abort a && no_abort b
  | SFor _ _ _ _ _ b => no_abort b
  | SAbort => false
  | _ => true
  end.

Section Calm.
  Variable c : cfg.
  Variable callf : string -> obj -> res obj.
  Variable fuel : nat.
  Hypothesis Hcall : forall f o, calm (callf f o).

  Lemma eval_calm en m e : calm (eval c callf en m e).
  Proof.
    eapply sim_calm. apply (eval_order (mkorder (fun _ _ _ => false) (fun _ _ _ => false)) c callf callf).
    intros. now apply sim_refl.
  Qed.
  Lemma path_calm en m p : calm (eval_path c callf en m p).
  Proof.
    eapply sim_calm. apply (path_order (mkorder (fun _ _ _ => false) (fun _ _ _ => false)) c callf callf).
    intros. now apply sim_refl.
  Qed.
  Lemma put_calm o path t z : calm (put c o path t z).
  Proof.
    revert o. induction path as [|i p IH]; intros o; cbn.
    - destruct o; try discriminate. apply calm_bind; [apply calm_convert|discriminate].
    - destruct o; try discriminate. apply calm_bind; [apply calm_get|]. intros x. apply calm_bind; [apply IH|discriminate].
  Qed.
  Lemma write_calm m t b i z : calm (mem_write m t b i z).
  Proof.
    unfold mem_write. destruct (nth_error m b) as [[t' l]|]; [|discriminate]. destruct (sty_eqb t t'); [|discriminate].
    apply calm_bind; [apply calm_get|discriminate].
  Qed.
  Lemma assign_calm en m x p v : calm (assign c en m x p v).
  Proof.
    apply calm_bind; [apply calm_scalar|]. intros q. destruct (lookup x en) as [[t o|l|t b off]|]; try discriminate.
    - apply calm_bind; [apply put_calm|discriminate].
    - apply calm_bind; [apply put_calm|discriminate].
    - destruct p as [|i [|]]; try discriminate. apply calm_bind; [apply calm_convert|]. intros z'.
      apply calm_bind; [apply write_calm|discriminate].
  Qed.
  Lemma init_calm t o : calm (init_obj c t o).
  Proof.
    destruct t; cbn; try discriminate. apply calm_bind; [apply calm_scalar|]. intros p.
    apply calm_bind; [apply calm_convert|discriminate].
  Qed.
  Lemma loop_calm n cond step : (forall en m, calm (cond en m)) -> (forall en m, calm (step en m)) ->
    forall en m, calm (loop n cond step en m).
  Proof.
    intros Hc Hs. induction n as [|n IH]; intros en m; cbn [loop]; [discriminate|].
    apply calm_bind; [apply Hc|]. intros [|]; [|discriminate]. apply calm_bind; [apply Hs|].
    intros [en' m'|v m']; [apply IH|discriminate].
  Qed.
  Lemma exec_calm s : no_abort s = true -> forall en m, calm (exec c callf fuel s en m).
  Proof.
    induction s; cbn [no_abort]; intros H en m; cbn [exec]; try (apply andb_true_iff in H; destruct H as [H1 H2]).
    - discriminate.
    - apply calm_bind; [now apply IHs1|]. intros [|]; [now apply IHs2|discriminate].
    - destruct init; [|discriminate]. apply calm_bind; [apply eval_calm|]. intros o. apply calm_bind; [apply init_calm|discriminate].
    - apply calm_bind; [apply path_calm|]. intros ks. apply calm_bind; [apply eval_calm|]. intros v.
      apply calm_bind; [apply assign_calm|discriminate].
    - apply calm_bind; [apply eval_calm|]. intros o. apply calm_bind; [apply calm_cond|]. intros b.
      apply calm_bind; [|discriminate]. destruct b; auto.
    - apply calm_bind; [apply eval_calm|]. intros o. apply calm_bind; [apply init_calm|]. intros o'.
      apply calm_bind; [|discriminate]. apply loop_calm.
      + intros. apply calm_bind; [apply eval_calm|]. intros. apply calm_cond.
      + intros en' m'. apply calm_bind; [now apply IHs|]. intros r. destruct (pop_ctl _ r); [|discriminate].
        apply calm_bind; [apply eval_calm|]. intros v. apply calm_bind; [apply assign_calm|discriminate].
    - apply calm_bind; [apply eval_calm|]. intros o. apply calm_bind; [apply calm_int|]. intros k.
      destruct (lookup dst en), (lookup src en); try discriminate. apply calm_bind; [|discriminate].
      unfold calm, memcpy_obj. destruct (_ && _); discriminate.
    - discriminate.
    - apply calm_bind; [apply eval_calm|discriminate].
  Qed.
  Lemma params_calm ps args : calm (bind_params c ps args).
  Proof.
    revert args. induction ps as [|[x t] ps IH]; intros [|a args]; cbn; try discriminate.
    apply calm_bind; [apply init_calm|]. intros o. apply calm_bind; [apply IH|discriminate].
  Qed.
  Lemma body_calm f args m : no_abort (f_body f) = true -> calm (run_body c callf fuel f args m).
  Proof.
    intros H. apply calm_bind; [apply params_calm|]. intros en. apply calm_bind; [now apply exec_calm|].
    intros r. destruct r, (f_ret f); try discriminate; apply calm_bind; first [apply init_calm|discriminate].
  Qed.
End Calm.

Lemma helpers_no_abort : forallb (fun f => no_abort (f_body f)) helpers = true.
Proof. vm_compute. reflexivity. Qed.

Lemma helper_calm c fuel d : forall name a, calm (call_helper c helpers fuel d name a).
Proof.
  induction d as [|d IH]; intros name a; cbn [call_helper]; [discriminate|].
  destruct (find (fun f => String.eqb (f_name f) name) helpers) as [f|] eqn:F; [|discriminate].
  apply find_some in F. destruct F as [I _]. pose proof (proj1 (forallb_forall _ _) helpers_no_abort f I) as N.
  apply calm_bind; [now apply body_calm|]. intros r. destruct (fst r); discriminate.
Qed.

Lemma simx_sim {A} (r r' : res A) : simx r r' -> calm r -> sim r r'.
Proof. unfold calm. destruct r, r'; cbn; try tauto. intros H N. assert (e <> EAbort) by congruence. tauto. Qed.

Lemma helper_order w c fuel d : forall name a,
  sim (call_helper c helpers fuel d name a) (call_helper_w w c helpers fuel d name a).
Proof.
  induction d as [|d IH]; intros name a; [split; discriminate|].
  apply simx_sim; [|apply helper_calm]. cbn [call_helper call_helper_w].
  destruct (find (fun f => String.eqb (f_name f) name) helpers); [|split; discriminate].
  apply simx_bind; [now apply body_order|]. intros r. apply simx_refl.
Qed.

Theorem any_order w c m f args :
  simx (run_body c (call_helper c helpers loop_fuel call_depth) loop_fuel f args m)
       (run_body_w w c (call_helper_w w c helpers loop_fuel call_depth) loop_fuel f args m).
Proof. apply body_order. intros. apply helper_order. Qed.

Theorem order_irrelevant w c m f args :
  (forall m' v, run_in_order w c m f args = Returns m' v <-> run c m f args = Returns m' v) /\
  (run_in_order w c m f args = Aborts <-> run c m f args = Aborts).
Proof.
  pose proof (any_order w c m f args) as H. unfold run_in_order, run.
  destruct (run_body c _ loop_fuel f args m) as [p|e], (run_body_w w c _ loop_fuel f args m) as [p'|e']; cbn in H; try contradiction.
  - subst p'. split; [intros|]; reflexivity.
  - split; [intros m' v; split; intros K; exfalso; unfold outcome_of in K; [destruct e'|destruct e]; discriminate|].
    assert (A : forall x, outcome_of (Err x) = Aborts <-> x = EAbort) by (intros []; cbn; split; congruence).
    rewrite !A. tauto.
Qed.
