(** The text of the two source files, parsed by Frontend.v, is Header.v and the
    trees of Prog*.v and ProgRecip.v: nothing more, nothing less. *)
From Coq Require Import ZArith String List Bool Lia.
From Verif Require Import Types Syntax Interp Library Header Frontend SourceH SourceCpp.
Import ListNotations.
Open Scope string_scope.

(** [library] has RecipEstimate and FPRecipEstimate first; in the file they come,
    with the two functions of struct float_parts, after vcvtnq_s32_f32. *)
Definition before_recip : list func := firstn 398 (skipn 2 library).
Definition after_recip : list func := skipn 398 (skipn 2 library).

Lemma source_parsed :
  front_end neon_sim_h neon_sim_cpp =
  Some (mkfile header [], mkfile [] (before_recip ++ helpers ++ after_recip)).
Proof. vm_compute. reflexivity. Qed.

Lemma library_split : library = (RecipEstimate :: FPRecipEstimate :: before_recip ++ after_recip)%list.
Proof.
  unfold before_recip, after_recip. rewrite firstn_skipn. reflexivity.
Qed.

Lemma some_pair : forall A B (o : option (A * B)) a b c d,
  o = Some (a, b) -> o = Some (c, d) -> c = a /\ d = b.
Proof. intros A B o a b c d -> H. injection H as -> ->. split; reflexivity. Qed.

Lemma source_functions : forall h d,
  front_end neon_sim_h neon_sim_cpp = Some (h, d) ->
  forall f, In f (defs d) <->
    In f library \/ f = float_parts_ctor \/ f = float_parts_to_float.
Proof.
  intros h d H f. destruct (some_pair _ _ _ _ _ _ _ source_parsed H) as [_ ->]. clear H.
  rewrite library_split. unfold helpers.
  generalize before_recip after_recip float_parts_ctor float_parts_to_float RecipEstimate FPRecipEstimate.
  intros x y a b c e. cbn [defs In]. rewrite !in_app_iff. cbn [In].
  intuition (subst; auto).
Qed.

Lemma source_declarations : forall h d,
  front_end neon_sim_h neon_sim_cpp = Some (h, d) ->
  decls h = header /\ defs h = [] /\ decls d = [].
Proof.
  intros h d H. destruct (some_pair _ _ _ _ _ _ _ source_parsed H) as [-> ->]. repeat split.
Qed.
