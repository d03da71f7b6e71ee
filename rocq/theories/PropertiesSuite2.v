(** C79, continued: what a check of the test program says, and what a passing test program says about the library. *)
From Coq Require Import ZArith String Ascii List Bool Lia Permutation Reals.
From Verif Require Import Types FloatSpec Syntax Interp ProgRecip TestSpec Library Spec PropBase Suite Runner RunnerSpec SuiteSpec.
From Verif Require Import P_Suite2.
From Verif Require P_Suite Frontend.
Import ListNotations.
Open Scope Z_scope.

(** EXPECT_TRUE(almostEqual(x, y)) tells the runner that the check holds exactly if the vectors are equal. *)
Theorem C79_check_vectors : forall c lib st x y t n a b, In (t, n) [(U8, 8%nat); (I8, 8%nat); (U16, 8%nat); (I16, 8%nat); (I8, 16%nat); (I16, 4%nat)] ->
  lanes t n a -> lanes t n b ->
  Frontend.assoc x (known st) = Some (VObj (tvec t n) (vec t a)) -> Frontend.assoc y (known st) = Some (VObj (tvec t n) (vec t b)) ->
  exec c lib (TAlmost (XVar x) (XVar y)) st = Done (mkstate (known st) (memo st) (Expect (if list_eq_dec Z.eq_dec a b then true else false) :: told st)).
Proof. exact exec_ints. Qed.
Print Assumptions C79_check_vectors.

Theorem C79_check_pairs : forall c lib st x y vs ws, tuple U8 2 8 vs -> tuple U8 2 8 ws ->
  Frontend.assoc x (known st) = Some (VObj (tvecs 2 U8 8) (vecs U8 vs)) -> Frontend.assoc y (known st) = Some (VObj (tvecs 2 U8 8) (vecs U8 ws)) ->
  exec c lib (TAlmost (XVar x) (XVar y)) st =
    Done (mkstate (known st) (memo st) (Expect (if list_eq_dec (list_eq_dec Z.eq_dec) vs ws then true else false) :: told st)).
Proof. exact exec_pairs. Qed.
Print Assumptions C79_check_pairs.

(** For floats: exactly if they denote the same numbers, provided that the message can be printed (C70). *)
Theorem C79_check_floats_partial : forall c lib st x y a b, lanes F32 4 a -> lanes F32 4 b ->
  Frontend.assoc x (known st) = Some (VObj (tvec F32 4) (vec F32 a)) -> Frontend.assoc y (known st) = Some (VObj (tvec F32 4) (vec F32 b)) ->
  Forall int_castable a -> Forall int_castable b ->
  exists r, exec c lib (TAlmost (XVar x) (XVar y)) st = Done (mkstate (known st) (memo st) (Expect r :: told st)) /\
    (r = true <-> Forall2 (fun u v => fval F32 u = fval F32 v) a b).
Proof. exact exec_floats. Qed.
Print Assumptions C79_check_floats_partial.

(** EXPECT_EQ(x, y). *)
Theorem C79_check_integers : forall c lib st x y t z z', is_float t = false -> in_range t z -> in_range t z' ->
  Frontend.assoc x (known st) = Some (VObj (TScal t) (rv t z)) -> Frontend.assoc y (known st) = Some (VObj (TScal t) (rv t z')) ->
  exec c lib (TEqual (XVar x) (XVar y)) st = Done (mkstate (known st) (memo st) (Expect (z =? z') :: told st)).
Proof. exact exec_equal_ints. Qed.
Print Assumptions C79_check_integers.

Theorem C79_check_numbers : forall c lib st x y z z', in_range F32 z -> in_range F32 z' -> ffin F32 z -> ffin F32 z' ->
  Frontend.assoc x (known st) = Some (VObj (TScal F32) (rv F32 z)) -> Frontend.assoc y (known st) = Some (VObj (TScal F32) (rv F32 z')) ->
  exists b, exec c lib (TEqual (XVar x) (XVar y)) st = Done (mkstate (known st) (memo st) (Expect b :: told st)) /\
    (b = true <-> fval F32 z = fval F32 z').
Proof. exact exec_equal_floats. Qed.
Print Assumptions C79_check_numbers.

(** The test program linked with any library whatsoever (for which its tests are defined): it is killed if a selected test aborts, and otherwise ends with
    status 0 exactly if every check of every selected test holds. *)
Theorem C79_verdict : forall c lib ts clock args o, linked c lib ts ->
  parse clock (mkoptions None false None) args = Options o -> c_filter (opt_filter o) ->
  Forall (fun t => opt_mixed o = false \/ duration t < 10 ^ 13) ts ->
  ((exists t, In t ts /\ is_selected (opt_filter o) t = true /\ In Die (body t)) -> utest_main clock args ts = Killed) /\
  (~ (exists t, In t ts /\ is_selected (opt_filter o) t = true /\ In Die (body t)) ->
   exists out st, utest_main clock args ts = Exit out st /\
     (st = 0 <-> forall t, In t ts -> is_selected (opt_filter o) t = true -> Forall (fun e => e = Expect true) (body t))).
Proof. exact program_verdict. Qed.
Print Assumptions C79_verdict.

(** So if it ends with status 0, each of these functions of the library, whatever its body, gives what the tests expect of it. *)
Theorem C79_means : forall c lib ts clock args o out f a t n e g r, linked c lib ts ->
  parse clock (mkoptions None false None) args = Options o -> opt_filter o = None ->
  Forall (fun t => opt_mixed o = false \/ duration t < 10 ^ 13) ts ->
  utest_main clock args ts = Exit out 0 ->
  In (f, a, t, n, e) answers -> lib f = Some g ->
  (exists h, named library f = Some h /\ f_ret g = f_ret h /\ f_params g = f_params h) ->
  run c [] g a = Returns [] (Some (vec t r)) -> lanes t n r -> r = e.
Proof. exact passing_means. Qed.
Print Assumptions C79_means.

(** Subtraction in the place of vadd_s8: a test program of which three checks fail in two tests, and the answer given is not the one expected. *)
Example C79_means_example :
  match named library "vsub_s8" with
  | Some g =>
      let lib := named (with_body "vadd_s8" (f_body g)) in
      let ts := P_Suite.program_of strict lib 1000 suite in
      linked strict lib ts /\
      match utest_main 0 [] ts with Exit _ st => st = 2 | _ => False end /\
      match lib "vadd_s8"%string with
      | Some g' => run strict [] g' [vec I8 [120; 121; 122; 123; 124; 125; 126; 127]; vec I8 [100; 100; 100; 100; 100; 100; 100; 100]] =
                   Returns [] (Some (vec I8 [20; 21; 22; 23; 24; 25; 26; 27]))
      | None => False
      end
  | None => False
  end.
Proof.
  destruct (named library "vsub_s8") as [g|] eqn:E; [|vm_compute in E; discriminate]. vm_compute in E. injection E as <-. cbv zeta.
  split; [|split; vm_compute; reflexivity]. unfold linked.
  match goal with |- Permutation ?a ?b => assert (H : a = b) by (vm_compute; reflexivity); rewrite H; apply Permutation_refl end.
Qed.
