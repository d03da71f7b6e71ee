(** C89: the checks of closeness and of strings (tests/utest.h). *)
From Coq Require Import ZArith Reals Ascii String List Bool Lia Lra.
From Verif Require Import Types FloatBits FloatSpec Near Strings StringsSpec.
From Verif Require P_Near P_Strings.
Import ListNotations.
Open Scope Z_scope.

(** ** Numbers *)

(** The auxiliary functions compute what their names say, on all bit patterns. *)
Theorem C89_isnan : forall d, utest_isnan d = true <-> fnan F64 d.
Proof. exact P_Near.isnan_exact. Qed.
Print Assumptions C89_isnan.

Theorem C89_fabs : forall d, fval F64 (utest_fabs d) = Rabs (fval F64 d).
Proof. exact P_Near.fabs_value. Qed.
Print Assumptions C89_fabs.

(** Finite numbers: the check passes exactly if the distance, rounded to a double, is at most epsilon. *)
Theorem C89_near_exact : forall k x y e, in_range F64 x -> in_range F64 y -> in_range F64 e -> ffin F64 x -> ffin F64 y -> ffin F64 e ->
  near k x y e = true <-> (rnd F64 (Rabs (fval F64 x - fval F64 y)) <= fval F64 e)%R.
Proof. exact P_Near.near_finite. Qed.
Print Assumptions C89_near_exact.

(** So it passes whenever the distance is at most epsilon; *)
Theorem C89_near_close : forall k x y e, in_range F64 x -> in_range F64 y -> in_range F64 e -> ffin F64 x -> ffin F64 y -> ffin F64 e ->
  (Rabs (fval F64 x - fval F64 y) <= fval F64 e)%R -> near k x y e = true.
Proof. exact P_Near.near_close. Qed.
Print Assumptions C89_near_close.

(** and fails whenever the distance is at least some double that is larger than epsilon. *)
Theorem C89_near_far_partial : forall k x y e e', in_range F64 x -> in_range F64 y -> in_range F64 e -> in_range F64 e' ->
  ffin F64 x -> ffin F64 y -> ffin F64 e -> ffin F64 e' ->
  (fval F64 e < fval F64 e')%R -> (fval F64 e' <= Rabs (fval F64 x - fval F64 y))%R -> near k x y e = false.
Proof. exact P_Near.near_far. Qed.
Print Assumptions C89_near_far_partial.

(** A NaN is near nothing. *)
Theorem C89_near_nan : forall k x y e, in_range F64 x -> in_range F64 y -> in_range F64 e -> fnan F64 x \/ fnan F64 y -> near k x y e = false.
Proof. exact P_Near.near_nan. Qed.
Print Assumptions C89_near_nan.

(** But infinity is not near itself, *)
Theorem C89_infinity_refuted : forall k s e, in_range F64 e -> near k (infinity F64 s) (infinity F64 s) e = false.
Proof. exact P_Near.near_infinite. Qed.
Print Assumptions C89_infinity_refuted.

(** and if epsilon is a NaN all finite numbers are near each other. *)
Theorem C89_epsilon_refuted : forall k x y e, in_range F64 x -> in_range F64 y -> in_range F64 e -> ffin F64 x -> ffin F64 y -> fnan F64 e -> near k x y e = true.
Proof. exact P_Near.near_anything. Qed.
Print Assumptions C89_epsilon_refuted.

(** 1.0 and 1.5: epsilon 0.5, the double below it, NaN; 2^53 and -1 with epsilon 2^53, at a distance of 2^53 + 1, which is rounded. *)
Example C89_near_example :
  near 0 4607182418800017408 4609434218613702656 4602678819172646912 = true /\
  near 0 4607182418800017408 4609434218613702656 4602678819172646911 = false /\
  near 0 4607182418800017408 4609434218613702656 9221120237041090560 = true /\
  ffin F64 4607182418800017408 /\ fnan F64 9221120237041090560 /\
  near 0 4845873199050653696 13830554455654793216 4845873199050653696 = true.
Proof.
  split; [vm_compute; reflexivity|]. split; [vm_compute; reflexivity|]. split; [vm_compute; reflexivity|]. split; [vm_compute; discriminate|].
  split; [split; [reflexivity|vm_compute; discriminate]|]. vm_compute. reflexivity.
Qed.

(** ** Strings *)

(** EXPECT_STREQ and EXPECT_STRNE pass exactly for equal and for different strings, and read no character beyond their ends. *)
Theorem C89_streq : forall x y s t, holds x s -> holds y t -> (streq (Some x) (Some y) = Holds <-> s = t) /\ (strne (Some x) (Some y) = Holds <-> s <> t) /\
  streq (Some x) (Some y) <> Undefined /\ strne (Some x) (Some y) <> Undefined.
Proof. exact P_Strings.streq_spec. Qed.
Print Assumptions C89_streq.

(** EXPECT_STRNEQ and EXPECT_STRNNE: the same for the first n characters, of arrays that need not be terminated then. *)
Theorem C89_strneq : forall n x y s t, holds_upto n x s -> holds_upto n y t ->
  (strneq (Some x) (Some y) n = Holds <-> s = t) /\ (strnne (Some x) (Some y) n = Holds <-> s <> t) /\
  strneq (Some x) (Some y) n <> Undefined /\ strnne (Some x) (Some y) n <> Undefined.
Proof. exact P_Strings.strneq_spec. Qed.
Print Assumptions C89_strneq.

(** For a null pointer, which the checks look for, the message is undefined. *)
Theorem C89_null_refuted : forall same cmp x y, x = None \/ y = None -> checked same cmp x y = Undefined.
Proof. exact P_Strings.null_undefined. Qed.
Print Assumptions C89_null_refuted.

Definition abc : list ascii := list_ascii_of_string "abc" ++ [NUL].
Definition abd : list ascii := list_ascii_of_string "abd".
Example C89_strings_example :
  holds abc (list_ascii_of_string "abc") /\ streq (Some abc) (Some (abc ++ abd)) = Holds /\ strne (Some abc) (Some (abd ++ [NUL])) = Holds /\
  holds_upto 2 abd (list_ascii_of_string "ab") /\ strneq (Some abc) (Some abd) 2 = Holds /\ strneq (Some abc) (Some abd) 3 = Fails.
Proof.
  split; [split; [cbn; intuition discriminate|now exists []]|]. split; [reflexivity|]. split; [reflexivity|].
  split; [split; [cbn; intuition discriminate|right; now exists ["d"%char]]|]. split; reflexivity.
Qed.
