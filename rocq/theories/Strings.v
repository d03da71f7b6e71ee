(** EXPECT_STREQ, EXPECT_STRNE, EXPECT_STRNEQ, EXPECT_STRNNE of tests/utest.h, and the ASSERT_ variants, which have the same conditions. *)
From Coq Require Import ZArith Ascii List Bool.
Import ListNotations.
Open Scope Z_scope.

(** A pointer to characters: null, or to an array whose elements are given up to its end. *)
Definition pointer := option (list ascii).
(** p[i]; [None]: outside the array. *)
Definition char_at (l : list ascii) (i : nat) : option ascii := nth_error l i.
Definition code (a : ascii) : Z := Z.of_nat (nat_of_ascii a).

(** strcmp and strncmp of the C library: the sign of the first difference of the characters as unsigned char, up to a NUL (and to n characters).
    [fuel]: more than the length of the arrays.  [None]: a character outside an array is read. *)
Fixpoint compare_from (fuel : nat) (limit : option nat) (x y : list ascii) (i : nat) : option Z :=
  match fuel with
  | O => None
  | S fuel =>
      if match limit with Some n => Nat.leb n i | None => false end then Some 0
      else match char_at x i, char_at y i with
           | Some a, Some b =>
               if code a =? code b then (if code a =? 0 then Some 0 else compare_from fuel limit x y (S i)) else Some (code a - code b)
           | _, _ => None
           end
  end.
Definition fuel_for (x y : list ascii) : nat := S (List.length x + List.length y).
Definition strcmp (x y : list ascii) : option Z := compare_from (fuel_for x y) None x y 0.
Definition strncmp (x y : list ascii) (n : nat) : option Z := compare_from (fuel_for x y) (Some n) x y 0.

(** What a check does. [Undefined]: a null pointer is printed with %s (utest.h:644, 645 and the like), or memory outside an array is read. *)
Inductive check := Holds | Fails | Undefined.

(** if (NULL == x || NULL == y || 0 != cmp(x, y)) { print x and y; fail } (utest.h:640-686, 822-870); [same]: != or ==. *)
Definition checked (same : bool) (cmp : list ascii -> list ascii -> option Z) (x y : pointer) : check :=
  match x, y with
  | Some a, Some b =>
      match cmp a b with
      | Some z => if (if same then negb (z =? 0) else z =? 0) then Fails else Holds
      | None => Undefined
      end
  | _, _ => Undefined
  end.
Definition streq := checked true strcmp.
Definition strne := checked false strcmp.
Definition strneq (x y : pointer) (n : nat) := checked true (fun a b => strncmp a b n) x y.
Definition strnne (x y : pointer) (n : nat) := checked false (fun a b => strncmp a b n) x y.
