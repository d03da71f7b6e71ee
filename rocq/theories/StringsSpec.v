(** Strings.  Nothing here is code of neon_sim. *)
From Coq Require Import ZArith Ascii List Bool.
From Verif Require Import Strings.
Import ListNotations.
Local Open Scope nat_scope.

(** The array [l] holds the string [s]: its characters, none of which is NUL, then NUL, then anything. *)
Definition NUL : ascii := "000"%char.
Definition holds (l s : list ascii) : Prop := ~ In NUL s /\ exists rest, l = s ++ NUL :: rest.
(** The string that begins with the first [n] characters of the array: a terminated string, or [n] characters. *)
Definition holds_upto (n : nat) (l s : list ascii) : Prop :=
  ~ In NUL s /\ ((exists rest, l = s ++ NUL :: rest /\ List.length s < n) \/ (exists rest, l = s ++ rest /\ List.length s = n)).
