(** What a diagnostic says. *)
From Coq Require Import ZArith String DecimalString.
Local Open Scope string_scope.

(** 5 is "5", -12 is "-12" *)
Definition decimal (z : Z) : string := NilZero.string_of_int (Z.to_int z).

Definition mentions (text part : string) : Prop := exists before after, text = before ++ part ++ after.

(** The text gives the range of integers lo to hi. *)
Definition states_range (text : string) (lo hi : Z) : Prop :=
  mentions text ("[" ++ decimal lo ++ ", " ++ decimal hi ++ "]").

Definition ends_line (text : string) : Prop := exists before, text = before ++ String (Ascii.ascii_of_nat 10) "".
