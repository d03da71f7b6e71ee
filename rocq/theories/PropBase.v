(** What the examples of the Properties files share. *)
From Coq Require Import ZArith String List Bool Lia.
From Verif Require Import Types Syntax Interp ProgRecip Spec Tables.
Import ListNotations.
Open Scope Z_scope.

(** C++11 as it is (overflow undefined), and with -fwrapv; one NaN policy. *)
Definition strict : cfg := mkcfg false (fun _ _ _ _ => 0).
Definition wrapping : cfg := mkcfg true (fun _ _ _ _ => 0).

(** Discharge [lanes], [tuple], [In], and range side conditions on literals. *)
Ltac in_lit := cbn; repeat (first [left; reflexivity | right]); fail.
Ltac lanes_lit := split; [reflexivity | repeat constructor; unfold in_range; cbn; lia].
Ltac tuple_lit := split; [reflexivity | repeat (constructor; [lanes_lit|]); constructor].
Ltac lit_hyp := first [lanes_lit | tuple_lit | reflexivity | (unfold in_range; cbn; lia) | (cbn; tauto)].
Ltac lits := repeat match goal with |- _ /\ _ => split end; try lit_hyp; try (vm_compute; reflexivity).
