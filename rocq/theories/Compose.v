(** The vocabulary of the identities between intrinsics (C24, C62, C63).  Nothing here is code of neon_sim. *)
From Coq Require Import ZArith List Bool.
From Verif Require Import Types Syntax Interp ProgRecip.
Open Scope Z_scope.

(** A call, and another one with what the first returned: the outcome of [k (f (...))]. *)
Definition and_then (o : outcome) (k : obj -> outcome) : outcome :=
  match o with Returns _ (Some v) => k v | _ => o end.

(** Two unsigned numbers of [width t] bits have the same top bit. *)
Definition same_half (t : sty) (x y : Z) : bool := Bool.eqb (x <? 2 ^ (width t - 1)) (y <? 2 ^ (width t - 1)).
