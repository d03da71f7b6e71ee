(** C68: the order of evaluation, which C++ leaves open, has no effect. *)
From Coq Require Import ZArith String List Bool Lia.
From Verif Require Import Types Syntax Interp ProgRecip Library Spec Tables PropBase Order P_Order.
Import ListNotations.
Open Scope Z_scope.

(** Whatever order a compiler chooses at each evaluation, a call returns the same result and the same
    memory as when evaluated from left to right, aborts exactly when that does, and has undefined
    behaviour in one order only if in every order. *)
Theorem C68_order : forall w f c m args, In f library ->
  (forall m' v, run_in_order w c m f args = Returns m' v <-> run c m f args = Returns m' v) /\
  (run_in_order w c m f args = Aborts <-> run c m f args = Aborts).
Proof. intros w f c m args _. exact (order_irrelevant w c m f args). Qed.
Print Assumptions C68_order.

Definition right_to_left := mkorder (fun _ _ _ => true) (fun _ _ _ => true).

(** The order is not without effect on arbitrary functions: [int32_t x[2]; return x[9] + x[0];] leaves
    the array in one order, and reads an indeterminate value in the other. *)
Example C68_example :
  In vmlal_u8 library /\
  run_in_order right_to_left strict [] vmlal_u8
    [vec U16 [1; 2; 3; 4; 5; 6; 7; 65535]; vec U8 [1; 2; 3; 4; 5; 6; 7; 255]; vec U8 [10; 20; 30; 40; 50; 60; 70; 255]] =
    Returns [] (Some (vec U16 [11; 42; 93; 164; 255; 366; 497; 65024])) /\
  run_in_order right_to_left strict [] vshrn_n_u16 [vec U16 (repeat 7 8); rv I32 9] =
    Aborts /\
  let g := mkfunc "g"%string (TScal I32) []
             (SSeq (SDecl (tvec I32 2) "x"%string None)
                   (SReturn (EBin BAdd (EIdx (EVar "x"%string) (ELit I32 9)) (EIdx (EVar "x"%string) (ELit I32 0))))) in
  run strict [] g [] = Undefined OutOfBounds /\
  run_in_order right_to_left strict [] g [] = Undefined Uninitialised.
Proof.
  split; [repeat (first [left; reflexivity|right])|]. repeat split; vm_compute; reflexivity.
Qed.
