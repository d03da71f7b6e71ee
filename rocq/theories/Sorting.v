(** Sorting networks and rank filters written with the library.  Nothing here is code of neon_sim.  A network is a list of
    pairs of registers; the pair (i, j) puts the lane-wise minimum of the two into register i and the maximum into j. *)
From Coq Require Import ZArith String List Bool Permutation Sorted.
From Verif Require Import Types Syntax Interp ProgRecip Library Spec Tables Client Transpose Pixels.
From Verif Require Import ProgMul.
Import ListNotations.
Open Scope Z_scope.

(** ** What is expected *)

(** [z] is the number [r] (from 0) of [l] in ascending order. *)
Definition has_rank (r : nat) (l : list Z) (z : Z) : Prop :=
  exists s, Permutation s l /\ Sorted Z.le s /\ nth_error s r = Some z.

(** The numbers in lane [q] of the vectors. *)
Definition column (q : nat) (rows : list (list Z)) : list Z := map (fun r => nth q r 0) rows.

(** ** Networks *)

Definition network : Type := list (nat * nat).

Fixpoint put {A} (i : nat) (v : A) (l : list A) : list A :=
  match i, l with
  | _, [] => []
  | O, _ :: l' => v :: l'
  | S i', x :: l' => x :: put i' v l'
  end.

(** What a network does to a list of numbers. *)
Fixpoint on_numbers (net : network) (l : list Z) : list Z :=
  match net with
  | [] => l
  | (i, j) :: net' =>
      on_numbers net' (put i (Z.min (nth i l 0) (nth j l 0)) (put j (Z.max (nth i l 0) (nth j l 0)) l))
  end.

(** The pairs are of different registers among the first [k]. *)
Definition on_registers (net : network) (k : nat) : Prop :=
  forall i j, In (i, j) net -> (i < k)%nat /\ (j < k)%nat /\ i <> j.

(** The network leaves the number of rank [r] in register [w] if all numbers are 0 or 1. *)
Definition selects_bits (net : network) (k w r : nat) : Prop :=
  forall l, length l = k -> Forall (fun z => z = 0 \/ z = 1) l -> has_rank r l (nth w (on_numbers net l) 0).

(** Insertion sort of [k] registers: sort all but the first, and let the first move down. *)
Definition shifted (net : network) : network := map (fun p => (S (fst p), S (snd p))) net.
Fixpoint insert_net (k : nat) : network :=
  match k with O => [] | S k' => (0%nat, 1%nat) :: shifted (insert_net k') end.
Fixpoint sort_net (k : nat) : network :=
  match k with O => [] | S k' => (shifted (sort_net k') ++ insert_net k')%list end.

(** The median of nine with 19 exchanges (J. L. Smith, Implementing median filters in XC4000E FPGAs, 1996). *)
Definition median9_net : network :=
  [(1, 2); (4, 5); (7, 8); (0, 1); (3, 4); (6, 7); (1, 2); (4, 5); (7, 8); (0, 3);
   (5, 8); (4, 7); (3, 6); (1, 4); (2, 5); (4, 7); (4, 2); (6, 4); (4, 2)]%nat.

(** ** Programs *)

(** The two vectors go to the smaller and the larger lanes of both. *)
Definition exchange : Type := obj -> obj -> (obj -> obj -> program) -> program.

(** lo = vmin(a, b); hi = vmax(a, b); *)
Definition min_max (vmin vmax : func) : exchange := fun a b next =>
  Call vmin [a; b] (fun lo => Call vmax [a; b] (fun hi => next (value lo) (value hi))).

(** d = vqsub(a, b); lo = vsub(a, d); hi = vadd(d, b); *)
Definition by_difference (vqsub vsub vadd : func) : exchange := fun a b next =>
  Call vqsub [a; b] (fun d => Call vsub [a; value d] (fun lo => Call vadd [value d; b] (fun hi => next (value lo) (value hi)))).

(** The exchanges a user can write for vectors of [n] lanes of type [t]: with the library's signed minimum and maximum, or
    with unsigned saturating subtraction. *)
Inductive written_for : exchange -> sty -> nat -> Prop :=
| with_min_max vmin vmax t n : In (vmin, t, n) vmin_table -> In (vmax, t, n) vmax_table -> written_for (min_max vmin vmax) t n
| with_difference vqsub vsub vadd t n : In t [U8; U16; U32] -> In (vqsub, t, n) vqsub_table -> In (vsub, t, n) vsub_table ->
    In (vadd, t, n) vadd_table -> written_for (by_difference vqsub vsub vadd) t n.

(** The network [net] on the registers [regs]. *)
Fixpoint exchanges (x : exchange) (net : network) (regs : list obj) (next : list obj -> program) : program :=
  match net with
  | [] => next regs
  | (i, j) :: net' => x (item i regs) (item j regs) (fun lo hi => exchanges x net' (put i lo (put j hi regs)) next)
  end.

(** for (j = 0; j < n * k; j += n) {
      r_0 = ld(s_0 + j); .. ; the network; st(d + j, r_w); }
    A source is an array and the place in it to start from. *)
Definition rank_program (x : exchange) (ld st : func) (t : sty) (n : nat) (srcs : list (nat * nat)) (net : network)
  (w d k : nat) : program :=
  steps_from (fun j next =>
    call_all (map (fun s => (ld, [at_ t (fst s) (snd s + j * n)])) srcs) (fun regs =>
    exchanges x net regs (fun regs =>
    Call st [at_ t d (j * n); item w regs] (fun _ => next)))) 0 k Finish.

(** The nine sources of a 3x3 window that begins at element [p] of an image with rows of [stride] elements. *)
Definition window3x3 (a stride p : nat) : list (nat * nat) :=
  map (fun o => (a, p + o)%nat)
    [0; 1; 2; stride; stride + 1; stride + 2; 2 * stride; 2 * stride + 1; 2 * stride + 2]%nat.
