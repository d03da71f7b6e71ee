(** Programs that go through an array one vector at a time when the source and the destination may be the same array,
    may overlap, and need not have a length that is a multiple of the length of a vector.  Nothing here is code of neon_sim. *)
From Coq Require Import ZArith Arith String List Bool.
From Verif Require Import Types Syntax Interp ProgRecip Library Spec Tables Client Transpose Pixels.
Import ListNotations.
Open Scope Z_scope.

(** What is done with each vector: nothing, r = op(x), or r = op(x, w) for a vector w whose lanes are all equal. *)
Inductive kernel := Copy | Apply (op : func) | ApplyWith (op : func) (w : obj).

(** for (j : js) vst1(d + dst + j, kernel(vld1(a + src + j)));   [js] lists the offsets in the order they are processed *)
Fixpoint move_blocks (ld st : func) (t u : sty) (K : kernel) (a src d dst : nat) (js : list nat) : program :=
  match js with
  | [] => Finish
  | j :: js' =>
      let put r := Call st [at_ u d (dst + j); r] (fun _ => move_blocks ld st t u K a src d dst js') in
      Call ld [at_ t a (src + j)] (fun x =>
        match K with
        | Copy => put (value x)
        | Apply op => Call op [value x] (fun r => put (value r))
        | ApplyWith op w => Call op [value x; w] (fun r => put (value r))
        end)
  end.

(** What a kernel does with an element, for the functions of the library that C57 says work lane by lane. *)
Inductive acts (c : cfg) : kernel -> sty -> sty -> nat -> (Z -> Z) -> Prop :=
| acts_copy t n : acts c Copy t t n (fun x => x)
| acts_apply op t u n g : pointwise1 c op t u n g -> acts c (Apply op) t u n g
| acts_with op t u n g w : pointwise2 c op t u n g -> in_range t w -> acts c (ApplyWith op (vec t (repeat w n))) t u n (fun x => g x w).

(** ** Orders *)

(** for (j = 0; j < k * n; j += n) *)
Definition forward (n k : nat) : list nat := map (fun i => (i * n)%nat) (seq 0 k).
(** for (j = k * n; j > 0; ) j -= n; *)
Definition backward (n k : nat) : list nat := map (fun i => ((k - 1 - i) * n)%nat) (seq 0 k).
(** for (j = 0; j + n <= len; j += n), and then once more with j = len - n *)
Definition with_tail (n len : nat) : list nat := forward n (len / n) ++ [(len - n)%nat].

(** ** What is wanted *)

(** [len] cells of [cd] from [dst] on are replaced by the results for the [len] elements of [xs] from [src] on. *)
Definition moved (g : Z -> Z) (src dst len : nat) (xs : list Z) (cd : list (option Z)) : list (option Z) :=
  firstn dst cd ++ map Some (map g (firstn len (skipn src xs))) ++ skipn (dst + len) cd.

(** No block is read after any of its elements has been overwritten. *)
Definition no_hazard (n src dst : nat) (js : list nat) : Prop :=
  forall pre j post j', js = pre ++ j :: post -> In j' pre -> (src + j + n <= dst + j' \/ dst + j' + n <= src + j)%nat.
(** The blocks are the elements before [len], and each of these is in some block. *)
Definition covers (n len : nat) (js : list nat) : Prop :=
  forall i, (i < len)%nat <-> exists j, In j js /\ (j <= i < j + n)%nat.

(** Working in place with an extra last block does the elements of that block that were done before a second time. *)
Definition done_twice (g : Z -> Z) (n src len : nat) (xs : list Z) : list Z :=
  build (List.length xs) (fun i =>
    let x := nth i xs 0 in
    if ((i <? src) || (src + len <=? i))%nat then x
    else if ((src + (len - n) <=? i) && (i <? src + len / n * n))%nat then g (g x)
    else g x).
