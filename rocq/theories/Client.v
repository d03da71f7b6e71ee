(** Programs that use the library.  Nothing here is code of neon_sim: it is the vocabulary in
    which the properties of whole programs and histories of calls are stated. *)
From Coq Require Import ZArith String List Bool.
From Verif Require Import Types Syntax Interp ProgRecip Library Spec Tables MetaSpec.
Import ListNotations.
Open Scope Z_scope.

(** ** Histories *)

Definition call : Type := func * list obj.

(** [history c ok m h m']: starting in memory [m], the calls [h] were made one after the other, each
    of them allowed by [ok] in the memory it was made in, each of them returned, and the memory is now [m']. *)
Inductive history (c : cfg) (ok : memory -> func -> list obj -> Prop) : memory -> list call -> memory -> Prop :=
| history_nil m : history c ok m [] m
| history_cons m f args m1 v h m' :
    In f library -> ok m f args -> run c m f args = Returns m1 v ->
    history c ok m1 h m' -> history c ok m ((f, args) :: h) m'.

(** Element [i] of block [b] is one of those the documentation of [f] says a call with these arguments accesses. *)
Definition in_footprint (f : func) (args : list obj) (b : nat) (i : Z) : Prop :=
  exists s off, In (OPtr s b off) args /\ off <= i < off + extent f.

(** None of the stores in [h] has element [i] of block [b] in its footprint. *)
Definition not_stored (h : list call) (b : nat) (i : Z) : Prop :=
  forall f args, In (f, args) h -> is_store f = true -> ~ in_footprint f args b i.

(** A call as documented, of any function but vst4_u8, which writes outside of its footprint (C55). *)
Definition well_behaved (m : memory) (f : func) (args : list obj) : Prop := f_name f <> "vst4_u8"%string /\ valid_args m f args.

(** ** Programs *)

(** A program that uses the library: it ends, or it calls a function and goes on in a way that may
    depend on what the call returned. *)
Inductive program : Type :=
| Finish
| Call (f : func) (args : list obj) (next : option obj -> program).

Fixpoint execute (c : cfg) (m : memory) (p : program) : outcome :=
  match p with
  | Finish => Returns m None
  | Call f args next =>
      match run c m f args with
      | Returns m1 v => execute c m1 (next v)
      | o => o
      end
  end.

(** Every call the program comes to make is a documented one, and none of the functions in [bad] is called. *)
Fixpoint careful (c : cfg) (bad : list string) (m : memory) (p : program) : Prop :=
  match p with
  | Finish => True
  | Call f args next =>
      In f library /\ ~ In (f_name f) bad /\ valid_args m f args /\
      forall m1 v, run c m f args = Returns m1 v -> careful c bad m1 (next v)
  end.

(** ** Loops over arrays *)

(** Memory with block [b] replaced. *)
Definition set_block (b : nat) (blk : block) (m : memory) : memory := firstn b m ++ blk :: skipn (S b) m.

(** Block [b] is an array of elements of type [t] whose contents are [xs]. *)
Definition array_at (m : memory) (b : nat) (t : sty) (xs : list Z) : Prop :=
  nth_error m b = Some (t, map Some xs) /\ Forall (in_range t) xs.

Definition value (v : option obj) : obj := match v with Some o => o | None => OArr [] end.

(** for (; k > 0; j += n, k--) st(d + j, op(ld(a + j))); *)
Fixpoint map_loop (ld op st : func) (t u : sty) (n a d j k : nat) : program :=
  match k with
  | O => Finish
  | S k' =>
      Call ld [OPtr t a (Z.of_nat j)] (fun x =>
      Call op [value x] (fun r =>
      Call st [OPtr u d (Z.of_nat j); value r] (fun _ =>
      map_loop ld op st t u n a d (j + n) k')))
  end.

(** for (; k > 0; j += n, k--) st(d + j, op(ld(a + j), ld(b + j))); *)
Fixpoint zip_loop (ld op st : func) (t u : sty) (n a b d j k : nat) : program :=
  match k with
  | O => Finish
  | S k' =>
      Call ld [OPtr t a (Z.of_nat j)] (fun x =>
      Call ld [OPtr t b (Z.of_nat j)] (fun y =>
      Call op [value x; value y] (fun r =>
      Call st [OPtr u d (Z.of_nat j); value r] (fun _ =>
      zip_loop ld op st t u n a b d (j + n) k'))))
  end.

(** for (; k > 0; j += n, k--) acc = op(acc, ld(a + j));  and then [next acc] *)
Fixpoint fold_loop (ld op : func) (t : sty) (n a j k : nat) (acc : obj) (next : obj -> program) : program :=
  match k with
  | O => next acc
  | S k' =>
      Call ld [OPtr t a (Z.of_nat j)] (fun x =>
      Call op [acc; value x] (fun r =>
      fold_loop ld op t n a (j + n) k' (value r) next))
  end.

(** The vectors of the tuple [o] in the order [p]. *)
Definition reorder (p : list nat) (o : obj) : obj :=
  match o with OArr l => OArr (map (fun i => nth i l (OArr [])) p) | _ => o end.

(** for (; k > 0; j += w, k--) { x = ld(a + j); permute the vectors of x; st(d + j, x); } *)
Fixpoint reorder_loop (ld st : func) (t : sty) (w a d : nat) (p : list nat) (j k : nat) : program :=
  match k with
  | O => Finish
  | S k' =>
      Call ld [OPtr t a (Z.of_nat j)] (fun x =>
      Call st [OPtr t d (Z.of_nat j); reorder p (value x)] (fun _ =>
      reorder_loop ld st t w a d p (j + w) k'))
  end.

(** The array [zs] of groups of [w] elements, each group in the order [p]. *)
Definition reordered (w : nat) (p : list nat) (zs : list Z) : list Z :=
  flat_map (fun i => map (fun j => nth (w * i + j) zs 0) p) (seq 0 (List.length zs / w)).

(** What an element-wise function of one or two vectors computes. *)
Definition computes1 (c : cfg) (op : func) (t u : sty) (n : nat) (g : Z -> Z) : Prop :=
  forall m x, lanes t n x -> lanes u n (map g x) /\ run c m op [vec t x] = Returns m (Some (vec u (map g x))).
Definition computes2 (c : cfg) (op : func) (t u : sty) (n : nat) (g : Z -> Z -> Z) : Prop :=
  forall m x y, lanes t n x -> lanes t n y ->
    lanes u n (map2 g x y) /\ run c m op [vec t x; vec t y] = Returns m (Some (vec u (map2 g x y))).

(** Lane [l] of the accumulator after going through [xs], [n] elements at a time. *)
Definition column (n l : nat) (xs : list Z) : list Z :=
  map (fun j => nth (n * j + l) xs 0) (seq 0 (List.length xs / n)).

(** ** Threads *)

(** Every call program [p] comes to make, when it runs alone from memory [m], is a documented one, is not
    vst4_u8 (which writes outside of its footprint, see C55), accesses only elements in [A] and stores only to elements in [W]. *)
Fixpoint confined (c : cfg) (A W : nat -> Z -> Prop) (m : memory) (p : program) : Prop :=
  match p with
  | Finish => True
  | Call f args next =>
      In f library /\ f_name f <> "vst4_u8"%string /\ valid_args m f args /\
      (forall b i, in_footprint f args b i -> A b i /\ (is_store f = true -> W b i)) /\
      forall m1 v, run c m f args = Returns m1 v -> confined c A W m1 (next v)
  end.

(** One of the threads [ps] makes its next call. *)
Inductive step (c : cfg) : memory * list program -> memory * list program -> Prop :=
| step_call m ps1 f args next ps2 m1 v : run c m f args = Returns m1 v ->
    step c (m, ps1 ++ Call f args next :: ps2) (m1, ps1 ++ next v :: ps2).

(** Any number of calls, in any order of the threads. *)
Inductive steps (c : cfg) : memory * list program -> memory * list program -> Prop :=
| steps_refl s : steps c s s
| steps_step s s' s'' : steps c s s' -> step c s' s'' -> steps c s s''.

Definition finished (ps : list program) : Prop := Forall (fun p => p = Finish) ps.

(** The elements a loop of [snd s] steps of [n] elements from element [fst s] on goes through. *)
Definition strip (n : nat) (s : nat * nat) (e : Z) : Prop := Z.of_nat (fst s) <= e < Z.of_nat (fst s + snd s * n).

(** ** Functions to put into loops *)

(** Functions of two vectors, the operation they perform on the elements, and the element types. *)
Inductive pointwise2 (c : cfg) : func -> sty -> sty -> nat -> (Z -> Z -> Z) -> Prop :=
| pw_vadd f t n : In (f, t, n) vadd_table -> modular c t -> pointwise2 c f t t n (fun x y => wrap t (x + y))
| pw_vsub f t n : In (f, t, n) vsub_table -> modular c t -> pointwise2 c f t t n (fun x y => wrap t (x - y))
| pw_vmul f t n : In (f, t, n) vmul_table -> mul_modular c t -> pointwise2 c f t t n (fun x y => wrap t (x * y))
| pw_vqadd f t n : In (f, t, n) vqadd_table -> pointwise2 c f t t n (fun x y => sat t (x + y))
| pw_vqsub f t n : In (f, t, n) vqsub_table -> pointwise2 c f t t n (fun x y => sat t (x - y))
| pw_vmax f t n : In (f, t, n) (vmax_table ++ vmax_u_table) -> pointwise2 c f t t n Z.max
| pw_vmin f t n : In (f, t, n) (vmin_table ++ vmin_u_table) -> pointwise2 c f t t n Z.min
| pw_vand f t n : In (f, t, n) vand_table -> pointwise2 c f t t n Z.land
| pw_vorr f t n : In (f, t, n) vorr_table -> pointwise2 c f t t n Z.lor
| pw_veor f t n : In (f, t, n) veor_table -> pointwise2 c f t t n Z.lxor
| pw_vcgt : pointwise2 c vcgtq_u8 U8 U8 16 (fun x y => if y <? x then 255 else 0)
| pw_vaddl f t n : In (f, t, n) vaddl_table -> pointwise2 c f t (wide t) n Z.add
| pw_vsubl f t n : In (f, t, n) vsubl_table -> pointwise2 c f t (wide t) n (fun x y => wrap (wide t) (x - y))
| pw_vmull f t n : In (f, t, n) vmull_table -> t = I8 \/ t = U8 \/ t = I16 -> pointwise2 c f t (wide t) n Z.mul.

(** The same for one vector. *)
Inductive pointwise1 (c : cfg) : func -> sty -> sty -> nat -> (Z -> Z) -> Prop :=
| pw_vmvn f t n : In (f, t, n) vmvn_table -> pointwise1 c f t t n (fun x => wrap t (-1 - x))
| pw_vmovl f t n : In (f, t, n) vmovl_table -> pointwise1 c f t (wide t) n (fun x => x)
| pw_vmovn f t n : In (f, t, n) vmovn_table -> pointwise1 c f t (narrow t) n (wrap (narrow t))
| pw_vqmovn : pointwise1 c vqmovn_u16 U16 U8 8 (sat U8)
| pw_vqmovun : pointwise1 c vqmovun_s16 I16 U8 8 (sat U8).

(** ** Colour conversion *)

Definition component (i : nat) (o : obj) : obj := match o with OArr l => nth i l (OArr []) | _ => o end.

(** for (; k > 0; j += 8, k--) {
      uint8x8x3_t x = vld3_u8(a + 3 * j);
      uint16x8_t s = vmull_u8(x.val[0], w0);
      s = vmlal_u8(s, x.val[1], w1);
      s = vmlal_u8(s, x.val[2], w2);
      vst1_u8(d + j, vshrn_n_u16(s, 8));
    } *)
Fixpoint gray_loop (w0 w1 w2 : obj) (a d j k : nat) : program :=
  match k with
  | O => Finish
  | S k' =>
      Call vld3_u8 [OPtr U8 a (Z.of_nat (3 * j))] (fun x =>
      Call vmull_u8 [component 0 (value x); w0] (fun s =>
      Call vmlal_u8 [value s; component 1 (value x); w1] (fun s =>
      Call vmlal_u8 [value s; component 2 (value x); w2] (fun s =>
      Call vshrn_n_u16 [value s; rv I32 8] (fun r =>
      Call vst1_u8 [OPtr U8 d (Z.of_nat j); value r] (fun _ =>
      gray_loop w0 w1 w2 a d (j + 8) k'))))))
  end.

(** The weights broadcast first. *)
Definition gray_program (r g b : Z) (a d k : nat) : program :=
  Call vdup_n_u8 [rv U8 r] (fun w0 =>
  Call vdup_n_u8 [rv U8 g] (fun w1 =>
  Call vdup_n_u8 [rv U8 b] (fun w2 =>
  gray_loop (value w0) (value w1) (value w2) a d 0 k))).

(** The grey value of each pixel of an image of interleaved red, green and blue bytes. *)
Definition gray_image (r g b : Z) (zs : list Z) : list Z :=
  build (List.length zs / 3) (fun i => (r * nth (3 * i) zs 0 + g * nth (3 * i + 1) zs 0 + b * nth (3 * i + 2) zs 0) / 256).
