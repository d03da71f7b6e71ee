(** What printing a vector should do.  Nothing here is code of neon_sim. *)
From Coq Require Import ZArith String Ascii List Bool.
From Verif Require Import Types Spec Helper.
Import ListNotations.
Open Scope Z_scope.

(** ** Texts *)

Fixpoint join (sep : text) (ss : list text) : text :=
  match ss with [] => [] | [s] => s | s :: rest => s ++ sep ++ join sep rest end.

(** ** Numerals *)

Definition alphabet : text := chars "0123456789abcdef".
(** The place of a character in a text. *)
Fixpoint place (a : ascii) (s : text) : Z :=
  match s with [] => 0 | b :: rest => if Ascii.eqb a b then 0 else 1 + place a rest end.
Definition value (b : Z) (s : text) : Z := fold_left (fun v a => v * b + place a alphabet) s 0.
(** [s] is the numeral of [z] in base [b]: digits of that base, no leading zeros, and the right value. *)
Definition numeral (b z : Z) (s : text) : Prop :=
  s <> [] /\ Forall (fun a => In a (firstn (Z.to_nat b) alphabet)) s /\ (hd "0"%char s = "0"%char -> s = chars "0") /\ value b s = z.
(** [s] stands for the number [z]: in base 10 with a sign, otherwise as an unsigned number of [bits] bits. *)
Definition stands (b bits z : Z) (s : text) : Prop :=
  if b =? 10 then (0 <= z /\ numeral 10 z s) \/ (z < 0 /\ exists r, s = "-"%char :: r /\ numeral 10 (- z) r)
  else numeral b (z mod 2 ^ bits) s.

(** 8-bit lanes and those of type uint16_t are printed as numbers of type int, the others as numbers of their type. *)
Definition bits_of (t : sty) : Z := match t with I8 | U8 | U16 | I32 | U32 => 32 | I16 => 16 | _ => 64 end.

(** ** Types *)

Definition vectors : list (sty * nat) :=
  [ (I8, 8); (I8, 16); (I16, 4); (I16, 8); (I32, 2); (I32, 4); (I64, 1); (I64, 2); (U8, 8); (U8, 16); (U16, 4); (U16, 8); (U32, 2); (U32, 4); (U64, 1); (U64, 2);
    (F32, 2); (F32, 4); (F64, 1); (F64, 2) ]%nat.
(** Register arrays of two to four vectors; those of float64x1_t and float64x2_t exist on AArch64 only. *)
Definition printable (aarch64 : bool) (v : vtype) : Prop :=
  match v with
  | Vec t n => In (t, n) vectors
  | Arr t n k => In (t, n) vectors /\ (2 <= k <= 4)%nat /\ (t = F64 -> aarch64 = true)
  end.
Definition element_type (v : vtype) : sty := match v with Vec t _ | Arr t _ _ => t end.
(** A value of the type. *)
Definition of_type (v : vtype) (d : datum) : Prop :=
  match v, d with
  | Vec t n, Lanes l => lanes t n l
  | Arr t n k, Registers l => List.length l = k /\ Forall (lanes t n) l
  | _, _ => False
  end.

(** ** The text of the header *)

Fixpoint unindented (s : string) : string := match s with String " " rest => unindented rest | _ => s end.
Definition comment (s : string) : bool := String.prefix "//" s.
Definition significant (ls : list string) : list string :=
  filter (fun s => negb (String.eqb s "" || comment s)) (map unindented ls).
