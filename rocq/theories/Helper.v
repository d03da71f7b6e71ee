(** Printing of vectors: tests/neon_helper.hpp.

    The header is written for the types of arm_neon.h; a vector is the list of its lanes here, as everywhere in the model, and a register array
    the list of its vectors.  Simplifications: of the state of the stream only the base (std::dec, std::hex, std::oct) and the characters written
    are modelled, that is, the stream accepts every character and has its default width, fill and flags otherwise.  How a floating-point
    number is printed is a parameter. *)
From Coq Require Import ZArith String Ascii List Bool.
From Verif Require Import Types.
Import ListNotations.
Open Scope Z_scope.

Notation text := (list ascii).
Definition chars (s : string) : text := list_ascii_of_string s.

(** ** Operators *)

(** The types with an operator<<: vectors (uint8x8_t: [Vec U8 8]) and register arrays (uint8x8x2_t: [Arr U8 8 2]). *)
Inductive vtype := Vec (t : sty) (n : nat) | Arr (t : sty) (n k : nat).

(** The body of an operator:
    - [Loop n sep cast] (e.g. neon_helper.hpp:9-17): a loop over i < n that writes sep if i > 0 and then v_data[i], or (int)v_data[i];
    - [Chain ks] (e.g. 219-223): v_data.val[k] for the ks, with std::endl between them. *)
Inductive body := Loop (n : nat) (sep : text) (cast : bool) | Chain (ks : list nat).
Record operator := mkop { op_type : vtype; op_body : body }.

Definition loop (t : sty) (n : nat) (cast : bool) : operator := mkop (Vec t n) (Loop n (chars ", ") cast).
Definition chain (t : sty) (n k : nat) : operator := mkop (Arr t n k) (Chain (seq 0 k)).

(** neon_helper.hpp:8-214 *)
Definition vector_operators : list operator :=
  [ loop U8 8 true; loop U8 16 true; loop I8 8 true; loop I8 16 true; loop U16 4 true; loop U16 8 true; loop I16 4 false; loop I16 8 false;
    loop U32 2 false; loop U32 4 false; loop I32 2 false; loop I32 4 false; loop F32 2 false; loop F32 4 false;
    loop U64 1 false; loop U64 2 false; loop I64 1 false; loop I64 2 false; loop F64 1 false; loop F64 2 false ].
(** neon_helper.hpp:218-600 *)
Definition array_operators : list operator :=
  flat_map (fun p => [chain (fst p) (snd p) 2; chain (fst p) (snd p) 3; chain (fst p) (snd p) 4])
    [ (U8, 8%nat); (U8, 16%nat); (I8, 8%nat); (I8, 16%nat); (U16, 4%nat); (U16, 8%nat); (I16, 4%nat); (I16, 8%nat); (U32, 2%nat); (U32, 4%nat);
      (I32, 2%nat); (I32, 4%nat); (F32, 2%nat); (F32, 4%nat); (U64, 1%nat); (U64, 2%nat); (I64, 1%nat); (I64, 2%nat) ].
(** neon_helper.hpp:602-645, under #if __aarch64__ *)
Definition aarch64_operators : list operator :=
  flat_map (fun p => [chain (fst p) (snd p) 2; chain (fst p) (snd p) 3; chain (fst p) (snd p) 4]) [ (F64, 1%nat); (F64, 2%nat) ].

Definition operators (aarch64 : bool) : list operator := vector_operators ++ array_operators ++ (if aarch64 then aarch64_operators else []).

(** ** Streams *)

(** The characters written and the base of integers. *)
Record stream := mkstream { written : text; base : Z }.
Definition put (s : stream) (w : text) : stream := mkstream (written s ++ w) (base s).

Definition digit_char (d : Z) : ascii := nth (Z.to_nat d) (chars "0123456789abcdef") "0"%char.
(** The digits of [z], which is less than base^fuel. *)
Fixpoint digits (fuel : nat) (b z : Z) (acc : text) : text :=
  match fuel with
  | O => acc
  | S fuel => let acc := digit_char (z mod b) :: acc in if z / b =? 0 then acc else digits fuel b (z / b) acc
  end.

(** os << x for x of type [t] (C++11 27.7.3.6.2 and 27.7.3.6.4): characters are written as characters; integers as numbers in the base of the stream,
    where bases other than 10 are for unsigned numbers, to which the value is converted within its size. *)
Definition shown (show_float : sty -> Z -> text) (b : Z) (t : sty) (z : Z) : text :=
  match t with
  | I8 | U8 => [ascii_of_N (Z.to_N (z mod 256))]
  | F32 | F64 => show_float t z
  | _ => if b =? 10 then (if z <? 0 then "-"%char :: digits 64 10 (- z) [] else digits 64 10 z []) else digits 64 b (z mod 2 ^ width t) []
  end.

(** A vector or a register array. *)
Inductive datum := Lanes (l : list Z) | Registers (l : list (list Z)).

(** The loop, from [i] on, [todo] times.  [None]: an index is out of bounds. *)
Fixpoint run_loop (show_float : sty -> Z -> text) (t : sty) (sep : text) (cast : bool) (l : list Z) (todo i : nat) (s : stream) : option stream :=
  match todo with
  | O => Some s
  | S todo =>
      match nth_error l i with
      | Some z =>
          let s1 := if (0 <? i)%nat then put s sep else s in
          let s2 := put s1 (if cast then shown show_float (base s1) I32 (wrap I32 z) else shown show_float (base s1) t z) in
          run_loop show_float t sep cast l todo (S i) s2
      | None => None
      end
  end.

Definition vtype_eqb (v w : vtype) : bool :=
  match v, w with
  | Vec t n, Vec u m => sty_eqb t u && Nat.eqb n m
  | Arr t n k, Arr u m j => sty_eqb t u && Nat.eqb n m && Nat.eqb k j
  | _, _ => false
  end.
(** The operator for a type. *)
Definition overload (ops : list operator) (v : vtype) : option body :=
  option_map op_body (find (fun o => vtype_eqb (op_type o) v) ops).

(** os << v for a vector.  [None]: there is no operator (the program does not compile), or an index is out of bounds. *)
Definition print_vector (show_float : sty -> Z -> text) (ops : list operator) (t : sty) (n : nat) (l : list Z) (s : stream) : option stream :=
  match overload ops (Vec t n) with
  | Some (Loop k sep cast) => run_loop show_float t sep cast l k 0 s
  | _ => None
  end.

(** os << v.val[k0] << std::endl << v.val[k1] ... *)
Fixpoint run_chain (show_float : sty -> Z -> text) (ops : list operator) (t : sty) (n : nat) (l : list (list Z)) (ks : list nat) (s : stream) : option stream :=
  match ks with
  | [] => Some s
  | k :: rest =>
      match nth_error l k with
      | Some v =>
          match print_vector show_float ops t n v s with
          | Some s1 => match rest with [] => Some s1 | _ => run_chain show_float ops t n l rest (put s1 ["010"%char]) end
          | None => None
          end
      | None => None
      end
  end.

(** os << v *)
Definition print (show_float : sty -> Z -> text) (aarch64 : bool) (v : vtype) (d : datum) (s : stream) : option stream :=
  let ops := operators aarch64 in
  match v, d with
  | Vec t n, Lanes l => print_vector show_float ops t n l s
  | Arr t n k, Registers l =>
      match overload ops (Arr t n k) with
      | Some (Chain ks) => run_chain show_float ops t n l ks s
      | _ => None
      end
  | _, _ => None
  end.

(** ** Text *)

(** The operators as they are written in the header, line by line, without indentation: their concrete syntax. *)
Local Open Scope string_scope.
Definition element (t : sty) : string :=
  match t with
  | I8 => "int8" | I16 => "int16" | I32 => "int32" | I64 => "int64" | U8 => "uint8" | U16 => "uint16" | U32 => "uint32" | U64 => "uint64"
  | F32 => "float32" | F64 => "float64"
  end.
Definition count (n : nat) : string :=
  match n with 0 => "0" | 1 => "1" | 2 => "2" | 3 => "3" | 4 => "4" | 8 => "8" | 16 => "16" | _ => "?" end%nat.
Definition type_name (v : vtype) : string :=
  match v with Vec t n => element t ++ "x" ++ count n ++ "_t" | Arr t n k => element t ++ "x" ++ count n ++ "x" ++ count k ++ "_t" end.
Fixpoint chain_lines (first : bool) (ks : list nat) : list string :=
  match ks with
  | [] => []
  | k :: rest =>
      ((if first then "return os " else "") ++ "<< v_data.val[" ++ count k ++ "]" ++ match rest with [] => ";" | _ => " << std::endl" end)
      :: chain_lines false rest
  end.
Definition body_lines (b : body) : list string :=
  match b with
  | Loop n sep cast =>
      [ "for (int i = 0; i < " ++ count n ++ "; i++)"; "{"; "if (i > 0) os << """ ++ string_of_list_ascii sep ++ """;";
        "os << " ++ (if cast then "(int)" else "") ++ "v_data[i];"; "}"; "return os;" ]
  | Chain ks => chain_lines true ks
  end.
Definition op_lines (o : operator) : list string :=
  ("static std::ostream& operator<<(std::ostream& os, const " ++ type_name (op_type o) ++ "& v_data)") :: "{" :: body_lines (op_body o) ++ ["}"].

(** The header: its lines without those that are empty or comments. *)
Definition header_lines : list string :=
  ["#pragma once"; "#include <iostream>"; "#include <arm_neon.h>"] ++ flat_map op_lines (vector_operators ++ array_operators)
  ++ ["#if __aarch64__"] ++ flat_map op_lines aarch64_operators ++ ["#endif // __aarch64__"].
