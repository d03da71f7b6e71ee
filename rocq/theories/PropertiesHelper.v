(** C86: printing of vectors (tests/neon_helper.hpp). *)
From Coq Require Import ZArith String Ascii List Bool Lia.
From Verif Require Import Types Spec Helper HelperSpec HelperSource.
From Verif Require P_Helper.
Import ListNotations.
Open Scope Z_scope.

(** The operators of the model, written down as C++, are the header, but for indentation, empty lines and comments. *)
Theorem C86_source : significant neon_helper_hpp = header_lines.
Proof. exact P_Helper.source_lines. Qed.
Print Assumptions C86_source.

(** Lanes of an integer type are printed as numbers, in order, with commas between them, in the base of the stream. *)
Theorem C86_integers : forall show_float aarch64 t n l s, In (t, n) vectors -> is_float t = false -> In (base s) [8; 10; 16] -> lanes t n l ->
  exists ss, print show_float aarch64 (Vec t n) (Lanes l) s = Some (put s (join (chars ", ") ss)) /\ Forall2 (stands (base s) (bits_of t)) l ss.
Proof. exact P_Helper.print_lanes. Qed.
Print Assumptions C86_integers.

(** Lanes of a floating-point type are printed as the stream prints such numbers. *)
Theorem C86_floats : forall show_float aarch64 t n l s, In (t, n) vectors -> is_float t = true -> lanes t n l ->
  print show_float aarch64 (Vec t n) (Lanes l) s = Some (put s (join (chars ", ") (map (show_float t) l))).
Proof. exact P_Helper.print_floats. Qed.
Print Assumptions C86_floats.

(** The vectors of a register array are printed as they are printed alone, one on a line. *)
Theorem C86_registers : forall show_float aarch64 t n k l s, printable aarch64 (Arr t n k) -> of_type (Arr t n k) (Registers l) ->
  exists ss, print show_float aarch64 (Arr t n k) (Registers l) s = Some (put s (join ["010"%char] ss)) /\
    Forall2 (fun x w => print show_float aarch64 (Vec t n) (Lanes x) s = Some (put s w)) l ss.
Proof. exact P_Helper.print_registers. Qed.
Print Assumptions C86_registers.

(** Different values are printed differently, in every base. *)
Theorem C86_unique : forall show_float aarch64 v d d' s, In (base s) [8; 10; 16] -> printable aarch64 v -> is_float (element_type v) = false ->
  of_type v d -> of_type v d' -> print show_float aarch64 v d s = print show_float aarch64 v d' s -> d = d'.
Proof. exact P_Helper.print_unique. Qed.
Print Assumptions C86_unique.

(** Exactly the types listed can be printed. *)
Theorem C86_types : forall show_float aarch64 v d s, of_type v d -> ((exists s', print show_float aarch64 v d s = Some s') <-> printable aarch64 v).
Proof.
  intros sf a v d s T. split; [intros [s' E]; exact (P_Helper.print_only sf a v d s s' E)|].
  intros P. eexists. exact (P_Helper.print_run sf a v d s P T).
Qed.
Print Assumptions C86_types.

Example C86_example : let decimal := mkstream (chars "v = ") 10 in let hex := mkstream [] 16 in let sf := fun _ _ => [] in
  print sf false (Vec I8 8) (Lanes [0; 1; -1; 127; -128; 10; 99; -100]) decimal
    = Some (mkstream (chars "v = 0, 1, -1, 127, -128, 10, 99, -100") 10) /\
  print sf false (Vec I16 4) (Lanes [-1; 255; 0; -32768]) hex = Some (mkstream (chars "ffff, ff, 0, 8000") 16) /\
  print sf false (Vec I8 8) (Lanes [-1; 1; 0; 0; 0; 0; 0; 16]) hex = Some (mkstream (chars "ffffffff, 1, 0, 0, 0, 0, 0, 10") 16) /\
  print sf false (Arr U64 1 2) (Registers [[18446744073709551615]; [7]]) decimal
    = Some (mkstream (chars "v = 18446744073709551615" ++ ["010"%char] ++ chars "7") 10) /\
  print sf false (Arr F64 1 2) (Registers [[0]; [0]]) decimal = None /\
  lanes I8 8 [0; 1; -1; 127; -128; 10; 99; -100] /\ of_type (Arr U64 1 2) (Registers [[18446744073709551615]; [7]]) /\ printable false (Arr U64 1 2) /\
  stands 16 16 (-1) (chars "ffff") /\ stands 10 32 (-100) (chars "-100").
Proof.
  cbv zeta. split; [reflexivity|]. split; [reflexivity|]. split; [reflexivity|]. split; [reflexivity|]. split; [reflexivity|].
  split; [split; [reflexivity|repeat (constructor; [split; vm_compute; discriminate|]); constructor]|].
  split; [split; [reflexivity|repeat (constructor; [split; [reflexivity|constructor; [split; vm_compute; discriminate|constructor]]|]); constructor]|].
  split; [split; [vm_compute; tauto|split; [lia|discriminate]]|]. split.
  - split; [discriminate|]. split; [|split; [discriminate|reflexivity]]. repeat (constructor; [vm_compute; tauto|]). constructor.
  - right. split; [lia|]. exists (chars "100"). split; [reflexivity|]. split; [discriminate|]. split; [|split; [discriminate|reflexivity]].
    repeat (constructor; [vm_compute; tauto|]). constructor.
Qed.
