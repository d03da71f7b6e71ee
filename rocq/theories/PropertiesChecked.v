(** C82: what compiling, linking and running a program that includes neon_sim.h has to do with the types of its vectors. *)
From Coq Require Import ZArith String List Bool Lia.
From Verif Require Import Types Syntax Interp ProgRecip Library Header Frontend MetaSpec Checked P_Checked P_Checked2 PropBase.
From Verif Require SourceH Suite.
Import ListNotations.
Import Suite (texpr(..), tstmt(..)).
Open Scope Z_scope.
Local Open Scope string_scope.

(** The names of types the programs can use are those the text of neon_sim.h defines. *)
Theorem C82_types : exists l, read_types SourceH.neon_sim_h = Some l /\ forall x, assoc x l = assoc x type_names.
Proof. exact types_of_header. Qed.
Print Assumptions C82_types.

(** No two names of vectors or tuples are the same type. *)
Theorem C82_distinct : forall x y t, In (x, t) struct_names -> In (y, t) struct_names -> x = y.
Proof. exact distinct_types. Qed.
Print Assumptions C82_distinct.

(** A program that compiles and links has a meaning: every call finds a function, with arguments of the types of its
    parameters, and it returns, aborts or has undefined behaviour.  When the program ends, every variable is of its type. *)
Theorem C82_meaning : forall c l en, check_all l [] = Some en -> links l = true ->
  match execute c l with
  | Fine (vs, m) => Forall2 (as_declared m) en vs /\ well_typed m
  | Stopped | Behaviour _ => True
  | Meaningless => False
  end.
Proof. exact meaning. Qed.
Print Assumptions C82_meaning.

(** What compiles: a call whose arguments have the types of the parameters, and nothing else.  Only scalars are converted. *)
Theorem C82_initialisation : forall en t x e ty, object_type t = Some ty ->
  ((exists en', check (TInit t x e) en = Some en') <->
   exists u, of_type en e u /\ (u = ty \/ exists s s', u = TScal s /\ ty = TScal s')).
Proof. exact init_iff. Qed.
Print Assumptions C82_initialisation.
Theorem C82_call : forall en f args, (exists en', check (TDo (XCall f args)) en = Some en') <-> exists u, of_type en (XCall f args) u.
Proof. exact call_iff. Qed.
Print Assumptions C82_call.

(** "Compile time vector type checking": whatever function is called, a vector, a tuple of vectors or an array where
    something of another type is wanted is rejected. *)
Theorem C82_mismatch : forall f r ps line args en i x k t p, In (f, r, ps, line) header ->
  nth_error args i = Some (XVar x) -> assoc x en = Some k -> t = match k with KObj u => u | KArr s => TPtr s end ->
  nth_error ps i = Some p -> t <> p -> (forall s, t <> TScal s) ->
  check (TDo (XCall f args)) en = None /\ forall u y, check (TInit u y (XCall f args)) en = None.
Proof. exact mismatch_rejected. Qed.
Print Assumptions C82_mismatch.

(** "Support initializer list": { l } compiles if there are not more numbers than lanes and all are numbers of the lane
    type, and gives the lanes l, then zeros. *)
Theorem C82_list_compiles : forall t x s n l en, object_type t = Some (tvec s n) -> is_float s = false ->
  ((exists en', check (TList t x (literals l)) en = Some en') <->
   (length l <= n)%nat /\ Forall (fun z => in_range s z /\ in_range I32 z) l).
Proof. exact list_compiles. Qed.
Print Assumptions C82_list_compiles.
Theorem C82_list_lanes : forall c t x s n l en m, object_type t = Some (tvec s n) -> is_float s = false ->
  (length l <= n)%nat -> Forall (in_range s) l ->
  exec c (TList t x (literals l)) (en, m) = Fine ((x, VObj (tvec s n) (vec s (l ++ repeat 0 (n - length l)))) :: en, m).
Proof. exact list_runs. Qed.
Print Assumptions C82_list_lanes.

(** What links: a program that calls only functions that are defined, and defined with the declared types. *)
Theorem C82_links : forall l, compiles l = true ->
  (links l = true <-> forall f, In f (flat_map Suite.called l) -> In f (map f_name library) /\ ~ In f mismatched).
Proof. exact links_iff. Qed.
Print Assumptions C82_links.

(** Not everything that compiles links. *)
Theorem C82_links_refuted : exists l,
  statements ["uint8x16_t a = { 1, 2 };"; "uint8x16_t b = vmaxq_u8(a, a);"] = Some l /\ compiles l = true /\ links l = false.
Proof. eexists. split; [vm_compute; reflexivity|]. split; vm_compute; reflexivity. Qed.
Print Assumptions C82_links_refuted.

(** "Same-length-different-type conversion" is not supported: vectors are structures, and no structure is converted to another. *)
Theorem C82_conversion_refuted : forall x tx y ty en a b, In (x, tx) struct_names -> In (y, ty) struct_names -> x <> y ->
  assoc a en = Some (KObj tx) -> check (TInit y b (XVar a)) en = None.
Proof. exact conversion_rejected. Qed.
Print Assumptions C82_conversion_refuted.

(** Lane numbers are not checked by the compiler. *)
Theorem C82_lane_refuted : forall z, in_range I32 z ->
  check (TInit "float32_t" "x" (XCall "vgetq_lane_f32" [XVar "v"; XNum z None])) [("v", KObj (tvec F32 4))] =
  Some [("x", KObj (TScal F32)); ("v", KObj (tvec F32 4))].
Proof. exact any_lane. Qed.
Print Assumptions C82_lane_refuted.

(** The program of the README is rejected; with the right type of array it is accepted. *)
Example C82_readme : exists l,
  statements ["uint8_t b[4] = { 5, 6, 7, 8 };"; "uint16x4_t v_b = vld1_u16(b);"] = Some l /\ compiles l = false.
Proof. eexists. split; [vm_compute; reflexivity|]. vm_compute. reflexivity. Qed.
Example C82_readme_right : exists l,
  statements ["uint16_t b[4] = { 5, 6, 7, 8 };"; "uint16x4_t v_b = vld1_u16(b);"] = Some l /\ compiles l = true /\ links l = true /\
  execute strict l = Fine ([("v_b", VObj (tvec U16 4) (vec U16 [5; 6; 7; 8])); ("b", VArr U16 0)], [(U16, map Some [5; 6; 7; 8])]).
Proof. eexists. split; [vm_compute; reflexivity|]. split; [vm_compute; reflexivity|]. split; vm_compute; reflexivity. Qed.
Example C82_readme_mismatch : exists line, In ("vld1_u16", tvec U16 4, [TPtr U16], line) header /\ TPtr U8 <> TPtr U16.
Proof. destruct (declared_in "vld1_u16" (tvec U16 4) [TPtr U16] ltac:(vm_compute; reflexivity)) as [line H]. exists line. split; [exact H|discriminate]. Qed.
Example C82_example : exists l,
  statements ["int8x8_t a = { 1, -2, 3, 4, 5, 6, 7, 8 };"; "int8x8_t b = { 100, 2 };"; "int8_t out[8] = { 0 };";
              "int16x8_t p = vmull_s8(vsub_s8(a, b), b);"; "{ int8x8_t c = vshrn_n_s16(p, 1); vst1_s8(out, c); }"] = Some l /\
  compiles l = true /\ links l = true /\
  match execute strict l with
  | Fine (vs, m) => assoc "p" vs = Some (VObj (tvec I16 8) (vec I16 [-9900; -8; 0; 0; 0; 0; 0; 0])) /\
      assoc "c" vs = None /\ m = [(I8, map Some [-86; -4; 0; 0; 0; 0; 0; 0])]
  | _ => False
  end.
Proof. eexists. split; [vm_compute; reflexivity|]. split; [vm_compute; reflexivity|]. split; [vm_compute; reflexivity|]. vm_compute. repeat split. Qed.
(** A program that compiles and links, and has undefined behaviour. *)
Example C82_undefined : exists l,
  statements ["uint16_t b[3] = { 5, 6, 7 };"; "uint16x4_t v = vld1_u16(b);"] = Some l /\ compiles l = true /\ links l = true /\
  execute strict l = Behaviour OutOfBounds.
Proof. eexists. split; [vm_compute; reflexivity|]. split; [vm_compute; reflexivity|]. split; vm_compute; reflexivity. Qed.
Example C82_aborts : exists l,
  statements ["uint16x8_t v = { 1 };"; "uint8x8_t n = vshrn_n_u16(v, 9);"] = Some l /\ compiles l = true /\ links l = true /\
  execute strict l = Stopped.
Proof. eexists. split; [vm_compute; reflexivity|]. split; [vm_compute; reflexivity|]. split; vm_compute; reflexivity. Qed.
Example C82_too_many : check (TList "int8x8_t" "a" (literals [1; 2; 3; 4; 5; 6; 7; 8; 9])) [] = None /\
  check (TList "int8x8_t" "a" (literals [128])) [] = None /\ object_type "int8x8_t" = Some (tvec I8 8).
Proof. split; [vm_compute; reflexivity|]. split; vm_compute; reflexivity. Qed.
Example C82_same_length : In ("int8x8_t", tvec I8 8) struct_names /\ In ("uint8x8_t", tvec U8 8) struct_names.
Proof. split; vm_compute; tauto. Qed.
