(** C72: the diagnostics of rejected calls. *)
From Coq Require Import ZArith String Ascii List Bool Lia.
From Verif Require Import Types Syntax Interp ProgRecip ProgLoad ProgShift ProgPerm Library Spec MetaSpec PropBase.
From Verif Require Import SourceH SourceCpp Diag DiagSpec P_Diag P_Meta2.
Import ListNotations.
Open Scope Z_scope.

(** Which parameter the functions that validate one do validate, and the values they accept. *)
Definition validated : list (func * nat * Z * Z) :=
  [(vld2_lane_u8, 2%nat, 0, 7); (vld3_lane_u8, 2%nat, 0, 7); (vld4_lane_u8, 2%nat, 0, 7); (vgetq_lane_f32, 1%nat, 0, 3);
   (vshrn_n_s16, 1%nat, 1, 8); (vshr_n_u16, 1%nat, 1, 8); (vshrn_n_s32, 1%nat, 1, 16); (vshrn_n_s64, 1%nat, 1, 32);
   (vshrn_n_u16, 1%nat, 1, 8); (vshrn_n_u32, 1%nat, 1, 16); (vshrn_n_u64, 1%nat, 1, 32);
   (vqshrun_n_s16, 1%nat, 1, 8); (vqshrun_n_s32, 1%nat, 1, 16); (vqshrun_n_s64, 1%nat, 1, 32); (vqrshrun_n_s16, 1%nat, 1, 8);
   (vext_u8, 2%nat, 0, 8); (vext_u16, 2%nat, 0, 3); (vext_s16, 2%nat, 0, 3); (vextq_u16, 2%nat, 0, 8)].

(** A call aborts if that parameter is out of range, and in no other case, whatever the other
    arguments and the memory are. *)
Theorem C72_aborts_exactly : forall f c m args, In f library -> typed_args m f args ->
  (run c m f args = Aborts <->
   exists p lo hi k, In (f, p, lo, hi) validated /\ nth_error args p = Some (rv I32 k) /\ ~ (lo <= k <= hi)).
Proof. exact aborts_exactly. Qed.
Print Assumptions C72_aborts_exactly.

(** The diagnostics can be read from the text of the source files. *)
Theorem C72_diagnostics : exists l, diagnostics neon_sim_h neon_sim_cpp = Some l /\ List.length l = 19%nat.
Proof. exists texts. split; [exact diagnostics_texts|reflexivity]. Qed.
Print Assumptions C72_diagnostics.

(** Every call that aborts prints one before. *)
Theorem C72_explained : forall f c m args l, diagnostics neon_sim_h neon_sim_cpp = Some l -> In f library -> typed_args m f args ->
  run c m f args = Aborts -> exists text, In (f_name f, text) l.
Proof. exact explained. Qed.
Print Assumptions C72_explained.

(** It states the range of the values that are accepted.  Missing: eight functions. *)
Theorem C72_range_partial : forall f text l, diagnostics neon_sim_h neon_sim_cpp = Some l -> In f library -> In (f_name f, text) l ->
  ~ In (f_name f) ["vshrn_n_s32"; "vshrn_n_s64"; "vshrn_n_u32"; "vshrn_n_u64"; "vqshrun_n_s32"; "vqshrun_n_s64"; "vext_u16"; "vext_s16"]%string ->
  exists p lo hi, states_range text lo hi /\
    forall c m args k, typed_args m f args -> nth_error args p = Some (rv I32 k) ->
      (run c m f args = Aborts <-> ~ (lo <= k <= hi)).
Proof. exact ranges. Qed.
Print Assumptions C72_range_partial.

(** Four of them accept more than they say, *)
Theorem C72_vshrn_refuted : forall f hi, In (f, hi) [(vshrn_n_s32, 16); (vshrn_n_u32, 16); (vshrn_n_s64, 32); (vshrn_n_u64, 32)] ->
  forall l, diagnostics neon_sim_h neon_sim_cpp = Some l ->
  exists text, In (f_name f, text) l /\ states_range text 1 8 /\
    forall c m a k, typed_args m f [a; rv I32 k] -> 8 < k <= hi -> run c m f [a; rv I32 k] <> Aborts.
Proof. exact too_narrow. Qed.
Print Assumptions C72_vshrn_refuted.

(** two less, *)
Theorem C72_vext_refuted : forall f, In f [vext_u16; vext_s16] -> forall l, diagnostics neon_sim_h neon_sim_cpp = Some l ->
  exists text, In (f_name f, text) l /\ states_range text 0 4 /\
    forall c m a b, typed_args m f [a; b; rv I32 4] -> run c m f [a; b; rv I32 4] = Aborts.
Proof. exact too_wide. Qed.
Print Assumptions C72_vext_refuted.

(** and two do not say what they accept. *)
Theorem C72_vqshrun_refuted : forall f, In f [vqshrun_n_s32; vqshrun_n_s64] ->
  forall l text, diagnostics neon_sim_h neon_sim_cpp = Some l -> In (f_name f, text) l -> forall lo hi, ~ states_range text lo hi.
Proof. exact no_range. Qed.
Print Assumptions C72_vqshrun_refuted.

(** The diagnostic names the function, but for three functions, *)
Theorem C72_name_partial : forall f text l, diagnostics neon_sim_h neon_sim_cpp = Some l -> In (f, text) l ->
  ~ In f ["vld2_lane_u8"; "vld3_lane_u8"; "vld4_lane_u8"]%string -> mentions text f.
Proof. exact names. Qed.
Print Assumptions C72_name_partial.

Theorem C72_name_refuted : forall f text l, diagnostics neon_sim_h neon_sim_cpp = Some l -> In (f, text) l ->
  In f ["vld2_lane_u8"; "vld3_lane_u8"; "vld4_lane_u8"]%string -> ~ mentions text f.
Proof. exact anonymous_refuted. Qed.
Print Assumptions C72_name_refuted.

(** and is a complete line, but for one. *)
Theorem C72_line_partial : forall f text l, diagnostics neon_sim_h neon_sim_cpp = Some l -> In (f, text) l ->
  f <> "vgetq_lane_f32"%string -> ends_line text.
Proof. exact lines. Qed.
Print Assumptions C72_line_partial.

Theorem C72_line_refuted : forall l, diagnostics neon_sim_h neon_sim_cpp = Some l ->
  exists text, In ("vgetq_lane_f32"%string, text) l /\ ~ ends_line text.
Proof. exact unfinished_line. Qed.
Print Assumptions C72_line_refuted.

(** A rejected and an accepted call; and diagnostics are read from the text: without the name, with an
    [abort] that prints nothing, and with a diagnostic that does not abort. *)
Example C72_example :
  In vext_u8 library /\
  typed_args [] vext_u8 [vec U8 (repeat 1 8); vec U8 (repeat 2 8); rv I32 9] /\
  run strict [] vext_u8 [vec U8 (repeat 1 8); vec U8 (repeat 2 8); rv I32 9] = Aborts /\
  typed_args [] vext_u8 [vec U8 (repeat 1 8); vec U8 (repeat 2 8); rv I32 3] /\
  run strict [] vext_u8 [vec U8 (repeat 1 8); vec U8 (repeat 2 8); rv I32 3] = Returns [] (Some (vec U8 [1; 1; 1; 1; 1; 2; 2; 2])) /\
  typed_args [] vshrn_n_s32 [vec I32 (repeat 1 4); rv I32 12] /\
  (let file body := ["int f(int n) { if (n < 1) {"; body; "} return n; }"]%string in
   diagnostics [] (file "fprintf(stderr, ""%s: n < 1\n"", __FUNCTION__); abort();"%string) =
     Some [("f", "f: n < 1" ++ String (ascii_of_nat 10) "")]%string /\
   diagnostics [] (file "fprintf(stderr, ""n < 1""); abort();"%string) = Some [("f", "n < 1")]%string /\
   diagnostics [] (file "fprintf(stderr, ""%s: n < 1""); abort();"%string) = None /\
   diagnostics [] (file "abort();"%string) = None /\
   diagnostics [] (file "fprintf(stderr, ""n < 1"");"%string) = None).
Proof.
  split; [repeat (first [left; reflexivity|right])|]. split; [apply valid_typed_lit; vm_compute; reflexivity|]. split; [vm_compute; reflexivity|].
  split; [apply valid_typed_lit; vm_compute; reflexivity|]. split; [vm_compute; reflexivity|].
  split; [apply valid_typed_lit; vm_compute; reflexivity|]. vm_compute. repeat split.
Qed.
