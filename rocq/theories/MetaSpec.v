(** The vocabulary of the library-wide properties (C46-C54): what a well-typed memory
    and argument are, and which calls the intrinsics' documentation allows.  Nothing
    here depends on how the functions are implemented. *)
From Coq Require Import ZArith String List Bool.
From Verif Require Import Types Syntax Interp ProgRecip.
Import ListNotations.
Open Scope Z_scope.

(** Every initialised element of memory is a value of its block's element type. *)
Definition well_typed (m : memory) : Prop :=
  Forall (fun b : block => Forall (fun v => forall z, v = Some z -> in_range (fst b) z) (snd b)) m.

(** [o] is an object of type [t].  Scalars may be uninitialised.  A pointer may point
    anywhere, inside or outside of a block or at a block that does not exist, but not
    into a block of another element type. *)
Inductive has_type (m : memory) : ty -> obj -> Prop :=
| ht_scal s v : (forall z, v = Some z -> in_range s z) -> has_type m (TScal s) (OScal s v)
| ht_arr n t l : List.length l = n -> Forall (has_type m t) l -> has_type m (TArr n t) (OArr l)
| ht_struct ts l : Forall2 (has_type m) ts l -> has_type m (TStruct ts) (OArr l)
| ht_ptr s b off : (forall s' cells, nth_error m b = Some (s', cells) -> s' = s) ->
    has_type m (TPtr s) (OPtr s b off).

(** Every scalar in [o] has a value. *)
Inductive initialised : obj -> Prop :=
| in_scal s z : initialised (OScal s (Some z))
| in_arr l : Forall initialised l -> initialised (OArr l)
| in_ptr s b off : initialised (OPtr s b off).

(** Memory after a call has the same blocks, of the same types and sizes, and no
    element has become uninitialised. *)
Definition same_blocks (m m' : memory) : Prop :=
  List.length m' = List.length m /\
  forall b s cells, nth_error m b = Some (s, cells) ->
    exists cells', nth_error m' b = Some (s, cells') /\ List.length cells' = List.length cells /\
      forall i z, nth_error cells i = Some (Some z) -> exists z', nth_error cells' i = Some (Some z').

(** The arguments of a call to [f] are objects of the parameter types. *)
Definition typed_args (m : memory) (f : func) (args : list obj) : Prop :=
  Forall2 (fun p o => has_type m (snd p) o) (f_params f) args.

(** The immediate operands and their documented ranges: the [int] parameter of these
    functions is a lane number, a shift count or an element offset. *)
Definition immediates : list (string * (Z * Z)) :=
  [ ("vld1_lane_u8", (0, 7)); ("vld1_lane_s8", (0, 7)); ("vld1_lane_u16", (0, 3)); ("vld1_lane_s16", (0, 3));
    ("vld1_lane_u32", (0, 1)); ("vld1_lane_s32", (0, 1)); ("vld1_lane_f32", (0, 1)); ("vld1q_lane_f32", (0, 3));
    ("vld2_lane_u8", (0, 7)); ("vld3_lane_u8", (0, 7)); ("vld4_lane_u8", (0, 7));
    ("vst4q_lane_f32", (0, 3));
    ("vget_lane_f32", (0, 1)); ("vgetq_lane_f32", (0, 3)); ("vgetq_lane_u8", (0, 15)); ("vgetq_lane_u16", (0, 7));
    ("vgetq_lane_u32", (0, 3)); ("vgetq_lane_u64", (0, 1)); ("vgetq_lane_s8", (0, 15)); ("vgetq_lane_s16", (0, 7));
    ("vgetq_lane_s32", (0, 3)); ("vgetq_lane_s64", (0, 1)); ("vgetq_lane_f64", (0, 1));
    ("vshrn_n_s16", (1, 8)); ("vshrn_n_s32", (1, 16)); ("vshrn_n_s64", (1, 32));
    ("vshrn_n_u16", (1, 8)); ("vshrn_n_u32", (1, 16)); ("vshrn_n_u64", (1, 32));
    ("vshr_n_u16", (1, 16));
    ("vqshrun_n_s16", (1, 8)); ("vqshrun_n_s32", (1, 16)); ("vqshrun_n_s64", (1, 32)); ("vqrshrun_n_s16", (1, 8));
    ("vrshrn_n_u16", (1, 8)); ("vsraq_n_s32", (1, 32)); ("vshlq_n_s32", (0, 31)); ("vshll_n_u8", (0, 7));
    ("vqshrn_n_s16", (1, 8)); ("vqshrn_n_s32", (1, 16)); ("vqshrn_n_s64", (1, 32));
    ("vqshrn_n_u16", (1, 8)); ("vqshrn_n_u32", (1, 16)); ("vqshrn_n_u64", (1, 32));
    ("vext_u8", (0, 7)); ("vext_u16", (0, 3)); ("vext_s16", (0, 3)); ("vextq_u16", (0, 7)) ]%string.

Definition immediate_of (f : func) : option (Z * Z) :=
  match find (fun p => String.eqb (fst p) (f_name f)) immediates with
  | Some p => Some (snd p)
  | None => None
  end.

(** How many consecutive elements a load reads or a store writes: one for a lane load
    and for a load that broadcasts, one per vector for the structure lane accesses, and
    otherwise as many as the vectors loaded or stored have lanes. *)
Fixpoint scalars (t : ty) : Z :=
  match t with TScal _ => 1 | TArr n t' => Z.of_nat n * scalars t' | _ => 0 end.

Definition extent (f : func) : Z :=
  let is p := String.prefix p (f_name f) in
  if is "vld1_dup"%string || is "vld1q_dup"%string || is "vld1_lane"%string || is "vld1q_lane"%string then 1
  else if is "vld2_lane"%string then 2
  else if is "vld3_lane"%string then 3
  else if is "vld4_lane"%string || is "vst4q_lane"%string then 4
  else match f_ret f with
       | TVoid => fold_right Z.add 0 (map (fun p => scalars (snd p)) (f_params f))
       | t => scalars t
       end.

(** No parameter is a pointer. *)
Definition no_pointers (f : func) : Prop := forall p s, In p (f_params f) -> snd p <> TPtr s.

Definition is_store (f : func) : bool := match f_ret f with TVoid => true | _ => false end.

(** The [n] elements from [o] on exist, and for a load have values. *)
Definition covers (m : memory) (f : func) (o : obj) : Prop :=
  exists s b off cells, o = OPtr s b off /\ nth_error m b = Some (s, cells) /\
    0 <= off /\ off + extent f <= Z.of_nat (List.length cells) /\
    (is_store f = false ->
     forall i, 0 <= i < extent f -> exists z, nth_error cells (Z.to_nat (off + i)) = Some (Some z)).

(** The documented use of [f]: initialised arguments of the parameter types, pointers
    to enough elements, and the immediate in its range. *)
Definition valid_arg (m : memory) (f : func) (p : string * ty) (o : obj) : Prop :=
  has_type m (snd p) o /\ initialised o /\
  match snd p with
  | TPtr _ => covers m f o
  | TScal I32 =>
      match immediate_of f with
      | Some (l, h) => exists n, o = rv I32 n /\ l <= n <= h
      | None => True
      end
  | _ => True
  end.

Definition valid_args (m : memory) (f : func) (args : list obj) : Prop :=
  Forall2 (valid_arg m f) (f_params f) args.

(** Some pointer among the arguments points into block [b]. *)
Inductive points_into (b : nat) : obj -> Prop :=
| pi_ptr s off : points_into b (OPtr s b off)
| pi_arr l : Exists (points_into b) l -> points_into b (OArr l).

Definition reachable (args : list obj) (b : nat) : Prop := Exists (points_into b) args.

(** The two memories have the same block [b], for every [b] in [B]. *)
Definition agree_on (B : nat -> Prop) (m m' : memory) : Prop :=
  forall b, B b -> nth_error m b = nth_error m' b.

(** ** Element-wise operations *)

(** The number of lanes of the result. *)
Definition lane_count (f : func) : nat := match f_ret f with TArr n _ => n | _ => 0%nat end.

(** The intrinsics described lane by lane: result lane i is computed from lane i of the
    vector operands (and from the scalar operands).  [vsub_f32] names two functions,
    one of them with a float64x1_t operand; both are meant. *)
Definition element_wise : list string :=
  [ "vmaxq_s8"; "vmaxq_s16"; "vmaxq_s32"; "vmaxq_u8"; "vmaxq_u16"; "vmaxq_u32"; "vmaxq_f32"; "vadd_s8"; "vadd_s16";
    "vadd_s32"; "vadd_u8"; "vadd_u16"; "vadd_u32"; "vaddl_u8"; "vaddw_s8"; "vaddw_s16"; "vaddw_s32"; "vaddw_u8";
    "vaddw_u16"; "vaddw_u32"; "vaddq_s8"; "vaddq_s16"; "vaddq_s32"; "vaddq_s64"; "vaddq_u8"; "vaddq_u16";
    "vaddq_u32"; "vaddq_f32"; "vaddq_u64"; "vqadd_u8"; "vqaddq_u8"; "vsub_s8"; "vsub_s16"; "vsub_s32"; "vsub_s64";
    "vsub_u8"; "vsub_u16"; "vsub_u32"; "vsub_u64"; "vsub_f32"; "vsubq_s8"; "vsubq_s16"; "vsubq_s32"; "vsubq_s64";
    "vsubq_u8"; "vsubq_u16"; "vsubq_u32"; "vsubq_u64"; "vsubq_f32"; "vsubhn_s16"; "vsubn_s32"; "vsubn_s64";
    "vsubhn_u16"; "vsubn_u32"; "vsubn_u64"; "vhsub_s8"; "vhsub_s16"; "vhsub_s32"; "vhsub_u8"; "vhsub_u16";
    "vhsub_u32"; "vhsubq_s8"; "vhsubq_s16"; "vhsubq_s32"; "vhsubq_u8"; "vhsubq_u16"; "vhsubq_u32"; "vqsub_s8";
    "vqsub_s16"; "vqsub_s32"; "vqsub_s64"; "vsubl_s8"; "vsubl_s16"; "vsubl_u8"; "vsubl_u16"; "vsubw_s8";
    "vsubw_s16"; "vsubw_s32"; "vsubw_u8"; "vsubw_u16"; "vsubw_u32"; "vqsub_u8"; "vqsub_u16"; "vqsub_u32";
    "vqsub_u64"; "vqsubq_s8"; "vqsubq_s16"; "vqsubq_s32"; "vqsubq_s64"; "vqsubq_u8"; "vqsubq_u16"; "vqsubq_u32";
    "vqsubq_u64"; "vrsubhn_s16"; "vrsubhn_s32"; "vrsubhn_s64"; "vrsubhn_u16"; "vrsubhn_u32"; "vrsubhn_u64";
    "vmul_s8"; "vmul_s16"; "vmul_s32"; "vmul_u8"; "vmul_u16"; "vmul_u32"; "vmulq_s8"; "vmulq_s16"; "vmulq_s32";
    "vmulq_u8"; "vmulq_u16"; "vmulq_u32"; "vmulq_f32"; "vmul_n_s16"; "vmul_n_s32"; "vmul_n_u16"; "vmul_n_u32";
    "vmul_n_f32"; "vmul_n_f64"; "vmulq_n_s16"; "vmulq_n_s32"; "vmulq_n_u16"; "vmulq_n_u32"; "vmulq_n_f32";
    "vmulq_n_f64"; "vmull_u8"; "vmull_u16"; "vmull_u32"; "vmull_s8"; "vmull_s16"; "vmull_s32"; "vmull_n_s16";
    "vmull_n_s32"; "vmull_n_u16"; "vmull_n_u32"; "vqdmull_s16"; "vmlal_s8"; "vmlal_s16"; "vmlal_s32"; "vmlal_u8";
    "vmlal_u16"; "vmlal_u32"; "vmlsl_s8"; "vmlsl_s16"; "vmlsl_s32"; "vmlsl_u8"; "vmlsl_u16"; "vmlsl_u32";
    "vmlaq_s8"; "vmlaq_s16"; "vmlaq_s32"; "vmlaq_u8"; "vmlaq_u16"; "vmlaq_u32"; "vmlaq_f32"; "vmlaq_n_f32";
    "vdup_n_s8"; "vdup_n_s16"; "vdup_n_s32"; "vdup_n_s64"; "vdup_n_u8"; "vdup_n_u16"; "vdup_n_u32"; "vdup_n_u64";
    "vdupq_n_u8"; "vdupq_n_s8"; "vdupq_n_u16"; "vdupq_n_s16"; "vdupq_n_u32"; "vdupq_n_s32"; "vdupq_n_f32";
    "vmovq_n_f32"; "vminq_s8"; "vminq_s16"; "vminq_s32"; "vminq_u8"; "vminq_u16"; "vminq_u32"; "vminq_f32";
    "vcltq_f32"; "vbslq_f32"; "vshrn_n_s16"; "vshr_n_u16"; "vshrn_n_s32"; "vshrn_n_s64"; "vshrn_n_u16";
    "vshrn_n_u32"; "vshrn_n_u64"; "vqshrun_n_s16"; "vqshrun_n_s32"; "vqshrun_n_s64"; "vqrshrun_n_s16";
    "vrshrn_n_u16"; "vsraq_n_s32"; "vshlq_n_s32"; "vshll_n_u8"; "vcvtq_f32_s32"; "vcvtq_s32_f32"; "vcvtq_u32_f32";
    "vcvtnq_s32_f32"; "vrecpeq_f32"; "vrecpsq_f32"; "vmovn_s32"; "vmovn_u32"; "vmovn_u16"; "vmovl_u8"; "vmovl_u16";
    "vmovl_u32"; "vmovl_s8"; "vmovl_s16"; "vmovl_s32"; "vqmovn_u16"; "vqmovun_s16"; "vcgtq_u8"; "vbslq_u8";
    "vand_s8"; "vand_s16"; "vand_s32"; "vand_s64"; "vand_u8"; "vand_u16"; "vand_u32"; "vand_u64"; "vandq_s8";
    "vandq_s16"; "vandq_s32"; "vandq_s64"; "vandq_u8"; "vandq_u16"; "vandq_u32"; "vandq_u64"; "vorr_s8";
    "vorr_s16"; "vorr_s32"; "vorr_s64"; "vorr_u8"; "vorr_u16"; "vorr_u32"; "vorr_u64"; "vorrq_s8"; "vorrq_s16";
    "vorrq_s32"; "vorrq_s64"; "vorrq_u8"; "vorrq_u16"; "vorrq_u32"; "vorrq_u64"; "veor_s8"; "veor_s16"; "veor_s32";
    "veor_s64"; "veor_u8"; "veor_u16"; "ver_u32"; "veor_u64"; "veorq_s8"; "veorq_s16"; "veorq_s32"; "veorq_s64";
    "veorq_u8"; "veorq_u16"; "veorq_u32"; "veorq_u64"; "vmvn_s8"; "vmvn_s16"; "vmvn_s32"; "vmvn_u8"; "vmvn_u16";
    "vmvn_u32"; "vmvnq_s8"; "vmvnq_s16"; "vmvnq_s32"; "vmvnq_u8"; "vmvnq_u16"; "vmvnq_u32"; "vdiv_f32"; "vdiv_f64";
    "vdivq_f32"; "vdivq_f64"; "vqshrn_n_s16"; "vqshrn_n_s32"; "vqshrn_n_s64"; "vqshrn_n_u16"; "vqshrn_n_u32";
    "vqshrn_n_u64" ]%string.

(** Lane [k] of a vector; a scalar operand is the same for every lane. *)
Definition lane_at (k : nat) (o : obj) : option obj :=
  match o with OArr l => nth_error l k | _ => Some o end.

(** The vector whose lane j is lane [p j] of [o], for a list [p] of lane numbers. *)
Definition rearrange (p : list nat) (o : obj) : obj :=
  match o with OArr l => OArr (map (fun i => nth i l (OArr [])) p) | _ => o end.

(** Element [i] of the array at [off] in block [b]. *)
Definition element (m : memory) (b : nat) (i : Z) : option (option Z) :=
  match nth_error m b with
  | Some (_, cells) => if i <? 0 then None else nth_error cells (Z.to_nat i)
  | None => None
  end.


(** ** Defects, by name *)

(** The functions with a documented call whose behaviour is undefined even when signed
    overflow wraps (gcc's -fwrapv): out-of-bounds accesses, shifts by 32, out-of-range
    conversions of floating-point values. *)
Definition ub_wrapping : list string :=
  [ "vst4_u8"; "vqsub_s64"; "vqsub_u64"; "vqsubq_s64"; "vqsubq_u64"; "vsraq_n_s32";
    "vcvtq_s32_f32"; "vcvtq_u32_f32"; "vcvtnq_s32_f32"; "vqtbl1_u8"; "vrev32_s8" ]%string.

(** And under the C++ rules: also signed overflow. *)
Definition ub_strict : list string := ub_wrapping ++
  [ "vadd_s32"; "vadd_s64"; "vaddq_s32"; "vaddq_s64"; "vaddw_s16"; "vaddw_s32"; "vaddw_high_s16"; "vaddw_high_s32";
    "vaddhn_high_s32"; "vaddhn_high_s64"; "vaddl_high_s32";
    "vsub_s32"; "vsub_s64"; "vsubq_s32"; "vsubq_s64"; "vsubn_s32"; "vsubn_s64"; "vhsub_s32"; "vhsubq_s32";
    "vsubw_s16"; "vsubw_s32"; "vrsubhn_s32"; "vrsubhn_s64";
    "vmul_s32"; "vmul_u16"; "vmulq_s32"; "vmulq_u16"; "vmul_n_s32"; "vmul_n_u16"; "vmulq_n_s32"; "vmulq_n_u16";
    "vmull_u16"; "vmull_s32"; "vmull_n_s32"; "vmull_n_u16";
    "vmlal_s16"; "vmlal_s32"; "vmlal_u16"; "vmlsl_s16"; "vmlsl_s32"; "vmlsl_u16"; "vmlaq_s32"; "vmlaq_u16";
    "vqshrun_n_s32"; "vqshrun_n_s64"; "vshlq_n_s32" ]%string.

(** The functions with a documented call that returns a vector with unassigned lanes. *)
Definition uninit_names : list string := [ "vqshrun_n_s32"; "vqshrun_n_s64"; "vrev64q_s8"; "vrev64q_s16" ]%string.

(** ** The header *)

(** Functions of neon_sim.cpp that neon_sim.h does not declare, with their parameter
    types: misspelt names (vld_s32, vsubn_*, ver_u32), wrong parameter types (vmaxq_u*,
    vminq_u* on signed vectors, vsubl_*32, the second vsub_f32) and two internal helpers. *)
Definition undeclared : list (string * list ty) :=
  [ ("RecipEstimate", [TScal U32]); ("FPRecipEstimate", [TScal F32]); ("vld_s32", [TPtr I32]);
    ("vmaxq_u8", [tvec I8 16; tvec I8 16]); ("vmaxq_u16", [tvec I16 8; tvec I16 8]); ("vmaxq_u32", [tvec I32 4; tvec I32 4]);
    ("vminq_u8", [tvec I8 16; tvec I8 16]); ("vminq_u16", [tvec I16 8; tvec I16 8]); ("vminq_u32", [tvec I32 4; tvec I32 4]);
    ("vsub_f32", [tvec F64 1; tvec F64 1]);
    ("vsubn_s32", [tvec I32 4; tvec I32 4]); ("vsubn_s64", [tvec I64 2; tvec I64 2]);
    ("vsubn_u32", [tvec U32 4; tvec U32 4]); ("vsubn_u64", [tvec U64 2; tvec U64 2]);
    ("vsubl_s32", [tvec I32 4; tvec I32 2]); ("vsubl_u32", [tvec U32 4; tvec U32 2]);
    ("ver_u32", [tvec U32 2; tvec U32 2]) ]%string.

(** The name of a declaration. *)
Definition declared_name (h : string * ty * list ty * Z) : string := fst (fst (fst h)).

(** Declared names that are defined, but not with the declared types. *)
Definition mismatched : list string :=
  ["vmaxq_u8"; "vmaxq_u16"; "vmaxq_u32"; "vminq_u8"; "vminq_u16"; "vminq_u32"; "vsubl_s32"; "vsubl_u32"]%string.
