(** What the properties about byte order and [size_t] are stated with. *)
From Coq Require Import ZArith List Bool.
From Verif Require Import Types Syntax Spec ProgShift.
Import ListNotations.
Open Scope Z_scope.

(** The bytes of a vector in memory, in the order of their addresses, lane 0 first. *)
Definition image (big : bool) (t : sty) (a : list Z) : list Z :=
  flat_map (fun z => if big then rev (lane_bytes t z) else lane_bytes t z) a.

(** The functions that reinterpret lanes as lanes of another size. *)
Definition repacking : list func :=
  [ vreinterpret_u16_u8; vreinterpret_u32_u16; vreinterpret_u8_u32; vreinterpret_u32_u8; vreinterpret_s32_s16; vreinterpret_s16_s32;
    vreinterpretq_u8_s16; vreinterpretq_u8_s32; vreinterpretq_u8_f32; vreinterpretq_u8_u16; vreinterpretq_u8_u32; vreinterpretq_u8_u64;
    vreinterpretq_u8_s64; vreinterpretq_u8_f64; vreinterpretq_u32_s8; vreinterpretq_u32_s16; vreinterpretq_u32_u8; vreinterpretq_u32_u16;
    vreinterpretq_u32_u64; vreinterpretq_u32_s64; vreinterpretq_u32_f64 ].

