(** "The same but for the bits of NaNs": C69.  No program and no interpreter is mentioned. *)
From Coq Require Import ZArith String List Bool.
From Verif Require Import Types FloatSpec Syntax Interp.
Import ListNotations.
Open Scope Z_scope.

(** The same value, or two NaNs. *)
Definition same_value (t : sty) (x y : Z) : Prop :=
  x = y \/ (t = F32 \/ t = F64) /\ fnan t x /\ fnan t y.

Inductive same_cell (t : sty) : option Z -> option Z -> Prop :=
| same_none : same_cell t None None
| same_some x y : same_value t x y -> same_cell t (Some x) (Some y).

Inductive same_object : obj -> obj -> Prop :=
| same_scalar t v w : same_cell t v w -> same_object (OScal t v) (OScal t w)
| same_array l k : Forall2 same_object l k -> same_object (OArr l) (OArr k)
| same_pointer t b i : same_object (OPtr t b i) (OPtr t b i).

(** Blocks of the same type and length, cell by cell. *)
Definition same_memory (m n : memory) : Prop :=
  Forall2 (fun b d : block => fst b = fst d /\ Forall2 (same_cell (fst b)) (snd b) (snd d)) m n.

Inductive same_outcome : outcome -> outcome -> Prop :=
| same_return m n v w : same_memory m n -> same_object v w -> same_outcome (Returns m (Some v)) (Returns n (Some w))
| same_void m n : same_memory m n -> same_outcome (Returns m None) (Returns n None)
| same_abort : same_outcome Aborts Aborts
| same_undefined k : same_outcome (Undefined k) (Undefined k).

(** The functions that look at the bits of floats. *)
Definition inspects_bits : list string :=
  [ "FPRecipEstimate"; "vrecpeq_f32"; "vreinterpretq_u8_f32"; "vreinterpretq_u8_f64"; "vreinterpretq_u32_f32";
    "vreinterpretq_u32_f64" ]%string.

(** No float in a type. *)
Fixpoint no_float (t : ty) : bool :=
  match t with
  | TScal F32 | TScal F64 => false
  | TArr _ t => no_float t
  | TStruct ts => (fix go ts := match ts with [] => true | t :: ts => no_float t && go ts end) ts
  | _ => true
  end.
