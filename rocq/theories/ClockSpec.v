(** Time.  Nothing here is code of neon_sim. *)
From Coq Require Import ZArith List Bool.
From Verif Require Import Clock.
Local Open Scope Z_scope.

(** The time that a reading stands for, in nanoseconds: a fraction.  The ticks of mach_absolute_time take numer/denom ns each, as mach_timebase_info tells. *)
Definition num (numer : Z) (r : reading) : Z :=
  match r with Counter _ c => c * 10 ^ 9 | Processor _ c => c * 10 ^ 9 | Calendar s n => s * 10 ^ 9 + n | Mach c => c * numer end.
Definition den (denom : Z) (r : reading) : Z :=
  match r with Counter f _ => f | Processor p _ => p | Calendar _ _ => 1 | Mach _ => denom end.

(** What the systems promise: a frequency that does not change, counters that are not negative, nanoseconds below a second. *)
Definition sane (r : reading) : Prop :=
  match r with
  | Counter f c | Processor f c => 1 <= f /\ 0 <= c
  | Calendar s n => 0 <= s /\ 0 <= n < 10 ^ 9
  | Mach c => 0 <= c < 2 ^ 64
  end.
Definition same_clock (a b : reading) : Prop :=
  match a, b with
  | Counter f _, Counter f' _ | Processor f _, Processor f' _ => f = f'
  | Calendar _ _, Calendar _ _ | Mach _, Mach _ => True
  | _, _ => False
  end.
Definition is_mach (r : reading) : bool := match r with Mach _ => true | _ => false end.

(** [e] is the difference of two times up to less than one nanosecond. *)
Definition measures (numer denom : Z) (a b : reading) (e : Z) : Prop :=
  Z.abs (e * den denom a - (num numer b - num numer a)) < den denom a.
