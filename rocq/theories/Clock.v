(** The clock of the test runner (tests/utest.h): utest_ns and the duration of a test. *)
From Coq Require Import ZArith List Bool.
Import ListNotations.
Open Scope Z_scope.

(** The value of an expression of type int64_t; [None]: overflow, which is undefined. *)
Definition i64 (z : Z) : option Z := if (- 2 ^ 63 <=? z) && (z <? 2 ^ 63) then Some z else None.
Definition bind {A B} (x : option A) (f : A -> option B) : option B := match x with Some a => f a | None => None end.

(** What the operating system tells about the time:
    [Counter f c]: QueryPerformanceFrequency and QueryPerformanceCounter (Windows);
    [Processor p c]: CLOCKS_PER_SEC and clock() (Linux, strict ISO mode);
    [Calendar s n]: struct timespec, from timespec_get or clock_gettime(CLOCK_REALTIME) (other modes, other systems);
    [Mach c]: mach_absolute_time (macOS).  Left out: Emscripten, where a double is converted. *)
Inductive reading := Counter (f c : Z) | Processor (p c : Z) | Calendar (s n : Z) | Mach (c : Z).

(** utest_ns (utest.h:307-340) *)
Definition utest_ns (r : reading) : option Z :=
  match r with
  | Counter f c => bind (i64 (c * 1000000000)) (fun x => if f =? 0 then None else i64 (Z.quot x f))
  | Processor p c => bind (i64 (c * 1000000000)) (fun x => if p =? 0 then None else i64 (Z.quot x p))
  | Calendar s n => bind (i64 (s * 1000)) (fun x => bind (i64 (x * 1000)) (fun x => bind (i64 (x * 1000)) (fun x => i64 (x + n))))
  | Mach c => let x := c mod 2 ^ 64 in Some (if x <? 2 ^ 63 then x else x - 2 ^ 64)
  end.

(** ns = utest_ns(); ... ns = utest_ns() - ns (utest.h:1292, 1311) *)
Definition duration_ns (before after : reading) : option Z :=
  bind (utest_ns before) (fun a => bind (utest_ns after) (fun b => i64 (b - a))).

(** seed = (uint32_t)(ns >> 32) * 31 + (uint32_t)(ns & 0xffffffff) (utest.h:1222-1229) *)
Definition seed_of (ns : Z) : Z := ((Z.shiftr ns 32 mod 2 ^ 32) * 31 + Z.land ns (Z.ones 32) mod 2 ^ 32) mod 2 ^ 32.
