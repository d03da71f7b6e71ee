(** C88: the durations that the test runner prints (tests/utest.h). *)
From Coq Require Import ZArith List Bool Lia.
From Verif Require Import Runner Clock ClockSpec.
From Verif Require P_Clock.
Import ListNotations.
Open Scope Z_scope.

(** While the clock is below 2^63 ns the duration of a test is the time that went by, up to less than a nanosecond, and is not negative if the clock was not set back.
    Not on macOS: C88_mach_refuted. *)
Theorem C88_duration_partial : forall a b, sane a -> sane b -> same_clock a b -> is_mach a = false -> num 1 a < 2 ^ 63 -> num 1 b < 2 ^ 63 ->
  exists e, duration_ns a b = Some e /\ measures 1 1 a b e /\ (num 1 a <= num 1 b -> 0 <= e).
Proof. exact P_Clock.duration_good. Qed.
Print Assumptions C88_duration_partial.

(** The clock overflows exactly when the numerator of the time does not fit into 63 bits, whatever the denominator. *)
Theorem C88_defined : forall r, sane r -> is_mach r = false -> (utest_ns r = None <-> 2 ^ 63 <= num 1 r).
Proof. exact P_Clock.ns_iff. Qed.
Print Assumptions C88_defined.

(** On Windows this depends on the number of ticks since the start of the machine alone, whatever time they took: at the usual 10 MHz it
    takes 923 seconds. *)
Theorem C88_windows_refuted : forall f c, 1 <= f -> 0 <= c -> (utest_ns (Counter f c) = None <-> 9223372037 <= c).
Proof. exact P_Clock.windows_uptime. Qed.
Print Assumptions C88_windows_refuted.

(** A test that starts or ends after that has no defined duration. *)
Theorem C88_late_refuted : forall a b, sane a -> sane b -> is_mach a = false -> is_mach b = false -> 2 ^ 63 <= num 1 a \/ 2 ^ 63 <= num 1 b -> duration_ns a b = None.
Proof. exact P_Clock.duration_undefined. Qed.
Print Assumptions C88_late_refuted.

(** On macOS the duration is in ticks: it is wrong where a tick is not a nanosecond, as soon as enough ticks went by. *)
Theorem C88_mach_refuted : forall numer denom a b, 0 < denom -> 0 <= a < 2 ^ 63 -> 0 <= b < 2 ^ 63 -> denom <= Z.abs ((b - a) * (denom - numer)) ->
  exists e, duration_ns (Mach a) (Mach b) = Some e /\ ~ measures numer denom (Mach a) (Mach b) e.
Proof. exact P_Clock.mach_wrong. Qed.
Print Assumptions C88_mach_refuted.

(** What is printed is the number of ticks, for all readings but those before and after the tick 2^63. *)
Theorem C88_mach_ticks : forall a b, 0 <= a < 2 ^ 64 -> 0 <= b < 2 ^ 64 -> (a < 2 ^ 63 <-> b < 2 ^ 63) -> duration_ns (Mach a) (Mach b) = Some (b - a).
Proof. exact P_Clock.mach_ticks. Qed.
Print Assumptions C88_mach_ticks.

(** With --enable-mixed-units the number that is printed, in its unit, is the duration rounded down, has at most four digits, and has at least two unless it is in nanoseconds. *)
Theorem C88_units : forall e, 0 <= e < 10 ^ 13 -> let (u, t) := shown true e in
  (u < 4)%nat /\ t * 1000 ^ Z.of_nat u <= e < (t + 1) * 1000 ^ Z.of_nat u /\ t < 10000 /\ (u = 0%nat \/ 10 <= t).
Proof. exact P_Clock.shown_time. Qed.
Print Assumptions C88_units.

(** Runs that are started within the same 2^32 ns, and not at the same nanosecond, have different seeds for --random-order. *)
Theorem C88_seed : forall a b, a / 2 ^ 32 = b / 2 ^ 32 -> seed_of a = seed_of b -> a = b.
Proof. exact P_Clock.seed_distinct. Qed.
Print Assumptions C88_seed.

(** A Windows machine at 10 MHz after 922 and after 923 seconds; a calendar clock; a tick of 125/3 ns. *)
Example C88_example :
  sane (Counter 10000000 9220000000) /\ utest_ns (Counter 10000000 9220000000) = Some 922000000000 /\
  sane (Counter 10000000 9230000000) /\ utest_ns (Counter 10000000 9230000000) = None /\
  duration_ns (Calendar 1700000000 999999999) (Calendar 1700000001 1) = Some 2 /\
  duration_ns (Mach 1000) (Mach 25000) = Some 24000 /\ num 125 (Mach 25000) - num 125 (Mach 1000) = 1000000 * den 3 (Mach 0) /\
  shown true 12345678 = (2%nat, 12) /\ seed_of 1700000000123456789 <> seed_of 1700000000123456790.
Proof.
  split; [cbn; lia|]. split; [reflexivity|]. split; [cbn; lia|]. split; [reflexivity|]. split; [reflexivity|]. split; [reflexivity|]. split; [reflexivity|].
  split; [reflexivity|]. vm_compute. discriminate.
Qed.
