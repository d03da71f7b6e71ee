# Formal model of neon_sim: design

The code under study is `neon_sim.cpp` / `neon_sim.h` of zchrissirhcz/neon_sim:
portable C++ re-implementations of ARM NEON intrinsics. Each intrinsic is a
small function over structs of fixed-size arrays (`int8x8_t` = `{int8_t val[8];}`).

## 1. What is modelled, and how

The model is a *deep embedding*. Every compiled function of `neon_sim.cpp` (539 of them) is a
syntax tree of a small C (`theories/Syntax.v`), and one executable interpreter
(`theories/Interp.v`) gives it C++11 semantics. The trees are generated from the source text by
`tools/translate.py`; each carries the C text and its line numbers as a
comment, so the translation can be read side by side. A front end written in Gallina
(`Frontend.v`: preprocessor, lexer, parser) turns the text of the two files into exactly these
trees and declarations (C66), so neither the script nor the hand translation is trusted. Nothing is bounded:
lane contents, memories, pointers and immediates are universally quantified.

Model:

| file | contents |
|------|----------|
| `Types.v` | scalar types, widths, ranges, modular reduction |
| `FloatBits.v` | IEEE-754 bit patterns and operations, on top of the standard library's `SpecFloat` |
| `Syntax.v` | abstract syntax of the C fragment used by neon_sim.cpp |
| `Interp.v` | memory, objects, outcomes, the interpreter |
| `Prog*.v`, `ProgRecip.v` | generated (ProgRecip by hand): one definition per C function |
| `Library.v` | the list of all functions |
| `Header.v` | generated: the 1996 declarations of neon_sim.h |
| `SourceH.v`, `SourceCpp.v` | the text of neon_sim.h and neon_sim.cpp, line by line, without comments (`tools/embed.py`) |
| `Frontend.v` | preprocessor, lexer and parser for the C++ fragment of the two files |

Specification, independent of the functions' bodies:

| file | contents |
|------|----------|
| `Spec.v`, `FloatSpec.v`, `FloatR.v` | what intrinsics should do, over lists of integers, float bit patterns and reals |
| `Tables.v` | which functions a theorem ranges over: function, lane type, number of lanes |
| `MetaSpec.v` | well-typed memories and arguments, documented calls, footprints (C46-C56) |
| `Compose.v` | sequencing of two calls (C62, C63) |
| `Client.v` | histories, programs, loops and threads that use the library (C57-C61) |
| `Order.v` | the interpreter with the order of evaluation left open (C68) |
| `NanSpec.v` | equality but for the bits of NaNs (C69) |
| `Contract.v`, `ContractSpec.v` | the interpreter with fused multiply-add at the compiler's choice, and what one and two roundings mean (C71) |
| `Diag.v`, `DiagSpec.v` | the diagnostics printed before an abort, read from the source text; what it means to state a range (C72) |
| `Excess.v` | the interpreter with floating-point expressions evaluated in a wider format (C73) |
| `Host.v`, `HostSpec.v` | the interpreter with the order of bytes and the width of `size_t` left open; the bytes of a vector in memory (C74) |
| `Transpose.v` | client programs that transpose blocks and matrices, and what transposed means (C75) |
| `Pixels.v` | client programs for images and signals with their scalar formulas (C76) |
| `Runner.v`, `RunnerSpec.v` | the test runner tests/utest.h (checks, command line, filter, shuffle, loop, report, exit status), by hand; what one expects of it |
| `SuiteSource.v`, `Suite.v`, `SuiteSpec.v` | the text of tests/test_*.cpp (tools/embed_tests.py); a lexer, parser and interpreter for it; the tests linked with the library and the runner |
| `Fenv.v`, `FenvSpec.v` | the interpreter with the floating-point operations, comparisons and conversions given by an environment; directed rounding, the IEEE 754 environments, flushing of denormals, interval sums (C83) |
| `Overlap.v` | programs that go through arrays in any order of blocks, orders, the intended effect (C84) |
| `Xml.v` | messages of checks and the XML file of `utest.h` (C85) |
| `XmlSpec.v` | XML documents, well-formedness, the intended report (C85) |
| `HelperSource.v` | the text of `tests/neon_helper.hpp`, written by `tools/embed_helper.py` (C86) |
| `Helper.v` | the operators of `tests/neon_helper.hpp`, streams (C86) |
| `HelperSpec.v` | numerals, printable types (C86) |
| `Alloc.v` | `tests/utest.h`: registration, lists, blocks, failing allocations (C87) |
| `AllocSpec.v` | runs, verdicts, number of allocations (C87) |
| `Clock.v` | `tests/utest.h`: the clock, durations, the seed (C88) |
| `ClockSpec.v` | the time that a reading stands for (C88) |
| `Near.v`, `Strings.v` | `tests/utest.h`: the checks of closeness and of strings (C89) |
| `StringsSpec.v` | strings in arrays (C89) |
| `Checked.v` | programs that include neon_sim.h: what compiles (types of the header, declarations, initialiser lists), what links, what runs; the declarative typing rules (C82) |
| `FloatSum.v` | what an accurate sum of products is; accumulation with vmlaq_f32, matrix products and filters as programs that use the library (C81) |
| `Sorting.v` | sorting networks, rank filters and the 3x3 median filter as programs that use the library, and what they should do (C80) |
| `UtilSource.v`, `UtilFront.v` | the text of tests/test_util.hpp (tools/embed_util.py) and a front end for it; it gives the definitions of `TestUtil.v` (C70_source) |
| `TestUtil.v`, `TestSpec.v` | tests/test_util.hpp: the comparison functions of the tests, and what they should do (C70) |
| `Micro.v` | calls one statement at a time, threads interleaved between statements, the memory accesses of a step, races (C64, C65) |

Proofs:

| file | contents |
|------|----------|
| `ExecLemmas.v`, `Lane.v`, `Ew.v`, `Sym.v`, `Local.v` | loop lemmas and symbolic execution |
| `P_*.v` (families) | functional correctness per family of intrinsics |
| `Fuel.v`, `Frame.v`, `Wrapv.v` | meta-theorems about the interpreter: bounds, frame, `-fwrapv` |
| `Abs.v`, `AbsSound.v` | an abstract interpreter for the language and its soundness |
| `P_Meta.v`, `P_Meta2.v`, `P_Valid*.v`, `P_Lanes.v`, `P_Det.v`, `P_Header.v` | library-wide results |
| `Typing.v`, `TypeSound.v` | a static type checker, accepting every function; an accepted function is never stuck and its expressions have the computed types |
| `Conformance.v` | the project's own unit tests as computations of the model (validation, not proof) |
| `P_Exact.v` | remaining inputs of the functions that deviate |
| `P_Client.v`, `P_Kernels.v`, `P_Threads.v`, `P_Parallel.v` | programs, loops, threads |
| `P_Micro.v`, `P_Micro2.v`, `P_Micro3.v`, `P_Race.v`, `P_Once.v`, `P_Sched.v`, `P_Parallel2.v` | calls as sequences of steps, their interleavings, accesses and races |
| `P_Compose*.v` | identities between intrinsics |
| `P_Newton.v` | Newton-Raphson steps, conversion and back (C67, C33) |
| `P_Order.v`, `P_Nan.v`, `P_Nan2.v` | independence of the order of evaluation and of NaN bits (C68, C69) |
| `P_Contract.v` | contraction is irrelevant to a function whose type check finds no candidate (C71) |
| `P_Contract2.v`, `P_Contract3.v` | the three functions with candidates; agreement for exact products (C71) |
| `P_Diag.v` | which calls abort, and the ranges their diagnostics state (C72) |
| `P_Round.v` | rounding to a format of more than twice the digits first does not change the result of an operation; exact differences (C73) |
| `P_Excess.v`, `P_Excess2.v`, `P_Excess3.v` | a static check for functions whose results do not depend on the format, its soundness, the library; vqsub of 64-bit lanes in the x87 format (C73) |
| `P_Host.v`, `P_Host2.v`, `P_Host3.v` | counters of type `size_t` are small and used as indices only: a simulation between widths; copies between scalars of one size do not depend on byte order: a simulation on well-typed states; vreinterpret on any machine (C74) |
| `P_Transpose.v`, `P_Transpose2.v` | blocks in vectors; matrices in memory (C75) |
| `P_Pixels.v`, `P_Pixels2.v` | one result array; several or none (C76) |
| `P_Runner.v`, `P_Runner2.v` | proofs of C77, C78 |
| `P_Suite.v`, `P_Suite2.v` | proofs of C79; what a check says, the verdict for any library, what a passing program means |
| `P_Fenv.v`, `P_Fenv2.v`, `P_Fenv3.v`, `P_Fenv4.v` | functions that do not meet the environment: a check on the types of expressions and its soundness; lanes of the others; directed rounding; sums, witnesses (C83) |
| `P_Overlap.v`, `P_Overlap2.v` | moving blocks: the general invariant and the orders; in place, wrong orders (C84) |
| `P_Xml.v`, `P_Xml2.v` | the file is the document, reading it back; malformed and undefined cases, the project's tests (C85) |
| `P_Helper.v` | digits, loops and chains, reading back (C86) |
| `P_Alloc.v` | arrays that grow, names, damaged arrays (C87) |
| `P_Clock.v` | ranges, rounding, units (C88) |
| `P_Near.v`, `P_Strings.v` | fields of a double, distances; comparison of strings (C89) |
| `P_Checked.v`, `P_Checked2.v` | soundness of the type checking by induction on programs; equivalence with the typing rules; linking; initialiser lists (C82) |
| `P_FloatSum.v`, `P_FloatSum2.v`, `P_FloatSumWit.v` | the error bound of a lane by induction on the number of products; vectors, programs; concrete cases (C81) |
| `P_Sorting.v`, `P_Sorting2.v` | sorting networks: the 0-1 principle, insertion sort, columns of registers, the filters; floats (C80) |
| `P_UtilFront.v` | the text of tests/test_util.hpp parses to `TestUtil.v` |
| `P_TestUtil.v` | the comparison functions of the tests (C70) |
| `P_Frontend.v` | the parsed text is the model (C66) |
| `Properties*.v` | the final theorems, each `exact` a lemma, with `Print Assumptions` and examples |

### Outcomes

A call yields one of: `Returns mem value`, `Aborts`, `Undefined kind`,
`Timeout` (loop fuel exhausted), `Stuck` (a dynamic type error of the model
itself). Undefined behaviour is a distinct outcome with the kinds: signed
overflow, shift count out of range / shift of a negative value, out-of-bounds
access, read of an uninitialised scalar, float-to-integer conversion out of
range, division by zero, missing return. `Timeout` and `Stuck` are proved impossible for
well-typed calls (C47, C48).

### C++ semantics that is modelled

* LP64, little-endian, two's complement; `size_t` = `uint64_t`; `char` signed.
* Integer promotion, usual arithmetic conversions, implicit conversion at
  assignment, initialisation, argument passing and return.
* Signed arithmetic overflow: undefined (strict mode, `wrapv c = false`) or
  wrapping (`wrapv c = true`, what `-fwrapv` gives). Every theorem is stated for a
  configuration `c`; if it needs one of the modes it says so.
* Conversion of an out-of-range integer to a signed type: modulo 2^w
  (implementation-defined in C++11; this is what GCC/Clang/MSVC document).
* `>>` of a negative value: arithmetic (implementation-defined, same remark).
* `<<`: undefined for count outside `[0,width)`, and in strict mode for
  a negative left operand or a result not representable in the unsigned type
  (C++11 with CWG 1457, so `1 << 31` is `INT_MIN`).
* Floats: IEEE binary32/binary64, round to nearest even, no excess precision
  (FLT_EVAL_METHOD = 0; see C73 for what it changes) and no contraction (see C71); values are bit patterns. The payload and sign of a
  NaN produced by an operation is chosen by an arbitrary function in the
  configuration, so theorems hold for every NaN policy.
* Float to integer conversion out of range (or NaN, infinity): undefined.
* Memory: a list of typed objects (blocks) of cells, each cell possibly
  uninitialised. A pointer is a block number and an offset. Access outside the block is undefined.
* `abort()` ends the program. The message printed before is not part of the outcome; its text is read from the source in `Diag.v` (C72).

### Simplifications (also noted at the definitions)

* A single-field struct `{T val[n];}` is the array itself; `x.val[i]` is indexing.
* The arguments of an intrinsic are evaluated by the caller; calls are by value.
* `const` and `extern "C"` have no run-time effect and are dropped.
* `a += e` is `a = a + e`; `i++` is `i = i + 1` (no side effects in the
  expressions involved, and `i` is `int` or `size_t`).
* `memcpy` between two local objects is modelled bytewise, little-endian.
* `float_parts` (constructor, `operator float`) is translated by hand, and by `Frontend.v` alike: a struct of its fields,
  with the private member function `int32_to_binary` inlined at its two call sites; the
  `std::string` members are arrays of `char`.
* Two functions under `#if __fp16` (`vreinterpretq_u8_f16`, `vreinterpretq_u32_f16`) are not compiled and not modelled,
  and the declarations under the same condition are not among the 1996.
* Threads: in C60 and C61 a call is one step, in C64 and C65 a step is one statement (or the test or
  increment of a loop), which accesses memory at most once (C64_single_access). Interleaving is
  sequentially consistent; C++ guarantees that for programs without data races, which C65 shows the
  programs of C60 to be. Allocation and the creation and joining of threads are not modelled.

### Not modelled

The C++ compiler, ABI and linker (beyond name and parameter-type agreement for C51),
changes of the floating-point environment during a call (between calls: C83), floating-point exceptions, `-ffast-math`,
contraction to FMA across statements or inlined calls (within an expression: C71), aliasing between `ptr` and anything else (vectors are
passed by value, so there is nothing to alias), the formats of the stream in tests/neon_helper.hpp but for the base, and of the test program's runner (`Runner.v`)
colours and the bodies of fixtures (registration and allocation failure: C87), the build files and documentation.

## 2. Trusted base

* Coq 8.16.1's kernel (re-checked by coqchk), including its `vm_compute`.
* That `SourceH.v` and `SourceCpp.v` are the two files (compare with `tools/embed.py`), that `Frontend.v` reads C++ as
  C++ does, and that `Interp.v` is C++11 as described above. The translator is not trusted (C66). `Conformance.v` checks the model against the results the project's tests expect.
* `Spec.v`, `FloatSpec.v`, `MetaSpec.v`, `Client.v` and the tables saying what the English properties say.
* The axioms in section 4.

## 3. Properties and how each is proved

Notation: `run c m f args` is the interpreter on function `f`.

* C01, C02 loads: `run c m vldk [ptr] = Returns m (...)` with lanes read off the memory contents; by symbolic
  execution after case analysis on the (fixed-length) lists. Works for arbitrary blocks/offset through a read lemma for blocks.
* C03, C04 stores: final memory equals the initial memory with exactly k*n cells replaced. vst4_u8, vst4_u32 are refuted (wrong index).
* C05 round trips: from C01-C04, no new execution.
* C06, C08, C09, C10, C11: symbolic execution; lane numbers by cases.
* C07: abort/UB characterised for all ints; refuted for the unchecked functions.
* C12-C24: loop-invariant lemma for `for (i = 0; i < n; i++) D[i] = e(i)`, one symbolic evaluation of `e(i)` per
  function; arithmetic side conditions by `lia`. For functions with possible overflow: exact result when `wrapv`, and an
  "undefined iff some lane overflows" theorem in strict mode. Wrong functions get `_refuted` theorems.
* C25-C27, C33-C35 floats: lanes characterised through `SpecFloat`, then linked with Flocq to real-number rounding.
* C28-C31 shifts: as C12; immediates by range analysis.
* C32 reinterprets: equality of byte lists.
* C36-C40: symbolic execution.
* C41-C43 bitwise: `Z.testbit` characterisation.
* C44, C45: derived from the functional theorems.
* C46, C48, C53, C55: meta-theorems on the interpreter (frame, typing, footprint), an abstract interpreter proved sound for it,
  and one run of the abstract interpreter per function, lifted by `forallb_forall`.
* C47: more fuel and call depth never change an outcome other than `Timeout` (`Fuel.v`), and no function times out (abstract interpreter).
* C49, C50, C54: the abstract interpreter shows absence; every function it does not clear is refuted with a witness, so the lists are exact.
* C51: `Header.v` compared with the library, by computation on finite tables; refuted with the exact lists.
* C52: a syntactic criterion for element-wise functions, proved to imply lane independence.
* C56: simulation between the two overflow modes, by induction on the interpreter (`Wrapv.v`).
* C57 histories: induction over the history, from C46, C48, C53, C55.
* C58 programs: induction over the program tree, from C47-C50, C54.
* C59 loops: induction on the number of steps with the contents of the arrays as invariant; element operation from C12-C42.
* C60 threads: every thread's state is the one of its solo run, as an invariant of the interleaving; commutation from C55.
* C61 parallel loop: C59's loops satisfy C60's confinement condition.
* C64 preemption inside calls: the steps of a call are tied to its big-step meaning (`adequate`); invariant: every thread inside a call
  would, on the segment of memory it covers, complete as in its solo run (locality of a step, as in C55); termination by the rank
  (call tree, steps left); then every complete schedule ends in the memory of C60.
* C65 races: the accesses of a step determine its effect (`access_sound`), and under C64's invariant they lie in the thread's own elements.
* C62 fused steps: equality of outcomes from the per-lane characterisations (C12-C42) and a lemma that splits a monadic map
  all of whose failures are the same.
* C63 idioms: the same, followed by lane arithmetic.
* C66 inventory: `front_end` applied to the embedded text computes to the model (kernel computation on closed terms; the domain is the text itself).
* C67 reciprocals: real-number error analysis of one step (rounding errors of two products and a difference), started from C34's bound.
* C68 order: simulation between `Interp.v` and `Order.v` under an arbitrary oracle; expressions have no side effects and never call abort().
* C69 NaNs: a logical relation (equal data, NaN bits arbitrary) preserved by every operation; the functions that copy bytes are treated apart.
* C70 test comparison: one loop lemma for all overloads, then exactness of small integers in double; for floats, differences of floats do not round to zero in double.
* C71 contraction: a static check on the typed program finds three functions with a float product inside a float sum; for all others the two interpreters agree by induction on the program, using soundness of the types; the three are computed lane by lane with a proved-correct fused operation.
* C72 diagnostics: a statement without abort never aborts (induction on the interpreter), so a call aborts exactly if the guard at its beginning holds; the texts are computed from the embedded source by a scanner over the tokens of the front end.
* C73 wider formats: a static check finds the expressions where an operation is followed at once by a rounding to its own type; there double rounding is innocuous if the format has 2p+2 digits (Flocq's theorems, lifted from reals to floats with signs, infinities and NaNs); agreement of the interpreters by induction on the program. The vqsub functions on 64-bit lanes by symbolic execution, the difference of two rounded 64-bit integers being exact in 64 digits.
* C74 byte order and size_t: `Host.v` repeats `exec` with both left open. The width is irrelevant by a simulation in which the counters in scope are tagged with their values; that they are used as indices only and count from 0 to a small literal is checked by computation for all functions. The byte order is irrelevant where every `memcpy` is between objects whose scalars have one size and covers them all, checked likewise; the 21 functions that fail the check are exactly those refuted. Not modelled: machines on which `int` is not 32 bits wide, right shifts of negative numbers are not arithmetic, or conversions to signed types do not wrap.
* C75 transposition: each sequence is executed symbolically with the exact results of its intrinsics; the loops over blocks by induction, the invariant being the memory with every finished block overwritten.
* C76 kernels: one lemma for loops that make one vector of the result per step (the array is filled up to the step reached), instantiated with each body; splitting needs an invariant over several arrays, the dot product one over the partial sums modulo 2^32.
* **C77** `Runner.v` models utest.h function by function: a test body is the list of its checks, skips, exceptions and
  aborts; `utest_main` yields the lines printed and the exit status. `RunnerSpec.v` says what is expected: which events
  a body reaches, the report of a list of tests, the meaning of a command line. Proofs: induction on the body, on the
  tests and on the shuffle loop (each step swaps two elements within the array, so the result is a permutation, for every
  seed). Refutations by witness.
* **C78** `should_filter` is the double loop with positions into the two NUL-terminated strings and an explicit answer
  for reading outside; `glob` is the inductive definition of matching. Proof: induction on a measure that also shows
  termination; soundness by the invariant that what has been consumed matches the pattern up to the current position.
* **C79** `Suite.v` parses the text of the 29 test files ([None] on anything outside the fragment) and runs
  each test: declarations and initialisers, decimal literals rounded to double and then to float, calls of the library
  (`run`), arrays and std::vector as blocks of memory, almostEqual by its C++ model, EXPECT_EQ. `linked` puts the tests,
  in any order, into the runner. The checks are computed with the NaN choice a variable, for both treatments of overflow;
  the program by C77's theorem; independence of functions not called by induction on the syntax of tests.
* **C80** a network is a list of pairs of registers. A network commutes with monotone functions, so it is decided by zeros and ones (0-1 principle); insertion sort is proved by induction on the number of registers, the 19-exchange median by checking the 512 lists of zeros and ones in the kernel. Columns of registers are related to numbers by the exact theorems for vminq/vmaxq (C24), vqsub (C17), vadd and vsub (C12, C13), and the array programs by those for vld1 and vst1. Floats are ordered by the integer multiple of 2^-149 they are.
* **C81** a lane goes through a sequence of steps, each of them either two roundings or one (`C71`). With u = 2^-24 and e = 2^-150 the invariant after k steps is |s - S| <= ((1+u)^(k+1) - 1) T + 2 k e (1+u)^k, where S is the exact sum and T the sum of the magnitudes; the step uses Flocq's error bound for rounding to nearest with gradual underflow, and the hypothesis that (1+u)^(K+1) (T + 2 K e) is at most 2^127 rules out overflow on the way. Integers up to 2^24 are floats, so those sums are exact. The programs are run with `steps_run` (`C76`) around an inner induction.
* **C82** the compiler is an executable checker on the statement language of `Suite.v` (parsed from text), with the types read from the text of neon_sim.h (`C82_types`) and the declarations of `Header.v`; it is proved equivalent to inductive typing rules (`of_type`). Soundness is by induction on programs, with `P_Meta.any_call` for the calls. Not modelled: pointers other than arrays, assignment, control flow (these are in C58-C61), overloads, designated or nested lists.
* **C83** the interpreter is parametrised with a record of what the environment makes of operations, comparisons and conversions (`fenv`), unrestricted. That a function does not meet it is decided by a check on the static types of its expressions, whose soundness (for well-typed arguments) is proved by induction on statements, as for C73. The lanes of the arithmetic functions are computed with the environment a variable. The IEEE 754 environments are built from Flocq's operations with its rounding modes, and satisfy the specification of directed rounding by Flocq's correctness theorems; enclosures are proved by induction on the number of products.
* **C84** the program is a fold over a list of block offsets. Induction over the list with the invariant that the destination holds the results for the blocks done so far and is otherwise unchanged; a block that is read from the destination must either be untouched (no hazard) or give the same result when done again (idempotence). The orders (front to back, back to front, overlapping last block) are shown to cover the range and to have no hazard. For the wrong orders: the array with a single 1 at an element that the first block overwrites becomes all zeros.
* **C85** the text that is written is a fold over the tests and their events. Induction over both shows that it is the rendering of a tree (`report_of`), whose well-formedness needs only that names and messages are free of `<`, `&`, quotes and `]]>`. Reading back: the first quote and the first `<` end name and messages. For exceptions: the functions commute with cutting bodies at the exception. For `<`: everything before the message has only proper tags, by a boolean invariant closed under concatenation.
* **C86** an operator is its loop (bound, separator, cast) or its chain of registers; written down as C++ the operators are the lines of the header. Induction over the loop and the chain gives the text. The digits are shown to be a numeral (no leading zero, digits of the base, the value) by induction over the division by the base. Numerals have no comma and no newline, so that the text can be taken apart again, and a numeral has one value.
* **C87** a program is a list of registered tests, and an oracle says which allocation succeeds. If all do, the arrays are the lists so far with an element added each time (induction over registration, then over the run), the names fit into their blocks because an index has at most 20 digits, and the blocks are counted. If one fails, the array is gone or has an element that was not written; both stay so whatever happens next, and the element is read at the end.
* **C88** a reading of a clock is a fraction of nanoseconds; the arithmetic of the code is in int64_t with overflow as undefined. Quotient and remainder give the error of a difference of two rounded times, the ranges give where it is defined, exactly. The units are the four cases of the loop.
* **C89** the masks are remainders modulo 2^63, which leave exponent and fraction; the subtraction and the comparison are those proved to be IEEE operations in `FloatR.v`, and rounding is monotonic. Strings: induction over the common prefix.

## 4. What Print Assumptions lists for each theorem

Every theorem of `Properties*.v` is followed by its `Print Assumptions`. All axioms are the standard library's
(`Coq.Logic`, `Coq.Reals`); they come in with Coq's real numbers, through Flocq, or, for the library-wide theorems,
through the proofs about float operations they use.

**No axioms ("Closed under the global context")** - 376 theorems:

* C01: `C01_vld1`
* C02: `C02_vldk`
* C03: `C03_vst1`
* C04: `C04_vst4_u32_refuted`, `C04_vst4_u8_refuted`, `C04_vstk_partial`
* C05: `C05_load_store1`, `C05_load_storek_partial`, `C05_store_load1`, `C05_store_loadk_partial`, `C05_vst4_u32_refuted`
* C06: `C06_vld1_lane`, `C06_vldk_lane`
* C07: `C07_vget_lane_refuted`, `C07_vgetq_lane_f32_partial`, `C07_vld1_lane_refuted`, `C07_vldk_lane_partial`, `C07_vst4q_lane_refuted`
* C08: `C08_vst4q_lane`
* C09: `C09_vdup`, `C09_vld1q_dup`
* C10: `C10_combine_halves`, `C10_halves_combine`, `C10_vcombine`, `C10_vget_high`, `C10_vget_low`
* C11: `C11_vget_lane`
* C12: `C12_vadd_partial`, `C12_vadd_refuted`
* C13: `C13_vsub_partial`, `C13_vsub_refuted`
* C14: `C14_assoc_refuted`, `C14_vadd_assoc_partial`, `C14_vadd_comm`, `C14_vsub_self`, `C14_vsub_vadd_partial`
* C15: `C15_vaddl`, `C15_vaddl_high`, `C15_vaddl_high32_partial`, `C15_vaddl_high_s32_refuted`, `C15_vaddl_high_u32_refuted`, `C15_vaddw_high_partial`, `C15_vaddw_high_refuted`, `C15_vaddw_partial`, `C15_vaddw_refuted`, `C15_vpaddl`
* C16: `C16_vaddhn_high_overflow_refuted`, `C16_vaddhn_high_partial`, `C16_vaddhn_high_refuted`, `C16_vrsubhn64_overflow_refuted`, `C16_vrsubhn64_refuted`, `C16_vrsubhn_overflow_refuted`, `C16_vrsubhn_partial`, `C16_vsubhn`, `C16_vsubn_overflow_refuted`, `C16_vsubn_refuted`
* C17: `C17_vqadd`, `C17_vqsub`, `C17_vqsub64_refuted`
* C18: `C18_vhsub_partial`, `C18_vhsub_s32_refuted`, `C18_vhsub_u32_refuted`
* C19: `C19_vsubl`, `C19_vsubl32_partial`, `C19_vsubl_signed`, `C19_vsubw_partial`, `C19_vsubw_refuted`
* C20: `C20_vmul_n_partial`, `C20_vmul_n_refuted`, `C20_vmul_partial`, `C20_vmul_refuted`
* C21: `C21_vmull_n_overflow_refuted`, `C21_vmull_n_partial`, `C21_vmull_n_u32_refuted`, `C21_vmull_overflow_refuted`, `C21_vmull_partial`, `C21_vmull_u32_refuted`
* C22: `C22_vqdmull`, `C22_vqdmull_sat`
* C23: `C23_long8`, `C23_long8_sub`, `C23_short`, `C23_vmlal_partial`, `C23_vmlal_refuted`, `C23_vmlal_u32_refuted`, `C23_vmlal_u32_value_refuted`, `C23_vmlaq_partial`, `C23_vmlaq_refuted`, `C23_vmlsl_partial`, `C23_vmlsl_refuted`, `C23_vmlsl_u32_value_refuted`
* C24: `C24_unsigned_max_partial`, `C24_unsigned_max_refuted`, `C24_unsigned_min_partial`, `C24_unsigned_min_refuted`, `C24_vmax`, `C24_vmax_laws`, `C24_vmin`, `C24_vmin_laws`
* C28: `C28_vshr_n_u16_partial`, `C28_vshr_n_u16_refuted`, `C28_vshrn`
* C29: `C29_vqrshrun_n_s16`, `C29_vqshrn`, `C29_vqshrn_n_s64_partial`, `C29_vqshrn_n_s64_refuted`, `C29_vqshrun_n_s16`, `C29_vqshrun_n_s32_overflow_refuted`, `C29_vqshrun_n_s32_refuted`, `C29_vqshrun_n_s32_wrapv_refuted`, `C29_vqshrun_n_s64_overflow_refuted`, `C29_vqshrun_n_s64_refuted`, `C29_vqshrun_n_s64_value_refuted`
* C30: `C30_vrshrn_n_u16`, `C30_vshll_n_u8`, `C30_vshlq_n_s32_partial`, `C30_vshlq_n_s32_refuted`, `C30_vsraq_n_s32_refuted`
* C31: `C31_vext`, `C31_vext8_refuted`, `C31_vqshrn_n_s64_refuted`, `C31_vqshrn_refuted`, `C31_vqshrun`, `C31_vrshrn_n_u16_min_refuted`, `C31_vrshrn_n_u16_refuted`, `C31_vshll_n_u8_accepts_refuted`, `C31_vshll_n_u8_refuted`, `C31_vshlq_n_s32_any_refuted`, `C31_vshlq_n_s32_refuted`, `C31_vshr_n_u16`, `C31_vshrn`, `C31_vsraq_n_s32_refuted`, `C31_vsraq_n_s32_zero_refuted`
* C32: `C32_bytes_determine`, `C32_round_trip`, `C32_vreinterpret`
* C34: `C34_vrecpeq_estimate`
* C36: `C36_vtrn`, `C36_vtrn_twice`, `C36_vuzp`, `C36_vuzp_vzip`, `C36_vzip`, `C36_vzip_vuzp`
* C37: `C37_vrev16`, `C37_vrev32_partial`, `C37_vrev32_s8_refuted`, `C37_vrev64_partial`, `C37_vrev64q_refuted`, `C37_vrev_twice_partial`
* C38: `C38_vmovl`, `C38_vmovn`, `C38_vmovn_vmovl`, `C38_vqmovn`, `C38_vqmovun`
* C39: `C39_vqtbl1_partial`, `C39_vqtbl1_refuted`, `C39_vtbl1`, `C39_vtbl2`, `C39_vtbl4`
* C40: `C40_vext`
* C41: `C41_vbslq_f32_partial`, `C41_vbslq_f32_refuted`, `C41_vbslq_u8`, `C41_vcgtq_u8`
* C42: `C42_vand`, `C42_veor`, `C42_vmvn`, `C42_vorr`
* C43: `C43_absorption`, `C43_and_laws`, `C43_de_morgan`, `C43_distributivity`, `C43_double_negation`, `C43_or_laws`, `C43_xor_cancel`, `C43_xor_laws`, `C43_xor_self`
* C44: `C44_bitwise`, `C44_refuted`, `C44_vadd_partial`, `C44_vmul_partial`, `C44_vmvn`, `C44_vsub_partial`
* C45: `C45_binary`, `C45_scalar`, `C45_vdup`, `C45_vmvn`
* C46: `C46_stores`, `C46_stores_are_vst`
* C51: `C51_declared_consistently`, `C51_declared_partial`, `C51_defined_once`, `C51_defined_partial`, `C51_refuted`
* C52: `C52_independent`, `C52_permuted`, `C52_rearranged`
* C53: `C53_any_call`, `C53_value_functions`
* C54: `C54_vshr_n_u16_refuted`
* C55: `C55_vst4_u8_refuted`
* C56: `C56_wrapv`
* C57: `C57_vst4_u8_refuted`
* C59: `C59_fold_loop`, `C59_gray_program`, `C59_map_loop`, `C59_reorder_loop`, `C59_sum_loop`, `C59_zip_loop`
* C60: `C60_every_schedule_ends`
* C62: `C62_vaddhn_high`, `C62_vaddl`, `C62_vaddw`, `C62_vaddw_high`, `C62_vbslq_u8`, `C62_vld2`, `C62_vmlal`, `C62_vmlaq_partial`, `C62_vmlaq_refuted`, `C62_vmlsl`, `C62_vmul_n`, `C62_vmull_n`, `C62_vqadd_u8`, `C62_vrev64_u8`, `C62_vshll`, `C62_vshll_0`, `C62_vst2`, `C62_vsubhn`, `C62_vsubl`, `C62_vsubn_refuted`, `C62_vsubw`
* C63: `C63_absolute_difference`, `C63_ext_0`, `C63_identity_lookup`, `C63_lane_of_broadcast`, `C63_narrow_widened`, `C63_negate`, `C63_rotate`, `C63_select_max`, `C63_unsigned_max`, `C63_unsigned_min`
* C64: `C64_single_access`
* C65: `C65_accesses`
* C66: `C66_declarations`, `C66_functions`, `C66_source_parses`
* C68: `C68_order`
* C69: `C69_payloads_refuted`
* C70: `C70_message_refuted`, `C70_short_vector_refuted`, `C70_source`
* C71: `C71_refuted`, `C71_unaffected`
* C72: `C72_aborts_exactly`, `C72_diagnostics`, `C72_explained`, `C72_line_partial`, `C72_line_refuted`, `C72_name_partial`, `C72_name_refuted`, `C72_range_partial`, `C72_vext_refuted`, `C72_vqshrun_refuted`, `C72_vshrn_refuted`
* C73: `C73_refuted`, `C73_x87_refuted`
* C74: `C74_any_host`, `C74_big_endian_refuted`, `C74_image_determines`, `C74_little_endian`, `C74_reinterpret`, `C74_round_trip`, `C74_size_t`
* C75: `C75_block`, `C75_elements`, `C75_matrix`, `C75_twice`
* C76: `C76_blend`, `C76_dot`, `C76_lookup`, `C76_merge`, `C76_merge_refuted`, `C76_reverse`, `C76_smooth`, `C76_split`, `C76_threshold`
* C77: `C77_abort`, `C77_list`, `C77_options`, `C77_order`, `C77_project`, `C77_report`, `C77_skip_refuted`, `C77_status_partial`, `C77_status_refuted`, `C77_units_refuted`, `C77_verdict_partial`
* C78: `C78_complete_refuted`, `C78_name`, `C78_prefix`, `C78_project`, `C78_sound`
* C79: `C79_called`, `C79_check_integers`, `C79_checks`, `C79_coverage_refuted`, `C79_program`, `C79_sees`, `C79_source`, `C79_verdict`
* C80: `C80_median`, `C80_rank_filter`, `C80_sort`, `C80_unsigned_refuted`, `C80_zero_one`
* C82: `C82_call`, `C82_conversion_refuted`, `C82_distinct`, `C82_initialisation`, `C82_lane_refuted`, `C82_links`, `C82_links_refuted`, `C82_list_compiles`, `C82_list_lanes`, `C82_mismatch`, `C82_types`
* C83: `C83_default`, `C83_environment`, `C83_flush_depends`, `C83_lanes`, `C83_lanes_cvt`, `C83_lanes_mla`, `C83_lanes_mla_n`, `C83_lanes_n`, `C83_lanes_recps`, `C83_rounding`
* C84: `C84_backward`, `C84_backward_only`, `C84_forward`, `C84_forward_only`, `C84_idempotent`, `C84_in_place`, `C84_order`, `C84_tail`
* C85: `C85_document`, `C85_file`, `C85_format`, `C85_format_refuted`, `C85_less_refuted`, `C85_project`, `C85_throw_refuted`, `C85_unique`, `C85_verdict_partial`
* C86: `C86_floats`, `C86_integers`, `C86_registers`, `C86_source`, `C86_types`, `C86_unique`
* C87: `C87_defined`, `C87_exhausted_refuted`, `C87_fixture_refuted`, `C87_indexed`, `C87_runs_partial`
* C88: `C88_defined`, `C88_duration_partial`, `C88_late_refuted`, `C88_mach_refuted`, `C88_mach_ticks`, `C88_seed`, `C88_units`, `C88_windows_refuted`
* C89: `C89_isnan`, `C89_null_refuted`, `C89_streq`, `C89_strneq`

**Axioms `ClassicalDedekindReals.sig_forall_dec`, `FunctionalExtensionality.functional_extensionality_dep`** - 13 theorems:

* C25: `C25_vmaxq_refuted`, `C25_vminq_refuted`
* C33: `C33_vcvtnq_partial`, `C33_vcvtnq_refuted`, `C33_vcvtq_int_partial`, `C33_vcvtq_int_refuted`
* C34: `C34_vrecpeq_partial`, `C34_vrecpeq_refuted`
* C81: `C81_bound`, `C81_cancellation`
* C83: `C83_directed`, `C83_enclosure`
* C89: `C89_fabs`

**Axioms `ClassicalDedekindReals.sig_forall_dec`, `ClassicalDedekindReals.sig_not_dec`, `Classical_Prop.classic`, `FunctionalExtensionality.functional_extensionality_dep`** - 99 theorems:

* C17: `C17_vqsub64_cast_refuted`, `C17_vqsub64_error_partial`, `C17_vqsub64_partial`, `C17_vqsub64_value_refuted`
* C25: `C25_vmaxq_partial`, `C25_vmaxq_select`, `C25_vminq_partial`, `C25_vminq_select`, `C25_vpmax_partial`, `C25_vpmax_select`, `C25_vpmin_partial`, `C25_vpmin_select`
* C26: `C26_vadd`, `C26_vdiv`, `C26_vmul`, `C26_vmul_n`, `C26_vsub`
* C27: `C27_vmlaq`, `C27_vmlaq_n`
* C33: `C33_round_trip`, `C33_round_trip_refuted`, `C33_vcvtq_f32_s32`
* C35: `C35_vrecpsq_partial`, `C35_vrecpsq_refuted`, `C35_vrecpsq_two_step`
* C41: `C41_vcltq_f32`
* C46: `C46_value_functions`
* C47: `C47_terminates`
* C48: `C48_well_formed`
* C49: `C49_no_ub_partial`, `C49_no_ub_wrapv_partial`, `C49_refuted`, `C49_wrapv_refuted`
* C50: `C50_initialised_partial`, `C50_refuted`
* C53: `C53_loads`
* C54: `C54_accepted_partial`
* C55: `C55_changes_partial`, `C55_depends_partial`
* C57: `C57_load_again_partial`, `C57_memory_stays_typed`, `C57_other_blocks`, `C57_other_elements_partial`, `C57_stored_vector_stays_partial`
* C58: `C58_careful_program`, `C58_careful_program_wrapv`
* C60: `C60_progress`, `C60_result`, `C60_same_result`
* C61: `C61_parallel_map`, `C61_parallel_zip`
* C64: `C64_call_is_its_steps`, `C64_every_schedule_ends`, `C64_parallel_map`, `C64_parallel_zip`, `C64_progress`, `C64_result`, `C64_same_as_whole_calls`
* C65: `C65_no_data_race`
* C67: `C67_division`, `C67_newton_raphson`
* C69: `C69_integer_results`, `C69_payloads`, `C69_platform`
* C70: `C70_floats_partial`, `C70_floats_refuted`, `C70_integers`, `C70_integers_exact`, `C70_pairs`, `C70_vector_refuted`
* C71: `C71_vmlaq`, `C71_vmlaq_exact_partial`, `C71_vmlaq_n`, `C71_vmlaq_n_exact_partial`, `C71_vrecpsq`, `C71_vrecpsq_exact_partial`
* C73: `C73_double_quad`, `C73_x87`, `C73_x87_vqsub64`
* C79: `C79_check_floats_partial`, `C79_check_numbers`, `C79_check_pairs`, `C79_check_vectors`, `C79_means`
* C80: `C80_float_refuted`, `C80_float_sort_partial`
* C81: `C81_accumulate`, `C81_filter`, `C81_matrix_product`
* C82: `C82_meaning`
* C83: `C83_arithmetic_depends`, `C83_directed_exists`, `C83_refuted`
* C89: `C89_epsilon_refuted`, `C89_infinity_refuted`, `C89_near_close`, `C89_near_exact`, `C89_near_far_partial`, `C89_near_nan`

