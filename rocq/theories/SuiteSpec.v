(** The project's test program, put together of its tests (Suite.v), the library and the runner (Runner.v). *)
From Coq Require Import ZArith String Ascii List Bool Permutation.
From Verif Require Import Types Syntax Interp ProgRecip Library Suite Runner.
Import ListNotations.
Open Scope Z_scope.

(** The tests of the project, linked with [lib]: in any order, each taking any time. *)
Definition linked (c : cfg) (lib : string -> option func) (ts : list test) : Prop :=
  Permutation (map (fun t => (name t, Some (body t))) ts) (map (fun p => (chars (fst p), test_events c lib (snd p))) suite).

(** The library with the body of the function called [f] replaced. *)
Definition replaced (l : list func) (f : string) (b : stmt) : list func :=
  map (fun g => if String.eqb (f_name g) f then mkfunc (f_name g) (f_ret g) (f_params g) b else g) l.
Definition with_body : string -> stmt -> list func := replaced library.

(** What tests with a single call ask of the library: the function, the arguments, and the vector expected (read off tests/test_vadd.cpp:32-50,
    test_vaddhn.cpp, test_vaddl.cpp, test_vaddw.cpp, test_vand.cpp, test_vget.cpp, test_vmul.cpp, test_vrev.cpp, test_vsubhn.cpp, test_vsubw.cpp, test_vtbl.cpp). *)
Definition answers : list (string * list obj * sty * nat * list Z) :=
  [("vadd_s8", [vec I8 [120; 121; 122; 123; 124; 125; 126; 127]; vec I8 [100; 100; 100; 100; 100; 100; 100; 100]],
    I8, 8%nat, [-36; -35; -34; -33; -32; -31; -30; -29]);
   ("vadd_u8", [vec U8 [0; 1; 2; 3; 4; 5; 6; 7]; vec U8 [8; 9; 10; 11; 12; 13; 14; 15]], U8, 8%nat, [8; 10; 12; 14; 16; 18; 20; 22]);
   ("vaddhn_high_s16", [vec I8 [0; 1; 2; 3; 4; 5; 6; 7]; vec I16 [32000; 32001; 32002; 32003; 32004; 32005; 32006; 32007]; vec I16 [1; 2; 3; 4; 5; 6; 7; 8]],
    I8, 16%nat, [0; 1; 2; 3; 4; 5; 6; 7; 125; 125; 125; 125; 125; 125; 125; 125]);
   ("vaddl_u8", [vec U8 [240; 241; 242; 243; 244; 245; 246; 247]; vec U8 [100; 100; 100; 100; 100; 100; 100; 100]],
    U16, 8%nat, [340; 341; 342; 343; 344; 345; 346; 347]);
   ("vaddl_high_s8", [vec I8 [0; 1; 2; 3; 4; 5; 6; 7; 100; 101; 102; 103; 104; 105; 106; 107]; vec I8 [0; 1; 2; 3; 4; 5; 6; 7; 100; 100; 100; 100; 100; 100; 100; 100]],
    I16, 8%nat, [200; 201; 202; 203; 204; 205; 206; 207]);
   ("vaddw_high_s8", [vec I16 [0; 1; 2; 3; 4; 5; 6; 7]; vec I8 [0; 1; 2; 3; 4; 5; 6; 7; 8; 9; 10; 11; 12; 13; 14; 15]],
    I16, 8%nat, [8; 10; 12; 14; 16; 18; 20; 22]);
   ("vand_u8", [vec U8 [0; 9; 12; 11; 4; 13; 6; 17]; vec U8 [8; 11; 10; 3; 12; 5; 14; 15]], U8, 8%nat, [0; 9; 8; 3; 4; 5; 6; 1]);
   ("vget_low_s8", [vec I8 [1; 2; 3; 4; 5; 6; 7; 8; 11; 12; 13; 14; 15; 16; 17; 18]], I8, 8%nat, [1; 2; 3; 4; 5; 6; 7; 8]);
   ("vmul_s8", [vec I8 [1; 2; 3; 4; 5; 6; 7; 8]; vec I8 [2; 100; -10; -100; 2; 3; 4; 5]], I8, 8%nat, [2; -56; -30; 112; 10; 18; 28; 40]);
   ("vrev16_u8", [vec U8 [1; 2; 3; 4; 5; 6; 7; 8]], U8, 8%nat, [2; 1; 4; 3; 6; 5; 8; 7]);
   ("vrev32_u8", [vec U8 [1; 2; 3; 4; 5; 6; 7; 8]], U8, 8%nat, [4; 3; 2; 1; 8; 7; 6; 5]);
   ("vrev64_u8", [vec U8 [1; 2; 3; 4; 5; 6; 7; 8]], U8, 8%nat, [8; 7; 6; 5; 4; 3; 2; 1]);
   ("vsubhn_s16", [vec I16 [100; 200; 300; 400; 500; 600; 700; 800]; vec I16 [1; 2; 3; 4; 5; 6; 7; 8]], I8, 8%nat, [0; 0; 1; 1; 1; 2; 2; 3]);
   ("vsubw_s8", [vec I16 [101; 102; 103; 104; 105; 106; 107; 108]; vec I8 [1; 2; 3; 4; 5; 6; 7; 8]], I16, 8%nat, [100; 100; 100; 100; 100; 100; 100; 100]);
   ("vtbl1_u8", [vec U8 [1; 2; 3; 4; 5; 6; 7; 8]; vec U8 [0; 0; 1; 1; 2; 2; 7; 8]], U8, 8%nat, [1; 1; 2; 2; 3; 3; 8; 0])]%string.
