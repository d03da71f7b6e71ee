(** GENERATED by tools/tests2coq.py from the tests of the repository (tests/test_*.cpp).
    These are tests, not proofs: each evaluates the model on the literals of one TEST block
    and checks that it computes what the C++ test expects.  They are here to validate the
    translation and the interpreter. *)
From Coq Require Import ZArith String List Bool.
From Verif Require Import Types Syntax Interp ProgRecip Spec PropBase Library.
From Verif Require Import ProgLoad ProgStore ProgAdd ProgSub ProgMul ProgShift ProgPerm ProgBit ProgRev.
Import ListNotations.
Open Scope Z_scope.

(** The result and the memory of a call that returns; [OArr []] and [[]] otherwise. *)
Definition val_of (o : outcome) : obj := match o with Returns _ (Some v) => v | _ => OArr [] end.
Definition mem_of (o : outcome) : memory := match o with Returns m _ => m | _ => [] end.
Definition cells_of (m : memory) (b : nat) : list (option Z) := match nth_error m b with Some (_, l) => l | None => [] end.

(** tests/test_array.cpp:3-13 *)
Example test_array_lane :
  let m0 : memory := [] in
  let v_v0 := vec F32 [1065353216; 1073741824; 1077936128; 1082130432] in
  let v_v1 := vec F32 [1084227584; 1086324736; 1088421888; 1090519040] in
  let v_v2 := vec F32 [1091567616; 1092616192; 1093664768; 1094713344] in
  let v_v3 := vec F32 [1095761920; 1096810496; 1097859072; 1098907648] in
  let v_ary := OArr [v_v0; v_v1; v_v2; v_v3] in
  let v_actual := v_v2 in
  let v_expected := vec F32 [1091567616; 1092616192; 1093664768; 1094713344] in
  v_expected = v_actual.
Proof. vm_compute. repeat split. Qed.

(** tests/test_compare.cpp:3-13 *)
Example test_vcltq_f32 :
  let m0 : memory := [] in
  let v_v1 := vec F32 [1065353216; 0; 1065353216; 0] in
  let v_v2 := vec F32 [0; 1065353216; 1065353216; 0] in
  let o1 := run strict m0 vcltq_f32 [v_v1; v_v2] in
  let m1 := mem_of o1 in
  let v_mask := (val_of o1) in
  let o2 := run strict m1 vmovq_n_f32 [rv F32 (1092616192)] in
  let m2 := mem_of o2 in
  let v_ones := (val_of o2) in
  let o3 := run strict m2 vmovq_n_f32 [rv F32 (1101004800)] in
  let m3 := mem_of o3 in
  let v_twos := (val_of o3) in
  let o4 := run strict m3 vbslq_f32 [v_mask; v_ones; v_twos] in
  let m4 := mem_of o4 in
  let v_actual := (val_of o4) in
  let v_expected := vec F32 [1101004800; 1092616192; 1101004800; 1101004800] in
  v_expected = v_actual.
Proof. vm_compute. repeat split. Qed.

(** tests/test_vadd.cpp:3-10 *)
Example test_vaddq_f32 :
  let m0 : memory := [] in
  let v_v1 := vec F32 [1065353216; 1073741824; 1077936128; 1082130432] in
  let v_v2 := vec F32 [1065353216; 1065353216; 1065353216; 1065353216] in
  let o1 := run strict m0 vaddq_f32 [v_v1; v_v2] in
  let m1 := mem_of o1 in
  let v_actual := (val_of o1) in
  let v_expected := vec F32 [1073741824; 1077936128; 1082130432; 1084227584] in
  v_expected = v_actual.
Proof. vm_compute. repeat split. Qed.

(** tests/test_vadd.cpp:12-31 *)
Example test_vadd_s8_1 :
  let m0 : memory := [] in
  let v_v1 := vec I8 [1; 2; 3; 4; 5; 6; 7; 8] in
  let v_v2 := vec I8 [1; 2; 3; 4; 5; 6; 7; 8] in
  let v_expected := vec I8 [2; 4; 6; 8; 10; 12; 14; 16] in
  let o1 := run strict m0 vadd_s8 [v_v1; v_v2] in
  let m1 := mem_of o1 in
  let v_actual := (val_of o1) in
  v_expected = v_actual.
Proof. vm_compute. repeat split. Qed.

(** tests/test_vadd.cpp:12-31 *)
Example test_vadd_s8_2 :
  let m0 : memory := [] in
  let v_v1 := vec I8 [1; 2; 3; 4; 5; 6; 7; 8] in
  let v_v2 := vec I8 [10; 20; 30; 40; 50; 60; 70; 127] in
  let o1 := run strict m0 vadd_s8 [v_v1; v_v2] in
  let m1 := mem_of o1 in
  let v_actual := (val_of o1) in
  let v_expected := vec I8 [11; 22; 33; 44; 55; 66; 77; -121] in
  v_expected = v_actual.
Proof. vm_compute. repeat split. Qed.

(** tests/test_vadd.cpp:33-42 *)
Example test_vadd_s8_exceed :
  let m0 : memory := [] in
  let v_v1 := vec I8 [120; 121; 122; 123; 124; 125; 126; 127] in
  let v_v2 := vec I8 [100; 100; 100; 100; 100; 100; 100; 100] in
  let v_expected := vec I8 [-36; -35; -34; -33; -32; -31; -30; -29] in
  let o1 := run strict m0 vadd_s8 [v_v1; v_v2] in
  let m1 := mem_of o1 in
  let v_actual := (val_of o1) in
  v_expected = v_actual.
Proof. vm_compute. repeat split. Qed.

(** tests/test_vadd.cpp:44-51 *)
Example test_vadd_u8 :
  let m0 : memory := [] in
  let v_v1 := vec U8 [0; 1; 2; 3; 4; 5; 6; 7] in
  let v_v2 := vec U8 [8; 9; 10; 11; 12; 13; 14; 15] in
  let v_expected := vec U8 [8; 10; 12; 14; 16; 18; 20; 22] in
  let o1 := run strict m0 vadd_u8 [v_v1; v_v2] in
  let m1 := mem_of o1 in
  let v_actual := (val_of o1) in
  v_expected = v_actual.
Proof. vm_compute. repeat split. Qed.

(** tests/test_vaddhn.cpp:3-11 *)
Example test_vaddhn_high_s16_normal :
  let m0 : memory := [] in
  let v_r := vec I8 [0; 1; 2; 3; 4; 5; 6; 7] in
  let v_a := vec I16 [32000; 32001; 32002; 32003; 32004; 32005; 32006; 32007] in
  let v_b := vec I16 [1; 2; 3; 4; 5; 6; 7; 8] in
  let v_expected := vec I8 [0; 1; 2; 3; 4; 5; 6; 7; 125; 125; 125; 125; 125; 125; 125; 125] in
  let o1 := run strict m0 vaddhn_high_s16 [v_r; v_a; v_b] in
  let m1 := mem_of o1 in
  let v_actual := (val_of o1) in
  v_expected = v_actual.
Proof. vm_compute. repeat split. Qed.

(** tests/test_vaddl.cpp:3-10 *)
Example test_vaddl_u8 :
  let m0 : memory := [] in
  let v_v1 := vec U8 [240; 241; 242; 243; 244; 245; 246; 247] in
  let v_v2 := vec U8 [100; 100; 100; 100; 100; 100; 100; 100] in
  let v_expected := vec U16 [340; 341; 342; 343; 344; 345; 346; 347] in
  let o1 := run strict m0 vaddl_u8 [v_v1; v_v2] in
  let m1 := mem_of o1 in
  let v_actual := (val_of o1) in
  v_expected = v_actual.
Proof. vm_compute. repeat split. Qed.

(** tests/test_vaddl.cpp:12-19 *)
Example test_vaddl_high_s8 :
  let m0 : memory := [] in
  let v_v1 := vec I8 [0; 1; 2; 3; 4; 5; 6; 7; 100; 101; 102; 103; 104; 105; 106; 107] in
  let v_v2 := vec I8 [0; 1; 2; 3; 4; 5; 6; 7; 100; 100; 100; 100; 100; 100; 100; 100] in
  let v_expected := vec I16 [200; 201; 202; 203; 204; 205; 206; 207] in
  let o1 := run strict m0 vaddl_high_s8 [v_v1; v_v2] in
  let m1 := mem_of o1 in
  let v_actual := (val_of o1) in
  v_expected = v_actual.
Proof. vm_compute. repeat split. Qed.

(** tests/test_vaddw.cpp:3-10 *)
Example test_vaddw_high_s8 :
  let m0 : memory := [] in
  let v_v1 := vec I16 [0; 1; 2; 3; 4; 5; 6; 7] in
  let v_v2 := vec I8 [0; 1; 2; 3; 4; 5; 6; 7; 8; 9; 10; 11; 12; 13; 14; 15] in
  let v_expected := vec I16 [8; 10; 12; 14; 16; 18; 20; 22] in
  let o1 := run strict m0 vaddw_high_s8 [v_v1; v_v2] in
  let m1 := mem_of o1 in
  let v_actual := (val_of o1) in
  v_expected = v_actual.
Proof. vm_compute. repeat split. Qed.

(** tests/test_vaddw.cpp:12-21 *)
Example test_vaddw_s8 :
  let m0 : memory := [] in
  let o1 := run strict m0 vdupq_n_s16 [rv I16 (300)] in
  let m1 := mem_of o1 in
  let v_v1 := (val_of o1) in
  let v_v2 := vec I8 [1; 2; 3; 4; 5; 6; 7; 8] in
  let o2 := run strict m1 vaddw_s8 [v_v1; v_v2] in
  let m2 := mem_of o2 in
  let v_actual := (val_of o2) in
  let v_expected := vec I16 [301; 302; 303; 304; 305; 306; 307; 308] in
  v_expected = v_actual.
Proof. vm_compute. repeat split. Qed.

(** tests/test_vand.cpp:3-11 *)
Example test_vand_u8 :
  let m0 : memory := [] in
  let v_v1 := vec U8 [0; 9; 12; 11; 4; 13; 6; 17] in
  let v_v2 := vec U8 [8; 11; 10; 3; 12; 5; 14; 15] in
  let v_expected := vec U8 [0; 9; 8; 3; 4; 5; 6; 1] in
  let o1 := run strict m0 vand_u8 [v_v1; v_v2] in
  let m1 := mem_of o1 in
  let v_actual := (val_of o1) in
  v_expected = v_actual.
Proof. vm_compute. repeat split. Qed.

(** tests/test_vext.cpp:3-42 *)
Example test_vext_u8_1 :
  let m0 : memory := [] in
  let v_src1 := vec U8 [1; 2; 3; 4; 5; 6; 7; 8] in
  let v_src2 := vec U8 [9; 10; 11; 12; 13; 14; 15; 16] in
  let v_expected := vec U8 [4; 5; 6; 7; 8; 9; 10; 11] in
  let o1 := run strict m0 vext_u8 [v_src1; v_src2; rv I32 (3)] in
  let m1 := mem_of o1 in
  let v_actual := (val_of o1) in
  v_expected = v_actual.
Proof. vm_compute. repeat split. Qed.

(** tests/test_vext.cpp:3-42 *)
Example test_vext_u8_2 :
  let m0 : memory := [(U8, [Some 71; Some 61; Some 51; Some 41; Some 31; Some 21; Some 11; Some 1])] in
  let o1 := run strict m0 vld1_u8 [OPtr U8 0 0] in
  let m1 := mem_of o1 in
  let v_s0 := (val_of o1) in
  let o2 := run strict m1 vdup_n_u8 [rv U8 (0)] in
  let m2 := mem_of o2 in
  let v_m := (val_of o2) in
  let o3 := run strict m2 vext_u8 [v_m; v_s0; rv I32 (7)] in
  let m3 := mem_of o3 in
  let v_s1 := (val_of o3) in
  let o4 := run strict m3 vext_u8 [v_m; v_s0; rv I32 (6)] in
  let m4 := mem_of o4 in
  let v_s2 := (val_of o4) in
  let o5 := run strict m4 vext_u8 [v_m; v_s0; rv I32 (5)] in
  let m5 := mem_of o5 in
  let v_s3 := (val_of o5) in
  let o6 := run strict m5 vext_u8 [v_m; v_s0; rv I32 (4)] in
  let m6 := mem_of o6 in
  let v_s4 := (val_of o6) in
  let o7 := run strict m6 vext_u8 [v_m; v_s0; rv I32 (3)] in
  let m7 := mem_of o7 in
  let v_s5 := (val_of o7) in
  let o8 := run strict m7 vext_u8 [v_m; v_s0; rv I32 (2)] in
  let m8 := mem_of o8 in
  let v_s6 := (val_of o8) in
  let o9 := run strict m8 vext_u8 [v_m; v_s0; rv I32 (1)] in
  let m9 := mem_of o9 in
  let v_s7 := (val_of o9) in
  let v_expected_s1 := vec U8 [0; 71; 61; 51; 41; 31; 21; 11] in
  let v_expected_s2 := vec U8 [0; 0; 71; 61; 51; 41; 31; 21] in
  let v_expected_s3 := vec U8 [0; 0; 0; 71; 61; 51; 41; 31] in
  let v_expected_s4 := vec U8 [0; 0; 0; 0; 71; 61; 51; 41] in
  let v_expected_s5 := vec U8 [0; 0; 0; 0; 0; 71; 61; 51] in
  let v_expected_s6 := vec U8 [0; 0; 0; 0; 0; 0; 71; 61] in
  let v_expected_s7 := vec U8 [0; 0; 0; 0; 0; 0; 0; 71] in
  v_expected_s1 = v_s1 /\ v_expected_s2 = v_s2 /\ v_expected_s3 = v_s3 /\ v_expected_s4 = v_s4 /\ v_expected_s5 = v_s5 /\ v_expected_s6 = v_s6 /\ v_expected_s7 = v_s7.
Proof. vm_compute. repeat split. Qed.

(** tests/test_vget.cpp:3-12 *)
Example test_vget_low_s8 :
  let m0 : memory := [] in
  let v_v1 := vec I8 [1; 2; 3; 4; 5; 6; 7; 8; 11; 12; 13; 14; 15; 16; 17; 18] in
  let o1 := run strict m0 vget_low_s8 [v_v1] in
  let m1 := mem_of o1 in
  let v_actual := (val_of o1) in
  let v_expected := vec I8 [1; 2; 3; 4; 5; 6; 7; 8] in
  v_expected = v_actual.
Proof. vm_compute. repeat split. Qed.

(** tests/test_vhsub.cpp:3-10 *)
Example test_sub_vhsub :
  let m0 : memory := [] in
  let o1 := run strict m0 vdup_n_s8 [rv I8 (120)] in
  let m1 := mem_of o1 in
  let v_v1 := (val_of o1) in
  let v_v2 := vec I8 [1; 2; 3; 4; 120; 121; 122; 123] in
  let o2 := run strict m1 vhsub_s8 [v_v1; v_v2] in
  let m2 := mem_of o2 in
  let v_actual := (val_of o2) in
  let v_expected := vec I8 [59; 59; 58; 58; 0; -1; -1; -2] in
  v_expected = v_actual.
Proof. vm_compute. repeat split. Qed.

(** tests/test_vld.cpp:3-9 *)
Example test_vld1q_f32 :
  let m0 : memory := [(F32, [Some 1065353216; Some 1073741824; Some 1077936128; Some 1082130432; Some 1084227584])] in
  let o1 := run strict m0 vld1q_f32 [OPtr F32 0 0] in
  let m1 := mem_of o1 in
  let v_actual := (val_of o1) in
  let v_expected := vec F32 [1065353216; 1073741824; 1077936128; 1082130432] in
  v_expected = v_actual.
Proof. vm_compute. repeat split. Qed.

(** tests/test_vld.cpp:11-17 *)
Example test_vld1q_dup_f32 :
  let m0 : memory := [(F32, [Some 1077936128])] in
  let o1 := run strict m0 vld1q_dup_f32 [OPtr F32 0 0] in
  let m1 := mem_of o1 in
  let v_expected := (val_of o1) in
  let v_actual := vec F32 [1077936128; 1077936128; 1077936128; 1077936128] in
  v_expected = v_actual.
Proof. vm_compute. repeat split. Qed.

(** tests/test_vmax_vmin.cpp:3-10 *)
Example test_vmaxq_f32 :
  let m0 : memory := [] in
  let v_v0 := vec F32 [1084227584; 1073741824; 1077936128; 1082130432] in
  let v_v1 := vec F32 [1065353216; 1086324736; 1088421888; 1090519040] in
  let o1 := run strict m0 vmaxq_f32 [v_v0; v_v1] in
  let m1 := mem_of o1 in
  let v_actual := (val_of o1) in
  let v_expected := vec F32 [1084227584; 1086324736; 1088421888; 1090519040] in
  v_expected = v_actual.
Proof. vm_compute. repeat split. Qed.

(** tests/test_vmax_vmin.cpp:12-20 *)
Example test_vpmax_f32 :
  let m0 : memory := [] in
  let v_v0 := vec F32 [1065353216; 1073741824; 1077936128; 1082130432] in
  let o1 := run strict m0 vget_low_f32 [v_v0] in
  let m1 := mem_of o1 in
  let o2 := run strict m1 vget_high_f32 [v_v0] in
  let m2 := mem_of o2 in
  let o3 := run strict m2 vpmax_f32 [(val_of o1); (val_of o2)] in
  let m3 := mem_of o3 in
  let v_maxOfHalfs := (val_of o3) in
  let o4 := run strict m3 vpmax_f32 [v_maxOfHalfs; v_maxOfHalfs] in
  let m4 := mem_of o4 in
  let v_maxOfMaxOfHalfs := (val_of o4) in
  let o5 := run strict m4 vget_lane_f32 [v_maxOfMaxOfHalfs; rv I32 (0)] in
  let m5 := mem_of o5 in
  let v_actual := (val_of o5) in
  let v_expected := rv F32 (1082130432) in
  v_expected = v_actual.
Proof. vm_compute. repeat split. Qed.

(** tests/test_vmax_vmin.cpp:22-29 *)
Example test_vminq_f32 :
  let m0 : memory := [] in
  let v_v0 := vec F32 [1084227584; 1073741824; 1077936128; 1082130432] in
  let v_v1 := vec F32 [1065353216; 1086324736; 1088421888; 1090519040] in
  let o1 := run strict m0 vminq_f32 [v_v0; v_v1] in
  let m1 := mem_of o1 in
  let v_actual := (val_of o1) in
  let v_expected := vec F32 [1065353216; 1073741824; 1077936128; 1082130432] in
  v_expected = v_actual.
Proof. vm_compute. repeat split. Qed.

(** tests/test_vmax_vmin.cpp:31-39 *)
Example test_vpmin_f32 :
  let m0 : memory := [] in
  let v_v0 := vec F32 [1065353216; 1073741824; 1077936128; 1082130432] in
  let o1 := run strict m0 vget_low_f32 [v_v0] in
  let m1 := mem_of o1 in
  let o2 := run strict m1 vget_high_f32 [v_v0] in
  let m2 := mem_of o2 in
  let o3 := run strict m2 vpmin_f32 [(val_of o1); (val_of o2)] in
  let m3 := mem_of o3 in
  let v_minOfHalfs := (val_of o3) in
  let o4 := run strict m3 vpmin_f32 [v_minOfHalfs; v_minOfHalfs] in
  let m4 := mem_of o4 in
  let v_minOfMinOfHalfs := (val_of o4) in
  let o5 := run strict m4 vget_lane_f32 [v_minOfMinOfHalfs; rv I32 (0)] in
  let m5 := mem_of o5 in
  let v_expected := (val_of o5) in
  let v_actual := rv F32 (1065353216) in
  v_expected = v_actual.
Proof. vm_compute. repeat split. Qed.

(** tests/test_vmla.cpp:3-11 *)
Example test_vmlaq_f32 :
  let m0 : memory := [] in
  let v_v1 := vec F32 [1065353216; 1073741824; 1077936128; 1082130432] in
  let v_v2 := vec F32 [1073741824; 1073741824; 1073741824; 1073741824] in
  let v_v3 := vec F32 [1077936128; 1077936128; 1077936128; 1077936128] in
  let o1 := run strict m0 vmlaq_f32 [v_v3; v_v1; v_v2] in
  let m1 := mem_of o1 in
  let v_actual := (val_of o1) in
  let v_expected := vec F32 [1084227584; 1088421888; 1091567616; 1093664768] in
  v_expected = v_actual.
Proof. vm_compute. repeat split. Qed.

(** tests/test_vmla.cpp:13-21 *)
Example test_vmlaq_n_f32 :
  let m0 : memory := [] in
  let v_v1 := vec F32 [1065353216; 1073741824; 1077936128; 1082130432] in
  let v_v2 := vec F32 [1065353216; 1065353216; 1065353216; 1065353216] in
  let v_s := rv F32 (1077936128) in
  let o1 := run strict m0 vmlaq_n_f32 [v_v1; v_v2; v_s] in
  let m1 := mem_of o1 in
  let v_actual := (val_of o1) in
  let v_expected := vec F32 [1082130432; 1084227584; 1086324736; 1088421888] in
  v_expected = v_actual.
Proof. vm_compute. repeat split. Qed.

(** tests/test_vmov.cpp:3-8 *)
Example test_vmovq_n_f32 :
  let m0 : memory := [] in
  let o1 := run strict m0 vmovq_n_f32 [rv F32 (1069547520)] in
  let m1 := mem_of o1 in
  let v_actual := (val_of o1) in
  let v_expected := vec F32 [1069547520; 1069547520; 1069547520; 1069547520] in
  v_expected = v_actual.
Proof. vm_compute. repeat split. Qed.

(** tests/test_vmul.cpp:3-10 *)
Example test_vmulq_f32 :
  let m0 : memory := [] in
  let v_v1 := vec F32 [1065353216; 1073741824; 1077936128; 1082130432] in
  let v_v2 := vec F32 [1065353216; 1065353216; 1065353216; 1065353216] in
  let o1 := run strict m0 vmulq_f32 [v_v1; v_v2] in
  let m1 := mem_of o1 in
  let v_actual := (val_of o1) in
  let v_expected := vec F32 [1065353216; 1073741824; 1077936128; 1082130432] in
  v_expected = v_actual.
Proof. vm_compute. repeat split. Qed.

(** tests/test_vmul.cpp:12-19 *)
Example test_vmulq_n_f32 :
  let m0 : memory := [] in
  let v_v := vec F32 [1065353216; 1073741824; 1077936128; 1082130432] in
  let v_s := rv F32 (1077936128) in
  let o1 := run strict m0 vmulq_n_f32 [v_v; v_s] in
  let m1 := mem_of o1 in
  let v_actual := (val_of o1) in
  let v_expected := vec F32 [1077936128; 1086324736; 1091567616; 1094713344] in
  v_expected = v_actual.
Proof. vm_compute. repeat split. Qed.

(** tests/test_vmul.cpp:21-28 *)
Example test_vmul_s8 :
  let m0 : memory := [] in
  let v_v1 := vec I8 [1; 2; 3; 4; 5; 6; 7; 8] in
  let v_v2 := vec I8 [2; 100; -10; -100; 2; 3; 4; 5] in
  let o1 := run strict m0 vmul_s8 [v_v1; v_v2] in
  let m1 := mem_of o1 in
  let v_actual := (val_of o1) in
  let v_expected := vec I8 [2; -56; -30; 112; 10; 18; 28; 40] in
  v_expected = v_actual.
Proof. vm_compute. repeat split. Qed.

(** tests/test_vmul.cpp:30-37 *)
Example test_mul_vmul_n_s16 :
  let m0 : memory := [] in
  let v_v1 := vec I16 [1; 2; 3; 4] in
  let v_s := rv I16 (2) in
  let o1 := run strict m0 vmul_n_s16 [v_v1; v_s] in
  let m1 := mem_of o1 in
  let v_actual := (val_of o1) in
  let v_expected := vec I16 [2; 4; 6; 8] in
  v_expected = v_actual.
Proof. vm_compute. repeat split. Qed.

(** tests/test_vqsub.cpp:3-22 *)
Example test_sub_vqsub_1 :
  let m0 : memory := [] in
  let o1 := run strict m0 vdup_n_u8 [rv U8 (250)] in
  let m1 := mem_of o1 in
  let v_v1 := (val_of o1) in
  let v_v2 := vec U8 [1; 2; 3; 4; 251; 252; 253; 254] in
  let o2 := run strict m1 vqsub_u8 [v_v1; v_v2] in
  let m2 := mem_of o2 in
  let v_actual := (val_of o2) in
  let v_expected := vec U8 [249; 248; 247; 246; 0; 0; 0; 0] in
  v_expected = v_actual.
Proof. vm_compute. repeat split. Qed.

(** tests/test_vqsub.cpp:3-22 *)
Example test_sub_vqsub_2 :
  let m0 : memory := [] in
  let o1 := run strict m0 vdup_n_s8 [rv I8 (120)] in
  let m1 := mem_of o1 in
  let v_v1 := (val_of o1) in
  let v_v2 := vec I8 [-11; 2; 3; 4; 121; 122; 123; 124] in
  let o2 := run strict m1 vqsub_s8 [v_v1; v_v2] in
  let m2 := mem_of o2 in
  let v_actual := (val_of o2) in
  let v_expected := vec I8 [127; 118; 117; 116; -1; -2; -3; -4] in
  v_expected = v_actual.
Proof. vm_compute. repeat split. Qed.

(** tests/test_vrecpe.cpp:4-10 *)
Example test_vrecpeq_f32 :
  let m0 : memory := [] in
  let v_v := vec F32 [1065353216; 1073741824; 1077936128; 1082130432] in
  let o1 := run strict m0 vrecpeq_f32 [v_v] in
  let m1 := mem_of o1 in
  let v_actual := (val_of o1) in
  let v_expected := vec F32 [1065320448; 1056931840; 1051361280; 1048543232] in
  v_expected = v_actual.
Proof. vm_compute. repeat split. Qed.

(** tests/test_vrecpe.cpp:14-21 *)
Example test_vrecpeq_f32_more_precise :
  let m0 : memory := [] in
  let v_v := vec F32 [1065353216; 1073741824; 1077936128; 1082130432] in
  let o1 := run strict m0 vrecpeq_f32 [v_v] in
  let m1 := mem_of o1 in
  let v_reciprocal := (val_of o1) in
  let o2 := run strict m1 vrecpsq_f32 [v_v; v_reciprocal] in
  let m2 := mem_of o2 in
  let o3 := run strict m2 vmulq_f32 [(val_of o2); v_reciprocal] in
  let m3 := mem_of o3 in
  let v_actual := (val_of o3) in
  let v_expected := vec F32 [1065353152; 1056964544; 1051372192; 1048575936] in
  v_expected = v_actual.
Proof. vm_compute. repeat split. Qed.

(** tests/test_vrev.cpp:3-9 *)
Example test_vrev16_u8 :
  let m0 : memory := [] in
  let v_src1 := vec U8 [1; 2; 3; 4; 5; 6; 7; 8] in
  let o1 := run strict m0 vrev16_u8 [v_src1] in
  let m1 := mem_of o1 in
  let v_actual := (val_of o1) in
  let v_expected := vec U8 [2; 1; 4; 3; 6; 5; 8; 7] in
  v_expected = v_actual.
Proof. vm_compute. repeat split. Qed.

(** tests/test_vrev.cpp:11-17 *)
Example test_vrev32_u8 :
  let m0 : memory := [] in
  let v_src1 := vec U8 [1; 2; 3; 4; 5; 6; 7; 8] in
  let o1 := run strict m0 vrev32_u8 [v_src1] in
  let m1 := mem_of o1 in
  let v_actual := (val_of o1) in
  let v_expected := vec U8 [4; 3; 2; 1; 8; 7; 6; 5] in
  v_expected = v_actual.
Proof. vm_compute. repeat split. Qed.

(** tests/test_vrev.cpp:19-25 *)
Example test_vrev64_u8 :
  let m0 : memory := [] in
  let v_src1 := vec U8 [1; 2; 3; 4; 5; 6; 7; 8] in
  let o1 := run strict m0 vrev64_u8 [v_src1] in
  let m1 := mem_of o1 in
  let v_actual := (val_of o1) in
  let v_expected := vec U8 [8; 7; 6; 5; 4; 3; 2; 1] in
  v_expected = v_actual.
Proof. vm_compute. repeat split. Qed.

(** tests/test_vrsubhn.cpp:3-10 *)
Example test_sub_vrsubhn :
  let m0 : memory := [] in
  let o1 := run strict m0 vdupq_n_s16 [rv I16 (850)] in
  let m1 := mem_of o1 in
  let v_v1 := (val_of o1) in
  let v_v2 := vec I16 [200; 400; 600; 800; 1000; 1200; 1400; 1600] in
  let o2 := run strict m1 vrsubhn_s16 [v_v1; v_v2] in
  let m2 := mem_of o2 in
  let v_actual := (val_of o2) in
  let v_expected := vec I8 [3; 2; 1; 0; -1; -1; -2; -3] in
  v_expected = v_actual.
Proof. vm_compute. repeat split. Qed.

(** tests/test_vst.cpp:3-10 *)
Example test_vst1q_f32 :
  let m0 : memory := [(F32, [Some 0; Some 0; Some 0; Some 0; Some 0]); (F32, [Some 1065353216; Some 1073741824; Some 1077936128; Some 1082130432; Some 0])] in
  let v_v := vec F32 [1065353216; 1073741824; 1077936128; 1082130432] in
  let o1 := run strict m0 vst1q_f32 [OPtr F32 0 0; v_v] in
  let m1 := mem_of o1 in
  firstn 4 (cells_of m1 1) = firstn 4 (cells_of m1 0).
Proof. vm_compute. repeat split. Qed.

(** tests/test_vst.cpp:13-24 *)
Example test_vst4q_lane_f32 :
  let m0 : memory := [(F32, repeat (Some 0) 4); (F32, [Some 1065353216; Some 1084227584; Some 1091567616; Some 1095761920])] in
  let v_v0 := vec F32 [1065353216; 1073741824; 1077936128; 1082130432] in
  let v_v1 := vec F32 [1084227584; 1086324736; 1088421888; 1090519040] in
  let v_v2 := vec F32 [1091567616; 1092616192; 1093664768; 1094713344] in
  let v_v3 := vec F32 [1095761920; 1096810496; 1097859072; 1098907648] in
  let v_u := OArr [v_v0; v_v1; v_v2; v_v3] in
  let o1 := run strict m0 vst4q_lane_f32 [OPtr F32 0 0; v_u; rv I32 (0)] in
  let m1 := mem_of o1 in
  firstn 4 (cells_of m1 1) = firstn 4 (cells_of m1 0).
Proof. vm_compute. repeat split. Qed.

(** tests/test_vsub.cpp:3-11 *)
Example test_sub_vsub :
  let m0 : memory := [] in
  let v_v1 := vec U8 [11; 12; 13; 14; 15; 16; 17; 18] in
  let o1 := run strict m0 vdup_n_u8 [rv U8 (10)] in
  let m1 := mem_of o1 in
  let v_v2 := (val_of o1) in
  let o2 := run strict m1 vsub_u8 [v_v1; v_v2] in
  let m2 := mem_of o2 in
  let v_actual := (val_of o2) in
  let v_expected := vec U8 [1; 2; 3; 4; 5; 6; 7; 8] in
  v_expected = v_actual.
Proof. vm_compute. repeat split. Qed.

(** tests/test_vsubhn.cpp:3-12 *)
Example test_sub_vsubhn :
  let m0 : memory := [] in
  let v_v1 := vec I16 [100; 200; 300; 400; 500; 600; 700; 800] in
  let v_v2 := vec I16 [1; 2; 3; 4; 5; 6; 7; 8] in
  let o1 := run strict m0 vsubhn_s16 [v_v1; v_v2] in
  let m1 := mem_of o1 in
  let v_actual := (val_of o1) in
  let v_expected := vec I8 [0; 0; 1; 1; 1; 2; 2; 3] in
  v_expected = v_actual.
Proof. vm_compute. repeat split. Qed.

(** tests/test_vsubl.cpp:3-11 *)
Example test_sub_vsubl :
  let m0 : memory := [] in
  let o1 := run strict m0 vdup_n_s8 [rv I8 (127)] in
  let m1 := mem_of o1 in
  let v_v1 := (val_of o1) in
  let v_v2 := vec I8 [0; 1; 2; 3; -1; -2; -3; -4] in
  let o2 := run strict m1 vsubl_s8 [v_v1; v_v2] in
  let m2 := mem_of o2 in
  let v_actual := (val_of o2) in
  let v_expected := vec I16 [127; 126; 125; 124; 128; 129; 130; 131] in
  v_expected = v_actual.
Proof. vm_compute. repeat split. Qed.

(** tests/test_vsubw.cpp:3-11 *)
Example test_sub_vsubw :
  let m0 : memory := [] in
  let v_v1 := vec I16 [101; 102; 103; 104; 105; 106; 107; 108] in
  let v_v2 := vec I8 [1; 2; 3; 4; 5; 6; 7; 8] in
  let o1 := run strict m0 vsubw_s8 [v_v1; v_v2] in
  let m1 := mem_of o1 in
  let v_actual := (val_of o1) in
  let v_expected := vec I16 [100; 100; 100; 100; 100; 100; 100; 100] in
  v_expected = v_actual.
Proof. vm_compute. repeat split. Qed.

(** tests/test_vtbl.cpp:3-10 *)
Example test_vtbl1_u8 :
  let m0 : memory := [] in
  let v_src1 := vec U8 [1; 2; 3; 4; 5; 6; 7; 8] in
  let v_src2 := vec U8 [0; 0; 1; 1; 2; 2; 7; 8] in
  let o1 := run strict m0 vtbl1_u8 [v_src1; v_src2] in
  let m1 := mem_of o1 in
  let v_actual := (val_of o1) in
  let v_expected := vec U8 [1; 1; 2; 2; 3; 3; 8; 0] in
  v_expected = v_actual.
Proof. vm_compute. repeat split. Qed.

(** tests/test_vtbl.cpp:12-21 *)
Example test_vtbl2_u8 :
  let m0 : memory := [] in
  let v_src := OArr [(vec U8 [1; 2; 3; 4; 5; 6; 7; 8]); (vec U8 [9; 10; 11; 12; 13; 14; 15; 16])] in
  let v_src2 := vec U8 [0; 0; 1; 1; 2; 2; 8; 10] in
  let o1 := run strict m0 vtbl2_u8 [v_src; v_src2] in
  let m1 := mem_of o1 in
  let v_actual := (val_of o1) in
  let v_expected := vec U8 [1; 1; 2; 2; 3; 3; 9; 11] in
  v_expected = v_actual.
Proof. vm_compute. repeat split. Qed.

(** tests/test_vtrn.cpp:3-14 *)
Example test_vtrn_u8 :
  let m0 : memory := [] in
  let v_src := OArr [(vec U8 [1; 2; 3; 4; 5; 6; 7; 8]); (vec U8 [9; 10; 11; 12; 13; 14; 15; 16])] in
  let o1 := run strict m0 vtrn_u8 [(vec U8 [1; 2; 3; 4; 5; 6; 7; 8]); (vec U8 [9; 10; 11; 12; 13; 14; 15; 16])] in
  let m1 := mem_of o1 in
  let v_actual := (val_of o1) in
  let v_expected := OArr [(vec U8 [1; 9; 3; 11; 5; 13; 7; 15]); (vec U8 [2; 10; 4; 12; 6; 14; 8; 16])] in
  v_expected = v_actual.
Proof. vm_compute. repeat split. Qed.

(** tests/test_vuzp.cpp:3-14 *)
Example test_vuzp_u8 :
  let m0 : memory := [] in
  let v_src := OArr [(vec U8 [1; 2; 3; 4; 5; 6; 7; 8]); (vec U8 [9; 10; 11; 12; 13; 14; 15; 16])] in
  let o1 := run strict m0 vuzp_u8 [(vec U8 [1; 2; 3; 4; 5; 6; 7; 8]); (vec U8 [9; 10; 11; 12; 13; 14; 15; 16])] in
  let m1 := mem_of o1 in
  let v_actual := (val_of o1) in
  let v_expected := OArr [(vec U8 [1; 3; 5; 7; 9; 11; 13; 15]); (vec U8 [2; 4; 6; 8; 10; 12; 14; 16])] in
  v_expected = v_actual.
Proof. vm_compute. repeat split. Qed.

(** tests/test_vzip.cpp:3-14 *)
Example test_vzip_u8 :
  let m0 : memory := [] in
  let v_src := OArr [(vec U8 [1; 2; 3; 4; 5; 6; 7; 8]); (vec U8 [9; 10; 11; 12; 13; 14; 15; 16])] in
  let o1 := run strict m0 vzip_u8 [(vec U8 [1; 2; 3; 4; 5; 6; 7; 8]); (vec U8 [9; 10; 11; 12; 13; 14; 15; 16])] in
  let m1 := mem_of o1 in
  let v_actual := (val_of o1) in
  let v_expected := OArr [(vec U8 [1; 9; 2; 10; 3; 11; 4; 12]); (vec U8 [5; 13; 6; 14; 7; 15; 8; 16])] in
  v_expected = v_actual.
Proof. vm_compute. repeat split. Qed.
