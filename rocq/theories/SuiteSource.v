(** The text of /repo/tests/test_*.cpp, one string per line, written by tools/embed_tests.py; the text of // comments
    is dropped and a double quote is doubled, nothing else is changed. *)
From Coq Require Import String List.
Import ListNotations.
Local Open Scope string_scope.

Definition test_sources : list (string * list string) := [
("tests/test_array.cpp", [
"#include ""test_util.hpp""";
"";
"TEST(array, lane)";
"{";
"    float32x4_t v0 = { 1.0, 2.0, 3.0, 4.0 };";
"    float32x4_t v1 = { 5.0, 6.0, 7.0, 8.0 };";
"    float32x4_t v2 = { 9.0, 10.0, 11.0, 12.0 };";
"    float32x4_t v3 = { 13.0, 14.0, 15.0, 16.0 };";
"    float32x4x4_t ary = { v0, v1, v2, v3 };";
"    float32x4_t actual = ary.val[2];";
"    float32x4_t expected = { 9.0, 10.0, 11.0, 12.0 };";
"    EXPECT_TRUE(almostEqual(expected, actual));";
"}"
]);
("tests/test_compare.cpp", [
"#include ""test_util.hpp""";
"";
"TEST(vcltq, f32)";
"{";
"    float32x4_t v1 = { 1.0, 0.0, 1.0, 0.0 };";
"    float32x4_t v2 = { 0.0, 1.0, 1.0, 0.0 };";
"    uint32x4_t mask = vcltq_f32(v1, v2); //";
"    float32x4_t ones = vmovq_n_f32(10.0);";
"    float32x4_t twos = vmovq_n_f32(20.0);             //";
"    float32x4_t actual = vbslq_f32(mask, ones, twos); //";
"    float32x4_t expected = { 20.0, 10.0, 20.0, 20.0 };";
"    EXPECT_TRUE(almostEqual(expected, actual));";
"}"
]);
("tests/test_util.cpp", [
"#include ""test_util.hpp""";
"";
"UTEST_MAIN()"
]);
("tests/test_vadd.cpp", [
"#include ""test_util.hpp""";
"";
"TEST(vaddq, f32)";
"{";
"    float32x4_t v1 = { 1.0, 2.0, 3.0, 4.0 };";
"    float32x4_t v2 = { 1.0, 1.0, 1.0, 1.0 };";
"    float32x4_t actual = vaddq_f32(v1, v2);";
"    float32x4_t expected = { 2.0, 3.0, 4.0, 5.0 };";
"    EXPECT_TRUE(almostEqual(expected, actual));";
"}";
"";
"TEST(vadd, s8)";
"{";
"    {";
"        int8x8_t v1 = { 1, 2, 3, 4, 5, 6, 7, 8 };";
"        int8x8_t v2 = { 1, 2, 3, 4, 5, 6, 7, 8 };";
"        int8x8_t expected = { 2, 4, 6, 8, 10, 12, 14, 16 };";
"        int8x8_t actual = vadd_s8(v1, v2);";
"        EXPECT_TRUE(almostEqual(expected, actual));";
"    }";
"";
"    {";
"        //";
"        //";
"        int8x8_t v1 = { 1, 2, 3, 4, 5, 6, 7, 8 };";
"        int8x8_t v2 = { 10, 20, 30, 40, 50, 60, 70, 127 };";
"        int8x8_t actual = vadd_s8(v1, v2);";
"        int8x8_t expected = { 11, 22, 33, 44, 55, 66, 77, -121 };";
"        EXPECT_TRUE(almostEqual(expected, actual));";
"    }";
"}";
"";
"TEST(vadd, s8_exceed)";
"{";
"    int8x8_t v1 = { 120, 121, 122, 123, 124, 125, 126, 127 };";
"    int8x8_t v2 = { 100, 100, 100, 100, 100, 100, 100, 100 };";
"";
"    //";
"    int8x8_t expected = { -36, -35, -34, -33, -32, -31, -30, -29 };";
"    int8x8_t actual = vadd_s8(v1, v2);";
"    EXPECT_TRUE(almostEqual(expected, actual));";
"}";
"";
"TEST(vadd, u8)";
"{";
"    uint8x8_t v1 = { 0, 1, 2, 3, 4, 5, 6, 7 };";
"    uint8x8_t v2 = { 8, 9, 10, 11, 12, 13, 14, 15 };";
"    uint8x8_t expected = { 8, 10, 12, 14, 16, 18, 20, 22 };";
"    uint8x8_t actual = vadd_u8(v1, v2);";
"    EXPECT_TRUE(almostEqual(expected, actual));";
"}"
]);
("tests/test_vaddhn.cpp", [
"#include ""test_util.hpp""";
"";
"TEST(vaddhn_high_s16, normal)";
"{";
"    int8x8_t r = { 0, 1, 2, 3, 4, 5, 6, 7 };";
"    int16x8_t a = { 32000, 32001, 32002, 32003, 32004, 32005, 32006, 32007 };";
"    int16x8_t b = { 1, 2, 3, 4, 5, 6, 7, 8 };";
"    int8x16_t expected = { 0, 1, 2, 3, 4, 5, 6, 7, 125, 125, 125, 125, 125, 125, 125, 125 };";
"    int8x16_t actual = vaddhn_high_s16(r, a, b);";
"    EXPECT_TRUE(almostEqual(expected, actual));";
"}"
]);
("tests/test_vaddl.cpp", [
"#include ""test_util.hpp""";
"";
"TEST(vaddl, u8)";
"{";
"    uint8x8_t v1 = { 240, 241, 242, 243, 244, 245, 246, 247 };";
"    uint8x8_t v2 = { 100, 100, 100, 100, 100, 100, 100, 100 };";
"    uint16x8_t expected = { 340, 341, 342, 343, 344, 345, 346, 347 };";
"    uint16x8_t actual = vaddl_u8(v1, v2);";
"    EXPECT_TRUE(almostEqual(expected, actual));";
"}";
"";
"TEST(vaddl_high, s8)";
"{";
"    int8x16_t v1 = { 0, 1, 2, 3, 4, 5, 6, 7, 100, 101, 102, 103, 104, 105, 106, 107 };";
"    int8x16_t v2 = { 0, 1, 2, 3, 4, 5, 6, 7, 100, 100, 100, 100, 100, 100, 100, 100 };";
"    int16x8_t expected = { 200, 201, 202, 203, 204, 205, 206, 207 };";
"    int16x8_t actual = vaddl_high_s8(v1, v2);";
"    EXPECT_TRUE(almostEqual(expected, actual));";
"}"
]);
("tests/test_vaddw.cpp", [
"#include ""test_util.hpp""";
"";
"TEST(vaddw_high, s8)";
"{";
"    int16x8_t v1 = { 0, 1, 2, 3, 4, 5, 6, 7 };";
"    int8x16_t v2 = { 0, 1, 2, 3, 4, 5, 6, 7, 8, 9, 10, 11, 12, 13, 14, 15 };";
"    int16x8_t expected = { 8, 10, 12, 14, 16, 18, 20, 22 };";
"    int16x8_t actual = vaddw_high_s8(v1, v2);";
"    EXPECT_TRUE(almostEqual(expected, actual));";
"}";
"";
"TEST(vaddw, s8)";
"{";
"    //";
"    //";
"    int16x8_t v1 = vdupq_n_s16(300);";
"    int8x8_t v2 = { 1, 2, 3, 4, 5, 6, 7, 8 };";
"    int16x8_t actual = vaddw_s8(v1, v2);";
"    int16x8_t expected = { 301, 302, 303, 304, 305, 306, 307, 308 };";
"    EXPECT_TRUE(almostEqual(expected, actual));";
"}"
]);
("tests/test_vand.cpp", [
"#include ""test_util.hpp""";
"";
"TEST(vand, u8)";
"{";
"    uint8x8_t v1 = { 0, 9, 12, 11, 4, 13, 6, 17 };";
"    uint8x8_t v2 = { 8, 11, 10, 3, 12, 5, 14, 15 };";
"";
"    uint8x8_t expected = { 0, 9, 8, 3, 4, 5, 6, 1 };";
"    uint8x8_t actual = vand_u8(v1, v2);";
"    EXPECT_TRUE(almostEqual(expected, actual));";
"}"
]);
("tests/test_vext.cpp", [
"#include ""test_util.hpp""";
"";
"TEST(vext, u8)";
"{";
"    {";
"        uint8x8_t src1 = { 1, 2, 3, 4, 5, 6, 7, 8 };";
"        uint8x8_t src2 = { 9, 10, 11, 12, 13, 14, 15, 16 };";
"        uint8x8_t expected = { 4, 5, 6, 7, 8, 9, 10, 11 };";
"        uint8x8_t actual = vext_u8(src1, src2, 3);";
"        EXPECT_TRUE(almostEqual(expected, actual));";
"    }";
"";
"    {";
"        uint8_t s0_data[] = { 71, 61, 51, 41, 31, 21, 11, 1 };";
"        uint8x8_t s0 = vld1_u8(s0_data);";
"";
"        uint8x8_t m = vdup_n_u8(0);";
"        uint8x8_t s1 = vext_u8(m, s0, 7); //";
"        uint8x8_t s2 = vext_u8(m, s0, 6); //";
"        uint8x8_t s3 = vext_u8(m, s0, 5);";
"        uint8x8_t s4 = vext_u8(m, s0, 4);";
"        uint8x8_t s5 = vext_u8(m, s0, 3);";
"        uint8x8_t s6 = vext_u8(m, s0, 2);";
"        uint8x8_t s7 = vext_u8(m, s0, 1);";
"";
"        uint8x8_t expected_s1 = { 0, 71, 61, 51, 41, 31, 21, 11 };";
"        uint8x8_t expected_s2 = { 0, 0, 71, 61, 51, 41, 31, 21 };";
"        uint8x8_t expected_s3 = { 0, 0, 0, 71, 61, 51, 41, 31 };";
"        uint8x8_t expected_s4 = { 0, 0, 0, 0, 71, 61, 51, 41 };";
"        uint8x8_t expected_s5 = { 0, 0, 0, 0, 0, 71, 61, 51 };";
"        uint8x8_t expected_s6 = { 0, 0, 0, 0, 0, 0, 71, 61 };";
"        uint8x8_t expected_s7 = { 0, 0, 0, 0, 0, 0, 0, 71 };";
"";
"        EXPECT_TRUE(almostEqual(expected_s1, s1));";
"        EXPECT_TRUE(almostEqual(expected_s2, s2));";
"        EXPECT_TRUE(almostEqual(expected_s3, s3));";
"        EXPECT_TRUE(almostEqual(expected_s4, s4));";
"        EXPECT_TRUE(almostEqual(expected_s5, s5));";
"        EXPECT_TRUE(almostEqual(expected_s6, s6));";
"        EXPECT_TRUE(almostEqual(expected_s7, s7));";
"    }";
"}"
]);
("tests/test_vget.cpp", [
"#include ""test_util.hpp""";
"";
"TEST(vget, low_s8)";
"{";
"    int8x16_t v1 = {";
"        1, 2, 3, 4, 5, 6, 7, 8,";
"        11, 12, 13, 14, 15, 16, 17, 18";
"    };";
"    int8x8_t actual = vget_low_s8(v1);";
"    int8x8_t expected = { 1, 2, 3, 4, 5, 6, 7, 8 };";
"    EXPECT_TRUE(almostEqual(expected, actual));";
"}"
]);
("tests/test_vhsub.cpp", [
"#include ""test_util.hpp""";
"";
"TEST(sub, vhsub)";
"{";
"    int8x8_t v1 = vdup_n_s8(120);";
"    int8x8_t v2 = { 1, 2, 3, 4, 120, 121, 122, 123 };";
"    int8x8_t actual = vhsub_s8(v1, v2);";
"    int8x8_t expected = { 59, 59, 58, 58, 0, -1, -1, -2 };";
"    EXPECT_TRUE(almostEqual(expected, actual));";
"}"
]);
("tests/test_vld.cpp", [
"#include ""test_util.hpp""";
"";
"TEST(vld1q, f32)";
"{";
"    float values[5] = { 1.0, 2.0, 3.0, 4.0, 5.0 };";
"    float32x4_t actual = vld1q_f32(values);";
"    float32x4_t expected = { 1.0, 2.0, 3.0, 4.0 };";
"    EXPECT_TRUE(almostEqual(expected, actual));";
"}";
"";
"TEST(vld1q_dup, f32)";
"{";
"    float val = 3.0;";
"    float32x4_t expected = vld1q_dup_f32(&val);";
"    float32x4_t actual = { 3.0, 3.0, 3.0, 3.0 };";
"    EXPECT_TRUE(almostEqual(expected, actual));";
"}"
]);
("tests/test_vmax_vmin.cpp", [
"#include ""test_util.hpp""";
"";
"TEST(vmaxq, f32)";
"{";
"    float32x4_t v0 = { 5.0, 2.0, 3.0, 4.0 };";
"    float32x4_t v1 = { 1.0, 6.0, 7.0, 8.0 };";
"    float32x4_t actual = vmaxq_f32(v0, v1);";
"    float32x4_t expected = { 5.0, 6.0, 7.0, 8.0 };";
"    EXPECT_TRUE(almostEqual(expected, actual));";
"}";
"";
"TEST(vpmax, f32)";
"{";
"    float32x4_t v0 = { 1.0, 2.0, 3.0, 4.0 };";
"    float32x2_t maxOfHalfs = vpmax_f32(vget_low_f32(v0), vget_high_f32(v0));";
"    float32x2_t maxOfMaxOfHalfs = vpmax_f32(maxOfHalfs, maxOfHalfs);";
"    float actual = vget_lane_f32(maxOfMaxOfHalfs, 0);";
"    float expected = 4.0;";
"    EXPECT_EQ(expected, actual);";
"}";
"";
"TEST(vminq, f32)";
"{";
"    float32x4_t v0 = { 5.0, 2.0, 3.0, 4.0 };";
"    float32x4_t v1 = { 1.0, 6.0, 7.0, 8.0 };";
"    float32x4_t actual = vminq_f32(v0, v1);";
"    float32x4_t expected = { 1.0, 2.0, 3.0, 4.0 };";
"    EXPECT_TRUE(almostEqual(expected, actual));";
"}";
"";
"TEST(vpmin, f32)";
"{";
"    float32x4_t v0 = { 1.0, 2.0, 3.0, 4.0 };";
"    float32x2_t minOfHalfs = vpmin_f32(vget_low_f32(v0), vget_high_f32(v0));";
"    float32x2_t minOfMinOfHalfs = vpmin_f32(minOfHalfs, minOfHalfs);";
"    float expected = vget_lane_f32(minOfMinOfHalfs, 0);";
"    float actual = 1.0;";
"    EXPECT_EQ(expected, actual);";
"}"
]);
("tests/test_vmla.cpp", [
"#include ""test_util.hpp""";
"";
"TEST(vmlaq, f32)";
"{";
"    float32x4_t v1 = { 1.0, 2.0, 3.0, 4.0 };";
"    float32x4_t v2 = { 2.0, 2.0, 2.0, 2.0 };";
"    float32x4_t v3 = { 3.0, 3.0, 3.0, 3.0 };";
"    float32x4_t actual = vmlaq_f32(v3, v1, v2); //";
"    float32x4_t expected = { 5.0, 7.0, 9.0, 11.0 };";
"    EXPECT_TRUE(almostEqual(expected, actual));";
"}";
"";
"TEST(vmlaq_n, f32)";
"{";
"    float32x4_t v1 = { 1.0, 2.0, 3.0, 4.0 };";
"    float32x4_t v2 = { 1.0, 1.0, 1.0, 1.0 };";
"    float32_t s = 3.0;";
"    float32x4_t actual = vmlaq_n_f32(v1, v2, s);";
"    float32x4_t expected = { 4.0, 5.0, 6.0, 7.0 };";
"    EXPECT_TRUE(almostEqual(expected, actual));";
"}"
]);
("tests/test_vmov.cpp", [
"#include ""test_util.hpp""";
"";
"TEST(vmovq_n, f32)";
"{";
"    float32x4_t actual = vmovq_n_f32(1.5);";
"    float32x4_t expected = { 1.5, 1.5, 1.5, 1.5 };";
"    EXPECT_TRUE(almostEqual(expected, actual));";
"}"
]);
("tests/test_vmul.cpp", [
"#include ""test_util.hpp""";
"";
"TEST(vmulq, f32)";
"{";
"    float32x4_t v1 = { 1.0, 2.0, 3.0, 4.0 };";
"    float32x4_t v2 = { 1.0, 1.0, 1.0, 1.0 };";
"    float32x4_t actual = vmulq_f32(v1, v2);";
"    float32x4_t expected = { 1.0, 2.0, 3.0, 4.0 };";
"    EXPECT_TRUE(almostEqual(expected, actual));";
"}";
"";
"TEST(vmulq_n, f32)";
"{";
"    float32x4_t v = { 1.0, 2.0, 3.0, 4.0 };";
"    float32_t s = 3.0;";
"    float32x4_t actual = vmulq_n_f32(v, s);";
"    float32x4_t expected = { 3.0, 6.0, 9.0, 12.0 };";
"    EXPECT_TRUE(almostEqual(expected, actual));";
"}";
"";
"TEST(vmul, s8)";
"{";
"    int8x8_t v1 = { 1, 2, 3, 4, 5, 6, 7, 8 };";
"    int8x8_t v2 = { 2, 100, -10, -100, 2, 3, 4, 5 };";
"    int8x8_t actual = vmul_s8(v1, v2);";
"    int8x8_t expected = { 2, -56, -30, 112, 10, 18, 28, 40 };";
"    EXPECT_TRUE(almostEqual(expected, actual));";
"}";
"";
"TEST(mul, vmul_n_s16)";
"{";
"    int16x4_t v1 = { 1, 2, 3, 4 };";
"    int16_t s = 2;";
"    int16x4_t actual = vmul_n_s16(v1, s);";
"    int16x4_t expected = { 2, 4, 6, 8 };";
"    EXPECT_TRUE(almostEqual(expected, actual));";
"}"
]);
("tests/test_vqsub.cpp", [
"#include ""test_util.hpp""";
"";
"TEST(sub, vqsub)";
"{";
"    //";
"    //";
"    {";
"        uint8x8_t v1 = vdup_n_u8(250);";
"        uint8x8_t v2 = { 1, 2, 3, 4, 251, 252, 253, 254 };";
"        uint8x8_t actual = vqsub_u8(v1, v2);";
"        uint8x8_t expected = { 249, 248, 247, 246, 0, 0, 0, 0 };";
"        EXPECT_TRUE(almostEqual(expected, actual));";
"    }";
"";
"    {";
"        int8x8_t v1 = vdup_n_s8(120);";
"        int8x8_t v2 = { -11, 2, 3, 4, 121, 122, 123, 124 };";
"        int8x8_t actual = vqsub_s8(v1, v2);";
"        int8x8_t expected = { 127, 118, 117, 116, -1, -2, -3, -4 };";
"        EXPECT_TRUE(almostEqual(expected, actual));";
"    }";
"}"
]);
("tests/test_vrecpe.cpp", [
"#include ""test_util.hpp""";
"";
"//";
"TEST(vrecpeq, f32)";
"{";
"    float32x4_t v = { 1.0, 2.0, 3.0, 4.0 };";
"    float32x4_t actual = vrecpeq_f32(v);";
"    float32x4_t expected = { 0.998046875, 0.499023438, 0.333007813, 0.249511719 };";
"    EXPECT_TRUE(almostEqual(expected, actual));";
"}";
"";
"//";
"//";
"TEST(vrecpeq, f32_more_precise)";
"{";
"    float32x4_t v = { 1.0, 2.0, 3.0, 4.0 };";
"    float32x4_t reciprocal = vrecpeq_f32(v);";
"    float32x4_t actual = vmulq_f32(vrecpsq_f32(v, reciprocal), reciprocal);";
"    float32x4_t expected = { 0.999996185, 0.499998093, 0.333333015, 0.249999046 };";
"    EXPECT_TRUE(almostEqual(expected, actual));";
"}"
]);
("tests/test_vrev.cpp", [
"#include ""test_util.hpp""";
"";
"TEST(vrev16, u8)";
"{";
"    uint8x8_t src1 = { 1, 2, 3, 4, 5, 6, 7, 8 };";
"    uint8x8_t actual = vrev16_u8(src1);";
"    uint8x8_t expected = { 2, 1, 4, 3, 6, 5, 8, 7 };";
"    EXPECT_TRUE(almostEqual(expected, actual));";
"}";
"";
"TEST(vrev32, u8)";
"{";
"    uint8x8_t src1 = { 1, 2, 3, 4, 5, 6, 7, 8 };";
"    uint8x8_t actual = vrev32_u8(src1);";
"    uint8x8_t expected = { 4, 3, 2, 1, 8, 7, 6, 5 };";
"    EXPECT_TRUE(almostEqual(expected, actual));";
"}";
"";
"TEST(vrev64, u8)";
"{";
"    uint8x8_t src1 = { 1, 2, 3, 4, 5, 6, 7, 8 };";
"    uint8x8_t actual = vrev64_u8(src1);";
"    uint8x8_t expected = { 8, 7, 6, 5, 4, 3, 2, 1 };";
"    EXPECT_TRUE(almostEqual(expected, actual));";
"}"
]);
("tests/test_vrsubhn.cpp", [
"#include ""test_util.hpp""";
"";
"TEST(sub, vrsubhn)";
"{";
"    int16x8_t v1 = vdupq_n_s16(850);";
"    int16x8_t v2 = { 200, 400, 600, 800, 1000, 1200, 1400, 1600 };";
"    int8x8_t actual = vrsubhn_s16(v1, v2);";
"    int8x8_t expected = { 3, 2, 1, 0, -1, -1, -2, -3 };";
"    EXPECT_TRUE(almostEqual(expected, actual));";
"}"
]);
("tests/test_vst.cpp", [
"#include ""test_util.hpp""";
"";
"TEST(vst1q, f32)";
"{";
"    float32x4_t v = { 1.0, 2.0, 3.0, 4.0 };";
"    std::vector<float> actual = { 0, 0, 0, 0, 0 };";
"    vst1q_f32(actual.data(), v);";
"    std::vector<float> expected = { 1.0, 2.0, 3.0, 4.0, 0 };";
"    EXPECT_TRUE(almostEqual(expected, actual));";
"}";
"";
"//";
"TEST(vst4q_lane, f32)";
"{";
"    float32x4_t v0 = { 1.0, 2.0, 3.0, 4.0 };";
"    float32x4_t v1 = { 5.0, 6.0, 7.0, 8.0 };";
"    float32x4_t v2 = { 9.0, 10.0, 11.0, 12.0 };";
"    float32x4_t v3 = { 13.0, 14.0, 15.0, 16.0 };";
"    float32x4x4_t u = { v0, v1, v2, v3 };";
"    std::vector<float> actual(4);";
"    vst4q_lane_f32(actual.data(), u, 0);";
"    std::vector<float> expected = { 1.0, 5.0, 9.0, 13.0 };";
"    EXPECT_TRUE(almostEqual(expected, actual));";
"}"
]);
("tests/test_vsub.cpp", [
"#include ""test_util.hpp""";
"";
"TEST(sub, vsub)";
"{";
"    //";
"    uint8x8_t v1 = { 11, 12, 13, 14, 15, 16, 17, 18 };";
"    uint8x8_t v2 = vdup_n_u8(10);";
"    uint8x8_t actual = vsub_u8(v1, v2);";
"    uint8x8_t expected = { 1, 2, 3, 4, 5, 6, 7, 8 };";
"    EXPECT_TRUE(almostEqual(expected, actual));";
"}"
]);
("tests/test_vsubhn.cpp", [
"#include ""test_util.hpp""";
"";
"TEST(sub, vsubhn)";
"{";
"    //";
"    //";
"    int16x8_t v1 = { 100, 200, 300, 400, 500, 600, 700, 800 };";
"    int16x8_t v2 = { 1, 2, 3, 4, 5, 6, 7, 8 };";
"    int8x8_t actual = vsubhn_s16(v1, v2);";
"    int8x8_t expected = { 0, 0, 1, 1, 1, 2, 2, 3 };";
"    EXPECT_TRUE(almostEqual(expected, actual));";
"}"
]);
("tests/test_vsubl.cpp", [
"#include ""test_util.hpp""";
"";
"TEST(sub, vsubl)";
"{";
"    //";
"    int8x8_t v1 = vdup_n_s8(127);";
"    int8x8_t v2 = { 0, 1, 2, 3, -1, -2, -3, -4 };";
"    int16x8_t actual = vsubl_s8(v1, v2);";
"    int16x8_t expected = { 127, 126, 125, 124, 128, 129, 130, 131 };";
"    EXPECT_TRUE(almostEqual(expected, actual));";
"}"
]);
("tests/test_vsubw.cpp", [
"#include ""test_util.hpp""";
"";
"TEST(sub, vsubw)";
"{";
"    //";
"    int16x8_t v1 = { 101, 102, 103, 104, 105, 106, 107, 108 };";
"    int8x8_t v2 = { 1, 2, 3, 4, 5, 6, 7, 8 };";
"    int16x8_t actual = vsubw_s8(v1, v2);";
"    int16x8_t expected = { 100, 100, 100, 100, 100, 100, 100, 100 };";
"    EXPECT_TRUE(almostEqual(expected, actual));";
"}"
]);
("tests/test_vtbl.cpp", [
"#include ""test_util.hpp""";
"";
"TEST(vtbl1, u8)";
"{";
"    uint8x8_t src1 = { 1, 2, 3, 4, 5, 6, 7, 8 };";
"    uint8x8_t src2 = { 0, 0, 1, 1, 2, 2, 7, 8 };";
"    uint8x8_t actual = vtbl1_u8(src1, src2);";
"    uint8x8_t expected = { 1, 1, 2, 2, 3, 3, 8, 0 };";
"    EXPECT_TRUE(almostEqual(expected, actual));";
"}";
"";
"TEST(vtbl2, u8)";
"{";
"    uint8x8x2_t src;";
"    src.val[0] = uint8x8_t{ 1, 2, 3, 4, 5, 6, 7, 8 };";
"    src.val[1] = uint8x8_t{ 9, 10, 11, 12, 13, 14, 15, 16 };";
"    uint8x8_t src2 = { 0, 0, 1, 1, 2, 2, 8, 10 };";
"    uint8x8_t actual = vtbl2_u8(src, src2);";
"    uint8x8_t expected = { 1, 1, 2, 2, 3, 3, 9, 11 };";
"    EXPECT_TRUE(almostEqual(expected, actual));";
"}"
]);
("tests/test_vtrn.cpp", [
"#include ""test_util.hpp""";
"";
"TEST(vtrn, u8)";
"{";
"    uint8x8x2_t src;";
"    src.val[0] = uint8x8_t{ 1, 2, 3, 4, 5, 6, 7, 8 };";
"    src.val[1] = uint8x8_t{ 9, 10, 11, 12, 13, 14, 15, 16 };";
"    uint8x8x2_t actual = vtrn_u8(src.val[0], src.val[1]);";
"    uint8x8x2_t expected;";
"    expected.val[0] = uint8x8_t{ 1, 9, 3, 11, 5, 13, 7, 15 };";
"    expected.val[1] = uint8x8_t{ 2, 10, 4, 12, 6, 14, 8, 16 };";
"";
"    EXPECT_TRUE(almostEqual(expected, actual));";
"}"
]);
("tests/test_vuzp.cpp", [
"#include ""test_util.hpp""";
"";
"TEST(vuzp, u8)";
"{";
"    uint8x8x2_t src;";
"    src.val[0] = uint8x8_t{ 1, 2, 3, 4, 5, 6, 7, 8 };";
"    src.val[1] = uint8x8_t{ 9, 10, 11, 12, 13, 14, 15, 16 };";
"    uint8x8x2_t actual = vuzp_u8(src.val[0], src.val[1]);";
"    uint8x8x2_t expected;";
"    expected.val[0] = uint8x8_t{ 1, 3, 5, 7, 9, 11, 13, 15 };";
"    expected.val[1] = uint8x8_t{ 2, 4, 6, 8, 10, 12, 14, 16 };";
"";
"    EXPECT_TRUE(almostEqual(expected, actual));";
"}"
]);
("tests/test_vzip.cpp", [
"#include ""test_util.hpp""";
"";
"TEST(vzip, u8)";
"{";
"    uint8x8x2_t src;";
"    src.val[0] = uint8x8_t{ 1, 2, 3, 4, 5, 6, 7, 8 };";
"    src.val[1] = uint8x8_t{ 9, 10, 11, 12, 13, 14, 15, 16 };";
"    uint8x8x2_t actual = vzip_u8(src.val[0], src.val[1]);";
"    uint8x8x2_t expected;";
"    expected.val[0] = uint8x8_t{ 1, 9, 2, 10, 3, 11, 4, 12 };";
"    expected.val[1] = uint8x8_t{ 5, 13, 6, 14, 7, 15, 8, 16 };";
"";
"    EXPECT_TRUE(almostEqual(expected, actual));";
"}"
])
].
