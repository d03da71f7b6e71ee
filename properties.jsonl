{"id": "C01", "title": "Contiguous vector loads", "statement": "Each vld1_T / vld1q_T(ptr) returns the vector whose lane i is ptr[i] for every lane i, reads no element outside ptr[0..n-1] (so it is defined whenever exactly those n elements are readable), and changes no memory.", "quantifier": "all element types offered, all memories, all pointers into them with n readable elements, all lane contents", "why_tests_cant": "A test reads a few buffers; an over-read or a lane swap can depend on the buffer position and contents.", "anchors": ["neon_sim.cpp: vld1_*", "neon_sim.cpp: vld1q_*"]}
{"id": "C02", "title": "De-interleaving structure loads", "statement": "Each vld2/vld3/vld4 (and q form) returns k vectors such that lane i of vector j is ptr[k*i+j]; it reads exactly the k*n elements at ptr and changes no memory.", "quantifier": "all k in {2,3,4}, all element types offered, all memories and pointers, all contents", "why_tests_cant": "The index formula must be right for every lane of every vector with arbitrary contents.", "anchors": ["neon_sim.cpp: vld2_*", "neon_sim.cpp: vld2q_*", "neon_sim.cpp: vld3_*", "neon_sim.cpp: vld3q_*", "neon_sim.cpp: vld4_*", "neon_sim.cpp: vld4q_*", "neon_sim.cpp: vld_s32 (defined in place of vld2_s32)"]}
{"id": "C03", "title": "Contiguous vector stores and their frame", "statement": "Each vst1_T / vst1q_T(ptr, v) stores lane i of v to ptr[i] for every i and leaves every other element of every memory object unchanged.", "quantifier": "all element types offered, all memories, all pointers with n writable elements, all vectors", "why_tests_cant": "The frame condition (nothing else is written) ranges over all of memory.", "anchors": ["neon_sim.cpp: vst1_*", "neon_sim.cpp: vst1q_*"]}
{"id": "C04", "title": "Interleaving structure stores and their frame", "statement": "Each vst2/vst3/vst4 (and q form)(ptr, v) stores lane i of vector j to ptr[k*i+j] for all i, j and leaves everything else in memory unchanged.", "quantifier": "all k in {2,3,4}, all element types offered, all memories, pointers and vector tuples", "why_tests_cant": "Needs every index of every output and the frame; wrong indices hide when test data repeats.", "anchors": ["neon_sim.cpp: vst2_*", "neon_sim.cpp: vst2q_*", "neon_sim.cpp: vst3_*", "neon_sim.cpp: vst3q_*", "neon_sim.cpp: vst4_*", "neon_sim.cpp: vst4q_*"]}
{"id": "C05", "title": "Load/store round trips", "statement": "For every k and T for which both exist, loading with vldk right after storing v with vstk at the same pointer returns v, and storing back what vldk loaded leaves memory as it was.", "quantifier": "all pairs vldk/vstk with the same k and type, all memories, pointers and vectors", "why_tests_cant": "An algebraic law over all vectors and memories.", "anchors": ["neon_sim.cpp: vld1*..vld4*", "neon_sim.cpp: vst1*..vst4*"]}
{"id": "C06", "title": "Single-lane loads", "statement": "vld1_lane, vld2_lane, vld3_lane and vld4_lane replace exactly lane `lane` of each vector by ptr[j], keep all other lanes, and read only the k elements at ptr, for every valid lane.", "quantifier": "all valid lane numbers, all memories, pointers, vectors", "why_tests_cant": "Must hold for each lane and for all vectors at once.", "anchors": ["neon_sim.cpp: vld1_lane_s8", "neon_sim.cpp: vld1_lane_u8", "neon_sim.cpp: vld2_lane_u8", "neon_sim.cpp: vld3_lane_u8", "neon_sim.cpp: vld4_lane_u8"]}
{"id": "C07", "title": "Lane numbers are validated", "statement": "An intrinsic taking a lane number either behaves as specified for a valid lane or terminates the program by abort for an invalid lane; no lane number makes it read or write outside the vector.", "quantifier": "all lane numbers of type int, all vectors and memories", "why_tests_cant": "The set of int lane numbers is too large to enumerate and out-of-bounds access is not observable by a test.", "anchors": ["neon_sim.cpp: vget_lane_f32", "neon_sim.cpp: vgetq_lane_*", "neon_sim.cpp: vld1_lane_*", "neon_sim.cpp: vld2_lane_u8", "neon_sim.cpp: vld3_lane_u8", "neon_sim.cpp: vld4_lane_u8", "neon_sim.cpp: vst4q_lane_f32"]}
{"id": "C08", "title": "Single-lane store", "statement": "vst4q_lane_f32(ptr, v, lane) writes lane `lane` of the four vectors to ptr[0..3] and nothing else, for every valid lane.", "quantifier": "all valid lanes, memories, pointers, vector tuples", "why_tests_cant": "Frame condition ranges over all memory.", "anchors": ["neon_sim.cpp: vst4q_lane_f32"]}
{"id": "C09", "title": "Broadcast", "statement": "vdup_n, vdupq_n, vmovq_n and vld1q_dup return a vector all of whose lanes equal the scalar argument (resp. ptr[0]).", "quantifier": "all element types offered, all scalars", "why_tests_cant": "Every scalar value of up to 64 bits.", "anchors": ["neon_sim.cpp: vdup_n_*", "neon_sim.cpp: vdupq_n_*", "neon_sim.cpp: vmovq_n_f32", "neon_sim.cpp: vld1q_dup_f32"]}
{"id": "C10", "title": "Splitting and joining vectors", "statement": "vget_low/vget_high return the low/high half of the lanes in order, vcombine concatenates; vcombine(vget_low(x), vget_high(x)) = x and vget_low/high(vcombine(a,b)) = a / b.", "quantifier": "all element types offered, all vectors", "why_tests_cant": "Laws over all vectors.", "anchors": ["neon_sim.cpp: vget_low_*", "neon_sim.cpp: vget_high_*", "neon_sim.cpp: vcombine_*"]}
{"id": "C11", "title": "Lane extraction", "statement": "vget_lane / vgetq_lane(v, k) return lane k for every valid k.", "quantifier": "all element types offered, all vectors, all valid lane numbers", "why_tests_cant": "All lanes and all values.", "anchors": ["neon_sim.cpp: vget_lane_f32", "neon_sim.cpp: vgetq_lane_*"]}
{"id": "C12", "title": "Lane-wise wrapping addition", "statement": "vadd and vaddq on integers return, in each lane, the sum of the two lanes modulo 2^width, for every pair of vectors (in particular also when the sum overflows).", "quantifier": "all integer element types, all vectors", "why_tests_cant": "2^128 inputs per function; signed overflow is undefined behaviour that a test cannot see.", "anchors": ["neon_sim.cpp: vadd_*", "neon_sim.cpp: vaddq_*"]}
{"id": "C13", "title": "Lane-wise wrapping subtraction", "statement": "vsub and vsubq on integers return, in each lane, the difference of the two lanes modulo 2^width, for every pair of vectors.", "quantifier": "all integer element types, all vectors", "why_tests_cant": "As for addition.", "anchors": ["neon_sim.cpp: vsub_*", "neon_sim.cpp: vsubq_*"]}
{"id": "C14", "title": "Addition and subtraction laws", "statement": "Vector addition is commutative and associative; subtraction undoes addition: vsub(vadd(a,b),b) = a; vsub(a,a) = 0.", "quantifier": "all integer element types, all vectors", "why_tests_cant": "Algebraic laws over all vectors.", "anchors": ["neon_sim.cpp: vadd_*", "neon_sim.cpp: vaddq_*", "neon_sim.cpp: vsub_*", "neon_sim.cpp: vsubq_*"]}
{"id": "C15", "title": "Long and wide addition are exact", "statement": "vaddl, vaddl_high, vpaddl(q) return the exact sum in lanes of twice the width; vaddw and vaddw_high return the wide lane plus the widened narrow lane modulo 2^(wide width).", "quantifier": "all integer element types offered, all vectors", "why_tests_cant": "Loss of the carry happens only on large lanes.", "anchors": ["neon_sim.cpp: vaddl_u8", "neon_sim.cpp: vaddl_high_*", "neon_sim.cpp: vaddw_*", "neon_sim.cpp: vaddw_high_*", "neon_sim.cpp: vpaddl_u8", "neon_sim.cpp: vpaddlq_*"]}
{"id": "C16", "title": "Add/subtract returning high narrow", "statement": "vaddhn_high(r,a,b) keeps r in the low half and puts the most significant half of each (a+b) mod 2^w in the high half; vsubhn returns the most significant half of each (a-b) mod 2^w; vrsubhn rounds by adding 2^(w/2-1) first.", "quantifier": "all integer element types offered, all vectors", "why_tests_cant": "Requires every lane width's own shift count and wrap-around on all values.", "anchors": ["neon_sim.cpp: vaddhn_high_*", "neon_sim.cpp: vsubhn_s16", "neon_sim.cpp: vsubhn_u16", "neon_sim.cpp: vsubn_* (defined in place of vsubhn_*)", "neon_sim.cpp: vrsubhn_*"]}
{"id": "C17", "title": "Saturating addition and subtraction", "statement": "vqadd(q) and vqsub(q) return in each lane the exact sum/difference clamped to the range of the element type.", "quantifier": "all integer element types offered, all vectors", "why_tests_cant": "Clamping has to be right at and around every extreme value, including 64-bit lanes.", "anchors": ["neon_sim.cpp: vqadd_u8", "neon_sim.cpp: vqaddq_u8", "neon_sim.cpp: vqsub_*", "neon_sim.cpp: vqsubq_*"]}
{"id": "C18", "title": "Halving subtraction", "statement": "vhsub and vhsubq return floor((a-b)/2) computed without intermediate overflow, reduced modulo 2^width.", "quantifier": "all integer element types offered, all vectors", "why_tests_cant": "Fails only for some sign/magnitude combinations.", "anchors": ["neon_sim.cpp: vhsub_*", "neon_sim.cpp: vhsubq_*"]}
{"id": "C19", "title": "Long and wide subtraction", "statement": "vsubl returns the exact difference in lanes of twice the width (modulo 2^(2w) for unsigned); vsubw returns the wide lane minus the widened narrow lane modulo 2^(wide width).", "quantifier": "all integer element types offered, all vectors", "why_tests_cant": "All lane values.", "anchors": ["neon_sim.cpp: vsubl_*", "neon_sim.cpp: vsubw_*"]}
{"id": "C20", "title": "Wrapping multiplication", "statement": "vmul, vmulq, vmul_n, vmulq_n on integers return the product modulo 2^width in each lane for every input.", "quantifier": "all integer element types offered, all vectors and scalars", "why_tests_cant": "Undefined behaviour (signed overflow after promotion) for large unsigned 16-bit lanes is invisible to tests.", "anchors": ["neon_sim.cpp: vmul_*", "neon_sim.cpp: vmulq_*", "neon_sim.cpp: vmul_n_*", "neon_sim.cpp: vmulq_n_*"]}
{"id": "C21", "title": "Long multiplication is exact", "statement": "vmull and vmull_n return the exact product in lanes of twice the width for every input.", "quantifier": "all integer element types offered, all vectors and scalars", "why_tests_cant": "Truncation shows up only for large lanes.", "anchors": ["neon_sim.cpp: vmull_*", "neon_sim.cpp: vmull_n_*"]}
{"id": "C22", "title": "Saturating doubling long multiply", "statement": "vqdmull_s16 returns 2*a*b clamped to int32 in each lane; saturation happens only when both lanes are -32768.", "quantifier": "all vectors", "why_tests_cant": "2^128 inputs.", "anchors": ["neon_sim.cpp: vqdmull_s16"]}
{"id": "C23", "title": "Multiply-accumulate", "statement": "vmlal/vmlsl return acc +/- the exact long product modulo 2^(2w); vmlaq returns acc + a*b modulo 2^w.", "quantifier": "all integer element types offered, all vectors", "why_tests_cant": "Overflow and truncation cases.", "anchors": ["neon_sim.cpp: vmlal_*", "neon_sim.cpp: vmlsl_*", "neon_sim.cpp: vmlaq_*"]}
{"id": "C24", "title": "Integer maximum and minimum", "statement": "vmaxq/vminq on integers return the larger/smaller lane, compared as the type in their name says (vmaxq_u8 as unsigned numbers); they are commutative, associative, idempotent and each result lane is one of the inputs.", "quantifier": "all integer element types offered, all vectors", "why_tests_cant": "All pairs of lanes; signedness matters.", "anchors": ["neon_sim.cpp: vmaxq_*", "neon_sim.cpp: vminq_*"]}
{"id": "C25", "title": "Floating-point maximum and minimum", "statement": "vmaxq_f32/vminq_f32/vpmax_f32/vpmin_f32 return the IEEE maximum/minimum of the lanes as the hardware does: NaN if either operand is NaN, and max(-0,+0)=+0, min(-0,+0)=-0.", "quantifier": "all float32 bit patterns", "why_tests_cant": "NaN and signed-zero cases over all 2^64 pairs.", "anchors": ["neon_sim.cpp: vmaxq_f32", "neon_sim.cpp: vminq_f32", "neon_sim.cpp: vpmax_f32", "neon_sim.cpp: vpmin_f32"]}
{"id": "C26", "title": "Floating-point arithmetic is correctly rounded", "statement": "vaddq/vsub(q)/vmul(q)(_n)/vdiv(q) on floats return in each lane the IEEE-754 round-to-nearest-even result of the exact real operation (when operands and result are finite), and the IEEE special-case results otherwise.", "quantifier": "all float32/float64 bit patterns in every lane", "why_tests_cant": "All pairs of floating-point numbers; rounding is correct only by proof.", "anchors": ["neon_sim.cpp: vaddq_f32", "neon_sim.cpp: vsub_f32", "neon_sim.cpp: vsubq_f32", "neon_sim.cpp: vmulq_f32", "neon_sim.cpp: vmul_n_f32", "neon_sim.cpp: vmul_n_f64", "neon_sim.cpp: vmulq_n_f32", "neon_sim.cpp: vmulq_n_f64", "neon_sim.cpp: vdiv_f32", "neon_sim.cpp: vdiv_f64", "neon_sim.cpp: vdivq_f32", "neon_sim.cpp: vdivq_f64"]}
{"id": "C27", "title": "Multiply-accumulate on floats is two-step rounded", "statement": "vmlaq_f32 and vmlaq_n_f32 return round(acc + round(a*b)) in each lane (a non-fused multiply-add).", "quantifier": "all float32 bit patterns", "why_tests_cant": "Fused versus non-fused differ only for some inputs.", "anchors": ["neon_sim.cpp: vmlaq_f32", "neon_sim.cpp: vmlaq_n_f32"]}
{"id": "C28", "title": "Shift right narrow and shift right", "statement": "vshrn_n(a,n) returns floor(a/2^n) modulo 2^(w/2) in each lane for each documented n (1..w/2); vshr_n_u16 returns floor(a/2^n) for each documented n (1..16).", "quantifier": "all element types offered, all vectors, all documented shift counts", "why_tests_cant": "All n and all lane values, including negative ones.", "anchors": ["neon_sim.cpp: vshrn_n_*", "neon_sim.cpp: vshr_n_u16"]}
{"id": "C29", "title": "Saturating narrowing shifts", "statement": "vqshrun_n, vqrshrun_n and vqshrn_n return floor(a/2^n) (with rounding for vqr*) clamped to the destination range, for each documented n.", "quantifier": "all element types offered, all vectors, all documented shift counts", "why_tests_cant": "Clamping combined with every shift count.", "anchors": ["neon_sim.cpp: vqshrun_n_*", "neon_sim.cpp: vqrshrun_n_s16", "neon_sim.cpp: vqshrn_n_*"]}
{"id": "C30", "title": "Other immediate shifts", "statement": "vrshrn_n_u16 rounds and narrows, vsraq_n_s32 accumulates the shifted second operand, vshlq_n_s32 and vshll_n_u8 shift left, for each documented n.", "quantifier": "all vectors, all documented shift counts", "why_tests_cant": "All n and all lane values.", "anchors": ["neon_sim.cpp: vrshrn_n_u16", "neon_sim.cpp: vsraq_n_s32", "neon_sim.cpp: vshlq_n_s32", "neon_sim.cpp: vshll_n_u8"]}
{"id": "C31", "title": "Immediate arguments are validated", "statement": "For every shift count or byte offset outside the documented range the intrinsic aborts; it never computes a shift by an invalid amount or an out-of-range index.", "quantifier": "all immediates of type int, all vectors", "why_tests_cant": "All 2^32 immediates; an invalid shift is undefined behaviour invisible to tests.", "anchors": ["neon_sim.cpp: vshrn_n_*", "neon_sim.cpp: vshr_n_u16", "neon_sim.cpp: vqshrun_n_*", "neon_sim.cpp: vqrshrun_n_s16", "neon_sim.cpp: vqshrn_n_*", "neon_sim.cpp: vrshrn_n_u16", "neon_sim.cpp: vsraq_n_s32", "neon_sim.cpp: vshlq_n_s32", "neon_sim.cpp: vshll_n_u8", "neon_sim.cpp: vext_*", "neon_sim.cpp: vextq_u16"]}
{"id": "C32", "title": "Reinterpret casts keep the bytes", "statement": "Every vreinterpret(q) returns the vector of the target type with the same 8/16 memory bytes (little-endian) as its argument; casting there and back is the identity.", "quantifier": "all cast pairs offered, all vectors", "why_tests_cant": "All 2^128 bit patterns including NaN payloads.", "anchors": ["neon_sim.cpp: vreinterpret_*", "neon_sim.cpp: vreinterpretq_*"]}
{"id": "C33", "title": "Conversions between float and integer vectors", "statement": "vcvtq_f32_s32 rounds each int32 to the nearest float (ties to even); vcvtq_s32_f32 and vcvtq_u32_f32 truncate toward zero with saturation and NaN to 0; vcvtnq_s32_f32 rounds to nearest, ties to even. Converting an int32 to float and back is always defined, and gives the same integer if its magnitude is at most 2^24.", "quantifier": "all vectors of int32 / float32 bit patterns", "why_tests_cant": "All 2^32 values per lane; out-of-range conversions are undefined behaviour.", "anchors": ["neon_sim.cpp: vcvtq_f32_s32", "neon_sim.cpp: vcvtq_s32_f32", "neon_sim.cpp: vcvtq_u32_f32", "neon_sim.cpp: vcvtnq_s32_f32"]}
{"id": "C34", "title": "Reciprocal estimate", "statement": "vrecpeq_f32 returns the architected 8-bit reciprocal estimate: for every normal operand whose reciprocal is normal the relative error is below 2^-8 and the sign is kept; zeros give infinities, infinities give zeros, NaNs give NaNs.", "quantifier": "all float32 bit patterns", "why_tests_cant": "All 2^32 operands; special operands.", "anchors": ["neon_sim.cpp: vrecpeq_f32", "neon_sim.cpp: FPRecipEstimate", "neon_sim.cpp: RecipEstimate", "neon_sim.cpp: float_parts"]}
{"id": "C35", "title": "Reciprocal step", "statement": "vrecpsq_f32(a,b) returns 2 - a*b in each lane as the hardware does (fused, with 0*inf giving 2).", "quantifier": "all float32 bit patterns", "why_tests_cant": "Fused rounding and special operands.", "anchors": ["neon_sim.cpp: vrecpsq_f32"]}
{"id": "C36", "title": "Transpose, zip and unzip", "statement": "vtrn(q), vzip and vuzp return the documented permutations of the 2n input lanes; vuzp undoes vzip and vzip undoes vuzp; vtrn applied to its own results gives back the inputs.", "quantifier": "all element types offered, all vectors", "why_tests_cant": "Permutation laws over all vectors.", "anchors": ["neon_sim.cpp: vtrn_*", "neon_sim.cpp: vtrnq_*", "neon_sim.cpp: vzip_*", "neon_sim.cpp: vuzp_*"]}
{"id": "C37", "title": "Lane reversal", "statement": "vrev16/32/64 (and q) reverse the order of the elements inside each 16/32/64-bit group, and are involutions.", "quantifier": "all element types offered, all vectors", "why_tests_cant": "Law over all vectors; every lane must be written.", "anchors": ["neon_sim.cpp: vrev16*", "neon_sim.cpp: vrev32*", "neon_sim.cpp: vrev64*"]}
{"id": "C38", "title": "Narrowing and widening moves", "statement": "vmovl keeps the value of each lane in twice the width; vmovn keeps the value modulo 2^(w/2); vqmovn/vqmovun clamp to the destination range; vmovn(vmovl(x)) = x.", "quantifier": "all element types offered, all vectors", "why_tests_cant": "All lane values.", "anchors": ["neon_sim.cpp: vmovl_*", "neon_sim.cpp: vmovn_*", "neon_sim.cpp: vqmovn_u16", "neon_sim.cpp: vqmovun_s16"]}
{"id": "C39", "title": "Table lookup", "statement": "vtbl1/vtbl2/vtbl4/vqtbl1 return, in each lane, table[index] when the index is inside the table and 0 otherwise.", "quantifier": "all tables and all index vectors", "why_tests_cant": "All 256 indices in every lane; an out-of-range index must not read outside the table.", "anchors": ["neon_sim.cpp: vtbl1_u8", "neon_sim.cpp: vtbl2_u8", "neon_sim.cpp: vtbl4_u8", "neon_sim.cpp: vqtbl1_u8"]}
{"id": "C40", "title": "Vector extraction", "statement": "vext/vextq(a,b,n) return lanes n..n+lanes-1 of the concatenation a++b for each documented n (0..lanes-1).", "quantifier": "all vectors, all documented offsets", "why_tests_cant": "All offsets with all vectors.", "anchors": ["neon_sim.cpp: vext_u8", "neon_sim.cpp: vext_u16", "neon_sim.cpp: vext_s16", "neon_sim.cpp: vextq_u16"]}
{"id": "C41", "title": "Comparison and bitwise select", "statement": "vcgtq_u8 and vcltq_f32 return all-ones lanes where the comparison holds and zero lanes otherwise; vbslq selects each bit of the result from the second operand where the mask bit is 1 and from the third where it is 0.", "quantifier": "all masks and vectors, all float32 bit patterns", "why_tests_cant": "Every mask bit pattern, not only all-ones or zero lanes.", "anchors": ["neon_sim.cpp: vcgtq_u8", "neon_sim.cpp: vcltq_f32", "neon_sim.cpp: vbslq_u8", "neon_sim.cpp: vbslq_f32"]}
{"id": "C42", "title": "Bitwise logic", "statement": "vand, vorr, veor, vmvn (and q) act on every bit of every lane as and, or, exclusive-or and not.", "quantifier": "all integer element types offered, all vectors, all bit positions", "why_tests_cant": "All bit patterns.", "anchors": ["neon_sim.cpp: vand*", "neon_sim.cpp: vorr*", "neon_sim.cpp: veor*", "neon_sim.cpp: ver_u32 (defined in place of veor_u32)", "neon_sim.cpp: vmvn*"]}
{"id": "C43", "title": "Boolean algebra laws", "statement": "The bitwise intrinsics satisfy commutativity, associativity, idempotence, absorption, De Morgan, double negation and xor cancellation as vector equations.", "quantifier": "all integer element types offered, all vectors", "why_tests_cant": "Laws over all vectors.", "anchors": ["neon_sim.cpp: vand*", "neon_sim.cpp: vorr*", "neon_sim.cpp: veor*", "neon_sim.cpp: vmvn*"]}
{"id": "C44", "title": "Signed and unsigned variants agree bit for bit", "statement": "For vadd, vsub, vmul, vand, vorr, veor, vmvn (and q) the signed and the unsigned variant compute the same bits: reinterpreting the operands as unsigned, using the unsigned variant and reinterpreting back gives the signed result.", "quantifier": "all element widths offered, all vectors", "why_tests_cant": "Law relating two functions on all vectors.", "anchors": ["neon_sim.cpp: vadd*", "neon_sim.cpp: vsub*", "neon_sim.cpp: vmul*", "neon_sim.cpp: vand*", "neon_sim.cpp: vorr*", "neon_sim.cpp: veor*", "neon_sim.cpp: vmvn*"]}
{"id": "C45", "title": "128-bit variants act as two 64-bit halves", "statement": "For every lane-wise intrinsic offered in both sizes, the q variant applied to vcombine(a,b) equals vcombine of the 64-bit variant applied to the halves.", "quantifier": "all lane-wise operations offered in both sizes, all vectors", "why_tests_cant": "Law relating two functions on all vectors.", "anchors": ["neon_sim.cpp: vaddq_*", "neon_sim.cpp: vsubq_*", "neon_sim.cpp: vmulq_*", "neon_sim.cpp: vandq_*", "neon_sim.cpp: vorrq_*", "neon_sim.cpp: veorq_*", "neon_sim.cpp: vmvnq_*", "neon_sim.cpp: vhsubq_*", "neon_sim.cpp: vqsubq_*"]}
{"id": "C46", "title": "Value intrinsics do not touch memory and stores touch only their target", "statement": "Every intrinsic other than vst* leaves all of memory unchanged whatever it is given, and every vst* can change only elements of the object its pointer points into.", "quantifier": "all 539 compiled functions, all arguments, all memories", "why_tests_cant": "A statement about all functions and all memories.", "anchors": ["neon_sim.cpp: every function definition"]}
{"id": "C47", "title": "Every intrinsic terminates", "statement": "Every call of every defined intrinsic ends after finitely many steps (by returning, aborting or undefined behaviour) and never runs forever, for every argument including arbitrary shift counts, lanes and offsets.", "quantifier": "all defined functions, all arguments", "why_tests_cant": "Termination is not testable.", "anchors": ["neon_sim.cpp: every function definition"]}
{"id": "C48", "title": "Results are well-formed", "statement": "Every call of every defined intrinsic on well-typed arguments that returns normally yields a value of the declared return type whose initialised lanes are all inside the range of the element type, and leaves memory well-typed.", "quantifier": "all defined functions, all well-typed arguments and memories", "why_tests_cant": "A type-soundness statement over all functions and inputs.", "anchors": ["neon_sim.cpp: every function definition"]}
{"id": "C49", "title": "No undefined behaviour", "statement": "On well-typed arguments with valid pointers and documented immediates, calling an intrinsic never has undefined behaviour (signed overflow, invalid shift, out-of-bounds access, use of an uninitialised value, out-of-range float conversion).", "quantifier": "all defined functions, all such arguments and memories", "why_tests_cant": "Undefined behaviour is not observable by running the compiled program.", "anchors": ["neon_sim.cpp: every function definition"]}
{"id": "C50", "title": "All result lanes are initialised", "statement": "Every lane of every returned vector has been assigned a value.", "quantifier": "all defined functions, all arguments", "why_tests_cant": "An indeterminate lane can accidentally hold the expected value in a test.", "anchors": ["neon_sim.cpp: every function definition returning a vector", "neon_sim.cpp: vqshrun_n_s32", "neon_sim.cpp: vqshrun_n_s64", "neon_sim.cpp: vrev64q_s8", "neon_sim.cpp: vrev64q_s16"]}
{"id": "C51", "title": "Declared intrinsics are defined", "statement": "Every intrinsic declared in neon_sim.h is defined in neon_sim.cpp with the same parameter types, so that any program using the header links; and every function the source defines is declared in the header.", "quantifier": "all declarations of neon_sim.h and all definitions of neon_sim.cpp", "why_tests_cant": "Tests only exercise the functions that exist.", "anchors": ["neon_sim.h: all declarations", "neon_sim.cpp: all definitions"]}
{"id": "C52", "title": "Lane independence of element-wise intrinsics", "statement": "For every element-wise intrinsic, result lane i depends only on lane i of the operands: changing any other lane of the operands does not change it, and permuting the lanes of all operands permutes the result.", "quantifier": "all element-wise intrinsics, all vectors", "why_tests_cant": "Non-interference over all pairs of inputs.", "anchors": ["neon_sim.cpp: vadd*", "neon_sim.cpp: vsub*", "neon_sim.cpp: vmul*", "neon_sim.cpp: vmaxq*", "neon_sim.cpp: vminq*", "neon_sim.cpp: vand*", "neon_sim.cpp: vorr*", "neon_sim.cpp: veor*", "neon_sim.cpp: vmvn*", "neon_sim.cpp: vhsub*", "neon_sim.cpp: vqsub*", "neon_sim.cpp: vcgtq_u8", "neon_sim.cpp: vbslq_u8"]}
{"id": "C53", "title": "Calls are deterministic", "statement": "Apart from NaN payloads, an intrinsic's outcome is a function of its arguments and of the memory it reads: two memories that agree on the elements a load covers give the same result, and value intrinsics give the same result in every memory.", "quantifier": "all defined functions, all arguments, all pairs of memories", "why_tests_cant": "Relational property over pairs of executions.", "anchors": ["neon_sim.cpp: every function definition"]}
{"id": "C54", "title": "Documented immediates are accepted", "statement": "No call with well-typed arguments, valid pointers and an immediate inside its documented range aborts.", "quantifier": "all defined functions, all such calls", "why_tests_cant": "The rejected immediates are individual values among all calls.", "anchors": ["neon_sim.cpp: vshr_n_u16", "neon_sim.cpp: every assert in neon_sim.cpp"]}
{"id": "C55", "title": "Memory accesses have exactly their documented footprint", "statement": "A load reads and a store writes only the documented number of consecutive elements from the pointer on (one per lane of the vectors transferred; one for a broadcast or lane load; one per vector for a structure lane access): what it returns and stores depends only on those elements, and all other memory is unchanged. It needs no more memory than that to be valid.", "quantifier": "all loads and stores, all valid pointers, all memories and pairs of memories", "why_tests_cant": "A statement about all surrounding memory.", "anchors": ["neon_sim.cpp: vld*", "neon_sim.cpp: vst*"]}
{"id": "C56", "title": "Wrapping arithmetic is a conservative choice", "statement": "Building with -fwrapv changes no call that is free of signed overflow and invalid shifts without it: it returns the same value and has the same effects.", "quantifier": "all functions, arguments and memories", "why_tests_cant": "Relational property over two compilations and all inputs.", "anchors": ["neon_sim.cpp: every function definition"]}
{"id": "C57", "title": "Calls compose: what a history of calls leaves in memory", "statement": "After any sequence of documented calls, memory is well-typed, has the blocks it had, and every element outside of the documented footprints of the stores made is unchanged; a load repeated later returns the same value unless a store overlapped it; a vector stored is loaded back until it is stored over.", "quantifier": "all finite histories of calls of any length, all memories, all arguments", "why_tests_cant": "Ranges over all histories of calls.", "anchors": ["neon_sim.cpp: vld*", "neon_sim.cpp: vst*", "neon_sim.cpp: every function definition"]}
{"id": "C58", "title": "Programs that use the library as documented run to the end", "statement": "A program that makes only documented calls, however it chooses them from the values returned so far, and avoids the functions of C49 and C54, never meets undefined behaviour, an abort or an endless loop in the library, and leaves memory well-typed.", "quantifier": "all programs (unbounded, branching on returned values), all memories", "why_tests_cant": "Ranges over all client programs.", "anchors": ["neon_sim.cpp: every function definition"]}
{"id": "C59", "title": "Strip-mined loops over arrays compute the element-wise result", "statement": "A loop that loads n elements, applies an element-wise intrinsic and stores n elements, for k steps, leaves in the destination the result of the operation on each of the first k*n elements and changes nothing else, also in place; an accumulating loop computes the fold of each lane (for addition the sum modulo 2^w); a loop over interleaved pixels with vldN/vstN permutes the channels; the usual RGB to grey loop computes (r*R+g*G+b*B)/256 for every pixel when the weights add up to at most 256.", "quantifier": "all array lengths and contents, all numbers of steps, all the listed functions", "why_tests_cant": "Ranges over arrays of any length.", "anchors": ["neon_sim.cpp: vld1*", "neon_sim.cpp: vst1*", "neon_sim.cpp: vld3_u8", "neon_sim.cpp: vst3_u8", "neon_sim.cpp: vqadd*", "neon_sim.cpp: vaddl*", "neon_sim.cpp: vmull_u8", "neon_sim.cpp: vmlal_u8", "neon_sim.cpp: vshrn_n_u16", "neon_sim.cpp: vmovl*", "neon_sim.cpp: vqmovn_u16", "neon_sim.cpp: vqmovun_s16"]}
{"id": "C60", "title": "Threads on disjoint elements do not disturb each other", "statement": "When threads make documented calls and no thread stores to elements another accesses, then under every interleaving of their calls no thread is blocked or fails, every schedule ends, and the final memory is the same: each thread has had the effect it has alone.", "quantifier": "all programs, all numbers of threads, all schedules", "why_tests_cant": "Ranges over all interleavings.", "anchors": ["neon_sim.cpp: vld*", "neon_sim.cpp: vst*", "neon_sim.cpp: every function definition"]}
{"id": "C61", "title": "Element-wise loops can be divided among threads", "statement": "If the steps of an element-wise loop over an array are divided among threads in disjoint strips, every complete schedule gives every element of every strip the value the operation gives it, also in place, and leaves all else unchanged.", "quantifier": "all arrays, all divisions into strips, all schedules", "why_tests_cant": "Ranges over all schedules and array lengths.", "anchors": ["neon_sim.cpp: vld1*", "neon_sim.cpp: vst1*", "neon_sim.cpp: vmvn*", "neon_sim.cpp: vmovl*", "neon_sim.cpp: vmovn*", "neon_sim.cpp: vqmovn_u16", "neon_sim.cpp: vqmovun_s16", "neon_sim.cpp: vadd*", "neon_sim.cpp: vqadd*", "neon_sim.cpp: vqsub*", "neon_sim.cpp: vaddl*", "neon_sim.cpp: vmull*"]}
{"id": "C62", "title": "Fused intrinsics behave as the steps they fuse", "statement": "An intrinsic that stands for two steps has the outcome, undefined behaviour included, of calling the two intrinsics one after the other: vmlal is vaddq of vmull, vmlsl is vsubq of vmull, vmlaq is vaddq of vmulq, the _n forms are the vector forms of vdup, vaddw/vsubw are vaddq/vsubq of vmovl, the long forms are the wide forms of vmovl, _high forms use vget_high, the high-half forms are vshrn of the sum or difference, vqadd_u8 is vqmovn of vaddl, vshll is vmull by 2^k, vbsl is and/not/or, vld2 is two vld1 and vuzp, vst2 is vzip and two vst1.", "quantifier": "all lane values, all memories, both overflow modes", "why_tests_cant": "Equates two implementations on every input.", "anchors": ["neon_sim.cpp: vmlal_*", "neon_sim.cpp: vmlsl_*", "neon_sim.cpp: vmlaq_*", "neon_sim.cpp: vmul_n_*", "neon_sim.cpp: vmull_n_*", "neon_sim.cpp: vaddw_*", "neon_sim.cpp: vsubw_*", "neon_sim.cpp: vaddl_u8", "neon_sim.cpp: vsubl_*", "neon_sim.cpp: vsubhn_*", "neon_sim.cpp: vaddhn_high_*", "neon_sim.cpp: vqadd_u8", "neon_sim.cpp: vshll_n_u8", "neon_sim.cpp: vbslq_u8", "neon_sim.cpp: vld2_u8", "neon_sim.cpp: vst2_u8", "neon_sim.cpp: vrev64_u8"]}
{"id": "C63", "title": "Idioms of NEON code compute what they are used for", "statement": "or of the two saturating differences is the absolute difference; a saturating difference plus b is the unsigned maximum, a minus it is the minimum; select by compare is the maximum; 0-a is not a plus 1; narrowing a widened vector gives it back; two complementary rotations by vext cancel; every lane of a broadcast is the value.", "quantifier": "all lane values, all positions", "why_tests_cant": "Ranges over all inputs of sequences of calls.", "anchors": ["neon_sim.cpp: vqsub*", "neon_sim.cpp: vorr*", "neon_sim.cpp: vadd*", "neon_sim.cpp: vsub*", "neon_sim.cpp: vcgtq_u8", "neon_sim.cpp: vbslq_u8", "neon_sim.cpp: vmvn*", "neon_sim.cpp: vmovl_u8", "neon_sim.cpp: vqmovn_u16", "neon_sim.cpp: vext*", "neon_sim.cpp: vget_lane*", "neon_sim.cpp: vdup*"]}
{"id": "C64", "title": "Threads may be preempted inside a call", "statement": "When threads make documented calls and no thread stores to elements another accesses, then also when they are interleaved statement by statement inside the calls no thread is blocked or fails, every schedule ends, and the final memory is that of an order of whole calls: each thread has had the effect it has alone. Each statement accesses memory at most once.", "quantifier": "all programs, all numbers of threads, all schedules of single statements", "why_tests_cant": "Ranges over all interleavings of statements.", "anchors": ["neon_sim.cpp: vld*", "neon_sim.cpp: vst*", "neon_sim.cpp: every function definition"]}
{"id": "C65", "title": "Documented calls on disjoint elements have no data race", "statement": "Under the same condition no reachable state has two threads about to access the same element, one of them writing it: the library makes no hidden access to shared memory.", "quantifier": "all programs, all numbers of threads, all schedules, all reachable states", "why_tests_cant": "A race shows up only under some schedules, and testing does not reveal its absence.", "anchors": ["neon_sim.cpp: vld*", "neon_sim.cpp: vst*", "neon_sim.cpp: every function definition"]}
{"id": "C66", "title": "The verified functions are the functions of the source text", "statement": "Every function definition of neon_sim.cpp and every declaration of neon_sim.h that is compiled is among those the other properties are proved of, with the body and signature it has in the text, and there is no other.", "quantifier": "every function and declaration of the two files", "why_tests_cant": "Tests exercise some functions; what is claimed of all of them needs a complete inventory.", "anchors": ["neon_sim.cpp: every function definition", "neon_sim.cpp: every declaration"]}
{"id": "C67", "title": "Refined reciprocals", "statement": "One Newton-Raphson step vmulq(e, vrecpsq(x, e)) from the estimate e = vrecpeq(x) brings the relative error of the reciprocal below 2^-16 + 2^-22, a second one below 2^-22, and the division built on it is off by less than 2^-21 of the quotient.", "quantifier": "all four-lane vectors of normal numbers with exponent field up to 251, quotients of normal magnitude", "why_tests_cant": "Ranges over all float operands of a sequence of calls; an error bound is a statement about all of them.", "anchors": ["neon_sim.cpp: vrecpeq_f32", "neon_sim.cpp: vrecpsq_f32", "neon_sim.cpp: vmulq_f32"]}
{"id": "C68", "title": "The compiler's order of evaluation does not matter", "statement": "C++ leaves open in which order operands, subscripts and the two sides of an assignment are evaluated. Whatever order is chosen at each evaluation, a call returns the same result and memory, aborts exactly when it aborts in another order, and so has undefined behaviour in one order only if in all.", "quantifier": "all functions, all arguments, all memories, all choices of order", "why_tests_cant": "A test runs one compiler, which fixes one order.", "anchors": ["neon_sim.cpp: every function definition"]}
{"id": "C69", "title": "Results do not depend on the platform but for the bits of NaNs", "statement": "IEEE-754 leaves open the bits of the NaNs an operation produces. On platforms that differ in nothing else every call has the same outcome but for the bits of NaN lanes, the very same if the result has no float lanes; and arguments that differ only in the bits of NaNs give results that differ only in them.", "quantifier": "all functions, all arguments, all memories, all choices of NaN bits", "why_tests_cant": "A test runs on one platform.", "anchors": ["neon_sim.cpp: every function definition", "neon_sim.cpp: vreinterpretq_u32_f32", "neon_sim.cpp: vrecpeq_f32"]}
{"id": "C70", "title": "The test suite's comparison accepts equal vectors and nothing else", "statement": "almostEqual(expected, actual, eps) returns true exactly when every lane of the two vectors differs by at most eps, so with the default eps exactly when they are equal; it has no undefined behaviour.", "quantifier": "all vectors, all finite eps, all lengths of std::vector<float>", "why_tests_cant": "A test suite cannot test its own oracle: a comparison that accepts too much makes every test pass.", "anchors": ["tests/test_util.hpp: almostEqual"]}
{"id": "C71", "title": "Contracting floating-point expressions does not change results", "statement": "A compiler may evaluate a * b + c with one rounding instead of two. Whatever sums it chooses to contract, at every evaluation anew, a call has the outcome it has without contraction.", "quantifier": "all functions, all arguments, all memories, all choices of the compiler", "why_tests_cant": "A test is compiled with one compiler and one set of flags, and contraction shows only in the last bit of some operands.", "anchors": ["neon_sim.cpp: vmlaq_f32", "neon_sim.cpp: vmlaq_n_f32", "neon_sim.cpp: vrecpsq_f32", "neon_sim.cpp: every function definition"]}
{"id": "C72", "title": "Rejected calls explain themselves", "statement": "A call aborts only because a validated lane number or immediate is out of range. Before it does, it prints to stderr one line that names the function and states the range, and the range stated is the range enforced: the call aborts exactly if the value is outside it.", "quantifier": "all functions, all arguments (also partly uninitialised), all memories", "why_tests_cant": "Aborting calls end a test program, so no test runs them; the claim relates the text of every message to all values of the parameter.", "anchors": ["neon_sim.cpp: vld2_lane_u8", "neon_sim.cpp: vld3_lane_u8", "neon_sim.cpp: vld4_lane_u8", "neon_sim.cpp: vgetq_lane_f32", "neon_sim.cpp: vshrn_n_s32", "neon_sim.cpp: vqshrun_n_s32", "neon_sim.cpp: vext_u16", "neon_sim.cpp: every call of fprintf and abort"]}
{"id": "C73", "title": "Evaluating floating-point expressions in a wider format does not change results", "statement": "An implementation may evaluate float and double expressions in a wider format (FLT_EVAL_METHOD), as GCC does with the x87. In double, x87 extended and quadruple precision a call has the outcome it has if every operation is rounded to its own type.", "quantifier": "three wider formats, all functions, all well-typed arguments, all memories, all choices of NaN bits", "why_tests_cant": "A test runs on one machine with one evaluation method, and rounding twice shows only in the last bit of rare operands.", "anchors": ["neon_sim.cpp: vaddq_f32", "neon_sim.cpp: vmulq_f32", "neon_sim.cpp: vmlaq_f32", "neon_sim.cpp: vmlaq_n_f32", "neon_sim.cpp: vrecpsq_f32", "neon_sim.cpp: vdiv_f64", "neon_sim.cpp: vdivq_f64", "neon_sim.cpp: vmul_n_f64", "neon_sim.cpp: vmulq_n_f64", "neon_sim.cpp: vqsub_s64", "neon_sim.cpp: every function with float arithmetic"]}
{"id": "C74", "title": "Results do not depend on the machine's byte order or word size", "statement": "The README promises a real cross-platform library. On every machine, little-endian or big-endian, with a size_t of 32 or 64 bits, a call has the same outcome; and reinterpreting a vector keeps the bytes it has in that machine's memory, so that back again gives the vector one started with.", "quantifier": "both byte orders, both widths of size_t, all functions, all well-typed arguments, all memories", "why_tests_cant": "A test runs on one machine, in practice a little-endian 64-bit one.", "anchors": ["neon_sim.cpp: vreinterpret_u32_u8", "neon_sim.cpp: vreinterpretq_u8_f32", "neon_sim.cpp: float_parts", "neon_sim.cpp: every loop with a counter of type size_t", "neon_sim.cpp: every vreinterpret function"]}
{"id": "C75", "title": "Matrices are transposed", "statement": "The customary sequences of vtrn, vrev, vcombine and reinterpretation intrinsics (2x2 blocks of 32-bit lanes, 4x4 of 16 and 32 bits, 8x8 of bytes) transpose the block they are given; applied to every block of a matrix in memory they transpose the matrix, element (j, i) of the result being element (i, j), change nothing else, and give the matrix back when applied twice.", "quantifier": "all matrices of any number of blocks in each direction, all elements, all memories around them, all five sequences", "why_tests_cant": "A test runs one size of matrix; the claim is about every number of rows and columns, and about what is not written.", "anchors": ["neon_sim.cpp: vtrn_u8", "neon_sim.cpp: vtrn_u16", "neon_sim.cpp: vtrn_u32", "neon_sim.cpp: vtrnq_u32", "neon_sim.cpp: vget_low_u32", "neon_sim.cpp: vcombine_u32", "neon_sim.cpp: vreinterpret_u16_u8", "neon_sim.cpp: vld1_u8", "neon_sim.cpp: vst1_u8"]}
{"id": "C76", "title": "Image and signal kernels compute what they are written for", "statement": "Loops of intrinsics over arrays compute exactly what the scalar formula says, element by element, and write nothing else: blending with weights, smoothing with the weights 1-2-1, reversing, table lookup, thresholding, splitting interleaved channels, merging channels, dot product (exact while it fits 32 bits, else modulo 2^32).", "quantifier": "all lengths, all contents, all memories around the arrays, all weights and thresholds, all element types and numbers of channels with the intrinsics needed", "why_tests_cant": "Tests run single intrinsics on single vectors; whole loops of any length, and what composed rounding and widening does for every pixel value, are out of their reach.", "anchors": ["neon_sim.cpp: vmull_u8", "neon_sim.cpp: vmlal_u8", "neon_sim.cpp: vrshrn_n_u16", "neon_sim.cpp: vext_u8", "neon_sim.cpp: vaddl_u8", "neon_sim.cpp: vrev64_u8", "neon_sim.cpp: vtbl4_u8", "neon_sim.cpp: vcgtq_u8", "neon_sim.cpp: vld3_u8", "neon_sim.cpp: vst3_u8", "neon_sim.cpp: vst4_u8", "neon_sim.cpp: vst4_u32", "neon_sim.cpp: vpaddlq_u16", "neon_sim.cpp: vaddq_u32"]}
{"id": "C77", "title": "The exit status and the report of the test program tell whether the checks hold", "statement": "The runner of the test suite runs every selected test exactly once, in the order of registration or, with --random-order, in a permutation of it; its report lists and counts the tests that passed, failed and were skipped; a test fails exactly if a check in it fails or an exception leaves it; and the exit status is 0 exactly if no selected test fails. --list-tests and --help run nothing; a test that aborts ends the program. (Refuted: the status is the number of failures modulo 256; UTEST_SKIP hides earlier failures; with --enable-mixed-units a test of 10000 seconds or more makes the runner print a null pointer.)", "quantifier": "every list of tests, every body (any sequence of checks, skips, exceptions, aborts), every duration, every command line, every seed of the random order", "why_tests_cant": "The runner is itself what runs the tests; no test of the project tests it, and its behaviour must be right for every set of tests and results.", "anchors": ["tests/utest.h: utest_main", "tests/utest.h: UTEST_EXPECT", "tests/utest.h: UTEST_ASSERT", "tests/utest.h: UTEST_SKIP", "tests/utest.h: utest_type_deducer"]}
{"id": "C78", "title": "Selecting tests by name runs the tests whose names match", "statement": "The matching of names against a --filter pattern ends, reads nothing beyond the two strings, and selects only names that match the pattern, a star standing for any characters. A pattern without a star selects exactly that name, so that every name --list-tests prints can be passed to --filter; a pattern that ends in its only star selects exactly the longer names with that beginning. (Refuted: that every matching name is selected; vadd.s8* does not select vadd.s8, and *sub does not select sub.vsub.)", "quantifier": "every pattern and every test name, without bound on their lengths", "why_tests_cant": "There are infinitely many patterns and names, and the loop goes back in the pattern after a mismatch.", "anchors": ["tests/utest.h: utest_should_filter_test", "tests/utest.h: utest_main"]}
{"id": "C79", "title": "The project's own test program passes on every run, and tests what it calls", "statement": "Every check of the 46 tests holds, none of them is undefined, and the test program ends with status 0 and reports every selected test as passed: whatever the compiler does about signed overflow and the bits of NaNs, in whatever order the tests are registered and run, whichever are selected and however long they take. What the tests observe of the library are the functions they call and nothing else. A check holds exactly if what it compares is equal, and with any library whatsoever the program ends with status 0 exactly if every check holds, so that passing means that the library's answers are those the tests expect. (Refuted: that a passing test program says something about every function; the tests call 53 of 539, and any body whatsoever of another one leaves the status 0.)", "quantifier": "every compiler behaviour modelled, every order of registration, every command line and seed, every duration; every library that agrees on the functions called, every body of a function not called", "why_tests_cant": "A run of the tests is one order, one command line and one compiler; and no run can tell which changes of the library it would not notice.", "anchors": ["tests/test_array.cpp: TEST", "tests/test_vadd.cpp: TEST", "tests/test_vext.cpp: TEST", "tests/test_util.hpp: almostEqual", "tests/utest.h: utest_main", "tests/test_util.cpp: UTEST_MAIN", "CMakeLists.txt: test_neon_sim"]}
{"id": "C80", "title": "Sorting networks and median filters", "statement": "Compare-exchanges made of vminq and vmaxq (or, for unsigned lanes, of vqsub, vsub and vadd) can be put together to sorting networks: every lane of the registers is sorted, no number is lost, a network that is right for zeros and ones is right for all numbers, and a rank filter over arrays (for example the 3x3 median of an image) stores the number of the wanted rank for every pixel and writes nothing else.", "quantifier": "every number of registers, every network that is right for zeros and ones, all lane values, all array lengths, strides and offsets, all element types with the intrinsics; for vminq_f32/vmaxq_f32 all finite lanes but -0", "why_tests_cant": "the number of inputs of a network of k registers is (2^b)^k; tests sort a few vectors and do not meet the values (NaN, zeros of both signs, unsigned pixels above 127 in vminq_u8) with which numbers get lost or misplaced", "anchors": ["neon_sim.cpp: vminq_s8, vmaxq_s8, vminq_s16, vmaxq_s16, vminq_s32, vmaxq_s32, vminq_f32, vmaxq_f32, vminq_u8, vmaxq_u8", "neon_sim.cpp: vqsub*, vsub*, vadd*, vld1*, vst1*"]}
{"id": "C81", "title": "Sums of products of floats are accurate", "statement": "Accumulating any number of products with vmlaq_f32 gives, in every lane, the exact sum up to the usual error bound (k+1 roundings of each product, in terms of the sum of the magnitudes; for up to eight million products no more than (k+1)/2^23 of it), whichever of the calls the compiler fuses; the result is finite if the magnitudes are not near overflow, and exact if the floats are integers whose products are not larger than 2^24 together. So matrix products of any shape and filters with any number of weights, written with vld1q_dup_f32, vld1q_f32, vmlaq_f32 and vst1q_f32, are accurate in every element and write nothing else. There is no such bound in terms of the sum itself.", "quantifier": "every number of accumulations, all finite floats, every choice of contraction, all shapes and contents of the matrices, all numbers of weights and lengths of signals, all memories around the arrays", "why_tests_cant": "rounding errors add up with the length and depend on all the numbers; a test compares a few sums, usually of small integers, which are exact", "anchors": ["neon_sim.cpp: vmlaq_f32, vdupq_n_f32, vld1q_dup_f32, vld1q_f32, vst1q_f32"]}
{"id": "C82", "title": "Programs that compile: vector type checking, initialiser lists, conversions", "statement": "A program that includes neon_sim.h and compiles and links has a meaning: every call finds a function and passes it arguments of the types of its parameters, and when the program ends every variable is of its type. A call compiles exactly if its arguments have the types of the parameters, only scalars being converted, so that a vector or array of another type is always rejected at compile time; an initialiser list compiles exactly if it has not more numbers than lanes and all are of the lane type, and gives these lanes, then zeros; vectors of the same length are converted as the README says; lane numbers out of range are rejected; what compiles links.", "quantifier": "every program of declarations, initialisations, nested calls and blocks, without bound on their number or depth; all 1996 declared functions, all vector and tuple types, all lists of numbers", "why_tests_cant": "programs are infinitely many, and whether a compiler rejects one cannot be asked in a unit test that must itself compile", "anchors": ["README.md: Features, Known issues", "neon_sim.h: int8x8_t, uint16x4_t, float32x4x4_t and the other types", "neon_sim.h: all declarations", "neon_sim.cpp: all definitions"]}
{"id": "C83", "title": "The floating-point environment", "statement": "What a program sets with fesetround or the flush-to-zero bits of the processor has no influence on any function that does not compute with floats: whatever the floating-point operations give, these return the same, and for a change of the rounding direction alone this holds of the maxima, minima, comparisons and truncations too. The lanes of the arithmetic functions are the results of the operations of the environment, each rounded once: with rounding down (up) every lane is the largest float not above (smallest not below) the exact sum, difference, product or quotient, and a sum of any number of products accumulated once each way encloses the exact sum.", "quantifier": "every environment (every interpretation of the floating-point operations, comparisons and conversions), every function of the library and all arguments; every number of accumulations and all finite lanes", "why_tests_cant": "the environment is global state that any part of the program can change, and its effect on a function can be seen for a few inputs only; tests run in the default environment", "anchors": ["neon_sim.cpp: vaddq_f32, vsubq_f32, vmulq_f32, vdivq_f32, vmlaq_f32, vrecpsq_f32, vcvtq_f32_s32", "neon_sim.cpp: vmaxq_f32, vcltq_f32, vcvtq_s32_f32", "neon_sim.cpp: vqsub_s64, vqsub_u64, vqsubq_s64, vqsubq_u64", "neon_sim.cpp: all definitions"]}
{"id": "C84", "title": "Overlapping arrays and odd lengths", "statement": "A loop that loads a vector, applies a function to it and stores it does what the loop over elements would do for every order of the blocks, between two arrays and within one, as long as no block is read after some of it was overwritten. So copying to lower addresses from front to back and to higher addresses from back to front is memmove (and in the other order it is not, for any overlap, type and number of blocks above one); any length of at least one vector can be done with a last block that overlaps the one before; and in place this does the common elements twice, which is harmless exactly for functions for which twice is the same as once. Nothing else is written.", "quantifier": "every load/store pair, every function that works lane by lane, all source and destination positions, all lengths, all orders of blocks, all contents of the arrays and memories around them", "why_tests_cant": "overlap, alignment and length combine in unboundedly many ways, and errors show only for some of them; tests of the library load and store disjoint arrays of one vector", "anchors": ["neon_sim.cpp: vld1*, vst1*", "neon_sim.cpp: the lane-wise functions, e.g. vand_u8, vqadd_u8, vmvn_u8, vmovl_u8"]}
{"id": "C85", "title": "The XML report of the test program", "statement": "With --output=FILE the test program writes one XML document: an element for each test that was run, in the order they were run, with its name and the messages of its failed checks, and their number. Names and messages can be read back from it, and the element of a test is empty exactly if it passed. For the project's own tests the document is well-formed whatever the checks say. In general this does not hold: messages are not escaped, so a failed check with < or <= gives a file that is not XML; the source text of a failed comparison is used as a format, so one with the operator % is undefined; and a test that an exception leaves looks as if it passed.", "quantifier": "all lists of tests, all sequences of checks, messages, names and values, all command lines with --output=, all filters and orders", "why_tests_cant": "which checks fail, and with which texts, cannot be enumerated; that a file is well-formed is a statement about all of them, and the tests of the project pass, so that the messages are never written", "anchors": ["tests/utest.h: utest_main, UTEST_PRINTF, EXPECT_*, ASSERT_*, UTEST_SKIP", "tests/*.cpp: UTEST"]}
{"id": "C86", "title": "Printing of vectors", "statement": "Printing a vector to a stream writes its lanes in order, separated by commas, as numbers in the base of the stream: in decimal with a sign, in hexadecimal and octal as unsigned numbers (of 32 bits for 8-bit lanes and for uint16_t, of their own size otherwise), without leading zeros; floating-point lanes are written as the stream writes such numbers. The vectors of a register array are written one to a line, each as it is written alone. Exactly the vector types of integers, float and double and their arrays of two to four registers can be printed (those of float64x1_t and float64x2_t on AArch64 only). Different integer vectors are never printed alike.", "quantifier": "all printable types, all values of all lanes, all bases, everything written to the stream before, all ways to print floating-point numbers", "why_tests_cant": "that different vectors are printed differently is a statement about all pairs of vectors, and the header is used by no test", "anchors": ["tests/neon_helper.hpp: operator<<"]}
{"id": "C87", "title": "Memory of the test runner", "statement": "Every test that is registered is run once, in the order of registration and with its own index, the names of the skipped and of the failed tests are listed whole and in order, the tests made from one indexed fixture have different names, and everything that was allocated is freed, or the program stops when memory runs out. This holds if all allocations succeed and no test uses a plain fixture (UTEST_F). It does not hold otherwise: the behaviour is undefined whichever of the allocations fails, and for every program with a plain fixture, whose index is read without having been written.", "quantifier": "all sequences of registered tests of the three kinds, all verdicts, all patterns of failing allocations, all indices below 2^64", "why_tests_cant": "no test makes an allocation fail, and no test of the project uses a fixture", "anchors": ["tests/utest.h: UTEST, UTEST_F, UTEST_I, utest_realloc, utest_main"]}
{"id": "C88", "title": "Durations", "statement": "The duration that the test program prints for a test is the time that went by on the clock of the system, up to less than a nanosecond, and it is not negative unless the clock was set back; with --enable-mixed-units it is rounded down to at most four digits of a larger unit, of which at least two are left; programs started at different nanoseconds of the same 2^32 ns get different seeds for --random-order. This holds while the clock, multiplied by 10^9 before it is divided, is below 2^63. It does not hold after that: on Windows the multiplication overflows, which is undefined, when 9223372037 ticks have gone by since the machine was started (923 seconds at 10 MHz), and for clock() after 9223 seconds of CPU time at 10^6 ticks a second. On macOS ticks are printed as if they were nanoseconds.", "quantifier": "all readings of the four kinds of clocks, all frequencies, all durations below 10^13 ns", "why_tests_cant": "tests run shortly after one another on one machine see one frequency and a narrow range of readings", "anchors": ["tests/utest.h: utest_ns, utest_main"]}
{"id": "C89", "title": "Checks of closeness and of strings", "statement": "EXPECT_NEAR and ASSERT_NEAR pass for two numbers whose distance is at most epsilon and fail for numbers further apart and for NaN; for finite numbers they pass exactly if the distance, rounded to a double, is at most epsilon. EXPECT_STREQ and EXPECT_STRNE (and the ASSERT variants) pass exactly for equal and for different strings, EXPECT_STRNEQ and EXPECT_STRNNE exactly for equal and for different first n characters, and none reads beyond the end of the strings. Violated: an infinity is not near itself for any epsilon; if epsilon is a NaN all finite numbers are near each other; a distance above epsilon that is rounded to epsilon passes; for a null pointer, which the checks of strings look for, the message prints a null pointer as a string, which is undefined.", "quantifier": "all bit patterns of the three doubles, all strings in all arrays, all n", "why_tests_cant": "the comparison is between all pairs of doubles and tolerances, and of strings; the project's tests use none of these checks", "anchors": ["tests/utest.h: EXPECT_NEAR, EXPECT_STREQ, EXPECT_STRNE, EXPECT_STRNEQ, EXPECT_STRNNE, ASSERT_NEAR, utest_fabs, utest_isnan"]}
