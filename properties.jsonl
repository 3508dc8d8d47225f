{"id": "C01", "title": "Wrap-around vector arithmetic is exact modulo 2^n and free of undefined behaviour", "statement": "For vadd, vsub, vrsub, vadd3, vmul, vmacc and vmadd, every destination lane of width n is the unique value of the lane type congruent modulo 2^n to the mathematical result (a+b, a-b, b-a, d+a+b, a*b, d+a*b, a+d*b); evaluating it never performs an undefined C++ operation (signed overflow, bad shift), for 8, 16 and 32 bit lanes.", "quantifier": "all lane widths, all lane values of all operands", "why_tests_cant": "There are 2^64 to 2^96 operand combinations per 32-bit lane; integer promotion makes overflow behaviour differ by width, so sampled values do not show absence of undefined behaviour.", "anchors": ["sim/coralnpu_vector_instructions.cc: CoralNPUVAdd, CoralNPUVSub, CoralNPUVRSub, CoralNPUVAdd3, CoralNPUVMul, CoralNPUVMacc, CoralNPUVMadd"]}
{"id": "C02", "title": "Saturating arithmetic clamps the exact result", "statement": "vadds, vaddsu, vsubs, vsubsu, vmuls and vmulsu return exactly the mathematical sum, difference or product clamped into the range of the lane type, with no undefined behaviour.", "quantifier": "all six lane types, all operand values", "why_tests_cant": "The overflow tests are bit tricks on wrapped values (sign of xor); correctness at every one of 2^64 operand pairs cannot be sampled.", "anchors": ["sim/coralnpu_vector_instructions.cc: VAddsHelper, VAddsuHelper, VSubsHelper, CoralNPUVSubsu, CoralNPUVMuls"]}
{"id": "C03", "title": "Comparison, min/max and absolute difference are exact", "statement": "veq, vne, vlt, vle, vgt, vge (signed and unsigned) return 1 exactly when the relation holds between the two lane values and 0 otherwise; vmin/vmax return the mathematical minimum/maximum; vabsd returns |a-b| exactly as an unsigned lane, even when the signed difference overflows.", "quantifier": "all lane types, all operand values", "why_tests_cant": "Exhaustive pairs are infeasible for 16 and 32 bit lanes; boundary behaviour of |MIN-MAX| depends on conversions.", "anchors": ["sim/coralnpu_vector_instructions.cc: CoralNPUVEq, CoralNPUVNe, CoralNPUVLt, CoralNPUVLe, CoralNPUVGt, CoralNPUVGe, CoralNPUVAbsd, CoralNPUVMax, CoralNPUVMin"]}
{"id": "C04", "title": "Halving add and subtract never lose the carry", "statement": "vhadd[u][r] returns floor((a+b+r)/2) exactly (never overflowing the lane); vhsub[u][r] returns floor((a-b+r)/2) reduced modulo 2^n to the lane type, where r is 1 for the rounding forms.", "quantifier": "all lane types, both rounding modes, all operand values", "why_tests_cant": "The intermediate is computed in a wider type whose signedness and promotion differ per lane type; only a proof covers each case.", "anchors": ["sim/coralnpu_vector_instructions.cc: CoralNPUVHaddHelper, CoralNPUVHsubHelper"]}
{"id": "C05", "title": "High-half multiply is the exact rounded quotient", "statement": "vmulh[u][.r] returns floor((a*b + r*2^(n-1)) / 2^n), which always fits the lane type, without overflow in the intermediate type.", "quantifier": "all lane types, both rounding modes, all operand values", "why_tests_cant": "Worst-case products sit at isolated corner points of a 2^64 input space.", "anchors": ["sim/coralnpu_vector_instructions.cc: CoralNPUVMulhHelper"]}
{"id": "C06", "title": "Saturating doubling multiply high", "statement": "vdmulh returns the high half of 2*a*b: floor(a*b/2^(n-1)) (with +2^(n-2) before the division for .r) and saturates to the maximum exactly when both operands are the minimum; no other operand pair overflows. The .rn form rounds to the nearest value (error at most half a unit).", "quantifier": "8/16/32-bit lanes, all rounding modes, all operand pairs", "why_tests_cant": "Only one operand pair in 2^64 saturates; rounding errors of the .rn mode appear only for negative products.", "anchors": ["sim/coralnpu_vector_instructions.cc: CoralNPUVDmulhHelper"]}
{"id": "C07", "title": "Bidirectional saturating shift", "statement": "vsha/vshl[.r] with shift amount s (a signed lane value) return clamp(floor((x + r*2^(s-1)) / 2^s)) for s>0 and clamp(x * 2^(-s)) for s<=0, for every x and every s; the operation never aborts the process or performs an undefined operation.", "quantifier": "all lane types, both rounding modes, all values and all shift amounts", "why_tests_cant": "The shift amount ranges over the whole lane type including INT_MIN; the failing amount is a single value in 2^32.", "anchors": ["sim/coralnpu_vector_instructions.cc: CoralNPUVShiftHelper"]}
{"id": "C08", "title": "Narrowing shift with saturation", "statement": "vsrans[u][.r] and vsraqs[u][.r] return clamp(floor((x + r)/2^s)) into the narrow lane type, where s is the shift operand modulo the source width and r = 2^(s-1) for rounding forms with s>0, else 0.", "quantifier": "all source/destination type pairs, both rounding modes, all values", "why_tests_cant": "2^32 x 2^8 inputs per type pair; wide intermediate must be shown to be exact.", "anchors": ["sim/coralnpu_vector_instructions.cc: CoralNPUVSransHelper"]}
{"id": "C09", "title": "Logical and arithmetic shifts mask the amount", "statement": "vsll, vsrl and vsra shift by the low log2(n) bits of the second operand: x*2^s mod 2^n, floor(x/2^s) unsigned and floor(x/2^s) signed; no shift is undefined.", "quantifier": "all lane widths, all values and amounts", "why_tests_cant": "Shift amounts >= width and negative left operands are undefined in C++ and must be excluded for every value.", "anchors": ["sim/coralnpu_vector_instructions.cc: CoralNPUVSll, CoralNPUVSra, CoralNPUVSrl"]}
{"id": "C10", "title": "Generalised reverse and rotate are bit permutations", "statement": "vrev moves bit i of the lane to bit i xor c, where c is the low log2(n) bits of the second operand (so applying it twice restores the lane); vror is rotation right by the amount modulo n (bit i of the result is bit (i+s) mod n of the source). Rotations compose additively.", "quantifier": "all lane widths, all lane values and counts", "why_tests_cant": "A bit ladder with masks has 2^n * n inputs; a wrong mask only affects particular bit positions.", "anchors": ["sim/coralnpu_vector_instructions.cc: CoralNPUVRev, CoralNPUVRor"]}
{"id": "C11", "title": "Bitwise and counting operations", "statement": "vand, vor, vxor, vnot act bit by bit; vclz returns the number of leading zeros (n for zero); vclb the number of leading bits equal to the sign bit; vcpop the number of set bits; vmv copies.", "quantifier": "all lane widths, all lane values", "why_tests_cant": "Counting operations must be right at each of 2^32 values including 0 and all-ones.", "anchors": ["sim/coralnpu_vector_instructions.cc: CoralNPUVAnd, CoralNPUVOr, CoralNPUVXor, CoralNPUVNot, CoralNPUVClz, CoralNPUVClb, CoralNPUVCpop, CoralNPUVMv"]}
{"id": "C12", "title": "Widening operations are exact and split even/odd lanes", "statement": "vaddw, vsubw, vmulw, vacc produce results of twice the lane width; result of source lane 2i goes to lane i of the first destination group and lane 2i+1 to lane i of the second group. vaddw/vmulw/signed vsubw are exact, vacc and unsigned vsubw wrap modulo 2^(2n). vpadd/vpsub combine lanes 2i and 2i+1 of one source into lane i.", "quantifier": "all type pairs, single and strip-mined forms, vector and scalar forms, all register contents", "why_tests_cant": "Lane routing over 8 registers with arbitrary contents cannot be settled by a few patterns.", "anchors": ["sim/coralnpu_vector_instructions.cc: CoralNPUVAddw, CoralNPUVSubw, CoralNPUVMulw, CoralNPUVAcc, CoralNPUVPadd, CoralNPUVPsub, CommonBinaryOpGetArg1, CommonBinaryOpGetArg2"]}
{"id": "C13", "title": "Permutation instructions: slide, even/odd, zip, pair move, select", "statement": "vslidevn/vslidehn/vslidevp/vslidehp, vevn, vodd, vevnodd, vzip, vmvp and vsel place in each destination lane exactly the source lane given by their definition (e.g. vslidehn.k lane j of the 4-register group is lane j+k of the concatenation vs1-group ++ vs2-group), for destination groups not overlapping the sources. vevnodd followed by vzip restores the two inputs.", "quantifier": "all lane widths, slide distances 1..4, single and strip-mined, all register contents", "why_tests_cant": "The index tables are per register; every lane of every register has its own route.", "anchors": ["sim/coralnpu_vector_instructions.cc: VSlidenOpGetArg1, VSlidepOpGetArg1, VEvnOpGetArg1, VOddOpGetArg1, VEvnoddOpGetArg1, VZipOpGetArg1, VMvpOpGetArg1, CoralNPUVSel"]}
{"id": "C14", "title": "A vector operation writes all of its destination and nothing else", "statement": "After any vector arithmetic/permutation instruction every byte of every register of its destination group has been determined by the operation and every other vector register is unchanged; scalar registers, memory and accumulators are unchanged.", "quantifier": "all vector arithmetic, shift, multiply and permutation instructions, all register numbers and contents", "why_tests_cant": "Absence of stray writes over the whole register file is a frame property over all states.", "anchors": ["sim/coralnpu_vector_instructions.cc: CoralNPUBinaryVectorOp, CoralNPUUnaryVectorOp"]}
{"id": "C15", "title": "Strip mining equals four independent single operations on the initial register contents", "statement": "A strip-mined (.m) element-wise instruction gives, in register vd+k, the result of the single-register instruction on vs1+k and vs2+k read before the instruction, also when the destination group equals a source group. For instructions whose k-th step reads registers other than the k-th (slide, even/odd, zip, widening, narrowing) this requires the destination of earlier steps not to overlap sources of later steps; overlapping groups give a different result.", "quantifier": "all element-wise instructions, all register numbers (aligned or not), all contents", "why_tests_cant": "Aliasing of register groups is a relation between 3 register numbers and 4 sequential steps.", "anchors": ["sim/coralnpu_vector_instructions.cc: CoralNPUBinaryVectorOp, CoralNPUUnaryVectorOp"]}
{"id": "C16", "title": "Widen then narrow restores the data", "statement": "Widening with vaddw by zero followed by vsrans with shift amount 0 gives back the original register (group) for every content, signed and unsigned, single and strip-mined: the even/odd layout produced by widening is the one consumed by narrowing. The same holds for double widening and vsraqs.", "quantifier": "all register contents, all lane types", "why_tests_cant": "It is a layout agreement between two separately written index computations for every lane.", "anchors": ["sim/coralnpu_vector_instructions.cc: CommonBinaryOpGetArg1, VSransOpGetArg1, CoralNPUVSransHelper"]}
{"id": "C17", "title": "aconv computes the documented matrix product", "statement": "For a legal command, accumulator cell (r,c) increases (modulo 2^32) by the sum, over the commanded range of k and the 4 bytes of each word, of (narrow+bias1)*(wide+bias2) with the bytes read signed or unsigned as commanded and 9-bit signed biases; every cell receives contributions from exactly one (row, word) pair and no other state changes.", "quantifier": "all 8x32 byte narrow inputs, all wide inputs, all legal commands, all initial accumulators", "why_tests_cant": "Inputs are 512 bytes and a 32-bit command; the interleaved target index must be a bijection.", "anchors": ["sim/coralnpu_vector_convolution_instructions.cc: CoralNPUVConv"]}
{"id": "C18", "title": "aconv rejects illegal commands without side effects", "statement": "If mode is nonzero, start exceeds stop, or start/stop is 8 or more, the instruction raises an illegal-instruction trap exactly once and changes no accumulator, register or memory; otherwise it raises no trap and reads only the registers of its operand groups.", "quantifier": "all 2^32 command words and all states", "why_tests_cant": "Command space is 2^32; operand group bounds must hold for every command.", "anchors": ["sim/coralnpu_vector_convolution_instructions.cc: CoralNPUVConv"]}
{"id": "C19", "title": "Accumulator load/read round trip", "statement": "acset loads vs[r] word c into accumulator (r,c); actr loads it transposed; vcget copies accumulator row r into vd[r] and clears the whole accumulator. Hence acset then vcget copies the 8 registers, actr then vcget transposes them, and a second vcget reads zeros.", "quantifier": "all register contents and accumulator contents", "why_tests_cant": "64 cells of 32 bits each with arbitrary content; the clearing must not precede the copy.", "anchors": ["sim/coralnpu_vector_memory_instructions.cc: CoralNPUVcGet, CoralNPUAcSet"]}
{"id": "C20", "title": "Depthwise convolution accumulates three products per lane", "statement": "For each legal command, adwconv adds to the accumulator lane of byte i the three products (a_r[i]+bias1)*(b_r[i]+bias2), where a_0,a_1,a_2 are the registers selected by regbase and the sparsity mode; vdwconv additionally writes the 32 accumulator words to four registers; only registers within the 9-register activation group and 3-register weight group are read. An illegal sparsity mode must trap and change nothing.", "quantifier": "all commands, all contents", "why_tests_cant": "Register selection has 16x4 modes and the mode-3 path continues after the trap.", "anchors": ["sim/coralnpu_vector_convolution_instructions.cc: CoralNPUVDwconv"]}
{"id": "C21", "title": "adwinit loads the depthwise accumulator", "statement": "adwinit copies 32 bytes of each of 4 source registers into the depthwise accumulator (8 words per register) and the first 8 bytes of each into the corresponding destination register; the remaining destination bytes are not specified by the instruction.", "quantifier": "all register contents", "why_tests_cant": "Uninitialised destination bytes are invisible to value-based tests.", "anchors": ["sim/coralnpu_vector_memory_instructions.cc: CoralNPUADwInit"]}
{"id": "C22", "title": "Vector load places memory bytes in the right lanes", "statement": "vld in every addressing form loads lane j of register k from address base + k*stride + j*size for the selected number of elements, zero-fills the remaining lanes of the destination group, writes no memory, and touches no other vector register.", "quantifier": "all addresses, lengths (0 and beyond capacity included), strides (wrapping included), memory contents, lane widths, strip-mining", "why_tests_cant": "The address space and the 32-bit length/stride operands are unbounded for testing; wrapping strides matter.", "anchors": ["sim/coralnpu_vector_memory_instructions.cc: CoralNPUVLd, CoralNPUVLdRegWrite"]}
{"id": "C23", "title": "Vector store writes exactly the selected elements", "statement": "vst in every form writes lane j of register k to base + k*stride + j*size for exactly the selected elements, in order, and leaves every other memory byte and every vector register unchanged; with stride at least the register size and no address wrap, a following vld with the same operands returns the stored lanes.", "quantifier": "all register contents, addresses, lengths, strides, lane widths", "why_tests_cant": "Overlapping strides and partial lengths generate unboundedly many footprints; the frame condition ranges over the whole memory.", "anchors": ["sim/coralnpu_vector_memory_instructions.cc: VectorStoreHelper, CoralNPUVSt"]}
{"id": "C24", "title": "Quad store layout", "statement": "vstq stores the four quarters of each register at successive strides: quarter q of register k goes to base + (4k+q)*stride, and nothing else is written.", "quantifier": "all contents, addresses, strides, lane widths", "why_tests_cant": "Same as vst; overlapping quarters are order dependent.", "anchors": ["sim/coralnpu_vector_memory_instructions.cc: VectorStoreHelper, CoralNPUVStQ"]}
{"id": "C25", "title": "Post-increment writes back the documented address", "statement": "The post-incrementing loads/stores write to the base register the masked base plus (modulo 2^32): register bytes times number of registers (.p.x), operand*size (.p.xx), elements*size (.lp), stride*size*registers (.sp, times 4 for vstq), one register (.tp); with zero selected elements the base is not advanced.", "quantifier": "all operands and forms", "why_tests_cant": "Six forms times arbitrary 32-bit operands with wrap-around.", "anchors": ["sim/coralnpu_vector_memory_instructions.cc: CoralNPUVLd, VectorStoreHelper"]}
{"id": "C26", "title": "getvl returns the minimum of capacity and requests", "statement": "getvl/getmaxvl write min(capacity, rs1, rs2) (unsigned, with the operands the form has), so the result never exceeds the capacity or a request, and a strip-mining loop that subtracts it terminates after processing exactly n elements.", "quantifier": "all 2^64 operand pairs, all widths; all loop lengths", "why_tests_cant": "The loop argument is an induction over n.", "anchors": ["sim/coralnpu_vector_memory_instructions.cc: CoralNPUGetVl"]}
{"id": "C27", "title": "vdup broadcasts", "statement": "vdup writes the low n bits of the scalar to every lane of every destination register and nothing else.", "quantifier": "all scalar values, widths, strip-mining", "why_tests_cant": "Frame over all registers.", "anchors": ["sim/coralnpu_vector_memory_instructions.cc: CoralNPUVDup"]}
{"id": "C28", "title": "Instruction encodings are unambiguous", "statement": "For every 32-bit word at most one instruction of the instruction set matches it, so decoding does not depend on the order in which instruction groups are tried.", "quantifier": "all 2^32 instruction words and all 1175 encodings", "why_tests_cant": "700 thousand pairs of encodings over 2^32 words each.", "anchors": ["sim/coralnpu_base.bin_fmt", "sim/coralnpu_arith.bin_fmt", "sim/coralnpu_conv.bin_fmt", "sim/coralnpu_memory.bin_fmt", "sim/coralnpu_mul.bin_fmt", "sim/coralnpu_shift.bin_fmt", "sim/coralnpu_encoding.cc: ParseInstruction"]}
{"id": "C29", "title": "Every instruction decodes to itself", "statement": "Any word assembled from an instruction's fixed fields and arbitrary operand fields decodes to that instruction.", "quantifier": "all encodings, all operand field values", "why_tests_cant": "Operand fields contribute up to 2^20 words per encoding.", "anchors": ["sim/coralnpu_encoding.cc: ParseInstruction", "sim/*.bin_fmt"]}
{"id": "C30", "title": "Operand form, width and strip-mining bits select the matching semantics", "statement": "For every word that decodes to a vector instruction: the semantic function is the strip-mined variant iff bit 5 is set, takes a scalar second operand iff the form bits say so, and operates on 8/16/32 bit lanes according to the size bits.", "quantifier": "all words decoding to a vector instruction", "why_tests_cant": "1000+ table rows times all operand fields; tests exercise a handful.", "anchors": ["sim/coralnpu_arith.isa", "sim/coralnpu_mul.isa", "sim/coralnpu_shift.isa", "sim/coralnpu_memory.isa", "sim/*.bin_fmt", "sim/coralnpu_encoding.cc: InitializeSourceOperandGetters"]}
{"id": "C31", "title": "Operand register groups cover what the instruction accesses", "statement": "For every word that decodes to a vector instruction, the register groups built for its operands contain at least the registers the semantic function reads and writes (no out-of-range register access).", "quantifier": "all instruction words decoding to a vector instruction", "why_tests_cant": "Group sizes are computed from raw opcode bits, not from the opcode; a mismatch is undefined behaviour visible only for certain words.", "anchors": ["sim/coralnpu_encoding.cc: GetVRegGroup, IsWidenDestinationRegisterOp, GetSrc1WidenFactor", "sim/coralnpu_vector_instructions.cc"]}
{"id": "C32", "title": "Scalar operands name the encoded x register and x0 is constant zero", "statement": "A scalar operand xs1/xs2/rs1/rs2 of a vector instruction reads the x register in its 5-bit field; register 0 always reads as 0 and is never modified, including by address post-increment.", "quantifier": "all instruction words", "why_tests_cant": "The raw field is wider than the register number, so the zero test and the register number use different bits.", "anchors": ["sim/coralnpu_encoding.cc: InitializeSourceOperandGetters, InitializeDestinationOperandGetters"]}
{"id": "C33", "title": "Software breakpoints are transparent", "statement": "Setting breakpoints, running/stepping to them, continuing and clearing them yields the same sequence of executed program instructions, and the same memory and registers, as running without breakpoints; after all breakpoints are cleared the program memory is what it would have been.", "quantifier": "all programs, all sets of breakpoints, all interleavings of step/run/set/clear", "why_tests_cant": "Histories of debugger commands are unbounded.", "anchors": ["sim/coralnpu_top.cc: Step, Run, StepPastBreakpoint, SetSwBreakpoint, ClearSwBreakpoint", "sim/coralnpu_action_point_memory_interface.cc"]}
{"id": "C34", "title": "Step executes the requested number of instructions", "statement": "From the halted state, Step(n) with n>0 executes exactly n program instructions unless a halt is requested, returns the number executed (never more than n), leaves the core halted with the pc at the next instruction to execute, and Step(n) with n<=0 or while not halted is rejected without change.", "quantifier": "all programs, all n, all prior histories (including a prior stop at a breakpoint)", "why_tests_cant": "The behaviour depends on stale flags left by arbitrary earlier commands.", "anchors": ["sim/coralnpu_top.cc: Step"]}
{"id": "C35", "title": "A halt request raised by an instruction is never lost", "statement": "If the instruction executed by Run or Step requests a halt (mpause, fault, exit), execution stops after that instruction and the halt reason is reported, also when that instruction carries a breakpoint.", "quantifier": "all programs and breakpoint sets", "why_tests_cant": "Depends on the order of flag updates in a particular history.", "anchors": ["sim/coralnpu_top.cc: Run, Step, StepPastBreakpoint, RequestHalt"]}
{"id": "C36", "title": "Debugger memory access is clamped, exact and framed", "statement": "WriteMemory(a,buf,n) at a valid address stores exactly min(n, top-a+1) bytes of buf at a.. and changes no other byte; ReadMemory of the same range returns them; addresses above the top and a non-halted core are rejected with no effect.", "quantifier": "all addresses, lengths (including values near 2^64), buffers and memory contents", "why_tests_cant": "Length arithmetic near the top of the address space wraps in 64 bits.", "anchors": ["sim/coralnpu_top.cc: ReadMemory, WriteMemory"]}
{"id": "C37", "title": "LoadImage writes the whole file contiguously or reports failure", "statement": "LoadImage of a file of any length places byte i of the file at start+i for all i and changes nothing else, or returns an error when the file does not fit; chunking is invisible.", "quantifier": "all file contents and lengths, all start addresses", "why_tests_cant": "Chunk boundary and end-of-file logic is length dependent.", "anchors": ["sim/coralnpu_top.cc: LoadImage"]}
{"id": "C38", "title": "Register access round trip", "statement": "WriteRegister(name,v) then ReadRegister(name) returns v truncated to the register width; other registers and memory are unchanged; unknown names and non-halted core are rejected with no effect.", "quantifier": "all register names, values, states", "why_tests_cant": "Names range over all strings; frame over all registers.", "anchors": ["sim/coralnpu_top.cc: ReadRegister, WriteRegister"]}
{"id": "C39", "title": "State-changing debugger calls are rejected while the core runs", "statement": "While the run status is not halted, ReadRegister, WriteRegister, ReadMemory, WriteMemory, breakpoint calls, Step and GetDisassembly return FailedPrecondition and change nothing; Run is rejected while running; in every reachable history of calls the status is one of the documented ones and Step/Run leave it consistent.", "quantifier": "all call histories", "why_tests_cant": "Histories are unbounded.", "anchors": ["sim/coralnpu_top.cc"]}
{"id": "C40", "title": "Run/Halt/Wait synchronisation", "statement": "In every interleaving of the controlling thread and the run thread: after Run returns OK and a later Halt returns OK, the run thread eventually stops; Wait returns only after the run it waits for has ended; a Wait never waits on a notification that was already deleted; each Run that returns OK has started exactly one run thread, and a Run is refused only while the core is said to run, changing nothing.", "quantifier": "all interleavings of the controlling thread and run thread", "why_tests_cant": "Races depend on scheduling of unsynchronised fields.", "anchors": ["sim/coralnpu_top.cc: Run, Halt, Wait"]}
{"id": "C41", "title": "Log formatting substitutes arguments in order", "statement": "flog prints the format string with each %u, %d, %x, %s replaced, in order, by the logged arguments rendered in decimal/hex/text, and consumes them; ordinary characters are copied; every sequence of log instructions followed by flog yields the corresponding printf result, with no memory error for any format string.", "quantifier": "all format strings and argument sequences", "why_tests_cant": "Strings are unbounded; a trailing % reads past the end of the format string.", "anchors": ["sim/coralnpu_state.cc: PrintLog", "sim/coralnpu_instructions.cc: CoralNPULogInstruction, CoralNPUStringLoadHelper, WordHasZero"]}
{"id": "C42", "title": "String arguments are read up to the first NUL", "statement": "slog/flog string loading returns the bytes from the given address up to (excluding) the first zero byte, for any alignment and length, provided a zero byte occurs below the memory limit; clog concatenates its 4-byte groups up to the first zero byte and then starts a new argument.", "quantifier": "all memory contents, all addresses, all sequences of clog words", "why_tests_cant": "String length is unbounded; the stop condition is per word while trimming is per byte.", "anchors": ["sim/coralnpu_instructions.cc: CoralNPUStringLoadHelper, CoralNPULogInstruction"]}
{"id": "C43", "title": "Scalar stores mask the cache-invalidation bit and store exactly the operand bytes", "statement": "sb/sh/sw store the low 1/2/4 bytes of the source at (base+offset mod 2^32) with bit 31 cleared (for the standard memory configuration), and change no other byte.", "quantifier": "all bases, offsets, values, memory contents", "why_tests_cant": "Address wrap and masking over 2^64 operand pairs.", "anchors": ["sim/coralnpu_instructions.cc: CoralNPUIStore"]}
{"id": "C44", "title": "V2 load/store access check admits exactly accesses inside a configured range", "statement": "A V2 scalar load/store of w bytes at address a is performed iff some configured range [s, s+l) contains [a, a+w); otherwise it raises the load/store access fault and has no other effect.", "quantifier": "all addresses, widths, all lists of ranges", "why_tests_cant": "End addresses wrap in 32 bits only at the top of the address space; the store width checked for fsw differs from the width stored.", "anchors": ["sim/coralnpu_v2_state.cc: IsLsuAccessValid", "sim/coralnpu_v2_instructions.cc: AccessCheck, CoralNPUV2Fsw"]}
{"id": "C45", "title": "V2 instruction fetch is confined to ITCM", "statement": "An instruction at address a is fetched and decoded iff the four bytes a..a+3 lie in the configured ITCM range; otherwise executing it raises an instruction access fault and nothing is fetched.", "quantifier": "all 64-bit fetch addresses, all ITCM configurations (including length below 4)", "why_tests_cant": "Unsigned arithmetic in mixed widths wraps for short or high ranges.", "anchors": ["sim/coralnpu_v2_state.h: IsAddressInItcmRange", "sim/coralnpu_v2_user_decoder.cc: DecodeInstruction"]}
{"id": "C46", "title": "mpause handlers are tried in order until one handles it", "statement": "Executing mpause calls the registered handlers in registration order, stops at the first that returns true, and raises the trap (code 3, epc of the instruction) exactly when none does.", "quantifier": "all handler lists and outcomes", "why_tests_cant": "Handler lists are unbounded.", "anchors": ["sim/coralnpu_state.cc: MPause", "sim/coralnpu_v2_state.cc: MPause"]}
{"id": "C47", "title": "misa initial value keeps extension and XLEN bits", "statement": "The 64-bit misa derived from a 32-bit initial value has the two XLEN bits at the top, the 26 extension bits unchanged and all other bits zero.", "quantifier": "all 2^32 values", "why_tests_cant": "Bit placement for every value.", "anchors": ["sim/coralnpu_v2_state.h: StretchMisa32"]}
{"id": "C48", "title": "Co-simulation interface life cycle", "statement": "For every sequence of DPI calls: init succeeds iff there is no instance; fini succeeds iff there is one; reset always leaves a fresh instance; step/get/set before init return their documented error; once mpause has executed, step returns 2 without executing until reset; no call crashes the process.", "quantifier": "all finite sequences of DPI calls with arbitrary arguments", "why_tests_cant": "Call histories are unbounded, including misuse orders.", "anchors": ["sim/cosim/coralnpu_cosim_dpi_wrapper.cc"]}
{"id": "C49", "title": "Renode instance ids are unique, valid and isolated", "statement": "construct returns an id different from all earlier ids and, as documented, non-zero; a destroyed id is rejected by every call from then on; operations on one id do not affect other instances.", "quantifier": "all histories of construct/destroy/other calls", "why_tests_cant": "Histories are unbounded.", "anchors": ["sim/renode/renode_mpact.cc: Construct, Destroy", "sim/renode/renode_mpact.h"]}
{"id": "C50", "title": "Renode step executes and reports the requested count", "statement": "step(id,n) calls the simulator's Step with positive counts that never exceed INT_MAX and sum to n unless the simulator stops early, returns the total number of instructions executed, and reports status ok / breakpoint / aborted according to the last halt reason; with n=0 nothing is executed.", "quantifier": "all 64-bit n, all simulator responses", "why_tests_cant": "The batching boundary is at 2^31 and the counter at 2^32 steps.", "anchors": ["sim/renode/renode_mpact.cc: Step"]}
{"id": "C51", "title": "Renode halt reports a defined status", "statement": "halt(id,status) writes a status for every possible halt reason whenever it returns 0, and -1 is returned exactly for unknown ids or failed halts.", "quantifier": "all halt reasons and ids", "why_tests_cant": "Halt reasons include user-specified values.", "anchors": ["sim/renode/renode_mpact.cc: Halt"]}
{"id": "C52", "title": "Renode register info is bounded and NUL-terminated", "statement": "get_reg_info(i) succeeds iff 0<=i<33, describes pc,x0..x31 in order with width 32 and only x0 read-only, and stores a NUL-terminated name within the caller's max_name_length bytes.", "quantifier": "all indices, all name buffer lengths", "why_tests_cant": "Termination depends on the buffer length versus the name length.", "anchors": ["sim/renode/coralnpu_renode.cc: GetRenodeRegisterInfo", "sim/renode/coralnpu_renode_reigster_info.cc"]}
{"id": "C53", "title": "Renode shared memory behaves as one flat memory", "statement": "Loads and stores (contiguous, gather/scatter, masked) through the block-list memory behave exactly like a flat byte array of the configured size, for any block size, including accesses that straddle several blocks; masked-out elements touch nothing; out-of-range accesses are rejected before any byte is touched.", "quantifier": "all block sizes, memory sizes, addresses, lengths, masks, contents", "why_tests_cant": "Splitting depends on the relation of address, length and block size.", "anchors": ["sim/renode/coralnpu_renode_memory.cc: LoadStoreHelper, Load, Store, IsValidAddress"]}
{"id": "C54", "title": "Mailbox simulator terminates exactly at halt, wfi or leaving TCM", "statement": "WaitForTermination steps until the pc leaves 0..0x1FFF or the next instruction word is mpause or wfi, executing no instruction after that point, and then refreshes the mailbox from memory; WriteMailbox then ReadMailbox returns the written message when the program does not touch it. WriteTCM changes the given bytes only and ReadTCM shows them; Run sets the pc only.", "quantifier": "all programs", "why_tests_cant": "Programs are unbounded.", "anchors": ["sim/hw_sim/mpact_simulator.cc"]}
{"id": "C55", "title": "Instruction words compute what their mnemonic says", "statement": "Executing any word that decodes to a vector instruction reads the registers in its vs1/vs2/rs2 fields, applies the operation, width and form named by the mnemonic to every lane, writes only the registers named by vd (and the post-incremented address register), and leaves memory, accumulators and all other registers unchanged; loads and stores move exactly the addressed elements.", "quantifier": "all vector instruction words, all machine states", "why_tests_cant": "Decoder, operand construction and semantics are tested separately, each for a few words.", "anchors": ["sim/coralnpu_encoding.cc", "sim/*.isa", "sim/coralnpu_vector_instructions.cc", "sim/coralnpu_vector_memory_instructions.cc"]}
{"id": "C56", "title": "Disassembly shows the program's own instruction", "statement": "GetDisassembly at any instruction address shows the program's instruction, also where a breakpoint is set, and changes neither the program state nor the breakpoints nor the run status.", "quantifier": "all programs, all call histories, all instruction addresses", "why_tests_cant": "Breakpoints, cache contents and histories are unbounded.", "anchors": ["sim/coralnpu_top.cc: GetDisassembly", "sim/coralnpu_action_point_memory_interface.cc"]}
{"id": "C57", "title": "V2 words do what the RISC-V manuals say", "statement": "Every 32-bit word that the RISC-V manuals define in RV32I, M, F, Zicsr, Zifencei, Zbb and Zve32x (and mret, wfi, mpause) executes the operation of its mnemonic, with the source registers, immediates, mask and destinations given by its fields.", "quantifier": "all words, all decoder row choices", "why_tests_cant": "2^32 words; the decoder tests check one word per instruction and the opcode only.", "anchors": ["sim/coralnpu_v2.bin_fmt", "sim/coralnpu_v2.isa", "sim/coralnpu_v2_encoding.cc", "sim/coralnpu_v2_getters.h"]}
{"id": "C58", "title": "V2 refuses words outside its instruction set", "statement": "A word that none of the implemented manuals define is executed as an unimplemented instruction.", "quantifier": "all words", "why_tests_cant": "2^32 words.", "anchors": ["sim/coralnpu_v2.bin_fmt", "sim/coralnpu_v2.isa", "sim/coralnpu_v2_encoding.cc", "sim/coralnpu_v2_getters.h"]}
{"id": "C59", "title": "A V2 word has one meaning", "statement": "No word is the encoding of two instructions, and what it does depends neither on the order of the rows of the encoding table nor on the decoder generator.", "quantifier": "all pairs of instructions, all words, all decoders that return a matching row", "why_tests_cant": "Tests see one generated decoder.", "anchors": ["sim/coralnpu_v2.bin_fmt", "sim/coralnpu_v2.isa", "sim/coralnpu_v2_encoding.cc", "sim/coralnpu_v2_getters.h"]}
{"id": "C60", "title": "V2 operands are complete and immediates exact", "statement": "Every operand an accepted word's instruction uses exists; an immediate of the I, S, B, U and J formats is the one value the word's bits spell, sign extended, and every value of the format's range is spelt by some word.", "quantifier": "all words, all immediates", "why_tests_cant": "2^32 words.", "anchors": ["sim/coralnpu_v2.bin_fmt", "sim/coralnpu_v2.isa", "sim/coralnpu_v2_encoding.cc", "sim/coralnpu_v2_getters.h"]}
{"id": "C61", "title": "V2 load and store words access rs1 plus offset", "statement": "Executing a scalar load or store word accesses exactly rs1 + offset modulo 2^32, moves the register named by the word with the width of the mnemonic if all bytes are in an allowed range, and otherwise raises load/store access fault and accesses nothing.", "quantifier": "all words, register values, range configurations, program counters", "why_tests_cant": "Unbounded combinations of registers, offsets and ranges.", "anchors": ["sim/coralnpu_v2.bin_fmt", "sim/coralnpu_v2.isa", "sim/coralnpu_v2_encoding.cc", "sim/coralnpu_v2_getters.h", "sim/coralnpu_v2_instructions.cc", "sim/coralnpu_v2_state.cc"]}
{"id": "C62", "title": "V2 disassembly names the operation", "statement": "Two words shown with the same mnemonic perform the same operation.", "quantifier": "all pairs of words", "why_tests_cant": "2^64 pairs.", "anchors": ["sim/coralnpu_v2.bin_fmt", "sim/coralnpu_v2.isa", "sim/coralnpu_v2_encoding.cc", "sim/coralnpu_v2_getters.h"]}
{"id": "C63", "title": "V1 scalar words do what the manual says", "statement": "Every word the RISC-V manuals define for RV32I, M, Zicsr, Zifencei and the privileged instructions, and every mpause, cache, getvl and log word of CoralNPU, executes the operation of the manual with the registers and immediates the manual's bit positions give.", "quantifier": "all 32-bit words of the table, all decoders that take a matching row", "why_tests_cant": "The words cannot be enumerated with all operands.", "anchors": ["sim/coralnpu_base.bin_fmt", "sim/coralnpu_base.isa", "sim/coralnpu_format.bin_fmt", "sim/coralnpu_encoding.cc"]}
{"id": "C64", "title": "V1 executes no reserved scalar word", "statement": "A word with the two low bits 11 and the next three not 111 is executed only if it is an instruction of the supported set, and then has one meaning.", "quantifier": "all 32-bit words", "why_tests_cant": "2^32 words with an unconstrained reserved space.", "anchors": ["sim/coralnpu_base.bin_fmt", "sim/coralnpu_base.isa", "sim/coralnpu_format.bin_fmt", "sim/coralnpu_encoding.cc"]}
{"id": "C65", "title": "V1 disassembly tells instructions apart", "statement": "Two instruction words shown with the same line of disassembly perform the same operation on the same registers, register groups and immediates. A branch or jal shows its target as an address (pc plus the signed offset); no other text shows an address relative to the pc.", "quantifier": "all pairs of words", "why_tests_cant": "2^64 pairs.", "anchors": ["sim/coralnpu_base.bin_fmt", "sim/coralnpu_base.isa", "sim/coralnpu_format.bin_fmt", "sim/coralnpu_encoding.cc", "sim/coralnpu_arith.isa", "sim/coralnpu_memory.isa"]}
{"id": "C66", "title": "V1 store words write their bytes", "statement": "Executing an sb, sh or sw word writes the low 1, 2 or 4 bytes of rs2, least significant first, at rs1 plus the sign-extended offset (modulo the address space) and changes no other byte.", "quantifier": "all words, register values, memories, memory sizes", "why_tests_cant": "Unbounded combinations of words, registers and memories.", "anchors": ["sim/coralnpu_base.bin_fmt", "sim/coralnpu_base.isa", "sim/coralnpu_format.bin_fmt", "sim/coralnpu_encoding.cc", "sim/coralnpu_instructions.cc"]}
{"id": "C67", "title": "Command line runs the given program", "statement": "The V1 simulator started on a file either refuses without executing anything (not exactly one file, unreadable file, raw file without entry point or in interactive mode, image that does not fit, failing ELF load) or executes the program from the given entry point (else the ELF file's), with a raw image at the given offset over zeroed memory, up to and including the first halting instruction, and reports that number of instructions as cycles; an exit status of 0 means that the program ended properly.", "quantifier": "all files, flags, instruction sets, programs that do not modify executed instructions", "why_tests_cant": "Unbounded programs, files and run lengths.", "anchors": ["sim/coralnpu_sim.cc", "sim/coralnpu_top.cc"]}
{"id": "C68", "title": "Register listings show the registers", "statement": "`reg info` prints exactly one line per readable register x0 to x31, in order, with its ABI name and its value in hexadecimal; `vreg info` prints each existing register v0 to v63 as eight words, lowest first; the texts determine the values; any other input is left to the shell.", "quantifier": "all inputs, register contents", "why_tests_cant": "2^1024 register states.", "anchors": ["sim/coralnpu_sim.cc", "sim/coralnpu_top.cc"]}
{"id": "C69", "title": "V2 simulator honours its options", "statement": "Instructions are fetched only from the configured ITCM, scalar loads and stores reach only the configured DTCM, misa has the configured bits; mpause stops the simulation; ebreak stops it exactly if exit_on_ebreak is set and no breakpoint takes it, and traps otherwise; the program starts at the given entry point, else the file's.", "quantifier": "all options, addresses, entry points, handler lists", "why_tests_cant": "All 32-bit ranges and addresses.", "anchors": ["sim/coralnpu_v2_simulator.cc", "sim/coralnpu_v2_sim.cc", "sim/coralnpu_v2_state.h"]}
{"id": "C70", "title": "Scalar instructions follow the RISC-V manual on the whole core", "statement": "Executing the word of an RV32IM instruction on the V1 core changes exactly what the manual says: computations and upper immediates set rd (never x0) to the manual's result, jumps link and go to the target, branches are taken exactly if their condition holds, loads extend and stores write exactly the addressed bytes, pc goes to the next instruction otherwise; nothing else changes; an address beyond the 4 MiB memory ends the run; a word stored to an address can be loaded from it.", "quantifier": "all words of the manual, register and memory contents, addresses", "why_tests_cant": "2^32 words times all states.", "anchors": ["sim/coralnpu_base.isa", "sim/coralnpu_base.bin_fmt", "sim/coralnpu_encoding.cc", "sim/coralnpu_top.cc"]}
{"id": "C71", "title": "What ends a run", "statement": "An instruction ends the run exactly if it is mpause, an illegal word, an access (scalar or any element of a vector access) beyond memory, a log of a text beyond memory, or aconv with a bad command; the all-zero word is illegal; the reported reason tells a finished program from a fault.", "quantifier": "all words, states", "why_tests_cant": "All words and address patterns.", "anchors": ["sim/coralnpu_top.cc", "sim/coralnpu_instructions.cc", "sim/coralnpu_vector_memory_instructions.cc"]}
{"id": "C72", "title": "Faults are precise", "statement": "An instruction that ends the run by an access beyond memory or a bad aconv command has changed no register, vector register, accumulator or memory byte.", "quantifier": "all faulting instructions, states", "why_tests_cant": "All faulting addresses, lengths and strides.", "anchors": ["sim/coralnpu_vector_memory_instructions.cc", "sim/coralnpu_instructions.cc", "sim/coralnpu_top.cc"]}
{"id": "C73", "title": "A strip-mined kernel computes its array", "statement": "The kernel getvl, vld, vld, op, vst, sub, bne, mpause, for any element-wise operation op of 8, 16 or 32 bits, placed anywhere, run on arrays of any length and place within memory (also in place), halts after 7 * max(1, ceil(bytes / 128)) + 1 instructions with every output element the operation of its inputs, every other byte of memory unchanged, the pointers advanced to the ends and the other registers unchanged.", "quantifier": "all operations, lengths, placements, contents", "why_tests_cant": "Unbounded lengths, contents and placements.", "anchors": ["sim/coralnpu_top.cc", "sim/coralnpu_encoding.cc", "sim/coralnpu_vector_instructions.cc", "sim/coralnpu_vector_memory_instructions.cc", "sim/coralnpu_instructions.cc"]}
{"id": "C74", "title": "Vector words on the whole core", "statement": "Executing the word of an element-wise, load, store or aconv instruction on the V1 core has the effect specified for its name on exactly the registers, memory bytes and accumulators its fields name, and nothing else changes; accesses beyond memory end the run instead.", "quantifier": "all words of these instructions, states", "why_tests_cant": "All words and register states.", "anchors": ["sim/coralnpu_encoding.cc", "sim/coralnpu_vector_instructions.cc", "sim/coralnpu_vector_memory_instructions.cc", "sim/coralnpu_vector_convolution_instructions.cc", "sim/coralnpu_top.cc"]}
{"id": "C75", "title": "A Renode session shows the program itself", "statement": "For any list of Renode calls about any number of instances, the answers about one instance are those of its program run directly: a new instance has cleared memory and the boot registers, loading sets memory and pc, a step executes exactly as many instructions as the program reaches within the count asked for, stops where the program halts and reports the count and the status of that reason, a step after the semihosting exit executes nothing, registers and memory read back what the program and the writes left there, and calls about other instances, failed calls and reads change nothing.", "quantifier": "all call lists, instruction sets, decode cache evictions; programs that execute no address with two different instructions", "why_tests_cant": "Unbounded call sequences, instances, programs and cache behaviour.", "anchors": ["sim/renode/renode_mpact.cc", "sim/renode/coralnpu_renode.cc", "sim/coralnpu_top.cc"]}
{"id": "C76", "title": "What no program can break", "statement": "Whatever words the V1 core executes, from any state: the pc stays a 32-bit address, a halt is a user request, scalar registers keep 32-bit values, vector registers 256-bit values, accumulators and depthwise state their sizes and memory bytes their size, and no byte outside the 4 MB memory and the 3 bytes behind it is changed; an access behind the memory is refuted to be impossible.", "quantifier": "all words, all programs of any length, all states, all decoders meeting their contract", "why_tests_cant": "All words and states, runs of any length.", "anchors": ["sim/coralnpu_top.cc", "sim/coralnpu_encoding.cc", "sim/coralnpu_vector_instructions.cc", "sim/coralnpu_vector_memory_instructions.cc", "sim/coralnpu_vector_convolution_instructions.cc", "sim/coralnpu_instructions.cc"]}
{"id": "C77", "title": "Which instructions can be undefined", "statement": "A program that executes none of the word shifts vsha.w and vshl.w, the depthwise convolutions, flog and klog, and acset, actr and adwinit only in the assembler's encoding, never reaches undefined behaviour or a failed check of the V1 semantic functions, whatever its operands; each of these classes can.", "quantifier": "all programs of any length, all states", "why_tests_cant": "All words and operand values; undefined behaviour may not show in a test.", "anchors": ["sim/coralnpu_vector_instructions.cc", "sim/coralnpu_vector_memory_instructions.cc", "sim/coralnpu_vector_convolution_instructions.cc", "sim/coralnpu_instructions.cc", "sim/coralnpu_encoding.cc"]}
{"id": "C78", "title": "The Renode interface always answers", "statement": "Any list of Renode calls that keep to the documentation (a status pointer for load_executable, name buffers of the announced length, 64-bit counts), about any instances, existing or not, and whatever the programs do, is answered call by call: no call crashes, dereferences null or runs forever.", "quantifier": "all call lists, programs, decode cache evictions", "why_tests_cant": "Unbounded call lists and programs; counts up to 2^64.", "anchors": ["sim/renode/renode_mpact.cc", "sim/renode/coralnpu_renode.cc", "sim/coralnpu_top.cc"]}
{"id": "C79", "title": "A kernel run through Renode computes its array", "statement": "A host that constructs an instance, writes the kernel of C73 and two arrays of any length, sets pointers, length and pc, steps at least as many instructions as the kernel takes and reads the output gets success from every call, the exact number of instructions and status 0 from step, and from the read exactly the element-wise operation of the two arrays it wrote.", "quantifier": "all element-wise operations, lengths, placements, contents, step counts, cache behaviour", "why_tests_cant": "Unbounded lengths, contents and placements through all layers.", "anchors": ["sim/renode/renode_mpact.cc", "sim/renode/coralnpu_renode.cc", "sim/coralnpu_top.cc", "sim/coralnpu_encoding.cc", "sim/coralnpu_vector_instructions.cc", "sim/coralnpu_vector_memory_instructions.cc"]}
{"id": "C80", "title": "Every other vector instruction on the whole core", "statement": "Executing any widening, accumulating, pairwise, unary, narrowing or permuting vector word, vdup, getvl, getmaxvl, acset, actr, vcget, adwinit, adwconv or vdwconv on the V1 core goes on at the next word and writes exactly the documented lanes, accumulators or rd; memory, all other registers and accumulators, the log and the halt state stay as they were. Operand groups must not overlap a destination written before they are read, accumulator moves use the assembler's encoding, and the depthwise convolutions are undefined before adwinit, with the reserved sparsity mode, or when an accumulator leaves the int32 range.", "quantifier": "all words of these kinds, addresses, register, accumulator and memory contents", "why_tests_cant": "Thousands of encodings times 2^8192 vector register states.", "anchors": ["sim/coralnpu_vector_instructions.cc", "sim/coralnpu_vector_memory_instructions.cc", "sim/coralnpu_vector_convolution_instructions.cc", "sim/coralnpu_encoding.cc", "sim/coralnpu_top.cc"]}
{"id": "C81", "title": "A matrix product on the whole core", "statement": "A program of twelve words that clears the accumulators, loads 32-byte tiles with post-incrementing vector loads, accumulates each pair with one aconv, and stores the accumulators read by vcget leaves in memory the 8x8 product of an 8-by-32n matrix and a 32n-by-8 matrix of bytes, each byte signed or unsigned and with a bias as the command says, every entry modulo 2^32 and exact up to depth 8256. It halts at mpause after 7n+5 instructions; memory outside the product and all registers the program does not use are unchanged, and the accumulators are clear.", "quantifier": "all depths n >= 1 that fit in memory, biases and signs, placements of code, factors and product (the product may overlap the factors), matrix contents, register, accumulator and log states", "why_tests_cant": "The contents alone are 2^(4096n) pairs of matrices for each n; exactness up to depth 8256 depends on the extreme values of every factor.", "anchors": ["sim/coralnpu_vector_convolution_instructions.cc", "sim/coralnpu_vector_memory_instructions.cc", "sim/coralnpu_encoding.cc", "sim/coralnpu_top.cc"]}
{"id": "C82", "title": "The trace lists what the program executed", "statement": "With --trace, a Run writes to the trace path, in the wire format of coralnpu_trace.proto, one entry per executed instruction in program order with its address, its instruction word and, with --trace_disasm, its text. Tracing changes neither the run nor any other file. A path can hold a trace if it lies in a directory below the root that exists or whose parent exists, or already is a file in the working directory; a trace of more than INT_MAX bytes leaves an empty file. After a breakpoint the resumed instruction is missing, at a breakpoint an ebreak is listed, and an instruction that overwrites itself is listed as what it became.", "quantifier": "all programs that do not write their own code, debugger call histories before the run, flags, paths and file systems", "why_tests_cant": "Needs every length of run, every placement of breakpoints and every path; the 2 GB limit is out of reach of tests.", "anchors": ["sim/coralnpu_top.cc", "sim/proto/coralnpu_trace.proto"]}
{"id": "C83", "title": "The memory an instruction touches", "statement": "On the V1 core a scalar store writes only the 1, 2 or 4 bytes at its base register plus immediate, a vector store only the bytes of its selected elements, and no other word writes memory. What a word does depends only on its registers and on the bytes it loads: those of a scalar load, the selected elements of a vector load, or for flog and klog the words of the text up to its terminator. Hence a program that does not load from or store to its own code may be debugged with breakpoints, and every state the debugger sees is one of the undebugged program.", "quantifier": "all 2^32 instruction words, pcs, register and memory states with x0 = 0, all allowed histories of debugger calls", "why_tests_cant": "Absence of any other access has to hold at every address for every word and register state; tests look at a few locations after a few instructions.", "anchors": ["sim/coralnpu_vector_memory_instructions.cc", "sim/coralnpu_instructions.cc", "sim/coralnpu.isa", "sim/coralnpu_top.cc"]}
{"id": "C84", "title": "The debugger as a whole", "statement": "Seen through its debug interface the simulator is an ideal debugger that keeps no breakpoints in memory and no decode cache: every Run stops exactly at the first breakpoint or halting instruction, every Step executes as many instructions as it says, all other calls answer from the program's own registers and memory (reads of memory under a breakpoint show ebreak), and both counters count the executed instructions plus one for every stop at a breakpoint. The answers are determined by the calls, a call is never undefined, and only a Run of a program that neither halts nor reaches a breakpoint does not return. This holds as long as at a breakpoint Step is not used, the breakpoint is not removed and pc and halt reason are not written, breakpoints and disassembly are on aligned instructions, no image is loaded, and neither the debugger's writes nor the instructions that Run and Step really execute use the code as data.", "quantifier": "all programs and instruction sets, all sequences of such calls of any length, all cache replacement policies", "why_tests_cant": "Tests try a few call sequences; agreement call by call over sequences of any length, and independence of the cache, need a refinement proof.", "anchors": ["sim/coralnpu_top.cc", "sim/decoder.cc"]}
{"id": "C85", "title": "Watching a program to its end", "statement": "A program that ends, watched in the debugger with breakpoints, steps and reads (no writes, no breakpoint on its last instruction, no Run or Step after the end), always shows one of the states it has undebugged, never passes its end, and reports its halt exactly when it shows the final state. However it was watched, repeated Runs reach the end after at most one more Run than it has instructions, after one without breakpoints. In particular the strip-mined vector kernel on the V1 core computes its result array under any such watching. A breakpoint on the last instruction lets a resumed Run pass the end.", "quantifier": "all programs, lengths, call sequences and breakpoint placements; for the kernel all operations, element widths, array lengths and places", "why_tests_cant": "The breakpoints may be anywhere and hit at any iteration of a data-dependent loop; tests cover a few placements.", "anchors": ["sim/coralnpu_top.cc: Run, Step, StepPastBreakpoint"]}
{"id": "C86", "title": "Csr instructions", "statement": "On the V1 core every Zicsr word acts as the manual says: rd, unless it is x0, gets the csr's old value modulo 2^32, and the csr is written, set or cleared with the operand as it was before rd changed; a write without destination does not read the csr, a set or clear with x0 or immediate 0 does not write it; memory, vector registers, accumulators and pending log data are unchanged and the pc moves to the next instruction. If the csr does not exist or may not be used so, nothing changes and the run ends. What the sizes, definedness and memory-use properties ask of these instructions follows, and only ecall, ebreak, the returns, wfi, sfence.vma and Zbb words depend on code outside this repository beyond the contracts.", "quantifier": "all csr words, csr numbers, csr files (with reading side effects), states and programs", "why_tests_cant": "There are 12 forms times 4096 csrs times all register pairs, including rd = rs1; tests use a few csrs.", "anchors": ["sim/coralnpu_base.isa: slot zicsr", "sim/coralnpu_base.bin_fmt", "sim/coralnpu_encoding.cc: 138-153, 299-303", "sim/coralnpu_state.cc"]}
{"id": "C87", "title": "Counters seen by programs", "statement": "A program that reads minstret(h) or mcycle(h) sees in both the number of instructions executed before: a Run or Step that does not resume at a breakpoint ends with the registers, memory, pc and reason of a machine that keeps its own counters, starting at the simulator's values and adding one per instruction; for a program just loaded the instruction after k others sees k, and the counters end at the number of instructions. Debugging does not change what it reads.", "quantifier": "all programs, states, step counts, decode cache evictions; instruction sets given as a function of counters and state", "why_tests_cant": "The values depend on every instruction and debugger stop before the read; the tests check one Step.", "anchors": ["sim/coralnpu_top.cc: 237-258, 289-311, 346-377, 437-483"]}
{"id": "C88", "title": "Console output of a V1 run", "statement": "A Run of a program just loaded prints what its instructions print, in order, up to and including the first that halts, and printing changes nothing else. While the program runs this is only its log on standard output and an \"incorrect format\" line on standard error per misfit. The instruction that halts adds exactly one line: \"Program exits properly\" for mpause, \"Program exits with fault\" for ebreak, \"Illegal instruction at 0x..\" for a refused word or a bad aconv command, \"Memory load (store) access fault at 0x.. as: ..\" for loads, flog and klog (stores) beyond memory, with its own address in hexadecimal and its disassembly; such a line tells cause, address and text apart from every other. The batch mode's standard output for a program that ends with mpause is the start line, the log, \"Program exits properly\", the cycle count in decimal and the time. Standard output tells how a run ended.", "quantifier": "all words, addresses, states, programs that do not modify executed code, run lengths, decode cache evictions, disassemblers", "why_tests_cant": "The tests look at return values of single instructions; the text depends on word, address and every earlier log instruction.", "anchors": ["sim/coralnpu_top.cc: 178-235, 437-483", "sim/coralnpu_state.cc: 92-138", "sim/coralnpu_sim.cc: 226-242", "sim/coralnpu_instructions.cc: 29-114"]}
{"id": "C89", "title": "Opcode counters", "statement": "The simulator counts how often each opcode is executed. Counting changes no call's result. After any calls on a loaded program the opcode counters add up to the instruction counter, and an opcode no word has stays at zero. After a Run of a program just loaded each counter is the number of executed instructions with that opcode, including the one that halts. The V1 opcode names are distinct, so the constructor does not abort on registering the counters, and every word has one of them. The debugger does not change the counts.", "quantifier": "all programs, calls, states, run lengths, decode cache evictions, names of the Zbb opcodes", "why_tests_cant": "The tests do not read the counters; the sums are over all call sequences and all 2^32 words.", "anchors": ["sim/coralnpu_top.h: 160-170", "sim/coralnpu_top.cc: 145-158, 300-310, 355-365, 465-475"]}
{"id": "C90", "title": "Semihosting", "statement": "Without --use_semihost every call does what it does without a host, and the host serves nothing. With it, an ebreak between slli x0, x0, 31 and srai x0, x0, 7 is served by the host, which may change registers and memory, and the program goes on behind it or halts if the host was asked to exit; every other instruction does what it does without the flag. A program or debugging session in which the host serves nothing behaves as without the flag. On V1 the two marks change nothing. Breakpoints are hit as without the flag.", "quantifier": "all hosts, instruction sets, states, programs that do not modify executed code, calls, run lengths, decode cache evictions", "why_tests_cant": "The tests make no semihosting call under the debugger; the claims are about every program, host and call sequence.", "anchors": ["sim/coralnpu_top.cc: 60, 176-195, 260-261"]}
{"id": "C91", "title": "Programs on the V2 core", "statement": "On a V2 core whose ITCM range and load/store ranges end below 4 GiB, an instruction fetched from the ITCM range does what the RISC-V manual says: RV32IM computations, branches and jumps change rd and pc only; a scalar load or store whose bytes are in one range transfers them, any other raises a load or store access fault and changes nothing else; fetching outside the ITCM range and words without an instruction raise their exceptions and change nothing else. A program, however long it runs, changes no byte outside the configured ranges, so it cannot change its own instructions if they are in no range, and what it does depends on no byte outside the ranges and the ITCM range.", "quantifier": "all decoders, range configurations, states, programs, run lengths", "why_tests_cant": "The tests run single functions at chosen addresses with chosen ranges; confinement is a claim about every program and every number of steps.", "anchors": ["sim/coralnpu_v2_state.h: 44-95", "sim/coralnpu_v2_instructions.cc: 35-151", "sim/coralnpu_v2_user_decoder.cc: 62-78"]}
{"id": "C92", "title": "A copy loop on the V2 core", "statement": "The six-instruction byte copy loop (lbu, sb, three addi, bne) in the ITCM range of a V2 core copies any number of bytes between places inside the load/store ranges that do not wrap, do not overlap forward and do not hold the loop: after six instructions per byte the destination holds the source's bytes, the pc is behind the loop and no other byte, csr or register but x5, x10, x11, x12 has changed. If the source leaves the ranges at byte k, the load of that byte raises a load access fault; if the destination does, its store raises a store access fault; in both cases exactly the k bytes before have been copied.", "quantifier": "all decoders, range configurations, addresses, lengths, memory contents, positions of the first bad byte", "why_tests_cant": "Tests run chosen instructions or programs; the claim is about every length and about where a run is cut off.", "anchors": ["sim/coralnpu_v2_state.h: 44-95", "sim/coralnpu_v2_instructions.cc: 35-151", "sim/coralnpu_v2_user_decoder.cc: 62-78"]}
{"id": "C93", "title": "Co-simulation sessions", "statement": "For every session of co-simulation calls: a register write that returns 0 is read back by the next mpact_get_register of that register, one that fails changes nothing a later call shows; the queries (mpact_is_halted, mpact_get_register, mpact_get_vector_register) change nothing: without them all other calls return what they returned with them; an instance that is never configured behaves as one configured with 8 KiB of ITCM at 0, 32 KiB of DTCM at 0x10000 and a misa of RV32 with F, I, M and V. mpact_get_register leaves one 32-bit value, 0 if it fails; mpact_get_vector_register writes only if it succeeds and within the room given; other calls write nothing.", "quantifier": "all finite sequences of calls with arbitrary arguments, all simulators behind the interface", "why_tests_cant": "That queries are harmless and defaults equal a configuration is a claim about pairs of unbounded call sequences.", "anchors": ["sim/cosim/coralnpu_cosim_dpi_wrapper.cc: 71-118, 266-402"]}
