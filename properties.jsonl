{"id": "C01", "title": "Fixed buffer: emission appends and never leaves the buffer", "statement": "With a fixed-size buffer (internal or user supplied), emitting bytes appends exactly those bytes after the code emitted so far, leaves every earlier byte and every byte outside the buffer unchanged, getSize() grows by the number of bytes, and an emission that does not fit reports ERR_CODE_IS_TOO_BIG without writing anything outside [getCode(), getCode()+maxSize).", "quantifier": "every buffer size, every starting content, every sequence of db/dw/dd/dq/instruction emissions", "why_tests_cant": "tests use a handful of buffer sizes; an off-by-one at the last byte shows only for particular size/offset combinations", "anchors": ["xbyak/xbyak.h:CodeArray::db", "xbyak/xbyak.h:CodeArray::CodeArray", "xbyak/xbyak.h:CodeArray::dw", "xbyak/xbyak.h:CodeArray::dd", "xbyak/xbyak.h:CodeArray::dq"]}
{"id": "C02", "title": "AutoGrow: growth is invisible in the finished code", "statement": "With AutoGrow, whatever the initial capacity and whatever addresses the allocator returns, code emission never reports ERR_CODE_IS_TOO_BIG, bytes already emitted survive each reallocation, and after ready() the finished code is the one a sufficiently large buffer would hold (absolute label values being relative to the final buffer address).", "quantifier": "all initial capacities, all allocator answers, all emission/label histories", "why_tests_cant": "growth happens at a data-dependent instant; tests cannot cover every interleaving of growth with pending label patches", "anchors": ["xbyak/xbyak.h:CodeArray::growMemory", "xbyak/xbyak.h:CodeArray::calcJmpAddress", "xbyak/xbyak.h:CodeGenerator::ready"]}
{"id": "C03", "title": "Multi-byte data is emitted little-endian and reads back", "statement": "db(v,n), dw, dd and dq emit n/2/4/8 bytes whose little-endian value is v modulo 2^(8n); n > 8 reports ERR_BAD_PARAMETER and emits nothing; rewrite(offset,v,size) for size 1,2,4,8 changes exactly the size bytes at offset to the little-endian bytes of v and rejects other sizes.", "quantifier": "all 64-bit values and all sizes", "why_tests_cant": "2^64 values times sizes", "anchors": ["xbyak/xbyak.h:CodeArray::db", "xbyak/xbyak.h:CodeArray::rewrite"]}
{"id": "C04", "title": "Every resolved relative label reference lands on the label", "statement": "After any history of emissions, label definitions and label references that did not report an error, every jump/call/loop to a label that has been defined, before or after the jump, by string or by Label object, short or near, holds a displacement such that (address after the branch) + displacement = address of the label.", "quantifier": "every history of API calls, any number of labels and references, any distance", "why_tests_cant": "correctness depends on the whole history (pending references, patches, growth); unbounded", "anchors": ["xbyak/xbyak.h:CodeGenerator::opJmp", "xbyak/xbyak.h:CodeGenerator::makeJmp", "xbyak/xbyak.h:LabelManager::define_inner", "xbyak/xbyak.h:LabelManager::addUndefinedLabel"]}
{"id": "C05", "title": "Absolute label references hold the label's final address", "statement": "After any such history, the pointer-sized value emitted by putL(label) and by mov(reg64,label) is, once the label is defined (and after ready() in AutoGrow mode), the address of the label in the final buffer.", "quantifier": "every history, both buffer modes, forward and backward references", "why_tests_cant": "forward references, growth and ready() interact; the final address is only known after all reallocations", "anchors": ["xbyak/xbyak.h:CodeGenerator::putL_inner", "xbyak/xbyak.h:CodeArray::save", "xbyak/xbyak.h:CodeArray::calcJmpAddress", "xbyak/xbyak.h:LabelManager::define_inner"]}
{"id": "C06", "title": "rip-relative label operands reach label + addend", "statement": "An instruction with operand ptr[rip + label + n] refers, once label is defined, to the address label + n whatever the number of immediate bytes that follow the displacement.", "quantifier": "every instruction form taking memory, every addend, every label position", "why_tests_cant": "needs, for every encoder path, that the number of trailing immediate bytes is accounted for", "anchors": ["xbyak/xbyak.h:CodeGenerator::opAddr", "xbyak/xbyak.h:CodeGenerator::putL_inner", "xbyak/xbyak.h:Address", "xbyak/xbyak_mnemonic.h"]}
{"id": "C07", "title": "Short and near branch selection", "statement": "For a backward reference without a forced size the 2-byte form is used exactly when the target is within [-128,127] of its end and the near form otherwise; T_SHORT reports ERR_LABEL_IS_TOO_FAR exactly when the target is out of the short range; T_NEAR always uses the near form; a forward T_AUTO reference uses short unless setDefaultJmpNEAR(true).", "quantifier": "all distances, all branch opcodes", "why_tests_cant": "all 2^32 distances around two thresholds", "anchors": ["xbyak/xbyak.h:CodeGenerator::makeJmp", "xbyak/xbyak.h:CodeGenerator::isNEAR", "xbyak/xbyak.h:CodeGenerator::opJmp"]}
{"id": "C08", "title": "A label is defined at most once", "statement": "Defining an already defined label (string in the same scope, or Label object) reports ERR_LABEL_IS_REDEFINED (ERR_LABEL_ISNOT_SET_BY_L / REDEFINED for assignL) and changes neither the code nor any label; a first definition binds the label to the current position and later operations never move it.", "quantifier": "all histories", "why_tests_cant": "depends on every previous definition in the history", "anchors": ["xbyak/xbyak.h:LabelManager::defineSlabel", "xbyak/xbyak.h:LabelManager::defineClabel", "xbyak/xbyak.h:LabelManager::define_inner", "xbyak/xbyak.h:LabelManager::assign"]}
{"id": "C09", "title": "hasUndefinedLabel is exact and ready() refuses incomplete code", "statement": "hasUndefinedLabel() returns true exactly when some emitted reference is to a label not yet defined; ready() reports ERR_LABEL_IS_NOT_FOUND exactly in this case.", "quantifier": "all histories incl. several references to one label and local scopes", "why_tests_cant": "history dependent, unbounded", "anchors": ["xbyak/xbyak.h:LabelManager::hasUndefClabel", "xbyak/xbyak.h:LabelManager::hasUndefSlabel", "xbyak/xbyak.h:CodeGenerator::ready", "xbyak/xbyak.h:CodeGenerator::hasUndefinedLabel"]}
{"id": "C10", "title": "Anonymous labels: @b is the last @@, @f is the next @@", "statement": "A jump to \"@b\" refers to the most recent L(\"@@\") before it and a jump to \"@f\" to the first L(\"@@\") after it, for any number of @@; \"@b\" with no previous @@ is never resolved to a label.", "quantifier": "all sequences of @@ definitions and @f/@b references", "why_tests_cant": "the implementation toggles two names; only an induction over the history shows the renaming is right", "anchors": ["xbyak/xbyak.h:LabelManager::defineSlabel", "xbyak/xbyak.h:LabelManager::getOffset"]}
{"id": "C11", "title": "Local labels are scoped by inLocalLabel/outLocalLabel", "statement": "A name starting with '.' refers to the definition in the same (innermost) inLocalLabel..outLocalLabel scope and never to an equal name in another scope; other names are global; outLocalLabel() reports ERR_UNDER_LOCAL_LABEL without matching inLocalLabel and ERR_LABEL_IS_NOT_FOUND when the scope has unresolved local references.", "quantifier": "all nestings and histories", "why_tests_cant": "unbounded nesting and name reuse", "anchors": ["xbyak/xbyak.h:LabelManager::enterLocal", "xbyak/xbyak.h:LabelManager::leaveLocal", "xbyak/xbyak.h:LabelManager::defineSlabel", "xbyak/xbyak.h:LabelManager::addUndefinedLabel"]}
{"id": "C12", "title": "assignL(dst, src) makes dst an alias of src", "statement": "If src is defined by L() and dst is not defined, then after assignL(dst,src) every reference to dst, earlier or later, resolves to the position of src; otherwise an error is reported and nothing changes.", "quantifier": "all histories", "why_tests_cant": "references to dst may be pending, in both buffer modes", "anchors": ["xbyak/xbyak.h:LabelManager::assign", "xbyak/xbyak.h:CodeGenerator::assignL"]}
{"id": "C13", "title": "Copies of a Label denote the same label and its definition lives as long as a copy", "statement": "Copying or assigning a Label object yields a label with the same position; destroying one of several copies does not remove the definition, destroying the last one does.", "quantifier": "all orders of copy, assignment, definition and destruction", "why_tests_cant": "object lifetime orders are unbounded", "anchors": ["xbyak/xbyak.h:Label", "xbyak/xbyak.h:LabelManager::incRefCount", "xbyak/xbyak.h:LabelManager::decRefCount"]}
{"id": "C14", "title": "reset() and destruction of the generator detach labels", "statement": "After reset() or the generator's destruction, labels defined with it have id 0 and getAddress() returns null; after reset() the generator behaves as a fresh one.", "quantifier": "all histories before reset", "why_tests_cant": "depends on which labels had been touched", "anchors": ["xbyak/xbyak.h:LabelManager::reset", "xbyak/xbyak.h:LabelManager::resetLabelPtrList", "xbyak/xbyak.h:CodeGenerator::reset"]}
{"id": "C15", "title": "Label::getAddress tells the truth", "statement": "getAddress() returns null while the label is undefined or the AutoGrow buffer is not ready, and otherwise getCode() + position of the label.", "quantifier": "all histories", "why_tests_cant": "history dependent", "anchors": ["xbyak/xbyak.h:Label::getAddress", "xbyak/xbyak.h:LabelManager::getOffset", "xbyak/xbyak.h:LabelManager::isReady"]}
{"id": "C16", "title": "Jumps and calls to absolute addresses reach them", "statement": "jmp/jcc/call(const void*) emits a branch whose target is the given address when it lies within the branch's range of the final position of the code, also after AutoGrow relocation; otherwise an error is reported.", "quantifier": "all 2^64 addresses, all buffer positions", "why_tests_cant": "64-bit address arithmetic at the \u00b12GiB limits", "anchors": ["xbyak/xbyak.h:CodeGenerator::opJmpAbs", "xbyak/xbyak.h:CodeGenerator::makeJmp", "xbyak/xbyak.h:CodeArray::AddrInfo"]}
{"id": "C17", "title": "Legacy/REX/REX2 memory operands denote the written address", "statement": "For every memory operand [base + index*scale + disp] accepted in a non-VEX instruction, the emitted prefixes, ModRM, SIB and displacement are decoded by the architecture to an operand with, for all register contents, the same effective address (modulo 2^64, or 2^32 for 32-bit address registers).", "quantifier": "all base/index among 32 registers, all scales, all 64-bit displacements, all reg fields", "why_tests_cant": "~10^14 operand combinations with special cases (rsp, rbp, r12, r13, r20, r21)", "anchors": ["xbyak/xbyak.h:CodeGenerator::opAddr", "xbyak/xbyak.h:CodeGenerator::setSIB", "xbyak/xbyak.h:CodeGenerator::rex", "xbyak/xbyak.h:CodeGenerator::rex2", "xbyak/xbyak.h:RegExp"]}
{"id": "C18", "title": "VEX memory operands denote the written address and registers", "statement": "Every VEX instruction emitted for (reg, vvvv, reg-or-memory) decodes to those registers, that opcode map/prefix/W/L and that effective address.", "quantifier": "all registers, addresses, displacements and opcode attributes", "why_tests_cant": "combinatorial", "anchors": ["xbyak/xbyak.h:CodeGenerator::vex", "xbyak/xbyak.h:CodeGenerator::opVex"]}
{"id": "C19", "title": "EVEX operands incl. compressed displacement denote what was written", "statement": "Every EVEX instruction decodes to the written registers (0..31), opmask, zeroing, broadcast, rounding/SAE, vector length, and to a memory operand with the same effective address, disp8 being scaled by the operand-dependent N.", "quantifier": "all registers, masks, rounding modes, displacements", "why_tests_cant": "the disp8*N rule depends on vector length, broadcast and tuple type", "anchors": ["xbyak/xbyak.h:CodeGenerator::evex", "xbyak/xbyak.h:CodeGenerator::opVex", "xbyak/xbyak.h:CodeGenerator::setSIB"]}
{"id": "C20", "title": "Register operands round-trip", "statement": "For every register-register instruction emitted through the legacy paths, decoding returns the same two registers (incl. extended and byte registers), operand size and opcode.", "quantifier": "all pairs of registers of all sizes", "why_tests_cant": "all pairs \u00d7 opcodes \u00d7 prefix paths", "anchors": ["xbyak/xbyak.h:CodeGenerator::opRR", "xbyak/xbyak.h:CodeGenerator::rex", "xbyak/xbyak.h:CodeGenerator::opRO"]}
{"id": "C21", "title": "High-byte registers are never silently turned into others", "statement": "An instruction using ah/ch/dh/bh either decodes to that register or reports an error.", "quantifier": "all instructions and operand combinations", "why_tests_cant": "needs every encoder path that can emit a REX/VEX/EVEX prefix", "anchors": ["xbyak/xbyak.h:CodeGenerator::isBadCombination", "xbyak/xbyak.h:CodeGenerator::opRR", "xbyak/xbyak.h:CodeGenerator::opMR"]}
{"id": "C22", "title": "mov(reg, imm) loads exactly the given value", "statement": "mov(reg, imm) emits an instruction that leaves in the register the value imm modulo 2^width for every register; for 64-bit registers the whole 64-bit value, by the shortest of the three forms.", "quantifier": "all 2^64 immediates, all registers", "why_tests_cant": "2^64 immediates with several form switches", "anchors": ["xbyak/xbyak.h:CodeGenerator::mov_imm", "xbyak/xbyak.h:CodeGenerator::mov"]}
{"id": "C23", "title": "ALU immediates have the written value", "statement": "add/or/adc/sbb/and/sub/xor/cmp(op, imm) emit an immediate that the processor sign-extends to imm (as a 32-bit signed number, modulo the operand width), using the 1-byte form exactly when it fits.", "quantifier": "all 2^32 immediates, all operand sizes", "why_tests_cant": "2^32 immediates with thresholds at 7, 8, 15, 16, 31 bits", "anchors": ["xbyak/xbyak.h:CodeGenerator::getImmBit", "xbyak/xbyak.h:CodeGenerator::opOI", "xbyak/xbyak.h:CodeGenerator::opROI"]}
{"id": "C24", "title": "Address expressions mean what arithmetic says", "statement": "ptr[e] denotes the same effective address however e is written: sums of registers, scaled registers and displacements in any order, including the automatic rewritings (index 1 to base, reg*2 to reg+reg, swapping an esp index); ill-formed expressions are rejected.", "quantifier": "all expressions built with the operators", "why_tests_cant": "unbounded expressions", "anchors": ["xbyak/xbyak.h:RegExp", "xbyak/xbyak.h:RegExp::optimize", "xbyak/xbyak.h:RegExp::verify", "xbyak/xbyak.h:operator+(RegExp,RegExp)"]}
{"id": "C25", "title": "nop(n) and align(n)", "statement": "nop(n) emits exactly n bytes which decode as a sequence of no-operation instructions each at most 9 bytes; align(x) for a power of two x emits the least number of bytes making the current address a multiple of x; a non power of two reports ERR_BAD_ALIGN.", "quantifier": "all n, all alignments, all start addresses", "why_tests_cant": "unbounded n and addresses", "anchors": ["xbyak/xbyak.h:CodeGenerator::nop", "xbyak/xbyak.h:CodeGenerator::align"]}
{"id": "C26", "title": "push/pop encode the intended operand", "statement": "push/pop of a register, memory operand or immediate decode to that operand with the stack operand size of the operand; push(imm) pushes imm sign-extended.", "quantifier": "all registers (incl. r16-r31), memory operands, 2^32 immediates", "why_tests_cant": "combinatorial", "anchors": ["xbyak/xbyak.h:CodeGenerator::opPushPop", "xbyak/xbyak.h:CodeGenerator::push", "xbyak/xbyak.h:CodeGenerator::pop"]}
{"id": "C27", "title": "Segment override prefixes", "statement": "putSeg(seg) emits the override prefix of the segment seg; push/pop(seg), mov(reg,seg), mov(seg,reg) decode to that segment register.", "quantifier": "all segment registers and operands", "why_tests_cant": "tests compare against recorded bytes; this states the ISA meaning", "anchors": ["xbyak/xbyak.h:CodeGenerator::putSeg", "xbyak/xbyak.h:CodeGenerator::push", "xbyak/xbyak.h:CodeGenerator::mov"]}
{"id": "C28", "title": "StackFrame obeys the ABI", "statement": "For every parameter/temporary register count, flag and local size accepted by StackFrame, the parameter and temporary registers are pairwise distinct and contain the arguments, never include rsp (nor rcx/rdx when reserved), and executing prologue, any body that respects rsp and the local area, and the epilogue restores all callee-saved registers and rsp and returns to the caller; the local area does not overlap the saved registers or the return address.", "quantifier": "all counts, flags, local sizes, all register and memory contents, both ABIs", "why_tests_cant": "unbounded local sizes and register contents; memory contents quantified", "anchors": ["xbyak/xbyak_util.h:StackFrame"]}
{"id": "C29", "title": "CPU feature queries", "statement": "has(t) is true exactly when all features of t were set; union/intersection of feature sets behave as sets; AVX/AVX2/FMA/F16C/AVX-512/AMX/APX features are reported only if the OS enabled the corresponding state.", "quantifier": "all cpuid/xgetbv answers", "why_tests_cant": "2^(32\u00b7n) cpuid answers", "anchors": ["xbyak/xbyak_util.h:Cpu", "xbyak/xbyak_util.h:Cpu::Type"]}
{"id": "C30", "title": "Error reporting without exceptions keeps the first error", "statement": "In XBYAK_NO_EXCEPTION mode GetError() returns the first error since ClearError(), and an operation that would throw in exception mode always leaves a non-zero error.", "quantifier": "all call sequences", "why_tests_cant": "all paths that continue after an error", "anchors": ["xbyak/xbyak.h:XBYAK_THROW", "xbyak/xbyak.h:local::SetError", "xbyak/xbyak.h:GetError", "xbyak/xbyak.h:ClearError"]}
{"id": "C31", "title": "A failing call does not damage finished code", "statement": "An API call that reports an error leaves all bytes emitted before it, all earlier label definitions and resolved references intact.", "quantifier": "all calls in all states", "why_tests_cant": "all failing paths", "anchors": ["xbyak/xbyak.h:CodeGenerator", "xbyak/xbyak.h:CodeArray", "xbyak/xbyak.h:LabelManager"]}
{"id": "C32", "title": "VEX/EVEX selection", "statement": "When an instruction exists in both encodings, the encoding chosen by the argument, else by setDefaultEncoding, is the one emitted; operands that require EVEX force it or an error is reported.", "quantifier": "all instructions with both encodings, all operands", "why_tests_cant": "combinatorial", "anchors": ["xbyak/xbyak.h:CodeGenerator::getEncoding", "xbyak/xbyak.h:CodeGenerator::orEvexIf", "xbyak/xbyak.h:CodeGenerator::setDefaultEncoding", "xbyak/xbyak.h:CodeGenerator::opEncoding"]}
{"id": "C33", "title": "Gather register rules", "statement": "Gather/scatter instructions are emitted only with distinct destination, mask and index registers and the element/vector lengths fixed by the architecture, and their VSIB index register is the written one.", "quantifier": "all register triples incl. 16..31", "why_tests_cant": "all triples", "anchors": ["xbyak/xbyak.h:CodeGenerator::opGather", "xbyak/xbyak.h:CodeGenerator::opGather2", "xbyak/xbyak.h:CodeGenerator::opGatherFetch"]}
{"id": "C34", "title": "Operand resizing", "statement": "changeBit/cvt8/16/32/64 return the register with the same architectural number at the given width or report an error; converting back returns the original.", "quantifier": "all registers and widths", "why_tests_cant": "registers \u00d7 widths; special byte registers", "anchors": ["xbyak/xbyak.h:Operand::setBit", "xbyak/xbyak.h:Reg::changeBit", "xbyak/xbyak.h:Reg::cvt8", "xbyak/xbyak.h:Reg::cvt64"]}
{"id": "C35", "title": "Pack is a bounded sequence", "statement": "Pack append/operator[]/sub behave as on a sequence of at most maxTblNum registers and report ERR_BAD_PARAMETER outside.", "quantifier": "all operation sequences and index pairs", "why_tests_cant": "unbounded sequences, size_t arithmetic in bounds checks", "anchors": ["xbyak/xbyak_util.h:Pack"]}
{"id": "C36", "title": "Page protection covers the code", "statement": "protect() on [addr,addr+size) affects a page-aligned range covering it and contained in the pages that it intersects; getAlignedAddress returns the least aligned address not below its argument.", "quantifier": "all addresses/sizes/alignments", "why_tests_cant": "64-bit arithmetic", "anchors": ["xbyak/xbyak.h:CodeArray::protect", "xbyak/xbyak.h:CodeArray::getAlignedAddress"]}
{"id": "C37", "title": "Allocator bookkeeping", "statement": "MmapAllocator::free unmaps exactly the region returned by the matching alloc, never another, and reports ERR_BAD_PARAMETER for unknown pointers; nullptr is ignored; live allocations stay disjoint if mmap answers are.", "quantifier": "all alloc/free interleavings", "why_tests_cant": "unbounded histories", "anchors": ["xbyak/xbyak.h:MmapAllocator"]}
{"id": "C38", "title": "Condition codes", "statement": "jcc/setcc/cmovcc/ccmpcc named by a condition encode the architecture's 4-bit condition code: aliases agree, and the negated condition differs exactly in bit 0.", "quantifier": "all conditions \u00d7 instruction families \u00d7 operands", "why_tests_cant": "table-wide property", "anchors": ["xbyak/xbyak_mnemonic.h"]}
{"id": "C39", "title": "No two instructions share an encoding", "statement": "Two mnemonics of the library that are not documented aliases never emit encodings that decode to the same instruction.", "quantifier": "all pairs of the ~1500 mnemonics, all operands", "why_tests_cant": "pairs \u00d7 operands", "anchors": ["xbyak/xbyak_mnemonic.h"]}
{"id": "C40", "title": "Instruction length and operand-size checks", "statement": "Every emitted instruction is at most 15 bytes; register operands of different sizes, or a memory operand of unknown size where the size matters, are rejected instead of guessed.", "quantifier": "all instructions and operands", "why_tests_cant": "all operand combinations", "anchors": ["xbyak/xbyak.h:CodeGenerator::opRO", "xbyak/xbyak.h:CodeGenerator::opRO_MR", "xbyak/xbyak.h:CodeGenerator::opRext", "xbyak/xbyak.h:CodeGenerator::verifyMemHasSize"]}
{"id": "C41", "title": "APX forms", "statement": "The APX instructions (new data destination, NF, ZU, ccmp/ctest default flags, cfcmov, REX2 registers r16-r31) decode to the written registers, flags and addresses.", "quantifier": "all registers and flags", "why_tests_cant": "combinatorial", "anchors": ["xbyak/xbyak.h:CodeGenerator::evexLeg", "xbyak/xbyak.h:CodeGenerator::opROO", "xbyak/xbyak.h:CodeGenerator::opCcmp", "xbyak/xbyak.h:CodeGenerator::opCfcmov"]}
{"id": "C42", "title": "Pseudo-operations, alternative names and omitted operands mean what their name says", "statement": "cmpXXps/pd/ss/sd, vcmpXX_yyps/pd/ss/sd (vector and opmask destination) and (v)pclmulXqYqdq emit the base instruction with the immediate whose architectural meaning (truth table for greater/less/equal/unordered, signaling; selected quadwords) is the one of the name; op(x, ...) with an omitted operand is op(x, x, ...); and/or/xor/not are and_/or_/xor_/not_.", "quantifier": "all 288 comparison names, 8 multiplication names, 256 methods with an omitted operand, all operands", "why_tests_cant": "hundreds of near-identical names, each right only if one constant is right", "anchors": ["xbyak/xbyak_mnemonic.h:CodeGenerator::vcmpneq_uspd", "xbyak/xbyak_mnemonic.h:CodeGenerator::cmpeqps", "xbyak/xbyak_mnemonic.h:CodeGenerator::vpclmulhqlqdq"]}
{"id": "C43", "title": "Instructions without operands, with an immediate only, and x87 instructions are the ones of their name", "statement": "Every method without operands emits the byte sequence of the instruction of that name; int/ret/retf/enter/xabort/xbegin/jmpabs encode their immediates; the x87 register forms encode the operation with the operands in the written order (or are rejected); the x87 memory forms select the opcode of the declared memory size.", "quantifier": "all 137 methods without operands, all immediates in range, all st(i)/st(j) pairs, all addresses", "why_tests_cant": "long tables of constants; wrong operand combinations", "anchors": ["xbyak/xbyak_mnemonic.h:CodeGenerator::fcomi", "xbyak/xbyak.h:CodeGenerator::opFpuFpu", "xbyak/xbyak.h:CodeGenerator::opFpuMem", "xbyak/xbyak_mnemonic.h:CodeGenerator::ret"]}
{"id": "C44", "title": "Instructions over several register files, with one memory operand or with implied operands are the ones of their name", "statement": "Each remaining legacy-encoded method (conversions and moves between general, mm and xmm registers, stores, insertions and extractions, prefetches and state saving, x87 memory operands, bound registers, far pointers, vector shifts by an immediate, SHA, key locker, bit tests with an immediate, port input and output, segment base and random number instructions) either raises an error or emits bytes that decode to the instruction of that name with exactly the given operands and immediate.", "quantifier": "all 166 methods, all register operands and addresses of the declared classes, all immediates", "why_tests_cant": "the same helper serves operands of different register files and widths; mixed-up prefixes only show for particular combinations of register file, width and declared memory size", "anchors": ["xbyak/xbyak.h:CodeGenerator::opSSE", "xbyak/xbyak.h:CodeGenerator::opLoadSeg", "xbyak/xbyak.h:CodeGenerator::opFpuMem", "xbyak/xbyak.h:CodeGenerator::opExt", "xbyak/xbyak_mnemonic.h:CodeGenerator::movq", "xbyak/xbyak_mnemonic.h:CodeGenerator::lfs"]}
{"id": "C45", "title": "Processor identification, topology, caches, Clock and Profiler", "statement": "displayFamily/displayModel are those of the CPUID documentation; getNumCores gives the threads per core and the cores of the package; getDataCacheLevels/Size/CoresSharing describe exactly the data and unified caches the processor lists, and other indices are reported as ERR_BAD_PARAMETER; no answer of the processor leads to undefined behaviour; Clock sums the measured intervals; Profiler writes one perf line per range.", "quantifier": "all 32-bit answers of cpuid", "why_tests_cant": "a test runs on one processor; the answers of other processors and hypervisors (zeroed leaves, other vendors, legacy enumeration) cannot be produced", "anchors": ["xbyak/xbyak_util.h:Cpu::setFamily", "xbyak/xbyak_util.h:Cpu::setNumCores", "xbyak/xbyak_util.h:Cpu::setCacheHierarchy", "xbyak/xbyak_util.h:Cpu::getNumCores", "xbyak/xbyak_util.h:Clock", "xbyak/xbyak_util.h:Profiler::set"]}
{"id": "C46", "title": "Register names, predefined objects and comparison of operands", "statement": "toString gives every register its architectural name, no two registers the same name, and reports operands that are not registers; the register and memory-size objects declared in CodeGenerator and namespace util (xbyak.h:2862-2909, 3348-3390) are those their identifiers name, and the constants of xbyak_bin2hex.h have the value they spell; operator== is an equivalence and operands that compare equal generate the same code.", "quantifier": "all registers of all files and widths, all operands, all declared objects", "why_tests_cant": "there are about 280 registers, 730 declared objects and an infinite number of memory operands; a test compares a few", "anchors": ["xbyak/xbyak.h:Operand::toString", "xbyak/xbyak.h:Operand::operator==", "xbyak/xbyak.h:Address::operator==", "xbyak/xbyak.h:RegExp::operator==", "xbyak/xbyak_bin2hex.h"]}
{"id": "C47", "title": "Operand modifiers and rip expressions", "statement": "Writing x | k | T_z | rounding | T_nf | T_zu gives the operand x with exactly the attributes asked for, in any order, and refuses a second mask or rounding; a mask on a memory operand leaves the address unchanged; rip + n - m + label (or + pointer) denotes the sum of the numbers relative to the one label or pointer, and a second label or pointer is refused.", "quantifier": "all registers, all lists of modifiers, all addresses, all rip expressions of any length", "why_tests_cant": "the number of modifier lists and of rip expressions is unbounded; a test writes a few fixed ones", "anchors": ["xbyak/xbyak.h:Operand::setOpmaskIdx", "xbyak/xbyak.h:Operand::setRounding", "xbyak/xbyak.h:Operand::setZero", "xbyak/xbyak.h:RegRip", "xbyak/xbyak.h:Address"]}
{"id": "C48", "title": "The encoder of the 32-bit build", "statement": "Compiled for 32-bit mode (no XBYAK64), every instruction method emits exactly the bytes that the 64-bit build emits for the corresponding operands (64-bit address registers, [disp32] as [rip + disp32]) and accepts the same calls; the instructions whose encoding differs (inc/dec/push/pop of registers, xchg eax, eax, mov between accumulator and displacement, umonitor, aaa ... pushad) have their 32-bit encoding; operands that do not exist in 32-bit mode are rejected.", "quantifier": "all 2226 methods of the table and the exceptions named, all registers 0..7, all 32-bit addresses, all immediates", "why_tests_cant": "the 32-bit build is a second program with about 100 conditional sections; tests of it compare a fixed list of operands with an external assembler", "anchors": ["xbyak/xbyak.h:CodeGenerator::rex", "xbyak/xbyak.h:CodeGenerator::setSIB", "xbyak/xbyak.h:CodeGenerator::opIncDec", "xbyak/xbyak.h:CodeGenerator::mov", "xbyak/xbyak.h:CodeGenerator::opPushPop", "xbyak/xbyak_mnemonic.h"]}
{"id": "C49", "title": "Meaning of the code of the 32-bit build", "statement": "What a method of the 32-bit build emits is, read by a processor in 32-bit mode, the instruction that the method is named after, with the operands that were given: no byte is taken for inc/dec, lds/les, bound or aad instead of a REX, VEX, EVEX or REX2 prefix, register fields hold the registers, the memory operand denotes the written expression modulo 2^32, and operand size and immediate are those of the instruction.", "quantifier": "2013 methods of the table that are no APX forms (same first bytes and operands in both modes); 1373 forms of instructions of the instruction tables; all registers 0..7, all 32-bit addresses, all immediates, all masks", "why_tests_cant": "each method has more than 10^12 combinations of registers, index, scale, displacement and mask; an encoding that is wrong for some of them in 32-bit mode only is not seen by tests of the 64-bit build", "anchors": ["xbyak/xbyak.h:CodeGenerator::rex", "xbyak/xbyak.h:CodeGenerator::vex", "xbyak/xbyak.h:CodeGenerator::evex", "xbyak/xbyak.h:CodeGenerator::setSIB", "xbyak/xbyak_mnemonic.h"]}
{"id": "C50", "title": "Registers and address expressions of the 32-bit build", "statement": "In the 32-bit build changeBit and cvtNN give the same register at the other width, refuse a low byte of esp..edi and refuse widths that 32-bit mode does not have; ptr[e] is accepted exactly if the registers are 32-bit or vector registers and the terms fit base + index * scale, and the resulting operand denotes the written sum modulo 2^32.", "quantifier": "all registers 0..7 of all widths, all expressions of any length and displacements", "why_tests_cant": "the set of expressions is infinite, and the tests of the 32-bit build contain a handful of addresses", "anchors": ["xbyak/xbyak.h:Operand::setBit", "xbyak/xbyak.h:Reg::cvt8", "xbyak/xbyak.h:RegExp", "xbyak/xbyak.h:operator+"]}
{"id": "C51", "title": "Integer instructions do what their mnemonic says", "statement": "When the bytes that test, inc, dec, neg, not, shl, shr, sar, lea, movzx, movsx, movsxd, setcc, cmovcc, imul (two and three operands), xchg and bswap emit are fetched and executed by an x86-64 machine, the registers, memory and status flags change as the mnemonic with the given operands prescribes, and exactly the emitted bytes are consumed.", "quantifier": "all general registers and addresses of the declared classes, all immediates, all machine states, all condition suffixes", "why_tests_cant": "2^32 immediates, unbounded machine states, and short forms (accumulator forms, 90+r, 6B, D1) whose side conditions only matter for single operand values", "anchors": ["xbyak/xbyak.h:CodeGenerator::test", "xbyak/xbyak.h:CodeGenerator::imul", "xbyak/xbyak.h:CodeGenerator::xchg", "xbyak/xbyak.h:CodeGenerator::opShift", "xbyak/xbyak_mnemonic.h:CodeGenerator::lea", "xbyak/xbyak_mnemonic.h:CodeGenerator::movzx"]}
{"id": "C52", "title": "Finished code executes as the program written", "statement": "A program of integer instructions, jumps, conditional jumps, calls, returns, indirect jumps and calls, references to labels (mov(reg, label), lea and mov with [rip + label + n]), labels (strings, @@, local scopes, Label objects) and data (db, putL) that is built without an error and finished, and whose code lies in the memory of an x86-64 processor, is executed statement by statement as written: every step of the program is one processor step from the address of the statement to the address of the next statement or of the statement that defines the label, with the registers, memory and flags of the mnemonic; references and putL data hold the address of the statement that defines the label; conversely the processor does nothing else if hasUndefinedLabel() is false; entering at getCode() starts the first statement.", "quantifier": "all programs of any length over the instructions of C22, C23, C26 and C51, all buffer kinds, sizes and allocator answers, all machine states, runs of any length that do not overwrite the code", "why_tests_cant": "unboundedly many programs, label orders, buffer addresses and input states; the interaction of short/near displacement choice, AutoGrow relocation, label scopes and instruction lengths only shows for particular combinations", "anchors": ["xbyak/xbyak.h:CodeGenerator::opJmp", "xbyak/xbyak.h:CodeGenerator::L", "xbyak/xbyak.h:LabelManager::defineClabel", "xbyak/xbyak.h:CodeArray::ready", "xbyak/xbyak.h:CodeGenerator::call", "xbyak/xbyak_mnemonic.h:CodeGenerator::jnz", "xbyak/xbyak_mnemonic.h:CodeGenerator::ret", "xbyak/xbyak.h:CodeGenerator::putL", "xbyak/xbyak.h:CodeGenerator::opJmpOp", "xbyak/xbyak.h:CodeGenerator::mov"]}
{"id": "C53", "title": "Indirect and far branches", "statement": "jmp and call with a register or memory operand go to the 64-bit address in the register or in memory at the address written, and call pushes the address behind its bytes; every operand of the width that the instruction has is accepted, operands of other widths are refused; with T_FAR the bytes are FF /5 and FF /3 with the declared size of the far pointer, and other operands are refused.", "quantifier": "all general registers r0..r31, all addresses, all label types, all machine states and positions", "why_tests_cant": "the sample tests use ptr[...] and 64-bit registers; which declared sizes are refused depends on a size that opRext changes before the check in opMR", "anchors": ["xbyak/xbyak.h:CodeGenerator::opJmpOp", "xbyak/xbyak.h:CodeGenerator::opRext", "xbyak/xbyak.h:CodeGenerator::opMR", "xbyak/xbyak.h:CodeGenerator::jmp", "xbyak/xbyak.h:CodeGenerator::call"]}
{"id": "C54", "title": "Vector instructions execute as written", "statement": "The bytes emitted by a VEX or EVEX method, executed by a processor, perform the operation of the method's name on the lanes of the operands as written: each lane of the destination that the opmask selects is the operation on the same lanes of the sources (registers, memory at the written address, or one broadcast element) with the written rounding and immediate, the others are zero ({z}) or unchanged, lanes above the vector length are zero, nothing else changes, and execution continues behind the bytes. Vector calls are statements of the programs of C52; a vector loop returns the column sums of any table.", "quantifier": "427 instructions (arithmetic, logic, compares into masks, FMA, conversions of one width, moves, masked stores, extensions, broadcasts, permutes, shuffles), all registers 0..31, masks, addresses, immediates, machine states, and all floating-point semantics (an uninterpreted function)", "why_tests_cant": "the tests of xbyak compare bytes with an assembler for a list of operands; what the bytes do with masked lanes, broadcasts and compressed displacements depends on the contents of registers and memory", "anchors": ["xbyak/xbyak.h:CodeGenerator::vex", "xbyak/xbyak.h:CodeGenerator::evex", "xbyak/xbyak.h:CodeGenerator::opAVX_X_X_XM", "xbyak/xbyak.h:CodeGenerator::opVex", "xbyak/xbyak_mnemonic.h:CodeGenerator::vpaddd", "xbyak/xbyak_mnemonic.h:CodeGenerator::vaddps"]}
{"id": "C55", "title": "SSE instructions execute as written", "statement": "The bytes emitted by an SSE method, executed by a processor, perform the operation of the method's name on the 128-bit operands as written: each lane of the destination is the operation on the same lanes of destination and source (register, or memory at the written address) with the written immediate, the bits of the register from 128 up keep their values, nothing else changes, and execution continues behind the bytes. SSE calls are statements of the programs of C52; a loop over two float arrays writes exactly their sums.", "quantifier": "150 instructions (packed and scalar arithmetic, logic, compares, conversions, moves, stores, extensions, unpacks, shuffles), registers 0..15, addresses, immediates, machine states, array lengths, and all floating-point semantics (an uninterpreted function)", "why_tests_cant": "the tests of xbyak compare bytes with an assembler for a list of operands; what the bytes do with the lanes, the upper half of the register and memory depends on machine state", "anchors": ["xbyak/xbyak.h:CodeGenerator::opSSE", "xbyak/xbyak.h:CodeGenerator::opMMX", "xbyak/xbyak.h:CodeGenerator::opMovXMM", "xbyak/xbyak_mnemonic.h:CodeGenerator::addps", "xbyak/xbyak_mnemonic.h:CodeGenerator::movups", "xbyak/xbyak_mnemonic.h:CodeGenerator::pshufd"]}
{"id": "C56", "title": "Methods accept what their instructions have", "statement": "A method called with operands that its instruction has - every operand size, register file and memory operand of the rows of the instruction tables; for VEX and EVEX every vector length, registers 16..31, memory, broadcast, embedded rounding and {sae} - emits an instruction instead of raising an error (with C18, C20 and C44: the right one). The sweep over the tables exhibits the forms xbyak rejects although the instruction has them.", "quantifier": "508 legacy methods with all operand forms and register numbers 0..15, 985 vector methods with all vector lengths and operand kinds; 322 APX methods with the registers 16..31; 1356 methods of the 32-bit build", "why_tests_cant": "tests check the operand combinations somebody thought of; a combination wrongly rejected is noticed only if it is listed", "anchors": ["xbyak/xbyak.h:CodeGenerator::opAVX_X_X_XM", "xbyak/xbyak.h:CodeGenerator::opVex", "xbyak/xbyak.h:CodeGenerator::verifySAE", "xbyak/xbyak.h:CodeGenerator::opSSE", "xbyak/xbyak_mnemonic.h:CodeGenerator::vsm4key4", "xbyak/xbyak_mnemonic.h:CodeGenerator::valignd", "xbyak/xbyak_mnemonic.h:CodeGenerator::vfixupimmss", "xbyak/xbyak_mnemonic.h:CodeGenerator::vcvttps2ibs"]}
{"id": "C57", "title": "Methods reject what their instructions do not have", "statement": "A method called with operands that the C++ types of its parameters admit but that its instruction does not have - a register of another file or size, a memory operand of another size, vector registers of different lengths - raises an error. Proved as an exact characterisation: apart from the operands of the instruction tables, a legacy method accepts precisely the listed calls, and these are shown to emit another instruction.", "quantifier": "508 legacy methods times all operand kinds and sizes of the parameter types (76965 calls, two register windows); 784 vector methods with an Operand parameter, 501 with two vector registers", "why_tests_cant": "tests pass valid operands; the number of invalid combinations is far too large to list, and a wrongly accepted one produces valid code for something else", "anchors": ["xbyak/xbyak.h:CodeGenerator::opRO", "xbyak/xbyak.h:CodeGenerator::opMR", "xbyak/xbyak.h:CodeGenerator::opSSE", "xbyak/xbyak.h:CodeGenerator::opMMX", "xbyak/xbyak.h:CodeGenerator::opRext", "xbyak/xbyak.h:CodeGenerator::opSetCC", "xbyak/xbyak.h:CodeGenerator::opAVX_X_X_XM", "xbyak/xbyak_mnemonic.h:CodeGenerator::cmova", "xbyak/xbyak_mnemonic.h:CodeGenerator::rdrand", "xbyak/xbyak_mnemonic.h:CodeGenerator::movd"]}
{"id": "C58", "title": "A compiler written with xbyak generates correct code", "statement": "The calls that sample/bf.cpp makes for a Brainfuck text produce machine code that does what the text means: executed from its first byte with any C library that follows the ABI, it reads the same input, writes the same output and leaves the same cells as the Brainfuck program; if the program ends, the code returns to its caller with the callee-saved registers and the stack restored; and it has no other run.", "quantifier": "all texts with matching brackets, all buffers (fixed, user, AutoGrow), all tapes up to 2^31 bytes, all inputs, all libraries that conform to the ABI", "why_tests_cant": "a test runs a few Brainfuck programs; the theorem covers nested loops of any depth and size, short and long jumps, run lengths beyond a byte, and any library", "anchors": ["sample/bf.cpp:Brainfuck::Brainfuck", "sample/bf.cpp:Brainfuck::getContinuousChar", "xbyak/xbyak.h:CodeGenerator::opJmp", "xbyak/xbyak.h:LabelManager::defineClabel", "xbyak/xbyak_mnemonic.h:CodeGenerator::movzx"]}
{"id": "C59", "title": "The calculator compiles expressions correctly", "statement": "The function that sample/calc.cpp generates for an arithmetic expression returns the value of the expression in xmm0, whatever the floating-point operations compute and whatever the values of the variables; it changes neither memory nor any general register but rsi and rsp. Exactly the expressions that need at most 8 registers, have at most 32 numbers and only known variables are compiled.", "quantifier": "all expressions, lists of variables, values, buffers (fixed, user, AutoGrow), addresses of the constant table", "why_tests_cant": "a test evaluates a few expressions on a few values; register allocation, constant table offsets and operand order for arbitrary trees are covered by induction only", "anchors": ["sample/calc.cpp:FuncGen::FuncGen", "sample/calc.cpp:FuncGen::genPush", "sample/calc.cpp:FuncGen::genVal", "sample/calc.cpp:FuncGen::genAdd", "sample/calc.cpp:FuncGen::complete", "xbyak/xbyak_mnemonic.h:CodeGenerator::movsd"]}
{"id": "C60", "title": "Divisions by constants are right for every dividend", "statement": "For a constant divisor d with 0 < d < 2^30, or even and below 2^31, Quantize::udiv of sample/quantize.cpp chooses a multiplier, an addend and a shift such that the generated instructions compute x / d for every 32-bit x; for every other d it does not return or shifts out of range. The function that class Quantize generates sets dest[k] to src[k] / qTbl[k], returns to its caller, and changes no other memory than dest and its own stack words and no other registers than eax, edx and esp.", "quantifier": "all 32-bit dividends, divisors, tables of any length, stack and table addresses", "why_tests_cant": "2^32 dividends times 2^32 divisors; wrong multipliers show only for a few large dividends", "anchors": ["sample/quantize.cpp:Quantize::ilog2", "sample/quantize.cpp:Quantize::udiv", "sample/quantize.cpp:Quantize::Quantize"]}
{"id": "C61", "title": "The functions of the first sample do what they are for", "statement": "The function that class Sample of sample/test0.cpp generates (System V branch), called with a 32-bit n other than 2^32-1, returns n(n+1)/2 modulo 2^32 in eax, writes no memory and returns to its caller; called with 2^32-1 it enters its loop and never leaves it. AddFunc(y) returns its argument plus y; JmpAtoi and CallAtoi go to the given function with the arguments unchanged, CallAtoi returns when that function has returned; Reset::init(n) builds a function that returns max(0, 10 - n) n(n+1)/2.", "quantifier": "all n, buffers (fixed, user, AutoGrow), stack contents and register values", "why_tests_cant": "the sample tests n = 0..10; the endless loop needs n = 2^32-1 and is not observable by a terminating test", "anchors": ["sample/test0.cpp:Sample::Sample", "xbyak/xbyak.h:CodeGenerator::inLocalLabel", "xbyak/xbyak_mnemonic.h:CodeGenerator::jbe", "sample/test0.cpp:AddFunc::AddFunc", "sample/test0.cpp:CallAtoi::CallAtoi", "sample/test0.cpp:JmpAtoi::JmpAtoi", "sample/test0.cpp:Reset::init"]}
