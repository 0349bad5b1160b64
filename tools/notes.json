{
 "C01": {
  "note": "Any state reached by a history of calls: bytes are appended exactly or ERR_CODE_IS_TOO_BIG; no byte outside the buffer changes; UB (a write outside) never occurs. Histories are those of SpecLabel.v (its OUT cases are listed in DESIGN.md).",
  "status": "proved"
 },
 "C02": {
  "note": "C02_growth_invisible: the finished code of any two generators (any buffer kinds) running the same program is the same up to the address-dependent fields. Programs are 'portable': no instruction form chosen from top_ or the buffer kind (M_ripAddr, align) and jumps to absolute addresses with T_NEAR.",
  "status": "proved"
 },
 "C03": {
  "note": "",
  "status": "proved"
 },
 "C04": {
  "note": "Any history without reset() between the reference and its use; code below 2 GiB.",
  "status": "proved"
 },
 "C05": {
  "note": "Label fields emitted by any encoder, by histories in which no code is added after ready(). C05_after_ready_refuted: in AutoGrow mode a reference emitted after ready() is never filled in, even by a second ready().",
  "status": "partial"
 },
 "C06": {
  "note": "Every method with a memory-capable parameter, in each such position (2312 entries of RipTables.v), with arbitrary other operands: the displacement leads from the end of the instruction to label + n or to the address; C06_label_operand_lands follows the reference to the finished code. Refuted for the shifts by an immediate with a new data destination and for rorx with r16-r31: the immediate byte is not taken into account, the operand is one byte too far.",
  "status": "partial"
 },
 "C07": {
  "note": "Outcome up to buffer errors (buffer full, allocation failure).",
  "status": "proved"
 },
 "C08": {
  "note": "",
  "status": "proved"
 },
 "C09": {
  "note": "Exact for histories in which no L() failed because a pending short jump was out of range; C09_failed_definition_refuted shows that case.",
  "status": "partial"
 },
 "C10": {
  "note": "",
  "status": "proved"
 },
 "C11": {
  "note": "Resolution itself is C04 with the scoped identity of C11_name_in_scope.",
  "status": "proved"
 },
 "C12": {
  "note": "Covers assignL when dst has been referenced before (fixed buffers: by relative fields only). The other cases violate the property in the model. See the C12_*_refuted theorems.",
  "status": "partial"
 },
 "C13": {
  "note": "Copies made after L(). Copies made before L() violate the property in the model. See C13_copy_before_definition_refuted.",
  "status": "partial"
 },
 "C14": {
  "note": "Histories of SpecLabel.v. C14_dangling_label_refuted (use of a destroyed Label after assignL) and C14_stale_id_refuted (a label only jumped to before reset() keeps its id) show the excluded cases. reset() does not restore setDefaultJmpNEAR and the encoding preferences (nor does the source).",
  "status": "partial"
 },
 "C15": {
  "note": "",
  "status": "proved"
 },
 "C16": {
  "note": "In a fixed buffer a distance in the 6 lowest values of the 32-bit range wraps. C16_wrap_refuted.",
  "status": "partial"
 },
 "C17": {
  "note": "Memory operands at the helper level (opMR) and for every row of legacy_table/gpr_table (C20) and of the tables of C44; excluded: operands of the wrong size (C40).",
  "status": "partial"
 },
 "C18": {
  "note": "All VEX/EVEX methods of xbyak_mnemonic.h (970 signatures) against the instruction table IsaRows.v; 20 methods that violate it for some operands implement it for all others (C18_*_partial, C19_*_partial in PropVexMore.v); vmovq/vpextrw with two rows; opmask moves and tiles (operands without modifiers, 64-bit addresses). C18_*_refuted show the violations and the operand combinations excluded by the hypotheses. The table is written from the SDM without access to it. vscalefpbf16(x, op) is the only method without a row (no such instruction). C18_narrowing and C18_widening: the exact register sizes accepted by 38 narrowing and 20 widening methods; C18_widened_destination_refuted: combinations no processor has are accepted.",
  "status": "partial"
 },
 "C19": {
  "note": "C18_instruction_table covers the EVEX forms too; C19_instruction_table_partial is for 53 methods that accept a rounding modifier their instruction lacks (C19_rounding_accepted_refuted). C19_*_refuted: wrong disp8 factors, EVEX forms and broadcasts that do not exist; C19_evex_memory/vex_only/no_broadcast_partial: those methods are right otherwise.",
  "status": "partial"
 },
 "C20": {
  "note": "Every method of legacy_table and gpr_table (SSE/MMX/general-register methods) emits an instruction of its row; methods with mixed register kinds are in C44, fixed byte sequences and x87 in C43. High-byte registers together with REX-requiring operands are excluded (C21).",
  "status": "partial"
 },
 "C21": {
  "note": "Register operands of every method of legacy_table and gpr_table: when the call succeeds and a byte register operand is ah..bh, the executed instruction names that register (C21_high_registers_partial), and pairs of byte registers that cannot be encoded are rejected (C21_byte_pairs). Refuted for memory operands based on r8 and above and for movzx/movsx/crc32/cmpxchg-style forms with a REX prefix: ah..bh silently become spl..dil. Not covered: APX forms and methods outside the two tables.",
  "status": "partial"
 },
 "C22": {
  "note": "All immediates and general registers, also memory operands and register/memory moves; the emitted bytes are executed by the machine of SpecExec. Lengths of the 64-bit form are the shortest of the three forms.",
  "status": "proved"
 },
 "C23": {
  "note": "All eight operations, all immediates, all operand sizes: executed by SpecExec; the one-byte form is used exactly when the immediate fits and the operand is wider than a byte.",
  "status": "proved"
 },
 "C24": {
  "note": "Exact acceptance and exact value for every expression over general, vector and address register objects; end to end decode for the legacy encodings (C18/C19 give it for VEX/EVEX). Refuted: a tile register is accepted as an index and encodes the general register of the same number.",
  "status": "proved"
 },
 "C25": {
  "note": "All n and alignments; every byte sequence is decoded by SpecX86. The alignment is also shown to survive growth of an AutoGrow buffer.",
  "status": "proved"
 },
 "C26": {
  "note": "Proved for memory, 64-bit registers, registers below 16 and all immediates; refuted for the 8/16/32-bit registers 16-31, which are encoded as the 64-bit register.",
  "status": "partial"
 },
 "C27": {
  "note": "fs and gs overrides on any following instruction, push/pop fs/gs, mov from/to all segment registers; lss/lfs/lgs are in C44. Refuted: putSeg of es, cs, ss, ds emits the prefix of another segment; push/pop of es, cs, ss, ds emit opcodes invalid in 64-bit mode.",
  "status": "partial"
 },
 "C28": {
  "note": "Prologue and epilogue bytes are executed by a small machine (push, pop, add/sub rsp, mov, ret) for both calling conventions, every register count, flag and local size. Premise: the stack region does not wrap around the address space. Refuted: local sizes within 15 bytes of INT_MAX overflow.",
  "status": "proved"
 },
 "C29": {
  "note": "Exact cpuid/xgetbv condition of every feature; AVX/FMA/AVX2/AVX-512 gated on OS state. Refuted: F16C, VAES, VPCLMULQDQ, SHA512, SM3/4, AVX_VNNI*, AVX_IFMA, AVX_NE_CONVERT, AVX10, AMX_*, APX_F are reported without OS state; AVX-512 read from leaf 7 without checking that it exists; AMD extended leaf used unchecked; KEYLOCKER_WIDE set by any of three flags; AVX10 version masked to 7 bits.",
  "status": "partial"
 },
 "C30": {
  "note": "The no-exception build: same code while no error occurs, every error of the exception build is recorded unless the call runs into UB, the first error is kept, nothing is thrown. The two C30_*_refuted theorems show writes outside the buffer after an error. Encoders of NoExcEnc.v.",
  "status": "partial"
 },
 "C31": {
  "note": "",
  "status": "proved"
 },
 "C32": {
  "note": "All 18 methods with an encoding parameter, any operands. Of the others, every method whose instruction has a VEX form (436 table entries) emits VEX unless an operand, the vector length or a memory shift count needs EVEX (C32_evex_only_for_a_reason). Refuted: vpmadd52luq/vpmadd52huq have VEX forms that are never used.",
  "status": "partial"
 },
 "C33": {
  "note": "All gathers, scatters and prefetches. Excluded and refuted: AVX2 gathers with index 16..31 or zmm data, prefetch without mask.",
  "status": "partial"
 },
 "C34": {
  "note": "All general and vector registers and all widths. Refuted: the other register files (mmx, mask, x87, bound, tile) are accepted by cvtNN/changeBit (C34_other_files_refuted); cvt128 .. cvt512 drop the mask that changeBit keeps (C34_cvt_mask_refuted).",
  "status": "partial"
 },
 "C35": {
  "note": "All histories with in-range arguments. Refuted: sub(pos) with pos past the end passes the bounds check by wrap-around and runs out of the array (C35_sub_past_end_refuted).",
  "status": "partial"
 },
 "C36": {
  "note": "protect: for size > 0 and addr+size < 2^64; getAlignedAddress: when addr+x does not pass 2^64 (otherwise it wraps to null: C36_aligned_address_wrap_refuted).",
  "status": "proved"
 },
 "C37": {
  "note": "Default MmapAllocator (no XBYAK_USE_MEMFD/MAP_JIT); all histories of alloc and free, mmap answers as oracle with the promise os_ok.",
  "status": "proved"
 },
 "C38": {
  "note": "30 suffixes x jcc (label and address), setcc, cmovcc and their APX forms, 16 suffixes x cfcmov and cmpccxadd (extended registers), 28 suffixes x ccmp/ctest: the emitted code is the one whose hardware test equals the meaning of the suffix; aliases agree, negation flips bit 0 only; the suffixes mean the signed/unsigned relations after cmp. jcxz/jecxz/jrcxz/loop/loope/loopne: bytes and distance.",
  "status": "proved"
 },
 "C39": {
  "note": "C39_all_instructions: all pairs of methods of the VEX/EVEX, legacy, mixed, APX, opmask/tile, x87 and fixed-byte tables and the branch opcodes (3944 patterns), any accepted operands of the documented kinds, any bytes after the instruction; up to a list of alternative names. C39_*_refuted: vpermq(ymm, ymm, op) emits vpermd, two-operand vmovhps(xmm, xmm) emits vmovlhps. Not in the tables: the 20 VEX/EVEX methods with a known defect, vmovq/vpextrw, umonitor/tpause/umwait, jmpabs, nop.",
  "status": "partial"
 },
 "C40": {
  "note": "Length: every method of the model (2520 entries, arbitrary arguments) emits at most 15 bytes; jumps, nop(n) and align are outside the table. Sizes: proved for add..xor, mov, test, xadd, cmpxchg, bt.., bsf, bsr, popcnt, lzcnt, tzcnt, imul, cmovcc, shld, shrd without APX forms, and for the three-register BMI forms; memory without a size is rejected by the immediate forms, inc and dec. Refuted: xchg with the accumulator, mov with a 64-bit address and the APX forms accept operands of different sizes; mul, div, neg, not, shifts by cl, bt with an immediate, movzx, movsx accept memory without a size.",
  "status": "partial"
 },
 "C41": {
  "note": "322 methods (all three-operand, NF, ZU, ccmp/ctest, cfcmov, setcc and BMI forms) for operands of one size with 64-bit addresses: every accepted call emits the APX instruction of its row. REX and REX2 forms refuse T_nf and T_zu. C41_*_refuted: blsi/blsmsk/blsr and andn drop T_nf, mul drops T_zu, 32-bit addresses lose their prefix, mixed sizes, ah..bh and byte cmov are accepted. AMX and kmov with r16..r31 are in C18_opmask_moves and C18_tile_moves, the SHA, key locker and ENCODEKEY forms with r16..r31 in C41_sha_and_key_locker, C41_wide_key_locker, C41_encodekey.",
  "status": "partial"
 },
 "C42": {
  "note": "All 288 comparison pseudo-operations carry the predicate of their name (SpecAlias.v: SDM table of 32 predicates, meaning of the name), and what they emit is CMPcc/VCMPcc with that immediate; pclmul quadword names; all 256 omitted-operand methods; and/or/xor/not.",
  "status": "proved"
 },
 "C43": {
  "note": "137 methods without operands, immediates, x87 register and memory forms; refuted: fcomi(st1, st0) and 11 others emit an ADD instead of an error, ret(65536) is truncated",
  "status": "partial"
 },
 "C44": {
  "note": "166 methods proved against rows of the SDM; excluded argument classes (memory declared with a size that adds or drops a prefix, registers wider than the parameter's file, far-pointer loads with a sized or r16-r31 operand, encodekey with r8-r31) are either refuted by witnesses or stated as hypotheses.",
  "status": "partial"
 },
 "C45": {
  "note": "All cpuid answers with the documented structure (leaf 0Bh; list of caches ending with type 0); sizes modulo 2^32. Refuted: getNumCores(CoreLevel) divides by zero on other vendors and with some legacy counts, the AMD legacy count divides by zero in the constructor, an L3 size of 2 GiB or more overflows int.",
  "status": "partial"
 },
 "C46": {
  "note": "names, distinctness, declared objects and the equivalence are proved for all registers and operands; == is identity only for operands without NF/ZU and without mask, zeroing or rounding on memory (refuted theorems), util::tmm0..7 are Zmm objects (refuted)",
  "status": "partial"
 },
 "C47": {
  "note": "modifiers of registers and memory operands and rip expressions, for lists of any length; RegRip arithmetic on int64_t is taken to wrap around",
  "status": "proved"
 },
 "C48": {
  "note": "2226 methods and the named exceptions proved, 382 of them for operands whose sizes fit (the 32-bit build does not check the size of memory against an MMX register); mov reg, label and jumps to labels are not compared; the rejection part is refuted (qword memory, mov ax,dword[disp], APX forms, Xmm(8), Reg32(8), inc with two operands)",
  "status": "partial"
 },
 "C49": {
  "note": "2013 methods: same instruction in both modes; 1373 instruction forms decoded by the 32-bit decoder; excluded: rounding modifiers, APX forms, 64-bit memory operands of 75 methods (refuted in C48), addresses of a displacement only in the instruction table part",
  "status": "proved"
 },
 "C50": {
  "note": "acceptance, value and conversions proved; refuted: changeBit(64) is accepted in the 32-bit build, registers 8..15 are converted",
  "status": "partial"
 },
 "C51": {
  "note": "All listed instructions executed by SpecExec for all operands, immediates and states; registers r16-r31 are left out for inc, dec, not, neg, shifts, setcc and imul (the APX forms of these methods are separate).",
  "status": "partial"
 },
 "C52": {
  "note": "Steps, runs and the converse for programs of the instructions of C22, C23, C26, C51 and the vector and SSE instructions of C54 and C55 with jumps, calls, returns, labels, label references, jump tables and data. Of the instructions with [rip + label] lea and the two register moves are included; self-modifying code is outside. Allocator below 2^48 bytes, fewer than 2^31 labels.",
  "status": "proved"
 },
 "C53": {
  "note": "jmp/call through registers and memory and far branches proved; refuted: qword memory operands are always refused, dword/byte memory and 32-bit registers are accepted",
  "status": "partial"
 },
 "C54": {
  "note": "427 instructions of the tables of C18 and C19 (general registers as operands excluded); floating-point results are an uninterpreted function of operation, width, rounding and operands; MXCSR, faults and alignment checks are outside",
  "status": "proved"
 },
 "C55": {
  "note": "150 SSE instructions: execution for every operand the methods accept without vector modifiers and mm registers; registers 16-31 are APX/EVEX territory and excluded by the operand classes. No alignment faults in the machine.",
  "status": "proved"
 },
 "C56": {
  "note": "Legacy methods: all forms for register numbers 0..15; APX: all forms for registers 16..31; 32-bit build: all forms for registers 0..7. Vector methods: all lengths and operand kinds for two register windows each (one in the 32-bit build, without rounding), on the initial generator with one immediate. Left out because xbyak rejects them (refuted for all operands): vsm4key4/vsm4rnds4 ymm/zmm, valignd/valignq broadcast, vfixupimmss/sd {sae}, vcvttps2ibs, vcvttps2iubs, vcvttph2ibs, vcvttph2iubs {sae}.",
  "status": "partial"
 },
 "C57": {
  "note": "Exact for 508 legacy methods over operands of every kind and size (registers 0, 1, 2, 12, initial generator, immediate 1); the calls accepted wrongly are listed (Reject.also). Vector methods: lengths of the first two registers are checked (proved); the file of the last register is not (refuted for 646 methods); its length is the subject of C18.",
  "status": "partial"
 },
 "C58": {
  "note": "System V branch of sample/bf.cpp; matching brackets; tape up to 2^31 bytes. The run is a sequence of instructions of the processor of C52 and of library calls that follow the ABI. C58_unmatched_refuted: an unmatched [ is not reported, an unmatched ] is undefined behaviour",
  "status": "proved"
 },
 "C59": {
  "note": "System V branch of sample/calc.cpp; the boost grammar is represented by the order of its semantic actions; what the floating-point operations compute is arbitrary. C59_deep_refuted: too deep expressions end in std::terminate",
  "status": "proved"
 },
 "C60": {
  "note": "tables of at most 64 divisors (N of the sample); the 32-bit machine and decoder (SpecDiv, SpecDivDec) cover the instruction forms used. Refuted: d = 0 and d >= 2^31 never return, odd d >= 2^30 shift out of range",
  "status": "proved"
 },
 "C61": {
  "note": "the System V branches (XBYAK64_GCC) of sample/test0.cpp; atoi is an address; n of Reset::init is an integer (the int overflow of 10 - n is not modelled)",
  "status": "proved"
 }
}