# Design of the formal model of herumi/xbyak

Configuration modelled: `XBYAK64`, non-ILP32, Linux/GCC, `NDEBUG` (asserts are not checks), exceptions by default;
`XBYAK_NO_EXCEPTION` is modelled by a flag that changes the meaning of `XBYAK_THROW`.

## Layers

1. `Base`: machine-integer helpers on `Z` with explicit wrapping.
2. `Types`: Operand / Reg / RegExp / Address (C++ class fields as records; bit masks kept as integers).
3. `Emit`: the encoder monad `E`: environment (mode flags, buffer top) and position in, list of emission items
   (byte, label field, error report) and result out.
4. `Encode`: rex, rex2, vex, evex, evexLeg, setSIB, opAddr, op* helpers, function by function.
5. `Code`, `Label`, `Gen`: CodeArray, LabelManager, CodeGenerator state machines; memory as offset->byte, UB explicit.
6. `Mnemonic*`: generated mechanically from xbyak_mnemonic.h.
7. `Util*`: StackFrame, Pack, Cpu, MmapAllocator.
8. `Spec*`: independent specifications (x86 decoder, effective address, ABI, label semantics).
9. `Prop*`: the property theorems only, each `exact lemma` and followed by `Print Assumptions`.

## Plan per property

- **C01 Fixed buffer: emission appends and never leaves the buffer** - CodeArray state machine (buffer as offset->byte map, out-of-range access is outcome UB); invariant by induction over emission lists.
- **C02 AutoGrow: growth is invisible in the finished code** - allocator answers are universally quantified; simulation between two runs with different capacities/addresses.
- **C03 Multi-byte data is emitted little-endian and reads back** - little-endian encode/decode round trip, frame lemma for rewrite.
- **C04 Every resolved relative label reference lands on the label** - history machine over the full generator state with a ghost log of references; invariant: each reference is pending or its field holds target-end.
- **C05 Absolute label references hold the label's final address** - same invariant, absolute references; AutoGrow part through the saved patch list and ready().
- **C06 rip-relative label operands reach label + addend** - E-level theorem (addend minus immediate size) composed with C04's invariant; per encoder path.
- **C07 Short and near branch selection** - direct arithmetic characterisation of makeJmp/opJmp for all distances.
- **C08 A label is defined at most once** - frame/invariant theorems over label operations.
- **C09 hasUndefinedLabel is exact and ready() refuses incomplete code** - ghost log exactness: pending list = references to undefined labels.
- **C10 Anonymous labels: @b is the last @@, @f is the next @@** - refinement to a counter-based abstract semantics of @@.
- **C11 Local labels are scoped by inLocalLabel/outLocalLabel** - refinement to scope-indexed names.
- **C12 assignL(dst, src) makes dst an alias of src** - lemma on assign + counterexamples.
- **C13 Copies of a Label denote the same label and its definition lives as long as a copy** - reference count model of Label objects; invariant under the documented discipline; counterexample outside.
- **C14 reset() and destruction of the generator detach labels** - theorem on reset; counterexample for labels only jumped to.
- **C15 Label::getAddress tells the truth** - characterisation of getAddress over reachable states.
- **C16 Jumps and calls to absolute addresses reach them** - arithmetic theorem for opJmpAbs, both modes; counterexample at the int32 boundary.
- **C17 Legacy/REX/REX2 memory operands denote the written address** - independent decoder of the ISA memory operand; round trip for opAddr/setSIB/rex; effective addresses over all register files.
- **C18 VEX memory operands denote the written address and registers** - decoder for VEX; round trip for opVex. PropVecSize.v: exactly which register sizes the 58 narrowing and widening conversions and moves take.
- **C19 EVEX operands incl. compressed displacement denote what was written** - decoder for EVEX; round trip for opVex/evex incl. disp8*N.
- **C20 Register operands round-trip** - decoder round trip for opRR.
- **C21 High-byte registers are never silently turned into others** - decoder round trip of byte registers + counterexamples.
- **C22 mov(reg, imm) loads exactly the given value** - semantics of the three mov-immediate forms.
- **C23 ALU immediates have the written value** - immediate semantics of opOI.
- **C24 Address expressions mean what arithmetic says** - denotation of RegExp over register files; homomorphism theorems.
- **C25 nop(n) and align(n)** - nop decoding by the ISA decoder; arithmetic of align.
- **C26 push/pop encode the intended operand** - decoder for push/pop.
- **C27 Segment override prefixes** - segment prefix table of the ISA; counterexample for putSeg.
- **C28 StackFrame obeys the ABI** - small-step machine for the prologue/epilogue instructions; all counts by case split, local size symbolic.
- **C29 CPU feature queries** - set semantics of Cpu::Type; detection as a function of the cpuid oracle.
- **C30 Error reporting without exceptions keeps the first error** - two-mode semantics of XBYAK_THROW; relational theorem closed under the monad's combinators.
- **C31 A failing call does not damage finished code** - frame theorem: failing run keeps the prefix of the buffer.
- **C32 VEX/EVEX selection** - case analysis of encoding selection on the emitted first byte.
- **C33 Gather register rules** - characterisation of accepted gathers.
- **C34 Operand resizing** - finite case analysis over registers.
- **C35 Pack is a bounded sequence** - refinement of Pack to lists with size_t arithmetic.
- **C36 Page protection covers the code** - bit arithmetic lemmas.
- **C37 Allocator bookkeeping** - invariant over alloc/free histories.
- **C38 Condition codes** - generated mnemonic table.
- **C39 No two instructions share an encoding** - generated mnemonic table, pairwise check lifted to all operands through the decoder theorems.
- **C40 Instruction length and operand-size checks** - length bound through the item lists; rejection theorems and counterexamples.
- **C41 APX forms** - decoder round trip for evexLeg/opROO.
- **C42 Pseudo-operations and omitted operands** - predicate table of the SDM; each pseudo-operation equals the method it stands for with the immediate of its name.
- **C43 Fixed byte sequences and x87** - byte lists typed in from the SDM; methods compared with them.
- **C44 Remaining legacy instructions** - rows as in C20, with operands of mixed register files.
- **C45 Processor identification, topology, caches, Clock, Profiler** - cpuid as oracle; division by zero and int overflow explicit; loops over cache lists by induction over the sub-leaves.
- **C46 Register names, predefined objects, comparison of operands** - tables of names and declared objects extracted from the header by tools/nametab.py; sweep over all registers against an independent naming rule; `==` field by field.
- **C47 Operand modifiers and rip expressions** - induction over the list of modifiers / terms against `decorated` and `numbers`/`anchors` (SpecMods).
- **C48 The encoder of the 32-bit build** - simulation: helper by helper and then method by method (Sim32*, 2226 methods, tools/simtab.py) each call of the 32-bit build is related in both directions to the call of the 64-bit build with 64-bit address registers (382 methods only if a 64-bit MMX register is not combined with memory of another size, which only the 64-bit build rejects); the encodings that differ (inc/dec 40+r, push/pop, A0..A3, aaa ...) directly; a decoder for 32-bit mode (Spec32).
- **C49 Meaning of the code of the 32-bit build** - no method emits a byte that 32-bit mode reads differently (REX, lds/les/bound, inverted register bits): first bytes method by method (Start32*, `alike`); with C48 the theorems of C20, C21 and C44 carry over to `decode32` and addresses modulo 2^32 (Says32, Say32Tables).
- **C50 Registers and address expressions of the 32-bit build** - the expression tree built by the 32-bit operators is the one of the 64-bit build with the displacement reduced modulo 2^32 (Expr32), so C24 carries over; conversions by cases.
- **C51 Integer instructions do what their mnemonic says** - the rows of C20/C38/C44 executed by `SpecExec` (registers, memory, CF PF ZF SF OF; undefined flags come from an oracle `un`); xchg, bswap, test and imul with an immediate (LegGpr5), the execution of the rows (ExecMore).
- **C52 Finished code executes as the program written** - `SpecProg` gives programs a step relation without bytes (which label a name denotes is computed from the text), `SpecMach` is a processor that fetches from memory; forward simulation per statement from C51 (lengths and bytes of instructions), C04/C05 (branch displacement), `exec_changes` (statements without code), `ProgRef` (instructions with one label field, indirect branches), `field_final` (the bytes of a label field in the finished code), induction over runs; the converse needs that every referenced label was defined (`origins`).
- **C53 Indirect and far branches** - `goes` (ProgRef) gives the decoded instruction, `mstep_indirect` its execution; registers by enumeration, far branches as rows like C44 (JmpOp); refuted: qword memory is always refused, dword, byte memory and 32-bit registers are accepted.
- **C54 Vector instructions execute** - `SpecVec` gives the lanes, masks and broadcasts, `VecIsa` (generated by tools/vectab.py) the operation of each of 427 instructions; `says_exec` (VecExec) turns the decoded row of C18/C19 into execution, a check over the tables (`table_check`, `proc_apart`) joins names, rows and operations; `VecInsn` makes the calls statements of C52 programs, `ProgVec` runs a vector loop for all inputs.
- **C55 SSE instructions execute** - `SpecSse` runs the legacy encodings on the lanes of `SpecVec` at 128 bits (first operand destination and source, upper part of the register kept), `SseIsa` (tools/ssetab.py) gives the operation of each of 150 instructions; `lsays_sexec` (SseRun) turns the decoded row of C20/C44 into execution; `SseInsn` makes the calls statements of C52 programs, `ProgSse` runs a loop that adds two float arrays for all inputs. Simplifications: no alignment faults; the compare immediate of cmpps and its kin is passed whole to the uninterpreted comparison.
- **C56 Methods accept what their instructions have** - `SpecAccept` reads off the rows of C18, C20 and C44 which calls have to be accepted: for legacy encodings every operand size, register file and memory operand with registers n, n+1, .. for every n < 16; for VEX and EVEX every vector length, low and high registers, memory, broadcast and rounding. `Accept` sweeps the tables (508 + 985 methods). `SpecAccept2`, `Accept2` do the same for the 322 extended forms of APX (registers 16 .. 31, {nf}, {zu}: nothing is rejected) and for the 32-bit build (337 + 137 + 882 methods, no 64-bit general registers, no rounding). Simplifications: the initial generator, one immediate per form, two starting register numbers for vector forms, five address shapes. The sweep found the forms refuted in `AcceptNot` for all operands: vsm4key4/vsm4rnds4 with ymm and zmm, valignd/valignq with broadcast, vfixupimmss/sd and vcvttp[sh]2i[u]bs with {sae}.
- **C57 Methods reject what their instructions do not have** - the converse of C56 on the operands that the C++ parameter types admit (`Params`, read from the declarations by tools/params.py): general registers of all sizes, xmm, ymm, zmm, mm, k, tmm, bnd, st, memory of all sizes. For 508 legacy methods `Reject.exact` says which calls outside the rows of C20 and C44 are accepted all the same: exactly the list `also` (6719 of 76965 calls); `alike` shows which other instruction is emitted. For vector methods (`RejectVec`): the first two registers have to be equally long; the file of the last register is ignored by 646 methods. Simplifications: the initial generator, register numbers 0, 1, 2, 12, the immediate 1.
- **C58 A compiler written with xbyak generates correct code** - sample/bf.cpp (System V branch) as a function from texts to the calls it makes (`Bf`); `SpecBf` is a small-step meaning of Brainfuck that knows nothing of x86, `SpecBfRun` adds calls of a C library that follows the ABI to the processor of C52. Whatever the Brainfuck program does after any number of commands, the processor does; a program that ends returns to the caller (`C58_returns`); the run is unique (`C58_one_run`). Simplifications: white space is removed beforehand (`is >> c`), the labels pushed on the two stacks are represented by their numbers, the destruction of Label objects is left out, the tape is at most 2^31 bytes, leaving the tape stops the Brainfuck program.
- **C59 The calculator compiles expressions correctly** - class FuncGen of sample/calc.cpp (System V branch), function by function (`Calc`); `SpecCalc` evaluates expression trees with arbitrary operations. The generated function returns the value in xmm0 (`C59_value`, from C52 and the SSE meanings of C55); `C59_accepted` says which expressions are compiled. Simplifications: the boost grammar is represented by the order in which it calls the actions (both operands, then the operator); a double is its 64 bits.
- **C60 Divisions by constants are right for every dividend** - `Udiv` models the choice that `Quantize::udiv` of sample/quantize.cpp makes (loops with fuel; 1 << 31 and endless loops are outcomes of their own) and proves that it gives x / d for every 32-bit x (`C60_plan`), for exactly which d it returns (`C60_domain`). `UdivRun` lists the calls; `SpecDiv` is a 32-bit machine with the eleven instruction forms used; `C60_calls` is about the instructions of the whole function. `UdivCode` makes the calls with the methods of the 32-bit build (Encode32, Mnemonic32); `C60_bytes`: the bytes, read by the small decoder `SpecDivDec.disasm`, are these instructions; `C60_quantize` (UdivMem): executed from memory they compute the quotients.
- **C61 The functions of the first sample do what they are for** - `Test0.sample_prog` is the constructor of class Sample of sample/test0.cpp (System V branch) as a program of C52. `C61_calls`: its calls have their meaning; `C61_sum`: the built code, run by the processor, returns n(n+1)/2; `C61_endless_refuted`: for n = 2^32-1 every state that the processor reaches is inside the loop. The other classes of the file: `Test0b` (AddFunc, CallAtoi, JmpAtoi), `Test0c` (Reset::init, whose number of calls depends on n), with `C61_add`, `C61_call`, `C61_jmp`, `C61_reset`.

## Trusted base

- The Coq 8.16.1 kernel, including its virtual machine (`vm_compute`).
- The transcription of the C++ text into Gallina.  Every definition cites file and lines.  The ~2560 methods of
  `xbyak_mnemonic.h` are translated by `tools/mnemonic.py`; the others by hand.
- The specifications `Spec*.v` and the instruction rows.  They are a reading of the Intel SDM, the APX and AVX10.2
  documents, the AMD APM and the SysV / Windows ABIs **from memory**: the sandbox has no network.  Rows of AVX10.2 are
  the least certain.  Where model and row disagree, the disagreement is either a `_refuted` theorem (when the
  architecture is clear) or the row was corrected before the proof.
- No axioms.  Every property theorem is followed by `Print Assumptions`, and all of them print
  "Closed under the global context".  The checker lists `Coq.ssr.ssrunder.Under_rel` items for the library as a
  whole: they come with the standard library's `ssrunder` and no theorem depends on them.
- Generated files (`*Tables*.v`, `Mnemonic*.v`, `IsaRows.v`) are ordinary Coq text and are checked like the rest;
  the generators in `tools/` are not trusted except `mnemonic.py` (transcription) and the row data typed into
  `isa.py`, `legtab.py`, `apxtab.py`, `mixtab.py`, `fixedtab.py` (specification).

## What is modelled

| part of the source | model | remarks |
|---|---|---|
| xbyak.h:182-350 errors, XBYAK_THROW | Types, Emit, Errors, ErrTables | two builds by the flag `env_noexc`; `fn d` marks the C++ function a no-exception error returns from |
| 436-534 Allocator, MmapAllocator | State (oracle), Mmap | answers of the allocator / mmap are universally quantified; no MEMFD, no MAP_JIT |
| 551-1078 Operand, Reg, RegExp | Types | bit fields as integers |
| 1084-1316 CodeArray | Code | buffer = function offset -> byte with a capacity; access outside is `UB` |
| 1318-1410 Address, AddressFrame | Types | |
| 1413-1696 LabelManager, Label | Label | hash maps as association lists; `unordered_multimap::find` chooses by an oracle; one generator at a time |
| 1726-2858 encoder helpers | Encode | |
| 2919-3340 API, mov, push, xchg, nop, align | Gen, Encode | |
| xbyak_mnemonic.h | Mnemonic, MnemonicAvx, MnemonicOmit, MnemonicJmp | one definition per overload |
| the same without XBYAK64 | Encode32, Mnemonic32, MnemonicAvx32, MnemonicOmit32 | written by tools/gen32.py and `mnemonic.py --32`; Reg, RegExp, Address and labels of Types/Label are shared, `IPutL` of an absolute address stands for 4 bytes |
| 669-732 toString, 1016, 1350, 1381 operator== | Names, NameTables | |
| xbyak_util.h:117-741 Cpu | Cpu, CpuTopo | cpuid / xgetbv answers as oracle |
| 786-881 Pack, 883-1017 StackFrame | Pack, StackFrame | |
| sample/bf.cpp:25-160 | Bf | System V branch; `std::stack::top` of an empty stack is `None` |
| sample/calc.cpp:29-152 | Calc | class FuncGen, System V branch; the grammar as the order of the calls; `throw;` outside of a handler is `Terminates` |
| sample/quantize.cpp:50-140 | Udiv, UdivRun, UdivCode, UdivMem | ilog2, udiv, constructor of Quantize, as the calls they make; long has 32 bits (the sample is for the 32-bit build) |
| sample/test0.cpp:12-120 | Test0, Test0b, Test0c | the classes Sample, AddFunc, CallAtoi, JmpAtoi and Reset, System V branches; atoi is an address; the int overflow of 10 - n in Reset::init for n < 11 - 2^31 is not modelled |

Not modelled: of the 32-bit build (`XBYAK32`) the code buffer, jumps to labels and StackFrame; the ILP32 ABI, `XBYAK_OLD_DISP_CHECK`, `XBYAK_NO_OP_NAMES` (only renames),
`XBYAK_DISABLE_AVX512`, `XBYAK_USE_MEMFD`, `XBYAK_USE_MAP_JIT`, Windows memory functions, the VTune branch of class Profiler,
thread-local storage of the error value, `getCode<T>()` casts.
C++ overload resolution is modelled by one definition per overload.  A theorem about an overload quantifies over
arguments of its parameter types; for parameters of a class type the derived classes are included (`Xmm` accepts
`Ymm`, `Mmx` accepts `Xmm`, ...), because such calls compile.

## Layers of the proofs

- *Buffer and labels* (C01-C16, C30, C31): `SpecLabel` is an abstract label table.  `LabelInv` relates it to the
  state; `LabelStep*` shows that every call keeps the relation; `run s a` in the theorems means "s is reached from a
  new generator by a history of calls that follows the table a".
- *Operands* (C17-C21, C24): `SpecX86` decodes bytes, `SpecAddr` gives the meaning of an address expression.
  `MemFacts`, `LegacyFacts`, `VexFacts`, `ApxFacts` prove the round trips for the helpers.
- *Instruction tables* (C18-C20, C39, C41-C44): a row is the SDM line of an instruction (prefix, map, W, L, opcode,
  operand places, disp8 scale, rounding).  `implements` / `limplements` / `mimplements` / `aimplements` say: for all
  arguments of the declared classes, if the call succeeds then its bytes decode to that row with those operands.
  One lemma per *shape* of method (file `*Shapes*.v`), then one application per method in the generated tables.
- *Execution* (C22, C23, C26, C28, C51, C52, C54, C55): `SpecExec`, `SpecVec`, `SpecSse`, `SpecFrame` are small machines that fetch instructions from bytes.
  `SpecMach` adds branches and the fetch from memory; C52 joins the label layer and the execution layer (`ProgHist`: the
  history of a program and the position of each statement, `ProgSim`: the simulation).  Vector registers, opmasks and the
  floating-point functions (uninterpreted) are part of the state of `SpecExec`; `xexec` in `SpecMach` executes both kinds.
- *Whole-library sweeps*: `RipTables` (C06), `LenTables` (C40), `NoShareAll` (C39) quantify over every method.
- *A compiler* (C58): `Bf.calls_comps` turns the loop of bf.cpp with its two stacks into a function on the syntax tree; `BfRun.sim` is the
  simulation of one Brainfuck step by instructions (C52) and library calls, `BfRun.begin` and `leave` are prologue and epilogue.
- *A calculator* (C59): `Calc.calc_fine` turns the sequence of actions into a function on the tree, `CalcRun.sim` is an induction on the tree.
- *Division by constants* (C60): `Udiv.up_ok`, `Udiv.down_ok` are the arithmetic of the two kinds of multipliers, `Udiv.choose_ok` shows that the loops end with one of them (the branch that rounds mLow up is never taken), `UdivRun.body_runs` is an induction on the table, `UdivMem.sim` executes the bytes (no instruction overwrites the code: `quantize_keeps`).
- *The sum sample* (C61): `Test0.turn_ok` is one turn of the loop, `Test0.loop_runs` an induction on the turns left, `Test0.inside_stays` an invariant of the processor for the endless case.

## Premises that occur in the theorems

- `alloc_bounded`: an allocator never satisfies a request of 2^48 bytes or more (so `size_t` sums do not wrap).
- `ids_left`: fewer than 2^31 labels are used before a reset (`labelId_++` would be signed overflow).
- `maxCode`: positions stay below 2 GiB - 256, so that a displacement is a 32-bit number.
- `portable` (C02): the program does not ask for the buffer kind: no jump to an absolute address without `T_NEAR`
  (reports `ERR_ONLY_T_NEAR_IS_SUPPORTED_IN_AUTO_GROW`), no rip-relative absolute address
  (`ERR_INVALID_RIP_IN_AUTO_GROW`), no `align` (depends on the address of the buffer).
- `wf_*` / `cls` predicates: operand objects are those that the public constructors and operators can build.

The cases that `SpecLabel` leaves out (marked OUT there), with the theorem that shows why where the code misbehaves:

- code added after `ready()` in AutoGrow mode: `C05_after_ready_refuted`;
- code beyond 2 GiB;
- `L()` or `assignL()` that fails because a pending short jump is out of range: `C09_failed_definition_refuted`;
- `assignL(dst, src)` when dst was not referenced before: `C12_later_jump_refuted`, `C12_two_fresh_labels_refuted`;
  or when the address of dst was taken in a fixed buffer: `C12_address_taken_refuted`;
- copying a `Label` before its definition: `C13_copy_before_definition_refuted`;
- `reset()` while a label that was mentioned but not defined is alive: `C14_stale_id_refuted`;
- `ready()` that fails because an absolute target is out of range or mprotect fails.

## Theorem shapes

`Cnn_..._partial` holds with extra hypotheses that exclude cases where the property is false or not covered;
`Cnn_..._refuted` is a concrete program, evaluated in the model, on which the property as stated fails.
A refuted theorem is a statement about the model.  It is a statement about xbyak to the extent that the transcription
is faithful; the code itself was not run.

## Mutation testing

`seeded/LOG.jsonl` has one line per wrong program: a definition of the *model* is changed in one place (a constant, a
comparison, a missing check, a swapped argument), the whole development is rebuilt, and the first lemma that no longer
compiles is recorded.  Survivors are either equivalent mutants (noted as such) or led to a stronger theorem
(`C01_set_size`).  Specifications and rows are not mutated.

## Findings

Every `_refuted` theorem (list produced by `tools/findings.py`):

- `C05_after_ready_refuted` (PropRefuted.v): ---- C05: code added after ready() in an AutoGrow buffer ----
- `C06_rorx_refuted` (PropRip.v): and so does rorx r16, ptr [rip + label + 16], 3
- `C06_shift_destination_refuted` (PropRip.v): shl rax, ptr [rip + label + 16], 3 leads one byte too far: the immediate that follows is not taken into account
- `C09_failed_definition_refuted` (PropRefuted.v): ---- C09: a failed L() leaves its label defined and the reference pending for ever ----
- `C12_address_taken_refuted` (PropRefuted.v): putL(dst); L(src); db; assignL(dst, src): the field holds the address where assignL was called, not the address of src, which is also what dst.getAddress() returns
- `C12_later_jump_refuted` (PropRefuted.v): L(src); assignL(dst, src) with a dst not used before; jmp(dst): the jump is never resolved
- `C12_two_fresh_labels_refuted` (PropRefuted.v): two such labels: the second assignL reports that its dst is already defined
- `C13_copy_before_definition_refuted` (PropRefuted.v): jmp(a); Label b = a; L(a); ~a: b lives, but the definition is gone
- `C14_dangling_label_refuted` (PropRefuted.v): L(src); assignL(dst, src) with a dst not used before; ~dst; reset(): writes to the dead dst
- `C14_stale_id_refuted` (PropRefuted.v): jmp(a); reset(); L(b); jmp(a): a, never defined, is taken for b
- `C16_wrap_refuted` (PropRefuted.v): ---- C16: a distance of exactly -2^31 wraps around in a fixed buffer ----
- `C18_is4_register_refuted` (PropIsaRefuted.v): vblendvps (xbyak_mnemonic.h:1070; imm8 = x4.getIdx() << 4): with x4 = xmm16 the value is NONE and the immediate byte is missing; xmm17 becomes xmm1
- `C18_operand_kind_refuted` (PropIsaRefuted.v): opAVX_X_X_XM (xbyak.h:2548) does not check the kind of its last operand: vaddps(xmm0, xmm1, ymm2) is vaddps xmm0, xmm1, xmm2
- `C18_source_size_refuted` (PropIsaRefuted.v): vcvtpd2dq(xmm1, zword [rax]) emits the 128-bit form
- `C18_tilestored_sib_refuted` (PropIsaRefuted.v): xbyak_mnemonic.h:1931: unlike tileloadd (opAMX, xbyak.h:2784), tilestored does not check its address: [rax] is accepted and encoded without the SIB byte the instruction must have
- `C18_vp2intersect_vex_refuted` (PropIsaRefuted.v): xbyak_mnemonic.h:2427-2428: vp2intersectd has EVEX forms only; low registers give a VEX instruction
- `C18_widened_destination_refuted` (PropVecSize.v): Refuted elsewhere: the sign and zero extensions and the three-operand instructions take a last operand of any size; a zmm register makes the whole instruction a 512-bit one. vpmovsxbd(xmm1, zmm2) is vpmovsxbd zmm1, xmm2; vaddps(xmm1, xmm2, zmm3) is vaddps zmm1, zmm2, zmm3
- `C19_fp8_disp8_refuted` (PropIsaRefuted.v): vcvthf82ph (half vector, xbyak_mnemonic.h:2197) and vcvtne2ph2bf8 (full vector, 2198) use N = 1
- `C19_rounding_accepted_refuted` (PropIsaRefuted.v): integer instructions accept a rounding mode: vpshldd zmm0, zmm1, zmm2{sae}, 3 sets EVEX.b
- `C19_vcvtsd2si_disp8_refuted` (PropIsaRefuted.v): the compressed displacement of vcvtsd2si (T_N4, xbyak_mnemonic.h:1222) and vcvtss2si (T_N8): the architecture scales disp8 by the operand size, 8 and 4; [r16 + 8] becomes [r16 + 16] and [r16 + 4]
- `C19_vmpsadbw_broadcast_refuted` (PropIsaRefuted.v): the AVX10.2 vmpsadbw (xbyak_mnemonic.h:2423) has no broadcast
- `C19_vsm3msg1_evex_refuted` (PropIsaRefuted.v): vsm3msg1 has a VEX form only (xbyak_mnemonic.h:1556); xmm16 .. xmm31 give an EVEX instruction
- `C21_rex_refuted` (PropHigh.v): mov ah, [r8]; add [r8], bh; movzx rax, ah ... are accepted and use spl .. dil
- `C24_tile_index_refuted` (PropExpr.v): a tile register is accepted as an index and encoded as the general register with its number: mov eax, [rax + tmm1] is mov eax, [rax + rcx]
- `C26_push_small_extended_refuted` (PropExec.v): Refuted for the 8-, 16- and 32-bit registers 16 .. 31: they are accepted and encoded as the 64-bit register, so push r20w pushes 8 bytes instead of 2, and push r20d, push r20b are accepted although push eax, push al are not
- `C27_override_refuted` (PropSeg.v): putSeg of es, cs, ss and ds gives another segment: es -> cs, cs -> ss, ss -> ds, ds -> es
- `C27_push_pop_refuted` (PropSeg.v): the others do not exist in 64-bit mode but are emitted without an error
- `C28_overflow_refuted` (PropFrame.v): close to INT_MAX the size computation overflows
- `C29_avx10_version_refuted` (PropCpu.v): 
- `C29_extended_leaf_refuted` (PropCpu.v): on AMD leaf 80000001h is used without the check that it exists
- `C29_keylocker_wide_refuted` (PropCpu.v): KEYLOCKER_WIDE is reported if any of KL, AESKLE and WIDE_KL is, and AVX10 versions are cut to 7 of their 8 bits
- `C29_leaf7_refuted` (PropCpu.v): AVX-512 is looked up in leaf 7 even if the processor has no leaf 7; an Intel processor answers with its last leaf
- `C29_os_state_refuted` (PropCpu.v): F16C, VAES, VPCLMULQDQ, SHA512, SM3, SM4, AVX_VNNI, AVX_IFMA, AVX_VNNI_INT8/16, AVX_NE_CONVERT, AVX10, AMX and APX_F are reported although the operating system has not enabled the state they need
- `C30_negative_text_refuted` (PropErr.v): ConvertErrorToString of a negative int reads before the table
- `C30_write_after_failed_growth_refuted` (PropRefuted.v): AutoGrow and an allocator that refuses to grow: the next bytes are written past the buffer
- `C30_write_before_buffer_refuted` (PropRefuted.v): a 3-byte buffer: jmp(T_NEAR, x) is cut short; L(x) patches its displacement before the buffer
- `C32_vpmadd52_refuted` (PropMin.v): xbyak_mnemonic.h:2504-2505: vpmadd52luq and vpmadd52huq have VEX forms (AVX-IFMA) that are never used
- `C33_avx2_index_refuted` (PropIsaRefuted.v): C33: the index xmm17 of an AVX2 gather is encoded as xmm1 (VEX has no bit for it), also when xmm1 is the destination
- `C33_avx2_length_refuted` (PropIsaRefuted.v): vgatherqps(zmm2, [rax + ymm1], zmm3) is accepted and emitted as vgatherqps xmm2, [rax + ymm1], xmm3
- `C33_prefetch_mask_refuted` (PropIsaRefuted.v): a gather prefetch without a mask is accepted: EVEX.aaa = 0 is #UD
- `C34_cvt_mask_refuted` (PropMods.v): changeBit() keeps the mask and the rounding of a vector register (C34_vector_registers), cvt128 .. cvt512 lose them
- `C34_other_files_refuted` (PropReg.v): The other files. An mmx, mask, x87 or bound register that already has the width is not converted but cvtNN() takes its number: mm3.cvt64() is rbx, k1.cvt64() is rcx, st2.cvt32() is edx, bnd1.cvt128() is xmm1; k1 can be given any width; r20.changeBit(8192) is the tile register tmm20, which does not exist
- `C35_sub_past_end_refuted` (PropPack.v): sub(pos) with pos past the end should report ERR_BAD_PARAMETER: n_ - pos wraps around, pos + num is n_ and passes the check, and the copy loop leaves the array
- `C36_aligned_address_wrap_refuted` (PropMem.v): in the last block of the address space the sum wraps around to the null pointer
- `C39_vmovhps_is_vmovlhps_refuted` (PropIsaRefuted.v): xbyak_mnemonic.h:1341, 1343: the memory check of vmovhps .. vmovlpd does not look at the two-operand form: vmovhps xmm1, xmm2 emits vmovlhps xmm1, xmm1, xmm2
- `C39_vpermq_is_vpermd_refuted` (PropIsaRefuted.v): xbyak_mnemonic.h:1435: vpermq(ymm, ymm, op) emits VEX.256.66.0F38.W0 36, that is vpermd
- `C40_sizes_refuted` (PropSize.v): xchg(eax, cl), mov(eax, byte [0x1122334455667788]), add(eax, cl, rdx), imul(eax, r16w), ccmpa(rdx, ecx) ... are accepted
- `C40_unsized_refuted` (PropSize.v): mul, imul, div, idiv, neg, not, shifts by cl, bt .. bts with an immediate, movzx, movsx guess the size of ptr [rcx]
- `C41_address32_refuted` (PropApx.v): a 32-bit base or index is encoded without the address size prefix: the same bytes as with the 64-bit registers
- `C41_andn_drops_nf_refuted` (PropApx.v): andn takes T_nf from the destination only
- `C41_bls_drops_nf_refuted` (PropApx.v): blsi, blsmsk and blsr look at the modifier of the /digit register instead of the destination
- `C41_cmov_byte_refuted` (PropApx.v): cmovcc has no byte form: cmovb(al, bl, cl) is encoded as cmovb(eax, ebx, ecx)
- `C41_encodekey_r8_refuted` (PropApxSse.v): xbyak.h:2818-2825: encodekey128 with r8d .. r15d uses the APX encoding although F3 REX 0F 38 FA exists: the code needs a processor with APX
- `C41_high_byte_refuted` (PropApx.v): ah, ch, dh and bh do not exist with an EVEX prefix: add(ah, bl, cl) is encoded as add(spl, bl, cl)
- `C41_mixed_sizes_refuted` (PropApx.v): operands of different sizes are accepted, unlike in the two operand forms: add(eax, rbx, rcx) writes rax, and ccmpb(eax, bl, 0) compares bytes
- `C41_mul_drops_zu_refuted` (PropApx.v): mul has no zero-upper form, but mul(rax | T_zu) is accepted and T_zu ignored: mul rax
- `C41_setcc_size_refuted` (PropApx.v): setcc with r16 .. r31 takes any register size: seta(r20) is seta(r20b)
- `C41_sha_general_register_refuted` (PropApxSse.v): xbyak.h:2828: with r16 .. r31 the kind of the operand is not checked: sha1msg2(xmm1, r17) is accepted, sha1msg2(xmm1, rcx) is not
- `C43_ret_range_refuted` (PropFixed.v): ret(65536) is accepted and pops nothing
- `C43_x87_to_st0_refuted` (PropFixed.v): fcomi(st1, st0) and the like, which do not exist, emit an ADD of two byte registers
- `C44_bt_byte_refuted` (PropMix.v): bt, btc, btr, bts (byte[rax], imm) have the 32-bit form
- `C44_cvtsi2sd_memory_refuted` (PropMix.v): no REX.W for 64-bit integers in memory
- `C44_far_pointer_refuted` (PropMix.v): xbyak.h:2105: lfs(ax, dword[rax]) is lfs eax, [rax]; lfs(r16, [rax]) has REX2 with M0 = 1 and 0F after it: opcode 0F of map 1
- `C44_pinsrd_refuted` (PropMix.v): a 64-bit register turns pinsrd, pextrd into pinsrq, pextrq
- `C44_pinsrw_immediate_refuted` (PropMix.v): xbyak_mnemonic.h: int imm of pinsrw: 256 is taken for "no immediate"
- `C44_pshufd_mmx_refuted` (PropMix.v): pshufd, pshufhw, pshuflw of mm registers, which do not exist, emit pshufw
- `C44_wider_register_refuted` (PropMix.v): parameters of type Mmx or Xmm also take wider registers: the other instruction is emitted
- `C44_word_memory_refuted` (PropMix.v): xbyak.h:1779 (rex): the operand-size prefix follows the declared size of memory: addps(xmm0, word[rax]) is addpd xmm0, [rax]; the same for every SSE instruction without a mandatory prefix
- `C44_xchg_sizes_refuted` (PropExec2.v): Refuted for registers of different sizes: xchg(ax, ecx) is accepted and is xchg eax, ecx; xchg(rax, cx) is xchg rax, rcx
- `C45_l3_size_refuted` (PropTopo.v): a third-level cache of 2 GiB or more overflows int (xbyak_util.h:341)
- `C45_legacy_amd_refuted` (PropTopo.v): on AMD the constructor divides by zero when more threads per unit are reported than threads (xbyak_util.h:240-243)
- `C45_legacy_intel_refuted` (PropTopo.v): without leaf 0Bh the legacy count may give 0 threads per core: on Intel (leaf 1 reports 1 thread, leaf 4 two) getNumCores(CoreLevel) divides by zero, and so does the constructor when the first cache is a unified one
- `C45_other_vendor_refuted` (PropTopo.v): getNumCores(CoreLevel) divides by zero on every processor that is neither Intel nor AMD (numCores_ stays 0)
- `C46_memory_mask_refuted` (PropNames.v): ptr[rax] | k1 and ptr[rax]
- `C46_nf_refuted` (PropNames.v): operands that compare equal and give different code: ecx | T_nf and ecx
- `C46_tile_name_refuted` (PropNames.v): changeBit lets zmm31 become "tmm31" (xbyak.h:738-784), whose name is read outside the table
- `C46_util_tmm_refuted` (PropNames.v): xbyak.h:3381: util::tmm0 .. util::tmm7 are declared as Zmm
- `C48_apx_refuted` (PropB32.v): C48: add(eax, ecx, edx), an APX form, is not rejected
- `C48_inc_two_operands_refuted` (PropB32.v): C48: inc(ecx, eax) ignores its first operand and emits inc eax
- `C48_moffs_size_refuted` (PropB32.v): C48: mov(ax, dword[disp]) and mov(dword[disp], ax) are not rejected: they emit mov eax, [disp] and mov [disp], eax
- `C48_qword_refuted` (PropB32.v): C48: a qword memory operand is not rejected: inc(qword[eax]) emits dec eax; inc dword[eax]
- `C48_reg8_refuted` (PropB32.v): C48: Reg32(8) is not rejected: add(Reg32(8), edx) emits inc ecx; add eax, edx
- `C48_xmm8_refuted` (PropB32.v): C48: Xmm(8) is not rejected: vaddps(Xmm(8), xmm1, xmm2) emits lds esi, [eax + 0x58]; ...
- `C50_changeBit64_refuted` (PropExpr32.v): eax.changeBit(64) is accepted and gives a register that 32-bit mode does not have: with it add(r, r) is REX.W 03 C0, in 32-bit mode dec eax; add eax, eax
- `C50_extended_refuted` (PropExpr32.v): xmm9 and r9d, which the 32-bit build does not declare, are converted like the others
- `C53_narrow_refuted` (PropJmp.v): C53: jmp(dword[rax]), jmp(byte[rax]), jmp(eax) do not exist in 64-bit mode and are accepted: they are jmp(ptr[rax]) and jmp(rax)
- `C53_qword_refuted` (PropJmp.v): C53: jmp(qword[...]) and call(qword[...]), the operand size that the instructions have, are always refused
- `C56_cvtt_sae_refuted` (PropAccept.v): vcvttps2ibs and its kin have {sae} (xbyak_mnemonic.h:2258-2261: T_ER_Y, T_ER_Z in place of T_SAE_Y, T_SAE_Z)
- `C56_fixupimm_sae_refuted` (PropAccept.v): vfixupimmss, vfixupimmsd have {sae} (xbyak_mnemonic.h:2309-2310: T_SAE_Z, which holds for zmm only)
- `C56_valign_broadcast_refuted` (PropAccept.v): valignd, valignq have m32bcst, m64bcst (xbyak_mnemonic.h:2035-2036: no T_B32, T_B64)
- `C56_vsm4_refuted` (PropAccept.v): the forms left out. vsm4key4, vsm4rnds4 exist for ymm and zmm (xbyak_mnemonic.h:1559-1560: no T_YMM)
- `C57_alike_refuted` (PropReject.v): and are another instruction: add(xmm1, xmm2) is add ecx, edx; cmova(xmm1, edx) is cmova ecx, edx; imul(cl, dl) is imul ecx, edx; div(tword [m]) is div qword [m], div(zword [m]) is div dword [m]; movzx(cl, [m]) is movzx ecx, byte [m]; rdrand(mm1) is rdrand rcx; pshufw(xmm1, xmm2, 1) is pshufw mm1, mm2, 1; fild(tword [m]) is fild qword [m]
- `C57_listed_refuted` (PropReject.v): the list is exact: cmova(xmm1, eax), add(xmm1, xmm2), seta(dword [rcx]), div(tword [rcx]), lea(mm1, [rcx]), rdrand(xmm1), movd(xmm1, qword [rcx]), psllw(ymm1, 1) .. are accepted
- `C57_vector_file_refuted` (PropReject.v): the register file of an operand of type Operand is not looked at (xbyak.h:2548, opAVX_X_X_XM; opAVX_X_XM_IMM): 646 methods accept an opmask register; vaddps(xmm1, xmm2, k7), vaddps(xmm1, xmm2, edi), vaddps(xmm1, xmm2, st7) are vaddps xmm1, xmm2, xmm7
- `C58_unmatched_refuted` (PropBf.v): sample/bf.cpp:112-131: an unmatched "[" is not reported: all calls succeed and the jump out of the loop, whose label is never defined, is 0F 84 00 00 00 00 (a jump to the next instruction); an unmatched "]" takes from an empty std::stack
- `C59_deep_refuted` (PropCalc.v): sample/calc.cpp:85, 87, 96: an expression that needs a ninth register, or a 33rd number, is not reported: "throw;" outside of a handler calls std::terminate. x+(x+(x+(x+(x+(x+(x+(x+x))))))) is such an expression, x+x+x+x+x+x+x+x+x is not
- `C60_negative_refuted` (PropQuantize.v): sample/quantize.cpp:67, 86-87, 104: a divisor of 2^31 or more becomes a negative int, both multipliers become 0, and the loop while ((m & 1) == 0) never ends (or already the one before)
- `C60_shift_refuted` (PropQuantize.v): sample/quantize.cpp:54: ilog2 of an odd divisor between 2^30 and 2^31 shifts the int 1 by 31 and more, which is undefined
- `C60_zero_refuted` (PropQuantize.v): sample/quantize.cpp:68: udiv(0) does not return: the loop that removes the factors 2 never ends
- `C61_endless_refuted` (PropTest0.v): sample/test0.cpp:33-34: the loop goes on while edx <= ecx; for n = 2^32 - 1 (Sample called with -1) that always holds: the function enters the loop, and whatever number of instructions it executes then, it is at one of the four instructions of the loop and can go on; it never returns

Observed while transcribing, not stated as theorems:

- `Operand::operator==` ignores the NF and ZU modifiers.
- A no-exception build continues after `ERR_LABEL_IS_REDEFINED`; prefix bytes may have been emitted before a later
  check of the same instruction fails.
- `jmp("@@")` creates a reference that can never be defined.
- `vscalefpbf16(x, op)` (two operands) exists in the header although the instruction has three.
- `faddp(st0, st0)`, `movntdq(xword [..], xmm)`, `fldcw(word [..])`, `cmpxchg8b(qword [..])`, `cvtsd2si(eax, qword [..])` are rejected although they exist.
- `umonitor`, `tpause`, `umwait` reject r8 and above.
- `Xbyak::util::tmm0` .. `tmm7` (xbyak.h:3381) are declared as `Zmm`, not `Tmm`: they are zmm registers.
