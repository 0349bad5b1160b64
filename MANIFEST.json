{
 "claims": [
  {
   "property": "C01",
   "status": "proved",
   "theorems": [
    "C01_append_or_too_big",
    "C01_instruction",
    "C01_history",
    "C01_no_out_of_bounds",
    "C01_set_size"
   ],
   "note": "Any state reached by a history of calls: bytes are appended exactly or ERR_CODE_IS_TOO_BIG; no byte outside the buffer changes; UB (a write outside) never occurs. Histories are those of SpecLabel.v (its OUT cases are listed in DESIGN.md)."
  },
  {
   "property": "C02",
   "status": "proved",
   "theorems": [
    "C02_growth_invisible",
    "C02_never_too_big",
    "C02_bytes_survive"
   ],
   "note": "C02_growth_invisible: the finished code of any two generators (any buffer kinds) running the same program is the same up to the address-dependent fields. Programs are 'portable': no instruction form chosen from top_ or the buffer kind (M_ripAddr, align) and jumps to absolute addresses with T_NEAR."
  },
  {
   "property": "C03",
   "status": "proved",
   "theorems": [
    "C03_data",
    "C03_data_bad_size",
    "C03_rewrite",
    "C03_rewrite_bad_size"
   ],
   "note": ""
  },
  {
   "property": "C04",
   "status": "proved",
   "theorems": [
    "C04_forward_jump",
    "C04_backward_jump",
    "C04_jump_lands"
   ],
   "note": "Any history without reset() between the reference and its use; code below 2 GiB."
  },
  {
   "property": "C05",
   "status": "partial",
   "theorems": [
    "C05_label_field",
    "C05_putL",
    "C05_after_ready_refuted"
   ],
   "note": "Label fields emitted by any encoder, by histories in which no code is added after ready(). C05_after_ready_refuted: in AutoGrow mode a reference emitted after ready() is never filled in, even by a second ready()."
  },
  {
   "property": "C06",
   "status": "partial",
   "theorems": [
    "C06_rip_label_operand",
    "C06_rip_address_operand",
    "C06_methods_partial",
    "C06_shift_by_one_partial",
    "C06_rorx_partial",
    "C06_label_operand_lands",
    "C06_shift_destination_refuted",
    "C06_rorx_refuted"
   ],
   "note": "Every method with a memory-capable parameter, in each such position (2312 entries of RipTables.v), with arbitrary other operands: the displacement leads from the end of the instruction to label + n or to the address; C06_label_operand_lands follows the reference to the finished code. Refuted for the shifts by an immediate with a new data destination and for rorx with r16-r31: the immediate byte is not taken into account, the operand is one byte too far."
  },
  {
   "property": "C07",
   "status": "proved",
   "theorems": [
    "C07_branch_bytes",
    "C07_branch_outcome",
    "C07_far_not_supported"
   ],
   "note": "Outcome up to buffer errors (buffer full, allocation failure)."
  },
  {
   "property": "C08",
   "status": "proved",
   "theorems": [
    "C08_redefined_string",
    "C08_redefined_object",
    "C08_reserved_names",
    "C08_definition_stays"
   ],
   "note": ""
  },
  {
   "property": "C09",
   "status": "partial",
   "theorems": [
    "C09_hasUndefinedLabel",
    "C09_ready_refuses",
    "C09_ready_accepts",
    "C09_unresolved_means_undefined",
    "C09_failed_definition_refuted"
   ],
   "note": "Exact for histories in which no L() failed because a pending short jump was out of range; C09_failed_definition_refuted shows that case."
  },
  {
   "property": "C10",
   "status": "proved",
   "theorems": [
    "C10_at_f",
    "C10_at_b",
    "C10_at_b_without_at"
   ],
   "note": ""
  },
  {
   "property": "C11",
   "status": "proved",
   "theorems": [
    "C11_name_in_scope",
    "C11_other_names_are_global",
    "C11_inLocal_opens_fresh_scope",
    "C11_outLocal_without_inLocal",
    "C11_outLocal_unresolved",
    "C11_outLocal_resolved"
   ],
   "note": "Resolution itself is C04 with the scoped identity of C11_name_in_scope."
  },
  {
   "property": "C12",
   "status": "partial",
   "theorems": [
    "C12_earlier_jumps_partial",
    "C12_same_position_partial",
    "C12_redefined",
    "C12_undefined_source",
    "C12_address_taken_refuted",
    "C12_later_jump_refuted",
    "C12_two_fresh_labels_refuted"
   ],
   "note": "Covers assignL when dst has been referenced before (fixed buffers: by relative fields only). The other cases violate the property in the model. See the C12_*_refuted theorems."
  },
  {
   "property": "C13",
   "status": "partial",
   "theorems": [
    "C13_copy_same_label_partial",
    "C13_copy_assign_same_label_partial",
    "C13_destroy_one_of_several",
    "C13_destroy_last",
    "C13_copy_before_definition_refuted"
   ],
   "note": "Copies made after L(). Copies made before L() violate the property in the model. See C13_copy_before_definition_refuted."
  },
  {
   "property": "C14",
   "status": "partial",
   "theorems": [
    "C14_reset",
    "C14_destruction",
    "C14_detached_label",
    "C14_dangling_label_refuted",
    "C14_stale_id_refuted"
   ],
   "note": "Histories of SpecLabel.v. C14_dangling_label_refuted (use of a destroyed Label after assignL) and C14_stale_id_refuted (a label only jumped to before reset() keeps its id) show the excluded cases. reset() does not restore setDefaultJmpNEAR and the encoding preferences (nor does the source)."
  },
  {
   "property": "C15",
   "status": "proved",
   "theorems": [
    "C15_getAddress"
   ],
   "note": ""
  },
  {
   "property": "C16",
   "status": "partial",
   "theorems": [
    "C16_lands_partial",
    "C16_outcome",
    "C16_wrap_refuted"
   ],
   "note": "In a fixed buffer a distance in the 6 lowest values of the 32-bit range wraps. C16_wrap_refuted."
  },
  {
   "property": "C17",
   "status": "partial",
   "theorems": [
    "C17_legacy_memory_operand"
   ],
   "note": "Memory operands at the helper level (opMR) and for every row of legacy_table/gpr_table (C20) and of the tables of C44; excluded: operands of the wrong size (C40)."
  },
  {
   "property": "C18",
   "status": "partial",
   "theorems": [
    "C18_vex_register_operands",
    "C18_vex_memory_operand",
    "C18_instruction_table",
    "C18_two_operand_form",
    "C18_vp2intersect_vex_refuted",
    "C18_operand_kind_refuted",
    "C18_is4_register_refuted",
    "C18_source_size_refuted",
    "C18_tilestored_sib_refuted",
    "C18_narrowing",
    "C18_widening",
    "C18_widened_destination_refuted",
    "C18_evex_only_partial",
    "C18_two_rows",
    "C18_opmask_moves",
    "C18_tile_moves",
    "C18_tile_address_partial",
    "C18_vmovd_vmovw",
    "C18_vmovd_vmovw_memory"
   ],
   "note": "All VEX/EVEX methods of xbyak_mnemonic.h (970 signatures) against the instruction table IsaRows.v; 20 methods that violate it for some operands implement it for all others (C18_*_partial, C19_*_partial in PropVexMore.v); vmovq/vpextrw with two rows; opmask moves and tiles (operands without modifiers, 64-bit addresses). C18_*_refuted show the violations and the operand combinations excluded by the hypotheses. The table is written from the SDM without access to it. vscalefpbf16(x, op) is the only method without a row (no such instruction). C18_narrowing and C18_widening: the exact register sizes accepted by 38 narrowing and 20 widening methods; C18_widened_destination_refuted: combinations no processor has are accepted."
  },
  {
   "property": "C19",
   "status": "partial",
   "theorems": [
    "C19_evex_register_operands",
    "C19_evex_memory_operand",
    "C19_instruction_table_partial",
    "C19_vcvtsd2si_disp8_refuted",
    "C19_fp8_disp8_refuted",
    "C19_vsm3msg1_evex_refuted",
    "C19_vmpsadbw_broadcast_refuted",
    "C19_rounding_accepted_refuted",
    "C19_evex_memory_partial",
    "C19_vex_only_partial",
    "C19_no_broadcast_partial"
   ],
   "note": "C18_instruction_table covers the EVEX forms too; C19_instruction_table_partial is for 53 methods that accept a rounding modifier their instruction lacks (C19_rounding_accepted_refuted). C19_*_refuted: wrong disp8 factors, EVEX forms and broadcasts that do not exist; C19_evex_memory/vex_only/no_broadcast_partial: those methods are right otherwise."
  },
  {
   "property": "C20",
   "status": "partial",
   "theorems": [
    "C20_register_register",
    "C20_instruction_table",
    "C20_general_register_table"
   ],
   "note": "Every method of legacy_table and gpr_table (SSE/MMX/general-register methods) emits an instruction of its row; methods with mixed register kinds are in C44, fixed byte sequences and x87 in C43. High-byte registers together with REX-requiring operands are excluded (C21)."
  },
  {
   "property": "C21",
   "status": "partial",
   "theorems": [
    "C21_high_registers_partial",
    "C21_byte_pairs",
    "C21_rex_refuted"
   ],
   "note": "Register operands of every method of legacy_table and gpr_table: when the call succeeds and a byte register operand is ah..bh, the executed instruction names that register (C21_high_registers_partial), and pairs of byte registers that cannot be encoded are rejected (C21_byte_pairs). Refuted for memory operands based on r8 and above and for movzx/movsx/crc32/cmpxchg-style forms with a REX prefix: ah..bh silently become spl..dil. Not covered: APX forms and methods outside the two tables."
  },
  {
   "property": "C22",
   "status": "proved",
   "theorems": [
    "C22_mov_register",
    "C22_mov",
    "C22_mov_length",
    "C22_mov_accepts",
    "C22_mov_operands"
   ],
   "note": "All immediates and general registers, also memory operands and register/memory moves; the emitted bytes are executed by the machine of SpecExec. Lengths of the 64-bit form are the shortest of the three forms."
  },
  {
   "property": "C23",
   "status": "proved",
   "theorems": [
    "C23_alu_immediate",
    "C23_alu_form",
    "C23_alu_operands"
   ],
   "note": "All eight operations, all immediates, all operand sizes: executed by SpecExec; the one-byte form is used exactly when the immediate fits and the operand is wider than a byte."
  },
  {
   "property": "C24",
   "status": "proved",
   "theorems": [
    "C24_accepted",
    "C24_value",
    "C24_legacy_effective_address",
    "C24_tile_index_refuted"
   ],
   "note": "Exact acceptance and exact value for every expression over general, vector and address register objects; end to end decode for the legacy encodings (C18/C19 give it for VEX/EVEX). Refuted: a tile register is accepted as an index and encodes the general register of the same number."
  },
  {
   "property": "C25",
   "status": "proved",
   "theorems": [
    "C25_nop",
    "C25_align",
    "C25_bad_align",
    "C25_align_survives_growth"
   ],
   "note": "All n and alignments; every byte sequence is decoded by SpecX86. The alignment is also shown to survive growth of an AutoGrow buffer."
  },
  {
   "property": "C26",
   "status": "partial",
   "theorems": [
    "C26_push",
    "C26_pop",
    "C26_push_immediate",
    "C26_push_sized_immediate",
    "C26_push_small_extended_refuted"
   ],
   "note": "Proved for memory, 64-bit registers, registers below 16 and all immediates; refuted for the 8/16/32-bit registers 16-31, which are encoded as the 64-bit register."
  },
  {
   "property": "C27",
   "status": "partial",
   "theorems": [
    "C27_override",
    "C27_override_refuted",
    "C27_push_pop",
    "C27_push_pop_refuted",
    "C27_mov_from_segment",
    "C27_mov_to_segment"
   ],
   "note": "fs and gs overrides on any following instruction, push/pop fs/gs, mov from/to all segment registers; lss/lfs/lgs are in C44. Refuted: putSeg of es, cs, ss, ds emits the prefix of another segment; push/pop of es, cs, ss, ds emit opcodes invalid in 64-bit mode."
  },
  {
   "property": "C28",
   "status": "proved",
   "theorems": [
    "C28_accepted",
    "C28_registers",
    "C28_frame",
    "C28_overflow_refuted"
   ],
   "note": "Prologue and epilogue bytes are executed by a small machine (push, pop, add/sub rsp, mov, ret) for both calling conventions, every register count, flag and local size. Premise: the stack region does not wrap around the address space. Refuted: local sizes within 15 bytes of INT_MAX overflow."
  },
  {
   "property": "C29",
   "status": "partial",
   "theorems": [
    "C29_has_all",
    "C29_has_or",
    "C29_sets",
    "C29_features",
    "C29_avx512_features",
    "C29_extended_features",
    "C29_os_state",
    "C29_flags_partial",
    "C29_avx10_version_partial",
    "C29_os_state_refuted",
    "C29_leaf7_refuted",
    "C29_extended_leaf_refuted",
    "C29_keylocker_wide_refuted",
    "C29_avx10_version_refuted"
   ],
   "note": "Exact cpuid/xgetbv condition of every feature; AVX/FMA/AVX2/AVX-512 gated on OS state. Refuted: F16C, VAES, VPCLMULQDQ, SHA512, SM3/4, AVX_VNNI*, AVX_IFMA, AVX_NE_CONVERT, AVX10, AMX_*, APX_F are reported without OS state; AVX-512 read from leaf 7 without checking that it exists; AMD extended leaf used unchecked; KEYLOCKER_WIDE set by any of three flags; AVX10 version masked to 7 bits."
  },
  {
   "property": "C30",
   "status": "partial",
   "theorems": [
    "C30_same_code_without_errors",
    "C30_error_is_recorded",
    "C30_first_error_is_kept",
    "C30_never_throws",
    "C30_error_text",
    "C30_error_codes",
    "C30_what",
    "C30_error_value",
    "C30_first_error",
    "C30_negative_text_refuted",
    "C30_write_before_buffer_refuted",
    "C30_write_after_failed_growth_refuted"
   ],
   "note": "The no-exception build: same code while no error occurs, every error of the exception build is recorded unless the call runs into UB, the first error is kept, nothing is thrown. The two C30_*_refuted theorems show writes outside the buffer after an error. Encoders of NoExcEnc.v."
  },
  {
   "property": "C31",
   "status": "proved",
   "theorems": [
    "C31_failing_call_keeps_code",
    "C31_failing_call_keeps_labels",
    "C31_failing_definition_keeps_definitions"
   ],
   "note": ""
  },
  {
   "property": "C32",
   "status": "partial",
   "theorems": [
    "C32_selected_encoding",
    "C32_operands_decide",
    "C32_evex_only_for_a_reason",
    "C32_vpmadd52_refuted"
   ],
   "note": "All 18 methods with an encoding parameter, any operands. Of the others, every method whose instruction has a VEX form (436 table entries) emits VEX unless an operand, the vector length or a memory shift count needs EVEX (C32_evex_only_for_a_reason). Refuted: vpmadd52luq/vpmadd52huq have VEX forms that are never used."
  },
  {
   "property": "C33",
   "status": "partial",
   "theorems": [
    "C33_avx2_gather",
    "C33_avx512_gather",
    "C33_scatter",
    "C33_prefetch",
    "C33_avx2_index_refuted",
    "C33_avx2_length_refuted",
    "C33_prefetch_mask_refuted"
   ],
   "note": "All gathers, scatters and prefetches. Excluded and refuted: AVX2 gathers with index 16..31 or zmm data, prefetch without mask."
  },
  {
   "property": "C34",
   "status": "partial",
   "theorems": [
    "C34_cvt_vector",
    "C34_cvt_general_to_vector",
    "C34_cvt_mask_refuted",
    "C34_general_registers",
    "C34_back",
    "C34_vector_registers",
    "C34_general_to_vector",
    "C34_vector_to_general",
    "C34_bad_width",
    "C34_cvt",
    "C34_other_files_refuted"
   ],
   "note": "All general and vector registers and all widths. Refuted: the other register files (mmx, mask, x87, bound, tile) are accepted by cvtNN/changeBit (C34_other_files_refuted); cvt128 .. cvt512 drop the mask that changeBit keeps (C34_cvt_mask_refuted)."
  },
  {
   "property": "C35",
   "status": "partial",
   "theorems": [
    "C35_sequence",
    "C35_sub_past_end_refuted"
   ],
   "note": "All histories with in-range arguments. Refuted: sub(pos) with pos past the end passes the bounds check by wrap-around and runs out of the array (C35_sub_past_end_refuted)."
  },
  {
   "property": "C36",
   "status": "proved",
   "theorems": [
    "C36_protect",
    "C36_protect_mode",
    "C36_aligned_address",
    "C36_aligned_address_wrap_refuted"
   ],
   "note": "protect: for size > 0 and addr+size < 2^64; getAlignedAddress: when addr+x does not pass 2^64 (otherwise it wraps to null: C36_aligned_address_wrap_refuted)."
  },
  {
   "property": "C37",
   "status": "proved",
   "theorems": [
    "C37_free",
    "C37_unmaps_live",
    "C37_disjoint",
    "C37_size"
   ],
   "note": "Default MmapAllocator (no XBYAK_USE_MEMFD/MAP_JIT); all histories of alloc and free, mmap answers as oracle with the promise os_ok."
  },
  {
   "property": "C38",
   "status": "proved",
   "theorems": [
    "C38_set_and_cmov",
    "C38_apx_conditions",
    "C38_jumps",
    "C38_label_jump_bytes",
    "C38_address_jump_bytes",
    "C38_count_jump_bytes",
    "C38_aliases_agree",
    "C38_negation_flips_bit0",
    "C38_suffix_after_cmp"
   ],
   "note": "30 suffixes x jcc (label and address), setcc, cmovcc and their APX forms, 16 suffixes x cfcmov and cmpccxadd (extended registers), 28 suffixes x ccmp/ctest: the emitted code is the one whose hardware test equals the meaning of the suffix; aliases agree, negation flips bit 0 only; the suffixes mean the signed/unsigned relations after cmp. jcxz/jecxz/jrcxz/loop/loope/loopne: bytes and distance."
  },
  {
   "property": "C39",
   "status": "partial",
   "theorems": [
    "C39_no_shared_encodings",
    "C39_vpermq_is_vpermd_refuted",
    "C39_vmovhps_is_vmovlhps_refuted",
    "C39_all_instructions"
   ],
   "note": "C39_all_instructions: all pairs of methods of the VEX/EVEX, legacy, mixed, APX, opmask/tile, x87 and fixed-byte tables and the branch opcodes (3944 patterns), any accepted operands of the documented kinds, any bytes after the instruction; up to a list of alternative names. C39_*_refuted: vpermq(ymm, ymm, op) emits vpermd, two-operand vmovhps(xmm, xmm) emits vmovlhps. Not in the tables: the 20 VEX/EVEX methods with a known defect, vmovq/vpextrw, umonitor/tpause/umwait, jmpabs, nop."
  },
  {
   "property": "C40",
   "status": "partial",
   "theorems": [
    "C40_length",
    "C40_sizes_oo",
    "C40_sizes_mov_partial",
    "C40_sizes_ro_partial",
    "C40_sizes_shxd_partial",
    "C40_sizes_rrr",
    "C40_unsized_rejected",
    "C40_sizes_refuted",
    "C40_unsized_refuted"
   ],
   "note": "Length: every method of the model (2520 entries, arbitrary arguments) emits at most 15 bytes; jumps, nop(n) and align are outside the table. Sizes: proved for add..xor, mov, test, xadd, cmpxchg, bt.., bsf, bsr, popcnt, lzcnt, tzcnt, imul, cmovcc, shld, shrd without APX forms, and for the three-register BMI forms; memory without a size is rejected by the immediate forms, inc and dec. Refuted: xchg with the accumulator, mov with a 64-bit address and the APX forms accept operands of different sizes; mul, div, neg, not, shifts by cl, bt with an immediate, movzx, movsx accept memory without a size."
  },
  {
   "property": "C41",
   "status": "partial",
   "theorems": [
    "C41_apx_methods",
    "C41_rex_refuses_nf_zu",
    "C41_bls_drops_nf_refuted",
    "C41_andn_drops_nf_refuted",
    "C41_mul_drops_zu_refuted",
    "C41_address32_refuted",
    "C41_mixed_sizes_refuted",
    "C41_high_byte_refuted",
    "C41_cmov_byte_refuted",
    "C41_setcc_size_refuted",
    "C41_sha_and_key_locker",
    "C41_wide_key_locker",
    "C41_encodekey",
    "C41_sha_general_register_refuted",
    "C41_encodekey_r8_refuted"
   ],
   "note": "322 methods (all three-operand, NF, ZU, ccmp/ctest, cfcmov, setcc and BMI forms) for operands of one size with 64-bit addresses: every accepted call emits the APX instruction of its row. REX and REX2 forms refuse T_nf and T_zu. C41_*_refuted: blsi/blsmsk/blsr and andn drop T_nf, mul drops T_zu, 32-bit addresses lose their prefix, mixed sizes, ah..bh and byte cmov are accepted. AMX and kmov with r16..r31 are in C18_opmask_moves and C18_tile_moves, the SHA, key locker and ENCODEKEY forms with r16..r31 in C41_sha_and_key_locker, C41_wide_key_locker, C41_encodekey."
  },
  {
   "property": "C42",
   "status": "proved",
   "theorems": [
    "C42_compare_pseudo_ops",
    "C42_sse_compare_bytes",
    "C42_avx_compare_bytes",
    "C42_mask_compare_bytes",
    "C42_clmul_pseudo_ops",
    "C42_omitted_operand",
    "C42_operator_names"
   ],
   "note": "All 288 comparison pseudo-operations carry the predicate of their name (SpecAlias.v: SDM table of 32 predicates, meaning of the name), and what they emit is CMPcc/VCMPcc with that immediate; pclmul quadword names; all 256 omitted-operand methods; and/or/xor/not."
  },
  {
   "property": "C43",
   "status": "partial",
   "theorems": [
    "C43_fixed_bytes",
    "C43_immediate_bytes",
    "C43_ret_range_refuted",
    "C43_wait_instructions",
    "C43_status_word",
    "C43_x87_arithmetic",
    "C43_x87_one_parameter",
    "C43_x87_to_st0_partial",
    "C43_x87_to_st0_refuted",
    "C43_x87_memory"
   ],
   "note": "137 methods without operands, immediates, x87 register and memory forms; refuted: fcomi(st1, st0) and 11 others emit an ADD instead of an error, ret(65536) is truncated"
  },
  {
   "property": "C44",
   "status": "partial",
   "theorems": [
    "C44_test_immediate",
    "C44_imul_immediate_partial",
    "C44_xchg",
    "C44_bswap",
    "C44_xchg_sizes_refuted",
    "C44_mov_moffs",
    "C44_mov_moffs_only",
    "C44_files_partial",
    "C44_system_partial",
    "C44_wait_forms",
    "C44_pextrw_memory",
    "C44_encodekey_partial",
    "C44_word_memory_refuted",
    "C44_far_pointer_refuted",
    "C44_cvtsi2sd_memory_refuted",
    "C44_pinsrd_refuted",
    "C44_pinsrw_immediate_refuted",
    "C44_wider_register_refuted",
    "C44_pshufd_mmx_refuted",
    "C44_bt_byte_refuted"
   ],
   "note": "166 methods proved against rows of the SDM; excluded argument classes (memory declared with a size that adds or drops a prefix, registers wider than the parameter's file, far-pointer loads with a sized or r16-r31 operand, encodekey with r8-r31) are either refuted by witnesses or stated as hypotheses."
  },
  {
   "property": "C45",
   "status": "partial",
   "theorems": [
    "C45_profiler_history",
    "C45_family",
    "C45_cores",
    "C45_num_cores",
    "C45_cores_defined_partial",
    "C45_intel_caches",
    "C45_amd_caches",
    "C45_old_amd_caches",
    "C45_cache_index",
    "C45_clock",
    "C45_profiler",
    "C45_other_vendor_refuted",
    "C45_legacy_intel_refuted",
    "C45_legacy_amd_refuted",
    "C45_l3_size_refuted"
   ],
   "note": "All cpuid answers with the documented structure (leaf 0Bh; list of caches ending with type 0); sizes modulo 2^32. Refuted: getNumCores(CoreLevel) divides by zero on other vendors and with some legacy counts, the AMD legacy count divides by zero in the constructor, an L3 size of 2 GiB or more overflows int."
  },
  {
   "property": "C46",
   "status": "partial",
   "theorems": [
    "C46_names",
    "C46_names_distinct",
    "C46_no_name",
    "C46_members",
    "C46_shorthands",
    "C46_frames",
    "C46_util_partial",
    "C46_util_tmm_refuted",
    "C46_binary_constants",
    "C46_equality",
    "C46_same_partial",
    "C46_nf_refuted",
    "C46_memory_mask_refuted",
    "C46_tile_name_refuted"
   ],
   "note": "names, distinctness, declared objects and the equivalence are proved for all registers and operands; == is identity only for operands without NF/ZU and without mask, zeroing or rounding on memory (refuted theorems), util::tmm0..7 are Zmm objects (refuted)"
  },
  {
   "property": "C47",
   "status": "proved",
   "theorems": [
    "C47_modifiers",
    "C47_twice",
    "C47_order",
    "C47_k0",
    "C47_first_stays",
    "C47_memory",
    "C47_memory_twice",
    "C47_rip",
    "C47_rip_two"
   ],
   "note": "modifiers of registers and memory operands and rip expressions, for lists of any length; RegRip arithmetic on int64_t is taken to wrap around"
  },
  {
   "property": "C48",
   "status": "partial",
   "theorems": [
    "C48_same_code",
    "C48_lea",
    "C48_vmovmskps",
    "C48_vmovmskpd",
    "C48_vfpclasspbf16",
    "C48_bndldx",
    "C48_bndstx",
    "C48_mov",
    "C48_xchg",
    "C48_inc",
    "C48_dec",
    "C48_jmp",
    "C48_call",
    "C48_push_memory",
    "C48_pop_memory",
    "C48_inc_register",
    "C48_dec_register",
    "C48_push_register",
    "C48_pop_register",
    "C48_umonitor",
    "C48_xchg_eax",
    "C48_moffs_load",
    "C48_moffs_store",
    "C48_only32",
    "C48_moffs_size_refuted",
    "C48_qword_refuted",
    "C48_inc_two_operands_refuted",
    "C48_apx_refuted",
    "C48_xmm8_refuted",
    "C48_reg8_refuted",
    "C48_mov_label"
   ],
   "note": "2226 methods and the named exceptions proved, 382 of them for operands whose sizes fit (the 32-bit build does not check the size of memory against an MMX register); mov reg, label and jumps to labels are not compared; the rejection part is refuted (qword memory, mov ax,dword[disp], APX forms, Xmm(8), Reg32(8), inc with two operands)"
  },
  {
   "property": "C49",
   "status": "proved",
   "theorems": [
    "C49_same_instruction",
    "C49_legacy",
    "C49_mixed",
    "C49_vector",
    "C49_vector_preferred"
   ],
   "note": "2013 methods: same instruction in both modes; 1373 instruction forms decoded by the 32-bit decoder; excluded: rounding modifiers, APX forms, 64-bit memory operands of 75 methods (refuted in C48), addresses of a displacement only in the instruction table part"
  },
  {
   "property": "C50",
   "status": "partial",
   "theorems": [
    "C50_convert",
    "C50_convert_byte",
    "C50_cvt",
    "C50_cvt8",
    "C50_changeBit64_refuted",
    "C50_extended_refuted",
    "C50_address_accepted",
    "C50_address_value"
   ],
   "note": "acceptance, value and conversions proved; refuted: changeBit(64) is accepted in the 32-bit build, registers 8..15 are converted"
  },
  {
   "property": "C51",
   "status": "partial",
   "theorems": [
    "C51_test",
    "C51_test_immediate",
    "C51_unary_partial",
    "C51_shift_partial",
    "C51_shift_cl_partial",
    "C51_lea",
    "C51_extend",
    "C51_movsxd",
    "C51_set_partial",
    "C51_cmov",
    "C51_imul_partial",
    "C51_imul_immediate_partial",
    "C51_bswap",
    "C51_xchg"
   ],
   "note": "All listed instructions executed by SpecExec for all operands, immediates and states; registers r16-r31 are left out for inc, dec, not, neg, shifts, setcc and imul (the APX forms of these methods are separate)."
  },
  {
   "property": "C52",
   "status": "proved",
   "theorems": [
    "C52_entry",
    "C52_step",
    "C52_run",
    "C52_processor_follows",
    "C52_labels_defined",
    "C52_progress",
    "C52_data",
    "C52_table",
    "C52_conditional_jumps",
    "C52_sum"
   ],
   "note": "Steps, runs and the converse for programs of the instructions of C22, C23, C26, C51 and the vector and SSE instructions of C54 and C55 with jumps, calls, returns, labels, label references, jump tables and data. Of the instructions with [rip + label] lea and the two register moves are included; self-modifying code is outside. Allocator below 2^48 bytes, fewer than 2^31 labels."
  },
  {
   "property": "C53",
   "status": "partial",
   "theorems": [
    "C53_jump",
    "C53_call",
    "C53_register",
    "C53_far",
    "C53_far_only",
    "C53_qword_refuted",
    "C53_narrow_refuted"
   ],
   "note": "jmp/call through registers and memory and far branches proved; refuted: qword memory operands are always refused, dword/byte memory and 32-bit registers are accepted"
  },
  {
   "property": "C54",
   "status": "proved",
   "theorems": [
    "C54_methods",
    "C54_methods_no_rounding",
    "C54_covered",
    "C54_lane",
    "C54_above",
    "C54_rest",
    "C54_memory_lane",
    "C54_statement",
    "C54_vector_sum"
   ],
   "note": "427 instructions of the tables of C18 and C19 (general registers as operands excluded); floating-point results are an uninterpreted function of operation, width, rounding and operands; MXCSR, faults and alignment checks are outside"
  },
  {
   "property": "C55",
   "status": "proved",
   "theorems": [
    "C55_methods",
    "C55_stores",
    "C55_covered",
    "C55_lane",
    "C55_upper",
    "C55_rest",
    "C55_statement",
    "C55_array_sum"
   ],
   "note": "150 SSE instructions: execution for every operand the methods accept without vector modifiers and mm registers; registers 16-31 are APX/EVEX territory and excluded by the operand classes. No alignment faults in the machine."
  },
  {
   "property": "C56",
   "status": "partial",
   "theorems": [
    "C56_legacy",
    "C56_mixed",
    "C56_vector_partial",
    "C56_vsm4_refuted",
    "C56_valign_broadcast_refuted",
    "C56_fixupimm_sae_refuted",
    "C56_cvtt_sae_refuted",
    "C56_apx",
    "C56_legacy32",
    "C56_mixed32",
    "C56_vector32_partial"
   ],
   "note": "Legacy methods: all forms for register numbers 0..15; APX: all forms for registers 16..31; 32-bit build: all forms for registers 0..7. Vector methods: all lengths and operand kinds for two register windows each (one in the 32-bit build, without rounding), on the initial generator with one immediate. Left out because xbyak rejects them (refuted for all operands): vsm4key4/vsm4rnds4 ymm/zmm, valignd/valignq broadcast, vfixupimmss/sd {sae}, vcvttps2ibs, vcvttps2iubs, vcvttph2ibs, vcvttph2iubs {sae}."
  },
  {
   "property": "C57",
   "status": "partial",
   "theorems": [
    "C57_rejected_partial",
    "C57_listed_refuted",
    "C57_alike_refuted",
    "C57_vector_lengths",
    "C57_vector_file_refuted"
   ],
   "note": "Exact for 508 legacy methods over operands of every kind and size (registers 0, 1, 2, 12, initial generator, immediate 1); the calls accepted wrongly are listed (Reject.also). Vector methods: lengths of the first two registers are checked (proved); the file of the last register is not (refuted for 646 methods); its length is the subject of C18."
  },
  {
   "property": "C58",
   "status": "proved",
   "theorems": [
    "C58_calls",
    "C58_run",
    "C58_returns",
    "C58_one_run",
    "C58_unmatched_refuted"
   ],
   "note": "System V branch of sample/bf.cpp; matching brackets; tape up to 2^31 bytes. The run is a sequence of instructions of the processor of C52 and of library calls that follow the ABI. C58_unmatched_refuted: an unmatched [ is not reported, an unmatched ] is undefined behaviour"
  },
  {
   "property": "C59",
   "status": "proved",
   "theorems": [
    "C59_accepted",
    "C59_calls",
    "C59_value",
    "C59_deep_refuted"
   ],
   "note": "System V branch of sample/calc.cpp; the boost grammar is represented by the order of its semantic actions; what the floating-point operations compute is arbitrary. C59_deep_refuted: too deep expressions end in std::terminate"
  },
  {
   "property": "C60",
   "status": "proved",
   "theorems": [
    "C60_plan",
    "C60_domain",
    "C60_udiv",
    "C60_calls",
    "C60_bytes",
    "C60_quantize",
    "C60_zero_refuted",
    "C60_negative_refuted",
    "C60_shift_refuted"
   ],
   "note": "tables of at most 64 divisors (N of the sample); the 32-bit machine and decoder (SpecDiv, SpecDivDec) cover the instruction forms used. Refuted: d = 0 and d >= 2^31 never return, odd d >= 2^30 shift out of range"
  },
  {
   "property": "C61",
   "status": "proved",
   "theorems": [
    "C61_calls",
    "C61_sum",
    "C61_endless_refuted",
    "C61_add_operand",
    "C61_other_calls",
    "C61_add",
    "C61_jmp",
    "C61_call",
    "C61_reset"
   ],
   "note": "the System V branches (XBYAK64_GCC) of sample/test0.cpp; atoi is an address; n of Reset::init is an integer (the int overflow of 10 - n is not modelled)"
  }
 ]
}