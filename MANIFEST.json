{
 "claims": [
  {
   "property": "C01",
   "status": "proved",
   "theorems": [
    "C01_wrap_arithmetic",
    "C01_wrap_arithmetic_lane"
   ],
   "note": ""
  },
  {
   "property": "C02",
   "status": "proved",
   "theorems": [
    "C02_saturating",
    "C02_saturating_lane"
   ],
   "note": ""
  },
  {
   "property": "C03",
   "status": "proved",
   "theorems": [
    "C03_compare",
    "C03_compare_lane"
   ],
   "note": ""
  },
  {
   "property": "C04",
   "status": "proved",
   "theorems": [
    "C04_halving",
    "C04_halving_lane"
   ],
   "note": ""
  },
  {
   "property": "C05",
   "status": "proved",
   "theorems": [
    "C05_mulh",
    "C05_mulh_lane"
   ],
   "note": ""
  },
  {
   "property": "C06",
   "status": "partial",
   "theorems": [
    "C06_dmulh",
    "C06_dmulh_lane",
    "C06_dmulh_rn_exact_lane",
    "C06_dmulh_rn_nearest_refuted"
   ],
   "note": "everything except the last sentence: nearest rounding of the .rn form is false of the code (refuted), its exact value is proved instead"
  },
  {
   "property": "C07",
   "status": "partial",
   "theorems": [
    "C07_shift_partial",
    "C07_shift_lane_partial",
    "C07_shift_min_refuted"
   ],
   "note": "proved for all lanes except a non-zero 32-bit lane shifted by -2^31, where the code negates INT_MIN (refuted)"
  },
  {
   "property": "C08",
   "status": "proved",
   "theorems": [
    "C08_narrowing",
    "C08_narrowing_lane"
   ],
   "note": ""
  },
  {
   "property": "C09",
   "status": "proved",
   "theorems": [
    "C09_shifts",
    "C09_shifts_lane"
   ],
   "note": ""
  },
  {
   "property": "C10",
   "status": "proved",
   "theorems": [
    "C10_rev_ror",
    "C10_rev_ror_lane"
   ],
   "note": ""
  },
  {
   "property": "C11",
   "status": "proved",
   "theorems": [
    "C11_bitwise",
    "C11_bitwise_lane",
    "C11_not_mv_lane"
   ],
   "note": ""
  },
  {
   "property": "C12",
   "status": "proved",
   "theorems": [
    "C12_widening",
    "C12_accumulate",
    "C12_pairwise",
    "C12_widening_lane"
   ],
   "note": ""
  },
  {
   "property": "C13",
   "status": "proved",
   "theorems": [
    "C13_permutation",
    "C13_select",
    "C13_evnodd_zip",
    "C13_zip_evnodd"
   ],
   "note": ""
  },
  {
   "property": "C14",
   "status": "proved",
   "theorems": [
    "C14_writes_only_destination",
    "C14_destination_determined"
   ],
   "note": "scalar registers, memory and accumulators are not part of the result of the modelled functions"
  },
  {
   "property": "C15",
   "status": "proved",
   "theorems": [
    "C15_strip_is_four_singles",
    "C15_strip_is_four_singles_unary"
   ],
   "note": "the no-overlap conditions of the other families are hypotheses of C08, C12 and C13"
  },
  {
   "property": "C16",
   "status": "proved",
   "theorems": [
    "C16_widen_narrow",
    "C16_widen_twice_narrow"
   ],
   "note": ""
  },
  {
   "property": "C17",
   "status": "proved",
   "theorems": [
    "C17_aconv",
    "C17_one_pair_per_cell"
   ],
   "note": "command fields as laid out by the little-endian bit-field ABI"
  },
  {
   "property": "C18",
   "status": "proved",
   "theorems": [
    "C18_illegal_traps",
    "C18_legal_reads_groups"
   ],
   "note": ""
  },
  {
   "property": "C19",
   "status": "proved",
   "theorems": [
    "C19_acset",
    "C19_vcget",
    "C19_round_trip",
    "C19_second_vcget_zero"
   ],
   "note": ""
  },
  {
   "property": "C20",
   "status": "partial",
   "theorems": [
    "C20_dwconv",
    "C20_every_word_has_one_lane",
    "C20_register_selection",
    "C20_illegal_sparsity_refuted"
   ],
   "note": "legal commands fully characterised (including when the int32 accumulation overflows, which is undefined); the sentence about illegal sparsity modes is false of the code: refuted for every command and state"
  },
  {
   "property": "C21",
   "status": "partial",
   "theorems": [
    "C21_adwinit_partial",
    "C21_overlap_refuted"
   ],
   "note": "proved unless vd starts inside the source group (vd = vs+1..vs+3); there it is refuted"
  },
  {
   "property": "C22",
   "status": "proved",
   "theorems": [
    "C22_vld"
   ],
   "note": ""
  },
  {
   "property": "C23",
   "status": "proved",
   "theorems": [
    "C23_vst",
    "C23_store_then_load"
   ],
   "note": ""
  },
  {
   "property": "C24",
   "status": "proved",
   "theorems": [
    "C24_vstq",
    "C24_quarter_address"
   ],
   "note": ""
  },
  {
   "property": "C25",
   "status": "proved",
   "theorems": [
    "C25_post_increment",
    "C22_vld",
    "C23_vst",
    "C24_vstq"
   ],
   "note": ""
  },
  {
   "property": "C26",
   "status": "proved",
   "theorems": [
    "C26_getvl",
    "C26_strip_mining_loop"
   ],
   "note": ""
  },
  {
   "property": "C27",
   "status": "proved",
   "theorems": [
    "C27_vdup"
   ],
   "note": ""
  },
  {
   "property": "C28",
   "status": "partial",
   "theorems": [
    "C28_unambiguous_partial",
    "C28_unambiguous_refuted"
   ],
   "note": "unambiguous for all words once acset/actr/adwinit carry their canonical func1/form; the tables as written are ambiguous (refuted)"
  },
  {
   "property": "C29",
   "status": "partial",
   "theorems": [
    "C29_decodes_to_itself_partial",
    "C29_decodes_to_an_encoding",
    "C29_decodes_to_itself_refuted"
   ],
   "note": "proved for all words outside the acset/actr/adwinit overlap; refuted inside it"
  },
  {
   "property": "C30",
   "status": "proved",
   "theorems": [
    "C30_fields_select_semantics",
    "C55_vector_word"
   ],
   "note": "and/or/xor/not/mv/mvp work alike on all widths and leave the size bits free"
  },
  {
   "property": "C31",
   "status": "partial",
   "theorems": [
    "C31_groups_cover_accesses_partial",
    "C31_groups_cover_accesses_refuted"
   ],
   "note": "all words except non-canonical acset/actr/adwinit words, where it is refuted"
  },
  {
   "property": "C32",
   "status": "partial",
   "theorems": [
    "C32_scalar_reads",
    "C32_scalar_writes_partial",
    "C32_x0_constant_refuted"
   ],
   "note": "reads fully; writes except words whose 6-bit vs1 field is 1, which overwrite x0 (refuted)"
  },
  {
   "property": "C55",
   "status": "proved",
   "theorems": [
    "C55_elementwise_word",
    "C55_vector_word",
    "C55_load_word",
    "C55_store_word"
   ],
   "note": ""
  },
  {
   "property": "C33",
   "status": "partial",
   "theorems": [
    "C33_breakpoints_transparent_partial",
    "C33_cleared_partial",
    "C33_run_exact_partial",
    "C33_breakpoint_set",
    "C33_clear_at_breakpoint_refuted",
    "C33_pc_write_at_breakpoint_refuted",
    "C33_code_write_refuted"
   ],
   "note": "all histories of calls outside four patterns, for programs that do not write their own code; the excluded patterns (Step, ClearBreakpoint, pc write while stopped at the breakpoint; debugger writes to code) are refuted"
  },
  {
   "property": "C34",
   "status": "partial",
   "theorems": [
    "C34_step_exact_partial",
    "C34_step_rejected",
    "C34_step_at_breakpoint_refuted",
    "C34_step_one_refuted",
    "C34_count_refuted"
   ],
   "note": "exact unless the core is stopped at a breakpoint; there it is refuted"
  },
  {
   "property": "C35",
   "status": "partial",
   "theorems": [
    "C33_run_exact_partial",
    "C34_step_exact_partial",
    "C35_run_at_breakpoint_refuted",
    "C35_ebreak_under_breakpoint_refuted"
   ],
   "note": "Step always; Run except for the instruction it resumes from at a breakpoint, where it is refuted"
  },
  {
   "property": "C36",
   "status": "proved",
   "theorems": [
    "C36_write_memory",
    "C36_read_memory",
    "C36_rejected",
    "C36_code_write_refuted"
   ],
   "note": "the refuted theorem is about execution after a write, beyond the claim"
  },
  {
   "property": "C37",
   "status": "proved",
   "theorems": [
    "C37_load_image",
    "C37_load_image_rejected"
   ],
   "note": "when the file does not fit, the part below the top of memory is written before the error is returned"
  },
  {
   "property": "C38",
   "status": "proved",
   "theorems": [
    "C38_register_round_trip",
    "C38_csr",
    "C38_rejected",
    "C38_wide_register"
   ],
   "note": "CSRs: exactly the CSR's own write and read; registers of 32 bytes are rejected"
  },
  {
   "property": "C39",
   "status": "proved",
   "theorems": [
    "C39_rejected_while_running",
    "C39_halted_between_calls",
    "C39_halt"
   ],
   "note": "LoadImage returns Internal rather than FailedPrecondition"
  },
  {
   "property": "C56",
   "status": "partial",
   "theorems": [
    "C56_disassembly_partial"
   ],
   "note": "for the histories of C33"
  },
  {
   "property": "C41",
   "status": "partial",
   "theorems": [
    "C41_format_partial",
    "C41_text_unique",
    "C41_program_partial",
    "C41_trailing_percent_refuted",
    "C41_missing_argument_refuted",
    "C41_percent_percent_refuted"
   ],
   "note": "all formats whose conversions have an argument and which do not end in %; the other two cases are exactly characterised (process dies, out-of-bounds read); %% is not a literal percent"
  },
  {
   "property": "C42",
   "status": "partial",
   "theorems": [
    "C42_string_load_partial",
    "C42_gathering",
    "C42_no_terminator",
    "C42_last_group_refuted"
   ],
   "note": "string loading needs the 4-byte group holding the terminator to lie below the limit (refuted otherwise); clog fully"
  },
  {
   "property": "C43",
   "status": "proved",
   "theorems": [
    "C43_store"
   ],
   "note": ""
  },
  {
   "property": "C44",
   "status": "partial",
   "theorems": [
    "C44_access_partial",
    "C44_fsw_partial",
    "C44_fsw_refuted",
    "C44_top_refuted",
    "C44_top_range_refuted"
   ],
   "note": "exact for accesses and ranges that end below 4 GiB; refuted at 4 GiB and for fsw, which checks 8 bytes"
  },
  {
   "property": "C45",
   "status": "partial",
   "theorems": [
    "C45_fetch_partial",
    "C45_fetch_exactly",
    "C45_fault",
    "C45_short_range_refuted",
    "C45_high_address_refuted"
   ],
   "note": "exact condition for all configurations; equal to the claim for 32-bit addresses and ranges that end in 4..2^32-1, refuted otherwise"
  },
  {
   "property": "C46",
   "status": "proved",
   "theorems": [
    "C46_mpause"
   ],
   "note": ""
  },
  {
   "property": "C47",
   "status": "proved",
   "theorems": [
    "C47_misa",
    "C47_factory"
   ],
   "note": ""
  },
  {
   "property": "C48",
   "status": "partial",
   "theorems": [
    "C48_return_values",
    "C48_instance",
    "C48_reset",
    "C48_after_mpause",
    "C48_lockstep",
    "C48_no_crash_partial",
    "C48_load_refuted",
    "C48_config_refuted",
    "C48_reset_program_refuted"
   ],
   "note": "every clause but the last; no crash needs valid pointers and no load/config before init"
  },
  {
   "property": "C49",
   "status": "partial",
   "theorems": [
    "C49_ids",
    "C49_unique_partial",
    "C49_valid",
    "C49_destroyed",
    "C49_unknown_returns",
    "C49_isolated",
    "C49_nonzero_refuted"
   ],
   "note": "everything but non-zero, for fewer than 2^32 constructions; the first id is 0 (refuted)"
  },
  {
   "property": "C50",
   "status": "partial",
   "theorems": [
    "C50_step_partial",
    "C50_terminates",
    "C50_count_refuted"
   ],
   "note": "all but the returned total, which is reported modulo 2^32 (refuted for 2^32 and more)"
  },
  {
   "property": "C51",
   "status": "partial",
   "theorems": [
    "C51_halt_partial",
    "C51_unmapped_refuted"
   ],
   "note": "the exact status for every reason; hardware breakpoints and other reasons leave it unwritten (refuted)"
  },
  {
   "property": "C52",
   "status": "partial",
   "theorems": [
    "C52_reg_info_partial",
    "C52_name_length",
    "C52_terminator_refuted",
    "C52_negative_length_refuted"
   ],
   "note": "for names shorter than the given length; refuted for others and for negative lengths"
  },
  {
   "property": "C53",
   "status": "partial",
   "theorems": [
    "C53_construct",
    "C53_load_partial",
    "C53_store_partial",
    "C53_gather_partial",
    "C53_scatter_partial",
    "C53_vector_reject_partial",
    "C53_without_checks",
    "C53_units_load_partial",
    "C53_units_store_partial",
    "C53_units_gather_partial",
    "C53_unit_stride_refuted",
    "C53_scatter_atomic_refuted",
    "C53_unchecked_refuted",
    "C53_unit_refuted",
    "C53_base_refuted",
    "C53_large_block_refuted"
   ],
   "note": "exact for byte units, block sizes below 2^31 and an array covering everything up to the end address; in builds without the checks for accesses inside; larger units for accesses inside one block; a scatter store outside is rejected after the earlier elements are written (refuted); the other cases refuted"
  },
  {
   "property": "C54",
   "status": "partial",
   "theorems": [
    "C54_terminates_partial",
    "C54_returned_partial",
    "C54_failure",
    "C54_no_timeout",
    "C54_mailbox",
    "C54_mailbox_frame",
    "C54_read",
    "C54_tcm",
    "C54_start_refuted"
   ],
   "note": "exact from the first instruction on; the check is missing before the first instruction (refuted)"
  },
  {
   "property": "C40",
   "status": "partial",
   "theorems": [
    "C40_run",
    "C40_halt_stops_partial",
    "C40_no_fault_partial",
    "C40_wait_ended_partial",
    "C40_wait_returns_partial",
    "C40_wait_refuted",
    "C40_wait_pointer_refuted",
    "C40_double_notify_refuted",
    "C40_halt_lost_refuted",
    "C40_destructor_refuted",
    "C40_destructor_waits_refuted",
    "C40_race_refuted"
   ],
   "note": "all interleavings; halting proved without action points, waiting proved for clients that start a run only when the earlier run threads have ended; each restriction is needed (refuted otherwise)"
  },
  {
   "property": "C57",
   "status": "partial",
   "theorems": [
    "C57_manual_partial",
    "C57_holes_refuted",
    "C57_odd_refuted",
    "C57_vrsub_refuted",
    "C57_vsuxseg_refuted",
    "C57_fault_first_refuted"
   ],
   "note": "all 388 encodings of the manuals' table but the words of six patterns, which are refused; vrsub.vi, vsuxsegei8/16/32 and the fault-only-first loads are refuted"
  },
  {
   "property": "C58",
   "status": "partial",
   "theorems": [
    "C58_accepted_partial",
    "C58_accepted_refuted"
   ],
   "note": "an explicit list of reserved patterns is accepted too (refuted)"
  },
  {
   "property": "C59",
   "status": "partial",
   "theorems": [
    "C59_manual_unique",
    "C59_row_choice_partial",
    "C59_row_choice_refuted"
   ],
   "note": "except integer operations on x0 and fences with an empty set, where rows that do nothing overlap rows with the operation"
  },
  {
   "property": "C60",
   "status": "proved",
   "theorems": [
    "C60_operands_exist",
    "C60_immediates",
    "C57_manual_partial"
   ],
   "note": ""
  },
  {
   "property": "C61",
   "status": "partial",
   "theorems": [
    "C61_load_partial",
    "C61_store_partial",
    "C44_fsw_refuted",
    "C44_top_refuted"
   ],
   "note": "accesses and ranges that end below 4 GiB; fsw checks 8 bytes"
  },
  {
   "property": "C62",
   "status": "partial",
   "theorems": [
    "C62_mnemonic_partial",
    "C62_mnemonic_refuted"
   ],
   "note": "except 12 texts that different instructions share (refuted), 6 shared by forms of one instruction, and hints, which do nothing"
  },
  {
   "property": "C63",
   "status": "partial",
   "theorems": [
    "C63_manual_partial",
    "C63_manual_refuted",
    "C63_hint_refuted"
   ],
   "note": "all 94 entries but jalr x0, imm(x1) and addi x0, x0, imm with a nonzero immediate, which are refused, and one HINT executed as adwinit; Zbb words are left to mpact-riscv's decoders"
  },
  {
   "property": "C64",
   "status": "partial",
   "theorems": [
    "C64_accepted_partial",
    "C64_opcodes",
    "C64_one_meaning",
    "C64_accepted_refuted"
   ],
   "note": "except reserved words that match the rows of acset, actr and adwinit (refuted)"
  },
  {
   "property": "C65",
   "status": "partial",
   "theorems": [
    "C65_text_partial",
    "C65_targets",
    "C65_store_refuted",
    "C65_csr_refuted"
   ],
   "note": "except nine groups of opcodes that share a text (refuted) and fence, fence.i, whose operand is not shown; canonical acset, actr, adwinit"
  },
  {
   "property": "C66",
   "status": "proved",
   "theorems": [
    "C66_store_words"
   ],
   "note": ""
  },
  {
   "property": "C67",
   "status": "partial",
   "theorems": [
    "C67_image_partial",
    "C67_elf",
    "C67_refused",
    "C67_short_file_refuted",
    "C67_status_refuted"
   ],
   "note": "files of fewer than four bytes test an uninitialised variable, and status 0 is returned after faults too (refuted)"
  },
  {
   "property": "C68",
   "status": "proved",
   "theorems": [
    "C68_names",
    "C68_reg_info",
    "C68_reg_info_faithful",
    "C68_vreg_info",
    "C68_vreg_info_faithful"
   ],
   "note": ""
  },
  {
   "property": "C69",
   "status": "partial",
   "theorems": [
    "C69_options_partial",
    "C69_mpause",
    "C69_ebreak",
    "C69_load_program",
    "C69_main",
    "C44_fsw_refuted",
    "C44_top_refuted",
    "C45_short_range_refuted"
   ],
   "note": "fsw and ranges at the ends of the address space are excluded (refuted in C44, C45)"
  },
  {
   "property": "C70",
   "status": "partial",
   "theorems": [
    "C70_computation_partial",
    "C70_branch_partial",
    "C70_jump_partial",
    "C70_load_partial",
    "C70_store_partial",
    "C70_uncached_refuted"
   ],
   "note": "all words of the manual's RV32IM entries but those C63 excludes; the scalar semantic functions are mpact-riscv's and taken to be the manual's; loads do not drop address bit 31 as stores do (refuted)"
  },
  {
   "property": "C71",
   "status": "partial",
   "theorems": [
    "C71_mpause",
    "C71_illegal",
    "C71_quiet",
    "C71_log",
    "C71_log_beyond",
    "C71_vector",
    "C70_load_partial",
    "C70_store_partial",
    "C71_zero_refuted",
    "C71_cause_refuted"
   ],
   "note": "words refused by all decoders, all proper scalar words and all vector rows; csr (see C86), ecall, privileged and Zbb are parameters; the zero word is vadd.b.vv v0, v0, v0 and all halts report the same reason (refuted)"
  },
  {
   "property": "C72",
   "status": "partial",
   "theorems": [
    "C72_scalar",
    "C72_vector_partial",
    "C72_post_refuted"
   ],
   "note": "everything but the base register of a faulting access with post-increment, which has moved (refuted)"
  },
  {
   "property": "C73",
   "status": "proved",
   "theorems": [
    "C73_kernel"
   ],
   "note": ""
  },
  {
   "property": "C74",
   "status": "proved",
   "theorems": [
    "C74_elementwise",
    "C74_load",
    "C74_store",
    "C74_conv"
   ],
   "note": ""
  },
  {
   "property": "C75",
   "status": "partial",
   "theorems": [
    "C75_session_partial",
    "C75_core_session_partial",
    "C75_contract"
   ],
   "note": "instances with their own memory, programs that do not execute changed code (refuted in C36_code_write_refuted), fewer than 2^32 - 1 constructions"
  },
  {
   "property": "C76",
   "status": "partial",
   "theorems": [
    "C76_word",
    "C76_run",
    "C76_end_refuted"
   ],
   "note": "privileged and Zbb instructions are parameters with the contract sys_ok (csr instructions meet it by C86_contracts); the 3 bytes behind the memory can be written (refuted for exactly 4 MB)"
  },
  {
   "property": "C77",
   "status": "partial",
   "theorems": [
    "C77_word",
    "C77_run",
    "C77_any_refuted"
   ],
   "note": "privileged and Zbb instructions are parameters with the contract sys_defined (csr instructions meet it by C86_contracts)"
  },
  {
   "property": "C78",
   "status": "proved",
   "theorems": [
    "C78_total"
   ],
   "note": ""
  },
  {
   "property": "C79",
   "status": "proved",
   "theorems": [
    "C79_kernel"
   ],
   "note": ""
  },
  {
   "property": "C80",
   "status": "proved",
   "theorems": [
    "C80_widening",
    "C80_accumulate",
    "C80_pairwise",
    "C80_unary",
    "C80_narrowing",
    "C80_permutation",
    "C80_duplicate",
    "C80_vector_length",
    "C80_set_accumulators",
    "C80_get_accumulators",
    "C80_depthwise_init",
    "C80_depthwise"
   ],
   "note": ""
  },
  {
   "property": "C81",
   "status": "proved",
   "theorems": [
    "C81_matrix_product",
    "C81_exact",
    "C81_places"
   ],
   "note": ""
  },
  {
   "property": "C82",
   "status": "partial",
   "theorems": [
    "C82_same_run",
    "C82_trace_partial",
    "C82_breakpoint_refuted",
    "C82_plain_name_refuted",
    "C82_directory_refuted",
    "C82_own_code_refuted"
   ],
   "note": "exact list of entries proved, including what happens at breakpoints; the claim that every executed instruction is listed, for every path, is false of the code (refuted: resumed instruction missing, plain file names, missing directories, self-modifying instructions)"
  },
  {
   "property": "C83",
   "status": "partial",
   "theorems": [
    "C83_writes",
    "C83_reads",
    "C83_clean",
    "C83_debugged"
   ],
   "note": "privileged and Zbb instructions are parameters that do not use memory (sys_quiet, zbb_quiet); csr instructions meet this by C86_contracts"
  },
  {
   "property": "C84",
   "status": "proved",
   "theorems": [
    "C84_refines",
    "C84_deterministic",
    "C84_progress",
    "C84_cache_unseen"
   ],
   "note": ""
  },
  {
   "property": "C85",
   "status": "proved",
   "theorems": [
    "C85_watched",
    "C85_ends",
    "C85_kernel",
    "C85_last_refuted"
   ],
   "note": ""
  },
  {
   "property": "C86",
   "status": "proved",
   "theorems": [
    "C86_csr",
    "C86_rest",
    "C86_contracts"
   ],
   "note": "the Zicsr functions and the csr registers themselves are in mpact-riscv: contracts in CsrModel.v"
  },
  {
   "property": "C87",
   "status": "partial",
   "theorems": [
    "C87_run",
    "C87_step",
    "C87_alone",
    "C87_sees",
    "C87_blind",
    "C87_breakpoint_refuted"
   ],
   "note": "the last sentence is false of the code: a breakpoint that is hit counts as an instruction and a cycle, so the program reads one more (refuted)"
  },
  {
   "property": "C88",
   "status": "partial",
   "theorems": [
    "C88_one",
    "C88_same",
    "C88_order",
    "C88_line",
    "C88_mpause",
    "C88_illegal",
    "C88_load",
    "C88_store",
    "C88_string",
    "C88_text",
    "C88_vector",
    "C88_quiet",
    "C88_end",
    "C88_stdout",
    "C88_contract",
    "C88_stdout_refuted"
   ],
   "note": "the last sentence is false of the code: faults are reported on standard error only and a program can print the text of the last line itself (refuted); system instructions are parameters that leave the log alone, an exception they raise is reported with this line"
  },
  {
   "property": "C89",
   "status": "partial",
   "theorems": [
    "C89_same",
    "C89_histories",
    "C89_total",
    "C89_unused",
    "C89_run",
    "C89_each_partial",
    "C89_register",
    "C89_opcodes",
    "C89_v1_total",
    "C89_breakpoint_refuted"
   ],
   "note": "the last sentence is false of the code: a breakpoint that is hit counts as an ebreak (refuted); C89_each_partial gives every counter of a session with breakpoints exactly; the Zbb opcode names are a parameter"
  },
  {
   "property": "C90",
   "status": "partial",
   "theorems": [
    "C90_off",
    "C90_silent",
    "C90_run",
    "C90_path",
    "C90_unused",
    "C90_step",
    "C90_resume",
    "C90_marks",
    "C90_breakpoint_refuted"
   ],
   "note": "the last sentence is false of the code: a breakpoint between the marks is taken for a semihosting call (refuted); the host is a parameter, the recognition of calls is mpact-riscv's"
  },
  {
   "property": "C91",
   "status": "partial",
   "theorems": [
    "C91_computation",
    "C91_branch",
    "C91_jump",
    "C91_load",
    "C91_store",
    "C91_flw",
    "C91_fsw",
    "C91_fetch",
    "C91_illegal",
    "C91_confined_partial",
    "C91_program_partial",
    "C91_isolated_partial",
    "C91_confined_refuted"
   ],
   "note": "the sentence on whole programs is false of the code: an access at the end of the address space is in no range and done (refuted), and vector loads and stores are not checked at all; it is proved for programs without vector loads and stores and for all bytes but the last eight of the address space; the other sentences for accesses that end below 4 GiB, fsw wanting eight bytes in range"
  },
  {
   "property": "C92",
   "status": "proved",
   "theorems": [
    "C92_copies",
    "C92_source",
    "C92_destination"
   ],
   "note": ""
  },
  {
   "property": "C93",
   "status": "proved",
   "theorems": [
    "C93_queries",
    "C93_defaults",
    "C93_register",
    "C93_outputs"
   ],
   "note": "that a core register keeps what is written to it is a hypothesis of C93_register (RiscVTop is in mpact-riscv)"
  }
 ]
}