c("C01","proved","C01_wrap_arithmetic C01_wrap_arithmetic_lane")
c("C02","proved","C02_saturating C02_saturating_lane")
c("C03","proved","C03_compare C03_compare_lane")
c("C04","proved","C04_halving C04_halving_lane")
c("C05","proved","C05_mulh C05_mulh_lane")
c("C06","partial","C06_dmulh C06_dmulh_lane C06_dmulh_rn_exact_lane C06_dmulh_rn_nearest_refuted","everything except the last sentence: nearest rounding of the .rn form is false of the code (refuted), its exact value is proved instead")
c("C07","partial","C07_shift_partial C07_shift_lane_partial C07_shift_min_refuted","proved for all lanes except a non-zero 32-bit lane shifted by -2^31, where the code negates INT_MIN (refuted)")
c("C08","proved","C08_narrowing C08_narrowing_lane")
c("C09","proved","C09_shifts C09_shifts_lane")
c("C10","proved","C10_rev_ror C10_rev_ror_lane")
c("C11","proved","C11_bitwise C11_bitwise_lane C11_not_mv_lane")
c("C12","proved","C12_widening C12_accumulate C12_pairwise C12_widening_lane")
c("C13","proved","C13_permutation C13_select C13_evnodd_zip C13_zip_evnodd")
c("C14","proved","C14_writes_only_destination C14_destination_determined","scalar registers, memory and accumulators are not part of the result of the modelled functions")
c("C15","proved","C15_strip_is_four_singles C15_strip_is_four_singles_unary","the no-overlap conditions of the other families are hypotheses of C08, C12 and C13")
c("C16","proved","C16_widen_narrow C16_widen_twice_narrow")
c("C17","proved","C17_aconv C17_one_pair_per_cell","command fields as laid out by the little-endian bit-field ABI")
c("C18","proved","C18_illegal_traps C18_legal_reads_groups")
c("C19","proved","C19_acset C19_vcget C19_round_trip C19_second_vcget_zero")
c("C20","partial","C20_dwconv C20_every_word_has_one_lane C20_register_selection C20_illegal_sparsity_refuted","legal commands fully characterised (including when the int32 accumulation overflows, which is undefined); the sentence about illegal sparsity modes is false of the code: refuted for every command and state")
c("C21","partial","C21_adwinit_partial C21_overlap_refuted","proved unless vd starts inside the source group (vd = vs+1..vs+3); there it is refuted")
c("C22","proved","C22_vld")
c("C23","proved","C23_vst C23_store_then_load")
c("C24","proved","C24_vstq C24_quarter_address")
c("C25","proved","C25_post_increment C22_vld C23_vst C24_vstq")
c("C26","proved","C26_getvl C26_strip_mining_loop")
c("C27","proved","C27_vdup")
c("C28","partial","C28_unambiguous_partial C28_unambiguous_refuted","unambiguous for all words once acset/actr/adwinit carry their canonical func1/form; the tables as written are ambiguous (refuted)")
c("C29","partial","C29_decodes_to_itself_partial C29_decodes_to_an_encoding C29_decodes_to_itself_refuted","proved for all words outside the acset/actr/adwinit overlap; refuted inside it")
c("C30","proved","C30_fields_select_semantics C55_vector_word","and/or/xor/not/mv/mvp work alike on all widths and leave the size bits free")
c("C31","partial","C31_groups_cover_accesses_partial C31_groups_cover_accesses_refuted","all words except non-canonical acset/actr/adwinit words, where it is refuted")
c("C32","partial","C32_scalar_reads C32_scalar_writes_partial C32_x0_constant_refuted","reads fully; writes except words whose 6-bit vs1 field is 1, which overwrite x0 (refuted)")
c("C55","proved","C55_elementwise_word C55_vector_word C55_load_word C55_store_word")
c("C33","partial","C33_breakpoints_transparent_partial C33_cleared_partial C33_run_exact_partial C33_breakpoint_set C33_clear_at_breakpoint_refuted C33_pc_write_at_breakpoint_refuted C33_code_write_refuted","all histories of calls outside four patterns, for programs that do not write their own code; the excluded patterns (Step, ClearBreakpoint, pc write while stopped at the breakpoint; debugger writes to code) are refuted")
c("C34","partial","C34_step_exact_partial C34_step_rejected C34_step_at_breakpoint_refuted C34_step_one_refuted C34_count_refuted","exact unless the core is stopped at a breakpoint; there it is refuted")
c("C35","partial","C33_run_exact_partial C34_step_exact_partial C35_run_at_breakpoint_refuted C35_ebreak_under_breakpoint_refuted","Step always; Run except for the instruction it resumes from at a breakpoint, where it is refuted")
c("C36","proved","C36_write_memory C36_read_memory C36_rejected C36_code_write_refuted","the refuted theorem is about execution after a write, beyond the claim")
c("C37","proved","C37_load_image C37_load_image_rejected","when the file does not fit, the part below the top of memory is written before the error is returned")
c("C38","proved","C38_register_round_trip C38_csr C38_rejected C38_wide_register","CSRs: exactly the CSR's own write and read; registers of 32 bytes are rejected")
c("C39","proved","C39_rejected_while_running C39_halted_between_calls C39_halt","LoadImage returns Internal rather than FailedPrecondition")
c("C56","partial","C56_disassembly_partial","for the histories of C33")
c("C41","partial","C41_format_partial C41_text_unique C41_program_partial C41_trailing_percent_refuted C41_missing_argument_refuted C41_percent_percent_refuted","all formats whose conversions have an argument and which do not end in %; the other two cases are exactly characterised (process dies, out-of-bounds read); %% is not a literal percent")
c("C42","partial","C42_string_load_partial C42_gathering C42_no_terminator C42_last_group_refuted","string loading needs the 4-byte group holding the terminator to lie below the limit (refuted otherwise); clog fully")
c("C43","proved","C43_store")
c("C44","partial","C44_access_partial C44_fsw_partial C44_fsw_refuted C44_top_refuted C44_top_range_refuted","exact for accesses and ranges that end below 4 GiB; refuted at 4 GiB and for fsw, which checks 8 bytes")
c("C45","partial","C45_fetch_partial C45_fetch_exactly C45_fault C45_short_range_refuted C45_high_address_refuted","exact condition for all configurations; equal to the claim for 32-bit addresses and ranges that end in 4..2^32-1, refuted otherwise")
c("C46","proved","C46_mpause")
c("C47","proved","C47_misa C47_factory")
c("C48","partial","C48_return_values C48_instance C48_reset C48_after_mpause C48_lockstep C48_no_crash_partial C48_load_refuted C48_config_refuted C48_reset_program_refuted","every clause but the last; no crash needs valid pointers and no load/config before init")
c("C49","partial","C49_ids C49_unique_partial C49_valid C49_destroyed C49_unknown_returns C49_isolated C49_nonzero_refuted","everything but non-zero, for fewer than 2^32 constructions; the first id is 0 (refuted)")
c("C50","partial","C50_step_partial C50_terminates C50_count_refuted","all but the returned total, which is reported modulo 2^32 (refuted for 2^32 and more)")
c("C51","partial","C51_halt_partial C51_unmapped_refuted","the exact status for every reason; hardware breakpoints and other reasons leave it unwritten (refuted)")
c("C52","partial","C52_reg_info_partial C52_name_length C52_terminator_refuted C52_negative_length_refuted","for names shorter than the given length; refuted for others and for negative lengths")
c("C53","partial","C53_construct C53_load_partial C53_store_partial C53_gather_partial C53_scatter_partial C53_vector_reject_partial C53_without_checks C53_units_load_partial C53_units_store_partial C53_units_gather_partial C53_unit_stride_refuted C53_scatter_atomic_refuted C53_unchecked_refuted C53_unit_refuted C53_base_refuted C53_large_block_refuted","exact for byte units, block sizes below 2^31 and an array covering everything up to the end address; in builds without the checks for accesses inside; larger units for accesses inside one block; a scatter store outside is rejected after the earlier elements are written (refuted); the other cases refuted")
c("C54","partial","C54_terminates_partial C54_returned_partial C54_failure C54_no_timeout C54_mailbox C54_mailbox_frame C54_read C54_tcm C54_start_refuted","exact from the first instruction on; the check is missing before the first instruction (refuted)")
c("C40","partial","C40_run C40_halt_stops_partial C40_no_fault_partial C40_wait_ended_partial C40_wait_returns_partial C40_wait_refuted C40_wait_pointer_refuted C40_double_notify_refuted C40_halt_lost_refuted C40_destructor_refuted C40_destructor_waits_refuted C40_race_refuted","all interleavings; halting proved without action points, waiting proved for clients that start a run only when the earlier run threads have ended; each restriction is needed (refuted otherwise)")
c("C57","partial","C57_manual_partial C57_holes_refuted C57_odd_refuted C57_vrsub_refuted C57_vsuxseg_refuted C57_fault_first_refuted","all 388 encodings of the manuals' table but the words of six patterns, which are refused; vrsub.vi, vsuxsegei8/16/32 and the fault-only-first loads are refuted")
c("C58","partial","C58_accepted_partial C58_accepted_refuted","an explicit list of reserved patterns is accepted too (refuted)")
c("C59","partial","C59_manual_unique C59_row_choice_partial C59_row_choice_refuted","except integer operations on x0 and fences with an empty set, where rows that do nothing overlap rows with the operation")
c("C60","proved","C60_operands_exist C60_immediates C57_manual_partial")
c("C61","partial","C61_load_partial C61_store_partial C44_fsw_refuted C44_top_refuted","accesses and ranges that end below 4 GiB; fsw checks 8 bytes")
c("C62","partial","C62_mnemonic_partial C62_mnemonic_refuted","except 12 texts that different instructions share (refuted), 6 shared by forms of one instruction, and hints, which do nothing")
c("C63","partial","C63_manual_partial C63_manual_refuted C63_hint_refuted","all 94 entries but jalr x0, imm(x1) and addi x0, x0, imm with a nonzero immediate, which are refused, and one HINT executed as adwinit; Zbb words are left to mpact-riscv's decoders")
c("C64","partial","C64_accepted_partial C64_opcodes C64_one_meaning C64_accepted_refuted","except reserved words that match the rows of acset, actr and adwinit (refuted)")
c("C65","partial","C65_text_partial C65_targets C65_store_refuted C65_csr_refuted","except nine groups of opcodes that share a text (refuted) and fence, fence.i, whose operand is not shown; canonical acset, actr, adwinit")
c("C66","proved","C66_store_words")
c("C67","partial","C67_image_partial C67_elf C67_refused C67_short_file_refuted C67_status_refuted","files of fewer than four bytes test an uninitialised variable, and status 0 is returned after faults too (refuted)")
c("C68","proved","C68_names C68_reg_info C68_reg_info_faithful C68_vreg_info C68_vreg_info_faithful")
c("C69","partial","C69_options_partial C69_mpause C69_ebreak C69_load_program C69_main C44_fsw_refuted C44_top_refuted C45_short_range_refuted","fsw and ranges at the ends of the address space are excluded (refuted in C44, C45)")
c("C70","partial","C70_computation_partial C70_branch_partial C70_jump_partial C70_load_partial C70_store_partial C70_uncached_refuted","all words of the manual's RV32IM entries but those C63 excludes; the scalar semantic functions are mpact-riscv's and taken to be the manual's; loads do not drop address bit 31 as stores do (refuted)")
c("C71","partial","C71_mpause C71_illegal C71_quiet C71_log C71_log_beyond C71_vector C70_load_partial C70_store_partial C71_zero_refuted C71_cause_refuted","words refused by all decoders, all proper scalar words and all vector rows; csr (see C86), ecall, privileged and Zbb are parameters; the zero word is vadd.b.vv v0, v0, v0 and all halts report the same reason (refuted)")
c("C72","partial","C72_scalar C72_vector_partial C72_post_refuted","everything but the base register of a faulting access with post-increment, which has moved (refuted)")
c("C73","proved","C73_kernel")
c("C74","proved","C74_elementwise C74_load C74_store C74_conv")
c("C75","partial","C75_session_partial C75_core_session_partial C75_contract","instances with their own memory, programs that do not execute changed code (refuted in C36_code_write_refuted), fewer than 2^32 - 1 constructions")
c("C76","partial","C76_word C76_run C76_end_refuted","privileged and Zbb instructions are parameters with the contract sys_ok (csr instructions meet it by C86_contracts); the 3 bytes behind the memory can be written (refuted for exactly 4 MB)")
c("C77","partial","C77_word C77_run C77_any_refuted","privileged and Zbb instructions are parameters with the contract sys_defined (csr instructions meet it by C86_contracts)")
c("C78","proved","C78_total")
c("C79","proved","C79_kernel")
c("C80","proved","C80_widening C80_accumulate C80_pairwise C80_unary C80_narrowing C80_permutation C80_duplicate C80_vector_length C80_set_accumulators C80_get_accumulators C80_depthwise_init C80_depthwise")
c("C81","proved","C81_matrix_product C81_exact C81_places")
c("C82","partial","C82_same_run C82_trace_partial C82_breakpoint_refuted C82_plain_name_refuted C82_directory_refuted C82_own_code_refuted","exact list of entries proved, including what happens at breakpoints; the claim that every executed instruction is listed, for every path, is false of the code (refuted: resumed instruction missing, plain file names, missing directories, self-modifying instructions)")
c("C83","partial","C83_writes C83_reads C83_clean C83_debugged","privileged and Zbb instructions are parameters that do not use memory (sys_quiet, zbb_quiet); csr instructions meet this by C86_contracts")
c("C84","proved","C84_refines C84_deterministic C84_progress C84_cache_unseen")
c("C85","proved","C85_watched C85_ends C85_kernel C85_last_refuted")
c("C86","proved","C86_csr C86_rest C86_contracts","the Zicsr functions and the csr registers themselves are in mpact-riscv: contracts in CsrModel.v")
c("C87","partial","C87_run C87_step C87_alone C87_sees C87_blind C87_breakpoint_refuted","the last sentence is false of the code: a breakpoint that is hit counts as an instruction and a cycle, so the program reads one more (refuted)")
c("C88","partial","C88_one C88_same C88_order C88_line C88_mpause C88_illegal C88_load C88_store C88_string C88_text C88_vector C88_quiet C88_end C88_stdout C88_contract C88_stdout_refuted","the last sentence is false of the code: faults are reported on standard error only and a program can print the text of the last line itself (refuted); system instructions are parameters that leave the log alone, an exception they raise is reported with this line")
c("C89","partial","C89_same C89_histories C89_total C89_unused C89_run C89_each_partial C89_register C89_opcodes C89_v1_total C89_breakpoint_refuted","the last sentence is false of the code: a breakpoint that is hit counts as an ebreak (refuted); C89_each_partial gives every counter of a session with breakpoints exactly; the Zbb opcode names are a parameter")
c("C90","partial","C90_off C90_silent C90_run C90_path C90_unused C90_step C90_resume C90_marks C90_breakpoint_refuted","the last sentence is false of the code: a breakpoint between the marks is taken for a semihosting call (refuted); the host is a parameter, the recognition of calls is mpact-riscv's")
c("C91","partial","C91_computation C91_branch C91_jump C91_load C91_store C91_flw C91_fsw C91_fetch C91_illegal C91_confined_partial C91_program_partial C91_isolated_partial C91_confined_refuted","the sentence on whole programs is false of the code: an access at the end of the address space is in no range and done (refuted), and vector loads and stores are not checked at all; it is proved for programs without vector loads and stores and for all bytes but the last eight of the address space; the other sentences for accesses that end below 4 GiB, fsw wanting eight bytes in range")
c("C92","proved","C92_copies C92_source C92_destination")
c("C93","proved","C93_queries C93_defaults C93_register C93_outputs","that a core register keeps what is written to it is a hypothesis of C93_register (RiscVTop is in mpact-riscv)")
