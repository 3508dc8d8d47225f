# Formal model of google-coral/coralnpu-mpact in Rocq (Coq 8.16.1)

The code in /repo is read as text; it is neither built nor run. The model is a
set of total Gallina functions that follow the C++ function by function. Every
definition cites the file and lines it models.

## Modelling conventions

* C++ integers are `Z` values tagged with a type (`CInt.v`). Arithmetic follows
  the C++17 rules (the repo builds with `-std=c++17`): integer promotion, usual
  arithmetic conversions, unsigned wrap, and **undefined behaviour is a separate
  outcome** (`UB`): signed overflow, shift by an amount outside the promoted
  width, left shift of a negative value. A failed `CHECK` is the outcome
  `Crash`. A theorem that says an operation equals `Ok v` therefore also says it
  is free of undefined behaviour.
* Vector register file: `Z -> Z -> Z` (register number, byte offset -> byte). No
  function extensionality: theorems are pointwise.
* Memory: `Z -> Z` (byte address -> byte).
* Debugger, Renode and DPI layers: records of fields with `step` functions for
  each API call; histories are lists of calls.
* Library code that is not in /repo (mpact-sim, mpact-riscv, abseil) is modelled
  by its documented contract; each such contract is listed under Trusted base.

## Plan per property

| Property | Model | Proof method |
| --- | --- | --- |
| C01-C11 lane operations | `Lane.v`: each C++ lane lambda transliterated in typed C arithmetic | case analysis on lane type, `lia`/`Z.testbit`, equality with mathematical spec in `LaneSpec.v` |
| C12-C16 vector loops | `VecModel.v`: argument getters, op/element/dest loops, submit after each op | induction over loop nest; pointwise register specification |
| C17-C21 convolution and accumulators | `ConvModel.v` | loop invariants; accumulator index bijection |
| C22-C27 vector memory | `MemModel.v` | induction over elements; footprint reasoning |
| C28-C32 decode | `DecodeTable.v` generated from the .bin_fmt/.isa files | reflection: pairwise mask/value disjointness computed once and lifted to all words |
| C33-C40 simulator control | `TopModel.v` abstract ISA step function as parameter | invariants over call histories; refinement against breakpoint-free run; refutations by witness |
| C41-C43 log and stores | `LogModel.v` | induction over strings |
| C44-C47 V2 | `V2Model.v` | arithmetic; refutations at 2^32 wrap |
| C48 DPI | `CosimModel.v` | invariant over call lists |
| C49-C53 Renode | `RenodeModel.v`, `RenodeMem.v` | invariants; refinement to flat memory |
| C54 hw_sim | `HwSimModel.v` | induction on steps |
| C57-C62 V2 words | `V2DecModel.v`, `V2Table.v` generated from the V2 .bin_fmt/.isa files | reflection against the hand-written table `V2DecSpec.v`, lifted to all words |
| C63-C66 V1 scalar words, disassembly | `V1ScalModel.v`, `V1Aux.v` generated from the .isa files | as C57-C62, against `V1ScalSpec.v` |
| C67-C69 command lines, V2 simulator | `CliModel.v` over `TopModel.v`, `V2Model.v` | run loop invariant against the undebugged program; texts by digit induction |
| C70-C74 the whole V1 core | `MachModel.v`: decoding and semantic functions put together as the instruction set of `TopModel.v` | one-instruction theorems against `RvSpec.v`, `MachSpec.v`; loop invariant over strips |
| C75 Renode over the V1 simulator | `RenodeTopModel.v`: `RenodeModel.v` with `TopModel.v` as its simulator | simulation by induction over the calls, against the undebugged program |
| C76-C77 what every program keeps | `MachModel.v`; notions in `MachInvSpec.v` | one-instruction invariants over all rows of the tables, then induction over the run |
| C78-C79 Renode calls are answered; a kernel through Renode | as C75, with `MachModel.v` | call by call; C73 and C75 put together |
| C80 the other vector instructions on the whole core | `DecodeModel.v`, `MachModel.v`; spec `MachVecSpec.v` with the lane specs of C01-C31 | row by row: operands from the tables, lanes from the family theorems, frame from the machine |
| C81 a matrix product program on the whole core | `MachModel.v`; spec `MatSpec.v` (matrices in memory, sums of products) | the effects of C74 and C80 chained along the program, induction over the tiles; overflow bound from the range of the factors |
| C82 instruction trace | `TraceModel.v`: the run loop with its entries, mkdir, open and the protobuf writer; spec `TraceSpec.v` (reader of the wire format, entries of the undebugged program) | simulation of the run loop as for C33; the reader inverts the writer; refutations by witness |
| C83 memory touched by an instruction | `MachModel.v`; spec `FootSpec.v` (addresses from the fields of the word, selected elements, words of a text) | row by row over the decode table; agreement of two runs on memories that differ elsewhere; gives the condition of C33 |
| C84 the debugger as a whole | `TopModel.v`; spec `DbgSpec.v` (ideal debugger: program state, set of breakpoints, last reason, counter; transition relation per call) | simulation relation per call over the invariant of C33; determinism of the ideal debugger; progress |
| C85 watching a program to its end | `TopModel.v`, `MachModel.v`; spec `WatchSpec.v` | position in the undebugged run as invariant over C84's refinement; C83's footprints of the kernel's eight instructions give its condition |
| C86 csr instructions | `CsrModel.v`; spec `CsrSpec.v` | one of 12 manual entries by the word's fields, its decoded operands by C63, then the contract of mpact-riscv's functions; a check over all rows shows which instructions stay parameters |
| C87 counters seen by programs | `CntModel.v`; spec `CntSpec.v` | simulation between the loops with the counters passed to each instruction and TopModel's loops on a machine that keeps its own counters; C67's run lemma for that machine |
| C88 what a V1 run prints | `ConsModel.v`; spec `ConsSpec.v` (causes, lines, log) | TopModel's loops paired with output; C67's run lemma gives the order; per instruction by kind, the cause by the manual entry (C63, C71); lines are parsed back by uniqueness of numerals |
| C89 opcode counters | `TallyModel.v`; spec `TallySpec.v` (instructions with an opcode in a list of words) | the loops paired with the counters are TopModel's loops on a machine that records its words; so C33 for that machine gives the counters of every session; names by computation over the decoder table |
| C90 semihosting | `HostModel.v`; spec `HostSpec.v` (paths of a program with its host) | the loops with a host agree with TopModel's whenever no call is served; induction over the run along the path |
| C91 programs on the V2 core | `V2MachModel.v`; spec `V2MachSpec.v` with `RvSpec.v`, `V2Spec.v` | single instructions: C57 gives the operands of the manual, the table of semantic functions its results, C44 and C45 the checks; runs: frame and two-memory invariants by induction over the steps; vector accesses told apart by computation over the decoder table |
| C92 a copy loop on the V2 core | `V2MachModel.v`; spec `V2CopySpec.v` | the six words as instructions of the manual; single steps by C91; induction over the bytes copied |
| C93 co-simulation sessions | `CosimModel.v`; spec `CosimSpec2.v` | simulation between sessions that differ in whether the simulator is built yet, by induction over the calls |
| C40 threads | `ConcModel.v` | invariants over all schedules; refutations by schedule |

A property that is false of the faithful model is proved in the strongest true
form (explicit precondition, theorem name with suffix `_partial` if the English
claim is not fully covered) together with a `..._refuted` theorem giving a
concrete witness.

## Trusted base

* Coq 8.16.1's kernel and `vm_compute`.
* `Print Assumptions` under every property theorem prints "Closed under the
  global context". The standard library's `ZifyBool` loads ssreflect's
  `ssrunder` file, whose seven signature axioms (`Under_rel...`) appear when all
  loaded libraries are listed (`coqchk`); no theorem uses them.
* The reading of the C++ text. Files modelled so far:
  * `sim/coralnpu_vector_instructions.cc` (all), with the operand wiring of
    `sim/*.isa` for the operations (Lane.v, VecModel.v);
  * `sim/coralnpu_vector_convolution_instructions.cc` and `.h` (all), `VcGet`,
    `AcSet`, `ADwInit` of `sim/coralnpu_vector_memory_instructions.cc`
    (ConvModel.v);
  * the rest of `sim/coralnpu_vector_memory_instructions.cc` (MemModel.v);
  * `sim/coralnpu_encoding.cc` and the tables `sim/*.bin_fmt`, `sim/*.isa`
    (DecodeModel.v, DecodeTable.v). The tables are transcribed by
    `tools/gen_decode.py`, which is part of the trusted reading. Not modelled:
    the Zbb groups (outside /repo), the semantics of scalar instructions,
    immediates, disassembly.
  * CoralNPUTop (TopModel.v): Step, Run (with its thread, up to the end of the
    run), Halt, breakpoints, memory and register access, LoadImage,
    GetDisassembly. The instruction set is a parameter. Tracing, with the file
    system calls and the message format it uses (TraceModel.v). Not modelled:
    watchpoints, interrupts, instructions that wait for resources.
  * `PrintLog`, `CoralNPULogInstruction`, `CoralNPUStringLoadHelper`,
    `WordHasZero`, `CoralNPUIStore` (LogModel.v). Number formatting
    (`absl::StrFormat` with %d, %u, %x, %s) is modelled by its documented result.
  * `sim/coralnpu_v2_state.{h,cc}`: LSU and ITCM checks, `StretchMisa32`,
    `MPause`; `CoralNPUV2StateFactory`; the scalar loads and stores of
    `sim/coralnpu_v2_instructions.cc`; `DecodeInstruction` of
    `coralnpu_v2_user_decoder.cc` (V2Model.v). The V2 vector loads and stores
    come from mpact-riscv and make no range check at all; they are not modelled.
    Handlers that register further handlers while mpause runs are not modelled.
  * `sim/coralnpu_v2_encoding.cc`, the operand getters of
    `sim/coralnpu_v2_getters.h` and the tables `coralnpu_v2.bin_fmt`,
    `coralnpu_v2.isa` (V2DecModel.v, V2Table.v). The tables are transcribed by
    `tools/gen_v2.py`, part of the trusted reading. The semantic functions named
    in the rows are in mpact-riscv and stay names, except the scalar loads and
    stores. What each word should do is stated separately in V2DecSpec.v, a table
    of the RISC-V manuals' encodings written by hand. Not modelled: operand text
    of the disassembly, latencies, resources.
  * The scalar part of `sim/coralnpu_encoding.cc` (immediates, csr) and of
    `coralnpu_base.bin_fmt`, `coralnpu_base.isa`, the overlays of
    `coralnpu_format.bin_fmt`, and the disasm clauses of all V1 .isa files
    (V1ScalModel.v, V1Aux.v). The semantic functions and texts are transcribed by
    `tools/gen_v1aux.py`, part of the trusted reading. The meaning of `%name` in a
    text is mpact-sim's; how a number is printed is a parameter. The three Zbb
    decoders at the end of `ParseInstruction` are mpact-riscv's and not modelled.
  * `sim/cosim/coralnpu_cosim_dpi_wrapper.cc` (CosimModel.v), around an abstract
    simulator (boot, ELF load, fetch-word write, step, register access).
  * `sim/renode/renode_mpact.cc` (all) and `coralnpu_renode.cc` with the register
    table (RenodeModel.v), around an abstract simulator object.
  * `sim/renode/coralnpu_renode_memory.cc` (RenodeMem.v), without the write-back
    of loads; both with and without ABSL_HARDENING_ASSERT.
  * `sim/hw_sim/mpact_simulator.cc` (HwSimModel.v), around an abstract core.
  * The synchronisation of Run, Halt, Wait and the destructor of CoralNPUTop with
    the run threads (ConcModel.v): all interleavings of the single reads and
    writes of the shared fields. C++ gives races on these fields no meaning at
    all (`C40_race_refuted` shows one), so these theorems hold for compilers and
    machines on which the accesses behave like single interleaved steps.
  * main and the two shell commands of `sim/coralnpu_sim.cc`;
    `CoralNPUV2Simulator` (options, handlers, LoadProgram) and main of
    `coralnpu_v2_sim.cc` (CliModel.v). Flag parsing, the ELF loader, the shell and
    RiscVTop are outside /repo; control-C and main's standard error texts are not
    modelled. What the V1 handlers, the trap callback and PrintLog print during a
    run is in ConsModel.v (disassembly text a parameter).
  * The composition of these parts (MachModel.v): decode, execute, the trap
    callbacks of CoralNPUTop::Initialize. Parameters: csr, ecall and
    privileged instructions (with the exception they raise), the Zbb decoders;
    fence and fence.i do nothing. CsrModel.v fills in the csr instructions around
    an abstract csr file. An instruction whose C++ is
    undefined or fails a CHECK only sets a flag; the theorems show it stays clear.
  * CoralNPURenode as the glue between the Renode agent and CoralNPUTop
    (RenodeTopModel.v). Parameters: the ELF loader, file contents, register names,
    objects over shared memory.
  * The opcode counters of CoralNPUTop (TallyModel.v), without wrap at 2^64. The
    generated `kOpcodeNames` are taken to be "none", "hint", the opcodes of
    `sim/coralnpu.isa` and of mpact-riscv's Zbb (a parameter); AddCounter refuses
    a name it has. `counter_num_cycles_` is never registered.
  * The semihosting branch of the ebreak handler (HostModel.v). RiscVArmSemihost is
    outside /repo: a call is an ebreak between the two mark words, the host any
    function of its state, registers and memory that leaves pc alone. The other
    models have the flag off (its default).
  * One V2 instruction on registers and memory (V2MachModel.v), without decode
    cache. Parameters: Trap (csrs and pc only), csr, system, Zbb, floating point and
    vector arithmetic functions (they do not see memory), vector loads and stores
    (anything), the contents flw leaves above its 32 bits. Memory takes every address.
  * For C76, C77 the parameters of MachModel.v are constrained: csr and
    privileged instructions leave 32-bit pcs and values of the right size
    (`sys_ok`), are defined (`sys_defined`), fresh buffers hold bytes (`junk_ok`). For C83 those instructions
    and Zbb do not use memory (`sys_quiet`, `zbb_quiet`). For C88 they leave the log alone (`sys_silent`;
    `C88_contract` for csr instructions) and Zbb has no mpause (`zbb_runs`).
* Contracts of code outside /repo, stated at the head of each model file:
  * `DataBuffer`: a fresh buffer has arbitrary contents; `Submit` with latency 0
    replaces the register contents at once;
  * `RV32VectorSourceOperand` / `RV32VectorDestinationOperand`: register i of the
    operand's group; outside the group is undefined behaviour;
  * `RiscVState::Trap`: recorded, not executed;
  * `RiscVState::LoadMemory` / `StoreMemory`: every unmasked element in index
    order; address-fault checks happen before any access (not modelled);
  * generated group decoders: return a row of the group that matches the word,
    and none only if no row matches (`decoder_ok`; `decoder2_ok` for V2); which of
    several matching rows is left open;
  * `DecodeCache`: returns an earlier decode of the address or a new one;
    `BreakpointManager`, `ActionPointManagerBase`: see TopModel.v;
  * mpact-riscv's RV32I and M semantic functions (MachModel.v): what the manual
    says; `RiscVState::LoadMemory`, `StoreMemory` call Trap and access nothing if an
    address is above max_physical_address; `Trap` does nothing more if the
    on_trap callback returns true;
  * host: little-endian, two's complement, arithmetic right shift, bit-fields
    allocated from the least significant bit.

## Findings (claims that are false of the code)

| Where | What |
| --- | --- |
| `vdmulh.rn` | the "round to nearest" form does not round to nearest for negative products (`C06_dmulh_rn_nearest_refuted`) |
| `vshift` 32-bit | a shift amount of -2^31 negates INT_MIN (`C07_shift_min_refuted`) |
| `adwconv`/`vdwconv` sparsity 3 | `Trap` is called but execution continues with an uninitialised array (`C20_illegal_sparsity_refuted`) |
| `adwconv`/`vdwconv` accumulators | int32 accumulation overflows are undefined behaviour (second case of `C20_dwconv`); the accumulators are also uninitialised before the first `adwinit` |
| `adwinit` | with vd = vs+1..vs+3 a source register is overwritten (24 of 32 bytes unspecified) before it is read (`C21_overlap_refuted`) |
| `vconv_cmd_t` | the bit numbers in the comments are the mirror image of the layout memcpy produces |
| `acset`, `actr`, `adwinit` encodings | func1 and form are unconstrained, so the rows overlap other instructions, even inside one group (`C28_unambiguous_refuted`); `vsrans.b.vv v48, v0, v0` decodes as `acset` (`C29_decodes_to_itself_refuted`) and then reads past its operand group (`C31_groups_cover_accesses_refuted`) |
| post-increment base register | the x0 test uses the 6-bit vs1 field but the register number its upper 5 bits: a word with vs1 = 1 overwrites x0 (`C32_x0_constant_refuted`) |
| `Step` at a breakpoint | `Step(1)` reads the uninitialised local `pc` (`C34_step_one_refuted`; for every reachable state in `C34_step_exact_partial`); `Step(n)`, n > 1, leaves pc at the last executed instruction, which then runs twice (`C34_step_at_breakpoint_refuted`) |
| `Step` count | a breakpoint hit counts as an executed instruction (`C34_count_refuted`) |
| `Run` at a breakpoint | `halted_` is reset after the instruction under the breakpoint has run, so its halt request is lost (`C35_run_at_breakpoint_refuted`, `C35_ebreak_under_breakpoint_refuted`, `C85_last_refuted`) |
| counters read by a program | a hit breakpoint counts as an instruction and a cycle, so after it the program reads a larger minstret and mcycle than without the debugger (`C87_breakpoint_refuted`); C33, C84 and C85 are about programs that do not read these csrs (`C87_blind`) |
| opcode counters | a hit breakpoint counts as an executed `ebreak` (`C89_breakpoint_refuted`) |
| breakpoints with `--use_semihost` | a breakpoint between the two mark words is taken for a semihosting call: it is not hit, and the instruction under it is not executed (`C90_breakpoint_refuted`) |
| breakpoint removed or pc written while stopped there | `need_to_step_over_` stays set and the next Step/Run plants an ebreak where no breakpoint is (`C33_clear_at_breakpoint_refuted`, `C33_pc_write_at_breakpoint_refuted`) |
| `instruction_map_` | keeps the first original forever; code written by the debugger later is overwritten by it (`C33_code_write_refuted`) |
| `WriteMemory` | does not invalidate the decode cache (`C36_code_write_refuted`) |
| standard output of a run | does not tell how it ended: fault lines go to standard error, and a program can log "Program exits properly" itself (`C88_stdout_refuted`) |
| `PrintLog` | a format ending in `%` reads past the string (`C41_trailing_percent_refuted`); a conversion without argument ends the process (`C41_missing_argument_refuted`); `%%` consumes an argument (`C41_percent_percent_refuted`) |
| string loading | reads whole 4-byte groups, so a terminated string whose last group crosses the memory limit ends the process (`C42_last_group_refuted`) |
| `IsLsuAccessValid` | the 32-bit end wraps: an access that ends at 4 GiB passes for any range (`C44_top_refuted`), a range that ends at 4 GiB admits nothing (`C44_top_range_refuted`) |
| V2 `fsw` | checks 8 bytes (`C44_fsw_refuted`) |
| V2 programs | an `sw` to the last word of the address space is done though it is in no range (`C91_confined_refuted`); vector loads and stores are bound to mpact-riscv's functions and pass no range check |
| `IsAddressInItcmRange` | `start + length - 4` wraps for ranges ending below 4, including the unset range, and admits everything (`C45_short_range_refuted`); addresses are truncated to 32 bits (`C45_high_address_refuted`) |
| DPI wrapper | loading without an instance dereferences null (`C48_load_refuted`), configuring after the simulator exists aborts (`C48_config_refuted`), reset forgets program and configuration (`C48_reset_program_refuted`) |
| Renode `construct` | the first id is 0, documented as the error value (`C49_nonzero_refuted`); `load_executable` writes `*status` without a null check (see `C49_unknown_returns`) |
| Renode `step` | the total is kept in 32 bits (`C50_count_refuted`) |
| Renode `halt` | returns 0 without storing a status for hardware breakpoints and other reasons (`C51_unmapped_refuted`) |
| Renode `get_reg_info` | the name is not terminated if it fills the buffer (`C52_terminator_refuted`); a negative length is undefined (`C52_negative_length_refuted`) |
| Renode memory | a scatter store outside the memory is rejected after earlier elements were written (`C53_scatter_atomic_refuted`); without the checks an access outside is undefined (`C53_unchecked_refuted`); units of several bytes run past a block (`C53_unit_refuted`), and vector accesses from one address step by bytes instead of units (`C53_unit_stride_refuted`); with a base address the array must cover everything below it too (`C53_base_refuted`); blocks of 4 GB loop forever (`C53_large_block_refuted`) |
| `MpactSimulator::WaitForTermination` | executes one instruction before the first check (`C54_start_refuted`); the timeout is ignored (`C54_no_timeout`); `Run` only sets the pc |
| `CoralNPUTop::Run`, `Wait` | the status is set before the notification: a client calling Run, Wait, Run, Wait can get the second Wait back while the program runs (`C40_wait_refuted`), then null pointers (`C40_wait_pointer_refuted`) or a double Notify (`C40_double_notify_refuted`) |
| `CoralNPUTop::Halt` | is lost when it comes while the thread steps over an action point (`C40_halt_lost_refuted`); `halted_`, `run_status_`, `halt_reason_` are shared without synchronisation (`C40_race_refuted`) |
| `~CoralNPUTop` | frees the object under a thread that has not yet notified (`C40_destructor_refuted`); does not request the halt it announces and waits forever (`C40_destructor_waits_refuted`) |
| V2 `vrsub.vi` | the destination is declared as a fourth source, there is none (`C57_vrsub_refuted`) |
| V2 `vsuxseg<nf>ei<w>.v` | bound to the strided segment store (`C57_vsuxseg_refuted`) |
| V2 `vle<w>ff.v` | bound to the plain load: a fault on a later element traps (`C57_fault_first_refuted`); `vlseg<nf>e<w>ff.v` is missing |
| V2 hints, fences | `add x0, x0, x2..x5`, fences with a reserved fm, fences without successors that name rd and rs1 are illegal though the manual wants them executed (`C57_holes_refuted`) |
| V2 reserved words | fault-only-first stores, `vwmaccus.vv`, `vs<n>re16`, masked mask operations, `vsext.vf8` and others are accepted (`C58_accepted_refuted`) |
| V2 rows | `slli`, `srli`, `srai`, `fence` and their hint rows overlap; the decoder's choice shows (`C59_row_choice_refuted`). The hint rows take the shift amount from the rs1 field (they do nothing with it) |
| V2 mnemonics | `maxu` prints as `max`, `minu` as `min`, `xnor` as `xor`, `vmaxu` as `vmax`, `fsgnjn.s` as `fsgnjx.s`, `csrrci` of 0 as `csrwi`; segment loads and stores lack the element size (`C62_mnemonic_refuted`). Others are misspelt: `fsgn.s`, `vwmandnot`, `orc`, `vsuxseg..ei1` |
| V1 `jalr x0, imm(x1)`, `addi x0, x0, imm` | not decoded unless imm is 0: the rows for ret, nop take the case, the rows for jr, addi exclude it (`C63_manual_refuted`) |
| V1 loose rows | the HINT `addi x0, x0, 0x480` runs as `adwinit v0, v0` (`C63_hint_refuted`), a reserved load as `acset` (`C64_accepted_refuted`) |
| `IsElfFile` | a file of fewer than four bytes leaves `magic_word` uninitialised, which is then tested (`C67_short_file_refuted`) |
| V1 command line | exits with status 0 also when the program ended in a fault (`C67_status_refuted`) |
| `CoralNPUV2Simulator::Run` | documented to return when the simulation halts; it only starts it (the callers add Wait) |
| V1 texts | `vst.w.p.xx.m` prints as `vld.w.p.xx.m` (`C65_store_refuted`), `vdwconv.vxv` as `adwconv.vxv`, `vstq.*.sp.xx*` as `vstq.*.s.xx*`, `csrrci` of 0 as `csrwi` (`C65_csr_refuted`); fence and fence.i hide their operand; `srli` lacks a comma, seven `.vx.m` texts contain a stray V |
| V2 invalid address | the instruction made for an address outside ITCM has size 1 |
| V1 scalar loads | `sw` drops address bit 31 on small memories, `lw` does not: a stored word cannot be read back through the same address (`C70_uncached_refuted`) |
| V1 zero word | 0x00000000 executes as `vadd.b.vv v0, v0, v0`: a jump into cleared memory runs to its end (`C71_zero_refuted`) |
| V1 halts | mpause, illegal words and faults all end in kUserRequest (`C71_cause_refuted`) |
| V1 vector faults | a faulting post-increment access has moved its base register (`C72_post_refuted`) |
| V1 stores at the end of memory | `sw` whose first byte is the last one of the 4 MB writes 3 bytes behind it (`C76_end_refuted`) |
| V1 undefined results | word shifts by -2^31, depthwise convolution before `adwinit`, `flog` without its argument and `acset` in another encoding (`C77_any_refuted`); no other instruction can (`C77_run`) |
| V1 trace | the instruction resumed at after a breakpoint is missing, an ebreak stands for the breakpoint stopped at, each Run overwrites the last trace (`C82_breakpoint_refuted`); `--trace_path=name` without a slash makes a directory `name`, says it dumps the trace there and writes none (`C82_plain_name_refuted`); only the last directory is made, and a file in the root directory is refused (`C82_directory_refuted`) |
