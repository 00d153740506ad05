{
 "claims": [
  {
   "property": "C01",
   "status": "proved",
   "theorems": [
    "C01_execute_instruction",
    "C01_execute_next",
    "C01_irq",
    "C01_nmi",
    "C01_execute_with_limit",
    "C01_execute_with_limit_debug_assertions",
    "C01_reset",
    "C01_parser_values",
    "C01_bit_number"
   ],
   "note": "All states, op-codes, prefixes and hosts; execute_with_limit for any number of instructions. Parser arms and bit numbers covered separately."
  },
  {
   "property": "C02",
   "status": "proved",
   "theorems": [
    "C02_add",
    "C02_adc",
    "C02_sub",
    "C02_sbc",
    "C02_cp"
   ],
   "note": "ops.rs add/adc/sub/sbc/cp against an integer specification, all operands and flags."
  },
  {
   "property": "C03",
   "status": "proved",
   "theorems": [
    "C03_and",
    "C03_or",
    "C03_xor",
    "C03_inc",
    "C03_dec",
    "C03_neg",
    "C03_cpl",
    "C03_scf",
    "C03_ccf",
    "C03_in",
    "C03_ld_a_ir",
    "C03_ldx",
    "C03_cpx",
    "C03_iox"
   ],
   "note": "All listed operations of ops.rs, including the block instruction flag functions."
  },
  {
   "property": "C04",
   "status": "proved",
   "theorems": [
    "C04_daa_rule",
    "C04_adc_daa",
    "C04_sbc_daa",
    "C04_add_as_adc",
    "C04_sub_as_sbc"
   ],
   "note": "Published DAA rule for all inputs; decimal meaning for all BCD operands."
  },
  {
   "property": "C05",
   "status": "proved",
   "theorems": [
    "C05_rlc",
    "C05_rrc",
    "C05_rl",
    "C05_rr",
    "C05_sla",
    "C05_sra",
    "C05_sll",
    "C05_srl",
    "C05_rlca",
    "C05_rrca",
    "C05_rla",
    "C05_rra",
    "C05_rld",
    "C05_rrd",
    "C05_rrd_undoes_rld",
    "C05_rld_undoes_rrd",
    "C05_bit",
    "C05_bit_mp",
    "C05_res",
    "C05_set"
   ],
   "note": "Bit-level specification of every rotate, shift and bit operation."
  },
  {
   "property": "C06",
   "status": "proved",
   "theorems": [
    "C06_add16",
    "C06_adc16",
    "C06_sbc16"
   ],
   "note": "For all operands and flag bytes."
  },
  {
   "property": "C07",
   "status": "proved",
   "theorems": [
    "C07_execute_instruction",
    "C07_execute_next",
    "C07_irq",
    "C07_nmi",
    "C07_ram",
    "C07_determined"
   ],
   "note": "All op-codes, prefixes, interrupts, flavours, hosts, with and without debugger, against the independent specification SpecIsa.v; RAM contents via C07_ram."
  },
  {
   "property": "C08",
   "status": "proved",
   "theorems": [
    "C08_execute_next",
    "C08_execute_instruction",
    "C08_irq",
    "C08_nmi",
    "C08_cycles"
   ],
   "note": "Clock calls (kind, address, T-states) as in SpecIsa.v; totals from the published tables SpecCycles.v, for every TsCounter width. The relative order of clock calls and bus accesses is C09."
  },
  {
   "property": "C09",
   "status": "proved",
   "theorems": [
    "C09_execute_instruction",
    "C09_execute_next",
    "C09_irq",
    "C09_nmi",
    "C09_execute_with_limit"
   ],
   "note": "Every entry point, execute_with_limit for any number of instructions; the whole log of host calls is checked."
  },
  {
   "property": "C10",
   "status": "proved",
   "theorems": [
    "C10_execute_instruction",
    "C10_execute_next",
    "C10_irq",
    "C10_nmi",
    "C10_steps",
    "C10_add_r"
   ],
   "note": "execute_instruction, execute_next, irq, nmi, any number of steps, add_r; set_r/get_ir laws are under C30."
  },
  {
   "property": "C11",
   "status": "proved",
   "theorems": [
    "C11_execute_instruction",
    "C11_execute_next",
    "C11_irq"
   ],
   "note": "Same CPU, bus, clock and result with and without the debugger, for every host."
  },
  {
   "property": "C12",
   "status": "proved",
   "theorems": [
    "C12_execute_instruction",
    "C12_execute_next",
    "C12_length",
    "C12_irq",
    "C12_nmi"
   ],
   "note": "Log of host calls: exactly one report, made after all its bytes and only its bytes were read, before any write. Interrupt-injected instructions characterised separately (reported pc is off by one)."
  },
  {
   "property": "C13",
   "status": "proved",
   "theorems": [
    "C13_chain",
    "C13_refused",
    "C13_execute_next",
    "C13_pending"
   ],
   "note": "Any chain of prefixes, any state, any host."
  },
  {
   "property": "C14",
   "status": "proved",
   "theorems": [
    "C14_ignored"
   ],
   "note": "Equality of the complete run (CPU, bus, clock, result, log) on every host, by a lockstep simulation."
  },
  {
   "property": "C15",
   "status": "proved",
   "theorems": [
    "C15_ei",
    "C15_next",
    "C15_limit"
   ],
   "note": "execute_instruction, execute_next, irq, nmi and entry of execute_with_limit; inside execute_with_limit the delay follows from C22's equivalence and its exception."
  },
  {
   "property": "C16",
   "status": "proved",
   "theorems": [
    "C16_irq",
    "C16_nmi"
   ],
   "note": "All states and hosts."
  },
  {
   "property": "C17",
   "status": "proved",
   "theorems": [
    "C17_mode1",
    "C17_mode2",
    "C17_mode2_ram",
    "C17_mode0"
   ],
   "note": "All states, modes, vectors, hosts and wait states; mode 0 is stated against the instruction-set specification, mode 2 also on RAM with the vector table possibly overlapping the stack."
  },
  {
   "property": "C18",
   "status": "proved",
   "theorems": [
    "C18_nmi",
    "C18_retn"
   ],
   "note": "Exact bus accesses, cycles and registers on every host; RETN from 0x66 on every RAM host whose stack does not overwrite it."
  },
  {
   "property": "C19",
   "status": "proved",
   "theorems": [
    "C19_execute_next",
    "C19_execute_instruction",
    "C19_halted_steps"
   ],
   "note": "execute_next and execute_instruction; any number of halted steps on any host that signals no interrupt meanwhile."
  },
  {
   "property": "C20",
   "status": "proved",
   "theorems": [
    "C20_halt_method",
    "C20_halt_instruction",
    "C20_refuted"
   ],
   "note": "The documented equivalence is false; proved is the exact behaviour of both ways for all states in modes 1 and 2, and a concrete witness (C20_refuted)."
  },
  {
   "property": "C21",
   "status": "proved",
   "theorems": [
    "C21_limit"
   ],
   "note": "All hosts, any number of instructions; Ok is also shown to follow directly after a limit test that succeeded."
  },
  {
   "property": "C22",
   "status": "proved",
   "theorems": [
    "C22_running",
    "C22_halted",
    "C22_refuted"
   ],
   "note": "Both directions, any run length. From a running CPU the host calls are literally identical on every host; from a halted one up to the doubled look at the interrupt line (is_irq must not change the bus). The CPU is equal except last_ei after a device supplied 0xFB in an acknowledge: without that exception the claim is false (C22_refuted)."
  },
  {
   "property": "C23",
   "status": "proved",
   "theorems": [
    "C23_returns"
   ],
   "note": "Any clock that does not wrap below the limit and counts at least 4 T-states per M1; devices ask for non-negative wait states (NonZero types in the code)."
  },
  {
   "property": "C24",
   "status": "proved",
   "theorems": [
    "C24_push_pop",
    "C24_call",
    "C24_rst",
    "C24_irq",
    "C24_nmi"
   ],
   "note": "All register pairs and prefixes, every SP, every RAM host; CALL, RST, maskable interrupts (modes 1, 2) and NMI followed by RET."
  },
  {
   "property": "C25",
   "status": "proved",
   "theorems": [
    "C25_steps",
    "C25_complete",
    "C25_move",
    "C25_outside",
    "C25_fill"
   ],
   "note": "Any number of steps and to completion, any RAM and clock, no interrupt accepted meanwhile; copies that overwrite the instruction are excluded by the statement."
  },
  {
   "property": "C26",
   "status": "proved",
   "theorems": [
    "C26_steps",
    "C26_complete"
   ],
   "note": "Any number of steps and to completion; the first matching position is shown to exist."
  },
  {
   "property": "C27",
   "status": "proved",
   "theorems": [
    "C27_in_steps",
    "C27_in_complete",
    "C27_out_steps",
    "C27_out_complete"
   ],
   "note": "Both directions; device answers arbitrary; break requests are continued."
  },
  {
   "property": "C28",
   "status": "proved",
   "theorems": [
    "C28_steps",
    "C28_complete"
   ],
   "note": ""
  },
  {
   "property": "C29",
   "status": "proved",
   "theorems": [
    "C29_registers",
    "C29_others",
    "C29_history_independent"
   ],
   "note": "All registers and control state; reset forgets the past for the three flavours."
  },
  {
   "property": "C30",
   "status": "proved",
   "theorems": [
    "C30_get_set",
    "C30_set_frame",
    "C30_pair_is_halves",
    "C30_pair_set",
    "C30_pair_frame",
    "C30_prefix_only_for_h_l",
    "C30_reg2",
    "C30_exchange_involutive",
    "C30_get_ir"
   ],
   "note": "All registers including alternate set, I and R; register pairs are modelled as 16-bit integers, not as a byte union."
  },
  {
   "property": "C31",
   "status": "proved",
   "theorems": [
    "C31_execute_instruction",
    "C31_execute_next",
    "C31_irq",
    "C31_nmi",
    "C31_steps",
    "C31_scf_ccf",
    "C31_memptr",
    "C31_out_c_0",
    "C31_ld_a_ir"
   ],
   "note": "All pairs of flavours and all hosts, single steps and runs; each exception is bounded by its own theorem. The LD A,I/R case assumes sampling the interrupt line has no side effect, OUT (C),0 that the device ignores the data."
  },
  {
   "property": "C32",
   "status": "proved",
   "theorems": [
    "C32_into_flavour_keeps",
    "C32_nmos_bm1_identity",
    "C32_through_cmos",
    "C32_any_roundtrip",
    "C32_any_convert",
    "C32_with_tag",
    "C32_forwarding"
   ],
   "note": "Flavour conversions and Z80Any (Any.v). Forwarding: any client of the Cpu trait sees the same answers, host calls and final state through Z80Any as through the concrete Z80."
  },
  {
   "property": "C33",
   "status": "proved",
   "theorems": [
    "C33_nmos",
    "C33_cmos",
    "C33_bm1",
    "C33_any",
    "C33_defaults",
    "C33_tagless",
    "C33_safe",
    "C33_rejects_unknown",
    "C33_rejects_twice",
    "C33_rejects_missing",
    "C33_rejects_tag",
    "C33_pair_text",
    "C33_pair_seq",
    "C33_pair_number",
    "C33_signed",
    "C33_refuted_signed"
   ],
   "note": "serde's data model instead of concrete formats: every value a format may hand back for what it was given (SpecSerde.carries). Refuted for formats delivering integers above 32767 as i64 (C33_refuted_signed), which the adjusted statement excludes."
  },
  {
   "property": "C34",
   "status": "proved",
   "theorems": [
    "C34_calls",
    "C34_wrap",
    "C34_run"
   ],
   "note": "All sequences of clock calls, every signed or unsigned width, and every run of a program on such a clock."
  },
  {
   "property": "C35",
   "status": "proved",
   "theorems": [
    "C35_match",
    "C35_build",
    "C35_single",
    "C35_roundtrip",
    "C35_total",
    "C35_cond_text",
    "C35_satisfied",
    "C35_opposite"
   ],
   "note": "Adjusted: the crate has no not(c); stated as complementarity of conditions whose codes differ in bit 3. Op-code classes are those of the independent decoder SpecIsa.decode/ed_decode."
  },
  {
   "property": "C36",
   "status": "proved",
   "theorems": [
    "C36_disasm_memory",
    "C36_listing_unique",
    "C36_disasm_memory_once",
    "C36_write_text"
   ],
   "note": "src/disasm.rs modelled in Disasm.v. The listing is a separate inductive specification (SpecDisasm.v) proved to determine the reports uniquely. Adjusted: ignored prefixes are skipped without being reported."
  },
  {
   "property": "C37",
   "status": "proved",
   "theorems": [
    "C37_execute_next",
    "C37_execute_instruction",
    "C37_irq",
    "C37_columns"
   ],
   "note": "Every report produced by execute_next, execute_instruction and irq can be formatted in all radices with any width, precision, fill and alignment; the columns are aligned. Values not produced by the CPU may overflow the formatting buffer (Example C37_ex_longest)."
  },
  {
   "property": "C38",
   "status": "proved",
   "theorems": [
    "C38_iff1_iff2"
   ],
   "note": "Induction over all histories from reset, every call on any host, execute_with_limit included."
  },
  {
   "property": "C39",
   "status": "proved",
   "theorems": [
    "C39_without_limit",
    "C39_refuted",
    "C39_with_limit",
    "C39_pure_steady",
    "C39_refuted_line"
   ],
   "note": "Full statement refuted (C39_refuted: EI supplied by a device in mode 0 inside execute_with_limit; C39_refuted_line: an interrupt line that goes off when looked at). Proved for all histories without execute_with_limit, and for all histories with it under exactly these two conditions: no device supplies 0xFB in an acknowledge, and a line found on is still on when looked at again with no other access in between (C39_pure_steady: every host on which looking has no effect)."
  },
  {
   "property": "C40",
   "status": "proved",
   "theorems": [
    "C40_not_taken"
   ],
   "note": "All hosts, with and without debugger. The real code also reads the displacement with read_debug (side-effect free view), which is allowed."
  },
  {
   "property": "C41",
   "status": "proved",
   "theorems": [
    "C41_limit",
    "C41_execute_instruction",
    "C41_execute_next",
    "C41_irq",
    "C41_same_instruction",
    "C41_same_next",
    "C41_same_irq"
   ],
   "note": "execute_instruction, execute_next, irq on every host; the comparison is with the same host answering None. C41_limit: in a whole execute_with_limit the only request is the one returned."
  },
  {
   "property": "C42",
   "status": "proved",
   "theorems": [
    "C42_execute_instruction",
    "C42_execute_next",
    "C42_irq",
    "C42_nmi",
    "C42_at_most_two"
   ],
   "note": "Exact list of stored addresses for every op-code, prefix, interrupt; at most two."
  },
  {
   "property": "C43",
   "status": "proved",
   "theorems": [
    "C43_execute_next",
    "C43_execute_instruction",
    "C43_irq"
   ],
   "note": "Template table (SpecDebug.text) over the independent ISA decoder; operands compared exactly, with the prefix they carry."
  },
  {
   "property": "C44",
   "status": "proved",
   "theorems": [
    "C44_sequences",
    "C44_reads",
    "C44_from",
    "C44_bijection",
    "C44_model",
    "C44_get_reg",
    "C44_set_reg",
    "C44_apply_reg8",
    "C44_pointer"
   ],
   "note": "core's array indexing and from_le_bytes are modelled; undefined behaviour is an explicit None."
  },
  {
   "property": "C45",
   "status": "proved",
   "theorems": [
    "C45_read",
    "C45_same",
    "C45_any",
    "C45_lines",
    "C45_neat",
    "C45_any_neat"
   ],
   "note": "core::fmt's builders are modelled as functions on strings; width and precision flags are not."
  },
  {
   "property": "C46",
   "status": "proved",
   "theorems": [
    "C46_forward",
    "C46_arms",
    "C46_debug_bus"
   ],
   "note": "An accessor expression is a lawful get/put pair."
  },
  {
   "property": "C47",
   "status": "proved",
   "theorems": [
    "C47_quiet",
    "C47_read_debug_refuted",
    "C47_slices",
    "C47_frames",
    "C47_ts"
   ],
   "note": "The claim that without a debugger read_debug is not called is false (C47_read_debug_refuted); C47_quiet says exactly when it is."
  },
  {
   "property": "C48",
   "status": "proved",
   "theorems": [
    "C48_reports",
    "C48_every_opcode"
   ],
   "note": "The verbatim tables are in Tables.v (tools/gen_tables.py --check compares them with /repo); the tests' parsers are written again in SpecTables.v, with variables for what the tests draw at random."
  },
  {
   "property": "C49",
   "status": "proved",
   "theorems": [
    "C49_cycles",
    "C49_has_cycles",
    "C49_used"
   ],
   "note": "As C48, for every line of the tables of mnemonics. These do not contain the op-codes after ED that do nothing; their cycles are in C08."
  },
  {
   "property": "C50",
   "status": "proved",
   "theorems": [
    "C50_sorts",
    "C50_sorts_in_time",
    "C50_all_bytes"
   ],
   "note": "Total correctness on the machine cycle trees of SpecIsa.v, carried to runs. Further routines of the program are not claimed here."
  },
  {
   "property": "C51",
   "status": "proved",
   "theorems": [
    "C51_memory_map",
    "C51_new",
    "C51_attach_full",
    "C51_attach_many",
    "C51_bus",
    "C51_never_dangling",
    "C51_kernel_page_private"
   ],
   "note": "Memory contents of cartridges, ROM and RAM as functions/lists of bytes; the pointer bank1 is modelled as the identity of what it points to, reading through one whose owner is gone is a panic of the model. Devices other than the memory controller are arbitrary."
  },
  {
   "property": "C52",
   "status": "proved",
   "theorems": [
    "C52_step",
    "C52_paced",
    "C52_overshoot",
    "C52_ts_counter",
    "C52_returns"
   ],
   "note": "Condition: the clock does not overflow before limit+22+wait states (C52_overflow shows an 8-bit clock running past its limit for ever)."
  },
  {
   "property": "C53",
   "status": "proved",
   "theorems": [
    "C53_rate",
    "C53_runs",
    "C53_bare",
    "C53_valid_clock_refuted"
   ],
   "note": "C53_runs includes termination of the step's loop, with a bound on the instructions. False as to all valid clocks: C53_valid_clock_refuted."
  },
  {
   "property": "C54",
   "status": "proved",
   "theorems": [
    "C54_input",
    "C54_next",
    "C54_output",
    "C54_retry",
    "C54_willing",
    "C54_output_refuted",
    "C54_masked",
    "C54_request",
    "C54_sent",
    "C54_service",
    "C54_panics"
   ],
   "note": "False for output without waiting: C54_output_refuted."
  },
  {
   "property": "C55",
   "status": "proved",
   "theorems": [
    "C55_counts",
    "C55_pulses",
    "C55_request",
    "C55_soon",
    "C55_not_early",
    "C55_late_refuted",
    "C55_panic_refuted",
    "C55_machine_refuted",
    "C55_counter_refuted"
   ],
   "note": "Timers started by their constant; the counter mode and timers started by the trigger are modelled, of them only a finding (C55_counter_refuted) is proved."
  },
  {
   "property": "C56",
   "status": "proved",
   "theorems": [
    "C56_nested",
    "C56_two",
    "C56_first",
    "C56_clear",
    "C56_behind",
    "C56_input",
    "C56_output",
    "C56_request"
   ],
   "note": "The condition on acknowledgements holds of every run of the machine (C57)."
  },
  {
   "property": "C57",
   "status": "proved",
   "theorems": [
    "C57_acknowledged",
    "C57_tells",
    "C57_machine",
    "C57_waitless",
    "C57_chain"
   ],
   "note": "Connects the guarantees of the devices (C54-C56), stated for sequences of events, to the events of whole runs of the machine; runs that end in a panic or out of fuel are not covered."
  },
  {
   "property": "C58",
   "status": "proved",
   "theorems": [
    "C58_put",
    "C58_put_woken",
    "C58_put_off",
    "C58_put_woken_off",
    "C58_put_alone",
    "C58_get",
    "C58_get_woken",
    "C58_get_off",
    "C58_get_woken_off",
    "C58_get_alone",
    "C58_interrupt",
    "C58_interrupt_alone",
    "C58_order"
   ],
   "note": "Runs in which a device panics, or another interrupt is accepted before the end (C58_interrupt_alone says where that is possible), are excluded by the conclusion. The stack must lie in user RAM, SP=0 (top of 64 kB, as after a reset with 48 kB) is not covered."
  },
  {
   "property": "C59",
   "status": "proved",
   "theorems": [
    "C59_order",
    "C59_order_seconds",
    "C59_all_heard",
    "C59_room",
    "C59_counter",
    "C59_clock",
    "C59_lag_refuted"
   ],
   "note": "Counter mode and trigger lines; the lag at zero between two looks is refuted as C59_lag_refuted"
  },
  {
   "property": "C60",
   "status": "proved",
   "theorems": [
    "C60_ops",
    "C60_methods",
    "C60_flavours",
    "C60_texts",
    "C60_registers",
    "C60_kinds",
    "C60_host"
   ],
   "note": "UnitOps.v and UnitCpu.v are generated from the Rust text by tools/gen_unit.py (--check compares); the tests in UnitTrait.v (flav_test) and C60_texts (z80_debug), C60_registers, C60_kinds, C60_host are transcribed by hand. Apart from bit_works and default_host_impl these are concrete cases. Not replayed: registers_serde, flavour_serde, z80_serde, tscounter_serde (JSON and bincode text not modelled), break_cause (texts of an error type), Z80Any::from in flavour_conversion, forward_host_io_works and forward_host_memory_works (C46 states more; of forward_host_clock_works only the values, on the counter itself), memory_read16_works of the example. disasm_works is C36_ex_tests; cycles, mnemonics and shuffle tests are C48-C50."
  },
  {
   "property": "C61",
   "status": "proved",
   "theorems": [
    "C61_number8",
    "C61_number16",
    "C61_repeat",
    "C61_text_tok",
    "C61_text",
    "C61_frames",
    "C61_frames_off",
    "C61_frames_alone",
    "C61_peek",
    "C61_peek_woken",
    "C61_flush",
    "C61_flush_woken",
    "C61_wait",
    "C61_wait_woken",
    "C61_timeout",
    "C61_timeout_woken",
    "C61_peek_off",
    "C61_peek_woken_off",
    "C61_peek_alone",
    "C61_flush_off",
    "C61_flush_woken_off",
    "C61_flush_alone",
    "C61_wait_off",
    "C61_wait_alone",
    "C61_wait_woken_off",
    "C61_wait_woken_alone",
    "C61_timeout_off",
    "C61_timeout_alone",
    "C61_timeout_woken_off",
    "C61_timeout_woken_alone",
    "C61_move",
    "C61_interrupt",
    "C61_interrupt_alone",
    "C61_prune",
    "C61_prune_refuted",
    "C61_move_refuted",
    "C61_hidden_refuted"
   ],
   "note": "output_bcd and uint_to_bcd are not covered. Each run is followed up to the next call of RST 10h (C58) or to RET or HALT, unless an interrupt is accepted on the way (C58_interrupt says what that does) or a device panics. Two claims of the source do not hold: C61_prune_refuted, C61_move_refuted and C61_hidden_refuted."
  },
  {
   "property": "C62",
   "status": "proved",
   "theorems": [
    "C62_reset_off",
    "C62_reset",
    "C62_abort",
    "C62_abort_off",
    "C62_menu",
    "C62_nmi"
   ],
   "note": "the greeting, the test of the user's RAM and the menu itself come after it and are not in this property"
  },
  {
   "property": "C63",
   "status": "proved",
   "theorems": [
    "C63_step",
    "C63_step_ends",
    "C63_step_runs",
    "C63_runs",
    "C63_int",
    "C63_ret",
    "C63_brkpt",
    "C63_kinds",
    "C63_preview",
    "C63_preview_runs",
    "C63_prefix_address_refuted",
    "C63_irq_kind_refuted",
    "C63_mode0_refuted",
    "C63_brkpt_missed_refuted"
   ],
   "note": "C63_step_runs, C63_runs and C63_preview_runs exclude panics of the debugger itself: it gets as far as the machine without one does, provided the 32-bit sums fit. Nothing is said of what is shown after an interrupt in mode 0 whose injected byte is a prefix. Four refuted expectations (prefix address, kind of IRQ#, IM 2 injected in mode 0, missed breakpoint at the end of a frame) are recorded as findings."
  },
  {
   "property": "C64",
   "status": "proved",
   "theorems": [
    "C64_fibonacci",
    "C64_exact"
   ],
   "note": "Bounds are shown for op-code fetches and memory reads; the look of DJNZ at its displacement by read_debug is not in the bus log (C47_quiet says it is at the displacement only)."
  },
  {
   "property": "C65",
   "status": "proved",
   "theorems": [
    "C65_orders",
    "C65_completion",
    "C65_runs",
    "C65_frames_run",
    "C65_frames_refuted"
   ],
   "note": "The comment of run_for is off by one frame (finding 21). The loops of thread.rs around the orders are C66; texts are not modelled."
  },
  {
   "property": "C66",
   "status": "proved",
   "theorems": [
    "C66_requests",
    "C66_left_alone",
    "C66_paused",
    "C66_ended",
    "C66_account",
    "C66_runs",
    "C66_all_messages_refuted"
   ],
   "note": "Messages are a list of what each look into the channel finds; real time, sleeping, texts and the sums kept for the texts (total_ts, last_ts) are not modelled. C66_runs excludes panics outside debug mode for devices that satisfy SpecRunner.polite and SpecRalLoop.patient (shown for a machine without devices). With debug mode this is refuted: two seconds' worth of NMIs sent there make the computer panic later (C66_all_messages_refuted, finding 22); the other theorems are for runs that do not panic. What an accepted NMI does is C53_runs."
  }
 ]
}