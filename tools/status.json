{
 "C01": [
  "proved",
  "All states, op-codes, prefixes and hosts; execute_with_limit for any number of instructions. Parser arms and bit numbers covered separately."
 ],
 "C02": [
  "proved",
  "ops.rs add/adc/sub/sbc/cp against an integer specification, all operands and flags."
 ],
 "C03": [
  "proved",
  "All listed operations of ops.rs, including the block instruction flag functions."
 ],
 "C04": [
  "proved",
  "Published DAA rule for all inputs; decimal meaning for all BCD operands."
 ],
 "C05": [
  "proved",
  "Bit-level specification of every rotate, shift and bit operation."
 ],
 "C06": [
  "proved",
  "For all operands and flag bytes."
 ],
 "C11": [
  "proved",
  "Same CPU, bus, clock and result with and without the debugger, for every host."
 ],
 "C16": [
  "proved",
  "All states and hosts."
 ],
 "C29": [
  "proved",
  "All registers and control state; reset forgets the past for the three flavours."
 ],
 "C30": [
  "proved",
  "All registers including alternate set, I and R; register pairs are modelled as 16-bit integers, not as a byte union."
 ],
 "C34": [
  "proved",
  "All sequences of clock calls, every signed or unsigned width, and every run of a program on such a clock."
 ],
 "C07": [
  "proved",
  "All op-codes, prefixes, interrupts, flavours, hosts, with and without debugger, against the independent specification SpecIsa.v; RAM contents via C07_ram."
 ],
 "C08": [
  "proved",
  "Clock calls (kind, address, T-states) as in SpecIsa.v; totals from the published tables SpecCycles.v, for every TsCounter width. The relative order of clock calls and bus accesses is C09."
 ],
 "C09": [
  "proved",
  "Every entry point, execute_with_limit for any number of instructions; the whole log of host calls is checked."
 ],
 "C10": [
  "proved",
  "execute_instruction, execute_next, irq, nmi, any number of steps, add_r; set_r/get_ir laws are under C30."
 ],
 "C13": [
  "proved",
  "Any chain of prefixes, any state, any host."
 ],
 "C14": [
  "proved",
  "Equality of the complete run (CPU, bus, clock, result, log) on every host, by a lockstep simulation."
 ],
 "C15": [
  "proved",
  "execute_instruction, execute_next, irq, nmi and entry of execute_with_limit; inside execute_with_limit the delay follows from C22's equivalence and its exception."
 ],
 "C38": [
  "proved",
  "Induction over all histories from reset, every call on any host, execute_with_limit included."
 ],
 "C39": [
  "proved",
  "Full statement refuted (C39_refuted: EI supplied by a device in mode 0 inside execute_with_limit; C39_refuted_line: an interrupt line that goes off when looked at). Proved for all histories without execute_with_limit, and for all histories with it under exactly these two conditions: no device supplies 0xFB in an acknowledge, and a line found on is still on when looked at again with no other access in between (C39_pure_steady: every host on which looking has no effect)."
 ],
 "C31": [
  "proved",
  "All pairs of flavours and all hosts, single steps and runs; each exception is bounded by its own theorem. The LD A,I/R case assumes sampling the interrupt line has no side effect, OUT (C),0 that the device ignores the data."
 ],
 "C40": [
  "proved",
  "All hosts, with and without debugger. The real code also reads the displacement with read_debug (side-effect free view), which is allowed."
 ],
 "C41": [
  "proved",
  "execute_instruction, execute_next, irq on every host; the comparison is with the same host answering None. C41_limit: in a whole execute_with_limit the only request is the one returned."
 ],
 "C42": [
  "proved",
  "Exact list of stored addresses for every op-code, prefix, interrupt; at most two."
 ],
 "C21": [
  "proved",
  "All hosts, any number of instructions; Ok is also shown to follow directly after a limit test that succeeded."
 ],
 "C22": [
  "proved",
  "Both directions, any run length. From a running CPU the host calls are literally identical on every host; from a halted one up to the doubled look at the interrupt line (is_irq must not change the bus). The CPU is equal except last_ei after a device supplied 0xFB in an acknowledge: without that exception the claim is false (C22_refuted)."
 ],
 "C23": [
  "proved",
  "Any clock that does not wrap below the limit and counts at least 4 T-states per M1; devices ask for non-negative wait states (NonZero types in the code)."
 ],
 "C17": [
  "proved",
  "All states, modes, vectors, hosts and wait states; mode 0 is stated against the instruction-set specification, mode 2 also on RAM with the vector table possibly overlapping the stack."
 ],
 "C18": [
  "proved",
  "Exact bus accesses, cycles and registers on every host; RETN from 0x66 on every RAM host whose stack does not overwrite it."
 ],
 "C19": [
  "proved",
  "execute_next and execute_instruction; any number of halted steps on any host that signals no interrupt meanwhile."
 ],
 "C20": [
  "proved",
  "The documented equivalence is false; proved is the exact behaviour of both ways for all states in modes 1 and 2, and a concrete witness (C20_refuted)."
 ],
 "C24": [
  "proved",
  "All register pairs and prefixes, every SP, every RAM host; CALL, RST, maskable interrupts (modes 1, 2) and NMI followed by RET."
 ],
 "C25": [
  "proved",
  "Any number of steps and to completion, any RAM and clock, no interrupt accepted meanwhile; copies that overwrite the instruction are excluded by the statement."
 ],
 "C26": [
  "proved",
  "Any number of steps and to completion; the first matching position is shown to exist."
 ],
 "C27": [
  "proved",
  "Both directions; device answers arbitrary; break requests are continued."
 ],
 "C28": [
  "proved",
  ""
 ],
 "C12": [
  "proved",
  "Log of host calls: exactly one report, made after all its bytes and only its bytes were read, before any write. Interrupt-injected instructions characterised separately (reported pc is off by one)."
 ],
 "C43": [
  "proved",
  "Template table (SpecDebug.text) over the independent ISA decoder; operands compared exactly, with the prefix they carry."
 ],
 "C36": [
  "proved",
  "src/disasm.rs modelled in Disasm.v. The listing is a separate inductive specification (SpecDisasm.v) proved to determine the reports uniquely. Adjusted: ignored prefixes are skipped without being reported."
 ],
 "C37": [
  "proved",
  "Every report produced by execute_next, execute_instruction and irq can be formatted in all radices with any width, precision, fill and alignment; the columns are aligned. Values not produced by the CPU may overflow the formatting buffer (Example C37_ex_longest)."
 ],
 "C32": [
  "proved",
  "Flavour conversions and Z80Any (Any.v). Forwarding: any client of the Cpu trait sees the same answers, host calls and final state through Z80Any as through the concrete Z80."
 ],
 "C35": [
  "proved",
  "Adjusted: the crate has no not(c); stated as complementarity of conditions whose codes differ in bit 3. Op-code classes are those of the independent decoder SpecIsa.decode/ed_decode."
 ],
 "C33": [
  "proved",
  "serde's data model instead of concrete formats: every value a format may hand back for what it was given (SpecSerde.carries). Refuted for formats delivering integers above 32767 as i64 (C33_refuted_signed), which the adjusted statement excludes."
 ],
 "C44": [
  "proved",
  "core's array indexing and from_le_bytes are modelled; undefined behaviour is an explicit None."
 ],
 "C45": [
  "proved",
  "core::fmt's builders are modelled as functions on strings; width and precision flags are not."
 ],
 "C46": [
  "proved",
  "An accessor expression is a lawful get/put pair."
 ],
 "C47": [
  "proved",
  "The claim that without a debugger read_debug is not called is false (C47_read_debug_refuted); C47_quiet says exactly when it is."
 ],
 "C48": [
  "proved",
  "The verbatim tables are in Tables.v (tools/gen_tables.py --check compares them with /repo); the tests' parsers are written again in SpecTables.v, with variables for what the tests draw at random."
 ],
 "C49": [
  "proved",
  "As C48, for every line of the tables of mnemonics. These do not contain the op-codes after ED that do nothing; their cycles are in C08."
 ],
 "C50": [
  "proved",
  "Total correctness on the machine cycle trees of SpecIsa.v, carried to runs. Further routines of the program are not claimed here."
 ],
 "C51": [
  "proved",
  "Memory contents of cartridges, ROM and RAM as functions/lists of bytes; the pointer bank1 is modelled as the identity of what it points to, reading through one whose owner is gone is a panic of the model. Devices other than the memory controller are arbitrary."
 ],
 "C52": [
  "proved",
  "Condition: the clock does not overflow before limit+22+wait states (C52_overflow shows an 8-bit clock running past its limit for ever)."
 ],
 "C53": [
  "proved",
  "C53_runs includes termination of the step's loop, with a bound on the instructions. False as to all valid clocks: C53_valid_clock_refuted."
 ],
 "C54": [
  "proved",
  "False for output without waiting: C54_output_refuted."
 ],
 "C55": [
  "proved",
  "Timers started by their constant; the counter mode and timers started by the trigger are modelled, of them only a finding (C55_counter_refuted) is proved."
 ],
 "C56": [
  "proved",
  "The condition on acknowledgements holds of every run of the machine (C57)."
 ],
 "C57": [
  "proved",
  "Connects the guarantees of the devices (C54-C56), stated for sequences of events, to the events of whole runs of the machine; runs that end in a panic or out of fuel are not covered."
 ],
 "C58": [
  "proved",
  "Runs in which a device panics, or another interrupt is accepted before the end (C58_interrupt_alone says where that is possible), are excluded by the conclusion. The stack must lie in user RAM, SP=0 (top of 64 kB, as after a reset with 48 kB) is not covered."
 ],
 "C59": [
  "proved",
  "Counter mode and trigger lines; the lag at zero between two looks is refuted as C59_lag_refuted"
 ],
 "C60": [
  "proved",
  "UnitOps.v and UnitCpu.v are generated from the Rust text by tools/gen_unit.py (--check compares); the tests in UnitTrait.v (flav_test) and C60_texts (z80_debug), C60_registers, C60_kinds, C60_host are transcribed by hand. Apart from bit_works and default_host_impl these are concrete cases. Not replayed: registers_serde, flavour_serde, z80_serde, tscounter_serde (JSON and bincode text not modelled), break_cause (texts of an error type), Z80Any::from in flavour_conversion, forward_host_io_works and forward_host_memory_works (C46 states more; of forward_host_clock_works only the values, on the counter itself), memory_read16_works of the example. disasm_works is C36_ex_tests; cycles, mnemonics and shuffle tests are C48-C50."
 ],
 "C61": [
  "proved",
  "output_bcd and uint_to_bcd are not covered. Each run is followed up to the next call of RST 10h (C58) or to RET or HALT, unless an interrupt is accepted on the way (C58_interrupt says what that does) or a device panics. Two claims of the source do not hold: C61_prune_refuted, C61_move_refuted and C61_hidden_refuted."
 ],
 "C62": [
  "proved",
  "the greeting, the test of the user's RAM and the menu itself come after it and are not in this property"
 ],
 "C63": [
  "proved",
  "C63_step_runs, C63_runs and C63_preview_runs exclude panics of the debugger itself: it gets as far as the machine without one does, provided the 32-bit sums fit. Nothing is said of what is shown after an interrupt in mode 0 whose injected byte is a prefix. Four refuted expectations (prefix address, kind of IRQ#, IM 2 injected in mode 0, missed breakpoint at the end of a frame) are recorded as findings."
 ],
 "C64": [
  "proved",
  "Bounds are shown for op-code fetches and memory reads; the look of DJNZ at its displacement by read_debug is not in the bus log (C47_quiet says it is at the displacement only)."
 ],
 "C65": [
  "proved",
  "The comment of run_for is off by one frame (finding 21). The loops of thread.rs around the orders are C66; texts are not modelled."
 ],
 "C66": [
  "proved",
  "Messages are a list of what each look into the channel finds; real time, sleeping, texts and the sums kept for the texts (total_ts, last_ts) are not modelled. C66_runs excludes panics outside debug mode for devices that satisfy SpecRunner.polite and SpecRalLoop.patient (shown for a machine without devices). With debug mode this is refuted: two seconds' worth of NMIs sent there make the computer panic later (C66_all_messages_refuted, finding 22); the other theorems are for runs that do not panic. What an accepted NMI does is C53_runs."
 ]
}