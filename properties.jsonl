{"id": "C01", "title": "Every instruction completes without panic or undefined behaviour", "statement": "For every CPU state, every pending prefix, every opcode byte and every host, execute_instruction / execute_next / irq / nmi run to completion: no unreachable_unchecked arm is reached, no unwrap on a missing prefix happens, the 4-byte instruction-code buffer of CpuDebug never overflows, and every BIT/SET/RES bit number is below 8.", "quantifier": "all CPU states x all opcode bytes and operand bytes x all host implementations (memory, I/O, clock)", "why_tests_cant": "The arms are compiled to unreachable_unchecked in release builds; tests only sample opcode/prefix combinations and the operand bytes come from an arbitrary host.", "anchors": ["src/z80/opcodes.rs execute_instruction!", "src/z80/instructions.rs debug_unreachable_unchecked!", "src/z80/ops.rs daa", "src/z80/debug.rs debug_instruction"]}
{"id": "C02", "title": "8-bit ADD/ADC/SUB/SBC/CP compute the arithmetic result and exactly the documented flags", "statement": "After ADD/ADC/SUB/SBC/CP with accumulator a, operand v and carry c the accumulator is (a +/- v +/- c) mod 256 (unchanged for CP) and S,Z,H,V,N,C and bits 3/5 are exactly the sign, zero, half carry, signed overflow, subtract and carry of the mathematical result (bits 3/5 from the operand for CP).", "quantifier": "all 2^8 x 2^8 operand pairs, both carries, all previous flag values", "why_tests_cant": "Unit tests enumerate through the same helpers; the claim relates flags to integer arithmetic for all inputs.", "anchors": ["src/z80/ops.rs add adc sub sbc cp", "src/cpu/flags.rs"]}
{"id": "C03", "title": "Logical, INC/DEC, NEG, CPL, SCF/CCF and IN flags are exact", "statement": "AND/OR/XOR/INC/DEC/NEG/CPL/SCF/CCF/IN r,(C)/LD A,I produce the documented value and the documented value of each flag, and leave untouched exactly the flags documented as unaffected.", "quantifier": "all operand bytes, all previous flag bytes", "why_tests_cant": "Requires all flag bytes, not only the ones tests start from.", "anchors": ["src/z80/ops.rs and or xor inc dec neg cpl scf ccf io ld_a_ir"]}
{"id": "C04", "title": "DAA gives correct packed-BCD arithmetic", "statement": "If a and b are valid packed BCD bytes then ADD/ADC followed by DAA yields the BCD digits of (a+b+c) mod 100 with carry set iff a+b+c >= 100, and SUB/SBC followed by DAA yields the BCD digits of (a-b-c) mod 100 with carry set iff a < b+c. For all other inputs DAA equals the published correction table.", "quantifier": "all pairs of BCD bytes and carries; all accumulator/flag combinations for the table", "why_tests_cant": "The end-to-end decimal meaning is never stated in tests.", "anchors": ["src/z80/ops.rs daa add adc sub sbc"]}
{"id": "C05", "title": "Rotates, shifts, BIT/SET/RES and RLD/RRD act on exactly the documented bits", "statement": "Each CB-group operation maps result bit i to the documented source bit for all i and sets the documented flags; RLD/RRD rotate the three nibbles and are mutually inverse.", "quantifier": "all bytes, carries, bit numbers", "why_tests_cant": "Bit-level specification for every value.", "anchors": ["src/z80/ops.rs rlc rrc rl rr sla sra sll srl bit bit_mp res set rld rrd rlca rrca rla rra"]}
{"id": "C06", "title": "16-bit ADD/ADC/SBC results and flags are exact", "statement": "ADD/ADC/SBC on register pairs give the result mod 65536 and S,Z,H (carry out of bit 11),V,N,C and bits 3/5 of the high byte as mathematically defined; ADD leaves S,Z,PV.", "quantifier": "all 2^32 operand pairs, both carries, all previous flags", "why_tests_cant": "2^33 cases are out of reach for exhaustive tests.", "anchors": ["src/z80/ops.rs add16 adc16 sbc16", "src/cpu/flags.rs mask_nh_add16 mask_nh_adc16 mask_nh_sbc16"]}
{"id": "C07", "title": "Each instruction has exactly the architectural effect of an independent Z80 specification", "statement": "Executing any opcode (unprefixed, CB, ED, DD/FD, DDCB/FDCB) in any state on any RAM and I/O device changes the registers, flags, memory, ports and interrupt flip-flops exactly as an independently written Z80 instruction-set specification says, including undocumented opcodes and MEMPTR.", "quantifier": "all CPU states, all opcode and operand bytes, all memories and I/O devices", "why_tests_cant": "The state space (all registers x memory) cannot be enumerated.", "anchors": ["src/z80/instructions.rs", "src/z80/internal.rs", "src/z80/opcodes.rs"]}
{"id": "C08", "title": "Each instruction performs exactly the documented machine cycles", "statement": "The ordered sequence of clock calls (kind, address, T-states) made by any instruction equals the documented machine-cycle table for that instruction, so a host sees the documented bus addresses and total T-states.", "quantifier": "all CPU states, opcode bytes, hosts", "why_tests_cant": "Addresses depend on registers and operands; tests sample one state per mnemonic.", "anchors": ["src/z80/instructions.rs", "src/host.rs Clock", "tests/mnemonics_cycles.txt"]}
{"id": "C09", "title": "Every host access carries the timestamp of its own machine cycle", "statement": "Each read_opcode/read_mem/read_mem16/write_mem/read_io/write_io/irq_data call receives the timestamp returned by the immediately preceding corresponding clock call for the same address, and is_irq/reti receive the current timestamp; wait states are added only as the device has just asked, idle T-states are never zero.", "quantifier": "all executions on all hosts and clocks", "why_tests_cant": "It is a property of the order of interactions with an arbitrary clock.", "anchors": ["src/z80/macros.rs", "src/z80/internal.rs", "src/host.rs Clock Io Memory"]}
{"id": "C10", "title": "Memory refresh register R counts opcode fetches modulo 128 and keeps bit 7", "statement": "In every execution step other than LD R,A, get_r()'s bit 7 is unchanged and its low 7 bits advance by the number of M1 / interrupt acknowledge cycles made; LD R,A and set_r store the exact byte; get_ir is I concatenated with R.", "quantifier": "all states, opcodes, interrupts, halted cycles, arbitrarily long histories", "why_tests_cant": "Wrap around and bit 7 retention must hold after any history.", "anchors": ["src/z80.rs get_r set_r inc_r add_r get_ir", "src/z80/internal.rs fetch_next_opcode irq_no_check nmi_no_check"]}
{"id": "C11", "title": "The debugger never changes execution", "statement": "Executing with a debug closure or without one yields identical CPU, bus and clock states and the same result.", "quantifier": "all states, opcodes, hosts, entry points (execute_instruction, execute_next, irq)", "why_tests_cant": "Non-interference over all states; documented as a design goal only.", "anchors": ["src/z80/macros.rs cpu_debug!", "src/z80/debug.rs", "src/z80.rs"]}
{"id": "C12", "title": "Debug information is truthful", "statement": "execute_instruction, execute_next and irq call the debug closure exactly once per executed instruction and never for a DD/FD prefix byte or halted cycle (nmi never calls it); the reported code consists of the prefix (if any, and unless the op-code ignores it) followed by the bytes of the instruction in the order fetched, has 1 to 4 bytes and is complete, and the reported pc is the address of its first byte; for an instruction injected by an interrupt, whose first byte is not in memory, the reported pc is one less than the address its following bytes are or would be read from.", "quantifier": "all states, opcodes and hosts", "why_tests_cant": "All operand bytes, addresses (wrap-around) and prefixes.", "anchors": ["src/z80/debug.rs debug_instruction", "src/z80/macros.rs cpu_debug!", "src/cpu/debug.rs CpuDebug"]}
{"id": "C13", "title": "DD/FD prefixes are separate uninterruptible steps, the last one wins", "statement": "Executing 0xDD/0xFD only records the prefix; any chain of them leaves only the last one; while a prefix is pending neither irq nor nmi is accepted; after any other instruction no prefix is pending.", "quantifier": "all states, prefix chains of any length", "why_tests_cant": "Chains are unbounded.", "anchors": ["src/z80/opcodes.rs execute_instruction!", "src/z80.rs is_irq_allowed is_nmi_allowed is_after_prefix"]}
{"id": "C14", "title": "A prefix before an opcode that does not use HL is ignored", "statement": "For every opcode that does not refer to H, L, HL or (HL), executing it with a pending DD/FD prefix has the same effect on CPU, bus and clock as executing it without the prefix.", "quantifier": "all states, all such opcodes, all hosts", "why_tests_cant": "Universally quantified over states and opcodes.", "anchors": ["src/z80/opcodes.rs match_instruction_prefixed"]}
{"id": "C15", "title": "EI delays interrupts by exactly one instruction", "statement": "Immediately after EI both flip-flops are on but neither a maskable nor a non-maskable interrupt is accepted; after the following non-EI, non-prefix instruction (unless it disables them) they are, in execute_next, irq, nmi and execute_with_limit alike.", "quantifier": "all states, all following instructions, any number of consecutive EI", "why_tests_cant": "Depends on every possible following instruction and history.", "anchors": ["src/z80.rs enable_interrupts is_irq_allowed execute_instruction execute_with_limit"]}
{"id": "C16", "title": "A refused interrupt is a no-op", "statement": "irq returns None and nmi returns false exactly when the interrupt is not allowed, and then CPU, bus and clock are unchanged.", "quantifier": "all states and hosts", "why_tests_cant": "All states.", "anchors": ["src/z80.rs irq nmi"]}
{"id": "C17", "title": "Accepting a maskable interrupt has the documented effect in every mode", "statement": "irq clears both flip-flops and HALT, in mode 1 pushes the return address and jumps to 0x0038 in 13 T-states, in mode 2 pushes it and jumps to the word stored at I*256+vector in 19 T-states, in mode 0 executes the supplied opcode in its time + 2 - with the wait states requested by irq_data added; a halted CPU resumes after the HALT.", "quantifier": "all states, vectors, hosts, wait states", "why_tests_cant": "All states x vectors.", "anchors": ["src/z80/internal.rs irq_no_check", "src/z80.rs irq"]}
{"id": "C18", "title": "Accepting a non-maskable interrupt has the documented effect", "statement": "nmi pushes the return address (after the HALT if halted), sets PC to 0x0066, clears iff1 while preserving iff2, takes M1:4 + IR:1 + SP-1:3 + SP-2:3 cycles and changes nothing else visible; RETN afterwards restores PC, SP and sets iff1 to iff2.", "quantifier": "all states and hosts (RAM hosts for the RETN part)", "why_tests_cant": "All states.", "anchors": ["src/z80/internal.rs nmi_no_check", "src/z80/instructions.rs RETN"]}
{"id": "C19", "title": "HALT parks the CPU until an interrupt", "statement": "Executing HALT returns Err(Halt) with is_halt and PC on the HALT; every further execute_next without a pending allowed interrupt only adds one M1 cycle and increments R, so k halted steps equal add_r(k) for any k.", "quantifier": "all states, any number of halted steps, all hosts", "why_tests_cant": "Unbounded number of steps.", "anchors": ["src/z80.rs execute_next halt add_r", "src/z80/instructions.rs HALT"]}
{"id": "C20", "title": "halt() is not equivalent to executing HALT through execute_instruction", "statement": "Cpu::halt's documentation says that forcing the HALT state can equally be done by executing HALT with execute_instruction. That is false of the code (C20_refuted): whatever the state, after halt() the next accepted interrupt pushes PC+1, after HALT through execute_instruction it pushes PC.", "quantifier": "all states", "why_tests_cant": "The pushed return address is only observable with a later interrupt.", "anchors": ["src/cpu.rs Cpu::halt", "src/z80.rs halt", "src/z80/internal.rs irq_no_check"]}
{"id": "C21", "title": "execute_with_limit returns Ok only when the limit is reached", "statement": "If execute_with_limit returns Ok(()) then is_past_limit(limit) holds of the clock; Err(Halt) implies is_halt.", "quantifier": "all states, hosts, clocks, limits", "why_tests_cant": "All loops of any length.", "anchors": ["src/z80.rs execute_with_limit execute_with_limit_loop"]}
{"id": "C22", "title": "execute_with_limit is repeated execute_next", "statement": "Running execute_with_limit gives the same bus, clock, result and host calls as calling execute_next until the limit is reached or a break is requested, and the same CPU except that the after-EI flag may be left on when a device supplied 0xFB in an interrupt acknowledge (mode 0). (Without the exception the claim is false of the code: C22_refuted.)", "quantifier": "all states, all hosts whose is_irq only depends on and does not change bus state, all limits, unbounded run lengths", "why_tests_cant": "Equivalence of two unbounded loops with a different interrupt sampling structure.", "anchors": ["src/z80.rs execute_with_limit execute_with_limit_loop execute_next"]}
{"id": "C23", "title": "execute_with_limit terminates", "statement": "On a non-wrapping clock that adds at least the documented number of T-states, execute_with_limit returns within (limit - now)/4 + 1 executed instructions.", "quantifier": "all states and hosts, all limits", "why_tests_cant": "Termination is not testable.", "anchors": ["src/z80.rs execute_with_limit execute_with_limit_loop", "src/host.rs Clock"]}
{"id": "C24", "title": "PUSH/POP and CALL/RET are inverse", "statement": "On RAM, PUSH rr; POP rr' copies rr into rr' and restores SP; CALL nn / RST p / interrupt followed by RET returns to the following instruction with SP restored, for every SP including wrap-around.", "quantifier": "all states, all register pairs, all RAM contents", "why_tests_cant": "All SP values and RAM.", "anchors": ["src/z80/internal.rs push_ss pop_ss push2 pop16"]}
{"id": "C25", "title": "LDIR/LDDR copy byte by byte with the documented overlap behaviour", "statement": "Running LDIR/LDDR to completion on RAM performs BC (65536 if 0) sequential byte copies, ends with BC=0 and HL, DE advanced, and takes 21*(n-1)+16 T-states.", "quantifier": "all HL, DE, BC, RAM contents that do not overwrite the instruction itself", "why_tests_cant": "Up to 65536 iterations from any state.", "anchors": ["src/z80/internal.rs block_transfer"]}
{"id": "C26", "title": "CPIR/CPDR stop at the first match", "statement": "Running CPIR/CPDR to completion on RAM stops right after the first byte equal to A among the BC (65536 if 0) bytes examined, or after all of them; Z tells which, PV tells whether BC is non-zero, HL/BC count the bytes examined, memory is unchanged.", "quantifier": "all A, HL, BC, RAM contents", "why_tests_cant": "Unbounded search.", "anchors": ["src/z80/internal.rs block_search"]}
{"id": "C27", "title": "INIR/INDR/OTIR/OTDR transfer exactly B bytes in order", "statement": "Running the block I/O instructions to completion transfers B (256 if 0) bytes between memory and the port in order and ends with B=0, HL advanced, Z set.", "quantifier": "all B, HL, devices, RAM contents", "why_tests_cant": "Unbounded device histories.", "anchors": ["src/z80/internal.rs block_in block_out"]}
{"id": "C28", "title": "DJNZ loops B times", "statement": "A DJNZ jumping to itself executes exactly B (256 if 0) times, taking 13*(n-1)+8 T-states, leaving flags unchanged.", "quantifier": "all states", "why_tests_cant": "Iteration from any state.", "anchors": ["src/z80/instructions.rs DJNZ"]}
{"id": "C29", "title": "reset gives one fixed state", "statement": "After reset every programmer visible part is the documented reset value whatever happened before; new() equals default()+reset().", "quantifier": "all prior states/histories", "why_tests_cant": "All states.", "anchors": ["src/z80.rs reset new"]}
{"id": "C30", "title": "Register accessors obey get/set laws and do not interfere", "statement": "Writing any 8-bit or 16-bit register (with any prefix) and reading it back returns the value; all registers not overlapping it are unchanged; exx, ex_af_af and ex_de_hl are involutions.", "quantifier": "all states, registers, prefixes, values", "why_tests_cant": "All register/value pairs and states (raw-pointer access).", "anchors": ["src/z80.rs get_reg set_reg get_reg16 set_reg16 set_reg2 set_index16", "src/z80/internal.rs"]}
{"id": "C31", "title": "Flavours differ only in the documented undocumented behaviour", "statement": "Starting from the same state NMOS, CMOS and BM1 make identical steps for all instructions except bits 3/5 after SCF/CCF, the data of OUT (C),0, PV of LD A,I / LD A,R and MEMPTR after LD (rp),A / LD (nn),A / OUT (n),A.", "quantifier": "all states and instructions, all hosts", "why_tests_cant": "All instructions and states.", "anchors": ["src/z80/flavours.rs", "src/z80/internal.rs"]}
{"id": "C32", "title": "Flavour and Z80Any conversions preserve the CPU", "statement": "into_flavour keeps every register and control bit; NMOS->BM1->NMOS is the identity; any flavour -> Z80Any -> flavour is the identity; Z80Any forwards every operation to the contained CPU.", "quantifier": "all states", "why_tests_cant": "All states.", "anchors": ["src/z80.rs into_flavour", "src/z80/flavours.rs From", "src/z80/any.rs"]}
{"id": "C33", "title": "Serialization round-trips", "statement": "Deserializing a serialized Z80 gives back an equal CPU for every state and flavour, as a sequence and as a map with fields in any order (also the nested ones), and deserializing it as another flavour gives the converted CPU; Z80Any gives back the variant that was written. Missing type, memptr, r and flavour fields take their defaults; unknown, duplicate and missing fields and unknown tags are errors; no input panics or gives an out-of-range register. Only formats that deliver non-negative integers as i64 are an exception: register pairs above 32767 are then rejected.", "quantifier": "all states, all permutations of map fields", "why_tests_cant": "All states and orders.", "anchors": ["src/z80/serde.rs"]}
{"id": "C34", "title": "TsCounter counts documented T-states modulo its width", "statement": "Any sequence of clock calls advances TsCounter by the sum of the documented T-states modulo 2^bits and each returned timestamp is the documented offset.", "quantifier": "all sequences of clock calls, all start values, all widths", "why_tests_cant": "Unbounded sequences.", "anchors": ["src/host.rs TsCounter"]}
{"id": "C35", "title": "Condition and opcode-field encodings round-trip", "statement": "Every op-code field type (Condition, Reg8, Reg16, StkReg16, Ops8, Rot, Prefix, InterruptMode) converts to its code and back to itself and the conversion from a byte depends on exactly its field bits and fails exactly for the missing codes; each Condition is satisfied exactly when its flag bit has the polarity of its code, and two conditions are complementary exactly when their codes differ in bit 3 alone; the opconsts base/mask constants match exactly the op-codes of their instruction class, with the operand the field decoders read, and the documented building rules give those op-codes.", "quantifier": "all conditions, flag bytes, opcodes", "why_tests_cant": "All flag bytes x opcodes.", "anchors": ["src/cpu/parse.rs", "src/lib.rs opconsts"]}
{"id": "C36", "title": "The disassembler walks the whole memory slice", "statement": "disasm_memory terminates on every slice and hands to the closure exactly the instructions of the slice in order, each with the address of its first byte (starting at pc, wrapping around), its bytes as they are in the slice, and its mnemonic and operands; the only bytes left out are DD/FD prefixes that do not belong to the instruction following them, and at most one instruction truncated at the end. It stops when the closure fails. disasm_memory_once gives the first report, and disasm_memory_write_text writes one line per report and never fails to format one.", "quantifier": "all slices, all start addresses, all bytes", "why_tests_cant": "All byte sequences of every length.", "anchors": ["src/disasm.rs"]}
{"id": "C37", "title": "Debug text formatting never fails", "statement": "Formatting (Display, LowerHex, UpperHex, alternate, with width) any CpuDebug produced by the CPU never overflows the fixed size text buffers.", "quantifier": "all produced CpuDebug values", "why_tests_cant": "All operand values.", "anchors": ["src/cpu/debug.rs"]}
{"id": "C38", "title": "iff1 implies iff2 in every reachable state", "statement": "In every state reached from reset by any interleaving of execute_next, execute_instruction, execute_with_limit, irq and nmi on any host, iff1 on implies iff2 on.", "quantifier": "all finite histories, all hosts", "why_tests_cant": "Reachability invariant.", "anchors": ["src/z80.rs", "src/z80/internal.rs"]}
{"id": "C39", "title": "The internal HALT assertions hold in every reachable state", "statement": "In every state reached from reset by execution and interrupts, is_halt implies no pending prefix and not after EI, so the assertions in execute_with_limit never fire - provided that during execute_with_limit no device supplies 0xFB in an interrupt acknowledge and an interrupt line that was on is not off at the next look at the same point of execution. (Without either condition the assertions can fire: C39_refuted, C39_refuted_line.)", "quantifier": "all finite histories, all hosts", "why_tests_cant": "Reachability invariant; the assertions vanish in release builds.", "anchors": ["src/z80.rs execute_with_limit debug_assert"]}
{"id": "C40", "title": "Conditional branches not taken perform no data access", "statement": "A JR cc / DJNZ that is not taken makes no read_mem, read_io or write access, only the opcode fetch and the documented memory cycle.", "quantifier": "all states and hosts", "why_tests_cant": "All hosts.", "anchors": ["src/z80/instructions.rs JR DJNZ", "src/host.rs read_debug"]}
{"id": "C41", "title": "Break requests are reported only after the instruction completed", "statement": "Err(WriteIo)/Err(Reti) is returned exactly when the host requested it, carrying the host's value, and the CPU and bus state is the same as if no break had been requested.", "quantifier": "all states and hosts", "why_tests_cant": "All states and hosts.", "anchors": ["src/z80.rs execute_instruction", "src/z80/instructions.rs OUT RETI"]}
{"id": "C42", "title": "Well-formed instructions only write memory at documented addresses", "statement": "In any step memory is written only at (rr), (nn), (nn+1), (ii+d), SP-1, SP-2 or SP, SP+1 as documented for that instruction, at most two bytes.", "quantifier": "all states, opcodes, RAM", "why_tests_cant": "Frame property over all addresses.", "anchors": ["src/z80/instructions.rs", "src/z80/internal.rs"]}
{"id": "C43", "title": "Debug text is the manual's", "statement": "Every CpuDebug produced by execute_instruction, execute_next or irq carries the mnemonic and operands (registers, immediates, displacements, jump targets, ports, conditions, bit numbers) that an independent op-code table of the Z80 assigns to the reported bytes at the reported address.", "quantifier": "all states, flavours, op-code sequences, hosts and operands", "why_tests_cant": "All op-codes x operand bytes x addresses with wrap-around.", "anchors": ["src/z80/instructions.rs cpu_debug!", "src/z80/macros.rs cpu_debug!", "src/z80/debug.rs"]}
{"id": "C44", "title": "A register pair is one 16-bit register", "statement": "Every sequence of RegisterPair's methods (set16, set8hi, set8lo, set, inc16, add16, dec16, dec16_is_zero, op16, op8hi, op8lo) on the two bytes computes what a 16-bit number with halves computes, never accesses memory outside of the pair, and equal numbers have equal bytes; reading, writing and modifying an 8-bit register through a raw pointer into the CPU is what the integer model of the CPU does and changes one byte only.", "quantifier": "all pairs, arguments, operations, sequences, registers, prefixes and CPU states", "why_tests_cant": "All 16-bit values x sequences of operations.", "anchors": ["src/cpu/registers.rs:27-30,76-204", "src/z80/internal.rs:256-285"]}
{"id": "C45", "title": "Debug text tells the whole state", "statement": "From the Debug text of a Z80 in any of the formats {:?}, {:x?}, {:X?}, {:#?}, {:#x?}, {:#X?} every field except the flavour's state can be read back; it does not depend on the flavour; Z80Any's adds the flavour's name; the # layout has one line per field. With # each line is indented by four blanks for each bracket it is in, and the brackets are closed.", "quantifier": "all CPU states, flavours and formats without width", "why_tests_cant": "The whole state space.", "anchors": ["src/z80/debug.rs:12-39", "src/z80/any.rs:41-46"]}
{"id": "C46", "title": "Forwarding wrappers are transparent", "statement": "A host built with the forwarding macros runs any CPU code exactly as the host it wraps: same calls, answers and results, the wrapped state inside the wrapper as it would be outside and the rest of the wrapper untouched; methods not forwarded make no difference if the wrapped host does not override them; the arms @, or @ref with @mut, cover every method once; the documentation's DebugBus ends up holding the data of the last acknowledged interrupt.", "quantifier": "all hosts, wrappers, code and states", "why_tests_cant": "All hosts and programs.", "anchors": ["src/macros.rs", "src/host.rs:227-387"]}
{"id": "C47", "title": "A run may be cut into slices", "statement": "Calling execute_with_limit with one limit and, after it returned Ok, again with a later limit leaves CPU, host and clock as one call with the later limit does, with the same result and the same host calls in the same order (apart from the looks at the limit and at the interrupt line); likewise for any number of calls; a call that breaks breaks in the same way under a later limit. Single instructions, interrupts and NMI never look at the limit. (On interrupt lines that do not change by being looked at, and unless a device supplies 0xFB in an acknowledge, see C22.)", "quantifier": "all hosts and clocks, limits, programs, CPU states and numbers of slices", "why_tests_cant": "Slices may end after any instruction: after EI, between a prefix and its instruction, while halted, in the middle of a block instruction.", "anchors": ["src/z80.rs:486-611", "src/host.rs:451-455"]}
{"id": "C48", "title": "Debugger reports are the crate's own table of mnemonics", "statement": "For every op-code (unprefixed, CB, ED, and each of them after DD or FD), every address, every operand byte and every state, the one report execute_next makes to the debugger is the one that the crate's tables tests/mnemonics.txt and tests/mnemonics_prefix.txt, read as tests/mnemonics_test.rs reads them, prescribe: same bytes, mnemonic, address, prefix and operands; the two prefix lines report nothing. The tables can be read and contain every op-code exactly once.", "quantifier": "all states, flavours, hosts, addresses, prefixes, op-codes and operand bytes", "why_tests_cant": "The test draws one random operand per line and runs from a single address with one flavour.", "anchors": ["tests/mnemonics_test.rs", "tests/mnemonics.txt", "tests/mnemonics_prefix.txt", "src/z80/instructions.rs cpu_debug!"]}
{"id": "C49", "title": "Machine cycles are the crate's own table of cycles", "statement": "For every op-code of the crate's tables of mnemonics, without and after a prefix, every address, operand and state, the clock calls and the memory and port accesses of execute_next are exactly those that the crate's table tests/mnemonics_cycles.txt prescribes for it, in that order, with the addresses and lengths it gives, including the conditional parts of branches and block instructions; every instruction of the tables of mnemonics has a line of cycles and every line of cycles belongs to an instruction.", "quantifier": "all states, chips, hosts, addresses, prefixes, op-codes and operand bytes", "why_tests_cant": "The test runs every line once with random registers from a single address.", "anchors": ["tests/cycles_test.rs", "tests/mnemonics_cycles.txt", "src/z80/instructions.rs", "src/z80/internal.rs"]}
{"id": "C50", "title": "The crate's sorting programs sort, whatever the data", "statement": "Run from reset, the selection and insertion sort routines (ascending and descending) in the machine code of the crate's shuffle test (tests/shuffle/shuffle.bin) terminate with HALT at address 13 and the stack empty, for every content of the 256 bytes to be sorted: these end up sorted and are a permutation of what they were; no other memory is changed besides 6 bytes of stack; memory is read below the end of the program only, written in its data area only; nothing is output; at most 1589294 (selection) and 1507174 (insertion) T-states are taken. This holds of execute_next with and without debugger until HALT on any clock, and of execute_with_limit with a TsCounter that has room for that many T-states before its limit: the limit is never hit, and the clock shows exactly the T-states taken. If the bytes are 0 to 255 in any order the result is what the test's assert_mem_sorted expects.", "quantifier": "all contents of memory outside the code, all previous states of the CPU, chips, hosts whose memory is RAM, clocks, debug assertions", "why_tests_cant": "The test sorts 6 permutations of the numbers 0 to 255 out of 256^256 contents, on one host.", "anchors": ["tests/shuffle_test.rs", "tests/shuffle/shuffle.bin", "src/z80.rs execute_with_limit", "src/cpu.rs execute_next"]}
{"id": "C51", "title": "Memory of the example computer is the one of its manual", "statement": "Whatever is done to the memory of examples/ral1243 (op-code fetches, reads, 16-bit reads, writes, selecting, inserting and ejecting cartridges, in any order), every answer is the one the manual's memory map promises for what was done before: ROM, kernel page visible and writable only while code runs in the ROM, selected cartridge otherwise, user RAM, FF elsewhere; no read goes through a pointer to a cartridge that is gone. A machine can be built exactly of a ROM of at most 8 kB and at most 48 kB of RAM; 256 cartridges fit, of many those are inserted for which there is room. The same holds for everything a program sees through the example's bus, with any devices on it, for any program: the memory never makes the machine panic, and code outside the ROM cannot change the kernel's page.", "quantifier": "all ROMs, sizes of RAM, sequences of operations, devices, programs and CPU states", "why_tests_cant": "The example's two tests check reads on one machine; histories of bank switching and cartridge changes are unbounded, and a dangling pointer need not show.", "anchors": ["examples/ral1243/src/memory.rs", "examples/ral1243/src/bus.rs", "examples/ral1243/src/clock.rs", "examples/ral1243/README.md"]}
{"id": "C52", "title": "Execution stops within 23 T-states of its limit", "statement": "A step takes 4 to 21 T-states besides wait states; one that accepts an interrupt at most 13 in mode 1, 19 in mode 2, 23 in mode 0. execute_with_limit looks at the limit first and after every such step, and does nothing after finding it reached. So on a clock that does not overflow (TsCounter of any width within its range is one) it returns Ok only at or after the limit and always less than 23 T-states (plus wait states) after it; with devices that ask for no wait states it returns, after no more instructions than a quarter of the T-states left.", "quantifier": "all CPU states, hosts, clocks, limits and programs", "why_tests_cant": "The worst case needs a mode 0 acknowledge of a block instruction one T-state before the limit.", "anchors": ["src/z80.rs execute_with_limit", "src/host.rs:441-501 TsCounter"]}
{"id": "C53", "title": "The example's frame runner keeps time and is not stopped", "statement": "Any number of steps of FrameRunner take together as many T-states as the frames should, and at most 22 more: the error does not add up; the clock is the time since the start less whole seconds and stays between one and little more than two seconds. With devices that do not panic and ask for no wait states or breaks, have a steady interrupt line and do not answer an acknowledge with EI, no step panics or loops forever, whatever program is in the memory; the NMI button then takes 11 T-states and goes to 66h, or is refused exactly while a prefix or EI is pending. Not every clock accepted by clock_is_valid works: 2^31 Hz and more do not.", "quantifier": "all clocks of at least 22 Hz whose two seconds fit into a timestamp, all devices as described, programs, memories, CPU states and numbers of steps", "why_tests_cant": "Drift and overflow show after many frames, at particular alignments of instructions, frames and seconds.", "anchors": ["examples/ral1243/src/runner.rs", "examples/ral1243/src/clock.rs"]}
{"id": "C54", "title": "The example's parallel port passes on all bytes and its interrupts follow the protocol", "statement": "Input channel: whatever else happens between, the program reads the bytes the terminal sends, in order, each at least once before the next is taken; the next one is taken as soon as the port looks for it, and a byte refused by the sink is tried again. Output channel: with a program that waits for the interrupt before each byte, or a sink that never refuses, the sink gets exactly the bytes written, in order (at most the last one is pending); without waiting, bytes can be lost or swapped. A channel makes no request between reset or a disabling word and the first M1 after an enabling word; afterwards every byte taken or gone makes a request that lasts until acknowledged, answered with the channel's vector, A before B. While one is in service neither the port nor what is behind it asks, and the RETI does not reach what is behind it. Only unsupported control words panic.", "quantifier": "all streams, sinks, devices behind the port, states and sequences of events", "why_tests_cant": "There are no tests of the example; losses depend on the interleaving of reads, writes, polls and refusals.", "anchors": ["examples/ral1243/src/pio.rs", "examples/ral1243/src/pio_device.rs"]}
{"id": "C55", "title": "The timers of the example's CTC count, pulse and request interrupts when they should", "statement": "After a timer word and its constant the program reads from the channel the count a timer started one T-state later must have, whatever else happens to the chip, whole seconds taken off the clock included. The channel makes a pulse at each time it comes to zero and no other, whenever and however often it is processed. With interrupts on, the chip asks for an interrupt once the timer was at zero since the last acknowledgement, from the look at its channels noted before the start on - at most half a period of the external clock later if channel 0 or 2 is left alone - and not before. Without that condition requests can be late, pulses too many to store panic, and counters count clock edges from before their start.", "quantifier": "all chips behind the CTC, channels, constants, states and sequences of events in the order of time", "why_tests_cant": "There are no tests of the example; the counters depend on the interleaving of polls, reads and writes.", "anchors": ["examples/ral1243/src/ctc.rs", "examples/ral1243/src/ctc_trigger.rs"]}
{"id": "C56", "title": "The example's CTC and PIO share the interrupt line as a daisy chain", "statement": "With the CTC before the PIO: the CTC may interrupt the service of the PIO but not the other way round, neither interrupts itself, and a RETI ends the service that began last, so never more than two acknowledgements are open and then the line is off. An acknowledgement is answered with the vector of the first request in the order CTC 0..3, PIO A, B, and takes back this request and no other. Two RETIs leave nothing in service. A device behind the CTC sees everything but the CTC's ports and the interrupt events the CTC answers itself, and its answers reach the CPU unchanged; so the guarantees of the PIO for input, output and requests hold in the chain.", "quantifier": "all devices behind the chain, streams, sinks, states and sequences of events in which an acknowledgement follows an active line", "why_tests_cant": "There are no tests of the example; priority and nesting depend on the order of events.", "anchors": ["examples/ral1243/src/ctc.rs", "examples/ral1243/src/pio.rs", "examples/ral1243/src/bus.rs", "examples/ral1243/src/lib.rs"]}
{"id": "C57", "title": "What the example's devices go through when a program runs", "statement": "On any host the CPU acknowledges an interrupt only directly after it saw the line active. In the example computer the devices hear exactly the CPU's opcode fetches, port accesses (but the memory's port) and interrupt calls, in their order and with the times of the clock, never going back, and the CPU gets their answers. Over any number of frames with the NMI and reset buttons pressed in between, the devices go through one reset and then events in the order of time, each second taken back once, all values in their ranges, one end of frame a frame and no reset but the button's. So whatever program runs, services of the CTC and the PIO nest, and what the program reads from the PIO is what the terminal sent, every byte in order, as long as neither the mode of the channel is changed nor the reset button pressed.", "quantifier": "all hosts / all devices that ask for no wait states, chip flavours, memory contents, programs, clocks with two seconds and a frame below 2^32, frames of at least 11 T-states, sequences of buttons", "why_tests_cant": "There are no tests of the example; the property is about all programs and all lengths of run.", "anchors": ["src/z80.rs", "examples/ral1243/src/bus.rs", "examples/ral1243/src/lib.rs", "examples/ral1243/src/pio.rs", "examples/ral1243/src/ctc.rs"]}
{"id": "C58", "title": "Character input, output and interrupts of the example computer's ROM kernel", "statement": "The machine code of the ROM included in the example (rom.bin), run by the CPU on the example's bus: RST 10h gives the character in A to the port if it is free, keeps it for later if the port is busy, and if another is kept already refuses it with ZF=0 (CF=1) or waits in HALT (CF=0) and tries again after each interrupt; RST 08h gives the character that came last, reading the next one from the port if there is one, or says there is none (CF=0) or waits for it in HALT (CF=1). The caller's registers are kept. Between the look at the flags and RET or HALT no interrupt can come in. An interrupt in mode 2 with a vector of the kernel, in any program or in HALT, is served: the 32-bit clock counts, a character is read or noted, the character kept for later is given to the port; then the program goes on with all registers as they were and no memory changed besides the system variables and the stack below SP; no other interrupt can come in before the service is done. Characters reach the port in the order in which they were accepted, none before the one before it has gone.", "quantifier": "all chip flavours, devices, memory contents besides the ROM, register values, clocks, stack pointers into the user RAM", "why_tests_cant": "There are no tests of the example's ROM; interrupts may come at any instruction, with any contents of registers and memory.", "anchors": ["examples/ral1243/rom/rom.bin", "examples/ral1243/rom/ral1243_rom.rb", "examples/ral1243/src/lib.rs", "src/z80.rs"]}
{"id": "C59", "title": "Trigger lines and counters of the example computer's counter/timer chip", "statement": "A trigger line delivers the pulses of one channel to the next in the order and with the times they were sent, at most late when seconds are taken off the clock; none is lost unless it is let go, and exactly one pulse more than there is room for is a panic. A channel in counter mode counts the edges it is given, makes a pulse with each n-th of them at its time and asks for an interrupt if enabled; on the external clock it is given all the edges of the chosen kind one after the other up to the time it is looked at, except when it stops at zero, so that a counter looked at too seldom is read wrong (refuted: the count read is always that of all edges so far).", "quantifier": "all triggers, all sequences of operations on a line, all constants, all times and sequences of looks at a channel", "why_tests_cant": "The order of operations on the shared cells and the times of looks are unbounded; the repository has no tests of the trigger lines.", "anchors": ["examples/ral1243/src/ctc_trigger.rs:79-190", "examples/ral1243/src/ctc.rs:562-614"]}
{"id": "C60", "title": "The crate's own unit tests hold of the model", "statement": "The assertions of the crate's unit tests hold when the functions of the model stand for those of the crate. Translated from the Rust text by a program: the 18 tests of ops.rs and flags.rs (650 assertions, with every value their loops take), the test of the methods of the trait Cpu on the three flavours and on the three variants of Z80Any (144 steps each), the texts of arguments in debug_args_works and of the op-code constants. Transcribed by hand: the five programs of tests/flav_test.rs on the three flavours, the Debug output, the register pair, the flavours and Z80Any (without Z80Any::from), the T-state counter and the default methods of Io and Memory.", "quantifier": "for every value of the loops of the tests; for every address in default_host_impl; the rest are the concrete cases the author chose", "why_tests_cant": "The crate cannot be built here; and bit_works tries 526336 combinations, which are covered by a proof for all operands instead of running them. It ties the model to the author's expectations independently of the specifications written for the other properties.", "anchors": ["src/z80/ops.rs:438-1275", "src/cpu/flags.rs:309-442", "src/z80/tests.rs:10-289", "tests/flav_test.rs:22-186", "src/cpu/debug.rs:441-586", "src/lib.rs:297-422", "src/cpu/registers.rs:339-380", "src/z80/flavours.rs:234-304", "src/z80/any.rs:434-468", "src/host.rs:534-596"]}
{"id": "C61", "title": "Library of the example computer's ROM kernel (RST 28h)", "statement": "The machine code of the library routines in the example's ROM, called by RST 28h with the routine's number in A: output_uint8 and output_uint16 call RST 10h for the decimal digits of the number, zeros in front replaced by the padding character or left out; output_char_repeat for B (0: 256) times the character; output_str_tok and output_string for the characters of the text in memory, and come back with other memory as it was; get_frames_counter gives the 32-bit clock, with interrupts off between its two reads; input_peek gives the character that has come without taking it, or says there is none, or waits in HALT; output_flush comes back when no character waits for the port; wait_ticks waits in HALT until it has seen BC changes of the clock, input_wait_timeout does so unless a character comes; move_int_vectors copies the interrupt table to the page in H and sets I, after which interrupts are served as before if H is at least 40h; input_prune empties the input but gives back other registers if there was a character (refuted: that it keeps them; that H at least 04h is enough for move_int_vectors).", "quantifier": "all chip flavours, devices, memory contents besides the ROM, register values, clocks, stack pointers into the user RAM, numbers, texts and counts", "why_tests_cant": "There are no tests of the example's ROM; the routines run for any number, text, state of the input and output and stack.", "anchors": ["examples/ral1243/rom/rom.bin", "examples/ral1243/rom/ral1243_rom.rb", "examples/ral1243/src/lib.rs", "src/z80.rs"]}
{"id": "C62", "title": "Reset, RST 38h and NMI of the example computer's ROM kernel", "statement": "The machine code at the start of the example's ROM: whatever is in the registers and in memory, the reset (PC 0) switches interrupts off, tests and clears the kernel's RAM, selects the cartridge 0, sets up the counters and the ports with the vectors 0, 8 and 10, and comes to the greeting with the stack at 4000h, IM 2, I = 1 and interrupts on, none being possible before; RST 38h in the test of a cartridge returns to the caller of the routine that used it with NZ, in every other program it switches interrupts off and then, with no chance for one, sets up the devices again, sends two RETIs, forgets waiting characters and comes to the menu with the stack at the end of RAM; the NMI does the same when the flag allows it, or else comes back to the program with all registers and memory as before but for the stack, and with IFF1 = IFF2.", "quantifier": "all chip flavours, devices, memory contents besides the ROM, register values, clocks, sizes of RAM, stack pointers", "why_tests_cant": "There are no tests of the example's ROM; the reset must work from any contents of memory and registers.", "anchors": ["examples/ral1243/rom/rom.bin", "examples/ral1243/rom/ral1243_rom.rb", "examples/ral1243/src/lib.rs", "src/z80.rs"]}
{"id": "C63", "title": "Debugger of the example computer", "statement": "Whatever the program, the devices and the state of the machine, the debugger's runs (debug_step, debug_runto_int, debug_runto_ret, run_until_brkpt) leave the machine as running it without a debugger does, and stop where they should: a step is one execute_next, or two if the first read a prefix only, and its report describes the instruction or interrupt that happened; running to an interrupt or a return stops after the first one, or when the frame is over; running to breakpoints passes none of them, and the index returned is that of the one reached. was_just_a_ret and was_just_a_call recognize exactly the reports of returns and calls whose condition holds. The preview is the first instruction of the listing of the bytes at PC.", "quantifier": "all chip flavours, devices, memory contents, CPU states, clocks, sorted lists of breakpoints and lengths of runs", "why_tests_cant": "There are no tests of the example's debugger; that it never changes the course of the program is a statement about all runs.", "anchors": ["examples/ral1243/src/debug.rs"]}
{"id": "C64", "title": "The documentation's example program", "statement": "The example program of the crate's documentation (also examples/embedded), which computes Fibonacci numbers in a loop of execute_next until HALT, does what its assertions say: HL ends as the B-th Fibonacci number and the clock shows 10+10+B*(4+11+13)-5+4 T-states. It never reads outside its 11 bytes of ROM and never writes.", "quantifier": "all chip flavours, with and without a debugger, all states before reset, all 256 values of B (Fibonacci numbers modulo 65536, B = 0 meaning 256)", "why_tests_cant": "The doc test runs the program for B = 24 on one chip only.", "anchors": ["src/lib.rs", "examples/embedded/embedded.rs"]}
{"id": "C65", "title": "Orders of the example computer's debugger", "statement": "Running to a return or to an interrupt frame after frame (run_for) stops at the first one that has a report, with none in the frames before, and returns the sum of the T-states; without one it stops after one frame more than the number given. Run to completion (run_to_completion) is a step of the debugger; if that was a return, nothing else; if it was a call, the program then runs to the instruction after it; otherwise to the next return.", "quantifier": "all chip flavours, devices, memory contents, CPU states, clocks and numbers of frames", "why_tests_cant": "There are no tests of the example's debugger; the statement is about runs of any length.", "anchors": ["examples/ral1243/src/thread.rs"]}
{"id": "C66", "title": "Messages to the example computer's thread", "statement": "The thread that runs the example computer (run and debug of thread.rs) does not lose a request for an NMI: as long as it is neither accepted nor cancelled by a reset, every turn of either loop begins with another try; no NMI is tried that was not asked for, and no more are accepted than were asked for. Without messages it runs the computer frame after frame; entering debug mode and continuing without an order leaves no trace in the computer; Terminate or a closed channel ends it in either mode, nothing else does, and no later message has an effect. Each message comes to what its documentation says (a frame first while the computer runs; a reset, a request, an order of the debugger, entering or leaving debug mode), in the order sent, and the computer is changed by these and by nothing else. Outside debug mode no sequence of messages makes it panic, given devices that do not panic themselves.", "quantifier": "all sequences of messages, chip flavours, devices, memory contents, CPU states and clocks", "why_tests_cant": "There are no tests of the thread; the statement is about message sequences of any length and depends on when the CPU refuses an NMI.", "anchors": ["examples/ral1243/src/thread.rs"]}
