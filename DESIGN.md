# Formal model of rust-z80emu: design

Proof assistant: Rocq/Coq 8.16.1, sources in `rocq/theories`. The subject is `/repo`
(royaltm/rust-z80emu), read as text; nothing of it is built or executed.

## How the code is modelled

* `u8`/`u16` are `Z`; every wrapping Rust operation is an explicit `mod 256` / `mod 65536` (`Base.v`).
  `wf` (`Range.v`) says that every register is in range; it is preserved by everything and assumed of initial states.
* The CPU is a record with one field per field of `Z80<Q>` (`Cpu.v`, src/z80.rs:51-70). A register pair is one
  16-bit number, not the two-byte array of the source; its byte views are `hi8`/`lo8`.
* Everything a method does with its host (`Memory`, `Io`, `Clock`, the debugger's closure) is an interaction tree
  `prog TS WB RB A` (`Prog.v`): one constructor per method of the host traits. `run` executes a tree on a
  `host`, an arbitrary record of functions over an arbitrary bus and an arbitrary clock with arbitrary types of time
  stamps; theorems quantify over every such record. A tree with `Stuck` stands for panics,
  `unreachable_unchecked` and integer overflow of checked arithmetic.
* `runl` (`Trace.v`) also collects the log of the host calls; `run_runl` says that it does not change the run.
* Instructions are written in a state monad over `prog` (`Internal.v`, `Instr.v`), after z80/internal.rs,
  z80/instructions.rs, z80/macros.rs and z80/opcodes.rs. They are generic in the flavour (`Flavour Q`) and in the presence of
  a debugger (`dbg`).
* `Exec.v` is z80.rs: `execute_instruction`, `execute_next`, `irq`, `nmi`, `execute_with_limit`. The loop of
  `execute_with_limit` takes fuel and gives `None` when it runs out; theorems are for any fuel, and C23 says when some
  fuel suffices. `debug_assert!` is an assertion node, on or off (`da`).
* `Flavours.v` flavours.rs, `Any.v` z80/any.rs, `Clock.v` host.rs (`TsCounter` for any integer width, `Wrapping`),
  `Format.v` cpu/debug.rs, `Disasm.v` disasm.rs, `Opconsts.v` lib.rs `opconsts`, `Parse.v` cpu/parse.rs,
  `Serde.v` z80/serde.rs and the serde parts of registers.rs, flavours.rs, parse.rs; `RegPair.v` registers.rs (bytes);
  `DebugText.v` z80/debug.rs (`Debug` of `Z80`); `Forward.v` macros.rs and the default methods of host.rs.
* Every definition of the model cites the lines of /repo it stands for.

### Simplifications

* A host is a deterministic function of its state (it may depend on everything that happened to it); it does not call back
  into the CPU and it returns. Rust's borrow rules forbid the first.
* `T-states`, time stamps: `TsCounter<T>` is any integer width with wrapping addition; other clocks are arbitrary functions.
* `Wrapping<u8>` of R, `CpuFlags` (bitflags) and `InterruptMode` are numbers and enumerations; the bitflags crate is
  represented by bit operations.
* A `RegisterPair` is one number below 65536 everywhere but in `RegPair.v`, which has the two bytes and shows both agree (C44).
* `core::fmt` and arrayvec are represented by functions on strings (`Format.v`, `DebugText.v`); serde by its data model (`Serde.v`):
  formats are not modelled, instead every value a format may hand back is quantified over. Texts of errors are not modelled.
* `execute_with_limit`'s local copies of `pc`, `flags` and the prefix are kept as in the source, in the state of the monad.

### Not modelled

Rust's memory safety (besides the raw pointers into `RegisterPair`s: `RegPair.v`), code generation, performance;
width and precision of `{:?}`; the derived `Hash`; the forwarding of associated types; the examples, besides what is listed
under "The example computer" and examples/embedded (`SpecDoc.v`); the tests, besides
the tables of mnemonics and cycles and their reading (`SpecTables.v`), the shuffle test's program and drivers
(`SpecProgram.v`) and the unit tests (`UnitScript.v`); lib.rs besides its constants and its example.

### The example computer

`RalMemory.v` and `RalBus.v` model memory.rs, clock.rs and bus.rs of examples/ral1243: memory banks with the raw pointer
`bank1` as the identity of the box pointed at (reading through a pointer to a dropped box is an error of the
model), u32 arithmetic with overflow checks (a panic is `None`), and the bus with any devices behind the memory controller.
`RalRunner.v` models runner.rs: a panic of any kind is `Panicked`, loops take fuel and say `More` when there was too little.
`RalPio.v` models pio.rs and pio_device.rs: the two channels with what is connected to them (`pdev`), any devices behind the chip;
`unimplemented!` and overflowing timestamps are panics. The connected terminal is any stream and any sink.
`RalCtc.v` models ctc.rs and ctc_trigger.rs: channels on an arbitrary state of trigger lines (`trig`), the chip with four of them and any
devices behind it, and the two lines of the example, where the cells shared by an active and a passive trigger are one record. Debug
and Clone are not modelled.
`RomImage.v` is the ROM rom.bin that lib.rs includes, byte for byte (`tools/gen_rom.py`, `--check` compares); its source is
rom/ral1243_rom.rb. Not a model but a program: it runs on the model of the CPU and the bus.
`RalDebug.v` models debug.rs but for its texts: the preview, single steps, running to an interrupt, a return or a breakpoint (`binary_search`
is any function that does what the documentation of slices says).
`RalThread.v` models the debugger's orders of thread.rs that run more than one frame (`run_for`, `run_to_completion`).
`RalLoop.v` models the two loops of thread.rs (`run`, `debug`) on a list of what each look into the channel finds; real time, sleeping
and sums kept for the texts are left out. The events it reports are the model's own: they are what happens, in order.
Not modelled there: the terminal, files, the channels themselves and the command line.

## Specifications (independent of the model)

| file | content |
|---|---|
| `SpecAlu.v` | arithmetic, logic, rotations, DAA, block instruction flags as integer arithmetic and bits |
| `SpecIsa.v` | the whole instruction set: decoding by op-code fields, effect, machine cycles, interrupts; a tree of machine cycles `cyc` |
| `SpecCycles.v` | published T-state totals, as tables |
| `SpecLog.v` | which host calls belong to a machine cycle, in which order and with which time stamp (C09, C40) |
| `SpecStep.v`, `SpecReach.v`, `SpecEffects.v`, `SpecFlavour.v` | prefixes, states reachable by a client, cells touched, comparison of chips |
| `SpecLoop.v`, `SpecSlice.v`, `SpecPace.v`, `SpecInt.v`, `SpecBlock.v` | driving a CPU by single steps, slices of a run, how long a step is and when the limit is looked at, interrupts and NMI, block transfers as list operations |
| `SpecDebug.v`, `SpecFormat.v`, `SpecDisasm.v` | what a debugger report must say, assembler syntax, listings |
| `SpecState.v`, `SpecAny.v`, `SpecSerde.v` | architectural state, variants, what a format may hand back |
| `SpecRegPair.v`, `SpecDebugText.v`, `SpecForward.v` | a register pair as a number; a reader of the `Debug` text; transparent wrappers |
| `Tables.v`, `SpecTables.v` | the texts of the crate's tests/mnemonics*.txt, verbatim (`tools/gen_tables.py`, `--check` compares), and a reading of them after tests/mnemonics_test.rs and tests/cycles_test.rs, with variables for whatever these draw at random |
| `Shuffle.v`, `SpecProgram.v` | the machine code of the crate's tests/shuffle_test.rs, byte for byte (`tools/gen_shuffle.py`, `--check` compares), the test's two ways to run it, and what its sorting routines should do |
| `SpecRal.v` | the memory map of examples/ral1243/README.md, told from the history of accesses |
| `SpecRunner.v` | what the example's frame runner may expect of devices |
| `SpecCtc.v` | count, zeros and pulses of a timer by closed formulas; order of time with seconds taken off |
| `SpecLine.v` | what a trigger line delivers, what a counter counts, the edges of the external clock by a closed formula (C59) |
| `UnitScript.v`, `UnitOps.v`, `UnitTrait.v`, `UnitCpu.v` | the crate's unit tests as scripts, translated from their text (`tools/gen_unit.py`, `--check` compares), and how a script is run (C60) |
| `SpecChain.v` | a daisy chain: who may interrupt whom, what passes through the first device to the next |
| `SpecDrive.v` | which calls of the CPU the devices hear and with what answers, sessions of frames with buttons pressed (C57) |
| `SpecRom.v` | characters, clock and interrupts of the ROM kernel as a small automaton, where the kernel keeps its state in memory, ways for a run to end (C58) |
| `SpecLib.v` | decimal numbers, texts, the sequence of calls of RST 10h, what each routine of the kernel's library comes back with (C61) |
| `SpecRalDebug.v` | ticks of the example computer without a debugger, what the debugger is to show of one, returns and calls by their names and conditions (C63) |
| `SpecRalThread.v` | running frame after frame to a return, an interrupt or an address (C65) |
| `SpecRalLoop.v` | requests for an NMI that are kept and asked for, messages that leave the computer alone, what each message comes to and what it does to the computer (C66) |
| `SpecDoc.v` | the program and the bus of the documentation's example, Fibonacci numbers (C64) |
| `SpecReset.v` | what the reset, RST 38h and the NMI of the kernel come to (C62) |
| `SpecPio.v` | events a device sees and its answers, control words of the PIO by their bits, what a program hears and says |

The theorems about properties are in `Prop*.v` (only statements closed by `exact`, with examples). They use the model's
entry points on the left and the specification on the right.

## Proof technique

* ALU: complete sweeps by `vm_compute` for 8-bit operands, split so that every sweep stays small (the checker
  re-evaluates them without the virtual machine), arithmetic for 16-bit.
* `wpl` (`Trace.v`): weakest precondition of a tree over logged runs, for any host; `wpm` (`Sym.v`) for the monad. A
  step is symbolically executed per decoded instruction (`Safe*.v`, `Unreach.v`, `Dbg.v`).
* `IsaLink.v` to `IsaRun.v`: refinement. `models` relates a run of the model to a `cyc` tree: same machine cycles with
  the same addresses and data, same resulting state. `models_ok` transports facts about the specification to runs.
* `Lock.v`: lockstep simulation of two trees (with and without debugger, prefix split over two calls, two
  flavours), giving equality of everything the host sees.
* `Reach.v`, `Control.v`: invariants over histories of arbitrary calls. `Drive.v`, `Loop.v`: `execute_with_limit` against
  iterated `execute_next`; `Quiet.v`, `QuietRun.v`, `Slices.v`: runs cut into slices. `Int.v`, `Block.v`: sequences of steps on RAM hosts by induction.
* `DbgRep.v`, `DbgRun.v`: what is reported, per instruction; `FormatProofs.v`, `DisasmProofs.v` on top of it. Reports are determined
  exactly, including the prefix an operand carries.
* `TablesCycles.v`, `TablesRun.v`, `TablesReport.v`: the crate's tables of mnemonics and cycles. Rows are parsed by computation, with
  the arithmetic kept abstract; cycles are compared with the `cyc` tree of `SpecIsa.v`, whence they hold of runs.
* `Hoare.v`, `ProgRun.v`: `will`, total correctness of machine code on the trees of `SpecIsa.v` (least fixed point, so termination is
  part of it), and its transport to runs of `execute_next` and `execute_with_limit` on any RAM host. `Asm.v`, `Kernel.v`: symbolic
  stepping through code; `Select.v`, `Insert.v`, `ProgSort.v`: loop invariants of the sorting routines.
* `RomHoare.v`: the same for code in the example's ROM on the example's bus (`goes`): memory is what the history of accesses says, code
  comes to a state unless an interrupt is accepted on the way, or, with `q`, with no chance for one. `RomAsm.v`, `RomIo.v`,
  `RomRun.v`: symbolic stepping through the kernel; `RomLib.v` to `RomLib4.v`, `RomPrune.v`, `RomMoved.v`: its library (C61);
  `RomReset.v`: its reset, menu and NMI (C62); `RomAlone.v`, `RomLibRun.v`, `RomResetRun.v`: from `goes` to runs.
* `DocProofs.v`: the documentation's example (C64), stepped through as the shuffle test's program; without writes, ROM is as good as RAM.
* `RalDebugStep.v`, `RalDebugRet.v`, `RalDebugProofs.v`, `RalDebugTotal.v`, `RalPreview.v`: the debugger of the example (C63), from what a
  report says (C12, C43) and from runs with and without a debugger being the same (C11). `RalThreadProofs.v`: its orders (C65), by
  induction on the number of frames. `RalLoopProofs.v`: its thread (C66), by an automaton that reads the request off the
  events; `RalLoopRuns.v`: it runs on, with at most one accepted NMI between two frames.

## Properties

`MANIFEST.json` lists the theorems of each property. `properties.jsonl` has the statements; some were adjusted
where the crate does something else, see the findings.

## Findings

1. `execute_with_limit`: if a device supplies 0xFB (EI) in an interrupt acknowledge (mode 0), `last_ei` stays set after the
   loop went on to other instructions. The next NMI is refused, and with debug assertions a following HALT panics
   (C22_refuted, C39_refuted). Single steps do not have this.
2. `execute_with_limit` looks at the interrupt line twice when it wakes up a halted CPU. On a line that changes when looked
   at, instructions are executed with `halt` still set (C39_refuted_line).
3. `Cpu::halt()` is documented as equivalent to executing HALT with `execute_instruction`. It is not: the next accepted
   interrupt pushes PC+1 after `halt()`, so a byte of the program is skipped, and PC after HALT through
   `execute_instruction` (C20_refuted; docs at src/cpu.rs:58-60).
4. `disable_interrupts()` does not clear `last_ei`, unlike the DI instruction.
5. Debugger reports of an instruction supplied by a device during an acknowledge carry an address one less than where
   the execution returns to (mode 0 and 1) or than the vector's target (mode 2); stated exactly in C12.
6. An untaken JR cc/DJNZ calls `read_debug` (memory access without a machine cycle) even if there is no debugger
   (C47_read_debug_refuted).
7. DD/FD prefixes count as instructions for `begin_instruction` (Q register); the specification follows the crate here and
   makes no claim about what hardware does.
8. On NMOS, LD A,I and LD A,R look at the interrupt line once more.
9. Formatting a `CpuDebugArgs` with a width can fail for values made by hand (not for those produced by the CPU).
10. The disassembler skips DD/FD prefixes that do not belong to the next instruction without reporting them.
11. `RegisterPair` cannot be read back from formats that deliver all integers as i64 if it is above 32767
    (C33_refuted_signed). Sequences without the flavour's tag are read only if the format gives a size hint.
12. There is no `not(c)` for conditions; C35 is about complementary pairs.
13. The example's `FrameRunner::clock_is_valid` has no upper bound: with a clock of 2^31 Hz or more the first step overflows
    (C53_valid_clock_refuted).
14. The example's PIO output loses or swaps bytes when the program writes faster than the terminal takes them: a byte written while
    another is pending is offered to the sink first, and takes the pending one's place if refused (C54_output_refuted).
15. The example's CTC does not take a newly written channel into account when it decides when to look at its channels again
    (ctc.rs:313-331 changes the channel's hint but not `next_ts_hint`): a timer asks for its interrupt late (C55_late_refuted), and on
    channels 0 and 2 more than four pulses may collect, which is a panic (C55_panic_refuted). With DI and HALT this happens to any timer
    that comes to zero more than four times in a frame (C55_machine_refuted).
16. `CtcActive::purge_clk_trg` removes one edge instead of all before the timestamp as documented (ctc.rs:17-30, ctc_trigger.rs:105-115).
    As the clock of the runner starts at one second, a counter counts the edges of a second that never was (C55_counter_refuted).
17. A channel in counter mode stops looking at its trigger when it comes to zero (ctc.rs:604-614): a program that reads it after more
    edges than that reads too high a count (C59_lag_refuted). With an external clock slower than the program's instructions this does not
    happen (C59_clock).
18. The ROM's `input_prune` loops to the EXX before its label `no_exx` (ral1243_rom.rb:450-456): when a character is pruned the caller
    gets the other set of BC and DE, or loses HL (C61_prune, C61_prune_refuted).
19. The ROM's `move_int_vectors` says that H must be at least 04h (ral1243_rom.rb:641-642). Pages below 20h are ROM, where nothing is copied
    (C61_move_refuted); the pages 20h to 3Fh are seen only when the last opcode was fetched in the ROM, so interrupts of a user's program do
    not find the table there (C61_hidden_refuted). 40h and above are right (C61_interrupt).
20. The debugger of examples/ral1243: of three prefixes in a row the second is shown at the address of the third (C63_prefix_address_refuted,
    debug.rs:252-257); an interrupt in mode 2 is taken for a return if the low byte of the address of its routine is that of one, and not
    for a call (C63_irq_kind_refuted, debug.rs:444-480); with IM 2 injected in mode 0 the report becomes one of mode 2
    (C63_mode0_refuted); a jump over the next breakpoint to another one at the end of a frame is not reported, although it was
    reached (C63_brkpt_missed_refuted, debug.rs:399-407); at FFFFh without a breakpoint the end of the frame is passed (C63_brkpt).
21. `run_for` of examples/ral1243 runs "for given amount of frames" by its comment, but for one more (C65_frames_refuted, thread.rs:218-240).
22. examples/ral1243: an NMI in debug mode moves the clock on by 11 T-states, but no frame. If two seconds' worth of them are sent (thread.rs:200-203)
    before the computer goes on, the clock is set back in two frames in a row and `self.limit -= clock_hz` (runner.rs:107) overflows in
    the second: a panic in builds with overflow checks (C66_all_messages_refuted). At 3.5 MHz it takes some 640000 messages.

## Trusted base

* Coq's kernel, including its virtual machine (`vm_compute`), and coqchk.
* `Print Assumptions` follows every property theorem or a tuple of them (`Definition C.._all`): all are
  "Closed under the global context": no theorem uses an axiom, not even of the standard library. coqchk, which lists what is
  loaded rather than what is used, names seven constants of `Coq.ssr.ssrunder.Under_rel` (`Under_rel`, `Under_rel_from_rel`,
  `Under_relE`, `Over_rel`, `over_rel`, `over_rel_done`, `under_rel_done`). They are sealed definitions of the standard
  library that come in with its tactics.
* That the definitions match the Rust text cited beside them, and the simplifications above.
* That the specifications describe a Z80. No manual was available in the sandbox: they were written from general
  knowledge of the published documentation and of the undocumented behaviour, and nothing here checks them against a chip.
  The crate's own tables of mnemonics and machine cycles, which were not used in writing them, agree with them (C48, C49).

## Tests of the theorems

`seeded/LOG.jsonl`: deliberate errors put into the model in a scratch copy, and which theorems then fail. `tools/` has the
generator of the manifest, the list of mutants (`gen_mutants.py`), the driver (`mutate.py`) and the generator of the log
(`gen_log.py`). How to read a line of it: `scripts_failed` are the proof scripts that no longer go through and `examples_failed`
the examples among them, both exact. A failing script is not by itself a false theorem; a failing example is a concrete
violation. `theorems_failed` are the property theorems that mention a failed script directly or through other
lemmas; this is computed from the text and errs on the side of too many. With `only_built`, only
the named property files and what they need were built, so others may fail as well.
