# Formal model of ucsim in Rocq (Coq 8.16.1)

## Layout

For every modelled part X of the code there are up to five kinds of files in `rocq/theories`:

* `XModel.v`  - executable Gallina model, function by function; each definition cites file:lines of /repo.
* `XSpec.v`   - small independent specification (only where the property needs vocabulary).
* `XObs.v`    - computed observations (sweeps over opcode tables, examples) used in proofs.
* `XProofs*.v` - lemmas.
* `XProps.v`  - only the property theorems, examples that their hypotheses are met, and
                `Print Assumptions` of every theorem.

`Base.v` holds fixed width arithmetic (8/16/32 bit unsigned values are `Z` in range, wrap is explicit) and
the result type `res` (`Ok`, `Exit`, `UB`).

## Conventions

* Undefined behaviour (out of bounds access, NULL dereference, uninitialised reads, infinite loops,
  overflow of signed integers unless stated) is a separate outcome `UB` in the model, never a default value.
  exit() of the simulator is `Exit`.
* A theorem `Cnn_...` states property Cnn (or one of its sentences). Where the intuitive form of a property
  is false of the code, the property in properties.jsonl is worded exactly (what holds, under which condition,
  and what happens otherwise); `..._deviation` theorems show the behaviour one would not expect, `..._exact`
  theorems describe the behaviour for all inputs. `tools/restate.py` keeps those wordings.
* A theorem with the suffix `_partial` would state less than its property; there is none at present.
* `seeded/LOG.jsonl`: wrong programs (edits of the model) and the theorems that failed for each.

## Properties: what is modelled, how it is proved

| id | model | proof |
|----|-------|-------|
| C01-C03 | `MemModel`: chips as bytes, address space = array of cells (location, width, mask, flags), errors | direct, induction on access history; `config_ok` says cells match the chip elements |
| C04-C05 | `DecModel`: decoders, undecode_area loop with its index juggling, split/shrink | loop invariant; induction on the history of creations |
| C06 | `BankModel`: banker init/actual_bank/activate/add_bank | invariant "bank <> -1 -> window shows bank" |
| C07 | `BandModel` | arithmetic on the loop (b, m, ca) and bit lemmas |
| C08 | inc_address, validate_address in `MemModel` | modular arithmetic |
| C09-C13, C30, C31 | `HexModel`: Intel hex writer and reader, S-records, OMF over lists of characters; set_rom | round trip by induction on lines; induction on records |
| C14 | `SearchModel` | loop invariant |
| C15, C16 | `ListModel` (Items array with Limit), `SortedModel` | refinement to `list`, binary search invariant |
| C17 | `HistModel`: ring buffer | refinement to RLE list suffix |
| C18-C20, C32 | `BrkModel`: two collections, fetch flags, hit counters, commands | invariants over command histories |
| C21 | `OpsModel`: operator list of a cell, hardware as arbitrary functions | simulation between histories with and without breakpoints |
| C22, C23, C29, C33, C34 | `IrqModel`: sources, levels, generic and MCS51 acceptance | case analysis, invariants over event histories |
| C24, C35 | `TickModel`: tickers, timer commands | induction over histories, sums |
| C25, C26, C36, C37 | `RunModel`: step loop over abstract instruction results, frame of do_inst | induction on turns |
| C27, C28 | `VarModel` on the collection models | refinement to a map; cached maximum |
| C38-C48 | `S51Model`, `S51DisModel`: all 255 instructions of the MCS51, memories, stack, disassembly table | per-opcode proof against `S51Spec` (a table written from the manual); sweeps for lengths and cycles |
| C49-C52 | `S51IrqModel`: one simulation step, interrupts, idle, power down | case analysis, nesting invariants |
| C53-C63 | `M65Model`, `M65DisModel`: all documented instructions of the 6502 | per-opcode proof against `M65Spec` |
| C64-C71 | `FioModel`: ring buffer, escape/telnet decoder, line editor, history, echo | refinement to a queue / editor on lists; echo against a terminal model |
| C72-C77 | `ChrModel`: class chars | refinement to lists of characters |
| C78-C88 | `ExprTab` (LALR tables of cmdpars.y regenerated by tools/lalr.py), `ExprModel`: lexer, automaton, semantic actions | parser run by induction on expressions; C meaning by a separate evaluator; termination by a measure |
| C89-C92 | `TmrModel`: timers 0 and 1, port | arithmetic, induction over machine cycles |
| C93-C97 | `Tm2Model`: timer 2 of the 8052 | the same |
| C98-C104 | `SerModel`: UART, serial input device, flow control, newline conversion | stream invariants over histories |
| C105 | `WdtModel`: watchdog | induction over histories |

(The table goes on below, section "Later additions".)

## Trusted base

* The Coq kernel (coqc 8.16.1) with its VM (`vm_compute` is used).
* `Print Assumptions` of every theorem in the `*Props.v` files prints "Closed under the global context": no axioms
  are used. (The library `ssreflect` that other libraries load contains axioms of its own in
  `Coq.ssr.ssrunder`, a module type; none of the theorems depends on them.)
* The reading of the C++ source by hand; `tools/cites.py` only checks that cited line ranges match the functions
  they name. For expressions: `tools/lalr.py` and `tools/genparse.py`, which regenerate the tables bison would
  generate from the grammar in /repo.

## What is modelled and what is not

Files cited in the models are modelled only as far as the comments tell. In particular not modelled are:

* Memory: chips shared between controllers, big decoders' names, hidden cells, `cl_bit_cell16/32` beyond the
  width rules, dumping in other formats than Intel hex, the random content of the dummy cell is an arbitrary value.
* Loaders: ASxxxx/`.cdb` symbol files, binary files.
* Breakpoints: conditions are arbitrary booleans, the text of messages, commands attached to breakpoints.
* Run control: hardware, console and time are arbitrary results of an instruction; real time, `-t` frequencies.
* MCS51: sp_most and stack tracking, peripherals on SFRs inside the CPU model, multiple DPTRs, pins; the
  peripherals have their own models; of the PCA (`PcaModel`) the interrupts and the info display are not modelled.
* MOS6502: the 65C02, 6510 and HUC6280 variants, vc counters, stack tracking.
* Input: open and close, select(), terminal attributes, Windows, colour sequences of the echo.
* Strings: the printf variants, int overflow of lengths, dangling constants.
* Expressions: text of error messages, a simulator without controller, bison's stack limit, octal escapes with
  more than 21 digits; a decimal constant that does not fit wraps.
* Timers: what the partners do when they are notified (only the notifications are counted); clock output of timer 2.
* Serial port: overflow of int counters, the terminal menu, newline strings of 4 bytes (shift by 32), end of file,
  SM2/RB8/TB8 (ignored by the code too), address recognition of uc51r.
* Watchdog: the rest of the controller.
* Command interpreter: what the single commands do, the value of $( ), printing, int overflow of lengths.
* Z80: interrupt acceptance, devices behind ports, the variants (z180, r800, gb80, ez80, lr35902), stack tracking,
  disassembly.
* Simulator interface: the console's files beyond their bytes, real time of the stop.
* MCS-48: access counters, breakpoints, stop at a jump to itself, switching peripherals on and off, configuration
  writes other than input pins, the 8021, 8022 and 8041.
* One instruction processors: breakpoints, the UART of MISC16 (its five registers are plain cells in the model).
* All other simulators (avr, stm8, hc08, pic, pdk, st7, tlcs, rxk, f8, m68xx instruction sets, xa,
  p1516, p2223), the GUI and vcd output.

## Later additions

| Property | Model | Proof |
|---|---|---|
| C106-C116 | `CmdModel`: splitting of command lines, parameters, command sets, the loops of exec and proc_input, data lists, syntax matching | induction over items of a line; fuel independence of the loops; refinement to `CmdSpec` (words, strings, numbers said without the splitter) |
| C117-C126 | `I80Model`: the 8080 and 8085: decode tables, all instructions, flags, stack, tick tables, disassembly lengths | refinement to the assembly manual (`I80Spec.manual`, written by bit groups of the code); exact deviations; sweeps over the 256 codes for the tables only |
| C127-C136 | `Z80Model`: the Z80: all seven code pages, flags, stack, block instructions, tick tables, breakpoints between codes | refinement to the manual (`Z80Spec`: instructions decoded by bit groups, flags as booleans, arithmetic on integers) with explicit sets of deviations, and to `Z80Spec2`, where the deviations are written out, without exceptions; invariants over histories; induction over the length for LDIR and LDDR |
| C137-C144 | `SifModel`: the simulator interface: cell, 16 commands, parameter and answer buffers (a freed buffer is its own state), configuration cells | refinement of every access history to a protocol without buffers (`SifSpec`: idle, parameters got, rest of an answer), then statements about the protocol by induction over histories |
| C145-C155 | `M48Model`: MCS-48 processors (8048, 8049, 8050, 8035, 8039, 8040): decoder table, all methods, stack, timer, interrupts, ports and 8243 expander, BUS latch, clock table, length table | `M48Spec`: state with flags as booleans, effects by the two digits of the code; refinement of each code on the cases outside `regular`, exact effects for the others, induction over histories for the invariant, timer and interrupts |
| C156-C165 | `OiscModel`: the four one instruction processors: cells with pass operators (calls nest to a depth proved sufficient), exec, the reads of displays and disassembly, names | `OiscSpec`: MISC16 as a function, the extended one as an inductive relation (proved deterministic); refinement, induction over histories and lists; closed form for n operators |
| C166-C172 | `PcaModel`: programmable counter array of the 89C51R: registers and members, the clock loop, the five modules, writes of bytes and bits, edges, overflows, reset | `PcaSpec`: the clock as a small machine giving pulses, modulo arithmetic; one induction principle over histories which counts the wraps; closed forms for flag, pin and register |
