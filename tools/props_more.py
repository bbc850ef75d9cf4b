P=[]
def p(id,title,statement,quantifier,why,anchors): P.append(dict(id=id,title=title,statement=statement,quantifier=quantifier,why_tests_cant=why,anchors=anchors))
MEM="src/core/sim.src/mem.cc"; UC="src/core/sim.src/uc.cc"; POBJ="src/core/utils.src/pobj.cc"; BRK="src/core/sim.src/brk.cc"; VAR="src/core/sim.src/var.cc"; SIM="src/core/sim.src/sim.cc"; IT="src/core/sim.src/itsrc.cc"
p("C30","Loading into a named memory stores there","`load file@name` stores the bytes of the file to the memory called name and leaves all other memories unchanged.","all files and all memories","Frame condition over all memories.",[UC+": cl_uc::set_rom, cl_inspec::init"])
p("C31","Range and offset of a loaded file","`load file#min-max:offset` stores exactly the bytes whose file address is in min..max, each at its address plus offset (32 bit), provided that is a valid address; every other byte of memory is unchanged.","all file contents, windows and offsets","Frame condition over all files and windows, wrap-around of the offset.",[UC+": cl_uc::set_rom, cl_inspec::init"])
p("C32","Temporary breakpoints are deleted when accepted","A temporary breakpoint (tbreak, run start stop, next) stops the simulation at most once: it is deleted when it is accepted, and not before; other breakpoints are not affected.","all histories of breakpoint commands and hits","Histories of hits with hit counts and conditions.",[UC+": cl_uc::do_brk, check_events",BRK+": brk_coll::del_bp","src/core/cmd.src/cmd_bp.cc: cl_tbreak_cmd"])
p("C33","A non maskable interrupt is accepted while an ordinary interrupt is served","On the 6502 and 6809 simulators a requested NMI is accepted at the next instruction boundary whenever no NMI service is running, in particular inside IRQ, FIRQ and BRK handlers.","all register contents, nesting states and source lists","All nesting states.",[UC+": cl_uc::do_interrupt","src/sims/mos6502.src/mos6502.cc: mk_hw_elements","src/sims/mos6502.src/mos6502cl.h: priority_of","src/sims/m6809.src/m6809cl.h: priority_of"])
p("C34","6809 interrupt masks","On the 6809 simulator IRQ requests are accepted only with the I flag clear and FIRQ requests only with the F flag clear.","all condition code values","All register contents.",["src/sims/m6809.src/m6809.cc: mk_hw_elements",IT+": cl_it_src::enabled"])
p("C35","Timers are identified by name or number","A name denotes at most one timer; `timer add` creates a zeroed running timer in a free slot and leaves the others alone; delete, start, stop and set affect exactly the designated timer.","all histories of timer commands and executed instructions","Histories of commands of any length.",["src/core/cmd.src/cmd_timer.cc: cl_timer_cmd",UC+": cl_uc::add_counter, get_counter, del_counter"])
p("C36","Stop command","After a `stop` command has been processed no further instruction is executed (and no simulated time passes) until the simulation is started again.","all machine states and moments of the command","Interleaving of console input and execution.",["src/core/sim.src/app.cc: cl_app::run_go",SIM+": cl_sim::step"])
p("C37","Stepping for an amount of time","`step n clk` stops at the first instruction boundary at which at least n clocks have passed since the command.","all n and all sequences of instruction durations","All sequences of instruction durations.",["src/core/cmd.src/cmd_exec.cc: cl_step_cmd",UC+": cl_time_measurer::reached",SIM+": cl_sim::step"])
S51="src/sims/s51.src/"; U51=S51+"uc51.cc"
p("C38","MCS51 instructions do what the manual says","Executing one instruction of the 8051/8052 simulator changes the program counter, internal RAM, special function registers and external RAM exactly as the MCS51 manual specifies, for every opcode except the situations of C48 and jumps whose sum is exactly 10000h (C39); bit P of PSW agrees if it showed the parity before and the instruction does not itself write PSW. The same holds along every run of any length.","all programs, operand values, register banks, memory contents and run lengths","2^24 encodings times all memory contents; wrap-arounds of PC, SP, DPTR and bank switching.",[S51+"arith.cc",S51+"logic.cc",S51+"inc.cc",S51+"bit.cc",S51+"jmp.cc",S51+"mov.cc",U51+": cl_51core::exec_inst, decode_regs, decode_bits, cl_uc51_cpu::write"])
p("C39","MCS51 program counter and memory stay in range","Whatever bytes are executed, for any number of instructions, every memory cell stays a byte and the program counter stays in 0..10000h. 10000h occurs only as the sum of a jump; the opcode is then taken from the shared cell of non-existing memory.","all programs and states, any number of steps","Needs an invariant over unbounded executions of arbitrary bytes.",[S51+"jmp.cc","src/core/sim.src/mem.cc: cl_memory::validate_address",UC+": cl_uc::fetch"])
p("C40","MCS51 parity flag","Bit P of PSW shows the parity of the accumulator after every instruction if it did before, except after instructions that write PSW (or bit D0h) as an operand, which store P as given.","all instructions, accumulator values and histories","All opcodes and accumulator values, by invariant.",[U51+": cl_uc51_cpu::write",S51+"glob.cc: ptab51"])
p("C41","MCS51 decimal arithmetic","ADD A,#x or ADDC A,#x followed by DA A, on packed decimal values, leaves the decimal sum (with the incoming carry for ADDC) in A, and the hundred in CY.","all pairs of packed decimal bytes, all register contents","All 10^4 pairs, carries and surrounding states.",[S51+"arith.cc: instruction_24, instruction_34, instruction_d4"])
p("C42","MCS51 calls return, pushes pop","LCALL and ACALL store the address of the following instruction low byte first above SP and change nothing else; a RET or RETI executed with the same SP and the same two stack bytes continues there with SP as before the call. PUSH d; POP e moves the byte and restores SP. SP wraps at FFh; the stack is in existing RAM.","all call sites, targets, stack positions and subroutine bodies that restore the stack","All stack positions including wrap-around, all subroutine bodies.",[S51+"jmp.cc: inst_lcall, instruction_11, instruction_22, instruction_32",S51+"mov.cc: instruction_c0, instruction_d0"])
p("C43","MCS51 bit instructions change one bit","SETB, CLR, CPL and MOV bit,C give the addressed bit its new value and leave all other 255 bits (apart from P, which hardware owns), all bytes that are not bit addressable, and external RAM unchanged.","all 256 bit addresses and all memory contents","Frame condition over all bits and memory contents.",[S51+"bit.cc",U51+": decode_bits"])
p("C44","MCS51 machine cycles","Every instruction advances the simulated time by the number of machine cycles given in the manual.","all opcodes, operands, taken and not taken branches","All opcodes in all states.",[S51+"arith.cc",S51+"jmp.cc",S51+"mov.cc",UC+": cl_uc::tick"])
p("C45","MCS51 instruction lengths","The length the disassembler, `next` and the statement stepping use equals the number of bytes of the manual, and the distance the program counter moves over every instruction that does not transfer control; no instruction is longer than longest_inst.","all opcodes and states","All opcodes in all states.",[S51+"glob.cc: disass_51",UC+": cl_uc::inst_length, longest_inst"])
p("C46","MCS51 command next","`next` sets a dynamic breakpoint at PC + length and runs if the instruction at PC is LCALL or ACALL, except for ACALL into page 0 (opcode 11h), which it steps into like a non-call; the breakpoint is where the call returns to unless the call ends at the last byte of the code space.","all opcodes and addresses","All opcodes and addresses.",["src/core/cmd.src/cmd_exec.cc: cl_next_cmd",UC+": cl_uc::is_call","src/core/sim.src/uccl.h: next_inst",S51+"glob.cc: disass_51"])
p("C47","MCS51 reserved opcode","Opcode A5h is reported as an error, changes no memory or register, and execution continues at instPC + 1, where instPC is never assigned by instructions of this core: it keeps its value from reset (address 0), not the address of the instruction.","all programs, states and addresses","History dependent: needs the invariant that no instruction writes instPC.",[U51+": cl_51core::exec_inst, do_inst",UC+": cl_uc::exec_inst_uctab, inst_unknown"])
p("C48","MCS51 documented deviations","PUSH SP stores the value SP had before the instruction; MOVC A,@A+DPTR beyond FFFFh reads the cell of non-existing memory instead of wrapping around; MOV A,ACC has no effect and is reported as an error; LJMP uses its two address bytes high byte first if the compiler evaluates the two fetches left to right, swapped otherwise.","all operands and states","All operand values; the last depends on the compiler's choice.",[S51+"mov.cc: instruction_c0, instruction_93, instruction_e5",S51+"jmp.cc: instruction_02"])
p("C49","MCS51 interrupt entry","After every executed instruction that is neither RETI nor a write to IE, if EA is set, the first source in polling order that is enabled, requesting and of higher priority than the interrupt in service is entered: return address pushed, level recorded, request cleared when the device does so, PC at the vector, nothing else changed; otherwise nothing but the instruction happens.","all programs, register contents, source lists and levels in service","All combinations of requests, enables, priorities and nesting.",[U51+": cl_51core::do_inst, do_interrupt, accept_it, priority_of",S51+"interrupt.cc: cl_interrupt::write",S51+"jmp.cc: inst_lcall, instruction_32"])
p("C50","MCS51 return from interrupt","RETI executed with SP, the two stacked bytes and the level in service as they were on entry continues at the interrupted address with SP and the level in service restored, and no interrupt is accepted before one more instruction, whatever is pending.","all interrupted states, handlers that restore the stack, and pending requests","All handlers and request patterns.",[U51+": cl_51core::do_interrupt",S51+"jmp.cc: instruction_32"])
p("C51","MCS51 idle mode","In idle mode without a qualifying request only time passes. A qualifying request clears IDL and ends idle mode without entering the handler: one further instruction is executed first.","all states and source lists","All states in idle mode.",[U51+": cl_51core::do_interrupt, idle_pd, do_inst"])
p("C52","MCS51 power down mode","Whenever PD is set after a step that did not enter a handler the processor is in power down mode; a qualifying request is accepted even then (unlike the hardware), with the return address pushed and PD left set.","all states and source lists","All states in power down mode.",[U51+": cl_51core::do_interrupt, idle_pd, accept_it"])
M65="src/sims/mos6502.src/"
p("C53","MOS6502 instructions do what the manual says","Executing one instruction of the MOS6502 simulator changes A, X, Y, S, P, PC and memory exactly as the MCS6502 programming manual specifies, for every opcode the manual defines, except the situations of C54, C59 (decimal mode) and C60 (BRK inside a BRK handler); the same holds along every run of any length.","all programs, operands, register and memory contents and run lengths","2^24 encodings times all register and memory contents; wrap-arounds of PC, S, indexed addresses.",[M65+"ialu.cc",M65+"imove.cc",M65+"ibranch.cc",M65+"inst.cc",M65+"mos6502.cc: imm8, zpg, abs, absX, indX, indY, exec_inst"])
p("C54","MOS6502 deviations at the ends of memory","A page zero pointer at 00FF takes its high byte from 0100 instead of 0000; RTS with FFFF on the stack leaves PC at 10000h, whose opcode is the shared cell of non-existing memory; JMP (FFFF) takes the high byte from that cell. Apart from that these instructions follow the manual.","all register and memory contents","Only visible at particular pointer values, for all contents.",[M65+"mos6502.cc: read_addr, indX, indY, pop_addr",M65+"ibranch.cc: RTS, JMPi",MEM+": cl_address_space::read"])
p("C55","MOS6502 undefined opcodes","An instruction is executed exactly if the manual defines its opcode (151 of 256); otherwise the simulator reports an invalid instruction and no register, memory location, request or clock changes, whatever interrupts are requested.","all opcodes, states and request patterns","All opcodes in all states.",[M65+"decode.h",M65+"mos6502.cc: exec_inst",UC+": cl_uc::exec_inst_tab, do_inst"])
p("C56","MOS6502 state stays in range","Whatever bytes are executed and whatever requests arrive, for any number of steps, registers and memory cells stay bytes and PC stays in 0..10000h; 10000h occurs only after RTS with FFFF on the stack.","all programs, states, request patterns and run lengths","Invariant over unbounded executions of arbitrary bytes.",[M65+"mos6502.cc: push_addr, pop_addr, accept_it",UC+": cl_uc::do_inst, fetch"])
p("C57","MOS6502 clock cycles","Every instruction takes the clock cycles of the manual, including page crossings and taken branches, except: NOP 1, JSR 3, BRK 8; STA abs,X and read-modify-write abs,X one more on a page crossing; STA abs,Y and STA (ind),Y one less without one.","all opcodes, operands and states","All opcodes, operands and page crossings.",[M65+"mos6502.cc: absX, absY, indY",M65+"ibranch.cc: branch, JSR",M65+"inst.cc: NOP",UC+": cl_uc::tick"])
p("C58","MOS6502 calls return, pushes pull","JSR continues at its operand, changes only S and two bytes of page one; an RTS executed later with S and these bytes unchanged continues after the JSR with S restored. PHA/PLA and PHP/PLP give back the byte or the flags likewise. S wraps within page one.","all call sites, stack positions and code in between","All stack positions including wrap-around, all code in between.",[M65+"ibranch.cc: JSR, RTS",M65+"inst.cc: PHA, PLA, PHP, PLP",M65+"mos6502.cc: push_addr, pop_addr"])
p("C59","MOS6502 decimal mode","With D set, ADC and SBC of packed decimal numbers 00..99 leave the two digits of the sum or difference in A and its carry in C, in every addressing mode; V and all other registers and memory are unchanged.","all pairs of packed decimal bytes, carries, addressing modes and states","10^4 pairs times carries, modes and states.",[M65+"ialu.cc: adc, sbc"])
p("C60","MOS6502 interrupt acceptance","After each instruction a NMI request is accepted if no handler is open, else an IRQ request if I is clear and neither an IRQ nor a BRK handler is open; entry pushes PC and P, sets I, loads PC from the vector and takes 7 clocks; otherwise nothing happens. A BRK inside a BRK handler is postponed until the handler's RTI and then pushes P with B clear.","all programs, states, nesting and request patterns","All nesting states, request patterns and moments.",[UC+": cl_uc::do_interrupt",M65+"mos6502.cc: accept_it, mk_hw_elements",M65+"inst.cc: BRK, RTI",IT])
p("C61","MOS6502 return from interrupt","RTI executed with S, the three stacked bytes and the open handlers as they were on entry of a handler continues at the interrupted instruction (after BRK: two bytes further) with the flags, S and the open handlers restored.","all interrupted states and handlers","All interrupted states and handler bodies.",[M65+"inst.cc: RTI, BRK",M65+"mos6502.cc: accept_it"])
p("C62","MOS6502 instruction lengths","The length used by the disassembler and `next` is the number of bytes of the manual (0 for undefined opcodes) and the distance PC moves over every instruction that does not transfer control; exactly JSR is treated as a call.","all opcodes and states","All opcodes in all states.",[M65+"glob.cc: disass_mos6502",M65+"mos6502.cc: get_dis_entry, inst_length, is_call"])
p("C63","MOS6502 reset","Reset loads PC from FFFC, sets S to FD, sets I and clears the other flags, closes all handlers, and leaves A, X, Y and memory unchanged; this holds after every history of instructions and requests.","all states and histories","All histories of nested handlers.",[M65+"mos6502.cc: reset",UC+": cl_uc::reset"])
FIO="src/core/utils.src/fio.cc"; FIOH="src/core/utils.src/fiocl.h"
p("C64","Input buffer is a queue","Every sequence of put, get and free_place calls on a new input file returns what a first-in first-out queue of 1023 places returns: characters come out in the order of the accepted puts, each once; a put on a full buffer is refused, a get on an empty one returns -1.","all call sequences, values and garbage in the uninitialised array","Wrap-around of the ring after any history; uninitialised memory.",[FIO+": cl_f::put, get, free_place",FIOH+": cl_f"])
p("C65","Giving back a character","unget after a get (and any number of puts) makes the value the next one read, followed by all pending input, if the buffer has room; if it is full the buffer reads as empty afterwards: the value and all pending input are lost. Before the first get the write goes to an uninitialised index, outside the buffer unless that happens to be 0..1023.","all histories of puts and gets, all values","All fill levels and positions; uninitialised memory.",[FIO+": cl_f::unget"])
p("C66","Line editing","Whatever keys the user presses (printable characters, cursor, Home, End, Up, Down, Backspace, Del, ^K, Enter, keys without function) in any of the encodings terminals use, and whenever the program fetches input in between, the line, the cursor and every value the program gets are those of a text with a cursor, a history and a queue; a line holds at most 1023 characters.","all key sequences, encodings, interleavings with reads, initial memory contents","Unbounded key sequences; array shifts at every cursor position and line length.",[FIO+": cl_f::process, process_esc, process_csi, read_dev",FIOH+": cl_f, cl_history"])
p("C67","Delivery of lines","Lines typed with any one of the newline conventions LF, CR, CR LF, LF CR are read as the same lines ended by one LF each, cut at the 1023 values the buffer holds while nothing is read (a line of 1023 characters loses its newline). The convention must not change from line to line: a CR b LF delivers only the line a.","all lists of printable lines up to 1023 characters, all four conventions","All line lists; depends on the history of newlines.",[FIO+": cl_f::process, put"])
p("C68","Byte sequences a terminal may send","On a new console the processing of a byte sequence is undefined behaviour if and only if an escape or telnet sequence reaches 100 bytes without ending, or a mouse report names an unknown button away from the corner; otherwise the line stays at most 1023 characters with the cursor inside it. Input without ESC and FFh is always safe.","all byte sequences","Attacker controlled input of any length; buffer overflow must be excluded for all of it.",[FIO+": cl_f::process_esc, process_csi, process_telnet, process",FIOH+": esc_buffer"])
p("C69","Command history","After entering non-empty lines, j times Up and then d<j times Down show the line entered j-d lines before the last, with the cursor at its end; the last 1001 lines are kept. A recalled line that is edited and left with Up or Down replaces the entry of the history.","all lists of lines, all j and d, all newline conventions","All histories and positions, including the limit of 1000.",[FIO+": cl_history::up, down, enter, replace"])
p("C70","Echo","The terminal shows the line being edited, blanks after it, and the cursor at its place, after every sequence of keys and from every start column; the start column changes only by Enter.","all key sequences, encodings and start columns","The echo is incremental; only an invariant relates the screen to the line.",[FIO+": cl_f::process, echo_cursor_save, echo_cursor_restore, echo_cursor_go_left, echo_cursor_go_right, echo_write"])
p("C71","Raw input is lossless","In raw mode without escape and telnet processing, for every interleaving of arriving bytes (none of them FFh) and reads, the values read, those readable and the bytes still on the device are together the bytes of the device in order; a byte of 128 or more reads as the negative number of the same 8 bits. A byte FFh ends a read and is dropped.","all byte streams, arrival patterns and read sizes","All interleavings of arrival and reading.",[FIO+": cl_f::pick, process, read_dev, put, get"])
CHR="src/core/utils.src/chars.cc"; CHRH="src/core/utils.src/charscl.h"
p("C72","String objects behave as values","After any sequence of assign, append, appendn, case conversion, substr-in-place, trimming and character replacement on an empty string or a constant of the caller, the string is the one the same operations give on lists of characters and len() is its length, whatever malloc finds in memory. Outside its conditions: cutting the end of a constant in place writes into the constant; appending an object's own characters to it after it owns them reads freed memory.","all operation sequences, strings, memory garbage","Unbounded sequences; ownership changes along the way; memory contents.",[CHR+": chars::append, allocate_string, appendn, uppercase, lowercase, ltrim, lrip, rrip, replace",CHRH+": chars"])
p("C73","Trimming the end of a string","rtrim removes exactly the white space at the end of the value; len() keeps the old length, so a following appendn is lost and a following replacement may extend the string; on a constant with white space at its end it writes into the constant.","all operation histories and strings","All histories; the stale length shows only in later calls.",[CHR+": chars::rtrim"])
p("C74","Searching and comparing strings","starts_with, contains, icontains, pos answer by the (first) occurrence of a non-empty string; ends_with is true only if the first occurrence is at the end; ipos finds the string as given in the upper case form of the object; equal and iequal compare values, with and without case, null being different from the empty string.","all pairs of strings made by any history of operations","All pairs of strings, overlapping occurrences.",[CHR+": chars::starts_with, contains, icontains, pos, ipos, ends_with, equal, iequal"])
p("C75","Words of a string","Calling token repeatedly returns the maximal runs of non-delimiter characters in order and then null forever.","all strings, delimiter sets and numbers of calls","All strings and delimiter runs.",[CHR+": chars::token, start_parse"])
p("C76","Numbers in strings","toi reads decimal, octal (leading 0) and 0b/0o/0d/0x numerals with an optional sign, of values below 2^63; htoi reads every character as hexadecimal digit (others as 0) modulo 2^32; htoll stops at the first non-digit, modulo 2^64.","all numerals, bases, signs and trailing characters","Unbounded numerals.",[CHR+": chars::toi, htoi, htoll",CHRH])
p("C77","Replacing a substring","replace(what, with) does nothing if what is empty or absent, replaces the first occurrence if with is not shorter than what, and writes past the end of an allocated block whenever with is shorter.","all strings","All strings and lengths; the overflow is not visible in the result.",[CHR+": chars::replace"])

YP="src/core/cmd.src/cmdpars.y"; LX="src/core/cmd.src/cmdlex.l"; APP="src/core/utils.src/app.cc"
WHYX="Expressions are arbitrary texts: the claim ranges over all trees, all ways to put parentheses and blanks, all machines and all states; tests only see single texts."
p("C78","Expressions follow C's precedence","Any text that spells an expression tree (with parentheses and blanks wherever one likes) is evaluated as that tree on 64 bit integers: C's precedence and left associativity, operands from left to right, every side effect once; the value reported is the result modulo 2^32 and no error is reported; an operation undefined in C (overflow, division by zero, bad shift count) is undefined here.","all machines, name tables, texts, trees and machine states",WHYX,[YP+":expression",LX+":PTOK_NUMBER",APP+":cl_app::eval"])
p("C79","Values agree with C although nothing is short-circuited","If an expression without assignments or ++/-- gets a value on a machine where reading has no side effects, it is the value C defines and nothing changes; expressions without && || ?: always behave as in C. The right operand of && and || and both branches of ?: are always evaluated, with their side effects and undefined operations.","all machines, texts, trees and states",WHYX,[YP+":logical_and_expr",YP+":conditional_expr"])
p("C80","Bit fields in expressions","p[i:j] and p.i give exactly the named bits (limits in either order, 0..31). Assigning n to a field clears the field and ors bits lo..hi of n in at 2*lo..lo+hi, which is the expected result exactly for fields starting at bit 0; p.k=1 with k>=1 clears bit k.","all machines, places, limits and values",WHYX,[YP+":bit",YP+":assignment_expr"])
p("C81","A dot takes the whole rest as bit number","The bit number after a dot is the whole following expression, so x.1==2 is bit (1==2) of x and x.1+2 is bit 3.","all machines, places, operators and numbers",WHYX,[YP+":bit"])
p("C82","Numbers","Decimal numbers, octal ones after 0, binary ones after 0b, hexadecimal ones after 0x, 0X or $ and characters between apostrophes have their usual value, modulo 2^32, if below 2^63.","all digit strings",WHYX,[LX+":PTOK_NUMBER"])
p("C83","Evaluation of any text ends","For every text the evaluation ends with a 32 bit value, perhaps reporting an error, or in an operation undefined in C; the parser never reaches a configuration outside of its tables.","all texts, machines and states",WHYX,[YP+":expression",LX+":PTOK_END"])
p("C84","Unknown names end an expression","A name that is neither a memory nor a variable ends the expression silently: it and everything behind it is ignored and the value of what stands before it is the result, without any error.","all texts and unknown names",WHYX,[LX+":uc_yy_check_id"])
p("C85","Errors after a complete expression keep its effects","If an expression is directly followed by a word that cannot continue it, an error is reported, but the expression's side effects have happened and its value is the result.","all expressions and following words",WHYX,[YP+":yyerror",APP+":cl_app::eval"])
p("C86","Names and addresses in expressions","A variable evaluates to the whole location it stands for (even if defined for some bits), a register name to the register; &p is the address of p, while &p.i is always 2^32-1 and &p[i:j] is 0.","all name tables, names and machines",WHYX,[LX+":uc_yy_check_id",YP+":unary_expr","src/core/sim.src/uccl.h:bit_address"])
p("C87","Compound assignments","x op= n stores and gives what x = x op n does for * / % + - << >> & ^ |, if reading and n have no side effects and shift counts are below 32.","all machines, locations, operators and expressions",WHYX,[YP+":assignment_expr"])
p("C88","The cast (int)","(int)p gives the location's value as a signed number of the memory's width (1..32 bits).","all machines, places and widths",WHYX,[YP+":cast_expr"])
T0="src/sims/s51.src/timer0.cc"; T1="src/sims/s51.src/timer1.cc"; P51="src/sims/s51.src/port.cc"
p("C89","MCS51 timers 0 and 1 count as the manual says","After any history since power on, while nobody writes the timer registers, a timer (C/T=0) advances by one for each machine cycle in which TR is set and it is not gated off (GATE=0 or INT pin high): 13 bit, 16 bit, 8 bit with reload, two 8 bit counters in mode 3; TMOD and the other bits of TCON do not change, whatever happens on port 3; a stopped timer keeps its value.","all histories, register values, numbers of cycles and pin activities","Unbounded numbers of cycles and all pin histories in between.",[T0+": tick, do_mode0, do_mode1, do_mode2, do_mode3, do_th",T1+": do_mode3",P51+": write, set_pin",UC+": cl_uc::tick_hw"])
p("C90","MCS51 timer overflow flags","While nobody writes, TF0 gets set exactly if timer 0 overflows and TF1 exactly if timer 1 overflows or, in mode 3 of timer 0 with TR1 set, TH0 does; the flags are never cleared by the timers. A free running 16 bit timer raises its flag exactly when 65536 minus its start value cycles have passed.","all histories, start values and numbers of cycles","Unbounded numbers of cycles.",[T0+": do_mode0, do_mode1, do_mode2, do_mode3, do_th, overflow"])
p("C91","MCS51 counters","A counter (C/T=1) counts the rising edges (the manual: falling) of T0/T1: edges wait and are counted together in the next cycle in which the counter runs, so while it runs ungated no edge is lost. A write of TMOD or TCON (of any bit) and the acceptance of a timer interrupt discard the waiting edges of both counters; writes of TL and TH keep them.","all histories, edge patterns and interleavings with cycles","All interleavings of edges, cycles and writes.",[T0+": happen, do_mode0, write, tick",P51+": write, set_pin","src/core/sim.src/itsrc.cc: cl_it_src::clear"])
p("C92","MCS51 timer reset and control writes","A reset, from any state of the timers, clears TMOD, TCON, TL, TH and waiting edges and sets port 3; a write to TMOD or TCON stores the byte, a bit write changes that bit, accepting a timer interrupt clears just its flag; the counters and the other registers stay.","all states and histories, all bytes written","All prior states including uninitialised members.",[T0+": write","src/sims/s51.src/uc51.cc: clear_sfr","src/core/sim.src/itsrc.cc: cl_it_src::clear"])
T2="src/sims/s51.src/timer2.cc"
p("C93","8052 timer 2: reload and capture","After any history since reset, while nobody writes the registers of timer 2 and no T2EX edge is acted on (EXEN2 clear or no edge): with TR2 set TH2:TL2 counts up once in every machine cycle, whatever C/T2 says, is loaded from RCAP2 (reload) or wraps to 0 (capture) on overflow, and TF2 gets set exactly if it overflows and is never cleared; with TR2 clear it stands still; RCAP2, T2MOD and the other bits of T2CON stay.","all histories, register values, numbers of cycles and port activities","Unbounded numbers of cycles and all pin histories in between.",[T2+": tick, do_t2_reload, do_t2_capture",P51+": write, set_pin"])
p("C94","8052 timer 2: T2EX","With EXEN2 set, falling edges of T2EX since the last cycle (and those that were waiting) are acted on once, in the next machine cycle, before the count and even if TR2 is clear: EXF2 is set, and the count is loaded from RCAP2 (reload mode) or copied to RCAP2 (capture mode), or nothing more (baud rate mode). Edges seen while EXEN2 is clear wait until it is set.","all histories, register values and pin activities","All interleavings of edges, cycles and writes.",[T2+": happen, do_t2_reload, do_t2_capture, do_t2_baud",P51+": write, set_pin"])
p("C95","8052 timer 2: baud rate generator","With RCLK or TCLK set and nobody writing the registers, the count goes up six times per machine cycle (C/T2=0) or once per falling edge of T2 (C/T2=1), is reloaded from RCAP2 on overflow, and each overflow is told to the serial port; TF2 and RCAP2 never change, whatever T2EX does.","all histories, register values, numbers of cycles and pin activities","Unbounded numbers of cycles and edges.",[T2+": do_t2_baud"])
p("C96","8052 timer 2: up/down counting","In down mode, while T2EX keeps its level, the count goes up (T2EX high, reload from RCAP2 on overflow) or down (T2EX low, FFFF follows RCAP2), once per cycle or, with C/T2 set, per falling edge of T2. TF2 gets set by an overflow, and by an underflow unless RCAP2 is 0; EXF2 and EXEN2 play no role, but the cycle of such an event inverts bit 6 of port 1.","all histories, register values (count not below RCAP2 when counting down), numbers of cycles and edges","Unbounded numbers of cycles and edges.",[T2+": do_t2_down"])
p("C97","8052 timer 2: control writes and reset","A write to T2CON stores the byte, changes no count and always leaves down mode; a write to T2MOD with DCEN set enters down mode if T2CON selects reload, and clearing DCEN does not leave it. Waiting edges are forgotten exactly if the write changes the mode or TR2. Reset clears T2CON, T2MOD, TH2:TL2 and RCAP2.","all states, histories and bytes written","The mode depends on the history of writes, not on the registers.",[T2+": write","src/sims/s51.src/uc52.cc: clear_sfr","src/sims/s51.src/uc51.cc: clear_sfr"])
SER="src/sims/s51.src/serial.cc"; SHW="src/core/sim.src/serial_hw.cc"
p("C98","MCS51 serial port: sending","After any history, when the rate in use is that of the registers, a byte written into SBUF is sent, and TI set, in the first tick before which the frame time has passed, and nothing is sent before: 8, 10, 11, 11 bits in modes 0..3, a bit taking 12 clocks (mode 0), 32 (16 with SMOD) overflows of timer 1 (modes 1, 3) or 32/16 clocks (mode 2; the manual: 64/32), and 16 units in every mode with RCLK or TCLK on; receiving, polling and bit writes to SCON below SM1 do not disturb it.","all histories, modes, bytes and interleavings of ticks and overflows","Unbounded numbers of ticks and overflows and everything in between.",[SER+": tick, serial_bit_cnt, write",SER+": happen"])
p("C99","MCS51 serial port: what is sent","In every history the bytes sent are bytes written into SBUF, in the order written; a byte written is sent at most once, and a byte overwritten before its frame ends or cut by a reset is not sent.","all histories","All interleavings of writes, ticks, mode changes and resets.",[SER+": tick, write, reset"])
p("C100","MCS51 serial port: the received stream","In every history the bytes put into the receive register are, in order, without loss or repetition, a beginning of the input (setting nl=0) or of the input with each CR or LF replaced by the bytes of nl and the opposite characters directly after it dropped, and all of it when nothing is left in the device and the port; resets and mode changes do not lose input.","all histories, inputs and settings of nl of at most three bytes","All interleavings of arrivals, polls, ticks and resets.",[SHW+": get_input, proc_input",SER+": tick"])
p("C101","MCS51 serial port: receiving","With REN set, a character waiting and no reception going on, the next tick starts the reception; the character gets into SBUF and RI is set in the first tick before which the frame time has passed, and not earlier, whatever quiet things happen in between.","all histories, modes and interleavings of ticks and overflows","Unbounded numbers of ticks and overflows.",[SER+": tick, serial_bit_cnt",SHW+": get_input"])
p("C102","Flow control of the serial input","With flow control and a newline setting of at most one byte a program that reads SBUF only when there is an unread byte, however late, reads every received byte in order, and never is more than one unread; without flow control bytes are lost.","all histories of a polite program, all inputs","All delays of the program.",[SHW+": proc_input",SER+": read"])
p("C103","Newlines of the serial input","A text whose lines all end by one convention (LF, CR, CR LF, LF CR) is received with each line ended by the bytes of nl; in a text of mixed conventions lines can be lost.","all texts, conventions and histories","All texts.",[SHW+": get_input, proc_input"])
p("C104","MCS51 serial port: control","SCON is changed only by writes, reset and ticks, and a tick only sets TI and RI; a write to SCON or a reset makes the rate of the registers the one in use, and only clearing RCLK/TCLK breaks that (their rate stays until the next write to SCON or flag). Reset clears SCON and drops the frames on their way but not input already taken. In modes 1 and 3 writing T2CON (RCLK, TCLK off) again and again keeps a byte from being sent forever.","all histories","All histories; the rate depends on the order of writes.",[SER+": write, tick, happen, reset"])
p("C105","8051R watchdog","Writing 1E and then E1 to WDTRST starts the count from zero in any state; unless that is repeated the controller is reset, once, exactly if more than 16383 machine cycles pass. After a reset the watchdog is off until E1 is written directly after 1E was stored, and the first write of the program after a reset never starts it.","all states, histories and bytes written","Unbounded numbers of cycles and all write patterns.",["src/sims/s51.src/wdt.cc: write, tick, reset"])
CC="src/core/cmd.src/command.cc"; NC="src/core/cmd.src/newcmd.cc"; AP="src/core/utils.src/app.cc"; CU="src/core/cmd.src/cmdutil.cc"; AR="src/core/sim.src/arg.cc"
p("C106","Words of a command line","A command line is its name and its words and quoted strings, whatever separators (blank, tab, comma...) stand between them; text behind # is ignored, text behind ; is left for later; a string without closing quote reaches to the end of the line and is reported.","all commands, words, strings and separators","Unbounded lines; all arrangements of separators and quotes.",[CC+": cl_cmdline::split, split_commands, skip_delims"])
p("C107","Commands of a line are run in order","Commands separated by ; run one after the other, each as if alone on its line; comments change nothing, separators and empty commands do nothing; a line runs the same commands at a console and in a command file. A composed command followed by a string with ; in it loses the following commands.","all command sets, commands and lines","All lines and command sets.",[AP+": cl_app::exec",NC+": cl_console_base::proc_input"])
p("C108","Parameters","Every word gives one parameter or one error message; numbers (decimal, octal, hexadecimal, binary, with sign) get their value limited to 64 bits (binary: modulo 2^64), name.bit, name[high:low], array[index] and bits of array elements are recognised, everything else is a symbol.","all words","Unbounded words.",[CC+": cl_cmdline::split, add_bit, split_out_bit, split_out_array"])
p("C109","Data lists","Every sequence of bytes can be typed as a quoted string, and a list of numbers and strings becomes the sequence of its values and bytes; a symbol in such a list is not refused, an uninitialised value is used.","all byte sequences and lists","All byte sequences and escapes.",[CC+": cl_cmdline::set_data_list",CU+": proc_escape",AR+": cl_cmd_arg::as_data"])
p("C110","Finding a command","A name finds the first command that has exactly this name, otherwise the only command one of whose names begins with it, otherwise nothing; a line whose first word finds nothing is evaluated as an expression.","all names and command sets","All command sets and abbreviations.",[CC+": cl_cmdset::get_cmd, cl_cmd::name_match"])
p("C111","Composed commands","A composed command runs its subcommand on the rest of the command as if the subcommand were typed alone, reports an unknown one, and without subcommand runs _no_parameters_ or lists the subcommands.","all command sets and commands","All nestings of command sets.",[CC+": cl_super_cmd::work, cl_cmdline::shift"])
p("C112","Repeating a command","At an interactive console an empty line runs the last command again if it is a repeatable one, without its parameters; in all other cases it does nothing.","all command sets, lines and consoles","All preceding lines.",[NC+": cl_console_base::proc_input",CC+": cl_cmdline::repeat"])
p("C113","Syntax of commands","A syntax matches the parameters exactly when there are as many letters as parameters and each letter accepts its parameter; D at the end takes all remaining ones, at least one.","all syntaxes, parameter lists and processors","All combinations of letters and parameters.",[CC+": cl_cmdline::syntax_match"])
p("C114","Bit numbers","Bit numbers outside 0..31 are refused, a range is put in order; a symbol as bit number is not refused, an uninitialised value is used.","all numbers","All numbers.",[AR+": cl_cmd_bit_arg::get_bit_address"])
p("C115","No line makes the interpreter read outside of its buffers","Every line without backslash, dollar and newline and without both > and a quote is executed without reading outside of the buffers, and execution ends. A word that ends with a backslash or a dollar, and an unterminated quoted file name, make it read behind the end.","all lines, command sets and consoles","All lines.",[CC+": cl_cmdline::expand_commands, token_length, get_token, split"])
p("C116","Redirection",">file and >>file redirect the output of a command to the file named, also a quoted name with blanks, and do not change its words; with a blank behind > the output goes to a file without name and the name becomes a parameter.","all commands and file names","All names and commands.",[CC+": cl_cmdline::split, token_length, get_token"])
I8="src/sims/i8085.src/i8080.cc"; I85="src/sims/i8085.src/i8085.cc"; IA="src/sims/i8085.src/ialu.cc"; IB="src/sims/i8085.src/ibranch.cc"; IM="src/sims/i8085.src/imove.cc"; IG="src/sims/i8085.src/glob.cc"
WHY80="All register, flag and memory contents and all 256 codes; tests try some."
p("C117","8080/8085 instructions do what the manual says","Every instruction the assembly manual defines changes registers, flags, memory, SP and PC as the manual says, on both processors, except in listed cases (ADC, SBB, ANA flags, DAA, four RST, two-byte accesses at FFFF, PUSH PSW), which the other properties settle exactly.","all states, codes, operands, both processors",WHY80,[I8+":exec_inst",IA,IB,IM])
p("C118","8080/8085 carry of ADC and SBB, auxiliary carry of ANA","ADC loses the auxiliary carry if C is set and the operand ends with F, and the carry if the operand is FF; SBB loses the borrow if C is set and the operand equals A; ANA always sets the auxiliary carry (on the 8080 it should be the or of bits 3); everything else is as the manual says.","all states and operands",WHY80,[IA+":add8, sub8, ana"])
p("C119","8080/8085 decimal adjust","DAA gives the manual's result except for high digit 9 with AC set and C clear, never keeps a carry that the correction does not produce, leaves AC. Decimal addition by ADI and DAA is right exactly unless the low digits add up to 16 or more and the high ones to 8; its carry is right exactly if the binary sum is below 256.","all states; all pairs of two digit numbers",WHY80,[IA+":DAA, add8"])
p("C120","8080/8085 restarts","RST n pushes the return address but goes to 8n only for n=0,1,4,5; RST 2,3,6,7 go where 0,1,4,5 go.","all states and n",WHY80,[IB+":rst"])
p("C121","8080/8085 clock cycles","An instruction that does not overwrite itself takes the data sheet's cycles, but MOV A,H (8085) and XCHG (8080) 5, taken conditional jumps of the 8080 none; a hit breakpoint executes nothing yet counts the cycles of the instruction less one; an instruction that overwrites its code is counted as what it wrote.","all states and codes",WHY80,[I8+":exec_inst",IG+":tick_tab_8080, tick_tab_8085"])
p("C122","8080/8085 instruction lengths","The disassembler has a length of 1..3 for every code; execution continues behind that many bytes unless the instruction goes elsewhere, and calls push that address.","all states and codes",WHY80,[I8+":get_dis_entry",IG+":disass_common"])
p("C123","8080/8085 stack","A pair pushed is what a later POP gets, a RET returns behind the call, with SP as before, if SP and the two bytes are the same, also across address FFFF; a stack overflow is reported exactly by pushing instructions that leave SP below the limit; SHLD, LHLD and XTHL do not wrap around FFFF (a byte is lost or read from a dummy cell).","all states, all things in between",WHY80,[I8+":push2, pop2, stack_check_overflow",IM+":XTHL"])
p("C124","8085 additional instructions","ARHL, RDEL, RSTV, SHLX, LHLX (DE below FFFF) are right; DSUB is right except that the carry is set if BC is 0; JX5 and JNX5 are exchanged; LDHI and LDSI load from memory instead of the address; RIM and SIM do nothing.","all states",WHY80,[I85+":ARHL, RDEL, DSUB, JNX5, LDHI"])
p("C125","8080/8085 flag byte","The unused flag bits keep their fixed values by every instruction except POP PSW, which stores any byte; PUSH PSW stores the manual's byte on the 8080 as long as the bits are fixed.","all states and codes",WHY80,[I8+":cl_flag80_op",I85+":cl_flag85_op"])
p("C126","8080/8085 histories","In every history of instructions and breakpoints registers and memory hold bytes, SP and PC addresses, no code is refused, and only HLT stops the simulator.","all histories","Unbounded histories.",[I8+":exec_inst"])
Z8="src/sims/z80.src/z80.cc"; ZI="src/sims/z80.src/inst.cc"; ZC="src/sims/z80.src/inst_cb.cc"; ZX="src/sims/z80.src/inst_xd.cc"; ZXC="src/sims/z80.src/inst_xxcb.cc"; ZE="src/sims/z80.src/inst_ed.cc"
WHYZ="Seven code pages, 2^16 memory states, all registers and flags: a test can only sample them."
p("C127","Z80 instructions do what the manual says","Every instruction of all code pages (no prefix, CB, ED, DD, FD, DDCB, FDCB) changes registers, alternate registers, memory, output ports, interrupt flip-flops, mode, SP, PC and flags as the manual says and reports its result (halt, undefined code), except in a list of cases given exactly (relative jumps and 16 bit accesses across the ends of the memory, CALL over its own operand, RETN/RETI, OUTI/OTIR, CPD/CPDR, SET b,(IX+d),L; and flags only: ADC/SBC with carry and low digit F, DAA after some subtractions, parity of CB rotations, IN r,(C), RRD/RLD, block input/output/compare).","all states, codes, prefixes, operands",WHYZ,[Z8+":exec_inst",ZI,ZC,ZX,ZXC,ZE])
p("C128","Z80 breakpoints","A breakpoint at the first byte of an instruction stops the simulator before anything is changed; one at a later code byte of a prefixed instruction stops it inside of the instruction, with PC at that byte, R counted and nothing else done, so the instruction is not executed when the simulator goes on.","all states, instructions, sets of breakpoints",WHYZ,[Z8+":exec_inst",ZC+":inst_cb",ZE+":inst_ed",ZX])
p("C129","Z80 histories","In every history of instructions and breakpoints registers, alternate registers, flags, I, R and memory hold bytes, IX, IY, SP 16 bit values; PC leaves the memory only by a taken JR or DJNZ across its ends.","all histories of any length","Unbounded histories.",[Z8+":exec_inst",ZI+":inst_djnz"])
p("C130","Z80 clock periods","An instruction that does not overwrite its own codes takes the clock periods of the manual, with those of taken conditions and repetitions, except INC (HL) and DEC (HL) (7 instead of 11), BIT b,(HL) (15 instead of 12), OUT (C),E (1 instead of 12).","all states and codes",WHYZ,[Z8+":tickt, exec_inst"])
p("C131","Z80 block copy","LDIR and LDDR copy BC bytes (65536 if it is 0) one after the other, with the byte by byte result for overlapping blocks; HL, DE, BC, PC, flags and the time at the end are the manual's.","all lengths up to 65536, all blocks that do not cover the instruction, all memory contents","Any number of repetitions and overlaps.",[ZE+":inst_ed_"])
p("C132","Z80 decimal arithmetic","ADD, ADC, SUB, SBC A,n followed by DAA gives the two digit decimal sum or difference and the decimal carry or borrow.","all pairs of decimal numbers, both carries, all states",WHYZ,[ZI+":inst_add, inst_adc, inst_sub, inst_sbc, inst_rst"])
p("C133","Z80 PUSH and POP","PUSH qq followed by POP qq restores the pair, A and flags, changes only PC, R and the two bytes below SP, wherever SP is (except 1).","all states, the four pairs",WHYZ,[ZI+":inst_push, inst_pop"])
p("C134","Z80 subroutines","CALL and RST go to their target with the address behind them on the stack and change nothing else; a RET in any later state with the same SP and the same two bytes returns there, with the SP from before.","all states, all things in between",WHYZ,[ZI+":inst_call, inst_rst, inst_ret"])

p("C135","Z80: what is done exactly","In every state, with no exception, each instruction has the effect of the manual with the deviations of the simulator written out (carry and half carry cases, DAA, IN r,(C), RRD/RLD, block compare and input/output, RETN, words and jumps across the ends of the memory, parity of CB rotations, SET b,(IX+d),L), and counts the clock periods of the manual but for INC/DEC (HL), BIT b,(HL) and OUT (C),E whose counts are given.","all states, codes, prefixes, operands",WHYZ,[Z8+":exec_inst",ZI,ZC,ZX,ZXC,ZE])
p("C136","Z80 stack errors","A step reports a stack overflow exactly when a push, RST or call done moves SP below the limit (PUSH AF: once for each byte), with the address of the instruction and SP before and after; no other instruction reports one.","all states, limits, codes",WHYZ,[Z8+":stack_check_overflow","src/sims/z80.src/z80mac.h:push2, push1"])
SIF="src/core/sim.src/simif.cc"
WHYS="Any sequence of reads and writes by the program, at any point of a command, parameter list or answer."
p("C137","Simulator interface follows its protocol","Whatever a program writes to and reads from the interface's cell and the configuration cells, every value read, every byte printed or written, every stop, start, reset and limit is that of the protocol (a command, its parameters, its answer; the complement of the cell if nothing is going on), and no parameter buffer is used after it was freed.","all histories of accesses, all cell widths of 2 to 32 bits, all files",WHYS,[SIF+":cl_simulator_interface::read, write, conf_op, cl_sif_command"])
p("C138","Answers are told whole","A command given with its parameters is answered by exactly its answer, in order, also if the program writes anything in between; in particular a reset of the interface does not interrupt an answer.","all histories before, all commands and parameters, all interleaved writes",WHYS,[SIF+":cl_sif_command::read, write, start_answer"])
p("C139","Resynchronisation","Whatever a program did before, four writes of zero and as many reads as the longest answer has values make the interface idle.","all histories",WHYS,[SIF+":cl_sif_command::write, read, finish_command"])
p("C140","Output of the program","Calls of print, hex print and write put exactly the bytes given, in order, to the console or output file and change nothing else; hex text is the number with at least two digits.","all histories before, all lists of values",WHYS,[SIF+":cl_sif_print, cl_sif_hex, cl_sif_write"])
p("C141","Input of the program","With input available the n-th read command gets the n-th byte of the input file.","all histories before, all files and counts",WHYS,[SIF+":cl_sif_read"])
p("C142","Execution limit","A limit set by the program is the one answered and shown in the configuration; not 0, it counts from there; 0 leaves the count that is going on.","all histories before, all limits",WHYS,[SIF+":cl_sif_setlimit, cl_sif_getlimit","src/core/sim.src/sim.cc:set_limit"])
p("C143","Switching the interface off","Clearing the interface's on cell changes nothing that the program reads, prints or writes later, except that cell.","all histories before and after",WHYS,[SIF+":conf_op"])
p("C144","Cells that report","Writes to the cells of the stop reason and of the counters change nothing, at any time; the stop reason is 0 until the program stops the simulation.","all histories before and after",WHYS,[SIF+":conf_op"])
M4="src/sims/i8048.src/i8048.cc"; M2="src/sims/i8048.src/i8020.cc"; MD="src/sims/i8048.src/decode.h"; MB="src/sims/i8048.src/branch.cc"; MA="src/sims/i8048.src/arith.cc"; MT="src/sims/i8048.src/timer.cc"; MP="src/sims/i8048.src/port.cc"
WHY48="256 codes with all registers, flags, 256 bytes of RAM, ports and program memories: a test can only sample them."
p("C145","MCS-48 instructions do what the manual says","Every instruction of the 8048 changes accumulator, flags, registers, RAM, external RAM, ports, timer, interrupt state, stack and PC as the manual says, except in the cases of C146.","all chips, programs, states, codes, operands",WHY48,[M4,M2,MA,MB])
p("C146","MCS-48: the deviations, exactly","DJNZ Rn decrements R7 and always jumps; ADDC A,@R executes nothing and stays there while the clock runs; MOVD clears the upper half of P2; ORLD and ANLD use port 6 whatever port they name; a conditional jump whose second byte ends a page goes to the next page; JMP and CALL leave bank 0 in an interrupt routine after SEL MB1. In each the complete new state is given.","all states in which these codes are executed",WHY48,[MB+":djnz, jif, jmp",MP+":set_low","src/sims/i8048.src/i8020cl.h:ORLDP4A",MD])
p("C147","MCS-48 undefined codes","A step is refused as invalid exactly for the codes the 8048 does not have; then PC stays, no clock tick passes, no interrupt is taken and nothing changes but the address on the BUS.","all states, codes",WHY48,[M2+":init","src/core/sim.src/uc.cc:exec_inst_uctab"])
p("C148","MCS-48 clock","Each instruction takes five ticks for each machine cycle of the manual, except ANL A,#data (one cycle instead of two), MOV @R,A and ENT0 CLK (two instead of one); taking an interrupt takes none.","all states, codes",WHY48,[MD,M2+":tick_tab20"])
p("C149","MCS-48 histories","In every history of instructions and input pins registers, RAM and ports hold bytes, PC twelve bits, bit 3 of PSW is one; the program leaves its 2048 byte bank only by JMP, CALL, RET, RETR or an interrupt.","all histories of any length","Unbounded histories.",[M2+":set_PC, fetch"])
p("C150","MCS-48 stack","Up to eight return addresses pushed come back in reverse order with flags and stack pointer; an overflow is reported exactly by the pushes that wrap the stack pointer.","all states, all lists of up to eight addresses",WHY48,[M2+":push, pop, stack_check_overflow"])
p("C151","MCS-48 interrupts","After an instruction an interrupt is taken exactly if enabled, INT is low and no routine runs, saves PC and flags and goes to 3; in any history without RETR no other is taken; RETR in any later state with the stack pointer and bytes unchanged restores PC and flags.","all states, all histories inside of the routine","Arbitrary histories between the interrupt and its return.",[M4+":accept_it, make_irq_sources, RETR","src/core/sim.src/uc.cc:do_interrupt"])
p("C152","MCS-48 timer","In any history without timer instructions a running timer is a count of clock ticks divided by 512 (not by 32 machine cycles) and the flag is set exactly if it wrapped; from reset, in any history, the timer never causes an interrupt.","all histories of any length","The count depends on the whole history.",[MT+":tick, do_timer, do_overflow",M4+":make_irq_sources"])
p("C153","MCS-48 event counter","As event counter the timer never counts: in any history of edges at T1 without timer instructions its value and flag stay.","all histories of instructions and pin changes","Every sequence of edges.",[MT+":do_counter",M2+":conf_op"])
p("C154","MCS-48 register banks","SEL RB0 and RB1 make R0..R7 the RAM bytes 0..7 or 24..31 and change nothing else.","all states",WHY48,[M4+":decode_regs"])
p("C155","MCS-48 instruction lengths","An instruction which is not a branch moves PC over its one or two bytes; the length of the disassembler is that number except for ENT0 CLK (two for one) and ANL BUS,#data (one for two).","all states, codes",WHY48,[M2+":inst_length",MD])

OI="src/sims/oisc.src/oisc.cc"; OM="src/sims/oisc.src/misc16.cc"; OE="src/sims/oisc.src/em.cc"; OU="src/sims/oisc.src/urisc.cc"
WHYO="65536 words of memory and registers, any address as source and destination, pointers that point at registers."
p("C156","MISC16 instructions do what the table says","Each instruction of MISC16 reads its source, advances PC by two and writes its destination as the design's table says: jumps on sign, zero, carry; addition and subtraction with carry and borrow, logic, shift through carry, access through A, also if A points at a register; four clock cycles.","all states: memory, PC, A, carry",WHYO,[OI+":exec_inst",OM+":read, write, add, sub, shift"])
p("C157","Every access ends","In any history of instructions, register displays and disassemblies of the four one instruction processors every access ends, also if pointers lead to pointer cells; registers and memory keep words, and only instructions take time.","all four processors, all histories, all states","Chains of pointers of any shape and histories of any length.",[OM+":read, write",OE+":read, write",OI+":exec_inst"])
p("C158","Extended MISC16","Each instruction of the extended MISC16 has exactly the result its table determines, with P, [P++], [--P], [A++] followed through any chain of pointers.","all states",WHYO,[OE+":read, write"])
p("C159","Stack of the extended MISC16","Values pushed by [--P] are popped by [P++] in reverse order, P is back, nothing but the stack area and the cell of the register itself changes.","all lists of values, all states","Lists of any length.",[OE+":read, write"])
p("C160","Ultimate RISC never jumps","In any history PC is advanced by two for each instruction: no program jumps, the documented PC address does nothing; before the first register display accumulator and flags never change.","all programs, all histories","A statement about all programs.",[OU+":init_alu, print_regs"])
p("C161","Ultimate RISC accumulator","After n displays of the registers a write to an accumulator address does its operation n times (closed form); memory, PC and, for moves, logic and shift, flags are as expected.","all n, all states, operands",WHYO,[OU+":print_regs, write"])
p("C162","Ultimate RISC flags","After an addition or subtraction carry, zero and sign flags are those of the result; overflow is the complement of the carry after subtractions and carry xor (some operand bit below the sign set or the second operand not zero) after additions; the condition addresses give two or zero by the documented formulas.","all operands, all states",WHYO,[OU+":add, read"])
p("C163","Plain one instruction processor","An instruction of the plain processor copies one word from the address at PC to the address at PC+1, advances PC by two, and changes nothing else.","all states",WHYO,[OI+":exec_inst"])
p("C164","Looking at the machine","Register display and disassembly change no register or memory in the plain processor, Ultimate RISC and MISC16; in the extended MISC16 they move P or A by one exactly if the instruction at PC has the source [P++] or [A++].","all states, addresses",WHYO,[OI+":disassc, print_acc",OM+":dis_comment",OE+":dis_comment, print_regs"])
p("C165","Disassembler names of MISC16","The names the disassembler gives to sources and destinations tell what is read and done, except PC+8 which is PC+6.","all states, values, named addresses",WHYO,[OM+":dis_src, dis_dst"])

PC="src/sims/s51.src/pca.cc"
WHYP="65536 counter values, five modules with free modes, and histories of any length: a test samples a few."
p("C166","PCA counter","In any history which does not write CL, CH, the counter of the 89C51R's PCA is modulo 65536 what it was plus the pulses of its clock source while it runs (cycles, three times the cycles, overflows of timer 0 or falling edges of ECI), and CF is set exactly if it wrapped.","all histories of ticks, register writes, edges, timer overflows; all initial states",WHYP,[PC+":tick, do_pca_counter, happen, write"])
p("C167","PCA compare","A module in compare mode sets its flag and toggles its pin exactly when the counter wraps to zero, and only if its compare value is zero: with any other value never.","all modules, histories, states",WHYP,[PC+":do_pca_counter, do_pca_module"])
p("C168","PCA watchdog","With the watchdog enabled a match of module 4 changes neither flag nor pin nor register, in any history.","all histories, states",WHYP,[PC+":do_pca_module, reset"])
p("C169","PCA capture","A module can only capture the value zero, only when the counter wraps; a falling edge once seen captures at every later wrap.","all modules, histories, states","The edge may be arbitrarily long ago.",[PC+":do_pca_module, happen"])
p("C170","PCA pulse width","CCAPnL is reloaded from CCAPnH when CL wraps; the output of a module in PWM mode is set at the first wrap of the counter and never cleared, whatever the compare register holds.","all modules, histories, states",WHYP,[PC+":do_pca_counter, do_pca_module"])
p("C171","PCA run bit","Setting CR as a bit does not start the counter; bit 2 of CCON does; a running counter runs on after a reset of the controller.","all histories, states",WHYP,[PC+":init, write","src/sims/s51.src/uc51.cc:clear_sfr"])
p("C172","PCA modes","The mode a module works in is the last one written to CCAPMn, also after a reset when 40h is read there; writing the compare registers never changes it.","all histories, states",WHYP,[PC+":write, init"])
