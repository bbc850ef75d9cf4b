(** The 8048, 8049, 8050, 8035, 8039 and 8040 processors (i8048.src): all instruction codes, flags, register
    banks, stack, timer, ports with the 8243 expander, interrupts, clock cycles, disassembly table.
    Reading an internal RAM address the chip does not have gives [jk] (a dummy cell, one value for each step,
    any byte); writing there does nothing.
    Not modelled: the access counters vc.fetch, vc.rd, vc.wr, breakpoints, stopping at a jump to itself, the on and off switch of the
    peripherals, writing the configuration of timer, bus and ports other than input pins, the 8021, 8022, 8041. *)
From Verif Require Import Base.

(** i8020cl.h:110-134 cl_i8020: size of the internal RAM, program memory (rom, twelve address bits), size of the
    program memory inside of the chip (inner_rom) *)
Record chip := mkchip { rs : Z; rom : Z -> Z; inner : Z }.
(** i8020cl.h:110-134 cl_i8020, i8048cl.h:44-48 cl_i8048 flagF1, i8048.src/timercl.h:56-64 cl_timer, i8048.src/intscl.h:41-47 cl_ints
    ene, i8048.src/portcl.h:47-53 cl_qport pcell (output latches) and port_pin (pins), i8048.src/buscl.h:45-60 out_ff; odr, dir and
    epin: the ports 4 to 7 of the expander; int, t0, t1: the input pins (ipins); errs: the
    stack overflow errors reported (instruction address, two stack addresses) *)
Record cpu := mkC { A : Z; psw : Z; mb : Z; f1 : Z; PC : Z; ram : Z -> Z; xram : Z -> Z; tmr : Z; pre16 : Z; pre : Z; mode : Z; ien : Z; ovf : bool; tfl : bool; irq : Z; ene : Z; isr : bool; p1 : Z; p2 : Z; i1 : Z; i2 : Z; busin : Z; busout : Z; odr : Z -> Z; dir : Z -> Z; epin : Z -> Z; t0 : bool; t1 : bool; int : bool; ticks : Z; errs : list (Z * Z * Z) }.
Definition set_A (v : Z) (s : cpu) : cpu := mkC v (psw s) (mb s) (f1 s) (PC s) (ram s) (xram s) (tmr s) (pre16 s) (pre s) (mode s) (ien s) (ovf s) (tfl s) (irq s) (ene s) (isr s) (p1 s) (p2 s) (i1 s) (i2 s) (busin s) (busout s) (odr s) (dir s) (epin s) (t0 s) (t1 s) (int s) (ticks s) (errs s).
Definition set_psw (v : Z) (s : cpu) : cpu := mkC (A s) v (mb s) (f1 s) (PC s) (ram s) (xram s) (tmr s) (pre16 s) (pre s) (mode s) (ien s) (ovf s) (tfl s) (irq s) (ene s) (isr s) (p1 s) (p2 s) (i1 s) (i2 s) (busin s) (busout s) (odr s) (dir s) (epin s) (t0 s) (t1 s) (int s) (ticks s) (errs s).
Definition set_mb (v : Z) (s : cpu) : cpu := mkC (A s) (psw s) v (f1 s) (PC s) (ram s) (xram s) (tmr s) (pre16 s) (pre s) (mode s) (ien s) (ovf s) (tfl s) (irq s) (ene s) (isr s) (p1 s) (p2 s) (i1 s) (i2 s) (busin s) (busout s) (odr s) (dir s) (epin s) (t0 s) (t1 s) (int s) (ticks s) (errs s).
Definition set_f1 (v : Z) (s : cpu) : cpu := mkC (A s) (psw s) (mb s) v (PC s) (ram s) (xram s) (tmr s) (pre16 s) (pre s) (mode s) (ien s) (ovf s) (tfl s) (irq s) (ene s) (isr s) (p1 s) (p2 s) (i1 s) (i2 s) (busin s) (busout s) (odr s) (dir s) (epin s) (t0 s) (t1 s) (int s) (ticks s) (errs s).
Definition set_PC (v : Z) (s : cpu) : cpu := mkC (A s) (psw s) (mb s) (f1 s) v (ram s) (xram s) (tmr s) (pre16 s) (pre s) (mode s) (ien s) (ovf s) (tfl s) (irq s) (ene s) (isr s) (p1 s) (p2 s) (i1 s) (i2 s) (busin s) (busout s) (odr s) (dir s) (epin s) (t0 s) (t1 s) (int s) (ticks s) (errs s).
Definition set_ram (v : Z -> Z) (s : cpu) : cpu := mkC (A s) (psw s) (mb s) (f1 s) (PC s) v (xram s) (tmr s) (pre16 s) (pre s) (mode s) (ien s) (ovf s) (tfl s) (irq s) (ene s) (isr s) (p1 s) (p2 s) (i1 s) (i2 s) (busin s) (busout s) (odr s) (dir s) (epin s) (t0 s) (t1 s) (int s) (ticks s) (errs s).
Definition set_xram (v : Z -> Z) (s : cpu) : cpu := mkC (A s) (psw s) (mb s) (f1 s) (PC s) (ram s) v (tmr s) (pre16 s) (pre s) (mode s) (ien s) (ovf s) (tfl s) (irq s) (ene s) (isr s) (p1 s) (p2 s) (i1 s) (i2 s) (busin s) (busout s) (odr s) (dir s) (epin s) (t0 s) (t1 s) (int s) (ticks s) (errs s).
Definition set_tmr (v : Z) (s : cpu) : cpu := mkC (A s) (psw s) (mb s) (f1 s) (PC s) (ram s) (xram s) v (pre16 s) (pre s) (mode s) (ien s) (ovf s) (tfl s) (irq s) (ene s) (isr s) (p1 s) (p2 s) (i1 s) (i2 s) (busin s) (busout s) (odr s) (dir s) (epin s) (t0 s) (t1 s) (int s) (ticks s) (errs s).
Definition set_pre16 (v : Z) (s : cpu) : cpu := mkC (A s) (psw s) (mb s) (f1 s) (PC s) (ram s) (xram s) (tmr s) v (pre s) (mode s) (ien s) (ovf s) (tfl s) (irq s) (ene s) (isr s) (p1 s) (p2 s) (i1 s) (i2 s) (busin s) (busout s) (odr s) (dir s) (epin s) (t0 s) (t1 s) (int s) (ticks s) (errs s).
Definition set_pre (v : Z) (s : cpu) : cpu := mkC (A s) (psw s) (mb s) (f1 s) (PC s) (ram s) (xram s) (tmr s) (pre16 s) v (mode s) (ien s) (ovf s) (tfl s) (irq s) (ene s) (isr s) (p1 s) (p2 s) (i1 s) (i2 s) (busin s) (busout s) (odr s) (dir s) (epin s) (t0 s) (t1 s) (int s) (ticks s) (errs s).
Definition set_mode (v : Z) (s : cpu) : cpu := mkC (A s) (psw s) (mb s) (f1 s) (PC s) (ram s) (xram s) (tmr s) (pre16 s) (pre s) v (ien s) (ovf s) (tfl s) (irq s) (ene s) (isr s) (p1 s) (p2 s) (i1 s) (i2 s) (busin s) (busout s) (odr s) (dir s) (epin s) (t0 s) (t1 s) (int s) (ticks s) (errs s).
Definition set_ien (v : Z) (s : cpu) : cpu := mkC (A s) (psw s) (mb s) (f1 s) (PC s) (ram s) (xram s) (tmr s) (pre16 s) (pre s) (mode s) v (ovf s) (tfl s) (irq s) (ene s) (isr s) (p1 s) (p2 s) (i1 s) (i2 s) (busin s) (busout s) (odr s) (dir s) (epin s) (t0 s) (t1 s) (int s) (ticks s) (errs s).
Definition set_ovf (v : bool) (s : cpu) : cpu := mkC (A s) (psw s) (mb s) (f1 s) (PC s) (ram s) (xram s) (tmr s) (pre16 s) (pre s) (mode s) (ien s) v (tfl s) (irq s) (ene s) (isr s) (p1 s) (p2 s) (i1 s) (i2 s) (busin s) (busout s) (odr s) (dir s) (epin s) (t0 s) (t1 s) (int s) (ticks s) (errs s).
Definition set_tfl (v : bool) (s : cpu) : cpu := mkC (A s) (psw s) (mb s) (f1 s) (PC s) (ram s) (xram s) (tmr s) (pre16 s) (pre s) (mode s) (ien s) (ovf s) v (irq s) (ene s) (isr s) (p1 s) (p2 s) (i1 s) (i2 s) (busin s) (busout s) (odr s) (dir s) (epin s) (t0 s) (t1 s) (int s) (ticks s) (errs s).
Definition set_irq (v : Z) (s : cpu) : cpu := mkC (A s) (psw s) (mb s) (f1 s) (PC s) (ram s) (xram s) (tmr s) (pre16 s) (pre s) (mode s) (ien s) (ovf s) (tfl s) v (ene s) (isr s) (p1 s) (p2 s) (i1 s) (i2 s) (busin s) (busout s) (odr s) (dir s) (epin s) (t0 s) (t1 s) (int s) (ticks s) (errs s).
Definition set_ene (v : Z) (s : cpu) : cpu := mkC (A s) (psw s) (mb s) (f1 s) (PC s) (ram s) (xram s) (tmr s) (pre16 s) (pre s) (mode s) (ien s) (ovf s) (tfl s) (irq s) v (isr s) (p1 s) (p2 s) (i1 s) (i2 s) (busin s) (busout s) (odr s) (dir s) (epin s) (t0 s) (t1 s) (int s) (ticks s) (errs s).
Definition set_isr (v : bool) (s : cpu) : cpu := mkC (A s) (psw s) (mb s) (f1 s) (PC s) (ram s) (xram s) (tmr s) (pre16 s) (pre s) (mode s) (ien s) (ovf s) (tfl s) (irq s) (ene s) v (p1 s) (p2 s) (i1 s) (i2 s) (busin s) (busout s) (odr s) (dir s) (epin s) (t0 s) (t1 s) (int s) (ticks s) (errs s).
Definition set_p1 (v : Z) (s : cpu) : cpu := mkC (A s) (psw s) (mb s) (f1 s) (PC s) (ram s) (xram s) (tmr s) (pre16 s) (pre s) (mode s) (ien s) (ovf s) (tfl s) (irq s) (ene s) (isr s) v (p2 s) (i1 s) (i2 s) (busin s) (busout s) (odr s) (dir s) (epin s) (t0 s) (t1 s) (int s) (ticks s) (errs s).
Definition set_p2 (v : Z) (s : cpu) : cpu := mkC (A s) (psw s) (mb s) (f1 s) (PC s) (ram s) (xram s) (tmr s) (pre16 s) (pre s) (mode s) (ien s) (ovf s) (tfl s) (irq s) (ene s) (isr s) (p1 s) v (i1 s) (i2 s) (busin s) (busout s) (odr s) (dir s) (epin s) (t0 s) (t1 s) (int s) (ticks s) (errs s).
Definition set_i1 (v : Z) (s : cpu) : cpu := mkC (A s) (psw s) (mb s) (f1 s) (PC s) (ram s) (xram s) (tmr s) (pre16 s) (pre s) (mode s) (ien s) (ovf s) (tfl s) (irq s) (ene s) (isr s) (p1 s) (p2 s) v (i2 s) (busin s) (busout s) (odr s) (dir s) (epin s) (t0 s) (t1 s) (int s) (ticks s) (errs s).
Definition set_i2 (v : Z) (s : cpu) : cpu := mkC (A s) (psw s) (mb s) (f1 s) (PC s) (ram s) (xram s) (tmr s) (pre16 s) (pre s) (mode s) (ien s) (ovf s) (tfl s) (irq s) (ene s) (isr s) (p1 s) (p2 s) (i1 s) v (busin s) (busout s) (odr s) (dir s) (epin s) (t0 s) (t1 s) (int s) (ticks s) (errs s).
Definition set_busin (v : Z) (s : cpu) : cpu := mkC (A s) (psw s) (mb s) (f1 s) (PC s) (ram s) (xram s) (tmr s) (pre16 s) (pre s) (mode s) (ien s) (ovf s) (tfl s) (irq s) (ene s) (isr s) (p1 s) (p2 s) (i1 s) (i2 s) v (busout s) (odr s) (dir s) (epin s) (t0 s) (t1 s) (int s) (ticks s) (errs s).
Definition set_busout (v : Z) (s : cpu) : cpu := mkC (A s) (psw s) (mb s) (f1 s) (PC s) (ram s) (xram s) (tmr s) (pre16 s) (pre s) (mode s) (ien s) (ovf s) (tfl s) (irq s) (ene s) (isr s) (p1 s) (p2 s) (i1 s) (i2 s) (busin s) v (odr s) (dir s) (epin s) (t0 s) (t1 s) (int s) (ticks s) (errs s).
Definition set_odr (v : Z -> Z) (s : cpu) : cpu := mkC (A s) (psw s) (mb s) (f1 s) (PC s) (ram s) (xram s) (tmr s) (pre16 s) (pre s) (mode s) (ien s) (ovf s) (tfl s) (irq s) (ene s) (isr s) (p1 s) (p2 s) (i1 s) (i2 s) (busin s) (busout s) v (dir s) (epin s) (t0 s) (t1 s) (int s) (ticks s) (errs s).
Definition set_dir (v : Z -> Z) (s : cpu) : cpu := mkC (A s) (psw s) (mb s) (f1 s) (PC s) (ram s) (xram s) (tmr s) (pre16 s) (pre s) (mode s) (ien s) (ovf s) (tfl s) (irq s) (ene s) (isr s) (p1 s) (p2 s) (i1 s) (i2 s) (busin s) (busout s) (odr s) v (epin s) (t0 s) (t1 s) (int s) (ticks s) (errs s).
Definition set_epin (v : Z -> Z) (s : cpu) : cpu := mkC (A s) (psw s) (mb s) (f1 s) (PC s) (ram s) (xram s) (tmr s) (pre16 s) (pre s) (mode s) (ien s) (ovf s) (tfl s) (irq s) (ene s) (isr s) (p1 s) (p2 s) (i1 s) (i2 s) (busin s) (busout s) (odr s) (dir s) v (t0 s) (t1 s) (int s) (ticks s) (errs s).
Definition set_t0 (v : bool) (s : cpu) : cpu := mkC (A s) (psw s) (mb s) (f1 s) (PC s) (ram s) (xram s) (tmr s) (pre16 s) (pre s) (mode s) (ien s) (ovf s) (tfl s) (irq s) (ene s) (isr s) (p1 s) (p2 s) (i1 s) (i2 s) (busin s) (busout s) (odr s) (dir s) (epin s) v (t1 s) (int s) (ticks s) (errs s).
Definition set_t1 (v : bool) (s : cpu) : cpu := mkC (A s) (psw s) (mb s) (f1 s) (PC s) (ram s) (xram s) (tmr s) (pre16 s) (pre s) (mode s) (ien s) (ovf s) (tfl s) (irq s) (ene s) (isr s) (p1 s) (p2 s) (i1 s) (i2 s) (busin s) (busout s) (odr s) (dir s) (epin s) (t0 s) v (int s) (ticks s) (errs s).
Definition set_int (v : bool) (s : cpu) : cpu := mkC (A s) (psw s) (mb s) (f1 s) (PC s) (ram s) (xram s) (tmr s) (pre16 s) (pre s) (mode s) (ien s) (ovf s) (tfl s) (irq s) (ene s) (isr s) (p1 s) (p2 s) (i1 s) (i2 s) (busin s) (busout s) (odr s) (dir s) (epin s) (t0 s) (t1 s) v (ticks s) (errs s).
Definition set_ticks (v : Z) (s : cpu) : cpu := mkC (A s) (psw s) (mb s) (f1 s) (PC s) (ram s) (xram s) (tmr s) (pre16 s) (pre s) (mode s) (ien s) (ovf s) (tfl s) (irq s) (ene s) (isr s) (p1 s) (p2 s) (i1 s) (i2 s) (busin s) (busout s) (odr s) (dir s) (epin s) (t0 s) (t1 s) (int s) v (errs s).
Definition set_errs (v : list (Z * Z * Z)) (s : cpu) : cpu := mkC (A s) (psw s) (mb s) (f1 s) (PC s) (ram s) (xram s) (tmr s) (pre16 s) (pre s) (mode s) (ien s) (ovf s) (tfl s) (irq s) (ene s) (isr s) (p1 s) (p2 s) (i1 s) (i2 s) (busin s) (busout s) (odr s) (dir s) (epin s) (t0 s) (t1 s) (int s) (ticks s) v.

(** ** Instructions *)
(** a register R0 to R7, or the internal RAM at R0 or R1 *)
Inductive loc := Lr (n : Z) | Li (n : Z).
Inductive src := SL (l : loc) | SI.
Inductive lop := kORL | kANL | kXRL.
Inductive pin := pT0 | pT1 .
Inductive op :=
| NOP | ENT0CLK | Invalid | NoMethod
| ADD (cy : bool) (x : src) | LOG (k : lop) (x : src) | MOVA (x : src) | MOVLA (l : loc) | MOVLI (l : loc)
| INC (l : loc) | DEC (l : loc) | XCH (l : loc) | XCHD (n : Z)
| INCA | DECA | CLRA | CPLA | SWAPA | DAA | RR | RL | RRC | RLC
| CLRC | CPLC | CLRF0 | CPLF0 | CLRF1 | CPLF1 | MOVAF | MOVFA
| SELRB (b : bool) | SELMB (v : Z) | MOVXA (n : Z) | MOVXM (n : Z) | MOVP | MOVP3
| JMP | CALL | RET | RETR | JMPP | DJNZ | JB
| JTF | JNT0 | JT0 | JNT1 | JT1 | JF0 | JF1 | JNI | JNZ | JZ | JNC | JC
| ENI | DISI | ENTCNTI | DISTCNTI | MOVAT | MOVTA | STRTCNT | STRTT | STOPTCNT
| OUTLB | INS | ORLB | ANLB | INP (p : Z) | OUTL (p : Z) | ORLP (p : Z) | ANLP (p : Z)
| MOVDA (p : Z) | MOVDP (p : Z) | ORLD | ANLD.

(** i8048.src/decode.h:30-281 DEC, with those entries whose last field contains 8; i8020.cc:80-118 init: the other codes get
    itab.cc:293 invalid_instruction; 70 and 71 have no method in the class: uccl_instructions.h:113-114 instruction_70 *)
Definition itab : list op :=
  [NOP; Invalid; OUTLB; ADD false SI; JMP; ENI; Invalid; DECA;
   INS; INP 1; INP 2; Invalid; MOVDA 4; MOVDA 5; MOVDA 6; MOVDA 7;
   INC (Li 0); INC (Li 1); JB; ADD true SI; CALL; DISI; JTF; INCA;
   INC (Lr 0); INC (Lr 1); INC (Lr 2); INC (Lr 3); INC (Lr 4); INC (Lr 5); INC (Lr 6); INC (Lr 7);
   XCH (Li 0); XCH (Li 1); Invalid; MOVA SI; JMP; ENTCNTI; JNT0; CLRA;
   XCH (Lr 0); XCH (Lr 1); XCH (Lr 2); XCH (Lr 3); XCH (Lr 4); XCH (Lr 5); XCH (Lr 6); XCH (Lr 7);
   XCHD 0; XCHD 1; JB; Invalid; CALL; DISTCNTI; JT0; CPLA;
   Invalid; OUTL 1; OUTL 2; Invalid; MOVDP 4; MOVDP 5; MOVDP 6; MOVDP 7;
   LOG kORL (SL (Li 0)); LOG kORL (SL (Li 1)); MOVAT; LOG kORL SI; JMP; STRTCNT; JNT1; SWAPA;
   LOG kORL (SL (Lr 0)); LOG kORL (SL (Lr 1)); LOG kORL (SL (Lr 2)); LOG kORL (SL (Lr 3)); LOG kORL (SL (Lr 4)); LOG kORL (SL (Lr 5)); LOG kORL (SL (Lr 6)); LOG kORL (SL (Lr 7));
   LOG kANL (SL (Li 0)); LOG kANL (SL (Li 1)); JB; LOG kANL SI; CALL; STRTT; JT1; DAA;
   LOG kANL (SL (Lr 0)); LOG kANL (SL (Lr 1)); LOG kANL (SL (Lr 2)); LOG kANL (SL (Lr 3)); LOG kANL (SL (Lr 4)); LOG kANL (SL (Lr 5)); LOG kANL (SL (Lr 6)); LOG kANL (SL (Lr 7));
   ADD false (SL (Li 0)); ADD false (SL (Li 1)); MOVTA; Invalid; JMP; STOPTCNT; Invalid; RRC;
   ADD false (SL (Lr 0)); ADD false (SL (Lr 1)); ADD false (SL (Lr 2)); ADD false (SL (Lr 3)); ADD false (SL (Lr 4)); ADD false (SL (Lr 5)); ADD false (SL (Lr 6)); ADD false (SL (Lr 7));
   NoMethod; NoMethod; JB; Invalid; CALL; ENT0CLK; JF1; RR;
   ADD true (SL (Lr 0)); ADD true (SL (Lr 1)); ADD true (SL (Lr 2)); ADD true (SL (Lr 3)); ADD true (SL (Lr 4)); ADD true (SL (Lr 5)); ADD true (SL (Lr 6)); ADD true (SL (Lr 7));
   MOVXA 0; MOVXA 1; Invalid; RET; JMP; CLRF0; JNI; Invalid;
   ORLB; ORLP 1; ORLP 2; Invalid; ORLD; ORLD; ORLD; ORLD;
   MOVXM 0; MOVXM 1; JB; RETR; CALL; CPLF0; JNZ; CLRC;
   ANLB; ANLP 1; ANLP 2; Invalid; ANLD; ANLD; ANLD; ANLD;
   MOVLA (Li 0); MOVLA (Li 1); Invalid; MOVP; JMP; CLRF1; Invalid; CPLC;
   MOVLA (Lr 0); MOVLA (Lr 1); MOVLA (Lr 2); MOVLA (Lr 3); MOVLA (Lr 4); MOVLA (Lr 5); MOVLA (Lr 6); MOVLA (Lr 7);
   MOVLI (Li 0); MOVLI (Li 1); JB; JMPP; CALL; CPLF1; JF0; Invalid;
   MOVLI (Lr 0); MOVLI (Lr 1); MOVLI (Lr 2); MOVLI (Lr 3); MOVLI (Lr 4); MOVLI (Lr 5); MOVLI (Lr 6); MOVLI (Lr 7);
   Invalid; Invalid; Invalid; Invalid; JMP; SELRB false; JZ; MOVAF;
   DEC (Lr 0); DEC (Lr 1); DEC (Lr 2); DEC (Lr 3); DEC (Lr 4); DEC (Lr 5); DEC (Lr 6); DEC (Lr 7);
   LOG kXRL (SL (Li 0)); LOG kXRL (SL (Li 1)); JB; LOG kXRL SI; CALL; SELRB true; Invalid; MOVFA;
   LOG kXRL (SL (Lr 0)); LOG kXRL (SL (Lr 1)); LOG kXRL (SL (Lr 2)); LOG kXRL (SL (Lr 3)); LOG kXRL (SL (Lr 4)); LOG kXRL (SL (Lr 5)); LOG kXRL (SL (Lr 6)); LOG kXRL (SL (Lr 7));
   Invalid; Invalid; Invalid; MOVP3; JMP; SELMB 0; JNC; RL;
   DJNZ; DJNZ; DJNZ; DJNZ; DJNZ; DJNZ; DJNZ; DJNZ;
   MOVA (SL (Li 0)); MOVA (SL (Li 1)); JB; Invalid; CALL; SELMB 1; JC; RLC;
   MOVA (SL (Lr 0)); MOVA (SL (Lr 1)); MOVA (SL (Lr 2)); MOVA (SL (Lr 3)); MOVA (SL (Lr 4)); MOVA (SL (Lr 5)); MOVA (SL (Lr 6)); MOVA (SL (Lr 7))].
(** i8020.cc:80-118 tick_tab20: the cycles in decode.h times five *)
Definition tick_tab20 : list Z :=
  [5; 0; 10; 10; 10; 5; 0; 5; 10; 10; 10; 0; 10; 10; 10; 10;
   5; 5; 10; 10; 10; 5; 10; 5; 5; 5; 5; 5; 5; 5; 5; 5;
   5; 5; 0; 10; 10; 5; 10; 5; 5; 5; 5; 5; 5; 5; 5; 5;
   5; 5; 10; 0; 10; 5; 10; 5; 0; 10; 10; 0; 10; 10; 10; 10;
   5; 5; 5; 10; 10; 5; 10; 5; 5; 5; 5; 5; 5; 5; 5; 5;
   5; 5; 10; 5; 10; 5; 10; 5; 5; 5; 5; 5; 5; 5; 5; 5;
   5; 5; 5; 0; 10; 5; 0; 5; 5; 5; 5; 5; 5; 5; 5; 5;
   5; 5; 10; 0; 10; 10; 10; 5; 5; 5; 5; 5; 5; 5; 5; 5;
   10; 10; 0; 10; 10; 5; 10; 0; 10; 10; 10; 0; 10; 10; 10; 10;
   10; 10; 10; 10; 10; 5; 10; 5; 10; 10; 10; 0; 10; 10; 10; 10;
   10; 10; 0; 10; 10; 5; 0; 5; 5; 5; 5; 5; 5; 5; 5; 5;
   10; 10; 10; 10; 10; 5; 10; 0; 10; 10; 10; 10; 10; 10; 10; 10;
   0; 0; 0; 0; 10; 5; 10; 5; 5; 5; 5; 5; 5; 5; 5; 5;
   5; 5; 10; 10; 10; 5; 0; 5; 5; 5; 5; 5; 5; 5; 5; 5;
   0; 0; 0; 10; 10; 5; 10; 5; 10; 10; 10; 10; 10; 10; 10; 10;
   5; 5; 10; 0; 10; 5; 10; 5; 5; 5; 5; 5; 5; 5; 5; 5].
(** i8020.cc:439-444 inst_length: the lengths in decode.h, 1 for unknown codes *)
Definition len_tab : list Z :=
  [1; 1; 1; 2; 2; 1; 1; 1; 1; 1; 1; 1; 1; 1; 1; 1;
   1; 1; 2; 2; 2; 1; 2; 1; 1; 1; 1; 1; 1; 1; 1; 1;
   1; 1; 1; 2; 2; 1; 2; 1; 1; 1; 1; 1; 1; 1; 1; 1;
   1; 1; 2; 1; 2; 1; 2; 1; 1; 1; 1; 1; 1; 1; 1; 1;
   1; 1; 1; 2; 2; 1; 2; 1; 1; 1; 1; 1; 1; 1; 1; 1;
   1; 1; 2; 2; 2; 1; 2; 1; 1; 1; 1; 1; 1; 1; 1; 1;
   1; 1; 1; 1; 2; 1; 1; 1; 1; 1; 1; 1; 1; 1; 1; 1;
   1; 1; 2; 1; 2; 2; 2; 1; 1; 1; 1; 1; 1; 1; 1; 1;
   1; 1; 1; 1; 2; 1; 2; 1; 2; 2; 2; 1; 1; 1; 1; 1;
   1; 1; 2; 1; 2; 1; 2; 1; 1; 2; 2; 1; 1; 1; 1; 1;
   1; 1; 1; 1; 2; 1; 1; 1; 1; 1; 1; 1; 1; 1; 1; 1;
   2; 2; 2; 1; 2; 1; 2; 1; 2; 2; 2; 2; 2; 2; 2; 2;
   1; 1; 1; 1; 2; 1; 2; 1; 1; 1; 1; 1; 1; 1; 1; 1;
   1; 1; 2; 2; 2; 1; 1; 1; 1; 1; 1; 1; 1; 1; 1; 1;
   1; 1; 1; 1; 2; 1; 2; 1; 2; 2; 2; 2; 2; 2; 2; 2;
   1; 1; 2; 1; 2; 1; 2; 1; 1; 1; 1; 1; 1; 1; 1; 1].

(** ** Memory *)
(** mem.cc:1203-1259 cl_memory_cell::read of the internal RAM *)
Definition rd_ram (h : chip) (jk a : Z) (s : cpu) : Z := if a <? rs h then ram s a else jk.
(** mem.cc:1203-1259 cl_memory_cell::write of the internal RAM *)
Definition wr_ram (h : chip) (a v : Z) (s : cpu) : cpu :=
  if a <? rs h then set_ram (fun k => if k =? a then u8 v else ram s k) s else s.
(** i8048.cc:216-230 decode_regs: bit 4 of psw selects R0 to R7 at RAM address 0 or 24 *)
Definition raddr (n : Z) (s : cpu) : Z := (if Z.land (psw s) 16 =? 0 then 0 else 24) + n.
Definition R (n : Z) (s : cpu) : Z := ram s (raddr n s).
Definition set_R (n v : Z) (s : cpu) : cpu :=
  set_ram (fun k => if k =? raddr n s then u8 v else ram s k) s.
(** i8020.cc:590-596 iram_ir, i8020.cc:597-604 read_ir *)
Definition rd (h : chip) (jk : Z) (l : loc) (s : cpu) : Z :=
  match l with Lr n => R n s | Li n => rd_ram h jk (R n s) s end.
Definition wr (h : chip) (l : loc) (v : Z) (s : cpu) : cpu :=
  match l with Lr n => set_R n v s | Li n => wr_ram h (R n s) v s end.
(** i8048.cc:37-42 cl_flag48_op::write *)
Definition wF (v : Z) (s : cpu) : cpu := set_psw (Z.lor (u8 v) 8) s.
Definition wA (v : Z) (s : cpu) : cpu := set_A (u8 v) s.
(** bus.cc:98-103 latch *)
Definition latch (v : Z) (s : cpu) : cpu := set_busout (u8 v) s.

(** i8020.cc:128-135 set_PC *)
Definition set_pc11 (a : Z) (s : cpu) : cpu := set_PC (Z.lor (Z.land (PC s) 2048) (Z.land a 2047)) s.
(** i8020.cc:137-146 cl_i8020::fetch *)
Definition fetch (h : chip) (s : cpu) : Z * cpu :=
  let c := rom h (PC s) in
  let s := set_pc11 (Z.land (PC s + 1) 4095) s in
  (c, if inner h <=? PC s then latch (PC s) s else s).

(** ** Stack *)
(** i8020.cc:548-566 stack_check_overflow *)
Definition check_overflow (ipc spa : Z) (s : cpu) : cpu :=
  let spb := Z.land (spa - 1) 7 in
  if spa <? spb then set_errs (errs s ++ [(ipc, 8 + spb * 2, 8 + spa * 2)]) s else s.
(** i8020.cc:506-524 push *)
Definition push (h : chip) (ipc : Z) (pushf : bool) (s : cpu) : cpu :=
  let spb := Z.land (psw s) 7 in
  let spa := Z.land (spb + 1) 7 in
  let ib := 8 + spb * 2 in
  let s := wr_ram h ib (PC s) s in
  let hi := Z.land (Z.shiftr (PC s) 8) 15 in
  let hi := if pushf then Z.lor hi (Z.land (psw s) 240) else hi in
  let s := wr_ram h (ib + 1) hi s in
  let s := wF (Z.lor (Z.land (psw s) 248) spa) s in
  check_overflow ipc spa s.
(** i8020.cc:526-546 pop *)
Definition pop (h : chip) (jk : Z) (popf : bool) (s : cpu) : cpu :=
  let spb := Z.land (psw s) 7 in
  let spa := Z.land (spb - 1) 7 in
  let ia := 8 + spa * 2 in
  let vh := rd_ram h jk (ia + 1) s in
  let v := rd_ram h jk ia s + 256 * vh in
  let p := if popf then Z.lor (Z.land (psw s) 15) (Z.land vh 240) else psw s in
  set_PC (Z.land v 4095) (wF (Z.lor (Z.land p 248) spa) s).

(** ** Instructions *)
(** i8048.src/arith.cc:30-42 cl_i8020::add *)
Definition add (v : Z) (addc : bool) (s : cpu) : cpu :=
  let c := if addc then (if Z.land (psw s) 128 =? 0 then 0 else 1) else 0 in
  let f := Z.land (psw s) 63 in
  let r := A s + v + c in
  let f := if 255 <? r then Z.lor f 128 else f in
  let f := if 15 <? Z.land (A s) 15 + Z.land v 15 + c then Z.lor f 64 else f in
  wA r (wF f s).
(** i8048.src/arith.cc:79-95 daa *)
Definition daa (s : cpu) : cpu :=
  let lo := (9 <? Z.land (A s) 15) || negb (Z.land (psw s) 64 =? 0) in
  let f := if lo && (249 <? A s) then Z.lor (psw s) 128 else psw s in
  let a := if lo then u8 (A s + 6) else A s in
  let hi := (144 <? Z.land a 240) || negb (Z.land f 128 =? 0) in
  let a1 := if hi then u8 (a + 96) else a in
  let f := if hi then Z.lor f 128 else f in
  wF f (wA a1 s).
(** i8048.src/arith.cc:97-108 RRC *)
Definition rrc (s : cpu) : cpu :=
  let f := Z.land (psw s) 127 in
  let f := if Z.land (A s) 1 =? 0 then f else Z.lor f 128 in
  let a := Z.shiftr (A s) 1 in
  let a := if Z.land (psw s) 128 =? 0 then a else Z.lor a 128 in
  wF f (wA a s).
(** i8048.src/arith.cc:131-142 RLC *)
Definition rlc (s : cpu) : cpu :=
  let f := Z.land (psw s) 127 in
  let f := if Z.land (A s) 128 =? 0 then f else Z.lor f 128 in
  let a := u8 (Z.shiftl (A s) 1) in
  let a := if Z.land (psw s) 128 =? 0 then a else Z.lor a 1 in
  wF f (wA a s).
(** i8048.src/arith.cc:110-118 RR, i8048.src/arith.cc:120-129 RL *)
Definition rr (s : cpu) : cpu :=
  wA (Z.lor (Z.shiftr (A s) 1) (if Z.land (A s) 1 =? 0 then 0 else 128)) s.
Definition rl (s : cpu) : cpu :=
  wA (Z.lor (u8 (Z.shiftl (A s) 1)) (if Z.land (A s) 128 =? 0 then 0 else 1)) s.

(** i8048.src/branch.cc:65-75 jif *)
Definition jif (h : chip) (cond : bool) (s : cpu) : cpu :=
  let (a, s) := fetch h s in
  if cond then set_PC (Z.lor (Z.land (PC s) 3840) a) s else s.
(** i8048.src/branch.cc:31-40 cl_i8020::jmp, without the last assignment *)
Definition target (h : chip) (code : Z) (s : cpu) : Z * cpu :=
  let a := Z.shiftl (Z.land code 224) 3 in
  let (b, s) := fetch h s in
  let a := a + b in
  (if mb s =? 0 then a else Z.lor a 2048, s).
(** i8048.src/branch.cc:159-173 djnz: the pointer R[r] is compared to zero *)
Definition djnz (h : chip) (code : Z) (s : cpu) : cpu :=
  let r := Z.land (Z.shiftr code 5) 7 in
  let (a, s) := fetch h s in
  let s := set_R r (R r s - 1) s in
  set_PC (Z.land (PC s) 3840 + a) s.

(** i8048.src/timer.cc:167-222 conf_op of tcfg_mode *)
Definition set_tmode (m : Z) (s : cpu) : cpu :=
  let s := set_mode (m mod 3) s in
  if mode s =? 0 then s else set_pre 0 s.

(** i8048.src/port.cc:215-223 set_low: the computed value r is not used *)
Definition set_low (v : Z) (s : cpu) : cpu := set_p2 (u8 (Z.land v 15)) s.
Definition fset (f : Z -> Z) (a v : Z) : Z -> Z := fun k => if k =? a then v else f k.
(** i8048.src/port.cc:384-401 in; conf_op of pext_dir: 0 input, otherwise the mask *)
Definition pext_in (p : Z) (s : cpu) : Z * cpu :=
  let s := set_dir (fset (dir s) p 0) s in
  let r := epin s p in
  (r, set_low r s).
(** i8048.src/port.cc:403-419 out *)
Definition pext_out (p v : Z) (s : cpu) : cpu :=
  let s := set_dir (fset (dir s) p 15) s in
  let s := set_odr (fset (odr s) p (Z.land v 15)) s in
  set_low v s.
(** i8048.src/port.cc:421-440 orl, i8048.src/port.cc:442-461 anl *)
Definition pext_orl (p v : Z) (s : cpu) : cpu := pext_out p (Z.lor (Z.land v 15) (odr s p)) s.
Definition pext_anl (p v : Z) (s : cpu) : cpu := pext_out p (Z.land (Z.land v 15) (odr s p)) s.
(** i8048.src/port.cc:88-95 cl_qport::read, i8048.src/port.cc:202-212 cl_p2::read *)
Definition rd_port (p : Z) (s : cpu) : Z :=
  if p =? 1 then Z.land (p1 s) (i1 s) else Z.land (p2 s) (i2 s).
(** i8048.src/port.cc:97-102 cl_qport::write, and the cell of the ports memory *)
Definition wr_port (p v : Z) (s : cpu) : cpu := if p =? 1 then set_p1 (u8 v) s else set_p2 (u8 v) s.
(** i8048.src/port.cc:137-141 get_odr *)
Definition get_odr (p : Z) (s : cpu) : Z := if p =? 1 then p1 s else p2 s.

Definition b1 (v m : Z) : bool := negb (Z.land v m =? 0).
Definition lopf (k : lop) : Z -> Z -> Z := match k with kORL => Z.lor | kANL => Z.land | kXRL => Z.lxor end.
(** a source operand *)
Definition get (h : chip) (jk : Z) (x : src) (s : cpu) : Z * cpu :=
  match x with SI => fetch h s | SL l => (rd h jk l s, s) end.

(** the methods: i8020cl.h:182-400 NOP, i8048cl.h:69-101 ENT0CLK; exec of an instruction whose code was fetched,
    [ipc] its address *)
Definition exec (h : chip) (jk ipc code : Z) (o : op) (s : cpu) : cpu :=
  match o with
  | NOP | ENT0CLK | Invalid | NoMethod => s
  | ADD cy x => let (v, s) := get h jk x s in add v cy s
  | LOG k x => let (v, s) := get h jk x s in wA (lopf k (A s) v) s
  | MOVA x => let (v, s) := get h jk x s in wA v s
  | MOVLA l => wr h l (A s) s
  | MOVLI l => let (v, s) := fetch h s in wr h l v s
  | INC l => wr h l (rd h jk l s + 1) s
  | DEC l => wr h l (rd h jk l s - 1) s
  (* i8048.src/move.cc:52-59 xch *)
  | XCH l => let t := A s in wr h l t (wA (rd h jk l s) s)
  (* i8048.src/move.cc:61-69 xchd *)
  | XCHD n =>
      let o := rd h jk (Li n) s in
      let a := A s in
      wr h (Li n) (Z.lor (Z.land o 240) (Z.land a 15)) (wA (Z.lor (Z.land a 240) (Z.land o 15)) s)
  | INCA => wA (A s + 1) s
  | DECA => wA (A s - 1) s
  | CLRA => wA 0 s
  | CPLA => wA (Z.lnot (A s)) s
  | SWAPA => wA (Z.lor (Z.shiftr (A s) 4) (Z.shiftl (Z.land (A s) 15) 4)) s
  | DAA => daa s
  | RR => rr s | RL => rl s | RRC => rrc s | RLC => rlc s
  | CLRC => wF (Z.land (psw s) 127) s
  | CPLC => wF (Z.lxor (psw s) 128) s
  | CLRF0 => wF (Z.land (psw s) 223) s
  | CPLF0 => wF (Z.lxor (psw s) 32) s
  | CLRF1 => set_f1 0 s
  | CPLF1 => set_f1 (Z.land (Z.lxor (f1 s) 1) 1) s
  | MOVAF => wA (psw s) s
  | MOVFA => wF (A s) s
  | SELRB b => wF (if b then Z.lor (psw s) 16 else Z.land (psw s) 239) s
  | SELMB v => set_mb v s
  (* i8048.cc:232-237 movxrd, i8048.cc:239-244 movxwr *)
  | MOVXA n => let a := R n s in let s := latch a s in wA (xram s a) s
  | MOVXM n => let a := R n s in latch (A s) (set_xram (fset (xram s) a (A s)) s)
  (* i8048.src/move.cc:79-87 movp, i8048.src/move.cc:90-98 movp3 *)
  | MOVP => let a := Z.lor (Z.land (PC s) 3840) (A s) in
            let s := wA (rom h a) s in if inner h <=? a then latch a s else s
  | MOVP3 => let a := Z.lor (Z.land (PC s) 2048) (768 + A s) in
             let s := wA (rom h a) s in if inner h <=? a then latch a s else s
  | JMP => let (a, s) := target h code s in set_PC a s
  (* i8048.cc:264-273 cl_i8048::call *)
  | CALL => let (a, s) := target h code s in set_PC a (push h ipc true s)
  | RET => pop h jk false s
  (* i8048.cc:414-420 RETR *)
  | RETR => pop h jk true (set_isr false s)
  (* i8048.src/branch.cc:151-157 JMPPIA *)
  | JMPP => let pg := Z.land (PC s) 3840 in set_PC (Z.lor pg (rom h (Z.lor pg (A s)))) s
  | DJNZ => djnz h code s
  (* i8048.src/branch.cc:53-63 jb *)
  | JB => jif h (b1 (A s) (Z.shiftl 1 (Z.land (Z.shiftr code 5) 7))) s
  (* i8048.src/timer.cc:260-266 JTF *)
  | JTF => set_tfl false (jif h (tfl s) s)
  | JNT0 => jif h (negb (t0 s)) s
  | JT0 => jif h (t0 s) s
  | JNT1 => jif h (negb (t1 s)) s
  | JT1 => jif h (t1 s) s
  | JF0 => jif h (b1 (psw s) 32) s
  | JF1 => jif h (negb (f1 s =? 0)) s
  | JNI => jif h (negb (int s)) s
  | JNZ => jif h (negb (A s =? 0)) s
  | JZ => jif h (A s =? 0) s
  | JNC => jif h (negb (b1 (psw s) 128)) s
  | JC => jif h (b1 (psw s) 128) s
  (* i8048.src/inst.cc:39-45 ENI, i8048.src/inst.cc:31-37 DISI *)
  | ENI => set_ene 1 s
  | DISI => set_ene 0 s
  (* i8048.src/timer.cc:222-227 ENTCNTI, i8048.src/timer.cc:245-257 DISTCNTI *)
  | ENTCNTI => set_ien 1 s
  | DISTCNTI => set_irq 0 (set_ovf false (set_ien 0 s))
  (* i8048.src/timer.cc:273-278 MOVAT, i8048.src/timer.cc:280-285 MOVTA *)
  | MOVAT => wA (tmr s) s
  | MOVTA => set_tmr (Z.land (A s) 255) s
  (* i8048.src/timer.cc:282-301 STRTCNT *)
  | STRTCNT => set_tmode 1 s
  | STRTT => set_tmode 2 s
  | STOPTCNT => set_tmode 0 s
  (* i8048.cc:345-357 OUTLB *)
  | OUTLB => latch (A s) s
  | INS => wA (busin s) s
  (* bus.cc:104-115 orl *)
  | ORLB => let (v, s) := fetch h s in latch (Z.lor (busout s) v) s
  | ANLB => let (v, s) := fetch h s in latch (Z.land (busout s) v) s
  (* i8048.src/move.cc:31-39 in, i8048.src/move.cc:41-49 out *)
  | INP p => wA (rd_port p s) s
  | OUTL p => wr_port p (A s) s
  (* i8048.cc:360-415 ORLP1I8 *)
  | ORLP p => let (v, s) := fetch h s in wr_port p (Z.lor (get_odr p s) v) s
  | ANLP p => let (v, s) := fetch h s in wr_port p (Z.land (get_odr p s) v) s
  | MOVDA p => let (v, s) := pext_in p s in wA v s
  | MOVDP p => pext_out p (A s) s
  (* i8020cl.h:282-289 ORLDP4A: the port is 4 + (code >> 6); i8048.src/arith.cc:144-157 orld *)
  | ORLD => pext_orl (4 + Z.shiftr code 6) (Z.land (A s) 15) s
  | ANLD => pext_anl (4 + Z.shiftr code 6) (Z.land (A s) 15) s
  end.

(** ** One instruction *)
Inductive result := GO | NOT_DONE | INV.
(** uc.cc:3353-3373 exec_inst_uctab, and uc.cc:3244-3275 do_inst up to post_inst: an invalid instruction and
    one not done leave PC at the instruction; returns also the clock ticks of the instruction *)
Definition exec_inst (h : chip) (jk : Z) (s : cpu) : result * Z * cpu :=
  let ipc := PC s in
  let (c, s) := fetch h s in
  let o := nth (Z.to_nat c) itab Invalid in
  let t := nth (Z.to_nat c) tick_tab20 0 in
  match o with
  | Invalid => (INV, t, set_PC ipc s)
  | NoMethod => (NOT_DONE, t, set_PC ipc s)
  | _ => (GO, t, exec h jk ipc c o s)
  end.

(** ** Timer *)
(** i8048.src/timer.cc:140-146 do_overflow *)
Definition do_overflow (s : cpu) : cpu :=
  let s := set_tfl true s in if ien s =? 0 then s else set_ovf true s.
(** i8048.src/timer.cc:113-123 do_timer *)
Definition do_timer (c : Z) (s : cpu) : cpu :=
  let t := tmr s + c in
  let s := if 255 <? t then do_overflow s else s in
  set_tmr (Z.land t 255) s.
(** i8048.src/timer.cc:125-138 do_counter *)
Definition do_counter (c : Z) (s : cpu) : cpu := if mode s =? 1 then do_timer c s else s.
(** i8048.src/timer.cc:83-111 cl_timer::tick, for one clock tick *)
Definition tick1 (s : cpu) : cpu :=
  let q := pre16 s + 1 in
  let c := q / 16 in
  let s := set_pre16 q s in
  let '(c, s) := if c =? 0 then (c, s) else
                   let p := pre s + c in
                   let s := set_pre16 (q mod 16) s in
                   let c := p / 32 in
                   (c, set_pre (if c =? 0 then p else p mod 32) s) in
  if mode s =? 2 then do_timer c s else s.
(** uc.cc:3027-3050 tick_hw *)
Fixpoint tick_hw (n : nat) (s : cpu) : cpu := match n with O => s | S n => tick_hw n (tick1 s) end.

(** ** Interrupts *)
(** i8048.cc:275-284 accept_it *)
Definition accept_it (h : chip) (ipc a : Z) (s : cpu) : cpu := set_PC a (push h ipc true (set_isr true s)).
(** uc.cc:3427-3487 do_interrupt with the sources of i8048.cc:152-187 make_irq_sources: the low level of the INT pin;
    the request of the timer, which is cleared *)
Definition do_interrupt (h : chip) (ipc : Z) (s : cpu) : cpu :=
  if isr s then s
  else if (Z.land (ene s) 1 =? 1) && negb (int s) then accept_it h ipc 3 s
  else if (Z.land (ien s) 1 =? 1) && (Z.land (irq s) 1 =? 1) then accept_it h ipc 7 (set_irq 0 s)
  else s.

(** uc.cc:3244-3275 do_inst, uc.cc:3376-3387 post_inst *)
Definition do_inst (h : chip) (jk : Z) (s : cpu) : result * cpu :=
  let ipc := PC s in
  let '(r, t, s) := exec_inst h jk s in
  let s := set_PC (Z.land (PC s) 4095) s in
  let s := set_ticks (ticks s + t) (tick_hw (Z.to_nat t) s) in
  (r, match r with INV => s | _ => do_interrupt h ipc s end).

(** ** Input pins, reset *)
Inductive ev := Step (jk : Z) | PinT0 (v : Z) | PinT1 (v : Z) | PinINT (v : Z) | PinP (p v : Z) | PinBus (v : Z) | PinE (p v : Z).
(** i8020.cc:832-880 conf_op of T1: the cell is set before its old value is compared *)
Definition pin_t1 (v : Z) (s : cpu) : cpu :=
  let cell := u32 v in
  let v1 := if u32 v =? 0 then 0 else 1 in
  let s := set_t1 (negb (v1 =? 0)) s in
  if negb (cell =? 0) && (v1 =? 0) then do_counter 1 s else s.
Definition happen (h : chip) (e : ev) (s : cpu) : cpu :=
  match e with
  | Step jk => snd (do_inst h jk s)
  (* i8020.cc:832-880 conf_op *)
  | PinT0 v => set_t0 (negb (u32 v =? 0)) s
  | PinT1 v => pin_t1 v s
  (* i8048.cc:455-477 conf_op *)
  | PinINT v => set_int (negb (u32 v =? 0)) s
  (* i8048.src/port.cc:104-135 conf_op, port_pin *)
  | PinP p v => if p =? 1 then set_i1 (Z.land v 255) s else set_i2 (Z.land v 255) s
  (* bus.cc:75-96 conf_op *)
  | PinBus v => set_busin (Z.land v 255) s
  (* i8048.src/port.cc:331-382 conf_op *)
  | PinE p v => set_epin (fset (epin s) p (Z.land v 15)) s
  end.
Definition run (h : chip) (es : list ev) (s : cpu) : cpu := fold_left (fun s e => happen h e s) es s.

(** i8020.cc:566-587 cl_i8020::reset, i8048.cc:87-92 reset, i8048.src/timer.cc:59-68 cl_timer::reset, ints.cc:73-77 cl_ints::reset,
    i8048.src/port.cc:273-280 cl_pext::reset, i8020.cc:827-834 cl_i8020_cpu::reset *)
Definition reset (s : cpu) : cpu :=
  let s := set_isr false (set_PC 0 s) in
  let s := set_f1 0 (set_mb 0 (wF 0 s)) in
  let s := set_p2 255 (set_p1 255 s) in
  let s := set_mode 0 (set_tmr 0 (set_pre16 0 (set_pre 0 s))) in
  let s := set_irq 0 (set_tfl false (set_ovf false (set_ien 0 s))) in
  let s := set_int true (set_t1 true (set_t0 true (set_ene 0 s))) in
  set_dir (fun k => if (4 <=? k) && (k <=? 7) then 0 else dir s k) s.
