(** The Z80 processor (z80.src, type CPU_Z80): all instruction codes, also those behind the
    prefixes CB, ED, DD, FD, DD CB and FD CB.  [dum] is what is read outside of the 64K
    memory (the dummy cell); writing there does nothing.
    Not modelled: Z180, eZ80, Z80N, R800 and LR35902, the access counters vc.rd and vc.wr,
    hardware attached to memory and ports, the flag [repeating] that is not used. *)
From Verif Require Import Base.

(** regsz80.h:53-98 t_regs: the registers B, C, D, E, H, L, A are [rg] 0, 1, 2, 3, 4, 5, 7, and
    [arg] the alternate ones; z80cl.h:52-66 imode, iblock, cond_true, IFF1, IFF2; inputs and
    outputs as address spaces; the clock cycles counted (uc.cc:3057-3081 cl_uc::tick), and the
    stack overflow errors reported, as instruction address, SP before, SP *)
Record cpu := mkC { rg : Z -> Z; F : Z; IX : Z; IY : Z; SP : Z; PC : Z; mem : Z -> Z; arg : Z -> Z; aF : Z; iv : Z; rr : Z; iff1 : bool; iff2 : bool; im : Z; ib : bool; inp : Z -> Z; outp : Z -> Z; ct : bool; ticks : Z; errs : list (Z * Z * Z) }.
Definition set_rg (v : Z -> Z) (s : cpu) : cpu := mkC v (F s) (IX s) (IY s) (SP s) (PC s) (mem s) (arg s) (aF s) (iv s) (rr s) (iff1 s) (iff2 s) (im s) (ib s) (inp s) (outp s) (ct s) (ticks s) (errs s).
Definition set_F (v : Z) (s : cpu) : cpu := mkC (rg s) v (IX s) (IY s) (SP s) (PC s) (mem s) (arg s) (aF s) (iv s) (rr s) (iff1 s) (iff2 s) (im s) (ib s) (inp s) (outp s) (ct s) (ticks s) (errs s).
Definition set_IX (v : Z) (s : cpu) : cpu := mkC (rg s) (F s) v (IY s) (SP s) (PC s) (mem s) (arg s) (aF s) (iv s) (rr s) (iff1 s) (iff2 s) (im s) (ib s) (inp s) (outp s) (ct s) (ticks s) (errs s).
Definition set_IY (v : Z) (s : cpu) : cpu := mkC (rg s) (F s) (IX s) v (SP s) (PC s) (mem s) (arg s) (aF s) (iv s) (rr s) (iff1 s) (iff2 s) (im s) (ib s) (inp s) (outp s) (ct s) (ticks s) (errs s).
Definition set_SP (v : Z) (s : cpu) : cpu := mkC (rg s) (F s) (IX s) (IY s) v (PC s) (mem s) (arg s) (aF s) (iv s) (rr s) (iff1 s) (iff2 s) (im s) (ib s) (inp s) (outp s) (ct s) (ticks s) (errs s).
Definition set_PC (v : Z) (s : cpu) : cpu := mkC (rg s) (F s) (IX s) (IY s) (SP s) v (mem s) (arg s) (aF s) (iv s) (rr s) (iff1 s) (iff2 s) (im s) (ib s) (inp s) (outp s) (ct s) (ticks s) (errs s).
Definition set_mem (v : Z -> Z) (s : cpu) : cpu := mkC (rg s) (F s) (IX s) (IY s) (SP s) (PC s) v (arg s) (aF s) (iv s) (rr s) (iff1 s) (iff2 s) (im s) (ib s) (inp s) (outp s) (ct s) (ticks s) (errs s).
Definition set_arg (v : Z -> Z) (s : cpu) : cpu := mkC (rg s) (F s) (IX s) (IY s) (SP s) (PC s) (mem s) v (aF s) (iv s) (rr s) (iff1 s) (iff2 s) (im s) (ib s) (inp s) (outp s) (ct s) (ticks s) (errs s).
Definition set_aF (v : Z) (s : cpu) : cpu := mkC (rg s) (F s) (IX s) (IY s) (SP s) (PC s) (mem s) (arg s) v (iv s) (rr s) (iff1 s) (iff2 s) (im s) (ib s) (inp s) (outp s) (ct s) (ticks s) (errs s).
Definition set_iv (v : Z) (s : cpu) : cpu := mkC (rg s) (F s) (IX s) (IY s) (SP s) (PC s) (mem s) (arg s) (aF s) v (rr s) (iff1 s) (iff2 s) (im s) (ib s) (inp s) (outp s) (ct s) (ticks s) (errs s).
Definition set_rr (v : Z) (s : cpu) : cpu := mkC (rg s) (F s) (IX s) (IY s) (SP s) (PC s) (mem s) (arg s) (aF s) (iv s) v (iff1 s) (iff2 s) (im s) (ib s) (inp s) (outp s) (ct s) (ticks s) (errs s).
Definition set_iff1 (v : bool) (s : cpu) : cpu := mkC (rg s) (F s) (IX s) (IY s) (SP s) (PC s) (mem s) (arg s) (aF s) (iv s) (rr s) v (iff2 s) (im s) (ib s) (inp s) (outp s) (ct s) (ticks s) (errs s).
Definition set_iff2 (v : bool) (s : cpu) : cpu := mkC (rg s) (F s) (IX s) (IY s) (SP s) (PC s) (mem s) (arg s) (aF s) (iv s) (rr s) (iff1 s) v (im s) (ib s) (inp s) (outp s) (ct s) (ticks s) (errs s).
Definition set_im (v : Z) (s : cpu) : cpu := mkC (rg s) (F s) (IX s) (IY s) (SP s) (PC s) (mem s) (arg s) (aF s) (iv s) (rr s) (iff1 s) (iff2 s) v (ib s) (inp s) (outp s) (ct s) (ticks s) (errs s).
Definition set_ib (v : bool) (s : cpu) : cpu := mkC (rg s) (F s) (IX s) (IY s) (SP s) (PC s) (mem s) (arg s) (aF s) (iv s) (rr s) (iff1 s) (iff2 s) (im s) v (inp s) (outp s) (ct s) (ticks s) (errs s).
Definition set_inp (v : Z -> Z) (s : cpu) : cpu := mkC (rg s) (F s) (IX s) (IY s) (SP s) (PC s) (mem s) (arg s) (aF s) (iv s) (rr s) (iff1 s) (iff2 s) (im s) (ib s) v (outp s) (ct s) (ticks s) (errs s).
Definition set_outp (v : Z -> Z) (s : cpu) : cpu := mkC (rg s) (F s) (IX s) (IY s) (SP s) (PC s) (mem s) (arg s) (aF s) (iv s) (rr s) (iff1 s) (iff2 s) (im s) (ib s) (inp s) v (ct s) (ticks s) (errs s).
Definition set_ct (v : bool) (s : cpu) : cpu := mkC (rg s) (F s) (IX s) (IY s) (SP s) (PC s) (mem s) (arg s) (aF s) (iv s) (rr s) (iff1 s) (iff2 s) (im s) (ib s) (inp s) (outp s) v (ticks s) (errs s).
Definition set_ticks (v : Z) (s : cpu) : cpu := mkC (rg s) (F s) (IX s) (IY s) (SP s) (PC s) (mem s) (arg s) (aF s) (iv s) (rr s) (iff1 s) (iff2 s) (im s) (ib s) (inp s) (outp s) (ct s) v (errs s).
Definition set_errs (v : list (Z * Z * Z)) (s : cpu) : cpu := mkC (rg s) (F s) (IX s) (IY s) (SP s) (PC s) (mem s) (arg s) (aF s) (iv s) (rr s) (iff1 s) (iff2 s) (im s) (ib s) (inp s) (outp s) (ct s) (ticks s) v.

(** ** Instructions *)
(** operands of a byte: a register, (HL), the halves of IX or IY, (IX+d) or (IY+d), a byte in
    the program *)
Inductive loc := LR (n : Z) | LHL | LXH | LXL | LXD | LN.
(** 16 bit registers; [XX] is IX or IY *)
Inductive rp := BC | DE | HL | RSP | XX.
Inductive alu := ADD | ADC | SUB | SBC | AND | XOR | OR | CP.
(** [None]: unconditional; conditions 0 NZ, 1 Z, 2 NC, 3 C, 4 PO, 5 PE, 6 P, 7 M *)
Inductive op :=
| NOP | HALT | DI | EI | LD (d s : loc) | LDi (p : rp) | STp (p : rp) | LDp (p : rp) | STAp (p : rp) | LDAp (p : rp)
| STA | LDA | LDSP (p : rp) | PUSH (p : rp) | POP (p : rp) | PUSHAF | POPAF | EXAF | EXX | EXDEHL | EXSP (p : rp)
| INC (l : loc) | DEC (l : loc) | ALU (k : alu) (l : loc) | INCp (p : rp) | DECp (p : rp) | ADDp (d s : rp)
| RLCA | RRCA | RLA | RRA | DAA | CPL | SCF | CCF
| DJNZ | JR (c : option Z) | JP (c : option Z) | JPp (p : rp) | CALL (c : option Z) | RET (c : option Z) | RST (n : Z)
| OUT | IN | PCB | PXD (iy : bool) | PED | PXCB | INV
| INrC (r : Z) | OUTC (r : Z) | SBCp (p : rp) | ADCp (p : rp) | NEG | RETN | IM (n : Z)
| LDIA | LDRA | LDAI | LDAR | RRD | RLD
| LDI | LDD | LDIR | LDDR | CPI | CPD | CPIR | CPDR | INI | IND | INIR | INDR | OUTI | OUTD | OTIR | OTDR.

(** z80.cc:640-839 cl_z80::exec_inst and the functions it calls (z80.src/inst.cc:61-1782 inst_ld, inst_inc, inst_jp, ...) *)
Definition tab_00 : list op :=
  [
   NOP; LDi BC; STAp BC; INCp BC; INC (LR 0); DEC (LR 0); LD (LR 0) LN; RLCA; EXAF; ADDp HL BC; LDAp BC; DECp BC; INC (LR 1); DEC (LR 1); LD (LR 1) LN; RRCA;
   DJNZ; LDi DE; STAp DE; INCp DE; INC (LR 2); DEC (LR 2); LD (LR 2) LN; RLA; JR None; ADDp HL DE; LDAp DE; DECp DE; INC (LR 3); DEC (LR 3); LD (LR 3) LN; RRA;
   JR (Some 0); LDi HL; STp HL; INCp HL; INC (LR 4); DEC (LR 4); LD (LR 4) LN; DAA; JR (Some 1); ADDp HL HL; LDp HL; DECp HL; INC (LR 5); DEC (LR 5); LD (LR 5) LN; CPL;
   JR (Some 2); LDi RSP; STA; INCp RSP; INC (LHL); DEC (LHL); LD (LHL) LN; SCF; JR (Some 3); ADDp HL RSP; LDA; DECp RSP; INC (LR 7); DEC (LR 7); LD (LR 7) LN; CCF;
   NOP; LD (LR 0) (LR 1); LD (LR 0) (LR 2); LD (LR 0) (LR 3); LD (LR 0) (LR 4); LD (LR 0) (LR 5); LD (LR 0) (LHL); LD (LR 0) (LR 7); LD (LR 1) (LR 0); NOP; LD (LR 1) (LR 2); LD (LR 1) (LR 3); LD (LR 1) (LR 4); LD (LR 1) (LR 5); LD (LR 1) (LHL); LD (LR 1) (LR 7);
   LD (LR 2) (LR 0); LD (LR 2) (LR 1); NOP; LD (LR 2) (LR 3); LD (LR 2) (LR 4); LD (LR 2) (LR 5); LD (LR 2) (LHL); LD (LR 2) (LR 7); LD (LR 3) (LR 0); LD (LR 3) (LR 1); LD (LR 3) (LR 2); NOP; LD (LR 3) (LR 4); LD (LR 3) (LR 5); LD (LR 3) (LHL); LD (LR 3) (LR 7);
   LD (LR 4) (LR 0); LD (LR 4) (LR 1); LD (LR 4) (LR 2); LD (LR 4) (LR 3); NOP; LD (LR 4) (LR 5); LD (LR 4) (LHL); LD (LR 4) (LR 7); LD (LR 5) (LR 0); LD (LR 5) (LR 1); LD (LR 5) (LR 2); LD (LR 5) (LR 3); LD (LR 5) (LR 4); NOP; LD (LR 5) (LHL); LD (LR 5) (LR 7);
   LD (LHL) (LR 0); LD (LHL) (LR 1); LD (LHL) (LR 2); LD (LHL) (LR 3); LD (LHL) (LR 4); LD (LHL) (LR 5); HALT; LD (LHL) (LR 7); LD (LR 7) (LR 0); LD (LR 7) (LR 1); LD (LR 7) (LR 2); LD (LR 7) (LR 3); LD (LR 7) (LR 4); LD (LR 7) (LR 5); LD (LR 7) (LHL); NOP;
   ALU ADD (LR 0); ALU ADD (LR 1); ALU ADD (LR 2); ALU ADD (LR 3); ALU ADD (LR 4); ALU ADD (LR 5); ALU ADD (LHL); ALU ADD (LR 7); ALU ADC (LR 0); ALU ADC (LR 1); ALU ADC (LR 2); ALU ADC (LR 3); ALU ADC (LR 4); ALU ADC (LR 5); ALU ADC (LHL); ALU ADC (LR 7);
   ALU SUB (LR 0); ALU SUB (LR 1); ALU SUB (LR 2); ALU SUB (LR 3); ALU SUB (LR 4); ALU SUB (LR 5); ALU SUB (LHL); ALU SUB (LR 7); ALU SBC (LR 0); ALU SBC (LR 1); ALU SBC (LR 2); ALU SBC (LR 3); ALU SBC (LR 4); ALU SBC (LR 5); ALU SBC (LHL); ALU SBC (LR 7);
   ALU AND (LR 0); ALU AND (LR 1); ALU AND (LR 2); ALU AND (LR 3); ALU AND (LR 4); ALU AND (LR 5); ALU AND (LHL); ALU AND (LR 7); ALU XOR (LR 0); ALU XOR (LR 1); ALU XOR (LR 2); ALU XOR (LR 3); ALU XOR (LR 4); ALU XOR (LR 5); ALU XOR (LHL); ALU XOR (LR 7);
   ALU OR (LR 0); ALU OR (LR 1); ALU OR (LR 2); ALU OR (LR 3); ALU OR (LR 4); ALU OR (LR 5); ALU OR (LHL); ALU OR (LR 7); ALU CP (LR 0); ALU CP (LR 1); ALU CP (LR 2); ALU CP (LR 3); ALU CP (LR 4); ALU CP (LR 5); ALU CP (LHL); ALU CP (LR 7);
   RET (Some 0); POP BC; JP (Some 0); JP None; CALL (Some 0); PUSH BC; ALU ADD LN; RST 0; RET (Some 1); RET None; JP (Some 1); PCB; CALL (Some 1); CALL None; ALU ADC LN; RST 8;
   RET (Some 2); POP DE; JP (Some 2); OUT; CALL (Some 2); PUSH DE; ALU SUB LN; RST 16; RET (Some 3); EXX; JP (Some 3); IN; CALL (Some 3); PXD false; ALU SBC LN; RST 24;
   RET (Some 4); POP HL; JP (Some 4); EXSP HL; CALL (Some 4); PUSH HL; ALU AND LN; RST 32; RET (Some 5); JPp HL; JP (Some 5); EXDEHL; CALL (Some 5); PED; ALU XOR LN; RST 40;
   RET (Some 6); POPAF; JP (Some 6); DI; CALL (Some 6); PUSHAF; ALU OR LN; RST 48; RET (Some 7); LDSP HL; JP (Some 7); EI; CALL (Some 7); PXD true; ALU CP LN; RST 56
  ].

(** inst_xd.cc:496-651 inst_Xd and the functions it calls *)
Definition tab_xd : list op :=
  [
   INV; INV; INV; INV; INV; INV; INV; INV; INV; ADDp XX BC; INV; INV; INV; INV; INV; INV;
   INV; INV; INV; INV; INV; INV; INV; INV; INV; ADDp XX DE; INV; INV; INV; INV; INV; INV;
   INV; LDi XX; STp XX; INCp XX; INC LXH; DEC LXH; LD LXH LN; INV; INV; ADDp XX XX; LDp XX; DECp XX; INC LXL; DEC LXL; LD LXL LN; INV;
   INV; INV; INV; INV; INC LXD; DEC LXD; LD LXD LN; INV; INV; ADDp XX RSP; INV; INV; INV; INV; INV; INV;
   INV; INV; INV; INV; LD (LR 0) (LXH); LD (LR 0) (LXL); LD (LR 0) LXD; INV; INV; INV; INV; INV; LD (LR 1) (LXH); LD (LR 1) (LXL); LD (LR 1) LXD; INV;
   INV; INV; INV; INV; LD (LR 2) (LXH); LD (LR 2) (LXL); LD (LR 2) LXD; INV; INV; INV; INV; INV; LD (LR 3) (LXH); LD (LR 3) (LXL); LD (LR 3) LXD; INV;
   LD (LXH) (LR 0); LD (LXH) (LR 1); LD (LXH) (LR 2); LD (LXH) (LR 3); NOP; LD (LXH) (LXL); LD (LR 4) LXD; LD (LXH) (LR 7); LD (LXL) (LR 0); LD (LXL) (LR 1); LD (LXL) (LR 2); LD (LXL) (LR 3); LD (LXL) (LXH); NOP; LD (LR 5) LXD; LD (LXL) (LR 7);
   LD LXD (LR 0); LD LXD (LR 1); LD LXD (LR 2); LD LXD (LR 3); LD LXD (LR 4); LD LXD (LR 5); INV; LD LXD (LR 7); INV; INV; INV; INV; LD (LR 7) (LXH); LD (LR 7) (LXL); LD (LR 7) LXD; INV;
   INV; INV; INV; INV; ALU ADD (LXH); ALU ADD (LXL); ALU ADD (LXD); INV; INV; INV; INV; INV; ALU ADC (LXH); ALU ADC (LXL); ALU ADC (LXD); INV;
   INV; INV; INV; INV; ALU SUB (LXH); ALU SUB (LXL); ALU SUB (LXD); INV; INV; INV; INV; INV; ALU SBC (LXH); ALU SBC (LXL); ALU SBC (LXD); INV;
   INV; INV; INV; INV; ALU AND (LXH); ALU AND (LXL); ALU AND (LXD); INV; INV; INV; INV; INV; ALU XOR (LXH); ALU XOR (LXL); ALU XOR (LXD); INV;
   INV; INV; INV; INV; ALU OR (LXH); ALU OR (LXL); ALU OR (LXD); INV; INV; INV; INV; INV; ALU CP (LXH); ALU CP (LXL); ALU CP (LXD); INV;
   INV; INV; INV; INV; INV; INV; INV; INV; INV; INV; INV; PXCB; INV; INV; INV; INV;
   INV; INV; INV; INV; INV; INV; INV; INV; INV; INV; INV; INV; INV; INV; INV; INV;
   INV; POP XX; INV; EXSP XX; INV; PUSH XX; INV; INV; INV; JPp XX; INV; INV; INV; INV; INV; INV;
   INV; INV; INV; INV; INV; INV; INV; INV; INV; LDSP XX; INV; INV; INV; INV; INV; INV
  ].

(** inst_ed.cc:44-732 cl_z80::inst_ed_ for a Z80 *)
Definition tab_ed : list op :=
  [
   INV; INV; INV; INV; INV; INV; INV; INV; INV; INV; INV; INV; INV; INV; INV; INV;
   INV; INV; INV; INV; INV; INV; INV; INV; INV; INV; INV; INV; INV; INV; INV; INV;
   INV; INV; INV; INV; INV; INV; INV; INV; INV; INV; INV; INV; INV; INV; INV; INV;
   INV; INV; INV; INV; INV; INV; INV; INV; INV; INV; INV; INV; INV; INV; INV; INV;
   INrC 0; OUTC 0; SBCp BC; STp BC; NEG; RETN; IM 0; LDIA; INrC 1; OUTC 1; ADCp BC; LDp BC; INV; RETN; INV; LDRA;
   INrC 2; OUTC 2; SBCp DE; STp DE; INV; INV; IM 1; LDAI; INrC 3; OUTC 3; ADCp DE; LDp DE; INV; INV; IM 2; LDAR;
   INrC 4; OUTC 4; SBCp HL; STp HL; INV; INV; INV; RRD; INrC 5; OUTC 5; ADCp HL; LDp HL; INV; INV; INV; RLD;
   INrC 6; OUTC 6; SBCp RSP; STp RSP; INV; INV; INV; INV; INrC 7; OUTC 7; ADCp RSP; LDp RSP; INV; INV; INV; INV;
   INV; INV; INV; INV; INV; INV; INV; INV; INV; INV; INV; INV; INV; INV; INV; INV;
   INV; INV; INV; INV; INV; INV; INV; INV; INV; INV; INV; INV; INV; INV; INV; INV;
   LDI; CPI; INI; OUTI; INV; INV; INV; INV; LDD; CPD; IND; OUTD; INV; INV; INV; INV;
   LDIR; CPIR; INIR; OTIR; INV; INV; INV; INV; LDDR; CPDR; INDR; OTDR; INV; INV; INV; INV;
   INV; INV; INV; INV; INV; INV; INV; INV; INV; INV; INV; INV; INV; INV; INV; INV;
   INV; INV; INV; INV; INV; INV; INV; INV; INV; INV; INV; INV; INV; INV; INV; INV;
   INV; INV; INV; INV; INV; INV; INV; INV; INV; INV; INV; INV; INV; INV; INV; INV;
   INV; INV; INV; INV; INV; INV; INV; INV; INV; INV; INV; INV; INV; INV; INV; INV
  ].

(** z80.src/glob.cc:1316-1336 z80_ttab_00 *)
Definition ttab_00 : list Z :=
  [
   4; 10; 7; 6; 4; 4; 7; 4; 4; 11; 7; 6; 4; 4; 7; 4;
   3336; 10; 7; 6; 4; 4; 7; 4; 12; 11; 7; 6; 4; 4; 7; 4;
   3079; 10; 16; 6; 4; 4; 7; 4; 3079; 11; 16; 6; 4; 4; 7; 4;
   3079; 10; 13; 6; 7; 7; 10; 4; 3079; 11; 13; 6; 4; 4; 7; 4;
   4; 4; 4; 4; 4; 4; 7; 4; 4; 4; 4; 4; 4; 4; 7; 4;
   4; 4; 4; 4; 4; 4; 7; 4; 4; 4; 4; 4; 4; 4; 7; 4;
   4; 4; 4; 4; 4; 4; 7; 4; 4; 4; 4; 4; 4; 4; 7; 4;
   7; 7; 7; 7; 7; 7; 4; 7; 4; 4; 4; 4; 4; 4; 7; 4;
   4; 4; 4; 4; 4; 4; 7; 4; 4; 4; 4; 4; 4; 4; 7; 4;
   4; 4; 4; 4; 4; 4; 7; 4; 4; 4; 4; 4; 4; 4; 7; 4;
   4; 4; 4; 4; 4; 4; 7; 4; 4; 4; 4; 4; 4; 4; 7; 4;
   4; 4; 4; 4; 4; 4; 7; 4; 4; 4; 4; 4; 4; 4; 7; 4;
   2821; 10; 10; 10; 4362; 11; 7; 11; 2821; 10; 10; 0; 4362; 17; 7; 11;
   2821; 10; 10; 11; 4362; 11; 7; 11; 2821; 4; 10; 11; 4362; 0; 7; 11;
   2821; 10; 10; 19; 4362; 11; 7; 11; 2821; 4; 10; 4; 4362; 0; 7; 11;
   2821; 10; 10; 4; 4362; 11; 7; 11; 2821; 6; 10; 4; 4362; 0; 7; 11
  ].

(** z80.src/glob.cc:1338-1363 z80_ttab_ed *)
Definition ttab_ed : list Z :=
  [
   0; 0; 0; 0; 0; 0; 0; 0; 0; 0; 0; 0; 0; 0; 0; 0;
   0; 0; 0; 0; 0; 0; 0; 0; 0; 0; 0; 0; 0; 0; 0; 0;
   0; 0; 0; 0; 0; 0; 0; 0; 0; 0; 0; 0; 0; 0; 0; 0;
   0; 0; 0; 0; 0; 0; 0; 0; 0; 0; 0; 0; 0; 0; 0; 0;
   12; 12; 15; 20; 8; 14; 8; 9; 12; 12; 15; 20; 0; 14; 0; 9;
   12; 12; 15; 20; 0; 0; 8; 9; 12; 1; 15; 20; 0; 0; 8; 9;
   12; 12; 15; 20; 0; 0; 0; 18; 12; 12; 15; 20; 0; 0; 0; 18;
   12; 12; 15; 20; 0; 0; 0; 0; 12; 12; 15; 20; 0; 0; 0; 0;
   0; 0; 0; 0; 0; 0; 0; 0; 0; 0; 0; 0; 0; 0; 0; 0;
   0; 0; 0; 0; 0; 0; 0; 0; 0; 0; 0; 0; 0; 0; 0; 0;
   16; 16; 16; 16; 0; 0; 0; 0; 16; 16; 16; 16; 0; 0; 0; 0;
   5392; 5392; 5392; 5392; 0; 0; 0; 0; 5392; 5392; 5392; 5392; 0; 0; 0; 0;
   0; 0; 0; 0; 0; 0; 0; 0; 0; 0; 0; 0; 0; 0; 0; 0;
   0; 0; 0; 0; 0; 0; 0; 0; 0; 0; 0; 0; 0; 0; 0; 0;
   0; 0; 0; 0; 0; 0; 0; 0; 0; 0; 0; 0; 0; 0; 0; 0;
   0; 0; 0; 0; 0; 0; 0; 0; 0; 0; 0; 0; 0; 0; 0; 0
  ].

(** z80.src/glob.cc:1365-1385 z80_ttab_cb *)
Definition ttab_cb : list Z :=
  [
   8; 8; 8; 8; 8; 8; 15; 8; 8; 8; 8; 8; 8; 8; 15; 8;
   8; 8; 8; 8; 8; 8; 15; 8; 8; 8; 8; 8; 8; 8; 15; 8;
   8; 8; 8; 8; 8; 8; 15; 8; 8; 8; 8; 8; 8; 8; 15; 8;
   8; 8; 8; 8; 8; 8; 15; 8; 8; 8; 8; 8; 8; 8; 15; 8;
   8; 8; 8; 8; 8; 8; 15; 8; 8; 8; 8; 8; 8; 8; 15; 8;
   8; 8; 8; 8; 8; 8; 15; 8; 8; 8; 8; 8; 8; 8; 15; 8;
   8; 8; 8; 8; 8; 8; 15; 8; 8; 8; 8; 8; 8; 8; 15; 8;
   8; 8; 8; 8; 8; 8; 15; 8; 8; 8; 8; 8; 8; 8; 15; 8;
   8; 8; 8; 8; 8; 8; 15; 8; 8; 8; 8; 8; 8; 8; 15; 8;
   8; 8; 8; 8; 8; 8; 15; 8; 8; 8; 8; 8; 8; 8; 15; 8;
   8; 8; 8; 8; 8; 8; 15; 8; 8; 8; 8; 8; 8; 8; 15; 8;
   8; 8; 8; 8; 8; 8; 15; 8; 8; 8; 8; 8; 8; 8; 15; 8;
   8; 8; 8; 8; 8; 8; 15; 8; 8; 8; 8; 8; 8; 8; 15; 8;
   8; 8; 8; 8; 8; 8; 15; 8; 8; 8; 8; 8; 8; 8; 15; 8;
   8; 8; 8; 8; 8; 8; 15; 8; 8; 8; 8; 8; 8; 8; 15; 8;
   8; 8; 8; 8; 8; 8; 15; 8; 8; 8; 8; 8; 8; 8; 15; 8
  ].

(** z80.src/glob.cc:1387-1407 z80_ttab_dd *)
Definition ttab_dd : list Z :=
  [
   0; 0; 0; 0; 0; 0; 0; 0; 0; 15; 0; 0; 0; 0; 0; 0;
   0; 0; 0; 0; 0; 0; 0; 0; 0; 15; 0; 0; 0; 0; 0; 0;
   0; 14; 20; 10; 8; 8; 11; 0; 0; 15; 20; 10; 8; 8; 11; 0;
   0; 0; 0; 0; 23; 23; 19; 0; 0; 15; 0; 0; 0; 0; 0; 0;
   0; 0; 0; 0; 8; 8; 19; 0; 0; 0; 0; 0; 8; 8; 19; 0;
   0; 0; 0; 0; 8; 8; 19; 0; 0; 0; 0; 0; 8; 8; 19; 0;
   8; 8; 8; 8; 8; 8; 19; 8; 8; 8; 8; 8; 8; 8; 19; 8;
   19; 19; 19; 19; 19; 19; 0; 19; 0; 0; 0; 0; 8; 8; 19; 0;
   0; 0; 0; 0; 8; 8; 19; 0; 0; 0; 0; 0; 8; 8; 19; 0;
   0; 0; 0; 0; 8; 8; 19; 0; 0; 0; 0; 0; 8; 8; 19; 0;
   0; 0; 0; 0; 8; 8; 19; 0; 0; 0; 0; 0; 8; 8; 19; 0;
   0; 0; 0; 0; 8; 8; 19; 0; 0; 0; 0; 0; 8; 8; 19; 0;
   0; 0; 0; 0; 0; 0; 0; 0; 0; 0; 0; 0; 0; 0; 0; 0;
   0; 0; 0; 0; 0; 0; 0; 0; 0; 0; 0; 0; 0; 0; 0; 0;
   0; 14; 0; 23; 0; 15; 0; 0; 0; 8; 0; 0; 0; 0; 0; 0;
   0; 0; 0; 0; 0; 0; 0; 0; 0; 10; 0; 0; 0; 0; 0; 0
  ].

(** z80.src/glob.cc:1409-1429 z80_ttab_fd *)
Definition ttab_fd : list Z :=
  [
   0; 0; 0; 0; 0; 0; 0; 0; 0; 15; 0; 0; 0; 0; 0; 0;
   0; 0; 0; 0; 0; 0; 0; 0; 0; 15; 0; 0; 0; 0; 0; 0;
   0; 14; 20; 10; 8; 8; 11; 0; 0; 15; 20; 10; 8; 8; 11; 0;
   0; 0; 0; 0; 23; 23; 19; 0; 0; 15; 0; 0; 0; 0; 0; 0;
   0; 0; 0; 0; 8; 8; 19; 0; 0; 0; 0; 0; 8; 8; 19; 0;
   0; 0; 0; 0; 8; 8; 19; 0; 0; 0; 0; 0; 8; 8; 19; 0;
   8; 8; 8; 8; 8; 8; 19; 8; 8; 8; 8; 8; 8; 8; 19; 8;
   19; 19; 19; 19; 19; 19; 0; 19; 0; 0; 0; 0; 8; 8; 19; 0;
   0; 0; 0; 0; 8; 8; 19; 0; 0; 0; 0; 0; 8; 8; 19; 0;
   0; 0; 0; 0; 8; 8; 19; 0; 0; 0; 0; 0; 8; 8; 19; 0;
   0; 0; 0; 0; 8; 8; 19; 0; 0; 0; 0; 0; 8; 8; 19; 0;
   0; 0; 0; 0; 8; 8; 19; 0; 0; 0; 0; 0; 8; 8; 19; 0;
   0; 0; 0; 0; 0; 0; 0; 0; 0; 0; 0; 0; 0; 0; 0; 0;
   0; 0; 0; 0; 0; 0; 0; 0; 0; 0; 0; 0; 0; 0; 0; 0;
   0; 14; 0; 23; 0; 15; 0; 0; 0; 8; 0; 0; 0; 0; 0; 0;
   0; 0; 0; 0; 0; 0; 0; 0; 0; 10; 0; 0; 0; 0; 0; 0
  ].

(** z80.src/glob.cc:1431-1451 z80_ttab_ddcb *)
Definition ttab_ddcb : list Z :=
  [
   23; 23; 23; 23; 23; 23; 23; 23; 23; 23; 23; 23; 23; 23; 23; 23;
   23; 23; 23; 23; 23; 23; 23; 23; 23; 23; 23; 23; 23; 23; 23; 23;
   23; 23; 23; 23; 23; 23; 23; 23; 23; 23; 23; 23; 23; 23; 23; 23;
   23; 23; 23; 23; 23; 23; 23; 23; 23; 23; 23; 23; 23; 23; 23; 23;
   20; 20; 20; 20; 20; 20; 20; 20; 20; 20; 20; 20; 20; 20; 20; 20;
   20; 20; 20; 20; 20; 20; 20; 20; 20; 20; 20; 20; 20; 20; 20; 20;
   20; 20; 20; 20; 20; 20; 20; 20; 20; 20; 20; 20; 20; 20; 20; 20;
   20; 20; 20; 20; 20; 20; 20; 20; 20; 20; 20; 20; 20; 20; 20; 20;
   23; 23; 23; 23; 23; 23; 23; 23; 23; 23; 23; 23; 23; 23; 23; 23;
   23; 23; 23; 23; 23; 23; 23; 23; 23; 23; 23; 23; 23; 23; 23; 23;
   23; 23; 23; 23; 23; 23; 23; 23; 23; 23; 23; 23; 23; 23; 23; 23;
   23; 23; 23; 23; 23; 23; 23; 23; 23; 23; 23; 23; 23; 23; 23; 23;
   23; 23; 23; 23; 23; 23; 23; 23; 23; 23; 23; 23; 23; 23; 23; 23;
   23; 23; 23; 23; 23; 23; 23; 23; 23; 23; 23; 23; 23; 23; 23; 23;
   23; 23; 23; 23; 23; 23; 23; 23; 23; 23; 23; 23; 23; 23; 23; 23;
   23; 23; 23; 23; 23; 23; 23; 23; 23; 23; 23; 23; 23; 23; 23; 23
  ].

(** z80.src/glob.cc:1453-1473 z80_ttab_fdcb *)
Definition ttab_fdcb : list Z :=
  [
   23; 23; 23; 23; 23; 23; 23; 23; 23; 23; 23; 23; 23; 23; 23; 23;
   23; 23; 23; 23; 23; 23; 23; 23; 23; 23; 23; 23; 23; 23; 23; 23;
   23; 23; 23; 23; 23; 23; 23; 23; 23; 23; 23; 23; 23; 23; 23; 23;
   23; 23; 23; 23; 23; 23; 23; 23; 23; 23; 23; 23; 23; 23; 23; 23;
   20; 20; 20; 20; 20; 20; 20; 20; 20; 20; 20; 20; 20; 20; 20; 20;
   20; 20; 20; 20; 20; 20; 20; 20; 20; 20; 20; 20; 20; 20; 20; 20;
   20; 20; 20; 20; 20; 20; 20; 20; 20; 20; 20; 20; 20; 20; 20; 20;
   20; 20; 20; 20; 20; 20; 20; 20; 20; 20; 20; 20; 20; 20; 20; 20;
   23; 23; 23; 23; 23; 23; 23; 23; 23; 23; 23; 23; 23; 23; 23; 23;
   23; 23; 23; 23; 23; 23; 23; 23; 23; 23; 23; 23; 23; 23; 23; 23;
   23; 23; 23; 23; 23; 23; 23; 23; 23; 23; 23; 23; 23; 23; 23; 23;
   23; 23; 23; 23; 23; 23; 23; 23; 23; 23; 23; 23; 23; 23; 23; 23;
   23; 23; 23; 23; 23; 23; 23; 23; 23; 23; 23; 23; 23; 23; 23; 23;
   23; 23; 23; 23; 23; 23; 23; 23; 23; 23; 23; 23; 23; 23; 23; 23;
   23; 23; 23; 23; 23; 23; 23; 23; 23; 23; 23; 23; 23; 23; 23; 23;
   23; 23; 23; 23; 23; 23; 23; 23; 23; 23; 23; 23; 23; 23; 23; 23
  ].

(** ** Registers and memory *)
Definition inmem (a : Z) : bool := (0 <=? a) && (a <? 65536).
(** a register pair; x: IY instead of IX *)
Definition W (x : bool) (p : rp) (s : cpu) : Z :=
  match p with
  | BC => 256 * rg s 0 + rg s 1 | DE => 256 * rg s 2 + rg s 3 | HL => 256 * rg s 4 + rg s 5
  | RSP => SP s | XX => if x then IY s else IX s
  end.
(** regsz80.h:53-98 the unions: both halves are written at once *)
Definition wR2 (n v : Z) (s : cpu) : cpu :=
  set_rg (fun k => if k =? n then u8 (v / 256) else if k =? n + 1 then u8 v else rg s k) s.
Definition wW (x : bool) (p : rp) (v : Z) (s : cpu) : cpu :=
  match p with
  | BC => wR2 0 v s | DE => wR2 2 v s | HL => wR2 4 v s
  | RSP => set_SP (u16 v) s | XX => if x then set_IY (u16 v) s else set_IX (u16 v) s
  end.
Definition wR (n v : Z) (s : cpu) : cpu := set_rg (fun k => if k =? n then u8 v else rg s k) s.
Definition A (s : cpu) : Z := rg s 7.
(** z80mac.h:33-33 add_u16_disp *)
Definition disp (w d : Z) : Z := (w + i8 d) mod 65536.

Section Z80.
(** what the dummy cell holds, sp_limit, breakpoints that are hit *)
Variable dum lim : Z.
Variable hit : Z -> bool.

Definition rd (s : cpu) (a : Z) : Z := if inmem a then mem s a else dum.
Definition wr (a v : Z) (s : cpu) : cpu :=
  if inmem a then set_mem (fun k => if k =? a then u8 v else mem s k) s else s.
(** z80.cc:1108-1115 cl_z80::store1, store2; z80.cc:1117-1128 cl_z80::get1, get2 *)
Definition store2 (a v : Z) (s : cpu) : cpu := wr (a + 1) (v / 256) (wr a v s).
Definition get2 (a : Z) (s : cpu) : Z := 256 * rd s (a + 1) + rd s a.
(** uc.cc:3186-3197 cl_uc::fetch; z80.cc:1134-1140 cl_z80::fetch2 *)
Definition fetch (s : cpu) : Z * cpu := (rd s (PC s), set_PC ((PC s + 1) mod 65536) s).
Definition fetch2 (s : cpu) : Z * cpu :=
  let '(l, s) := fetch s in let '(h, s) := fetch s in (256 * h + l, s).
(** where an operand is; the displacement and the byte in the program are fetched *)
Inductive place := PR (n : Z) | PXH | PXL | PM (a : Z) | PV (v : Z).
Definition resolve (x : bool) (l : loc) (s : cpu) : place * cpu :=
  match l with
  | LR n => (PR n, s) | LHL => (PM (W x HL s), s) | LXH => (PXH, s) | LXL => (PXL, s)
  | LXD => let '(d, s) := fetch s in (PM (disp (W x XX s) d), s)
  | LN => let '(v, s) := fetch s in (PV v, s)
  end.
Definition getp (x : bool) (p : place) (s : cpu) : Z :=
  match p with
  | PR n => rg s n | PXH => W x XX s / 256 | PXL => W x XX s mod 256 | PM a => rd s a | PV v => v
  end.
Definition putp (x : bool) (p : place) (v : Z) (s : cpu) : cpu :=
  match p with
  | PR n => wR n v s
  | PXH => wW x XX (256 * u8 v + W x XX s mod 256) s
  | PXL => wW x XX (256 * (W x XX s / 256) + u8 v) s
  | PM a => wr a v s
  | PV _ => s
  end.

(** ** Stack *)
(** z80mac.h:12-20 push2, z80mac.h:21-29 push1; z80.cc:1205-1222 cl_z80::stack_check_overflow: the error is reported when SP is below the limit *)
Definition chk (ipc b : Z) (s : cpu) : cpu :=
  if SP s <? lim then set_errs (errs s ++ [(ipc, b, SP s)]) s else s.
Definition push2 (ipc v : Z) (s : cpu) : cpu :=
  let b := SP s in
  let s := set_SP (u16 (SP s - 2)) s in
  chk ipc b (store2 (SP s) (u16 v) s).
Definition push1 (ipc v : Z) (s : cpu) : cpu :=
  let b := SP s in
  let s := set_SP (u16 (SP s - 1)) s in
  chk ipc b (wr (SP s) v s).
(** z80mac.h:30-30 pop2 *)
Definition pop2 (s : cpu) : Z * cpu := (get2 (SP s) s, set_SP (u16 (SP s + 2)) s).

(** ** Flags *)
Definition fl (c : bool) (m : Z) : Z := if c then m else 0.
Definition clr (f m : Z) : Z := Z.land f (255 - m).
(** z80.cc:1082-1087 cl_z80::xy *)
Definition xy (v f : Z) : Z := Z.lor (clr f 40) (Z.land v 40).
(** z80mac.h:35-35 parity *)
Definition parity (v : Z) : bool :=
  negb (xorb (Z.testbit v 7) (xorb (Z.testbit v 6) (xorb (Z.testbit v 5) (xorb (Z.testbit v 4)
       (xorb (Z.testbit v 3) (xorb (Z.testbit v 2) (xorb (Z.testbit v 1) (Z.testbit v 0)))))))).
(** z80mac.h:36-37 SET_Z, SET_S *)
Definition set_z (v f : Z) : Z := Z.lor (clr f 64) (fl (v =? 0) 64).
Definition set_s (v f : Z) : Z := Z.lor (clr f 128) (fl (Z.testbit v 7) 128).
(** BIT_Z and BIT_S of a byte, or-ed *)
Definition zs (r f : Z) : Z := Z.lor (Z.lor f (fl (r =? 0) 64)) (fl (Z.testbit r 7) 128).
Definition cy (s : cpu) : Z := fl (Z.testbit (F s) 0) 1.

(** ** Arithmetic *)
(** z80mac.h:39-53 add_A_bytereg ([c] = 0), z80mac.h:55-70 adc_A_bytereg ([c] the carry) *)
Definition add_A (c v : Z) (s : cpu) : cpu :=
  let a := A s in
  let oper := v + c in
  let res := i8 a + i8 v + c in
  let f := clr (F s) 215 in
  let f := Z.lor f (fl (15 <? a mod 16 + oper mod 16) 16) in
  let f := Z.lor f (fl ((res <? -128) || (127 <? res)) 4) in
  let f := Z.lor f (fl (255 <? a + oper) 1) in
  let r := u8 (a + oper) in
  set_F (xy r (zs r f)) (wR 7 r s).
(** z80mac.h:110-124 sub_A_bytereg, z80mac.h:126-141 sbc_A_bytereg *)
Definition sub_A (c v : Z) (s : cpu) : cpu :=
  let a := A s in
  let oper := v + c in
  let res := i8 a - i8 v - c in
  let f := Z.lor (clr (F s) 215) 2 in
  let f := Z.lor f (fl (a mod 16 <? oper mod 16) 16) in
  let f := Z.lor f (fl ((res <? -128) || (127 <? res)) 4) in
  let f := Z.lor f (fl (a <? oper) 1) in
  let r := u8 (a - oper) in
  set_F (xy r (zs r f)) (wR 7 r s).
(** z80mac.h:159-172 cp_bytereg *)
Definition cp_A (v : Z) (s : cpu) : cpu :=
  let a := A s in
  let f := Z.lor (clr (F s) 215) 2 in
  let f := Z.lor f (fl (a mod 16 <? v mod 16) 16) in
  let f := Z.lor f (fl (a mod 128 <? v mod 128) 4) in
  let f := if a <? v then Z.lxor (Z.lor f 1) 4 else f in
  let r := a - v in
  set_F (xy (u8 r) (zs r f)) s.
(** z80mac.h:296-325 and_A_bytereg, xor_A_bytereg, or_A_bytereg *)
Definition logic (h : Z) (r : Z) (s : cpu) : cpu :=
  let f := Z.lor (clr (F s) 215) h in
  let f := zs r f in
  let f := Z.lor f (fl (parity r) 4) in
  set_F (xy r f) (wR 7 r s).
Definition alu8 (k : alu) (v : Z) (s : cpu) : cpu :=
  match k with
  | ADD => add_A 0 v s | ADC => add_A (cy s) v s | SUB => sub_A 0 v s | SBC => sub_A (cy s) v s
  | AND => logic 16 (Z.land (A s) v) s | XOR => logic 0 (Z.lxor (A s) v) s | OR => logic 0 (Z.lor (A s) v) s
  | CP => cp_A v s
  end.
(** z80mac.h:327-336 inc, z80mac.h:338-348 dec: the flags of the new value *)
Definition inc_f (r f : Z) : Z :=
  let f := clr f 214 in
  let f := Z.lor f (fl (r =? 0) 64) in
  let f := Z.lor f (fl (r =? 128) 4) in
  let f := Z.lor f (fl (Z.testbit r 7) 128) in
  let f := Z.lor f (fl (r mod 16 =? 0) 16) in
  xy r f.
Definition dec_f (r f : Z) : Z :=
  let f := Z.lor (clr f 214) 2 in
  let f := Z.lor f (fl (r =? 0) 64) in
  let f := Z.lor f (fl (r =? 127) 4) in
  let f := Z.lor f (fl (Z.testbit r 7) 128) in
  let f := Z.lor f (fl (r mod 16 =? 15) 16) in
  xy r f.
(** z80mac.h:72-92 add_HL_Word, add_IX_Word *)
Definition add16 (x : bool) (d : rp) (v : Z) (s : cpu) : cpu :=
  let a := W x d s in
  let f := clr (clr (F s) 17) 2 in
  let f := Z.lor f (fl (4095 <? a mod 4096 + v mod 4096) 16) in
  let f := Z.lor f (fl (65535 <? a + v) 1) in
  wW x d (a + v) (set_F f s).
(** z80mac.h:94-108 adc_HL_wordreg *)
Definition adc16 (v : Z) (s : cpu) : cpu :=
  let a := W false HL s in
  let oper := v + cy s in
  let res := i16 a + i16 v + cy s in
  let f := clr (F s) 215 in
  let f := Z.lor f (fl (4095 <? a mod 4096 + oper mod 4096) 16) in
  let f := Z.lor f (fl ((res <? -32768) || (32767 <? res)) 4) in
  let f := Z.lor f (fl (65535 <? a + oper) 1) in
  let r := u16 (a + oper) in
  let f := Z.lor f (fl (r =? 0) 64) in
  let f := Z.lor f (fl (Z.testbit r 15) 128) in
  wW false HL r (set_F f s).
(** z80mac.h:143-157 sbc_HL_wordreg *)
Definition sbc16 (v : Z) (s : cpu) : cpu :=
  let a := W false HL s in
  let oper := v + cy s in
  let res := i16 a - i16 v - cy s in
  let f := Z.lor (clr (F s) 215) 2 in
  let f := Z.lor f (fl (a mod 4096 <? oper mod 4096) 16) in
  let f := Z.lor f (fl ((res <? -32768) || (32767 <? res)) 4) in
  let f := Z.lor f (fl (a <? oper) 1) in
  let r := u16 (a - oper) in
  let f := Z.lor f (fl (r =? 0) 64) in
  let f := Z.lor f (fl (Z.testbit r 15) 128) in
  wW false HL r (set_F f s).
(** z80.src/inst.cc:574-599 inst_rlca, inst_rrca, z80.src/inst.cc:741-763 inst_rra, inst_rla: the new A, the carry
    out; [x | 1] after a shift is [x + 1] *)
Definition rot_A (r : Z) (c : bool) (s : cpu) : cpu :=
  set_F (Z.lor (clr (F s) 19) (fl c 1)) (wR 7 r s).
(** z80.src/inst.cc:812-852 cl_z80::inst_daa *)
Definition daa (s : cpu) : cpu :=
  let n := Z.land (F s) 2 in
  let c := Z.land (F s) 1 in
  let incr := if Z.testbit (F s) 4 || (9 <? A s mod 16) then 6 else 0 in
  let incr := if Z.testbit (F s) 0 || (144 <? Z.land (A s) 240) || (153 <? A s) then Z.lor incr 96 else incr in
  let s := if Z.testbit (F s) 1 then sub_A 0 incr s else add_A 0 incr s in
  let f := clr (F s) 6 in
  let f := Z.lor f (fl (parity (A s)) 4) in
  let f := Z.lor f n in
  let f := Z.lor f c in
  set_F f s.

(** z80mac.h:174-294 rr_byte, rrc_byte, rl_byte, rlc_byte, sla_byte, sra_byte, srl_byte, slia_byte,
    in the order of the codes: the new value and the carry out *)
Definition rot (k v c : Z) : Z * bool :=
  if k =? 0 then (u8 (2 * v) + fl (Z.testbit v 7) 1, Z.testbit v 7)
  else if k =? 1 then (v / 2 + fl (Z.testbit v 0) 128, Z.testbit v 0)
  else if k =? 2 then (u8 (2 * v) + c, Z.testbit v 7)
  else if k =? 3 then (v / 2 + 128 * c, Z.testbit v 0)
  else if k =? 4 then (u8 (2 * v), Z.testbit v 7)
  else if k =? 5 then (v / 2 + fl (Z.testbit v 7) 128, Z.testbit v 0)
  else if k =? 6 then (u8 (2 * v) + 1, Z.testbit v 7)
  else (v / 2, Z.testbit v 0).
(** the flags of these; [pa] is the A of which the parity is taken *)
Definition rot_f (r : Z) (c : bool) (pa f : Z) : Z :=
  let f := Z.lor (clr f 215) (fl c 1) in
  let f := zs r f in
  let f := Z.lor f (fl (parity pa) 4) in
  xy r f.
(** z80mac.h:350-368 bit_byte *)
Definition bit_f (v b f : Z) : Z :=
  let f := Z.lor (clr f 246) 16 in
  if Z.testbit v b then Z.lor (Z.lor (Z.lor f (fl (b =? 3) 8)) (fl (b =? 5) 32)) (fl (b =? 7) 128)
  else Z.lor f 68.
Definition reg_of (n : Z) : loc := if n =? 6 then LHL else LR n.
(** inst_cb.cc:35-345 inst_cb_rlc, ..., inst_cb_srl, inst_cb.cc:348-459 inst_cb_bit, inst_cb_res,
    inst_cb_set, inst_cb.cc:461-742 inst_cb.  In a rotation of A the parity is that of the
    result, as A is changed before. *)
Definition exec_cb (c : Z) (s : cpu) : cpu :=
  let n := c mod 8 in let k := c / 8 mod 8 in
  let p := if n =? 6 then PM (W false HL s) else PR n in
  let v := getp false p s in
  if c <? 64 then
    let '(r, co) := rot k v (cy s) in
    let s1 := if n =? 6 then s else putp false p r s in
    let s2 := set_F (rot_f r co (A s1) (F s)) s1 in
    if n =? 6 then putp false p r s2 else s2
  else if c <? 128 then
    let s1 := set_F (bit_f v k (F s)) s in
    if n =? 6 then putp false p v s1 else s1
  else if c <? 192 then putp false p (Z.land v (255 - 2 ^ k)) s
  else putp false p (Z.lor v (2 ^ k)) s.
(** inst_xxcb.cc:37-398 inst_XXcb_rlc, ..., inst_XXcb_srl, inst_xxcb.cc:399-502 inst_XXcb_bit,
    inst_XXcb_res, inst_XXcb_set; [a] is the address *)
Definition exec_xcb (a c : Z) (s : cpu) : cpu :=
  let n := c mod 8 in let k := c / 8 mod 8 in
  let v := rd s a in
  if c <? 64 then
    let '(r, co) := rot k v (cy s) in
    let s := set_F (rot_f r co (A s) (F s)) s in
    let s := if n =? 6 then s else wR n r s in
    wr a r s
  else if c <? 128 then wr a v (set_F (bit_f v k (F s)) s)
  else if c <? 192 then
    let r := Z.land v (255 - 2 ^ k) in
    wr a r (if n =? 6 then s else wR n r s)
  else
    let r := Z.lor v (2 ^ k) in
    wr a r (if n =? 6 then s else wR (if n =? 5 then 4 else n) r s).

(** ** The instructions *)
Inductive result := GO | BREAKPOINT | HALTED | INV_INST.
Definition holds (c : Z) (s : cpu) : bool :=
  let f := Z.testbit (F s) (if c / 2 =? 0 then 6 else if c / 2 =? 1 then 0 else if c / 2 =? 2 then 2 else 7) in
  if Z.even c then negb f else f.
(** z80.src/inst.cc:765-810 inst_jr, z80.src/inst.cc:723-739 inst_djnz: PC is a 32 bit number *)
Definition jrel (j : Z) (s : cpu) : cpu := set_PC (u32 (PC s + i8 j)) s.
(** inst_ed.cc:414-423 LDI, inst_ed.cc:466-477 LDD, inst_ed.cc:520-540 LDIR, inst_ed.cc:620-639 LDDR *)
Definition block_ld (d : Z) (s : cpu) : cpu :=
  let s := set_F (clr (F s) 22) s in
  let s := wr (W false DE s) (rd s (W false HL s)) s in
  let s := wW false HL (W false HL s + d) s in
  let s := wW false DE (W false DE s + d) s in
  wW false BC (W false BC s - 1) s.
Definition orF (c : bool) (m : Z) (s : cpu) : cpu := set_F (Z.lor (F s) (fl c m)) s.
Definition again (c : bool) (ipc : Z) (s : cpu) : cpu := if c then set_ct true (set_PC ipc s) else s.
Definition bc_left (s : cpu) : bool := negb (W false BC s =? 0).
Definition b_left (s : cpu) : bool := negb (rg s 0 =? 0).
(** inst_ed.cc:438-450 INI, inst_ed.cc:493-505 IND; the first part of INIR and INDR *)
Definition block_in (d : Z) (s : cpu) : cpu :=
  let s := wr (W false HL s) (inp s (rg s 1)) s in
  let s := set_F (clr (F s) 2) s in
  let s := wW false HL (W false HL s + d) s in
  let s := wR 0 (rg s 0 - 1) s in
  set_F (set_z (rg s 0) (F s)) s.
Definition wO (p v : Z) (s : cpu) : cpu := set_outp (fun k => if k =? p then u8 v else outp s k) s.
(** inst_ed.cc:452-464 OUTI, inst_ed.cc:506-518 OUTD; [r] is the register with the port *)
Definition block_out (r d : Z) (s : cpu) : cpu :=
  let s := wR 0 (rg s 0 - 1) s in
  let s := wO (rg s r) (rd s (W false HL s)) s in
  let s := set_F (clr (set_z (rg s 0) (F s)) 2) s in
  wW false HL (W false HL s + d) s.
(** inst_ed.cc:425-436 CPI, inst_ed.cc:479-491 CPD, inst_ed.cc:542-572 CPIR, inst_ed.cc:640-669 CPDR *)
Definition cpi (s : cpu) : cpu :=
  let s := cp_A (rd s (W false HL s)) s in
  let s := wW false HL (W false HL s + 1) s in
  let s := wW false BC (W false BC s - 1) s in
  orF (bc_left s) 4 s.
Definition cpd (s : cpu) : cpu :=
  let s := set_F (Z.lor (clr (F s) 215) (fl (A s - rd s (W false HL s) =? 0) 68)) s in
  let s := wW false HL (W false HL s + 1) s in
  let s := wW false BC (W false BC s - 1) s in
  orF (bc_left s) 4 s.
Definition cpir (ipc : Z) (s : cpu) : cpu :=
  let v := rd s (W false HL s) in
  let f := Z.lor (clr (F s) 212) 2 in
  let f := Z.lor f (fl (A s - v =? 0) 64) in
  let f := Z.lor f (fl (Z.testbit (A s - v) 7) 128) in
  let s := set_F f s in
  let s := wW false HL (W false HL s + 1) s in
  let s := wW false BC (W false BC s - 1) s in
  let s := orF (bc_left s) 4 s in
  again (bc_left s && negb (Z.testbit (F s) 6)) ipc s.
Definition cpdr (ipc : Z) (s : cpu) : cpu :=
  let got := A s - rd s (W false HL s) =? 0 in
  let s := set_F (Z.lor (clr (F s) 215) (fl got 68)) s in
  let s := if got then s else wW false BC (W false BC s - 1) (wW false HL (W false HL s - 1) s) in
  again (bc_left s && negb got) ipc s.

(** z80.src/inst.cc:47-1784, inst_ed.cc:48-733, inst_xd.cc:35-651: one instruction; [x]: IY instead of IX,
    [ipc]: instPC.  Not the prefixes. *)
Definition exec (x : bool) (ipc : Z) (o : op) (s : cpu) : result * cpu :=
  match o with
  | NOP => (GO, s)
  | HALT => (HALTED, s)
  | DI => (GO, set_ib true (set_iff2 false (set_iff1 false s)))
  | EI => (GO, set_ib true (set_iff2 true (set_iff1 true s)))
  | LD d l =>
      let '(p, s) := resolve x d s in
      let '(q, s) := resolve x l s in
      (GO, putp x p (getp x q s) s)
  | LDi p => let '(v, s) := fetch2 s in (GO, wW x p v s)
  | STp p => let '(a, s) := fetch2 s in (GO, store2 a (W x p s) s)
  | LDp p => let '(a, s) := fetch2 s in (GO, wW x p (get2 a s) s)
  | STAp p => (GO, wr (W x p s) (A s) s)
  | LDAp p => (GO, wR 7 (rd s (W x p s)) s)
  | STA => let '(a, s) := fetch2 s in (GO, wr a (A s) s)
  | LDA => let '(a, s) := fetch2 s in (GO, wR 7 (rd s a) s)
  | LDSP p => (GO, set_SP (W x p s) s)
  | PUSH p => (GO, push2 ipc (W x p s) s)
  | POP p => let '(v, s) := pop2 s in (GO, wW x p v s)
  | PUSHAF => (GO, push1 ipc (F s) (push1 ipc (A s) s))
  | POPAF =>
      let s := set_SP (u16 (SP s + 1)) (set_F (rd s (SP s)) s) in
      (GO, set_SP (u16 (SP s + 1)) (wR 7 (rd s (SP s)) s))
  | EXAF =>
      (GO, set_rg (fun k => if k =? 7 then arg s 7 else rg s k)
             (set_arg (fun k => if k =? 7 then rg s 7 else arg s k) (set_F (aF s) (set_aF (F s) s))))
  | EXX =>
      (GO, set_rg (fun k => if k <? 6 then arg s k else rg s k)
             (set_arg (fun k => if k <? 6 then rg s k else arg s k) s))
  | EXDEHL => (GO, wW x HL (W x DE s) (wW x DE (W x HL s) s))
  | EXSP p => let t := W x p s in (GO, store2 (SP s) t (wW x p (get2 (SP s) s) s))
  | INC l =>
      let '(p, s) := resolve x l s in
      let r := u8 (getp x p s + 1) in (GO, putp x p r (set_F (inc_f r (F s)) s))
  | DEC l =>
      let '(p, s) := resolve x l s in
      let r := u8 (getp x p s - 1) in (GO, putp x p r (set_F (dec_f r (F s)) s))
  | ALU k l => let '(p, s) := resolve x l s in (GO, alu8 k (getp x p s) s)
  | INCp p => (GO, wW x p (W x p s + 1) s)
  | DECp p => (GO, wW x p (W x p s - 1) s)
  | ADDp d p => (GO, add16 x d (W x p s) s)
  | RLCA => (GO, rot_A (u8 (2 * A s) + fl (Z.testbit (A s) 7) 1) (Z.testbit (A s) 7) s)
  | RRCA => (GO, rot_A (A s / 2 + fl (Z.testbit (A s) 0) 128) (Z.testbit (A s) 0) s)
  | RLA => (GO, rot_A (u8 (2 * A s) + cy s) (Z.testbit (A s) 7) s)
  | RRA => (GO, rot_A (A s / 2 + 128 * cy s) (Z.testbit (A s) 0) s)
  | DAA => (GO, daa s)
  | CPL => (GO, wR 7 (255 - A s) (set_F (Z.lor (F s) 18) s))
  | SCF => (GO, set_F (Z.lor (clr (F s) 18) 1) s)
  | CCF =>
      let f := clr (F s) 18 in
      let f := Z.lor f (fl (Z.testbit f 0) 16) in
      (GO, set_F (Z.lxor f 1) s)
  | DJNZ =>
      let '(j, s) := fetch s in
      let s := wR 0 (rg s 0 - 1) s in
      (GO, if b_left s then set_ct true (jrel j s) else s)
  | JR None => let '(j, s) := fetch s in (GO, jrel j s)
  | JR (Some c) => let '(j, s) := fetch s in (GO, if holds c s then set_ct true (jrel j s) else s)
  | JP None => let '(a, s) := fetch2 s in (GO, set_PC a s)
  | JP (Some c) => let '(a, s) := fetch2 s in (GO, if holds c s then set_PC a s else s)
  | JPp p => (GO, set_PC (W x p s) s)
  | CALL None => let s := push2 ipc (PC s + 2) s in let '(a, s) := fetch2 s in (GO, set_PC a s)
  | CALL (Some c) =>
      if holds c s
      then let s := push2 ipc (PC s + 2) s in let '(a, s) := fetch2 s in (GO, set_ct true (set_PC a s))
      else let '(_, s) := fetch2 s in (GO, s)
  | RET None => let '(a, s) := pop2 s in (GO, set_PC a s)
  | RET (Some c) =>
      if holds c s then let '(a, s) := pop2 s in (GO, set_ct true (set_PC a s)) else (GO, s)
  | RST n => (GO, set_PC n (push2 ipc (PC s) s))
  | OUT => let '(a, s) := fetch s in (GO, wO a (A s) s)
  | IN => let '(a, s) := fetch s in (GO, wR 7 (inp s a) s)
  | INrC r =>
      let v := inp s (rg s 1) in
      let f := Z.lor (clr (F s) 6) (fl (parity v) 4) in
      (GO, if r =? 6 then set_F f s else wR r v (set_F f s))
  | OUTC r => (GO, wO (rg s 1) (if r =? 6 then 0 else rg s r) s)
  | SBCp p => (GO, sbc16 (W x p s) s)
  | ADCp p => (GO, adc16 (W x p s) s)
  | NEG =>
      let f := clr (F s) 215 in
      let f := Z.lor f (fl (negb (A s =? 0)) 1) in
      let f := Z.lor f (fl (A s =? 128) 4) in
      let f := Z.lor f (fl (negb (A s mod 16 =? 0)) 16) in
      let r := u8 (- A s) in
      (GO, set_F (zs r (Z.lor f 2)) (wR 7 r s))
  | RETN => let '(a, s) := pop2 s in (GO, set_iff2 false (set_iff1 (iff2 s) (set_PC a s)))
  | IM n => (GO, set_im n s)
  | LDIA => (GO, set_iv (A s) s)
  | LDRA => (GO, set_rr (A s) s)
  | LDAI =>
      let f := set_z (iv s) (set_s (iv s) (F s)) in
      (GO, set_F (Z.lor (clr f 22) (fl (iff2 s) 4)) (wR 7 (iv s) s))
  | LDAR =>
      let f := set_z (rr s) (set_s (rr s) (F s)) in
      (GO, set_F (Z.lor (clr f 22) (fl (iff2 s) 4)) (wR 7 (rr s) s))
  | RRD =>
      let v := rd s (W x HL s) in
      (GO, wR 7 (16 * (A s / 16) + v mod 16) (wr (W x HL s) (v / 16 + 16 * A s) s))
  | RLD =>
      let v := rd s (W x HL s) in
      (GO, wR 7 (16 * (A s / 16) + v / 16) (wr (W x HL s) (16 * v + A s mod 16) s))
  | LDI => let s := block_ld 1 s in (GO, orF (bc_left s) 4 s)
  | LDD => let s := block_ld (-1) s in (GO, orF (bc_left s) 4 s)
  | LDIR => let s := block_ld 1 s in (GO, again (bc_left s) ipc (orF (bc_left s) 4 s))
  | LDDR => let s := block_ld (-1) s in (GO, again (bc_left s) ipc s)
  | CPI => (GO, cpi s)
  | CPD => (GO, cpd s)
  | CPIR => (GO, cpir ipc s)
  | CPDR => (GO, cpdr ipc s)
  | INI => (GO, block_in 1 s)
  | IND => (GO, block_in (-1) s)
  | INIR => let s := block_in 1 s in (GO, again (b_left s) ipc s)
  | INDR => let s := block_in (-1) s in (GO, again (b_left s) ipc s)
  | OUTI => (GO, block_out 0 1 s)
  | OUTD => (GO, block_out 1 (-1) s)
  | OTIR => let s := block_out 0 1 s in (GO, again (b_left s) ipc s)
  | OTDR => let s := block_out 1 (-1) s in (GO, again (b_left s) ipc s)
  | PCB | PXD _ | PED | PXCB | INV => (INV_INST, s)
  end.

Definition op_at (t : list op) (c : Z) : op := nth (Z.to_nat c) t INV.
(** the prefixes: uc.cc:3234-3243 cl_uc::fetch with a breakpoint check; inst_cb.cc:461-470 inst_cb,
    inst_ed.cc:735-743 inst_ed, inst_xd.cc:497-651 inst_Xd, inst_xxcb.cc:505-517 inst_XXcb *)
Definition run (ipc c : Z) (s : cpu) : result * cpu :=
  match op_at tab_00 c with
  | PCB => if hit (PC s) then (BREAKPOINT, s) else let '(c, s) := fetch s in (GO, exec_cb c s)
  | PED => if hit (PC s) then (BREAKPOINT, s) else let '(c, s) := fetch s in exec false ipc (op_at tab_ed c) s
  | PXD x =>
      if hit (PC s) then (BREAKPOINT, s) else
      let '(c, s) := fetch s in
      match op_at tab_xd c with
      | PXCB =>
          let '(d, s) := fetch s in
          if hit (PC s) then (BREAKPOINT, s) else
          let '(c, s) := fetch s in (GO, exec_xcb (disp (W x XX s) d) c s)
      | o => exec x ipc o s
      end
  | o => exec false ipc o s
  end.
(** z80.cc:841-887 cl_z80::tickt: the table entry is looked up after the instruction *)
Definition entry (ipc c : Z) (s : cpu) : Z :=
  let at_ t k := nth (Z.to_nat (rd s (ipc + k))) t 0 in
  if c =? 221 then if rd s (ipc + 1) =? 203 then at_ ttab_ddcb 3 else at_ ttab_dd 1
  else if c =? 253 then if rd s (ipc + 1) =? 203 then at_ ttab_fdcb 3 else at_ ttab_fd 1
  else if c =? 203 then at_ ttab_cb 1
  else if c =? 237 then at_ ttab_ed 1
  else nth (Z.to_nat c) ttab_00 0.
(** z80.cc:1074-1080 cl_z80::inc_R *)
Definition inc_R (r : Z) : Z := 128 * (r / 128) + (r mod 128 + 1) mod 128.
(** z80.cc:641-839 cl_z80::exec_inst *)
Definition step (s : cpu) : result * cpu :=
  let ipc := PC s in
  if hit ipc then (BREAKPOINT, s) else
  let '(c, s) := fetch s in
  let s := set_ticks (ticks s + 1) s in
  let s := set_ct false (set_ib false (set_rr (inc_R (rr s)) s)) in
  let '(r, s) := run ipc c s in
  let e := entry ipc c s in
  let t := if ct s then e / 256 else e mod 256 in
  (r, set_ticks (ticks s + (t - 1)) s).
End Z80.
