(** The 8080 and 8085 processors (i8085.src): all 256 instruction codes, flags, stack,
    clock cycles, disassembly table.  [m85]: an 8085.  Reading outside of the 64K memory
    gives [dum] (the dummy cell), writing there does nothing.
    Not modelled: the access counters vc.rd and vc.wr, hardware attached to memory,
    the text of the disassembly. *)
From Verif Require Import Base.

(** i8080cl.h:119-124 REGPAIR: the registers; tick_shift, the clock cycles counted
    (uc.cc:3057-3081 cl_uc::tick: inst_ticks), and the stack overflow errors reported, as
    instruction address, SP before, SP *)
Record cpu := mkC { A : Z; F : Z; B : Z; C : Z; D : Z; E : Z; H : Z; L : Z; SP : Z; PC : Z; mem : Z -> Z; tsh : Z; ticks : Z; errs : list (Z * Z * Z) }.
Definition set_A (v : Z) (s : cpu) : cpu := mkC v (F s) (B s) (C s) (D s) (E s) (H s) (L s) (SP s) (PC s) (mem s) (tsh s) (ticks s) (errs s).
Definition set_F (v : Z) (s : cpu) : cpu := mkC (A s) v (B s) (C s) (D s) (E s) (H s) (L s) (SP s) (PC s) (mem s) (tsh s) (ticks s) (errs s).
Definition set_B (v : Z) (s : cpu) : cpu := mkC (A s) (F s) v (C s) (D s) (E s) (H s) (L s) (SP s) (PC s) (mem s) (tsh s) (ticks s) (errs s).
Definition set_C (v : Z) (s : cpu) : cpu := mkC (A s) (F s) (B s) v (D s) (E s) (H s) (L s) (SP s) (PC s) (mem s) (tsh s) (ticks s) (errs s).
Definition set_D (v : Z) (s : cpu) : cpu := mkC (A s) (F s) (B s) (C s) v (E s) (H s) (L s) (SP s) (PC s) (mem s) (tsh s) (ticks s) (errs s).
Definition set_E (v : Z) (s : cpu) : cpu := mkC (A s) (F s) (B s) (C s) (D s) v (H s) (L s) (SP s) (PC s) (mem s) (tsh s) (ticks s) (errs s).
Definition set_H (v : Z) (s : cpu) : cpu := mkC (A s) (F s) (B s) (C s) (D s) (E s) v (L s) (SP s) (PC s) (mem s) (tsh s) (ticks s) (errs s).
Definition set_L (v : Z) (s : cpu) : cpu := mkC (A s) (F s) (B s) (C s) (D s) (E s) (H s) v (SP s) (PC s) (mem s) (tsh s) (ticks s) (errs s).
Definition set_SP (v : Z) (s : cpu) : cpu := mkC (A s) (F s) (B s) (C s) (D s) (E s) (H s) (L s) v (PC s) (mem s) (tsh s) (ticks s) (errs s).
Definition set_PC (v : Z) (s : cpu) : cpu := mkC (A s) (F s) (B s) (C s) (D s) (E s) (H s) (L s) (SP s) v (mem s) (tsh s) (ticks s) (errs s).
Definition set_mem (v : Z -> Z) (s : cpu) : cpu := mkC (A s) (F s) (B s) (C s) (D s) (E s) (H s) (L s) (SP s) (PC s) v (tsh s) (ticks s) (errs s).
Definition set_tsh (v : Z) (s : cpu) : cpu := mkC (A s) (F s) (B s) (C s) (D s) (E s) (H s) (L s) (SP s) (PC s) (mem s) v (ticks s) (errs s).
Definition set_ticks (v : Z) (s : cpu) : cpu := mkC (A s) (F s) (B s) (C s) (D s) (E s) (H s) (L s) (SP s) (PC s) (mem s) (tsh s) v (errs s).
Definition set_errs (v : list (Z * Z * Z)) (s : cpu) : cpu := mkC (A s) (F s) (B s) (C s) (D s) (E s) (H s) (L s) (SP s) (PC s) (mem s) (tsh s) (ticks s) v.

(** ** Instructions *)
Inductive reg := rB | rC | rD | rE | rH | rL | rM | rA.
Inductive pair := pB | pD | pH | pS | pPSW.
Inductive cond := cNZ | cZ | cNC | cC | cPO | cPE | cP | cM.
Inductive alu := kADD | kADC | kSUB | kSBB | kCMP | kANA | kORA | kXRA.
Inductive op :=
| NOP | HLT | EI | DI | MOV (d s : reg) | MVI (d : reg) | LXI (p : pair) | LDA | STA | LHLD | SHLD
| LDAX (p : pair) | STAX (p : pair) | XCHG | INP | OUTP | PUSH (p : pair) | POP (p : pair) | XTHL | SPHL
| ALU (k : alu) (s : option reg) | DAD (p : pair) | INR (d : reg) | DCR (d : reg) | INX (p : pair) | DCX (p : pair)
| RLC | RRC | RAL | RAR | DAA | CMA | CMC | STC
| JMP | JCC (c : cond) | CALL | CCC (c : cond) | RET | RCC (c : cond) | RST | PCHL
| RIM | SIM | ARHL | RDEL | DSUB | JNX5 | JX5 | RSTV | LDHI | LDSI | LHLX | SHLX.

(** i8085.src/decode.h:33-219 NOP, PCHL and dcmovrr.h:31-60 MOV_AA: the numbers of the instructions; i8080.cc:80-91 itab of the 8080 *)
Definition itab80 : list op :=
  [
   NOP; LXI pB; STAX pB; INX pB; INR rB; DCR rB; MVI rB; RLC; NOP; DAD pB; LDAX pB; DCX pB; INR rC; DCR rC; MVI rC; RRC;
   NOP; LXI pD; STAX pD; INX pD; INR rD; DCR rD; MVI rD; RAL; NOP; DAD pD; LDAX pD; DCX pD; INR rE; DCR rE; MVI rE; RAR;
   NOP; LXI pH; SHLD; INX pH; INR rH; DCR rH; MVI rH; DAA; NOP; DAD pH; LHLD; DCX pH; INR rL; DCR rL; MVI rL; CMA;
   NOP; LXI pS; STA; INX pS; INR rM; DCR rM; MVI rM; STC; NOP; DAD pS; LDA; DCX pS; INR rA; DCR rA; MVI rA; CMC;
   MOV rB rB; MOV rB rC; MOV rB rD; MOV rB rE; MOV rB rH; MOV rB rL; MOV rB rM; MOV rB rA; MOV rC rB; MOV rC rC; MOV rC rD; MOV rC rE; MOV rC rH; MOV rC rL; MOV rC rM; MOV rC rA;
   MOV rD rB; MOV rD rC; MOV rD rD; MOV rD rE; MOV rD rH; MOV rD rL; MOV rD rM; MOV rD rA; MOV rE rB; MOV rE rC; MOV rE rD; MOV rE rE; MOV rE rH; MOV rE rL; MOV rE rM; MOV rE rA;
   MOV rH rB; MOV rH rC; MOV rH rD; MOV rH rE; MOV rH rH; MOV rH rL; MOV rH rM; MOV rH rA; MOV rL rB; MOV rL rC; MOV rL rD; MOV rL rE; MOV rL rH; MOV rL rL; MOV rL rM; MOV rL rA;
   MOV rM rB; MOV rM rC; MOV rM rD; MOV rM rE; MOV rM rH; MOV rM rL; HLT; MOV rM rA; MOV rA rB; MOV rA rC; MOV rA rD; MOV rA rE; MOV rA rH; MOV rA rL; MOV rA rM; MOV rA rA;
   ALU kADD (Some rB); ALU kADD (Some rC); ALU kADD (Some rD); ALU kADD (Some rE); ALU kADD (Some rH); ALU kADD (Some rL); ALU kADD (Some rM); ALU kADD (Some rA); ALU kADC (Some rB); ALU kADC (Some rC); ALU kADC (Some rD); ALU kADC (Some rE); ALU kADC (Some rH); ALU kADC (Some rL); ALU kADC (Some rM); ALU kADC (Some rA);
   ALU kSUB (Some rB); ALU kSUB (Some rC); ALU kSUB (Some rD); ALU kSUB (Some rE); ALU kSUB (Some rH); ALU kSUB (Some rL); ALU kSUB (Some rM); ALU kSUB (Some rA); ALU kSBB (Some rB); ALU kSBB (Some rC); ALU kSBB (Some rD); ALU kSBB (Some rE); ALU kSBB (Some rH); ALU kSBB (Some rL); ALU kSBB (Some rM); ALU kSBB (Some rA);
   ALU kANA (Some rB); ALU kANA (Some rC); ALU kANA (Some rD); ALU kANA (Some rE); ALU kANA (Some rH); ALU kANA (Some rL); ALU kANA (Some rM); ALU kANA (Some rA); ALU kXRA (Some rB); ALU kXRA (Some rC); ALU kXRA (Some rD); ALU kXRA (Some rE); ALU kXRA (Some rH); ALU kXRA (Some rL); ALU kXRA (Some rM); ALU kXRA (Some rA);
   ALU kORA (Some rB); ALU kORA (Some rC); ALU kORA (Some rD); ALU kORA (Some rE); ALU kORA (Some rH); ALU kORA (Some rL); ALU kORA (Some rM); ALU kORA (Some rA); ALU kCMP (Some rB); ALU kCMP (Some rC); ALU kCMP (Some rD); ALU kCMP (Some rE); ALU kCMP (Some rH); ALU kCMP (Some rL); ALU kCMP (Some rM); ALU kCMP (Some rA);
   RCC cNZ; POP pB; JCC cNZ; JMP; CCC cNZ; PUSH pB; ALU kADD None; RST; RCC cZ; RET; JCC cZ; JMP; CCC cZ; CALL; ALU kADC None; RST;
   RCC cNC; POP pD; JCC cNC; OUTP; CCC cNC; PUSH pD; ALU kSUB None; RST; RCC cC; RET; JCC cC; INP; CCC cC; CALL; ALU kSBB None; RST;
   RCC cPO; POP pH; JCC cPO; XTHL; CCC cPO; PUSH pH; ALU kANA None; RST; RCC cPE; PCHL; JCC cPE; XCHG; CCC cPE; CALL; ALU kXRA None; RST;
   RCC cP; POP pPSW; JCC cP; DI; CCC cP; PUSH pPSW; ALU kORA None; RST; RCC cM; SPHL; JCC cM; EI; CCC cM; CALL; ALU kCMP None; RST
  ].

(** the same, with i8085cl.h:35-48 RIM, SHLX; i8085.cc:57-64 fill_def_wrappers: itab of the 8085 *)
Definition itab85 : list op :=
  [
   NOP; LXI pB; STAX pB; INX pB; INR rB; DCR rB; MVI rB; RLC; DSUB; DAD pB; LDAX pB; DCX pB; INR rC; DCR rC; MVI rC; RRC;
   ARHL; LXI pD; STAX pD; INX pD; INR rD; DCR rD; MVI rD; RAL; RDEL; DAD pD; LDAX pD; DCX pD; INR rE; DCR rE; MVI rE; RAR;
   RIM; LXI pH; SHLD; INX pH; INR rH; DCR rH; MVI rH; DAA; LDHI; DAD pH; LHLD; DCX pH; INR rL; DCR rL; MVI rL; CMA;
   SIM; LXI pS; STA; INX pS; INR rM; DCR rM; MVI rM; STC; LDSI; DAD pS; LDA; DCX pS; INR rA; DCR rA; MVI rA; CMC;
   MOV rB rB; MOV rB rC; MOV rB rD; MOV rB rE; MOV rB rH; MOV rB rL; MOV rB rM; MOV rB rA; MOV rC rB; MOV rC rC; MOV rC rD; MOV rC rE; MOV rC rH; MOV rC rL; MOV rC rM; MOV rC rA;
   MOV rD rB; MOV rD rC; MOV rD rD; MOV rD rE; MOV rD rH; MOV rD rL; MOV rD rM; MOV rD rA; MOV rE rB; MOV rE rC; MOV rE rD; MOV rE rE; MOV rE rH; MOV rE rL; MOV rE rM; MOV rE rA;
   MOV rH rB; MOV rH rC; MOV rH rD; MOV rH rE; MOV rH rH; MOV rH rL; MOV rH rM; MOV rH rA; MOV rL rB; MOV rL rC; MOV rL rD; MOV rL rE; MOV rL rH; MOV rL rL; MOV rL rM; MOV rL rA;
   MOV rM rB; MOV rM rC; MOV rM rD; MOV rM rE; MOV rM rH; MOV rM rL; HLT; MOV rM rA; MOV rA rB; MOV rA rC; MOV rA rD; MOV rA rE; MOV rA rH; MOV rA rL; MOV rA rM; MOV rA rA;
   ALU kADD (Some rB); ALU kADD (Some rC); ALU kADD (Some rD); ALU kADD (Some rE); ALU kADD (Some rH); ALU kADD (Some rL); ALU kADD (Some rM); ALU kADD (Some rA); ALU kADC (Some rB); ALU kADC (Some rC); ALU kADC (Some rD); ALU kADC (Some rE); ALU kADC (Some rH); ALU kADC (Some rL); ALU kADC (Some rM); ALU kADC (Some rA);
   ALU kSUB (Some rB); ALU kSUB (Some rC); ALU kSUB (Some rD); ALU kSUB (Some rE); ALU kSUB (Some rH); ALU kSUB (Some rL); ALU kSUB (Some rM); ALU kSUB (Some rA); ALU kSBB (Some rB); ALU kSBB (Some rC); ALU kSBB (Some rD); ALU kSBB (Some rE); ALU kSBB (Some rH); ALU kSBB (Some rL); ALU kSBB (Some rM); ALU kSBB (Some rA);
   ALU kANA (Some rB); ALU kANA (Some rC); ALU kANA (Some rD); ALU kANA (Some rE); ALU kANA (Some rH); ALU kANA (Some rL); ALU kANA (Some rM); ALU kANA (Some rA); ALU kXRA (Some rB); ALU kXRA (Some rC); ALU kXRA (Some rD); ALU kXRA (Some rE); ALU kXRA (Some rH); ALU kXRA (Some rL); ALU kXRA (Some rM); ALU kXRA (Some rA);
   ALU kORA (Some rB); ALU kORA (Some rC); ALU kORA (Some rD); ALU kORA (Some rE); ALU kORA (Some rH); ALU kORA (Some rL); ALU kORA (Some rM); ALU kORA (Some rA); ALU kCMP (Some rB); ALU kCMP (Some rC); ALU kCMP (Some rD); ALU kCMP (Some rE); ALU kCMP (Some rH); ALU kCMP (Some rL); ALU kCMP (Some rM); ALU kCMP (Some rA);
   RCC cNZ; POP pB; JCC cNZ; JMP; CCC cNZ; PUSH pB; ALU kADD None; RST; RCC cZ; RET; JCC cZ; RSTV; CCC cZ; CALL; ALU kADC None; RST;
   RCC cNC; POP pD; JCC cNC; OUTP; CCC cNC; PUSH pD; ALU kSUB None; RST; RCC cC; SHLX; JCC cC; INP; CCC cC; JNX5; ALU kSBB None; RST;
   RCC cPO; POP pH; JCC cPO; XTHL; CCC cPO; PUSH pH; ALU kANA None; RST; RCC cPE; PCHL; JCC cPE; XCHG; CCC cPE; LHLX; ALU kXRA None; RST;
   RCC cP; POP pPSW; JCC cP; DI; CCC cP; PUSH pPSW; ALU kORA None; RST; RCC cM; SPHL; JCC cM; EI; CCC cM; JX5; ALU kCMP None; RST
  ].

(** i8085.src/glob.cc:164-181 ptab; the ones are replaced by 4, si8085.cc:46-48 *)
Definition ptab : list Z :=
  [1; 0; 0; 1; 0; 1; 1; 0; 0; 1; 1; 0; 1; 0; 0; 1;
   0; 1; 1; 0; 1; 0; 0; 1; 1; 0; 0; 1; 0; 1; 1; 0;
   0; 1; 1; 0; 1; 0; 0; 1; 1; 0; 0; 1; 0; 1; 1; 0;
   1; 0; 0; 1; 0; 1; 1; 0; 0; 1; 1; 0; 1; 0; 0; 1;
   0; 1; 1; 0; 1; 0; 0; 1; 1; 0; 0; 1; 0; 1; 1; 0;
   1; 0; 0; 1; 0; 1; 1; 0; 0; 1; 1; 0; 1; 0; 0; 1;
   1; 0; 0; 1; 0; 1; 1; 0; 0; 1; 1; 0; 1; 0; 0; 1;
   0; 1; 1; 0; 1; 0; 0; 1; 1; 0; 0; 1; 0; 1; 1; 0;
   0; 1; 1; 0; 1; 0; 0; 1; 1; 0; 0; 1; 0; 1; 1; 0;
   1; 0; 0; 1; 0; 1; 1; 0; 0; 1; 1; 0; 1; 0; 0; 1;
   1; 0; 0; 1; 0; 1; 1; 0; 0; 1; 1; 0; 1; 0; 0; 1;
   0; 1; 1; 0; 1; 0; 0; 1; 1; 0; 0; 1; 0; 1; 1; 0;
   1; 0; 0; 1; 0; 1; 1; 0; 0; 1; 1; 0; 1; 0; 0; 1;
   0; 1; 1; 0; 1; 0; 0; 1; 1; 0; 0; 1; 0; 1; 1; 0;
   0; 1; 1; 0; 1; 0; 0; 1; 1; 0; 0; 1; 0; 1; 1; 0;
   1; 0; 0; 1; 0; 1; 1; 0; 0; 1; 1; 0; 1; 0; 0; 1].

(** i8085.src/glob.cc:183-201 tick_tab_8080 *)
Definition tick_tab_8080 : list Z :=
  [4; 10; 7; 5; 5; 5; 7; 4; 4; 10; 7; 5; 5; 5; 7; 4;
   4; 10; 7; 5; 5; 5; 7; 4; 4; 10; 7; 5; 5; 5; 7; 4;
   4; 10; 16; 5; 5; 5; 7; 4; 4; 10; 16; 5; 5; 5; 7; 4;
   4; 10; 13; 5; 10; 10; 10; 4; 4; 10; 13; 5; 5; 5; 7; 4;
   5; 5; 5; 5; 5; 5; 7; 5; 5; 5; 5; 5; 5; 5; 7; 5;
   5; 5; 5; 5; 5; 5; 7; 5; 5; 5; 5; 5; 5; 5; 7; 5;
   5; 5; 5; 5; 5; 5; 7; 5; 5; 5; 5; 5; 5; 5; 7; 5;
   7; 7; 7; 7; 7; 7; 7; 7; 5; 5; 5; 5; 5; 5; 7; 5;
   4; 4; 4; 4; 4; 4; 7; 4; 4; 4; 4; 4; 4; 4; 7; 4;
   4; 4; 4; 4; 4; 4; 7; 4; 4; 4; 4; 4; 4; 4; 7; 4;
   4; 4; 4; 4; 4; 4; 7; 4; 4; 4; 4; 4; 4; 4; 7; 4;
   4; 4; 4; 4; 4; 4; 7; 4; 4; 4; 4; 4; 4; 4; 7; 4;
   2821; 10; 10; 10; 4363; 11; 7; 11; 2821; 10; 10; 10; 4363; 17; 7; 11;
   2821; 10; 10; 10; 4363; 11; 7; 11; 2821; 10; 10; 10; 4363; 17; 7; 11;
   2821; 10; 10; 18; 4363; 11; 7; 11; 2821; 5; 10; 5; 4363; 17; 7; 11;
   2821; 10; 10; 4; 4363; 11; 7; 11; 2821; 5; 10; 4; 4363; 17; 7; 11].

(** i8085.src/glob.cc:203-221 tick_tab_8085 *)
Definition tick_tab_8085 : list Z :=
  [4; 10; 7; 6; 4; 4; 7; 4; 10; 10; 7; 6; 4; 4; 7; 4;
   7; 10; 7; 6; 4; 4; 7; 4; 10; 10; 7; 6; 4; 4; 7; 4;
   4; 10; 16; 6; 4; 4; 7; 4; 10; 10; 16; 6; 4; 4; 7; 4;
   4; 10; 13; 6; 10; 10; 10; 4; 10; 10; 13; 6; 4; 4; 7; 4;
   4; 4; 4; 4; 4; 4; 7; 4; 4; 4; 4; 4; 4; 4; 7; 4;
   4; 4; 4; 4; 4; 4; 7; 4; 4; 4; 4; 4; 4; 4; 7; 4;
   4; 4; 4; 4; 4; 4; 7; 4; 4; 4; 4; 4; 4; 4; 7; 4;
   7; 7; 7; 7; 7; 7; 5; 7; 4; 4; 4; 4; 5; 4; 7; 4;
   4; 4; 4; 4; 4; 4; 7; 4; 4; 4; 4; 4; 4; 4; 7; 4;
   4; 4; 4; 4; 4; 4; 7; 4; 4; 4; 4; 4; 4; 4; 7; 4;
   4; 4; 4; 4; 4; 4; 7; 4; 4; 4; 4; 4; 4; 4; 7; 4;
   4; 4; 4; 4; 4; 4; 7; 4; 4; 4; 4; 4; 4; 4; 7; 4;
   3078; 10; 2567; 10; 4617; 12; 7; 12; 3078; 10; 2567; 3078; 4617; 18; 7; 12;
   3078; 10; 2567; 10; 4617; 12; 7; 12; 3078; 10; 2567; 10; 4617; 2567; 7; 12;
   3078; 10; 2567; 16; 4617; 12; 7; 12; 3078; 6; 2567; 4; 4617; 26; 7; 12;
   3078; 10; 2567; 4; 4617; 12; 7; 12; 3078; 6; 2567; 4; 4617; 2567; 7; 12].

(** i8085.src/glob.cc:33-161 disass_common, disass_8080, disass_8085: code, mask, length *)
Definition disass_common : list (Z * Z * Z) :=
  [(0, 255, 1); (118, 255, 1); (251, 255, 1); (243, 255, 1); (64, 192, 1); (6, 199, 2); (1, 207, 3); (58, 255, 3); (50, 255, 3); (42, 255, 3); (34, 255, 3); (10, 255, 1); (26, 255, 1); (2, 255, 1); (18, 255, 1); (235, 255, 1); (219, 255, 2); (211, 255, 2); (197, 207, 1); (193, 207, 1); (227, 255, 1); (249, 255, 1); (128, 248, 1); (198, 255, 2); (136, 248, 1); (206, 255, 2); (144, 248, 1); (214, 255, 2); (152, 248, 1); (222, 255, 2); (184, 248, 1); (254, 255, 2); (9, 207, 1); (4, 199, 1); (5, 199, 1); (3, 207, 1); (11, 207, 1); (160, 248, 1); (230, 255, 2); (176, 248, 1); (246, 255, 2); (168, 248, 1); (238, 255, 2); (7, 255, 1); (15, 255, 1); (23, 255, 1); (31, 255, 1); (39, 255, 1); (47, 255, 1); (63, 255, 1); (55, 255, 1); (195, 255, 3); (194, 255, 3); (202, 255, 3); (210, 255, 3); (218, 255, 3); (226, 255, 3); (234, 255, 3); (242, 255, 3); (250, 255, 3); (205, 255, 3); (196, 255, 3); (204, 255, 3); (212, 255, 3); (220, 255, 3); (228, 255, 3); (236, 255, 3); (244, 255, 3); (252, 255, 3); (201, 255, 1); (192, 255, 1); (200, 255, 1); (208, 255, 1); (216, 255, 1); (224, 255, 1); (232, 255, 1); (240, 255, 1); (248, 255, 1); (199, 199, 1); (233, 255, 1)].

Definition disass_8080 : list (Z * Z * Z) :=
  [(16, 255, 1); (32, 255, 1); (48, 255, 1); (8, 255, 1); (24, 255, 1); (40, 255, 1); (56, 255, 1); (217, 255, 1); (203, 255, 3); (221, 255, 3); (237, 255, 3); (253, 255, 3)].

Definition disass_8085 : list (Z * Z * Z) :=
  [(32, 255, 1); (48, 255, 1); (16, 255, 1); (24, 255, 1); (8, 255, 1); (221, 255, 3); (253, 255, 3); (203, 255, 1); (40, 255, 2); (56, 255, 2); (237, 255, 1); (217, 255, 1)].



(** ** Registers and memory *)
Definition BC (s : cpu) : Z := 256 * B s + C s.
Definition DE (s : cpu) : Z := 256 * D s + E s.
Definition HL (s : cpu) : Z := 256 * H s + L s.
Definition AF (s : cpu) : Z := 256 * A s + F s.
(** a write to a 16 bit cell stores the two halves; memcl.h:424-432 cl_cell16 *)
Definition wBC (v : Z) (s : cpu) : cpu := set_B (u8 (v / 256)) (set_C (u8 v) s).
Definition wDE (v : Z) (s : cpu) : cpu := set_D (u8 (v / 256)) (set_E (u8 v) s).
Definition wHL (v : Z) (s : cpu) : cpu := set_H (u8 (v / 256)) (set_L (u8 v) s).
(** cAF has no operator: the flags are stored as they are *)
Definition wAF (v : Z) (s : cpu) : cpu := set_A (u8 (v / 256)) (set_F (u8 v) s).
Definition wSP (v : Z) (s : cpu) : cpu := set_SP (u16 v) s.
Definition wA (v : Z) (s : cpu) : cpu := set_A (u8 v) s.
(** i8080.cc:41-47 cl_flag80_op::write, i8085.cc:39-44 cl_flag85_op::write *)
Definition wF (m85 : bool) (v : Z) (s : cpu) : cpu :=
  set_F (if m85 then Z.land (u8 v) 247 else Z.lor (Z.land (u8 v) 215) 2) s.
Definition inmem (a : Z) : bool := (0 <=? a) && (a <? 65536).
Definition updm (m : Z -> Z) (a v : Z) : Z -> Z := fun x => if x =? a then v else m x.
Definition rd (dum : Z) (s : cpu) (a : Z) : Z := if inmem a then mem s a else dum.
Definition wr (a v : Z) (s : cpu) : cpu := if inmem a then set_mem (updm (mem s) a (u8 v)) s else s.
(** uc.cc:2893-2898 cl_uc::read_addr *)
Definition rd16 (dum : Z) (s : cpu) (a : Z) : Z := rd dum s a + 256 * rd dum s (a + 1).
(** uc.cc:3186-3197 cl_uc::fetch *)
Definition fetch (s : cpu) : Z * cpu := (mem s (PC s), set_PC ((PC s + 1) mod 65536) s).
(** i8080.cc:454-461 cl_i8080::fetch16 *)
Definition fetch16 (s : cpu) : Z * cpu :=
  let '(l, s1) := fetch s in let '(h, s2) := fetch s1 in (h * 256 + l, s2).
(** i8080cl.h:58-73 rB, rC, rD, rE, rH, rL, rA, rM *)
Definition get (dum : Z) (r : reg) (s : cpu) : Z :=
  match r with
  | rB => B s | rC => C s | rD => D s | rE => E s | rH => H s | rL => L s | rA => A s
  | rM => rd dum s (HL s)
  end.
(** the cells cB ... cL, cA; i8080.cc:446-452 cl_i8080::cM *)
Definition put (r : reg) (v : Z) (s : cpu) : cpu :=
  match r with
  | rB => set_B (u8 v) s | rC => set_C (u8 v) s | rD => set_D (u8 v) s | rE => set_E (u8 v) s
  | rH => set_H (u8 v) s | rL => set_L (u8 v) s | rA => set_A (u8 v) s
  | rM => wr (HL s) v s
  end.
Definition get2 (p : pair) (s : cpu) : Z :=
  match p with pB => BC s | pD => DE s | pH => HL s | pS => SP s | pPSW => AF s end.
Definition put2 (p : pair) (v : Z) (s : cpu) : cpu :=
  match p with pB => wBC v s | pD => wDE v s | pH => wHL v s | pS => wSP v s | pPSW => wAF v s end.

(** ** Stack *)
(** i8080.cc:484-494 cl_i8080::push2, i8080.cc:508-518 cl_i8080::stack_check_overflow;
    [ipc] is instPC, [lim] is sp_limit *)
Definition push2 (lim ipc v : Z) (s : cpu) : cpu :=
  let b := SP s in
  let s := wSP (SP s - 1) s in
  let s := wr (SP s) (v / 256) s in
  let s := wSP (SP s - 1) s in
  let s := wr (SP s) v s in
  if SP s <? lim then set_errs (errs s ++ [(ipc, b, SP s)]) s else s.
(** i8080.cc:496-506 cl_i8080::pop2 *)
Definition pop2 (dum : Z) (s : cpu) : Z * cpu :=
  let l := rd dum s (SP s) in
  let s := wSP (SP s + 1) s in
  let h := rd dum s (SP s) in
  let s := wSP (SP s + 1) s in
  (h * 256 + l, s).

(** ** Flags *)
Definition fl (c : bool) (m : Z) : Z := if c then m else 0.
Definition clr (f m : Z) : Z := Z.land f (255 - m).
(** i8080cl.h:94-96 ADDV, ADDV8, ADDV16: bit [k] of the overflow *)
Definition addv (k a b r : Z) : Z :=
  fl (let x := Z.testbit a k in let y := Z.testbit b k in let z := Z.testbit r k in
      (x && y && negb z) || (negb x && negb y && z)) 2.
(** i8080cl.h:97-97 X5 *)
Definition x5 (f r : Z) : Z := fl (xorb (Z.testbit f 1) (Z.testbit r 7)) 32.
Definition par (r : Z) : Z := 4 * nth (Z.to_nat r) ptab 0.
(** flags Z, S, X5, P of a result; the flags are or-ed into [f] in this order *)
Definition szp (f r : Z) : Z :=
  let f := Z.lor f (fl (r =? 0) 64) in
  let f := Z.lor f (fl (Z.testbit r 7) 128) in
  let f := Z.lor f (x5 f r) in
  Z.lor f (par r).

(** ** Arithmetic *)
(** i8085.src/ialu.cc:30-52 cl_i8080::add8; op is u8_t, so op++ wraps *)
Definition add8 (m85 : bool) (op : Z) (add_c is_daa : bool) (s : cpu) : cpu :=
  let op := if add_c && Z.testbit (F s) 0 then u8 (op + 1) else op in
  let res := A s + op in
  let f := clr (F s) 231 in
  let f := if is_daa then f else clr f 16 in
  let f := Z.lor f (fl (255 <? res) 1) in
  let res := u8 res in
  let f := if is_daa then f else Z.lor f (fl (15 <? A s mod 16 + op mod 16) 16) in
  let f := Z.lor f (addv 7 (A s) op res) in
  let f := szp f res in
  wF m85 f (wA res s).
(** i8085.src/ialu.cc:54-74 cl_i8080::sub8 *)
Definition sub8 (m85 : bool) (op : Z) (sub_c cmp : bool) (s : cpu) : cpu :=
  let orgb := op in
  let op := if sub_c && Z.testbit (F s) 0 then u8 (op + 1) else op in
  let op := u8 (- op) in
  let res := A s + op in
  let f := clr (F s) 247 in
  let f := Z.lor f (fl (A s <? orgb) 1) in
  let res := u8 res in
  let f := Z.lor f (fl (15 <? A s mod 16 + op mod 16) 16) in
  let f := Z.lor f (addv 7 (A s) op res) in
  let f := szp f res in
  wF m85 f (if cmp then s else wA res s).
(** i8085.src/ialu.cc:141-154 cl_i8080::ana, i8085.src/ialu.cc:156-168 cl_i8080::ora, i8085.src/ialu.cc:170-182 cl_i8080::xra *)
Definition ana (m85 : bool) (op : Z) (s : cpu) : cpu :=
  let res := Z.land (A s) op in
  wF m85 (szp (Z.lor (clr (F s) 247) 16) res) (wA res s).
Definition ora (m85 : bool) (op : Z) (s : cpu) : cpu :=
  let res := Z.lor (A s) op in
  wF m85 (szp (clr (F s) 247) res) (wA res s).
Definition xra (m85 : bool) (op : Z) (s : cpu) : cpu :=
  let res := Z.lxor (A s) op in
  wF m85 (szp (clr (F s) 247) res) (wA res s).
(** i8080cl.h:211-272 add8, sub8, ana, ora, xra: which function with which arguments *)
Definition alu_op (m85 : bool) (k : alu) (v : Z) (s : cpu) : cpu :=
  match k with
  | kADD => add8 m85 v false false s
  | kADC => add8 m85 v true false s
  | kSUB => sub8 m85 v false false s
  | kSBB => sub8 m85 v true false s
  | kCMP => sub8 m85 v false true s
  | kANA => ana m85 v s
  | kORA => ora m85 v s
  | kXRA => xra m85 v s
  end.
(** i8085.src/ialu.cc:76-86 cl_i8080::dad *)
Definition dad (m85 : bool) (op : Z) (s : cpu) : cpu :=
  let res := HL s + op in
  let f := clr (F s) 3 in
  let f := Z.lor f (fl (65535 <? res) 1) in
  let f := Z.lor f (addv 15 (HL s) op res) in
  wF m85 f (wHL res s).
(** i8085.src/ialu.cc:88-104 cl_i8080::inr *)
Definition inr (m85 : bool) (dum : Z) (r : reg) (s : cpu) : cpu :=
  let a := get dum r s in
  let res := u8 (a + 1) in
  let f := clr (F s) 246 in
  let f := Z.lor f (fl (a mod 16 =? 15) 16) in
  let f := Z.lor f (addv 7 a 1 res) in
  wF m85 (szp f res) (put r res s).
(** i8085.src/ialu.cc:106-121 cl_i8080::dcr *)
Definition dcr (m85 : bool) (dum : Z) (r : reg) (s : cpu) : cpu :=
  let a := get dum r s in
  let res := u8 (a + 255) in
  let f := clr (F s) 246 in
  let f := Z.lor f (fl (15 <? a mod 16 + 15) 16) in
  let f := Z.lor f (addv 7 a 255 res) in
  wF m85 (szp f res) (put r res s).
(** i8085.src/ialu.cc:123-130 cl_i8080::inx, i8085.cc:191-201 cl_i8085::inx *)
Definition inx (m85 : bool) (p : pair) (s : cpu) : cpu :=
  if m85 then wF true (Z.lor (clr (F s) 32) (fl (get2 p s =? 65535) 32)) (put2 p (get2 p s + 1) s)
  else put2 p (get2 p s + 1) s.
(** i8085.src/ialu.cc:132-139 cl_i8080::dcx, i8085.cc:203-213 cl_i8085::dcx *)
Definition dcx (m85 : bool) (p : pair) (s : cpu) : cpu :=
  if m85 then wF true (Z.lor (clr (F s) 32) (fl (get2 p s =? 0) 32)) (put2 p (get2 p s - 1) s)
  else put2 p (get2 p s - 1) s.
(** i8085.src/ialu.cc:184-197 cl_i8080::RLC *)
Definition rlc (m85 : bool) (s : cpu) : cpu :=
  let c := Z.testbit (A s) 7 in
  let a := u8 (2 * A s) + fl c 1 in
  wF m85 (Z.lor (Z.lor (clr (F s) 1) (addv 7 (A s) (A s) a)) (fl c 1)) (wA a s).
(** i8085.src/ialu.cc:199-211 cl_i8080::RRC *)
Definition rrc (m85 : bool) (s : cpu) : cpu :=
  let c := Z.testbit (A s) 0 in
  let a := A s / 2 + fl c 128 in
  wF m85 (Z.lor (clr (F s) 1) (fl c 1)) (wA a s).
(** i8085.src/ialu.cc:213-227 cl_i8080::RAL *)
Definition ral (m85 : bool) (s : cpu) : cpu :=
  let c := Z.testbit (A s) 7 in
  let a := u8 (2 * A s) + fl (Z.testbit (F s) 0) 1 in
  wF m85 (Z.lor (Z.lor (clr (F s) 1) (addv 7 (A s) (A s) a)) (fl c 1)) (wA a s).
(** i8085.src/ialu.cc:229-242 cl_i8080::RAR *)
Definition rar (m85 : bool) (s : cpu) : cpu :=
  let c := Z.testbit (A s) 0 in
  let a := A s / 2 + fl (Z.testbit (F s) 0) 128 in
  wF m85 (Z.lor (clr (F s) 1) (fl c 1)) (wA a s).
(** i8085.src/ialu.cc:244-270 cl_i8080::DAA *)
Definition daa (m85 : bool) (s : cpu) : cpu :=
  let corr := if (9 <? A s mod 16) || Z.testbit (F s) 4 then 6 else 0 in
  let c := if corr =? 6 then 9 else 10 in
  let corr := if (c <=? A s / 16) || Z.testbit (F s) 0 then Z.lor corr 96 else corr in
  if corr =? 0 then s else add8 m85 corr false true s.

(** ** Branches *)
(** i8080cl.h:335-342 JNZ, JM, and the same for calls and returns at 345-362 *)
Definition holds (c : cond) (s : cpu) : bool :=
  match c with
  | cNZ => negb (Z.testbit (F s) 6) | cZ => Z.testbit (F s) 6
  | cNC => negb (Z.testbit (F s) 0) | cC => Z.testbit (F s) 0
  | cPO => negb (Z.testbit (F s) 2) | cPE => Z.testbit (F s) 2
  | cP => negb (Z.testbit (F s) 7) | cM => Z.testbit (F s) 7
  end.
(** i8085.src/ibranch.cc:39-49 cl_i8080::jmp_if *)
Definition jmp_if (c : bool) (s : cpu) : cpu :=
  let '(a, s) := fetch16 s in
  if c then set_tsh 8 (set_PC a s) else s.
(** i8085.src/ibranch.cc:60-71 cl_i8080::call_if *)
Definition call_if (lim ipc : Z) (c : bool) (s : cpu) : cpu :=
  let '(a, s) := fetch16 s in
  if c then set_tsh 8 (set_PC a (push2 lim ipc (PC s) s)) else s.
(** i8085.src/ibranch.cc:80-89 cl_i8080::ret_if *)
Definition ret_if (dum : Z) (c : bool) (s : cpu) : cpu :=
  if c then let '(a, s) := pop2 dum s in set_tsh 8 (set_PC a s) else s.

(** ** 8085 only *)
(** i8085.cc:229-239 cl_i8085::ARHL: v is i16_t *)
Definition arhl (s : cpu) : cpu :=
  wF true (Z.lor (clr (F s) 1) (fl (Z.testbit (L s) 0) 1)) (wHL (i16 (HL s) / 2) s).
(** i8085.cc:241-255 cl_i8085::RDEL *)
Definition rdel (s : cpu) : cpu :=
  let f := Z.lor (clr (F s) 3) (fl (Z.testbit (D s) 7) 1) in
  let f := Z.lor f (fl (xorb (Z.testbit (D s) 7) (Z.testbit (D s) 6)) 2) in
  wF true f (wDE (u16 (2 * DE s) + fl (Z.testbit (F s) 0) 1) s).
(** i8085.cc:257-274 cl_i8085::DSUB *)
Definition dsub (s : cpu) : cpu :=
  let a := HL s in let b := u16 (- BC s) in
  let r := a + b in
  let f := Z.lor (clr (F s) 247) (fl (r <=? 65535) 1) in
  let f := Z.lor f (fl (Z.testbit r 15) 128) in
  let r := u16 r in
  let f := Z.lor f (fl (r =? 0) 64) in
  let f := Z.lor f (fl (4095 <? a mod 4096 + b mod 4096) 16) in
  let f := Z.lor f (par (r / 256)) in
  wF true f (wHL r s).

(** ** One instruction *)
(** the functions of i8085.src/imove.cc:31-138 (mvi8, lxi16, LDA_a16, ldax, XCHG, XTHL, SPHL),
    i8085.src/ibranch.cc:31-105 (JMP, CALL, RET, PCHL, rst), i8085.src/inst.cc:31-49 HLT, EI, DI and
    i8085.cc:215-337 RIM, SIM, JNX5, JX5, RSTV, LDHI, LDSI, LHLX, SHLX, with the
    arguments given in i8080cl.h:167-334 (PUSH_B, POP_PSW, DAD_B and so on).
    The boolean result: HLT *)
Definition run (m85 : bool) (lim dum ipc code : Z) (o : op) (s : cpu) : cpu * bool :=
  match o with
  | HLT => (s, true)
  | _ =>
  (match o with
   | NOP | EI | DI | RIM | SIM | HLT => s
   | MOV d r => put d (get dum r s) s
   | MVI d => let '(v, s) := fetch s in put d v s
   | LXI p => let '(v, s) := fetch16 s in put2 p v s
   | LDA => let '(a, s) := fetch16 s in wA (rd dum s a) s
   | STA => let '(a, s) := fetch16 s in wr a (A s) s
   | LHLD => let '(a, s) := fetch16 s in wHL (rd16 dum s a) s
   | SHLD => let '(a, s) := fetch16 s in wr (a + 1) (H s) (wr a (L s) s)
   | LDAX p => wA (rd dum s (get2 p s)) s
   | STAX p => wr (get2 p s) (A s) s
   | XCHG => let t := HL s in wDE t (wHL (DE s) s)
   | INP | OUTP => snd (fetch s)
   | PUSH p => push2 lim ipc (get2 p s) s
   | POP p => let '(v, s) := pop2 dum s in put2 p v s
   | XTHL => let t := rd16 dum s (SP s) in wHL t (wr (SP s + 1) (H s) (wr (SP s) (L s) s))
   | SPHL => wSP (HL s) s
   | ALU k (Some r) => alu_op m85 k (get dum r s) s
   | ALU k None => let '(v, s) := fetch s in alu_op m85 k v s
   | DAD p => dad m85 (get2 p s) s
   | INR r => inr m85 dum r s
   | DCR r => dcr m85 dum r s
   | INX p => inx m85 p s
   | DCX p => dcx m85 p s
   | RLC => rlc m85 s | RRC => rrc m85 s | RAL => ral m85 s | RAR => rar m85 s
   | DAA => daa m85 s
   | CMA => wA (255 - A s) s
   | CMC => wF m85 (Z.lxor (F s) 1) s
   | STC => wF m85 (Z.lor (F s) 1) s
   | JMP => let '(a, s) := fetch16 s in set_PC a s
   | JCC c => jmp_if (holds c s) s
   | CALL => let '(a, s) := fetch16 s in set_PC a (push2 lim ipc (PC s) s)
   | CCC c => call_if lim ipc (holds c s) s
   | RET => let '(a, s) := pop2 dum s in set_PC a s
   | RCC c => ret_if dum (holds c s) s
   | RST => set_PC (Z.land code 40) (push2 lim ipc (PC s) s)
   | PCHL => set_PC (HL s) s
   | ARHL => arhl s
   | RDEL => rdel s
   | DSUB => dsub s
   | JNX5 => jmp_if (Z.testbit (F s) 5) s
   | JX5 => jmp_if (negb (Z.testbit (F s) 5)) s
   | RSTV => if Z.testbit (F s) 1 then set_tsh 8 (set_PC 64 (push2 lim ipc (PC s) s)) else s
   | LDHI => let '(v, s) := fetch s in wDE (rd16 dum s (u16 (HL s + v))) s
   | LDSI => let '(v, s) := fetch s in wDE (rd16 dum s (u16 (SP s + v))) s
   | LHLX => wHL (rd16 dum s (DE s)) s
   | SHLX => wr (u16 (DE s + 1)) (H s) (wr (DE s) (L s) s)
   end, false)
  end.
Definition itab (m85 : bool) (code : Z) : op := nth (Z.to_nat code) (if m85 then itab85 else itab80) NOP.
(** what the simulator is told: go on, stop at the breakpoint, halted *)
Inductive result := GO | BREAKPOINT | HALT.
(** i8080.cc:463-482 cl_i8080::exec_inst: the cycles to add, read from the table with the
    code found in memory after the instruction *)
Definition last_ticks (m85 : bool) (ipc : Z) (s : cpu) : cpu :=
  let t := nth (Z.to_nat (mem s ipc)) (if m85 then tick_tab_8085 else tick_tab_8080) 0 in
  set_ticks (ticks s + (Z.land (Z.shiftr t (tsh s)) 255 - 1)) s.
(** i8080.cc:463-482 cl_i8080::exec_inst, uc.cc:3328-3349 cl_uc::exec_inst_tab,
    uc.cc:3234-3243 cl_uc::fetch; [hit]: a breakpoint is hit at PC *)
Definition exec_inst (m85 : bool) (lim dum : Z) (hit : bool) (s : cpu) : cpu * result :=
  let ipc := PC s in
  let s := set_tsh 0 s in
  if hit then (last_ticks m85 ipc s, BREAKPOINT)
  else
    let '(code, s) := fetch s in
    let s := set_ticks (ticks s + 1) s in
    let '(s, h) := run m85 lim dum ipc code (itab m85 code) s in
    (last_ticks m85 ipc s, if h then HALT else GO).

(** i8080.cc:181-200 cl_i8080::get_dis_entry, i8085.cc:127-145 cl_i8085::get_dis_entry:
    the length of the instruction *)
Fixpoint find_entry (code : Z) (l : list (Z * Z * Z)) : option Z :=
  match l with
  | [] => None
  | (c, m, n) :: t => if Z.land code m =? c then Some n else find_entry code t
  end.
Definition dis_length (m85 : bool) (code : Z) : option Z :=
  match find_entry code (if m85 then disass_8085 else disass_8080) with
  | Some n => Some n
  | None => find_entry code disass_common
  end.
