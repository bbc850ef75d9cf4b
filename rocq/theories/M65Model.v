(** Model of the MOS6502 simulator (mos6502.src): registers, operands,
    instructions, stack, interrupts. The derived types (65C02, 6510, HUC6280)
    are not modelled. *)
From Verif Require Import Base.

(** mos6502.src/mos6502cl.h:50-78 flagN, the flag bits used here *)
Definition flagN := 0x80.
Definition flagV := 0x40.
Definition flagB := 0x10.
Definition flagD := 0x08.
Definition flagI := 0x04.
Definition flagZ := 0x02.
Definition flagC := 0x01.

(** mos6502.src/mos6502cl.h:103-114 cl_mos6502: registers, the 64K memory, plus
    [hole]: what the dummy cell of an address space returns, for addresses
    outside (mem.cc:1606-1617 read); [brk]: the request cell of the BRK source
    (mos6502.src/irqcl.h:34-43 m65_brk), [lvl]: it_levels from the top, only
    the level numbers, [ticks]: clock cycles used. vc counters, stack tracking
    and i8d's identity as a cell are not modelled (i8d is kept as a value). *)
Record st := mk {
  rA : Z; rX : Z; rY : Z; rSP : Z; rF : Z; PC : Z;
  mem : Z -> Z; hole : Z; i8d : Z;
  brk : bool; set_b : bool; lvl : list Z; ticks : Z
}.
Definition sA v s := mk v (rX s) (rY s) (rSP s) (rF s) (PC s) (mem s) (hole s) (i8d s) (brk s) (set_b s) (lvl s) (ticks s).
Definition sX v s := mk (rA s) v (rY s) (rSP s) (rF s) (PC s) (mem s) (hole s) (i8d s) (brk s) (set_b s) (lvl s) (ticks s).
Definition sY v s := mk (rA s) (rX s) v (rSP s) (rF s) (PC s) (mem s) (hole s) (i8d s) (brk s) (set_b s) (lvl s) (ticks s).
Definition sSP v s := mk (rA s) (rX s) (rY s) v (rF s) (PC s) (mem s) (hole s) (i8d s) (brk s) (set_b s) (lvl s) (ticks s).
Definition sF v s := mk (rA s) (rX s) (rY s) (rSP s) v (PC s) (mem s) (hole s) (i8d s) (brk s) (set_b s) (lvl s) (ticks s).
Definition sPC v s := mk (rA s) (rX s) (rY s) (rSP s) (rF s) v (mem s) (hole s) (i8d s) (brk s) (set_b s) (lvl s) (ticks s).
Definition sM v s := mk (rA s) (rX s) (rY s) (rSP s) (rF s) (PC s) v (hole s) (i8d s) (brk s) (set_b s) (lvl s) (ticks s).
Definition sI8 v s := mk (rA s) (rX s) (rY s) (rSP s) (rF s) (PC s) (mem s) (hole s) v (brk s) (set_b s) (lvl s) (ticks s).
Definition sBrk v s := mk (rA s) (rX s) (rY s) (rSP s) (rF s) (PC s) (mem s) (hole s) (i8d s) v (set_b s) (lvl s) (ticks s).
Definition sSetB v s := mk (rA s) (rX s) (rY s) (rSP s) (rF s) (PC s) (mem s) (hole s) (i8d s) (brk s) v (lvl s) (ticks s).
Definition sLvl v s := mk (rA s) (rX s) (rY s) (rSP s) (rF s) (PC s) (mem s) (hole s) (i8d s) (brk s) (set_b s) v (ticks s).
Definition sTk v s := mk (rA s) (rX s) (rY s) (rSP s) (rF s) (PC s) (mem s) (hole s) (i8d s) (brk s) (set_b s) (lvl s) v.

(** uc.cc:3061-3082 tick: with clock_per_cycle() 1
    (mos6502.src/mos6502cl.h:133 clock_per_cycle) *)
Definition tick (n : Z) (s : st) : st := sTk (ticks s + n) s.

(** Memory: a cl_as65 of 64K 8 bit cells (mos6502.src/mos6502.cc:230-250
    make_memories), read() outside gives the dummy cell, write() stores 8 bits.
    Simplification: write() outside is dropped (it only changes the dummy). *)
Definition rd (s : st) (a : Z) : Z := if (0 <=? a) && (a <? 65536) then mem s a else hole s.
Definition wr (a v : Z) (s : st) : st :=
  if (0 <=? a) && (a <? 65536) then sM (fun x => if x =? a then u8 v else mem s x) s else s.

(** uc.cc:3186-3197 fetch with PCmask 0xffff *)
Definition fetch (s : st) : Z * st := (rd s (PC s), sPC (Z.land (PC s + 1) 0xffff) s).

(** The cells instructions work on: registers wrapped in cl_cell8
    (mos6502.src/mos6502.cc:124-150 init), the immediate byte, memory cells.
    cl_cell8 stores 8 bits (mem.cc:924-929 cl_cell8::d). *)
Inductive cell := cA | cX | cY | cSP | cF | ci8 | cM (a : Z).
Definition R (c : cell) (s : st) : Z :=
  match c with
  | cA => rA s | cX => rX s | cY => rY s | cSP => rSP s | cF => rF s | ci8 => i8d s
  | cM a => rd s a
  end.
Definition W (c : cell) (v : Z) (s : st) : st :=
  match c with
  | cA => sA (u8 v) s | cX => sX (u8 v) s | cY => sY (u8 v) s | cSP => sSP (u8 v) s
  | cF => sF (u8 v) s | ci8 => sI8 (u8 v) s
  | cM a => wr a v s
  end.

(** mos6502.src/mos6502.cc:485-492 read_addr *)
Definition read_addr (s : st) (a : Z) : Z := u8 (rd s (a + 1)) * 256 + u8 (rd s a).
(** mos6502.src/mos6502cl.h:191 i16 *)
Definition i16f (s : st) : Z * st :=
  let (l, s) := fetch s in let (h, s) := fetch s in (u16 (u8 h * 256 + u8 l), s).

(** Operands: mos6502.src/mos6502.cc:494-501 imm8 *)
Definition imm8 (s : st) : cell * st :=
  let (v, s) := fetch s in (ci8, tick 1 (sI8 (u8 v) s)).
(** mos6502.src/mos6502.cc:503-511 zpg *)
Definition zpg (s : st) : cell * st :=
  let (v, s) := fetch s in (cM (u8 v), tick 2 s).
(** mos6502.src/mos6502.cc:513-521 zpgX *)
Definition zpgX (s : st) : cell * st :=
  let (v, s) := fetch s in (cM (u8 (v + rX s)), tick 3 s).
(** mos6502.src/mos6502.cc:523-531 zpgY *)
Definition zpgY (s : st) : cell * st :=
  let (v, s) := fetch s in (cM (u8 (v + rY s)), tick 3 s).
(** mos6502.src/mos6502.cc:533-541 abs *)
Definition abs (s : st) : cell * st :=
  let (a, s) := i16f s in (cM a, tick 3 s).
Definition cross (a1 a2 : Z) : bool := negb (Z.land a1 0xff00 =? Z.land a2 0xff00).
Definition tick_if (b : bool) (s : st) : st := if b then tick 1 s else s.
(** mos6502.src/mos6502.cc:543-554 absX *)
Definition absX (s : st) : cell * st :=
  let (a1, s) := i16f s in
  let a2 := u16 (a1 + rX s) in
  (cM a2, tick_if (cross a1 a2) (tick 3 s)).
(** mos6502.src/mos6502.cc:556-567 absY *)
Definition absY (s : st) : cell * st :=
  let (a1, s) := i16f s in
  let a2 := u16 (a1 + rY s) in
  (cM a2, tick_if (cross a1 a2) (tick 3 s)).
(** mos6502.src/mos6502.cc:591-600 indX *)
Definition indX (s : st) : cell * st :=
  let (v, s) := fetch s in
  let a0 := u8 (v + rX s) in
  (cM (u16 (read_addr s a0)), tick 5 s).
(** mos6502.src/mos6502.cc:602-613 indY *)
Definition indY (s : st) : cell * st :=
  let (v, s) := fetch s in
  let a1 := u16 (read_addr s v) in
  let a2 := u16 (a1 + rY s) in
  (cM a2, tick_if (cross a1 a2) (tick 4 s)).
(** mos6502.src/mos6502cl.h:172-192 rmwzpg, rmwzpgX, rmwabs, rmwabsX. The
    dst* variants only count accesses, they are the read variants here. *)
Definition rmwzpg (s : st) := zpg (tick 2 s).
Definition rmwzpgX (s : st) := zpgX (tick 2 s).
Definition rmwabs (s : st) := abs (tick 2 s).
Definition rmwabsX (s : st) := absX (tick 3 s).

(** if (b) f|= m *)
Definition orif (b : bool) (m f : Z) : Z := if b then Z.lor f m else f.
(** rF&= ~(flagZ|flagS), then the two flags from a value *)
Definition nz (v f : Z) : Z :=
  orif (negb (Z.land v 0x80 =? 0)) flagN (orif (v =? 0) flagZ (Z.ldiff f (Z.lor flagZ flagN))).

(** mos6502.src/ialu.cc:30-40 INY *)
Definition INY (s : st) : st :=
  let s := W cY (rY s + 1) s in tick 1 (W cF (nz (rY s) (rF s)) s).
(** mos6502.src/ialu.cc:42-52 INX *)
Definition INX (s : st) : st :=
  let s := W cX (rX s + 1) s in tick 1 (W cF (nz (rX s) (rF s)) s).
(** mos6502.src/ialu.cc:54-64 inc *)
Definition inc (o : cell * st) : st :=
  let (c, s) := o in
  let v := u8 (R c s + 1) in
  let s := W c v s in W cF (nz v (rF s)) s.
(** mos6502.src/ialu.cc:66-76 DEY *)
Definition DEY (s : st) : st :=
  let s := W cY (rY s - 1) s in tick 1 (W cF (nz (rY s) (rF s)) s).
(** mos6502.src/ialu.cc:78-88 DEX *)
Definition DEX (s : st) : st :=
  let s := W cX (rX s - 1) s in tick 1 (W cF (nz (rX s) (rF s)) s).
(** mos6502.src/ialu.cc:90-100 dec *)
Definition dec (o : cell * st) : st :=
  let (c, s) := o in
  let v := u8 (R c s - 1) in
  let s := W c v s in W cF (nz v (rF s)) s.
(** mos6502.src/ialu.cc:102-111 ora *)
Definition ora (o : cell * st) : st :=
  let (c, s) := o in
  let f := rF s in
  let s := W cA (Z.lor (rA s) (R c s)) s in W cF (nz (rA s) f) s.
(** mos6502.src/ialu.cc:113-122 And *)
Definition And (o : cell * st) : st :=
  let (c, s) := o in
  let f := rF s in
  let s := W cA (Z.land (rA s) (R c s)) s in W cF (nz (rA s) f) s.
(** mos6502.src/ialu.cc:124-133 eor *)
Definition eor (o : cell * st) : st :=
  let (c, s) := o in
  let f := rF s in
  let s := W cA (Z.lxor (rA s) (R c s)) s in W cF (nz (rA s) f) s.

Definition isset (f m : Z) : bool := negb (Z.land f m =? 0).
Definition carry (s : st) : Z := if isset (rF s) flagC then 1 else 0.
(** mos6502.src/ialu.cc:135-180 adc, opint, the decimal value of a packed byte *)
Definition bcd (x : Z) : Z := Z.shiftr (Z.land x 0xf0) 4 * 10 + Z.land x 0x0f.
(** mos6502.src/ialu.cc:164-170 resA, packing; 0 when out of range *)
Definition pack (n : Z) : Z :=
  if (0 <=? n) && (n <? 100) then Z.lor (Z.shiftl (n / 10) 4) (n mod 10) else 0.

(** mos6502.src/ialu.cc:135-180 adc *)
Definition adc (o : cell * st) : st :=
  let (c, s) := o in
  let Op := u8 (R c s) in
  let oA := rA s in
  let C := carry s in
  let f := Z.ldiff (rF s) (Z.lor flagZ (Z.lor flagC flagN)) in
  if negb (isset (rF s) flagD) then
    let f := Z.ldiff f flagV in
    let res := u16 (rA s + Op + C) in
    let s := W cA res s in
    let f := orif (rA s =? 0) flagZ f in
    let f := orif (isset (rA s) 0x80) flagN f in
    let f := orif (255 <? res) flagC f in
    let f := orif (isset (Z.lxor res oA) 0x80 && negb (isset (Z.lxor oA Op) 0x80)) flagV f in
    W cF f s
  else
    let sum := bcd Op + bcd oA + C in
    let f := if 99 <? sum then Z.lor f flagC else Z.ldiff f flagC in
    let sum := if 99 <? sum then sum - 100 else sum in
    let resA := u8 (pack sum) in
    let s := W cA resA s in
    let f := orif (resA =? 0) flagZ f in
    let f := orif (isset resA 0x80) flagN f in
    W cF f s.

(** mos6502.src/ialu.cc:182-225 sbc. ~ is on int, & 0x80 takes bit 7. *)
Definition sbc (o : cell * st) : st :=
  let (c, s) := o in
  let Op := u8 (R c s) in
  let C := carry s in
  let f := Z.ldiff (rF s) (Z.lor flagC (Z.lor flagZ flagN)) in
  if negb (isset (rF s) flagD) then
    let f := Z.ldiff f flagV in
    let res := u16 (rA s - Op - 1 + C) in
    let t := Z.lor (Z.land (Z.land res Op) (Z.lnot (rA s)))
                   (Z.land (Z.land (Z.lnot res) (Z.lnot Op)) (rA s)) in
    let f := orif (isset t 0x80) flagV f in
    let f := orif (res <? 0x100) flagC f in
    let f := orif (Z.land res 0xff =? 0) flagZ f in
    let f := orif (isset res 0x80) flagN f in
    let s := W cA res s in
    W cF f s
  else
    let r := bcd (rA s) - bcd Op - (if C =? 0 then 1 else 0) in
    let f := if r <? 0 then Z.ldiff f flagC else Z.lor f flagC in
    let r := if r <? 0 then r + 100 else r in
    let resA := u8 (pack r) in
    let f := orif (resA =? 0) flagZ f in
    let f := orif (isset resA 0x80) flagN f in
    let s := W cA resA s in
    W cF f s.

(** mos6502.src/ialu.cc:227-237 cmp *)
Definition cmp (c1 : cell) (o : cell * st) : st :=
  let (c2, s) := o in
  let res := u16 (R c1 s - R c2 s) in
  let f := Z.ldiff (rF s) (Z.lor flagZ (Z.lor flagN flagC)) in
  let f := orif (res <? 256) flagC f in
  let f := orif (Z.land res 0xff =? 0) flagZ f in
  let f := orif (isset res 0x80) flagN f in
  W cF f s.
(** mos6502.src/ialu.cc:239-250 asl *)
Definition asl (o : cell * st) : st :=
  let (c, s) := o in
  let f := Z.ldiff (rF s) (Z.lor flagZ (Z.lor flagN flagC)) in
  let v := u8 (R c s) in
  let f := orif (isset v 0x80) flagC f in
  let v := u8 (Z.shiftl v 1) in
  let s := W c v s in
  let f := orif (v =? 0) flagZ f in
  let f := orif (isset v 0x80) flagN f in
  W cF f s.
(** mos6502.src/ialu.cc:252-262 lsr *)
Definition lsr (o : cell * st) : st :=
  let (c, s) := o in
  let f := Z.ldiff (rF s) (Z.lor flagZ (Z.lor flagN flagC)) in
  let v := u8 (R c s) in
  let f := orif (isset v 1) flagC f in
  let v := Z.shiftr v 1 in
  let s := W c v s in
  let f := orif (v =? 0) flagZ f in
  W cF f s.
(** mos6502.src/ialu.cc:264-277 rol *)
Definition rol (o : cell * st) : st :=
  let (c, s) := o in
  let C := carry s in
  let f := Z.ldiff (rF s) (Z.lor flagZ (Z.lor flagN flagC)) in
  let v := u8 (R c s) in
  let f := orif (isset v 0x80) flagC f in
  let v := u8 (Z.lor (Z.shiftl v 1) C) in
  let s := W c v s in
  let f := orif (v =? 0) flagZ f in
  let f := orif (isset v 0x80) flagN f in
  W cF f s.
(** mos6502.src/ialu.cc:279-292 ror *)
Definition ror (o : cell * st) : st :=
  let (c, s) := o in
  let C := if isset (rF s) flagC then 0x80 else 0 in
  let f := Z.ldiff (rF s) (Z.lor flagZ (Z.lor flagN flagC)) in
  let v := u8 (R c s) in
  let f := orif (isset v 1) flagC f in
  let v := u8 (Z.lor (Z.shiftr v 1) C) in
  let s := W c v s in
  let f := orif (v =? 0) flagZ f in
  let f := orif (isset v 0x80) flagN f in
  W cF f s.
(** mos6502.src/ialu.cc:294-304 bit *)
Definition bit (o : cell * st) : st :=
  let (c, s) := o in
  let v := u8 (R c s) in
  let f := Z.ldiff (rF s) (Z.lor flagZ (Z.lor flagN flagV)) in
  let f := orif (isset v 0x80) flagN f in
  let f := orif (isset v 0x40) flagV f in
  let f := orif (Z.land (rA s) v =? 0) flagZ f in
  W cF f s.

(** mos6502.src/imove.cc:30-44 TYA: flags set or cleared one by one *)
Definition znset (v f : Z) : Z :=
  let f := if v =? 0 then Z.lor f flagZ else Z.ldiff f flagZ in
  if isset v 0x80 then Z.lor f flagN else Z.ldiff f flagN.
Definition TYA (s : st) : st := let s := W cA (rY s) s in tick 1 (W cF (znset (rA s) (rF s)) s).
(** mos6502.src/imove.cc:46-60 TAY *)
Definition TAY (s : st) : st := let s := W cY (rA s) s in tick 1 (W cF (znset (rY s) (rF s)) s).
(** mos6502.src/imove.cc:62-76 TXA *)
Definition TXA (s : st) : st := let s := W cA (rX s) s in tick 1 (W cF (znset (rA s) (rF s)) s).
(** mos6502.src/imove.cc:78-84 TXS *)
Definition TXS (s : st) : st := tick 1 (W cSP (rX s) s).
(** mos6502.src/imove.cc:86-100 TAX *)
Definition TAX (s : st) : st := let s := W cX (rA s) s in tick 1 (W cF (znset (rX s) (rF s)) s).
(** mos6502.src/imove.cc:102-116 TSX *)
Definition TSX (s : st) : st := let s := W cX (rSP s) s in tick 1 (W cF (znset (rX s) (rF s)) s).
(** mos6502.src/imove.cc:123-128 cl_mos6502::st; sta (125-130) is the same with rA. The
    register is an argument read before or after the operand is decoded: the
    operand functions do not change registers. *)
Definition stR (reg : cell) (o : cell * st) : st := let (c, s) := o in W c (R reg s) s.
(** mos6502.src/imove.cc:132-141 lda *)
Definition lda (o : cell * st) : st :=
  let (c, s) := o in
  let f := rF s in
  let s := W cA (R c s) s in W cF (nz (rA s) f) s.
(** mos6502.src/imove.cc:143-152 ld *)
Definition ld (reg : cell) (o : cell * st) : st :=
  let (c, s) := o in
  let f := rF s in
  let v := u8 (R c s) in
  W cF (nz v f) (W reg v s).

(** mos6502.src/mos6502.cc:731-749 push_addr *)
Definition push_addr (a : Z) (s : st) : st :=
  let s := wr (0x0100 + rSP s) (u8 (Z.shiftr a 8)) s in
  let s := W cSP (rSP s - 1) s in
  let s := wr (0x0100 + rSP s) (u8 a) s in
  let s := W cSP (rSP s - 1) s in
  tick 2 s.
(** mos6502.src/mos6502.cc:777-788 pop_addr *)
Definition pop_addr (s : st) : Z * st :=
  let s := W cSP (rSP s + 1) s in
  let l := u8 (rd s (0x0100 + rSP s)) in
  let s := W cSP (rSP s + 1) s in
  let h := u8 (rd s (0x0100 + rSP s)) in
  (h * 256 + l, tick 2 s).

(** mos6502.src/ibranch.cc:32-39 JMPa *)
Definition JMPa (s : st) : st := let (a, s) := i16f s in tick 2 (sPC a s).
(** mos6502.src/ibranch.cc:41-50 JMPi *)
Definition JMPi (s : st) : st :=
  let (a, s) := i16f s in tick 4 (sPC (u16 (read_addr s a)) s).
(** mos6502.src/ibranch.cc:52-65 JSR *)
Definition JSR (s : st) : st :=
  let (l, s) := fetch s in
  let pc := PC s in
  let (h, s) := fetch s in
  let a := u16 (l + h * 256) in
  sPC a (push_addr pc s).
(** mos6502.src/ibranch.cc:67-77 RTS *)
Definition RTS (s : st) : st :=
  let (a, s) := pop_addr s in tick 3 (sPC (a + 1) s).
(** mos6502.src/ibranch.cc:79-95 branch *)
Definition branch (cond : bool) (s : st) : st :=
  let (v, s) := fetch s in
  let rel := i8 v in
  let s :=
    if cond then
      let a := u16 (PC s + rel) in
      tick 1 (sPC a (tick_if (cross (u16 (PC s)) a) s))
    else s in
  tick 1 s.

(** mos6502.src/inst.cc:31-35 NOP *)
Definition NOP (s : st) : st := s.
(** mos6502.src/inst.cc:37-45 BRK. request(): itsrc.cc:150-159 request *)
Definition BRK (s : st) : st :=
  let s := sSetB true s in
  let s := sPC (Z.land (PC s + 1) 0xffff) s in
  let s := W cF (Z.lor (rF s) flagB) s in
  sBrk true s.
(** mos6502.src/inst.cc:47-73 RTI *)
Definition pop_level (l : list Z) : list Z :=
  match l with h :: t => if 0 <=? h then t else l | [] => l end.
Definition RTI (s : st) : st :=
  let s := W cSP (rSP s + 1) s in
  let f := u8 (rd s (0x0100 + rSP s)) in
  let f := Z.ldiff f (Z.lor 0x20 flagB) in
  let s := W cF f s in
  let (a, s) := pop_addr s in
  let s := sPC a s in
  tick 3 (sLvl (pop_level (lvl s)) s).
(** mos6502.src/inst.cc:75-81 CLI *)
Definition CLI (s : st) : st := tick 1 (W cF (Z.ldiff (rF s) flagI) s).
(** mos6502.src/inst.cc:83-89 SEI *)
Definition SEI (s : st) : st := tick 1 (W cF (Z.lor (rF s) flagI) s).
(** mos6502.src/inst.cc:91-104 PHP *)
Definition PHP (s : st) : st :=
  let v := u8 (Z.lor (Z.lor (rF s) 0x20) flagB) in
  let s := wr (0x0100 + rSP s) v s in
  tick 2 (W cSP (rSP s - 1) s).
(** mos6502.src/inst.cc:106-112 CLC *)
Definition CLC (s : st) : st := tick 1 (W cF (Z.ldiff (rF s) flagC) s).
(** mos6502.src/inst.cc:114-128 PLP *)
Definition PLP (s : st) : st :=
  let s := W cSP (rSP s + 1) s in
  let v := u8 (rd s (0x0100 + rSP s)) in
  let v := Z.ldiff v (Z.lor 0x20 flagB) in
  tick 3 (W cF v s).
(** mos6502.src/inst.cc:130-136 SEc *)
Definition SEc (s : st) : st := tick 1 (W cF (Z.lor (rF s) flagC) s).
(** mos6502.src/inst.cc:138-150 PHA *)
Definition PHA (s : st) : st :=
  let s := wr (0x0100 + rSP s) (rA s) s in
  tick 2 (W cSP (rSP s - 1) s).
(** mos6502.src/inst.cc:152-168 PLA *)
Definition PLA (s : st) : st :=
  let s := W cSP (rSP s + 1) s in
  let s := W cA (rd s (0x0100 + rSP s)) s in
  tick 3 (W cF (nz (rA s) (rF s)) s).
(** mos6502.src/inst.cc:170-176 CLV *)
Definition CLV (s : st) : st := tick 1 (W cF (Z.ldiff (rF s) flagV) s).
(** mos6502.src/inst.cc:178-184 CLD *)
Definition CLD (s : st) : st := tick 1 (W cF (Z.ldiff (rF s) flagD) s).
(** mos6502.src/inst.cc:187-193 SED *)
Definition SED (s : st) : st := tick 1 (W cF (Z.lor (rF s) flagD) s).

(** itab: mos6502.src/decode.h:31-199 instruction_ea, and the bodies in
    mos6502.src/mos6502cl.h:194-382 NOP. *)
Definition itab : list (Z * (st -> st)) := [
  (0xea, NOP); (0x00, BRK); (0x40, RTI); (0x58, CLI); (0x78, SEI); (0x08, PHP);
  (0x18, CLC); (0x28, PLP); (0x38, SEc); (0x48, PHA); (0x68, PLA); (0x88, DEY);
  (0x98, TYA); (0xa8, TAY); (0xb8, CLV); (0xc8, INY); (0xd8, CLD); (0xe8, INX);
  (0xf8, SED); (0x8a, TXA); (0x9a, TXS); (0xaa, TAX); (0xba, TSX); (0xca, DEX);
  (0x01, fun s => ora (indX s)); (0x11, fun s => ora (indY s)); (0x05, fun s => ora (zpg s));
  (0x15, fun s => ora (zpgX s)); (0x09, fun s => ora (imm8 s)); (0x19, fun s => ora (absY s));
  (0x0d, fun s => ora (abs s)); (0x1d, fun s => ora (absX s));
  (0x21, fun s => And (indX s)); (0x31, fun s => And (indY s)); (0x25, fun s => And (zpg s));
  (0x35, fun s => And (zpgX s)); (0x29, fun s => And (imm8 s)); (0x39, fun s => And (absY s));
  (0x2d, fun s => And (abs s)); (0x3d, fun s => And (absX s));
  (0x41, fun s => eor (indX s)); (0x51, fun s => eor (indY s)); (0x45, fun s => eor (zpg s));
  (0x55, fun s => eor (zpgX s)); (0x49, fun s => eor (imm8 s)); (0x59, fun s => eor (absY s));
  (0x4d, fun s => eor (abs s)); (0x5d, fun s => eor (absX s));
  (0x61, fun s => adc (indX s)); (0x71, fun s => adc (indY s)); (0x65, fun s => adc (zpg s));
  (0x75, fun s => adc (zpgX s)); (0x69, fun s => adc (imm8 s)); (0x79, fun s => adc (absY s));
  (0x6d, fun s => adc (abs s)); (0x7d, fun s => adc (absX s));
  (0x81, fun s => stR cA (indX s)); (0x91, fun s => stR cA (indY s)); (0x85, fun s => stR cA (zpg s));
  (0x95, fun s => stR cA (zpgX s)); (0x99, fun s => stR cA (absY s)); (0x8d, fun s => stR cA (abs s));
  (0x9d, fun s => stR cA (absX (tick 1 s)));
  (0xa1, fun s => lda (indX s)); (0xb1, fun s => lda (indY s)); (0xa5, fun s => lda (zpg s));
  (0xb5, fun s => lda (zpgX s)); (0xa9, fun s => lda (imm8 s)); (0xb9, fun s => lda (absY s));
  (0xad, fun s => lda (abs s)); (0xbd, fun s => lda (absX s));
  (0xc1, fun s => cmp cA (indX s)); (0xd1, fun s => cmp cA (indY s)); (0xc5, fun s => cmp cA (zpg s));
  (0xd5, fun s => cmp cA (zpgX s)); (0xc9, fun s => cmp cA (imm8 s)); (0xd9, fun s => cmp cA (absY s));
  (0xcd, fun s => cmp cA (abs s)); (0xdd, fun s => cmp cA (absX s));
  (0xe1, fun s => sbc (indX s)); (0xf1, fun s => sbc (indY s)); (0xe5, fun s => sbc (zpg s));
  (0xf5, fun s => sbc (zpgX s)); (0xe9, fun s => sbc (imm8 s)); (0xf9, fun s => sbc (absY s));
  (0xed, fun s => sbc (abs s)); (0xfd, fun s => sbc (absX s));
  (0x84, fun s => stR cY (zpg s)); (0x94, fun s => stR cY (zpgX s)); (0x8c, fun s => stR cY (abs s));
  (0x86, fun s => stR cX (zpg s)); (0x96, fun s => stR cX (zpgY s)); (0x8e, fun s => stR cX (abs s));
  (0xa0, fun s => ld cY (imm8 s)); (0xa4, fun s => ld cY (zpg s)); (0xb4, fun s => ld cY (zpgX s));
  (0xac, fun s => ld cY (abs s)); (0xbc, fun s => ld cY (absX s));
  (0xa2, fun s => ld cX (imm8 s)); (0xa6, fun s => ld cX (zpg s)); (0xb6, fun s => ld cX (zpgY s));
  (0xae, fun s => ld cX (abs s)); (0xbe, fun s => ld cX (absY s));
  (0xc0, fun s => cmp cY (imm8 s)); (0xc4, fun s => cmp cY (zpg s)); (0xcc, fun s => cmp cY (abs s));
  (0xe0, fun s => cmp cX (imm8 s)); (0xe4, fun s => cmp cX (zpg s)); (0xec, fun s => cmp cX (abs s));
  (0xe6, fun s => inc (rmwzpg s)); (0xf6, fun s => inc (rmwzpgX s)); (0xee, fun s => inc (rmwabs s));
  (0xfe, fun s => inc (rmwabsX s));
  (0xc6, fun s => dec (rmwzpg s)); (0xd6, fun s => dec (rmwzpgX s)); (0xce, fun s => dec (rmwabs s));
  (0xde, fun s => dec (rmwabsX s));
  (0x06, fun s => asl (rmwzpg s)); (0x16, fun s => asl (rmwzpgX s)); (0x0a, fun s => asl (cA, tick 1 s));
  (0x0e, fun s => asl (rmwabs s)); (0x1e, fun s => asl (rmwabsX s));
  (0x46, fun s => lsr (rmwzpg s)); (0x56, fun s => lsr (rmwzpgX s)); (0x4a, fun s => lsr (cA, tick 1 s));
  (0x4e, fun s => lsr (rmwabs s)); (0x5e, fun s => lsr (rmwabsX s));
  (0x26, fun s => rol (rmwzpg s)); (0x36, fun s => rol (rmwzpgX s)); (0x2a, fun s => rol (cA, tick 1 s));
  (0x2e, fun s => rol (rmwabs s)); (0x3e, fun s => rol (rmwabsX s));
  (0x66, fun s => ror (rmwzpg s)); (0x76, fun s => ror (rmwzpgX s)); (0x6a, fun s => ror (cA, tick 1 s));
  (0x6e, fun s => ror (rmwabs s)); (0x7e, fun s => ror (rmwabsX s));
  (0x24, fun s => bit (zpg s)); (0x2c, fun s => bit (abs s));
  (0x4c, JMPa); (0x6c, JMPi); (0x20, JSR); (0x60, RTS);
  (0x10, fun s => branch (negb (isset (rF s) flagN)) s); (0x30, fun s => branch (isset (rF s) flagN) s);
  (0x50, fun s => branch (negb (isset (rF s) flagV)) s); (0x70, fun s => branch (isset (rF s) flagV) s);
  (0x90, fun s => branch (negb (isset (rF s) flagC)) s); (0xb0, fun s => branch (isset (rF s) flagC) s);
  (0xd0, fun s => branch (negb (isset (rF s) flagZ)) s); (0xf0, fun s => branch (isset (rF s) flagZ) s)
].

Fixpoint look {T} (l : list (Z * T)) (c : Z) : option T :=
  match l with
  | [] => None
  | (k, f) :: t => if k =? c then Some f else look t c
  end.

(** uc.cc:3328-3349 exec_inst_tab and mos6502.src/mos6502.cc:689-701 exec_inst,
    without fetch breakpoints; tickt (uc.cc:3083-3093 tickt) ticks 1. The
    result is true when the instruction was executed, false: resINV_INST. *)
Definition exec_inst (s : st) : bool * st :=
  let s0 := sSetB false s in
  let (c, s1) := fetch s0 in
  match look itab c with
  | None => (false, s0)
  | Some f => (true, f (tick 1 s1))
  end.

(** mos6502.src/mos6502.cc:703-728 accept_it, for a source with vector [addr],
    level [lv]; [b]: the source is BRK, whose request clear() takes away
    (itsrc.cc:161-173 clear); the others have clr_bit false
    (mos6502.src/mos6502.cc:176-222 mk_hw_elements). *)
Definition accept_it (addr lv : Z) (b : bool) (s : st) : st :=
  let s := tick 2 s in
  let s := push_addr (PC s) s in
  let s := wr (0x0100 + rSP s) (Z.lor (rF s) 0x20) s in
  let s := if set_b s then sF (Z.ldiff (rF s) flagB) s else s in
  let s := W cSP (rSP s - 1) s in
  let s := tick 1 s in
  let a := read_addr s addr in
  let s := tick 2 s in
  let s := sPC a s in
  let s := sF (Z.lor (rF s) flagI) s in
  let s := if b then sBrk false s else s in
  sLvl (lv :: lvl s) s.

(** level of the running service: uc.cc:3455-3465 do_interrupt, priority_main()
    is 0 (uccl.h:463 priority_main) *)
Definition ap (s : st) : Z :=
  match lvl s with l :: _ => if 0 <=? l then l else 0 | [] => 0 end.

(** uc.cc:3428-3487 do_interrupt on the three sources of
    mos6502.src/mos6502.cc:176-222 mk_hw_elements, all enabled as after init
    (mos6502.src/irq.cc:42-59 init). priority_of is the number of the source
    (mos6502.src/mos6502cl.h:145 priority_of; itsrccl.h:104-110 irq_nmi). The
    list it_sources holds them in the order brk, nmi, irq: equal keys, added
    in front (pobj.cc:677-688 add). [irq], [nmi]: the request cells. The nmi member of the
    irq source is never set: [g] stands for the value found there. *)
Definition do_interrupt (g : bool) (irq nmi : bool) (s : st) : st :=
  let is_en := negb (isset (rF s) flagI) in
  if brk s && (ap s <? 4) then accept_it 0xfffe 4 true s
  else if nmi && (ap s <? 1) then accept_it 0xfffa 1 false s
  else if (g || is_en) && (Z.land (rF s) flagI =? 0) && irq && (ap s <? 3) then accept_it 0xfffe 3 false s
  else s.

(** uc.cc:3244-3275 do_inst in state stGO, without the selfjump stop *)
Definition do_inst (g irq nmi : bool) (s : st) : bool * st :=
  let (ok, s1) := exec_inst s in
  if ok then (true, do_interrupt g irq nmi s1)
  else (false, sPC (PC s) s1).

(** uc.cc:773-806 reset: services are dropped down to the first level below 0 *)
Fixpoint drop_levels (l : list Z) : list Z :=
  match l with h :: t => if 0 <=? h then drop_levels t else l | [] => [] end.
(** mos6502.src/mos6502.cc:154-164 reset *)
Definition reset (s : st) : st :=
  let s := sTk 0 (sLvl (drop_levels (lvl s)) (sPC 0 s)) in
  let s := sF flagI s in
  let s := sPC (read_addr s 0xfffc) s in
  tick 7 (sSP 0xfd s).
