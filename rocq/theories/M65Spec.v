(** The MCS6502 as its Programming Manual describes it: registers, addressing
    modes, instructions, clock cycles. Written from the manual, independently
    of M65Model. *)
From Verif Require Import Base.

(** Processor status *)
Record flags := mkP { fN : bool; fV : bool; fD : bool; fI : bool; fZ : bool; fC : bool }.
Record cpu := mkCpu { a : Z; x : Z; y : Z; s : Z; p : flags; pc : Z; ram : Z -> Z }.

Definition b2z (b : bool) : Z := if b then 1 else 0.
(** P on the stack: N V 1 B D I Z C *)
Definition P_byte (f : flags) (b : bool) : Z :=
  128 * b2z (fN f) + 64 * b2z (fV f) + 32 + 16 * b2z b + 8 * b2z (fD f) + 4 * b2z (fI f) +
  2 * b2z (fZ f) + b2z (fC f).
Definition P_of_byte (v : Z) : flags :=
  mkP (Z.odd (v / 128)) (Z.odd (v / 64)) (Z.odd (v / 8)) (Z.odd (v / 4)) (Z.odd (v / 2)) (Z.odd v).

Definition setP f c := mkCpu (a c) (x c) (y c) (s c) f (pc c) (ram c).
Definition setA v c := mkCpu (v mod 256) (x c) (y c) (s c) (p c) (pc c) (ram c).
Definition setX v c := mkCpu (a c) (v mod 256) (y c) (s c) (p c) (pc c) (ram c).
Definition setY v c := mkCpu (a c) (x c) (v mod 256) (s c) (p c) (pc c) (ram c).
Definition setS v c := mkCpu (a c) (x c) (y c) (v mod 256) (p c) (pc c) (ram c).
Definition setPC v c := mkCpu (a c) (x c) (y c) (s c) (p c) (v mod 65536) (ram c).
Definition store ad v c :=
  mkCpu (a c) (x c) (y c) (s c) (p c) (pc c) (fun k => if k =? ad then v mod 256 else ram c k).

Definition setN b c := let f := p c in setP (mkP b (fV f) (fD f) (fI f) (fZ f) (fC f)) c.
Definition setV b c := let f := p c in setP (mkP (fN f) b (fD f) (fI f) (fZ f) (fC f)) c.
Definition setD b c := let f := p c in setP (mkP (fN f) (fV f) b (fI f) (fZ f) (fC f)) c.
Definition setI b c := let f := p c in setP (mkP (fN f) (fV f) (fD f) b (fZ f) (fC f)) c.
Definition setZ b c := let f := p c in setP (mkP (fN f) (fV f) (fD f) (fI f) b (fC f)) c.
Definition setC b c := let f := p c in setP (mkP (fN f) (fV f) (fD f) (fI f) (fZ f) b) c.
(** N and Z as a result sets them *)
Definition setNZ v c := setN (128 <=? v mod 256) (setZ (v mod 256 =? 0) c).

(** The stack: page one, growing down *)
Definition push v c := setS (s c - 1) (store (256 + s c) v c).
Definition pull c : Z * cpu := let c' := setS (s c + 1) c in (ram c' (256 + s c'), c').

Inductive mnem :=
  ADC | AND | ASL | BCC | BCS | BEQ | BIT | BMI | BNE | BPL | BRK | BVC | BVS | CLC | CLD | CLI | CLV
| CMP | CPX | CPY | DEC | DEX | DEY | EOR | INC | INX | INY | JMP | JSR | LDA | LDX | LDY | LSR | NOP
| ORA | PHA | PHP | PLA | PLP | ROL | ROR | RTI | RTS | SBC | SEC | SED | SEI | STA | STX | STY | TAX
| TAY | TSX | TXA | TXS | TYA.
Inductive mode := Imp | Acc | Imm | Zp | ZpX | ZpY | Ab | AbX | AbY | IndX | IndY | Ind | Rel.

(** Instruction set *)
Definition isa : list (mnem * list (mode * Z)) := [
  (ADC, [(Imm,0x69);(Zp,0x65);(ZpX,0x75);(Ab,0x6D);(AbX,0x7D);(AbY,0x79);(IndX,0x61);(IndY,0x71)]);
  (AND, [(Imm,0x29);(Zp,0x25);(ZpX,0x35);(Ab,0x2D);(AbX,0x3D);(AbY,0x39);(IndX,0x21);(IndY,0x31)]);
  (ASL, [(Acc,0x0A);(Zp,0x06);(ZpX,0x16);(Ab,0x0E);(AbX,0x1E)]);
  (BCC, [(Rel,0x90)]); (BCS, [(Rel,0xB0)]); (BEQ, [(Rel,0xF0)]);
  (BIT, [(Zp,0x24);(Ab,0x2C)]);
  (BMI, [(Rel,0x30)]); (BNE, [(Rel,0xD0)]); (BPL, [(Rel,0x10)]);
  (BRK, [(Imp,0x00)]);
  (BVC, [(Rel,0x50)]); (BVS, [(Rel,0x70)]);
  (CLC, [(Imp,0x18)]); (CLD, [(Imp,0xD8)]); (CLI, [(Imp,0x58)]); (CLV, [(Imp,0xB8)]);
  (CMP, [(Imm,0xC9);(Zp,0xC5);(ZpX,0xD5);(Ab,0xCD);(AbX,0xDD);(AbY,0xD9);(IndX,0xC1);(IndY,0xD1)]);
  (CPX, [(Imm,0xE0);(Zp,0xE4);(Ab,0xEC)]);
  (CPY, [(Imm,0xC0);(Zp,0xC4);(Ab,0xCC)]);
  (DEC, [(Zp,0xC6);(ZpX,0xD6);(Ab,0xCE);(AbX,0xDE)]);
  (DEX, [(Imp,0xCA)]); (DEY, [(Imp,0x88)]);
  (EOR, [(Imm,0x49);(Zp,0x45);(ZpX,0x55);(Ab,0x4D);(AbX,0x5D);(AbY,0x59);(IndX,0x41);(IndY,0x51)]);
  (INC, [(Zp,0xE6);(ZpX,0xF6);(Ab,0xEE);(AbX,0xFE)]);
  (INX, [(Imp,0xE8)]); (INY, [(Imp,0xC8)]);
  (JMP, [(Ab,0x4C);(Ind,0x6C)]);
  (JSR, [(Ab,0x20)]);
  (LDA, [(Imm,0xA9);(Zp,0xA5);(ZpX,0xB5);(Ab,0xAD);(AbX,0xBD);(AbY,0xB9);(IndX,0xA1);(IndY,0xB1)]);
  (LDX, [(Imm,0xA2);(Zp,0xA6);(ZpY,0xB6);(Ab,0xAE);(AbY,0xBE)]);
  (LDY, [(Imm,0xA0);(Zp,0xA4);(ZpX,0xB4);(Ab,0xAC);(AbX,0xBC)]);
  (LSR, [(Acc,0x4A);(Zp,0x46);(ZpX,0x56);(Ab,0x4E);(AbX,0x5E)]);
  (NOP, [(Imp,0xEA)]);
  (ORA, [(Imm,0x09);(Zp,0x05);(ZpX,0x15);(Ab,0x0D);(AbX,0x1D);(AbY,0x19);(IndX,0x01);(IndY,0x11)]);
  (PHA, [(Imp,0x48)]); (PHP, [(Imp,0x08)]); (PLA, [(Imp,0x68)]); (PLP, [(Imp,0x28)]);
  (ROL, [(Acc,0x2A);(Zp,0x26);(ZpX,0x36);(Ab,0x2E);(AbX,0x3E)]);
  (ROR, [(Acc,0x6A);(Zp,0x66);(ZpX,0x76);(Ab,0x6E);(AbX,0x7E)]);
  (RTI, [(Imp,0x40)]); (RTS, [(Imp,0x60)]);
  (SBC, [(Imm,0xE9);(Zp,0xE5);(ZpX,0xF5);(Ab,0xED);(AbX,0xFD);(AbY,0xF9);(IndX,0xE1);(IndY,0xF1)]);
  (SEC, [(Imp,0x38)]); (SED, [(Imp,0xF8)]); (SEI, [(Imp,0x78)]);
  (STA, [(Zp,0x85);(ZpX,0x95);(Ab,0x8D);(AbX,0x9D);(AbY,0x99);(IndX,0x81);(IndY,0x91)]);
  (STX, [(Zp,0x86);(ZpY,0x96);(Ab,0x8E)]);
  (STY, [(Zp,0x84);(ZpX,0x94);(Ab,0x8C)]);
  (TAX, [(Imp,0xAA)]); (TAY, [(Imp,0xA8)]); (TSX, [(Imp,0xBA)]); (TXA, [(Imp,0x8A)]);
  (TXS, [(Imp,0x9A)]); (TYA, [(Imp,0x98)])
].
Definition opcodes : list (Z * (mnem * mode)) :=
  flat_map (fun e => map (fun mo => (snd mo, (fst e, fst mo))) (snd e)) isa.
Fixpoint find_op (l : list (Z * (mnem * mode))) (c : Z) : option (mnem * mode) :=
  match l with [] => None | (k, v) :: t => if k =? c then Some v else find_op t c end.
Definition decode (c : Z) : option (mnem * mode) := find_op opcodes c.

(** Bytes of an instruction, the opcode included *)
Definition len (m : mode) : Z :=
  match m with
  | Imp | Acc => 1
  | Imm | Zp | ZpX | ZpY | IndX | IndY | Rel => 2
  | Ab | AbX | AbY | Ind => 3
  end.

(** Operand bytes and the 16 bit operand, low byte first *)
Definition at1 c := ram c ((pc c + 1) mod 65536).
Definition at2 c := ram c ((pc c + 2) mod 65536).
Definition word c := at1 c + 256 * at2 c.
(** A pointer in page zero: the high byte is at the next page zero location.
    The manual: [w] = true, the location after 00FF is 0000. With [w] = false
    it is 0100. *)
Definition zpword (w : bool) c z := ram c z + 256 * ram c (if w then (z + 1) mod 256 else z + 1).
Definition memword c k := ram c k + 256 * ram c ((k + 1) mod 65536).

(** Where the operand is *)
Inductive place := InA | Val (v : Z) | At (k : Z) | Nowhere.
Definition operand (w : bool) (m : mode) (c : cpu) : place :=
  match m with
  | Imp | Rel => Nowhere
  | Acc => InA
  | Imm => Val (at1 c)
  | Zp => At (at1 c)
  | ZpX => At ((at1 c + x c) mod 256)
  | ZpY => At ((at1 c + y c) mod 256)
  | Ab => At (word c)
  | AbX => At ((word c + x c) mod 65536)
  | AbY => At ((word c + y c) mod 65536)
  | IndX => At (zpword w c ((at1 c + x c) mod 256))
  | IndY => At ((zpword w c (at1 c) + y c) mod 65536)
  | Ind => At (memword c (word c))
  end.
Definition value (l : place) (c : cpu) : Z :=
  match l with InA => a c | Val v => v | At k => ram c k | Nowhere => 0 end.
Definition put (l : place) (v : Z) (c : cpu) : cpu :=
  match l with InA => setA v c | At k => store k v c | _ => c end.
Definition addr (l : place) : Z := match l with At k => k | _ => 0 end.

Definition signed (v : Z) : Z := if v <? 128 then v else v - 256.
Definition in_i8 (v : Z) : bool := (-128 <=? v) && (v <? 128).
(** Two BCD digits *)
Definition is_bcd (v : Z) : bool := (v / 16 <? 10) && (v mod 16 <? 10).
Definition dec_val (v : Z) : Z := 10 * (v / 16) + v mod 16.
Definition dec_byte (n : Z) : Z := 16 * (n / 10) + n mod 10.

(** Binary addition and subtraction *)
Definition add_bin (v : Z) (c : cpu) : cpu :=
  let cy := b2z (fC (p c)) in
  let r := a c + v + cy in
  setNZ r (setC (256 <=? r) (setV (negb (in_i8 (signed (a c) + signed v + cy))) (setA r c))).
Definition sub_bin (v : Z) (c : cpu) : cpu :=
  let bw := 1 - b2z (fC (p c)) in
  let r := a c - v - bw in
  setNZ r (setC (0 <=? r) (setV (negb (in_i8 (signed (a c) - signed v - bw))) (setA r c))).
Definition compare (r v : Z) (c : cpu) : cpu := setNZ (r - v) (setC (v <=? r) c).

Definition load (r : Z -> cpu -> cpu) (v : Z) (c : cpu) : cpu := setNZ v (r v c).
Definition branch_if (b : bool) (c : cpu) (off : Z) : cpu := if b then setPC (pc c + signed off) c else c.

(** The effect of an instruction. [l]: the operand; [c] has pc at the next
    instruction. ADC and SBC: binary mode. BRK is an interrupt, see below. *)
Definition effect (i : mnem) (l : place) (off : Z) (c : cpu) : cpu :=
  let v := value l c in
  match i with
  | ADC => add_bin v c
  | SBC => sub_bin v c
  | AND => load setA (Z.land (a c) v) c
  | ORA => load setA (Z.lor (a c) v) c
  | EOR => load setA (Z.lxor (a c) v) c
  | ASL => setNZ (2 * v) (setC (128 <=? v) (put l (2 * v) c))
  | LSR => setNZ (v / 2) (setC (Z.odd v) (put l (v / 2) c))
  | ROL => let r := 2 * v + b2z (fC (p c)) in setNZ r (setC (128 <=? v) (put l r c))
  | ROR => let r := v / 2 + 128 * b2z (fC (p c)) in setNZ r (setC (Z.odd v) (put l r c))
  | BCC => branch_if (negb (fC (p c))) c off
  | BCS => branch_if (fC (p c)) c off
  | BNE => branch_if (negb (fZ (p c))) c off
  | BEQ => branch_if (fZ (p c)) c off
  | BPL => branch_if (negb (fN (p c))) c off
  | BMI => branch_if (fN (p c)) c off
  | BVC => branch_if (negb (fV (p c))) c off
  | BVS => branch_if (fV (p c)) c off
  | BIT => setN (128 <=? v) (setV (Z.odd (v / 64)) (setZ (Z.land (a c) v =? 0) c))
  | CLC => setC false c | SEC => setC true c
  | CLD => setD false c | SED => setD true c
  | CLI => setI false c | SEI => setI true c
  | CLV => setV false c
  | CMP => compare (a c) v c
  | CPX => compare (x c) v c
  | CPY => compare (y c) v c
  | DEC => setNZ (v - 1) (put l (v - 1) c)
  | INC => setNZ (v + 1) (put l (v + 1) c)
  | DEX => load setX (x c - 1) c
  | DEY => load setY (y c - 1) c
  | INX => load setX (x c + 1) c
  | INY => load setY (y c + 1) c
  | JMP => setPC (addr l) c
  | JSR => let r := (pc c - 1) mod 65536 in setPC (addr l) (push (r mod 256) (push (r / 256) c))
  | RTS => let (lo, c) := pull c in let (hi, c) := pull c in setPC (lo + 256 * hi + 1) c
  | RTI => let (f, c) := pull c in let (lo, c) := pull c in let (hi, c) := pull c in
           setPC (lo + 256 * hi) (setP (P_of_byte f) c)
  | PHA => push (a c) c
  | PHP => push (P_byte (p c) true) c
  | PLA => let (v, c) := pull c in load setA v c
  | PLP => let (v, c) := pull c in setP (P_of_byte v) c
  | LDA => load setA v c
  | LDX => load setX v c
  | LDY => load setY v c
  | STA => put l (a c) c
  | STX => put l (x c) c
  | STY => put l (y c) c
  | TAX => load setX (a c) c
  | TAY => load setY (a c) c
  | TSX => load setX (s c) c
  | TXA => load setA (x c) c
  | TYA => load setA (y c) c
  | TXS => setS (x c) c
  | NOP => c
  | BRK => c
  end.

(** An interrupt: pc and P go to the stack, I is set, pc comes from the vector *)
Definition interrupt (b : bool) (vector : Z) (c : cpu) : cpu :=
  let c := push (pc c mod 256) (push (pc c / 256) c) in
  let c := push (P_byte (p c) b) c in
  setPC (memword c vector) (setI true c).

(** One instruction; BRK is followed by a byte it skips *)
Definition step (w : bool) (c : cpu) : option cpu :=
  match decode (ram c (pc c)) with
  | None => None
  | Some (BRK, _) => Some (interrupt true 0xfffe (setPC (pc c + 2) c))
  | Some (i, m) => Some (effect i (operand w m c) (at1 c) (setPC (pc c + len m) c))
  end.

(** Clock cycles *)
Definition page (k : Z) := k / 256.
(** is a page boundary crossed while the operand address is computed? *)
Definition crossed (w : bool) (m : mode) (c : cpu) : bool :=
  match m with
  | AbX => negb (page (word c) =? page ((word c + x c) mod 65536))
  | AbY => negb (page (word c) =? page ((word c + y c) mod 65536))
  | IndY => negb (page (zpword w c (at1 c)) =? page ((zpword w c (at1 c) + y c) mod 65536))
  | _ => false
  end.
Definition taken (i : mnem) (c : cpu) : bool :=
  match i with
  | BCC => negb (fC (p c)) | BCS => fC (p c) | BNE => negb (fZ (p c)) | BEQ => fZ (p c)
  | BPL => negb (fN (p c)) | BMI => fN (p c) | BVC => negb (fV (p c)) | BVS => fV (p c)
  | _ => false
  end.
Inductive kind := Reads | Writes | Modifies | Other.
Definition kind_of (i : mnem) : kind :=
  match i with
  | STA | STX | STY => Writes
  | ASL | LSR | ROL | ROR | INC | DEC => Modifies
  | JMP | JSR => Other
  | _ => Reads
  end.
Definition cycles (w : bool) (i : mnem) (m : mode) (c : cpu) : Z :=
  match m with
  | Imp => match i with PHA | PHP => 3 | PLA | PLP => 4 | RTI | RTS => 6 | BRK => 7 | _ => 2 end
  | Acc => 2
  | Imm => 2
  | Zp => match kind_of i with Modifies => 5 | _ => 3 end
  | ZpX | ZpY => match kind_of i with Modifies => 6 | _ => 4 end
  | Ab => match i with JMP => 3 | JSR => 6 | _ => match kind_of i with Modifies => 6 | _ => 4 end end
  | AbX | AbY =>
    match kind_of i with
    | Reads => 4 + b2z (crossed w m c)
    | Modifies => 7
    | _ => 5
    end
  | IndX => 6
  | IndY => match kind_of i with Reads => 5 + b2z (crossed w m c) | _ => 6 end
  | Ind => 5
  | Rel => 2 + (if taken i c then
             let from := (pc c + 2) mod 65536 in
             1 + b2z (negb (page from =? page ((from + signed (at1 c)) mod 65536)))
           else 0)
  end.

(** Two machines look the same to a program *)
Definition same (c d : cpu) : Prop :=
  a c = a d /\ x c = x d /\ y c = y d /\ s c = s d /\ p c = p d /\ pc c = pc d /\
  forall k, 0 <= k < 65536 -> ram c k = ram d k.
