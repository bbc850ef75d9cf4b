(** What the MCS51 Programmer's Guide says about each instruction. Written from
    the instruction set of the manual, independently of S51Model. *)
From Verif Require Import Base.

(** What a program can see. Internal RAM 0..255, special function registers
    80..FF, external RAM. *)
Record arch := mkArch { a_pc : Z; a_iram : Z -> Z; a_sfr : Z -> Z; a_xram : Z -> Z }.

Definition store (f : Z -> Z) (a v : Z) : Z -> Z := fun x => if x =? a then v else f x.
Definition with_pc (s : arch) (v : Z) := mkArch (v mod 65536) (a_iram s) (a_sfr s) (a_xram s).
Definition with_iram (s : arch) (a v : Z) := mkArch (a_pc s) (store (a_iram s) a v) (a_sfr s) (a_xram s).
Definition with_sfr (s : arch) (a v : Z) := mkArch (a_pc s) (a_iram s) (store (a_sfr s) a v) (a_xram s).
Definition with_xram (s : arch) (a v : Z) := mkArch (a_pc s) (a_iram s) (a_sfr s) (store (a_xram s) a v).

(** Registers *)
Definition rA := 0xE0.
Definition rB := 0xF0.
Definition rPSW := 0xD0.
Definition rSP := 0x81.
Definition rDPL := 0x82.
Definition rDPH := 0x83.
Definition rP2 := 0xA0.
Definition getA (s : arch) := a_sfr s rA.
Definition setA (s : arch) (v : Z) := with_sfr s rA (v mod 256).
Definition DPTR (s : arch) := 256 * a_sfr s rDPH + a_sfr s rDPL.
Definition setDPTR (s : arch) (v : Z) :=
  with_sfr (with_sfr s rDPH ((v / 256) mod 256)) rDPL (v mod 256).
(** register bank: bits 4 and 3 of PSW *)
Definition bank_of (s : arch) := (a_sfr s rPSW / 8) mod 4.

(** One bit of a byte *)
Definition bit (x n : Z) : bool := Z.testbit x n.
Definition set_bit (x n : Z) (b : bool) : Z := if b then Z.setbit x n else Z.clearbit x n.
Definition b2z (b : bool) : Z := if b then 1 else 0.

(** Flags of PSW: CY is bit 7, AC bit 6, OV bit 2, P bit 0 *)
Definition CY (s : arch) : bool := bit (a_sfr s rPSW) 7.
Definition AC (s : arch) : bool := bit (a_sfr s rPSW) 6.
Definition setflag (n : Z) (b : bool) (s : arch) : arch := with_sfr s rPSW (set_bit (a_sfr s rPSW) n b).
Definition setCY := setflag 7.
Definition setAC := setflag 6.
Definition setOV := setflag 2.

(** parity: is the number of ones in the byte odd? *)
Definition odd_ones (x : Z) : bool :=
  fold_right (fun i b => xorb (Z.testbit x i) b) false [0; 1; 2; 3; 4; 5; 6; 7].
(** the hardware keeps P equal to the parity of the accumulator *)
Definition fixP (s : arch) : arch := setflag 0 (odd_ones (getA s)) s.

(** Operands *)
Inductive opd := oA | oDir (a : Z) | oInd (i : Z) | oReg (n : Z) | oImm (v : Z).
Inductive place := InIram (a : Z) | InSfr (a : Z) | InCode (v : Z) | Nowhere.

Section Spec.
Variable code : Z -> Z.   (* code memory, 64K *)
Variable isize : Z.       (* bytes of internal RAM *)

Definition ram_place (a : Z) : place := if a <? isize then InIram a else Nowhere.
Definition reg_val (s : arch) (n : Z) : Z := a_iram s (8 * bank_of s + n).
Definition place_of (s : arch) (o : opd) : place :=
  match o with
  | oA => InSfr rA
  | oDir a => if a <? 128 then ram_place a else InSfr a
  | oInd i => ram_place (reg_val s i)
  | oReg n => InIram (8 * bank_of s + n)
  | oImm v => InCode v
  end.
Definition rd_place (s : arch) (p : place) : option Z :=
  match p with
  | InIram a => Some (a_iram s a) | InSfr a => Some (a_sfr s a)
  | InCode v => Some v | Nowhere => None
  end.
Definition wr_place (s : arch) (p : place) (v : Z) : option arch :=
  match p with
  | InIram a => Some (with_iram s a (v mod 256)) | InSfr a => Some (with_sfr s a (v mod 256))
  | InCode _ | Nowhere => None
  end.
Definition rd (s : arch) (o : opd) := rd_place s (place_of s o).
Definition wr (s : arch) (o : opd) (v : Z) := wr_place s (place_of s o) v.

(** Bit addresses: 0..7F are the bits of internal RAM 20..2F, 80..FF the bits of
    the registers whose address is divisible by 8 *)
Definition bit_place (b : Z) : place := if b <? 128 then InIram (32 + b / 8) else InSfr (8 * (b / 8)).
Definition rd_bit (s : arch) (b : Z) : bool :=
  match rd_place s (bit_place b) with Some x => bit x (b mod 8) | None => false end.
Definition wr_bit (s : arch) (b : Z) (v : bool) : arch :=
  match bit_place b with
  | InIram a => with_iram s a (set_bit (a_iram s a) (b mod 8) v)
  | InSfr a => with_sfr s a (set_bit (a_sfr s a) (b mod 8) v)
  | _ => s
  end.

(** Two's complement *)
Definition signed (x : Z) : Z := if x <? 128 then x else x - 256.
Definition fits (x : Z) : bool := (-128 <=? x) && (x <=? 127).

Inductive logic := lAnd | lOr | lXor.
Definition logic_fn (l : logic) : Z -> Z -> Z :=
  match l with lAnd => Z.land | lOr => Z.lor | lXor => Z.lxor end.

(** Instructions; [r] is the relative offset byte *)
Inductive instr :=
| Nop
| Ajmp (a11 : Z) | Acall (a11 : Z) | Ljmp (a16 : Z) | Lcall (a16 : Z) | Ret | Reti
| Rr | Rrc | Rl | Rlc | Swap | Da | Mul | Div | CplA | ClrA
| IncDptr | Inc (o : opd) | Dec (o : opd)
| Add (o : opd) | Addc (o : opd) | Subb (o : opd)
| Logic (l : logic) (d s : opd)
| Mov (d s : opd) | MovDptr (v : Z) | MovcPc | MovcDptr
| MovxAdptr | MovxAri (i : Z) | MovxDptrA | MovxRiA (i : Z)
| Push (a : Z) | Pop (a : Z) | Xch (o : opd) | Xchd (i : Z)
| OrlC (b : Z) (inv : bool) | AnlC (b : Z) (inv : bool) | MovBC (b : Z) | MovCB (b : Z)
| CplB (b : Z) | ClrB (b : Z) | SetbB (b : Z)
| Jb (b r : Z) | Jnb (b r : Z) | Jbc (b r : Z)
| Jc (r : Z) | Jnc (r : Z) | Jz (r : Z) | Jnz (r : Z) | Sjmp (r : Z) | JmpAdptr
| Cjne (x y : opd) (r : Z) | Djnz (o : opd) (r : Z).

(** The opcode map: instruction, length in bytes and machine cycles. Columns 4
    to F of a row are the addressing modes of one instruction for most rows.
    A5 is reserved. *)
Definition mode (col b1 : Z) : opd :=
  if col =? 4 then oImm b1 else if col =? 5 then oDir b1
  else if col <? 8 then oInd (col - 6) else oReg (col - 8).
Definition mode_len (col : Z) : Z := if (col =? 4) || (col =? 5) then 2 else 1.

Definition decode (op b1 b2 : Z) : option (instr * Z * Z) :=
  let row := op / 16 in
  let col := op mod 16 in
  let i := col mod 2 in
  if col =? 1 then
    let a11 := 256 * (op / 32) + b1 in
    Some ((if row mod 2 =? 0 then Ajmp a11 else Acall a11), 2, 2)
  else if 4 <=? col then
    match row with
    | 0x0 => Some (Inc (if col =? 4 then oA else mode col b1), (if col =? 5 then 2 else 1), 1)
    | 0x1 => Some (Dec (if col =? 4 then oA else mode col b1), (if col =? 5 then 2 else 1), 1)
    | 0x2 => Some (Add (mode col b1), mode_len col, 1)
    | 0x3 => Some (Addc (mode col b1), mode_len col, 1)
    | 0x4 => Some (Logic lOr oA (mode col b1), mode_len col, 1)
    | 0x5 => Some (Logic lAnd oA (mode col b1), mode_len col, 1)
    | 0x6 => Some (Logic lXor oA (mode col b1), mode_len col, 1)
    | 0x7 => if col =? 4 then Some (Mov oA (oImm b1), 2, 1)
             else if col =? 5 then Some (Mov (oDir b1) (oImm b2), 3, 2)
             else Some (Mov (mode col b1) (oImm b1), 2, 1)
    | 0x8 => if col =? 4 then Some (Div, 1, 4)
             else if col =? 5 then Some (Mov (oDir b2) (oDir b1), 3, 2)
             else Some (Mov (oDir b1) (mode col b1), 2, 2)
    | 0x9 => Some (Subb (mode col b1), mode_len col, 1)
    | 0xA => if col =? 4 then Some (Mul, 1, 4)
             else if col =? 5 then None
             else Some (Mov (mode col b1) (oDir b1), 2, 2)
    | 0xB => if col =? 4 then Some (Cjne oA (oImm b1) b2, 3, 2)
             else if col =? 5 then Some (Cjne oA (oDir b1) b2, 3, 2)
             else Some (Cjne (mode col b1) (oImm b1) b2, 3, 2)
    | 0xC => if col =? 4 then Some (Swap, 1, 1)
             else Some (Xch (mode col b1), mode_len col, 1)
    | 0xD => if col =? 4 then Some (Da, 1, 1)
             else if col =? 5 then Some (Djnz (oDir b1) b2, 3, 2)
             else if col <? 8 then Some (Xchd i, 1, 1)
             else Some (Djnz (mode col b1) b1, 2, 2)
    | 0xE => if col =? 4 then Some (ClrA, 1, 1) else Some (Mov oA (mode col b1), mode_len col, 1)
    | _ => if col =? 4 then Some (CplA, 1, 1) else Some (Mov (mode col b1) oA, mode_len col, 1)
    end
  else
    match op with
    | 0x00 => Some (Nop, 1, 1)
    | 0x10 => Some (Jbc b1 b2, 3, 2) | 0x20 => Some (Jb b1 b2, 3, 2) | 0x30 => Some (Jnb b1 b2, 3, 2)
    | 0x40 => Some (Jc b1, 2, 2) | 0x50 => Some (Jnc b1, 2, 2)
    | 0x60 => Some (Jz b1, 2, 2) | 0x70 => Some (Jnz b1, 2, 2) | 0x80 => Some (Sjmp b1, 2, 2)
    | 0x90 => Some (MovDptr (256 * b1 + b2), 3, 2)
    | 0xA0 => Some (OrlC b1 true, 2, 2) | 0xB0 => Some (AnlC b1 true, 2, 2)
    | 0xC0 => Some (Push b1, 2, 2) | 0xD0 => Some (Pop b1, 2, 2)
    | 0xE0 => Some (MovxAdptr, 1, 2) | 0xF0 => Some (MovxDptrA, 1, 2)
    | 0x02 => Some (Ljmp (256 * b1 + b2), 3, 2) | 0x12 => Some (Lcall (256 * b1 + b2), 3, 2)
    | 0x22 => Some (Ret, 1, 2) | 0x32 => Some (Reti, 1, 2)
    | 0x42 => Some (Logic lOr (oDir b1) oA, 2, 1) | 0x43 => Some (Logic lOr (oDir b1) (oImm b2), 3, 2)
    | 0x52 => Some (Logic lAnd (oDir b1) oA, 2, 1) | 0x53 => Some (Logic lAnd (oDir b1) (oImm b2), 3, 2)
    | 0x62 => Some (Logic lXor (oDir b1) oA, 2, 1) | 0x63 => Some (Logic lXor (oDir b1) (oImm b2), 3, 2)
    | 0x72 => Some (OrlC b1 false, 2, 2) | 0x82 => Some (AnlC b1 false, 2, 2)
    | 0x92 => Some (MovBC b1, 2, 2) | 0xA2 => Some (MovCB b1, 2, 1)
    | 0xB2 => Some (CplB b1, 2, 1) | 0xC2 => Some (ClrB b1, 2, 1) | 0xD2 => Some (SetbB b1, 2, 1)
    | 0xE2 | 0xE3 => Some (MovxAri i, 1, 2) | 0xF2 | 0xF3 => Some (MovxRiA i, 1, 2)
    | 0x03 => Some (Rr, 1, 1) | 0x13 => Some (Rrc, 1, 1) | 0x23 => Some (Rl, 1, 1) | 0x33 => Some (Rlc, 1, 1)
    | 0x73 => Some (JmpAdptr, 1, 2) | 0x83 => Some (MovcPc, 1, 2) | 0x93 => Some (MovcDptr, 1, 2)
    | 0xA3 => Some (IncDptr, 1, 2)
    | 0xB3 => Some (CplB 0xD7, 1, 1) | 0xC3 => Some (ClrB 0xD7, 1, 1) | 0xD3 => Some (SetbB 0xD7, 1, 1)
    | _ => None
    end.

Definition obind {X Y} (x : option X) (f : X -> option Y) : option Y :=
  match x with Some v => f v | None => None end.

(** Push and pop of one byte *)
Definition push (s : arch) (v : Z) : option arch :=
  let sp := (a_sfr s rSP + 1) mod 256 in
  wr_place (with_sfr s rSP sp) (ram_place sp) v.
Definition top (s : arch) : option Z := rd_place s (ram_place (a_sfr s rSP)).
Definition drop (s : arch) : arch := with_sfr s rSP ((a_sfr s rSP - 1) mod 256).

(** relative jump: PC points after the instruction *)
Definition branch (c : bool) (r : Z) (s : arch) : arch :=
  if c then with_pc s (a_pc s + signed r) else s.

(** Effect; PC has been advanced past the instruction *)
Definition effect (ins : instr) (s : arch) : option arch :=
  let a := getA s in
  let c := b2z (CY s) in
  match ins with
  | Nop => Some s
  | Ajmp t => Some (with_pc s (a_pc s / 2048 * 2048 + t))
  | Ljmp t => Some (with_pc s t)
  | Acall t =>
    obind (push s (a_pc s mod 256)) (fun s => obind (push s (a_pc s / 256))
      (fun s => Some (with_pc s (a_pc s / 2048 * 2048 + t))))
  | Lcall t =>
    obind (push s (a_pc s mod 256)) (fun s => obind (push s (a_pc s / 256))
      (fun s => Some (with_pc s t)))
  | Ret | Reti =>
    obind (top s) (fun h => obind (top (drop s)) (fun l =>
      Some (with_pc (drop (drop s)) (256 * h + l))))
  | Rr => Some (setA s (a / 2 + 128 * (a mod 2)))
  | Rl => Some (setA s (2 * a + a / 128))
  | Rrc => Some (setCY (a mod 2 =? 1) (setA s (a / 2 + 128 * c)))
  | Rlc => Some (setCY (128 <=? a) (setA s (2 * a + c)))
  | Swap => Some (setA s (16 * a + a / 16))
  | CplA => Some (setA s (255 - a))
  | ClrA => Some (setA s 0)
  | Da =>
    let x := if (9 <? a mod 16) || AC s then a + 6 else a in
    let c1 := CY s || (256 <=? x) in
    let x := x mod 256 in
    let y := if (9 <? x / 16) || c1 then x + 96 else x in
    Some (setCY (c1 || (256 <=? y)) (setA s y))
  | Mul =>
    let p := a * a_sfr s rB in
    Some (setOV (255 <? p) (setCY false (with_sfr (setA s p) rB (p / 256))))
  | Div =>
    let b := a_sfr s rB in
    (* for a zero divisor the manual leaves A and B undefined: here unchanged *)
    if b =? 0 then Some (setOV true (setCY false s))
    else Some (setOV false (setCY false (with_sfr (setA s (a / b)) rB (a mod b))))
  | IncDptr => Some (setDPTR s (DPTR s + 1))
  | Inc o => obind (rd s o) (fun x => wr s o (x + 1))
  | Dec o => obind (rd s o) (fun x => wr s o (x - 1))
  | Add o => obind (rd s o) (fun x =>
      Some (setCY (256 <=? a + x) (setAC (16 <=? a mod 16 + x mod 16)
           (setOV (negb (fits (signed a + signed x))) (setA s (a + x))))))
  | Addc o => obind (rd s o) (fun x =>
      Some (setCY (256 <=? a + x + c) (setAC (16 <=? a mod 16 + x mod 16 + c)
           (setOV (negb (fits (signed a + signed x + c))) (setA s (a + x + c))))))
  | Subb o => obind (rd s o) (fun x =>
      Some (setCY (a - x - c <? 0) (setAC (a mod 16 - x mod 16 - c <? 0)
           (setOV (negb (fits (signed a - signed x - c))) (setA s (a - x - c))))))
  | Logic l d o => obind (rd s d) (fun x => obind (rd s o) (fun y => wr s d (logic_fn l x y)))
  | Mov d o => obind (rd s o) (fun x => wr s d x)
  | MovDptr v => Some (setDPTR s v)
  | MovcPc => Some (setA s (code ((a_pc s + a) mod 65536)))
  | MovcDptr => Some (setA s (code ((DPTR s + a) mod 65536)))
  | MovxAdptr => Some (setA s (a_xram s (DPTR s)))
  | MovxAri i => Some (setA s (a_xram s (256 * a_sfr s rP2 + reg_val s i)))
  | MovxDptrA => Some (with_xram s (DPTR s) a)
  | MovxRiA i => Some (with_xram s (256 * a_sfr s rP2 + reg_val s i) a)
  | Push d =>
    (* SP is incremented first, then the byte is read *)
    let sp := (a_sfr s rSP + 1) mod 256 in
    let s := with_sfr s rSP sp in
    obind (rd s (oDir d)) (fun x => wr_place s (ram_place sp) x)
  | Pop d => obind (top s) (fun x => wr (drop s) (oDir d) x)
  | Xch o => obind (rd s o) (fun x => wr (setA s x) o a)
  | Xchd i => obind (rd s (oInd i)) (fun x =>
      obind (wr s (oInd i) (x / 16 * 16 + a mod 16)) (fun s => Some (setA s (a / 16 * 16 + x mod 16))))
  | OrlC b inv => Some (setCY (CY s || xorb inv (rd_bit s b)) s)
  | AnlC b inv => Some (setCY (CY s && xorb inv (rd_bit s b)) s)
  | MovBC b => Some (wr_bit s b (CY s))
  | MovCB b => Some (setCY (rd_bit s b) s)
  | CplB b => Some (wr_bit s b (negb (rd_bit s b)))
  | ClrB b => Some (wr_bit s b false)
  | SetbB b => Some (wr_bit s b true)
  | Jb b r => Some (branch (rd_bit s b) r s)
  | Jnb b r => Some (branch (negb (rd_bit s b)) r s)
  | Jbc b r => Some (if rd_bit s b then branch true r (wr_bit s b false) else s)
  | Jc r => Some (branch (CY s) r s)
  | Jnc r => Some (branch (negb (CY s)) r s)
  | Jz r => Some (branch (a =? 0) r s)
  | Jnz r => Some (branch (negb (a =? 0)) r s)
  | Sjmp r => Some (branch true r s)
  | JmpAdptr => Some (with_pc s (DPTR s + a))
  | Cjne x y r => obind (rd s x) (fun u => obind (rd s y) (fun v =>
      Some (branch (negb (u =? v)) r (setCY (u <? v) s))))
  | Djnz o r => obind (rd s o) (fun x => obind (wr s o (x - 1)) (fun s =>
      Some (branch (negb ((x - 1) mod 256 =? 0)) r s)))
  end.

Definition byte_at (s : arch) (k : Z) : Z := code ((a_pc s + k) mod 65536).
Definition decode_at (s : arch) : option (instr * Z * Z) :=
  decode (byte_at s 0) (byte_at s 1) (byte_at s 2).

(** One instruction. None: reserved opcode, or use of internal RAM the device
    does not have. *)
Definition step (s : arch) : option arch :=
  obind (decode_at s) (fun '(ins, len, _) =>
    obind (effect ins (with_pc s (a_pc s + len))) (fun s => Some (fixP s))).
Definition cycles_at (s : arch) : option Z := obind (decode_at s) (fun '(_, _, n) => Some n).

(** Does the instruction write PSW, or its bit P, as an addressed operand? *)
Definition is_psw (o : opd) : bool := match o with oDir a => a =? rPSW | _ => false end.
Definition writes_psw (ins : instr) : bool :=
  match ins with
  | Inc o | Dec o | Xch o | Djnz o _ => is_psw o
  | Logic _ d _ | Mov d _ => is_psw d
  | Pop d => d =? rPSW
  | MovBC b | CplB b | ClrB b | SetbB b | Jbc b _ => b =? 0xD0
  | _ => false
  end.

(** The situations in which the simulator is known to differ: a jump whose sum
    is exactly 10000h, MOVC beyond the end of the code space, PUSH SP. [s]:
    state after the PC has been advanced. *)
Definition jump_sum (ins : instr) (s : arch) : option Z :=
  match ins with
  | Jb _ r | Jnb _ r | Jbc _ r | Jc r | Jnc r | Jz r | Jnz r | Sjmp r | Cjne _ _ r | Djnz _ r =>
    Some (a_pc s + signed r)
  | JmpAdptr => Some (DPTR s + getA s)
  | _ => None
  end.
Definition differs (ins : instr) (s : arch) : bool :=
  match ins with
  | MovcPc => 65536 <=? a_pc s + getA s
  | MovcDptr => 65536 <=? DPTR s + getA s
  | Push d => d =? rSP
  | _ => match jump_sum ins s with Some t => t =? 65536 | None => false end
  end.
Definition differs_at (s : arch) : bool :=
  match decode_at s with
  | Some (ins, len, _) => differs ins (with_pc s (a_pc s + len))
  | None => true
  end.
Definition writes_psw_at (s : arch) : bool :=
  match decode_at s with Some (ins, _, _) => writes_psw ins | None => false end.
End Spec.

(** Same state, and the same except for the bit P *)
Definition same (a b : arch) : Prop :=
  a_pc a = a_pc b /\ (forall x, a_iram a x = a_iram b x) /\
  (forall x, a_sfr a x = a_sfr b x) /\ (forall x, a_xram a x = a_xram b x).
Definition same_but_P (a b : arch) : Prop :=
  a_pc a = a_pc b /\ (forall x, a_iram a x = a_iram b x) /\
  (forall x, x <> rPSW -> a_sfr a x = a_sfr b x) /\
  (forall n, 0 < n -> bit (a_sfr a rPSW) n = bit (a_sfr b rPSW) n) /\
  (forall x, a_xram a x = a_xram b x).
(** P shows the parity of the accumulator *)
Definition P_ok (s : arch) : Prop := bit (a_sfr s rPSW) 0 = odd_ones (getA s).

(** Instructions that may continue elsewhere than at the following instruction *)
Definition transfers (ins : instr) : bool :=
  match ins with
  | Ajmp _ | Acall _ | Ljmp _ | Lcall _ | Ret | Reti | Jb _ _ | Jnb _ _ | Jbc _ _ | Jc _ | Jnc _ | Jz _ | Jnz _
  | Sjmp _ | JmpAdptr | Cjne _ _ _ | Djnz _ _ => true
  | _ => false
  end.
Definition is_call_ins (ins : instr) : bool := match ins with Acall _ | Lcall _ => true | _ => false end.

(** Packed decimal *)
Definition valid_bcd (x : Z) : Prop := 0 <= x /\ x / 16 <= 9 /\ x mod 16 <= 9.
Definition dec (x : Z) : Z := 10 * (x / 16) + x mod 16.

(** Does the instruction write register r as an addressed operand (its byte or
    one of its bits)? *)
Definition is_dir (r : Z) (o : opd) : bool := match o with oDir a => a =? r | _ => false end.
Definition bit_in (r b : Z) : bool := (128 <=? b) && (8 * (b / 8) =? r).
Definition writes_reg (r : Z) (ins : instr) (s : arch) : bool :=
  match ins with
  | Inc o | Dec o | Xch o | Djnz o _ => is_dir r o
  | Logic _ d _ | Mov d _ => is_dir r d
  | Pop d => d =? r
  | MovBC b | CplB b | ClrB b | SetbB b => bit_in r b
  | Jbc b _ => bit_in r b && rd_bit s b
  | _ => false
  end.
