(** Model of the MCS51 core: memories as seen by instructions, and one function
    per instruction (s51.src: uc51.cc, arith.cc, logic.cc, inc.cc, bit.cc,
    jmp.cc, mov.cc).

    Simplifications of the whole file: special function registers are plain
    8 bit storage except for ACC, PSW and SP (peripherals hooked on SFR cells
    and port pins are not modelled, so read(HW_PORT) is read()); the records
    kept for stack tracking (stack_write, stack_read), the virtual counters vc
    and sp_most are not modelled; there are no breakpoints (they are in
    BrkModel and RunModel); the multi DPTR options are off, so dptr is
    DPL/DPH; MOVX with Ri uses the default configuration (high byte is P2). *)
From Verif Require Import Base.

(** What does not change while instructions execute. [isize]: size of the iram
    address space, 128 (uc51.cc:894-896 make_address_spaces) or 256
    (uc52.cc:80-82 make_address_spaces). [ltr]: the compiler's choice of the evaluation order
    of the two calls in `fetch()*256 + fetch()' (true: left to right), which
    C++ leaves unspecified. [urnd]: the random numbers stored by a write to
    memory that does not exist. *)
Record cfg := mkCfg { rom : Z -> Z; isize : Z; ltr : bool; urnd : nat -> Z }.

(** [bank]: register bank the cells of the regs space are decoded to. [hole]:
    contents of the cell all addresses without memory share. [insts]:
    inst_ticks. [levels]: levels of interrupts in service, top first, without
    the base level -1. [unknown]: number of `unknown code' errors. *)
Record st := mkSt {
  pc : Z; iram : Z -> Z; sfr : Z -> Z; xram : Z -> Z;
  bank : Z; hole : Z; noise : nat; insts : Z;
  levels : list Z; was_reti : bool; instpc : Z; unknown : Z
}.

Definition put (f : Z -> Z) (a v : Z) : Z -> Z := fun x => if x =? a then v else f x.

Definition set_pc (s : st) (v : Z) : st :=
  mkSt v (iram s) (sfr s) (xram s) (bank s) (hole s) (noise s) (insts s) (levels s) (was_reti s) (instpc s) (unknown s).
Definition set_iram (s : st) (a v : Z) : st :=
  mkSt (pc s) (put (iram s) a v) (sfr s) (xram s) (bank s) (hole s) (noise s) (insts s) (levels s) (was_reti s) (instpc s) (unknown s).
Definition set_sfr (s : st) (a v : Z) : st :=
  mkSt (pc s) (iram s) (put (sfr s) a v) (xram s) (bank s) (hole s) (noise s) (insts s) (levels s) (was_reti s) (instpc s) (unknown s).
Definition set_xram (s : st) (a v : Z) : st :=
  mkSt (pc s) (iram s) (sfr s) (put (xram s) a v) (bank s) (hole s) (noise s) (insts s) (levels s) (was_reti s) (instpc s) (unknown s).
Definition set_bank (s : st) (v : Z) : st :=
  mkSt (pc s) (iram s) (sfr s) (xram s) v (hole s) (noise s) (insts s) (levels s) (was_reti s) (instpc s) (unknown s).
Definition set_hole (s : st) (v : Z) : st :=
  mkSt (pc s) (iram s) (sfr s) (xram s) (bank s) v (S (noise s)) (insts s) (levels s) (was_reti s) (instpc s) (unknown s).
Definition set_levels (s : st) (l : list Z) (r : bool) : st :=
  mkSt (pc s) (iram s) (sfr s) (xram s) (bank s) (hole s) (noise s) (insts s) l r (instpc s) (unknown s).

(** uc.cc:3057-3081 tick: only inst_ticks; the counters are in TickModel *)
Definition tick (n : Z) (s : st) : st :=
  mkSt (pc s) (iram s) (sfr s) (xram s) (bank s) (hole s) (noise s) (insts s + n) (levels s) (was_reti s) (instpc s) (unknown s).
(** uc.cc:3414-3421 inst_unknown: an error is recorded *)
Definition inst_unknown (s : st) : st :=
  mkSt (pc s) (iram s) (sfr s) (xram s) (bank s) (hole s) (noise s) (insts s) (levels s) (was_reti s) (instpc s) (unknown s + 1).

(** Addresses of registers, regs51.h:33-46 *)
Definition ACC : Z := 0xe0.
Definition SFR_B : Z := 0xf0.
Definition PSW : Z := 0xd0.
Definition SP : Z := 0x81.
Definition DPL : Z := 0x82.
Definition DPH : Z := 0x83.
Definition P2 : Z := 0xa0.
Definition IE : Z := 0xa8.
(** Masks of flags, regs51.h:128-134 *)
Definition bmCY : Z := 0x80.
Definition bmAC : Z := 0x40.
Definition bmOV : Z := 0x04.
Definition bmP : Z := 0x01.

(** s51.src/glob.cc:299-332 ptab51: parity flag of each value of the accumulator *)
Definition ptab51_list : list Z :=
 [   0; 1; 1; 0; 1; 0; 0; 1; 1; 0; 0; 1; 0; 1; 1; 0; 1; 0; 0; 1; 0; 1; 1; 0; 0; 1; 1; 0; 1; 0; 0; 1;
   1; 0; 0; 1; 0; 1; 1; 0; 0; 1; 1; 0; 1; 0; 0; 1; 0; 1; 1; 0; 1; 0; 0; 1; 1; 0; 0; 1; 0; 1; 1; 0;
   1; 0; 0; 1; 0; 1; 1; 0; 0; 1; 1; 0; 1; 0; 0; 1; 0; 1; 1; 0; 1; 0; 0; 1; 1; 0; 0; 1; 0; 1; 1; 0;
   0; 1; 1; 0; 1; 0; 0; 1; 1; 0; 0; 1; 0; 1; 1; 0; 1; 0; 0; 1; 0; 1; 1; 0; 0; 1; 1; 0; 1; 0; 0; 1;
   1; 0; 0; 1; 0; 1; 1; 0; 0; 1; 1; 0; 1; 0; 0; 1; 0; 1; 1; 0; 1; 0; 0; 1; 1; 0; 0; 1; 0; 1; 1; 0;
   0; 1; 1; 0; 1; 0; 0; 1; 1; 0; 0; 1; 0; 1; 1; 0; 1; 0; 0; 1; 0; 1; 1; 0; 0; 1; 1; 0; 1; 0; 0; 1;
   0; 1; 1; 0; 1; 0; 0; 1; 1; 0; 0; 1; 0; 1; 1; 0; 1; 0; 0; 1; 0; 1; 1; 0; 0; 1; 1; 0; 1; 0; 0; 1;
   1; 0; 0; 1; 0; 1; 1; 0; 0; 1; 1; 0; 1; 0; 0; 1; 0; 1; 1; 0; 1; 0; 0; 1; 1; 0; 0; 1; 0; 1; 1; 0].
Definition ptab51 (n : Z) : Z := nth (Z.to_nat n) ptab51_list 0.

(** uc51.cc:2048-2074 write (cl_uc51_cpu): value n goes to ACC; P follows *)
Definition acc_written (s : st) (n : Z) : st :=
  set_sfr s PSW (Z.lor (Z.land (sfr s PSW) (Z.lnot bmP)) (ptab51 (u8 n))).

(** sfr->set(a, v): no operator is called (mem.cc:1659-1671 set) *)
Definition sfr_put (s : st) (a v : Z) : st := set_sfr s a (u8 v).
(** sfr->write(a, v): operators first (mem.cc:1241-1259 write): the hook of
    cl_uc51_cpu on ACC, the one of cl_interrupt on IE (s51.src/interrupt.cc:86-101
    write), and the bank switcher of the regs space on PSW
    (uc51.cc:948-964 decode_regs, mask 0x18); then the byte is stored *)
Definition sfr_write (s : st) (a v : Z) : st :=
  let s := if a =? IE then set_levels s (levels s) true else s in
  let s := if a =? ACC then acc_written s v else s in
  let s := if a =? PSW then set_bank s (Z.shiftr (Z.land (u8 v) 0x18) 3) else s in
  sfr_put s a v.

(** Cells an instruction can hold a pointer to *)
Inductive cell := CIram (a : Z) | CSfr (a : Z) | CHole.

Definition c_read (s : st) (c : cell) : Z :=
  match c with CIram a => iram s a | CSfr a => sfr s a | CHole => hole s end.

(** The bits space: uc51.cc:966-996 decode_bits. Byte and bit number of a bit
    address (the two banders; C07 is about them). get and set touch the data
    directly (mem.cc:938-957 d), without operators. *)
Definition bit_byte (s : st) (b : Z) : Z :=
  if b <? 128 then iram s (32 + b / 8) else sfr s (Z.land b 0xf8).
Definition bits_get (s : st) (b : Z) : Z := if Z.testbit (bit_byte s b) (b mod 8) then 1 else 0.
Definition bits_set (s : st) (b v : Z) : st :=
  let m := Z.shiftl 1 (b mod 8) in
  let x := bit_byte s b in
  let y := if v =? 0 then Z.land x (Z.lnot m) else Z.lor x m in
  if b <? 128 then set_iram s (32 + b / 8) y else set_sfr s (Z.land b 0xf8) y.
(** uc51.cc:505-512 cl_bitsfr::read *)
Definition bits_read (s : st) (b : Z) : Z :=
  if b <? 128 then bits_get s b
  else if Z.land (sfr s (Z.land b 0xf8)) (Z.shiftl 1 (Z.land b 7)) =? 0 then 0 else 1.
(** uc51.cc:514-530 cl_bitsfr::write; then for the bits of ACC the hook of
    cl_uc51_cpu (uc51.cc:2048-2074 write), then the cell itself *)
Definition bits_write (s : st) (b v : Z) : st :=
  if b <? 128 then bits_set s b v
  else
    let a := Z.land b 0xf8 in
    let m := Z.shiftl 1 (Z.land b 7) in
    let x := sfr s a in
    let s := sfr_write s a (if v =? 0 then Z.land x (Z.lnot m) else Z.lor x m) in
    let s := if a =? ACC then let s := bits_set s b v in acc_written s (sfr s ACC) else s in
    bits_set s b v.

(** types51.h:52-56, the macro SFR_SET_BIT *)
Definition SFR_SET_BIT (newbit : Z) (reg mask : Z) (s : st) : st :=
  if newbit =? 0 then sfr_put s reg (Z.land (sfr s reg) (Z.lnot mask))
  else sfr_put s reg (Z.lor (sfr s reg) mask).

(** mem.cc:178-189 cl_memory::validate_address for the rom: start 0, size 0x10000 *)
Definition validate_address (a : Z) : Z := if 0x10000 <? a then a mod 0x10000 else a.

Section Core.
Variable G : cfg.

(** mem.cc:1606-1617 read of the rom; a: u32 *)
Definition rom_read (s : st) (a : Z) : Z := if a <? 0x10000 then rom G a else hole s.
(** uc.cc:3186-3197 fetch, PCmask is 0xffff (uc.cc:638) *)
Definition fetch (s : st) : Z * st := (rom_read s (pc s), set_pc s (Z.land (u32 (pc s + 1)) 0xffff)).

(** iram->get_cell(a), mem.cc:1701-1712 get_cell *)
Definition iram_cell (a : Z) : cell := if a <? isize G then CIram a else CHole.
(** uc51.cc:1629-1636 get_direct *)
Definition get_direct (a : Z) : cell := if a <? 0x80 then iram_cell a else CSfr a.
(** cell->write(v); the dummy cell stores a random byte (mem.cc:1524-1531 write) *)
Definition c_write (s : st) (c : cell) (v : Z) : st :=
  match c with
  | CIram a => set_iram s a (u8 v)
  | CSfr a => sfr_write s a v
  | CHole => set_hole s (Z.land (urnd G (noise s)) 0xff)
  end.
(** R[n]: cell of the regs space (uc51.cc:948-964 decode_regs) *)
Definition R (s : st) (n : Z) : cell := CIram (8 * bank s + n).
(** iram->get_cell(R[code & 1]->read()) *)
Definition at_Ri (s : st) (code : Z) : cell := iram_cell (c_read s (R s (Z.land code 1))).
Definition Rn (s : st) (code : Z) : cell := R s (Z.land code 7).
Definition acc (s : st) : Z := sfr s ACC.
Definition acc_write (s : st) (v : Z) : st := sfr_write s ACC v.

(** PC= rom->validate_address(PC + (signed char)jaddr), the sum is u32 *)
Definition rel (s : st) (jaddr : Z) : st := set_pc s (validate_address (u32 (pc s + i8 jaddr))).

(* ------------------------------------------------------------ arith.cc *)

(** s51.src/arith.cc:44-57 instruction_03, RR A *)
Definition instruction_03 (code : Z) (s : st) : st :=
  let ac := acc s in
  if Z.land ac 1 =? 0 then acc_write s (Z.shiftr ac 1) else acc_write s (Z.lor (Z.shiftr ac 1) 0x80).
(** s51.src/arith.cc:66-81 instruction_13, RRC A *)
Definition instruction_13 (code : Z) (s : st) : st :=
  let cy := bits_get s 0xd7 in
  let ac := acc s in
  let s := bits_set s 0xd7 (Z.land ac 1) in
  let ac := Z.shiftr ac 1 in
  let ac := if cy =? 0 then ac else Z.lor ac 0x80 in
  sfr_write s ACC ac.
(** s51.src/arith.cc:90-103 instruction_23, RL A *)
Definition instruction_23 (code : Z) (s : st) : st :=
  let ac := acc s in
  if Z.land ac 0x80 =? 0 then acc_write s (Z.shiftl ac 1) else acc_write s (Z.lor (Z.shiftl ac 1) 1).
(** s51.src/arith.cc:112-130 instruction_24, the common part of the four ADD functions *)
Definition do_add (s : st) (data : Z) : st :=
  let ac := acc s in
  let newC := if 255 <? ac + data then 0x80 else 0 in
  let newA := Z.land (Z.land ac 0x0f + Z.land data 0x0f) 0xf0 in
  let c6 := Z.land (Z.land ac 0x7f + Z.land data 0x7f) 0x80 in
  let s := acc_write s (ac + data) in
  let s := bits_set s 0xd7 newC in
  let s := SFR_SET_BIT (Z.lxor newC c6) PSW bmOV s in
  SFR_SET_BIT newA PSW bmAC s.
Definition instruction_24 (code : Z) (s : st) : st := let '(d, s) := fetch s in do_add s d.
(** s51.src/arith.cc:139-160 instruction_25 *)
Definition instruction_25 (code : Z) (s : st) : st :=
  let '(a, s) := fetch s in do_add s (c_read s (get_direct a)).
(** s51.src/arith.cc:169-189 instruction_26 *)
Definition instruction_26 (code : Z) (s : st) : st := do_add s (c_read s (at_Ri s code)).
(** s51.src/arith.cc:198-216 instruction_28 *)
Definition instruction_28 (code : Z) (s : st) : st := do_add s (c_read s (Rn s code)).
(** s51.src/arith.cc:225-240 instruction_33, RLC A; ac is uchar *)
Definition instruction_33 (code : Z) (s : st) : st :=
  let cy := bits_get s 0xd7 in
  let ac := acc s in
  let s := bits_set s 0xd7 (Z.land ac 0x80) in
  let ac := u8 (Z.shiftl ac 1) in
  let ac := if cy =? 0 then ac else Z.lor ac 1 in
  acc_write s ac.
(** s51.src/arith.cc:249-267 instruction_34, the common part of the four ADDC functions *)
Definition do_addc (s : st) (data : Z) : st :=
  let ac := acc s in
  let c := if bits_get s 0xd7 =? 0 then 0 else 1 in
  let newC := if 255 <? ac + data + c then 0x80 else 0 in
  let newA := Z.land (Z.land ac 0x0f + Z.land data 0x0f + c) 0xf0 in
  let c6 := Z.land (Z.land ac 0x7f + Z.land data 0x7f + c) 0x80 in
  let s := acc_write s (ac + data + c) in
  let s := bits_set s 0xd7 newC in
  let s := SFR_SET_BIT (Z.lxor newC c6) PSW bmOV s in
  SFR_SET_BIT newA PSW bmAC s.
Definition instruction_34 (code : Z) (s : st) : st := let '(d, s) := fetch s in do_addc s d.
(** s51.src/arith.cc:276-297 instruction_35 *)
Definition instruction_35 (code : Z) (s : st) : st :=
  let '(a, s) := fetch s in do_addc s (c_read s (get_direct a)).
(** s51.src/arith.cc:306-326 instruction_36 *)
Definition instruction_36 (code : Z) (s : st) : st := do_addc s (c_read s (at_Ri s code)).
(** s51.src/arith.cc:335-353 instruction_38 *)
Definition instruction_38 (code : Z) (s : st) : st := do_addc s (c_read s (Rn s code)).
(** s51.src/arith.cc:362-385 instruction_84, DIV AB *)
Definition instruction_84 (code : Z) (s : st) : st :=
  let pw := Z.land (sfr s PSW) (Z.lnot bmCY) in
  let ac := acc s in
  let b := sfr s SFR_B in
  let '(pw, ac, s) :=
    if b =? 0 then (Z.lor pw bmOV, ac, s)
    else (Z.land pw (Z.lnot bmOV), ac / b, sfr_write s SFR_B (ac mod b)) in
  let s := sfr_write s PSW pw in
  let s := acc_write s ac in
  tick 3 s.
(** s51.src/arith.cc:394-415 instruction_94, the flags of the four SUBB functions: pw
    is the old PSW, result the new accumulator *)
Definition subb_psw (pw ac data c result : Z) : Z :=
  Z.lor (Z.lor (Z.lor
    (Z.land pw (Z.lnot (Z.lor bmCY (Z.lor bmOV bmAC))))
    (if ac <? data + c then bmCY else 0))
    (if ((ac <? 0x80) && (0x7f <? data) && (0x7f <? result))
        || ((0x7f <? ac) && (data <? 0x80) && (result <? 0x80)) then bmOV else 0))
    (if (Z.land ac 0x0f <? Z.land (data + c) 0x0f)
        || (negb (c =? 0) && (Z.land data 0x0f =? 0x0f)) then bmAC else 0).
Definition do_subb_set (s : st) (data : Z) : st :=
  let ac := acc s in
  let pw := sfr s PSW in
  let c := if Z.land pw bmCY =? 0 then 0 else 1 in
  let result := u8 (ac - data) in
  let result := if c =? 0 then result else u8 (result - 1) in
  let s := sfr_put s PSW (subb_psw pw ac data c result) in
  acc_write s result.
(** s51.src/arith.cc:456-479 instruction_96, the two functions that write() the PSW *)
Definition do_subb_write (s : st) (data : Z) : st :=
  let ac := acc s in
  let pw := sfr s PSW in
  let c := if Z.land pw bmCY =? 0 then 0 else 1 in
  let result := u8 (ac - data) in
  let result := if c =? 0 then result else u8 (result - 1) in
  let s := sfr_write s PSW (subb_psw pw ac data c result) in
  acc_write s result.
Definition instruction_94 (code : Z) (s : st) : st := let '(d, s) := fetch s in do_subb_set s d.
(** s51.src/arith.cc:424-447 instruction_95 *)
Definition instruction_95 (code : Z) (s : st) : st :=
  let '(a, s) := fetch s in do_subb_set s (c_read s (get_direct a)).
(** s51.src/arith.cc:456-479 instruction_96 *)
Definition instruction_96 (code : Z) (s : st) : st := do_subb_write s (c_read s (at_Ri s code)).
(** s51.src/arith.cc:488-509 instruction_98 *)
Definition instruction_98 (code : Z) (s : st) : st := do_subb_write s (c_read s (Rn s code)).
(** s51.src/arith.cc:518-534 instruction_a4, MUL AB; x is what sfr->write returns *)
Definition instruction_a4 (code : Z) (s : st) : st :=
  let temp := acc s * sfr s SFR_B in
  let s := acc_write s (Z.land temp 0xff) in
  let x := Z.land (Z.shiftr temp 8) 0xff in
  let s := sfr_write s SFR_B x in
  let s := SFR_SET_BIT (u8 x) PSW bmOV s in
  let s := SFR_SET_BIT 0 PSW bmCY s in
  tick 3 s.
(** s51.src/arith.cc:543-569 instruction_d4, DA A *)
Definition instruction_d4 (code : Z) (s : st) : st :=
  let ac := acc s in
  let pw := sfr s PSW in
  let '(ac, pw) :=
    if (9 <? Z.land ac 0x0f) || negb (Z.land pw bmAC =? 0) then
      (u8 (ac + 0x06), if 255 <? ac + 0x06 then Z.lor pw bmCY else pw)
    else (ac, pw) in
  let '(ac, pw) :=
    if (0x90 <? Z.land ac 0xf0) || negb (Z.land pw bmCY =? 0) then
      (u8 (ac + 0x60), if 255 <? ac + 0x60 then Z.lor pw bmCY else pw)
    else (ac, pw) in
  let s := sfr_write s PSW pw in
  acc_write s ac.

(* ------------------------------------------------------------ logic.cc *)

(** s51.src/logic.cc:44-54 instruction_42 *)
Definition instruction_42 (code : Z) (s : st) : st :=
  let '(a, s) := fetch s in let c := get_direct a in c_write s c (Z.lor (c_read s c) (acc s)).
(** s51.src/logic.cc:63-76 instruction_43 *)
Definition instruction_43 (code : Z) (s : st) : st :=
  let '(a, s) := fetch s in let c := get_direct a in
  let '(d, s) := fetch s in tick 1 (c_write s c (Z.lor (c_read s c) d)).
(** s51.src/logic.cc:85-95 instruction_44 *)
Definition instruction_44 (code : Z) (s : st) : st :=
  let d := acc s in let '(x, s) := fetch s in acc_write s (Z.lor d x).
(** s51.src/logic.cc:104-116 instruction_45 *)
Definition instruction_45 (code : Z) (s : st) : st :=
  let '(a, s) := fetch s in acc_write s (Z.lor (acc s) (c_read s (get_direct a))).
(** s51.src/logic.cc:125-137 instruction_46 *)
Definition instruction_46 (code : Z) (s : st) : st := acc_write s (Z.lor (acc s) (c_read s (at_Ri s code))).
(** s51.src/logic.cc:146-156 instruction_48 *)
Definition instruction_48 (code : Z) (s : st) : st := acc_write s (Z.lor (acc s) (c_read s (Rn s code))).
(** s51.src/logic.cc:165-175 instruction_52 *)
Definition instruction_52 (code : Z) (s : st) : st :=
  let '(a, s) := fetch s in let c := get_direct a in c_write s c (Z.land (c_read s c) (acc s)).
(** s51.src/logic.cc:184-197 instruction_53 *)
Definition instruction_53 (code : Z) (s : st) : st :=
  let '(a, s) := fetch s in let c := get_direct a in
  let '(d, s) := fetch s in tick 1 (c_write s c (Z.land (c_read s c) d)).
(** s51.src/logic.cc:206-216 instruction_54 *)
Definition instruction_54 (code : Z) (s : st) : st :=
  let d := acc s in let '(x, s) := fetch s in acc_write s (Z.land d x).
(** s51.src/logic.cc:225-237 instruction_55 *)
Definition instruction_55 (code : Z) (s : st) : st :=
  let '(a, s) := fetch s in acc_write s (Z.land (acc s) (c_read s (get_direct a))).
(** s51.src/logic.cc:246-258 instruction_56 *)
Definition instruction_56 (code : Z) (s : st) : st := acc_write s (Z.land (acc s) (c_read s (at_Ri s code))).
(** s51.src/logic.cc:267-277 instruction_58 *)
Definition instruction_58 (code : Z) (s : st) : st := acc_write s (Z.land (acc s) (c_read s (Rn s code))).
(** s51.src/logic.cc:286-296 instruction_62 *)
Definition instruction_62 (code : Z) (s : st) : st :=
  let '(a, s) := fetch s in let c := get_direct a in c_write s c (Z.lxor (c_read s c) (acc s)).
(** s51.src/logic.cc:305-316 instruction_63; the order of the read and of the fetch is
    unspecified in C++, here the read comes first *)
Definition instruction_63 (code : Z) (s : st) : st :=
  let '(a, s) := fetch s in let c := get_direct a in
  let x := c_read s c in
  let '(d, s) := fetch s in tick 1 (c_write s c (Z.lxor x d)).
(** s51.src/logic.cc:325-335 instruction_64 *)
Definition instruction_64 (code : Z) (s : st) : st :=
  let d := acc s in let '(x, s) := fetch s in acc_write s (Z.lxor d x).
(** s51.src/logic.cc:344-356 instruction_65 *)
Definition instruction_65 (code : Z) (s : st) : st :=
  let '(a, s) := fetch s in acc_write s (Z.lxor (acc s) (c_read s (get_direct a))).
(** s51.src/logic.cc:365-377 instruction_66 *)
Definition instruction_66 (code : Z) (s : st) : st := acc_write s (Z.lxor (acc s) (c_read s (at_Ri s code))).
(** s51.src/logic.cc:386-396 instruction_68 *)
Definition instruction_68 (code : Z) (s : st) : st := acc_write s (Z.lxor (acc s) (c_read s (Rn s code))).
(** s51.src/logic.cc:405-412 instruction_f4, CPL A *)
Definition instruction_f4 (code : Z) (s : st) : st := acc_write s (Z.lnot (acc s)).

(* ------------------------------------------------------------ inc.cc *)

(** s51.src/inc.cc:41-48 instruction_04 *)
Definition instruction_04 (code : Z) (s : st) : st := acc_write s (acc s + 1).
(** s51.src/inc.cc:57-67 instruction_05 *)
Definition instruction_05 (code : Z) (s : st) : st :=
  let '(a, s) := fetch s in let c := get_direct a in c_write s c (c_read s c + 1).
(** s51.src/inc.cc:76-86 instruction_06 *)
Definition instruction_06 (code : Z) (s : st) : st :=
  let c := at_Ri s code in c_write s c (c_read s c + 1).
(** s51.src/inc.cc:95-104 instruction_08 *)
Definition instruction_08 (code : Z) (s : st) : st :=
  let c := Rn s code in c_write s c (c_read s c + 1).
(** s51.src/inc.cc:113-120 instruction_14 *)
Definition instruction_14 (code : Z) (s : st) : st := acc_write s (acc s - 1).
(** s51.src/inc.cc:129-140 instruction_15 *)
Definition instruction_15 (code : Z) (s : st) : st :=
  let '(a, s) := fetch s in let c := get_direct a in c_write s c (c_read s c - 1).
(** s51.src/inc.cc:149-159 instruction_16: get and set, no operators; iram cells have none *)
Definition instruction_16 (code : Z) (s : st) : st :=
  let c := at_Ri s code in c_write s c (c_read s c - 1).
(** s51.src/inc.cc:168-177 instruction_18 *)
Definition instruction_18 (code : Z) (s : st) : st :=
  let c := Rn s code in c_write s c (c_read s c - 1).
(** dptr->read/write: uc51.cc:1034-1125 decode_dptr, the case without multi DPTR
    decodes both cells onto the sfr chip, without operators *)
Definition dptr_write (s : st) (i v : Z) : st := sfr_put s (DPL + i) v.
(** s51.src/inc.cc:186-198 instruction_a3, INC DPTR *)
Definition instruction_a3 (code : Z) (s : st) : st :=
  let dp := sfr s DPH * 256 + sfr s DPL + 1 in
  let s := dptr_write s 1 (Z.land (Z.shiftr dp 8) 0xff) in
  let s := dptr_write s 0 (Z.land dp 0xff) in
  tick 1 s.

(* ------------------------------------------------------------ bit.cc *)

(** C's && and || on t_mem *)
Definition c_or (a b : Z) : Z := if (a =? 0) && (b =? 0) then 0 else 1.
Definition c_and (a b : Z) : Z := if (a =? 0) || (b =? 0) then 0 else 1.
Definition c_not (a : Z) : Z := if a =? 0 then 1 else 0.

(** s51.src/bit.cc:42-57 instruction_72, ORL C,bit *)
Definition instruction_72 (code : Z) (s : st) : st :=
  let '(b, s) := fetch s in tick 1 (bits_set s 0xd7 (c_or (bits_get s 0xd7) (bits_read s b))).
(** s51.src/bit.cc:66-80 instruction_82, ANL C,bit *)
Definition instruction_82 (code : Z) (s : st) : st :=
  let '(b, s) := fetch s in tick 1 (bits_set s 0xd7 (c_and (bits_get s 0xd7) (bits_read s b))).
(** s51.src/bit.cc:89-108 instruction_92, MOV bit,C *)
Definition instruction_92 (code : Z) (s : st) : st :=
  let '(b, s) := fetch s in tick 1 (bits_write s b (bits_get s 0xd7)).
(** s51.src/bit.cc:117-131 instruction_a2, MOV C,bit *)
Definition instruction_a2 (code : Z) (s : st) : st :=
  let '(b, s) := fetch s in bits_set s 0xd7 (bits_read s b).
(** s51.src/bit.cc:140-154 instruction_a0, ORL C,/bit *)
Definition instruction_a0 (code : Z) (s : st) : st :=
  let '(b, s) := fetch s in tick 1 (bits_set s 0xd7 (c_or (bits_get s 0xd7) (c_not (bits_read s b)))).
(** s51.src/bit.cc:163-177 instruction_b0, ANL C,/bit *)
Definition instruction_b0 (code : Z) (s : st) : st :=
  let '(b, s) := fetch s in tick 1 (bits_set s 0xd7 (c_and (bits_get s 0xd7) (c_not (bits_read s b)))).
(** s51.src/bit.cc:186-202 instruction_b2, CPL bit *)
Definition instruction_b2 (code : Z) (s : st) : st :=
  let '(b, s) := fetch s in bits_write s b (c_not (bits_get s b)).
(** s51.src/bit.cc:211-219 instruction_b3, CPL C *)
Definition instruction_b3 (code : Z) (s : st) : st := bits_write s 0xd7 (c_not (bits_read s 0xd7)).
(** s51.src/bit.cc:228-244 instruction_c2, CLR bit *)
Definition instruction_c2 (code : Z) (s : st) : st := let '(b, s) := fetch s in bits_write s b 0.
(** s51.src/bit.cc:253-259 instruction_c3, CLR C *)
Definition instruction_c3 (code : Z) (s : st) : st := bits_write s 0xd7 0.
(** s51.src/bit.cc:268-283 instruction_d2, SETB bit *)
Definition instruction_d2 (code : Z) (s : st) : st := let '(b, s) := fetch s in bits_write s b 1.
(** s51.src/bit.cc:292-298 instruction_d3, SETB C *)
Definition instruction_d3 (code : Z) (s : st) : st := bits_write s 0xd7 1.

(* ------------------------------------------------------------ jmp.cc *)

(** s51.src/jmp.cc:50-60 instruction_01, AJMP *)
Definition instruction_01 (code : Z) (s : st) : st :=
  let h := Z.land (Z.shiftr code 5) 7 in
  let '(l, s) := fetch s in
  let s := tick 1 s in
  set_pc s (Z.lor (Z.land (pc s) 0xf800) (h * 256 + l)).
(** s51.src/jmp.cc:69-93 instruction_10, JBC *)
Definition instruction_10 (code : Z) (s : st) : st :=
  let '(b, s) := fetch s in let '(j, s) := fetch s in
  let s := if bits_get s b =? 0 then s else rel (bits_write s b 0) j in
  tick 1 s.
(** s51.src/jmp.cc:102-108 instruction_02, LJMP *)
Definition instruction_02 (code : Z) (s : st) : st :=
  let '(x, s) := fetch s in let '(y, s) := fetch s in
  let s := set_pc s (if ltr G then x * 256 + y else y * 256 + x) in
  tick 1 s.
(** push of one byte, as in s51.src/jmp.cc:147-190 inst_lcall: sp= sfr->write(SP, sfr->read(SP)+1) *)
Definition push_byte (s : st) (v : Z) : st :=
  let s := sfr_write s SP (sfr s SP + 1) in
  c_write s (iram_cell (sfr s SP)) v.
(** s51.src/jmp.cc:116-143 instruction_11, ACALL *)
Definition instruction_11 (code : Z) (s : st) : st :=
  let h := Z.land (Z.shiftr code 5) 7 in
  let '(l, s) := fetch s in
  let s := push_byte s (Z.land (pc s) 0xff) in
  let s := tick 1 s in
  let s := push_byte s (Z.land (Z.shiftr (pc s) 8) 0xff) in
  set_pc s (Z.lor (Z.land (pc s) 0xf800) (h * 256 + l)).
(** s51.src/jmp.cc:151-190 inst_lcall; addr 0: LCALL, otherwise the vector of an interrupt *)
Definition inst_lcall (addr : Z) (s : st) : st :=
  let '(h, l, s) :=
    if addr =? 0 then let '(h, s) := fetch s in let '(l, s) := fetch s in (h, l, s)
    else (0, 0, s) in
  let s := push_byte s (Z.land (pc s) 0xff) in
  let s := if addr =? 0 then tick 1 s else s in
  let s := push_byte s (Z.land (Z.shiftr (pc s) 8) 0xff) in
  set_pc s (if addr =? 0 then h * 256 + l else addr).
(** uc51cl.h:176 instruction_12 *)
Definition instruction_12 (code : Z) (s : st) : st := inst_lcall 0 s.
(** s51.src/jmp.cc:199-217 instruction_20, JB *)
Definition instruction_20 (code : Z) (s : st) : st :=
  let '(b, s) := fetch s in
  let s := tick 1 s in
  let '(j, s) := fetch s in
  if bits_read s b =? 0 then s else rel s j.
(** s51.src/jmp.cc:226-248 instruction_22, RET *)
Definition instruction_22 (code : Z) (s : st) : st :=
  let h := c_read s (iram_cell (sfr s SP)) in
  let s := sfr_write s SP (sfr s SP - 1) in
  let s := tick 1 s in
  let l := c_read s (iram_cell (sfr s SP)) in
  let s := sfr_write s SP (sfr s SP - 1) in
  set_pc s (h * 256 + l).
(** s51.src/jmp.cc:257-275 instruction_30, JNB *)
Definition instruction_30 (code : Z) (s : st) : st :=
  let s := tick 1 s in
  let '(b, s) := fetch s in
  let '(j, s) := fetch s in
  if bits_read s b =? 0 then rel s j else s.
(** s51.src/jmp.cc:284-316 instruction_32, RETI *)
Definition instruction_32 (code : Z) (s : st) : st :=
  let s := instruction_22 code s in
  set_levels s (tl (levels s)) true.
(** s51.src/jmp.cc:325-335 instruction_40, JC *)
Definition instruction_40 (code : Z) (s : st) : st :=
  let '(j, s) := fetch s in let s := tick 1 s in
  if bits_get s 0xd7 =? 0 then s else rel s j.
(** s51.src/jmp.cc:344-354 instruction_50, JNC *)
Definition instruction_50 (code : Z) (s : st) : st :=
  let '(j, s) := fetch s in let s := tick 1 s in
  if bits_get s 0xd7 =? 0 then rel s j else s.
(** s51.src/jmp.cc:363-373 instruction_60, JZ *)
Definition instruction_60 (code : Z) (s : st) : st :=
  let '(j, s) := fetch s in let s := tick 1 s in
  if acc s =? 0 then rel s j else s.
(** s51.src/jmp.cc:382-392 instruction_70, JNZ *)
Definition instruction_70 (code : Z) (s : st) : st :=
  let '(j, s) := fetch s in let s := tick 1 s in
  if acc s =? 0 then s else rel s j.
(** s51.src/jmp.cc:401-410 instruction_73, JMP A+DPTR *)
Definition instruction_73 (code : Z) (s : st) : st :=
  tick 1 (set_pc s (validate_address (sfr s DPH * 256 + sfr s DPL + acc s))).
(** s51.src/jmp.cc:419-427 instruction_80, SJMP *)
Definition instruction_80 (code : Z) (s : st) : st :=
  let '(j, s) := fetch s in tick 1 (rel s j).
(** common end of the CJNE functions: x is compared with data *)
Definition cjne (s : st) (x data j : Z) : st :=
  let s := bits_set s 0xd7 (if x <? data then 1 else 0) in
  if x =? data then s else rel s j.
(** s51.src/jmp.cc:436-449 instruction_b4 *)
Definition instruction_b4 (code : Z) (s : st) : st :=
  let '(d, s) := fetch s in let '(j, s) := fetch s in let s := tick 1 s in
  cjne s (acc s) d j.
(** s51.src/jmp.cc:458-474 instruction_b5 *)
Definition instruction_b5 (code : Z) (s : st) : st :=
  let '(a, s) := fetch s in let c := get_direct a in
  let '(j, s) := fetch s in let s := tick 1 s in
  cjne s (acc s) (c_read s c) j.
(** s51.src/jmp.cc:483-499 instruction_b6 *)
Definition instruction_b6 (code : Z) (s : st) : st :=
  let c := at_Ri s code in
  let '(d, s) := fetch s in let '(j, s) := fetch s in let s := tick 1 s in
  cjne s (c_read s c) d j.
(** s51.src/jmp.cc:508-524 instruction_b8 *)
Definition instruction_b8 (code : Z) (s : st) : st :=
  let c := Rn s code in
  let '(d, s) := fetch s in let '(j, s) := fetch s in let s := tick 1 s in
  cjne s (c_read s c) d j.
(** s51.src/jmp.cc:533-549 instruction_d5, DJNZ direct; cell->write returns the new
    contents of the cell *)
Definition instruction_d5 (code : Z) (s : st) : st :=
  let '(a, s) := fetch s in let c := get_direct a in
  let '(j, s) := fetch s in let s := tick 1 s in
  let s := c_write s c (c_read s c - 1) in
  if c_read s c =? 0 then s else rel s j.
(** s51.src/jmp.cc:558-573 instruction_d8, DJNZ Rn *)
Definition instruction_d8 (code : Z) (s : st) : st :=
  let c := Rn s code in
  let '(j, s) := fetch s in let s := tick 1 s in
  let s := c_write s c (c_read s c - 1) in
  if c_read s c =? 0 then s else rel s j.

(* ------------------------------------------------------------ mov.cc *)

(** s51.src/mov.cc:51-57 instruction_74 *)
Definition instruction_74 (code : Z) (s : st) : st := let '(d, s) := fetch s in acc_write s d.
(** s51.src/mov.cc:66-76 instruction_75 *)
Definition instruction_75 (code : Z) (s : st) : st :=
  let '(a, s) := fetch s in let '(d, s) := fetch s in tick 1 (c_write s (get_direct a) d).
(** s51.src/mov.cc:85-96 instruction_76 *)
Definition instruction_76 (code : Z) (s : st) : st :=
  let c := at_Ri s code in let '(d, s) := fetch s in c_write s c d.
(** s51.src/mov.cc:105-114 instruction_78 *)
Definition instruction_78 (code : Z) (s : st) : st :=
  let c := Rn s code in let '(d, s) := fetch s in c_write s c d.
(** s51.src/mov.cc:123-131 instruction_83, MOVC A+PC; the sum is u32 *)
Definition instruction_83 (code : Z) (s : st) : st :=
  tick 1 (acc_write s (rom_read s (u32 (pc s + acc s)))).
(** s51.src/mov.cc:140-153 instruction_85, first byte is the source *)
Definition instruction_85 (code : Z) (s : st) : st :=
  let '(a, s) := fetch s in let '(d, s) := fetch s in
  tick 1 (c_write s (get_direct d) (c_read s (get_direct a))).
(** s51.src/mov.cc:162-174 instruction_86 *)
Definition instruction_86 (code : Z) (s : st) : st :=
  let '(a, s) := fetch s in
  tick 1 (c_write s (get_direct a) (c_read s (at_Ri s code))).
(** s51.src/mov.cc:183-194 instruction_88 *)
Definition instruction_88 (code : Z) (s : st) : st :=
  let '(a, s) := fetch s in
  tick 1 (c_write s (get_direct a) (c_read s (Rn s code))).
(** s51.src/mov.cc:203-211 instruction_90, MOV DPTR,#data *)
Definition instruction_90 (code : Z) (s : st) : st :=
  let '(h, s) := fetch s in let s := dptr_write s 1 h in
  let '(l, s) := fetch s in let s := dptr_write s 0 l in tick 1 s.
(** s51.src/mov.cc:220-230 instruction_93, MOVC A+DPTR *)
Definition instruction_93 (code : Z) (s : st) : st :=
  tick 1 (acc_write s (rom_read s (sfr s DPH * 256 + sfr s DPL + acc s))).
(** s51.src/mov.cc:239-251 instruction_a6 *)
Definition instruction_a6 (code : Z) (s : st) : st :=
  let c := at_Ri s code in
  let '(a, s) := fetch s in tick 1 (c_write s c (c_read s (get_direct a))).
(** s51.src/mov.cc:260-272 instruction_a8 *)
Definition instruction_a8 (code : Z) (s : st) : st :=
  let c := Rn s code in
  let '(a, s) := fetch s in tick 1 (c_write s c (c_read s (get_direct a))).
(** s51.src/mov.cc:281-301 instruction_c0, PUSH: the byte is read before SP changes *)
Definition instruction_c0 (code : Z) (s : st) : st :=
  let '(a, s) := fetch s in
  let data := c_read s (get_direct a) in
  tick 1 (push_byte s data).
(** s51.src/mov.cc:310-323 instruction_c5 *)
Definition xch (s : st) (c : cell) : st :=
  let temp := acc s in
  let s := acc_write s (c_read s c) in
  c_write s c temp.
Definition instruction_c5 (code : Z) (s : st) : st :=
  let '(a, s) := fetch s in xch s (get_direct a).
(** s51.src/mov.cc:332-345 instruction_c6 *)
Definition instruction_c6 (code : Z) (s : st) : st := xch s (at_Ri s code).
(** s51.src/mov.cc:354-367 instruction_c8 *)
Definition instruction_c8 (code : Z) (s : st) : st := xch s (Rn s code).
(** s51.src/mov.cc:376-398 instruction_d0, POP: SP is decremented first *)
Definition instruction_d0 (code : Z) (s : st) : st :=
  let sp_before := sfr s SP in
  let '(a, s) := fetch s in
  let stck := iram_cell sp_before in
  let s := sfr_write s SP (sfr s SP - 1) in
  tick 1 (c_write s (get_direct a) (c_read s stck)).
(** s51.src/mov.cc:407-420 instruction_d6, XCHD *)
Definition instruction_d6 (code : Z) (s : st) : st :=
  let c := at_Ri s code in
  let d := c_read s c in
  let s := c_write s c (Z.lor (Z.land d 0xf0) (Z.land (acc s) 0x0f)) in
  acc_write s (Z.lor (Z.land (acc s) 0xf0) (Z.land d 0x0f)).
(** s51.src/mov.cc:429-439 instruction_e0, MOVX A,DPTR *)
Definition instruction_e0 (code : Z) (s : st) : st :=
  tick 1 (acc_write s (xram s (sfr s DPH * 256 + sfr s DPL))).
(** s51.src/mov.cc:448-460 instruction_e2, MOVX A,Ri; uc51.cc:1661-1688 high_movxri
    reads P2 in the default configuration *)
Definition instruction_e2 (code : Z) (s : st) : st :=
  tick 1 (acc_write s (xram s (sfr s P2 * 256 + c_read s (R s (Z.land code 1))))).
(** s51.src/mov.cc:469-491 instruction_e5, MOV A,direct; ACC is refused *)
Definition instruction_e5 (code : Z) (s : st) : st :=
  let '(a, s) := fetch s in
  if a =? ACC then inst_unknown s else acc_write s (c_read s (get_direct a)).
(** s51.src/mov.cc:500-510 instruction_e6 *)
Definition instruction_e6 (code : Z) (s : st) : st := acc_write s (c_read s (at_Ri s code)).
(** s51.src/mov.cc:519-526 instruction_e8 *)
Definition instruction_e8 (code : Z) (s : st) : st := acc_write s (c_read s (Rn s code)).
(** s51.src/mov.cc:535-545 instruction_f0, MOVX DPTR,A *)
Definition instruction_f0 (code : Z) (s : st) : st :=
  tick 1 (set_xram s (sfr s DPH * 256 + sfr s DPL) (acc s)).
(** s51.src/mov.cc:554-570 instruction_f2, MOVX Ri,A *)
Definition instruction_f2 (code : Z) (s : st) : st :=
  tick 1 (set_xram s (sfr s P2 * 256 + c_read s (R s (Z.land code 1))) (acc s)).
(** s51.src/mov.cc:579-589 instruction_f5 *)
Definition instruction_f5 (code : Z) (s : st) : st :=
  let '(a, s) := fetch s in c_write s (get_direct a) (acc s).
(** s51.src/mov.cc:598-608 instruction_f6 *)
Definition instruction_f6 (code : Z) (s : st) : st := c_write s (at_Ri s code) (acc s).
(** s51.src/mov.cc:617-627 instruction_f8 *)
Definition instruction_f8 (code : Z) (s : st) : st := c_write s (Rn s code) (acc s).

(** uc51.cc:1940-1944 instruction_00 *)
Definition instruction_00 (code : Z) (s : st) : st := s.
(** uc51.cc:1951-1956 instruction_e4, CLR A *)
Definition instruction_e4 (code : Z) (s : st) : st := acc_write s 0.
(** uc51.cc:1963-1971 instruction_c4, SWAP A; temp is uchar *)
Definition instruction_c4 (code : Z) (s : st) : st :=
  let temp := Z.land (Z.shiftr (acc s) 4) 0x0f in
  sfr_write s ACC (Z.lor (Z.shiftl (acc s) 4) temp).

(** itab.cc:30-292 cl_itab with uc51.cc:553-738 init: the instruction table. [None] is the
    inherited function that returns resNOT_DONE (uccl_instructions.h:166). *)
Definition itab (code : Z) : option (Z -> st -> st) :=
  let col := Z.land code 0x0f in
  if 8 <=? col then
    match Z.shiftr code 4 with
    | 0x0 => Some instruction_08 | 0x1 => Some instruction_18
    | 0x2 => Some instruction_28 | 0x3 => Some instruction_38
    | 0x4 => Some instruction_48 | 0x5 => Some instruction_58
    | 0x6 => Some instruction_68 | 0x7 => Some instruction_78
    | 0x8 => Some instruction_88 | 0x9 => Some instruction_98
    | 0xa => Some instruction_a8 | 0xb => Some instruction_b8
    | 0xc => Some instruction_c8 | 0xd => Some instruction_d8
    | 0xe => Some instruction_e8 | _ => Some instruction_f8
    end
  else
    match code with
    | 0x00 => Some instruction_00 | 0x10 => Some instruction_10
    | 0x20 => Some instruction_20 | 0x30 => Some instruction_30
    | 0x40 => Some instruction_40 | 0x50 => Some instruction_50
    | 0x60 => Some instruction_60 | 0x70 => Some instruction_70
    | 0x80 => Some instruction_80 | 0x90 => Some instruction_90
    | 0xa0 => Some instruction_a0 | 0xb0 => Some instruction_b0
    | 0xc0 => Some instruction_c0 | 0xd0 => Some instruction_d0
    | 0xe0 => Some instruction_e0 | 0xf0 => Some instruction_f0
    | 0x01 | 0x21 | 0x41 | 0x61 | 0x81 | 0xa1 | 0xc1 | 0xe1 => Some instruction_01
    | 0x11 | 0x31 | 0x51 | 0x71 | 0x91 | 0xb1 | 0xd1 | 0xf1 => Some instruction_11
    | 0x02 => Some instruction_02 | 0x12 => Some instruction_12
    | 0x22 => Some instruction_22 | 0x32 => Some instruction_32
    | 0x42 => Some instruction_42 | 0x52 => Some instruction_52
    | 0x62 => Some instruction_62 | 0x72 => Some instruction_72
    | 0x82 => Some instruction_82 | 0x92 => Some instruction_92
    | 0xa2 => Some instruction_a2 | 0xb2 => Some instruction_b2
    | 0xc2 => Some instruction_c2 | 0xd2 => Some instruction_d2
    | 0xe2 | 0xe3 => Some instruction_e2 | 0xf2 | 0xf3 => Some instruction_f2
    | 0x03 => Some instruction_03 | 0x13 => Some instruction_13
    | 0x23 => Some instruction_23 | 0x33 => Some instruction_33
    | 0x43 => Some instruction_43 | 0x53 => Some instruction_53
    | 0x63 => Some instruction_63 | 0x73 => Some instruction_73
    | 0x83 => Some instruction_83 | 0x93 => Some instruction_93
    | 0xa3 => Some instruction_a3 | 0xb3 => Some instruction_b3
    | 0xc3 => Some instruction_c3 | 0xd3 => Some instruction_d3
    | 0x04 => Some instruction_04 | 0x14 => Some instruction_14
    | 0x24 => Some instruction_24 | 0x34 => Some instruction_34
    | 0x44 => Some instruction_44 | 0x54 => Some instruction_54
    | 0x64 => Some instruction_64 | 0x74 => Some instruction_74
    | 0x84 => Some instruction_84 | 0x94 => Some instruction_94
    | 0xa4 => Some instruction_a4 | 0xb4 => Some instruction_b4
    | 0xc4 => Some instruction_c4 | 0xd4 => Some instruction_d4
    | 0xe4 => Some instruction_e4 | 0xf4 => Some instruction_f4
    | 0x05 => Some instruction_05 | 0x15 => Some instruction_15
    | 0x25 => Some instruction_25 | 0x35 => Some instruction_35
    | 0x45 => Some instruction_45 | 0x55 => Some instruction_55
    | 0x65 => Some instruction_65 | 0x75 => Some instruction_75
    | 0x85 => Some instruction_85 | 0x95 => Some instruction_95
    | 0xa5 => None | 0xb5 => Some instruction_b5
    | 0xc5 => Some instruction_c5 | 0xd5 => Some instruction_d5
    | 0xe5 => Some instruction_e5 | 0xf5 => Some instruction_f5
    | 0x06 | 0x07 => Some instruction_06 | 0x16 | 0x17 => Some instruction_16
    | 0x26 | 0x27 => Some instruction_26 | 0x36 | 0x37 => Some instruction_36
    | 0x46 | 0x47 => Some instruction_46 | 0x56 | 0x57 => Some instruction_56
    | 0x66 | 0x67 => Some instruction_66 | 0x76 | 0x77 => Some instruction_76
    | 0x86 | 0x87 => Some instruction_86 | 0x96 | 0x97 => Some instruction_96
    | 0xa6 | 0xa7 => Some instruction_a6 | 0xb6 | 0xb7 => Some instruction_b6
    | 0xc6 | 0xc7 => Some instruction_c6 | 0xd6 | 0xd7 => Some instruction_d6
    | 0xe6 | 0xe7 => Some instruction_e6 | 0xf6 | 0xf7 => Some instruction_f6
    | _ => None
    end.

(** uc51.cc:1644-1659 exec_inst with uc.cc:3353-3373 exec_inst_uctab: one
    machine cycle for every instruction (uc.cc:3083-3093 tickt: no table), the
    function of the opcode; when that is resNOT_DONE, PC becomes instPC, and
    one more byte is fetched there before the error is recorded *)
Definition exec_inst (s : st) : st :=
  let '(c, s) := fetch s in
  match itab c with
  | Some f => f c (tick 1 s)
  | None =>
    let s := set_pc (tick 1 s) (instpc s) in
    let '(_, s) := fetch s in
    inst_unknown s
  end.

(** uc51.cc:1697-1742 do_inst, the execution of one instruction in state stGO;
    instPC is not assigned (cl_uc::do_inst does). pre_inst clears inst_ticks
    (uc.cc:3303-3311 pre_inst). *)
Definition inst_step (s : st) : st :=
  exec_inst (mkSt (pc s) (iram s) (sfr s) (xram s) (bank s) (hole s) (noise s) 0
                  (levels s) false (instpc s) (unknown s)).
End Core.
