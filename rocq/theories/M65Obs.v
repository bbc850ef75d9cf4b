(** How a state of the model is seen as a state of the programming manual. *)
From Verif Require Import Base M65Model M65Spec.

Definition flags_of (f : Z) : flags :=
  mkP (Z.testbit f 7) (Z.testbit f 6) (Z.testbit f 3) (Z.testbit f 2) (Z.testbit f 1) (Z.testbit f 0).
Definition view (t : st) : cpu := mkCpu (rA t) (rX t) (rY t) (rSP t) (flags_of (rF t)) (PC t) (mem t).

(** Registers and memory hold bytes *)
Definition bytes (t : st) : Prop :=
  is_u8 (rA t) /\ is_u8 (rX t) /\ is_u8 (rY t) /\ is_u8 (rSP t) /\ is_u8 (rF t) /\
  is_u8 (hole t) /\ is_u8 (i8d t) /\ (forall k, is_u8 (mem t k)).
Definition wf (t : st) : Prop := bytes t /\ 0 <= PC t < 65536.

(** The B flag does not exist as a register bit: it is clear between
    instructions when no BRK waits to be served. *)
Definition no_B (t : st) : Prop := Z.testbit (rF t) 4 = false /\ brk t = false.

(** Cycles the simulator takes more (or less) than the manual says *)
Definition extra (w : bool) (i : mnem) (m : mode) (c : cpu) : Z :=
  match i, m with
  | NOP, _ => -1
  | JSR, _ => -3
  | STA, AbX => b2z (crossed w m c)
  | STA, AbY | STA, IndY => b2z (crossed w m c) - 1
  | (ASL | LSR | ROL | ROR | INC | DEC), AbX => b2z (crossed w m c)
  | _, _ => 0
  end.

(** The address JMP (ind) and RTS go on with: at the end of the address space
    the simulator does not wrap to 0 *)
Definition jmp_ptr (c : cpu) : Z := word c.
Definition rts_from (c : cpu) : Z := let (lo, c) := pull c in let (hi, c) := pull c in lo + 256 * hi.
(** where the manual and the simulator are compared: not at decimal ADC, SBC,
    JMP (FFFF), RTS to 10000 *)
Definition comparable (i : mnem) (m : mode) (c : cpu) : Prop :=
  match i, m with
  | ADC, _ | SBC, _ => fD (p c) = false
  | JMP, Ind => jmp_ptr c <> 65535
  | RTS, _ => rts_from c <> 65535
  | _, _ => True
  end.

(** A page zero pointer whose high byte would be at 00FF + 1 *)
Definition zp_end (m : mode) (c : cpu) : bool :=
  match m with
  | IndX => (at1 c + x c) mod 256 =? 255
  | IndY => at1 c =? 255
  | _ => false
  end.
(** the instruction at pc *)
Definition current (c : cpu) : option (mnem * mode) := decode (ram c (pc c)).
