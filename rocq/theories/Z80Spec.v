(** The Z80 as its manual describes it: encoding of the instructions by the bit groups of the
    codes, and what each instruction does to registers, flags, memory and ports.  Only the
    names of the instructions and operands are shared with the model. *)
From Verif Require Import Base Z80Model.

(** ** State *)
(** the bits of F; X (bit 3) and Y (bit 5) have no documented meaning *)
Record flags := mkF { fS : bool; fZ : bool; fY : bool; fH : bool; fX : bool; fP : bool; fN : bool; fC : bool }.
Definition flags_of (b : Z) : flags :=
  mkF (Z.testbit b 7) (Z.testbit b 6) (Z.testbit b 5) (Z.testbit b 4) (Z.testbit b 3) (Z.testbit b 2) (Z.testbit b 1)
      (Z.testbit b 0).
Definition byte_of (f : flags) : Z :=
  let b (c : bool) v := if c then v else 0 in
  b (fS f) 128 + b (fZ f) 64 + b (fY f) 32 + b (fH f) 16 + b (fX f) 8 + b (fP f) 4 + b (fN f) 2 + b (fC f) 1.
(** registers by their numbers in the codes (0 B, 1 C, 2 D, 3 E, 4 H, 5 L, 7 A), flags, IX, IY,
    SP, PC, memory, the alternate registers and flags, I, R, IFF1, IFF2, the interrupt mode, input
    and output ports *)
Record M := mkM { r : Z -> Z; f : flags; ix : Z; iy : Z; sp : Z; pc : Z; mm : Z -> Z; r' : Z -> Z; f' : flags; vi : Z; vr : Z; i1 : bool; i2 : bool; md : Z; pin : Z -> Z; pout : Z -> Z }.
Definition s_r (v : Z -> Z) (x : M) : M := mkM v (f x) (ix x) (iy x) (sp x) (pc x) (mm x) (r' x) (f' x) (vi x) (vr x) (i1 x) (i2 x) (md x) (pin x) (pout x).
Definition s_f (v : flags) (x : M) : M := mkM (r x) v (ix x) (iy x) (sp x) (pc x) (mm x) (r' x) (f' x) (vi x) (vr x) (i1 x) (i2 x) (md x) (pin x) (pout x).
Definition s_ix (v : Z) (x : M) : M := mkM (r x) (f x) v (iy x) (sp x) (pc x) (mm x) (r' x) (f' x) (vi x) (vr x) (i1 x) (i2 x) (md x) (pin x) (pout x).
Definition s_iy (v : Z) (x : M) : M := mkM (r x) (f x) (ix x) v (sp x) (pc x) (mm x) (r' x) (f' x) (vi x) (vr x) (i1 x) (i2 x) (md x) (pin x) (pout x).
Definition s_sp (v : Z) (x : M) : M := mkM (r x) (f x) (ix x) (iy x) v (pc x) (mm x) (r' x) (f' x) (vi x) (vr x) (i1 x) (i2 x) (md x) (pin x) (pout x).
Definition s_pc (v : Z) (x : M) : M := mkM (r x) (f x) (ix x) (iy x) (sp x) v (mm x) (r' x) (f' x) (vi x) (vr x) (i1 x) (i2 x) (md x) (pin x) (pout x).
Definition s_mm (v : Z -> Z) (x : M) : M := mkM (r x) (f x) (ix x) (iy x) (sp x) (pc x) v (r' x) (f' x) (vi x) (vr x) (i1 x) (i2 x) (md x) (pin x) (pout x).
Definition s_r' (v : Z -> Z) (x : M) : M := mkM (r x) (f x) (ix x) (iy x) (sp x) (pc x) (mm x) v (f' x) (vi x) (vr x) (i1 x) (i2 x) (md x) (pin x) (pout x).
Definition s_f' (v : flags) (x : M) : M := mkM (r x) (f x) (ix x) (iy x) (sp x) (pc x) (mm x) (r' x) v (vi x) (vr x) (i1 x) (i2 x) (md x) (pin x) (pout x).
Definition s_vi (v : Z) (x : M) : M := mkM (r x) (f x) (ix x) (iy x) (sp x) (pc x) (mm x) (r' x) (f' x) v (vr x) (i1 x) (i2 x) (md x) (pin x) (pout x).
Definition s_vr (v : Z) (x : M) : M := mkM (r x) (f x) (ix x) (iy x) (sp x) (pc x) (mm x) (r' x) (f' x) (vi x) v (i1 x) (i2 x) (md x) (pin x) (pout x).
Definition s_i1 (v : bool) (x : M) : M := mkM (r x) (f x) (ix x) (iy x) (sp x) (pc x) (mm x) (r' x) (f' x) (vi x) (vr x) v (i2 x) (md x) (pin x) (pout x).
Definition s_i2 (v : bool) (x : M) : M := mkM (r x) (f x) (ix x) (iy x) (sp x) (pc x) (mm x) (r' x) (f' x) (vi x) (vr x) (i1 x) v (md x) (pin x) (pout x).
Definition s_md (v : Z) (x : M) : M := mkM (r x) (f x) (ix x) (iy x) (sp x) (pc x) (mm x) (r' x) (f' x) (vi x) (vr x) (i1 x) (i2 x) v (pin x) (pout x).
Definition s_pin (v : Z -> Z) (x : M) : M := mkM (r x) (f x) (ix x) (iy x) (sp x) (pc x) (mm x) (r' x) (f' x) (vi x) (vr x) (i1 x) (i2 x) (md x) v (pout x).
Definition s_pout (v : Z -> Z) (x : M) : M := mkM (r x) (f x) (ix x) (iy x) (sp x) (pc x) (mm x) (r' x) (f' x) (vi x) (vr x) (i1 x) (i2 x) (md x) (pin x) v.
(** the state of the simulated processor, as a programmer sees it *)
Definition abs (s : cpu) : M :=
  mkM (rg s) (flags_of (F s)) (IX s) (IY s) (SP s) (PC s) (mem s) (arg s) (flags_of (aF s)) (iv s) (rr s) (iff1 s) (iff2 s)
      (im s) (inp s) (outp s).
(** registers and memory hold bytes, IX, IY, SP and PC addresses *)
Definition byte (v : Z) : Prop := 0 <= v < 256.
Definition word (v : Z) : Prop := 0 <= v < 65536.
Definition wf (s : cpu) : Prop :=
  (forall n, byte (rg s n)) /\ (forall n, byte (arg s n)) /\ byte (F s) /\ byte (aF s) /\
  word (IX s) /\ word (IY s) /\ word (SP s) /\ word (PC s) /\ (forall a, byte (mem s a)) /\
  byte (iv s) /\ byte (rr s) /\ (forall p, byte (inp s p)).
(** the same flags, X and Y excepted *)
Definition samef (a b : flags) : Prop :=
  fS a = fS b /\ fZ a = fZ b /\ fH a = fH b /\ fP a = fP b /\ fN a = fN b /\ fC a = fC b.
(** everything but the flags *)
Definition same_but_flags (x y : M) : Prop :=
  r x = r y /\ ix x = ix y /\ iy x = iy y /\ sp x = sp y /\ pc x = pc y /\ (forall a, mm x a = mm y a) /\
  r' x = r' y /\ f' x = f' y /\ vi x = vi y /\ vr x = vr y /\ i1 x = i1 y /\ i2 x = i2 y /\ md x = md y /\
  pin x = pin y /\ pout x = pout y.
Definition same (x y : M) : Prop := same_but_flags x y /\ samef (f x) (f y).

(** ** Registers, memory, operands in the program *)
Definition w (v : Z) : Z := v mod 65536.
Definition setr (n v : Z) (x : M) : M := s_r (fun k => if k =? n then v else r x k) x.
Definition setm (a v : Z) (x : M) : M := s_mm (fun k => if k =? a then v else mm x k) x.
Definition setout (p v : Z) (x : M) : M := s_pout (fun k => if k =? p then v else pout x k) x.
Definition acc (x : M) : Z := r x 7.
(** the pairs: the first register is the high byte *)
Definition pairv (y : bool) (p : rp) (x : M) : Z :=
  match p with
  | BC => 256 * r x 0 + r x 1 | DE => 256 * r x 2 + r x 3 | HL => 256 * r x 4 + r x 5
  | RSP => sp x | XX => if y then iy x else ix x
  end.
Definition set2 (n v : Z) (x : M) : M :=
  s_r (fun k => if k =? n then v / 256 else if k =? n + 1 then v mod 256 else r x k) x.
Definition setpair (y : bool) (p : rp) (v : Z) (x : M) : M :=
  match p with
  | BC => set2 0 v x | DE => set2 2 v x | HL => set2 4 v x
  | RSP => s_sp v x | XX => if y then s_iy v x else s_ix v x
  end.
(** a signed byte *)
Definition sgn (v : Z) : Z := if v <? 128 then v else v - 256.
Definition next8 (x : M) : Z * M := (mm x (pc x), s_pc (w (pc x + 1)) x).
Definition next16 (x : M) : Z * M := (mm x (pc x) + 256 * mm x (w (pc x + 1)), s_pc (w (pc x + 2)) x).
(** an operand: how to read and how to write it, and the state after its bytes were fetched *)
Definition operand (y : bool) (l : loc) (x : M) : (M -> Z) * (Z -> M -> M) * M :=
  match l with
  | LR n => (fun x => r x n, setr n, x)
  | LHL => let a := pairv y HL x in (fun x => mm x a, setm a, x)
  | LXH => (fun x => pairv y XX x / 256, fun v x => setpair y XX (256 * v + pairv y XX x mod 256) x, x)
  | LXL => (fun x => pairv y XX x mod 256, fun v x => setpair y XX (256 * (pairv y XX x / 256) + v) x, x)
  | LXD => let '(d, x) := next8 x in let a := w (pairv y XX x + sgn d) in (fun x => mm x a, setm a, x)
  | LN => let '(v, x) := next8 x in (fun _ => v, fun _ x => x, x)
  end.
Definition m16 (a : Z) (x : M) : Z := mm x a + 256 * mm x (w (a + 1)).
Definition setm16 (a v : Z) (x : M) : M := setm (w (a + 1)) (v / 256) (setm a (v mod 256) x).
Definition push (v : Z) (x : M) : M := let x := s_sp (w (sp x - 2)) x in setm16 (sp x) v x.
Definition pop (x : M) : Z * M := (m16 (sp x) x, s_sp (w (sp x + 2)) x).

(** ** Flags and arithmetic *)
Fixpoint ones (k : nat) (v : Z) : Z := match k with O => 0 | S k => v mod 2 + ones k (v / 2) end.
(** P is set when the number of ones is even *)
Definition even_parity (v : Z) : bool := Z.even (ones 8 v).
Definition setf (s z h p n c : bool) (x : M) : M := s_f (mkF s z (fY (f x)) h (fX (f x)) p n c) x.
Definition carry (x : M) : Z := if fC (f x) then 1 else 0.
(** S, Z and P by the result *)
Definition szp (v : Z) (h n c : bool) (x : M) : M := setf (128 <=? v) (v =? 0) h (even_parity v) n c x.
Definition overflow (k v : Z) : bool := (v <? - k) || (k <=? v).
Definition add (v c : Z) (x : M) : M :=
  let t := acc x + v + c in
  setf (128 <=? t mod 256) (t mod 256 =? 0) (16 <=? acc x mod 16 + v mod 16 + c)
       (overflow 128 (sgn (acc x) + sgn v + c)) false (256 <=? t) (setr 7 (t mod 256) x).
Definition cmp (v c : Z) (x : M) : M :=
  let t := acc x - v - c in
  setf (128 <=? t mod 256) (t mod 256 =? 0) (acc x mod 16 <? v mod 16 + c)
       (overflow 128 (sgn (acc x) - sgn v - c)) true (t <? 0) x.
Definition sub (v c : Z) (x : M) : M := setr 7 ((acc x - v - c) mod 256) (cmp v c x).
Definition bitwise (v : Z) (h : bool) (x : M) : M := szp v h false false (setr 7 v x).
Definition arith (k : alu) (v : Z) (x : M) : M :=
  match k with
  | ADD => add v 0 x | ADC => add v (carry x) x | SUB => sub v 0 x | SBC => sub v (carry x) x
  | AND => bitwise (Z.land (acc x) v) true x | XOR => bitwise (Z.lxor (acc x) v) false x
  | OR => bitwise (Z.lor (acc x) v) false x | CP => cmp v 0 x
  end.
Definition sgn16 (v : Z) : Z := if v <? 32768 then v else v - 65536.
Definition add16 (y : bool) (d : rp) (v : Z) (x : M) : M :=
  let a := pairv y d x in
  setpair y d (w (a + v))
    (setf (fS (f x)) (fZ (f x)) (4096 <=? a mod 4096 + v mod 4096) (fP (f x)) false (65536 <=? a + v) x).
Definition adc16 (v : Z) (x : M) : M :=
  let a := pairv false HL x in let c := carry x in let t := a + v + c in
  setpair false HL (w t)
    (setf (32768 <=? w t) (w t =? 0) (4096 <=? a mod 4096 + v mod 4096 + c)
          (overflow 32768 (sgn16 a + sgn16 v + c)) false (65536 <=? t) x).
Definition sbc16 (v : Z) (x : M) : M :=
  let a := pairv false HL x in let c := carry x in let t := a - v - c in
  setpair false HL (w t)
    (setf (32768 <=? w t) (w t =? 0) (a mod 4096 <? v mod 4096 + c)
          (overflow 32768 (sgn16 a - sgn16 v - c)) true (t <? 0) x).
(** S, Z, H, N of an incremented or decremented byte *)
Definition incf (v : Z) (x : M) : M :=
  setf (128 <=? v) (v =? 0) (v mod 16 =? 0) (v =? 128) false (fC (f x)) x.
Definition decf (v : Z) (x : M) : M :=
  setf (128 <=? v) (v =? 0) (v mod 16 =? 15) (v =? 127) true (fC (f x)) x.
(** H and N cleared, S, Z, P kept *)
Definition rot_acc (v : Z) (c : bool) (x : M) : M :=
  setf (fS (f x)) (fZ (f x)) false (fP (f x)) false c (setr 7 v x).
(** decimal adjustment of A after an addition (N clear) or subtraction (N set) *)
Definition daa (x : M) : M :=
  let a := acc x in
  let hi := fC (f x) || (153 <? a) in
  let lo := fH (f x) || (9 <? a mod 16) in
  let k := (if hi then 96 else 0) + (if lo then 6 else 0) in
  let t := if fN (f x) then (a - k) mod 256 else (a + k) mod 256 in
  szp t (if fN (f x) then fH (f x) && (a mod 16 <? 6) else 9 <? a mod 16) (fN (f x)) hi (setr 7 t x).
(** 0 NZ, 1 Z, 2 NC, 3 C, 4 PO, 5 PE, 6 P, 7 M *)
Definition cond (c : Z) (x : M) : bool :=
  match c with
  | 0 => negb (fZ (f x)) | 1 => fZ (f x) | 2 => negb (fC (f x)) | 3 => fC (f x)
  | 4 => negb (fP (f x)) | 5 => fP (f x) | 6 => negb (fS (f x)) | _ => fS (f x)
  end.
Definition condo (c : option Z) (x : M) : bool := match c with None => true | Some c => cond c x end.
(** 0 RLC, 1 RRC, 2 RL, 3 RR, 4 SLA, 5 SRA, 6 SLL, 7 SRL: the result and the carry *)
Definition rotated (k v c : Z) : Z * bool :=
  let left := 128 <=? v in let right := Z.odd v in
  match k with
  | 0 => (2 * v mod 256 + v / 128, left)
  | 1 => (v / 2 + 128 * (v mod 2), right)
  | 2 => (2 * v mod 256 + c, left)
  | 3 => (v / 2 + 128 * c, right)
  | 4 => (2 * v mod 256, left)
  | 5 => (v / 2 + 128 * (v / 128), right)
  | 6 => (2 * v mod 256 + 1, left)
  | _ => (v / 2, right)
  end.

(** ** Encoding *)
Definition reg8 (n : Z) : loc := if n =? 6 then LHL else LR n.
Definition reg16 (p : Z) : rp := match p with 0 => BC | 1 => DE | 2 => HL | _ => RSP end.
Definition alu_no (k : Z) : alu :=
  match k with 0 => ADD | 1 => ADC | 2 => SUB | 3 => SBC | 4 => AND | 5 => XOR | 6 => OR | _ => CP end.
(** without prefix; LD r,r of a register to itself does nothing *)
Definition decode (c : Z) : op :=
  let i := c / 8 mod 8 in let j := c mod 8 in let p := reg16 (c / 16 mod 4) in let even := Z.even i in
  if c <? 64 then
    match j with
    | 0 => match i with 0 => NOP | 1 => EXAF | 2 => DJNZ | 3 => JR None | _ => JR (Some (i - 4)) end
    | 1 => if even then LDi p else ADDp HL p
    | 2 => match i with 0 => STAp BC | 1 => LDAp BC | 2 => STAp DE | 3 => LDAp DE
                      | 4 => STp HL | 5 => LDp HL | 6 => STA | _ => LDA end
    | 3 => if even then INCp p else DECp p
    | 4 => INC (reg8 i)
    | 5 => DEC (reg8 i)
    | 6 => LD (reg8 i) LN
    | _ => match i with 0 => RLCA | 1 => RRCA | 2 => RLA | 3 => RRA | 4 => DAA | 5 => CPL | 6 => SCF | _ => CCF end
    end
  else if c =? 118 then HALT
  else if c <? 128 then if i =? j then NOP else LD (reg8 i) (reg8 j)
  else if c <? 192 then ALU (alu_no i) (reg8 j)
  else
    match j with
    | 0 => RET (Some i)
    | 1 => match i with 1 => RET None | 3 => EXX | 5 => JPp HL | 7 => LDSP HL | 6 => POPAF | _ => POP p end
    | 2 => JP (Some i)
    | 3 => match i with 0 => JP None | 1 => PCB | 2 => OUT | 3 => IN | 4 => EXSP HL | 5 => EXDEHL | 6 => DI | _ => EI end
    | 4 => CALL (Some i)
    | 5 => match i with 1 => CALL None | 3 => PXD false | 5 => PED | 7 => PXD true | 6 => PUSHAF | _ => PUSH p end
    | 6 => ALU (alu_no i) LN
    | _ => RST (8 * i)
    end.
(** behind DD or FD: HL is IX or IY, H and L their halves, (HL) is (IX+d) or (IY+d); H and L stay
    when (IX+d) is used.  [None]: the instruction does not use HL, the prefix has no documented
    effect.  (EX DE,HL is not changed by the prefix.) *)
Definition ind (l : loc) : loc := match l with LHL => LXD | LR n => if n =? 4 then LXH else if n =? 5 then LXL else LR n | _ => l end.
Definition uses (l : loc) : bool := match l with LHL => true | LR n => (n =? 4) || (n =? 5) | _ => false end.
Definition ind2 (p : rp) : rp := match p with HL => XX | _ => p end.
Definition is_hl (p : rp) : bool := match p with HL => true | _ => false end.
Definition indexed (c : Z) : option op :=
  if (c =? 100) || (c =? 109) then Some NOP (* LD IXH,IXH; LD IXL,IXL *) else
  match decode c with
  | LD d l =>
      if uses d || uses l then
        Some (match d, l with LHL, _ => LD LXD l | _, LHL => LD d LXD | _, _ => LD (ind d) (ind l) end)
      else None
  | INC l => if uses l then Some (INC (ind l)) else None
  | DEC l => if uses l then Some (DEC (ind l)) else None
  | ALU k l => if uses l then Some (ALU k (ind l)) else None
  | ADDp d p => Some (ADDp (ind2 d) (ind2 p))
  | LDi p => if is_hl p then Some (LDi XX) else None
  | STp p => if is_hl p then Some (STp XX) else None
  | LDp p => if is_hl p then Some (LDp XX) else None
  | INCp p => if is_hl p then Some (INCp XX) else None
  | DECp p => if is_hl p then Some (DECp XX) else None
  | PUSH p => if is_hl p then Some (PUSH XX) else None
  | POP p => if is_hl p then Some (POP XX) else None
  | EXSP p => Some (EXSP XX)
  | JPp p => Some (JPp XX)
  | LDSP p => Some (LDSP XX)
  | PCB => Some PXCB
  | _ => None
  end.
(** behind ED; [None]: not defined *)
Definition decode_ed (c : Z) : option op :=
  let i := c / 8 mod 8 in let j := c mod 8 in let p := reg16 (c / 16 mod 4) in let even := Z.even i in
  if (64 <=? c) && (c <? 128) then
    match j with
    | 0 => Some (INrC i)
    | 1 => Some (OUTC i)
    | 2 => Some (if even then SBCp p else ADCp p)
    | 3 => Some (if even then STp p else LDp p)
    | 4 => if i =? 0 then Some NEG else None
    | 5 => if i <? 2 then Some RETN else None (* RETN, RETI *)
    | 6 => match i with 0 => Some (IM 0) | 2 => Some (IM 1) | 3 => Some (IM 2) | _ => None end
    | _ => match i with 0 => Some LDIA | 1 => Some LDRA | 2 => Some LDAI | 3 => Some LDAR | 4 => Some RRD | 5 => Some RLD
                      | _ => None end
    end
  else if (160 <=? c) && (c <? 192) then
    match j, i with
    | 0, 4 => Some LDI | 0, 5 => Some LDD | 0, 6 => Some LDIR | 0, 7 => Some LDDR
    | 1, 4 => Some CPI | 1, 5 => Some CPD | 1, 6 => Some CPIR | 1, 7 => Some CPDR
    | 2, 4 => Some INI | 2, 5 => Some IND | 2, 6 => Some INIR | 2, 7 => Some INDR
    | 3, 4 => Some OUTI | 3, 5 => Some OUTD | 3, 6 => Some OTIR | 3, 7 => Some OTDR
    | _, _ => None
    end
  else None.

(** ** What the instructions do *)
Definition jump_if (c : bool) (a : Z) (x : M) : M := if c then s_pc (w a) x else x.
(** repeated instructions are executed again: PC goes back to the prefix *)
Definition repeat_if (c : bool) (x : M) : M := jump_if c (pc x - 2) x.
Definition dec_bc (x : M) : M := setpair false BC (w (pairv false BC x - 1)) x.
Definition move_hl (d : Z) (x : M) : M := setpair false HL (w (pairv false HL x + d)) x.
Definition left_bc (x : M) : bool := negb (pairv false BC x =? 0).
Definition left_b (x : M) : bool := negb (r x 0 =? 0).
(** (DE) := (HL), both move, BC counts; H, N cleared, P: BC is not 0 *)
Definition move_block (d : Z) (x : M) : M :=
  let x := setm (pairv false DE x) (mm x (pairv false HL x)) x in
  let x := move_hl d x in
  let x := setpair false DE (w (pairv false DE x + d)) x in
  let x := dec_bc x in
  setf (fS (f x)) (fZ (f x)) false (left_bc x) false (fC (f x)) x.
(** A is compared with (HL); C is kept, P: BC is not 0 *)
Definition compare_block (d : Z) (x : M) : M :=
  let v := mm x (pairv false HL x) in
  let t := (acc x - v) mod 256 in
  let x := dec_bc (move_hl d x) in
  setf (128 <=? t) (t =? 0) (acc x mod 16 <? v mod 16) (left_bc x) true (fC (f x)) x.
(** Z: B is 0, N set *)
Definition count_b (x : M) : M :=
  let x := setr 0 ((r x 0 - 1) mod 256) x in
  setf (fS (f x)) (r x 0 =? 0) (fH (f x)) (fP (f x)) true (fC (f x)) x.
Definition in_block (d : Z) (x : M) : M := count_b (move_hl d (setm (pairv false HL x) (pin x (r x 1)) x)).
Definition out_block (d : Z) (x : M) : M := move_hl d (setout (r x 1) (mm x (pairv false HL x)) (count_b x)).
(** the port of the input and output instructions is the low byte of the address; no devices are
    attached, interrupts are not requested.  [y]: IY instead of IX.  [x]: the state after
    prefixes and code were fetched. *)
Definition sem (y : bool) (o : op) (x : M) : M :=
  match o with
  | NOP | HALT => x
  | DI => s_i2 false (s_i1 false x)
  | EI => s_i2 true (s_i1 true x)
  | LD d l =>
      let '(_, write, x) := operand y d x in
      let '(read, _, x) := operand y l x in
      write (read x) x
  | LDi p => let '(v, x) := next16 x in setpair y p v x
  | STp p => let '(a, x) := next16 x in setm16 a (pairv y p x) x
  | LDp p => let '(a, x) := next16 x in setpair y p (m16 a x) x
  | STAp p => setm (pairv y p x) (acc x) x
  | LDAp p => setr 7 (mm x (pairv y p x)) x
  | STA => let '(a, x) := next16 x in setm a (acc x) x
  | LDA => let '(a, x) := next16 x in setr 7 (mm x a) x
  | LDSP p => s_sp (pairv y p x) x
  | PUSH p => push (pairv y p x) x
  | POP p => let '(v, x) := pop x in setpair y p v x
  | PUSHAF => push (256 * acc x + byte_of (f x)) x
  | POPAF => let '(v, x) := pop x in setr 7 (v / 256) (s_f (flags_of (v mod 256)) x)
  | EXAF =>
      s_r (fun k => if k =? 7 then r' x 7 else r x k) (s_r' (fun k => if k =? 7 then r x 7 else r' x k)
        (s_f (f' x) (s_f' (f x) x)))
  | EXX => s_r (fun k => if k <? 6 then r' x k else r x k) (s_r' (fun k => if k <? 6 then r x k else r' x k) x)
  | EXDEHL => setpair y HL (pairv y DE x) (setpair y DE (pairv y HL x) x)
  | EXSP p => setpair y p (m16 (sp x) x) (setm16 (sp x) (pairv y p x) x)
  | INC l => let '(read, write, x) := operand y l x in let v := (read x + 1) mod 256 in write v (incf v x)
  | DEC l => let '(read, write, x) := operand y l x in let v := (read x - 1) mod 256 in write v (decf v x)
  | ALU k l => let '(read, _, x) := operand y l x in arith k (read x) x
  | INCp p => setpair y p (w (pairv y p x + 1)) x
  | DECp p => setpair y p (w (pairv y p x - 1)) x
  | ADDp d p => add16 y d (pairv y p x) x
  | RLCA => let '(v, c) := rotated 0 (acc x) 0 in rot_acc v c x
  | RRCA => let '(v, c) := rotated 1 (acc x) 0 in rot_acc v c x
  | RLA => let '(v, c) := rotated 2 (acc x) (carry x) in rot_acc v c x
  | RRA => let '(v, c) := rotated 3 (acc x) (carry x) in rot_acc v c x
  | DAA => daa x
  | CPL => setr 7 (255 - acc x) (setf (fS (f x)) (fZ (f x)) true (fP (f x)) true (fC (f x)) x)
  | SCF => setf (fS (f x)) (fZ (f x)) false (fP (f x)) false true x
  | CCF => setf (fS (f x)) (fZ (f x)) (fC (f x)) (fP (f x)) false (negb (fC (f x))) x
  | DJNZ =>
      let '(d, x) := next8 x in
      let x := setr 0 ((r x 0 - 1) mod 256) x in
      jump_if (left_b x) (pc x + sgn d) x
  | JR c => let '(d, x) := next8 x in jump_if (condo c x) (pc x + sgn d) x
  | JP c => let '(a, x) := next16 x in jump_if (condo c x) a x
  | JPp p => s_pc (pairv y p x) x
  | CALL c => let '(a, x) := next16 x in if condo c x then s_pc a (push (pc x) x) else x
  | RET c => if condo c x then let '(a, x) := pop x in s_pc a x else x
  | RST n => s_pc n (push (pc x) x)
  | OUT => let '(p, x) := next8 x in setout p (acc x) x
  | IN => let '(p, x) := next8 x in setr 7 (pin x p) x
  | INrC n =>
      let v := pin x (r x 1) in
      let x := szp v false false (fC (f x)) x in
      if n =? 6 then x else setr n v x
  | OUTC n => setout (r x 1) (if n =? 6 then 0 else r x n) x
  | SBCp p => sbc16 (pairv y p x) x
  | ADCp p => adc16 (pairv y p x) x
  | NEG =>
      let a := acc x in let t := (- a) mod 256 in
      setf (128 <=? t) (t =? 0) (negb (a mod 16 =? 0)) (a =? 128) true (negb (a =? 0)) (setr 7 t x)
  | RETN => let '(a, x) := pop x in s_pc a (s_i1 (i2 x) x)
  | IM n => s_md n x
  | LDIA => s_vi (acc x) x
  | LDRA => s_vr (acc x) x
  | LDAI => setf (128 <=? vi x) (vi x =? 0) false (i2 x) false (fC (f x)) (setr 7 (vi x) x)
  | LDAR => setf (128 <=? vr x) (vr x =? 0) false (i2 x) false (fC (f x)) (setr 7 (vr x) x)
  | RRD =>
      let v := mm x (pairv y HL x) in let a := acc x in let t := 16 * (a / 16) + v mod 16 in
      szp t false false (fC (f x)) (setr 7 t (setm (pairv y HL x) (16 * (a mod 16) + v / 16) x))
  | RLD =>
      let v := mm x (pairv y HL x) in let a := acc x in let t := 16 * (a / 16) + v / 16 in
      szp t false false (fC (f x)) (setr 7 t (setm (pairv y HL x) (16 * (v mod 16) + a mod 16) x))
  | LDI => move_block 1 x
  | LDD => move_block (-1) x
  | LDIR => let x := move_block 1 x in repeat_if (left_bc x) x
  | LDDR => let x := move_block (-1) x in repeat_if (left_bc x) x
  | CPI => compare_block 1 x
  | CPD => compare_block (-1) x
  | CPIR => let x := compare_block 1 x in repeat_if (left_bc x && negb (fZ (f x))) x
  | CPDR => let x := compare_block (-1) x in repeat_if (left_bc x && negb (fZ (f x))) x
  | INI => in_block 1 x
  | IND => in_block (-1) x
  | INIR => let x := in_block 1 x in repeat_if (left_b x) x
  | INDR => let x := in_block (-1) x in repeat_if (left_b x) x
  | OUTI => out_block 1 x
  | OUTD => out_block (-1) x
  | OTIR => let x := out_block 1 x in repeat_if (left_b x) x
  | OTDR => let x := out_block (-1) x in repeat_if (left_b x) x
  | PCB | PXD _ | PED | PXCB | INV => x
  end.
(** behind CB: rotations, BIT (S and P, not documented for it, as the processor sets them), RES, SET *)
Definition bit_clear (b v : Z) : bool := v / 2 ^ b mod 2 =? 0.
Definition bitf (b v : Z) (x : M) : M :=
  setf ((b =? 7) && negb (bit_clear b v)) (bit_clear b v) true (bit_clear b v) false (fC (f x)) x.
Definition without (b v : Z) : Z := if bit_clear b v then v else v - 2 ^ b.
Definition with_ (b v : Z) : Z := if bit_clear b v then v + 2 ^ b else v.
Definition sem_cb (c : Z) (x : M) : M :=
  let '(read, write, _) := operand false (reg8 (c mod 8)) x in
  let v := read x in let k := c / 8 mod 8 in
  if c <? 64 then let '(t, co) := rotated k v (carry x) in write t (szp t false false co x)
  else if c <? 128 then bitf k v x
  else if c <? 192 then write (without k v) x
  else write (with_ k v) x.
(** behind DD CB d: the operand is (IX+d), the result goes also to a register, unless the low bits
    are 6 (not documented for other low bits) *)
Definition sem_xcb (a c : Z) (x : M) : M :=
  let v := mm x a in let k := c / 8 mod 8 in let n := c mod 8 in
  let write t x := setm a t (if n =? 6 then x else setr n t x) in
  if c <? 64 then let '(t, co) := rotated k v (carry x) in write t (szp t false false co x)
  else if c <? 128 then bitf k v x
  else if c <? 192 then write (without k v) x
  else write (with_ k v) x.

(** ** Where the simulator differs *)
(** the value of an operand *)
Definition value (y : bool) (l : loc) (x : M) : Z := let '(read, _, x') := operand y l x in read x'.
Definition rel_target (x : M) : Z := w (pc x + 1) + sgn (mm x (pc x)).
Definition operand16 (x : M) : Z := fst (next16 x).
(** the bytes a CALL pushes *)
Definition on_stack (a : Z) (x : M) : Prop := a = w (sp x - 1) \/ a = w (sp x - 2).
(** other things than flags *)
Definition differs (y : bool) (o : op) (x : M) : Prop :=
  match o with
  | JR c => condo c x = true /\ ~ word (rel_target x)
  | DJNZ => r x 0 <> 1 /\ ~ word (rel_target x)
  | STp _ | LDp _ => operand16 x = 65535
  | PUSH _ | RST _ => sp x = 1
  | POP _ | EXSP _ => sp x = 65535
  | RET c => condo c x = true /\ sp x = 65535
  | CALL c => condo c x = true /\ (sp x = 1 \/ on_stack (pc x) x \/ on_stack (w (pc x + 1)) x)
  | RETN => True
  | OUTI | OTIR | CPD | CPDR => True
  | _ => False
  end.
(** flags only *)
Definition differs_flags (y : bool) (o : op) (x : M) : Prop :=
  match o with
  | ALU ADC l | ALU SBC l => fC (f x) = true /\ value y l x mod 16 = 15
  | ADCp p | SBCp p => fC (f x) = true /\ pairv y p x mod 4096 = 4095
  | DAA => fN (f x) = true /\ fC (f x) = false /\ (153 < acc x \/ (fH (f x) = true /\ acc x < 6))
  | INrC _ | RRD | RLD | CPI | CPIR | INI | IND | INIR | INDR | OUTD | OTDR => True
  | LDDR => pairv false BC x <> 1
  | _ => False
  end.

(** ** One instruction, with its prefixes *)
Inductive instr := plain (y : bool) (o : op) | cb (c : Z) | xcb (a c : Z) | undefined.
(** the instruction at PC, and the state when its prefixes and codes were fetched *)
Definition instr_at (x : M) : instr * M :=
  let '(c, x) := next8 x in
  if c =? 203 then let '(c, x) := next8 x in (cb c, x)
  else if c =? 237 then
    let '(c, x) := next8 x in
    (match decode_ed c with Some o => plain false o | None => undefined end, x)
  else if (c =? 221) || (c =? 253) then
    let y := c =? 253 in
    let '(c, x) := next8 x in
    match indexed c with
    | Some PXCB => let '(d, x) := next8 x in let '(c, x) := next8 x in (xcb (w (pairv y XX x + sgn d)) c, x)
    | Some o => (plain y o, x)
    | None => (undefined, x)
    end
  else (plain false (decode c), x).
Definition effect (i : instr) (x : M) : M :=
  match i with plain y o => sem y o x | cb c => sem_cb c x | xcb a c => sem_xcb a c x | undefined => x end.
(** R counts; once for an instruction here, the processor counts every code byte fetched *)
Definition count_r (x : M) : M := s_vr (128 * (vr x / 128) + (vr x mod 128 + 1) mod 128) x.
(** where the simulator does another thing than the manual *)
Definition deviates (i : instr) (x : M) : Prop :=
  match i with
  | plain y o => differs y o x
  | cb _ => False
  | xcb _ c => 192 <= c /\ c mod 8 = 5 (* SET b,(IX+d),L: into H *)
  | undefined => False (* nothing done, but reported *)
  end.
(** and where only flags are different *)
Definition deviates_flags (i : instr) (x : M) : Prop :=
  match i with
  | plain y o => differs_flags y o x
  | cb c => c < 64 /\ c mod 8 <> 7 /\ fP (f (effect i x)) <> even_parity (acc x)
  | xcb _ c => c < 64 /\ fP (f (effect i x)) <> even_parity (acc x)
  | undefined => False
  end.
(** the result of the execution *)
Definition outcome (i : instr) : result :=
  match i with plain _ HALT => HALTED | undefined => INV_INST | _ => GO end.

(** ** Any history *)
(** the simulator after n steps *)
Fixpoint after (dum lim : Z) (hit : Z -> bool) (n : nat) (s : cpu) : cpu :=
  match n with O => s | S n => after dum lim hit n (snd (step dum lim hit s)) end.
(** everything keeps its range; only PC can leave the memory (by a relative jump at its ends) *)
Definition kept (s : cpu) : Prop := wf (set_PC 0 s) /\ 0 <= PC s < 4294967296.

(** ** Time *)
(** the condition of a conditional instruction holds, a repeated one goes on *)
Definition taken (o : op) (x : M) : bool :=
  let match_ := acc x =? mm x (pairv false HL x) in
  match o with
  | JR (Some c) | CALL (Some c) | RET (Some c) => cond c x
  | DJNZ | INIR | INDR | OTIR | OTDR => negb (r x 0 =? 1)
  | LDIR | LDDR => negb (pairv false BC x =? 1)
  | CPIR | CPDR => negb (pairv false BC x =? 1) && negb match_
  | _ => false
  end.
(** clock periods of an instruction, without those of the prefixes *)
Definition loc_time (l : loc) : Z := match l with LHL | LN => 3 | LXD => 11 | _ => 0 end.
Definition clocks (o : op) (t : bool) : Z :=
  match o with
  | LD LXD LN => 15 | LD d l => 4 + loc_time d + loc_time l
  | LDi _ => 10 | STp _ | LDp _ => 16 | STAp _ | LDAp _ => 7 | STA | LDA => 13
  | LDSP _ => 6 | PUSH _ | PUSHAF => 11 | POP _ | POPAF => 10 | EXSP _ => 19
  | INC l | DEC l => match l with LHL => 11 | LXD => 19 | _ => 4 end
  | ALU _ l => 4 + loc_time l
  | INCp _ | DECp _ => 6 | ADDp _ _ | SBCp _ | ADCp _ => 11
  | DJNZ => if t then 13 else 8
  | JR None => 12 | JR (Some _) => if t then 12 else 7
  | JP _ => 10
  | CALL None => 17 | CALL (Some _) => if t then 17 else 10
  | RET None => 10 | RET (Some _) => if t then 11 else 5
  | RST _ => 11 | OUT | IN => 11 | INrC _ | OUTC _ => 8
  | RETN => 10 | LDIA | LDRA | LDAI | LDAR => 5 | RRD | RLD => 14
  | LDI | LDD | CPI | CPD | INI | IND | OUTI | OUTD => 12
  | LDIR | LDDR | CPIR | CPDR | INIR | INDR | OTIR | OTDR => if t then 17 else 12
  | _ => 4
  end.
(** the instruction at PC; a prefix takes 4 *)
Definition cycles (x : M) : Z :=
  let '(i, z) := instr_at x in
  let c := mm x (pc x) in
  match i with
  | plain _ o => (if (c =? 237) || (c =? 221) || (c =? 253) then 4 else 0) + clocks o (taken o z)
  | cb c => if c mod 8 =? 6 then if (64 <=? c) && (c <? 128) then 12 else 15 else 8
  | xcb _ c => if (64 <=? c) && (c <? 128) then 20 else 23
  | undefined => 0
  end.
(** where the codes behind the first one are *)
Definition codes (x : M) : list Z :=
  match fst (instr_at x) with
  | xcb _ _ => [1; 3]
  | cb _ | undefined => [1]
  | plain _ _ => let c := mm x (pc x) in if (c =? 237) || (c =? 221) || (c =? 253) then [1] else []
  end.
(** where the simulator counts otherwise *)
Definition cycles_differ (x : M) : Prop :=
  match fst (instr_at x) with
  | plain _ (INC LHL) | plain _ (DEC LHL) => True (* 7 *)
  | plain _ (OUTC 3) => True (* 1 *)
  | cb c => c mod 8 = 6 /\ 64 <= c < 128 (* 15 *)
  | _ => False
  end.

(** ** Block copy *)
(** n bytes, one after the other, upwards (d = 1) or downwards (d = -1), so overlapping blocks
    behave as the byte by byte copy does *)
Fixpoint copied (d : Z) (n : nat) (from to : Z) (m : Z -> Z) : Z -> Z :=
  match n with
  | O => m
  | S n => copied d n (w (from + d)) (w (to + d)) (fun a => if a =? to then m from else m a)
  end.

(** ** Decimal numbers *)
Definition bcd (v : Z) : Z := 16 * (v / 10) + v mod 10.

(** ** Subroutines *)
(** CALL a (3 bytes) or RST a (1 byte) is at PC *)
Definition calls (s : cpu) (a n : Z) : Prop :=
  (n = 3 /\ mem s (PC s) = 205 /\ mem s (w (PC s + 1)) + 256 * mem s (w (PC s + 2)) = a) \/
  (n = 1 /\ exists i, 0 <= i < 8 /\ mem s (PC s) = 199 + 8 * i /\ a = 8 * i).
