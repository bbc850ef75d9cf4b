(** What the simulated Z80 does exactly, also where it differs from the manual: the manual's
    instruction ([sem] of Z80Spec) with these changes. *)
From Verif Require Import Base Z80Model Z80Spec.

(** one flag changed *)
Definition with_h (b : bool) (x : M) : M := let q := f x in s_f (mkF (fS q) (fZ q) (fY q) b (fX q) (fP q) (fN q) (fC q)) x.
Definition with_p (b : bool) (x : M) : M := let q := f x in s_f (mkF (fS q) (fZ q) (fY q) (fH q) (fX q) b (fN q) (fC q)) x.
Definition with_n (b : bool) (x : M) : M := let q := f x in s_f (mkF (fS q) (fZ q) (fY q) (fH q) (fX q) (fP q) b (fC q)) x.
Definition with_c (b : bool) (x : M) : M := let q := f x in s_f (mkF (fS q) (fZ q) (fY q) (fH q) (fX q) (fP q) (fN q) b) x.
(** words at the end of the memory do not continue at 0: the high byte is read as [dum], and
    lost when written *)
Definition m16_ (dum a : Z) (x : M) : Z := mm x a + 256 * (if a =? 65535 then dum else mm x (a + 1)).
Definition setm16_ (a v : Z) (x : M) : M :=
  let x := setm a (v mod 256) x in if a =? 65535 then x else setm (a + 1) (v / 256) x.
Definition push_ (v : Z) (x : M) : M := let x := s_sp (w (sp x - 2)) x in setm16_ (sp x) v x.
Definition pop_ (dum : Z) (x : M) : Z * M := (m16_ dum (sp x) x, s_sp (w (sp x + 2)) x).
(** relative jumps leave the memory at its ends *)
Definition rel (d : Z) (x : M) : M := s_pc ((pc x + sgn d) mod 4294967296) x.
(** OUTI and OTIR write the port given by B *)
Definition out_block_ (d : Z) (x : M) : M :=
  let x := count_b x in move_hl d (setout (r x 0) (mm x (pairv false HL x)) x).
Definition at_hl (x : M) : Z := mm x (pairv false HL x).

Definition actual_op (dum : Z) (y : bool) (o : op) (x : M) : M :=
  let q := sem y o x in
  match o with
  (* no half carry when the carry is added to ...F *)
  | ALU ADC l | ALU SBC l => if fC (f x) && (value y l x mod 16 =? 15) then with_h false q else q
  | ADCp p | SBCp p => if fC (f x) && (pairv y p x mod 4096 =? 4095) then with_h false q else q
  (* after a subtraction without borrow: C is that of the correction *)
  | DAA =>
      let k := (if 153 <? acc x then 96 else 0) + (if fH (f x) || (9 <? acc x mod 16) then 6 else 0) in
      if fN (f x) && negb (fC (f x)) then with_c (acc x <? k) q else q
  (* only P and N change *)
  | INrC n =>
      let v := pin x (r x 1) in
      let x := with_n false (with_p (even_parity v) x) in if n =? 6 then x else setr n v x
  | RRD | RLD => s_f (f x) q (* flags kept *)
  | LDDR => with_p false q
  (* C by the comparison, P also for an overflow *)
  | CPI =>
      let v := at_hl x in
      with_c (acc x <? v) (with_p (overflow 128 (sgn (acc x) - sgn v) || left_bc q) q)
  | CPIR => with_h false q
  (* HL moves upwards; only Z and P are set *)
  | CPD =>
      let e := acc x =? at_hl x in let q := dec_bc (move_hl 1 x) in
      setf false e false (e || left_bc q) false false q
  (* nothing moves when the byte is found *)
  | CPDR =>
      if acc x =? at_hl x then setf false true false true false false x
      else let q := dec_bc (move_hl (-1) x) in repeat_if (left_bc q) (setf false false false false false false q)
  | INI | IND | INIR | INDR | OUTD | OTDR => with_n false q
  | OUTI => with_n false (out_block_ 1 x)
  | OTIR => let q := with_n false (out_block_ 1 x) in repeat_if (left_b q) q
  (* IFF2 is cleared *)
  | RETN => let '(a, x) := pop_ dum x in s_pc a (s_i2 false (s_i1 (i2 x) x))
  | JR c => let '(d, x) := next8 x in if condo c x then rel d x else x
  | DJNZ => let '(d, x) := next8 x in let x := setr 0 ((r x 0 - 1) mod 256) x in if left_b x then rel d x else x
  | STp p => let '(a, x) := next16 x in setm16_ a (pairv y p x) x
  | LDp p => let '(a, x) := next16 x in setpair y p (m16_ dum a x) x
  | PUSH p => push_ (pairv y p x) x
  | POP p => let '(v, x) := pop_ dum x in setpair y p v x
  | EXSP p => setpair y p (m16_ dum (sp x) x) (setm16_ (sp x) (pairv y p x) x)
  | RET c => if condo c x then let '(a, x) := pop_ dum x in s_pc a x else x
  | RST n => s_pc n (push_ (pc x) x)
  (* the return address is pushed before the operand is read *)
  | CALL c =>
      if condo c x then let '(a, x) := next16 (push_ (w (pc x + 2)) x) in s_pc a x else snd (next16 x)
  | _ => q
  end.
Definition actual (dum : Z) (i : instr) (x : M) : M :=
  match i with
  | plain y o => actual_op dum y o x
  (* P is the parity of A, before the instruction unless it rotates A *)
  | cb c => if (c <? 64) && negb (c mod 8 =? 7) then with_p (even_parity (acc x)) (sem_cb c x) else sem_cb c x
  | xcb a c =>
      if c <? 64 then with_p (even_parity (acc x)) (sem_xcb a c x)
      else if (192 <=? c) && (c mod 8 =? 5) then let t := with_ (c / 8 mod 8) (mm x a) in setm a t (setr 4 t x) (* H, not L *)
      else sem_xcb a c x
  | undefined => x
  end.
(** the clock periods counted: those of the manual but in four cases *)
Definition counted (x : M) : Z :=
  match fst (instr_at x) with
  | plain _ (INC LHL) | plain _ (DEC LHL) => 7
  | plain _ (OUTC 3) => 1
  | cb c => if c mod 8 =? 6 then 15 else 8
  | _ => cycles x
  end.
(** the stack errors reported, with the address of the instruction and SP before and after: when
    SP gets below the limit (after each of the two bytes for PUSH AF) *)
Definition reports (lim at_ : Z) (i : instr) (x : M) : list (Z * Z * Z) :=
  let low b a := if a <? lim then [(at_, b, a)] else [] in
  match i with
  | plain _ (PUSH _) | plain _ (RST _) => low (sp x) (w (sp x - 2))
  | plain _ PUSHAF => low (sp x) (w (sp x - 1)) ++ low (w (sp x - 1)) (w (sp x - 2))
  | plain _ (CALL c) => if condo c x then low (sp x) (w (sp x - 2)) else []
  | _ => []
  end.
