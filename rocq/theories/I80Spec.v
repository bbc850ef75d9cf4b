(** The 8080 and 8085 as the assembly language manual describes them: registers by their
    numbers in the instruction codes, five flags, 64K of memory. *)
From Verif Require Import Base I80Model.

Record M := mkM { R : Z -> Z; (* 0 B, 1 C, 2 D, 3 E, 4 H, 5 L, 7 A *)
                  fS : bool; fZ : bool; fA : bool; fP : bool; fC : bool;
                  sp : Z; pc : Z; mm : Z -> Z }.
(** the state of the simulated processor, as a programmer sees it *)
Definition abs (s : cpu) : M :=
  mkM (fun n => if n =? 0 then B s else if n =? 1 then C s else if n =? 2 then D s else if n =? 3 then E s
                else if n =? 4 then H s else if n =? 5 then L s else A s)
      (Z.testbit (F s) 7) (Z.testbit (F s) 6) (Z.testbit (F s) 4) (Z.testbit (F s) 2) (Z.testbit (F s) 0)
      (SP s) (PC s) (mem s).
(** registers and memory hold bytes, SP and PC addresses *)
Definition wf (s : cpu) : Prop :=
  0 <= A s < 256 /\ 0 <= F s < 256 /\ 0 <= B s < 256 /\ 0 <= C s < 256 /\ 0 <= D s < 256 /\ 0 <= E s < 256 /\
  0 <= H s < 256 /\ 0 <= L s < 256 /\ 0 <= SP s < 65536 /\ 0 <= PC s < 65536 /\ (forall a, 0 <= mem s a < 256).
Definition same (x y : M) : Prop :=
  (forall n, 0 <= n <= 7 -> n <> 6 -> R x n = R y n) /\
  fS x = fS y /\ fZ x = fZ y /\ fA x = fA y /\ fP x = fP y /\ fC x = fC y /\
  sp x = sp y /\ pc x = pc y /\ (forall a, mm x a = mm y a).

(** ** Registers, pairs, memory *)
Definition w (a : Z) : Z := a mod 65536.
Definition setr (n v : Z) (x : M) : M :=
  mkM (fun k => if k =? n then v else R x k) (fS x) (fZ x) (fA x) (fP x) (fC x) (sp x) (pc x) (mm x).
Definition setm (a v : Z) (x : M) : M :=
  mkM (R x) (fS x) (fZ x) (fA x) (fP x) (fC x) (sp x) (pc x) (fun k => if k =? a then v else mm x k).
Definition setf (s z a p c : bool) (x : M) : M := mkM (R x) s z a p c (sp x) (pc x) (mm x).
Definition setsp (v : Z) (x : M) : M := mkM (R x) (fS x) (fZ x) (fA x) (fP x) (fC x) v (pc x) (mm x).
Definition setpc (v : Z) (x : M) : M := mkM (R x) (fS x) (fZ x) (fA x) (fP x) (fC x) (sp x) v (mm x).
Definition setc (c : bool) (x : M) : M := setf (fS x) (fZ x) (fA x) (fP x) c x.
(** pairs: 0 BC, 1 DE, 2 HL, 3 SP *)
Definition pairv (p : Z) (x : M) : Z := if p =? 3 then sp x else 256 * R x (2 * p) + R x (2 * p + 1).
Definition setpair (p v : Z) (x : M) : M :=
  if p =? 3 then setsp v x else setr (2 * p + 1) (v mod 256) (setr (2 * p) (v / 256) x).
(** operand 6 is the memory at HL *)
Definition src (n : Z) (x : M) : Z := if n =? 6 then mm x (pairv 2 x) else R x n.
Definition dst (n v : Z) (x : M) : M := if n =? 6 then setm (pairv 2 x) v x else setr n v x.

(** ** Arithmetic *)
Fixpoint ones (k : nat) (r : Z) : Z :=
  match k with O => 0 | S k => r mod 2 + ones k (r / 2) end.
Definition even_parity (r : Z) : bool := Z.even (ones 8 r).
(** S, Z and P follow the result *)
Definition flags (r : Z) (a c : bool) (x : M) : M := setf (128 <=? r) (r =? 0) a (even_parity r) c x.
Definition add (v k : Z) (x : M) : M :=
  let t := R x 7 + v + k in
  flags (t mod 256) (16 <=? R x 7 mod 16 + v mod 16 + k) (256 <=? t) (setr 7 (t mod 256) x).
(** AC is the carry out of bit 3 when the two's complement is added *)
Definition sub (v k : Z) (keep : bool) (x : M) : M :=
  let t := R x 7 - (v + k) in
  flags (t mod 256) (16 <=? R x 7 mod 16 + (- (v + k)) mod 16) (t <? 0) (if keep then x else setr 7 (t mod 256) x).
Definition logic (r : Z) (a : bool) (x : M) : M := flags r a false (setr 7 r x).
(** 0 ADD, 1 ADC, 2 SUB, 3 SBB, 4 ANA, 5 XRA, 6 ORA, 7 CMP *)
Definition arith (m85 : bool) (k v : Z) (x : M) : M :=
  let cy := if fC x then 1 else 0 in
  if k =? 0 then add v 0 x
  else if k =? 1 then add v cy x
  else if k =? 2 then sub v 0 false x
  else if k =? 3 then sub v cy false x
  else if k =? 4 then logic (Z.land (R x 7) v) (if m85 then true else Z.testbit (R x 7) 3 || Z.testbit v 3) x
  else if k =? 5 then logic (Z.lxor (R x 7) v) false x
  else if k =? 6 then logic (Z.lor (R x 7) v) false x
  else sub v 0 true x.
(** INR, DCR: all flags but C *)
Definition inc (n d : Z) (x : M) : M :=
  let r := (src n x + d) mod 256 in
  flags r (16 <=? src n x mod 16 + d mod 16) (fC x) (dst n r x).

(** ** Conditions and stack *)
(** 0 NZ, 1 Z, 2 NC, 3 C, 4 PO, 5 PE, 6 P, 7 M *)
Definition true_cond (n : Z) (x : M) : bool :=
  let f := if n / 2 =? 0 then fZ x else if n / 2 =? 1 then fC x else if n / 2 =? 2 then fP x else fS x in
  if n mod 2 =? 0 then negb f else f.
Definition push (v : Z) (x : M) : M :=
  setsp (w (sp x - 2)) (setm (w (sp x - 2)) (v mod 256) (setm (w (sp x - 1)) (v / 256) x)).
Definition popv (x : M) : Z := mm x (sp x) + 256 * mm x (w (sp x + 1)).
Definition pop (x : M) : M := setsp (w (sp x + 2)) x.

(** the flags as a byte: S Z 0 AC 0 P 1 C *)
Definition psw (x : M) : Z :=
  (if fS x then 128 else 0) + (if fZ x then 64 else 0) + (if fA x then 16 else 0) + (if fP x then 4 else 0) + 2 +
  (if fC x then 1 else 0).

(** ** The instructions *)
(** the codes the manual does not define (RIM and SIM included) *)
Definition undefined_code (c : Z) : Prop := In c [8; 16; 24; 32; 40; 48; 56; 203; 217; 221; 237; 253].
Definition operand8 (x : M) : Z := mm x (w (pc x + 1)).
Definition operand16 (x : M) : Z := mm x (w (pc x + 1)) + 256 * mm x (w (pc x + 2)).
Definition next (k : Z) (x : M) : M := setpc (w (pc x + k)) x.
(** 00 r s j *)
Definition group0 (m85 : bool) (c : Z) (x : M) : M :=
  let i := c / 8 mod 8 in let j := c mod 8 in let p := c / 16 mod 4 in
  let ad := operand16 x in
  if j =? 0 then next 1 x
  else if j =? 1 then
    if Z.even i then next 3 (setpair p ad x)
    else let t := pairv 2 x + pairv p x in next 1 (setc (65536 <=? t) (setpair 2 (w t) x))
  else if j =? 2 then
    if i =? 0 then next 1 (setm (pairv 0 x) (R x 7) x)
    else if i =? 1 then next 1 (setr 7 (mm x (pairv 0 x)) x)
    else if i =? 2 then next 1 (setm (pairv 1 x) (R x 7) x)
    else if i =? 3 then next 1 (setr 7 (mm x (pairv 1 x)) x)
    else if i =? 4 then next 3 (setm (w (ad + 1)) (R x 4) (setm ad (R x 5) x))
    else if i =? 5 then next 3 (setr 4 (mm x (w (ad + 1))) (setr 5 (mm x ad) x))
    else if i =? 6 then next 3 (setm ad (R x 7) x)
    else next 3 (setr 7 (mm x ad) x)
  else if j =? 3 then next 1 (setpair p (w (pairv p x + (if Z.even i then 1 else -1))) x)
  else if j =? 4 then next 1 (inc i 1 x)
  else if j =? 5 then next 1 (inc i (-1) x)
  else if j =? 6 then next 2 (dst i (operand8 x) x)
  else
    let a := R x 7 in
    let cy := if fC x then 1 else 0 in
    if i =? 0 then next 1 (setc (128 <=? a) (setr 7 (2 * a mod 256 + a / 128) x))
    else if i =? 1 then next 1 (setc (Z.odd a) (setr 7 (a / 2 + 128 * (a mod 2)) x))
    else if i =? 2 then next 1 (setc (128 <=? a) (setr 7 (2 * a mod 256 + cy) x))
    else if i =? 3 then next 1 (setc (Z.odd a) (setr 7 (a / 2 + 128 * cy) x))
    else if i =? 4 then (* DAA *)
      let lo := (9 <? a mod 16) || fA x in
      let a1 := a + (if lo then 6 else 0) in
      let hi := (159 <? a1) || fC x in
      let a2 := a1 + (if hi then 96 else 0) in
      next 1 (flags (a2 mod 256) (lo && (9 <? a mod 16)) (hi || fC x) (setr 7 (a2 mod 256) x))
    else if i =? 5 then next 1 (setr 7 (255 - a) x)
    else if i =? 6 then next 1 (setc true x)
    else next 1 (setc (negb (fC x)) x).
(** 11 r s j *)
Definition group3 (m85 : bool) (c : Z) (x : M) : M :=
  let i := c / 8 mod 8 in let j := c mod 8 in let p := c / 16 mod 4 in
  let ad := operand16 x in
  if j =? 0 then if true_cond i x then setpc (popv x) (pop x) else next 1 x
  else if j =? 1 then
    if i =? 6 then (* POP PSW *)
      let v := popv x in
      next 1 (setf (Z.testbit v 7) (Z.testbit v 6) (Z.testbit v 4) (Z.testbit v 2) (Z.testbit v 0)
                   (setr 7 (v / 256) (pop x)))
    else if Z.even i then next 1 (setpair p (popv x) (pop x))
    else if i =? 1 then setpc (popv x) (pop x)
    else if i =? 5 then setpc (pairv 2 x) x
    else next 1 (setsp (pairv 2 x) x)
  else if j =? 2 then if true_cond i x then setpc ad x else next 3 x
  else if j =? 3 then
    if i =? 0 then setpc ad x
    else if (i =? 2) || (i =? 3) then next 2 x (* OUT, IN: no devices *)
    else if i =? 4 then
      next 1 (setpair 2 (popv x) (setm (w (sp x + 1)) (R x 4) (setm (sp x) (R x 5) x)))
    else if i =? 5 then next 1 (setpair 2 (pairv 1 x) (setpair 1 (pairv 2 x) x))
    else next 1 x (* DI, EI: no interrupts *)
  else if j =? 4 then if true_cond i x then setpc ad (push (w (pc x + 3)) x) else next 3 x
  else if j =? 5 then
    if i =? 6 then next 1 (push (256 * R x 7 + psw x) x) (* PUSH PSW *)
    else if Z.even i then next 1 (push (pairv p x) x) else setpc ad (push (w (pc x + 3)) x)
  else if j =? 6 then next 2 (arith m85 i (operand8 x) x)
  else setpc (8 * i) (push (w (pc x + 1)) x).
Definition manual (m85 : bool) (x : M) : M :=
  let c := mm x (pc x) in
  if c <? 64 then group0 m85 c x
  else if c =? 118 then next 1 x (* HLT *)
  else if c <? 128 then next 1 (dst (c / 8 mod 8) (src (c mod 8) x) x)
  else if c <? 192 then next 1 (arith m85 (c / 8 mod 8) (src (c mod 8) x) x)
  else group3 m85 c x.

(** ** Where the simulator differs *)
(** the operand of ADC/ACI (k = 1), SBB/SBI (3), ANA/ANI (4) *)
Definition operand_of (k : Z) (x : M) (v : Z) : Prop :=
  let c := mm x (pc x) in
  (128 <= c < 192 /\ c / 8 mod 8 = k /\ v = src (c mod 8) x) \/ (c = 198 + 8 * k /\ v = operand8 x).
Inductive differs (m85 : bool) (x : M) : Prop :=
| d_adc v : operand_of 1 x v -> fC x = true -> v mod 16 = 15 -> differs m85 x
| d_sbb v : operand_of 3 x v -> fC x = true -> R x 7 = v -> differs m85 x
| d_ana v : operand_of 4 x v -> m85 = false -> Z.testbit (R x 7) 3 = false -> Z.testbit v 3 = false -> differs m85 x
| d_daa : mm x (pc x) = 39 -> differs m85 x
| d_rst : mm x (pc x) = 215 \/ mm x (pc x) = 223 \/ mm x (pc x) = 247 \/ mm x (pc x) = 255 -> differs m85 x
| d_wrap : mm x (pc x) = 34 \/ mm x (pc x) = 42 -> operand16 x = 65535 -> differs m85 x
| d_xthl : mm x (pc x) = 227 -> sp x = 65535 -> differs m85 x
| d_psw : mm x (pc x) = 245 -> differs m85 x.

(** ** Clock cycles, lengths, the flag byte *)
(** states of the instructions in the data sheets; [taken]: the condition holds *)
Definition cycles (m85 : bool) (c : Z) (taken : bool) : Z :=
  let i := c / 8 mod 8 in let j := c mod 8 in
  if c <? 64 then
    if j =? 0 then 4 else if j =? 1 then 10
    else if j =? 2 then (if i <? 4 then 7 else if i <? 6 then 16 else 13)
    else if j =? 3 then (if m85 then 6 else 5)
    else if j <? 6 then (if i =? 6 then 10 else if m85 then 4 else 5)
    else if j =? 6 then (if i =? 6 then 10 else 7)
    else 4
  else if c =? 118 then (if m85 then 5 else 7)
  else if c <? 128 then (if (i =? 6) || (j =? 6) then 7 else if m85 then 4 else 5)
  else if c <? 192 then (if j =? 6 then 7 else 4)
  else if j =? 0 then (if taken then (if m85 then 12 else 11) else if m85 then 6 else 5)
  else if j =? 1 then (if (i =? 5) || (i =? 7) then (if m85 then 6 else 5) else 10)
  else if j =? 2 then (if m85 && negb taken then 7 else 10)
  else if j =? 3 then (if i <? 4 then 10 else if i =? 4 then (if m85 then 16 else 18) else 4)
  else if j =? 4 then (if taken then (if m85 then 18 else 17) else if m85 then 9 else 11)
  else if j =? 5 then (if Z.even i then (if m85 then 12 else 11) else if m85 then 18 else 17)
  else if j =? 6 then 7
  else (if m85 then 12 else 11).
(** the condition of a conditional code *)
Definition cond_code (c : Z) : bool := (192 <=? c) && ((c mod 8 =? 0) || (c mod 8 =? 2) || (c mod 8 =? 4)).
(** what the simulator counts: as the data sheets say, but 5 for MOV A,H (8085) and XCHG
    (8080), and 0 for conditional jumps of the 8080 that are taken *)
Definition cycles_dev (m85 : bool) (c : Z) (tk : bool) : Z :=
  if m85 then (if c =? 124 then 5 else cycles true c tk)
  else if (c =? 235) then 5
  else if cond_code c && (c mod 8 =? 2) && tk then 0
  else cycles false c tk.
Definition taken (x : M) : bool := let c := mm x (pc x) in cond_code c && true_cond (c / 8 mod 8) x.
(** codes that always go elsewhere: JMP, RET, CALL, PCHL, RST, and the doubles of JMP, RET,
    CALL on the 8080 *)
Definition jump_code (m85 : bool) (c : Z) : bool :=
  (c =? 195) || (c =? 201) || (c =? 205) || (c =? 233) || ((192 <=? c) && (c mod 8 =? 7)) ||
  negb m85 && existsb (Z.eqb c) [203; 217; 221; 237; 253].
Definition call_code (m85 : bool) (c : Z) : bool :=
  (c =? 205) || ((192 <=? c) && (c mod 8 =? 7)) || negb m85 && existsb (Z.eqb c) [221; 237; 253].
(** the form of the flag byte: S Z 0 AC 0 P 1 C on the 8080 *)
Definition byte80 (f : Z) : Prop := Z.testbit f 5 = false /\ Z.testbit f 3 = false /\ Z.testbit f 1 = true.
