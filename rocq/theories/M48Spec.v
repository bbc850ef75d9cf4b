(** The MCS-48 as its user's manual describes it: accumulator, eight registers in one of two banks of the internal
    RAM, four flags, F1, three bit stack pointer, timer, ports.  The effect of each instruction is
    written from the groups of its code, with arithmetic on numbers and booleans for the flags. *)
From Verif Require Import Base M48Model.

Record M := mkM { acc : Z; cy : bool; ac : bool; f0 : bool; bs : bool; sp : Z; F1 : bool; dbf : bool; pc : Z;
                  rm : Z -> Z;                                     (* internal RAM *)
                  xm : Z -> Z;                                     (* external RAM *)
                  T : Z; psc : Z; tm : Z;                          (* timer, prescaler, 0 stopped 1 counter 2 timer *)
                  tcnti : bool; tpend : bool; treq : bool; tf : bool; (* timer interrupt enabled, pending; timer flag *)
                  eni : bool; serv : bool;                         (* external interrupt enabled; in an interrupt routine *)
                  l1 : Z; l2 : Z; w1 : Z; w2 : Z;                  (* P1, P2: output latches, pins *)
                  bl : Z; bw : Z;                                  (* BUS: output latch, pins *)
                  eo : Z -> Z; ed : Z -> Z; ew : Z -> Z;           (* P4 to P7: latches, direction, pins *)
                  T0 : bool; T1 : bool; INT : bool }.
(** the state of the simulated processor, as a programmer sees it *)
Definition abs (s : cpu) : M :=
  mkM (A s) (Z.testbit (psw s) 7) (Z.testbit (psw s) 6) (Z.testbit (psw s) 5) (Z.testbit (psw s) 4) (psw s mod 8)
      (negb (f1 s =? 0)) (negb (mb s =? 0)) (PC s) (ram s) (xram s)
      (tmr s) (pre s) (mode s) (negb (ien s =? 0)) (ovf s) (negb (irq s =? 0)) (tfl s) (negb (ene s =? 0)) (isr s)
      (p1 s) (p2 s) (i1 s) (i2 s) (busout s) (busin s) (odr s) (dir s) (epin s) (t0 s) (t1 s) (int s).
(** a chip: internal RAM of 64, 128 or 256 bytes, program memory of bytes *)
Definition wfh (h : chip) : Prop :=
  (rs h = 64 \/ rs h = 128 \/ rs h = 256) /\ (forall a, 0 <= rom h a < 256).
(** registers and memories hold bytes, PC a twelve bit address; bit 3 of PSW is one *)
Definition wf (s : cpu) : Prop :=
  0 <= A s < 256 /\ 0 <= psw s < 256 /\ Z.testbit (psw s) 3 = true /\ (mb s = 0 \/ mb s = 1) /\ (f1 s = 0 \/ f1 s = 1) /\
  0 <= PC s < 4096 /\ (forall a, 0 <= ram s a < 256) /\ (forall a, 0 <= xram s a < 256) /\
  0 <= tmr s < 256 /\ 0 <= pre16 s < 16 /\ 0 <= pre s < 32 /\ 0 <= mode s < 3 /\
  (ien s = 0 \/ ien s = 1) /\ (irq s = 0 \/ irq s = 1) /\ (ene s = 0 \/ ene s = 1) /\
  0 <= p1 s < 256 /\ 0 <= p2 s < 256 /\ 0 <= i1 s < 256 /\ 0 <= i2 s < 256 /\
  0 <= busin s < 256 /\ 0 <= busout s < 256 /\
  (forall k, 0 <= odr s k < 16) /\ (forall k, 0 <= epin s k < 16).

(** ** Changing parts of the state *)
Definition sA (v : Z) (x : M) : M := mkM v (cy x) (ac x) (f0 x) (bs x) (sp x) (F1 x) (dbf x) (pc x) (rm x) (xm x) (T x) (psc x) (tm x) (tcnti x) (tpend x) (treq x) (tf x) (eni x) (serv x) (l1 x) (l2 x) (w1 x) (w2 x) (bl x) (bw x) (eo x) (ed x) (ew x) (T0 x) (T1 x) (INT x).
Definition sF (c a f b : bool) (p : Z) (x : M) : M := mkM (acc x) c a f b p (F1 x) (dbf x) (pc x) (rm x) (xm x) (T x) (psc x) (tm x) (tcnti x) (tpend x) (treq x) (tf x) (eni x) (serv x) (l1 x) (l2 x) (w1 x) (w2 x) (bl x) (bw x) (eo x) (ed x) (ew x) (T0 x) (T1 x) (INT x).
Definition sX (f d : bool) (x : M) : M := mkM (acc x) (cy x) (ac x) (f0 x) (bs x) (sp x) f d (pc x) (rm x) (xm x) (T x) (psc x) (tm x) (tcnti x) (tpend x) (treq x) (tf x) (eni x) (serv x) (l1 x) (l2 x) (w1 x) (w2 x) (bl x) (bw x) (eo x) (ed x) (ew x) (T0 x) (T1 x) (INT x).
Definition sPC (v : Z) (x : M) : M := mkM (acc x) (cy x) (ac x) (f0 x) (bs x) (sp x) (F1 x) (dbf x) v (rm x) (xm x) (T x) (psc x) (tm x) (tcnti x) (tpend x) (treq x) (tf x) (eni x) (serv x) (l1 x) (l2 x) (w1 x) (w2 x) (bl x) (bw x) (eo x) (ed x) (ew x) (T0 x) (T1 x) (INT x).
Definition sM (r e : Z -> Z) (x : M) : M := mkM (acc x) (cy x) (ac x) (f0 x) (bs x) (sp x) (F1 x) (dbf x) (pc x) r e (T x) (psc x) (tm x) (tcnti x) (tpend x) (treq x) (tf x) (eni x) (serv x) (l1 x) (l2 x) (w1 x) (w2 x) (bl x) (bw x) (eo x) (ed x) (ew x) (T0 x) (T1 x) (INT x).
Definition sT (t p m : Z) (x : M) : M := mkM (acc x) (cy x) (ac x) (f0 x) (bs x) (sp x) (F1 x) (dbf x) (pc x) (rm x) (xm x) t p m (tcnti x) (tpend x) (treq x) (tf x) (eni x) (serv x) (l1 x) (l2 x) (w1 x) (w2 x) (bl x) (bw x) (eo x) (ed x) (ew x) (T0 x) (T1 x) (INT x).
Definition sI (tc tp tr f e v : bool) (x : M) : M := mkM (acc x) (cy x) (ac x) (f0 x) (bs x) (sp x) (F1 x) (dbf x) (pc x) (rm x) (xm x) (T x) (psc x) (tm x) tc tp tr f e v (l1 x) (l2 x) (w1 x) (w2 x) (bl x) (bw x) (eo x) (ed x) (ew x) (T0 x) (T1 x) (INT x).
Definition sP (u v b : Z) (x : M) : M := mkM (acc x) (cy x) (ac x) (f0 x) (bs x) (sp x) (F1 x) (dbf x) (pc x) (rm x) (xm x) (T x) (psc x) (tm x) (tcnti x) (tpend x) (treq x) (tf x) (eni x) (serv x) u v (w1 x) (w2 x) b (bw x) (eo x) (ed x) (ew x) (T0 x) (T1 x) (INT x).
Definition sE (o d : Z -> Z) (x : M) : M := mkM (acc x) (cy x) (ac x) (f0 x) (bs x) (sp x) (F1 x) (dbf x) (pc x) (rm x) (xm x) (T x) (psc x) (tm x) (tcnti x) (tpend x) (treq x) (tf x) (eni x) (serv x) (l1 x) (l2 x) (w1 x) (w2 x) (bl x) (bw x) o d (ew x) (T0 x) (T1 x) (INT x).
Definition at_ (f : Z -> Z) (a v : Z) : Z -> Z := fun k => if k =? a then v else f k.

(** ** Operands *)
(** the counter increments in its low eleven bits; a chip which takes the next byte from external memory shows
    its address on the BUS *)
Definition next (p : Z) : Z := 2048 * (p / 2048) + (p + 1) mod 2048.
Definition step_pc (inn : Z) (x : M) : M :=
  let x := sPC (next (pc x)) x in
  if inn <=? pc x then sP (l1 x) (l2 x) (pc x mod 256) x else x.
Definition byte_at (h : chip) (x : M) : Z := rom h (pc x).
(** register n of the selected bank is this RAM address *)
Definition bank (n : Z) (x : M) : Z := if bs x then 24 + n else n.
Definition reg (n : Z) (x : M) : Z := rm x (bank n x).
Definition set_reg (n v : Z) (x : M) : M := sM (at_ (rm x) (bank n x) v) (xm x) x.
(** internal RAM at R0 or R1; what the chip does not have reads as [jk] *)
Definition ind (h : chip) (jk n : Z) (x : M) : Z := if reg n x <? rs h then rm x (reg n x) else jk.
Definition set_ind (h : chip) (n v : Z) (x : M) : M :=
  if reg n x <? rs h then sM (at_ (rm x) (reg n x) v) (xm x) x else x.
Definition psw_of (x : M) : Z :=
  128 * Z.b2z (cy x) + 64 * Z.b2z (ac x) + 32 * Z.b2z (f0 x) + 16 * Z.b2z (bs x) + 8 + sp x.
Definition load_psw (v : Z) (x : M) : M :=
  sF (Z.odd (v / 128)) (Z.odd (v / 64)) (Z.odd (v / 32)) (Z.odd (v / 16)) (v mod 8) x.

(** ** Operations *)
Definition addx (v k : Z) (x : M) : M :=
  sA ((acc x + v + k) mod 256)
     (sF (256 <=? acc x + v + k) (16 <=? acc x mod 16 + v mod 16 + k) (f0 x) (bs x) (sp x) x).
(** decimal adjust: a low digit above nine or AC adds six; a high digit above nine, or a carry, adds sixty (hexadecimal) and sets the carry *)
Definition dec_adj (x : M) : M :=
  let t := acc x + (if (10 <=? acc x mod 16) || ac x then 6 else 0) in
  let hi := (160 <=? t) || cy x in
  sA ((if hi then t + 96 else t) mod 256) (sF (hi || cy x) (ac x) (f0 x) (bs x) (sp x) x).
(** 4 OR, 5 AND, 13 exclusive OR *)
Definition bitop (k a b : Z) : Z := if k =? 4 then Z.lor a b else if k =? 5 then Z.land a b else Z.lxor a b.
(** arithmetic of the rows 4 to 7 and 13 with A *)
Definition alu (k v : Z) (x : M) : M :=
  if k =? 6 then addx v 0 x else if k =? 7 then addx v (Z.b2z (cy x)) x else sA (bitop k (acc x) v) x.

(** the stack: eight pairs of bytes from RAM address 8; the second byte holds bits 8 to 11 of PC and bits 4 to 7 of PSW *)
Definition call_push (x : M) : M :=
  let a := 8 + 2 * sp x in
  let x := sM (at_ (at_ (rm x) a (pc x mod 256)) (a + 1) (pc x / 256 + 16 * (psw_of x / 16))) (xm x) x in
  sF (cy x) (ac x) (f0 x) (bs x) ((sp x + 1) mod 8) x.
Definition ret_pop (flags : bool) (x : M) : M :=
  let p := (sp x - 1) mod 8 in
  let lo := rm x (8 + 2 * p) in
  let hi := rm x (8 + 2 * p + 1) in
  let x := if flags then load_psw hi x else x in
  sPC (lo + 256 * (hi mod 16)) (sF (cy x) (ac x) (f0 x) (bs x) p x).

(** conditional jumps: the target is in the 256 byte page of the second byte *)
Definition jump_if (h : chip) (c : bool) (x : M) : M :=
  let b := byte_at h x in
  let page := pc x / 256 in
  let x := step_pc (inner h) x in
  if c then sPC (256 * page + b) x else x.
(** jumps and calls: eleven bits of address, the bank selected by SEL MB; bank 0 in an interrupt routine *)
Definition long (h : chip) (n : Z) (x : M) : Z :=
  (if dbf x && negb (serv x) then 2048 else 0) + 256 * n + byte_at h x.

Definition latch_of (p : Z) (x : M) : Z := if p =? 1 then l1 x else l2 x.
Definition set_latch (p v : Z) (x : M) : M := if p =? 1 then sP v (l2 x) (bl x) x else sP (l1 x) v (bl x) x.
(** the expander is addressed through the lower half of P2, the upper half is not touched *)
Definition low_p2 (v : Z) (x : M) : M := sP (l1 x) (16 * (l2 x / 16) + v) (bl x) x.
Definition to_exp (p v : Z) (x : M) : M := low_p2 v (sE (at_ (eo x) p v) (at_ (ed x) p 15) x).

(** ** The instructions, by the two digits of the code *)
Definition ill : M -> option M := fun _ => None.
Definition ok (f : M -> M) : M -> option M := fun x => Some (f x).
(** with an immediate byte *)
Definition imm (h : chip) (f : Z -> M -> M) : M -> option M :=
  fun x => Some (f (byte_at h x) (step_pc (inner h) x)).

(** second digit 8 to 15: register n, or ports *)
Definition row_r (h : chip) (hi n : Z) : M -> option M :=
  if hi =? 1 then ok (fun x => set_reg n ((reg n x + 1) mod 256) x)
  else if hi =? 2 then ok (fun x => set_reg n (acc x) (sA (reg n x) x))
  else if (hi =? 4) || (hi =? 5) || (hi =? 6) || (hi =? 7) || (hi =? 13) then ok (fun x => alu hi (reg n x) x)
  else if hi =? 10 then ok (fun x => set_reg n (acc x) x)
  else if hi =? 11 then imm h (fun b => set_reg n b)
  else if hi =? 12 then ok (fun x => set_reg n ((reg n x - 1) mod 256) x)
  else if hi =? 14 then
    ok (fun x => let v := (reg n x - 1) mod 256 in jump_if h (negb (v =? 0)) (set_reg n v x))
  else if hi =? 15 then ok (fun x => sA (reg n x) x)
  else if 4 <=? n then
    let p := n in
    if hi =? 0 then ok (fun x => sA (ew x p) (low_p2 (ew x p) (sE (eo x) (at_ (ed x) p 0) x)))
    else if hi =? 3 then ok (fun x => to_exp p (acc x mod 16) x)
    else if hi =? 8 then ok (fun x => to_exp p (Z.lor (acc x mod 16) (eo x p)) x)
    else ok (fun x => to_exp p (Z.land (acc x mod 16) (eo x p)) x)
  else if (n =? 1) || (n =? 2) then
    if hi =? 0 then ok (fun x => sA (Z.land (latch_of n x) (if n =? 1 then w1 x else w2 x)) x)
    else if hi =? 3 then ok (fun x => set_latch n (acc x) x)
    else if hi =? 8 then imm h (fun b x => set_latch n (Z.lor (latch_of n x) b) x)
    else imm h (fun b x => set_latch n (Z.land (latch_of n x) b) x)
  else if n =? 0 then
    if hi =? 0 then ok (fun x => sA (bw x) x)
    else if hi =? 8 then imm h (fun b x => sP (l1 x) (l2 x) (Z.lor (bl x) b) x)
    else if hi =? 9 then imm h (fun b x => sP (l1 x) (l2 x) (Z.land (bl x) b) x)
    else ill
  else ill.
(** second digit 0 and 1: memory at R0 or R1 *)
Definition row_i (h : chip) (jk hi n : Z) : M -> option M :=
  if hi =? 1 then ok (fun x => set_ind h n ((ind h jk n x + 1) mod 256) x)
  else if hi =? 2 then ok (fun x => set_ind h n (acc x) (sA (ind h jk n x) x))
  else if hi =? 3 then
    ok (fun x => let v := ind h jk n x in
                 set_ind h n (16 * (v / 16) + acc x mod 16) (sA (16 * (acc x / 16) + v mod 16) x))
  else if (hi =? 4) || (hi =? 5) || (hi =? 6) || (hi =? 7) || (hi =? 13) then ok (fun x => alu hi (ind h jk n x) x)
  else if hi =? 8 then ok (fun x => sP (l1 x) (l2 x) (reg n x) (sA (xm x (reg n x)) x))
  else if hi =? 9 then ok (fun x => sP (l1 x) (l2 x) (acc x) (sM (rm x) (at_ (xm x) (reg n x) (acc x)) x))
  else if hi =? 10 then ok (fun x => set_ind h n (acc x) x)
  else if hi =? 11 then imm h (fun b => set_ind h n b)
  else if hi =? 15 then ok (fun x => sA (ind h jk n x) x)
  else if (hi =? 0) && (n =? 0) then ok (fun x => x)
  else ill.
(** reading the program memory outside of the chip shows the address on the BUS *)
Definition show (h : chip) (a : Z) (x : M) : M := if inner h <=? a then sP (l1 x) (l2 x) (a mod 256) x else x.
Definition row_2 (h : chip) (hi : Z) : M -> option M :=
  if Z.odd hi then ok (fun x => jump_if h (Z.odd (acc x / 2 ^ (hi / 2))) x)
  else if hi =? 0 then ok (fun x => sP (l1 x) (l2 x) (acc x) x)
  else if hi =? 4 then ok (fun x => sA (T x) x)
  else if hi =? 6 then ok (fun x => sT (acc x) (psc x) (tm x) x)
  else ill.
Definition row_3 (h : chip) (hi : Z) : M -> option M :=
  if hi =? 0 then imm h (fun b => addx b 0)
  else if hi =? 1 then imm h (fun b x => addx b (Z.b2z (cy x)) x)
  else if hi =? 2 then imm h (fun b => sA b)
  else if (hi =? 4) || (hi =? 5) || (hi =? 13) then imm h (fun b => alu hi b)
  else if hi =? 8 then ok (ret_pop false)
  else if hi =? 9 then ok (fun x => ret_pop true (sI (tcnti x) (tpend x) (treq x) (tf x) (eni x) false x))
  else if hi =? 10 then ok (fun x => let a := 256 * (pc x / 256) + acc x in show h a (sA (rom h a) x))
  else if hi =? 11 then ok (fun x => sPC (256 * (pc x / 256) + rom h (256 * (pc x / 256) + acc x)) x)
  else if hi =? 14 then ok (fun x => let a := 2048 * (pc x / 2048) + 768 + acc x in show h a (sA (rom h a) x))
  else ill.
Definition row_4 (h : chip) (hi : Z) : M -> option M :=
  if Z.odd hi then ok (fun x => sPC (long h (hi / 2) x) (call_push (step_pc (inner h) x)))
  else ok (fun x => sPC (long h (hi / 2) x) (step_pc (inner h) x)).
Definition row_5 (hi : Z) : M -> option M :=
  if hi =? 0 then ok (fun x => sI (tcnti x) (tpend x) (treq x) (tf x) true (serv x) x)
  else if hi =? 1 then ok (fun x => sI (tcnti x) (tpend x) (treq x) (tf x) false (serv x) x)
  else if hi =? 2 then ok (fun x => sI true (tpend x) (treq x) (tf x) (eni x) (serv x) x)
  else if hi =? 3 then ok (fun x => sI false false false (tf x) (eni x) (serv x) x)
  else if hi =? 4 then ok (fun x => sT (T x) 0 1 x)
  else if hi =? 5 then ok (fun x => sT (T x) 0 2 x)
  else if hi =? 6 then ok (fun x => sT (T x) (psc x) 0 x)
  else if hi =? 7 then ok (fun x => x)
  else if hi =? 8 then ok (fun x => sF (cy x) (ac x) false (bs x) (sp x) x)
  else if hi =? 9 then ok (fun x => sF (cy x) (ac x) (negb (f0 x)) (bs x) (sp x) x)
  else if hi =? 10 then ok (fun x => sX false (dbf x) x)
  else if hi =? 11 then ok (fun x => sX (negb (F1 x)) (dbf x) x)
  else if hi =? 12 then ok (fun x => sF (cy x) (ac x) (f0 x) false (sp x) x)
  else if hi =? 13 then ok (fun x => sF (cy x) (ac x) (f0 x) true (sp x) x)
  else if hi =? 14 then ok (fun x => sX (F1 x) false x)
  else ok (fun x => sX (F1 x) true x).
Definition row_6 (h : chip) (hi : Z) : M -> option M :=
  if hi =? 1 then ok (fun x => let y := jump_if h (tf x) x in sI (tcnti y) (tpend y) (treq y) false (eni y) (serv y) y)
  else if hi =? 2 then ok (fun x => jump_if h (negb (T0 x)) x)
  else if hi =? 3 then ok (fun x => jump_if h (T0 x) x)
  else if hi =? 4 then ok (fun x => jump_if h (negb (T1 x)) x)
  else if hi =? 5 then ok (fun x => jump_if h (T1 x) x)
  else if hi =? 7 then ok (fun x => jump_if h (F1 x) x)
  else if hi =? 8 then ok (fun x => jump_if h (negb (INT x)) x)
  else if hi =? 9 then ok (fun x => jump_if h (negb (acc x =? 0)) x)
  else if hi =? 11 then ok (fun x => jump_if h (f0 x) x)
  else if hi =? 12 then ok (fun x => jump_if h (acc x =? 0) x)
  else if hi =? 14 then ok (fun x => jump_if h (negb (cy x)) x)
  else if hi =? 15 then ok (fun x => jump_if h (cy x) x)
  else ill.
Definition set_cy (c : bool) (x : M) : M := sF c (ac x) (f0 x) (bs x) (sp x) x.
Definition row_7 (hi : Z) : M -> option M :=
  if hi =? 0 then ok (fun x => sA ((acc x - 1) mod 256) x)
  else if hi =? 1 then ok (fun x => sA ((acc x + 1) mod 256) x)
  else if hi =? 2 then ok (fun x => sA 0 x)
  else if hi =? 3 then ok (fun x => sA (255 - acc x) x)
  else if hi =? 4 then ok (fun x => sA (acc x / 16 + 16 * (acc x mod 16)) x)
  else if hi =? 5 then ok dec_adj
  else if hi =? 6 then ok (fun x => set_cy (Z.odd (acc x)) (sA (acc x / 2 + 128 * Z.b2z (cy x)) x))
  else if hi =? 7 then ok (fun x => sA (acc x / 2 + 128 * (acc x mod 2)) x)
  else if hi =? 9 then ok (set_cy false)
  else if hi =? 10 then ok (fun x => set_cy (negb (cy x)) x)
  else if hi =? 12 then ok (fun x => sA (psw_of x) x)
  else if hi =? 13 then ok (fun x => load_psw (acc x) x)
  else if hi =? 14 then ok (fun x => sA ((2 * acc x) mod 256 + acc x / 128) x)
  else if hi =? 15 then ok (fun x => set_cy (128 <=? acc x) (sA ((2 * acc x) mod 256 + Z.b2z (cy x)) x))
  else ill.
(** the instruction with code c, after its code was fetched; None: not an instruction of the 8048 *)
Definition sem (h : chip) (jk c : Z) : M -> option M :=
  let hi := c / 16 in
  let lo := c mod 16 in
  if 8 <=? lo then row_r h hi (lo - 8)
  else if lo <=? 1 then row_i h jk hi lo
  else if lo =? 2 then row_2 h hi
  else if lo =? 3 then row_3 h hi
  else if lo =? 4 then row_4 h hi
  else if lo =? 5 then row_5 hi
  else if lo =? 6 then row_6 h hi
  else row_7 hi.

(** ** Where the simulator is known to differ *)
(** conditional jumps other than DJNZ *)
Definition is_jcc (c : Z) : bool := ((c mod 16 =? 2) && Z.odd (c / 16)) || (c mod 16 =? 6).
Definition is_djnz (c : Z) : bool := c / 8 =? 29.
(** MOVD, ORLD, ANLD *)
Definition is_exp (c : Z) : bool := (12 <=? c mod 16) && ((c / 16 =? 0) || (c / 16 =? 3) || (c / 16 =? 8) || (c / 16 =? 9)).
Definition is_orld (c : Z) : bool := (12 <=? c mod 16) && ((c / 16 =? 8) || (c / 16 =? 9)).
Definition is_long (c : Z) : bool := c mod 16 =? 4.
(** code c, in a state after its fetch, is not one of the differing cases: the second byte of a conditional jump
    is not the last one of a page; DJNZ is of R7 and does not reach zero; upper half of the P2 latch is zero
    and the port of ORLD and ANLD is P6 with the 8243 ports; no ADDC A,@R; JMP and CALL not to bank 1 in an
    interrupt routine *)
Definition regular (c : Z) (x : M) : Prop :=
  (is_jcc c = true -> pc x mod 256 <> 255) /\
  (is_djnz c = true -> c = 239 /\ reg 7 x <> 1 /\ pc x mod 256 <> 255) /\
  (is_exp c = true -> l2 x < 16) /\ (is_orld c = true -> c mod 4 = 2) /\
  c <> 112 /\ c <> 113 /\ (is_long c = true -> dbf x = true -> serv x = false).

(** ** Histories *)
(** what a dummy cell returns is a byte *)
Definition evok (e : ev) : Prop := match e with Step jk => 0 <= jk < 256 | _ => True end.
(** the codes executed in a history *)
Fixpoint executed (h : chip) (es : list ev) (s : cpu) : list Z :=
  match es with
  | [] => []
  | e :: r => match e with Step _ => [rom h (PC s)] | _ => [] end ++ executed h r (happen h e s)
  end.
(** n returns with flags: the addresses returned to; calls from the addresses ps *)
Fixpoint pops (h : chip) (jk : Z) (n : nat) (s : cpu) : list Z * cpu :=
  match n with O => ([], s) | S n => let t := pop h jk true s in let r := pops h jk n t in (PC t :: fst r, snd r) end.
Definition pushes (h : chip) (ps : list Z) (s : cpu) : cpu := fold_left (fun s p => push h p true (set_PC p s)) ps s.
