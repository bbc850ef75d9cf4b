(** Timers 0 and 1 of the MCS51 (s51.src/timer0.cc, s51.src/timer1.cc) and the port that
    drives them (s51.src/port.cc).  The simulator ticks hardware one machine cycle at a
    time (sim.src/uc.cc:3028-3050 tick_hw), timer 0 before timer 1
    (s51.src/uc51.cc:781-786 mk_hw_elements).
    Simplifications: the cells are bytes without memory operators of others; what the
    partners (PCA, UART) do on an overflow is left out, the notifications are counted.
    C's flags are the masked bits, here booleans. *)
From Verif Require Import Base.

(** s51.src/timer0cl.h:49 T_edge: the members; GATE, C_T, TR and INT are only tested *)
Record tm := mkTm { mode : Z; GATE : bool; CT : bool; TR : bool; INT : bool; T_edge : Z }.
(** the special function registers, the pins of port 3, the number of overflow
    notifications of each timer *)
Record st := mkSt { tmod : Z; tcon : Z; tl0 : Z; th0 : Z; tl1 : Z; th1 : Z; p3 : Z; pins : Z; a : tm; b : tm; ov0 : Z; ov1 : Z }.

(** s51.src/timer0.cc:40-67 mask_M0; s51.src/regs51.h:201-224 bm_INT0; [i] is true for
    timer 1 *)
Definition mask_M0 (i : bool) : Z := if i then 0x10 else 0x01.
Definition mask_M1 (i : bool) : Z := if i then 0x20 else 0x02.
Definition mask_CT (i : bool) : Z := if i then 0x40 else 0x04.
Definition mask_GATE (i : bool) : Z := if i then 0x80 else 0x08.
Definition mask_TR (i : bool) : Z := if i then 0x40 else 0x10.
Definition mask_TF (i : bool) : Z := if i then 0x80 else 0x20.
Definition mask_INT (i : bool) : Z := if i then 0x08 else 0x04.
Definition mask_T (i : bool) : Z := if i then 0x20 else 0x10.
Definition has (v m : Z) : bool := negb (Z.land v m =? 0).

Definition tmr (i : bool) (s : st) : tm := if i then b s else a s.
Definition tl (i : bool) (s : st) : Z := if i then tl1 s else tl0 s.
Definition th (i : bool) (s : st) : Z := if i then th1 s else th0 s.
Definition ov (i : bool) (s : st) : Z := if i then ov1 s else ov0 s.
Definition set_tmr (i : bool) (t : tm) (s : st) : st :=
  if i then mkSt (tmod s) (tcon s) (tl0 s) (th0 s) (tl1 s) (th1 s) (p3 s) (pins s) (a s) t (ov0 s) (ov1 s)
  else mkSt (tmod s) (tcon s) (tl0 s) (th0 s) (tl1 s) (th1 s) (p3 s) (pins s) t (b s) (ov0 s) (ov1 s).
(** cells hold 8 bits: sim.src/memcl.h cl_cell8; set returns the value stored *)
Definition set_tl (i : bool) (v : Z) (s : st) : st :=
  if i then mkSt (tmod s) (tcon s) (tl0 s) (th0 s) (v mod 256) (th1 s) (p3 s) (pins s) (a s) (b s) (ov0 s) (ov1 s)
  else mkSt (tmod s) (tcon s) (v mod 256) (th0 s) (tl1 s) (th1 s) (p3 s) (pins s) (a s) (b s) (ov0 s) (ov1 s).
Definition set_th (i : bool) (v : Z) (s : st) : st :=
  if i then mkSt (tmod s) (tcon s) (tl0 s) (th0 s) (tl1 s) (v mod 256) (p3 s) (pins s) (a s) (b s) (ov0 s) (ov1 s)
  else mkSt (tmod s) (tcon s) (tl0 s) (v mod 256) (tl1 s) (th1 s) (p3 s) (pins s) (a s) (b s) (ov0 s) (ov1 s).
Definition set_tcon (v : Z) (s : st) : st :=
  mkSt (tmod s) (v mod 256) (tl0 s) (th0 s) (tl1 s) (th1 s) (p3 s) (pins s) (a s) (b s) (ov0 s) (ov1 s).
Definition set_tmod (v : Z) (s : st) : st :=
  mkSt (v mod 256) (tcon s) (tl0 s) (th0 s) (tl1 s) (th1 s) (p3 s) (pins s) (a s) (b s) (ov0 s) (ov1 s).
Definition set_p3 (v : Z) (s : st) : st :=
  mkSt (tmod s) (tcon s) (tl0 s) (th0 s) (tl1 s) (th1 s) (v mod 256) (pins s) (a s) (b s) (ov0 s) (ov1 s).
Definition set_pins (v : Z) (s : st) : st :=
  mkSt (tmod s) (tcon s) (tl0 s) (th0 s) (tl1 s) (th1 s) (p3 s) v (a s) (b s) (ov0 s) (ov1 s).

(** s51.src/timer0.cc:380-384 overflow *)
Definition overflow (i : bool) (s : st) : st :=
  if i then mkSt (tmod s) (tcon s) (tl0 s) (th0 s) (tl1 s) (th1 s) (p3 s) (pins s) (a s) (b s) (ov0 s) (ov1 s + 1)
  else mkSt (tmod s) (tcon s) (tl0 s) (th0 s) (tl1 s) (th1 s) (p3 s) (pins s) (a s) (b s) (ov0 s + 1) (ov1 s).
Definition set_TF (i : bool) (s : st) : st := set_tcon (Z.lor (tcon s) (mask_TF i)) s.

(** s51.src/timer0.cc:167-181 cell_tmod: a write to TMOD, before the cell changes *)
Definition write_tmod1 (i : bool) (v : Z) (s : st) : st :=
  let md := Z.land v (Z.lor (mask_M0 i) (mask_M1 i)) in
  let m := if md =? mask_M0 i then 1 else if md =? mask_M1 i then 2 else if md =? Z.lor (mask_M0 i) (mask_M1 i) then 3 else 0 in
  set_tmr i (mkTm m (has v (mask_GATE i)) (has v (mask_CT i)) (TR (tmr i s)) (INT (tmr i s)) 0) s.
(** s51.src/timer0.cc:182-187 cell_tcon *)
Definition write_tcon1 (i : bool) (n : Z) (s : st) : st :=
  let t := tmr i s in set_tmr i (mkTm (mode t) (GATE t) (CT t) (has n (mask_TR i)) (INT t) 0) s.
(** s51.src/timer0.cc:153-163 is_owned: the byte a write of bit [k] of TCON makes *)
Definition with_bit (v k : Z) (on : bool) : Z := if on then Z.lor v (2 ^ k) else Z.land v (Z.lnot (2 ^ k)) mod 256.

(** ** One machine cycle *)
(** s51.src/timer0.cc:241-254 do_mode0, the body of the loop *)
Definition count0 (i : bool) (s : st) : st :=
  let s := set_tl i (tl i s + 1) s in
  if Z.land (tl i s) 0x1f =? 0 then
    let s := set_th i (th i s + 1) (set_tl i 0 s) in
    if th i s =? 0 then overflow i (set_TF i s) else s
  else s.
(** s51.src/timer0.cc:284-295 do_mode1 *)
Definition count1 (i : bool) (s : st) : st :=
  let s := set_tl i (tl i s + 1) s in
  if tl i s =? 0 then
    let s := set_th i (th i s + 1) s in
    if th i s =? 0 then overflow i (set_TF i s) else s
  else s.
(** s51.src/timer0.cc:321-334 do_mode2 *)
Definition count2 (i : bool) (s : st) : st :=
  let s := set_tl i (tl i s + 1) s in
  if tl i s =? 0 then overflow i (set_TF i (set_tl i (th i s) s)) else s.
(** s51.src/timer0.cc:362-369 do_mode3 *)
Definition count3 (s : st) : st :=
  let s := set_tl false (tl false s + 1) s in
  if tl false s =? 0 then overflow false (set_TF false s) else s.
Fixpoint times (n : nat) (f : st -> st) (s : st) : st := match n with O => s | S k => times k f (f s) end.
(** s51.src/timer0.cc:218-239 do_mode0: what all modes do before counting: not running
    or gated, or the number of pulses; cycles is 1 *)
Definition pulses (i : bool) (s : st) : option (Z * st) :=
  let t := tmr i s in
  if negb (TR t) then None
  else if GATE t && negb (INT t) then None
  else if CT t then Some (T_edge t, set_tmr i (mkTm (mode t) (GATE t) (CT t) (TR t) (INT t) 0) s)
  else Some (1, s).
Definition counted (i : bool) (f : st -> st) (s : st) : st :=
  match pulses i s with None => s | Some (n, s) => times (Z.to_nat n) f s end.
(** s51.src/timer0.cc:371-377 do_th: the high byte in mode 3 *)
Definition do_th (s : st) : st :=
  if has (tcon s) (mask_TR true) then
    let s := set_th false (th false s + 1) s in
    if th false s =? 0 then set_TF true s else s
  else s.
(** s51.src/timer0.cc:206-217 tick; s51.src/timer1.cc:46-50 do_mode3 *)
Definition tick (i : bool) (s : st) : st :=
  let m := mode (tmr i s) in
  if m =? 0 then counted i (count0 i) s
  else if m =? 1 then counted i (count1 i) s
  else if m =? 2 then counted i (count2 i) s
  else if m =? 3 then (if i then s else do_th (counted false count3 s))
  else s.

(** ** Pins *)
(** s51.src/timer0.cc:387-403 happen: old and new level of port 3 *)
Definition happen1 (i : bool) (o n : Z) (s : st) : st :=
  let t := tmr i s in
  set_tmr i (mkTm (mode t) (GATE t) (CT t) (TR t) (has n (mask_INT i))
    (if has n (mask_T i) && negb (has o (mask_T i)) then T_edge t + 1 else T_edge t)) s.
Definition happen (o n : Z) (s : st) : st := happen1 true o n (happen1 false o n s).

(** ** What may happen *)
Inductive op :=
| Cycle                          (* a machine cycle *)
| WTmod (v : Z) | WTcon (v : Z) | WTconBit (k : Z) (on : bool)
| WTl (i : bool) (v : Z) | WTh (i : bool) (v : Z)
| ClrTF (i : bool)               (* the interrupt is accepted: sim.src/itsrc.cc:161-173 clear *)
| WP3 (v : Z) | WP3Bit (k : Z) (on : bool)
| Pins (v : Z).                  (* the outside world changes the pins *)
(** s51.src/port.cc:149-193 write *)
Definition write_p3 (v : Z) (s : st) : st :=
  let s1 := if p3 s =? v then s else happen (Z.land (pins s) (p3 s)) (Z.land (pins s) v) s in
  set_p3 v s1.
Definition step (s : st) (o : op) : st :=
  match o with
  | Cycle => tick true (tick false s)
  | WTmod v => set_tmod v (write_tmod1 true v (write_tmod1 false v s))
  | WTcon v => set_tcon v (write_tcon1 true v (write_tcon1 false v s))
  | WTconBit k on => let n := with_bit (tcon s) k on in set_tcon n (write_tcon1 true n (write_tcon1 false n s))
  | WTl i v => set_tl i v s
  | WTh i v => set_th i v s
  | ClrTF i => let n := Z.land (tcon s) (Z.lnot (mask_TF i)) in set_tcon n (write_tcon1 true n (write_tcon1 false n s))
  | WP3 v => write_p3 (v mod 256) s
  | WP3Bit k on => write_p3 (with_bit (p3 s) k on) s
  | Pins v =>                    (* s51.src/port.cc:232-249 set_pin *)
      let v := v mod 256 in
      let s1 := set_pins v s in
      if pins s =? v then s1 else happen (Z.land (pins s) (p3 s)) (Z.land v (p3 s)) s1
  end.
Definition run (s : st) (l : list op) : st := fold_left step l s.
(** s51.src/uc51.cc:1566-1594 clear_sfr: what a reset does here, whatever the members
    of the timers were *)
Definition reset (s : st) : st :=
  run (mkSt 0 0 0 0 0 0 0 (pins s) (a s) (b s) (ov0 s) (ov1 s))
    [WP3 255; WTmod 0; WTcon 0; WTh false 0; WTl false 0; WTh true 0; WTl true 0].
