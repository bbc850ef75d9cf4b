(** Timer 2 of the 8052 (s51.src/timer2.cc) with the features of uc52
    (s51.src/uc52.cc:58-67 mk_hw_elements: default and down counting, no clock output), and port 1.
    Simplifications: the cells are bytes without memory operators of others; what the
    UART does on an overflow is left out, the notifications are counted; the interrupt
    sources are in S51Irq. *)
From Verif Require Import Base.

(** s51.src/timer2cl.h:40-45 T2MODE_RELOAD *)
Inductive mode := Reload | Capture | Baud | Down.
Definition mode_eqb (a b : mode) : bool :=
  match a, b with Reload, Reload | Capture, Capture | Baud, Baud | Down, Down => true | _, _ => false end.
(** registers, port and pins; the members mode, C_T, TR, EXEN2, T_edge, t2ex_edge, bit_t2ex
    (s51.src/timer2cl.h:56-66 t2ex_edge); number of overflow notifications *)
Record st := mkSt {
  t2con : Z; t2mod : Z; tl2 : Z; th2 : Z; rcapl : Z; rcaph : Z; p1 : Z; pins : Z;
  md : mode; CT : bool; TR : bool; EXEN : bool; T_edge : Z; ex_edge : Z; ex_bit : bool; ov : Z }.

Definition has (v m : Z) : bool := negb (Z.land v m =? 0).
(** cells hold 8 bits: sim.src/memcl.h cl_cell8; set returns the value stored *)
Definition set_tl (v : Z) (s : st) : st :=
  mkSt (t2con s) (t2mod s) (v mod 256) (th2 s) (rcapl s) (rcaph s) (p1 s) (pins s) (md s) (CT s) (TR s) (EXEN s) (T_edge s) (ex_edge s) (ex_bit s) (ov s).
Definition set_th (v : Z) (s : st) : st :=
  mkSt (t2con s) (t2mod s) (tl2 s) (v mod 256) (rcapl s) (rcaph s) (p1 s) (pins s) (md s) (CT s) (TR s) (EXEN s) (T_edge s) (ex_edge s) (ex_bit s) (ov s).
Definition set_rcap (h l : Z) (s : st) : st :=
  mkSt (t2con s) (t2mod s) (tl2 s) (th2 s) (l mod 256) (h mod 256) (p1 s) (pins s) (md s) (CT s) (TR s) (EXEN s) (T_edge s) (ex_edge s) (ex_bit s) (ov s).
Definition set_con (v : Z) (s : st) : st :=
  mkSt (v mod 256) (t2mod s) (tl2 s) (th2 s) (rcapl s) (rcaph s) (p1 s) (pins s) (md s) (CT s) (TR s) (EXEN s) (T_edge s) (ex_edge s) (ex_bit s) (ov s).
Definition set_mod (v : Z) (s : st) : st :=
  mkSt (t2con s) (v mod 256) (tl2 s) (th2 s) (rcapl s) (rcaph s) (p1 s) (pins s) (md s) (CT s) (TR s) (EXEN s) (T_edge s) (ex_edge s) (ex_bit s) (ov s).
Definition set_p1 (v : Z) (s : st) : st :=
  mkSt (t2con s) (t2mod s) (tl2 s) (th2 s) (rcapl s) (rcaph s) (v mod 256) (pins s) (md s) (CT s) (TR s) (EXEN s) (T_edge s) (ex_edge s) (ex_bit s) (ov s).
Definition set_pins (v : Z) (s : st) : st :=
  mkSt (t2con s) (t2mod s) (tl2 s) (th2 s) (rcapl s) (rcaph s) (p1 s) v (md s) (CT s) (TR s) (EXEN s) (T_edge s) (ex_edge s) (ex_bit s) (ov s).
Definition set_ctl (m : mode) (ct tr ex : bool) (s : st) : st :=
  mkSt (t2con s) (t2mod s) (tl2 s) (th2 s) (rcapl s) (rcaph s) (p1 s) (pins s) m ct tr ex (T_edge s) (ex_edge s) (ex_bit s) (ov s).
Definition set_edges (te xe : Z) (xb : bool) (s : st) : st :=
  mkSt (t2con s) (t2mod s) (tl2 s) (th2 s) (rcapl s) (rcaph s) (p1 s) (pins s) (md s) (CT s) (TR s) (EXEN s) te xe xb (ov s).
Definition notify (s : st) : st :=
  mkSt (t2con s) (t2mod s) (tl2 s) (th2 s) (rcapl s) (rcaph s) (p1 s) (pins s) (md s) (CT s) (TR s) (EXEN s) (T_edge s) (ex_edge s) (ex_bit s) (ov s + 1).
(** s51.src/regs51.h:243-250 bmTF2 *)
Definition set_flag (m : Z) (s : st) : st := set_con (Z.lor (t2con s) m) s.
Definition bmTF2 := 0x80.
Definition bmEXF2 := 0x40.
Definition load (s : st) : st := set_tl (rcapl s) (set_th (rcaph s) s).

(** ** Control writes *)
(** s51.src/timer2.cc:139-142 T_edge: edges are forgotten if the mode or TR changed *)
Definition forget (old s : st) : st :=
  if negb (mode_eqb (md s) (md old)) || negb (Bool.eqb (TR s) (TR old)) then set_edges 0 0 (ex_bit s) s else s.
(** s51.src/timer2.cc:101-122 CP_RL2: a write to T2CON (or one of its bits) of the byte n *)
Definition write_con (n : Z) (s : st) : st :=
  let rt := has n 0x20 || has n 0x10 in
  let cp := has n 0x01 in
  let m := if negb rt && negb cp then Reload else if negb rt && cp then Capture else Baud in
  set_con n (forget s (set_ctl m (has n 0x02) (has n 0x04) (has n 0x08) s)).
(** s51.src/timer2.cc:123-138 bit_dcen *)
Definition write_mod (v : Z) (s : st) : st :=
  let m := if has v 0x01 && mode_eqb (md s) Reload then Down else md s in
  set_mod v (forget s (set_ctl m (CT s) (TR s) (EXEN s) s)).
(** s51.src/timer2.cc:88-99 is_owned *)
Definition with_bit (v k : Z) (on : bool) : Z := if on then Z.lor v (2 ^ k) else Z.land v (Z.lnot (2 ^ k)) mod 256.

(** ** One machine cycle *)
Fixpoint times (n : nat) (f : st -> st) (s : st) : st := match n with O => s | S k => times k f (f s) end.
(** s51.src/timer2.cc:187-190 C_T: the number of counts; [k] per machine cycle *)
Definition take (k : Z) (s : st) : Z * st :=
  if CT s then (T_edge s, set_edges 0 (ex_edge s) (ex_bit s) s) else (k, s).
(** s51.src/timer2.cc:192-201 cell_tl, the body of the loop *)
Definition count_baud (s : st) : st :=
  let s := set_tl (tl2 s + 1) s in
  if tl2 s =? 0 then
    let s := set_th (th2 s + 1) s in
    if th2 s =? 0 then notify (load s) else s
  else s.
(** s51.src/timer2.cc:175-203 do_t2_baud *)
Definition do_baud (s : st) : st :=
  let s := if EXEN s && negb (ex_edge s =? 0) then set_edges (T_edge s) 0 (ex_bit s) (set_flag bmEXF2 s) else s in
  if negb (TR s) then s
  else let (n, s) := take 6 s in times (Z.to_nat n) count_baud s.
(** s51.src/timer2.cc:210-232 do_t2_capture: one count per cycle whatever the edges are *)
Definition do_capture (s : st) : st :=
  let s := if EXEN s && negb (ex_edge s =? 0) then set_edges (T_edge s) 0 (ex_bit s) (set_rcap (th2 s) (tl2 s) (set_flag bmEXF2 s)) else s in
  if negb (TR s) then s
  else
    let (_, s) := take 1 s in
    let s := set_tl (tl2 s + 1) s in
    if tl2 s =? 0 then
      let s := set_th (th2 s + 1) s in
      if th2 s =? 0 then set_flag bmTF2 s else s
    else s.
(** s51.src/timer2.cc:239-265 do_t2_reload *)
Definition do_reload (s : st) : st :=
  let s := if EXEN s && negb (ex_edge s =? 0) then set_edges (T_edge s) 0 (ex_bit s) (load (set_flag bmEXF2 s)) else s in
  if negb (TR s) then s
  else
    let (_, s) := take 1 s in
    let s := set_tl (tl2 s + 1) s in
    if tl2 s =? 0 then
      let s := set_th (th2 s + 1) s in
      if th2 s =? 0 then load (set_flag bmTF2 s) else s
    else s.
(** s51.src/timer2.cc:278-292 bit_t2ex, counting up; the flag says toggle *)
Definition count_up (x : bool * st) : bool * st :=
  let (t, s) := x in
  let s := set_tl (tl2 s + 1) s in
  if tl2 s =? 0 then
    let s := set_th (th2 s + 1) s in
    if th2 s =? 0 then (true, load (set_flag bmTF2 s)) else (t, s)
  else (t, s).
(** s51.src/timer2.cc:293-312 u16_t, counting down *)
Definition count_down (x : bool * st) : bool * st :=
  let (t, s) := x in
  let s := set_tl (tl2 s - 1) s in
  let s := if tl2 s =? 0xff then set_th (th2 s - 1) s else s in
  if th2 s * 256 + tl2 s <? rcaph s * 256 + rcapl s
  then (true, set_tl 0xff (set_th 0xff (set_flag bmTF2 s)))
  else (t, s).
Fixpoint times2 (n : nat) (f : bool * st -> bool * st) (x : bool * st) : bool * st := match n with O => x | S k => times2 k f (f x) end.
(** s51.src/timer2.cc:267-320 do_t2_down; the pin toggled is the bit of port 1 with the
    mask of EXF2 *)
Definition do_down (s : st) : st :=
  if negb (TR s) then s
  else
    let (n, s) := take 1 s in
    let (t, s) := times2 (Z.to_nat n) (if ex_bit s then count_up else count_down) (false, s) in
    if t then set_p1 (Z.lxor (p1 s) bmEXF2) s else s.
(** s51.src/timer2.cc:145-169 tick *)
Definition tick (s : st) : st :=
  match md s with Baud => do_baud s | Capture => do_capture s | Reload => do_reload s | Down => do_down s end.

(** ** Port 1 *)
(** s51.src/timer2.cc:359-378 happen: bmT2 is 1, bmT2EX is 2 *)
Definition happen (o n : Z) (s : st) : st :=
  set_edges (if negb (has n 1) && has o 1 then T_edge s + 1 else T_edge s)
    (if negb (has n 2) && has o 2 then ex_edge s + 1 else ex_edge s) (has n 2) s.
(** s51.src/port.cc:149-193 write *)
Definition write_p1 (v : Z) (s : st) : st :=
  let s1 := if p1 s =? v then s else happen (Z.land (pins s) (p1 s)) (Z.land (pins s) v) s in
  set_p1 v s1.

Inductive op :=
| Cycle | WCon (v : Z) | WConBit (k : Z) (on : bool) | WMod (v : Z)
| WTl (v : Z) | WTh (v : Z) | WRl (v : Z) | WRh (v : Z)
| WP1 (v : Z) | WP1Bit (k : Z) (on : bool) | Pins (v : Z).
Definition step (s : st) (o : op) : st :=
  match o with
  | Cycle => tick s
  | WCon v => write_con v s
  | WConBit k on => write_con (with_bit (t2con s) k on) s
  | WMod v => write_mod v s
  | WTl v => set_tl v s
  | WTh v => set_th v s
  | WRl v => set_rcap (rcaph s) v s
  | WRh v => set_rcap v (rcapl s) s
  | WP1 v => write_p1 (v mod 256) s
  | WP1Bit k on => write_p1 (with_bit (p1 s) k on) s
  | Pins v =>                    (* s51.src/port.cc:232-249 set_pin *)
      let v := v mod 256 in
      let s1 := set_pins v s in
      if pins s =? v then s1 else happen (Z.land (pins s) (p1 s)) (Z.land v (p1 s)) s1
  end.
Definition run (s : st) (l : list op) : st := fold_left step l s.
(** s51.src/uc51.cc:1566-1594 clear_sfr sets all registers to 0, then writes;
    s51.src/uc52.cc:126-135 clear_sfr *)
Definition reset (s : st) : st :=
  run (mkSt 0 0 0 0 0 0 0 (pins s) (md s) (CT s) (TR s) (EXEN s) (T_edge s) (ex_edge s) (ex_bit s) (ov s))
    [WP1 255; WCon 0; WTh 0; WTl 0; WRl 0; WRh 0].
