(** The serial port of the MCS51 (s51.src/serial.cc) and the input side of serial devices
    (sim.src/serial_hw.cc).
    Simplifications: the int counters are integers (an idle port overflows them after 2^31
    clocks); the input is not a terminal (no control menu); the settings nl, flowctrl and
    check_often do not change during a history, and nl has at most three bytes (with four the
    program shifts by 32); SBUF as the debugger shows it is left out; what a file delivers as
    a character is in FioModel, here it is a byte.  *)
From Verif Require Import Base.

(** s51.src/serialcl.h:50-58 s_rec_t1; sim.src/serial_hwcl.h:71-88 s_in.
    [nl], [flow], [often] are settings; [pcon], [t2clk] the registers (bits RCLK, TCLK of T2CON);
    [dev] the bytes the input file holds; [outp], [rcvd], [reads]: bytes sent, bytes put
    into the receive register, and values the program read, in order *)
Record st := mkSt {
  scon : Z; pcon : Z; s_in : Z; s_out : Z; sending : bool; receiving : bool; rec_bit : Z; tr_bit : Z;
  rec_t1 : Z; tr_t1 : Z; rec_tick : Z; tr_tick : Z; mode : Z; ren : bool; smod : bool; bits : Z; divby : Z; t2b : bool;
  input : Z; avail : bool; sending_nl : bool; skip_nl : Z; nl_idx : Z; nl : Z; flow : bool; able : bool; often : bool;
  dev : list Z; outp : list Z; rcvd : list Z; reads : list Z }.
Definition set_ctl (sc : Z) (m : Z) (r : bool) (b d : Z) (s : st) : st :=
  mkSt sc (pcon s) (s_in s) (s_out s) (sending s) (receiving s) (rec_bit s) (tr_bit s) (rec_t1 s) (tr_t1 s) (rec_tick s) (tr_tick s) m r (smod s) b d (t2b s)
    (input s) (avail s) (sending_nl s) (skip_nl s) (nl_idx s) (nl s) (flow s) (able s) (often s) (dev s) (outp s) (rcvd s) (reads s).
Definition set_pcon (p : Z) (sm : bool) (d : Z) (s : st) : st :=
  mkSt (scon s) p (s_in s) (s_out s) (sending s) (receiving s) (rec_bit s) (tr_bit s) (rec_t1 s) (tr_t1 s) (rec_tick s) (tr_tick s) (mode s) (ren s) sm (bits s) d (t2b s)
    (input s) (avail s) (sending_nl s) (skip_nl s) (nl_idx s) (nl s) (flow s) (able s) (often s) (dev s) (outp s) (rcvd s) (reads s).
Definition set_tx (o : Z) (b : bool) (tb t1 tk : Z) (s : st) : st :=
  mkSt (scon s) (pcon s) (s_in s) o b (receiving s) (rec_bit s) tb (rec_t1 s) t1 (rec_tick s) tk (mode s) (ren s) (smod s) (bits s) (divby s) (t2b s)
    (input s) (avail s) (sending_nl s) (skip_nl s) (nl_idx s) (nl s) (flow s) (able s) (often s) (dev s) (outp s) (rcvd s) (reads s).
Definition set_rx (i : Z) (b : bool) (rb t1 tk : Z) (s : st) : st :=
  mkSt (scon s) (pcon s) i (s_out s) (sending s) b rb (tr_bit s) t1 (tr_t1 s) tk (tr_tick s) (mode s) (ren s) (smod s) (bits s) (divby s) (t2b s)
    (input s) (avail s) (sending_nl s) (skip_nl s) (nl_idx s) (nl s) (flow s) (able s) (often s) (dev s) (outp s) (rcvd s) (reads s).
Definition set_div (d : Z) (t : bool) (s : st) : st :=
  mkSt (scon s) (pcon s) (s_in s) (s_out s) (sending s) (receiving s) (rec_bit s) (tr_bit s) (rec_t1 s) (tr_t1 s) (rec_tick s) (tr_tick s) (mode s) (ren s) (smod s) (bits s) d t
    (input s) (avail s) (sending_nl s) (skip_nl s) (nl_idx s) (nl s) (flow s) (able s) (often s) (dev s) (outp s) (rcvd s) (reads s).
Definition set_inp (i : Z) (a sn : bool) (sk ix : Z) (ab : bool) (d : list Z) (s : st) : st :=
  mkSt (scon s) (pcon s) (s_in s) (s_out s) (sending s) (receiving s) (rec_bit s) (tr_bit s) (rec_t1 s) (tr_t1 s) (rec_tick s) (tr_tick s) (mode s) (ren s) (smod s) (bits s) (divby s) (t2b s)
    i a sn sk ix (nl s) (flow s) ab (often s) d (outp s) (rcvd s) (reads s).
Definition log (o r q : list Z) (s : st) : st :=
  mkSt (scon s) (pcon s) (s_in s) (s_out s) (sending s) (receiving s) (rec_bit s) (tr_bit s) (rec_t1 s) (tr_t1 s) (rec_tick s) (tr_tick s) (mode s) (ren s) (smod s) (bits s) (divby s) (t2b s)
    (input s) (avail s) (sending_nl s) (skip_nl s) (nl_idx s) (nl s) (flow s) (able s) (often s) (dev s) (outp s ++ o) (rcvd s ++ r) (reads s ++ q).

(** ** Control writes *)
(** s51.src/serial.cc:165-190 _mode: the byte n gets into SCON *)
Definition write_scon (n : Z) (s : st) : st :=
  let m := n / 64 in
  let d := if smod s then 16 else 32 in
  let '(b, d) :=
    if m =? 0 then (8, 12) else if m =? 1 then (10, d) else if m =? 2 then (11, d) else (11, d) in
  set_ctl n m (Z.testbit n 4) b d s.
(** s51.src/serial.cc:156-164 scon *)
Definition with_bit (v k : Z) (on : bool) : Z := if on then Z.lor v (2 ^ k) else Z.land v (Z.lnot (2 ^ k)) mod 256.
(** s51.src/serial.cc:191-208 pcon *)
Definition write_pcon (v : Z) (s : st) : st :=
  let sm := Z.testbit v 7 in
  set_pcon v sm (if mode s =? 0 then divby s else if sm then 16 else 32) s.
(** s51.src/serial.cc:148-155 s_sending *)
Definition write_sbuf (v : Z) (s : st) : st := set_tx (v mod 256) true 0 0 0 s.

(** ** Counting *)
(** s51.src/serial.cc:268-276 tr_src: the loop; the bits stop at [b] *)
Fixpoint tr_loop (fuel : nat) (d b src bit : Z) : Z * Z :=
  match fuel with
  | O => (src, bit)
  | S k => if d <=? src then tr_loop k d b (src - d) (if bit <? b then bit + 1 else bit) else (src, bit)
  end.
(** s51.src/serial.cc:277-284 rec_src *)
Fixpoint rec_loop (fuel : nat) (d src bit : Z) : Z * Z :=
  match fuel with
  | O => (src, bit)
  | S k => if d <=? src then rec_loop k d (src - d) (bit + 1) else (src, bit)
  end.
(** modes 1 and 3 count overflows, 0 and 2 clocks: s51.src/serial.cc:247-265 _mode *)
Definition by_overflow (s : st) : bool := (mode s =? 1) || (mode s =? 3).
(** s51.src/serial.cc:266-267 t2_baud *)
Definition cnt_div (s : st) : st := if t2b s then set_div 16 (t2b s) s else s.
(** s51.src/serial.cc:268-276 s_sending *)
Definition cnt_tx (s : st) : st :=
  if sending s then
    if by_overflow s then
      let (x, b) := tr_loop (Z.to_nat (tr_t1 s)) (divby s) (bits s) (tr_t1 s) (tr_bit s) in set_tx (s_out s) (sending s) b x (tr_tick s) s
    else
      let (x, b) := tr_loop (Z.to_nat (tr_tick s)) (divby s) (bits s) (tr_tick s) (tr_bit s) in set_tx (s_out s) (sending s) b (tr_t1 s) x s
  else s.
(** s51.src/serial.cc:277-284 s_receiving *)
Definition cnt_rx (s : st) : st :=
  if receiving s then
    if by_overflow s then
      let (x, b) := rec_loop (Z.to_nat (rec_t1 s)) (divby s) (rec_t1 s) (rec_bit s) in set_rx (s_in s) (receiving s) b x (rec_tick s) s
    else
      let (x, b) := rec_loop (Z.to_nat (rec_tick s)) (divby s) (rec_tick s) (rec_bit s) in set_rx (s_in s) (receiving s) b (rec_t1 s) x s
  else s.
(** s51.src/serial.cc:242-286 serial_bit_cnt *)
Definition bit_cnt (s : st) : st := cnt_rx (cnt_tx (cnt_div s)).

(** ** Input *)
(** sim.src/serial_hwcl.h:112-113 is_nl *)
Definition is_nl (c : Z) : bool := (c =? 10) || (c =? 13).
Definition opposite_nl (c : Z) : Z := if c =? 10 then 13 else if c =? 13 then 10 else c.
(** sim.src/serial_hw.cc:733-752 flw: not a terminal *)
Definition proc_input (s : st) : st :=
  if avail s then s
  else if negb (flow s) || able s then
    match dev s with
    | [] => s
    | c :: d =>
        if negb (skip_nl s =? 0) && (c =? skip_nl s)
        then set_inp (input s) false (sending_nl s) (skip_nl s) (nl_idx s) (able s) d s
        else set_inp c true (sending_nl s) 0 (nl_idx s) false d s
    end
  else s.
(** byte i of the setting *)
Definition nl_byte (s : st) (i : Z) : Z := Z.shiftr (nl s) (8 * i) mod 256.
(** sim.src/serial_hw.cc:514-528 nl_send_idx *)
Definition send_nl (s : st) : Z * st :=
  let v := nl_byte s (nl_idx s) in
  let vn := nl_byte s (nl_idx s + 1) in
  (v, if vn =? 0 then set_inp (input s) false false (skip_nl s) 0 (able s) (dev s) s
      else set_inp (input s) (avail s) true (skip_nl s) (nl_idx s + 1) (able s) (dev s) s).
(** sim.src/serial_hw.cc:487-536 get_input: [None] is false *)
Definition get_input (s : st) : option (Z * st) :=
  if negb (avail s) then None
  else if nl_byte s 0 =? 0 then Some (input s, set_inp (input s) false (sending_nl s) (skip_nl s) (nl_idx s) (able s) (dev s) s)
  else if negb (sending_nl s) then
    if negb (is_nl (input s)) then Some (input s, set_inp (input s) false (sending_nl s) (skip_nl s) (nl_idx s) (able s) (dev s) s)
    else Some (send_nl (set_inp (input s) (avail s) true (opposite_nl (input s)) 0 (able s) (dev s) s))
  else Some (send_nl s).

(** ** One tick *)
(** s51.src/serial.cc:294-302 s_tr_bit; the bit is written through the operators of SCON *)
Definition sent (s : st) : st :=
  if sending s && (bits s <=? tr_bit s) then
    let s := set_tx (s_out s) false (tr_bit s) (tr_t1 s) (tr_tick s) s in
    let s := write_scon (with_bit (scon s) 1 true) s in
    let s := log [s_out s] [] [] s in
    set_tx (s_out s) false (tr_bit s - bits s) (tr_t1 s) (tr_tick s) s
  else s.
(** s51.src/serial.cc:303-321 _bmREN *)
Definition start_rx (s : st) : st :=
  if ren s && negb (receiving s) then
    let s := if often s then match dev s with [] => s | _ => proc_input s end else s in
    if avail s then set_rx (s_in s) true 0 0 0 s else s
  else s.
(** s51.src/serial.cc:322-333 get_input; s51.src/serial.cc:342-347 received *)
Definition end_rx (s : st) : st :=
  if receiving s && (bits s <=? rec_bit s) then
    match get_input s with
    | None => s
    | Some (c, s) =>
        let s := set_rx (c mod 256) true (rec_bit s) (rec_t1 s) (rec_tick s) s in
        let s := write_scon (with_bit (scon s) 0 true) s in
        let s := log [] [c mod 256] [] s in
        set_rx (s_in s) false (rec_bit s - bits s) (rec_t1 s) (rec_tick s) s
    end
  else s.
(** s51.src/serial.cc:289-339 tick; s51.src/uc51cl.h:124 clock_per_cycle *)
Definition tick (k : Z) (s : st) : st :=
  let s := end_rx (start_rx (sent (bit_cnt s))) in
  set_rx (s_in s) (receiving s) (rec_bit s) (rec_t1 s) (rec_tick s + k * 12)
    (set_tx (s_out s) (sending s) (tr_bit s) (tr_t1 s) (tr_tick s + k * 12) s).
(** s51.src/serial.cc:365-394 happen: [Over] is an overflow of timer 1, or of timer 2 as baud
    rate generator; [T2Con] a write to T2CON *)
Definition over (s : st) : st :=
  set_rx (s_in s) (receiving s) (rec_bit s) (rec_t1 s + 1) (rec_tick s)
    (set_tx (s_out s) (sending s) (tr_bit s) (tr_t1 s + 1) (tr_tick s) s).
Definition t2_mode (on : bool) (s : st) : st :=
  let s1 := if t2b s then s else
    set_rx (s_in s) (receiving s) (rec_bit s) 0 (rec_tick s) (set_tx (s_out s) (sending s) (tr_bit s) 0 (tr_tick s) s) in
  set_div (divby s1) on s1.
(** s51.src/serial.cc:350-362 s_tr_t1, then s51.src/uc51.cc:1566-1594 clear_sfr and
    s51.src/uc52.cc:126-135 clear_sfr *)
Definition cpu_reset (s : st) : st :=
  let s := set_rx 0 false 0 0 0 (set_tx 0 false 0 0 0 s) in
  t2_mode false (write_pcon 0 (write_scon 0 s)).
(** s51.src/serial.cc:130-139 sbuf *)
Definition read_sbuf (s : st) : st :=
  log [] [] [s_in s] (set_inp (input s) (avail s) (sending_nl s) (skip_nl s) (nl_idx s) true (dev s) s).

Inductive op :=
| Tick (k : Z) | Over | T2Con (on : bool) | WSbuf (v : Z) | RSbuf | WScon (v : Z) | WSconBit (k : Z) (on : bool)
| WPcon (v : Z) | Arrive (l : list Z) | Poll | CpuReset.
Definition step (s : st) (o : op) : st :=
  match o with
  | Tick k => tick k s
  | Over => over s
  | T2Con on => t2_mode on s
  | WSbuf v => write_sbuf v s
  | RSbuf => read_sbuf s
  | WScon v => write_scon (v mod 256) s
  | WSconBit k on => write_scon (with_bit (scon s) k on) s
  | WPcon v => write_pcon (v mod 256) s
  | Arrive l => set_inp (input s) (avail s) (sending_nl s) (skip_nl s) (nl_idx s) (able s) (dev s ++ l) s
  | Poll => match dev s with [] => s | _ => proc_input s end
  | CpuReset => cpu_reset s
  end.
Definition run (s : st) (l : list op) : st := fold_left step l s.
(** sim.src/serial_hw.cc:62-87 init, then a reset; the members the code leaves undefined are
    arbitrary in [s] *)
Definition power_on (s : st) : st :=
  cpu_reset (mkSt (scon s) (pcon s) (s_in s) (s_out s) false false 0 0 (rec_t1 s) (tr_t1 s) (rec_tick s) (tr_tick s) (mode s) (ren s) (smod s) (bits s) (divby s) (t2b s)
    (input s) false false 0 0 (nl s) (flow s) true (often s) [] [] [] []).
