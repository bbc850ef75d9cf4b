(** The programmable counter array of the 89C51R (s51.src/pca.cc): the special function registers it uses, what it
    does at writes, clock ticks, pin changes and overflows of timer 0.
    Not modelled: interrupts (the requests are the bits of CCON), print_info, a negative number of cycles. *)
From Verif Require Import Base.

(** pcacl.h:41-53 cl_pca: cells of the SFRs (cl, ch, ccon, capl, caph, modes; p1: the latch of port 1) and the members
    ccapm, clk_source, bit_CIDL, bit_WDTE, bit_CR, t0_overflows, ECI_edge, cex_pos, cex_neg.  The constructor sets only
    the counts and flags of edges: theorems start from any values of the members *)
Record pca := mkP { cl : Z; ch : Z; ccon : Z; capl : Z -> Z; caph : Z -> Z; modes : Z -> Z; p1 : Z;
  ccapm : Z -> Z; clk : Z; cidl : bool; wdte : bool; cr : bool; t0s : Z; ecis : Z; pos : Z -> bool; neg : Z -> bool }.
Definition set_cl v s := mkP v (ch s) (ccon s) (capl s) (caph s) (modes s) (p1 s) (ccapm s) (clk s) (cidl s) (wdte s) (cr s) (t0s s) (ecis s) (pos s) (neg s).
Definition set_ch v s := mkP (cl s) v (ccon s) (capl s) (caph s) (modes s) (p1 s) (ccapm s) (clk s) (cidl s) (wdte s) (cr s) (t0s s) (ecis s) (pos s) (neg s).
Definition set_ccon v s := mkP (cl s) (ch s) v (capl s) (caph s) (modes s) (p1 s) (ccapm s) (clk s) (cidl s) (wdte s) (cr s) (t0s s) (ecis s) (pos s) (neg s).
Definition set_capl v s := mkP (cl s) (ch s) (ccon s) v (caph s) (modes s) (p1 s) (ccapm s) (clk s) (cidl s) (wdte s) (cr s) (t0s s) (ecis s) (pos s) (neg s).
Definition set_caph v s := mkP (cl s) (ch s) (ccon s) (capl s) v (modes s) (p1 s) (ccapm s) (clk s) (cidl s) (wdte s) (cr s) (t0s s) (ecis s) (pos s) (neg s).
Definition set_modes v s := mkP (cl s) (ch s) (ccon s) (capl s) (caph s) v (p1 s) (ccapm s) (clk s) (cidl s) (wdte s) (cr s) (t0s s) (ecis s) (pos s) (neg s).
Definition set_p1 v s := mkP (cl s) (ch s) (ccon s) (capl s) (caph s) (modes s) v (ccapm s) (clk s) (cidl s) (wdte s) (cr s) (t0s s) (ecis s) (pos s) (neg s).
Definition set_ccapm v s := mkP (cl s) (ch s) (ccon s) (capl s) (caph s) (modes s) (p1 s) v (clk s) (cidl s) (wdte s) (cr s) (t0s s) (ecis s) (pos s) (neg s).
Definition set_cmod k i w s := mkP (cl s) (ch s) (ccon s) (capl s) (caph s) (modes s) (p1 s) (ccapm s) k i w (cr s) (t0s s) (ecis s) (pos s) (neg s).
Definition set_cr v s := mkP (cl s) (ch s) (ccon s) (capl s) (caph s) (modes s) (p1 s) (ccapm s) (clk s) (cidl s) (wdte s) v (t0s s) (ecis s) (pos s) (neg s).
Definition set_edges t e s := mkP (cl s) (ch s) (ccon s) (capl s) (caph s) (modes s) (p1 s) (ccapm s) (clk s) (cidl s) (wdte s) (cr s) t e (pos s) (neg s).
Definition set_cex p n s := mkP (cl s) (ch s) (ccon s) (capl s) (caph s) (modes s) (p1 s) (ccapm s) (clk s) (cidl s) (wdte s) (cr s) (t0s s) (ecis s) p n.
Definition upd {X} (f : Z -> X) (i : Z) (v : X) : Z -> X := fun j => if j =? i then v else f j.
Definition bit (v m : Z) : bool := negb (Z.land v m =? 0).

(** pca.cc:308-314 reset *)
Definition reset (s : pca) : pca := set_cex (fun _ => false) (fun _ => false) (set_edges 0 0 s).
(** regs51.h:188-192 bmCEX0, bmCEX1, bmCEX2, bmCEX3, bmCEX4 *)
Definition cex (i : Z) : Z := 8 * 2 ^ i.
(** regs51.h:282-286 bmCCF4, bmCCF3, bmCCF2, bmCCF1, bmCCF0 *)
Definition ccf (i : Z) : Z := 2 ^ i.

(** pca.cc:245-306 do_pca_module *)
Definition module (i : Z) (s : pca) : pca :=
  let a := bit (ccapm s i) 0x20 && pos s i in
  let s := if a then set_cex (upd (pos s) i false) (neg s) s else s in
  let b := bit (ccapm s i) 0x10 && neg s i in
  let s := if b then set_cex (upd (pos s) i false) (neg s) s else s in
  let s := if a || b then set_ccon (Z.lor (ccon s) (ccf i)) (set_caph (upd (caph s) i (ch s)) (set_capl (upd (capl s) i (cl s)) s)) else s in
  if bit (ccapm s i) 0x40 then
    let pwm s := if bit (ccapm s i) 0x02 then (if cl s <? capl s i then set_p1 (Z.lor (p1 s) (cex i)) s else set_p1 (Z.lor (p1 s) (cex i)) s) else s in
    if (cl s =? capl s i) && (ch s =? caph s i) then
      if (i =? 4) && wdte s then reset s
      else let s := set_ccon (Z.lor (ccon s) (ccf i)) s in
           let s := if bit (ccapm s i) 0x04 then set_p1 (Z.lxor (p1 s) (cex i)) s else s in
           pwm s
    else pwm s
  else s.
(** pca.cc:239-249 do_pca_counter: the overflow of CH *)
Definition overflow (s : pca) : pca := module 4 (module 3 (module 2 (module 1 (module 0 (set_ccon (Z.lor (ccon s) 0x80) s))))).
(** pca.cc:219-243 do_pca_counter: one turn of the loop *)
Definition count1 (s : pca) : pca :=
  let s := set_cl (u8 (cl s + 1)) s in
  if cl s =? 0 then
    let s := set_capl (fun i => if (0 <=? i) && (i <? 5) && bit (ccapm s i) 0x02 then caph s i else capl s i) s in
    let s := set_ch (u8 (ch s + 1)) s in
    if ch s =? 0 then overflow s else s
  else s.
(** pca.cc:219-243 do_pca_counter *)
Definition counter (n : Z) (s : pca) : pca := Nat.iter (Z.to_nat n) count1 s.
(** pca.cc:184-217 tick *)
Definition tick (cycles : Z) (idle : bool) (s : pca) : pca :=
  if negb (cr s) then s
  else if idle && cidl s then s
  else if clk s =? 0 then counter cycles s
  else if clk s =? 2 then counter (cycles * 3) s
  else if clk s =? 4 then set_edges 0 (ecis (counter (t0s s) s)) (counter (t0s s) s)
  else if clk s =? 6 then set_edges (t0s (counter (ecis s) s)) 0 (counter (ecis s) s)
  else s.
(** pca.cc:316-352 happen, port 1; the arguments: latch and pins of P1 before and after *)
Definition port (o n : Z) (s : pca) : pca :=
  let s := if negb (bit n 4) && bit o 4 then set_edges (t0s s) (ecis s + 1) s else s in
  set_cex (fun i => if (0 <=? i) && (i <? 5) && bit n (cex i) && negb (bit o (cex i)) then true else pos s i)
          (fun i => if (0 <=? i) && (i <? 5) && negb (bit n (cex i)) && bit o (cex i) then true else neg s i) s.

(** what may happen: writes of bytes and bits by the program, ticks, changes of port 1, overflows of timer 0, reset *)
Inductive ev :=
| Cmod (v : Z) | Ccon (v : Z) | CcBit (k : Z) (b : bool) | Ccapm (i v : Z) | CapL (i v : Z) | CapH (i v : Z) | Cl (v : Z) | Ch (v : Z) | P1 (v : Z)
| Tick (cycles : Z) (idle : bool) | Port (o n : Z) | T0 | Reset.
(** pca.cc:115-166 write; mem.cc:1240-1259 cl_memory_cell::write: then the value goes to the cell; the cells of CL, CH, CCAPnL and
    CCAPnH have no operator (pca.cc:69-77 init takes them with get_cell), so the part of write for them is never reached;
    CcBit: a bit of CCON in the space of bits, of which only 0xda has the operator (pca.cc:48-78 init);
    pca.cc:316-352 happen, timer; Reset: uc89c51r.cc:82-91 reset, uc51.cc:1566-1597 clear_sfr: set() does not call the operators *)
Definition event (e : ev) (s : pca) : pca :=
  match e with
  | Cmod v => set_cmod (Z.land v 6) (bit v 0x80) (bit v 0x40) (if Z.land v 6 =? clk s then s else set_edges 0 0 s)
  | Ccon v => set_ccon (u8 v) (set_cr (bit v 0x40) s)
  | CcBit k b => set_ccon (if b then Z.setbit (ccon s) k else Z.clearbit (ccon s) k) (if k =? 2 then set_cr b s else s)
  | Ccapm i v => let m := Z.land v 0xff in
                 let s := if m =? ccapm s i then s else set_cex (upd (pos s) i false) (upd (neg s) i false) s in
                 set_modes (upd (modes s) i (u8 v)) (set_ccapm (upd (ccapm s) i m) s)
  | CapL i v => set_capl (upd (capl s) i (u8 v)) s
  | CapH i v => set_caph (upd (caph s) i (u8 v)) s
  | Cl v => set_cl (u8 v) s
  | Ch v => set_ch (u8 v) s
  | P1 v => set_p1 (u8 v) s
  | Tick c i => tick c i s
  | Port o n => port o n s
  | T0 => set_edges (t0s s + 1) (ecis s) s
  | Reset => let s := reset s in
             set_p1 0xff (set_modes (fun _ => 0x40) (set_caph (fun _ => 0) (set_capl (fun _ => 0) (set_ccon 0 (set_ch 0 (set_cl 0 s))))))
  end.
Fixpoint run (l : list ev) (s : pca) : pca := match l with [] => s | e :: l => run l (event e s) end.
