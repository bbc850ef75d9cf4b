(** What the theorems C166 to C171 say about the programmable counter array.  The events are those of the model: writes of the
    registers by the program, clock ticks, edges at port 1, overflows of timer 0. *)
From Verif Require Import Base PcaModel.

(** the sixteen bit counter the program reads in CH and CL *)
Definition count (s : pca) : Z := 256 * ch s + cl s.
(** the capture and compare register of a module *)
Definition cap (s : pca) (n : Z) : Z := 256 * caph s n + capl s n.
(** flag CCFn in CCON; output CEXn: bit 3 + n of port 1 *)
Definition flag (s : pca) (n : Z) : bool := Z.testbit (ccon s) n.
Definition pin (s : pca) (n : Z) : bool := Z.testbit (p1 s) (n + 3).
(** mode bits of CCAPMn as last written *)
Definition PWM s n := Z.testbit (ccapm s n) 1.
Definition TOG s n := Z.testbit (ccapm s n) 2.
Definition CAPN s n := Z.testbit (ccapm s n) 4.
Definition CAPP s n := Z.testbit (ccapm s n) 5.
Definition ECOM s n := Z.testbit (ccapm s n) 6.

(** registers hold bytes *)
Definition wf (s : pca) : Prop := 0 <= cl s < 256 /\ 0 <= ch s < 256 /\ 0 <= t0s s /\ 0 <= ecis s /\
  forall n, 0 <= n < 5 -> 0 <= capl s n < 256 /\ 0 <= caph s n < 256.
(** no event takes negative time; bits and modules have numbers from 0 *)
Definition okev (e : ev) : Prop :=
  match e with Tick c _ => 0 <= c | CcBit k _ => 0 <= k < 8 | Ccapm i _ | CapL i _ | CapH i _ => 0 <= i < 5 | _ => True end.

(** the clock of the counter: running, source (bits 1 and 2 of CMOD), stopped by the idle mode, edges not yet counted *)
Record clock := mkC { on : bool; src : Z; stops : bool; pend : Z }.
Definition clock_of (s : pca) : clock :=
  mkC (cr s) (clk s) (cidl s) (if clk s =? 4 then t0s s else if clk s =? 6 then ecis s else 0).
(** what an event does to it.  The run bit is the one of the last byte written to CCON, or the value last written to bit 2 of CCON *)
Definition cstep (e : ev) (x : clock) : clock :=
  match e with
  | Cmod v => mkC (on x) (Z.land v 6) (Z.testbit v 7) (if Z.land v 6 =? src x then pend x else 0)
  | Ccon v => mkC (Z.testbit v 6) (src x) (stops x) (pend x)
  | CcBit 2 b => mkC b (src x) (stops x) (pend x)
  | T0 => mkC (on x) (src x) (stops x) (if src x =? 4 then pend x + 1 else pend x)
  | Port o n => mkC (on x) (src x) (stops x) (if (src x =? 6) && Z.testbit o 2 && negb (Z.testbit n 2) then pend x + 1 else pend x)
  | Tick _ idle => if on x && negb (idle && stops x) then mkC (on x) (src x) (stops x) 0 else x
  | Reset => mkC (on x) (src x) (stops x) 0
  | _ => x
  end.
(** how many pulses an event counts *)
Definition pulse (e : ev) (x : clock) : Z :=
  match e with
  | Tick c idle => if on x && negb (idle && stops x) then
      (if src x =? 0 then c else if src x =? 2 then 3 * c else if (src x =? 4) || (src x =? 6) then pend x else 0) else 0
  | _ => 0
  end.
Fixpoint pulses (l : list ev) (x : clock) : Z := match l with [] => 0 | e :: l => pulse e x + pulses l (cstep e x) end.

(** events which do not write the counter *)
Definition free (e : ev) : Prop := okev e /\ match e with Cl _ | Ch _ | Reset => False | _ => True end.
(** how often the counter goes from 65535 to 0 in a history of such events *)
Definition wraps (l : list ev) (s : pca) : Z := (count s + pulses l (clock_of s)) / 65536.
(** ... and which do not write the flags, the pins, the registers of module n *)
Definition quiet (n : Z) (e : ev) : Prop := free e /\
  match e with Ccon _ | P1 _ => False | CcBit k _ => k <> n | Ccapm i _ | CapL i _ | CapH i _ => i <> n | _ => True end.
(** the watchdog bit stays on, or off *)
Definition wd (b : bool) (e : ev) : Prop := match e with Cmod v => Z.testbit v 6 = b | _ => True end.
(** ... or at least not the pins and the mode of module n *)
Definition still (n : Z) (e : ev) : Prop := free e /\ match e with P1 _ => False | Ccapm i _ => i <> n | _ => True end.
(** events which do not set the run bit by a byte, or by bit 2 *)
Definition nostart (e : ev) : Prop := match e with Ccon v => Z.testbit v 6 = false | CcBit k b => k = 2 -> b = false | _ => True end.
(** what was last written to CCAPMn, and what the program reads there *)
Fixpoint lastmode (n : Z) (l : list ev) (m : Z) : Z :=
  match l with [] => m | Ccapm i v :: l => lastmode n l (if n =? i then v mod 256 else m) | _ :: l => lastmode n l m end.
Fixpoint lastcell (n : Z) (l : list ev) (m : Z) : Z :=
  match l with [] => m | Ccapm i v :: l => lastcell n l (if n =? i then v mod 256 else m) | Reset :: l => lastcell n l 0x40 | _ :: l => lastcell n l m end.
