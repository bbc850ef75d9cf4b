(** The serial port of the MCS51 as its user knows it. *)
From Verif Require Import Base SerModel.

(** mode, and the number of bits of a frame *)
Definition mode_of (s : st) : Z := scon s / 64.
Definition frame_bits (m : Z) : Z := if m =? 0 then 8 else if m =? 1 then 10 else 11.
(** divisor of the rate: of the clock in modes 0 and 2, of the overflows in modes 1 and 3 *)
Definition rate (m : Z) (smod : bool) : Z := if m =? 0 then 12 else if smod then 16 else 32.
Definition bit_time (s : st) : Z := if t2b s then 16 else rate (mode_of s) (Z.testbit (pcon s) 7).
(** clocks (modes 0, 2) or overflows (modes 1, 3) of one frame *)
Definition frame_time (s : st) : Z := frame_bits (mode_of s) * bit_time s.
Definition clocked (s : st) : bool := (mode_of s =? 0) || (mode_of s =? 2).
(** the divisor in use is the one of the registers: RCLK and TCLK have not been on since the
    last write to SCON, or they are on *)
Definition rate_ok (s : st) : Prop := t2b s = true \/ divby s = rate (mode_of s) (Z.testbit (pcon s) 7).

(** is the frame, which has got [u] units, complete in a tick of l?  The units of a tick count
    after it *)
Fixpoint due (clk : bool) (need u : Z) (l : list op) : bool :=
  match l with
  | [] => false
  | Tick k :: t => (need <=? u) || due clk need (if clk then u + 12 * k else u) t
  | Over :: t => due clk need (if clk then u else u + 1) t
  | _ :: t => due clk need u t
  end.
(** nobody changes the way the port works *)
Definition quiet (o : op) : Prop :=
  match o with Tick k => 0 <= k | Over | RSbuf | Arrive _ | Poll => True | WSconBit k _ => 0 <= k < 6 | _ => False end.
(** ... nor the flags *)
Definition quiet_flags (o : op) : Prop := match o with WSconBit k _ => 2 <= k | _ => True end.
(** operations with proper arguments *)
Definition proper (o : op) : Prop :=
  match o with Tick k => 0 <= k | WSconBit k _ => 0 <= k < 8 | Arrive l => Forall (fun c => 0 <= c < 256) l | _ => True end.
Definition reached (s : st) (h : list op) : Prop :=
  exists s0, 0 <= nl s0 < 2 ^ 24 /\ Forall proper h /\ s = run (power_on s0) h.

(** ** The received characters *)
Fixpoint arrived (h : list op) : list Z := match h with [] => [] | Arrive l :: t => l ++ arrived t | _ :: t => arrived t end.
(** bytes of the setting nl, lowest first, up to a zero *)
Definition nl_bytes (v : Z) : list Z :=
  let b i := Z.shiftr v (8 * i) mod 256 in
  if b 0 =? 0 then [] else if b 1 =? 0 then [b 0] else if b 2 =? 0 then [b 0; b 1] else [b 0; b 1; b 2].
(** CR or LF is replaced by the setting, and after one of them all of the other kind that follow
    directly are dropped; a setting of zero means no translation *)
Fixpoint translate (v skip : Z) (l : list Z) : list Z :=
  match l with
  | [] => []
  | c :: t =>
      if negb (skip =? 0) && (c =? skip) then translate v skip t
      else if (c =? 10) || (c =? 13) then nl_bytes v ++ translate v (if c =? 10 then 13 else 10) t
      else c :: translate v 0 t
  end.
Definition delivered (v : Z) (l : list Z) : list Z := match nl_bytes v with [] => l | _ => translate v 0 l end.
(** lines without CR and LF, each ended by the newline of one convention *)
Definition plain (l : list Z) : Prop := Forall (fun c => c <> 10 /\ c <> 13) l.
Definition text (eol : list Z) (ls : list (list Z)) : list Z := concat (map (fun x => x ++ eol) ls).
Definition convention (eol : list Z) : Prop := eol = [10] \/ eol = [13] \/ eol = [13; 10] \/ eol = [10; 13].
(** the program reads SBUF only when a byte is there that it has not read *)
Fixpoint polite (s : st) (h : list op) : Prop :=
  match h with
  | [] => True
  | o :: t => (o = RSbuf -> (length (reads s) < length (rcvd s))%nat) /\ o <> CpuReset /\ polite (step s o) t
  end.
(** bytes written into SBUF *)
Fixpoint written (h : list op) : list Z := match h with [] => [] | WSbuf v :: t => v mod 256 :: written t | _ :: t => written t end.
(** some elements of a list, in order *)
Inductive subseq : list Z -> list Z -> Prop :=
| sub_nil : subseq [] []
| sub_skip : forall x a b, subseq a b -> subseq a (x :: b)
| sub_take : forall x a b, subseq a b -> subseq (x :: a) (x :: b).
Definition ti (s : st) : bool := Z.testbit (scon s) 1.
Definition ri (s : st) : bool := Z.testbit (scon s) 0.
