(** Timer 2 of the 8052 as the manual describes it, with the deviations of the simulator. *)
From Verif Require Import Base Tm2Model.

(** ** Bits of T2CON *)
Definition bTF2 := 7. Definition bEXF2 := 6. Definition bRCLK := 5. Definition bTCLK := 4.
Definition bEXEN2 := 3. Definition bTR2 := 2. Definition bCT2 := 1. Definition bCP := 0.
Definition bit (v k : Z) : bool := Z.testbit v k.
Definition count_of (s : st) : Z := th2 s * 256 + tl2 s.
Definition reload_of (s : st) : Z := rcaph s * 256 + rcapl s.
(** what T2CON selects; [down] is the history of T2MOD *)
Definition mode_by (con : Z) (down : bool) : mode :=
  if bit con bRCLK || bit con bTCLK then Baud else if bit con bCP then Capture else if down then Down else Reload.

(** ** Counting: the 16 bit value and the number of overflows after n counts *)
(** up from c, loaded with r on overflow *)
Definition law_up (r c n : Z) : Z * Z :=
  let d := c + n - 65536 in
  if d <? 0 then (c + n, 0) else (r + d mod (65536 - r), 1 + d / (65536 - r)).
(** up, wrapping *)
Definition law_wrap (c n : Z) : Z * Z := ((c + n) mod 65536, (c + n) / 65536).
(** down from c (at least r): FFFF follows r *)
Definition law_down (r c n : Z) : Z * Z :=
  let e := n - (c - r + 1) in
  if e <? 0 then (c - n, 0) else (65535 - e mod (65536 - r), 1 + e / (65536 - r)).

(** ** Pins: pin j of port 1 is what is written and what the world allows *)
Definition pin_op (j : Z) (o : op) (x : bool * bool) : bool * bool :=
  let (port, world) := x in
  match o with
  | WP1 v => (Z.testbit v j, world)
  | WP1Bit k on => (if k =? j then on else port, world)
  | Pins v => (port, Z.testbit v j)
  | _ => x
  end.
Definition high (x : bool * bool) : bool := fst x && snd x.
(** falling edges of the pin *)
Fixpoint falls (j : Z) (x : bool * bool) (l : list op) : Z :=
  match l with
  | [] => 0
  | o :: t => (if high x && negb (high (pin_op j o x)) then 1 else 0) + falls j (pin_op j o x) t
  end.
Definition pin (j : Z) (s : st) : bool * bool := (Z.testbit (p1 s) j, Z.testbit (pins s) j).
Fixpoint cycles (l : list op) : Z := match l with [] => 0 | Cycle :: t => 1 + cycles t | _ :: t => cycles t end.
(** nobody writes the registers of the timer *)
Definition hands_off (o : op) : Prop :=
  match o with Cycle | WP1 _ | Pins _ => True | WP1Bit k _ => 0 <= k < 8 | _ => False end.
Definition bit_numbers (o : op) : Prop := match o with WConBit k _ | WP1Bit k _ => 0 <= k < 8 | _ => True end.
(** down mode: selected by writing T2MOD with DCEN set while T2CON selects reload, left by
    any write of T2CON *)
Fixpoint down_mode (s : st) (d : bool) (h : list op) : bool :=
  match h with
  | [] => d
  | o :: t =>
      down_mode (step s o)
        (match o with
         | WCon _ | WConBit _ _ => false
         | WMod v => if bit v 0 && negb (bit (t2con s) bRCLK || bit (t2con s) bTCLK || bit (t2con s) bCP) then true else d
         | _ => d
         end) t
  end.
(** after reset and a history; [down] says whether down mode is selected *)
Definition reached (s : st) (down : bool) : Prop :=
  exists s0 h, 0 <= pins s0 < 256 /\ 0 <= T_edge s0 /\ 0 <= ex_edge s0 /\ Forall bit_numbers h /\
    s = run (reset s0) h /\ down = down_mode (reset s0) false h.
(** edges seen and not served yet *)
Definition t2_waiting (s : st) : Z := T_edge s.
Definition t2ex_waiting (s : st) : Z := ex_edge s.
(** baud rate mode as a counter: the edges are counted in the cycles *)
Fixpoint edge_pulses (x : bool * bool) (l : list op) (pend n : Z) : Z * Z :=
  match l with
  | [] => (n, pend)
  | Cycle :: t => edge_pulses x t 0 (n + pend)
  | o :: t => edge_pulses (pin_op 0 o x) t (if high x && negb (high (pin_op 0 o x)) then pend + 1 else pend) n
  end.

(** the level of the pin never changes *)
Fixpoint steady (j : Z) (x : bool * bool) (l : list op) : Prop :=
  match l with
  | [] => True
  | o :: t => high (pin_op j o x) = high x /\ steady j (pin_op j o x) t
  end.
(** counts while nobody writes the registers, for the modes that look at C/T2: [k] per
    machine cycle as a timer, the falling edges of T2 as a counter *)
Definition counted (k : Z) (s : st) (l : list op) : Z :=
  if bit (t2con s) bTR2 then (if bit (t2con s) bCT2 then fst (edge_pulses (pin 0 s) l (t2_waiting s) 0) else k * cycles l) else 0.
(** no edge of T2EX is acted on *)
Definition t2ex_quiet (s : st) (l : list op) : Prop :=
  bit (t2con s) bEXEN2 = false \/ (t2ex_waiting s = 0 /\ falls 1 (pin 1 s) l = 0).
(** the registers the timer itself leaves alone; [k]: the flag it may set *)
Definition others_kept (k : Z) (s s' : st) : Prop :=
  t2mod s' = t2mod s /\ forall j, j <> k -> bit (t2con s') j = bit (t2con s) j.
