(** MCS51 timers 0 and 1 as the user's manual describes them, with the deviations of the
    simulator: a counter counts rising edges, and what the law of counting is. *)
From Verif Require Import Base.

(** ** The registers; [i] is true for timer 1 *)
Definition selected (i : bool) (tmod : Z) : Z := (tmod / (if i then 16 else 1)) mod 4.
Definition gate_bit (i : bool) (tmod : Z) : bool := Z.testbit tmod (if i then 7 else 3).
Definition ct_bit (i : bool) (tmod : Z) : bool := Z.testbit tmod (if i then 6 else 2).
Definition run_bit (i : bool) (tcon : Z) : bool := Z.testbit tcon (if i then 6 else 4).
Definition TF_nr (i : bool) : Z := if i then 7 else 5.
Definition int_pin (i : bool) (level : Z) : bool := Z.testbit level (if i then 3 else 2).
Definition t_pin (i : bool) (level : Z) : bool := Z.testbit level (if i then 5 else 4).

(** ** TL, TH and the number of overflows after N more pulses *)
Definition law (mode tl th n : Z) : Z * Z * Z :=
  if mode =? 0 then                       (* 13 bits: TH and 5 bits of TL *)
    let c := th * 32 + tl mod 32 + n in
    ((if tl mod 32 + n <? 32 then tl + n else c mod 32), (c / 32) mod 256, c / 8192)
  else if mode =? 1 then                  (* 16 bits *)
    let c := th * 256 + tl + n in (c mod 256, (c / 256) mod 256, c / 65536)
  else if mode =? 2 then                  (* 8 bits, TH is loaded on overflow *)
    let d := tl + n - 256 in
    if d <? 0 then (tl + n, th, 0) else (th + d mod (256 - th), th, 1 + d / (256 - th))
  else (tl, th, 0).

(** ** The pulses of a timer while nobody writes its control registers *)
Inductive ev := EvCycle | EvLevel (level : Z).
(** level of the port, edges not counted yet, pulses counted *)
Fixpoint pulses_of (i : bool) (tmod tcon : Z) (l : list ev) (level pend n : Z) : Z * Z :=
  match l with
  | [] => (n, pend)
  | EvCycle :: t =>
      if run_bit i tcon && (negb (gate_bit i tmod) || int_pin i level)
      then (if ct_bit i tmod then pulses_of i tmod tcon t level 0 (n + pend) else pulses_of i tmod tcon t level pend (n + 1))
      else pulses_of i tmod tcon t level pend n
  | EvLevel v :: t =>
      pulses_of i tmod tcon t v (if t_pin i v && negb (t_pin i level) then pend + 1 else pend) n
  end.
(** how often the pin rises *)
Fixpoint rises (i : bool) (l : list ev) (level : Z) : Z :=
  match l with
  | [] => 0
  | EvCycle :: t => rises i t level
  | EvLevel v :: t => (if t_pin i v && negb (t_pin i level) then 1 else 0) + rises i t v
  end.
Fixpoint cycles (l : list ev) : Z :=
  match l with [] => 0 | EvCycle :: t => 1 + cycles t | _ :: t => cycles t end.

(** ** All four modes: [n] pulses of the timer in [c] machine cycles.  In mode 3 timer 1
    stands still, TL0 counts 8 bits, TH0 counts machine cycles while TR1 is set *)
Definition count_law (i : bool) (tcon mode tl th n c : Z) : Z * Z * Z :=
  if mode =? 3 then
    (if i then (tl, th, 0)
     else ((tl + n) mod 256, (if run_bit true tcon then (th + c) mod 256 else th), (tl + n) / 256))
  else law mode tl th n.
