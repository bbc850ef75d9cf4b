(** What the timer sees of a piece of history in which nobody writes the registers of the
    timers, and the flags such a piece leaves. *)
From Verif Require Import Base TmrModel TmrSpec.

Definition hands_off (o : op) : Prop :=
  match o with Cycle | WP3 _ | Pins _ => True | WP3Bit k _ => 0 <= k < 8 | _ => False end.
(** bit numbers are 0..7 *)
Definition bit_numbers (o : op) : Prop :=
  match o with WTconBit k _ | WP3Bit k _ => 0 <= k < 8 | _ => True end.
(** the port: what is written and what the world does, the level is their conjunction *)
Fixpoint events (port world : Z) (l : list op) : list ev :=
  match l with
  | [] => []
  | Cycle :: t => EvCycle :: events port world t
  | WP3 v :: t => let p := v mod 256 in EvLevel (Z.land world p) :: events p world t
  | WP3Bit k on :: t => let p := if on then Z.setbit port k else Z.clearbit port k in EvLevel (Z.land world p) :: events p world t
  | Pins v :: t => let w := v mod 256 in EvLevel (Z.land w port) :: events port w t
  | _ :: t => events port world t
  end.
(** control registers of the timers; reading TL, TH *)
Definition control (o : op) : Prop :=
  match o with WTmod _ | WTcon _ | ClrTF _ => True | WTconBit k _ => 0 <= k < 8 | _ => False end.
(** everything since power on: any pins, any flags in the timers, reset, any history *)
Definition reached (s : st) : Prop :=
  exists s0 h, 0 <= pins s0 < 256 /\ Forall bit_numbers h /\ s = run (reset s0) h.
Definition port_level (s : st) : Z := Z.land (pins s) (p3 s).
