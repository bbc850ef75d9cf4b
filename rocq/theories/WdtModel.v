(** The watchdog of the 8051R family (s51.src/wdt.cc).  The rest of the controller is left out:
    only the cell WDTRST, the counter and the resets are modelled; [long] is an integer. *)
From Verif Require Import Base.

(** s51.src/wdtcl.h:45-49 written_since_reset; [resets] counts the resets made by the watchdog *)
Record wd := mkWd { cell : Z; wdt : Z; written : bool; resets : Z }.
(** s51.src/wdt.cc:86-91 reset, and s51.src/uc51.cc:1566-1573 clear_sfr: the cell becomes 0 *)
Definition wd_reset (n : Z) : wd := mkWd 0 (-1) false n.
(** s51.src/wdt.cc:58-69 write; the cell holds the old value while this runs, the 8 bit cell
    gets the new one after it *)
Definition wd_write (v : Z) (s : wd) : wd :=
  mkWd (v mod 256) (if (v mod 256 =? 225) && (cell s =? 30) && written s then 0 else wdt s) true (resets s).
(** s51.src/wdt.cc:71-84 tick; s51.src/uc51r.cc:59 cl_wdt *)
Definition wd_tick (k : Z) (s : wd) : wd :=
  if 0 <=? wdt s then
    let w := wdt s + k in
    if 16383 <? w then wd_reset (resets s + 1) else mkWd (cell s) w (written s) (resets s)
  else s.
(** the user stores into the cell without a write of the program: sim.src/mem.cc:1262-1270 set *)
Definition wd_poke (v : Z) (s : wd) : wd := mkWd (v mod 256) (wdt s) (written s) (resets s).

Inductive wop := WTick (k : Z) | WWrite (v : Z) | WPoke (v : Z) | WReset.
Definition wstep (s : wd) (o : wop) : wd :=
  match o with WTick k => wd_tick k s | WWrite v => wd_write v s | WPoke v => wd_poke v s | WReset => wd_reset (resets s) end.
Definition wrun (s : wd) (l : list wop) : wd := fold_left wstep l s.
