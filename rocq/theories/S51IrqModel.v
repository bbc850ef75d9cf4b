(** Model of one simulation step of the MCS51 core: an instruction, the check
    for interrupts, idle and power down mode (uc51.cc do_inst).

    Simplifications: hardware (timers, serial line, pins) is not modelled: a
    request bit may have any value; resINV, breakpoints and stop_at_it only
    stop the simulation and are left out; inst_ticks of instructions is in
    S51Model. *)
From Verif Require Import Base S51Model.

Inductive mode := mGO | mIDLE | mPD.
(** itsrccl.h:44-110 cl_it_src as the sources of this processor are made
    (s51.src/interrupt.cc:66-84 added_to_uc, s51.src/timer0.cc:118-144 added_to_uc,
    s51.src/serial.cc:110-128 added_to_uc): enable cell IE, src_value= src_mask, not nmi.
    [i_mask]: ie_mask. *)
Record isrc := mkIsrc { i_mask : Z; i_cell : Z; i_bits : Z; i_addr : Z; i_clr : bool; i_active : bool }.
Record top := mkTop { core : st; md : mode }.
Inductive result := resGO | resINTERRUPT | resSELFJUMP.

(** regs51.h:47-62, 142-147 *)
Definition IP : Z := 0xb8.
Definition PCON : Z := 0x87.
Definition bmEA : Z := 0x80.
Definition bmIDL : Z := 0x01.
Definition bmPD : Z := 0x02.

(** itsrc.cc:130-138 enabled *)
Definition enabled (s : st) (i : isrc) : bool := Z.land (sfr s IE) (i_mask i) =? i_mask i.
(** itsrc.cc:140-148 pending *)
Definition pending (s : st) (i : isrc) : bool := Z.land (sfr s (i_cell i)) (i_bits i) =? i_bits i.
(** itsrc.cc:161-173 clear; src_value is not 0 *)
Definition clear (s : st) (i : isrc) : st :=
  if i_clr i then sfr_write s (i_cell i) (Z.land (sfr s (i_cell i)) (Z.lnot (i_bits i))) else s.
(** uc51.cc:1846-1852 priority_of *)
Definition priority_of (s : st) (nuof_it : Z) : Z := if Z.land (sfr s IP) nuof_it =? 0 then 0 else 1.

Section Top.
Variable G : cfg.
Variable sources : list isrc.
Variable cmos : bool.            (* type->subtype & CPU_CMOS *)
Variable stop_selfjump : bool.

(** uc51.cc:1860-1871 accept_it, with the level made by do_interrupt *)
Definition accept_it (s : st) (level addr : Z) : st :=
  let s := sfr_put s PCON (Z.land (sfr s PCON) (Z.lnot bmIDL)) in
  let s := set_levels s (level :: levels s) (was_reti s) in
  inst_lcall G addr (tick 1 s).
(** the loop of uc51.cc:1804-1844 do_interrupt *)
Fixpoint scan (l : list isrc) (x : top) : top * result :=
  let s := core x in
  match l with
  | [] => (x, resGO)
  | i :: r =>
    if i_active i && enabled s i && pending s i then
      let pr := priority_of s (i_mask i) in
      let level := hd (-1) (levels s) in
      if (0 <=? level) && (pr <=? level) then scan r x
      else match md x with
           | mIDLE => (mkTop (set_levels (sfr_put s PCON (Z.land (sfr s PCON) (Z.lnot bmIDL))) (levels s) true) mGO, resGO)
           | _ => (mkTop (accept_it (clear s i) pr (i_addr i)) mGO, resINTERRUPT)
           end
    else scan r x
  end.
(** uc51.cc:1804-1844 do_interrupt *)
Definition do_interrupt (x : top) : top * result :=
  let s := core x in
  if was_reti s then (mkTop (set_levels s (levels s) false) (md x), resGO)
  else if Z.land (sfr s IE) bmEA =? 0 then (x, resGO)
  else scan sources x.
(** uc51.cc:1908-1932 idle_pd *)
Definition idle_pd (x : top) : top :=
  let p := sfr (core x) PCON in
  if negb cmos then x
  else
    let m := if Z.land p bmIDL =? 0 then md x else mIDLE in
    mkTop (core x) (if Z.land p bmPD =? 0 then m else mPD).
(** uc51.cc:1697-1742 do_inst *)
Definition do_inst (x : top) : top * result :=
  let pcsave := pc (core x) in
  let x := match md x with
           | mGO => mkTop (inst_step G (core x)) mGO
           | _ => mkTop (tick 1 (core x)) (md x)
           end in
  if (pc (core x) =? pcsave) && stop_selfjump then (x, resSELFJUMP)
  else
    match do_interrupt x with
    | (x, resGO) => (idle_pd x, resGO)
    | r => r
    end.
End Top.
