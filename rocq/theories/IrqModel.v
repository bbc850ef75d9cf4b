(** Model of interrupt sources and of the acceptance of interrupts
    (itsrc.cc, uc.cc, and the MCS51 version in s51.src/uc51.cc). *)
From Verif Require Import Base.

(** Contents of the cells used as enable and request registers: 8 bit cells.
    Simplification: write() of such a cell stores the low 8 bits; callbacks of
    other hardware hooked on the same cell are not modelled. *)
Definition regs := Z -> Z.
Definition wr (r : regs) (c v : Z) : regs := fun x => if x =? c then u8 v else r x.

(** itsrccl.h:44-110 cl_it_src. [nmi] = None: not initialised (the constructor
    itsrc.cc:47-80 cl_it_src does not set it). [parent]: src_cell, src_mask and
    src_value of the parent, for slaves. *)
Record src := mkSrc {
  nuof : Z;
  ie_cell : option Z; ie_mask : Z; ie_value : Z;
  src_cell : option Z; src_mask : Z; src_value : Z;
  vec : Z; clr_bit : bool; active : bool; nmi : option bool;
  parent : option (option Z * Z * Z)
}.

(** itsrc.cc:47-80 cl_it_src *)
Definition new_src (n : Z) (iec : option Z) (iem : Z) (sc : option Z) (sm a : Z) (clr : bool) : src :=
  mkSrc n iec iem iem sc sm sm a clr true None None.

(** itsrc.cc:130-138 enabled *)
Definition enabled (r : regs) (s : src) : bool :=
  match ie_cell s with None => false | Some c => Z.land (r c) (ie_mask s) =? ie_value s end.
(** itsrc.cc:140-148 pending *)
Definition pending (r : regs) (s : src) : bool :=
  match src_cell s with None => false | Some c => Z.land (r c) (src_mask s) =? src_value s end.
(** itsrc.cc:150-159 request, given by the fields it uses *)
Definition request_on (r : regs) (sc : option Z) (mask value : Z) : regs :=
  match sc with
  | None => r
  | Some c => if value =? 0 then wr r c (Z.land (r c) (Z.lnot mask))
              else wr r c (Z.lor (r c) mask)
  end.
Definition request (r : regs) (s : src) : regs := request_on r (src_cell s) (src_mask s) (src_value s).
(** itsrc.cc:161-173 clear *)
Definition clear (r : regs) (s : src) : regs :=
  match src_cell s with
  | None => r
  | Some c => if clr_bit s then
                if src_value s =? 0 then wr r c (Z.lor (r c) (src_mask s))
                else wr r c (Z.land (r c) (Z.lnot (src_mask s)))
              else r
  end.
(** itsrccl.h:85 is_slave *)
Definition is_slave (s : src) : bool := match parent s with Some _ => true | None => false end.
(** itsrc.cc:116-127 pass_over *)
Definition pass_over (r : regs) (s : src) : regs :=
  match parent s with
  | None => r
  | Some (pc, pm, pv) =>
    if pending r s && enabled r s then clear (request_on r pc pm pv) s else r
  end.

Section Core.
(** virtual functions of the processor, reading its registers: priority_of(uchar),
    priority_main(), it_enabled() (uccl.h:462-465) *)
Variable priority_of : regs -> Z -> Z.
Variable priority_main : regs -> Z.
Variable it_enabled : regs -> bool.

(** [levels]: it_levels from the top; the bottom is level -1 (uc.cc:666-669).
    The level of NULL (empty list) and negative levels mean the main program. *)
Record st := mkSt { rg : regs; levels : list Z }.
Definition ap (r : regs) (lv : list Z) : Z :=
  match lv with
  | l :: _ => if 0 <=? l then l else priority_main r
  | [] => priority_main r
  end.

(** uc.cc:3428-3487 do_interrupt, the second loop; the result is the accepted
    source (accept_it pushes the level, uc.cc:3489-3494) *)
Fixpoint scan (l : list src) (is_en : bool) (r : regs) (lv : list Z) : res (st * option src) :=
  match l with
  | [] => Ok (mkSt r lv, None)
  | s :: t =>
    if is_slave s then scan t is_en r lv
    else match nmi s with
         | None => UB
         | Some n =>
           if negb n && negb is_en then scan t is_en r lv
           else if active s && enabled r s && pending r s then
             let pr := priority_of r (u8 (nuof s)) in
             if pr <=? ap r lv then scan t is_en r lv
             else Ok (mkSt (clear r s) (pr :: lv), Some s)
           else scan t is_en r lv
         end
  end.
Definition do_interrupt (l : list src) (x : st) : res (st * option src) :=
  let is_en := it_enabled (rg x) in
  let r1 := fold_left pass_over l (rg x) in
  scan l is_en r1 (levels x).

(** Return from interrupt: s51.src/jmp.cc:303-309, mos6502.src/inst.cc:61-68 *)
Definition reti (x : st) : st :=
  match levels x with
  | l :: t => if 0 <=? l then mkSt (rg x) t else x
  | [] => x
  end.
(** uc.cc:773-795 reset: the levels are popped down to the main one *)
Fixpoint unwind (lv : list Z) : list Z :=
  match lv with
  | l :: t => if 0 <=? l then unwind t else lv
  | [] => []
  end.

(** Histories: the program may change the registers arbitrarily at any time. *)
Inductive ev := EInt | EReti | EReset (r : regs) | EProg (r : regs).
Definition estep (l : list src) (x : st) (e : ev) : res st :=
  match e with
  | EInt => r <- do_interrupt l x ;; Ok (fst r)
  | EReti => Ok (reti x)
  | EReset r => Ok (mkSt r (unwind (levels x)))
  | EProg r => Ok (mkSt r (levels x))
  end.
Fixpoint erun (l : list src) (x : st) (es : list ev) : res st :=
  match es with
  | [] => Ok x
  | e :: t => x' <- estep l x e ;; erun l x' t
  end.
End Core.

Definition init_st (r : regs) : st := mkSt r [-1].

(** -- MCS51 -- *)
(** s51.src/uc51.cc:1846-1852 priority_of: IP register *)
Definition priority51 (ip mask : Z) : Z := if Z.land ip mask =? 0 then 0 else 1.

(** [IE] and [IP] are the cells of the registers; [idle]: state==stIDLE; [was_reti]
    is the flag of the interrupt peripheral. Result of one call: *)
Record st51 := mkSt51 { rg51 : regs; lv51 : list Z; was_reti : bool; idle : bool }.

(** the loop of uc51.cc:1804-1844 do_interrupt; empty level list would be a NULL
    dereference *)
Fixpoint scan51 (IP : Z) (l : list src) (x : st51) : res (st51 * option src) :=
  match l with
  | [] => Ok (x, None)
  | s :: t =>
    if active s && enabled (rg51 x) s && pending (rg51 x) s then
      let pr := priority51 (rg51 x IP) (u8 (ie_mask s)) in
      match lv51 x with
      | [] => UB
      | lev :: _ =>
        if (0 <=? lev) && (pr <=? lev) then scan51 IP t x
        else if idle x then Ok (mkSt51 (rg51 x) (lv51 x) true false, None)
        else Ok (mkSt51 (clear (rg51 x) s) (pr :: lv51 x) (was_reti x) false, Some s)
      end
    else scan51 IP t x
  end.
(** uc51.cc:1804-1844 do_interrupt, bmEA = 0x80 (regs51.h) *)
Definition do_interrupt51 (IE IP : Z) (l : list src) (x : st51) : res (st51 * option src) :=
  if was_reti x then Ok (mkSt51 (rg51 x) (lv51 x) false (idle x), None)
  else if Z.land (rg51 x IE) 0x80 =? 0 then Ok (x, None)
  else scan51 IP l x.
