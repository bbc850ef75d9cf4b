(** The one instruction processors of the simulator "oisc": the plain one (OISC), the Ultimate RISC (URISC), MISC16 and
    extended MISC16 (EM).  The memory is the 16 bit cells of rom, 0x0000 to 0xffff.
    A read or write which does not end (the pass operators may call each other through pointers) is [None].
    Not modelled: breakpoints, read only cells, operators of other hardware: the five registers of the UART of
    MISC16 and EM (0xfffb to 0xffff) are taken as plain cells; the text of the comment of the disassembler (only
    the reads which it makes). *)
From Verif Require Import Base.
From Coq Require Import String.
Local Open Scope Z_scope.

(** simoisc.cc:40-71 mk_controller: the four types *)
Inductive cpu := OISC | URISC | MISC16 | EM.
(** oisccl.h:57-62 rA, misc16cl.h:47-50 rC, emcl.h:36-39 rP, urisccl.h:49-52 rF, uccl.h:310-310 PC; [mem]: the data of the
    cells of rom; [shows]: how many times print_regs was called (urisc.cc:83-102 print_regs appends operators at each call);
    [tks]: the cycles counted by tick *)
Record st := mkS { pc : Z; ra : Z; rc : Z; rp : Z; rf : Z; mem : Z -> Z; shows : nat; tks : Z }.
Definition set_pc v s := mkS v (ra s) (rc s) (rp s) (rf s) (mem s) (shows s) (tks s).
Definition set_ra v s := mkS (pc s) v (rc s) (rp s) (rf s) (mem s) (shows s) (tks s).
Definition set_rc v s := mkS (pc s) (ra s) v (rp s) (rf s) (mem s) (shows s) (tks s).
Definition set_rp v s := mkS (pc s) (ra s) (rc s) v (rf s) (mem s) (shows s) (tks s).
Definition set_rf v s := mkS (pc s) (ra s) (rc s) (rp s) v (mem s) (shows s) (tks s).
Definition set_mem v s := mkS (pc s) (ra s) (rc s) (rp s) (rf s) v (shows s) (tks s).
Definition set_shows v s := mkS (pc s) (ra s) (rc s) (rp s) (rf s) (mem s) v (tks s).
Definition set_tks v s := mkS (pc s) (ra s) (rc s) (rp s) (rf s) (mem s) (shows s) v.
(** mem.cc:962-966 cl_cell16::d: the data of a cell is one u16_t *)
Definition store (a v : Z) (s : st) : st := set_mem (fun x => if x =? a then u16 v else mem s x) s.

(** misc16.cc:122-136 init_alu, em.cc:128-137 init_alu, urisc.cc:93-101 print_regs: number of pass operators of the cell *)
Definition ops (m : cpu) (n : nat) (a : Z) : nat :=
  match m with
  | OISC => 0
  | URISC => if (0xfff0 <=? a) && (a <=? 0xfff7) then n else 0
  | MISC16 => if (a =? 0) || (a =? 1) || (a =? 2) || (a =? 3) || (a =? 4) || (a =? 7) || (a =? 8) || (a =? 9) || (a =? 11) || (a =? 12) || (a =? 13) || (a =? 14) || (a =? 15) then 1 else 0
  | EM => if (0 <=? a) && (a <=? 15) then 1 else 0
  end.

(** misc16.cc:86-95 sub *)
Definition sub (a b : Z) (s : st) : Z * st :=
  let b := u16 (Z.lnot b) in
  let r := u16 (a + b + 1) in
  (r, set_rc (if Z.land (Z.lor (Z.land a b) (Z.land (Z.lor a b) (Z.lnot r))) 0x8000 =? 0 then 1 else 0) s).
(** misc16.cc:97-104 add *)
Definition add (a b : Z) (s : st) : Z * st :=
  let r := u16 (a + b) in
  (r, set_rc (if Z.land (Z.lor (Z.land a b) (Z.land (Z.lor a b) (Z.lnot r))) 0x8000 =? 0 then 0 else 1) s).
(** misc16.cc:106-114 shift *)
Definition shift (a : Z) (s : st) : Z * st :=
  let r := Z.shiftr a 1 in
  let r := if rc s =? 0 then r else Z.lor r 0x8000 in
  (r, set_rc (Z.land a 1) s).

(** misc16.cc:216-229 cl_misc16::read; [rd]: reading a cell of rom *)
Definition mread (rd : Z -> st -> option (Z * st)) (a : Z) (s : st) : option (Z * st) :=
  if a =? 0 then Some (pc s, s)
  else if a =? 1 then Some (Z.land (pc s + 2) 0xffff, s)
  else if a =? 2 then Some (Z.land (pc s + 4) 0xffff, s)
  else if a =? 3 then Some (Z.land (pc s + 6) 0xffff, s)
  else if a =? 7 then (if ra s =? 7 then Some (ra s, s) else rd (ra s) s)
  else if a =? 8 then Some (ra s, s)
  else Some (mem s a, s).
(** em.cc:139-149 cl_em::read *)
Definition eread (rd : Z -> st -> option (Z * st)) (a : Z) (s : st) : option (Z * st) :=
  if a =? 5 then Some (rp s, s)
  else if a =? 6 then rd (rp s) (set_rp (u16 (rp s + 1)) s)
  else if a =? 10 then rd (ra s) (set_ra (u16 (ra s + 1)) s)
  else mread rd a s.
(** urisccl.h:33-39 flagO, flagN, flagC, flagZ *)
Definition fN (s : st) : bool := negb (Z.land (rf s) 4 =? 0).
Definition fZ (s : st) : bool := negb (Z.land (rf s) 1 =? 0).
Definition fO (s : st) : bool := negb (Z.land (rf s) 8 =? 0).
Definition fC (s : st) : bool := negb (Z.land (rf s) 2 =? 0).
Definition two (b : bool) : Z := if b then 2 else 0.
(** urisc.cc:153-178 cl_urisc::read *)
Definition uread (a : Z) (s : st) : Z :=
  if a =? 0xfff0 then ra s
  else if a =? 0xfff1 then two (fN s)
  else if a =? 0xfff2 then two (fZ s)
  else if a =? 0xfff3 then two (fO s)
  else if a =? 0xfff4 then two (fC s)
  else if a =? 0xfff5 then Z.lxor (two (fN s)) (two (fO s))
  else if a =? 0xfff6 then Z.lor (Z.lxor (two (fN s)) (two (fO s))) (two (fZ s))
  else if a =? 0xfff7 then Z.lxor (two (fC s)) (two (negb (fZ s)))
  else if a =? 0xffff then pc s
  else mem s a.

(** mem.cc:1203-1217 cl_memory_cell::read: the operators one after the other, the value of the last *)
Fixpoint reads (n : nat) (op : st -> option (Z * st)) (r : Z) (s : st) : option (Z * st) :=
  match n with
  | O => Some (r, s)
  | S k => match op s with Some (r', s') => reads k op r' s' | None => None end
  end.
(** mem.cc:1606-1617 cl_address_space::read, mem.cc:1203-1217 cl_memory_cell::read, oisc.cc:50-54 cl_op_pass::read, oisc.cc:284-288 cl_oisc::read *)
Fixpoint rd (f : nat) (m : cpu) (a : Z) (s : st) : option (Z * st) :=
  match f with
  | O => None
  | S f' =>
    match ops m (shows s) a with
    | O => Some (mem s a, s)
    | n => reads n (match m with OISC => fun s => Some (mem s a, s) | URISC => fun s => Some (uread a s, s) | MISC16 => mread (rd f' m) a | EM => eread (rd f' m) a end) 0 s
    end
  end.

(** misc16.cc:231-250 cl_misc16::write; the value is the one which goes on to the cell *)
Definition mwrite (wr : Z -> Z -> st -> option st) (a v : Z) (s : st) : option (Z * st) :=
  if a =? 0 then Some (v, set_pc v s)
  else if a =? 1 then Some (v, if i16 (ra s) <? 0 then set_pc v s else s)
  else if a =? 2 then Some (v, if ra s =? 0 then set_pc v s else s)
  else if a =? 4 then Some (v, if rc s =? 0 then s else set_pc v s)
  else if a =? 7 then (if ra s =? 7 then Some (v, s) else match wr (ra s) v s with Some s' => Some (v, s') | None => None end)
  else if a =? 8 then Some (v, set_ra v s)
  else if a =? 9 then let (r, s') := sub (ra s) v s in Some (r, set_ra r s')
  else if a =? 11 then let (r, s') := add (ra s) v s in Some (r, set_ra r s')
  else if a =? 12 then let r := Z.lxor (ra s) v in Some (r, set_ra r s)
  else if a =? 13 then let r := Z.lor (ra s) v in Some (r, set_ra r s)
  else if a =? 14 then let r := Z.land (ra s) v in Some (r, set_ra r s)
  else if a =? 15 then let (r, s') := shift v s in Some (r, set_ra r s')
  else Some (v, s).
(** em.cc:151-161 cl_em::write *)
Definition ewrite (wr : Z -> Z -> st -> option st) (a v : Z) (s : st) : option (Z * st) :=
  if a =? 5 then Some (v, set_rp v s)
  else if a =? 6 then let p := u16 (rp s - 1) in match wr p v (set_rp p s) with Some s' => Some (v, s') | None => None end
  else if a =? 10 then match wr (ra s) v (set_ra (u16 (ra s + 1)) s) with Some s' => Some (v, s') | None => None end
  else mwrite wr a v s.
(** urisc.cc:58-74 cl_urisc::add *)
Definition uadd (a b c : Z) (s : st) : Z * st :=
  let c := if c =? 0 then 0 else 1 in
  let sf := a + b + c in
  let ss := Z.land a 0x7fff + (b + 0x7fff) + c in
  let c1 := 0xffff <? sf in
  let c2 := 0x7fff <? ss in
  let f := if c1 then 2 else 0 in
  let f := if xorb c1 c2 then Z.lor f 8 else f in
  let f := if Z.land sf 0xffff =? 0 then Z.lor f 1 else f in
  let f := if Z.land sf 0x8000 =? 0 then f else Z.lor f 4 in
  (u16 sf, set_rf f s).
(** urisc.cc:180-196 cl_urisc::write *)
Definition uwrite (a v : Z) (s : st) : Z * st :=
  (v,
   if a =? 0xfff0 then set_ra v s
   else if a =? 0xfff1 then let (r, s') := uadd (ra s) (u16 (Z.lnot v)) 1 s in set_ra r s'
   else if a =? 0xfff2 then let (r, s') := uadd v (u16 (Z.lnot (ra s))) 1 s in set_ra r s'
   else if a =? 0xfff3 then let (r, s') := uadd (ra s) v 0 s in set_ra r s'
   else if a =? 0xfff4 then set_ra (Z.lxor (ra s) v) s
   else if a =? 0xfff5 then set_ra (Z.land (ra s) v) s
   else if a =? 0xfff6 then set_ra (Z.lor (ra s) v) s
   else if a =? 0xfff7 then set_ra (Z.shiftr v 1) s
   else if a =? 0xffff then set_pc v s
   else s).
(** mem.cc:1240-1259 cl_memory_cell::write: the operators one after the other, each gets the value of the one before *)
Fixpoint writes (n : nat) (op : Z -> st -> option (Z * st)) (v : Z) (s : st) : option (Z * st) :=
  match n with
  | O => Some (v, s)
  | S k => match op v s with Some (v', s') => writes k op v' s' | None => None end
  end.
(** mem.cc:1645-1657 cl_address_space::write, mem.cc:1240-1259 cl_memory_cell::write, oisc.cc:56-60 cl_op_pass::write, oisc.cc:290-294 cl_oisc::write *)
Fixpoint wr (f : nat) (m : cpu) (a v : Z) (s : st) : option st :=
  match f with
  | O => None
  | S f' =>
    match writes (ops m (shows s) a) (match m with OISC => fun v s => Some (v, s) | URISC => fun v s => Some (uwrite a v s) | MISC16 => mwrite (wr f' m) a | EM => ewrite (wr f' m) a end) v s with
    | Some (v', s') => Some (store a v' s')
    | None => None
    end
  end.

(** a number of nested calls which is never exceeded (theorem C157) *)
Definition depth : nat := 8.
Definition bind {X Y} (o : option X) (f : X -> option Y) : option Y := match o with Some x => f x | None => None end.
(** oisc.cc:240-255 exec_inst, without breakpoint *)
Definition exec (m : cpu) (s : st) : option st :=
  bind (rd depth m (pc s) s) (fun '(src, s) =>
  bind (rd depth m (Z.land (pc s + 1) 0xffff) s) (fun '(dst, s) =>
  bind (rd depth m src s) (fun '(tmp, s) =>
  let s := set_pc (Z.land (pc s + 2) 0xffff) s in
  bind (wr depth m dst tmp s) (fun s => Some (set_tks (tks s + 4) s))))).

(** the reads of dis_comment: misc16.cc:184-213 cl_misc16::dis_comment, em.cc:97-124 cl_em::dis_comment (its get()s change nothing),
    urisc.cc:141-150 cl_urisc::dis_comment, oisc.cc:225-230 cl_oisc::dis_comment *)
Definition comment (m : cpu) (src dst : Z) (s : st) : option st :=
  match m with
  | OISC => Some s
  | URISC => if (0xfff0 <=? dst) && (dst <=? 0xfff7) && ((src <? 0xfff0) || (0xfff7 <? src)) && negb (src =? 0xffff)
             then option_map snd (rd depth m src s) else Some s
  | _ => option_map snd (rd depth m (if src =? 7 then ra s else src) s)
  end.
(** oisc.cc:132-205 disassc: what it does to the state; [jk]: the dummy cell, read for the address 0x10000 *)
Definition look (m : cpu) (jk a : Z) (s : st) : option st :=
  bind (rd depth m a s) (fun '(src, s) =>
  bind (if a + 1 <? 0x10000 then rd depth m (a + 1) s else Some (jk, s)) (fun '(dst, s) =>
  comment m src dst s)).
(** print_regs: em.cc:60-70, misc16.cc:138-145, urisc.cc:83-102, oisc.cc:274-279 print_regs, oisc.cc:258-266 print_acc: what it does to the state *)
Definition display (m : cpu) (jk : Z) (s : st) : option st :=
  bind (match m with EM => option_map snd (rd depth m (rp s) s) | _ => Some s end) (fun s =>
  bind (option_map snd (rd depth m (ra s) s)) (fun s =>
  bind (look m jk (pc s) s) (fun s => Some (set_shows (S (shows s)) s)))).

(** oisc.cc:239-243 reset, misc16.cc:79-84 reset, uc.cc:773-806 cl_uc::reset: the address of the first instruction; registers and memory are kept.
    The UART's reset is not modelled. *)
Definition reset (m : cpu) (s : st) : st :=
  set_tks 0 (set_pc (match m with MISC16 | EM => 0x10 | _ => 0 end) s).

(** misc16.cc:148-161 dis_src, em.cc:73-83 dis_src, urisc.cc:105-121 dis_src, oisc.cc:213-217 dis_src *)
Definition m_src (a : Z) : option string :=
  if a =? 0 then Some "PC"%string else if a =? 1 then Some "PC+2"%string else if a =? 2 then Some "PC+4"%string
  else if a =? 3 then Some "PC+8"%string else if a =? 7 then Some "[A]"%string else if a =? 8 then Some "A"%string else None.
Definition dis_src (m : cpu) (a : Z) : option string :=
  match m with
  | OISC => None
  | URISC => if a =? 0xfff0 then Some "acc"%string else if a =? 0xfff1 then Some "N"%string else if a =? 0xfff2 then Some "Z"%string
    else if a =? 0xfff3 then Some "O"%string else if a =? 0xfff4 then Some "C"%string else if a =? 0xfff5 then Some "N^O"%string
    else if a =? 0xfff6 then Some "(N^O)|Z"%string else if a =? 0xfff7 then Some "C^~Z"%string else if a =? 0xffff then Some "PC"%string else None
  | MISC16 => m_src a
  | EM => if a =? 5 then Some "P"%string else if a =? 6 then Some "[P++]"%string else if a =? 10 then Some "[A++]"%string else m_src a
  end.
(** misc16.cc:163-182 dis_dst, em.cc:85-95 dis_dst, urisc.cc:123-139 dis_dst, oisc.cc:219-223 dis_dst *)
Definition m_dst (a : Z) : option string :=
  if a =? 0 then Some "PC"%string else if a =? 1 then Some "PC(A<0)"%string else if a =? 2 then Some "PC(A==0)"%string
  else if a =? 4 then Some "PC(C)"%string else if a =? 7 then Some "[A]"%string else if a =? 8 then Some "A"%string
  else if a =? 9 then Some "A-"%string else if a =? 11 then Some "A+"%string else if a =? 12 then Some "A^"%string
  else if a =? 13 then Some "A|"%string else if a =? 14 then Some "A&"%string else if a =? 15 then Some ">>"%string else None.
Definition dis_dst (m : cpu) (a : Z) : option string :=
  match m with
  | OISC => None
  | URISC => if a =? 0xfff0 then Some "acc"%string else if a =? 0xfff1 then Some "acc-"%string else if a =? 0xfff2 then Some "-acc"%string
    else if a =? 0xfff3 then Some "acc+"%string else if a =? 0xfff4 then Some "acc^"%string else if a =? 0xfff5 then Some "acc&"%string
    else if a =? 0xfff6 then Some "acc|"%string else if a =? 0xfff7 then Some ">>"%string else if a =? 0xffff then Some "PC"%string else None
  | MISC16 => m_dst a
  | EM => if a =? 5 then Some "P"%string else if a =? 6 then Some "[--P]"%string else if a =? 10 then Some "[A++]"%string else m_dst a
  end.

(** what may happen: an instruction, a display of the registers, a disassembly *)
Inductive ev := Step | Show (jk : Z) | Dis (jk a : Z).
Definition event (m : cpu) (e : ev) (s : st) : option st :=
  match e with Step => exec m s | Show jk => display m jk s | Dis jk a => look m jk a s end.
Fixpoint run (m : cpu) (l : list ev) (s : st) : option st :=
  match l with [] => Some s | e :: l => bind (event m e s) (run m l) end.
