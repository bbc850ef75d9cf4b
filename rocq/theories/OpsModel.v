(** Model of the operators of a memory cell: hardware callbacks and event
    breakpoints hooked on it (mem.cc). *)
From Verif Require Import Base.

Section Ops.
Variable H : Type.                              (* state of all hardware elements *)
(** behaviour of the virtual functions cl_hw::read(cell) and cl_hw::write(cell, &val)
    of hardware number [h]: they may change the state of the hardware and the
    content of the cell; result: hardware, content, value returned (written back) *)
Variable hw_read : Z -> H -> Z -> H * Z * Z.
Variable hw_write : Z -> H -> Z -> Z -> H * Z * Z.
Variable B : Type.                              (* state of all breakpoints, list of events *)
Variable bp_hit : Z -> B -> B.                  (* do_hit of breakpoint n, events->add *)
Variable enc : Z -> Z.                          (* val & mask (or the bit), mem.cc:1254-1257 *)
Variable ro : bool.                             (* CELL_READ_ONLY *)

(** The operator classes: cl_hw_operator, cl_read_operator, cl_write_operator.
    (The bank switcher is modelled in BankModel.) *)
Inductive oper := OHw (h : Z) | ORead (n : Z) | OWrite (n : Z).

(** [ops]: None is the NULL pointer, the array is a list (NULL terminated in C) *)
Record cell := mkCell { data : Z; ops : option (list oper); hwst : H; bps : B }.

(** mem.cc:817-832 cl_hw_operator::read, 900-908 cl_read_operator::read; the write
    break inherits mem.cc:767-773 cl_memory_operator::read *)
Definition oper_read (o : oper) (c : cell) : cell * Z :=
  match o with
  | OHw h => let '(h', d, v) := hw_read h (hwst c) (data c) in (mkCell d (ops c) h' (bps c), v)
  | ORead n => (mkCell (data c) (ops c) (hwst c) (bp_hit n (bps c)), data c)
  | OWrite n => (c, data c)
  end.

(** mem.cc:851-864 cl_hw_operator::write, 878-886 cl_write_operator::write; the read
    break inherits mem.cc:775-781 cl_memory_operator::write *)
Definition oper_write (o : oper) (c : cell) (v : Z) : cell * Z :=
  match o with
  | OHw h => let '(h', d, v') := hw_write h (hwst c) (data c) v in (mkCell d (ops c) h' (bps c), v')
  | ORead n => (c, v)
  | OWrite n => (mkCell (data c) (ops c) (hwst c) (bp_hit n (bps c)), v)
  end.

(** mem.cc:1203-1217 cl_memory_cell::read: [r] is the value of the last operator *)
Fixpoint read_loop (l : list oper) (c : cell) (r : Z) : cell * Z :=
  match l with
  | [] => (c, r)
  | o :: t => let '(c', r') := oper_read o c in read_loop t c' r'
  end.
Definition read (c : cell) : cell * Z :=
  match ops c with
  | Some (o :: t) => read_loop (o :: t) c 0
  | _ => (c, data c)
  end.

(** mem.cc:1241-1259 cl_memory_cell::write *)
Fixpoint write_loop (l : list oper) (c : cell) (v : Z) : cell * Z :=
  match l with
  | [] => (c, v)
  | o :: t => let '(c', v') := oper_write o c v in write_loop t c' v'
  end.
Definition write (c : cell) (v : Z) : cell * Z :=
  let '(c1, v1) := match ops c with Some l => write_loop l c v | None => (c, v) end in
  let c2 := if ro then c1 else mkCell (enc v1) (ops c1) (hwst c1) (bps c1) in
  (c2, data c2).

(** mem.cc:1294-1310 append_operator *)
Definition append (c : cell) (o : oper) : cell :=
  mkCell (data c) (Some (match ops c with Some l => l ++ [o] | None => [o] end)) (hwst c) (bps c).

(** memcl.h:281 match of the event operators; mem.cc:1350-1372 del_operator(brk): with
    no operators ops[0]= NULL writes through a NULL pointer *)
Definition is_brk (n : Z) (o : oper) : bool :=
  match o with ORead m | OWrite m => m =? n | OHw _ => false end.
Definition is_hw (h : Z) (o : oper) : bool := match o with OHw g => g =? h | _ => false end.
Definition del_oper (p : oper -> bool) (c : cell) : res cell :=
  match ops c with
  | None => UB
  | Some l =>
    let l' := filter (fun o => negb (p o)) l in
    Ok (mkCell (data c) (match l' with [] => None | _ => Some l' end) (hwst c) (bps c))
  end.

(** Accesses of the program and commands. *)
Inductive act :=
| Rd                 (* read by the program *)
| Wr (v : Z)         (* write by the program *)
| SetBrkR (n : Z)    (* mem.cc:1408-1435 cl_memory_cell::set_brk, read event *)
| SetBrkW (n : Z)    (* same, write event *)
| DelBrk (n : Z)     (* mem.cc:1437-1453 del_brk *)
| AddHw (h : Z)      (* mem.cc:1455-1461 add_hw *)
| RemHw (h : Z).     (* mem.cc:1463-1467 remove_hw *)

(** one action: new state and, for accesses, the value seen by the program *)
Definition step (c : cell) (a : act) : res (cell * option Z) :=
  match a with
  | Rd => let '(c', v) := read c in Ok (c', Some v)
  | Wr v => let '(c', w) := write c v in Ok (c', Some w)
  | SetBrkR n => Ok (append c (ORead n), None)
  | SetBrkW n => Ok (append c (OWrite n), None)
  | DelBrk n => c' <- del_oper (is_brk n) c ;; Ok (c', None)
  | AddHw h => Ok (append c (OHw h), None)
  | RemHw h => c' <- del_oper (is_hw h) c ;; Ok (c', None)
  end.
Fixpoint run (c : cell) (l : list act) : res (cell * list Z) :=
  match l with
  | [] => Ok (c, [])
  | a :: t =>
    r <- step c a ;;
    q <- run (fst r) t ;;
    Ok (fst q, match snd r with Some v => v :: snd q | None => snd q end)
  end.
End Ops.
Arguments mkCell {H B} _ _ _ _.
Arguments data {H B} _.
Arguments ops {H B} _.
Arguments hwst {H B} _.
Arguments bps {H B} _.
