(** Model of memory cells, chips and address spaces (src/core/sim.src/mem.cc).

    Data of chips is modelled at byte level because a cell accesses its slot by
    a pointer of its own size, whatever the element size of the chip is. Byte
    order is that of a little endian host. Cells of this model have no
    operators (callbacks, event breakpoints), see OpsModel for those. *)
From Verif Require Import Base.

(** A data pointer: object and byte offset in it. Object 0 is the global
    variable def_data (mem.cc:55), other objects are the arrays of chips. *)
Record loc := mkLoc { obj : Z; off : Z }.
Definition def_loc : loc := mkLoc 0 0.

(** Contents of all objects, byte by byte. *)
Definition store := Z -> Z -> Z.

Definition put (st : store) (o i v : Z) : store :=
  fun o' i' => if (o' =? o) && (i' =? i) then v else st o' i'.

(** *(u8_t* )p, *(u16_t* )p, *(u32_t* )p *)
Fixpoint load (st : store) (n : nat) (o i : Z) : Z :=
  match n with O => 0 | S k => st o i + 256 * load st k o (i + 1) end.
Fixpoint save (st : store) (n : nat) (o i v : Z) : store :=
  match n with O => st | S k => save (put st o i (v mod 256)) k o (i + 1) (v / 256) end.

(** memcl.h:316-330 cl_memory_cell without operators; the class of the cell
    follows from its width, see [nbytes]. *)
Record cell := mkCell { c_width : Z; c_mask : Z; c_ro : bool; c_nondec : bool; c_loc : loc }.

(** mem.cc:1579-1592 cell_template: cl_bit_cell8 for width 1, cl_cell8 up to 8,
    cl_cell16 up to 16, cl_cell32 otherwise: number of bytes accessed. *)
Definition nbytes (w : Z) : nat := if w <=? 8 then 1%nat else if w <=? 16 then 2%nat else 4%nat.

(** mem.cc:1108-1119 set_width: mask of 1 bits, as the loop computes it *)
Fixpoint mask_loop (w : nat) (m : Z) : Z :=
  match w with O => m | S k => mask_loop k (Z.lor (u32 (2 * m)) 1) end.
Definition width_mask (w : Z) : Z := mask_loop (Z.to_nat (w - 1)) 1.

Section Mem.
Variable alloc : Z -> Z.    (* allocated bytes of each object (alloc_size, sizeof def_data) *)

Definition inside (n : nat) (l : loc) : bool :=
  (0 <=? off l) && (off l + Z.of_nat n <=? alloc (obj l)).

(** mem.cc:908-1043 d(): cl_cell8, cl_bit_cell8, cl_cell16, cl_cell32 *)
Definition cell_get (st : store) (c : cell) : res Z :=
  let n := nbytes (c_width c) in
  if inside n (c_loc c) then
    let x := load st n (obj (c_loc c)) (off (c_loc c)) in
    Ok (if c_width c =? 1 then (if Z.land x (c_mask c) =? 0 then 0 else 1) else x)
  else UB.

(** mem.cc:915-1043 d(v), and dl(v) which does the same in each class *)
Definition cell_put (st : store) (c : cell) (v : Z) : res store :=
  let n := nbytes (c_width c) in
  let o := obj (c_loc c) in let i := off (c_loc c) in
  if inside n (c_loc c) then
    Ok (if c_width c =? 1 then
          let x := load st 1 o i in
          save st 1 o i (if v =? 0 then Z.land x (255 - u8 (c_mask c)) else Z.lor x (u8 (c_mask c)))
        else save st n o i v)
  else UB.

(** the value stored by write, set and download: masked unless the width is 1 *)
Definition stored (c : cell) (v : Z) : Z := if c_width c =? 1 then v else Z.land v (c_mask c).

(** mem.cc:1238-1257 cl_memory_cell::write, without operators *)
Definition cell_write (st : store) (c : cell) (v : Z) : res store :=
  if c_ro c then Ok st else cell_put st c (stored c v).
(** mem.cc:1259-1269 cl_memory_cell::set *)
Definition cell_set (st : store) (c : cell) (v : Z) : res store :=
  if c_ro c then Ok st else cell_put st c (stored c v).
(** mem.cc:1271-1279 cl_memory_cell::download *)
Definition cell_download (st : store) (c : cell) (v : Z) : res store :=
  cell_put st c (stored c v).

(** mem.cc:1543-1554 cl_address_space; [s_uc]: is the space owned by a
    microcontroller (see err_inv_addr) *)
Record space := mkSpace {
  s_start : Z; s_size : Z; s_width : Z; s_uc : bool; s_cells : Z -> cell }.

(** Test of each accessor: idx >= size || addr < start_address *)
Definition invalid (s : space) (a : Z) : bool :=
  (s_size s <=? u32 (a - s_start s)) || (a <? s_start s).
Definition the_cell (s : space) (a : Z) : cell := s_cells s (u32 (a - s_start s)).

(** State: stored data and the log of reported invalid addresses. *)
Record world := mkWorld { data : store; errs : list Z }.

(** mem.cc:192-199 err_inv_addr *)
Definition report (w : world) (s : space) (a : Z) : world :=
  if s_uc s then mkWorld (data w) (errs w ++ [a]) else w.

Definition upd_data (w : world) (r : res store) : res world :=
  d <- r ;; Ok (mkWorld d (errs w)).

(** mem.cc:1512-1538 cl_dummy_cell: data is def_data, set and write store a
    random number [rnd] masked to the width of the space *)
Definition dummy_put (st : store) (v : Z) : store := save st 4 0 0 v.
Definition dummy_write (st : store) (width rnd : Z) : store :=
  dummy_put st (Z.land rnd (width_mask width)).
(** cl_memory_cell::download on the dummy cell (width 1 is not masked) *)
Definition dummy_download (st : store) (width v : Z) : store :=
  dummy_put st (if width =? 1 then v else Z.land v (width_mask width)).

(** mem.cc:1606-1617 cl_address_space::read, 1632-1643 get: the same without operators *)
Definition read (w : world) (s : space) (a : Z) : res (Z * world) :=
  if invalid s a then Ok (load (data w) 4 0 0, report w s a)
  else v <- cell_get (data w) (the_cell s a) ;; Ok (v, w).

(** mem.cc:1645-1657 cl_address_space::write *)
Definition write (w : world) (s : space) (a v rnd : Z) : res world :=
  if invalid s a then
    let w' := report w s a in Ok (mkWorld (dummy_write (data w') (s_width s) rnd) (errs w'))
  else upd_data w (cell_write (data w) (the_cell s a) v).

(** mem.cc:1659-1671 cl_address_space::set *)
Definition set (w : world) (s : space) (a v rnd : Z) : res world :=
  if invalid s a then
    let w' := report w s a in Ok (mkWorld (dummy_write (data w') (s_width s) rnd) (errs w'))
  else upd_data w (cell_set (data w) (the_cell s a) v).

(** mem.cc:1673-1685 cl_address_space::download *)
Definition download (w : world) (s : space) (a v : Z) : res world :=
  if invalid s a then
    let w' := report w s a in Ok (mkWorld (dummy_download (data w') (s_width s) v) (errs w'))
  else upd_data w (cell_download (data w) (the_cell s a) v).

(** One access of a program or user, by number of the space. *)
Inductive access :=
| ARead (sp a : Z)
| AWrite (sp a v rnd : Z)
| ASet (sp a v rnd : Z)
| ADownload (sp a v : Z).

Definition do_access (spaces : Z -> space) (w : world) (x : access) : res world :=
  match x with
  | ARead sp a => r <- read w (spaces sp) a ;; Ok (snd r)
  | AWrite sp a v rnd => write w (spaces sp) a v rnd
  | ASet sp a v rnd => set w (spaces sp) a v rnd
  | ADownload sp a v => download w (spaces sp) a v
  end.

Fixpoint do_accesses (spaces : Z -> space) (w : world) (l : list access) : res world :=
  match l with
  | [] => Ok w
  | x :: t => w' <- do_access spaces w x ;; do_accesses spaces w' t
  end.

(** Values which reads return along a history of accesses. *)
Fixpoint read_values (spaces : Z -> space) (w : world) (l : list access) : list Z :=
  match l with
  | [] => []
  | x :: t =>
    match do_access spaces w x with
    | Ok w' =>
      match x with
      | ARead sp a => match read w (spaces sp) a with
                      | Ok (v, _) => v :: read_values spaces w' t
                      | _ => [] end
      | _ => read_values spaces w' t
      end
    | _ => []
    end
  end.
End Mem.

(** mem.cc:2113-2120 cl_memory_chip::get_slot as data pointer; chip number o,
    element size bw *)
Definition slot_loc (csize bw o ca : Z) : option loc :=
  if csize <=? ca then None else Some (mkLoc o (ca * bw)).

(* ---- address arithmetic of cl_memory ------------------------------------ *)

(** mem.cc:146-151 valid_address; the sum is u32 *)
Definition valid_address (start size a : Z) : bool := (start <=? a) && (a <? u32 (start + size)).

(** mem.cc:153-163 inc_address: int addition may overflow (UB) when the memory
    starts at 0; the result of int % u32 is unsigned; size 0 divides by zero *)
Definition inc_address (start size a v : Z) : res Z :=
  if size =? 0 then UB
  else if start =? 0 then
    let s := i32 a + v in
    if (s <? -2147483648) || (2147483647 <? s) then UB else Ok (u32 s mod size)
  else Ok (u32 (u32 (u32 (a - start) + v) mod size + start)).

(** mem.cc:177-189 validate_address; [n] bounds the while loop, UB stands for a
    loop that did not end within n rounds *)
Fixpoint validate_loop (n : nat) (start size a : Z) : res Z :=
  if a <? start then
    match n with O => UB | S k => validate_loop k start size (u32 (a + size)) end
  else Ok a.
Definition validate_address (n : nat) (start size a : Z) : res Z :=
  b <- validate_loop n start size a ;;
  if u32 (start + size) <? b then
    if size =? 0 then UB else Ok (u32 (u32 (b - start) mod size + start))
  else Ok b.
