(** Model of bit banders (src/core/sim.src/mem.cc) on top of MemModel. *)
From Verif Require Import Base MemModel.

(** mem.cc:1188-1203 cl_memory_cell::decode with data pointer and bit mask;
    None is the NULL pointer *)
Definition decode_bit (c : cell) (p : option loc) (m : Z) : cell :=
  match p with
  | None => mkCell (c_width c) m (c_ro c) true def_loc
  | Some l => mkCell (c_width c) m (c_ro c) false l
  end.

Definition set_cell (s : space) (i : Z) (c : cell) : space :=
  mkSpace (s_start s) (s_size s) (s_width s) (s_uc s)
    (fun j => if j =? i then c else s_cells s j).

(** mem.cc:2899-2923 cl_bander::activate: the loop, one round per cell of the
    window. [csize], [bw], [chip]: size, element size and number of the chip.
    Sums of addresses are u32; m is an int, shifted out of its range is UB. A
    window that leaves the space would decode the dummy cell of the space: the
    command (cmd_mem.cc:310-370) refuses such windows, so this case is UB
    here. *)
Fixpoint band_loop (n : nat) (csize bw chip bpc distance : Z) (asa ca b m : Z) (s : space) : res space :=
  match n with
  | O => Ok s
  | S k =>
    let '(ca, b, m) := if bpc <=? b then (u32 (ca + distance), 0, 1) else (ca, b, m) in
    if invalid s asa then UB
    else if 2147483648 <=? m then UB
    else
      let i := u32 (asa - s_start s) in
      let s' := set_cell s i (decode_bit (s_cells s i) (slot_loc csize bw chip ca) m) in
      band_loop k csize bw chip bpc distance (asa + 1) ca (b + 1) (2 * m) s'
  end.

(** the whole activation for the window [asb, ase] *)
Definition band (s : space) (asb ase csize bw chip cb bpc distance : Z) : res space :=
  band_loop (Z.to_nat (ase - asb + 1)) csize bw chip bpc distance asb cb 0 1 s.
