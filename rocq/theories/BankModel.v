(** Model of bank switchers (src/core/sim.src/mem.cc cl_banker). *)
From Verif Require Import Base MemModel.

Section Bank.
Variable asb ase : Z.          (* window of the banked space *)
Variable csize : Z -> Z.       (* size of chips *)
Variable mask : Z.             (* banker_mask *)

(** A banker with one selector register (the constructor with a second selector
    is not modelled): values of the selector cell, the bank table, the index
    of the bank that was activated, backing of the cells of the space. *)
Record bstate := mkB {
  sel : Z;                            (* selector cell *)
  banks : list (option (Z * Z));      (* chip, chip_begin of the decoder of each bank *)
  bank : Z;                           (* -1: none *)
  shift_by : Z;
  bmap : Z -> option (Z * Z) }.

(** mem.cc:2592-2614 init: the loops on m; [n] bounds the rounds *)
Fixpoint skip_zeros (n : nat) (m s : Z) : Z * Z :=
  match n with
  | O => (m, s)
  | S k => if Z.land m 1 =? 0 then skip_zeros k (m / 2) (s + 1) else (m, s)
  end.
Fixpoint count_ones (n : nat) (m b : Z) : Z :=
  match n with
  | O => b
  | S k => if negb (Z.land m 1 =? 0) then count_ones k (m / 2) (b + 1) else b
  end.
(** shift_by and nuof_banks *)
Definition geometry : Z * Z :=
  if mask =? 0 then (0, 0)
  else let '(m, s) := skip_zeros 32 mask 0 in
       (s, 2 ^ count_ones 32 (m / 2) 1).

(** mem.cc:2733-2750 actual_bank *)
Definition actual_bank (st : bstate) : Z := Z.shiftr (Z.land (sel st) mask) (shift_by st).

(** mem.cc:2113-2120 get_slot *)
Definition bslot (chip ca : Z) : option (Z * Z) :=
  if csize chip <=? ca then None else Some (chip, ca).

(** mem.cc:2752-2775 activate; the index is used without any check: out of the
    table (or a NULL table) is UB. The decoding loop is written as a function. *)
Definition activate (st : bstate) : res bstate :=
  let b := actual_bank st in
  if b =? bank st then Ok st
  else if b <? 0 then UB
  else match nth_error (banks st) (Z.to_nat b) with
  | None => UB
  | Some None => Ok st
  | Some (Some (chip, cb)) =>
    Ok (mkB (sel st) (banks st) b (shift_by st)
          (fun a => if (asb <=? a) && (a <=? ase) then bslot chip (u32 (cb + (a - asb))) else bmap st a))
  end.

(** mem.cc:787-796 cl_bank_switcher_operator::write then cl_memory_cell::write:
    a program writes [v] (already truncated to the width of the selector) *)
Definition write_sel (st : bstate) (v : Z) : res bstate :=
  activate (mkB v (banks st) (bank st) (shift_by st) (bmap st)).

(** mem.cc:2697-2731 add_bank. Replacing a bank deletes its decoder, the
    destructor of which (mem.cc:2312-2318) undecodes the whole window. *)
Definition add_bank (st : bstate) (nr chip cb : Z) : res bstate :=
  if Z.of_nat (length (banks st)) <=? nr then Ok st
  else if nr <? 0 then UB
  else
    let n := Z.to_nat nr in
    let m := match nth_error (banks st) n with
             | Some (Some _) => fun a => if (asb <=? a) && (a <=? ase) then None else bmap st a
             | _ => bmap st
             end in
    activate (mkB (sel st) (upd (banks st) n (Some (chip, cb))) (bank st) (shift_by st) m).

(** cmd_mem.cc:292-303 (memory create banker): constructor, init, undecode the
    window, activate; [v0] is the value in the selector, [m] the map before *)
Definition create_banker (v0 : Z) (m : Z -> option (Z * Z)) : res bstate :=
  let '(s, n) := geometry in
  activate (mkB v0 (repeat None (Z.to_nat n)) (-1) s
                (fun a => if (asb <=? a) && (a <=? ase) then None else m a)).

Inductive bop := WriteSel (v : Z) | AddBank (nr chip cb : Z).
Definition do_bop (st : bstate) (x : bop) : res bstate :=
  match x with WriteSel v => write_sel st v | AddBank nr chip cb => add_bank st nr chip cb end.
Fixpoint do_bops (st : bstate) (l : list bop) : res bstate :=
  match l with [] => Ok st | x :: t => st' <- do_bop st x ;; do_bops st' t end.
End Bank.
