(** Model of address decoders (src/core/sim.src/mem.cc): the decoder list of one
    address space and the backing of its cells. *)
From Verif Require Import Base ListSpec.

(** memcl.h class cl_address_decoder; [did] is the identity (pointer) of the object. *)
Record dec := mkDec {
  did : Z; ab : Z; ae : Z; dchip : Z; cb : Z; activated : bool }.

(** The decode map: address -> chip location that the data pointer of the cell
    points to; None stands for the shared default (cell is not decoded). *)
Definition dmap := Z -> option (Z * Z).

Record dstate := mkSt { map : dmap; decs : list dec }.

Section Dec.
Variable start size : Z.         (* start_address and size of the address space *)
Variable csize : Z -> Z.         (* size of each chip *)
(** Position where cl_sorted_list::add puts a decoder. The theorems hold for
    every such function; the code uses binary search by as_begin (see C15). *)
Variable pos : list dec -> dec -> nat.

(** mem.cc:2113-2120 cl_memory_chip::get_slot: NULL past the end of the chip *)
Definition slot (chip ca : Z) : option (Z * Z) :=
  if csize chip <=? ca then None else Some (chip, ca).

(** test of all cell accessors: idx= addr-start_address; idx >= size || addr < start_address *)
Definition in_space (a : Z) : bool :=
  negb ((size <=? u32 (a - start)) || (a <? start)).

Definition set_map (m : dmap) (a : Z) (v : option (Z * Z)) : dmap :=
  fun x => if x =? a then v else m x.

(** mem.cc:1810-1828 cl_address_space::decode_cell *)
Definition decode_cell (m : dmap) (a chip ca : Z) : dmap :=
  if in_space a then set_map m a (slot chip ca) else m.

(** mem.cc:1830-1840 cl_address_space::undecode_cell *)
Definition undecode_cell (m : dmap) (a : Z) : dmap :=
  if in_space a then set_map m a None else m.

(** The loops "for (a= b; a <= e; a++)" as recursion on the number of rounds. *)
Fixpoint undecode_loop (n : nat) (a : Z) (m : dmap) : dmap :=
  match n with O => m | S k => undecode_loop k (a + 1) (undecode_cell m a) end.
Definition undecode_range (b e : Z) (m : dmap) : dmap := undecode_loop (Z.to_nat (e - b + 1)) b m.

(** mem.cc:2328-2390 activate: the decoding loop *)
Fixpoint decode_loop (n : nat) (a ca chip : Z) (m : dmap) : dmap :=
  match n with O => m | S k => decode_loop k (a + 1) (ca + 1) chip (decode_cell m a chip ca) end.

(** mem.cc:2400-2407 cl_address_decoder::fully_covered_by *)
Definition fully_covered_by (d : dec) (b e : Z) : bool := (b <=? ab d) && (ae d <=? e).
(** mem.cc:2441-2448 cl_address_decoder::covers *)
Definition covers (d : dec) (b e : Z) : bool := (ab d <=? b) && (e <=? ae d).
(** mem.cc:2421-2431 cl_address_decoder::is_in *)
Definition is_in (d : dec) (b e : Z) : bool :=
  ((ab d <=? b) && (b <=? ae d)) || ((ab d <=? e) && (e <=? ae d)).

(** mem.cc:2453-2477 cl_address_decoder::shrink_out_of: the shrunken decoder,
    the new map and the result ("the decoder is unnecessary"). *)
Definition shrink_out_of (d : dec) (b e : Z) (m : dmap) : dec * dmap * bool :=
  let a := if ab d <? b then b else ab d in
  let m' := undecode_range a (Z.min e (ae d)) m in
  let ae' := if ab d <? b then b - 1 else ae d in
  let '(ab', cb') := if e <? ae' then (e + 1, cb d + (e - ab d + 1)) else (ab d, cb d) in
  (mkDec (did d) ab' ae' (dchip d) cb' (activated d), m', ae' <? ab').

(** mem.cc:2480-2501 cl_address_decoder::split; [nid] is the identity of the
    decoder object that it creates. *)
Definition split (d : dec) (b e nid : Z) (m : dmap) : dec * dmap * option dec :=
  if ab d <? b then
    let nd := if e <? ae d
              then Some (mkDec nid (e + 1) (ae d) (dchip d) (cb d + (e - ab d) + 1) false)
              else None in
    let '(d', m', _) := shrink_out_of d b (ae d) m in (d', m', nd)
  else if e <? ae d then
    let nd := if ab d <? b
              then Some (mkDec nid (ab d) (b - 1) (dchip d) (cb d) false)
              else None in
    let '(d', m', _) := shrink_out_of d (ab d) e m in (d', m', nd)
  else (d, m, None).

Definition add_dec (l : list dec) (d : dec) : list dec := insert_at _ l (pos l d) d.

(** a fresh object identity *)
Fixpoint fresh (l : list dec) : Z :=
  match l with [] => 0 | d :: t => Z.max (did d + 1) (fresh t) end.

(** mark an object as activated *)
Definition set_act (l : list dec) (i : Z) : list dec :=
  List.map (fun d => if did d =? i then mkDec (did d) (ab d) (ae d) (dchip d) (cb d) true else d) l.

(** mem.cc:1842-1909 cl_address_space::undecode_area, the for loop; [act] is the
    function that activates the decoder made by a split; [n] bounds the number
    of iterations, running out of it is reported as UB. *)
Fixpoint ua_loop (act : dec -> dstate -> res dstate) (n : nat) (skip b e : Z) (i : nat)
  (st : dstate) : res dstate :=
  match nth_error (decs st) i with
  | None => Ok st
  | Some d =>
    match n with
    | O => UB
    | S n' =>
      if did d =? skip then ua_loop act n' skip b e (S i) st
      else if fully_covered_by d b e then
        (* disconn, i--, delete: the destructor undecodes the window *)
        let st' := mkSt (undecode_range (ab d) (ae d) (map st)) (remove_at _ (decs st) i) in
        if Nat.eqb (length (decs st')) 0 then Ok st' else ua_loop act n' skip b e i st'
      else if covers d b e then
        let '(d', m', nd) := split d b e (fresh (decs st)) (map st) in
        let st' := mkSt m' (upd (decs st) i d') in
        match nd with
        | None => ua_loop act n' skip b e (S i) st'
        | Some x =>
          let st2 := mkSt (map st') (add_dec (decs st') x) in
          st3 <- act x st2 ;; ua_loop act n' skip b e (S i) st3
        end
      else if is_in d b e then
        let '(d', m', unnec) := shrink_out_of d b e (map st) in
        if unnec then
          let st' := mkSt (undecode_range (ab d') (ae d') m') (remove_at _ (decs st) i) in
          if Nat.eqb (length (decs st')) 0 then Ok st' else ua_loop act n' skip b e i st'
        else ua_loop act n' skip b e (S i) (mkSt m' (upd (decs st) i d'))
      else ua_loop act n' skip b e (S i) st
    end
  end.

(** mem.cc:2328-2395 cl_address_decoder::activate of a decoder which is in the
    list and is not activated yet; [depth] bounds the recursion via split
    (exceeding it is reported as UB). Subtractions and the sum are u32. *)
Fixpoint activate (depth : nat) (d : dec) (st : dstate) : res dstate :=
  match depth with
  | O => UB
  | S k =>
    if (ae d <? ab d) || (csize (dchip d) <=? cb d) ||
       (ab d <? start) || (u32 (start + size) <=? ae d) ||
       (u32 (csize (dchip d) - cb d) <? u32 (ae d - ab d))
    then Ok st
    else
      st1 <- ua_loop (activate k) (2 * length (decs st) + 4) (did d) (ab d) (ae d) 0 st ;;
      Ok (mkSt (decode_loop (Z.to_nat (ae d - ab d + 1)) (ab d) (cb d) (dchip d) (map st1))
               (set_act (decs st1) (did d)))
  end.

(** cmd_mem.cc:230-246 "memory create addressdecoder as begin end chip cbegin"
    with the checks of the command; highest_valid_address is start+size-1. *)
Record req := mkReq { r_begin : Z; r_end : Z; r_chip : Z; r_cbegin : Z }.
Definition create (st : dstate) (r : req) : res dstate :=
  if (r_end r <? r_begin r) || (csize (r_chip r) <=? r_cbegin r) ||
     (r_begin r <? start) || (u32 (start + size - 1) <? r_end r) ||
     (u32 (csize (r_chip r) - r_cbegin r) <? u32 (r_end r - r_begin r))
  then Ok st
  else
    let d := mkDec (fresh (decs st)) (r_begin r) (r_end r) (r_chip r) (r_cbegin r) false in
    activate 2 d (mkSt (map st) (add_dec (decs st) d)).

Fixpoint create_all (st : dstate) (rs : list req) : res dstate :=
  match rs with
  | [] => Ok st
  | r :: t => st' <- create st r ;; create_all st' t
  end.

(** A new address space: no decoder, no cell is decoded. *)
Definition init_state : dstate := mkSt (fun _ => None) [].
End Dec.
