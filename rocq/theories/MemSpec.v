(** Vocabulary of C01, C02, C03, C08. *)
From Verif Require Import Base MemModel.

(** What a cell of width [w] can hold of [v]: the low w bits; a one bit cell
    holds whether v is zero or not. *)
Definition trunc (w v : Z) : Z := if w =? 1 then (if v =? 0 then 0 else 1) else v mod 2 ^ w.

(** Address range of a space, without wrap-around. *)
Definition in_range (s : space) (a : Z) : Prop := s_start s <= a < s_start s + s_size s.

(** Spaces as the simulator can configure them: they fit into 32 bit addresses. *)
Definition space_ok (s : space) : Prop :=
  0 <= s_start s /\ 0 <= s_size s /\ s_start s + s_size s <= 2 ^ 32 /\ 1 <= s_width s <= 32.

(** [ebytes o]: element size of chip [o]. A cell either is not decoded (object
    0) or refers to an element of a chip which has the size of the cell. *)
Definition cell_ok (alloc : Z -> Z) (ebytes : Z -> nat) (c : cell) : Prop :=
  1 <= c_width c <= 32 /\
  (if c_width c =? 1 then exists b, 0 <= b < 8 /\ c_mask c = 2 ^ b
   else c_mask c = 2 ^ c_width c - 1) /\
  0 <= off (c_loc c) /\ off (c_loc c) + Z.of_nat (nbytes (c_width c)) <= alloc (obj (c_loc c)) /\
  (obj (c_loc c) = 0 -> off (c_loc c) = 0) /\
  (obj (c_loc c) <> 0 -> nbytes (c_width c) = ebytes (obj (c_loc c)) /\
                         off (c_loc c) mod Z.of_nat (ebytes (obj (c_loc c))) = 0).

Definition config_ok (alloc : Z -> Z) (ebytes : Z -> nat) (spaces : Z -> space) : Prop :=
  forall sp, space_ok (spaces sp) /\
    forall a, in_range (spaces sp) a -> cell_ok alloc ebytes (s_cells (spaces sp) (a - s_start (spaces sp))).

(** every stored byte is a byte *)
Definition bytes_ok (w : world) : Prop := forall o i, 0 <= data w o i < 256.

(** The cell of an address, and what it is: decoded, read-only, one bit. *)
Definition cell_of (s : space) (a : Z) : cell := s_cells s (a - s_start s).
Definition place (s : space) (a : Z) : loc := c_loc (cell_of s a).
Definition decoded (s : space) (a : Z) : Prop := obj (place s a) <> 0.
Definition read_only (s : space) (a : Z) : Prop := c_ro (cell_of s a) = true.
Definition one_bit (s : space) (a : Z) : Prop := c_width (cell_of s a) = 1.

(** Two addresses stand for the same storage: same location, and both are
    whole elements, or both are the same bit. *)
Definition same_storage (s : space) (a : Z) (s' : space) (a' : Z) : Prop :=
  place s a = place s' a' /\
  ((~ one_bit s a /\ ~ one_bit s' a') \/
   (one_bit s a /\ one_bit s' a' /\ c_mask (cell_of s a) = c_mask (cell_of s' a'))).

(** Two addresses do not share any storage. *)
Definition elsewhere (s : space) (a : Z) (s' : space) (a' : Z) : Prop :=
  place s a <> place s' a' \/
  (one_bit s a /\ one_bit s' a' /\ c_mask (cell_of s a) <> c_mask (cell_of s' a')).

(** value returned by a read *)
Definition value_at (alloc : Z -> Z) (w : world) (s : space) (a v : Z) : Prop :=
  exists w', read alloc w s a = Ok (v, w').

(** Does an access store something to the storage of address [a] of space [s]? *)
Definition may_touch (spaces : Z -> space) (s : space) (a : Z) (x : access) : Prop :=
  let hits sp b := in_range (spaces sp) b /\ ~ elsewhere (spaces sp) b s a in
  match x with
  | ARead _ _ => False
  | AWrite sp b _ _ | ASet sp b _ _ | ADownload sp b _ => hits sp b
  end.

(** addresses are 32 bit values *)
Definition acc_addr (x : access) : Z :=
  match x with ARead _ b | AWrite _ b _ _ | ASet _ b _ _ | ADownload _ b _ => b end.
Definition acc_space (x : access) : Z :=
  match x with ARead sp _ | AWrite sp _ _ _ | ASet sp _ _ _ | ADownload sp _ _ => sp end.
