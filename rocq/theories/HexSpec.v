(** Vocabulary of C09 - C13: Intel hex and S-record files. *)
From Verif Require Import Base HexModel.

(** A record of an Intel hex file. *)
Record hrec := mkRec { r_addr : Z; r_type : Z; r_data : list Z; r_chk : Z }.

Definition rec_ok (r : hrec) : Prop :=
  0 <= r_addr r < 65536 /\ 0 <= r_type r < 256 /\ (length (r_data r) < 256)%nat /\
  Forall (fun b => 0 <= b < 256) (r_data r) /\ 0 <= r_chk r < 256.

(** All bytes of a record: length, address (big endian), type, data, checksum. *)
Definition rec_bytes (r : hrec) : list Z :=
  [Z.of_nat (length (r_data r)); r_addr r / 256; r_addr r mod 256; r_type r] ++ r_data r ++ [r_chk r].

(** The checksum is right if all the bytes add up to 0 modulo 256. *)
Definition rec_good (r : hrec) : bool := sum_list (rec_bytes r) mod 256 =? 0.

(** Text of bytes: two hex digits (any case) for each byte. *)
Inductive hex_text : list Z -> list Z -> Prop :=
| ht_nil : hex_text [] []
| ht_cons c1 c2 d1 d2 bs t :
    hexval c1 = Some d1 -> hexval c2 = Some d2 -> hex_text bs t ->
    hex_text (16 * d1 + d2 :: bs) (c1 :: c2 :: t).

(** Text of a file: records start with ':', anything but ':' between them. *)
Inductive hex_file : list hrec -> list Z -> Prop :=
| hf_end junk : ~ In 58 junk -> hex_file [] junk
| hf_rec junk r txt rs rest :
    ~ In 58 junk -> hex_text (rec_bytes r) txt -> hex_file rs rest ->
    hex_file (r :: rs) (junk ++ 58 :: txt ++ rest).

(** Consecutive cells. *)
Fixpoint cells (a : Z) (l : list Z) : list (Z * Z) :=
  match l with [] => [] | v :: t => (a mod 2 ^ 32, v) :: cells (a + 1) t end.

(** Meaning of a file for a byte memory: what is stored, in order. Records with
    wrong checksum do not count at all. *)
Fixpoint meaning (base : Z) (rs : list hrec) : list (Z * Z) :=
  match rs with
  | [] => []
  | r :: t =>
    if negb (rec_good r) then meaning base t
    else if r_type r =? 1 then []
    else if r_type r =? 0 then cells (base + r_addr r) (r_data r) ++ meaning base t
    else if r_type r =? 4 then
      match r_data r with
      | x :: y :: _ => meaning (65536 * (256 * x + y)) t     (* extended address *)
      | _ => meaning base t
      end
    else meaning base t
  end.

(** Records before the first one of type 1, whether that is correct or not. *)
Fixpoint until_end (rs : list hrec) : list hrec :=
  match rs with [] => [] | r :: t => if r_type r =? 1 then [] else r :: until_end t end.

(** Little endian words of [n] bytes each. *)
Fixpoint le (l : list Z) : Z := match l with [] => 0 | b :: t => b + 256 * le t end.
Fixpoint words (n k : nat) (l : list Z) : list Z :=
  match k with O => [] | S k' => le (firstn n l) :: words n k' (skipn n l) end.

(** Meaning of a file for a memory with words of [n] bytes. *)
Fixpoint meaning_w (n : nat) (base : Z) (rs : list hrec) : list (Z * Z) :=
  match rs with
  | [] => []
  | r :: t =>
    if negb (rec_good r) then meaning_w n base t
    else if r_type r =? 1 then []
    else if r_type r =? 0 then
      cells (base + r_addr r / Z.of_nat n) (words n (length (r_data r) / n) (r_data r)) ++ meaning_w n base t
    else if r_type r =? 4 then
      match r_data r with
      | x :: y :: _ => meaning_w n (65536 * (256 * x + y)) t
      | _ => meaning_w n base t
      end
    else meaning_w n base t
  end.

(** A memory after some stores. *)
Fixpoint stored (m : Z -> Z) (l : list (Z * Z)) : Z -> Z :=
  match l with [] => m | (a, v) :: t => stored (fun i => if i =? a then v else m i) t end.

(** An S-record line: type digit '1', '2' or '3', address of 2, 3 or 4 bytes. *)
Fixpoint be_bytes (n : nat) (v : Z) : list Z :=
  match n with O => [] | S k => (v / 256 ^ Z.of_nat k) mod 256 :: be_bytes k v end.
Definition srec_bytes (t a : Z) (data : list Z) : list Z :=
  let body := be_bytes (Z.to_nat (t + 1)) a ++ data in
  (Z.of_nat (length body) + 1) :: body.
(** checksum: one's complement of the sum *)
Definition srec_chk (t a : Z) (data : list Z) : Z := 255 - sum_list (srec_bytes t a data) mod 256.
