(** Specification vocabulary for address decoders. *)
From Verif Require Import Base DecModel.

(** decoder [d] covers address [a], and shows this location of its chip *)
Definition covered (d : dec) (a : Z) : Prop := ab d <= a <= ae d.
Definition shown (d : dec) (a : Z) : Z * Z := (dchip d, cb d + (a - ab d)).

Definition disjoint (d1 d2 : dec) : Prop := ae d1 < ab d2 \/ ae d2 < ab d1.

(** All windows of the list are pairwise disjoint and lie in the space. *)
Definition windows_ok (start size : Z) (st : dstate) : Prop :=
  (forall d, In d (decs st) -> start <= ab d <= ae d /\ ae d < start + size) /\
  (forall i j d1 d2, i <> j -> nth_error (decs st) i = Some d1 ->
     nth_error (decs st) j = Some d2 -> disjoint d1 d2).

(** The request's window is one longer than what is left of the chip. *)
Definition one_too_long (csize : Z -> Z) (r : req) : Prop :=
  r_end r - r_begin r = csize (r_chip r) - r_cbegin r.

(** Sane sizes: 32 bit addresses (see stypes.h), and the space ends below 2^32. *)
Definition sane (start size : Z) (csize : Z -> Z) : Prop :=
  0 <= start /\ 1 <= size /\ start + size < 4294967296 /\
  (forall c, 0 <= csize c < 4294967296).

(** Request parameters are 32 bit unsigned numbers. *)
Definition sane_req (r : req) : Prop :=
  0 <= r_begin r < 4294967296 /\ 0 <= r_end r < 4294967296 /\ 0 <= r_cbegin r < 4294967296.

(** Requests that the "memory create addressdecoder" command accepts. *)
Definition accepted (start size : Z) (csize : Z -> Z) (r : req) : Prop :=
  start <= r_begin r <= r_end r /\ r_end r < start + size /\
  r_cbegin r < csize (r_chip r) /\
  r_end r - r_begin r <= csize (r_chip r) - r_cbegin r.
