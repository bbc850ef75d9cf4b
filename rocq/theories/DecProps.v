(** C04, C05: address decoders. *)
From Verif Require Import Base DecModel DecSpec DecProofs.

(** C04. In any state reached by any history of decoder creations, a decoder
    whose request is accepted maps each address of its window to chip location
    chip_begin + (address - begin), and no other address changes its backing.
    The requests excluded are those which are one longer than the chip, see
    the refutation below. *)
Theorem C04_activated_window :
  forall start size csize pos rs st r,
  sane start size csize -> Forall sane_req rs ->
  create_all start size csize pos init_state rs = Ok st ->
  sane_req r -> accepted start size csize r -> ~ one_too_long csize r ->
  exists st', create start size csize pos st r = Ok st' /\
    (forall a, r_begin r <= a <= r_end r -> map st' a = Some (r_chip r, r_cbegin r + (a - r_begin r))) /\
    (forall a, ~ (r_begin r <= a <= r_end r) -> map st' a = map st a).
Proof. exact activate_window_fit. Qed.
Print Assumptions C04_activated_window.

(** What the code does for every accepted request, the too long ones included:
    an address whose location would be past the end of the chip gets no backing. *)
Theorem C04_activated_window_exact :
  forall start size csize pos rs st r,
  sane start size csize -> Forall sane_req rs ->
  create_all start size csize pos init_state rs = Ok st ->
  sane_req r -> accepted start size csize r ->
  exists st', create start size csize pos st r = Ok st' /\
    (forall a, r_begin r <= a <= r_end r ->
       map st' a = let l := r_cbegin r + (a - r_begin r) in
                   if l <? csize (r_chip r) then Some (r_chip r, l) else None) /\
    (forall a, ~ (r_begin r <= a <= r_end r) -> map st' a = map st a).
Proof. exact activate_window. Qed.
Print Assumptions C04_activated_window_exact.

Definition sorted_pos (l : list dec) (d : dec) : nat := length (filter (fun x => ab x <? ab d) l).

(** C04 at full strength is false: a window of 17 addresses is accepted for a
    chip of 16 cells, and its last address stays without backing. *)
Theorem C04_activated_window_deviation :
  exists start size csize r st', sane start size csize /\ sane_req r /\
    accepted start size csize r /\
    create start size csize sorted_pos init_state r = Ok st' /\
    r_begin r <= r_end r <= r_end r /\ map st' (r_end r) = None.
Proof.
  exists 0, 32, (fun _ => 16), (mkReq 0 16 1 0).
  eexists. split; [unfold sane; repeat split; lia|].
  split; [unfold sane_req; cbn; lia|]. split; [unfold accepted; cbn; lia|].
  split; [vm_compute; reflexivity|]. split; [cbn; lia|]. reflexivity.
Qed.
Print Assumptions C04_activated_window_deviation.

(** C05. After any history of decoder creations (overlapping ones remove, split
    or shrink earlier ones) the windows are disjoint, an address under a decoder
    is backed by the location which that decoder shows, and an address which
    is under no decoder is not backed. *)
Theorem C05_decoders_match_mapping :
  forall start size csize pos rs,
  sane start size csize -> Forall sane_req rs -> Forall (fun r => ~ one_too_long csize r) rs ->
  exists st, create_all start size csize pos init_state rs = Ok st /\ windows_ok start size st /\
    (forall d a, In d (decs st) -> covered d a -> map st a = Some (shown d a)) /\
    (forall a, (forall d, In d (decs st) -> ~ covered d a) -> map st a = None).
Proof. exact dec_history_fit. Qed.
Print Assumptions C05_decoders_match_mapping.

Theorem C05_decoders_match_mapping_exact :
  forall start size csize pos rs,
  sane start size csize -> Forall sane_req rs ->
  exists st, create_all start size csize pos init_state rs = Ok st /\ windows_ok start size st /\
    (forall d a, In d (decs st) -> covered d a ->
       map st a = if snd (shown d a) <? csize (fst (shown d a)) then Some (shown d a) else None) /\
    (forall a, (forall d, In d (decs st) -> ~ covered d a) -> map st a = None).
Proof. exact dec_history. Qed.
Print Assumptions C05_decoders_match_mapping_exact.

(** A history with a removal, a split and a shrink; 4 decoders remain. *)
Example C05_nonvacuous :
  let csize := fun _ : Z => 256 in
  let rs := [mkReq 0 99 1 0; mkReq 120 129 1 100; mkReq 40 49 2 7; mkReq 90 130 3 1] in
  sane 0 256 csize /\ Forall sane_req rs /\ Forall (fun r => ~ one_too_long csize r) rs /\
  match create_all 0 256 csize sorted_pos init_state rs with
  | Ok st => List.map (fun d => (ab d, ae d, dchip d, cb d)) (decs st) =
     [(0, 39, 1, 0); (40, 49, 2, 7); (50, 89, 1, 50); (90, 130, 3, 1)] /\ map st 60 = Some (1, 60)
  | _ => False end.
Proof.
  cbv zeta. split; [unfold sane; repeat split; lia|].
  split; [repeat constructor; cbn; lia|]. split; [repeat constructor; unfold one_too_long; cbn; lia|].
  vm_compute. split; reflexivity.
Qed.

(** C05 at full strength is false for a space that ends exactly at 2^32: the
    command accepts and lists the decoder, but its activation is refused, so
    that a listed decoder covers an address without backing. *)
Theorem C05_top_of_memory_deviation :
  exists start size csize r st d, 0 <= start /\ 1 <= size /\ start + size = 4294967296 /\
    sane_req r /\ accepted start size csize r /\ ~ one_too_long csize r /\
    create start size csize sorted_pos init_state r = Ok st /\
    In d (decs st) /\ covered d (r_begin r) /\ map st (r_begin r) = None.
Proof.
  exists 4294901760, 65536, (fun _ => 65536), (mkReq 4294901760 4294901775 1 0).
  eexists. eexists. split; [lia|]. split; [lia|]. split; [lia|].
  split; [unfold sane_req; cbn; lia|]. split; [unfold accepted; cbn; lia|].
  split; [unfold one_too_long; cbn; lia|].
  split; [vm_compute; reflexivity|]. cbn [decs].
  split; [left; reflexivity|]. split; [unfold covered; cbn; lia|]. reflexivity.
Qed.
Print Assumptions C05_top_of_memory_deviation.
