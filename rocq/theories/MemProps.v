(** C01, C02, C03, C08: memory cells, address spaces, address arithmetic. *)
From Verif Require Import Base MemModel MemSpec MemProofs.

(** C01. After a write to a decoded writable address, however many accesses
    follow that do not store to the same place, every address standing for the
    same storage (the written one included) reads as the truncated value. *)
Theorem C01_written_value_is_read :
  forall alloc ebytes spaces, config_ok alloc ebytes spaces ->
  forall w sp a v rnd l, bytes_ok w -> 0 <= a < 2^32 ->
  in_range (spaces sp) a -> decoded (spaces sp) a -> ~ read_only (spaces sp) a ->
  Forall (fun x => 0 <= acc_addr x < 2^32) l ->
  Forall (fun x => ~ may_touch spaces (spaces sp) a x) l ->
  exists w', do_accesses alloc spaces w (AWrite sp a v rnd :: l) = Ok w' /\
  forall sp' a', in_range (spaces sp') a' -> same_storage (spaces sp) a (spaces sp') a' ->
     read alloc w' (spaces sp') a' = Ok (trunc (c_width (cell_of (spaces sp) a)) v, w').
Proof. intros. eapply last_write; eauto. Qed.
Print Assumptions C01_written_value_is_read.

(** C01, second half: any history of accesses that does not store to the place
    of an address leaves the value of that address as it was. *)
Theorem C01_other_addresses_keep_value :
  forall alloc ebytes spaces, config_ok alloc ebytes spaces ->
  forall w sp a l, bytes_ok w ->
  in_range (spaces sp) a -> decoded (spaces sp) a ->
  Forall (fun x => 0 <= acc_addr x < 2^32) l ->
  Forall (fun x => ~ may_touch spaces (spaces sp) a x) l ->
  exists v w', do_accesses alloc spaces w l = Ok w' /\
   read alloc w (spaces sp) a = Ok (v, w) /\ read alloc w' (spaces sp) a = Ok (v, w').
Proof. intros. eapply untouched; eauto. Qed.
Print Assumptions C01_other_addresses_keep_value.

(** A configuration: space 0 is 8 bit wide, 0x100..0x1ff, of which 0x100..0x10f
    and its mirror 0x110..0x11f show chip 1 and 0x120 is a read-only cell of
    the chip; space 1 is a bit space on the first byte of the chip. *)
Definition ex_alloc (o : Z) : Z := if o =? 0 then 4 else 64.
Definition ex_cell (i : Z) : cell :=
  if i <? 32 then mkCell 8 255 false false (mkLoc 1 (i mod 16))
  else if i =? 32 then mkCell 8 255 true false (mkLoc 1 20)
  else mkCell 8 255 false true def_loc.
Definition ex_spaces (sp : Z) : space :=
  if sp =? 0 then mkSpace 256 256 8 true ex_cell
  else mkSpace 0 8 1 true (fun i => mkCell 1 (2 ^ i) false false (mkLoc 1 0)).
Definition ex_world : world := mkWorld (fun _ i => i mod 256) [].

Lemma ex_ok : config_ok ex_alloc (fun _ => 1%nat) ex_spaces.
Proof.
  intros sp. unfold ex_spaces. destruct (sp =? 0); cbn.
  - split; [unfold space_ok; cbn; lia|]. unfold in_range; cbn. intros a Ha.
    unfold cell_ok, ex_cell, ex_alloc. destruct (a - 256 <? 32) eqn:?; [|destruct (a - 256 =? 32) eqn:?];
    cbn [c_width c_mask c_loc obj off nbytes]; repeat split; cbn; try lia; discriminate || (intros; lia).
  - split; [unfold space_ok; cbn; lia|]. unfold in_range; cbn. intros a Ha.
    unfold cell_ok, ex_alloc. cbn [c_width c_mask c_loc obj off]. rewrite Z.sub_0_r.
    repeat split; cbn; try lia; try discriminate. exists a. split; [lia|reflexivity].
Qed.

Lemma ex_bytes : bytes_ok ex_world.
Proof. intros o i. cbn. lia. Qed.

(** writing 0x1ab to 0x103, followed by other stores; the mirror shows 0xab;
    a bit of location 0 set through the bit space is seen as byte value *)
Example C01_nonvacuous :
  let l := [AWrite 0 256 5 0; ASet 0 261 7 0; AWrite 1 5 1 0; AWrite 0 17 9 77] in
  Forall (fun x => ~ may_touch ex_spaces (ex_spaces 0) 259 x) l /\
  exists w', do_accesses ex_alloc ex_spaces ex_world (AWrite 0 259 427 0 :: l) = Ok w' /\
    read ex_alloc w' (ex_spaces 0) 275 = Ok (171, w') /\
    read ex_alloc w' (ex_spaces 0) 256 = Ok (37, w').
Proof.
  cbv zeta. split.
  - repeat constructor; unfold may_touch, elsewhere, place, cell_of, in_range; cbn; intros [A B];
    try lia; try (apply B; left; congruence).
  - eexists. split; [reflexivity|]. vm_compute. split; reflexivity.
Qed.

(** C01, the link from the width of a space to the masks which [config_ok] asks
    for: the mask computed for a cell of [w] bits keeps exactly the low w bits. *)
Theorem C01_mask_is_low_bits : forall w v, 1 <= w <= 32 -> Z.land v (width_mask w) = v mod 2 ^ w.
Proof.
  intros w v H. replace (width_mask w) with (2 ^ w - 1); [apply land_mask_trunc; lia|].
  assert (H' : 0 <= w < Z.of_nat 33) by lia.
  apply (sweep1 (fun x => (x =? 0) || (2 ^ x - 1 =? width_mask x)) 33%nat) in H'; [|vm_compute; reflexivity].
  lia.
Qed.
Print Assumptions C01_mask_is_low_bits.
Example C01_mask_example : width_mask 12 = 4095.
Proof. vm_compute. reflexivity. Qed.

(** The size condition of [config_ok] cannot be dropped: the simulator lets a
    16 bit space be decoded on an 8 bit chip, and then a write to address 0
    changes the value at address 1, which is mapped on another location. *)
Theorem C01_mixed_width_deviation :
  exists alloc s w w' v v', 
    (forall i, 0 <= i < 16 -> slot_loc 16 1 1 i = Some (c_loc (s_cells s i))) /\
    place s 0 <> place s 1 /\
    write alloc w s 0 4660 0 = Ok w' /\
    read alloc w s 1 = Ok (v, w) /\ read alloc w' s 1 = Ok (v', w') /\ v <> v'.
Proof.
  exists (fun _ => 64), (mkSpace 0 16 16 true (fun i => mkCell 16 65535 false false (mkLoc 1 i))).
  exists (mkWorld (fun _ _ => 0) []). do 3 eexists.
  split. { intros i Hi. unfold slot_loc. destruct (16 <=? i) eqn:?; [lia|]. cbn. do 2 f_equal. lia. }
  split; [discriminate|]. split; [reflexivity|]. split; [reflexivity|]. split; [reflexivity|].
  vm_compute. discriminate.
Qed.
Print Assumptions C01_mixed_width_deviation.

(** C02. An access out of the address range of a space changes no chip, is
    reported, and leaves the value at every decoded address of every space. *)
Theorem C02_outside_access :
  forall alloc ebytes spaces, config_ok alloc ebytes spaces ->
  forall w x, bytes_ok w -> 0 <= acc_addr x < 2^32 ->
  ~ in_range (spaces (acc_space x)) (acc_addr x) -> s_uc (spaces (acc_space x)) = true ->
  exists w', do_access alloc spaces w x = Ok w' /\
    (forall o i, o <> 0 -> data w' o i = data w o i) /\
    errs w' = errs w ++ [acc_addr x] /\
    (forall sp a v, in_range (spaces sp) a -> decoded (spaces sp) a ->
       value_at alloc w (spaces sp) a v -> value_at alloc w' (spaces sp) a v).
Proof. intros. eapply outside; eauto. Qed.
Print Assumptions C02_outside_access.

Example C02_nonvacuous : ~ in_range (ex_spaces 0) 17 /\ s_uc (ex_spaces 0) = true /\
  exists w', do_access ex_alloc ex_spaces ex_world (AWrite 0 17 9 77) = Ok w' /\ errs w' = [17].
Proof. split; [unfold in_range; cbn; lia|]. split; [reflexivity|]. eexists. split; reflexivity. Qed.

(** C02 for addresses which are not decoded is false: they share one global
    variable with all accesses outside of any space. *)
Theorem C02_undecoded_deviation :
  exists alloc ebytes spaces w w' sp b v rnd a x,
  config_ok alloc ebytes spaces /\ bytes_ok w /\ 0 <= b < 2^32 /\
  ~ in_range (spaces sp) b /\ in_range (spaces sp) a /\
  write alloc w (spaces sp) b v rnd = Ok w' /\
  value_at alloc w (spaces sp) a x /\ ~ value_at alloc w' (spaces sp) a x.
Proof.
  exists ex_alloc, (fun _ => 1%nat), ex_spaces, ex_world. eexists.
  exists 0, 17, 9, 77, 500, 0. split; [exact ex_ok|]. split; [exact ex_bytes|].
  split; [lia|]. split; [unfold in_range; cbn; lia|]. split; [unfold in_range; cbn; lia|].
  split; [reflexivity|]. split; [eexists; reflexivity|].
  intros [w' H]. vm_compute in H. discriminate.
Qed.
Print Assumptions C02_undecoded_deviation.

(** C03. A read-only cell keeps its value through any history of writes and
    sets to it, mixed with any accesses that do not store to its storage. *)
Theorem C03_read_only_is_immutable :
  forall alloc ebytes spaces, config_ok alloc ebytes spaces ->
  forall w sp a v l, bytes_ok w -> in_range (spaces sp) a ->
  decoded (spaces sp) a -> read_only (spaces sp) a ->
  Forall (fun x => 0 <= acc_addr x < 2^32) l ->
  Forall (fun x => (exists y rnd, x = AWrite sp a y rnd \/ x = ASet sp a y rnd) \/
                   ~ may_touch spaces (spaces sp) a x) l ->
  read alloc w (spaces sp) a = Ok (v, w) ->
  exists w', do_accesses alloc spaces w l = Ok w' /\ read alloc w' (spaces sp) a = Ok (v, w').
Proof. intros. eapply ro_history; eauto. Qed.
Print Assumptions C03_read_only_is_immutable.

(** ... and loading a file into it stores the value. *)
Theorem C03_download_changes_read_only :
  forall alloc ebytes spaces, config_ok alloc ebytes spaces ->
  forall w sp a v, bytes_ok w -> in_range (spaces sp) a ->
  exists w', download alloc w (spaces sp) a v = Ok w' /\
    read alloc w' (spaces sp) a = Ok (trunc (c_width (cell_of (spaces sp) a)) v, w').
Proof. intros. eapply ro_download; eauto. Qed.
Print Assumptions C03_download_changes_read_only.

Example C03_nonvacuous : in_range (ex_spaces 0) 288 /\ decoded (ex_spaces 0) 288 /\
  read_only (ex_spaces 0) 288 /\
  exists w', do_accesses ex_alloc ex_spaces ex_world [AWrite 0 288 9 0; ASet 0 288 8 0; ADownload 0 288 7] = Ok w'
    /\ read ex_alloc w' (ex_spaces 0) 288 = Ok (7, w').
Proof.
  split; [unfold in_range; cbn; lia|]. split; [discriminate|]. split; [reflexivity|].
  eexists. split; reflexivity.
Qed.

(** C08. The result of inc_address is always an address of the memory. *)
Theorem C08_inc_address_in_range :
  forall start size a v r, 0 <= start -> 1 <= size -> start + size <= 2^32 ->
  inc_address start size a v = Ok r -> start <= r < start + size.
Proof. exact inc_ok. Qed.
Print Assumptions C08_inc_address_in_range.

(** Stepping forward by v goes v addresses further, around the end. *)
Theorem C08_inc_address_forward :
  forall start size a v, 0 <= start -> 1 <= size -> start + size <= 2^31 ->
  start <= a < start + size -> 0 <= v < 2^30 -> a + v < 2^31 ->
  inc_address start size a v = Ok (start + (a - start + v) mod size).
Proof. exact inc_forward. Qed.
Print Assumptions C08_inc_address_forward.

(** Stepping by any amount, in general: the distance from the start is taken modulo
    2^32 before it is taken modulo the size (so steps backward are right exactly if
    this makes no difference, as when the size divides 2^32); for a memory starting
    at 0 the sum must fit in an int. *)
Theorem C08_inc_address_exact :
  forall start size a v, 0 <= start -> 1 <= size -> start + size <= 2^32 -> 0 <= a < 2^32 ->
  inc_address start size a v =
    if (start =? 0) && ((i32 a + v <? -2^31) || (2^31 <=? i32 a + v)) then UB
    else Ok (start + ((a - start + v) mod 2^32) mod size).
Proof. exact inc_exact. Qed.
Print Assumptions C08_inc_address_exact.

Theorem C08_inc_address_backward_right : forall start size a v,
  0 < start -> 1 <= size -> start + size <= 2^32 -> 0 <= a < 2^32 -> (size | 2^32) ->
  inc_address start size a v = Ok (start + (a - start + v) mod size).
Proof.
  intros start size a v H1 H2 H3 H4 [k Hk]. rewrite C08_inc_address_exact by lia.
  replace (start =? 0) with false by lia. cbn [andb]. do 2 f_equal.
  rewrite Hk, (Z.mul_comm k size). assert (0 < k) by nia. rewrite Z.rem_mul_r by lia.
  rewrite Z.mul_comm, Z.mod_add by lia. apply Z.mod_mod. lia.
Qed.
Print Assumptions C08_inc_address_backward_right.

(** Stepping backward is wrong for other sizes. *)
Theorem C08_inc_address_backward_deviation :
  exists start size a v r, 1 <= size /\ start <= a < start + size /\
  inc_address start size a v = Ok r /\ r <> start + (a - start + v) mod size.
Proof. exists 0, 6, 0, (-1). eexists. split; [lia|]. split; [lia|]. split; [reflexivity|]. discriminate. Qed.
Print Assumptions C08_inc_address_backward_deviation.

(** validate_address ends within [start] rounds, and gives a congruent address
    of the memory for every input except start+size. *)
Theorem C08_validate_address :
  forall start size a, 0 <= start -> 1 <= size -> start + size < 2^32 -> 0 <= a < 2^32 ->
  exists r, (forall n, (Z.to_nat start <= n)%nat -> validate_address n start size a = Ok r) /\
    (r - a) mod size = 0 /\
    (a <> start + size -> start <= r < start + size) /\
    (a = start + size -> r = start + size).
Proof. exact validate_ok. Qed.
Print Assumptions C08_validate_address.

(** The address just past the end is not handled: 0x10000 stays 0x10000 in a
    64 k memory, which is not a valid address. *)
Theorem C08_validate_address_deviation :
  exists start size a r n, 1 <= size /\ 0 <= a < 2^32 /\
  validate_address n start size a = Ok r /\ valid_address start size r = false.
Proof. exists 0, 65536, 65536, 65536, 1%nat. split; [lia|]. split; [lia|]. split; reflexivity. Qed.
Print Assumptions C08_validate_address_deviation.
