(** C07: bit banders. *)
From Verif Require Import Base MemModel MemSpec MemProofs BandModel.

(** Chip location that cell number n of the window stands for. *)
Definition bit_home (cb bpc distance n : Z) : Z := (cb + (n / bpc) * distance) mod 2 ^ 32.

Section L.
Variables (csize bw chip cb bpc distance : Z).
Hypothesis Hbpc : 1 <= bpc <= 30.

Lemma div_mod_succ n : 0 <= n -> n mod bpc + 1 < bpc ->
  (n + 1) mod bpc = n mod bpc + 1 /\ (n + 1) / bpc = n / bpc.
Proof.
  intros H0 H. pose proof (Z.div_mod n bpc ltac:(lia)). pose proof (Z.mod_pos_bound n bpc ltac:(lia)).
  split; symmetry; [apply Z.mod_unique with (n / bpc)|apply Z.div_unique with (n mod bpc + 1)]; lia.
Qed.
Lemma div_mod_wrap n : 0 <= n -> n mod bpc + 1 = bpc ->
  (n + 1) mod bpc = 0 /\ (n + 1) / bpc = n / bpc + 1.
Proof.
  intros H0 H. pose proof (Z.div_mod n bpc ltac:(lia)). pose proof (Z.mod_pos_bound n bpc ltac:(lia)).
  split; symmetry; [apply Z.mod_unique with (n / bpc + 1)|apply Z.div_unique with 0]; lia.
Qed.

(** State of the loop counters before the round of cell n. *)
Definition counters (n ca b m : Z) : Prop :=
  (b < bpc -> ca = bit_home cb bpc distance n /\ b = n mod bpc) /\
  (bpc <= b -> u32 (ca + distance) = bit_home cb bpc distance n /\ n mod bpc = 0) /\
  0 <= b <= bpc /\ m = 2 ^ b.

Lemma pow2_31 b : 0 <= b < bpc -> 2 ^ b < 2147483648.
Proof. intros. change 2147483648 with (2 ^ 31). apply Z.pow_lt_mono_r; lia. Qed.

Lemma band_loop_ok k : forall s asa n ca b m,
  0 <= n -> counters n ca b m ->
  0 <= s_start s -> s_start s <= asa -> asa + Z.of_nat k <= s_start s + s_size s -> s_start s + s_size s <= 2 ^ 32 ->
  exists s', band_loop k csize bw chip bpc distance asa ca b m s = Ok s' /\
    s_start s' = s_start s /\ s_size s' = s_size s /\ s_width s' = s_width s /\ s_uc s' = s_uc s /\
    forall a, s_start s <= a < s_start s + s_size s -> cell_of s' a =
      if (asa <=? a) && (a <? asa + Z.of_nat k)
      then decode_bit (cell_of s a) (slot_loc csize bw chip (bit_home cb bpc distance (n + (a - asa))))
             (2 ^ ((n + (a - asa)) mod bpc))
      else cell_of s a.
Proof.
  induction k as [|k IH]; intros s asa n ca b m Hn Hc H0 H1 H2 H3; cbn [band_loop].
  - eexists. split; [reflexivity|]. repeat (split; [reflexivity|]). intros a Ha.
    destruct ((asa <=? a) && _) eqn:E; [lia|reflexivity].
  - destruct Hc as (C1 & C2 & C3 & C4).
    assert (exists ca' b', (if bpc <=? b then (u32 (ca + distance), 0, 1) else (ca, b, m)) = (ca', b', 2 ^ b') /\
       ca' = bit_home cb bpc distance n /\ b' = n mod bpc) as (ca' & b' & -> & Eca & Eb).
    { destruct (bpc <=? b) eqn:E.
      - exists (u32 (ca + distance)), 0. destruct C2; [lia|]. repeat split; auto.
      - exists ca, b. destruct C1; [lia|]. subst m. repeat split; auto. }
    pose proof (Z.mod_pos_bound n bpc ltac:(lia)) as Hb.
    assert (Hinv : invalid s asa = false) by (unfold invalid; rewrite u32_id by lia; lia).
    rewrite Hinv. pose proof (pow2_31 b' ltac:(lia)).
    destruct (2147483648 <=? 2 ^ b') eqn:Q; [lia|].
    rewrite u32_id by lia.
    set (s1 := set_cell s (asa - s_start s) _).
    destruct (IH s1 (asa + 1) (n + 1) ca' (b' + 1) (2 * 2 ^ b')) as (s' & E & S1 & S2 & S3 & S4 & S5).
    + lia.
    + unfold counters. replace (2 * 2 ^ b') with (2 ^ (b' + 1)) by (rewrite Z.pow_add_r by lia; lia).
      subst b' ca'. split; [|split; [|split; [lia|reflexivity]]].
      * intros L. destruct (div_mod_succ n Hn ltac:(lia)) as [M D]. unfold bit_home. rewrite M, D. auto.
      * intros L. destruct (div_mod_wrap n Hn ltac:(lia)) as [M D]. unfold bit_home. rewrite M, D. split; [|reflexivity].
        unfold u32. change 4294967296 with (2 ^ 32). rewrite Zplus_mod_idemp_l. f_equal. lia.
    + exact H0.
    + cbn. lia.
    + cbn. lia.
    + cbn. lia.
    + exists s'. split; [exact E|]. cbn in S1, S2, S3, S4. repeat (split; [assumption|]).
      intros a Ha. rewrite S5 by exact Ha.
      assert (Hcell : cell_of s1 a = if a =? asa then decode_bit (cell_of s asa) (slot_loc csize bw chip ca') (2 ^ b') else cell_of s a).
      { unfold cell_of, s1, set_cell. cbn. destruct (a =? asa) eqn:Ea.
        - assert (a = asa) by lia. subst a. rewrite Z.eqb_refl. reflexivity.
        - destruct (a - s_start s =? asa - s_start s) eqn:?; [lia|reflexivity]. }
      destruct (Z.eq_dec a asa) as [->|Na].
      * replace (asa + 1 <=? asa) with false by lia. cbn [andb].
        replace ((asa <=? asa) && (asa <? asa + Z.of_nat (S k))) with true by lia.
        rewrite Hcell, Z.eqb_refl, Z.sub_diag, Z.add_0_r. subst b' ca'. reflexivity.
      * rewrite Hcell. replace (a =? asa) with false by lia.
        replace (n + 1 + (a - (asa + 1))) with (n + (a - asa)) by lia.
        replace ((asa + 1 <=? a) && (a <? asa + 1 + Z.of_nat k)) with ((asa <=? a) && (a <? asa + Z.of_nat (S k))) by lia.
        reflexivity.
Qed.
End L.

Definition testbit_chk (x b : Z) : bool :=
  forallb (fun k => Bool.eqb (Z.testbit (Z.land x (255 - 2 ^ b)) k) (if k =? b then false else Z.testbit x k) &&
                    Bool.eqb (Z.testbit (Z.lor x (2 ^ b)) k) (if k =? b then true else Z.testbit x k)) (zrange 8).
Lemma testbit_chk_all : forall x b, 0 <= x < 256 -> 0 <= b < 8 -> testbit_chk x b = true.
Proof. apply (sweep2 testbit_chk 256 8). vm_compute. reflexivity. Qed.

Lemma high_bits y k : 0 <= y < 256 -> 8 <= k -> Z.testbit y k = false.
Proof.
  intros. destruct (Z.eq_dec y 0) as [->|]; [apply Z.testbit_0_l|].
  apply Z.bits_above_log2; [lia|]. apply Z.log2_lt_pow2; [lia|].
  apply Z.lt_le_trans with (2 ^ 8); [lia|]. apply Z.pow_le_mono_r; lia.
Qed.

Lemma testbit_facts x b k : 0 <= x < 256 -> 0 <= b < 8 -> 0 <= k ->
  Z.testbit (Z.land x (255 - 2 ^ b)) k = (if k =? b then false else Z.testbit x k) /\
  Z.testbit (Z.lor x (2 ^ b)) k = (if k =? b then true else Z.testbit x k).
Proof.
  intros Hx Hb Hk. destruct (Z_lt_dec k 8) as [L|L].
  - pose proof (testbit_chk_all x b Hx Hb) as H. unfold testbit_chk in H. rewrite forallb_forall in H.
    specialize (H k ltac:(apply in_zrange; lia)). rewrite andb_true_iff in H.
    destruct H as [H1 H2]. apply eqb_prop in H1, H2. auto.
  - destruct (bit_facts x b Hx Hb) as (_ & _ & _ & _ & R1 & R2).
    rewrite !high_bits by lia. destruct (k =? b) eqn:?; [lia|auto].
Qed.

Definition bit_val_chk (x b : Z) : bool :=
  (if Z.land x (2 ^ b) =? 0 then 0 else 1) =? Z.b2z (Z.testbit x b).
Lemma bit_val x b : 0 <= x < 256 -> 0 <= b < 8 -> (if Z.land x (2 ^ b) =? 0 then 0 else 1) = Z.b2z (Z.testbit x b).
Proof.
  intros. apply Z.eqb_eq. change (bit_val_chk x b = true).
  apply (sweep2 bit_val_chk 256 8); [vm_compute; reflexivity|lia|lia].
Qed.


(** The bit of cell n and its chip location are as the property says. *)
Lemma band_bit alloc w s asb ase csize bw chip cb bpc distance :
  1 <= bpc <= 30 -> bytes_ok w -> space_ok s -> 1 <= bw ->
  s_start s <= asb -> asb <= ase -> ase < s_start s + s_size s ->
  (forall a, in_range s a -> one_bit s a /\ ~ read_only s a) ->
  csize * bw <= alloc chip -> 0 <= cb < 2 ^ 32 ->
  exists s', band s asb ase csize bw chip cb bpc distance = Ok s' /\
  forall n, 0 <= n <= ase - asb -> bit_home cb bpc distance n < csize ->
  let byte := bit_home cb bpc distance n * bw in
  let bit := n mod bpc in
  (bit < 8 ->
   read alloc w s' (asb + n) = Ok (Z.b2z (Z.testbit (data w chip byte) bit), w) /\
   forall v rnd, exists w', write alloc w s' (asb + n) v rnd = Ok w' /\ errs w' = errs w /\
    forall o i k, 0 <= k ->
      Z.testbit (data w' o i) k =
      if (o =? chip) && (i =? byte) && (k =? bit) then negb (v =? 0) else Z.testbit (data w o i) k) /\
  (8 <= bit ->
   read alloc w s' (asb + n) = Ok (0, w) /\
   forall v rnd, exists w', write alloc w s' (asb + n) v rnd = Ok w' /\ errs w' = errs w /\
    forall o i, data w' o i = data w o i).
Proof.
  intros Hbpc Hw (H0 & H1 & H2 & H3) Hbw Ha Hae He Hcell Halloc Hcb.
  unfold band.
  destruct (band_loop_ok csize bw chip cb bpc distance ltac:(lia) (Z.to_nat (ase - asb + 1)) s asb 0 cb 0 1)
    as (s' & E & S1 & S2 & S3 & S4 & S5); try lia.
  { unfold counters, bit_home. rewrite Z.div_0_l, Z.mod_0_l by lia.
    rewrite (Z.mod_small (cb + _)) by lia. repeat split; lia. }
  exists s'. split; [exact E|]. intros n Hn Hh. set (byte := bit_home cb bpc distance n * bw). set (bit := n mod bpc).
  assert (Hr : in_range s (asb + n)) by (unfold in_range; lia).
  specialize (S5 (asb + n) Hr).
  replace ((asb <=? asb + n) && (asb + n <? asb + Z.of_nat (Z.to_nat (ase - asb + 1)))) with true in S5 by lia.
  replace (0 + (asb + n - asb)) with n in S5 by lia.
  assert (Hs : slot_loc csize bw chip (bit_home cb bpc distance n) = Some (mkLoc chip byte)).
  { unfold slot_loc. destruct (csize <=? _) eqn:?; [lia|reflexivity]. }
  rewrite Hs in S5. cbn [decode_bit] in S5. fold bit in S5.
  destruct (Hcell _ Hr) as [W RO]. unfold one_bit in W. unfold read_only in RO.
  rewrite W in S5. destruct (c_ro (cell_of s (asb + n))); [congruence|]. 
  assert (Hb0 : 0 <= byte) by (unfold byte, bit_home; pose proof (Z.mod_pos_bound (cb + n / bpc * distance) (2 ^ 32)); nia).
  assert (Hb1 : byte + 1 <= alloc chip) by (unfold byte in *; nia).
  assert (Hbit0 : 0 <= bit) by (unfold bit; pose proof (Z.mod_pos_bound n bpc); lia).
  assert (Hinv : invalid s' (asb + n) = false) by (unfold invalid; rewrite S1, S2, u32_id by lia; lia).
  assert (Hthe : the_cell s' (asb + n) = mkCell 1 (2 ^ bit) false false (mkLoc chip byte)).
  { rewrite <- S5. unfold the_cell, cell_of. rewrite S1, u32_id by lia. reflexivity. }
  assert (Hin : inside alloc 1 (mkLoc chip byte) = true) by (unfold inside; cbn [obj off]; lia).
  pose proof (Hw chip byte) as Hx.
  split; intros Hbit1; [assert (Hbit : 0 <= bit < 8) by lia|]; split.
  - unfold read. rewrite Hinv, Hthe. unfold cell_get. cbn [c_width c_loc c_mask obj off].
    change (nbytes 1) with 1%nat. rewrite Hin. change (1 =? 1) with true. cbv iota.
    replace (load (data w) 1 chip byte) with (data w chip byte) by (cbn; lia).
    rewrite bit_val by auto. reflexivity.
  - intros v rnd. unfold write. rewrite Hinv, Hthe. unfold cell_write, cell_put, stored.
    cbn [c_width c_loc c_mask c_ro obj off]. change (nbytes 1) with 1%nat. rewrite Hin.
    change (1 =? 1) with true. cbv iota zeta.
    replace (load (data w) 1 chip byte) with (data w chip byte) by (cbn; lia).
    destruct (bit_facts _ _ Hx Hbit) as (F1 & _ & _ & _ & R1 & R2). rewrite F1.
    cbn [upd_data rbind]. eexists. split; [reflexivity|]. split; [reflexivity|].
    intros o i k Hk. cbn [data save].
    set (y := if v =? 0 then _ else _).
    assert (Hy : 0 <= y < 256) by (unfold y; destruct (v =? 0); assumption).
    rewrite (Z.mod_small y) by lia. unfold put.
    destruct ((o =? chip) && (i =? byte)) eqn:Q; cbn [andb]; [|reflexivity].
    assert (o = chip /\ i = byte) as [-> ->] by lia.
    destruct (testbit_facts _ bit k Hx Hbit Hk) as [T1 T2]. unfold y.
    destruct (v =? 0); [rewrite T1|rewrite T2]; reflexivity.
  - unfold read. rewrite Hinv, Hthe. unfold cell_get. cbn [c_width c_loc c_mask obj off].
    change (nbytes 1) with 1%nat. rewrite Hin. change (1 =? 1) with true. cbv iota.
    replace (load (data w) 1 chip byte) with (data w chip byte) by (cbn; lia).
    replace (Z.land (data w chip byte) (2 ^ bit)) with 0; [reflexivity|].
    symmetry. apply Z.bits_inj'. intros k Hk. rewrite Z.land_spec, Z.testbit_0_l.
    destruct (Z_lt_dec k 8); [|rewrite high_bits by lia; reflexivity].
    rewrite Z.pow2_bits_false by lia. apply andb_false_r.
  - intros v rnd. unfold write. rewrite Hinv, Hthe. unfold cell_write, cell_put, stored.
    cbn [c_width c_loc c_mask c_ro obj off]. change (nbytes 1) with 1%nat. rewrite Hin.
    change (1 =? 1) with true. cbv iota zeta.
    replace (load (data w) 1 chip byte) with (data w chip byte) by (cbn; lia).
    assert (F1 : u8 (2 ^ bit) = 0).
    { unfold u8. replace bit with (8 + (bit - 8)) by lia. rewrite Z.pow_add_r by lia.
      rewrite Z.mul_comm. apply Z.mod_mul. discriminate. }
    rewrite F1. cbn [upd_data rbind]. eexists. split; [reflexivity|]. split; [reflexivity|].
    intros o i. cbn [data save].
    assert (Hy : (if v =? 0 then Z.land (data w chip byte) (255 - 0) else Z.lor (data w chip byte) 0) = data w chip byte).
    { destruct (v =? 0); [|apply Z.lor_0_r]. change (255 - 0) with (Z.ones 8).
      rewrite Z.land_ones by lia. apply Z.mod_small. exact Hx. }
    rewrite Hy, (Z.mod_small (data w chip byte)) by lia. unfold put.
    destruct ((o =? chip) && (i =? byte)) eqn:Q; [|reflexivity].
    assert (o = chip /\ i = byte) as [-> ->] by lia. reflexivity.
Qed.

(** C07. Cell n of the window reads bit (n mod bpc) of the chip location
    cb + (n div bpc) * distance, and writing it sets that bit to v<>0 and changes
    no other bit of anything, if that bit is one of the lowest eight; a cell that
    stands for bit 8 or above of a wider element always reads 0 and a write to it
    changes nothing. *)
Theorem C07_bit_cell_is_one_bit :
  forall alloc w s asb ase csize bw chip cb bpc distance,
  1 <= bpc <= 30 -> bytes_ok w -> space_ok s -> 1 <= bw ->
  s_start s <= asb -> asb <= ase -> ase < s_start s + s_size s ->
  (forall a, in_range s a -> one_bit s a /\ ~ read_only s a) ->
  csize * bw <= alloc chip -> 0 <= cb < 2 ^ 32 ->
  exists s', band s asb ase csize bw chip cb bpc distance = Ok s' /\
  forall n, 0 <= n <= ase - asb -> bit_home cb bpc distance n < csize ->
  let byte := bit_home cb bpc distance n * bw in
  let bit := n mod bpc in
  (bit < 8 ->
   read alloc w s' (asb + n) = Ok (Z.b2z (Z.testbit (data w chip byte) bit), w) /\
   forall v rnd, exists w', write alloc w s' (asb + n) v rnd = Ok w' /\ errs w' = errs w /\
    forall o i k, 0 <= k ->
      Z.testbit (data w' o i) k =
      if (o =? chip) && (i =? byte) && (k =? bit) then negb (v =? 0) else Z.testbit (data w o i) k) /\
  (8 <= bit ->
   read alloc w s' (asb + n) = Ok (0, w) /\
   forall v rnd, exists w', write alloc w s' (asb + n) v rnd = Ok w' /\ errs w' = errs w /\
    forall o i, data w' o i = data w o i).
Proof. exact band_bit. Qed.
Print Assumptions C07_bit_cell_is_one_bit.

(** The bit space of the 8051: SFR bits, 8 bits per byte, bytes 8 apart. *)
Definition ex_bits := mkSpace 0 256 1 true (fun _ => mkCell 1 1 false true def_loc).
Example C07_nonvacuous :
  (forall a, in_range ex_bits a -> one_bit ex_bits a /\ ~ read_only ex_bits a) /\
  bit_home 0 8 8 (215 - 128) = 80 /\
  exists s', band ex_bits 128 255 128 1 7 0 8 8 = Ok s' /\
    exists w', write (fun _ => 128) (mkWorld (fun _ _ => 1) []) s' 215 1 0 = Ok w' /\ data w' 7 80 = 129.
Proof.
  split; [intros; split; [reflexivity|discriminate]|]. split; [reflexivity|].
  eexists. split; [vm_compute; reflexivity|]. eexists. split; reflexivity.
Qed.

(** With more than 8 bits per element the cells are still 8 bit wide ones: bit
    8 and above of a 16 bit chip can neither be written nor read. *)
Theorem C07_wide_chip_deviation :
  exists alloc w s s' asb ase csize chip cb bpc distance n w',
  bpc = 16 /\ (forall a, in_range s a -> one_bit s a /\ ~ read_only s a) /\
  band s asb ase csize 2 chip cb bpc distance = Ok s' /\ 0 <= n <= ase - asb /\
  write alloc w s' (asb + n) 1 0 = Ok w' /\ read alloc w' s' (asb + n) = Ok (0, w').
Proof.
  exists (fun _ => 128), (mkWorld (fun _ _ => 0) []), ex_bits. eexists.
  exists 0, 31, 16, 1, 0, 16, 1, 9. eexists. split; [reflexivity|].
  split; [intros; split; [reflexivity|discriminate]|].
  split; [vm_compute; reflexivity|]. split; [lia|]. split; reflexivity.
Qed.
Print Assumptions C07_wide_chip_deviation.
