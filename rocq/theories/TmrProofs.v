From Verif Require Import Base TmrModel TmrSpec.

(** ** Reachable states *)
Definition byte (v : Z) : Prop := 0 <= v < 256.
Definition level (s : st) : Z := Z.land (pins s) (p3 s).
Definition okt (i : bool) (s : st) : Prop :=
  let t := tmr i s in
  mode t = selected i (tmod s) /\ GATE t = gate_bit i (tmod s) /\ CT t = ct_bit i (tmod s) /\ TR t = run_bit i (tcon s) /\
  INT t = int_pin i (level s) /\ 0 <= T_edge t.
Definition bytes (s : st) : Prop := byte (tmod s) /\ byte (tcon s) /\ byte (tl0 s) /\ byte (th0 s) /\ byte (tl1 s) /\ byte (th1 s) /\ byte (p3 s) /\ byte (pins s).
Definition inv (s : st) : Prop := okt false s /\ okt true s /\ bytes s.

Lemma has_bit v k : 0 <= k -> has v (2 ^ k) = Z.testbit v k.
Proof.
  intros K. unfold has. destruct (Z.testbit v k) eqn:T.
  - apply negb_true_iff, Z.eqb_neq. intros E. assert (Z.testbit (Z.land v (2 ^ k)) k = false) by (rewrite E; apply Z.bits_0). rewrite Z.land_spec, T, Z.pow2_bits_true in H by lia. discriminate.
  - apply negb_false_iff, Z.eqb_eq. apply Z.bits_inj'. intros j J. rewrite Z.land_spec, Z.pow2_bits_eqb, Z.bits_0 by lia. destruct (Z.eqb_spec k j); [subst j; rewrite T; reflexivity|apply andb_false_r].
Qed.
Lemma hGATE i v : has v (mask_GATE i) = gate_bit i v.
Proof. destruct i; [apply (has_bit v 7)|apply (has_bit v 3)]; lia. Qed.
Lemma hCT i v : has v (mask_CT i) = ct_bit i v.
Proof. destruct i; [apply (has_bit v 6)|apply (has_bit v 2)]; lia. Qed.
Lemma hTR i v : has v (mask_TR i) = run_bit i v.
Proof. destruct i; [apply (has_bit v 6)|apply (has_bit v 4)]; lia. Qed.
Lemma hINT i v : has v (mask_INT i) = int_pin i v.
Proof. destruct i; [apply (has_bit v 3)|apply (has_bit v 2)]; lia. Qed.
Lemma hT i v : has v (mask_T i) = t_pin i v.
Proof. destruct i; [apply (has_bit v 5)|apply (has_bit v 4)]; lia. Qed.
Lemma bit_mod256 v k : 0 <= k < 8 -> Z.testbit (v mod 256) k = Z.testbit v k.
Proof. intros K. change 256 with (2 ^ 8). apply Z.mod_pow2_bits_low. lia. Qed.
Lemma mode_ok i v : let md := Z.land v (Z.lor (mask_M0 i) (mask_M1 i)) in
  (if md =? mask_M0 i then 1 else if md =? mask_M1 i then 2 else if md =? Z.lor (mask_M0 i) (mask_M1 i) then 3 else 0) = selected i (v mod 256).
Proof.
  cbv zeta. unfold selected. destruct i.
  - replace (Z.land v (Z.lor (mask_M0 true) (mask_M1 true))) with ((v / 16) mod 4 * 16).
    + assert (E : (v mod 256 / 16) mod 4 = (v / 16) mod 4).
      { change 256 with (16 * 16). rewrite Z.rem_mul_r by lia. replace (v mod 16 + 16 * ((v / 16) mod 16)) with (v mod 16 + (v / 16) mod 16 * 16) by lia. rewrite Z.div_add by lia. rewrite (Z.div_small (v mod 16)) by (apply Z.mod_pos_bound; lia). rewrite Z.add_0_l.
        change 16 with (4 * 4) at 2. rewrite Z.rem_mul_r by lia. rewrite (Z.mul_comm 4). rewrite Z.mod_add by lia. apply Z.mod_mod. lia. }
      rewrite E. pose proof (Z.mod_pos_bound (v / 16) 4 ltac:(lia)). assert (K : (v / 16) mod 4 = 0 \/ (v / 16) mod 4 = 1 \/ (v / 16) mod 4 = 2 \/ (v / 16) mod 4 = 3) by lia.
      destruct K as [-> | [-> | [-> | ->]]]; reflexivity.
    + change (Z.lor (mask_M0 true) (mask_M1 true)) with (Z.shiftl 3 4). change 16 with (2 ^ 4). rewrite <- Z.shiftl_mul_pow2, <- Z.shiftr_div_pow2 by lia. change ((Z.shiftr v 4) mod 4) with ((Z.shiftr v 4) mod 2 ^ 2). rewrite <- Z.land_ones by lia. change (Z.ones 2) with 3. apply Z.bits_inj'. intros j J.
      rewrite Z.shiftl_spec, !Z.land_spec, Z.shiftl_spec by lia. destruct (Z.ltb_spec j 4) as [C|C].
      * rewrite !(Z.testbit_neg_r _ (j - 4)) by lia. rewrite !andb_false_r. reflexivity.
      * rewrite Z.shiftr_spec by lia. replace (j - 4 + 4) with j by lia. reflexivity.
  - change (Z.lor (mask_M0 false) (mask_M1 false)) with (Z.ones 2). rewrite Z.land_ones by lia. rewrite Z.div_1_r. change (2 ^ 2) with 4. change (mask_M0 false) with 1. change (mask_M1 false) with 2. change (Z.ones 2) with 3.
    change 256 with (4 * 64). rewrite Z.rem_mul_r by lia. rewrite (Z.mul_comm 4). rewrite Z.mod_add by lia. rewrite Z.mod_mod by lia.
    pose proof (Z.mod_pos_bound v 4 ltac:(lia)). assert (K : v mod 4 = 0 \/ v mod 4 = 1 \/ v mod 4 = 2 \/ v mod 4 = 3) by lia.
    destruct K as [-> | [-> | [-> | ->]]]; reflexivity.
Qed.
Lemma gate_mod i v : gate_bit i (v mod 256) = gate_bit i v.
Proof. unfold gate_bit. apply bit_mod256. destruct i; lia. Qed.
Lemma ct_mod i v : ct_bit i (v mod 256) = ct_bit i v.
Proof. unfold ct_bit. apply bit_mod256. destruct i; lia. Qed.
Lemma run_mod i v : run_bit i (v mod 256) = run_bit i v.
Proof. unfold run_bit. apply bit_mod256. destruct i; lia. Qed.
Lemma int_mod i v : int_pin i (v mod 256) = int_pin i v.
Proof. unfold int_pin. apply bit_mod256. destruct i; lia. Qed.
Lemma byte_mod v : byte (v mod 256).
Proof. apply Z.mod_pos_bound. lia. Qed.
Lemma byte_high v j : byte v -> 8 <= j -> Z.testbit v j = false.
Proof. intros B J. rewrite <- (Z.mod_small v (2 ^ 8)) by exact B. apply Z.mod_pow2_bits_high. lia. Qed.
Lemma or_byte v m : byte v -> byte m -> byte (Z.lor v m).
Proof.
  intros A B. assert (E : Z.lor v m = Z.lor v m mod 2 ^ 8); [|rewrite E; apply (Z.mod_pos_bound _ 256); lia].
  apply Z.bits_inj'. intros j J. destruct (Z.ltb_spec j 8) as [C|C]; [rewrite Z.mod_pow2_bits_low by lia; reflexivity|]. rewrite Z.mod_pow2_bits_high, Z.lor_spec, !byte_high by (assumption || lia). reflexivity.
Qed.
Lemma tf_byte i : byte (mask_TF i).
Proof. destruct i; unfold byte; cbn; lia. Qed.
Lemma run_TF i j v : run_bit i (Z.lor v (mask_TF j)) = run_bit i v.
Proof. unfold run_bit. rewrite Z.lor_spec. destruct i, j; cbn [mask_TF]; rewrite ?orb_false_r; try reflexivity; match goal with |- _ || ?x = _ => replace x with false by reflexivity end; apply orb_false_r. Qed.
Lemma TF_set i j v : Z.testbit (Z.lor v (mask_TF i)) j = Z.testbit v j || (j =? TF_nr i).
Proof.
  rewrite Z.lor_spec. f_equal. replace (mask_TF i) with (2 ^ TF_nr i) by (destruct i; reflexivity). destruct (Z.ltb_spec j 0) as [C|C].
  - rewrite Z.testbit_neg_r by lia. destruct i; cbn [TF_nr]; lia.
  - rewrite Z.pow2_bits_eqb by (destruct i; cbn; lia). rewrite Z.eqb_sym. reflexivity.
Qed.

(** ** One pulse *)
Definition count (m : Z) (i : bool) : st -> st := if m =? 0 then count0 i else if m =? 1 then count1 i else count2 i.
(** everything a pulse may change *)
Definition upd (i : bool) (x : Z * Z * Z) (s : st) : st :=
  let '(l, h, o) := x in
  let tc := if 0 <? o then Z.lor (tcon s) (mask_TF i) else tcon s in
  if i then mkSt (tmod s) tc (tl0 s) (th0 s) l h (p3 s) (pins s) (a s) (b s) (ov0 s) (ov1 s + o)
  else mkSt (tmod s) tc l h (tl1 s) (th1 s) (p3 s) (pins s) (a s) (b s) (ov0 s + o) (ov1 s).
Lemma st_eq s : s = mkSt (tmod s) (tcon s) (tl0 s) (th0 s) (tl1 s) (th1 s) (p3 s) (pins s) (a s) (b s) (ov0 s) (ov1 s).
Proof. destruct s; reflexivity. Qed.

Lemma land31 v : Z.land v 31 = v mod 32.
Proof. change 31 with (Z.ones 5). apply Z.land_ones. lia. Qed.
Definition law_ok (m tl th : Z) : Prop := byte tl /\ byte th.
Lemma mod_case a m q r : 0 < m -> a = m * q + r -> 0 <= r < m -> a mod m = r /\ a / m = q.
Proof. intros M E R. split; [symmetry; apply (Z.mod_unique a m q r); [left; exact R|exact E]|symmetry; apply (Z.div_unique a m q r); [left; exact R|exact E]]. Qed.
Ltac mc a m q r := let A := fresh "M" in let B := fresh "D" in destruct (mod_case a m q r ltac:(lia) ltac:(lia) ltac:(lia)) as [A B]; try rewrite A; try rewrite B.

Lemma law1 m l h : m = 0 \/ m = 1 \/ m = 2 -> byte l -> byte h -> law m l h 1 =
  if m =? 0 then (if (l + 1) mod 32 =? 0 then (0, (h + 1) mod 256, if (h + 1) mod 256 =? 0 then 1 else 0) else (l + 1, h, 0))
  else if m =? 1 then (if (l + 1) mod 256 =? 0 then (0, (h + 1) mod 256, if (h + 1) mod 256 =? 0 then 1 else 0) else (l + 1, h, 0))
  else (if (l + 1) mod 256 =? 0 then (h, h, 1) else (l + 1, h, 0)).
Proof.
  unfold byte. intros M L H. destruct M as [-> | [-> | ->]]; unfold law; cbn [Z.eqb Pos.eqb].
  - pose proof (Z.div_mod l 32 ltac:(lia)) as D. pose proof (Z.mod_pos_bound l 32 ltac:(lia)) as B. destruct (Z.ltb_spec (l mod 32 + 1) 32) as [C|C].
    + destruct (mod_case (l + 1) 32 (l / 32) (l mod 32 + 1) ltac:(lia) ltac:(lia) ltac:(lia)) as [-> _]. replace (l mod 32 + 1 =? 0) with false by lia.
      destruct (mod_case (h * 32 + l mod 32 + 1) 32 h (l mod 32 + 1) ltac:(lia) ltac:(lia) ltac:(lia)) as [_ ->]. rewrite (Z.mod_small h 256), (Z.div_small (h * 32 + l mod 32 + 1) 8192) by lia. reflexivity.
    + destruct (mod_case (l + 1) 32 (l / 32 + 1) 0 ltac:(lia) ltac:(lia) ltac:(lia)) as [-> _]. cbn [Z.eqb Pos.eqb].
      destruct (mod_case (h * 32 + l mod 32 + 1) 32 (h + 1) 0 ltac:(lia) ltac:(lia) ltac:(lia)) as [-> ->]. destruct (Z.eqb_spec ((h + 1) mod 256) 0) as [E|E].
      * assert (h = 255) by (destruct (Z.eq_dec h 255); [assumption|rewrite Z.mod_small in E by lia; lia]). subst h. destruct (mod_case (255 * 32 + l mod 32 + 1) 8192 1 0 ltac:(lia) ltac:(lia) ltac:(lia)) as [_ ->]. reflexivity.
      * assert (h <> 255) by (intros ->; apply E; reflexivity). rewrite (Z.div_small (h * 32 + l mod 32 + 1) 8192) by lia. reflexivity.
  - destruct (Z.eq_dec l 255) as [-> | N].
    + replace ((255 + 1) mod 256 =? 0) with true by reflexivity. destruct (mod_case (h * 256 + 255 + 1) 256 (h + 1) 0 ltac:(lia) ltac:(lia) ltac:(lia)) as [-> ->]. destruct (Z.eqb_spec ((h + 1) mod 256) 0) as [E|E].
      * assert (h = 255) by (destruct (Z.eq_dec h 255); [assumption|rewrite Z.mod_small in E by lia; lia]). subst h. reflexivity.
      * assert (h <> 255) by (intros ->; apply E; reflexivity). rewrite (Z.div_small _ 65536) by lia. reflexivity.
    + rewrite (Z.mod_small (l + 1) 256) by lia. replace (l + 1 =? 0) with false by lia. destruct (mod_case (h * 256 + l + 1) 256 h (l + 1) ltac:(lia) ltac:(lia) ltac:(lia)) as [-> ->]. rewrite (Z.mod_small h 256), (Z.div_small _ 65536) by lia. reflexivity.
  - destruct (Z.eq_dec l 255) as [-> | N].
    + replace ((255 + 1) mod 256 =? 0) with true by reflexivity. replace (255 + 1 - 256) with 0 by lia. cbn [Z.ltb Z.compare]. rewrite (Z.mod_small 0), (Z.div_small 0) by lia. replace (h + 0) with h by lia. reflexivity.
    + rewrite (Z.mod_small (l + 1) 256) by lia. replace (l + 1 =? 0) with false by lia. replace (l + 1 - 256 <? 0) with true by lia. reflexivity.
Qed.
Lemma law0 m l h : m = 0 \/ m = 1 \/ m = 2 -> byte l -> byte h -> law m l h 0 = (l, h, 0).
Proof.
  unfold byte. intros M L H. destruct M as [-> | [-> | ->]]; unfold law; cbn [Z.eqb Pos.eqb].
  - pose proof (Z.mod_pos_bound l 32 ltac:(lia)) as B. replace (l mod 32 + 0 <? 32) with true by lia. destruct (mod_case (h * 32 + l mod 32 + 0) 32 h (l mod 32) ltac:(lia) ltac:(lia) ltac:(lia)) as [_ ->]. rewrite (Z.mod_small h 256), (Z.div_small _ 8192) by lia. replace (l + 0) with l by lia. reflexivity.
  - destruct (mod_case (h * 256 + l + 0) 256 h l ltac:(lia) ltac:(lia) ltac:(lia)) as [-> ->]. rewrite (Z.mod_small h 256), (Z.div_small _ 65536) by lia. reflexivity.
  - replace (l + 0 - 256 <? 0) with true by lia. replace (l + 0) with l by lia. reflexivity.
Qed.
Lemma law_bytes m l h n : m = 0 \/ m = 1 \/ m = 2 -> byte l -> byte h -> 0 <= n -> let '(l', h', o) := law m l h n in byte l' /\ byte h' /\ 0 <= o.
Proof.
  unfold byte. intros M L H N. destruct M as [-> | [-> | ->]]; unfold law; cbn [Z.eqb Pos.eqb]; cbv beta iota zeta.
  - pose proof (Z.div_mod l 32 ltac:(lia)) as D. pose proof (Z.mod_pos_bound l 32 ltac:(lia)) as B. pose proof (Z.mod_pos_bound (h * 32 + l mod 32 + n) 32 ltac:(lia)). pose proof (Z.mod_pos_bound ((h * 32 + l mod 32 + n) / 32) 256 ltac:(lia)).
    assert (l / 32 < 8) by (apply Z.div_lt_upper_bound; lia). assert (0 <= (h * 32 + l mod 32 + n) / 8192) by (apply Z.div_pos; lia). destruct (Z.ltb_spec (l mod 32 + n) 32); repeat split; lia.
  - pose proof (Z.mod_pos_bound (h * 256 + l + n) 256 ltac:(lia)). pose proof (Z.mod_pos_bound ((h * 256 + l + n) / 256) 256 ltac:(lia)). assert (0 <= (h * 256 + l + n) / 65536) by (apply Z.div_pos; lia). repeat split; lia.
  - destruct (Z.ltb_spec (l + n - 256) 0) as [C|C]; cbv beta iota; [repeat split; lia|]. pose proof (Z.mod_pos_bound (l + n - 256) (256 - h) ltac:(lia)). assert (0 <= (l + n - 256) / (256 - h)) by (apply Z.div_pos; lia). repeat split; lia.
Qed.
Lemma law_add m l h n k : m = 0 \/ m = 1 \/ m = 2 -> byte l -> byte h -> 0 <= n -> 0 <= k ->
  law m l h (n + k) = let '(l', h', o) := law m l h n in let '(l2, h2, o2) := law m l' h' k in (l2, h2, o + o2).
Proof.
  intros M L H N K. pose proof (law_bytes m l h n M L H N) as LB. unfold byte in *. destruct M as [-> | [-> | ->]]; unfold law in *; cbn [Z.eqb Pos.eqb] in *.
  - pose proof (Z.div_mod l 32 ltac:(lia)) as D. pose proof (Z.mod_pos_bound l 32 ltac:(lia)) as B. set (c := h * 32 + l mod 32 + n) in *.
    assert (L32 : l / 32 < 8) by (apply Z.div_lt_upper_bound; lia).
    assert (C1 : (if l mod 32 + n <? 32 then l + n else c mod 32) mod 32 = c mod 32).
    { destruct (Z.ltb_spec (l mod 32 + n) 32) as [C|C]; [|apply Z.mod_mod; lia]. destruct (mod_case (l + n) 32 (l / 32) (l mod 32 + n) ltac:(lia) ltac:(lia) ltac:(lia)) as [-> _]. destruct (mod_case c 32 h (l mod 32 + n) ltac:(lia) ltac:(unfold c; lia) ltac:(lia)) as [-> _]. reflexivity. }
    pose proof (Z.div_mod c 32 ltac:(lia)) as DC. pose proof (Z.mod_pos_bound c 32 ltac:(lia)) as BC. pose proof (Z.div_mod (c / 32) 256 ltac:(lia)) as DD. pose proof (Z.mod_pos_bound (c / 32) 256 ltac:(lia)) as BD.
    assert (C8 : c / 8192 = c / 32 / 256) by (rewrite Z.div_div by lia; reflexivity).
    rewrite C1. set (c2 := (c / 32) mod 256 * 32 + c mod 32 + k).
    replace (h * 32 + l mod 32 + (n + k)) with (c2 + c / 8192 * 8192) by (rewrite C8; unfold c2, c in *; lia).
    assert (E32 : (c2 + c / 8192 * 8192) mod 32 = c2 mod 32) by (replace (c / 8192 * 8192) with ((c / 8192 * 256) * 32) by lia; apply Z.mod_add; lia).
    assert (E32d : (c2 + c / 8192 * 8192) / 32 = c2 / 32 + c / 8192 * 256) by (replace (c / 8192 * 8192) with ((c / 8192 * 256) * 32) by lia; apply Z.div_add; lia).
    rewrite E32, E32d. rewrite Z.mod_add by lia. rewrite Z.div_add by lia. f_equal; [f_equal|lia].
    destruct (Z.ltb_spec (l mod 32 + n) 32) as [C|C].
    + destruct (mod_case c 32 h (l mod 32 + n) ltac:(lia) ltac:(unfold c; lia) ltac:(lia)) as [E1 E2]. rewrite E1 in *.
      replace (l mod 32 + (n + k) <? 32) with (l mod 32 + n + k <? 32) by lia. destruct (Z.ltb_spec (l mod 32 + n + k) 32); [lia|reflexivity].
    + replace (l mod 32 + (n + k) <? 32) with false by lia. destruct (Z.ltb_spec (c mod 32 + k) 32) as [C2|C2]; [|reflexivity].
      symmetry. destruct (mod_case c2 32 ((c / 32) mod 256) (c mod 32 + k) ltac:(lia) ltac:(unfold c2; lia) ltac:(lia)) as [-> _]. reflexivity.
  - set (c := h * 256 + l + n) in *. pose proof (Z.div_mod c 256 ltac:(lia)) as DC. pose proof (Z.mod_pos_bound c 256 ltac:(lia)) as BC. pose proof (Z.div_mod (c / 256) 256 ltac:(lia)) as DD. pose proof (Z.mod_pos_bound (c / 256) 256 ltac:(lia)) as BD.
    assert (C8 : c / 65536 = c / 256 / 256) by (rewrite Z.div_div by lia; reflexivity).
    set (c2 := (c / 256) mod 256 * 256 + c mod 256 + k).
    replace (h * 256 + l + (n + k)) with (c2 + c / 65536 * 65536) by (rewrite C8; unfold c2, c in *; lia).
    assert (E32 : (c2 + c / 65536 * 65536) mod 256 = c2 mod 256) by (replace (c / 65536 * 65536) with ((c / 65536 * 256) * 256) by lia; apply Z.mod_add; lia).
    assert (E32d : (c2 + c / 65536 * 65536) / 256 = c2 / 256 + c / 65536 * 256) by (replace (c / 65536 * 65536) with ((c / 65536 * 256) * 256) by lia; apply Z.div_add; lia).
    rewrite E32, E32d. rewrite Z.mod_add by lia. rewrite Z.div_add by lia. f_equal; try reflexivity; lia.
  - destruct (Z.ltb_spec (l + n - 256) 0) as [C|C].
    + replace (l + n + k - 256) with (l + (n + k) - 256) by lia. replace (l + n + k) with (l + (n + k)) by lia. destruct (Z.ltb_spec (l + (n + k) - 256) 0); reflexivity.
    + replace (l + (n + k) - 256 <? 0) with false by lia. set (d := l + n - 256) in *. set (P := 256 - h) in *.
      pose proof (Z.div_mod d P ltac:(lia)) as DM. pose proof (Z.mod_pos_bound d P ltac:(lia)) as BM.
      replace (l + (n + k) - 256) with (d + k) by (unfold d; lia). replace (h + d mod P + k - 256) with (d mod P + k - P) by (unfold P; lia).
      destruct (Z.ltb_spec (d mod P + k - P) 0) as [C2|C2].
      * destruct (mod_case (d + k) P (d / P) (d mod P + k) ltac:(lia) ltac:(lia) ltac:(lia)) as [-> ->]. f_equal; [f_equal|]; lia.
      * replace (d + k) with (d mod P + k - P + (d / P + 1) * P) by lia. rewrite Z.mod_add, Z.div_add by lia. f_equal; lia.
Qed.
