From Verif Require Import Base Tm2Model Tm2Spec.

Definition byte (v : Z) : Prop := 0 <= v < 256.
Lemma byte_mod v : byte (v mod 256).
Proof. apply Z.mod_pos_bound. lia. Qed.
Lemma has_bit v k : 0 <= k -> has v (2 ^ k) = Z.testbit v k.
Proof.
  intros K. unfold has. destruct (Z.testbit v k) eqn:T.
  - apply negb_true_iff, Z.eqb_neq. intros E. assert (Z.testbit (Z.land v (2 ^ k)) k = false) by (rewrite E; apply Z.bits_0). rewrite Z.land_spec, T, Z.pow2_bits_true in H by lia. discriminate.
  - apply negb_false_iff, Z.eqb_eq. apply Z.bits_inj'. intros j J. rewrite Z.land_spec, Z.pow2_bits_eqb, Z.bits_0 by lia. destruct (Z.eqb_spec k j); [subst j; rewrite T; reflexivity|apply andb_false_r].
Qed.
Lemma has1 v : has v 1 = Z.testbit v 0. Proof. apply (has_bit v 0). lia. Qed.
Lemma has2 v : has v 2 = Z.testbit v 1. Proof. apply (has_bit v 1). lia. Qed.
Lemma has4 v : has v 4 = Z.testbit v 2. Proof. apply (has_bit v 2). lia. Qed.
Lemma has8 v : has v 8 = Z.testbit v 3. Proof. apply (has_bit v 3). lia. Qed.
Lemma has16 v : has v 16 = Z.testbit v 4. Proof. apply (has_bit v 4). lia. Qed.
Lemma has32 v : has v 32 = Z.testbit v 5. Proof. apply (has_bit v 5). lia. Qed.
Lemma bit_mod256 v k : 0 <= k < 8 -> Z.testbit (v mod 256) k = Z.testbit v k.
Proof. intros K. change 256 with (2 ^ 8). apply Z.mod_pow2_bits_low. lia. Qed.
Lemma byte_high v j : byte v -> 8 <= j -> Z.testbit v j = false.
Proof. intros B J. rewrite <- (Z.mod_small v (2 ^ 8)) by exact B. apply Z.mod_pow2_bits_high. lia. Qed.
Lemma or_byte v m : byte v -> byte m -> byte (Z.lor v m).
Proof.
  intros A B. assert (E : Z.lor v m = Z.lor v m mod 2 ^ 8); [|rewrite E; apply (Z.mod_pos_bound _ 256); lia].
  apply Z.bits_inj'. intros j J. destruct (Z.ltb_spec j 8) as [C|C]; [rewrite Z.mod_pow2_bits_low by lia; reflexivity|]. rewrite Z.mod_pow2_bits_high, Z.lor_spec, !byte_high by (assumption || lia). reflexivity.
Qed.
Lemma xor_byte v m : byte v -> byte m -> byte (Z.lxor v m).
Proof.
  intros A B. assert (E : Z.lxor v m = Z.lxor v m mod 2 ^ 8); [|rewrite E; apply (Z.mod_pos_bound _ 256); lia].
  apply Z.bits_inj'. intros j J. destruct (Z.ltb_spec j 8) as [C|C]; [rewrite Z.mod_pow2_bits_low by lia; reflexivity|]. rewrite Z.mod_pow2_bits_high, Z.lxor_spec, !byte_high by (assumption || lia). reflexivity.
Qed.
Lemma pow_bit j n : 0 <= n -> Z.testbit (2 ^ n) j = (j =? n).
Proof. intros N. destruct (Z.ltb_spec j 0) as [C|C]; [rewrite Z.testbit_neg_r by lia; lia|]. rewrite Z.pow2_bits_eqb by lia. apply Z.eqb_sym. Qed.
Lemma or_TF v j : Z.testbit (Z.lor v bmTF2) j = Z.testbit v j || (j =? 7).
Proof. rewrite Z.lor_spec. change bmTF2 with (2 ^ 7). rewrite pow_bit by lia. reflexivity. Qed.
Lemma or_EXF v j : Z.testbit (Z.lor v bmEXF2) j = Z.testbit v j || (j =? 6).
Proof. rewrite Z.lor_spec. change bmEXF2 with (2 ^ 6). rewrite pow_bit by lia. reflexivity. Qed.
Lemma with_bit_byte v k on : byte v -> 0 <= k < 8 -> byte (with_bit v k on).
Proof. intros V K. unfold with_bit. destruct on; [apply or_byte; [exact V|]|apply byte_mod]. unfold byte. assert (k = 0 \/ k = 1 \/ k = 2 \/ k = 3 \/ k = 4 \/ k = 5 \/ k = 6 \/ k = 7) as [-> | [-> | [-> | [-> | [-> | [-> | [-> | ->]]]]]]] by lia; cbn; lia. Qed.
Lemma with_bit_test v k on j : 0 <= k < 8 -> 0 <= j < 8 -> Z.testbit (with_bit v k on) j = if k =? j then on else Z.testbit v j.
Proof.
  intros K J. unfold with_bit. destruct on.
  - rewrite Z.lor_spec, pow_bit by lia. rewrite Z.eqb_sym. destruct (Z.eqb_spec k j); [apply orb_true_r|apply orb_false_r].
  - rewrite bit_mod256, Z.land_spec, Z.lnot_spec, pow_bit by lia. rewrite Z.eqb_sym. destruct (Z.eqb_spec k j); cbn [negb]; [apply andb_false_r|apply andb_true_r].
Qed.
Lemma with_bit_spec v k on : byte v -> 0 <= k < 8 -> with_bit v k on = if on then Z.setbit v k else Z.clearbit v k.
Proof.
  intros V K. unfold with_bit. destruct on; [rewrite Z.setbit_spec'; reflexivity|]. rewrite Z.clearbit_spec'. apply Z.bits_inj'. intros j J. change 256 with (2 ^ 8). destruct (Z.ltb_spec j 8) as [C|C].
  - rewrite Z.mod_pow2_bits_low, Z.land_spec, Z.ldiff_spec, Z.lnot_spec by lia. reflexivity.
  - rewrite Z.mod_pow2_bits_high, Z.ldiff_spec, byte_high by (assumption || lia). reflexivity.
Qed.

(** ** Reachable states *)
Record inv (d : bool) (s : st) : Prop := {
  i_con : byte (t2con s); i_tl : byte (tl2 s); i_th : byte (th2 s); i_rl : byte (rcapl s); i_rh : byte (rcaph s); i_p1 : byte (p1 s); i_pins : byte (pins s);
  i_md : md s = mode_by (t2con s) d; i_ct : CT s = bit (t2con s) bCT2; i_tr : TR s = bit (t2con s) bTR2; i_ex : EXEN s = bit (t2con s) bEXEN2;
  i_te : 0 <= T_edge s; i_xe : 0 <= ex_edge s; i_xb : ex_bit s = high (pin 1 s) }.

(** the low bits of T2CON say everything *)
Definition same_ctl (a b : Z) : Prop := forall j, 0 <= j < 6 -> Z.testbit a j = Z.testbit b j.
Lemma mode_same a b d : same_ctl a b -> mode_by a d = mode_by b d.
Proof. intros H. unfold mode_by, bit, bRCLK, bTCLK, bCP. rewrite !H by lia. reflexivity. Qed.
Lemma flag_same v m : m = bmTF2 \/ m = bmEXF2 -> same_ctl (Z.lor v m) v.
Proof. intros [-> | ->] j J; [rewrite or_TF|rewrite or_EXF]; [replace (j =? 7) with false by lia|replace (j =? 6) with false by lia]; apply orb_false_r. Qed.

(** ** 16 bit counting *)
Definition put (v : Z) (s : st) : st := set_th (v / 256) (set_tl (v mod 256) s).
Definition up (f : st -> st) (s : st) : st :=
  let s := set_tl (tl2 s + 1) s in
  if tl2 s =? 0 then let s := set_th (th2 s + 1) s in if th2 s =? 0 then f s else s else s.
Lemma up_ok f s : byte (tl2 s) -> byte (th2 s) -> up f s = if count_of s =? 65535 then f (put 0 s) else put (count_of s + 1) s.
Proof.
  intros L H. unfold byte in *. unfold up, count_of, put. destruct s as [con tmod tl th rl rh p pn m ct tr ex te xe xb o]. cbn [set_tl set_th tl2 th2 t2con t2mod rcapl rcaph p1 pins md CT TR EXEN T_edge ex_edge ex_bit ov] in *.
  destruct (Z.eq_dec tl 255) as [-> | N].
  - change ((255 + 1) mod 256) with 0. cbn [Z.eqb]. destruct (Z.eq_dec th 255) as [-> | M].
    + reflexivity.
    + rewrite (Z.mod_small (th + 1) 256) by lia. replace (th + 1 =? 0) with false by lia. replace (th * 256 + 255 =? 65535) with false by lia.
      replace (th * 256 + 255 + 1) with ((th + 1) * 256) by lia. rewrite Z.div_mul, Z.mod_mul by lia. unfold set_th, set_tl. cbn [tl2 th2 t2con t2mod rcapl rcaph p1 pins md CT TR EXEN T_edge ex_edge ex_bit ov]. rewrite ?(Z.mod_small (th + 1)) by lia. reflexivity.
  - rewrite (Z.mod_small (tl + 1)) by lia. replace (tl + 1 =? 0) with false by lia. replace (th * 256 + tl =? 65535) with false by lia.
    replace (th * 256 + tl + 1) with (tl + 1 + th * 256) by lia. rewrite Z.div_add, Z.mod_add by lia. rewrite (Z.mod_small (tl + 1)), (Z.div_small (tl + 1)) by lia. rewrite Z.add_0_l. unfold set_th, set_tl. cbn [tl2 th2 t2con t2mod rcapl rcaph p1 pins md CT TR EXEN T_edge ex_edge ex_bit ov]. rewrite ?(Z.mod_small th), ?(Z.mod_small (tl + 1)) by lia. reflexivity.
Qed.
Lemma put_count v s : 0 <= v < 65536 -> count_of (put v s) = v.
Proof.
  intros V. unfold count_of, put. cbn [set_tl set_th tl2 th2]. pose proof (Z.div_mod v 256 ltac:(lia)). assert (0 <= v / 256 < 256) by (split; [apply Z.div_pos; lia|apply Z.div_lt_upper_bound; lia]). rewrite (Z.mod_small (v / 256)), Z.mod_mod by lia. lia.
Qed.
Lemma load_put s : byte (rcapl s) -> byte (rcaph s) -> load s = put (reload_of s) s.
Proof.
  intros L H. unfold byte in *. unfold load, put, reload_of. replace (rcaph s * 256 + rcapl s) with (rcapl s + rcaph s * 256) by lia. rewrite Z.div_add, Z.mod_add by lia. rewrite (Z.mod_small (rcapl s) 256), (Z.div_small (rcapl s) 256) by lia. destruct s; reflexivity.
Qed.
Lemma put_put a b s : put a (put b s) = put a s.
Proof. destruct s; reflexivity. Qed.
Lemma count_range d s : inv d s -> 0 <= count_of s < 65536.
Proof. intros I. pose proof (i_tl _ _ I). pose proof (i_th _ _ I). unfold byte, count_of in *. lia. Qed.
Lemma reload_range d s : inv d s -> 0 <= reload_of s < 65536.
Proof. intros I. pose proof (i_rl _ _ I). pose proof (i_rh _ _ I). unfold byte, reload_of in *. lia. Qed.
Lemma put_inv d v s : inv d s -> inv d (put v s).
Proof. intros [? ? ? ? ? ? ? ? ? ? ? ? ? ?]. constructor; try assumption; apply byte_mod. Qed.
Lemma flag_inv d m s : m = bmTF2 \/ m = bmEXF2 -> inv d s -> inv d (set_flag m s).
Proof.
  intros M I. pose proof (flag_same (t2con s) m M) as F. pose proof I as [? ? ? ? ? ? ? A B C D ? ? ?].
  assert (BM : byte m) by (destruct M as [-> | ->]; unfold byte, bmTF2, bmEXF2; lia). assert (BO : byte (Z.lor (t2con s) m)) by (apply or_byte; assumption).
  assert (E : t2con (set_flag m s) = Z.lor (t2con s) m) by (cbn; apply Z.mod_small, BO).
  constructor; try assumption; rewrite ?E; try assumption; change (md (set_flag m s)) with (md s) || change (CT (set_flag m s)) with (CT s) || change (TR (set_flag m s)) with (TR s) || change (EXEN (set_flag m s)) with (EXEN s).
  - rewrite (mode_same _ _ _ F). exact A.
  - unfold bit, bCT2 in *. rewrite F by lia. exact B.
  - unfold bit, bTR2 in *. rewrite F by lia. exact C.
  - unfold bit, bEXEN2 in *. rewrite F by lia. exact D.
Qed.
Lemma edges_inv d te xe s : inv d s -> 0 <= te -> 0 <= xe -> inv d (set_edges te xe (ex_bit s) s).
Proof. intros [? ? ? ? ? ? ? ? ? ? ? ? ? ?] T X. constructor; assumption. Qed.
Lemma rcap_inv d h l s : inv d s -> inv d (set_rcap h l s).
Proof. intros [? ? ? ? ? ? ? ? ? ? ? ? ? ?]. constructor; try assumption; apply byte_mod. Qed.

(** ** The laws *)
Lemma up0 r c : c < 65536 -> law_up r c 0 = (c, 0).
Proof. intros C. unfold law_up. replace (c + 0 - 65536 <? 0) with true by lia. f_equal. lia. Qed.
Lemma up_next r c n : 0 <= r < 65536 -> 0 <= c < 65536 -> 0 <= n ->
  law_up r c (1 + n) = if c =? 65535 then (fst (law_up r r n), 1 + snd (law_up r r n)) else law_up r (c + 1) n.
Proof.
  intros R C N. unfold law_up. destruct (Z.eqb_spec c 65535) as [-> | E].
  - replace (65535 + (1 + n) - 65536) with n by lia. replace (n <? 0) with false by lia. set (P := 65536 - r). destruct (Z.ltb_spec (r + n - 65536) 0) as [H|H]; cbn [fst snd].
    + rewrite (Z.mod_small n P), (Z.div_small n P) by lia. f_equal. 
    + replace (r + n - 65536) with (n + (-1) * P) by lia. rewrite Z.mod_add, Z.div_add by lia. f_equal. lia.
  - replace (c + (1 + n)) with (c + 1 + n) by lia. reflexivity.
Qed.
Lemma up_range r c n : 0 <= r < 65536 -> 0 <= c < 65536 -> 0 <= n -> 0 <= fst (law_up r c n) < 65536 /\ 0 <= snd (law_up r c n).
Proof.
  intros R C N. unfold law_up. destruct (Z.ltb_spec (c + n - 65536) 0) as [H|H]; cbn [fst snd]; [lia|]. pose proof (Z.mod_pos_bound (c + n - 65536) (65536 - r) ltac:(lia)). assert (0 <= (c + n - 65536) / (65536 - r)) by (apply Z.div_pos; lia). lia.
Qed.
Lemma wrap_next c n : 0 <= c < 65536 -> law_wrap c (1 + n) = if c =? 65535 then (fst (law_wrap 0 n), 1 + snd (law_wrap 0 n)) else law_wrap (c + 1) n.
Proof.
  intros C. unfold law_wrap. destruct (Z.eqb_spec c 65535) as [-> | E]; cbn [fst snd].
  - replace (65535 + (1 + n)) with (0 + n + 1 * 65536) by lia. rewrite Z.mod_add, Z.div_add by lia. f_equal. lia.
  - replace (c + (1 + n)) with (c + 1 + n) by lia. reflexivity.
Qed.
Lemma wrap0 c : 0 <= c < 65536 -> law_wrap c 0 = (c, 0).
Proof. intros C. unfold law_wrap. rewrite Z.add_0_r, Z.mod_small, Z.div_small by lia. reflexivity. Qed.
Lemma down0 r c : r <= c -> law_down r c 0 = (c, 0).
Proof. intros C. unfold law_down. replace (0 - (c - r + 1) <? 0) with true by lia. f_equal. lia. Qed.
Lemma down_next r c n : 0 <= r < 65536 -> r <= c < 65536 -> 0 <= n ->
  law_down r c (1 + n) = if c =? r then (fst (law_down r 65535 n), 1 + snd (law_down r 65535 n)) else law_down r (c - 1) n.
Proof.
  intros R C N. unfold law_down. destruct (Z.eqb_spec c r) as [-> | E].
  - replace (1 + n - (r - r + 1)) with n by lia. replace (n <? 0) with false by lia. set (P := 65536 - r). destruct (Z.ltb_spec (n - (65535 - r + 1)) 0) as [H|H]; cbn [fst snd].
    + rewrite (Z.mod_small n P), (Z.div_small n P) by lia. f_equal.
    + replace (n - (65535 - r + 1)) with (n + (-1) * P) by lia. rewrite Z.mod_add, Z.div_add by lia. f_equal. lia.
  - replace (n - (c - 1 - r + 1)) with (1 + n - (c - r + 1)) by lia. replace (c - 1 - n) with (c - (1 + n)) by lia. reflexivity.
Qed.
Lemma down_range r c n : 0 <= r < 65536 -> r <= c < 65536 -> 0 <= n -> r <= fst (law_down r c n) < 65536 /\ 0 <= snd (law_down r c n).
Proof.
  intros R C N. unfold law_down. destruct (Z.ltb_spec (n - (c - r + 1)) 0) as [H|H]; cbn [fst snd]; [lia|]. pose proof (Z.mod_pos_bound (n - (c - r + 1)) (65536 - r) ltac:(lia)). assert (0 <= (n - (c - r + 1)) / (65536 - r)) by (apply Z.div_pos; lia). lia.
Qed.
