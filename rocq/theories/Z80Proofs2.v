(** Z80: 8 and 16 bit arithmetic of the model against the manual. *)
From Verif Require Import Base Z80Model Z80Spec Z80Proofs.

(** the result: everything but flags, and the flags under a condition *)
Definition agree (c : Prop) (x y : M) : Prop := same_but_flags x y /\ (c -> samef (f x) (f y)).
Lemma agree_ff (c : Prop) x y : s_f (f y) x = y -> (c -> samef (f x) (f y)) -> agree c x y.
Proof. intros H K. split; [|exact K]. exact (sbf_f _ _ _ H). Qed.
Lemma agree_eq (c : Prop) x y : x = y -> agree c x y.
Proof. intros ->. split; [apply sbf_refl|]. intros _. apply samef_refl. Qed.
Lemma agree_weak (c d : Prop) x y : (d -> c) -> agree c x y -> agree d x y.
Proof. intros H [K L]. split; [exact K|]. intros D. apply L, H, D. Qed.

Lemma c01 s : cy s = 0 \/ cy s = 1.
Proof. unfold cy, fl. destruct (Z.testbit (F s) 0); lia. Qed.
Lemma u8_u8 v : u8 (u8 v) = u8 v.
Proof. apply u8_id, u8_range. Qed.
Lemma ltb_leb a b : (a <? b) = (a + 1 <=? b).
Proof. lia. Qed.
Lemma nib v c : byte v -> c = 0 \/ c = 1 -> (c = 0 \/ v mod 16 <> 15) -> (v + c) mod 16 = v mod 16 + c.
Proof.
  intros H C D. pose proof (Z.mod_pos_bound v 16 ltac:(lia)). pose proof (Z.div_mod v 16 ltac:(lia)).
  symmetry. apply Z.mod_unique with (q := v / 16); lia.
Qed.
Lemma nib12 v c : c = 0 \/ c = 1 -> (c = 0 \/ v mod 4096 <> 4095) -> (v + c) mod 4096 = v mod 4096 + c.
Proof.
  intros C D. pose proof (Z.mod_pos_bound v 4096 ltac:(lia)). pose proof (Z.div_mod v 4096 ltac:(lia)).
  symmetry. apply Z.mod_unique with (q := v / 4096); lia.
Qed.
Ltac byteflags := cbn [f abs F set_F setpair set2 s_r setr s_f setf]; flag_parts; bits; cbn [fS fZ fH fP fN fC f setf s_f setr s_r setm s_mm setpair set2 abs flags_of szp incf decf rot_acc];
  rewrite ?u8_u8.

Lemma add_A_eq c v s : wf s -> byte v -> c = 0 \/ c = 1 ->
  agree (c = 0 \/ v mod 16 <> 15) (abs (add_A c v s)) (add v c (abs s)).
Proof.
  intros W Hv Hc. pose proof (wf_A s W) as HA. apply agree_ff.
  - unfold add_A, add. cbv zeta.
    change (acc (abs s)) with (A s). unfold wR. rewrite u8_u8.
    replace (A s + v + c) with (A s + (v + c)) by lia. reflexivity.
  - intros D. unfold add_A, add. cbv zeta. change (acc (abs s)) with (A s).
    replace (A s + v + c) with (A s + (v + c)) by lia. change ((A s + (v + c)) mod 256) with (u8 (A s + (v + c))).
    rewrite i8_sgn, i8_sgn by assumption. rewrite nib by assumption.
    pose proof (u8_range (A s + (v + c))) as HR. byteflags; try reflexivity.
    + apply bit7. exact HR.
    + lia.
    + unfold overflow. lia.
    + lia.
Qed.
Lemma sub_flags c v s : wf s -> byte v -> c = 0 \/ c = 1 -> c = 0 \/ v mod 16 <> 15 ->
  samef (flags_of (F (sub_A c v s))) (f (cmp v c (abs s))).
Proof.
  intros W Hv Hc D. pose proof (wf_A s W) as HA. unfold sub_A, cmp. cbv zeta. change (acc (abs s)) with (A s).
  replace (A s - v - c) with (A s - (v + c)) by lia. change ((A s - (v + c)) mod 256) with (u8 (A s - (v + c))).
  rewrite i8_sgn, i8_sgn by assumption. rewrite nib by assumption. cbn [F set_F].
  pose proof (u8_range (A s - (v + c))) as HR. byteflags; try reflexivity.
  - apply bit7. exact HR.
  - unfold overflow. lia.
  - lia.
Qed.
Lemma sub_A_eq c v s : wf s -> byte v -> c = 0 \/ c = 1 ->
  agree (c = 0 \/ v mod 16 <> 15) (abs (sub_A c v s)) (sub v c (abs s)).
Proof.
  intros W Hv Hc. apply agree_ff.
  - unfold sub_A, sub, cmp. cbv zeta. change (acc (abs s)) with (A s). unfold wR. rewrite u8_u8.
    replace (A s - v - c) with (A s - (v + c)) by lia. reflexivity.
  - intros D. exact (sub_flags c v s W Hv Hc D).
Qed.
(** the overflow as CP computes it *)
Lemma cp_overflow a v : byte a -> byte v ->
  xorb (a mod 128 <? v mod 128) (a <? v) = overflow 128 (sgn a - sgn v).
Proof.
  unfold byte. intros Ha Hv. unfold overflow, sgn.
  assert (Ea : a mod 128 = if a <? 128 then a else a - 128).
  { destruct (a <? 128) eqn:E; [apply Z.mod_small; lia|]. symmetry. apply Z.mod_unique with (q := 1); lia. }
  assert (Ev : v mod 128 = if v <? 128 then v else v - 128).
  { destruct (v <? 128) eqn:E; [apply Z.mod_small; lia|]. symmetry. apply Z.mod_unique with (q := 1); lia. }
  rewrite Ea, Ev. destruct (a <? 128) eqn:E1, (v <? 128) eqn:E2, (a <? v) eqn:E3; rewrite ?xorb_true_r, ?xorb_false_r; lia.
Qed.
Lemma cp_A_eq v s : wf s -> byte v -> agree True (abs (cp_A v s)) (cmp v 0 (abs s)).
Proof.
  intros W Hv. pose proof (wf_A s W) as HA. apply agree_ff; [reflexivity|]. intros _.
  unfold cp_A, cmp. cbv zeta. change (acc (abs s)) with (A s). replace (A s - v - 0) with (A s - v) by lia.
  assert (E0 : (A s - v =? 0) = ((A s - v) mod 256 =? 0)).
  { unfold byte in *. destruct (Z.ltb_spec (A s) v).
    - rewrite <- (Z.mod_unique (A s - v) 256 (-1) (A s - v + 256)) by lia. lia.
    - rewrite Z.mod_small by lia. reflexivity. }
  assert (E7 : Z.testbit (A s - v) 7 = (128 <=? (A s - v) mod 256)).
  { rewrite <- bit7 by apply u8_range. change 256 with (2 ^ 8). symmetry. apply Z.mod_pow2_bits_low. lia. }
  pose proof (cp_overflow (A s) v HA Hv) as EO. replace (sgn (A s) - sgn v - 0) with (sgn (A s) - sgn v) by lia. rewrite <- EO.
  replace (v mod 16 + 0) with (v mod 16) by lia. replace (A s - v <? 0) with (A s <? v) by lia.
  destruct (A s <? v) eqn:EL; byteflags; rewrite ?E7, ?E0, ?xorb_true_r; reflexivity.
Qed.
Lemma logic_eq h b r0 s : wf s -> byte r0 -> (h = 16 /\ b = true \/ h = 0 /\ b = false) ->
  agree True (abs (logic h r0 s)) (bitwise r0 b (abs s)).
Proof.
  intros W Hr Hh. apply agree_ff.
  - unfold logic, bitwise, wR. cbv zeta. rewrite u8_id by exact Hr. reflexivity.
  - intros _. unfold logic, bitwise. cbv zeta. destruct Hh as [ [-> ->] | [-> ->] ]; byteflags; try reflexivity;
      rewrite ?bit7, ?parity_even by exact Hr; reflexivity.
Qed.
Lemma land_byte a b : byte a -> byte b -> byte (Z.land a b).
Proof.
  unfold byte. intros Ha Hb. split; [apply Z.land_nonneg; lia|].
  destruct (Z.eq_dec (Z.land a b) 0) as [E|E]; [lia|]. change 256 with (2 ^ 8).
  assert (0 <= Z.land a b) by (apply Z.land_nonneg; lia).
  apply Z.log2_lt_pow2; [lia|]. pose proof (Z.log2_land a b ltac:(lia) ltac:(lia)).
  destruct (Z.eq_dec a 0) as [->|]; [rewrite Z.land_0_l in E; lia|].
  assert (Z.log2 a < 8) by (apply Z.log2_lt_pow2; lia). lia.
Qed.
Lemma bits_byte a : 0 <= a -> (forall k, 8 <= k -> Z.testbit a k = false) -> byte a.
Proof.
  intros H K. unfold byte. split; [exact H|]. replace a with (a mod 2 ^ 8); [apply Z.mod_pos_bound; lia|].
  apply Z.bits_inj'. intros n Hn. destruct (Z.ltb_spec n 8).
  - apply Z.mod_pow2_bits_low. lia.
  - rewrite Z.mod_pow2_bits_high by lia. symmetry. apply K. lia.
Qed.
Lemma byte_bits a k : byte a -> 8 <= k -> Z.testbit a k = false.
Proof.
  intros H K. rewrite <- (Z.mod_small a (2 ^ 8)) by (unfold byte in H; lia). apply Z.mod_pow2_bits_high. lia.
Qed.
Lemma lor_byte a b : byte a -> byte b -> byte (Z.lor a b).
Proof.
  intros Ha Hb. apply bits_byte; [apply Z.lor_nonneg; unfold byte in *; lia|].
  intros k K. rewrite Z.lor_spec, !byte_bits by assumption. reflexivity.
Qed.
Lemma lxor_byte a b : byte a -> byte b -> byte (Z.lxor a b).
Proof.
  intros Ha Hb. apply bits_byte; [apply Z.lxor_nonneg; unfold byte in *; lia|].
  intros k K. rewrite Z.lxor_spec, !byte_bits by assumption. reflexivity.
Qed.
Lemma alu8_eq k v s : wf s -> byte v ->
  agree (match k with ADC | SBC => ~ (fC (f (abs s)) = true /\ v mod 16 = 15) | _ => True end)
        (abs (alu8 k v s)) (arith k v (abs s)).
Proof.
  intros W Hv. pose proof (wf_A s W) as HA.
  assert (C : ~ (fC (f (abs s)) = true /\ v mod 16 = 15) -> cy s = 0 \/ v mod 16 <> 15).
  { cbn [f fC abs flags_of]. unfold cy, fl. destruct (Z.testbit (F s) 0); intros H; [right|left; reflexivity]. tauto. }
  destruct k; cbn [alu8 arith]; rewrite ?carry_cy.
  - eapply agree_weak; [|apply add_A_eq; auto]. auto.
  - eapply agree_weak; [exact C|]. apply add_A_eq; auto using c01.
  - eapply agree_weak; [|apply sub_A_eq; auto]. auto.
  - eapply agree_weak; [exact C|]. apply sub_A_eq; auto using c01.
  - apply logic_eq; auto. apply land_byte; assumption.
  - apply logic_eq; auto. apply lxor_byte; assumption.
  - apply logic_eq; auto. apply lor_byte; assumption.
  - apply cp_A_eq; assumption.
Qed.
Lemma inc_f_eq v x s : wf s -> byte v -> f x = flags_of (F s) ->
  samef (flags_of (inc_f v (F s))) (f (incf v x)) /\ samef (flags_of (dec_f v (F s))) (f (decf v x)).
Proof.
  intros W Hv Hx. unfold inc_f, dec_f. cbv zeta.
  split; byteflags; rewrite ?Hx, ?bit7 by exact Hv; reflexivity.
Qed.
(** ** 16 bits *)
Lemma add16_eq y d v s : wf s -> word v -> d <> RSP -> agree True (abs (Z80Model.add16 y d v s)) (add16 y d v (abs s)).
Proof.
  intros W Hv Hd. pose proof (W_range y d s W) as HW. unfold Z80Model.add16, add16. cbv zeta.
  rewrite wW_setpair, W_pairv. rewrite W_pairv in HW. apply agree_ff.
  - destruct d; try destruct y; reflexivity.
  - intros _. assert (E : forall v z, f (setpair y d v z) = f z) by (intros ? z; destruct d; [| | | |destruct y]; reflexivity).
    rewrite !E. byteflags; try reflexivity; lia.
Qed.
Lemma adc16_eq v s : wf s -> word v ->
  agree (~ (fC (f (abs s)) = true /\ v mod 4096 = 4095)) (abs (Z80Model.adc16 v s)) (adc16 v (abs s)).
Proof.
  intros W Hv. pose proof (W_range false HL s W) as HW. unfold Z80Model.adc16, adc16. cbv zeta.
  rewrite carry_cy. rewrite wW_setpair, (w_id (u16 _)) by apply w_range. rewrite W_pairv in *.
  set (a := pairv false HL (abs s)) in *. clearbody a. replace (a + v + cy s) with (a + (v + cy s)) by lia.
  change (u16 (a + (v + cy s))) with (w (a + (v + cy s))). apply agree_ff; [reflexivity|].
  intros C. assert (D : cy s = 0 \/ v mod 4096 <> 4095).
  { cbn [f fC abs flags_of] in C. unfold cy, fl. destruct (Z.testbit (F s) 0); [right|left; reflexivity]. tauto. }
  rewrite i16_sgn, i16_sgn by assumption. rewrite nib12 by (auto using c01).
  pose proof (w_range (a + (v + cy s))) as HR. pose proof (c01 s). set (t := a + (v + cy s)) in *.
  assert (E15 : Z.testbit (w t) 15 = (32768 <=? w t)).
  { rewrite Z.testbit_eqb by lia. change (2 ^ 15) with 32768. unfold word in HR. clearbody t. generalize dependent (w t). intros u Hu.
    Z.div_mod_to_equations. lia. }
  byteflags; try reflexivity; [exact E15|lia|unfold overflow; lia|lia].
Qed.
Lemma sbc16_eq v s : wf s -> word v ->
  agree (~ (fC (f (abs s)) = true /\ v mod 4096 = 4095)) (abs (Z80Model.sbc16 v s)) (sbc16 v (abs s)).
Proof.
  intros W Hv. pose proof (W_range false HL s W) as HW. unfold Z80Model.sbc16, sbc16. cbv zeta.
  rewrite carry_cy. rewrite wW_setpair, (w_id (u16 _)) by apply w_range. rewrite W_pairv in *.
  set (a := pairv false HL (abs s)) in *. clearbody a. replace (a - v - cy s) with (a - (v + cy s)) by lia.
  change (u16 (a - (v + cy s))) with (w (a - (v + cy s))). apply agree_ff; [reflexivity|].
  intros C. assert (D : cy s = 0 \/ v mod 4096 <> 4095).
  { cbn [f fC abs flags_of] in C. unfold cy, fl. destruct (Z.testbit (F s) 0); [right|left; reflexivity]. tauto. }
  rewrite i16_sgn, i16_sgn by assumption. rewrite nib12 by (auto using c01).
  pose proof (w_range (a - (v + cy s))) as HR. pose proof (c01 s). set (t := a - (v + cy s)) in *.
  assert (E15 : Z.testbit (w t) 15 = (32768 <=? w t)).
  { rewrite Z.testbit_eqb by lia. change (2 ^ 15) with 32768. unfold word in HR. clearbody t. generalize dependent (w t). intros u Hu.
    Z.div_mod_to_equations. lia. }
  byteflags; try reflexivity; [exact E15|unfold overflow; lia|lia].
Qed.
