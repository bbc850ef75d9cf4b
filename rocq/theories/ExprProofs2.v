(** The actions of the rules mean what the trees mean. *)
From Verif Require Import Base ExprTab ExprModel ExprSpec ExprProofs.

Lemma signed32 n : i32 n = signed 32 n.
Proof.
  unfold i32, u32, signed. change (2 ^ (32 - 1)) with 2147483648. change (2 ^ 32) with 4294967296.
  pose proof (Z.mod_pos_bound n 4294967296 ltac:(lia)). pose proof (Z.mod_pos_bound (n + 2147483648) 4294967296 ltac:(lia)).
  pose proof (Z.div_mod n 4294967296 ltac:(lia)). pose proof (Z.div_mod (n + 2147483648) 4294967296 ltac:(lia)).
  destruct (Z.ltb_spec (n mod 4294967296) 2147483648); nia.
Qed.
Lemma signed64 n : i64 n = signed 64 n.
Proof.
  unfold i64, signed. change (2 ^ (64 - 1)) with 9223372036854775808. change (2 ^ 63) with 9223372036854775808. change (2 ^ 64) with 18446744073709551616.
  pose proof (Z.mod_pos_bound n 18446744073709551616 ltac:(lia)). pose proof (Z.mod_pos_bound (n + 9223372036854775808) 18446744073709551616 ltac:(lia)).
  pose proof (Z.div_mod n 18446744073709551616 ltac:(lia)). pose proof (Z.div_mod (n + 9223372036854775808) 18446744073709551616 ltac:(lia)).
  destruct (Z.ltb_spec (n mod 18446744073709551616) 9223372036854775808); nia.
Qed.
Lemma binary_ok o a b : binary (binop_tok o) a b = c_binop o a b.
Proof.
  destruct o; try reflexivity.
  - change (binary (binop_tok Mod) a b) with (if b =? 0 then UB else _ <- long (Z.quot a b) ;; Ok (Z.rem a b)).
    cbn [c_binop]. destruct (b =? 0) eqn:B; [reflexivity|]. unfold long, fit. destruct (_ && _); [|reflexivity]. cbn [rbind]. f_equal.
    pose proof (Z.quot_rem' a b). lia.
  - change (binary (binop_tok Shl) a b) with (n <- cnt64 b ;; Ok (i64 (a * 2 ^ n))).
    cbn [c_binop]. unfold cnt64. destruct (_ && _); [|reflexivity]. cbn [rbind]. rewrite signed64. reflexivity.
  - change (binary (binop_tok Shr) a b) with (n <- cnt64 b ;; Ok (Z.shiftr a n)).
    cbn [c_binop]. unfold cnt64. destruct ((0 <=? b) && (b <? 64)) eqn:B; [|reflexivity]. cbn [rbind]. rewrite Z.shiftr_div_pow2 by lia. reflexivity.
Qed.
Lemma assign_ok o a b : assign_val (asgop_tok o) a b = c_assign o a b.
Proof.
  destruct o; try reflexivity.
  - change (assign_val (asgop_tok AMod) a b) with (if b =? 0 then UB else Ok (Z.rem a b)).
    cbn [c_assign]. destruct (b =? 0); [reflexivity|]. f_equal. pose proof (Z.quot_rem' a b). lia.
  - change (assign_val (asgop_tok AShl) a b) with (k <- cnt32 b ;; Ok (a * 2 ^ k)).
    cbn [c_assign]. unfold cnt32. destruct (_ && _); reflexivity.
  - change (assign_val (asgop_tok AShr) a b) with (k <- cnt32 b ;; Ok (Z.shiftr a k)).
    cbn [c_assign]. unfold cnt32. destruct ((0 <=? b) && (b <? 32)) eqn:B; [|reflexivity]. cbn [rbind]. rewrite Z.shiftr_div_pow2 by lia. reflexivity.
Qed.

(* ------------------------------------------------------------- bit fields *)
Lemma mask_loop_ok n : forall i m, (0 < n)%nat ->
  mask_loop n i m = if (0 <=? i) && (i + Z.of_nat n <=? 32) then Ok (Z.lor m (Z.ones (Z.of_nat n) * 2 ^ i)) else UB.
Proof.
  induction n as [|n IH]; intros i m P; [lia|]. cbn [mask_loop]. destruct (Nat.eq_dec n 0) as [->|N0].
  - cbn [mask_loop]. change (Z.of_nat 1) with 1. change (Z.ones 1) with 1. rewrite Z.mul_1_l.
    destruct ((0 <=? i) && (i <? 32)) eqn:B; destruct ((0 <=? i) && (i + 1 <=? 32)) eqn:C; try reflexivity; lia.
  - destruct ((0 <=? i) && (i <? 32)) eqn:B.
    + rewrite IH by lia. destruct ((0 <=? i + 1) && (i + 1 + Z.of_nat n <=? 32)) eqn:C; destruct ((0 <=? i) && (i + Z.of_nat (S n) <=? 32)) eqn:D; try reflexivity; try lia.
      f_equal. rewrite <- Z.lor_assoc. f_equal. apply Z.bits_inj'. intros j J.
      rewrite Z.lor_spec, Z.pow2_bits_eqb by lia. rewrite <- !Z.shiftl_mul_pow2, !Z.shiftl_spec by lia.
      rewrite !Z.testbit_ones by lia. lia.
    + destruct ((0 <=? i) && (i + Z.of_nat (S n) <=? 32)) eqn:D; [lia|reflexivity].
Qed.
Definition maskv (lo hi : Z) : Z := if hi <? lo then 0 else Z.ones (hi - lo + 1) * 2 ^ lo.
Lemma bit_mask_ok lo hi : bit_mask lo hi = if (hi <? lo) || ((0 <=? lo) && (hi <? 32)) then Ok (maskv lo hi) else UB.
Proof.
  unfold bit_mask, maskv. destruct (Z.ltb_spec hi lo) as [H|H].
  - replace (33 <? hi - lo) with false by lia. replace (Z.to_nat (hi - lo + 1)) with 0%nat by lia. reflexivity.
  - destruct (Z.ltb_spec 33 (hi - lo)); [cbn [orb]; replace ((0 <=? lo) && (hi <? 32)) with false by lia; reflexivity|].
    rewrite mask_loop_ok by lia. rewrite Z2Nat.id by lia. cbn [orb]. replace (lo + (hi - lo + 1) <=? 32) with (hi <? 32) by lia.
    destruct (_ && _); [|reflexivity]. rewrite Z.lor_0_l. reflexivity.
Qed.
Lemma land_mask lo hi v : 0 <= lo -> Z.land v (maskv lo hi) = field lo hi v * 2 ^ lo.
Proof.
  intros L. unfold maskv, field. destruct (Z.ltb_spec hi lo); [rewrite Z.land_0_r; reflexivity|].
  rewrite <- !Z.shiftl_mul_pow2 by lia. apply Z.bits_inj'. intros j J. rewrite Z.land_spec, !Z.shiftl_spec by lia.
  destruct (Z.ltb_spec j lo) as [C|C].
  - rewrite (Z.testbit_neg_r (Z.ones _)), (Z.testbit_neg_r (_ mod _)) by lia. apply andb_false_r.
  - rewrite Z.testbit_ones by lia. destruct (Z.ltb_spec (j - lo) (hi - lo + 1)) as [D|D].
    + rewrite Z.mod_pow2_bits_low by lia. rewrite Z.div_pow2_bits by lia. replace (j - lo + lo) with j by lia. replace (0 <=? j - lo) with true by lia. apply andb_true_r.
    + rewrite Z.mod_pow2_bits_high by lia. rewrite andb_false_r, andb_false_r. reflexivity.
Qed.
Lemma land_unmask lo hi v : 0 <= lo -> hi < 32 -> 0 <= v < 2 ^ 32 -> Z.land v (2 ^ 32 - 1 - maskv lo hi) = v - field lo hi v * 2 ^ lo.
Proof.
  intros L H V. rewrite <- land_mask by exact L.
  assert (MB : forall j, 32 <= j -> Z.testbit (maskv lo hi) j = false).
  { intros j J. unfold maskv. destruct (Z.ltb_spec hi lo); [apply Z.bits_0|]. rewrite <- Z.shiftl_mul_pow2, Z.shiftl_spec, Z.testbit_ones by lia. lia. }
  assert (E1 : 2 ^ 32 - 1 - maskv lo hi = Z.ldiff (Z.ones 32) (maskv lo hi)).
  { rewrite <- Z.sub_nocarry_ldiff; [reflexivity|]. apply Z.bits_inj'. intros j J. rewrite Z.ldiff_spec, Z.bits_0, Z.testbit_ones by lia.
    destruct (Z.ltb_spec j 32); [replace (0 <=? j) with true by lia; rewrite andb_true_l; cbn [negb]; apply andb_false_r|]. rewrite MB by lia. reflexivity. }
  rewrite E1. rewrite Z.sub_nocarry_ldiff.
  - apply Z.bits_inj'. intros j J. rewrite Z.land_spec, !Z.ldiff_spec, Z.land_spec, Z.testbit_ones by lia.
    destruct (Z.ltb_spec j 32) as [C|C]; [replace (0 <=? j) with true by lia|].
    + destruct (Z.testbit v j), (Z.testbit (maskv lo hi) j); reflexivity.
    + assert (Z.testbit v j = false) as ->; [|rewrite !andb_false_l; reflexivity].
      destruct (Z.eq_dec v 0) as [->|NZ]; [apply Z.bits_0|]. apply Z.bits_above_log2; [lia|]. apply Z.log2_lt_pow2; [lia|]. pose proof (Z.pow_le_mono_r 2 32 j ltac:(lia) C). lia.
  - apply Z.bits_inj'. intros j J. rewrite Z.ldiff_spec, Z.land_spec, Z.bits_0. destruct (Z.testbit v j), (Z.testbit (maskv lo hi) j); reflexivity.
Qed.

Section Sem.
Context (M : machine).
Notation W := (World M).
Lemma rd_load (w : W) m a : rd M w m a = load M w m a.
Proof. reflexivity. Qed.
Lemma wr_store (w : W) m a v : wr M w m a v = store M w m a v.
Proof. reflexivity. Qed.
Lemma crd_load (w : W) c : crd M w c = loadr M w c.
Proof. reflexivity. Qed.
Lemma cwr_store (w : W) c v : cwr M w c v = storer M w c v.
Proof. reflexivity. Qed.
Lemma word_range n : 0 <= word n < 2 ^ 32.
Proof. unfold word. apply Z.mod_pos_bound. reflexivity. Qed.
Lemma read_bits_ok (w : W) m a hi lo : read_bits M w m a hi lo =
  if bits_ok lo hi then Ok (field lo hi (fst (load M w m a)), snd (load M w m a)) else UB.
Proof.
  unfold read_bits. rewrite bit_mask_ok, rd_load. unfold bits_ok, load. set (v := word _). set (w1 := snd _).
  destruct ((hi <? lo) || ((0 <=? lo) && (hi <? 32))) eqn:B; cbn [rbind].
  - unfold cnt32. destruct ((0 <=? lo) && (lo <? 32)) eqn:C; cbn [rbind andb]; [|reflexivity].
    replace (hi <? 32) with true by lia. rewrite land_mask by lia. rewrite Z.shiftr_div_pow2 by lia. rewrite Z.div_mul by (apply Z.pow_nonzero; lia). reflexivity.
  - replace ((0 <=? lo) && (lo <? 32) && (hi <? 32)) with false by lia. reflexivity.
Qed.
Lemma assign_bits_ok (w : W) m a hi lo n : assign_bits M w m a hi lo n =
  let '(old, w5) := load M w m a in
  if bits_ok lo hi || ((hi <? lo) && (0 <=? lo) && (lo <? 64))
  then Ok (put_bits lo hi old n, store M w5 m a (put_bits lo hi old n)) else UB.
Proof.
  unfold assign_bits. rewrite bit_mask_ok, rd_load. unfold bits_ok. destruct (load M w m a) as [old w5] eqn:LD.
  assert (V : 0 <= old < 2 ^ 32) by (unfold load in LD; injection LD as <- _; apply word_range).
  destruct ((hi <? lo) || ((0 <=? lo) && (hi <? 32))) eqn:B; cbn [rbind].
  - unfold cnt64. destruct ((0 <=? lo) && (lo <? 64)) eqn:C; cbn [rbind].
    + replace ((0 <=? lo) && (lo <? 32) && (hi <? 32) || (hi <? lo) && (0 <=? lo) && (lo <? 64)) with true by lia.
      rewrite land_mask by lia. rewrite Z.shiftl_mul_pow2 by lia. rewrite wr_store. unfold put_bits.
      destruct (Z.ltb_spec hi lo) as [H|H].
      * unfold maskv. replace (hi <? lo) with true by lia. assert (field lo hi old = 0) as -> by (unfold field; replace (hi <? lo) with true by lia; reflexivity).
        assert (E : Z.land old (2 ^ 32 - 1 - 0) = old - 0 * 2 ^ lo); [|rewrite E; reflexivity].
        rewrite Z.sub_0_r, Z.mul_0_l, Z.sub_0_r. change (2 ^ 32 - 1) with (Z.ones 32). rewrite Z.land_ones by lia. apply Z.mod_small, V.
      * rewrite land_unmask by lia. reflexivity.
    + replace ((0 <=? lo) && (lo <? 32) && (hi <? 32) || (hi <? lo) && (0 <=? lo) && (lo <? 64)) with false by lia. reflexivity.
  - replace ((0 <=? lo) && (lo <? 32) && (hi <? 32) || (hi <? lo) && (0 <=? lo) && (lo <? 64)) with false by lia. reflexivity.
Qed.
Lemma cast_ok (w : W) m a : cast_int M w m a =
  let '(v, w2) := load M w m a in
  if (0 <? m_width M m) && (m_width M m <=? 32) then Ok (sign_extend (m_width M m) v, w2) else UB.
Proof.
  unfold cast_int. rewrite rd_load. destruct (load M w m a) as [v w2]. unfold cnt32, sign_extend.
  replace ((0 <=? m_width M m - 1) && (m_width M m - 1 <? 32)) with ((0 <? m_width M m) && (m_width M m <=? 32)) by lia.
  destruct ((0 <? m_width M m) && (m_width M m <=? 32)) eqn:B; [|reflexivity]. cbn [rbind]. f_equal. f_equal. set (b := m_width M m - 1) in *.
  assert (0 <= b) by lia.
  assert (E : (Z.land v (2 ^ b) =? 0) = negb (Z.testbit v b)).
  { destruct (Z.testbit v b) eqn:T; cbn [negb].
    - apply Z.eqb_neq. intros Q. assert (Z.testbit (Z.land v (2 ^ b)) b = true) by (rewrite Z.land_spec, T, Z.pow2_bits_true by lia; reflexivity). rewrite Q, Z.bits_0 in *. discriminate.
    - apply Z.eqb_eq. apply Z.bits_inj'. intros j J. rewrite Z.land_spec, Z.pow2_bits_eqb, Z.bits_0 by lia. destruct (Z.eqb_spec b j); [subst j; rewrite T; reflexivity|apply andb_false_r]. }
  rewrite E. destruct (Z.testbit v b); cbn [negb]; [|reflexivity].
  replace (Z.lnot (2 ^ b - 1)) with (-1 * 2 ^ b) by (unfold Z.lnot; lia).
  replace (v mod 2 ^ b - 2 ^ b) with (-1 * 2 ^ b + v mod 2 ^ b) by lia.
  rewrite Z.add_nocarry_lxor.
  - apply Z.bits_inj'. intros j J. rewrite Z.lor_spec, Z.lxor_spec, <- Z.shiftl_mul_pow2, Z.shiftl_spec by lia.
    destruct (Z.ltb_spec j b) as [C|C].
    + rewrite (Z.testbit_neg_r (-1)) by lia. rewrite Z.mod_pow2_bits_low by lia. rewrite orb_false_r, xorb_false_l. reflexivity.
    + rewrite Z.bits_m1 by lia. rewrite Z.mod_pow2_bits_high by lia. rewrite orb_true_r. reflexivity.
  - apply Z.bits_inj'. intros j J. rewrite Z.land_spec, <- Z.shiftl_mul_pow2, Z.shiftl_spec, Z.bits_0 by lia.
    destruct (Z.ltb_spec j b) as [C|C].
    + rewrite (Z.testbit_neg_r (-1)) by lia. reflexivity.
    + rewrite Z.mod_pow2_bits_high by lia. apply andb_false_r.
Qed.
End Sem.
