(** Primitive steps of S51Model against S51Spec. *)
From Verif Require Import Base S51Model S51Spec S51Obs.

Definition Rl (s : st) (a : arch) : Prop := same_but_P (view s) a.

(* ------------------------------------------------------------- bytes *)
Lemma byte_high x n : 0 <= x < 256 -> 8 <= n -> Z.testbit x n = false.
Proof.
  intros H Hn. destruct (Z.eq_dec x 0) as [->|]; [apply Z.bits_0|].
  apply Z.bits_above_log2; [lia|].
  assert (Z.log2 x < 8); [|lia]. apply Z.log2_lt_pow2; lia.
Qed.

Lemma byte_eq x y : 0 <= x < 256 -> 0 <= y < 256 ->
  (forall n, 0 <= n < 8 -> Z.testbit x n = Z.testbit y n) -> x = y.
Proof.
  intros Hx Hy H. apply Z.bits_inj'. intros n Hn.
  destruct (Z_lt_le_dec n 8); [apply H; lia|].
  rewrite !byte_high by lia. reflexivity.
Qed.

Lemma u8_bit x n : 0 <= n -> Z.testbit (u8 x) n = (n <? 8) && Z.testbit x n.
Proof.
  intros Hn. unfold u8. change 256 with (2 ^ 8).
  destruct (n <? 8) eqn:E.
  - apply Z.mod_pow2_bits_low. lia.
  - apply Z.mod_pow2_bits_high. lia.
Qed.

Lemma land_byte x m : 0 <= x < 256 -> 0 <= Z.land x m < 256.
Proof.
  intros H.
  assert (E : Z.land x m = Z.land x m mod 2 ^ 8).
  { rewrite <- Z.land_ones by lia. apply Z.bits_inj'. intros n Hn.
    rewrite !Z.land_spec. destruct (Z_lt_le_dec n 8).
    - rewrite Z.ones_spec_low by lia. rewrite andb_true_r. reflexivity.
    - rewrite byte_high by lia. reflexivity. }
  rewrite E. apply Z.mod_pos_bound. lia.
Qed.

Lemma lor_byte x m : 0 <= x < 256 -> 0 <= m < 256 -> 0 <= Z.lor x m < 256.
Proof.
  intros H Hm.
  assert (E : Z.lor x m = Z.lor x m mod 2 ^ 8).
  { rewrite <- Z.land_ones by lia. apply Z.bits_inj'. intros n Hn.
    rewrite !Z.land_spec, !Z.lor_spec. destruct (Z_lt_le_dec n 8).
    - rewrite Z.ones_spec_low by lia. rewrite andb_true_r. reflexivity.
    - rewrite !byte_high by lia. reflexivity. }
  rewrite E. apply Z.mod_pos_bound. lia.
Qed.

Lemma lxor_byte x m : 0 <= x < 256 -> 0 <= m < 256 -> 0 <= Z.lxor x m < 256.
Proof.
  intros H Hm.
  assert (E : Z.lxor x m = Z.lxor x m mod 2 ^ 8).
  { rewrite <- Z.land_ones by lia. apply Z.bits_inj'. intros n Hn.
    rewrite !Z.land_spec, !Z.lxor_spec. destruct (Z_lt_le_dec n 8).
    - rewrite Z.ones_spec_low by lia. rewrite andb_true_r. reflexivity.
    - rewrite !byte_high by lia. reflexivity. }
  rewrite E. apply Z.mod_pos_bound. lia.
Qed.

Lemma set_bit_spec x n b m : 0 <= n -> 0 <= m ->
  Z.testbit (set_bit x n b) m = if m =? n then b else Z.testbit x m.
Proof.
  intros Hn Hm. unfold set_bit. destruct b.
  - rewrite Z.setbit_eqb by lia. rewrite (Z.eqb_sym n m). destruct (m =? n); reflexivity.
  - rewrite Z.clearbit_eqb. rewrite (Z.eqb_sym n m).
    destruct (m =? n); [apply andb_false_r|apply andb_true_r].
Qed.

Lemma set_bit_byte x n b : 0 <= x < 256 -> 0 <= n < 8 -> 0 <= set_bit x n b < 256.
Proof.
  intros H Hn. unfold set_bit. destruct b.
  - unfold Z.setbit. apply lor_byte; [lia|]. rewrite Z.shiftl_1_l.
    assert (2 ^ n < 2 ^ 8) by (apply Z.pow_lt_mono_r; lia).
    assert (0 < 2 ^ n) by (apply Z.pow_pos_nonneg; lia). change (2^8) with 256 in *. lia.
  - unfold Z.clearbit. rewrite Z.ldiff_land. apply land_byte. lia.
Qed.

(** the two ways the code changes one bit *)
Lemma lor_set x n : Z.lor x (Z.shiftl 1 n) = set_bit x n true.
Proof. reflexivity. Qed.
Lemma land_clear x n : Z.land x (Z.lnot (Z.shiftl 1 n)) = set_bit x n false.
Proof. unfold set_bit, Z.clearbit. rewrite Z.ldiff_land. reflexivity. Qed.

(** sweeps over a byte *)
Lemma sweep_byte (P : Z -> bool) : forallb P (zrange 256) = true -> forall x, 0 <= x < 256 -> P x = true.
Proof. intros H x Hx. apply (sweep1 P 256 H). lia. Qed.
Lemma sweep_byte2 (P : Z -> Z -> bool) :
  forallb (fun x => forallb (P x) (zrange 256)) (zrange 256) = true ->
  forall x y, 0 <= x < 256 -> 0 <= y < 256 -> P x y = true.
Proof. intros H x y Hx Hy. apply (sweep2 P 256 256 H); lia. Qed.

Lemma ptab_parity x : 0 <= x < 256 -> ptab51 x = b2z (odd_ones x).
Proof.
  intros H. apply Z.eqb_eq. revert x H.
  apply (sweep_byte (fun x => ptab51 x =? b2z (odd_ones x))). vm_compute. reflexivity.
Qed.

Lemma bank_bits x : 0 <= x < 256 -> Z.shiftr (Z.land x 0x18) 3 = (x / 8) mod 4.
Proof.
  intros H. apply Z.eqb_eq. revert x H.
  apply (sweep_byte (fun x => Z.shiftr (Z.land x 0x18) 3 =? (x / 8) mod 4)). vm_compute. reflexivity.
Qed.

(** the bank of a byte depends on bits 3 and 4 only *)
Lemma bank_by_bits x y : 0 <= x < 256 -> 0 <= y < 256 ->
  Z.testbit x 3 = Z.testbit y 3 -> Z.testbit x 4 = Z.testbit y 4 ->
  (x / 8) mod 4 = (y / 8) mod 4.
Proof.
  intros Hx Hy.
  assert (forall z, 0 <= z < 256 -> (z / 8) mod 4 = b2z (Z.testbit z 3) + 2 * b2z (Z.testbit z 4)) as E.
  { intros z Hz. apply Z.eqb_eq. revert z Hz.
    apply (sweep_byte (fun z => (z / 8) mod 4 =? b2z (Z.testbit z 3) + 2 * b2z (Z.testbit z 4))).
    vm_compute. reflexivity. }
  intros E3 E4. rewrite (E x Hx), (E y Hy), E3, E4. reflexivity.
Qed.

(* ------------------------------------------------------------- fetch *)
Lemma land_ffff x : Z.land x 0xffff = x mod 65536.
Proof. change 0xffff with (Z.ones 16). rewrite Z.land_ones by lia. reflexivity. Qed.

Lemma fetch_eq G s : wf s -> fetch G s = (rom G (pc s), set_pc s ((pc s + 1) mod 65536)).
Proof.
  intros (H & _). unfold fetch, rom_read.
  rewrite (proj2 (Z.ltb_lt (pc s) 0x10000)) by lia. rewrite land_ffff. do 2 f_equal.
  unfold u32. rewrite (Z.mod_small (pc s + 1) 4294967296) by lia. reflexivity.
Qed.

Lemma wf_set_pc s v : wf s -> 0 <= v < 65536 -> wf (set_pc s v).
Proof. unfold wf. cbn. tauto. Qed.
Lemma wf_tick s n : wf s -> wf (tick n s).
Proof. unfold wf. cbn. tauto. Qed.

(* ------------------------------------------------------------- writes *)
Lemma put_same f a v : put f a v a = v.
Proof. unfold put. rewrite Z.eqb_refl. reflexivity. Qed.
Lemma put_other f a v x : x <> a -> put f a v x = f x.
Proof. intros. unfold put. rewrite (proj2 (Z.eqb_neq _ _)) by assumption. reflexivity. Qed.
Lemma store_same f a v : store f a v a = v.
Proof. unfold store. rewrite Z.eqb_refl. reflexivity. Qed.
Lemma store_other f a v x : x <> a -> store f a v x = f x.
Proof. intros. unfold store. rewrite (proj2 (Z.eqb_neq _ _)) by assumption. reflexivity. Qed.

Lemma put_bytes f a v : (forall x, 0 <= f x < 256) -> 0 <= v < 256 -> forall x, 0 <= put f a v x < 256.
Proof. intros H Hv x. unfold put. destruct (x =? a); auto. Qed.

Lemma wf_set_iram s a v : wf s -> 0 <= v < 256 -> wf (set_iram s a v).
Proof.
  intros (H1 & H2 & H3 & H4 & H5 & H6) Hv. unfold wf. cbn.
  repeat split; try apply H1; try apply H3; try apply H4; try apply H5; try exact H6;
    apply (put_bytes _ _ _ H2 Hv).
Qed.
Lemma wf_set_xram s a v : wf s -> 0 <= v < 256 -> wf (set_xram s a v).
Proof.
  intros (H1 & H2 & H3 & H4 & H5 & H6) Hv. unfold wf. cbn.
  repeat split; try apply H1; try apply H3; try apply H2; try apply H5; try exact H6;
    apply (put_bytes _ _ _ H4 Hv).
Qed.
Lemma wf_set_hole s v : wf s -> 0 <= v < 256 -> wf (set_hole s v).
Proof. unfold wf. cbn. tauto. Qed.

(** storing a byte in a register; PSW keeps its bank bits *)
Lemma wf_set_sfr s a v : wf s -> 0 <= v < 256 ->
  (a = PSW -> (v / 8) mod 4 = (sfr s PSW / 8) mod 4) -> wf (set_sfr s a v).
Proof.
  intros (H1 & H2 & H3 & H4 & H5 & H6) Hv Hb. unfold wf. cbn [pc iram sfr xram hole bank set_sfr].
  repeat split; try apply H1; try apply H2; try apply H4; try apply H5;
    try apply (put_bytes _ _ _ H3 Hv).
  destruct (Z.eq_dec a PSW) as [->|N].
  - rewrite put_same, (Hb eq_refl). exact H6.
  - rewrite put_other by congruence. exact H6.
Qed.

Lemma acc_written_psw s v : wf s ->
  sfr (acc_written s v) PSW = set_bit (sfr s PSW) 0 (odd_ones (u8 v)).
Proof.
  intros W. unfold acc_written. cbn [sfr set_sfr]. rewrite put_same.
  rewrite ptab_parity by apply u8_range.
  change (Z.lnot bmP) with (Z.lnot (Z.shiftl 1 0)). rewrite land_clear.
  apply Z.bits_inj'. intros n Hn. rewrite Z.lor_spec, !set_bit_spec by lia.
  destruct (n =? 0) eqn:E.
  - apply Z.eqb_eq in E. subst n. destruct (odd_ones (u8 v)); reflexivity.
  - replace (Z.testbit (b2z (odd_ones (u8 v))) n) with false; [apply orb_false_r|].
    symmetry. apply Z.eqb_neq in E. destruct (odd_ones (u8 v)); cbn [b2z]; [|apply Z.bits_0].
    change 1 with (2 ^ 0). apply Z.pow2_bits_false. lia.
Qed.

Lemma wf_acc_written s v : wf s -> wf (acc_written s v).
Proof.
  intros W. pose proof W as (_ & _ & H3 & _).
  pose proof (acc_written_psw s v W) as E. unfold acc_written in *. cbn [sfr set_sfr] in E.
  rewrite put_same in E. rewrite E. apply wf_set_sfr; [exact W| |].
  - apply set_bit_byte; [apply H3|lia].
  - intros _. apply bank_by_bits; [apply set_bit_byte; [apply H3|lia]|apply H3| |];
      rewrite set_bit_spec by lia; reflexivity.
Qed.

Lemma wf_sfr_write s a v : wf s -> wf (sfr_write s a v).
Proof.
  intros W0. unfold sfr_write.
  set (s0 := if a =? IE then set_levels s (levels s) true else s).
  assert (W : wf s0) by (subst s0; destruct (a =? IE); exact W0). clearbody s0. clear W0 s. rename s0 into s.
  set (s1 := if a =? ACC then acc_written s v else s).
  assert (W1 : wf s1) by (subst s1; destruct (a =? ACC); [apply wf_acc_written|]; exact W).
  clearbody s1. destruct (a =? PSW) eqn:E.
  - apply Z.eqb_eq in E. subst a. destruct W1 as (H1 & H2 & H3 & H4 & H5 & H6).
    unfold sfr_put, wf. cbn [pc iram sfr xram hole bank set_sfr set_bank].
    repeat split; try apply H1; try apply H2; try apply H4; try apply H5;
      try apply (put_bytes _ _ _ H3 (u8_range v)).
    rewrite put_same. apply bank_bits. apply u8_range.
  - apply Z.eqb_neq in E. unfold sfr_put. apply wf_set_sfr; [exact W1|apply u8_range|congruence].
Qed.

(** the registers after sfr->write *)
Lemma sfr_write_at s a v x : wf s ->
  sfr (sfr_write s a v) x =
  if x =? a then u8 v
  else if (x =? PSW) && (a =? ACC) then set_bit (sfr s PSW) 0 (odd_ones (u8 v)) else sfr s x.
Proof.
  intros W0. unfold sfr_write, sfr_put.
  set (s0 := if a =? IE then set_levels s (levels s) true else s).
  assert (W : wf s0) by (subst s0; destruct (a =? IE); exact W0).
  assert (Es : sfr s0 = sfr s) by (subst s0; destruct (a =? IE); reflexivity).
  rewrite <- Es. clearbody s0. clear W0 Es s. rename s0 into s.
  assert (E : forall t, sfr (set_sfr (if a =? PSW then set_bank t (Z.shiftr (Z.land (u8 v) 24) 3) else t) a (u8 v)) x
              = if x =? a then u8 v else sfr t x).
  { intros t. cbn [sfr set_sfr]. unfold put. destruct (a =? PSW); reflexivity. }
  rewrite E. destruct (x =? a); [reflexivity|].
  destruct (a =? ACC); [|rewrite andb_false_r; reflexivity].
  destruct (x =? PSW) eqn:Ex; cbn [andb].
  - apply Z.eqb_eq in Ex. subst x. apply acc_written_psw. exact W.
  - apply Z.eqb_neq in Ex. unfold acc_written. cbn [sfr set_sfr]. apply put_other. exact Ex.
Qed.

Lemma sfr_write_frame s a v :
  pc (sfr_write s a v) = pc s /\ iram (sfr_write s a v) = iram s /\ xram (sfr_write s a v) = xram s /\
  insts (sfr_write s a v) = insts s /\ hole (sfr_write s a v) = hole s.
Proof.
  unfold sfr_write, sfr_put, acc_written. destruct (a =? IE), (a =? ACC), (a =? PSW); repeat split.
Qed.

(* ------------------------------------------------------------- simulation *)
Lemma Rl_refl s : Rl s (view s).
Proof. repeat split. Qed.

Lemma Rl_fixP s a : Rl s a -> Rl s (fixP a).
Proof.
  intros (H1 & H2 & H3 & H4 & H5). unfold Rl, same_but_P, fixP, setflag, with_sfr.
  cbn [a_pc a_iram a_sfr a_xram]. repeat split; auto.
  - intros x Hx. rewrite store_other by assumption. auto.
  - intros n Hn. rewrite store_same. unfold bit. rewrite set_bit_spec by lia.
    rewrite (proj2 (Z.eqb_neq _ _)) by lia. apply H4. exact Hn.
Qed.

Lemma Rl_set_pc s a v w : Rl s a -> v = w mod 65536 -> Rl (set_pc s v) (with_pc a w).
Proof. intros (H1 & H2 & H3 & H4 & H5) E. repeat split; cbn; auto. Qed.
Lemma Rl_tick s a n : Rl s a -> Rl (tick n s) a.
Proof. intros H. exact H. Qed.
Lemma Rl_set_iram s a x v w : Rl s a -> v = w -> Rl (set_iram s x v) (with_iram a x w).
Proof.
  intros (H1 & H2 & H3 & H4 & H5) E. subst w. unfold view in *. cbn [a_pc a_iram a_sfr a_xram] in *.
  unfold Rl, same_but_P, view. cbn. split; [auto|]. split; [|split; [auto|split; auto]].
  intros y. unfold put, store. destruct (y =? x); auto.
Qed.
Lemma Rl_set_xram s a x v w : Rl s a -> v = w -> Rl (set_xram s x v) (with_xram a x w).
Proof.
  intros (H1 & H2 & H3 & H4 & H5) E. subst w. unfold view in *. cbn [a_pc a_iram a_sfr a_xram] in *.
  unfold Rl, same_but_P, view. cbn. split; [auto|]. split; [auto|split; [auto|split; [auto|]]].
  intros y. unfold put, store. destruct (y =? x); auto.
Qed.

(** any change of the registers: the byte x gets v, up to P *)
Lemma Rl_sfr s a s' x v :
  Rl s a -> pc s' = pc s -> iram s' = iram s -> xram s' = xram s ->
  (forall y, y <> x -> y <> PSW -> sfr s' y = sfr s y) ->
  (x <> PSW -> sfr s' x = v /\ (forall n, 0 < n -> Z.testbit (sfr s' PSW) n = Z.testbit (sfr s PSW) n)) ->
  (x = PSW -> forall n, 0 < n -> Z.testbit (sfr s' PSW) n = Z.testbit v n) ->
  Rl s' (with_sfr a x v).
Proof.
  intros (H1 & H2 & H3 & H4 & H5) E1 E2 E3 E4 E5 E6.
  unfold view in *. cbn [a_pc a_iram a_sfr a_xram] in *.
  unfold Rl, view, same_but_P, with_sfr. cbn [a_pc a_iram a_sfr a_xram].
  rewrite E1, E2, E3. repeat split; auto.
  - intros y Hy. unfold store. destruct (y =? x) eqn:E.
    + apply Z.eqb_eq in E. subst y. apply E5. exact Hy.
    + apply Z.eqb_neq in E. rewrite E4 by (exact E || exact Hy). auto.
  - intros n Hn. unfold store, bit in *. destruct (rPSW =? x) eqn:E.
    + apply Z.eqb_eq in E. apply E6; [symmetry; exact E|exact Hn].
    + apply Z.eqb_neq in E. change PSW with rPSW in E5.
      destruct E5 as [_ E5]; [congruence|]. rewrite E5 by exact Hn. auto.
Qed.

Lemma Rl_sfr_write s a x v : wf s -> Rl s a -> Rl (sfr_write s x v) (with_sfr a x (v mod 256)).
Proof.
  intros W H. destruct (sfr_write_frame s x v) as (E1 & E2 & E3 & _).
  apply (Rl_sfr s); auto.
  - intros y Hy Hp. rewrite sfr_write_at by exact W.
    rewrite (proj2 (Z.eqb_neq y x)), (proj2 (Z.eqb_neq y PSW)) by assumption. reflexivity.
  - intros Hx. split.
    + rewrite sfr_write_at, Z.eqb_refl by exact W. reflexivity.
    + intros n Hn. rewrite sfr_write_at by exact W.
      rewrite (proj2 (Z.eqb_neq PSW x)) by congruence. rewrite Z.eqb_refl.
      destruct (x =? ACC); [|reflexivity]. cbn [andb].
      rewrite set_bit_spec by lia. rewrite (proj2 (Z.eqb_neq n 0)) by lia. reflexivity.
  - intros -> n Hn. rewrite sfr_write_at, Z.eqb_refl by exact W. reflexivity.
Qed.

Lemma Rl_sfr_put s a x v : Rl s a -> Rl (sfr_put s x v) (with_sfr a x (v mod 256)).
Proof.
  intros H. apply (Rl_sfr s); auto; unfold sfr_put; cbn [sfr set_sfr].
  - intros y Hy Hp. apply put_other. exact Hy.
  - intros Hx. rewrite put_same. split; [reflexivity|].
    intros n Hn. rewrite put_other by congruence. reflexivity.
  - intros -> n Hn. rewrite put_same. reflexivity.
Qed.

(** the flags *)
Lemma Rl_flag_set s a k (b : bool) : wf s -> 0 < k < 8 ->
  Rl s a -> Rl (set_sfr s PSW (set_bit (sfr s PSW) k b)) (setflag k b a).
Proof.
  intros W Hk H. pose proof H as (_ & _ & _ & H4 & _). unfold setflag. apply (Rl_sfr s); auto; cbn [sfr set_sfr].
  - intros y Hy Hp. apply put_other. exact Hy.
  - intros Hx. contradiction Hx. reflexivity.
  - intros _ n Hn. rewrite put_same, !set_bit_spec by lia.
    destruct (n =? k); [reflexivity|]. apply (H4 n Hn).
Qed.

Lemma nz_neg (v : Z) (b : bool) : b = negb (v =? 0) -> (v =? 0) = negb b.
Proof. intros ->. rewrite negb_involutive. reflexivity. Qed.

(** one bit through the bits space, data only *)
Lemma bits_set_eq s b v : 0 <= b < 256 ->
  bits_set s b v =
  if b <? 128 then set_iram s (32 + b / 8) (set_bit (iram s (32 + b / 8)) (b mod 8) (negb (v =? 0)))
  else set_sfr s (8 * (b / 8)) (set_bit (sfr s (8 * (b / 8))) (b mod 8) (negb (v =? 0))).
Proof.
  intros Hb. unfold bits_set, bit_byte.
  assert (E : Z.land b 0xf8 = 8 * (b / 8)).
  { apply Z.eqb_eq. revert b Hb. apply (sweep_byte (fun b => Z.land b 0xf8 =? 8 * (b / 8))). vm_compute. reflexivity. }
  rewrite E. destruct (b <? 128); destruct (v =? 0); cbn [negb];
    rewrite ?land_clear, ?lor_set; reflexivity.
Qed.

Lemma bits_set_cy s v : bits_set s 0xd7 v = set_sfr s PSW (set_bit (sfr s PSW) 7 (negb (v =? 0))).
Proof. rewrite bits_set_eq by lia. reflexivity. Qed.

Lemma SFR_SET_BIT_eq s v k m : wf s -> m = Z.shiftl 1 k -> 0 <= k < 8 ->
  SFR_SET_BIT v PSW m s = set_sfr s PSW (set_bit (sfr s PSW) k (negb (v =? 0))).
Proof.
  intros W -> Hk. pose proof W as (_ & _ & H3 & _). unfold SFR_SET_BIT, sfr_put.
  destruct (v =? 0); cbn [negb]; rewrite ?land_clear, ?lor_set;
    rewrite u8_id by (apply set_bit_byte; [apply H3|lia]); reflexivity.
Qed.

Lemma wf_flag s k b : wf s -> 0 <= k < 8 -> k <> 3 -> k <> 4 ->
  wf (set_sfr s PSW (set_bit (sfr s PSW) k b)).
Proof.
  intros W Hk H3 H4. pose proof W as (_ & _ & H & _). apply wf_set_sfr; [exact W|apply set_bit_byte; [apply H|lia]|].
  intros _. apply bank_by_bits; [apply set_bit_byte; [apply H|lia]|apply H| |];
    rewrite set_bit_spec by lia; rewrite (proj2 (Z.eqb_neq _ _)) by lia; reflexivity.
Qed.

(* ------------------------------------------------------------- P *)
Definition Pk (s : st) : Prop := P_ok (view s).

Lemma Pk_frame s s' : sfr s' PSW = sfr s PSW -> sfr s' ACC = sfr s ACC -> Pk s -> Pk s'.
Proof. unfold Pk, P_ok, getA. cbn [view a_sfr]. change rPSW with PSW. change rA with ACC. intros -> ->. auto. Qed.

Lemma Pk_acc_write s v : wf s -> Pk (sfr_write s ACC v).
Proof.
  intros W. unfold Pk, P_ok, getA. cbn [view a_sfr]. change rPSW with PSW. change rA with ACC.
  rewrite !sfr_write_at by exact W. rewrite Z.eqb_refl.
  change (PSW =? ACC) with false. change (PSW =? PSW) with true. cbn [andb].
  change (ACC =? ACC) with true. cbn [andb].
  unfold bit. rewrite set_bit_spec by lia. reflexivity.
Qed.

Lemma Pk_sfr_write s a v : wf s -> Pk s -> a <> PSW -> Pk (sfr_write s a v).
Proof.
  intros W H N. destruct (Z.eq_dec a ACC) as [->|NA]; [apply Pk_acc_write; exact W|].
  apply (Pk_frame s); [| |exact H]; rewrite sfr_write_at by exact W.
  - rewrite (proj2 (Z.eqb_neq PSW a)) by congruence. rewrite (proj2 (Z.eqb_neq a ACC)) by assumption.
    rewrite andb_false_r. reflexivity.
  - rewrite (proj2 (Z.eqb_neq ACC a)) by congruence. reflexivity.
Qed.

Lemma Pk_flag s k b : 0 < k -> Pk s -> Pk (set_sfr s PSW (set_bit (sfr s PSW) k b)).
Proof.
  unfold Pk, P_ok, getA. cbn [view a_sfr sfr set_sfr]. change rPSW with PSW. change rA with ACC.
  intros Hk H. rewrite put_same, put_other by discriminate.
  unfold bit. rewrite set_bit_spec by lia. rewrite (proj2 (Z.eqb_neq 0 k)) by lia. exact H.
Qed.

Lemma Pk_set_sfr s a v : a <> PSW -> a <> ACC -> Pk s -> Pk (set_sfr s a v).
Proof.
  intros N1 N2 H. apply (Pk_frame s); [| |exact H]; cbn [sfr set_sfr]; apply put_other; congruence.
Qed.

(** a bit of the bits space that is written *)
Lemma bits_write_high s b v : wf s -> 128 <= b < 256 ->
  wf (bits_write s b v) /\
  (forall a, Rl s a -> (forall x, x <> PSW -> sfr s x = a_sfr a x) ->
     (a_sfr a rPSW = sfr s PSW) ->
     Rl (bits_write s b v) (with_sfr a (8 * (b / 8)) (set_bit (a_sfr a (8 * (b / 8))) (b mod 8) (negb (v =? 0))))) /\
  (Pk s -> b <> 0xd0 -> Pk (bits_write s b v)) /\
  insts (bits_write s b v) = insts s /\ pc (bits_write s b v) = pc s.
Proof.
  intros W Hb.
  assert (Ea : Z.land b 0xf8 = 8 * (b / 8)).
  { apply Z.eqb_eq. assert (Hb2 : 0 <= b < 256) by lia. clear Hb. revert b Hb2.
    apply (sweep_byte (fun b => Z.land b 0xf8 =? 8 * (b / 8))). vm_compute. reflexivity. }
  assert (Em : Z.land b 7 = b mod 8) by (change 7 with (Z.ones 3); rewrite Z.land_ones by lia; reflexivity).
  set (a8 := 8 * (b / 8)) in *. set (k := b mod 8) in *.
  assert (Hk : 0 <= k < 8) by (subst k; lia).
  pose proof W as (_ & _ & H3 & _).
  set (nv := set_bit (sfr s a8) k (negb (v =? 0))).
  assert (Hnv : 0 <= nv < 256) by (apply set_bit_byte; [apply H3|lia]).
  assert (Ew : bits_write s b v =
    let s1 := sfr_write s a8 nv in
    let s2 := if a8 =? ACC then acc_written (bits_set s1 b v) (sfr (bits_set s1 b v) ACC) else s1 in
    bits_set s2 b v).
  { unfold bits_write. rewrite (proj2 (Z.ltb_ge b 128)) by lia. rewrite Ea, Em. cbv zeta.
    subst nv. destruct (v =? 0); cbn [negb]; rewrite ?land_clear, ?lor_set; reflexivity. }
  assert (Hset : forall t, sfr t a8 = nv -> bits_set t b v = set_sfr t a8 nv).
  { intros t Et. rewrite bits_set_eq by lia. rewrite (proj2 (Z.ltb_ge b 128)) by lia.
    fold a8 k. rewrite Et. f_equal. subst nv.
    apply Z.bits_inj'. intros n Hn. rewrite !set_bit_spec by lia. destruct (n =? k); reflexivity. }
  assert (Hs1 : sfr (sfr_write s a8 nv) a8 = nv).
  { rewrite sfr_write_at, Z.eqb_refl by exact W. apply u8_id. exact Hnv. }
  assert (Hself : forall t, sfr t a8 = nv -> forall x, sfr (set_sfr t a8 nv) x = sfr t x).
  { intros t Et x. cbn [sfr set_sfr]. unfold put. destruct (x =? a8) eqn:E; [|reflexivity].
    apply Z.eqb_eq in E. subst x. symmetry. exact Et. }
  set (s1 := sfr_write s a8 nv) in *.
  assert (W1 : wf s1) by (apply wf_sfr_write; exact W).
  (* the result agrees with s1 on everything *)
  assert (Hall : wf (bits_write s b v) /\ (forall x, sfr (bits_write s b v) x = sfr s1 x) /\
                 pc (bits_write s b v) = pc s1 /\ iram (bits_write s b v) = iram s1 /\
                 xram (bits_write s b v) = xram s1 /\ insts (bits_write s b v) = insts s1).
  { rewrite Ew. cbv zeta. destruct (a8 =? ACC) eqn:EA.
    - apply Z.eqb_eq in EA.
      rewrite (Hset s1 Hs1).
      assert (W1' : wf (set_sfr s1 a8 nv)).
      { apply wf_set_sfr; [exact W1|exact Hnv|]. rewrite EA. discriminate. }
      set (t := set_sfr s1 a8 nv) in *.
      assert (Et : forall x, sfr t x = sfr s1 x) by (intros x; apply Hself; exact Hs1).
      assert (Eacc : forall x, sfr (acc_written t (sfr t ACC)) x = sfr s1 x).
      { intros x. destruct (Z.eq_dec x PSW) as [->|N].
        - rewrite acc_written_psw by exact W1'. rewrite !Et.
          assert (EAcc : sfr s1 ACC = nv) by (rewrite <- EA; exact Hs1).
          rewrite EAcc, u8_id by exact Hnv.
          subst s1. rewrite EA. rewrite sfr_write_at by exact W.
          change (PSW =? ACC) with false. change (PSW =? PSW) with true. change (ACC =? ACC) with true. cbn [andb].
          rewrite u8_id by exact Hnv.
          apply Z.bits_inj'. intros n Hn. rewrite !set_bit_spec by lia. destruct (n =? 0); reflexivity.
        - unfold acc_written. cbn [sfr set_sfr]. rewrite put_other by exact N. apply Et. }
      assert (E8 : sfr (acc_written t (sfr t ACC)) a8 = nv) by (rewrite Eacc; exact Hs1).
      rewrite (Hset _ E8). split; [|split; [|repeat split]].
      + apply wf_set_sfr; [apply wf_acc_written; exact W1'|exact Hnv|]. rewrite EA. discriminate.
      + intros x. rewrite (Hself _ E8). apply Eacc.
    - rewrite (Hset s1 Hs1). split; [|split; [|repeat split]].
      + apply wf_set_sfr; [exact W1|exact Hnv|]. intros E. rewrite <- E, Hs1. reflexivity.
      + intros x. apply (Hself s1 Hs1). }
  destruct Hall as (Wf & Es & E1 & E2 & E3 & E4).
  destruct (sfr_write_frame s a8 nv) as (F1 & F2 & F3 & F4 & _). fold s1 in F1, F2, F3, F4.
  split; [exact Wf|]. split; [|split; [|split; congruence]].
  - intros a HR Hx Hp. fold a8 k.
    assert (Ea8 : a_sfr a a8 = sfr s a8).
    { destruct (Z.eq_dec a8 PSW) as [->|N]; [exact Hp|symmetry; apply Hx; exact N]. }
    rewrite Ea8. fold nv.
    pose proof (Rl_sfr_write s a a8 nv W HR) as HR1. rewrite Z.mod_small in HR1 by exact Hnv.
    destruct HR1 as (G1 & G2 & G3 & G4 & G5). fold s1 in G1, G2, G3, G4, G5.
    unfold view in *. cbn [a_pc a_iram a_sfr a_xram] in G1, G2, G3, G4, G5.
    unfold Rl, same_but_P, view. cbn [a_pc a_iram a_sfr a_xram].
    rewrite E1, E2, E3. repeat split; auto.
    + intros x Hxx. rewrite Es. auto.
    + intros n Hn. rewrite Es. auto.
  - intros HP Hnd.
    destruct (Z.eq_dec a8 PSW) as [EP|N].
    + unfold Pk, P_ok, getA. cbn [view a_sfr]. change rPSW with PSW. change rA with ACC.
      rewrite !Es. rewrite EP in Hs1.
      assert (Eacc : sfr s1 ACC = sfr s ACC).
      { subst s1. rewrite sfr_write_at by exact W. rewrite EP. reflexivity. }
      rewrite Eacc, Hs1. subst nv. rewrite EP. unfold bit. rewrite set_bit_spec by lia.
      assert (Hk0 : k <> 0).
      { subst k. unfold PSW in EP. subst a8. intros E0. apply Hnd. lia. }
      rewrite (proj2 (Z.eqb_neq 0 k)) by lia. exact HP.
    + apply (Pk_frame s1); try apply Es. apply Pk_sfr_write; assumption.
Qed.
