(** Proofs about the MOS6502: operands and instructions. *)
From Verif Require Import Base M65Model M65Spec M65Obs.

Lemma land_ffff q : Z.land q 0xffff = q mod 65536.
Proof. change 0xffff with (Z.ones 16). rewrite Z.land_ones by lia. reflexivity. Qed.
Lemma mod_succ q k : ((q + k) mod 65536 + 1) mod 65536 = (q + (k + 1)) mod 65536.
Proof. lia. Qed.

Lemma rd_in t k : 0 <= k < 65536 -> rd t k = mem t k.
Proof. intros. unfold rd. replace ((0 <=? k) && (k <? 65536)) with true by lia. reflexivity. Qed.
Lemma wr_in k v t : 0 <= k < 65536 -> wr k v t = sM (fun z => if z =? k then u8 v else mem t z) t.
Proof. intros. unfold wr. replace ((0 <=? k) && (k <? 65536)) with true by lia. reflexivity. Qed.

Lemma fetch_eq t : 0 <= PC t < 65536 -> fetch t = (mem t (PC t), sPC ((PC t + 1) mod 65536) t).
Proof. intros. unfold fetch. rewrite rd_in by assumption. rewrite land_ffff. reflexivity. Qed.

(** t is wf, and fetches with [pc0 + k] *)
Definition at_pc (q k : Z) (t : st) : Prop := PC t = (q + k) mod 65536.
Lemma fetch_k q k t : at_pc q k t ->
  fetch t = (mem t ((q + k) mod 65536), sPC ((q + (k + 1)) mod 65536) t).
Proof.
  unfold at_pc. intros H. assert (0 <= PC t < 65536) by (rewrite H; lia).
  rewrite fetch_eq by assumption. rewrite H, mod_succ. reflexivity.
Qed.

Lemma is_u8_id v : is_u8 v -> u8 v = v.
Proof. apply u8_id. Qed.
Lemma word_range l h : is_u8 l -> is_u8 h -> 0 <= l + 256 * h < 65536.
Proof. unfold is_u8. lia. Qed.

Lemma i16f_eq q t : (forall k, is_u8 (mem t k)) -> at_pc q 1 t ->
  i16f t = (mem t ((q + 1) mod 65536) + 256 * mem t ((q + 2) mod 65536), sPC ((q + 3) mod 65536) t).
Proof.
  intros B H. unfold i16f. rewrite (fetch_k q 1 t H). cbv beta iota.
  rewrite (fetch_k q (1 + 1)) by reflexivity. cbv beta iota.
  change (mem (sPC ((q + (1 + 1)) mod 65536) t)) with (mem t). change (1 + 1) with 2. change (2 + 1) with 3.
  rewrite (u8_id (mem t ((q + 1) mod 65536))) by apply B. rewrite (u8_id (mem t ((q + 2) mod 65536))) by apply B.
  f_equal. rewrite u16_id; [lia|]. pose proof (B ((q + 1) mod 65536)). pose proof (B ((q + 2) mod 65536)). unfold is_u8 in *. lia.
Qed.

(* ---------------------------------------------------------------- flags *)
Lemma isset_bit f n : 0 <= n -> isset f (2 ^ n) = Z.testbit f n.
Proof.
  intros Hn. unfold isset. destruct (Z.testbit f n) eqn:E.
  - apply negb_true_iff, Z.eqb_neq. intros H. assert (Z.testbit (Z.land f (2 ^ n)) n = false) by (rewrite H; apply Z.bits_0).
    rewrite Z.land_spec, E, Z.pow2_bits_true in H0 by lia. discriminate.
  - apply negb_false_iff, Z.eqb_eq. apply Z.bits_inj'. intros k Hk. rewrite Z.land_spec, Z.bits_0.
    destruct (Z.eq_dec k n) as [->|Hne]; [rewrite E; reflexivity|]. rewrite Z.pow2_bits_false by lia. apply andb_false_r.
Qed.
Lemma isset_80 f : isset f 0x80 = Z.testbit f 7. Proof. apply (isset_bit f 7). lia. Qed.
Lemma isset_40 f : isset f 0x40 = Z.testbit f 6. Proof. apply (isset_bit f 6). lia. Qed.
Lemma isset_8 f : isset f 8 = Z.testbit f 3. Proof. apply (isset_bit f 3). lia. Qed.
Lemma isset_4 f : isset f 4 = Z.testbit f 2. Proof. apply (isset_bit f 2). lia. Qed.
Lemma isset_2 f : isset f 2 = Z.testbit f 1. Proof. apply (isset_bit f 1). lia. Qed.
Lemma isset_1 f : isset f 1 = Z.testbit f 0. Proof. apply (isset_bit f 0). lia. Qed.

Lemma orif_spec b m f k : Z.testbit (orif b m f) k = Z.testbit f k || (b && Z.testbit m k).
Proof. destruct b; cbn [orif]; [rewrite Z.lor_spec; reflexivity|rewrite orb_false_r; reflexivity]. Qed.

Lemma hi_bits f k : is_u8 f -> 8 <= k -> Z.testbit f k = false.
Proof.
  unfold is_u8. intros H Hk. destruct (Z.eq_dec f 0) as [->|]; [apply Z.bits_0|].
  apply Z.bits_above_log2; [lia|]. apply Z.le_lt_trans with 7; [|lia].
  change 7 with (Z.log2 255). apply Z.log2_le_mono. lia.
Qed.
Lemma u8_of_bits f : 0 <= f -> (forall k, 8 <= k -> Z.testbit f k = false) -> is_u8 f.
Proof.
  intros H0 H. unfold is_u8. split; [exact H0|].
  assert (f = f mod 2 ^ 8) as ->; [|apply (Z.mod_pos_bound f (2 ^ 8)); lia].
  symmetry. apply Z.bits_inj'. intros k Hk. destruct (Z_lt_dec k 8).
  - apply Z.mod_pow2_bits_low. lia.
  - rewrite Z.mod_pow2_bits_high by lia. symmetry. apply H. lia.
Qed.
Lemma lor_u8 f m : is_u8 f -> is_u8 m -> is_u8 (Z.lor f m).
Proof.
  intros Hf Hm. apply u8_of_bits. { apply Z.lor_nonneg. unfold is_u8 in *. lia. }
  intros k Hk. rewrite Z.lor_spec, !hi_bits by assumption. reflexivity.
Qed.
Lemma land_u8 f m : is_u8 f -> is_u8 m -> is_u8 (Z.land f m).
Proof.
  intros Hf Hm. apply u8_of_bits. { apply Z.land_nonneg. unfold is_u8 in *. lia. }
  intros k Hk. rewrite Z.land_spec, !hi_bits by assumption. reflexivity.
Qed.
Lemma lxor_u8 f m : is_u8 f -> is_u8 m -> is_u8 (Z.lxor f m).
Proof.
  intros Hf Hm. apply u8_of_bits. { apply Z.lxor_nonneg. unfold is_u8 in *. lia. }
  intros k Hk. rewrite Z.lxor_spec, !hi_bits by assumption. reflexivity.
Qed.
Lemma ldiff_u8 f m : is_u8 f -> is_u8 (Z.ldiff f m).
Proof.
  intros Hf. apply u8_of_bits. { apply Z.ldiff_nonneg. unfold is_u8 in *. lia. }
  intros k Hk. rewrite Z.ldiff_spec, hi_bits by assumption. reflexivity.
Qed.
Lemma orif_u8 b f m : is_u8 f -> is_u8 m -> is_u8 (orif b m f).
Proof. intros. destruct b; cbn [orif]; [apply lor_u8|]; assumption. Qed.
Lemma nz_u8 v f : is_u8 f -> is_u8 (nz v f).
Proof. intros. unfold nz. apply orif_u8; [apply orif_u8; [apply ldiff_u8; assumption|]|]; split; reflexivity || (unfold flagZ, flagN; lia). Qed.

(** testbit of C expressions on flags *)
Ltac fbits :=
  repeat (rewrite ?orif_spec, ?Z.lor_spec, ?Z.ldiff_spec, ?Z.land_spec);
  repeat match goal with
  | |- context [Z.testbit ?m ?k] =>
      let m' := eval compute in m in
      match m' with
      | Zpos _ => let r := eval compute in (Z.testbit m' k) in change (Z.testbit m k) with r
      | Z0 => let r := eval compute in (Z.testbit m' k) in change (Z.testbit m k) with r
      end
  end;
  rewrite ?andb_true_r, ?andb_false_r, ?orb_false_r, ?orb_true_r, ?orb_false_l, ?andb_true_l, ?andb_false_l.

Lemma sweep_N : forall v, is_u8 v -> Z.testbit v 7 = (128 <=? v).
Proof.
  intros v Hv. apply eqb_prop. revert v Hv.
  exact (sweep1 (fun v => Bool.eqb (Z.testbit v 7) (128 <=? v)) 256 ltac:(vm_compute; reflexivity)).
Qed.
Lemma sweep_bit0 : forall v, is_u8 v -> Z.testbit v 0 = Z.odd v.
Proof. intros. apply Z.bit0_odd. Qed.
Lemma sweep_bit6 : forall v, is_u8 v -> Z.testbit v 6 = Z.odd (v / 64).
Proof. intros. rewrite Z.testbit_odd, Z.shiftr_div_pow2 by lia. reflexivity. Qed.
Lemma flags_of_byte v : flags_of v = P_of_byte v.
Proof.
  unfold flags_of, P_of_byte. rewrite !Z.testbit_odd, !Z.shiftr_div_pow2 by lia.
  change (2 ^ 0) with 1. rewrite Z.div_1_r. reflexivity.
Qed.

Lemma flags_nz v f : is_u8 v -> flags_of (nz v f) =
  mkP (128 <=? v) (Z.testbit f 6) (Z.testbit f 3) (Z.testbit f 2) (v =? 0) (Z.testbit f 0).
Proof.
  intros Hv. unfold nz. change (negb (Z.land v 0x80 =? 0)) with (isset v 0x80). rewrite isset_80, sweep_N by assumption.
  unfold flags_of. f_equal; fbits; reflexivity.
Qed.
Lemma flags_znset v f : is_u8 v -> flags_of (znset v f) =
  mkP (128 <=? v) (Z.testbit f 6) (Z.testbit f 3) (Z.testbit f 2) (v =? 0) (Z.testbit f 0).
Proof.
  intros Hv. unfold znset. rewrite isset_80, sweep_N by assumption.
  destruct (v =? 0), (128 <=? v); unfold flags_of; f_equal; fbits; reflexivity.
Qed.

(* ------------------------------------------------------- operations *)
(** cell [c] of state [t] is the operand [l] of the manual *)
Definition opd (c : cell) (l : place) (t : st) : Prop :=
  R c t = value l (view t) /\ is_u8 (R c t) /\
  (l <> Nowhere -> (forall v, l <> Val v) -> forall v, view (W c v t) = put l v (view t) /\ rF (W c v t) = rF t).

Definition mem_ops : list ((cell * st -> st) * mnem) :=
  [(ora, ORA); (And, AND); (eor, EOR); (lda, LDA); (ld cX, LDX); (ld cY, LDY);
   (cmp cA, CMP); (cmp cX, CPX); (cmp cY, CPY); (bit, BIT);
   (inc, INC); (dec, DEC); (asl, ASL); (lsr, LSR); (rol, ROL); (ror, ROR)].

Lemma setNZ_eq v c : is_u8 v -> setNZ v c = setP (mkP (128 <=? v) (fV (p c)) (fD (p c)) (fI (p c)) (v =? 0) (fC (p c))) c.
Proof. intros H. unfold setNZ. rewrite Z.mod_small by exact H. reflexivity. Qed.
Lemma setNZ_mod v c : setNZ v c = setNZ (v mod 256) c.
Proof. unfold setNZ. rewrite Z.mod_mod by lia. reflexivity. Qed.
Lemma p_put l v c : p (put l v c) = p c. Proof. destruct l; reflexivity. Qed.
Lemma view_WF f t : is_u8 f -> view (W cF f t) = setP (flags_of f) (view t).
Proof. intros H. unfold W, view. rewrite (u8_id f H). reflexivity. Qed.
Lemma flagsN f m : is_u8 m -> forall b, is_u8 f -> is_u8 (orif b m f). Proof. intros. apply orif_u8; assumption. Qed.

Lemma load_like (t : st) (r : Z) f (reg : cell) (set : Z -> cpu -> cpu) :
  is_u8 r -> is_u8 f -> f = rF t ->
  (forall v, view (W reg v t) = set v (view t)) -> (forall v c, p (set v c) = p c) ->
  view (W cF (nz r f) (W reg r t)) = load set r (view t).
Proof.
  intros Hr Hf -> Hw Hp. rewrite view_WF by (apply nz_u8; assumption). rewrite Hw. unfold load.
  rewrite setNZ_eq by assumption. rewrite Hp. rewrite flags_nz by assumption. reflexivity.
Qed.
Lemma u8_idem r : u8 (u8 r) = u8 r. Proof. unfold u8. apply Z.mod_mod. lia. Qed.
Lemma is_u8_u8 r : is_u8 (u8 r). Proof. apply u8_range. Qed.

Ltac bytef := repeat (assumption || apply orif_u8 || apply ldiff_u8 || apply lor_u8 || (split; [vm_compute; discriminate | reflexivity])).
(** compare *)
Definition cmp_chk (u v : Z) : bool :=
  let res := u16 (u - v) in
  Bool.eqb (res <? 256) (v <=? u) && Bool.eqb (Z.land res 0xff =? 0) ((u - v) mod 256 =? 0) &&
  Bool.eqb (Z.testbit res 7) (128 <=? (u - v) mod 256).

Section Ops.
Variables (c : cell) (l : place) (t : st) (off : Z).
Hypothesis Ht : bytes t.
Hypothesis Ho : opd c l t.

Local Ltac u8s := destruct Ht as (HA & HX & HY & HS & HF & Hh & Hi & HM); destruct Ho as (Hr & Hb & Hw).

Lemma ora_ok : view (ora (c, t)) = effect ORA l off (view t).
Proof.
  u8s. assert (Hv : is_u8 (Z.lor (rA t) (R c t))) by (apply lor_u8; assumption).
  unfold effect. rewrite <- Hr. unfold ora. cbv beta iota.
  change (rA (W cA (Z.lor (rA t) (R c t)) t)) with (u8 (Z.lor (rA t) (R c t))). rewrite (u8_id _ Hv).
  apply (load_like t (Z.lor (rA t) (R c t)) (rF t) cA setA); auto.
Qed.
Lemma and_ok : view (And (c, t)) = effect AND l off (view t).
Proof.
  u8s. assert (Hv : is_u8 (Z.land (rA t) (R c t))) by (apply land_u8; assumption).
  unfold effect. rewrite <- Hr. unfold And. cbv beta iota.
  change (rA (W cA (Z.land (rA t) (R c t)) t)) with (u8 (Z.land (rA t) (R c t))). rewrite (u8_id _ Hv).
  apply (load_like t (Z.land (rA t) (R c t)) (rF t) cA setA); auto.
Qed.
Lemma eor_ok : view (eor (c, t)) = effect EOR l off (view t).
Proof.
  u8s. assert (Hv : is_u8 (Z.lxor (rA t) (R c t))) by (apply lxor_u8; assumption).
  unfold effect. rewrite <- Hr. unfold eor. cbv beta iota.
  change (rA (W cA (Z.lxor (rA t) (R c t)) t)) with (u8 (Z.lxor (rA t) (R c t))). rewrite (u8_id _ Hv).
  apply (load_like t (Z.lxor (rA t) (R c t)) (rF t) cA setA); auto.
Qed.
Lemma lda_ok : view (lda (c, t)) = effect LDA l off (view t).
Proof.
  u8s. unfold effect. rewrite <- Hr. unfold lda. cbv beta iota.
  change (rA (W cA (R c t) t)) with (u8 (R c t)). rewrite (u8_id _ Hb).
  apply (load_like t (R c t) (rF t) cA setA); auto.
Qed.
Lemma ldx_ok : view (ld cX (c, t)) = effect LDX l off (view t).
Proof.
  u8s. unfold effect. rewrite <- Hr. unfold ld. cbv beta iota. rewrite (u8_id _ Hb).
  apply (load_like t (R c t) (rF t) cX setX); auto.
Qed.
Lemma ldy_ok : view (ld cY (c, t)) = effect LDY l off (view t).
Proof.
  u8s. unfold effect. rewrite <- Hr. unfold ld. cbv beta iota. rewrite (u8_id _ Hb).
  apply (load_like t (R c t) (rF t) cY setY); auto.
Qed.

Lemma tb7_odd q : Z.testbit q 7 = (q / 128 mod 2 =? 1).
Proof.
  rewrite Z.testbit_odd, Z.shiftr_div_pow2 by lia. change (2 ^ 7) with 128.
  rewrite Zodd_mod. unfold Zeq_bool. destruct (q / 128 mod 2 =? 1) eqn:E.
  - apply Z.eqb_eq in E. rewrite E. reflexivity.
  - apply Z.eqb_neq in E. destruct (Z.compare_spec (q / 128 mod 2) 1); congruence || reflexivity.
Qed.
Lemma cmp_sweep : forall u v, is_u8 u -> is_u8 v ->
  let res := u16 (u - v) in
  (res <? 256) = (v <=? u) /\ (Z.land res 0xff =? 0) = ((u - v) mod 256 =? 0) /\ Z.testbit res 7 = (128 <=? (u - v) mod 256).
Proof.
  intros u v Hu Hv res. unfold is_u8 in *. subst res. unfold u16.
  change 0xff with (Z.ones 8). rewrite Z.land_ones by lia. change (2 ^ 8) with 256.
  rewrite tb7_odd. repeat split; lia.
Qed.
Lemma cmp_gen (r : cell) (u : Z) : R r t = u -> is_u8 u ->
  view (cmp r (c, t)) = compare u (R c t) (view t).
Proof.
  u8s. intros Hu Hub. unfold cmp. rewrite Hu. cbv beta iota.
  destruct (cmp_sweep u (R c t) Hub Hb) as (H1 & H2 & H3). cbv zeta in H1, H2, H3.
  set (res := u16 (u - R c t)) in *. rewrite isset_80, H1, H2, H3.
  rewrite view_WF.
  2: bytef.
  unfold compare. unfold setNZ, setN, setZ, setC, setP. cbn [p a x y s pc ram fN fV fD fI fZ fC].
  f_equal. unfold flags_of, view. cbn [p fN fV fD fI fZ fC]. f_equal; fbits; reflexivity.
Qed.
Lemma cmpa_ok : view (cmp cA (c, t)) = effect CMP l off (view t).
Proof. unfold effect. rewrite <- (proj1 Ho). apply cmp_gen; [reflexivity|apply Ht]. Qed.
Lemma cmpx_ok : view (cmp cX (c, t)) = effect CPX l off (view t).
Proof. unfold effect. rewrite <- (proj1 Ho). apply cmp_gen; [reflexivity|apply Ht]. Qed.
Lemma cmpy_ok : view (cmp cY (c, t)) = effect CPY l off (view t).
Proof. unfold effect. rewrite <- (proj1 Ho). apply cmp_gen; [reflexivity|apply Ht]. Qed.

Lemma bit_ok : view (bit (c, t)) = effect BIT l off (view t).
Proof.
  u8s. unfold effect. rewrite <- Hr. unfold bit. cbv beta iota zeta. rewrite (u8_id _ Hb).
  rewrite isset_80, isset_40, sweep_N, sweep_bit6 by assumption.
  rewrite view_WF.
  2: bytef.
  unfold setN, setV, setZ, setP. cbn [p a x y s pc ram fN fV fD fI fZ fC].
  f_equal. unfold flags_of, view. cbn [p a fN fV fD fI fZ fC]. f_equal; fbits; reflexivity.
Qed.

(** read-modify-write *)
Hypothesis Hl : l <> Nowhere.
Hypothesis Hl' : forall v, l <> Val v.

Lemma rmw_gen (v : Z) (f : Z) (nN nZ nC : bool) :
  is_u8 f -> flags_of f = mkP nN (Z.testbit (rF t) 6) (Z.testbit (rF t) 3) (Z.testbit (rF t) 2) nZ nC ->
  view (W cF f (W c v t)) = setN nN (setZ nZ (setC nC (put l v (view t)))).
Proof.
  u8s. intros Hf Hff. rewrite view_WF by assumption. destruct (Hw Hl Hl' v) as [Hv _]. rewrite Hv, Hff.
  unfold setN, setZ, setC, setP. cbn [p a x y s pc ram fN fV fD fI fZ fC]. rewrite p_put. reflexivity.
Qed.
Lemma inc_ok : view (inc (c, t)) = effect INC l off (view t).
Proof.
  u8s. destruct (Hw Hl Hl' (u8 (R c t + 1))) as [Hv Hf]. unfold effect, inc. cbv beta iota zeta.
  rewrite Hf. rewrite view_WF by (apply nz_u8; assumption). rewrite Hv. rewrite flags_nz by apply is_u8_u8.
  rewrite <- Hr. rewrite setNZ_mod. change ((R c t + 1) mod 256) with (u8 (R c t + 1)). rewrite setNZ_eq by apply is_u8_u8.
  rewrite p_put. unfold setP. destruct l; try reflexivity; cbn [put]; unfold setA, store; cbn [a x y s pc ram];
    change (u8 (R c t + 1) mod 256) with (u8 (u8 (R c t + 1))); change ((R c t + 1) mod 256) with (u8 (R c t + 1)); rewrite u8_idem; reflexivity.
Qed.
Lemma dec_ok : view (dec (c, t)) = effect DEC l off (view t).
Proof.
  u8s. destruct (Hw Hl Hl' (u8 (R c t - 1))) as [Hv Hf]. unfold effect, dec. cbv beta iota zeta.
  rewrite Hf. rewrite view_WF by (apply nz_u8; assumption). rewrite Hv. rewrite flags_nz by apply is_u8_u8.
  rewrite <- Hr. rewrite setNZ_mod. change ((R c t - 1) mod 256) with (u8 (R c t - 1)). rewrite setNZ_eq by apply is_u8_u8.
  rewrite p_put. unfold setP. destruct l; try reflexivity; cbn [put]; unfold setA, store; cbn [a x y s pc ram];
    change (u8 (R c t - 1) mod 256) with (u8 (u8 (R c t - 1))); change ((R c t - 1) mod 256) with (u8 (R c t - 1)); rewrite u8_idem; reflexivity.
Qed.
Lemma put_mod v d : put l v d = put l (v mod 256) d.
Proof. destruct l; cbn [put]; unfold setA, store; rewrite ?Z.mod_mod by lia; reflexivity. Qed.

Lemma asl_ok : view (asl (c, t)) = effect ASL l off (view t).
Proof.
  u8s. unfold effect, asl. cbv beta iota zeta. rewrite <- Hr. rewrite (u8_id _ Hb).
  rewrite (put_mod (2 * R c t)). replace ((2 * R c t) mod 256) with (u8 (Z.shiftl (R c t) 1)) by (rewrite Z.shiftl_mul_pow2 by lia; unfold u8; f_equal; lia).
  unfold setNZ. replace ((2 * R c t) mod 256) with (u8 (Z.shiftl (R c t) 1)) by (rewrite Z.shiftl_mul_pow2 by lia; unfold u8; f_equal; lia).
  assert (Hq := is_u8_u8 (Z.shiftl (R c t) 1)). set (q := u8 (Z.shiftl (R c t) 1)) in *.
  apply rmw_gen; [bytef|]. rewrite !isset_80, !sweep_N by assumption. unfold flags_of. f_equal; fbits; reflexivity.
Qed.
Lemma lsr_ok : view (lsr (c, t)) = effect LSR l off (view t).
Proof.
  u8s. unfold effect, lsr. cbv beta iota zeta. rewrite <- Hr. rewrite (u8_id _ Hb).
  rewrite Z.shiftr_div_pow2 by lia. change (2 ^ 1) with 2.
  assert (Hq : 0 <= R c t / 2 < 128) by (unfold is_u8 in Hb; lia). set (q := R c t / 2) in *.
  unfold setNZ. rewrite (Z.mod_small q) by lia. replace (128 <=? q) with false by lia.
  apply rmw_gen; [bytef|]. rewrite isset_1, sweep_bit0 by assumption. unfold flags_of. f_equal; fbits; reflexivity.
Qed.
Lemma carry_eq : carry t = b2z (fC (p (view t))).
Proof. unfold carry. change flagC with 1. rewrite isset_1. reflexivity. Qed.
Lemma rol_sweep (b : bool) : forall v, is_u8 v -> u8 (Z.lor (Z.shiftl v 1) (b2z b)) = (2 * v + b2z b) mod 256.
Proof.
  destruct b; intros v Hv; apply Z.eqb_eq; revert v Hv.
  - exact (sweep1 (fun v => u8 (Z.lor (Z.shiftl v 1) 1) =? (2 * v + 1) mod 256) 256 ltac:(vm_compute; reflexivity)).
  - exact (sweep1 (fun v => u8 (Z.lor (Z.shiftl v 1) 0) =? (2 * v + 0) mod 256) 256 ltac:(vm_compute; reflexivity)).
Qed.
Lemma ror_sweep (b : bool) : forall v, is_u8 v -> u8 (Z.lor (Z.shiftr v 1) (if b then 0x80 else 0)) = (v / 2 + 128 * b2z b) mod 256.
Proof.
  destruct b; intros v Hv; apply Z.eqb_eq; revert v Hv.
  - exact (sweep1 (fun v => u8 (Z.lor (Z.shiftr v 1) 0x80) =? (v / 2 + 128 * 1) mod 256) 256 ltac:(vm_compute; reflexivity)).
  - exact (sweep1 (fun v => u8 (Z.lor (Z.shiftr v 1) 0) =? (v / 2 + 128 * 0) mod 256) 256 ltac:(vm_compute; reflexivity)).
Qed.
Lemma rol_ok : view (rol (c, t)) = effect ROL l off (view t).
Proof.
  u8s. unfold effect, rol. cbv beta iota zeta. rewrite <- Hr. rewrite (u8_id _ Hb). rewrite carry_eq.
  rewrite (rol_sweep (fC (p (view t))) (R c t) Hb).
  rewrite (put_mod (2 * R c t + b2z (fC (p (view t))))). unfold setNZ.
  set (q := (2 * R c t + b2z (fC (p (view t)))) mod 256). assert (Hq : is_u8 q) by (apply Z.mod_pos_bound; lia).
  apply rmw_gen; [bytef|]. rewrite !isset_80, !sweep_N by assumption. unfold flags_of. f_equal; fbits; reflexivity.
Qed.
Lemma ror_ok : view (ror (c, t)) = effect ROR l off (view t).
Proof.
  u8s. unfold effect, ror. cbv beta iota zeta. rewrite <- Hr. rewrite (u8_id _ Hb). change flagC with 1. rewrite (isset_1 (rF t)).
  change (Z.testbit (rF t) 0) with (fC (p (view t))).
  rewrite (ror_sweep (fC (p (view t))) (R c t) Hb).
  rewrite (put_mod (R c t / 2 + 128 * b2z (fC (p (view t))))). unfold setNZ.
  set (q := (R c t / 2 + 128 * b2z (fC (p (view t)))) mod 256). assert (Hq : is_u8 q) by (apply Z.mod_pos_bound; lia).
  apply rmw_gen; [bytef|]. rewrite isset_1, isset_80, sweep_N, sweep_bit0 by assumption. unfold flags_of. f_equal; fbits; reflexivity.
Qed.
End Ops.
