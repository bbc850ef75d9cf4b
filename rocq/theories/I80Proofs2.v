(** 8080/8085: the arithmetic of the simulator is the arithmetic of the manual. *)
From Verif Require Import Base I80Model I80Spec I80Proofs.

Lemma carry_bit s : (if fC (abs s) then 1 else 0) = (if Z.testbit (F s) 0 then 1 else 0).
Proof. reflexivity. Qed.
(** the flags part of an operation *)
Lemma flags_same m85 f r t y a c :
  0 <= r < 256 -> same (abs t) y ->
  Z.testbit f 0 = c -> Z.testbit f 2 = false -> Z.testbit f 4 = a -> Z.testbit f 6 = false -> Z.testbit f 7 = false ->
  same (abs (wF m85 (szp f r) t)) (flags r a c y).
Proof.
  intros Hr [H1 [_ [_ [_ [_ [_ [H7 [H8 H9]]]]]]]] F0 F2 F4 F6 F7.
  destruct (flag_bits m85 f r t Hr) as [B0 [B2 [B4 [B6 B7]]]].
  unfold same. refine (conj _ (conj _ (conj _ (conj _ (conj _ (conj _ (conj _ (conj _ _)))))))).
  - exact H1.
  - cbn [abs fS flags setf]. rewrite B7, F7. reflexivity.
  - cbn [abs fZ flags setf]. rewrite B6, F6. reflexivity.
  - cbn [abs fA flags setf]. rewrite B4, F4. reflexivity.
  - cbn [abs fP flags setf]. rewrite B2, F2. reflexivity.
  - cbn [abs fC flags setf]. rewrite B0, F0. reflexivity.
  - exact H7.
  - exact H8.
  - exact H9.
Qed.
Lemma wA_setr v s : 0 <= v < 256 -> same (abs (wA v s)) (setr 7 v (abs s)).
Proof. intros H. unfold wA. rewrite u8_id by exact H. parts; reflexivity. Qed.
Lemma A_R7 s : R (abs s) 7 = A s. Proof. reflexivity. Qed.

Lemma add8_same m85 v s (c : bool) : wf s -> 0 <= v < 256 ->
  (c && Z.testbit (F s) 0 = true -> v mod 16 <> 15) ->
  same (abs (add8 m85 v c false s)) (add v (if c && Z.testbit (F s) 0 then 1 else 0) (abs s)).
Proof.
  intros W Hv Hc. unfold add8, add. rewrite A_R7. cbv zeta.
  set (k := c && Z.testbit (F s) 0) in *. clearbody k.
  assert (Ha : 0 <= A s < 256) by (unfold wf in W; lia).
  assert (E : (if k then u8 (v + 1) else v) = v + (if k then 1 else 0)).
  { destruct k; [|lia]. apply u8_id. specialize (Hc eq_refl). assert (v <> 255) by (intros ->; apply Hc; reflexivity). lia. }
  rewrite E. replace (A s + (v + (if k then 1 else 0))) with (A s + v + (if k then 1 else 0)) by lia.
  set (t := A s + v + (if k then 1 else 0)).
  assert (Hr : 0 <= t mod 256 < 256) by (apply Z.mod_pos_bound; lia).
  change (u8 t) with (t mod 256).
  apply flags_same; [exact Hr|apply wA_setr; exact Hr| | | | |]; bits; try reflexivity.
  - destruct (255 <? t) eqn:X; destruct (256 <=? t) eqn:Y; try reflexivity; lia.
  - assert (Em : (v + (if k then 1 else 0)) mod 16 = v mod 16 + (if k then 1 else 0)).
    { destruct k; [|rewrite !Z.add_0_r; reflexivity]. specialize (Hc eq_refl).
      pose proof (Z.mod_pos_bound v 16 ltac:(lia)). pose proof (Z.div_mod v 16 ltac:(lia)).
      symmetry. apply Z.mod_unique with (q := v / 16); lia. }
    rewrite Em. rewrite Z.add_assoc.
    destruct (15 <? _) eqn:X; destruct (16 <=? _) eqn:Y; try reflexivity; lia.
Qed.
Lemma sub8_same m85 v s (c keep : bool) : wf s -> 0 <= v < 256 ->
  (c && Z.testbit (F s) 0 = true -> A s <> v) ->
  same (abs (sub8 m85 v c keep s)) (sub v (if c && Z.testbit (F s) 0 then 1 else 0) keep (abs s)).
Proof.
  intros W Hv Hc. unfold sub8, sub. rewrite A_R7. cbv zeta.
  set (k := c && Z.testbit (F s) 0) in *. clearbody k.
  assert (Ha : 0 <= A s < 256) by (unfold wf in W; lia).
  set (y := v + (if k then 1 else 0)).
  assert (E : u8 (- (if k then u8 (v + 1) else v)) = (- y) mod 256).
  { unfold y, u8. destruct k; [|rewrite Z.add_0_r; reflexivity].
    rewrite <- Z.sub_0_l, Zminus_mod_idemp_r, Z.sub_0_l. reflexivity. }
  rewrite E.
  assert (Er : u8 (A s + (- y) mod 256) = (A s - y) mod 256).
  { unfold u8. rewrite Zplus_mod_idemp_r. f_equal; lia. }
  rewrite Er.
  assert (Hr : 0 <= (A s - y) mod 256 < 256) by (apply Z.mod_pos_bound; lia).
  apply flags_same; [exact Hr|destruct keep; [apply same_refl|apply wA_setr; exact Hr]| | | | |]; bits; try reflexivity.
  - unfold y. destruct k.
    + specialize (Hc eq_refl). destruct (A s <? v) eqn:X; destruct (A s - (v + 1) <? 0) eqn:Y; try reflexivity; lia.
    + destruct (A s <? v) eqn:X; destruct (A s - (v + 0) <? 0) eqn:Y; try reflexivity; lia.
  - assert (Em : ((- y) mod 256) mod 16 = (- y) mod 16) by (symmetry; apply (Znumtheory.Zmod_div_mod 16 256); [lia|lia|exists 16; reflexivity]).
    rewrite Em. destruct (15 <? _) eqn:X; destruct (16 <=? _) eqn:Y; try reflexivity; lia.
Qed.
Lemma land_byte a b : 0 <= a < 256 -> 0 <= b < 256 -> 0 <= Z.land a b < 256.
Proof.
  intros Ha Hb. split; [apply Z.land_nonneg; lia|]. change 256 with (2 ^ 8).
  destruct (Z.eq_dec (Z.land a b) 0) as [->|N]; [lia|]. apply Z.log2_lt_pow2; [assert (0 <= Z.land a b) by (apply Z.land_nonneg; lia); lia|].
  eapply Z.le_lt_trans; [apply Z.log2_land; lia|]. apply Z.min_lt_iff. left.
  destruct (Z.eq_dec a 0) as [->|Na]; [rewrite Z.land_0_l in N; congruence|]. apply Z.log2_lt_pow2; lia.
Qed.
Lemma lor_byte a b : 0 <= a < 256 -> 0 <= b < 256 -> 0 <= Z.lor a b < 256.
Proof.
  intros Ha Hb. split; [apply Z.lor_nonneg; lia|]. change 256 with (2 ^ 8).
  destruct (Z.eq_dec (Z.lor a b) 0) as [->|N]; [lia|]. apply Z.log2_lt_pow2; [assert (0 <= Z.lor a b) by (apply Z.lor_nonneg; lia); lia|].
  rewrite Z.log2_lor by lia. apply Z.max_lub_lt.
  - destruct (Z.eq_dec a 0) as [->|Na]; [reflexivity|]. apply Z.log2_lt_pow2; lia.
  - destruct (Z.eq_dec b 0) as [->|Nb]; [reflexivity|]. apply Z.log2_lt_pow2; lia.
Qed.
Lemma lxor_byte a b : 0 <= a < 256 -> 0 <= b < 256 -> 0 <= Z.lxor a b < 256.
Proof.
  intros Ha Hb. assert (P : 0 <= Z.lxor a b) by (apply Z.lxor_nonneg; lia). split; [exact P|]. change 256 with (2 ^ 8).
  destruct (Z.eq_dec (Z.lxor a b) 0) as [->|N]; [lia|]. apply Z.log2_lt_pow2; [lia|].
  eapply Z.le_lt_trans; [apply Z.log2_lxor; lia|]. apply Z.max_lub_lt.
  - destruct (Z.eq_dec a 0) as [->|Na]; [reflexivity|]. apply Z.log2_lt_pow2; lia.
  - destruct (Z.eq_dec b 0) as [->|Nb]; [reflexivity|]. apply Z.log2_lt_pow2; lia.
Qed.
(** the condition under which an operation of the accumulator is right *)
Definition alu_fine (m85 : bool) (k : alu) (v : Z) (s : cpu) : Prop :=
  match k with
  | kADC => Z.testbit (F s) 0 = true -> v mod 16 <> 15
  | kSBB => Z.testbit (F s) 0 = true -> A s <> v
  | kANA => m85 = true \/ Z.testbit (A s) 3 = true \/ Z.testbit v 3 = true
  | _ => True
  end.
Lemma alu_same m85 k v s : wf s -> 0 <= v < 256 -> alu_fine m85 k v s ->
  same (abs (alu_op m85 k v s)) (arith m85 (knum k) v (abs s)).
Proof.
  intros W Hv Hf. assert (Ha : 0 <= A s < 256) by (unfold wf in W; lia).
  destruct k; cbn [alu_op].
  - apply (add8_same m85 v s false W Hv). discriminate.
  - apply (add8_same m85 v s true W Hv). exact Hf.
  - apply (sub8_same m85 v s false false W Hv). discriminate.
  - apply (sub8_same m85 v s true false W Hv). exact Hf.
  - apply (sub8_same m85 v s false true W Hv). discriminate.
  - unfold ana. pose proof (land_byte (A s) v Ha Hv) as Hr.
    apply flags_same; [exact Hr|apply wA_setr; exact Hr| | | | |]; bits; try reflexivity.
    destruct Hf as [-> | Hf]; [reflexivity|]. destruct m85; [reflexivity|]. rewrite A_R7.
    destruct Hf as [-> | ->]; [reflexivity|]. rewrite orb_true_r. reflexivity.
  - unfold ora. pose proof (lor_byte (A s) v Ha Hv) as Hr.
    apply flags_same; [exact Hr|apply wA_setr; exact Hr| | | | |]; bits; reflexivity.
  - unfold xra. pose proof (lxor_byte (A s) v Ha Hv) as Hr.
    apply flags_same; [exact Hr|apply wA_setr; exact Hr| | | | |]; bits; reflexivity.
Qed.
Lemma inr_same m85 dum r s : wf s -> same (abs (inr m85 dum r s)) (inc (num r) 1 (abs s)).
Proof.
  intros W. unfold inr, inc. rewrite (get_src dum r s W). cbv zeta.
  assert (Hv : 0 <= src (num r) (abs s) < 256) by (rewrite <- (get_src 0 r s W); apply get_range; exact W).
  set (v := src (num r) (abs s)) in *. change (u8 (v + 1)) with ((v + 1) mod 256).
  assert (Hr : 0 <= (v + 1) mod 256 < 256) by (apply Z.mod_pos_bound; lia).
  apply flags_same; [exact Hr|apply put_dst; [exact W|exact Hr]| | | | |]; bits; try reflexivity.
  change (1 mod 16) with 1. pose proof (Z.mod_pos_bound v 16 ltac:(lia)).
  destruct (v mod 16 =? 15) eqn:X; destruct (16 <=? _) eqn:Y; try reflexivity; lia.
Qed.
Lemma dcr_same m85 dum r s : wf s -> same (abs (dcr m85 dum r s)) (inc (num r) (-1) (abs s)).
Proof.
  intros W. unfold dcr, inc. rewrite (get_src dum r s W). cbv zeta.
  assert (Hv : 0 <= src (num r) (abs s) < 256) by (rewrite <- (get_src 0 r s W); apply get_range; exact W).
  set (v := src (num r) (abs s)) in *.
  assert (E : u8 (v + 255) = (v + -1) mod 256).
  { unfold u8. replace (v + 255) with (v + -1 + 1 * 256) by lia. apply Z.mod_add. lia. }
  rewrite E. assert (Hr : 0 <= (v + -1) mod 256 < 256) by (apply Z.mod_pos_bound; lia).
  apply flags_same; [exact Hr|apply put_dst; [exact W|exact Hr]| | | | |]; bits; try reflexivity.
  change (-1 mod 16) with 15. pose proof (Z.mod_pos_bound v 16 ltac:(lia)).
  destruct (15 <? _) eqn:X; destruct (16 <=? _) eqn:Y; try reflexivity; lia.
Qed.
(** only the carry *)
Lemma carry_same m85 f t y c : same (abs (set_F 0 t)) (setf false false false false false y) ->
  Z.testbit f 0 = c -> Z.testbit f 2 = fP y -> Z.testbit f 4 = fA y -> Z.testbit f 6 = fZ y -> Z.testbit f 7 = fS y ->
  same (abs (wF m85 f t)) (setc c y).
Proof.
  intros [H1 [_ [_ [_ [_ [_ [H7 [H8 H9]]]]]]]] F0 F2 F4 F6 F7.
  unfold same. refine (conj _ (conj _ (conj _ (conj _ (conj _ (conj _ (conj _ (conj _ _)))))))).
  - exact H1.
  - cbn [abs fS setc setf]. rewrite wF_bit by (unfold docbit; lia). exact F7.
  - cbn [abs fZ setc setf]. rewrite wF_bit by (unfold docbit; lia). exact F6.
  - cbn [abs fA setc setf]. rewrite wF_bit by (unfold docbit; lia). exact F4.
  - cbn [abs fP setc setf]. rewrite wF_bit by (unfold docbit; lia). exact F2.
  - cbn [abs fC setc setf]. rewrite wF_bit by (unfold docbit; lia). exact F0.
  - exact H7.
  - exact H8.
  - exact H9.
Qed.
Lemma same_noflags x y : same x y -> same (setf false false false false false x) (setf false false false false false y).
Proof. intros [H1 [_ [_ [_ [_ [_ [H7 [H8 H9]]]]]]]]. repeat split; assumption. Qed.
Lemma abs_noflags s : abs (set_F 0 s) = setf false false false false false (abs s).
Proof. reflexivity. Qed.
Lemma dad_same m85 p s : wf s -> p <> pPSW ->
  same (abs (dad m85 (get2 p s) s))
       (let t := pairv 2 (abs s) + pairv (pnum p) (abs s) in setc (65536 <=? t) (setpair 2 (w t) (abs s))).
Proof.
  intros W Hp. unfold dad. rewrite <- get2_pairv by exact Hp. change (pairv 2 (abs s)) with (HL s). cbv zeta.
  set (t := HL s + get2 p s).
  pose proof (mod65536 t) as Ht.
  assert (E : wHL t s = wHL (t mod 65536) s).
  { unfold wHL. f_equal; [|f_equal].
    - unfold u8. change 65536 with (256 * 256). rewrite Z.rem_mul_r by lia.
      rewrite Z.add_comm, Z.mul_comm, Z.div_add_l by lia. rewrite (Z.div_small (t mod 256)) by (apply Z.mod_pos_bound; lia).
      rewrite Z.add_0_r, Z.mod_mod by lia. reflexivity.
    - unfold u8. apply (Znumtheory.Zmod_div_mod 256 65536); [lia|lia|exists 256; reflexivity]. }
  rewrite E. apply carry_same.
  - rewrite abs_noflags. apply same_noflags. apply (put2_setpair pH); [discriminate|exact Ht].
  - bits. destruct (65535 <? t) eqn:X; destruct (65536 <=? t) eqn:Y; try reflexivity; lia.
  - bits. reflexivity.
  - bits. reflexivity.
  - bits. reflexivity.
  - bits. reflexivity.
Qed.
Lemma rot_same m85 f r s c : 0 <= r < 256 ->
  Z.testbit f 0 = c -> Z.testbit f 2 = Z.testbit (F s) 2 -> Z.testbit f 4 = Z.testbit (F s) 4 ->
  Z.testbit f 6 = Z.testbit (F s) 6 -> Z.testbit f 7 = Z.testbit (F s) 7 ->
  same (abs (wF m85 f (wA r s))) (setc c (setr 7 r (abs s))).
Proof.
  intros Hr F0 F2 F4 F6 F7. apply carry_same; try assumption.
  rewrite abs_noflags. apply same_noflags, wA_setr, Hr.
Qed.
Lemma fl_bit_odd a : fl (Z.testbit a 0) 1 = a mod 2.
Proof. rewrite bit0, Zmod_odd. destruct (Z.odd a); reflexivity. Qed.
Lemma rlc_same m85 s : wf s ->
  same (abs (rlc m85 s)) (setc (128 <=? A s) (setr 7 (2 * A s mod 256 + A s / 128) (abs s))).
Proof.
  intros W. assert (Ha : 0 <= A s < 256) by (unfold wf in W; lia). unfold rlc. cbv zeta. rewrite (bit7 _ Ha).
  assert (E : u8 (2 * A s) + fl (128 <=? A s) 1 = 2 * A s mod 256 + A s / 128).
  { unfold u8, fl. f_equal. destruct (128 <=? A s) eqn:X; [apply Z.div_unique with (r := A s - 128); lia|symmetry; apply Z.div_small; lia]. }
  rewrite E. apply rot_same; [|bits; reflexivity..].
  pose proof (Z.div_mod (2 * A s) 256 ltac:(lia)). pose proof (Z.mod_pos_bound (2 * A s) 256 ltac:(lia)).
  pose proof (Z.div_mod (A s) 128 ltac:(lia)). pose proof (Z.mod_pos_bound (A s) 128 ltac:(lia)). lia.
Qed.
Lemma ral_same m85 s : wf s ->
  same (abs (ral m85 s)) (setc (128 <=? A s) (setr 7 (2 * A s mod 256 + (if Z.testbit (F s) 0 then 1 else 0)) (abs s))).
Proof.
  intros W. assert (Ha : 0 <= A s < 256) by (unfold wf in W; lia). unfold ral. cbv zeta. rewrite (bit7 _ Ha).
  change (fl (Z.testbit (F s) 0) 1) with (if Z.testbit (F s) 0 then 1 else 0).
  apply rot_same; [|bits; reflexivity..]. unfold u8.
  pose proof (Z.div_mod (2 * A s) 256 ltac:(lia)). pose proof (Z.mod_pos_bound (2 * A s) 256 ltac:(lia)).
  destruct (Z.testbit (F s) 0); lia.
Qed.
Lemma rrc_same m85 s : wf s ->
  same (abs (rrc m85 s)) (setc (Z.odd (A s)) (setr 7 (A s / 2 + 128 * (A s mod 2)) (abs s))).
Proof.
  intros W. assert (Ha : 0 <= A s < 256) by (unfold wf in W; lia). unfold rrc. cbv zeta.
  assert (E : A s / 2 + fl (Z.testbit (A s) 0) 128 = A s / 2 + 128 * (A s mod 2)).
  { f_equal. rewrite bit0, Zmod_odd. destruct (Z.odd (A s)); reflexivity. }
  rewrite E, bit0. apply rot_same; [|bits; reflexivity..].
  pose proof (Z.div_mod (A s) 2 ltac:(lia)). pose proof (Z.mod_pos_bound (A s) 2 ltac:(lia)). lia.
Qed.
Lemma rar_same m85 s : wf s ->
  same (abs (rar m85 s)) (setc (Z.odd (A s)) (setr 7 (A s / 2 + 128 * (if Z.testbit (F s) 0 then 1 else 0)) (abs s))).
Proof.
  intros W. assert (Ha : 0 <= A s < 256) by (unfold wf in W; lia). unfold rar. cbv zeta.
  assert (E : A s / 2 + fl (Z.testbit (F s) 0) 128 = A s / 2 + 128 * (if Z.testbit (F s) 0 then 1 else 0)).
  { f_equal. destruct (Z.testbit (F s) 0); reflexivity. }
  rewrite E, bit0. apply rot_same; [|bits; reflexivity..].
  pose proof (Z.div_mod (A s) 2 ltac:(lia)). pose proof (Z.mod_pos_bound (A s) 2 ltac:(lia)). destruct (Z.testbit (F s) 0); lia.
Qed.
