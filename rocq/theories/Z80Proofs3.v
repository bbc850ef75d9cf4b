(** Z80: decimal adjustment, rotations, bit instructions of the model against the manual. *)
From Verif Require Import Base Z80Model Z80Spec Z80Proofs Z80Proofs2.

Definition corr (c h : bool) (a : Z) : Z := (if c || (153 <? a) then 96 else 0) + (if h || (9 <? a mod 16) then 6 else 0).
Lemma corr_eq c h a : byte a ->
  (let incr := if h || (9 <? a mod 16) then 6 else 0 in
   if c || (144 <? Z.land a 240) || (153 <? a) then Z.lor incr 96 else incr) = corr c h a.
Proof.
  intros H. unfold corr. cbv zeta.
  assert (S := sweep 256 (fun a => Bool.eqb ((144 <? Z.land a 240) || (153 <? a)) (153 <? a)) ltac:(vm_compute; reflexivity) a ltac:(unfold byte in H; lia)).
  cbv beta in S. apply Bool.eqb_prop in S. rewrite <- orb_assoc, S.
  destruct (c || (153 <? a)), (h || (9 <? a mod 16)); reflexivity.
Qed.
Lemma corr_range c h a : byte (corr c h a).
Proof. unfold corr, byte. destruct (c || (153 <? a)), (h || (9 <? a mod 16)); lia. Qed.
(** the flags after the correction *)
Lemma daa_half n c h a : byte a ->
  (if n : bool then a mod 16 <? corr c h a mod 16 else 15 <? a mod 16 + corr c h a mod 16) =
  (if n then h && (a mod 16 <? 6) else 9 <? a mod 16).
Proof.
  intros H. unfold byte in H.
  assert (S := sweep 256 (fun a => forallb (fun n => forallb (fun c => forallb (fun h =>
      Bool.eqb (if n : bool then a mod 16 <? corr c h a mod 16 else 15 <? a mod 16 + corr c h a mod 16)
               (if n then h && (a mod 16 <? 6) else 9 <? a mod 16)) [true; false]) [true; false]) [true; false])
    ltac:(vm_compute; reflexivity) a ltac:(lia)).
  cbv beta in S. rewrite forallb_forall in S. specialize (S n ltac:(destruct n; cbn; tauto)).
  rewrite forallb_forall in S. specialize (S c ltac:(destruct c; cbn; tauto)).
  rewrite forallb_forall in S. specialize (S h ltac:(destruct h; cbn; tauto)).
  apply Bool.eqb_prop in S. exact S.
Qed.
Lemma daa_carry_add c h a : byte a -> (255 <? a + corr c h a) || c = c || (153 <? a).
Proof.
  intros H. unfold corr. unfold byte in H. pose proof (Z.mod_pos_bound a 16 ltac:(lia)).
  destruct c, (153 <? a) eqn:E, h, (9 <? a mod 16) eqn:E2; cbn [orb]; try lia; Z.div_mod_to_equations; lia.
Qed.
(** the borrow after a subtraction *)
Lemma daa_carry_sub c h a : byte a -> ~ (c = false /\ (153 < a \/ h = true /\ a < 6)) ->
  (a <? corr c h a) || c = c || (153 <? a).
Proof.
  intros H D. unfold byte in H. destruct c; [apply orb_true_r|]. unfold corr. cbn [orb]. rewrite orb_false_r.
  assert (E : (153 <? a) = false) by lia. rewrite E. destruct h; cbn [orb].
  - assert (6 <= a) by (destruct (Z.ltb_spec a 6); [exfalso; apply D; split; [reflexivity|right; split; [reflexivity|lia] ]|lia]). lia.
  - destruct (9 <? a mod 16) eqn:E2; [|lia]. pose proof (Z.mod_le a 16 ltac:(lia) ltac:(lia)). lia.
Qed.
Lemma daa_eq s : wf s ->
  agree (~ differs_flags false DAA (abs s)) (abs (Z80Model.daa s)) (daa (abs s)).
Proof.
  intros W. pose proof (wf_A s W) as HA. unfold Z80Model.daa, daa. cbv zeta.
  pose proof (corr_eq (Z.testbit (F s) 0) (Z.testbit (F s) 4) (A s) HA) as EC. cbv zeta in EC. rewrite EC.
  change (acc (abs s)) with (A s). cbn [f abs fC fH fN flags_of differs_flags]. change (acc (abs s)) with (A s).
  fold (corr (Z.testbit (F s) 0) (Z.testbit (F s) 4) (A s)).
  set (k := corr (Z.testbit (F s) 0) (Z.testbit (F s) 4) (A s)).
  destruct (Z.testbit (F s) 1) eqn:EN.
  - assert (ER : A (sub_A 0 k s) = (A s - k) mod 256).
    { unfold sub_A, wR, A. cbn [rg set_F set_rg Z.eqb Pos.eqb]. rewrite u8_u8. unfold u8. f_equal. lia. }
    rewrite ER. apply agree_ff.
    + unfold sub_A, wR. cbv zeta. rewrite u8_u8. rewrite Z.add_0_r. reflexivity.
    + intros D. assert (D' : ~ (Z.testbit (F s) 0 = false /\ (153 < A s \/ Z.testbit (F s) 4 = true /\ A s < 6))) by tauto.
      pose proof (daa_carry_sub _ _ _ HA D') as EK. fold k in EK.
      pose proof (daa_half true (Z.testbit (F s) 0) (Z.testbit (F s) 4) (A s) HA) as EH. cbv beta iota in EH. fold k in EH.
      unfold sub_A, szp. cbv zeta. rewrite Z.add_0_r. change ((A s - k) mod 256) with (u8 (A s - k)).
      pose proof (u8_range (A s - k)) as HR.
      byteflags; rewrite ?bit7, ?parity_even by exact HR; try reflexivity; assumption.
  - assert (ER : A (add_A 0 k s) = (A s + k) mod 256).
    { unfold add_A, wR, A. cbn [rg set_F set_rg Z.eqb Pos.eqb]. rewrite u8_u8. unfold u8. f_equal. lia. }
    rewrite ER. apply agree_ff.
    + unfold add_A, wR. cbv zeta. rewrite u8_u8. rewrite Z.add_0_r. reflexivity.
    + intros D. pose proof (daa_carry_add (Z.testbit (F s) 0) (Z.testbit (F s) 4) _ HA) as EK. fold k in EK.
      pose proof (daa_half false (Z.testbit (F s) 0) (Z.testbit (F s) 4) (A s) HA) as EH. cbv beta iota in EH. fold k in EH.
      unfold add_A, szp. cbv zeta. rewrite Z.add_0_r. change ((A s + k) mod 256) with (u8 (A s + k)).
      pose proof (u8_range (A s + k)) as HR.
      byteflags; rewrite ?bit7, ?parity_even by exact HR; try reflexivity; assumption.
Qed.

(** ** Rotations *)
Lemma k8 k : 0 <= k < 8 -> k = 0 \/ k = 1 \/ k = 2 \/ k = 3 \/ k = 4 \/ k = 5 \/ k = 6 \/ k = 7.
Proof. lia. Qed.
Lemma rot_eq k v c : 0 <= k < 8 -> byte v -> c = 0 \/ c = 1 ->
  rot k v c = rotated k v c /\ byte (fst (rot k v c)).
Proof.
  intros Hk Hv Hc.
  assert (E7 := bit7 v Hv). assert (E0 := bit0 v).
  assert (D1 : fl (Z.testbit v 7) 1 = v / 128).
  { rewrite E7. unfold fl, byte in *. destruct (128 <=? v) eqn:E; [apply Z.div_unique with (r := v - 128)|symmetry; apply Z.div_small]; lia. }
  assert (D2 : fl (Z.testbit v 7) 128 = 128 * (v / 128)) by (rewrite <- D1; unfold fl; destruct (Z.testbit v 7); reflexivity).
  assert (D3 : fl (Z.testbit v 0) 128 = 128 * (v mod 2)).
  { rewrite E0, Zmod_odd. unfold fl. destruct (Z.odd v); reflexivity. }
  pose proof (u8_range (2 * v)) as U. assert (Ev : Z.even (u8 (2 * v)) = true).
  { unfold u8. rewrite Z.even_spec. exists (v mod 128). change 256 with (2 * 128). apply Z.mul_mod_distr_l; lia. }
  assert (V : 0 <= v / 128 <= 1) by (unfold byte in Hv; split; [apply Z.div_pos|apply Z.lt_succ_r, Z.div_lt_upper_bound]; lia).
  assert (V2 : 0 <= v / 2 < 128) by (unfold byte in Hv; split; [apply Z.div_pos|apply Z.div_lt_upper_bound]; lia).
  assert (V3 := Z.mod_pos_bound v 2 ltac:(lia)).
  assert (U2 : u8 (2 * v) <> 255) by (intros X; rewrite X in Ev; discriminate).
  unfold byte in U.
  destruct (k8 k Hk) as [-> | [-> | [-> | [-> | [-> | [-> | [-> | ->]]]]]]]; unfold rot, rotated; cbn [Z.eqb Pos.eqb fst];
    rewrite ?D1, ?D2, ?D3, ?E7, ?E0; (split; [reflexivity|]); unfold byte; lia.
Qed.
Lemma rot_f_eq t c pa fl0 x : byte t -> byte pa ->
  (even_parity pa = even_parity t) -> samef (flags_of (rot_f t c pa fl0)) (f (szp t false false c x)).
Proof.
  intros Ht Hp E. unfold rot_f. cbv zeta. byteflags; rewrite ?bit7, ?parity_even by assumption; try reflexivity. exact E.
Qed.
Lemma rot_A_eq k c0 s : 0 <= k < 4 -> wf s -> (c0 = 0 \/ c0 = 1) ->
  let '(v, c) := rot k (A s) c0 in let '(v', c') := rotated k (acc (abs s)) c0 in
  agree True (abs (rot_A v c s)) (rot_acc v' c' (abs s)).
Proof.
  intros Hk W Hc. destruct (rot_eq k (A s) c0 ltac:(lia) (wf_A s W) Hc) as [E B].
  change (acc (abs s)) with (A s). rewrite <- E. destruct (rot k (A s) c0) as [v c]. cbn [fst] in B.
  apply agree_ff.
  - unfold rot_A, rot_acc, wR. rewrite u8_id by exact B. reflexivity.
  - intros _. unfold rot_A, rot_acc. byteflags; reflexivity.
Qed.

(** ** Bits *)
Lemma bit_clear_eq b v : 0 <= b -> bit_clear b v = negb (Z.testbit v b).
Proof.
  intros H. unfold bit_clear. rewrite Z.testbit_eqb by exact H.
  pose proof (Z.mod_pos_bound (v / 2 ^ b) 2 ltac:(lia)).
  destruct (Z.eqb_spec (v / 2 ^ b mod 2) 0), (Z.eqb_spec (v / 2 ^ b mod 2) 1); cbn [negb]; lia.
Qed.
Lemma without_eq b v : 0 <= b < 8 -> byte v -> Z.land v (255 - 2 ^ b) = without b v /\ byte (without b v).
Proof.
  intros Hb Hv.
  assert (S := sweep 256 (fun v => forallb (fun b => (Z.land v (255 - 2 ^ b) =? without b v) && (0 <=? without b v) && (without b v <? 256)) [0;1;2;3;4;5;6;7])
    ltac:(vm_compute; reflexivity) v ltac:(unfold byte in Hv; lia)). cbv beta in S.
  rewrite forallb_forall in S. specialize (S b ltac:(cbn; lia)). unfold byte. lia.
Qed.
Lemma with_eq b v : 0 <= b < 8 -> byte v -> Z.lor v (2 ^ b) = with_ b v /\ byte (with_ b v).
Proof.
  intros Hb Hv.
  assert (S := sweep 256 (fun v => forallb (fun b => (Z.lor v (2 ^ b) =? with_ b v) && (0 <=? with_ b v) && (with_ b v <? 256)) [0;1;2;3;4;5;6;7])
    ltac:(vm_compute; reflexivity) v ltac:(unfold byte in Hv; lia)). cbv beta in S.
  rewrite forallb_forall in S. specialize (S b ltac:(cbn; lia)). unfold byte. lia.
Qed.
Lemma bit_f_eq b v s x : 0 <= b < 8 -> f x = flags_of (F s) -> samef (flags_of (bit_f v b (F s))) (f (bitf b v x)).
Proof.
  intros Hb Hx. unfold bit_f, bitf. cbv zeta. rewrite !bit_clear_eq by lia. rewrite negb_involutive.
  destruct (Z.testbit v b); byteflags; rewrite ?Hx; cbn [negb]; rewrite ?andb_true_r, ?andb_false_r; reflexivity.
Qed.
