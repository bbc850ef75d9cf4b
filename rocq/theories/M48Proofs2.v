(** MCS-48: each kind of instruction has the effect of the manual. *)
From Verif Require Import Base M48Model M48Spec M48Proofs.

Lemma pow2 f g : (forall v, 0 <= v < 256 -> f v = g v :> Z) -> forall v, 0 <= v < 256 -> f v = g v.
Proof. auto. Qed.

(** ** flags *)
Lemma parts_self v : sFp (parts v) = sF (Z.testbit v 7) (Z.testbit v 6) (Z.testbit v 5) (Z.testbit v 4) (v mod 8).
Proof. reflexivity. Qed.
Lemma land_r v m : 0 <= v < 256 -> 0 <= m -> 0 <= Z.land v m < 256.
Proof.
  intros H M. split; [apply Z.land_nonneg; lia|]. 
  assert (Z.land v m <= v). { apply Z.ldiff_le; [lia|]. rewrite Z.ldiff_land. apply Z.bits_inj'. intros n Hn. rewrite !Z.land_spec, Z.lnot_spec, Z.bits_0 by lia. destruct (Z.testbit v n), (Z.testbit m n); reflexivity. }
  lia.
Qed.
Lemma lor_r v m : 0 <= v < 256 -> 0 <= m < 256 -> 0 <= Z.lor v m < 256.
Proof.
  intros H M. split; [apply Z.lor_nonneg; lia|].
  destruct (Z.eq_dec (Z.lor v m) 0) as [E | E]; [lia|].
  change 256 with (2 ^ 8). apply Z.log2_lt_pow2; [assert (0 <= Z.lor v m) by (apply Z.lor_nonneg; lia); lia|].
  rewrite Z.log2_lor by lia. apply Z.max_lub_lt.
  - destruct (Z.eq_dec v 0) as [-> | N]; [reflexivity|apply Z.log2_lt_pow2; lia].
  - destruct (Z.eq_dec m 0) as [-> | N]; [reflexivity|apply Z.log2_lt_pow2; lia].
Qed.
Lemma lxor_r v m : 0 <= v < 256 -> 0 <= m < 256 -> 0 <= Z.lxor v m < 256.
Proof.
  intros H M. split; [apply Z.lxor_nonneg; lia|].
  destruct (Z.eq_dec (Z.lxor v m) 0) as [E | E]; [lia|].
  change 256 with (2 ^ 8). apply Z.log2_lt_pow2; [assert (0 <= Z.lxor v m) by (apply Z.lxor_nonneg; lia); lia|].
  eapply Z.le_lt_trans; [apply Z.log2_lxor; lia|]. apply Z.max_lub_lt.
  - destruct (Z.eq_dec v 0) as [-> | N]; [reflexivity|apply Z.log2_lt_pow2; lia].
  - destruct (Z.eq_dec m 0) as [-> | N]; [reflexivity|apply Z.log2_lt_pow2; lia].
Qed.
Ltac rng := repeat first [apply land_r | apply lor_r | apply lxor_r | apply u8_range | assumption | lia | match goal with W : wf _ |- _ => apply W end].

(** the psw after an arithmetic operation *)
Lemma parts_add v c a : 0 <= v < 256 ->
  let f := Z.land v 63 in
  let f := if c : bool then Z.lor f 128 else f in
  parts (if a : bool then Z.lor f 64 else f) = (c, a, Z.testbit v 5, Z.testbit v 4, v mod 8).
Proof.
  intros H. cbv zeta. destruct c, a; revert v H;
  [apply (p8 (fun v => parts (Z.lor (Z.lor (Z.land v 63) 128) 64)) (fun v => (true, true, Z.testbit v 5, Z.testbit v 4, v mod 8)))
  |apply (p8 (fun v => parts (Z.lor (Z.land v 63) 128)) (fun v => (true, false, Z.testbit v 5, Z.testbit v 4, v mod 8)))
  |apply (p8 (fun v => parts (Z.lor (Z.land v 63) 64)) (fun v => (false, true, Z.testbit v 5, Z.testbit v 4, v mod 8)))
  |apply (p8 (fun v => parts (Z.land v 63)) (fun v => (false, false, Z.testbit v 5, Z.testbit v 4, v mod 8)))]; vm_compute; reflexivity.
Qed.
Lemma parts_c127 v c : 0 <= v < 256 -> 
  parts (if c : bool then Z.land v 127 else Z.lor (Z.land v 127) 128) = (negb c, Z.testbit v 6, Z.testbit v 5, Z.testbit v 4, v mod 8).
Proof.
  intros H. destruct c; revert v H;
  [apply (p8 (fun v => parts (Z.land v 127)) (fun v => (false, Z.testbit v 6, Z.testbit v 5, Z.testbit v 4, v mod 8)))
  |apply (p8 (fun v => parts (Z.lor (Z.land v 127) 128)) (fun v => (true, Z.testbit v 6, Z.testbit v 5, Z.testbit v 4, v mod 8)))]; vm_compute; reflexivity.
Qed.
Lemma parts_setc v : 0 <= v < 256 -> parts (Z.lor v 128) = (true, Z.testbit v 6, Z.testbit v 5, Z.testbit v 4, v mod 8).
Proof. revert v. apply (p8 (fun v => parts (Z.lor v 128)) (fun v => (true, Z.testbit v 6, Z.testbit v 5, Z.testbit v 4, v mod 8))). vm_compute. reflexivity. Qed.
Lemma parts_cplc v : 0 <= v < 256 -> parts (Z.lxor v 128) = (negb (Z.testbit v 7), Z.testbit v 6, Z.testbit v 5, Z.testbit v 4, v mod 8).
Proof. revert v. apply (p8 (fun v => parts (Z.lxor v 128)) (fun v => (negb (Z.testbit v 7), Z.testbit v 6, Z.testbit v 5, Z.testbit v 4, v mod 8))). vm_compute. reflexivity. Qed.
Lemma parts_clrf0 v : 0 <= v < 256 -> parts (Z.land v 223) = (Z.testbit v 7, Z.testbit v 6, false, Z.testbit v 4, v mod 8).
Proof. revert v. apply (p8 (fun v => parts (Z.land v 223)) (fun v => (Z.testbit v 7, Z.testbit v 6, false, Z.testbit v 4, v mod 8))). vm_compute. reflexivity. Qed.
Lemma parts_cplf0 v : 0 <= v < 256 -> parts (Z.lxor v 32) = (Z.testbit v 7, Z.testbit v 6, negb (Z.testbit v 5), Z.testbit v 4, v mod 8).
Proof. revert v. apply (p8 (fun v => parts (Z.lxor v 32)) (fun v => (Z.testbit v 7, Z.testbit v 6, negb (Z.testbit v 5), Z.testbit v 4, v mod 8))). vm_compute. reflexivity. Qed.
Lemma parts_selrb v b : 0 <= v < 256 -> parts (if b : bool then Z.lor v 16 else Z.land v 239) = (Z.testbit v 7, Z.testbit v 6, Z.testbit v 5, b, v mod 8).
Proof.
  intros H. destruct b; revert v H;
  [apply (p8 (fun v => parts (Z.lor v 16)) (fun v => (Z.testbit v 7, Z.testbit v 6, Z.testbit v 5, true, v mod 8)))
  |apply (p8 (fun v => parts (Z.land v 239)) (fun v => (Z.testbit v 7, Z.testbit v 6, Z.testbit v 5, false, v mod 8)))]; vm_compute; reflexivity.
Qed.
Lemma testbit_odd v k : 0 <= k -> Z.testbit v k = Z.odd (v / 2 ^ k).
Proof. intros. rewrite Z.testbit_odd, Z.shiftr_div_pow2 by lia. reflexivity. Qed.
Lemma parts_load v : parts v = (Z.odd (v / 128), Z.odd (v / 64), Z.odd (v / 32), Z.odd (v / 16), v mod 8).
Proof. unfold parts. rewrite !testbit_odd by lia. reflexivity. Qed.
Lemma psw_of_eq s : wf s -> psw_of (abs s) = psw s.
Proof.
  intros W. assert (B : 0 <= psw s < 256) by apply W. assert (T3 : Z.testbit (psw s) 3 = true) by apply W. unfold psw_of. cbn [abs cy ac f0 bs sp].
  assert (S := sweep 256 (fun v => negb (Z.testbit v 3) || (128 * Z.b2z (Z.testbit v 7) + 64 * Z.b2z (Z.testbit v 6) + 32 * Z.b2z (Z.testbit v 5) + 16 * Z.b2z (Z.testbit v 4) + 8 + v mod 8 =? v)) ltac:(vm_compute; reflexivity) (psw s) ltac:(lia)).
  cbv beta in S. rewrite T3 in S. apply Z.eqb_eq, S.
Qed.

(** ** accumulator *)
Lemma add_ok v c s : wf s -> 0 <= v < 256 ->
  abs (add v c s) = addx v (if c then Z.b2z (cy (abs s)) else 0) (abs s).
Proof.
  intros W H. assert (P : 0 <= psw s < 256) by apply W. assert (HA : 0 <= A s < 256) by apply W. unfold add.
  assert (E : (if c then if Z.land (psw s) 128 =? 0 then 0 else 1 else 0) = (if c then Z.b2z (cy (abs s)) else 0)).
  { destruct c; [|reflexivity]. rewrite land128 by exact P. cbn [cy abs]. destruct (Z.testbit (psw s) 7); reflexivity. }
  cbv zeta. rewrite E. set (k := if c then Z.b2z (cy (abs s)) else 0). rewrite !land15.
  unfold wA. set (f := if 15 <? _ then _ else _).
  change (abs (set_A (u8 (A s + v + k)) (wF f s))) with (sA (u8 (A s + v + k)) (abs (wF f s))).
  rewrite abs_wF by (unfold f; destruct (255 <? _), (15 <? _); rng).
  unfold f. rewrite (parts_add (psw s) (255 <? A s + v + k) (15 <? A s mod 16 + v mod 16 + k) P).
  unfold addx. cbn [acc abs f0 bs sp]. rewrite parts_of_sF.
  replace (255 <? A s + v + k) with (256 <=? A s + v + k) by (destruct (Z.leb_spec 256 (A s + v + k)), (Z.ltb_spec 255 (A s + v + k)); auto; lia).
  replace (15 <? A s mod 16 + v mod 16 + k) with (16 <=? A s mod 16 + v mod 16 + k) by (destruct (Z.leb_spec 16 (A s mod 16 + v mod 16 + k)), (Z.ltb_spec 15 (A s mod 16 + v mod 16 + k)); auto; lia).
  reflexivity.
Qed.
Lemma log_ok k v s : wf s -> 0 <= v < 256 ->
  abs (wA (lopf k (A s) v) s) = alu (match k with kORL => 4 | kANL => 5 | kXRL => 13 end) v (abs s).
Proof. intros W H. rewrite abs_wA by (destruct k; cbn [lopf]; rng). destruct k; reflexivity. Qed.

Definition daa_a (a : Z) (c h : bool) : Z * bool :=
  let lo := (9 <? Z.land a 15) || h in
  let c1 := (lo && (249 <? a)) || c in
  let a1 := if lo then u8 (a + 6) else a in
  let hi := (144 <? Z.land a1 240) || c1 in
  (if hi then u8 (a1 + 96) else a1, hi || c1).
Definition daa_s (a : Z) (c h : bool) : Z * bool :=
  let t := a + (if (10 <=? a mod 16) || h then 6 else 0) in
  let hi := (160 <=? t) || c in ((if hi then t + 96 else t) mod 256, hi || c).
Lemma daa_as a c h : 0 <= a < 256 -> daa_a a c h = daa_s a c h.
Proof.
  intros H. assert (S : (fst (daa_a a c h) =? fst (daa_s a c h)) && Bool.eqb (snd (daa_a a c h)) (snd (daa_s a c h)) = true).
  { destruct c, h; revert a H;
    [apply (sweep 256 (fun a => (fst (daa_a a true true) =? fst (daa_s a true true)) && Bool.eqb (snd (daa_a a true true)) (snd (daa_s a true true))))
    |apply (sweep 256 (fun a => (fst (daa_a a true false) =? fst (daa_s a true false)) && Bool.eqb (snd (daa_a a true false)) (snd (daa_s a true false))))
    |apply (sweep 256 (fun a => (fst (daa_a a false true) =? fst (daa_s a false true)) && Bool.eqb (snd (daa_a a false true)) (snd (daa_s a false true))))
    |apply (sweep 256 (fun a => (fst (daa_a a false false) =? fst (daa_s a false false)) && Bool.eqb (snd (daa_a a false false)) (snd (daa_s a false false))))]; vm_compute; reflexivity. }
  rewrite andb_true_iff, Z.eqb_eq in S. destruct S as [S1 S2]. apply Bool.eqb_prop in S2.
  rewrite (surjective_pairing (daa_a a c h)), (surjective_pairing (daa_s a c h)). congruence.
Qed.
Lemma parts_carry v (b : bool) : 0 <= v < 256 ->
  parts (if b then Z.lor v 128 else v) = (b || Z.testbit v 7, Z.testbit v 6, Z.testbit v 5, Z.testbit v 4, v mod 8).
Proof. intros H. destruct b; [apply parts_setc, H|reflexivity]. Qed.
Lemma daa_ok s : wf s -> abs (daa s) = dec_adj (abs s).
Proof.
  intros W. assert (P : 0 <= psw s < 256) by apply W. assert (HA : 0 <= A s < 256) by apply W.
  unfold daa. cbv zeta. rewrite land64 by exact P. rewrite negb_involutive.
  set (lo := (9 <? Z.land (A s) 15) || Z.testbit (psw s) 6).
  set (f := if lo && (249 <? A s) then Z.lor (psw s) 128 else psw s).
  assert (Hf : 0 <= f < 256) by (unfold f; destruct (lo && _); rng).
  assert (Pf : parts f = ((lo && (249 <? A s)) || Z.testbit (psw s) 7, Z.testbit (psw s) 6, Z.testbit (psw s) 5, Z.testbit (psw s) 4, psw s mod 8)) by (apply parts_carry, P).
  rewrite (land128 f Hf), negb_involutive.
  set (a1 := if lo then u8 (A s + 6) else A s).
  assert (T7 : Z.testbit f 7 = (lo && (249 <? A s)) || Z.testbit (psw s) 7) by (change (Z.testbit f 7) with (fst (fst (fst (fst (parts f))))); rewrite Pf; reflexivity).
  rewrite T7. set (hi := (144 <? Z.land a1 240) || _).
  rewrite abs_wF by (destruct hi; rng). rewrite (parts_carry f hi Hf).
  assert (Pq : (Z.testbit f 6, Z.testbit f 5, Z.testbit f 4, f mod 8) = (Z.testbit (psw s) 6, Z.testbit (psw s) 5, Z.testbit (psw s) 4, psw s mod 8)).
  { change (Z.testbit f 6, Z.testbit f 5, Z.testbit f 4, f mod 8) with (let '(c, a, d, b, q) := parts f in (a, d, b, q)). rewrite Pf. reflexivity. }
  assert (Q6 : Z.testbit f 6 = Z.testbit (psw s) 6) by exact (f_equal (fun t => fst (fst (fst t))) Pq).
  assert (Q5 : Z.testbit f 5 = Z.testbit (psw s) 5) by exact (f_equal (fun t => snd (fst (fst t))) Pq).
  assert (Q4 : Z.testbit f 4 = Z.testbit (psw s) 4) by exact (f_equal (fun t => snd (fst t)) Pq).
  assert (Q0 : f mod 8 = psw s mod 8) by exact (f_equal snd Pq).
  rewrite Q6, Q5, Q4, Q0, T7, parts_of_sF.
  rewrite abs_wA by (unfold a1; destruct hi, lo; rng).
  assert (X := daa_as (A s) (Z.testbit (psw s) 7) (Z.testbit (psw s) 6) HA).
  assert (X1 := f_equal fst X). assert (X2 := f_equal snd X). unfold daa_a, daa_s in X1, X2. cbv zeta in X1, X2. cbn [fst snd] in X1, X2.
  fold lo in X1, X2. fold a1 in X1, X2. fold hi in X1, X2. rewrite X1, X2.
  unfold dec_adj. cbv zeta. cbn [acc cy ac f0 bs sp abs]. reflexivity.
Qed.

Lemma shr1 a : 0 <= a < 256 -> Z.shiftr a 1 = a / 2. Proof. intros. rewrite Z.shiftr_div_pow2 by lia. reflexivity. Qed.
Lemma a_rr a : 0 <= a < 256 -> Z.lor (Z.shiftr a 1) (if Z.land a 1 =? 0 then 0 else 128) = a / 2 + 128 * (a mod 2).
Proof. revert a. apply (z8 (fun a => Z.lor (Z.shiftr a 1) (if Z.land a 1 =? 0 then 0 else 128)) (fun a => a / 2 + 128 * (a mod 2))). vm_compute. reflexivity. Qed.
Lemma a_rl a : 0 <= a < 256 -> Z.lor (u8 (Z.shiftl a 1)) (if Z.land a 128 =? 0 then 0 else 1) = (2 * a) mod 256 + a / 128.
Proof. revert a. apply (z8 (fun a => Z.lor (u8 (Z.shiftl a 1)) (if Z.land a 128 =? 0 then 0 else 1)) (fun a => (2 * a) mod 256 + a / 128)). vm_compute. reflexivity. Qed.
Lemma a_swap a : 0 <= a < 256 -> Z.lor (Z.shiftr a 4) (Z.shiftl (Z.land a 15) 4) = a / 16 + 16 * (a mod 16).
Proof. revert a. apply (z8 (fun a => Z.lor (Z.shiftr a 4) (Z.shiftl (Z.land a 15) 4)) (fun a => a / 16 + 16 * (a mod 16))). vm_compute. reflexivity. Qed.
Lemma a_cpl a : 0 <= a < 256 -> u8 (Z.lnot a) = 255 - a.
Proof. revert a. apply (z8 (fun a => u8 (Z.lnot a)) (fun a => 255 - a)). vm_compute. reflexivity. Qed.
Lemma a_rrc a (b : bool) : 0 <= a < 256 -> (if negb b then Z.shiftr a 1 else Z.lor (Z.shiftr a 1) 128) = a / 2 + 128 * Z.b2z b.
Proof.
  intros H. destruct b; revert a H;
  [apply (z8 (fun a => Z.lor (Z.shiftr a 1) 128) (fun a => a / 2 + 128 * Z.b2z true))|apply (z8 (fun a => Z.shiftr a 1) (fun a => a / 2 + 128 * Z.b2z false))]; vm_compute; reflexivity.
Qed.
Lemma a_rlc a (b : bool) : 0 <= a < 256 -> (if negb b then u8 (Z.shiftl a 1) else Z.lor (u8 (Z.shiftl a 1)) 1) = (2 * a) mod 256 + Z.b2z b.
Proof.
  intros H. destruct b; revert a H;
  [apply (z8 (fun a => Z.lor (u8 (Z.shiftl a 1)) 1) (fun a => (2 * a) mod 256 + Z.b2z true))|apply (z8 (fun a => u8 (Z.shiftl a 1)) (fun a => (2 * a) mod 256 + Z.b2z false))]; vm_compute; reflexivity.
Qed.
Lemma land1 a : 0 <= a < 256 -> (Z.land a 1 =? 0) = negb (Z.odd a).
Proof. revert a. apply (b8 (fun a => Z.land a 1 =? 0) (fun a => negb (Z.odd a))). vm_compute. reflexivity. Qed.
Lemma top_bit a : 0 <= a < 256 -> Z.testbit a 7 = (128 <=? a).
Proof. revert a. apply (b8 (fun a => Z.testbit a 7) (fun a => 128 <=? a)). vm_compute. reflexivity. Qed.
Lemma rr_ok s : wf s -> abs (rr s) = sA (A s / 2 + 128 * (A s mod 2)) (abs s).
Proof. intros W. assert (HA : 0 <= A s < 256) by apply W. unfold rr. rewrite a_rr by exact HA. apply abs_wA. assert (X := Z.mod_pos_bound (A s) 2 ltac:(lia)). assert (Y := Z.div_mod (A s) 2 ltac:(lia)). lia. Qed.
Lemma rl_ok s : wf s -> abs (rl s) = sA ((2 * A s) mod 256 + A s / 128) (abs s).
Proof.
  intros W. assert (HA : 0 <= A s < 256) by apply W. unfold rl. rewrite abs_wA; [rewrite a_rl by exact HA; reflexivity|].
  destruct (Z.land (A s) 128 =? 0); rng.
Qed.
Lemma cyf s : cy (abs s) = Z.testbit (psw s) 7. Proof. reflexivity. Qed.
Lemma rrc_ok s : wf s -> abs (rrc s) = set_cy (Z.odd (A s)) (sA (A s / 2 + 128 * Z.b2z (cy (abs s))) (abs s)).
Proof.
  intros W. assert (HA : 0 <= A s < 256) by apply W. assert (P : 0 <= psw s < 256) by apply W. unfold rrc. cbv zeta.
  rewrite abs_wF by (destruct (_ =? 0); rng). rewrite (land1 (A s) HA), parts_c127, negb_involutive by exact P.
  rewrite land128 by exact P. rewrite a_rrc by exact HA.
  rewrite abs_wA by (assert (Y := Z.div_mod (A s) 2 ltac:(lia)); assert (X := Z.mod_pos_bound (A s) 2 ltac:(lia)); destruct (Z.testbit (psw s) 7); cbn [Z.b2z]; lia).
  reflexivity.
Qed.
Lemma rlc_ok s : wf s -> abs (rlc s) = set_cy (128 <=? A s) (sA ((2 * A s) mod 256 + Z.b2z (cy (abs s))) (abs s)).
Proof.
  intros W. assert (HA : 0 <= A s < 256) by apply W. assert (P : 0 <= psw s < 256) by apply W. unfold rlc. cbv zeta.
  rewrite abs_wF by (destruct (_ =? 0); rng). rewrite (land128 (A s) HA), parts_c127, negb_involutive, (top_bit _ HA) by exact P.
  rewrite land128 by exact P. rewrite abs_wA; [rewrite a_rlc by exact HA; reflexivity|].
  destruct (negb _); rng.
Qed.
