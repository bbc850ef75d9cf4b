(** The further instructions of the 8085. *)
From Verif Require Import Base I80Model I80Spec I80Spec2 I80Proofs I80Proofs2 I80Proofs3 I80Proofs4 I80Proofs5 I80Proofs6 I80Proofs7 I80Proofs8 I80Proofs9 I80Proofs10 I80Proofs11 I80Proofs12.

Ltac start Hc := rewrite exec_eq; cbn [fst]; rewrite abs_last_ticks, Hc.
Lemma exec_arhl lim dum s : wf s -> mem s (PC s) = 16 -> let x := abs s in
  same (abs (fst (exec_inst true lim dum false s)))
       (next 1 (setc (Z.odd (pairv 2 x)) (setpair 2 (pairv 2 x / 2 + (if 32768 <=? pairv 2 x then 32768 else 0)) x))).
Proof.
  intros W Hc. cbv zeta. start Hc. change (itab true 16) with ARHL. cbn [run fst].
  unfold arhl. change (pairv 2 (abs s)) with (HL s). change (HL (started s)) with (HL s). change (L (started s)) with (L s).
  pose proof (HL_range s W) as Rh. pose proof (started_wf s W) as W1.
  set (v := HL s / 2 + (if 32768 <=? HL s then 32768 else 0)).
  pose proof (Z.div_mod (HL s) 2 ltac:(lia)) as D2. pose proof (Z.mod_pos_bound (HL s) 2 ltac:(lia)) as M2.
  assert (Ev : wHL (i16 (HL s) / 2) (started s) = wHL v (started s)).
  { change (wHL ?a ?b) with (put2 pH a b). rewrite put2_mod. f_equal. unfold i16, u16. rewrite (Z.mod_small (HL s)) by lia. unfold v.
    destruct (HL s <? 32768) eqn:X.
    - replace (32768 <=? HL s) with false by lia. rewrite Z.add_0_r. apply Z.mod_small. lia.
    - replace (32768 <=? HL s) with true by lia.
      replace (HL s - 65536) with (HL s + (-32768) * 2) by lia. rewrite Z.div_add by lia.
      symmetry. apply Z.mod_unique with (q := -1); lia. }
  rewrite Ev.
  assert (Hv : 0 <= v < 65536) by (unfold v; destruct (32768 <=? HL s) eqn:X; lia).
  eapply same_eq; [apply (carry_same true _ _ (setpair 2 v (abs (started s))) (Z.odd (HL s)))|].
  - rewrite abs_noflags. apply same_noflags. apply (put2_setpair pH); [discriminate|exact Hv].
  - bits. rewrite bit0. unfold HL. rewrite Z.odd_add, Z.odd_mul. change (Z.odd 256) with false. cbn [andb]. symmetry. apply xorb_false_l.
  - bits. reflexivity.
  - bits. reflexivity.
  - bits. reflexivity.
  - bits. reflexivity.
  - rewrite started_abs. reflexivity.
Qed.
Lemma exec_rdel lim dum s : wf s -> mem s (PC s) = 24 -> let x := abs s in
  same (abs (fst (exec_inst true lim dum false s)))
       (next 1 (setc (32768 <=? pairv 1 x) (setpair 1 (w (2 * pairv 1 x + (if fC x then 1 else 0))) x))).
Proof.
  intros W Hc. cbv zeta. start Hc. change (itab true 24) with RDEL. cbn [run fst].
  unfold rdel. cbv zeta. change (pairv 1 (abs s)) with (DE s). change (DE (started s)) with (DE s). change (D (started s)) with (D s).
  pose proof (DE_range s W) as Rh.
  assert (Rd : 0 <= D s < 256) by apply W. assert (Re : 0 <= E s < 256) by apply W.
  change (fl (Z.testbit (F (started s)) 0) 1) with (if fC (abs s) then 1 else 0).
  set (cy := if fC (abs s) then 1 else 0). assert (Hcy : 0 <= cy <= 1) by (unfold cy; destruct (fC (abs s)); lia).
  assert (Ev : u16 (2 * DE s) + cy = w (2 * DE s + cy)).
  { unfold u16, w. pose proof (Z.div_mod (2 * DE s) 65536 ltac:(lia)). pose proof (Z.mod_pos_bound (2 * DE s) 65536 ltac:(lia)).
    apply Z.mod_unique with (q := 2 * DE s / 65536); lia. }
  rewrite Ev.
  eapply same_eq; [apply (carry_same true _ _ (setpair 1 (w (2 * DE s + cy)) (abs (started s))) (32768 <=? DE s))|].
  - rewrite abs_noflags. apply same_noflags. apply (put2_setpair pD); [discriminate|apply w_range].
  - bits. rewrite (bit7 _ Rd). unfold DE. destruct (128 <=? D s) eqn:X; destruct (32768 <=? _) eqn:Y; try reflexivity; lia.
  - bits. reflexivity.
  - bits. reflexivity.
  - bits. reflexivity.
  - bits. reflexivity.
  - rewrite started_abs. reflexivity.
Qed.
Lemma abs_jump n a t : abs (set_tsh n (set_PC a t)) = setpc a (abs t).
Proof. reflexivity. Qed.
Lemma exec_rstv lim dum s : wf s -> mem s (PC s) = 203 -> let x := abs s in
  same (abs (fst (exec_inst true lim dum false s)))
       (if Z.testbit (F s) 1 then setpc 64 (push (w (PC s + 1)) x) else next 1 x).
Proof.
  intros W Hc. cbv zeta. start Hc. change (itab true 203) with RSTV. cbn [run fst].
  change (F (started s)) with (F s). destruct (Z.testbit (F s) 1); [|apply same_refl].
  rewrite abs_jump.
  eapply same_eq; [apply same_setpc, push2_same; apply started_wf, W|]. reflexivity.
Qed.
Lemma exec_shlx lim dum s : wf s -> mem s (PC s) = 217 -> let x := abs s in
  same (abs (fst (exec_inst true lim dum false s)))
       (next 1 (setm (w (pairv 1 x + 1)) (R x 4) (setm (pairv 1 x) (R x 5) x))).
Proof.
  intros W Hc. cbv zeta. start Hc. change (itab true 217) with SHLX. cbn [run fst].
  pose proof (DE_range s W) as Rd. pose proof (wf_byte s W) as Rg.
  change (DE (started s)) with (DE s). change (H (started s)) with (H s). change (L (started s)) with (L s).
  change (pairv 1 (abs s)) with (DE s). change (R (abs s) 4) with (H s). change (R (abs s) 5) with (L s).
  change (u16 (DE s + 1)) with (w (DE s + 1)).
  eapply same_eq; [apply setm_same; [apply w_range|apply Rg|apply setm_same; [exact Rd|apply Rg|apply same_refl]]|]. reflexivity.
Qed.
Lemma exec_lhlx lim dum s : wf s -> mem s (PC s) = 237 -> let x := abs s in
  same (abs (fst (exec_inst true lim dum false s)))
       (next 1 (setr 4 (if pairv 1 x =? 65535 then u8 dum else mm x (pairv 1 x + 1)) (setr 5 (mm x (pairv 1 x)) x))).
Proof.
  intros W Hc. cbv zeta. start Hc. change (itab true 237) with LHLX. cbn [run fst].
  pose proof (DE_range s W) as Rd. assert (Rm : forall a, 0 <= mem s a < 256) by apply W.
  change (DE (started s)) with (DE s). change (pairv 1 (abs s)) with (DE s). change (mm (abs s)) with (mem s).
  unfold rd16. rewrite rd_in by exact Rd. change (mem (started s)) with (mem s).
  assert (E1 : rd dum (started s) (DE s + 1) = if DE s =? 65535 then dum else mem s (DE s + 1)).
  { unfold rd, inmem. change (mem (started s)) with (mem s). destruct (DE s =? 65535) eqn:X.
    - replace ((0 <=? DE s + 1) && (DE s + 1 <? 65536)) with false by lia. reflexivity.
    - replace ((0 <=? DE s + 1) && (DE s + 1 <? 65536)) with true by lia. reflexivity. }
  rewrite E1. set (h := if DE s =? 65535 then dum else mem s (DE s + 1)).
  assert (Eh : u8 h = if DE s =? 65535 then u8 dum else mem s (DE s + 1)).
  { unfold h. destruct (DE s =? 65535); [reflexivity|apply u8_id, Rm]. }
  rewrite <- Eh. unfold wHL.
  assert (E2 : u8 (mem s (DE s) + 256 * h) = mem s (DE s)).
  { unfold u8. rewrite Z.mul_comm, Z_mod_plus_full. apply Z.mod_small, Rm. }
  assert (E3 : (mem s (DE s) + 256 * h) / 256 = h).
  { rewrite Z.mul_comm, Z.div_add by lia. rewrite Z.div_small by apply Rm. lia. }
  rewrite E2, E3. parts; reflexivity.
Qed.
Lemma exec_jx5 lim dum s : wf s -> let x := abs s in let c := mem s (PC s) in c = 221 \/ c = 253 ->
  same (abs (fst (exec_inst true lim dum false s)))
       (if Bool.eqb (Z.testbit (F s) 5) (c =? 221) then setpc (operand16 x) x else next 3 x).
Proof.
  intros W. cbv zeta. intros [Hc | Hc]; start Hc.
  - change (itab true 221) with JNX5. cbn [run fst Z.eqb Pos.eqb]. unfold jmp_if. change (F (started s)) with (F s).
    destruct (fetch16_next s (started s) W (started_wf s W) (started_abs s)) as [s2 [F2 [E2 [W2 R2]]]]. rewrite F2.
    destruct (Z.testbit (F s) 5); cbn [Bool.eqb].
    + rewrite abs_jump. rewrite E2. apply same_refl.
    + rewrite E2. apply same_refl.
  - change (itab true 253) with JX5. cbn [run fst Z.eqb Pos.eqb]. unfold jmp_if. change (F (started s)) with (F s).
    destruct (fetch16_next s (started s) W (started_wf s W) (started_abs s)) as [s2 [F2 [E2 [W2 R2]]]]. rewrite F2.
    destruct (Z.testbit (F s) 5); cbn [Bool.eqb negb].
    + rewrite E2. apply same_refl.
    + rewrite abs_jump. rewrite E2. apply same_refl.
Qed.
(** LDHI, LDSI: [b] is HL or SP *)
Lemma exec_ldi lim dum s b : wf s -> let x := abs s in let c := mem s (PC s) in
  (c = 40 /\ b = pairv 2 x) \/ (c = 56 /\ b = sp x) -> w (b + operand8 x) <> 65535 ->
  same (abs (fst (exec_inst true lim dum false s)))
       (next 2 (setpair 1 (mm x (w (b + operand8 x)) + 256 * mm x (w (b + operand8 x) + 1)) x)).
Proof.
  intros W. cbv zeta. intros Hc Hw. assert (Rm : forall a, 0 <= mem s a < 256) by apply W.
  destruct (fetch_next s (started s) W (started_wf s W) (started_abs s)) as [s2 [F2 [E2 [W2 R2]]]].
  set (ad := w (b + operand8 (abs s))) in *. assert (Ra : 0 <= ad < 65536) by apply w_range.
  assert (G : abs (fst (exec_inst true lim dum false s)) = abs (wDE (rd16 dum s2 ad) s2)).
  { destruct Hc as [[Hc Hb] | [Hc Hb]]; start Hc.
    - change (itab true 40) with LDHI. cbn [run fst]. rewrite F2. unfold ad. rewrite Hb.
      assert (Eb : HL s2 = pairv 2 (abs s)) by (apply (get2_next pH s2 (abs s) 2); [discriminate|exact E2]). rewrite Eb. reflexivity.
    - change (itab true 56) with LDSI. cbn [run fst]. rewrite F2. unfold ad. rewrite Hb.
      rewrite (SP_abs _ _ _ E2). reflexivity. }
  rewrite G. unfold rd16. rewrite !rd_in by lia. rewrite (mem_abs _ _ _ E2). change (mm (abs s)) with (mem s).
  pose proof (Rm ad). pose proof (Rm (ad + 1)).
  eapply same_eq; [apply (put2_setpair pD); [discriminate|lia]|]. rewrite E2. apply setpair_next.
Qed.
Lemma exec_rim lim dum s : wf s -> mem s (PC s) = 32 \/ mem s (PC s) = 48 ->
  abs (fst (exec_inst true lim dum false s)) = next 1 (abs s).
Proof. intros W [Hc | Hc]; start Hc; reflexivity. Qed.
