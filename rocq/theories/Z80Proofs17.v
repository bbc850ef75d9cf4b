(** Z80: what the simulator does exactly. *)
From Verif Require Import Base Z80Model Z80Spec Z80Spec2 Z80Proofs Z80Proofs2 Z80Proofs3 Z80Proofs4 Z80Proofs5 Z80Proofs6 Z80Proofs7.

Lemma sbf_trans x y z : same_but_flags x y -> same_but_flags y z -> same_but_flags x z.
Proof.
  unfold same_but_flags. intros H K. decompose [and] H. decompose [and] K.
  repeat match goal with |- _ /\ _ => split end; try congruence.
Qed.
Lemma agree_fl x y q : agree False x q -> s_f (f q) y = q -> samef (f x) (f y) -> agree True x y.
Proof.
  intros [H _] E K. split; [|intros _; exact K]. refine (sbf_trans _ _ _ H _).
  rewrite <- E. exact (sbf_ff _ _ (f y) (f y) eq_refl).
Qed.
Lemma sf_eta u q : s_f (f q) (s_f u q) = q.
Proof. destruct q. reflexivity. Qed.
Lemma agree_T (c : Prop) x y : agree c x y -> c -> agree True x y.
Proof. intros [H K] C. split; [exact H|]. intros _. exact (K C). Qed.
Lemma agree_F (c : Prop) x y : agree c x y -> agree False x y.
Proof. intros [H K]. split; [exact H|]. intros []. Qed.

Lemma low0 v : v mod 16 = 15 -> (v + 1) mod 16 = 0.
Proof. intros H. rewrite <- Z.add_mod_idemp_l, H by lia. reflexivity. Qed.
Lemma low12 v : v mod 4096 = 4095 -> (v + 1) mod 4096 = 0.
Proof. intros H. rewrite <- Z.add_mod_idemp_l, H by lia. reflexivity. Qed.
Lemma adc_lost v s : wf s -> byte v -> v mod 16 = 15 ->
  agree True (abs (add_A 1 v s)) (with_h false (add v 1 (abs s))).
Proof.
  intros W Hv H. eapply agree_fl; [exact (agree_F _ _ _ (add_A_eq 1 v s W Hv (or_intror eq_refl)))|reflexivity|].
  pose proof (wf_A s W) as HA. unfold add_A, add, with_h. cbv zeta. change (acc (abs s)) with (A s).
  replace (A s + v + 1) with (A s + (v + 1)) by lia. change ((A s + (v + 1)) mod 256) with (u8 (A s + (v + 1))).
  rewrite i8_sgn, i8_sgn by assumption. rewrite low0 by assumption.
  pose proof (u8_range (A s + (v + 1))) as HR. pose proof (Z.mod_pos_bound (A s) 16 ltac:(lia)). byteflags; try reflexivity.
  + apply bit7. exact HR.
  + lia.
  + unfold overflow. lia.
  + lia.
Qed.
Lemma sbc_lost v s : wf s -> byte v -> v mod 16 = 15 ->
  agree True (abs (sub_A 1 v s)) (with_h false (sub v 1 (abs s))).
Proof.
  intros W Hv H. eapply agree_fl; [exact (agree_F _ _ _ (sub_A_eq 1 v s W Hv (or_intror eq_refl)))|reflexivity|].
  pose proof (wf_A s W) as HA. unfold sub_A, sub, cmp, with_h. cbv zeta. change (acc (abs s)) with (A s).
  replace (A s - v - 1) with (A s - (v + 1)) by lia. change ((A s - (v + 1)) mod 256) with (u8 (A s - (v + 1))).
  rewrite i8_sgn, i8_sgn by assumption. rewrite low0 by assumption.
  pose proof (u8_range (A s - (v + 1))) as HR. pose proof (Z.mod_pos_bound (A s) 16 ltac:(lia)). byteflags; try reflexivity.
  + apply bit7. exact HR.
  + lia.
  + unfold overflow. lia.
  + lia.
Qed.
Lemma bit15 v : word v -> Z.testbit v 15 = (32768 <=? v).
Proof. intros H. rewrite Z.testbit_eqb by lia. change (2 ^ 15) with 32768. unfold word in H. Z.div_mod_to_equations. lia. Qed.
Lemma cy1 s : fC (f (abs s)) = true -> cy s = 1.
Proof. cbn [f fC abs flags_of]. intros H. unfold cy, fl. rewrite H. reflexivity. Qed.
Lemma adcp_lost v s : wf s -> word v -> fC (f (abs s)) = true -> v mod 4096 = 4095 ->
  agree True (abs (Z80Model.adc16 v s)) (with_h false (adc16 v (abs s))).
Proof.
  intros W Hv C H. eapply agree_fl; [exact (agree_F _ _ _ (adc16_eq v s W Hv))|reflexivity|].
  pose proof (W_range false HL s W) as HW. unfold Z80Model.adc16, adc16, with_h. cbv zeta.
  rewrite carry_cy. rewrite wW_setpair, (w_id (u16 _)) by apply w_range. rewrite W_pairv in *. rewrite (cy1 s C).
  set (a := pairv false HL (abs s)) in *. clearbody a. replace (a + v + 1) with (a + (v + 1)) by lia.
  change (u16 (a + (v + 1))) with (w (a + (v + 1))).
  rewrite i16_sgn, i16_sgn by assumption. rewrite low12 by assumption.
  pose proof (w_range (a + (v + 1))) as HR. pose proof (Z.mod_pos_bound a 4096 ltac:(lia)). set (t := a + (v + 1)) in *.
  byteflags; try reflexivity; [apply bit15, HR|lia|unfold overflow; lia|lia].
Qed.
Lemma sbcp_lost v s : wf s -> word v -> fC (f (abs s)) = true -> v mod 4096 = 4095 ->
  agree True (abs (Z80Model.sbc16 v s)) (with_h false (sbc16 v (abs s))).
Proof.
  intros W Hv C H. eapply agree_fl; [exact (agree_F _ _ _ (sbc16_eq v s W Hv))|reflexivity|].
  pose proof (W_range false HL s W) as HW. unfold Z80Model.sbc16, sbc16, with_h. cbv zeta.
  rewrite carry_cy. rewrite wW_setpair, (w_id (u16 _)) by apply w_range. rewrite W_pairv in *. rewrite (cy1 s C).
  set (a := pairv false HL (abs s)) in *. clearbody a. replace (a - v - 1) with (a - (v + 1)) by lia.
  change (u16 (a - (v + 1))) with (w (a - (v + 1))).
  rewrite i16_sgn, i16_sgn by assumption. rewrite low12 by assumption.
  pose proof (w_range (a - (v + 1))) as HR. pose proof (Z.mod_pos_bound a 4096 ltac:(lia)). set (t := a - (v + 1)) in *.
  byteflags; try reflexivity; [apply bit15, HR|lia|unfold overflow; lia|lia].
Qed.

Section Z.
Variable dum lim : Z.
Hypothesis HD : byte dum.
Notation exec := (Z80Model.exec dum lim).
Notation exact_ y o ipc s := (agree True (abs (snd (exec y ipc o s))) (actual_op dum y o (abs s))).

Lemma ac_ALU y k l ipc s : wf s -> exact_ y (ALU k l) ipc s.
Proof.
  intros W. pose proof (ex_ALU dum lim y k l ipc s W) as G. cbn [actual_op].
  destruct k; try exact (agree_T _ _ _ G (fun x => x)); cbn [differs_flags] in G.
  - destruct (fC (f (abs s))) eqn:C; cbn [andb]; [|apply (agree_T _ _ _ G); intros [K _]; discriminate].
    destruct (Z.eqb_spec (value y l (abs s) mod 16) 15) as [E|E]; [|apply (agree_T _ _ _ G); tauto]. clear G.
    pose proof (resolve_eq dum y l s W) as R. pose proof (operand_f y l (abs s)) as O. unfold value in E.
    cbn [Z80Model.exec sem]. destruct (resolve dum y l s) as [p s1]. destruct (operand y l (abs s)) as [ [rd1 wr1] x1].
    destruct R as (<- & W1 & EF & RG & RW). destruct O as (Of & _). cbn [snd]. destruct (RG s1 W1) as [E1 B]. rewrite <- E1 in *.
    cbn [alu8 arith]. rewrite carry_cy. rewrite <- Of in C. rewrite (cy1 s1 C). apply adc_lost; assumption.
  - destruct (fC (f (abs s))) eqn:C; cbn [andb]; [|apply (agree_T _ _ _ G); intros [K _]; discriminate].
    destruct (Z.eqb_spec (value y l (abs s) mod 16) 15) as [E|E]; [|apply (agree_T _ _ _ G); tauto]. clear G.
    pose proof (resolve_eq dum y l s W) as R. pose proof (operand_f y l (abs s)) as O. unfold value in E.
    cbn [Z80Model.exec sem]. destruct (resolve dum y l s) as [p s1]. destruct (operand y l (abs s)) as [ [rd1 wr1] x1].
    destruct R as (<- & W1 & EF & RG & RW). destruct O as (Of & _). cbn [snd]. destruct (RG s1 W1) as [E1 B]. rewrite <- E1 in *.
    cbn [alu8 arith]. rewrite carry_cy. rewrite <- Of in C. rewrite (cy1 s1 C). apply sbc_lost; assumption.
Qed.
Lemma ac_16 o p ipc s : wf s -> o = SBCp p \/ o = ADCp p -> exact_ false o ipc s.
Proof.
  intros W H. pose proof (ex_16 dum lim false o HL p ipc s W ltac:(tauto)) as G. pose proof (W_range false p s W) as HW.
  destruct H as [-> | ->]; cbn [actual_op differs_flags] in *.
  - destruct (fC (f (abs s))) eqn:C; cbn [andb]; [|apply (agree_T _ _ _ G); intros [K _]; discriminate].
    destruct (Z.eqb_spec (pairv false p (abs s) mod 4096) 4095) as [E|E]; [|apply (agree_T _ _ _ G); tauto]. clear G.
    cbn [Z80Model.exec snd sem]. rewrite <- W_pairv in *. apply sbcp_lost; assumption.
  - destruct (fC (f (abs s))) eqn:C; cbn [andb]; [|apply (agree_T _ _ _ G); intros [K _]; discriminate].
    destruct (Z.eqb_spec (pairv false p (abs s) mod 4096) 4095) as [E|E]; [|apply (agree_T _ _ _ G); tauto]. clear G.
    cbn [Z80Model.exec snd sem]. rewrite <- W_pairv in *. apply adcp_lost; assumption.
Qed.
Lemma ac_DAA ipc s : wf s -> exact_ false DAA ipc s.
Proof.
  intros W. pose proof (ex_DAA dum lim ipc s W) as G. cbn [actual_op differs_flags] in *.
  destruct (fN (f (abs s))) eqn:N; cbn [andb]; [|apply (agree_T _ _ _ G); intros [K _]; discriminate].
  destruct (fC (f (abs s))) eqn:C; cbn [negb]; [apply (agree_T _ _ _ G); intros [_ [K _]]; discriminate|].
  eapply agree_fl; [exact (agree_F _ _ _ G)|reflexivity|]. clear G. cbn [Z80Model.exec snd sem].
  pose proof (wf_A s W) as HA. unfold Z80Model.daa, daa, with_c. cbv zeta.
  pose proof (corr_eq (Z.testbit (F s) 0) (Z.testbit (F s) 4) (A s) HA) as EC. cbv zeta in EC. rewrite EC.
  change (acc (abs s)) with (A s). cbn [f abs fC fH fN flags_of differs_flags] in *. change (acc (abs s)) with (A s).
  rewrite N, C. cbn [orb]. fold (corr false (Z.testbit (F s) 4) (A s)).
  change ((if 153 <? A s then 96 else 0) + (if Z.testbit (F s) 4 || (9 <? A s mod 16) then 6 else 0)) with (corr false (Z.testbit (F s) 4) (A s)).
  set (k := corr false (Z.testbit (F s) 4) (A s)).
  assert (ER : A (sub_A 0 k s) = (A s - k) mod 256).
  { unfold sub_A, wR, A. cbn [rg set_F set_rg Z.eqb Pos.eqb]. rewrite u8_u8. unfold u8. f_equal. lia. }
  rewrite ER.
  pose proof (daa_half true false (Z.testbit (F s) 4) (A s) HA) as EH. cbv beta iota in EH. fold k in EH.
  unfold sub_A, szp. cbv zeta. rewrite Z.add_0_r. change ((A s - k) mod 256) with (u8 (A s - k)).
  pose proof (u8_range (A s - k)) as HR.
  byteflags; rewrite ?bit7, ?parity_even by exact HR; try reflexivity; try assumption; rewrite ?C, ?N, ?orb_false_r, ?orb_true_r; reflexivity.
Qed.
Lemma ac_INrC y n ipc s : wf s -> exact_ y (INrC n) ipc s.
Proof.
  intros W. assert (HB : byte (inp s (rg s 1))) by apply W. cbn [actual_op Z80Model.exec snd].
  apply agree_ff.
  - destruct (n =? 6); [reflexivity|]. rewrite wR_byte by exact HB. reflexivity.
  - intros _. assert (E : f (abs (if n =? 6 then set_F (Z.lor (clr (F s) 6) (fl (parity (inp s (rg s 1))) 4)) s
       else wR n (inp s (rg s 1)) (set_F (Z.lor (clr (F s) 6) (fl (parity (inp s (rg s 1))) 4)) s))) =
       flags_of (Z.lor (clr (F s) 6) (fl (parity (inp s (rg s 1))) 4))) by (destruct (n =? 6); reflexivity).
    rewrite E.
    match goal with |- samef _ (f (if _ then ?q else _)) => assert (E2 : f (if n =? 6 then q else setr n (pin (abs s) (r (abs s) 1)) q) = f q) by (destruct (n =? 6); reflexivity) end.
    rewrite E2. unfold with_n, with_p. cbn [f s_f]. byteflags; rewrite ?parity_even by exact HB; reflexivity.
Qed.
Lemma ac_RRD o ipc s : wf s -> o = RRD \/ o = RLD -> exact_ false o ipc s.
Proof.
  intros W H. pose proof (ex_RRD dum lim o ipc s W H) as G.
  destruct H as [-> | ->]; (eapply agree_fl; [exact (agree_F _ _ _ G)|reflexivity|]); cbn [actual_op f s_f Z80Model.exec snd];
    unfold wr; destruct (inmem _); apply samef_refl.
Qed.
Lemma ac_LDDR y ipc s : wf s -> ipc = w (PC s - 2) -> exact_ y LDDR ipc s.
Proof.
  intros W I. pose proof (ex_LDDR dum lim y ipc s W I) as G.
  eapply agree_fl; [exact (agree_F _ _ _ G)|apply sf_eta|]. cbn [actual_op Z80Model.exec snd sem].
  assert (E1 : f (abs (again (bc_left (block_ld dum (-1) s)) ipc (block_ld dum (-1) s))) = flags_of (clr (F s) 22)).
  { unfold again. cbn [f abs]. destruct (block_ld_eq dum (-1) s W) as [_ <-]. destruct (bc_left _); reflexivity. }
  rewrite E1. unfold with_p, repeat_if, jump_if. cbn [f s_f].
  set (b := left_bc _).
  assert (E2 : f (if b then s_pc (w (pc (move_block (-1) (abs s)) - 2)) (move_block (-1) (abs s)) else move_block (-1) (abs s)) = f (move_block (-1) (abs s))) by (destruct b; reflexivity).
  rewrite E2. unfold move_block at 1 2 3 4 5 6 7. cbv zeta. cbn [f setf s_f]. byteflags; reflexivity.
Qed.
End Z.
