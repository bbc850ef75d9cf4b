(** MCS-48: refinement of each instruction. *)
From Verif Require Import Base M48Model M48Spec M48Proofs M48Proofs2 M48Proofs3 M48Proofs4.

Lemma jcc_ok h c b s : wfh h -> wf s -> PC s mod 256 <> 255 -> ok (fun x => jump_if h (b x) x) (abs s) = Some (abs (jif h c s)) \/ b (abs s) <> c.
Proof. intros H W N. destruct (Bool.bool_dec (b (abs s)) c) as [E | E]; [left; unfold ok; rewrite E, jif_ok by assumption; reflexivity|right; exact E]. Qed.
Lemma jcc h c b s : wfh h -> wf s -> PC s mod 256 <> 255 -> b (abs s) = c -> Some (jump_if h (b (abs s)) (abs s)) = Some (abs (jif h c s)).
Proof. intros H W N E. rewrite E, jif_ok by assumption. reflexivity. Qed.
Lemma same_page p : 0 <= p < 4096 -> 256 * (p / 256) + 0 = 256 * (p / 256). Proof. lia. Qed.
Lemma latch_if h a s : 0 <= a -> abs (if inner h <=? a then latch a s else s) = show h a (abs s).
Proof. intros. unfold show. destruct (inner h <=? a); reflexivity. Qed.
Lemma djnz_gen h c s : wfh h -> wf s -> is_djnz c = true ->
  abs (djnz h c s) = let x := set_reg 7 ((reg 7 (abs s) - 1) mod 256) (step_pc (inner h) (abs s)) in sPC (256 * (pc x / 256) + byte_at h (abs s)) x.
Proof.
  intros H W D. assert (HP : 0 <= PC s < 4096) by apply W. assert (HN := next_range (PC s) HP).
  assert (HC : Z.land (Z.shiftr c 5) 7 = 7).
  { unfold is_djnz in D. apply Z.eqb_eq in D. assert (X := Z.div_mod c 8 ltac:(lia)). assert (Y := Z.mod_pos_bound c 8 ltac:(lia)).
    assert (R : 0 <= c < 256) by lia. assert (S := sweep 256 (fun c => negb (c / 8 =? 29) || (Z.land (Z.shiftr c 5) 7 =? 7)) ltac:(vm_compute; reflexivity) c R). cbv beta in S. rewrite D in S. apply Z.eqb_eq, S. }
  unfold djnz. rewrite fetch_eq by exact W. rewrite HC. cbv zeta.
  assert (W2 := wf_fetched h s W). destruct (fetched_fields h s) as (EA & Ep & EP & Em & Et & Ei & ER).
  assert (ER7 : R 7 (fetched h s) = reg 7 (abs s)) by (rewrite <- R_reg by exact W; unfold R, raddr; rewrite ER, Ep; reflexivity).
  rewrite ER7. change (PC (set_R 7 ?v ?t)) with (PC t). rewrite EP, page_eq by exact HN.
  assert (AP : forall v t, abs (set_PC v t) = sPC v (abs t)) by reflexivity. rewrite AP.
  assert (EB : abs (set_R 7 (reg 7 (abs s) - 1) (fetched h s)) = set_reg 7 ((reg 7 (abs s) - 1) mod 256) (abs (fetched h s))) by (apply (wr_u8 h (Lr 7)), W2).
  rewrite EB, abs_fetched by exact W. f_equal. unfold byte_at. change (pc (abs s)) with (PC s). do 3 f_equal.
  unfold step_pc, set_reg. cbv zeta. match goal with |- context [if ?b then _ else _] => destruct b end; reflexivity.
Qed.
Lemma step_set_reg inn n v x : step_pc inn (set_reg n v x) = set_reg n v (step_pc inn x).
Proof. unfold step_pc, set_reg, sPC. cbv zeta. cbn [pc sM]. destruct (inn <=? next (pc x)); reflexivity. Qed.
Lemma pc_step inn x : pc (step_pc inn x) = next (pc x).
Proof. unfold step_pc. cbv zeta. match goal with |- context [if ?b then _ else _] => destruct b end; reflexivity. Qed.
Lemma djnz_ok h s : wfh h -> wf s -> reg 7 (abs s) <> 1 -> PC s mod 256 <> 255 ->
  row_r h 14 7 (abs s) = Some (abs (djnz h 239 s)).
Proof.
  intros H W N NP. assert (HP : 0 <= PC s < 4096) by apply W. rewrite djnz_gen by (assumption || reflexivity).
  assert (RR : 0 <= reg 7 (abs s) < 256) by (rewrite <- R_reg by exact W; apply (rd_range h 0 (Lr 7) s W); lia).
  assert (PN : 256 * (next (pc (abs s)) / 256) = 256 * (pc (abs s) / 256)) by (change (pc (abs s)) with (PC s); rewrite page_next by assumption; reflexivity).
  clear W HP NP. generalize dependent (abs s). clear s. intros x N RR PN.
  change (row_r h 14 7 x) with (Some (jump_if h (negb ((reg 7 x - 1) mod 256 =? 0)) (set_reg 7 ((reg 7 x - 1) mod 256) x))).
  assert (NZ : (reg 7 x - 1) mod 256 <> 0).
  { intros E. destruct (Z.eq_dec (reg 7 x) 0) as [E0 | E0]; [rewrite E0 in E; discriminate|]. rewrite Z.mod_small in E by lia. lia. }
  generalize dependent ((reg 7 x - 1) mod 256). intros v NZ. apply Z.eqb_neq in NZ. rewrite NZ. cbn [negb]. f_equal. unfold jump_if. cbv zeta.
  rewrite step_set_reg. f_equal. change (pc (set_reg 7 v ?y)) with (pc y). rewrite pc_step, PN. reflexivity.
Qed.
Lemma lor16 a b : 0 <= a < 16 -> 0 <= b < 16 -> 0 <= Z.lor a b < 16.
Proof.
  intros Ha Hb. assert (N : 0 <= Z.lor a b) by (apply Z.lor_nonneg; split; lia). split; [exact N|].
  destruct (Z.eq_dec (Z.lor a b) 0) as [E0 | E0]; [lia|].
  change 16 with (2 ^ 4). apply Z.log2_lt_pow2; [lia|]. rewrite Z.log2_lor by lia. apply Z.max_lub_lt.
  - destruct (Z.eq_dec a 0) as [-> | E1]; [reflexivity|]. apply Z.log2_lt_pow2; lia.
  - destruct (Z.eq_dec b 0) as [-> | E1]; [reflexivity|]. apply Z.log2_lt_pow2; lia.
Qed.
Lemma ref h jk ipc c s : wfh h -> wf s -> 0 <= jk < 256 -> 0 <= c < 256 -> regular c (abs s) -> itab_at c <> Invalid ->
  Ref h jk ipc c (itab_at c) s.
Proof.
  intros H W J Hc G NI. assert (S := shape_ok c Hc). unfold shape in S. destruct G as (Gj & Gd & Ge & Go & Ga & Gb & Gl).
  assert (P : 0 <= psw s < 256) by apply W. assert (HA : 0 <= A s < 256) by apply W. assert (HP : 0 <= PC s < 4096) by apply W.
  assert (HR : forall a, 0 <= ram s a < 256) by apply W. assert (HX : forall a, 0 <= xram s a < 256) by apply W.
  assert (P2 : 0 <= p2 s < 256) by apply W. assert (HO : forall k, 0 <= odr s k < 16) by apply W.
  assert (W2 := wf_fetched h s W). destruct (fetched_fields h s) as (EA & Ep & EP & Em & Et & Ei & ER).
  cbn [pc abs l2 dbf serv] in Gj, Gd, Ge, Gl.
  destruct (itab_at c) eqn:EO; unfold Ref, exec; try (exfalso; congruence).
  - (* NOP *) reflexivity.
  - (* ENT0 *) reflexivity.
  - (* NoMethod *) exfalso. apply orb_true_iff in S. destruct S as [S | S]; apply Z.eqb_eq in S; contradiction.
  - (* ADD *) apply (with_src_ok h jk x (fun v t => add v cy t)); try assumption. intros v t Wt V. rewrite add_ok by assumption. destruct cy; reflexivity.
  - (* LOG *) apply (with_src_ok h jk x (fun v t => wA (lopf k (A t) v) t)); try assumption. intros v t Wt V. apply log_ok; assumption.
  - (* MOVA *) apply (with_src_ok h jk x (fun v t => wA v t)); try assumption. intros v t Wt V. apply abs_wA, V.
  - (* MOVLA *) rewrite wr_ok by assumption. destruct l; reflexivity.
  - (* MOVLI *) rewrite fetch_eq by exact W. rewrite wr_ok by (assumption || apply rom_range, H). rewrite abs_fetched by exact W. destruct l; reflexivity.
  - (* INC *) rewrite wr_u8 by exact W. rewrite rd_ok by exact W. destruct l; reflexivity.
  - (* DEC *) rewrite wr_u8 by exact W. rewrite rd_ok by exact W. destruct l; reflexivity.
  - (* XCH *) cbv zeta. rewrite wr_ok by (exact HA || apply wf_wA, W). rewrite abs_wA by (apply rd_range; assumption). rewrite rd_ok by exact W. destruct l; reflexivity.
  - (* XCHD *) cbv zeta. assert (RO := rd_range h jk (Li n) s W J). rewrite !xchd_lo by assumption. rewrite wr_ok by (apply wf_wA, W || apply nib_range, RO).
    rewrite abs_wA by (apply nib_range, HA). rewrite rd_ok by exact W. reflexivity.
  - (* INCA *) reflexivity.
  - (* DECA *) reflexivity.
  - (* CLRA *) reflexivity.
  - (* CPLA *) unfold wA. rewrite a_cpl by exact HA. reflexivity.
  - (* SWAPA *) rewrite abs_wA; rewrite a_swap by exact HA; [reflexivity|]. assert (X := nib_range (A s) 0 HA). assert (0 <= A s mod 16 < 16) by (apply Z.mod_pos_bound; lia).
    assert (0 <= A s / 16) by (apply Z.div_pos; lia). assert (A s / 16 < 16) by (apply Z.div_lt_upper_bound; lia). lia.
  - (* DAA *) rewrite daa_ok by exact W. reflexivity.
  - (* RR *) rewrite rr_ok by exact W. reflexivity.
  - (* RL *) rewrite rl_ok by exact W. reflexivity.
  - (* RRC *) rewrite rrc_ok by exact W. reflexivity.
  - (* RLC *) rewrite rlc_ok by exact W. reflexivity.
  - (* CLRC *) rewrite abs_wF by rng. rewrite (parts_c127 (psw s) true P). reflexivity.
  - (* CPLC *) rewrite abs_wF by rng. rewrite (parts_cplc (psw s) P). reflexivity.
  - (* CLRF0 *) rewrite abs_wF by rng. rewrite (parts_clrf0 (psw s) P). reflexivity.
  - (* CPLF0 *) rewrite abs_wF by rng. rewrite (parts_cplf0 (psw s) P). reflexivity.
  - (* CLRF1 *) reflexivity.
  - (* CPLF1 *) unfold tr, row_5, ok. cbn [Z.eqb Pos.eqb]. unfold sX, abs. cbn [F1 dbf]. assert (f1 s = 0 \/ f1 s = 1) as [E | E] by apply W; rewrite E; cbn [f1 set_f1 mb PC]; reflexivity.
  - (* MOVAF *) rewrite abs_wA by exact P. unfold tr, row_7, ok. cbn [Z.eqb Pos.eqb]. rewrite psw_of_eq by exact W. reflexivity.
  - (* MOVFA *) rewrite abs_wF by exact HA. rewrite parts_load. reflexivity.
  - (* SELRB *) rewrite abs_wF by (destruct b; rng). rewrite (parts_selrb (psw s) b P). destruct b; reflexivity.
  - (* SELMB *) apply orb_true_iff in S. destruct S as [S | S]; apply Z.eqb_eq in S; rewrite S; reflexivity.
  - (* MOVXA *) cbv zeta. rewrite abs_wA by (apply HX). rewrite R_reg by exact W. rewrite abs_latch by (rewrite <- R_reg by exact W; apply HR). reflexivity.
  - (* MOVXM *) cbv zeta. rewrite abs_latch by exact HA. rewrite R_reg by exact W. reflexivity.
  - (* MOVP *) cbv zeta. rewrite page_eq by exact HP. rewrite lor_page by exact HA. rewrite latch_if by (assert (X := page_range _ HP); lia). rewrite abs_wA by (apply rom_range, H). reflexivity.
  - (* MOVP3 *) cbv zeta. rewrite bank_eq by exact HP. rewrite lor_bank by lia. rewrite Z.add_assoc. rewrite latch_if by (assert (X := bank_range _ HP); lia). rewrite abs_wA by (apply rom_range, H). reflexivity.
  - (* JMP *) rewrite target_eq by assumption. change (abs (set_PC ?v ?t)) with (sPC v (abs t)). rewrite abs_fetched by exact W.
    rewrite (long_eq h c s) by (apply W || (intros; apply Gl; assumption)). reflexivity.
  - (* CALL *) rewrite target_eq by assumption. change (abs (set_PC ?v ?t)) with (sPC v (abs t)). rewrite push_ok by assumption. rewrite abs_fetched by exact W.
    rewrite (long_eq h c s) by (apply W || (intros; apply Gl; assumption)). reflexivity.
  - (* RET *) rewrite pop_ok by assumption. reflexivity.
  - (* RETR *) rewrite pop_ok by (assumption || apply wf_set_isr, W). reflexivity.
  - (* JMPP *) cbv zeta. rewrite page_eq by exact HP. rewrite (lor_page (PC s / 256) (A s)) by exact HA. rewrite lor_page by (apply rom_range, H). reflexivity.
  - (* DJNZ *) destruct (Gd S) as (E & N7 & NP). rewrite E. apply djnz_ok; assumption.
  - (* JB *) rewrite shr5 by exact Hc. rewrite tb_odd by (exact HA || apply c32_range, Hc).
    apply (jcc h _ (fun x => Z.odd (acc x / 2 ^ (c / 32)))); auto.
  - (* JTF *) change (abs (set_tfl false ?t)) with (let y := abs t in sI (tcnti y) (tpend y) (treq y) false (eni y) (serv y) y).
    rewrite jif_ok by auto. reflexivity.
  - (* JNT0 *) apply (jcc h _ (fun x => negb (T0 x))); auto.
  - apply (jcc h _ (fun x => T0 x)); auto.
  - apply (jcc h _ (fun x => negb (T1 x))); auto.
  - apply (jcc h _ (fun x => T1 x)); auto.
  - (* JF0 *) unfold b1. rewrite land32, negb_involutive by exact P. apply (jcc h _ (fun x => f0 x)); auto.
  - apply (jcc h _ (fun x => F1 x)); auto.
  - apply (jcc h _ (fun x => negb (INT x))); auto.
  - apply (jcc h _ (fun x => negb (acc x =? 0))); auto.
  - apply (jcc h _ (fun x => acc x =? 0)); auto.
  - unfold b1. rewrite land128, negb_involutive by exact P. apply (jcc h _ (fun x => negb (cy x))); auto.
  - unfold b1. rewrite land128, negb_involutive by exact P. apply (jcc h _ (fun x => cy x)); auto.
  - (* ENI *) reflexivity.
  - reflexivity.
  - reflexivity.
  - (* DISTCNTI *) reflexivity.
  - (* MOVAT *) rewrite abs_wA by apply W. reflexivity.
  - (* MOVTA *) change (abs (set_tmr ?v s)) with (sT v (pre s) (mode s) (abs s)). rewrite land255, Z.mod_small by exact HA. reflexivity.
  - reflexivity.
  - reflexivity.
  - reflexivity.
  - (* OUTLB *) rewrite abs_latch by exact HA. reflexivity.
  - (* INS *) rewrite abs_wA by apply W. reflexivity.
  - (* ORLB *) rewrite fetch_eq by exact W. rewrite abs_latch by (apply lor_r; [apply W2|apply rom_range, H]).
    unfold tr. change (row_r h 8 0) with (imm h (fun b x => sP (l1 x) (l2 x) (Z.lor (bl x) b) x)). unfold imm. rewrite <- abs_fetched by exact W. reflexivity.
  - (* ANLB *) rewrite fetch_eq by exact W. rewrite abs_latch by (apply land_r; [apply W2|apply rom_range, H]).
    unfold tr. change (row_r h 9 0) with (imm h (fun b x => sP (l1 x) (l2 x) (Z.land (bl x) b) x)). unfold imm. rewrite <- abs_fetched by exact W. reflexivity.
  - (* INP *) rewrite abs_wA by (unfold rd_port; destruct (p =? 1); apply land_r; apply W). unfold tr, ok, rd_port, latch_of. destruct (p =? 1); reflexivity.
  - (* OUTL *) rewrite wr_port_ok by exact HA. reflexivity.
  - (* ORLP *) rewrite fetch_eq by exact W. rewrite wr_port_ok by (rewrite get_odr_ok; apply lor_r; [apply latch_range, W2|apply rom_range, H]).
    rewrite get_odr_ok, abs_fetched by exact W. reflexivity.
  - (* ANLP *) rewrite fetch_eq by exact W. rewrite wr_port_ok by (rewrite get_odr_ok; apply land_r; [apply latch_range, W2|apply rom_range, H]).
    rewrite get_odr_ok, abs_fetched by exact W. reflexivity.
  - (* MOVDA *) specialize (Ge S). rewrite (surjective_pairing (pext_in p s)). rewrite pext_in_ok by assumption. reflexivity.
  - (* MOVDP *) specialize (Ge S). rewrite pext_out_ok by lia. reflexivity.
  - (* ORLD *) apply andb_true_iff in S. destruct S as [S1 S2]. specialize (Ge S1). specialize (Go S2). unfold pext_orl.
    assert (EC : 4 + Z.shiftr c 6 = c mod 8).
    { assert (X := sweep 256 (fun c => negb (is_orld c && (c mod 4 =? 2)) || (4 + Z.shiftr c 6 =? c mod 8)) ltac:(vm_compute; reflexivity) c ltac:(lia)).
      cbv beta in X. rewrite S2, (proj2 (Z.eqb_eq _ _) Go) in X. apply Z.eqb_eq, X. }
    rewrite EC. rewrite pext_out_ok by lia. rewrite !land15, Z.mod_mod by lia. rewrite (Z.mod_small (Z.lor _ _)); [reflexivity|].
    assert (X1 := Z.mod_pos_bound (A s) 16 ltac:(lia)). assert (X2 := HO (c mod 8)).
    apply lor16; [exact X1|exact X2].
  - (* ANLD *) apply andb_true_iff in S. destruct S as [S1 S2]. specialize (Ge S1). specialize (Go S2). unfold pext_anl.
    assert (EC : 4 + Z.shiftr c 6 = c mod 8).
    { assert (X := sweep 256 (fun c => negb (is_orld c && (c mod 4 =? 2)) || (4 + Z.shiftr c 6 =? c mod 8)) ltac:(vm_compute; reflexivity) c ltac:(lia)).
      cbv beta in X. rewrite S2, (proj2 (Z.eqb_eq _ _) Go) in X. apply Z.eqb_eq, X. }
    rewrite EC. rewrite pext_out_ok by lia. rewrite !land15, Z.mod_mod by lia. rewrite (Z.mod_small (Z.land _ _)); [reflexivity|].
    assert (X1 := Z.mod_pos_bound (A s) 16 ltac:(lia)). assert (X2 := HO (c mod 8)).
    split; [apply Z.land_nonneg; lia|].
    assert (Z.land (A s mod 16) (odr s (c mod 8)) <= A s mod 16); [|lia].
    apply Z.ldiff_le; [lia|]. apply Z.bits_inj'. intros n Hn. rewrite Z.ldiff_spec, Z.land_spec, Z.bits_0. destruct (Z.testbit (A s mod 16) n), (Z.testbit (odr s (c mod 8)) n); reflexivity.
Qed.
