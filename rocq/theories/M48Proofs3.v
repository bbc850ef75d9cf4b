(** MCS-48: jumps, stack, ports. *)
From Verif Require Import Base M48Model M48Spec M48Proofs M48Proofs2.

Lemma sw12 (f g : Z -> Z) : forallb (fun v => f v =? g v) (map Z.of_nat (seq 0 4096)) = true -> forall v, 0 <= v < 4096 -> f v = g v.
Proof. intros H v Hv. assert (S := sweep 4096 _ H v ltac:(lia)). apply Z.eqb_eq, S. Qed.
Lemma page_eq p : 0 <= p < 4096 -> Z.land p 3840 = 256 * (p / 256).
Proof. revert p. apply (sw12 (fun p => Z.land p 3840) (fun p => 256 * (p / 256))). vm_compute. reflexivity. Qed.
Lemma bank_eq p : 0 <= p < 4096 -> Z.land p 2048 = 2048 * (p / 2048).
Proof. revert p. apply (sw12 (fun p => Z.land p 2048) (fun p => 2048 * (p / 2048))). vm_compute. reflexivity. Qed.
Lemma page_next p : 0 <= p < 4096 -> p mod 256 <> 255 -> next p / 256 = p / 256.
Proof.
  intros H N. assert (S := sweep 4096 (fun p => (p mod 256 =? 255) || (next p / 256 =? p / 256)) ltac:(vm_compute; reflexivity) p ltac:(lia)).
  cbv beta in S. apply orb_true_iff in S. destruct S as [S | S]; [apply Z.eqb_eq in S; contradiction|apply Z.eqb_eq, S].
Qed.
Lemma lor_add p b k : 0 <= b < 2 ^ k -> 0 <= k -> Z.lor (2 ^ k * p) b = 2 ^ k * p + b.
Proof.
  intros B K. rewrite Z.mul_comm, <- Z.shiftl_mul_pow2 by exact K. symmetry. rewrite Z.add_comm. rewrite Z.lor_comm.
  assert (L : Z.land b (Z.shiftl p k) = 0).
  { apply Z.bits_inj'. intros n Hn. rewrite Z.land_spec, Z.bits_0. destruct (Z.ltb_spec n k).
    - rewrite Z.shiftl_spec_low by lia. apply andb_false_r.
    - destruct (Z.eq_dec b 0) as [-> | Nb]; [rewrite Z.bits_0; reflexivity|]. rewrite (Z.bits_above_log2 b n); [reflexivity|lia|].
      apply Z.lt_le_trans with k; [|lia]. apply Z.log2_lt_pow2; lia. }
  rewrite <- Z.lxor_lor by exact L. apply Z.add_nocarry_lxor. exact L.
Qed.
Lemma lor_page p b : 0 <= b < 256 -> Z.lor (256 * p) b = 256 * p + b. Proof. intros. apply (lor_add p b 8); lia. Qed.
Lemma lor_bank p b : 0 <= b < 2048 -> Z.lor (2048 * p) b = 2048 * p + b. Proof. intros. apply (lor_add p b 11); lia. Qed.
Lemma page_range p : 0 <= p < 4096 -> 0 <= p / 256 < 16.
Proof. intros. split; [apply Z.div_pos; lia|apply Z.div_lt_upper_bound; lia]. Qed.
Lemma bank_range p : 0 <= p < 4096 -> 0 <= p / 2048 < 2.
Proof. intros. split; [apply Z.div_pos; lia|apply Z.div_lt_upper_bound; lia]. Qed.

Lemma jif_ok h c s : wfh h -> wf s -> PC s mod 256 <> 255 -> abs (jif h c s) = jump_if h c (abs s).
Proof.
  intros H W N. assert (HP : 0 <= PC s < 4096) by apply W. unfold jif. rewrite fetch_eq by exact W.
  destruct c; [|unfold jump_if; rewrite <- abs_fetched by exact W; reflexivity].
  unfold jump_if. rewrite <- abs_fetched by exact W. destruct (fetched_fields h s) as (_ & _ & E & _). rewrite E.
  assert (HN := next_range (PC s) HP). rewrite page_eq by exact HN. rewrite page_next by assumption.
  rewrite lor_page by (apply rom_range, H). reflexivity.
Qed.
Lemma wf_jif h c s : wfh h -> wf s -> wf (jif h c s).
Proof.
  intros H W. assert (HP : 0 <= PC s < 4096) by apply W. unfold jif. rewrite fetch_eq by exact W. assert (W2 := wf_fetched h s W). destruct c; [|exact W2].
  assert (HN : 0 <= PC (fetched h s) < 4096) by apply W2. apply wf_set_PC; [exact W2|]. rewrite page_eq by exact HN.
  rewrite lor_page by (apply rom_range, H). assert (X := rom_range h (PC s) H). assert (Y := page_range _ HN). lia.
Qed.

Lemma hi3 c : 0 <= c < 256 -> Z.shiftl (Z.land c 224) 3 = 256 * (c / 32).
Proof. revert c. apply (z8 (fun c => Z.shiftl (Z.land c 224) 3) (fun c => 256 * (c / 32))). vm_compute. reflexivity. Qed.
Lemma c32_range c : 0 <= c < 256 -> 0 <= c / 32 < 8.
Proof. intros. split; [apply Z.div_pos; lia|apply Z.div_lt_upper_bound; lia]. Qed.
Lemma target_eq h c s : wfh h -> wf s -> 0 <= c < 256 ->
  target h c s = ((if mb s =? 0 then 0 else 2048) + 256 * (c / 32) + rom h (PC s), fetched h s).
Proof.
  intros H W Hc. unfold target. rewrite fetch_eq by exact W. rewrite hi3 by exact Hc.
  destruct (fetched_fields h s) as (_ & _ & _ & E & _). rewrite E. assert (X := rom_range h (PC s) H). assert (Y := c32_range c Hc).
  destruct (mb s =? 0); [f_equal; lia|]. f_equal. rewrite Z.lor_comm. change 2048 with (2048 * 1) at 1.
  rewrite lor_bank by lia. lia.
Qed.
Lemma target_range h c s : wfh h -> 0 <= c < 256 -> 0 <= (if mb s =? 0 then 0 else 2048) + 256 * (c / 32) + rom h (PC s) < 4096.
Proof. intros H Hc. assert (X := rom_range h (PC s) H). assert (Y := c32_range c Hc). destruct (mb s =? 0); lia. Qed.
Lemma long_eq h c s : (mb s = 0 \/ mb s = 1) -> (negb (mb s =? 0) = true -> isr s = false) ->
  (if mb s =? 0 then 0 else 2048) + 256 * (c / 32) + rom h (PC s) = long h (c / 32) (abs s).
Proof.
  intros Hm Hi. unfold long, byte_at. cbn [dbf serv pc abs]. destruct Hm as [E | E]; rewrite E in *; cbn [Z.eqb negb andb]; [reflexivity|].
  rewrite (Hi eq_refl). reflexivity.
Qed.

(** ** stack *)
Lemma parts_sp v q : 0 <= v < 256 -> 0 <= q < 8 -> parts (Z.lor (Z.land v 248) q) = (Z.testbit v 7, Z.testbit v 6, Z.testbit v 5, Z.testbit v 4, q).
Proof.
  intros H Q. assert (C : q = 0 \/ q = 1 \/ q = 2 \/ q = 3 \/ q = 4 \/ q = 5 \/ q = 6 \/ q = 7) by lia.
  revert v H. destruct C as [-> | [-> | [-> | [-> | [-> | [-> | [-> | ->] ] ] ] ] ] ];
  match goal with |- forall v, _ -> parts (Z.lor (Z.land v 248) ?k) = _ => apply (p8 (fun v => parts (Z.lor (Z.land v 248) k)) (fun v => (Z.testbit v 7, Z.testbit v 6, Z.testbit v 5, Z.testbit v 4, k))) end; vm_compute; reflexivity.
Qed.
Lemma sp_range s : 0 <= sp (abs s) < 8. Proof. apply Z.mod_pos_bound. lia. Qed.
Lemma abs_errs v s : abs (set_errs v s) = abs s. Proof. reflexivity. Qed.
Lemma hi_byte p f : 0 <= p < 4096 -> 0 <= f < 256 -> Z.lor (Z.land (Z.shiftr p 8) 15) (Z.land f 240) = p / 256 + 16 * (f / 16).
Proof.
  intros P F. rewrite Z.shiftr_div_pow2 by lia. change (2 ^ 8) with 256. rewrite land15. assert (X := page_range p P).
  rewrite Z.mod_small by lia. rewrite land240 by exact F. rewrite Z.lor_comm. assert (L := lor_add (f / 16) (p / 256) 4 ltac:(lia) ltac:(lia)). change (2 ^ 4) with 16 in L. rewrite L. lia.
Qed.
Lemma wfh_rs h : wfh h -> 64 <= rs h. Proof. intros [ [E | [E | E] ] _]; lia. Qed.
Lemma wr_ram_small h a v s : wfh h -> a < 64 -> wr_ram h a v s = set_ram (fun k => if k =? a then u8 v else ram s k) s.
Proof. intros H Ha. unfold wr_ram. assert (X := wfh_rs h H). replace (a <? rs h) with true by (symmetry; apply Z.ltb_lt; lia). reflexivity. Qed.
Lemma rd_ram_small h jk a s : wfh h -> a < 64 -> rd_ram h jk a s = ram s a.
Proof. intros H Ha. unfold rd_ram. assert (X := wfh_rs h H). replace (a <? rs h) with true by (symmetry; apply Z.ltb_lt; lia). reflexivity. Qed.
Lemma land_m1 q : Z.land (q - 1) 7 = (q - 1) mod 8. Proof. change 7 with (Z.ones 3). rewrite Z.land_ones by lia. reflexivity. Qed.
Lemma land_p1 q : Z.land (q + 1) 7 = (q + 1) mod 8. Proof. change 7 with (Z.ones 3). rewrite Z.land_ones by lia. reflexivity. Qed.
Lemma check_overflow_abs ipc q s : abs (check_overflow ipc q s) = abs s.
Proof. unfold check_overflow. destruct (q <? _); reflexivity. Qed.
Lemma push_ok h ipc s : wfh h -> wf s -> abs (push h ipc true s) = call_push (abs s).
Proof.
  intros H W. assert (P : 0 <= psw s < 256) by apply W. assert (HP : 0 <= PC s < 4096) by apply W.
  assert (B := sp_range s). cbn [sp abs] in B. unfold push. cbv zeta. rewrite check_overflow_abs. rewrite land_p1. rewrite (land7 (psw s)) by exact P.
  rewrite wr_ram_small by (assumption || lia). cbn [psw set_ram PC]. rewrite wr_ram_small by (assumption || lia). cbn [psw set_ram ram PC].
  rewrite hi_byte by assumption.
  assert (Q := Z.mod_pos_bound (psw s mod 8 + 1) 8 ltac:(lia)).
  rewrite abs_wF by rng. rewrite parts_sp by assumption.
  assert (Y := page_range _ HP). assert (Z1 : 0 <= psw s / 16 < 16) by (split; [apply Z.div_pos; lia|apply Z.div_lt_upper_bound; lia]).
  rewrite (u8_id (PC s / 256 + 16 * (psw s / 16))) by lia.
  unfold call_push. rewrite psw_of_eq by exact W. cbn [sp pc rm xm abs]. rewrite (Z.mul_comm (psw s mod 8) 2). reflexivity.
Qed.
Lemma wf_check_overflow ipc q s : wf s -> wf (check_overflow ipc q s).
Proof. intros W. unfold check_overflow. destruct (_ <? _); [apply wf_set_errs|]; exact W. Qed.
Lemma wf_push h ipc f s : wf s -> wf (push h ipc f s).
Proof. intros W. unfold push. cbv zeta. apply wf_check_overflow, wf_wF, wf_wr_ram, wf_wr_ram, W. Qed.
Lemma parts_pop v vh q : 0 <= v < 256 -> 0 <= vh < 256 -> 0 <= q < 8 ->
  parts (Z.lor (Z.land (Z.lor (Z.land v 15) (Z.land vh 240)) 248) q) = (Z.testbit vh 7, Z.testbit vh 6, Z.testbit vh 5, Z.testbit vh 4, q).
Proof.
  intros V VH Q. rewrite parts_sp by rng. unfold parts. 
  assert (L : forall n, 4 <= n < 8 -> Z.testbit (Z.lor (Z.land v 15) (Z.land vh 240)) n = Z.testbit vh n).
  { intros n Hn. rewrite Z.lor_spec, !Z.land_spec. assert (Cn : n = 4 \/ n = 5 \/ n = 6 \/ n = 7) by lia.
    destruct Cn as [-> | [-> | [-> | ->] ] ]; cbn [Z.testbit Pos.testbit]; rewrite andb_false_r, andb_true_r; reflexivity. }
  rewrite !L by lia. reflexivity.
Qed.
Lemma pop_pc lo hi : 0 <= lo < 256 -> 0 <= hi < 256 -> Z.land (lo + 256 * hi) 4095 = lo + 256 * (hi mod 16).
Proof.
  intros L H. change 4095 with (Z.ones 12). rewrite Z.land_ones by lia. change (2 ^ 12) with 4096.
  assert (X := Z.div_mod hi 16 ltac:(lia)). assert (Y := Z.mod_pos_bound hi 16 ltac:(lia)). rewrite X at 1.
  replace (lo + 256 * (16 * (hi / 16) + hi mod 16)) with (lo + 256 * (hi mod 16) + (hi / 16) * 4096) by lia.
  rewrite Z.mod_add by lia. apply Z.mod_small. lia.
Qed.
Lemma pop_ok h jk (f : bool) s : wfh h -> wf s -> abs (pop h jk f s) = ret_pop f (abs s).
Proof.
  intros H W. assert (P : 0 <= psw s < 256) by apply W. assert (B := sp_range s). cbn [sp abs] in B.
  assert (HR : forall a, 0 <= ram s a < 256) by apply W.
  unfold pop. cbv zeta. rewrite land_m1. rewrite (land7 (psw s)) by exact P. assert (Q := Z.mod_pos_bound (psw s mod 8 - 1) 8 ltac:(lia)).
  set (q := (psw s mod 8 - 1) mod 8) in *. rewrite !rd_ram_small by (assumption || lia).
  rewrite pop_pc by auto. change (abs (set_PC ?v ?t)) with (sPC v (abs t)).
  replace (8 + q * 2) with (8 + 2 * q) by lia. assert (H2 := HR (8 + 2 * q + 1)). unfold ret_pop. cbn [sp abs rm]. fold q. destruct f.
  - rewrite abs_wF by rng. rewrite parts_pop by (assumption || lia). rewrite parts_of_sF. unfold load_psw. cbn [cy ac f0 bs sF].
    rewrite !testbit_odd by lia. reflexivity.
  - rewrite abs_wF by rng. rewrite parts_sp by (assumption || lia). reflexivity.
Qed.
Lemma wf_pop h jk f s : wfh h -> wf s -> wf (pop h jk f s).
Proof.
  intros H W. unfold pop. cbv zeta. apply wf_set_PC; [apply wf_wF, W|]. change 4095 with (Z.ones 12). rewrite Z.land_ones by lia. apply Z.mod_pos_bound. lia.
Qed.

(** ** expander *)
Lemma set_low_ok v s : p2 s < 16 -> 0 <= p2 s -> 0 <= v < 16 -> abs (set_low v s) = low_p2 v (abs s).
Proof.
  intros H P V. unfold set_low, low_p2. rewrite land15, (Z.mod_small v) by lia. rewrite u8_id by lia.
  cbn [l2 abs]. rewrite (Z.div_small (p2 s)) by lia. reflexivity.
Qed.
Lemma set_low_land v s : set_low v s = set_low (v mod 16) s.
Proof. unfold set_low. rewrite !land15. rewrite Z.mod_mod by lia. reflexivity. Qed.
Lemma pext_out_ok p v s : p2 s < 16 -> 0 <= p2 s -> abs (pext_out p v s) = to_exp p (v mod 16) (abs s).
Proof.
  intros H P. unfold pext_out, to_exp. rewrite set_low_land. rewrite land15. rewrite set_low_ok; [reflexivity|exact H|exact P|apply Z.mod_pos_bound; lia].
Qed.
Lemma pext_in_ok p s : wf s -> p2 s < 16 ->
  abs (wA (fst (pext_in p s)) (snd (pext_in p s))) = sA (epin s p) (low_p2 (epin s p) (sE (odr s) (at_ (dir s) p 0) (abs s))).
Proof.
  intros W H. assert (E : 0 <= epin s p < 16) by apply W. assert (P : 0 <= p2 s < 256) by apply W. unfold pext_in. cbv zeta. cbn [fst snd epin set_dir].
  rewrite abs_wA by lia. rewrite set_low_ok; [reflexivity|exact H|apply P|exact E].
Qed.
Lemma wf_set_low v s : wf s -> wf (set_low v s).
Proof. intros W. apply wf_set_p2; [exact W|apply u8_range]. Qed.
Lemma land15_range v : 0 <= Z.land v 15 < 16. Proof. rewrite land15. apply Z.mod_pos_bound. lia. Qed.
Lemma wf_pext_out p v s : wf s -> wf (pext_out p v s).
Proof.
  intros W. unfold pext_out. apply wf_set_low. apply (wf_odr (set_dir (fset (dir s) p 15) s)); [apply wf_set_dir, W|apply land15_range].
Qed.
Lemma wf_wr_port p v s : wf s -> wf (wr_port p v s).
Proof. intros W. unfold wr_port. destruct (p =? 1); [apply wf_set_p1|apply wf_set_p2]; auto using u8_range. Qed.
Lemma wr_port_ok p v s : 0 <= v < 256 -> abs (wr_port p v s) = set_latch p v (abs s).
Proof. intros V. unfold wr_port. rewrite (u8_id v V). unfold set_latch. destruct (p =? 1); reflexivity. Qed.
Lemma get_odr_ok p s : get_odr p s = latch_of p (abs s). Proof. reflexivity. Qed.
Lemma latch_range p s : wf s -> 0 <= latch_of p (abs s) < 256.
Proof. intros W. unfold latch_of. cbn [l1 l2 abs]. destruct (p =? 1); apply W. Qed.
