(** 8080/8085: one instruction of the simulator against the manual, the main lemma. *)
From Verif Require Import Base I80Model I80Spec I80Proofs I80Proofs2 I80Proofs3 I80Proofs4.

Lemma rd_in dum s a : 0 <= a < 65536 -> rd dum s a = mem s a.
Proof. intros H. unfold rd. rewrite inmem_true by exact H. reflexivity. Qed.
Lemma mem_abs s x k : abs s = next k x -> mem s = mm x.
Proof. intros H. change (mem s) with (mm (abs s)). rewrite H. reflexivity. Qed.
Lemma A_abs s x k : abs s = next k x -> A s = R x 7.
Proof. intros H. change (A s) with (R (abs s) 7). rewrite H. reflexivity. Qed.
Lemma H_abs s x k : abs s = next k x -> H s = R x 4.
Proof. intros H. change (I80Model.H s) with (R (abs s) 4). rewrite H. reflexivity. Qed.
Lemma L_abs s x k : abs s = next k x -> L s = R x 5.
Proof. intros H. change (L s) with (R (abs s) 5). rewrite H. reflexivity. Qed.
Lemma SP_abs s x k : abs s = next k x -> SP s = sp x.
Proof. intros H. change (SP s) with (sp (abs s)). rewrite H. reflexivity. Qed.
Lemma PC_abs s x k : abs s = next k x -> PC s = w (pc x + k).
Proof. intros H. change (PC s) with (pc (abs s)). rewrite H. reflexivity. Qed.
Lemma get_next dum r s x k : wf s -> abs s = next k x -> get dum r s = src (num r) x.
Proof. intros W H. rewrite (get_src dum r s W), H. reflexivity. Qed.
Lemma get2_next p s x k : p <> pPSW -> abs s = next k x -> get2 p s = pairv (pnum p) x.
Proof. intros Hp H. rewrite (get2_pairv p s Hp), H. reflexivity. Qed.
Lemma setm_same a v t y : 0 <= a < 65536 -> 0 <= v < 256 -> same (abs t) y -> same (abs (wr a v t)) (setm a v y).
Proof.
  intros Ha Hv [H1 [H2 [H3 [H4 [H5 [H6 [H7 [H8 H9]]]]]]]]. rewrite (wr_in _ _ _ Ha), (u8_id v Hv).
  unfold same. refine (conj H1 (conj H2 (conj H3 (conj H4 (conj H5 (conj H6 (conj H7 (conj H8 _)))))))).
  intros a0. cbn. unfold updm. destruct (a0 =? a); [reflexivity|apply H9].
Qed.
Lemma setr_same n v x y : same x y -> same (setr n v x) (setr n v y).
Proof.
  intros [H1 H2]. split; [|exact H2]. intros k Hk Hk6. cbn. destruct (k =? n); [reflexivity|apply H1; assumption].
Qed.
Lemma wHL_same v t y : 0 <= v < 65536 -> same (abs t) y -> same (abs (wHL v t)) (setpair 2 v y).
Proof.
  intros Hv Ht. eapply same_trans; [apply (put2_setpair pH); [discriminate|exact Hv]|].
  unfold setpair. cbn [pnum Z.eqb Pos.eqb]. apply setr_same, setr_same, Ht.
Qed.
Lemma wDE_same v t y : 0 <= v < 65536 -> same (abs t) y -> same (abs (wDE v t)) (setpair 1 v y).
Proof.
  intros Hv Ht. eapply same_trans; [apply (put2_setpair pD); [discriminate|exact Hv]|].
  unfold setpair. cbn [pnum Z.eqb Pos.eqb]. apply setr_same, setr_same, Ht.
Qed.
Lemma push_same_y v x y : same x y -> same (push v x) (push v y).
Proof.
  intros [H1 [H2 [H3 [H4 [H5 [H6 [H7 [H8 H9]]]]]]]]. unfold same, push. cbn. rewrite H7.
  refine (conj H1 (conj H2 (conj H3 (conj H4 (conj H5 (conj H6 (conj eq_refl (conj H8 _)))))))).
  intros a. destruct (a =? _); [reflexivity|]. destruct (a =? _); [reflexivity|]. apply H9.
Qed.
(** INX, DCX on both processors *)
Lemma F5_same t y f : same (abs t) y -> (forall k, docbit k -> Z.testbit f k = Z.testbit (F t) k) ->
  same (abs (wF true f t)) y.
Proof.
  intros S Hf. apply same_trans with (y := abs t); [|exact S].
  unfold same. refine (conj _ (conj _ (conj _ (conj _ (conj _ (conj _ (conj _ (conj _ _))))))));
    [intros; reflexivity| | | | | |reflexivity|reflexivity|reflexivity];
    cbn [abs fS fZ fA fP fC]; rewrite wF_bit by (unfold docbit; lia); apply Hf; unfold docbit; lia.
Qed.
Lemma put2_mod p v s : put2 p v s = put2 p (v mod 65536) s.
Proof.
  assert (E8 : u8 (v / 256) = u8 (v mod 65536 / 256)).
  { unfold u8. change 65536 with (256 * 256). rewrite Z.rem_mul_r by lia.
    rewrite Z.add_comm, Z.mul_comm, Z.div_add_l by lia. rewrite (Z.div_small (v mod 256)) by (apply Z.mod_pos_bound; lia).
    rewrite Z.add_0_r, Z.mod_mod by lia. reflexivity. }
  assert (E0 : u8 v = u8 (v mod 65536)) by (unfold u8; apply (Znumtheory.Zmod_div_mod 256 65536); [lia|lia|exists 256; reflexivity]).
  destruct p; cbn [put2]; unfold wBC, wDE, wHL, wSP, wAF; rewrite <- ?E8, <- ?E0; try reflexivity.
  unfold u16. rewrite Z.mod_mod by lia. reflexivity.
Qed.
Lemma F_put2 p v s : p <> pPSW -> F (put2 p v s) = F s.
Proof. destruct p; try reflexivity. congruence. Qed.
Lemma inx_same m85 p s x : wf s -> p <> pPSW -> abs s = x ->
  same (abs (inx m85 p s)) (setpair (pnum p) (w (pairv (pnum p) x + 1)) x).
Proof.
  intros W Hp <-. rewrite <- (get2_pairv p s Hp).
  assert (S : same (abs (put2 p (get2 p s + 1) s)) (setpair (pnum p) (w (get2 p s + 1)) (abs s))).
  { rewrite put2_mod. apply put2_setpair; [exact Hp|apply mod65536]. }
  unfold inx. destruct m85; [|exact S]. apply F5_same; [exact S|].
  intros k Hk. rewrite F_put2 by exact Hp. rewrite Z.lor_spec, bit_clr, bit_fl.
  destruct Hk as [-> | [-> | [-> | [-> | ->]]]]; cbits; rewrite andb_false_r, andb_true_r, orb_false_r; reflexivity.
Qed.
Lemma dcx_same m85 p s x : wf s -> p <> pPSW -> abs s = x ->
  same (abs (dcx m85 p s)) (setpair (pnum p) (w (pairv (pnum p) x + -1)) x).
Proof.
  intros W Hp <-. rewrite <- (get2_pairv p s Hp).
  assert (S : same (abs (put2 p (get2 p s - 1) s)) (setpair (pnum p) (w (get2 p s + -1)) (abs s))).
  { rewrite put2_mod. apply put2_setpair; [exact Hp|apply mod65536]. }
  unfold dcx. destruct m85; [|exact S]. apply F5_same; [exact S|].
  intros k Hk. rewrite F_put2 by exact Hp. rewrite Z.lor_spec, bit_clr, bit_fl.
  destruct Hk as [-> | [-> | [-> | [-> | ->]]]]; cbits; rewrite andb_false_r, andb_true_r, orb_false_r; reflexivity.
Qed.
Lemma fetched_PC s x k t : abs s = next k x -> same (abs t) (abs s) -> same (abs t) (next k x).
Proof. intros E S. rewrite <- E. exact S. Qed.
Lemma wf_byte s : wf s -> 0 <= A s < 256 /\ 0 <= F s < 256 /\ 0 <= B s < 256 /\ 0 <= C s < 256 /\ 0 <= D s < 256 /\ 0 <= E s < 256 /\
  0 <= H s < 256 /\ 0 <= L s < 256 /\ 0 <= SP s < 65536 /\ 0 <= PC s < 65536.
Proof. unfold wf. tauto. Qed.

Lemma run_same m85 lim dum ipc c o s s1 : wf s -> wf s1 -> abs s1 = next 1 (abs s) -> fine m85 c o (abs s) s1 ->
  same (abs (fst (run m85 lim dum ipc c o s1))) (manual_op m85 c o (abs s)).
Proof.
  intros W W1 E Hf. set (x := abs s) in *.
  pose proof (wf_byte s1 W1) as Rg.
  assert (Rm : forall a, 0 <= mem s1 a < 256) by apply W1.
  pose proof (mem_abs _ _ _ E) as Em. pose proof (A_abs _ _ _ E) as EA. pose proof (H_abs _ _ _ E) as EH.
  pose proof (L_abs _ _ _ E) as EL. pose proof (SP_abs _ _ _ E) as ES. pose proof (PC_abs _ _ _ E) as EP.
  assert (EHL : HL s1 = pairv 2 x) by (apply (get2_next pH s1 x 1); [discriminate|exact E]).
  assert (EDE : DE s1 = pairv 1 x) by (apply (get2_next pD s1 x 1); [discriminate|exact E]).
  pose proof (HL_range s1 W1) as RHL. pose proof (DE_range s1 W1) as RDE.
  destruct o; cbn [run fst manual_op]; cbn [fine] in Hf; try contradiction.
  - (* NOP *) rewrite E. apply same_refl.
  - (* HLT *) rewrite E. apply same_refl.
  - (* EI *) rewrite E. apply same_refl.
  - (* DI *) rewrite E. apply same_refl.
  - (* MOV *) rewrite (get_next dum s0 s1 x 1 W1 E).
    eapply same_eq; [apply put_dst; [exact W1|rewrite <- (get_next dum s0 s1 x 1 W1 E); apply get_range; exact W1]|].
    rewrite E. apply dst_next.
  - (* MVI *) destruct (fetch_next s s1 W W1 E) as [s2 [F2 [E2 [W2 R2]]]]; fold x in F2, E2, R2. rewrite F2.
    eapply same_eq; [apply put_dst; [exact W2|exact R2]|]. rewrite E2. apply dst_next.
  - (* LXI *) destruct (fetch16_next s s1 W W1 E) as [s2 [F2 [E2 [W2 R2]]]]; fold x in F2, E2, R2. rewrite F2.
    eapply same_eq; [apply put2_setpair; [|exact R2]|rewrite E2; apply setpair_next].
    intros ->. exact Hf.
  - (* LDA *) destruct (fetch16_next s s1 W W1 E) as [s2 [F2 [E2 [W2 R2]]]]; fold x in F2, E2, R2. rewrite F2.
    rewrite rd_in by exact R2. rewrite (mem_abs _ _ _ E2).
    eapply same_eq; [apply wA_setr|rewrite E2; reflexivity]. rewrite <- Em. apply Rm.
  - (* STA *) destruct (fetch16_next s s1 W W1 E) as [s2 [F2 [E2 [W2 R2]]]]; fold x in F2, E2, R2. rewrite F2.
    rewrite (A_abs _ _ _ E2).
    eapply same_eq; [apply wr_setm; [exact R2|rewrite <- EA; apply Rg]|rewrite E2; reflexivity].
  - (* LHLD *) destruct (fetch16_next s s1 W W1 E) as [s2 [F2 [E2 [W2 R2]]]]; fold x in F2, E2, R2. rewrite F2.
    unfold rd16. rewrite !rd_in by lia. rewrite (mem_abs _ _ _ E2).
    assert (Ra := Rm (operand16 x)). assert (Rb := Rm (operand16 x + 1)). rewrite Em in Ra, Rb.
    eapply same_trans; [apply (put2_setpair pH); [discriminate|lia]|]. rewrite E2. unfold setpair. cbn [pnum Z.eqb Pos.eqb].
    rewrite (w_id (operand16 x + 1)) by lia. rewrite (Z.mul_comm 256), Z_mod_plus_full, Z.div_add by lia.
    rewrite Z.div_small, Z.mod_small by lia. parts; reflexivity.
  - (* SHLD *) destruct (fetch16_next s s1 W W1 E) as [s2 [F2 [E2 [W2 R2]]]]; fold x in F2, E2, R2. rewrite F2.
    rewrite (w_id (operand16 x + 1)) by lia.
    rewrite (H_abs _ _ _ E2), (L_abs _ _ _ E2). rewrite <- EH, <- EL.
    eapply same_eq; [apply setm_same; [lia|apply Rg|]; apply setm_same; [lia|apply Rg|]; rewrite E2; apply same_refl|].
    reflexivity.
  - (* LDAX *) rewrite (get2_next p s1 x 1) by (try exact E; intros ->; exact Hf).
    rewrite rd_in by (rewrite <- (get2_next p s1 x 1) by (try exact E; intros ->; exact Hf); apply get2_range, W1).
    rewrite Em. eapply same_eq; [apply wA_setr; rewrite <- Em; apply Rm|rewrite E; reflexivity].
  - (* STAX *) rewrite (get2_next p s1 x 1) by (try exact E; intros ->; exact Hf).
    rewrite EA. eapply same_eq; [apply wr_setm; [|rewrite <- EA; apply Rg]|rewrite E; reflexivity].
    rewrite <- (get2_next p s1 x 1) by (try exact E; intros ->; exact Hf); apply get2_range, W1.
  - (* XCHG *) rewrite EHL, EDE. rewrite EHL in RHL. rewrite EDE in RDE.
    apply same_trans with (y := setpair 1 (pairv 2 x) (setpair 2 (pairv 1 x) (next 1 x))); [|parts; reflexivity].
    apply wDE_same; [exact RHL|]. apply wHL_same; [exact RDE|]. rewrite E. apply same_refl.
  - (* INP *) destruct (fetch_next s s1 W W1 E) as [s2 [F2 [E2 [W2 R2]]]]; fold x in F2, E2, R2. rewrite F2. cbn [snd]. rewrite E2. apply same_refl.
  - (* OUTP *) destruct (fetch_next s s1 W W1 E) as [s2 [F2 [E2 [W2 R2]]]]; fold x in F2, E2, R2. rewrite F2. cbn [snd]. rewrite E2. apply same_refl.
  - (* PUSH *) destruct p; cbn [fine] in Hf; try contradiction; cbn [manual_op];
      (eapply same_eq; [apply push2_same; apply get2_range; exact W1|]);
      (rewrite get2_pairv by discriminate; rewrite E; reflexivity).
  - (* POP *) destruct (pop2_val dum s1 W1) as [s2 [F2 [E2 [R2 [P2 W2]]]]]. rewrite F2.
    assert (Ev : popv (abs s1) = popv x) by (rewrite E; reflexivity).
    assert (Ep : pop (abs s1) = next 1 (pop x)) by (rewrite E; reflexivity).
    rewrite Ev in *. rewrite Ep in E2.
    destruct p; cbn [fine] in Hf; try contradiction; cbn [manual_op];
      try (eapply same_eq; [apply put2_setpair; [discriminate|exact R2]|rewrite E2; apply setpair_next]).
    assert (Hd : u8 (popv x / 256) = popv x / 256) by (apply u8_id; split; [apply Z.div_pos|apply Z.div_lt_upper_bound]; lia).
    cbn [put2]. unfold wAF. rewrite Hd. parts;
      try (match goal with |- R (abs (set_A _ (set_F _ ?t))) ?n = _ =>
        first [reflexivity|change (R (abs t) n = R x n); rewrite E2; reflexivity] end);
      try (cbn [abs fS fZ fA fP fC F set_A set_F flags setf next setpc]; apply u8_bit; lia).
    + change (sp (abs s2) = w (sp x + 2)). rewrite E2. reflexivity.
    + change (pc (abs s2) = w (pc x + 1)). rewrite E2. reflexivity.
    + change (mm (abs s2) a = mm x a). rewrite E2. reflexivity.
  - (* XTHL *) unfold rd16. rewrite ES in Rg |- *. rewrite !rd_in by lia. rewrite Em, EH, EL in *.
    assert (Ra := Rm (sp x)). assert (Rb := Rm (sp x + 1)). rewrite ?Em in Ra, Rb.
    assert (Ev : mm x (sp x) + 256 * mm x (sp x + 1) = popv x) by (unfold popv; rewrite (w_id (sp x + 1)) by lia; reflexivity).
    rewrite Ev. rewrite (w_id (sp x + 1)) by lia.
    eapply same_eq; [apply wHL_same; [lia|apply setm_same; [lia|lia|apply setm_same; [lia|lia|rewrite E; apply same_refl]]]|].
    reflexivity.
  - (* SPHL *) unfold wSP. rewrite u16_id by exact RHL. rewrite EHL.
    change (abs (set_SP (pairv 2 x) s1)) with (setsp (pairv 2 x) (abs s1)). rewrite E. apply same_refl.
  - (* ALU *) destruct s0 as [r|]; cbn [fine manual_op] in Hf |- *.
    + rewrite (get_next dum r s1 x 1 W1 E).
      eapply same_eq; [apply alu_same; [exact W1| |exact Hf]|rewrite E; apply arith_next].
      rewrite <- (get_next dum r s1 x 1 W1 E). apply get_range, W1.
    + destruct (fetch_next s s1 W W1 E) as [s2 [F2 [E2 [W2 R2]]]]; fold x in F2, E2, R2. rewrite F2.
      eapply same_eq; [apply alu_same; [exact W2|exact R2|]|rewrite E2; apply arith_next].
      assert (EA' : A s1 = A s2) by (rewrite EA, (A_abs _ _ _ E2); reflexivity).
      assert (EC : Z.testbit (F s1) 0 = Z.testbit (F s2) 0)
        by (change (fC (abs s1) = fC (abs s2)); rewrite E, E2; reflexivity).
      revert Hf. destruct k; cbn [alu_fine]; rewrite ?EA', ?EC; tauto.
  - (* DAD *) assert (Hp : p <> pPSW) by (intros ->; exact Hf).
    eapply same_eq; [apply dad_same; [exact W1|exact Hp]|]. rewrite E. cbv zeta. rewrite !pairv_next, setpair_next. reflexivity.
  - (* INR *) eapply same_eq; [apply inr_same; exact W1|rewrite E; apply inc_next].
  - (* DCR *) eapply same_eq; [apply dcr_same; exact W1|rewrite E; apply inc_next].
  - (* INX *) assert (Hp : p <> pPSW) by (intros ->; exact Hf).
    eapply same_eq; [apply inx_same; [exact W1|exact Hp|exact E]|]. apply setpair_next.
  - (* DCX *) assert (Hp : p <> pPSW) by (intros ->; exact Hf).
    eapply same_eq; [apply dcx_same; [exact W1|exact Hp|exact E]|]. apply setpair_next.
  - (* RLC *) eapply same_eq; [apply rlc_same; exact W1|rewrite E, EA; reflexivity].
  - (* RRC *) eapply same_eq; [apply rrc_same; exact W1|rewrite E, EA; reflexivity].
  - (* RAL *) eapply same_eq; [apply ral_same; exact W1|].
    change (Z.testbit (F s1) 0) with (fC (abs s1)). rewrite E, EA; reflexivity.
  - (* RAR *) eapply same_eq; [apply rar_same; exact W1|].
    change (Z.testbit (F s1) 0) with (fC (abs s1)). rewrite E, EA; reflexivity.
  - (* CMA *) rewrite EA. eapply same_eq; [apply wA_setr; lia|rewrite E; reflexivity].
  - (* CMC *) eapply same_eq; [apply (carry_same m85 _ s1 (abs s1) (negb (fC (abs s1))))|].
    + rewrite abs_noflags. apply same_refl.
    + rewrite Z.lxor_spec. change (Z.testbit 1 0) with true. apply xorb_true_r.
    + rewrite Z.lxor_spec. change (Z.testbit 1 2) with false. apply xorb_false_r.
    + rewrite Z.lxor_spec. change (Z.testbit 1 4) with false. apply xorb_false_r.
    + rewrite Z.lxor_spec. change (Z.testbit 1 6) with false. apply xorb_false_r.
    + rewrite Z.lxor_spec. change (Z.testbit 1 7) with false. apply xorb_false_r.
    + rewrite E. reflexivity.
  - (* STC *) eapply same_eq; [apply (carry_same m85 _ s1 (abs s1) true)|].
    + rewrite abs_noflags. apply same_refl.
    + rewrite Z.lor_spec. change (Z.testbit 1 0) with true. apply orb_true_r.
    + rewrite Z.lor_spec. change (Z.testbit 1 2) with false. apply orb_false_r.
    + rewrite Z.lor_spec. change (Z.testbit 1 4) with false. apply orb_false_r.
    + rewrite Z.lor_spec. change (Z.testbit 1 6) with false. apply orb_false_r.
    + rewrite Z.lor_spec. change (Z.testbit 1 7) with false. apply orb_false_r.
    + rewrite E. reflexivity.
  - (* JMP *) destruct (fetch16_next s s1 W W1 E) as [s2 [F2 [E2 [W2 R2]]]]; fold x in F2, E2, R2. rewrite F2.
    change (abs (set_PC (operand16 x) s2)) with (setpc (operand16 x) (abs s2)). rewrite E2. apply same_refl.
  - (* JCC *) unfold jmp_if. destruct (fetch16_next s s1 W W1 E) as [s2 [F2 [E2 [W2 R2]]]]; fold x in F2, E2, R2. rewrite F2.
    rewrite holds_cond, E. change (true_cond (cnum c0) (next 1 x)) with (true_cond (cnum c0) x).
    destruct (true_cond (cnum c0) x); [|rewrite E2; apply same_refl].
    change (abs (set_tsh 8 (set_PC (operand16 x) s2))) with (setpc (operand16 x) (abs s2)). rewrite E2. apply same_refl.
  - (* CALL *) destruct (fetch16_next s s1 W W1 E) as [s2 [F2 [E2 [W2 R2]]]]; fold x in F2, E2, R2. rewrite F2.
    rewrite (PC_abs _ _ _ E2).
    change (abs (set_PC ?a ?t)) with (setpc a (abs t)).
    eapply same_eq; [apply same_setpc, push2_same, w_range|]. rewrite E2. reflexivity.
  - (* CCC *) unfold call_if. destruct (fetch16_next s s1 W W1 E) as [s2 [F2 [E2 [W2 R2]]]]; fold x in F2, E2, R2. rewrite F2.
    rewrite holds_cond, E. change (true_cond (cnum c0) (next 1 x)) with (true_cond (cnum c0) x).
    destruct (true_cond (cnum c0) x); [|rewrite E2; apply same_refl].
    rewrite (PC_abs _ _ _ E2).
    change (abs (set_tsh 8 (set_PC ?a ?t))) with (setpc a (abs t)).
    eapply same_eq; [apply same_setpc, push2_same, w_range|]. rewrite E2. reflexivity.
  - (* RET *) destruct (pop2_val dum s1 W1) as [s2 [F2 [E2 [R2 [P2 W2]]]]]. rewrite F2.
    change (abs (set_PC ?a ?t)) with (setpc a (abs t)). rewrite E2, E. apply same_refl.
  - (* RCC *) unfold ret_if. rewrite holds_cond. change (true_cond (cnum c0) (abs s1)) with (true_cond (cnum c0) (abs s1)).
    assert (Ec : true_cond (cnum c0) (abs s1) = true_cond (cnum c0) x) by (rewrite E; reflexivity). rewrite Ec.
    destruct (true_cond (cnum c0) x); [|rewrite E; apply same_refl].
    destruct (pop2_val dum s1 W1) as [s2 [F2 [E2 [R2 [P2 W2]]]]]. rewrite F2.
    change (abs (set_tsh 8 (set_PC ?a ?t))) with (setpc a (abs t)). rewrite E2, E. apply same_refl.
  - (* RST *) change (abs (set_PC ?a ?t)) with (setpc a (abs t)). rewrite Hf, EP.
    eapply same_eq; [apply same_setpc, push2_same, w_range|]. rewrite E. reflexivity.
  - (* PCHL *) change (abs (set_PC ?a ?t)) with (setpc a (abs t)). rewrite EHL, E. apply same_refl.
Qed.
