(** 8080/8085: the state keeps its form; cycles; lengths. *)
From Verif Require Import Base I80Model I80Spec I80Proofs I80Proofs2 I80Proofs3 I80Proofs4 I80Proofs5 I80Proofs6.

Ltac wfs := unfold wf in *; cbn [A F B C D E H L SP PC mem set_A set_F set_B set_C set_D set_E set_H set_L set_SP set_PC set_mem set_tsh set_ticks set_errs] in *.
Lemma wf_A v s : wf s -> 0 <= v < 256 -> wf (set_A v s). Proof. intros. wfs. tauto. Qed.
Lemma wf_F v s : wf s -> 0 <= v < 256 -> wf (set_F v s). Proof. intros. wfs. tauto. Qed.
Lemma wf_B v s : wf s -> 0 <= v < 256 -> wf (set_B v s). Proof. intros. wfs. tauto. Qed.
Lemma wf_C v s : wf s -> 0 <= v < 256 -> wf (set_C v s). Proof. intros. wfs. tauto. Qed.
Lemma wf_D v s : wf s -> 0 <= v < 256 -> wf (set_D v s). Proof. intros. wfs. tauto. Qed.
Lemma wf_E v s : wf s -> 0 <= v < 256 -> wf (set_E v s). Proof. intros. wfs. tauto. Qed.
Lemma wf_H v s : wf s -> 0 <= v < 256 -> wf (set_H v s). Proof. intros. wfs. tauto. Qed.
Lemma wf_L v s : wf s -> 0 <= v < 256 -> wf (set_L v s). Proof. intros. wfs. tauto. Qed.
Lemma wf_SP v s : wf s -> 0 <= v < 65536 -> wf (set_SP v s). Proof. intros. wfs. tauto. Qed.
Lemma wf_mem m s : wf s -> (forall a, 0 <= m a < 256) -> wf (set_mem m s). Proof. intros. wfs. tauto. Qed.
Lemma wf_tsh v s : wf s -> wf (set_tsh v s). Proof. intros. wfs. tauto. Qed.
Lemma wf_ticks v s : wf s -> wf (set_ticks v s). Proof. intros. wfs. tauto. Qed.
Lemma wf_errs v s : wf s -> wf (set_errs v s). Proof. intros. wfs. tauto. Qed.
Lemma wf_wF m85 v s : wf s -> wf (wF m85 v s).
Proof.
  intros W. apply wf_F; [exact W|]. pose proof (u8_range v). destruct m85.
  - apply land_byte; lia.
  - apply lor_byte; [apply land_byte; lia|lia].
Qed.
Lemma wf_wA v s : wf s -> wf (wA v s).
Proof. intros W. apply wf_A; [exact W|apply u8_range]. Qed.
Lemma wf_wr a v s : wf s -> wf (wr a v s).
Proof.
  intros W. unfold wr. destruct (inmem a); [|exact W]. apply wf_mem; [exact W|].
  intros x. unfold updm. destruct (x =? a); [apply u8_range|apply W].
Qed.
Lemma wf_put r v s : wf s -> wf (put r v s).
Proof.
  intros W. pose proof (u8_range v) as U.
  destruct r; cbn [put]; [apply wf_B|apply wf_C|apply wf_D|apply wf_E|apply wf_H|apply wf_L|apply wf_wr; exact W|apply wf_A]; assumption.
Qed.
Lemma wf_put2 p v s : wf s -> wf (put2 p v s).
Proof.
  intros W. pose proof (u8_range v) as U. pose proof (u8_range (v / 256)) as U2. pose proof (u16_range v) as U3.
  destruct p; cbn [put2]; unfold wBC, wDE, wHL, wSP, wAF.
  - apply wf_B; [apply wf_C; assumption|assumption].
  - apply wf_D; [apply wf_E; assumption|assumption].
  - apply wf_H; [apply wf_L; assumption|assumption].
  - apply wf_SP; assumption.
  - apply wf_A; [apply wf_F; assumption|assumption].
Qed.
Lemma wf_push2 lim ipc v s : wf s -> wf (push2 lim ipc v s).
Proof.
  intros W. rewrite push2_eq. unfold pushed. apply wf_errs. apply wf_SP; [|apply w_range]. apply wf_mem; [exact W|].
  intros x. unfold updm. destruct (x =? _); [apply u8_range|]. destruct (x =? _); [apply u8_range|apply W].
Qed.
Lemma wf_fetch s : wf s -> wf (snd (fetch s)) /\ 0 <= fst (fetch s) < 256.
Proof. intros W. split; [apply wf_set_PC; [apply mod65536|exact W]|apply W]. Qed.
Lemma wf_fetch16 s : wf s -> wf (snd (fetch16 s)) /\ 0 <= fst (fetch16 s) < 65536.
Proof.
  intros W. unfold fetch16, fetch. cbn [snd fst]. cbn [mem PC set_PC]. split.
  - apply wf_set_PC; [apply mod65536|]. apply wf_set_PC; [apply mod65536|exact W].
  - assert (Rm : forall a, 0 <= mem s a < 256) by apply W. pose proof (Rm (PC s)). pose proof (Rm ((PC s + 1) mod 65536)). lia.
Qed.
Lemma wf_add8 m85 v c d s : wf s -> wf (add8 m85 v c d s).
Proof. intros W. unfold add8. apply wf_wF, wf_wA, W. Qed.
Lemma wf_sub8 m85 v c d s : wf s -> wf (sub8 m85 v c d s).
Proof. intros W. unfold sub8. apply wf_wF. destruct d; [exact W|apply wf_wA, W]. Qed.
Lemma wf_alu m85 k v s : wf s -> wf (alu_op m85 k v s).
Proof.
  intros W. destruct k; cbn [alu_op];
    first [apply wf_add8; exact W|apply wf_sub8; exact W|unfold ana, ora, xra; apply wf_wF, wf_wA, W].
Qed.
Lemma wf_PC v s : wf s -> 0 <= v < 65536 -> wf (set_PC v s).
Proof. intros. apply wf_set_PC; assumption. Qed.
Lemma wf_pop2 dum s : wf s -> wf (snd (pop2 dum s)) /\ 0 <= fst (pop2 dum s) < 65536.
Proof.
  intros W. destruct (pop2_val dum s W) as [s2 [F2 [E2 [R2 [P2 W2]]]]]. rewrite F2. split; assumption.
Qed.
Lemma rst_range c : 0 <= Z.land c 40 < 65536.
Proof.
  change 40 with (Z.land (Z.ones 6) 40). rewrite Z.land_assoc, Z.land_ones by lia.
  pose proof (Z.mod_pos_bound c (2 ^ 6) ltac:(lia)) as Hc.
  pose proof (land_byte (c mod 2 ^ 6) 40 ltac:(lia) ltac:(lia)). lia.
Qed.
Lemma wf_run m85 lim dum ipc c o s : wf s -> wf (fst (run m85 lim dum ipc c o s)).
Proof.
  intros W. pose proof (wf_fetch s W) as WF. pose proof (wf_fetch16 s W) as WF16. pose proof (wf_pop2 dum s W) as WP.
  destruct (fetch s) as [v1 t1] eqn:E1. destruct (fetch16 s) as [v2 t2] eqn:E2. destruct (pop2 dum s) as [v3 t3] eqn:E3.
  cbn [fst snd] in *. destruct WF as [W1 R1]. destruct WF16 as [W2 R2]. destruct WP as [W3 R3].
  destruct o; cbn [run fst]; rewrite ?E1, ?E2, ?E3; try exact W; try assumption.
  - apply wf_put, W.
  - apply wf_put, W1.
  - apply wf_put2, W2.
  - apply wf_wA, W2.
  - apply wf_wr, W2.
  - apply (wf_put2 pH), W2.
  - apply wf_wr, wf_wr, W2.
  - apply wf_wA, W.
  - apply wf_wr, W.
  - apply (wf_put2 pD), (wf_put2 pH), W.
  - apply wf_push2, W.
  - apply wf_put2, W3.
  - apply (wf_put2 pH), wf_wr, wf_wr, W.
  - apply (wf_put2 pS), W.
  - destruct s0; [apply wf_alu, W|rewrite ?E1; apply wf_alu, W1].
  - unfold dad. apply wf_wF, (wf_put2 pH), W.
  - unfold inr. apply wf_wF, wf_put, W.
  - unfold dcr. apply wf_wF, wf_put, W.
  - unfold inx. destruct m85; [apply wf_wF|]; apply wf_put2, W.
  - unfold dcx. destruct m85; [apply wf_wF|]; apply wf_put2, W.
  - apply wf_wF, wf_wA, W.
  - apply wf_wF, wf_wA, W.
  - apply wf_wF, wf_wA, W.
  - apply wf_wF, wf_wA, W.
  - unfold daa. cbv zeta. match goal with |- wf (if ?b then _ else _) => destruct b; [exact W|apply wf_add8, W] end.
  - apply wf_wA, W.
  - apply wf_wF, W.
  - apply wf_wF, W.
  - apply wf_PC; assumption.
  - unfold jmp_if. rewrite E2. destruct (holds c0 s); [apply wf_tsh, wf_PC; assumption|exact W2].
  - apply wf_PC; [apply wf_push2, W2|exact R2].
  - unfold call_if. rewrite E2. destruct (holds c0 s); [apply wf_tsh, wf_PC; [apply wf_push2, W2|exact R2]|exact W2].
  - apply wf_PC; assumption.
  - unfold ret_if. rewrite E3. destruct (holds c0 s); [apply wf_tsh, wf_PC; assumption|exact W].
  - apply wf_PC; [apply wf_push2, W|]. apply rst_range.
  - apply wf_PC; [exact W|apply HL_range, W].
  - unfold arhl. apply wf_wF, (wf_put2 pH), W.
  - unfold rdel. apply wf_wF, (wf_put2 pD), W.
  - unfold dsub. apply wf_wF, (wf_put2 pH), W.
  - unfold jmp_if. rewrite E2. destruct (Z.testbit (F s) 5); [apply wf_tsh, wf_PC; assumption|exact W2].
  - unfold jmp_if. rewrite E2. destruct (negb (Z.testbit (F s) 5)); [apply wf_tsh, wf_PC; assumption|exact W2].
  - destruct (Z.testbit (F s) 1); [|exact W]. apply wf_tsh, wf_PC; [apply wf_push2, W|lia].
  - apply (wf_put2 pD), W1.
  - apply (wf_put2 pD), W1.
  - apply (wf_put2 pH), W.
  - apply wf_wr, wf_wr, W.
Qed.
Lemma wf_exec m85 lim dum hit s : wf s -> wf (fst (exec_inst m85 lim dum hit s)).
Proof.
  intros W. destruct hit; [apply wf_ticks, wf_tsh, W|]. rewrite exec_eq. cbn [fst]. unfold last_ticks. apply wf_ticks.
  apply wf_run, started_wf, W.
Qed.
