(** Restarts, push and pop, ends of memory, cycles at breakpoints. *)
From Verif Require Import Base I80Model I80Spec I80Spec2 I80Proofs I80Proofs2 I80Proofs3 I80Proofs4 I80Proofs5 I80Proofs6 I80Proofs7 I80Proofs8 I80Proofs9 I80Proofs10 I80Proofs11 I80Proofs12 I80Proofs13.

(** ** ADC, SBB, ANA *)
Lemma exec_adc m85 lim dum s v : wf s -> operand_of 1 (abs s) v ->
  let y := manual m85 (abs s) in
  same (abs (fst (exec_inst m85 lim dum false s)))
       (with_flags (fA y && negb (fC (abs s) && (v mod 16 =? 15))) (fC y && negb (fC (abs s) && (v =? 255))) y).
Proof.
  intros W O y. destruct (exec_alu m85 lim dum kADC v s W O) as [s2 [W2 [C2 [A2 [Rv [E1 E2]]]]]].
  unfold y. rewrite E1, E2, <- C2. exact (add8_dev m85 v s2 W2 Rv).
Qed.
Lemma exec_sbb m85 lim dum s v : wf s -> operand_of 3 (abs s) v ->
  let y := manual m85 (abs s) in
  same (abs (fst (exec_inst m85 lim dum false s)))
       (with_flags (fA y) (fC y && negb (fC (abs s) && (A s =? v))) y).
Proof.
  intros W O y. destruct (exec_alu m85 lim dum kSBB v s W O) as [s2 [W2 [C2 [A2 [Rv [E1 E2]]]]]].
  unfold y. rewrite E1, E2, <- C2, <- A2. exact (sub8_dev m85 v s2 W2 Rv).
Qed.
Lemma exec_ana m85 lim dum s v : wf s -> operand_of 4 (abs s) v ->
  let y := manual m85 (abs s) in
  same (abs (fst (exec_inst m85 lim dum false s))) (with_flags true (fC y) y).
Proof.
  intros W O y. destruct (exec_alu m85 lim dum kANA v s W O) as [s2 [W2 [C2 [A2 [Rv [E1 E2]]]]]].
  unfold y. rewrite E1, E2. exact (ana_dev m85 v s2 W2 Rv).
Qed.

(** ** RST *)
Lemma itab_rst m85 n : 0 <= n < 8 -> itab m85 (199 + 8 * n) = RST /\ Z.land (199 + 8 * n) 40 = 8 * (n - 2 * (n / 2 mod 2)).
Proof.
  intros H. pattern n. revert n H. apply (range_case 8). refine (nat_cases 8 _ _). cbn [seq].
  repeat (apply Forall_cons; [destruct m85; split; reflexivity|]). apply Forall_nil.
Qed.
Lemma abs_pc a t : abs (set_PC a t) = setpc a (abs t).
Proof. reflexivity. Qed.
Lemma exec_rst m85 lim dum s n : wf s -> 0 <= n < 8 -> mem s (PC s) = 199 + 8 * n ->
  same (abs (fst (exec_inst m85 lim dum false s))) (setpc (8 * (n - 2 * (n / 2 mod 2))) (push (w (PC s + 1)) (abs s))).
Proof.
  intros W Hn Hc. rewrite exec_eq. cbn [fst]. rewrite abs_last_ticks, Hc. destruct (itab_rst m85 n Hn) as [E1 E2].
  rewrite E1. cbn [run fst]. rewrite E2.
  rewrite abs_pc.
  eapply same_eq; [apply same_setpc, push2_same; apply started_wf, W|]. reflexivity.
Qed.

(** ** PUSH, POP *)
Lemma even_of p : 0 <= p < 3 -> p = 0 \/ p = 1 \/ p = 2. Proof. lia. Qed.
Lemma exec_push m85 lim dum s p : wf s -> 0 <= p < 3 -> mem s (PC s) = 197 + 16 * p ->
  same (abs (fst (exec_inst m85 lim dum false s))) (next 1 (push (pairv p (abs s)) (abs s))).
Proof.
  intros W Hp Hc. destruct (even_of p Hp) as [-> | [-> | ->]];
  (eapply same_eq; [apply exec_refines; [exact W|undefd Hc|eapply (not_differs m85 s); [exact Hc|lia..]]|]; code Hc; reflexivity).
Qed.
Lemma exec_pop m85 lim dum s p : wf s -> 0 <= p < 3 -> mem s (PC s) = 193 + 16 * p ->
  same (abs (fst (exec_inst m85 lim dum false s))) (next 1 (setpair p (popv (abs s)) (pop (abs s)))).
Proof.
  intros W Hp Hc. destruct (even_of p Hp) as [-> | [-> | ->]];
  (eapply same_eq; [apply exec_refines; [exact W|undefd Hc|eapply (not_differs m85 s); [exact Hc|lia..]]|]; code Hc; reflexivity).
Qed.
Lemma pairv_range s p : wf s -> 0 <= p < 3 -> 0 <= pairv p (abs s) < 65536.
Proof.
  intros W Hp. destruct (even_of p Hp) as [-> | [-> | ->]]; [apply (BC_range s W)|apply (DE_range s W)|apply (HL_range s W)].
Qed.
Lemma pairv_setpair p v x : 0 <= p < 3 -> 0 <= v < 65536 -> pairv p (setpair p v x) = v.
Proof.
  intros Hp Hv. pose proof (Z.div_mod v 256 ltac:(lia)).
  assert (E : pairv p (setpair p v x) = 256 * (v / 256) + v mod 256) by (destruct (even_of p Hp) as [-> | [-> | ->]]; reflexivity).
  rewrite E. lia.
Qed.
Lemma same_pairv p x y : 0 <= p < 3 -> same x y -> pairv p x = pairv p y.
Proof.
  intros Hp S. destruct S as [S1 _]. unfold pairv. replace (p =? 3) with false by lia. rewrite !S1 by lia. reflexivity.
Qed.
Lemma same_sp x y : same x y -> sp x = sp y. Proof. intros S. apply S. Qed.
Lemma same_pc x y : same x y -> pc x = pc y. Proof. intros S. apply S. Qed.
Lemma same_mm x y a : same x y -> mm x a = mm y a. Proof. intros S. apply S. Qed.
Lemma push_pop m85 lim dum dum2 s t p q : wf s -> wf t -> 0 <= p < 3 -> 0 <= q < 3 ->
  mem s (PC s) = 197 + 16 * p -> mem t (PC t) = 193 + 16 * q ->
  let s' := fst (exec_inst m85 lim dum false s) in let t' := fst (exec_inst m85 lim dum2 false t) in
  SP t = SP s' -> mem t (SP s') = mem s' (SP s') -> mem t (w (SP s' + 1)) = mem s' (w (SP s' + 1)) ->
  pairv q (abs t') = pairv p (abs s) /\ SP t' = SP s.
Proof.
  intros W Wt Hp Hq Hc Hd s' t' Hs H1 H2.
  pose proof (exec_push m85 lim dum s p W Hp Hc) as Sp. pose proof (exec_pop m85 lim dum2 t q Wt Hq Hd) as Sq.
  fold s' in Sp. fold t' in Sq. pose proof (pairv_range s p W Hp) as Rp.
  destruct (pushed_word (pairv p (abs s)) (abs s) Rp) as [P1 [P2 _]].
  assert (Es : SP s' = w (SP s - 2)) by (exact (eq_trans (same_sp _ _ Sp) P2)).
  assert (Ev : popv (abs t) = pairv p (abs s)).
  { rewrite <- P1. change (popv (push (pairv p (abs s)) (abs s))) with (popv (next 1 (push (pairv p (abs s)) (abs s)))).
    rewrite <- (same_popv _ _ Sp). unfold popv. change (sp (abs t)) with (SP t). change (sp (abs s')) with (SP s').
    change (mm (abs t)) with (mem t). change (mm (abs s')) with (mem s'). rewrite Hs, H1, H2. reflexivity. }
  rewrite Ev in Sq. split.
  - rewrite (same_pairv q _ _ Hq Sq). rewrite pairv_next. apply pairv_setpair; assumption.
  - assert (E2 : SP t' = w (SP t + 2)).
    { refine (eq_trans (same_sp _ _ Sq) _). destruct (even_of q Hq) as [-> | [-> | ->]]; reflexivity. }
    rewrite E2, Hs, Es, w_w. replace (SP s - 2 + 2) with (SP s) by lia. apply w_id, W.
Qed.
Lemma call_ret m85 lim dum dum2 s t : wf s -> wf t -> calls_now m85 s = true -> mem t (PC t) = 201 ->
  let s' := fst (exec_inst m85 lim dum false s) in let t' := fst (exec_inst m85 lim dum2 false t) in
  SP t = SP s' -> mem t (SP s') = mem s' (SP s') -> mem t (w (SP s' + 1)) = mem s' (w (SP s' + 1)) ->
  PC t' = w (PC s + oplen (itab m85 (mem s (PC s)))) /\ SP t' = SP s.
Proof.
  intros W Wt Hc Hd s' t' Hs H1 H2.
  destruct (exec_calls m85 lim dum s W Hc) as [C1 C2]. fold s' in C1, C2.
  pose proof (exec_ret m85 lim dum2 t Wt Hd) as Sr. fold t' in Sr.
  assert (Ev : popv (abs t) = popv (abs s')).
  { unfold popv. change (sp (abs t)) with (SP t). change (sp (abs s')) with (SP s').
    change (mm (abs t)) with (mem t). change (mm (abs s')) with (mem s'). rewrite Hs, H1, H2. reflexivity. }
  split.
  - refine (eq_trans (same_pc _ _ Sr) _). cbn [setpc pc]. rewrite Ev. exact C1.
  - assert (E2 : SP t' = w (SP t + 2)) by exact (same_sp _ _ Sr).
    rewrite E2, Hs, C2, w_w. replace (SP s - 2 + 2) with (SP s) by lia. apply w_id, W.
Qed.

(** ** The end of memory *)
Lemma wr_out a v s : 65536 <= a -> wr a v s = s.
Proof. intros H. unfold wr, inmem. replace ((0 <=? a) && (a <? 65536)) with false by lia. reflexivity. Qed.
Lemma rd_out dum a s : 65536 <= a -> rd dum s a = dum.
Proof. intros H. unfold rd, inmem. replace ((0 <=? a) && (a <? 65536)) with false by lia. reflexivity. Qed.
Lemma word_parts m h : 0 <= m < 256 -> u8 (m + 256 * h) = m /\ (m + 256 * h) / 256 = h.
Proof.
  intros Hm. split.
  - unfold u8. rewrite Z.mul_comm, Z_mod_plus_full. apply Z.mod_small, Hm.
  - rewrite Z.mul_comm, Z.div_add by lia. rewrite Z.div_small by exact Hm. lia.
Qed.
Lemma exec_shld_end m85 lim dum s : wf s -> mem s (PC s) = 34 -> operand16 (abs s) = 65535 ->
  same (abs (fst (exec_inst m85 lim dum false s))) (next 3 (setm 65535 (L s) (abs s))).
Proof.
  intros W Hc Ho. rewrite exec_eq. cbn [fst]. rewrite abs_last_ticks, Hc.
  assert (E : itab m85 34 = SHLD) by (destruct m85; reflexivity). rewrite E. cbn [run fst].
  destruct (fetch16_next s (started s) W (started_wf s W) (started_abs s)) as [s2 [F2 [E2 [W2 R2]]]]. rewrite F2, Ho.
  rewrite (wr_out (65535 + 1)) by lia. pose proof (wf_byte s W) as Rg.
  assert (El : L s2 = L s) by (change (R (abs s2) 5 = R (abs s) 5); rewrite E2; reflexivity). rewrite El.
  eapply same_eq; [apply setm_same; [lia|apply Rg|rewrite E2; apply same_refl]|]. reflexivity.
Qed.
Lemma exec_lhld_end m85 lim dum s : wf s -> mem s (PC s) = 42 -> operand16 (abs s) = 65535 ->
  same (abs (fst (exec_inst m85 lim dum false s))) (next 3 (setr 4 (u8 dum) (setr 5 (mem s 65535) (abs s)))).
Proof.
  intros W Hc Ho. rewrite exec_eq. cbn [fst]. rewrite abs_last_ticks, Hc. assert (Rm : forall a, 0 <= mem s a < 256) by apply W.
  assert (E : itab m85 42 = LHLD) by (destruct m85; reflexivity). rewrite E. cbn [run fst].
  destruct (fetch16_next s (started s) W (started_wf s W) (started_abs s)) as [s2 [F2 [E2 [W2 R2]]]]. rewrite F2, Ho.
  unfold rd16. rewrite (rd_out dum (65535 + 1)) by lia. rewrite rd_in by lia.
  assert (Em : mem s2 = mem s) by exact (mem_abs _ _ _ E2). rewrite Em.
  unfold wHL. destruct (word_parts (mem s 65535) dum (Rm 65535)) as [P1 P2]. rewrite P1, P2.
  assert (Q : same (setr 4 (u8 dum) (setr 5 (mem s 65535) (abs s2))) (next 3 (setr 4 (u8 dum) (setr 5 (mem s 65535) (abs s))))).
  { rewrite E2. apply same_refl. }
  eapply same_trans; [|exact Q]. parts; reflexivity.
Qed.
Lemma exec_xthl_end m85 lim dum s : wf s -> mem s (PC s) = 227 -> SP s = 65535 ->
  same (abs (fst (exec_inst m85 lim dum false s))) (next 1 (setr 4 (u8 dum) (setr 5 (mem s 65535) (setm 65535 (L s) (abs s))))).
Proof.
  intros W Hc Hs. rewrite exec_eq. cbn [fst]. rewrite abs_last_ticks, Hc. assert (Rm : forall a, 0 <= mem s a < 256) by apply W.
  assert (E : itab m85 227 = XTHL) by (destruct m85; reflexivity). rewrite E. cbn [run fst].
  change (SP (started s)) with (SP s). rewrite Hs. rewrite (wr_out (65535 + 1)) by lia.
  unfold rd16. rewrite (rd_out dum (65535 + 1)) by lia. rewrite rd_in by lia. rewrite wr_in by lia.
  change (mem (started s)) with (mem s). change (L (started s)) with (L s).
  unfold wHL. destruct (word_parts (mem s 65535) dum (Rm 65535)) as [P1 P2]. rewrite P1, P2.
  assert (Rl : 0 <= L s < 256) by apply W. rewrite (u8_id (L s) Rl). parts; reflexivity.
Qed.

(** ** Cycles *)
Lemma untaken_cycles m85 c : 0 <= c < 256 -> ~ undefined_code c -> sim_cycles m85 c false = cycles_dev m85 c false.
Proof.
  intros Hc N. pose proof (cyc_all m85 false c Hc) as K. unfold cyc_ok in K. cbn [andb] in K. rewrite orb_false_r in K.
  apply orb_true_iff in K. destruct K as [K | K]; [exfalso; apply N, undef_spec, K|]. apply Z.eqb_eq in K. exact K.
Qed.
Lemma exec_hit m85 lim dum s : wf s -> ~ undefined_code (mem s (PC s)) ->
  let s' := fst (exec_inst m85 lim dum true s) in
  snd (exec_inst m85 lim dum true s) = BREAKPOINT /\ abs s' = abs s /\ F s' = F s /\ errs s' = errs s /\
  ticks s' = ticks s + cycles_dev m85 (mem s (PC s)) false - 1.
Proof.
  intros W N s'. split; [reflexivity|]. split; [reflexivity|]. split; [reflexivity|]. split; [reflexivity|].
  assert (Hc : 0 <= mem s (PC s) < 256) by apply W.
  rewrite <- (untaken_cycles m85 _ Hc N). unfold s'. cbn [exec_inst fst last_ticks ticks set_ticks]. unfold exec_inst, last_ticks, sim_cycles.
  cbn [fst ticks set_ticks set_tsh mem tsh]. lia.
Qed.
Lemma exec_self m85 lim dum s : wf s -> mem s (PC s) = 119 -> HL s = PC s -> ~ undefined_code (A s) ->
  let s' := fst (exec_inst m85 lim dum false s) in
  mem s' (PC s) = A s /\ ticks s' - ticks s = cycles_dev m85 (A s) false.
Proof.
  intros W Hc Hh N s'. assert (Ra : 0 <= A s < 256) by apply W. pose proof (HL_range s W) as Rh.
  unfold s'. rewrite exec_eq. cbn [fst]. rewrite Hc.
  assert (E : itab m85 119 = MOV rM rA) by (destruct m85; reflexivity). rewrite E. cbn [run fst get put].
  change (HL (started s)) with (HL s). rewrite wr_in by exact Rh. change (A (started s)) with (A s). rewrite (u8_id _ Ra).
  change (mem (started s)) with (mem s).
  set (r := set_mem (updm (mem s) (HL s) (A s)) (started s)).
  assert (Em : mem r (PC s) = A s).
  { unfold r. cbn [mem set_mem updm]. unfold updm. rewrite Hh, Z.eqb_refl. reflexivity. }
  split; [exact Em|]. unfold last_ticks. cbn [ticks set_ticks]. rewrite Em. rewrite <- (untaken_cycles m85 _ Ra N). unfold sim_cycles.
  change (tsh r) with 0. change (ticks r) with (ticks s + 1). lia.
Qed.

(** ** All histories *)
Lemma reaches_wf m85 lim s t : wf s -> reaches m85 lim s t -> wf t.
Proof. intros W R. induction R; [exact W|]. apply wf_exec. apply IHR. exact W. Qed.
