(** MCS-48: the invariant, and what one instruction leaves unchanged. *)
From Verif Require Import Base M48Model M48Spec M48Proofs M48Proofs2 M48Proofs3 M48Proofs4 M48Proofs5.

Lemma selmb_ok c : 0 <= c < 256 -> match itab_at c with SELMB v => v = 0 \/ v = 1 | _ => True end.
Proof.
  intros Hc. assert (X := sweep 256 (fun c => match itab_at c with SELMB v => (v =? 0) || (v =? 1) | _ => true end) ltac:(vm_compute; reflexivity) c Hc).
  cbv beta in X. destruct (itab_at c); try exact I. apply orb_true_iff in X. destruct X as [X | X]; apply Z.eqb_eq in X; tauto.
Qed.
Lemma get_wf h jk x s : wfh h -> wf s -> 0 <= jk < 256 -> wf (snd (get h jk x s)).
Proof. intros H W J. destruct x; cbn [get]; [exact W|]. rewrite fetch_eq by exact W. apply wf_fetched, W. Qed.
Lemma wf_add v c s : wf s -> wf (add v c s). Proof. intros W. apply wf_wA, wf_wF, W. Qed.
Lemma wf_pext_in p s : wf s -> wf (snd (pext_in p s)).
Proof. intros W. unfold pext_in. cbn [snd]. apply wf_set_low, wf_set_dir, W. Qed.
Lemma wf_set_tmode m s : wf s -> wf (set_tmode m s).
Proof.
  intros W. unfold set_tmode. assert (0 <= m mod 3 < 3) by (apply Z.mod_pos_bound; lia).
  destruct (mode (set_mode (m mod 3) s) =? 0); [|apply wf_set_pre; [|lia] ]; apply wf_set_mode; assumption.
Qed.
Lemma page_r p : 0 <= p < 4096 -> 0 <= Z.land p 3840 /\ Z.land p 3840 <= 3840.
Proof. intros. rewrite page_eq by assumption. assert (X := page_range p H). lia. Qed.
Lemma wf_exec h jk ipc c s : wfh h -> wf s -> 0 <= jk < 256 -> 0 <= c < 256 -> wf (exec h jk ipc c (itab_at c) s).
Proof.
  intros H W J Hc. assert (SM := selmb_ok c Hc). assert (W2 := wf_fetched h s W).
  assert (HP : 0 <= PC s < 4096) by apply W. assert (HA : 0 <= A s < 256) by apply W.
  destruct (itab_at c) eqn:EO; unfold exec; try exact W.
  - assert (G := get_wf h jk x s H W J). destruct (get h jk x s) as [v t]. apply wf_add, G.
  - assert (G := get_wf h jk x s H W J). destruct (get h jk x s) as [v t]. apply wf_wA, G.
  - assert (G := get_wf h jk x s H W J). destruct (get h jk x s) as [v t]. apply wf_wA, G.
  - apply wf_wr, W.
  - rewrite fetch_eq by exact W. apply wf_wr, W2.
  - apply wf_wr, W.
  - apply wf_wr, W.
  - cbv zeta. apply wf_wr, wf_wA, W.
  - cbv zeta. apply wf_wr, wf_wA, W.
  - apply wf_wA, W.
  - apply wf_wA, W.
  - apply wf_wA, W.
  - apply wf_wA, W.
  - apply wf_wA, W.
  - apply wf_wF, wf_wA, W.
  - apply wf_wA, W.
  - apply wf_wA, W.
  - apply wf_wF, wf_wA, W.
  - apply wf_wF, wf_wA, W.
  - apply wf_wF, W.
  - apply wf_wF, W.
  - apply wf_wF, W.
  - apply wf_wF, W.
  - apply wf_set_f1; [exact W|tauto].
  - apply wf_set_f1; [exact W|]. assert (E : f1 s = 0 \/ f1 s = 1) by apply W. destruct E as [E | E]; rewrite E; vm_compute; tauto.
  - apply wf_wA, W.
  - apply wf_wF, W.
  - apply wf_wF, W.
  - apply wf_set_mb; [exact W|exact SM].
  - cbv zeta. apply wf_wA, wf_latch, W.
  - cbv zeta. apply wf_latch, wf_xram; [exact W|exact HA].
  - cbv zeta. destruct (inner h <=? _); [apply wf_latch|]; apply wf_wA, W.
  - cbv zeta. destruct (inner h <=? _); [apply wf_latch|]; apply wf_wA, W.
  - rewrite target_eq by assumption. apply wf_set_PC; [exact W2|]. apply (target_range h c s H Hc).
  - rewrite target_eq by assumption. apply wf_set_PC; [apply wf_push, W2|]. apply (target_range h c s H Hc).
  - apply wf_pop; assumption.
  - apply wf_pop; [assumption|]. apply wf_set_isr, W.
  - cbv zeta. apply wf_set_PC; [exact W|]. rewrite page_eq by exact HP. rewrite lor_page by (apply rom_range, H).
    assert (X := page_range _ HP). match goal with |- context [rom h ?a] => assert (Y := rom_range h a H) end. lia.
  - unfold djnz. rewrite fetch_eq by exact W. cbv zeta. apply wf_set_PC; [apply wf_set_R, W2|].
    assert (HP2 : 0 <= PC (fetched h s) < 4096) by apply W2. change (PC (set_R ?n ?v ?t)) with (PC t).
    rewrite page_eq by exact HP2. assert (X := page_range _ HP2). assert (Y := rom_range h (PC s) H). lia.
  - apply wf_jif; assumption.
  - apply wf_set_tfl, wf_jif; assumption.
  - apply wf_jif; assumption.
  - apply wf_jif; assumption.
  - apply wf_jif; assumption.
  - apply wf_jif; assumption.
  - apply wf_jif; assumption.
  - apply wf_jif; assumption.
  - apply wf_jif; assumption.
  - apply wf_jif; assumption.
  - apply wf_jif; assumption.
  - apply wf_jif; assumption.
  - apply wf_jif; assumption.
  - apply wf_set_ene; tauto.
  - apply wf_set_ene; tauto.
  - apply wf_set_ien; tauto.
  - apply wf_set_irq; [apply wf_set_ovf, wf_set_ien; tauto|tauto].
  - apply wf_wA, W.
  - apply wf_set_tmr; [exact W|]. rewrite land255. apply m256.
  - apply wf_set_tmode, W.
  - apply wf_set_tmode, W.
  - apply wf_set_tmode, W.
  - apply wf_latch, W.
  - apply wf_wA, W.
  - rewrite fetch_eq by exact W. apply wf_latch, W2.
  - rewrite fetch_eq by exact W. apply wf_latch, W2.
  - apply wf_wA, W.
  - apply wf_wr_port, W.
  - rewrite fetch_eq by exact W. apply wf_wr_port, W2.
  - rewrite fetch_eq by exact W. apply wf_wr_port, W2.
  - assert (G := wf_pext_in p s W). destruct (pext_in p s) as [v t]. apply wf_wA, G.
  - apply wf_pext_out, W.
  - apply wf_pext_out, W.
  - apply wf_pext_out, W.
Qed.

(** the result of exec_inst, by the code at PC *)
Definition code (h : chip) (s : cpu) : Z := rom h (PC s).
Lemma exec_inst_eq h jk s : wf s -> exec_inst h jk s =
  match itab_at (code h s) with
  | Invalid => (INV, nth (Z.to_nat (code h s)) tick_tab20 0, set_PC (PC s) (fetched h s))
  | NoMethod => (NOT_DONE, nth (Z.to_nat (code h s)) tick_tab20 0, set_PC (PC s) (fetched h s))
  | _ => (GO, nth (Z.to_nat (code h s)) tick_tab20 0, exec h jk (PC s) (code h s) (itab_at (code h s)) (fetched h s))
  end.
Proof. intros W. unfold exec_inst. rewrite fetch_eq by exact W. cbv zeta. change (nth (Z.to_nat (rom h (PC s))) itab Invalid) with (itab_at (code h s)). destruct (itab_at (code h s)); reflexivity. Qed.
Lemma invalid_sem h jk c x : 0 <= c < 256 -> itab_at c = Invalid -> sem h jk c x = None.
Proof. intros Hc E. rewrite <- tr_sem by exact Hc. rewrite E. reflexivity. Qed.
Lemma range_all (n : nat) (P : Z -> Prop) : Forall P (map Z.of_nat (seq 0 n)) -> forall c, 0 <= c < Z.of_nat n -> P c.
Proof. intros F c H. rewrite Forall_forall in F. apply F. apply in_map_iff. exists (Z.to_nat c). split; [lia|]. apply in_seq. lia. Qed.
Lemma valid_sem h jk c x : 0 <= c < 256 -> itab_at c <> Invalid -> sem h jk c x <> None.
Proof.
  intros Hc. revert c Hc. apply (range_all 256 (fun c => itab_at c <> Invalid -> sem h jk c x <> None)). repeat (apply Forall_cons; [first [intros _; discriminate|intros E; exfalso; apply E; reflexivity]|]). apply Forall_nil.
Qed.
Lemma wf_exec_inst h jk s : wfh h -> wf s -> 0 <= jk < 256 -> wf (snd (exec_inst h jk s)).
Proof.
  intros H W J. rewrite exec_inst_eq by exact W. assert (HC : 0 <= code h s < 256) by apply rom_range, H.
  assert (W2 := wf_fetched h s W). assert (E := wf_exec h jk (PC s) (code h s) (fetched h s) H W2 J HC).
  assert (P : wf (set_PC (PC s) (fetched h s))) by (apply wf_set_PC; [exact W2|apply W]).
  destruct (itab_at (code h s)); cbn [snd]; first [exact P|exact E].
Qed.

(** ** What is not changed *)
(** timer, interrupt and input pin state *)
Definition side (s : cpu) := (tmr s, pre16 s, pre s, mode s, tfl s, (ien s, ovf s, irq s, ene s, isr s), (i1 s, i2 s, busin s, epin s, t0 s, t1 s, int s), ticks s).
Lemma side_latch v s : side (latch v s) = side s. Proof. reflexivity. Qed.
Lemma side_fetched h s : side (fetched h s) = side s.
Proof. unfold fetched. cbv zeta. match goal with |- side (if ?b then _ else _) = _ => destruct b end; reflexivity. Qed.
Lemma side_wr_ram h a v s : side (wr_ram h a v s) = side s. Proof. unfold wr_ram. destruct (a <? rs h); reflexivity. Qed.
Lemma side_wr h l v s : side (wr h l v s) = side s. Proof. destruct l; [reflexivity|apply side_wr_ram]. Qed.
Lemma side_check ipc q s : side (check_overflow ipc q s) = side s.
Proof. unfold check_overflow. cbv zeta. match goal with |- side (if ?b then _ else _) = _ => destruct b end; reflexivity. Qed.
Lemma side_wF v s : side (wF v s) = side s. Proof. reflexivity. Qed.
Lemma side_push h ipc f s : side (push h ipc f s) = side s.
Proof. unfold push. cbv zeta. rewrite side_check, side_wF, !side_wr_ram. reflexivity. Qed.
Lemma side_pop h jk f s : side (pop h jk f s) = side s. Proof. reflexivity. Qed.
Lemma side_jif h c s : wf s -> side (jif h c s) = side s.
Proof. intros W. unfold jif. rewrite fetch_eq by exact W. destruct c; apply side_fetched. Qed.
Lemma side_get h jk x s : wf s -> side (snd (get h jk x s)) = side s.
Proof. intros W. destruct x; cbn [get]; [reflexivity|]. rewrite fetch_eq by exact W. apply side_fetched. Qed.
Lemma side_wr_port p v s : side (wr_port p v s) = side s. Proof. unfold wr_port. destruct (p =? 1); reflexivity. Qed.
(** instructions for timer and interrupts *)
Definition special (o : op) : bool :=
  match o with JTF | ENI | DISI | ENTCNTI | DISTCNTI | MOVTA | STRTCNT | STRTT | STOPTCNT | RETR => true | _ => false end.
Lemma side_exec h jk ipc c o s : wfh h -> wf s -> 0 <= c < 256 -> special o = false -> side (exec h jk ipc c o s) = side s.
Proof.
  intros H W Hc N. assert (F := side_fetched h s).
  destruct o; try discriminate N; unfold exec; try reflexivity; try (apply side_jif, W).
  - assert (G := side_get h jk x s W). destruct (get h jk x s) as [v t]. exact G.
  - assert (G := side_get h jk x s W). destruct (get h jk x s) as [v t]. exact G.
  - assert (G := side_get h jk x s W). destruct (get h jk x s) as [v t]. exact G.
  - apply side_wr.
  - rewrite fetch_eq by exact W. rewrite side_wr. exact F.
  - apply side_wr.
  - apply side_wr.
  - cbv zeta. rewrite side_wr. reflexivity.
  - cbv zeta. rewrite side_wr. reflexivity.
  - cbv zeta. match goal with |- side (if ?b then _ else _) = _ => destruct b end; reflexivity.
  - cbv zeta. match goal with |- side (if ?b then _ else _) = _ => destruct b end; reflexivity.
  - rewrite target_eq by assumption. exact F.
  - rewrite target_eq by assumption. change (side (set_PC ?v ?t)) with (side t). rewrite side_push. exact F.
  - unfold djnz. rewrite fetch_eq by exact W. exact F.
  - rewrite fetch_eq by exact W. exact F.
  - rewrite fetch_eq by exact W. exact F.
  - apply side_wr_port.
  - rewrite fetch_eq by exact W. rewrite side_wr_port. exact F.
  - rewrite fetch_eq by exact W. rewrite side_wr_port. exact F.
Qed.
Lemma side_exec_inst h jk s : wfh h -> wf s -> special (itab_at (code h s)) = false -> side (snd (exec_inst h jk s)) = side s.
Proof.
  intros H W N. rewrite exec_inst_eq by exact W. assert (HC : 0 <= code h s < 256) by apply rom_range, H.
  assert (E := side_exec h jk (PC s) (code h s) (itab_at (code h s)) (fetched h s) H (wf_fetched h s W) HC N). rewrite side_fetched in E.
  destruct (itab_at (code h s)); cbn [snd]; first [exact E|apply side_fetched].
Qed.
(** in every case *)
Lemma irq_exec_inst h jk s : wfh h -> wf s -> irq s = 0 -> irq (snd (exec_inst h jk s)) = 0.
Proof.
  intros H W Z. destruct (special (itab_at (code h s))) eqn:E.
  - rewrite exec_inst_eq by exact W. assert (F := side_fetched h s).
    assert (FI : irq (fetched h s) = 0) by (rewrite <- Z; exact (f_equal (fun p => snd (fst (fst (snd (fst (fst p)))))) F)).
    assert (W2 := wf_fetched h s W).
    destruct (itab_at (code h s)); try discriminate E; cbn [snd exec]; try exact FI; try reflexivity.
    + change (irq (set_tfl false ?t)) with (irq t). rewrite <- FI. exact (f_equal (fun p => snd (fst (fst (snd (fst (fst p)))))) (side_jif h (tfl (fetched h s)) (fetched h s) W2)).
  - rewrite <- Z. exact (f_equal (fun p => snd (fst (fst (snd (fst (fst p)))))) (side_exec_inst h jk s H W E)).
Qed.

(** ** The timer *)
Definition phase (s : cpu) : Z := 16 * pre s + pre16 s.
(** everything but the timer *)
Definition rest (s : cpu) := (A s, psw s, mb s, f1 s, PC s, ram s, xram s, (mode s, ien s, irq s, ene s, isr s), (p1 s, p2 s, i1 s, i2 s, busin s, busout s, odr s, dir s, epin s, t0 s, t1 s, int s), ticks s, errs s).
Lemma do_overflow_rest s : rest (do_overflow s) = rest s /\ tmr (do_overflow s) = tmr s /\ phase (do_overflow s) = phase s /\ pre16 (do_overflow s) = pre16 s /\ pre (do_overflow s) = pre s /\ tfl (do_overflow s) = true.
Proof. unfold do_overflow. cbv zeta. destruct (ien (set_tfl true s) =? 0); repeat split. Qed.
Lemma do_timer_eq c s : rest (do_timer c s) = rest s /\ tmr (do_timer c s) = (tmr s + c) mod 256 /\ pre16 (do_timer c s) = pre16 s /\ pre (do_timer c s) = pre s /\ tfl (do_timer c s) = (tfl s || (256 <=? tmr s + c)).
Proof.
  unfold do_timer. cbv zeta. destruct (do_overflow_rest s) as (R1 & R2 & R3 & R4 & R5 & R6).
  change (rest (set_tmr ?v ?t)) with (rest t). change (tmr (set_tmr ?v ?t)) with v. change (pre16 (set_tmr ?v ?t)) with (pre16 t). change (pre (set_tmr ?v ?t)) with (pre t). change (tfl (set_tmr ?v ?t)) with (tfl t).
  rewrite land255. destruct (255 <? tmr s + c) eqn:E.
  - rewrite R1, R4, R5, R6. apply Z.ltb_lt in E. replace (256 <=? tmr s + c) with true by (symmetry; apply Z.leb_le; lia). rewrite orb_true_r. repeat split.
  - apply Z.ltb_ge in E. replace (256 <=? tmr s + c) with false by (symmetry; apply Z.leb_gt; lia). rewrite orb_false_r. repeat split.
Qed.
(** one clock tick *)
Lemma tick1_eq s : wf s -> rest (tick1 s) = rest s /\ phase (tick1 s) = (phase s + 1) mod 512 /\
  0 <= pre (tick1 s) < 32 /\ 0 <= pre16 (tick1 s) < 16 /\
  tmr (tick1 s) = (if mode s =? 2 then (tmr s + (phase s + 1) / 512) mod 256 else tmr s) /\
  tfl (tick1 s) = (tfl s || ((mode s =? 2) && (256 <=? tmr s + (phase s + 1) / 512))).
Proof.
  intros W. assert (Q : 0 <= pre16 s < 16) by apply W. assert (P : 0 <= pre s < 32) by apply W. assert (TM : 0 <= tmr s < 256) by apply W.
  unfold tick1. cbv zeta.
  assert (E1 : (pre16 s + 1) / 16 = if pre16 s =? 15 then 1 else 0).
  { destruct (pre16 s =? 15) eqn:E; [apply Z.eqb_eq in E; rewrite E; reflexivity|]. apply Z.eqb_neq in E. apply Z.div_small. lia. }
  rewrite E1. unfold phase. destruct (pre16 s =? 15) eqn:E.
  - apply Z.eqb_eq in E. rewrite E. change (1 =? 0) with false. cbv iota. change ((15 + 1) mod 16) with 0. change (15 + 1) with 16.
    assert (E2 : (pre s + 1) / 32 = if pre s =? 31 then 1 else 0).
    { destruct (pre s =? 31) eqn:E3; [apply Z.eqb_eq in E3; rewrite E3; reflexivity|]. apply Z.eqb_neq in E3. apply Z.div_small. lia. }
    change (pre (set_pre16 16 s)) with (pre s). rewrite E2. destruct (pre s =? 31) eqn:E3.
    + apply Z.eqb_eq in E3. rewrite E3. change (1 =? 0) with false. cbv iota. change ((31 + 1) mod 32) with 0.
      change (mode (set_pre 0 (set_pre16 0 (set_pre16 16 s)))) with (mode s). destruct (mode s =? 2) eqn:EM.
      * destruct (do_timer_eq 1 (set_pre 0 (set_pre16 0 (set_pre16 16 s)))) as (D1 & D2 & D3 & D4 & D5). rewrite D1, D2, D3, D4, D5.
        change (16 * 31 + 15 + 1) with 512. change (512 / 512) with 1. change (512 mod 512) with 0. repeat split; try reflexivity; cbn [pre pre16 set_pre set_pre16]; lia.
      * rewrite andb_false_l, orb_false_r. repeat split; try reflexivity; cbn [pre pre16 set_pre set_pre16]; lia.
    + apply Z.eqb_neq in E3. change (0 =? 0) with true. cbv iota. change (mode (set_pre (pre s + 1) (set_pre16 0 (set_pre16 16 s)))) with (mode s).
      rewrite !(Z.div_small (16 * pre s + 15 + 1) 512), !(Z.mod_small (16 * pre s + 15 + 1) 512) by lia. destruct (mode s =? 2) eqn:EM.
      * destruct (do_timer_eq 0 (set_pre (pre s + 1) (set_pre16 0 (set_pre16 16 s)))) as (D1 & D2 & D3 & D4 & D5). rewrite D1, D2, D3, D4, D5.
        repeat split; try reflexivity; cbn [pre pre16 set_pre set_pre16]; lia.
      * rewrite andb_false_l, orb_false_r. repeat split; try reflexivity; cbn [pre pre16 set_pre set_pre16]; lia.
  - apply Z.eqb_neq in E. change (0 =? 0) with true. cbv iota. change (mode (set_pre16 (pre16 s + 1) s)) with (mode s).
    rewrite !(Z.div_small (16 * pre s + pre16 s + 1) 512), !(Z.mod_small (16 * pre s + pre16 s + 1) 512) by lia. destruct (mode s =? 2) eqn:EM.
    + destruct (do_timer_eq 0 (set_pre16 (pre16 s + 1) s)) as (D1 & D2 & D3 & D4 & D5). rewrite D1, D2, D3, D4, D5.
      repeat split; try reflexivity; cbn [pre pre16 set_pre set_pre16]; lia.
    + rewrite andb_false_l, orb_false_r. repeat split; try reflexivity; cbn [pre pre16 set_pre set_pre16]; lia.
Qed.
