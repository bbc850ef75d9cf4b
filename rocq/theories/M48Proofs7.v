(** MCS-48: timer over many ticks, histories. *)
From Verif Require Import Base M48Model M48Spec M48Proofs M48Proofs2 M48Proofs3 M48Proofs4 M48Proofs5 M48Proofs6.

Lemma wf_rest s t : rest t = rest s -> wf s -> 0 <= tmr t < 256 -> 0 <= pre16 t < 16 -> 0 <= pre t < 32 -> wf t.
Proof.
  intros R W HT H16 HP. unfold wf in *. unfold rest in R.
  destruct s, t. cbn in *. injection R as -> -> -> -> -> -> -> -> -> -> -> -> -> -> -> -> -> -> -> -> -> -> -> -> -> ->. tauto.
Qed.
Lemma wf_tick1 s : wf s -> wf (tick1 s).
Proof.
  intros W. destruct (tick1_eq s W) as (R & P & HP & HQ & HT & _). apply (wf_rest s); try assumption. rewrite HT.
  destruct (mode s =? 2); [apply m256|apply W].
Qed.
Lemma rest_mode s t : rest t = rest s -> mode t = mode s.
Proof. intros R. exact (f_equal (fun p => fst (fst (fst (fst (snd (fst (fst (fst p)))))))) R). Qed.
Lemma tick_hw_eq n : forall s, wf s -> wf (tick_hw n s) /\ rest (tick_hw n s) = rest s /\
  phase (tick_hw n s) = (phase s + Z.of_nat n) mod 512 /\
  tmr (tick_hw n s) = (if mode s =? 2 then (tmr s + (phase s + Z.of_nat n) / 512) mod 256 else tmr s) /\
  tfl (tick_hw n s) = (tfl s || ((mode s =? 2) && (256 <=? tmr s + (phase s + Z.of_nat n) / 512))).
Proof.
  induction n; intros s W.
  - cbn [tick_hw]. change (Z.of_nat 0) with 0. rewrite Z.add_0_r.
    assert (PH : 0 <= phase s < 512) by (unfold phase; assert (0 <= pre s < 32) by apply W; assert (0 <= pre16 s < 16) by apply W; lia).
    assert (TM : 0 <= tmr s < 256) by apply W.
    rewrite !(Z.mod_small (phase s)), !(Z.div_small (phase s)), Z.add_0_r, Z.mod_small by lia.
    replace (256 <=? tmr s) with false by (symmetry; apply Z.leb_gt; lia). rewrite andb_false_r, orb_false_r.
    split; [exact W|]. split; [reflexivity|]. split; [reflexivity|]. split; [|reflexivity]. destruct (mode s =? 2); reflexivity.
  - cbn [tick_hw]. assert (W1 := wf_tick1 s W). destruct (tick1_eq s W) as (R & P & _ & _ & HT & HF). specialize (IHn _ W1). destruct IHn as (V1 & V2 & V3 & V4 & V5).
    assert (TM : 0 <= tmr s < 256) by apply W.
    assert (PH : 0 <= phase s < 512) by (unfold phase; assert (0 <= pre s < 32) by apply W; assert (0 <= pre16 s < 16) by apply W; lia).
    rewrite V2, V3, V4, V5, (rest_mode _ _ R), P, HT, HF, R. clear V2 V3 V4 V5.
    replace (Z.of_nat (S n)) with (Z.of_nat n + 1) by lia. assert (N0 : 0 <= Z.of_nat n) by lia. set (k := Z.of_nat n) in *. clearbody k.
    assert (C : (phase s + (k + 1)) / 512 = (phase s + 1) / 512 + ((phase s + 1) mod 512 + k) / 512).
    { replace (phase s + (k + 1)) with ((phase s + 1) mod 512 + k + (phase s + 1) / 512 * 512) by (assert (X := Z.div_mod (phase s + 1) 512 ltac:(lia)); lia).
      rewrite Z.div_add by lia. lia. }
    split; [exact V1|]. split; [reflexivity|]. split; [|split].
    + rewrite Z.add_mod_idemp_l by lia. f_equal. lia.
    + destruct (mode s =? 2); [|reflexivity]. rewrite Z.add_mod_idemp_l by lia. f_equal. lia.
    + destruct (mode s =? 2); [|rewrite !andb_false_l, !orb_false_r; reflexivity]. rewrite !andb_true_l.
      rewrite <- orb_assoc. f_equal. rewrite C. set (d1 := (phase s + 1) / 512) in *. set (d2 := ((phase s + 1) mod 512 + k) / 512) in *.
      assert (0 <= d1) by (apply Z.div_pos; lia). assert (0 <= d2) by (apply Z.div_pos; [assert (0 <= (phase s + 1) mod 512 < 512) by (apply Z.mod_pos_bound; lia); lia|lia]).
      destruct (256 <=? tmr s + d1) eqn:E1; [apply Z.leb_le in E1; symmetry; apply Z.leb_le; lia|]. apply Z.leb_gt in E1.
      rewrite (Z.mod_small (tmr s + d1)) by lia. rewrite orb_false_l. f_equal. lia.
Qed.
(** ** do_inst *)
Lemma pc_land s : wf s -> set_PC (Z.land (PC s) 4095) s = s.
Proof.
  intros W. assert (HP : 0 <= PC s < 4096) by apply W. change 4095 with (Z.ones 12). rewrite Z.land_ones, Z.mod_small by (change (2 ^ 12) with 4096; lia). destruct s; reflexivity.
Qed.
Lemma wf_do_interrupt h ipc s : wf s -> wf (do_interrupt h ipc s).
Proof.
  intros W. unfold do_interrupt. destruct (isr s); [exact W|]. destruct ((Z.land (ene s) 1 =? 1) && negb (int s)).
  - unfold accept_it. apply wf_set_PC; [|lia]. apply wf_push, wf_set_isr, W.
  - destruct ((Z.land (ien s) 1 =? 1) && (Z.land (irq s) 1 =? 1)); [|exact W]. unfold accept_it. apply wf_set_PC; [|lia]. apply wf_push, wf_set_isr, wf_set_irq; tauto.
Qed.
(** the state after the ticks, before interrupts *)
Definition ticked (h : chip) (jk : Z) (s : cpu) : cpu :=
  let t := snd (fst (exec_inst h jk s)) in let u := snd (exec_inst h jk s) in set_ticks (ticks u + t) (tick_hw (Z.to_nat t) u).
Lemma do_inst_eq h jk s : wfh h -> wf s -> 0 <= jk < 256 ->
  do_inst h jk s = (fst (fst (exec_inst h jk s)), match fst (fst (exec_inst h jk s)) with INV => ticked h jk s | _ => do_interrupt h (PC s) (ticked h jk s) end).
Proof.
  intros H W J. assert (WI := wf_exec_inst h jk s H W J). unfold do_inst, ticked. destruct (exec_inst h jk s) as [ [r t] u]. cbn [fst snd] in *.
  rewrite pc_land by exact WI. reflexivity.
Qed.
Lemma wf_ticked h jk s : wfh h -> wf s -> 0 <= jk < 256 -> wf (ticked h jk s).
Proof. intros H W J. unfold ticked. apply wf_set_ticks. apply (proj1 (tick_hw_eq _ _ (wf_exec_inst h jk s H W J))). Qed.
Lemma wf_do_inst h jk s : wfh h -> wf s -> 0 <= jk < 256 -> wf (snd (do_inst h jk s)).
Proof.
  intros H W J. rewrite do_inst_eq by assumption. assert (WT := wf_ticked h jk s H W J). cbn [snd]. destruct (fst (fst (exec_inst h jk s))); try apply wf_do_interrupt; exact WT.
Qed.
Lemma wf_do_timer c s : wf s -> wf (do_timer c s).
Proof.
  intros W. destruct (do_timer_eq c s) as (D1 & D2 & D3 & D4 & D5). apply (wf_rest s); try assumption.
  - rewrite D2. apply m256.
  - rewrite D3. apply W.
  - rewrite D4. apply W.
Qed.
Lemma wf_happen h e s : wfh h -> wf s -> evok e -> wf (happen h e s).
Proof.
  intros H W E. assert (L : forall v, 0 <= Z.land v 255 < 256) by (intros; rewrite land255; apply m256). destruct e; cbn [happen].
  - apply wf_do_inst; assumption.
  - apply wf_set_t0, W.
  - unfold pin_t1. cbv zeta. assert (WT := wf_set_t1 (negb ((if u32 v =? 0 then 0 else 1) =? 0)) s W).
    match goal with |- wf (if ?b then _ else _) => destruct b end; [|exact WT]. unfold do_counter. match goal with |- wf (if ?b then _ else _) => destruct b end; [apply wf_do_timer|]; exact WT.
  - apply wf_set_int, W.
  - destruct (p =? 1); [apply wf_set_i1|apply wf_set_i2]; auto.
  - apply wf_set_busin; auto.
  - apply wf_epin; [exact W|apply land15_range].
Qed.
Lemma wf_run h es : forall s, wfh h -> wf s -> Forall evok es -> wf (run h es s).
Proof.
  induction es as [|e es IH]; intros s H W F; [exact W|]. inversion F; subst. unfold run in *. cbn [fold_left]. apply IH; try assumption. apply wf_happen; assumption.
Qed.
Lemma pin_t1_eq v s : pin_t1 v s = set_t1 (negb (u32 v =? 0)) s.
Proof. unfold pin_t1. cbv zeta. destruct (u32 v =? 0); reflexivity. Qed.
Lemma side_do_interrupt h ipc s : irq s = 0 ->
  do_interrupt h ipc s = if negb (isr s) && (Z.land (ene s) 1 =? 1) && negb (int s) then accept_it h ipc 3 s else s.
Proof.
  intros I. unfold do_interrupt. rewrite I. change (Z.land 0 1 =? 1) with false. rewrite andb_false_r. destruct (isr s); [reflexivity|]. cbn [negb andb]. reflexivity.
Qed.
Lemma rest_irq s t : rest t = rest s -> irq t = irq s.
Proof. intros R. exact (f_equal (fun p => snd (fst (fst (snd (fst (fst (fst p))))))) R). Qed.
Lemma irq_ticked h jk s : wfh h -> wf s -> 0 <= jk < 256 -> irq s = 0 -> irq (ticked h jk s) = 0.
Proof.
  intros H W J I. unfold ticked. cbv zeta. change (irq (set_ticks ?v ?t)) with (irq t).
  rewrite (rest_irq _ _ (proj1 (proj2 (tick_hw_eq _ _ (wf_exec_inst h jk s H W J))))). apply irq_exec_inst; assumption.
Qed.
Lemma irq_push h ipc f s : irq (push h ipc f s) = irq s.
Proof. exact (f_equal (fun p => snd (fst (fst (snd (fst (fst p)))))) (side_push h ipc f s)). Qed.
Lemma irq_set_PC v s : irq (set_PC v s) = irq s. Proof. reflexivity. Qed.
Lemma irq_accept h ipc a s : irq (accept_it h ipc a s) = irq s.
Proof. unfold accept_it. rewrite irq_set_PC, irq_push. reflexivity. Qed.
Lemma irq_do_inst h jk s : wfh h -> wf s -> 0 <= jk < 256 -> irq s = 0 -> irq (snd (do_inst h jk s)) = 0.
Proof.
  intros H W J I. rewrite do_inst_eq by assumption. assert (T := irq_ticked h jk s H W J I). cbn [snd].
  assert (D : irq (do_interrupt h (PC s) (ticked h jk s)) = 0).
  { rewrite side_do_interrupt by exact T. match goal with |- irq (if ?b then _ else _) = 0 => destruct b end; [|exact T].
    rewrite irq_accept. exact T. }
  destruct (fst (fst (exec_inst h jk s))); assumption.
Qed.
Lemma irq_happen h e s : wfh h -> wf s -> evok e -> irq s = 0 -> irq (happen h e s) = 0.
Proof.
  intros H W E I. destruct e; cbn [happen]; try exact I.
  - apply irq_do_inst; assumption.
  - rewrite pin_t1_eq. exact I.
  - destruct (p =? 1); exact I.
Qed.
Lemma irq_run h es : forall s, wfh h -> wf s -> Forall evok es -> irq s = 0 -> irq (run h es s) = 0.
Proof.
  induction es as [|e es IH]; intros s H W F I; [exact I|]. inversion F; subst. unfold run in *. cbn [fold_left]. apply IH; try assumption; [apply wf_happen|apply irq_happen]; assumption.
Qed.
