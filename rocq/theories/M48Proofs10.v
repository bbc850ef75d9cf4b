(** MCS-48: the exact effect where the simulator differs from the manual. *)
From Verif Require Import Base M48Model M48Spec M48Proofs M48Proofs2 M48Proofs3 M48Proofs4 M48Proofs5 M48Proofs6 M48Proofs7 M48Proofs8 M48Proofs9.

(** a conditional jump: the page is the one of the following byte *)
Lemma jif_gen h c s : wfh h -> wf s -> abs (jif h c s) = sPC (if c then 256 * (next (PC s) / 256) + rom h (PC s) else next (PC s)) (jump_if h c (abs s)).
Proof.
  intros H W. assert (HP : 0 <= PC s < 4096) by apply W. assert (HN := next_range (PC s) HP). unfold jif. rewrite fetch_eq by exact W.
  assert (AP : forall v t, abs (set_PC v t) = sPC v (abs t)) by reflexivity.
  assert (AF := abs_fetched h s W). destruct c.
  - rewrite AP, PC_fetched, page_eq by exact HN. rewrite lor_page by (apply rom_range, H). rewrite AF. reflexivity.
  - rewrite AF. unfold jump_if. cbv zeta. unfold step_pc. cbv zeta. change (pc (sPC (next (pc (abs s))) (abs s))) with (next (PC s)).
    destruct (inner h <=? next (PC s)); reflexivity.
Qed.
Lemma jcc_shape h jk ipc c s : wfh h -> wf s -> 0 <= c < 256 -> is_jcc c = true -> itab_at c <> Invalid ->
  exists b, (exec h jk ipc c (itab_at c) s = jif h b s /\ sem h jk c (abs s) = Some (jump_if h b (abs s))) \/
            (exec h jk ipc c (itab_at c) s = set_tfl false (jif h b s) /\
             sem h jk c (abs s) = Some (let y := jump_if h b (abs s) in sI (tcnti y) (tpend y) (treq y) false (eni y) (serv y) y)).
Proof.
  intros H W Hc G NI. assert (P : 0 <= psw s < 256) by apply W. assert (HA : 0 <= A s < 256) by apply W.
  rewrite <- tr_sem by exact Hc.
  assert (X := sweep 256 (fun c => negb (is_jcc c) || match itab_at c with Invalid | JB | JTF | JNT0 | JT0 | JNT1 | JT1 | JF0 | JF1 | JNI | JNZ | JZ | JNC | JC => true | _ => false end) ltac:(vm_compute; reflexivity) c Hc).
  cbv beta in X. rewrite G in X. cbn [negb orb] in X.
  destruct (itab_at c) eqn:EO; try discriminate X; try congruence; unfold exec, tr.
  - rewrite shr5 by exact Hc. rewrite tb_odd by (exact HA || apply c32_range, Hc). eexists. left. split; reflexivity.
  - eexists. right. split; reflexivity.
  - eexists. left. split; reflexivity.
  - eexists. left. split; reflexivity.
  - eexists. left. split; reflexivity.
  - eexists. left. split; reflexivity.
  - unfold b1. rewrite land32, negb_involutive by exact P. eexists. left. split; reflexivity.
  - eexists. left. split; reflexivity.
  - eexists. left. split; reflexivity.
  - eexists. left. split; reflexivity.
  - eexists. left. split; reflexivity.
  - unfold b1. rewrite land128, negb_involutive by exact P. eexists. left. split; reflexivity.
  - unfold b1. rewrite land128, negb_involutive by exact P. eexists. left. split; reflexivity.
Qed.
Lemma pc_jump h b x : pc (jump_if h b x) = if b then 256 * (pc x / 256) + byte_at h x else next (pc x).
Proof. unfold jump_if, step_pc. cbv zeta. destruct b; [reflexivity|]. match goal with |- context [if ?q then _ else _] => destruct q end; reflexivity. Qed.
Lemma next_other p : 0 <= p < 4096 -> p mod 256 = 255 -> next p / 256 <> p / 256.
Proof.
  intros Hp E. assert (X := sweep 4096 (fun p => negb (p mod 256 =? 255) || negb (next p / 256 =? p / 256)) ltac:(vm_compute; reflexivity) p Hp). cbv beta in X.
  rewrite E in X. apply orb_true_iff in X. destruct X as [X | X]; [discriminate X|]. apply negb_true_iff, Z.eqb_neq in X. exact X.
Qed.
Lemma jcc_end h jk ipc c s y : wfh h -> wf s -> 0 <= c < 256 -> is_jcc c = true -> PC s mod 256 = 255 -> sem h jk c (abs s) = Some y ->
  abs (exec h jk ipc c (itab_at c) s) = sPC (if pc y / 256 =? PC s / 256 then 256 * (next (PC s) / 256) + rom h (PC s) else next (PC s)) y.
Proof.
  intros H W Hc G E Y. assert (HP : 0 <= PC s < 4096) by apply W.
  assert (NI : itab_at c <> Invalid) by (intros Q; rewrite (invalid_sem h jk c (abs s) Hc Q) in Y; discriminate).
  assert (B : forall b x, pc x = pc (jump_if h b (abs s)) -> (pc x / 256 =? PC s / 256) = b).
  { intros b x Ex. rewrite Ex, pc_jump. change (pc (abs s)) with (PC s). destruct b.
    - apply Z.eqb_eq. rewrite Z.add_comm, Z.mul_comm, Z.div_add by lia. rewrite Z.div_small by (apply (rom_range h (PC s) H)). lia.
    - apply Z.eqb_neq, next_other; assumption. }
  destruct (jcc_shape h jk ipc c s H W Hc G NI) as [b [ [E1 E2] | [E1 E2] ] ]; rewrite E1; rewrite E2 in Y;
  assert (YE := f_equal (fun o => match o with Some v => v | None => y end) Y); cbv beta iota in YE; subst y.
  - rewrite (B b) by reflexivity. apply jif_gen; assumption.
  - cbv zeta. rewrite (B b) by reflexivity. change (abs (set_tfl false ?t)) with (let y := abs t in sI (tcnti y) (tpend y) (treq y) false (eni y) (serv y) y). rewrite jif_gen by assumption. reflexivity.
Qed.
(** the expander *)
Lemma pext_out_gen p v s : abs (pext_out p v s) = let x := abs s in sP (l1 x) (v mod 16) (bl x) (sE (at_ (eo x) p (v mod 16)) (at_ (ed x) p 15) x).
Proof.
  unfold pext_out, set_low. cbv zeta. rewrite !land15. rewrite u8_id by (assert (X := Z.mod_pos_bound v 16 ltac:(lia)); lia). reflexivity.
Qed.
Lemma exec_go h jk s : wf s -> itab_at (code h s) <> Invalid -> itab_at (code h s) <> NoMethod ->
  exec_inst h jk s = (GO, nth (Z.to_nat (code h s)) tick_tab20 0, exec h jk (PC s) (code h s) (itab_at (code h s)) (fetched h s)).
Proof. intros W N1 N2. rewrite exec_inst_eq by exact W. destruct (itab_at (code h s)); try congruence; reflexivity. Qed.
