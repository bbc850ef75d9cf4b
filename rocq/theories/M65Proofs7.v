(** Proofs about the MOS6502: whole steps, runs, stack round trips. *)
From Verif Require Import Base M65Model M65Spec M65Obs M65Proofs M65Proofs2 M65Proofs3 M65Proofs4 M65Proofs5 M65Proofs6.

Lemma quiet g t : brk t = false -> do_interrupt g false false t = t.
Proof. intros H. unfold do_interrupt. rewrite H. cbn [andb]. rewrite andb_false_r. reflexivity. Qed.
Lemma at1_byte t : bytes t -> 0 <= at1 (view t) < 256. Proof. intros H. apply H. Qed.

Lemma step_plain g t i m : wf t -> brk t = false -> decode (op_at t) = Some (i, m) -> i <> BRK -> comparable i m (view t) ->
  exists t', do_inst g false false t = (true, t') /\ step false (view t) = Some (view t') /\ wf t' /\ brk t' = false /\
    (Z.testbit (rF t) 4 = false -> Z.testbit (rF t') 4 = false) /\
    lvl t' = (match i with RTI => pop_level (lvl t) | _ => lvl t end) /\
    ticks t' = ticks t + cycles false i m (view t) + extra false i m (view t).
Proof.
  intros Hw Hb Hd Hi Hc. destruct (exec_run t i m (proj1 Hw) Hd Hi) as (t' & E & H1 & H2 & H3 & H4 & H5 & H6 & H7 & H8 & H9 & H10).
  exists t'. unfold do_inst. rewrite E. rewrite quiet by congruence. split; [reflexivity|]. split.
  - unfold step. rewrite <- op_at_ram by exact Hw. rewrite Hd, (H1 Hc). destruct i; try reflexivity. contradiction.
  - split; [split; [exact H2|specialize (H4 (fun _ => Hc)); lia]|]. split; [congruence|]. split; [|split; assumption].
    destruct (Z.testbit (rF t) 4); [discriminate|]. intros _. destruct (Z.testbit (rF t') 4); [specialize (H10 eq_refl); discriminate|reflexivity].
Qed.
Lemma step_BRK g t m : wf t -> decode (op_at t) = Some (BRK, m) -> ap t < 4 ->
  exists t', do_inst g false false t = (true, t') /\ step false (view t) = Some (view t') /\ wf t' /\ brk t' = false /\
    Z.testbit (rF t') 4 = false /\ lvl t' = 4 :: lvl t /\ ticks t' = ticks t + 8.
Proof.
  intros Hw Hd Ha. destruct (table _ _ _ (op_byte t (proj1 Hw)) Hd) as (f & E & _ & Ef). specialize (Ef eq_refl). subst f.
  destruct (BRK_exec t (proj1 Hw)) as (H1 & H2 & H3 & H4 & H5 & H6 & H7 & H8). set (t1 := M65Model.BRK (start t)) in *.
  assert (Hp : 0 <= PC t1 < 65536). { change (PC t1) with (pc (view t1)). rewrite H1. unfold setPC. cbn [pc]. lia. }
  destruct (accept_ok 0xfffe 4 true t1 H2 Hp ltac:(lia)) as (G1 & G2 & G3 & G4 & G5 & G6 & G7 & G8 & G9).
  exists (accept_it 0xfffe 4 true t1). unfold do_inst. rewrite (exec_some t _ E). fold t1. unfold do_interrupt. rewrite H3.
  assert (Hap : ap t1 = ap t) by (unfold ap; rewrite H5; reflexivity). rewrite Hap.
  replace (ap t <? 4) with true by lia. cbn [andb]. split; [reflexivity|]. split.
  - unfold step. rewrite <- op_at_ram by exact Hw. rewrite Hd, G1, H1, H8. reflexivity.
  - split; [split; assumption|]. split; [exact G4|]. split; [rewrite G9, H4; apply andb_false_r|]. split; [rewrite G6, H5; reflexivity|]. lia.
Qed.

(** step true and step false agree away from 00FF pointers *)
Lemma step_w t i m : bytes t -> current (view t) = Some (i, m) -> zp_end m (view t) = false -> step true (view t) = step false (view t).
Proof.
  intros Ht Hc Hz. unfold step, current in *. rewrite Hc. destruct (operand_w m (view t) Hz (at1_byte t Ht)) as [-> _]. destruct i; reflexivity.
Qed.

(* ------------------------------------------------------------- safety *)
Lemma psh_bytes v t : bytes t -> bytes (psh v t). Proof. intros H. apply (psh_ok v t H). Qed.
Lemma accept_safe ad lv (b : bool) t : bytes t -> bytes (accept_it ad lv b t) /\ 0 <= PC (accept_it ad lv b t) < 65536.
Proof.
  intros Ht. unfold accept_it. cbv zeta.
  assert (Hb1 : bytes (push_addr (PC (tick 2 t)) (tick 2 t))).
  { change (push_addr (PC (tick 2 t)) (tick 2 t)) with (tick 2 (psh (u8 (PC t)) (psh (u8 (Z.shiftr (PC t) 8)) (tick 2 t)))).
    apply bytes_tick, psh_bytes, psh_bytes. exact Ht. }
  set (t1 := push_addr _ _) in *. clearbody t1. clear Ht.
  assert (Hb2 : bytes (wr (0x0100 + rSP t1) (Z.lor (rF t1) 0x20) t1)) by exact (bytes_W (cM (0x0100 + rSP t1)) _ t1 Hb1).
  set (t2 := wr _ _ t1) in *. clearbody t2.
  assert (Hb3 : bytes (if set_b t2 then sF (Z.ldiff (rF t2) flagB) t2 else t2)).
  { destruct (set_b t2); [|exact Hb2]. assert (is_u8 (rF t2)) by apply Hb2. pose proof (bytes_W cF (Z.ldiff (rF t2) flagB) t2 Hb2) as Q.
    cbn [W] in Q. rewrite u8_id in Q by bytef. exact Q. }
  set (t3 := if set_b t2 then _ else t2) in *. clearbody t3.
  assert (Hb4 : bytes (W cSP (rSP t3 - 1) t3)) by (apply bytes_W; exact Hb3).
  set (t4 := W cSP (rSP t3 - 1) t3) in *. clearbody t4.
  assert (Hf : is_u8 (rF t4)) by apply Hb4.
  assert (Hb5 : bytes (sF (Z.lor (rF t4) flagI) t4)).
  { pose proof (bytes_W cF (Z.lor (rF t4) flagI) t4 Hb4) as Q. cbn [W] in Q. rewrite u8_id in Q by bytef. exact Q. }
  split; [destruct b; exact Hb5|].
  assert (R : 0 <= read_addr (tick 1 t4) ad < 65536).
  { unfold read_addr. pose proof (u8_range (rd (tick 1 t4) (ad + 1))). pose proof (u8_range (rd (tick 1 t4) ad)). lia. }
  destruct b; exact R.
Qed.
Definition any_state (t : st) : Prop := bytes t /\ 0 <= PC t <= 65536.
Lemma interrupt_safe g irq nmi t : any_state t -> any_state (do_interrupt g irq nmi t).
Proof.
  intros [Hb Hp]. unfold do_interrupt.
  repeat match goal with |- any_state (if ?c then _ else _) => destruct c end;
  try (match goal with |- any_state (accept_it ?a ?l ?b ?t) => destruct (accept_safe a l b t Hb); split; [assumption|lia] end).
  split; assumption.
Qed.
Lemma do_inst_safe g irq nmi t : any_state t -> any_state (snd (do_inst g irq nmi t)).
Proof.
  intros [Hb Hp]. unfold do_inst. destruct (look itab (op_at t)) as [f|] eqn:E.
  - rewrite (exec_some t f E). cbn [snd]. apply interrupt_safe.
    destruct (decode (op_at t)) as [[i m]|] eqn:D.
    + assert (i = BRK \/ i <> BRK) as [-> |Hi] by (destruct i; (left; reflexivity) || (right; discriminate)).
      * destruct (table _ _ _ (op_byte t Hb) D) as (f' & E' & _ & Ef). rewrite E in E'. injection E' as <-. rewrite (Ef eq_refl).
        destruct (BRK_exec t Hb) as (H1 & H2 & _). split; [exact H2|]. change (PC (M65Model.BRK (start t))) with (pc (view (M65Model.BRK (start t)))). rewrite H1. unfold setPC. cbn [pc]. lia.
      * destruct (exec_run t i m Hb D Hi) as (t' & E2 & _ & H2 & H3 & _). rewrite (exec_some t f E) in E2. injection E2 as <-. split; assumption.
    + apply look_decode in D; [congruence|apply op_byte; exact Hb].
  - rewrite (exec_none t E). cbn [snd]. split; [exact Hb|exact Hp].
Qed.

(* ------------------------------------------------------ stack round trips *)
Definition slot (c : cpu) (j : Z) : Z := 256 + (s c - j) mod 256.
Lemma pull_at c : pull c = (ram c (256 + (s c + 1) mod 256), setS (s c + 1) c). Proof. reflexivity. Qed.
Lemma P_roundtrip f b : P_of_byte (P_byte f b) = f.
Proof. destruct f as [[] [] [] [] [] []], b; reflexivity. Qed.
Lemma push_s v c : s (push v c) = (s c - 1) mod 256. Proof. reflexivity. Qed.
Lemma push_ram v c k : ram (push v c) k = if k =? 256 + s c then v mod 256 else ram c k. Proof. reflexivity. Qed.

Lemma rts_after_jsr c d tgt : 0 <= s c < 256 -> 0 <= pc c < 65536 ->
  let c1 := effect JSR (At tgt) 0 c in
  s d = s c1 -> (forall j, 0 <= j < 2 -> ram d (slot c j) = ram c1 (slot c j)) ->
  rts_from d = (pc c - 1) mod 65536 /\ s (effect RTS Nowhere 0 d) = s c /\ pc (effect RTS Nowhere 0 d) = pc c.
Proof.
  intros Hs Hp c1 Es Hm. pose proof (Hm 0 ltac:(lia)) as M0. pose proof (Hm 1 ltac:(lia)) as M1. clear Hm.
  set (r := (pc c - 1) mod 65536) in *. assert (Hr : 0 <= r < 65536) by (unfold r; lia).
  assert (E1 : s c1 = (s c - 2) mod 256). { unfold c1. cbn [effect]. cbv zeta. cbn [setPC s]. rewrite push_s, push_s. lia. }
  assert (R0 : ram c1 (slot c 0) = r / 256).
  { unfold c1. cbn [effect]. cbv zeta. cbn [setPC ram]. fold r. rewrite push_ram, push_s, push_ram. unfold slot.
    replace (256 + (s c - 0) mod 256 =? 256 + (s c - 1) mod 256) with false by lia. replace (256 + (s c - 0) mod 256 =? 256 + s c) with true by lia. lia. }
  assert (R1 : ram c1 (slot c 1) = r mod 256).
  { unfold c1. cbn [effect]. cbv zeta. cbn [setPC ram]. fold r. rewrite push_ram, push_s. unfold slot.
    replace (256 + (s c - 1) mod 256 =? 256 + (s c - 1) mod 256) with true by lia. lia. }
  rewrite R0 in M0. rewrite R1 in M1. rewrite E1 in Es.
  assert (A1 : ram d (256 + (s d + 1) mod 256) = r mod 256). { rewrite <- M1. f_equal. unfold slot. rewrite Es. lia. }
  assert (A2 : ram d (256 + ((s d + 1) mod 256 + 1) mod 256) = r / 256). { rewrite <- M0. f_equal. unfold slot. rewrite Es. lia. }
  unfold rts_from. cbn [effect]. rewrite pull_at. rewrite pull_at. cbn [setS s ram setPC pc].
  rewrite A1, A2. split; [lia|]. split; [rewrite Es; lia|]. unfold r. lia.
Qed.
Lemma rti_after_int c d b vec : 0 <= s c < 256 -> 0 <= pc c < 65536 ->
  let c1 := interrupt b vec c in
  s d = s c1 -> (forall j, 0 <= j < 3 -> ram d (slot c j) = ram c1 (slot c j)) ->
  s (effect RTI Nowhere 0 d) = s c /\ pc (effect RTI Nowhere 0 d) = pc c /\ p (effect RTI Nowhere 0 d) = p c.
Proof.
  intros Hs Hp c1 Es Hm. pose proof (Hm 0 ltac:(lia)) as M0. pose proof (Hm 1 ltac:(lia)) as M1. pose proof (Hm 2 ltac:(lia)) as M2. clear Hm.
  assert (E1 : s c1 = (s c - 3) mod 256). { unfold c1, interrupt. cbv zeta. cbn [setPC setI setP s]. rewrite !push_s. lia. }
  assert (EP : forall v f, p (push v f) = p f) by reflexivity.
  assert (HP : 0 <= P_byte (p c) b < 256) by (unfold P_byte, b2z; destruct (p c) as [[] [] [] [] [] []], b; vm_compute; split; discriminate || reflexivity).
  assert (R0 : ram c1 (slot c 0) = pc c / 256).
  { unfold c1, interrupt. cbv zeta. cbn [setPC setI setP ram]. rewrite push_ram, !push_s, push_ram, push_s, push_ram. unfold slot.
    replace (256 + (s c - 0) mod 256 =? 256 + ((s c - 1) mod 256 - 1) mod 256) with false by lia.
    replace (256 + (s c - 0) mod 256 =? 256 + (s c - 1) mod 256) with false by lia. replace (256 + (s c - 0) mod 256 =? 256 + s c) with true by lia. lia. }
  assert (R1 : ram c1 (slot c 1) = pc c mod 256).
  { unfold c1, interrupt. cbv zeta. cbn [setPC setI setP ram]. rewrite push_ram, !push_s, push_ram, push_s. unfold slot.
    replace (256 + (s c - 1) mod 256 =? 256 + ((s c - 1) mod 256 - 1) mod 256) with false by lia.
    replace (256 + (s c - 1) mod 256 =? 256 + (s c - 1) mod 256) with true by lia. lia. }
  assert (R2 : ram c1 (slot c 2) = P_byte (p c) b).
  { unfold c1, interrupt. cbv zeta. cbn [setPC setI setP ram]. rewrite push_ram, !push_s. rewrite !EP. unfold slot.
    replace (256 + (s c - 2) mod 256 =? 256 + ((s c - 1) mod 256 - 1) mod 256) with true by lia. apply Z.mod_small. exact HP. }
  rewrite R0 in M0. rewrite R1 in M1. rewrite R2 in M2. rewrite E1 in Es.
  assert (A1 : ram d (256 + (s d + 1) mod 256) = P_byte (p c) b). { rewrite <- M2. f_equal. unfold slot. rewrite Es. lia. }
  assert (A2 : ram d (256 + ((s d + 1) mod 256 + 1) mod 256) = pc c mod 256). { rewrite <- M1. f_equal. unfold slot. rewrite Es. lia. }
  assert (A3 : ram d (256 + (((s d + 1) mod 256 + 1) mod 256 + 1) mod 256) = pc c / 256). { rewrite <- M0. f_equal. unfold slot. rewrite Es. lia. }
  cbn [effect]. rewrite pull_at. rewrite pull_at. rewrite pull_at. cbn [setS setP s ram setPC pc p].
  rewrite A1, A2, A3. split; [rewrite Es; lia|]. split; [lia|apply P_roundtrip].
Qed.
