(** C145 to C155: the MCS-48 processors. *)
From Verif Require Import Base M48Model M48Spec M48Proofs M48Proofs2 M48Proofs3 M48Proofs4 M48Proofs5 M48Proofs6 M48Proofs7 M48Proofs8 M48Proofs9 M48Proofs10.

(** a chip with 64 bytes of RAM whose program is the list, then zeros; its state after reset *)
Definition prog (l : list Z) : chip := mkchip 64 (fun a => if a <? 0 then 0 else nth (Z.to_nat a) l 0) 1024.
Definition s0 : cpu := reset (mkC 0 8 0 0 0 (fun _ => 0) (fun _ => 0) 0 0 0 0 0 false false 0 0 false 0 0 255 255 0 0 (fun _ => 0) (fun _ => 0) (fun _ => 15) true true true 0 []).
Lemma prog_wf l : Forall (fun v => 0 <= v < 256) l -> wfh (prog l).
Proof.
  intros F. split; [left; reflexivity|]. intros a. cbn [rom prog]. destruct (a <? 0); [lia|]. rewrite Forall_forall in F.
  destruct (nth_in_or_default (Z.to_nat a) l 0) as [I | E]; [apply F, I|rewrite E; lia].
Qed.
Lemma s0_wf : wf s0. Proof. unfold wf. cbn. repeat split; try lia; intros; cbn; lia. Qed.

(** ** C145: instructions *)
Theorem C145_m48_instruction : forall h jk s y, wfh h -> wf s -> 0 <= jk < 256 ->
  regular (rom h (PC s)) (step_pc (inner h) (abs s)) ->
  sem h jk (rom h (PC s)) (step_pc (inner h) (abs s)) = Some y ->
  exists t u, exec_inst h jk s = (GO, t, u) /\ abs u = y.
Proof.
  intros h jk s y H W J G Y. change (rom h (PC s)) with (code h s) in *. assert (HC : 0 <= code h s < 256) by apply rom_range, H.
  rewrite <- abs_fetched in G, Y by exact W. assert (W2 := wf_fetched h s W).
  assert (NI : itab_at (code h s) <> Invalid) by (intros E; rewrite (invalid_sem h jk _ (abs (fetched h s)) HC E) in Y; discriminate).
  assert (NM : itab_at (code h s) <> NoMethod).
  { intros E. assert (S := shape_ok _ HC). unfold shape in S. rewrite E in S. destruct G as (_ & _ & _ & _ & G1 & G2 & _).
    apply orb_true_iff in S. destruct S as [S | S]; apply Z.eqb_eq in S; contradiction. }
  assert (R := ref h jk (PC s) (code h s) (fetched h s) H W2 J HC G NI). unfold Ref in R. rewrite tr_sem in R by exact HC. rewrite Y in R.
  eexists. eexists. split; [apply exec_go; assumption|]. exact (f_equal (fun o => match o with Some v => v | None => y end) (eq_sym R)).
Qed.
Example C145_case : wfh (prog [104; 87]) /\ wf (set_A 153 (set_R 0 1 s0)) /\
  regular 104 (step_pc 1024 (abs (set_A 153 (set_R 0 1 s0)))) /\
  option_map (fun y => (acc y, cy y, ac y, pc y)) (sem (prog [104; 87]) 0 104 (step_pc 1024 (abs (set_A 153 (set_R 0 1 s0))))) = Some (154, false, false, 1) /\
  (let s := run (prog [104; 87]) [Step 0; Step 0] (set_A 153 (set_R 0 1 s0)) in (A s, Z.testbit (psw s) 7, PC s)) = (0, true, 2).
Proof.
  split; [apply prog_wf; repeat constructor; lia|]. split; [apply wf_set_A; [apply wf_set_R, s0_wf|lia] |]. split; [unfold regular; cbn; repeat split; intros; discriminate|]. split; vm_compute; reflexivity.
Qed.

(** ** C146: the instructions which differ, exactly *)
(** DJNZ R0 to R7: always register 7, always jumps, to the page of the byte after the instruction *)
Theorem C146_m48_djnz : forall h jk s, wfh h -> wf s -> is_djnz (rom h (PC s)) = true ->
  let x := step_pc (inner h) (abs s) in
  let y := set_reg 7 ((reg 7 x - 1) mod 256) (step_pc (inner h) x) in
  exists t u, exec_inst h jk s = (GO, t, u) /\ abs u = sPC (256 * (pc y / 256) + rom h (pc x)) y.
Proof.
  intros h jk s H W D. cbv zeta. change (rom h (PC s)) with (code h s) in *. assert (HC : 0 <= code h s < 256) by apply rom_range, H.
  assert (X := sweep 256 (fun c => negb (is_djnz c) || match itab_at c with DJNZ => true | _ => false end) ltac:(vm_compute; reflexivity) _ HC). cbv beta in X. rewrite D in X. cbn [negb orb] in X.
  assert (O : itab_at (code h s) = DJNZ) by (destruct (itab_at (code h s)); try discriminate X; reflexivity).
  eexists. eexists. split; [apply exec_go; [exact W|rewrite O; discriminate|rewrite O; discriminate] |]. rewrite O. unfold exec.
  rewrite djnz_gen by (assumption || apply wf_fetched, W). rewrite abs_fetched by exact W. reflexivity.
Qed.
(** ADDC A,@R0 and ADDC A,@R1: nothing is executed, the program stays at the instruction, the clock counts five ticks *)
Theorem C146_m48_addc_indirect : forall h jk s, wf s -> rom h (PC s) = 112 \/ rom h (PC s) = 113 ->
  exists u, exec_inst h jk s = (NOT_DONE, 5, u) /\ abs u = sPC (PC s) (step_pc (inner h) (abs s)).
Proof.
  intros h jk s W C. rewrite exec_inst_eq by exact W. change (rom h (PC s)) with (code h s) in C.
  exists (set_PC (PC s) (fetched h s)). split; [destruct C as [E | E]; rewrite E; reflexivity|].
  rewrite <- abs_fetched by exact W. reflexivity.
Qed.
(** MOVD Pp,A: the latch of P2 becomes the four bits which are sent, its upper half zero *)
Theorem C146_m48_movd_out : forall h jk s k, wfh h -> wf s -> 0 <= k < 4 -> rom h (PC s) = 60 + k ->
  let x := step_pc (inner h) (abs s) in
  exists t u, exec_inst h jk s = (GO, t, u) /\
    abs u = sP (l1 x) (acc x mod 16) (bl x) (sE (at_ (eo x) (4 + k) (acc x mod 16)) (at_ (ed x) (4 + k) 15) x).
Proof.
  intros h jk s k H W K C. cbv zeta. change (rom h (PC s)) with (code h s) in *.
  assert (O : itab_at (code h s) = MOVDP (4 + k)) by (rewrite C; assert (k = 0 \/ k = 1 \/ k = 2 \/ k = 3) as [-> | [-> | [-> | ->] ] ] by lia; reflexivity).
  eexists. eexists. split; [apply exec_go; [exact W|rewrite O; discriminate|rewrite O; discriminate] |]. rewrite O. unfold exec.
  rewrite pext_out_gen. rewrite <- abs_fetched by exact W. reflexivity.
Qed.
(** MOVD A,Pp: the latch of P2 becomes what was read *)
Theorem C146_m48_movd_in : forall h jk s k, wfh h -> wf s -> 0 <= k < 4 -> rom h (PC s) = 12 + k ->
  let x := step_pc (inner h) (abs s) in
  exists t u, exec_inst h jk s = (GO, t, u) /\
    abs u = sA (ew x (4 + k)) (sP (l1 x) (ew x (4 + k)) (bl x) (sE (eo x) (at_ (ed x) (4 + k) 0) x)).
Proof.
  intros h jk s k H W K C. cbv zeta. change (rom h (PC s)) with (code h s) in *.
  assert (O : itab_at (code h s) = MOVDA (4 + k)) by (rewrite C; assert (k = 0 \/ k = 1 \/ k = 2 \/ k = 3) as [-> | [-> | [-> | ->] ] ] by lia; reflexivity).
  eexists. eexists. split; [apply exec_go; [exact W|rewrite O; discriminate|rewrite O; discriminate] |]. rewrite O. unfold exec, pext_in, set_low. cbv zeta iota.
  assert (W2 := wf_fetched h s W). change (epin (set_dir ?d ?t)) with (epin t).
  assert (E : 0 <= epin (fetched h s) (4 + k) < 16) by apply W2. rewrite land15, Z.mod_small by exact E. rewrite u8_id by lia. rewrite abs_wA by lia.
  rewrite <- abs_fetched by exact W. reflexivity.
Qed.
(** ORLD, ANLD: always with the latch of port 6, whatever port the code names *)
Theorem C146_m48_orld_anld : forall h jk s, wfh h -> wf s -> is_orld (rom h (PC s)) = true ->
  let x := step_pc (inner h) (abs s) in
  let v := if rom h (PC s) / 16 =? 8 then Z.lor (acc x mod 16) (eo x 6) else Z.land (acc x mod 16) (eo x 6) in
  exists t u, exec_inst h jk s = (GO, t, u) /\ abs u = sP (l1 x) v (bl x) (sE (at_ (eo x) 6 v) (at_ (ed x) 6 15) x).
Proof.
  intros h jk s H W D. cbv zeta. change (rom h (PC s)) with (code h s) in *. assert (HC : 0 <= code h s < 256) by apply rom_range, H.
  assert (X := sweep 256 (fun c => negb (is_orld c) || ((Z.shiftr c 6 =? 2) && match itab_at c with ORLD => c / 16 =? 8 | ANLD => negb (c / 16 =? 8) | _ => false end)) ltac:(vm_compute; reflexivity) _ HC). cbv beta in X. rewrite D in X. cbn [negb orb] in X.
  apply andb_true_iff in X. destruct X as [X6 X]. apply Z.eqb_eq in X6. assert (W2 := wf_fetched h s W). assert (HO : 0 <= odr (fetched h s) 6 < 16) by apply W2.
  assert (NI : itab_at (code h s) <> Invalid /\ itab_at (code h s) <> NoMethod) by (destruct (itab_at (code h s)); try discriminate X; split; discriminate).
  eexists. eexists. split; [apply exec_go; [exact W|apply NI|apply NI] |].
  assert (XA := Z.mod_pos_bound (A (fetched h s)) 16 ltac:(lia)).
  assert (E6 : 4 + 2 = 6) by reflexivity. rewrite <- abs_fetched by exact W.
  destruct (itab_at (code h s)); try discriminate X; unfold exec; rewrite X6, E6.
  - rewrite X. unfold pext_orl. rewrite pext_out_gen, !land15, Z.mod_mod, (Z.mod_small (Z.lor _ _)) by (lia || apply lor16; assumption). reflexivity.
  - apply negb_true_iff in X. rewrite X. unfold pext_anl. rewrite pext_out_gen, !land15, Z.mod_mod by lia.
    assert (B : 0 <= Z.land (A (fetched h s) mod 16) (odr (fetched h s) 6) < 16).
    { split; [apply Z.land_nonneg; lia|]. assert (Z.land (A (fetched h s) mod 16) (odr (fetched h s) 6) <= A (fetched h s) mod 16); [|lia].
      apply Z.ldiff_le; [lia|]. apply Z.bits_inj'. intros n Hn. rewrite Z.ldiff_spec, Z.land_spec, Z.bits_0. destruct (Z.testbit (A (fetched h s) mod 16) n), (Z.testbit (odr (fetched h s) 6) n); reflexivity. }
    rewrite (Z.mod_small (Z.land _ _)) by exact B. reflexivity.
Qed.
(** a conditional jump whose second byte is the last one of a page goes to the next page; the rest is as in the manual *)
Theorem C146_m48_page_end : forall h jk s y, wfh h -> wf s ->
  let x := step_pc (inner h) (abs s) in
  is_jcc (rom h (PC s)) = true -> pc x mod 256 = 255 -> sem h jk (rom h (PC s)) x = Some y ->
  exists t u, exec_inst h jk s = (GO, t, u) /\
    abs u = sPC (if pc y / 256 =? pc x / 256 then 256 * (next (pc x) / 256) + rom h (pc x) else next (pc x)) y.
Proof.
  intros h jk s y H W x D P Y. unfold x in *. clear x. change (rom h (PC s)) with (code h s) in *. assert (HC : 0 <= code h s < 256) by apply rom_range, H.
  rewrite <- abs_fetched in P, Y |- * by exact W.
  assert (NI : itab_at (code h s) <> Invalid) by (intros E; rewrite (invalid_sem h jk _ (abs (fetched h s)) HC E) in Y; discriminate).
  assert (NM : itab_at (code h s) <> NoMethod).
  { assert (X := sweep 256 (fun c => negb (is_jcc c) || match itab_at c with NoMethod => false | _ => true end) ltac:(vm_compute; reflexivity) _ HC). cbv beta in X. rewrite D in X. cbn [negb orb] in X. intros E. rewrite E in X. discriminate. }
  eexists. eexists. split; [apply exec_go; assumption|]. apply (jcc_end h jk (PC s) (code h s) (fetched h s) y H); try assumption. apply wf_fetched, W.
Qed.
(** JMP and CALL use the bank of SEL MB also in an interrupt routine *)
Theorem C146_m48_long_in_service : forall h jk s, wfh h -> wf s -> is_long (rom h (PC s)) = true ->
  let x := step_pc (inner h) (abs s) in
  exists t u, exec_inst h jk s = (GO, t, u) /\
    pc (abs u) = (if dbf x then 2048 else 0) + 256 * (rom h (PC s) / 32) + rom h (pc x).
Proof.
  intros h jk s H W D. cbv zeta. change (rom h (PC s)) with (code h s) in *. assert (HC : 0 <= code h s < 256) by apply rom_range, H.
  assert (X := sweep 256 (fun c => negb (is_long c) || match itab_at c with JMP | CALL => true | _ => false end) ltac:(vm_compute; reflexivity) _ HC). cbv beta in X. rewrite D in X. cbn [negb orb] in X.
  assert (NI : itab_at (code h s) <> Invalid /\ itab_at (code h s) <> NoMethod) by (destruct (itab_at (code h s)); try discriminate X; split; discriminate).
  eexists. eexists. split; [apply exec_go; [exact W|apply NI|apply NI] |]. assert (W2 := wf_fetched h s W). rewrite <- abs_fetched by exact W.
  assert (DB : dbf (abs (fetched h s)) = negb (mb (fetched h s) =? 0)) by reflexivity. rewrite DB.
  destruct (itab_at (code h s)); try discriminate X; unfold exec; rewrite target_eq by assumption;
  match goal with |- pc (abs (set_PC ?v ?t)) = _ => change (pc (abs (set_PC v t))) with v end; destruct (mb (fetched h s) =? 0); reflexivity.
Qed.
(** DJNZ R0,05 with R0 = 1, R7 = 0 and with ADDC A,@R0, ORLD P4,A, JNZ at 254 and 255 *)
Example C146_case :
  (let s := happen (prog [232; 5]) (Step 0) (set_R 0 1 s0) in (PC s, R 0 s, R 7 s)) = (5, 1, 255) /\
  (let s := run (prog [112]) [Step 0; Step 0] s0 in (PC s, A s, ticks s)) = (0, 0, 10) /\
  (let s := happen (prog [140]) (Step 0) (set_A 9 s0) in (p2 s, odr s 4, odr s 6)) = (9, 0, 9) /\
  (let s := happen (prog (repeat 0 254 ++ [150; 5])) (Step 0) (set_A 1 (set_PC 254 s0)) in PC s) = 256 + 5 /\
  (let s := happen (prog [4; 5]) (Step 0) (set_mb 1 (set_isr true s0)) in PC s) = 2048 + 5.
Proof. repeat split; vm_compute; reflexivity. Qed.

(** ** C147: codes which are not instructions *)
Theorem C147_m48_undefined : forall h jk s, wfh h -> wf s -> 0 <= jk < 256 ->
  (fst (do_inst h jk s) = INV <-> sem h jk (rom h (PC s)) (step_pc (inner h) (abs s)) = None) /\
  (fst (do_inst h jk s) = INV ->
     let u := snd (do_inst h jk s) in
     ticks u = ticks s /\ abs u = sPC (PC s) (step_pc (inner h) (abs s)) /\ errs u = errs s).
Proof.
  intros h jk s H W J. assert (HC : 0 <= code h s < 256) by apply rom_range, H. change (rom h (PC s)) with (code h s) in *.
  assert (WE := wf_exec_inst h jk s H W J). rewrite do_inst_eq by assumption. cbn [fst snd].
  assert (I1 : fst (fst (exec_inst h jk s)) = INV <-> itab_at (code h s) = Invalid).
  { rewrite exec_inst_eq by exact W. destruct (itab_at (code h s)); cbn [fst]; split; intros E; try discriminate E; reflexivity. }
  split; [rewrite I1; split; intros E; [apply invalid_sem; assumption|]|].
  - destruct (itab_at (code h s)) eqn:O; try reflexivity; exfalso; apply (valid_sem h jk (code h s) (step_pc (inner h) (abs s)) HC); try exact E; rewrite O; discriminate.
  - intros E. rewrite E. cbv zeta. assert (O := proj1 I1 E). unfold ticked. cbv zeta.
    assert (XE := exec_inst_eq h jk s W). rewrite O in XE. rewrite XE in *. cbn [fst snd] in *.
    assert (T0 : nth (Z.to_nat (code h s)) tick_tab20 0 = 0).
    { assert (X := sweep 256 (fun c => match itab_at c with Invalid => nth (Z.to_nat c) tick_tab20 0 =? 0 | _ => true end) ltac:(vm_compute; reflexivity) _ HC). cbv beta in X. rewrite O in X. apply Z.eqb_eq, X. }
    rewrite T0. change (Z.to_nat 0) with 0%nat. cbn [tick_hw]. rewrite Z.add_0_r. split; [|split].
    + exact (f_equal snd (side_fetched h s)).
    + rewrite <- abs_fetched by exact W. reflexivity.
    + change (errs (fetched h s) = errs s). unfold fetched. cbv zeta. match goal with |- errs (if ?b then _ else _) = _ => destruct b end; reflexivity.
Qed.
(** code 01 with an interrupt request: the program stays there for ever *)
Example C147_case : sem (prog [1]) 0 1 (step_pc 1024 (abs s0)) = None /\
  (let s := run (prog [1]) [PinINT 0; Step 0; Step 0] (set_ene 1 s0) in (PC s, ticks s, isr s)) = (0, 0, false).
Proof. split; vm_compute; reflexivity. Qed.

(** ** C148: clock cycles *)
(** machine cycles in the manual, by the two digits of the code *)
Definition cycles (c : Z) : Z :=
  let hi := c / 16 in
  let lo := c mod 16 in
  if 8 <=? lo then (if (hi =? 0) || (hi =? 3) || (hi =? 8) || (hi =? 9) || (hi =? 11) || (hi =? 14) then 2 else 1)
  else if lo <=? 1 then (if (hi =? 8) || (hi =? 9) || (hi =? 11) then 2 else 1)
  else if lo =? 2 then (if Z.odd hi || (hi =? 0) then 2 else 1)
  else if (lo =? 3) || (lo =? 4) || (lo =? 6) then 2 else 1.
(** ANL A,#data takes one, MOV @R,A and ENT0 CLK two *)
Definition sim_cycles (c : Z) : Z := if c =? 83 then 1 else if (c =? 160) || (c =? 161) || (c =? 117) then 2 else cycles c.
Theorem C148_m48_cycles : forall h jk s, wfh h -> wf s -> 0 <= jk < 256 -> fst (do_inst h jk s) <> INV ->
  ticks (snd (do_inst h jk s)) = ticks s + 5 * sim_cycles (rom h (PC s)).
Proof.
  intros h jk s H W J N. assert (HC : 0 <= code h s < 256) by apply rom_range, H. rewrite do_inst_eq in * by assumption. cbn [fst snd] in *.
  assert (TI := tim_do_interrupt h (PC s) (ticked h jk s)). assert (TT := tim_ticks _ _ TI).
  assert (E : ticks (ticked h jk s) = ticks (snd (exec_inst h jk s)) + nth (Z.to_nat (code h s)) tick_tab20 0) by (rewrite <- (exec_inst_ticks h jk s W); apply ticks_ticked).
  assert (V : itab_at (code h s) <> Invalid) by (intros O; apply N; rewrite exec_inst_eq, O by exact W; reflexivity).
  assert (X := sweep 256 (fun c => match itab_at c with Invalid => true | _ => nth (Z.to_nat c) tick_tab20 0 =? 5 * sim_cycles c end) ltac:(vm_compute; reflexivity) _ HC). cbv beta in X.
  assert (T5 : nth (Z.to_nat (code h s)) tick_tab20 0 = 5 * sim_cycles (code h s)) by (destruct (itab_at (code h s)); try (apply Z.eqb_eq, X); congruence).
  assert (TE : ticks (snd (exec_inst h jk s)) = ticks s).
  { destruct (touches (itab_at (code h s))) eqn:T; [|exact (tim_ticks _ _ (tim_exec_inst h jk s H W T))].
    assert (TF := tim_ticks _ _ (side_tim _ _ (side_fetched h s))). assert (W2 := wf_fetched h s W).
    rewrite exec_go by (exact W || exact V || (destruct (itab_at (code h s)); discriminate)). cbn [snd].
    destruct (itab_at (code h s)); try discriminate T; unfold exec; try exact TF.
    assert (G := tim_ticks _ _ (side_tim _ _ (side_jif h (tfl (fetched h s)) (fetched h s) W2))). rewrite <- TF, <- G. reflexivity. }
  change (rom h (PC s)) with (code h s). rewrite <- T5, <- TE, <- E. destruct (fst (fst (exec_inst h jk s))); try exact TT; congruence.
Qed.
Example C148_case : ticks (run (prog [35; 5; 83; 4; 160; 0]) [Step 0; Step 0; Step 0; Step 0] s0) = 10 + 5 + 10 + 5.
Proof. vm_compute. reflexivity. Qed.

(** ** C149: invariant of every history *)
Theorem C149_m48_invariant : forall h es s, wfh h -> wf s -> Forall evok es -> wf (run h es s).
Proof. intros. apply wf_run; assumption. Qed.
(** the program stays in its 2048 byte bank unless JMP, CALL, RET, RETR or an interrupt leaves it *)
Theorem C149_m48_bank : forall h jk s, wfh h -> wf s ->
  is_long (rom h (PC s)) = false -> rom h (PC s) <> 131 -> rom h (PC s) <> 147 ->
  PC (snd (exec_inst h jk s)) / 2048 = PC s / 2048.
Proof.
  intros h jk s H W N1 N2 N3. change (rom h (PC s)) with (code h s) in *. assert (HC : 0 <= code h s < 256) by apply rom_range, H.
  assert (X := sweep 256 (fun c => is_long c || (c =? 131) || (c =? 147) || negb (leaves (itab_at c))) ltac:(vm_compute; reflexivity) _ HC). cbv beta in X.
  apply Z.eqb_neq in N2, N3. rewrite N1, N2, N3 in X. cbn [orb] in X. apply negb_true_iff in X.
  assert (HP : 0 <= PC s < 4096) by apply W.
  assert (B := bank_exec h jk (PC s) (code h s) (itab_at (code h s)) (fetched h s) H (wf_fetched h s W) X). rewrite PC_fetched, next_bank in B by exact HP.
  rewrite exec_inst_eq by exact W. destruct (itab_at (code h s)); cbn [snd]; first [exact B|reflexivity].
Qed.
Example C149_case : wf s0 /\ Forall evok [Step 3; PinT1 0; Step 255; PinINT 7] /\
  PC (happen (prog (repeat 0 2048)) (Step 0) (set_PC 2047 s0)) = 0 /\ PC (happen (prog (repeat 0 2048)) (Step 0) (set_PC 4095 s0)) = 2048.
Proof. split; [apply s0_wf|]. split; [repeat constructor; lia|]. split; vm_compute; reflexivity. Qed.

(** ** C150: the stack *)
(** up to eight return addresses come back, last first, with the flags and the stack pointer *)
Theorem C150_m48_stack : forall h jk ps s, wfh h -> wf s -> (length ps <= 8)%nat -> Forall (fun p => 0 <= p < 4096) ps ->
  fst (pops h jk (length ps) (pushes h ps s)) = rev ps /\ psw (snd (pops h jk (length ps) (pushes h ps s))) = psw s.
Proof.
  intros h jk ps s H W L F. destruct (pushes_abs h ps s H W F) as [WP AP]. destruct (pops_abs h jk (length ps) _ H WP) as (W2 & P1 & P2).
  destruct (calls_rets ps (abs s) L (sp_range s) F) as [C1 C2]. rewrite AP in P1, P2. split; [congruence|].
  apply flags_psw; [exact W2|exact W|]. rewrite P2. exact C2.
Qed.
(** an overflow is reported by exactly those pushes which move the stack pointer from 7 to 0 *)
Theorem C150_m48_stack_overflow : forall h ipc f s, wf s ->
  errs (push h ipc f s) = if psw s mod 8 =? 7 then errs s ++ [(ipc, 22, 8)] else errs s.
Proof. intros. apply push_errs. assumption. Qed.
(** nine: the first is lost *)
Example C150_case :
  (let h := prog [] in let ps := [1; 2; 3; 4; 5; 6; 7; 8] in (fst (pops h 0 8 (pushes h ps s0)), errs (pushes h ps s0))) = ([8; 7; 6; 5; 4; 3; 2; 1], [(8, 22, 8)]) /\
  (let h := prog [] in let ps := [1; 2; 3; 4; 5; 6; 7; 8; 9] in (fst (pops h 0 9 (pushes h ps s0)), errs (pushes h ps s0))) = ([9; 8; 7; 6; 5; 4; 3; 2; 9], [(8, 22, 8)]).
Proof. split; vm_compute; reflexivity. Qed.

(** ** C151: interrupts *)
(** the instruction and the clock, without interrupts *)
Definition plain (h : chip) (jk : Z) (s : cpu) : result * cpu :=
  let '(r, t, u) := exec_inst h jk s in (r, set_ticks (ticks u + t) (tick_hw (Z.to_nat t) u)).
(** after an instruction: the external interrupt is taken if it is enabled, the pin is low and no routine runs; PC and
    flags go to the stack, PC becomes 3; nothing else changes *)
Theorem C151_m48_accept : forall h jk s, wfh h -> wf s -> 0 <= jk < 256 -> irq s = 0 -> fst (do_inst h jk s) <> INV ->
  let x := abs (snd (plain h jk s)) in
  abs (snd (do_inst h jk s)) =
    if negb (serv x) && eni x && negb (INT x)
    then sPC 3 (call_push (sI (tcnti x) (tpend x) (treq x) (tf x) (eni x) true x)) else x.
Proof.
  intros h jk s H W J I N. cbv zeta. rewrite do_inst_eq in * by assumption. cbn [fst snd] in *.
  assert (EP : snd (plain h jk s) = ticked h jk s) by (unfold plain, ticked; destruct (exec_inst h jk s) as [ [r t] u]; reflexivity).
  rewrite EP. assert (WT := wf_ticked h jk s H W J). assert (IT := irq_ticked h jk s H W J I). clear EP. generalize dependent (ticked h jk s). intros u WT IT.
  assert (E : abs (do_interrupt h (PC s) u) = if negb (serv (abs u)) && eni (abs u) && negb (INT (abs u))
    then sPC 3 (call_push (sI (tcnti (abs u)) (tpend (abs u)) (treq (abs u)) (tf (abs u)) (eni (abs u)) true (abs u))) else abs u).
  { rewrite side_do_interrupt by exact IT. change (serv (abs u)) with (isr u). change (INT (abs u)) with (int u).
    assert (EE : (Z.land (ene u) 1 =? 1) = eni (abs u)) by (cbn [eni abs]; assert (Q : ene u = 0 \/ ene u = 1) by apply WT; destruct Q as [-> | ->]; reflexivity).
    rewrite EE. destruct (negb (isr u) && eni (abs u) && negb (int u)); [|reflexivity]. unfold accept_it.
    assert (AP : forall v t, abs (set_PC v t) = sPC v (abs t)) by reflexivity. rewrite AP, push_ok by (assumption || apply wf_set_isr, WT). reflexivity. }
  destruct (fst (fst (exec_inst h jk s))); try exact E; congruence.
Qed.
(** while a routine runs and RETR (code 93) is not executed no interrupt is taken *)
Theorem C151_m48_no_nesting : forall h es s, wfh h -> wf s -> Forall evok es -> isr s = true -> Forall (fun c => c <> 147) (executed h es s) ->
  isr (run h es s) = true /\
  (forall jk, 0 <= jk < 256 -> rom h (PC (run h es s)) <> 147 -> snd (do_inst h jk (run h es s)) = snd (plain h jk (run h es s))).
Proof.
  intros h es s H W F I N. assert (R := nested_run h es s H W F N I). split; [exact R|]. intros jk J C.
  destruct (nested_step h jk (run h es s) H (wf_run h es s H W F) J C R) as [E _]. rewrite E. unfold plain, ticked. destruct (exec_inst h jk (run h es s)) as [ [r t] u]. reflexivity.
Qed.
(** RETR in any later state with the stack pointer and the two stack bytes as the interrupt left them goes back, with the flags *)
Theorem C151_m48_return : forall h jk s t, wfh h -> wf s -> wf t -> 0 <= jk < 256 ->
  let u := accept_it h (PC s) 3 s in
  psw t mod 8 = psw u mod 8 ->
  ram t (8 + 2 * (psw s mod 8)) = ram u (8 + 2 * (psw s mod 8)) -> ram t (9 + 2 * (psw s mod 8)) = ram u (9 + 2 * (psw s mod 8)) ->
  rom h (PC t) = 147 ->
  exists n v, exec_inst h jk t = (GO, n, v) /\ PC v = PC s /\ psw v = psw s /\ isr v = false.
Proof.
  intros h jk s t H W V J u S R1 R2 C. change (rom h (PC t)) with (code h t) in C.
  assert (O : itab_at (code h t) = RETR) by (rewrite C; reflexivity).
  assert (AU : abs u = sPC 3 (call_push (abs (set_isr true s)))) by (unfold u, accept_it; rewrite <- (push_ok h (PC s)) by (assumption || apply wf_set_isr, W); reflexivity).
  assert (SU : psw u mod 8 = (psw s mod 8 + 1) mod 8) by (change (psw u mod 8) with (sp (abs u)); rewrite AU; reflexivity).
  assert (RU : ram u = rm (call_push (abs (set_isr true s)))) by (change (ram u) with (rm (abs u)); rewrite AU; reflexivity).
  exists (nth (Z.to_nat (code h t)) tick_tab20 0), (pop h jk true (set_isr false (fetched h t))).
  split; [rewrite exec_go by (exact V || (rewrite O; discriminate)); rewrite O; reflexivity|].
  assert (WF := wf_set_isr false _ (wf_fetched h t V)). assert (WP := wf_pop h jk true _ H WF).
  assert (AP := pop_ok h jk true _ H WF).
  assert (FR := fetched_fields h t). destruct FR as (_ & Ep & _ & _ & _ & _ & ER).
  destruct (ret_call (abs (set_isr true s)) (abs (set_isr false (fetched h t)))) as [Q1 Q2].
  - apply sp_range.
  - apply W.
  - change (psw (fetched h t) mod 8 = (psw s mod 8 + 1) mod 8). rewrite Ep, S. exact SU.
  - change (ram (fetched h t) (8 + 2 * (psw s mod 8)) = rm (call_push (abs (set_isr true s))) (8 + 2 * (psw s mod 8))). rewrite ER, R1, RU. reflexivity.
  - change (ram (fetched h t) (8 + 2 * (psw s mod 8) + 1) = rm (call_push (abs (set_isr true s))) (8 + 2 * (psw s mod 8) + 1)).
    replace (8 + 2 * (psw s mod 8) + 1) with (9 + 2 * (psw s mod 8)) by lia. rewrite ER, R2, RU. reflexivity.
  - rewrite <- AP in Q1, Q2. split; [exact Q1|]. split; [|reflexivity]. apply flags_psw; [exact WP|exact W|exact Q2].
Qed.
(** EN I, then the pin goes low, the routine at 3 clears A's carry and returns *)
Example C151_case : let h := prog [5; 0; 0; 151; 147] in let s := run h [Step 0] (set_psw 136 s0) in
  (let u := run h [PinINT 0; Step 0] s in (PC u, isr u, psw u)) = (3, true, 137) /\
  (let u := run h [PinINT 0; Step 0; PinINT 1; Step 0; Step 0] s in (PC u, isr u, psw u)) = (2, false, 136).
Proof. split; vm_compute; reflexivity. Qed.

(** ** C152: the timer *)
(** MOV T,A; STRT CNT; STRT T; STOP TCNT; JTF *)
Definition timer_code (c : Z) : bool := (c =? 98) || (c =? 69) || (c =? 85) || (c =? 101) || (c =? 22).
Lemma timer_code_ok h es s : wfh h -> Forall (fun c => timer_code c = false) (executed h es s) -> no_touch h es s.
Proof.
  intros H F. unfold no_touch. assert (R : Forall (fun c => 0 <= c < 256) (executed h es s)).
  { clear F. revert s. induction es as [|e es IH]; intros s; [constructor|]. cbn [executed]. apply Forall_app. split; [|apply IH]. destruct e; repeat constructor; apply rom_range, H. }
  rewrite Forall_forall in *. intros c I. specialize (F c I). specialize (R c I).
  assert (X := sweep 256 (fun c => timer_code c || negb (touches (itab_at c))) ltac:(vm_compute; reflexivity) c R). cbv beta in X. rewrite F in X. cbn [orb] in X. apply negb_true_iff, X.
Qed.
(** in a history without them a running timer counts every 512 ticks of the clock; the flag is set when it wraps *)
Theorem C152_m48_timer : forall h es s, wfh h -> wf s -> Forall evok es -> mode s = 2 -> Forall (fun c => timer_code c = false) (executed h es s) ->
  let u := run h es s in
  let n := 512 * tmr s + 16 * pre s + pre16 s + (ticks u - ticks s) in
  0 <= ticks u - ticks s /\ mode u = 2 /\ tmr u = (n / 512) mod 256 /\ 16 * pre u + pre16 u = n mod 512 /\ tfl u = (tfl s || (131072 <=? n)).
Proof.
  intros h es s H W F Mo N. cbv zeta. destruct (timer_run h es s H W F (timer_code_ok h es s H N)) as (D & M1 & M2 & _). cbv zeta in *.
  destruct (M2 Mo) as [T1 T2]. assert (WU := wf_run h es s H W F). assert (PU := phase_range _ WU).
  set (u := run h es s) in *. unfold total, phase in T1, T2, PU. 
  replace (512 * tmr s + 16 * pre s + pre16 s + (ticks u - ticks s)) with (512 * tmr s + (16 * pre s + pre16 s) + (ticks u - ticks s)) by lia.
  set (n := 512 * tmr s + (16 * pre s + pre16 s) + (ticks u - ticks s)) in *. split; [exact D|]. split; [congruence|].
  assert (TU : 0 <= tmr u < 256) by apply WU. assert (E := Z.div_mod n 131072 ltac:(lia)). rewrite <- T1 in E.
  assert (E2 : n = (16 * pre u + pre16 u) + (tmr u + (n / 131072) * 256) * 512) by lia.
  split; [|split; [|exact T2] ].
  - rewrite E2 at 1. rewrite Z.div_add by lia. rewrite (Z.div_small (16 * pre u + pre16 u)) by exact PU. rewrite Z.add_0_l, Z.mod_add by lia. rewrite Z.mod_small by exact TU. reflexivity.
  - rewrite E2 at 1. rewrite Z.mod_add by lia. rewrite Z.mod_small by exact PU. reflexivity.
Qed.
(** the overflow never interrupts: from reset, in any history, an interrupt routine is entered only at 3, when the
    external interrupt is enabled and its pin low *)
Theorem C152_m48_no_timer_interrupt : forall h es s jk, wfh h -> wf s -> Forall evok es -> 0 <= jk < 256 ->
  let t := run h es (reset s) in let u := snd (do_inst h jk t) in
  isr t = false -> isr u = true -> PC u = 3 /\ int u = false /\ ene u = 1.
Proof.
  intros h es s jk H W F J t u I1 I2.
  assert (WR : wf (reset s)) by (unfold wf, reset in *; cbn; repeat split; try apply W; lia).
  assert (WT : wf t) by (apply wf_run; assumption). assert (IT : irq t = 0) by (apply irq_run; try assumption; reflexivity).
  assert (IK := irq_ticked h jk t H WT J IT). assert (WK := wf_ticked h jk t H WT J). unfold u in *. rewrite do_inst_eq in * by assumption. cbn [snd] in *.
  assert (N : isr (ticked h jk t) = false).
  { unfold ticked. cbv zeta. change (isr (set_ticks ?v ?t)) with (isr t). rewrite (rest_isr _ _ (proj1 (proj2 (tick_hw_eq _ _ (wf_exec_inst h jk t H WT J))))).
    destruct (Z.eq_dec (code h t) 147) as [E | E]; [|rewrite isr_exec_inst by assumption; exact I1].
    rewrite exec_inst_eq by exact WT. rewrite E. reflexivity. }
  rewrite side_do_interrupt in * by exact IK. rewrite N in *. cbn [negb andb] in *.
  assert (G : forall b, isr (if b : bool then accept_it h (PC t) 3 (ticked h jk t) else ticked h jk t) = true -> b = true) by (intros [|] Q; [reflexivity|congruence]).
  assert (IN : forall x, int (accept_it h (PC t) 3 x) = int x) by (intros x; exact (f_equal (fun p => snd (snd (fst p))) (side_push h (PC t) true (set_isr true x)))).
  assert (EN : forall x, ene (accept_it h (PC t) 3 x) = ene x) by (intros x; exact (f_equal (fun p => snd (fst (snd (fst (fst p))))) (side_push h (PC t) true (set_isr true x)))).
  destruct (fst (fst (exec_inst h jk t))); [| |congruence]; apply G in I2; rewrite I2; rewrite IN, EN; apply andb_true_iff in I2; destruct I2 as [I2 I3];
  (split; [reflexivity|]; split; [apply negb_true_iff, I3|]; assert (Q : ene (ticked h jk t) = 0 \/ ene (ticked h jk t) = 1) by apply WK; destruct Q as [Q | Q]; [rewrite Q in I2; discriminate I2|exact Q]).
Qed.
(** STRT T, 32 NOP take 160 ticks: the timer should be 1; it is after 512 ticks.  Enabled, it overflows without an interrupt *)
Example C152_case : let h := prog [85] in
  tmr (run h (repeat (Step 0) 33) s0) = 0 /\ tmr (run h (repeat (Step 0) 102) s0) = 0 /\ tmr (run h (repeat (Step 0) 103) s0) = 1 /\
  (let u := run (prog [37; 35; 255; 98; 85]) (repeat (Step 0) 110) s0 in (tmr u, tfl u, ovf u, ien u, isr u)) = (0, true, true, 1, false).
Proof. repeat split; vm_compute; reflexivity. Qed.

(** ** C153: the event counter *)
(** as counter (or stopped) the timer never changes, whatever edges T1 has *)
Theorem C153_m48_counter : forall h es s, wfh h -> wf s -> Forall evok es -> mode s <> 2 -> Forall (fun c => timer_code c = false) (executed h es s) ->
  tmr (run h es s) = tmr s /\ tfl (run h es s) = tfl s.
Proof. intros h es s H W F Mo N. destruct (timer_run h es s H W F (timer_code_ok h es s H N)) as (_ & _ & _ & M3). apply M3, Mo. Qed.
Example C153_case : let h := prog [69] in let s := happen h (Step 0) s0 in
  mode s = 1 /\ tmr (run h [PinT1 1; PinT1 0; Step 0; PinT1 1; PinT1 0] s) = 0 /\ t1 (run h [PinT1 1; PinT1 0] s) = false /\ t1 (run h [PinT1 0; PinT1 1] s) = true.
Proof. repeat split; vm_compute; reflexivity. Qed.

(** ** C154: register banks *)
(** SEL RB selects which eight bytes of RAM the registers are, and nothing else changes *)
Theorem C154_m48_banks : forall h jk s (b : bool), wfh h -> wf s -> 0 <= jk < 256 -> rom h (PC s) = (if b then 213 else 197) ->
  let u := snd (exec_inst h jk s) in
  (forall n, 0 <= n < 8 -> R n u = ram s ((if b then 24 else 0) + n)) /\
  abs u = sF (cy (abs s)) (ac (abs s)) (f0 (abs s)) b (sp (abs s)) (step_pc (inner h) (abs s)).
Proof.
  intros h jk s b H W J C. cbv zeta.
  assert (Y : sem h jk (rom h (PC s)) (step_pc (inner h) (abs s)) = Some (let x := step_pc (inner h) (abs s) in sF (cy x) (ac x) (f0 x) b (sp x) x)) by (rewrite C; destruct b; reflexivity).
  assert (G : regular (rom h (PC s)) (step_pc (inner h) (abs s))) by (rewrite C; unfold regular; destruct b; cbn; repeat split; intros; discriminate).
  destruct (C145_m48_instruction h jk s _ H W J G Y) as (t & u & E & AU). rewrite E. cbn [snd].
  assert (WU : wf u) by (assert (Q := wf_exec_inst h jk s H W J); rewrite E in Q; exact Q).
  assert (SP : forall x, step_pc (inner h) x = step_pc (inner h) x) by reflexivity.
  assert (SF : cy (step_pc (inner h) (abs s)) = cy (abs s) /\ ac (step_pc (inner h) (abs s)) = ac (abs s) /\ f0 (step_pc (inner h) (abs s)) = f0 (abs s) /\ sp (step_pc (inner h) (abs s)) = sp (abs s) /\ rm (step_pc (inner h) (abs s)) = ram s).
  { unfold step_pc. cbv zeta. match goal with |- context [if ?q then _ else _] => destruct q end; repeat split. }
  destruct SF as (F1 & F2 & F3 & F4 & F5). cbv zeta in AU. rewrite F1, F2, F3, F4 in AU. split; [|exact AU].
  intros n Hn. rewrite R_reg by exact WU. rewrite AU. unfold reg, bank.
  match goal with |- rm (sF _ _ _ _ _ ?x) ?a = _ => change (rm (sF (cy (abs s)) (ac (abs s)) (f0 (abs s)) b (sp (abs s)) x) a) with (rm x a) end. rewrite F5.
  change (bs (sF (cy (abs s)) (ac (abs s)) (f0 (abs s)) b (sp (abs s)) (step_pc (inner h) (abs s)))) with b. destruct b; reflexivity.
Qed.
(** writing a register of one bank leaves the registers of the other *)
Example C154_case : let h := prog [213; 184; 7; 197; 184; 9; 213] in let s := run h (repeat (Step 0) 5) s0 in
  (R 0 s, ram s 0, ram s 24) = (7, 9, 7).
Proof. vm_compute. reflexivity. Qed.

(** ** C155: instruction lengths *)
(** instructions with a second byte *)
Definition two_bytes (c : Z) : bool :=
  let hi := c / 16 in
  let lo := c mod 16 in
  if 8 <=? lo then (hi =? 11) || (hi =? 14) || (((hi =? 8) || (hi =? 9)) && (lo <=? 10))
  else if lo <=? 1 then hi =? 11
  else if lo =? 2 then Z.odd hi
  else if lo =? 3 then (hi <=? 2) || (hi =? 4) || (hi =? 5) || (hi =? 13)
  else (lo =? 4) || (lo =? 6).
(** jumps, calls and returns *)
Definition is_branch (c : Z) : bool := is_jcc c || is_djnz c || is_long c || (c =? 131) || (c =? 147) || (c =? 179).
(** an instruction which is not a branch moves PC over its bytes *)
Theorem C155_m48_bytes : forall h jk s, wfh h -> wf s -> fst (fst (exec_inst h jk s)) = GO -> is_branch (rom h (PC s)) = false ->
  PC (snd (exec_inst h jk s)) = if two_bytes (rom h (PC s)) then next (next (PC s)) else next (PC s).
Proof.
  intros h jk s H W G N. change (rom h (PC s)) with (code h s) in *. assert (HC : 0 <= code h s < 256) by apply rom_range, H.
  assert (V : itab_at (code h s) <> Invalid /\ itab_at (code h s) <> NoMethod).
  { split; intros O; rewrite exec_inst_eq, O in G by exact W; discriminate G. }
  assert (X := sweep 256 (fun c => match itab_at c with Invalid | NoMethod => true | o => is_branch c || (negb (jumps o) && Bool.eqb (takes o) (two_bytes c)) end) ltac:(vm_compute; reflexivity) _ HC). cbv beta in X.
  rewrite N in X. destruct V as [V1 V2]. rewrite exec_go by assumption. cbn [snd].
  assert (Y : negb (jumps (itab_at (code h s))) && Bool.eqb (takes (itab_at (code h s))) (two_bytes (code h s)) = true) by (destruct (itab_at (code h s)); try congruence; exact X).
  apply andb_true_iff in Y. destruct Y as [Y1 Y2]. apply negb_true_iff in Y1. apply Bool.eqb_prop in Y2.
  rewrite PC_exec by (exact Y1 || apply wf_fetched, W). rewrite PC_fetched, Y2. reflexivity.
Qed.
(** the length the disassembler shows is right for every instruction but ENT0 CLK (two for one) and ANL BUS,#data (one for two) *)
Theorem C155_m48_length : forall h jk x c, 0 <= c < 256 -> sem h jk c x <> None ->
  (nth (Z.to_nat c) len_tab 1 = (if two_bytes c then 2 else 1) <-> c <> 117 /\ c <> 152).
Proof.
  intros h jk x c Hc V.
  assert (NI : itab_at c <> Invalid) by (intros E; apply V, invalid_sem; assumption).
  assert (X := sweep 256 (fun c => match itab_at c with Invalid => true | _ => Bool.eqb (nth (Z.to_nat c) len_tab 1 =? (if two_bytes c then 2 else 1)) (negb (c =? 117) && negb (c =? 152)) end) ltac:(vm_compute; reflexivity) c Hc). cbv beta in X.
  assert (Y : (nth (Z.to_nat c) len_tab 1 =? (if two_bytes c then 2 else 1)) = negb (c =? 117) && negb (c =? 152)) by (destruct (itab_at c); try (apply Bool.eqb_prop, X); congruence).
  rewrite <- Z.eqb_eq, Y, andb_true_iff, !negb_true_iff, !Z.eqb_neq. reflexivity.
Qed.
Example C155_case : two_bytes 35 = true /\ is_branch 35 = false /\ PC (happen (prog [35; 7]) (Step 0) s0) = 2 /\ PC (happen (prog [152; 7]) (Step 0) s0) = 2 /\ nth 152 len_tab 1 = 1.
Proof. repeat split; vm_compute; reflexivity. Qed.

Print Assumptions C145_m48_instruction.
Print Assumptions C146_m48_djnz.
Print Assumptions C146_m48_addc_indirect.
Print Assumptions C146_m48_movd_out.
Print Assumptions C146_m48_movd_in.
Print Assumptions C146_m48_orld_anld.
Print Assumptions C146_m48_page_end.
Print Assumptions C146_m48_long_in_service.
Print Assumptions C147_m48_undefined.
Print Assumptions C148_m48_cycles.
Print Assumptions C149_m48_invariant.
Print Assumptions C149_m48_bank.
Print Assumptions C150_m48_stack.
Print Assumptions C150_m48_stack_overflow.
Print Assumptions C151_m48_accept.
Print Assumptions C151_m48_no_nesting.
Print Assumptions C151_m48_return.
Print Assumptions C152_m48_timer.
Print Assumptions C152_m48_no_timer_interrupt.
Print Assumptions C153_m48_counter.
Print Assumptions C154_m48_banks.
Print Assumptions C155_m48_bytes.
Print Assumptions C155_m48_length.
