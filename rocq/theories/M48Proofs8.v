(** MCS-48: program counter, timer and interrupts over histories, stack. *)
From Verif Require Import Base M48Model M48Spec M48Proofs M48Proofs2 M48Proofs3 M48Proofs4 M48Proofs5 M48Proofs6 M48Proofs7.

(** ** The program counter *)
Lemma PC_fetched h s : PC (fetched h s) = next (PC s).
Proof. unfold fetched. cbv zeta. match goal with |- PC (if ?b then _ else _) = _ => destruct b end; reflexivity. Qed.
Lemma PC_wr_ram h a v s : PC (wr_ram h a v s) = PC s. Proof. unfold wr_ram. destruct (a <? rs h); reflexivity. Qed.
Lemma PC_wr h l v s : PC (wr h l v s) = PC s. Proof. destruct l; [reflexivity|apply PC_wr_ram]. Qed.
Lemma PC_wr_port p v s : PC (wr_port p v s) = PC s. Proof. unfold wr_port. destruct (p =? 1); reflexivity. Qed.
Lemma PC_get h jk x s : wf s -> PC (snd (get h jk x s)) = match x with SI => next (PC s) | _ => PC s end.
Proof. intros W. destruct x; cbn [get]; [reflexivity|]. rewrite fetch_eq by exact W. apply PC_fetched. Qed.
Definition jumps (o : op) : bool :=
  match o with JMP | CALL | RET | RETR | JMPP | DJNZ | JB | JTF | JNT0 | JT0 | JNT1 | JT1 | JF0 | JF1 | JNI | JNZ | JZ | JNC | JC => true | _ => false end.
Definition takes (o : op) : bool :=
  match o with ADD _ SI | LOG _ SI | MOVA SI | MOVLI _ | ORLB | ANLB | ORLP _ | ANLP _ => true | _ => false end.
Lemma PC_exec h jk ipc c o s : wf s -> jumps o = false -> PC (exec h jk ipc c o s) = if takes o then next (PC s) else PC s.
Proof.
  intros W N. assert (F := PC_fetched h s).
  destruct o; try discriminate N; unfold exec; try reflexivity.
  - assert (G := PC_get h jk x s W). destruct (get h jk x s) as [v t]. destruct x; exact G.
  - assert (G := PC_get h jk x s W). destruct (get h jk x s) as [v t]. destruct x; exact G.
  - assert (G := PC_get h jk x s W). destruct (get h jk x s) as [v t]. destruct x; exact G.
  - apply PC_wr.
  - rewrite fetch_eq by exact W. rewrite PC_wr. exact F.
  - apply PC_wr.
  - apply PC_wr.
  - cbv zeta. rewrite PC_wr. reflexivity.
  - cbv zeta. rewrite PC_wr. reflexivity.
  - cbv zeta. match goal with |- PC (if ?b then _ else _) = _ => destruct b end; reflexivity.
  - cbv zeta. match goal with |- PC (if ?b then _ else _) = _ => destruct b end; reflexivity.
  - rewrite fetch_eq by exact W. exact F.
  - rewrite fetch_eq by exact W. exact F.
  - apply PC_wr_port.
  - rewrite fetch_eq by exact W. rewrite PC_wr_port. exact F.
  - rewrite fetch_eq by exact W. rewrite PC_wr_port. exact F.
Qed.
Lemma next_bank p : 0 <= p < 4096 -> next p / 2048 = p / 2048.
Proof.
  intros. unfold next. assert (0 <= (p + 1) mod 2048 < 2048) by (apply Z.mod_pos_bound; lia).
  rewrite Z.add_comm, Z.mul_comm, Z.div_add by lia. rewrite (Z.div_small ((p + 1) mod 2048)) by lia. lia.
Qed.
Lemma page_bank p b : 0 <= p < 4096 -> 0 <= b < 256 -> (256 * (p / 256) + b) / 2048 = p / 2048.
Proof.
  intros Hp Hb. change 2048 with (256 * 8). rewrite <- !Z.div_div by lia. rewrite Z.add_comm, Z.mul_comm, Z.div_add by lia. rewrite (Z.div_small b) by lia. reflexivity.
Qed.
Definition leaves (o : op) : bool := match o with JMP | CALL | RET | RETR => true | _ => false end.
Lemma bank_jif h c s : wfh h -> wf s -> PC (jif h c s) / 2048 = PC s / 2048.
Proof.
  intros H W. assert (HP : 0 <= PC s < 4096) by apply W. assert (HN := next_range (PC s) HP). assert (B := next_bank (PC s) HP).
  unfold jif. rewrite fetch_eq by exact W. destruct c; [|rewrite PC_fetched; exact B].
  change (PC (set_PC ?v ?t)) with v. rewrite PC_fetched, page_eq by exact HN. rewrite lor_page by (apply rom_range, H). rewrite page_bank by (exact HN || apply rom_range, H). exact B.
Qed.
Lemma bank_exec h jk ipc c o s : wfh h -> wf s -> leaves o = false -> PC (exec h jk ipc c o s) / 2048 = PC s / 2048.
Proof.
  intros H W N. assert (HP : 0 <= PC s < 4096) by apply W. assert (HN := next_range (PC s) HP). assert (B := next_bank (PC s) HP).
  destruct (jumps o) eqn:EJ; [|rewrite PC_exec by assumption; destruct (takes o); [exact B|reflexivity] ].
  destruct o; try discriminate N; try discriminate EJ; unfold exec; try (apply bank_jif; assumption).
  - cbv zeta. change (PC (set_PC ?v ?t)) with v. rewrite page_eq by exact HP. rewrite lor_page by (apply rom_range, H). apply page_bank; [exact HP|apply rom_range, H].
  - unfold djnz. rewrite fetch_eq by exact W. cbv zeta. change (PC (set_PC ?v ?t)) with v. change (PC (set_R ?n ?v ?t)) with (PC t).
    rewrite PC_fetched, page_eq by exact HN. rewrite page_bank by (exact HN || apply rom_range, H). exact B.
Qed.

(** ** Timer fields *)
Definition tim (s : cpu) := (tmr s, pre16 s, pre s, mode s, tfl s, ticks s).
Definition touches (o : op) : bool := match o with JTF | MOVTA | STRTCNT | STRTT | STOPTCNT => true | _ => false end.
Lemma side_tim s t : side s = side t -> tim s = tim t.
Proof. intros E. exact (f_equal (fun p => (fst (fst (fst (fst (fst (fst (fst p)))))), snd (fst (fst (fst (fst (fst (fst p)))))), snd (fst (fst (fst (fst (fst p))))), snd (fst (fst (fst (fst p)))), snd (fst (fst (fst p))), snd p)) E). Qed.
Lemma tim_exec_inst h jk s : wfh h -> wf s -> touches (itab_at (code h s)) = false -> tim (snd (exec_inst h jk s)) = tim s.
Proof.
  intros H W N. destruct (special (itab_at (code h s))) eqn:E.
  - rewrite exec_inst_eq by exact W. assert (F := side_tim _ _ (side_fetched h s)).
    destruct (itab_at (code h s)); try discriminate E; try discriminate N; cbn [snd exec]; exact F.
  - apply side_tim, side_exec_inst; assumption.
Qed.
Lemma tim_push h ipc f s : tim (push h ipc f s) = tim s. Proof. apply side_tim, side_push. Qed.
Lemma tim_do_interrupt h ipc s : tim (do_interrupt h ipc s) = tim s.
Proof.
  unfold do_interrupt. destruct (isr s); [reflexivity|]. assert (S1 : forall a t, tim (set_PC a t) = tim t) by reflexivity.
  destruct (_ && _); [unfold accept_it; rewrite S1, tim_push; reflexivity|]. destruct (_ && _); [unfold accept_it; rewrite S1, tim_push; reflexivity|reflexivity].
Qed.
Lemma ticks_nonneg c : 0 <= nth (Z.to_nat c) tick_tab20 0.
Proof.
  assert (F : Forall (fun v => 0 <= v) tick_tab20) by (repeat constructor; discriminate). rewrite Forall_forall in F.
  destruct (nth_in_or_default (Z.to_nat c) tick_tab20 0) as [I | E]; [apply F, I|rewrite E; lia].
Qed.
Lemma exec_inst_ticks h jk s : wf s -> snd (fst (exec_inst h jk s)) = nth (Z.to_nat (code h s)) tick_tab20 0.
Proof. intros W. rewrite exec_inst_eq by exact W. destruct (itab_at (code h s)); reflexivity. Qed.
(** the timer after one instruction *)
Lemma timer_step h jk s : wfh h -> wf s -> 0 <= jk < 256 -> touches (itab_at (code h s)) = false ->
  let u := snd (do_inst h jk s) in let d := ticks u - ticks s in
  0 <= d /\ mode u = mode s /\ phase u = (phase s + d) mod 512 /\
  tmr u = (if mode s =? 2 then (tmr s + (phase s + d) / 512) mod 256 else tmr s) /\
  tfl u = (tfl s || ((mode s =? 2) && (256 <=? tmr s + (phase s + d) / 512))).
Proof.
  intros H W J N. cbv zeta.
  assert (E : tim (snd (do_inst h jk s)) = tim (ticked h jk s)).
  { rewrite do_inst_eq by assumption. cbn [snd]. destruct (fst (fst (exec_inst h jk s))); rewrite ?tim_do_interrupt; reflexivity. }
  assert (X := tim_exec_inst h jk s H W N). assert (T := exec_inst_ticks h jk s W). assert (TN := ticks_nonneg (code h s)).
  destruct (tick_hw_eq (Z.to_nat (snd (fst (exec_inst h jk s)))) _ (wf_exec_inst h jk s H W J)) as (_ & R & P & HT & HF).
  unfold ticked in E. cbv zeta in E. set (u := snd (exec_inst h jk s)) in *. set (v := snd (do_inst h jk s)) in *. set (n := snd (fst (exec_inst h jk s))) in *.
  set (w := tick_hw (Z.to_nat n) u) in *. rewrite Z2Nat.id in P, HT, HF by (rewrite T; exact TN).
  assert (M1 : mode w = mode u) by (apply rest_mode, R).
  unfold tim in E, X. cbn [tmr pre16 pre mode tfl ticks set_ticks] in E.
  assert (E1 : tmr v = tmr w) by exact (f_equal (fun p => fst (fst (fst (fst (fst p))))) E).
  assert (E2 : pre16 v = pre16 w) by exact (f_equal (fun p => snd (fst (fst (fst (fst p))))) E).
  assert (E3 : pre v = pre w) by exact (f_equal (fun p => snd (fst (fst (fst p)))) E).
  assert (E4 : mode v = mode w) by exact (f_equal (fun p => snd (fst (fst p))) E).
  assert (E5 : tfl v = tfl w) by exact (f_equal (fun p => snd (fst p)) E).
  assert (E6 : ticks v = ticks u + n) by exact (f_equal snd E).
  assert (X1 : tmr u = tmr s) by exact (f_equal (fun p => fst (fst (fst (fst (fst p))))) X).
  assert (X2 : pre16 u = pre16 s) by exact (f_equal (fun p => snd (fst (fst (fst (fst p))))) X).
  assert (X3 : pre u = pre s) by exact (f_equal (fun p => snd (fst (fst (fst p)))) X).
  assert (X4 : mode u = mode s) by exact (f_equal (fun p => snd (fst (fst p))) X).
  assert (X5 : tfl u = tfl s) by exact (f_equal (fun p => snd (fst p)) X).
  assert (X6 : ticks u = ticks s) by exact (f_equal snd X).
  assert (PU : phase u = phase s) by (unfold phase; rewrite X2, X3; reflexivity).
  replace (ticks v - ticks s) with n by lia. split; [rewrite T; exact TN|]. split; [congruence|].
  split; [unfold phase in *; rewrite E2, E3; rewrite P; rewrite X2, X3; reflexivity|].
  rewrite E1, E5, HT, HF, X1, X4, X5, PU. split; reflexivity.
Qed.

Lemma tim_pin h e s : match e with Step _ => False | _ => True end -> tim (happen h e s) = tim s.
Proof. destruct e; intros N; cbn [happen]; try reflexivity; [destruct N|rewrite pin_t1_eq; reflexivity|destruct (p =? 1); reflexivity]. Qed.
Definition total (s : cpu) : Z := 512 * tmr s + phase s.
Lemma phase_range s : wf s -> 0 <= phase s < 512.
Proof. intros W. unfold phase. assert (0 <= pre s < 32) by apply W. assert (0 <= pre16 s < 16) by apply W. lia. Qed.
Lemma total_range s : wf s -> 0 <= total s < 131072.
Proof. intros W. assert (X := phase_range s W). assert (0 <= tmr s < 256) by apply W. unfold total. lia. Qed.
Lemma arith1 t p d : 0 <= p < 512 -> 512 * ((t + (p + d) / 512) mod 256) + (p + d) mod 512 = (512 * t + p + d) mod 131072.
Proof.
  intros. assert (E := Z.div_mod (p + d) 512 ltac:(lia)). assert (R := Z.mod_pos_bound (p + d) 512 ltac:(lia)).
  set (q := (p + d) / 512) in *. set (r := (p + d) mod 512) in *.
  assert (E2 := Z.div_mod (t + q) 256 ltac:(lia)). assert (R2 := Z.mod_pos_bound (t + q) 256 ltac:(lia)).
  apply (Z.mod_unique _ _ ((t + q) / 256)); lia.
Qed.
Lemma arith2 t p d : 0 <= p < 512 -> (256 <=? t + (p + d) / 512) = (131072 <=? 512 * t + p + d).
Proof.
  intros. assert (E := Z.div_mod (p + d) 512 ltac:(lia)). assert (R := Z.mod_pos_bound (p + d) 512 ltac:(lia)).
  destruct (Z.leb_spec 256 (t + (p + d) / 512)), (Z.leb_spec 131072 (512 * t + p + d)); lia.
Qed.
Lemma total_step h jk s : wfh h -> wf s -> 0 <= jk < 256 -> touches (itab_at (code h s)) = false ->
  let u := snd (do_inst h jk s) in let n := total s + (ticks u - ticks s) in
  0 <= ticks u - ticks s /\ mode u = mode s /\ phase u = n mod 512 /\
  (mode s = 2 -> total u = n mod 131072 /\ tfl u = (tfl s || (131072 <=? n))) /\ (mode s <> 2 -> tmr u = tmr s /\ tfl u = tfl s).
Proof.
  intros H W J N. cbv zeta. destruct (timer_step h jk s H W J N) as (D & M1 & P & HT & HF). cbv zeta in *.
  set (d := ticks (snd (do_inst h jk s)) - ticks s) in *. split; [exact D|]. split; [exact M1|]. split.
  - rewrite P. unfold total. replace (512 * tmr s + phase s + d) with (phase s + d + tmr s * 512) by lia. rewrite Z.mod_add by lia. reflexivity.
  - split; intros E.
    + rewrite E in HT, HF. change (2 =? 2) with true in *. cbv iota in HT. rewrite andb_true_l in HF. assert (X := phase_range s W). split.
      * unfold total. rewrite HT, P. apply arith1, X.
      * rewrite HF. unfold total. rewrite arith2 by exact X. reflexivity.
    + apply Z.eqb_neq in E. rewrite E in HT, HF. rewrite andb_false_l, orb_false_r in HF. split; assumption.
Qed.
Definition no_touch (h : chip) (es : list ev) (s : cpu) : Prop := Forall (fun c => touches (itab_at c) = false) (executed h es s).
Lemma timer_run h es : forall s, wfh h -> wf s -> Forall evok es -> no_touch h es s ->
  let u := run h es s in let n := total s + (ticks u - ticks s) in
  0 <= ticks u - ticks s /\ mode u = mode s /\
  (mode s = 2 -> total u = n mod 131072 /\ tfl u = (tfl s || (131072 <=? n))) /\ (mode s <> 2 -> tmr u = tmr s /\ tfl u = tfl s).
Proof.
  induction es as [|e es IH]; intros s H W F N.
  - cbv zeta. unfold run. cbn [fold_left]. rewrite Z.sub_diag, Z.add_0_r. split; [lia|]. split; [reflexivity|]. assert (X := total_range s W). split; intros E; [|split; reflexivity].
    rewrite Z.mod_small by exact X. replace (131072 <=? total s) with false by (symmetry; apply Z.leb_gt; lia). rewrite orb_false_r. split; reflexivity.
  - assert (FE : evok e) by (inversion F; assumption). assert (FR : Forall evok es) by (inversion F; assumption).
    cbv zeta. change (run h (e :: es) s) with (run h es (happen h e s)). assert (W2 := wf_happen h e s H W FE).
    assert (N2 : no_touch h es (happen h e s)). { unfold no_touch in *. cbn [executed] in N. apply Forall_app in N. apply N. }
    specialize (IH _ H W2 FR N2). cbv zeta in IH. destruct IH as (I1 & I2 & I3 & I4).
    set (u := run h es (happen h e s)) in *. set (t := happen h e s) in *.
    assert (ST : 0 <= ticks t - ticks s /\ mode t = mode s /\ (mode s = 2 -> total t = (total s + (ticks t - ticks s)) mod 131072 /\ tfl t = (tfl s || (131072 <=? total s + (ticks t - ticks s)))) /\ (mode s <> 2 -> tmr t = tmr s /\ tfl t = tfl s)).
    { destruct (match e with Step _ => true | _ => false end) eqn:ES.
      - destruct e; try discriminate ES. unfold no_touch in N. cbn [executed app] in N. assert (N1 : touches (itab_at (code h s)) = false) by (inversion N; assumption).
        destruct (total_step h jk s H W FE N1) as (S1 & S2 & S3 & S4 & S5). split; [exact S1|]. split; [exact S2|]. split; assumption.
      - assert (P : tim t = tim s) by (apply tim_pin; destruct e; try exact I; discriminate ES).
        assert (E1 : tmr t = tmr s) by exact (f_equal (fun p => fst (fst (fst (fst (fst p))))) P).
        assert (E2 : pre16 t = pre16 s) by exact (f_equal (fun p => snd (fst (fst (fst (fst p))))) P).
        assert (E3 : pre t = pre s) by exact (f_equal (fun p => snd (fst (fst (fst p)))) P).
        assert (E4 : mode t = mode s) by exact (f_equal (fun p => snd (fst (fst p))) P).
        assert (E5 : tfl t = tfl s) by exact (f_equal (fun p => snd (fst p)) P).
        assert (E6 : ticks t = ticks s) by exact (f_equal snd P).
        assert (ET : total t = total s) by (unfold total, phase; rewrite E1, E2, E3; reflexivity).
        rewrite E6, Z.sub_diag, Z.add_0_r, ET, E4, E5, E1. split; [lia|]. split; [reflexivity|]. assert (X := total_range s W). split; intros E; [|split; reflexivity].
        rewrite Z.mod_small by exact X. replace (131072 <=? total s) with false by (symmetry; apply Z.leb_gt; lia). rewrite orb_false_r. split; reflexivity. }
    destruct ST as (S1 & S2 & S3 & S4). split; [lia|]. split; [congruence|]. split; intros E.
    + assert (E' : mode t = 2) by congruence. destruct (S3 E) as [T1 T2]. destruct (I3 E') as [T3 T4]. rewrite T3, T4, T1, T2. split.
      * rewrite Z.add_mod_idemp_l by lia. f_equal. lia.
      * rewrite <- orb_assoc. f_equal. set (a := total s + (ticks t - ticks s)) in *. assert (XT := total_range s W).
        replace (total s + (ticks u - ticks s)) with (a + (ticks u - ticks t)) by (unfold a; lia).
        destruct (Z.leb_spec 131072 a).
        -- cbn [orb]. symmetry. apply Z.leb_le. lia.
        -- rewrite Z.mod_small by (unfold a in *; lia). reflexivity.
    + assert (E' : mode t <> 2) by congruence. destruct (S4 E) as [T1 T2]. destruct (I4 E') as [T3 T4]. split; congruence.
Qed.
Lemma tim_ticks s t : tim s = tim t -> ticks s = ticks t. Proof. intros E. exact (f_equal snd E). Qed.
Lemma ticks_set n s : ticks (set_ticks n s) = n. Proof. reflexivity. Qed.
Lemma ticks_ticked h jk s : ticks (ticked h jk s) = ticks (snd (exec_inst h jk s)) + snd (fst (exec_inst h jk s)).
Proof. unfold ticked. cbv zeta. apply ticks_set. Qed.
