(** Proofs about the MOS6502: branches, jumps, calls, and the whole table. *)
From Verif Require Import Base M65Model M65Spec M65Obs M65Proofs M65Proofs2 M65Proofs3 M65Proofs4.

Lemma run_cyc f i m n n' : run_ok f i m n -> (forall c, n c = n' c) -> run_ok f i m n'.
Proof.
  intros H E t0 Hw. destruct (H t0 Hw) as (H1 & H2 & H3 & H4 & H5 & H6 & H7 & H8 & H9 & H10). cbv zeta.
  rewrite <- E. auto 12.
Qed.

Lemma i8_signed v : is_u8 v -> i8 v = signed v.
Proof. intros H. unfold i8, signed. rewrite u8_id by assumption. reflexivity. Qed.
Lemma run_branch (cf : st -> bool) i :
  (forall t, cf t = taken i (view t)) -> (forall t, cf (start t) = cf t) ->
  (forall c l off, effect i l off c = branch_if (taken i c) c off) ->
  (forall c v, taken i (setPC v c) = taken i c) ->
  (forall c, comparable i Rel c) -> i <> RTI -> i <> BRK ->
  run_ok (fun t => branch (cf t) t) i Rel (fun c => cycles false i Rel c).
Proof.
  intros Hc Hs He Htk Hcomp N1 N2 t0 Ht. cbv zeta. rewrite Hs.
  unfold branch. rewrite (fetch_k _ 1 _ (start_pc t0)). change (1 + 1) with 2. change (mem (start t0)) with (mem t0).
  cbv beta iota zeta. change (mem t0 ((PC t0 + 1) mod 65536)) with (at1 (view t0)).
  assert (Hb : is_u8 (at1 (view t0))) by apply Ht. rewrite i8_signed by assumption.
  rewrite He, Htk. rewrite Hc. unfold cycles.
  set (q := (PC t0 + 2) mod 65536). assert (Hq : 0 <= q < 65536) by (unfold q; lia).
  change ((pc (view t0) + 2) mod 65536) with q. change (setPC (pc (view t0) + len Rel) (view t0)) with (view (sPC q (start t0))).
  change (PC (sPC q (start t0))) with q.
  set (o := signed (at1 (view t0))). change (u16 (q + o)) with ((q + o) mod 65536).
  assert (Hqo : 0 <= (q + o) mod 65536 < 65536) by lia.
  rewrite (u16_id q Hq). rewrite cross_page by assumption.
  destruct (taken i (view t0)).
  - set (b := negb (page q =? page ((q + o) mod 65536))).
    split; [intros _; destruct b; reflexivity|]. split; [destruct b; exact Ht|].
    split; [destruct b; cbn [PC tick sTk sPC tick_if]; lia|]. split; [destruct b; cbn [PC tick sTk sPC tick_if]; lia|].
    split; [destruct b; reflexivity|]. split; [destruct b; reflexivity|]. split; [destruct b; destruct i; congruence || reflexivity|].
    split; [destruct b; reflexivity|]. split; [destruct b; cbn [ticks tick sTk sPC tick_if start sSetB b2z]; lia|].
    destruct b; exact (fun h => h).
  - split; [reflexivity|]. split; [exact Ht|]. split; [cbn [PC tick sTk sPC]; lia|]. split; [cbn [PC tick sTk sPC]; lia|].
    split; [reflexivity|]. split; [reflexivity|]. split; [destruct i; congruence || reflexivity|]. split; [reflexivity|].
    split; [cbn [ticks tick sTk sPC start sSetB]; lia|]. exact (fun h => h).
Qed.

Lemma run_JMPa : run_ok JMPa JMP Ab (fun _ => 3).
Proof.
  intros t0 Ht. cbv zeta. unfold JMPa. rewrite i16f_start by assumption. pose proof (word_ok t0 Ht) as Hw.
  split. { intros _. unfold view at 1. cbn [effect operand addr]. unfold setPC. rewrite (Z.mod_small (word (view t0))) by assumption. reflexivity. }
  split; [exact Ht|]. split; [cbn [PC tick sTk sPC]; lia|]. split; [cbn [PC tick sTk sPC]; lia|].
  split; [reflexivity|]. split; [reflexivity|]. split; [reflexivity|]. split; [reflexivity|].
  split; [cbn [ticks tick sTk sPC start sSetB]; lia|exact (fun h => h)].
Qed.
Lemma run_JMPi : run_ok JMPi JMP Ind (fun _ => 5).
Proof.
  intros t0 Ht. cbv zeta. unfold JMPi. rewrite i16f_start by assumption. pose proof (word_ok t0 Ht) as Hw.
  set (t1 := sPC ((PC t0 + 3) mod 65536) (start t0)). pose proof (u16_range (read_addr t1 (word (view t0)))) as Hr.
  assert (E : word (view t0) <> 65535 -> u16 (read_addr t1 (word (view t0))) = memword (view t0) (word (view t0))).
  { intros Hn. rewrite read_addr_eq; [|exact Ht|lia]. unfold memword. rewrite (Z.mod_small (word (view t0) + 1)) by lia.
    apply u16_id. apply word_range; apply Ht. }
  split. { intros Hn. unfold view at 1. cbn [effect operand addr]. unfold setPC.
    assert (Hm : 0 <= memword (view t0) (word (view t0)) < 65536) by (apply word_range; apply Ht).
    rewrite (Z.mod_small (memword _ _)) by assumption. cbn [PC tick sTk sPC]. rewrite (E Hn). reflexivity. }
  split; [exact Ht|]. split; [cbn [PC tick sTk sPC]; lia|]. split; [cbn [PC tick sTk sPC]; lia|].
  split; [reflexivity|]. split; [reflexivity|]. split; [reflexivity|]. split; [reflexivity|].
  split; [cbn [ticks tick sTk sPC start sSetB t1]; lia|exact (fun h => h)].
Qed.
Lemma push_addr_ok v t : bytes t -> 0 <= v < 65536 ->
  view (push_addr v t) = push (v mod 256) (push (v / 256) (view t)) /\ bytes (push_addr v t) /\ kept_tk 2 t (push_addr v t) /\
  PC (push_addr v t) = PC t /\ rF (push_addr v t) = rF t.
Proof.
  intros Ht Hv. assert (E1 : u8 (Z.shiftr v 8) = v / 256). { rewrite Z.shiftr_div_pow2 by lia. change (2 ^ 8) with 256. apply u8_id. lia. }
  assert (E : push_addr v t = tick 2 (psh (v mod 256) (psh (v / 256) t))). { unfold push_addr. rewrite E1. reflexivity. }
  destruct (psh_ok (v / 256) t Ht) as (H1 & H2 & (K1 & K2 & K3 & K4 & K5) & H4 & H5 & _).
  destruct (psh_ok (v mod 256) _ H2) as (G1 & G2 & (J1 & J2 & J3 & J4 & J5) & G4 & G5 & _).
  rewrite E. split; [change (view (tick 2 (psh (v mod 256) (psh (v / 256) t)))) with (view (psh (v mod 256) (psh (v / 256) t))); rewrite G1, H1; reflexivity|].
  split; [exact G2|]. split; [|split; [cbn [PC tick sTk]; congruence|cbn [rF tick sTk]; congruence]].
  unfold kept_tk. cbn [brk set_b lvl hole ticks tick sTk]. repeat (split; [congruence|]). lia.
Qed.
Lemma run_JSR : run_ok M65Model.JSR JSR Ab (fun _ => 3).
Proof.
  intros t0 Ht. cbv zeta. unfold M65Model.JSR. rewrite (fetch_k _ 1 _ (start_pc t0)). cbv beta iota.
  change (PC (sPC ((PC t0 + (1 + 1)) mod 65536) (start t0))) with ((PC t0 + 2) mod 65536).
  rewrite (fetch_k (PC t0) 2) by reflexivity. cbv beta iota. change (2 + 1) with 3. change (1 + 1) with 2.
  set (t1 := sPC ((PC t0 + 3) mod 65536) (sPC ((PC t0 + 2) mod 65536) (start t0))).
  change (mem (sPC ((PC t0 + 2) mod 65536) (start t0))) with (mem t0). change (mem (start t0)) with (mem t0).
  assert (Ew : u16 (mem t0 ((PC t0 + 1) mod 65536) + mem t0 ((PC t0 + 2) mod 65536) * 256) = word (view t0)).
  { rewrite Z.mul_comm. apply u16_id. exact (word_ok t0 Ht). }
  rewrite Ew. pose proof (word_ok t0 Ht) as Hw.
  assert (Hq : 0 <= (PC t0 + 2) mod 65536 < 65536) by lia.
  destruct (push_addr_ok ((PC t0 + 2) mod 65536) t1 Ht Hq) as (H1 & H2 & (K1 & K2 & K3 & K4 & K5) & H4 & H5).
  set (t2 := push_addr ((PC t0 + 2) mod 65536) t1) in *.
  split. { intros _. cbn [effect operand addr]. cbv zeta.
    change (setPC (pc (view t0) + len Ab) (view t0)) with (view t1).
    replace ((pc (view t1) - 1) mod 65536) with ((PC t0 + 2) mod 65536) by (change (pc (view t1)) with ((PC t0 + 3) mod 65536); lia).
    rewrite <- H1. unfold setPC. rewrite (Z.mod_small (word (view t0))) by assumption. reflexivity. }
  split; [exact H2|]. split; [cbn [PC sPC]; lia|]. split; [cbn [PC sPC]; lia|].
  cbn [brk set_b lvl hole ticks sPC rF]. split; [exact K1|]. split; [exact K2|]. split; [exact K3|]. split; [exact K4|].
  split; [rewrite K5; cbn [ticks t1 sPC start tick sTk sSetB]; lia|]. rewrite H5. exact (fun h => h).
Qed.
Lemma run_RTS : run_ok M65Model.RTS RTS Imp (fun _ => 6).
Proof.
  intros t0 Ht. cbv zeta. unfold M65Model.RTS.
  destruct (pop_addr_ok (start t0) Ht) as (v & t1 & E & (lo & hi & d & P1 & P2 & Ev & Hlo & Hhi) & Hb & (K1 & K2 & K3 & K4 & K5) & Hpc & HrF).
  rewrite E. cbn [brk set_b lvl hole ticks tick sTk sPC PC rF].
  assert (Hv : 0 <= v < 65536) by (rewrite Ev; apply word_range; assumption).
  assert (Hrt : rts_from (view t0) = v).
  { unfold rts_from. change (pull (view t0)) with (let r := pull (view (start t0)) in (fst r, mkCpu (a (snd r)) (x (snd r)) (y (snd r)) (s (snd r)) (p (snd r)) (pc (view t0)) (ram (snd r)))).
    rewrite P1. cbv beta iota zeta. cbn [fst snd]. assert (fst (pull d) = hi) by (rewrite P2; reflexivity).
    unfold pull in *. cbn [setS s ram fst] in *. rewrite H. symmetry. exact Ev. }
  split. { intros Hn. cbn [comparable] in Hn. rewrite Hrt in Hn. cbn [effect operand].
    change (setPC (pc (view t0) + len Imp) (view t0)) with (view (start t0)). rewrite P1, P2, <- Ev.
    unfold setPC. rewrite (Z.mod_small (v + 1)) by lia. reflexivity. }
  split; [exact Hb|]. split; [lia|]. split; [intros Hn; specialize (Hn eq_refl); cbn [comparable] in Hn; lia|].
  split; [exact K1|]. split; [exact K2|]. split; [exact K3|]. split; [exact K4|]. split; [rewrite K5; cbn [ticks start tick sTk sPC sSetB]; lia|].
  rewrite HrF. exact (fun h => h).
Qed.
Lemma pull_P f d : pull (setP f d) = (fst (pull d), setP f (snd (pull d))). Proof. reflexivity. Qed.
Lemma run_RTI : run_ok M65Model.RTI RTI Imp (fun _ => 6).
Proof.
  intros t0 Ht. cbv zeta. set (u := start t0) in *. assert (Hu : bytes u) by exact Ht.
  destruct (pul_ok u Hu) as (f & t1 & E1 & Ep & Hf & Hb1 & (K1 & K2 & K3 & K4 & K5) & Hpc1 & HrF1).
  set (f' := Z.ldiff f (Z.lor 0x20 flagB)). assert (Hf' : is_u8 f') by (unfold f'; bytef).
  assert (Hb2 : bytes (W cF f' t1)) by (apply bytes_W; assumption).
  destruct (pop_addr_ok (W cF f' t1) Hb2) as (v & t2 & E2 & (lo & hi & d & P1 & P2 & Ev & Hlo & Hhi) & Hb & (J1 & J2 & J3 & J4 & J5) & Hpc & HrF).
  assert (E : M65Model.RTI u = tick 3 (sLvl (pop_level (lvl t2)) (sPC v t2))).
  { change (M65Model.RTI u) with (let (f, t1) := pul u in let (v, t2) := pop_addr (W cF (Z.ldiff (u8 f) (Z.lor 0x20 flagB)) t1) in tick 3 (sLvl (pop_level (lvl (sPC v t2))) (sPC v t2))).
    rewrite E1. rewrite (u8_id f Hf). fold f'. rewrite E2. reflexivity. }
  rewrite E. cbn [brk set_b lvl hole ticks tick sTk sPC sLvl PC rF].
  assert (Hv : 0 <= v < 65536) by (rewrite Ev; apply word_range; assumption).
  split. { intros _. cbn [effect operand]. change (setPC (pc (view t0) + len Imp) (view t0)) with (view u). rewrite Ep.
    rewrite view_WF in P1 by assumption. unfold f' in P1. rewrite flags_popped in P1 by assumption. rewrite pull_P in P1.
    destruct (pull (view t1)) as [lo' d'] eqn:Q1. cbn [fst snd] in P1. apply pair_equal_spec in P1. destruct P1 as [-> <-].
    rewrite pull_P in P2. destruct (pull d') as [hi' d2] eqn:Q2. cbn [fst snd] in P2. apply pair_equal_spec in P2. destruct P2 as [-> P2].
    rewrite <- Ev. rewrite P2. unfold setPC. rewrite (Z.mod_small v) by assumption. reflexivity. }
  split; [exact Hb|]. split; [lia|]. split; [lia|].
  split; [rewrite J1; exact K1|]. split; [rewrite J2; exact K2|]. split; [rewrite J3; cbn [W lvl sF]; rewrite K3; reflexivity|].
  split; [rewrite J4; exact K4|]. split; [rewrite J5; cbn [W ticks sF]; rewrite K5; cbn [ticks u start tick sTk sPC sSetB]; lia|].
  rewrite HrF. cbn [W rF sF]. rewrite (u8_id _ Hf'). unfold f'. fbits. discriminate.
Qed.
Lemma BRK_exec t0 : bytes t0 -> let t' := M65Model.BRK (start t0) in
  view t' = setPC (pc (view t0) + 2) (view t0) /\ bytes t' /\ brk t' = true /\ set_b t' = true /\ lvl t' = lvl t0 /\ hole t' = hole t0 /\
  ticks t' = ticks t0 + 1 /\ Z.testbit (rF t') 4 = true.
Proof.
  intros Ht. cbv zeta. unfold M65Model.BRK. cbv zeta.
  assert (HF : is_u8 (Z.lor (rF t0) flagB)) by (apply lor_u8; [apply Ht|bytef]).
  assert (Hb : bytes (W cF (Z.lor (rF t0) flagB) t0)) by (apply bytes_W; exact Ht).
  split. { unfold view. cbn [W rA rX rY rSP rF PC mem sF sPC sSetB sBrk start tick sTk a x y s p pc ram]. rewrite land_ffff, (u8_id _ HF). unfold setPC. cbn [a x y s p pc ram].
    f_equal; [unfold flags_of; f_equal; fbits; reflexivity|lia]. }
  split; [exact Hb|]. repeat (split; [reflexivity|]). cbn [W rF sF sPC sSetB sBrk start tick sTk]. rewrite (u8_id _ HF). fbits. reflexivity.
Qed.

(* ---------------------------------------------------------- the table *)
Definition entry_ok (e : Z * (st -> st)) : Prop :=
  exists i m, decode (fst e) = Some (i, m) /\ (i <> BRK -> run_ok (snd e) i m (fun c => cycles false i m c + extra false i m c)) /\
    (i = BRK -> snd e = M65Model.BRK).

Ltac mem_entry Hop Hmd :=
  eexists _, _; split; [vm_compute; reflexivity|]; split; [intros _|discriminate];
  eapply run_cyc; [eapply run_mem; [exact Hop|exact Hmd|intros; exact I|discriminate|discriminate|discriminate|reflexivity]|
    intros c; unfold cycles, extra, kind_of; try destruct (crossed false _ c); reflexivity].
Ltac impl_entry Hi :=
  eexists _, _; split; [vm_compute; reflexivity|]; split; [intros _|discriminate];
  eapply run_cyc; [eapply run_impl; [exact Hi|discriminate|intros; exact I|reflexivity]|reflexivity].
Ltac br_entry :=
  eexists _, _; split; [vm_compute; reflexivity|]; split; [intros _|discriminate];
  eapply run_cyc; [eapply run_branch;
    [intros t; cbn [taken]; change flagN with 0x80; change flagV with 0x40; change flagC with 1; change flagZ with 2;
       rewrite ?isset_80, ?isset_40, ?isset_2, ?isset_1; reflexivity
    |reflexivity|reflexivity|reflexivity|intros; exact I|discriminate|discriminate]|
    intros c; unfold extra; lia].
Ltac run_entry Hr :=
  eexists _, _; split; [vm_compute; reflexivity|]; split; [intros _|discriminate];
  eapply run_cyc; [exact Hr|reflexivity].
Ltac one Hop := 
  match goal with
  | |- entry_ok (_, fun s => _ (indX s)) => mem_entry Hop mode_indx
  | |- entry_ok (_, fun s => _ (indY s)) => mem_entry Hop mode_indy
  | |- entry_ok (_, fun s => _ (zpg s)) => mem_entry Hop mode_zp
  | |- entry_ok (_, fun s => _ (zpgX s)) => mem_entry Hop mode_zpx
  | |- entry_ok (_, fun s => _ (zpgY s)) => mem_entry Hop mode_zpy
  | |- entry_ok (_, fun s => _ (imm8 s)) => mem_entry Hop mode_imm
  | |- entry_ok (_, fun s => _ (abs s)) => mem_entry Hop mode_ab
  | |- entry_ok (_, fun s => _ (absX s)) => mem_entry Hop mode_abx
  | |- entry_ok (_, fun s => _ (absY s)) => mem_entry Hop mode_aby
  | |- entry_ok (_, fun s => _ (absX (tick 1 s))) => mem_entry Hop mode_staabx
  | |- entry_ok (_, fun s => _ (rmwzpg s)) => mem_entry Hop mode_rmwzp
  | |- entry_ok (_, fun s => _ (rmwzpgX s)) => mem_entry Hop mode_rmwzpx
  | |- entry_ok (_, fun s => _ (rmwabs s)) => mem_entry Hop mode_rmwab
  | |- entry_ok (_, fun s => _ (rmwabsX s)) => mem_entry Hop mode_rmwabx
  | |- entry_ok (_, fun s => _ (cA, tick 1 s)) => mem_entry Hop mode_acc
  end.
Lemma itab_ok : Forall entry_ok itab.
Proof.
  unfold itab.
  repeat match goal with
  | |- Forall entry_ok [] => apply Forall_nil
  | |- Forall entry_ok (_ :: _) => apply Forall_cons
  | |- entry_ok (_, M65Model.NOP) => impl_entry i_NOP
  | |- entry_ok (_, M65Model.CLI) => impl_entry i_CLI
  | |- entry_ok (_, M65Model.SEI) => impl_entry i_SEI
  | |- entry_ok (_, M65Model.PHP) => impl_entry i_PHP
  | |- entry_ok (_, M65Model.CLC) => impl_entry i_CLC
  | |- entry_ok (_, M65Model.PLP) => impl_entry i_PLP
  | |- entry_ok (_, SEc) => impl_entry i_SEC
  | |- entry_ok (_, M65Model.PHA) => impl_entry i_PHA
  | |- entry_ok (_, M65Model.PLA) => impl_entry i_PLA
  | |- entry_ok (_, M65Model.DEY) => impl_entry i_DEY
  | |- entry_ok (_, M65Model.TYA) => impl_entry i_TYA
  | |- entry_ok (_, M65Model.TAY) => impl_entry i_TAY
  | |- entry_ok (_, M65Model.CLV) => impl_entry i_CLV
  | |- entry_ok (_, M65Model.INY) => impl_entry i_INY
  | |- entry_ok (_, M65Model.CLD) => impl_entry i_CLD
  | |- entry_ok (_, M65Model.INX) => impl_entry i_INX
  | |- entry_ok (_, M65Model.SED) => impl_entry i_SED
  | |- entry_ok (_, M65Model.TXA) => impl_entry i_TXA
  | |- entry_ok (_, M65Model.TXS) => impl_entry i_TXS
  | |- entry_ok (_, M65Model.TAX) => impl_entry i_TAX
  | |- entry_ok (_, M65Model.TSX) => impl_entry i_TSX
  | |- entry_ok (_, M65Model.DEX) => impl_entry i_DEX
  | |- entry_ok (_, M65Model.RTI) => run_entry run_RTI
  | |- entry_ok (_, M65Model.RTS) => run_entry run_RTS
  | |- entry_ok (_, M65Model.JSR) => run_entry run_JSR
  | |- entry_ok (_, JMPa) => run_entry run_JMPa
  | |- entry_ok (_, JMPi) => run_entry run_JMPi
  | |- entry_ok (_, M65Model.BRK) => eexists _, _; split; [vm_compute; reflexivity|]; split; [intros H; contradiction|reflexivity]
  | |- entry_ok (_, fun s => branch _ s) => br_entry
  | |- entry_ok (_, fun s => ora _) => one op_ora
  | |- entry_ok (_, fun s => And _) => one op_and
  | |- entry_ok (_, fun s => eor _) => one op_eor
  | |- entry_ok (_, fun s => adc _) => one op_adc
  | |- entry_ok (_, fun s => sbc _) => one op_sbc
  | |- entry_ok (_, fun s => lda _) => one op_lda
  | |- entry_ok (_, fun s => ld cX _) => one op_ldx
  | |- entry_ok (_, fun s => ld cY _) => one op_ldy
  | |- entry_ok (_, fun s => stR cA _) => one op_sta
  | |- entry_ok (_, fun s => stR cX _) => one op_stx
  | |- entry_ok (_, fun s => stR cY _) => one op_sty
  | |- entry_ok (_, fun s => cmp cA _) => one op_cmp
  | |- entry_ok (_, fun s => cmp cX _) => one op_cpx
  | |- entry_ok (_, fun s => cmp cY _) => one op_cpy
  | |- entry_ok (_, fun s => bit _) => one op_bit
  | |- entry_ok (_, fun s => inc _) => one op_inc
  | |- entry_ok (_, fun s => dec _) => one op_dec
  | |- entry_ok (_, fun s => asl _) => one op_asl
  | |- entry_ok (_, fun s => lsr _) => one op_lsr
  | |- entry_ok (_, fun s => rol _) => one op_rol
  | |- entry_ok (_, fun s => ror _) => one op_ror
  end.
Qed.
