(** Properties C53 to C63: the MOS6502 simulator. The manual is M65Spec. *)
From Coq Require Import Ascii.
From Verif Require Import Base M65Model M65DisModel M65Spec M65Obs M65Proofs M65Proofs2 M65Proofs3 M65Proofs4 M65Proofs5 M65Proofs6 M65Proofs7.
Open Scope Z_scope.

(** A concrete machine used by the examples: [l] at address [org], the rest of
    memory 0, SP = FD, no flag set. *)
Definition prog (org : Z) (l : list Z) : Z -> Z := fun k => if k <? org then 0 else nth (Z.to_nat (k - org)) (map (fun v => v mod 256) l) 0.
Definition dev (org : Z) (l : list Z) : st := mk 0 0 0 0xfd 0 org (prog org l) 0 0 false false [] 0.
Lemma prog_byte org l k : is_u8 (prog org l k).
Proof.
  unfold prog, is_u8. destruct (k <? org); [lia|].
  destruct (nth_in_or_default (Z.to_nat (k - org)) (map (fun v => v mod 256) l) 0) as [H|H].
  - apply in_map_iff in H. destruct H as (v & <- & _). apply Z.mod_pos_bound. lia.
  - rewrite H. lia.
Qed.
Lemma dev_wf org l : 0 <= org < 65536 -> wf (dev org l) /\ no_B (dev org l).
Proof.
  intros H. split; [|split; reflexivity]. split; [|exact H]. unfold bytes, dev. cbn [rA rX rY rSP rF hole i8d mem].
  repeat (split; [unfold is_u8; lia|]). intros k. apply prog_byte.
Qed.
(** [n] instructions without requests *)
Fixpoint steps (g : bool) (n : nat) (t : st) : st :=
  match n with O => t | S k => snd (do_inst g false false (steps g k t)) end.

(* ------------------------------------------------------------------ C53 *)
(** Where the simulator is claimed to do what the manual says *)
Definition covered (t : st) : Prop :=
  exists i m, current (view t) = Some (i, m) /\ comparable i m (view t) /\ zp_end m (view t) = false /\ (i = BRK -> ap t < 4).

Lemma cur_op t i m : wf t -> current (view t) = Some (i, m) -> decode (op_at t) = Some (i, m).
Proof. intros W H. rewrite (op_at_ram t W). exact H. Qed.
Lemma mnem_brk (i : mnem) : i = BRK \/ i <> BRK. Proof. destruct i; (left; reflexivity) || (right; discriminate). Qed.
Lemma step_exact g t i m : wf t -> no_B t -> current (view t) = Some (i, m) -> comparable i m (view t) -> (i = BRK -> ap t < 4) ->
  exists t', do_inst g false false t = (true, t') /\ step false (view t) = Some (view t') /\ wf t' /\ no_B t'.
Proof.
  intros W (HB & Hb) Hc Hcmp Hl. pose proof (cur_op t i m W Hc) as Ho. destruct (mnem_brk i) as [->|Hi].
  - destruct (step_BRK g t m W Ho (Hl eq_refl)) as (t' & H1 & H2 & H3 & H4 & H5 & _).
    exists t'. split; [exact H1|]. split; [exact H2|]. split; [exact H3|]. split; assumption.
  - destruct (step_plain g t i m W Hb Ho Hi Hcmp) as (t' & H1 & H2 & H3 & H4 & H5 & _).
    exists t'. split; [exact H1|]. split; [exact H2|]. split; [exact H3|]. split; [exact (H5 HB)|exact H4].
Qed.

(** Executing an instruction has the effect the manual gives on everything a
    program can see. *)
Theorem C53_instruction_follows_manual : forall g t, wf t -> no_B t -> covered t ->
  exists t', do_inst g false false t = (true, t') /\ step true (view t) = Some (view t') /\ wf t' /\ no_B t'.
Proof.
  intros g t W B (i & m & Hc & Hcmp & Hz & Hl). destruct (step_exact g t i m W B Hc Hcmp Hl) as (t' & H1 & H2 & H3).
  exists t'. split; [exact H1|]. split; [|exact H3]. rewrite (step_w t i m (proj1 W) Hc Hz). exact H2.
Qed.
Theorem C53_program_follows_manual : forall g t n, wf t -> no_B t -> (forall k, (k < n)%nat -> covered (steps g k t)) ->
  forall k, (k < n)%nat -> step true (view (steps g k t)) = Some (view (steps g (S k) t)).
Proof.
  intros g t n W B H.
  assert (Hk : forall k, (k <= n)%nat -> wf (steps g k t) /\ no_B (steps g k t)).
  { induction k as [|k IH]; intros Hk; [split; assumption|]. destruct (IH ltac:(lia)) as [W1 B1].
    destruct (C53_instruction_follows_manual g _ W1 B1 (H k ltac:(lia))) as (t' & H1 & H2 & H3).
    cbn [steps]. rewrite H1. exact H3. }
  intros k Hk'. destruct (Hk k ltac:(lia)) as [W1 B1].
  destruct (C53_instruction_follows_manual g _ W1 B1 (H k Hk')) as (t' & H1 & H2 & H3).
  cbn [steps]. rewrite H1. exact H2.
Qed.
(* LDX #5; CLC; LDA #F0; ADC #25; STA 30; INC 30; BNE +0; LDA (80),Y *)
Definition ex53 := dev 0x400 [0xa2; 5; 0x18; 0xa9; 0xf0; 0x69; 0x25; 0x85; 0x30; 0xe6; 0x30; 0xd0; 0; 0xb1; 0x80].
Example C53_example : (forall k, (k < 8)%nat -> covered (steps false k ex53)) /\
  rA (steps false 4 ex53) = 0x15 /\ fC (p (view (steps false 4 ex53))) = true /\
  mem (steps false 6 ex53) 0x30 = 0x16 /\ PC (steps false 8 ex53) = 0x40f /\ ticks (steps false 8 ex53) = 2+2+2+2+3+5+3+5.
Proof.
  split; [|vm_compute; repeat split; reflexivity].
  intros k Hk. do 8 (destruct k as [|k]; [eexists _, _; split; [vm_compute; reflexivity|]; split;
    [exact I || vm_compute; reflexivity|]; split; [vm_compute; reflexivity|discriminate]|]). lia.
Qed.
Print Assumptions C53_instruction_follows_manual.
Print Assumptions C53_program_follows_manual.

(* ------------------------------------------------------------------ C54 *)
(** Without the restriction on page zero pointers: the instruction does what
    the manual says with the location after 00FF being 0100 instead of 0000. *)
Theorem C54_page_zero_pointer : forall g t i m, wf t -> no_B t -> current (view t) = Some (i, m) -> comparable i m (view t) -> i <> BRK ->
  exists t', do_inst g false false t = (true, t') /\ step false (view t) = Some (view t') /\
  (zp_end m (view t) = true ->
     operand false m (view t) =
     At ((ram (view t) 0xff + 256 * ram (view t) 0x100 + (match m with IndY => y (view t) | _ => 0 end)) mod 65536)).
Proof.
  intros g t i m W B Hc Hcmp Hi. destruct (step_exact g t i m W B Hc Hcmp (fun e => False_ind _ (Hi e))) as (t' & H1 & H2 & _).
  exists t'. split; [exact H1|]. split; [exact H2|]. intros Hz.
  destruct W as [(_ & _ & _ & _ & _ & _ & _ & HM) _].
  pose proof (HM 255) as M1. pose proof (HM 256) as M2. unfold is_u8 in M1, M2.
  destruct m; cbn [zp_end] in Hz; try discriminate; apply Z.eqb_eq in Hz; cbn [operand]; rewrite Hz; unfold zpword; f_equal.
  change (ram (view t) 255) with (mem t 255) in *. change (ram (view t) (255 + 1)) with (mem t 256).
  change (ram (view t) 256) with (mem t 256) in *. rewrite Z.mod_small; lia.
Qed.
Definition mm_dec (q r : mnem * mode) : {q = r} + {q <> r}.
Proof. decide equality; decide equality. Defined.
Definition only (q : mnem * mode) (k v : Z) : bool :=
  match decode v with Some r => if mm_dec r q then v =? k else true | None => true end.
Lemma code_is q k : forallb (only q k) (zrange 256) = true -> forall v, is_u8 v -> decode v = Some q -> v = k.
Proof.
  intros C v H D. pose proof (sweep1 (only q k) 256%nat C v H) as S.
  unfold only in S. rewrite D in S. destruct (mm_dec q q); [apply Z.eqb_eq; exact S|contradiction].
Qed.
Lemma entry_of q k f : forallb (only q k) (zrange 256) = true -> look itab k = Some f ->
  forall t, wf t -> current (view t) = Some q -> exec_inst t = (true, f (start t)).
Proof.
  intros C E t W Hc. apply exec_some. destruct q as [i m]. pose proof (cur_op t i m W Hc) as Ho.
  rewrite (code_is (i, m) k C (op_at t) (op_byte t (proj1 W)) Ho). exact E.
Qed.
(** RTS with FFFF on the stack: the program counter becomes 10000h, and the
    next opcode comes from the cell of non-existing memory, not from 0. *)
Theorem C54_rts_at_end : forall g t, wf t -> no_B t -> current (view t) = Some (RTS, Imp) -> rts_from (view t) = 65535 ->
  exists t', do_inst g false false t = (true, t') /\ PC t' = 65536 /\ rSP t' = (rSP t + 2) mod 256 /\ fst (fetch t') = hole t.
Proof.
  intros g t W (HB & Hb) Hc Hr. pose proof (cur_op t _ _ W Hc) as Ho. destruct W as [Wb Wp].
  unfold do_inst. rewrite (entry_of (RTS, Imp) 0x60 _ ltac:(vm_compute; reflexivity) eq_refl t (conj Wb Wp) Hc). unfold M65Model.RTS.
  destruct (pop_addr_ok (start t) (start_bytes t Wb)) as (v & t' & Hp & (lo & hi & d & P1 & P2 & Hv & U1 & U2) & Hb' & Hk & Hpc & HF).
  rewrite Hp. eexists. rewrite quiet; [|destruct Hk as (K1 & _); cbn [brk tick sTk sPC]; rewrite K1; exact Hb].
  split; [reflexivity|]. 
  assert (Ev : v = 65535).
  { rewrite <- Hr, Hv. unfold rts_from. change (pull (view t)) with (let c' := setS (s (view t) + 1) (view t) in (ram c' (256 + s c'), c')).
    change (pull (view (start t))) with (let c' := setS (s (view t) + 1) (view (start t)) in (ram c' (256 + s c'), c')) in P1.
    cbv zeta in *. apply pair_equal_spec in P1. destruct P1 as [<- <-]. unfold pull in P2. cbv zeta in P2.
    apply pair_equal_spec in P2. destruct P2 as [<- _]. reflexivity. }
  split; [cbn [PC tick sTk sPC]; lia|]. split.
  - change (rSP (tick 3 (sPC (v + 1) t'))) with (s (view t')).
    unfold pull in P1, P2. cbv zeta in P1, P2. apply pair_equal_spec in P1. destruct P1 as [_ P1]. apply pair_equal_spec in P2. destruct P2 as [_ P2].
    rewrite <- P2, <- P1. cbn [setS s]. change (s (view (start t))) with (rSP t). rewrite Zplus_mod_idemp_l. f_equal. lia.
  - unfold fetch, rd. cbn [fst PC tick sTk sPC hole mem]. rewrite Ev. cbn. destruct Hk as (_ & _ & _ & K & _). exact K.
Qed.
(** JMP (FFFF): the high byte comes from the cell of non-existing memory. *)
Theorem C54_jmp_ffff : forall g t, wf t -> no_B t -> current (view t) = Some (JMP, Ind) -> word (view t) = 65535 ->
  exists t', do_inst g false false t = (true, t') /\ PC t' = mem t 65535 + 256 * hole t /\
    mem t' = mem t /\ (rA t', rX t', rY t', rSP t', rF t') = (rA t, rX t, rY t, rSP t, rF t).
Proof.
  intros g t W (HB & Hb) Hc Hr. unfold do_inst.
  rewrite (entry_of (JMP, Ind) 0x6c _ ltac:(vm_compute; reflexivity) eq_refl t W Hc). unfold JMPi.
  rewrite i16f_start by apply W. eexists. rewrite quiet by exact Hb. split; [reflexivity|]. split; [|split; reflexivity].
  cbn [PC tick sTk sPC]. rewrite Hr. unfold read_addr.
  change (rd (sPC ((PC t + 3) mod 65536) (start t)) (65535 + 1)) with (hole t).
  change (rd (sPC ((PC t + 3) mod 65536) (start t)) 65535) with (mem t 65535).
  destruct W as [(_ & _ & _ & _ & _ & Hh & _ & HM) _]. specialize (HM 65535). unfold is_u8 in *. rewrite !u8_id by assumption.
  rewrite u16_id; lia.
Qed.
(* LDA (FF,X) with X = 0, 00FF: 34, 0100: 12, 0000: 56: reads 1234, the manual reads 5634 *)
Definition ex54 := wr 0x1234 0x77 (wr 0xff 0x34 (wr 0x100 0x12 (wr 0 0x56 (wr 0x5634 0x99 (dev 0x400 [0xa1; 0xff]))))).
Example C54_example : current (view ex54) = Some (LDA, IndX) /\ zp_end IndX (view ex54) = true /\
  rA (steps false 1 ex54) = 0x77 /\ (exists c, step true (view ex54) = Some c /\ a c = 0x99) /\
  rts_from (view (wr 0x1fe 0xff (wr 0x1ff 0xff (dev 0x400 [0x60])))) = 65535 /\
  word (view (dev 0x400 [0x6c; 0xff; 0xff])) = 65535.
Proof.
  split; [reflexivity|]. split; [reflexivity|]. split; [vm_compute; reflexivity|].
  split; [eexists; split; [reflexivity|vm_compute; reflexivity]|]. split; vm_compute; reflexivity.
Qed.
Print Assumptions C54_page_zero_pointer.
Print Assumptions C54_rts_at_end.
Print Assumptions C54_jmp_ffff.

(* ------------------------------------------------------------------ C55 *)
(** An instruction is executed exactly when the manual defines the opcode; for
    the others the simulation reports an invalid instruction, and nothing a
    program can see, no level, no request and no clock changes, whatever
    interrupts are requested. *)
Theorem C55_invalid_opcode : forall g irq nmi t, wf t ->
  (fst (do_inst g irq nmi t) = false <-> decode (mem t (PC t)) = None) /\
  (decode (mem t (PC t)) = None ->
     let t' := snd (do_inst g irq nmi t) in
     view t' = view t /\ ticks t' = ticks t /\ lvl t' = lvl t /\ brk t' = brk t /\ rF t' = rF t).
Proof.
  intros g irq nmi t W. assert (E : mem t (PC t) = op_at t) by (rewrite (op_at_ram t W); reflexivity). rewrite E.
  pose proof (look_decode _ (op_byte t (proj1 W))) as L. unfold do_inst. split.
  - destruct (look itab (op_at t)) as [f|] eqn:F.
    + rewrite (exec_some t f F). cbn [fst]. split; [discriminate|]. intros H. apply L in H. discriminate.
    + rewrite (exec_none t F). cbn [fst]. split; [intros _; apply L; reflexivity|reflexivity].
  - intros H. apply L in H. rewrite (exec_none t H). cbn [snd]. repeat (split; [reflexivity|]). reflexivity.
Qed.
(** The manual's table has 151 opcodes, none of them twice. *)
Theorem C55_opcodes : List.length opcodes = 151%nat /\ NoDup (map fst opcodes) /\
  forall v, is_u8 v -> (decode v = None <-> ~ In v (map fst opcodes)).
Proof.
  split; [reflexivity|]. split.
  - apply (NoDup_count_occ Z.eq_dec). intros k. 
    assert (H : forallb (fun k => Nat.leb (count_occ Z.eq_dec (map fst opcodes) k) 1) (map fst opcodes) = true) by (vm_compute; reflexivity).
    rewrite forallb_forall in H. destruct (in_dec Z.eq_dec k (map fst opcodes)) as [i|n].
    + apply Nat.leb_le. apply H. exact i.
    + apply (count_occ_not_In Z.eq_dec) in n. rewrite n. auto.
  - intros v _. unfold decode. induction opcodes as [|[k q] l IH]; cbn [find_op map fst In]; [tauto|].
    destruct (Z.eqb_spec k v) as [->|n]; [split; [discriminate|tauto]|]. rewrite IH. tauto.
Qed.
Example C55_example : decode 0x02 = None /\ fst (do_inst false true true (dev 0x400 [0x02])) = false /\
  fst (do_inst false false false (dev 0x400 [0xea])) = true.
Proof. vm_compute. repeat split; reflexivity. Qed.
Print Assumptions C55_invalid_opcode.
Print Assumptions C55_opcodes.

(* ------------------------------------------------------------------ C56 *)
(** Any number of steps with any pattern of requests *)
Fixpoint run (g : bool) (l : list (bool * bool)) (t : st) : st :=
  match l with [] => t | (irq, nmi) :: r => run g r (snd (do_inst g irq nmi t)) end.
Theorem C56_state_in_range : forall g l t, bytes t -> 0 <= PC t <= 0x10000 ->
  bytes (run g l t) /\ 0 <= PC (run g l t) <= 0x10000.
Proof.
  intros g l. induction l as [|[irq nmi] l IH]; intros t H1 H2; [split; assumption|]. cbn [run].
  destruct (do_inst_safe g irq nmi t (conj H1 H2)) as [G1 G2]. apply IH; assumption.
Qed.
(** 10000h is reached only by RTS *)
Theorem C56_pc_end : forall g irq nmi t, wf t -> PC (snd (do_inst g irq nmi t)) = 0x10000 ->
  current (view t) = Some (RTS, Imp) /\ rts_from (view t) = 0xffff.
Proof.
  intros g irq nmi t W. unfold do_inst. pose proof (op_at_ram t W) as Er. unfold current. rewrite <- Er.
  destruct (decode (op_at t)) as [[i m]|] eqn:D.
  - assert (Hint : forall t1, any_state t1 -> PC (do_interrupt g irq nmi t1) = 0x10000 -> PC t1 = 0x10000).
    { intros t1 [B1 P1]. unfold do_interrupt. cbv zeta.
      repeat match goal with |- context [if ?b then accept_it ?ad ?lv ?bb t1 else _] => destruct b;
        [destruct (accept_safe ad lv bb t1 B1) as [_ Q]; intros E; rewrite E in Q; destruct Q as [_ Q]; vm_compute in Q; discriminate|] end. auto. }
    destruct (mnem_brk i) as [->|Hi].
    + destruct (table _ _ _ (op_byte t (proj1 W)) D) as (f & E & _ & Ef). rewrite (exec_some t f E), (Ef eq_refl). cbn [snd].
      destruct (BRK_exec t (proj1 W)) as (H1 & H2 & _). intros HP. apply Hint in HP.
      * change (PC (M65Model.BRK (start t))) with (pc (view (M65Model.BRK (start t)))) in HP. rewrite H1 in HP. unfold setPC in HP. cbn [pc] in HP.
        pose proof (Z.mod_pos_bound (pc (view t) + 2) 65536 ltac:(lia)) as Q. rewrite HP in Q. destruct Q as [_ Q]; vm_compute in Q; discriminate.
      * split; [exact H2|]. change (PC (M65Model.BRK (start t))) with (pc (view (M65Model.BRK (start t)))). rewrite H1. unfold setPC. cbn [pc]. lia.
    + destruct (exec_run t i m (proj1 W) D Hi) as (t' & E2 & HV & H2 & H3 & H4 & _). rewrite E2. cbn [snd]. intros HP. apply Hint in HP; [|split; assumption].
      assert (NC : ~ (i = RTS -> comparable i m (view t))) by (intros C; specialize (H4 C); rewrite HP in H4; vm_compute in H4; discriminate).
      assert (EE : (exists c, i = RTS /\ m = c) \/ i <> RTS) by (destruct i; (left; eexists; split; reflexivity) || (right; discriminate)).
      destruct EE as [(c & -> & <-)|NR].
      * assert (m = Imp) as ->.
        { destruct m; try reflexivity; exfalso; refine (eq_true_false_abs _ (sweep1 (fun v => match decode v with Some (RTS, Imp) => true | Some (RTS, _) => false | _ => true end) 256%nat eq_refl (op_at t) (op_byte t (proj1 W))) _); cbv beta; rewrite D; reflexivity. }
        split; [reflexivity|]. cbn [comparable] in NC. destruct (Z.eq_dec (rts_from (view t)) 0xffff) as [e|n]; [exact e|]. exfalso. apply NC. intros _. exact n.
      * exfalso. apply NC. intros e. contradiction.
  - apply look_decode in D; [|apply op_byte; apply W]. rewrite (exec_none t D). cbn [snd PC sPC sSetB]. intros HP. destruct W as [_ W]. rewrite HP in W. destruct W as [_ W]; vm_compute in W; discriminate.
Qed.
Example C56_example : bytes (dev 0x400 [0x60]) /\
  PC (snd (do_inst false false false (wr 0x1fe 0xff (wr 0x1ff 0xff (dev 0x400 [0x60]))))) = 0x10000 /\
  PC (run false [(true, false); (false, true); (true, true)] (dev 0x400 [0x58; 0xea; 0x02])) = 2.
Proof. split; [apply (dev_wf 0x400 [0x60]); lia|]. vm_compute. split; reflexivity. Qed.
Print Assumptions C56_state_in_range.
Print Assumptions C56_pc_end.

(* ------------------------------------------------------------------ C57 *)
(** The clock cycles of an instruction are those of the manual, but for
    [extra]: NOP takes 1, JSR 3; STA abs,X takes one more, INC, DEC and the
    shifts at abs,X one more when a page boundary is crossed; STA abs,Y and STA
    (ind),Y one less when no page boundary is crossed. *)
Theorem C57_cycles : forall g t i m, wf t -> no_B t -> current (view t) = Some (i, m) -> i <> BRK ->
  ticks (snd (do_inst g false false t)) = ticks t + cycles false i m (view t) + extra false i m (view t) /\
  (zp_end m (view t) = false -> cycles true i m (view t) = cycles false i m (view t) /\ extra true i m (view t) = extra false i m (view t)).
Proof.
  intros g t i m W (HB & Hb) Hc Hi. split.
  - destruct (exec_run t i m (proj1 W) (cur_op t i m W Hc) Hi) as (t' & E & _ & _ & _ & _ & K & _ & _ & _ & T & _).
    unfold do_inst. rewrite E, quiet by congruence. exact T.
  - intros Hz. destruct (operand_w m (view t) Hz (at1_byte t (proj1 W))) as [_ C]. unfold cycles, extra. rewrite C. split; reflexivity.
Qed.
(** When [extra] is 0, that is for every instruction but the named ones *)
Theorem C57_cycles_as_manual : forall g t i m, wf t -> no_B t -> current (view t) = Some (i, m) -> zp_end m (view t) = false ->
  i <> BRK -> i <> NOP -> i <> JSR -> ~ (kind_of i = Writes /\ (m = AbX \/ m = AbY \/ m = IndY)) -> ~ (kind_of i = Modifies /\ m = AbX) ->
  ticks (snd (do_inst g false false t)) = ticks t + cycles true i m (view t).
Proof.
  intros g t i m W B Hc Hz N1 N2 N3 N4 N5. destruct (C57_cycles g t i m W B Hc N1) as [H1 H2]. destruct (H2 Hz) as [-> _].
  rewrite H1. assert (E : extra false i m (view t) = 0).
  { destruct i; try contradiction; try reflexivity; destruct m; try reflexivity; exfalso; (apply N4; split; [reflexivity|tauto]) || (apply N5; split; reflexivity). }
  lia.
Qed.
(** BRK takes 8 instead of 7 *)
Theorem C57_brk_cycles : forall g t, wf t -> no_B t -> current (view t) = Some (BRK, Imp) -> ap t < 4 ->
  ticks (snd (do_inst g false false t)) = ticks t + cycles true BRK Imp (view t) + 1.
Proof.
  intros g t W B Hc Ha. destruct (step_BRK g t Imp W (cur_op t _ _ W Hc) Ha) as (t' & E & _ & _ & _ & _ & _ & T). rewrite E. cbn [snd cycles]. lia.
Qed.
Example C57_example :
  current (view (dev 0x400 [0x7d; 0xff; 0x10])) = Some (ADC, AbX) /\
  ticks (snd (do_inst false false false (sX 1 (dev 0x400 [0x7d; 0xff; 0x10])))) = 5 /\
  ticks (snd (do_inst false false false (dev 0x400 [0xea]))) = 1 /\ cycles true NOP Imp (view (dev 0x400 [0xea])) = 2 /\
  ticks (snd (do_inst false false false (dev 0x400 [0x9d; 0; 0x10]))) = 5 /\
  ticks (snd (do_inst false false false (sX 1 (dev 0x400 [0x9d; 0xff; 0x10])))) = 6 /\
  ticks (snd (do_inst false false false (dev 0x4fb [0xd0; 0x10]))) = 4.
Proof. vm_compute. repeat split; reflexivity. Qed.
Print Assumptions C57_cycles.
Print Assumptions C57_cycles_as_manual.
Print Assumptions C57_brk_cycles.

Lemma some_inj {T} (u v : T) : Some u = Some v -> u = v. Proof. intros H. injection H as H. exact H. Qed.
Lemma true_inj {T} (u v : T) : (true, u) = (true, v) -> u = v. Proof. intros H. injection H as H. exact H. Qed.
(* ------------------------------------------------------------------ C58 *)
(** JSR goes to its operand; whatever runs then, an RTS executed with the stack
    pointer and the two bytes on the stack unchanged comes back after the JSR
    with the stack pointer as it was before. (A JSR at FFFD: C54.) *)
Theorem C58_jsr_rts : forall g t t1, wf t -> no_B t -> current (view t) = Some (JSR, Ab) -> PC t <> 0xfffd ->
  do_inst g false false t = (true, t1) ->
  PC t1 = word (view t) /\ rSP t1 = (rSP t - 2) mod 256 /\ (rA t1, rX t1, rY t1, p (view t1)) = (rA t, rX t, rY t, p (view t)) /\
  (forall k, k <> 0x100 + rSP t -> k <> 0x100 + (rSP t - 1) mod 256 -> mem t1 k = mem t k) /\
  forall t2 t3, wf t2 -> no_B t2 -> current (view t2) = Some (RTS, Imp) -> rSP t2 = rSP t1 ->
    mem t2 (0x100 + rSP t) = mem t1 (0x100 + rSP t) -> mem t2 (0x100 + (rSP t - 1) mod 256) = mem t1 (0x100 + (rSP t - 1) mod 256) ->
    do_inst g false false t2 = (true, t3) ->
    PC t3 = (PC t + 3) mod 65536 /\ rSP t3 = rSP t /\ (rA t3, rX t3, rY t3, p (view t3)) = (rA t2, rX t2, rY t2, p (view t2)) /\ mem t3 = mem t2.
Proof.
  intros g t t1 W B Hc Hpc E1.
  destruct (step_exact g t JSR Ab W B Hc I ltac:(discriminate)) as (t1' & E1' & S1 & W1 & B1). rewrite E1 in E1'. apply true_inj in E1'. subst t1'.
  unfold step in S1. unfold current in Hc. rewrite Hc in S1. apply some_inj in S1. symmetry in S1.
  set (c := setPC (pc (view t) + len Ab) (view t)) in *.
  assert (U : 0 <= rSP t < 256) by apply W.
  assert (Pw := word_ok t (proj1 W)).
  split. { change (PC t1) with (pc (view t1)). rewrite S1. cbn [effect operand addr setPC pc]. apply Z.mod_small. exact Pw. }
  split. { change (rSP t1) with (s (view t1)). rewrite S1. cbn [effect operand addr setPC push setS store s c]. change (s (view t)) with (rSP t).
    rewrite Zminus_mod_idemp_l. f_equal. lia. }
  split. { change (rA t1) with (a (view t1)). change (rX t1) with (x (view t1)). change (rY t1) with (y (view t1)). rewrite S1. reflexivity. }
  split. { intros k K1 K2. change (mem t1 k) with (ram (view t1) k). rewrite S1. cbn [effect operand addr setPC push setS store s ram c]. change (s (view t)) with (rSP t).
    change (ram (view t) k) with (mem t k). destruct (Z.eqb_spec k (256 + (rSP t - 1) mod 256)); [contradiction|]. destruct (Z.eqb_spec k (256 + rSP t)); [contradiction|reflexivity]. }
  intros t2 t3 W2 B2 Hc2 HS M1 M2 E3.
  assert (R : rts_from (view t2) = (pc c - 1) mod 65536 /\ s (effect RTS Nowhere 0 (view t2)) = s c /\ pc (effect RTS Nowhere 0 (view t2)) = pc c).
  { apply (rts_after_jsr c (view t2) (word (view t))).
    - exact U.
    - unfold c, setPC. cbn [pc]. lia.
    - change (s (view t2)) with (rSP t2). rewrite HS. change (rSP t1) with (s (view t1)). rewrite S1. reflexivity.
    - intros j Hj. unfold slot. change (s c) with (rSP t). change (ram (view t2)) with (mem t2).
      assert (ram (effect JSR (At (word (view t))) 0 c) = mem t1) as -> by (change (mem t1) with (ram (view t1)); rewrite S1; reflexivity).
      assert (j = 0 \/ j = 1) as [-> | ->] by lia; [rewrite Z.sub_0_r, Z.mod_small by lia; exact M1|exact M2]. }
  destruct R as (R1 & R2 & R3).
  assert (Hne : rts_from (view t2) <> 65535).
  { rewrite R1. unfold c, setPC. cbn [pc len]. change (pc (view t)) with (PC t). destruct W as [_ Wp]. intros Hx.
    assert ((PC t + 2) mod 65536 = 65535). { rewrite <- Hx. rewrite Zminus_mod_idemp_l. f_equal. lia. }
    apply Hpc. assert (PC t + 2 < 65536 \/ PC t + 2 >= 65536) as [H1|H1] by lia; [rewrite Z.mod_small in H by lia; lia|].
    replace (PC t + 2) with (PC t - 65534 + 1 * 65536) in H by lia. rewrite Z.mod_add, Z.mod_small in H by lia. lia. }
  destruct (step_exact g t2 RTS Imp W2 B2 Hc2 Hne ltac:(discriminate)) as (t3' & E3' & S3 & W3 & B3). rewrite E3 in E3'. apply true_inj in E3'. subst t3'.
  unfold step in S3. unfold current in Hc2. rewrite Hc2 in S3. apply some_inj in S3. symmetry in S3.
  split. { change (PC t3) with (pc (view t3)). rewrite S3. transitivity (pc (effect RTS Nowhere 0 (view t2))); [reflexivity|]. rewrite R3. reflexivity. }
  split. { change (rSP t3) with (s (view t3)). rewrite S3. transitivity (s (effect RTS Nowhere 0 (view t2))); [reflexivity|]. rewrite R2. reflexivity. }
  split. { change (rA t3) with (a (view t3)). change (rX t3) with (x (view t3)). change (rY t3) with (y (view t3)). rewrite S3. reflexivity. }
  change (mem t3) with (ram (view t3)). rewrite S3. reflexivity.
Qed.
(** PHA ... PLA gives back A, PHP ... PLP the flags, if the stack pointer and
    the byte on the stack are unchanged in between. *)
Theorem C58_push_pull : forall g t t1 (i j : mnem), wf t -> no_B t ->
  (i = PHA /\ j = PLA \/ i = PHP /\ j = PLP) -> current (view t) = Some (i, Imp) ->
  do_inst g false false t = (true, t1) ->
  rSP t1 = (rSP t - 1) mod 256 /\ (forall k, k <> 0x100 + rSP t -> mem t1 k = mem t k) /\
  forall t2 t3, wf t2 -> no_B t2 -> current (view t2) = Some (j, Imp) -> rSP t2 = rSP t1 -> mem t2 (0x100 + rSP t) = mem t1 (0x100 + rSP t) ->
    do_inst g false false t2 = (true, t3) ->
    rSP t3 = rSP t /\ mem t3 = mem t2 /\ PC t3 = (PC t2 + 1) mod 65536 /\
    (i = PHA -> rA t3 = rA t) /\ (i = PHP -> p (view t3) = p (view t)).
Proof.
  intros g t t1 i j W B Hij Hc E1.
  assert (Hn : comparable i Imp (view t) /\ i <> BRK) by (destruct Hij as [[-> _]|[-> _]]; split; try exact I; discriminate).
  destruct (step_exact g t i Imp W B Hc (proj1 Hn) (fun e => False_ind _ (proj2 Hn e))) as (t1' & E1' & S1 & W1 & B1).
  rewrite E1 in E1'. apply true_inj in E1'. subst t1'. unfold step in S1. unfold current in Hc. rewrite Hc in S1.
  assert (U : 0 <= rSP t < 256) by apply W. assert (UA : is_u8 (rA t)) by apply W.
  set (v := match i with PHA => rA t | _ => P_byte (p (view t)) true end).
  assert (S1' : view t1 = push v (setPC (pc (view t) + 1) (view t))) by (destruct Hij as [[-> _]|[-> _]]; apply some_inj in S1; rewrite <- S1; reflexivity).
  clear S1. split. { change (rSP t1) with (s (view t1)). rewrite S1'. reflexivity. }
  split. { intros k Hk. change (mem t1 k) with (ram (view t1) k). rewrite S1'. rewrite push_ram.
    change (s (setPC (pc (view t) + 1) (view t))) with (rSP t). destruct (Z.eqb_spec k (256 + rSP t)); [contradiction|reflexivity]. }
  intros t2 t3 W2 B2 Hc2 HS HM E3.
  assert (Hn2 : comparable j Imp (view t2) /\ j <> BRK) by (destruct Hij as [[_ ->]|[_ ->]]; split; try exact I; discriminate).
  destruct (step_exact g t2 j Imp W2 B2 Hc2 (proj1 Hn2) (fun e => False_ind _ (proj2 Hn2 e))) as (t3' & E3' & S3 & W3 & B3).
  rewrite E3 in E3'. apply true_inj in E3'. subst t3'. unfold step in S3. unfold current in Hc2. rewrite Hc2 in S3.
  assert (Hsp : (rSP t2 + 1) mod 256 = rSP t).
  { rewrite HS. change (rSP t1) with (s (view t1)). rewrite S1', push_s. change (s (setPC (pc (view t) + 1) (view t))) with (rSP t).
    rewrite Zplus_mod_idemp_l. replace (rSP t - 1 + 1) with (rSP t) by lia. apply Z.mod_small. exact U. }
  assert (Hv : mem t2 (256 + rSP t) = v mod 256).
  { rewrite HM. change (mem t1) with (ram (view t1)). rewrite S1', push_ram. change (s (setPC (pc (view t) + 1) (view t))) with (rSP t). rewrite Z.eqb_refl. reflexivity. }
  assert (Hpl : pull (setPC (pc (view t2) + 1) (view t2)) = (v mod 256, setS (rSP t2 + 1) (setPC (pc (view t2) + 1) (view t2)))).
  { rewrite pull_at. f_equal. change (s (setPC (pc (view t2) + 1) (view t2))) with (rSP t2). rewrite Hsp. exact Hv. }
  assert (S3' : Some (effect j Nowhere (at1 (view t2)) (setPC (pc (view t2) + 1) (view t2))) = Some (view t3))
    by (destruct Hij as [[_ ->]|[_ ->]]; exact S3).
  apply some_inj in S3'. clear S3.
  change (rSP t3) with (s (view t3)). change (mem t3) with (ram (view t3)). change (PC t3) with (pc (view t3)). change (rA t3) with (a (view t3)).
  rewrite <- S3'.
  destruct Hij as [[-> ->]|[-> ->]]; cbn [effect]; rewrite Hpl; (split; [exact Hsp|]); (split; [reflexivity|]); (split; [reflexivity|]); split; intros Hi; try discriminate.
  - change ((v mod 256) mod 256 = rA t). unfold v. rewrite !Z.mod_small; [reflexivity|exact UA|apply Z.mod_pos_bound; lia].
  - change (P_of_byte (v mod 256) = p (view t)). unfold v. rewrite Z.mod_small; [apply P_roundtrip|].
    unfold P_byte. destruct (p (view t)) as [n1 n2 n3 n4 n5 n6]. cbn [fN fV fD fI fZ fC]. destruct n1, n2, n3, n4, n5, n6; cbn; lia.
Qed.
Example C58_example :
  let t := dev 0x400 [0x20; 0x05; 0x04; 0xea; 0xea; 0x60] in
  current (view t) = Some (JSR, Ab) /\ current (view (steps false 1 t)) = Some (RTS, Imp) /\
  PC (steps false 1 t) = 0x405 /\ PC (steps false 2 t) = 0x403 /\ rSP (steps false 2 t) = 0xfd /\
  (* LDA #42; PHA; LDA #0; PLA *)
  rA (steps false 4 (dev 0x400 [0xa9; 0x42; 0x48; 0xa9; 0; 0x68])) = 0x42 /\
  (* SEC; PHP; CLC; PLP *)
  fC (p (view (steps false 4 (dev 0x400 [0x38; 0x08; 0x18; 0x28])))) = true.
Proof. vm_compute. repeat split; reflexivity. Qed.
Print Assumptions C58_jsr_rts.
Print Assumptions C58_push_pull.

(* ------------------------------------------------------------------ C59 *)
Lemma find_op_in l v q : find_op l v = Some q -> In (v, q) l.
Proof.
  induction l as [|[k r] l IH]; cbn [find_op]; [discriminate|]. destruct (Z.eqb_spec k v) as [->|]; intros H.
  - apply some_inj in H. subst r. left. reflexivity.
  - right. auto.
Qed.
Definition of_mnem (i : mnem) : list (Z * (mnem * mode)) := filter (fun e => if mm_dec (fst (snd e), Imp) (i, Imp) then true else false) opcodes.
Lemma in_of_mnem v i m : decode v = Some (i, m) -> In (v, (i, m)) (of_mnem i).
Proof.
  intros H. apply find_op_in in H. unfold of_mnem. apply filter_In. split; [exact H|]. cbn [fst snd].
  destruct (mm_dec (i, Imp) (i, Imp)); [reflexivity|contradiction].
Qed.
Lemma arith_entry v i m : i = ADC \/ i = SBC -> decode v = Some (i, m) ->
  exists md n, mode_ok md m n /\ look itab v = Some (fun t => match i with ADC => adc (md t) | _ => sbc (md t) end).
Proof.
  intros Hi H. apply in_of_mnem in H.
  destruct Hi as [-> | ->]; vm_compute in H;
  repeat (destruct H as [H|H]; [apply pair_equal_spec in H; destruct H as [<- H]; apply pair_equal_spec in H; destruct H as [_ <-];
    first [ exists imm8, (fun _ => 2); split; [exact mode_imm|reflexivity]
          | exists zpg, (fun _ => 3); split; [exact mode_zp|reflexivity]
          | exists zpgX, (fun _ => 4); split; [exact mode_zpx|reflexivity]
          | exists M65Model.abs, (fun _ => 4); split; [exact mode_ab|reflexivity]
          | exists absX, (fun b => 4 + b2z b); split; [exact mode_abx|reflexivity]
          | exists absY, (fun b => 4 + b2z b); split; [exact mode_aby|reflexivity]
          | exists indX, (fun _ => 6); split; [exact mode_indx|reflexivity]
          | exists indY, (fun b => 5 + b2z b); split; [exact mode_indy|reflexivity] ]|]); destruct H.
Qed.
(** With D set, ADC and SBC on two-digit decimal numbers (00 to 99) give the two
    digits and the carry of the decimal sum or difference, in every addressing
    mode; no other register, no other flag but N and Z (which follow the
    result) and no memory changes. *)
Theorem C59_decimal : forall g t i m,
  wf t -> no_B t -> i = ADC \/ i = SBC -> current (view t) = Some (i, m) -> fD (p (view t)) = true ->
  let v := value (operand false m (view t)) (view t) in
  is_bcd (rA t) = true -> is_bcd v = true ->
  let k := b2z (fC (p (view t))) in
  let r := if mm_dec (i, Imp) (ADC, Imp) then dec_val (rA t) + dec_val v + k else dec_val (rA t) - dec_val v - (1 - k) in
  exists t', do_inst g false false t = (true, t') /\
    rA t' = dec_byte (r mod 100) /\
    p (view t') = mkP (128 <=? rA t') (fV (p (view t))) true (fI (p (view t))) (rA t' =? 0)
                      (if mm_dec (i, Imp) (ADC, Imp) then 100 <=? r else 0 <=? r) /\
    rX t' = rX t /\ rY t' = rY t /\ rSP t' = rSP t /\ mem t' = mem t /\ PC t' = (PC t + len m) mod 65536 /\
    ticks t' = ticks t + cycles false i m (view t).
Proof.
  intros g t i m W (HB & Hb) Hi Hc HD v B1 B2 k r.
  assert (HC : current (view t) = Some (i, m)) by exact Hc.
  destruct (C57_cycles g t i m W (conj HB Hb) Hc ltac:(destruct Hi; congruence)) as [T _].
  pose proof (cur_op t i m W HC) as Ho. destruct (arith_entry _ i m Hi Ho) as (md & n & Hm & Hl).
  destruct (Hm t (proj1 W)) as (c & t' & E & _ & Opd & Hv & Hby & (K1 & K2 & K3 & K4 & K5) & Ht).
  pose proof (proj1 Opd) as Ev. 
  assert (Ev' : R c t' = v).
  { rewrite Ev. unfold v. rewrite Hv. destruct (operand false m (view t)); reflexivity. }
  assert (EA : rA t' = rA t) by (change (rA t') with (a (view t')); rewrite Hv; reflexivity).
  assert (EP : p (view t') = p (view t)) by (rewrite Hv; reflexivity).
  unfold do_inst in T |- *. rewrite (exec_some t _ Hl) in T |- *. cbv beta in T |- *. rewrite E in T |- *.
  eexists. rewrite quiet in T |- *.
  2,3: destruct Hi as [-> | ->]; [unfold adc|unfold sbc]; destruct (negb (isset (rF t') flagD)); cbn [brk M65Model.W sA sF]; congruence.
  split; [reflexivity|].
  assert (X0 : extra false i m (view t) = 0) by (destruct Hi as [-> | ->]; reflexivity).
  destruct Hi as [-> | ->].
  - destruct (adc_dec c _ t' Hby Opd ltac:(rewrite EP; exact HD) ltac:(rewrite EA; exact B1) ltac:(rewrite Ev'; exact B2)) as (H1 & H2 & H3 & H4 & (A1 & A2 & A3 & A4 & A5 & A6 & A7 & A8)).
    rewrite EA, Ev', EP in H1, H2. fold k in H1, H2. unfold r. destruct (mm_dec (ADC, Imp) (ADC, Imp)) as [_|nn]; [|contradiction].
    split; [exact H1|]. split.
    { destruct (p (view (adc (c, t')))) as [f1 f2 f3 f4 f5 f6]. cbn [fN fV fD fI fZ fC] in *. rewrite EP in *. subst. rewrite HD. reflexivity. }
    split; [exact (eq_trans A1 (f_equal x Hv))|]. split; [exact (eq_trans A2 (f_equal y Hv))|]. split; [exact (eq_trans A3 (f_equal M65Spec.s Hv))|].
    split; [exact (eq_trans A5 (f_equal ram Hv))|]. split; [exact (eq_trans A4 (f_equal pc Hv))|]. cbn [snd] in T. lia.
  - destruct (sbc_dec c _ t' Hby Opd ltac:(rewrite EP; exact HD) ltac:(rewrite EA; exact B1) ltac:(rewrite Ev'; exact B2)) as (H1 & H2 & H3 & H4 & (A1 & A2 & A3 & A4 & A5 & A6 & A7 & A8)).
    rewrite EA, Ev', EP in H1, H2. fold k in H1, H2. unfold r. destruct (mm_dec (SBC, Imp) (ADC, Imp)) as [nn|_]; [discriminate|].
    split; [exact H1|]. split.
    { destruct (p (view (sbc (c, t')))) as [f1 f2 f3 f4 f5 f6]. cbn [fN fV fD fI fZ fC] in *. rewrite EP in *. subst. rewrite HD. reflexivity. }
    split; [exact (eq_trans A1 (f_equal x Hv))|]. split; [exact (eq_trans A2 (f_equal y Hv))|]. split; [exact (eq_trans A3 (f_equal M65Spec.s Hv))|].
    split; [exact (eq_trans A5 (f_equal ram Hv))|]. split; [exact (eq_trans A4 (f_equal pc Hv))|]. cbn [snd] in T. lia.
Qed.
(* SED; SEC; LDA #58; ADC #46: 105, so 05 and a carry; then SBC #06: 99 and a borrow *)
Example C59_example :
  let t := dev 0x400 [0xf8; 0x38; 0xa9; 0x58; 0x69; 0x46; 0xe9; 0x06] in
  current (view (steps false 3 t)) = Some (ADC, Imm) /\ fD (p (view (steps false 3 t))) = true /\ is_bcd 0x58 = true /\
  rA (steps false 4 t) = 0x05 /\ fC (p (view (steps false 4 t))) = true /\
  rA (steps false 5 t) = 0x99 /\ fC (p (view (steps false 5 t))) = false.
Proof. vm_compute. repeat split; reflexivity. Qed.
Print Assumptions C59_decimal.

(* ------------------------------------------------------------------ C60 *)
(** Level of the innermost handler: 1 NMI, 3 IRQ, 4 BRK, 0 when none is open *)
Definition in_service (l : list Z) : Z := match l with [] => 0 | h :: _ => Z.max 0 h end.
Lemma ap_is t : ap t = in_service (lvl t).
Proof. unfold ap, in_service. destruct (lvl t) as [|h r]; [reflexivity|]. destruct (Z.leb_spec 0 h); lia. Qed.
Lemma isset_I t : isset (rF t) flagI = fI (p (view t)). Proof. apply isset_4. Qed.
(** What happens at the end of an instruction that left the machine in [t1] *)
Definition after (irq nmi : bool) (t1 t2 : st) : Prop :=
  let lev := in_service (lvl t1) in
  if nmi && (lev <? 1) then view t2 = interrupt false 0xfffa (view t1) /\ lvl t2 = 1 :: lvl t1 /\ ticks t2 = ticks t1 + 7
  else if irq && negb (fI (p (view t1))) && (lev <? 3) then view t2 = interrupt false 0xfffe (view t1) /\ lvl t2 = 3 :: lvl t1 /\ ticks t2 = ticks t1 + 7
  else t2 = t1.
Lemma int_after g irq nmi t1 : wf t1 -> no_B t1 -> after irq nmi t1 (do_interrupt g irq nmi t1) /\ wf (do_interrupt g irq nmi t1) /\ no_B (do_interrupt g irq nmi t1).
Proof.
  intros W1 (B1 & B2). unfold after, do_interrupt. cbv zeta. rewrite B2, !ap_is. cbn [andb].
  assert (Hland : (Z.land (rF t1) flagI =? 0) = negb (fI (p (view t1)))) by (rewrite <- isset_I; unfold isset; rewrite negb_involutive; reflexivity).
  rewrite Hland, isset_I.
  assert (Eg : (g || negb (fI (p (view t1)))) && negb (fI (p (view t1))) && irq && (in_service (lvl t1) <? 3) =
               irq && negb (fI (p (view t1))) && (in_service (lvl t1) <? 3))
    by (destruct g, (fI (p (view t1))), irq; cbn; reflexivity).
  rewrite Eg. destruct (nmi && (in_service (lvl t1) <? 1)); [|destruct (irq && negb (fI (p (view t1))) && (in_service (lvl t1) <? 3))].
  - destruct (accept_ok 0xfffa 1 false t1 (proj1 W1) (proj2 W1) ltac:(lia)) as (G1 & G2 & G3 & G4 & G5 & G6 & G7 & G8 & G9).
    rewrite B1 in *. split; [split; [exact G1|split; assumption]|]. split; [split; assumption|]. split; [rewrite G9; reflexivity|congruence].
  - destruct (accept_ok 0xfffe 3 false t1 (proj1 W1) (proj2 W1) ltac:(lia)) as (G1 & G2 & G3 & G4 & G5 & G6 & G7 & G8 & G9).
    rewrite B1 in *. split; [split; [exact G1|split; assumption]|]. split; [split; assumption|]. split; [rewrite G9; reflexivity|congruence].
  - split; [reflexivity|]. split; [exact W1|split; assumption].
Qed.
Theorem C60_interrupts : forall g irq nmi t i m,
  wf t -> no_B t -> current (view t) = Some (i, m) -> comparable i m (view t) -> i <> BRK ->
  exists t1 t2, do_inst g false false t = (true, t1) /\ do_inst g irq nmi t = (true, t2) /\
    after irq nmi t1 t2 /\ wf t2 /\ no_B t2.
Proof.
  intros g irq nmi t i m W (HB & Hb) Hc Hcmp Hi.
  destruct (exec_run t i m (proj1 W) (cur_op t i m W Hc) Hi) as (t1 & E & H1 & H2 & H3 & H4 & H5 & H6 & H7 & H8 & H9 & H10).
  assert (W1 : wf t1) by (split; [exact H2|specialize (H4 (fun _ => Hcmp)); lia]).
  assert (B1 : no_B t1) by (split; [destruct (Z.testbit (rF t1) 4); [rewrite H10 in HB; [discriminate|reflexivity]|reflexivity]|congruence]).
  exists t1, (do_interrupt g irq nmi t1). unfold do_inst. rewrite E, quiet by apply B1.
  split; [reflexivity|]. split; [reflexivity|]. exact (int_after g irq nmi t1 W1 B1).
Qed.
(** An IRQ request is ignored while I is set, a NMI request while any handler
    is open - also one of IRQ or BRK, where the manual has it accepted. *)
Theorem C60_ignored : forall g irq nmi t i m,
  wf t -> no_B t -> current (view t) = Some (i, m) -> comparable i m (view t) -> i <> BRK ->
  let t1 := snd (do_inst g false false t) in
  (irq = true -> fI (p (view t1)) = true \/ 3 <= in_service (lvl t1)) -> (nmi = true -> 1 <= in_service (lvl t1)) ->
  do_inst g irq nmi t = (true, t1).
Proof.
  intros g irq nmi t i m W B Hc Hcmp Hi t1 HI HN. destruct (C60_interrupts g irq nmi t i m W B Hc Hcmp Hi) as (u & t2 & E1 & E2 & A & _).
  unfold t1 in *. rewrite E1 in *. cbn [snd] in *. rewrite E2. f_equal. unfold after in A. cbv zeta in A.
  assert (C1 : nmi && (in_service (lvl u) <? 1) = false) by (destruct nmi; [specialize (HN eq_refl); cbn [andb]; apply Z.ltb_ge; lia|reflexivity]).
  assert (C2 : irq && negb (fI (p (view u))) && (in_service (lvl u) <? 3) = false).
  { destruct irq; [destruct (HI eq_refl) as [-> | h]; [reflexivity|]; replace (in_service (lvl u) <? 3) with false by lia; apply andb_false_r|reflexivity]. }
  rewrite C1, C2 in A. exact A.
Qed.
(** The never initialised member of the IRQ source does not matter. *)
Theorem C60_uninitialised_member : forall g g' irq nmi t, do_inst g irq nmi t = do_inst g' irq nmi t.
Proof.
  intros. unfold do_inst. destruct (exec_inst t) as [[|] u]; [|reflexivity]. unfold do_interrupt. cbv zeta.
  assert (Hland : (Z.land (rF u) flagI =? 0) = negb (isset (rF u) flagI)) by (unfold isset; rewrite negb_involutive; reflexivity).
  rewrite Hland. destruct g, g', (isset (rF u) flagI), irq; cbn; reflexivity.
Qed.
(** A BRK inside the handler of a BRK is not served: it moves PC by 2 and stays
    requested. No other request is accepted either. *)
Theorem C60_nested_brk : forall g irq nmi t, wf t -> current (view t) = Some (BRK, Imp) -> 4 <= in_service (lvl t) ->
  exists t', do_inst g irq nmi t = (true, t') /\ view t' = setPC (PC t + 2) (view t) /\ brk t' = true /\ lvl t' = lvl t /\
    ticks t' = ticks t + 1 /\ Z.testbit (rF t') 4 = true.
Proof.
  intros g irq nmi t W Hc Hl. unfold do_inst.
  rewrite (entry_of (BRK, Imp) 0 _ ltac:(vm_compute; reflexivity) eq_refl t W Hc).
  destruct (BRK_exec t (proj1 W)) as (H1 & H2 & H3 & H4 & H5 & H6 & H7 & H8). set (t1 := M65Model.BRK (start t)) in *.
  exists t1. unfold do_interrupt. cbv zeta. rewrite H3, ap_is, H5.
  replace (in_service (lvl t) <? 4) with false by lia. replace (in_service (lvl t) <? 1) with false by lia. replace (in_service (lvl t) <? 3) with false by lia.
  rewrite !andb_false_r. split; [reflexivity|]. split; [exact H1|]. split; [exact H3|]. split; [exact H5|]. split; [exact H7|exact H8].
Qed.
(** Such a request is served after the RTI that closes the handler, with B
    clear on the stack: like an IRQ. *)
Theorem C60_delayed_brk : forall g irq nmi t l, wf t -> brk t = true -> lvl t = 4 :: l -> in_service l < 4 ->
  current (view t) = Some (RTI, Imp) ->
  exists t', do_inst g irq nmi t = (true, t') /\
    view t' = interrupt false 0xfffe (effect RTI Nowhere 0 (setPC (PC t + 1) (view t))) /\
    lvl t' = 4 :: l /\ brk t' = false.
Proof.
  intros g irq nmi t l W Hb Hl Ha Hc.
  destruct (exec_run t RTI Imp (proj1 W) (cur_op t _ _ W Hc) ltac:(discriminate)) as (t1 & E & H1 & H2 & H3 & H4 & H5 & H6 & H7 & H8 & H9 & H10).
  specialize (H1 I). specialize (H4 ltac:(discriminate)). cbv beta iota in H7. rewrite Hl in H7. cbn [pop_level] in H7. change (0 <=? 4) with true in H7. cbv iota in H7.
  assert (B4 : Z.testbit (rF t1) 4 = false).
  { rewrite (entry_of (RTI, Imp) 0x40 _ ltac:(vm_compute; reflexivity) eq_refl t W Hc) in E. apply true_inj in E. rewrite <- E. unfold M65Model.RTI.
    match goal with |- context [M65Model.W cF ?v ?u] => set (f := v); set (t0 := M65Model.W cF f u) end.
    assert (Hby : bytes t0) by (apply bytes_W; apply bytes_W; apply start_bytes; apply W).
    destruct (pop_addr_ok t0 Hby) as (a1 & t2 & Ep & _ & _ & _ & _ & HF). rewrite Ep.
    change (Z.testbit (rF t2) 4 = false). rewrite HF. unfold t0. cbn [M65Model.W rF sF]. unfold u8.
    change 256 with (2 ^ 8). rewrite Z.mod_pow2_bits_low by lia. unfold f. rewrite Z.ldiff_spec. change (Z.testbit (Z.lor 32 flagB) 4) with true. apply andb_false_r. }
  destruct (accept_ok 0xfffe 4 true t1 H2 ltac:(lia) ltac:(lia)) as (G1 & G2 & G3 & G4 & G5 & G6 & G7 & G8 & G9).
  exists (accept_it 0xfffe 4 true t1). unfold do_inst. rewrite E. unfold do_interrupt. cbv zeta. rewrite ap_is, H7, H5, Hb.
  replace (in_service l <? 4) with true by lia. cbn [andb]. split; [reflexivity|]. rewrite G1, B4, H1, G6, H7. split; [reflexivity|]. split; [reflexivity|exact G4].
Qed.
(* CLI; NOP with IRQ and NMI: NMI first; its handler at 500 (SEI...) *)
Definition ex60 := wr 0xfffa 0 (wr 0xfffb 5 (wr 0xfffe 0 (wr 0xffff 6 (dev 0x400 [0x58; 0xea; 0xea])))).
Example C60_example :
  let t := steps false 1 ex60 in
  current (view t) = Some (NOP, Imp) /\
  PC (snd (do_inst false true true t)) = 0x500 /\ lvl (snd (do_inst false true true t)) = [1] /\
  PC (snd (do_inst false true false t)) = 0x600 /\ lvl (snd (do_inst false true false t)) = [3] /\
  (* in the handler of the IRQ a NMI is not accepted *)
  PC (snd (do_inst false false true (sLvl [3] t))) = 0x402 /\
  in_service (lvl (sLvl [4] (dev 0x400 [0; 0; 0x40]))) = 4.
Proof. vm_compute. repeat split; reflexivity. Qed.
Print Assumptions C60_interrupts.
Print Assumptions C60_ignored.
Print Assumptions C60_uninitialised_member.
Print Assumptions C60_nested_brk.
Print Assumptions C60_delayed_brk.

(* ------------------------------------------------------------------ C61 *)
Lemma slots3 (c : cpu) (m2 m1 : Z -> Z) : 0 <= M65Spec.s c < 256 ->
  (forall j, 0 <= j < 3 -> m2 (slot c j) = m1 (slot c j)) <->
  m2 (0x100 + M65Spec.s c) = m1 (0x100 + M65Spec.s c) /\ m2 (0x100 + (M65Spec.s c - 1) mod 256) = m1 (0x100 + (M65Spec.s c - 1) mod 256) /\
  m2 (0x100 + (M65Spec.s c - 2) mod 256) = m1 (0x100 + (M65Spec.s c - 2) mod 256).
Proof.
  intros U. unfold slot. split.
  - intros H. split; [|split; [exact (H 1 ltac:(lia))|exact (H 2 ltac:(lia))]].
    specialize (H 0 ltac:(lia)). rewrite Z.sub_0_r, Z.mod_small in H by lia. exact H.
  - intros (H0 & H1 & H2) j Hj. assert (j = 0 \/ j = 1 \/ j = 2) as [-> | [-> | ->]] by lia; [|exact H1|exact H2].
    rewrite Z.sub_0_r, Z.mod_small by lia. exact H0.
Qed.
(** [t2]: just after the entry into a handler from [t1]. Whatever the handler
    does, a RTI it executes with the stack pointer, the three bytes on the
    stack and the open handlers unchanged goes on at the interrupted
    instruction with the flags, the stack pointer and the open handlers as
    before the interrupt. *)
Definition returns (from : cpu) (levels : list Z) (t2 : st) : Prop :=
  forall g t3, wf t3 -> no_B t3 -> current (view t3) = Some (RTI, Imp) -> rSP t3 = rSP t2 -> lvl t3 = lvl t2 ->
    (forall j, 0 <= j < 3 -> mem t3 (0x100 + (M65Spec.s from - j) mod 256) = mem t2 (0x100 + (M65Spec.s from - j) mod 256)) ->
    exists t4, do_inst g false false t3 = (true, t4) /\
      PC t4 = pc from /\ rSP t4 = M65Spec.s from /\ p (view t4) = p from /\ lvl t4 = levels /\
      mem t4 = mem t3 /\ rA t4 = rA t3 /\ rX t4 = rX t3 /\ rY t4 = rY t3.
Lemma returns_ok b vec from lv levels t2 : 0 <= M65Spec.s from < 256 -> 0 <= pc from < 65536 -> 0 <= lv ->
  view t2 = interrupt b vec from -> lvl t2 = lv :: levels -> returns from levels t2.
Proof.
  intros U1 U2 Hlv Hv Hl g t3 W3 B3 Hc HS HL HM.
  destruct (step_plain g t3 RTI Imp W3 (proj2 B3) (cur_op t3 _ _ W3 Hc) ltac:(discriminate) I) as (t4 & E & S4 & W4 & _ & _ & L4 & _).
  exists t4. split; [exact E|]. unfold step in S4. unfold current in Hc. rewrite Hc in S4. apply some_inj in S4.
  destruct (rti_after_int from (view t3) b vec U1 U2) as (R1 & R2 & R3).
  - rewrite <- Hv. exact HS.
  - intros j Hj. rewrite <- Hv. exact (HM j Hj).
  - split. { change (PC t4) with (pc (view t4)). rewrite <- S4. exact R2. }
    split. { change (rSP t4) with (M65Spec.s (view t4)). rewrite <- S4. exact R1. }
    split. { rewrite <- S4. exact R3. }
    split. { rewrite L4, HL, Hl. cbn [pop_level]. replace (0 <=? lv) with true by lia. reflexivity. }
    change (mem t4) with (ram (view t4)). change (rA t4) with (a (view t4)). change (rX t4) with (x (view t4)). change (rY t4) with (y (view t4)).
    rewrite <- S4. repeat (split; [reflexivity|]). reflexivity.
Qed.
Theorem C61_rti_returns : forall g irq nmi t i m t1 t2,
  wf t -> no_B t -> current (view t) = Some (i, m) -> comparable i m (view t) -> i <> BRK ->
  do_inst g false false t = (true, t1) -> do_inst g irq nmi t = (true, t2) -> t2 <> t1 ->
  returns (view t1) (lvl t1) t2.
Proof.
  intros g irq nmi t i m t1 t2 W B Hc Hcmp Hi E1 E2 Hne.
  destruct (C60_interrupts g irq nmi t i m W B Hc Hcmp Hi) as (u & u2 & F1 & F2 & A & W2 & B2).
  rewrite E1 in F1. apply true_inj in F1. subst u. rewrite E2 in F2. apply true_inj in F2. subst u2.
  destruct (step_exact g t i m W B Hc Hcmp (fun e => False_ind _ (Hi e))) as (t1' & F & _ & W1 & _). rewrite E1 in F. apply true_inj in F. subst t1'.
  assert (U1 : 0 <= M65Spec.s (view t1) < 256) by apply W1. assert (U2 : 0 <= pc (view t1) < 65536) by apply W1.
  unfold after in A. cbv zeta in A. destruct (nmi && _); [|destruct (irq && _ && _)].
  - destruct A as (A1 & A2 & _). exact (returns_ok false 0xfffa (view t1) 1 (lvl t1) t2 U1 U2 ltac:(lia) A1 A2).
  - destruct A as (A1 & A2 & _). exact (returns_ok false 0xfffe (view t1) 3 (lvl t1) t2 U1 U2 ltac:(lia) A1 A2).
  - contradiction.
Qed.
(** after a BRK: to the byte after the one that follows it *)
Theorem C61_brk_rti : forall g t t2, wf t -> no_B t -> current (view t) = Some (BRK, Imp) -> ap t < 4 ->
  do_inst g false false t = (true, t2) -> returns (setPC (PC t + 2) (view t)) (lvl t) t2.
Proof.
  intros g t t2 W B Hc Ha E. destruct (step_BRK g t Imp W (cur_op t _ _ W Hc) Ha) as (t' & F & S & _ & _ & _ & L & _).
  rewrite E in F. apply true_inj in F. subst t'. unfold step in S. unfold current in Hc. rewrite Hc in S. apply some_inj in S.
  refine (returns_ok true 0xfffe (setPC (PC t + 2) (view t)) 4 (lvl t) t2 _ _ ltac:(lia) (eq_sym S) L).
  - apply W.
  - unfold setPC. cbn [pc]. apply Z.mod_pos_bound. lia.
Qed.
(* the handler at 600 is RTI *)
Definition ex61 := wr 0x600 0x40 ex60.
Example C61_example :
  let t := steps false 1 ex61 in let t1 := snd (do_inst false false false t) in let t2 := snd (do_inst false true false t) in
  PC t1 = 0x402 /\ PC t2 = 0x600 /\ current (view t2) = Some (RTI, Imp) /\ fI (p (view t2)) = true /\
  let t4 := snd (do_inst false false false t2) in PC t4 = 0x402 /\ rSP t4 = 0xfd /\ fI (p (view t4)) = false /\ lvl t4 = [].
Proof. vm_compute. repeat split; reflexivity. Qed.
Print Assumptions C61_rti_returns.
Print Assumptions C61_brk_rti.

(* ------------------------------------------------------------------ C62 *)
Definition dis_chk (v : Z) : bool :=
  match decode v, dis_find dis_tbl v with
  | Some (i, m), Some (b, n) => (n =? len m) && Bool.eqb (Ascii.eqb b "s" || Ascii.eqb b "S") (match i with JSR => true | _ => false end)
  | None, None => true
  | _, _ => false
  end.
(** The length the disassembler and `next` use is that of the manual, 0 for
    undefined opcodes; exactly JSR is a call. *)
Theorem C62_length : forall t k, bytes t -> 0 <= k < 65536 ->
  match decode (mem t k) with
  | Some (i, m) => inst_length t k = len m /\ (is_call t k = true <-> i = JSR)
  | None => inst_length t k = 0 /\ is_call t k = false
  end.
Proof.
  intros t k (_ & _ & _ & _ & _ & _ & _ & HM) Hk. specialize (HM k).
  pose proof (sweep1 dis_chk 256%nat ltac:(vm_compute; reflexivity) (mem t k) HM) as S.
  unfold inst_length, is_call, get_dis_entry, rd. replace ((0 <=? k) && (k <? 65536)) with true by lia.
  unfold dis_chk in S. destruct (decode (mem t k)) as [[i m]|], (dis_find dis_tbl (mem t k)) as [[b n]|]; try discriminate.
  - apply andb_prop in S. destruct S as [S1 S2]. apply Z.eqb_eq in S1. apply Bool.eqb_prop in S2. split; [exact S1|]. rewrite S2. destruct i; split; congruence.
  - split; reflexivity.
Qed.
Definition transfers (i : mnem) : bool :=
  match i with JMP | JSR | RTS | RTI | BRK | BCC | BCS | BEQ | BNE | BMI | BPL | BVC | BVS => true | _ => false end.
(** It is also the distance PC moves, unless the instruction is a jump or branch *)
Theorem C62_pc_advance : forall g t i m, wf t -> no_B t -> current (view t) = Some (i, m) -> transfers i = false ->
  PC (snd (do_inst g false false t)) = (PC t + inst_length t (PC t)) mod 65536.
Proof.
  intros g t i m W B Hc Ht. pose proof (C62_length t (PC t) (proj1 W) (proj2 W)) as L.
  change (mem t (PC t)) with (ram (view t) (pc (view t))) in L. unfold current in Hc. rewrite Hc in L. destruct L as [-> _].
  assert (Hi : i <> BRK) by (intros ->; discriminate).
  assert (HD : (i = ADC \/ i = SBC) \/ comparable i m (view t)).
  { destruct i; try discriminate; try (right; destruct m; exact I); left; tauto. }
  destruct HD as [Ha|Hcmp].
  - pose proof (cur_op t i m W Hc) as Ho. destruct (arith_entry _ i m Ha Ho) as (md & n & Hm & Hl).
    destruct (Hm t (proj1 W)) as (c & t' & E & _ & Opd & Hv & Hby & (K1 & K2 & K3 & K4 & K5) & _).
    unfold do_inst. rewrite (exec_some t _ Hl). cbv beta. rewrite E.
    rewrite quiet by (destruct Ha as [-> | ->]; [unfold adc|unfold sbc]; destruct (negb (isset (rF t') flagD)); cbn [brk M65Model.W sA sF]; rewrite K1; apply B).
    cbn [snd]. transitivity (PC t').
    + destruct Ha as [-> | ->]; [unfold adc|unfold sbc]; destruct (negb (isset (rF t') flagD)); reflexivity.
    + change (PC t') with (pc (view t')). rewrite Hv. reflexivity.
  - destruct (step_exact g t i m W B Hc Hcmp (fun e => False_ind _ (Hi e))) as (t' & E & S & _). rewrite E. cbn [snd].
    change (PC t') with (pc (view t')). unfold step in S. rewrite Hc in S.
    assert (S' : effect i (operand false m (view t)) (at1 (view t)) (setPC (pc (view t) + len m) (view t)) = view t')
      by (destruct i; try discriminate; apply some_inj in S; exact S).
    rewrite <- S'. clear -Ht. destruct i; try discriminate; try reflexivity;
      unfold effect; destruct (operand false m (view t)); reflexivity.
Qed.
Example C62_example : inst_length (dev 0x400 [0x20; 1; 2]) 0x400 = 3 /\ is_call (dev 0x400 [0x20; 1; 2]) 0x400 = true /\
  inst_length (dev 0x400 [0xb1]) 0x400 = 2 /\ inst_length (dev 0x400 [0x02]) 0x400 = 0 /\
  transfers LDA = false /\ current (view (dev 0x400 [0xb1; 0x10])) = Some (LDA, IndY).
Proof. vm_compute. repeat split; reflexivity. Qed.
Print Assumptions C62_length.
Print Assumptions C62_pc_advance.

(* ------------------------------------------------------------------ C63 *)
(** Reset: PC from FFFC, SP = FD, I set and the other flags clear, no handler
    open, the clock at 7; A, X, Y and memory as they were. *)
Theorem C63_reset : forall t, bytes t -> Forall (fun l => 0 <= l) (lvl t) ->
  let r := M65Model.reset t in
  view r = mkCpu (rA t) (rX t) (rY t) 0xfd (mkP false false false true false false) (mem t 0xfffc + 256 * mem t 0xfffd) (mem t) /\
  lvl r = [] /\ ticks r = 7 /\ wf r.
Proof.
  intros t HB HL r.
  assert (EP : PC r = mem t 0xfffc + 256 * mem t 0xfffd).
  { unfold r, M65Model.reset. cbv zeta. cbn [PC tick sTk sSP sPC]. rewrite read_addr_eq; [reflexivity| |lia].
    destruct HB as (B1 & B2 & B3 & B4 & B5 & HB). split; [exact B1|]. split; [exact B2|]. split; [exact B3|]. split; [exact B4|]. split; [change (is_u8 4); unfold is_u8; lia|exact HB]. }
  split. { unfold view. change (flags_of (rF r)) with (mkP false false false true false false). rewrite EP. reflexivity. }
  split. { unfold r, M65Model.reset. cbv zeta. cbn [lvl tick sTk sSP sPC sF sLvl]. induction HL as [|h l Hh HL IH]; [reflexivity|].
    cbn [drop_levels]. replace (0 <=? h) with true by lia. exact IH. }
  split; [reflexivity|]. destruct HB as (B1 & B2 & B3 & B4 & B5 & B6 & B7 & B8). split.
  - unfold bytes. change (rA r) with (rA t). change (rX r) with (rX t). change (rY r) with (rY t). change (rSP r) with 0xfd. change (rF r) with 4.
    change (hole r) with (hole t). change (i8d r) with (i8d t). change (mem r) with (mem t).
    repeat (split; [assumption || (unfold is_u8; lia)|]). exact B8.
  - rewrite EP. pose proof (B8 0xfffc) as Q1. pose proof (B8 0xfffd) as Q2. unfold is_u8 in Q1, Q2. lia.
Qed.
Lemma lvl_wr k v t : lvl (wr k v t) = lvl t.
Proof. unfold wr. destruct (_ && _); reflexivity. Qed.
Lemma lvl_push q t : lvl (push_addr q t) = lvl t.
Proof. unfold push_addr. cbv zeta. cbn [lvl M65Model.W sSP tick sTk]. rewrite !lvl_wr. cbn [lvl M65Model.W sSP]. apply lvl_wr. Qed.
Lemma accept_lvl ad lv b t : lvl (accept_it ad lv b t) = lv :: lvl t.
Proof.
  unfold accept_it. cbv zeta. cbn [lvl sLvl]. f_equal.
  set (t1 := push_addr (PC (tick 2 t)) (tick 2 t)).
  assert (E1 : lvl t1 = lvl t) by (unfold t1; rewrite lvl_push; reflexivity). clearbody t1.
  set (t2 := wr (0x0100 + rSP t1) (Z.lor (rF t1) 0x20) t1).
  assert (E2 : lvl t2 = lvl t) by (unfold t2; rewrite lvl_wr; exact E1). clearbody t2.
  set (t3 := if set_b t2 then sF (Z.ldiff (rF t2) flagB) t2 else t2).
  assert (E3 : lvl t3 = lvl t) by (unfold t3; destruct (set_b t2); exact E2). clearbody t3.
  destruct b; cbn [lvl sBrk sF sPC tick sTk M65Model.W sSP]; exact E3.
Qed.
(** reset drops handlers open at any moment: levels are never negative *)
Theorem C63_levels : forall g l t, Forall (fun l => 0 <= l) (lvl t) -> bytes t -> 0 <= PC t <= 0x10000 ->
  Forall (fun l => 0 <= l) (lvl (run g l t)).
Proof.
  intros g l. induction l as [|[irq nmi] l IH]; intros t HL HB HP; [exact HL|]. cbn [run].
  destruct (do_inst_safe g irq nmi t (conj HB HP)) as [G1 G2]. apply IH; [|exact G1|exact G2].
  unfold do_inst.
  assert (Hint : forall u, Forall (fun l => 0 <= l) (lvl u) -> Forall (fun l => 0 <= l) (lvl (do_interrupt g irq nmi u))).
  { intros u Hu. unfold do_interrupt. cbv zeta.
    repeat match goal with |- context [if ?b then accept_it _ _ _ _ else _] => destruct b;
      [rewrite accept_lvl; constructor; [lia|exact Hu]|] end. exact Hu. }
  destruct (decode (op_at t)) as [[i m]|] eqn:D.
  - destruct (mnem_brk i) as [->|Hi].
    + destruct (table _ _ _ (op_byte t HB) D) as (f & E & _ & Ef). rewrite (exec_some t f E), (Ef eq_refl). cbn [snd]. apply Hint.
      destruct (BRK_exec t HB) as (_ & _ & _ & _ & -> & _). exact HL.
    + destruct (exec_run t i m HB D Hi) as (t' & E2 & _ & _ & _ & _ & _ & _ & L & _). rewrite E2. cbn [snd]. apply Hint. rewrite L.
      destruct i; try exact HL. unfold pop_level. destruct HL as [|h r Hh HL]; [constructor|]. destruct (0 <=? h); [exact HL|constructor; assumption].
  - apply look_decode in D; [|apply op_byte; exact HB]. rewrite (exec_none t D). exact HL.
Qed.
Example C63_example : let r := M65Model.reset (wr 0xfffc 0x34 (wr 0xfffd 0x12 (sLvl [3; 1] (dev 0x400 [0xea])))) in
  PC r = 0x1234 /\ rSP r = 0xfd /\ lvl r = [] /\ rF r = 4.
Proof. vm_compute. repeat split; reflexivity. Qed.
Print Assumptions C63_reset.
Print Assumptions C63_levels.
