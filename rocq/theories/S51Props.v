(** Properties C38 to C48: the MCS51 core. The manual is S51Spec. *)
From Verif Require Import Base S51Model S51Spec S51Obs S51DisModel S51Proofs S51Proofs2 S51Proofs3 S51Proofs4 S51Proofs5 S51Proofs6 S51Proofs8 S51Proofs9.

(** A concrete machine used by the examples: a program at 0, all of memory 0,
    SP = 7 as after reset. *)
Definition prog (l : list Z) : Z -> Z := fun a => if a <? 0 then 0 else nth (Z.to_nat a) (map (fun x => x mod 256) l) 0.
Definition dev (l : list Z) : cfg := mkCfg (prog l) 128 true (fun _ => 0).
Definition st0 : st := mkSt 0 (fun _ => 0) (fun a => if a =? 0x81 then 7 else 0) (fun _ => 0) 0 0 0 0 [] false 0 0.
Lemma prog_byte l a : 0 <= prog l a < 256.
Proof.
  unfold prog. destruct (a <? 0); [lia|]. destruct (nth_in_or_default (Z.to_nat a) (map (fun x => x mod 256) l) 0) as [H|H].
  - apply in_map_iff in H. destruct H as (x & <- & _). apply Z.mod_pos_bound. lia.
  - rewrite H. lia.
Qed.
Lemma dev_ok l : wf_cfg (dev l). Proof. split; [apply prog_byte|left; reflexivity]. Qed.
Lemma st0_ok : wf st0.
Proof.
  unfold wf, st0. cbn [pc iram sfr xram hole bank]. split; [lia|]. split; [lia|]. split; [intros a; destruct (a =? 0x81); lia|].
  split; [lia|]. split; [lia|]. reflexivity.
Qed.

(* ------------------------------------------------------------------ C38 *)
(** Executing one instruction has the effect the manual gives, on everything
    a program can see, for every opcode, operand and state, unless the
    instruction is one of those C48 is about. *)
Theorem C38_instruction_follows_manual : forall G s a',
  wf_cfg G -> ltr G = true -> wf s ->
  step (rom G) (isize G) (view s) = Some a' ->
  differs_at (rom G) (view s) = false ->
  same_but_P (view (inst_step G s)) a' /\
  (P_ok (view s) -> writes_psw_at (rom G) (view s) = false -> same (view (inst_step G s)) a').
Proof.
  intros G s a' HG HL W E D. destruct (step_ok G s a' HG HL W E D) as (_ & H1 & H2 & _).
  split; [exact H1|]. intros HP HW. exact (proj1 (H2 HP HW)).
Qed.
Theorem C38_program_follows_manual : forall G s n,
  wf_cfg G -> ltr G = true -> wf s -> P_ok (view s) ->
  (forall k, (k < n)%nat -> let a := view (steps G k s) in
     step (rom G) (isize G) a <> None /\ differs_at (rom G) a = false /\ writes_psw_at (rom G) a = false) ->
  forall k, (k < n)%nat -> exists a',
    step (rom G) (isize G) (view (steps G k s)) = Some a' /\ same (view (steps G (S k) s)) a'.
Proof. intros G s n HG HL W HP H. exact (proj2 (proj2 (run_ok G s n HG HL W HP H))). Qed.

(* MOV A,#F0; ADD A,#25; MOV 30h,A; SJMP -2: the hypotheses hold, and the sum arrives *)
Definition ex38 := dev [0x74; 0xf0; 0x24; 0x25; 0xf5; 0x30; 0x80; 0xfe].
Example C38_example :
  (exists a', step (rom ex38) (isize ex38) (view (inst_step ex38 st0)) = Some a') /\
  differs_at (rom ex38) (view (inst_step ex38 st0)) = false /\
  writes_psw_at (rom ex38) (view (inst_step ex38 st0)) = false /\
  iram (steps ex38 3 st0) 0x30 = 0x15 /\ CY (view (steps ex38 3 st0)) = true /\ pc (steps ex38 3 st0) = 6.
Proof. split; [eexists; vm_compute; reflexivity|]. vm_compute; repeat split; reflexivity. Qed.
Print Assumptions C38_instruction_follows_manual.
Print Assumptions C38_program_follows_manual.

(* ------------------------------------------------------------------ C39 *)
(** Whatever bytes are executed, memory and registers stay bytes and the
    program counter stays within 0..10000h. *)
Theorem C39_pc_in_range : forall G n s, wf_cfg G -> any_state s -> any_state (steps G n s).
Proof. intros G n s HG W. exact (safe_steps G n s HG W). Qed.
(** 10000h is one past the end. It is reached exactly when a relative jump or
    JMP @A+DPTR has that sum; the next opcode is then not taken from the code
    memory but is whatever the cell of non-existing memory holds. *)
Theorem C39_jump_to_end_exact : forall G s r, wf_cfg G -> wf s ->
  rom G (pc s) = 0x80 -> rom G ((pc s + 1) mod 65536) = r ->
  let t := ((pc s + 2) mod 65536 + signed r) in
  pc (inst_step G s) = (if t =? 65536 then 65536 else t mod 65536).
Proof.
  intros G s r HG W Hop Hr t. pose proof W as (Hp & _). pose proof HG as [HR _].
  assert (Hrb : 0 <= r < 256) by (rewrite <- Hr; apply HR).
  rewrite (exec_at G s 0x80 (instruction_80 G) W Hop eq_refl).
  pose proof (wf_begin s W) as W0. unfold instruction_80. rewrite fetch_eq by exact W0.
  cbn [pc tick set_pc]. rewrite Hr. unfold rel. cbn [pc set_pc tick].
  rewrite Z.add_mod_idemp_l by lia. replace (pc s + 1 + 1) with (pc s + 2) by lia.
  assert (E : i8 r = signed r).
  { revert Hrb. generalize r. intros x Hx. assert (H : (fun x => i8 x =? signed x) x = true) by (revert x Hx; apply sweep_byte; vm_compute; reflexivity).
    apply Z.eqb_eq in H. exact H. }
  rewrite E. fold t. assert (Ht : -128 <= t <= 65535 + 127).
  { subst t. assert (0 <= (pc s + 2) mod 65536 < 65536) by (apply Z.mod_pos_bound; lia). unfold signed. destruct (r <? 128) eqn:L; lia. }
  unfold validate_address, u32. destruct (t =? 65536) eqn:E1.
  - apply Z.eqb_eq in E1. rewrite E1. reflexivity.
  - apply Z.eqb_neq in E1. destruct (Z.ltb_spec 0x10000 (t mod 4294967296)) as [L|L].
    + symmetry. assert (E4 : t mod 4294967296 = t - 4294967296 * (t / 4294967296)) by (apply Z.mod_eq; lia).
      rewrite E4. replace (t - 4294967296 * (t / 4294967296)) with (t + (- (65536 * (t / 4294967296))) * 65536) by lia.
      rewrite Z.mod_add by lia. reflexivity.
    + assert (0 <= t mod 4294967296) by (apply Z.mod_pos_bound; lia).
      assert (T : 0 <= t) by lia. rewrite (Z.mod_small t 4294967296) in * by lia. symmetry. apply Z.mod_small. lia.
Qed.
Theorem C39_opcode_at_end_exact : forall G s f, any_state s -> pc s = 65536 -> itab G (hole s) = Some f ->
  inst_step G s = f (hole s) (tick 1 (mkSt 1 (iram s) (sfr s) (xram s) (bank s) (hole s) (noise s) 0 (levels s) false (instpc s) (unknown s))).
Proof.
  intros G s f W Hp Hf. unfold inst_step, exec_inst, fetch, rom_read. cbn [pc hole set_pc]. rewrite Hp.
  change (65536 <? 0x10000) with false. cbv iota. rewrite Hf. reflexivity.
Qed.
(* SJMP +E at FFF0: PC is 10000h, memory FFFFh..0 is skipped *)
Definition ex39 : cfg := mkCfg (fun a => if a =? 0xfff0 then 0x80 else if a =? 0xfff1 then 0x0e else 0) 128 true (fun _ => 0).
Definition st39 : st := set_pc st0 0xfff0.
Example C39_example : wf_cfg ex39 /\ wf st39 /\ pc (inst_step ex39 st39) = 65536 /\ pc (steps ex39 2 st39) = 1.
Proof.
  split; [split; [intros a; cbn [rom ex39]; destruct (a =? 0xfff0); [lia|]; destruct (a =? 0xfff1); lia|left; reflexivity]|].
  split; [apply wf_set_pc; [exact st0_ok|lia]|]. split; vm_compute; reflexivity.
Qed.
Print Assumptions C39_pc_in_range.
Print Assumptions C39_jump_to_end_exact.
Print Assumptions C39_opcode_at_end_exact.

(* ------------------------------------------------------------------ C40 *)
(** The parity flag: after any instruction that does not write PSW as an
    operand, bit P of PSW is the parity of the accumulator, if it was before. *)
Theorem C40_parity_kept : forall G s a', wf_cfg G -> ltr G = true -> wf s ->
  step (rom G) (isize G) (view s) = Some a' -> differs_at (rom G) (view s) = false ->
  P_ok (view s) -> writes_psw_at (rom G) (view s) = false -> P_ok (view (inst_step G s)).
Proof.
  intros G s a' HG HL W E D HP HW. destruct (step_ok G s a' HG HL W E D) as (_ & _ & H & _). exact (proj2 (H HP HW)).
Qed.
(** An instruction that writes PSW can make P wrong: after MOV PSW,#v the flag
    is bit 0 of v, whatever the accumulator holds. *)
Theorem C40_mov_psw_exact : forall G s v, wf_cfg G -> wf s ->
  rom G (pc s) = 0x75 -> rom G ((pc s + 1) mod 65536) = rPSW -> rom G ((pc s + 2) mod 65536) = v ->
  let s1 := inst_step G s in sfr s1 rPSW = v /\ getA (view s1) = getA (view s).
Proof.
  intros G s v HG W Hop Ha Hv s1. pose proof W as (Hp & _). pose proof HG as [HR _].
  assert (Hvb : 0 <= v < 256) by (rewrite <- Hv; apply HR).
  unfold s1. rewrite (exec_at G s 0x75 (instruction_75 G) W Hop eq_refl).
  pose proof (wf_begin s W) as W0. set (t := tick 1 _) in *. unfold instruction_75. rewrite fetch_eq by exact W0.
  change (pc t) with ((pc s + 1) mod 65536). rewrite Ha.
  set (u := set_pc t (((pc s + 1) mod 65536 + 1) mod 65536)).
  assert (Wu : wf u) by (apply wf_set_pc; [exact W0|apply Z.mod_pos_bound; lia]).
  rewrite fetch_eq by exact Wu. cbn [pc u set_pc].
  assert (E2 : ((pc s + 1) mod 65536 + 1) mod 65536 = (pc s + 2) mod 65536) by (rewrite Z.add_mod_idemp_l by lia; f_equal; lia).
  rewrite E2, Hv. change (get_direct G rPSW) with (CSfr PSW). cbn [c_write].
  set (w := set_pc u (((pc s + 2) mod 65536 + 1) mod 65536)).
  assert (Ww : wf w) by (apply wf_set_pc; [exact Wu|apply Z.mod_pos_bound; lia]).
  unfold getA. cbn [view a_sfr sfr tick set_pc].
  rewrite !sfr_write_at by exact W0 || exact Ww || exact Wu.
  change (rPSW =? PSW) with true. change (rA =? PSW) with false. cbv iota. rewrite u8_id by exact Hvb.
  split; [reflexivity|]. reflexivity.
Qed.
Example C40_example : let G := dev [0x75; 0xd0; 0x01; 0x74; 0x03] in
  P_ok (view st0) /\ ~ P_ok (view (inst_step G st0)) /\ P_ok (view (steps G 2 st0)).
Proof. split; [vm_compute; reflexivity|]. split; [intros H; vm_compute in H; discriminate H|vm_compute; reflexivity]. Qed.
Print Assumptions C40_parity_kept.
Print Assumptions C40_mov_psw_exact.

(* ------------------------------------------------------------------ C41 *)
(** Decimal addition: ADD (or ADDC) of two packed decimal numbers followed by
    DA A leaves their decimal sum, with the hundred in CY. *)
Theorem C41_decimal_add : forall G s (carry : bool) x, wf_cfg G -> ltr G = true -> wf s ->
  rom G (pc s) = (if carry then 0x34 else 0x24) ->
  rom G ((pc s + 1) mod 65536) = x -> rom G ((pc s + 2) mod 65536) = 0xd4 ->
  valid_bcd (sfr s rA) -> valid_bcd x ->
  let s2 := steps G 2 s in
  valid_bcd (sfr s2 rA) /\
  dec (sfr s2 rA) + 100 * b2z (CY (view s2)) = dec (sfr s rA) + dec x + (if carry then b2z (CY (view s)) else 0).
Proof. intros G s carry x HG HL W Hop Hx Hd HA HX. exact (bcd_add G s carry _ x HG HL W eq_refl Hop Hx Hd HA HX). Qed.
Example C41_example : let G := dev [0x74; 0x78; 0x24; 0x65; 0xd4] in let s := inst_step G st0 in
  rom G (pc s) = 0x24 /\ sfr s rA = 0x78 /\ dec (sfr s rA) = 78 /\ sfr (steps G 2 s) rA = 0x43 /\ CY (view (steps G 2 s)) = true.
Proof. vm_compute; repeat split; reflexivity. Qed.
Print Assumptions C41_decimal_add.

(* ------------------------------------------------------------------ C42 *)
(** A call stores the address of the following instruction on the stack, low
    byte first, and changes nothing else. *)
Theorem C42_call : forall G s, wf_cfg G -> ltr G = true -> wf s ->
  (rom G (pc s) = 0x12 \/ rom G (pc s) mod 32 = 0x11) ->
  let sp := sfr s rSP in let p1 := (sp + 1) mod 256 in let p2 := (sp + 2) mod 256 in
  p1 < isize G -> p2 < isize G ->
  let long := rom G (pc s) =? 0x12 in
  let ret := (pc s + (if long then 3 else 2)) mod 65536 in
  let b1 := rom G ((pc s + 1) mod 65536) in let b2 := rom G ((pc s + 2) mod 65536) in
  let s1 := inst_step G s in
  sfr s1 rSP = p2 /\ iram s1 p1 = ret mod 256 /\ iram s1 p2 = ret / 256 /\
  (forall x, x <> p1 -> x <> p2 -> iram s1 x = iram s x) /\
  (forall x, x <> rSP -> x <> rPSW -> sfr s1 x = sfr s x) /\ (forall x, xram s1 x = xram s x) /\
  pc s1 = (if long then 256 * b1 + b2 else ret / 2048 * 2048 + 256 * (rom G (pc s) / 32) + b1).
Proof. intros G s HG HL W Hop sp p1 p2 H1 H2. exact (proj2 (call_step G s HG HL W Hop H1 H2)). Qed.
(** RET after a call: if the subroutine leaves SP and the two stacked bytes as
    it found them, execution continues after the call with SP as before it. *)
Theorem C42_call_return : forall G s u, wf_cfg G -> ltr G = true -> wf s -> wf u ->
  (rom G (pc s) = 0x12 \/ rom G (pc s) mod 32 = 0x11) ->
  (rom G (pc u) = 0x22 \/ rom G (pc u) = 0x32) ->
  let sp := sfr s rSP in let p1 := (sp + 1) mod 256 in let p2 := (sp + 2) mod 256 in
  p1 < isize G -> p2 < isize G ->
  let s1 := inst_step G s in
  sfr u rSP = sfr s1 rSP -> iram u p1 = iram s1 p1 -> iram u p2 = iram s1 p2 ->
  let s2 := inst_step G u in
  pc s2 = (pc s + (if rom G (pc s) =? 0x12 then 3 else 2)) mod 65536 /\ sfr s2 rSP = sfr s rSP /\
  (forall x, iram s2 x = iram u x) /\ (forall x, x <> rSP -> x <> rPSW -> sfr s2 x = sfr u x) /\ (forall x, xram s2 x = xram u x).
Proof.
  intros G s u HG HL W Wu Hop Hret sp p1 p2 H1 H2 s1 E1 E2 E3 s2.
  destruct (call_step G s HG HL W Hop H1 H2) as (_ & C1 & C2 & C3 & _). fold s1 in C1, C2, C3.
  change SP with rSP in C1, C2, C3. fold sp p1 p2 in C1, C2, C3.
  pose proof W as (_ & _ & HS & _). pose proof (HS rSP) as HSP.
  assert (Eq : (sfr u rSP - 1) mod 256 = p1).
  { rewrite E1, C1. unfold p2, p1. rewrite Zminus_mod_idemp_l. f_equal. lia. }
  assert (Eb : (sfr u rSP - 2) mod 256 = sp).
  { rewrite E1, C1. unfold p2. rewrite Zminus_mod_idemp_l. replace (sp + 2 - 2) with sp by lia. apply Z.mod_small. exact HSP. }
  destruct (ret_step G u HG HL Wu Hret) as (_ & R1 & R2 & R3 & R4 & R5).
  - change SP with rSP. rewrite E1, C1. exact H2.
  - change SP with rSP. rewrite Eq. exact H1.
  - change SP with rSP in *. rewrite Eq in R2. rewrite Eb in R1. rewrite E1, C1 in R2. fold s2 in R1, R2, R3, R4, R5.
    split; [|split; [exact R1|split; [exact R3|split; [exact R4|exact R5]]]].
    rewrite R2, E2, E3, C2, C3. symmetry. apply Z.div_mod. lia.
Qed.
(** PUSH then POP: the byte read by POP is the one PUSH stored. *)
Theorem C42_push_pop : forall G s d e v, wf_cfg G -> wf s ->
  rom G (pc s) = 0xc0 -> rom G ((pc s + 1) mod 65536) = d ->
  rom G ((pc s + 2) mod 65536) = 0xd0 -> rom G ((pc s + 3) mod 65536) = e ->
  rd (isize G) (view s) (oDir d) = Some v -> (sfr s rSP + 1) mod 256 < isize G ->
  e <> rSP -> (128 <= e \/ e < isize G) ->
  let s2 := steps G 2 s in
  rd (isize G) (view s2) (oDir e) = Some v /\ sfr s2 rSP = sfr s rSP /\
  (forall x, x <> (sfr s rSP + 1) mod 256 -> x <> e -> iram s2 x = iram s x) /\
  (forall x, x <> rSP -> x <> e -> x <> rPSW -> sfr s2 x = sfr s x) /\ pc s2 = (pc s + 4) mod 65536.
Proof.
  intros G s d e v HG W P1 P2 P3 P4 Hv Hlt Hne Hex s2. pose proof W as (_ & _ & HS & _). pose proof (HS rSP) as HSP.
  destruct (push_step G s d v HG W P1 P2 Hv Hlt) as (W1 & A1 & A2 & A3 & A4 & A5 & A6).
  change SP with rSP in *. set (p := (sfr s rSP + 1) mod 256) in *. set (s1 := inst_step G s) in *.
  destruct (pop_step G s1 e HG W1) as (_ & B1 & B2 & B3 & _ & B5 & B6 & B7).
  - rewrite A6. exact P3.
  - rewrite A6. rewrite Z.add_mod_idemp_l by lia. rewrite <- Z.add_assoc. exact P4.
  - exact Hne.
  - change SP with rSP. rewrite A1. exact Hlt.
  - exact Hex.
  - change SP with rSP in *. change (inst_step G s1) with s2 in *. split; [rewrite B2, A1, A2; reflexivity|].
    split; [rewrite B1, A1; unfold p; rewrite Zminus_mod_idemp_l; replace (sfr s rSP + 1 - 1) with (sfr s rSP) by lia; apply Z.mod_small; exact HSP|].
    split; [intros x X1 X2; rewrite B3 by exact X2; apply A3; exact X1|].
    split; [intros x X1 X2 X3; rewrite B5 by assumption; apply A4; exact X1|].
    rewrite B7, A6, Z.add_mod_idemp_l by lia. f_equal. lia.
Qed.
(* LCALL 0005; NOP; NOP; MOV A,#5; RET: back at 3 after three instructions *)
Example C42_example : let G := dev [0x12; 0x00; 0x05; 0x00; 0x00; 0x74; 0x05; 0x22] in let u := steps G 2 st0 in
  pc u = 7 /\ rom G (pc u) = 0x22 /\ sfr u rSP = sfr (inst_step G st0) rSP /\ iram u 8 = 3 /\ iram u 9 = 0 /\
  pc (inst_step G u) = 3 /\ sfr (inst_step G u) rSP = 7.
Proof. vm_compute; repeat split; reflexivity. Qed.
Example C42_example_push : let G := dev [0x74; 0x5a; 0xc0; 0xe0; 0xd0; 0x30] in
  iram (steps G 2 (inst_step G st0)) 0x30 = 0x5a.
Proof. vm_compute. reflexivity. Qed.
Print Assumptions C42_call.
Print Assumptions C42_call_return.
Print Assumptions C42_push_pop.

(* ------------------------------------------------------------------ C43 *)
(** SETB, CLR, CPL and MOV bit,C: the addressed bit gets the new value, every
    other of the 256 bits (except P) keeps its value. *)
Definition new_bit (op : Z) (carry old : bool) : option bool :=
  match op with
  | 0xd2 => Some true | 0xc2 => Some false | 0xb2 => Some (negb old) | 0x92 => Some carry | _ => None
  end.
Theorem C43_bit_ops_exact : forall G s b v, wf_cfg G -> ltr G = true -> wf s ->
  rom G ((pc s + 1) mod 65536) = b ->
  new_bit (rom G (pc s)) (CY (view s)) (rd_bit (view s) b) = Some v ->
  let s1 := inst_step G s in
  (b <> 0xd0 -> rd_bit (view s1) b = v) /\
  (forall b', 0 <= b' < 256 -> b' <> b -> b' <> 0xd0 -> rd_bit (view s1) b' = rd_bit (view s) b') /\
  (forall x, 32 <= x < 48 \/ iram s1 x = iram s x) /\ (forall x, x mod 8 = 0 \/ sfr s1 x = sfr s x) /\
  (forall x, xram s1 x = xram s x) /\ pc s1 = (pc s + 2) mod 65536.
Proof.
  intros G s b v HG HL W Hb Hv s1. pose proof HG as [HR _]. assert (Hbb : 0 <= b < 256) by (rewrite <- Hb; apply HR).
  assert (K : exists f, bit_op (rom G (pc s)) = Some f /\ v = f (CY (view s)) (rd_bit (view s) b)).
  { assert (E0 : forall op c o v, 0 <= op < 256 -> new_bit op c o = Some v -> exists f, bit_op op = Some f /\ v = f c o).
    { intros op c o v0 Ho. revert v0.
      assert (H : Forall (fun op => forall v, new_bit op c o = Some v -> exists f, bit_op op = Some f /\ v = f c o) (zrange 256)).
      { let l := eval vm_compute in (zrange 256) in change (zrange 256) with l.
        repeat (apply Forall_cons; [intros v0 E; (discriminate E || (eexists; split; [reflexivity|]; cbn [new_bit] in E; apply some_eq in E; subst v0; reflexivity))|]). constructor. }
      rewrite Forall_forall in H. apply H. apply in_zrange. lia. }
    apply E0; [apply HR|exact Hv]. }
  destruct K as (f & Hf & Ev). destruct (bit_step G s b f HG HL W Hf Hb) as (_ & R1). rewrite <- Ev in R1. fold s1 in R1.
  assert (F : forall b', 0 <= b' < 256 -> rd_bit (with_pc (view s) (pc s + 2)) b' = rd_bit (view s) b') by reflexivity.
  split; [intros N; rewrite (rd_bit_like _ _ b R1 Hbb N), rd_wr_bit by assumption; rewrite Z.eqb_refl; reflexivity|].
  split; [intros b' H' N Np; rewrite (rd_bit_like _ _ b' R1 H' Np), rd_wr_bit by assumption; rewrite (proj2 (Z.eqb_neq b' b)) by exact N; apply F; exact H'|].
  destruct R1 as (Q1 & Q2 & Q3 & _ & Q5). unfold wr_bit, bit_place in Q1, Q2, Q3, Q5.
  split.
  { intros x. destruct (Z_lt_dec x 32); [right|destruct (Z_lt_dec x 48); [left; lia|right]];
    (change (iram s1 x) with (a_iram (view s1) x); rewrite Q2; destruct (b <? 128) eqn:L; [|reflexivity];
     cbn [with_iram a_iram]; rewrite store_other by lia; reflexivity). }
  split.
  { intros x. destruct (Z.eq_dec (x mod 8) 0) as [E|E]; [left; exact E|right].
    change (sfr s1 x) with (a_sfr (view s1) x). rewrite Q3 by (intros ->; apply E; reflexivity).
    destruct (b <? 128) eqn:L; [reflexivity|]. cbn [with_sfr a_sfr]. rewrite store_other; [reflexivity|].
    intros ->. apply E. rewrite Z.mul_comm. apply Z.mod_mul. lia. }
  split; [intros x; change (xram s1 x) with (a_xram (view s1) x); rewrite Q5; destruct (b <? 128); reflexivity|].
  change (pc s1) with (a_pc (view s1)). rewrite Q1. destruct (b <? 128); reflexivity.
Qed.
(* SETB 21h.3 *)
Example C43_example : let G := dev [0xd2; 0x0b] in
  new_bit (rom G (pc st0)) (CY (view st0)) (rd_bit (view st0) 0x0b) = Some true /\ iram (inst_step G st0) 0x21 = 8.
Proof. split; vm_compute; reflexivity. Qed.
Print Assumptions C43_bit_ops_exact.

(* ------------------------------------------------------------------ C44 *)
(** Every instruction takes the number of machine cycles the manual gives. *)
Theorem C44_cycles : forall G s a', wf_cfg G -> ltr G = true -> wf s ->
  step (rom G) (isize G) (view s) = Some a' -> differs_at (rom G) (view s) = false ->
  cycles_at (rom G) (view s) = Some (insts (inst_step G s)).
Proof. intros G s a' HG HL W E D. exact (proj2 (proj2 (proj2 (step_ok G s a' HG HL W E D)))). Qed.
Example C44_example : let G := dev [0xa4; 0x00] in insts (inst_step G st0) = 4 /\ insts (steps G 2 st0) = 1.
Proof. split; vm_compute; reflexivity. Qed.
Print Assumptions C44_cycles.

(* ------------------------------------------------------------------ C45 *)
(** The length the disassembler uses is the length of the manual, and it is
    how far the program counter moves over an instruction that does not
    transfer control. *)
Theorem C45_length_is_manual : forall G s ins len cyc, wf_cfg G -> wf s ->
  decode_at (rom G) (view s) = Some (ins, len, cyc) -> inst_length G (pc s) = len.
Proof.
  intros G s ins len cyc [HR _] W E. rewrite dec_at in E by exact W.
  exact (proj1 (len_ok _ _ _ _ _ _ (HR (pc s)) E)).
Qed.
Theorem C45_length_is_pc_step : forall G s a' ins len cyc, wf_cfg G -> ltr G = true -> wf s ->
  decode_at (rom G) (view s) = Some (ins, len, cyc) -> transfers ins = false ->
  step (rom G) (isize G) (view s) = Some a' -> differs_at (rom G) (view s) = false ->
  pc (inst_step G s) = (pc s + inst_length G (pc s)) mod 65536.
Proof.
  intros G s a' ins len cyc HG HL W Ed Ht E D. destruct (step_ok G s a' HG HL W E D) as (_ & (R1 & _) & _).
  rewrite (C45_length_is_manual G s ins len cyc HG W Ed).
  change (pc (inst_step G s)) with (a_pc (view (inst_step G s))). rewrite R1.
  unfold step in E. rewrite Ed in E. cbn [obind] in E.
  destruct (effect _ _ _ _) as [x|] eqn:Ex; cbn [obind] in E; [|discriminate E]. apply some_eq in E. subst a'.
  apply effect_pc in Ex; [|exact Ht]. change (a_pc (fixP x)) with (a_pc x). rewrite Ex. reflexivity.
Qed.
Theorem C45_longest : longest_inst = 3 /\ forall G a, wf_cfg G -> 1 <= inst_length G a <= longest_inst.
Proof.
  split; [vm_compute; reflexivity|]. intros G a [HR _]. unfold inst_length.
  assert (H : (fun op => match lookup disass_51 op with Some e => (1 <=? d_length e) && (d_length e <=? 3) | None => true end) (rom G a) = true).
  { generalize (HR a). generalize (rom G a). apply sweep_byte. vm_compute. reflexivity. }
  cbv beta in H. change longest_inst with 3. destruct (lookup disass_51 (rom G a)); lia.
Qed.
Example C45_example : let G := dev [0x75; 0x30; 0x12] in
  decode_at (rom G) (view st0) = Some (Mov (oDir 0x30) (oImm 0x12), 3, 2) /\ inst_length G 0 = 3 /\ pc (inst_step G st0) = 3.
Proof. vm_compute; repeat split; reflexivity. Qed.
Print Assumptions C45_length_is_manual.
Print Assumptions C45_length_is_pc_step.
Print Assumptions C45_longest.

(* ------------------------------------------------------------------ C46 *)
(** The command next treats an instruction as a call exactly when it is ACALL
    or LCALL, except that ACALL of page 0 (opcode 11) is executed as a step;
    for a call it stops after the call, at PC plus the length. *)
Theorem C46_next_exact : forall G s ins len cyc brk_at, wf_cfg G -> wf s ->
  decode_at (rom G) (view s) = Some (ins, len, cyc) ->
  next_cmd G brk_at (pc s) =
    (if is_call_ins ins && negb (rom G (pc s) =? 0x11)
     then ((if brk_at (pc s + len) then None else Some (pc s + len)), 0) else (None, 1)).
Proof.
  intros G s ins len cyc brk_at [HR HI] W E. pose proof E as E'. rewrite dec_at in E' by exact W.
  destruct (len_ok _ _ _ _ _ _ (HR (pc s)) E') as (_ & C).
  unfold next_cmd, next_inst. rewrite (C45_length_is_manual G s ins len cyc (conj HR HI) W E).
  change (is_call G (pc s)) with (tbl_call (rom G (pc s))). rewrite C.
  destruct (is_call_ins ins && negb (rom G (pc s) =? 0x11)); reflexivity.
Qed.
(** The breakpoint of next is where the call returns to (C42), unless the call
    is the last instruction of the 64K code space: then it is at 10000h, where
    the return never arrives. *)
Theorem C46_next_address_exact : forall G s ins len cyc brk_at a, wf_cfg G -> wf s ->
  decode_at (rom G) (view s) = Some (ins, len, cyc) ->
  fst (next_cmd G brk_at (pc s)) = Some a ->
  a = pc s + len /\ (a = (pc s + len) mod 65536 <-> pc s + len < 65536).
Proof.
  intros G s ins len cyc brk_at a HG W E Hn. pose proof W as (Hp & _). rewrite (C46_next_exact G s ins len cyc brk_at HG W E) in Hn.
  assert (Ea : a = pc s + len).
  { destruct (is_call_ins ins && _); cbn [fst] in Hn; [|discriminate Hn]. destruct (brk_at _); cbn [fst] in Hn; [discriminate Hn|]. congruence. }
  split; [exact Ea|]. rewrite Ea.
  assert (Hl : 1 <= len).
  { rewrite <- (C45_length_is_manual G s ins len cyc HG W E). exact (proj1 (proj2 C45_longest G (pc s) HG)). }
  split; intros H.
  - assert (0 <= (pc s + len) mod 65536 < 65536) by (apply Z.mod_pos_bound; lia). lia.
  - symmetry. apply Z.mod_small. lia.
Qed.
Example C46_example :
  next_cmd (dev [0x31; 0x20]) (fun _ => false) 0 = (Some 2, 0) /\     (* ACALL 120h *)
  next_cmd (dev [0x11; 0x20]) (fun _ => false) 0 = (None, 1) /\       (* ACALL 020h: stepped into *)
  next_cmd (dev [0x12; 0; 9]) (fun _ => false) 0 = (Some 3, 0).
Proof. vm_compute; repeat split; reflexivity. Qed.
Print Assumptions C46_next_exact.
Print Assumptions C46_next_address_exact.

(* ------------------------------------------------------------------ C47 *)
(** The reserved opcode A5: reported as an error, no memory or register is
    changed, and execution continues at instPC + 1. *)
Theorem C47_reserved_exact : forall G s, wf_cfg G -> wf s -> 0 <= instpc s < 65536 -> rom G (pc s) = 0xa5 ->
  let s1 := inst_step G s in
  pc s1 = (instpc s + 1) mod 65536 /\ unknown s1 = unknown s + 1 /\
  iram s1 = iram s /\ sfr s1 = sfr s /\ xram s1 = xram s.
Proof.
  intros G s HG W Hi Hop s1. unfold s1, inst_step, exec_inst. pose proof W as (Hp & _).
  set (s0 := mkSt _ _ _ _ _ _ _ _ _ _ _ _). assert (W0 : wf s0) by exact W. rewrite fetch_eq by exact W0.
  change (pc s0) with (pc s). rewrite Hop. change (itab G 0xa5) with (@None (Z -> st -> st)). cbv iota.
  rewrite fetch_eq by (apply wf_set_pc; [apply wf_tick, wf_set_pc; [exact W0|apply Z.mod_pos_bound; lia]|exact Hi]).
  repeat split; reflexivity.
Qed.
(** ... and instPC keeps, through every instruction, the value it had at reset. *)
Theorem C47_instpc_never_changes : forall G n s, wf_cfg G -> any_state s -> instpc (steps G n s) = instpc s.
Proof.
  intros G n. induction n as [|n IH]; intros s HG W; [reflexivity|]. cbn [steps].
  rewrite IH; [apply ip_step; assumption|exact HG|]. exact (safe_step G s HG W).
Qed.
Example C47_example : let G := dev [0x00; 0x00; 0x00; 0xa5] in
  pc (steps G 3 st0) = 3 /\ pc (steps G 4 st0) = 1 /\ unknown (steps G 4 st0) = 1.
Proof. vm_compute; repeat split; reflexivity. Qed.
Print Assumptions C47_reserved_exact.
Print Assumptions C47_instpc_never_changes.

(* ------------------------------------------------------------------ C48 *)
(** What the instructions excluded from C38 do. PUSH SP stores the value SP
    had before the instruction (the manual: the incremented value). *)
Theorem C48_push_sp_exact : forall G s, wf_cfg G -> wf s ->
  rom G (pc s) = 0xc0 -> rom G ((pc s + 1) mod 65536) = rSP -> (sfr s rSP + 1) mod 256 < isize G ->
  let s1 := inst_step G s in sfr s1 rSP = (sfr s rSP + 1) mod 256 /\ iram s1 ((sfr s rSP + 1) mod 256) = sfr s rSP.
Proof.
  intros G s HG W Hop Hd Hlt s1.
  destruct (push_step G s rSP (sfr s rSP) HG W Hop Hd eq_refl Hlt) as (_ & A1 & A2 & _). split; [exact A1|exact A2].
Qed.
(** MOVC A,@A+DPTR beyond the end of the code space does not wrap around: the
    cell of non-existing memory is read. *)
Theorem C48_movc_exact : forall G s, wf_cfg G -> wf s -> rom G (pc s) = 0x93 ->
  let t := DPTR (view s) + sfr s rA in
  sfr (inst_step G s) rA = (if t <? 65536 then rom G t else hole s).
Proof.
  intros G s HG W Hop t. pose proof HG as [HR _]. pose proof W as (_ & _ & _ & _ & Hh & _).
  rewrite (exec_at G s 0x93 (instruction_93 G) W Hop eq_refl). pose proof (wf_begin s W) as W0. set (u := tick 1 _) in *.
  unfold instruction_93, acc_write. cbn [sfr tick]. rewrite sfr_write_at by exact W0. change (rA =? ACC) with true. cbv iota.
  assert (Et : sfr u DPH * 256 + sfr u DPL + acc u = t).
  { unfold t, DPTR, acc. cbn [view a_sfr]. change (sfr u) with (sfr s). change rDPH with DPH. change rDPL with DPL. change rA with ACC. lia. }
  rewrite Et. unfold rom_read. change 0x10000 with 65536. destruct (t <? 65536); apply u8_id; [apply HR|exact Hh].
Qed.
(** MOV A,ACC (E5 E0) leaves the state as it is, but is also reported as an error. *)
Theorem C48_mov_a_acc_exact : forall G s, wf_cfg G -> wf s -> rom G (pc s) = 0xe5 ->
  let s1 := inst_step G s in
  unknown s1 = unknown s + (if rom G ((pc s + 1) mod 65536) =? rA then 1 else 0).
Proof.
  intros G s HG W Hop s1. unfold s1. rewrite (exec_at G s 0xe5 (instruction_e5 G) W Hop eq_refl).
  pose proof (wf_begin s W) as W0. set (u := tick 1 _) in *. unfold instruction_e5. rewrite fetch_eq by exact W0.
  change (pc u) with ((pc s + 1) mod 65536). change rA with ACC. destruct (_ =? ACC); [reflexivity|].
  unfold acc_write, sfr_write. change (ACC =? ACC) with true. change (ACC =? PSW) with false. cbv iota.
  rewrite Z.add_0_r. reflexivity.
Qed.
(** LJMP and LCALL fetch the two address bytes in one expression whose order of
    evaluation C++ leaves open: with the other order LJMP swaps them. *)
Theorem C48_ljmp_exact : forall G s, wf_cfg G -> wf s -> rom G (pc s) = 0x02 ->
  let h := rom G ((pc s + 1) mod 65536) in let l := rom G ((pc s + 2) mod 65536) in
  pc (inst_step G s) = (if ltr G then 256 * h + l else 256 * l + h).
Proof.
  intros G s HG W Hop h l. pose proof W as (Hp & _).
  rewrite (exec_at G s 0x02 (instruction_02 G) W Hop eq_refl). pose proof (wf_begin s W) as W0. set (u := tick 1 _) in *.
  unfold instruction_02. rewrite fetch_eq by exact W0. rewrite fetch_eq by (apply wf_set_pc; [exact W0|apply Z.mod_pos_bound; lia]).
  cbn [pc tick set_pc u]. replace (((pc s + 1) mod 65536 + 1) mod 65536) with ((pc s + 2) mod 65536)
    by (rewrite Z.add_mod_idemp_l by lia; f_equal; lia).
  fold h l. destruct (ltr G); lia.
Qed.
Example C48_example :
  iram (inst_step (dev [0xc0; 0x81]) st0) 8 = 7 /\
  unknown (inst_step (dev [0xe5; 0xe0]) st0) = 1 /\
  pc (inst_step (dev [0x02; 0x12; 0x34]) st0) = 0x1234 /\
  sfr (steps (dev [0x90; 0xff; 0xff; 0x74; 0x02; 0x93]) 3 st0) rA = 0.
Proof. vm_compute; repeat split; reflexivity. Qed.
Print Assumptions C48_push_sp_exact.
Print Assumptions C48_movc_exact.
Print Assumptions C48_mov_a_acc_exact.
Print Assumptions C48_ljmp_exact.
