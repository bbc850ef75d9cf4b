(** Properties C117 - C126 of the 8080 and 8085 processors.
    [exec_inst m85 lim dum hit s]: one instruction of an 8085 ([m85]) or 8080 with stack
    limit [lim]; [dum] is what is read outside of the memory; [hit]: a breakpoint is hit. *)
From Verif Require Import Base I80Model I80Spec I80Spec2 I80Proofs I80Proofs2 I80Proofs3 I80Proofs4 I80Proofs5 I80Proofs6 I80Proofs7 I80Proofs8 I80Proofs9 I80Proofs10 I80Proofs11 I80Proofs12 I80Proofs13 I80Proofs14 I80Proofs15.

(** a state for the examples: a program at 256, [a] and [f] in A and the flags *)
Definition ex_mem (p : list Z) : Z -> Z := fun a => if a <? 256 then 0 else nth (Z.to_nat (a - 256)) p 0.
Definition ex_s (a f hl sp : Z) (p : list Z) : cpu :=
  mkC a f 18 52 86 120 (hl / 256) (hl mod 256) sp 256 (ex_mem p) 0 100 [].
Lemma ex_wf a f hl sp p : 0 <= a < 256 -> 0 <= f < 256 -> 0 <= hl < 65536 -> 0 <= sp < 65536 ->
  Forall (fun b => 0 <= b < 256) p -> wf (ex_s a f hl sp p).
Proof.
  intros Ha Hf Hh Hs Hp. unfold wf, ex_s. cbn [A F B C D E H L SP PC mem].
  assert (0 <= hl / 256 < 256) by (split; [apply Z.div_pos|apply Z.div_lt_upper_bound]; lia).
  pose proof (Z.mod_pos_bound hl 256 ltac:(lia)).
  assert (M : forall a, 0 <= ex_mem p a < 256).
  { intros x. unfold ex_mem. destruct (x <? 256); [lia|]. destruct (nth_in_or_default (Z.to_nat (x - 256)) p 0) as [I | ->]; [|lia].
    rewrite Forall_forall in Hp. exact (Hp _ I). }
  repeat split; try lia; apply M.
Qed.
Ltac exwf := apply ex_wf; try lia; repeat constructor; lia.

(** ** C117 *)
(** Every instruction of the manual does to registers, flags, memory, SP and PC what the
    manual says, but in the cases listed in [differs]. *)
Theorem C117_manual :
  forall m85 lim dum s, wf s -> ~ undefined_code (mem s (PC s)) -> ~ differs m85 (abs s) ->
  same (abs (fst (exec_inst m85 lim dum false s))) (manual m85 (abs s)).
Proof. exact exec_refines. Qed.
Print Assumptions C117_manual.
(** ADD M: 200 + 100 *)
Example C117_manual_ex :
  let s := ex_s 200 2 257 0 [134; 100] in
  wf s /\ ~ undefined_code (mem s (PC s)) /\ ~ differs false (abs s) /\
  let t := fst (exec_inst false 0 0 false s) in A t = 44 /\ F t = 3 /\ PC t = 257 /\ ticks t = 107.
Proof.
  cbv zeta. split; [exwf|]. split; [cbn; lia|]. split.
  - intros D. destruct D as [v O|v O|v O|H|H|H|H|H]; try (cbn in H; lia).
    all: unfold operand_of in O; cbn in O; lia.
  - vm_compute. repeat split.
Qed.

(** ** C118 *)
(** ADC and ACI: as the manual says, but the auxiliary carry is lost if C is set and the low
    digit of the operand is 15, and the carry if C is set and the operand is 255. *)
Theorem C118_adc :
  forall m85 lim dum s v, wf s -> operand_of 1 (abs s) v ->
  let y := manual m85 (abs s) in
  same (abs (fst (exec_inst m85 lim dum false s)))
       (with_flags (fA y && negb (fC (abs s) && (v mod 16 =? 15))) (fC y && negb (fC (abs s) && (v =? 255))) y).
Proof. exact exec_adc. Qed.
Print Assumptions C118_adc.
(** A = 1, C set, ACI 255: A is 1, and the carry is lost *)
Example C118_adc_ex : let s := ex_s 1 3 0 0 [206; 255] in
  wf s /\ operand_of 1 (abs s) 255 /\ fC (manual false (abs s)) = true /\
  let t := fst (exec_inst false 0 0 false s) in A t = 1 /\ fC (abs t) = false /\ fA (abs t) = false.
Proof. cbv zeta. split; [exwf|]. split; [right; split; reflexivity|]. vm_compute. repeat split. Qed.
(** SBB and SBI: as the manual says, but the borrow is lost if C is set and the operand
    is equal to A. *)
Theorem C118_sbb :
  forall m85 lim dum s v, wf s -> operand_of 3 (abs s) v ->
  let y := manual m85 (abs s) in
  same (abs (fst (exec_inst m85 lim dum false s)))
       (with_flags (fA y) (fC y && negb (fC (abs s) && (A s =? v))) y).
Proof. exact exec_sbb. Qed.
Print Assumptions C118_sbb.
(** SBB A with C set: A is 255, and the borrow is lost *)
Example C118_sbb_ex : let s := ex_s 7 3 0 0 [159] in
  wf s /\ operand_of 3 (abs s) 7 /\ fC (manual false (abs s)) = true /\
  let t := fst (exec_inst false 0 0 false s) in A t = 255 /\ fC (abs t) = false.
Proof.
  cbv zeta. split; [exwf|]. split; [left|vm_compute; repeat split]. cbn -[Z.div Z.modulo]. split; [lia|]. split; reflexivity.
Qed.
(** ANA and ANI: as the manual says, but the auxiliary carry is set always, on the 8080
    too, where it should be the or of the bits 3. *)
Theorem C118_ana :
  forall m85 lim dum s v, wf s -> operand_of 4 (abs s) v ->
  let y := manual m85 (abs s) in
  same (abs (fst (exec_inst m85 lim dum false s))) (with_flags true (fC y) y) /\ (m85 = true -> fA y = true).
Proof.
  intros m85 lim dum s v W O y. split; [exact (exec_ana m85 lim dum s v W O)|]. intros ->. unfold y.
  destruct (exec_alu true 0 0 kANA v s W O) as [s2 [W2 [C2 [A2 [Rv [E1 E2]]]]]]. rewrite E2. reflexivity.
Qed.
Print Assumptions C118_ana.
Example C118_ana_ex : let s := ex_s 7 2 0 0 [230; 3] in
  wf s /\ operand_of 4 (abs s) 3 /\ fA (manual false (abs s)) = false /\
  let t := fst (exec_inst false 0 0 false s) in A t = 3 /\ fA (abs t) = true.
Proof. cbv zeta. split; [exwf|]. split; [right; split; reflexivity|]. vm_compute. repeat split. Qed.

(** ** C119 *)
(** DAA gives the manual's A unless C is clear, AC set, the high digit 9 and the low one
    at most 9, and the manual's carry unless C is set and the corrected sum is below 256
    (then the carry is lost).  It leaves AC alone, follows A with S, Z and P only if A is
    corrected, and changes nothing else. *)
Theorem C119_daa :
  forall m85 lim dum s, wf s -> mem s (PC s) = 39 ->
  let x := abs s in let s' := fst (exec_inst m85 lim dum false s) in
  (A s' = R (manual m85 x) 7 <-> ~ (fC x = false /\ fA x = true /\ A s / 16 = 9 /\ A s mod 16 <= 9)) /\
  (fC (abs s') = fC (manual m85 x) <->
     ~ (fC x = true /\ A s + 96 + (if (9 <? A s mod 16) || fA x then 6 else 0) < 256)) /\
  fA (abs s') = fA x /\
  (A s' = A s -> fS (abs s') = fS x /\ fZ (abs s') = fZ x /\ fP (abs s') = fP x) /\
  (A s' <> A s -> fS (abs s') = (128 <=? A s') /\ fZ (abs s') = (A s' =? 0) /\ fP (abs s') = even_parity (A s')) /\
  (forall n, 0 <= n <= 5 -> R (abs s') n = R x n) /\ SP s' = SP s /\ PC s' = w (PC s + 1) /\ (forall a, mem s' a = mem s a).
Proof.
  intros m85 lim dum s W Hc x s'.
  destruct (daa_against m85 lim dum s W Hc) as [D1 D2]. fold x s' in D1, D2.
  destruct (exec_daa_parts m85 lim dum s W Hc) as [P1 [P2 [P3 [P4 [P5 P6]]]]]. fold x s' in P1, P2, P3, P4, P5, P6.
  split; [exact D1|]. split; [exact D2|]. split; [exact P3|].
  assert (K : A s' = A s <-> dcorr (A s) (fA x) (fC x) = 0).
  { rewrite P1. unfold sA. cbv zeta. assert (Ra : 0 <= A s < 256) by apply W.
    assert (Rk : 0 <= dcorr (A s) (fA x) (fC x) < 256) by (unfold dcorr; destruct (dlo _ _), (dhi _ _ _); lia).
    destruct (dcorr (A s) (fA x) (fC x) =? 0) eqn:X; [apply Z.eqb_eq in X; tauto|]. apply Z.eqb_neq in X.
    split; [|tauto]. intros E. exfalso.
    destruct (Z.lt_ge_cases (A s + dcorr (A s) (fA x) (fC x)) 256) as [Y | Y].
    - rewrite Z.mod_small in E by lia. lia.
    - rewrite <- (Z.mod_unique (A s + dcorr (A s) (fA x) (fC x)) 256 1 (A s + dcorr (A s) (fA x) (fC x) - 256)) in E; lia. }
  split; [intros E; apply P4, K, E|]. split; [intros E; apply P5; intros E2; apply E, K, E2|]. exact P6.
Qed.
Print Assumptions C119_daa.
(** 99h with AC and without C: FFh instead of 9Fh *)
Example C119_daa_ex : let s := ex_s 153 18 0 0 [39] in
  wf s /\ R (manual false (abs s)) 7 = 159 /\ A (fst (exec_inst false 0 0 false s)) = 255.
Proof. cbv zeta. split; [exwf|]. vm_compute. repeat split. Qed.
(** Decimal addition with ADI and DAA: right but for the cases given. *)
Theorem C119_decimal :
  forall m85 lim dum s x y, wf s -> 0 <= x < 100 -> 0 <= y < 100 -> A s = bcd x ->
  mem s (PC s) = 198 -> mem s (w (PC s + 1)) = bcd y -> mem s (w (PC s + 2)) = 39 ->
  let t := two m85 lim dum s in
  (A t = bcd ((x + y) mod 100) <-> ~ (16 <= x mod 10 + y mod 10 /\ x / 10 + y / 10 = 8)) /\
  (fC (abs t) = (100 <=? x + y) <-> bcd x + bcd y < 256).
Proof. exact bcd_add. Qed.
Print Assumptions C119_decimal.
(** 27 + 38 = 65, 79 + 19 = 98 (but F8h is the result), 90 + 90 = 180 without carry *)
Example C119_decimal_ex :
  wf (ex_s 39 2 0 0 [198; 56; 39]) /\ A (two false 0 0 (ex_s 39 2 0 0 [198; 56; 39])) = 101 /\
  A (two false 0 0 (ex_s 121 2 0 0 [198; 25; 39])) = 248 /\
  let t := two false 0 0 (ex_s 144 2 0 0 [198; 144; 39]) in A t = 128 /\ fC (abs t) = false.
Proof. split; [exwf|]. vm_compute. repeat split. Qed.

(** ** C120 *)
(** RST n pushes the address of the next instruction but goes to 8 n only for n = 0, 1, 4
    and 5; RST 2, 3, 6, 7 go where RST 0, 1, 4, 5 do. *)
Theorem C120_rst :
  forall m85 lim dum s n, wf s -> 0 <= n < 8 -> mem s (PC s) = 199 + 8 * n ->
  let s' := fst (exec_inst m85 lim dum false s) in
  same (abs s') (setpc (8 * (n - 2 * (n / 2 mod 2))) (push (w (PC s + 1)) (abs s))) /\
  (PC s' = 8 * n <-> n = 0 \/ n = 1 \/ n = 4 \/ n = 5).
Proof.
  intros m85 lim dum s n W Hn Hc s'. pose proof (exec_rst m85 lim dum s n W Hn Hc) as Sm. fold s' in Sm. split; [exact Sm|].
  assert (E : PC s' = 8 * (n - 2 * (n / 2 mod 2))) by exact (same_pc _ _ Sm). rewrite E.
  assert (C8 : n = 0 \/ n = 1 \/ n = 2 \/ n = 3 \/ n = 4 \/ n = 5 \/ n = 6 \/ n = 7) by lia.
  destruct C8 as [-> | [-> | [-> | [-> | [-> | [-> | [-> | ->]]]]]]]; cbn; lia.
Qed.
Print Assumptions C120_rst.
Example C120_rst_ex : let s := ex_s 0 2 0 4096 [255] in
  wf s /\ mem s (PC s) = 199 + 8 * 7 /\ PC (fst (exec_inst false 0 0 false s)) = 40.
Proof. cbv zeta. split; [exwf|]. vm_compute. repeat split. Qed.

(** ** C121 *)
(** An instruction that does not overwrite its own code takes the cycles of the data
    sheet, but 5 for MOV A,H (8085) and XCHG (8080), and none for conditional jumps of
    the 8080 that are taken. *)
Theorem C121_cycles :
  forall m85 lim dum s, wf s -> ~ undefined_code (mem s (PC s)) ->
  let c := mem s (PC s) in let tk := taken (abs s) in
  let s' := fst (exec_inst m85 lim dum false s) in
  mem s' (PC s) = c ->
  (if m85 then c <> 124 else c <> 235 /\ ~ (192 <= c /\ c mod 8 = 2 /\ tk = true)) ->
  ticks s' - ticks s = cycles m85 c tk.
Proof.
  intros m85 lim dum s W N c tk s' Hm Hd. unfold s'. rewrite exec_cycles by assumption. fold c tk. unfold cycles_dev.
  destruct m85; [replace (c =? 124) with false by lia; reflexivity|]. destruct Hd as [H1 H2].
  replace (c =? 235) with false by lia. destruct (cond_code c && (c mod 8 =? 2) && tk) eqn:X; [|reflexivity].
  exfalso. apply H2. unfold cond_code in X. destruct tk; [|rewrite andb_false_r in X; discriminate].
  rewrite !andb_true_iff in X. lia.
Qed.
Print Assumptions C121_cycles.
Example C121_cycles_ex : let s := ex_s 5 2 1024 4096 [205; 0; 8] in
  wf s /\ ~ undefined_code (mem s (PC s)) /\ ticks (fst (exec_inst false 0 0 false s)) - ticks s = 17 /\
  ticks (fst (exec_inst true 0 0 false s)) - ticks s = 18.
Proof. cbv zeta. split; [exwf|]. split; [cbn; lia|]. vm_compute. split; reflexivity. Qed.
(** The cases left out above. *)
Theorem C121_deviation :
  forall m85 lim dum s, wf s -> ~ undefined_code (mem s (PC s)) ->
  let c := mem s (PC s) in let s' := fst (exec_inst m85 lim dum false s) in
  mem s' (PC s) = c ->
  (m85 = true -> c = 124 -> ticks s' - ticks s = 5) /\
  (m85 = false -> c = 235 -> ticks s' - ticks s = 5) /\
  (m85 = false -> 192 <= c -> c mod 8 = 2 -> taken (abs s) = true -> ticks s' - ticks s = 0).
Proof.
  intros m85 lim dum s W N c s' Hm. unfold s'. rewrite exec_cycles by assumption. fold c. unfold cycles_dev.
  split; [intros -> ->; reflexivity|]. split; [intros -> ->; reflexivity|]. intros -> H1 H2 ->.
  assert (c <> 235) by (intros E; rewrite E in H2; cbn in H2; lia). replace (c =? 235) with false by lia.
  unfold cond_code. replace (192 <=? c) with true by lia. rewrite H2. reflexivity.
Qed.
Print Assumptions C121_deviation.
(** a loop of JNZ to itself takes no time *)
Example C121_deviation_ex : let s := ex_s 5 2 1024 4096 [194; 0; 1] in
  wf s /\ taken (abs s) = true /\
  let t := fst (exec_inst false 0 0 false s) in abs t = abs s /\ ticks t = ticks s.
Proof. cbv zeta. split; [exwf|]. split; [reflexivity|]. vm_compute. split; reflexivity. Qed.
(** Stopping at a breakpoint executes nothing, but counts the cycles of the instruction
    (less one), so they are counted again when it is executed. *)
Theorem C121_breakpoint :
  forall m85 lim dum s, wf s -> ~ undefined_code (mem s (PC s)) ->
  let s' := fst (exec_inst m85 lim dum true s) in
  snd (exec_inst m85 lim dum true s) = BREAKPOINT /\ abs s' = abs s /\ F s' = F s /\ errs s' = errs s /\
  ticks s' = ticks s + cycles_dev m85 (mem s (PC s)) false - 1.
Proof. exact exec_hit. Qed.
Print Assumptions C121_breakpoint.
Example C121_breakpoint_ex : ticks (fst (exec_inst false 0 0 true (ex_s 5 2 1024 4096 [205; 0; 8]))) = 116.
Proof. vm_compute. reflexivity. Qed.
(** An instruction that overwrites itself is counted with the cycles of what it wrote. *)
Theorem C121_overwritten_deviation :
  forall m85 lim dum s, wf s -> mem s (PC s) = 119 -> pairv 2 (abs s) = PC s -> ~ undefined_code (A s) ->
  let s' := fst (exec_inst m85 lim dum false s) in
  mem s' (PC s) = A s /\ ticks s' - ticks s = cycles_dev m85 (A s) false.
Proof. intros m85 lim dum s W Hc Hh. exact (exec_self m85 lim dum s W Hc Hh). Qed.
Print Assumptions C121_overwritten_deviation.
Example C121_overwritten_deviation_ex : let s := ex_s 205 2 256 4096 [119] in
  wf s /\ pairv 2 (abs s) = PC s /\ ticks (fst (exec_inst false 0 0 false s)) - ticks s = 17.
Proof. cbv zeta. split; [exwf|]. split; vm_compute; reflexivity. Qed.

(** ** C122 *)
(** Every code has a length of 1 to 3 bytes in the disassembler, execution goes on behind
    that many bytes unless the instruction goes elsewhere, and calls return there. *)
Theorem C122_length :
  forall m85 c, 0 <= c < 256 -> exists n, dis_length m85 c = Some n /\ 1 <= n <= 3.
Proof. intros m85 c H. destruct (dis_len m85 c H) as [E1 E2]. eexists. split; [exact E1|exact E2]. Qed.
Print Assumptions C122_length.
Theorem C122_next :
  forall m85 lim dum s n, wf s -> dis_length m85 (mem s (PC s)) = Some n -> elsewhere m85 s = false ->
  PC (fst (exec_inst m85 lim dum false s)) = w (PC s + n).
Proof.
  intros m85 lim dum s n W E J. rewrite exec_pc by assumption.
  destruct (dis_len m85 (mem s (PC s))) as [E1 _]; [apply W|]. rewrite E1 in E. injection E as <-. reflexivity.
Qed.
Print Assumptions C122_next.
Theorem C122_return :
  forall m85 lim dum s n, wf s -> dis_length m85 (mem s (PC s)) = Some n -> calls_now m85 s = true ->
  let s' := fst (exec_inst m85 lim dum false s) in popv (abs s') = w (PC s + n) /\ SP s' = w (SP s - 2).
Proof.
  intros m85 lim dum s n W E J s'. destruct (exec_calls m85 lim dum s W J) as [C1 C2]. fold s' in C1, C2.
  destruct (dis_len m85 (mem s (PC s))) as [E1 _]; [apply W|]. rewrite E1 in E. injection E as <-. split; assumption.
Qed.
Print Assumptions C122_return.
Example C122_ex : let s := ex_s 5 2 256 4096 [58; 1; 2] in let t := ex_s 5 2 256 4096 [196; 1; 2] in
  wf s /\ dis_length false (mem s (PC s)) = Some 3 /\ elsewhere false s = false /\
  wf t /\ dis_length false (mem t (PC t)) = Some 3 /\ calls_now false t = true.
Proof.
  cbv zeta. split; [exwf|]. split; [vm_compute; reflexivity|]. split; [vm_compute; reflexivity|].
  split; [exwf|]. split; vm_compute; reflexivity.
Qed.

(** ** C123 *)
(** What PUSH stored, a POP into any pair gets back, with SP as before, whatever happened
    in between, if SP is the same again and the two bytes were not changed. *)
Theorem C123_push_pop :
  forall m85 lim dum dum2 s t p q, wf s -> wf t -> 0 <= p < 3 -> 0 <= q < 3 ->
  mem s (PC s) = 197 + 16 * p -> mem t (PC t) = 193 + 16 * q ->
  let s' := fst (exec_inst m85 lim dum false s) in let t' := fst (exec_inst m85 lim dum2 false t) in
  SP t = SP s' -> mem t (SP s') = mem s' (SP s') -> mem t (w (SP s' + 1)) = mem s' (w (SP s' + 1)) ->
  pairv q (abs t') = pairv p (abs s) /\ SP t' = SP s.
Proof. exact push_pop. Qed.
Print Assumptions C123_push_pop.
(** the same for calls (of any kind, taken) and RET *)
Theorem C123_call_ret :
  forall m85 lim dum dum2 s t n, wf s -> wf t -> calls_now m85 s = true -> mem t (PC t) = 201 ->
  dis_length m85 (mem s (PC s)) = Some n ->
  let s' := fst (exec_inst m85 lim dum false s) in let t' := fst (exec_inst m85 lim dum2 false t) in
  SP t = SP s' -> mem t (SP s') = mem s' (SP s') -> mem t (w (SP s' + 1)) = mem s' (w (SP s' + 1)) ->
  PC t' = w (PC s + n) /\ SP t' = SP s.
Proof.
  intros m85 lim dum dum2 s t n W Wt Hc Hd E s' t' H1 H2 H3.
  destruct (dis_len m85 (mem s (PC s))) as [E1 _]; [apply W|]. rewrite E1 in E. injection E as <-.
  exact (call_ret m85 lim dum dum2 s t W Wt Hc Hd H1 H2 H3).
Qed.
Print Assumptions C123_call_ret.
(** PUSH B; POP D  and  CALL 106h ... RET *)
Example C123_push_pop_ex :
  let s := ex_s 5 2 256 1 [197; 209] in let s' := fst (exec_inst false 0 0 false s) in
  wf s /\ SP s' = 65535 /\ mem s' (PC s') = 193 + 16 * 1 /\ pairv 1 (abs (fst (exec_inst false 0 0 false s'))) = pairv 0 (abs s).
Proof. cbv zeta. split; [exwf|]. vm_compute. repeat split. Qed.
Example C123_call_ret_ex :
  let s := ex_s 5 2 256 4096 [205; 3; 1; 201] in let s' := fst (exec_inst false 0 0 false s) in
  wf s /\ calls_now false s = true /\ mem s' (PC s') = 201 /\ PC (fst (exec_inst false 0 0 false s')) = 259.
Proof. cbv zeta. split; [exwf|]. vm_compute. repeat split. Qed.
(** A stack overflow is reported by exactly the instructions that push (PUSH, calls taken,
    RST) and leave SP below the limit, with the address and SP before and after. *)
Theorem C123_overflow :
  forall m85 lim dum s, wf s -> let s' := fst (exec_inst m85 lim dum false s) in
  errs s' = if push_code m85 s && (SP s' <? lim) then errs s ++ [(PC s, SP s, SP s')] else errs s.
Proof. exact exec_errs. Qed.
Print Assumptions C123_overflow.
Example C123_overflow_ex : let s := ex_s 5 2 256 4096 [197] in
  wf s /\ push_code false s = true /\ errs (fst (exec_inst false 4095 0 false s)) = [(256, 4096, 4094)] /\
  errs (fst (exec_inst false 4094 0 false s)) = [].
Proof. cbv zeta. split; [exwf|]. vm_compute. repeat split. Qed.
(** Two bytes at the end of memory: SHLD FFFF loses H, LHLD FFFF and XTHL with SP = FFFF
    read a dummy cell instead of address 0, and XTHL loses H. *)
Theorem C123_end_deviation :
  forall m85 lim dum s, wf s ->
  let c := mem s (PC s) in let s' := abs (fst (exec_inst m85 lim dum false s)) in
  (c = 34 -> operand16 (abs s) = 65535 -> same s' (next 3 (setm 65535 (L s) (abs s)))) /\
  (c = 42 -> operand16 (abs s) = 65535 -> same s' (next 3 (setr 4 (u8 dum) (setr 5 (mem s 65535) (abs s))))) /\
  (c = 227 -> SP s = 65535 -> same s' (next 1 (setr 4 (u8 dum) (setr 5 (mem s 65535) (setm 65535 (L s) (abs s)))))).
Proof.
  intros m85 lim dum s W c s'. split; [|split].
  - exact (exec_shld_end m85 lim dum s W).
  - exact (exec_lhld_end m85 lim dum s W).
  - exact (exec_xthl_end m85 lim dum s W).
Qed.
Print Assumptions C123_end_deviation.
Example C123_end_deviation_ex :
  let s := ex_s 5 2 4660 4096 [34; 255; 255] in let t := fst (exec_inst false 0 0 false s) in
  wf s /\ operand16 (abs s) = 65535 /\ mem t 65535 = 52 /\ mem t 0 = 0.
Proof. cbv zeta. split; [exwf|]. vm_compute. repeat split. Qed.

(** ** C124 *)
(** The further instructions of the 8085: ARHL, RDEL, RSTV, SHLX do what they should (ARHL
    halves HL with its sign, RDEL rotates DE through C, RSTV calls 40h if V, SHLX stores
    HL at DE), and LHLX too unless DE is FFFF. *)
Theorem C124_right :
  forall lim dum s, wf s ->
  let x := abs s in let c := mem s (PC s) in let s' := abs (fst (exec_inst true lim dum false s)) in
  (c = 16 -> same s' (next 1 (setc (Z.odd (pairv 2 x)) (setpair 2 (pairv 2 x / 2 + (if 32768 <=? pairv 2 x then 32768 else 0)) x)))) /\
  (c = 24 -> same s' (next 1 (setc (32768 <=? pairv 1 x) (setpair 1 (w (2 * pairv 1 x + (if fC x then 1 else 0))) x)))) /\
  (c = 203 -> same s' (if Z.testbit (F s) 1 then setpc 64 (push (w (PC s + 1)) x) else next 1 x)) /\
  (c = 217 -> same s' (next 1 (setm (w (pairv 1 x + 1)) (R x 4) (setm (pairv 1 x) (R x 5) x)))) /\
  (c = 237 -> same s' (next 1 (setr 4 (if pairv 1 x =? 65535 then u8 dum else mm x (pairv 1 x + 1)) (setr 5 (mm x (pairv 1 x)) x)))).
Proof.
  intros lim dum s W x c s'. split; [|split; [|split; [|split]]].
  - exact (exec_arhl lim dum s W).
  - exact (exec_rdel lim dum s W).
  - exact (exec_rstv lim dum s W).
  - exact (exec_shlx lim dum s W).
  - exact (exec_lhlx lim dum s W).
Qed.
Print Assumptions C124_right.
Example C124_right_ex :
  wf (ex_s 5 2 65535 4096 [16]) /\ HL (fst (exec_inst true 0 0 false (ex_s 5 2 65533 4096 [16]))) = 65534 /\
  DE (fst (exec_inst true 0 0 false (ex_s 5 3 65533 4096 [24]))) = 44273.
Proof. split; [exwf|]. vm_compute. repeat split. Qed.
(** DSUB subtracts BC from HL; its carry (borrow) is set wrongly if BC is 0. *)
Theorem C124_dsub :
  forall lim dum s, wf s -> mem s (PC s) = 8 -> let x := abs s in
  let r := w (pairv 2 x - pairv 0 x) in let s' := abs (fst (exec_inst true lim dum false s)) in
  pairv 2 s' = r /\ fZ s' = (r =? 0) /\ fS s' = (32768 <=? r) /\
  fC s' = ((pairv 2 x <? pairv 0 x) || (pairv 0 x =? 0)) /\ fP s' = even_parity (r / 256) /\
  (forall n, n = 0 \/ n = 1 \/ n = 2 \/ n = 3 \/ n = 7 -> R s' n = R x n) /\ sp s' = sp x /\ pc s' = w (pc x + 1) /\
  (forall a, mm s' a = mm x a).
Proof. exact exec_dsub. Qed.
Print Assumptions C124_dsub.
Example C124_dsub_ex : let s := ex_s 5 2 4661 4096 [8] in
  wf s /\ HL (fst (exec_inst true 0 0 false s)) = 1.
Proof. cbv zeta. split; [exwf|]. vm_compute. reflexivity. Qed.
(** JNX5 jumps if X5 is set and JX5 if it is clear (they are exchanged); LDHI and LDSI load
    DE from the memory at HL + n or SP + n instead of with that address; RIM and SIM do
    nothing. *)
Theorem C124_wrong_deviation :
  forall lim dum s, wf s ->
  let x := abs s in let c := mem s (PC s) in let s' := abs (fst (exec_inst true lim dum false s)) in
  (c = 221 \/ c = 253 -> same s' (if Bool.eqb (Z.testbit (F s) 5) (c =? 221) then setpc (operand16 x) x else next 3 x)) /\
  (forall b, (c = 40 /\ b = pairv 2 x) \/ (c = 56 /\ b = sp x) -> w (b + operand8 x) <> 65535 ->
     same s' (next 2 (setpair 1 (mm x (w (b + operand8 x)) + 256 * mm x (w (b + operand8 x) + 1)) x))) /\
  (c = 32 \/ c = 48 -> s' = next 1 x).
Proof.
  intros lim dum s W x c s'. split; [|split].
  - exact (exec_jx5 lim dum s W).
  - exact (fun b => exec_ldi lim dum s b W).
  - exact (exec_rim lim dum s W).
Qed.
Print Assumptions C124_wrong_deviation.
Example C124_wrong_deviation_ex :
  wf (ex_s 5 2 256 4096 [40; 1]) /\ DE (fst (exec_inst true 0 0 false (ex_s 5 2 256 4096 [40; 1]))) = 1 /\
  PC (fst (exec_inst true 0 0 false (ex_s 5 34 256 4096 [221; 0; 8]))) = 2048.
Proof. split; [exwf|]. vm_compute. repeat split. Qed.

(** ** C125 *)
(** The unused flag bits: on the 8080 bits 5 and 3 stay 0 and bit 1 stays 1, on the 8085
    bit 3 stays 0, by every instruction but POP PSW. *)
Theorem C125_form :
  forall m85 lim dum s, wf s -> mem s (PC s) <> 241 ->
  let s' := fst (exec_inst m85 lim dum false s) in
  (m85 = false -> byte80 (F s) -> byte80 (F s')) /\
  (m85 = true -> Z.testbit (F s) 3 = false -> Z.testbit (F s') 3 = false).
Proof.
  intros m85 lim dum s W Hc s'. split; intros ->.
  - intros [H5 [H3 H1]]. destruct (exec_form false lim dum s W Hc) as [G3 G]; [split; [exact H3|intros _; split; assumption]|].
    destruct (G eq_refl) as [G5 G1]. split; [exact G5|]. split; [exact G3|exact G1].
  - intros H3. destruct (exec_form true lim dum s W Hc) as [G3 _]; [split; [exact H3|discriminate]|]. exact G3.
Qed.
Print Assumptions C125_form.
(** POP PSW stores the byte as it is (a real 8080 keeps the form); PUSH PSW on the 8080
    stores the manual's byte if the flags have this form, and what is in the flag byte always. *)
Theorem C125_psw :
  forall m85 lim dum s, wf s ->
  let s' := fst (exec_inst m85 lim dum false s) in
  (mem s (PC s) = 241 -> F s' = mem s (SP s) /\ A s' = mem s (w (SP s + 1)) /\ SP s' = w (SP s + 2)) /\
  (mem s (PC s) = 245 -> same (abs s') (next 1 (push (256 * A s + F s) (abs s)))) /\
  (mem s (PC s) = 245 -> byte80 (F s) -> same (abs s') (manual m85 (abs s))).
Proof.
  intros m85 lim dum s W s'. split; [exact (exec_pop_psw m85 lim dum s W)|]. split; [exact (exec_push_psw m85 lim dum s W)|].
  intros Hc Hf. eapply same_eq; [exact (exec_push_psw m85 lim dum s W Hc)|].
  assert (Rf : 0 <= F s < 256) by apply W. code Hc.
  assert (E : F s = psw (abs s)) by exact (psw_byte (F s) Rf Hf). rewrite E at 1. reflexivity.
Qed.
Print Assumptions C125_psw.
Example C125_psw_ex : let s := ex_s 5 2 256 256 [241; 255] in
  wf s /\ byte80 (F s) /\ F (fst (exec_inst false 0 0 false s)) = 241 /\ ~ byte80 241.
Proof.
  cbv zeta. split; [exwf|]. split; [repeat split|]. split; [vm_compute; reflexivity|].
  intros [H _]. vm_compute in H. discriminate.
Qed.

(** ** C126 *)
(** In every history registers and memory hold bytes, SP and PC addresses, and every
    instruction is executed: only HLT stops the simulator, and it alone. *)
Theorem C126_histories :
  forall m85 lim s t dum, wf s -> reaches m85 lim s t ->
  wf t /\ snd (exec_inst m85 lim dum false t) = if mem t (PC t) =? 118 then HALT else GO.
Proof.
  intros m85 lim s t dum W Rt. pose proof (reaches_wf m85 lim s t W Rt) as Wt. split; [exact Wt|]. apply exec_result, Wt.
Qed.
Print Assumptions C126_histories.
Example C126_histories_ex : let s := ex_s 5 2 256 4096 [0; 118] in
  wf s /\ reaches false 0 s (fst (exec_inst false 0 0 false s)) /\
  snd (exec_inst false 0 0 false (fst (exec_inst false 0 0 false s))) = HALT.
Proof. cbv zeta. split; [exwf|]. split; [constructor; constructor|]. vm_compute. reflexivity. Qed.
