(** Properties C127 - C134 of the Z80.  [step dum lim hit s]: one instruction; [dum] is what is
    read outside of the memory, [lim] the stack limit, [hit]: a breakpoint is hit at an address. *)
From Verif Require Import Base Z80Model Z80Spec Z80Proofs Z80Proofs9 Z80Proofs10 Z80Proofs11 Z80Proofs13 Z80Proofs14 Z80Proofs15 Z80Proofs16.

(** states for the examples: registers B, C, D, E, H, L and A, flags, SP, a program at 256 *)
Definition ex_regs (l : list Z) : Z -> Z := fun k => if (0 <=? k) && (k <? 8) then nth (Z.to_nat k) l 0 else 0.
Definition ex_mem (p : list Z) : Z -> Z := fun a => if a <? 256 then 0 else nth (Z.to_nat (a - 256)) p 0.
Definition ex_s (g : list Z) (f sp : Z) (p : list Z) : cpu :=
  mkC (ex_regs g) f 4660 22136 sp 256 (ex_mem p) (fun _ => 0) 0 0 127 false false 0 false (fun _ => 7) (fun _ => 0) false 100 [].
Lemma ex_wf g f sp p : 0 <= f < 256 -> 0 <= sp < 65536 -> Forall (fun b => 0 <= b < 256) g -> Forall (fun b => 0 <= b < 256) p -> wf (ex_s g f sp p).
Proof.
  intros Hf Hs Hg Hp. unfold wf, ex_s, byte, word. cbn [rg arg F aF IX IY SP PC mem iv rr inp].
  assert (N : forall l n, Forall (fun b => 0 <= b < 256) l -> 0 <= nth n l 0 < 256).
  { intros l n H. destruct (nth_in_or_default n l 0) as [I | ->]; [|lia]. rewrite Forall_forall in H. exact (H _ I). }
  assert (R : forall n, 0 <= ex_regs g n < 256) by (intros n; unfold ex_regs; destruct (_ && _); [apply N, Hg|lia]).
  assert (K : forall a, 0 <= ex_mem p a < 256) by (intros a; unfold ex_mem; destruct (a <? 256); [lia|apply N, Hp]).
  split; [exact R|]. split; [intros; lia|]. split; [exact Hf|]. split; [lia|]. split; [lia|]. split; [lia|]. split; [exact Hs|]. split; [lia|].
  split; [exact K|]. split; [lia|]. split; [lia|]. intros; lia.
Qed.
Ltac exwf := apply ex_wf; try lia; repeat constructor; lia.
Definition none : Z -> bool := fun _ => false.

(** ** C127 *)
(** Every instruction, with all prefixes, does to registers, memory, ports, interrupt flip-flops,
    SP, PC and flags what the manual says; the result is reported; but in the cases listed in
    [deviates] (anything) and [deviates_flags] (flags only). *)
Theorem C127_manual :
  forall dum lim hit s, wf s -> hit (PC s) = false ->
  (forall k, In k (codes (abs s)) -> hit (w (PC s + k)) = false) ->
  let '(i, x) := instr_at (abs s) in let x := count_r x in
  fst (step dum lim hit s) = outcome i /\
  (~ deviates i x -> same_but_flags (abs (snd (step dum lim hit s))) (effect i x)) /\
  (~ deviates i x -> ~ deviates_flags i x -> same (abs (snd (step dum lim hit s))) (effect i x)).
Proof.
  intros dum lim hit s W N0 N1. pose proof (step_eq dum lim hit s W (conj N0 N1)) as H.
  destruct (instr_at (abs s)) as [i x]. cbv zeta. destruct H as [H1 H2]. split; [exact H1|].
  split; [intros D; apply H2, D|]. intros D DF. destruct (H2 D) as [A B]. split; [exact A|exact (B DF)].
Qed.
Print Assumptions C127_manual.
(** ADD A,(IX+2) with IX = 257: 200 + 100; R wraps from 127 *)
Example C127_manual_ex :
  let s := set_IX 257 (ex_s [1;2;3;4;5;6;0;200] 0 4096 [221; 134; 2; 100]) in
  wf s /\ instr_at (abs s) = (plain false (ALU ADD LXD), s_pc 258 (abs s)) /\ codes (abs s) = [1] /\
  ~ deviates (plain false (ALU ADD LXD)) (count_r (s_pc 258 (abs s))) /\ ~ deviates_flags (plain false (ALU ADD LXD)) (count_r (s_pc 258 (abs s))) /\
  let t := snd (step 0 0 none s) in A t = 44 /\ F t = 41 /\ PC t = 259 /\ rr t = 0.
Proof.
  cbv zeta. split.
  { destruct (ex_wf [1;2;3;4;5;6;0;200] 0 4096 [221; 134; 2; 100]) as (V1 & V2 & V3 & V4 & V5 & V6); [lia|lia|repeat constructor; lia|repeat constructor; lia|].
    split; [exact V1|]. split; [exact V2|]. split; [exact V3|]. split; [exact V4|]. split; [unfold word; cbn [IX set_IX]; lia|]. exact V6. }
  split; [vm_compute; reflexivity|]. split; [reflexivity|]. split; [intros []|]. split; [intros []|]. vm_compute. repeat split.
Qed.
(** the deviations exist: RETN clears IFF2; OUTI writes the port B - 1 instead of C; CPD moves HL
    upwards; ADC loses the half carry; SET 0,(IX+d),L sets H *)
Example C127_deviations :
  iff2 (snd (step 0 0 none (set_iff2 true (ex_s [] 0 4096 [237; 69])))) = false /\
  i2 (effect (plain false RETN) (abs (set_iff2 true (ex_s [] 0 4096 [237; 69])))) = true /\
  outp (snd (step 0 0 none (ex_s [9;2;0;0;1;2;0;0] 0 4096 [237; 163; 55]))) 8 = 55 /\
  pout (effect (plain false OUTI) (abs (ex_s [9;2;0;0;1;2;0;0] 0 4096 [237; 163; 55]))) 2 = 55 /\
  W false HL (snd (step 0 0 none (ex_s [9;2;0;0;1;2;0;0] 0 4096 [237; 169; 55]))) = 259 /\
  pairv false HL (effect (plain false CPD) (abs (ex_s [9;2;0;0;1;2;0;0] 0 4096 [237; 169; 55]))) = 257 /\
  fH (f (abs (snd (step 0 0 none (ex_s [0;0;0;0;0;0;0;0] 1 4096 [206; 15]))))) = false /\
  fH (f (effect (plain false (ALU ADC LN)) (s_pc 257 (abs (ex_s [0;0;0;0;0;0;0;0] 1 4096 [206; 15]))))) = true /\
  rg (snd (step 0 0 none (ex_s [0;0;0;0;0;0;0;0] 1 4096 [221; 203; 0; 197]))) 4 = 1 /\
  r (effect (xcb 4660 197) (abs (ex_s [0;0;0;0;0;0;0;0] 1 4096 [221; 203; 0; 197]))) 5 = 1.
Proof. vm_compute. repeat split. Qed.

(** ** C128 *)
(** A breakpoint at PC stops the simulator before anything is done. *)
Theorem C128_break :
  forall dum lim hit s, hit (PC s) = true -> step dum lim hit s = (BREAKPOINT, s).
Proof. exact break_first. Qed.
Print Assumptions C128_break.
Example C128_break_ex : let s := ex_s [] 0 4096 [0] in (fun a => a =? 256) (PC s) = true.
Proof. reflexivity. Qed.
(** But a breakpoint at a code behind the first one stops the simulator inside of the
    instruction: PC is left at that code, R counts, nothing else of the program's state changes;
    the next step does not execute the instruction, but what is at that code. *)
Theorem C128_inside :
  forall dum lim hit s k, wf s -> hit (PC s) = false -> In k (codes (abs s)) -> hit (w (PC s + k)) = true ->
  (forall j, In j (codes (abs s)) -> j < k -> hit (w (PC s + j)) = false) ->
  fst (step dum lim hit s) = BREAKPOINT /\ abs (snd (step dum lim hit s)) = s_pc (w (PC s + k)) (count_r (abs s)).
Proof. exact break_inside. Qed.
Print Assumptions C128_inside.
(** LD IX,513 with a breakpoint at 257: when the simulator goes on, LD HL,513 is executed *)
Example C128_inside_ex :
  let s := ex_s [] 0 4096 [221; 33; 1; 2] in let hit a := a =? 257 in
  wf s /\ hit (PC s) = false /\ In 1 (codes (abs s)) /\ hit (w (PC s + 1)) = true /\
  let t := snd (step 0 0 none (snd (step 0 0 hit s))) in IX t = 4660 /\ W false HL t = 513.
Proof. cbv zeta. split; [exwf|]. split; [reflexivity|]. split; [vm_compute; left; reflexivity|]. split; [reflexivity|]. vm_compute. split; reflexivity. Qed.

(** ** C129 *)
(** In every history, with any breakpoints, registers, ports and memory hold bytes, IX, IY and SP
    addresses; PC stays a 32 bit number. *)
Theorem C129_ranges :
  forall dum lim hit n s, byte dum -> kept s -> kept (after dum lim hit n s).
Proof. intros dum lim hit n s HD K. apply kept_wfa, p_steps; [exact HD|]. apply kept_wfa, K. Qed.
Print Assumptions C129_ranges.
(** PC leaves the memory by JR at the end *)
Example C129_ranges_ex :
  let s := set_PC 65534 (set_mem (fun a => if a =? 65534 then 24 else if a =? 65535 then 251 else 0) (ex_s [] 0 4096 [])) in
  byte 0 /\ kept s /\ PC (after 0 0 none 1 s) = 4294967291.
Proof.
  cbv zeta. split; [unfold byte; lia|]. split; [|vm_compute; reflexivity].
  destruct (ex_wf [] 0 4096 []) as (V1 & V2 & V3 & V4 & V5 & V6 & V7 & V8 & V9 & V10); [lia|lia|constructor|constructor|].
  split; [|cbn; lia]. split; [exact V1|]. split; [exact V2|]. split; [exact V3|]. split; [exact V4|]. split; [exact V5|]. split; [exact V6|]. split; [exact V7|]. split; [unfold word; cbn; lia|]. split; [|exact V10].
  intros a. unfold byte. cbn. destruct (a =? 65534); [lia|]. destruct (a =? 65535); lia.
Qed.
(** PC leaves the memory only by JR or DJNZ (codes 16, 24, 32, 40, 48, 56) when they are taken to an
    address across the ends of the memory. *)
Theorem C129_pc :
  forall dum lim hit s, byte dum -> wf s ->
  (mem s (PC s) = 16 \/ mem s (PC s) = 24 \/ mem s (PC s) = 32 \/ mem s (PC s) = 40 \/ mem s (PC s) = 48 \/ mem s (PC s) = 56 ->
   hit (PC s) = false -> ~ differs false (decode (mem s (PC s))) (s_pc (w (PC s + 1)) (abs s))) ->
  wf (snd (step dum lim hit s)).
Proof. intros dum lim hit s HD. exact (pc_kept dum lim hit HD s). Qed.
Print Assumptions C129_pc.
Example C129_pc_ex : let s := ex_s [1;2;3;4;5;6;0;200] 0 4096 [24; 251] in
  wf s /\ decode (mem s (PC s)) = JR None /\ ~ differs false (JR None) (s_pc (w (PC s + 1)) (abs s)) /\ PC (snd (step 0 0 none s)) = 253.
Proof. cbv zeta. split; [exwf|]. split; [reflexivity|]. split; [|vm_compute; reflexivity]. intros [_ K]. apply K. vm_compute. split; [intros Q; discriminate Q|reflexivity]. Qed.

(** ** C130 *)
(** The clock periods counted are those of the manual, for all instructions, conditions and
    repetitions, but in the cases of [cycles_differ] (INC and DEC (HL), BIT b,(HL), OUT (C),E), if
    the instruction does not change its own codes. *)
Theorem C130_cycles :
  forall dum lim hit s, wf s -> hit (PC s) = false ->
  (forall k, In k (codes (abs s)) -> hit (w (PC s + k)) = false) ->
  (forall k, In k (codes (abs s)) -> PC s + k < 65536 /\ mem (snd (step dum lim hit s)) (PC s + k) = mem s (PC s + k)) ->
  ~ cycles_differ (abs s) ->
  ticks (snd (step dum lim hit s)) = ticks s + cycles (abs s).
Proof. intros dum lim hit s W N0 N1. exact (step_cycles dum lim hit s W (conj N0 N1)). Qed.
Print Assumptions C130_cycles.
(** DJNZ taken; SET 1,(IY+5); and the exceptions *)
Example C130_cycles_ex :
  let s := ex_s [2] 0 4096 [16; 254] in let u := ex_s [] 0 4096 [253; 203; 5; 206] in
  wf s /\ ~ cycles_differ (abs s) /\ cycles (abs s) = 13 /\ ticks (snd (step 0 0 none s)) = 113 /\
  wf u /\ ~ cycles_differ (abs u) /\ codes (abs u) = [1; 3] /\ mem (snd (step 0 0 none u)) 257 = 203 /\ mem (snd (step 0 0 none u)) 259 = 206 /\
  cycles (abs u) = 23 /\ ticks (snd (step 0 0 none u)) = 123 /\
  ticks (snd (step 0 0 none (ex_s [] 0 4096 [52]))) = 107 /\ cycles (abs (ex_s [] 0 4096 [52])) = 11 /\
  ticks (snd (step 0 0 none (ex_s [] 0 4096 [237; 89]))) = 101 /\ cycles (abs (ex_s [] 0 4096 [237; 89])) = 12 /\
  ticks (snd (step 0 0 none (ex_s [] 0 4096 [203; 70]))) = 115 /\ cycles (abs (ex_s [] 0 4096 [203; 70])) = 12.
Proof.
  cbv zeta. split; [exwf|]. split; [vm_compute; intros []|]. split; [vm_compute; reflexivity|]. split; [vm_compute; reflexivity|].
  split; [exwf|]. split; [vm_compute; intros []|]. vm_compute. repeat split.
Qed.

(** ** C131 *)
(** LDIR (d = 1) and LDDR (d = -1) copy BC bytes (65536 if BC is 0), one after the other, also if
    the blocks overlap; HL, DE and PC are behind the blocks and the instruction, S, Z and C stay,
    H, N and P are clear, and the time is the manual's. *)
Theorem C131_copy :
  forall dum lim hit d n s, byte dum -> d = 1 \/ d = -1 -> wf s ->
  PC s < 65535 -> hit (PC s) = false -> hit (PC s + 1) = false ->
  mem s (PC s) = 237 -> mem s (PC s + 1) = (if d =? 1 then 176 else 184) ->
  Z.of_nat n < 65536 -> W false BC s = w (Z.of_nat n + 1) ->
  (forall k, 0 <= k <= Z.of_nat n -> w (W false DE s + d * k) <> PC s /\ w (W false DE s + d * k) <> PC s + 1) ->
  let t := after dum lim hit (S n) s in
  (forall a, mem t a = copied d (S n) (W false HL s) (W false DE s) (mem s) a) /\
  W false HL t = w (W false HL s + d * (Z.of_nat n + 1)) /\ W false DE t = w (W false DE s + d * (Z.of_nat n + 1)) /\ W false BC t = 0 /\
  PC t = w (PC s + 2) /\ A t = A s /\ IX t = IX s /\ IY t = IY s /\ SP t = SP s /\
  samef (f (abs t)) (mkF (fS (f (abs s))) (fZ (f (abs s))) false false false false false (fC (f (abs s)))) /\
  ticks t = ticks s + 21 * Z.of_nat n + 16.
Proof.
  intros dum lim hit d n s HD Hd W HP N0 N1 M0 M1 HN EB ND.
  apply block_copy; try assumption. unfold at_block. split; [exact W|]. split; [exact HP|]. split; [exact N0|]. split; [exact N1|]. split; [exact M0|exact M1].
Qed.
Print Assumptions C131_copy.
(** LDIR of 3 bytes to the next address: the first byte is repeated *)
Example C131_copy_ex :
  let s := ex_s [0;3;1;5;1;4;0;9] 255 4096 [237; 176; 0; 0; 77; 88; 99] in
  wf s /\ W false BC s = w (2 + 1) /\ (forall k, 0 <= k <= 2 -> w (W false DE s + 1 * k) <> PC s /\ w (W false DE s + 1 * k) <> PC s + 1) /\
  let t := after 0 0 none 3 s in mem t 261 = 77 /\ mem t 262 = 77 /\ mem t 263 = 77 /\ W false DE t = 264 /\ PC t = 258 /\ ticks t = 158.
Proof.
  cbv zeta. split; [exwf|]. split; [reflexivity|]. split; [|vm_compute; repeat split].
  intros k Hk. change (W false DE _) with 261. unfold w. rewrite Z.mod_small by lia. cbn [PC ex_s]. lia.
Qed.

(** ** C132 *)
(** ADD, ADC, SUB or SBC A,n followed by DAA computes with decimal numbers: two digits and carry or
    borrow. *)
Theorem C132_decimal :
  forall dum lim hit k s a b, byte dum -> wf s -> PC s < 65534 -> (forall j, 0 <= j <= 2 -> hit (PC s + j) = false) ->
  0 <= a < 100 -> 0 <= b < 100 -> A s = bcd a -> mem s (PC s + 1) = bcd b -> mem s (PC s + 2) = 39 ->
  (k = 198 \/ k = 206 \/ k = 214 \/ k = 222) -> mem s (PC s) = k ->
  let c := if fC (f (abs s)) then 1 else 0 in
  let v := if k =? 198 then a + b else if k =? 206 then a + b + c else if k =? 214 then a - b else a - b - c in
  let t := after dum lim hit 2 s in
  A t = bcd (v mod 100) /\ fC (f (abs t)) = ((v <? 0) || (100 <=? v)) /\ PC t = w (PC s + 3).
Proof.
  intros dum lim hit k s a b HD W HP NH Ha Hb EA EB E2 Hk E1. cbv zeta.
  destruct Hk as [-> |[-> |[-> | ->] ] ]; cbn [Z.eqb Pos.eqb];
    [apply (decimal dum lim hit HD ADD s a b)|apply (decimal dum lim hit HD ADC s a b)|apply (decimal dum lim hit HD SUB s a b)|apply (decimal dum lim hit HD SBC s a b)];
    try assumption; try tauto; rewrite E1; reflexivity.
Qed.
Print Assumptions C132_decimal.
(** 58 + 67 + 1 = 126 and 12 - 34 = -22 *)
Example C132_decimal_ex :
  let s := ex_s [0;0;0;0;0;0;0;88] 1 4096 [206; 103; 39] in let u := ex_s [0;0;0;0;0;0;0;18] 0 4096 [214; 52; 39] in
  wf s /\ A s = bcd 58 /\ mem s (PC s + 1) = bcd 67 /\ A (after 0 0 none 2 s) = bcd 26 /\ fC (f (abs (after 0 0 none 2 s))) = true /\
  wf u /\ A u = bcd 12 /\ mem u (PC u + 1) = bcd 34 /\ A (after 0 0 none 2 u) = bcd 78 /\ fC (f (abs (after 0 0 none 2 u))) = true.
Proof. cbv zeta. split; [exwf|]. do 4 (split; [vm_compute; reflexivity|]). split; [exwf|]. vm_compute. repeat split. Qed.

(** ** C133 *)
(** PUSH qq followed by POP qq (BC, DE, HL, AF) changes only PC, R and the two bytes below SP. *)
Theorem C133_push_pop :
  forall dum lim hit s i, byte dum -> wf s -> 0 <= i < 4 -> PC s < 65535 -> hit (PC s) = false -> hit (PC s + 1) = false ->
  mem s (PC s) = 197 + 16 * i -> mem s (PC s + 1) = 193 + 16 * i -> SP s <> 1 ->
  PC s + 1 <> w (SP s - 1) -> PC s + 1 <> w (SP s - 2) ->
  let t := after dum lim hit 2 s in
  (forall k, rg t k = rg s k) /\ samef (f (abs t)) (f (abs s)) /\ IX t = IX s /\ IY t = IY s /\ SP t = SP s /\ PC t = w (PC s + 2) /\
  (forall a, a <> w (SP s - 1) -> a <> w (SP s - 2) -> mem t a = mem s a).
Proof. intros dum lim hit s i HD. exact (push_pop dum lim hit HD s i). Qed.
Print Assumptions C133_push_pop.
Example C133_push_pop_ex :
  let s := ex_s [1;2;3;4;5;6;0;200] 215 4096 [245; 241] in
  wf s /\ mem s (PC s) = 197 + 16 * 3 /\ mem s (PC s + 1) = 193 + 16 * 3 /\ SP s <> 1 /\ PC s + 1 <> w (SP s - 1) /\ PC s + 1 <> w (SP s - 2) /\
  let t := after 0 0 none 2 s in F t = 215 /\ A t = 200 /\ SP t = 4096 /\ mem t 4095 = 200 /\ mem t 4094 = 215.
Proof. cbv zeta. split; [exwf|]. split; [reflexivity|]. split; [reflexivity|]. split; [discriminate|]. split; [discriminate|]. split; [discriminate|]. vm_compute. repeat split. Qed.

(** ** C134 *)
(** CALL and RST jump to the subroutine with the address behind the instruction on the stack and
    change nothing else. *)
Theorem C134_call :
  forall dum lim hit s a n, byte dum -> wf s -> hit (PC s) = false -> calls s a n -> SP s <> 1 ->
  (n = 3 -> w (PC s + 1) <> w (SP s - 1) /\ w (PC s + 1) <> w (SP s - 2) /\ w (PC s + 2) <> w (SP s - 1) /\ w (PC s + 2) <> w (SP s - 2)) ->
  let t := snd (step dum lim hit s) in
  fst (step dum lim hit s) = GO /\ wf t /\ PC t = a /\ SP t = w (SP s - 2) /\ (forall k, rg t k = rg s k) /\ samef (f (abs t)) (f (abs s)) /\
  mem t (w (SP s - 2)) = w (PC s + n) mod 256 /\ mem t (w (SP s - 1)) = w (PC s + n) / 256 /\
  (forall b, b <> w (SP s - 1) -> b <> w (SP s - 2) -> mem t b = mem s b).
Proof. intros dum lim hit s a n HD. exact (call_state dum lim hit HD s a n). Qed.
Print Assumptions C134_call.
(** And RET, executed in any state [u] with SP and the two bytes on the stack as the call left
    them, returns behind the call, with the SP before the call. *)
Theorem C134_return :
  forall dum lim hit s a n u, byte dum -> wf s -> hit (PC s) = false -> calls s a n -> SP s <> 1 ->
  (n = 3 -> w (PC s + 1) <> w (SP s - 1) /\ w (PC s + 1) <> w (SP s - 2) /\ w (PC s + 2) <> w (SP s - 1) /\ w (PC s + 2) <> w (SP s - 2)) ->
  let t := snd (step dum lim hit s) in
  wf u -> hit (PC u) = false -> mem u (PC u) = 201 -> SP u = SP t -> mem u (SP t) = mem t (SP t) -> mem u (w (SP t + 1)) = mem t (w (SP t + 1)) ->
  PC t = a /\ PC (snd (step dum lim hit u)) = w (PC s + n) /\ SP (snd (step dum lim hit u)) = SP s.
Proof. intros dum lim hit s a n u HD. exact (call_ret dum lim hit HD s a n u). Qed.
Print Assumptions C134_return.
(** CALL 261; there INC B; RET *)
Example C134_ex :
  let s := ex_s [1;2;3;4;5;6;0;200] 0 4096 [205; 5; 1; 0; 0; 4; 201] in
  wf s /\ calls s 261 3 /\ SP s <> 1 /\ w (PC s + 1) <> w (SP s - 1) /\ w (PC s + 2) <> w (SP s - 2) /\
  let t := snd (step 0 0 none s) in let u := snd (step 0 0 none t) in
  PC t = 261 /\ SP t = 4094 /\ mem u (PC u) = 201 /\ SP u = SP t /\ mem u 4094 = mem t 4094 /\ mem u 4095 = mem t 4095 /\
  PC (snd (step 0 0 none u)) = 259 /\ SP (snd (step 0 0 none u)) = 4096 /\ rg u 0 = 2.
Proof.
  cbv zeta. split; [exwf|]. split; [left; split; [reflexivity|]; split; reflexivity|]. split; [discriminate|]. split; [discriminate|]. split; [discriminate|].
  vm_compute. repeat split.
Qed.
