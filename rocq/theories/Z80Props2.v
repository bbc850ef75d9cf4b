(** Properties C135 and C136 of the Z80: what is done exactly, without exceptions. *)
From Verif Require Import Base Z80Model Z80Spec Z80Spec2 Z80Proofs Z80Proofs9 Z80Proofs20 Z80Proofs21 Z80Proofs22 Z80Props.

(** ** C135 *)
(** Every instruction, in every state and with no exception, does [actual]: the manual's
    instruction with the deviations written out in Z80Spec2. *)
Theorem C135_exact :
  forall dum lim hit s, byte dum -> wf s -> hit (PC s) = false ->
  (forall k, In k (codes (abs s)) -> hit (w (PC s + k)) = false) ->
  let '(i, x) := instr_at (abs s) in
  fst (step dum lim hit s) = outcome i /\ same (abs (snd (step dum lim hit s))) (actual dum i (count_r x)).
Proof.
  intros dum lim hit s HD W N0 N1. pose proof (step_act dum lim HD hit s W (conj N0 N1)) as H.
  pose proof (step_eq dum lim hit s W (conj N0 N1)) as H1. destruct (instr_at (abs s)) as [i x]. split; [apply H1|exact H].
Qed.
Print Assumptions C135_exact.
(** RETN, CPD, OUTI, ADC and PUSH with SP = 1, all of them exceptions of C127 *)
Example C135_exact_ex :
  let s1 := set_iff2 true (ex_s [] 0 4096 [237; 69]) in
  let s2 := ex_s [9;2;0;0;1;2;0;0] 0 4096 [237; 169; 55] in
  let s3 := ex_s [9;2;0;0;1;2;0;0] 0 4096 [237; 163; 55] in
  let s4 := ex_s [0;0;0;0;0;0;0;1] 1 4096 [206; 15] in
  let s5 := ex_s [18;52] 0 1 [197] in
  wf s1 /\ wf s2 /\ wf s3 /\ wf s4 /\ wf s5 /\ codes (abs s1) = [1] /\ codes (abs s5) = [] /\
  fst (instr_at (abs s1)) = plain false RETN /\ i2 (actual 0 (plain false RETN) (abs s1)) = false /\ iff2 (snd (step 0 0 none s1)) = false /\
  fst (instr_at (abs s2)) = plain false CPD /\ W false HL (snd (step 0 0 none s2)) = 259 /\ pairv false HL (actual 0 (plain false CPD) (abs s2)) = 259 /\
  fst (instr_at (abs s3)) = plain false OUTI /\ outp (snd (step 0 0 none s3)) 8 = 55 /\ pout (actual 0 (plain false OUTI) (abs s3)) 8 = 55 /\
  fst (instr_at (abs s4)) = plain false (ALU ADC LN) /\ A (snd (step 0 0 none s4)) = 17 /\ F (snd (step 0 0 none s4)) = 0 /\
  fst (instr_at (abs s5)) = plain false (PUSH BC) /\ SP (snd (step 0 0 none s5)) = 65535 /\ mem (snd (step 0 0 none s5)) 65535 = 52 /\ mem (snd (step 0 0 none s5)) 0 = 0.
Proof.
  cbv zeta. split; [apply (ex_wf [] 0 4096 [237; 69]); try lia; repeat constructor; lia|]. split; [exwf|]. split; [exwf|]. split; [exwf|]. split; [exwf|].
  vm_compute. repeat split.
Qed.
(** The clock periods counted, without exceptions for instructions which do not change their own
    codes. *)
Theorem C135_cycles :
  forall dum lim hit s, wf s -> hit (PC s) = false ->
  (forall k, In k (codes (abs s)) -> hit (w (PC s + k)) = false) ->
  (forall k, In k (codes (abs s)) -> PC s + k < 65536 /\ mem (snd (step dum lim hit s)) (PC s + k) = mem s (PC s + k)) ->
  ticks (snd (step dum lim hit s)) = ticks s + counted (abs s).
Proof. intros dum lim hit s W N0 N1. exact (step_counted dum lim hit s W (conj N0 N1)). Qed.
Print Assumptions C135_cycles.
Example C135_cycles_ex :
  let s := ex_s [] 0 4096 [52] in let u := ex_s [] 0 4096 [237; 89] in let v := ex_s [] 0 4096 [203; 70] in
  wf s /\ wf u /\ wf v /\ codes (abs s) = [] /\ codes (abs u) = [1] /\ mem (snd (step 0 0 none u)) 257 = 89 /\
  counted (abs s) = 7 /\ counted (abs u) = 1 /\ counted (abs v) = 15 /\
  cycles (abs s) = 11 /\ cycles (abs u) = 12 /\ cycles (abs v) = 12 /\ ticks (snd (step 0 0 none v)) = 115.
Proof. cbv zeta. split; [exwf|]. split; [exwf|]. split; [exwf|]. vm_compute. repeat split. Qed.

(** ** C136 *)
(** Exactly the stack errors of [reports] are reported: when a push, RST or a call done moves SP
    below the limit. *)
Theorem C136_stack_errors :
  forall dum lim hit s, wf s -> hit (PC s) = false ->
  (forall k, In k (codes (abs s)) -> hit (w (PC s + k)) = false) ->
  let '(i, x) := instr_at (abs s) in
  errs (snd (step dum lim hit s)) = errs s ++ reports lim (PC s) i x.
Proof.
  intros dum lim hit s W N0 N1. pose proof (step_es dum lim hit s W (conj N0 N1)) as H.
  destruct (instr_at (abs s)) as [i x]. rewrite H. f_equal.
Qed.
Print Assumptions C136_stack_errors.
(** PUSH AF reports twice; a wrap of SP below 0 is not seen *)
Example C136_stack_errors_ex :
  let s := ex_s [] 0 16 [245] in let u := ex_s [] 0 1 [245] in let v := ex_s [] 64 16 [204; 0; 1] in let x := ex_s [] 0 16 [204; 0; 1] in
  wf s /\ wf u /\ wf v /\ wf x /\
  errs (snd (step 0 16 none s)) = [(256, 16, 15); (256, 15, 14)] /\ errs (snd (step 0 16 none u)) = [(256, 1, 0)] /\
  errs (snd (step 0 16 none v)) = [(256, 16, 14)] /\ errs (snd (step 0 16 none x)) = [].
Proof. cbv zeta. split; [exwf|]. split; [exwf|]. split; [exwf|]. split; [exwf|]. vm_compute. repeat split. Qed.
