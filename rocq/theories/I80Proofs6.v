(** 8080/8085: the refinement theorem, and the form of the state over all runs. *)
From Verif Require Import Base I80Model I80Spec I80Proofs I80Proofs2 I80Proofs3 I80Proofs4 I80Proofs5.

(** ** Codes and instructions *)
Definition undef (c : Z) : bool := existsb (Z.eqb c) [8; 16; 24; 32; 40; 48; 56; 203; 217; 221; 237; 253].
Lemma undef_spec c : undef c = true <-> undefined_code c.
Proof.
  unfold undef, undefined_code. rewrite existsb_exists. split.
  - intros [y [Hy E]]. apply Z.eqb_eq in E. subst. exact Hy.
  - intros H. exists c. split; [exact H|apply Z.eqb_refl].
Qed.
Definition code_ok (m85 : bool) (c : Z) : bool :=
  match itab m85 c with
  | ALU k (Some r) => (128 <=? c) && (c <? 192) && (c / 8 mod 8 =? knum k) && (c mod 8 =? num r)
  | ALU k None => c =? 198 + 8 * knum k
  | DAA => c =? 39
  | PUSH pPSW => c =? 245
  | PUSH pS | POP pS | DAD pPSW | INX pPSW | DCX pPSW | LXI pPSW | LDAX pPSW | STAX pPSW => false
  | RST => (Z.land c 40 =? 8 * (c / 8 mod 8)) || (c =? 215) || (c =? 223) || (c =? 247) || (c =? 255)
  | SHLD => c =? 34
  | LHLD => c =? 42
  | XTHL => c =? 227
  | RIM | SIM | ARHL | RDEL | DSUB | JNX5 | JX5 | RSTV | LDHI | LDSI | LHLX | SHLX => undef c
  | _ => true
  end.
Lemma codes_ok m85 c : 0 <= c < 256 -> code_ok m85 c = true.
Proof.
  intros H. destruct m85.
  - apply (sweep 256 (code_ok true)); [vm_compute; reflexivity|exact H].
  - apply (sweep 256 (code_ok false)); [vm_compute; reflexivity|exact H].
Qed.
Lemma knum_1 k : 1 = knum k -> k = kADC. Proof. destruct k; cbn; intros; try reflexivity; discriminate. Qed.
Lemma not_differs_fine m85 s s1 : let x := abs s in let c := mm x (pc x) in
  0 <= c < 256 -> wf s -> abs s1 = next 1 x -> ~ undefined_code c -> ~ differs m85 x -> fine m85 c (itab m85 c) x s1.
Proof.
  intros x c Hc W E N D. pose proof (codes_ok m85 c Hc) as K. unfold code_ok in K.
  assert (EC : Z.testbit (F s1) 0 = fC x) by (change (fC (abs s1) = fC x); rewrite E; reflexivity).
  assert (EA : A s1 = R x 7) by (change (R (abs s1) 7 = R x 7); rewrite E; reflexivity).
  assert (AL : forall k v, operand_of (knum k) x v -> alu_fine m85 k v s1).
  { intros k v O. destruct k; cbn [alu_fine]; try exact I.
    - rewrite EC. intros HC HV. apply D. apply (d_adc m85 x v O HC HV).
    - rewrite EC, EA. intros HC HV. apply D. apply (d_sbb m85 x v O HC HV).
    - rewrite EA. destruct m85 eqn:EM; [left; reflexivity|]. right.
      destruct (Z.testbit (R x 7) 3) eqn:T1; [left; reflexivity|].
      destruct (Z.testbit v 3) eqn:T2; [right; reflexivity|].
      exfalso. apply D. apply (d_ana false x v O eq_refl T1 T2). }
  destruct (itab m85 c) as [| | | |d r|d|p| | | | |p|p| | | |p|p| | |k r|p|d|d|p|p| | | | | | | | | |q| |q| |q| | | | | | | | | | | | | | ];
    cbn [fine]; try exact I; try (exfalso; apply N, undef_spec; exact K).
  - destruct p; try exact I. discriminate.
  - apply Z.eqb_eq in K. intros HO. apply D. apply d_wrap; [right; exact K|exact HO].
  - apply Z.eqb_eq in K. intros HO. apply D. apply d_wrap; [left; exact K|exact HO].
  - destruct p; try exact I. discriminate.
  - destruct p; try exact I. discriminate.
  - destruct p; try exact I; [discriminate|]. apply Z.eqb_eq in K. apply D, d_psw. exact K.
  - destruct p; try exact I. discriminate.
  - apply Z.eqb_eq in K. intros HO. apply D. apply d_xthl; [exact K|exact HO].
  - destruct r as [r|].
    + apply AL. left. split; [lia|]. split; [lia|]. fold c. replace (c mod 8) with (num r) by lia. reflexivity.
    + apply AL. right. split; [fold c; lia|reflexivity].
  - destruct p; try exact I. discriminate.
  - destruct p; try exact I. discriminate.
  - destruct p; try exact I. discriminate.
  - apply Z.eqb_eq in K. apply D, d_daa. exact K.
  - rewrite !orb_true_iff in K.
    destruct K as [[[[K | K] | K] | K] | K]; apply Z.eqb_eq in K; [exact K| | | |];
      exfalso; apply D, d_rst; fold c; tauto.
Qed.

(** the state when the instruction starts *)
Definition started (s : cpu) : cpu :=
  set_ticks (ticks s + 1) (set_PC ((PC s + 1) mod 65536) (set_tsh 0 s)).
Lemma exec_eq m85 lim dum s :
  exec_inst m85 lim dum false s =
  (last_ticks m85 (PC s) (fst (run m85 lim dum (PC s) (mem s (PC s)) (itab m85 (mem s (PC s))) (started s))),
   if snd (run m85 lim dum (PC s) (mem s (PC s)) (itab m85 (mem s (PC s))) (started s)) then HALT else GO).
Proof.
  unfold exec_inst. cbn [fetch]. fold (started s).
  change (set_ticks (ticks (set_PC ((PC (set_tsh 0 s) + 1) mod 65536) (set_tsh 0 s)) + 1)
           (set_PC ((PC (set_tsh 0 s) + 1) mod 65536) (set_tsh 0 s))) with (started s).
  change (mem (set_tsh 0 s) (PC (set_tsh 0 s))) with (mem s (PC s)).
  destruct (run m85 lim dum (PC s) (mem s (PC s)) (itab m85 (mem s (PC s))) (started s)) as [t h]. reflexivity.
Qed.
Lemma started_wf s : wf s -> wf (started s).
Proof.
  intros W. assert (H := mod65536 (PC s + 1)). unfold wf, started in *.
  cbn [A F B C D E I80Model.H L SP PC mem set_ticks set_PC set_tsh]. tauto.
Qed.
Lemma started_abs s : abs (started s) = next 1 (abs s).
Proof. reflexivity. Qed.
Lemma abs_last_ticks m85 ipc s : abs (last_ticks m85 ipc s) = abs s.
Proof. reflexivity. Qed.
Theorem exec_refines m85 lim dum s : wf s -> ~ undefined_code (mem s (PC s)) -> ~ differs m85 (abs s) ->
  same (abs (fst (exec_inst m85 lim dum false s))) (manual m85 (abs s)).
Proof.
  intros W N D. rewrite exec_eq. cbn [fst]. rewrite abs_last_ticks.
  assert (Hc : 0 <= mem s (PC s) < 256) by apply W.
  rewrite manual_by_code. change (mm (abs s) (pc (abs s))) with (mem s (PC s)).
  rewrite manual_code_op by assumption.
  apply run_same; [exact W|apply started_wf; exact W|apply started_abs|].
  apply (not_differs_fine m85 s (started s)); [exact Hc|exact W|apply started_abs|exact N|exact D].
Qed.
