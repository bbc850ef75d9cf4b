(** 8080/8085: cycles, lengths, the form of the flags. *)
From Verif Require Import Base I80Model I80Spec I80Proofs I80Proofs2 I80Proofs3 I80Proofs4 I80Proofs5 I80Proofs6 I80Proofs7.

(** ** What an instruction leaves alone *)
Lemma tsh_wr a v s : tsh (wr a v s) = tsh s. Proof. unfold wr. destruct (inmem a); reflexivity. Qed.
Lemma ticks_wr a v s : ticks (wr a v s) = ticks s. Proof. unfold wr. destruct (inmem a); reflexivity. Qed.
Lemma PC_wr a v s : PC (wr a v s) = PC s. Proof. unfold wr. destruct (inmem a); reflexivity. Qed.
Lemma F_wr a v s : F (wr a v s) = F s. Proof. unfold wr. destruct (inmem a); reflexivity. Qed.
Lemma tsh_put r v s : tsh (put r v s) = tsh s. Proof. destruct r; try reflexivity. apply tsh_wr. Qed.
Lemma ticks_put r v s : ticks (put r v s) = ticks s. Proof. destruct r; try reflexivity. apply ticks_wr. Qed.
Lemma PC_put r v s : PC (put r v s) = PC s. Proof. destruct r; try reflexivity. apply PC_wr. Qed.
Lemma F_put r v s : F (put r v s) = F s. Proof. destruct r; try reflexivity. apply F_wr. Qed.
Lemma tsh_put2 p v s : tsh (put2 p v s) = tsh s. Proof. destruct p; reflexivity. Qed.
Lemma ticks_put2 p v s : ticks (put2 p v s) = ticks s. Proof. destruct p; reflexivity. Qed.
Lemma PC_put2 p v s : PC (put2 p v s) = PC s. Proof. destruct p; reflexivity. Qed.
Lemma alu_rest m85 k v s : tsh (alu_op m85 k v s) = tsh s /\ ticks (alu_op m85 k v s) = ticks s /\ PC (alu_op m85 k v s) = PC s.
Proof. destruct k; repeat split; reflexivity. Qed.
(** the condition of an instruction *)
Definition takes (o : op) (s : cpu) : bool :=
  match o with
  | JCC c | CCC c | RCC c => holds c s
  | JNX5 => Z.testbit (F s) 5 | JX5 => negb (Z.testbit (F s) 5) | RSTV => Z.testbit (F s) 1
  | _ => false
  end.
Lemma daa_rest m85 s : tsh (daa m85 s) = tsh s /\ ticks (daa m85 s) = ticks s /\ PC (daa m85 s) = PC s.
Proof.
  unfold daa. cbv zeta. match goal with |- context [if ?b then _ else add8 _ _ _ _ _] => destruct b end; repeat split; reflexivity.
Qed.
Ltac rest :=
  repeat first
   [ rewrite tsh_wr | rewrite tsh_put | rewrite tsh_put2 | rewrite ticks_wr | rewrite ticks_put | rewrite ticks_put2
   | rewrite PC_wr | rewrite PC_put | rewrite PC_put2 | rewrite push2_eq ].
Lemma run_ticks m85 lim dum ipc c o s : ticks (fst (run m85 lim dum ipc c o s)) = ticks s.
Proof.
  destruct o; cbn [run fst]; try reflexivity; rest; try reflexivity.
  all: try (destruct s0; [apply alu_rest|cbn [fetch]; rewrite (proj1 (proj2 (alu_rest m85 k _ _))) || rewrite (proj1 (alu_rest m85 k _ _)); reflexivity]).
  all: try (cbn [pop2]; rest; reflexivity).
  all: try apply daa_rest.
  all: try (unfold inr, dcr; cbn [wF ticks set_F]; rest; reflexivity).
  all: try (unfold inx, dcx; destruct m85; cbn [wF ticks set_F]; rest; reflexivity).
  all: try (unfold jmp_if, call_if, ret_if; cbn [fetch16 fetch pop2]; destruct (holds c0 s); cbn [ticks set_tsh set_PC]; rest; reflexivity).
  all: try (unfold jmp_if; cbn [fetch16 fetch]; destruct (Z.testbit (F s) 5); reflexivity).
  all: try (destruct (Z.testbit (F s) 1); rest; reflexivity).
  all: try (cbn [fetch fetch16 fst ticks wHL wDE set_H set_L set_D set_E set_PC]; rest; reflexivity).
Qed.
Lemma run_tsh m85 lim dum ipc c o s : tsh (fst (run m85 lim dum ipc c o s)) = if takes o s then 8 else tsh s.
Proof.
  destruct o; cbn [run fst takes]; try reflexivity; rest; try reflexivity.
  all: try (destruct s0; [apply alu_rest|cbn [fetch]; rewrite (proj1 (proj2 (alu_rest m85 k _ _))) || rewrite (proj1 (alu_rest m85 k _ _)); reflexivity]).
  all: try (cbn [pop2]; rest; reflexivity).
  all: try apply daa_rest.
  all: try (unfold inr, dcr; cbn [wF tsh set_F]; rest; reflexivity).
  all: try (unfold inx, dcx; destruct m85; cbn [wF tsh set_F]; rest; reflexivity).
  all: try (unfold jmp_if, call_if, ret_if; cbn [fetch16 fetch pop2]; destruct (holds c0 s); cbn [tsh set_tsh set_PC]; rest; reflexivity).
  all: try (unfold jmp_if; cbn [fetch16 fetch]; destruct (Z.testbit (F s) 5); reflexivity).
  all: try (destruct (Z.testbit (F s) 1); rest; reflexivity).
  all: try (cbn [fetch fetch16 fst tsh wHL wDE set_H set_L set_D set_E set_PC]; rest; reflexivity).
Qed.

(** ** Cycles *)
Definition sim_cycles (m85 : bool) (c : Z) (tk : bool) : Z :=
  Z.land (Z.shiftr (nth (Z.to_nat c) (if m85 then tick_tab_8085 else tick_tab_8080) 0) (if tk then 8 else 0)) 255.
Lemma exec_ticks m85 lim dum s : wf s -> let s' := fst (exec_inst m85 lim dum false s) in
  mem s' (PC s) = mem s (PC s) ->
  ticks s' - ticks s = sim_cycles m85 (mem s (PC s)) (takes (itab m85 (mem s (PC s))) s).
Proof.
  intros W. rewrite exec_eq. cbv zeta. cbn [fst].
  set (r := fst (run m85 lim dum (PC s) (mem s (PC s)) (itab m85 (mem s (PC s))) (started s))).
  change (mem (last_ticks m85 (PC s) r) (PC s)) with (mem r (PC s)). intros Hm.
  unfold last_ticks. cbn [ticks set_ticks]. rewrite Hm.
  assert (Et : ticks r = ticks s + 1) by (unfold r; rewrite run_ticks; reflexivity).
  assert (Es : tsh r = if takes (itab m85 (mem s (PC s))) s then 8 else 0).
  { unfold r. rewrite run_tsh. change (tsh (started s)) with 0.
    replace (takes (itab m85 (mem s (PC s))) (started s)) with (takes (itab m85 (mem s (PC s))) s); [reflexivity|].
    destruct (itab m85 (mem s (PC s))); try reflexivity; destruct c; reflexivity. }
  rewrite Et, Es. unfold sim_cycles. lia.
Qed.
(** the condition of a code *)
Definition takes_ok (m85 : bool) (c : Z) : bool :=
  match itab m85 c with
  | JCC k => (192 <=? c) && (c mod 8 =? 2) && (c / 8 mod 8 =? cnum k)
  | CCC k => (192 <=? c) && (c mod 8 =? 4) && (c / 8 mod 8 =? cnum k)
  | RCC k => (192 <=? c) && (c mod 8 =? 0) && (c / 8 mod 8 =? cnum k)
  | JNX5 | JX5 | RSTV => undef c
  | _ => negb (cond_code c)
  end.
Lemma takes_all_ok m85 c : 0 <= c < 256 -> takes_ok m85 c = true.
Proof.
  intros H. destruct m85.
  - apply (sweep 256 (takes_ok true)); [vm_compute; reflexivity|exact H].
  - apply (sweep 256 (takes_ok false)); [vm_compute; reflexivity|exact H].
Qed.
Lemma takes_taken m85 s : wf s -> ~ undefined_code (mem s (PC s)) ->
  takes (itab m85 (mem s (PC s))) s = taken (abs s).
Proof.
  intros W N. unfold taken. cbv zeta. change (mm (abs s) (pc (abs s))) with (mem s (PC s)).
  set (c := mem s (PC s)) in *. assert (Hc : 0 <= c < 256) by apply W.
  pose proof (takes_all_ok m85 c Hc) as K. unfold takes_ok in K. unfold cond_code in *.
  destruct (itab m85 c) as [| | | |d r|d|p| | | | |p|p| | | |p|p| | |k r|p|d|d|p|p| | | | | | | | | |q| |q| |q| | | | | | | | | | | | | | ];
    cbn [takes]; try (apply negb_true_iff in K; rewrite K; reflexivity);
    try (exfalso; apply N, undef_spec; exact K).
  all: rewrite holds_cond; apply andb_true_iff in K; destruct K as [K K3]; apply andb_true_iff in K; destruct K as [K1 K2];
    apply Z.eqb_eq in K2; apply Z.eqb_eq in K3; rewrite K1, K2, K3; reflexivity.
Qed.
Definition cyc_ok (m85 tk : bool) (c : Z) : bool :=
  undef c || (tk && negb (cond_code c)) || (sim_cycles m85 c tk =? cycles_dev m85 c tk).
Lemma cyc_all m85 tk c : 0 <= c < 256 -> cyc_ok m85 tk c = true.
Proof.
  intros H. destruct m85, tk.
  - apply (sweep 256 (cyc_ok true true)); [vm_compute; reflexivity|exact H].
  - apply (sweep 256 (cyc_ok true false)); [vm_compute; reflexivity|exact H].
  - apply (sweep 256 (cyc_ok false true)); [vm_compute; reflexivity|exact H].
  - apply (sweep 256 (cyc_ok false false)); [vm_compute; reflexivity|exact H].
Qed.
Lemma exec_cycles m85 lim dum s : wf s -> ~ undefined_code (mem s (PC s)) ->
  let s' := fst (exec_inst m85 lim dum false s) in
  mem s' (PC s) = mem s (PC s) ->
  ticks s' - ticks s = cycles_dev m85 (mem s (PC s)) (taken (abs s)).
Proof.
  intros W N s' Hm. unfold s'. rewrite exec_ticks by (assumption || exact Hm). rewrite takes_taken by assumption.
  set (c := mem s (PC s)) in *. assert (Hc : 0 <= c < 256) by apply W.
  pose proof (cyc_all m85 (taken (abs s)) c Hc) as K. unfold cyc_ok in K.
  apply orb_true_iff in K. destruct K as [K | K]; [apply orb_true_iff in K; destruct K as [K | K]|].
  - exfalso. apply N, undef_spec, K.
  - apply andb_true_iff in K. destruct K as [K1 K2]. unfold taken in K1. cbv zeta in K1.
    change (mm (abs s) (pc (abs s))) with c in K1. apply negb_true_iff in K2. rewrite K2 in K1. discriminate.
  - apply Z.eqb_eq in K. exact K.
Qed.

(** ** Lengths *)
Definition oplen (o : op) : Z :=
  match o with
  | LXI _ | LDA | STA | LHLD | SHLD | JMP | JCC _ | CALL | CCC _ | JNX5 | JX5 => 3
  | MVI _ | INP | OUTP | ALU _ None | LDHI | LDSI => 2
  | _ => 1
  end.
Definition jumps (o : op) (s : cpu) : bool :=
  match o with JMP | CALL | RET | RST | PCHL => true | _ => takes o s end.
Lemma run_pc m85 lim dum ipc c o s : 0 <= PC s < 65536 -> jumps o s = false -> PC (fst (run m85 lim dum ipc c o s)) = w (PC s + (oplen o - 1)).
Proof.
  intros Hp.
  assert (E0 : PC s = w (PC s + 0)) by (rewrite Z.add_0_r; symmetry; apply w_id; exact Hp).
  assert (E2 : w (w (PC s + 1) + 1) = w (PC s + 2)) by (rewrite w_w; f_equal; lia).
  destruct o; cbn [run fst jumps takes oplen]; intros J; try discriminate; change (1 - 1) with 0; change (2 - 1) with 1; change (3 - 1) with 2;
    rest; try exact E0; try reflexivity; try (cbn [fetch fetch16]; rest; first [reflexivity|exact E2]).
  all: try (destruct s0; [rewrite (proj2 (proj2 (alu_rest m85 k _ _))); exact E0|cbn [fetch]; rewrite (proj2 (proj2 (alu_rest m85 k _ _))); reflexivity]).
  all: try (rewrite (proj2 (proj2 (daa_rest m85 s))); exact E0).
  all: try (unfold inr, dcr; cbn [wF PC set_F]; rest; exact E0).
  all: try (unfold inx, dcx; destruct m85; cbn [wF PC set_F]; rest; exact E0).
  all: try (unfold jmp_if, call_if, ret_if; cbn [fetch16 fetch pop2]; rewrite J; first [exact E0|exact E2]).
  all: try (rewrite J; exact E0).
  all: try (cbn [pop2]; rest; exact E0).
  all: try (unfold wHL; cbn [PC set_H set_L]; rest; exact E0).
Qed.
Definition len_ok (m85 : bool) (c : Z) : bool :=
  match dis_length m85 c with Some n => (n =? oplen (itab m85 c)) && (1 <=? n) && (n <=? 3) | None => false end.
Lemma len_all m85 c : 0 <= c < 256 -> len_ok m85 c = true.
Proof.
  intros H. destruct m85.
  - apply (sweep 256 (len_ok true)); [vm_compute; reflexivity|exact H].
  - apply (sweep 256 (len_ok false)); [vm_compute; reflexivity|exact H].
Qed.
Lemma dis_len m85 c : 0 <= c < 256 -> dis_length m85 c = Some (oplen (itab m85 c)) /\ 1 <= oplen (itab m85 c) <= 3.
Proof.
  intros H. pose proof (len_all m85 c H) as K. unfold len_ok in K. destruct (dis_length m85 c) as [n|]; [|discriminate].
  apply andb_true_iff in K. destruct K as [K K3]. apply andb_true_iff in K. destruct K as [K1 K2]. apply Z.eqb_eq in K1. subst n.
  split; [reflexivity|lia].
Qed.
