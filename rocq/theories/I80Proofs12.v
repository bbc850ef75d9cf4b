(** 8080/8085: where the next instruction is; the further instructions of the 8085. *)
From Verif Require Import Base I80Model I80Spec I80Spec2 I80Proofs I80Proofs2 I80Proofs3 I80Proofs4 I80Proofs5 I80Proofs6 I80Proofs7 I80Proofs8 I80Proofs9 I80Proofs10 I80Proofs11.

Definition jump_ok (m85 : bool) (c : Z) : bool :=
  let j := jump_code m85 c in let k := cond_code c in
  let v := m85 && (c =? 203) in let x1 := m85 && (c =? 221) in let x0 := m85 && (c =? 253) in
  match itab m85 c with
  | JMP | CALL | RET | RST | PCHL => j
  | JCC q | CCC q | RCC q => negb j && k && (c / 8 mod 8 =? cnum q) && negb v && negb x1 && negb x0
  | RSTV => negb j && negb k && v && negb x1 && negb x0
  | JNX5 => negb j && negb k && negb v && x1 && negb x0
  | JX5 => negb j && negb k && negb v && negb x1 && x0
  | _ => negb j && negb k && negb v && negb x1 && negb x0
  end.
Lemma jump_all m85 c : 0 <= c < 256 -> jump_ok m85 c = true.
Proof. intros H. destruct m85; (apply (sweep 256); [vm_compute; reflexivity|exact H]). Qed.
Lemma jumps_code m85 s : wf s -> jumps (itab m85 (mem s (PC s))) (started s) = elsewhere m85 s.
Proof.
  intros W. pose proof (code_range s W) as Hc. unfold elsewhere, taken. cbv zeta.
  change (mm (abs s) (pc (abs s))) with (mem s (PC s)). set (c := mem s (PC s)) in *.
  pose proof (jump_all m85 c Hc) as K. unfold jump_ok in K. cbv zeta in K.
  set (j := jump_code m85 c) in *. set (k := cond_code c) in *.
  set (v := m85 && (c =? 203)) in *. set (x1 := m85 && (c =? 221)) in *. set (x0 := m85 && (c =? 253)) in *. clearbody j k v x1 x0.
  assert (HH : forall k, holds k (started s) = true_cond (cnum k) (abs s)) by (intros q; destruct q; reflexivity).
  change (F s) with (F (started s)).
  destruct (itab m85 c); cbn [jumps takes]; try (rewrite K; reflexivity);
    try (destruct j, k, v, x1, x0; try discriminate; rewrite ?orb_false_r; reflexivity);
    (destruct j, k, v, x1, x0; cbn [negb andb orb] in K |- *; rewrite ?andb_false_r in K; try discriminate;
     rewrite ?andb_true_r in K; apply Z.eqb_eq in K; rewrite K, HH, ?orb_false_r; reflexivity).
Qed.
Lemma exec_pc m85 lim dum s : wf s -> elsewhere m85 s = false ->
  PC (fst (exec_inst m85 lim dum false s)) = w (PC s + oplen (itab m85 (mem s (PC s)))).
Proof.
  intros W J. rewrite exec_eq. cbn [fst]. change (PC (last_ticks m85 (PC s) ?r)) with (PC r).
  rewrite run_pc.
  - change (PC (started s)) with (w (PC s + 1)). rewrite w_w. f_equal. lia.
  - change (PC (started s)) with (w (PC s + 1)). apply w_range.
  - rewrite jumps_code; assumption.
Qed.
(** the return address *)
Definition calls (o : op) (s : cpu) : bool :=
  match o with CALL | RST => true | CCC k => holds k s | RSTV => Z.testbit (F s) 1 | _ => false end.
Definition call_ok (m85 : bool) (c : Z) : bool :=
  let a := call_code m85 c in let k := (192 <=? c) && (c mod 8 =? 4) in let v := m85 && (c =? 203) in
  match itab m85 c with
  | CALL | RST => a
  | CCC q => negb a && k && (c / 8 mod 8 =? cnum q) && negb v
  | RSTV => negb a && negb k && v
  | _ => negb a && negb k && negb v
  end.
Lemma call_all m85 c : 0 <= c < 256 -> call_ok m85 c = true.
Proof. intros H. destruct m85; (apply (sweep 256); [vm_compute; reflexivity|exact H]). Qed.
Lemma calls_code m85 s : wf s -> calls (itab m85 (mem s (PC s))) (started s) = calls_now m85 s.
Proof.
  intros W. pose proof (code_range s W) as Hc. unfold calls_now. cbv zeta. set (c := mem s (PC s)) in *.
  pose proof (call_all m85 c Hc) as K. unfold call_ok in K. cbv zeta in K.
  set (a := call_code m85 c) in *. set (k := (192 <=? c) && (c mod 8 =? 4)) in *. set (v := m85 && (c =? 203)) in *. clearbody a k v.
  assert (HH : forall k, holds k (started s) = true_cond (cnum k) (abs s)) by (intros q; destruct q; reflexivity).
  change (F s) with (F (started s)).
  destruct (itab m85 c); cbn [calls]; try (rewrite K; reflexivity);
    try (destruct a, k, v; try discriminate; rewrite ?orb_false_r; reflexivity);
    (destruct a, k, v; cbn [negb andb orb] in K |- *; rewrite ?andb_false_r in K; try discriminate;
     rewrite ?andb_true_r in K; apply Z.eqb_eq in K; rewrite K, HH, ?orb_false_r; reflexivity).
Qed.
Lemma run_calls m85 lim dum ipc c o s : 0 <= PC s < 65536 -> calls o s = true ->
  exists t, fst (run m85 lim dum ipc c o s) = t /\ popv (abs t) = w (PC s + (oplen o - 1)) /\ SP t = w (SP s - 2).
Proof.
  intros Hp J. eexists. split; [reflexivity|].
  assert (G : forall v t q, 0 <= v < 65536 -> SP q = SP s -> abs t = setpc (pc (abs t)) (abs (push2 lim ipc v q)) ->
    popv (abs t) = v /\ SP t = w (SP s - 2)).
  { intros v t q Hv Hq Et. pose proof (push2_same lim ipc v q Hv) as S.
    destruct (pushed_word v (abs q) Hv) as [P1 [P2 _]]. split.
    - rewrite Et. change (popv (setpc ?a ?b)) with (popv b). rewrite (same_popv _ _ S). exact P1.
    - change (SP t) with (sp (abs t)). rewrite Et. change (sp (setpc ?a ?b)) with (sp b).
      destruct S as [_ [_ [_ [_ [_ [_ [S7 _]]]]]]]. rewrite S7, P2. change (sp (abs q)) with (SP q). rewrite Hq. reflexivity. }
  assert (E2 : w (w (PC s + 1) + 1) = w (PC s + 2)) by (rewrite w_w; f_equal; lia).
  destruct o; cbn [calls] in J; try discriminate; cbn [run fst oplen].
  - cbn [fetch16 fetch]. cbn [set_PC PC mem].
    apply (G (w (PC s + (3 - 1))) _ (set_PC (w (PC s + 2)) s)); [apply w_range|reflexivity|].
    change ((PC s + 1) mod 65536) with (w (PC s + 1)). change ((w (PC s + 1) + 1) mod 65536) with (w (w (PC s + 1) + 1)).
    rewrite E2. reflexivity.
  - unfold call_if. cbn [fetch16 fetch]. rewrite J. cbn [set_PC PC mem].
    apply (G (w (PC s + (3 - 1))) _ (set_PC (w (PC s + 2)) s)); [apply w_range|reflexivity|].
    change ((PC s + 1) mod 65536) with (w (PC s + 1)). change ((w (PC s + 1) + 1) mod 65536) with (w (w (PC s + 1) + 1)).
    rewrite E2. reflexivity.
  - change (1 - 1) with 0. rewrite Z.add_0_r, (w_id (PC s) Hp). apply (G (PC s) _ s Hp eq_refl). reflexivity.
  - rewrite J. change (1 - 1) with 0. rewrite Z.add_0_r, (w_id (PC s) Hp). apply (G (PC s) _ s Hp eq_refl). reflexivity.
Qed.
Lemma exec_calls m85 lim dum s : wf s -> calls_now m85 s = true ->
  let s' := fst (exec_inst m85 lim dum false s) in
  popv (abs s') = w (PC s + oplen (itab m85 (mem s (PC s)))) /\ SP s' = w (SP s - 2).
Proof.
  intros W J. cbv zeta. rewrite exec_eq. cbn [fst]. rewrite abs_last_ticks. change (SP (last_ticks m85 (PC s) ?r)) with (SP r).
  rewrite <- calls_code in J by exact W.
  destruct (run_calls m85 lim dum (PC s) (mem s (PC s)) (itab m85 (mem s (PC s))) (started s)) as [t [E1 [E2 E3]]];
    [apply started_wf, W|exact J|].
  rewrite E1, E2, E3. change (PC (started s)) with (w (PC s + 1)). rewrite w_w. split; [f_equal; lia|reflexivity].
Qed.
