(** 8080/8085: the stack, the further instructions of the 8085, the flag byte. *)
From Verif Require Import Base I80Model I80Spec I80Spec2 I80Proofs I80Proofs2 I80Proofs3 I80Proofs4 I80Proofs5 I80Proofs6 I80Proofs7 I80Proofs8 I80Proofs9 I80Proofs10.

(** ** Which codes push *)
Definition pushes (o : op) (s : cpu) : bool :=
  match o with PUSH _ | CALL | RST => true | CCC k => holds k s | RSTV => Z.testbit (F s) 1 | _ => false end.
Definition push_ok (m85 : bool) (c : Z) : bool :=
  let always := ((192 <=? c) && (c mod 8 =? 5) && Z.even (c / 8)) || call_code m85 c in
  let cnd := (192 <=? c) && (c mod 8 =? 4) in
  let v := m85 && (c =? 203) in
  match itab m85 c with
  | PUSH _ | CALL | RST => always
  | CCC k => negb always && cnd && (c / 8 mod 8 =? cnum k) && negb v
  | RSTV => negb always && negb cnd && v
  | _ => negb always && negb cnd && negb v
  end.
Lemma push_all m85 c : 0 <= c < 256 -> push_ok m85 c = true.
Proof. intros H. destruct m85; (apply (sweep 256); [vm_compute; reflexivity|exact H]). Qed.
Lemma pushes_code m85 s : wf s -> pushes (itab m85 (mem s (PC s))) (started s) = push_code m85 s.
Proof.
  intros W. pose proof (code_range s W) as Hc. unfold push_code. cbv zeta. set (c := mem s (PC s)) in *.
  pose proof (push_all m85 c Hc) as K. unfold push_ok in K. cbv zeta in K.
  set (al := (192 <=? c) && (c mod 8 =? 5) && Z.even (c / 8) || call_code m85 c) in *.
  set (cn := (192 <=? c) && (c mod 8 =? 4)) in *. set (v := m85 && (c =? 203)) in *. clearbody al cn v.
  change (F s) with (F (started s)).
  assert (HH : forall k, holds k (started s) = true_cond (cnum k) (abs s)) by (intros k; destruct k; reflexivity).
  destruct (itab m85 c); cbn [pushes]; try (rewrite K; reflexivity);
    try (destruct al, cn, v; try discriminate; reflexivity).
  destruct al, cn, v; cbn [negb andb orb] in K |- *; rewrite ?andb_false_r in K; try discriminate. rewrite andb_true_r in K. apply Z.eqb_eq in K.
  rewrite K, HH, orb_false_r. reflexivity.
Qed.
Lemma errs_wr a v s : errs (wr a v s) = errs s. Proof. unfold wr. destruct (inmem a); reflexivity. Qed.
Lemma errs_put r v s : errs (put r v s) = errs s. Proof. destruct r; try reflexivity. apply errs_wr. Qed.
Lemma errs_put2 p v s : errs (put2 p v s) = errs s. Proof. destruct p; reflexivity. Qed.
Lemma alu_errs m85 k v s : errs (alu_op m85 k v s) = errs s. Proof. destruct k; reflexivity. Qed.
Lemma daa_errs m85 s : errs (daa m85 s) = errs s.
Proof. rewrite daa_form. cbv zeta. destruct (_ =? 0); reflexivity. Qed.
Lemma run_errs m85 lim dum ipc c o s : let s' := fst (run m85 lim dum ipc c o s) in
  (pushes o s = false -> errs s' = errs s) /\
  (pushes o s = true -> SP s' = w (SP s - 2) /\
     errs s' = if SP s' <? lim then errs s ++ [(ipc, SP s, SP s')] else errs s).
Proof.
  cbv zeta. split.
  - destruct o; cbn [run fst pushes]; intros P; try discriminate P; try reflexivity; repeat first [rewrite errs_wr|rewrite errs_put|rewrite errs_put2]; try reflexivity.
    all: try (cbn [fetch fetch16 pop2]; repeat first [rewrite errs_wr|rewrite errs_put|rewrite errs_put2]; reflexivity).
    all: try (destruct s0; [apply alu_errs|cbn [fetch]; rewrite alu_errs; reflexivity]).
    all: try apply daa_errs.
    all: try (unfold inr, dcr; cbn [wF errs set_F]; repeat first [rewrite errs_wr|rewrite errs_put|rewrite errs_put2]; reflexivity).
    all: try (unfold inx, dcx; destruct m85; cbn [wF errs set_F]; rewrite errs_put2; reflexivity).
    all: try (unfold jmp_if, call_if, ret_if; cbn [fetch16 fetch pop2]; rewrite ?P; destruct (holds c0 s); reflexivity || discriminate).
    all: try (unfold call_if; cbn [fetch16 fetch]; rewrite P; reflexivity).
    all: try (unfold jmp_if; cbn [fetch16 fetch]; destruct (Z.testbit (F s) 5); reflexivity).
    all: try (rewrite P; reflexivity).
    all: unfold wHL; cbn [errs set_H set_L]; repeat first [rewrite errs_wr|rewrite errs_put|rewrite errs_put2]; reflexivity.
  - destruct o; cbn [run fst pushes]; intros P; try discriminate P;
      try (rewrite push2_eq; unfold pushed; split; reflexivity).
    + cbn [fetch16 fetch]. rewrite push2_eq. unfold pushed. cbn [SP errs set_PC set_errs set_SP set_mem]. split; reflexivity.
    + unfold call_if. cbn [fetch16 fetch]. rewrite P. rewrite push2_eq. unfold pushed. cbn [SP errs set_PC set_tsh set_errs set_SP set_mem]. split; reflexivity.
    + rewrite P. rewrite push2_eq. unfold pushed. cbn [SP errs set_PC set_tsh set_errs set_SP set_mem]. split; reflexivity.
Qed.
Lemma exec_errs m85 lim dum s : wf s -> let s' := fst (exec_inst m85 lim dum false s) in
  errs s' = if push_code m85 s && (SP s' <? lim) then errs s ++ [(PC s, SP s, SP s')] else errs s.
Proof.
  intros W. cbv zeta. rewrite exec_eq. cbn [fst]. set (r := fst (run _ _ _ _ _ _ _)).
  change (errs (last_ticks m85 (PC s) r)) with (errs r). change (SP (last_ticks m85 (PC s) r)) with (SP r).
  destruct (run_errs m85 lim dum (PC s) (mem s (PC s)) (itab m85 (mem s (PC s))) (started s)) as [E1 E2]. cbv zeta in *.
  fold r in E1, E2. rewrite (pushes_code m85 s W) in E1, E2. change (errs (started s)) with (errs s) in *. change (SP (started s)) with (SP s) in *.
  destruct (push_code m85 s); cbn [andb].
  - destruct (E2 eq_refl) as [_ E]. exact E.
  - exact (E1 eq_refl).
Qed.

(** ** Call and return *)
Lemma pushed_word v x : 0 <= v < 65536 -> popv (push v x) = v /\ sp (push v x) = w (sp x - 2) /\
  (forall a, a <> w (sp x - 1) -> a <> w (sp x - 2) -> mm (push v x) a = mm x a).
Proof.
  intros Hv. unfold popv, push. cbn [setsp setm sp mm].
  assert (E : w (w (sp x - 2) + 1) = w (sp x - 1)) by (rewrite w_w; f_equal; lia).
  rewrite E, Z.eqb_refl.
  assert (N : w (sp x - 1) <> w (sp x - 2)).
  { unfold w. intros E2. pose proof (Z.div_mod (sp x - 1) 65536 ltac:(lia)). pose proof (Z.div_mod (sp x - 2) 65536 ltac:(lia)). lia. }
  replace (w (sp x - 1) =? w (sp x - 2)) with false by lia. rewrite Z.eqb_refl.
  split; [pose proof (Z.div_mod v 256 ltac:(lia)); lia|]. split; [reflexivity|].
  intros a H1 H2. replace (a =? w (sp x - 2)) with false by lia. replace (a =? w (sp x - 1)) with false by lia. reflexivity.
Qed.
Lemma same_popv x y : same x y -> popv x = popv y.
Proof. intros [_ [_ [_ [_ [_ [_ [H7 [_ H9]]]]]]]]. unfold popv. rewrite H7, !H9. reflexivity. Qed.
Lemma not_differs m85 s c : mem s (PC s) = c -> (c < 128 \/ 192 <= c) -> c <> 206 -> c <> 222 -> c <> 230 -> c <> 39 -> c <> 215 -> c <> 223 -> c <> 247 -> c <> 255 ->
  c <> 34 -> c <> 42 -> c <> 227 -> c <> 245 -> ~ differs m85 (abs s).
Proof.
  intros Hc H1 H2 H3 H4 H5 H6 H7 H8 H9 H10 H11 H12 H13 D.
  destruct D as [v O|v O|v O|H|H|H|H|H]; try (change (mm (abs s) (pc (abs s))) with (mem s (PC s)) in H; lia).
  all: unfold operand_of in O; cbv zeta in O; change (mm (abs s) (pc (abs s))) with (mem s (PC s)) in O; lia.
Qed.
Ltac code H := rewrite manual_by_code; change (mm (abs ?s) (pc (abs ?s))) with (mem s (PC s)); rewrite H.
Ltac undefd H := unfold undefined_code; rewrite H; cbn [In]; lia.
Lemma exec_call m85 lim dum s : wf s -> mem s (PC s) = 205 ->
  same (abs (fst (exec_inst m85 lim dum false s))) (setpc (operand16 (abs s)) (push (w (PC s + 3)) (abs s))).
Proof.
  intros W Hc. eapply same_eq; [apply exec_refines; [exact W|undefd Hc|apply (not_differs m85 s 205 Hc); lia]|].
  code Hc. reflexivity.
Qed.
Lemma exec_ret m85 lim dum s : wf s -> mem s (PC s) = 201 ->
  same (abs (fst (exec_inst m85 lim dum false s))) (setpc (popv (abs s)) (pop (abs s))).
Proof.
  intros W Hc. eapply same_eq; [apply exec_refines; [exact W|undefd Hc|apply (not_differs m85 s 201 Hc); lia]|].
  code Hc. reflexivity.
Qed.

(** ** Flags written raw *)
Lemma exec_push_psw m85 lim dum s : wf s -> mem s (PC s) = 245 ->
  same (abs (fst (exec_inst m85 lim dum false s))) (next 1 (push (256 * A s + F s) (abs s))).
Proof.
  intros W Hc. rewrite exec_eq. cbn [fst]. rewrite abs_last_ticks, Hc.
  assert (E : itab m85 245 = PUSH pPSW) by (destruct m85; reflexivity). rewrite E. cbn [run fst].
  eapply same_eq; [apply push2_same, get2_range, started_wf, W|]. reflexivity.
Qed.
Lemma exec_pop_psw m85 lim dum s : wf s -> mem s (PC s) = 241 ->
  let s' := fst (exec_inst m85 lim dum false s) in
  F s' = mem s (SP s) /\ A s' = mem s (w (SP s + 1)) /\ SP s' = w (SP s + 2).
Proof.
  intros W Hc. cbv zeta. rewrite exec_eq. cbn [fst]. rewrite Hc.
  assert (E : itab m85 241 = POP pPSW) by (destruct m85; reflexivity). rewrite E. cbn [run fst].
  destruct (pop2_val dum (started s) (started_wf s W)) as [s2 [F2 [E2 [R2 [P2 W2]]]]]. rewrite F2.
  assert (Ev : popv (abs (started s)) = mem s (SP s) + 256 * mem s (w (SP s + 1))) by reflexivity.
  assert (Rm : forall a, 0 <= mem s a < 256) by apply W.
  pose proof (Rm (SP s)) as Ra. pose proof (Rm (w (SP s + 1))) as Rb.
  cbn [put2]. unfold wAF, last_ticks. cbn [F A SP set_ticks set_A set_F]. rewrite Ev. split; [|split].
  - unfold u8. rewrite Z.mul_comm, Z_mod_plus_full. apply Z.mod_small. lia.
  - rewrite Z.mul_comm, Z.div_add by lia. rewrite Z.div_small by lia. apply u8_id. lia.
  - change (SP s2) with (sp (abs s2)). rewrite E2. reflexivity.
Qed.
Definition mask_ok (m85 : bool) (f : Z) : Prop := Z.testbit f 3 = false /\ (m85 = false -> Z.testbit f 5 = false /\ Z.testbit f 1 = true).
Lemma wF_form m85 v s : mask_ok m85 (F (wF m85 v s)).
Proof.
  cbn [wF F set_F]. unfold mask_ok. destruct m85.
  - rewrite Z.land_spec. change (Z.testbit 247 3) with false. rewrite andb_false_r. split; [reflexivity|discriminate].
  - rewrite !Z.lor_spec, !Z.land_spec.
    change (Z.testbit 215 3) with false. change (Z.testbit 2 3) with false. change (Z.testbit 215 5) with false.
    change (Z.testbit 2 5) with false. change (Z.testbit 2 1) with true. rewrite !andb_false_r, orb_true_r. auto.
Qed.
Lemma alu_form m85 k v s : mask_ok m85 (F (alu_op m85 k v s)).
Proof. destruct k; apply wF_form. Qed.
Lemma F_fetch16 s : F (snd (fetch16 s)) = F s. Proof. reflexivity. Qed.
Lemma run_form m85 lim dum ipc c o s : o <> POP pPSW -> o <> LXI pPSW -> mask_ok m85 (F s) ->
  (forall p, o = INX p \/ o = DCX p -> p <> pPSW) -> (o = ARHL \/ o = RDEL \/ o = DSUB -> m85 = true) ->
  mask_ok m85 (F (fst (run m85 lim dum ipc c o s))).
Proof.
  intros N N2 Hm N3 N4. destruct o; cbn [run fst]; try exact Hm; try apply wF_form;
    repeat first [rewrite F_wr|rewrite F_put]; try exact Hm.
  all: try (cbn [fetch fetch16]; repeat first [rewrite F_wr|rewrite F_put]; exact Hm).
  all: try (cbn [fetch16 fetch pop2]; rewrite F_put2 by congruence; exact Hm).
  all: try (rewrite ?push2_eq; exact Hm).
  all: try (destruct s0; [apply alu_form|cbn [fetch]; apply alu_form]).
  all: try (unfold inx, dcx; destruct m85; [apply wF_form|rewrite F_put2 by (apply N3; tauto); exact Hm]).
  all: try (rewrite daa_form; cbv zeta; destruct (_ =? 0); [exact Hm|apply wF_form]).
  all: try (unfold jmp_if, call_if, ret_if; cbn [fetch16 fetch pop2]; destruct (holds c0 s); rewrite ?push2_eq; exact Hm).
  all: try (unfold jmp_if; cbn [fetch16 fetch]; destruct (Z.testbit (F s) 5); exact Hm).
  all: try (destruct (Z.testbit (F s) 1); rewrite ?push2_eq; exact Hm).
  all: try (unfold wHL; cbn [F set_H set_L]; repeat first [rewrite F_wr|rewrite F_put]; exact Hm).
  all: try (cbn [fetch16 fetch]; rewrite push2_eq; exact Hm).
  all: rewrite N4 by tauto; apply wF_form.
Qed.
Definition psw_code_ok (m85 : bool) (c : Z) : bool :=
  match itab m85 c with
  | POP pPSW => c =? 241
  | LXI pPSW | INX pPSW | DCX pPSW => false
  | HLT => c =? 118
  | ARHL | RDEL | DSUB => m85 && negb (c =? 118)
  | _ => negb (c =? 118)
  end.
Lemma psw_all m85 c : 0 <= c < 256 -> psw_code_ok m85 c = true.
Proof. intros H. destruct m85; (apply (sweep 256); [vm_compute; reflexivity|exact H]). Qed.
Lemma exec_form m85 lim dum s : wf s -> mem s (PC s) <> 241 -> mask_ok m85 (F s) ->
  mask_ok m85 (F (fst (exec_inst m85 lim dum false s))).
Proof.
  intros W Hc Hm. rewrite exec_eq. cbn [fst]. change (F (last_ticks m85 (PC s) ?r)) with (F r).
  pose proof (psw_all m85 (mem s (PC s)) (code_range s W)) as K. unfold psw_code_ok in K.
  apply run_form; [| |exact Hm| |].
  - intros E. rewrite E in K. lia.
  - intros E. rewrite E in K. discriminate.
  - intros p [E|E] ->; rewrite E in K; discriminate.
  - intros [E|[E|E]]; rewrite E in K; apply andb_true_iff in K; tauto.
Qed.
Lemma psw_byte f : 0 <= f < 256 -> byte80 f ->
  f = (if Z.testbit f 7 then 128 else 0) + (if Z.testbit f 6 then 64 else 0) + (if Z.testbit f 4 then 16 else 0) +
      (if Z.testbit f 2 then 4 else 0) + 2 + (if Z.testbit f 0 then 1 else 0).
Proof.
  intros Hf [H5 [H3 H1]].
  assert (S := sweep 256 (fun f => Z.testbit f 5 || Z.testbit f 3 || negb (Z.testbit f 1) ||
     (f =? (if Z.testbit f 7 then 128 else 0) + (if Z.testbit f 6 then 64 else 0) + (if Z.testbit f 4 then 16 else 0) +
      (if Z.testbit f 2 then 4 else 0) + 2 + (if Z.testbit f 0 then 1 else 0))) ltac:(vm_compute; reflexivity) f Hf).
  cbv beta in S. rewrite H5, H3, H1 in S. cbn [orb negb] in S. lia.
Qed.
(** ** Halting *)
Lemma exec_result m85 lim dum s : wf s ->
  snd (exec_inst m85 lim dum false s) = if mem s (PC s) =? 118 then HALT else GO.
Proof.
  intros W. rewrite exec_eq. cbn [snd]. pose proof (psw_all m85 (mem s (PC s)) (code_range s W)) as K. unfold psw_code_ok in K.
  destruct (itab m85 (mem s (PC s))) eqn:E; cbn [run snd];
    try (apply negb_true_iff in K; rewrite K; reflexivity); try (rewrite K; reflexivity);
    try (apply andb_true_iff in K; destruct K as [_ K]; apply negb_true_iff in K; rewrite K; reflexivity);
    try (destruct p; try (apply negb_true_iff in K; rewrite K; reflexivity); try discriminate).
  apply Z.eqb_eq in K. rewrite K. reflexivity.
Qed.
