(** 8080/8085: ADC, SBB, ANA, DAA exactly; the stack; the further instructions of the 8085. *)
From Verif Require Import Base I80Model I80Spec I80Proofs I80Proofs2 I80Proofs3 I80Proofs4 I80Proofs5 I80Proofs6 I80Proofs7 I80Proofs8.

(** ** Decoding of the accumulator instructions *)
Definition regn (n : Z) : reg :=
  if n =? 0 then rB else if n =? 1 then rC else if n =? 2 then rD else if n =? 3 then rE else if n =? 4 then rH
  else if n =? 5 then rL else if n =? 6 then rM else rA.
Definition alun (n : Z) : alu :=
  if n =? 0 then kADD else if n =? 1 then kADC else if n =? 2 then kSUB else if n =? 3 then kSBB else if n =? 4 then kANA
  else if n =? 5 then kXRA else if n =? 6 then kORA else kCMP.
Lemma alun_knum k : alun (knum k) = k. Proof. destruct k; reflexivity. Qed.
Lemma num_regn n : 0 <= n < 8 -> num (regn n) = n.
Proof.
  intros H. pattern n. revert n H. apply (range_case 8). refine (nat_cases 8 _ _). cbn [seq].
  repeat constructor.
Qed.
Lemma itab_alu m85 c : 128 <= c < 192 -> itab m85 c = ALU (alun (c / 8 mod 8)) (Some (regn (c mod 8))).
Proof.
  intros H. replace c with (128 + (c - 128)) by lia. assert (Hk : 0 <= c - 128 < 64) by lia.
  revert Hk. generalize (c - 128). clear c H. intros k Hk. pattern k. revert k Hk. apply (range_case 64).
  refine (nat_cases 64 _ _). cbn [seq].
  repeat (apply Forall_cons; [destruct m85; reflexivity|]). apply Forall_nil.
Qed.
Lemma itab_imm m85 k : itab m85 (198 + 8 * knum k) = ALU k None.
Proof. destruct k, m85; reflexivity. Qed.
Lemma code_range s : wf s -> 0 <= mem s (PC s) < 256. Proof. intros W. apply W. Qed.
Lemma exec_alu m85 lim dum k v s : wf s -> operand_of (knum k) (abs s) v ->
  exists s2, wf s2 /\ fC (abs s2) = fC (abs s) /\ A s2 = A s /\ 0 <= v < 256 /\
    abs (fst (exec_inst m85 lim dum false s)) = abs (alu_op m85 k v s2) /\
    manual m85 (abs s) = arith m85 (knum k) v (abs s2).
Proof.
  intros W O. pose proof (code_range s W) as Hc. pose proof (started_wf s W) as W1. pose proof (started_abs s) as E1.
  assert (KN : 0 <= knum k <= 7) by (destruct k; cbn; lia).
  rewrite exec_eq. cbn [fst]. rewrite abs_last_ticks. rewrite manual_by_code.
  change (mm (abs s) (pc (abs s))) with (mem s (PC s)) in *.
  unfold operand_of in O. cbv zeta in O. change (mm (abs s) (pc (abs s))) with (mem s (PC s)) in O.
  set (c := mem s (PC s)) in *.
  destruct O as [[O1 [O2 O3]] | [O1 O2]].
  - exists (started s). rewrite manual_code_op; [|exact Hc|].
    2:{ unfold undefined_code. cbn [In]. lia. }
    rewrite (itab_alu m85 c O1), O2, alun_knum. cbn [run fst manual_op].
    pose proof (Z.mod_pos_bound c 8 ltac:(lia)) as Hm.
    rewrite (get_next dum (regn (c mod 8)) (started s) (abs s) 1 W1 E1). rewrite num_regn by lia. rewrite <- O3.
    split; [exact W1|]. split; [reflexivity|]. split; [reflexivity|]. split.
    { rewrite O3. rewrite <- (num_regn (c mod 8)) by lia. rewrite <- (get_src 0 _ s W). apply get_range, W. }
    split; [reflexivity|]. rewrite E1. symmetry. apply arith_next.
  - destruct (fetch_next s (started s) W W1 E1) as [s2 [F2 [E2 [W2 R2]]]]. exists s2.
    rewrite manual_code_op; [|exact Hc|].
    2:{ unfold undefined_code. cbn [In]. lia. }
    rewrite O1. rewrite itab_imm. cbn [run fst manual_op]. rewrite F2, <- O2.
    split; [exact W2|]. split; [rewrite E2; reflexivity|]. split; [change (R (abs s2) 7 = R (abs s) 7); rewrite E2; reflexivity|].
    split; [rewrite O2; exact R2|]. split; [reflexivity|]. rewrite E2. symmetry. apply arith_next.
Qed.
(** flags other than S, Z, P *)
Definition with_ac (a c : bool) (y : M) : M := setf (fS y) (fZ y) a (fP y) c y.
Lemma add8_dev m85 v s : wf s -> 0 <= v < 256 -> let cy := Z.testbit (F s) 0 in
  let y := add v (if cy then 1 else 0) (abs s) in
  same (abs (add8 m85 v true false s))
       (with_ac (fA y && negb (cy && (v mod 16 =? 15))) (fC y && negb (cy && (v =? 255))) y).
Proof.
  intros W Hv cy. unfold add8, add. rewrite A_R7. cbv zeta. fold cy. cbn [andb]. clearbody cy.
  assert (Ha : 0 <= A s < 256) by (unfold wf in W; lia).
  pose proof (Z.mod_pos_bound (A s) 16 ltac:(lia)) as Hal. pose proof (Z.mod_pos_bound v 16 ltac:(lia)) as Hvl.
  pose proof (Z.div_mod v 16 ltac:(lia)) as Dv.
  set (op := if cy then u8 (v + 1) else v).
  assert (Er : u8 (A s + op) = (A s + v + (if cy then 1 else 0)) mod 256).
  { unfold op, u8. destruct cy; [|f_equal; lia]. rewrite Zplus_mod_idemp_r. f_equal. lia. }
  rewrite Er. set (r := (A s + v + (if cy then 1 else 0)) mod 256).
  assert (Hr : 0 <= r < 256) by (apply Z.mod_pos_bound; lia).
  change (with_ac ?a ?c (flags r ?a0 ?c0 ?t)) with (flags r a c t).
  apply flags_same; [exact Hr|apply wA_setr; exact Hr| | | | |]; bits; try reflexivity.
  - cbn [flags setf fC]. unfold op. destruct cy; cbn [andb negb]; [|rewrite andb_true_r; destruct (255 <? _) eqn:X; destruct (256 <=? _) eqn:Y; try reflexivity; lia].
    destruct (v =? 255) eqn:Ev.
    + assert (v = 255) by lia. subst v. rewrite andb_false_r. change (u8 (255 + 1)) with 0. lia.
    + rewrite andb_true_r, u8_id by lia. destruct (255 <? _) eqn:X; destruct (256 <=? _) eqn:Y; try reflexivity; lia.
  - cbn [flags setf fA]. unfold op. destruct cy; cbn [andb negb].
    + assert (Em : (u8 (v + 1)) mod 16 = if v mod 16 =? 15 then 0 else v mod 16 + 1).
      { unfold u8. rewrite <- (Znumtheory.Zmod_div_mod 16 256) by (lia || (exists 16; reflexivity)).
        destruct (v mod 16 =? 15) eqn:X.
        - symmetry. apply Z.mod_unique with (q := v / 16 + 1); lia.
        - symmetry. apply Z.mod_unique with (q := v / 16); lia. }
      rewrite Em. destruct (v mod 16 =? 15) eqn:X; cbn [negb]; rewrite ?andb_false_r, ?andb_true_r.
      * lia.
      * destruct (15 <? _) eqn:X1; destruct (16 <=? _) eqn:Y; try reflexivity; lia.
    + rewrite andb_true_r. destruct (15 <? _) eqn:X1; destruct (16 <=? _) eqn:Y; try reflexivity; lia.
Qed.
Lemma sub8_dev m85 v s : wf s -> 0 <= v < 256 -> let cy := Z.testbit (F s) 0 in
  let y := sub v (if cy then 1 else 0) false (abs s) in
  same (abs (sub8 m85 v true false s)) (with_ac (fA y) (fC y && negb (cy && (A s =? v))) y).
Proof.
  intros W Hv cy. unfold sub8, sub. rewrite A_R7. cbv zeta. fold cy. cbn [andb]. clearbody cy.
  assert (Ha : 0 <= A s < 256) by (unfold wf in W; lia).
  set (y := v + (if cy then 1 else 0)).
  assert (E : u8 (- (if cy then u8 (v + 1) else v)) = (- y) mod 256).
  { unfold y, u8. destruct cy; [|rewrite Z.add_0_r; reflexivity].
    rewrite <- Z.sub_0_l, Zminus_mod_idemp_r, Z.sub_0_l. reflexivity. }
  rewrite E.
  assert (Er : u8 (A s + (- y) mod 256) = (A s - y) mod 256).
  { unfold u8. rewrite Zplus_mod_idemp_r. f_equal; lia. }
  rewrite Er.
  assert (Hr : 0 <= (A s - y) mod 256 < 256) by (apply Z.mod_pos_bound; lia).
  set (r := (A s - y) mod 256) in *.
  change (with_ac ?a ?c (flags r ?a0 ?c0 ?t)) with (flags r a c t).
  apply flags_same; [exact Hr|apply wA_setr; exact Hr| | | | |]; bits; try reflexivity.
  - cbn [flags setf fC]. unfold y. destruct cy; cbn [andb negb].
    + destruct (A s =? v) eqn:X; cbn [negb]; rewrite ?andb_false_r, ?andb_true_r; [lia|].
      destruct (A s <? v) eqn:X1; destruct (A s - (v + 1) <? 0) eqn:Y; try reflexivity; lia.
    + rewrite andb_true_r. destruct (A s <? v) eqn:X1; destruct (A s - (v + 0) <? 0) eqn:Y; try reflexivity; lia.
  - cbn [flags setf fA].
    assert (Em : ((- y) mod 256) mod 16 = (- y) mod 16) by (symmetry; apply (Znumtheory.Zmod_div_mod 16 256); [lia|lia|exists 16; reflexivity]).
    rewrite Em. destruct (15 <? _) eqn:X; destruct (16 <=? _) eqn:Y; try reflexivity; lia.
Qed.
Lemma ana_dev m85 v s : wf s -> 0 <= v < 256 ->
  let y := arith m85 4 v (abs s) in same (abs (ana m85 v s)) (with_ac true (fC y) y).
Proof.
  intros W Hv. cbv zeta. unfold arith. cbn [Z.eqb Pos.eqb]. unfold logic, ana. rewrite A_R7.
  assert (Ha : 0 <= A s < 256) by (unfold wf in W; lia). pose proof (land_byte (A s) v Ha Hv) as Hr.
  cbv zeta. set (r := Z.land (A s) v) in *.
  change (with_ac ?a ?c (flags r ?a0 ?c0 ?t)) with (flags r a c t).
  apply flags_same; [exact Hr|apply wA_setr; exact Hr| | | | |]; bits; reflexivity.
Qed.
