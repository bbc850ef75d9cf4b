(** Z80: what the simulator does exactly: block instructions. *)
From Verif Require Import Base Z80Model Z80Spec Z80Spec2 Z80Proofs Z80Proofs2 Z80Proofs3 Z80Proofs4 Z80Proofs5 Z80Proofs6 Z80Proofs7 Z80Proofs17.

Lemma f_repeat b x : f (repeat_if b x) = f x.
Proof. unfold repeat_if, jump_if. destruct b; reflexivity. Qed.
Lemma f_again b ipc s : F (again b ipc s) = F s.
Proof. unfold again. destruct b; reflexivity. Qed.
Lemma low7 a v : Z.testbit (a - v) 7 = (128 <=? (a - v) mod 256).
Proof. rewrite <- bit7 by apply u8_range. change 256 with (2 ^ 8). symmetry. apply Z.mod_pow2_bits_low. lia. Qed.

Section Z.
Variable dum lim : Z.
Notation exec := (Z80Model.exec dum lim).
Notation exact_ y o ipc s := (agree True (abs (snd (exec y ipc o s))) (actual_op dum y o (abs s))).
Notation W_ := (Z80Model.W false).

Lemma cmp_left d s : left_bc (compare_block d (abs s)) = negb (w (W_ BC s - 1) =? 0).
Proof.
  unfold compare_block, left_bc. cbv zeta. unfold dec_bc. 
  change (negb (256 * (w (W_ BC s - 1) / 256) + w (W_ BC s - 1) mod 256 =? 0) = negb (w (W_ BC s - 1) =? 0)).
  rewrite <- Z.div_mod by lia. reflexivity.
Qed.
Lemma bc_dec d s : bc_left (wW false BC (W_ BC s - 1) (wW false HL (W_ HL s + d) s)) = negb (w (W_ BC s - 1) =? 0).
Proof.
  unfold bc_left. rewrite W_pairv, wW_setpair.
  change (negb (256 * (w (W_ BC s - 1) / 256) + w (W_ BC s - 1) mod 256 =? 0) = negb (w (W_ BC s - 1) =? 0)).
  rewrite <- Z.div_mod by lia. reflexivity.
Qed.
Lemma ac_CPI y ipc s : wf s -> exact_ y CPI ipc s.
Proof.
  intros W. pose proof (ex_CPI dum lim y ipc s W) as G.
  eapply agree_fl; [exact (agree_F _ _ _ G)| |].
  { cbn [actual_op]. unfold with_c, with_p. cbv zeta. destruct (sem y CPI (abs s)). reflexivity. }
  clear G. cbn [actual_op Z80Model.exec snd sem]. rewrite cmp_left. unfold cpi. cbv zeta.
  pose proof (W_range false HL s W) as HW. rewrite rd_mm by exact HW. unfold at_hl. rewrite <- W_pairv.
  set (v := mm (abs s) (W_ HL s)). assert (Hv : byte v) by apply (wf_mem s _ W).
  match goal with |- context [orF (bc_left ?q) 4 ?q] => set (s1 := q) end.
  assert (EB : bc_left s1 = negb (w (W_ BC s - 1) =? 0)).
  { unfold s1. change (W_ BC (wW false HL (W_ HL (cp_A v s) + 1) (cp_A v s))) with (W_ BC (cp_A v s)).
    rewrite bc_dec. reflexivity. }
  rewrite EB. set (b := negb (w (W_ BC s - 1) =? 0)). clearbody b.
  pose proof (cp_A_eq v s W Hv) as [_ C]. specialize (C I). destruct C as (CS & CZ & CH & CP_ & CN & CC).
  cbn [f abs flags_of fS fZ fH fP fN fC] in *.
  change (F (orF b 4 s1)) with (Z.lor (F (cp_A v s)) (fl b 4)).
  unfold with_c, with_p, compare_block. cbv zeta. cbn [f s_f setf fS fZ fH fP fN fC].
  change (acc (dec_bc (move_hl 1 (abs s)))) with (A s). change (acc (abs s)) with (A s) in *.
  unfold cmp in *. cbv zeta in *. cbn [f setf s_f fS fZ fH fP fN fC] in *. change (acc (abs s)) with (A s) in *.
  replace (A s - v - 0) with (A s - v) in * by lia. replace (v mod 16 + 0) with (v mod 16) in * by lia.
  replace (sgn (A s) - sgn v - 0) with (sgn (A s) - sgn v) in * by lia.
  unfold v in *. clear v. change (mm (abs s) (pairv false HL (abs s))) with (mm (abs s) (W_ HL s)). set (v := mm (abs s) (W_ HL s)) in *.
  generalize dependent (F (cp_A v s)). intros G CS CZ CH CP_ CN CC.
  flag_parts; cbn [flags_of fS fZ fH fP fN fC]; rewrite !Z.lor_spec, ?CS, ?CZ, ?CH, ?CP_, ?CN, ?CC; unfold fl; destruct b; cbn [Z.testbit]; rewrite ?orb_false_r, ?orb_true_r; try reflexivity.
  all: try lia.
Qed.
Lemma ac_CPIR y ipc s : wf s -> ipc = w (PC s - 2) -> exact_ y CPIR ipc s.
Proof.
  intros W I. pose proof (ex_CPIR dum lim y ipc s W I) as G.
  eapply agree_fl; [exact (agree_F _ _ _ G)|apply sf_eta|]. clear G.
  cbn [actual_op Z80Model.exec snd sem]. unfold cpir. cbv zeta.
  pose proof (W_range false HL s W) as HW. rewrite rd_mm by exact HW.
  unfold with_h. cbn [f s_f abs]. rewrite f_repeat, f_again.
  set (v := mm (abs s) (W_ HL s)). assert (Hv : byte v) by apply (wf_mem s _ W).
  match goal with |- context [orF (bc_left ?q) 4 ?q] => set (s1 := q) end.
  assert (EB : bc_left s1 = negb (w (W_ BC s - 1) =? 0)).
  { match eval unfold s1 in s1 with wW false BC _ (wW false HL _ ?q) => change s1 with (wW false BC (W_ BC q - 1) (wW false HL (W_ HL q + 1) q)) end.
    rewrite bc_dec. reflexivity. }
  pose proof (cmp_left 1 s) as CL. rewrite <- EB in CL. clear EB.
  unfold compare_block in *. cbv zeta in *. cbn [f setf s_f].
  change (left_bc (dec_bc (move_hl 1 (abs s)))) with (left_bc (setf (128 <=? (acc (abs s) - mm (abs s) (pairv false HL (abs s))) mod 256)
             ((acc (abs s) - mm (abs s) (pairv false HL (abs s))) mod 256 =? 0)
             (acc (dec_bc (move_hl 1 (abs s))) mod 16 <? mm (abs s) (pairv false HL (abs s)) mod 16)
             (left_bc (dec_bc (move_hl 1 (abs s)))) true
             (fC (f (dec_bc (move_hl 1 (abs s))))) (dec_bc (move_hl 1 (abs s))))).
  rewrite CL. set (b := bc_left s1). 
  match goal with |- samef (flags_of (F (orF b 4 s1))) _ => change (F (orF b 4 s1)) with (Z.lor (F s1) (fl b 4)) end. clearbody b.
  unfold s1. cbn [F set_F wW wR2 set_rg].
  change (mm (abs s) (pairv false HL (abs s))) with v. change (acc (abs s)) with (A s).
  byteflags; rewrite ?low7; try reflexivity. apply testbit_eq0; [apply wf_A, W|exact Hv].
Qed.
Lemma ac_CPD y ipc s : wf s -> exact_ y CPD ipc s.
Proof.
  intros W. cbn [actual_op Z80Model.exec snd]. unfold cpd. cbv zeta.
  pose proof (W_range false HL s W) as HW. rewrite rd_mm by exact HW. unfold at_hl. rewrite <- W_pairv.
  set (v := mm (abs s) (W_ HL s)). change (acc (abs s)) with (A s). replace (A s - v =? 0) with (A s =? v) by lia.
  set (e := A s =? v). set (s0 := set_F (Z.lor (clr (F s) 215) (fl e 68)) s).
  set (s1 := wW false BC (W_ BC (wW false HL (W_ HL s0 + 1) s0) - 1) (wW false HL (W_ HL s0 + 1) s0)).
  assert (E : abs s1 = s_f (flags_of (F s1)) (dec_bc (move_hl 1 (abs s)))).
  { unfold s1. rewrite !wW_setpair. reflexivity. }
  assert (EB : bc_left s1 = left_bc (dec_bc (move_hl 1 (abs s)))).
  { unfold bc_left, left_bc. rewrite W_pairv, E. reflexivity. }
  rewrite orF_abs, EB. apply agree_ff.
  - rewrite E. reflexivity.
  - intros _. set (b := left_bc _). change (F s1) with (Z.lor (clr (F s) 215) (fl e 68)). clearbody e b.
    destruct e; byteflags; reflexivity.
Qed.
Lemma ac_CPDR y ipc s : wf s -> ipc = w (PC s - 2) -> exact_ y CPDR ipc s.
Proof.
  intros W I. cbn [actual_op Z80Model.exec snd]. unfold cpdr. cbv zeta.
  pose proof (W_range false HL s W) as HW. rewrite rd_mm by exact HW. unfold at_hl. rewrite <- W_pairv.
  set (v := mm (abs s) (W_ HL s)). change (acc (abs s)) with (A s). replace (A s - v =? 0) with (A s =? v) by lia.
  destruct (A s =? v).
  - rewrite andb_false_r. unfold again. apply agree_ff; [reflexivity|]. intros _. cbn [fl]. byteflags; reflexivity.
  - cbn [negb]. rewrite andb_true_r. cbn [fl]. set (s0 := set_F (Z.lor (clr (F s) 215) 0) s).
    set (s1 := wW false BC (W_ BC s0 - 1) (wW false HL (W_ HL s0 - 1) s0)).
    assert (E : abs s1 = s_f (flags_of (F s1)) (dec_bc (move_hl (-1) (abs s)))).
    { unfold s1. rewrite !wW_setpair. reflexivity. }
    assert (EB : bc_left s1 = left_bc (dec_bc (move_hl (-1) (abs s)))).
    { unfold bc_left, left_bc. rewrite W_pairv, E. reflexivity. }
    rewrite again_eq by exact I. rewrite EB. apply agree_pc. apply agree_ff.
    + rewrite E. reflexivity.
    + intros _. cbn [f abs]. change (F s1) with (Z.lor (clr (F s) 215) 0). byteflags; reflexivity.
Qed.
Lemma wr_F a v s : F (wr a v s) = F s.
Proof. unfold wr. destruct (inmem a); reflexivity. Qed.
Lemma wr_rg a v s : rg (wr a v s) = rg s.
Proof. unfold wr. destruct (inmem a); reflexivity. Qed.
Lemma block_in_f d s : wf s -> samef (flags_of (F (block_in d s))) (f (with_n false (in_block d (abs s)))).
Proof.
  intros W. unfold block_in, in_block, with_n, count_b. cbv zeta. cbn [F set_F rg wR set_rg wW wR2]. rewrite wr_F, wr_rg.
  cbn [f s_f setf]. unfold move_hl. cbn [setpair set2 setm s_r s_mm r f setr Z.eqb Pos.eqb].
  byteflags; reflexivity.
Qed.
Lemma ac_INI y o ipc s : wf s -> o = INI \/ o = IND \/ ((o = INIR \/ o = INDR) /\ ipc = w (PC s - 2)) -> exact_ y o ipc s.
Proof.
  intros W H. pose proof (ex_INI dum lim y o ipc s W H) as G.
  destruct H as [-> | [-> | [ [-> | ->] I] ] ]; (eapply agree_fl; [exact (agree_F _ _ _ G)|apply sf_eta|]); clear G;
    cbn [actual_op Z80Model.exec snd sem].
  - apply block_in_f, W.
  - apply block_in_f, W.
  - cbn [f abs]. rewrite f_again. unfold with_n. cbn [f s_f]. rewrite !f_repeat. apply block_in_f, W.
  - cbn [f abs]. rewrite f_again. unfold with_n. cbn [f s_f]. rewrite !f_repeat. apply block_in_f, W.
Qed.
Lemma block_out_f k d s : wf s -> samef (flags_of (F (block_out dum k d s))) (f (with_n false (out_block d (abs s)))).
Proof.
  intros W. unfold block_out, out_block, with_n, count_b. cbv zeta. cbn [F set_F rg wR set_rg wW wR2 wO set_outp].
  cbn [f s_f setf]. unfold move_hl, setout. cbn [setpair set2 setm s_r s_mm s_pout r f setr Z.eqb Pos.eqb].
  byteflags; reflexivity.
Qed.
Lemma ac_OUTD y o ipc s : wf s -> o = OUTD \/ (o = OTDR /\ ipc = w (PC s - 2)) -> exact_ y o ipc s.
Proof.
  intros W H. pose proof (ex_OUTD dum lim y o ipc s W H) as G.
  destruct H as [-> | [-> I] ]; (eapply agree_fl; [exact (agree_F _ _ _ G)|apply sf_eta|]); clear G;
    cbn [actual_op Z80Model.exec snd sem].
  - apply block_out_f, W.
  - cbn [f abs]. rewrite f_again. unfold with_n. cbn [f s_f]. rewrite !f_repeat. apply block_out_f, W.
Qed.
Lemma outi_eq s : wf s -> agree True (abs (block_out dum 0 1 s)) (with_n false (out_block_ 1 (abs s))).
Proof.
  intros W. split.
  - pose proof (W_range false HL s W) as HW. unfold block_out, out_block_, count_b, move_hl. cbv zeta.
    change (Z80Model.W false HL (wR 0 (rg s 0 - 1) s)) with (Z80Model.W false HL s).
    rewrite rd_mm by exact HW. unfold wO. rewrite u8_id by (apply (wf_mem s), W).
    apply sbf_ff with (v := f (abs s)) (u := f (abs s)).
    cbn [wW]. unfold wR2, wR. cbn [setpair]. unfold set2. rewrite !(proj1 (w_parts _)), !(proj2 (w_parts _)). reflexivity.
  - intros _. exact (block_out_f 0 1 s W).
Qed.
Lemma ac_OUTI y o ipc s : wf s -> o = OUTI \/ (o = OTIR /\ ipc = w (PC s - 2)) -> exact_ y o ipc s.
Proof.
  intros W [-> | [-> I] ]; cbn [actual_op Z80Model.exec snd].
  - apply outi_eq, W.
  - rewrite again_eq by exact I. cbv zeta. pose proof (outi_eq s W) as G. rewrite (b_left_eq _ _ (proj1 G)). apply agree_pc, G.
Qed.
End Z.
