(** Z80: the state keeps its form, every instruction, any history. *)
From Verif Require Import Base Z80Model Z80Spec Z80Proofs Z80Proofs2 Z80Proofs3 Z80Proofs4 Z80Proofs5 Z80Proofs6 Z80Proofs7 Z80Proofs8 Z80Proofs9 Z80Proofs10.

Definition rst_ok (o : op) : Prop := match o with RST n => word n | _ => True end.
Definition anyPC (v : Z) : Prop := 0 <= v < 4294967296.
Notation wfa := (wfP anyPC).
Lemma any_word v : word v -> anyPC v. Proof. unfold word, anyPC. lia. Qed.
Lemma any_u32 v : anyPC (u32 v). Proof. unfold anyPC, u32. apply Z.mod_pos_bound. lia. Qed.
Lemma kept_wfa s : kept s <-> wfa s. Proof. reflexivity. Qed.

Section Z.
Variable dum lim : Z.
Variable hit : Z -> bool.
Hypothesis HD : byte dum.
(** [P]: what PC keeps; [relative]: the instructions that may break it *)
Variable P : Z -> Prop.
Hypothesis PW : forall v, word v -> P v.
Definition relative (o : op) : Prop := match o with JR _ | DJNZ => True | _ => False end.
Notation wfa := (wfP P).
Notation exec := (Z80Model.exec dum lim).
Notation PF := (p_fetch P dum HD PW).
Notation PF2 := (p_fetch2 P dum HD PW).
Notation PP2 := (p_pop2 P dum HD).
Notation PR := (p_resolve P dum HD PW).

Lemma p_jrel j s : (forall v, P (u32 v)) -> wfa s -> wfa (jrel j s).
Proof. intros HU H. unfold jrel. apply p_PC; [exact H|apply HU]. Qed.
Lemma p_exec y ipc o s : wfa s -> P ipc -> rst_ok o -> (relative o -> forall v, P (u32 v)) -> wfa (snd (exec y ipc o s)).
Proof.
  intros H HI HR HU. pose proof (p_Fb _ _ H) as HF. pose proof (p_A _ _ H) as HA.
  assert (RG : forall n, byte (rg s n)) by apply H. assert (RA : forall n, byte (arg s n)) by apply H.
  pose proof (PF s H) as [F1 F2]. pose proof (PF2 s H) as [G1 G2]. pose proof (PP2 s H) as [Q1 Q2].
  destruct o; cbn [Z80Model.exec].
  - exact H.
  - exact H.
  - apply p_ib, p_iff2, p_iff1, H.
  - apply p_ib, p_iff2, p_iff1, H.
  - pose proof (PR y d s H) as R. destruct (resolve dum y d s) as [p s1]. destruct R as [H1 _].
    pose proof (PR y s0 s1 H1) as R. destruct (resolve dum y s0 s1) as [q s2]. destruct R as [H2 _]. apply p_putp, H2.
  - destruct (fetch2 dum s). apply p_wW, G1.
  - destruct (fetch2 dum s). apply p_store2, G1.
  - destruct (fetch2 dum s). apply p_wW, G1.
  - apply p_wr, H.
  - apply p_wR, H.
  - destruct (fetch2 dum s). apply p_wr, G1.
  - destruct (fetch2 dum s). apply p_wR, G1.
  - apply p_SP; [exact H|exact (p_W _ y p s H)].
  - apply p_push2, H.
  - destruct (pop2 dum s). apply p_wW, Q1.
  - apply p_push1, p_push1, H.
  - cbv zeta. apply p_SP; [|apply u16_range]. apply p_wR, p_SP; [|apply u16_range]. apply p_F; [exact H|]. exact (p_rd P dum HD _ s H).
  - apply p_rg; [apply p_arg; [apply p_F; [apply p_aF; [exact H|exact HF]|apply H]|]|]; intros k; destruct (k =? 7); auto.
  - apply p_rg; [apply p_arg; [exact H|]|]; intros k; destruct (k <? 6); auto.
  - apply p_wW, p_wW, H.
  - apply p_store2, p_wW, H.
  - pose proof (PR y l s H) as R. destruct (resolve dum y l s) as [p s1]. destruct R as [H1 _]. cbv zeta. apply p_putp, p_F; [exact H1|].
    apply inc_f_byte; [exact (p_Fb _ _ H1)|apply u8_range].
  - pose proof (PR y l s H) as R. destruct (resolve dum y l s) as [p s1]. destruct R as [H1 _]. cbv zeta. apply p_putp, p_F; [exact H1|].
    apply inc_f_byte; [exact (p_Fb _ _ H1)|apply u8_range].
  - pose proof (PR y l s H) as R. destruct (resolve dum y l s) as [p s1]. destruct R as [H1 H2]. apply p_alu8; [exact H1|]. exact (p_getp P dum HD y p s1 H1 H2).
  - apply p_wW, H.
  - apply p_wW, H.
  - apply p_add16, H.
  - apply p_rot_A, H. - apply p_rot_A, H. - apply p_rot_A, H. - apply p_rot_A, H.
  - apply p_daa, H.
  - apply p_wR, p_F; [exact H|fbyte].
  - apply p_F; [exact H|fbyte].
  - cbv zeta. apply p_F; [exact H|fbyte].
  - destruct (fetch dum s) as [j s1]. cbn [fst snd] in *. cbv zeta.
    assert (G : wfa (wR 0 (rg s1 0 - 1) s1)) by apply p_wR, F1. cbn [snd]. destruct (b_left _); [apply p_ct, p_jrel; [exact (HU I)|exact G]|exact G].
  - destruct c; destruct (fetch dum s) as [j s1]; cbn [fst snd] in *; [destruct (holds _ _); [apply p_ct|exact F1]|]; (apply p_jrel; [exact (HU I)|exact F1]).
  - destruct c; destruct (fetch2 dum s) as [j s1]; cbn [fst snd] in *; [destruct (holds _ _); [|exact G1]|]; (apply p_PC; [exact G1|apply PW, G2]).
  - apply p_PC; [exact H|apply PW; exact (p_W _ y p s H)].
  - assert (K : forall v, wfa (push2 lim ipc v s)) by (intros; apply p_push2, H).
    destruct c; cbv zeta.
    + destruct (holds _ _).
      * destruct (PF2 _ (K (PC s + 2))) as [L1 L2]. destruct (fetch2 dum (push2 lim ipc (PC s + 2) s)). apply p_ct, p_PC; [exact L1|apply PW, L2].
      * destruct (fetch2 dum s). exact G1.
    + destruct (PF2 _ (K (PC s + 2))) as [L1 L2]. destruct (fetch2 dum (push2 lim ipc (PC s + 2) s)). apply p_PC; [exact L1|apply PW, L2].
  - destruct c; [destruct (holds _ _); [|exact H]|]; destruct (pop2 dum s); [apply p_ct|]; (apply p_PC; [exact Q1|apply PW, Q2]).
  - apply p_PC; [apply p_push2, H|apply PW, HR].
  - destruct (fetch dum s). apply p_wO, F1.
  - destruct (fetch dum s). apply p_wR, F1.
  - exact H. - exact H. - exact H. - exact H. - exact H.
  - cbv zeta. assert (G : wfa (set_F (Z.lor (clr (F s) 6) (fl (parity (inp s (rg s 1))) 4)) s)) by (apply p_F; [exact H|fbyte]).
    cbn [snd]. destruct (r =? 6); [exact G|apply p_wR, G].
  - apply p_wO, H.
  - apply p_sbc16, H.
  - apply p_adc16, H.
  - cbv zeta. apply p_F; [apply p_wR, H|fbyte].
  - destruct (pop2 dum s). apply p_iff2, p_iff1, p_PC; [exact Q1|apply PW, Q2].
  - apply p_im, H.
  - apply p_iv; assumption.
  - apply p_rr; assumption.
  - cbv zeta. apply p_F; [apply p_wR, H|fbyte].
  - cbv zeta. apply p_F; [apply p_wR, H|fbyte].
  - cbv zeta. apply p_wR, p_wr, H.
  - cbv zeta. apply p_wR, p_wr, H.
  - cbv zeta. apply p_orF; [apply p_block_ld, H|apply byte_const; reflexivity].
  - cbv zeta. apply p_orF; [apply p_block_ld, H|apply byte_const; reflexivity].
  - cbv zeta. apply p_again; [|exact HI]. apply p_orF; [apply p_block_ld, H|apply byte_const; reflexivity].
  - cbv zeta. apply p_again; [|exact HI]. apply p_block_ld, H.
  - apply p_cpi, H.
  - apply p_cpd, H.
  - apply p_cpir; assumption.
  - apply p_cpdr; assumption.
  - apply p_block_in, H.
  - apply p_block_in, H.
  - cbv zeta. apply p_again; [|exact HI]. apply p_block_in, H.
  - cbv zeta. apply p_again; [|exact HI]. apply p_block_in, H.
  - apply p_block_out, H.
  - apply p_block_out, H.
  - cbv zeta. apply p_again; [|exact HI]. apply p_block_out, H.
  - cbv zeta. apply p_again; [|exact HI]. apply p_block_out, H.
Qed.
Lemma rst_all (t : list op) c : t = tab_00 \/ t = tab_ed \/ t = tab_xd -> rst_ok (op_at t c).
Proof.
  intros Ht. unfold op_at. destruct (nth_in_or_default (Z.to_nat c) t INV) as [K|K]; [|rewrite K; exact I].
  set (o := nth _ _ _) in *. clearbody o.
  assert (B : forallb (fun o => match o with RST n => (0 <=? n) && (n <? 65536) | _ => true end) (tab_00 ++ tab_ed ++ tab_xd) = true) by (vm_compute; reflexivity).
  rewrite forallb_forall in B. specialize (B o).
  assert (In o (tab_00 ++ tab_ed ++ tab_xd)) as HI by (rewrite !in_app_iff; destruct Ht as [-> | [-> | ->] ]; tauto).
  specialize (B HI). destruct o; try exact I. cbn [rst_ok]. unfold word. lia.
Qed.
Lemma rel_none (t : list op) c : t = tab_ed \/ t = tab_xd -> ~ relative (op_at t c).
Proof.
  intros Ht. unfold op_at. destruct (nth_in_or_default (Z.to_nat c) t INV) as [K|K]; [|rewrite K; intros []].
  set (o := nth _ _ _) in *. clearbody o.
  assert (B : forallb (fun o => match o with JR _ | DJNZ => false | _ => true end) (tab_ed ++ tab_xd) = true) by (vm_compute; reflexivity).
  rewrite forallb_forall in B. specialize (B o).
  assert (In o (tab_ed ++ tab_xd)) as HI by (rewrite !in_app_iff; destruct Ht as [-> | ->]; tauto).
  specialize (B HI). destruct o; first [discriminate B|intros []].
Qed.
Lemma p_run ipc c s : wfa s -> P ipc -> (relative (op_at tab_00 c) -> forall v, P (u32 v)) -> wfa (snd (run dum lim hit ipc c s)).
Proof.
  intros H HI HU. unfold run. pose proof (PF s H) as [F1 F2].
  pose proof (rst_all tab_00 c ltac:(tauto)) as R0.
  set (o := op_at tab_00 c) in *.
  assert (G : wfa (snd (exec false ipc o s))) by (apply p_exec; assumption).
  destruct o; try exact G; destruct (hit (PC s)); try exact H; destruct (fetch dum s) as [c1 s1]; cbn [fst snd] in *.
  - apply p_exec_cb, F1.
  - pose proof (rst_all tab_xd c1 ltac:(tauto)) as R1. set (o := op_at tab_xd c1) in *.
    assert (N1 : relative o -> forall v, P (u32 v)) by (intros K; exfalso; revert K; apply (rel_none tab_xd c1); tauto).
    assert (G1 : wfa (snd (exec iy ipc o s1))) by (apply p_exec; assumption).
    destruct o; try exact G1. pose proof (PF s1 F1) as [F3 F4]. destruct (fetch dum s1) as [d s2]. cbn [fst snd] in *.
    destruct (hit (PC s2)); [exact F3|]. pose proof (PF s2 F3) as [F5 F6]. destruct (fetch dum s2) as [c3 s3]. cbn [fst snd] in *. apply p_exec_xcb, F5.
  - apply p_exec; try assumption; [apply rst_all; tauto|]. intros K. exfalso. revert K. apply rel_none. tauto.
Qed.
Lemma p_step s : wfa s -> (relative (op_at tab_00 (rd dum s (PC s))) -> forall v, P (u32 v)) -> wfa (snd (step dum lim hit s)).
Proof.
  intros H HU. unfold step. destruct (hit (PC s)); [exact H|]. pose proof (PF s H) as [F1 F2]. change (rd dum s (PC s)) with (fst (fetch dum s)) in HU.
  destruct (fetch dum s) as [c s1]. cbn [fst snd] in *. cbv zeta.
  match goal with |- context [run dum lim hit (PC s) c ?q] => assert (K : wfa (snd (run dum lim hit (PC s) c q))) end.
  { apply p_run; [|apply H|exact HU]. apply p_ct, p_ib, p_rr; [apply p_ticks, F1|]. cbn [rr set_ticks]. apply inc_R_byte. destruct F1 as [ (_ & _ & _ & _ & _ & _ & _ & _ & _ & _ & F1 & _) _]. exact F1. }
  destruct (run dum lim hit (PC s) c _) as [r0 s2]. apply p_ticks, K.
Qed.
End Z.
Lemma p_steps dum lim hit : byte dum -> forall n s, wfP anyPC s -> wfP anyPC (after dum lim hit n s).
Proof.
  intros HD n. induction n as [|n IH]; intros s H; [exact H|]. apply IH. apply (p_step dum lim hit HD anyPC any_word s H). intros _. apply any_u32.
Qed.
