(** Z80: the state keeps its form. *)
From Verif Require Import Base Z80Model Z80Spec Z80Proofs Z80Proofs2 Z80Proofs3 Z80Proofs4 Z80Proofs5 Z80Proofs6 Z80Proofs7 Z80Proofs8 Z80Proofs9.

Definition wfP (P : Z -> Prop) (s : cpu) : Prop := wf (set_PC 0 s) /\ P (PC s).
Lemma word0 : word 0. Proof. unfold word. lia. Qed.
Lemma wfP_word s : wf s <-> wfP word s.
Proof.
  split; intros H.
  - split; [apply wf_set_PC; [exact H|exact word0]|apply wf_PC, H].
  - destruct H as [H K]. exact (wf_set_PC (set_PC 0 s) (PC s) H K).
Qed.
Lemma wfP_weak (P Q : Z -> Prop) s : (P (PC s) -> Q (PC s)) -> wfP P s -> wfP Q s.
Proof. intros H [K L]. split; [exact K|apply H, L]. Qed.
Ltac go := unfold wfP, wf in *; cbn [set_PC set_rg set_F set_IX set_IY set_SP set_mem set_arg set_aF set_iv set_rr set_iff1 set_iff2 set_im set_ib set_inp set_outp set_ct set_ticks set_errs
   rg F IX IY SP PC mem arg aF iv rr iff1 iff2 im ib inp outp ct ticks errs] in *;
  match goal with H : _ /\ _ |- _ => decompose [and] H end;
  repeat match goal with |- _ /\ _ => split end; try assumption; try exact word0; auto.

Section Z.
Variable P : Z -> Prop.
Notation wfp := (wfP P).
Lemma p_PC v s : wfp s -> P v -> wfp (set_PC v s).  Proof. intros. go. Qed.
Lemma p_rg v s : wfp s -> (forall n, byte (v n)) -> wfp (set_rg v s).  Proof. intros. go. Qed.
Lemma p_arg v s : wfp s -> (forall n, byte (v n)) -> wfp (set_arg v s).  Proof. intros. go. Qed.
Lemma p_mem v s : wfp s -> (forall n, byte (v n)) -> wfp (set_mem v s).  Proof. intros. go. Qed.
Lemma p_F v s : wfp s -> byte v -> wfp (set_F v s).  Proof. intros. go. Qed.
Lemma p_aF v s : wfp s -> byte v -> wfp (set_aF v s).  Proof. intros. go. Qed.
Lemma p_iv v s : wfp s -> byte v -> wfp (set_iv v s).  Proof. intros. go. Qed.
Lemma p_rr v s : wfp s -> byte v -> wfp (set_rr v s).  Proof. intros. go. Qed.
Lemma p_IX v s : wfp s -> word v -> wfp (set_IX v s).  Proof. intros. go. Qed.
Lemma p_IY v s : wfp s -> word v -> wfp (set_IY v s).  Proof. intros. go. Qed.
Lemma p_SP v s : wfp s -> word v -> wfp (set_SP v s).  Proof. intros. go. Qed.
Lemma p_ct v s : wfp s -> wfp (set_ct v s).  Proof. intros. go. Qed.
Lemma p_ib v s : wfp s -> wfp (set_ib v s).  Proof. intros. go. Qed.
Lemma p_iff1 v s : wfp s -> wfp (set_iff1 v s).  Proof. intros. go. Qed.
Lemma p_iff2 v s : wfp s -> wfp (set_iff2 v s).  Proof. intros. go. Qed.
Lemma p_im v s : wfp s -> wfp (set_im v s).  Proof. intros. go. Qed.
Lemma p_outp v s : wfp s -> wfp (set_outp v s).  Proof. intros. go. Qed.
Lemma p_ticks v s : wfp s -> wfp (set_ticks v s).  Proof. intros. go. Qed.
Lemma p_errs v s : wfp s -> wfp (set_errs v s).  Proof. intros. go. Qed.
Lemma p_wR n v s : wfp s -> wfp (wR n v s).
Proof. intros H. apply p_rg; [exact H|]. intros k. destruct (k =? n); [apply u8_range|apply H]. Qed.
Lemma u16_range v : word (u16 v). Proof. exact (w_range v). Qed.
Lemma p_wW y p v s : wfp s -> wfp (wW y p v s).
Proof.
  intros H. destruct p; cbn [wW]; try (apply p_rg; [exact H|]; intros k; destruct (k =? _); [apply u8_range|]; destruct (k =? _); [apply u8_range|apply H]).
  - apply p_SP; [exact H|apply u16_range].
  - destruct y; [apply p_IY|apply p_IX]; try exact H; apply u16_range.
Qed.
Lemma p_wr a v s : wfp s -> wfp (wr a v s).
Proof. intros H. unfold wr. destruct (inmem a); [|exact H]. apply p_mem; [exact H|]. intros k. destruct (k =? a); [apply u8_range|apply H]. Qed.
Lemma p_store2 a v s : wfp s -> wfp (store2 a v s).
Proof. intros H. unfold store2. apply p_wr, p_wr, H. Qed.
Lemma p_putp y q v s : wfp s -> wfp (putp y q v s).
Proof. intros H. destruct q; cbn [putp]; [apply p_wR|apply p_wW|apply p_wW|apply p_wr|]; exact H. Qed.
Lemma p_wO p v s : wfp s -> wfp (wO p v s).
Proof. intros H. apply p_outp, H. Qed.
Lemma p_W y p s : wfp s -> word (Z80Model.W y p s).
Proof. intros [H _]. exact (W_range y p (set_PC 0 s) H). Qed.
Lemma p_A s : wfp s -> byte (A s). Proof. intros [H _]. apply H. Qed.
Lemma p_Fb s : wfp s -> byte (F s). Proof. intros [H _]. apply H. Qed.
Lemma p_orF c m s : wfp s -> byte m -> wfp (orF c m s).
Proof. intros H Hm. unfold orF. apply p_F; [exact H|]. pose proof (p_Fb _ H). fbyte. Qed.
Lemma p_cy s : cy s = 0 \/ cy s = 1. Proof. exact (c01 s). Qed.
Lemma p_add_A c v s : wfp s -> wfp (add_A c v s).
Proof. intros H. unfold add_A. cbv zeta. apply p_F; [apply p_wR, H|]. pose proof (p_Fb _ H). fbyte. Qed.
Lemma p_sub_A c v s : wfp s -> wfp (sub_A c v s).
Proof. intros H. unfold sub_A. cbv zeta. apply p_F; [apply p_wR, H|]. pose proof (p_Fb _ H). fbyte. Qed.
Lemma p_cp_A v s : wfp s -> wfp (cp_A v s).
Proof. intros H. unfold cp_A. cbv zeta. apply p_F; [exact H|]. pose proof (p_Fb _ H). destruct (A s <? v); fbyte. Qed.
Lemma p_logic h r0 s : wfp s -> byte h -> byte r0 -> wfp (logic h r0 s).
Proof. intros H Hh Hr. unfold logic. cbv zeta. apply p_F; [apply p_wR, H|]. pose proof (p_Fb _ H). fbyte. Qed.
Lemma p_alu8 k v s : wfp s -> byte v -> wfp (alu8 k v s).
Proof.
  intros H Hv. pose proof (p_A s H) as HA. destruct k; cbn [alu8].
  - apply p_add_A, H. - apply p_add_A, H. - apply p_sub_A, H. - apply p_sub_A, H.
  - apply p_logic; [exact H|apply byte_const; reflexivity|apply land_byte; assumption].
  - apply p_logic; [exact H|apply byte_const; reflexivity|apply lxor_byte; assumption].
  - apply p_logic; [exact H|apply byte_const; reflexivity|apply lor_byte; assumption].
  - apply p_cp_A, H.
Qed.
Lemma p_add16 y d v s : wfp s -> wfp (Z80Model.add16 y d v s).
Proof. intros H. unfold Z80Model.add16. cbv zeta. apply p_wW, p_F; [exact H|]. pose proof (p_Fb _ H). fbyte. Qed.
Lemma p_adc16 v s : wfp s -> wfp (Z80Model.adc16 v s).
Proof. intros H. unfold Z80Model.adc16. cbv zeta. apply p_wW, p_F; [exact H|]. pose proof (p_Fb _ H). fbyte. Qed.
Lemma p_sbc16 v s : wfp s -> wfp (Z80Model.sbc16 v s).
Proof. intros H. unfold Z80Model.sbc16. cbv zeta. apply p_wW, p_F; [exact H|]. pose proof (p_Fb _ H). fbyte. Qed.
Lemma p_rot_A v c s : wfp s -> wfp (rot_A v c s).
Proof. intros H. unfold rot_A. apply p_F; [apply p_wR, H|]. pose proof (p_Fb _ H). fbyte. Qed.
Lemma p_daa s : wfp s -> wfp (Z80Model.daa s).
Proof.
  intros H. unfold Z80Model.daa. cbv zeta.
  match goal with |- wfp (set_F _ ?q) => assert (K : wfp q) end.
  { destruct (Z.testbit (F s) 1); [apply p_sub_A|apply p_add_A]; exact H. }
  apply p_F; [exact K|]. pose proof (p_Fb _ H) as B1. pose proof (p_Fb _ K) as B2. fbyte.
Qed.
Lemma p_chk lim ipc b s : wfp s -> wfp (chk lim ipc b s).
Proof. intros H. unfold chk. destruct (SP s <? lim); [apply p_errs, H|exact H]. Qed.
Lemma p_push2 lim ipc v s : wfp s -> wfp (push2 lim ipc v s).
Proof. intros H. unfold push2. cbv zeta. apply p_chk, p_store2, p_SP; [exact H|apply u16_range]. Qed.
Lemma p_push1 lim ipc v s : wfp s -> wfp (push1 lim ipc v s).
Proof. intros H. unfold push1. cbv zeta. apply p_chk, p_wr, p_SP; [exact H|apply u16_range]. Qed.
Variable dum : Z.
Hypothesis HD : byte dum.
Hypothesis HP : forall v, word v -> P v.
Lemma p_rd a s : wfp s -> byte (rd dum s a).
Proof. intros [H _]. unfold rd. destruct (inmem a); [apply H|exact HD]. Qed.
Lemma p_getp y q s : wfp s -> (match q with PV v => byte v | _ => True end) -> byte (getp dum y q s).
Proof.
  intros H K. destruct q; cbn [getp].
  - apply H.
  - pose proof (word_parts _ (p_W y XX s H)). tauto.
  - pose proof (word_parts _ (p_W y XX s H)). tauto.
  - apply p_rd, H.
  - exact K.
Qed.
Lemma p_fetch s : wfp s -> wfp (snd (fetch dum s)) /\ byte (fst (fetch dum s)).
Proof. intros H. split; [apply p_PC; [exact H|apply HP; exact (w_range _)]|apply p_rd, H]. Qed.
Lemma p_fetch2 s : wfp s -> wfp (snd (fetch2 dum s)) /\ word (fst (fetch2 dum s)).
Proof.
  intros H. destruct (p_fetch s H) as [H1 B1]. unfold fetch2. destruct (fetch dum s) as [l s1]. cbn [fst snd] in *.
  destruct (p_fetch s1 H1) as [H2 B2]. destruct (fetch dum s1) as [h s2]. cbn [fst snd] in *.
  split; [exact H2|]. apply join; assumption.
Qed.
Lemma p_pop2 s : wfp s -> wfp (snd (pop2 dum s)) /\ word (fst (pop2 dum s)).
Proof.
  intros H. split; [apply p_SP; [exact H|apply u16_range]|]. apply join; apply p_rd, H.
Qed.
Lemma p_resolve y l s : wfp s -> let '(q, s1) := resolve dum y l s in wfp s1 /\ (match q with PV v => byte v | _ => True end).
Proof.
  intros H. destruct (p_fetch s H) as [H1 B1]. destruct l; cbn [resolve]; try (split; [exact H|exact I]).
  - destruct (fetch dum s). split; [exact H1|exact I].
  - destruct (fetch dum s). split; [exact H1|exact B1].
Qed.
Lemma p_block_ld d s : wfp s -> wfp (block_ld dum d s).
Proof.
  intros H. unfold block_ld. cbv zeta. apply p_wW, p_wW, p_wW, p_wr, p_F; [exact H|]. pose proof (p_Fb _ H). fbyte.
Qed.
Lemma p_again c ipc s : wfp s -> P ipc -> wfp (again c ipc s).
Proof. intros H K. unfold again. destruct c; [apply p_ct, p_PC; assumption|exact H]. Qed.
Lemma p_block_in d s : wfp s -> wfp (block_in d s).
Proof.
  intros H. unfold block_in. cbv zeta.
  match goal with |- wfp (set_F _ ?q) => assert (K : wfp q) end.
  { apply p_wR, p_wW, p_F; [apply p_wr, H|]. pose proof (p_Fb _ (p_wr (Z80Model.W false HL s) (inp s (rg s 1)) s H)). fbyte. }
  apply p_F; [exact K|]. pose proof (p_Fb _ K). fbyte.
Qed.
Lemma p_block_out k d s : wfp s -> wfp (block_out dum k d s).
Proof.
  intros H. unfold block_out. cbv zeta. apply p_wW, p_F; [apply p_wO, p_wR, H|]. pose proof (p_Fb _ H). cbn [F wO wR set_outp set_rg]. fbyte.
Qed.
Lemma p_cpi s : wfp s -> wfp (cpi dum s).
Proof. intros H. unfold cpi. cbv zeta. apply p_orF; [|apply byte_const; reflexivity]. apply p_wW, p_wW, p_cp_A, H. Qed.
Lemma p_cpd s : wfp s -> wfp (cpd dum s).
Proof. intros H. unfold cpd. cbv zeta. apply p_orF; [|apply byte_const; reflexivity]. apply p_wW, p_wW, p_F; [exact H|]. pose proof (p_Fb _ H). fbyte. Qed.
Lemma p_cpir ipc s : wfp s -> P ipc -> wfp (cpir dum ipc s).
Proof.
  intros H K. unfold cpir. cbv zeta. apply p_again; [|exact K]. apply p_orF; [|apply byte_const; reflexivity]. apply p_wW, p_wW, p_F; [exact H|]. pose proof (p_Fb _ H). fbyte.
Qed.
Lemma p_cpdr ipc s : wfp s -> P ipc -> wfp (cpdr dum ipc s).
Proof.
  intros H K. unfold cpdr. cbv zeta. apply p_again; [|exact K].
  match goal with |- wfp (if ?g then ?q else _) => assert (G : wfp q) end.
  { apply p_F; [exact H|]. pose proof (p_Fb _ H). fbyte. }
  destruct (_ =? 0); [exact G|]. apply p_wW, p_wW, G.
Qed.
Lemma p_exec_cb c s : wfp s -> wfp (exec_cb dum c s).
Proof.
  intros H. pose proof (p_Fb _ H) as HF. unfold exec_cb. cbv zeta.
  set (p := if c mod 8 =? 6 then _ else _). set (v := getp dum false p s).
  destruct (c <? 64); [|destruct (c <? 128); [|destruct (c <? 192)] ].
  - destruct (rot _ v (cy s)) as [t co].
    assert (G : forall t' pa q, wfp q -> wfp (set_F (rot_f t' co pa (F s)) q)).
    { intros t' pa q Hq. apply p_F; [exact Hq|]. unfold rot_f. cbv zeta. fbyte. }
    destruct (c mod 8 =? 6); [apply p_putp, G, H|apply G, p_putp, H].
  - assert (G : wfp (set_F (bit_f v (c / 8 mod 8) (F s)) s)) by (apply p_F; [exact H|apply bit_f_byte, HF]).
    destruct (c mod 8 =? 6); [apply p_putp, G|exact G].
  - apply p_putp, H.
  - apply p_putp, H.
Qed.
Lemma p_exec_xcb a c s : wfp s -> wfp (exec_xcb dum a c s).
Proof.
  intros H. pose proof (p_Fb _ H) as HF. unfold exec_xcb. cbv zeta.
  assert (G6 : forall n v q, wfp q -> wfp (if c mod 8 =? 6 then q else wR n v q)) by (intros; destruct (c mod 8 =? 6); [assumption|apply p_wR; assumption]).
  destruct (c <? 64); [|destruct (c <? 128); [|destruct (c <? 192)] ].
  - destruct (rot _ _ (cy s)) as [t co]. apply p_wr, G6, p_F; [exact H|]. unfold rot_f. cbv zeta. fbyte.
  - apply p_wr, p_F; [exact H|apply bit_f_byte, HF].
  - apply p_wr, G6, H.
  - apply p_wr, G6, H.
Qed.
End Z.
