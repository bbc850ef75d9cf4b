(** Z80: every instruction of the model against the manual, continued. *)
From Verif Require Import Base Z80Model Z80Spec Z80Proofs Z80Proofs2 Z80Proofs3 Z80Proofs4 Z80Proofs5.

Section Z.
Variable dum lim : Z.
Notation exec := (Z80Model.exec dum lim).
Notation good y o ipc s := (agree (~ differs_flags y o (abs s)) (abs (snd (exec y ipc o s))) (sem y o (abs s))).
Ltac eqcase := apply agree_eq; cbn [Z80Model.exec snd sem]; try reflexivity.
Ltac fet1 W := let E1 := fresh "E1" in let E2 := fresh "E2" in let W1 := fresh "W1" in let B := fresh "B" in let EF := fresh "EF" in
  destruct (fetch_eq dum _ W) as (E1 & E2 & W1 & B & EF);
  match goal with |- context [fetch dum ?s] => destruct (fetch dum s) as [jj s1] end;
  match goal with |- context [next8 ?x] => destruct (next8 x) as [jj' x1] end;
  cbn [fst snd] in *; match type of E1 with _ = ?v => subst v end; match type of E2 with _ = ?v => subst v end.
Ltac fet2 W := let E1 := fresh "E1" in let E2 := fresh "E2" in let W1 := fresh "W1" in let B := fresh "B" in let EF := fresh "EF" in
  destruct (fetch2_eq dum _ W) as (E1 & E2 & W1 & B & EF);
  match goal with |- context [fetch2 dum ?s] => destruct (fetch2 dum s) as [jj s1] end;
  match goal with |- context [next16 ?x] => destruct (next16 x) as [jj' x1] end;
  cbn [fst snd] in *; match type of E1 with _ = ?v => subst v end; match type of E2 with _ = ?v => subst v end.

Lemma ex_ALU y k l ipc s : wf s -> good y (ALU k l) ipc s.
Proof.
  intros W. pose proof (resolve_eq dum y l s W) as R. pose proof (operand_f y l (abs s)) as O.
  unfold differs_flags, value. cbn [Z80Model.exec sem].
  destruct (resolve dum y l s) as [p s1]. destruct (operand y l (abs s)) as [ [rd1 wr1] x1].
  destruct R as (<- & W1 & EF & RG & RW). destruct O as (Of & _). cbn [snd].
  destruct (RG s1 W1) as [E B]. rewrite <- E.
  refine (agree_weak _ _ _ _ _ (alu8_eq k (getp dum y p s1) s1 W1 B)).
  rewrite Of. destruct k; tauto.
Qed.
Lemma ex_16 y o d p ipc s : wf s -> o = INCp p \/ o = DECp p \/ (o = ADDp d p /\ d <> RSP) \/ (y = false /\ (o = SBCp p \/ o = ADCp p)) -> good y o ipc s.
Proof.
  intros W. pose proof (W_range y p s W) as HW.
  intros [-> | [-> | [ [-> Hd] | [-> [-> | ->] ] ] ] ].
  - eqcase. rewrite wW_setpair, W_pairv. reflexivity.
  - eqcase. rewrite wW_setpair, W_pairv. reflexivity.
  - cbn [Z80Model.exec snd sem]. rewrite <- W_pairv. refine (agree_weak _ _ _ _ _ (add16_eq y d _ s W HW Hd)). tauto.
  - cbn [Z80Model.exec snd sem differs_flags]. rewrite <- W_pairv. apply sbc16_eq; assumption.
  - cbn [Z80Model.exec snd sem differs_flags]. rewrite <- W_pairv. apply adc16_eq; assumption.
Qed.
Lemma ex_rotA y o ipc s : wf s -> o = RLCA \/ o = RRCA \/ o = RLA \/ o = RRA -> good y o ipc s.
Proof.
  intros W H.
  assert (K : forall k c0, 0 <= k < 4 -> c0 = 0 \/ c0 = 1 ->
     let '(v, c) := rot k (A s) c0 in let '(v', c') := rotated k (acc (abs s)) c0 in
     agree True (abs (rot_A v c s)) (rot_acc v' c' (abs s))) by (intros; apply rot_A_eq; assumption).
  destruct H as [-> | [-> | [-> | ->] ] ]; cbn [Z80Model.exec snd sem differs_flags].
  - refine (agree_weak _ _ _ _ _ (K 0 0 ltac:(lia) ltac:(lia))). tauto.
  - refine (agree_weak _ _ _ _ _ (K 1 0 ltac:(lia) ltac:(lia))). tauto.
  - refine (agree_weak _ _ _ _ _ (K 2 (cy s) ltac:(lia) (c01 s))). tauto.
  - refine (agree_weak _ _ _ _ _ (K 3 (cy s) ltac:(lia) (c01 s))). tauto.
Qed.
Lemma ex_DAA ipc s : wf s -> good false DAA ipc s.
Proof. intros W. cbn [Z80Model.exec snd sem]. apply daa_eq, W. Qed.
Lemma ex_fl y o ipc s : wf s -> o = CPL \/ o = SCF \/ o = CCF -> good y o ipc s.
Proof.
  intros W H. pose proof (wf_A s W) as HA. apply agree_ff.
  - destruct H as [-> | [-> | ->] ]; cbn [Z80Model.exec snd sem]; try reflexivity.
    rewrite wR_byte by (unfold byte in *; lia). reflexivity.
  - intros _. destruct H as [-> | [-> | ->] ]; cbn [Z80Model.exec snd sem];
    try (rewrite wR_byte by (unfold byte in *; lia)); byteflags; try reflexivity; destruct (Z.testbit (F s) 0); reflexivity.
Qed.
Lemma ex_NEG y ipc s : wf s -> good y NEG ipc s.
Proof.
  intros W. pose proof (wf_A s W) as HA. apply agree_ff; cbn [Z80Model.exec snd sem].
  - change (acc (abs s)) with (A s). unfold wR. rewrite u8_u8. reflexivity.
  - intros _. change (acc (abs s)) with (A s). pose proof (u8_range (- A s)) as HR. change ((- A s) mod 256) with (u8 (- A s)).
    byteflags; try reflexivity. apply bit7, HR.
Qed.
Lemma ex_misc y o n ipc s : wf s -> o = NOP \/ o = HALT \/ o = DI \/ o = EI \/ o = IM n \/ o = LDIA \/ o = LDRA -> good y o ipc s.
Proof. intros W. intros [-> | [-> | [-> | [-> | [-> | [-> | ->] ] ] ] ] ]; eqcase. Qed.
Lemma ex_LDAI y o ipc s : wf s -> o = LDAI \/ o = LDAR -> good y o ipc s.
Proof.
  intros W H. assert (HI : byte (iv s)) by apply W. assert (HR : byte (rr s)) by apply W.
  destruct H as [-> | ->]; (apply agree_ff; cbn [Z80Model.exec snd sem]).
  - change (vi (abs s)) with (iv s). unfold wR. rewrite u8_id by exact HI. reflexivity.
  - intros _. change (vi (abs s)) with (iv s). byteflags; try reflexivity; apply bit7, HI.
  - change (vr (abs s)) with (rr s). unfold wR. rewrite u8_id by exact HR. reflexivity.
  - intros _. change (vr (abs s)) with (rr s). byteflags; try reflexivity; apply bit7, HR.
Qed.
(** ** Jumps *)
Lemma cond_hold c s : cond_ok (Some c) -> holds c s = cond c (abs s).
Proof. intros H. apply holds_cond, H. Qed.
Lemma not_word (P : Prop) v : ~ (P /\ ~ word v) -> P -> word v.
Proof. intros H K. unfold word in *. destruct (Z.le_gt_cases 0 v), (Z.lt_ge_cases v 65536); try lia; exfalso; apply H; (split; [exact K|lia]). Qed.
Lemma ex_JR y c ipc s : wf s -> cond_ok c -> ~ differs y (JR c) (abs s) -> good y (JR c) ipc s.
Proof.
  intros W C D. apply agree_eq. cbn [differs] in D. unfold rel_target in D.
  assert (ED : w (pc (abs s) + 1) = pc (snd (next8 (abs s))) /\ mm (abs s) (pc (abs s)) = fst (next8 (abs s))) by (split; reflexivity).
  destruct ED as [ED1 ED2]. rewrite ED1, ED2 in D.
  assert (EC : condo c (abs s) = condo c (snd (next8 (abs s)))) by (destruct c; reflexivity). rewrite EC in D. clear ED1 ED2 EC.
  destruct c as [c|]; cbn [Z80Model.exec sem condo] in *; fet1 W; cbn [snd].
  - rewrite (cond_hold c) by exact C. unfold jump_if. destruct (cond c (abs s1)) eqn:EH in D |- *; [|reflexivity].
    assert (HW : word (PC s1 + sgn jj)) by (apply (not_word _ _ D); first [exact EH|exact HB|reflexivity]).
    exact (jrel_eq jj s1 W1 B HW).
  - assert (HW : word (PC s1 + sgn jj)) by (apply (not_word _ _ D); first [exact EH|exact HB|reflexivity]).
    exact (jrel_eq jj s1 W1 B HW).
Qed.
Lemma wf_wR n v s : wf s -> wf (wR n v s).
Proof.
  intros W. unfold wf, wR in *. cbn. decompose [and] W. split; [|repeat (split; [assumption|]); assumption].
  intros k. destruct (k =? n); [apply u8_range|auto].
Qed.
Lemma ex_DJNZ y ipc s : wf s -> ~ differs y DJNZ (abs s) -> good y DJNZ ipc s.
Proof.
  intros W D. apply agree_eq. cbn [differs] in D. unfold rel_target in D.
  assert (ED : w (pc (abs s) + 1) = pc (snd (next8 (abs s))) /\ mm (abs s) (pc (abs s)) = fst (next8 (abs s)) /\ r (abs s) 0 = r (snd (next8 (abs s))) 0) by (split; [|split]; reflexivity).
  destruct ED as (ED1 & ED2 & ED3). rewrite ED1, ED2, ED3 in D. clear ED1 ED2 ED3.
  cbn [Z80Model.exec sem] in *; fet1 W; cbn [snd].
  change (setr 0 ((r (abs s1) 0 - 1) mod 256) (abs s1)) with (abs (wR 0 (rg s1 0 - 1) s1)).
  set (s2 := wR 0 (rg s1 0 - 1) s1). assert (W2 : wf s2) by apply wf_wR, W1.
  unfold jump_if. change (left_b (abs s2)) with (b_left s2). destruct (b_left s2) eqn:EB; [|reflexivity].
  assert (HB : rg s1 0 <> 1). { intros E. unfold b_left, s2, wR in EB. cbn [rg set_rg] in EB. rewrite E in EB. discriminate EB. }
  assert (HW : word (PC s2 + sgn jj)) by (apply (not_word _ _ D); first [exact EH|exact HB|reflexivity]).
  exact (jrel_eq jj s2 W2 B HW).
Qed.
Lemma ex_JP y c ipc s : wf s -> cond_ok c -> good y (JP c) ipc s.
Proof.
  intros W C. apply agree_eq. destruct c as [c|]; cbn [Z80Model.exec sem condo] in *; fet2 W; cbn [snd]; unfold jump_if.
  - rewrite (cond_hold c) by exact C. destruct (cond c (abs s1)); [|reflexivity]. rewrite w_id by exact B. reflexivity.
  - rewrite w_id by exact B. reflexivity.
Qed.
Lemma ex_JPp y p ipc s : good y (JPp p) ipc s.
Proof. eqcase. Qed.
Lemma call_eq ipc s : wf s -> ~ (sp (abs s) = 1 \/ on_stack (pc (abs s)) (abs s) \/ on_stack (w (pc (abs s) + 1)) (abs s)) ->
  abs (set_PC (fst (fetch2 dum (push2 lim ipc (PC s + 2) s))) (snd (fetch2 dum (push2 lim ipc (PC s + 2) s)))) =
  s_pc (fst (next16 (abs s))) (push (pc (snd (next16 (abs s)))) (snd (next16 (abs s)))).
Proof.
  intros W D. destruct (push_fetch2 dum lim ipc s W) as [E1 E2].
  - intros H. apply D. left. exact H.
  - intros H. apply D. right. left. exact H.
  - intros H. apply D. right. right. exact H.
  - rewrite E1. rewrite <- E2. reflexivity.
Qed.
Lemma ex_CALL y c ipc s : wf s -> cond_ok c -> ~ differs y (CALL c) (abs s) -> good y (CALL c) ipc s.
Proof.
  intros W C D. apply agree_eq. cbn [differs] in D. destruct c as [c|]; cbn [Z80Model.exec sem condo] in *.
  - rewrite (cond_hold c) by exact C. change (next16 (abs s)) with (fst (next16 (abs s)), snd (next16 (abs s))). cbv iota.
    assert (EH : cond c (snd (next16 (abs s))) = cond c (abs s)) by reflexivity.
    rewrite EH. destruct (cond c (abs s)) eqn:EC.
    + refine (eq_trans _ (call_eq ipc s W _)); [|tauto]. destruct (fetch2 dum (push2 lim ipc (PC s + 2) s)). reflexivity.
    + destruct (fetch2_eq dum s W) as (_ & E & _). destruct (fetch2 dum s). exact E.
  - refine (eq_trans _ (call_eq ipc s W _)); [|tauto]. destruct (fetch2 dum (push2 lim ipc (PC s + 2) s)). reflexivity.
Qed.
Lemma ex_RET y c ipc s : wf s -> cond_ok c -> ~ differs y (RET c) (abs s) -> good y (RET c) ipc s.
Proof.
  intros W C D. apply agree_eq. cbn [differs sp abs] in D. destruct c as [c|]; cbn [Z80Model.exec sem condo] in *.
  - rewrite (cond_hold c) by exact C. destruct (cond c (abs s)) eqn:EC; [|reflexivity].
    destruct (pop2_eq dum s W) as (E1 & E2 & B); [tauto|].
    destruct (pop2 dum s) as [v s1]. destruct (pop (abs s)) as [v' x1]. cbn [fst snd] in *. subst. reflexivity.
  - destruct (pop2_eq dum s W) as (E1 & E2 & B); [tauto|].
    destruct (pop2 dum s) as [v s1]. destruct (pop (abs s)) as [v' x1]. cbn [fst snd] in *. subst. reflexivity.
Qed.
Lemma ex_RST y n ipc s : wf s -> ~ differs y (RST n) (abs s) -> good y (RST n) ipc s.
Proof.
  intros W D. eqcase. cbn [differs sp abs] in D.
  change (abs (set_PC n (push2 lim ipc (PC s) s))) with (s_pc n (abs (push2 lim ipc (PC s) s))).
  rewrite push2_eq by assumption. rewrite w_id by apply wf_PC, W. reflexivity.
Qed.
(** ** Ports *)
Lemma ex_IO y o n ipc s : wf s -> o = OUT \/ o = IN \/ o = OUTC n -> good y o ipc s.
Proof.
  intros W [-> | [-> | ->] ]; eqcase.
  - fet1 W. unfold wO. rewrite u8_id by apply (wf_A _ W1). reflexivity.
  - fet1 W. rewrite wR_byte by apply W1. reflexivity.
  - unfold wO. rewrite u8_id; [reflexivity|]. destruct (n =? 6); [apply byte_const; reflexivity|apply W].
Qed.
Lemma ex_INrC y n ipc s : wf s -> good y (INrC n) ipc s.
Proof.
  intros W. cbn [differs_flags Z80Model.exec snd sem]. apply agree_ff; [|tauto].
  assert (HB : byte (inp s (rg s 1))) by apply W.
  destruct (n =? 6); [reflexivity|]. unfold wR. rewrite u8_id by exact HB. reflexivity.
Qed.
(** ** RRD, RLD *)
Lemma ex_RRD o ipc s : wf s -> o = RRD \/ o = RLD -> good false o ipc s.
Proof.
  intros W H. pose proof (W_range false HL s W) as HW. pose proof (wf_A s W) as HA.
  pose proof (wf_mem s (Z80Model.W false HL s) W) as HM. unfold byte in HA, HM.
  assert (EA : A s = 16 * (A s / 16) + A s mod 16) by (apply Z.div_mod; lia).
  pose proof (Z.mod_pos_bound (A s) 16 ltac:(lia)) as BA. pose proof (Z.mod_pos_bound (mem s (Z80Model.W false HL s)) 16 ltac:(lia)) as BM.
  assert (BD : 0 <= A s / 16 < 16) by lia. assert (EM := Z.div_mod (mem s (Z80Model.W false HL s)) 16 ltac:(lia)).
  assert (BE : 0 <= mem s (Z80Model.W false HL s) / 16 < 16) by lia.
  destruct H as [-> | ->]; (cbn [differs_flags Z80Model.exec snd sem]; apply agree_ff; [|tauto]);
  rewrite wR_byte by (rewrite ?rd_mm by exact HW; unfold byte; cbn [mm abs]; lia);
  rewrite ?rd_mm by exact HW; rewrite wr_setm by exact HW; cbn [mm abs]; rewrite <- W_pairv;
  change (acc (abs s)) with (A s); cbn [mm abs].
  - replace ((mem s (Z80Model.W false HL s) / 16 + 16 * A s) mod 256) with (16 * (A s mod 16) + mem s (Z80Model.W false HL s) / 16); [reflexivity|].
    apply Z.mod_unique with (q := A s / 16); lia.
  - replace ((16 * mem s (Z80Model.W false HL s) + A s mod 16) mod 256) with (16 * (mem s (Z80Model.W false HL s) mod 16) + A s mod 16); [reflexivity|].
    apply Z.mod_unique with (q := mem s (Z80Model.W false HL s) / 16); lia.
Qed.
End Z.
