(** Z80: every instruction of the model against the manual. *)
From Verif Require Import Base Z80Model Z80Spec Z80Proofs Z80Proofs2 Z80Proofs3 Z80Proofs4.

Section Z.
Variable dum lim : Z.
Notation exec := (Z80Model.exec dum lim).
Notation good y o ipc s := (agree (~ differs_flags y o (abs s)) (abs (snd (exec y ipc o s))) (sem y o (abs s))).

Ltac eqcase := apply agree_eq; cbn [Z80Model.exec snd sem]; try reflexivity.
(** a fetched byte or word *)
Ltac fet1 W := let E1 := fresh "E1" in let E2 := fresh "E2" in let W1 := fresh "W1" in let B := fresh "B" in let EF := fresh "EF" in
  destruct (fetch_eq dum _ W) as (E1 & E2 & W1 & B & EF);
  match goal with |- context [fetch dum ?s] => destruct (fetch dum s) as [?j ?s1] end;
  match goal with |- context [next8 ?x] => destruct (next8 x) as [?j' ?x1] end;
  cbn [fst snd] in *; subst.
Ltac fet2 W := let E1 := fresh "E1" in let E2 := fresh "E2" in let W1 := fresh "W1" in let B := fresh "B" in let EF := fresh "EF" in
  destruct (fetch2_eq dum _ W) as (E1 & E2 & W1 & B & EF);
  match goal with |- context [fetch2 dum ?s] => destruct (fetch2 dum s) as [?j ?s1] end;
  match goal with |- context [next16 ?x] => destruct (next16 x) as [?j' ?x1] end;
  cbn [fst snd] in *; subst.

Lemma ex_LD y d l ipc s : wf s -> good y (LD d l) ipc s.
Proof.
  intros W. apply agree_eq. cbn [Z80Model.exec sem].
  pose proof (resolve_eq dum y d s W) as R. destruct (resolve dum y d s) as [p s1].
  destruct (operand y d (abs s)) as [ [rd1 wr1] x1]. destruct R as (<- & W1 & _ & _ & RW).
  pose proof (resolve_eq dum y l s1 W1) as R. destruct (resolve dum y l s1) as [q s2].
  destruct (operand y l (abs s1)) as [ [rd2 wr2] x2]. destruct R as (<- & W2 & _ & RG & _).
  cbn [snd]. destruct (RG s2 W2) as [E B]. rewrite <- E. apply RW; [exact W2|exact B].
Qed.
Lemma ex_LDi y p ipc s : wf s -> good y (LDi p) ipc s.
Proof. intros W. eqcase. fet2 W. rewrite wW_setpair, w_id by exact B. reflexivity. Qed.
Lemma ex_STp y p ipc s : wf s -> ~ differs y (STp p) (abs s) -> good y (STp p) ipc s.
Proof.
  intros W D. eqcase. cbn [differs] in D. unfold operand16 in D. fet2 W.
  rewrite store2_setm16 by assumption. rewrite W_pairv, w_id; [reflexivity|]. rewrite <- W_pairv. apply W_range, W1.
Qed.
Lemma ex_LDp y p ipc s : wf s -> ~ differs y (LDp p) (abs s) -> good y (LDp p) ipc s.
Proof.
  intros W D. eqcase. cbn [differs] in D. unfold operand16 in D. fet2 W.
  rewrite wW_setpair, get2_m16 by assumption. rewrite w_id; [reflexivity|]. apply m16_range, W1.
Qed.
Lemma ex_mem y o p ipc s : wf s -> o = STAp p \/ o = LDAp p \/ o = STA \/ o = LDA -> good y o ipc s.
Proof.
  intros W. pose proof (W_range y p s W) as HW.
  intros [-> | [-> | [-> | ->]]]; eqcase.
  - rewrite wr_byte by (try exact HW; apply W). rewrite W_pairv. reflexivity.
  - rewrite wR_byte by (rewrite rd_mm by exact HW; apply W). rewrite rd_mm by exact HW. rewrite W_pairv. reflexivity.
  - fet2 W. rewrite wr_byte by (try assumption; apply W1). reflexivity.
  - fet2 W. rewrite wR_byte by (rewrite rd_mm by assumption; apply W1). rewrite rd_mm by assumption. reflexivity.
Qed.
Lemma ex_LDSP y p ipc s : good y (LDSP p) ipc s.
Proof. eqcase. Qed.
Lemma ex_PUSH y p ipc s : wf s -> ~ differs y (PUSH p) (abs s) -> good y (PUSH p) ipc s.
Proof.
  intros W D. eqcase. rewrite push2_eq by assumption. rewrite W_pairv, w_id; [reflexivity|]. rewrite <- W_pairv. apply W_range, W.
Qed.
Lemma ex_POP y p ipc s : wf s -> ~ differs y (POP p) (abs s) -> good y (POP p) ipc s.
Proof.
  intros W D. eqcase. destruct (pop2_eq dum s W D) as (E1 & E2 & B).
  destruct (pop2 dum s) as [v s1]. destruct (pop (abs s)) as [v' x1]. cbn [fst snd] in *. subst.
  rewrite wW_setpair, w_id by exact B. reflexivity.
Qed.
Lemma push1_eq ipc v s : byte v -> abs (push1 lim ipc v s) = setm (w (SP s - 1)) v (s_sp (w (SP s - 1)) (abs s)).
Proof.
  intros Hv. unfold push1. rewrite abs_chk. cbn [SP set_SP]. change (u16 (SP s - 1)) with (w (SP s - 1)).
  rewrite wr_byte by (try exact Hv; apply w_range). reflexivity.
Qed.

(** equal but for the way memory was written *)
Lemma agree_mm (c : Prop) x y : s_mm (mm y) x = y -> (forall a, mm x a = mm y a) -> agree c x y.
Proof.
  intros E K. assert (P : forall A (g : M -> A), g (s_mm (mm y) x) = g y) by (intros; rewrite E; reflexivity).
  split; [|intros _; rewrite <- (P _ f); apply samef_refl].
  exact (conj (P _ r) (conj (P _ ix) (conj (P _ iy) (conj (P _ sp) (conj (P _ pc) (conj K (conj (P _ r') (conj (P _ f')
   (conj (P _ vi) (conj (P _ vr) (conj (P _ i1) (conj (P _ i2) (conj (P _ md) (conj (P _ pin) (P _ pout))))))))))))))).
Qed.
Lemma ex_PUSHAF y ipc s : wf s -> good y PUSHAF ipc s.
Proof.
  intros W. cbn [Z80Model.exec snd sem].
  assert (E : abs (push1 lim ipc (F s) (push1 lim ipc (A s) s)) =
    setm (w (SP s - 2)) (F s) (s_sp (w (SP s - 2)) (setm (w (SP s - 1)) (A s) (s_sp (w (SP s - 1)) (abs s))))).
  { rewrite push1_eq by apply W.
    assert (ES : SP (push1 lim ipc (A s) s) = w (SP s - 1)).
    { pose proof (f_equal sp (push1_eq ipc (A s) s (wf_A s W))) as E. exact E. }
    rewrite ES, push1_eq by (apply (wf_A s W)). rewrite w_w_sub. replace (SP s - 1 - 1) with (SP s - 2) by lia. reflexivity. }
  rewrite E. clear E.
  unfold push. change (byte_of (f (abs s))) with (byte_of (flags_of (F s))). cbn [s_sp sp abs].
  rewrite byte_flags by apply W.
  destruct (join (acc (abs s)) (F s)) as (_ & J1 & J2); [apply (wf_A s W)|apply W|].
  unfold setm16. rewrite J1, J2, w_w. replace (SP s - 2 + 1) with (SP s - 1) by lia.
  assert (NE : w (SP s - 2) <> w (SP s - 1)).
  { pose proof (wf_SP s W) as K. unfold word in K. unfold w. Z.div_mod_to_equations. lia. }
  apply agree_mm; [reflexivity|]. intros a. cbn [setm s_mm mm s_sp abs].
  destruct (Z.eqb_spec a (w (SP s - 2))), (Z.eqb_spec a (w (SP s - 1))); try congruence; reflexivity.
Qed.
Lemma ex_POPAF y ipc s : wf s -> good y POPAF ipc s.
Proof.
  intros W. eqcase. rewrite rd_mm by apply wf_SP, W.
  cbn [SP set_SP set_F]. change (u16 (SP s + 1)) with (w (SP s + 1)). rewrite rd_mm by apply w_range.
  cbn [mm abs mem set_SP set_F].
  unfold pop. destruct (join (mem s (w (SP s + 1))) (mem s (SP s))) as (_ & J1 & J2); [apply W|apply W|].
  unfold m16. cbn [sp mm abs]. rewrite (Z.add_comm (mem s (SP s))), J1, J2.
  unfold wR. rewrite (u8_id (mem s (w (SP s + 1)))) by apply W.
  change (u16 (w (SP s + 1) + 1)) with (w (w (SP s + 1) + 1)). rewrite w_w. replace (SP s + 1 + 1) with (SP s + 2) by lia. reflexivity.
Qed.
Lemma ex_EX y o ipc s : wf s -> o = EXAF \/ o = EXX \/ o = EXDEHL -> good y o ipc s.
Proof.
  intros W [-> | [-> | ->]]; eqcase.
  rewrite !wW_setpair, !W_pairv. rewrite !w_id by (rewrite <- W_pairv; apply W_range, W). reflexivity.
Qed.
Lemma ex_EXSP y p ipc s : wf s -> ~ differs y (EXSP p) (abs s) -> p <> RSP -> good y (EXSP p) ipc s.
Proof.
  intros W D Hp. eqcase. cbn [differs sp abs] in D.
  rewrite store2_setm16 by (try assumption; apply wf_SP, W).
  rewrite wW_setpair, get2_m16 by (try assumption; apply wf_SP, W). rewrite W_pairv.
  rewrite !w_id by (first [rewrite <- W_pairv; apply W_range, W|apply m16_range, W]).
  destruct p; try congruence; try reflexivity; destruct y; reflexivity.
Qed.
Lemma ex_INC y o l ipc s : wf s -> o = INC l \/ o = DEC l -> good y o ipc s.
Proof.
  intros W H. pose proof (resolve_eq dum y l s W) as R. pose proof (operand_f y l (abs s)) as O.
  destruct H as [-> | ->]; cbn [Z80Model.exec sem];
  destruct (resolve dum y l s) as [p s1]; destruct (operand y l (abs s)) as [ [rd1 wr1] x1];
  destruct R as (<- & W1 & EF & RG & RW); destruct O as (_ & O1 & O2 & _); cbn [snd];
  destruct (RG s1 W1) as [E B]; rewrite <- E.
  - rewrite RW; [|apply wf_set_F; [exact W1|]|apply u8_range].
    + apply agree_write; [exact O1|exact O2|reflexivity|]. intros _. apply inc_f_eq; [exact W1|apply u8_range|reflexivity].
    + apply inc_f_byte; [apply W1|apply u8_range].
  - rewrite RW; [|apply wf_set_F; [exact W1|]|apply u8_range].
    + apply agree_write; [exact O1|exact O2|reflexivity|]. intros _. apply inc_f_eq; [exact W1|apply u8_range|reflexivity].
    + apply inc_f_byte; [apply W1|apply u8_range].
Qed.
End Z.
