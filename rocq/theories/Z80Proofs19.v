(** Z80: what the simulator does exactly: words, stack, jumps; all instructions, one step. *)
From Verif Require Import Base Z80Model Z80Spec Z80Spec2 Z80Proofs Z80Proofs2 Z80Proofs3 Z80Proofs4 Z80Proofs5 Z80Proofs6 Z80Proofs7 Z80Proofs8 Z80Proofs9 Z80Proofs17 Z80Proofs18.

Section Z.
Variable dum lim : Z.
Hypothesis HD : byte dum.
Notation exec := (Z80Model.exec dum lim).
Notation exact_ y o ipc s := (agree True (abs (snd (exec y ipc o s))) (actual_op dum y o (abs s))).

Lemma outside s v : abs (wr 65536 v s) = abs s /\ rd dum s 65536 = dum.
Proof. split; reflexivity. Qed.
Lemma store2_act a v s : word a -> abs (store2 a v s) = setm16_ a (w v) (abs s).
Proof.
  intros H. destruct (Z.eqb_spec a 65535) as [-> |N].
  - unfold store2. change (65535 + 1) with 65536. rewrite (proj1 (outside _ _)). rewrite wr_setm by exact H.
    unfold setm16_. rewrite (proj2 (w_parts v)). reflexivity.
  - rewrite store2_setm16 by assumption. unfold setm16, setm16_. rewrite (proj2 (Z.eqb_neq a 65535) N). rewrite (w_id (a + 1)); [reflexivity|]. unfold word in *. lia.
Qed.
Lemma get2_act a s : word a -> get2 dum a s = m16_ dum a (abs s).
Proof.
  intros H. destruct (Z.eqb_spec a 65535) as [-> |N].
  - unfold get2. change (65535 + 1) with 65536. rewrite (proj2 (outside _ 0)). rewrite rd_mm by exact H. unfold m16_. cbn [Z.eqb Pos.eqb]. lia.
  - rewrite get2_m16 by assumption. unfold m16, m16_. rewrite (proj2 (Z.eqb_neq a 65535) N). rewrite (w_id (a + 1)); [reflexivity|]. unfold word in *. lia.
Qed.
Lemma m16_act_range a s : wf s -> word (m16_ dum a (abs s)).
Proof. intros W. unfold m16_. rewrite Z.add_comm. apply join; [destruct (a =? 65535); [exact HD|]|]; apply W. Qed.
Lemma push2_act ipc v s : wf s -> abs (push2 lim ipc v s) = push_ (w v) (abs s).
Proof.
  intros W. unfold push2. rewrite abs_chk. cbn [SP set_SP]. change (u16 v) with (w v). change (u16 (SP s - 2)) with (w (SP s - 2)).
  rewrite store2_act by apply w_range. rewrite (w_id (w v)) by apply w_range. reflexivity.
Qed.
Lemma pop2_act s : wf s ->
  fst (pop2 dum s) = fst (pop_ dum (abs s)) /\ abs (snd (pop2 dum s)) = snd (pop_ dum (abs s)) /\ word (fst (pop2 dum s)).
Proof.
  intros W. unfold pop2, pop_. cbn [fst snd]. rewrite get2_act by apply wf_SP, W.
  split; [reflexivity|]. split; [reflexivity|]. apply m16_act_range, W.
Qed.
Lemma fetch2_act s : word (PC s) -> fst (fetch2 dum s) = fst (next16 (abs s)) /\ abs (snd (fetch2 dum s)) = snd (next16 (abs s)).
Proof.
  intros W. unfold fetch2, fetch. cbn [fst snd]. rewrite (rd_mm dum s) by exact W. rewrite rd_mm by apply w_range.
  cbn [PC set_PC]. split; [unfold next16; cbn [fst]; rewrite Z.add_comm; reflexivity|].
  unfold next16. cbn [snd]. unfold s_pc, abs. cbn [PC set_PC pc rg F IX IY SP mem arg aF iv rr iff1 iff2 im inp outp r f ix iy sp mm r' f' vi vr i1 i2 md pin pout].
  fold (w (PC s + 1)). fold (w (w (PC s + 1) + 1)). rewrite w_w. replace (PC s + 1 + 1) with (PC s + 2) by lia. reflexivity.
Qed.
Lemma jrel_act j s : byte j -> abs (jrel j s) = rel j (abs s).
Proof. intros H. unfold jrel. rewrite i8_sgn by exact H. reflexivity. Qed.

Ltac fet1 W := let E1 := fresh "E1" in let E2 := fresh "E2" in let W1 := fresh "W1" in let B := fresh "B" in let EF := fresh "EF" in
  destruct (fetch_eq dum _ W) as (E1 & E2 & W1 & B & EF);
  match goal with |- context [fetch dum ?s] => destruct (fetch dum s) as [jj s1] end;
  match goal with |- context [next8 ?x] => destruct (next8 x) as [jj' x1] end;
  cbn [fst snd] in *; match type of E1 with _ = ?v => subst v end; match type of E2 with _ = ?v => subst v end.
Ltac fet2 W := let E1 := fresh "E1" in let E2 := fresh "E2" in let W1 := fresh "W1" in let B := fresh "B" in let EF := fresh "EF" in
  destruct (fetch2_eq dum _ W) as (E1 & E2 & W1 & B & EF);
  match goal with |- context [fetch2 dum ?s] => destruct (fetch2 dum s) as [jj s1] end;
  match goal with |- context [next16 ?x] => destruct (next16 x) as [jj' x1] end;
  cbn [fst snd] in *; match type of E1 with _ = ?v => subst v end; match type of E2 with _ = ?v => subst v end.
Ltac pop_at W := let E1 := fresh "E1" in let E2 := fresh "E2" in let B := fresh "B" in
  destruct (pop2_act _ W) as (E1 & E2 & B);
  match goal with |- context [pop2 dum ?s] => destruct (pop2 dum s) as [jj s1] end;
  match goal with |- context [pop_ dum ?x] => destruct (pop_ dum x) as [jj' x1] end;
  cbn [fst snd] in *; match type of E1 with _ = ?v => subst v end; match type of E2 with _ = ?v => subst v end.

Lemma ac_words y o p ipc s : wf s -> o = STp p \/ o = LDp p \/ o = PUSH p \/ o = POP p \/ (o = EXSP p /\ p <> RSP) -> exact_ y o ipc s.
Proof.
  intros W H. apply agree_eq.
  destruct H as [-> | [-> | [-> | [-> | [-> Hp] ] ] ] ]; cbn [actual_op Z80Model.exec].
  - fet2 W. rewrite store2_act by exact B. rewrite W_pairv, w_id; [reflexivity|]. rewrite <- W_pairv. apply W_range, W1.
  - fet2 W. rewrite wW_setpair, get2_act by exact B. rewrite w_id; [reflexivity|]. apply m16_act_range, W1.
  - cbn [snd]. rewrite push2_act by exact W. rewrite W_pairv, w_id; [reflexivity|]. rewrite <- W_pairv. apply W_range, W.
  - pop_at W. rewrite wW_setpair, w_id by exact B. reflexivity.
  - cbn [snd]. rewrite store2_act by apply wf_SP, W. rewrite wW_setpair, get2_act by apply wf_SP, W. rewrite W_pairv.
    rewrite !w_id by (first [rewrite <- W_pairv; apply W_range, W|apply m16_act_range, W]).
    unfold setm16_. change (sp (abs s)) with (SP s). destruct p; try congruence; try (destruct (SP s =? 65535); reflexivity); destruct y, (SP s =? 65535); reflexivity.
Qed.
Lemma ac_JR y c ipc s : wf s -> cond_ok c -> exact_ y (JR c) ipc s.
Proof.
  intros W C. apply agree_eq. destruct c as [c|]; cbn [Z80Model.exec actual_op condo]; fet1 W; cbn [snd].
  - rewrite (cond_hold c) by exact C. destruct (cond c (abs s1)); [|reflexivity]. exact (jrel_act jj s1 B).
  - exact (jrel_act jj s1 B).
Qed.
Lemma ac_DJNZ y ipc s : wf s -> exact_ y DJNZ ipc s.
Proof.
  intros W. apply agree_eq. cbn [Z80Model.exec actual_op]; fet1 W; cbn [snd].
  change (setr 0 ((r (abs s1) 0 - 1) mod 256) (abs s1)) with (abs (wR 0 (rg s1 0 - 1) s1)).
  set (s2 := wR 0 (rg s1 0 - 1) s1). change (left_b (abs s2)) with (b_left s2). destruct (b_left s2); [|reflexivity].
  exact (jrel_act jj s2 B).
Qed.
Lemma call_act ipc s : wf s ->
  abs (set_PC (fst (fetch2 dum (push2 lim ipc (PC s + 2) s))) (snd (fetch2 dum (push2 lim ipc (PC s + 2) s)))) =
  let '(a, x) := next16 (push_ (w (PC s + 2)) (abs s)) in s_pc a x.
Proof.
  intros W. pose proof (push2_act ipc (PC s + 2) s W) as E. set (s1 := push2 lim ipc (PC s + 2) s) in *.
  assert (EP : PC s1 = PC s). { pose proof (f_equal pc E) as K. cbn [pc abs] in K. rewrite K. unfold push_, setm16_. cbn [s_sp sp pc]. destruct (_ =? 65535); reflexivity. }
  destruct (fetch2_act s1) as [F1 F2]; [rewrite EP; apply wf_PC, W|]. rewrite E in F1, F2. rewrite F1.
  change (abs (set_PC (fst (next16 (push_ (w (PC s + 2)) (abs s)))) (snd (fetch2 dum s1)))) with
    (s_pc (fst (next16 (push_ (w (PC s + 2)) (abs s)))) (abs (snd (fetch2 dum s1)))).
  rewrite F2. destruct (next16 _). reflexivity.
Qed.
Lemma ac_CALL y c ipc s : wf s -> cond_ok c -> exact_ y (CALL c) ipc s.
Proof.
  intros W C. apply agree_eq. pose proof (call_act ipc s W) as K. destruct c as [c|]; cbn [Z80Model.exec actual_op condo]; change (pc (abs s)) with (PC s).
  - rewrite (cond_hold c) by exact C. destruct (cond c (abs s)).
    + destruct (fetch2 dum (push2 lim ipc (PC s + 2) s)). exact K.
    + destruct (fetch2_eq dum s W) as (_ & E & _). destruct (fetch2 dum s). exact E.
  - destruct (fetch2 dum (push2 lim ipc (PC s + 2) s)). exact K.
Qed.
Lemma ac_RET y o ipc s : wf s -> (exists c, o = RET c /\ cond_ok c) \/ o = RETN -> exact_ y o ipc s.
Proof.
  intros W [(c & -> & C) | ->]; apply agree_eq.
  - destruct c as [c|]; cbn [Z80Model.exec actual_op condo].
    + rewrite (cond_hold c) by exact C. destruct (cond c (abs s)); [|reflexivity]. pop_at W. reflexivity.
    + pop_at W. reflexivity.
  - cbn [Z80Model.exec actual_op]. pop_at W. reflexivity.
Qed.
Lemma ac_RST y n ipc s : wf s -> exact_ y (RST n) ipc s.
Proof.
  intros W. apply agree_eq. cbn [Z80Model.exec actual_op snd].
  change (abs (set_PC n (push2 lim ipc (PC s) s))) with (s_pc n (abs (push2 lim ipc (PC s) s))).
  rewrite push2_act by exact W. rewrite w_id by apply wf_PC, W. reflexivity.
Qed.

Lemma act_eq y ipc o s : wf s -> op_ok o -> no_xx o -> (repeats o = true -> ipc = w (PC s - 2)) ->
  agree True (abs (snd (exec y ipc o s))) (actual_op dum y o (abs s)).
Proof.
  intros W K X R.
  destruct o; cbn [op_ok repeats no_xx] in *; try specialize (R eq_refl).
  all: lazymatch goal with |- agree _ _ (actual_op _ _ ?o _) =>
    lazymatch o with
    | ALU _ _ => apply ac_ALU, W
    | ADCp ?p => pose proof (ac_16 dum lim (ADCp p) p ipc s W (or_intror eq_refl)) as G; destruct y; [destruct p; try congruence|]; exact G
    | SBCp ?p => pose proof (ac_16 dum lim (SBCp p) p ipc s W (or_introl eq_refl)) as G; destruct y; [destruct p; try congruence|]; exact G
    | DAA => exact (ac_DAA dum lim ipc s W)
    | INrC _ => apply ac_INrC, W
    | RRD => exact (ac_RRD dum lim RRD ipc s W (or_introl eq_refl))
    | RLD => exact (ac_RRD dum lim RLD ipc s W (or_intror eq_refl))
    | LDDR => apply (ac_LDDR dum lim y ipc s W R)
    | CPI => apply ac_CPI, W
    | CPIR => apply (ac_CPIR dum lim y ipc s W R)
    | CPD => apply ac_CPD, W
    | CPDR => apply (ac_CPDR dum lim y ipc s W R)
    | INI => apply (ac_INI dum lim y _ ipc s W); tauto
    | IND => apply (ac_INI dum lim y _ ipc s W); tauto
    | INIR => apply (ac_INI dum lim y _ ipc s W); tauto
    | INDR => apply (ac_INI dum lim y _ ipc s W); tauto
    | OUTD => apply (ac_OUTD dum lim y _ ipc s W); tauto
    | OTDR => apply (ac_OUTD dum lim y _ ipc s W); tauto
    | OUTI => apply (ac_OUTI dum lim y _ ipc s W); tauto
    | OTIR => apply (ac_OUTI dum lim y _ ipc s W); tauto
    | RETN => apply (ac_RET y _ ipc s W); tauto
    | JR _ => apply (ac_JR y _ ipc s W K)
    | DJNZ => apply (ac_DJNZ y ipc s W)
    | STp ?p => apply (ac_words y _ p ipc s W); tauto
    | LDp ?p => apply (ac_words y _ p ipc s W); tauto
    | PUSH ?p => apply (ac_words y _ p ipc s W); tauto
    | POP ?p => apply (ac_words y _ p ipc s W); tauto
    | EXSP ?p => apply (ac_words y _ p ipc s W); tauto
    | RET ?c => apply (ac_RET y _ ipc s W); left; exists c; tauto
    | RST _ => apply (ac_RST y _ ipc s W)
    | CALL _ => apply (ac_CALL y _ ipc s W K)
    | _ => refine (agree_T _ _ _ (exec_eq dum lim y ipc o s W K X _ _) _); cbn [differs differs_flags repeats]; first [tauto|discriminate|intros _; assumption]
    end end.
Qed.
End Z.
