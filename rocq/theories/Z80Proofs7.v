(** Z80: every instruction of the model against the manual: block instructions, all together. *)
From Verif Require Import Base Z80Model Z80Spec Z80Proofs Z80Proofs2 Z80Proofs3 Z80Proofs4 Z80Proofs5 Z80Proofs6.

Section Z.
Variable dum lim : Z.
Notation exec := (Z80Model.exec dum lim).
Notation good y o ipc s := (agree (~ differs_flags y o (abs s)) (abs (snd (exec y ipc o s))) (sem y o (abs s))).

Lemma block_ld_sbf d s : wf s -> same_but_flags (abs (block_ld dum d s)) (move_block d (abs s)).
Proof. intros W. destruct (block_ld_eq dum d s W) as [E _]. exact (sbf_ff _ _ _ _ E). Qed.
Lemma block_ld_bc d s : wf s -> bc_left (block_ld dum d s) = left_bc (move_block d (abs s)).
Proof.
  intros W. destruct (block_ld_sbf d s W) as (E & _). unfold bc_left, left_bc. rewrite W_pairv. cbn [pairv]. rewrite E. reflexivity.
Qed.
Lemma block_ld_pc d s : PC (block_ld dum d s) = PC s.
Proof. unfold block_ld. cbv zeta. unfold wr. destruct (inmem _); reflexivity. Qed.
Lemma block_ld_flags d s c : wf s -> c = left_bc (move_block d (abs s)) ->
  samef (flags_of (Z.lor (F (block_ld dum d s)) (fl c 4))) (f (move_block d (abs s))).
Proof.
  intros W ->. destruct (block_ld_eq dum d s W) as [_ ->].
  unfold move_block at 2. cbv zeta. cbn [f setf s_f].
  match goal with |- context [mkF _ _ _ _ _ (left_bc ?a) _ _] => change (left_bc (move_block d (abs s))) with (left_bc a) end.
  set (b := left_bc _). clearbody b. byteflags; reflexivity.
Qed.
(** the flags and the place of the program do not meet *)
Lemma agree_pc (c : Prop) x y b : agree c x y -> agree c (repeat_if b x) (repeat_if b y).
Proof.
  intros [H K]. unfold repeat_if, jump_if. destruct b; [|split; assumption]. split; [|exact K].
  unfold same_but_flags in *. decompose [and] H. cbn [s_pc r ix iy sp pc mm r' f' vi vr i1 i2 md pin pout f].
  repeat (split; [first [assumption|congruence]|]). assumption.
Qed.
Lemma orF_abs c m s : abs (orF c m s) = s_f (flags_of (Z.lor (F s) (fl c m))) (abs s).
Proof. reflexivity. Qed.
Lemma sbf_s_f u x y : same_but_flags x y -> same_but_flags (s_f u x) y.
Proof. intros H. exact H. Qed.
Lemma ex_LDI y o ipc s : wf s -> o = LDI \/ o = LDD -> good y o ipc s.
Proof.
  intros W [-> | ->]; cbn [Z80Model.exec snd sem]; rewrite orF_abs; (split; [apply sbf_s_f, block_ld_sbf, W|]); intros _;
    cbn [f s_f]; apply block_ld_flags; try exact W; apply block_ld_bc, W.
Qed.
Lemma ex_LDIR y ipc s : wf s -> ipc = w (PC s - 2) -> good y LDIR ipc s.
Proof.
  intros W I. cbn [Z80Model.exec snd sem]. rewrite again_eq.
  - rewrite block_ld_bc by exact W. apply agree_pc. rewrite orF_abs.
    split; [apply sbf_s_f, block_ld_sbf, W|]. intros _. apply block_ld_flags; [exact W|reflexivity].
  - change (PC (orF (bc_left (block_ld dum 1 s)) 4 (block_ld dum 1 s))) with (PC (block_ld dum 1 s)). rewrite block_ld_pc. exact I.
Qed.
Lemma last_one s : wf s -> pairv false BC (abs s) = 1 -> left_bc (move_block (-1) (abs s)) = false.
Proof.
  intros W E. unfold move_block. cbv zeta. unfold left_bc at 1.
  match goal with |- context [setf _ _ _ _ _ _ (dec_bc ?q)] => set (x := q) end.
  assert (EX : pairv false BC x = 1) by exact E.
  change (pairv false BC (setf (fS (f (dec_bc x))) (fZ (f (dec_bc x))) false (left_bc (dec_bc x)) false (fC (f (dec_bc x))) (dec_bc x)))
    with (pairv false BC (dec_bc x)).
  unfold dec_bc. rewrite EX. reflexivity.
Qed.
Lemma ex_LDDR y ipc s : wf s -> ipc = w (PC s - 2) -> good y LDDR ipc s.
Proof.
  intros W I. cbn [Z80Model.exec snd sem differs_flags]. rewrite again_eq.
  - rewrite block_ld_bc by exact W. apply agree_pc.
    split; [apply block_ld_sbf, W|]. intros D.
    assert (EB : pairv false BC (abs s) = 1) by lia.
    pose proof (block_ld_flags (-1) s false W) as K. rewrite last_one in K by assumption. specialize (K eq_refl).
    cbn [fl] in K. rewrite Z.lor_0_r in K. exact K.
  - rewrite block_ld_pc. exact I.
Qed.
(** ** Compare *)
Lemma cp_A_rest v s : s_f (f (abs s)) (abs (cp_A v s)) = abs s.
Proof. reflexivity. Qed.
Lemma ex_CPI y ipc s : wf s -> good y CPI ipc s.
Proof.
  intros W. split; [|cbn [differs_flags]; tauto]. cbn [Z80Model.exec snd sem]. unfold cpi, compare_block. cbv zeta.
  apply sbf_ff with (v := f (abs s)) (u := f (abs s)).
  unfold dec_bc, move_hl. cbn [wW]. unfold wR2. cbn [setpair]. unfold set2. rewrite !(proj1 (w_parts _)), !(proj2 (w_parts _)). reflexivity.
Qed.
Lemma testbit_eq0 a v : byte a -> byte v -> (a - v =? 0) = ((a - v) mod 256 =? 0).
Proof.
  unfold byte. intros Ha Hv. destruct (Z.ltb_spec a v).
  - rewrite <- (Z.mod_unique (a - v) 256 (-1) (a - v + 256)) by lia. lia.
  - rewrite Z.mod_small by lia. reflexivity.
Qed.
Lemma ex_CPIR y ipc s : wf s -> ipc = w (PC s - 2) -> good y CPIR ipc s.
Proof.
  intros W I. split; [|cbn [differs_flags]; tauto]. cbn [Z80Model.exec snd sem]. unfold cpir. cbv zeta.
  pose proof (W_range false HL s W) as HW. rewrite rd_mm by exact HW.
  match goal with |- context [again _ ipc ?q] => set (s1 := q) end.
  rewrite again_eq by exact I.
  set (x1 := compare_block 1 (abs s)).
  assert (EB : same_but_flags (abs s1) x1).
  { unfold s1, x1, compare_block. cbv zeta.
    apply sbf_ff with (v := f (abs s)) (u := f (abs s)).
    unfold dec_bc, move_hl. cbn [wW]. unfold wR2. cbn [setpair]. unfold set2. rewrite !(proj1 (w_parts _)), !(proj2 (w_parts _)). reflexivity. }
  assert (EZ : Z.testbit (F s1) 6 = fZ (f x1)).
  { unfold s1, x1, compare_block. cbv zeta. cbn [f setf s_f fZ F orF set_F wW wR2 set_rg].
    bits. rewrite ?orb_false_l. change (acc (abs s)) with (A s). rewrite W_pairv.
    apply testbit_eq0; [apply wf_A, W|apply wf_mem, W]. }
  assert (EL : bc_left s1 = left_bc x1).
  { destruct EB as (E & _). unfold bc_left, left_bc. rewrite W_pairv. cbn [pairv]. rewrite E. reflexivity. }
  rewrite EZ. match goal with |- context [repeat_if (?a && _) (abs s1)] => change a with (bc_left s1) end. rewrite EL.
  exact (proj1 (agree_pc False _ _ _ (conj EB (False_ind _)))).
Qed.
(** ** Ports *)
Lemma block_in_sbf d s : wf s -> same_but_flags (abs (block_in d s)) (in_block d (abs s)).
Proof.
  intros W. pose proof (W_range false HL s W) as HW. unfold block_in, in_block, count_b, move_hl. cbv zeta.
  unfold wr. rewrite (inmem_true _ HW). rewrite u8_id by apply W.
  apply sbf_ff with (v := f (abs s)) (u := f (abs s)).
  cbn [wW]. unfold wR2, wR. cbn [setpair]. unfold set2. rewrite !(proj1 (w_parts _)), !(proj2 (w_parts _)). reflexivity.
Qed.
Lemma block_in_pc d s : PC (block_in d s) = PC s.
Proof. unfold block_in. cbv zeta. unfold wr. destruct (inmem _); reflexivity. Qed.
Lemma b_left_eq s x : same_but_flags (abs s) x -> b_left s = left_b x.
Proof. intros (E & _). unfold b_left, left_b. rewrite <- E. reflexivity. Qed.
Lemma rep_sbf b x y : same_but_flags x y -> same_but_flags (repeat_if b x) (repeat_if b y).
Proof. intros E. exact (proj1 (agree_pc False _ _ _ (conj E (False_ind _)))). Qed.
Lemma ex_INI y o ipc s : wf s -> o = INI \/ o = IND \/ ((o = INIR \/ o = INDR) /\ ipc = w (PC s - 2)) -> good y o ipc s.
Proof.
  intros W [-> | [-> | [ [-> | ->] I] ] ]; (split; [|cbn [differs_flags]; tauto]); cbn [Z80Model.exec snd sem].
  - apply block_in_sbf, W.
  - apply block_in_sbf, W.
  - rewrite again_eq by (rewrite block_in_pc; exact I). rewrite (b_left_eq _ _ (block_in_sbf 1 s W)). apply rep_sbf, block_in_sbf, W.
  - rewrite again_eq by (rewrite block_in_pc; exact I). rewrite (b_left_eq _ _ (block_in_sbf (-1) s W)). apply rep_sbf, block_in_sbf, W.
Qed.
Lemma block_out_sbf d s : wf s -> same_but_flags (abs (block_out dum 1 d s)) (out_block d (abs s)).
Proof.
  intros W. pose proof (W_range false HL s W) as HW. unfold block_out, out_block, count_b, move_hl. cbv zeta.
  change (Z80Model.W false HL (wR 0 (rg s 0 - 1) s)) with (Z80Model.W false HL s).
  rewrite rd_mm by exact HW. unfold wO. rewrite u8_id by (apply (wf_mem s), W).
  apply sbf_ff with (v := f (abs s)) (u := f (abs s)).
  cbn [wW]. unfold wR2, wR. cbn [setpair]. unfold set2. rewrite !(proj1 (w_parts _)), !(proj2 (w_parts _)). reflexivity.
Qed.
Lemma block_out_pc k d s : PC (block_out dum k d s) = PC s.
Proof. reflexivity. Qed.
Lemma ex_OUTD y o ipc s : wf s -> o = OUTD \/ (o = OTDR /\ ipc = w (PC s - 2)) -> good y o ipc s.
Proof.
  intros W [-> | [-> I] ]; (split; [|cbn [differs_flags]; tauto]); cbn [Z80Model.exec snd sem].
  - apply block_out_sbf, W.
  - rewrite again_eq by (rewrite block_out_pc; exact I). rewrite (b_left_eq _ _ (block_out_sbf (-1) s W)). apply rep_sbf, block_out_sbf, W.
Qed.

(** ** All *)
Definition no_xx (o : op) : Prop := match o with SBCp p | ADCp p => p <> XX | EXSP p => p <> RSP | _ => True end.
Lemma exec_eq y ipc o s : wf s -> op_ok o -> no_xx o -> (repeats o = true -> ipc = w (PC s - 2)) ->
  ~ differs y o (abs s) -> good y o ipc s.
Proof.
  intros W K X R D. destruct o; cbn [op_ok repeats no_xx] in *;
    try (exfalso; apply D; exact I); try specialize (R eq_refl).
  all: lazymatch goal with |- agree _ _ (sem _ ?o _) =>
    lazymatch o with
    | NOP => apply (ex_misc dum lim y _ 0 ipc s W); tauto
    | HALT => apply (ex_misc dum lim y _ 0 ipc s W); tauto
    | DI => apply (ex_misc dum lim y _ 0 ipc s W); tauto
    | EI => apply (ex_misc dum lim y _ 0 ipc s W); tauto
    | IM ?n => apply (ex_misc dum lim y _ n ipc s W); tauto
    | LDIA => apply (ex_misc dum lim y _ 0 ipc s W); tauto
    | LDRA => apply (ex_misc dum lim y _ 0 ipc s W); tauto
    | LD _ _ => apply (ex_LD dum lim y _ _ ipc s W)
    | LDi _ => apply (ex_LDi dum lim y _ ipc s W)
    | STp _ => apply (ex_STp dum lim y _ ipc s W D)
    | LDp _ => apply (ex_LDp dum lim y _ ipc s W D)
    | STAp ?p => apply (ex_mem dum lim y _ p ipc s W); tauto
    | LDAp ?p => apply (ex_mem dum lim y _ p ipc s W); tauto
    | STA => apply (ex_mem dum lim y _ BC ipc s W); tauto
    | LDA => apply (ex_mem dum lim y _ BC ipc s W); tauto
    | LDSP _ => apply (ex_LDSP dum lim y _ ipc s)
    | PUSH _ => apply (ex_PUSH dum lim y _ ipc s W D)
    | POP _ => apply (ex_POP dum lim y _ ipc s W D)
    | PUSHAF => apply (ex_PUSHAF dum lim y ipc s W)
    | POPAF => apply (ex_POPAF dum lim y ipc s W)
    | EXAF => apply (ex_EX dum lim y _ ipc s W); tauto
    | EXX => apply (ex_EX dum lim y _ ipc s W); tauto
    | EXDEHL => apply (ex_EX dum lim y _ ipc s W); tauto
    | EXSP _ => apply (ex_EXSP dum lim y _ ipc s W D X)
    | INC ?l => apply (ex_INC dum lim y _ l ipc s W); tauto
    | DEC ?l => apply (ex_INC dum lim y _ l ipc s W); tauto
    | ALU _ _ => apply (ex_ALU dum lim y _ _ ipc s W)
    | INCp ?p => apply (ex_16 dum lim y _ HL p ipc s W); tauto
    | DECp ?p => apply (ex_16 dum lim y _ HL p ipc s W); tauto
    | ADDp ?d ?p => apply (ex_16 dum lim y _ d p ipc s W); tauto
    | RLCA => apply (ex_rotA dum lim y _ ipc s W); tauto
    | RRCA => apply (ex_rotA dum lim y _ ipc s W); tauto
    | RLA => apply (ex_rotA dum lim y _ ipc s W); tauto
    | RRA => apply (ex_rotA dum lim y _ ipc s W); tauto
    | DAA => exact (ex_DAA dum lim ipc s W)
    | CPL => apply (ex_fl dum lim y _ ipc s W); tauto
    | SCF => apply (ex_fl dum lim y _ ipc s W); tauto
    | CCF => apply (ex_fl dum lim y _ ipc s W); tauto
    | DJNZ => apply (ex_DJNZ dum lim y ipc s W D)
    | JR _ => apply (ex_JR dum lim y _ ipc s W K D)
    | JP _ => apply (ex_JP dum lim y _ ipc s W K)
    | JPp _ => apply (ex_JPp dum lim y _ ipc s)
    | CALL _ => apply (ex_CALL dum lim y _ ipc s W K D)
    | RET _ => apply (ex_RET dum lim y _ ipc s W K D)
    | RST _ => apply (ex_RST dum lim y _ ipc s W D)
    | OUT => apply (ex_IO dum lim y _ 0 ipc s W); tauto
    | IN => apply (ex_IO dum lim y _ 0 ipc s W); tauto
    | OUTC ?n => apply (ex_IO dum lim y _ n ipc s W); tauto
    | INrC _ => apply (ex_INrC dum lim y _ ipc s W)
    | SBCp ?p => pose proof (ex_16 dum lim false (SBCp p) HL p ipc s W ltac:(tauto)) as G; destruct y; [destruct p; try congruence|]; exact G
    | ADCp ?p => pose proof (ex_16 dum lim false (ADCp p) HL p ipc s W ltac:(tauto)) as G; destruct y; [destruct p; try congruence|]; exact G
    | NEG => apply (ex_NEG dum lim y ipc s W)
    | LDAI => apply (ex_LDAI dum lim y _ ipc s W); tauto
    | LDAR => apply (ex_LDAI dum lim y _ ipc s W); tauto
    | RRD => exact (ex_RRD dum lim RRD ipc s W (or_introl eq_refl))
    | RLD => exact (ex_RRD dum lim RLD ipc s W (or_intror eq_refl))
    | LDI => apply (ex_LDI y _ ipc s W); tauto
    | LDD => apply (ex_LDI y _ ipc s W); tauto
    | LDIR => apply (ex_LDIR y ipc s W R)
    | LDDR => apply (ex_LDDR y ipc s W R)
    | CPI => apply (ex_CPI y ipc s W)
    | CPIR => apply (ex_CPIR y ipc s W R)
    | INI => apply (ex_INI y _ ipc s W); tauto
    | IND => apply (ex_INI y _ ipc s W); tauto
    | INIR => apply (ex_INI y _ ipc s W); tauto
    | INDR => apply (ex_INI y _ ipc s W); tauto
    | OUTD => apply (ex_OUTD y _ ipc s W); tauto
    | OTDR => apply (ex_OUTD y _ ipc s W); tauto
    | PCB => apply agree_eq; reflexivity
    | PXD _ => apply agree_eq; reflexivity
    | PED => apply agree_eq; reflexivity
    | PXCB => apply agree_eq; reflexivity
    | INV => apply agree_eq; reflexivity
    end end.
Qed.
End Z.
