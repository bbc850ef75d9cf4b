(** 8080/8085: one instruction of the simulator against the manual, the main lemma. *)
From Verif Require Import Base I80Model I80Spec I80Proofs I80Proofs2 I80Proofs3.

(** ** Fetching *)
Lemma wf_set_PC v s : 0 <= v < 65536 -> wf s -> wf (set_PC v s).
Proof. intros Hv W. unfold wf in *. cbn [A F B C D E H L SP PC mem set_PC]. tauto. Qed.
Lemma w_range a : 0 <= w a < 65536. Proof. apply mod65536. Qed.
Lemma w_id a : 0 <= a < 65536 -> w a = a.
Proof. intros. apply Z.mod_small. lia. Qed.
Lemma w_w a b : w (w a + b) = w (a + b).
Proof. unfold w. apply Zplus_mod_idemp_l. Qed.
Lemma w_w_sub a b : w (w a - b) = w (a - b).
Proof. unfold w. apply Zminus_mod_idemp_l. Qed.
Lemma fetch_next s s1 : wf s -> wf s1 -> abs s1 = next 1 (abs s) ->
  exists s2, fetch s1 = (operand8 (abs s), s2) /\ abs s2 = next 2 (abs s) /\ wf s2 /\ 0 <= operand8 (abs s) < 256.
Proof.
  intros W W1 E. exists (set_PC (w (PC s1 + 1)) s1).
  assert (Ep : PC s1 = w (PC s + 1)) by (change (PC s1) with (pc (abs s1)); rewrite E; reflexivity).
  assert (Em : mem s1 = mem s) by (change (mem s1) with (mm (abs s1)); rewrite E; reflexivity).
  split; [|split; [|split]].
  - unfold fetch. rewrite Ep, Em. reflexivity.
  - change (abs (set_PC (w (PC s1 + 1)) s1)) with (setpc (w (PC s1 + 1)) (abs s1)). rewrite E, Ep, w_w.
    replace (PC s + 1 + 1) with (PC s + 2) by lia. reflexivity.
  - apply wf_set_PC; [apply w_range|exact W1].
  - unfold operand8. apply W.
Qed.
Lemma fetch16_next s s1 : wf s -> wf s1 -> abs s1 = next 1 (abs s) ->
  exists s2, fetch16 s1 = (operand16 (abs s), s2) /\ abs s2 = next 3 (abs s) /\ wf s2 /\ 0 <= operand16 (abs s) < 65536.
Proof.
  intros W W1 E. destruct (fetch_next s s1 W W1 E) as [s2 [F2 [E2 [W2 R2]]]].
  exists (set_PC (w (PC s2 + 1)) s2).
  assert (Ep : PC s2 = w (PC s + 2)) by (change (PC s2) with (pc (abs s2)); rewrite E2; reflexivity).
  assert (Em : mem s2 = mem s) by (change (mem s2) with (mm (abs s2)); rewrite E2; reflexivity).
  assert (Rm : forall a, 0 <= mem s a < 256) by apply W.
  split; [|split; [|split]].
  - unfold fetch16. rewrite F2. unfold fetch. f_equal. unfold operand16. rewrite Ep, Em.
    unfold operand8. change (mm (abs s)) with (mem s). change (pc (abs s)) with (PC s). lia.
  - change (abs (set_PC (w (PC s2 + 1)) s2)) with (setpc (w (PC s2 + 1)) (abs s2)). rewrite E2, Ep, w_w.
    replace (PC s + 2 + 1) with (PC s + 3) by lia. reflexivity.
  - apply wf_set_PC; [apply w_range|exact W2].
  - unfold operand16. change (mm (abs s)) with (mem s).
    pose proof (Rm (w (pc (abs s) + 1))). pose proof (Rm (w (pc (abs s) + 2))). lia.
Qed.

(** ** The order of changing PC and the rest does not matter *)
Lemma dst_next k n v x : dst n v (next k x) = next k (dst n v x).
Proof. unfold dst. destruct (n =? 6); reflexivity. Qed.
Lemma setpair_next k p v x : setpair p v (next k x) = next k (setpair p v x).
Proof. unfold setpair. destruct (p =? 3); reflexivity. Qed.
Lemma pairv_next k p x : pairv p (next k x) = pairv p x.
Proof. reflexivity. Qed.
Lemma src_next k n x : src n (next k x) = src n x.
Proof. reflexivity. Qed.
Lemma arith_next m85 j k v x : arith m85 j v (next k x) = next k (arith m85 j v x).
Proof. unfold arith. change (fC (next k x)) with (fC x). repeat match goal with |- context [if ?b then _ else _] => destruct b end; reflexivity. Qed.
Lemma inc_next k n d x : inc n d (next k x) = next k (inc n d x).
Proof. unfold inc. rewrite dst_next. reflexivity. Qed.
Lemma same_setpc v x y : same x y -> same (setpc v x) (setpc v y).
Proof. intros [H1 [H2 [H3 [H4 [H5 [H6 [H7 [H8 H9]]]]]]]]. repeat split; assumption. Qed.
Lemma same_eq x y z : same x y -> y = z -> same x z.
Proof. intros H <-. exact H. Qed.

(** ** Stack *)
Lemma wr_in a v s : 0 <= a < 65536 -> wr a v s = set_mem (updm (mem s) a (u8 v)) s.
Proof. intros H. unfold wr. rewrite inmem_true by exact H. reflexivity. Qed.
Definition pushed (lim ipc v : Z) (s : cpu) : cpu :=
  set_errs (if w (SP s - 2) <? lim then errs s ++ [(ipc, SP s, w (SP s - 2))] else errs s)
    (set_SP (w (SP s - 2)) (set_mem (updm (updm (mem s) (w (SP s - 1)) (u8 (v / 256))) (w (SP s - 2)) (u8 v)) s)).
Lemma push2_eq lim ipc v s : push2 lim ipc v s = pushed lim ipc v s.
Proof.
  unfold push2. cbv zeta. unfold wSP. cbn [SP set_SP].
  rewrite (wr_in (u16 (SP s - 1))) by apply u16_range. cbn [SP set_SP set_mem mem].
  assert (E : u16 (u16 (SP s - 1) - 1) = w (SP s - 2)).
  { change u16 with w. rewrite w_w_sub. f_equal. lia. }
  rewrite !E. rewrite !(wr_in (w (SP s - 2))) by apply w_range.
  cbn [SP set_SP set_mem mem errs]. unfold pushed. destruct (w (SP s - 2) <? lim); reflexivity.
Qed.
Lemma push2_same lim ipc v s : 0 <= v < 65536 -> same (abs (push2 lim ipc v s)) (push v (abs s)).
Proof.
  intros Hv. rewrite push2_eq. unfold pushed.
  assert (Hd : u8 (v / 256) = v / 256) by (apply u8_id; split; [apply Z.div_pos|apply Z.div_lt_upper_bound]; lia).
  rewrite Hd. parts; reflexivity.
Qed.
Lemma pop2_val dum s : wf s -> exists s2, pop2 dum s = (popv (abs s), s2) /\ abs s2 = pop (abs s) /\
  0 <= popv (abs s) < 65536 /\ PC s2 = PC s /\ wf s2.
Proof.
  intros W. assert (Hs : 0 <= SP s < 65536) by apply W. assert (Rm : forall a, 0 <= mem s a < 256) by apply W.
  unfold pop2. unfold rd. cbv zeta. rewrite (inmem_true (SP s)) by exact Hs. unfold wSP.
  cbn [SP set_SP mem]. rewrite inmem_true by apply u16_range.
  eexists. split; [|split; [|split; [|split]]].
  - f_equal. unfold popv. change (u16 (SP s + 1)) with (w (sp (abs s) + 1)). change (mm (abs s)) with (mem s).
    change (sp (abs s)) with (SP s). lia.
  - unfold pop, setsp, abs. cbn [SP set_SP mem PC A F B C D E H L sp R fS fZ fA fP fC pc mm]. f_equal.
    change u16 with w. rewrite w_w. f_equal. lia.
  - unfold popv. change (mm (abs s)) with (mem s). pose proof (Rm (sp (abs s))). pose proof (Rm (w (sp (abs s) + 1))). lia.
  - reflexivity.
  - unfold wf in *. cbn [SP set_SP mem PC A F B C D E H L]. pose proof (u16_range (u16 (SP s + 1) + 1)). tauto.
Qed.

(** what must hold for an instruction to be right *)
Definition fine (m85 : bool) (c : Z) (o : op) (x : M) (s1 : cpu) : Prop :=
  match o with
  | ALU k (Some r) => alu_fine m85 k (src (num r) x) s1
  | ALU k None => alu_fine m85 k (operand8 x) s1
  | DAA | PUSH pPSW => False
  | POP pS | DAD pPSW | INX pPSW | DCX pPSW | LXI pPSW | LDAX pPSW | STAX pPSW | PUSH pS => False
  | RST => Z.land c 40 = 8 * (c / 8 mod 8)
  | SHLD | LHLD => operand16 x <> 65535
  | XTHL => sp x <> 65535
  | RIM | SIM | ARHL | RDEL | DSUB | JNX5 | JX5 | RSTV | LDHI | LDSI | LHLX | SHLX => False
  | _ => True
  end.

Lemma alu_fine_abs m85 k v s t : abs s = abs t -> alu_fine m85 k v s -> alu_fine m85 k v t.
Proof.
  intros E. assert (EA : A s = A t) by (change (R (abs s) 7 = R (abs t) 7); rewrite E; reflexivity).
  assert (EC : Z.testbit (F s) 0 = Z.testbit (F t) 0) by (change (fC (abs s) = fC (abs t)); rewrite E; reflexivity).
  destruct k; cbn [alu_fine]; rewrite ?EA, ?EC; tauto.
Qed.
