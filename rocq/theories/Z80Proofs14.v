(** Z80: LDIR and LDDR, the whole copy. *)
From Verif Require Import Base Z80Model Z80Spec Z80Proofs Z80Proofs2 Z80Proofs3 Z80Proofs4 Z80Proofs5 Z80Proofs6 Z80Proofs7 Z80Proofs8 Z80Proofs9 Z80Proofs10 Z80Proofs11 Z80Proofs12 Z80Proofs13.

Lemma dm v : 256 * (v / 256) + v mod 256 = v.
Proof. symmetry. apply Z.div_mod. lia. Qed.
Lemma move_block_facts d x :
  pairv false HL (move_block d x) = w (pairv false HL x + d) /\ pairv false DE (move_block d x) = w (pairv false DE x + d) /\
  pairv false BC (move_block d x) = w (pairv false BC x - 1) /\ r (move_block d x) 7 = r x 7 /\
  (forall a, mm (move_block d x) a = if a =? pairv false DE x then mm x (pairv false HL x) else mm x a) /\
  pc (move_block d x) = pc x /\ ix (move_block d x) = ix x /\ iy (move_block d x) = iy x /\ sp (move_block d x) = sp x /\
  f (move_block d x) = mkF (fS (f x)) (fZ (f x)) (fY (f x)) false (fX (f x)) (negb (w (pairv false BC x - 1) =? 0)) false (fC (f x)).
Proof.
  assert (E : forall v, 256 * (w v / 256) + w v mod 256 = w v) by (intros; apply dm).
  split; [exact (E _)|]. split; [exact (E _)|]. split; [exact (E _)|]. split; [reflexivity|]. split; [reflexivity|]. split; [reflexivity|].
  split; [reflexivity|]. split; [reflexivity|]. split; [reflexivity|].
  unfold move_block. cbv zeta. unfold setf at 1.
  match goal with |- f (s_f (mkF _ _ _ _ _ (left_bc ?q) _ _) _) = _ => assert (EL : left_bc q = negb (w (pairv false BC x - 1) =? 0)) end.
  { unfold left_bc. f_equal. f_equal. exact (E _). }
  rewrite EL. reflexivity.
Qed.
Section Z.
Variable dum lim : Z.
Hypothesis HD : byte dum.
Variable hit : Z -> bool.
Notation step := (Z80Model.step dum lim hit).
Notation after := (Z80Spec.after dum lim hit).
Definition code_of (d : Z) : Z := if d =? 1 then 176 else 184.
(** LDIR (d = 1) or LDDR is at PC *)
Definition at_block (d : Z) (s : cpu) : Prop :=
  wf s /\ PC s < 65535 /\ hit (PC s) = false /\ hit (PC s + 1) = false /\ mem s (PC s) = 237 /\ mem s (PC s + 1) = code_of d.
Lemma block_F d s : d = 1 \/ d = -1 -> at_block d s -> exists b, F (snd (step s)) = Z.lor (clr (F s) 22) (fl b 4).
Proof.
  intros Hd (W & HP & N0 & N1 & M0 & M1). pose proof (wf_PC s W) as HPC. unfold word in HPC.
  assert (EPC : PC (snd (fetch dum s)) = w (PC s + 1)) by reflexivity.
  assert (EMM : mem (snd (fetch dum s)) = mem s) by reflexivity.
  assert (EF : F (snd (fetch dum s)) = F s) by reflexivity.
  assert (EC : fst (fetch dum s) = 237) by (cbn [fetch fst]; rewrite rd_mm by (unfold word; lia); exact M0).
  unfold Z80Model.step. rewrite N0. destruct (fetch_eq dum s W) as (_ & _ & W1 & _ & _).
  destruct (fetch dum s) as [c s1]. cbn [fst snd] in *. subst c.
  set (s2 := set_ct false (set_ib false (set_rr (inc_R (rr (set_ticks (ticks s1 + 1) s1))) (set_ticks (ticks s1 + 1) s1)))).
  assert (G : exists b, F (snd (Z80Model.run dum lim hit (PC s) 237 s2)) = Z.lor (clr (F s) 22) (fl b 4)).
  { assert (P2 : PC s2 = PC s + 1) by (change (PC s2) with (PC s1); rewrite EPC; apply w_id; unfold word; lia).
    unfold Z80Model.run. change (op_at tab_00 237) with PED. rewrite P2, N1.
    assert (EC2 : fst (fetch dum s2) = code_of d).
    { cbn [fetch fst]. rewrite rd_mm by (rewrite P2; unfold word; lia). change (mem s1 (PC s2) = code_of d). rewrite EMM, P2. exact M1. }
    assert (W2 : wf s2) by (apply (wf_set_rr (inc_R (rr s1)) s1 W1), inc_R_byte, W1).
    assert (EF2 : F (snd (fetch dum s2)) = F s) by (change (F (snd (fetch dum s2))) with (F s1); exact EF).
    destruct (fetch_eq dum s2 W2) as (_ & _ & W3 & _ & _).
    destruct (fetch dum s2) as [c s3]. cbn [fst snd] in *. rewrite EC2. clear EC2.
    assert (K : forall q e ipc, F (again q ipc e) = F e) by (intros [|]; reflexivity).
    destruct Hd as [-> | ->]; unfold code_of; cbn [Z.eqb Pos.eqb].
    - change (op_at tab_ed 176) with LDIR. cbn [Z80Model.exec snd]. exists (bc_left (block_ld dum 1 s3)). rewrite K. cbn [orF F set_F]. rewrite (proj2 (block_ld_eq dum 1 s3 W3)), EF2. reflexivity.
    - change (op_at tab_ed 184) with LDDR. cbn [Z80Model.exec snd]. exists false. rewrite K. cbn [fl]. rewrite Z.lor_0_r, (proj2 (block_ld_eq dum (-1) s3 W3)), EF2. reflexivity. }
  destruct (Z80Model.run dum lim hit (PC s) 237 s2) as [res s3]. exact G.
Qed.
Lemma block_flags b v : let g := flags_of (Z.lor (clr v 22) (fl b 4)) in
  fS g = fS (flags_of v) /\ fZ g = fZ (flags_of v) /\ fC g = fC (flags_of v) /\ fH g = false /\ fN g = false.
Proof.
  cbv zeta. unfold flags_of. cbn [fS fZ fC fH fN]. rewrite !Z.lor_spec, !bit_clr, !bit_fl. cbits. rewrite ?andb_true_r, ?andb_false_r, ?orb_false_r. tauto.
Qed.
Lemma block_instr d s : d = 1 \/ d = -1 -> at_block d s ->
  instr_at (abs s) = (plain false (if d =? 1 then LDIR else LDDR), s_pc (w (PC s + 2)) (abs s)).
Proof.
  intros Hd (W & HP & N0 & N1 & M0 & M1). pose proof (wf_PC s W) as HPC. unfold word in HPC.
  unfold instr_at. cbn [next8 mm pc abs]. rewrite M0. cbn [Z.eqb Pos.eqb]. cbn [s_pc pc mm r f ix iy sp r' f' vi vr i1 i2 md pin pout]. fold (abs s).
  rewrite (w_id (PC s + 1)) by (unfold word; lia). change (mm (abs s) (PC s + 1)) with (mem s (PC s + 1)). rewrite M1. replace (PC s + 1 + 1) with (PC s + 2) by lia.
  destruct Hd as [-> | ->]; reflexivity.
Qed.
(** one byte *)
Lemma block_one d s : d = 1 \/ d = -1 -> at_block d s -> W false DE s <> PC s -> W false DE s <> PC s + 1 ->
  let t := snd (step s) in let last := W false BC s =? 1 in
  fst (step s) = GO /\ wf t /\
  (forall a, mem t a = if a =? W false DE s then mem s (W false HL s) else mem s a) /\
  W false HL t = w (W false HL s + d) /\ W false DE t = w (W false DE s + d) /\ W false BC t = w (W false BC s - 1) /\
  PC t = (if last then w (PC s + 2) else PC s) /\ A t = A s /\ IX t = IX s /\ IY t = IY s /\ SP t = SP s /\
  fS (f (abs t)) = fS (f (abs s)) /\ fZ (f (abs t)) = fZ (f (abs s)) /\ fC (f (abs t)) = fC (f (abs s)) /\
  (last = true -> fH (f (abs t)) = false /\ fN (f (abs t)) = false /\ fP (f (abs t)) = false) /\
  ticks t = ticks s + (if last then 16 else 21).
Proof.
  intros Hd HB D0 D1. cbv zeta. pose proof HB as (Wf & HP & N0 & N1 & M0 & M1). pose proof (wf_PC s Wf) as HPC. unfold word in HPC.
  pose proof (block_instr d s Hd HB) as EI.
  assert (EC : codes (abs s) = [1]).
  { unfold codes. rewrite EI. cbn [fst mm pc abs]. rewrite M0. destruct Hd as [-> | ->]; reflexivity. }
  assert (U : unbroken hit s).
  { split; [exact N0|]. rewrite EC. intros k [<- |[] ]. rewrite w_id by (unfold word; lia). exact N1. }
  pose proof (step_eq dum lim hit s Wf U) as SE. rewrite EI in SE. destruct SE as [HR HS].
  assert (ND : ~ deviates (plain false (if d =? 1 then LDIR else LDDR)) (count_r (s_pc (w (PC s + 2)) (abs s)))).
  { destruct Hd as [-> | ->]; intros []. }
  specialize (HS ND).
  assert (RB : forall p, W false p s = pairv false p (abs s)) by (intros []; reflexivity).
  assert (RT : forall p, W false p (snd (step s)) = pairv false p (abs (snd (step s)))) by (intros []; reflexivity).
  set (x := count_r (s_pc (w (PC s + 2)) (abs s))) in *.
  assert (PX : forall p, p <> XX -> pairv false p x = W false p s) by (intros [] NX; try reflexivity; exfalso; apply NX; reflexivity).
  assert (EL : left_bc (move_block d x) = negb (W false BC s =? 1)).
  { unfold left_bc. destruct (move_block_facts d x) as (_ & _ & EB & _). rewrite EB, PX by discriminate.
    assert (word (W false BC s)) by (apply W_range, Wf). unfold word in *. f_equal. unfold w.
    destruct (Z.eqb_spec (W false BC s) 1) as [-> |NE]; [reflexivity|].
    destruct (Z.eq_dec (W false BC s) 0) as [-> |NZ]; [reflexivity|]. rewrite Z.mod_small by lia. lia. }
  assert (HE : effect (plain false (if d =? 1 then LDIR else LDDR)) x = repeat_if (left_bc (move_block d x)) (move_block d x)).
  { destruct Hd as [-> | ->]; reflexivity. }
  rewrite HE, EL in HS. destruct HS as [SB SF].
  destruct (move_block_facts d x) as (F1 & F2 & F3 & F4 & F5 & F6 & F7 & F8 & F9 & F10).
  rewrite !PX in * by discriminate.
  set (last := W false BC s =? 1) in *.
  assert (RI : forall q, s_pc (pc q) (repeat_if (negb last) (move_block d x)) = s_pc (pc q) (move_block d x)) by (intros; unfold repeat_if, jump_if; destruct (negb last); reflexivity).
  destruct SB as (S1 & S2 & S3 & S4 & S5 & S6 & _).
  assert (R1 : r (repeat_if (negb last) (move_block d x)) = r (move_block d x)) by (destruct last; reflexivity).
  assert (R2 : ix (repeat_if (negb last) (move_block d x)) = ix (move_block d x)) by (destruct last; reflexivity).
  assert (R3 : iy (repeat_if (negb last) (move_block d x)) = iy (move_block d x)) by (destruct last; reflexivity).
  assert (R4 : sp (repeat_if (negb last) (move_block d x)) = sp (move_block d x)) by (destruct last; reflexivity).
  assert (R6 : mm (repeat_if (negb last) (move_block d x)) = mm (move_block d x)) by (destruct last; reflexivity).
  assert (R5 : pc (repeat_if (negb last) (move_block d x)) = if last then w (PC s + 2) else PC s).
  { unfold repeat_if, jump_if. destruct last; cbn [negb pc s_pc]; rewrite F6; [reflexivity|].
    change (pc x) with (w (PC s + 2)). rewrite w_w_sub. replace (PC s + 2 - 2) with (PC s) by lia. apply w_id. exact HPC. }
  rewrite R1 in S1. rewrite R2 in S2. rewrite R3 in S3. rewrite R4 in S4. rewrite R5 in S5. rewrite R6 in S6.
  assert (MM : forall a, mem (snd (step s)) a = if a =? W false DE s then mem s (W false HL s) else mem s a).
  { intros a. change (mem (snd (step s)) a) with (mm (abs (snd (step s))) a). rewrite S6, F5. reflexivity. }
  assert (PV : forall p, p = HL \/ p = DE \/ p = BC -> W false p (snd (step s)) = pairv false p (move_block d x)).
  { intros p Hp. rewrite RT. destruct Hp as [-> | [-> | ->] ]; cbn [pairv]; rewrite S1; reflexivity. }
  destruct (block_F d s Hd HB) as [b EF]. pose proof (block_flags b (F s)) as BF. rewrite <- EF in BF.
  split; [rewrite HR; destruct Hd as [-> | ->]; reflexivity|].
  split.
  { assert (K : kept (snd (step s))).
    { apply kept_wfa. apply (p_steps dum lim hit HD 1 s). apply kept_wfa. split; [|red; lia].
      destruct Wf as (V1 & V2 & V3 & V4 & V5 & V6 & V7 & V8 & V9 & V10). repeat (split; [assumption|]). split; [unfold word; cbn [PC set_PC]; lia|]. split; assumption. }
    destruct K as [(V1 & V2 & V3 & V4 & V5 & V6 & V7 & V8 & V9 & V10) _].
    repeat (split; [assumption|]). split; [|split; assumption].
    change (PC (snd (step s))) with (pc (abs (snd (step s)))). rewrite S5. destruct last; [apply w_range|exact HPC]. }
  split; [exact MM|].
  split; [rewrite PV by tauto; exact F1|]. split; [rewrite PV by tauto; exact F2|]. split; [rewrite PV by tauto; exact F3|].
  split; [exact S5|].
  split; [change (A (snd (step s))) with (r (abs (snd (step s))) 7); rewrite S1; exact F4|].
  split; [exact (eq_trans S2 F7)|]. split; [exact (eq_trans S3 F8)|]. split; [exact (eq_trans S4 F9)|].
  destruct BF as (B1 & B2 & B3 & B4 & B5).
  split; [exact B1|]. split; [exact B2|]. split; [exact B3|]. split.
  { intros HL_. split; [exact B4|]. split; [exact B5|].
    assert (EB : W false BC s = 1) by (unfold last in HL_; lia).
    destruct SF as (_ & _ & _ & SP_ & _).
    { destruct Hd as [-> | ->]; cbn [Z.eqb Pos.eqb deviates_flags differs_flags]; [tauto|]. intros K. apply K. rewrite PX by discriminate. exact EB. }
    rewrite SP_. rewrite HL_. cbn [negb repeat_if jump_if]. rewrite F10. cbn [fP]. rewrite EB. reflexivity. }
  rewrite (step_cycles dum lim hit s Wf U).
  - f_equal. unfold cycles. rewrite EI. cbn [mm pc abs]. rewrite M0. cbn [Z.eqb Pos.eqb orb].
    assert (ET : taken (if d =? 1 then LDIR else LDDR) (s_pc (w (PC s + 2)) (abs s)) = negb last).
    { destruct Hd as [-> | ->]; reflexivity. }
    destruct Hd as [-> | ->]; cbn [Z.eqb Pos.eqb] in ET |- *; rewrite ET; destruct last; reflexivity.
  - rewrite EC. intros k [<- |[] ]. split; [lia|]. rewrite MM. destruct (Z.eqb_spec (PC s + 1) (W false DE s)); [exfalso; lia|reflexivity].
  - unfold cycles_differ. rewrite EI. cbn [fst]. destruct Hd as [-> | ->]; intros [].
Qed.
(** the whole block *)
Lemma block_copy d : d = 1 \/ d = -1 -> forall n s, at_block d s -> Z.of_nat n < 65536 -> W false BC s = w (Z.of_nat n + 1) ->
  (forall k, 0 <= k <= Z.of_nat n -> w (W false DE s + d * k) <> PC s /\ w (W false DE s + d * k) <> PC s + 1) ->
  let t := after (S n) s in
  (forall a, mem t a = copied d (S n) (W false HL s) (W false DE s) (mem s) a) /\
  W false HL t = w (W false HL s + d * (Z.of_nat n + 1)) /\ W false DE t = w (W false DE s + d * (Z.of_nat n + 1)) /\ W false BC t = 0 /\
  PC t = w (PC s + 2) /\ A t = A s /\ IX t = IX s /\ IY t = IY s /\ SP t = SP s /\
  samef (f (abs t)) (mkF (fS (f (abs s))) (fZ (f (abs s))) false false false false false (fC (f (abs s)))) /\
  ticks t = ticks s + 21 * Z.of_nat n + 16.
Proof.
  intros Hd. induction n as [|n IH]; intros s HB HN EB ND; cbv zeta.
  - assert (E0 : W false DE s <> PC s /\ W false DE s <> PC s + 1).
    { specialize (ND 0 ltac:(lia)). rewrite Z.mul_0_r, Z.add_0_r, w_id in ND by (apply W_range, HB). exact ND. }
    destruct (block_one d s Hd HB (proj1 E0) (proj2 E0)) as (_ & W' & MM & H1 & H2 & H3 & H4 & H5 & H6 & H7 & H8 & H9 & H10 & H11 & H12 & H13).
    cbn [Z80Spec.after]. change (w (Z.of_nat 0 + 1)) with 1 in EB. rewrite EB in *. cbn [Z.eqb Pos.eqb] in *. destruct (H12 eq_refl) as (H14 & H15 & H16).
    rewrite Z.mul_1_r. split; [exact MM|]. split; [exact H1|]. split; [exact H2|]. split; [exact H3|]. split; [exact H4|]. split; [exact H5|].
    split; [exact H6|]. split; [exact H7|]. split; [exact H8|]. split; [|rewrite H13; lia].
    unfold samef. cbn [fS fZ fH fP fN fC]. repeat split; assumption.
  - assert (E0 : W false DE s <> PC s /\ W false DE s <> PC s + 1).
    { specialize (ND 0 ltac:(lia)). rewrite Z.mul_0_r, Z.add_0_r, w_id in ND by (apply W_range, HB). exact ND. }
    destruct (block_one d s Hd HB (proj1 E0) (proj2 E0)) as (_ & W' & MM & H1 & H2 & H3 & H4 & H5 & H6 & H7 & H8 & H9 & H10 & H11 & _ & H13).
    assert (NL : (W false BC s =? 1) = false).
    { rewrite EB. unfold w. destruct (Z.eq_dec (Z.of_nat (S n) + 1) 65536) as [-> |]; [reflexivity|]. rewrite Z.mod_small by lia. lia. }
    rewrite NL in *. rewrite (Nat2Z.inj_succ n) in *. cbn [Z80Spec.after]. set (s' := snd (step s)) in *.
    assert (HB' : at_block d s').
    { destruct HB as (_ & HP & N0 & N1 & M0 & M1). rewrite <- H4 in HP, N0, N1. split; [exact W'|]. split; [exact HP|]. split; [exact N0|]. split; [exact N1|].
      rewrite !MM, H4. destruct (Z.eqb_spec (PC s) (W false DE s)); [exfalso; lia|]. destruct (Z.eqb_spec (PC s + 1) (W false DE s)); [exfalso; lia|]. split; assumption. }
    assert (EB' : W false BC s' = w (Z.of_nat n + 1)).
    { rewrite H3, EB, w_w_sub. f_equal. lia. }
    assert (ND' : forall k, 0 <= k <= Z.of_nat n -> w (W false DE s' + d * k) <> PC s' /\ w (W false DE s' + d * k) <> PC s' + 1).
    { intros k Hk. specialize (ND (k + 1) ltac:(lia)). rewrite H4, H2, w_w. replace (W false DE s + d + d * k) with (W false DE s + d * (k + 1)) by lia. exact ND. }
    destruct (IH s' HB' ltac:(lia) EB' ND') as (I1 & I2 & I3 & I4 & I5 & I6 & I7 & I8 & I9 & I10 & I11).
    cbn [Z80Spec.after] in *. fold s'.
    split.
    { assert (EXT : forall k u v m m', (forall a, m a = m' a) -> forall a, copied d k u v m a = copied d k u v m' a).
      { induction k as [|k IK]; intros u v m m' EM a; cbn [copied]; [apply EM|]. apply IK. intros b. rewrite !EM. reflexivity. }
      intros a. refine (eq_trans (I1 a) _). rewrite H1, H2. refine (EXT (S n) _ _ _ _ MM a). }
    rewrite I2, I3, I4, I5, I6, I7, I8, I9, I11, H1, H2, H4, H5, H6, H7, H8, H13, !w_w.
    split; [f_equal; lia|]. split; [f_equal; lia|]. split; [reflexivity|]. split; [reflexivity|]. split; [reflexivity|]. split; [reflexivity|].
    split; [reflexivity|]. split; [reflexivity|]. split; [|lia].
    rewrite H9, H10, H11 in I10. exact I10.
Qed.
End Z.
