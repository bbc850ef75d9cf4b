(** Z80: breakpoints in an instruction, stack round trips, decimal arithmetic. *)
From Verif Require Import Base Z80Model Z80Spec Z80Proofs Z80Proofs2 Z80Proofs3 Z80Proofs4 Z80Proofs5 Z80Proofs6 Z80Proofs7 Z80Proofs8 Z80Proofs9 Z80Proofs10 Z80Proofs11.

(** ** Decimal adjustment *)
Definition daaf (a : Z) (h n c : bool) : Z * bool :=
  let hi := c || (153 <? a) in
  let lo := h || (9 <? a mod 16) in
  let k := (if hi then 96 else 0) + (if lo then 6 else 0) in
  (if n then (a - k) mod 256 else (a + k) mod 256, hi).
Lemma daa_eq x : acc (daa x) = fst (daaf (acc x) (fH (f x)) (fN (f x)) (fC (f x))) /\ fC (f (daa x)) = snd (daaf (acc x) (fH (f x)) (fN (f x)) (fC (f x))).
Proof. split; reflexivity. Qed.
Lemma daa_pc x : pc (daa x) = pc x /\ (forall k, k <> 7 -> r (daa x) k = r x k).
Proof. split; [reflexivity|]. intros k Hk. unfold daa. cbv zeta. unfold szp, setf. cbn [r s_f setr s_r]. destruct (Z.eqb_spec k 7); [lia|reflexivity]. Qed.
Definition zall (lo : Z) (n : nat) (p : Z -> bool) : bool := forallb (fun k => p (lo + Z.of_nat k)) (seq 0 n).
Lemma zall_spec lo n p : zall lo n p = true -> forall k, lo <= k < lo + Z.of_nat n -> p k = true.
Proof.
  unfold zall. rewrite forallb_forall. intros H k Hk. specialize (H (Z.to_nat (k - lo))).
  rewrite Z2Nat.id in H by lia. replace (lo + (k - lo)) with k in H by lia. apply H. apply in_seq. lia.
Qed.
Lemma daa_add U L : 0 <= U < 19 -> 0 <= L < 20 ->
  daaf ((16 * U + L) mod 256) (16 <=? L) false (256 <=? 16 * U + L) = (bcd ((10 * U + L) mod 100), 100 <=? 10 * U + L).
Proof.
  intros HU HL.
  assert (S : zall 0 19 (fun U => zall 0 20 (fun L => let '(t, h) := daaf ((16 * U + L) mod 256) (16 <=? L) false (256 <=? 16 * U + L) in
     (t =? bcd ((10 * U + L) mod 100)) && Bool.eqb h (100 <=? 10 * U + L))) = true) by (vm_compute; reflexivity).
  pose proof (zall_spec _ _ _ (zall_spec _ _ _ S U ltac:(lia)) L ltac:(lia)) as K. cbv beta in K.
  destruct (daaf _ _ _ _) as [t h]. apply andb_prop in K. destruct K as [K1 K2]. apply Z.eqb_eq in K1. apply eqb_prop in K2. subst. reflexivity.
Qed.
Lemma daa_sub U L : -9 <= U < 10 -> -10 <= L < 10 ->
  daaf ((16 * U + L) mod 256) (L <? 0) true (16 * U + L <? 0) = (bcd ((10 * U + L) mod 100), 10 * U + L <? 0).
Proof.
  intros HU HL.
  assert (S : zall (-9) 19 (fun U => zall (-10) 20 (fun L => let '(t, h) := daaf ((16 * U + L) mod 256) (L <? 0) true (16 * U + L <? 0) in
     (t =? bcd ((10 * U + L) mod 100)) && Bool.eqb h (10 * U + L <? 0))) = true) by (vm_compute; reflexivity).
  pose proof (zall_spec _ _ _ (zall_spec _ _ _ S U ltac:(lia)) L ltac:(lia)) as K. cbv beta in K.
  destruct (daaf _ _ _ _) as [t h]. apply andb_prop in K. destruct K as [K1 K2]. apply Z.eqb_eq in K1. apply eqb_prop in K2. subst. reflexivity.
Qed.
Lemma sub_small U L : -9 <= U < 10 -> -10 <= L < 10 -> 0 <= 16 * U + L ->
  ~ (153 < (16 * U + L) mod 256 \/ ((L <? 0) = true /\ (16 * U + L) mod 256 < 6)).
Proof.
  intros HU HL P. rewrite Z.mod_small by lia. lia.
Qed.

Section Z.
Variable dum lim : Z.
Variable hit : Z -> bool.
Notation step := (Z80Model.step dum lim hit).
Notation after := (Z80Spec.after dum lim hit).
(** an instruction without prefix *)
Lemma one_code s o : wf s -> hit (PC s) = false -> decode (mem s (PC s)) = o -> kind o = 0 ->
  let x := count_r (s_pc (w (PC s + 1)) (abs s)) in
  fst (step s) = outcome (plain false o) /\
  (~ differs false o x -> same_but_flags (abs (snd (step s))) (sem false o x) /\
     (~ differs_flags false o x -> samef (f (abs (snd (step s)))) (f (sem false o x)))).
Proof.
  intros W N ED K. cbv zeta.
  assert (KE : kind_of (mem s (PC s)) = 0) by (rewrite <- kind_eq by apply W; rewrite ED; exact K).
  assert (EI : instr_at (abs s) = (plain false o, s_pc (w (PC s + 1)) (abs s))).
  { rewrite instr_rest. change (fst (next8 (abs s))) with (mem s (PC s)). unfold rest, kind_of in *.
    destruct (_ =? 203); [discriminate KE|]. destruct (_ =? 237); [discriminate KE|]. destruct (_ =? 221); [discriminate KE|].
    destruct (_ =? 253); [discriminate KE|]. cbn [orb]. rewrite ED. reflexivity. }
  assert (EC : codes (abs s) = []).
  { unfold codes. rewrite EI. cbn [fst]. change (mm (abs s) (pc (abs s))) with (mem s (PC s)). unfold kind_of in KE.
    destruct (_ =? 203); [discriminate KE|]. destruct (_ =? 237); [discriminate KE|]. destruct (_ =? 221); [discriminate KE|].
    destruct (_ =? 253); [discriminate KE|]. reflexivity. }
  assert (U : unbroken hit s) by (split; [exact N|rewrite EC; intros k []]).
  pose proof (step_eq dum lim hit s W U) as SE. rewrite EI in SE. destruct SE as [HR HS]. split; [exact HR|]. exact HS.
Qed.
(** well-formed after a step that leaves PC in the memory *)
Hypothesis HD : byte dum.
Lemma wf_kept s : wf s -> kept s.
Proof.
  intros Wf. pose proof (wf_PC s Wf) as HPC. unfold word in HPC. split; [|lia].
  destruct Wf as (V1 & V2 & V3 & V4 & V5 & V6 & V7 & V8 & V9 & V10). repeat (split; [assumption|]). split; [unfold word; cbn [PC set_PC]; lia|]. split; assumption.
Qed.
Lemma wf_step s : wf s -> word (PC (snd (step s))) -> wf (snd (step s)).
Proof.
  intros Wf HP. assert (K : kept (snd (step s))) by (apply kept_wfa, (p_steps dum lim hit HD 1 s), kept_wfa, wf_kept, Wf).
  destruct K as [(V1 & V2 & V3 & V4 & V5 & V6 & V7 & V8 & V9 & V10 & V11 & V12) _]. repeat (split; [assumption|]). assumption.
Qed.

(** PC stays in the memory, but for JR and DJNZ across its ends *)
Definition rel_code (c : Z) : Prop := c = 16 \/ c = 24 \/ c = 32 \/ c = 40 \/ c = 48 \/ c = 56.
Lemma pc_kept s : wf s -> (rel_code (mem s (PC s)) -> hit (PC s) = false -> ~ differs false (decode (mem s (PC s))) (s_pc (w (PC s + 1)) (abs s))) -> wf (snd (step s)).
Proof.
  intros Wf ND. pose proof (wf_PC s Wf) as HPC.
  assert (EC : rd dum s (PC s) = mem s (PC s)) by (rewrite rd_mm by exact HPC; reflexivity).
  assert (B : byte (mem s (PC s))) by apply Wf.
  assert (D : relative (op_at tab_00 (mem s (PC s))) \/ ~ relative (op_at tab_00 (mem s (PC s)))).
  { destruct (op_at tab_00 (mem s (PC s))); cbn [relative]; tauto. }
  destruct D as [D|D].
  - destruct (hit (PC s)) eqn:HH; [unfold Z80Model.step; rewrite HH; exact Wf|].
    assert (RC : rel_code (mem s (PC s))).
    { rewrite tab_00_eq in D by exact B.
      assert (S := sweep 256 (fun c => match decode c with JR _ | DJNZ => (c =? 16) || (c =? 24) || (c =? 32) || (c =? 40) || (c =? 48) || (c =? 56) | _ => true end)
        ltac:(vm_compute; reflexivity) (mem s (PC s)) ltac:(unfold byte in B; lia)). cbv beta in S. unfold rel_code.
      destruct (decode (mem s (PC s))); try (exfalso; exact D); lia. }
    specialize (ND RC eq_refl). rewrite tab_00_eq in D by exact B. set (o := decode (mem s (PC s))) in *.
    assert (K : kind o = 0) by (destruct o; try (exfalso; exact D); reflexivity).
    destruct (one_code s o Wf HH eq_refl K) as [_ S]. set (x := count_r (s_pc (w (PC s + 1)) (abs s))) in *.
    destruct S as [(_ & _ & _ & _ & Q5 & _) _]; [destruct o; try (exfalso; exact D); exact ND|].
    apply wf_step; [exact Wf|]. change (PC (snd (step s))) with (pc (abs (snd (step s)))). rewrite Q5.
    destruct o; try (exfalso; exact D); cbn [sem next8]; unfold jump_if;
      match goal with |- word (pc (if ?b then _ else _)) => destruct b end; cbn [pc s_pc setr s_r]; apply w_range.
  - apply wfP_word. apply p_step; [exact HD|auto|apply wfP_word; exact Wf|]. rewrite EC. intros R. exfalso. exact (D R).
Qed.

(** ** Decimal arithmetic *)
Lemma bcd_parts v : 0 <= v < 100 -> bcd v mod 16 = v mod 10 /\ bcd v = 16 * (v / 10) + v mod 10 /\ 0 <= v / 10 < 10 /\ 0 <= v mod 10 < 10 /\ v = 10 * (v / 10) + v mod 10.
Proof.
  intros H. pose proof (Z.div_mod v 10 ltac:(lia)). pose proof (Z.mod_pos_bound v 10 ltac:(lia)).
  assert (0 <= v / 10 < 10) by lia. unfold bcd. split; [|lia].
  symmetry. apply Z.mod_unique with (q := v / 10); lia.
Qed.
Definition dec_op (k : alu) (s : cpu) (a b : Z) : Z :=
  let c := if fC (f (abs s)) then 1 else 0 in
  match k with ADD => a + b | ADC => a + b + c | SUB => a - b | _ => a - b - c end.
Lemma decimal k s a b : wf s -> k = ADD \/ k = ADC \/ k = SUB \/ k = SBC -> PC s < 65534 ->
  (forall j, 0 <= j <= 2 -> hit (PC s + j) = false) ->
  decode (mem s (PC s)) = ALU k LN -> mem s (PC s + 2) = 39 ->
  0 <= a < 100 -> 0 <= b < 100 -> A s = bcd a -> mem s (PC s + 1) = bcd b ->
  let t := after 2 s in let v := dec_op k s a b in
  A t = bcd (v mod 100) /\ fC (f (abs t)) = ((v <? 0) || (100 <=? v)) /\ PC t = w (PC s + 3).
Proof.
  intros Wf Hk HP NH E1 E2 Ha Hb EA EB. cbv zeta. pose proof (wf_PC s Wf) as HPC. unfold word in HPC.
  pose proof (NH 0 ltac:(lia)) as N0. rewrite Z.add_0_r in N0.
  destruct (one_code s (ALU k LN) Wf N0 E1 eq_refl) as [R1 S1].
  set (x := count_r (s_pc (w (PC s + 1)) (abs s))) in *.
  destruct (bcd_parts b Hb) as (B1 & B2 & B3 & B4 & B5). destruct (bcd_parts a Ha) as (A1 & A2 & A3 & A4 & A5).
  assert (VX : mm x (pc x) = bcd b).
  { change (mm x (pc x)) with (mem s (w (PC s + 1))). rewrite w_id by (unfold word; lia). exact EB. }
  assert (S1' : same_but_flags (abs (snd (step s))) (sem false (ALU k LN) x) /\ samef (f (abs (snd (step s)))) (f (sem false (ALU k LN) x))).
  { destruct S1 as [K1 K2]; [destruct Hk as [-> |[-> |[-> | ->] ] ]; intros [] |]. split; [exact K1|]. apply K2.
    assert (NF : ~ (fC (f x) = true /\ value false LN x mod 16 = 15)).
    { intros [_ K]. change (value false LN x) with (mm x (pc x)) in K. rewrite VX, B1 in K. lia. }
    destruct Hk as [-> |[-> |[-> | ->] ] ]; [intros [] |exact NF|intros [] |exact NF]. }
  clear S1. rename S1' into S1. set (s1 := snd (step s)) in *.
  assert (ES : sem false (ALU k LN) x = arith k (bcd b) (s_pc (w (pc x + 1)) x)).
  { cbn [sem operand next8]. rewrite VX. reflexivity. }
  rewrite ES in S1. clear ES. set (z := s_pc (w (pc x + 1)) x) in *.
  assert (PZ : pc z = PC s + 2).
  { change (pc z) with (w (w (PC s + 1) + 1)). rewrite w_w, w_id by (unfold word; lia). lia. }
  assert (AZ : acc z = bcd a) by exact EA.
  set (c := if fC (f (abs s)) then 1 else 0).
  assert (CZ : carry z = c) by reflexivity. assert (HC : c = 0 \/ c = 1) by (unfold c; destruct (fC _); lia).
  destruct S1 as [(Q1 & _ & _ & _ & Q5 & Q6 & _) (F1 & F2 & F3 & F4 & F5 & F6)].
  assert (PS : PC s1 = PC s + 2).
  { change (PC s1) with (pc (abs s1)). rewrite Q5, <- PZ. destruct Hk as [-> |[-> |[-> | ->] ] ]; reflexivity. }
  assert (W1 : wf s1) by (apply wf_step; [exact Wf|fold s1; rewrite PS; unfold word; lia]).
  assert (E3 : decode (mem s1 (PC s1)) = DAA).
  { change (mem s1 (PC s1)) with (mm (abs s1) (PC s1)). rewrite Q6, PS.
    replace (mm (arith k (bcd b) z) (PC s + 2)) with (mem s (PC s + 2)) by (destruct Hk as [-> |[-> |[-> | ->] ] ]; reflexivity). rewrite E2. reflexivity. }
  destruct (one_code s1 DAA W1 ltac:(rewrite PS; apply NH; lia) E3 eq_refl) as [R2 S2].
  assert (T2 : after 2 s = snd (step s1)) by reflexivity. rewrite T2. clear T2.
  set (x1 := count_r (s_pc (w (PC s1 + 1)) (abs s1))) in *.
  assert (AX : acc x1 = acc (arith k (bcd b) z)) by (change (acc x1) with (r (abs s1) 7); rewrite Q1; reflexivity).
  assert (FX : fH (f x1) = fH (f (arith k (bcd b) z)) /\ fN (f x1) = fN (f (arith k (bcd b) z)) /\ fC (f x1) = fC (f (arith k (bcd b) z))).
  { split; [exact F3|]. split; [exact F5|exact F6]. }
  destruct FX as (FH & FN & FC).
  assert (G : ~ differs_flags false DAA x1 /\
     fst (daaf (acc x1) (fH (f x1)) (fN (f x1)) (fC (f x1))) = bcd (dec_op k s a b mod 100) /\
     snd (daaf (acc x1) (fH (f x1)) (fN (f x1)) (fC (f x1))) = ((dec_op k s a b <? 0) || (100 <=? dec_op k s a b))).
  { cbn [differs_flags]. rewrite AX, FH, FN, FC.
    assert (PLUS : forall e, e = 0 \/ e = 1 -> arith k (bcd b) z = add (bcd b) e z -> dec_op k s a b = a + b + e ->
       ~ (fN (f (arith k (bcd b) z)) = true /\ fC (f (arith k (bcd b) z)) = false /\ (153 < acc (arith k (bcd b) z) \/ (fH (f (arith k (bcd b) z)) = true /\ acc (arith k (bcd b) z) < 6))) /\
       daaf (acc (arith k (bcd b) z)) (fH (f (arith k (bcd b) z))) (fN (f (arith k (bcd b) z))) (fC (f (arith k (bcd b) z))) =
         (bcd (dec_op k s a b mod 100), (dec_op k s a b <? 0) || (100 <=? dec_op k s a b))).
    { intros e He -> ->. change (fN (f (add (bcd b) e z))) with false. split; [intros [K _]; discriminate K|].
      change (acc (add (bcd b) e z)) with ((acc z + bcd b + e) mod 256). change (fH (f (add (bcd b) e z))) with (16 <=? acc z mod 16 + bcd b mod 16 + e).
      change (fC (f (add (bcd b) e z))) with (256 <=? acc z + bcd b + e). rewrite AZ, A1, B1.
      replace (bcd a + bcd b + e) with (16 * (a / 10 + b / 10) + (a mod 10 + b mod 10 + e)) by lia.
      rewrite daa_add by lia. replace (10 * (a / 10 + b / 10) + (a mod 10 + b mod 10 + e)) with (a + b + e) by lia. f_equal. lia. }
    assert (MINUS : forall e, e = 0 \/ e = 1 -> arith k (bcd b) z = sub (bcd b) e z -> dec_op k s a b = a - b - e ->
       ~ (fN (f (arith k (bcd b) z)) = true /\ fC (f (arith k (bcd b) z)) = false /\ (153 < acc (arith k (bcd b) z) \/ (fH (f (arith k (bcd b) z)) = true /\ acc (arith k (bcd b) z) < 6))) /\
       daaf (acc (arith k (bcd b) z)) (fH (f (arith k (bcd b) z))) (fN (f (arith k (bcd b) z))) (fC (f (arith k (bcd b) z))) =
         (bcd (dec_op k s a b mod 100), (dec_op k s a b <? 0) || (100 <=? dec_op k s a b))).
    { intros e He -> ->. change (fN (f (sub (bcd b) e z))) with true.
      change (acc (sub (bcd b) e z)) with ((acc z - bcd b - e) mod 256). change (fH (f (sub (bcd b) e z))) with (acc z mod 16 <? bcd b mod 16 + e).
      change (fC (f (sub (bcd b) e z))) with (acc z - bcd b - e <? 0). rewrite AZ, A1, B1.
      replace (bcd a - bcd b - e) with (16 * (a / 10 - b / 10) + (a mod 10 - b mod 10 - e)) by lia.
      replace (a mod 10 <? b mod 10 + e) with (a mod 10 - b mod 10 - e <? 0) by lia.
      split.
      - intros (_ & K & D). revert D. apply sub_small; lia.
      - rewrite daa_sub by lia. replace (10 * (a / 10 - b / 10) + (a mod 10 - b mod 10 - e)) with (a - b - e) by lia. f_equal. lia. }
    destruct Hk as [-> |[-> |[-> | ->] ] ].
    - destruct (PLUS 0 ltac:(lia) eq_refl ltac:(cbn [dec_op]; lia)) as [P1 P2]. rewrite P2. split; [exact P1|split; reflexivity].
    - destruct (PLUS c HC eq_refl eq_refl) as [P1 P2]. rewrite P2. split; [exact P1|split; reflexivity].
    - destruct (MINUS 0 ltac:(lia) eq_refl ltac:(cbn [dec_op]; lia)) as [P1 P2]. rewrite P2. split; [exact P1|split; reflexivity].
    - destruct (MINUS c HC eq_refl eq_refl) as [P1 P2]. rewrite P2. split; [exact P1|split; reflexivity]. }
  destruct G as (G1 & G2 & G3). destruct S2 as [(T1 & _ & _ & _ & T5 & _) T7]; [intros []|]. specialize (T7 G1).
  cbn [sem] in *. split.
  - change (A (snd (step s1))) with (r (abs (snd (step s1))) 7). rewrite T1. change (r (daa x1) 7) with (acc (daa x1)). rewrite (proj1 (daa_eq x1)). exact G2.
  - split.
    + destruct T7 as (_ & _ & _ & _ & _ & TC). rewrite TC. rewrite (proj2 (daa_eq x1)). exact G3.
    + change (PC (snd (step s1))) with (pc (abs (snd (step s1)))). rewrite T5. rewrite (proj1 (daa_pc x1)).
      change (pc x1) with (w (PC s1 + 1)). rewrite PS. f_equal. lia.
Qed.

(** ** Breakpoints *)
Lemma break_first s : hit (PC s) = true -> step s = (BREAKPOINT, s).
Proof. intros H. unfold Z80Model.step. rewrite H. reflexivity. Qed.
Lemma break_inside s k : wf s -> hit (PC s) = false -> In k (codes (abs s)) -> hit (w (PC s + k)) = true ->
  (forall j, In j (codes (abs s)) -> j < k -> hit (w (PC s + j)) = false) ->
  fst (step s) = BREAKPOINT /\ abs (snd (step s)) = s_pc (w (PC s + k)) (count_r (abs s)).
Proof.
  intros W N0 Hk HK HJ. unfold Z80Model.step. rewrite N0.
  assert (EC : fst (fetch dum s) = mem s (PC s)) by (cbn [fetch fst]; rewrite rd_mm by apply wf_PC, W; reflexivity).
  assert (EA : abs (snd (fetch dum s)) = s_pc (w (PC s + 1)) (abs s)) by reflexivity.
  destruct (fetch_eq dum s W) as (_ & _ & W1 & B & _). destruct (fetch dum s) as [c s1]. cbn [fst snd] in *. 
  set (s2 := set_ct false (set_ib false (set_rr (inc_R (rr (set_ticks (ticks s1 + 1) s1))) (set_ticks (ticks s1 + 1) s1)))).
  assert (EA2 : abs s2 = s_pc (w (PC s + 1)) (count_r (abs s))) by (change (abs s2) with (count_r (abs s1)); rewrite EA; reflexivity).
  assert (G : fst (Z80Model.run dum lim hit (PC s) c s2) = BREAKPOINT /\ abs (snd (Z80Model.run dum lim hit (PC s) c s2)) = s_pc (w (PC s + k)) (count_r (abs s))).
  { assert (P2 : PC s2 = w (PC s + 1)) by (change (PC s2) with (pc (abs s2)); rewrite EA2; reflexivity).
    assert (KC : kind_of c <> 0).
    { intros KZ. revert Hk. unfold codes. rewrite instr_rest. change (fst (next8 (abs s))) with (mem s (PC s)). unfold rest. change (mm (abs s) (pc (abs s))) with (mem s (PC s)). rewrite <- EC.
      unfold kind_of in KZ. destruct (c =? 203); [discriminate KZ|]. destruct (c =? 237); [discriminate KZ|]. destruct (c =? 221); [discriminate KZ|]. destruct (c =? 253); [discriminate KZ|]. intros []. }
    unfold Z80Model.run. rewrite tab_00_eq by exact B. pose proof (kind_eq c B) as KE.
    destruct (Z.eq_dec k 1) as [-> |NK].
    - rewrite P2, HK. cbn [fst snd].
      destruct (decode c) eqn:ED; cbn [kind] in KE; try (exfalso; congruence); cbn [fst snd]; try (split; [reflexivity|exact EA2]).
      + exfalso. unfold kind_of in KE. destruct (c =? 203); [discriminate KE|]. destruct (c =? 237); [discriminate KE|]. destruct (c =? 221); [discriminate KE|]. destruct (c =? 253); discriminate KE.
      + exfalso. unfold kind_of in KE. destruct (c =? 203); [discriminate KE|]. destruct (c =? 237); [discriminate KE|]. destruct (c =? 221); [discriminate KE|]. destruct (c =? 253); discriminate KE.
    - (* behind DD CB d *)
      assert (C3 : k = 3 /\ In 1 (codes (abs s)) /\ (c = 221 \/ c = 253) /\ mem s (w (PC s + 1)) = 203).
      { revert Hk. unfold codes. rewrite instr_rest. change (fst (next8 (abs s))) with (mem s (PC s)). change (mm (abs s) (pc (abs s))) with (mem s (PC s)). unfold rest. rewrite <- EC.
        destruct (Z.eqb_spec c 203); [cbn [next8 fst]; intros [K|[] ]; exfalso; lia|].
        destruct (Z.eqb_spec c 237).
        { cbn [next8 fst]. destruct (decode_ed _); cbn [orb]; intros [K|[] ]; exfalso; lia. }
        destruct ((c =? 221) || (c =? 253)) eqn:E; [|cbn [next8 fst orb]; rewrite E; intros []].
        cbn [next8 fst snd mm pc s_pc abs]. assert (BM : byte (mem s (w (PC s + 1)))) by apply W.
        destruct (kind_xd _ BM) as [E1 | [E1 | (o & E1 & KO)] ]; rewrite E1.
        - cbn [fst]. intros [K|[] ]; exfalso; lia.
        - cbn [fst]. intros [K|[K|[] ] ]; [exfalso; lia|]. split; [lia|]. split; [left; reflexivity|]. split; [lia|].
          assert (S := map_at (fun c => c =? 203) (fun c => match indexed c with Some PXCB => true | _ => false end) ltac:(vm_compute; reflexivity) _ BM).
          cbv beta in S. rewrite E1 in S. lia.
        - destruct o; try discriminate KO; cbn [fst orb]; rewrite E; intros [K|[] ]; exfalso; lia. }
      destruct C3 as (-> & I1 & CX & M1). specialize (HJ 1 I1 ltac:(lia)).
      assert (KX : exists y, decode c = PXD y) by (destruct CX as [-> | ->]; [exists false|exists true]; reflexivity).
      destruct KX as [y ->]. rewrite P2, HJ.
      assert (EC2 : fst (fetch dum s2) = 203).
      { cbn [fetch fst]. rewrite rd_mm by (rewrite P2; apply w_range). rewrite P2, EA2. exact M1. }
      assert (EA3 : abs (snd (fetch dum s2)) = s_pc (w (PC s + 2)) (count_r (abs s))).
      { change (abs (snd (fetch dum s2))) with (s_pc (w (PC s2 + 1)) (abs s2)). rewrite EA2, P2, w_w. replace (PC s + 1 + 1) with (PC s + 2) by lia. reflexivity. }
      destruct (fetch dum s2) as [c2 s3]. cbn [fst snd] in *. subst c2. change (op_at tab_xd 203) with PXCB.
      assert (EA4 : abs (snd (fetch dum s3)) = s_pc (w (PC s + 3)) (count_r (abs s))).
      { change (abs (snd (fetch dum s3))) with (s_pc (w (pc (abs s3) + 1)) (abs s3)). rewrite EA3. cbn [pc s_pc]. rewrite w_w. replace (PC s + 2 + 1) with (PC s + 3) by lia. reflexivity. }
      destruct (fetch dum s3) as [d s4]. cbn [fst snd] in *.
      assert (P4 : PC s4 = w (PC s + 3)) by (change (PC s4) with (pc (abs s4)); rewrite EA4; reflexivity).
      rewrite P4, HK. split; [reflexivity|exact EA4]. }
  destruct (Z80Model.run dum lim hit (PC s) c s2) as [res s3]. exact G.
Qed.
End Z.
