(** Proofs about the MOS6502: one step, interrupts, decimal mode. *)
From Verif Require Import Base M65Model M65Spec M65Obs M65Proofs M65Proofs2 M65Proofs3 M65Proofs4 M65Proofs5.

Lemma look_in {T} (l : list (Z * T)) c f : look l c = Some f -> In (c, f) l.
Proof.
  induction l as [|[k g] l IH]; cbn [look]; [discriminate|]. destruct (k =? c) eqn:E.
  - intros [= ->]. left. f_equal. lia.
  - intros H. right. auto.
Qed.
(** the table has exactly the opcodes of the manual *)
Lemma look_decode c : is_u8 c -> (look itab c = None <-> decode c = None).
Proof.
  intros Hc.
  pose proof (sweep1 (fun c => Bool.eqb (match look itab c with None => true | _ => false end) (match decode c with None => true | _ => false end))
    256 ltac:(vm_compute; reflexivity) c Hc) as H. cbv beta in H. apply eqb_prop in H.
  destruct (look itab c), (decode c); split; intros; try discriminate; reflexivity.
Qed.
Lemma table c i m : is_u8 c -> decode c = Some (i, m) -> exists f, look itab c = Some f /\
  (i <> BRK -> run_ok f i m (fun d => cycles false i m d + extra false i m d)) /\ (i = BRK -> f = M65Model.BRK).
Proof.
  intros Hc Hd. destruct (look itab c) as [f|] eqn:E.
  - exists f. split; [reflexivity|]. apply look_in in E. pose proof itab_ok as H. rewrite Forall_forall in H. specialize (H _ E).
    destruct H as (i' & m' & D & H1 & H2). cbn [fst snd] in *. rewrite Hd in D. injection D as <- <-. auto.
  - apply look_decode in E; [|exact Hc]. congruence.
Qed.

Definition op_at (t : st) : Z := rd t (PC t).
Lemma op_byte t : bytes t -> is_u8 (op_at t).
Proof. intros (_ & _ & _ & _ & _ & H & _ & HM). unfold op_at, rd. destruct (_ && _); [apply HM|exact H]. Qed.
Lemma exec_some t f : look itab (op_at t) = Some f -> exec_inst t = (true, f (start t)).
Proof.
  intros H. unfold exec_inst, fetch. change (rd (sSetB false t) (PC (sSetB false t))) with (op_at t). rewrite H. rewrite land_ffff. reflexivity.
Qed.
Lemma exec_none t : look itab (op_at t) = None -> exec_inst t = (false, sSetB false t).
Proof. intros H. unfold exec_inst, fetch. change (rd (sSetB false t) (PC (sSetB false t))) with (op_at t). rewrite H. reflexivity. Qed.

Lemma exec_run t i m : bytes t -> decode (op_at t) = Some (i, m) -> i <> BRK ->
  exists t', exec_inst t = (true, t') /\
    (comparable i m (view t) -> view t' = effect i (operand false m (view t)) (at1 (view t)) (setPC (pc (view t) + len m) (view t))) /\
    bytes t' /\ 0 <= PC t' <= 65536 /\ ((i = RTS -> comparable i m (view t)) -> PC t' < 65536) /\
    brk t' = brk t /\ set_b t' = false /\ lvl t' = (match i with RTI => pop_level (lvl t) | _ => lvl t end) /\ hole t' = hole t /\
    ticks t' = ticks t + cycles false i m (view t) + extra false i m (view t) /\ (Z.testbit (rF t') 4 = true -> Z.testbit (rF t) 4 = true).
Proof.
  intros Ht Hd Hi. destruct (table _ i m (op_byte t Ht) Hd) as (f & E & Hr & _).
  exists (f (start t)). split; [apply exec_some; exact E|].
  destruct (Hr Hi t Ht) as (H1 & H2 & H3 & H4 & H5 & H6 & H7 & H8 & H9 & H10). rewrite H9. repeat (split; [assumption || lia|]). exact H10.
Qed.
Lemma op_at_ram t : wf t -> op_at t = ram (view t) (pc (view t)).
Proof. intros [_ H]. unfold op_at. rewrite rd_in by exact H. reflexivity. Qed.

Lemma operand_w m c : zp_end m c = false -> 0 <= at1 c < 256 -> operand true m c = operand false m c /\ crossed true m c = crossed false m c.
Proof.
  intros H Hb. destruct m; try (split; reflexivity); cbn [zp_end] in H; cbn [operand crossed]; unfold zpword.
  - rewrite (Z.mod_small (_ + 1)) by lia. split; reflexivity.
  - rewrite (Z.mod_small (at1 c + 1)) by lia. split; reflexivity.
Qed.

(** Interrupt sequence *)
Lemma accept_ok ad lv (b : bool) t : bytes t -> 0 <= PC t < 65536 -> 0 <= ad < 65535 ->
  let t' := accept_it ad lv b t in
  view t' = interrupt (Z.testbit (rF t) 4) ad (view t) /\ bytes t' /\ 0 <= PC t' < 65536 /\
  brk t' = (if b then false else brk t) /\ set_b t' = set_b t /\ lvl t' = lv :: lvl t /\ hole t' = hole t /\ ticks t' = ticks t + 7 /\
  Z.testbit (rF t') 4 = Z.testbit (rF t) 4 && negb (set_b t).
Proof.
  intros Ht Hp Had. cbv zeta. unfold accept_it. cbv zeta.
  destruct (push_addr_ok (PC t) (tick 2 t) Ht Hp) as (H1 & H2 & (K1 & K2 & K3 & K4 & K5) & H4 & H5).
  change (PC (tick 2 t)) with (PC t). set (t1 := push_addr (PC t) (tick 2 t)) in *.
  pose proof (psh_ok (Z.lor (rF t1) 0x20) t1 H2) as (G1 & G2 & (J1 & J2 & J3 & J4 & J5) & G4 & G5 & _).
  unfold psh in *. set (t2 := wr (0x0100 + rSP t1) (Z.lor (rF t1) 0x20) t1) in *.
  assert (E2 : t2 = sM (mem t2) t1). { unfold t2. rewrite wr_in by (apply sp_addr; assumption). reflexivity. }
  clearbody t2. clearbody t1. set (v := rSP t2 - 1) in *.
  assert (Hs : set_b t2 = set_b t) by (rewrite E2; exact K2).
  assert (HF2 : rF t2 = rF t) by (rewrite E2; exact H5).
  rewrite Hs.
  set (f := if set_b t then Z.ldiff (rF t) flagB else rF t).
  assert (Hf : is_u8 f). { unfold f. assert (is_u8 (rF t)) by apply Ht. destruct (set_b t); bytef. }
  assert (E3 : (if set_b t then sF (Z.ldiff (rF t2) flagB) t2 else t2) = sF f t2).
  { rewrite HF2. unfold f. destruct (set_b t); [reflexivity|]. rewrite <- HF2. destruct t2; reflexivity. }
  rewrite E3. change (rSP (sF f t2)) with (rSP t2). fold v.
  set (t3 := W cSP v t2) in *.
  replace (W cSP v (sF f t2)) with (sF f t3) by reflexivity. clearbody v.
  assert (Hb3 : bytes (sF f t3)). { pose proof (bytes_W cF f t3 G2) as Q. cbn [W] in Q. rewrite (u8_id f Hf) in Q. exact Q. }
  set (ft := tick 1 (sF f t3)).
  assert (Hra : read_addr ft ad = memword (view t3) ad).
  { rewrite read_addr_eq; [|exact Hb3|lia]. unfold memword. rewrite (Z.mod_small (ad + 1)) by lia. reflexivity. }
  assert (Hm : 0 <= memword (view t3) ad < 65536) by (apply word_range; apply G2).
  rewrite Hra.
  assert (Hff : flags_of (Z.lor f flagI) = mkP (Z.testbit (rF t) 7) (Z.testbit (rF t) 6) (Z.testbit (rF t) 3) true (Z.testbit (rF t) 1) (Z.testbit (rF t) 0)).
  { unfold f, flags_of. destruct (set_b t); f_equal; fbits; reflexivity. }
  assert (Hfb : is_u8 (Z.lor f flagI)) by bytef.
  assert (V : view t3 = push (P_byte (p (view t)) (Z.testbit (rF t) 4)) (push (PC t mod 256) (push (PC t / 256) (view t)))).
  { rewrite G1, H1. f_equal. rewrite H5. apply P_byte_eq. apply Ht. }
  split.
  { destruct b; unfold interrupt; change (p (push (pc (view t) mod 256) (push (pc (view t) / 256) (view t)))) with (p (view t));
    change (pc (view t)) with (PC t); rewrite <- V;
    unfold setPC, setI, setP; cbn [a x y s p pc ram]; change (mem t3) with (ram (view t3));
    rewrite (Z.mod_small (memword _ _)) by exact Hm; unfold view at 1; cbn [rA rX rY rSP rF PC mem sLvl sBrk sF sPC tick sTk ft];
    rewrite Hff; assert (Hp3 : flags_of (rF t3) = flags_of (rF t)) by (unfold t3; cbn [W rF sSP]; rewrite HF2; reflexivity);
    change (p (view t3)) with (flags_of (rF t3)); rewrite Hp3; reflexivity. }
  assert (Hb4 : bytes (sF (Z.lor f flagI) t3)). { pose proof (bytes_W cF (Z.lor f flagI) t3 G2) as Q. cbn [W] in Q. rewrite (u8_id _ Hfb) in Q. exact Q. }
  split; [destruct b; exact Hb4|]. split; [destruct b; cbn [PC sLvl sBrk sF sPC]; exact Hm|].
  assert (B3 : brk t3 = brk t) by (rewrite J1; exact K1). assert (L3 : lvl t3 = lvl t) by (rewrite J3; exact K3). assert (O3 : hole t3 = hole t) by (rewrite J4; exact K4).
  assert (S3 : set_b t3 = set_b t) by (rewrite J2; exact K2).
  assert (T3 : ticks t3 = ticks t + 4) by (rewrite J5, K5; cbn [ticks tick sTk]; lia).
  split; [destruct b; [reflexivity|exact B3]|]. split; [destruct b; exact S3|]. split; [destruct b; cbn [lvl sLvl sBrk sF sPC tick sTk ft]; rewrite L3; reflexivity|].
  split; [destruct b; exact O3|].
  split; [destruct b; cbn [ticks sLvl sBrk sF sPC tick sTk ft]; lia|].
  assert (R4 : Z.testbit (Z.lor f flagI) 4 = Z.testbit (rF t) 4 && negb (set_b t)).
  { unfold f. destruct (set_b t); cbn [negb]; fbits; reflexivity. }
  destruct b; exact R4.
Qed.

(** Decimal mode *)
Definition dec_chk (k u v : Z) : bool :=
  if is_bcd u && is_bcd v then
    (let sum := bcd v + bcd u + k in
     let sum' := if 99 <? sum then sum - 100 else sum in
     Bool.eqb (99 <? sum) (100 <=? dec_val u + dec_val v + k) &&
     (u8 (pack sum') =? dec_byte ((dec_val u + dec_val v + k) mod 100))) &&
    (let r := bcd u - bcd v - (if k =? 0 then 1 else 0) in
     let r' := if r <? 0 then r + 100 else r in
     Bool.eqb (negb (r <? 0)) (0 <=? dec_val u - dec_val v - (1 - k)) &&
     (u8 (pack r') =? dec_byte ((dec_val u - dec_val v - (1 - k)) mod 100)))
  else true.
Lemma bcd_dec u : is_u8 u -> bcd u = dec_val u.
Proof.
  intros H. apply Z.eqb_eq. revert u H.
  exact (sweep1 (fun u => bcd u =? dec_val u) 256 ltac:(vm_compute; reflexivity)).
Qed.
Lemma pack_dec n : 0 <= n < 100 -> u8 (pack n) = dec_byte n.
Proof.
  intros H. apply Z.eqb_eq. revert n H.
  exact (sweep1 (fun n => u8 (pack n) =? dec_byte n) 100 ltac:(vm_compute; reflexivity)).
Qed.
Lemma dec_sweep (b : bool) : forall u v, is_u8 u -> is_u8 v -> dec_chk (b2z b) u v = true.
Proof.
  intros u v Hu Hv. unfold dec_chk. destruct (is_bcd u && is_bcd v) eqn:E; [|reflexivity].
  rewrite !bcd_dec by assumption. cbv zeta.
  assert (Hk : 0 <= b2z b <= 1) by (destruct b; cbn; lia). set (k := b2z b) in *. clearbody k.
  assert (Hdu : 0 <= dec_val u < 100) by (unfold is_bcd in E; unfold is_u8 in *; unfold dec_val; lia).
  assert (Hdv : 0 <= dec_val v < 100) by (unfold is_bcd in E; unfold is_u8 in *; unfold dec_val; lia).
  set (x := dec_val u) in *. set (y := dec_val v) in *. clearbody x y. clear E Hu Hv.
  assert (Ek : (if k =? 0 then 1 else 0) = 1 - k) by (destruct (Z.eqb_spec k 0); lia). rewrite Ek.
  repeat (apply andb_true_intro; split); try (match goal with |- Bool.eqb _ _ = true => apply eqb_true_iff; lia end).
  - destruct (99 <? y + x + k) eqn:E9.
    + rewrite pack_dec by lia. apply Z.eqb_eq. f_equal. lia.
    + rewrite pack_dec by lia. apply Z.eqb_eq. f_equal. lia.
  - destruct (x - y - (1 - k) <? 0) eqn:E9.
    + rewrite pack_dec by lia. apply Z.eqb_eq. f_equal. lia.
    + rewrite pack_dec by lia. apply Z.eqb_eq. f_equal. lia.
Qed.
(** only A and the flags N Z C change *)
Definition arith_only (c d : cpu) : Prop :=
  x d = x c /\ y d = y c /\ s d = s c /\ pc d = pc c /\ ram d = ram c /\ fI (p d) = fI (p c) /\ fD (p d) = fD (p c) /\ fV (p d) = fV (p c).
Lemma adc_dec c l t : bytes t -> opd c l t -> fD (p (view t)) = true ->
  let v := R c t in let k := b2z (fC (p (view t))) in
  is_bcd (rA t) = true -> is_bcd v = true ->
  rA (adc (c, t)) = dec_byte ((dec_val (rA t) + dec_val v + k) mod 100) /\
  fC (p (view (adc (c, t)))) = (100 <=? dec_val (rA t) + dec_val v + k) /\
  fZ (p (view (adc (c, t)))) = (rA (adc (c, t)) =? 0) /\ fN (p (view (adc (c, t)))) = (128 <=? rA (adc (c, t))) /\
  arith_only (view t) (view (adc (c, t))).
Proof.
  intros Ht (Hr & Hb & _) HD. cbv zeta. intros B1 B2. assert (HA : is_u8 (rA t)) by apply Ht. assert (HF : is_u8 (rF t)) by apply Ht.
  pose proof (dec_sweep (fC (p (view t))) (rA t) (R c t) HA Hb) as H. unfold dec_chk in H. rewrite B1, B2 in H. cbn [andb] in H.
  apply andb_prop in H. destruct H as [H _]. apply andb_prop in H. destruct H as [H1 H2]. apply eqb_prop in H1. apply Z.eqb_eq in H2.
  unfold adc. cbv beta iota zeta. change flagD with 8. rewrite isset_8. change (Z.testbit (rF t) 3) with (fD (p (view t))). rewrite HD. cbn [negb].
  rewrite (u8_id _ Hb). rewrite carry_eq. set (k := b2z (fC (p (view t)))) in *. rewrite H2, H1. rewrite <- H1.
  set (q := dec_byte _) in *. assert (Hq : is_u8 q) by (rewrite <- H2; apply is_u8_u8). rewrite isset_80, sweep_N by exact Hq.
  set (f0 := if 99 <? _ then _ else _).
  assert (Hf0 : is_u8 f0) by (unfold f0; destruct (99 <? _); bytef).
  set (f := orif (128 <=? q) flagN (orif (q =? 0) flagZ f0)). assert (Hf : is_u8 f) by (unfold f; bytef).
  assert (EA : rA (W cF f (W cA q t)) = q) by exact (u8_id q Hq). rewrite EA.
  rewrite view_WF by exact Hf. cbn [p setP]. 
  split; [reflexivity|]. unfold flags_of. cbn [fC fZ fN fV fI fD setP].
  split; [unfold f, f0; destruct (99 <? _); fbits; reflexivity|].
  split; [unfold f, f0; destruct (99 <? _); fbits; reflexivity|].
  split; [unfold f, f0; destruct (99 <? _); fbits; reflexivity|].
  unfold arith_only. cbn [x y s pc ram p fI fD fV setP]. repeat (split; [reflexivity|]).
  split; [unfold f, f0; destruct (99 <? _); unfold flags_of, view; cbn [p fI]; fbits; reflexivity|].
  split; [unfold f, f0; destruct (99 <? _); unfold flags_of, view; cbn [p fD]; fbits; reflexivity|].
  unfold f, f0; destruct (99 <? _); unfold flags_of, view; cbn [p fV]; fbits; reflexivity.
Qed.
Lemma sbc_dec c l t : bytes t -> opd c l t -> fD (p (view t)) = true ->
  let v := R c t in let k := b2z (fC (p (view t))) in
  is_bcd (rA t) = true -> is_bcd v = true ->
  rA (sbc (c, t)) = dec_byte ((dec_val (rA t) - dec_val v - (1 - k)) mod 100) /\
  fC (p (view (sbc (c, t)))) = (0 <=? dec_val (rA t) - dec_val v - (1 - k)) /\
  fZ (p (view (sbc (c, t)))) = (rA (sbc (c, t)) =? 0) /\ fN (p (view (sbc (c, t)))) = (128 <=? rA (sbc (c, t))) /\
  arith_only (view t) (view (sbc (c, t))).
Proof.
  intros Ht (Hr & Hb & _) HD. cbv zeta. intros B1 B2. assert (HA : is_u8 (rA t)) by apply Ht. assert (HF : is_u8 (rF t)) by apply Ht.
  pose proof (dec_sweep (fC (p (view t))) (rA t) (R c t) HA Hb) as H. unfold dec_chk in H. rewrite B1, B2 in H. cbn [andb] in H.
  apply andb_prop in H. destruct H as [_ H]. apply andb_prop in H. destruct H as [H1 H2]. apply eqb_prop in H1. apply Z.eqb_eq in H2.
  unfold sbc. cbv beta iota zeta. change flagD with 8. rewrite isset_8. change (Z.testbit (rF t) 3) with (fD (p (view t))). rewrite HD. cbn [negb].
  rewrite (u8_id _ Hb). rewrite carry_eq. set (k := b2z (fC (p (view t)))) in *. rewrite H2. rewrite <- H1.
  set (q := dec_byte _) in *. assert (Hq : is_u8 q) by (rewrite <- H2; apply is_u8_u8). rewrite isset_80, sweep_N by exact Hq.
  set (f0 := if _ <? 0 then _ else _).
  assert (Hf0 : is_u8 f0) by (unfold f0; destruct (_ <? 0); bytef).
  set (f := orif (128 <=? q) flagN (orif (q =? 0) flagZ f0)). assert (Hf : is_u8 f) by (unfold f; bytef).
  assert (EA : rA (W cF f (W cA q t)) = q) by exact (u8_id q Hq). rewrite EA.
  rewrite view_WF by exact Hf. cbn [p setP].
  split; [reflexivity|]. unfold flags_of. cbn [fC fZ fN fV fI fD setP].
  split; [unfold f, f0; destruct (_ <? 0); fbits; reflexivity|].
  split; [unfold f, f0; destruct (_ <? 0); fbits; reflexivity|].
  split; [unfold f, f0; destruct (_ <? 0); fbits; reflexivity|].
  unfold arith_only. cbn [x y s pc ram p fI fD fV setP]. repeat (split; [reflexivity|]).
  split; [unfold f, f0; destruct (_ <? 0); unfold flags_of, view; cbn [p fI]; fbits; reflexivity|].
  split; [unfold f, f0; destruct (_ <? 0); unfold flags_of, view; cbn [p fD]; fbits; reflexivity|].
  unfold f, f0; destruct (_ <? 0); unfold flags_of, view; cbn [p fV]; fbits; reflexivity.
Qed.
