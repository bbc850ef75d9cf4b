(** Proofs about the MOS6502: addition, addressing modes, every opcode. *)
From Verif Require Import Base M65Model M65Spec M65Obs M65Proofs.

(* --------------------------------------------------- binary ADC and SBC *)
Definition adc_chk (k u v : Z) : bool :=
  let res := u16 (u + v + k) in
  (u8 res =? (u + v + k) mod 256) && Bool.eqb (255 <? res) (256 <=? u + v + k) &&
  Bool.eqb (xorb (Z.testbit res 7) (Z.testbit u 7) && negb (xorb (Z.testbit u 7) (Z.testbit v 7)))
           (negb (in_i8 (signed u + signed v + k))).
Definition sbc_chk (k u v : Z) : bool :=
  let res := u16 (u - v - 1 + k) in
  (u8 res =? (u - v - (1 - k)) mod 256) && Bool.eqb (res <? 256) (0 <=? u - v - (1 - k)) &&
  (Z.land res 0xff =? u8 res) && Bool.eqb (Z.testbit res 7) (Z.testbit (u8 res) 7) &&
  Bool.eqb (Z.testbit (Z.lor (Z.land (Z.land res v) (Z.lnot u)) (Z.land (Z.land (Z.lnot res) (Z.lnot v)) u)) 7)
           (negb (in_i8 (signed u - signed v - (1 - k)))).
Lemma adc_sweep (b : bool) : forall u v, is_u8 u -> is_u8 v -> adc_chk (b2z b) u v = true.
Proof.
  intros u v Hu Hv. unfold is_u8 in Hu, Hv. unfold adc_chk. cbv zeta.
  assert (Hk : 0 <= b2z b <= 1) by (destruct b; cbn; lia). set (k := b2z b) in *. clearbody k.
  assert (E : u16 (u + v + k) = u + v + k) by (apply u16_id; lia). rewrite E.
  rewrite !tb7_odd. unfold in_i8, signed, u8.
  destruct (u <? 128) eqn:Eu, (v <? 128) eqn:Ev; apply andb_true_intro; (split; [lia|]);
  apply eqb_true_iff; lia.
Qed.
Lemma sbc_sweep (b : bool) : forall u v, is_u8 u -> is_u8 v -> sbc_chk (b2z b) u v = true.
Proof.
  intros u v Hu Hv. unfold is_u8 in Hu, Hv. unfold sbc_chk. cbv zeta.
  assert (Hk : 0 <= b2z b <= 1) by (destruct b; cbn; lia). set (k := b2z b) in *. clearbody k.
  change 0xff with (Z.ones 8). rewrite Z.land_ones by lia. change (2 ^ 8) with 256.
  rewrite !Z.lor_spec, !Z.land_spec, !Z.lnot_spec by lia.
  rewrite !tb7_odd. unfold in_i8, signed, u8, u16.
  repeat apply andb_true_intro; repeat split; try lia.
  all: repeat (apply andb_true_intro; split); try (apply eqb_true_iff); try lia.
  all: destruct (u <? 128) eqn:Eu, (v <? 128) eqn:Ev; lia.
Qed.

Lemma adc_ok c l t off : bytes t -> opd c l t -> fD (p (view t)) = false ->
  view (adc (c, t)) = effect ADC l off (view t).
Proof.
  intros Ht Ho HD. destruct Ht as (HA & HX & HY & HS & HF & Hh & Hi & HM); destruct Ho as (Hr & Hb & Hw).
  unfold effect. rewrite <- Hr. unfold adc. cbv beta iota zeta.
  change flagD with 8. rewrite isset_8. change (Z.testbit (rF t) 3) with (fD (p (view t))). rewrite HD. cbn [negb].
  rewrite (u8_id _ Hb). rewrite carry_eq.
  pose proof (adc_sweep (fC (p (view t))) (rA t) (R c t) HA Hb) as H. unfold adc_chk in H.
  unfold add_bin. change (a (view t)) with (rA t). set (k := b2z (fC (p (view t)))) in *.
  set (res := u16 (rA t + R c t + k)) in *.
  apply andb_prop in H. destruct H as [H H3]. apply andb_prop in H. destruct H as [H1 H2].
  apply Z.eqb_eq in H1. apply eqb_prop in H2, H3.
  rewrite (isset_80 (Z.lxor res (rA t))), (isset_80 (Z.lxor (rA t) (R c t))), !Z.lxor_spec, H2, H3.
  change (rA (W cA res t)) with (u8 res). rewrite isset_80, sweep_N by apply is_u8_u8.
  rewrite view_WF by bytef. unfold setNZ. rewrite <- H1.
  unfold setN, setZ, setC, setV, setP, setA. cbn [p a x y s pc ram fN fV fD fI fZ fC].
  rewrite <- H1. unfold view. cbn [W sA rA rX rY rSP rF PC mem a x y s p pc ram]. f_equal.
  unfold flags_of. cbn [fN fV fD fI fZ fC]. f_equal; fbits; reflexivity.
Qed.
Lemma sbc_ok c l t off : bytes t -> opd c l t -> fD (p (view t)) = false ->
  view (sbc (c, t)) = effect SBC l off (view t).
Proof.
  intros Ht Ho HD. destruct Ht as (HA & HX & HY & HS & HF & Hh & Hi & HM); destruct Ho as (Hr & Hb & Hw).
  unfold effect. rewrite <- Hr. unfold sbc. cbv beta iota zeta.
  change flagD with 8. rewrite isset_8. change (Z.testbit (rF t) 3) with (fD (p (view t))). rewrite HD. cbn [negb].
  rewrite (u8_id _ Hb). rewrite carry_eq.
  pose proof (sbc_sweep (fC (p (view t))) (rA t) (R c t) HA Hb) as H. unfold sbc_chk in H.
  unfold sub_bin. change (a (view t)) with (rA t). set (k := b2z (fC (p (view t)))) in *.
  set (res := u16 (rA t - R c t - 1 + k)) in *.
  apply andb_prop in H. destruct H as [H H5]. apply andb_prop in H. destruct H as [H H4].
  apply andb_prop in H. destruct H as [H H3]. apply andb_prop in H. destruct H as [H1 H2].
  apply Z.eqb_eq in H1, H3. apply eqb_prop in H2, H4, H5.
  rewrite (isset_80 (Z.lor _ _)), H5. change 0x100 with 256. rewrite H2, H3.
  rewrite isset_80, H4, sweep_N by apply is_u8_u8.
  rewrite view_WF by bytef. unfold setNZ. rewrite <- H1.
  unfold setN, setZ, setC, setV, setP, setA. cbn [p a x y s pc ram fN fV fD fI fZ fC].
  rewrite <- H1. unfold view. cbn [W sA rA rX rY rSP rF PC mem a x y s p pc ram]. f_equal.
  unfold flags_of. cbn [fN fV fD fI fZ fC]. f_equal; fbits; reflexivity.
Qed.

(* ------------------------------------------------------------- frame *)
(** What operations on an operand leave alone *)
Definition keeps (t t' : st) : Prop :=
  brk t' = brk t /\ set_b t' = set_b t /\ lvl t' = lvl t /\ hole t' = hole t /\ ticks t' = ticks t /\
  Z.testbit (rF t') 4 = Z.testbit (rF t) 4.
Definition addressable (c : cell) : Prop := match c with cA | ci8 => True | cM k => 0 <= k < 65536 | _ => False end.

Lemma bytes_W c v t : bytes t -> bytes (W c v t).
Proof.
  intros (HA & HX & HY & HS & HF & Hh & Hi & HM).
  destruct c; cbn [W]; [unfold bytes; cbn [rA rX rY rSP rF hole i8d mem sA sX sY sSP sF sI8]; pose proof (is_u8_u8 v); auto 10 ..|].
  unfold wr. destruct ((0 <=? a) && (a <? 65536)); [|unfold bytes; auto 10].
  unfold bytes; cbn [rA rX rY rSP rF hole i8d mem sM]. repeat (split; [assumption|]).
  intros k. destruct (k =? a); [apply is_u8_u8|apply HM].
Qed.
Lemma keeps_W c v t : c <> cF -> keeps t (W c v t).
Proof. intros H. destruct c; try contradiction; cbn [W]; try (repeat split); unfold wr; destruct ((0 <=? a) && (a <? 65536)); repeat split. Qed.
Lemma keeps_WF f t : is_u8 f -> Z.testbit f 4 = Z.testbit (rF t) 4 -> keeps t (W cF f t).
Proof. intros Hf H. cbn [W]. rewrite (u8_id _ Hf). repeat split. exact H. Qed.
Lemma keeps_trans t1 t2 t3 : keeps t1 t2 -> keeps t2 t3 -> keeps t1 t3.
Proof. unfold keeps. intros (A1 & A2 & A3 & A4 & A5 & A6) (B1 & B2 & B3 & B4 & B5 & B6). repeat split; congruence. Qed.
Lemma rF_W c v t : c <> cF -> rF (W c v t) = rF t.
Proof. intros H. destruct c; try contradiction; try reflexivity. cbn [W]. unfold wr. destruct ((0 <=? a) && (a <? 65536)); reflexivity. Qed.

(** An operation is the instruction [i] of the manual *)
Definition rmw_place (l : place) : Prop := match l with InA | At _ => True | _ => False end.
Definition needs (i : mnem) (l : place) (t : st) : Prop :=
  match i with
  | ADC | SBC => fD (p (view t)) = false
  | INC | DEC | ASL | LSR | ROL | ROR | STA | STX | STY => rmw_place l
  | _ => True
  end.
Definition op_ok (op : cell * st -> st) (i : mnem) : Prop :=
  forall c l t off, bytes t -> addressable c -> opd c l t ->
    (needs i l t -> view (op (c, t)) = effect i l off (view t)) /\ keeps t (op (c, t)) /\ bytes (op (c, t)) /\ PC (op (c, t)) = PC t.

Lemma PC_W c v t : PC (W c v t) = PC t.
Proof. destruct c; try reflexivity. cbn [W]. unfold wr. destruct ((0 <=? a) && (a <? 65536)); reflexivity. Qed.
Lemma nB m k : m = 0 -> k = k || false. Proof. intros. rewrite orb_false_r. reflexivity. Qed.

Lemma addr_nF c : addressable c -> c <> cF. Proof. intros H ->. exact H. Qed.
Lemma nz_b4 v f : Z.testbit (nz v f) 4 = Z.testbit f 4.
Proof. unfold nz. fbits. reflexivity. Qed.
Lemma znset_b4 v f : Z.testbit (znset v f) 4 = Z.testbit f 4.
Proof. unfold znset. destruct (v =? 0), (isset v 0x80); fbits; reflexivity. Qed.
Lemma znset_u8 v f : is_u8 f -> is_u8 (znset v f).
Proof. intros. unfold znset. destruct (v =? 0), (isset v 0x80); bytef. Qed.

Lemma PC_WF f t : PC (W cF f t) = PC t. Proof. reflexivity. Qed.
Ltac kf :=
  match goal with
  | |- keeps ?t (W cF ?f (W ?c ?v ?t)) =>
      apply (keeps_trans t (W c v t)); [apply keeps_W; discriminate || assumption|
        apply keeps_WF; [|rewrite ?rF_W by (discriminate || assumption)]]
  | |- keeps ?t (W cF ?f ?t) => apply keeps_WF
  | |- keeps ?t (W ?c ?v ?t) => apply keeps_W; discriminate || assumption
  end.
Ltac fb := match goal with
  | |- is_u8 (nz _ _) => apply nz_u8; assumption
  | |- is_u8 _ => bytef
  | |- Z.testbit (nz _ _) _ = _ => apply nz_b4
  | |- _ => fbits; reflexivity
  end.

Ltac opk lem :=
  intros c l t off Ht Hc Ho; split; [intros Hn; apply lem; assumption || (destruct l; try exact Hn; try discriminate; contradiction)|];
  pose proof (addr_nF c Hc) as Hcf; assert (HF : is_u8 (rF t)) by apply Ht.

Lemma rmw_nowhere l : rmw_place l -> l <> Nowhere. Proof. intros H ->. exact H. Qed.
Lemma rmw_val l : rmw_place l -> forall v, l <> Val v. Proof. intros H v ->. exact H. Qed.
Ltac opk2 lem :=
  intros c l t off Ht Hc Ho; split; [intros Hn; apply lem; assumption || exact (rmw_nowhere l Hn) || exact (rmw_val l Hn)|];
  pose proof (addr_nF c Hc) as Hcf; assert (HF : is_u8 (rF t)) by apply Ht.

Lemma op_ora : op_ok ora ORA.
Proof. opk ora_ok. unfold ora. cbv beta iota zeta. split; [kf; fb|]. split; [repeat apply bytes_W; assumption|rewrite !PC_W; reflexivity]. Qed.
Lemma op_and : op_ok And AND.
Proof. opk and_ok. unfold And. cbv beta iota zeta. split; [kf; fb|]. split; [repeat apply bytes_W; assumption|rewrite !PC_W; reflexivity]. Qed.
Lemma op_eor : op_ok eor EOR.
Proof. opk eor_ok. unfold eor. cbv beta iota zeta. split; [kf; fb|]. split; [repeat apply bytes_W; assumption|rewrite !PC_W; reflexivity]. Qed.
Lemma op_lda : op_ok lda LDA.
Proof. opk lda_ok. unfold lda. cbv beta iota zeta. split; [kf; fb|]. split; [repeat apply bytes_W; assumption|rewrite !PC_W; reflexivity]. Qed.
Lemma op_ldx : op_ok (ld cX) LDX.
Proof. opk ldx_ok. unfold ld. cbv beta iota zeta. split; [kf; fb|]. split; [repeat apply bytes_W; assumption|rewrite !PC_W; reflexivity]. Qed.
Lemma op_ldy : op_ok (ld cY) LDY.
Proof. opk ldy_ok. unfold ld. cbv beta iota zeta. split; [kf; fb|]. split; [repeat apply bytes_W; assumption|rewrite !PC_W; reflexivity]. Qed.
Lemma op_cmp : op_ok (cmp cA) CMP.
Proof. opk cmpa_ok. unfold cmp. cbv beta iota zeta. split; [kf; fb|]. split; [repeat apply bytes_W; assumption|rewrite !PC_W; reflexivity]. Qed.
Lemma op_cpx : op_ok (cmp cX) CPX.
Proof. opk cmpx_ok. unfold cmp. cbv beta iota zeta. split; [kf; fb|]. split; [repeat apply bytes_W; assumption|rewrite !PC_W; reflexivity]. Qed.
Lemma op_cpy : op_ok (cmp cY) CPY.
Proof. opk cmpy_ok. unfold cmp. cbv beta iota zeta. split; [kf; fb|]. split; [repeat apply bytes_W; assumption|rewrite !PC_W; reflexivity]. Qed.
Lemma op_bit : op_ok bit BIT.
Proof. opk bit_ok. unfold bit. cbv beta iota zeta. split; [kf; fb|]. split; [repeat apply bytes_W; assumption|rewrite !PC_W; reflexivity]. Qed.
Lemma op_inc : op_ok inc INC.
Proof. opk2 inc_ok. unfold inc. cbv beta iota zeta. rewrite rF_W by assumption. split; [kf; fb|]. split; [repeat apply bytes_W; assumption|rewrite !PC_W; reflexivity]. Qed.
Lemma op_dec : op_ok dec DEC.
Proof. opk2 dec_ok. unfold dec. cbv beta iota zeta. rewrite rF_W by assumption. split; [kf; fb|]. split; [repeat apply bytes_W; assumption|rewrite !PC_W; reflexivity]. Qed.
Lemma op_asl : op_ok asl ASL.
Proof. opk2 asl_ok. unfold asl. cbv beta iota zeta. split; [kf; fb|]. split; [repeat apply bytes_W; assumption|rewrite !PC_W; reflexivity]. Qed.
Lemma op_lsr : op_ok lsr LSR.
Proof. opk2 lsr_ok. unfold lsr. cbv beta iota zeta. split; [kf; fb|]. split; [repeat apply bytes_W; assumption|rewrite !PC_W; reflexivity]. Qed.
Lemma op_rol : op_ok rol ROL.
Proof. opk2 rol_ok. unfold rol. cbv beta iota zeta. split; [kf; fb|]. split; [repeat apply bytes_W; assumption|rewrite !PC_W; reflexivity]. Qed.
Lemma op_ror : op_ok ror ROR.
Proof. opk2 ror_ok. unfold ror. cbv beta iota zeta. split; [kf; fb|]. split; [repeat apply bytes_W; assumption|rewrite !PC_W; reflexivity]. Qed.
Lemma op_adc : op_ok adc ADC.
Proof.
  opk adc_ok. unfold adc. cbv beta iota zeta. destruct (negb (isset (rF t) flagD)).
  - split; [kf; fb|]. split; [repeat apply bytes_W; assumption|rewrite !PC_W; reflexivity].
  - destruct (99 <? _); (split; [kf; fb|]; split; [repeat apply bytes_W; assumption|rewrite !PC_W; reflexivity]).
Qed.
Lemma op_sbc : op_ok sbc SBC.
Proof.
  opk sbc_ok. unfold sbc. cbv beta iota zeta. destruct (negb (isset (rF t) flagD)).
  - split; [kf; fb|]. split; [repeat apply bytes_W; assumption|rewrite !PC_W; reflexivity].
  - destruct (_ <? 0); (split; [kf; fb|]; split; [repeat apply bytes_W; assumption|rewrite !PC_W; reflexivity]).
Qed.
Lemma st_gen (reg : cell) i :
  (forall l off d, rmw_place l -> effect i l off d = put l (match reg with cA => a d | cX => x d | _ => y d end) d) ->
  needs i = (fun l _ => rmw_place l) -> (reg = cA \/ reg = cX \/ reg = cY) -> op_ok (stR reg) i.
Proof.
  intros He Hn Hreg c l t off Ht Hc Ho. split.
  - rewrite Hn. intros H. rewrite He by assumption. destruct Ho as (_ & _ & Hw).
    destruct (Hw (rmw_nowhere l H) (rmw_val l H) (R reg t)) as [Hv _]. cbn [stR]. rewrite Hv.
    destruct Hreg as [-> | [-> | ->]]; reflexivity.
  - cbn [stR]. pose proof (addr_nF c Hc). split; [apply keeps_W; assumption|]. split; [apply bytes_W; assumption|apply PC_W].
Qed.
Lemma op_sta : op_ok (stR cA) STA. Proof. apply st_gen; auto. Qed.
Lemma op_stx : op_ok (stR cX) STX. Proof. apply st_gen; auto. Qed.
Lemma op_sty : op_ok (stR cY) STY. Proof. apply st_gen; auto. Qed.
