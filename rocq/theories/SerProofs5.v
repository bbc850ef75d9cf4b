From Verif Require Import Base SerModel SerSpec SerProofs SerProofs2 SerProofs3 SerProofs4.

Lemma ins_t s s' : ins s' = ins s -> input s' = input s /\ avail s' = avail s /\ sending_nl s' = sending_nl s /\ skip_nl s' = skip_nl s /\ nl_idx s' = nl_idx s /\ nl s' = nl s /\ flow s' = flow s /\ able s' = able s /\ often s' = often s /\ dev s' = dev s.
Proof. unfold ins. intros H. repeat split; congruence. Qed.
Lemma get_some s : avail s = true -> exists c q, get_input s = Some (c, q).
Proof.
  intros A. unfold get_input. rewrite A. cbn [negb]. destruct (nl_byte s 0 =? 0); [eexists; eexists; reflexivity|].
  destruct (negb (sending_nl s)); [destruct (negb (is_nl (input s))); [eexists; eexists; reflexivity|]|]; unfold send_nl; eexists; eexists; reflexivity.
Qed.
(** ** The receiver in a tick *)
Lemma tick_rx s k : inv s -> 0 <= k -> receiving s = true -> avail s = true -> let s' := tick k s in
  if bits s <=? rec_bit (bit_cnt s) then exists c, rcvd s' = rcvd s ++ [c] /\ s_in s' = c /\ ri s' = true
  else receiving s' = true /\ avail s' = true /\ rcvd s' = rcvd s /\ s_in s' = s_in s /\ ri s' = ri s /\ rec_bit s' = rec_bit s + rsrc s / divd s /\ rsrc s' = rsrc s mod divd s + (if clocked s then 12 * k else 0).
Proof.
  intros I K RC AV. cbv zeta. unfold tick. destruct (cnt_ok s I) as (A1 & A2 & A3 & A4 & A5 & A6 & A7 & A8 & A9 & A10 & A11 & _ & A13). specialize (A13 RC). destruct A13 as [A131 A132]. set (a := bit_cnt s) in *.
  assert (AB : bits a = bits s) by (unfold ctl in A2; congruence). pose proof (ctl_cfg _ _ A2) as AC. pose proof (ctl_scon _ _ A2) as AS.
  destruct (sent_ok a A1) as (B1 & B2 & B3 & B4 & B5 & _ & _ & _ & B9 & _). set (b := sent a) in *. apply rxs_t in B4. destruct B4 as (B41 & B42 & B43 & B44 & B45 & B46 & B47). apply ins_t in A4. apply ins_t in B5. destruct A4 as (_ & A4 & _). destruct B5 as (_ & B5 & _).
  assert (C : start_rx b = b) by (unfold start_rx; rewrite B41, A8, RC, andb_false_r; reflexivity). rewrite C.
  destruct (end_ok b B1) as (D1 & D2 & D3 & D4 & D5). set (d := end_rx b) in *.
  pose proof (tick_tail k d) as (E1 & E2 & E3 & E4 & E5 & E6 & E7 & E8 & E9 & E10 & E11 & E12 & E13 & E14 & E15 & E16). cbv zeta in *. set (f := set_rx _ _ _ _ _ _) in *.
  pose proof (ctl_cfg _ _ E1) as EC. pose proof (ctl_scon _ _ E1) as ES. assert (CF : cfg f = cfg s) by congruence. assert (CFa : cfg a = cfg s) by congruence. apply cfg_eqs in B2 as B2'. destruct B2' as (_ & BM & _). apply cfg_eqs in AC as AC'. destruct AC' as (_ & AM & _).
  assert (BB : bits b = bits s) by (rewrite (i_bits _ B1), BM, AM, <- (i_bits _ I); reflexivity). rewrite B41, A8, RC, andb_true_l, BB, B45 in D5.
  assert (RI : ri b = ri s) by (unfold ri; rewrite (B3 0) by lia; rewrite AS, andb_false_r, andb_false_l, !orb_false_r; reflexivity).
  assert (IF : inv f) by (apply (ctl_inv d); try assumption; [left; exact E2|rewrite E8; apply (i_trt1 _ D1)|rewrite E9; pose proof (i_trtick _ D1); lia|rewrite E15; apply (i_rect1 _ D1)|rewrite E16; pose proof (i_rectick _ D1); lia]).
  destruct (bits s <=? rec_bit a) eqn:E.
  - destruct (get_some b ltac:(congruence)) as (c & q & G). rewrite G in D5. destruct D5 as (_ & F2 & F3 & _ & _ & F4 & _). exists (c mod 256). split; [congruence|]. split; [congruence|].
    unfold ri. rewrite ES, (F4 0) by lia. cbn [Z.eqb Pos.eqb andb]. apply orb_true_r.
  - destruct D5 as (F1 & F2 & F3 & F4). apply rxs_t in F1. destruct F1 as (G1 & G2 & G3 & G4 & G5 & G6 & G7). apply ins_t in F2. destruct F2 as (_ & F2 & _). apply ins_t in E3. destruct E3 as (_ & E3 & _).
    split; [congruence|]. split; [congruence|]. split; [congruence|]. split; [congruence|]. split; [unfold ri in *; rewrite ES, F4; exact RI|]. split; [rewrite E14, G5, B45; exact A131|].
    unfold rsrc in *. rewrite (by_overflow_clocked f IF), (proj1 (proj2 (cfg_bt _ _ CF))). rewrite (by_overflow_clocked a A1), (proj1 (proj2 (cfg_bt _ _ CFa))) in A132. rewrite <- A132, E15, E16, G6, G7, B46, B47. destruct (clocked s); cbn [negb]; lia.
Qed.
Lemma tick_start s k : inv s -> 0 <= k -> receiving s = false -> avail s = true -> Z.testbit (scon s) 4 = true -> let s' := tick k s in
  receiving s' = true /\ avail s' = true /\ rcvd s' = rcvd s /\ s_in s' = s_in s /\ ri s' = ri s /\ rec_bit s' = 0 /\ rsrc s' = (if clocked s then 12 * k else 0).
Proof.
  intros I K RC AV RN. cbv zeta. unfold tick. destruct (cnt_ok s I) as (A1 & A2 & A3 & A4 & A5 & A6 & A7 & A8 & A9 & A10 & A11 & _). set (a := bit_cnt s) in *.
  pose proof (ctl_cfg _ _ A2) as AC. pose proof (ctl_scon _ _ A2) as AS.
  destruct (sent_ok a A1) as (B1 & B2 & B3 & B4 & B5 & _ & _ & _ & B9 & _). set (b := sent a) in *. apply rxs_t in B4. destruct B4 as (B41 & B42 & B43 & B44 & B45 & B46 & B47). apply ins_t in A4. apply ins_t in B5. destruct A4 as (_ & A4 & _). destruct B5 as (_ & B5 & _).
  assert (RN' : ren b = true) by (rewrite (i_ren _ B1), (B3 4) by lia; rewrite AS, RN; reflexivity). assert (AVb : avail b = true) by congruence.
  assert (C : start_rx b = set_rx (s_in b) true 0 0 0 b).
  { assert (PI : proc_input b = b) by (unfold proc_input; rewrite AVb; reflexivity). unfold start_rx. rewrite B41, A8, RC, RN', PI. cbn [andb negb]. replace (if often b then match dev b with [] => b | _ :: _ => b end else b) with b by (destruct (often b), (dev b); reflexivity). rewrite AVb. reflexivity. }
  rewrite C. set (c := set_rx (s_in b) true 0 0 0 b). assert (D : end_rx c = c).
  { unfold end_rx. change (bits c) with (bits b). change (rec_bit c) with 0. rewrite (i_bits _ B1). pose proof (frame_pos (mode_of b)). replace (frame_bits (mode_of b) <=? 0) with false by lia. rewrite andb_false_r. reflexivity. }
  rewrite D. assert (RI : ri b = ri s) by (unfold ri; rewrite (B3 0) by lia; rewrite AS, andb_false_r, andb_false_l, !orb_false_r; reflexivity).
  split; [reflexivity|]. split; [exact AVb|]. split; [transitivity (rcvd b); [reflexivity|congruence]|]. split; [transitivity (s_in b); [reflexivity|congruence]|]. split; [transitivity (ri b); [reflexivity|exact RI]|]. split; [reflexivity|].
  set (f := set_rx _ _ _ _ _ _). unfold rsrc. assert (BO : by_overflow f = negb (clocked s)).
  { change (by_overflow f) with (by_overflow b). rewrite (by_overflow_clocked b B1). f_equal. apply cfg_bt in B2. apply cfg_bt in AC. destruct B2 as (_ & B2 & _). destruct AC as (_ & AC & _). congruence. }
  rewrite BO. destruct (clocked s); cbn [negb f set_rx set_tx rec_t1 rec_tick c]; lia.
Qed.
Record RP (o : list Z) (i : Z) (r : bool) (s : st) (u : Z) : Prop := {
  w_inv : inv s; w_rate : rate_ok s; w_recv : receiving s = true; w_avail : avail s = true; w_bits : 0 <= rec_bit s < bits s; w_units : rec_bit s * bit_time s + rsrc s = u; w_rcvd : rcvd s = o; w_in : s_in s = i; w_ri : ri s = r }.
Lemma rsrc_pos s : inv s -> 0 <= rsrc s.
Proof. intros I. unfold rsrc. destruct (by_overflow s); [apply (i_rect1 _ I)|apply (i_rectick _ I)]. Qed.
Lemma RP_tick o i r s u k : RP o i r s u -> 0 <= k ->
  if frame_time s <=? u then exists c, rcvd (tick k s) = o ++ [c] /\ s_in (tick k s) = c /\ ri (tick k s) = true else RP o i r (tick k s) (if clocked s then u + 12 * k else u).
Proof.
  intros [I R RC AV B U O II RR] K. pose proof (tick_tx s k I K) as [T1 T2 T3 _ _ _ _ _]. pose proof (tick_rx s k I K RC AV) as T. cbv zeta in T. destruct (cnt_ok s I) as (_ & _ & _ & _ & _ & _ & _ & _ & _ & _ & _ & _ & A13). specialize (A13 RC). destruct A13 as [A131 _].
  pose proof (rate_divd s R) as D. pose proof (bt_pos s) as BP. pose proof (rsrc_pos s I) as TP. pose proof (i_bits _ I) as BB. assert (FT : frame_time s = bits s * bit_time s) by (unfold frame_time; rewrite BB; reflexivity).
  destruct (cfg_bt _ _ T2) as (C1 & C2 & C3). rewrite D in *.
  assert (Q : rec_bit s + rsrc s / bit_time s = u / bit_time s) by (rewrite <- U, Z.add_comm, Z.div_add_l by lia; lia). rewrite Q in *. rewrite A131 in T.
  destruct (Z.leb_spec (frame_time s) u) as [H|H].
  - assert (E : bits s <= u / bit_time s) by (apply Z.div_le_lower_bound; lia). replace (bits s <=? u / bit_time s) with true in T by lia. rewrite O in T. exact T.
  - assert (QL : u / bit_time s < bits s) by (apply Z.div_lt_upper_bound; lia). assert (QP : 0 <= u / bit_time s) by (apply Z.div_pos; nia). replace (bits s <=? u / bit_time s) with false in T by lia.
    destruct T as (F1 & F2 & F3 & F4 & F5 & F6 & F7). apply cfg_eqs in T2 as T2'. destruct T2' as (G1 & G2 & G3).
    constructor; [exact T1|exact (T3 R)|exact F1|exact F2|rewrite F6, (i_bits _ T1), G2, <- BB; lia| |congruence|congruence|congruence].
    rewrite C1, F6, F7. pose proof (Z.div_mod u (bit_time s) ltac:(lia)) as DM. assert (MM : rsrc s mod bit_time s = u mod bit_time s) by (rewrite <- U, Z.add_comm, Z.mod_add by lia; reflexivity). rewrite MM. destruct (clocked s); lia.
Qed.
Lemma avail_idle s o : avail s = true -> quiet o -> (forall k, o <> Tick k) -> avail (step s o) = true.
Proof.
  intros A Q N. destruct o; try contradiction Q; try exact A; [contradiction (N k); reflexivity| |].
  - cbn [step]. rewrite write_scon_eq. exact A.
  - cbn [step]. destruct (dev s); [exact A|]. unfold proc_input. rewrite A. exact A.
Qed.
Lemma RP_idle o0 i r s u o : RP o0 i r s u -> quiet o -> quiet_flags o -> (forall k, o <> Tick k) -> RP o0 i r (step s o) (match o with Over => if clocked s then u else u + 1 | _ => u end).
Proof.
  intros [I R RC AV B U O II RR] Q QF N. pose proof (idle_ok s o I Q N) as [A1 A2 A3 A4 A5 A6 A7 A8 A9 A10 A11 A12 A13 A14]. destruct (cfg_bt _ _ A2) as (C1 & C2 & C3). apply cfg_eqs in A2. destruct A2 as (F1 & F2 & F3).
  constructor; [exact A1|exact (A3 R)|congruence|apply avail_idle; assumption|rewrite A12, (i_bits _ A1), F2, <- (i_bits _ I); exact B| |congruence|congruence|rewrite <- RR; apply flag_idle; try assumption; lia].
  rewrite C1, A12, A13. destruct o; try lia. destruct (clocked s); lia.
Qed.
Lemma rx_segment l : forall o i r s u, RP o i r s u -> Forall quiet l -> Forall quiet_flags l -> due (clocked s) (frame_time s) u l = false ->
  exists u', RP o i r (run s l) u' /\ forall j, due (clocked s) (frame_time s) u (l ++ [Tick j]) = (frame_time s <=? u') /\ cfg (run s l) = cfg s.
Proof.
  induction l as [|a l IH]; intros o i r s u PP F G D; [exists u; split; [exact PP|intros j; split; [cbn [due app]; apply orb_false_r|reflexivity]]|]. inversion F as [|? ? Q F']; subst. inversion G as [|? ? QG G']; subst. change (run s (a :: l)) with (run (step s a) l).
  destruct (tick_or a) as [[k ->]|N].
  - pose proof (RP_tick o i r s u k PP Q) as T. cbn [due app] in D |- *. destruct (Z.leb_spec (frame_time s) u) as [H|H]; [discriminate|]. cbn [orb] in *. pose proof (t_cfg _ _ _ (tick_tx s k (w_inv _ _ _ _ _ PP) Q)) as CF. destruct (cfg_bt _ _ CF) as (_ & C2 & C3).
    specialize (IH o i r _ _ T F' G'). rewrite C2, C3 in IH. destruct (IH D) as (u' & A & B). exists u'. split; [exact A|]. intros j. destruct (B j) as [B1 B2]. split; [exact B1|]. transitivity (cfg (tick k s)); [exact B2|exact CF].
  - pose proof (RP_idle o i r s u a PP Q QG N) as T. pose proof (q_cfg _ _ _ (idle_ok s a (w_inv _ _ _ _ _ PP) Q N)) as CF. destruct (cfg_bt _ _ CF) as (_ & C2 & C3). specialize (IH o i r _ _ T F' G'). rewrite C2, C3 in IH.
    assert (E : forall l, due (clocked s) (frame_time s) u (a :: l) = due (clocked s) (frame_time s) (match a with Over => if clocked s then u else u + 1 | _ => u end) l) by (intros x; destruct a; try reflexivity; contradiction (N k); reflexivity).
    rewrite E in D. destruct (IH D) as (u' & A & B). exists u'. split; [exact A|]. intros j. destruct (B j) as [B1 B2]. split; [change ((a :: l) ++ [Tick j]) with (a :: l ++ [Tick j]); rewrite E; exact B1|congruence].
Qed.
Lemma run_app a b : forall s, run s (a ++ b) = run (run s a) b.
Proof. intros s. unfold run. apply fold_left_app. Qed.
Lemma run_tick k l s : run s (Tick k :: l) = run (tick k s) l.
Proof. reflexivity. Qed.
Lemma run_nil s : run s [] = s.
Proof. reflexivity. Qed.
Lemma reads_read q : reads (step q RSbuf) = reads q ++ [s_in q].
Proof. reflexivity. Qed.
Theorem frame_received s h k l : reached s h -> rate_ok s -> Z.testbit (scon s) 4 = true -> avail s = true -> receiving s = false -> 0 <= k -> Forall quiet l -> Forall quiet_flags l ->
  let u := if clocked s then 12 * k else 0 in let d := due (clocked s) (frame_time s) u in let s1 := run s (Tick k :: l) in
  d l = false ->
  rcvd s1 = rcvd s /\ s_in s1 = s_in s /\ ri s1 = ri s /\
  forall j, 0 <= j -> d (l ++ [Tick j]) = true -> exists c, let s2 := run s (Tick k :: l ++ [Tick j]) in rcvd s2 = rcvd s ++ [c] /\ ri s2 = true /\ reads (step s2 RSbuf) = reads s2 ++ [c].
Proof.
  intros RE RO RN AV RC K F G. cbv zeta. intros D. apply reached_inv in RE as I. pose proof (tick_start s k I K RC AV RN) as (A1 & A2 & A3 & A4 & A5 & A6 & A7). cbv zeta in *. pose proof (tick_tx s k I K) as [T1 T2 T3 _ _ _ _ _]. destruct (cfg_bt _ _ T2) as (C1 & C2 & C3).
  pose proof (frame_pos (mode_of (tick k s))) as FP.
  assert (PP : RP (rcvd s) (s_in s) (ri s) (tick k s) (if clocked s then 12 * k else 0)) by (constructor; try assumption; [exact (T3 RO)|rewrite A6, (i_bits _ T1); lia|rewrite A6; lia]).
  pose proof (rx_segment l _ _ _ _ _ PP F G) as X. rewrite C2, C3 in X. destruct (X D) as (u' & B1 & B2). clear X.
  rewrite run_tick.
  split; [apply (w_rcvd _ _ _ _ _ B1)|]. split; [apply (w_in _ _ _ _ _ B1)|]. split; [apply (w_ri _ _ _ _ _ B1)|]. intros j J DJ. destruct (B2 j) as [B3 B4]. rewrite DJ in B3.
  pose proof (RP_tick _ _ _ _ _ j B1 J) as T. rewrite run_tick, run_app, run_tick.
  rewrite (proj2 (proj2 (cfg_bt _ _ B4))), C3, <- B3 in T. destruct T as (c & X1 & X2 & X3). exists c. cbv zeta. rewrite run_nil.
  split; [exact X1|]. split; [exact X3|]. clear X1 X3. rewrite <- X2. apply reads_read.
Qed.
