From Verif Require Import Base SerModel SerSpec SerProofs SerProofs2.

Lemma mode_range s : inv s -> 0 <= mode_of s < 4.
Proof. intros I. pose proof (i_scon _ I). unfold mode_of. split; [apply Z.div_pos; lia|apply Z.div_lt_upper_bound; lia]. Qed.
Lemma by_overflow_clocked s : inv s -> by_overflow s = negb (clocked s).
Proof. intros I. pose proof (mode_range s I) as M. unfold by_overflow, clocked. rewrite (i_mode _ I). assert (mode_of s = 0 \/ mode_of s = 1 \/ mode_of s = 2 \/ mode_of s = 3) as [->|[->|[->| ->]]] by lia; reflexivity. Qed.
Lemma rate_divd s : rate_ok s -> divd s = bit_time s.
Proof. unfold rate_ok, divd, bit_time. destruct (t2b s); [reflexivity|]. intros [H|H]; [discriminate|exact H]. Qed.
Lemma cfg_eqs s s' : cfg s' = cfg s -> pcon s' = pcon s /\ mode_of s' = mode_of s /\ t2b s' = t2b s.
Proof. unfold cfg. intros H. repeat split; congruence. Qed.
Lemma cfg_bt s s' : cfg s' = cfg s -> bit_time s' = bit_time s /\ clocked s' = clocked s /\ frame_time s' = frame_time s.
Proof. intros C. apply cfg_eqs in C. destruct C as (A & B & C). unfold bit_time, clocked, frame_time, bit_time. rewrite A, B, C. repeat split. Qed.
Lemma tick_tail k q : let q' := set_rx (s_in q) (receiving q) (rec_bit q) (rec_t1 q) (rec_tick q + k * 12) (set_tx (s_out q) (sending q) (tr_bit q) (tr_t1 q) (tr_tick q + k * 12) q) in
  ctl q' = ctl q /\ divby q' = divby q /\ ins q' = ins q /\ sending q' = sending q /\ s_out q' = s_out q /\ outp q' = outp q /\ tr_bit q' = tr_bit q /\ tr_t1 q' = tr_t1 q /\ tr_tick q' = tr_tick q + 12 * k /\
  receiving q' = receiving q /\ s_in q' = s_in q /\ rcvd q' = rcvd q /\ reads q' = reads q /\ rec_bit q' = rec_bit q /\ rec_t1 q' = rec_t1 q /\ rec_tick q' = rec_tick q + 12 * k.
Proof. cbv zeta. rewrite (Z.mul_comm 12 k). repeat split. Qed.
Definition tx_end (s : st) : bool := sending s && (bits s <=? tr_bit (bit_cnt s)).
Record ticked (s s' : st) (k : Z) : Prop := {
  t_inv : inv s'; t_cfg : cfg s' = cfg s; t_rate : rate_ok s -> rate_ok s'; t_flags : exists ri, flags s s' (tx_end s) ri;
  t_send : sending s' = (if tx_end s then false else sending s); t_out : s_out s' = s_out s; t_outp : outp s' = outp s ++ (if tx_end s then [s_out s] else []);
  t_tx : tx_end s = false -> sending s = true -> tr_bit s' = tr_bit (bit_cnt s) /\ tsrc s' = tsrc s mod divd s + (if clocked s then 12 * k else 0) }.
Lemma tick_tx s k : inv s -> 0 <= k -> ticked s (tick k s) k.
Proof.
  intros I K. unfold tick. destruct (cnt_ok s I) as (A1 & A2 & A3 & A4 & A5 & A6 & A7 & A8 & A9 & A10 & A11 & A12 & A13). unfold tx_end. set (a := bit_cnt s) in *.
  assert (AB : bits a = bits s) by (unfold ctl in A2; congruence). pose proof (ctl_cfg _ _ A2) as AC. pose proof (ctl_scon _ _ A2) as AS.
  destruct (sent_ok a A1) as (B1 & B2 & B3 & B4 & B5 & B6 & B7 & B8 & B9 & B10). rewrite A5, AB in *. set (e := sending s && (bits s <=? tr_bit a)) in *. set (b := sent a) in *.
  destruct (start_rx_frame b) as (C1 & C2 & C3 & C4 & C5 & C6). pose proof (start_ok b B1) as C7. set (c := start_rx b) in *. pose proof (ctl_cfg _ _ C1) as CC. pose proof (ctl_scon _ _ C1) as CS.
  destruct (end_ok c C7) as (D1 & D2 & D3 & D4 & D5). set (d := end_rx c) in *.
  pose proof (tick_tail k d) as (E1 & E2 & E3 & E4 & E5 & E6 & E7 & E8 & E9 & E10 & E11 & E12 & E13 & E14 & E15 & E16). cbv zeta in *. set (f := set_rx _ _ _ _ _ _) in *.
  apply txs_t in C3. destruct C3 as (C31 & C32 & C33 & C34 & C35 & C36). apply txs_t in D3. destruct D3 as (D31 & D32 & D33 & D34 & D35 & D36).
  pose proof (ctl_cfg _ _ E1) as EC. pose proof (ctl_scon _ _ E1) as ES. assert (CF : cfg f = cfg s) by congruence. assert (CFc : cfg c = cfg s) by congruence. assert (CFa : cfg a = cfg s) by congruence.
  assert (IF : inv f) by (apply (ctl_inv d); try assumption; [left; exact E2|rewrite E8; apply (i_trt1 _ D1)|rewrite E9; pose proof (i_trtick _ D1); lia|rewrite E15; apply (i_rect1 _ D1)|rewrite E16; pose proof (i_rectick _ D1); lia]).
  apply cfg_eqs in CF as CF'. destruct CF' as (F1 & F2 & F3). apply cfg_eqs in CFc as CF'. destruct CF' as (F4 & F5 & F6). apply cfg_eqs in CFa as CF'. destruct CF' as (F7 & F8 & F9).
  constructor; [exact IF|exact CF| | |rewrite E4, D31, C31; exact B6|rewrite E5, D32, C32, B7; exact A6|rewrite E6, D33, C33, B8, A7, A6; reflexivity|].
  - intros [R|R]; [left; congruence|]. unfold rate_ok. rewrite F1, F2, F3. destruct (t2b s) eqn:T; [left; reflexivity|right]. rewrite E2.
    assert (DB : divby c = rate (mode_of s) (Z.testbit (pcon s) 7)) by (rewrite C2, B9, A3, F7, F8; unfold divd; rewrite T, R; destruct e; reflexivity).
    destruct (if receiving c && (bits c <=? rec_bit c) then get_input c else None) as [[x y]|].
    + destruct D5 as (_ & _ & _ & _ & D5 & _). rewrite D5, F4, F5. reflexivity.
    + destruct D5 as (_ & _ & D5 & _). congruence.
  - assert (FL : flags s c e false) by (intros j J; rewrite CS, B3 by exact J; rewrite AS; reflexivity). destruct (if receiving c && (bits c <=? rec_bit c) then get_input c else None) as [[x y]|].
    + destruct D5 as (_ & _ & _ & _ & _ & D5 & _). exists true. intros j J. rewrite ES. pose proof (flags_trans _ _ _ _ _ _ _ FL D5 j J) as G. rewrite orb_false_r in G. exact G.
    + destruct D5 as (_ & _ & _ & D5). exists false. intros j J. rewrite ES, D5. apply FL, J.
  - intros E S. specialize (B10 E). apply txs_t in B10. destruct B10 as (G1 & G2 & G3 & G4 & G5 & G6). specialize (A12 S). destruct A12 as [A121 A122]. split; [rewrite E7, D34, C34; exact G4|]. unfold tsrc in *. rewrite (by_overflow_clocked f IF), (proj1 (proj2 (cfg_bt _ _ CF))). rewrite (by_overflow_clocked a A1), (proj1 (proj2 (cfg_bt _ _ CFa))) in A122. rewrite <- A122, E8, E9, D35, D36, C35, C36, G5, G6. destruct (clocked s); cbn [negb]; lia.
Qed.

(** ** A frame on its way *)
Record P (v : Z) (o : list Z) (s : st) (u : Z) : Prop := {
  p_inv : inv s; p_rate : rate_ok s; p_send : sending s = true; p_bits : 0 <= tr_bit s < bits s; p_units : tr_bit s * bit_time s + tsrc s = u; p_out : s_out s = v; p_outp : outp s = o }.
Definition Done (v : Z) (o : list Z) (s : st) : Prop := inv s /\ rate_ok s /\ sending s = false /\ outp s = o ++ [v].
Lemma tsrc_pos s : inv s -> 0 <= tsrc s.
Proof. intros I. unfold tsrc. destruct (by_overflow s); [apply (i_trt1 _ I)|apply (i_trtick _ I)]. Qed.
Lemma bt_pos s : 0 < bit_time s.
Proof. unfold bit_time. pose proof (rate_cases (mode_of s) (Z.testbit (pcon s) 7)). destruct (t2b s); lia. Qed.
Lemma P_tick v o s u k : P v o s u -> 0 <= k ->
  if frame_time s <=? u then tx_end s = true /\ Done v o (tick k s) else tx_end s = false /\ P v o (tick k s) (if clocked s then u + 12 * k else u).
Proof.
  intros [I R S B U O OP] K. pose proof (tick_tx s k I K) as [T1 T2 T3 T4 T5 T6 T7 T8]. destruct (cnt_ok s I) as (_ & _ & _ & _ & _ & _ & _ & _ & _ & _ & _ & A12 & _). specialize (A12 S). destruct A12 as [A121 A122].
  pose proof (rate_divd s R) as D. pose proof (bt_pos s) as BP. pose proof (tsrc_pos s I) as TP. pose proof (i_bits _ I) as BB. assert (FT : frame_time s = bits s * bit_time s) by (unfold frame_time; rewrite BB; reflexivity).
  destruct (cfg_bt _ _ T2) as (C1 & C2 & C3).
  assert (Q : tr_bit s + tsrc s / bit_time s = u / bit_time s) by (rewrite <- U, Z.add_comm, Z.div_add_l by lia; lia).
  rewrite D in A121. replace (tr_bit s <? bits s) with true in A121 by lia. rewrite Q in A121.
  destruct (Z.leb_spec (frame_time s) u) as [H|H].
  - assert (E : tx_end s = true) by (unfold tx_end; rewrite S, A121; cbn [andb]; apply Z.leb_le; assert (bits s <= u / bit_time s) by (apply Z.div_le_lower_bound; lia); lia).
    rewrite E in *. split; [reflexivity|]. split; [exact T1|]. split; [exact (T3 R)|]. split; [exact T5|congruence].
  - assert (QL : u / bit_time s < bits s) by (apply Z.div_lt_upper_bound; lia). assert (QP : 0 <= u / bit_time s) by (apply Z.div_pos; nia).
    assert (E : tx_end s = false) by (unfold tx_end; rewrite S, A121; cbn [andb]; apply Z.leb_gt; lia).
    specialize (T8 E S). destruct T8 as [T81 T82]. rewrite E, app_nil_r in *. split; [reflexivity|]. rewrite A121 in T81. rewrite Z.min_r in T81 by lia. apply cfg_eqs in T2 as T2'. destruct T2' as (F1 & F2 & F3).
    constructor; [exact T1|exact (T3 R)|congruence|rewrite (i_bits _ T1), F2, <- BB; lia| |congruence|congruence].
    rewrite C1, T81, T82, D. pose proof (Z.div_mod u (bit_time s) ltac:(lia)) as DM. assert (MM : tsrc s mod bit_time s = u mod bit_time s) by (rewrite <- U, Z.add_comm, Z.mod_add by lia; reflexivity). rewrite MM. destruct (clocked s); lia.
Qed.
(** operations that do not concern the transmitter *)
Lemma write_scon_quiet k on s : inv s -> 0 <= k < 6 -> let s' := write_scon (with_bit (scon s) k on) s in
  inv s' /\ cfg s' = cfg s /\ divby s' = rate (mode_of s) (Z.testbit (pcon s) 7) /\ txs s' = txs s /\ rxs s' = rxs s /\ ins s' = ins s.
Proof.
  intros I K. cbv zeta. pose proof (i_scon _ I) as C. assert (M : with_bit (scon s) k on / 64 = scon s / 64) by (apply with_bit_mode; lia).
  assert (I' : inv (write_scon (with_bit (scon s) k on) s)) by (apply inv_scon; [exact I|apply with_bit_range; lia]). rewrite write_scon_eq in *. split; [exact I'|].
  split; [unfold cfg, mode_of; cbn [set_ctl scon pcon t2b]; rewrite M; reflexivity|]. split; [cbn [set_ctl divby]; rewrite M, (i_smod _ I); reflexivity|]. repeat split.
Qed.
(** what every quiet operation but a tick does *)
Record idle (s s' : st) (o : op) : Prop := {
  q_inv : inv s'; q_cfg : cfg s' = cfg s; q_rate : rate_ok s -> rate_ok s'; q_send : sending s' = sending s; q_out : s_out s' = s_out s; q_outp : outp s' = outp s; q_trbit : tr_bit s' = tr_bit s;
  q_tsrc : tsrc s' = tsrc s + (match o with Over => if clocked s then 0 else 1 | _ => 0 end);
  q_recv : receiving s' = receiving s; q_rcvd : rcvd s' = rcvd s; q_in : s_in s' = s_in s; q_recbit : rec_bit s' = rec_bit s;
  q_rsrc : rsrc s' = rsrc s + (match o with Over => if clocked s then 0 else 1 | _ => 0 end);
  q_scon : match o with WSconBit k on => scon s' = with_bit (scon s) k on | _ => scon s' = scon s end }.
Lemma frame_idle s s' o : inv s -> ctl s' = ctl s -> divby s' = divby s -> txs s' = txs s -> rxs s' = rxs s -> (match o with Over | WSconBit _ _ => False | _ => True end) -> idle s s' o.
Proof.
  intros I C D T R N. apply txs_t in T. destruct T as (T1 & T2 & T3 & T4 & T5 & T6). apply rxs_t in R. destruct R as (R1 & R2 & R3 & R4 & R5 & R6 & R7). pose proof (by_overflow_ctl _ _ C) as BO. pose proof (ctl_cfg _ _ C) as CF. pose proof (ctl_scon _ _ C) as CS.
  constructor; try assumption.
  - apply (ctl_inv s); try assumption; [left; exact D|rewrite T5; apply (i_trt1 _ I)|rewrite T6; apply (i_trtick _ I)|rewrite R6; apply (i_rect1 _ I)|rewrite R7; apply (i_rectick _ I)].
  - intros Q. apply cfg_eqs in CF. destruct CF as (F1 & F2 & F3). unfold rate_ok. rewrite F1, F2, F3, D. exact Q.
  - unfold tsrc. rewrite BO, T5, T6. destruct o; try contradiction; lia.
  - unfold rsrc. rewrite BO, R6, R7. destruct o; try contradiction; lia.
  - destruct o; try contradiction; exact CS.
Qed.
Lemma idle_ok s o : inv s -> quiet o -> (forall k, o <> Tick k) -> idle s (step s o) o.
Proof.
  intros I Q N. destruct o; try contradiction Q; cbn [step].
  - contradiction (N k). reflexivity.
  - unfold over. set (s' := set_rx _ _ _ _ _ _). assert (I' : inv s') by (destruct I; constructor; try assumption; cbn [s' set_rx set_tx rec_t1 tr_t1]; lia).
    constructor; try reflexivity; [exact I'|intros R; exact R| |]; [unfold tsrc|unfold rsrc]; rewrite (by_overflow_clocked s' I'), (by_overflow_clocked s I); change (clocked s') with (clocked s); cbn [s' set_rx set_tx rec_t1 tr_t1 rec_tick tr_tick]; destruct (clocked s); cbn [negb]; lia.
  - (* RSbuf *) unfold read_sbuf. set (a := set_inp (input s) (avail s) (sending_nl s) (skip_nl s) (nl_idx s) true (dev s) s). set (s' := log [] [] [s_in s] a).
    assert (I' : inv s') by (destruct I; constructor; assumption). assert (O : outp s' = outp s) by (apply app_nil_r). assert (R : rcvd s' = rcvd s) by (apply app_nil_r).
    constructor; try reflexivity; try assumption; [intros X; exact X| |]; [unfold tsrc|unfold rsrc]; change (by_overflow s') with (by_overflow s); rewrite Z.add_0_r; reflexivity.
  - destruct (write_scon_quiet k on s I Q) as (A1 & A2 & A3 & A4 & A5 & A6). set (s' := write_scon _ _) in *. apply txs_t in A4. destruct A4 as (T1 & T2 & T3 & T4 & T5 & T6). apply rxs_t in A5. destruct A5 as (R1 & R2 & R3 & R4 & R5 & R6 & R7).
    assert (BO : by_overflow s' = by_overflow s) by (rewrite !by_overflow_clocked by assumption; rewrite (proj1 (proj2 (cfg_bt _ _ A2))); reflexivity).
    constructor; try assumption.
    + intros _. right. apply cfg_eqs in A2. destruct A2 as (F1 & F2 & F3). rewrite F1, F2. exact A3.
    + unfold tsrc. rewrite BO, T5, T6. lia.
    + unfold rsrc. rewrite BO, R6, R7. lia.
    + unfold s'. rewrite write_scon_eq. reflexivity.
  - apply frame_idle; try reflexivity; exact I.
  - destruct (proc_input_frame s) as (A1 & A2 & A3 & A4). destruct (dev s); (apply frame_idle; [exact I| | | | |exact Logic.I]); first [assumption|reflexivity].
Qed.
Lemma P_idle v o0 s u o : P v o0 s u -> quiet o -> (forall k, o <> Tick k) -> P v o0 (step s o) (match o with Over => if clocked s then u else u + 1 | _ => u end).
Proof.
  intros [I R S B U O OP] Q N. pose proof (idle_ok s o I Q N) as [A1 A2 A3 A4 A5 A6 A7 A8 A9 A10 A11 A12 A13 A14]. destruct (cfg_bt _ _ A2) as (C1 & C2 & C3). apply cfg_eqs in A2. destruct A2 as (F1 & F2 & F3).
  constructor; [exact A1|exact (A3 R)|congruence|rewrite A7, (i_bits _ A1), F2, <- (i_bits _ I); exact B| |congruence|congruence].
  rewrite C1, A7, A8. destruct o; try lia. destruct (clocked s); lia.
Qed.
Lemma Done_step v o0 s o : Done v o0 s -> quiet o -> Done v o0 (step s o).
Proof.
  intros (I & R & S & O) Q. assert (K : (exists k, o = Tick k) \/ forall k, o <> Tick k) by (destruct o; [left; eexists; reflexivity|right; discriminate..]). destruct K as [[k ->]|N].
  - cbn [quiet] in Q. pose proof (tick_tx s k I Q) as [T1 T2 T3 T4 T5 T6 T7 T8]. assert (E : tx_end s = false) by (unfold tx_end; rewrite S; reflexivity). rewrite E, app_nil_r in *. split; [exact T1|]. split; [exact (T3 R)|]. split; [exact (eq_trans T5 S)|exact (eq_trans T7 O)].
  - pose proof (idle_ok s o I Q N) as [A1 A2 A3 A4 A5 A6 A7 A8 A9 A10 A11 A12 A13 A14]. split; [exact A1|]. split; [exact (A3 R)|]. split; congruence.
Qed.
Lemma tx_segment l : forall v o s u, P v o s u -> Forall quiet l ->
  let s' := run s l in if due (clocked s) (frame_time s) u l then Done v o s' else exists u', P v o s' u'.
Proof.
  induction l as [|a l IH]; intros v o s u PP F; cbv zeta; [exists u; exact PP|]. inversion F as [|? ? Q F']; subst. change (run s (a :: l)) with (run (step s a) l).
  assert (DN : forall s, Done v o s -> Done v o (run s l)).
  { clear - F'. induction l as [|b l IH]; intros s D; [exact D|]. inversion F'; subst. change (run s (b :: l)) with (run (step s b) l). apply IH; [assumption|apply Done_step; assumption]. }
  assert (K : (exists k, a = Tick k) \/ forall k, a <> Tick k) by (destruct a; [left; eexists; reflexivity|right; discriminate..]). destruct K as [[k ->]|N].
  - pose proof (P_tick v o s u k PP Q) as T. cbn [due]. destruct (Z.leb_spec (frame_time s) u) as [H|H]; cbn [orb].
    + apply DN, T.
    + destruct T as [_ T]. specialize (IH v o _ _ T F'). cbv zeta in IH. pose proof (tick_tx s k (p_inv _ _ _ _ PP) Q) as TT. destruct (cfg_bt _ _ (t_cfg _ _ _ TT)) as (_ & C2 & C3). rewrite C2, C3 in IH. exact IH.
  - pose proof (P_idle v o s u a PP Q N) as T. specialize (IH v o _ _ T F'). cbv zeta in IH. destruct (cfg_bt _ _ (q_cfg _ _ _ (idle_ok s a (p_inv _ _ _ _ PP) Q N))) as (_ & C2 & C3). rewrite C2, C3 in IH. destruct a; try exact IH. contradiction (N k). reflexivity.
Qed.
Lemma start_P v s : inv s -> rate_ok s -> P (v mod 256) (outp s) (write_sbuf v s) 0.
Proof.
  intros I R. pose proof (frame_pos (mode_of s)). assert (I' : inv (write_sbuf v s)) by (destruct I; constructor; try assumption; cbn; lia). constructor; try reflexivity; [exact I'|exact R|change (tr_bit (write_sbuf v s)) with 0; change (bits (write_sbuf v s)) with (bits s); rewrite (i_bits _ I); lia|].
  unfold tsrc. destruct (by_overflow _); reflexivity.
Qed.
