From Verif Require Import Base SerModel SerSpec SerProofs SerProofs2 SerProofs3 SerProofs4 SerProofs5 SerProofs6.

Theorem stream s h : reached s h -> exists r, delivered (nl s) (arrived h) = rcvd s ++ r /\ (dev s = [] -> avail s = false -> r = []).
Proof.
  intros (s0 & N & F & ->). destruct (power_ins s0 N) as (B & B1 & B2 & B3 & B4 & B5 & _). destruct (stream_run h (power_on s0) (inv_reset _) B F) as (R1 & R2 & R3). specialize (R3 []). rewrite app_nil_r in R3. exists (rest (run (power_on s0) h) []). split.
  - rewrite R3, B2, R2. cbn [app]. unfold delivered, rest. rewrite B3, B4, B5. destruct (nl_bytes (nl (power_on s0))); reflexivity.
  - intros D A. unfold rest. rewrite D, A. destruct (nl_bytes _); reflexivity.
Qed.

(** ** Flow control *)
Record finv (s : st) : Prop := {
  f_flow : flow s = true; f_nl : 0 <= nl s < 256; f_snl : sending_nl s = false;
  f_able : able s = true -> avail s = false /\ reads s = rcvd s;
  f_busy : able s = false -> (avail s = true /\ reads s = rcvd s) \/ (avail s = false /\ rcvd s = reads s ++ [s_in s]) }.
Lemma nl_one s i : 0 <= nl s < 256 -> 1 <= i -> nl_byte s i = 0.
Proof. intros N I. unfold nl_byte. rewrite Z.shiftr_div_pow2 by lia. rewrite Z.div_small; [reflexivity|]. split; [lia|]. apply Z.lt_le_trans with (2 ^ 8); [change (2 ^ 8) with 256; lia|]. apply Z.pow_le_mono_r; lia. Qed.
Lemma get_one s c q : 0 <= nl s < 256 -> sending_nl s = false -> get_input s = Some (c, q) -> avail s = true /\ avail q = false /\ sending_nl q = false /\ able q = able s /\ nl q = nl s /\ flow q = flow s.
Proof.
  intros N S. unfold get_input. destruct (avail s) eqn:A; [|discriminate]. cbn [negb]. rewrite S. destruct (nl_byte s 0 =? 0); [intros H; injection H as _ <-; repeat split; assumption|]. cbn [negb]. destruct (is_nl (input s)); cbn [negb]; [|intros H; injection H as _ <-; repeat split; assumption].
  unfold send_nl. set (p := set_inp _ _ _ _ _ _ _ _). change (nl_idx p) with 0. rewrite (nl_one p (0 + 1)) by (change (nl p) with (nl s); lia). cbn [Z.eqb]. intros H. injection H as _ <-. repeat split.
Qed.
Lemma finv_ext s s' : finv s -> ins s' = ins s -> rcvd s' = rcvd s -> reads s' = reads s -> s_in s' = s_in s -> finv s'.
Proof. intros [A B C D E] H R1 R2 R3. apply ins_t in H. destruct H as (H1 & H2 & H3 & H4 & H5 & H6 & H7 & H8 & H9 & H10). constructor; rewrite ?H2, ?H3, ?H6, ?H7, ?H8, ?R1, ?R2, ?R3; assumption. Qed.
Lemma proc_finv s s' : finv s -> ins s' = ins (proc_input s) -> rcvd s' = rcvd s -> reads s' = reads s -> s_in s' = s_in s -> finv s'.
Proof.
  intros FI H R1 R2 R3. pose proof FI as [A B C D E]. unfold proc_input in H. destruct (avail s) eqn:AV; [apply (finv_ext s); assumption|]. rewrite A in H. cbn [negb orb] in H. destruct (able s) eqn:AB; [|apply (finv_ext s); assumption]. destruct (dev s) eqn:DV; [apply (finv_ext s); assumption|]. destruct (D eq_refl) as [_ D2].
  destruct (negb (skip_nl s =? 0) && (z =? skip_nl s)); apply ins_t in H; cbn [set_inp input avail sending_nl skip_nl nl_idx nl flow able often dev] in H; destruct H as (H1 & H2 & H3 & H4 & H5 & H6 & H7 & H8 & H9 & H10).
  - constructor; rewrite ?H2, ?H3, ?H6, ?H7, ?H8, ?R1, ?R2; first [assumption|intros; discriminate].
  - constructor; rewrite ?H2, ?H3, ?H6, ?H7, ?H8, ?R1, ?R2; try assumption; [intros; discriminate|intros _; left; split; [reflexivity|exact D2]].
Qed.
Lemma finv_step s o : inv s -> finv s -> proper o -> (o = RSbuf -> (length (reads s) < length (rcvd s))%nat) -> o <> CpuReset -> finv (step s o).
Proof.
  intros I FI Q PO NR. assert (SC : forall n, finv (write_scon n s)) by (intros n; rewrite write_scon_eq; apply (finv_ext s); try reflexivity; exact FI). destruct o; cbn [step].
  - destruct (tick_in s k I Q) as (s1 & H & T0 & T). cbv zeta in *.
    assert (X : forall q, ins q = ins s1 -> rcvd q = rcvd s -> reads q = reads s -> s_in q = s_in s -> finv q) by (intros q X1 X2 X3 X4; destruct H as [H|H]; [apply (finv_ext s); [exact FI|congruence|assumption..]|apply (proc_finv s); [exact FI|congruence|assumption..]]).
    destruct T as [(T1 & T2 & T3)|(c & q & G & T1 & T2 & T3)]; [apply X; assumption|].
    set (p := mkSt (scon s) (pcon s) (s_in s) (s_out s) (sending s) (receiving s) (rec_bit s) (tr_bit s) (rec_t1 s) (tr_t1 s) (rec_tick s) (tr_tick s) (mode s) (ren s) (smod s) (bits s) (divby s) (t2b s) (input s1) (avail s1) (sending_nl s1) (skip_nl s1) (nl_idx s1) (nl s1) (flow s1) (able s1) (often s1) (dev s1) (outp s) (rcvd s) (reads s)).
    assert (FP : finv p) by (apply X; reflexivity). destruct FP as [F1 F2 F3 F4 F5]. cbn [p flow nl sending_nl able avail reads rcvd s_in] in *. destruct (get_one s1 c q F2 F3 G) as (G1 & G2 & G3 & G4 & G5 & G6). apply ins_t in T3. destruct T3 as (_ & U1 & U2 & _ & _ & U3 & U4 & U5 & _ & _).
    assert (AB : able s1 = false) by (destruct (able s1); [destruct (F4 eq_refl); congruence|reflexivity]). destruct (F5 AB) as [[_ R]|[R _]]; [|congruence].
    constructor; [congruence|rewrite U3, G5; exact F2|congruence|intros Y; congruence|]. intros _. right. split; [congruence|]. rewrite T1, T2, T0, R. reflexivity.
  - apply (finv_ext s); try reflexivity; exact FI.
  - unfold t2_mode. destruct (t2b s); apply (finv_ext s); try reflexivity; exact FI.
  - apply (finv_ext s); try reflexivity; exact FI.
  - specialize (PO eq_refl). destruct FI as [F1 F2 F3 F4 F5]. assert (X : avail s = false /\ rcvd s = reads s ++ [s_in s]).
    { destruct (able s); [destruct (F4 eq_refl) as [_ X]; rewrite X in PO; lia|]. destruct (F5 eq_refl) as [[_ X]|X]; [rewrite X in PO; lia|exact X]. }
    destruct X as [X1 X2]. unfold read_sbuf. constructor; cbn [log set_inp flow nl sending_nl able avail reads rcvd s_in]; try assumption; [intros _; split; [exact X1|rewrite X2, app_nil_r; reflexivity]|intros; discriminate].
  - apply SC.
  - apply SC.
  - apply (finv_ext s); try reflexivity; exact FI.
  - destruct FI as [F1 F2 F3 F4 F5]. constructor; assumption.
  - destruct (dev s); [exact FI|]. destruct (proc_input_frame s) as (_ & _ & _ & R). apply rxs_t in R. destruct R as (_ & R1 & R2 & R3 & _). apply (proc_finv s); try assumption; reflexivity.
  - contradiction NR. reflexivity.
Qed.
Theorem flow_control s0 h : flow s0 = true -> 0 <= nl s0 < 256 -> Forall proper h -> polite (power_on s0) h ->
  let s := run (power_on s0) h in (length (rcvd s) <= S (length (reads s)))%nat /\ reads s = firstn (length (reads s)) (rcvd s).
Proof.
  intros FL N F PL. cbv zeta. assert (N' : 0 <= nl s0 < 2 ^ 24) by (change (2 ^ 24) with 16777216; lia). destruct (power_ins s0 N') as (_ & B1 & B2 & B3 & B4 & B5 & B6 & B7 & B8).
  assert (FI : finv (power_on s0)) by (constructor; [congruence|rewrite B1; exact N| |intros _; split; congruence|intros; congruence]; unfold power_on, cpu_reset; rewrite write_scon_eq; unfold t2_mode, write_pcon; destruct (t2b _); reflexivity).
  assert (FR : finv (run (power_on s0) h)).
  { pose proof (inv_reset (mkSt (scon s0) (pcon s0) (s_in s0) (s_out s0) false false 0 0 (rec_t1 s0) (tr_t1 s0) (rec_tick s0) (tr_tick s0) (mode s0) (ren s0) (smod s0) (bits s0) (divby s0) (t2b s0) (input s0) false false 0 0 (nl s0) (flow s0) true (often s0) [] [] [] [])) as I. fold (power_on s0) in I. revert FI I PL. generalize (power_on s0) as q. clear - F. induction h as [|o h IH]; intros q FI I PL; [exact FI|]. inversion F; subst. destruct PL as (P1 & P2 & P3). change (run q (o :: h)) with (run (step q o) h).
    apply IH; [assumption|apply finv_step; assumption|apply inv_step; assumption|exact P3]. }
  destruct FR as [F1 F2 F3 F4 F5]. set (s := run (power_on s0) h) in *. destruct (able s); [destruct (F4 eq_refl) as [_ X]; rewrite X; split; [lia|symmetry; apply firstn_all]|]. destruct (F5 eq_refl) as [[_ X]|[_ X]].
  - rewrite X. split; [lia|symmetry; apply firstn_all].
  - rewrite X, app_length. cbn [length]. split; [lia|]. rewrite firstn_app, firstn_all, Nat.sub_diag. cbn [firstn]. rewrite app_nil_r. reflexivity.
Qed.

(** ** Lines *)
Lemma translate_plain v l : forall k t, plain l -> l <> [] -> k = 0 \/ k = 10 \/ k = 13 -> translate v k (l ++ t) = l ++ translate v 0 t.
Proof.
  induction l as [|c l IH]; intros k t P NE K; [contradiction NE; reflexivity|]. inversion P as [|? ? [C1 C2] P']; subst. cbn [app translate]. replace (c =? k) with (c =? k) by reflexivity. assert (E : negb (k =? 0) && (c =? k) = false) by (destruct K as [->|[->| ->]]; cbn [Z.eqb negb andb]; [reflexivity|apply Z.eqb_neq; lia|apply Z.eqb_neq; lia]). rewrite E.
  replace (c =? 10) with false by lia. replace (c =? 13) with false by lia. cbn [orb]. f_equal. destruct l as [|d l]; [reflexivity|]. apply IH; [exact P'|discriminate|left; reflexivity].
Qed.
Lemma lines v eol ls : nl_bytes v <> [] -> convention eol -> Forall plain ls -> delivered v (text eol ls) = text (nl_bytes v) ls.
Proof.
  intros NE C P. unfold delivered. assert (X : forall k, k = 0 \/ match eol with [a] => k = (if a =? 10 then 13 else 10) | [a; b] => k = b | _ => False end -> translate v k (text eol ls) = text (nl_bytes v) ls).
  2: { destruct (nl_bytes v) eqn:E; [contradiction NE; reflexivity|]. rewrite <- E in *. apply X. left. reflexivity. }
  induction P as [|l ls PL P IH]; intros k K; [reflexivity|]. unfold text. cbn [map concat]. fold (text eol ls). fold (text (nl_bytes v) ls). rewrite <- !app_assoc.
  assert (G : forall k, k = 0 \/ match eol with [a] => k = (if a =? 10 then 13 else 10) | [a; b] => k = b | _ => False end -> translate v k (eol ++ text eol ls) = nl_bytes v ++ text (nl_bytes v) ls).
  { intros k' K'. destruct C as [->|[->|[->| ->]]]; cbn [app].
    - cbn [translate]. replace (negb (k' =? 0) && (10 =? k')) with false by (destruct K' as [->| ->]; reflexivity). cbn [Z.eqb Pos.eqb orb]. f_equal. apply IH. right. reflexivity.
    - cbn [translate]. replace (negb (k' =? 0) && (13 =? k')) with false by (destruct K' as [->| ->]; reflexivity). cbn [Z.eqb Pos.eqb orb]. f_equal. apply IH. right. reflexivity.
    - cbn [translate]. replace (negb (k' =? 0) && (13 =? k')) with false by (destruct K' as [->| ->]; reflexivity). cbn [Z.eqb Pos.eqb orb negb andb]. f_equal. apply IH. right. reflexivity.
    - cbn [translate]. replace (negb (k' =? 0) && (10 =? k')) with false by (destruct K' as [->| ->]; reflexivity). cbn [Z.eqb Pos.eqb orb negb andb]. f_equal. apply IH. right. reflexivity. }
  destruct l as [|c l]; [cbn [app]; apply G; exact K|]. rewrite translate_plain; [|exact PL|discriminate|destruct C as [->|[->|[->| ->]]]; cbn in K; destruct K as [->| ->]; auto]. rewrite G by (left; reflexivity). reflexivity.
Qed.

(** ** Control *)
Theorem flags_only s h o : reached s h -> proper o -> (match o with WScon _ | WSconBit _ _ | CpuReset => False | _ => True end) -> let s' := step s o in
  (forall j, 2 <= j < 8 -> Z.testbit (scon s') j = Z.testbit (scon s) j) /\ (ti s = true -> ti s' = true) /\ (ri s = true -> ri s' = true) /\ ((forall k, o <> Tick k) -> scon s' = scon s).
Proof.
  intros R Q M. cbv zeta. apply reached_inv in R as I. destruct (tick_or o) as [[k ->]|N].
  - destruct (t_flags _ _ _ (tick_tx s k I Q)) as [r F]. cbn [step]. split; [intros j J; rewrite (F j) by lia; replace (j =? 1) with false by lia; replace (j =? 0) with false by lia; rewrite !andb_false_l, !orb_false_r; reflexivity|].
    split; [intros T; unfold ti in *; rewrite (F 1) by lia; rewrite T; reflexivity|]. split; [intros T; unfold ri in *; rewrite (F 0) by lia; rewrite T; reflexivity|]. intros C. contradiction (C k). reflexivity.
  - assert (E : scon (step s o) = scon s).
    { destruct o; try contradiction M; try reflexivity; [contradiction (N k); reflexivity|cbn [step]; unfold t2_mode; destruct (t2b s); reflexivity|]. cbn [step]. destruct (dev s); [reflexivity|]. destruct (proc_input_frame s) as (C & _). apply (ctl_scon _ _ C). }
    unfold ti, ri. rewrite E. split; [reflexivity|]. split; [auto|]. split; [auto|]. reflexivity.
Qed.
Theorem rate_kept s h o : reached s h -> proper o -> (rate_ok s \/ (exists v, o = WScon v) \/ o = CpuReset) -> ~ (o = T2Con false /\ t2b s = true) -> rate_ok (step s o).
Proof.
  intros R Q RO NT. apply reached_inv in R as I.
  assert (RR : forall v, o = WScon v -> rate_ok (step s o)) by (intros v ->; cbn [step]; rewrite write_scon_eq; right; cbn [set_ctl divby pcon]; rewrite (i_smod _ I); reflexivity).
  assert (RC : o = CpuReset -> rate_ok (step s o)) by (intros ->; right; cbn [step]; unfold cpu_reset; rewrite write_scon_eq; unfold t2_mode, write_pcon; destruct (t2b _); reflexivity).
  destruct RO as [RO|[[v V]|C]]; [|exact (RR v V)|exact (RC C)].
  destruct (tick_or o) as [[k ->]|N]; [exact (t_rate _ _ _ (tick_tx s k I Q) RO)|].
  assert (QQ : quiet o -> rate_ok (step s o)) by (intros q; exact (q_rate _ _ _ (idle_ok s o I q N) RO)).
  destruct o; try (apply QQ; exact Logic.I); cbn [step] in *.
  - contradiction (N k). reflexivity.
  - destruct on; [left; unfold t2_mode; destruct (t2b s); reflexivity|]. destruct (t2b s) eqn:T; [contradiction NT; split; reflexivity|]. destruct RO as [RO|RO]; [congruence|]. right. unfold t2_mode. rewrite T. exact RO.
  - exact RO.
  - exact (RR v eq_refl).
  - rewrite write_scon_eq. right. cbn [set_ctl divby pcon]. rewrite (i_smod _ I). reflexivity.
  - unfold write_pcon. destruct RO as [RO|RO]; [left; exact RO|]. right. cbn [set_pcon divby pcon]. change (mode_of (set_pcon _ _ _ s)) with (mode_of s). rewrite (i_mode _ I). unfold rate in *. destruct (mode_of s =? 0); [exact RO|reflexivity].
  - exact (RC eq_refl).
Qed.
Theorem reset_state s h : reached s h -> let s' := step s CpuReset in
  scon s' = 0 /\ outp s' = outp s /\ rcvd s' = rcvd s /\ sending s' = false /\ receiving s' = false /\ t2b s' = false /\ avail s' = avail s /\ dev s' = dev s.
Proof. intros _. cbn [step]. unfold cpu_reset. rewrite write_scon_eq. unfold t2_mode, write_pcon. destruct (t2b _); repeat split. Qed.

(** ** Writing T2CON starves the transmitter *)
Lemma P_overs v o m : forall s u, P v o s u -> clocked s = false -> P v o (run s (repeat Over m)) (u + Z.of_nat m) /\ cfg (run s (repeat Over m)) = cfg s.
Proof.
  induction m as [|m IH]; intros s u PP C; [rewrite Z.add_0_r; split; [exact PP|reflexivity]|]. cbn [repeat]. change (run s (Over :: repeat Over m)) with (run (step s Over) (repeat Over m)). pose proof (P_idle v o s u Over PP Logic.I ltac:(discriminate)) as PO. rewrite C in PO. pose proof (q_cfg _ _ _ (idle_ok s Over (p_inv _ _ _ _ PP) Logic.I ltac:(discriminate))) as CF.
  destruct (IH (step s Over) (u + 1) PO ltac:(rewrite (proj1 (proj2 (cfg_bt _ _ CF))); exact C)) as [A B]. split; [replace (u + Z.of_nat (S m)) with (u + 1 + Z.of_nat m) by lia; exact A|congruence].
Qed.
Lemma P_t2 v o s u : P v o s u -> u < bit_time s -> t2b s = false -> clocked s = false -> P v o (t2_mode false s) 0 /\ cfg (t2_mode false s) = cfg s.
Proof.
  intros [I R S B U O OP] L T C. assert (Z0 : tr_bit s = 0) by (pose proof (tsrc_pos s I); pose proof (bt_pos s); nia). assert (CF : cfg (t2_mode false s) = cfg s) by (unfold t2_mode; rewrite T; unfold cfg; cbn; rewrite T; reflexivity). split; [|exact CF].
  assert (I' : inv (t2_mode false s)) by (apply (inv_step s (T2Con false)); [exact I|exact Logic.I]). destruct (cfg_bt _ _ CF) as (C1 & C2 & C3). destruct R as [R|R]; [congruence|].
  constructor; [exact I'|right; unfold t2_mode; rewrite T; exact R|unfold t2_mode; rewrite T; exact S|unfold t2_mode; rewrite T; exact B| |unfold t2_mode; rewrite T; exact O|unfold t2_mode; rewrite T; exact OP].
  unfold tsrc. rewrite (by_overflow_clocked _ I'), C2, C. cbn [negb]. unfold t2_mode. rewrite T. cbn [set_div set_rx set_tx tr_bit tr_t1]. rewrite Z0. reflexivity.
Qed.
Theorem starved s h v m k n : reached s h -> rate_ok s -> t2b s = false -> clocked s = false -> Z.of_nat m < bit_time s -> 0 <= k ->
  outp (run s (WSbuf v :: concat (repeat (T2Con false :: repeat Over m ++ [Tick k]) n))) = outp s.
Proof.
  intros R RO T C M K. apply reached_inv in R as I. pose proof (start_P v s I RO) as PP. change (run s (WSbuf v :: ?x)) with (run (write_sbuf v s) x).
  assert (X : exists u, u < bit_time s /\ cfg (write_sbuf v s) = cfg s /\ P (v mod 256) (outp s) (write_sbuf v s) u) by (exists 0; split; [apply bt_pos|]; split; [reflexivity|exact PP]). clear PP RO. revert X. generalize (write_sbuf v s) as q. induction n as [|n IH]; intros q (u & U & CF & PP).
  - exact (p_outp _ _ _ _ PP).
  - cbn [repeat concat]. rewrite run_app. apply IH. clear IH. destruct (cfg_bt _ _ CF) as (C1 & C2 & C3). apply cfg_eqs in CF as CF'. destruct CF' as (_ & _ & CT).
    destruct (P_t2 _ _ q u PP ltac:(rewrite C1; exact U) ltac:(congruence) ltac:(congruence)) as [P1 D1]. change (run q (T2Con false :: ?x)) with (run (t2_mode false q) x). rewrite run_app, run_tick, run_nil.
    destruct (cfg_bt _ _ D1) as (E1 & E2 & E3). destruct (P_overs _ _ m _ _ P1 ltac:(congruence)) as [P2 D2]. set (w := run (t2_mode false q) (repeat Over m)) in *. destruct (cfg_bt _ _ D2) as (F1 & F2 & F3). pose proof (P_tick _ _ _ _ k P2 K) as P3.
    assert (FT : bit_time s <= frame_time s) by (unfold frame_time; pose proof (frame_pos (mode_of s)); pose proof (bt_pos s); nia). replace (frame_time w <=? 0 + Z.of_nat m) with false in P3 by (rewrite F3, E3, C3; lia). destruct P3 as [_ P3]. rewrite F2, E2, C2, C in P3.
    exists (0 + Z.of_nat m). split; [lia|]. split; [|exact P3]. rewrite (t_cfg _ _ _ (tick_tx w k (p_inv _ _ _ _ P2) K)). congruence.
Qed.
