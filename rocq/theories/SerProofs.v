From Verif Require Import Base SerModel SerSpec.

(** ** The loops *)
Lemma tr_loop_ok d b : 0 < d -> forall fuel src bit, 0 <= src -> (Z.to_nat src <= fuel)%nat ->
  tr_loop fuel d b src bit = (src mod d, if bit <? b then Z.min b (bit + src / d) else bit).
Proof.
  intros D. induction fuel as [|k IH]; intros src bit S F; cbn [tr_loop].
  - assert (src = 0) by lia. subst. rewrite Z.mod_0_l, Z.div_0_l by lia. destruct (Z.ltb_spec bit b); f_equal; lia.
  - destruct (Z.leb_spec d src) as [H|H].
    + rewrite IH by lia. replace src with (src - d + 1 * d) at 3 4 by lia. rewrite Z.mod_add, Z.div_add by lia. f_equal. assert (0 <= (src - d) / d) by (apply Z.div_pos; lia).
      destruct (Z.ltb_spec bit b); [destruct (Z.ltb_spec (bit + 1) b); lia|destruct (Z.ltb_spec bit b); lia].
    + rewrite Z.mod_small, Z.div_small by lia. destruct (Z.ltb_spec bit b); f_equal; lia.
Qed.
Lemma rec_loop_ok d : 0 < d -> forall fuel src bit, 0 <= src -> (Z.to_nat src <= fuel)%nat ->
  rec_loop fuel d src bit = (src mod d, bit + src / d).
Proof.
  intros D. induction fuel as [|k IH]; intros src bit S F; cbn [rec_loop].
  - assert (src = 0) by lia. subst. rewrite Z.mod_0_l, Z.div_0_l by lia. f_equal; lia.
  - destruct (Z.leb_spec d src) as [H|H].
    + rewrite IH by lia. replace src with (src - d + 1 * d) at 3 4 by lia. rewrite Z.mod_add, Z.div_add by lia. f_equal. lia.
    + rewrite Z.mod_small, Z.div_small by lia. f_equal; lia.
Qed.

(** ** The invariant of the control members *)
Record inv (s : st) : Prop := {
  i_scon : 0 <= scon s < 256; i_mode : mode s = mode_of s; i_ren : ren s = Z.testbit (scon s) 4; i_bits : bits s = frame_bits (mode_of s);
  i_smod : smod s = Z.testbit (pcon s) 7; i_div : divby s = 12 \/ divby s = 16 \/ divby s = 32;
  i_trt1 : 0 <= tr_t1 s; i_trtick : 0 <= tr_tick s; i_rect1 : 0 <= rec_t1 s; i_rectick : 0 <= rec_tick s }.
Definition divd (s : st) : Z := if t2b s then 16 else divby s.
Definition tsrc (s : st) : Z := if by_overflow s then tr_t1 s else tr_tick s.
Definition rsrc (s : st) : Z := if by_overflow s then rec_t1 s else rec_tick s.
Lemma divd_pos s : inv s -> 0 < divd s.
Proof. intros I. unfold divd. pose proof (i_div _ I). destruct (t2b s); lia. Qed.
Lemma rate_cases m b : rate m b = 12 \/ rate m b = 16 \/ rate m b = 32.
Proof. unfold rate. destruct (m =? 0), b; auto. Qed.
Lemma frame_pos m : 8 <= frame_bits m <= 11.
Proof. unfold frame_bits. destruct (m =? 0), (m =? 1); lia. Qed.
Lemma write_scon_eq n s : write_scon n s = set_ctl n (n / 64) (Z.testbit n 4) (frame_bits (n / 64)) (rate (n / 64) (smod s)) s.
Proof. unfold write_scon, frame_bits, rate. destruct (n / 64 =? 0), (n / 64 =? 1), (n / 64 =? 2); reflexivity. Qed.
Lemma set_byte v k : 0 <= v < 256 -> 0 <= k < 8 -> 0 <= Z.lor v (2 ^ k) < 256.
Proof.
  intros V K. assert (E : Z.lor v (2 ^ k) = Z.lor v (2 ^ k) mod 2 ^ 8); [|rewrite E; apply (Z.mod_pos_bound _ 256); lia].
  apply Z.bits_inj'. intros j J. destruct (Z.ltb_spec j 8) as [C|C]; [rewrite Z.mod_pow2_bits_low by lia; reflexivity|]. rewrite Z.mod_pow2_bits_high by lia. rewrite Z.lor_spec. replace v with (v mod 2 ^ 8) by (apply Z.mod_small; lia). rewrite Z.mod_pow2_bits_high by lia. rewrite Z.pow2_bits_false by lia. reflexivity.
Qed.
Lemma with_bit_range v k on : 0 <= v < 256 -> 0 <= k < 8 -> 0 <= with_bit v k on < 256.
Proof. intros V K. unfold with_bit. destruct on; [apply set_byte; assumption|apply Z.mod_pos_bound; lia]. Qed.
Lemma with_bit_test v k on j : 0 <= k < 8 -> 0 <= j < 8 -> Z.testbit (with_bit v k on) j = if k =? j then on else Z.testbit v j.
Proof.
  intros K J. unfold with_bit. destruct on.
  - rewrite Z.lor_spec. destruct (Z.eqb_spec k j) as [->|N]; [rewrite Z.pow2_bits_true by lia; apply orb_true_r|rewrite Z.pow2_bits_false by lia; apply orb_false_r].
  - change 256 with (2 ^ 8). rewrite Z.mod_pow2_bits_low, Z.land_spec, Z.lnot_spec by lia. destruct (Z.eqb_spec k j) as [->|N]; [rewrite Z.pow2_bits_true by lia; apply andb_false_r|rewrite Z.pow2_bits_false by lia; apply andb_true_r].
Qed.
Lemma mode_bits v : 0 <= v < 256 -> v / 64 = 2 * Z.b2z (Z.testbit v 7) + Z.b2z (Z.testbit v 6).
Proof.
  intros V. rewrite !Z.testbit_spec' by lia. change (2 ^ 7) with 128. change (2 ^ 6) with 64. assert (H : v / 128 = v / 64 / 2) by (rewrite Z.div_div by lia; reflexivity). rewrite H.
  assert (0 <= v / 64 < 4) by (split; [apply Z.div_pos; lia|apply Z.div_lt_upper_bound; lia]). assert (0 <= v / 64 / 2 < 2) by (split; [apply Z.div_pos; lia|apply Z.div_lt_upper_bound; lia]). rewrite (Z.mod_small (v / 64 / 2)) by lia. apply Z.div_mod. lia.
Qed.
Lemma with_bit_mode v k on : 0 <= v < 256 -> 0 <= k < 6 -> with_bit v k on / 64 = v / 64.
Proof. intros V K. rewrite !mode_bits by (try apply with_bit_range; lia). rewrite !with_bit_test by lia. replace (k =? 7) with false by lia. replace (k =? 6) with false by lia. reflexivity. Qed.
Lemma inv_scon n s : inv s -> 0 <= n < 256 -> inv (write_scon n s).
Proof.
  intros [A1 A2 A3 A4 A5 A6 A7 A8 A9 A10] N. rewrite write_scon_eq. constructor; try assumption; try reflexivity. cbn [set_ctl divby]. apply rate_cases.
Qed.
(** ** What the parts leave alone *)
Definition ctl (s : st) := (scon s, pcon s, mode s, ren s, smod s, bits s, t2b s).
Definition txs (s : st) := (sending s, s_out s, outp s, tr_bit s, tr_t1 s, tr_tick s).
Definition rxs (s : st) := (receiving s, s_in s, rcvd s, reads s, rec_bit s, rec_t1 s, rec_tick s).
Definition ins (s : st) := (input s, avail s, sending_nl s, skip_nl s, nl_idx s, (nl s, flow s, able s, often s), dev s).
Lemma cnt_div_ok s : ctl (cnt_div s) = ctl s /\ divby (cnt_div s) = divd s /\ txs (cnt_div s) = txs s /\ rxs (cnt_div s) = rxs s /\ ins (cnt_div s) = ins s.
Proof. unfold cnt_div, divd. destruct (t2b s) eqn:T; repeat split. unfold ctl. cbn [set_div scon pcon mode ren smod bits t2b]. congruence. Qed.
Lemma cnt_tx_frame s : ctl (cnt_tx s) = ctl s /\ divby (cnt_tx s) = divby s /\ rxs (cnt_tx s) = rxs s /\ ins (cnt_tx s) = ins s /\ sending (cnt_tx s) = sending s /\ s_out (cnt_tx s) = s_out s /\ outp (cnt_tx s) = outp s.
Proof. unfold cnt_tx. destruct (sending s) eqn:S; [|repeat split; exact S]. destruct (by_overflow s); destruct (tr_loop _ _ _ _ _); repeat split; exact S. Qed.
Lemma cnt_rx_frame s : ctl (cnt_rx s) = ctl s /\ divby (cnt_rx s) = divby s /\ txs (cnt_rx s) = txs s /\ ins (cnt_rx s) = ins s /\ receiving (cnt_rx s) = receiving s /\ s_in (cnt_rx s) = s_in s /\ rcvd (cnt_rx s) = rcvd s /\ reads (cnt_rx s) = reads s.
Proof. unfold cnt_rx. destruct (receiving s) eqn:S; [|repeat split; exact S]. destruct (by_overflow s); destruct (rec_loop _ _ _ _); repeat split; exact S. Qed.
Lemma by_overflow_ctl s s' : ctl s' = ctl s -> by_overflow s' = by_overflow s.
Proof. intros C. unfold ctl in C. unfold by_overflow. congruence. Qed.
Lemma cnt_tx_ok s : 0 < divby s -> 0 <= tr_t1 s -> 0 <= tr_tick s -> sending s = true ->
  tr_bit (cnt_tx s) = (if tr_bit s <? bits s then Z.min (bits s) (tr_bit s + tsrc s / divby s) else tr_bit s) /\ tsrc (cnt_tx s) = tsrc s mod divby s.
Proof.
  intros D T1 T2 S. pose proof (by_overflow_ctl _ _ (proj1 (cnt_tx_frame s))) as B. unfold tsrc. rewrite B. unfold cnt_tx. rewrite S. destruct (by_overflow s); rewrite tr_loop_ok by lia; split; reflexivity.
Qed.
Lemma cnt_tx_pos s : 0 < divby s -> 0 <= tr_t1 s -> 0 <= tr_tick s -> 0 <= tr_t1 (cnt_tx s) /\ 0 <= tr_tick (cnt_tx s).
Proof. intros D T1 T2. unfold cnt_tx. destruct (sending s); [|split; assumption]. destruct (by_overflow s); rewrite tr_loop_ok by lia; split; cbn [set_tx tr_t1 tr_tick]; try assumption; apply Z.mod_pos_bound; exact D. Qed.
Lemma cnt_rx_ok s : 0 < divby s -> 0 <= rec_t1 s -> 0 <= rec_tick s -> receiving s = true ->
  rec_bit (cnt_rx s) = rec_bit s + rsrc s / divby s /\ rsrc (cnt_rx s) = rsrc s mod divby s.
Proof.
  intros D T1 T2 S. pose proof (by_overflow_ctl _ _ (proj1 (cnt_rx_frame s))) as B. unfold rsrc. rewrite B. unfold cnt_rx. rewrite S. destruct (by_overflow s); rewrite rec_loop_ok by lia; split; reflexivity.
Qed.
Lemma cnt_rx_pos s : 0 < divby s -> 0 <= rec_t1 s -> 0 <= rec_tick s -> 0 <= rec_t1 (cnt_rx s) /\ 0 <= rec_tick (cnt_rx s).
Proof. intros D T1 T2. unfold cnt_rx. destruct (receiving s); [|split; assumption]. destruct (by_overflow s); rewrite rec_loop_ok by lia; split; cbn [set_rx rec_t1 rec_tick]; try assumption; apply Z.mod_pos_bound; exact D. Qed.
Lemma proc_input_frame s : ctl (proc_input s) = ctl s /\ divby (proc_input s) = divby s /\ txs (proc_input s) = txs s /\ rxs (proc_input s) = rxs s.
Proof. unfold proc_input. destruct (avail s); [repeat split|]. destruct (negb (flow s) || able s); [|repeat split]. destruct (dev s); [repeat split|]. destruct (negb (skip_nl s =? 0) && (z =? skip_nl s)); repeat split. Qed.
Lemma start_rx_frame s : ctl (start_rx s) = ctl s /\ divby (start_rx s) = divby s /\ txs (start_rx s) = txs s /\ s_in (start_rx s) = s_in s /\ rcvd (start_rx s) = rcvd s /\ reads (start_rx s) = reads s.
Proof.
  unfold start_rx. destruct (ren s && negb (receiving s)); [|repeat split]. set (q := if often s then _ else s).
  assert (E : ctl q = ctl s /\ divby q = divby s /\ txs q = txs s /\ rxs q = rxs s) by (unfold q; destruct (often s); [|repeat split]; destruct (dev s); [repeat split|apply proc_input_frame]).
  destruct E as (E1 & E2 & E3 & E4). unfold rxs in E4. assert (s_in q = s_in s /\ rcvd q = rcvd s /\ reads q = reads s) as (E5 & E6 & E7) by (split; [|split]; congruence). rewrite <- E1, <- E2, <- E3, <- E5, <- E6, <- E7. destruct (avail q); repeat split.
Qed.
Lemma get_input_frame s c q : get_input s = Some (c, q) -> ctl q = ctl s /\ divby q = divby s /\ txs q = txs s /\ rxs q = rxs s.
Proof.
  unfold get_input. destruct (negb (avail s)); [discriminate|]. destruct (nl_byte s 0 =? 0); [intros H; injection H; intros <- _; repeat split|].
  assert (SN : forall s0, send_nl s0 = (c, q) -> ctl q = ctl s0 /\ divby q = divby s0 /\ txs q = txs s0 /\ rxs q = rxs s0) by (intros s0 H; unfold send_nl in H; injection H; intros <- _; destruct (nl_byte s0 (nl_idx s0 + 1) =? 0); repeat split).
  destruct (negb (sending_nl s)); [|intros H; apply SN; congruence]. destruct (negb (is_nl (input s))); [intros H; injection H; intros <- _; repeat split|]. intros H. apply (SN (set_inp (input s) (avail s) true (opposite_nl (input s)) 0 (able s) (dev s) s)). congruence.
Qed.
