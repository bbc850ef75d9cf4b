(** C93-C97: timer 2 of the 8052. *)
From Verif Require Import Base Tm2Model Tm2Spec Tm2Proofs Tm2Proofs2 Tm2Proofs3 Tm2Proofs4 Tm2Proofs5.

Lemma quiet_spec d s l : inv d s -> t2ex_quiet s l -> quiet s l.
Proof. intros I [Q|Q]; [left; rewrite (i_ex _ _ I); exact Q|right; exact Q]. Qed.
Lemma many_spec d k s l : inv d s -> many k s l = counted k s l.
Proof. intros I. unfold many, counted. rewrite (i_tr _ _ I), (i_ct _ _ I). reflexivity. Qed.
Lemma seg_tf d s s' c r o tf : seg d s s' c r o tf false -> bit (t2con s') bTF2 = bit (t2con s) bTF2 || tf.
Proof. intros G. unfold bit. rewrite (g_con _ _ _ _ _ _ _ _ G). cbn. rewrite orb_false_r. reflexivity. Qed.
Lemma seg_others d s s' c r o tf : seg d s s' c r o tf false -> others_kept bTF2 s s'.
Proof. intros G. split; [apply (g_mod _ _ _ _ _ _ _ _ G)|]. intros j J. unfold bit. rewrite (g_con _ _ _ _ _ _ _ _ G). replace (j =? 7) with false by (symmetry; apply Z.eqb_neq; exact J). rewrite !andb_false_r, !orb_false_r. reflexivity. Qed.
Lemma seg_others_exf d s s' c r o exf : seg d s s' c r o false exf -> others_kept bEXF2 s s'.
Proof. intros G. split; [apply (g_mod _ _ _ _ _ _ _ _ G)|]. intros j J. unfold bit. rewrite (g_con _ _ _ _ _ _ _ _ G). replace (j =? 6) with false by (symmetry; apply Z.eqb_neq; exact J). rewrite !andb_false_r, !orb_false_r. reflexivity. Qed.

Lemma eff_bits d s s' c r o tf exf te xe : eff d s s' c r o tf exf te xe -> bit (t2con s') bTF2 = bit (t2con s) bTF2 || tf /\ bit (t2con s') bEXF2 = bit (t2con s) bEXF2 || exf.
Proof. intros E. unfold bit. rewrite !(e_con _ _ _ _ _ _ _ _ _ _ E). change (bTF2 =? 7) with true. change (bTF2 =? 6) with false. change (bEXF2 =? 7) with false. change (bEXF2 =? 6) with true. cbn [andb]. rewrite !orb_false_r. split; reflexivity. Qed.

(** C93: auto reload and capture.  After any history since reset, while nobody writes the
    registers of the timer and no edge of T2EX is acted on: with TR2 set the 16 bit count
    goes up once in every machine cycle (whatever C/T2 says and whatever happens on pin T2),
    is loaded from RCAP2 (reload) or wraps to 0 (capture) on overflow, TF2 is set exactly if
    it overflowed and is never cleared; with TR2 clear it stands still; nothing else changes *)
Theorem C93_reload : forall s d l, reached s d -> mode_by (t2con s) d = Reload -> Forall hands_off l -> t2ex_quiet s l ->
  let s' := run s l in let x := law_up (reload_of s) (count_of s) (if bit (t2con s) bTR2 then cycles l else 0) in
  count_of s' = fst x /\ reload_of s' = reload_of s /\ ov s' = ov s /\
  bit (t2con s') bTF2 = bit (t2con s) bTF2 || (0 <? snd x) /\ others_kept bTF2 s s'.
Proof.
  intros s d l R M F Q. cbv zeta. pose proof (reached_inv s d R) as I. rewrite <- (i_md _ _ I) in M. pose proof (reload_seg l d s I M F (quiet_spec d s l I Q)) as G. cbv zeta in G. rewrite (i_tr _ _ I) in G.
  split; [apply (g_cnt _ _ _ _ _ _ _ _ G)|]. split; [apply (g_rel _ _ _ _ _ _ _ _ G)|]. split; [rewrite (g_ov _ _ _ _ _ _ _ _ G); lia|]. split; [apply (seg_tf _ _ _ _ _ _ _ G)|apply (seg_others _ _ _ _ _ _ _ G)].
Qed.
Theorem C93_capture : forall s d l, reached s d -> mode_by (t2con s) d = Capture -> Forall hands_off l -> t2ex_quiet s l ->
  let s' := run s l in let x := law_wrap (count_of s) (if bit (t2con s) bTR2 then cycles l else 0) in
  count_of s' = fst x /\ reload_of s' = reload_of s /\ ov s' = ov s /\
  bit (t2con s') bTF2 = bit (t2con s) bTF2 || (0 <? snd x) /\ others_kept bTF2 s s'.
Proof.
  intros s d l R M F Q. cbv zeta. pose proof (reached_inv s d R) as I. rewrite <- (i_md _ _ I) in M. pose proof (capture_seg l d s I M F (quiet_spec d s l I Q)) as G. cbv zeta in G. rewrite (i_tr _ _ I) in G.
  split; [apply (g_cnt _ _ _ _ _ _ _ _ G)|]. split; [apply (g_rel _ _ _ _ _ _ _ _ G)|]. split; [rewrite (g_ov _ _ _ _ _ _ _ _ G); lia|]. split; [apply (seg_tf _ _ _ _ _ _ _ G)|apply (seg_others _ _ _ _ _ _ _ G)].
Qed.
(** the period a user computes: TF2 is raised by the cycle number 65536 - count *)
Theorem C93_period : forall s d l, reached s d -> mode_by (t2con s) d = Reload -> Forall hands_off l -> t2ex_quiet s l -> bit (t2con s) bTR2 = true -> bit (t2con s) bTF2 = false ->
  (bit (t2con (run s l)) bTF2 = true <-> 65536 - count_of s <= cycles l).
Proof.
  intros s d l R M F Q T Z0. destruct (C93_reload s d l R M F Q) as (_ & _ & _ & E & _). rewrite T, Z0 in E. rewrite E. cbn [orb]. pose proof (count_range d s (reached_inv s d R)). pose proof (reload_range d s (reached_inv s d R)). pose proof (cycles_nonneg l). unfold law_up. destruct (Z.ltb_spec (count_of s + cycles l - 65536) 0) as [H2|H2]; cbn [snd].
  - split; [discriminate|lia].
  - split; [lia|]. intros _. assert (0 <= (count_of s + cycles l - 65536) / (65536 - reload_of s)) by (apply Z.div_pos; lia). apply Z.ltb_lt. lia.
Qed.
Print Assumptions C93_reload.
Print Assumptions C93_capture.
Print Assumptions C93_period.

(** C94: T2EX.  With EXEN2 set a falling edge of T2EX (or one that was waiting) is acted on in
    the next machine cycle, before the count and also if the timer is stopped: EXF2 is set and
    the count is loaded from RCAP2 (reload) or copied to RCAP2 (capture); in baud rate mode only
    EXF2 is set; however many edges there were, they are served once *)
Theorem C94_reload_edge : forall s d l, reached s d -> mode_by (t2con s) d = Reload -> Forall hands_off l -> cycles l = 0 ->
  bit (t2con s) bEXEN2 = true -> 0 < t2ex_waiting s + falls 1 (pin 1 s) l ->
  let s' := run s (l ++ [Cycle]) in let x := law_up (reload_of s) (reload_of s) (if bit (t2con s) bTR2 then 1 else 0) in
  count_of s' = fst x /\ reload_of s' = reload_of s /\ bit (t2con s') bEXF2 = true /\
  bit (t2con s') bTF2 = bit (t2con s) bTF2 || (0 <? snd x) /\ t2ex_waiting s' = 0.
Proof.
  intros s d l R M F N X W. cbv zeta. pose proof (reached_inv s d R) as I. destruct (ports_seg l d s I F N) as (A1 & A2 & A3 & A4 & A5 & A6 & A7). rewrite run_app. set (s1 := run s l) in *. cbn [run fold_left step].
  rewrite <- A4 in M, X |- *. rewrite <- (i_md _ _ A1) in M. pose proof (tick_reload d s1 A1 M) as E. cbv zeta in E. assert (A : act_ex s1 = true) by (unfold act_ex; rewrite (i_ex _ _ A1), X, A7; replace (_ =? 0) with false by (symmetry; apply Z.eqb_neq; unfold t2ex_waiting in W; lia); reflexivity). rewrite A, (i_tr _ _ A1), A3 in E.
  pose proof (reload_range d s I) as RR.
  split; [rewrite (e_cnt _ _ _ _ _ _ _ _ _ _ E); destruct (bit (t2con s1) bTR2); [reflexivity|rewrite up0 by lia; reflexivity]|]. split; [apply (e_rel _ _ _ _ _ _ _ _ _ _ E)|].
  destruct (eff_bits _ _ _ _ _ _ _ _ _ _ E) as [ET EX]. split; [rewrite EX; apply orb_true_r|]. split; [|apply (e_xe _ _ _ _ _ _ _ _ _ _ E)]. rewrite ET. destruct (bit (t2con s1) bTR2); [reflexivity|rewrite up0 by lia; reflexivity].
Qed.
Theorem C94_capture_edge : forall s d l, reached s d -> mode_by (t2con s) d = Capture -> Forall hands_off l -> cycles l = 0 ->
  bit (t2con s) bEXEN2 = true -> 0 < t2ex_waiting s + falls 1 (pin 1 s) l ->
  let s' := run s (l ++ [Cycle]) in let x := law_wrap (count_of s) (if bit (t2con s) bTR2 then 1 else 0) in
  count_of s' = fst x /\ reload_of s' = count_of s /\ bit (t2con s') bEXF2 = true /\
  bit (t2con s') bTF2 = bit (t2con s) bTF2 || (0 <? snd x) /\ t2ex_waiting s' = 0.
Proof.
  intros s d l R M F N X W. cbv zeta. pose proof (reached_inv s d R) as I. destruct (ports_seg l d s I F N) as (A1 & A2 & A3 & A4 & A5 & A6 & A7). rewrite run_app. set (s1 := run s l) in *. cbn [run fold_left step].
  rewrite <- A4 in M, X |- *. rewrite <- (i_md _ _ A1) in M. pose proof (tick_capture d s1 A1 M) as E. cbv zeta in E. assert (A : act_ex s1 = true) by (unfold act_ex; rewrite (i_ex _ _ A1), X, A7; replace (_ =? 0) with false by (symmetry; apply Z.eqb_neq; unfold t2ex_waiting in W; lia); reflexivity). rewrite A, (i_tr _ _ A1), A2 in E.
  pose proof (count_range d s I) as RR.
  split; [rewrite (e_cnt _ _ _ _ _ _ _ _ _ _ E); destruct (bit (t2con s1) bTR2); [reflexivity|rewrite wrap0 by lia; reflexivity]|]. split; [apply (e_rel _ _ _ _ _ _ _ _ _ _ E)|].
  destruct (eff_bits _ _ _ _ _ _ _ _ _ _ E) as [ET EX]. split; [rewrite EX; apply orb_true_r|]. split; [|apply (e_xe _ _ _ _ _ _ _ _ _ _ E)]. rewrite ET. destruct (bit (t2con s1) bTR2); [reflexivity|rewrite wrap0 by lia; reflexivity].
Qed.
Theorem C94_baud_edge : forall s d l, reached s d -> mode_by (t2con s) d = Baud -> Forall hands_off l -> cycles l = 0 ->
  bit (t2con s) bEXEN2 = true -> 0 < t2ex_waiting s + falls 1 (pin 1 s) l ->
  let s' := run s (l ++ [Cycle]) in bit (t2con s') bEXF2 = true /\ reload_of s' = reload_of s /\ t2ex_waiting s' = 0.
Proof.
  intros s d l R M F N X W. cbv zeta. pose proof (reached_inv s d R) as I. destruct (ports_seg l d s I F N) as (A1 & A2 & A3 & A4 & A5 & A6 & A7). rewrite run_app. set (s1 := run s l) in *. cbn [run fold_left step].
  rewrite <- A4 in M, X. rewrite <- (i_md _ _ A1) in M. pose proof (tick_baud d s1 A1 M) as E. cbv zeta in E. assert (A : act_ex s1 = true) by (unfold act_ex; rewrite (i_ex _ _ A1), X, A7; replace (_ =? 0) with false by (symmetry; apply Z.eqb_neq; unfold t2ex_waiting in W; lia); reflexivity). rewrite A, A3 in E.
  destruct (eff_bits _ _ _ _ _ _ _ _ _ _ E) as [ET EX]. split; [rewrite EX; apply orb_true_r|]. split; [apply (e_rel _ _ _ _ _ _ _ _ _ _ E)|apply (e_xe _ _ _ _ _ _ _ _ _ _ E)].
Qed.
(** edges seen while EXEN2 is clear are not lost: they wait *)
Theorem C94_edges_wait : forall s d l, reached s d -> mode_by (t2con s) d <> Down -> Forall hands_off l -> bit (t2con s) bEXEN2 = false ->
  t2ex_waiting (run s l) = t2ex_waiting s + falls 1 (pin 1 s) l.
Proof. intros s d l R M F X. pose proof (reached_inv s d R) as I. apply (wait_seg l d); [exact I|exact F|rewrite (i_ex _ _ I); exact X|rewrite (i_md _ _ I); exact M]. Qed.
Print Assumptions C94_reload_edge.
Print Assumptions C94_capture_edge.
Print Assumptions C94_baud_edge.
Print Assumptions C94_edges_wait.

(** C95: baud rate generator (RCLK or TCLK).  While nobody writes the registers of the timer
    the count goes up six times per machine cycle (C/T2 clear) or once for every falling edge
    of T2 (C/T2 set), is loaded from RCAP2 on overflow and every overflow is told to the
    partner; TF2 is never set and RCAP2 never changed, whatever T2EX does *)
Theorem C95_baud : forall s d l, reached s d -> mode_by (t2con s) d = Baud -> Forall hands_off l ->
  let s' := run s l in let x := law_up (reload_of s) (count_of s) (counted 6 s l) in
  count_of s' = fst x /\ reload_of s' = reload_of s /\ ov s' = ov s + snd x /\ others_kept bEXF2 s s'.
Proof.
  intros s d l R M F. cbv zeta. pose proof (reached_inv s d R) as I. rewrite <- (i_md _ _ I) in M. destruct (baud_seg l d s I M F) as [exf G]. rewrite (many_spec d) in G by exact I.
  split; [apply (g_cnt _ _ _ _ _ _ _ _ G)|]. split; [apply (g_rel _ _ _ _ _ _ _ _ G)|]. split; [apply (g_ov _ _ _ _ _ _ _ _ G)|apply (seg_others_exf _ _ _ _ _ _ _ G)].
Qed.
Print Assumptions C95_baud.

(** C96: down mode (DCEN).  While T2EX keeps its level: high counts up as in reload, low counts
    down from a count not below RCAP2, FFFF following RCAP2; one count per cycle or, with C/T2
    set, per falling edge of T2.  TF2 is set by an overflow, and by an underflow unless RCAP2
    is 0; EXF2 is never touched, and EXEN2 has no effect *)
Theorem C96_down : forall s d l, reached s d -> mode_by (t2con s) d = Down -> Forall hands_off l -> steady 1 (pin 1 s) l ->
  (high (pin 1 s) = false -> reload_of s <= count_of s) ->
  let s' := run s l in
  let x := if high (pin 1 s) then law_up (reload_of s) (count_of s) (counted 1 s l) else law_down (reload_of s) (count_of s) (counted 1 s l) in
  count_of s' = fst x /\ reload_of s' = reload_of s /\ ov s' = ov s /\
  bit (t2con s') bTF2 = bit (t2con s) bTF2 || ((0 <? snd x) && (high (pin 1 s) || negb (reload_of s =? 0))) /\ others_kept bTF2 s s'.
Proof.
  intros s d l R M F Y RC. cbv zeta. pose proof (reached_inv s d R) as I. rewrite <- (i_md _ _ I) in M. rewrite <- (i_xb _ _ I) in RC |- *. pose proof (down_seg l d s I M F Y RC) as G. cbv zeta in G. rewrite (many_spec d) in G by exact I.
  replace (0 <? reload_of s) with (negb (reload_of s =? 0)) in G by (pose proof (reload_range d s I); destruct (Z.eqb_spec (reload_of s) 0), (Z.ltb_spec 0 (reload_of s)); cbn [negb]; lia || reflexivity).
  split; [apply (g_cnt _ _ _ _ _ _ _ _ G)|]. split; [apply (g_rel _ _ _ _ _ _ _ _ G)|]. split; [rewrite (g_ov _ _ _ _ _ _ _ _ G); lia|]. split; [apply (seg_tf _ _ _ _ _ _ _ G)|apply (seg_others _ _ _ _ _ _ _ G)].
Qed.
(** instead of EXF2 the cycle of an event inverts bit 6 of port 1 *)
Theorem C96_inverts_P1_6 : forall s d, reached s d -> mode_by (t2con s) d = Down -> (high (pin 1 s) = false -> reload_of s <= count_of s) ->
  let s' := run s [Cycle] in
  let x := if high (pin 1 s) then law_up (reload_of s) (count_of s) (counted 1 s [Cycle]) else law_down (reload_of s) (count_of s) (counted 1 s [Cycle]) in
  p1 s' = if (0 <? snd x) && (high (pin 1 s) || negb (reload_of s =? 0)) then Z.lxor (p1 s) (2 ^ 6) else p1 s.
Proof.
  intros s d R M RC. cbv zeta. pose proof (reached_inv s d R) as I. rewrite <- (i_md _ _ I) in M. rewrite <- (i_xb _ _ I) in RC |- *. cbn [run fold_left step]. pose proof (tick_down_p1 d s I M RC) as G. cbv zeta in G.
  replace (0 <? reload_of s) with (negb (reload_of s =? 0)) in G by (pose proof (reload_range d s I); destruct (Z.eqb_spec (reload_of s) 0), (Z.ltb_spec 0 (reload_of s)); cbn [negb]; lia || reflexivity).
  assert (E : counts 1 s = counted 1 s [Cycle]) by (unfold counts, counted; rewrite (i_tr _ _ I), (i_ct _ _ I); reflexivity). rewrite E in G. exact G.
Qed.
Print Assumptions C96_down.
Print Assumptions C96_inverts_P1_6.

Lemma down_app h : forall q b o, down_mode q b (h ++ [o]) = next_down (run q h) o (down_mode q b h).
Proof. induction h as [|x h IH]; intros q b o; [reflexivity|]. cbn [app]. rewrite !down_unfold, run_cons. apply IH. Qed.
(** C97: control.  A write to T2CON changes no count; it always leaves down mode (so a program
    must write T2MOD after T2CON), and a write to T2MOD never leaves it.  Edges seen before are
    forgotten exactly if the write changes the mode or TR2 *)
Theorem C97_t2con : forall s d v, reached s d -> let s' := run s [WCon v] in
  let keep := mode_eqb (mode_by (v mod 256) false) (mode_by (t2con s) d) && Bool.eqb (bit (v mod 256) bTR2) (bit (t2con s) bTR2) in
  reached s' false /\ t2con s' = v mod 256 /\ t2mod s' = t2mod s /\ count_of s' = count_of s /\ reload_of s' = reload_of s /\
  t2_waiting s' = (if keep then t2_waiting s else 0) /\ t2ex_waiting s' = (if keep then t2ex_waiting s else 0).
Proof.
  intros s d v R. cbv zeta. pose proof (reached_inv s d R) as I. pose proof (con_ok d v s I) as (A & B & C & D & E & _). pose proof (con_edges d v s I) as [X1 X2]. cbv zeta in X1, X2.
  split; [|split; [exact B|split; [exact C|split; [exact D|split; [exact E|split; [exact X1|exact X2]]]]]].
  destruct R as (s0 & h & P & T & X & F & Es & Ed). exists s0, (h ++ [WCon v]). split; [exact P|]. split; [exact T|]. split; [exact X|]. split; [apply Forall_app; split; [exact F|repeat constructor]|]. split; [rewrite run_app, <- Es; reflexivity|].
  rewrite down_app. reflexivity.
Qed.
Theorem C97_t2mod : forall s d v, reached s d -> let s' := run s [WMod v] in
  let enters := bit v 0 && mode_eqb (mode_by (t2con s) d) Reload in
  reached s' (bit v 0 && negb (bit (t2con s) bRCLK || bit (t2con s) bTCLK || bit (t2con s) bCP) || d) /\
  mode_by (t2con s') (bit v 0 && negb (bit (t2con s) bRCLK || bit (t2con s) bTCLK || bit (t2con s) bCP) || d) = (if enters then Down else mode_by (t2con s) d) /\
  t2con s' = t2con s /\ t2mod s' = v mod 256 /\ count_of s' = count_of s /\ reload_of s' = reload_of s /\
  t2_waiting s' = (if enters then 0 else t2_waiting s) /\ t2ex_waiting s' = (if enters then 0 else t2ex_waiting s).
Proof.
  intros s d v R. cbv zeta. pose proof (reached_inv s d R) as I. pose proof (mod_ok d v s I) as (A & B & C & D & E & _). pose proof (mod_edges d v s I) as [X1 X2]. cbv zeta in X1, X2.
  split; [|split; [|split; [exact B|split; [exact C|split; [exact D|split; [exact E|]]]]]].
  2:{ cbn [run fold_left step]. rewrite B. unfold mode_by. destruct (bit v 0), (bit (t2con s) bRCLK), (bit (t2con s) bTCLK), (bit (t2con s) bCP), d; reflexivity. }
  2:{ cbn [run fold_left step]. unfold t2_waiting, t2ex_waiting. rewrite X1, X2. destruct (bit v 0 && mode_eqb (mode_by (t2con s) d) Reload); split; reflexivity. }
  destruct R as (s0 & h & P & T & X & F & Es & Ed). exists s0, (h ++ [WMod v]). split; [exact P|]. split; [exact T|]. split; [exact X|]. split; [apply Forall_app; split; [exact F|repeat constructor]|]. split; [rewrite run_app, <- Es; reflexivity|].
  rewrite down_app, <- Es, <- Ed. cbn [next_down]. destruct (bit v 0), (negb _); reflexivity.
Qed.
(** reset: everything is cleared and reload mode is selected *)
Theorem C97_reset : forall s0, 0 <= pins s0 < 256 -> 0 <= T_edge s0 -> 0 <= ex_edge s0 -> let s := reset s0 in
  reached s false /\ t2con s = 0 /\ t2mod s = 0 /\ count_of s = 0 /\ reload_of s = 0 /\ p1 s = 255 /\ pins s = pins s0.
Proof.
  intros s0 P T X. cbv zeta. split; [exists s0, []; split; [exact P|split; [exact T|split; [exact X|split; [constructor|split; reflexivity]]]]|]. apply (reset_ok s0 P T X).
Qed.
Print Assumptions C97_t2con.
Print Assumptions C97_t2mod.
Print Assumptions C97_reset.

(** ** The hypotheses are met *)
Definition power_on : st := mkSt 0 0 0 0 0 0 0 255 Reload false false false 0 0 false 0.
Lemma ex_reached h : Forall bit_numbers h -> reached (run (reset power_on) h) (down_mode (reset power_on) false h).
Proof. intros F. exists power_on, h. cbn [power_on pins T_edge ex_edge]. repeat split; try lia. exact F. Qed.
Example ex_reload : let s := run (reset power_on) [WRh 0xff; WRl 0xf0; WTh 0xff; WTl 0xfe; WCon 4] in let s' := run s [Cycle; WP1 0xfe; Cycle; Cycle] in
  reached s false /\ mode_by (t2con s) false = Reload /\ t2ex_quiet s [Cycle; WP1 0xfe; Cycle; Cycle] /\ count_of s' = 0xfff1 /\ bit (t2con s') bTF2 = true.
Proof. cbv zeta. split; [apply (ex_reached [WRh 0xff; WRl 0xf0; WTh 0xff; WTl 0xfe; WCon 4]); repeat constructor|]. split; [reflexivity|]. split; [left; reflexivity|]. split; vm_compute; reflexivity. Qed.
Example ex_capture_edge : let s := run (reset power_on) [WTh 0x12; WTl 0x34; WCon 0x0d] in let s' := run s [WP1Bit 1 false; Cycle] in
  reached s false /\ mode_by (t2con s) false = Capture /\ 0 < t2ex_waiting s + falls 1 (pin 1 s) [WP1Bit 1 false] /\ reload_of s' = 0x1234 /\ count_of s' = 0x1235.
Proof. cbv zeta. split; [apply (ex_reached [WTh 0x12; WTl 0x34; WCon 0x0d]); repeat constructor|]. split; [reflexivity|]. split; [vm_compute; reflexivity|]. split; vm_compute; reflexivity. Qed.
Example ex_baud : let s := run (reset power_on) [WRh 0xff; WRl 0xf0; WTh 0xff; WTl 0xf0; WCon 0x34] in let s' := run s [Cycle; Cycle; Cycle; Cycle; Cycle; Cycle; Cycle; Cycle] in
  reached s false /\ mode_by (t2con s) false = Baud /\ ov s' = 3 /\ bit (t2con s') bTF2 = false.
Proof. cbv zeta. split; [apply (ex_reached [WRh 0xff; WRl 0xf0; WTh 0xff; WTl 0xf0; WCon 0x34]); repeat constructor|]. split; [reflexivity|]. split; vm_compute; reflexivity. Qed.
Example ex_down : let s := run (reset power_on) [WRl 0xf0; WTl 0xf1; WP1Bit 1 false; WCon 4; WMod 1] in let s' := run s [Cycle; Cycle; Cycle] in
  reached s true /\ mode_by (t2con s) true = Down /\ high (pin 1 s) = false /\ steady 1 (pin 1 s) [Cycle; Cycle; Cycle] /\ reload_of s <= count_of s /\
  count_of s' = 0xfffe /\ bit (t2con s') bTF2 = true /\ Z.testbit (p1 s') 6 = false.
Proof.
  cbv zeta. split; [apply (ex_reached [WRl 0xf0; WTl 0xf1; WP1Bit 1 false; WCon 4; WMod 1]); repeat constructor; cbn; lia|]. split; [reflexivity|]. split; [reflexivity|]. split; [cbn; auto|]. split; [vm_compute; discriminate|]. split; [|split]; vm_compute; reflexivity.
Qed.
(** clearing DCEN does not leave down mode *)
Example ex_dcen_sticks : let s := run (reset power_on) [WCon 4; WMod 1; WMod 0] in reached s true /\ t2mod s = 0 /\ mode_by (t2con s) true = Down.
Proof. cbv zeta. split; [apply (ex_reached [WCon 4; WMod 1; WMod 0]); repeat constructor|]. split; reflexivity. Qed.
