From Verif Require Import Base TmrModel TmrSpec TmrObs TmrProofs TmrProofs2 TmrProofs3.

Lemma pulses_run i m t1 t2 : run_bit i t1 = run_bit i t2 -> forall l lv p n, pulses_of i m t1 l lv p n = pulses_of i m t2 l lv p n.
Proof. intros E l. induction l as [|[|v] l IH]; intros lv p n; cbn [pulses_of]; [reflexivity| |apply IH]. rewrite E, !IH. reflexivity. Qed.
Lemma pulses_acc i m t l : forall lv p n, pulses_of i m t l lv p n = (n + fst (pulses_of i m t l lv p 0), snd (pulses_of i m t l lv p 0)).
Proof.
  induction l as [|[|v] l IH]; intros lv p n; cbn [pulses_of fst snd]; [f_equal; lia| |apply IH].
  destruct (_ && _); [destruct (ct_bit i m)|]; rewrite IH; [rewrite (IH lv 0 (0 + p))|rewrite (IH lv p (0 + 1))|reflexivity]; cbn [fst snd]; f_equal; lia.
Qed.
Lemma pulses_nonneg i m t l : forall lv p n, 0 <= p -> 0 <= n -> 0 <= fst (pulses_of i m t l lv p n) /\ 0 <= snd (pulses_of i m t l lv p n).
Proof.
  induction l as [|[|v] l IH]; intros lv p n P N; cbn [pulses_of fst snd]; [split; assumption| |].
  - destruct (_ && _); [destruct (ct_bit i m)|]; apply IH; lia.
  - apply IH; [destruct (_ && _)|]; lia.
Qed.
Lemma cycles_nonneg l : 0 <= cycles l.
Proof. induction l as [|[|v] l IH]; cbn [cycles]; lia. Qed.

Definition good (i : bool) (m : Z) : Prop := 0 <= m < 4.
Lemma claw0 i t m l h c : 0 <= m < 4 -> byte l -> byte h -> c = 0 -> count_law i t m l h 0 c = (l, h, 0).
Proof.
  intros M L H ->. unfold count_law. destruct (Z.eqb_spec m 3) as [E|E]; [|apply law0; try assumption; lia]. destruct i; [reflexivity|]. unfold byte in *. rewrite !Z.add_0_r, Z.mod_small, Z.div_small, (Z.mod_small h) by lia. destruct (run_bit true t); reflexivity.
Qed.
Lemma claw_bytes i t m l h n c : 0 <= m < 4 -> byte l -> byte h -> 0 <= n -> let '(l', h', o) := count_law i t m l h n c in byte l' /\ byte h' /\ 0 <= o.
Proof.
  intros M L H N. unfold count_law. destruct (Z.eqb_spec m 3) as [E|E]; [|apply law_bytes; try assumption; lia]. destruct i; [repeat split; apply L || apply H || lia|]. split; [apply byte_mod|]. split; [destruct (run_bit true t); [apply byte_mod|exact H]|]. unfold byte in *. apply Z.div_pos; lia.
Qed.
Lemma claw_add i t m l h n k c d : 0 <= m < 4 -> byte l -> byte h -> 0 <= n -> 0 <= k ->
  count_law i t m l h (n + k) (c + d) = let '(l', h', o) := count_law i t m l h n c in let '(l2, h2, o2) := count_law i t m l' h' k d in (l2, h2, o + o2).
Proof.
  intros M L H N K. unfold count_law. destruct (Z.eqb_spec m 3) as [E|E]; [|apply law_add; try assumption; lia]. destruct i; [reflexivity|].
  pose proof (Z.div_mod (l + n) 256 ltac:(lia)) as D. replace (l + (n + k)) with ((l + n) mod 256 + k + (l + n) / 256 * 256) by lia. rewrite Z.mod_add, Z.div_add by lia. f_equal; [f_equal|lia].
  destruct (run_bit true t); [|reflexivity]. rewrite Z.add_mod_idemp_l by lia. f_equal. lia.
Qed.
Lemma claw_run i t t' m l h n c : run_bit true t = run_bit true t' -> count_law i t m l h n c = count_law i t' m l h n c.
Proof. intros E. unfold count_law. rewrite E. reflexivity. Qed.
Lemma after_law i s : after i s = count_law i (tcon s) (selected i (tmod s)) (tl i s) (th i s) (npulse i s) 1.
Proof. unfold after, count_law. destruct i; reflexivity. Qed.

Lemma with_bit_spec v k on : byte v -> 0 <= k < 8 -> with_bit v k on = if on then Z.setbit v k else Z.clearbit v k.
Proof.
  intros V K. unfold with_bit. destruct on; [rewrite Z.setbit_spec'; reflexivity|]. rewrite Z.clearbit_spec'. apply Z.bits_inj'. intros j J. change 256 with (2 ^ 8). destruct (Z.ltb_spec j 8) as [C|C].
  - rewrite Z.mod_pow2_bits_low, Z.land_spec, Z.ldiff_spec, Z.lnot_spec by lia. reflexivity.
  - rewrite Z.mod_pow2_bits_high, Z.ldiff_spec, byte_high by (assumption || lia). reflexivity.
Qed.
(** pulses of one cycle, and after it *)
Lemma run_same s s' : cycled s s' -> forall k, run_bit k (tcon s') = run_bit k (tcon s).
Proof. intros C k. unfold run_bit. rewrite (c_tcon _ _ C). destruct k; cbn [Z.eqb Pos.eqb andb]; rewrite !orb_false_r; reflexivity. Qed.

Record seen (i : bool) (s s' : st) (N P C : Z) : Prop := {
  s_inv : inv s'; s_tmod : tmod s' = tmod s;
  s_bits : forall j, j <> 5 -> j <> 7 -> Z.testbit (tcon s') j = Z.testbit (tcon s) j;
  s_cnt : (tl i s', th i s', ov i s' - ov i s) = count_law i (tcon s) (selected i (tmod s)) (tl i s) (th i s) N C;
  s_edge : (i = true -> selected true (tmod s) <> 3) -> T_edge (tmr i s') = P }.
Lemma okt_of i s : inv s -> okt i s.
Proof. intros (A & B & _). destruct i; assumption. Qed.
Lemma byte_tl i s : inv s -> byte (tl i s).
Proof. intros (_ & _ & B). destruct i; apply B. Qed.
Lemma byte_th i s : inv s -> byte (th i s).
Proof. intros (_ & _ & B). destruct i; apply B. Qed.
Lemma run_bits_eq t t' k : (forall j, j <> 5 -> j <> 7 -> Z.testbit t j = Z.testbit t' j) -> run_bit k t = run_bit k t'.
Proof. intros H. unfold run_bit. apply H; destruct k; lia. Qed.

(** in mode 3 timer 1 does not look at the pulses: the statement for it holds with any number *)
Lemma segment i l : forall s, inv s -> Forall hands_off l ->
  let e := events (p3 s) (pins s) l in
  let x := pulses_of i (tmod s) (tcon s) e (level s) (T_edge (tmr i s)) 0 in
  seen i s (run s l) (fst x) (snd x) (cycles e).
Proof.
  induction l as [|o l IH]; intros s I F; cbv zeta.
  - cbn [events pulses_of run fold_left fst snd cycles]. constructor; try reflexivity; [exact I|]. rewrite claw0; [|apply sel_range|apply byte_tl, I|apply byte_th, I|reflexivity]. rewrite Z.sub_diag. reflexivity.
  - inversion F as [|? ? HO FL]; subst. change (run s (o :: l)) with (run (step s o) l).
    assert (MV : forall p w, moved s (step s o) (Z.land w p) -> p3 (step s o) = p -> pins (step s o) = w -> events (p3 s) (pins s) (o :: l) = EvLevel (Z.land w p) :: events p w l ->
      seen i s (run (step s o) l) (fst (pulses_of i (tmod s) (tcon s) (events (p3 s) (pins s) (o :: l)) (level s) (T_edge (tmr i s)) 0)) (snd (pulses_of i (tmod s) (tcon s) (events (p3 s) (pins s) (o :: l)) (level s) (T_edge (tmr i s)) 0)) (cycles (events (p3 s) (pins s) (o :: l)))).
    { intros p w MV EP EW EV. specialize (IH (step s o) (m_inv _ _ _ MV) FL). cbv zeta in IH. rewrite EV. cbn [pulses_of cycles].
      rewrite EP, EW, (m_level _ _ _ MV), (m_tmod _ _ _ MV), (m_tcon _ _ _ MV), (m_edge _ _ _ MV) in IH. set (x := pulses_of _ _ _ _ _ _ _) in *. pose proof (m_cnt _ _ _ MV i) as CN. pose proof (f_equal (fun t => fst (fst t)) CN) as C1. pose proof (f_equal (fun t => snd (fst t)) CN) as C2. pose proof (f_equal snd CN) as C3. cbn [fst snd] in C1, C2, C3.
      destruct IH as [S1 S2 S3 S4 S5]. rewrite (m_tmod _ _ _ MV) in *. rewrite (m_tcon _ _ _ MV) in *. rewrite C1, C2, C3 in S4. constructor; assumption. }
    destruct o; try contradiction HO.
    + clear MV. pose proof (cycle_ok s I) as C. set (s' := step s Cycle) in *. specialize (IH s' (c_inv _ _ C) FL). cbv zeta in IH. cbn [events pulses_of cycles].
      rewrite (c_p3 _ _ C), (c_pins _ _ C), (c_tmod _ _ C) in IH. assert (LV : level s' = level s) by (unfold level; rewrite (c_p3 _ _ C), (c_pins _ _ C); reflexivity). rewrite LV in IH. rewrite (pulses_run i (tmod s) (tcon s') (tcon s) (run_same _ _ C i)) in IH.
      assert (ED : T_edge (tmr i s') = edge_left i s) by (rewrite (c_tmr _ _ C); reflexivity). rewrite ED in IH. set (e := events (p3 s) (pins s) l) in *.
      pose proof (c_cnt _ _ C i) as CN. rewrite after_law in CN. pose proof (claw_bytes i (tcon s) (selected i (tmod s)) (tl i s) (th i s) (npulse i s) 1 (sel_range _ _) (byte_tl i s I) (byte_th i s I) (npulse_nonneg i s (okt_of i s I))) as LB.
      destruct (count_law i (tcon s) (selected i (tmod s)) (tl i s) (th i s) (npulse i s) 1) as [[l1 h1] o1] eqn:E1. destruct LB as (L1 & L2 & L3).
      pose proof (f_equal (fun t => fst (fst t)) CN) as C1. pose proof (f_equal (fun t => snd (fst t)) CN) as C2. pose proof (f_equal snd CN) as C3. cbn [fst snd] in C1, C2, C3.
      destruct IH as [S1 S2 S3 S4 S5]. rewrite (c_tmod _ _ C) in S2, S4, S5. rewrite (claw_run i (tcon s') (tcon s)) in S4 by apply (run_same _ _ C). rewrite C1, C2 in S4.
      assert (B3 : forall j, j <> 5 -> j <> 7 -> Z.testbit (tcon (run s' l)) j = Z.testbit (tcon s) j).
      { intros j J5 J7. rewrite S3 by assumption. rewrite (c_tcon _ _ C). replace (j =? 5) with false by lia. replace (j =? 7) with false by lia. cbn [andb]. rewrite !orb_false_r. reflexivity. }
      set (y := pulses_of i (tmod s) (tcon s) e (level s) (edge_left i s) 0) in *. pose proof (pulses_nonneg i (tmod s) (tcon s) e (level s) (edge_left i s) 0 (edge_left_nonneg i s (okt_of i s I)) ltac:(lia)) as [YN YP]. fold y in YN, YP.
      assert (S4' : (tl i (run s' l), th i (run s' l), ov i (run s' l) - ov i s) = count_law i (tcon s) (selected i (tmod s)) (tl i s) (th i s) (npulse i s + fst y) (1 + cycles e)).
      { rewrite claw_add; [|apply sel_range|apply byte_tl, I|apply byte_th, I|apply npulse_nonneg, okt_of, I|exact YN]. rewrite E1. destruct (count_law i (tcon s) (selected i (tmod s)) l1 h1 (fst y) (cycles e)) as [[l2 h2] o2]. pose proof (f_equal (fun t => fst (fst t)) S4) as D1. pose proof (f_equal (fun t => snd (fst t)) S4) as D2. pose proof (f_equal snd S4) as D3. cbn [fst snd] in D1, D2, D3. rewrite D1, D2. replace (ov i (run s' l) - ov i s) with (o1 + o2) by lia. reflexivity. }
      destruct (andb i (selected true (tmod s) =? 3)) eqn:T3.
      * apply andb_prop in T3. destruct T3 as [TI TS]. apply Z.eqb_eq in TS. destruct i; [|discriminate]. constructor; [exact S1|exact S2|exact B3| |intros H; exfalso; apply H; [reflexivity|exact TS]].
        rewrite S4'. unfold count_law. rewrite TS. reflexivity.
      * assert (X : (if run_bit i (tcon s) && (negb (gate_bit i (tmod s)) || int_pin i (level s)) then if ct_bit i (tmod s) then pulses_of i (tmod s) (tcon s) e (level s) 0 (0 + T_edge (tmr i s)) else pulses_of i (tmod s) (tcon s) e (level s) (T_edge (tmr i s)) (0 + 1) else pulses_of i (tmod s) (tcon s) e (level s) (T_edge (tmr i s)) 0) = (npulse i s + fst y, snd y)).
        { unfold y, npulse, edge_left. fold (going i s). assert (T3' : i && (selected i (tmod s) =? 3) = false) by (destruct i; [exact T3|reflexivity]). rewrite T3'. cbn [negb]. rewrite andb_true_r. destruct (going i s); cbn [andb]; [destruct (ct_bit i (tmod s)); rewrite pulses_acc; f_equal; lia|]. rewrite Z.add_0_l. apply surjective_pairing. }
        rewrite X. cbn [fst snd]. constructor; [exact S1|exact S2|exact B3|exact S4'|exact S5].
    + apply (MV (v mod 256) (pins s)); try reflexivity.
      * apply write_p3_ok; [exact I|apply byte_mod].
      * cbn [step]. unfold write_p3. destruct (p3 s =? v mod 256); cbn [set_p3 p3]; apply Z.mod_mod; lia.
      * cbn [step]. unfold write_p3. destruct (p3 s =? v mod 256); reflexivity.
    + assert (BP : byte (p3 s)) by apply I. pose proof (with_bit_spec (p3 s) k on BP HO) as W. pose proof (with_bit_byte (p3 s) k on BP HO) as WB. apply (MV (with_bit (p3 s) k on) (pins s)).
      * apply write_p3_ok; [exact I|exact WB].
      * cbn [step]. unfold write_p3. destruct (p3 s =? with_bit (p3 s) k on); cbn [set_p3 p3]; apply Z.mod_small; exact WB.
      * cbn [step]. unfold write_p3. destruct (p3 s =? with_bit (p3 s) k on); reflexivity.
      * cbn [events]. rewrite W. reflexivity.
    + apply (MV (p3 s) (v mod 256)); try reflexivity.
      * apply pins_ok, I.
      * cbn [step]. destruct (pins s =? v mod 256); reflexivity.
      * cbn [step]. destruct (pins s =? v mod 256); reflexivity.
Qed.

(** ** The overflow flags *)
Lemma ov_mono i l : forall s, inv s -> Forall hands_off l -> ov i s <= ov i (run s l).
Proof.
  intros s I F. pose proof (segment i l s I F) as S. cbv zeta in S. pose proof (s_cnt _ _ _ _ _ _ S) as C.
  pose proof (claw_bytes i (tcon s) (selected i (tmod s)) (tl i s) (th i s) (fst (pulses_of i (tmod s) (tcon s) (events (p3 s) (pins s) l) (level s) (T_edge (tmr i s)) 0)) (cycles (events (p3 s) (pins s) l)) (sel_range _ _) (byte_tl i s I) (byte_th i s I)) as LB.
  assert (N : 0 <= T_edge (tmr i s)) by apply (okt_of i s I). specialize (LB (proj1 (pulses_nonneg i _ _ _ _ _ 0 N ltac:(lia)))). rewrite <- C in LB. destruct LB as (_ & _ & O). lia.
Qed.
(** TH0 in mode 3 sets the flag of timer 1 *)
Definition th_flag (s : st) (C : Z) : bool := (selected false (tmod s) =? 3) && run_bit true (tcon s) && (256 <=? th0 s + C).
Lemma flags l : forall s, inv s -> Forall hands_off l -> let s' := run s l in let C := cycles (events (p3 s) (pins s) l) in
  Z.testbit (tcon s') 5 = Z.testbit (tcon s) 5 || (ov0 s <? ov0 s') /\ Z.testbit (tcon s') 7 = Z.testbit (tcon s) 7 || (ov1 s <? ov1 s') || th_flag s C.
Proof.
  induction l as [|o l IH]; intros s I F; cbv zeta.
  - cbn [run fold_left events cycles]. rewrite !Z.ltb_irrefl, !orb_false_r. unfold th_flag. assert (byte (th0 s)) by apply I. unfold byte in *. replace (256 <=? th0 s + 0) with false by lia. rewrite !andb_false_r, orb_false_r. split; reflexivity.
  - inversion F as [|? ? HO FL]; subst. change (run s (o :: l)) with (run (step s o) l).
    assert (MV : forall nl, moved s (step s o) nl -> cycles (events (p3 (step s o)) (pins (step s o)) l) = cycles (events (p3 s) (pins s) (o :: l)) ->
      Z.testbit (tcon (run (step s o) l)) 5 = Z.testbit (tcon s) 5 || (ov0 s <? ov0 (run (step s o) l)) /\ Z.testbit (tcon (run (step s o) l)) 7 = Z.testbit (tcon s) 7 || (ov1 s <? ov1 (run (step s o) l)) || th_flag s (cycles (events (p3 s) (pins s) (o :: l)))).
    { intros nl MV E. specialize (IH (step s o) (m_inv _ _ _ MV) FL). cbv zeta in IH. rewrite E in IH. pose proof (m_cnt _ _ _ MV false) as X0. pose proof (m_cnt _ _ _ MV true) as X1. cbn [ov tl th] in X0, X1. pose proof (f_equal snd X0) as Y0. pose proof (f_equal snd X1) as Y1. pose proof (f_equal (fun t => snd (fst t)) X0) as Y2. cbn [fst snd] in Y0, Y1, Y2.
      unfold th_flag in *. rewrite (m_tcon _ _ _ MV), (m_tmod _ _ _ MV), Y0, Y1, Y2 in IH. exact IH. }
    destruct o; try contradiction HO.
    + clear MV. pose proof (cycle_ok s I) as C. set (s' := step s Cycle) in *. specialize (IH s' (c_inv _ _ C) FL). cbv zeta in IH. rewrite (c_p3 _ _ C), (c_pins _ _ C) in IH. cbn [events cycles]. set (e := events (p3 s) (pins s) l) in *. destruct IH as [I5 I7]. rewrite I5, I7, !(c_tcon _ _ C). cbn [Z.eqb Pos.eqb andb]. rewrite !orb_false_r.
      pose proof (c_cnt _ _ C false) as X0. pose proof (c_cnt _ _ C true) as X1. unfold ovf. cbn [ov] in X0, X1.
      pose proof (ov_mono false l s' (c_inv _ _ C) FL) as M0. pose proof (ov_mono true l s' (c_inv _ _ C) FL) as M1. cbn [ov] in M0, M1.
      assert (AB : forall i, 0 <= snd (after i s)).
      { intros i. rewrite after_law. pose proof (claw_bytes i (tcon s) (selected i (tmod s)) (tl i s) (th i s) (npulse i s) 1 (sel_range _ _) (byte_tl i s I) (byte_th i s I) (npulse_nonneg i s (okt_of i s I))) as LB. destruct (count_law _ _ _ _ _ _ _) as [[? ?] ?]. apply LB. }
      pose proof (AB false) as A0. pose proof (AB true) as A1.
      assert (O0 : ov0 s' = ov0 s + snd (after false s)) by (destruct (after false s) as [[? ?] ?]; apply (f_equal snd X0)).
      assert (O1 : ov1 s' = ov1 s + snd (after true s)) by (destruct (after true s) as [[? ?] ?]; apply (f_equal snd X1)).
      assert (H : hi3 false s || th_flag s' (cycles e) = th_flag s (1 + cycles e)).
      { unfold hi3, th_flag. cbn [negb andb]. rewrite (c_tmod _ _ C), (run_same _ _ C). destruct (Z.eqb_spec (selected false (tmod s)) 3) as [S3|S3]; [|reflexivity]. cbn [andb]. destruct (run_bit true (tcon s)) eqn:R; [|reflexivity]. cbn [andb].
        assert (T0 : th0 s' = (th0 s + 1) mod 256).
        { pose proof (f_equal (fun t => snd (fst t)) X0) as T0. cbn [th fst snd] in T0. rewrite T0. unfold after. rewrite S3, R. reflexivity. }
        rewrite T0. pose proof (cycles_nonneg e). assert (BH : byte (th0 s)) by apply I. unfold byte in BH. destruct (Z.eqb_spec (th0 s) 255) as [-> | N]; cbn [orb]; [symmetry; apply Z.leb_le; lia|]. rewrite Z.mod_small by lia. replace (th0 s + 1 + cycles e) with (th0 s + (1 + cycles e)) by lia. reflexivity. }
      rewrite <- H. split.
      * rewrite <- orb_assoc. f_equal. lia.
      * assert (X : (0 <? snd (after true s)) || (ov1 s' <? ov1 (run s' l)) = (ov1 s <? ov1 (run s' l))) by lia. rewrite <- X. destruct (Z.testbit (tcon s) 7), (0 <? snd (after true s)), (ov1 s' <? ov1 (run s' l)), (hi3 false s), (th_flag s' (cycles e)); reflexivity.
    + apply (MV (Z.land (pins s) (v mod 256))); [apply write_p3_ok; [exact I|apply byte_mod]|]. cbn [events cycles]. f_equal. f_equal.
      * cbn [step]. unfold write_p3. destruct (p3 s =? v mod 256); cbn [set_p3 p3]; apply Z.mod_mod; lia.
      * cbn [step]. unfold write_p3. destruct (p3 s =? v mod 256); reflexivity.
    + assert (BP : byte (p3 s)) by apply I. pose proof (with_bit_spec (p3 s) k on BP HO) as W. pose proof (with_bit_byte (p3 s) k on BP HO) as WB. apply (MV (Z.land (pins s) (with_bit (p3 s) k on))); [apply write_p3_ok; [exact I|exact WB]|]. cbn [events cycles]. rewrite <- W. f_equal. f_equal.
      * cbn [step]. unfold write_p3. destruct (p3 s =? with_bit (p3 s) k on); cbn [set_p3 p3]; apply Z.mod_small; exact WB.
      * cbn [step]. unfold write_p3. destruct (p3 s =? with_bit (p3 s) k on); reflexivity.
    + apply (MV (Z.land (v mod 256) (p3 s))); [apply pins_ok, I|]. cbn [events cycles]. f_equal. f_equal; cbn [step]; destruct (pins s =? v mod 256); reflexivity.
Qed.

(** ** Pulses: in timer mode, in counter mode *)
Lemma pulses_stopped i m t l : run_bit i t = false -> forall lv p n, fst (pulses_of i m t l lv p n) = n.
Proof. intros R. induction l as [|[|v] l IH]; intros lv p n; cbn [pulses_of]; [reflexivity|rewrite R; apply IH|apply IH]. Qed.
Lemma pulses_timer i m t l : run_bit i t = true -> gate_bit i m = false -> ct_bit i m = false -> forall lv p n, fst (pulses_of i m t l lv p n) = n + cycles l.
Proof. intros R G C. induction l as [|[|v] l IH]; intros lv p n; cbn [pulses_of cycles]; [cbn [fst]; lia| |apply IH]. rewrite R, G, C. cbn [negb orb andb]. rewrite IH. lia. Qed.
Lemma pulses_counter i m t l : run_bit i t = true -> gate_bit i m = false -> ct_bit i m = true -> forall lv p n, let x := pulses_of i m t l lv p n in fst x + snd x = n + p + rises i l lv.
Proof. intros R G C. induction l as [|[|v] l IH]; intros lv p n; cbn [pulses_of rises]; cbv zeta; [cbn [fst snd]; lia| |]. - rewrite R, G, C. cbn [negb orb andb]. cbv zeta in IH. rewrite IH. lia. - cbv zeta in IH. rewrite IH. destruct (_ && _); lia. Qed.
Lemma reached_inv s : reached s -> inv s.
Proof.
  intros (s0 & h & P & F & ->). apply run_inv; [apply (reset_ok s0), P|]. eapply Forall_impl; [|exact F]. intros []; exact id.
Qed.
