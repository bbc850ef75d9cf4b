From Verif Require Import Base Tm2Model Tm2Spec Tm2Proofs Tm2Proofs2.

(** ** Port 1 *)
Definition fall (j : Z) (o : op) (s : st) : Z := if high (pin j s) && negb (high (pin_op j o (pin j s))) then 1 else 0.
Record moved (d : bool) (s s' : st) (o : op) : Prop := {
  m_inv : inv d s'; m_cnt : count_of s' = count_of s; m_rel : reload_of s' = reload_of s; m_con : t2con s' = t2con s; m_mod : t2mod s' = t2mod s; m_ov : ov s' = ov s;
  m_pin : forall j, 0 <= j < 8 -> pin j s' = pin_op j o (pin j s);
  m_te : T_edge s' = T_edge s + fall 0 o s; m_xe : ex_edge s' = ex_edge s + fall 1 o s }.
Lemma level_bit p w j : Z.testbit (Z.land w p) j = high (Z.testbit p j, Z.testbit w j).
Proof. rewrite Z.land_spec. unfold high. cbn [fst snd]. apply andb_comm. Qed.
Lemma no_fall x : high x && negb (high x) = false.
Proof. destruct (high x); reflexivity. Qed.
Lemma add_if (b : bool) x : (if b then x + 1 else x) = x + (if b then 1 else 0).
Proof. destruct b; lia. Qed.
Lemma write_p1_ok d v s o : inv d s -> byte v -> (forall j, 0 <= j < 8 -> pin_op j o (pin j s) = (Z.testbit v j, Z.testbit (pins s) j)) -> moved d s (write_p1 v s) o.
Proof.
  intros I V P. pose proof I as [I1 I2 I3 I4 I5 I6 I7 I8 I9 I10 I11 I12 I13 I14]. unfold write_p1. destruct (Z.eqb_spec (p1 s) v) as [E|E].
  - assert (S : set_p1 v s = s) by (unfold set_p1; rewrite Z.mod_small by exact V; rewrite <- E; destruct s; reflexivity). rewrite S.
    assert (Q : forall j, 0 <= j < 8 -> pin_op j o (pin j s) = pin j s) by (intros j J; rewrite P by exact J; unfold pin; rewrite E; reflexivity).
    constructor; try reflexivity; [exact I|intros j J; rewrite Q by exact J; reflexivity| |]; unfold fall; rewrite Q, no_fall by lia; lia.
  - set (s' := set_p1 v (happen (Z.land (pins s) (p1 s)) (Z.land (pins s) v) s)).
    assert (PV : p1 s' = v) by (cbn; apply Z.mod_small; exact V).
    assert (PN : forall j, pin j s' = (Z.testbit v j, Z.testbit (pins s) j)) by (intros j; unfold pin; rewrite PV; reflexivity).
    assert (TE : T_edge s' = T_edge s + fall 0 o s).
    { unfold fall. rewrite P by lia. change (T_edge s') with (if negb (has (Z.land (pins s) v) 1) && has (Z.land (pins s) (p1 s)) 1 then T_edge s + 1 else T_edge s). rewrite !has1, !level_bit, add_if, andb_comm. reflexivity. }
    assert (XE : ex_edge s' = ex_edge s + fall 1 o s).
    { unfold fall. rewrite P by lia. change (ex_edge s') with (if negb (has (Z.land (pins s) v) 2) && has (Z.land (pins s) (p1 s)) 2 then ex_edge s + 1 else ex_edge s). rewrite !has2, !level_bit, add_if, andb_comm. reflexivity. }
    assert (F : forall j, 0 <= fall j o s) by (intros j; unfold fall; destruct (_ && _); lia).
    constructor; try reflexivity; try assumption.
    + constructor; try assumption; [rewrite PV; exact V|rewrite TE; pose proof (F 0); lia|rewrite XE; pose proof (F 1); lia|].
      rewrite PN. change (ex_bit s') with (has (Z.land (pins s) v) 2). rewrite has2, level_bit. reflexivity.
    + intros j J. rewrite PN, P by exact J. reflexivity.
Qed.
Lemma pins_ok d v s : inv d s -> moved d s (step s (Pins v)) (Pins v).
Proof.
  intros I. pose proof I as [I1 I2 I3 I4 I5 I6 I7 I8 I9 I10 I11 I12 I13 I14]. cbn [step]. set (w := v mod 256). pose proof (byte_mod v) as V. fold w in V.
  assert (P : forall j, 0 <= j < 8 -> pin_op j (Pins v) (pin j s) = (Z.testbit (p1 s) j, Z.testbit w j)) by (intros j J; unfold w; rewrite bit_mod256 by exact J; reflexivity).
  destruct (Z.eqb_spec (pins s) w) as [E|E].
  - assert (S : set_pins w s = s) by (unfold set_pins; rewrite <- E; destruct s; reflexivity). rewrite S.
    assert (Q : forall j, 0 <= j < 8 -> pin_op j (Pins v) (pin j s) = pin j s) by (intros j J; rewrite P by exact J; unfold pin; rewrite E; reflexivity).
    constructor; try reflexivity; [exact I|intros j J; rewrite Q by exact J; reflexivity| |]; unfold fall; rewrite Q, no_fall by lia; lia.
  - set (s' := happen (Z.land (pins s) (p1 s)) (Z.land w (p1 s)) (set_pins w s)).
    assert (PN : forall j, pin j s' = (Z.testbit (p1 s) j, Z.testbit w j)) by (intros j; reflexivity).
    assert (TE : T_edge s' = T_edge s + fall 0 (Pins v) s).
    { unfold fall. rewrite P by lia. change (T_edge s') with (if negb (has (Z.land w (p1 s)) 1) && has (Z.land (pins s) (p1 s)) 1 then T_edge s + 1 else T_edge s). rewrite !has1, !level_bit, add_if, andb_comm. reflexivity. }
    assert (XE : ex_edge s' = ex_edge s + fall 1 (Pins v) s).
    { unfold fall. rewrite P by lia. change (ex_edge s') with (if negb (has (Z.land w (p1 s)) 2) && has (Z.land (pins s) (p1 s)) 2 then ex_edge s + 1 else ex_edge s). rewrite !has2, !level_bit, add_if, andb_comm. reflexivity. }
    assert (F : forall j, 0 <= fall j (Pins v) s) by (intros j; unfold fall; destruct (_ && _); lia).
    constructor; try reflexivity; try assumption.
    + constructor; try assumption; [rewrite TE; pose proof (F 0); lia|rewrite XE; pose proof (F 1); lia|].
      rewrite PN. change (ex_bit s') with (has (Z.land w (p1 s)) 2). rewrite has2, level_bit. reflexivity.
    + intros j J. rewrite PN, P by exact J. reflexivity.
Qed.
Lemma port_ok d s o : inv d s -> hands_off o -> o <> Cycle -> moved d s (step s o) o.
Proof.
  intros I H N. destruct o; try contradiction H; [contradiction N; reflexivity| | |apply pins_ok, I].
  - apply write_p1_ok; [exact I|apply byte_mod|]. intros j J. rewrite bit_mod256 by exact J. reflexivity.
  - apply write_p1_ok; [exact I|apply with_bit_byte; [apply (i_p1 _ _ I)|exact H]|]. intros j J. rewrite with_bit_test by assumption. reflexivity.
Qed.

(** ** Control writes *)
Lemma con_ok d n s : inv d s -> let s' := write_con n s in
  inv false s' /\ t2con s' = n mod 256 /\ t2mod s' = t2mod s /\ count_of s' = count_of s /\ reload_of s' = reload_of s /\ ov s' = ov s /\ p1 s' = p1 s /\ pins s' = pins s.
Proof.
  intros [I1 I2 I3 I4 I5 I6 I7 I8 I9 I10 I11 I12 I13 I14]. cbv zeta. set (s' := write_con n s).
  assert (T : bit n bRCLK = has n 32 /\ bit n bTCLK = has n 16 /\ bit n bCP = has n 1 /\ bit n bCT2 = has n 2 /\ bit n bTR2 = has n 4 /\ bit n bEXEN2 = has n 8) by (rewrite has32, has16, has8, has4, has2, has1; repeat split).
  destruct T as (T5 & T4 & T0 & T1 & T2 & T3).
  assert (BM : forall j, 0 <= j < 8 -> bit (n mod 256) j = bit n j) by (intros; apply bit_mod256; assumption).
  unfold s', write_con, forget. set (s1 := set_ctl _ _ _ _ s). 
  assert (K : forall te xe, 0 <= te -> 0 <= xe -> let s2 := set_con n (set_edges te xe (ex_bit s1) s1) in inv false s2).
  { intros te xe TE XE. constructor; try assumption; try (cbn; apply byte_mod).
    - change (md (set_con n (set_edges te xe (ex_bit s1) s1))) with (if negb (has n 32 || has n 16) && negb (has n 1) then Reload else if negb (has n 32 || has n 16) && has n 1 then Capture else Baud).
      change (t2con (set_con n (set_edges te xe (ex_bit s1) s1))) with (n mod 256). unfold mode_by. rewrite !BM by (unfold bRCLK, bTCLK, bCP; lia). rewrite T5, T4, T0. destruct (has n 32), (has n 16), (has n 1); reflexivity.
    - change (t2con (set_con n (set_edges te xe (ex_bit s1) s1))) with (n mod 256). rewrite BM by (unfold bCT2; lia). rewrite T1. reflexivity.
    - change (t2con (set_con n (set_edges te xe (ex_bit s1) s1))) with (n mod 256). rewrite BM by (unfold bTR2; lia). rewrite T2. reflexivity.
    - change (t2con (set_con n (set_edges te xe (ex_bit s1) s1))) with (n mod 256). rewrite BM by (unfold bEXEN2; lia). rewrite T3. reflexivity. }
  destruct (negb (mode_eqb (md s1) (md s)) || negb (Bool.eqb (TR s1) (TR s))).
  - split; [apply K; lia|]. repeat split.
  - split; [exact (K (T_edge s) (ex_edge s) I12 I13)|]. repeat split.
Qed.
Lemma mod_ok d v s : inv d s -> let s' := write_mod v s in
  inv (if bit v 0 && negb (bit (t2con s) bRCLK || bit (t2con s) bTCLK || bit (t2con s) bCP) then true else d) s' /\ t2con s' = t2con s /\ t2mod s' = v mod 256 /\ count_of s' = count_of s /\ reload_of s' = reload_of s /\ ov s' = ov s /\ p1 s' = p1 s /\ pins s' = pins s.
Proof.
  intros [I1 I2 I3 I4 I5 I6 I7 I8 I9 I10 I11 I12 I13 I14]. cbv zeta. set (s' := write_mod v s).
  assert (MD : md s' = mode_by (t2con s) (if bit v 0 && negb (bit (t2con s) bRCLK || bit (t2con s) bTCLK || bit (t2con s) bCP) then true else d)).
  { assert (X : md s' = if has v 1 && mode_eqb (md s) Reload then Down else md s) by (unfold s', write_mod, forget; match goal with |- context [if ?c then set_edges _ _ _ _ else _] => destruct c end; reflexivity). rewrite X, has1. change (Z.testbit v 0) with (bit v 0). rewrite I8. unfold mode_by.
    destruct (bit v 0), (bit (t2con s) bRCLK), (bit (t2con s) bTCLK), (bit (t2con s) bCP), d; reflexivity. }
  assert (X : t2con s' = t2con s /\ t2mod s' = v mod 256 /\ tl2 s' = tl2 s /\ th2 s' = th2 s /\ rcapl s' = rcapl s /\ rcaph s' = rcaph s /\ ov s' = ov s /\ p1 s' = p1 s /\ pins s' = pins s /\ CT s' = CT s /\ TR s' = TR s /\ EXEN s' = EXEN s /\ ex_bit s' = ex_bit s /\ 0 <= T_edge s' /\ 0 <= ex_edge s').
  { unfold s', write_mod, forget. match goal with |- context [if ?c then set_edges _ _ _ _ else _] => destruct c end; (do 13 (split; [reflexivity|])); (split; [cbn [set_mod set_edges set_ctl T_edge]; lia|cbn [set_mod set_edges set_ctl ex_edge]; lia]). }
  destruct X as (X1 & X2 & X3 & X4 & X5 & X6 & X7 & X8 & X9 & X10 & X11 & X12 & X13 & X14 & X15).
  split; [|unfold count_of, reload_of; rewrite X3, X4, X5, X6; auto 10].
  constructor; rewrite ?X1, ?X3, ?X4, ?X5, ?X6, ?X8, ?X9, ?X10, ?X11, ?X12, ?X13; try assumption. unfold pin. rewrite X8, X9. exact I14.
Qed.
Lemma tick_inv d s : inv d s -> inv d (tick s).
Proof.
  intros I. destruct (md s) eqn:M.
  - apply (e_inv _ _ _ _ _ _ _ _ _ _ (tick_reload d s I M)).
  - apply (e_inv _ _ _ _ _ _ _ _ _ _ (tick_capture d s I M)).
  - apply (e_inv _ _ _ _ _ _ _ _ _ _ (tick_baud d s I M)).
  - (* down, from any count *)
    assert (UP : forall n x, inv d (snd x) -> inv d (snd (times2 n count_up x))).
    { induction n as [|n IH]; intros [t q] Q; cbn [times2]; [exact Q|]. apply IH. apply (e_inv _ _ _ _ _ _ _ _ _ _ (proj2 (count_up_eff d q t Q))). }
    assert (DN : forall n x, inv d (snd x) -> inv d (snd (times2 n count_down x))).
    { induction n as [|n IH]; intros [t q] Q; cbn [times2]; [exact Q|]. apply IH. cbn [snd] in Q. unfold count_down. set (q1 := set_tl (tl2 q - 1) q). assert (Q1 : inv d q1) by (destruct Q; constructor; try assumption; apply byte_mod).
      set (q2 := if tl2 q1 =? 255 then set_th (th2 q1 - 1) q1 else q1). assert (Q2 : inv d q2) by (unfold q2; destruct (tl2 q1 =? 255); [destruct Q1; constructor; try assumption; apply byte_mod|exact Q1]).
      destruct (_ <? _); cbn [snd]; [|exact Q2]. assert (Q3 : inv d (set_flag bmTF2 q2)) by (apply flag_inv; [left; reflexivity|exact Q2]). destruct Q3. constructor; try assumption; apply byte_mod. }
    unfold tick. rewrite M. unfold do_down. destruct (negb (TR s)); [exact I|]. unfold take.
    assert (G : forall n q, inv d q -> inv d (let (t, s0) := times2 n (if ex_bit q then count_up else count_down) (false, q) in if t then set_p1 (Z.lxor (p1 s0) bmEXF2) s0 else s0)).
    { intros n q Q. assert (Q' : inv d (snd (times2 n (if ex_bit q then count_up else count_down) (false, q)))) by (destruct (ex_bit q); [apply UP|apply DN]; exact Q). destruct (times2 n _ (false, q)) as [t q']. cbn [snd] in Q'. destruct t; [|exact Q'].
      apply (e_inv _ _ _ _ _ _ _ _ _ _ (eff_p1 _ _ _ _ _ _ _ _ _ _ (eff_refl d q' Q'))). }
    destruct (CT s); apply G; [apply edges_inv; [exact I|lia|apply (i_xe _ _ I)]|exact I].
Qed.
Definition next_down (s : st) (o : op) (d : bool) : bool :=
  match o with
  | WCon _ | WConBit _ _ => false
  | WMod v => if bit v 0 && negb (bit (t2con s) bRCLK || bit (t2con s) bTCLK || bit (t2con s) bCP) then true else d
  | _ => d
  end.
Lemma step_inv d s o : inv d s -> bit_numbers o -> inv (next_down s o d) (step s o).
Proof.
  intros I B. destruct o; cbn [step next_down].
  - apply tick_inv, I.
  - apply (con_ok d v s I).
  - apply (con_ok d _ s I).
  - apply (mod_ok d v s I).
  - destruct I. constructor; try assumption. apply byte_mod.
  - destruct I. constructor; try assumption. apply byte_mod.
  - apply rcap_inv, I.
  - apply rcap_inv, I.
  - apply (m_inv _ _ _ _ (port_ok d s (WP1 v) I Logic.I ltac:(discriminate))).
  - apply (m_inv _ _ _ _ (port_ok d s (WP1Bit k on) I B ltac:(discriminate))).
  - apply (m_inv _ _ _ _ (port_ok d s (Pins v) I Logic.I ltac:(discriminate))).
Qed.
Lemma down_unfold s d o t : down_mode s d (o :: t) = down_mode (step s o) (next_down s o d) t.
Proof. reflexivity. Qed.
Lemma run_inv h : forall d s, inv d s -> Forall bit_numbers h -> inv (down_mode s d h) (run s h).
Proof.
  induction h as [|o h IH]; intros d s I F; [exact I|]. inversion F; subst. rewrite down_unfold. change (run s (o :: h)) with (run (step s o) h). apply IH; [apply step_inv; assumption|assumption].
Qed.
Lemma reset_ok s : byte (pins s) -> 0 <= T_edge s -> 0 <= ex_edge s -> let s' := reset s in
  inv false s' /\ t2con s' = 0 /\ t2mod s' = 0 /\ count_of s' = 0 /\ reload_of s' = 0 /\ p1 s' = 255 /\ pins s' = pins s.
Proof.
  intros P T X. cbv zeta. set (s' := reset s). unfold reset, run in s'. cbn [fold_left step] in s'. unfold write_p1 in s'. change (p1 _ =? 255 mod 256) with false in s'.
  unfold write_con in s'. change (has 0 32 || has 0 16) with false in s'. change (has 0 1) with false in s'. change (has 0 2) with false in s'. change (has 0 4) with false in s'. change (has 0 8) with false in s'. cbn [negb andb] in s'.
  match goal with s' := context [forget ?a ?b] |- _ => set (q := forget a b) in s' end.
  assert (Q : md q = Reload /\ CT q = false /\ TR q = false /\ EXEN q = false /\ 0 <= T_edge q /\ 0 <= ex_edge q /\ ex_bit q = has (Z.land (pins s) 255) 2 /\ p1 q = 255 /\ pins q = pins s /\ t2mod q = 0).
  { assert (H0 : has (Z.land (pins s) 0) 1 = false /\ has (Z.land (pins s) 0) 2 = false) by (rewrite Z.land_0_r; split; reflexivity). destruct H0 as [H1 H2].
    unfold q, forget. match goal with |- context [if ?c then set_edges _ _ _ _ else _] => destruct c end; repeat split; try reflexivity; cbn; rewrite ?H1, ?H2, ?andb_false_r; lia. }
  destruct Q as (Q1 & Q2 & Q3 & Q4 & Q5 & Q6 & Q7 & Q8 & Q9 & Q10).
  split; [|split; [reflexivity|split; [exact Q10|split; [reflexivity|split; [reflexivity|split; [exact Q8|exact Q9]]]]]].
  constructor; try (unfold byte; cbn; lia); try assumption.
  - change (byte (pins q)). rewrite Q9. exact P.
  - change (ex_bit s') with (ex_bit q). rewrite Q7. unfold pin. change (p1 s') with (p1 q). change (pins s') with (pins q). rewrite Q8, Q9, has2. apply level_bit.
Qed.
Lemma reached_inv s d : reached s d -> inv d s.
Proof. intros (s0 & h & P & T & X & F & -> & ->). apply run_inv; [apply reset_ok; assumption|exact F]. Qed.
