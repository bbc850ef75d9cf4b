From Verif Require Import Base TmrModel TmrSpec TmrProofs TmrProofs2.

Definition after (i : bool) (s : st) : Z * Z * Z :=
  if selected i (tmod s) =? 3 then
    (if i then (tl1 s, th1 s, 0)
     else ((tl0 s + npulse false s) mod 256, (if run_bit true (tcon s) then (th0 s + 1) mod 256 else th0 s), (tl0 s + npulse false s) / 256))
  else law (selected i (tmod s)) (tl i s) (th i s) (npulse i s).
Definition ovf (i : bool) (s : st) : Z := snd (after i s).
Definition hi3 (i : bool) (s : st) : bool := negb i && (selected false (tmod s) =? 3) && run_bit true (tcon s) && (th0 s =? 255).
Definition edge_left (i : bool) (s : st) : Z :=
  if going i s && ct_bit i (tmod s) && negb (i && (selected i (tmod s) =? 3)) then 0 else T_edge (tmr i s).
Definition with_edge (t : tm) (e : Z) : tm := mkTm (mode t) (GATE t) (CT t) (TR t) (INT t) e.

Record ticked (i : bool) (s s' : st) : Prop := {
  k_tmod : tmod s' = tmod s; k_p3 : p3 s' = p3 s; k_pins : pins s' = pins s;
  k_other : tmr (negb i) s' = tmr (negb i) s; k_tl : tl (negb i) s' = tl (negb i) s; k_th : th (negb i) s' = th (negb i) s; k_ov : ov (negb i) s' = ov (negb i) s;
  k_tmr : tmr i s' = with_edge (tmr i s) (edge_left i s);
  k_cnt : (tl i s', th i s', ov i s') = (let '(l, h, o) := after i s in (l, h, ov i s + o));
  k_bytes : bytes s';
  k_tcon : forall j, Z.testbit (tcon s') j = Z.testbit (tcon s) j || (j =? TF_nr i) && (0 <? ovf i s) || (j =? 7) && hi3 i s }.

Lemma with_same t : with_edge t (T_edge t) = t.
Proof. destruct t; reflexivity. Qed.
Lemma tf7 j : (j =? TF_nr true) = (j =? 7).
Proof. reflexivity. Qed.
Lemma upd_tcon i l h o s j : Z.testbit (tcon (upd i (l, h, o) s)) j = Z.testbit (tcon s) j || (j =? TF_nr i) && (0 <? o).
Proof.
  replace (tcon (upd i (l, h, o) s)) with (if 0 <? o then Z.lor (tcon s) (mask_TF i) else tcon s) by (destruct i; reflexivity).
  destruct (0 <? o); [rewrite TF_set, andb_true_r; reflexivity|rewrite andb_false_r, orb_false_r; reflexivity].
Qed.
Lemma tick_ok i s : inv s -> ticked i s (tick i s).
Proof.
  intros I. pose proof I as (O0 & O1 & B). pose proof (sel_range i (tmod s)) as SR. destruct (Z.eqb_spec (selected i (tmod s)) 3) as [E|E].
  - destruct i.
    + rewrite tick1_mode3 by assumption. assert (A : after true s = (tl1 s, th1 s, 0)) by (unfold after; rewrite E; reflexivity). constructor; try reflexivity.
      * unfold edge_left. rewrite E. cbn [Z.eqb Pos.eqb andb negb]. rewrite andb_false_r. symmetry. apply with_same.
      * rewrite A. cbn [tl th ov]. rewrite Z.add_0_r. reflexivity.
      * exact B.
      * intros j. unfold ovf, hi3. rewrite A. cbn [snd negb andb Z.ltb Z.compare]. rewrite !andb_false_r, !orb_false_r. reflexivity.
    + rewrite tick_mode3 by assumption. set (x := upd false _ _). 
      assert (A : after false s = ((tl0 s + npulse false s) mod 256, (if run_bit true (tcon s) then (th0 s + 1) mod 256 else th0 s), (tl0 s + npulse false s) / 256)) by (unfold after; rewrite E; reflexivity).
      assert (BX : bytes x) by (apply upd_bytes; [apply clear_bytes, B|apply byte_mod|apply B]).
      assert (XT : a x = with_edge (a s) (edge_left false s)).
      { unfold edge_left. cbn [andb negb]. rewrite andb_true_r. reflexivity. }
      assert (XC : forall j, Z.testbit (tcon x) j = Z.testbit (tcon s) j || (j =? TF_nr false) && (0 <? ovf false s)).
      { intros j. unfold x. rewrite upd_tcon. unfold ovf. rewrite A. reflexivity. }
      destruct (run_bit true (tcon s)) eqn:R.
      * constructor; try reflexivity.
        -- exact XT.
        -- rewrite A. reflexivity.
        -- destruct BX as (B1 & B2 & B3 & B4 & B5 & B6 & B7 & B8). unfold bytes, updh. cbn [tmod tcon tl0 th0 tl1 th1 p3 pins a b ov0 ov1]. split; [exact B1|]. split; [destruct (0 <? (th0 s + 1) / 256); [apply or_byte; [exact B2|apply tf_byte]|exact B2]|]. split; [exact B3|]. split; [apply byte_mod|]. auto.
        -- intros j. unfold updh. cbn [tcon]. assert (H : (0 <? (th0 s + 1) / 256) = hi3 false s).
           { unfold hi3. rewrite E, R. cbn [negb andb Z.eqb Pos.eqb]. destruct B as (_ & _ & _ & BH & _). unfold byte in BH. destruct (Z.eq_dec (th0 s) 255) as [-> | N]; [reflexivity|]. rewrite Z.div_small by lia. symmetry. apply Z.eqb_neq. exact N. }
           rewrite H. destruct (hi3 false s); [rewrite TF_set, XC, tf7, andb_true_r|rewrite XC, andb_false_r, orb_false_r]; reflexivity.
      * constructor; try reflexivity.
        -- exact XT.
        -- rewrite A. reflexivity.
        -- exact BX.
        -- intros j. rewrite XC. unfold hi3. rewrite R. rewrite !andb_false_r, orb_false_r. reflexivity.
  - assert (M : selected i (tmod s) = 0 \/ selected i (tmod s) = 1 \/ selected i (tmod s) = 2) by lia.
    rewrite tick_law by assumption.
    assert (A : after i s = law (selected i (tmod s)) (tl i s) (th i s) (npulse i s)) by (unfold after; replace (selected i (tmod s) =? 3) with false by lia; reflexivity).
    assert (O : okt i s) by (destruct i; assumption). assert (BL : byte (tl i s)) by (destruct i; apply B). assert (BH : byte (th i s)) by (destruct i; apply B).
    pose proof (law_bytes _ _ _ (npulse i s) M BL BH (npulse_nonneg i s O)) as LB. rewrite <- A in *. destruct (after i s) as [[l h] o] eqn:AA. destruct LB as (L1 & L2 & L3).
    constructor; try (destruct i; reflexivity).
    + unfold edge_left. replace (selected i (tmod s) =? 3) with false by lia. rewrite andb_false_r. cbn [negb]. rewrite andb_true_r. destruct i; reflexivity.
    + rewrite AA. destruct i; reflexivity.
    + apply upd_bytes; [apply clear_bytes, B|exact L1|exact L2].
    + intros j. rewrite upd_tcon. unfold ovf, hi3. rewrite AA. cbn [snd]. replace (tcon (clear_edge i s)) with (tcon s) by (destruct i; reflexivity). destruct i; cbn [negb andb]; [rewrite andb_false_r, orb_false_r; reflexivity|].
      replace (selected false (tmod s) =? 3) with false by lia. cbn [andb]. rewrite andb_false_r, orb_false_r. reflexivity.
Qed.

Lemma ticked_run i s s' k : ticked i s s' -> run_bit k (tcon s') = run_bit k (tcon s).
Proof. intros T. unfold run_bit. rewrite (k_tcon _ _ _ T). destruct k, i; cbn [TF_nr Z.eqb Pos.eqb andb]; rewrite ?orb_false_r; reflexivity. Qed.
Lemma ticked_level i s s' : ticked i s s' -> level s' = level s.
Proof. intros T. unfold level. rewrite (k_p3 _ _ _ T), (k_pins _ _ _ T). reflexivity. Qed.
Lemma edge_left_nonneg i s : okt i s -> 0 <= edge_left i s.
Proof. intros (_ & _ & _ & _ & _ & E). unfold edge_left. destruct (_ && _ && _); lia. Qed.
Lemma ticked_inv i s s' : inv s -> ticked i s s' -> inv s'.
Proof.
  intros (O0 & O1 & B) T. assert (K : forall k, okt k s').
  { intros k. assert (OK : okt k s) by (destruct k; assumption). pose proof (ticked_run i s s' k T) as R. pose proof (ticked_level _ _ _ T) as L. unfold okt. rewrite R, L, (k_tmod _ _ _ T). destruct (Bool.bool_dec k i) as [-> | N].
    - rewrite (k_tmr _ _ _ T). pose proof (edge_left_nonneg i s OK). destruct OK as (E1 & E2 & E3 & E4 & E5 & E6). cbn [with_edge mode GATE CT TR INT T_edge]. auto 10.
    - assert (KI : k = negb i) by (destruct k, i; try reflexivity; contradiction). rewrite KI, (k_other _ _ _ T). rewrite <- KI. exact OK. }
  split; [apply K|]. split; [apply K|]. apply (k_bytes _ _ _ T).
Qed.

(** ** A machine cycle *)
Record cycled (s s' : st) : Prop := {
  c_inv : inv s'; c_tmod : tmod s' = tmod s; c_p3 : p3 s' = p3 s; c_pins : pins s' = pins s;
  c_tmr : forall i, tmr i s' = with_edge (tmr i s) (edge_left i s);
  c_cnt : forall i, (tl i s', th i s', ov i s') = (let '(l, h, o) := after i s in (l, h, ov i s + o));
  c_tcon : forall j, Z.testbit (tcon s') j = Z.testbit (tcon s) j || (j =? 5) && (0 <? ovf false s) || (j =? 7) && ((0 <? ovf true s) || hi3 false s) }.
Lemma cycle_ok s : inv s -> cycled s (step s Cycle).
Proof.
  intros I. cbn [step]. pose proof (tick_ok false s I) as T0. pose proof (ticked_inv _ _ _ I T0) as I1. set (s1 := tick false s) in *.
  pose proof (tick_ok true s1 I1) as T1. pose proof (ticked_inv _ _ _ I1 T1) as I2. set (s2 := tick true s1) in *.
  assert (NP : npulse true s1 = npulse true s /\ edge_left true s1 = edge_left true s).
  { unfold npulse, edge_left, going. rewrite (ticked_run _ _ _ true T0), (ticked_level _ _ _ T0), (k_tmod _ _ _ T0). pose proof (k_other _ _ _ T0) as O. cbn [negb] in O. rewrite O. split; reflexivity. }
  destruct NP as [NP EL]. assert (A : after true s1 = after true s).
  { unfold after. rewrite NP, (k_tmod _ _ _ T0). pose proof (k_tl _ _ _ T0) as TL. pose proof (k_th _ _ _ T0) as TH. cbn [negb tl th] in TL, TH. cbn [tl th]. rewrite TL, TH. reflexivity. }
  constructor.
  - exact I2.
  - rewrite (k_tmod _ _ _ T1). apply (k_tmod _ _ _ T0).
  - rewrite (k_p3 _ _ _ T1). apply (k_p3 _ _ _ T0).
  - rewrite (k_pins _ _ _ T1). apply (k_pins _ _ _ T0).
  - intros [|].
    + rewrite (k_tmr _ _ _ T1), EL. pose proof (k_other _ _ _ T0) as O. cbn [negb] in O. rewrite O. reflexivity.
    + pose proof (k_other _ _ _ T1) as O. cbn [negb] in O. rewrite O. apply (k_tmr _ _ _ T0).
  - intros [|].
    + rewrite (k_cnt _ _ _ T1), A. pose proof (k_ov _ _ _ T0) as O. cbn [negb] in O. rewrite O. reflexivity.
    + pose proof (k_tl _ _ _ T1) as X1. pose proof (k_th _ _ _ T1) as X2. pose proof (k_ov _ _ _ T1) as X3. cbn [negb] in X1, X2, X3. rewrite X1, X2, X3. apply (k_cnt _ _ _ T0).
  - intros j. rewrite (k_tcon _ _ _ T1), (k_tcon _ _ _ T0). unfold ovf. rewrite A. assert (H : hi3 true s1 = false) by reflexivity. rewrite H. cbn [TF_nr]. rewrite andb_false_r, orb_false_r. rewrite <- !orb_assoc, <- andb_orb_distrib_r. rewrite (orb_comm (hi3 false s)). reflexivity.
Qed.

(** ** Pins *)
Record moved (s s' : st) (nl : Z) : Prop := {
  m_inv : inv s'; m_tmod : tmod s' = tmod s; m_tcon : tcon s' = tcon s; m_level : level s' = nl;
  m_cnt : forall i, (tl i s', th i s', ov i s') = (tl i s, th i s, ov i s);
  m_edge : forall i, T_edge (tmr i s') = if t_pin i nl && negb (t_pin i (level s)) then T_edge (tmr i s) + 1 else T_edge (tmr i s) }.
Lemma happen_tmr i o n s : tmr i (happen o n s) =
  let t := tmr i s in mkTm (mode t) (GATE t) (CT t) (TR t) (int_pin i n) (if t_pin i n && negb (t_pin i o) then T_edge t + 1 else T_edge t).
Proof. unfold happen, happen1. rewrite !hINT, !hT. destruct i; reflexivity. Qed.
Lemma happen_frame o n s : let s' := happen o n s in
  tmod s' = tmod s /\ tcon s' = tcon s /\ p3 s' = p3 s /\ pins s' = pins s /\ tl0 s' = tl0 s /\ th0 s' = th0 s /\ tl1 s' = tl1 s /\ th1 s' = th1 s /\ ov0 s' = ov0 s /\ ov1 s' = ov1 s.
Proof. repeat split. Qed.
Lemma no_rise i l : t_pin i l && negb (t_pin i l) = false.
Proof. destruct (t_pin i l); reflexivity. Qed.
Lemma write_p3_ok v s : inv s -> byte v -> moved s (write_p3 v s) (Z.land (pins s) v).
Proof.
  intros (O0 & O1 & B) V. unfold write_p3. pose proof B as (B1 & B2 & B3 & B4 & B5 & B6 & B7 & B8). destruct (Z.eqb_spec (p3 s) v) as [E|E].
  - assert (S : set_p3 v s = s) by (unfold set_p3; rewrite Z.mod_small by exact V; rewrite <- E; symmetry; apply st_eq). rewrite S.
    assert (L : level s = Z.land (pins s) v) by (unfold level; rewrite E; reflexivity). rewrite <- L. constructor; try reflexivity; [split; [exact O0|]; split; [exact O1|exact B]|]. intros i. rewrite no_rise. reflexivity.
  - set (s' := set_p3 v (happen (Z.land (pins s) (p3 s)) (Z.land (pins s) v) s)).
    assert (L : level s' = Z.land (pins s) v) by (unfold level, s'; cbn [set_p3 p3 pins]; rewrite Z.mod_small by exact V; reflexivity).
    assert (T : forall i, tmr i s' = tmr i (happen (level s) (Z.land (pins s) v) s)) by (intros [|]; reflexivity).
    constructor; try reflexivity.
    + assert (K : forall i, okt i s').
      { intros i. assert (O : okt i s) by (destruct i; assumption). destruct O as (E1 & E2 & E3 & E4 & E5 & E6). unfold okt. rewrite L, T, happen_tmr. cbv zeta. cbn [mode GATE CT TR INT T_edge].
        change (tmod s') with (tmod s). change (tcon s') with (tcon s). split; [exact E1|]. split; [exact E2|]. split; [exact E3|]. split; [exact E4|]. split; [reflexivity|]. destruct (_ && _); lia. }
      split; [apply K|]. split; [apply K|]. repeat split; try (apply B1 || apply B2 || apply B3 || apply B4 || apply B5 || apply B6 || apply B8); unfold s'; cbn [set_p3 p3]; apply byte_mod.
    + try exact L; intros [|]; reflexivity.
    + try (intros [|]; reflexivity); intros i; rewrite T, happen_tmr; reflexivity.
Qed.
Lemma pins_ok v s : inv s -> moved s (step s (Pins v)) (Z.land (v mod 256) (p3 s)).
Proof.
  intros (O0 & O1 & B). cbn [step]. set (w := v mod 256). pose proof (byte_mod v) as V. fold w in V. pose proof B as (B1 & B2 & B3 & B4 & B5 & B6 & B7 & B8). destruct (Z.eqb_spec (pins s) w) as [E|E].
  - assert (S : set_pins w s = s) by (unfold set_pins; rewrite <- E; symmetry; apply st_eq). rewrite S.
    assert (L : level s = Z.land w (p3 s)) by (unfold level; rewrite E; reflexivity). rewrite <- L. constructor; try reflexivity; [split; [exact O0|]; split; [exact O1|exact B]|]. intros i. rewrite no_rise. reflexivity.
  - set (s' := happen (Z.land (pins s) (p3 s)) (Z.land w (p3 s)) (set_pins w s)).
    assert (L : level s' = Z.land w (p3 s)) by reflexivity.
    assert (T : forall i, tmr i s' = tmr i (happen (level s) (Z.land w (p3 s)) s)) by (intros [|]; reflexivity).
    constructor; try reflexivity.
    + assert (K : forall i, okt i s').
      { intros i. assert (O : okt i s) by (destruct i; assumption). destruct O as (E1 & E2 & E3 & E4 & E5 & E6). unfold okt. rewrite L, T, happen_tmr. cbv zeta. cbn [mode GATE CT TR INT T_edge].
        change (tmod s') with (tmod s). change (tcon s') with (tcon s). split; [exact E1|]. split; [exact E2|]. split; [exact E3|]. split; [exact E4|]. split; [reflexivity|]. destruct (_ && _); lia. }
      split; [apply K|]. split; [apply K|]. repeat split; try (apply B1 || apply B2 || apply B3 || apply B4 || apply B5 || apply B6 || apply B7); apply V.
    + try (intros [|]; reflexivity); intros i; rewrite T, happen_tmr; reflexivity.
Qed.

(** ** Every operation keeps the invariant; the control writes *)
Lemma with_bit_byte v k on : byte v -> 0 <= k < 8 -> byte (with_bit v k on).
Proof. intros V K. unfold with_bit. destruct on; [apply or_byte; [exact V|]|apply byte_mod]. unfold byte. assert (k = 0 \/ k = 1 \/ k = 2 \/ k = 3 \/ k = 4 \/ k = 5 \/ k = 6 \/ k = 7) as [-> | [-> | [-> | [-> | [-> | [-> | [-> | ->]]]]]]] by lia; cbn; lia. Qed.
Lemma tcon_written n s : inv s -> let s' := set_tcon n (write_tcon1 true n (write_tcon1 false n s)) in
  inv s' /\ (forall i, T_edge (tmr i s') = 0) /\ tmod s' = tmod s /\ tcon s' = n mod 256 /\ p3 s' = p3 s /\ pins s' = pins s /\ forall i, tl i s' = tl i s /\ th i s' = th i s /\ ov i s' = ov i s.
Proof.
  intros (O0 & O1 & B) s'. split; [|split; [intros [|]; reflexivity|split; [reflexivity|split; [reflexivity|split; [reflexivity|split; [reflexivity|intros [|]; repeat split]]]]]].
  assert (K : forall i, okt i s').
  { intros i. assert (O : okt i s) by (destruct i; assumption). destruct O as (E1 & E2 & E3 & E4 & E5 & E6). unfold okt. change (level s') with (level s). change (tmod s') with (tmod s). change (tcon s') with (n mod 256). rewrite run_mod, <- hTR.
    destruct i; (split; [exact E1|]; split; [exact E2|]; split; [exact E3|]; split; [reflexivity|]; split; [exact E5|]; cbn; lia). }
  split; [apply K|]. split; [apply K|]. destruct B as (B1 & B2 & B3 & B4 & B5 & B6 & B7 & B8). split; [exact B1|]. split; [apply byte_mod|]. split; [exact B3|]. split; [exact B4|]. split; [exact B5|]. split; [exact B6|]. split; [exact B7|exact B8].
Qed.
Lemma tmod_written v s : inv s -> let s' := step s (WTmod v) in
  inv s' /\ (forall i, T_edge (tmr i s') = 0) /\ tmod s' = v mod 256 /\ tcon s' = tcon s /\ p3 s' = p3 s /\ pins s' = pins s /\ forall i, tl i s' = tl i s /\ th i s' = th i s /\ ov i s' = ov i s.
Proof.
  intros (O0 & O1 & B) s'. split; [|split; [intros [|]; reflexivity|split; [reflexivity|split; [reflexivity|split; [reflexivity|split; [reflexivity|intros [|]; repeat split]]]]]].
  assert (K : forall i, okt i s').
  { intros i. assert (O : okt i s) by (destruct i; assumption). destruct O as (E1 & E2 & E3 & E4 & E5 & E6). unfold okt. change (level s') with (level s). change (tmod s') with (v mod 256). change (tcon s') with (tcon s). rewrite <- mode_ok, gate_mod, ct_mod, <- hGATE, <- hCT.
    destruct i; (split; [reflexivity|]; split; [reflexivity|]; split; [reflexivity|]; split; [exact E4|]; split; [exact E5|]; cbn; lia). }
  split; [apply K|]. split; [apply K|]. destruct B as (B1 & B2 & B3 & B4 & B5 & B6 & B7 & B8). split; [apply byte_mod|]. split; [exact B2|]. split; [exact B3|]. split; [exact B4|]. split; [exact B5|]. split; [exact B6|]. split; [exact B7|exact B8].
Qed.
(** bit numbers are 0..7 *)
Definition ok_op (o : op) : Prop := match o with WTconBit k _ | WP3Bit k _ => 0 <= k < 8 | _ => True end.
Lemma step_inv s o : inv s -> ok_op o -> inv (step s o).
Proof.
  intros I K. destruct o; cbn [step].
  - apply (cycle_ok s I).
  - apply (tmod_written v s I).
  - apply (tcon_written v s I).
  - apply (tcon_written _ s I).
  - destruct I as (O0 & O1 & B1 & B2 & B3 & B4 & B5 & B6 & B7 & B8). destruct i; (split; [exact O0|]; split; [exact O1|]; unfold bytes; cbn [set_tl tmod tcon tl0 th0 tl1 th1 p3 pins]; auto 10 using byte_mod).
  - destruct I as (O0 & O1 & B1 & B2 & B3 & B4 & B5 & B6 & B7 & B8). destruct i; (split; [exact O0|]; split; [exact O1|]; unfold bytes; cbn [set_th tmod tcon tl0 th0 tl1 th1 p3 pins]; auto 10 using byte_mod).
  - apply (tcon_written _ s I).
  - apply (m_inv _ _ _ (write_p3_ok _ s I (byte_mod v))).
  - assert (B : byte (p3 s)) by apply I. apply (m_inv _ _ _ (write_p3_ok _ s I (with_bit_byte _ k on B K))).
  - apply (m_inv _ _ _ (pins_ok v s I)).
Qed.
Lemma run_inv l : forall s, inv s -> Forall ok_op l -> inv (run s l).
Proof. unfold run. induction l as [|o l IH]; intros s I F; cbn [fold_left]; [exact I|]. inversion F; subst. apply IH; [apply step_inv; assumption|assumption]. Qed.
Lemma reset_ok s : byte (pins s) -> let s' := reset s in
  inv s' /\ tmod s' = 0 /\ tcon s' = 0 /\ p3 s' = 255 /\ pins s' = pins s /\ forall i, tl i s' = 0 /\ th i s' = 0 /\ ov i s' = ov i s /\ T_edge (tmr i s') = 0.
Proof.
  intros P. cbv zeta. set (s' := reset s). unfold reset, run in s'. cbn [fold_left step] in s'. unfold write_p3 in s'. cbn [p3] in s'. change (0 =? 255 mod 256) with false in s'.
  assert (L : level s' = Z.land (pins s) 255) by reflexivity.
  split; [|split; [reflexivity|split; [reflexivity|split; [reflexivity|split; [reflexivity|intros [|]; repeat split]]]]].
  assert (K : forall i, okt i s') by (intros i; unfold okt; rewrite L, <- hINT; destruct i; repeat split; cbn; lia).
  split; [apply K|]. split; [apply K|]. unfold bytes. change (pins s') with (pins s). split; [|split; [|split; [|split; [|split; [|split; [|split]]]]]]; try exact P; unfold byte; cbn; lia.
Qed.
