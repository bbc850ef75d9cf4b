(** Decimal arithmetic, calls, stack, bits, lengths; deviations. *)
From Verif Require Import Base S51Model S51Spec S51Obs S51DisModel S51Proofs S51Proofs2 S51Proofs3 S51Proofs4 S51Proofs5 S51Proofs6 S51Proofs7 S51Proofs8.

Lemma dec_at G s : wf s ->
  decode_at (rom G) (view s) = decode (rom G (pc s)) (rom G ((pc s + 1) mod 65536)) (rom G ((pc s + 2) mod 65536)).
Proof.
  intros (H & _). unfold decode_at, byte_at. cbn [view a_pc]. rewrite Z.add_0_r, (Z.mod_small (pc s)) by lia. reflexivity.
Qed.

(** the step theorem for a known instruction *)
Lemma step_known G s ins len cyc a1 : wf_cfg G -> ltr G = true -> wf s ->
  decode (rom G (pc s)) (rom G ((pc s + 1) mod 65536)) (rom G ((pc s + 2) mod 65536)) = Some (ins, len, cyc) ->
  effect (rom G) (isize G) ins (with_pc (view s) (pc s + len)) = Some a1 ->
  differs ins (with_pc (view s) (pc s + len)) = false ->
  wf (inst_step G s) /\ same_but_P (view (inst_step G s)) (fixP a1) /\ insts (inst_step G s) = cyc.
Proof.
  intros HG HL W Hd He Hf.
  destruct (step_ok G s (fixP a1) HG HL W) as (H1 & H2 & _ & H4).
  - unfold step. rewrite dec_at, Hd by exact W. cbn [obind]. change (a_pc (view s)) with (pc s). rewrite He. reflexivity.
  - unfold differs_at. rewrite dec_at, Hd by exact W. exact Hf.
  - split; [exact H1|]. split; [exact H2|]. unfold cycles_at in H4. rewrite dec_at, Hd in H4 by exact W.
    cbn [obind] in H4. congruence.
Qed.

(* ------------------------------------------------------------ flags of the specification *)
Lemma getA_flag k b a : getA (setflag k b a) = getA a.
Proof. unfold getA, setflag, with_sfr. cbn [a_sfr]. apply store_other. discriminate. Qed.
Lemma getA_setA a v : getA (setA a v) = v mod 256.
Proof. unfold getA, setA, with_sfr. cbn [a_sfr]. apply store_same. Qed.
Lemma bit_flag k b a n : 0 <= k -> 0 <= n -> bit (a_sfr (setflag k b a) rPSW) n = if n =? k then b else bit (a_sfr a rPSW) n.
Proof. intros Hk Hn. unfold setflag, with_sfr, bit. cbn [a_sfr]. rewrite store_same. apply set_bit_spec; assumption. Qed.
Lemma psw_setA a v : a_sfr (setA a v) rPSW = a_sfr a rPSW.
Proof. unfold setA, with_sfr. cbn [a_sfr]. apply store_other. discriminate. Qed.
Lemma like_A a b : same_but_P a b -> getA a = getA b.
Proof. intros (_ & _ & H & _). apply H. discriminate. Qed.
Lemma like_bit a b n : same_but_P a b -> 0 < n -> bit (a_sfr a rPSW) n = bit (a_sfr b rPSW) n.
Proof. intros (_ & _ & _ & H & _). apply H. Qed.

(* ------------------------------------------------------------ BCD *)
Definition da_out (r : Z) (ac cy : bool) : Z * bool :=
  let x := if (9 <? r mod 16) || ac then r + 6 else r in
  let c1 := cy || (256 <=? x) in
  let x := x mod 256 in
  let y := if (9 <? x / 16) || c1 then x + 96 else x in
  (y mod 256, c1 || (256 <=? y)).
Definition bcdb (x : Z) : bool := (x / 16 <=? 9) && (x mod 16 <=? 9).
Definition bcd_test (c a x : Z) : bool :=
  negb (bcdb a && bcdb x) ||
  (let '(y, cy) := da_out ((a + x + c) mod 256) (16 <=? a mod 16 + x mod 16 + c) (256 <=? a + x + c) in
   bcdb y && (dec y + 100 * b2z cy =? dec a + dec x + c)).
Lemma bcd_all c a x : 0 <= c <= 1 -> valid_bcd a -> valid_bcd x ->
  let '(y, cy) := da_out ((a + x + c) mod 256) (16 <=? a mod 16 + x mod 16 + c) (256 <=? a + x + c) in
  valid_bcd y /\ dec y + 100 * b2z cy = dec a + dec x + c.
Proof.
  intros Hc (A0 & A1 & A2) (X0 & X1 & X2). assert (Ha : 0 <= a < 256) by lia. assert (Hx : 0 <= x < 256) by lia.
  assert (T : bcd_test c a x = true).
  { assert (T0 : forall a x, 0 <= a < 256 -> 0 <= x < 256 -> bcd_test 0 a x = true) by (apply sweep_byte2; vm_compute; reflexivity).
    assert (T1 : forall a x, 0 <= a < 256 -> 0 <= x < 256 -> bcd_test 1 a x = true) by (apply sweep_byte2; vm_compute; reflexivity).
    assert (E : c = 0 \/ c = 1) by lia. destruct E as [-> | ->]; auto. }
  unfold bcd_test in T. assert (Bv : bcdb a && bcdb x = true) by (unfold bcdb; lia). rewrite Bv in T. cbn [negb orb] in T.
  destruct (da_out _ _ _) as [y cy] eqn:E. apply andb_prop in T. destruct T as [T1 T2].
  assert (Hy : 0 <= y).
  { unfold da_out in E. apply (f_equal fst) in E. cbn [fst] in E. rewrite <- E. apply Z.mod_pos_bound. lia. }
  unfold bcdb in T1. unfold valid_bcd. lia.
Qed.

(** DA after an addition *)
Lemma da_step G s a : wf_cfg G -> ltr G = true -> wf s -> rom G (pc s) = 0xd4 -> same_but_P (view s) a ->
  let '(y, cy) := da_out (getA a) (AC a) (CY a) in
  sfr (inst_step G s) ACC = y /\ CY (view (inst_step G s)) = cy /\ wf (inst_step G s).
Proof.
  intros HG HL W Hop HS.
  set (t := with_pc (view s) (pc s + 1)).
  destruct (step_known G s Da 1 1 (setCY (snd (da_out (getA t) (AC t) (CY t))) (setA t (fst (da_out (getA t) (AC t) (CY t))))) HG HL W) as (H1 & H2 & _).
  - rewrite Hop. reflexivity.
  - cbn [effect]. fold t. unfold da_out. cbn [fst snd]. f_equal. f_equal. unfold setA. rewrite Z.mod_mod by lia. reflexivity.
  - reflexivity.
  - assert (E1 : getA t = getA a) by (apply (like_A (view s)); exact HS).
    assert (E2 : AC t = AC a) by (apply (like_bit (view s) a 6 HS); lia).
    assert (E3 : CY t = CY a) by (apply (like_bit (view s) a 7 HS); lia).
    rewrite E1, E2, E3 in H2. destruct (da_out (getA a) (AC a) (CY a)) as [y cy] eqn:Eo. cbn [fst snd] in H2.
    assert (Hy : 0 <= y < 256).
    { unfold da_out in Eo. apply (f_equal fst) in Eo. cbn [fst] in Eo. rewrite <- Eo. apply Z.mod_pos_bound. lia. }
    split; [|split; [|exact H1]].
    + change (sfr (inst_step G s) ACC) with (getA (view (inst_step G s))). rewrite (like_A _ _ H2).
      unfold fixP, setCY. rewrite !getA_flag, getA_setA. apply Z.mod_small. exact Hy.
    + unfold CY at 1. rewrite (like_bit _ _ 7 H2) by lia. unfold fixP, setCY. rewrite !bit_flag by lia. reflexivity.
Qed.

Lemma bcd_add G s (carry : bool) op x : wf_cfg G -> ltr G = true -> wf s ->
  op = (if carry then 0x34 else 0x24) ->
  rom G (pc s) = op -> rom G ((pc s + 1) mod 65536) = x -> rom G ((pc s + 2) mod 65536) = 0xd4 ->
  valid_bcd (sfr s ACC) -> valid_bcd x ->
  let s2 := inst_step G (inst_step G s) in
  valid_bcd (sfr s2 ACC) /\
  dec (sfr s2 ACC) + 100 * b2z (CY (view s2)) = dec (sfr s ACC) + dec x + (if carry then b2z (CY (view s)) else 0).
Proof.
  intros HG HL W Eop Hop Hx Hd HA HX s2. pose proof W as (Hp & _).
  set (c := if carry then b2z (CY (view s)) else 0). set (a := sfr s ACC) in *.
  assert (Hc : 0 <= c <= 1) by (subst c; destruct carry; [destruct (CY (view s)); cbn; lia|lia]).
  set (t := with_pc (view s) (pc s + 2)).
  set (ov := negb (fits (if carry then signed a + signed x + c else signed a + signed x))).
  set (e := setCY (256 <=? a + x + c) (setAC (16 <=? a mod 16 + x mod 16 + c) (setOV ov (setA t (a + x + c))))).
  destruct (step_known G s (if carry then Addc (oImm x) else Add (oImm x)) 2 1 e HG HL W) as (W1 & R1 & _).
  - rewrite Hop, Hx, Eop. destruct carry; reflexivity.
  - destruct carry.
    + reflexivity.
    + subst e c ov. rewrite !Z.add_0_r. reflexivity.
  - destruct carry; reflexivity.
  - assert (Ep : pc (inst_step G s) = (pc s + 2) mod 65536).
    { destruct R1 as (H & _). change (a_pc (view (inst_step G s))) with (pc (inst_step G s)) in H. rewrite H. reflexivity. }
    pose proof (da_step G (inst_step G s) (fixP e) HG HL W1) as D. rewrite Ep in D. specialize (D Hd R1).
    assert (F1 : getA (fixP e) = (a + x + c) mod 256).
    { unfold fixP, e, setCY, setAC, setOV. rewrite !getA_flag. apply getA_setA. }
    assert (F2 : CY (fixP e) = (256 <=? a + x + c)).
    { unfold CY, fixP, e, setCY. rewrite !bit_flag by lia. reflexivity. }
    assert (F3 : AC (fixP e) = (16 <=? a mod 16 + x mod 16 + c)).
    { unfold AC, fixP, e, setCY, setAC. rewrite !bit_flag by lia. reflexivity. }
    rewrite F1, F2, F3 in D. pose proof (bcd_all c a x Hc HA HX) as B.
    destruct (da_out _ _ _) as [y cy]. destruct D as (D1 & D2 & _). fold s2 in D1, D2. rewrite D1, D2. exact B.
Qed.

(* ------------------------------------------------------------ calls and returns *)
Lemma push_some isz a v : (a_sfr a rSP + 1) mod 256 < isz ->
  push isz a v = Some (with_iram (with_sfr a rSP ((a_sfr a rSP + 1) mod 256)) ((a_sfr a rSP + 1) mod 256) (v mod 256)).
Proof. intros H. unfold push, ram_place. rewrite (proj2 (Z.ltb_lt _ _) H). reflexivity. Qed.

Lemma call_step G s : wf_cfg G -> ltr G = true -> wf s ->
  (rom G (pc s) = 0x12 \/ rom G (pc s) mod 32 = 0x11) ->
  let sp := sfr s SP in let p1 := (sp + 1) mod 256 in let p2 := (sp + 2) mod 256 in
  p1 < isize G -> p2 < isize G ->
  let ret := (pc s + (if rom G (pc s) =? 0x12 then 3 else 2)) mod 65536 in
  let s1 := inst_step G s in
  wf s1 /\ sfr s1 SP = p2 /\ iram s1 p1 = ret mod 256 /\ iram s1 p2 = ret / 256 /\
  (forall x, x <> p1 -> x <> p2 -> iram s1 x = iram s x) /\
  (forall x, x <> SP -> x <> PSW -> sfr s1 x = sfr s x) /\ (forall x, xram s1 x = xram s x) /\
  pc s1 = (if rom G (pc s) =? 0x12 then 256 * rom G ((pc s + 1) mod 65536) + rom G ((pc s + 2) mod 65536)
           else ret / 2048 * 2048 + 256 * (rom G (pc s) / 32) + rom G ((pc s + 1) mod 65536)).
Proof.
  intros HG HL W Hop sp p1 p2 H1 H2 ret s1. pose proof HG as [HR _]. pose proof W as (Hp & _ & HS & _).
  set (b1 := rom G ((pc s + 1) mod 65536)) in *. set (b2 := rom G ((pc s + 2) mod 65536)) in *.
  set (op := rom G (pc s)) in *. pose proof (HR (pc s)) as Hb. fold op in Hb.
  pose proof (HR ((pc s + 1) mod 65536)) as Hb1. pose proof (HR ((pc s + 2) mod 65536)) as Hb2. fold b1 in Hb1. fold b2 in Hb2.
  set (isl := op =? 0x12) in *.
  set (len := if isl then 3 else 2) in *.
  set (tgt := if isl then 256 * b1 + b2 else ret / 2048 * 2048 + 256 * (op / 32) + b1).
  assert (Hret : 0 <= ret < 65536) by (apply Z.mod_pos_bound; lia).
  assert (Htgt : 0 <= tgt < 65536).
  { subst tgt. destruct isl; lia. }
  assert (Ep : (p1 + 1) mod 256 = p2) by (subst p1 p2; rewrite Z.add_mod_idemp_l by lia; f_equal; lia).
  assert (Hne : p1 <> p2).
  { rewrite <- Ep. assert (0 <= p1 < 256) by (apply Z.mod_pos_bound; lia). lia. }
  set (t := with_pc (view s) (pc s + len)).
  set (a1 := with_iram (with_sfr t rSP p1) p1 (ret mod 256)).
  set (a2 := with_iram (with_sfr a1 rSP p2) p2 (ret / 256)).
  assert (E1 : push (isize G) t (a_pc t mod 256) = Some a1).
  { rewrite push_some by exact H1. unfold a1. change (a_pc t) with ret. rewrite Z.mod_mod by lia. reflexivity. }
  assert (Esp : a_sfr a1 rSP = p1) by (unfold a1, with_iram, with_sfr; cbn [a_sfr]; apply store_same).
  assert (E2 : push (isize G) a1 (a_pc a1 / 256) = Some a2).
  { rewrite push_some by (rewrite Esp, Ep; exact H2). rewrite Esp, Ep. unfold a2. change (a_pc a1) with ret.
    rewrite (Z.mod_small (ret / 256)) by lia. reflexivity. }
  destruct (step_known G s (if isl then Lcall (256 * b1 + b2) else Acall (256 * (op / 32) + b1)) len 2 (with_pc a2 tgt) HG HL W) as (K1 & K2 & _).
  - fold op b1 b2. destruct Hop as [E|E].
    + assert (isl = true) as Ei by (unfold isl; rewrite E; reflexivity).
      unfold len. rewrite Ei, E. reflexivity.
    + assert (isl = false) as Ei by (unfold isl; apply Z.eqb_neq; intros E0; rewrite E0 in E; discriminate E).
      unfold len. rewrite Ei.
      set (Q := fun op => negb (op mod 32 =? 0x11) || ((op mod 16 =? 1) && negb (op / 16 mod 2 =? 0))).
      assert (HQ : Q op = true) by (revert Hb; generalize op; apply sweep_byte; vm_compute; reflexivity).
      unfold Q in HQ. rewrite E in HQ. cbn [negb orb Z.eqb Pos.eqb] in HQ. apply andb_prop in HQ. destruct HQ as [Q1 Q2].
      unfold decode. rewrite Q1. apply negb_true_iff in Q2. rewrite Q2. reflexivity.
  - fold t. unfold tgt. destruct isl; cbn [effect]; rewrite E1; cbn [obind]; rewrite E2; cbn [obind]; [reflexivity|].
    change (a_pc a2) with ret. rewrite Z.add_assoc. reflexivity.
  - destruct isl; reflexivity.
  - fold s1 in K1, K2. destruct K2 as (K2 & K3 & K4 & _ & K5). unfold view in K2, K3, K4, K5. cbn [a_pc a_iram a_sfr a_xram] in K2, K3, K4, K5.
    split; [exact K1|].
    assert (Ei : forall x, iram s1 x = store (store (iram s) p1 (ret mod 256)) p2 (ret / 256) x) by (intros x; apply K3).
    assert (Es : forall x, x <> PSW -> sfr s1 x = store (store (sfr s) SP p1) SP p2 x).
    { intros x Hx. rewrite K4 by exact Hx. unfold fixP, setflag, with_sfr. cbn [a_sfr]. rewrite store_other by exact Hx. reflexivity. }
    split; [rewrite Es by discriminate; apply store_same|].
    split; [rewrite Ei, store_other by exact Hne; apply store_same|].
    split; [rewrite Ei; apply store_same|].
    split; [intros x X1 X2; rewrite Ei, !store_other by assumption; reflexivity|].
    split; [intros x X1 X2; rewrite Es by exact X2; rewrite !store_other by assumption; reflexivity|].
    split; [intros x; apply K5|]. rewrite K2. unfold fixP, setflag, with_sfr, with_pc. cbn [a_pc].
    rewrite Z.mod_small by exact Htgt. reflexivity.
Qed.

Lemma ret_step G s : wf_cfg G -> ltr G = true -> wf s -> (rom G (pc s) = 0x22 \/ rom G (pc s) = 0x32) ->
  let sp := sfr s SP in let q := (sp - 1) mod 256 in sp < isize G -> q < isize G ->
  let s1 := inst_step G s in
  wf s1 /\ sfr s1 SP = (sp - 2) mod 256 /\ pc s1 = 256 * iram s sp + iram s q /\
  (forall x, iram s1 x = iram s x) /\ (forall x, x <> SP -> x <> PSW -> sfr s1 x = sfr s x) /\ (forall x, xram s1 x = xram s x).
Proof.
  intros HG HL W Hop sp q H1 H2 s1. pose proof W as (Hp & HI & HS & _).
  set (t := with_pc (view s) (pc s + 1)).
  assert (Es : forall x, a_sfr t x = sfr s x) by reflexivity.
  assert (E1 : top (isize G) t = Some (iram s sp)).
  { unfold top, ram_place. rewrite Es. change rSP with SP. fold sp. rewrite (proj2 (Z.ltb_lt _ _) H1). reflexivity. }
  assert (Eq : a_sfr (drop t) rSP = q) by (unfold drop, with_sfr; cbn [a_sfr]; apply store_same).
  assert (E2 : top (isize G) (drop t) = Some (iram s q)).
  { unfold top, ram_place. rewrite Eq, (proj2 (Z.ltb_lt _ _) H2). reflexivity. }
  assert (Eqq : (q - 1) mod 256 = (sp - 2) mod 256) by (subst q; rewrite Zminus_mod_idemp_l; f_equal; lia).
  assert (K : wf s1 /\ same_but_P (view s1) (fixP (with_pc (drop (drop t)) (256 * iram s sp + iram s q)))).
  { destruct Hop as [Hop | Hop];
      [destruct (step_known G s Ret 1 2 (with_pc (drop (drop t)) (256 * iram s sp + iram s q)) HG HL W) as (K1 & K2 & _)
      |destruct (step_known G s Reti 1 2 (with_pc (drop (drop t)) (256 * iram s sp + iram s q)) HG HL W) as (K1 & K2 & _)];
      try (rewrite Hop; reflexivity); try reflexivity;
      try (cbn [effect]; fold t; rewrite E1; cbn [obind]; rewrite E2; reflexivity); split; assumption. }
  destruct K as (K1 & K2 & K3 & K4 & _ & K5). unfold view in K2, K3, K4, K5. cbn [a_pc a_iram a_sfr a_xram] in K2, K3, K4, K5.
  split; [exact K1|].
  assert (Ef : forall x, x <> PSW -> sfr s1 x = store (store (sfr s) SP q) SP ((q - 1) mod 256) x).
  { intros x Hx. rewrite K4 by exact Hx. unfold fixP, setflag, with_sfr. cbn [a_sfr]. rewrite store_other by exact Hx.
    unfold with_pc. cbn [a_sfr]. unfold drop at 1. rewrite Eq. reflexivity. }
  split; [rewrite Ef by discriminate; rewrite store_same; exact Eqq|].
  split; [rewrite K2; unfold fixP, setflag, with_sfr, with_pc; cbn [a_pc]; apply Z.mod_small; pose proof (HI sp); pose proof (HI q); lia|].
  split; [intros x; apply K3|]. split; [intros x X1 X2; rewrite Ef by exact X2; rewrite !store_other by exact X1; reflexivity|].
  intros x. apply K5.
Qed.

(* ------------------------------------------------------------ PUSH and POP *)
Lemma exec_at G s op f : wf s -> rom G (pc s) = op -> itab G op = Some f ->
  inst_step G s = f op (tick 1 (set_pc (begin_inst s) ((pc s + 1) mod 65536))).
Proof.
  intros W Hop Hi. change (inst_step G s) with (exec_inst G (begin_inst s)). unfold exec_inst.
  rewrite fetch_eq by exact W. cbn [pc begin_inst]. rewrite Hop, Hi. reflexivity.
Qed.
Lemma wf_begin s : wf s -> wf (tick 1 (set_pc (begin_inst s) ((pc s + 1) mod 65536))).
Proof. intros W. apply wf_tick, wf_set_pc; [exact W|apply Z.mod_pos_bound; lia]. Qed.

Lemma push_step G s d v : wf_cfg G -> wf s -> rom G (pc s) = 0xc0 -> rom G ((pc s + 1) mod 65536) = d ->
  rd (isize G) (view s) (oDir d) = Some v -> let p := (sfr s SP + 1) mod 256 in p < isize G ->
  let s1 := inst_step G s in
  wf s1 /\ sfr s1 SP = p /\ iram s1 p = v /\ (forall x, x <> p -> iram s1 x = iram s x) /\
  (forall x, x <> SP -> sfr s1 x = sfr s x) /\ (forall x, xram s1 x = xram s x) /\ pc s1 = (pc s + 2) mod 65536.
Proof.
  intros HG W Hop Hd Hv p Hlt s1. pose proof W as (Hp & _).
  unfold s1. rewrite (exec_at G s 0xc0 (instruction_c0 G) W Hop eq_refl).
  pose proof (wf_begin s W) as W0. set (t := tick 1 _) in *. unfold instruction_c0. rewrite fetch_eq by exact W0.
  change (pc t) with ((pc s + 1) mod 65536). rewrite Hd.
  set (u := set_pc t (((pc s + 1) mod 65536 + 1) mod 65536)).
  assert (Wu : wf u) by (apply wf_set_pc; [exact W0|apply Z.mod_pos_bound; lia]).
  assert (Er : c_read u (get_direct G d) = v /\ 0 <= v < 256) by exact (corr_read u _ _ v Wu (corr_dir G u d) Hv).
  destruct Er as [-> Hvb]. unfold push_byte.
  change (sfr u SP) with (sfr s SP). set (s2 := sfr_write u SP (sfr s SP + 1)).
  assert (W2 : wf s2) by (apply wf_sfr_write; exact Wu).
  assert (E2 : forall x, sfr s2 x = if x =? SP then p else sfr s x).
  { intros x. unfold s2. rewrite sfr_write_at by exact Wu. change (SP =? ACC) with false. rewrite andb_false_r. reflexivity. }
  rewrite (E2 SP), Z.eqb_refl. unfold iram_cell. rewrite (proj2 (Z.ltb_lt _ _) Hlt). cbn [c_write].
  destruct (sfr_write_frame u SP (sfr s SP + 1)) as (F1 & F2 & F3 & _). fold s2 in F1, F2, F3.
  split; [apply wf_tick, wf_set_iram; [exact W2|apply u8_range]|]. cbn [sfr iram xram pc tick set_iram].
  split; [rewrite E2, Z.eqb_refl; reflexivity|]. split; [rewrite put_same; apply u8_id; exact Hvb|].
  split; [intros x Hx; rewrite put_other by exact Hx; rewrite F2; reflexivity|].
  split; [intros x Hx; rewrite E2, (proj2 (Z.eqb_neq x SP)) by exact Hx; reflexivity|].
  split; [intros x; rewrite F3; reflexivity|].
  rewrite F1. cbn [pc set_pc u]. rewrite Z.add_mod_idemp_l by lia. f_equal. lia.
Qed.
Lemma pop_step G s e : wf_cfg G -> wf s -> rom G (pc s) = 0xd0 -> rom G ((pc s + 1) mod 65536) = e ->
  e <> SP -> sfr s SP < isize G -> (128 <= e \/ e < isize G) ->
  let s1 := inst_step G s in
  wf s1 /\ sfr s1 SP = (sfr s SP - 1) mod 256 /\ rd (isize G) (view s1) (oDir e) = Some (iram s (sfr s SP)) /\
  (forall x, x <> e -> iram s1 x = iram s x) /\ (128 <= e -> forall x, iram s1 x = iram s x) /\
  (forall x, x <> SP -> x <> e -> x <> PSW -> sfr s1 x = sfr s x) /\ (forall x, xram s1 x = xram s x) /\ pc s1 = (pc s + 2) mod 65536.
Proof.
  intros HG W Hop He Hne Hlt Hex s1. pose proof W as (Hp & HI & HS & _). pose proof HG as [HR _].
  assert (Heb : 0 <= e < 256) by (rewrite <- He; apply HR).
  unfold s1. rewrite (exec_at G s 0xd0 (instruction_d0 G) W Hop eq_refl).
  pose proof (wf_begin s W) as W0. set (t := tick 1 _) in *. unfold instruction_d0. cbv zeta. rewrite fetch_eq by exact W0.
  change (pc t) with ((pc s + 1) mod 65536). rewrite He. change (sfr t SP) with (sfr s SP).
  set (u := set_pc t (((pc s + 1) mod 65536 + 1) mod 65536)).
  assert (Wu : wf u) by (apply wf_set_pc; [exact W0|apply Z.mod_pos_bound; lia]).
  change (sfr u SP) with (sfr s SP). set (s2 := sfr_write u SP (sfr s SP - 1)).
  assert (W2 : wf s2) by (apply wf_sfr_write; exact Wu).
  assert (E2 : forall x, sfr s2 x = if x =? SP then (sfr s SP - 1) mod 256 else sfr s x).
  { intros x. unfold s2. rewrite sfr_write_at by exact Wu. change (SP =? ACC) with false. rewrite andb_false_r. reflexivity. }
  destruct (sfr_write_frame u SP (sfr s SP - 1)) as (F1 & F2 & F3 & _). fold s2 in F1, F2, F3.
  assert (Er : c_read s2 (iram_cell G (sfr s SP)) = iram s (sfr s SP)).
  { unfold iram_cell. rewrite (proj2 (Z.ltb_lt _ _) Hlt). cbn [c_read]. rewrite F2. reflexivity. }
  rewrite Er. set (v := iram s (sfr s SP)). assert (Hv : 0 <= v < 256) by apply HI.
  assert (Epc : pc s2 = (pc s + 2) mod 65536).
  { rewrite F1. cbn [pc set_pc u]. rewrite Z.add_mod_idemp_l by lia. f_equal. lia. }
  unfold get_direct. change 0x80 with 128. destruct (e <? 128) eqn:E128.
  - apply Z.ltb_lt in E128. assert (Hi : e < isize G) by (destruct HG as [_ [Hs|Hs]]; lia).
    unfold iram_cell. rewrite (proj2 (Z.ltb_lt _ _) Hi). cbn [c_write].
    split; [apply wf_tick, wf_set_iram; [exact W2|apply u8_range]|]. unfold rd. cbn [place_of].
    rewrite (proj2 (Z.ltb_lt _ _) E128). unfold ram_place. rewrite (proj2 (Z.ltb_lt _ _) Hi).
    cbn [rd_place view a_iram sfr iram xram pc tick set_iram].
    split; [rewrite E2, Z.eqb_refl; reflexivity|]. split; [rewrite put_same, u8_id by exact Hv; reflexivity|].
    split; [intros x Hx; rewrite put_other by exact Hx; rewrite F2; reflexivity|]. split; [lia|].
    split; [intros x Hx _ _; rewrite E2, (proj2 (Z.eqb_neq x SP)) by exact Hx; reflexivity|].
    split; [intros x; rewrite F3; reflexivity|exact Epc].
  - apply Z.ltb_ge in E128. cbn [c_write]. destruct (sfr_write_frame s2 e v) as (G1 & G2 & G3 & _).
    split; [apply wf_tick, wf_sfr_write; exact W2|]. unfold rd. cbn [place_of].
    rewrite (proj2 (Z.ltb_ge _ _) E128). cbn [rd_place view a_sfr sfr iram xram pc tick].
    rewrite G1, G2, G3.
    split; [rewrite sfr_write_at by exact W2; rewrite (proj2 (Z.eqb_neq SP e)) by congruence;
            change (SP =? PSW) with false; cbn [andb]; rewrite E2, Z.eqb_refl; reflexivity|].
    split; [rewrite sfr_write_at, Z.eqb_refl, u8_id by (exact W2 || exact Hv); reflexivity|].
    split; [intros x _; rewrite F2; reflexivity|]. split; [intros _ x; rewrite F2; reflexivity|].
    split; [|split; [intros x; rewrite F3; reflexivity|exact Epc]].
    intros x X1 X2 X3. rewrite sfr_write_at by exact W2. rewrite (proj2 (Z.eqb_neq x e)) by exact X2.
    rewrite (proj2 (Z.eqb_neq x PSW)) by exact X3. cbn [andb]. rewrite E2, (proj2 (Z.eqb_neq x SP)) by exact X1. reflexivity.
Qed.

(* ------------------------------------------------------------ bits *)
Lemma rd_wr_bit a b v b' : 0 <= b < 256 -> 0 <= b' < 256 ->
  rd_bit (wr_bit a b v) b' = if b' =? b then v else rd_bit a b'.
Proof.
  intros Hb Hb'. unfold rd_bit, wr_bit, bit_place.
  destruct (b <? 128) eqn:L, (b' <? 128) eqn:L'; cbn [rd_place with_iram with_sfr a_iram a_sfr].
  - unfold store. destruct (32 + b' / 8 =? 32 + b / 8) eqn:E.
    + apply Z.eqb_eq in E. rewrite <- E. unfold bit. rewrite set_bit_spec by lia.
      destruct (b' =? b) eqn:E2; [apply Z.eqb_eq in E2; subst b'; rewrite Z.eqb_refl; reflexivity|].
      apply Z.eqb_neq in E2. rewrite (proj2 (Z.eqb_neq (b' mod 8) (b mod 8))) by lia. reflexivity.
    + apply Z.eqb_neq in E. rewrite (proj2 (Z.eqb_neq b' b)) by (intros ->; lia). reflexivity.
  - rewrite (proj2 (Z.eqb_neq b' b)) by lia. reflexivity.
  - rewrite (proj2 (Z.eqb_neq b' b)) by lia. reflexivity.
  - unfold store. destruct (8 * (b' / 8) =? 8 * (b / 8)) eqn:E.
    + apply Z.eqb_eq in E. rewrite <- E. unfold bit. rewrite set_bit_spec by lia.
      destruct (b' =? b) eqn:E2; [apply Z.eqb_eq in E2; subst b'; rewrite Z.eqb_refl; reflexivity|].
      apply Z.eqb_neq in E2. rewrite (proj2 (Z.eqb_neq (b' mod 8) (b mod 8))) by lia. reflexivity.
    + apply Z.eqb_neq in E. rewrite (proj2 (Z.eqb_neq b' b)) by (intros ->; lia). reflexivity.
Qed.
Lemma rd_bit_like a a' b : same_but_P a a' -> 0 <= b < 256 -> b <> 0xd0 -> rd_bit a b = rd_bit a' b.
Proof.
  intros (_ & H2 & H3 & H4 & _) Hb N. unfold rd_bit, bit_place. destruct (b <? 128) eqn:L; cbn [rd_place].
  - rewrite H2. reflexivity.
  - destruct (Z.eq_dec (8 * (b / 8)) rPSW) as [E|E].
    + rewrite E. apply H4. unfold rPSW in E. lia.
    + rewrite H3 by exact E. reflexivity.
Qed.

Definition bit_op (op : Z) : option (bool -> bool -> bool) :=   (* carry, old value -> new value *)
  match op with
  | 0xd2 => Some (fun _ _ => true) | 0xc2 => Some (fun _ _ => false)
  | 0xb2 => Some (fun _ x => negb x) | 0x92 => Some (fun c _ => c) | _ => None
  end.
Lemma fixP_sfr a x : x <> rPSW -> a_sfr (fixP a) x = a_sfr a x.
Proof. intros H. unfold fixP, setflag, with_sfr. cbn [a_sfr]. apply store_other. exact H. Qed.
Lemma fixP_like a : same_but_P (fixP a) a.
Proof.
  unfold same_but_P. split; [reflexivity|]. split; [reflexivity|]. split; [intros x Hx; apply fixP_sfr; exact Hx|].
  split; [|reflexivity]. intros n Hn. unfold fixP. rewrite bit_flag by lia. rewrite (proj2 (Z.eqb_neq n 0)) by lia. reflexivity.
Qed.
Lemma sbP_trans a b c : same_but_P a b -> same_but_P b c -> same_but_P a c.
Proof.
  intros (A1 & A2 & A3 & A4 & A5) (B1 & B2 & B3 & B4 & B5). unfold same_but_P.
  split; [congruence|]. split; [intros; rewrite A2; auto|]. split; [intros; rewrite A3; auto|].
  split; [intros; rewrite A4; auto|intros; rewrite A5; auto].
Qed.
Lemma bit_step G s b f : wf_cfg G -> ltr G = true -> wf s -> bit_op (rom G (pc s)) = Some f ->
  rom G ((pc s + 1) mod 65536) = b -> let s1 := inst_step G s in
  wf s1 /\ same_but_P (view s1) (wr_bit (with_pc (view s) (pc s + 2)) b (f (CY (view s)) (rd_bit (view s) b))).
Proof.
  intros HG HL W Ho Hb s1. pose proof HG as [HR _].
  assert (K : exists ins cyc, decode (rom G (pc s)) (rom G ((pc s + 1) mod 65536)) (rom G ((pc s + 2) mod 65536)) = Some (ins, 2, cyc) /\
     effect (rom G) (isize G) ins (with_pc (view s) (pc s + 2)) = Some (wr_bit (with_pc (view s) (pc s + 2)) b (f (CY (view s)) (rd_bit (view s) b))) /\
     differs ins (with_pc (view s) (pc s + 2)) = false).
  { rewrite Hb.
    assert (C : rom G (pc s) = 0xd2 \/ rom G (pc s) = 0xc2 \/ rom G (pc s) = 0xb2 \/ rom G (pc s) = 0x92).
    { set (Q := fun op => match bit_op op with Some _ => (op =? 0xd2) || (op =? 0xc2) || (op =? 0xb2) || (op =? 0x92) | None => true end).
      assert (HQ : Q (rom G (pc s)) = true) by (generalize (HR (pc s)); generalize (rom G (pc s)); apply sweep_byte; vm_compute; reflexivity).
      unfold Q in HQ. rewrite Ho in HQ. lia. }
    destruct C as [E | [E | [E | E]]]; rewrite E in *; cbn [bit_op] in Ho; apply some_eq in Ho; subst f.
    - exists (SetbB b), 1. repeat split.
    - exists (ClrB b), 1. repeat split.
    - exists (CplB b), 1. repeat split.
    - exists (MovBC b), 2. repeat split. }
  destruct K as (ins & cyc & K1 & K2 & K3). destruct (step_known G s ins 2 cyc _ HG HL W K1 K2 K3) as (W1 & R1 & _).
  split; [exact W1|]. apply (sbP_trans _ _ _ R1). apply fixP_like.
Qed.

(* ------------------------------------------------------------ length *)
Lemma effect_pc G ins a a' : transfers ins = false -> effect (rom G) (isize G) ins a = Some a' -> a_pc a' = a_pc a.
Proof.
  intros Ht E.
  assert (Hw : forall a p v a', wr_place a p v = Some a' -> a_pc a' = a_pc a).
  { intros x p v x' Ex. destruct p; cbn [wr_place] in Ex; try discriminate; apply some_eq in Ex; subst x'; reflexivity. }
  destruct ins; try discriminate Ht; cbn [effect] in E; cbv zeta in E;
    repeat match type of E with
    | obind ?e _ = Some _ => let x := fresh "x" in let Ex := fresh "Ex" in destruct e as [x|] eqn:Ex; cbn [obind] in E; [|discriminate E]
    end;
    try (apply some_eq in E; subst a'; try reflexivity);
    try (unfold wr in *; repeat match goal with H : wr_place _ _ _ = Some _ |- _ => apply Hw in H end;
         cbn [setA with_sfr a_pc drop] in *; congruence).
  - destruct (_ =? 0); apply some_eq in E; subst a'; reflexivity.
  - unfold wr_bit. destruct (bit_place b); reflexivity.
  - unfold wr_bit. destruct (bit_place b); reflexivity.
  - unfold wr_bit. destruct (bit_place b); reflexivity.
  - unfold wr_bit. destruct (bit_place b); reflexivity.
Qed.

Definition tbl_len (op : Z) : Z := match lookup disass_51 op with Some e => d_length e | None => 1 end.
Definition tbl_call (op : Z) : bool := match lookup disass_51 op with Some e => d_call e | None => false end.
Lemma len_ok op b1 b2 ins len cyc : 0 <= op < 256 -> decode op b1 b2 = Some (ins, len, cyc) ->
  tbl_len op = len /\ tbl_call op = is_call_ins ins && negb (op =? 0x11).
Proof.
  intros Ho. revert ins len cyc.
  assert (H : Forall (fun op => forall ins len cyc, decode op b1 b2 = Some (ins, len, cyc) ->
     tbl_len op = len /\ tbl_call op = is_call_ins ins && negb (op =? 0x11)) (zrange 256)).
  { let l := eval vm_compute in (zrange 256) in change (zrange 256) with l.
    repeat (apply Forall_cons; [intros ins len cyc E; (discriminate E || (injection E as <- <- <-; split; reflexivity))|]). constructor. }
  rewrite Forall_forall in H. apply H. apply in_zrange. lia.
Qed.
