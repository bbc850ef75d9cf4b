From Verif Require Import Base TmrModel TmrSpec TmrProofs.

Lemma count_upd m i s : m = 0 \/ m = 1 \/ m = 2 -> bytes s -> count m i s = upd i (law m (tl i s) (th i s) 1) s.
Proof.
  intros M (B1 & B2 & B3 & B4 & B5 & B6 & B7 & B8). assert (T : byte (tl i s) /\ byte (th i s)) by (destruct i; split; assumption). destruct T as [BL BH].
  rewrite law1 by assumption. destruct s as [tm tc l0 h0 l1 h1 p pn ta tb o0 o1]. cbn [tmod tcon tl0 th0 tl1 th1 p3 pins a b ov0 ov1] in *. unfold byte in *.
  assert (TC : Z.lor tc (mask_TF i) mod 256 = Z.lor tc (mask_TF i)) by (apply Z.mod_small, or_byte; [exact B2|apply tf_byte]).
  destruct M as [-> | [-> | ->]]; unfold count; cbn [Z.eqb Pos.eqb]; unfold count0, count1, count2, set_TF.
  - destruct i; cbn [tl th set_tl set_th set_tcon overflow tmod tcon tl0 th0 tl1 th1 p3 pins a b ov0 ov1 upd] in *; rewrite land31.
    + assert (E : ((l1 + 1) mod 256) mod 32 = (l1 + 1) mod 32) by (change 256 with (32 * 8); rewrite Z.rem_mul_r by lia; rewrite (Z.mul_comm 32), Z.mod_add by lia; apply Z.mod_mod; lia). rewrite E.
      destruct (Z.eqb_spec ((l1 + 1) mod 32) 0) as [E0|E0]; [|assert (l1 <> 255) by (intros ->; apply E0; reflexivity); rewrite (Z.mod_small (l1 + 1) 256) by lia; cbn [upd Z.ltb Z.compare]; rewrite Z.add_0_r; reflexivity].
      change (0 mod 256) with 0. destruct ((h1 + 1) mod 256 =? 0); cbn [upd Z.ltb Z.compare]; [rewrite TC|rewrite Z.add_0_r]; reflexivity.
    + assert (E : ((l0 + 1) mod 256) mod 32 = (l0 + 1) mod 32) by (change 256 with (32 * 8); rewrite Z.rem_mul_r by lia; rewrite (Z.mul_comm 32), Z.mod_add by lia; apply Z.mod_mod; lia). rewrite E.
      destruct (Z.eqb_spec ((l0 + 1) mod 32) 0) as [E0|E0]; [|assert (l0 <> 255) by (intros ->; apply E0; reflexivity); rewrite (Z.mod_small (l0 + 1) 256) by lia; cbn [upd Z.ltb Z.compare]; rewrite Z.add_0_r; reflexivity].
      change (0 mod 256) with 0. destruct ((h0 + 1) mod 256 =? 0); cbn [upd Z.ltb Z.compare]; [rewrite TC|rewrite Z.add_0_r]; reflexivity.
  - destruct i; cbn [tl th set_tl set_th set_tcon overflow tmod tcon tl0 th0 tl1 th1 p3 pins a b ov0 ov1 upd] in *.
    + destruct (Z.eqb_spec ((l1 + 1) mod 256) 0) as [E0|E0]; [|assert (l1 <> 255) by (intros ->; apply E0; reflexivity); rewrite (Z.mod_small (l1 + 1) 256) by lia; cbn [upd Z.ltb Z.compare]; rewrite Z.add_0_r; reflexivity].
      rewrite E0. destruct ((h1 + 1) mod 256 =? 0); cbn [upd Z.ltb Z.compare]; [rewrite TC|rewrite Z.add_0_r]; reflexivity.
    + destruct (Z.eqb_spec ((l0 + 1) mod 256) 0) as [E0|E0]; [|assert (l0 <> 255) by (intros ->; apply E0; reflexivity); rewrite (Z.mod_small (l0 + 1) 256) by lia; cbn [upd Z.ltb Z.compare]; rewrite Z.add_0_r; reflexivity].
      rewrite E0. destruct ((h0 + 1) mod 256 =? 0); cbn [upd Z.ltb Z.compare]; [rewrite TC|rewrite Z.add_0_r]; reflexivity.
  - destruct i; cbn [tl th set_tl set_th set_tcon overflow tmod tcon tl0 th0 tl1 th1 p3 pins a b ov0 ov1 upd] in *.
    + destruct (Z.eqb_spec ((l1 + 1) mod 256) 0) as [E0|E0]; [|assert (l1 <> 255) by (intros ->; apply E0; reflexivity); rewrite (Z.mod_small (l1 + 1) 256) by lia; cbn [upd Z.ltb Z.compare]; rewrite Z.add_0_r; reflexivity].
      rewrite (Z.mod_small h1) by lia. cbn [upd Z.ltb Z.compare]. rewrite TC. reflexivity.
    + destruct (Z.eqb_spec ((l0 + 1) mod 256) 0) as [E0|E0]; [|assert (l0 <> 255) by (intros ->; apply E0; reflexivity); rewrite (Z.mod_small (l0 + 1) 256) by lia; cbn [upd Z.ltb Z.compare]; rewrite Z.add_0_r; reflexivity].
      rewrite (Z.mod_small h0) by lia. cbn [upd Z.ltb Z.compare]. rewrite TC. reflexivity.
Qed.
Lemma upd_bytes i l h o s : bytes s -> byte l -> byte h -> bytes (upd i (l, h, o) s).
Proof.
  intros (B1 & B2 & B3 & B4 & B5 & B6 & B7 & B8) L H. assert (T : byte (if 0 <? o then Z.lor (tcon s) (mask_TF i) else tcon s)) by (destruct (0 <? o); [apply or_byte; [exact B2|apply tf_byte]|exact B2]).
  destruct i; unfold upd, bytes; cbn [tmod tcon tl0 th0 tl1 th1 p3 pins a b ov0 ov1]; auto 10.
Qed.
Lemma lor_twice x m : Z.lor (Z.lor x m) m = Z.lor x m.
Proof. rewrite <- Z.lor_assoc, Z.lor_diag. reflexivity. Qed.
Lemma upd_upd i l h o l2 h2 o2 s : 0 <= o -> 0 <= o2 -> upd i (l2, h2, o2) (upd i (l, h, o) s) = upd i (l2, h2, o + o2) s.
Proof.
  intros O O2. destruct i; unfold upd; cbn [tmod tcon tl0 th0 tl1 th1 p3 pins a b ov0 ov1]; rewrite Z.add_assoc;
  (destruct (Z.ltb_spec 0 o), (Z.ltb_spec 0 o2); [replace (0 <? o + o2) with true by lia; rewrite lor_twice|replace (0 <? o + o2) with true by lia|replace (0 <? o + o2) with true by lia|replace (0 <? o + o2) with false by lia]); reflexivity.
Qed.
Lemma upd_none i s : upd i (tl i s, th i s, 0) s = s.
Proof. destruct s, i; cbn; rewrite Z.add_0_r; reflexivity. Qed.
Lemma upd_tl i l h o s : tl i (upd i (l, h, o) s) = l.
Proof. destruct i; reflexivity. Qed.
Lemma upd_th i l h o s : th i (upd i (l, h, o) s) = h.
Proof. destruct i; reflexivity. Qed.
Lemma times_upd m i n : forall s, m = 0 \/ m = 1 \/ m = 2 -> bytes s -> times n (count m i) s = upd i (law m (tl i s) (th i s) (Z.of_nat n)) s.
Proof.
  induction n as [|n IH]; intros s M B.
  - cbn [times]. change (Z.of_nat 0) with 0. rewrite law0 by (destruct i; apply B || exact M). symmetry. apply upd_none.
  - cbn [times]. rewrite count_upd by assumption. destruct B as (B1 & B2 & B3 & B4 & B5 & B6 & B7 & B8). assert (BL : byte (tl i s)) by (destruct i; assumption). assert (BH : byte (th i s)) by (destruct i; assumption).
    pose proof (law_bytes m (tl i s) (th i s) 1 M BL BH ltac:(lia)) as LB. replace (Z.of_nat (S n)) with (1 + Z.of_nat n) by lia. rewrite (law_add m _ _ 1 (Z.of_nat n) M BL BH) by lia.
    destruct (law m (tl i s) (th i s) 1) as [[l h] o] eqn:E. destruct LB as (L1 & L2 & L3). rewrite IH; [|exact M|apply upd_bytes; [repeat split; apply B1 || apply B2 || apply B3 || apply B4 || apply B5 || apply B6 || apply B7 || apply B8|exact L1|exact L2]].
    rewrite upd_tl, upd_th. pose proof (law_bytes m l h (Z.of_nat n) M L1 L2 ltac:(lia)) as LB2. destruct (law m l h (Z.of_nat n)) as [[l2 h2] o2]. destruct LB2 as (_ & _ & O2). apply upd_upd; lia.
Qed.

(** the pulses of one cycle *)
Definition going (i : bool) (s : st) : bool := run_bit i (tcon s) && (negb (gate_bit i (tmod s)) || int_pin i (level s)).
Definition npulse (i : bool) (s : st) : Z := if going i s then (if ct_bit i (tmod s) then T_edge (tmr i s) else 1) else 0.
Definition clear_edge (i : bool) (s : st) : st :=
  let t := tmr i s in set_tmr i (mkTm (mode t) (GATE t) (CT t) (TR t) (INT t) (if going i s && ct_bit i (tmod s) then 0 else T_edge t)) s.
Lemma clear_same i s : (if going i s && ct_bit i (tmod s) then 0 else T_edge (tmr i s)) = T_edge (tmr i s) -> clear_edge i s = s.
Proof. intros E. unfold clear_edge. rewrite E. destruct s as [tm tc l0 h0 l1 h1 p pn [? ? ? ? ? ?] [? ? ? ? ? ?] o0 o1], i; reflexivity. Qed.
Lemma times_zero f s : times (Z.to_nat 0) f s = s.
Proof. reflexivity. Qed.
Lemma counted_ok i f s : okt i s -> counted i f s = times (Z.to_nat (npulse i s)) f (clear_edge i s).
Proof.
  intros (E1 & E2 & E3 & E4 & E5 & E6). unfold counted, pulses. rewrite E2, E3, E4, E5. unfold npulse. destruct (run_bit i (tcon s)) eqn:R; cbn [negb].
  - destruct (gate_bit i (tmod s) && negb (int_pin i (level s))) eqn:G.
    + assert (GO : going i s = false) by (unfold going; rewrite R; apply andb_prop in G; destruct G as [-> G]; apply negb_true_iff in G; rewrite G; reflexivity).
      rewrite GO. rewrite clear_same by (rewrite GO; reflexivity). reflexivity.
    + assert (GO : going i s = true) by (unfold going; rewrite R; destruct (gate_bit i (tmod s)), (int_pin i (level s)); try reflexivity; discriminate).
      rewrite GO. destruct (ct_bit i (tmod s)) eqn:C.
      * unfold clear_edge. rewrite GO, C. cbn [andb]. rewrite E2, E3, E4, E5, ?C, ?R. reflexivity.
      * rewrite clear_same by (rewrite GO, C; reflexivity). reflexivity.
  - assert (GO : going i s = false) by (unfold going; rewrite R; reflexivity). rewrite GO. rewrite clear_same by (rewrite GO; reflexivity). reflexivity.
Qed.
Lemma clear_bytes i s : bytes s -> bytes (clear_edge i s).
Proof. destruct i; exact id. Qed.
Lemma clear_tl i s : tl i (clear_edge i s) = tl i s.
Proof. destruct i; reflexivity. Qed.
Lemma clear_th i s : th i (clear_edge i s) = th i s.
Proof. destruct i; reflexivity. Qed.
Lemma npulse_nonneg i s : okt i s -> 0 <= npulse i s.
Proof. intros (_ & _ & _ & _ & _ & E). unfold npulse. destruct (going i s), (ct_bit i (tmod s)); lia. Qed.
Lemma tick_law i s : inv s -> let m := selected i (tmod s) in m = 0 \/ m = 1 \/ m = 2 ->
  tick i s = upd i (law m (tl i s) (th i s) (npulse i s)) (clear_edge i s).
Proof.
  intros (O0 & O1 & B) m M. assert (O : okt i s) by (destruct i; assumption). pose proof (npulse_nonneg i s O) as NP. pose proof O as (E1 & _).
  assert (T : tick i s = counted i (count m i) s).
  { unfold tick, count. rewrite E1. fold m. destruct M as [E|[E|E]]; rewrite E; reflexivity. }
  rewrite T, counted_ok by exact O. rewrite times_upd by (exact M || apply clear_bytes, B). rewrite clear_tl, clear_th, Z2Nat.id by exact NP. reflexivity.
Qed.

(** ** Mode 3 of timer 0 *)
Lemma count3_upd s : bytes s -> count3 s = upd false ((tl0 s + 1) mod 256, th0 s, (tl0 s + 1) / 256) s.
Proof.
  intros (B1 & B2 & B3 & B4 & B5 & B6 & B7 & B8). unfold byte in *. destruct s as [tm tc l0 h0 l1 h1 p pn ta tb o0 o1]. cbn [tmod tcon tl0 th0 tl1 th1 p3 pins a b ov0 ov1] in *.
  assert (TC : Z.lor tc (mask_TF false) mod 256 = Z.lor tc (mask_TF false)) by (apply Z.mod_small, or_byte; [exact B2|apply tf_byte]).
  unfold count3, set_TF. cbn [tl th set_tl set_th set_tcon overflow tmod tcon tl0 th0 tl1 th1 p3 pins a b ov0 ov1 upd].
  destruct (Z.eq_dec l0 255) as [-> | N].
  - change ((255 + 1) mod 256) with 0. change ((255 + 1) / 256) with 1. cbn [Z.eqb Z.ltb Z.compare]. rewrite TC. reflexivity.
  - rewrite (Z.mod_small (l0 + 1)), (Z.div_small (l0 + 1)) by lia. replace (l0 + 1 =? 0) with false by lia. cbn [Z.ltb Z.compare]. rewrite Z.add_0_r. reflexivity.
Qed.
Lemma times3_upd n : forall s, bytes s -> times n count3 s = upd false ((tl0 s + Z.of_nat n) mod 256, th0 s, (tl0 s + Z.of_nat n) / 256) s.
Proof.
  induction n as [|n IH]; intros s B.
  - cbn [times]. change (Z.of_nat 0) with 0. rewrite Z.add_0_r. destruct B as (_ & _ & B & _). rewrite Z.mod_small, Z.div_small by exact B. symmetry. apply (upd_none false).
  - cbn [times]. rewrite count3_upd by exact B. pose proof B as (_ & _ & BL & BH & _). rewrite IH by (apply upd_bytes; [exact B|apply byte_mod|exact BH]).
    set (s1 := upd false ((tl0 s + 1) mod 256, th0 s, (tl0 s + 1) / 256) s). change (tl0 s1) with ((tl0 s + 1) mod 256). change (th0 s1) with (th0 s). unfold s1.
    unfold byte in *. assert (0 <= (tl0 s + 1) / 256) by (apply Z.div_pos; lia). pose proof (Z.mod_pos_bound (tl0 s + 1) 256 ltac:(lia)). assert (0 <= ((tl0 s + 1) mod 256 + Z.of_nat n) / 256) by (apply Z.div_pos; lia).
    rewrite upd_upd by assumption. pose proof (Z.div_mod (tl0 s + 1) 256 ltac:(lia)) as D. replace (tl0 s + Z.of_nat (S n)) with ((tl0 s + 1) mod 256 + Z.of_nat n + (tl0 s + 1) / 256 * 256) by lia.
    rewrite Z.mod_add, Z.div_add by lia. f_equal. f_equal. lia.
Qed.
Definition updh (h : Z) (o : Z) (s : st) : st :=
  mkSt (tmod s) (if 0 <? o then Z.lor (tcon s) (mask_TF true) else tcon s) (tl0 s) h (tl1 s) (th1 s) (p3 s) (pins s) (a s) (b s) (ov0 s) (ov1 s).
Lemma do_th_ok s : bytes s -> do_th s = if run_bit true (tcon s) then updh ((th0 s + 1) mod 256) ((th0 s + 1) / 256) s else s.
Proof.
  intros (B1 & B2 & B3 & B4 & B5 & B6 & B7 & B8). unfold do_th. rewrite hTR. destruct (run_bit true (tcon s)); [|reflexivity]. destruct s as [tm tc l0 h0 l1 h1 p pn ta tb o0 o1]. cbn [tmod tcon tl0 th0 tl1 th1 p3 pins a b ov0 ov1] in *. unfold byte in *.
  assert (TC : Z.lor tc (mask_TF true) mod 256 = Z.lor tc (mask_TF true)) by (apply Z.mod_small, or_byte; [exact B2|apply tf_byte]).
  unfold set_TF, updh. cbn [tl th set_tl set_th set_tcon overflow tmod tcon tl0 th0 tl1 th1 p3 pins a b ov0 ov1].
  destruct (Z.eq_dec h0 255) as [-> | N].
  - change ((255 + 1) mod 256) with 0. change ((255 + 1) / 256) with 1. cbn [Z.eqb Z.ltb Z.compare]. unfold set_tcon. rewrite TC. reflexivity.
  - rewrite (Z.mod_small (h0 + 1)), (Z.div_small (h0 + 1)) by lia. replace (h0 + 1 =? 0) with false by lia. cbn [Z.ltb Z.compare]. reflexivity.
Qed.
Lemma tick_mode3 s : inv s -> selected false (tmod s) = 3 ->
  let x := upd false ((tl0 s + npulse false s) mod 256, th0 s, (tl0 s + npulse false s) / 256) (clear_edge false s) in
  tick false s = if run_bit true (tcon s) then updh ((th0 s + 1) mod 256) ((th0 s + 1) / 256) x else x.
Proof.
  intros (O0 & O1 & B) M. cbv zeta. unfold tick. pose proof O0 as (E1 & _). rewrite E1, M. cbn [Z.eqb Pos.eqb]. rewrite counted_ok by exact O0. rewrite times3_upd by (apply clear_bytes, B).
  rewrite Z2Nat.id by (apply npulse_nonneg, O0). change (tl0 (clear_edge false s)) with (tl0 s). change (th0 (clear_edge false s)) with (th0 s).
  set (x := upd false ((tl0 s + npulse false s) mod 256, th0 s, (tl0 s + npulse false s) / 256) (clear_edge false s)). rewrite do_th_ok by (apply upd_bytes; [apply clear_bytes, B|apply byte_mod|apply B]).
  assert (R : run_bit true (tcon x) = run_bit true (tcon s)) by (unfold x, upd; cbn [tcon]; destruct (0 <? _); [rewrite run_TF|]; reflexivity). rewrite R. reflexivity.
Qed.
Lemma tick1_mode3 s : inv s -> selected true (tmod s) = 3 -> tick true s = s.
Proof. intros (O0 & O1 & B) M. unfold tick. pose proof O1 as (E1 & _). rewrite E1, M. reflexivity. Qed.
Lemma sel_range i v : 0 <= selected i v < 4.
Proof. apply Z.mod_pos_bound. lia. Qed.
