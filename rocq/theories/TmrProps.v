(** C89-C92: timers 0 and 1 of the MCS51. *)
From Verif Require Import Base TmrModel TmrSpec TmrObs TmrProofs TmrProofs2 TmrProofs3 TmrProofs4.

(** C89: timers.  After any history since power on: while nobody writes the registers of
    the timers, a timer (C/T=0) counts as the law of its mode says, one pulse per machine
    cycle in which it runs, whatever happens on port 3; TMOD and the other bits of TCON stay *)
Theorem C89_timer_counts : forall s l i, reached s -> Forall hands_off l -> ct_bit i (tmod s) = false ->
  let e := events (p3 s) (pins s) l in let s' := run s l in
  (tl i s', th i s', ov i s' - ov i s) =
    count_law i (tcon s) (selected i (tmod s)) (tl i s) (th i s) (fst (pulses_of i (tmod s) (tcon s) e (port_level s) 0 0)) (cycles e) /\
  tmod s' = tmod s /\ (forall j, j <> 5 -> j <> 7 -> Z.testbit (tcon s') j = Z.testbit (tcon s) j).
Proof.
  intros s l i R F C. cbv zeta. pose proof (segment i l s (reached_inv s R) F) as S. cbv zeta in S. destruct S as [S1 S2 S3 S4 S5]. split; [|split; [exact S2|exact S3]]. rewrite S4. change (level s) with (port_level s). f_equal.
  assert (P : forall e lv p q n, fst (pulses_of i (tmod s) (tcon s) e lv p n) = fst (pulses_of i (tmod s) (tcon s) e lv q n)).
  { induction e as [|[|v] e IH]; intros lv p q n; cbn [pulses_of]; [reflexivity| |apply IH]. rewrite C. destruct (_ && _); apply IH. }
  apply P.
Qed.
(** free running: exactly the machine cycles *)
Theorem C89_free_running : forall s l i, reached s -> Forall hands_off l -> ct_bit i (tmod s) = false -> gate_bit i (tmod s) = false -> run_bit i (tcon s) = true ->
  let e := events (p3 s) (pins s) l in let s' := run s l in
  (tl i s', th i s', ov i s' - ov i s) = count_law i (tcon s) (selected i (tmod s)) (tl i s) (th i s) (cycles e) (cycles e).
Proof.
  intros s l i R F C G T. cbv zeta. destruct (C89_timer_counts s l i R F C) as [E _]. rewrite E. rewrite pulses_timer by assumption. reflexivity.
Qed.
(** stopped: nothing but TH0 of mode 3, which belongs to timer 1's run bit *)
Theorem C89_stopped : forall s l i, reached s -> Forall hands_off l -> run_bit i (tcon s) = false -> (selected false (tmod s) = 3 -> i = true) ->
  let s' := run s l in tl i s' = tl i s /\ th i s' = th i s /\ ov i s' = ov i s.
Proof.
  intros s l i R F T M. cbv zeta. pose proof (segment i l s (reached_inv s R) F) as S. cbv zeta in S. destruct S as [S1 S2 S3 S4 S5]. rewrite pulses_stopped in S4 by exact T. assert (E : count_law i (tcon s) (selected i (tmod s)) (tl i s) (th i s) 0 (cycles (events (p3 s) (pins s) l)) = (tl i s, th i s, 0)).
  { unfold count_law. pose proof (sel_range i (tmod s)). destruct (Z.eqb_spec (selected i (tmod s)) 3) as [X|X]; [|apply law0; [lia|apply byte_tl, reached_inv, R|apply byte_th, reached_inv, R]]. destruct i; [reflexivity|]. specialize (M X). discriminate. }
  rewrite E in S4. pose proof (f_equal (fun t => fst (fst t)) S4) as D1. pose proof (f_equal (fun t => snd (fst t)) S4) as D2. pose proof (f_equal snd S4) as D3. cbn [fst snd] in D1, D2, D3. repeat split; lia.
Qed.
Print Assumptions C89_timer_counts.
Print Assumptions C89_free_running.
Print Assumptions C89_stopped.

(** C90: the overflow flags while nobody writes: TF0 is set exactly if timer 0 overflowed,
    TF1 exactly if timer 1 overflowed or TH0 did in mode 3; they are never cleared *)
Theorem C90_flags : forall s l, reached s -> Forall hands_off l -> let s' := run s l in let C := cycles (events (p3 s) (pins s) l) in
  Z.testbit (tcon s') 5 = Z.testbit (tcon s) 5 || (ov0 s <? ov0 s') /\
  Z.testbit (tcon s') 7 = Z.testbit (tcon s) 7 || (ov1 s <? ov1 s') || ((selected false (tmod s) =? 3) && run_bit true (tcon s) && (256 <=? th0 s + C)).
Proof. intros s l R F. exact (flags l s (reached_inv s R) F). Qed.
(** when a free running 16 bit timer raises its flag *)
Theorem C90_sixteen_bit_period : forall s l i, reached s -> Forall hands_off l -> selected i (tmod s) = 1 -> selected false (tmod s) <> 3 -> ct_bit i (tmod s) = false -> gate_bit i (tmod s) = false -> run_bit i (tcon s) = true ->
  Z.testbit (tcon s) (TF_nr i) = false ->
  (Z.testbit (tcon (run s l)) (TF_nr i) = true <-> 65536 - (th i s * 256 + tl i s) <= cycles (events (p3 s) (pins s) l)).
Proof.
  intros s l i R F M N3 C G T Z0. pose proof (C89_free_running s l i R F C G T) as E. cbv zeta in E. rewrite M in E. unfold count_law, law in E. cbn [Z.eqb Pos.eqb] in E. pose proof (f_equal snd E) as D. cbn [snd] in D.
  pose proof (flags l s (reached_inv s R) F) as [F0 F1]. unfold th_flag in F1. replace (selected false (tmod s) =? 3) with false in F1 by lia. cbn [andb] in F1. rewrite orb_false_r in F1.
  pose proof (byte_tl i s (reached_inv s R)) as BL. pose proof (byte_th i s (reached_inv s R)) as BH. unfold byte in *. set (c := cycles (events (p3 s) (pins s) l)) in *. pose proof (cycles_nonneg (events (p3 s) (pins s) l)) as CN. fold c in CN.
  assert (K : (ov i s <? ov i (run s l)) = (65536 - (th i s * 256 + tl i s) <=? c)).
  { replace (ov i (run s l)) with (ov i s + (th i s * 256 + tl i s + c) / 65536) by lia. destruct (Z.leb_spec (65536 - (th i s * 256 + tl i s)) c) as [H|H].
    - assert (1 <= (th i s * 256 + tl i s + c) / 65536) by (apply Z.div_le_lower_bound; lia). lia.
    - rewrite Z.div_small by lia. lia. }
  assert (TF : Z.testbit (tcon (run s l)) (TF_nr i) = (ov i s <? ov i (run s l))) by (destruct i; cbn [TF_nr ov] in *; [rewrite F1, Z0|rewrite F0, Z0]; reflexivity).
  rewrite TF, K. apply Z.leb_le.
Qed.
Print Assumptions C90_flags.
Print Assumptions C90_sixteen_bit_period.

(** C91: counters.  The edges a counter has seen and not counted yet *)
Definition waiting (i : bool) (s : st) : Z := T_edge (tmr i s).
(** the waiting edges of a counter become pulses in the next cycle in which it runs; the
    edges are the rising ones of T0 / T1 *)
Theorem C91_counter_counts : forall s l i, reached s -> Forall hands_off l -> ct_bit i (tmod s) = true -> (i = true -> selected true (tmod s) <> 3) ->
  let e := events (p3 s) (pins s) l in let s' := run s l in
  let x := pulses_of i (tmod s) (tcon s) e (port_level s) (waiting i s) 0 in
  (tl i s', th i s', ov i s' - ov i s) = count_law i (tcon s) (selected i (tmod s)) (tl i s) (th i s) (fst x) (cycles e) /\ waiting i s' = snd x.
Proof.
  intros s l i R F C M. cbv zeta. pose proof (segment i l s (reached_inv s R) F) as S. cbv zeta in S. destruct S as [S1 S2 S3 S4 S5]. split; [exact S4|exact (S5 M)].
Qed.
(** running and not gated: every rising edge is counted or still waits *)
Theorem C91_no_edge_lost : forall s l i, reached s -> Forall hands_off l -> ct_bit i (tmod s) = true -> (i = true -> selected true (tmod s) <> 3) -> gate_bit i (tmod s) = false -> run_bit i (tcon s) = true ->
  let e := events (p3 s) (pins s) l in let s' := run s (l ++ [Cycle]) in
  (tl i s', th i s', ov i s' - ov i s) =
    count_law i (tcon s) (selected i (tmod s)) (tl i s) (th i s) (waiting i s + rises i e (port_level s)) (cycles e + 1) /\ waiting i s' = 0.
Proof.
  intros s l i R F C M G T. cbv zeta. assert (F' : Forall hands_off (l ++ [Cycle])) by (apply Forall_app; split; [exact F|constructor; [exact Logic.I|constructor]]).
  destruct (C91_counter_counts s (l ++ [Cycle]) i R F' C M) as [A B].
  assert (EV : forall l p w, Forall hands_off l -> events p w (l ++ [Cycle]) = events p w l ++ [EvCycle]).
  { induction l0 as [|o l0 IH]; intros p w H; [reflexivity|]. inversion H; subst. destruct o; try contradiction; cbn [app events]; rewrite IH by assumption; reflexivity. }
  rewrite (EV l _ _ F) in A, B. set (e := events (p3 s) (pins s) l) in *.
  assert (CY : cycles (e ++ [EvCycle]) = cycles e + 1) by (clear; induction e as [|[|v] e IH]; cbn [app cycles]; lia).
  assert (PU : forall e lv p n, pulses_of i (tmod s) (tcon s) (e ++ [EvCycle]) lv p n = (n + p + rises i e lv, 0)).
  { clear - C G T. induction e as [|[|v] e IH]; intros lv p n; cbn [app pulses_of rises].
    - rewrite T, G, C. cbn [negb orb andb]. f_equal. lia.
    - rewrite T, G, C. cbn [negb orb andb]. rewrite IH. f_equal. lia.
    - rewrite IH. f_equal. destruct (_ && _); lia. }
  rewrite PU in A, B. cbn [fst snd] in A, B. rewrite CY in A. split; [|exact B]. rewrite A. reflexivity.
Qed.
(** a write of TMOD or TCON, also of another bit of it, and the acceptance of a timer
    interrupt throw the waiting edges of both counters away; TL and TH keep them *)
Theorem C91_waiting_edges : forall s o i, reached s ->
  (control o -> waiting i (step s o) = 0 /\ tl i (step s o) = tl i s /\ th i (step s o) = th i s) /\
  (forall k v, (o = WTl k v \/ o = WTh k v) -> waiting i (step s o) = waiting i s).
Proof.
  intros s o i R. pose proof (reached_inv s R) as I. split.
  - intros C. assert (X : T_edge (tmr i (step s o)) = 0 /\ tl i (step s o) = tl i s /\ th i (step s o) = th i s).
    { destruct o; try contradiction C; cbn [step].
      - destruct (tmod_written v s I) as (_ & A & _ & _ & _ & _ & B). cbn [step] in A, B. split; [apply A|]. split; apply B.
      - destruct (tcon_written v s I) as (_ & A & _ & _ & _ & _ & B). split; [apply A|]. split; apply B.
      - destruct (tcon_written (with_bit (tcon s) k on) s I) as (_ & A & _ & _ & _ & _ & B). split; [apply A|]. split; apply B.
      - match goal with |- context [set_tcon ?n _] => destruct (tcon_written n s I) as (_ & A & _ & _ & _ & _ & B) end. split; [apply A|]. split; apply B. }
    exact X.
  - intros k v [-> | ->]; destruct k, i; reflexivity.
Qed.
Print Assumptions C91_counter_counts.
Print Assumptions C91_no_edge_lost.
Print Assumptions C91_waiting_edges.

(** C92: reset, from any state of the timers: everything zero, port 3 all ones, both timers
    stopped in mode 0 as timers *)
Theorem C92_reset : forall s, 0 <= pins s < 256 -> let s' := reset s in
  tmod s' = 0 /\ tcon s' = 0 /\ p3 s' = 255 /\ pins s' = pins s /\ (forall i, tl i s' = 0 /\ th i s' = 0 /\ waiting i s' = 0) /\ reached s'.
Proof.
  intros s P. destruct (reset_ok s P) as (_ & A & B & C & D & E). cbv zeta. split; [exact A|]. split; [exact B|]. split; [exact C|]. split; [exact D|]. split.
  - intros i. destruct (E i) as (E1 & E2 & _ & E4). auto.
  - exists s, []. split; [exact P|]. split; [constructor|reflexivity].
Qed.
(** writes: TMOD and TCON take the byte, bits of TCON one by one, an accepted interrupt
    clears just its flag; all other registers stay *)
Theorem C92_control_writes : forall s o, reached s -> control o -> let s' := step s o in
  tmod s' = (match o with WTmod v => v mod 256 | _ => tmod s end) /\
  tcon s' = (match o with WTcon v => v mod 256 | WTconBit k true => Z.setbit (tcon s) k | WTconBit k false => Z.clearbit (tcon s) k | ClrTF i => Z.clearbit (tcon s) (TF_nr i) | _ => tcon s end) /\
  p3 s' = p3 s /\ pins s' = pins s /\ forall i, tl i s' = tl i s /\ th i s' = th i s /\ ov i s' = ov i s.
Proof.
  intros s o R C. cbv zeta. pose proof (reached_inv s R) as I. assert (BT : byte (tcon s)) by apply I.
  assert (SM : forall k on, 0 <= k < 8 -> with_bit (tcon s) k on mod 256 = if on then Z.setbit (tcon s) k else Z.clearbit (tcon s) k).
  { intros k on K. rewrite Z.mod_small by (apply with_bit_byte; assumption). apply with_bit_spec; assumption. }
  destruct o; try contradiction C; cbn [step].
  - destruct (tmod_written v s I) as (_ & _ & A1 & A2 & A3 & A4 & A5). cbn [step] in *. auto.
  - destruct (tcon_written v s I) as (_ & _ & A1 & A2 & A3 & A4 & A5). auto.
  - destruct (tcon_written (with_bit (tcon s) k on) s I) as (_ & _ & A1 & A2 & A3 & A4 & A5). rewrite SM in A2 by exact C. destruct on; auto.
  - destruct (tcon_written (Z.land (tcon s) (Z.lnot (mask_TF i))) s I) as (_ & _ & A1 & A2 & A3 & A4 & A5). split; [exact A1|]. split; [|auto]. rewrite A2.
    assert (K : 0 <= TF_nr i < 8) by (destruct i; cbn; lia). specialize (SM (TF_nr i) false K). unfold with_bit in SM. rewrite Z.mod_mod in SM by lia. rewrite <- SM. destruct i; reflexivity.
Qed.
Print Assumptions C92_reset.
Print Assumptions C92_control_writes.

(** ** The hypotheses are met *)
Definition nothing : tm := mkTm 0 false false false false 0.
Definition power_on : st := mkSt 0 0 0 0 0 0 0 255 nothing nothing 0 0.
Definition started (tmod_ tcon_ h l : Z) : st := run (reset power_on) [WTmod tmod_; WTh false h; WTl false l; WTcon tcon_].
Lemma started_reached t c h l : reached (started t c h l).
Proof. exists power_on, [WTmod t; WTh false h; WTl false l; WTcon c]. split; [cbn; lia|]. split; [|reflexivity]. repeat constructor. Qed.
(** mode 1 from FFFE: the third cycle leaves 0001 with one overflow and TF0 *)
Example C89_case : let s := started 1 16 255 254 in let s' := run s [Cycle; Pins 0; Cycle; Cycle] in
  (tl0 s', th0 s', ov0 s', tcon s') = (1, 0, 1, 48) /\ ct_bit false (tmod s) = false /\ selected false (tmod s) = 1.
Proof. repeat split. Qed.
(** mode 2 reloads; mode 0 counts 13 bits; mode 3 *)
Example C89_modes :
  (let s' := run (started 2 16 250 255) [Cycle; Cycle] in (tl0 s', th0 s', ov0 s')) = (251, 250, 1) /\
  (let s' := run (started 0 16 255 0x3f) [Cycle; Cycle] in (tl0 s', th0 s', ov0 s')) = (1, 0, 1) /\
  (let s' := run (started 3 80 255 255) [Cycle] in (tl0 s', th0 s', ov0 s', tcon s')) = (0, 0, 1, 240).
Proof. repeat split. Qed.
(** a counter: T0 is pin 4 of port 3 *)
Example C91_case : let s := started 5 16 0 0 in
  let s' := run s [Pins 0; Pins 16; Pins 0; Pins 16; Cycle; Pins 0; Cycle] in
  (tl0 s', th0 s') = (2, 0) /\ rises false (events (p3 s) (pins s) [Pins 0; Pins 16; Pins 0; Pins 16; Cycle; Pins 0]) (port_level s) = 2 /\ ct_bit false (tmod s) = true.
Proof. repeat split. Qed.
(** the edges are lost when another bit of TCON is written in between *)
Example C91_lost : let s' := run (started 5 16 0 0) [Pins 0; Pins 16; WTconBit 0 true; Cycle] in tl0 s' = 0.
Proof. reflexivity. Qed.
Example C90_case : let s := started 1 16 255 254 in Z.testbit (tcon (run s [Cycle])) 5 = false /\ Z.testbit (tcon (run s [Cycle; Cycle])) 5 = true.
Proof. split; reflexivity. Qed.
Example C92_case : tcon (step (started 1 0x30 0 0) (ClrTF false)) = 0x10.
Proof. reflexivity. Qed.
