(** C166 to C172: the programmable counter array of the 89C51R. *)
From Verif Require Import Base PcaModel PcaSpec PcaProofs.

Lemma quiet_event n e s : 0 <= n < 5 -> quiet n e -> (forall c i, e <> Tick c i) -> eqm n s (event e s) /\ ccapm (event e s) n = ccapm s n.
Proof.
  intros N ((O & F) & Q) T. destruct e; try contradiction; try (destruct (T _ _ eq_refl)); cbn in O.
  - cbn. destruct (Z.land v 6 =? clk s); repeat split.
  - unfold event, eqm, flag, pin. cbv zeta. assert (Z.testbit (if b then Z.setbit (ccon s) k else Z.clearbit (ccon s) k) n = Z.testbit (ccon s) n).
    { destruct b; [apply Z.setbit_neq; lia|apply Z.clearbit_neq; lia]. }
    destruct (k =? 2); repeat split; assumption.
  - unfold event, eqm, flag, pin. cbv zeta. destruct (_ =? ccapm s i); cbn [capl caph ccon p1 ccapm set_modes set_ccapm set_cex]; unfold upd;
      replace (n =? i) with false by lia; repeat split.
  - unfold event, eqm, flag, pin. cbn [capl caph ccon p1 ccapm set_capl]. unfold upd. replace (n =? i) with false by lia. repeat split.
  - unfold event, eqm, flag, pin. cbn [capl caph ccon p1 ccapm set_caph]. unfold upd. replace (n =? i) with false by lia. repeat split.
  - unfold event, port, eqm. cbv zeta. destruct (_ && _); repeat split.
  - repeat split.
Qed.
Lemma still_event n e s : 0 <= n < 5 -> still n e -> (forall c i, e <> Tick c i) -> pin (event e s) n = pin s n /\ ccapm (event e s) n = ccapm s n.
Proof.
  intros N ((O & F) & Q) T. destruct e; try contradiction; try (destruct (T _ _ eq_refl)); cbn in O; try (split; reflexivity).
  - cbn. destruct (Z.land v 6 =? clk s); repeat split.
  - unfold event. destruct (k =? 2); split; reflexivity.
  - unfold event, pin. cbv zeta. destruct (_ =? ccapm s i); cbn [p1 ccapm set_modes set_ccapm set_cex]; unfold upd;
      replace (n =? i) with false by lia; repeat split.
  - unfold event, port. cbv zeta. destruct (_ && _); repeat split.
Qed.
Lemma wd_event b e s : wd b e -> (forall c i, e <> Tick c i) -> wdte s = b -> wdte (event e s) = b.
Proof.
  intros D T W. destruct e; cbn [wd] in D; try (destruct (T _ _ eq_refl)); try exact W; unfold event, port; cbv zeta.
  - rewrite bit40. exact D.
  - destruct (k =? 2); exact W.
  - destruct (_ =? ccapm s i); exact W.
  - destruct (_ && _); exact W.
Qed.
Lemma kept_m n s t : kept s t -> ccapm t n = ccapm s n. Proof. intros (-> & _). reflexivity. Qed.

(** an array in the state after power on, running, with the mode of module n *)
Definition demo (m : Z -> Z) (l h : Z -> Z) : pca := mkP 0 0 0 l h m 255 m 0 false false true 0 0 (fun _ => false) (fun _ => false).
Lemma demo_wf m l h : (forall n, 0 <= l n < 256 /\ 0 <= h n < 256) -> wf (demo m l h).
Proof. intros H. unfold wf, demo. cbn. repeat split; try lia; apply H. Qed.
Definition z0 : Z -> Z := fun _ => 0.

(** ** C166 *)
(** the counter is, modulo 65536, what it was plus the pulses of its clock *)
Theorem C166_pca_count : forall l s, wf s -> Forall free l -> count (run l s) = (count s + pulses l (clock_of s)) mod 65536.
Proof. exact run_count. Qed.
(** flag CF is set exactly if it wrapped *)
Theorem C166_pca_overflow_flag : forall l s, wf s ->
  Forall (fun e => free e /\ match e with Ccon _ => False | CcBit k _ => k <> 7 | _ => True end) l ->
  Z.testbit (ccon (run l s)) 7 = Z.testbit (ccon s) 7 || (0 <? wraps l s).
Proof.
  intros l s W F.
  set (A := fun e => free e /\ match e with Ccon _ => False | CcBit k _ => k <> 7 | _ => True end) in F.
  assert (X : forall l t k, wf t -> Forall A l -> 0 <= k /\ Z.testbit (ccon t) 7 = Z.testbit (ccon s) 7 || (0 <? k) ->
    0 <= k + wraps l t /\ Z.testbit (ccon (run l t)) 7 = Z.testbit (ccon s) 7 || (0 <? k + wraps l t)).
  { apply (hist_ind (fun k t => 0 <= k /\ Z.testbit (ccon t) 7 = Z.testbit (ccon s) 7 || (0 <? k)) A (fun e H => proj1 H)).
    - intros k t V (K & P) D. destruct (pulse_nowrap 0 t V ltac:(lia) D) as (_ & _ & -> & _). auto.
    - intros k t V (K & P) D. destruct (pulse_wrap 0 t V ltac:(lia) D) as (_ & _ & _ & _ & _ & ->). split; [lia|]. replace (0 <? k + 1) with true by lia. rewrite orb_true_r. reflexivity.
    - intros k t a b P. exact P.
    - intros k e t V ((O & B) & Q) T (K & P). split; [exact K|]. rewrite <- P. clear P. destruct e; try contradiction; try (destruct (T _ _ eq_refl)); cbn in O; try reflexivity;
      unfold event, port; cbv zeta.
      + destruct (_ =? _); reflexivity.
      + cbn [ccon set_ccon]. assert (R : forall u, ccon u = ccon t -> Z.testbit (if b then Z.setbit (ccon u) k0 else Z.clearbit (ccon u) k0) 7 = Z.testbit (ccon t) 7).
        { intros u ->. destruct b; [apply Z.setbit_neq; lia|apply Z.clearbit_neq; lia]. }
        destruct (k0 =? 2); apply R; reflexivity.
      + destruct (_ =? ccapm t i); reflexivity.
      + destruct (_ && _); reflexivity. }
  apply (X l s 0 W F). split; [lia|]. change (0 <? 0) with false. rewrite orb_false_r. reflexivity.
Qed.
Example C166_case : let s := demo z0 z0 z0 in let l := [Tick 300 false; Cmod 2; Tick 10 true; Cmod 0x84; T0; T0; Tick 12 true; Tick 12 false; CcBit 2 false; Tick 500 false] in
  wf s /\ Forall free l /\ count (run l s) = 332 /\ pulses l (clock_of s) = 332.
Proof. cbv zeta. split; [apply demo_wf; intros; unfold z0; lia|]. split; [repeat constructor; cbn; lia|]. vm_compute. repeat split. Qed.
Print Assumptions C166_pca_count.
Print Assumptions C166_pca_overflow_flag.

(** ** C167 *)
Lemma compare n l s d : 0 <= n < 5 -> wf s -> Forall (fun e => quiet n e /\ (n = 4 -> wd d e)) l -> (n = 4 -> wdte s = d) ->
  PWM s n = false -> CAPP s n = false -> CAPN s n = false ->
  let m := ECOM s n && (cap s n =? 0) && negb ((n =? 4) && d) in let t := run l s in
  flag t n = flag s n || (m && (0 <? wraps l s)) /\ pin t n = xorb (pin s n) (m && TOG s n && Z.odd (wraps l s)) /\ cap t n = cap s n.
Proof.
  intros N W F D E1 E5 E4 m.
  assert (M : forall t, wf t -> capl t n = capl s n -> caph t n = caph s n -> (capl t n =? 0) && (caph t n =? 0) = (cap s n =? 0)).
  { intros t (_ & _ & _ & _ & K) A B. specialize (K n N). rewrite A, B in *. unfold cap. lia. }
  unfold PWM, CAPP, CAPN, ECOM, TOG in *.
  assert (X : forall l s0 k, wf s0 -> Forall (fun e => quiet n e /\ (n = 4 -> wd d e)) l -> 0 <= k /\ ccapm s0 n = ccapm s n /\ (n = 4 -> wdte s0 = d) /\ capl s0 n = capl s n /\ caph s0 n = caph s n /\
    flag s0 n = flag s n || (m && (0 <? k)) /\ pin s0 n = xorb (pin s n) (m && Z.testbit (ccapm s n) 2 && Z.odd k) ->
    0 <= k + wraps l s0 /\ ccapm (run l s0) n = ccapm s n /\ (n = 4 -> wdte (run l s0) = d) /\ capl (run l s0) n = capl s n /\ caph (run l s0) n = caph s n /\
    flag (run l s0) n = flag s n || (m && (0 <? k + wraps l s0)) /\ pin (run l s0) n = xorb (pin s n) (m && Z.testbit (ccapm s n) 2 && Z.odd (k + wraps l s0))).
  { apply (hist_ind (fun k t => 0 <= k /\ ccapm t n = ccapm s n /\ (n = 4 -> wdte t = d) /\ capl t n = capl s n /\ caph t n = caph s n /\
      flag t n = flag s n || (m && (0 <? k)) /\ pin t n = xorb (pin s n) (m && Z.testbit (ccapm s n) 2 && Z.odd k))
      (fun e => quiet n e /\ (n = 4 -> wd d e)) (fun e A => proj1 (proj1 A))).
    - intros k t V (K & P1 & P2 & P3 & P4 & P5 & P6) Q. destruct (pulse_nowrap n t V N Q) as (Q1 & Q2 & Q3 & Q4 & _).
      unfold PWM in Q1. destruct (pulse_kept t V) as (KM & KW & _). rewrite KM, KW. rewrite P1, E1 in Q1. cbn in Q1. unfold flag, pin in *. rewrite Q1, Q2, Q3, Q4. auto 10.
    - intros k t V (K & P1 & P2 & P3 & P4 & P5 & P6) Q. destruct (pulse_wrap n t V N Q) as (Q1 & Q2 & Q3 & Q4 & _).
      destruct (pulse_kept t V) as (KM & KW & _). rewrite KM, KW.
      assert (C : capt t n = false) by (unfold capt, CAPP, CAPN; rewrite P1, E5, E4; reflexivity).
      assert (R : reload t n = capl t n) by (unfold reload, PWM; rewrite P1, E1; reflexivity).
      assert (Z : zz t n && negb (dog t n) = m).
      { unfold zz, ECOM, dog, m. rewrite C, R, P1. cbn [orb]. rewrite (M t V P3 P4). f_equal. destruct (n =? 4) eqn:N4; [rewrite P2 by lia|]; reflexivity. }
      unfold PWM, TOG in *. rewrite C, R, P1, E1, Z, ?P3, ?P4, ?P5, ?P6 in *. rewrite Q1, Q2, Q3, Q4.
      rewrite andb_false_r, !orb_false_r. cbn [andb]. rewrite Z.odd_add. cbn [Z.odd].
      split; [lia|]. split; [reflexivity|]. split; [exact P2|]. split; [reflexivity|]. split; [reflexivity|].
      replace (0 <? k + 1) with true by lia. split; [destruct (flag s n), m, (0 <? k); reflexivity|].
      destruct (pin s n), m, (Z.testbit (ccapm s n) 2), (Z.odd k); reflexivity.
    - intros k t a b P. exact P.
    - intros k e t V (A & Dw) T (K & P1 & P2 & P3 & P4 & P5 & P6). destruct (quiet_event n e t N A T) as ((Q1 & Q2 & Q3 & Q4) & Q5).
      rewrite Q1, Q2, Q3, Q4, Q5. split; [exact K|]. split; [exact P1|]. split; [intros N4; apply wd_event; auto|]. auto 10. }
  destruct (X l s 0 W F) as (_ & _ & _ & A & B & C & G).
  - split; [lia|]. change (0 <? 0) with false. change (Z.odd 0) with false. rewrite !andb_false_r, orb_false_r, xorb_false_r. auto 10.
  - cbv zeta. rewrite Z.add_0_l in *. unfold cap. rewrite A, B. auto.
Qed.
(** compare mode: the flag is set and the pin toggled exactly at the wraps of the counter to zero, and only for the compare value zero;
    for module 4: without watchdog *)
Theorem C167_pca_compare : forall n l s, 0 <= n < 5 -> wf s -> Forall (fun e => quiet n e /\ (n = 4 -> wd false e)) l -> (n = 4 -> wdte s = false) ->
  PWM s n = false -> CAPP s n = false -> CAPN s n = false ->
  let m := ECOM s n && (cap s n =? 0) in let t := run l s in
  flag t n = flag s n || (m && (0 <? wraps l s)) /\ pin t n = xorb (pin s n) (m && TOG s n && Z.odd (wraps l s)) /\ cap t n = cap s n.
Proof.
  intros n l s N W F D A B C. pose proof (compare n l s false N W F D A B C) as H. cbv zeta in *. rewrite andb_false_r, andb_true_r in H. exact H.
Qed.
Example C167_case : let s := demo (fun _ => 0x4c) (fun _ => 7) z0 in let l := [Tick 70000 false] in wf s /\ Forall (fun e => quiet 1 e /\ (1 = 4 -> wd false e)) l /\
  wraps l s = 1 /\ flag (run l s) 1 = false /\ flag (run l (event (CapL 1 0) s)) 1 = true /\ pin (run l (event (CapL 1 0) s)) 1 = false.
Proof. cbv zeta. split; [apply demo_wf; intros; unfold z0; lia|]. split; [repeat constructor; cbn; lia|]. vm_compute. repeat split. Qed.
Print Assumptions C167_pca_compare.

(** ** C168 *)
(** the watchdog: a match of module 4 while the watchdog is on does nothing to flag, pin or register *)
Theorem C168_pca_watchdog : forall l s, wf s -> Forall (fun e => quiet 4 e /\ wd true e) l -> wdte s = true ->
  PWM s 4 = false -> CAPP s 4 = false -> CAPN s 4 = false ->
  flag (run l s) 4 = flag s 4 /\ pin (run l s) 4 = pin s 4 /\ cap (run l s) 4 = cap s 4.
Proof.
  intros l s W F D A B C.
  assert (F' : Forall (fun e => quiet 4 e /\ (4 = 4 -> wd true e)) l) by (eapply Forall_impl; [|exact F]; cbv beta; intuition).
  pose proof (compare 4 l s true ltac:(lia) W F' (fun _ => D) A B C) as H. cbv zeta in H. change ((4 =? 4) && true) with true in H. cbn [negb] in H.
  rewrite andb_false_r in H. cbn [andb] in H. rewrite orb_false_r, xorb_false_r in H. exact H.
Qed.
Example C168_case : let s := event (Cmod 0x40) (demo (fun _ => 0x4c) z0 z0) in let l := [Tick 70000 false; Tick 70000 false] in
  wdte s = true /\ flag (run l s) 4 = false /\ flag (run l s) 3 = true /\ count (run l s) = 8928 /\ wraps l s = 2.
Proof. vm_compute. repeat split. Qed.
Print Assumptions C168_pca_watchdog.

(** ** C169 *)
(** capture: what a module without PWM captures is zero, and nothing is captured or changed while the counter does not wrap *)
Theorem C169_pca_captures_zero : forall n l s, 0 <= n < 5 -> wf s -> Forall (quiet n) l -> PWM s n = false ->
  (cap (run l s) n = cap s n \/ cap (run l s) n = 0) /\
  (wraps l s = 0 -> cap (run l s) n = cap s n /\ flag (run l s) n = flag s n /\ pin (run l s) n = pin s n).
Proof.
  intros n l s N W F E1.
  assert (X : forall l t k, wf t -> Forall (quiet n) l -> 0 <= k /\ ccapm t n = ccapm s n /\ (cap t n = cap s n \/ cap t n = 0) /\ (k = 0 -> eqm n s t) ->
    0 <= k + wraps l t /\ ccapm (run l t) n = ccapm s n /\ (cap (run l t) n = cap s n \/ cap (run l t) n = 0) /\ (k + wraps l t = 0 -> eqm n s (run l t))).
  { apply (hist_ind (fun k t => 0 <= k /\ ccapm t n = ccapm s n /\ (cap t n = cap s n \/ cap t n = 0) /\ (k = 0 -> eqm n s t)) (quiet n) (fun e A => proj1 A)).
    - intros k t V (K & P1 & P2 & P3) Q. destruct (pulse_nowrap n t V N Q) as (Q1 & Q2 & Q3 & Q4 & _). unfold PWM in *.
      rewrite P1, E1 in Q1. cbn in Q1. rewrite (kept_m n _ _ (pulse_kept t V)). unfold cap, eqm, flag, pin in *. rewrite Q1, Q2, Q3, Q4. auto.
    - intros k t V (K & P1 & P2 & P3) Q. destruct (pulse_wrap n t V N Q) as (Q1 & Q2 & _). rewrite (kept_m n _ _ (pulse_kept t V)).
      unfold reload, PWM in *. rewrite P1, E1 in Q1. unfold cap in *. rewrite Q1, Q2. split; [lia|]. split; [exact P1|]. split; [destruct (capt t n); [right; reflexivity|exact P2]|lia].
    - intros k t a b P. exact P.
    - intros k e t V A T (K & P1 & P2 & P3). destruct (quiet_event n e t N A T) as (Q & Q5). unfold cap in *. pose proof Q as (Q1 & Q2 & _). rewrite Q1, Q2, Q5.
      split; [exact K|]. split; [exact P1|]. split; [exact P2|]. intros K0. eapply eqm_trans; [apply P3, K0|exact Q]. }
  destruct (X l s 0 W F) as (_ & _ & A & B).
  - split; [lia|]. split; [reflexivity|]. split; [left; reflexivity|]. intros _. repeat split.
  - split; [exact A|]. intros Z. destruct (B ltac:(lia)) as (B1 & B2 & B3 & B4). unfold cap. rewrite B1, B2. auto.
Qed.
(** a falling edge, once seen, captures at every later wrap, whatever happens before; for module 4 and the others: without watchdog *)
Theorem C169_pca_falling_edge_for_ever : forall n l s c idle, 0 <= n < 5 -> wf s -> Forall (fun e => still n e /\ wd false e) l -> 0 <= c -> wdte s = false ->
  CAPN s n = true -> neg s n = true -> let t := run l s in 1 <= wraps [Tick c idle] t ->
  flag (event (Tick c idle) t) n = true /\ cap (event (Tick c idle) t) n = 0.
Proof.
  intros n l s c idle N W F C D E4 NG. cbv zeta. intros WR.
  set (P := fun t => neg t n = true /\ ccapm t n = ccapm s n /\ wdte t = false).
  assert (P_no : forall t, wf t -> P t -> count t <> 65535 -> P (count1 t)).
  { intros t V (P1 & P2 & P3) Q. destruct (pulse_nowrap n t V N Q) as (_ & _ & _ & _ & _ & Q6). destruct (pulse_kept t V) as (K1 & K2 & _).
    unfold P. rewrite Q6, K1, K2. auto. }
  assert (P_wr : forall t, wf t -> P t -> count t = 65535 -> P (count1 t) /\ flag (count1 t) n = true /\ cap (count1 t) n = 0).
  { intros t V (P1 & P2 & P3) Q. destruct (pulse_wrap n t V N Q) as (Q1 & Q2 & Q3 & _ & Q5 & _). destruct (pulse_kept t V) as (K1 & K2 & _).
    assert (CP : capt t n = true) by (unfold capt, CAPN in *; rewrite P2, E4, P1; apply orb_true_r).
    destruct Q5 as (Q5 & _); [right; exact P3|]. unfold P. rewrite Q5, K1, K2. unfold dog, cap. rewrite P1, P3, !andb_false_r, Q3, Q1, Q2, CP.
    rewrite orb_true_r. auto. }
  assert (X : P (run l s)).
  { refine (hist_ind (fun _ t => P t) (fun e => still n e /\ wd false e) (fun e A => proj1 (proj1 A)) _ _ _ _ l s 0 W F _).
    - intros k t V H Q. apply P_no; auto.
    - intros k t V H Q. apply P_wr; auto.
    - intros k t a b H. exact H.
    - intros k e t V (A & Dw) T (P1 & P2 & P3). destruct (still_event n e t N A T) as (_ & Q2). unfold P. rewrite Q2.
      split; [|split; [exact P2|apply wd_event; auto]]. destruct A as ((O & Fr) & S). destruct e; try contradiction; try (destruct (T _ _ eq_refl)); try exact P1;
      unfold event, port; cbv zeta.
      + destruct (_ =? _); exact P1.
      + destruct (k0 =? 2); exact P1.
      + destruct (_ =? ccapm t i); cbn [neg set_modes set_ccapm set_cex]; unfold PcaModel.upd; [exact P1|]. replace (n =? i) with false by lia. exact P1.
      + destruct (_ && _); cbn [neg set_cex set_edges]; destruct (_ && _); auto.
    - unfold P. auto. }
  assert (V : wf (run l s)) by (apply run_wf; [exact W|]; eapply Forall_impl; [|exact F]; intros e A; exact (proj1 (proj1 (proj1 A)))).
  assert (Z : P (event (Tick c idle) (run l s)) /\ (1 <= 0 + wraps [Tick c idle] (run l s) -> flag (event (Tick c idle) (run l s)) n = true /\ cap (event (Tick c idle) (run l s)) n = 0)).
  { destruct (tick_form c idle (run l s) V C) as (a & b & _ & _ & E). rewrite E.
    pose proof (iter_ind (fun k t => P t /\ 0 <= k /\ (1 <= k -> flag t n = true /\ cap t n = 0))) as I.
    set (q := pulse (Tick c idle) (clock_of (run l s))) in *.
    assert (Q0 : 0 <= q) by (apply pulse_pos; auto).
    assert (Y : P (Nat.iter (Z.to_nat q) count1 (run l s)) /\ 0 <= 0 + (count (run l s) + Z.of_nat (Z.to_nat q)) / 65536 /\
      (1 <= 0 + (count (run l s) + Z.of_nat (Z.to_nat q)) / 65536 -> flag (Nat.iter (Z.to_nat q) count1 (run l s)) n = true /\ cap (Nat.iter (Z.to_nat q) count1 (run l s)) n = 0)).
    { apply I; clear I; try exact V; try (split; [exact X|]; split; lia).
      - intros k t Vt (H & K & J) Q. split; [auto|]. split; [exact K|]. intros K1. destruct (J K1) as (J1 & J2).
        destruct (pulse_nowrap n t Vt N Q) as (U1 & U2 & U3 & _). destruct Vt as (_ & _ & _ & _ & B). specialize (B n N). unfold flag, cap in *.
        rewrite U1, U2, U3. split; [exact J1|]. destruct (PWM t n && (cl t =? 255)); lia.
      - intros k t Vt (H & K & J) Q. destruct (P_wr t Vt H Q) as (U & U'). split; [exact U|]. split; [lia|intros _; exact U']. }
    destruct Y as (I1 & I2 & I3). split; [exact I1|]. intros _. apply I3. rewrite Z2Nat.id by exact Q0. unfold wraps in WR. cbn [pulses] in WR. fold q in WR. rewrite Z.add_0_r in WR. lia. }
  apply Z. lia.
Qed.
Example C169_case : let s := event (Port 255 0xef) (demo (fun _ => 0x10) z0 z0) in let l := [CapH 1 5; Tick 70000 false; Ccon 0x40; CapH 1 9; Tick 50000 false] in
  wf s /\ wdte s = false /\ CAPN s 1 = true /\ neg s 1 = true /\ cap (run l s) 1 = 9 * 256 /\ wraps [Tick 20000 false] (run l s) = 1 /\
  flag (run l s) 1 = false /\ flag (event (Tick 20000 false) (run l s)) 1 = true.
Proof. cbv zeta. split; [apply event_wf; [apply demo_wf; intros; unfold z0; lia|exact I]|]. vm_compute. repeat split. Qed.
Print Assumptions C169_pca_captures_zero.
Print Assumptions C169_pca_falling_edge_for_ever.

(** ** C170 *)
(** the low byte of the compare register is reloaded from the high byte when CL wraps *)
Theorem C170_pca_pwm_reload : forall n l s, 0 <= n < 5 -> wf s -> Forall (quiet n) l -> PWM s n = true -> CAPP s n = false -> CAPN s n = false ->
  caph (run l s) n = caph s n /\ capl (run l s) n = if 256 <=? cl s + pulses l (clock_of s) then caph s n else capl s n.
Proof.
  intros n l s N W F E1 E5 E4.
  set (P := fun k t => ccapm t n = ccapm s n /\ caph t n = caph s n /\ count s <= 65536 * k + count t /\
    capl t n = if 256 * (count s / 256) + 256 <=? 65536 * k + count t then caph s n else capl s n).
  assert (X : P (0 + wraps l s) (run l s)).
  { refine (hist_ind P (quiet n) (fun e A => proj1 A) _ _ _ _ l s 0 W F _).
    - intros k t V (P1 & P2 & P3 & P4) Q. destruct (pulse_nowrap n t V N Q) as (Q1 & Q2 & _). pose proof (pulse_count t V) as PC.
      unfold P. rewrite (kept_m n _ _ (pulse_kept t V)). unfold PWM in *. rewrite P1, E1 in Q1. cbn [andb] in Q1. rewrite Q1, Q2, P2, P4. rewrite PC.
      split; [exact P1|]. split; [reflexivity|]. destruct V as (Vc & Vh & _). unfold count in *.
      destruct (cl t =? 255) eqn:CT; split; try lia;
      repeat match goal with |- context [if ?b then _ else _] => destruct b eqn:? end; try reflexivity; exfalso; lia.
    - intros k t V (P1 & P2 & P3 & P4) Q. destruct (pulse_wrap n t V N Q) as (Q1 & Q2 & _). pose proof (pulse_count t V) as PC.
      unfold P. rewrite (kept_m n _ _ (pulse_kept t V)).
      assert (CF : capt t n = false) by (unfold capt, CAPP, CAPN in *; rewrite P1, E5, E4; reflexivity).
      unfold reload, PWM in *. rewrite P1, E1, CF in Q1. rewrite CF in Q2. rewrite Q1, Q2, P2, PC, Q. split; [exact P1|]. split; [reflexivity|].
      rewrite Q in P3. change ((65535 + 1) mod 65536) with 0. assert (R : 0 <= count s < 65536) by (destruct W as (Wc & Wh & _); unfold count; lia).
      split; [lia|]. replace (256 * (count s / 256) + 256 <=? 65536 * (k + 1) + 0) with true by lia. reflexivity.
    - intros k t a b H. exact H.
    - intros k e t V A T (P1 & P2 & P3 & P4). destruct (quiet_event n e t N A T) as ((Q1 & Q2 & _) & Q5). unfold P. rewrite Q1, Q2, Q5.
      assert (EC : count (event e t) = count t).
      { rewrite event_count by (exact V || exact (proj1 A)). replace (pulse e (clock_of t)) with 0 by (destruct e; try reflexivity; destruct (T cycles idle eq_refl)).
        destruct V as (Vc & Vh & _). unfold count. lia. }
      rewrite EC. auto.
    - unfold P. split; [reflexivity|]. split; [reflexivity|]. split; [lia|]. replace (256 * (count s / 256) + 256 <=? 65536 * 0 + count s) with false by lia. reflexivity. }
  rewrite Z.add_0_l in X. destruct X as (_ & X2 & X3 & X4). split; [exact X2|]. rewrite X4. rewrite (run_count l s W) by (eapply Forall_impl; [|exact F]; intros e A; exact (proj1 A)).
  unfold wraps in *. assert (E : 65536 * ((count s + pulses l (clock_of s)) / 65536) + (count s + pulses l (clock_of s)) mod 65536 = count s + pulses l (clock_of s)) by lia.
  rewrite E. destruct W as (Wc & Wh & _). assert (G : 256 * (count s / 256) = 256 * ch s) by (unfold count; lia). rewrite G. unfold count.
  replace (256 * ch s + 256 <=? 256 * ch s + cl s + pulses l (clock_of s)) with (256 <=? cl s + pulses l (clock_of s)) by lia. reflexivity.
Qed.
(** the output of a module that does not toggle is never cleared; in PWM mode it is set at the first wrap, whatever the compare register holds *)
Theorem C170_pca_pwm_output : forall n l s, 0 <= n < 5 -> wf s -> Forall (fun e => still n e /\ (n = 4 -> wd false e)) l -> (n = 4 -> wdte s = false) -> TOG s n = false ->
  pin (run l s) n = pin s n || (ECOM s n && PWM s n && (0 <? wraps l s)).
Proof.
  intros n l s N W F D E2.
  assert (X : forall l t k, wf t -> Forall (fun e => still n e /\ (n = 4 -> wd false e)) l ->
    0 <= k /\ ccapm t n = ccapm s n /\ (n = 4 -> wdte t = false) /\ pin t n = pin s n || (ECOM s n && PWM s n && (0 <? k)) ->
    0 <= k + wraps l t /\ ccapm (run l t) n = ccapm s n /\ (n = 4 -> wdte (run l t) = false) /\ pin (run l t) n = pin s n || (ECOM s n && PWM s n && (0 <? k + wraps l t))).
  { apply (hist_ind (fun k t => 0 <= k /\ ccapm t n = ccapm s n /\ (n = 4 -> wdte t = false) /\ pin t n = pin s n || (ECOM s n && PWM s n && (0 <? k)))
      (fun e => still n e /\ (n = 4 -> wd false e)) (fun e A => proj1 (proj1 A))).
    - intros k t V (K & P1 & P2 & P3) Q. destruct (pulse_nowrap n t V N Q) as (_ & _ & _ & Q4 & _). destruct (pulse_kept t V) as (K1 & K2 & _).
      rewrite K1, K2. unfold pin in *. rewrite Q4. auto.
    - intros k t V (K & P1 & P2 & P3) Q. destruct (pulse_wrap n t V N Q) as (_ & _ & _ & Q4 & _). destruct (pulse_kept t V) as (K1 & K2 & _).
      rewrite K1, K2, Q4, P3. assert (DG : dog t n = false) by (unfold dog; destruct (n =? 4) eqn:N4; [rewrite P2 by lia|]; reflexivity).
      unfold TOG, ECOM, PWM in *. rewrite DG, P1, E2, !andb_false_r, xorb_false_r. cbn [negb]. replace (0 <? k + 1) with true by lia.
      split; [lia|]. split; [reflexivity|]. split; [exact P2|]. destruct (pin s n), (Z.testbit (ccapm s n) 6), (Z.testbit (ccapm s n) 1), (0 <? k); reflexivity.
    - intros k t a b P. exact P.
    - intros k e t V (A & Dw) T (K & P1 & P2 & P3). destruct (still_event n e t N A T) as (Q1 & Q2). rewrite Q1, Q2.
      split; [exact K|]. split; [exact P1|]. split; [intros N4; apply wd_event; auto|exact P3]. }
  destruct (X l s 0 W F) as (_ & _ & _ & A).
  - split; [lia|]. split; [reflexivity|]. split; [exact D|]. change (0 <? 0) with false. rewrite andb_false_r, orb_false_r. reflexivity.
  - exact A.
Qed.
Example C170_case : let s := event (P1 0) (demo (fun _ => 0x42) z0 (fun _ => 99)) in wf s /\
  capl (run [Tick 255 false] s) 0 = 0 /\ capl (run [Tick 256 false] s) 0 = 99 /\ pin (run [Tick 65535 false] s) 0 = false /\ p1 (run [Tick 65536 false; Tick 150 false] s) = 0xf8.
Proof. cbv zeta. split; [apply event_wf; [apply demo_wf; intros; unfold z0; lia|exact I]|]. vm_compute. repeat split. Qed.
Print Assumptions C170_pca_pwm_reload.
Print Assumptions C170_pca_pwm_output.

(** ** C171 *)
(** setting the run bit CR (bit 6 of CCON) as a bit does not start the counter: neither does anything but a byte with bit 6, or bit 2 *)
Theorem C171_pca_setb_cr_does_not_run : forall l s, wf s -> Forall (fun e => free e /\ nostart e) l -> cr s = false ->
  count (run l s) = count s.
Proof.
  intros l s W F C. rewrite (run_count l s W) by (eapply Forall_impl; [|exact F]; intros e A; exact (proj1 A)).
  assert (Z : forall x, on x = false -> pulses l x = 0).
  { clear W C. induction l as [|e l IH]; intros x O; [reflexivity|]. inversion_clear F as [|? ? A F']. cbn [pulses]. rewrite IH; auto.
    - destruct e; cbn [pulse]; rewrite ?O; reflexivity.
    - destruct A as (_ & A). destruct e; cbn [cstep nostart] in *; rewrite ?O; auto.
      destruct k as [|[[]|[]|]|]; auto. }
  rewrite Z by exact C. destruct W as (Wc & Wh & _). unfold count. lia.
Qed.
(** a running counter runs on after a reset of the controller, though CCON and CMOD are cleared *)
Theorem C171_pca_reset_does_not_stop : forall cs s, wf s -> Forall (fun c => 0 <= c) cs -> cr s = true -> clk s = 0 ->
  ccon (event Reset s) = 0 /\ count (run (Reset :: map (fun c => Tick c false) cs) s) = fold_right Z.add 0 cs mod 65536.
Proof.
  intros cs s W F C K. split; [reflexivity|]. cbn [run]. rewrite run_count.
  - change (count (event Reset s)) with 0. rewrite Z.add_0_l. f_equal. rewrite event_clock by (exact W || exact I). cbn [cstep]. unfold clock_of. cbn [on src stops]. rewrite C, K. clear W.
    induction cs as [|c cs IH]; [reflexivity|]. inversion_clear F. cbn [map pulses fold_right pulse cstep on src stops andb negb]. rewrite IH by assumption. reflexivity.
  - apply event_wf; [exact W|exact I].
  - induction F; cbn [map]; constructor; auto. split; [exact H|exact I].
Qed.
Example C171_case : let s := event (Ccon 0) (demo z0 z0 z0) in let t := run [CcBit 6 true; Tick 100 false] s in
  wf s /\ ccon t = 0x40 /\ count t = 0 /\ count (run [CcBit 2 true; Tick 100 false] s) = 100 /\ count (run [Ccon 0x40; Tick 5 false; Reset; Tick 100 false] s) = 100.
Proof. cbv zeta. split; [apply event_wf; [apply demo_wf; intros; unfold z0; lia|exact I]|]. vm_compute. repeat split. Qed.
Print Assumptions C171_pca_setb_cr_does_not_run.
Print Assumptions C171_pca_reset_does_not_stop.

(** ** C172 *)
(** the mode a module works in is the one last written to CCAPMn, also after a reset of the controller, when the program reads 0x40 there;
    writing the compare registers changes neither *)
Theorem C172_pca_modes : forall l s n, wf s -> Forall okev l ->
  ccapm (run l s) n = lastmode n l (ccapm s n) /\ modes (run l s) n = lastcell n l (modes s n).
Proof.
  induction l as [|e l IH]; intros s n W F; [auto|]. inversion_clear F as [|? ? O F']. cbn [run].
  destruct (IH (event e s) n (event_wf e s W O) F') as (A & B). rewrite A, B. clear A B IH.
  assert (T : forall u, ccapm u = ccapm s -> modes u = modes s -> lastmode n l (ccapm u n) = lastmode n l (ccapm s n) /\ lastcell n l (modes u n) = lastcell n l (modes s n))
    by (intros u -> ->; auto).
  destruct e; cbn [lastmode lastcell]; try (apply T; reflexivity).
  - apply T; cbn [event]; destruct (_ =? _); reflexivity.
  - apply T; cbn [event]; destruct (_ =? _); reflexivity.
  - cbn [event]. cbv zeta. change 255 with (Z.ones 8). rewrite Z.land_ones by lia. change (2 ^ 8) with 256.
    destruct (v mod 256 =? ccapm s i); cbn [ccapm modes set_modes set_ccapm set_cex]; unfold PcaModel.upd, u8; destruct (n =? i); auto.
  - destruct (tick_form cycles idle s W O) as (a & b & _ & _ & ->). destruct (iter_kept (Z.to_nat (pulse (Tick cycles idle) (clock_of s))) s W) as (K1 & _ & K3 & _). apply T; assumption.
  - apply T; cbn [event]; unfold port; cbv zeta; destruct (_ && _); reflexivity.
  - split; reflexivity.
Qed.
Example C172_case : let s := run [Ccapm 2 0x49; CapL 2 5; Reset; CapH 2 1; Tick 9 false] (demo z0 z0 z0) in ccapm s 2 = 0x49 /\ modes s 2 = 0x40.
Proof. vm_compute. repeat split. Qed.
Print Assumptions C172_pca_modes.
