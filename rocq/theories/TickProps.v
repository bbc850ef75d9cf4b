(** C24, C35: clock counters and timers. *)
From Verif Require Import Base TickModel TickSpec TickProofs.

(** -- C24 -- *)
(** Any counter in any state: over any history which does not delete, start, stop
    or set it, its value changes by exactly the clocks that passed while the
    processor was in the state it counts (backwards if its direction is
    negative), modulo the size of the counter; it does not change if stopped. *)
Theorem C24_counter_exact : forall cpc x y es k t,
  0 <= k -> tk_at x k = Some t -> 0 <= tval t < 2^64 ->
  Forall (leaves_alone k t) es -> trun_all cpc x es = Ok y ->
  exists t', tk_at y k = Some t' /\ tname t' = tname t /\ trun t' = trun t /\
    (trun t = false -> tval t' = tval t) /\
    (trun t = true -> 0 <= tdir t ->
       tval t' = (tval t + clocks_of cpc (ttype t) (isr x) (cst x) es) mod 2^64) /\
    (trun t = true -> tdir t < 0 ->
       tval t' = (tval t - clocks_of cpc (ttype t) (isr x) (cst x) es) mod 2^64).
Proof.
  intros cpc x y es k t Hk Ht Hr HF E.
  destruct (trun_all_count cpc k es x y t Hk Ht ltac:(change (2^64) with 18446744073709551616 in Hr; exact Hr) HF E)
    as (t' & H1 & (S1 & S2 & S3 & S4 & S5) & H2).
  exists t'. split; auto. split; auto. split; auto. unfold u64, signed in H2. change (2^64) with 18446744073709551616.
  split; [intros C; rewrite C in H2; auto|]. split; intros C D; rewrite C in H2.
  - replace (0 <=? tdir t) with true in H2 by lia. exact H2.
  - replace (0 <=? tdir t) with false in H2 by lia. rewrite H2. f_equal.
Qed.
Print Assumptions C24_counter_exact.

(** history without commands aimed at the built in counters *)
Definition spares_builtin (e : tev) : Prop :=
  match e with
  | TRun (ByNr k) _ | TSet (ByNr k) _ => ~ (1 <= k <= 4)
  | TRun (ByName n) _ | TSet (ByName n) _ => ~ In n [n_time; n_isr; n_idle; n_halt]
  | _ => True
  end.

Lemma builtin_counts cpc k es : 1 <= k <= 4 -> forall x y t, builtin x -> tk_at x k = Some t -> trun t = true ->
  0 <= tval t < 18446744073709551616 -> Forall spares_builtin es -> (forall e, In e es -> e <> TReset) ->
  trun_all cpc x es = Ok y ->
  exists t', tk_at y k = Some t' /\ trun t' = true /\
    tval t' = u64 (tval t + clocks_of cpc (ttype t) (isr x) (cst x) es).
Proof.
  intros Hk. induction es as [|e es IH]; intros x y t B Ht Hrun Hr HF Hno; cbn [trun_all].
  - intros X. injection X as <-. exists t. repeat split; auto. cbn [clocks_of]. unfold u64. rewrite Z.mod_small; lia.
  - destruct (tstep cpc x e) as [x1| |] eqn:E; cbn [rbind]; try discriminate. intros R.
    pose proof (builtin_step _ _ _ _ B E) as B1.
    assert (D : forall i, (match i with ByNr k => ~ (1 <= k <= 4) | ByName n => ~ In n [n_time; n_isr; n_idle; n_halt] end) -> ~ designates k t i).
    { destruct (B k Hk) as (t0 & T1 & _ & _ & _ & T5). rewrite Ht in T1. injection T1 as <-.
      intros [n|n] H; cbn [designates]; [lia|]. rewrite T5. intros X. injection X as <-. apply H.
      unfold n_time, n_isr, n_idle, n_halt. cbn [In]. lia. }
    destruct (B k Hk) as (t0 & T1 & T2 & T3 & T4 & T5). rewrite Ht in T1. injection T1 as <-.
    pose proof (Forall_inv HF) as S.
    assert (Hone : exists t1, tk_at x1 k = Some t1 /\ trun t1 = true /\ ttype t1 = ttype t /\ 0 <= tval t1 < 18446744073709551616 /\
       u64 (tval t + clocks_of cpc (ttype t) (isr x) (cst x) (e :: es)) =
       u64 (tval t1 + clocks_of cpc (ttype t) (isr x1) (cst x1) es)).
    { destruct e.
      - cbn [tstep] in E. destruct (uc_tick_at _ _ _ _ k E) as (I1 & I2 & I3). rewrite Ht, Hrun in I3. cbn [andb] in I3.
        eexists. split; [exact I3|]. rewrite I1, I2. cbn [clocks_of].
        assert ((match ttype t, cst x with
          | TAny, _ => true | TIsr, _ => isr x | TIdle, StIdle => true | THalt, StPd => true | _, _ => false end)
          = counts (ttype t) (isr x) (cst x)) as ->.
        { unfold counts. destruct (ttype t), (cst x); auto. }
        destruct (counts (ttype t) (isr x) (cst x)).
        + cbn [tk_tick trun ttype tval tdir]. rewrite T3. cbn [Z.leb Z.compare]. split; auto. split; auto.
          split; [unfold u64; lia|]. rewrite u64_idem. f_equal. lia.
        + split; auto.
      - injection E as <-. exists t. auto.
      - injection E as <-. exists t. auto.
      - exists t. split; [eapply cmd_add_other; eauto; lia|]. destruct (cmd_add_env _ _ _ _ _ E) as [-> ->]. auto.
      - injection E as <-. exists t. split.
        + unfold cmd_del. destruct (bad_id i) eqn:Bi; auto. destruct (get_counter x i) as [k'|] eqn:G; auto.
          destruct (get_counter_spec _ _ _ Bi G) as (Rk & u & Hu & _). rewrite Hu. destruct (tuser u) eqn:Eu; auto.
          rewrite tk_at_put by lia. destruct (k =? k') eqn:Ek; auto. assert (k = k') by lia. subst k'. congruence.
        + destruct (del_env x i) as [-> ->]. auto.
      - injection E as <-. exists t. split; [apply modify_other; [lia|exact Ht|apply D; destruct i; exact S]|].
        destruct (modify_env x i (fun t0 => tk_run t0 b)) as [-> ->]. auto.
      - injection E as <-. exists t. split; [apply modify_other; [lia|exact Ht|apply D; destruct i; exact S]|].
        destruct (modify_env x i (fun t0 => tk_set t0 n)) as [-> ->]. auto.
      - exfalso. apply (Hno TReset); auto. left. reflexivity. }
    destruct Hone as (t1 & H1 & H2 & H3 & H4 & H5). rewrite H5, <- H3.
    apply (IH x1 y t1); auto. apply (Forall_inv_tail HF). intros e' He. apply Hno. right. exact He.
Qed.

Lemma builtin_running cpc k es : 1 <= k <= 4 -> forall x y, builtin x -> (exists t, tk_at x k = Some t /\ trun t = true) ->
  Forall spares_builtin es -> trun_all cpc x es = Ok y -> exists t, tk_at y k = Some t /\ trun t = true.
Proof.
  intros Hk. induction es as [|e es IH]; intros x y B (t & Ht & Hrun) HF; cbn [trun_all].
  - intros X. injection X as <-. eauto.
  - destruct (tstep cpc x e) as [x1| |] eqn:E; cbn [rbind]; try discriminate. intros R.
    apply (IH x1 y); auto; [eapply builtin_step; eauto| |apply (Forall_inv_tail HF)].
    assert (D : forall i, (match i with ByNr k => ~ (1 <= k <= 4) | ByName n => ~ In n [n_time; n_isr; n_idle; n_halt] end) -> ~ designates k t i).
    { destruct (B k Hk) as (t0 & T1 & _ & _ & _ & T5). rewrite Ht in T1. injection T1 as <-.
      intros [n|n] H; cbn [designates]; [lia|]. rewrite T5. intros X. injection X as <-. apply H.
      unfold n_time, n_isr, n_idle, n_halt. cbn [In]. lia. }
    destruct (B k Hk) as (t0 & T1 & T2 & T3 & T4 & T5). rewrite Ht in T1. injection T1 as <-.
    pose proof (Forall_inv HF) as S. destruct e; cbn [tstep] in E.
    + destruct (uc_tick_at _ _ _ _ k E) as (I1 & I2 & I3). rewrite Ht in I3. eexists. split; [exact I3|].
      destruct (_ && _); auto.
    + injection E as <-. eauto.
    + injection E as <-. eauto.
    + exists t. split; auto. eapply cmd_add_other; eauto; lia.
    + injection E as <-. exists t. split; auto. unfold cmd_del. destruct (bad_id i) eqn:Bi; auto. destruct (get_counter x i) as [k'|] eqn:G; auto.
      destruct (get_counter_spec _ _ _ Bi G) as (Rk & u & Hu & _). rewrite Hu. destruct (tuser u) eqn:Eu; auto.
      rewrite tk_at_put by lia. destruct (k =? k') eqn:Ek; auto. assert (k = k') by lia. subst k'. congruence.
    + injection E as <-. exists t. split; auto. apply modify_other; [lia|exact Ht|apply D; destruct i; exact S].
    + injection E as <-. exists t. split; auto. apply modify_other; [lia|exact Ht|apply D; destruct i; exact S].
    + injection E as <-. exists (tk_set t 0). split; auto.
      unfold tk_at, reset_ctr in *. cbn [ctrs].
      assert (L : (4 < length (ctrs x))%nat).
      { destruct (B 4 ltac:(lia)) as (t4 & F & _). apply nth_some_lt in F. lia. }
      destruct (ctrs x) as [|z [|a [|b [|c [|d l]]]]]; cbn [length] in L; try lia.
      assert (k = 1 \/ k = 2 \/ k = 3 \/ k = 4) as [-> | [-> | [-> | ->]]] by lia;
      [change (Z.to_nat 1) with 1%nat in *|change (Z.to_nat 2) with 2%nat in *|change (Z.to_nat 3) with 3%nat in *|change (Z.to_nat 4) with 4%nat in *];
      cbn [nth] in Ht |- *; rewrite Ht; reflexivity.
Qed.

(** number of the built in counter *)
Definition slot_of (ty : tt) : Z := match ty with TAny => 1 | TIsr => 2 | TIdle => 3 | THalt => 4 end.

(** The clock counter of the simulator (and the isr, idle and halt counters)
    after any history, with any use of user timers and any number of resets:
    exactly the clocks since the last reset that passed in that state. *)
Theorem C24_builtin_since_reset : forall cpc before since y ty,
  Forall spares_builtin before -> Forall spares_builtin since -> (forall e, In e since -> e <> TReset) ->
  trun_all cpc tinit_st (before ++ TReset :: since) = Ok y ->
  exists t, tk_at y (slot_of ty) = Some t /\ tval t = clocks_of cpc ty false StGo since mod 2^64.
Proof.
  intros cpc before since y ty Fb Fs Hno E. rewrite trun_all_app in E.
  destruct (trun_all cpc tinit_st before) as [x| |] eqn:Eb; cbn [rbind trun_all] in E; try discriminate.
  assert (Hk : 1 <= slot_of ty <= 4) by (destruct ty; cbn; lia).
  assert (B : builtin x) by (eapply builtin_run; eauto; apply builtin_init).
  assert (Rn : exists t, tk_at x (slot_of ty) = Some t /\ trun t = true).
  { apply (builtin_running cpc (slot_of ty) before Hk tinit_st x builtin_init); auto. destruct ty; eexists; split; reflexivity. }
  cbn [tstep rbind] in E.
  assert (B1 : builtin (reset_ctr x)) by (apply (builtin_step cpc x TReset); auto).
  destruct (B1 _ Hk) as (t & T1 & T2 & T3 & T4 & T5).
  assert (Hz : tval t = 0 /\ trun t = true).
  { destruct Rn as (t0 & R1 & R2). clear - T1 B Hk R1 R2.
    unfold tk_at, reset_ctr in *. cbn [ctrs] in T1.
    assert (L : (4 < length (ctrs x))%nat).
    { destruct (B 4 ltac:(lia)) as (t4 & F & _). apply nth_some_lt in F. lia. }
    destruct (ctrs x) as [|z [|a [|b [|c [|d l]]]]]; cbn [length] in L; try lia.
    destruct ty; cbn [slot_of] in *; 
      [change (Z.to_nat 1) with 1%nat in *|change (Z.to_nat 2) with 2%nat in *|change (Z.to_nat 3) with 3%nat in *|change (Z.to_nat 4) with 4%nat in *];
      cbn [nth] in T1, R1; rewrite R1 in T1; injection T1 as <-; auto. }
  destruct Hz as [Z1 Z2].
  destruct (builtin_counts cpc (slot_of ty) since Hk (reset_ctr x) y t B1 T1 Z2) as (t' & H1 & _ & H2); auto; [lia|].
  exists t'. split; auto. rewrite H2, Z1. cbn [reset_ctr isr cst]. unfold u64. change (2^64) with 18446744073709551616.
  do 2 f_equal. rewrite T4. destruct ty; reflexivity.
Qed.
Print Assumptions C24_builtin_since_reset.

(** None of the partial times exceeds the total one (below 2^64 clocks). *)
Theorem C24_parts_below_total : forall cpc before since y ty,
  0 <= cpc -> Forall (fun e => match e with Tick c => 0 <= c | _ => True end) since ->
  clocks_of cpc TAny false StGo since < 2^64 ->
  Forall spares_builtin before -> Forall spares_builtin since -> (forall e, In e since -> e <> TReset) ->
  trun_all cpc tinit_st (before ++ TReset :: since) = Ok y ->
  exists t total, tk_at y (slot_of ty) = Some t /\ tk_at y 1 = Some total /\ tval t <= tval total.
Proof.
  intros cpc before since y ty Hc Hp Hb Fb Fs Hno E.
  destruct (C24_builtin_since_reset cpc before since y ty Fb Fs Hno E) as (t & H1 & H2).
  destruct (C24_builtin_since_reset cpc before since y TAny Fb Fs Hno E) as (u & H3 & H4).
  exists t, u. split; auto. split; auto. rewrite H2, H4.
  pose proof (clocks_le cpc ty false StGo since Hc Hp). rewrite !Z.mod_small by lia. lia.
Qed.
Print Assumptions C24_parts_below_total.

Example C24_example :
  let es := [TAdd (ByName 7) (-1) TIdle; Tick 3; TReset; Tick 5; SetIsr true; Tick 2; TRun (ByName 7) false; SetIsr false;
             SetCpu StIdle; Tick 4; TRun (ByName 7) true; Tick 10; SetCpu StGo; Tick 1] in
  match trun_all 12 tinit_st es with
  | Ok y => map (fun o => match o with Some t => tval t | None => 0 end) (ctrs y) = [0; 264; 24; 168; 0; 2^64 - 120]
  | _ => False end.
Proof. vm_compute. reflexivity. Qed.

(** -- C35: timers are identified by name or number -- *)
Theorem C35_names_unique : forall cpc es y, trun_all cpc tinit_st es = Ok y -> names_unique y.
Proof. intros. eapply names_run; eauto. apply names_init. Qed.
Print Assumptions C35_names_unique.

(** A new timer starts at zero, running, in a slot that held none; all others are
    untouched. An existing timer is not replaced. *)
Theorem C35_add : forall x i d ty y, bad_id i = false -> cmd_add x i d ty = Ok y ->
  (forall k, get_counter x i = Some k -> y = x) /\
  (get_counter x i = None -> exists k, 0 < k /\ tk_at x k = None /\
     (forall n, i = ByNr n -> k = n) /\
     (exists t, tk_at y k = Some t /\ tval t = 0 /\ trun t = true /\ tdir t = d /\ ttype t = ty /\
        tname t = match i with ByName n => Some n | ByNr _ => None end) /\
     (forall j, 0 <= j -> j <> k -> tk_at y j = tk_at x j)).
Proof.
  intros x i d ty y B E. unfold cmd_add in E. rewrite B in E. split.
  - intros k G. rewrite G in E. injection E as <-. reflexivity.
  - intros G. rewrite G in E. destruct i as [n|n]; cbn [bad_id] in B.
    + destruct (add_nr_spec _ _ n _ ltac:(lia) G E) as (_ & _ & A1 & A2 & A3).
      exists n. split; [lia|]. split; auto. split; [intros m X; congruence|]. split; auto.
      eexists. split; [exact A2|]. cbn. auto 10.
    + destruct (add_name_spec _ _ _ E) as (_ & _ & k & A0 & A1 & A2 & A3).
      exists k. split; auto. split; auto. split; [discriminate|]. split; auto.
      eexists. split; [exact A2|]. cbn. auto 10.
Qed.
Print Assumptions C35_add.

(** Deleting, starting, stopping and setting: exactly the designated timer. Built in
    ones are never deleted. *)
Theorem C35_commands_exact : forall x i k t n b, bad_id i = false -> get_counter x i = Some k -> tk_at x k = Some t ->
  (forall j, 0 <= j -> j <> k -> tk_at (cmd_del x i) j = tk_at x j /\
     tk_at (modify x i (fun t => tk_set t n)) j = tk_at x j /\
     tk_at (modify x i (fun t => tk_run t b)) j = tk_at x j) /\
  tk_at (cmd_del x i) k = (if tuser t then None else Some t) /\
  (0 <= n < 2^31 -> exists u, tk_at (modify x i (fun t => tk_set t n)) k = Some u /\ tval u = n /\ trun u = trun t) /\
  (exists u, tk_at (modify x i (fun t => tk_run t b)) k = Some u /\ tval u = tval t /\ trun u = b) /\
  designates k t i.
Proof.
  intros x i k t n b B G Ht. destruct (get_counter_spec _ _ _ B G) as (R & u & Hu & D).
  rewrite Ht in Hu. injection Hu as <-. unfold cmd_del, modify. rewrite B, G, Ht. split; [|split; [|split; [|split]]]; auto.
  - intros j Hj Hd. rewrite !tk_at_put by lia. replace (j =? k) with false by lia. split; auto.
    destruct (tuser t); auto. rewrite tk_at_put by lia. replace (j =? k) with false by lia. reflexivity.
  - destruct (tuser t); auto. rewrite tk_at_put by lia. rewrite Z.eqb_refl. reflexivity.
  - intros Hn. rewrite tk_at_put by lia. rewrite Z.eqb_refl. eexists. split; [reflexivity|]. cbn [tk_set tval trun]. split; auto.
    unfold u64, i32, u32. change (2^31) with 2147483648 in Hn. rewrite (Z.mod_small n) by lia.
    replace (n <? 2147483648) with true by lia. apply Z.mod_small. lia.
  - rewrite tk_at_put by lia. rewrite Z.eqb_refl. eexists. split; [reflexivity|]. cbn. auto.
Qed.
Print Assumptions C35_commands_exact.

(** Refutations: a timer can not be set to 2^31 or more; the time in seconds of a
    new timer is not initialised; a timer number of 8192 overruns the list. *)
Theorem C35_set_large_deviation :
  tval (tk_set (new_ticker 1 TAny None true) (2^31)) = 2^64 - 2^31.
Proof. reflexivity. Qed.
Theorem C35_new_timer_time_deviation : forall d ty n u, tinit (new_ticker d ty n u) = false.
Proof. reflexivity. Qed.
Theorem C35_large_number_deviation : forall d ty, cmd_add tinit_st (ByNr 8192) d ty = UB.
Proof. reflexivity. Qed.

Example C35_example :
  match trun_all 1 tinit_st [TAdd (ByNr 7) 1 TAny; Tick 3; TAdd (ByName 9) 1 TAny; TAdd (ByName 9) 1 TIsr; Tick 2;
                             TSet (ByName 9) 100; TDel (ByNr 7); TDel (ByNr 1); Tick 1] with
  | Ok y => map (fun o => match o with Some t => tval t | None => -1 end) (ctrs y) = [-1; 6; 0; 0; 0; 101; -1; -1]
  | _ => False end.
Proof. vm_compute. reflexivity. Qed.
Print Assumptions C35_set_large_deviation.
Print Assumptions C35_new_timer_time_deviation.
Print Assumptions C35_large_number_deviation.
