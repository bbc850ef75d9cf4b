(** C25, C26, C36, C37: run control and the frame of instruction execution. *)
From Verif Require Import Base RunModel.

(** the i-th instruction asks for nothing: result below resSTOP and no stop inside *)
Definition quiet (o : outcome) : Prop := o_res o < 100 /\ o_inner o = [].
Definition loud (o : outcome) : Prop := 100 <= o_res o \/ o_inner o <> [].

Lemma quiet_or_loud o : quiet o \/ loud o.
Proof.
  unfold quiet, loud. destruct (Z_lt_le_dec (o_res o) 100); [|auto]. destruct (o_inner o); [auto|].
  right. right. discriminate.
Qed.

Lemma step_quiet o x : quiet o ->
  let y := step o x in
  ran y = S (ran x) /\ stodo y = stodo x /\ limit y = limit x /\ now y = now x + o_clk o /\
  (go y = go x /\ meas y = meas x /\ sdone y = sdone x + 1 /\ reasons y = reasons x /\
     (stodo x <= 0 \/ sdone x + 1 < stodo x) /\
     (forall t, meas x = Some t -> t = 0 \/ now x + o_clk o < t)
   \/ go y = false /\ ((0 < stodo x /\ stodo x <= sdone x + 1) \/ exists t, meas x = Some t /\ t <> 0 /\ t <= now x + o_clk o)).
Proof.
  intros [Q1 Q2]. cbv zeta. unfold step. rewrite Q2. cbn [fold_left].
  replace (resSTOP <=? o_res o) with false by (unfold resSTOP; lia). cbn [stodo sdone].
  destruct ((0 <? stodo x) && (stodo x <=? sdone x + 1)) eqn:E.
  - unfold reached. cbn [stop meas now].
    destruct (meas x) as [t|] eqn:Em; cbn [meas]; [destruct (negb (t =? 0) && (t <=? now x + o_clk o)) eqn:Er|];
      cbn; repeat split; auto; right; (split; [reflexivity|]); left; lia.
  - unfold reached. cbn [meas now]. destruct (meas x) as [t|] eqn:Em.
    + destruct (negb (t =? 0) && (t <=? now x + o_clk o)) eqn:Er; cbn; repeat split; auto.
      * right. split; auto. right. exists t. split; auto. lia.
      * left. repeat split; auto; try lia. intros t' Ht. injection Ht as <-. lia.
    + cbn. repeat split; auto. left. repeat split; auto; try lia. discriminate.
Qed.

Lemma step_go_mono o x : go x = false -> go (step o x) = false.
Proof.
  intros H. unfold step.
  set (x0 := mkSim (go x) (sdone x) (stodo x) (limit x) (meas x) (now x + o_clk o) (frozen x) (reasons x) (S (ran x))).
  assert (H0 : forall l y, go y = false -> go (fold_left (stop (o_brk o)) l y) = false).
  { induction l as [|r l IH]; intros y Hy; cbn [fold_left]; auto. }
  specialize (H0 (o_inner o) x0 H).
  cbv zeta. destruct (resSTOP <=? o_res o); destruct ((0 <? _) && _); destruct (reached _); cbn [go stop]; auto.
Qed.

Lemma step_loud o x : loud o -> go (step o x) = false.
Proof.
  intros L. unfold step.
  set (x0 := mkSim (go x) (sdone x) (stodo x) (limit x) (meas x) (now x + o_clk o) (frozen x) (reasons x) (S (ran x))).
  set (x1 := fold_left (stop (o_brk o)) (o_inner o) x0).
  assert (H0 : o_inner o <> [] -> go x1 = false).
  { assert (K : forall l y, l <> [] \/ go y = false -> go (fold_left (stop (o_brk o)) l y) = false).
    { induction l as [|r l IH]; intros y [Hy|Hy]; cbn [fold_left]; auto; congruence. }
    intros Hn. apply K. auto. }
  cbv zeta. destruct L as [L|L].
  - replace (resSTOP <=? o_res o) with true by (unfold resSTOP; lia).
    destruct ((0 <? _) && _); destruct (reached _); reflexivity.
  - specialize (H0 L). destruct (resSTOP <=? o_res o); destruct ((0 <? _) && _); destruct (reached _); cbn [go stop]; auto.
Qed.

Lemma step_ran o x : ran (step o x) = S (ran x).
Proof.
  unfold step.
  set (x0 := mkSim (go x) (sdone x) (stodo x) (limit x) (meas x) (now x + o_clk o) (frozen x) (reasons x) (S (ran x))).
  assert (K : forall l y, ran (fold_left (stop (o_brk o)) l y) = ran y).
  { induction l as [|r l IH]; intros y; cbn [fold_left]; auto. rewrite IH. reflexivity. }
  specialize (K (o_inner o) x0). cbv zeta.
  destruct (resSTOP <=? o_res o); destruct ((0 <? _) && _); destruct (reached _); cbn [ran stop]; auto.
Qed.

Lemma idle_turns_S prog k x : idle_turns prog (S k) x = turn prog None (idle_turns prog k x).
Proof.
  unfold idle_turns. revert x. induction k as [|k IH]; intros x; [reflexivity|].
  change (repeat None (S (S k))) with (@None cmd :: repeat None (S k)). cbn [turns]. rewrite IH. reflexivity.
Qed.

Lemma stopped_stays prog k x : go x = false -> idle_turns prog k x = x.
Proof.
  intros H. induction k as [|k IH]; [reflexivity|]. rewrite idle_turns_S, IH. unfold turn. rewrite H. reflexivity.
Qed.

(** running without a measurer: after k turns *)
Lemma idle_run prog n x : go x = true -> meas x = None -> sdone x = 0 -> stodo x = n ->
  forall k, (n <= 0 \/ Z.of_nat k < n) -> (forall i, (i < k)%nat -> quiet (prog (ran x + i)%nat)) ->
  let y := idle_turns prog k x in
  go y = true /\ meas y = None /\ sdone y = Z.of_nat k /\ stodo y = n /\ ran y = (ran x + k)%nat /\ reasons y = reasons x.
Proof.
  intros Hg Hm Hd Ht k. induction k as [|k IH]; intros Hk Hq.
  - cbn. repeat split; auto; lia.
  - cbv zeta. rewrite idle_turns_S.
    destruct IH as (I1 & I2 & I3 & I4 & I5 & I6); [lia|intros i Hi; apply Hq; lia|].
    unfold turn. rewrite I1.
    pose proof (step_quiet (prog (ran (idle_turns prog k x))) (idle_turns prog k x)) as S.
    rewrite I5 in *. specialize (S (Hq k ltac:(lia))). cbv zeta in S.
    destruct S as (S1 & S2 & S3 & S4 & [(A1 & A2 & A3 & A4 & A5 & A6)|(A1 & [A2|(t & A2 & _)])]).
    + rewrite A1, A2, A3, A4, S1, S2. repeat split; auto; lia.
    + exfalso. lia.
    + congruence.
Qed.

(** -- C25 -- *)
(** `step n` (a number below one counts as one), no time limit pending: with the first loud instruction being number f
    (from 0), or none, exactly min(f+1, n) instructions are executed, however long
    the simulator runs on. *)
Theorem C25_step_exact : forall prog num x f, meas x = None ->
  let n := Z.max 1 num in
  (forall i, (i < f)%nat -> quiet (prog (ran x + i)%nat)) ->
  (Z.of_nat f < n -> loud (prog (ran x + f)%nat)) ->
  let total := Z.to_nat (Z.min (Z.of_nat f + 1) n) in
  forall k, let y := idle_turns prog k (do_cmd x (CStep num)) in
  (ran y - ran x)%nat = Nat.min k total /\ (go y = true <-> (k < total)%nat).
Proof.
  intros prog num x f Hm n Hq Hl total k. assert (Hn : 0 < n) by (unfold n; lia). set (x0 := do_cmd x (CStep num)).
  assert (X0 : go x0 = true /\ meas x0 = None /\ sdone x0 = 0 /\ stodo x0 = n /\ ran x0 = ran x).
  { unfold x0, do_cmd, start. replace (if num <=? 0 then 1 else num) with n
      by (unfold n; destruct (num <=? 0) eqn:E; lia). replace (n =? 0) with false by lia. cbn [andb go meas sdone stodo ran]. auto. }
  clearbody n. destruct X0 as (G & M & D & T & R).
  assert (Run : forall j, (j < total)%nat -> let y := idle_turns prog j x0 in
    go y = true /\ meas y = None /\ sdone y = Z.of_nat j /\ stodo y = n /\ ran y = (ran x0 + j)%nat /\ reasons y = reasons x0).
  { intros j Hj. apply idle_run; auto; [unfold total in Hj; lia|]. intros i Hi. rewrite R. apply Hq. unfold total in Hj. lia. }
  assert (Tp : exists p, total = S p) by (exists (Nat.pred total); unfold total; lia). destruct Tp as [p Ep].
  assert (Last : let y := idle_turns prog total x0 in go y = false /\ ran y = (ran x0 + total)%nat).
  { cbv zeta. rewrite Ep, idle_turns_S. destruct (Run p ltac:(lia)) as (I1 & I2 & I3 & I4 & I5 & I6).
    unfold turn. rewrite I1. rewrite step_ran, I5. split; [|lia].
    destruct (quiet_or_loud (prog (ran x0 + p)%nat)) as [Q|L]; [|apply step_loud; auto].
    pose proof (step_quiet (prog (ran x0 + p)%nat) (idle_turns prog p x0) Q) as S. cbv zeta in S.
    destruct S as (_ & _ & _ & _ & [(_ & _ & _ & _ & A5 & _)|(A1 & _)]); auto.
    exfalso. rewrite R in Q. destruct (Nat.eq_dec p f) as [->|Hpf].
    - destruct (Z_lt_le_dec (Z.of_nat f) n) as [L|L]; [|unfold total in Ep; lia].
      specialize (Hl L). destruct Q as [Q1 Q2]. destruct Hl; [lia|congruence].
    - unfold total in Ep. lia. }
  destruct Last as [L1 L2]. cbv zeta. destruct (Nat.lt_ge_cases k total) as [Hk|Hk].
  - destruct (Run k Hk) as (I1 & _ & _ & _ & I5 & _). rewrite I5, I1, R. rewrite Nat.min_l by lia. split; [lia|]. split; auto.
  - assert (E : idle_turns prog k x0 = idle_turns prog total x0).
    { replace k with (total + (k - total))%nat by lia. unfold idle_turns. rewrite repeat_app.
      assert (A : forall a b y, turns prog (a ++ b) y = turns prog b (turns prog a y)).
      { induction a as [|e a IH]; intros b y; cbn [app turns]; auto. }
      rewrite A. apply stopped_stays. exact L1. }
    rewrite E, L1, L2, R. rewrite Nat.min_r by lia. split; [lia|]. split; [discriminate|lia].
Qed.
Print Assumptions C25_step_exact.

(** `run` without limits: runs as long as every instruction is quiet, stops right
    after the first loud one. *)
Theorem C25_run_unlimited : forall prog x, meas x = None -> limit x = 0 ->
  (forall k, (forall i, (i < k)%nat -> quiet (prog (ran x + i)%nat)) ->
     let y := idle_turns prog k (do_cmd x CRun) in go y = true /\ (ran y - ran x)%nat = k) /\
  (forall f, (forall i, (i < f)%nat -> quiet (prog (ran x + i)%nat)) -> loud (prog (ran x + f)%nat) ->
     forall k, (f < k)%nat ->
     let y := idle_turns prog k (do_cmd x CRun) in go y = false /\ (ran y - ran x)%nat = S f).
Proof.
  intros prog x Hm Hl. set (x0 := do_cmd x CRun).
  assert (X0 : go x0 = true /\ meas x0 = None /\ sdone x0 = 0 /\ stodo x0 = 0 /\ ran x0 = ran x).
  { unfold x0, do_cmd, start. rewrite Hm. cbn. auto. }
  destruct X0 as (G & M & D & T & R).
  assert (K : forall k, (forall i, (i < k)%nat -> quiet (prog (ran x + i)%nat)) ->
     let y := idle_turns prog k x0 in go y = true /\ ran y = (ran x + k)%nat).
  { intros k Hq. destruct (idle_run prog 0 x0 G M D T k) as (I1 & _ & _ & _ & I5 & _); [lia| |].
    - intros i Hi. rewrite R. auto.
    - cbv zeta. rewrite I1, I5, R. auto. }
  split.
  - intros k Hq. destruct (K k Hq) as [K1 K2]. cbv zeta. rewrite K1, K2. split; [reflexivity|lia].
  - intros f Hq L k Hk. destruct (K f Hq) as [K1 K2]. cbv zeta.
    assert (L1 : go (idle_turns prog (S f) x0) = false /\ ran (idle_turns prog (S f) x0) = S (ran x + f)).
    { rewrite idle_turns_S. unfold turn. rewrite K1, step_ran, K2. split; [|reflexivity]. apply step_loud. exact L. }
    assert (E : idle_turns prog k x0 = idle_turns prog (S f) x0).
    { replace k with (S f + (k - S f))%nat by lia. unfold idle_turns. rewrite repeat_app.
      assert (A : forall a b y, turns prog (a ++ b) y = turns prog b (turns prog a y)).
      { induction a as [|e a IH]; intros b y; cbn [app turns]; auto. }
      rewrite A. apply stopped_stays. apply L1. }
    rewrite E. destruct L1 as [L1 L2]. rewrite L1, L2. split; [reflexivity|lia].
Qed.
Print Assumptions C25_run_unlimited.

(** With an execution limit, `run` executes at most that many. *)
Theorem C25_limit : forall prog x L, meas x = None -> 0 < L ->
  let x1 := do_cmd x (CLimit L) in
  forall k, let y := idle_turns prog k (do_cmd x1 CRun) in
  (Z.of_nat (ran y - ran x) <= L) /\ (go y = true -> Z.of_nat (ran y - ran x) < L).
Proof.
  intros prog x L Hm HL x1 k. set (x0 := do_cmd x1 CRun).
  assert (X0 : go x0 = true /\ meas x0 = None /\ sdone x0 = 0 /\ stodo x0 = L /\ ran x0 = ran x).
  { unfold x0, x1, do_cmd, start, set_limit. replace (L =? 0) with false by lia. cbn [meas]. rewrite Hm. cbn. auto. }
  destruct X0 as (G & M & D & T & R).
  assert (Inv : forall k, let y := idle_turns prog k x0 in
    (ran x <= ran y)%nat /\ (Z.of_nat (ran y - ran x) <= L) /\
    (go y = true -> Z.of_nat (ran y - ran x) < L /\ sdone y = Z.of_nat (ran y - ran x) /\ stodo y = L)).
  { clear k. induction k as [|k IH].
    - change (idle_turns prog 0 x0) with x0. cbv zeta. rewrite R, D, T. repeat split; lia.
    - cbv zeta in *. rewrite idle_turns_S. unfold turn. destruct IH as (I0 & I1 & I2).
      destruct (go (idle_turns prog k x0)) eqn:Eg; [|rewrite Eg; repeat split; auto; discriminate].
      destruct (I2 eq_refl) as (J1 & J2 & J3). rewrite step_ran. split; [lia|].
      destruct (quiet_or_loud (prog (ran (idle_turns prog k x0)))) as [Q|Lo].
      + pose proof (step_quiet _ (idle_turns prog k x0) Q) as S. cbv zeta in S.
        destruct S as (_ & S2 & _ & _ & [(A1 & A2 & A3 & _ & A5 & _)|(A1 & _)]).
        * split; [lia|]. intros _. rewrite A3, S2. lia.
        * split; [lia|]. rewrite A1. discriminate.
      + split; [lia|]. rewrite step_loud by auto. discriminate. }
  destruct (Inv k) as (_ & A & B). split; auto. intros C. apply B in C. tauto.
Qed.
Print Assumptions C25_limit.

Example C25_example :
  let prog := fun i => mkO (if Nat.eqb i 6 then 101 else 0) 1 [] false in
  let x := mkSim false 0 0 0 None 0 false [] 2 in
  ran (idle_turns prog 50 (do_cmd x (CStep 3))) = 5%nat /\ ran (idle_turns prog 50 (do_cmd x (CStep 30))) = 7%nat /\
  reasons (idle_turns prog 50 (do_cmd x CRun)) = [101].
Proof. vm_compute. auto. Qed.

(** A time limit left over from an interrupted `step n clk` is still in force: it
    stops a later `run` or `step` (so the claim fails without [meas x = None]). *)
Theorem C25_stale_time_limit_deviation :
  let prog := fun i => mkO (if Nat.eqb i 1 then resBREAKPOINT else 0) 1 [] true in
  let x := mkSim false 0 0 0 None 0 false [] 0 in
  let y := idle_turns prog 10 (do_cmd x (CStepClk 5)) in
  let z := idle_turns prog 100 (do_cmd y CRun) in
  go y = false /\ ran y = 2%nat /\ (forall i, (2 <= i)%nat -> quiet (prog i)) /\
  go z = false /\ ran z = 5%nat /\ reasons z = [resBREAKPOINT; resBREAKPOINT].
Proof.
  cbv zeta. split; [reflexivity|]. split; [reflexivity|]. split; [|repeat split].
  intros i Hi. unfold quiet. cbn [o_res o_inner]. destruct (Nat.eqb_spec i 1); [lia|]. split; [lia|reflexivity].
Qed.
Print Assumptions C25_stale_time_limit_deviation.

(** -- C37: step with a unit of time -- *)
Fixpoint clk_sum (prog : nat -> outcome) (from k : nat) : Z :=
  match k with O => 0 | S j => clk_sum prog from j + o_clk (prog (from + j)%nat) end.

(** `step n clk` stops after exactly the first instruction at whose end n clocks have
    passed, if no instruction is loud and the target time is not 0. *)
Theorem C37_step_time : forall prog n x f,
  now x + n <> 0 ->
  (forall i, (i <= f)%nat -> quiet (prog (ran x + i)%nat)) ->
  (forall j, (0 < j <= f)%nat -> clk_sum prog (ran x) j < n) -> n <= clk_sum prog (ran x) (S f) ->
  (forall k, (k <= f)%nat -> go (idle_turns prog k (do_cmd x (CStepClk n))) = true) /\
  (forall k, (f < k)%nat -> let y := idle_turns prog k (do_cmd x (CStepClk n)) in
     go y = false /\ (ran y - ran x)%nat = S f /\ meas y = None).
Proof.
  intros prog n x f Hz Hq Hb Hn. set (x0 := do_cmd x (CStepClk n)).
  assert (X0 : go x0 = true /\ meas x0 = Some (now x + n) /\ stodo x0 = 0 /\ ran x0 = ran x /\ now x0 = now x).
  { unfold x0, do_cmd, start, stop_when. cbn. auto. }
  destruct X0 as (G & M & T & R & N).
  assert (K : forall k, (k <= f)%nat -> let y := idle_turns prog k x0 in
    go y = true /\ meas y = Some (now x + n) /\ stodo y = 0 /\ ran y = (ran x + k)%nat /\ now y = now x + clk_sum prog (ran x) k).
  { induction k as [|k IH]; intros Hk.
    - cbn. repeat split; auto; lia.
    - destruct IH as (I1 & I2 & I3 & I4 & I5); [lia|]. cbv zeta. rewrite idle_turns_S. unfold turn. rewrite I1, I4.
      pose proof (step_quiet (prog (ran x + k)%nat) (idle_turns prog k x0) (Hq k ltac:(lia))) as S. cbv zeta in S.
      specialize (Hb (k + 1)%nat ltac:(lia)). rewrite Nat.add_1_r in Hb. cbn [clk_sum] in *.
      destruct S as (S1 & S2 & S3 & S4 & [(A1 & A2 & _)|(A1 & [A2|(t & A2 & A3 & A4)])]).
      + rewrite A1, A2, S1, S2, S4. repeat split; auto; lia.
      + lia.
      + rewrite I2 in A2. injection A2 as <-. lia. }
  split; [intros k Hk; apply K; lia|]. intros k Hk. cbv zeta.
  assert (L : go (idle_turns prog (S f) x0) = false /\ ran (idle_turns prog (S f) x0) = S (ran x + f) /\ meas (idle_turns prog (S f) x0) = None).
  { rewrite idle_turns_S. destruct (K f ltac:(lia)) as (I1 & I2 & I3 & I4 & I5). unfold turn. rewrite I1.
    rewrite step_ran, I4. cbn [clk_sum] in Hn. 
    assert (Q := Hq f ltac:(lia)). unfold step. destruct Q as [Q1 Q2]. rewrite Q2. cbn [fold_left].
    replace (resSTOP <=? o_res (prog (ran x + f)%nat)) with false by (unfold resSTOP; lia).
    cbn [stodo sdone]. rewrite I3. cbn [Z.ltb Z.compare andb]. unfold reached. cbn [meas now]. rewrite I2, I5.
    replace (negb (now x + n =? 0) && (now x + n <=? now x + clk_sum prog (ran x) f + o_clk (prog (ran x + f)%nat))) with true by lia.
    cbn. auto. }
  assert (E : idle_turns prog k x0 = idle_turns prog (S f) x0).
  { replace k with (S f + (k - S f))%nat by lia. unfold idle_turns. rewrite repeat_app.
    assert (A : forall a b y, turns prog (a ++ b) y = turns prog b (turns prog a y)).
    { induction a as [|e a IH]; intros b y; cbn [app turns]; auto. }
    rewrite A. apply stopped_stays. apply L. }
  rewrite E. destruct L as (L1 & L2 & L3). rewrite L1, L2, L3. repeat split; auto. lia.
Qed.
Print Assumptions C37_step_time.

(** Refutation for a target time of zero: `step 0 clk` just after reset never stops,
    not even if there is an execution limit. *)
Theorem C37_step_zero_deviation : forall prog lim, (forall i, quiet (prog i)) ->
  let x := mkSim false 0 0 lim None 0 false [] 0 in
  forall k, go (idle_turns prog k (do_cmd x (CStepClk 0))) = true.
Proof.
  intros prog lim Hq x k.
  assert (K : let y := idle_turns prog k (do_cmd x (CStepClk 0)) in go y = true /\ meas y = Some 0 /\ stodo y = 0).
  { induction k as [|k IH]; [cbn; auto|]. cbv zeta in *. rewrite idle_turns_S. destruct IH as (I1 & I2 & I3).
    unfold turn. rewrite I1. pose proof (step_quiet _ (idle_turns prog k (do_cmd x (CStepClk 0))) (Hq (ran (idle_turns prog k (do_cmd x (CStepClk 0)))))) as S.
    cbv zeta in S. destruct S as (S1 & S2 & S3 & S4 & [(A1 & A2 & _)|(A1 & [A2|(t & A2 & A3 & A4)])]).
    - rewrite A1, A2, S2. auto.
    - lia.
    - rewrite I2 in A2. injection A2 as <-. congruence. }
  apply K.
Qed.
Print Assumptions C37_step_zero_deviation.

Example C37_example :
  let prog := fun i => mkO 0 3 [] false in
  let x := mkSim false 0 0 0 None 100 false [] 0 in
  ran (idle_turns prog 20 (do_cmd x (CStepClk 7))) = 3%nat /\ reasons (idle_turns prog 20 (do_cmd x (CStepClk 7))) = [resBREAKPOINT].
Proof. vm_compute. auto. Qed.

(** -- C36: the stop command -- *)
(** A stop command processed while the simulation runs: at most one more
    instruction is executed, and none after that. *)
Theorem C36_stop_command : forall prog x k,
  go x = true ->
  let y := turns prog (Some CStop :: repeat None k) x in go y = false /\ (ran y - ran x)%nat = 1%nat.
Proof.
  intros prog x k G. cbv zeta. cbn [turns]. 
  assert (E : go (turn prog (Some CStop) x) = false /\ ran (turn prog (Some CStop) x) = S (ran x)).
  { unfold turn. rewrite G. rewrite step_ran. split; [apply step_go_mono; reflexivity|reflexivity]. }
  destruct E as [E1 E2]. change (turns prog (repeat None k) (turn prog (Some CStop) x)) with (idle_turns prog k (turn prog (Some CStop) x)).
  rewrite stopped_stays by auto. rewrite E1, E2. split; auto. lia.
Qed.
Print Assumptions C36_stop_command.

(** So the instruction after the command is executed in every case: the claim
    "no instruction is executed after a stop command" fails. *)
Theorem C36_stop_not_immediate_deviation : forall prog x, go x = true ->
  ran (turn prog (Some CStop) x) <> ran x.
Proof. intros prog x G. unfold turn. rewrite G, step_ran. cbn. lia. Qed.
Print Assumptions C36_stop_not_immediate_deviation.
Example C36_example : let x := mkSim true 3 0 0 None 0 true [] 3 in
  ran (turns (fun _ => mkO 0 1 [] false) [None; Some CStop; None; None] x) = 5%nat.
Proof. vm_compute. reflexivity. Qed.

(** -- C26 -- *)
Section E.
Variable M : Type.
Variable PCmask : Z.
Variable rd : M -> Z -> Z.
Variable itab : Z -> option (Z -> M -> Z -> M * Z * Z).
Variable brk : M -> Z -> bool * M.
Variable post : M -> M.
Variable intr : M -> Z -> M * Z * Z.
Variable cpu_go selfjump : M -> bool.
Notation do_inst := (do_inst M PCmask rd itab brk post intr cpu_go selfjump).

(** do_interrupt gives resGO or resINTERRUPT *)
Hypothesis intr_res : forall m a, snd (intr m a) = resGO \/ snd (intr m a) = resINTERRUPT.

(** When an invalid instruction is reported, PC is its address. *)
Theorem C26_invalid_instruction : forall m pc ipc m' pc' ipc',
  do_inst m pc ipc = (m', pc', ipc', resINV_INST) -> pc' = pc /\ ipc' = pc.
Proof.
  intros m pc ipc m' pc' ipc'. unfold RunModel.do_inst.
  destruct (cpu_go m) eqn:G.
  - destruct (exec_inst M PCmask rd itab brk m pc) as [[m0 pc0] r0] eqn:Ex.
    destruct (_ && _ && _); [intros X; injection X; discriminate|].
    destruct ((r0 =? resGO) || (r0 =? resNOT_DONE)) eqn:E.
    + destruct (intr (post m0) (if r0 =? resINV_INST then pc else pc0)) as [[m3 pc3] r3] eqn:Ei.
      pose proof (intr_res (post m0) (if r0 =? resINV_INST then pc else pc0)) as H. rewrite Ei in H. cbn [snd] in H.
      intros X. injection X as _ _ _ X. unfold resGO, resINV_INST, resNOT_DONE, resINTERRUPT in *. 
      destruct (r3 =? 0); lia.
    + intros X. injection X as _ <- <- ->. rewrite Z.eqb_refl. auto.
  - cbn [Z.eqb resGO andb orb]. destruct ((pc =? ipc) && selfjump (post m)); [intros X; injection X; discriminate|].
    destruct (intr (post m) pc) as [[m3 pc3] r3] eqn:Ei.
    pose proof (intr_res (post m) pc) as H. rewrite Ei in H. cbn [snd] in H.
    intros X. injection X as _ _ _ X. unfold resGO, resINV_INST, resNOT_DONE, resINTERRUPT in *. destruct (r3 =? 0); lia.
Qed.

(** When an instruction is reported as not done (not implemented, or to be
    repeated), PC is its address, on which interrupts may be accepted then. *)
Theorem C26_not_done : forall m pc ipc m' pc' ipc',
  do_inst m pc ipc = (m', pc', ipc', resNOT_DONE) ->
  ipc' = pc /\ exists m2, fst (intr m2 pc) = (m', pc').
Proof.
  intros m pc ipc m' pc' ipc'. unfold RunModel.do_inst.
  destruct (cpu_go m) eqn:G.
  - destruct (exec_inst M PCmask rd itab brk m pc) as [[m0 pc0] r0] eqn:Ex.
    assert (Hpc : r0 = resNOT_DONE -> pc0 = pc).
    { unfold exec_inst in Ex. destruct (brk m pc) as [hit m1]. destruct hit; [injection Ex as <- <- <-; auto|].
      destruct (itab (rd m1 pc)) as [f|]; [|injection Ex as <- <- <-; auto].
      destruct (f (rd m1 pc) m1 (Z.land (pc + 1) PCmask)) as [[m2 pc2] r2]. destruct (r2 =? resNOT_DONE) eqn:E2.
      - injection Ex as <- <- <-. auto.
      - injection Ex as <- <- <-. intros X. unfold resNOT_DONE in *; lia. }
    destruct (_ && _ && _); [intros X; injection X; discriminate|].
    destruct ((r0 =? resGO) || (r0 =? resNOT_DONE)) eqn:E.
    + destruct (intr (post m0) (if r0 =? resINV_INST then pc else pc0)) as [[m3 pc3] r3] eqn:Ei.
      pose proof (intr_res (post m0) (if r0 =? resINV_INST then pc else pc0)) as H. rewrite Ei in H. cbn [snd] in H.
      intros X. injection X as <- <- <- X. split; auto.
      assert (r0 = resNOT_DONE) as ->.
      { unfold resGO, resINV_INST, resNOT_DONE, resINTERRUPT in *. destruct (r3 =? 0); lia. }
      exists (post m0). cbn [Z.eqb resNOT_DONE resINV_INST Pos.eqb] in Ei. rewrite (Hpc eq_refl) in Ei. rewrite Ei. reflexivity.
    + intros X. injection X as _ _ _ X. unfold resGO, resNOT_DONE in *. lia.
  - cbn [Z.eqb resGO andb orb]. destruct ((pc =? ipc) && selfjump (post m)); [intros X; injection X; discriminate|].
    destruct (intr (post m) pc) as [[m3 pc3] r3] eqn:Ei.
    pose proof (intr_res (post m) pc) as H. rewrite Ei in H. cbn [snd] in H.
    intros X. injection X as _ _ _ X. unfold resGO, resINV_INST, resNOT_DONE, resINTERRUPT in *. destruct (r3 =? 0); lia.
Qed.

(** A fetch breakpoint that hits: nothing of the instruction is executed, PC stays,
    no interrupt is accepted. *)
Theorem C26_breakpoint_before_execution : forall m pc ipc, cpu_go m = true -> fst (brk m pc) = true ->
  do_inst m pc ipc = (post (snd (brk m pc)), pc, pc, resBREAKPOINT).
Proof.
  intros m pc ipc G Hb. unfold RunModel.do_inst. rewrite G. unfold exec_inst.
  destruct (brk m pc) as [hit m1]. cbn [fst] in Hb. subst hit. reflexivity.
Qed.

(** PC stays inside its mask, provided that instructions and interrupts set PC inside
    it; the fetch itself never leaves it. *)
Theorem C26_pc_in_mask : 
  (forall c f m pc, itab c = Some f -> Z.land pc PCmask = pc -> let '(_, pc', _) := f c m pc in Z.land pc' PCmask = pc') ->
  (forall m pc, Z.land pc PCmask = pc -> let '(_, pc', _) := intr m pc in Z.land pc' PCmask = pc') ->
  forall m pc ipc m' pc' ipc' r, do_inst m pc ipc = (m', pc', ipc', r) ->
  Z.land pc PCmask = pc -> Z.land pc' PCmask = pc'.
Proof.
  intros Hf Hi m pc ipc m' pc' ipc' r E Hpc. unfold RunModel.do_inst in E.
  destruct (if cpu_go m then _ else _) as [[[m1 pc1] ipc1] r1] eqn:E1.
  assert (Z.land pc1 PCmask = pc1) as H1.
  { destruct (cpu_go m); [|injection E1 as <- <- <- <-; auto].
    destruct (exec_inst M PCmask rd itab brk m pc) as [[m0 pc0] r0] eqn:Ex. injection E1 as <- <- <- <-.
    destruct (r0 =? resINV_INST); auto. unfold exec_inst in Ex. destruct (brk m pc) as [hit m2].
    destruct hit; [injection Ex as <- <- <-; auto|].
    destruct (itab (rd m2 pc)) as [f|] eqn:Ef; [|injection Ex as <- <- <-; auto].
    specialize (Hf (rd m2 pc) f m2 (Z.land (pc + 1) PCmask) Ef).
    destruct (f (rd m2 pc) m2 (Z.land (pc + 1) PCmask)) as [[m3 pc3] r3].
    destruct (r3 =? resNOT_DONE); injection Ex as <- <- <-; auto. apply Hf.
    rewrite <- Z.land_assoc, Z.land_diag. reflexivity. }
  destruct (_ && _ && _); [injection E as <- <- <- <-; auto|].
  destruct (_ || _); [|injection E as <- <- <- <-; auto].
  specialize (Hi (post m1) pc1 H1). destruct (intr (post m1) pc1) as [[m3 pc3] r3]. injection E as <- <- <- <-. exact Hi.
Qed.
End E.
Print Assumptions C26_invalid_instruction.
Print Assumptions C26_not_done.
Print Assumptions C26_pc_in_mask.

(** a small machine: code 0 is invalid, 1 increments, 2 jumps to itself, 3 is missing *)
Example C26_example :
  let itab := fun c => if c =? 0 then Some (fun _ m pc => (m, pc, resINV_INST)) else if c =? 1 then Some (fun _ m pc => (m + 1, pc, resGO))
     else if c =? 2 then Some (fun _ m pc => (m, Z.land (pc - 1) 255, resGO)) else None in
  let d : Z -> Z -> Z -> Z -> Z * Z * Z * Z := fun code => do_inst Z 255 (fun _ _ => code) itab (fun m _ => (false, m)) (fun m => m) (fun m pc => (m, pc, resGO)) (fun _ => true) (fun _ => true) in
  (d 0 7 255 3 = (7, 255, 255, resINV_INST)) /\ d 1 7 255 3 = (8, 0, 255, resGO) /\ d 2 7 255 3 = (7, 255, 255, resSELFJUMP) /\
  d 3 7 255 3 = (7, 255, 255, resNOT_DONE).
Proof. vm_compute. auto. Qed.
Print Assumptions C26_breakpoint_before_execution.
