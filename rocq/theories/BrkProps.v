(** C18, C19, C20, C32: breakpoints. [start] and [size] describe the code memory. *)
From Verif Require Import Base BrkModel BrkSpec BrkProofs BrkProofs2.

(** C18. In every state reached by any history (invalid addresses included) the
    numbers of all breakpoints are different. *)
Theorem C18_numbers_distinct : forall start size ops s rs,
  run start size init_st ops = Ok (s, rs) -> NoDup (map nr (fl s ++ el s)).
Proof.
  intros start size ops s rs H. apply (i_nodup start size). eapply run_inv; [apply Inv_init | exact H].
Qed.
Print Assumptions C18_numbers_distinct.

(** C18. `delete n' removes the breakpoint with that number and nothing else, if
    it is not a fetch breakpoint at an address out of the code memory. *)
Theorem C18_delete_exact : forall start size ops s rs n,
  run start size init_st ops = Ok (s, rs) ->
  (forall b, In b (fl s) -> nr b = n -> start <= baddr b < start + size) ->
  exists s', step start size s (Delete n) = Ok (s', false) /\
    fl s' = without n (fl s) /\ el s' = without n (el s) /\
    (forall a, start <= a < start + size ->
       (bp_at start size s' a = true <-> exists b, In b (fl s) /\ baddr b = a /\ nr b <> n)).
Proof.
  intros start size ops s rs n H Hv.
  assert (I : Inv start size s) by (eapply run_inv; [apply Inv_init | exact H]).
  exists (fst (rm_brk start size s n)). split; [reflexivity|].
  destruct (rm_brk_ok start size s n I) as (E1 & E2 & E3 & E4 & E5).
  { intros b Hb Hn. apply valid_iff. auto. }
  cbv zeta in *. split; [exact E1|]. split; [exact E2|]. intros a Ha.
  rewrite (bp_at_iff start size _ a (Inv_rm_brk start size s n I)). rewrite E1.
  split.
  - intros (_ & b & Hb & Ea). apply in_without in Hb. exists b. tauto.
  - intros (b & Hb & Ea & Hn). split; [apply valid_iff; auto|]. exists b. rewrite in_without. auto.
Qed.
Print Assumptions C18_delete_exact.

(** A breakpoint at an address out of the code memory (which can be made, even twice
    at the same address) is not removed: `delete' changes nothing then ... *)
Theorem C18_delete_outside : forall start size ops s rs b,
  run start size init_st ops = Ok (s, rs) -> In b (fl s) -> ~ (start <= baddr b < start + size) ->
  step start size s (Delete (nr b)) = Ok (s, false).
Proof.
  intros start size ops s rs b H Hb Hv. cbn [step]. unfold rm_brk.
  pose proof (C18_numbers_distinct start size ops s rs H) as D. rewrite map_app in D.
  assert (D1 : NoDup (map nr (fl s))).
  { clear -D. induction (map nr (fl s)) as [|x l IH]; [constructor|]. cbn in D. inversion D; subst. constructor; [|auto].
    intros Hx. apply H1. apply in_or_app. auto. }
  destruct (get_bp_nr (fl s) (nr b)) as [i|] eqn:E.
  - unfold get_bp_nr in E. destruct (index_if_spec _ _ _ E) as (b' & E1 & E2). rewrite E1.
    assert (b' = b).
    { apply (nodup_map_inj nr (fl s)); auto; [eapply nth_error_In; eauto|lia]. }
    subst b'. unfold del_bp_at, get_bp_at.
    destruct (valid_address start size (baddr b)) eqn:V; [|reflexivity]. apply valid_iff in V. contradiction.
  - exfalso. unfold get_bp_nr in E. pose proof (index_if_none _ _ E b Hb) as Q. cbv beta in Q. lia.
Qed.
Print Assumptions C18_delete_outside.

(** ... and `delete' without parameters never ends. *)
Theorem C18_delete_all_outside : forall start size s b,
  In b (fl s) -> ~ (start <= baddr b < start + size) ->
  (forall n, remove_all start size n s = None) /\ step start size s DeleteAll = UB.
Proof.
  assert (G : forall start size n s b, In b (fl s) -> ~ (start <= baddr b < start + size) -> remove_all start size n s = None).
  { intros start size n. unfold remove_all. 
    enough (Q : forall s b, In b (fl s) -> ~ (start <= baddr b < start + size) -> remove_fetch start size n s = None).
    { intros s b H1 H2. rewrite (Q s b H1 H2). reflexivity. }
    induction n as [|n IH]; intros s b Hb Hv; cbn [remove_fetch].
    - destruct (fl s); [destruct Hb|reflexivity].
    - destruct (fl s) as [|b0 t] eqn:F; [destruct Hb|]. apply (IH _ b); [|exact Hv].
      unfold del_bp_at. destruct (get_bp_at start size s (baddr b0)) as [i|] eqn:E; [|rewrite F; exact Hb].
      unfold get_bp_at in E. destruct (valid_address start size (baddr b0) && flags s (baddr b0)) eqn:V; [|discriminate].
      destruct (index_if_spec _ _ _ E) as (b' & E1 & E2). rewrite E1. cbn [fl set_flag]. 
      assert (N : baddr b' <> baddr b).
      { intros Q. apply Hv. rewrite <- Q. apply andb_true_iff in V. destruct V as [V _]. apply valid_iff in V.
        cbv beta in E2. replace (baddr b') with (baddr b0) by lia. exact V. }
      assert (Hin : In b (remove_nth (fl s) i)).
      { rewrite <- F in Hb. clear -Hb E1 N. unfold remove_nth. revert i E1. induction (fl s) as [|x l IH]; intros i E1; [destruct Hb|].
        destruct i as [|i].
        - cbn in E1. injection E1 as ->. cbn. destruct Hb as [->|Hb]; [congruence|exact Hb].
        - cbn in E1. cbn [firstn skipn app]. destruct Hb as [->|Hb]; [left; reflexivity|right; apply IH; auto]. }
      unfold set_flag. destruct (valid_address start size (baddr b')); exact Hin. }
  intros start size s b Hb Hv. split; [intros n; eapply G; eauto|].
  cbn [step]. rewrite (G start size _ s b Hb Hv). reflexivity.
Qed.
Print Assumptions C18_delete_all_outside.

Example C18_outside_example :
  match run 0 0x10000 init_st [Break 0x20000 false 1; Break 0x20000 false 1; Delete 1] with
  | Ok (s, _) => map (fun b => (nr b, baddr b)) (fl s) = [(1, 0x20000); (2, 0x20000)]
  | _ => False end.
Proof. vm_compute. reflexivity. Qed.

(** With valid addresses every history of less than 8192 operations succeeds and
    `delete' without parameters removes everything. *)
Theorem C18_valid_histories_succeed : forall start size ops,
  Forall (op_valid start size) ops -> Z.of_nat (length ops) < 8192 ->
  exists s rs, run start size init_st ops = Ok (s, rs) /\
  exists s', step start size s DeleteAll = Ok (s', false) /\ fl s' = [] /\ el s' = [] /\
    forall a, bp_at start size s' a = false.
Proof.
  intros start size ops Hv Hl.
  destruct (run_total start size ops init_st 0) as (s & rs & E & A); auto.
  - apply Inv_init.
  - constructor.
  - unfold small; cbn; lia.
  - lia.
  - lia.
  - exists s, rs. split; [exact E|].
    assert (I : Inv start size s) by (eapply run_inv; [apply Inv_init | exact E]).
    destruct (remove_fetch_total start size (length (fl s)) s I A) as (s1 & E1); auto.
    cbn [step]. destruct (remove_all start size (length (fl s)) s) as [s2|] eqn:E2.
    + exists s2. destruct (remove_all_ok start size _ _ _ I E2) as (I2 & F & L). split; auto. split; auto. split; auto.
      intros a. destruct (bp_at start size s2 a) eqn:B; auto. apply bp_at_iff in B; auto.
      destruct B as (_ & b & Hb & _). rewrite F in Hb. destruct Hb.
    + unfold remove_all in E2. rewrite E1 in E2. discriminate.
Qed.
Print Assumptions C18_valid_histories_succeed.

(** C19. In every reachable state a code cell is marked iff there is a fetch
    breakpoint at it, and there is at most one. *)
Theorem C19_flags_agree : forall start size ops s rs,
  run start size init_st ops = Ok (s, rs) ->
  forall a, start <= a < start + size ->
  (flags s a = true <-> exists b, In b (fl s) /\ baddr b = a) /\
  (forall i j b b', nth_error (fl s) i = Some b -> nth_error (fl s) j = Some b' ->
     baddr b = a -> baddr b' = a -> i = j).
Proof.
  intros start size ops s rs H a Ha.
  assert (I : Inv start size s) by (eapply run_inv; [apply Inv_init | exact H]).
  apply valid_iff in Ha. split.
  - rewrite (i_flag _ _ _ I). tauto.
  - intros i j b b' Hi Hj E1 E2.
    assert (b = b') as <-.
    { apply (inv_uniq start size s); auto; try (eapply nth_error_In; eauto); congruence. }
    pose proof (inv_nd_fl start size s I) as ND. rewrite NoDup_nth_error in ND.
    apply ND.
    + rewrite map_length. apply nth_error_Some. congruence.
    + rewrite !nth_error_map, Hi, Hj. reflexivity.
Qed.
Print Assumptions C19_flags_agree.

(** Example history with restarts of the counter, temporary breakpoints, hits. *)
Example C18_example :
  match run 0 0x10000 init_st
          [Break 0x10 false 1; BreakEv 0x30 false 1; Break 0x20 true 1; Break 0x10 false 7;
           Hit 0x20 true; Delete 1; Break 0x12 false 2; Hit 0x12 true; Hit 0x12 true] with
  | Ok (s, rs) => map (fun b => (nr b, baddr b)) (fl s) = [(4, 0x12)] /\
                  map nr (el s) = [2] /\
                  rs = [false; false; false; false; true; false; false; false; true]
  | _ => False end.
Proof. vm_compute. auto. Qed.

(** C20. One breakpoint object: the results of its hits. *)
Theorem C20_hit_results : forall b cs, bcnt b = bhit b ->
  forall j c, nth_error cs j = Some c ->
  let b' := fold_left (fun b c => fst (do_hit b c)) (firstn j cs) b in
  snd (do_hit b' c) = accepts (bhit b) (Z.of_nat j + 1) c.
Proof.
  intros b cs Hb j c Hj. cbv zeta.
  assert (K : forall l b k, cnt_ok k b -> 0 <= k ->
    let x := fold_left (fun b c => fst (do_hit b c)) l b in cnt_ok (k + Z.of_nat (length l)) x /\ bhit x = bhit b).
  { induction l as [|y l IH]; intros b0 k H Hk; cbn [fold_left length].
    - replace (k + Z.of_nat 0) with k by lia. auto.
    - destruct (do_hit_count k b0 y Hk H) as [H1 _].
      destruct (IH (fst (do_hit b0 y)) (k + 1) H1 ltac:(lia)) as [H2 H3]. cbv zeta.
      replace (k + Z.of_nat (S (length l))) with (k + 1 + Z.of_nat (length l)) by lia.
      split; auto. rewrite H3. symmetry. apply (do_hit_id b0 y). }
  assert (H0 : cnt_ok 0 b).
  { unfold cnt_ok. rewrite Hb. destruct (bhit b <? 1) eqn:E; auto. rewrite Z.mod_0_l; lia. }
  assert (L : length (firstn j cs) = j).
  { apply firstn_length_le. apply Nat.lt_le_incl. apply nth_error_Some. congruence. }
  destruct (K (firstn j cs) b 0 H0 ltac:(lia)) as [H1 H2]. cbv zeta in *. rewrite L in *.
  destruct (do_hit_count (0 + Z.of_nat j) _ c ltac:(lia) H1) as [_ H3]. rewrite H3, H2.
  f_equal; lia.
Qed.
Print Assumptions C20_hit_results.

(** C20 in the simulator: after `break a hit' creates a breakpoint, in any
    history of commands and fetches which does not delete it, the j-th fetch
    at the address (j = 0, 1, ...) stops iff [accepts hit (j+1)] tells so. *)
Theorem C20_fetch_hits : forall start size ops0 s0 rs0 a hit s1 r1 n ops s rs,
  run start size init_st ops0 = Ok (s0, rs0) ->
  start <= a < start + size -> bp_at start size s0 a = false -> hit <= 99999 ->
  step start size s0 (Break a false hit) = Ok (s1, r1) ->
  (exists b, In b (fl s1) /\ baddr b = a /\ nr b = n) ->
  (forall o, In o ops -> ~ deletes a n o) ->
  run start size s1 ops = Ok (s, rs) ->
  forall j c r, nth_error (hits_of a ops rs) j = Some (c, r) -> r = accepts hit (Z.of_nat j + 1) c.
Proof.
  intros start size ops0 s0 rs0 a hit s1 r1 n ops s rs H0 Ha Hb Hh Hs (b & Hin & Eb & En) Hd Hr j c r Hj.
  assert (I0 : Inv start size s0) by (eapply run_inv; [apply Inv_init | exact H0]).
  assert (I1 : Inv start size s1) by (eapply step_inv; eauto).
  apply valid_iff in Ha. cbn [step] in Hs. unfold do_fetch in Hs. rewrite Hb in Hs.
  replace (99999 <? hit) with false in Hs by lia.
  destruct (add_fetch start size s0 a false hit) as [x| |] eqn:E; cbn [rbind] in Hs; try discriminate.
  injection Hs as <- <-.
  destruct (add_fetch_ok start size s0 a false hit x I0) as (_ & (m & Em) & _); auto.
  { intros _ b0 Hb0 Eb0. assert (bp_at start size s0 a = true) by (apply bp_at_iff; eauto). congruence. }
  assert (Hn : In (new_brk m a false hit) (fl x)) by (rewrite Em; apply in_or_app; right; left; auto).
  assert (b = new_brk m a false hit) as ->.
  { apply (inv_uniq start size x); auto. rewrite Eb. exact Ha. }
  cbn [nr new_brk] in En. subst m.
  replace (Z.of_nat j + 1) with (0 + Z.of_nat j + 1) by lia.
  apply (run_hits start size (new_brk n a false hit) ops x s rs (new_brk n a false hit) 0); auto.
  - repeat split; auto.
  - lia.
  - unfold cnt_ok. cbn [bcnt bhit new_brk]. destruct (hit <? 1) eqn:Q; auto. rewrite Z.mod_0_l; lia.
Qed.
Print Assumptions C20_fetch_hits.

(** A fetch where no breakpoint is set never stops and changes nothing. *)
Theorem C20_no_breakpoint_no_stop : forall start size ops s rs pc c,
  run start size init_st ops = Ok (s, rs) ->
  (forall b, In b (fl s) -> baddr b <> pc) ->
  step start size s (Hit pc c) = Ok (s, false).
Proof.
  intros start size ops s rs pc c H Hn.
  assert (I : Inv start size s) by (eapply run_inv; [apply Inv_init | exact H]).
  cbn [step]. unfold do_brk. pose proof (get_bp_at_ok start size s pc I) as G.
  destruct (get_bp_at start size s pc) as [i|]; auto.
  destruct G as (b & Hb & Ea & _). exfalso. apply (Hn b); auto. eapply nth_error_In; eauto.
Qed.
Print Assumptions C20_no_breakpoint_no_stop.

(** C20 for event breakpoints. *)
Theorem C20_event_hits : forall start size ops0 s0 rs0 a d hit s1 r1 n ops s rs,
  run start size init_st ops0 = Ok (s0, rs0) ->
  step start size s0 (BreakEv a d hit) = Ok (s1, r1) ->
  (exists b, el s1 = el s0 ++ [b] /\ nr b = n) ->
  (forall o, In o ops -> o <> Delete n /\ o <> DeleteAll) ->
  run start size s1 ops = Ok (s, rs) ->
  forall j c r, nth_error (evhits_of n ops rs) j = Some (c, r) -> r = accepts hit (Z.of_nat j + 1) c.
Proof.
  intros start size ops0 s0 rs0 a d hit s1 r1 n ops s rs H0 Hs (b & Hin & En) Hd Hr j c r Hj.
  assert (I0 : Inv start size s0) by (eapply run_inv; [apply Inv_init | exact H0]).
  assert (I1 : Inv start size s1) by (eapply step_inv; eauto).
  cbn [step] in Hs. destruct (do_event s0 a d hit) as [x| |] eqn:E; cbn [rbind] in Hs; try discriminate.
  injection Hs as <- <-. destruct (do_event_ok start size s0 a d hit x I0 E) as (_ & _ & m & Em).
  assert (b = new_brk m a d hit) by (rewrite Em in Hin; apply app_inv_head in Hin; congruence). subst b.
  cbn [nr new_brk] in En. subst m.
  replace (Z.of_nat j + 1) with (0 + Z.of_nat j + 1) by lia.
  apply (run_evhits start size (new_brk n a d hit) ops x s rs (new_brk n a d hit) 0); auto.
  - rewrite Em. apply in_or_app; right; left; auto.
  - repeat split; auto.
  - lia.
  - unfold cnt_ok. cbn [bcnt bhit new_brk]. destruct (hit <? 1) eqn:Q; auto. rewrite Z.mod_0_l; lia.
Qed.
Print Assumptions C20_event_hits.

Example C20_example :
  match run 0 0x10000 init_st
     [Break 0x10 false 3; BreakEv 5 false 2; Hit 0x10 true; Hit 0x10 true; EvHit 2 true; Hit 0x10 true;
      Hit 0x10 true; EvHit 2 true; Hit 0x10 true; Hit 0x10 false; EvHit 2 true] with
  | Ok (s, rs) => rs = [false; false; false; false; false; true; false; true; false; false; false]
  | _ => False end.
Proof. vm_compute. reflexivity. Qed.

(** C32. A temporary fetch breakpoint is deleted when it is accepted, and only
    then; the others stay. *)
Theorem C32_temporary_fetch : forall start size ops s rs b c s' r,
  run start size init_st ops = Ok (s, rs) ->
  In b (fl s) -> dyn b = true -> start <= baddr b < start + size ->
  step start size s (Hit (baddr b) c) = Ok (s', r) ->
  (r = true -> fl s' = without (nr b) (fl s) /\ bp_at start size s' (baddr b) = false) /\
  (r = false -> map nr (fl s') = map nr (fl s) /\ bp_at start size s' (baddr b) = true).
Proof.
  intros start size ops s rs b c s' r H Hb D V Hs.
  assert (I : Inv start size s) by (eapply run_inv; [apply Inv_init | exact H]).
  assert (I' : Inv start size s') by (eapply step_inv; eauto).
  apply valid_iff in V. cbn [step] in Hs. injection Hs as Hs.
  destruct (do_brk_at start size s b c I Hb V) as (i & Hn & E). cbv zeta in E. rewrite E, D in Hs. clear E.
  destruct (do_hit_id b c) as (N1 & N2 & N3 & N4). destruct (do_hit b c) as [b' q]. cbn [fst snd] in *.
  set (s1 := mkSt (flags s) (upd (fl s) i b') (el s) (counter s)) in *.
  assert (J : Inv start size s1) by (apply Inv_same; auto; eapply upd_map; eauto).
  assert (Hin : In b' (fl s1)) by (eapply in_upd_same; eauto).
  destruct q; injection Hs as <- <-; (split; intros X; [|]); try discriminate X; clear X.
  - rewrite N2 in *. destruct (del_bp_at_some start size s1 b' J Hin V) as (E1 & E2 & E3 & E4). cbv zeta in *.
    rewrite E1. split.
    + unfold s1. cbn [fl]. rewrite <- N1. clear - Hn N1. revert i Hn. unfold without.
      induction (fl s) as [|x t IH]; intros [|i] Hn; cbn [upd filter nth_error] in *; try discriminate.
      * injection Hn as ->. rewrite <- N1, Z.eqb_refl. reflexivity.
      * rewrite (IH i Hn). reflexivity.
    + unfold bp_at. rewrite E4, Z.eqb_refl. apply andb_false_r.
  - split; [eapply upd_map; eauto|]. apply bp_at_iff; auto. split; auto. exists b'. split; auto.
Qed.
Print Assumptions C32_temporary_fetch.

(** Event breakpoints, also temporary ones, are never deleted by a hit, accepted or
    not (the help of tbreak tells that they are). *)
Theorem C32_event_hits_delete_nothing : forall start size s n c s' r,
  step start size s (EvHit n c) = Ok (s', r) ->
  map (fun b => (nr b, dyn b)) (el s') = map (fun b => (nr b, dyn b)) (el s) /\ fl s' = fl s.
Proof.
  intros start size s n c s' r H. cbn [step] in H. injection H as H. unfold event_hit in H.
  destruct (get_bp_nr (el s) n) as [i|]; [|injection H as <- _; auto].
  destruct (nth_error (el s) i) as [b|] eqn:E; [|injection H as <- _; auto].
  assert (Hb : nr (fst (do_hit b c)) = nr b /\ dyn (fst (do_hit b c)) = dyn b)
    by (unfold do_hit; cbv zeta; destruct (bcnt b - 1 <=? 0); cbn; auto).
  destruct (do_hit b c) as [b' r']. injection H as <- _. cbn [el fl fst] in *. split; [|reflexivity].
  unfold upd. clear -E Hb. revert i E. induction (el s) as [|x l IH]; intros i E; [destruct i; discriminate|].
  destruct i as [|i]; cbn in E.
  - injection E as ->. cbn. destruct Hb as [-> ->]. reflexivity.
  - cbn. f_equal. apply (IH i E).
Qed.
Print Assumptions C32_event_hits_delete_nothing.

(** So it stops the simulation again. *)
Theorem C32_temporary_event_deviation :
  match run 0 0x10000 init_st [BreakEv 0x30 true 1; EvHit 1 true; EvHit 1 true] with
  | Ok (s, rs) => map (fun b => (nr b, dyn b)) (el s) = [(1, true)] /\ rs = [false; true; true]
  | _ => False end.
Proof. vm_compute. auto. Qed.

Example C32_example :
  match run 0 0x10000 init_st [Break 0x30 true 2; Hit 0x30 true; Hit 0x30 true; Hit 0x30 true] with
  | Ok (s, rs) => fl s = [] /\ rs = [false; false; true; false]
  | _ => False end.
Proof. vm_compute. auto. Qed.
Print Assumptions C32_temporary_event_deviation.
