From Verif Require Import Base SerModel SerSpec SerProofs SerProofs2 SerProofs3.

Lemma tick_or o : (exists k, o = Tick k) \/ forall k, o <> Tick k.
Proof. destruct o; [left; eexists; reflexivity|right; discriminate..]. Qed.
(** ** TI *)
Lemma ti_tick s k : inv s -> 0 <= k -> ti (tick k s) = ti s || tx_end s.
Proof. intros I K. destruct (t_flags _ _ _ (tick_tx s k I K)) as [r F]. unfold ti. rewrite (F 1) by lia. rewrite andb_true_l, andb_false_l, orb_false_r. reflexivity. Qed.
Lemma flag_idle s o b : inv s -> quiet o -> quiet_flags o -> (forall k, o <> Tick k) -> 0 <= b < 2 -> Z.testbit (scon (step s o)) b = Z.testbit (scon s) b.
Proof.
  intros I Q QF N B. pose proof (q_scon _ _ _ (idle_ok s o I Q N)) as E. destruct o; try (rewrite E; reflexivity). rewrite E. cbn [quiet quiet_flags] in *. rewrite with_bit_test by lia. replace (k =? b) with false by lia. reflexivity.
Qed.
Lemma ti_done l : forall v o s, Done v o s -> Forall quiet l -> Forall quiet_flags l -> ti (run s l) = ti s.
Proof.
  induction l as [|a l IH]; intros v o s D F G; [reflexivity|]. inversion F; subst. inversion G; subst. change (run s (a :: l)) with (run (step s a) l). rewrite (IH v o) by (try assumption; apply Done_step; assumption).
  destruct D as (I & R & S & O). destruct (tick_or a) as [[k ->]|N]; [cbn [step]; rewrite ti_tick by assumption; unfold tx_end; rewrite S; apply orb_false_r|apply flag_idle; try assumption; lia].
Qed.
Lemma ti_segment l : forall v o s u, P v o s u -> Forall quiet l -> Forall quiet_flags l -> ti (run s l) = ti s || due (clocked s) (frame_time s) u l.
Proof.
  induction l as [|a l IH]; intros v o s u PP F G; [cbn [due]; rewrite orb_false_r; reflexivity|]. inversion F as [|? ? Q F']; subst. inversion G as [|? ? QG G']; subst. change (run s (a :: l)) with (run (step s a) l).
  destruct (tick_or a) as [[k ->]|N].
  - pose proof (P_tick v o s u k PP Q) as T. cbn [due step]. pose proof (ti_tick s k (p_inv _ _ _ _ PP) Q) as TI. destruct (Z.leb_spec (frame_time s) u) as [H|H]; cbn [orb].
    + destruct T as [E D]. rewrite (ti_done l v o) by assumption. rewrite TI, E. reflexivity.
    + destruct T as [E T]. rewrite (IH v o _ _ T F' G'). pose proof (tick_tx s k (p_inv _ _ _ _ PP) Q) as TT. destruct (cfg_bt _ _ (t_cfg _ _ _ TT)) as (_ & C2 & C3). rewrite C2, C3, TI, E, orb_false_r. reflexivity.
  - pose proof (P_idle v o s u a PP Q N) as T. rewrite (IH v o _ _ T F' G'). destruct (cfg_bt _ _ (q_cfg _ _ _ (idle_ok s a (p_inv _ _ _ _ PP) Q N))) as (_ & C2 & C3). rewrite C2, C3. unfold ti at 1. rewrite (flag_idle s a 1 (p_inv _ _ _ _ PP) Q QG N) by lia. change (Z.testbit (scon s) 1) with (ti s).
    f_equal. destruct a; try reflexivity. contradiction (N k). reflexivity.
Qed.
(** ** All operations keep the invariant *)
Lemma inv_step s o : inv s -> proper o -> inv (step s o).
Proof.
  intros I Q. destruct (tick_or o) as [[k ->]|N]; [apply (t_inv _ _ _ (tick_tx s k I Q))|].
  assert (QQ : quiet o -> inv (step s o)) by (intros q; apply (q_inv _ _ _ (idle_ok s o I q N))).
  pose proof I as [A1 A2 A3 A4 A5 A6 A7 A8 A9 A10]. destruct o; try (apply QQ; exact Logic.I); clear QQ; cbn [proper step] in *.
  - contradiction (N k). reflexivity.
  - unfold t2_mode. destruct (t2b s); constructor; first [assumption|apply Z.le_refl].
  - constructor; first [assumption|apply Z.le_refl].
  - apply inv_scon; [exact I|apply Z.mod_pos_bound; lia].
  - apply inv_scon; [exact I|apply with_bit_range; lia].
  - unfold write_pcon. constructor; try assumption; try reflexivity. cbn [set_pcon divby]. destruct (mode s =? 0); [exact A6|destruct (Z.testbit (v mod 256) 7); auto].
  - unfold cpu_reset. set (a := set_rx _ _ _ _ _ _). rewrite write_scon_eq. unfold write_pcon, t2_mode. destruct (t2b (set_pcon _ _ _ _)); constructor; first [reflexivity|apply Z.le_refl|split; [apply Z.le_refl|reflexivity]|left; reflexivity|right; left; reflexivity|right; right; reflexivity].
Qed.
Lemma inv_reset s : inv (cpu_reset s).
Proof. unfold cpu_reset. set (a := set_rx _ _ _ _ _ _). rewrite write_scon_eq. unfold write_pcon, t2_mode. destruct (t2b (set_pcon _ _ _ _)); constructor; first [reflexivity|apply Z.le_refl|split; [apply Z.le_refl|reflexivity]|left; reflexivity|right; left; reflexivity|right; right; reflexivity]. Qed.
Lemma inv_run l : forall s, inv s -> Forall proper l -> inv (run s l).
Proof. induction l as [|a l IH]; intros s I F; [exact I|]. inversion F; subst. change (run s (a :: l)) with (run (step s a) l). apply IH; [apply inv_step; assumption|assumption]. Qed.
Lemma reached_inv s h : reached s h -> inv s.
Proof. intros (s0 & N & F & ->). apply inv_run; [apply inv_reset|exact F]. Qed.

Theorem frame_sent s h v l : reached s h -> rate_ok s -> Forall quiet l ->
  let s' := run s (WSbuf v :: l) in let d := due (clocked s) (frame_time s) 0 l in
  outp s' = outp s ++ (if d then [v mod 256] else []) /\ (Forall quiet_flags l -> ti s' = ti s || d).
Proof.
  intros R RO F. cbv zeta. apply reached_inv in R. pose proof (start_P v s R RO) as PP. change (run s (WSbuf v :: l)) with (run (write_sbuf v s) l). split.
  - pose proof (tx_segment l _ _ _ _ PP F) as T. cbv zeta in T. change (clocked (write_sbuf v s)) with (clocked s) in T. change (frame_time (write_sbuf v s)) with (frame_time s) in T. destruct (due (clocked s) (frame_time s) 0 l).
    + apply T.
    + destruct T as [u T]. rewrite app_nil_r. apply (p_outp _ _ _ _ T).
  - intros G. exact (ti_segment l _ _ _ _ PP F G).
Qed.

(** ** What is sent, for every history *)
Lemma subseq_app a b c : subseq a b -> subseq a (b ++ c).
Proof. induction 1; cbn [app]; [|apply sub_skip; assumption|apply sub_take; assumption]. induction c; [apply sub_nil|apply sub_skip; assumption]. Qed.
Lemma subseq_snoc a b x : subseq a b -> subseq (a ++ [x]) (b ++ [x]).
Proof. induction 1; cbn [app]; [apply sub_take, sub_nil|apply sub_skip; assumption|apply sub_take; assumption]. Qed.
Lemma subseq_del a b x : subseq (a ++ [x]) b -> subseq a b.
Proof.
  intros H. remember (a ++ [x]) as l eqn:E. revert a E. induction H as [|y l b H IH|y l b H IH]; intros a E.
  - destruct a; discriminate.
  - constructor. apply IH. exact E.
  - destruct a as [|z a]; cbn [app] in E.
    + injection E as -> ->. constructor. exact H.
    + injection E as -> E. apply sub_take, IH, E.
Qed.
Lemma written_app a b : written (a ++ b) = written a ++ written b.
Proof. induction a as [|o a IH]; [reflexivity|]. destruct o; cbn [written app]; rewrite IH; reflexivity. Qed.
Definition txl (s : st) : list Z := outp s ++ (if sending s then [s_out s] else []).
Lemma txl_step s o : inv s -> proper o -> subseq (txl (step s o)) (txl s ++ written [o]) /\ (o <> CpuReset -> match o with WSbuf v => txl (step s o) = outp s ++ [v mod 256] | _ => txl (step s o) = txl s end).
Proof.
  assert (RF : forall l, subseq l l) by (induction l; [apply sub_nil|apply sub_take; assumption]).
  intros I Q. destruct (tick_or o) as [[k ->]|N].
  - cbn [written step]. rewrite app_nil_r. pose proof (tick_tx s k I Q) as [T1 T2 T3 T4 T5 T6 T7 T8]. assert (E : txl (tick k s) = txl s); [|split; [rewrite E; apply RF|intros _; exact E]].
    unfold txl. rewrite T5, T6, T7. destruct (tx_end s) eqn:E; [|rewrite app_nil_r; reflexivity]. unfold tx_end in E. apply andb_prop in E. rewrite (proj1 E), app_nil_r. reflexivity.
  - assert (K : forall s', sending s' = sending s -> s_out s' = s_out s -> outp s' = outp s -> txl s' = txl s) by (intros s' A B C; unfold txl; rewrite A, B, C; reflexivity).
    assert (J : forall s', txl s' = txl s -> subseq (txl s') (txl s ++ [])) by (intros s' ->; rewrite app_nil_r; apply RF).
    assert (SC : forall n, txl (write_scon n s) = txl s) by (intros n; rewrite write_scon_eq; reflexivity).
    destruct o; cbn [written step]; try (lazymatch goal with |- subseq (txl (cpu_reset _)) _ /\ _ => idtac | |- subseq (txl ?x) _ /\ _ => assert (E : txl x = txl s); [|split; [apply J; exact E|intros _; exact E]] end).
    + contradiction (N k). reflexivity.
    + reflexivity.
    + unfold t2_mode. destruct (t2b s); reflexivity.
    + split; [|intros _; reflexivity]. change (subseq (outp s ++ [v mod 256]) (txl s ++ [v mod 256])). apply subseq_snoc. unfold txl. apply subseq_app, RF.
    + unfold read_sbuf. apply K; [reflexivity..|apply app_nil_r].
    + apply SC.
    + apply SC.
    + reflexivity.
    + reflexivity.
    + destruct (proc_input_frame s) as (_ & _ & T & _). destruct (dev s); [reflexivity|]. apply txs_t in T. apply K; apply T.
    + split; [|intros C; contradiction C; reflexivity]. unfold cpu_reset. rewrite write_scon_eq. set (a := set_rx _ _ _ _ _ _). assert (E : txl (t2_mode false (write_pcon 0 (set_ctl 0 (0 / 64) (Z.testbit 0 4) (frame_bits (0 / 64)) (rate (0 / 64) (smod a)) a))) = outp s) by (unfold t2_mode, write_pcon; destruct (t2b _); apply app_nil_r).
      rewrite E, app_nil_r. unfold txl. apply subseq_app, RF.
Qed.
Lemma subseq_trans a b c : subseq a b -> subseq b c -> subseq a c.
Proof.
  intros H G. revert a H. induction G as [|y b c G IH|y b c G IH]; intros a H; [exact H|constructor; apply IH; exact H|].
  inversion H; subst; [apply sub_skip, IH; assumption|apply sub_take, IH; assumption].
Qed.
Lemma subseq_tail a b c : subseq a b -> subseq (a ++ c) (b ++ c).
Proof. intros H. induction H; cbn [app]; [induction c; [apply sub_nil|apply sub_take; assumption]|apply sub_skip; assumption|apply sub_take; assumption]. Qed.
Lemma txl_run l : forall s h, inv s -> Forall proper l -> subseq (txl s) (written h) -> subseq (txl (run s l)) (written (h ++ l)).
Proof.
  induction l as [|a l IH]; intros s h I F H; [rewrite app_nil_r; exact H|]. inversion F; subst. change (run s (a :: l)) with (run (step s a) l). replace (h ++ a :: l) with ((h ++ [a]) ++ l) by (rewrite <- app_assoc; reflexivity).
  apply IH; [apply inv_step; assumption|assumption|]. rewrite written_app. apply (subseq_trans _ (txl s ++ written [a])); [apply txl_step; assumption|apply subseq_tail; exact H].
Qed.
Theorem sent_order s h : reached s h -> subseq (outp s) (written h).
Proof.
  intros (s0 & N & F & ->). assert (T : subseq (txl (run (power_on s0) h)) (written ([] ++ h))).
  { apply txl_run; [apply inv_reset|exact F|]. unfold power_on, cpu_reset. rewrite write_scon_eq. set (a := set_rx _ _ _ _ _ _). assert (E : txl (t2_mode false (write_pcon 0 (set_ctl 0 (0 / 64) (Z.testbit 0 4) (frame_bits (0 / 64)) (rate (0 / 64) (smod a)) a))) = []) by (unfold t2_mode, write_pcon; destruct (t2b _); reflexivity). rewrite E. constructor. }
  cbn [app] in T. unfold txl in T. destruct (sending _); [apply subseq_del in T|rewrite app_nil_r in T]; exact T.
Qed.
Theorem sent_once s h v l : reached s h -> Forall proper l -> Forall (fun o => o <> CpuReset /\ forall w, o <> WSbuf w) l ->
  outp (run s (WSbuf v :: l)) = outp s \/ outp (run s (WSbuf v :: l)) = outp s ++ [v mod 256].
Proof.
  intros R F G. apply reached_inv in R. assert (T : txl (run (write_sbuf v s) l) = outp s ++ [v mod 256]).
  { assert (I : inv (write_sbuf v s)) by (apply (inv_step s (WSbuf v)); [exact R|exact Logic.I]). assert (T : txl (write_sbuf v s) = outp s ++ [v mod 256]) by reflexivity. rewrite <- T. clear T R. revert I. generalize (write_sbuf v s) as q. clear s h. induction l as [|a l IH]; intros q I; [reflexivity|].
    inversion F; subst. inversion G as [|? ? [G1 G2] G3]; subst. change (run q (a :: l)) with (run (step q a) l). rewrite IH by (try assumption; apply inv_step; assumption). destruct (txl_step q a I ltac:(assumption)) as [_ T]. specialize (T G1). destruct a; try exact T. contradiction (G2 v0). reflexivity. }
  change (run s (WSbuf v :: l)) with (run (write_sbuf v s) l). unfold txl in T. destruct (sending _).
  - left. apply app_inj_tail in T. apply T.
  - right. rewrite app_nil_r in T. exact T.
Qed.
