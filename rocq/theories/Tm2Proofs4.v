From Verif Require Import Base Tm2Model Tm2Spec Tm2Proofs Tm2Proofs2 Tm2Proofs3.

(** ** The laws add up *)
Lemma up_add r m n : 0 <= r < 65536 -> 0 <= m -> 0 <= n -> forall c, 0 <= c < 65536 ->
  law_up r c (m + n) = (fst (law_up r (fst (law_up r c m)) n), snd (law_up r c m) + snd (law_up r (fst (law_up r c m)) n)).
Proof.
  intros R M N. pattern m. apply natlike_ind; [| |exact M].
  - intros c C. rewrite up0 by lia. cbn [fst snd]. rewrite !Z.add_0_l. apply surjective_pairing.
  - intros k K IH c C. unfold Z.succ. replace (k + 1 + n) with (1 + (k + n)) by lia. replace (k + 1) with (1 + k) by lia. rewrite !up_next by lia. destruct (Z.eqb_spec c 65535) as [E|E]; rewrite IH by lia; [|reflexivity]. cbn [fst snd]. rewrite Z.add_assoc. reflexivity.
Qed.
Lemma wrap_add m n c : law_wrap c (m + n) = (fst (law_wrap (fst (law_wrap c m)) n), snd (law_wrap c m) + snd (law_wrap (fst (law_wrap c m)) n)).
Proof.
  unfold law_wrap. cbn [fst snd]. rewrite Zplus_mod_idemp_l. pose proof (Z.div_mod (c + m) 65536 ltac:(lia)) as D. replace (c + (m + n)) with ((c + m) mod 65536 + n + (c + m) / 65536 * 65536) by lia. rewrite Z.mod_add, Z.div_add by lia. f_equal; [rewrite Zplus_mod_idemp_l; reflexivity|lia].
Qed.
Lemma down_add r m n : 0 <= r < 65536 -> 0 <= m -> 0 <= n -> forall c, r <= c < 65536 ->
  law_down r c (m + n) = (fst (law_down r (fst (law_down r c m)) n), snd (law_down r c m) + snd (law_down r (fst (law_down r c m)) n)).
Proof.
  intros R M N. pattern m. apply natlike_ind; [| |exact M].
  - intros c C. rewrite down0 by lia. cbn [fst snd]. rewrite !Z.add_0_l. apply surjective_pairing.
  - intros k K IH c C. unfold Z.succ. replace (k + 1 + n) with (1 + (k + n)) by lia. replace (k + 1) with (1 + k) by lia. rewrite !down_next by lia. destruct (Z.eqb_spec c r) as [E|E]; rewrite IH by lia; [|reflexivity]. cbn [fst snd]. rewrite Z.add_assoc. reflexivity.
Qed.
Lemma pos_add a b : 0 <= a -> 0 <= b -> (0 <? a) || (0 <? b) = (0 <? a + b).
Proof. intros. destruct (Z.ltb_spec 0 a), (Z.ltb_spec 0 b), (Z.ltb_spec 0 (a + b)); lia. Qed.
Lemma wrap_range c n : 0 <= c < 65536 -> 0 <= n -> 0 <= fst (law_wrap c n) < 65536 /\ 0 <= snd (law_wrap c n).
Proof. intros C N. unfold law_wrap. cbn [fst snd]. split; [apply Z.mod_pos_bound; lia|apply Z.div_pos; lia]. Qed.
Lemma cycles_nonneg l : 0 <= cycles l.
Proof. induction l as [|o l IH]; cbn [cycles]; [lia|]. destruct o; lia. Qed.
Lemma falls_nonneg j l : forall x, 0 <= falls j x l.
Proof. induction l as [|o l IH]; intros x; cbn [falls]; [lia|]. pose proof (IH (pin_op j o x)). destruct (_ && _); lia. Qed.

(** ** Segments *)
Record seg (d : bool) (s s' : st) (c r o : Z) (tf exf : bool) : Prop := {
  g_inv : inv d s'; g_cnt : count_of s' = c; g_rel : reload_of s' = r; g_mod : t2mod s' = t2mod s; g_ov : ov s' = ov s + o;
  g_con : forall j, Z.testbit (t2con s') j = Z.testbit (t2con s) j || (j =? 7) && tf || (j =? 6) && exf }.
Lemma seg_refl d s : inv d s -> seg d s s (count_of s) (reload_of s) 0 false false.
Proof. intros I. constructor; try reflexivity; [exact I|lia|]. intros j. rewrite !andb_false_r, !orb_false_r. reflexivity. Qed.
Lemma eff_seg d s s' c r o tf exf te xe : eff d s s' c r o tf exf te xe -> seg d s s' c r o tf exf.
Proof. intros [A B C D E F G H J K]. constructor; assumption. Qed.
Lemma moved_seg d s s' o : moved d s s' o -> seg d s s' (count_of s) (reload_of s) 0 false false.
Proof. intros [A B C D E F G H J]. constructor; try assumption; [lia|]. intros j. rewrite D, !andb_false_r, !orb_false_r. reflexivity. Qed.
Lemma seg_trans d s s1 s2 c1 r1 o1 t1 x1 c2 r2 o2 t2 x2 : seg d s s1 c1 r1 o1 t1 x1 -> seg d s1 s2 c2 r2 o2 t2 x2 -> seg d s s2 c2 r2 (o1 + o2) (t1 || t2) (x1 || x2).
Proof.
  intros [I A B C D E] [I' A' B' C' D' E']. constructor; try assumption; try congruence; [lia|].
  intros j. rewrite E', E. destruct (Z.testbit (t2con s) j), (j =? 7), (j =? 6), t1, t2, x1, x2; reflexivity.
Qed.
Lemma seg_eq d s s' c r o tf exf c' r' o' tf' exf' : seg d s s' c r o tf exf -> c = c' -> r = r' -> o = o' -> tf = tf' -> exf = exf' -> seg d s s' c' r' o' tf' exf'.
Proof. intros H; intros; subst; exact H. Qed.
Lemma moved_ctl d s s' o : inv d s -> moved d s s' o -> TR s' = TR s /\ CT s' = CT s /\ EXEN s' = EXEN s /\ md s' = md s.
Proof.
  intros I [I' B C D E F G H J]. split; [rewrite (i_tr _ _ I'), D; symmetry; apply (i_tr _ _ I)|]. split; [rewrite (i_ct _ _ I'), D; symmetry; apply (i_ct _ _ I)|].
  split; [rewrite (i_ex _ _ I'), D; symmetry; apply (i_ex _ _ I)|rewrite (i_md _ _ I'), D; symmetry; apply (i_md _ _ I)].
Qed.
Lemma run_cons s o l : run s (o :: l) = run (step s o) l.
Proof. reflexivity. Qed.
Lemma cyc_dec (o : op) : o = Cycle \/ o <> Cycle.
Proof. destruct o; [left; reflexivity|right; discriminate..]. Qed.
Lemma cycles_port o l : o <> Cycle -> cycles (o :: l) = cycles l.
Proof. destruct o; intros H; [contradiction H; reflexivity|reflexivity..]. Qed.
Definition quiet (s : st) (l : list op) : Prop := EXEN s = false \/ (ex_edge s = 0 /\ falls 1 (pin 1 s) l = 0).
Lemma quiet_act s l : quiet s l -> act_ex s = false.
Proof. intros [E|[E _]]; unfold act_ex; rewrite E; [reflexivity|rewrite andb_comm; reflexivity]. Qed.
Lemma quiet_cycle d s s' l c r o tf exf te : inv d s -> eff d s s' c r o tf exf te (ex_edge s) -> quiet s (Cycle :: l) -> quiet s' l.
Proof.
  intros I E Q. pose proof (eff_ctl _ _ _ _ _ _ _ _ _ _ I E) as (_ & _ & X & _ & _ & P). destruct Q as [Q|[Q F]]; [left; congruence|right]. split; [rewrite (e_xe _ _ _ _ _ _ _ _ _ _ E); exact Q|].
  rewrite P by lia. cbn [falls] in F. change (pin_op 1 Cycle (pin 1 s)) with (pin 1 s) in F. rewrite no_fall in F. lia.
Qed.
Lemma quiet_port d s o l : inv d s -> moved d s (step s o) o -> quiet s (o :: l) -> quiet (step s o) l.
Proof.
  intros I M Q. pose proof (moved_ctl _ _ _ _ I M) as (_ & _ & X & _). destruct Q as [Q|[Q F]]; [left; congruence|right]. cbn [falls] in F. pose proof (falls_nonneg 1 l (pin_op 1 o (pin 1 s))) as P. 
  rewrite (m_xe _ _ _ _ M), (m_pin _ _ _ _ M) by lia. unfold fall. destruct (_ && _); lia.
Qed.
Lemma reload_seg l : forall d s, inv d s -> md s = Reload -> Forall hands_off l -> quiet s l ->
  let x := law_up (reload_of s) (count_of s) (if TR s then cycles l else 0) in
  seg d s (run s l) (fst x) (reload_of s) 0 (0 <? snd x) false.
Proof.
  induction l as [|o l IH]; intros d s I M F Q; cbv zeta.
  - cbn [cycles]. replace (if TR s then 0 else 0) with 0 by (destruct (TR s); reflexivity). rewrite up0 by (apply (count_range d s I)). apply seg_refl, I.
  - inversion F as [|? ? Ho F']; subst. rewrite run_cons. pose proof (count_range d s I) as C. pose proof (reload_range d s I) as R. pose proof (cycles_nonneg l) as N. destruct (cyc_dec o) as [->|NC].
    + pose proof (tick_reload d s I M) as E. cbv zeta in E. rewrite (quiet_act _ _ Q) in E. pose proof (eff_ctl _ _ _ _ _ _ _ _ _ _ I E) as (ET & _ & _ & EM & _). change (step s Cycle) with (tick s).
      assert (Q' : quiet (tick s) l) by (eapply quiet_cycle; eassumption).
      specialize (IH d (tick s) (e_inv _ _ _ _ _ _ _ _ _ _ E) ltac:(congruence) F' Q'). cbv zeta in IH. rewrite ET, (e_cnt _ _ _ _ _ _ _ _ _ _ E), (e_rel _ _ _ _ _ _ _ _ _ _ E) in IH.
      eapply seg_eq; [exact (seg_trans _ _ _ _ _ _ _ _ _ _ _ _ _ _ (eff_seg _ _ _ _ _ _ _ _ _ _ E) IH)| | | | |]; try reflexivity.
      * cbn [cycles]. destruct (TR s); [rewrite (up_add _ 1) by lia; reflexivity|reflexivity].
      * cbn [cycles]. destruct (TR s); [|reflexivity]. rewrite (up_add _ 1) by lia. cbn [fst snd andb]. pose proof (up_range (reload_of s) (count_of s) 1 R C ltac:(lia)) as [U1 U2]. pose proof (up_range (reload_of s) (fst (law_up (reload_of s) (count_of s) 1)) (cycles l) R U1 N) as [_ U3]. apply pos_add; assumption.
    + pose proof (port_ok d s o I Ho NC) as E. pose proof (moved_ctl _ _ _ _ I E) as (ET & _ & _ & EM).
      specialize (IH d (step s o) (m_inv _ _ _ _ E) ltac:(congruence) F' (quiet_port _ _ _ _ I E Q)). cbv zeta in IH. rewrite ET, (m_cnt _ _ _ _ E), (m_rel _ _ _ _ E) in IH.
      eapply seg_eq; [exact (seg_trans _ _ _ _ _ _ _ _ _ _ _ _ _ _ (moved_seg _ _ _ _ E) IH)| | | | |]; try reflexivity; rewrite cycles_port by exact NC; reflexivity.
Qed.
Lemma capture_seg l : forall d s, inv d s -> md s = Capture -> Forall hands_off l -> quiet s l ->
  let x := law_wrap (count_of s) (if TR s then cycles l else 0) in
  seg d s (run s l) (fst x) (reload_of s) 0 (0 <? snd x) false.
Proof.
  induction l as [|o l IH]; intros d s I M F Q; cbv zeta.
  - cbn [cycles]. replace (if TR s then 0 else 0) with 0 by (destruct (TR s); reflexivity). rewrite wrap0 by (apply (count_range d s I)). apply seg_refl, I.
  - inversion F as [|? ? Ho F']; subst. rewrite run_cons. pose proof (count_range d s I) as C. pose proof (reload_range d s I) as R. pose proof (cycles_nonneg l) as N. destruct (cyc_dec o) as [->|NC].
    + pose proof (tick_capture d s I M) as E. cbv zeta in E. rewrite (quiet_act _ _ Q) in E. pose proof (eff_ctl _ _ _ _ _ _ _ _ _ _ I E) as (ET & _ & _ & EM & _). change (step s Cycle) with (tick s).
      assert (Q' : quiet (tick s) l) by (eapply quiet_cycle; eassumption).
      specialize (IH d (tick s) (e_inv _ _ _ _ _ _ _ _ _ _ E) ltac:(congruence) F' Q'). cbv zeta in IH. rewrite ET, (e_cnt _ _ _ _ _ _ _ _ _ _ E), (e_rel _ _ _ _ _ _ _ _ _ _ E) in IH.
      eapply seg_eq; [exact (seg_trans _ _ _ _ _ _ _ _ _ _ _ _ _ _ (eff_seg _ _ _ _ _ _ _ _ _ _ E) IH)| | | | |]; try reflexivity.
      * cbn [cycles]. destruct (TR s); [rewrite (wrap_add 1) by lia; reflexivity|reflexivity].
      * cbn [cycles]. destruct (TR s); [|reflexivity]. rewrite (wrap_add 1) by lia. cbn [fst snd andb]. pose proof (wrap_range (count_of s) 1 C ltac:(lia)) as [U1 U2]. pose proof (wrap_range (fst (law_wrap (count_of s) 1)) (cycles l) U1 N) as [_ U3]. apply pos_add; assumption.
    + pose proof (port_ok d s o I Ho NC) as E. pose proof (moved_ctl _ _ _ _ I E) as (ET & _ & _ & EM).
      specialize (IH d (step s o) (m_inv _ _ _ _ E) ltac:(congruence) F' (quiet_port _ _ _ _ I E Q)). cbv zeta in IH. rewrite ET, (m_cnt _ _ _ _ E), (m_rel _ _ _ _ E) in IH.
      eapply seg_eq; [exact (seg_trans _ _ _ _ _ _ _ _ _ _ _ _ _ _ (moved_seg _ _ _ _ E) IH)| | | | |]; try reflexivity; rewrite cycles_port by exact NC; reflexivity.
Qed.

(** ** Counts taken from the edges of T2 *)
Lemma pulses_shift l : forall x p n, edge_pulses x l p n = (n + fst (edge_pulses x l p 0), snd (edge_pulses x l p 0)).
Proof.
  induction l as [|o l IH]; intros x p n; cbn [edge_pulses]; [cbn [fst snd]; f_equal; lia|].
  destruct o; try apply IH. rewrite (IH x 0 (n + p)), (IH x 0 (0 + p)). cbn [fst snd]. f_equal; lia.
Qed.
Lemma pulses_nonneg l : forall x p, 0 <= p -> 0 <= fst (edge_pulses x l p 0).
Proof.
  induction l as [|o l IH]; intros x p P; cbn [edge_pulses]; [cbn [fst]; lia|].
  destruct o; try (apply IH; destruct (_ && _); lia). rewrite pulses_shift. cbn [fst]. pose proof (IH x 0 ltac:(lia)). lia.
Qed.
Lemma pulses_port o l x p : o <> Cycle -> edge_pulses x (o :: l) p 0 = edge_pulses (pin_op 0 o x) l (if high x && negb (high (pin_op 0 o x)) then p + 1 else p) 0.
Proof. destruct o; intros H; [contradiction H; reflexivity|reflexivity..]. Qed.
(** counts of a segment with k per cycle as a timer *)
Definition many (k : Z) (s : st) (l : list op) : Z :=
  if TR s then (if CT s then fst (edge_pulses (pin 0 s) l (T_edge s) 0) else k * cycles l) else 0.
Lemma many_nonneg k d s l : 0 <= k -> inv d s -> 0 <= many k s l.
Proof. intros K I. unfold many. pose proof (cycles_nonneg l). pose proof (pulses_nonneg l (pin 0 s) (T_edge s) (i_te _ _ I)). destruct (TR s), (CT s); nia. Qed.
Lemma many_cycle k d s s' l c r o tf exf xe : inv d s -> eff d s s' c r o tf exf (te_after s) xe -> many k s (Cycle :: l) = counts k s + many k s' l.
Proof.
  intros I E. pose proof (eff_ctl _ _ _ _ _ _ _ _ _ _ I E) as (ET & EC & _ & _ & _ & P). unfold many, counts. rewrite ET, EC. destruct (TR s) eqn:T; [|reflexivity]. destruct (CT s) eqn:K; [|cbn [cycles]; lia].
  rewrite P by lia. rewrite (e_te _ _ _ _ _ _ _ _ _ _ E). unfold te_after. rewrite T, K. cbn [andb edge_pulses]. rewrite pulses_shift. cbn [fst]. lia.
Qed.
Lemma many_port k d s o l : inv d s -> moved d s (step s o) o -> o <> Cycle -> many k s (o :: l) = many k (step s o) l.
Proof.
  intros I E NC. pose proof (moved_ctl _ _ _ _ I E) as (ET & EC & _ & _). unfold many. rewrite ET, EC. destruct (TR s); [|reflexivity]. destruct (CT s); [|rewrite cycles_port by exact NC; reflexivity].
  rewrite pulses_port by exact NC. rewrite (m_pin _ _ _ _ E), (m_te _ _ _ _ E) by lia. unfold fall. rewrite add_if. reflexivity.
Qed.
Lemma baud_seg l : forall d s, inv d s -> md s = Baud -> Forall hands_off l ->
  let x := law_up (reload_of s) (count_of s) (many 6 s l) in
  exists exf, seg d s (run s l) (fst x) (reload_of s) (snd x) false exf.
Proof.
  induction l as [|o l IH]; intros d s I M F; cbv zeta.
  - exists false. unfold many. cbn [cycles edge_pulses fst]. replace (if TR s then _ else 0) with 0 by (destruct (TR s), (CT s); reflexivity). rewrite up0 by (apply (count_range d s I)). apply seg_refl, I.
  - inversion F as [|? ? Ho F']; subst. rewrite run_cons. pose proof (count_range d s I) as C. pose proof (reload_range d s I) as R. destruct (cyc_dec o) as [->|NC].
    + pose proof (tick_baud d s I M) as E. cbv zeta in E. pose proof (eff_ctl _ _ _ _ _ _ _ _ _ _ I E) as (ET & _ & _ & EM & _). change (step s Cycle) with (tick s).
      specialize (IH d (tick s) (e_inv _ _ _ _ _ _ _ _ _ _ E) ltac:(congruence) F'). cbv zeta in IH. destruct IH as [exf IH]. rewrite (e_cnt _ _ _ _ _ _ _ _ _ _ E), (e_rel _ _ _ _ _ _ _ _ _ _ E) in IH.
      pose proof (seg_trans _ _ _ _ _ _ _ _ _ _ _ _ _ _ (eff_seg _ _ _ _ _ _ _ _ _ _ E) IH) as G. eexists. eapply seg_eq; [exact G| | | | |]; try reflexivity;
      rewrite (many_cycle 6 _ _ _ l _ _ _ _ _ _ I E), up_add; try reflexivity; try assumption; try (apply (many_nonneg 6 d); [lia|apply (e_inv _ _ _ _ _ _ _ _ _ _ E)]); unfold counts; pose proof (i_te _ _ I); destruct (TR s), (CT s); lia.
    + pose proof (port_ok d s o I Ho NC) as E. pose proof (moved_ctl _ _ _ _ I E) as (ET & _ & _ & EM).
      specialize (IH d (step s o) (m_inv _ _ _ _ E) ltac:(congruence) F'). cbv zeta in IH. destruct IH as [exf IH]. rewrite (m_cnt _ _ _ _ E), (m_rel _ _ _ _ E), <- (many_port 6 d s o l I E NC) in IH.
      pose proof (seg_trans _ _ _ _ _ _ _ _ _ _ _ _ _ _ (moved_seg _ _ _ _ E) IH) as G. eexists. eapply seg_eq; [exact G| | | | |]; reflexivity.
Qed.
Lemma down_seg l : forall d s, inv d s -> md s = Down -> Forall hands_off l -> steady 1 (pin 1 s) l -> (ex_bit s = false -> reload_of s <= count_of s) ->
  let x := if ex_bit s then law_up (reload_of s) (count_of s) (many 1 s l) else law_down (reload_of s) (count_of s) (many 1 s l) in
  seg d s (run s l) (fst x) (reload_of s) 0 ((0 <? snd x) && (ex_bit s || (0 <? reload_of s))) false.
Proof.
  induction l as [|o l IH]; intros d s I M F Y RC; cbv zeta.
  - unfold many. cbn [cycles edge_pulses fst]. replace (if TR s then _ else 0) with 0 by (destruct (TR s), (CT s); reflexivity). pose proof (count_range d s I). 
    destruct (ex_bit s); [rewrite up0 by lia|rewrite down0 by (apply RC; reflexivity)]; cbn [fst snd]; apply seg_refl, I.
  - inversion F as [|? ? Ho F']; subst. rewrite run_cons. pose proof (count_range d s I) as C. pose proof (reload_range d s I) as R. destruct Y as [Y1 Y2]. destruct (cyc_dec o) as [->|NC].
    + pose proof (tick_down d s I M RC) as E. cbv zeta in E. pose proof (eff_ctl _ _ _ _ _ _ _ _ _ _ I E) as (ET & _ & _ & EM & EX & EP). change (step s Cycle) with (tick s). change (pin_op 1 Cycle (pin 1 s)) with (pin 1 s) in Y2. rewrite <- EP in Y2 by lia.
      assert (N0 : 0 <= counts 1 s) by (unfold counts; pose proof (i_te _ _ I); destruct (TR s), (CT s); lia).
      assert (N1 : 0 <= many 1 (tick s) l) by (apply (many_nonneg 1 d); [lia|apply (e_inv _ _ _ _ _ _ _ _ _ _ E)]).
      specialize (IH d (tick s) (e_inv _ _ _ _ _ _ _ _ _ _ E) ltac:(congruence) F' Y2). rewrite EX, (e_cnt _ _ _ _ _ _ _ _ _ _ E), (e_rel _ _ _ _ _ _ _ _ _ _ E) in IH. pose proof (many_cycle 1 _ _ _ l _ _ _ _ _ _ I E) as MC. rewrite MC.
      destruct (ex_bit s) eqn:X.
      * specialize (IH ltac:(discriminate)). cbv zeta in IH. pose proof (seg_trans _ _ _ _ _ _ _ _ _ _ _ _ _ _ (eff_seg _ _ _ _ _ _ _ _ _ _ E) IH) as G. pose proof (up_range (reload_of s) (count_of s) (counts 1 s) R C N0) as [U1 U2]. pose proof (up_range (reload_of s) _ (many 1 (tick s) l) R U1 N1) as [_ U3].
        eapply seg_eq; [exact G| | | | |]; try reflexivity; rewrite up_add by assumption; cbn [fst snd orb]; [reflexivity|]. rewrite !andb_true_r. apply pos_add; assumption.
      * specialize (RC eq_refl). pose proof (down_range (reload_of s) (count_of s) (counts 1 s) R ltac:(lia) N0) as [U1 U2]. specialize (IH ltac:(intros _; lia)). cbv zeta in IH. pose proof (seg_trans _ _ _ _ _ _ _ _ _ _ _ _ _ _ (eff_seg _ _ _ _ _ _ _ _ _ _ E) IH) as G. pose proof (down_range (reload_of s) _ (many 1 (tick s) l) R U1 N1) as [_ U3].
        eapply seg_eq; [exact G| | | | |]; try reflexivity; rewrite down_add by lia; cbn [fst snd orb]; [reflexivity|]. rewrite <- pos_add by assumption. destruct (0 <? reload_of s); rewrite ?andb_true_r, ?andb_false_r; reflexivity.
    + pose proof (port_ok d s o I Ho NC) as E. pose proof (moved_ctl _ _ _ _ I E) as (ET & _ & _ & EM). rewrite <- (m_pin _ _ _ _ E) in Y1, Y2 by lia.
      assert (EX : ex_bit (step s o) = ex_bit s) by (rewrite (i_xb _ _ (m_inv _ _ _ _ E)), Y1; symmetry; apply (i_xb _ _ I)).
      specialize (IH d (step s o) (m_inv _ _ _ _ E) ltac:(congruence) F' Y2). rewrite EX, (m_cnt _ _ _ _ E), (m_rel _ _ _ _ E), <- (many_port 1 d s o l I E NC) in IH. specialize (IH RC). cbv zeta in IH.
      pose proof (seg_trans _ _ _ _ _ _ _ _ _ _ _ _ _ _ (moved_seg _ _ _ _ E) IH) as G. eapply seg_eq; [exact G| | | | |]; reflexivity.
Qed.
(** edges of T2EX wait while EXEN2 is clear or in down mode *)
Lemma wait_seg l : forall d s, inv d s -> Forall hands_off l -> EXEN s = false -> md s <> Down -> ex_edge (run s l) = ex_edge s + falls 1 (pin 1 s) l.
Proof.
  induction l as [|o l IH]; intros d s I F X N; [cbn [run fold_left falls]; lia|]. inversion F as [|? ? Ho F']; subst. rewrite run_cons. cbn [falls]. destruct (cyc_dec o) as [->|NC].
  - assert (E : exists c r o tf exf te, eff d s (tick s) c r o tf exf te (ex_edge s)).
    { assert (A : act_ex s = false) by (unfold act_ex; rewrite X; reflexivity). destruct (md s) eqn:M; [pose proof (tick_reload d s I M) as E|pose proof (tick_capture d s I M) as E|pose proof (tick_baud d s I M) as E|contradiction N; reflexivity]; cbv zeta in E; rewrite A in E; do 6 eexists; exact E. }
    destruct E as (c & r & o & tf & exf & te & E). pose proof (eff_ctl _ _ _ _ _ _ _ _ _ _ I E) as (_ & _ & EX & EM & _ & EP). change (step s Cycle) with (tick s). rewrite (IH d) by (congruence || (exact (e_inv _ _ _ _ _ _ _ _ _ _ E)) || assumption). change (pin_op 1 Cycle (pin 1 s)) with (pin 1 s). rewrite no_fall, EP by lia. rewrite (e_xe _ _ _ _ _ _ _ _ _ _ E). lia.
  - pose proof (port_ok d s o I Ho NC) as E. pose proof (moved_ctl _ _ _ _ I E) as (_ & _ & EX & EM). rewrite (IH d) by (congruence || (exact (m_inv _ _ _ _ E)) || assumption). rewrite (m_xe _ _ _ _ E), (m_pin _ _ _ _ E) by lia. unfold fall. lia.
Qed.
(** only port operations *)
Lemma ports_seg l : forall d s, inv d s -> Forall hands_off l -> cycles l = 0 ->
  let s' := run s l in inv d s' /\ count_of s' = count_of s /\ reload_of s' = reload_of s /\ t2con s' = t2con s /\ t2mod s' = t2mod s /\ ov s' = ov s /\ ex_edge s' = ex_edge s + falls 1 (pin 1 s) l.
Proof.
  induction l as [|o l IH]; intros d s I F N; cbv zeta; [cbn [run fold_left falls]; split; [exact I|]; rewrite Z.add_0_r; auto 10|]. inversion F as [|? ? Ho F']; subst. rewrite run_cons. cbn [falls].
  assert (NC : o <> Cycle) by (intros ->; cbn [cycles] in N; pose proof (cycles_nonneg l); lia). rewrite cycles_port in N by exact NC. pose proof (port_ok d s o I Ho NC) as E.
  destruct (IH d (step s o) (m_inv _ _ _ _ E) F' N) as (A1 & A2 & A3 & A4 & A5 & A6 & A7). split; [exact A1|]. rewrite A2, A3, A4, A5, A6, A7, (m_pin _ _ _ _ E), (m_xe _ _ _ _ E), (m_cnt _ _ _ _ E), (m_rel _ _ _ _ E), (m_con _ _ _ _ E), (m_mod _ _ _ _ E), (m_ov _ _ _ _ E) by lia. unfold fall.
  split; [reflexivity|]. split; [reflexivity|]. split; [reflexivity|]. split; [reflexivity|]. split; [reflexivity|lia].
Qed.
