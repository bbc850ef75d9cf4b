From Verif Require Import Base Tm2Model Tm2Spec Tm2Proofs.

(** ** What a machine cycle may do *)
Record eff (d : bool) (s s' : st) (c r o : Z) (tf exf : bool) (te xe : Z) : Prop := {
  e_inv : inv d s'; e_cnt : count_of s' = c; e_rel : reload_of s' = r; e_mod : t2mod s' = t2mod s; e_ov : ov s' = ov s + o;
  e_con : forall j, Z.testbit (t2con s') j = Z.testbit (t2con s) j || (j =? 7) && tf || (j =? 6) && exf;
  e_pins : pins s' = pins s; e_p1 : forall j, 0 <= j -> j <> 6 -> Z.testbit (p1 s') j = Z.testbit (p1 s) j;
  e_te : T_edge s' = te; e_xe : ex_edge s' = xe }.
Lemma eff_refl d s : inv d s -> eff d s s (count_of s) (reload_of s) 0 false false (T_edge s) (ex_edge s).
Proof. intros I. constructor; try reflexivity; [exact I|lia|]. intros j. rewrite !andb_false_r, !orb_false_r. reflexivity. Qed.
Lemma eff_put d s s' c r o tf exf te xe v : eff d s s' c r o tf exf te xe -> 0 <= v < 65536 -> eff d s (put v s') v r o tf exf te xe.
Proof. intros [I A B C D E F G H J] V. constructor; try assumption; [apply put_inv, I|apply put_count, V]. Qed.
Lemma eff_tf d s s' c r o tf exf te xe : eff d s s' c r o tf exf te xe -> eff d s (set_flag bmTF2 s') c r o true exf te xe.
Proof.
  intros [I A B C D E F G H J]. constructor; try assumption; [apply flag_inv; [left; reflexivity|exact I]|]. intros j. unfold set_flag. cbn [set_con t2con]. rewrite Z.mod_small by (apply or_byte; [apply (i_con _ _ I)|unfold byte, bmTF2; lia]). rewrite or_TF, E. rewrite !andb_true_r.
  destruct (Z.testbit (t2con s) j), (j =? 7), tf, ((j =? 6) && exf); reflexivity.
Qed.
Lemma eff_exf d s s' c r o tf exf te xe : eff d s s' c r o tf exf te xe -> eff d s (set_flag bmEXF2 s') c r o tf true te xe.
Proof.
  intros [I A B C D E F G H J]. constructor; try assumption; [apply flag_inv; [right; reflexivity|exact I]|]. intros j. unfold set_flag. cbn [set_con t2con]. rewrite Z.mod_small by (apply or_byte; [apply (i_con _ _ I)|unfold byte, bmEXF2; lia]). rewrite or_EXF, E. rewrite !andb_true_r.
  destruct (Z.testbit (t2con s) j), ((j =? 7) && tf), (j =? 6), exf; reflexivity.
Qed.
Lemma eff_edges d s s' c r o tf exf te xe te2 xe2 : eff d s s' c r o tf exf te xe -> 0 <= te2 -> 0 <= xe2 -> eff d s (set_edges te2 xe2 (ex_bit s') s') c r o tf exf te2 xe2.
Proof. intros [I A B C D E F G H J] T X. constructor; try assumption; try reflexivity. apply edges_inv; assumption. Qed.
Lemma eff_rcap d s s' c r o tf exf te xe : eff d s s' c r o tf exf te xe -> eff d s (set_rcap (th2 s') (tl2 s') s') c c o tf exf te xe.
Proof.
  intros [I A B C D E F G H J]. constructor; try assumption; [apply rcap_inv, I|]. pose proof (i_tl _ _ I). pose proof (i_th _ _ I). unfold byte in *. unfold reload_of. cbn [set_rcap rcaph rcapl]. rewrite !Z.mod_small by lia. exact A.
Qed.
Lemma eff_notify d s s' c r o tf exf te xe : eff d s s' c r o tf exf te xe -> eff d s (notify s') c r (o + 1) tf exf te xe.
Proof. intros [[? ? ? ? ? ? ? ? ? ? ? ? ? ?] A B C D E F G H J]. constructor; try assumption; [constructor; assumption|]. cbn [notify ov]. lia. Qed.
Lemma pin_same p q n : (forall j, 0 <= j -> j <> 6 -> Z.testbit p j = Z.testbit q j) -> high (Z.testbit p 1, n) = high (Z.testbit q 1, n).
Proof. intros H. unfold high. cbn [fst snd]. rewrite H by lia. reflexivity. Qed.
Lemma eff_p1 d s s' c r o tf exf te xe : eff d s s' c r o tf exf te xe -> eff d s (set_p1 (Z.lxor (p1 s') bmEXF2) s') c r o tf exf te xe.
Proof.
  intros [I A B C D E F G H J]. pose proof I as [I1 I2 I3 I4 I5 I6 I7 I8 I9 I10 I11 I12 I13 I14].
  assert (XB : Z.lxor (p1 s') bmEXF2 mod 256 = Z.lxor (p1 s') bmEXF2) by (apply Z.mod_small, xor_byte; [exact I6|unfold byte, bmEXF2; lia]).
  assert (XT : forall j, 0 <= j -> j <> 6 -> Z.testbit (Z.lxor (p1 s') bmEXF2) j = Z.testbit (p1 s') j).
  { intros j J0 J6. rewrite Z.lxor_spec. change bmEXF2 with (2 ^ 6). rewrite pow_bit by lia. replace (j =? 6) with false by lia. apply xorb_false_r. }
  constructor; try assumption.
  - constructor; try assumption; [apply byte_mod|]. cbn [set_p1 ex_bit]. rewrite I14. unfold pin. cbn [set_p1 p1 pins]. rewrite XB. symmetry. apply pin_same. exact XT.
  - intros j J0 J6. cbn [set_p1 p1]. rewrite XB, XT by assumption. apply G; assumption.
Qed.
Lemma eff_eq d s s' c r o tf exf te xe c' r' o' tf' exf' te' xe' : eff d s s' c r o tf exf te xe ->
  c = c' -> r = r' -> o = o' -> tf = tf' -> exf = exf' -> te = te' -> xe = xe' -> eff d s s' c' r' o' tf' exf' te' xe'.
Proof. intros E -> -> -> -> -> -> ->. exact E. Qed.
Lemma eff_members d s s' c r o tf exf te xe : eff d s s' c r o tf exf te xe -> TR s' = TR s /\ CT s' = CT s /\ EXEN s' = EXEN s /\ md s' = md s /\ ex_bit s' = ex_bit s -> inv d s -> True.
Proof. auto. Qed.
Lemma eff_ctl d s s' c r o tf exf te xe : inv d s -> eff d s s' c r o tf exf te xe -> TR s' = TR s /\ CT s' = CT s /\ EXEN s' = EXEN s /\ md s' = md s /\ ex_bit s' = ex_bit s /\ forall j, 0 <= j -> j <> 6 -> pin j s' = pin j s.
Proof.
  intros I [I' A B C D E F G H J].
  assert (SM : same_ctl (t2con s') (t2con s)) by (intros j K; rewrite E; replace (j =? 7) with false by lia; replace (j =? 6) with false by lia; cbn [andb]; rewrite !orb_false_r; reflexivity).
  assert (PN : forall j, 0 <= j -> j <> 6 -> pin j s' = pin j s) by (intros j J0 J6; unfold pin; rewrite F, G by assumption; reflexivity).
  split; [rewrite (i_tr _ _ I), (i_tr _ _ I'); apply SM; unfold bTR2; lia|]. split; [rewrite (i_ct _ _ I), (i_ct _ _ I'); apply SM; unfold bCT2; lia|]. split; [rewrite (i_ex _ _ I), (i_ex _ _ I'); apply SM; unfold bEXEN2; lia|].
  split; [rewrite (i_md _ _ I), (i_md _ _ I'); apply mode_same, SM|]. split; [rewrite (i_xb _ _ I), (i_xb _ _ I'), PN by lia; reflexivity|exact PN].
Qed.
Lemma eff_trans d s s1 s2 c1 r1 o1 t1 x1 te1 xe1 c2 r2 o2 t2 x2 te2 xe2 : eff d s s1 c1 r1 o1 t1 x1 te1 xe1 -> eff d s1 s2 c2 r2 o2 t2 x2 te2 xe2 -> eff d s s2 c2 r2 (o1 + o2) (t1 || t2) (x1 || x2) te2 xe2.
Proof.
  intros [I A B C D E F G H J] [I' A' B' C' D' E' F' G' H' J']. constructor; try assumption; try congruence; [lia| |intros j J0 J6; rewrite G', G by assumption; reflexivity].
  intros j. rewrite E', E. destruct (Z.testbit (t2con s) j), (j =? 7), (j =? 6), t1, t2, x1, x2; reflexivity.
Qed.

(** ** The bodies of the loops *)
Lemma load_eff d s s' c r o tf exf te xe : eff d s s' c r o tf exf te xe -> eff d s (load s') r r o tf exf te xe.
Proof.
  intros E. pose proof (e_inv _ _ _ _ _ _ _ _ _ _ E) as I. rewrite load_put by (apply (i_rl _ _ I) || apply (i_rh _ _ I)). rewrite (e_rel _ _ _ _ _ _ _ _ _ _ E). apply eff_put with (c := c); [exact E|]. rewrite <- (e_rel _ _ _ _ _ _ _ _ _ _ E). apply (reload_range d), I.
Qed.
Lemma count_baud_eff d s : inv d s -> let c := count_of s in let r := reload_of s in
  eff d s (count_baud s) (if c =? 65535 then r else c + 1) r (if c =? 65535 then 1 else 0) false false (T_edge s) (ex_edge s).
Proof.
  intros I. cbv zeta. change (count_baud s) with (up (fun s => notify (load s)) s). rewrite up_ok by (apply (i_tl _ _ I) || apply (i_th _ _ I)). pose proof (count_range d s I) as C. destruct (Z.eqb_spec (count_of s) 65535) as [E|E].
  - eapply eff_eq; [eapply eff_notify, load_eff, eff_put; [apply eff_refl, I|lia]|reflexivity..].
  - eapply eff_put; [apply eff_refl, I|lia].
Qed.
Lemma baud_times d n : forall s, inv d s -> let x := law_up (reload_of s) (count_of s) (Z.of_nat n) in
  eff d s (times n count_baud s) (fst x) (reload_of s) (snd x) false false (T_edge s) (ex_edge s).
Proof.
  induction n as [|n IH]; intros s I; cbv zeta.
  - cbn [times]. change (Z.of_nat 0) with 0. rewrite up0 by apply (count_range d s I). apply eff_refl, I.
  - cbn [times]. pose proof (count_baud_eff d s I) as E. cbv zeta in E. set (s1 := count_baud s) in *. pose proof (e_inv _ _ _ _ _ _ _ _ _ _ E) as I1. specialize (IH s1 I1). cbv zeta in IH.
    rewrite (e_rel _ _ _ _ _ _ _ _ _ _ E), (e_cnt _ _ _ _ _ _ _ _ _ _ E), (e_te _ _ _ _ _ _ _ _ _ _ E), (e_xe _ _ _ _ _ _ _ _ _ _ E) in IH. pose proof (eff_trans _ _ _ _ _ _ _ _ _ _ _ _ _ _ _ _ _ _ E IH) as T. clear E IH.
    replace (Z.of_nat (S n)) with (1 + Z.of_nat n) by lia. rewrite up_next by (apply (count_range d s I) || apply (reload_range d s I) || lia). destruct (count_of s =? 65535); cbn [fst snd]; exact T.
Qed.
Lemma up_tf_eff d s : inv d s -> let c := count_of s in let r := reload_of s in
  eff d s (up (fun s => load (set_flag bmTF2 s)) s) (fst (law_up r c 1)) r 0 (0 <? snd (law_up r c 1)) false (T_edge s) (ex_edge s).
Proof.
  intros I. cbv zeta. rewrite up_ok by (apply (i_tl _ _ I) || apply (i_th _ _ I)). pose proof (count_range d s I) as C. pose proof (reload_range d s I) as R. change 1 with (1 + 0). rewrite up_next by lia. destruct (Z.eqb_spec (count_of s) 65535) as [E|E].
  - rewrite up0 by lia. cbn [fst snd]. change (0 <? 1 + 0) with true. eapply load_eff, eff_tf, eff_put; [apply eff_refl, I|lia].
  - rewrite up0 by lia. cbn [fst snd]. change (0 <? 0) with false. eapply eff_put; [apply eff_refl, I|lia].
Qed.
Lemma wrap_tf_eff d s : inv d s -> let c := count_of s in
  eff d s (up (set_flag bmTF2) s) (fst (law_wrap c 1)) (reload_of s) 0 (0 <? snd (law_wrap c 1)) false (T_edge s) (ex_edge s).
Proof.
  intros I. cbv zeta. rewrite up_ok by (apply (i_tl _ _ I) || apply (i_th _ _ I)). pose proof (count_range d s I) as C. change 1 with (1 + 0). rewrite wrap_next by lia. destruct (Z.eqb_spec (count_of s) 65535) as [E|E].
  - rewrite wrap0 by lia. cbn [fst snd]. change (0 <? 1 + 0) with true. eapply eff_tf, eff_put; [apply eff_refl, I|lia].
  - rewrite wrap0 by lia. cbn [fst snd]. change (0 <? 0) with false. eapply eff_put; [apply eff_refl, I|lia].
Qed.
Lemma count_up_eff d s t : inv d s -> let x := law_up (reload_of s) (count_of s) 1 in
  fst (count_up (t, s)) = t || (0 <? snd x) /\ eff d s (snd (count_up (t, s))) (fst x) (reload_of s) 0 (0 <? snd x) false (T_edge s) (ex_edge s).
Proof.
  intros I. pose proof (up_tf_eff d s I) as E. cbv zeta in E. cbv zeta. assert (S : count_up (t, s) = (t || (count_of s =? 65535), up (fun s => load (set_flag bmTF2 s)) s)).
  { assert (Q : fst (count_up (t, s)) = t || (count_of s =? 65535)).
    { pose proof (up_ok (fun _ => set_pins (-1) s) s (i_tl _ _ I) (i_th _ _ I)) as U. pose proof (i_pins _ _ I) as P. unfold byte in P. unfold count_up. unfold up in U. destruct (tl2 (set_tl (tl2 s + 1) s) =? 0).
      - destruct (th2 (set_th (th2 (set_tl (tl2 s + 1) s) + 1) (set_tl (tl2 s + 1) s)) =? 0); destruct (count_of s =? 65535); cbn [fst]; rewrite ?orb_true_r, ?orb_false_r; try reflexivity; exfalso; apply (f_equal pins) in U; cbn in U; lia.
      - destruct (count_of s =? 65535); cbn [fst]; rewrite ?orb_true_r, ?orb_false_r; try reflexivity; exfalso; apply (f_equal pins) in U; cbn in U; lia. }
    rewrite <- Q. unfold count_up, up. destruct (tl2 _ =? 0); [destruct (th2 _ =? 0)|]; reflexivity. }
  rewrite S. cbn [fst snd]. split; [|exact E]. f_equal. pose proof (count_range d s I) as C. pose proof (reload_range d s I) as R. change 1 with (1 + 0). rewrite up_next by lia. destruct (Z.eqb_spec (count_of s) 65535); rewrite up0 by lia; reflexivity.
Qed.
Lemma down_step d s t : inv d s -> reload_of s <= count_of s -> let x := law_down (reload_of s) (count_of s) 1 in
  fst (count_down (t, s)) = t || (0 <? snd x) && (0 <? reload_of s) /\ eff d s (snd (count_down (t, s))) (fst x) (reload_of s) 0 ((0 <? snd x) && (0 <? reload_of s)) false (T_edge s) (ex_edge s).
Proof.
  intros I RC. cbv zeta. pose proof (count_range d s I) as C. pose proof (reload_range d s I) as R. change 1 with (1 + 0). rewrite down_next by lia. pose proof (i_tl _ _ I) as L. pose proof (i_th _ _ I) as H. unfold byte in L, H.
  assert (Q : (let s := set_tl (tl2 s - 1) s in if tl2 s =? 0xff then set_th (th2 s - 1) s else s) = put ((count_of s - 1) mod 65536) s).
  { unfold put, count_of. destruct s as [con tmod tl th rl rh p pn m ct tr ex te xe xb o]. unfold set_tl, set_th. cbn [set_tl set_th tl2 th2 t2con t2mod rcapl rcaph p1 pins md CT TR EXEN T_edge ex_edge ex_bit ov] in *. destruct (Z.eq_dec tl 0) as [-> | N].
    - change ((0 - 1) mod 256) with 255. cbn [Z.eqb Pos.eqb]. destruct (Z.eq_dec th 0) as [-> | M]; [reflexivity|]. rewrite (Z.mod_small (th * 256 + 0 - 1) 65536) by lia. replace (th * 256 + 0 - 1) with (255 + (th - 1) * 256) by lia. rewrite Z.div_add, Z.mod_add by lia. reflexivity.
    - rewrite (Z.mod_small (tl - 1)) by lia. replace (tl - 1 =? 255) with false by lia. rewrite (Z.mod_small (th * 256 + tl - 1) 65536) by lia. replace (th * 256 + tl - 1) with (tl - 1 + th * 256) by lia. rewrite Z.div_add, Z.mod_add by lia. rewrite (Z.mod_small (tl - 1)), (Z.div_small (tl - 1)) by lia. rewrite Z.add_0_l, (Z.mod_small th), (Z.mod_small (tl - 1)) by lia. reflexivity. }
  unfold count_down. cbv zeta in Q. cbv zeta. rewrite Q. set (v := (count_of s - 1) mod 65536). assert (V : 0 <= v < 65536) by (apply Z.mod_pos_bound; lia).
  change (th2 (put v s) * 256 + tl2 (put v s)) with (count_of (put v s)). change (rcaph (put v s) * 256 + rcapl (put v s)) with (reload_of s). rewrite put_count by exact V.
  destruct (Z.eqb_spec (count_of s) (reload_of s)) as [E|E].
  - rewrite down0 by lia. cbn [fst snd]. change (0 <? 1 + 0) with true. cbn [andb]. destruct (Z.ltb_spec 0 (reload_of s)) as [P|P].
    + assert (VE : v = count_of s - 1) by (unfold v; apply Z.mod_small; lia). replace (v <? reload_of s) with true by lia. cbn [fst snd]. rewrite orb_true_r. split; [reflexivity|].
      assert (PE : set_tl 255 (set_th 255 (set_flag bmTF2 (put v s))) = put 65535 (set_flag bmTF2 (put v s))) by reflexivity. rewrite PE.
      eapply eff_put; [eapply eff_tf, eff_put; [apply eff_refl, I|lia]|lia].
    + assert (VE : v = 65535) by (unfold v; replace (count_of s - 1) with (-1) by lia; reflexivity). replace (v <? reload_of s) with false by lia. cbn [fst snd]. rewrite orb_false_r. split; [reflexivity|]. rewrite VE. eapply eff_put; [apply eff_refl, I|lia].
  - rewrite down0 by lia. cbn [fst snd]. change (0 <? 0) with false. cbn [andb]. assert (VE : v = count_of s - 1) by (unfold v; apply Z.mod_small; lia). replace (v <? reload_of s) with false by lia. cbn [fst snd]. rewrite orb_false_r. split; [reflexivity|]. rewrite VE. eapply eff_put; [apply eff_refl, I|lia].
Qed.
Lemma pair_eta (A B : Type) (x : A * B) : x = (fst x, snd x).
Proof. destruct x; reflexivity. Qed.
Lemma up_times d n : forall t s, inv d s -> let x := law_up (reload_of s) (count_of s) (Z.of_nat n) in let y := times2 n count_up (t, s) in
  fst y = t || (0 <? snd x) /\ eff d s (snd y) (fst x) (reload_of s) 0 (0 <? snd x) false (T_edge s) (ex_edge s).
Proof.
  induction n as [|n IH]; intros t s I; cbv zeta.
  - cbn [times2 fst snd]. change (Z.of_nat 0) with 0. rewrite up0 by apply (count_range d s I). cbn [fst snd]. rewrite Z.ltb_irrefl, orb_false_r. split; [reflexivity|apply eff_refl, I].
  - cbn [times2]. destruct (count_up_eff d s t I) as [A E]. cbv zeta in A, E. rewrite (pair_eta _ _ (count_up (t, s))), A. set (s1 := snd (count_up (t, s))) in *. pose proof (e_inv _ _ _ _ _ _ _ _ _ _ E) as I1. specialize (IH (t || (0 <? snd (law_up (reload_of s) (count_of s) 1))) s1 I1). cbv zeta in IH. destruct IH as [B IH].
    rewrite (e_rel _ _ _ _ _ _ _ _ _ _ E), (e_cnt _ _ _ _ _ _ _ _ _ _ E) in *. rewrite (e_te _ _ _ _ _ _ _ _ _ _ E), (e_xe _ _ _ _ _ _ _ _ _ _ E) in IH. pose proof (eff_trans _ _ _ _ _ _ _ _ _ _ _ _ _ _ _ _ _ _ E IH) as T. clear E IH.
    pose proof (count_range d s I) as C. pose proof (reload_range d s I) as R. replace (Z.of_nat (S n)) with (1 + Z.of_nat n) by lia. rewrite up_next by lia. pose proof (up_next (reload_of s) (count_of s) 0 R C ltac:(lia)) as L1. change (1 + 0) with 1 in L1. rewrite L1 in B, T |- *. clear L1. destruct (Z.eqb_spec (count_of s) 65535) as [E|E]; rewrite up0 in B, T |- * by lia; cbn [fst snd] in B, T |- *; rewrite B.
    + pose proof (up_range (reload_of s) (reload_of s) (Z.of_nat n) R R ltac:(lia)) as [_ O]. change (0 <? 1 + 0) with true in *. replace (0 <? 1 + snd (law_up (reload_of s) (reload_of s) (Z.of_nat n))) with true by lia. split; [rewrite !orb_true_r; reflexivity|]. exact T.
    + change (0 <? 0) with false in *. rewrite orb_false_r in *. split; [reflexivity|]. exact T.
Qed.
Lemma down_times d n : forall t s, inv d s -> reload_of s <= count_of s -> let x := law_down (reload_of s) (count_of s) (Z.of_nat n) in let y := times2 n count_down (t, s) in
  fst y = t || (0 <? snd x) && (0 <? reload_of s) /\ eff d s (snd y) (fst x) (reload_of s) 0 ((0 <? snd x) && (0 <? reload_of s)) false (T_edge s) (ex_edge s).
Proof.
  induction n as [|n IH]; intros t s I RC; cbv zeta.
  - cbn [times2 fst snd]. change (Z.of_nat 0) with 0. rewrite down0 by lia. cbn [fst snd]. rewrite Z.ltb_irrefl. cbn [andb]. rewrite orb_false_r. split; [reflexivity|apply eff_refl, I].
  - cbn [times2]. destruct (down_step d s t I RC) as [A E]. cbv zeta in A, E. rewrite (pair_eta _ _ (count_down (t, s))), A. set (s1 := snd (count_down (t, s))) in *. pose proof (e_inv _ _ _ _ _ _ _ _ _ _ E) as I1. pose proof (count_range d s I) as C. pose proof (reload_range d s I) as R.
    pose proof (down_range (reload_of s) (count_of s) 1 R ltac:(lia) ltac:(lia)) as [DR _].
    specialize (IH (t || (0 <? snd (law_down (reload_of s) (count_of s) 1)) && (0 <? reload_of s)) s1 I1). rewrite (e_rel _ _ _ _ _ _ _ _ _ _ E), (e_cnt _ _ _ _ _ _ _ _ _ _ E) in IH. specialize (IH (proj1 DR)). cbv zeta in IH. destruct IH as [B IH].
    rewrite (e_te _ _ _ _ _ _ _ _ _ _ E), (e_xe _ _ _ _ _ _ _ _ _ _ E) in IH. pose proof (eff_trans _ _ _ _ _ _ _ _ _ _ _ _ _ _ _ _ _ _ E IH) as T. clear E IH.
    replace (Z.of_nat (S n)) with (1 + Z.of_nat n) by lia. rewrite down_next by lia. pose proof (down_next (reload_of s) (count_of s) 0 R ltac:(lia) ltac:(lia)) as L1. change (1 + 0) with 1 in L1. rewrite L1 in B, T |- *. clear L1. destruct (Z.eqb_spec (count_of s) (reload_of s)) as [E|E]; rewrite down0 in B, T |- * by lia; cbn [fst snd] in B, T |- *; rewrite B.
    + pose proof (down_range (reload_of s) 65535 (Z.of_nat n) R ltac:(lia) ltac:(lia)) as [_ O]. change (0 <? 1 + 0) with true in *. cbn [andb] in *. replace (0 <? 1 + snd (law_down (reload_of s) 65535 (Z.of_nat n))) with true by lia. cbn [andb]. split; [destruct t, (0 <? reload_of s), (0 <? snd (law_down (reload_of s) 65535 (Z.of_nat n))); reflexivity|].
      eapply eff_eq; [exact T|reflexivity|reflexivity|reflexivity| |reflexivity|reflexivity|reflexivity]. destruct (0 <? reload_of s), (0 <? snd (law_down (reload_of s) 65535 (Z.of_nat n))); reflexivity.
    + change (0 <? 0) with false in *. cbn [andb] in *. rewrite orb_false_r in *. split; [reflexivity|]. exact T.
Qed.

(** ** A cycle, mode by mode *)
Definition act_ex (s : st) : bool := EXEN s && negb (ex_edge s =? 0).
Definition te_after (s : st) : Z := if TR s && CT s then 0 else T_edge s.
Lemma tick_reload d s : inv d s -> md s = Reload -> let r := reload_of s in let c := if act_ex s then r else count_of s in
  eff d s (tick s) (if TR s then fst (law_up r c 1) else c) r 0 (TR s && (0 <? snd (law_up r c 1))) (act_ex s) (te_after s) (if act_ex s then 0 else ex_edge s).
Proof.
  intros I M. cbv zeta. unfold tick. rewrite M. unfold do_reload. fold (act_ex s). set (s1 := if act_ex s then _ else s).
  assert (E1 : eff d s s1 (if act_ex s then reload_of s else count_of s) (reload_of s) 0 false (act_ex s) (T_edge s) (if act_ex s then 0 else ex_edge s)).
  { unfold s1. destruct (act_ex s); [|apply eff_refl, I]. eapply (eff_edges d s (load (set_flag bmEXF2 s))); [|apply (i_te _ _ I)|lia]. eapply load_eff, eff_exf, eff_refl, I. }
  destruct (eff_ctl _ _ _ _ _ _ _ _ _ _ I E1) as (T1 & C1 & _). pose proof (e_inv _ _ _ _ _ _ _ _ _ _ E1) as I1. unfold te_after. rewrite T1. destruct (TR s) eqn:T; cbn [negb andb]; [|exact E1].
  unfold take. rewrite C1. assert (E2 : exists s2, (if CT s then (T_edge s1, set_edges 0 (ex_edge s1) (ex_bit s1) s1) else (1, s1)) = ((if CT s then T_edge s1 else 1), s2) /\ eff d s s2 (if act_ex s then reload_of s else count_of s) (reload_of s) 0 false (act_ex s) (if CT s then 0 else T_edge s) (if act_ex s then 0 else ex_edge s)).
  { destruct (CT s); [|exists s1; split; [reflexivity|exact E1]]. eexists. split; [reflexivity|]. eapply eff_eq; [eapply (eff_edges d s s1 _ _ _ _ _ _ _ 0 (ex_edge s1)); [exact E1|lia|apply (i_xe _ _ I1)]|reflexivity..|apply (e_xe _ _ _ _ _ _ _ _ _ _ E1)]. }
  destruct E2 as (s2 & -> & E2). pose proof (e_inv _ _ _ _ _ _ _ _ _ _ E2) as I2. pose proof (up_tf_eff d s2 I2) as U. cbv zeta in U. rewrite (e_rel _ _ _ _ _ _ _ _ _ _ E2), (e_cnt _ _ _ _ _ _ _ _ _ _ E2), (e_te _ _ _ _ _ _ _ _ _ _ E2), (e_xe _ _ _ _ _ _ _ _ _ _ E2) in U.
  eapply eff_eq; [exact (eff_trans _ _ _ _ _ _ _ _ _ _ _ _ _ _ _ _ _ _ E2 U)|reflexivity|reflexivity|reflexivity|reflexivity|apply orb_false_r|reflexivity|reflexivity].
Qed.
Lemma tick_capture d s : inv d s -> md s = Capture -> let c := count_of s in let r := if act_ex s then c else reload_of s in
  eff d s (tick s) (if TR s then fst (law_wrap c 1) else c) r 0 (TR s && (0 <? snd (law_wrap c 1))) (act_ex s) (te_after s) (if act_ex s then 0 else ex_edge s).
Proof.
  intros I M. cbv zeta. unfold tick. rewrite M. unfold do_capture. fold (act_ex s). set (s1 := if act_ex s then _ else s).
  assert (E1 : eff d s s1 (count_of s) (if act_ex s then count_of s else reload_of s) 0 false (act_ex s) (T_edge s) (if act_ex s then 0 else ex_edge s)).
  { unfold s1. destruct (act_ex s); [|apply eff_refl, I]. eapply (eff_edges d s (set_rcap (th2 s) (tl2 s) (set_flag bmEXF2 s))); [|apply (i_te _ _ I)|lia]. eapply (eff_rcap d s (set_flag bmEXF2 s)), eff_exf, eff_refl, I. }
  destruct (eff_ctl _ _ _ _ _ _ _ _ _ _ I E1) as (T1 & C1 & _). pose proof (e_inv _ _ _ _ _ _ _ _ _ _ E1) as I1. unfold te_after. rewrite T1. destruct (TR s) eqn:T; cbn [negb andb]; [|exact E1].
  unfold take. rewrite C1. assert (E2 : exists s2, (if CT s then (T_edge s1, set_edges 0 (ex_edge s1) (ex_bit s1) s1) else (1, s1)) = ((if CT s then T_edge s1 else 1), s2) /\ eff d s s2 (count_of s) (if act_ex s then count_of s else reload_of s) 0 false (act_ex s) (if CT s then 0 else T_edge s) (if act_ex s then 0 else ex_edge s)).
  { destruct (CT s); [|exists s1; split; [reflexivity|exact E1]]. eexists. split; [reflexivity|]. eapply eff_eq; [eapply (eff_edges d s s1 _ _ _ _ _ _ _ 0 (ex_edge s1)); [exact E1|lia|apply (i_xe _ _ I1)]|reflexivity..|apply (e_xe _ _ _ _ _ _ _ _ _ _ E1)]. }
  destruct E2 as (s2 & -> & E2). pose proof (e_inv _ _ _ _ _ _ _ _ _ _ E2) as I2. pose proof (wrap_tf_eff d s2 I2) as U. cbv zeta in U. rewrite (e_rel _ _ _ _ _ _ _ _ _ _ E2), (e_cnt _ _ _ _ _ _ _ _ _ _ E2), (e_te _ _ _ _ _ _ _ _ _ _ E2), (e_xe _ _ _ _ _ _ _ _ _ _ E2) in U.
  eapply eff_eq; [exact (eff_trans _ _ _ _ _ _ _ _ _ _ _ _ _ _ _ _ _ _ E2 U)|reflexivity|reflexivity|reflexivity|reflexivity|apply orb_false_r|reflexivity|reflexivity].
Qed.
(** counts of one cycle of the baud rate generator and of the up/down counter *)
Definition counts (k : Z) (s : st) : Z := if TR s then (if CT s then T_edge s else k) else 0.
Lemma tick_baud d s : inv d s -> md s = Baud -> let x := law_up (reload_of s) (count_of s) (counts 6 s) in
  eff d s (tick s) (fst x) (reload_of s) (snd x) false (act_ex s) (te_after s) (if act_ex s then 0 else ex_edge s).
Proof.
  intros I M. cbv zeta. unfold tick. rewrite M. unfold do_baud. fold (act_ex s). set (s1 := if act_ex s then _ else s).
  assert (E1 : eff d s s1 (count_of s) (reload_of s) 0 false (act_ex s) (T_edge s) (if act_ex s then 0 else ex_edge s)).
  { unfold s1. destruct (act_ex s); [|apply eff_refl, I]. eapply (eff_edges d s (set_flag bmEXF2 s)); [|apply (i_te _ _ I)|lia]. eapply eff_exf, eff_refl, I. }
  destruct (eff_ctl _ _ _ _ _ _ _ _ _ _ I E1) as (T1 & C1 & _). pose proof (e_inv _ _ _ _ _ _ _ _ _ _ E1) as I1. unfold te_after, counts. rewrite T1. pose proof (count_range d s I) as C. destruct (TR s) eqn:T; cbn [negb andb]; [|rewrite up0 by lia; exact E1].
  unfold take. rewrite C1. assert (E2 : exists s2, (if CT s then (T_edge s1, set_edges 0 (ex_edge s1) (ex_bit s1) s1) else (6, s1)) = ((if CT s then T_edge s else 6), s2) /\ eff d s s2 (count_of s) (reload_of s) 0 false (act_ex s) (if CT s then 0 else T_edge s) (if act_ex s then 0 else ex_edge s)).
  { rewrite (e_te _ _ _ _ _ _ _ _ _ _ E1). destruct (CT s); [|exists s1; split; [reflexivity|exact E1]]. eexists. split; [reflexivity|]. eapply eff_eq; [eapply (eff_edges d s s1 _ _ _ _ _ _ _ 0 (ex_edge s1)); [exact E1|lia|apply (i_xe _ _ I1)]|reflexivity..|apply (e_xe _ _ _ _ _ _ _ _ _ _ E1)]. }
  destruct E2 as (s2 & -> & E2). pose proof (e_inv _ _ _ _ _ _ _ _ _ _ E2) as I2. set (n := if CT s then T_edge s else 6). assert (N : 0 <= n) by (unfold n; pose proof (i_te _ _ I); destruct (CT s); lia).
  pose proof (baud_times d (Z.to_nat n) s2 I2) as U. cbv zeta in U. rewrite Z2Nat.id in U by exact N. rewrite (e_rel _ _ _ _ _ _ _ _ _ _ E2), (e_cnt _ _ _ _ _ _ _ _ _ _ E2), (e_te _ _ _ _ _ _ _ _ _ _ E2), (e_xe _ _ _ _ _ _ _ _ _ _ E2) in U.
  eapply eff_eq; [exact (eff_trans _ _ _ _ _ _ _ _ _ _ _ _ _ _ _ _ _ _ E2 U)|reflexivity|reflexivity|reflexivity|reflexivity|apply orb_false_r|reflexivity|reflexivity].
Qed.
Lemma tick_down d s : inv d s -> md s = Down -> (ex_bit s = false -> reload_of s <= count_of s) ->
  let x := if ex_bit s then law_up (reload_of s) (count_of s) (counts 1 s) else law_down (reload_of s) (count_of s) (counts 1 s) in
  eff d s (tick s) (fst x) (reload_of s) 0 ((0 <? snd x) && (ex_bit s || (0 <? reload_of s))) false (te_after s) (ex_edge s).
Proof.
  intros I M RC. cbv zeta. unfold tick. rewrite M. unfold do_down, te_after, counts. pose proof (count_range d s I) as C. destruct (TR s) eqn:T; cbn [negb andb].
  2:{ destruct (ex_bit s) eqn:X; [rewrite up0 by lia|rewrite down0 by (apply RC; reflexivity)]; cbn [fst snd]; rewrite Z.ltb_irrefl; apply eff_refl, I. }
  unfold take. assert (E2 : exists s2, (if CT s then (T_edge s, set_edges 0 (ex_edge s) (ex_bit s) s) else (1, s)) = ((if CT s then T_edge s else 1), s2) /\ eff d s s2 (count_of s) (reload_of s) 0 false false (if CT s then 0 else T_edge s) (ex_edge s) /\ ex_bit s2 = ex_bit s).
  { destruct (CT s); [|exists s; split; [reflexivity|]; split; [apply eff_refl, I|reflexivity]]. eexists. split; [reflexivity|]. split; [|reflexivity]. eapply eff_edges; [apply eff_refl, I|lia|apply (i_xe _ _ I)]. }
  destruct E2 as (s2 & -> & E2 & XB). pose proof (e_inv _ _ _ _ _ _ _ _ _ _ E2) as I2. set (n := if CT s then T_edge s else 1). assert (N : 0 <= n) by (unfold n; pose proof (i_te _ _ I); destruct (CT s); lia). rewrite XB.
  destruct (ex_bit s) eqn:X.
  - pose proof (up_times d (Z.to_nat n) false s2 I2) as [A U]. cbv zeta in A, U. rewrite Z2Nat.id in A, U by exact N. rewrite (e_rel _ _ _ _ _ _ _ _ _ _ E2), (e_cnt _ _ _ _ _ _ _ _ _ _ E2) in A, U. rewrite (e_te _ _ _ _ _ _ _ _ _ _ E2), (e_xe _ _ _ _ _ _ _ _ _ _ E2) in U.
    pose proof (eff_trans _ _ _ _ _ _ _ _ _ _ _ _ _ _ _ _ _ _ E2 U) as Q. rewrite (pair_eta _ _ (times2 _ _ _)). rewrite A. cbn [orb]. rewrite andb_true_r. destruct (0 <? snd (law_up (reload_of s) (count_of s) n)) eqn:O; [apply eff_p1; exact Q|exact Q].
  - specialize (RC eq_refl). pose proof (down_times d (Z.to_nat n) false s2 I2) as DT. rewrite (e_rel _ _ _ _ _ _ _ _ _ _ E2), (e_cnt _ _ _ _ _ _ _ _ _ _ E2) in DT. specialize (DT RC). cbv zeta in DT. rewrite Z2Nat.id in DT by exact N. destruct DT as [A U].
    rewrite (e_te _ _ _ _ _ _ _ _ _ _ E2), (e_xe _ _ _ _ _ _ _ _ _ _ E2) in U.
    pose proof (eff_trans _ _ _ _ _ _ _ _ _ _ _ _ _ _ _ _ _ _ E2 U) as Q. rewrite (pair_eta _ _ (times2 _ _ _)). rewrite A. cbn [orb]. destruct ((0 <? snd (law_down (reload_of s) (count_of s) n)) && (0 <? reload_of s)) eqn:O; [apply eff_p1; exact Q|exact Q].
Qed.
