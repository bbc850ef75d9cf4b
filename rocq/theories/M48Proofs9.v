(** MCS-48: the stack and interrupts. *)
From Verif Require Import Base M48Model M48Spec M48Proofs M48Proofs2 M48Proofs3 M48Proofs4 M48Proofs5 M48Proofs6 M48Proofs7 M48Proofs8.

Definition flags5 (x : M) := (cy x, ac x, f0 x, bs x, sp x).
Fixpoint rets (n : nat) (x : M) : list Z * M :=
  match n with O => ([], x) | S n => let y := ret_pop true x in let r := rets n y in (pc y :: fst r, snd r) end.
Definition calls (ps : list Z) (x : M) : M := fold_left (fun x p => call_push (sPC p x)) ps x.
Lemma sub_mod q i j : ((q - i) mod 8 - j) mod 8 = (q - (i + j)) mod 8.
Proof. rewrite Zminus_mod_idemp_l. f_equal. lia. Qed.
Lemma m8 v : 0 <= v mod 8 < 8. Proof. apply Z.mod_pos_bound. lia. Qed.
Lemma pc_ret x : pc (ret_pop true x) = rm x (8 + 2 * ((sp x - 1) mod 8)) + 256 * (rm x (8 + 2 * ((sp x - 1) mod 8) + 1) mod 16).
Proof. reflexivity. Qed.
Lemma rm_ret x : rm (ret_pop true x) = rm x. Proof. reflexivity. Qed.
Lemma sp_ret x : sp (ret_pop true x) = (sp x - 1) mod 8. Proof. reflexivity. Qed.
Lemma flags_ret x : flags5 (ret_pop true x) = let v := rm x (8 + 2 * ((sp x - 1) mod 8) + 1) in (Z.odd (v / 128), Z.odd (v / 64), Z.odd (v / 32), Z.odd (v / 16), (sp x - 1) mod 8).
Proof. reflexivity. Qed.
Lemma rets_agree n : forall x y, (n <= 7)%nat -> flags5 x = flags5 y ->
  (forall i, 1 <= i <= Z.of_nat n -> rm x (8 + 2 * ((sp x - i) mod 8)) = rm y (8 + 2 * ((sp x - i) mod 8)) /\ rm x (8 + 2 * ((sp x - i) mod 8) + 1) = rm y (8 + 2 * ((sp x - i) mod 8) + 1)) ->
  fst (rets n x) = fst (rets n y) /\ flags5 (snd (rets n x)) = flags5 (snd (rets n y)).
Proof.
  induction n; intros x y L E A; [split; [reflexivity|exact E] |].
  assert (SP : sp x = sp y) by exact (f_equal snd E). cbn [rets fst snd].
  destruct (A 1 ltac:(lia)) as [A1 A2].
  assert (EP : pc (ret_pop true x) = pc (ret_pop true y)) by (rewrite !pc_ret, <- SP, A1, A2; reflexivity).
  assert (EF : flags5 (ret_pop true x) = flags5 (ret_pop true y)) by (rewrite !flags_ret, <- SP, A2; reflexivity).
  destruct (IHn (ret_pop true x) (ret_pop true y) ltac:(lia) EF) as [I1 I2].
  - intros i Hi. rewrite !sp_ret, !rm_ret, sub_mod. apply A. lia.
  - rewrite I1, I2, EP. split; reflexivity.
Qed.
Lemma sp_call x : sp (call_push x) = (sp x + 1) mod 8. Proof. reflexivity. Qed.
Lemma rm_call x : rm (call_push x) = at_ (at_ (rm x) (8 + 2 * sp x) (pc x mod 256)) (8 + 2 * sp x + 1) (pc x / 256 + 16 * (psw_of x / 16)).
Proof. reflexivity. Qed.
Lemma psw_hi x : 0 <= sp x < 8 -> psw_of x / 16 = 8 * Z.b2z (cy x) + 4 * Z.b2z (ac x) + 2 * Z.b2z (f0 x) + Z.b2z (bs x).
Proof.
  intros S. unfold psw_of. replace (128 * Z.b2z (cy x) + 64 * Z.b2z (ac x) + 32 * Z.b2z (f0 x) + 16 * Z.b2z (bs x) + 8 + sp x) with (8 + sp x + (8 * Z.b2z (cy x) + 4 * Z.b2z (ac x) + 2 * Z.b2z (f0 x) + Z.b2z (bs x)) * 16) by lia.
  rewrite Z.div_add by lia. rewrite Z.div_small by lia. lia.
Qed.
Lemma hi_flags q a b c d : 0 <= q < 16 -> let v := q + 16 * (8 * Z.b2z a + 4 * Z.b2z b + 2 * Z.b2z c + Z.b2z d) in
  (Z.odd (v / 128), Z.odd (v / 64), Z.odd (v / 32), Z.odd (v / 16)) = (a, b, c, d) /\ v mod 16 = q.
Proof.
  intros H. cbv zeta. revert q H.
  apply (range_all 16 (fun q => (Z.odd ((q + 16 * (8 * Z.b2z a + 4 * Z.b2z b + 2 * Z.b2z c + Z.b2z d)) / 128), Z.odd ((q + 16 * (8 * Z.b2z a + 4 * Z.b2z b + 2 * Z.b2z c + Z.b2z d)) / 64), Z.odd ((q + 16 * (8 * Z.b2z a + 4 * Z.b2z b + 2 * Z.b2z c + Z.b2z d)) / 32), Z.odd ((q + 16 * (8 * Z.b2z a + 4 * Z.b2z b + 2 * Z.b2z c + Z.b2z d)) / 16)) = (a, b, c, d) /\ (q + 16 * (8 * Z.b2z a + 4 * Z.b2z b + 2 * Z.b2z c + Z.b2z d)) mod 16 = q)).
  destruct a, b, c, d; repeat (apply Forall_cons; [split; reflexivity|]); apply Forall_nil.
Qed.
Lemma at_same f a v : at_ f a v a = v. Proof. unfold at_. rewrite Z.eqb_refl. reflexivity. Qed.
Lemma at_other f a v k : k <> a -> at_ f a v k = f k. Proof. intros N. unfold at_. apply Z.eqb_neq in N. rewrite N. reflexivity. Qed.
(** a return after any changes which keep the stack pointer and the two bytes *)
Lemma ret_call x y : 0 <= sp x < 8 -> 0 <= pc x < 4096 -> sp y = (sp x + 1) mod 8 ->
  rm y (8 + 2 * sp x) = rm (call_push x) (8 + 2 * sp x) -> rm y (8 + 2 * sp x + 1) = rm (call_push x) (8 + 2 * sp x + 1) ->
  pc (ret_pop true y) = pc x /\ flags5 (ret_pop true y) = flags5 x.
Proof.
  intros S P SY R1 R2. rewrite pc_ret, flags_ret, SY. cbv zeta.
  assert (B : ((sp x + 1) mod 8 - 1) mod 8 = sp x) by (rewrite Zminus_mod_idemp_l; replace (sp x + 1 - 1) with (sp x) by lia; apply Z.mod_small; lia).
  rewrite B, R1, R2. rewrite rm_call, at_same, at_other, at_same by lia. rewrite psw_hi by exact S.
  assert (Q : 0 <= pc x / 256 < 16) by (apply page_range, P). destruct (hi_flags (pc x / 256) (cy x) (ac x) (f0 x) (bs x) Q) as [F E]. cbv zeta in F, E.
  rewrite E. split; [assert (X := Z.div_mod (pc x) 256 ltac:(lia)); lia|]. unfold flags5.
  set (v := pc x / 256 + 16 * (8 * Z.b2z (cy x) + 4 * Z.b2z (ac x) + 2 * Z.b2z (f0 x) + Z.b2z (bs x))) in *.
  assert (F1 : Z.odd (v / 128) = cy x) by exact (f_equal (fun p => fst (fst (fst p))) F).
  assert (F2 : Z.odd (v / 64) = ac x) by exact (f_equal (fun p => snd (fst (fst p))) F).
  assert (F3 : Z.odd (v / 32) = f0 x) by exact (f_equal (fun p => snd (fst p)) F).
  assert (F4 : Z.odd (v / 16) = bs x) by exact (f_equal snd F).
  rewrite F1, F2, F3, F4. reflexivity.
Qed.
Lemma slot_ne q i : 0 <= q < 8 -> 1 <= i <= 7 -> (q - i) mod 8 <> q.
Proof.
  intros Hq Hi E. assert (X := Z.div_mod (q - i) 8 ltac:(lia)). rewrite E in X. assert (i = -8 * ((q - i) / 8)) by lia. assert ((q - i) / 8 = 0 \/ (q - i) / 8 <= -1 \/ 1 <= (q - i) / 8) as [ | [ | ] ] by lia; lia.
Qed.
Lemma calls_sp ps : forall x, 0 <= sp x < 8 -> 0 <= sp (calls ps x) < 8.
Proof. induction ps as [|p ps IH]; intros x S; [exact S|]. apply IH. apply m8. Qed.
Lemma calls_rets ps : forall x, (length ps <= 8)%nat -> 0 <= sp x < 8 -> Forall (fun p => 0 <= p < 4096) ps ->
  fst (rets (length ps) (calls ps x)) = rev ps /\ flags5 (snd (rets (length ps) (calls ps x))) = flags5 x.
Proof.
  induction ps as [|p ps IH] using rev_ind; intros x L S F; [split; reflexivity|].
  rewrite app_length in *. cbn [length] in *. apply Forall_app in F. destruct F as [F FP]. assert (P : 0 <= p < 4096) by (inversion FP; assumption).
  rewrite Nat.add_1_r. unfold calls. rewrite fold_left_app. cbn [fold_left]. change (fold_left (fun x0 p0 => call_push (sPC p0 x0)) ps x) with (calls ps x).
  set (c := calls ps x) in *. assert (SC : 0 <= sp c < 8) by (apply calls_sp, S). cbn [rets fst snd].
  destruct (ret_call (sPC p c) (call_push (sPC p c)) SC P eq_refl eq_refl eq_refl) as [R1 R2].
  change (pc (sPC p c)) with p in R1. change (flags5 (sPC p c)) with (flags5 c) in R2. rewrite R1, rev_app_distr.
  destruct (IH x ltac:(lia) S F) as [I1 I2]. fold c in I1, I2.
  destruct (rets_agree (length ps) (ret_pop true (call_push (sPC p c))) c ltac:(lia) R2) as [A1 A2].
  - intros i Hi. assert (SE : sp (ret_pop true (call_push (sPC p c))) = sp c) by exact (f_equal snd R2). rewrite SE, rm_ret, rm_call.
    change (sp (sPC p c)) with (sp c). change (rm (sPC p c)) with (rm c). assert (X := slot_ne (sp c) i SC ltac:(lia)). rewrite !at_other by lia. split; reflexivity.
  - rewrite A1, A2, I1, I2. split; reflexivity.
Qed.
(** ** in the simulator *)
Lemma pushes_abs h ps : forall s, wfh h -> wf s -> Forall (fun p => 0 <= p < 4096) ps -> wf (pushes h ps s) /\ abs (pushes h ps s) = calls ps (abs s).
Proof.
  induction ps as [|p ps IH]; intros s H W F; [split; [exact W|reflexivity] |]. assert (P : 0 <= p < 4096) by (inversion F; assumption). assert (F2 : Forall (fun p => 0 <= p < 4096) ps) by (inversion F; assumption).
  assert (W1 : wf (set_PC p s)) by (apply wf_set_PC; assumption). specialize (IH _ H (wf_push h p true _ W1) F2).
  unfold pushes, calls in *. cbn [fold_left]. rewrite push_ok in IH by assumption. exact IH.
Qed.
Lemma pops_abs h jk n : forall s, wfh h -> wf s -> wf (snd (pops h jk n s)) /\ fst (pops h jk n s) = fst (rets n (abs s)) /\ abs (snd (pops h jk n s)) = snd (rets n (abs s)).
Proof.
  induction n; intros s H W; [split; [exact W|split; reflexivity] |]. cbn [pops rets fst snd]. assert (WP := wf_pop h jk true s H W). destruct (IHn _ H WP) as (I0 & I1 & I2).
  rewrite pop_ok in I1, I2 by assumption. split; [exact I0|]. rewrite I1, I2. split; [|reflexivity]. f_equal. change (PC (pop h jk true s)) with (pc (abs (pop h jk true s))). rewrite pop_ok by assumption. reflexivity.
Qed.
Lemma flags_psw s t : wf s -> wf t -> flags5 (abs s) = flags5 (abs t) -> psw s = psw t.
Proof.
  intros W V E. rewrite <- (psw_of_eq s W), <- (psw_of_eq t V). unfold psw_of.
  assert (E1 : cy (abs s) = cy (abs t)) by exact (f_equal (fun p => fst (fst (fst (fst p)))) E).
  assert (E2 : ac (abs s) = ac (abs t)) by exact (f_equal (fun p => snd (fst (fst (fst p)))) E).
  assert (E3 : f0 (abs s) = f0 (abs t)) by exact (f_equal (fun p => snd (fst (fst p))) E).
  assert (E4 : bs (abs s) = bs (abs t)) by exact (f_equal (fun p => snd (fst p)) E).
  assert (E5 : sp (abs s) = sp (abs t)) by exact (f_equal snd E).
  rewrite E1, E2, E3, E4, E5. reflexivity.
Qed.
Lemma push_errs h ipc f s : wf s -> errs (push h ipc f s) = if psw s mod 8 =? 7 then errs s ++ [(ipc, 22, 8)] else errs s.
Proof.
  intros W. unfold push. cbv zeta. assert (P : 0 <= psw s < 256) by apply W. rewrite (land7 (psw s)) by exact P. rewrite land_p1. unfold check_overflow. cbv zeta.
  assert (EW : forall a v t, errs (wr_ram h a v t) = errs t) by (intros; unfold wr_ram; destruct (a <? rs h); reflexivity).
  assert (EF : forall v t, errs (wF v t) = errs t) by reflexivity.
  assert (Q := m8 (psw s)). set (q := psw s mod 8) in *. clearbody q. rewrite land_m1.
  assert (C : forall q, 0 <= q < 8 -> ((q + 1) mod 8 <? ((q + 1) mod 8 - 1) mod 8) = (q =? 7)).
  { intros k Hk. apply Bool.eqb_prop. revert k Hk. apply (sweep 8). vm_compute. reflexivity. }
  rewrite C by exact Q. destruct (q =? 7) eqn:E; [|rewrite EF, !EW; reflexivity]. apply Z.eqb_eq in E. subst q.
  change (errs (set_errs ?v ?t)) with v. rewrite EF, !EW. reflexivity.
Qed.
(** ** Interrupts *)
Lemma retr_code c : 0 <= c < 256 -> c <> 147 -> itab_at c <> RETR.
Proof.
  intros Hc N E. assert (X := sweep 256 (fun c => (c =? 147) || match itab_at c with RETR => false | _ => true end) ltac:(vm_compute; reflexivity) c Hc). cbv beta in X.
  rewrite E, orb_false_r in X. apply Z.eqb_eq in X. contradiction.
Qed.
Lemma side_isr s t : side s = side t -> isr s = isr t.
Proof. intros E. exact (f_equal (fun p => snd (snd (fst (fst p)))) E). Qed.
Lemma isr_exec_inst h jk s : wfh h -> wf s -> code h s <> 147 -> isr (snd (exec_inst h jk s)) = isr s.
Proof.
  intros H W N. assert (HC : 0 <= code h s < 256) by apply rom_range, H. assert (NR := retr_code _ HC N). destruct (special (itab_at (code h s))) eqn:E.
  - rewrite exec_inst_eq by exact W. assert (F := side_isr _ _ (side_fetched h s)). assert (W2 := wf_fetched h s W).
    destruct (itab_at (code h s)); try discriminate E; try congruence; cbn [snd exec]; try exact F.
    assert (G := side_isr _ _ (side_jif h (tfl (fetched h s)) (fetched h s) W2)). rewrite <- F, <- G. reflexivity.
  - apply side_isr, side_exec_inst; assumption.
Qed.
Lemma rest_isr s t : rest t = rest s -> isr t = isr s.
Proof. intros R. exact (f_equal (fun p => snd (snd (fst (fst (fst p))))) R). Qed.
Lemma isr_ticked h jk s : wfh h -> wf s -> 0 <= jk < 256 -> code h s <> 147 -> isr (ticked h jk s) = isr s.
Proof.
  intros H W J N. unfold ticked. cbv zeta. change (isr (set_ticks ?v ?t)) with (isr t).
  rewrite (rest_isr _ _ (proj1 (proj2 (tick_hw_eq _ _ (wf_exec_inst h jk s H W J))))). apply isr_exec_inst; assumption.
Qed.
Lemma nested_step h jk s : wfh h -> wf s -> 0 <= jk < 256 -> code h s <> 147 -> isr s = true ->
  snd (do_inst h jk s) = ticked h jk s /\ isr (snd (do_inst h jk s)) = true.
Proof.
  intros H W J N I. rewrite do_inst_eq by assumption. cbn [snd]. assert (E := isr_ticked h jk s H W J N). rewrite I in E.
  assert (D : do_interrupt h (PC s) (ticked h jk s) = ticked h jk s) by (unfold do_interrupt; rewrite E; reflexivity).
  rewrite D. destruct (fst (fst (exec_inst h jk s))); split; solve [reflexivity|exact E].
Qed.
Lemma isr_pin h e s : match e with Step _ => False | _ => True end -> isr (happen h e s) = isr s.
Proof. destruct e; intros N; cbn [happen]; try reflexivity; [destruct N|rewrite pin_t1_eq; reflexivity|destruct (p =? 1); reflexivity]. Qed.
Lemma nested_run h es : forall s, wfh h -> wf s -> Forall evok es -> Forall (fun c => c <> 147) (executed h es s) -> isr s = true -> isr (run h es s) = true.
Proof.
  induction es as [|e es IH]; intros s H W F N I; [exact I|].
  assert (FE : evok e) by (inversion F; assumption). assert (FR : Forall evok es) by (inversion F; assumption).
  change (run h (e :: es) s) with (run h es (happen h e s)). cbn [executed] in N. apply Forall_app in N. destruct N as [N1 N2].
  apply IH; try assumption; [apply wf_happen; assumption|]. destruct (match e with Step _ => true | _ => false end) eqn:ES.
  - destruct e; try discriminate ES. assert (C : code h s <> 147) by (inversion N1; assumption). apply nested_step; assumption.
  - rewrite isr_pin; [exact I|]. destruct e; try exact Logic.I; discriminate ES.
Qed.
