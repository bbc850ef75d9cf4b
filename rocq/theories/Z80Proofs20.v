(** Z80: what the simulator does exactly: prefixed instructions, one step. *)
From Verif Require Import Base Z80Model Z80Spec Z80Spec2 Z80Proofs Z80Proofs2 Z80Proofs3 Z80Proofs4 Z80Proofs5 Z80Proofs6 Z80Proofs7 Z80Proofs8 Z80Proofs9 Z80Proofs17 Z80Proofs18 Z80Proofs19.

Lemma rot_f_act t c pa fl0 x : byte t -> byte pa ->
  samef (flags_of (rot_f t c pa fl0)) (f (with_p (even_parity pa) (szp t false false c x))).
Proof.
  intros Ht Hp. unfold rot_f, with_p. cbv zeta. cbn [f s_f]. byteflags; rewrite ?bit7, ?parity_even by assumption; reflexivity.
Qed.
Lemma sf_sub x y b : samef x (f y) -> forall q, f q = f y -> samef x (f q) /\ fP (f (with_p b q)) = b.
Proof. intros H q E. rewrite E. split; [exact H|reflexivity]. Qed.

Section Z.
Variable dum lim : Z.
Hypothesis HD : byte dum.
Variable hit : Z -> bool.
Notation exec := (Z80Model.exec dum lim).
Notation run := (Z80Model.run dum lim hit).
Notation step := (Z80Model.step dum lim hit).

Lemma f_with_p b x z : f x = f z -> f (with_p b x) = f (with_p b z).
Proof. intros E. unfold with_p. cbn [f s_f]. rewrite E. reflexivity. Qed.
Lemma cb_act c s : wf s -> byte c -> agree True (abs (exec_cb dum c s)) (actual dum (cb c) (abs s)).
Proof.
  intros W Hc. pose proof (cb_eq dum c s W Hc) as G. cbn [actual].
  destruct (Z.ltb_spec c 64) as [L|L]; cbn [andb].
  2:{ apply (agree_T _ _ _ G). cbn [deviates_flags]. lia. }
  destruct (Z.eqb_spec (c mod 8) 7) as [E7|E7]; cbn [negb].
  { apply (agree_T _ _ _ G). cbn [deviates_flags]. tauto. }
  eapply agree_fl; [exact (agree_F _ _ _ G)|apply sf_eta|]. clear G.
  set (n := c mod 8) in *. set (k := c / 8 mod 8).
  assert (Hn : 0 <= n < 8) by (apply Z.mod_pos_bound; lia). assert (Hk : 0 <= k < 8) by (apply Z.mod_pos_bound; lia).
  pose proof (W_range false HL s W) as HW.
  unfold sem_cb, exec_cb. cbv zeta. fold n k. unfold reg8. rewrite (proj2 (Z.ltb_lt c 64) L).
  destruct (Z.eqb_spec n 6) as [E6|E6]; cbn [operand getp putp].
  - rewrite rd_mm by exact HW. change (pairv false HL (abs s)) with (Z80Model.W false HL s).
    set (a := Z80Model.W false HL s) in *. set (v := mm (abs s) a). assert (Hv : byte v) by apply (wf_mem s a W).
    destruct (rot_eq k v (cy s) Hk Hv (c01 s)) as [ER BR]. rewrite carry_cy, <- ER.
    destruct (rot k v (cy s)) as [t co]. cbn [fst] in BR. cbn [f abs]. rewrite wr_F. cbn [F set_F].
    refine (eq_ind _ (fun q => samef _ q) (rot_f_act t co (A s) (F s) (abs s) BR (wf_A s W)) _ _).
    apply f_with_p. reflexivity.
  - set (v := rg s n). assert (Hv : byte v) by apply (wf_rg s n W).
    change (r (abs s) n) with v.
    destruct (rot_eq k v (cy s) Hk Hv (c01 s)) as [ER BR]. rewrite carry_cy, <- ER.
    destruct (rot k v (cy s)) as [t co]. cbn [fst] in BR. cbn [f abs F set_F].
    assert (EA : A (wR n t s) = A s). { unfold A, wR. cbn [rg set_rg]. destruct (Z.eqb_spec 7 n); [lia|reflexivity]. }
    rewrite EA. refine (eq_ind _ (fun q => samef _ q) (rot_f_act t co (A s) (F s) (abs s) BR (wf_A s W)) _ _).
    apply f_with_p. reflexivity.
Qed.
Lemma xcb_act a c s : wf s -> byte c -> word a -> agree True (abs (exec_xcb dum a c s)) (actual dum (xcb a c) (abs s)).
Proof.
  intros W Hc Ha. pose proof (xcb_eq dum a c s W Hc Ha) as G. cbn [actual].
  set (n := c mod 8) in *. set (k := c / 8 mod 8).
  assert (Hn : 0 <= n < 8) by (apply Z.mod_pos_bound; lia). assert (Hk : 0 <= k < 8) by (apply Z.mod_pos_bound; lia).
  set (v := mm (abs s) a). assert (Hv : byte v) by apply (wf_mem s a W).
  destruct (Z.ltb_spec c 64) as [L|L].
  - eapply agree_fl; [eapply agree_F; apply G; cbn [deviates]; lia|apply sf_eta|]. clear G.
    unfold sem_xcb, exec_xcb. cbv zeta. fold n k. rewrite (proj2 (Z.ltb_lt c 64) L). rewrite rd_mm by exact Ha. fold v.
    destruct (rot_eq k v (cy s) Hk Hv (c01 s)) as [ER BR]. rewrite carry_cy, <- ER.
    destruct (rot k v (cy s)) as [t co]. cbn [fst] in BR. cbn [f abs]. rewrite wr_F.
    assert (E1 : forall z, F (if n =? 6 then z else wR n t z) = F z) by (intros z; destruct (n =? 6); reflexivity). rewrite E1. cbn [F set_F].
    refine (eq_ind _ (fun q => samef _ q) (rot_f_act t co (A s) (F s) (abs s) BR (wf_A s W)) _ _).
    apply f_with_p. destruct (n =? 6); reflexivity.
  - destruct ((192 <=? c) && (n =? 5)) eqn:E.
    + apply agree_eq. unfold exec_xcb. cbv zeta. fold n k. rewrite rd_mm by exact Ha. fold v.
      rewrite (proj2 (Z.ltb_ge c 64)), (proj2 (Z.ltb_ge c 128)), (proj2 (Z.ltb_ge c 192)) by lia.
      assert (E5 : n = 5) by lia. rewrite E5. cbn [Z.eqb Pos.eqb].
      destruct (with_eq k v Hk Hv) as [-> B2]. rewrite wr_byte by assumption. rewrite wR_byte by exact B2. reflexivity.
    + eapply agree_T; [apply G|]; cbn [deviates deviates_flags]; fold n; lia.
Qed.
Lemma run_act ipc c s : wf s -> byte c -> quiet hit c s -> ipc = w (PC s - 1) ->
  let '(i, x) := rest c (abs s) in agree True (abs (snd (run ipc c s))) (actual dum i x).
Proof.
  intros W Hc NH HI. pose proof (kind_eq c Hc) as KE. unfold kind_of in KE. unfold Z80Model.run, rest. rewrite tab_00_eq by exact Hc.
  destruct NH as [NH0 NH2].
  destruct (Z.eqb_spec c 203) as [E|N1]; [|destruct (Z.eqb_spec c 237) as [E|N2]; [|destruct ((c =? 221) || (c =? 253)) eqn:E] ].
  - destruct (decode c); try discriminate KE; [|destruct iy; discriminate KE]. rewrite NH0 by tauto.
    destruct (fetch_eq dum s W) as (E1 & E2 & W1 & B & EF). destruct (fetch dum s) as [c2 s1]. destruct (next8 (abs s)) as [c2' x1].
    cbn [fst snd] in *. subst c2' x1. apply cb_act; assumption.
  - destruct (decode c); try discriminate KE; [destruct iy; discriminate KE|]. rewrite NH0 by tauto.
    assert (EPC : PC (snd (fetch dum s)) = w (PC s + 1)) by reflexivity.
    destruct (fetch_eq dum s W) as (E1 & E2 & W1 & B & EF). destruct (fetch dum s) as [c2 s1]. destruct (next8 (abs s)) as [c2' x1].
    cbn [fst snd] in *. subst c2' x1. rewrite tab_ed_eq by exact B. pose proof (code_ed_ok c2 B) as OK. unfold code_ed in *.
    destruct (kind_ed c2 B) as [-> | (o & E3 & K)].
    + apply agree_eq. reflexivity.
    + rewrite E3 in *. cbn [actual]. apply act_eq; try tauto. intros _. rewrite HI, EPC, w_w_sub. f_equal. lia.
  - assert (KX : decode c = PXD (c =? 253)).
    { destruct (Z.eqb_spec c 221) as [-> |]; [reflexivity|]. destruct (Z.eqb_spec c 253) as [-> |]; [reflexivity|]. discriminate E. }
    rewrite KX. rewrite NH0 by lia. set (y := c =? 253).
    assert (EPC : PC (snd (fetch dum s)) = w (PC s + 1)) by reflexivity.
    assert (EC2 : fst (fetch dum s) = mem s (PC s)) by (cbn [fetch fst]; rewrite rd_mm by apply wf_PC, W; reflexivity).
    destruct (fetch_eq dum s W) as (E1 & E2 & W1 & B & EF). destruct (fetch dum s) as [c2 s1]. destruct (next8 (abs s)) as [c2' x1].
    cbn [fst snd] in *. subst c2' x1. rewrite tab_xd_eq by exact B. pose proof (code_xd_ok c2 B) as OK. unfold code_xd in *.
    assert (E203 : indexed c2 = Some PXCB -> c2 = 203).
    { intros EI. assert (S := map_at (fun c => c =? 203) (fun c => match indexed c with Some PXCB => true | _ => false end) ltac:(vm_compute; reflexivity) c2 B).
      cbv beta in S. rewrite EI in S. lia. }
    destruct (kind_xd c2 B) as [-> | [EI | (o & E3 & K)] ]; [|rewrite EI; specialize (E203 EI)|].
    + apply agree_eq. reflexivity.
    + assert (EPC2 : PC (snd (fetch dum s1)) = w (PC s + 2)).
      { cbn [fetch snd PC set_PC]. rewrite EPC. change ((w (PC s + 1) + 1) mod 65536) with (w (w (PC s + 1) + 1)). rewrite w_w. f_equal. lia. }
      destruct (fetch_eq dum s1 W1) as (F1 & F2 & W2 & B2 & EF2). destruct (fetch dum s1) as [d s2]. destruct (next8 (abs s1)) as [d' x2].
      cbn [fst snd] in *. subst d' x2. rewrite EPC2, NH2; [|lia|rewrite <- EC2; exact E203].
      destruct (fetch_eq dum s2 W2) as (G1 & G2 & W3 & B3 & EF3). destruct (fetch dum s2) as [c3 s3]. destruct (next8 (abs s2)) as [c3' x3].
      cbn [fst snd] in *. subst c3' x3.
      unfold disp. rewrite i8_sgn by exact B2. rewrite W_pairv. change ((pairv y XX (abs s3) + sgn d) mod 65536) with (w (pairv y XX (abs s3) + sgn d)).
      apply xcb_act; try assumption. apply w_range.
    + rewrite E3 in *.
      assert (G : agree True (abs (snd (exec y ipc o s1))) (actual dum (plain y o) (abs s1))).
      { cbn [actual]. apply act_eq; try tauto. intros H. destruct OK as (_ & _ & OK). rewrite OK in H. discriminate H. }
      destruct o; try discriminate K; exact G.
  - assert (K : kind (decode c) = 0).
    { rewrite KE. apply orb_false_iff in E. destruct E as [-> ->]. reflexivity. }
    assert (G : agree True (abs (snd (exec false ipc (decode c) s))) (actual dum (plain false (decode c)) (abs s))).
    { cbn [actual]. destruct (decode_ok c Hc) as (O1 & O2 & O3). apply act_eq; try tauto. intros H. rewrite O3 in H. discriminate H. }
    destruct (decode c); try discriminate K; try exact G. destruct iy; discriminate K.
Qed.
Lemma step_act s : wf s -> unbroken hit s ->
  let '(i, x) := instr_at (abs s) in same (abs (snd (step s))) (actual dum i (count_r x)).
Proof.
  intros W NH. unfold Z80Model.step. rewrite instr_rest. pose proof (proj1 NH) as NH0.
  assert (EM : mem (snd (fetch dum s)) = mem s) by reflexivity.
  assert (EC : fst (fetch dum s) = mem s (PC s)) by (cbn [fetch fst]; rewrite rd_mm by apply wf_PC, W; reflexivity).
  rewrite NH0. assert (EPC : PC (snd (fetch dum s)) = w (PC s + 1)) by reflexivity.
  destruct (fetch_eq dum s W) as (E1 & E2 & W1 & B & EF). destruct (fetch dum s) as [c s1]. destruct (next8 (abs s)) as [c' x1].
  cbn [fst snd] in *. subst c' x1. cbn [rr set_ticks].
  set (s2 := set_ct false (set_ib false (set_rr (inc_R (rr s1)) (set_ticks (ticks s1 + 1) s1)))).
  assert (EA : abs s2 = count_r (abs s1)) by reflexivity.
  assert (W2 : wf s2) by (apply (wf_set_rr (inc_R (rr s1)) s1 W1), inc_R_byte, W1).
  pose proof (run_act (PC s) c s2 W2 B) as RE. rewrite EA, rest_count in RE.
  destruct (rest c (abs s1)) as [i x]. cbn [fst snd] in RE.
  assert (P2 : PC s2 = w (PC s + 1)) by exact EPC.
  assert (RR : agree True (abs (snd (run (PC s) c s2))) (actual dum i (count_r x))).
  { apply RE.
    - rewrite EC. refine (unbroken_quiet 0 hit s s2 NH P2 EM).
    - rewrite P2, w_w_sub. replace (PC s + 1 - 1) with (PC s) by lia. symmetry. apply w_id, wf_PC, W. }
  destruct (run (PC s) c s2) as [r s3]. destruct RR as [R1 R2]. split; [exact R1|exact (R2 I)].
Qed.
End Z.
