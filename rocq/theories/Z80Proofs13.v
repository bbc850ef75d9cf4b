(** Z80: time of a step. *)
From Verif Require Import Base Z80Model Z80Spec Z80Proofs Z80Proofs2 Z80Proofs3 Z80Proofs4 Z80Proofs5 Z80Proofs6 Z80Proofs7 Z80Proofs8 Z80Proofs9 Z80Proofs12.

Definition can_take (o : op) : bool :=
  match o with
  | JR (Some _) | CALL (Some _) | RET (Some _) | DJNZ | INIR | INDR | OTIR | OTDR | LDIR | LDDR | CPIR | CPDR => true
  | _ => false
  end.
Lemma taken_can o x : taken o x = true -> can_take o = true.
Proof. destruct o; cbn [taken can_take]; try discriminate; try reflexivity; destruct c; try discriminate; reflexivity. Qed.
Definition half (e : Z) (t : bool) : Z := if t then e / 256 else e mod 256.
Definition bothT (o : op) (P : bool -> bool) : bool := P false && (negb (can_take o) || P true).
Lemma bothT_at o P x : bothT o P = true -> P (taken o x) = true.
Proof.
  unfold bothT. intros H. apply andb_prop in H. destruct H as [H1 H2]. destruct (taken o x) eqn:E; [|exact H1].
  rewrite (taken_can o x E) in H2. exact H2.
Qed.
Definition odd_one (o : op) : bool := match o with INC LHL | DEC LHL => true | OUTC 3 => true | _ => false end.
Lemma time_00 c x : byte c -> kind (decode c) = 0 -> odd_one (decode c) = false ->
  half (nth (Z.to_nat c) ttab_00 0) (taken (decode c) x) = clocks (decode c) (taken (decode c) x).
Proof.
  intros H K O.
  assert (S := sweep 256 (fun c => negb (kind (decode c) =? 0) || odd_one (decode c) || bothT (decode c) (fun t => half (nth (Z.to_nat c) ttab_00 0) t =? clocks (decode c) t))
    ltac:(vm_compute; reflexivity) c ltac:(unfold byte in H; lia)). cbv beta in S. rewrite O, K in S. cbn [Z.eqb negb orb] in S.
  apply (bothT_at _ _ x) in S. lia.
Qed.
Lemma time_ed c o x : byte c -> decode_ed c = Some o -> odd_one o = false ->
  half (nth (Z.to_nat c) ttab_ed 0) (taken o x) = 4 + clocks o (taken o x).
Proof.
  intros H E O.
  assert (S := sweep 256 (fun c => match decode_ed c with None => true | Some o => odd_one o || bothT o (fun t => half (nth (Z.to_nat c) ttab_ed 0) t =? 4 + clocks o t) end)
    ltac:(vm_compute; reflexivity) c ltac:(unfold byte in H; lia)). cbv beta in S. rewrite E, O in S. cbn [orb] in S.
  apply (bothT_at _ _ x) in S. lia.
Qed.
Lemma time_xd t c o x : t = ttab_dd \/ t = ttab_fd -> byte c -> indexed c = Some o -> kind o = 0 ->
  half (nth (Z.to_nat c) t 0) (taken o x) = 4 + clocks o (taken o x).
Proof.
  intros Ht H E K.
  assert (S : forall t, t = ttab_dd \/ t = ttab_fd -> forallb (fun k => (fun c => match indexed c with None => true | Some o => negb (kind o =? 0) || bothT o (fun b => half (nth (Z.to_nat c) t 0) b =? 4 + clocks o b) end) (Z.of_nat k)) (seq 0 256) = true).
  { intros t' [-> | ->]; vm_compute; reflexivity. }
  pose proof (sweep 256 _ (S t Ht) c ltac:(unfold byte in H; lia)) as G. cbv beta in G. rewrite E, K in G. cbn [Z.eqb negb orb] in G.
  apply (bothT_at _ _ x) in G. lia.
Qed.
Lemma time_none c : byte c -> (decode_ed c = None -> nth (Z.to_nat c) ttab_ed 0 = 0) /\ (indexed c = None -> nth (Z.to_nat c) ttab_dd 0 = 0 /\ nth (Z.to_nat c) ttab_fd 0 = 0).
Proof.
  intros H.
  assert (S := sweep 256 (fun c => (match decode_ed c with None => nth (Z.to_nat c) ttab_ed 0 =? 0 | _ => true end) &&
     (match indexed c with None => (nth (Z.to_nat c) ttab_dd 0 =? 0) && (nth (Z.to_nat c) ttab_fd 0 =? 0) | _ => true end))
    ltac:(vm_compute; reflexivity) c ltac:(unfold byte in H; lia)). cbv beta in S. apply andb_prop in S. destruct S as [S1 S2].
  split.
  - intros E. rewrite E in S1. lia.
  - intros E. rewrite E in S2. lia.
Qed.
Lemma time_cb c : byte c -> ~ (c mod 8 = 6 /\ 64 <= c < 128) ->
  nth (Z.to_nat c) ttab_cb 0 = if c mod 8 =? 6 then if (64 <=? c) && (c <? 128) then 12 else 15 else 8.
Proof.
  intros H N.
  assert (S := sweep 256 (fun c => (c mod 8 =? 6) && (64 <=? c) && (c <? 128) || (nth (Z.to_nat c) ttab_cb 0 =? if c mod 8 =? 6 then if (64 <=? c) && (c <? 128) then 12 else 15 else 8))
    ltac:(vm_compute; reflexivity) c ltac:(unfold byte in H; lia)). cbv beta in S.
  apply orb_prop in S. destruct S as [S|S]; [exfalso; lia|]. apply Z.eqb_eq. exact S.
Qed.
Lemma time_xcb t c : t = ttab_ddcb \/ t = ttab_fdcb -> byte c -> nth (Z.to_nat c) t 0 = if (64 <=? c) && (c <? 128) then 20 else 23.
Proof.
  intros Ht H.
  assert (S : forall t, t = ttab_ddcb \/ t = ttab_fdcb -> forallb (fun k => (fun c => nth (Z.to_nat c) t 0 =? if (64 <=? c) && (c <? 128) then 20 else 23) (Z.of_nat k)) (seq 0 256) = true).
  { intros t' [-> | ->]; vm_compute; reflexivity. }
  pose proof (sweep 256 _ (S t Ht) c ltac:(unfold byte in H; lia)) as G. cbv beta in G. lia.
Qed.

Section Z.
Variable dum lim : Z.
Variable hit : Z -> bool.
Notation exec := (Z80Model.exec dum lim).
Notation run := (Z80Model.run dum lim hit).
Notation step := (Z80Model.step dum lim hit).
Lemma tc_exec_cb c s : tc (exec_cb dum c s) = tc s.
Proof.
  unfold exec_cb. cbv zeta. set (p := if c mod 8 =? 6 then _ else _). set (v := getp dum false p s).
  destruct (c <? 64); [|destruct (c <? 128); [|destruct (c <? 192); apply tc_putp] ].
  - destruct (rot _ v (cy s)) as [t co]. destruct (c mod 8 =? 6); rewrite ?tc_putp, ?tc_F, ?tc_putp; reflexivity.
  - destruct (c mod 8 =? 6); rewrite ?tc_putp, ?tc_F; reflexivity.
Qed.
Lemma tc_exec_xcb a c s : tc (exec_xcb dum a c s) = tc s.
Proof.
  unfold exec_xcb. cbv zeta.
  destruct (c <? 64); [|destruct (c <? 128); [|destruct (c <? 192)] ].
  - destruct (rot _ _ (cy s)) as [t co]. rewrite tc_wr. destruct (c mod 8 =? 6); reflexivity.
  - rewrite tc_wr. reflexivity.
  - rewrite tc_wr. destruct (c mod 8 =? 6); reflexivity.
  - rewrite tc_wr. destruct (c mod 8 =? 6); reflexivity.
Qed.
Definition goes_on (i : instr) (x : M) : bool := match i with plain _ o => taken o x | _ => false end.
Lemma run_tc ipc c s : wf s -> byte c -> quiet hit c s -> ct s = false ->
  tc (snd (run ipc c s)) = (ticks s, goes_on (fst (rest c (abs s))) (snd (rest c (abs s)))).
Proof.
  intros W Hc NH C. pose proof (kind_eq c Hc) as KE. unfold kind_of in KE. unfold Z80Model.run, rest. rewrite tab_00_eq by exact Hc.
  assert (T : tc s = (ticks s, false)) by (unfold tc; rewrite C; reflexivity).
  destruct NH as [NH0 NH2].
  pose proof (tc_fetch dum s) as TF.
  destruct (Z.eqb_spec c 203) as [E|N1]; [|destruct (Z.eqb_spec c 237) as [E|N2]; [|destruct ((c =? 221) || (c =? 253)) eqn:E] ].
  - destruct (decode c); try discriminate KE; [|destruct iy; discriminate KE]. rewrite NH0 by tauto.
    destruct (fetch_eq dum s W) as (E1 & E2 & W1 & B & EF). destruct (fetch dum s) as [c2 s1]. destruct (next8 (abs s)) as [c2' x1].
    cbn [fst snd goes_on] in *. rewrite tc_exec_cb, TF. exact T.
  - destruct (decode c); try discriminate KE; [destruct iy; discriminate KE|]. rewrite NH0 by tauto.
    destruct (fetch_eq dum s W) as (E1 & E2 & W1 & B & EF). destruct (fetch dum s) as [c2 s1]. destruct (next8 (abs s)) as [c2' x1].
    cbn [fst snd] in *. subst c2' x1. rewrite tab_ed_eq by exact B. pose proof (code_ed_ok c2 B) as OK. unfold code_ed in *.
    destruct (kind_ed c2 B) as [-> | (o & E3 & K)].
    + cbn [snd Z80Model.exec goes_on]. rewrite TF. exact T.
    + rewrite E3 in *. cbn [goes_on]. assert (C1 : ct s1 = false) by (rewrite (ctk _ _ TF); exact C).
      refine (eq_trans (exec_tc dum lim _ _ _ _ W1 (proj1 OK) C1) _). f_equal. exact (tick _ _ TF).
  - assert (KX : decode c = PXD (c =? 253)).
    { destruct (Z.eqb_spec c 221) as [-> |]; [reflexivity|]. destruct (Z.eqb_spec c 253) as [-> |]; [reflexivity|]. discriminate E. }
    rewrite KX. rewrite NH0 by lia. set (y := c =? 253).
    assert (EC2 : fst (fetch dum s) = mem s (PC s)) by (cbn [fetch fst]; rewrite rd_mm by apply wf_PC, W; reflexivity).
    assert (EPC : PC (snd (fetch dum s)) = w (PC s + 1)) by reflexivity.
    destruct (fetch_eq dum s W) as (E1 & E2 & W1 & B & EF). destruct (fetch dum s) as [c2 s1]. destruct (next8 (abs s)) as [c2' x1].
    cbn [fst snd] in *. subst c2' x1. rewrite tab_xd_eq by exact B. pose proof (code_xd_ok c2 B) as OK. unfold code_xd in *.
    assert (C1 : ct s1 = false) by (rewrite (ctk _ _ TF); exact C).
    assert (E203 : indexed c2 = Some PXCB -> c2 = 203).
    { intros EI. assert (S := map_at (fun c => c =? 203) (fun c => match indexed c with Some PXCB => true | _ => false end) ltac:(vm_compute; reflexivity) c2 B).
      cbv beta in S. rewrite EI in S. lia. }
    destruct (kind_xd c2 B) as [-> | [EI | (o & E3 & K)] ]; [|rewrite EI; specialize (E203 EI)|].
    + cbn [snd Z80Model.exec goes_on]. rewrite TF. exact T.
    + assert (EPC2 : PC (snd (fetch dum s1)) = w (PC s + 2)).
      { cbn [fetch snd PC set_PC]. rewrite EPC. change ((w (PC s + 1) + 1) mod 65536) with (w (w (PC s + 1) + 1)). rewrite w_w. f_equal. lia. }
      pose proof (tc_fetch dum s1) as TF2.
      destruct (fetch dum s1) as [d s2]. destruct (next8 (abs s1)) as [d' x2].
      cbn [fst snd] in *. rewrite EPC2, NH2; [|lia|rewrite <- EC2; exact E203]. pose proof (tc_fetch dum s2) as TF3.
      destruct (fetch dum s2) as [c3 s3]. destruct (next8 x2) as [c3' x3]. cbn [fst snd goes_on] in *.
      rewrite tc_exec_xcb, TF3, TF2, TF. exact T.
    + rewrite E3 in *.
      assert (G : tc (snd (exec y ipc o s1)) = (ticks s, taken o (abs s1))).
      { refine (eq_trans (exec_tc dum lim _ _ _ _ W1 (proj1 OK) C1) _). f_equal. exact (tick _ _ TF). }
      destruct o; try discriminate K; exact G.
  - assert (K : kind (decode c) = 0).
    { rewrite KE. apply orb_false_iff in E. destruct E as [-> ->]. reflexivity. }
    assert (G : tc (snd (exec false ipc (decode c) s)) = (ticks s, taken (decode c) (abs s))).
    { destruct (decode_ok c Hc) as (O1 & O2 & O3). apply exec_tc; assumption. }
    destruct (decode c); try discriminate K; try exact G. destruct iy; discriminate K.
Qed.
Lemma taken_count o x : taken o (count_r x) = taken o x.
Proof. destruct o; try reflexivity; destruct c; reflexivity. Qed.
(** the cycles, when the instruction did not overwrite itself and does not wrap *)
Lemma step_cycles s : wf s -> unbroken hit s ->
  (forall k, In k (codes (abs s)) -> PC s + k < 65536 /\ mem (snd (step s)) (PC s + k) = mem s (PC s + k)) -> ~ cycles_differ (abs s) ->
  ticks (snd (step s)) = ticks s + cycles (abs s).
Proof.
  intros W NH. pose proof (proj1 NH) as NH0. unfold Z80Model.step, cycles, cycles_differ, codes. rewrite instr_rest.
  rewrite NH0. assert (EPC : PC (snd (fetch dum s)) = w (PC s + 1)) by reflexivity.
  assert (EMM : mem (snd (fetch dum s)) = mem s) by reflexivity. assert (ETT : ticks (snd (fetch dum s)) = ticks s) by reflexivity.
  assert (EC : fst (fetch dum s) = mem s (PC s)) by (cbn [fetch fst]; rewrite rd_mm by apply wf_PC, W; reflexivity).
  destruct (fetch_eq dum s W) as (E1 & E2 & W1 & B & EF). destruct (fetch dum s) as [c s1]. destruct (next8 (abs s)) as [c' x1].
  cbn [fst snd] in *. subst c' x1. cbn [rr set_ticks].
  set (s2 := set_ct false (set_ib false (set_rr (inc_R (rr s1)) (set_ticks (ticks s1 + 1) s1)))).
  assert (EA : abs s2 = count_r (abs s1)) by reflexivity.
  assert (W2 : wf s2) by (apply (wf_set_rr (inc_R (rr s1)) s1 W1), inc_R_byte, W1).
  assert (P2 : PC s2 = w (PC s + 1)) by exact EPC.
  pose proof (run_tc (PC s) c s2 W2 B) as RT. rewrite EA, rest_count in RT. cbn [fst snd] in RT.
  assert (NH2 : quiet hit c s2) by (rewrite EC; exact (unbroken_quiet dum hit s s2 NH P2 EMM)).
  specialize (RT NH2 eq_refl).
  assert (ETS : ticks s2 = ticks s + 1) by (change (ticks s2) with (ticks s1 + 1); rewrite ETT; reflexivity).
  destruct (run (PC s) c s2) as [res s3]. cbn [snd] in RT.
  intros HM. cbn [snd mem set_ticks] in HM.
  pose proof (wf_PC s W) as HPC. unfold word in HPC.
  assert (RD : forall k, 0 <= k -> PC s + k < 65536 /\ mem s3 (PC s + k) = mem s (PC s + k) -> rd dum s3 (PC s + k) = mem s (PC s + k)).
  { intros k Hk [K1 K2]. unfold rd. rewrite inmem_true by (unfold word; lia). exact K2. }
  intros ND. cbn [snd ticks set_ticks]. rewrite (tick _ _ RT), (ctk _ _ RT). cbn [fst snd]. rewrite ETS.
  cbn [mm pc abs] in HM |- *. rewrite <- EC in HM |- *.
  match goal with |- ticks s + 1 + (?e - 1) = ticks s + ?v => enough (G : e = v) by lia end.
  fold (half (entry dum (PC s) c s3) (goes_on (fst (rest c (abs s1))) (count_r (snd (rest c (abs s1)))))).
  unfold entry.
  assert (N8 : PC s + 1 < 65536 -> next8 (abs s1) = (mem s (PC s + 1), snd (next8 (abs s1)))).
  { intros HP. cbn [next8 snd]. apply (f_equal (fun v => (v, s_pc (w (pc (abs s1) + 1)) (abs s1)))). cbn [mm pc abs]. rewrite EMM, EPC, w_id by (unfold word; lia). reflexivity. }
  assert (MB : forall a, byte (mem s a)) by (intros; apply W).
  unfold rest in *. cbn [abs] in ND.
  pose proof (kind_eq c B) as KE. unfold kind_of in KE.
  destruct (Z.eqb_spec c 203) as [-> |N1]; [|destruct (Z.eqb_spec c 237) as [-> |N2]; [|destruct ((c =? 221) || (c =? 253)) eqn:E] ].
  - assert (H1 : PC s + 1 < 65536 /\ mem s3 (PC s + 1) = mem s (PC s + 1)) by (apply HM; left; reflexivity).
    specialize (N8 (proj1 H1)). rewrite (RD 1) by (first [exact H1|lia]). clear HM.
    cbn [Z.eqb Pos.eqb]. rewrite N8 in *. cbn [fst snd goes_on half] in *.
    rewrite time_cb by (first [apply MB|exact ND]). destruct (_ =? 6); [destruct (_ && _)|]; reflexivity.
  - assert (H1 : PC s + 1 < 65536 /\ mem s3 (PC s + 1) = mem s (PC s + 1)).
    { apply HM. cbn [next8 fst Z.eqb Pos.eqb orb]. destruct (decode_ed _); left; reflexivity. }
    specialize (N8 (proj1 H1)). rewrite (RD 1) by (first [exact H1|lia]). clear HM.
    cbn [Z.eqb Pos.eqb orb]. rewrite N8 in *. cbn [fst snd] in *.
    destruct (kind_ed (mem s (PC s + 1)) (MB _)) as [E3 | (o & E3 & K)]; rewrite E3 in *; cbn [goes_on].
    + rewrite (proj1 (time_none _ (MB _)) E3). reflexivity.
    + rewrite taken_count. apply time_ed; [apply MB|exact E3|].
      destruct o; try reflexivity; cbn [odd_one].
      * destruct l; try reflexivity; exfalso; apply ND; exact I.
      * destruct l; try reflexivity; exfalso; apply ND; exact I.
      * destruct r as [|[ [p|p|]|p|]|p]; try reflexivity. exfalso. apply ND. exact I.
  - assert (EX : c = 221 \/ c = 253) by lia.
    assert (H1 : PC s + 1 < 65536 /\ mem s3 (PC s + 1) = mem s (PC s + 1)).
    { apply HM. destruct (next8 (abs s1)) as [c2 q]. destruct (indexed c2) as [o|]; [destruct o|]; cbn [fst orb]; rewrite ?E; try (left; reflexivity).
      }
    specialize (N8 (proj1 H1)). rewrite (RD 1) by (first [exact H1|lia]).
    match goal with |- half ?e _ = _ => replace e with
      (if mem s (PC s + 1) =? 203 then nth (Z.to_nat (rd dum s3 (PC s + 3))) (if c =? 221 then ttab_ddcb else ttab_fdcb) 0
       else nth (Z.to_nat (mem s (PC s + 1))) (if c =? 221 then ttab_dd else ttab_fd) 0)
      by (destruct EX as [-> | ->]; reflexivity) end.
    rewrite N8 in *.
    assert (KX : (mem s (PC s + 1) =? 203) = match indexed (mem s (PC s + 1)) with Some PXCB => true | _ => false end).
    { apply (map_at (fun c => c =? 203) (fun c => match indexed c with Some PXCB => true | _ => false end) ltac:(vm_compute; reflexivity)). apply MB. }
    rewrite KX.
    destruct (kind_xd (mem s (PC s + 1)) (MB _)) as [E3 | [E3 | (o & E3 & K)] ]; rewrite E3 in *.
    + cbn [fst snd goes_on half]. destruct (proj2 (time_none _ (MB _)) E3) as [T1 T2]. destruct (c =? 221); rewrite ?T1, ?T2; reflexivity.
    + assert (H3 : PC s + 3 < 65536 /\ mem s3 (PC s + 3) = mem s (PC s + 3)).
      { apply HM. cbn [next8 fst]. right. left. reflexivity. }
      rewrite (RD 3) by (first [exact H3|lia]). destruct H3 as [H3 _]. clear HM.
      assert (N83 : fst (next8 (snd (next8 (snd (next8 (abs s1)))))) = mem s (PC s + 3)).
      { cbn [next8 fst snd mm pc s_pc abs]. rewrite EMM, EPC. rewrite (w_id (PC s + 1)) by (unfold word; lia). rewrite (w_id (PC s + 1 + 1)) by (unfold word; lia).
        rewrite (w_id (PC s + 1 + 1 + 1)) by (unfold word; lia). replace (PC s + 1 + 1 + 1) with (PC s + 3) by lia. reflexivity. }
      set (q := snd (next8 (abs s1))) in *. clearbody q.
      destruct (next8 q) as [d q2]. cbn [snd] in N83. destruct (next8 q2) as [c3 q3]. cbn [fst] in N83. subst c3.
      cbn [fst snd goes_on half]. rewrite time_xcb by (try apply MB; destruct (c =? 221); tauto). destruct (_ && _); reflexivity.
    + assert (G : half (nth (Z.to_nat (mem s (PC s + 1))) (if c =? 221 then ttab_dd else ttab_fd) 0) (taken o (count_r (snd (next8 (abs s1))))) =
         4 + clocks o (taken o (snd (next8 (abs s1))))).
      { rewrite taken_count. apply time_xd; try assumption; [destruct (c =? 221); tauto|apply MB]. }
      assert (EE : (c =? 237) || (c =? 221) || (c =? 253) = true) by (rewrite <- orb_assoc, E; apply orb_true_r).
      destruct o; try discriminate K; cbn [fst snd goes_on orb]; first [rewrite EE|rewrite E]; exact G.
  - apply orb_false_iff in E. destruct E as [E4 E5]. rewrite E4, E5 in *. cbn [fst snd goes_on] in *.
    destruct (Z.eqb_spec c 237); [lia|]. cbn [orb]. rewrite taken_count. rewrite Z.add_0_l.
    apply time_00; [exact B|rewrite KE; reflexivity|].
    destruct (decode c); try reflexivity; cbn [odd_one].
    * destruct l; try reflexivity; exfalso; apply ND; exact I.
    * destruct l; try reflexivity; exfalso; apply ND; exact I.
    * destruct r as [|[ [p|p|]|p|]|p]; try reflexivity. exfalso. apply ND. exact I.
Qed.
End Z.
