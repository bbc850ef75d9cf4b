(** Z80: the time counted, exactly. *)
From Verif Require Import Base Z80Model Z80Spec Z80Spec2 Z80Proofs Z80Proofs2 Z80Proofs3 Z80Proofs4 Z80Proofs5 Z80Proofs6 Z80Proofs7 Z80Proofs8 Z80Proofs9 Z80Proofs12 Z80Proofs13.

Definition clk (o : op) (t : bool) : Z := match o with INC LHL | DEC LHL => 7 | OUTC 3 => -3 | _ => clocks o t end.
Definition cyc (x : M) : Z :=
  let '(i, z) := instr_at x in
  let c := mm x (pc x) in
  match i with
  | plain _ o => (if (c =? 237) || (c =? 221) || (c =? 253) then 4 else 0) + clk o (taken o z)
  | cb c => if c mod 8 =? 6 then 15 else 8
  | xcb _ c => if (64 <=? c) && (c <? 128) then 20 else 23
  | undefined => 0
  end.
Lemma ctime_00 c x : byte c -> kind (decode c) = 0 ->
  half (nth (Z.to_nat c) ttab_00 0) (taken (decode c) x) = clk (decode c) (taken (decode c) x).
Proof.
  intros H K.
  assert (S := sweep 256 (fun c => negb (kind (decode c) =? 0) || bothT (decode c) (fun t => half (nth (Z.to_nat c) ttab_00 0) t =? clk (decode c) t))
    ltac:(vm_compute; reflexivity) c ltac:(unfold byte in H; lia)). cbv beta in S. rewrite K in S. cbn [Z.eqb negb orb] in S.
  apply (bothT_at _ _ x) in S. lia.
Qed.
Lemma ctime_ed c o x : byte c -> decode_ed c = Some o ->
  half (nth (Z.to_nat c) ttab_ed 0) (taken o x) = 4 + clk o (taken o x).
Proof.
  intros H E.
  assert (S := sweep 256 (fun c => match decode_ed c with None => true | Some o => bothT o (fun t => half (nth (Z.to_nat c) ttab_ed 0) t =? 4 + clk o t) end)
    ltac:(vm_compute; reflexivity) c ltac:(unfold byte in H; lia)). cbv beta in S. rewrite E in S. cbn [orb] in S.
  apply (bothT_at _ _ x) in S. lia.
Qed.
Lemma ctime_xd t c o x : t = ttab_dd \/ t = ttab_fd -> byte c -> indexed c = Some o -> kind o = 0 ->
  half (nth (Z.to_nat c) t 0) (taken o x) = 4 + clk o (taken o x).
Proof.
  intros Ht H E K.
  assert (S : forall t, t = ttab_dd \/ t = ttab_fd -> forallb (fun k => (fun c => match indexed c with None => true | Some o => negb (kind o =? 0) || bothT o (fun b => half (nth (Z.to_nat c) t 0) b =? 4 + clk o b) end) (Z.of_nat k)) (seq 0 256) = true).
  { intros t' [-> | ->]; vm_compute; reflexivity. }
  pose proof (sweep 256 _ (S t Ht) c ltac:(unfold byte in H; lia)) as G. cbv beta in G. rewrite E, K in G. cbn [Z.eqb negb orb] in G.
  apply (bothT_at _ _ x) in G. lia.
Qed.
Lemma ctime_cb c : byte c -> nth (Z.to_nat c) ttab_cb 0 = if c mod 8 =? 6 then 15 else 8.
Proof.
  intros H.
  assert (S := sweep 256 (fun c => nth (Z.to_nat c) ttab_cb 0 =? if c mod 8 =? 6 then 15 else 8) ltac:(vm_compute; reflexivity) c ltac:(unfold byte in H; lia)). cbv beta in S.
  apply Z.eqb_eq. exact S.
Qed.

Section Z.
Variable dum lim : Z.
Variable hit : Z -> bool.
Notation exec := (Z80Model.exec dum lim).
Notation run := (Z80Model.run dum lim hit).
Notation step := (Z80Model.step dum lim hit).
Lemma step_counted0 s : wf s -> unbroken hit s ->
  (forall k, In k (codes (abs s)) -> PC s + k < 65536 /\ mem (snd (step s)) (PC s + k) = mem s (PC s + k)) ->
  ticks (snd (step s)) = ticks s + cyc (abs s).
Proof.
  intros W NH. pose proof (proj1 NH) as NH0. unfold Z80Model.step, cyc, codes. rewrite instr_rest.
  rewrite NH0. assert (EPC : PC (snd (fetch dum s)) = w (PC s + 1)) by reflexivity.
  assert (EMM : mem (snd (fetch dum s)) = mem s) by reflexivity. assert (ETT : ticks (snd (fetch dum s)) = ticks s) by reflexivity.
  assert (EC : fst (fetch dum s) = mem s (PC s)) by (cbn [fetch fst]; rewrite rd_mm by apply wf_PC, W; reflexivity).
  destruct (fetch_eq dum s W) as (E1 & E2 & W1 & B & EF). destruct (fetch dum s) as [c s1]. destruct (next8 (abs s)) as [c' x1].
  cbn [fst snd] in *. subst c' x1. cbn [rr set_ticks].
  set (s2 := set_ct false (set_ib false (set_rr (inc_R (rr s1)) (set_ticks (ticks s1 + 1) s1)))).
  assert (EA : abs s2 = count_r (abs s1)) by reflexivity.
  assert (W2 : wf s2) by (apply (wf_set_rr (inc_R (rr s1)) s1 W1), inc_R_byte, W1).
  assert (P2 : PC s2 = w (PC s + 1)) by exact EPC.
  pose proof (run_tc dum lim hit (PC s) c s2 W2 B) as RT. rewrite EA, rest_count in RT. cbn [fst snd] in RT.
  assert (NH2 : quiet hit c s2) by (rewrite EC; exact (unbroken_quiet dum hit s s2 NH P2 EMM)).
  specialize (RT NH2 eq_refl).
  assert (ETS : ticks s2 = ticks s + 1) by (change (ticks s2) with (ticks s1 + 1); rewrite ETT; reflexivity).
  destruct (run (PC s) c s2) as [res s3]. cbn [snd] in RT.
  intros HM. cbn [snd mem set_ticks] in HM.
  pose proof (wf_PC s W) as HPC. unfold word in HPC.
  assert (RD : forall k, 0 <= k -> PC s + k < 65536 /\ mem s3 (PC s + k) = mem s (PC s + k) -> rd dum s3 (PC s + k) = mem s (PC s + k)).
  { intros k Hk [K1 K2]. unfold rd. rewrite inmem_true by (unfold word; lia). exact K2. }
  cbn [snd ticks set_ticks]. rewrite (tick _ _ RT), (ctk _ _ RT). cbn [fst snd]. rewrite ETS.
  cbn [mm pc abs] in HM |- *. rewrite <- EC in HM |- *.
  match goal with |- ticks s + 1 + (?e - 1) = ticks s + ?v => enough (G : e = v) by lia end.
  fold (half (entry dum (PC s) c s3) (goes_on (fst (rest c (abs s1))) (count_r (snd (rest c (abs s1)))))).
  unfold entry.
  assert (N8 : PC s + 1 < 65536 -> next8 (abs s1) = (mem s (PC s + 1), snd (next8 (abs s1)))).
  { intros HP. cbn [next8 snd]. apply (f_equal (fun v => (v, s_pc (w (pc (abs s1) + 1)) (abs s1)))). cbn [mm pc abs]. rewrite EMM, EPC, w_id by (unfold word; lia). reflexivity. }
  assert (MB : forall a, byte (mem s a)) by (intros; apply W).
  unfold rest in *.
  pose proof (kind_eq c B) as KE. unfold kind_of in KE.
  destruct (Z.eqb_spec c 203) as [-> |N1]; [|destruct (Z.eqb_spec c 237) as [-> |N2]; [|destruct ((c =? 221) || (c =? 253)) eqn:E] ].
  - assert (H1 : PC s + 1 < 65536 /\ mem s3 (PC s + 1) = mem s (PC s + 1)) by (apply HM; left; reflexivity).
    specialize (N8 (proj1 H1)). rewrite (RD 1) by (first [exact H1|lia]). clear HM.
    cbn [Z.eqb Pos.eqb]. rewrite N8 in *. cbn [fst snd goes_on half] in *.
    rewrite ctime_cb by apply MB. destruct (_ =? 6); reflexivity.
  - assert (H1 : PC s + 1 < 65536 /\ mem s3 (PC s + 1) = mem s (PC s + 1)).
    { apply HM. cbn [next8 fst Z.eqb Pos.eqb orb]. destruct (decode_ed _); left; reflexivity. }
    specialize (N8 (proj1 H1)). rewrite (RD 1) by (first [exact H1|lia]). clear HM.
    cbn [Z.eqb Pos.eqb orb]. rewrite N8 in *. cbn [fst snd] in *.
    destruct (kind_ed (mem s (PC s + 1)) (MB _)) as [E3 | (o & E3 & K)]; rewrite E3 in *; cbn [goes_on].
    + rewrite (proj1 (time_none _ (MB _)) E3). reflexivity.
    + rewrite taken_count. apply ctime_ed; [apply MB|exact E3].
  - assert (EX : c = 221 \/ c = 253) by lia.
    assert (H1 : PC s + 1 < 65536 /\ mem s3 (PC s + 1) = mem s (PC s + 1)).
    { apply HM. destruct (next8 (abs s1)) as [c2 q]. destruct (indexed c2) as [o|]; [destruct o|]; cbn [fst orb]; rewrite ?E; try (left; reflexivity).
      }
    specialize (N8 (proj1 H1)). rewrite (RD 1) by (first [exact H1|lia]).
    match goal with |- half ?e _ = _ => replace e with
      (if mem s (PC s + 1) =? 203 then nth (Z.to_nat (rd dum s3 (PC s + 3))) (if c =? 221 then ttab_ddcb else ttab_fdcb) 0
       else nth (Z.to_nat (mem s (PC s + 1))) (if c =? 221 then ttab_dd else ttab_fd) 0)
      by (destruct EX as [-> | ->]; reflexivity) end.
    rewrite N8 in *.
    assert (KX : (mem s (PC s + 1) =? 203) = match indexed (mem s (PC s + 1)) with Some PXCB => true | _ => false end).
    { apply (map_at (fun c => c =? 203) (fun c => match indexed c with Some PXCB => true | _ => false end) ltac:(vm_compute; reflexivity)). apply MB. }
    rewrite KX.
    destruct (kind_xd (mem s (PC s + 1)) (MB _)) as [E3 | [E3 | (o & E3 & K)] ]; rewrite E3 in *.
    + cbn [fst snd goes_on half]. destruct (proj2 (time_none _ (MB _)) E3) as [T1 T2]. destruct (c =? 221); rewrite ?T1, ?T2; reflexivity.
    + assert (H3 : PC s + 3 < 65536 /\ mem s3 (PC s + 3) = mem s (PC s + 3)).
      { apply HM. cbn [next8 fst]. right. left. reflexivity. }
      rewrite (RD 3) by (first [exact H3|lia]). destruct H3 as [H3 _]. clear HM.
      assert (N83 : fst (next8 (snd (next8 (snd (next8 (abs s1)))))) = mem s (PC s + 3)).
      { cbn [next8 fst snd mm pc s_pc abs]. rewrite EMM, EPC. rewrite (w_id (PC s + 1)) by (unfold word; lia). rewrite (w_id (PC s + 1 + 1)) by (unfold word; lia).
        rewrite (w_id (PC s + 1 + 1 + 1)) by (unfold word; lia). replace (PC s + 1 + 1 + 1) with (PC s + 3) by lia. reflexivity. }
      set (q := snd (next8 (abs s1))) in *. clearbody q.
      destruct (next8 q) as [d q2]. cbn [snd] in N83. destruct (next8 q2) as [c3 q3]. cbn [fst] in N83. subst c3.
      cbn [fst snd goes_on half]. rewrite time_xcb by (try apply MB; destruct (c =? 221); tauto). destruct (_ && _); reflexivity.
    + assert (G : half (nth (Z.to_nat (mem s (PC s + 1))) (if c =? 221 then ttab_dd else ttab_fd) 0) (taken o (count_r (snd (next8 (abs s1))))) =
         4 + clk o (taken o (snd (next8 (abs s1))))).
      { rewrite taken_count. apply ctime_xd; try assumption; [destruct (c =? 221); tauto|apply MB]. }
      assert (EE : (c =? 237) || (c =? 221) || (c =? 253) = true) by (rewrite <- orb_assoc, E; apply orb_true_r).
      destruct o; try discriminate K; cbn [fst snd goes_on orb]; first [rewrite EE|rewrite E]; exact G.
  - apply orb_false_iff in E. destruct E as [E4 E5]. rewrite E4, E5 in *. cbn [fst snd goes_on] in *.
    destruct (Z.eqb_spec c 237); [lia|]. cbn [orb]. rewrite taken_count. rewrite Z.add_0_l.
    apply ctime_00; [exact B|rewrite KE; reflexivity].
Qed.
Definition odd_ed (o : option op) : bool := match o with Some (INC LHL) | Some (DEC LHL) => true | _ => false end.
Definition odd_xd (o : option op) : bool := match o with Some (INC LHL) | Some (DEC LHL) | Some (OUTC _) => true | _ => false end.
Definition is_outc (o : op) : bool := match o with OUTC _ => true | _ => false end.
Lemma no_odd c : byte c -> odd_ed (decode_ed c) = false /\ odd_xd (indexed c) = false /\ is_outc (decode c) = false.
Proof.
  intros H. assert (S := sweep 256 (fun c => negb (odd_ed (decode_ed c)) && negb (odd_xd (indexed c)) && negb (is_outc (decode c))) ltac:(vm_compute; reflexivity) c ltac:(unfold byte in H; lia)).
  cbv beta in S. destruct (odd_ed _), (odd_xd _), (is_outc _); try discriminate S. auto.
Qed.
Lemma clk_rest k o t : odd_one o = false -> k + clk o t = k + clocks o t.
Proof.
  intros H. f_equal. destruct o; try reflexivity; cbn [odd_one] in H.
  - destruct l; try reflexivity; discriminate.
  - destruct l; try reflexivity; discriminate.
  - destruct r as [|[ [p|p|]|p|]|p]; try reflexivity. discriminate.
Qed.
Lemma odd_cases o : odd_one o = false \/ o = INC LHL \/ o = DEC LHL \/ o = OUTC 3.
Proof.
  destruct o; try (left; reflexivity).
  - destruct l; try (left; reflexivity). tauto.
  - destruct l; try (left; reflexivity). tauto.
  - destruct r as [|[ [p|p|]|p|]|p]; try (left; reflexivity). tauto.
Qed.
Lemma counted_rest y o x z : odd_one o = false -> instr_at x = (plain y o, z) -> counted x = cyc x.
Proof.
  intros H E. unfold counted, cyc, cycles. rewrite E. cbn [fst]. rewrite clk_rest by exact H.
  destruct o; try reflexivity; cbn [odd_one] in H.
  - destruct l; try reflexivity; discriminate.
  - destruct l; try reflexivity; discriminate.
  - destruct r as [|[ [p|p|]|p|]|p]; try reflexivity. discriminate.
Qed.
Lemma counted_cyc s : wf s -> counted (abs s) = cyc (abs s).
Proof.
  intros W. destruct (instr_at (abs s)) as [i z] eqn:EI. destruct i as [y o|c|a c|].
  2:{ unfold counted, cyc. rewrite EI. reflexivity. }
  2:{ unfold counted, cyc, cycles. rewrite EI. reflexivity. }
  2:{ unfold counted, cyc, cycles. rewrite EI. reflexivity. }
  destruct (odd_cases o) as [H|H]; [exact (counted_rest y o _ z H EI)|].
  unfold counted, cyc. rewrite EI. cbn [fst].
  unfold instr_at in EI. cbn [next8] in EI. set (c := mm (abs s) (pc (abs s))) in *. assert (Hc : byte c) by apply W.
  destruct (Z.eqb_spec c 203); [discriminate EI|]. destruct (Z.eqb_spec c 237) as [E|E].
  - set (c2 := mm _ _) in EI. assert (H2 : byte c2) by apply (wf_mem s _ W). destruct (no_odd c2 H2) as (N1 & _).
    destruct (decode_ed c2); [|discriminate EI]. injection EI as _ -> _. destruct H as [-> | [-> | ->] ]; [discriminate N1|discriminate N1|reflexivity].
  - destruct ((c =? 221) || (c =? 253)) eqn:EX.
    + set (c2 := mm _ _) in EI. assert (H2 : byte c2) by apply (wf_mem s _ W). destruct (no_odd c2 H2) as (_ & N1 & _).
      destruct (indexed c2) as [o2|]; [|discriminate EI].
      assert (EO : o2 = o) by (destruct o2; try discriminate EI; congruence). rewrite EO in N1. destruct H as [-> | [-> | ->] ]; discriminate N1.
    + destruct (no_odd c Hc) as (_ & _ & N1). injection EI as _ EO _. rewrite EO in N1. cbn [orb]. rewrite EX.
      destruct H as [-> | [-> | ->] ]; [reflexivity|reflexivity|discriminate N1].
Qed.
Lemma step_counted s : wf s -> unbroken hit s ->
  (forall k, In k (codes (abs s)) -> PC s + k < 65536 /\ mem (snd (step s)) (PC s + k) = mem s (PC s + k)) ->
  ticks (snd (step s)) = ticks s + counted (abs s).
Proof. intros W U H. rewrite counted_cyc by exact W. apply step_counted0; assumption. Qed.
End Z.
