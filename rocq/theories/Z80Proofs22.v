(** Z80: the stack errors reported by a step. *)
From Verif Require Import Base Z80Model Z80Spec Z80Spec2 Z80Proofs Z80Proofs2 Z80Proofs3 Z80Proofs4 Z80Proofs5 Z80Proofs6 Z80Proofs7 Z80Proofs8 Z80Proofs9.

Lemma es_wr a v s : errs (wr a v s) = errs s. Proof. unfold wr. destruct (inmem a); reflexivity. Qed.
Lemma es_store2 a v s : errs (store2 a v s) = errs s. Proof. unfold store2. rewrite !es_wr. reflexivity. Qed.
Lemma es_wW y p v s : errs (wW y p v s) = errs s. Proof. destruct p; try destruct y; reflexivity. Qed.
Lemma es_putp y p v s : errs (putp y p v s) = errs s. Proof. destruct p; cbn [putp]; rewrite ?es_wW, ?es_wr; reflexivity. Qed.
Lemma es_alu8 k v s : errs (alu8 k v s) = errs s. Proof. destruct k; reflexivity. Qed.
Lemma es_daa s : errs (Z80Model.daa s) = errs s.
Proof. unfold Z80Model.daa. cbv zeta. cbn [errs set_F]. destruct (Z.testbit (F s) 1); reflexivity. Qed.
Lemma es_add16 y d v s : errs (Z80Model.add16 y d v s) = errs s. Proof. unfold Z80Model.add16. cbv zeta. rewrite es_wW. reflexivity. Qed.
Lemma es_again c ipc s : errs (again c ipc s) = errs s. Proof. destruct c; reflexivity. Qed.
Lemma sp_wr a v s : SP (wr a v s) = SP s. Proof. unfold wr. destruct (inmem a); reflexivity. Qed.
Lemma sp_store2 a v s : SP (store2 a v s) = SP s. Proof. unfold store2. rewrite !sp_wr. reflexivity. Qed.
Definition low (lim ipc b a : Z) : list (Z * Z * Z) := if a <? lim then [(ipc, b, a)] else [].
Lemma es_chk lim ipc b s : errs (chk lim ipc b s) = errs s ++ low lim ipc b (SP s).
Proof. unfold chk, low. destruct (SP s <? lim); [reflexivity|]. symmetry. apply app_nil_r. Qed.
Lemma sp_chk lim ipc b s : SP (chk lim ipc b s) = SP s. Proof. unfold chk. destruct (SP s <? lim); reflexivity. Qed.
Lemma es_push2 lim ipc v s : errs (push2 lim ipc v s) = errs s ++ low lim ipc (SP s) (w (SP s - 2)).
Proof. unfold push2. cbv zeta. rewrite es_chk, es_store2, sp_store2. reflexivity. Qed.
Lemma es_push1 lim ipc v s : errs (push1 lim ipc v s) = errs s ++ low lim ipc (SP s) (w (SP s - 1)).
Proof. unfold push1. cbv zeta. rewrite es_chk, es_wr, sp_wr. reflexivity. Qed.
Lemma sp_push1 lim ipc v s : SP (push1 lim ipc v s) = w (SP s - 1).
Proof. unfold push1. cbv zeta. rewrite sp_chk, sp_wr. reflexivity. Qed.

Section Z.
Variable dum lim : Z.
Variable hit : Z -> bool.
Notation exec := (Z80Model.exec dum lim).
Notation run := (Z80Model.run dum lim hit).
Notation step := (Z80Model.step dum lim hit).
Lemma es_resolve y l s : errs (snd (resolve dum y l s)) = errs s. Proof. destruct l; reflexivity. Qed.
Lemma es_block_ld d s : errs (block_ld dum d s) = errs s. Proof. unfold block_ld. cbv zeta. rewrite !es_wW, es_wr. reflexivity. Qed.
Lemma es_block_in d s : errs (block_in d s) = errs s.
Proof. unfold block_in. cbv zeta. cbn [errs set_F wR set_rg wW wR2]. apply es_wr. Qed.
Lemma es_block_out k d s : errs (block_out dum k d s) = errs s. Proof. reflexivity. Qed.

Lemma exec_es y ipc o s : op_ok o -> errs (snd (exec y ipc o s)) = errs s ++ reports lim ipc (plain y o) (abs s).
Proof.
  intros K.
  assert (T : errs s = errs s ++ []) by (symmetry; apply app_nil_r).
  destruct o; cbn [Z80Model.exec reports sp abs]; cbv zeta; fold (low lim ipc (SP s) (w (SP s - 2))); try exact T.
  - pose proof (es_resolve y d s) as R. destruct (resolve dum y d s) as [p s1]. pose proof (es_resolve y s0 s1) as R2.
    destruct (resolve dum y s0 s1) as [q s2]. cbn [snd] in *. rewrite es_putp, R2, R. exact T.
  - unfold fetch2. cbn [fetch fst snd]. rewrite es_wW. exact T.
  - unfold fetch2. cbn [fetch fst snd]. rewrite es_store2. exact T.
  - unfold fetch2. cbn [fetch fst snd]. rewrite es_wW. exact T.
  - cbn [snd]. rewrite es_wr. exact T.
  - unfold fetch2. cbn [fetch fst snd]. rewrite es_wr. exact T.
  - cbn [snd]. apply es_push2.
  - unfold pop2; cbn [snd]. rewrite es_wW. exact T.
  - cbn [snd]. rewrite !es_push1, sp_push1, <- app_assoc. unfold low. rewrite w_w_sub. replace (SP s - 1 - 1) with (SP s - 2) by lia. reflexivity.
  - cbn [snd]. rewrite es_store2, es_wW. exact T.
  - pose proof (es_resolve y l s) as R. destruct (resolve dum y l s) as [p s1]. cbn [snd] in *. rewrite es_putp. cbn [errs set_F]. rewrite R. exact T.
  - pose proof (es_resolve y l s) as R. destruct (resolve dum y l s) as [p s1]. cbn [snd] in *. rewrite es_putp. cbn [errs set_F]. rewrite R. exact T.
  - pose proof (es_resolve y l s) as R. destruct (resolve dum y l s) as [p s1]. cbn [snd] in *. rewrite es_alu8, R. exact T.
  - cbn [snd]. rewrite es_wW. exact T.
  - cbn [snd]. rewrite es_wW. exact T.
  - cbn [snd]. rewrite es_add16. exact T.
  - cbn [snd]. rewrite es_daa. exact T.
  - cbn [fetch]. cbn [snd]. destruct (b_left _); exact T.
  - destruct c as [c|]; cbn [fetch snd]; [destruct (holds c _)|]; exact T.
  - destruct c as [c|]; unfold fetch2; cbn [fetch fst snd]; [destruct (holds c _)|]; exact T.
  - destruct c as [c|]; cbn [condo].
    + cbn [op_ok] in K. rewrite cond_hold by exact K. destruct (cond c (abs s)); [|exact T]. unfold fetch2; cbn [fetch fst snd errs set_ct set_PC]. apply es_push2.
    + unfold fetch2; cbn [fetch fst snd errs set_PC]. apply es_push2.
  - destruct c as [c|]; unfold pop2; cbn [snd]; [destruct (holds c _)|]; exact T.
  - cbn [snd errs set_PC]. apply es_push2.
  - destruct (r =? 6); exact T.
  - cbn [snd errs wR set_rg]. rewrite es_wr. exact T.
  - cbn [snd errs wR set_rg]. rewrite es_wr. exact T.
  - cbn [snd errs orF set_F]. rewrite es_block_ld. exact T.
  - cbn [snd errs orF set_F]. rewrite es_block_ld. exact T.
  - cbn [snd]. rewrite es_again. cbn [errs orF set_F]. rewrite es_block_ld. exact T.
  - cbn [snd]. rewrite es_again. rewrite es_block_ld. exact T.
  - cbn [snd]. unfold cpir. cbv zeta. rewrite es_again. exact T.
  - cbn [snd]. unfold cpdr. cbv zeta. rewrite es_again. destruct (_ =? 0); exact T.
  - cbn [snd]. rewrite es_block_in. exact T.
  - cbn [snd]. rewrite es_block_in. exact T.
  - cbn [snd]. rewrite es_again, es_block_in. exact T.
  - cbn [snd]. rewrite es_again, es_block_in. exact T.
  - cbn [snd]. rewrite es_again. exact T.
  - cbn [snd]. rewrite es_again. exact T.
Qed.
Lemma es_exec_cb c s : errs (exec_cb dum c s) = errs s.
Proof.
  unfold exec_cb. cbv zeta. set (p := if c mod 8 =? 6 then _ else _). set (v := getp dum false p s).
  destruct (c <? 64); [|destruct (c <? 128); [|destruct (c <? 192); apply es_putp] ].
  - destruct (rot _ v (cy s)) as [t co]. destruct (c mod 8 =? 6); rewrite ?es_putp; cbn [errs set_F]; rewrite ?es_putp; reflexivity.
  - destruct (c mod 8 =? 6); rewrite ?es_putp; reflexivity.
Qed.
Lemma es_exec_xcb a c s : errs (exec_xcb dum a c s) = errs s.
Proof.
  unfold exec_xcb. cbv zeta.
  destruct (c <? 64); [|destruct (c <? 128); [|destruct (c <? 192)] ].
  - destruct (rot _ _ (cy s)) as [t co]. rewrite es_wr. destruct (c mod 8 =? 6); reflexivity.
  - rewrite es_wr. reflexivity.
  - rewrite es_wr. destruct (c mod 8 =? 6); reflexivity.
  - rewrite es_wr. destruct (c mod 8 =? 6); reflexivity.
Qed.
Lemma run_es ipc c s : wf s -> byte c -> quiet hit c s ->
  errs (snd (run ipc c s)) = errs s ++ reports lim ipc (fst (rest c (abs s))) (snd (rest c (abs s))).
Proof.
  intros W Hc NH. pose proof (kind_eq c Hc) as KE. unfold kind_of in KE. unfold Z80Model.run, rest. rewrite tab_00_eq by exact Hc.
  assert (T : errs s = errs s ++ []) by (symmetry; apply app_nil_r).
  destruct NH as [NH0 NH2].
  assert (TF : errs (snd (fetch dum s)) = errs s) by reflexivity.
  destruct (Z.eqb_spec c 203) as [E|N1]; [|destruct (Z.eqb_spec c 237) as [E|N2]; [|destruct ((c =? 221) || (c =? 253)) eqn:E] ].
  - destruct (decode c); try discriminate KE; [|destruct iy; discriminate KE]. rewrite NH0 by tauto.
    destruct (fetch_eq dum s W) as (E1 & E2 & W1 & B & EF). destruct (fetch dum s) as [c2 s1]. destruct (next8 (abs s)) as [c2' x1].
    cbn [fst snd reports] in *. rewrite es_exec_cb, TF. exact T.
  - destruct (decode c); try discriminate KE; [destruct iy; discriminate KE|]. rewrite NH0 by tauto.
    destruct (fetch_eq dum s W) as (E1 & E2 & W1 & B & EF). destruct (fetch dum s) as [c2 s1]. destruct (next8 (abs s)) as [c2' x1].
    cbn [fst snd] in *. subst c2' x1. rewrite tab_ed_eq by exact B. pose proof (code_ed_ok c2 B) as OK. unfold code_ed in *.
    destruct (kind_ed c2 B) as [-> | (o & E3 & K)].
    + cbn [snd Z80Model.exec reports]. rewrite TF. exact T.
    + rewrite E3 in *. cbn [reports]. refine (eq_trans (exec_es _ _ _ _ (proj1 OK)) _). f_equal. exact TF.
  - assert (KX : decode c = PXD (c =? 253)).
    { destruct (Z.eqb_spec c 221) as [-> |]; [reflexivity|]. destruct (Z.eqb_spec c 253) as [-> |]; [reflexivity|]. discriminate E. }
    rewrite KX. rewrite NH0 by lia. set (y := c =? 253).
    assert (EC2 : fst (fetch dum s) = mem s (PC s)) by (cbn [fetch fst]; rewrite rd_mm by apply wf_PC, W; reflexivity).
    assert (EPC : PC (snd (fetch dum s)) = w (PC s + 1)) by reflexivity.
    destruct (fetch_eq dum s W) as (E1 & E2 & W1 & B & EF). destruct (fetch dum s) as [c2 s1]. destruct (next8 (abs s)) as [c2' x1].
    cbn [fst snd] in *. subst c2' x1. rewrite tab_xd_eq by exact B. pose proof (code_xd_ok c2 B) as OK. unfold code_xd in *.
    assert (E203 : indexed c2 = Some PXCB -> c2 = 203).
    { intros EI. assert (S := map_at (fun c => c =? 203) (fun c => match indexed c with Some PXCB => true | _ => false end) ltac:(vm_compute; reflexivity) c2 B).
      cbv beta in S. rewrite EI in S. lia. }
    destruct (kind_xd c2 B) as [-> | [EI | (o & E3 & K)] ]; [|rewrite EI; specialize (E203 EI)|].
    + cbn [snd Z80Model.exec reports]. rewrite TF. exact T.
    + assert (EPC2 : PC (snd (fetch dum s1)) = w (PC s + 2)).
      { cbn [fetch snd PC set_PC]. rewrite EPC. change ((w (PC s + 1) + 1) mod 65536) with (w (w (PC s + 1) + 1)). rewrite w_w. f_equal. lia. }
      assert (TF2 : errs (snd (fetch dum s1)) = errs s1) by reflexivity.
      destruct (fetch dum s1) as [d s2]. destruct (next8 (abs s1)) as [d' x2].
      cbn [fst snd] in *. rewrite EPC2, NH2; [|lia|rewrite <- EC2; exact E203]. assert (TF3 : errs (snd (fetch dum s2)) = errs s2) by reflexivity.
      destruct (fetch dum s2) as [c3 s3]. destruct (next8 x2) as [c3' x3]. cbn [fst snd reports] in *.
      rewrite es_exec_xcb, TF3, TF2, TF. exact T.
    + rewrite E3 in *.
      assert (G : errs (snd (exec y ipc o s1)) = errs s ++ reports lim ipc (plain y o) (abs s1)).
      { refine (eq_trans (exec_es _ _ _ _ (proj1 OK)) _). f_equal. exact TF. }
      destruct o; try discriminate K; exact G.
  - assert (K : kind (decode c) = 0).
    { rewrite KE. apply orb_false_iff in E. destruct E as [-> ->]. reflexivity. }
    assert (G : errs (snd (exec false ipc (decode c) s)) = errs s ++ reports lim ipc (plain false (decode c)) (abs s)).
    { destruct (decode_ok c Hc) as (O1 & O2 & O3). apply exec_es; assumption. }
    destruct (decode c); try discriminate K; try exact G. destruct iy; discriminate K.
Qed.
Lemma step_es s : wf s -> unbroken hit s ->
  let '(i, x) := instr_at (abs s) in errs (snd (step s)) = errs s ++ reports lim (PC s) i (count_r x).
Proof.
  intros W NH. unfold Z80Model.step. rewrite instr_rest. pose proof (proj1 NH) as NH0.
  assert (EM : mem (snd (fetch dum s)) = mem s) by reflexivity.
  assert (EC : fst (fetch dum s) = mem s (PC s)) by (cbn [fetch fst]; rewrite rd_mm by apply wf_PC, W; reflexivity).
  assert (EE : errs (snd (fetch dum s)) = errs s) by reflexivity.
  rewrite NH0. assert (EPC : PC (snd (fetch dum s)) = w (PC s + 1)) by reflexivity.
  destruct (fetch_eq dum s W) as (E1 & E2 & W1 & B & EF). destruct (fetch dum s) as [c s1]. destruct (next8 (abs s)) as [c' x1].
  cbn [fst snd] in *. subst c' x1. cbn [rr set_ticks].
  set (s2 := set_ct false (set_ib false (set_rr (inc_R (rr s1)) (set_ticks (ticks s1 + 1) s1)))).
  assert (EA : abs s2 = count_r (abs s1)) by reflexivity.
  assert (W2 : wf s2) by (apply (wf_set_rr (inc_R (rr s1)) s1 W1), inc_R_byte, W1).
  pose proof (run_es (PC s) c s2 W2 B) as RE. rewrite EA, rest_count in RE.
  destruct (rest c (abs s1)) as [i x]. cbn [fst snd] in RE.
  assert (P2 : PC s2 = w (PC s + 1)) by exact EPC.
  assert (Q : quiet hit c s2) by (rewrite EC; refine (unbroken_quiet 0 hit s s2 NH P2 EM)).
  specialize (RE Q). destruct (run (PC s) c s2) as [res s3]. cbn [snd errs set_ticks] in *. rewrite RE. change (errs s2) with (errs s1). rewrite EE. reflexivity.
Qed.
End Z.
