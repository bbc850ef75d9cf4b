(** Z80: time. *)
From Verif Require Import Base Z80Model Z80Spec Z80Proofs Z80Proofs2 Z80Proofs3 Z80Proofs4 Z80Proofs5 Z80Proofs6 Z80Proofs7 Z80Proofs8 Z80Proofs9.

Definition tc (s : cpu) : Z * bool := (ticks s, ct s).
Lemma tc_wr a v s : tc (wr a v s) = tc s. Proof. unfold wr. destruct (inmem a); reflexivity. Qed.
Lemma tc_store2 a v s : tc (store2 a v s) = tc s. Proof. unfold store2. rewrite !tc_wr. reflexivity. Qed.
Lemma tc_wW y p v s : tc (wW y p v s) = tc s. Proof. destruct p; try destruct y; reflexivity. Qed.
Lemma tc_wR n v s : tc (wR n v s) = tc s. Proof. reflexivity. Qed.
Lemma tc_F v s : tc (set_F v s) = tc s. Proof. reflexivity. Qed.
Lemma tc_PC v s : tc (set_PC v s) = tc s. Proof. reflexivity. Qed.
Lemma tc_SP v s : tc (set_SP v s) = tc s. Proof. reflexivity. Qed.
Lemma tc_putp y p v s : tc (putp y p v s) = tc s. Proof. destruct p; cbn [putp]; rewrite ?tc_wR, ?tc_wW, ?tc_wr; reflexivity. Qed.
Lemma tc_chk lim ipc b s : tc (chk lim ipc b s) = tc s. Proof. unfold chk. destruct (SP s <? lim); reflexivity. Qed.
Lemma tc_push2 lim ipc v s : tc (push2 lim ipc v s) = tc s. Proof. unfold push2. cbv zeta. rewrite tc_chk, tc_store2. reflexivity. Qed.
Lemma tc_push1 lim ipc v s : tc (push1 lim ipc v s) = tc s. Proof. unfold push1. cbv zeta. rewrite tc_chk, tc_wr. reflexivity. Qed.
Lemma tc_alu8 k v s : tc (alu8 k v s) = tc s. Proof. destruct k; reflexivity. Qed.
Lemma tc_daa s : tc (Z80Model.daa s) = tc s. Proof. unfold Z80Model.daa. cbv zeta. rewrite tc_F. destruct (Z.testbit (F s) 1); reflexivity. Qed.
Lemma tc_add16 y d v s : tc (Z80Model.add16 y d v s) = tc s. Proof. unfold Z80Model.add16. cbv zeta. rewrite tc_wW. reflexivity. Qed.
Lemma tc_wO p v s : tc (wO p v s) = tc s. Proof. reflexivity. Qed.
Lemma tc_orF c m s : tc (orF c m s) = tc s. Proof. reflexivity. Qed.
Lemma tc_again c ipc s : tc (again c ipc s) = (ticks s, if c then true else ct s). Proof. destruct c; reflexivity. Qed.

Section Z.
Variable dum lim : Z.
Notation exec := (Z80Model.exec dum lim).
Lemma tc_fetch s : tc (snd (fetch dum s)) = tc s. Proof. reflexivity. Qed.
Lemma tc_fetch2 s : tc (snd (fetch2 dum s)) = tc s. Proof. reflexivity. Qed.
Lemma tc_pop2 s : tc (snd (pop2 dum s)) = tc s. Proof. reflexivity. Qed.
Lemma tc_resolve y l s : tc (snd (resolve dum y l s)) = tc s. Proof. destruct l; reflexivity. Qed.
Lemma tc_block_ld d s : tc (block_ld dum d s) = tc s. Proof. unfold block_ld. cbv zeta. rewrite !tc_wW, tc_wr. reflexivity. Qed.
Lemma tc_block_in d s : tc (block_in d s) = tc s.
Proof. unfold block_in. cbv zeta. rewrite tc_F, tc_wR, tc_wW, tc_F, tc_wr. reflexivity. Qed.
Lemma tc_block_out k d s : tc (block_out dum k d s) = tc s. Proof. reflexivity. Qed.
Lemma tc_ct v s : tc (set_ct v s) = (ticks s, v). Proof. reflexivity. Qed.
Lemma tick s v : tc s = v -> ticks s = fst v. Proof. intros <-. reflexivity. Qed.
Lemma ctk s v : tc s = v -> ct s = snd v. Proof. intros <-. reflexivity. Qed.
Lemma minus1 v : byte v -> ((v - 1) mod 256 =? 0) = (v =? 1).
Proof.
  unfold byte. intros H. destruct (Z.eq_dec v 0) as [-> |]; [reflexivity|]. rewrite Z.mod_small by lia. lia.
Qed.
Lemma minus1w v : word v -> (w (v - 1) =? 0) = (v =? 1).
Proof.
  unfold word, w. intros H. destruct (Z.eq_dec v 0) as [-> |]; [reflexivity|]. rewrite Z.mod_small by lia. lia.
Qed.
Lemma ld_left d s : wf s -> bc_left (block_ld dum d s) = negb (pairv false BC (abs s) =? 1).
Proof.
  intros W. rewrite block_ld_bc by exact W. unfold left_bc. f_equal. rewrite <- minus1w by (rewrite <- W_pairv; apply W_range, W).
  f_equal. unfold move_block. cbv zeta.
  match goal with |- pairv false BC (setf _ _ _ _ _ _ (dec_bc ?q)) = _ => set (x := q) end.
  change (pairv false BC (dec_bc x) = w (pairv false BC x - 1)). unfold dec_bc. cbn [setpair pairv set2 s_r r Z.eqb Pos.eqb Z.add Pos.add].
  symmetry. rewrite (Z.div_mod (w _) 256) at 1 by lia. reflexivity.
Qed.
Lemma dec_bc_left s : wf s -> bc_left (wW false BC (Z80Model.W false BC s - 1) s) = negb (pairv false BC (abs s) =? 1).
Proof.
  intros W. unfold bc_left. f_equal. rewrite <- minus1w by (rewrite <- W_pairv; apply W_range, W).
  rewrite !W_pairv, wW_setpair. f_equal. cbn [setpair pairv set2 s_r r Z.eqb Pos.eqb Z.add Pos.add].
  symmetry. rewrite (Z.div_mod (w _) 256) at 1 by lia. reflexivity.
Qed.
Lemma sub_eqb a b : (a - b =? 0) = (a =? b). Proof. lia. Qed.

Lemma exec_tc y ipc o s : wf s -> op_ok o -> ct s = false -> tc (snd (exec y ipc o s)) = (ticks s, taken o (abs s)).
Proof.
  intros W K C. assert (T : tc s = (ticks s, false)) by (unfold tc; rewrite C; reflexivity).
  pose proof (tc_fetch s) as T1. pose proof (tc_fetch2 s) as T2. pose proof (tc_pop2 s) as T3.
  pose proof (W_range false HL s W) as HW.
  assert (B0 : byte (rg s 0)) by apply W.
  destruct o; cbn [Z80Model.exec taken]; cbv zeta; try exact T.
  - pose proof (tc_resolve y d s) as R. destruct (resolve dum y d s) as [p s1]. pose proof (tc_resolve y s0 s1) as R2.
    destruct (resolve dum y s0 s1) as [q s2]. cbn [snd] in *. rewrite tc_putp, R2, R. exact T.
  - destruct (fetch2 dum s). cbn [snd] in *. rewrite tc_wW, T2. exact T.
  - destruct (fetch2 dum s). cbn [snd] in *. rewrite tc_store2, T2. exact T.
  - destruct (fetch2 dum s). cbn [snd] in *. rewrite tc_wW, T2. exact T.
  - cbn [snd]. rewrite tc_wr. exact T.
  - destruct (fetch2 dum s). cbn [snd] in *. rewrite tc_wr, T2. exact T.
  - cbn [snd]. rewrite tc_push2. exact T.
  - destruct (pop2 dum s). cbn [snd] in *. rewrite tc_wW, T3. exact T.
  - cbn [snd]. rewrite !tc_push1. exact T.
  - cbn [snd]. rewrite tc_store2, tc_wW. exact T.
  - pose proof (tc_resolve y l s) as R. destruct (resolve dum y l s) as [p s1]. cbn [snd] in *. rewrite tc_putp, tc_F, R. exact T.
  - pose proof (tc_resolve y l s) as R. destruct (resolve dum y l s) as [p s1]. cbn [snd] in *. rewrite tc_putp, tc_F, R. exact T.
  - pose proof (tc_resolve y l s) as R. destruct (resolve dum y l s) as [p s1]. cbn [snd] in *. rewrite tc_alu8, R. exact T.
  - cbn [snd]. rewrite tc_wW. exact T.
  - cbn [snd]. rewrite tc_wW. exact T.
  - cbn [snd]. rewrite tc_add16. exact T.
  - cbn [snd]. rewrite tc_daa. exact T.
  - assert (RG : rg (snd (fetch dum s)) 0 = rg s 0) by reflexivity.
    destruct (fetch dum s) as [j s1]. cbn [snd] in *. unfold b_left at 1. cbn [wR set_rg rg Z.eqb]. rewrite RG.
    change (u8 (rg s 0 - 1)) with ((rg s 0 - 1) mod 256). rewrite minus1 by exact B0.
    change (r (abs s) 0) with (rg s 0). destruct (rg s 0 =? 1); cbn [negb].
    + rewrite tc_wR, T1. exact T.
    + rewrite tc_ct. f_equal. exact (tick _ _ T1).
  - destruct c as [c|]; cbn [op_ok] in K.
    + assert (EH : holds c (snd (fetch dum s)) = cond c (abs s)) by (rewrite cond_hold by exact K; reflexivity).
      destruct (fetch dum s) as [j s1]. cbn [snd] in *. rewrite EH. destruct (cond c (abs s)); [|rewrite T1; exact T].
      rewrite tc_ct. f_equal. exact (tick _ _ T1).
    + destruct (fetch dum s) as [j s1]. cbn [snd] in *. change (tc (jrel j s1)) with (tc s1). rewrite T1. exact T.
  - destruct c as [c|].
    + assert (EH : holds c (snd (fetch2 dum s)) = cond c (abs s)) by (rewrite cond_hold by exact K; reflexivity).
      destruct (fetch2 dum s) as [j s1]. cbn [snd] in *. rewrite EH. destruct (cond c (abs s)); rewrite ?tc_PC, T2; exact T.
    + destruct (fetch2 dum s) as [j s1]. cbn [snd] in *. rewrite tc_PC, T2. exact T.
  - assert (TP : forall v, tc (snd (fetch2 dum (push2 lim ipc v s))) = (ticks s, false)) by (intros; rewrite tc_fetch2, tc_push2; exact T).
    specialize (TP (PC s + 2)). destruct c as [c|].
    + cbn [op_ok] in K. rewrite cond_hold by exact K. destruct (cond c (abs s)).
      * destruct (fetch2 dum (push2 lim ipc (PC s + 2) s)) as [a s1]. cbn [snd] in *. rewrite tc_ct. f_equal. exact (tick _ _ TP).
      * destruct (fetch2 dum s). cbn [snd] in *. rewrite T2. exact T.
    + destruct (fetch2 dum (push2 lim ipc (PC s + 2) s)) as [a s1]. cbn [snd] in *. rewrite tc_PC. exact TP.
  - destruct c as [c|].
    + cbn [op_ok] in K. rewrite cond_hold by exact K. destruct (cond c (abs s)); [|exact T].
      destruct (pop2 dum s) as [a s1]. cbn [snd] in *. rewrite tc_ct. f_equal. exact (tick _ _ T3).
    + destruct (pop2 dum s) as [a s1]. cbn [snd] in *. rewrite tc_PC, T3. exact T.
  - cbn [snd]. rewrite tc_PC, tc_push2. exact T.
  - destruct (r =? 6); exact T.
  - cbn [snd]. rewrite tc_wR, tc_wr. exact T.
  - cbn [snd]. rewrite tc_wR, tc_wr. exact T.
  - cbn [snd]. rewrite tc_orF, tc_block_ld. exact T.
  - cbn [snd]. rewrite tc_orF, tc_block_ld. exact T.
  - cbn [snd]. rewrite tc_again. change (ticks (orF ?c ?m ?q)) with (ticks q). change (ct (orF ?c ?m ?q)) with (ct q).
    rewrite (tick _ _ (tc_block_ld 1 s)), (ctk _ _ (tc_block_ld 1 s)), ld_left by exact W. cbn [fst snd]. cbn [tc fst snd]. rewrite C. destruct (negb _); reflexivity.
  - cbn [snd]. rewrite tc_again.
    rewrite (tick _ _ (tc_block_ld (-1) s)), (ctk _ _ (tc_block_ld (-1) s)), ld_left by exact W. cbn [tc fst snd]. rewrite C. destruct (negb _); reflexivity.
  - cbn [snd]. unfold cpir. cbv zeta. rewrite tc_again. cbn [ticks ct].
    match goal with |- context [orF _ 4 ?q] => set (s1 := q) end.
    assert (EC : ct s1 = false) by exact C. assert (ET : ticks s1 = ticks s) by reflexivity.
    change (ticks (orF (bc_left s1) 4 s1)) with (ticks s1). change (ct (orF (bc_left s1) 4 s1)) with (ct s1). rewrite EC, ET.
    change (bc_left (orF (bc_left s1) 4 s1)) with (bc_left s1).
    match goal with s1 := wW false BC _ ?q |- _ => set (s2 := q) in s1 end.
    assert (EB : bc_left s1 = negb (pairv false BC (abs s) =? 1)) by exact (dec_bc_left s W).
    rewrite EB. f_equal.
    match goal with |- context [Z.testbit (F ?q) 6] => assert (EZ : Z.testbit (F q) 6 = (acc (abs s) =? mm (abs s) (pairv false HL (abs s)))) end.
    { cbn [F orF set_F]. rewrite Z.lor_spec, bit_fl. unfold s1, s2. cbn [F wW wR2 set_rg set_F]. bits. rewrite rd_mm by exact HW. rewrite sub_eqb. reflexivity. }
    rewrite EZ. destruct (negb _ && negb _); reflexivity.
  - cbn [snd]. unfold cpdr. cbv zeta. rewrite tc_again. rewrite rd_mm by exact HW. rewrite sub_eqb.
    change (A s =? mm (abs s) (Z80Model.W false HL s)) with (acc (abs s) =? mm (abs s) (pairv false HL (abs s))).
    destruct (acc (abs s) =? mm (abs s) (pairv false HL (abs s))); cbn [negb].
    + rewrite !andb_false_r. f_equal. exact C.
    + rewrite !andb_true_r.
      match goal with |- (ticks ?q, if bc_left ?q then true else ct ?q) = _ =>
        assert (EB : bc_left q = negb (pairv false BC (abs s) =? 1)) by exact (dec_bc_left s W); assert (EC : ct q = false) by exact C; assert (ET : ticks q = ticks s) by reflexivity end.
      rewrite EB, EC, ET. destruct (negb _); reflexivity.
  - cbn [snd]. rewrite tc_block_in. exact T.
  - cbn [snd]. rewrite tc_block_in. exact T.
  - cbn [snd]. rewrite tc_again, (b_left_eq _ _ (block_in_sbf 1 s W)), (tick _ _ (tc_block_in 1 s)), (ctk _ _ (tc_block_in 1 s)). cbn [tc fst snd]. rewrite C.
    unfold left_b. change (r (in_block 1 (abs s)) 0) with ((rg s 0 - 1) mod 256). rewrite minus1 by exact B0. cbn [r abs]. destruct (negb _); reflexivity.
  - cbn [snd]. rewrite tc_again, (b_left_eq _ _ (block_in_sbf (-1) s W)), (tick _ _ (tc_block_in (-1) s)), (ctk _ _ (tc_block_in (-1) s)). cbn [tc fst snd]. rewrite C.
    unfold left_b. change (r (in_block (-1) (abs s)) 0) with ((rg s 0 - 1) mod 256). rewrite minus1 by exact B0. cbn [r abs]. destruct (negb _); reflexivity.
  - cbn [snd]. rewrite tc_again. change (ticks (block_out dum 0 1 s)) with (ticks s). change (ct (block_out dum 0 1 s)) with (ct s). rewrite C.
    unfold b_left. change (rg (block_out dum 0 1 s) 0) with ((rg s 0 - 1) mod 256). rewrite minus1 by exact B0. cbn [r abs]. destruct (negb _); reflexivity.
  - cbn [snd]. rewrite tc_again. change (ticks (block_out dum 1 (-1) s)) with (ticks s). change (ct (block_out dum 1 (-1) s)) with (ct s). rewrite C.
    unfold b_left. change (rg (block_out dum 1 (-1) s) 0) with ((rg s 0 - 1) mod 256). rewrite minus1 by exact B0. cbn [r abs]. destruct (negb _); reflexivity.
Qed.
End Z.
