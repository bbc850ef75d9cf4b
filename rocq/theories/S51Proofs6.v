(** One step, runs, and consequences. *)
From Verif Require Import Base S51Model S51Spec S51Obs S51DisModel S51Proofs S51Proofs2 S51Proofs3 S51Proofs4 S51Proofs5.

Definition begin_inst (s : st) : st :=
  mkSt (pc s) (iram s) (sfr s) (xram s) (bank s) (hole s) (noise s) 0 (levels s) false (instpc s) (unknown s).

Lemma op_at G op : wf_cfg G -> ltr G = true -> 0 <= op < 256 -> op_ok G op.
Proof.
  intros HG HL Ho. pose proof (all_ops G HG HL) as H. rewrite Forall_forall in H. apply H.
  apply in_zrange. lia.
Qed.

Lemma same_from_P s a : Rl s a -> Pk s -> same (view s) (fixP a).
Proof.
  intros H HP. pose proof H as (H1 & H2 & H3 & H4 & H5). unfold same, fixP, setflag, with_sfr.
  cbn [a_pc a_iram a_sfr a_xram]. split; [exact H1|]. split; [exact H2|]. split; [|exact H5].
  intros x. destruct (Z.eq_dec x rPSW) as [->|N].
  - rewrite store_same. unfold Pk, P_ok, getA, bit in *. rewrite (H3 rA ltac:(discriminate)) in HP.
    apply Z.bits_inj'. intros n Hn. rewrite set_bit_spec by lia. destruct (n =? 0) eqn:E.
    + apply Z.eqb_eq in E. subst n. exact HP.
    + apply Z.eqb_neq in E. apply H4. lia.
  - rewrite store_other by exact N. apply H3. exact N.
Qed.

Lemma step_ok G s a' : wf_cfg G -> ltr G = true -> wf s ->
  step (rom G) (isize G) (view s) = Some a' -> differs_at (rom G) (view s) = false ->
  wf (inst_step G s) /\ same_but_P (view (inst_step G s)) a' /\
  (P_ok (view s) -> writes_psw_at (rom G) (view s) = false ->
     same (view (inst_step G s)) a' /\ P_ok (view (inst_step G s))) /\
  cycles_at (rom G) (view s) = Some (insts (inst_step G s)).
Proof.
  intros HG HL W E D. pose proof W as (Hp & _). pose proof HG as [HR _].
  change (inst_step G s) with (exec_inst G (begin_inst s)).
  assert (W0 : wf (begin_inst s)) by exact W.
  unfold exec_inst. rewrite fetch_eq by exact W0. cbn [pc begin_inst].
  unfold step, differs_at, writes_psw_at, cycles_at, decode_at, byte_at in *. cbn [view a_pc] in *.
  rewrite (Z.mod_small (pc s + 0)) in * by lia. rewrite Z.add_0_r in *.
  set (op := rom G (pc s)) in *. pose proof (op_at G op HG HL (HR (pc s))) as Ho. unfold op_ok in Ho.
  destruct (itab G op) as [f|].
  - destruct Ho as (ins & len & cyc & Hd & Hi). rewrite Hd in *. cbn [obind] in *.
    set (b1 := rom G ((pc s + 1) mod 65536)) in *. set (b2 := rom G ((pc s + 2) mod 65536)) in *.
    ob E a1 Ea. apply some_eq in E. subst a'.
    set (t := tick 1 (set_pc (begin_inst s) ((pc s + 1) mod 65536))).
    assert (Wt : wf t).
    { apply wf_tick, wf_set_pc; [exact W0|apply Z.mod_pos_bound; lia]. }
    specialize (Hi t). cbv zeta in Hi. change (pc t) with ((pc s + 1) mod 65536) in Hi.
    assert (E1 : ((pc s + 1) mod 65536 + 1) mod 65536 = (pc s + 2) mod 65536).
    { rewrite Z.add_mod_idemp_l by lia. f_equal. lia. }
    rewrite E1 in Hi. fold b1 b2 in Hi.
    assert (E2 : with_pc (view t) ((pc s + 1) mod 65536 + (len - 1)) = with_pc (view s) (pc s + len)).
    { unfold with_pc, view. cbn [a_pc a_iram a_sfr a_xram pc iram sfr xram tick set_pc t begin_inst].
      f_equal. rewrite Z.add_mod_idemp_l by lia. f_equal. lia. }
    rewrite E2 in Hi. destruct (Hi a1 Wt Ea D) as (P1 & P2 & P3 & P4).
    split; [exact P1|]. split; [apply Rl_fixP; exact P2|]. split.
    + intros HP HF. specialize (P3 HP HF). split; [apply same_from_P; assumption|exact P3].
    + f_equal. rewrite P4. change (insts t) with 1. lia.
  - exfalso. rewrite Ho in E. vm_compute in E. discriminate E.
Qed.


Lemma steps_snoc G n s : steps G (S n) s = inst_step G (steps G n s).
Proof. revert s. induction n as [|n IH]; intros s; [reflexivity|]. cbn [steps] in *. rewrite <- IH. reflexivity. Qed.
Lemma steps_add G m n s : steps G (m + n) s = steps G n (steps G m s).
Proof. revert s. induction m as [|m IH]; intros s; [reflexivity|]. cbn [steps Nat.add]. apply IH. Qed.

Lemma run_ok G s n : wf_cfg G -> ltr G = true -> wf s -> P_ok (view s) ->
  (forall k, (k < n)%nat -> let a := view (steps G k s) in
     step (rom G) (isize G) a <> None /\ differs_at (rom G) a = false /\ writes_psw_at (rom G) a = false) ->
  wf (steps G n s) /\ P_ok (view (steps G n s)) /\
  forall k, (k < n)%nat -> exists a', step (rom G) (isize G) (view (steps G k s)) = Some a' /\ same (view (steps G (S k) s)) a'.
Proof.
  intros HG HL W HP. induction n as [|n IH]; intros H.
  - split; [exact W|]. split; [exact HP|]. intros k Hk. lia.
  - destruct IH as (W1 & P1 & T1); [intros k Hk; apply H; lia|].
    destruct (H n (Nat.lt_succ_diag_r n)) as (A1 & A2 & A3).
    destruct (step (rom G) (isize G) (view (steps G n s))) as [a'|] eqn:E; [|contradiction A1; reflexivity].
    destruct (step_ok G (steps G n s) a' HG HL W1 E A2) as (B1 & B2 & B3 & B4).
    destruct (B3 P1 A3) as (C1 & C2).
    rewrite steps_snoc. split; [exact B1|]. split; [exact C2|].
    intros k Hk. destruct (Nat.eq_dec k n) as [->|N].
    + exists a'. rewrite steps_snoc. split; [exact E|exact C1].
    + apply T1. lia.
Qed.

(* ------------------------------------------------------------ the program counter *)
(** like wf, but the program counter may be 10000h *)
Notation wk := any_state.

Lemma wf_wk s : wf s -> wk s.
Proof. intros W. split; [apply wf_set_pc; [exact W|lia]|]. destruct W as (H & _). lia. Qed.
Lemma wk_set_pc s v : wf s -> 0 <= v <= 65536 -> wk (set_pc s v).
Proof. intros W H. split; [|exact H]. exact (wf_set_pc s 0 W ltac:(lia)). Qed.
Lemma wk_tick s n : wk s -> wk (tick n s).
Proof. intros H. exact H. Qed.
Lemma wk_levels s l r : wk s -> wk (set_levels s l r).
Proof. intros H. exact H. Qed.
Lemma wk_unknown s : wk s -> wk (inst_unknown s).
Proof. intros H. exact H. Qed.
Lemma wf_c_write G s c v : wf s -> wf (c_write G s c v).
Proof.
  intros W. destruct c; cbn [c_write].
  - apply wf_set_iram; [exact W|apply u8_range].
  - apply wf_sfr_write. exact W.
  - apply wf_set_hole; [exact W|]. rewrite land_ff. apply Z.mod_pos_bound. lia.
Qed.
Lemma wf_bits_write s b v : wf s -> 0 <= b < 256 -> wf (bits_write s b v).
Proof.
  intros W Hb. destruct (Z_lt_le_dec b 128) as [L|L].
  - unfold bits_write. rewrite (proj2 (Z.ltb_lt b 128)) by exact L. rewrite bits_set_eq by exact Hb.
    rewrite (proj2 (Z.ltb_lt b 128)) by exact L. pose proof W as (_ & H2 & _).
    apply wf_set_iram; [exact W|apply set_bit_byte; [apply H2|lia]].
  - apply bits_write_high; [exact W|lia].
Qed.
Lemma wf_bits_cy s v : wf s -> wf (bits_set s 0xd7 v).
Proof. intros W. rewrite bits_set_cy. apply wf_flag; [exact W|lia..]. Qed.
Lemma wf_psw_bit s v k m : wf s -> m = Z.shiftl 1 k -> 0 <= k < 8 -> k <> 3 -> k <> 4 -> wf (SFR_SET_BIT v PSW m s).
Proof. intros W E H1 H2 H3. rewrite (SFR_SET_BIT_eq s v k m W E H1). apply wf_flag; assumption. Qed.
Lemma wf_OV s v : wf s -> wf (SFR_SET_BIT v PSW bmOV s).
Proof. intros W. apply (wf_psw_bit s v 2); [exact W|reflexivity|lia..]. Qed.
Lemma wf_AC s v : wf s -> wf (SFR_SET_BIT v PSW bmAC s).
Proof. intros W. apply (wf_psw_bit s v 6); [exact W|reflexivity|lia..]. Qed.
Lemma wf_CY s v : wf s -> wf (SFR_SET_BIT v PSW bmCY s).
Proof. intros W. apply (wf_psw_bit s v 7); [exact W|reflexivity|lia..]. Qed.
Lemma wf_dptr s i v : wf s -> 0 <= i <= 1 -> wf (dptr_write s i v).
Proof. intros W H. apply wf_sfr_put; [exact W|]. unfold DPL, PSW. lia. Qed.
Lemma wf_push G s v : wf s -> wf (push_byte G s v).
Proof. intros W. unfold push_byte. apply wf_c_write, wf_sfr_write. exact W. Qed.
Lemma wf_next s : wf s -> wf (set_pc s ((pc s + 1) mod 65536)).
Proof. intros W. apply wf_set_pc; [exact W|apply Z.mod_pos_bound; lia]. Qed.
Lemma wk_rel s j : wf s -> wk (rel s j).
Proof.
  intros W. apply wk_set_pc; [exact W|]. unfold validate_address, u32.
  set (t := (pc s + i8 j) mod 4294967296). assert (H : 0 <= t < 4294967296) by (apply Z.mod_pos_bound; lia).
  destruct (0x10000 <? t) eqn:E; [|apply Z.ltb_ge in E; lia].
  pose proof (Z.mod_pos_bound t 0x10000 ltac:(lia)). lia.
Qed.
Lemma c_read_byte s c : wf s -> 0 <= c_read s c < 256.
Proof. intros (_ & H2 & H3 & _ & H5 & _). destruct c; cbn [c_read]; auto. Qed.
Lemma wf_cjne s x d j : wf s -> wk (cjne s x d j).
Proof.
  intros W. unfold cjne. cbv zeta. destruct (x =? d); [apply wf_wk|apply wk_rel]; apply wf_bits_cy; exact W.
Qed.
Lemma wf_subb_psw s data c r : wf s -> wf (sfr_put s PSW (subb_psw (sfr s PSW) (acc s) data c r)).
Proof.
  intros W. pose proof W as (_ & _ & H3 & _). unfold sfr_put. apply wf_set_sfr; [exact W|apply u8_range|].
  intros _. apply bank_by_bits; [apply u8_range|apply H3| |]; rewrite u8_bit by lia; unfold subb_psw;
    rewrite !Z.lor_spec, Z.land_spec, Z.lnot_spec by lia;
    destruct (acc s <? data + c), (((acc s <? 128) && (127 <? data) && (127 <? r)) || ((127 <? acc s) && (data <? 128) && (r <? 128))),
      ((Z.land (acc s) 15 <? Z.land (data + c) 15) || (negb (c =? 0) && (Z.land data 15 =? 15))); cbn;
    rewrite ?andb_true_r, ?orb_false_r; reflexivity.
Qed.

Ltac wfs :=
  match goal with
  | H : wf ?s |- wf ?s => exact H
  | |- wf (c_write _ _ _ _) => apply wf_c_write; wfs
  | |- wf (sfr_write _ _ _) => apply wf_sfr_write; wfs
  | |- wf (tick _ _) => apply wf_tick; wfs
  | |- wf (bits_set _ 0xd7 _) => apply wf_bits_cy; wfs
  | |- wf (SFR_SET_BIT _ PSW bmOV _) => apply wf_OV; wfs
  | |- wf (SFR_SET_BIT _ PSW bmAC _) => apply wf_AC; wfs
  | |- wf (SFR_SET_BIT _ PSW bmCY _) => apply wf_CY; wfs
  | |- wf (push_byte _ _ _) => apply wf_push; wfs
  | |- wf (set_pc ?s ((pc ?s + 1) mod 65536)) => apply wf_next; wfs
  | |- wf (dptr_write _ _ _) => apply wf_dptr; [wfs|lia]
  | |- wf (sfr_put ?s PSW (subb_psw (sfr ?s PSW) (sfr ?s ACC) _ _ _)) => apply wf_subb_psw; wfs
  | |- wf (bits_write _ _ _) => apply wf_bits_write; [wfs|solve [auto|lia]]
  | |- wf (set_xram _ _ _) => apply wf_set_xram; [wfs|solve [auto]]
  | |- wf (if ?b then _ else _) => destruct b; wfs
  end.
Ltac wks :=
  match goal with
  | |- wk (rel _ _) => apply wk_rel; wfs
  | |- wk (tick _ _) => apply wk_tick; wks
  | |- wk (set_levels _ _ _) => apply wk_levels; wks
  | |- wk (inst_unknown _) => apply wk_unknown; wks
  | |- wk (cjne _ _ _ _) => apply wf_cjne; wfs
  | |- wk (if ?b then _ else _) => destruct b; wks
  | _ => apply wf_wk; wfs
  end.

(** [f] keeps states well formed *)
Definition safe_op (G : cfg) (f : Z -> st -> st) : Prop := forall code s, 0 <= code < 256 -> wf s -> wk (f code s).

Ltac sop := let W := fresh "W" in let HG := fresh "HG" in
  intros HG code s Hcode W; pose proof W as (_ & HBI & HBS & _).
Ltac ft W :=
  repeat match goal with
  | |- context [fetch ?G ?t] => rewrite (fetch_eq G t) by wfs; cbv beta iota
  end.

Lemma code_lt G : wf_cfg G -> forall a, 0 <= rom G a < 256. Proof. intros [H _]. exact H. Qed.
