(** Which instructions touch the list of interrupt levels and was_reti. The
    lemmas F_xx are one per instruction function. *)
From Verif Require Import Base S51Model S51Spec S51Obs S51Proofs S51Proofs2 S51Proofs3 S51Proofs4 S51Proofs5 S51Proofs6 S51Proofs7 S51Proofs8 S51Proofs9 S51IrqModel.

Definition cell_ie (c : cell) : bool := match c with CSfr a => a =? IE | _ => false end.
Definition bit_ie (b : Z) : bool := (128 <=? b) && (Z.land b 0xf8 =? IE).
Lemma wt_sfr_write s a v : was_reti (sfr_write s a v) = was_reti s || (a =? IE) /\ levels (sfr_write s a v) = levels s.
Proof.
  unfold sfr_write, sfr_put, acc_written. destruct (a =? IE), (a =? ACC), (a =? PSW); split; try reflexivity;
    cbn [was_reti set_sfr set_bank set_levels]; (apply orb_true_r || (symmetry; apply orb_true_r) || (symmetry; apply orb_false_r)).
Qed.
Lemma wt_c_write G s c v : was_reti (c_write G s c v) = was_reti s || cell_ie c /\ levels (c_write G s c v) = levels s.
Proof.
  destruct c; cbn [c_write cell_ie]; [split; [symmetry; apply orb_false_r|reflexivity]|apply wt_sfr_write|].
  split; [symmetry; apply orb_false_r|reflexivity].
Qed.
Lemma wt_bits_set s b v : was_reti (bits_set s b v) = was_reti s /\ levels (bits_set s b v) = levels s.
Proof. unfold bits_set. destruct (b <? 128); split; reflexivity. Qed.
Lemma wt_bits_write s b v : was_reti (bits_write s b v) = was_reti s || bit_ie b /\ levels (bits_write s b v) = levels s.
Proof.
  unfold bits_write, bit_ie. rewrite Z.leb_antisym. destruct (b <? 128); cbn [negb andb].
  - destruct (wt_bits_set s b v) as [-> ->]. rewrite orb_false_r. split; reflexivity.
  - cbv zeta. rewrite (proj1 (wt_bits_set _ b v)), (proj2 (wt_bits_set _ b v)).
    destruct (_ =? ACC); [|apply wt_sfr_write]. unfold acc_written. cbn [was_reti levels set_sfr].
    rewrite (proj1 (wt_bits_set _ b v)), (proj2 (wt_bits_set _ b v)). apply wt_sfr_write.
Qed.
Lemma wt_SSB v r m s : was_reti (SFR_SET_BIT v r m s) = was_reti s /\ levels (SFR_SET_BIT v r m s) = levels s.
Proof. unfold SFR_SET_BIT. destruct (v =? 0); split; reflexivity. Qed.
Lemma ie_iram_cell G a : cell_ie (iram_cell G a) = false.
Proof. unfold iram_cell. destruct (_ <? _); reflexivity. Qed.
Lemma ie_direct G a : cell_ie (get_direct G a) = (a =? IE).
Proof.
  unfold get_direct. destruct (Z.ltb_spec a 0x80).
  - rewrite ie_iram_cell. symmetry. apply Z.eqb_neq. unfold IE. lia.
  - reflexivity.
Qed.
Lemma wt_push G s v : was_reti (push_byte G s v) = was_reti s /\ levels (push_byte G s v) = levels s.
Proof.
  unfold push_byte. rewrite (proj1 (wt_c_write G _ _ _)), (proj2 (wt_c_write G _ _ _)), ie_iram_cell, orb_false_r.
  destruct (wt_sfr_write s SP (sfr s SP + 1)) as [-> ->]. change (SP =? IE) with false. rewrite orb_false_r. split; reflexivity.
Qed.
Lemma wt_tick n s : was_reti (tick n s) = was_reti s. Proof. reflexivity. Qed.
Lemma wt_set_pc s v : was_reti (set_pc s v) = was_reti s. Proof. reflexivity. Qed.
Lemma wt_rel s v : was_reti (rel s v) = was_reti s. Proof. reflexivity. Qed.
Lemma wt_dptr s i v : was_reti (dptr_write s i v) = was_reti s. Proof. reflexivity. Qed.
Lemma wt_put s i v : was_reti (sfr_put s i v) = was_reti s. Proof. reflexivity. Qed.
Lemma wt_unk s : was_reti (inst_unknown s) = was_reti s. Proof. reflexivity. Qed.
Lemma wt_xram s i v : was_reti (set_xram s i v) = was_reti s. Proof. reflexivity. Qed.
Lemma lv_tick n s : levels (tick n s) = levels s. Proof. reflexivity. Qed.
Lemma lv_set_pc s v : levels (set_pc s v) = levels s. Proof. reflexivity. Qed.
Lemma lv_rel s v : levels (rel s v) = levels s. Proof. reflexivity. Qed.
Lemma lv_dptr s i v : levels (dptr_write s i v) = levels s. Proof. reflexivity. Qed.
Lemma lv_put s i v : levels (sfr_put s i v) = levels s. Proof. reflexivity. Qed.
Lemma lv_unk s : levels (inst_unknown s) = levels s. Proof. reflexivity. Qed.
Lemma lv_xram s i v : levels (set_xram s i v) = levels s. Proof. reflexivity. Qed.
Ltac wrt1 :=
  match goal with
  | |- context [was_reti (if ?b then _ else _)] => destruct b
  | |- context [was_reti (tick _ _)] => rewrite wt_tick
  | |- context [was_reti (set_pc _ _)] => rewrite wt_set_pc
  | |- context [was_reti (rel _ _)] => rewrite wt_rel
  | |- context [was_reti (dptr_write _ _ _)] => rewrite wt_dptr
  | |- context [was_reti (sfr_put _ _ _)] => rewrite wt_put
  | |- context [was_reti (inst_unknown _)] => rewrite wt_unk
  | |- context [was_reti (set_xram _ _ _)] => rewrite wt_xram
  | |- context [was_reti (push_byte ?G ?s ?v)] => rewrite (proj1 (wt_push G s v))
  | |- context [was_reti (SFR_SET_BIT ?a ?b ?c ?d)] => rewrite (proj1 (wt_SSB a b c d))
  | |- context [was_reti (bits_write ?s ?b ?v)] => rewrite (proj1 (wt_bits_write s b v))
  | |- context [was_reti (bits_set ?s ?b ?v)] => rewrite (proj1 (wt_bits_set s b v))
  | |- context [was_reti (c_write ?G ?s ?c ?v)] => rewrite (proj1 (wt_c_write G s c v))
  | |- context [was_reti (sfr_write ?s ?a ?v)] => rewrite (proj1 (wt_sfr_write s a v))
  | |- context [cell_ie (get_direct _ _)] => rewrite ie_direct
  | |- context [cell_ie (iram_cell _ _)] => rewrite ie_iram_cell
  | |- context [cell_ie (R _ _)] => change (cell_ie (R _ _)) with false
  | |- context [cell_ie (Rn ?a ?b)] => change (cell_ie (Rn a b)) with false
  | |- context [cell_ie (at_Ri ?g ?a ?b)] => change (cell_ie (at_Ri g a b)) with (cell_ie (iram_cell g (c_read a (R a (Z.land b 1)))))
  | |- context [ACC =? IE] => change (ACC =? IE) with false
  | |- context [PSW =? IE] => change (PSW =? IE) with false
  | |- context [SFR_B =? IE] => change (SFR_B =? IE) with false
  | |- context [SP =? IE] => change (SP =? IE) with false
  | |- context [bit_ie 0xd7] => change (bit_ie 0xd7) with false
  | |- context [?x || false] => rewrite (orb_false_r x)
  end.
Ltac lev1 :=
  match goal with
  | |- context [levels (if ?b then _ else _)] => destruct b
  | |- context [levels (tick _ _)] => rewrite lv_tick
  | |- context [levels (set_pc _ _)] => rewrite lv_set_pc
  | |- context [levels (rel _ _)] => rewrite lv_rel
  | |- context [levels (dptr_write _ _ _)] => rewrite lv_dptr
  | |- context [levels (sfr_put _ _ _)] => rewrite lv_put
  | |- context [levels (inst_unknown _)] => rewrite lv_unk
  | |- context [levels (set_xram _ _ _)] => rewrite lv_xram
  | |- context [levels (push_byte ?G ?s ?v)] => rewrite (proj2 (wt_push G s v))
  | |- context [levels (SFR_SET_BIT ?a ?b ?c ?d)] => rewrite (proj2 (wt_SSB a b c d))
  | |- context [levels (bits_write ?s ?b ?v)] => rewrite (proj2 (wt_bits_write s b v))
  | |- context [levels (bits_set ?s ?b ?v)] => rewrite (proj2 (wt_bits_set s b v))
  | |- context [levels (c_write ?G ?s ?c ?v)] => rewrite (proj2 (wt_c_write G s c v))
  | |- context [levels (sfr_write ?s ?a ?v)] => rewrite (proj2 (wt_sfr_write s a v))
  end.

Definition hit (op b1 b2 : Z) (s : st) : bool :=
  match op with
  | 0x05 | 0x15 | 0x42 | 0x43 | 0x52 | 0x53 | 0x62 | 0x63 | 0x75 | 0x86 | 0x87 | 0xc5 | 0xd0 | 0xd5 | 0xf5 => b1 =? IE
  | 0x88 | 0x89 | 0x8a | 0x8b | 0x8c | 0x8d | 0x8e | 0x8f => b1 =? IE
  | 0x85 => b2 =? IE
  | 0x92 | 0xb2 | 0xc2 | 0xd2 => bit_ie b1
  | 0x10 => bit_ie b1 && negb (bits_get s b1 =? 0)
  | _ => false
  end.
Definition opb (G : cfg) (s : st) : Z := rom_read G s (pc s).
Definition opc (G : cfg) (s : st) : Z := rom_read G s (Z.land (u32 (pc s + 1)) 0xffff).
Lemma F_00 (G : cfg) code s : was_reti (instruction_00 code s) = was_reti s || false /\ levels (instruction_00 code s) = levels s.
Proof. split; unfold instruction_00, do_add, do_addc, do_subb_set, do_subb_write, xch, cjne, acc_write, acc, fetch; cbv zeta beta iota; repeat (wrt1 || lev1); reflexivity. Qed.
Lemma F_01 (G : cfg) code s : was_reti (instruction_01 G code s) = was_reti s || false /\ levels (instruction_01 G code s) = levels s.
Proof. split; unfold instruction_01, do_add, do_addc, do_subb_set, do_subb_write, xch, cjne, acc_write, acc, fetch; cbv zeta beta iota; repeat (wrt1 || lev1); reflexivity. Qed.
Lemma F_02 (G : cfg) code s : was_reti (instruction_02 G code s) = was_reti s || false /\ levels (instruction_02 G code s) = levels s.
Proof. split; unfold instruction_02, do_add, do_addc, do_subb_set, do_subb_write, xch, cjne, acc_write, acc, fetch; cbv zeta beta iota; repeat (wrt1 || lev1); reflexivity. Qed.
Lemma F_03 (G : cfg) code s : was_reti (instruction_03 code s) = was_reti s || false /\ levels (instruction_03 code s) = levels s.
Proof. split; unfold instruction_03, do_add, do_addc, do_subb_set, do_subb_write, xch, cjne, acc_write, acc, fetch; cbv zeta beta iota; repeat (wrt1 || lev1); reflexivity. Qed.
Lemma F_04 (G : cfg) code s : was_reti (instruction_04 code s) = was_reti s || false /\ levels (instruction_04 code s) = levels s.
Proof. split; unfold instruction_04, do_add, do_addc, do_subb_set, do_subb_write, xch, cjne, acc_write, acc, fetch; cbv zeta beta iota; repeat (wrt1 || lev1); reflexivity. Qed.
Lemma F_05 (G : cfg) code s : was_reti (instruction_05 G code s) = was_reti s || (opb G s =? IE) /\ levels (instruction_05 G code s) = levels s.
Proof. split; unfold instruction_05, do_add, do_addc, do_subb_set, do_subb_write, xch, cjne, acc_write, acc, fetch; cbv zeta beta iota; repeat (wrt1 || lev1); reflexivity. Qed.
Lemma F_06 (G : cfg) code s : was_reti (instruction_06 G code s) = was_reti s || false /\ levels (instruction_06 G code s) = levels s.
Proof. split; unfold instruction_06, do_add, do_addc, do_subb_set, do_subb_write, xch, cjne, acc_write, acc, fetch; cbv zeta beta iota; repeat (wrt1 || lev1); reflexivity. Qed.
Lemma F_08 (G : cfg) code s : was_reti (instruction_08 G code s) = was_reti s || false /\ levels (instruction_08 G code s) = levels s.
Proof. split; unfold instruction_08, do_add, do_addc, do_subb_set, do_subb_write, xch, cjne, acc_write, acc, fetch; cbv zeta beta iota; repeat (wrt1 || lev1); reflexivity. Qed.
Lemma F_10 G code s : was_reti (instruction_10 G code s) = was_reti s || (bit_ie (opb G s) && negb (bits_get s (opb G s) =? 0)) /\ levels (instruction_10 G code s) = levels s.
Proof.
  unfold instruction_10, fetch, opb. cbv zeta beta iota. rewrite wt_tick, lv_tick.
  match goal with |- context [bits_get (set_pc (set_pc s ?x) ?y) ?b] => change (bits_get (set_pc (set_pc s x) y) b) with (bits_get s b) end.
  destruct (_ =? 0); cbn [negb]; [rewrite andb_false_r|rewrite andb_true_r]; split; repeat wrt1; repeat lev1; reflexivity.
Qed.
Lemma F_11 (G : cfg) code s : was_reti (instruction_11 G code s) = was_reti s || false /\ levels (instruction_11 G code s) = levels s.
Proof. split; unfold instruction_11, do_add, do_addc, do_subb_set, do_subb_write, xch, cjne, acc_write, acc, fetch; cbv zeta beta iota; repeat (wrt1 || lev1); reflexivity. Qed.
Lemma F_12 (G : cfg) code s : was_reti (instruction_12 G code s) = was_reti s || false /\ levels (instruction_12 G code s) = levels s.
Proof. split; unfold instruction_12, inst_lcall, do_add, do_addc, do_subb_set, do_subb_write, xch, cjne, acc_write, acc, fetch; cbv zeta beta iota; change (0 =? 0) with true; cbv iota beta; repeat (wrt1 || lev1); reflexivity. Qed.
Lemma F_13 (G : cfg) code s : was_reti (instruction_13 code s) = was_reti s || false /\ levels (instruction_13 code s) = levels s.
Proof. split; unfold instruction_13, do_add, do_addc, do_subb_set, do_subb_write, xch, cjne, acc_write, acc, fetch; cbv zeta beta iota; repeat (wrt1 || lev1); reflexivity. Qed.
Lemma F_14 (G : cfg) code s : was_reti (instruction_14 code s) = was_reti s || false /\ levels (instruction_14 code s) = levels s.
Proof. split; unfold instruction_14, do_add, do_addc, do_subb_set, do_subb_write, xch, cjne, acc_write, acc, fetch; cbv zeta beta iota; repeat (wrt1 || lev1); reflexivity. Qed.
Lemma F_15 (G : cfg) code s : was_reti (instruction_15 G code s) = was_reti s || (opb G s =? IE) /\ levels (instruction_15 G code s) = levels s.
Proof. split; unfold instruction_15, do_add, do_addc, do_subb_set, do_subb_write, xch, cjne, acc_write, acc, fetch; cbv zeta beta iota; repeat (wrt1 || lev1); reflexivity. Qed.
Lemma F_16 (G : cfg) code s : was_reti (instruction_16 G code s) = was_reti s || false /\ levels (instruction_16 G code s) = levels s.
Proof. split; unfold instruction_16, do_add, do_addc, do_subb_set, do_subb_write, xch, cjne, acc_write, acc, fetch; cbv zeta beta iota; repeat (wrt1 || lev1); reflexivity. Qed.
Lemma F_18 (G : cfg) code s : was_reti (instruction_18 G code s) = was_reti s || false /\ levels (instruction_18 G code s) = levels s.
Proof. split; unfold instruction_18, do_add, do_addc, do_subb_set, do_subb_write, xch, cjne, acc_write, acc, fetch; cbv zeta beta iota; repeat (wrt1 || lev1); reflexivity. Qed.
Lemma F_20 (G : cfg) code s : was_reti (instruction_20 G code s) = was_reti s || false /\ levels (instruction_20 G code s) = levels s.
Proof. split; unfold instruction_20, do_add, do_addc, do_subb_set, do_subb_write, xch, cjne, acc_write, acc, fetch; cbv zeta beta iota; repeat (wrt1 || lev1); reflexivity. Qed.
Lemma F_22 (G : cfg) code s : was_reti (instruction_22 G code s) = was_reti s || false /\ levels (instruction_22 G code s) = levels s.
Proof. split; unfold instruction_22, do_add, do_addc, do_subb_set, do_subb_write, xch, cjne, acc_write, acc, fetch; cbv zeta beta iota; repeat (wrt1 || lev1); reflexivity. Qed.
Lemma F_23 (G : cfg) code s : was_reti (instruction_23 code s) = was_reti s || false /\ levels (instruction_23 code s) = levels s.
Proof. split; unfold instruction_23, do_add, do_addc, do_subb_set, do_subb_write, xch, cjne, acc_write, acc, fetch; cbv zeta beta iota; repeat (wrt1 || lev1); reflexivity. Qed.
Lemma F_24 (G : cfg) code s : was_reti (instruction_24 G code s) = was_reti s || false /\ levels (instruction_24 G code s) = levels s.
Proof. split; unfold instruction_24, do_add, do_addc, do_subb_set, do_subb_write, xch, cjne, acc_write, acc, fetch; cbv zeta beta iota; repeat (wrt1 || lev1); reflexivity. Qed.
Lemma F_25 (G : cfg) code s : was_reti (instruction_25 G code s) = was_reti s || false /\ levels (instruction_25 G code s) = levels s.
Proof. split; unfold instruction_25, do_add, do_addc, do_subb_set, do_subb_write, xch, cjne, acc_write, acc, fetch; cbv zeta beta iota; repeat (wrt1 || lev1); reflexivity. Qed.
Lemma F_26 (G : cfg) code s : was_reti (instruction_26 G code s) = was_reti s || false /\ levels (instruction_26 G code s) = levels s.
Proof. split; unfold instruction_26, do_add, do_addc, do_subb_set, do_subb_write, xch, cjne, acc_write, acc, fetch; cbv zeta beta iota; repeat (wrt1 || lev1); reflexivity. Qed.
Lemma F_28 (G : cfg) code s : was_reti (instruction_28 code s) = was_reti s || false /\ levels (instruction_28 code s) = levels s.
Proof. split; unfold instruction_28, do_add, do_addc, do_subb_set, do_subb_write, xch, cjne, acc_write, acc, fetch; cbv zeta beta iota; repeat (wrt1 || lev1); reflexivity. Qed.
Lemma F_30 (G : cfg) code s : was_reti (instruction_30 G code s) = was_reti s || false /\ levels (instruction_30 G code s) = levels s.
Proof. split; unfold instruction_30, do_add, do_addc, do_subb_set, do_subb_write, xch, cjne, acc_write, acc, fetch; cbv zeta beta iota; repeat (wrt1 || lev1); reflexivity. Qed.
Lemma F_32 G code s : was_reti (instruction_32 G code s) = true /\ levels (instruction_32 G code s) = tl (levels s).
Proof. split; [reflexivity|]. unfold instruction_32, instruction_22. cbv zeta. cbn [levels set_levels]. repeat lev1. reflexivity. Qed.
Lemma F_33 (G : cfg) code s : was_reti (instruction_33 code s) = was_reti s || false /\ levels (instruction_33 code s) = levels s.
Proof. split; unfold instruction_33, do_add, do_addc, do_subb_set, do_subb_write, xch, cjne, acc_write, acc, fetch; cbv zeta beta iota; repeat (wrt1 || lev1); reflexivity. Qed.
Lemma F_34 (G : cfg) code s : was_reti (instruction_34 G code s) = was_reti s || false /\ levels (instruction_34 G code s) = levels s.
Proof. split; unfold instruction_34, do_add, do_addc, do_subb_set, do_subb_write, xch, cjne, acc_write, acc, fetch; cbv zeta beta iota; repeat (wrt1 || lev1); reflexivity. Qed.
Lemma F_35 (G : cfg) code s : was_reti (instruction_35 G code s) = was_reti s || false /\ levels (instruction_35 G code s) = levels s.
Proof. split; unfold instruction_35, do_add, do_addc, do_subb_set, do_subb_write, xch, cjne, acc_write, acc, fetch; cbv zeta beta iota; repeat (wrt1 || lev1); reflexivity. Qed.
Lemma F_36 (G : cfg) code s : was_reti (instruction_36 G code s) = was_reti s || false /\ levels (instruction_36 G code s) = levels s.
Proof. split; unfold instruction_36, do_add, do_addc, do_subb_set, do_subb_write, xch, cjne, acc_write, acc, fetch; cbv zeta beta iota; repeat (wrt1 || lev1); reflexivity. Qed.
Lemma F_38 (G : cfg) code s : was_reti (instruction_38 code s) = was_reti s || false /\ levels (instruction_38 code s) = levels s.
Proof. split; unfold instruction_38, do_add, do_addc, do_subb_set, do_subb_write, xch, cjne, acc_write, acc, fetch; cbv zeta beta iota; repeat (wrt1 || lev1); reflexivity. Qed.
Lemma F_40 (G : cfg) code s : was_reti (instruction_40 G code s) = was_reti s || false /\ levels (instruction_40 G code s) = levels s.
Proof. split; unfold instruction_40, do_add, do_addc, do_subb_set, do_subb_write, xch, cjne, acc_write, acc, fetch; cbv zeta beta iota; repeat (wrt1 || lev1); reflexivity. Qed.
Lemma F_42 (G : cfg) code s : was_reti (instruction_42 G code s) = was_reti s || (opb G s =? IE) /\ levels (instruction_42 G code s) = levels s.
Proof. split; unfold instruction_42, do_add, do_addc, do_subb_set, do_subb_write, xch, cjne, acc_write, acc, fetch; cbv zeta beta iota; repeat (wrt1 || lev1); reflexivity. Qed.
Lemma F_43 (G : cfg) code s : was_reti (instruction_43 G code s) = was_reti s || (opb G s =? IE) /\ levels (instruction_43 G code s) = levels s.
Proof. split; unfold instruction_43, do_add, do_addc, do_subb_set, do_subb_write, xch, cjne, acc_write, acc, fetch; cbv zeta beta iota; repeat (wrt1 || lev1); reflexivity. Qed.
Lemma F_44 (G : cfg) code s : was_reti (instruction_44 G code s) = was_reti s || false /\ levels (instruction_44 G code s) = levels s.
Proof. split; unfold instruction_44, do_add, do_addc, do_subb_set, do_subb_write, xch, cjne, acc_write, acc, fetch; cbv zeta beta iota; repeat (wrt1 || lev1); reflexivity. Qed.
Lemma F_45 (G : cfg) code s : was_reti (instruction_45 G code s) = was_reti s || false /\ levels (instruction_45 G code s) = levels s.
Proof. split; unfold instruction_45, do_add, do_addc, do_subb_set, do_subb_write, xch, cjne, acc_write, acc, fetch; cbv zeta beta iota; repeat (wrt1 || lev1); reflexivity. Qed.
Lemma F_46 (G : cfg) code s : was_reti (instruction_46 G code s) = was_reti s || false /\ levels (instruction_46 G code s) = levels s.
Proof. split; unfold instruction_46, do_add, do_addc, do_subb_set, do_subb_write, xch, cjne, acc_write, acc, fetch; cbv zeta beta iota; repeat (wrt1 || lev1); reflexivity. Qed.
Lemma F_48 (G : cfg) code s : was_reti (instruction_48 code s) = was_reti s || false /\ levels (instruction_48 code s) = levels s.
Proof. split; unfold instruction_48, do_add, do_addc, do_subb_set, do_subb_write, xch, cjne, acc_write, acc, fetch; cbv zeta beta iota; repeat (wrt1 || lev1); reflexivity. Qed.
Lemma F_50 (G : cfg) code s : was_reti (instruction_50 G code s) = was_reti s || false /\ levels (instruction_50 G code s) = levels s.
Proof. split; unfold instruction_50, do_add, do_addc, do_subb_set, do_subb_write, xch, cjne, acc_write, acc, fetch; cbv zeta beta iota; repeat (wrt1 || lev1); reflexivity. Qed.
Lemma F_52 (G : cfg) code s : was_reti (instruction_52 G code s) = was_reti s || (opb G s =? IE) /\ levels (instruction_52 G code s) = levels s.
Proof. split; unfold instruction_52, do_add, do_addc, do_subb_set, do_subb_write, xch, cjne, acc_write, acc, fetch; cbv zeta beta iota; repeat (wrt1 || lev1); reflexivity. Qed.
Lemma F_53 (G : cfg) code s : was_reti (instruction_53 G code s) = was_reti s || (opb G s =? IE) /\ levels (instruction_53 G code s) = levels s.
Proof. split; unfold instruction_53, do_add, do_addc, do_subb_set, do_subb_write, xch, cjne, acc_write, acc, fetch; cbv zeta beta iota; repeat (wrt1 || lev1); reflexivity. Qed.
Lemma F_54 (G : cfg) code s : was_reti (instruction_54 G code s) = was_reti s || false /\ levels (instruction_54 G code s) = levels s.
Proof. split; unfold instruction_54, do_add, do_addc, do_subb_set, do_subb_write, xch, cjne, acc_write, acc, fetch; cbv zeta beta iota; repeat (wrt1 || lev1); reflexivity. Qed.
Lemma F_55 (G : cfg) code s : was_reti (instruction_55 G code s) = was_reti s || false /\ levels (instruction_55 G code s) = levels s.
Proof. split; unfold instruction_55, do_add, do_addc, do_subb_set, do_subb_write, xch, cjne, acc_write, acc, fetch; cbv zeta beta iota; repeat (wrt1 || lev1); reflexivity. Qed.
Lemma F_56 (G : cfg) code s : was_reti (instruction_56 G code s) = was_reti s || false /\ levels (instruction_56 G code s) = levels s.
Proof. split; unfold instruction_56, do_add, do_addc, do_subb_set, do_subb_write, xch, cjne, acc_write, acc, fetch; cbv zeta beta iota; repeat (wrt1 || lev1); reflexivity. Qed.
Lemma F_58 (G : cfg) code s : was_reti (instruction_58 code s) = was_reti s || false /\ levels (instruction_58 code s) = levels s.
Proof. split; unfold instruction_58, do_add, do_addc, do_subb_set, do_subb_write, xch, cjne, acc_write, acc, fetch; cbv zeta beta iota; repeat (wrt1 || lev1); reflexivity. Qed.
Lemma F_60 (G : cfg) code s : was_reti (instruction_60 G code s) = was_reti s || false /\ levels (instruction_60 G code s) = levels s.
Proof. split; unfold instruction_60, do_add, do_addc, do_subb_set, do_subb_write, xch, cjne, acc_write, acc, fetch; cbv zeta beta iota; repeat (wrt1 || lev1); reflexivity. Qed.
Lemma F_62 (G : cfg) code s : was_reti (instruction_62 G code s) = was_reti s || (opb G s =? IE) /\ levels (instruction_62 G code s) = levels s.
Proof. split; unfold instruction_62, do_add, do_addc, do_subb_set, do_subb_write, xch, cjne, acc_write, acc, fetch; cbv zeta beta iota; repeat (wrt1 || lev1); reflexivity. Qed.
Lemma F_63 (G : cfg) code s : was_reti (instruction_63 G code s) = was_reti s || (opb G s =? IE) /\ levels (instruction_63 G code s) = levels s.
Proof. split; unfold instruction_63, do_add, do_addc, do_subb_set, do_subb_write, xch, cjne, acc_write, acc, fetch; cbv zeta beta iota; repeat (wrt1 || lev1); reflexivity. Qed.
Lemma F_64 (G : cfg) code s : was_reti (instruction_64 G code s) = was_reti s || false /\ levels (instruction_64 G code s) = levels s.
Proof. split; unfold instruction_64, do_add, do_addc, do_subb_set, do_subb_write, xch, cjne, acc_write, acc, fetch; cbv zeta beta iota; repeat (wrt1 || lev1); reflexivity. Qed.
Lemma F_65 (G : cfg) code s : was_reti (instruction_65 G code s) = was_reti s || false /\ levels (instruction_65 G code s) = levels s.
Proof. split; unfold instruction_65, do_add, do_addc, do_subb_set, do_subb_write, xch, cjne, acc_write, acc, fetch; cbv zeta beta iota; repeat (wrt1 || lev1); reflexivity. Qed.
Lemma F_66 (G : cfg) code s : was_reti (instruction_66 G code s) = was_reti s || false /\ levels (instruction_66 G code s) = levels s.
Proof. split; unfold instruction_66, do_add, do_addc, do_subb_set, do_subb_write, xch, cjne, acc_write, acc, fetch; cbv zeta beta iota; repeat (wrt1 || lev1); reflexivity. Qed.
Lemma F_68 (G : cfg) code s : was_reti (instruction_68 code s) = was_reti s || false /\ levels (instruction_68 code s) = levels s.
Proof. split; unfold instruction_68, do_add, do_addc, do_subb_set, do_subb_write, xch, cjne, acc_write, acc, fetch; cbv zeta beta iota; repeat (wrt1 || lev1); reflexivity. Qed.
Lemma F_70 (G : cfg) code s : was_reti (instruction_70 G code s) = was_reti s || false /\ levels (instruction_70 G code s) = levels s.
Proof. split; unfold instruction_70, do_add, do_addc, do_subb_set, do_subb_write, xch, cjne, acc_write, acc, fetch; cbv zeta beta iota; repeat (wrt1 || lev1); reflexivity. Qed.
Lemma F_72 (G : cfg) code s : was_reti (instruction_72 G code s) = was_reti s || false /\ levels (instruction_72 G code s) = levels s.
Proof. split; unfold instruction_72, do_add, do_addc, do_subb_set, do_subb_write, xch, cjne, acc_write, acc, fetch; cbv zeta beta iota; repeat (wrt1 || lev1); reflexivity. Qed.
Lemma F_73 (G : cfg) code s : was_reti (instruction_73 code s) = was_reti s || false /\ levels (instruction_73 code s) = levels s.
Proof. split; unfold instruction_73, do_add, do_addc, do_subb_set, do_subb_write, xch, cjne, acc_write, acc, fetch; cbv zeta beta iota; repeat (wrt1 || lev1); reflexivity. Qed.
Lemma F_74 (G : cfg) code s : was_reti (instruction_74 G code s) = was_reti s || false /\ levels (instruction_74 G code s) = levels s.
Proof. split; unfold instruction_74, do_add, do_addc, do_subb_set, do_subb_write, xch, cjne, acc_write, acc, fetch; cbv zeta beta iota; repeat (wrt1 || lev1); reflexivity. Qed.
Lemma F_75 (G : cfg) code s : was_reti (instruction_75 G code s) = was_reti s || (opb G s =? IE) /\ levels (instruction_75 G code s) = levels s.
Proof. split; unfold instruction_75, do_add, do_addc, do_subb_set, do_subb_write, xch, cjne, acc_write, acc, fetch; cbv zeta beta iota; repeat (wrt1 || lev1); reflexivity. Qed.
Lemma F_76 (G : cfg) code s : was_reti (instruction_76 G code s) = was_reti s || false /\ levels (instruction_76 G code s) = levels s.
Proof. split; unfold instruction_76, do_add, do_addc, do_subb_set, do_subb_write, xch, cjne, acc_write, acc, fetch; cbv zeta beta iota; repeat (wrt1 || lev1); reflexivity. Qed.
Lemma F_78 (G : cfg) code s : was_reti (instruction_78 G code s) = was_reti s || false /\ levels (instruction_78 G code s) = levels s.
Proof. split; unfold instruction_78, do_add, do_addc, do_subb_set, do_subb_write, xch, cjne, acc_write, acc, fetch; cbv zeta beta iota; repeat (wrt1 || lev1); reflexivity. Qed.
Lemma F_80 (G : cfg) code s : was_reti (instruction_80 G code s) = was_reti s || false /\ levels (instruction_80 G code s) = levels s.
Proof. split; unfold instruction_80, do_add, do_addc, do_subb_set, do_subb_write, xch, cjne, acc_write, acc, fetch; cbv zeta beta iota; repeat (wrt1 || lev1); reflexivity. Qed.
Lemma F_82 (G : cfg) code s : was_reti (instruction_82 G code s) = was_reti s || false /\ levels (instruction_82 G code s) = levels s.
Proof. split; unfold instruction_82, do_add, do_addc, do_subb_set, do_subb_write, xch, cjne, acc_write, acc, fetch; cbv zeta beta iota; repeat (wrt1 || lev1); reflexivity. Qed.
Lemma F_83 (G : cfg) code s : was_reti (instruction_83 G code s) = was_reti s || false /\ levels (instruction_83 G code s) = levels s.
Proof. split; unfold instruction_83, do_add, do_addc, do_subb_set, do_subb_write, xch, cjne, acc_write, acc, fetch; cbv zeta beta iota; repeat (wrt1 || lev1); reflexivity. Qed.
Lemma F_84 (G : cfg) code s : was_reti (instruction_84 code s) = was_reti s || false /\ levels (instruction_84 code s) = levels s.
Proof. split; unfold instruction_84, do_add, do_addc, do_subb_set, do_subb_write, xch, cjne, acc_write, acc, fetch; cbv zeta beta iota; destruct (_ =? 0); cbv iota beta; repeat (wrt1 || lev1); reflexivity. Qed.
Lemma F_85 (G : cfg) code s : was_reti (instruction_85 G code s) = was_reti s || (opc G s =? IE) /\ levels (instruction_85 G code s) = levels s.
Proof. split; unfold instruction_85, do_add, do_addc, do_subb_set, do_subb_write, xch, cjne, acc_write, acc, fetch; cbv zeta beta iota; repeat (wrt1 || lev1); reflexivity. Qed.
Lemma F_86 (G : cfg) code s : was_reti (instruction_86 G code s) = was_reti s || (opb G s =? IE) /\ levels (instruction_86 G code s) = levels s.
Proof. split; unfold instruction_86, do_add, do_addc, do_subb_set, do_subb_write, xch, cjne, acc_write, acc, fetch; cbv zeta beta iota; repeat (wrt1 || lev1); reflexivity. Qed.
Lemma F_88 (G : cfg) code s : was_reti (instruction_88 G code s) = was_reti s || (opb G s =? IE) /\ levels (instruction_88 G code s) = levels s.
Proof. split; unfold instruction_88, do_add, do_addc, do_subb_set, do_subb_write, xch, cjne, acc_write, acc, fetch; cbv zeta beta iota; repeat (wrt1 || lev1); reflexivity. Qed.
Lemma F_90 (G : cfg) code s : was_reti (instruction_90 G code s) = was_reti s || false /\ levels (instruction_90 G code s) = levels s.
Proof. split; unfold instruction_90, do_add, do_addc, do_subb_set, do_subb_write, xch, cjne, acc_write, acc, fetch; cbv zeta beta iota; repeat (wrt1 || lev1); reflexivity. Qed.
Lemma F_92 (G : cfg) code s : was_reti (instruction_92 G code s) = was_reti s || bit_ie (opb G s) /\ levels (instruction_92 G code s) = levels s.
Proof. split; unfold instruction_92, do_add, do_addc, do_subb_set, do_subb_write, xch, cjne, acc_write, acc, fetch; cbv zeta beta iota; repeat (wrt1 || lev1); reflexivity. Qed.
Lemma F_93 (G : cfg) code s : was_reti (instruction_93 G code s) = was_reti s || false /\ levels (instruction_93 G code s) = levels s.
Proof. split; unfold instruction_93, do_add, do_addc, do_subb_set, do_subb_write, xch, cjne, acc_write, acc, fetch; cbv zeta beta iota; repeat (wrt1 || lev1); reflexivity. Qed.
Lemma F_94 (G : cfg) code s : was_reti (instruction_94 G code s) = was_reti s || false /\ levels (instruction_94 G code s) = levels s.
Proof. split; unfold instruction_94, do_add, do_addc, do_subb_set, do_subb_write, xch, cjne, acc_write, acc, fetch; cbv zeta beta iota; repeat (wrt1 || lev1); reflexivity. Qed.
Lemma F_95 (G : cfg) code s : was_reti (instruction_95 G code s) = was_reti s || false /\ levels (instruction_95 G code s) = levels s.
Proof. split; unfold instruction_95, do_add, do_addc, do_subb_set, do_subb_write, xch, cjne, acc_write, acc, fetch; cbv zeta beta iota; repeat (wrt1 || lev1); reflexivity. Qed.
Lemma F_96 (G : cfg) code s : was_reti (instruction_96 G code s) = was_reti s || false /\ levels (instruction_96 G code s) = levels s.
Proof. split; unfold instruction_96, do_add, do_addc, do_subb_set, do_subb_write, xch, cjne, acc_write, acc, fetch; cbv zeta beta iota; repeat (wrt1 || lev1); reflexivity. Qed.
Lemma F_98 (G : cfg) code s : was_reti (instruction_98 code s) = was_reti s || false /\ levels (instruction_98 code s) = levels s.
Proof. split; unfold instruction_98, do_add, do_addc, do_subb_set, do_subb_write, xch, cjne, acc_write, acc, fetch; cbv zeta beta iota; repeat (wrt1 || lev1); reflexivity. Qed.
Lemma F_a0 (G : cfg) code s : was_reti (instruction_a0 G code s) = was_reti s || false /\ levels (instruction_a0 G code s) = levels s.
Proof. split; unfold instruction_a0, do_add, do_addc, do_subb_set, do_subb_write, xch, cjne, acc_write, acc, fetch; cbv zeta beta iota; repeat (wrt1 || lev1); reflexivity. Qed.
Lemma F_a2 (G : cfg) code s : was_reti (instruction_a2 G code s) = was_reti s || false /\ levels (instruction_a2 G code s) = levels s.
Proof. split; unfold instruction_a2, do_add, do_addc, do_subb_set, do_subb_write, xch, cjne, acc_write, acc, fetch; cbv zeta beta iota; repeat (wrt1 || lev1); reflexivity. Qed.
Lemma F_a3 (G : cfg) code s : was_reti (instruction_a3 code s) = was_reti s || false /\ levels (instruction_a3 code s) = levels s.
Proof. split; unfold instruction_a3, do_add, do_addc, do_subb_set, do_subb_write, xch, cjne, acc_write, acc, fetch; cbv zeta beta iota; repeat (wrt1 || lev1); reflexivity. Qed.
Lemma F_a4 (G : cfg) code s : was_reti (instruction_a4 code s) = was_reti s || false /\ levels (instruction_a4 code s) = levels s.
Proof. split; unfold instruction_a4, do_add, do_addc, do_subb_set, do_subb_write, xch, cjne, acc_write, acc, fetch; cbv zeta beta iota; repeat (wrt1 || lev1); reflexivity. Qed.
Lemma F_a6 (G : cfg) code s : was_reti (instruction_a6 G code s) = was_reti s || false /\ levels (instruction_a6 G code s) = levels s.
Proof. split; unfold instruction_a6, do_add, do_addc, do_subb_set, do_subb_write, xch, cjne, acc_write, acc, fetch; cbv zeta beta iota; repeat (wrt1 || lev1); reflexivity. Qed.
Lemma F_a8 (G : cfg) code s : was_reti (instruction_a8 G code s) = was_reti s || false /\ levels (instruction_a8 G code s) = levels s.
Proof. split; unfold instruction_a8, do_add, do_addc, do_subb_set, do_subb_write, xch, cjne, acc_write, acc, fetch; cbv zeta beta iota; repeat (wrt1 || lev1); reflexivity. Qed.
Lemma F_b0 (G : cfg) code s : was_reti (instruction_b0 G code s) = was_reti s || false /\ levels (instruction_b0 G code s) = levels s.
Proof. split; unfold instruction_b0, do_add, do_addc, do_subb_set, do_subb_write, xch, cjne, acc_write, acc, fetch; cbv zeta beta iota; repeat (wrt1 || lev1); reflexivity. Qed.
Lemma F_b2 (G : cfg) code s : was_reti (instruction_b2 G code s) = was_reti s || bit_ie (opb G s) /\ levels (instruction_b2 G code s) = levels s.
Proof. split; unfold instruction_b2, do_add, do_addc, do_subb_set, do_subb_write, xch, cjne, acc_write, acc, fetch; cbv zeta beta iota; repeat (wrt1 || lev1); reflexivity. Qed.
Lemma F_b3 (G : cfg) code s : was_reti (instruction_b3 code s) = was_reti s || false /\ levels (instruction_b3 code s) = levels s.
Proof. split; unfold instruction_b3, do_add, do_addc, do_subb_set, do_subb_write, xch, cjne, acc_write, acc, fetch; cbv zeta beta iota; repeat (wrt1 || lev1); reflexivity. Qed.
Lemma F_b4 (G : cfg) code s : was_reti (instruction_b4 G code s) = was_reti s || false /\ levels (instruction_b4 G code s) = levels s.
Proof. split; unfold instruction_b4, do_add, do_addc, do_subb_set, do_subb_write, xch, cjne, acc_write, acc, fetch; cbv zeta beta iota; repeat (wrt1 || lev1); reflexivity. Qed.
Lemma F_b5 (G : cfg) code s : was_reti (instruction_b5 G code s) = was_reti s || false /\ levels (instruction_b5 G code s) = levels s.
Proof. split; unfold instruction_b5, do_add, do_addc, do_subb_set, do_subb_write, xch, cjne, acc_write, acc, fetch; cbv zeta beta iota; repeat (wrt1 || lev1); reflexivity. Qed.
Lemma F_b6 (G : cfg) code s : was_reti (instruction_b6 G code s) = was_reti s || false /\ levels (instruction_b6 G code s) = levels s.
Proof. split; unfold instruction_b6, do_add, do_addc, do_subb_set, do_subb_write, xch, cjne, acc_write, acc, fetch; cbv zeta beta iota; repeat (wrt1 || lev1); reflexivity. Qed.
Lemma F_b8 (G : cfg) code s : was_reti (instruction_b8 G code s) = was_reti s || false /\ levels (instruction_b8 G code s) = levels s.
Proof. split; unfold instruction_b8, do_add, do_addc, do_subb_set, do_subb_write, xch, cjne, acc_write, acc, fetch; cbv zeta beta iota; repeat (wrt1 || lev1); reflexivity. Qed.
Lemma F_c0 (G : cfg) code s : was_reti (instruction_c0 G code s) = was_reti s || false /\ levels (instruction_c0 G code s) = levels s.
Proof. split; unfold instruction_c0, do_add, do_addc, do_subb_set, do_subb_write, xch, cjne, acc_write, acc, fetch; cbv zeta beta iota; repeat (wrt1 || lev1); reflexivity. Qed.
Lemma F_c2 (G : cfg) code s : was_reti (instruction_c2 G code s) = was_reti s || bit_ie (opb G s) /\ levels (instruction_c2 G code s) = levels s.
Proof. split; unfold instruction_c2, do_add, do_addc, do_subb_set, do_subb_write, xch, cjne, acc_write, acc, fetch; cbv zeta beta iota; repeat (wrt1 || lev1); reflexivity. Qed.
Lemma F_c3 (G : cfg) code s : was_reti (instruction_c3 code s) = was_reti s || false /\ levels (instruction_c3 code s) = levels s.
Proof. split; unfold instruction_c3, do_add, do_addc, do_subb_set, do_subb_write, xch, cjne, acc_write, acc, fetch; cbv zeta beta iota; repeat (wrt1 || lev1); reflexivity. Qed.
Lemma F_c4 (G : cfg) code s : was_reti (instruction_c4 code s) = was_reti s || false /\ levels (instruction_c4 code s) = levels s.
Proof. split; unfold instruction_c4, do_add, do_addc, do_subb_set, do_subb_write, xch, cjne, acc_write, acc, fetch; cbv zeta beta iota; repeat (wrt1 || lev1); reflexivity. Qed.
Lemma F_c5 (G : cfg) code s : was_reti (instruction_c5 G code s) = was_reti s || (opb G s =? IE) /\ levels (instruction_c5 G code s) = levels s.
Proof. split; unfold instruction_c5, do_add, do_addc, do_subb_set, do_subb_write, xch, cjne, acc_write, acc, fetch; cbv zeta beta iota; repeat (wrt1 || lev1); reflexivity. Qed.
Lemma F_c6 (G : cfg) code s : was_reti (instruction_c6 G code s) = was_reti s || false /\ levels (instruction_c6 G code s) = levels s.
Proof. split; unfold instruction_c6, do_add, do_addc, do_subb_set, do_subb_write, xch, cjne, acc_write, acc, fetch; cbv zeta beta iota; repeat (wrt1 || lev1); reflexivity. Qed.
Lemma F_c8 (G : cfg) code s : was_reti (instruction_c8 G code s) = was_reti s || false /\ levels (instruction_c8 G code s) = levels s.
Proof. split; unfold instruction_c8, do_add, do_addc, do_subb_set, do_subb_write, xch, cjne, acc_write, acc, fetch; cbv zeta beta iota; repeat (wrt1 || lev1); reflexivity. Qed.
Lemma F_d0 (G : cfg) code s : was_reti (instruction_d0 G code s) = was_reti s || (opb G s =? IE) /\ levels (instruction_d0 G code s) = levels s.
Proof. split; unfold instruction_d0, do_add, do_addc, do_subb_set, do_subb_write, xch, cjne, acc_write, acc, fetch; cbv zeta beta iota; repeat (wrt1 || lev1); reflexivity. Qed.
Lemma F_d2 (G : cfg) code s : was_reti (instruction_d2 G code s) = was_reti s || bit_ie (opb G s) /\ levels (instruction_d2 G code s) = levels s.
Proof. split; unfold instruction_d2, do_add, do_addc, do_subb_set, do_subb_write, xch, cjne, acc_write, acc, fetch; cbv zeta beta iota; repeat (wrt1 || lev1); reflexivity. Qed.
Lemma F_d3 (G : cfg) code s : was_reti (instruction_d3 code s) = was_reti s || false /\ levels (instruction_d3 code s) = levels s.
Proof. split; unfold instruction_d3, do_add, do_addc, do_subb_set, do_subb_write, xch, cjne, acc_write, acc, fetch; cbv zeta beta iota; repeat (wrt1 || lev1); reflexivity. Qed.
Lemma F_d4 (G : cfg) code s : was_reti (instruction_d4 code s) = was_reti s || false /\ levels (instruction_d4 code s) = levels s.
Proof. split; unfold instruction_d4, do_add, do_addc, do_subb_set, do_subb_write, xch, cjne, acc_write, acc, fetch; cbv zeta beta iota; destruct ((9 <? _) || _); cbv iota beta; match goal with |- context [if ?c then (u8 _, _) else _] => destruct c end; repeat (wrt1 || lev1); reflexivity. Qed.
Lemma F_d5 (G : cfg) code s : was_reti (instruction_d5 G code s) = was_reti s || (opb G s =? IE) /\ levels (instruction_d5 G code s) = levels s.
Proof. split; unfold instruction_d5, do_add, do_addc, do_subb_set, do_subb_write, xch, cjne, acc_write, acc, fetch; cbv zeta beta iota; repeat (wrt1 || lev1); reflexivity. Qed.
Lemma F_d6 (G : cfg) code s : was_reti (instruction_d6 G code s) = was_reti s || false /\ levels (instruction_d6 G code s) = levels s.
Proof. split; unfold instruction_d6, do_add, do_addc, do_subb_set, do_subb_write, xch, cjne, acc_write, acc, fetch; cbv zeta beta iota; repeat (wrt1 || lev1); reflexivity. Qed.
Lemma F_d8 (G : cfg) code s : was_reti (instruction_d8 G code s) = was_reti s || false /\ levels (instruction_d8 G code s) = levels s.
Proof. split; unfold instruction_d8, do_add, do_addc, do_subb_set, do_subb_write, xch, cjne, acc_write, acc, fetch; cbv zeta beta iota; repeat (wrt1 || lev1); reflexivity. Qed.
Lemma F_e0 (G : cfg) code s : was_reti (instruction_e0 code s) = was_reti s || false /\ levels (instruction_e0 code s) = levels s.
Proof. split; unfold instruction_e0, do_add, do_addc, do_subb_set, do_subb_write, xch, cjne, acc_write, acc, fetch; cbv zeta beta iota; repeat (wrt1 || lev1); reflexivity. Qed.
Lemma F_e2 (G : cfg) code s : was_reti (instruction_e2 code s) = was_reti s || false /\ levels (instruction_e2 code s) = levels s.
Proof. split; unfold instruction_e2, do_add, do_addc, do_subb_set, do_subb_write, xch, cjne, acc_write, acc, fetch; cbv zeta beta iota; repeat (wrt1 || lev1); reflexivity. Qed.
Lemma F_e4 (G : cfg) code s : was_reti (instruction_e4 code s) = was_reti s || false /\ levels (instruction_e4 code s) = levels s.
Proof. split; unfold instruction_e4, do_add, do_addc, do_subb_set, do_subb_write, xch, cjne, acc_write, acc, fetch; cbv zeta beta iota; repeat (wrt1 || lev1); reflexivity. Qed.
Lemma F_e5 (G : cfg) code s : was_reti (instruction_e5 G code s) = was_reti s || false /\ levels (instruction_e5 G code s) = levels s.
Proof. split; unfold instruction_e5, do_add, do_addc, do_subb_set, do_subb_write, xch, cjne, acc_write, acc, fetch; cbv zeta beta iota; repeat (wrt1 || lev1); reflexivity. Qed.
Lemma F_e6 (G : cfg) code s : was_reti (instruction_e6 G code s) = was_reti s || false /\ levels (instruction_e6 G code s) = levels s.
Proof. split; unfold instruction_e6, do_add, do_addc, do_subb_set, do_subb_write, xch, cjne, acc_write, acc, fetch; cbv zeta beta iota; repeat (wrt1 || lev1); reflexivity. Qed.
Lemma F_e8 (G : cfg) code s : was_reti (instruction_e8 code s) = was_reti s || false /\ levels (instruction_e8 code s) = levels s.
Proof. split; unfold instruction_e8, do_add, do_addc, do_subb_set, do_subb_write, xch, cjne, acc_write, acc, fetch; cbv zeta beta iota; repeat (wrt1 || lev1); reflexivity. Qed.
Lemma F_f0 (G : cfg) code s : was_reti (instruction_f0 code s) = was_reti s || false /\ levels (instruction_f0 code s) = levels s.
Proof. split; unfold instruction_f0, do_add, do_addc, do_subb_set, do_subb_write, xch, cjne, acc_write, acc, fetch; cbv zeta beta iota; repeat (wrt1 || lev1); reflexivity. Qed.
Lemma F_f2 (G : cfg) code s : was_reti (instruction_f2 code s) = was_reti s || false /\ levels (instruction_f2 code s) = levels s.
Proof. split; unfold instruction_f2, do_add, do_addc, do_subb_set, do_subb_write, xch, cjne, acc_write, acc, fetch; cbv zeta beta iota; repeat (wrt1 || lev1); reflexivity. Qed.
Lemma F_f4 (G : cfg) code s : was_reti (instruction_f4 code s) = was_reti s || false /\ levels (instruction_f4 code s) = levels s.
Proof. split; unfold instruction_f4, do_add, do_addc, do_subb_set, do_subb_write, xch, cjne, acc_write, acc, fetch; cbv zeta beta iota; repeat (wrt1 || lev1); reflexivity. Qed.
Lemma F_f5 (G : cfg) code s : was_reti (instruction_f5 G code s) = was_reti s || (opb G s =? IE) /\ levels (instruction_f5 G code s) = levels s.
Proof. split; unfold instruction_f5, do_add, do_addc, do_subb_set, do_subb_write, xch, cjne, acc_write, acc, fetch; cbv zeta beta iota; repeat (wrt1 || lev1); reflexivity. Qed.
Lemma F_f6 (G : cfg) code s : was_reti (instruction_f6 G code s) = was_reti s || false /\ levels (instruction_f6 G code s) = levels s.
Proof. split; unfold instruction_f6, do_add, do_addc, do_subb_set, do_subb_write, xch, cjne, acc_write, acc, fetch; cbv zeta beta iota; repeat (wrt1 || lev1); reflexivity. Qed.
Lemma F_f8 (G : cfg) code s : was_reti (instruction_f8 G code s) = was_reti s || false /\ levels (instruction_f8 G code s) = levels s.
Proof. split; unfold instruction_f8, do_add, do_addc, do_subb_set, do_subb_write, xch, cjne, acc_write, acc, fetch; cbv zeta beta iota; repeat (wrt1 || lev1); reflexivity. Qed.

Lemma itab_flags G op f s : 0 <= op < 256 -> itab G op = Some f ->
  was_reti (f op s) = was_reti s || ((op =? 0x32) || hit op (opb G s) (opc G s) s) /\
  levels (f op s) = (if op =? 0x32 then tl (levels s) else levels s).
Proof.
  intros Ho. revert f.
  assert (H : Forall (fun op => forall f, itab G op = Some f ->
     was_reti (f op s) = was_reti s || ((op =? 0x32) || hit op (opb G s) (opc G s) s) /\
     levels (f op s) = (if op =? 0x32 then tl (levels s) else levels s)) (zrange 256)).
  { change (zrange 256) with [0x0; 0x1; 0x2; 0x3; 0x4; 0x5; 0x6; 0x7; 0x8; 0x9; 0xa; 0xb; 0xc; 0xd; 0xe; 0xf; 0x10; 0x11; 0x12; 0x13; 0x14; 0x15; 0x16; 0x17; 0x18; 0x19; 0x1a; 0x1b; 0x1c; 0x1d; 0x1e; 0x1f; 0x20; 0x21; 0x22; 0x23; 0x24; 0x25; 0x26; 0x27; 0x28; 0x29; 0x2a; 0x2b; 0x2c; 0x2d; 0x2e; 0x2f; 0x30; 0x31; 0x32; 0x33; 0x34; 0x35; 0x36; 0x37; 0x38; 0x39; 0x3a; 0x3b; 0x3c; 0x3d; 0x3e; 0x3f; 0x40; 0x41; 0x42; 0x43; 0x44; 0x45; 0x46; 0x47; 0x48; 0x49; 0x4a; 0x4b; 0x4c; 0x4d; 0x4e; 0x4f; 0x50; 0x51; 0x52; 0x53; 0x54; 0x55; 0x56; 0x57; 0x58; 0x59; 0x5a; 0x5b; 0x5c; 0x5d; 0x5e; 0x5f; 0x60; 0x61; 0x62; 0x63; 0x64; 0x65; 0x66; 0x67; 0x68; 0x69; 0x6a; 0x6b; 0x6c; 0x6d; 0x6e; 0x6f; 0x70; 0x71; 0x72; 0x73; 0x74; 0x75; 0x76; 0x77; 0x78; 0x79; 0x7a; 0x7b; 0x7c; 0x7d; 0x7e; 0x7f; 0x80; 0x81; 0x82; 0x83; 0x84; 0x85; 0x86; 0x87; 0x88; 0x89; 0x8a; 0x8b; 0x8c; 0x8d; 0x8e; 0x8f; 0x90; 0x91; 0x92; 0x93; 0x94; 0x95; 0x96; 0x97; 0x98; 0x99; 0x9a; 0x9b; 0x9c; 0x9d; 0x9e; 0x9f; 0xa0; 0xa1; 0xa2; 0xa3; 0xa4; 0xa5; 0xa6; 0xa7; 0xa8; 0xa9; 0xaa; 0xab; 0xac; 0xad; 0xae; 0xaf; 0xb0; 0xb1; 0xb2; 0xb3; 0xb4; 0xb5; 0xb6; 0xb7; 0xb8; 0xb9; 0xba; 0xbb; 0xbc; 0xbd; 0xbe; 0xbf; 0xc0; 0xc1; 0xc2; 0xc3; 0xc4; 0xc5; 0xc6; 0xc7; 0xc8; 0xc9; 0xca; 0xcb; 0xcc; 0xcd; 0xce; 0xcf; 0xd0; 0xd1; 0xd2; 0xd3; 0xd4; 0xd5; 0xd6; 0xd7; 0xd8; 0xd9; 0xda; 0xdb; 0xdc; 0xdd; 0xde; 0xdf; 0xe0; 0xe1; 0xe2; 0xe3; 0xe4; 0xe5; 0xe6; 0xe7; 0xe8; 0xe9; 0xea; 0xeb; 0xec; 0xed; 0xee; 0xef; 0xf0; 0xf1; 0xf2; 0xf3; 0xf4; 0xf5; 0xf6; 0xf7; 0xf8; 0xf9; 0xfa; 0xfb; 0xfc; 0xfd; 0xfe; 0xff].
    apply Forall_cons; [intros f E; apply some_eq in E; subst f; exact (F_00 G _ s)|].
    apply Forall_cons; [intros f E; apply some_eq in E; subst f; exact (F_01 G _ s)|].
    apply Forall_cons; [intros f E; apply some_eq in E; subst f; exact (F_02 G _ s)|].
    apply Forall_cons; [intros f E; apply some_eq in E; subst f; exact (F_03 G _ s)|].
    apply Forall_cons; [intros f E; apply some_eq in E; subst f; exact (F_04 G _ s)|].
    apply Forall_cons; [intros f E; apply some_eq in E; subst f; exact (F_05 G _ s)|].
    apply Forall_cons; [intros f E; apply some_eq in E; subst f; exact (F_06 G _ s)|].
    apply Forall_cons; [intros f E; apply some_eq in E; subst f; exact (F_06 G _ s)|].
    apply Forall_cons; [intros f E; apply some_eq in E; subst f; exact (F_08 G _ s)|].
    apply Forall_cons; [intros f E; apply some_eq in E; subst f; exact (F_08 G _ s)|].
    apply Forall_cons; [intros f E; apply some_eq in E; subst f; exact (F_08 G _ s)|].
    apply Forall_cons; [intros f E; apply some_eq in E; subst f; exact (F_08 G _ s)|].
    apply Forall_cons; [intros f E; apply some_eq in E; subst f; exact (F_08 G _ s)|].
    apply Forall_cons; [intros f E; apply some_eq in E; subst f; exact (F_08 G _ s)|].
    apply Forall_cons; [intros f E; apply some_eq in E; subst f; exact (F_08 G _ s)|].
    apply Forall_cons; [intros f E; apply some_eq in E; subst f; exact (F_08 G _ s)|].
    apply Forall_cons; [intros f E; apply some_eq in E; subst f; exact (F_10 G _ s)|].
    apply Forall_cons; [intros f E; apply some_eq in E; subst f; exact (F_11 G _ s)|].
    apply Forall_cons; [intros f E; apply some_eq in E; subst f; exact (F_12 G _ s)|].
    apply Forall_cons; [intros f E; apply some_eq in E; subst f; exact (F_13 G _ s)|].
    apply Forall_cons; [intros f E; apply some_eq in E; subst f; exact (F_14 G _ s)|].
    apply Forall_cons; [intros f E; apply some_eq in E; subst f; exact (F_15 G _ s)|].
    apply Forall_cons; [intros f E; apply some_eq in E; subst f; exact (F_16 G _ s)|].
    apply Forall_cons; [intros f E; apply some_eq in E; subst f; exact (F_16 G _ s)|].
    apply Forall_cons; [intros f E; apply some_eq in E; subst f; exact (F_18 G _ s)|].
    apply Forall_cons; [intros f E; apply some_eq in E; subst f; exact (F_18 G _ s)|].
    apply Forall_cons; [intros f E; apply some_eq in E; subst f; exact (F_18 G _ s)|].
    apply Forall_cons; [intros f E; apply some_eq in E; subst f; exact (F_18 G _ s)|].
    apply Forall_cons; [intros f E; apply some_eq in E; subst f; exact (F_18 G _ s)|].
    apply Forall_cons; [intros f E; apply some_eq in E; subst f; exact (F_18 G _ s)|].
    apply Forall_cons; [intros f E; apply some_eq in E; subst f; exact (F_18 G _ s)|].
    apply Forall_cons; [intros f E; apply some_eq in E; subst f; exact (F_18 G _ s)|].
    apply Forall_cons; [intros f E; apply some_eq in E; subst f; exact (F_20 G _ s)|].
    apply Forall_cons; [intros f E; apply some_eq in E; subst f; exact (F_01 G _ s)|].
    apply Forall_cons; [intros f E; apply some_eq in E; subst f; exact (F_22 G _ s)|].
    apply Forall_cons; [intros f E; apply some_eq in E; subst f; exact (F_23 G _ s)|].
    apply Forall_cons; [intros f E; apply some_eq in E; subst f; exact (F_24 G _ s)|].
    apply Forall_cons; [intros f E; apply some_eq in E; subst f; exact (F_25 G _ s)|].
    apply Forall_cons; [intros f E; apply some_eq in E; subst f; exact (F_26 G _ s)|].
    apply Forall_cons; [intros f E; apply some_eq in E; subst f; exact (F_26 G _ s)|].
    apply Forall_cons; [intros f E; apply some_eq in E; subst f; exact (F_28 G _ s)|].
    apply Forall_cons; [intros f E; apply some_eq in E; subst f; exact (F_28 G _ s)|].
    apply Forall_cons; [intros f E; apply some_eq in E; subst f; exact (F_28 G _ s)|].
    apply Forall_cons; [intros f E; apply some_eq in E; subst f; exact (F_28 G _ s)|].
    apply Forall_cons; [intros f E; apply some_eq in E; subst f; exact (F_28 G _ s)|].
    apply Forall_cons; [intros f E; apply some_eq in E; subst f; exact (F_28 G _ s)|].
    apply Forall_cons; [intros f E; apply some_eq in E; subst f; exact (F_28 G _ s)|].
    apply Forall_cons; [intros f E; apply some_eq in E; subst f; exact (F_28 G _ s)|].
    apply Forall_cons; [intros f E; apply some_eq in E; subst f; exact (F_30 G _ s)|].
    apply Forall_cons; [intros f E; apply some_eq in E; subst f; exact (F_11 G _ s)|].
    apply Forall_cons; [intros f E; apply some_eq in E; subst f; rewrite orb_true_r; exact (F_32 G _ s)|].
    apply Forall_cons; [intros f E; apply some_eq in E; subst f; exact (F_33 G _ s)|].
    apply Forall_cons; [intros f E; apply some_eq in E; subst f; exact (F_34 G _ s)|].
    apply Forall_cons; [intros f E; apply some_eq in E; subst f; exact (F_35 G _ s)|].
    apply Forall_cons; [intros f E; apply some_eq in E; subst f; exact (F_36 G _ s)|].
    apply Forall_cons; [intros f E; apply some_eq in E; subst f; exact (F_36 G _ s)|].
    apply Forall_cons; [intros f E; apply some_eq in E; subst f; exact (F_38 G _ s)|].
    apply Forall_cons; [intros f E; apply some_eq in E; subst f; exact (F_38 G _ s)|].
    apply Forall_cons; [intros f E; apply some_eq in E; subst f; exact (F_38 G _ s)|].
    apply Forall_cons; [intros f E; apply some_eq in E; subst f; exact (F_38 G _ s)|].
    apply Forall_cons; [intros f E; apply some_eq in E; subst f; exact (F_38 G _ s)|].
    apply Forall_cons; [intros f E; apply some_eq in E; subst f; exact (F_38 G _ s)|].
    apply Forall_cons; [intros f E; apply some_eq in E; subst f; exact (F_38 G _ s)|].
    apply Forall_cons; [intros f E; apply some_eq in E; subst f; exact (F_38 G _ s)|].
    apply Forall_cons; [intros f E; apply some_eq in E; subst f; exact (F_40 G _ s)|].
    apply Forall_cons; [intros f E; apply some_eq in E; subst f; exact (F_01 G _ s)|].
    apply Forall_cons; [intros f E; apply some_eq in E; subst f; exact (F_42 G _ s)|].
    apply Forall_cons; [intros f E; apply some_eq in E; subst f; exact (F_43 G _ s)|].
    apply Forall_cons; [intros f E; apply some_eq in E; subst f; exact (F_44 G _ s)|].
    apply Forall_cons; [intros f E; apply some_eq in E; subst f; exact (F_45 G _ s)|].
    apply Forall_cons; [intros f E; apply some_eq in E; subst f; exact (F_46 G _ s)|].
    apply Forall_cons; [intros f E; apply some_eq in E; subst f; exact (F_46 G _ s)|].
    apply Forall_cons; [intros f E; apply some_eq in E; subst f; exact (F_48 G _ s)|].
    apply Forall_cons; [intros f E; apply some_eq in E; subst f; exact (F_48 G _ s)|].
    apply Forall_cons; [intros f E; apply some_eq in E; subst f; exact (F_48 G _ s)|].
    apply Forall_cons; [intros f E; apply some_eq in E; subst f; exact (F_48 G _ s)|].
    apply Forall_cons; [intros f E; apply some_eq in E; subst f; exact (F_48 G _ s)|].
    apply Forall_cons; [intros f E; apply some_eq in E; subst f; exact (F_48 G _ s)|].
    apply Forall_cons; [intros f E; apply some_eq in E; subst f; exact (F_48 G _ s)|].
    apply Forall_cons; [intros f E; apply some_eq in E; subst f; exact (F_48 G _ s)|].
    apply Forall_cons; [intros f E; apply some_eq in E; subst f; exact (F_50 G _ s)|].
    apply Forall_cons; [intros f E; apply some_eq in E; subst f; exact (F_11 G _ s)|].
    apply Forall_cons; [intros f E; apply some_eq in E; subst f; exact (F_52 G _ s)|].
    apply Forall_cons; [intros f E; apply some_eq in E; subst f; exact (F_53 G _ s)|].
    apply Forall_cons; [intros f E; apply some_eq in E; subst f; exact (F_54 G _ s)|].
    apply Forall_cons; [intros f E; apply some_eq in E; subst f; exact (F_55 G _ s)|].
    apply Forall_cons; [intros f E; apply some_eq in E; subst f; exact (F_56 G _ s)|].
    apply Forall_cons; [intros f E; apply some_eq in E; subst f; exact (F_56 G _ s)|].
    apply Forall_cons; [intros f E; apply some_eq in E; subst f; exact (F_58 G _ s)|].
    apply Forall_cons; [intros f E; apply some_eq in E; subst f; exact (F_58 G _ s)|].
    apply Forall_cons; [intros f E; apply some_eq in E; subst f; exact (F_58 G _ s)|].
    apply Forall_cons; [intros f E; apply some_eq in E; subst f; exact (F_58 G _ s)|].
    apply Forall_cons; [intros f E; apply some_eq in E; subst f; exact (F_58 G _ s)|].
    apply Forall_cons; [intros f E; apply some_eq in E; subst f; exact (F_58 G _ s)|].
    apply Forall_cons; [intros f E; apply some_eq in E; subst f; exact (F_58 G _ s)|].
    apply Forall_cons; [intros f E; apply some_eq in E; subst f; exact (F_58 G _ s)|].
    apply Forall_cons; [intros f E; apply some_eq in E; subst f; exact (F_60 G _ s)|].
    apply Forall_cons; [intros f E; apply some_eq in E; subst f; exact (F_01 G _ s)|].
    apply Forall_cons; [intros f E; apply some_eq in E; subst f; exact (F_62 G _ s)|].
    apply Forall_cons; [intros f E; apply some_eq in E; subst f; exact (F_63 G _ s)|].
    apply Forall_cons; [intros f E; apply some_eq in E; subst f; exact (F_64 G _ s)|].
    apply Forall_cons; [intros f E; apply some_eq in E; subst f; exact (F_65 G _ s)|].
    apply Forall_cons; [intros f E; apply some_eq in E; subst f; exact (F_66 G _ s)|].
    apply Forall_cons; [intros f E; apply some_eq in E; subst f; exact (F_66 G _ s)|].
    apply Forall_cons; [intros f E; apply some_eq in E; subst f; exact (F_68 G _ s)|].
    apply Forall_cons; [intros f E; apply some_eq in E; subst f; exact (F_68 G _ s)|].
    apply Forall_cons; [intros f E; apply some_eq in E; subst f; exact (F_68 G _ s)|].
    apply Forall_cons; [intros f E; apply some_eq in E; subst f; exact (F_68 G _ s)|].
    apply Forall_cons; [intros f E; apply some_eq in E; subst f; exact (F_68 G _ s)|].
    apply Forall_cons; [intros f E; apply some_eq in E; subst f; exact (F_68 G _ s)|].
    apply Forall_cons; [intros f E; apply some_eq in E; subst f; exact (F_68 G _ s)|].
    apply Forall_cons; [intros f E; apply some_eq in E; subst f; exact (F_68 G _ s)|].
    apply Forall_cons; [intros f E; apply some_eq in E; subst f; exact (F_70 G _ s)|].
    apply Forall_cons; [intros f E; apply some_eq in E; subst f; exact (F_11 G _ s)|].
    apply Forall_cons; [intros f E; apply some_eq in E; subst f; exact (F_72 G _ s)|].
    apply Forall_cons; [intros f E; apply some_eq in E; subst f; exact (F_73 G _ s)|].
    apply Forall_cons; [intros f E; apply some_eq in E; subst f; exact (F_74 G _ s)|].
    apply Forall_cons; [intros f E; apply some_eq in E; subst f; exact (F_75 G _ s)|].
    apply Forall_cons; [intros f E; apply some_eq in E; subst f; exact (F_76 G _ s)|].
    apply Forall_cons; [intros f E; apply some_eq in E; subst f; exact (F_76 G _ s)|].
    apply Forall_cons; [intros f E; apply some_eq in E; subst f; exact (F_78 G _ s)|].
    apply Forall_cons; [intros f E; apply some_eq in E; subst f; exact (F_78 G _ s)|].
    apply Forall_cons; [intros f E; apply some_eq in E; subst f; exact (F_78 G _ s)|].
    apply Forall_cons; [intros f E; apply some_eq in E; subst f; exact (F_78 G _ s)|].
    apply Forall_cons; [intros f E; apply some_eq in E; subst f; exact (F_78 G _ s)|].
    apply Forall_cons; [intros f E; apply some_eq in E; subst f; exact (F_78 G _ s)|].
    apply Forall_cons; [intros f E; apply some_eq in E; subst f; exact (F_78 G _ s)|].
    apply Forall_cons; [intros f E; apply some_eq in E; subst f; exact (F_78 G _ s)|].
    apply Forall_cons; [intros f E; apply some_eq in E; subst f; exact (F_80 G _ s)|].
    apply Forall_cons; [intros f E; apply some_eq in E; subst f; exact (F_01 G _ s)|].
    apply Forall_cons; [intros f E; apply some_eq in E; subst f; exact (F_82 G _ s)|].
    apply Forall_cons; [intros f E; apply some_eq in E; subst f; exact (F_83 G _ s)|].
    apply Forall_cons; [intros f E; apply some_eq in E; subst f; exact (F_84 G _ s)|].
    apply Forall_cons; [intros f E; apply some_eq in E; subst f; exact (F_85 G _ s)|].
    apply Forall_cons; [intros f E; apply some_eq in E; subst f; exact (F_86 G _ s)|].
    apply Forall_cons; [intros f E; apply some_eq in E; subst f; exact (F_86 G _ s)|].
    apply Forall_cons; [intros f E; apply some_eq in E; subst f; exact (F_88 G _ s)|].
    apply Forall_cons; [intros f E; apply some_eq in E; subst f; exact (F_88 G _ s)|].
    apply Forall_cons; [intros f E; apply some_eq in E; subst f; exact (F_88 G _ s)|].
    apply Forall_cons; [intros f E; apply some_eq in E; subst f; exact (F_88 G _ s)|].
    apply Forall_cons; [intros f E; apply some_eq in E; subst f; exact (F_88 G _ s)|].
    apply Forall_cons; [intros f E; apply some_eq in E; subst f; exact (F_88 G _ s)|].
    apply Forall_cons; [intros f E; apply some_eq in E; subst f; exact (F_88 G _ s)|].
    apply Forall_cons; [intros f E; apply some_eq in E; subst f; exact (F_88 G _ s)|].
    apply Forall_cons; [intros f E; apply some_eq in E; subst f; exact (F_90 G _ s)|].
    apply Forall_cons; [intros f E; apply some_eq in E; subst f; exact (F_11 G _ s)|].
    apply Forall_cons; [intros f E; apply some_eq in E; subst f; exact (F_92 G _ s)|].
    apply Forall_cons; [intros f E; apply some_eq in E; subst f; exact (F_93 G _ s)|].
    apply Forall_cons; [intros f E; apply some_eq in E; subst f; exact (F_94 G _ s)|].
    apply Forall_cons; [intros f E; apply some_eq in E; subst f; exact (F_95 G _ s)|].
    apply Forall_cons; [intros f E; apply some_eq in E; subst f; exact (F_96 G _ s)|].
    apply Forall_cons; [intros f E; apply some_eq in E; subst f; exact (F_96 G _ s)|].
    apply Forall_cons; [intros f E; apply some_eq in E; subst f; exact (F_98 G _ s)|].
    apply Forall_cons; [intros f E; apply some_eq in E; subst f; exact (F_98 G _ s)|].
    apply Forall_cons; [intros f E; apply some_eq in E; subst f; exact (F_98 G _ s)|].
    apply Forall_cons; [intros f E; apply some_eq in E; subst f; exact (F_98 G _ s)|].
    apply Forall_cons; [intros f E; apply some_eq in E; subst f; exact (F_98 G _ s)|].
    apply Forall_cons; [intros f E; apply some_eq in E; subst f; exact (F_98 G _ s)|].
    apply Forall_cons; [intros f E; apply some_eq in E; subst f; exact (F_98 G _ s)|].
    apply Forall_cons; [intros f E; apply some_eq in E; subst f; exact (F_98 G _ s)|].
    apply Forall_cons; [intros f E; apply some_eq in E; subst f; exact (F_a0 G _ s)|].
    apply Forall_cons; [intros f E; apply some_eq in E; subst f; exact (F_01 G _ s)|].
    apply Forall_cons; [intros f E; apply some_eq in E; subst f; exact (F_a2 G _ s)|].
    apply Forall_cons; [intros f E; apply some_eq in E; subst f; exact (F_a3 G _ s)|].
    apply Forall_cons; [intros f E; apply some_eq in E; subst f; exact (F_a4 G _ s)|].
    apply Forall_cons; [intros f E; discriminate E|].
    apply Forall_cons; [intros f E; apply some_eq in E; subst f; exact (F_a6 G _ s)|].
    apply Forall_cons; [intros f E; apply some_eq in E; subst f; exact (F_a6 G _ s)|].
    apply Forall_cons; [intros f E; apply some_eq in E; subst f; exact (F_a8 G _ s)|].
    apply Forall_cons; [intros f E; apply some_eq in E; subst f; exact (F_a8 G _ s)|].
    apply Forall_cons; [intros f E; apply some_eq in E; subst f; exact (F_a8 G _ s)|].
    apply Forall_cons; [intros f E; apply some_eq in E; subst f; exact (F_a8 G _ s)|].
    apply Forall_cons; [intros f E; apply some_eq in E; subst f; exact (F_a8 G _ s)|].
    apply Forall_cons; [intros f E; apply some_eq in E; subst f; exact (F_a8 G _ s)|].
    apply Forall_cons; [intros f E; apply some_eq in E; subst f; exact (F_a8 G _ s)|].
    apply Forall_cons; [intros f E; apply some_eq in E; subst f; exact (F_a8 G _ s)|].
    apply Forall_cons; [intros f E; apply some_eq in E; subst f; exact (F_b0 G _ s)|].
    apply Forall_cons; [intros f E; apply some_eq in E; subst f; exact (F_11 G _ s)|].
    apply Forall_cons; [intros f E; apply some_eq in E; subst f; exact (F_b2 G _ s)|].
    apply Forall_cons; [intros f E; apply some_eq in E; subst f; exact (F_b3 G _ s)|].
    apply Forall_cons; [intros f E; apply some_eq in E; subst f; exact (F_b4 G _ s)|].
    apply Forall_cons; [intros f E; apply some_eq in E; subst f; exact (F_b5 G _ s)|].
    apply Forall_cons; [intros f E; apply some_eq in E; subst f; exact (F_b6 G _ s)|].
    apply Forall_cons; [intros f E; apply some_eq in E; subst f; exact (F_b6 G _ s)|].
    apply Forall_cons; [intros f E; apply some_eq in E; subst f; exact (F_b8 G _ s)|].
    apply Forall_cons; [intros f E; apply some_eq in E; subst f; exact (F_b8 G _ s)|].
    apply Forall_cons; [intros f E; apply some_eq in E; subst f; exact (F_b8 G _ s)|].
    apply Forall_cons; [intros f E; apply some_eq in E; subst f; exact (F_b8 G _ s)|].
    apply Forall_cons; [intros f E; apply some_eq in E; subst f; exact (F_b8 G _ s)|].
    apply Forall_cons; [intros f E; apply some_eq in E; subst f; exact (F_b8 G _ s)|].
    apply Forall_cons; [intros f E; apply some_eq in E; subst f; exact (F_b8 G _ s)|].
    apply Forall_cons; [intros f E; apply some_eq in E; subst f; exact (F_b8 G _ s)|].
    apply Forall_cons; [intros f E; apply some_eq in E; subst f; exact (F_c0 G _ s)|].
    apply Forall_cons; [intros f E; apply some_eq in E; subst f; exact (F_01 G _ s)|].
    apply Forall_cons; [intros f E; apply some_eq in E; subst f; exact (F_c2 G _ s)|].
    apply Forall_cons; [intros f E; apply some_eq in E; subst f; exact (F_c3 G _ s)|].
    apply Forall_cons; [intros f E; apply some_eq in E; subst f; exact (F_c4 G _ s)|].
    apply Forall_cons; [intros f E; apply some_eq in E; subst f; exact (F_c5 G _ s)|].
    apply Forall_cons; [intros f E; apply some_eq in E; subst f; exact (F_c6 G _ s)|].
    apply Forall_cons; [intros f E; apply some_eq in E; subst f; exact (F_c6 G _ s)|].
    apply Forall_cons; [intros f E; apply some_eq in E; subst f; exact (F_c8 G _ s)|].
    apply Forall_cons; [intros f E; apply some_eq in E; subst f; exact (F_c8 G _ s)|].
    apply Forall_cons; [intros f E; apply some_eq in E; subst f; exact (F_c8 G _ s)|].
    apply Forall_cons; [intros f E; apply some_eq in E; subst f; exact (F_c8 G _ s)|].
    apply Forall_cons; [intros f E; apply some_eq in E; subst f; exact (F_c8 G _ s)|].
    apply Forall_cons; [intros f E; apply some_eq in E; subst f; exact (F_c8 G _ s)|].
    apply Forall_cons; [intros f E; apply some_eq in E; subst f; exact (F_c8 G _ s)|].
    apply Forall_cons; [intros f E; apply some_eq in E; subst f; exact (F_c8 G _ s)|].
    apply Forall_cons; [intros f E; apply some_eq in E; subst f; exact (F_d0 G _ s)|].
    apply Forall_cons; [intros f E; apply some_eq in E; subst f; exact (F_11 G _ s)|].
    apply Forall_cons; [intros f E; apply some_eq in E; subst f; exact (F_d2 G _ s)|].
    apply Forall_cons; [intros f E; apply some_eq in E; subst f; exact (F_d3 G _ s)|].
    apply Forall_cons; [intros f E; apply some_eq in E; subst f; exact (F_d4 G _ s)|].
    apply Forall_cons; [intros f E; apply some_eq in E; subst f; exact (F_d5 G _ s)|].
    apply Forall_cons; [intros f E; apply some_eq in E; subst f; exact (F_d6 G _ s)|].
    apply Forall_cons; [intros f E; apply some_eq in E; subst f; exact (F_d6 G _ s)|].
    apply Forall_cons; [intros f E; apply some_eq in E; subst f; exact (F_d8 G _ s)|].
    apply Forall_cons; [intros f E; apply some_eq in E; subst f; exact (F_d8 G _ s)|].
    apply Forall_cons; [intros f E; apply some_eq in E; subst f; exact (F_d8 G _ s)|].
    apply Forall_cons; [intros f E; apply some_eq in E; subst f; exact (F_d8 G _ s)|].
    apply Forall_cons; [intros f E; apply some_eq in E; subst f; exact (F_d8 G _ s)|].
    apply Forall_cons; [intros f E; apply some_eq in E; subst f; exact (F_d8 G _ s)|].
    apply Forall_cons; [intros f E; apply some_eq in E; subst f; exact (F_d8 G _ s)|].
    apply Forall_cons; [intros f E; apply some_eq in E; subst f; exact (F_d8 G _ s)|].
    apply Forall_cons; [intros f E; apply some_eq in E; subst f; exact (F_e0 G _ s)|].
    apply Forall_cons; [intros f E; apply some_eq in E; subst f; exact (F_01 G _ s)|].
    apply Forall_cons; [intros f E; apply some_eq in E; subst f; exact (F_e2 G _ s)|].
    apply Forall_cons; [intros f E; apply some_eq in E; subst f; exact (F_e2 G _ s)|].
    apply Forall_cons; [intros f E; apply some_eq in E; subst f; exact (F_e4 G _ s)|].
    apply Forall_cons; [intros f E; apply some_eq in E; subst f; exact (F_e5 G _ s)|].
    apply Forall_cons; [intros f E; apply some_eq in E; subst f; exact (F_e6 G _ s)|].
    apply Forall_cons; [intros f E; apply some_eq in E; subst f; exact (F_e6 G _ s)|].
    apply Forall_cons; [intros f E; apply some_eq in E; subst f; exact (F_e8 G _ s)|].
    apply Forall_cons; [intros f E; apply some_eq in E; subst f; exact (F_e8 G _ s)|].
    apply Forall_cons; [intros f E; apply some_eq in E; subst f; exact (F_e8 G _ s)|].
    apply Forall_cons; [intros f E; apply some_eq in E; subst f; exact (F_e8 G _ s)|].
    apply Forall_cons; [intros f E; apply some_eq in E; subst f; exact (F_e8 G _ s)|].
    apply Forall_cons; [intros f E; apply some_eq in E; subst f; exact (F_e8 G _ s)|].
    apply Forall_cons; [intros f E; apply some_eq in E; subst f; exact (F_e8 G _ s)|].
    apply Forall_cons; [intros f E; apply some_eq in E; subst f; exact (F_e8 G _ s)|].
    apply Forall_cons; [intros f E; apply some_eq in E; subst f; exact (F_f0 G _ s)|].
    apply Forall_cons; [intros f E; apply some_eq in E; subst f; exact (F_11 G _ s)|].
    apply Forall_cons; [intros f E; apply some_eq in E; subst f; exact (F_f2 G _ s)|].
    apply Forall_cons; [intros f E; apply some_eq in E; subst f; exact (F_f2 G _ s)|].
    apply Forall_cons; [intros f E; apply some_eq in E; subst f; exact (F_f4 G _ s)|].
    apply Forall_cons; [intros f E; apply some_eq in E; subst f; exact (F_f5 G _ s)|].
    apply Forall_cons; [intros f E; apply some_eq in E; subst f; exact (F_f6 G _ s)|].
    apply Forall_cons; [intros f E; apply some_eq in E; subst f; exact (F_f6 G _ s)|].
    apply Forall_cons; [intros f E; apply some_eq in E; subst f; exact (F_f8 G _ s)|].
    apply Forall_cons; [intros f E; apply some_eq in E; subst f; exact (F_f8 G _ s)|].
    apply Forall_cons; [intros f E; apply some_eq in E; subst f; exact (F_f8 G _ s)|].
    apply Forall_cons; [intros f E; apply some_eq in E; subst f; exact (F_f8 G _ s)|].
    apply Forall_cons; [intros f E; apply some_eq in E; subst f; exact (F_f8 G _ s)|].
    apply Forall_cons; [intros f E; apply some_eq in E; subst f; exact (F_f8 G _ s)|].
    apply Forall_cons; [intros f E; apply some_eq in E; subst f; exact (F_f8 G _ s)|].
    apply Forall_cons; [intros f E; apply some_eq in E; subst f; exact (F_f8 G _ s)|].
    constructor. }
  rewrite Forall_forall in H. intros f. apply H. apply in_zrange. lia.
Qed.
