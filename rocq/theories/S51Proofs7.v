(** Every instruction, in every state, leaves a well formed state. *)
From Verif Require Import Base S51Model S51Spec S51Obs S51DisModel S51Proofs S51Proofs2 S51Proofs3 S51Proofs4 S51Proofs5 S51Proofs6.

Lemma wk_call G s v : wf s -> 0 <= v <= 65536 -> wk (set_pc (push_byte G (tick 1 (push_byte G s (Z.land (pc s) 0xff)))
        (Z.land (Z.shiftr (pc (push_byte G s (Z.land (pc s) 0xff))) 8) 0xff)) v).
Proof. intros W Hv. apply wk_set_pc; [wfs|exact Hv]. Qed.
Lemma pc_push G t v : pc (push_byte G t v) = pc t.
Proof.
  unfold push_byte. destruct (sfr_write_frame t SP (sfr t SP + 1)) as (F1 & _).
  unfold iram_cell. destruct (_ <? _); exact F1.
Qed.
Lemma page_range p code l : 0 <= code < 256 -> 0 <= p < 65536 -> 0 <= l < 256 ->
  0 <= Z.lor (Z.land p 0xf800) (Z.land (Z.shiftr code 5) 7 * 256 + l) <= 65536.
Proof.
  intros Hc Hp Hl. destruct (op_page code Hc) as [-> Hh]. rewrite page by assumption.
  match goal with |- 0 <= ?x mod 65536 <= 65536 => pose proof (Z.mod_pos_bound x 65536 ltac:(lia)) end. lia.
Qed.
Lemma ret_safe G code s : wf s -> wk (instruction_22 G code s).
Proof.
  intros W. unfold instruction_22. cbv zeta. set (h := c_read s _). 
  assert (Hh : 0 <= h < 256) by (apply c_read_byte; exact W). clearbody h.
  set (s1 := tick 1 (sfr_write s SP (sfr s SP - 1))). assert (W1 : wf s1) by (unfold s1; wfs). clearbody s1.
  set (l := c_read s1 _). assert (Hl : 0 <= l < 256) by (apply c_read_byte; exact W1). clearbody l.
  apply wk_set_pc; [wfs|lia].
Qed.

Lemma S_00 G : wf_cfg G -> safe_op G instruction_00.
Proof.
  sop.
  unfold instruction_00, do_add, do_addc, do_subb_set, do_subb_write, xch, acc_write, acc. cbv zeta. ft W. cbv zeta beta iota.
  pose proof (code_lt G HG (pc s)) as Hb. wks.
Qed.
Lemma S_01 G : wf_cfg G -> safe_op G (instruction_01 G).
Proof.
  sop.
  unfold instruction_01. ft W. cbv zeta. pose proof (code_lt G HG (pc s)) as Hl.
  apply wk_set_pc; [wfs|]. cbn [pc tick set_pc]. apply page_range; [exact Hcode|apply Z.mod_pos_bound; lia|exact Hl].
Qed.
Lemma S_02 G : wf_cfg G -> safe_op G (instruction_02 G).
Proof.
  sop.
  unfold instruction_02. ft W. cbv zeta. pose proof (code_lt G HG (pc s)) as Hl.
  match goal with |- context [rom G ?p * 256 + rom G (pc s)] => pose proof (code_lt G HG p) as Hh end.
  apply wk_tick, wk_set_pc; [wfs|]. destruct (ltr G); lia.
Qed.
Lemma S_03 G : wf_cfg G -> safe_op G instruction_03.
Proof.
  sop.
  unfold instruction_03, do_add, do_addc, do_subb_set, do_subb_write, xch, acc_write, acc. cbv zeta. ft W. cbv zeta beta iota.
  pose proof (code_lt G HG (pc s)) as Hb. wks.
Qed.
Lemma S_04 G : wf_cfg G -> safe_op G instruction_04.
Proof.
  sop.
  unfold instruction_04, do_add, do_addc, do_subb_set, do_subb_write, xch, acc_write, acc. cbv zeta. ft W. cbv zeta beta iota.
  pose proof (code_lt G HG (pc s)) as Hb. wks.
Qed.
Lemma S_05 G : wf_cfg G -> safe_op G (instruction_05 G).
Proof.
  sop.
  unfold instruction_05, do_add, do_addc, do_subb_set, do_subb_write, xch, acc_write, acc. cbv zeta. ft W. cbv zeta beta iota.
  pose proof (code_lt G HG (pc s)) as Hb. wks.
Qed.
Lemma S_06 G : wf_cfg G -> safe_op G (instruction_06 G).
Proof.
  sop.
  unfold instruction_06, do_add, do_addc, do_subb_set, do_subb_write, xch, acc_write, acc. cbv zeta. ft W. cbv zeta beta iota.
  pose proof (code_lt G HG (pc s)) as Hb. wks.
Qed.
Lemma S_08 G : wf_cfg G -> safe_op G (instruction_08 G).
Proof.
  sop.
  unfold instruction_08, do_add, do_addc, do_subb_set, do_subb_write, xch, acc_write, acc. cbv zeta. ft W. cbv zeta beta iota.
  pose proof (code_lt G HG (pc s)) as Hb. wks.
Qed.
Lemma S_10 G : wf_cfg G -> safe_op G (instruction_10 G).
Proof.
  sop.
  unfold instruction_10. ft W. cbv zeta. pose proof (code_lt G HG (pc s)) as Hb. apply wk_tick.
  destruct (_ =? 0); wks.
Qed.
Lemma S_11 G : wf_cfg G -> safe_op G (instruction_11 G).
Proof.
  sop.
  unfold instruction_11. ft W. cbv zeta. pose proof (code_lt G HG (pc s)) as Hl.
  apply wk_set_pc; [wfs|]. rewrite pc_push. cbn [pc tick]. rewrite pc_push. cbn [pc set_pc].
  apply page_range; [exact Hcode|apply Z.mod_pos_bound; lia|exact Hl].
Qed.
Lemma S_12 G : wf_cfg G -> safe_op G (instruction_12 G).
Proof.
  sop.
  unfold instruction_12, inst_lcall. rewrite Z.eqb_refl. ft W. cbv zeta beta iota. pose proof (code_lt G HG (pc s)) as Hl.
  match goal with |- context [rom G (pc s) * 256 + rom G ?p] => pose proof (code_lt G HG p) as Hh end.
  apply wk_set_pc; [wfs|]. lia.
Qed.
Lemma S_13 G : wf_cfg G -> safe_op G instruction_13.
Proof.
  sop.
  unfold instruction_13, do_add, do_addc, do_subb_set, do_subb_write, xch, acc_write, acc. cbv zeta. ft W. cbv zeta beta iota.
  pose proof (code_lt G HG (pc s)) as Hb. wks.
Qed.
Lemma S_14 G : wf_cfg G -> safe_op G instruction_14.
Proof.
  sop.
  unfold instruction_14, do_add, do_addc, do_subb_set, do_subb_write, xch, acc_write, acc. cbv zeta. ft W. cbv zeta beta iota.
  pose proof (code_lt G HG (pc s)) as Hb. wks.
Qed.
Lemma S_15 G : wf_cfg G -> safe_op G (instruction_15 G).
Proof.
  sop.
  unfold instruction_15, do_add, do_addc, do_subb_set, do_subb_write, xch, acc_write, acc. cbv zeta. ft W. cbv zeta beta iota.
  pose proof (code_lt G HG (pc s)) as Hb. wks.
Qed.
Lemma S_16 G : wf_cfg G -> safe_op G (instruction_16 G).
Proof.
  sop.
  unfold instruction_16, do_add, do_addc, do_subb_set, do_subb_write, xch, acc_write, acc. cbv zeta. ft W. cbv zeta beta iota.
  pose proof (code_lt G HG (pc s)) as Hb. wks.
Qed.
Lemma S_18 G : wf_cfg G -> safe_op G (instruction_18 G).
Proof.
  sop.
  unfold instruction_18, do_add, do_addc, do_subb_set, do_subb_write, xch, acc_write, acc. cbv zeta. ft W. cbv zeta beta iota.
  pose proof (code_lt G HG (pc s)) as Hb. wks.
Qed.
Lemma S_20 G : wf_cfg G -> safe_op G (instruction_20 G).
Proof.
  sop.
  unfold instruction_20, do_add, do_addc, do_subb_set, do_subb_write, xch, acc_write, acc. cbv zeta. ft W. cbv zeta beta iota.
  pose proof (code_lt G HG (pc s)) as Hb. wks.
Qed.
Lemma S_22 G : wf_cfg G -> safe_op G (instruction_22 G).
Proof.
  sop.
  apply ret_safe. exact W.
Qed.
Lemma S_23 G : wf_cfg G -> safe_op G instruction_23.
Proof.
  sop.
  unfold instruction_23, do_add, do_addc, do_subb_set, do_subb_write, xch, acc_write, acc. cbv zeta. ft W. cbv zeta beta iota.
  pose proof (code_lt G HG (pc s)) as Hb. wks.
Qed.
Lemma S_24 G : wf_cfg G -> safe_op G (instruction_24 G).
Proof.
  sop.
  unfold instruction_24, do_add, do_addc, do_subb_set, do_subb_write, xch, acc_write, acc. cbv zeta. ft W. cbv zeta beta iota.
  pose proof (code_lt G HG (pc s)) as Hb. wks.
Qed.
Lemma S_25 G : wf_cfg G -> safe_op G (instruction_25 G).
Proof.
  sop.
  unfold instruction_25, do_add, do_addc, do_subb_set, do_subb_write, xch, acc_write, acc. cbv zeta. ft W. cbv zeta beta iota.
  pose proof (code_lt G HG (pc s)) as Hb. wks.
Qed.
Lemma S_26 G : wf_cfg G -> safe_op G (instruction_26 G).
Proof.
  sop.
  unfold instruction_26, do_add, do_addc, do_subb_set, do_subb_write, xch, acc_write, acc. cbv zeta. ft W. cbv zeta beta iota.
  pose proof (code_lt G HG (pc s)) as Hb. wks.
Qed.
Lemma S_28 G : wf_cfg G -> safe_op G instruction_28.
Proof.
  sop.
  unfold instruction_28, do_add, do_addc, do_subb_set, do_subb_write, xch, acc_write, acc. cbv zeta. ft W. cbv zeta beta iota.
  pose proof (code_lt G HG (pc s)) as Hb. wks.
Qed.
Lemma S_30 G : wf_cfg G -> safe_op G (instruction_30 G).
Proof.
  sop.
  unfold instruction_30, do_add, do_addc, do_subb_set, do_subb_write, xch, acc_write, acc. cbv zeta. ft W. cbv zeta beta iota.
  pose proof (code_lt G HG (pc s)) as Hb. wks.
Qed.
Lemma S_32 G : wf_cfg G -> safe_op G (instruction_32 G).
Proof.
  sop.
  apply wk_levels. apply ret_safe. exact W.
Qed.
Lemma S_33 G : wf_cfg G -> safe_op G instruction_33.
Proof.
  sop.
  unfold instruction_33, do_add, do_addc, do_subb_set, do_subb_write, xch, acc_write, acc. cbv zeta. ft W. cbv zeta beta iota.
  pose proof (code_lt G HG (pc s)) as Hb. wks.
Qed.
Lemma S_34 G : wf_cfg G -> safe_op G (instruction_34 G).
Proof.
  sop.
  unfold instruction_34, do_add, do_addc, do_subb_set, do_subb_write, xch, acc_write, acc. cbv zeta. ft W. cbv zeta beta iota.
  pose proof (code_lt G HG (pc s)) as Hb. wks.
Qed.
Lemma S_35 G : wf_cfg G -> safe_op G (instruction_35 G).
Proof.
  sop.
  unfold instruction_35, do_add, do_addc, do_subb_set, do_subb_write, xch, acc_write, acc. cbv zeta. ft W. cbv zeta beta iota.
  pose proof (code_lt G HG (pc s)) as Hb. wks.
Qed.
Lemma S_36 G : wf_cfg G -> safe_op G (instruction_36 G).
Proof.
  sop.
  unfold instruction_36, do_add, do_addc, do_subb_set, do_subb_write, xch, acc_write, acc. cbv zeta. ft W. cbv zeta beta iota.
  pose proof (code_lt G HG (pc s)) as Hb. wks.
Qed.
Lemma S_38 G : wf_cfg G -> safe_op G instruction_38.
Proof.
  sop.
  unfold instruction_38, do_add, do_addc, do_subb_set, do_subb_write, xch, acc_write, acc. cbv zeta. ft W. cbv zeta beta iota.
  pose proof (code_lt G HG (pc s)) as Hb. wks.
Qed.
Lemma S_40 G : wf_cfg G -> safe_op G (instruction_40 G).
Proof.
  sop.
  unfold instruction_40, do_add, do_addc, do_subb_set, do_subb_write, xch, acc_write, acc. cbv zeta. ft W. cbv zeta beta iota.
  pose proof (code_lt G HG (pc s)) as Hb. wks.
Qed.
Lemma S_42 G : wf_cfg G -> safe_op G (instruction_42 G).
Proof.
  sop.
  unfold instruction_42, do_add, do_addc, do_subb_set, do_subb_write, xch, acc_write, acc. cbv zeta. ft W. cbv zeta beta iota.
  pose proof (code_lt G HG (pc s)) as Hb. wks.
Qed.
Lemma S_43 G : wf_cfg G -> safe_op G (instruction_43 G).
Proof.
  sop.
  unfold instruction_43, do_add, do_addc, do_subb_set, do_subb_write, xch, acc_write, acc. cbv zeta. ft W. cbv zeta beta iota.
  pose proof (code_lt G HG (pc s)) as Hb. wks.
Qed.
Lemma S_44 G : wf_cfg G -> safe_op G (instruction_44 G).
Proof.
  sop.
  unfold instruction_44, do_add, do_addc, do_subb_set, do_subb_write, xch, acc_write, acc. cbv zeta. ft W. cbv zeta beta iota.
  pose proof (code_lt G HG (pc s)) as Hb. wks.
Qed.
Lemma S_45 G : wf_cfg G -> safe_op G (instruction_45 G).
Proof.
  sop.
  unfold instruction_45, do_add, do_addc, do_subb_set, do_subb_write, xch, acc_write, acc. cbv zeta. ft W. cbv zeta beta iota.
  pose proof (code_lt G HG (pc s)) as Hb. wks.
Qed.
Lemma S_46 G : wf_cfg G -> safe_op G (instruction_46 G).
Proof.
  sop.
  unfold instruction_46, do_add, do_addc, do_subb_set, do_subb_write, xch, acc_write, acc. cbv zeta. ft W. cbv zeta beta iota.
  pose proof (code_lt G HG (pc s)) as Hb. wks.
Qed.
Lemma S_48 G : wf_cfg G -> safe_op G instruction_48.
Proof.
  sop.
  unfold instruction_48, do_add, do_addc, do_subb_set, do_subb_write, xch, acc_write, acc. cbv zeta. ft W. cbv zeta beta iota.
  pose proof (code_lt G HG (pc s)) as Hb. wks.
Qed.
Lemma S_50 G : wf_cfg G -> safe_op G (instruction_50 G).
Proof.
  sop.
  unfold instruction_50, do_add, do_addc, do_subb_set, do_subb_write, xch, acc_write, acc. cbv zeta. ft W. cbv zeta beta iota.
  pose proof (code_lt G HG (pc s)) as Hb. wks.
Qed.
Lemma S_52 G : wf_cfg G -> safe_op G (instruction_52 G).
Proof.
  sop.
  unfold instruction_52, do_add, do_addc, do_subb_set, do_subb_write, xch, acc_write, acc. cbv zeta. ft W. cbv zeta beta iota.
  pose proof (code_lt G HG (pc s)) as Hb. wks.
Qed.
Lemma S_53 G : wf_cfg G -> safe_op G (instruction_53 G).
Proof.
  sop.
  unfold instruction_53, do_add, do_addc, do_subb_set, do_subb_write, xch, acc_write, acc. cbv zeta. ft W. cbv zeta beta iota.
  pose proof (code_lt G HG (pc s)) as Hb. wks.
Qed.
Lemma S_54 G : wf_cfg G -> safe_op G (instruction_54 G).
Proof.
  sop.
  unfold instruction_54, do_add, do_addc, do_subb_set, do_subb_write, xch, acc_write, acc. cbv zeta. ft W. cbv zeta beta iota.
  pose proof (code_lt G HG (pc s)) as Hb. wks.
Qed.
Lemma S_55 G : wf_cfg G -> safe_op G (instruction_55 G).
Proof.
  sop.
  unfold instruction_55, do_add, do_addc, do_subb_set, do_subb_write, xch, acc_write, acc. cbv zeta. ft W. cbv zeta beta iota.
  pose proof (code_lt G HG (pc s)) as Hb. wks.
Qed.
Lemma S_56 G : wf_cfg G -> safe_op G (instruction_56 G).
Proof.
  sop.
  unfold instruction_56, do_add, do_addc, do_subb_set, do_subb_write, xch, acc_write, acc. cbv zeta. ft W. cbv zeta beta iota.
  pose proof (code_lt G HG (pc s)) as Hb. wks.
Qed.
Lemma S_58 G : wf_cfg G -> safe_op G instruction_58.
Proof.
  sop.
  unfold instruction_58, do_add, do_addc, do_subb_set, do_subb_write, xch, acc_write, acc. cbv zeta. ft W. cbv zeta beta iota.
  pose proof (code_lt G HG (pc s)) as Hb. wks.
Qed.
Lemma S_60 G : wf_cfg G -> safe_op G (instruction_60 G).
Proof.
  sop.
  unfold instruction_60, do_add, do_addc, do_subb_set, do_subb_write, xch, acc_write, acc. cbv zeta. ft W. cbv zeta beta iota.
  pose proof (code_lt G HG (pc s)) as Hb. wks.
Qed.
Lemma S_62 G : wf_cfg G -> safe_op G (instruction_62 G).
Proof.
  sop.
  unfold instruction_62, do_add, do_addc, do_subb_set, do_subb_write, xch, acc_write, acc. cbv zeta. ft W. cbv zeta beta iota.
  pose proof (code_lt G HG (pc s)) as Hb. wks.
Qed.
Lemma S_63 G : wf_cfg G -> safe_op G (instruction_63 G).
Proof.
  sop.
  unfold instruction_63, do_add, do_addc, do_subb_set, do_subb_write, xch, acc_write, acc. cbv zeta. ft W. cbv zeta beta iota.
  pose proof (code_lt G HG (pc s)) as Hb. wks.
Qed.
Lemma S_64 G : wf_cfg G -> safe_op G (instruction_64 G).
Proof.
  sop.
  unfold instruction_64, do_add, do_addc, do_subb_set, do_subb_write, xch, acc_write, acc. cbv zeta. ft W. cbv zeta beta iota.
  pose proof (code_lt G HG (pc s)) as Hb. wks.
Qed.
Lemma S_65 G : wf_cfg G -> safe_op G (instruction_65 G).
Proof.
  sop.
  unfold instruction_65, do_add, do_addc, do_subb_set, do_subb_write, xch, acc_write, acc. cbv zeta. ft W. cbv zeta beta iota.
  pose proof (code_lt G HG (pc s)) as Hb. wks.
Qed.
Lemma S_66 G : wf_cfg G -> safe_op G (instruction_66 G).
Proof.
  sop.
  unfold instruction_66, do_add, do_addc, do_subb_set, do_subb_write, xch, acc_write, acc. cbv zeta. ft W. cbv zeta beta iota.
  pose proof (code_lt G HG (pc s)) as Hb. wks.
Qed.
Lemma S_68 G : wf_cfg G -> safe_op G instruction_68.
Proof.
  sop.
  unfold instruction_68, do_add, do_addc, do_subb_set, do_subb_write, xch, acc_write, acc. cbv zeta. ft W. cbv zeta beta iota.
  pose proof (code_lt G HG (pc s)) as Hb. wks.
Qed.
Lemma S_70 G : wf_cfg G -> safe_op G (instruction_70 G).
Proof.
  sop.
  unfold instruction_70, do_add, do_addc, do_subb_set, do_subb_write, xch, acc_write, acc. cbv zeta. ft W. cbv zeta beta iota.
  pose proof (code_lt G HG (pc s)) as Hb. wks.
Qed.
Lemma S_72 G : wf_cfg G -> safe_op G (instruction_72 G).
Proof.
  sop.
  unfold instruction_72, do_add, do_addc, do_subb_set, do_subb_write, xch, acc_write, acc. cbv zeta. ft W. cbv zeta beta iota.
  pose proof (code_lt G HG (pc s)) as Hb. wks.
Qed.
Lemma S_73 G : wf_cfg G -> safe_op G instruction_73.
Proof.
  sop.
  unfold instruction_73, acc. apply wk_tick, wk_set_pc; [wfs|]. unfold validate_address.
  pose proof (HBS DPH). pose proof (HBS DPL). pose proof (HBS ACC).
  set (t := sfr s DPH * 256 + sfr s DPL + sfr s ACC). assert (Ht : 0 <= t < 131072) by (subst t; lia). clearbody t.
  destruct (0x10000 <? t) eqn:E; [|apply Z.ltb_ge in E; lia].
  pose proof (Z.mod_pos_bound t 0x10000 ltac:(lia)). lia.
Qed.
Lemma S_74 G : wf_cfg G -> safe_op G (instruction_74 G).
Proof.
  sop.
  unfold instruction_74, do_add, do_addc, do_subb_set, do_subb_write, xch, acc_write, acc. cbv zeta. ft W. cbv zeta beta iota.
  pose proof (code_lt G HG (pc s)) as Hb. wks.
Qed.
Lemma S_75 G : wf_cfg G -> safe_op G (instruction_75 G).
Proof.
  sop.
  unfold instruction_75, do_add, do_addc, do_subb_set, do_subb_write, xch, acc_write, acc. cbv zeta. ft W. cbv zeta beta iota.
  pose proof (code_lt G HG (pc s)) as Hb. wks.
Qed.
Lemma S_76 G : wf_cfg G -> safe_op G (instruction_76 G).
Proof.
  sop.
  unfold instruction_76, do_add, do_addc, do_subb_set, do_subb_write, xch, acc_write, acc. cbv zeta. ft W. cbv zeta beta iota.
  pose proof (code_lt G HG (pc s)) as Hb. wks.
Qed.
Lemma S_78 G : wf_cfg G -> safe_op G (instruction_78 G).
Proof.
  sop.
  unfold instruction_78, do_add, do_addc, do_subb_set, do_subb_write, xch, acc_write, acc. cbv zeta. ft W. cbv zeta beta iota.
  pose proof (code_lt G HG (pc s)) as Hb. wks.
Qed.
Lemma S_80 G : wf_cfg G -> safe_op G (instruction_80 G).
Proof.
  sop.
  unfold instruction_80, do_add, do_addc, do_subb_set, do_subb_write, xch, acc_write, acc. cbv zeta. ft W. cbv zeta beta iota.
  pose proof (code_lt G HG (pc s)) as Hb. wks.
Qed.
Lemma S_82 G : wf_cfg G -> safe_op G (instruction_82 G).
Proof.
  sop.
  unfold instruction_82, do_add, do_addc, do_subb_set, do_subb_write, xch, acc_write, acc. cbv zeta. ft W. cbv zeta beta iota.
  pose proof (code_lt G HG (pc s)) as Hb. wks.
Qed.
Lemma S_83 G : wf_cfg G -> safe_op G (instruction_83 G).
Proof.
  sop.
  unfold instruction_83, do_add, do_addc, do_subb_set, do_subb_write, xch, acc_write, acc. cbv zeta. ft W. cbv zeta beta iota.
  pose proof (code_lt G HG (pc s)) as Hb. wks.
Qed.
Lemma S_84 G : wf_cfg G -> safe_op G instruction_84.
Proof.
  sop.
  unfold instruction_84. cbv zeta. destruct (_ =? 0); cbv beta iota; unfold acc_write; wks.
Qed.
Lemma S_85 G : wf_cfg G -> safe_op G (instruction_85 G).
Proof.
  sop.
  unfold instruction_85, do_add, do_addc, do_subb_set, do_subb_write, xch, acc_write, acc. cbv zeta. ft W. cbv zeta beta iota.
  pose proof (code_lt G HG (pc s)) as Hb. wks.
Qed.
Lemma S_86 G : wf_cfg G -> safe_op G (instruction_86 G).
Proof.
  sop.
  unfold instruction_86, do_add, do_addc, do_subb_set, do_subb_write, xch, acc_write, acc. cbv zeta. ft W. cbv zeta beta iota.
  pose proof (code_lt G HG (pc s)) as Hb. wks.
Qed.
Lemma S_88 G : wf_cfg G -> safe_op G (instruction_88 G).
Proof.
  sop.
  unfold instruction_88, do_add, do_addc, do_subb_set, do_subb_write, xch, acc_write, acc. cbv zeta. ft W. cbv zeta beta iota.
  pose proof (code_lt G HG (pc s)) as Hb. wks.
Qed.
Lemma S_90 G : wf_cfg G -> safe_op G (instruction_90 G).
Proof.
  sop.
  unfold instruction_90, do_add, do_addc, do_subb_set, do_subb_write, xch, acc_write, acc. cbv zeta. ft W. cbv zeta beta iota.
  pose proof (code_lt G HG (pc s)) as Hb. wks.
Qed.
Lemma S_92 G : wf_cfg G -> safe_op G (instruction_92 G).
Proof.
  sop.
  unfold instruction_92, do_add, do_addc, do_subb_set, do_subb_write, xch, acc_write, acc. cbv zeta. ft W. cbv zeta beta iota.
  pose proof (code_lt G HG (pc s)) as Hb. wks.
Qed.
Lemma S_93 G : wf_cfg G -> safe_op G (instruction_93 G).
Proof.
  sop.
  unfold instruction_93, do_add, do_addc, do_subb_set, do_subb_write, xch, acc_write, acc. cbv zeta. ft W. cbv zeta beta iota.
  pose proof (code_lt G HG (pc s)) as Hb. wks.
Qed.
Lemma S_94 G : wf_cfg G -> safe_op G (instruction_94 G).
Proof.
  sop.
  unfold instruction_94, do_add, do_addc, do_subb_set, do_subb_write, xch, acc_write, acc. cbv zeta. ft W. cbv zeta beta iota.
  pose proof (code_lt G HG (pc s)) as Hb. wks.
Qed.
Lemma S_95 G : wf_cfg G -> safe_op G (instruction_95 G).
Proof.
  sop.
  unfold instruction_95, do_add, do_addc, do_subb_set, do_subb_write, xch, acc_write, acc. cbv zeta. ft W. cbv zeta beta iota.
  pose proof (code_lt G HG (pc s)) as Hb. wks.
Qed.
Lemma S_96 G : wf_cfg G -> safe_op G (instruction_96 G).
Proof.
  sop.
  unfold instruction_96, do_add, do_addc, do_subb_set, do_subb_write, xch, acc_write, acc. cbv zeta. ft W. cbv zeta beta iota.
  pose proof (code_lt G HG (pc s)) as Hb. wks.
Qed.
Lemma S_98 G : wf_cfg G -> safe_op G instruction_98.
Proof.
  sop.
  unfold instruction_98, do_add, do_addc, do_subb_set, do_subb_write, xch, acc_write, acc. cbv zeta. ft W. cbv zeta beta iota.
  pose proof (code_lt G HG (pc s)) as Hb. wks.
Qed.
Lemma S_a0 G : wf_cfg G -> safe_op G (instruction_a0 G).
Proof.
  sop.
  unfold instruction_a0, do_add, do_addc, do_subb_set, do_subb_write, xch, acc_write, acc. cbv zeta. ft W. cbv zeta beta iota.
  pose proof (code_lt G HG (pc s)) as Hb. wks.
Qed.
Lemma S_a2 G : wf_cfg G -> safe_op G (instruction_a2 G).
Proof.
  sop.
  unfold instruction_a2, do_add, do_addc, do_subb_set, do_subb_write, xch, acc_write, acc. cbv zeta. ft W. cbv zeta beta iota.
  pose proof (code_lt G HG (pc s)) as Hb. wks.
Qed.
Lemma S_a3 G : wf_cfg G -> safe_op G instruction_a3.
Proof.
  sop.
  unfold instruction_a3, do_add, do_addc, do_subb_set, do_subb_write, xch, acc_write, acc. cbv zeta. ft W. cbv zeta beta iota.
  pose proof (code_lt G HG (pc s)) as Hb. wks.
Qed.
Lemma S_a4 G : wf_cfg G -> safe_op G instruction_a4.
Proof.
  sop.
  unfold instruction_a4, do_add, do_addc, do_subb_set, do_subb_write, xch, acc_write, acc. cbv zeta. ft W. cbv zeta beta iota.
  pose proof (code_lt G HG (pc s)) as Hb. wks.
Qed.
Lemma S_a6 G : wf_cfg G -> safe_op G (instruction_a6 G).
Proof.
  sop.
  unfold instruction_a6, do_add, do_addc, do_subb_set, do_subb_write, xch, acc_write, acc. cbv zeta. ft W. cbv zeta beta iota.
  pose proof (code_lt G HG (pc s)) as Hb. wks.
Qed.
Lemma S_a8 G : wf_cfg G -> safe_op G (instruction_a8 G).
Proof.
  sop.
  unfold instruction_a8, do_add, do_addc, do_subb_set, do_subb_write, xch, acc_write, acc. cbv zeta. ft W. cbv zeta beta iota.
  pose proof (code_lt G HG (pc s)) as Hb. wks.
Qed.
Lemma S_b0 G : wf_cfg G -> safe_op G (instruction_b0 G).
Proof.
  sop.
  unfold instruction_b0, do_add, do_addc, do_subb_set, do_subb_write, xch, acc_write, acc. cbv zeta. ft W. cbv zeta beta iota.
  pose proof (code_lt G HG (pc s)) as Hb. wks.
Qed.
Lemma S_b2 G : wf_cfg G -> safe_op G (instruction_b2 G).
Proof.
  sop.
  unfold instruction_b2, do_add, do_addc, do_subb_set, do_subb_write, xch, acc_write, acc. cbv zeta. ft W. cbv zeta beta iota.
  pose proof (code_lt G HG (pc s)) as Hb. wks.
Qed.
Lemma S_b3 G : wf_cfg G -> safe_op G instruction_b3.
Proof.
  sop.
  unfold instruction_b3, do_add, do_addc, do_subb_set, do_subb_write, xch, acc_write, acc. cbv zeta. ft W. cbv zeta beta iota.
  pose proof (code_lt G HG (pc s)) as Hb. wks.
Qed.
Lemma S_b4 G : wf_cfg G -> safe_op G (instruction_b4 G).
Proof.
  sop.
  unfold instruction_b4, do_add, do_addc, do_subb_set, do_subb_write, xch, acc_write, acc. cbv zeta. ft W. cbv zeta beta iota.
  pose proof (code_lt G HG (pc s)) as Hb. wks.
Qed.
Lemma S_b5 G : wf_cfg G -> safe_op G (instruction_b5 G).
Proof.
  sop.
  unfold instruction_b5, do_add, do_addc, do_subb_set, do_subb_write, xch, acc_write, acc. cbv zeta. ft W. cbv zeta beta iota.
  pose proof (code_lt G HG (pc s)) as Hb. wks.
Qed.
Lemma S_b6 G : wf_cfg G -> safe_op G (instruction_b6 G).
Proof.
  sop.
  unfold instruction_b6, do_add, do_addc, do_subb_set, do_subb_write, xch, acc_write, acc. cbv zeta. ft W. cbv zeta beta iota.
  pose proof (code_lt G HG (pc s)) as Hb. wks.
Qed.
Lemma S_b8 G : wf_cfg G -> safe_op G (instruction_b8 G).
Proof.
  sop.
  unfold instruction_b8, do_add, do_addc, do_subb_set, do_subb_write, xch, acc_write, acc. cbv zeta. ft W. cbv zeta beta iota.
  pose proof (code_lt G HG (pc s)) as Hb. wks.
Qed.
Lemma S_c0 G : wf_cfg G -> safe_op G (instruction_c0 G).
Proof.
  sop.
  unfold instruction_c0, do_add, do_addc, do_subb_set, do_subb_write, xch, acc_write, acc. cbv zeta. ft W. cbv zeta beta iota.
  pose proof (code_lt G HG (pc s)) as Hb. wks.
Qed.
Lemma S_c2 G : wf_cfg G -> safe_op G (instruction_c2 G).
Proof.
  sop.
  unfold instruction_c2, do_add, do_addc, do_subb_set, do_subb_write, xch, acc_write, acc. cbv zeta. ft W. cbv zeta beta iota.
  pose proof (code_lt G HG (pc s)) as Hb. wks.
Qed.
Lemma S_c3 G : wf_cfg G -> safe_op G instruction_c3.
Proof.
  sop.
  unfold instruction_c3, do_add, do_addc, do_subb_set, do_subb_write, xch, acc_write, acc. cbv zeta. ft W. cbv zeta beta iota.
  pose proof (code_lt G HG (pc s)) as Hb. wks.
Qed.
Lemma S_c4 G : wf_cfg G -> safe_op G instruction_c4.
Proof.
  sop.
  unfold instruction_c4, do_add, do_addc, do_subb_set, do_subb_write, xch, acc_write, acc. cbv zeta. ft W. cbv zeta beta iota.
  pose proof (code_lt G HG (pc s)) as Hb. wks.
Qed.
Lemma S_c5 G : wf_cfg G -> safe_op G (instruction_c5 G).
Proof.
  sop.
  unfold instruction_c5, do_add, do_addc, do_subb_set, do_subb_write, xch, acc_write, acc. cbv zeta. ft W. cbv zeta beta iota.
  pose proof (code_lt G HG (pc s)) as Hb. wks.
Qed.
Lemma S_c6 G : wf_cfg G -> safe_op G (instruction_c6 G).
Proof.
  sop.
  unfold instruction_c6, do_add, do_addc, do_subb_set, do_subb_write, xch, acc_write, acc. cbv zeta. ft W. cbv zeta beta iota.
  pose proof (code_lt G HG (pc s)) as Hb. wks.
Qed.
Lemma S_c8 G : wf_cfg G -> safe_op G (instruction_c8 G).
Proof.
  sop.
  unfold instruction_c8, do_add, do_addc, do_subb_set, do_subb_write, xch, acc_write, acc. cbv zeta. ft W. cbv zeta beta iota.
  pose proof (code_lt G HG (pc s)) as Hb. wks.
Qed.
Lemma S_d0 G : wf_cfg G -> safe_op G (instruction_d0 G).
Proof.
  sop.
  unfold instruction_d0, do_add, do_addc, do_subb_set, do_subb_write, xch, acc_write, acc. cbv zeta. ft W. cbv zeta beta iota.
  pose proof (code_lt G HG (pc s)) as Hb. wks.
Qed.
Lemma S_d2 G : wf_cfg G -> safe_op G (instruction_d2 G).
Proof.
  sop.
  unfold instruction_d2, do_add, do_addc, do_subb_set, do_subb_write, xch, acc_write, acc. cbv zeta. ft W. cbv zeta beta iota.
  pose proof (code_lt G HG (pc s)) as Hb. wks.
Qed.
Lemma S_d3 G : wf_cfg G -> safe_op G instruction_d3.
Proof.
  sop.
  unfold instruction_d3, do_add, do_addc, do_subb_set, do_subb_write, xch, acc_write, acc. cbv zeta. ft W. cbv zeta beta iota.
  pose proof (code_lt G HG (pc s)) as Hb. wks.
Qed.
Lemma S_d4 G : wf_cfg G -> safe_op G instruction_d4.
Proof.
  sop.
  unfold instruction_d4. cbv zeta.
  destruct ((9 <? _) || _); cbv iota beta;
    match goal with |- context [if ?c then (u8 _, _) else _] => destruct c end; unfold acc_write; wks.
Qed.
Lemma S_d5 G : wf_cfg G -> safe_op G (instruction_d5 G).
Proof.
  sop.
  unfold instruction_d5, do_add, do_addc, do_subb_set, do_subb_write, xch, acc_write, acc. cbv zeta. ft W. cbv zeta beta iota.
  pose proof (code_lt G HG (pc s)) as Hb. wks.
Qed.
Lemma S_d6 G : wf_cfg G -> safe_op G (instruction_d6 G).
Proof.
  sop.
  unfold instruction_d6, do_add, do_addc, do_subb_set, do_subb_write, xch, acc_write, acc. cbv zeta. ft W. cbv zeta beta iota.
  pose proof (code_lt G HG (pc s)) as Hb. wks.
Qed.
Lemma S_d8 G : wf_cfg G -> safe_op G (instruction_d8 G).
Proof.
  sop.
  unfold instruction_d8, do_add, do_addc, do_subb_set, do_subb_write, xch, acc_write, acc. cbv zeta. ft W. cbv zeta beta iota.
  pose proof (code_lt G HG (pc s)) as Hb. wks.
Qed.
Lemma S_e0 G : wf_cfg G -> safe_op G instruction_e0.
Proof.
  sop.
  unfold instruction_e0, do_add, do_addc, do_subb_set, do_subb_write, xch, acc_write, acc. cbv zeta. ft W. cbv zeta beta iota.
  pose proof (code_lt G HG (pc s)) as Hb. wks.
Qed.
Lemma S_e2 G : wf_cfg G -> safe_op G instruction_e2.
Proof.
  sop.
  unfold instruction_e2, do_add, do_addc, do_subb_set, do_subb_write, xch, acc_write, acc. cbv zeta. ft W. cbv zeta beta iota.
  pose proof (code_lt G HG (pc s)) as Hb. wks.
Qed.
Lemma S_e4 G : wf_cfg G -> safe_op G instruction_e4.
Proof.
  sop.
  unfold instruction_e4, do_add, do_addc, do_subb_set, do_subb_write, xch, acc_write, acc. cbv zeta. ft W. cbv zeta beta iota.
  pose proof (code_lt G HG (pc s)) as Hb. wks.
Qed.
Lemma S_e5 G : wf_cfg G -> safe_op G (instruction_e5 G).
Proof.
  sop.
  unfold instruction_e5, do_add, do_addc, do_subb_set, do_subb_write, xch, acc_write, acc. cbv zeta. ft W. cbv zeta beta iota.
  pose proof (code_lt G HG (pc s)) as Hb. wks.
Qed.
Lemma S_e6 G : wf_cfg G -> safe_op G (instruction_e6 G).
Proof.
  sop.
  unfold instruction_e6, do_add, do_addc, do_subb_set, do_subb_write, xch, acc_write, acc. cbv zeta. ft W. cbv zeta beta iota.
  pose proof (code_lt G HG (pc s)) as Hb. wks.
Qed.
Lemma S_e8 G : wf_cfg G -> safe_op G instruction_e8.
Proof.
  sop.
  unfold instruction_e8, do_add, do_addc, do_subb_set, do_subb_write, xch, acc_write, acc. cbv zeta. ft W. cbv zeta beta iota.
  pose proof (code_lt G HG (pc s)) as Hb. wks.
Qed.
Lemma S_f0 G : wf_cfg G -> safe_op G instruction_f0.
Proof.
  sop.
  unfold instruction_f0, do_add, do_addc, do_subb_set, do_subb_write, xch, acc_write, acc. cbv zeta. ft W. cbv zeta beta iota.
  pose proof (code_lt G HG (pc s)) as Hb. wks.
Qed.
Lemma S_f2 G : wf_cfg G -> safe_op G instruction_f2.
Proof.
  sop.
  unfold instruction_f2, do_add, do_addc, do_subb_set, do_subb_write, xch, acc_write, acc. cbv zeta. ft W. cbv zeta beta iota.
  pose proof (code_lt G HG (pc s)) as Hb. wks.
Qed.
Lemma S_f4 G : wf_cfg G -> safe_op G instruction_f4.
Proof.
  sop.
  unfold instruction_f4, do_add, do_addc, do_subb_set, do_subb_write, xch, acc_write, acc. cbv zeta. ft W. cbv zeta beta iota.
  pose proof (code_lt G HG (pc s)) as Hb. wks.
Qed.
Lemma S_f5 G : wf_cfg G -> safe_op G (instruction_f5 G).
Proof.
  sop.
  unfold instruction_f5, do_add, do_addc, do_subb_set, do_subb_write, xch, acc_write, acc. cbv zeta. ft W. cbv zeta beta iota.
  pose proof (code_lt G HG (pc s)) as Hb. wks.
Qed.
Lemma S_f6 G : wf_cfg G -> safe_op G (instruction_f6 G).
Proof.
  sop.
  unfold instruction_f6, do_add, do_addc, do_subb_set, do_subb_write, xch, acc_write, acc. cbv zeta. ft W. cbv zeta beta iota.
  pose proof (code_lt G HG (pc s)) as Hb. wks.
Qed.
Lemma S_f8 G : wf_cfg G -> safe_op G (instruction_f8 G).
Proof.
  sop.
  unfold instruction_f8, do_add, do_addc, do_subb_set, do_subb_write, xch, acc_write, acc. cbv zeta. ft W. cbv zeta beta iota.
  pose proof (code_lt G HG (pc s)) as Hb. wks.
Qed.

Lemma itab_safe G op f : wf_cfg G -> 0 <= op < 256 -> itab G op = Some f -> safe_op G f.
Proof.
  intros HG Ho. revert f.
  assert (H : Forall (fun op => forall f, itab G op = Some f -> safe_op G f) (zrange 256)).
  { change (zrange 256) with [0x0; 0x1; 0x2; 0x3; 0x4; 0x5; 0x6; 0x7; 0x8; 0x9; 0xa; 0xb; 0xc; 0xd; 0xe; 0xf; 0x10; 0x11; 0x12; 0x13; 0x14; 0x15; 0x16; 0x17; 0x18; 0x19; 0x1a; 0x1b; 0x1c; 0x1d; 0x1e; 0x1f; 0x20; 0x21; 0x22; 0x23; 0x24; 0x25; 0x26; 0x27; 0x28; 0x29; 0x2a; 0x2b; 0x2c; 0x2d; 0x2e; 0x2f; 0x30; 0x31; 0x32; 0x33; 0x34; 0x35; 0x36; 0x37; 0x38; 0x39; 0x3a; 0x3b; 0x3c; 0x3d; 0x3e; 0x3f; 0x40; 0x41; 0x42; 0x43; 0x44; 0x45; 0x46; 0x47; 0x48; 0x49; 0x4a; 0x4b; 0x4c; 0x4d; 0x4e; 0x4f; 0x50; 0x51; 0x52; 0x53; 0x54; 0x55; 0x56; 0x57; 0x58; 0x59; 0x5a; 0x5b; 0x5c; 0x5d; 0x5e; 0x5f; 0x60; 0x61; 0x62; 0x63; 0x64; 0x65; 0x66; 0x67; 0x68; 0x69; 0x6a; 0x6b; 0x6c; 0x6d; 0x6e; 0x6f; 0x70; 0x71; 0x72; 0x73; 0x74; 0x75; 0x76; 0x77; 0x78; 0x79; 0x7a; 0x7b; 0x7c; 0x7d; 0x7e; 0x7f; 0x80; 0x81; 0x82; 0x83; 0x84; 0x85; 0x86; 0x87; 0x88; 0x89; 0x8a; 0x8b; 0x8c; 0x8d; 0x8e; 0x8f; 0x90; 0x91; 0x92; 0x93; 0x94; 0x95; 0x96; 0x97; 0x98; 0x99; 0x9a; 0x9b; 0x9c; 0x9d; 0x9e; 0x9f; 0xa0; 0xa1; 0xa2; 0xa3; 0xa4; 0xa5; 0xa6; 0xa7; 0xa8; 0xa9; 0xaa; 0xab; 0xac; 0xad; 0xae; 0xaf; 0xb0; 0xb1; 0xb2; 0xb3; 0xb4; 0xb5; 0xb6; 0xb7; 0xb8; 0xb9; 0xba; 0xbb; 0xbc; 0xbd; 0xbe; 0xbf; 0xc0; 0xc1; 0xc2; 0xc3; 0xc4; 0xc5; 0xc6; 0xc7; 0xc8; 0xc9; 0xca; 0xcb; 0xcc; 0xcd; 0xce; 0xcf; 0xd0; 0xd1; 0xd2; 0xd3; 0xd4; 0xd5; 0xd6; 0xd7; 0xd8; 0xd9; 0xda; 0xdb; 0xdc; 0xdd; 0xde; 0xdf; 0xe0; 0xe1; 0xe2; 0xe3; 0xe4; 0xe5; 0xe6; 0xe7; 0xe8; 0xe9; 0xea; 0xeb; 0xec; 0xed; 0xee; 0xef; 0xf0; 0xf1; 0xf2; 0xf3; 0xf4; 0xf5; 0xf6; 0xf7; 0xf8; 0xf9; 0xfa; 0xfb; 0xfc; 0xfd; 0xfe; 0xff].
    apply Forall_cons; [intros f E; apply some_eq in E; subst f; exact (S_00 G HG)|].
    apply Forall_cons; [intros f E; apply some_eq in E; subst f; exact (S_01 G HG)|].
    apply Forall_cons; [intros f E; apply some_eq in E; subst f; exact (S_02 G HG)|].
    apply Forall_cons; [intros f E; apply some_eq in E; subst f; exact (S_03 G HG)|].
    apply Forall_cons; [intros f E; apply some_eq in E; subst f; exact (S_04 G HG)|].
    apply Forall_cons; [intros f E; apply some_eq in E; subst f; exact (S_05 G HG)|].
    apply Forall_cons; [intros f E; apply some_eq in E; subst f; exact (S_06 G HG)|].
    apply Forall_cons; [intros f E; apply some_eq in E; subst f; exact (S_06 G HG)|].
    apply Forall_cons; [intros f E; apply some_eq in E; subst f; exact (S_08 G HG)|].
    apply Forall_cons; [intros f E; apply some_eq in E; subst f; exact (S_08 G HG)|].
    apply Forall_cons; [intros f E; apply some_eq in E; subst f; exact (S_08 G HG)|].
    apply Forall_cons; [intros f E; apply some_eq in E; subst f; exact (S_08 G HG)|].
    apply Forall_cons; [intros f E; apply some_eq in E; subst f; exact (S_08 G HG)|].
    apply Forall_cons; [intros f E; apply some_eq in E; subst f; exact (S_08 G HG)|].
    apply Forall_cons; [intros f E; apply some_eq in E; subst f; exact (S_08 G HG)|].
    apply Forall_cons; [intros f E; apply some_eq in E; subst f; exact (S_08 G HG)|].
    apply Forall_cons; [intros f E; apply some_eq in E; subst f; exact (S_10 G HG)|].
    apply Forall_cons; [intros f E; apply some_eq in E; subst f; exact (S_11 G HG)|].
    apply Forall_cons; [intros f E; apply some_eq in E; subst f; exact (S_12 G HG)|].
    apply Forall_cons; [intros f E; apply some_eq in E; subst f; exact (S_13 G HG)|].
    apply Forall_cons; [intros f E; apply some_eq in E; subst f; exact (S_14 G HG)|].
    apply Forall_cons; [intros f E; apply some_eq in E; subst f; exact (S_15 G HG)|].
    apply Forall_cons; [intros f E; apply some_eq in E; subst f; exact (S_16 G HG)|].
    apply Forall_cons; [intros f E; apply some_eq in E; subst f; exact (S_16 G HG)|].
    apply Forall_cons; [intros f E; apply some_eq in E; subst f; exact (S_18 G HG)|].
    apply Forall_cons; [intros f E; apply some_eq in E; subst f; exact (S_18 G HG)|].
    apply Forall_cons; [intros f E; apply some_eq in E; subst f; exact (S_18 G HG)|].
    apply Forall_cons; [intros f E; apply some_eq in E; subst f; exact (S_18 G HG)|].
    apply Forall_cons; [intros f E; apply some_eq in E; subst f; exact (S_18 G HG)|].
    apply Forall_cons; [intros f E; apply some_eq in E; subst f; exact (S_18 G HG)|].
    apply Forall_cons; [intros f E; apply some_eq in E; subst f; exact (S_18 G HG)|].
    apply Forall_cons; [intros f E; apply some_eq in E; subst f; exact (S_18 G HG)|].
    apply Forall_cons; [intros f E; apply some_eq in E; subst f; exact (S_20 G HG)|].
    apply Forall_cons; [intros f E; apply some_eq in E; subst f; exact (S_01 G HG)|].
    apply Forall_cons; [intros f E; apply some_eq in E; subst f; exact (S_22 G HG)|].
    apply Forall_cons; [intros f E; apply some_eq in E; subst f; exact (S_23 G HG)|].
    apply Forall_cons; [intros f E; apply some_eq in E; subst f; exact (S_24 G HG)|].
    apply Forall_cons; [intros f E; apply some_eq in E; subst f; exact (S_25 G HG)|].
    apply Forall_cons; [intros f E; apply some_eq in E; subst f; exact (S_26 G HG)|].
    apply Forall_cons; [intros f E; apply some_eq in E; subst f; exact (S_26 G HG)|].
    apply Forall_cons; [intros f E; apply some_eq in E; subst f; exact (S_28 G HG)|].
    apply Forall_cons; [intros f E; apply some_eq in E; subst f; exact (S_28 G HG)|].
    apply Forall_cons; [intros f E; apply some_eq in E; subst f; exact (S_28 G HG)|].
    apply Forall_cons; [intros f E; apply some_eq in E; subst f; exact (S_28 G HG)|].
    apply Forall_cons; [intros f E; apply some_eq in E; subst f; exact (S_28 G HG)|].
    apply Forall_cons; [intros f E; apply some_eq in E; subst f; exact (S_28 G HG)|].
    apply Forall_cons; [intros f E; apply some_eq in E; subst f; exact (S_28 G HG)|].
    apply Forall_cons; [intros f E; apply some_eq in E; subst f; exact (S_28 G HG)|].
    apply Forall_cons; [intros f E; apply some_eq in E; subst f; exact (S_30 G HG)|].
    apply Forall_cons; [intros f E; apply some_eq in E; subst f; exact (S_11 G HG)|].
    apply Forall_cons; [intros f E; apply some_eq in E; subst f; exact (S_32 G HG)|].
    apply Forall_cons; [intros f E; apply some_eq in E; subst f; exact (S_33 G HG)|].
    apply Forall_cons; [intros f E; apply some_eq in E; subst f; exact (S_34 G HG)|].
    apply Forall_cons; [intros f E; apply some_eq in E; subst f; exact (S_35 G HG)|].
    apply Forall_cons; [intros f E; apply some_eq in E; subst f; exact (S_36 G HG)|].
    apply Forall_cons; [intros f E; apply some_eq in E; subst f; exact (S_36 G HG)|].
    apply Forall_cons; [intros f E; apply some_eq in E; subst f; exact (S_38 G HG)|].
    apply Forall_cons; [intros f E; apply some_eq in E; subst f; exact (S_38 G HG)|].
    apply Forall_cons; [intros f E; apply some_eq in E; subst f; exact (S_38 G HG)|].
    apply Forall_cons; [intros f E; apply some_eq in E; subst f; exact (S_38 G HG)|].
    apply Forall_cons; [intros f E; apply some_eq in E; subst f; exact (S_38 G HG)|].
    apply Forall_cons; [intros f E; apply some_eq in E; subst f; exact (S_38 G HG)|].
    apply Forall_cons; [intros f E; apply some_eq in E; subst f; exact (S_38 G HG)|].
    apply Forall_cons; [intros f E; apply some_eq in E; subst f; exact (S_38 G HG)|].
    apply Forall_cons; [intros f E; apply some_eq in E; subst f; exact (S_40 G HG)|].
    apply Forall_cons; [intros f E; apply some_eq in E; subst f; exact (S_01 G HG)|].
    apply Forall_cons; [intros f E; apply some_eq in E; subst f; exact (S_42 G HG)|].
    apply Forall_cons; [intros f E; apply some_eq in E; subst f; exact (S_43 G HG)|].
    apply Forall_cons; [intros f E; apply some_eq in E; subst f; exact (S_44 G HG)|].
    apply Forall_cons; [intros f E; apply some_eq in E; subst f; exact (S_45 G HG)|].
    apply Forall_cons; [intros f E; apply some_eq in E; subst f; exact (S_46 G HG)|].
    apply Forall_cons; [intros f E; apply some_eq in E; subst f; exact (S_46 G HG)|].
    apply Forall_cons; [intros f E; apply some_eq in E; subst f; exact (S_48 G HG)|].
    apply Forall_cons; [intros f E; apply some_eq in E; subst f; exact (S_48 G HG)|].
    apply Forall_cons; [intros f E; apply some_eq in E; subst f; exact (S_48 G HG)|].
    apply Forall_cons; [intros f E; apply some_eq in E; subst f; exact (S_48 G HG)|].
    apply Forall_cons; [intros f E; apply some_eq in E; subst f; exact (S_48 G HG)|].
    apply Forall_cons; [intros f E; apply some_eq in E; subst f; exact (S_48 G HG)|].
    apply Forall_cons; [intros f E; apply some_eq in E; subst f; exact (S_48 G HG)|].
    apply Forall_cons; [intros f E; apply some_eq in E; subst f; exact (S_48 G HG)|].
    apply Forall_cons; [intros f E; apply some_eq in E; subst f; exact (S_50 G HG)|].
    apply Forall_cons; [intros f E; apply some_eq in E; subst f; exact (S_11 G HG)|].
    apply Forall_cons; [intros f E; apply some_eq in E; subst f; exact (S_52 G HG)|].
    apply Forall_cons; [intros f E; apply some_eq in E; subst f; exact (S_53 G HG)|].
    apply Forall_cons; [intros f E; apply some_eq in E; subst f; exact (S_54 G HG)|].
    apply Forall_cons; [intros f E; apply some_eq in E; subst f; exact (S_55 G HG)|].
    apply Forall_cons; [intros f E; apply some_eq in E; subst f; exact (S_56 G HG)|].
    apply Forall_cons; [intros f E; apply some_eq in E; subst f; exact (S_56 G HG)|].
    apply Forall_cons; [intros f E; apply some_eq in E; subst f; exact (S_58 G HG)|].
    apply Forall_cons; [intros f E; apply some_eq in E; subst f; exact (S_58 G HG)|].
    apply Forall_cons; [intros f E; apply some_eq in E; subst f; exact (S_58 G HG)|].
    apply Forall_cons; [intros f E; apply some_eq in E; subst f; exact (S_58 G HG)|].
    apply Forall_cons; [intros f E; apply some_eq in E; subst f; exact (S_58 G HG)|].
    apply Forall_cons; [intros f E; apply some_eq in E; subst f; exact (S_58 G HG)|].
    apply Forall_cons; [intros f E; apply some_eq in E; subst f; exact (S_58 G HG)|].
    apply Forall_cons; [intros f E; apply some_eq in E; subst f; exact (S_58 G HG)|].
    apply Forall_cons; [intros f E; apply some_eq in E; subst f; exact (S_60 G HG)|].
    apply Forall_cons; [intros f E; apply some_eq in E; subst f; exact (S_01 G HG)|].
    apply Forall_cons; [intros f E; apply some_eq in E; subst f; exact (S_62 G HG)|].
    apply Forall_cons; [intros f E; apply some_eq in E; subst f; exact (S_63 G HG)|].
    apply Forall_cons; [intros f E; apply some_eq in E; subst f; exact (S_64 G HG)|].
    apply Forall_cons; [intros f E; apply some_eq in E; subst f; exact (S_65 G HG)|].
    apply Forall_cons; [intros f E; apply some_eq in E; subst f; exact (S_66 G HG)|].
    apply Forall_cons; [intros f E; apply some_eq in E; subst f; exact (S_66 G HG)|].
    apply Forall_cons; [intros f E; apply some_eq in E; subst f; exact (S_68 G HG)|].
    apply Forall_cons; [intros f E; apply some_eq in E; subst f; exact (S_68 G HG)|].
    apply Forall_cons; [intros f E; apply some_eq in E; subst f; exact (S_68 G HG)|].
    apply Forall_cons; [intros f E; apply some_eq in E; subst f; exact (S_68 G HG)|].
    apply Forall_cons; [intros f E; apply some_eq in E; subst f; exact (S_68 G HG)|].
    apply Forall_cons; [intros f E; apply some_eq in E; subst f; exact (S_68 G HG)|].
    apply Forall_cons; [intros f E; apply some_eq in E; subst f; exact (S_68 G HG)|].
    apply Forall_cons; [intros f E; apply some_eq in E; subst f; exact (S_68 G HG)|].
    apply Forall_cons; [intros f E; apply some_eq in E; subst f; exact (S_70 G HG)|].
    apply Forall_cons; [intros f E; apply some_eq in E; subst f; exact (S_11 G HG)|].
    apply Forall_cons; [intros f E; apply some_eq in E; subst f; exact (S_72 G HG)|].
    apply Forall_cons; [intros f E; apply some_eq in E; subst f; exact (S_73 G HG)|].
    apply Forall_cons; [intros f E; apply some_eq in E; subst f; exact (S_74 G HG)|].
    apply Forall_cons; [intros f E; apply some_eq in E; subst f; exact (S_75 G HG)|].
    apply Forall_cons; [intros f E; apply some_eq in E; subst f; exact (S_76 G HG)|].
    apply Forall_cons; [intros f E; apply some_eq in E; subst f; exact (S_76 G HG)|].
    apply Forall_cons; [intros f E; apply some_eq in E; subst f; exact (S_78 G HG)|].
    apply Forall_cons; [intros f E; apply some_eq in E; subst f; exact (S_78 G HG)|].
    apply Forall_cons; [intros f E; apply some_eq in E; subst f; exact (S_78 G HG)|].
    apply Forall_cons; [intros f E; apply some_eq in E; subst f; exact (S_78 G HG)|].
    apply Forall_cons; [intros f E; apply some_eq in E; subst f; exact (S_78 G HG)|].
    apply Forall_cons; [intros f E; apply some_eq in E; subst f; exact (S_78 G HG)|].
    apply Forall_cons; [intros f E; apply some_eq in E; subst f; exact (S_78 G HG)|].
    apply Forall_cons; [intros f E; apply some_eq in E; subst f; exact (S_78 G HG)|].
    apply Forall_cons; [intros f E; apply some_eq in E; subst f; exact (S_80 G HG)|].
    apply Forall_cons; [intros f E; apply some_eq in E; subst f; exact (S_01 G HG)|].
    apply Forall_cons; [intros f E; apply some_eq in E; subst f; exact (S_82 G HG)|].
    apply Forall_cons; [intros f E; apply some_eq in E; subst f; exact (S_83 G HG)|].
    apply Forall_cons; [intros f E; apply some_eq in E; subst f; exact (S_84 G HG)|].
    apply Forall_cons; [intros f E; apply some_eq in E; subst f; exact (S_85 G HG)|].
    apply Forall_cons; [intros f E; apply some_eq in E; subst f; exact (S_86 G HG)|].
    apply Forall_cons; [intros f E; apply some_eq in E; subst f; exact (S_86 G HG)|].
    apply Forall_cons; [intros f E; apply some_eq in E; subst f; exact (S_88 G HG)|].
    apply Forall_cons; [intros f E; apply some_eq in E; subst f; exact (S_88 G HG)|].
    apply Forall_cons; [intros f E; apply some_eq in E; subst f; exact (S_88 G HG)|].
    apply Forall_cons; [intros f E; apply some_eq in E; subst f; exact (S_88 G HG)|].
    apply Forall_cons; [intros f E; apply some_eq in E; subst f; exact (S_88 G HG)|].
    apply Forall_cons; [intros f E; apply some_eq in E; subst f; exact (S_88 G HG)|].
    apply Forall_cons; [intros f E; apply some_eq in E; subst f; exact (S_88 G HG)|].
    apply Forall_cons; [intros f E; apply some_eq in E; subst f; exact (S_88 G HG)|].
    apply Forall_cons; [intros f E; apply some_eq in E; subst f; exact (S_90 G HG)|].
    apply Forall_cons; [intros f E; apply some_eq in E; subst f; exact (S_11 G HG)|].
    apply Forall_cons; [intros f E; apply some_eq in E; subst f; exact (S_92 G HG)|].
    apply Forall_cons; [intros f E; apply some_eq in E; subst f; exact (S_93 G HG)|].
    apply Forall_cons; [intros f E; apply some_eq in E; subst f; exact (S_94 G HG)|].
    apply Forall_cons; [intros f E; apply some_eq in E; subst f; exact (S_95 G HG)|].
    apply Forall_cons; [intros f E; apply some_eq in E; subst f; exact (S_96 G HG)|].
    apply Forall_cons; [intros f E; apply some_eq in E; subst f; exact (S_96 G HG)|].
    apply Forall_cons; [intros f E; apply some_eq in E; subst f; exact (S_98 G HG)|].
    apply Forall_cons; [intros f E; apply some_eq in E; subst f; exact (S_98 G HG)|].
    apply Forall_cons; [intros f E; apply some_eq in E; subst f; exact (S_98 G HG)|].
    apply Forall_cons; [intros f E; apply some_eq in E; subst f; exact (S_98 G HG)|].
    apply Forall_cons; [intros f E; apply some_eq in E; subst f; exact (S_98 G HG)|].
    apply Forall_cons; [intros f E; apply some_eq in E; subst f; exact (S_98 G HG)|].
    apply Forall_cons; [intros f E; apply some_eq in E; subst f; exact (S_98 G HG)|].
    apply Forall_cons; [intros f E; apply some_eq in E; subst f; exact (S_98 G HG)|].
    apply Forall_cons; [intros f E; apply some_eq in E; subst f; exact (S_a0 G HG)|].
    apply Forall_cons; [intros f E; apply some_eq in E; subst f; exact (S_01 G HG)|].
    apply Forall_cons; [intros f E; apply some_eq in E; subst f; exact (S_a2 G HG)|].
    apply Forall_cons; [intros f E; apply some_eq in E; subst f; exact (S_a3 G HG)|].
    apply Forall_cons; [intros f E; apply some_eq in E; subst f; exact (S_a4 G HG)|].
    apply Forall_cons; [intros f E; discriminate E|].
    apply Forall_cons; [intros f E; apply some_eq in E; subst f; exact (S_a6 G HG)|].
    apply Forall_cons; [intros f E; apply some_eq in E; subst f; exact (S_a6 G HG)|].
    apply Forall_cons; [intros f E; apply some_eq in E; subst f; exact (S_a8 G HG)|].
    apply Forall_cons; [intros f E; apply some_eq in E; subst f; exact (S_a8 G HG)|].
    apply Forall_cons; [intros f E; apply some_eq in E; subst f; exact (S_a8 G HG)|].
    apply Forall_cons; [intros f E; apply some_eq in E; subst f; exact (S_a8 G HG)|].
    apply Forall_cons; [intros f E; apply some_eq in E; subst f; exact (S_a8 G HG)|].
    apply Forall_cons; [intros f E; apply some_eq in E; subst f; exact (S_a8 G HG)|].
    apply Forall_cons; [intros f E; apply some_eq in E; subst f; exact (S_a8 G HG)|].
    apply Forall_cons; [intros f E; apply some_eq in E; subst f; exact (S_a8 G HG)|].
    apply Forall_cons; [intros f E; apply some_eq in E; subst f; exact (S_b0 G HG)|].
    apply Forall_cons; [intros f E; apply some_eq in E; subst f; exact (S_11 G HG)|].
    apply Forall_cons; [intros f E; apply some_eq in E; subst f; exact (S_b2 G HG)|].
    apply Forall_cons; [intros f E; apply some_eq in E; subst f; exact (S_b3 G HG)|].
    apply Forall_cons; [intros f E; apply some_eq in E; subst f; exact (S_b4 G HG)|].
    apply Forall_cons; [intros f E; apply some_eq in E; subst f; exact (S_b5 G HG)|].
    apply Forall_cons; [intros f E; apply some_eq in E; subst f; exact (S_b6 G HG)|].
    apply Forall_cons; [intros f E; apply some_eq in E; subst f; exact (S_b6 G HG)|].
    apply Forall_cons; [intros f E; apply some_eq in E; subst f; exact (S_b8 G HG)|].
    apply Forall_cons; [intros f E; apply some_eq in E; subst f; exact (S_b8 G HG)|].
    apply Forall_cons; [intros f E; apply some_eq in E; subst f; exact (S_b8 G HG)|].
    apply Forall_cons; [intros f E; apply some_eq in E; subst f; exact (S_b8 G HG)|].
    apply Forall_cons; [intros f E; apply some_eq in E; subst f; exact (S_b8 G HG)|].
    apply Forall_cons; [intros f E; apply some_eq in E; subst f; exact (S_b8 G HG)|].
    apply Forall_cons; [intros f E; apply some_eq in E; subst f; exact (S_b8 G HG)|].
    apply Forall_cons; [intros f E; apply some_eq in E; subst f; exact (S_b8 G HG)|].
    apply Forall_cons; [intros f E; apply some_eq in E; subst f; exact (S_c0 G HG)|].
    apply Forall_cons; [intros f E; apply some_eq in E; subst f; exact (S_01 G HG)|].
    apply Forall_cons; [intros f E; apply some_eq in E; subst f; exact (S_c2 G HG)|].
    apply Forall_cons; [intros f E; apply some_eq in E; subst f; exact (S_c3 G HG)|].
    apply Forall_cons; [intros f E; apply some_eq in E; subst f; exact (S_c4 G HG)|].
    apply Forall_cons; [intros f E; apply some_eq in E; subst f; exact (S_c5 G HG)|].
    apply Forall_cons; [intros f E; apply some_eq in E; subst f; exact (S_c6 G HG)|].
    apply Forall_cons; [intros f E; apply some_eq in E; subst f; exact (S_c6 G HG)|].
    apply Forall_cons; [intros f E; apply some_eq in E; subst f; exact (S_c8 G HG)|].
    apply Forall_cons; [intros f E; apply some_eq in E; subst f; exact (S_c8 G HG)|].
    apply Forall_cons; [intros f E; apply some_eq in E; subst f; exact (S_c8 G HG)|].
    apply Forall_cons; [intros f E; apply some_eq in E; subst f; exact (S_c8 G HG)|].
    apply Forall_cons; [intros f E; apply some_eq in E; subst f; exact (S_c8 G HG)|].
    apply Forall_cons; [intros f E; apply some_eq in E; subst f; exact (S_c8 G HG)|].
    apply Forall_cons; [intros f E; apply some_eq in E; subst f; exact (S_c8 G HG)|].
    apply Forall_cons; [intros f E; apply some_eq in E; subst f; exact (S_c8 G HG)|].
    apply Forall_cons; [intros f E; apply some_eq in E; subst f; exact (S_d0 G HG)|].
    apply Forall_cons; [intros f E; apply some_eq in E; subst f; exact (S_11 G HG)|].
    apply Forall_cons; [intros f E; apply some_eq in E; subst f; exact (S_d2 G HG)|].
    apply Forall_cons; [intros f E; apply some_eq in E; subst f; exact (S_d3 G HG)|].
    apply Forall_cons; [intros f E; apply some_eq in E; subst f; exact (S_d4 G HG)|].
    apply Forall_cons; [intros f E; apply some_eq in E; subst f; exact (S_d5 G HG)|].
    apply Forall_cons; [intros f E; apply some_eq in E; subst f; exact (S_d6 G HG)|].
    apply Forall_cons; [intros f E; apply some_eq in E; subst f; exact (S_d6 G HG)|].
    apply Forall_cons; [intros f E; apply some_eq in E; subst f; exact (S_d8 G HG)|].
    apply Forall_cons; [intros f E; apply some_eq in E; subst f; exact (S_d8 G HG)|].
    apply Forall_cons; [intros f E; apply some_eq in E; subst f; exact (S_d8 G HG)|].
    apply Forall_cons; [intros f E; apply some_eq in E; subst f; exact (S_d8 G HG)|].
    apply Forall_cons; [intros f E; apply some_eq in E; subst f; exact (S_d8 G HG)|].
    apply Forall_cons; [intros f E; apply some_eq in E; subst f; exact (S_d8 G HG)|].
    apply Forall_cons; [intros f E; apply some_eq in E; subst f; exact (S_d8 G HG)|].
    apply Forall_cons; [intros f E; apply some_eq in E; subst f; exact (S_d8 G HG)|].
    apply Forall_cons; [intros f E; apply some_eq in E; subst f; exact (S_e0 G HG)|].
    apply Forall_cons; [intros f E; apply some_eq in E; subst f; exact (S_01 G HG)|].
    apply Forall_cons; [intros f E; apply some_eq in E; subst f; exact (S_e2 G HG)|].
    apply Forall_cons; [intros f E; apply some_eq in E; subst f; exact (S_e2 G HG)|].
    apply Forall_cons; [intros f E; apply some_eq in E; subst f; exact (S_e4 G HG)|].
    apply Forall_cons; [intros f E; apply some_eq in E; subst f; exact (S_e5 G HG)|].
    apply Forall_cons; [intros f E; apply some_eq in E; subst f; exact (S_e6 G HG)|].
    apply Forall_cons; [intros f E; apply some_eq in E; subst f; exact (S_e6 G HG)|].
    apply Forall_cons; [intros f E; apply some_eq in E; subst f; exact (S_e8 G HG)|].
    apply Forall_cons; [intros f E; apply some_eq in E; subst f; exact (S_e8 G HG)|].
    apply Forall_cons; [intros f E; apply some_eq in E; subst f; exact (S_e8 G HG)|].
    apply Forall_cons; [intros f E; apply some_eq in E; subst f; exact (S_e8 G HG)|].
    apply Forall_cons; [intros f E; apply some_eq in E; subst f; exact (S_e8 G HG)|].
    apply Forall_cons; [intros f E; apply some_eq in E; subst f; exact (S_e8 G HG)|].
    apply Forall_cons; [intros f E; apply some_eq in E; subst f; exact (S_e8 G HG)|].
    apply Forall_cons; [intros f E; apply some_eq in E; subst f; exact (S_e8 G HG)|].
    apply Forall_cons; [intros f E; apply some_eq in E; subst f; exact (S_f0 G HG)|].
    apply Forall_cons; [intros f E; apply some_eq in E; subst f; exact (S_11 G HG)|].
    apply Forall_cons; [intros f E; apply some_eq in E; subst f; exact (S_f2 G HG)|].
    apply Forall_cons; [intros f E; apply some_eq in E; subst f; exact (S_f2 G HG)|].
    apply Forall_cons; [intros f E; apply some_eq in E; subst f; exact (S_f4 G HG)|].
    apply Forall_cons; [intros f E; apply some_eq in E; subst f; exact (S_f5 G HG)|].
    apply Forall_cons; [intros f E; apply some_eq in E; subst f; exact (S_f6 G HG)|].
    apply Forall_cons; [intros f E; apply some_eq in E; subst f; exact (S_f6 G HG)|].
    apply Forall_cons; [intros f E; apply some_eq in E; subst f; exact (S_f8 G HG)|].
    apply Forall_cons; [intros f E; apply some_eq in E; subst f; exact (S_f8 G HG)|].
    apply Forall_cons; [intros f E; apply some_eq in E; subst f; exact (S_f8 G HG)|].
    apply Forall_cons; [intros f E; apply some_eq in E; subst f; exact (S_f8 G HG)|].
    apply Forall_cons; [intros f E; apply some_eq in E; subst f; exact (S_f8 G HG)|].
    apply Forall_cons; [intros f E; apply some_eq in E; subst f; exact (S_f8 G HG)|].
    apply Forall_cons; [intros f E; apply some_eq in E; subst f; exact (S_f8 G HG)|].
    apply Forall_cons; [intros f E; apply some_eq in E; subst f; exact (S_f8 G HG)|].
    constructor. }
  rewrite Forall_forall in H. intros f. apply H. apply in_zrange. lia.
Qed.
