(** All opcodes: the instruction table of S51Model against the opcode map of
    S51Spec. *)
From Verif Require Import Base S51Model S51Spec S51Obs S51Proofs S51Proofs2 S51Proofs3 S51Proofs4.

Lemma L_00 G code : impl G instruction_00 code (fun _ _ => Nop) 0 0.
Proof. apply impl_0. exact (i_00 G code). Qed.
Lemma L_03 G code : impl G instruction_03 code (fun _ _ => Rr) 0 0.
Proof. apply impl_0. exact (i_03 G code). Qed.
Lemma L_13 G code : impl G instruction_13 code (fun _ _ => Rrc) 0 0.
Proof. apply impl_0. exact (i_13 G code). Qed.
Lemma L_23 G code : impl G instruction_23 code (fun _ _ => S51Spec.Rl) 0 0.
Proof. apply impl_0. exact (i_23 G code). Qed.
Lemma L_33 G code : impl G instruction_33 code (fun _ _ => Rlc) 0 0.
Proof. apply impl_0. exact (i_33 G code). Qed.
Lemma L_c4 G code : impl G instruction_c4 code (fun _ _ => Swap) 0 0.
Proof. apply impl_0. exact (i_c4 G code). Qed.
Lemma L_f4 G code : impl G instruction_f4 code (fun _ _ => CplA) 0 0.
Proof. apply impl_0. exact (i_f4 G code). Qed.
Lemma L_e4 G code : impl G instruction_e4 code (fun _ _ => ClrA) 0 0.
Proof. apply impl_0. exact (i_e4 G code). Qed.
Lemma L_04 G code : impl G instruction_04 code (fun _ _ => Inc oA) 0 0.
Proof. apply impl_0. exact (i_04 G code). Qed.
Lemma L_14 G code : impl G instruction_14 code (fun _ _ => Dec oA) 0 0.
Proof. apply impl_0. exact (i_14 G code). Qed.
Lemma L_d4 G code : impl G instruction_d4 code (fun _ _ => Da) 0 0.
Proof. apply impl_0. exact (i_d4 G code). Qed.
Lemma L_06 G code : impl G (instruction_06 G) code (fun _ _ => Inc (oInd (Z.land code 1))) 0 0.
Proof. apply impl_0. exact (i_06 G code). Qed.
Lemma L_16 G code : impl G (instruction_16 G) code (fun _ _ => Dec (oInd (Z.land code 1))) 0 0.
Proof. apply impl_0. exact (i_16 G code). Qed.
Lemma L_08 G code : impl G (instruction_08 G) code (fun _ _ => Inc (oReg (Z.land code 7))) 0 0.
Proof. apply impl_0. exact (i_08 G code). Qed.
Lemma L_18 G code : impl G (instruction_18 G) code (fun _ _ => Dec (oReg (Z.land code 7))) 0 0.
Proof. apply impl_0. exact (i_18 G code). Qed.
Lemma L_b3 G code : impl G instruction_b3 code (fun _ _ => CplB 0xd7) 0 0.
Proof. apply impl_0. exact (i_b3 G code). Qed.
Lemma L_c3 G code : impl G instruction_c3 code (fun _ _ => ClrB 0xd7) 0 0.
Proof. apply impl_0. exact (i_c3 G code). Qed.
Lemma L_d3 G code : impl G instruction_d3 code (fun _ _ => SetbB 0xd7) 0 0.
Proof. apply impl_0. exact (i_d3 G code). Qed.
Lemma L_f6 G code : impl G (instruction_f6 G) code (fun _ _ => Mov (oInd (Z.land code 1)) oA) 0 0.
Proof. apply impl_0. exact (i_f6 G code). Qed.
Lemma L_f8 G code : impl G (instruction_f8 G) code (fun _ _ => Mov (oReg (Z.land code 7)) oA) 0 0.
Proof. apply impl_0. exact (i_f8 G code). Qed.
Lemma L_c6 G code : impl G (instruction_c6 G) code (fun _ _ => Xch (oInd (Z.land code 1))) 0 0.
Proof. apply impl_0. exact (i_c6 G code). Qed.
Lemma L_c8 G code : impl G (instruction_c8 G) code (fun _ _ => Xch (oReg (Z.land code 7))) 0 0.
Proof. apply impl_0. exact (i_c8 G code). Qed.
Lemma L_d6 G code : impl G (instruction_d6 G) code (fun _ _ => Xchd (Z.land code 1)) 0 0.
Proof. apply impl_0. exact (i_d6 G code). Qed.
Lemma L_84 G code : impl G instruction_84 code (fun _ _ => Div) 0 3.
Proof. apply impl_0. exact (i_84 G code). Qed.
Lemma L_a4 G code : impl G instruction_a4 code (fun _ _ => Mul) 0 3.
Proof. apply impl_0. exact (i_a4 G code). Qed.
Lemma L_a3 G code : impl G instruction_a3 code (fun _ _ => IncDptr) 0 1.
Proof. apply impl_0. exact (i_a3 G code). Qed.
Lemma L_73 G code : impl G instruction_73 code (fun _ _ => JmpAdptr) 0 1.
Proof. apply impl_0. exact (i_73 G code). Qed.
Lemma L_22 G code : impl G (instruction_22 G) code (fun _ _ => Ret) 0 1.
Proof. apply impl_0. exact (i_22 G code). Qed.
Lemma L_32 G code : impl G (instruction_32 G) code (fun _ _ => Reti) 0 1.
Proof. apply impl_0. exact (i_32 G code). Qed.
Lemma L_83 G code : impl G (instruction_83 G) code (fun _ _ => MovcPc) 0 1.
Proof. apply impl_0. exact (i_83 G code). Qed.
Lemma L_93 G code : impl G (instruction_93 G) code (fun _ _ => MovcDptr) 0 1.
Proof. apply impl_0. exact (i_93 G code). Qed.
Lemma L_e0 G code : impl G instruction_e0 code (fun _ _ => MovxAdptr) 0 1.
Proof. apply impl_0. exact (i_e0 G code). Qed.
Lemma L_e2 G code : impl G instruction_e2 code (fun _ _ => MovxAri (Z.land code 1)) 0 1.
Proof. apply impl_0. exact (i_e2 G code). Qed.
Lemma L_f0 G code : impl G instruction_f0 code (fun _ _ => MovxDptrA) 0 1.
Proof. apply impl_0. exact (i_f0 G code). Qed.
Lemma L_f2 G code : impl G instruction_f2 code (fun _ _ => MovxRiA (Z.land code 1)) 0 1.
Proof. apply impl_0. exact (i_f2 G code). Qed.
Lemma L_24 G code : wf_cfg G -> impl G (instruction_24 G) code (fun b _ => Add (oImm b)) 1 0.
Proof. intros HG. exact (impl_1 G _ code (fun b => Add (oImm b)) _ _ HG (fun b Hb => src_imm G _ _ (add_ok G) b Hb) (fun s => eq_refl)). Qed.
Lemma L_25 G code : wf_cfg G -> impl G (instruction_25 G) code (fun b _ => Add (oDir b)) 1 0.
Proof. intros HG. exact (impl_1 G _ code (fun b => Add (oDir b)) _ _ HG (fun b Hb => src_dir G _ _ (add_ok G) (strict_add G) b) (fun s => eq_refl)). Qed.
Lemma L_26 G code : impl G (instruction_26 G) code (fun _ _ => Add (oInd (Z.land code 1))) 0 0.
Proof. apply impl_0. exact (src_ind G _ _ (add_ok G) (strict_add G) (Z.land code 1)). Qed.
Lemma L_28 G code : impl G instruction_28 code (fun _ _ => Add (oReg (Z.land code 7))) 0 0.
Proof. apply impl_0. exact (src_reg G _ _ (add_ok G) (strict_add G) (Z.land code 7)). Qed.
Lemma L_34 G code : wf_cfg G -> impl G (instruction_34 G) code (fun b _ => Addc (oImm b)) 1 0.
Proof. intros HG. exact (impl_1 G _ code (fun b => Addc (oImm b)) _ _ HG (fun b Hb => src_imm G _ _ (addc_ok G) b Hb) (fun s => eq_refl)). Qed.
Lemma L_35 G code : wf_cfg G -> impl G (instruction_35 G) code (fun b _ => Addc (oDir b)) 1 0.
Proof. intros HG. exact (impl_1 G _ code (fun b => Addc (oDir b)) _ _ HG (fun b Hb => src_dir G _ _ (addc_ok G) (strict_addc G) b) (fun s => eq_refl)). Qed.
Lemma L_36 G code : impl G (instruction_36 G) code (fun _ _ => Addc (oInd (Z.land code 1))) 0 0.
Proof. apply impl_0. exact (src_ind G _ _ (addc_ok G) (strict_addc G) (Z.land code 1)). Qed.
Lemma L_38 G code : impl G instruction_38 code (fun _ _ => Addc (oReg (Z.land code 7))) 0 0.
Proof. apply impl_0. exact (src_reg G _ _ (addc_ok G) (strict_addc G) (Z.land code 7)). Qed.
Lemma L_44 G code : wf_cfg G -> impl G (instruction_44 G) code (fun b _ => Logic lOr oA (oImm b)) 1 0.
Proof. intros HG. exact (impl_1 G _ code (fun b => Logic lOr oA (oImm b)) _ _ HG (fun b Hb => src_imm G _ _ (logic_a_ok G lOr) b Hb) (fun s => eq_refl)). Qed.
Lemma L_45 G code : wf_cfg G -> impl G (instruction_45 G) code (fun b _ => Logic lOr oA (oDir b)) 1 0.
Proof. intros HG. exact (impl_1 G _ code (fun b => Logic lOr oA (oDir b)) _ _ HG (fun b Hb => src_dir G _ _ (logic_a_ok G lOr) (strict_logic G lOr) b) (fun s => eq_refl)). Qed.
Lemma L_46 G code : impl G (instruction_46 G) code (fun _ _ => Logic lOr oA (oInd (Z.land code 1))) 0 0.
Proof. apply impl_0. exact (src_ind G _ _ (logic_a_ok G lOr) (strict_logic G lOr) (Z.land code 1)). Qed.
Lemma L_48 G code : impl G instruction_48 code (fun _ _ => Logic lOr oA (oReg (Z.land code 7))) 0 0.
Proof. apply impl_0. exact (src_reg G _ _ (logic_a_ok G lOr) (strict_logic G lOr) (Z.land code 7)). Qed.
Lemma L_54 G code : wf_cfg G -> impl G (instruction_54 G) code (fun b _ => Logic lAnd oA (oImm b)) 1 0.
Proof. intros HG. exact (impl_1 G _ code (fun b => Logic lAnd oA (oImm b)) _ _ HG (fun b Hb => src_imm G _ _ (logic_a_ok G lAnd) b Hb) (fun s => eq_refl)). Qed.
Lemma L_55 G code : wf_cfg G -> impl G (instruction_55 G) code (fun b _ => Logic lAnd oA (oDir b)) 1 0.
Proof. intros HG. exact (impl_1 G _ code (fun b => Logic lAnd oA (oDir b)) _ _ HG (fun b Hb => src_dir G _ _ (logic_a_ok G lAnd) (strict_logic G lAnd) b) (fun s => eq_refl)). Qed.
Lemma L_56 G code : impl G (instruction_56 G) code (fun _ _ => Logic lAnd oA (oInd (Z.land code 1))) 0 0.
Proof. apply impl_0. exact (src_ind G _ _ (logic_a_ok G lAnd) (strict_logic G lAnd) (Z.land code 1)). Qed.
Lemma L_58 G code : impl G instruction_58 code (fun _ _ => Logic lAnd oA (oReg (Z.land code 7))) 0 0.
Proof. apply impl_0. exact (src_reg G _ _ (logic_a_ok G lAnd) (strict_logic G lAnd) (Z.land code 7)). Qed.
Lemma L_64 G code : wf_cfg G -> impl G (instruction_64 G) code (fun b _ => Logic lXor oA (oImm b)) 1 0.
Proof. intros HG. exact (impl_1 G _ code (fun b => Logic lXor oA (oImm b)) _ _ HG (fun b Hb => src_imm G _ _ (logic_a_ok G lXor) b Hb) (fun s => eq_refl)). Qed.
Lemma L_65 G code : wf_cfg G -> impl G (instruction_65 G) code (fun b _ => Logic lXor oA (oDir b)) 1 0.
Proof. intros HG. exact (impl_1 G _ code (fun b => Logic lXor oA (oDir b)) _ _ HG (fun b Hb => src_dir G _ _ (logic_a_ok G lXor) (strict_logic G lXor) b) (fun s => eq_refl)). Qed.
Lemma L_66 G code : impl G (instruction_66 G) code (fun _ _ => Logic lXor oA (oInd (Z.land code 1))) 0 0.
Proof. apply impl_0. exact (src_ind G _ _ (logic_a_ok G lXor) (strict_logic G lXor) (Z.land code 1)). Qed.
Lemma L_68 G code : impl G instruction_68 code (fun _ _ => Logic lXor oA (oReg (Z.land code 7))) 0 0.
Proof. apply impl_0. exact (src_reg G _ _ (logic_a_ok G lXor) (strict_logic G lXor) (Z.land code 7)). Qed.
Lemma L_94 G code : wf_cfg G -> impl G (instruction_94 G) code (fun b _ => Subb (oImm b)) 1 0.
Proof. intros HG. exact (impl_1 G _ code (fun b => Subb (oImm b)) _ _ HG (fun b Hb => src_imm G _ _ (subb_set_ok G) b Hb) (fun s => eq_refl)). Qed.
Lemma L_95 G code : wf_cfg G -> impl G (instruction_95 G) code (fun b _ => Subb (oDir b)) 1 0.
Proof. intros HG. exact (impl_1 G _ code (fun b => Subb (oDir b)) _ _ HG (fun b Hb => src_dir G _ _ (subb_set_ok G) (strict_subb G) b) (fun s => eq_refl)). Qed.
Lemma L_96 G code : impl G (instruction_96 G) code (fun _ _ => Subb (oInd (Z.land code 1))) 0 0.
Proof. apply impl_0. exact (src_ind G _ _ (subb_write_ok G) (strict_subb G) (Z.land code 1)). Qed.
Lemma L_98 G code : impl G instruction_98 code (fun _ _ => Subb (oReg (Z.land code 7))) 0 0.
Proof. apply impl_0. exact (src_reg G _ _ (subb_write_ok G) (strict_subb G) (Z.land code 7)). Qed.
Lemma L_e6 G code : impl G (instruction_e6 G) code (fun _ _ => Mov oA (oInd (Z.land code 1))) 0 0.
Proof. apply impl_0. exact (src_ind G _ _ (mov_a_ok G) (strict_mov G) (Z.land code 1)). Qed.
Lemma L_e8 G code : impl G instruction_e8 code (fun _ _ => Mov oA (oReg (Z.land code 7))) 0 0.
Proof. apply impl_0. exact (src_reg G _ _ (mov_a_ok G) (strict_mov G) (Z.land code 7)). Qed.
Lemma L_74 G code : wf_cfg G -> impl G (instruction_74 G) code (fun b _ => Mov oA (oImm b)) 1 0.
Proof. intros HG. exact (impl_1 G _ code (fun b => Mov oA (oImm b)) _ _ HG (fun b Hb => src_imm G _ _ (mov_a_ok G) b Hb) (fun s => eq_refl)). Qed.
Lemma L_05 G code : wf_cfg G -> impl G (instruction_05 G) code (fun b _ => Inc (oDir b)) 1 0.
Proof. intros HG. exact (impl_1 G _ code (fun b => Inc (oDir b)) _ _ HG (fun b Hb => i_05 G b) (fun s => eq_refl)). Qed.
Lemma L_15 G code : wf_cfg G -> impl G (instruction_15 G) code (fun b _ => Dec (oDir b)) 1 0.
Proof. intros HG. exact (impl_1 G _ code (fun b => Dec (oDir b)) _ _ HG (fun b Hb => i_15 G b) (fun s => eq_refl)). Qed.
Lemma L_42 G code : wf_cfg G -> impl G (instruction_42 G) code (fun b _ => Logic lOr (oDir b) oA) 1 0.
Proof. intros HG. exact (impl_1 G _ code (fun b => Logic lOr (oDir b) oA) _ _ HG (fun b Hb => logic_dir_a G lOr b) (fun s => eq_refl)). Qed.
Lemma L_43 G code : wf_cfg G -> impl G (instruction_43 G) code (fun b c => Logic lOr (oDir b) (oImm c)) 2 1.
Proof. intros HG. exact (impl_2 G _ code (fun b c => Logic lOr (oDir b) (oImm c)) _ _ HG (fun b c Hb Hc => logic_dir_imm G lOr b c Hb Hc) (fun s _ => eq_refl)). Qed.
Lemma L_52 G code : wf_cfg G -> impl G (instruction_52 G) code (fun b _ => Logic lAnd (oDir b) oA) 1 0.
Proof. intros HG. exact (impl_1 G _ code (fun b => Logic lAnd (oDir b) oA) _ _ HG (fun b Hb => logic_dir_a G lAnd b) (fun s => eq_refl)). Qed.
Lemma L_53 G code : wf_cfg G -> impl G (instruction_53 G) code (fun b c => Logic lAnd (oDir b) (oImm c)) 2 1.
Proof. intros HG. exact (impl_2 G _ code (fun b c => Logic lAnd (oDir b) (oImm c)) _ _ HG (fun b c Hb Hc => logic_dir_imm G lAnd b c Hb Hc) (fun s _ => eq_refl)). Qed.
Lemma L_62 G code : wf_cfg G -> impl G (instruction_62 G) code (fun b _ => Logic lXor (oDir b) oA) 1 0.
Proof. intros HG. exact (impl_1 G _ code (fun b => Logic lXor (oDir b) oA) _ _ HG (fun b Hb => logic_dir_a G lXor b) (fun s => eq_refl)). Qed.
Lemma L_63 G code : wf_cfg G -> impl G (instruction_63 G) code (fun b c => Logic lXor (oDir b) (oImm c)) 2 1.
Proof. intros HG. exact (impl_2 G _ code (fun b c => Logic lXor (oDir b) (oImm c)) _ _ HG (fun b c Hb Hc => logic_dir_imm G lXor b c Hb Hc) (fun s _ => eq_refl)). Qed.
Lemma L_72 G code : wf_cfg G -> impl G (instruction_72 G) code (fun b _ => OrlC b false) 1 1.
Proof. intros HG. exact (impl_1 G _ code (fun b => OrlC b false) _ _ HG (fun b Hb => i_72 G b Hb) (fun s => eq_refl)). Qed.
Lemma L_a0 G code : wf_cfg G -> impl G (instruction_a0 G) code (fun b _ => OrlC b true) 1 1.
Proof. intros HG. exact (impl_1 G _ code (fun b => OrlC b true) _ _ HG (fun b Hb => i_a0 G b Hb) (fun s => eq_refl)). Qed.
Lemma L_82 G code : wf_cfg G -> impl G (instruction_82 G) code (fun b _ => AnlC b false) 1 1.
Proof. intros HG. exact (impl_1 G _ code (fun b => AnlC b false) _ _ HG (fun b Hb => i_82 G b Hb) (fun s => eq_refl)). Qed.
Lemma L_b0 G code : wf_cfg G -> impl G (instruction_b0 G) code (fun b _ => AnlC b true) 1 1.
Proof. intros HG. exact (impl_1 G _ code (fun b => AnlC b true) _ _ HG (fun b Hb => i_b0 G b Hb) (fun s => eq_refl)). Qed.
Lemma L_a2 G code : wf_cfg G -> impl G (instruction_a2 G) code (fun b _ => MovCB b) 1 0.
Proof. intros HG. exact (impl_1 G _ code (fun b => MovCB b) _ _ HG (fun b Hb => i_a2 G b Hb) (fun s => eq_refl)). Qed.
Lemma L_92 G code : wf_cfg G -> impl G (instruction_92 G) code (fun b _ => MovBC b) 1 1.
Proof. intros HG. exact (impl_1 G _ code (fun b => MovBC b) _ _ HG (fun b Hb => i_92 G b Hb) (fun s => eq_refl)). Qed.
Lemma L_b2 G code : wf_cfg G -> impl G (instruction_b2 G) code (fun b _ => CplB b) 1 0.
Proof. intros HG. exact (impl_1 G _ code (fun b => CplB b) _ _ HG (fun b Hb => i_b2 G b Hb) (fun s => eq_refl)). Qed.
Lemma L_c2 G code : wf_cfg G -> impl G (instruction_c2 G) code (fun b _ => ClrB b) 1 0.
Proof. intros HG. exact (impl_1 G _ code (fun b => ClrB b) _ _ HG (fun b Hb => i_c2 G b Hb) (fun s => eq_refl)). Qed.
Lemma L_d2 G code : wf_cfg G -> impl G (instruction_d2 G) code (fun b _ => SetbB b) 1 0.
Proof. intros HG. exact (impl_1 G _ code (fun b => SetbB b) _ _ HG (fun b Hb => i_d2 G b Hb) (fun s => eq_refl)). Qed.
Lemma L_40 G code : wf_cfg G -> impl G (instruction_40 G) code (fun b _ => Jc b) 1 1.
Proof. intros HG. exact (impl_1 G _ code (fun b => Jc b) _ _ HG (fun b Hb => i_40 G b Hb) (fun s => eq_refl)). Qed.
Lemma L_50 G code : wf_cfg G -> impl G (instruction_50 G) code (fun b _ => Jnc b) 1 1.
Proof. intros HG. exact (impl_1 G _ code (fun b => Jnc b) _ _ HG (fun b Hb => i_50 G b Hb) (fun s => eq_refl)). Qed.
Lemma L_60 G code : wf_cfg G -> impl G (instruction_60 G) code (fun b _ => Jz b) 1 1.
Proof. intros HG. exact (impl_1 G _ code (fun b => Jz b) _ _ HG (fun b Hb => i_60 G b Hb) (fun s => eq_refl)). Qed.
Lemma L_70 G code : wf_cfg G -> impl G (instruction_70 G) code (fun b _ => Jnz b) 1 1.
Proof. intros HG. exact (impl_1 G _ code (fun b => Jnz b) _ _ HG (fun b Hb => i_70 G b Hb) (fun s => eq_refl)). Qed.
Lemma L_80 G code : wf_cfg G -> impl G (instruction_80 G) code (fun b _ => Sjmp b) 1 1.
Proof. intros HG. exact (impl_1 G _ code (fun b => Sjmp b) _ _ HG (fun b Hb => i_80 G b Hb) (fun s => eq_refl)). Qed.
Lemma L_f5 G code : wf_cfg G -> impl G (instruction_f5 G) code (fun b _ => Mov (oDir b) oA) 1 0.
Proof. intros HG. exact (impl_1 G _ code (fun b => Mov (oDir b) oA) _ _ HG (fun b Hb => i_f5 G b Hb) (fun s => eq_refl)). Qed.
Lemma L_e5 G code : wf_cfg G -> impl G (instruction_e5 G) code (fun b _ => Mov oA (oDir b)) 1 0.
Proof. intros HG. exact (impl_1 G _ code (fun b => Mov oA (oDir b)) _ _ HG (fun b Hb => i_e5 G b Hb) (fun s => eq_refl)). Qed.
Lemma L_c0 G code : wf_cfg G -> impl G (instruction_c0 G) code (fun b _ => Push b) 1 1.
Proof. intros HG. exact (impl_1 G _ code (fun b => Push b) _ _ HG (fun b Hb => i_c0 G b Hb) (fun s => eq_refl)). Qed.
Lemma L_d0 G code : wf_cfg G -> impl G (instruction_d0 G) code (fun b _ => Pop b) 1 1.
Proof. intros HG. exact (impl_1 G _ code (fun b => Pop b) _ _ HG (fun b Hb => i_d0 G b Hb) (fun s => eq_refl)). Qed.
Lemma L_c5 G code : wf_cfg G -> impl G (instruction_c5 G) code (fun b _ => Xch (oDir b)) 1 0.
Proof. intros HG. exact (impl_1 G _ code (fun b => Xch (oDir b)) _ _ HG (fun b Hb => i_c5 G b Hb) (fun s => eq_refl)). Qed.
Lemma L_76 G code : wf_cfg G -> impl G (instruction_76 G) code (fun b _ => Mov (oInd (Z.land code 1)) (oImm b)) 1 0.
Proof. intros HG. exact (impl_1 G _ code (fun b => Mov (oInd (Z.land code 1)) (oImm b)) _ _ HG (fun b Hb => i_76 G (Z.land code 1) b Hb) (fun s => eq_refl)). Qed.
Lemma L_78 G code : wf_cfg G -> impl G (instruction_78 G) code (fun b _ => Mov (oReg (Z.land code 7)) (oImm b)) 1 0.
Proof. intros HG. exact (impl_1 G _ code (fun b => Mov (oReg (Z.land code 7)) (oImm b)) _ _ HG (fun b Hb => i_78 G (Z.land code 7) b Hb) (fun s => eq_refl)). Qed.
Lemma L_86 G code : wf_cfg G -> impl G (instruction_86 G) code (fun b _ => Mov (oDir b) (oInd (Z.land code 1))) 1 1.
Proof. intros HG. exact (impl_1 G _ code (fun b => Mov (oDir b) (oInd (Z.land code 1))) _ _ HG (fun b Hb => i_86 G (Z.land code 1) b Hb) (fun s => eq_refl)). Qed.
Lemma L_88 G code : wf_cfg G -> impl G (instruction_88 G) code (fun b _ => Mov (oDir b) (oReg (Z.land code 7))) 1 1.
Proof. intros HG. exact (impl_1 G _ code (fun b => Mov (oDir b) (oReg (Z.land code 7))) _ _ HG (fun b Hb => i_88 G (Z.land code 7) b Hb) (fun s => eq_refl)). Qed.
Lemma L_a6 G code : wf_cfg G -> impl G (instruction_a6 G) code (fun b _ => Mov (oInd (Z.land code 1)) (oDir b)) 1 1.
Proof. intros HG. exact (impl_1 G _ code (fun b => Mov (oInd (Z.land code 1)) (oDir b)) _ _ HG (fun b Hb => i_a6 G (Z.land code 1) b Hb) (fun s => eq_refl)). Qed.
Lemma L_a8 G code : wf_cfg G -> impl G (instruction_a8 G) code (fun b _ => Mov (oReg (Z.land code 7)) (oDir b)) 1 1.
Proof. intros HG. exact (impl_1 G _ code (fun b => Mov (oReg (Z.land code 7)) (oDir b)) _ _ HG (fun b Hb => i_a8 G (Z.land code 7) b Hb) (fun s => eq_refl)). Qed.
Lemma L_d8 G code : wf_cfg G -> impl G (instruction_d8 G) code (fun b _ => Djnz (oReg (Z.land code 7)) b) 1 1.
Proof. intros HG. exact (impl_1 G _ code (fun b => Djnz (oReg (Z.land code 7)) b) _ _ HG (fun b Hb => i_d8 G (Z.land code 7) b Hb) (fun s => eq_refl)). Qed.
Lemma L_01 G code : wf_cfg G -> 0 <= code < 256 -> impl G (instruction_01 G) code (fun b _ => Ajmp (256 * (code / 32) + b)) 1 1.
Proof. intros HG Hc. exact (impl_1 G _ code (fun b => Ajmp (256 * (code / 32) + b)) _ _ HG (fun b Hb => i_01 G code b Hc Hb) (fun s => eq_refl)). Qed.
Lemma L_11 G code : wf_cfg G -> 0 <= code < 256 -> impl G (instruction_11 G) code (fun b _ => Acall (256 * (code / 32) + b)) 1 1.
Proof. intros HG Hc. exact (impl_1 G _ code (fun b => Acall (256 * (code / 32) + b)) _ _ HG (fun b Hb => i_11 G code b Hc Hb) (fun s => eq_refl)). Qed.
Lemma L_75 G code : wf_cfg G -> impl G (instruction_75 G) code (fun b c => Mov (oDir b) (oImm c)) 2 1.
Proof. intros HG. exact (impl_2 G _ code (fun b c => Mov (oDir b) (oImm c)) _ _ HG (fun b c Hb Hc => i_75 G b c Hb Hc) (fun s _ => eq_refl)). Qed.
Lemma L_85 G code : wf_cfg G -> impl G (instruction_85 G) code (fun b c => Mov (oDir c) (oDir b)) 2 1.
Proof. intros HG. exact (impl_2 G _ code (fun b c => Mov (oDir c) (oDir b)) _ _ HG (fun b c Hb Hc => i_85 G b c Hb Hc) (fun s _ => eq_refl)). Qed.
Lemma L_90 G code : wf_cfg G -> impl G (instruction_90 G) code (fun b c => MovDptr (256 * b + c)) 2 1.
Proof. intros HG. exact (impl_2 G _ code (fun b c => MovDptr (256 * b + c)) _ _ HG (fun b c Hb Hc => i_90 G b c Hb Hc) (fun s _ => eq_refl)). Qed.
Lemma L_12 G code : wf_cfg G -> impl G (instruction_12 G) code (fun b c => Lcall (256 * b + c)) 2 1.
Proof. intros HG. exact (impl_2 G _ code (fun b c => Lcall (256 * b + c)) _ _ HG (fun b c Hb Hc => i_12 G b c Hb Hc) (fun s _ => eq_refl)). Qed.
Lemma L_10 G code : wf_cfg G -> impl G (instruction_10 G) code (fun b c => Jbc b c) 2 1.
Proof. intros HG. exact (impl_2 G _ code (fun b c => Jbc b c) _ _ HG (fun b c Hb Hc => i_10 G b c Hb Hc) (fun s _ => eq_refl)). Qed.
Lemma L_20 G code : wf_cfg G -> impl G (instruction_20 G) code (fun b c => Jb b c) 2 1.
Proof. intros HG. exact (impl_2 G _ code (fun b c => Jb b c) _ _ HG (fun b c Hb Hc => i_20 G b c Hb Hc) (fun s _ => eq_refl)). Qed.
Lemma L_30 G code : wf_cfg G -> impl G (instruction_30 G) code (fun b c => Jnb b c) 2 1.
Proof. intros HG. exact (impl_2 G _ code (fun b c => Jnb b c) _ _ HG (fun b c Hb Hc => i_30 G b c Hb Hc) (fun s _ => eq_refl)). Qed.
Lemma L_b4 G code : wf_cfg G -> impl G (instruction_b4 G) code (fun b c => Cjne oA (oImm b) c) 2 1.
Proof. intros HG. exact (impl_2 G _ code (fun b c => Cjne oA (oImm b) c) _ _ HG (fun b c Hb Hc => i_b4 G b c Hb Hc) (fun s _ => eq_refl)). Qed.
Lemma L_b5 G code : wf_cfg G -> impl G (instruction_b5 G) code (fun b c => Cjne oA (oDir b) c) 2 1.
Proof. intros HG. exact (impl_2 G _ code (fun b c => Cjne oA (oDir b) c) _ _ HG (fun b c Hb Hc => i_b5 G b c Hb Hc) (fun s _ => eq_refl)). Qed.
Lemma L_d5 G code : wf_cfg G -> impl G (instruction_d5 G) code (fun b c => Djnz (oDir b) c) 2 1.
Proof. intros HG. exact (impl_2 G _ code (fun b c => Djnz (oDir b) c) _ _ HG (fun b c Hb Hc => i_d5 G b c Hb Hc) (fun s _ => eq_refl)). Qed.
Lemma L_b6 G code : wf_cfg G -> impl G (instruction_b6 G) code (fun b c => Cjne (oInd (Z.land code 1)) (oImm b) c) 2 1.
Proof. intros HG. exact (impl_2 G _ code (fun b c => Cjne (oInd (Z.land code 1)) (oImm b) c) _ _ HG (fun b c Hb Hc => i_b6 G (Z.land code 1) b c Hb Hc) (fun s _ => eq_refl)). Qed.
Lemma L_b8 G code : wf_cfg G -> impl G (instruction_b8 G) code (fun b c => Cjne (oReg (Z.land code 7)) (oImm b) c) 2 1.
Proof. intros HG. exact (impl_2 G _ code (fun b c => Cjne (oReg (Z.land code 7)) (oImm b) c) _ _ HG (fun b c Hb Hc => i_b8 G (Z.land code 7) b c Hb Hc) (fun s _ => eq_refl)). Qed.
Lemma L_02 G code : wf_cfg G -> ltr G = true -> impl G (instruction_02 G) code (fun b c => Ljmp (256 * b + c)) 2 1.
Proof.
  intros HG HL. apply (impl_2 G _ code (fun b c => Ljmp (256 * b + c)) _ (fun b c s => tick 1 (set_pc s (b * 256 + c))) HG).
  - intros b c Hb Hc. exact (i_02 G b c Hb Hc).
  - intros s _. unfold instruction_02. rewrite HL. reflexivity.
Qed.

(** what is shown for each opcode *)
Definition op_ok (G : cfg) (op : Z) : Prop :=
  match itab G op with
  | None => op = 0xa5
  | Some f => exists ins len cyc,
      (forall b1 b2, decode op b1 b2 = Some (ins b1 b2, len, cyc)) /\ impl G f op ins (len - 1) (cyc - 1)
  end.

Lemma op_intro G op f ins n cyc : impl G f op ins n cyc -> itab G op = Some f ->
  (forall b1 b2, decode op b1 b2 = Some (ins b1 b2, n + 1, cyc + 1)) -> op_ok G op.
Proof.
  intros H E D. unfold op_ok. rewrite E. exists ins, (n + 1), (cyc + 1). split; [exact D|].
  rewrite !Z.add_simpl_r. exact H.
Qed.

Lemma all_ops G : wf_cfg G -> ltr G = true -> Forall (op_ok G) (zrange 256).
Proof.
  intros HG HL. change (zrange 256) with [0x0; 0x1; 0x2; 0x3; 0x4; 0x5; 0x6; 0x7; 0x8; 0x9; 0xa; 0xb; 0xc; 0xd; 0xe; 0xf; 0x10; 0x11; 0x12; 0x13; 0x14; 0x15; 0x16; 0x17; 0x18; 0x19; 0x1a; 0x1b; 0x1c; 0x1d; 0x1e; 0x1f; 0x20; 0x21; 0x22; 0x23; 0x24; 0x25; 0x26; 0x27; 0x28; 0x29; 0x2a; 0x2b; 0x2c; 0x2d; 0x2e; 0x2f; 0x30; 0x31; 0x32; 0x33; 0x34; 0x35; 0x36; 0x37; 0x38; 0x39; 0x3a; 0x3b; 0x3c; 0x3d; 0x3e; 0x3f; 0x40; 0x41; 0x42; 0x43; 0x44; 0x45; 0x46; 0x47; 0x48; 0x49; 0x4a; 0x4b; 0x4c; 0x4d; 0x4e; 0x4f; 0x50; 0x51; 0x52; 0x53; 0x54; 0x55; 0x56; 0x57; 0x58; 0x59; 0x5a; 0x5b; 0x5c; 0x5d; 0x5e; 0x5f; 0x60; 0x61; 0x62; 0x63; 0x64; 0x65; 0x66; 0x67; 0x68; 0x69; 0x6a; 0x6b; 0x6c; 0x6d; 0x6e; 0x6f; 0x70; 0x71; 0x72; 0x73; 0x74; 0x75; 0x76; 0x77; 0x78; 0x79; 0x7a; 0x7b; 0x7c; 0x7d; 0x7e; 0x7f; 0x80; 0x81; 0x82; 0x83; 0x84; 0x85; 0x86; 0x87; 0x88; 0x89; 0x8a; 0x8b; 0x8c; 0x8d; 0x8e; 0x8f; 0x90; 0x91; 0x92; 0x93; 0x94; 0x95; 0x96; 0x97; 0x98; 0x99; 0x9a; 0x9b; 0x9c; 0x9d; 0x9e; 0x9f; 0xa0; 0xa1; 0xa2; 0xa3; 0xa4; 0xa5; 0xa6; 0xa7; 0xa8; 0xa9; 0xaa; 0xab; 0xac; 0xad; 0xae; 0xaf; 0xb0; 0xb1; 0xb2; 0xb3; 0xb4; 0xb5; 0xb6; 0xb7; 0xb8; 0xb9; 0xba; 0xbb; 0xbc; 0xbd; 0xbe; 0xbf; 0xc0; 0xc1; 0xc2; 0xc3; 0xc4; 0xc5; 0xc6; 0xc7; 0xc8; 0xc9; 0xca; 0xcb; 0xcc; 0xcd; 0xce; 0xcf; 0xd0; 0xd1; 0xd2; 0xd3; 0xd4; 0xd5; 0xd6; 0xd7; 0xd8; 0xd9; 0xda; 0xdb; 0xdc; 0xdd; 0xde; 0xdf; 0xe0; 0xe1; 0xe2; 0xe3; 0xe4; 0xe5; 0xe6; 0xe7; 0xe8; 0xe9; 0xea; 0xeb; 0xec; 0xed; 0xee; 0xef; 0xf0; 0xf1; 0xf2; 0xf3; 0xf4; 0xf5; 0xf6; 0xf7; 0xf8; 0xf9; 0xfa; 0xfb; 0xfc; 0xfd; 0xfe; 0xff].
  apply Forall_cons; [exact (op_intro _ _ _ _ _ _ (L_00 G 0x0) eq_refl (fun _ _ => eq_refl))|].
  apply Forall_cons; [exact (op_intro _ _ _ _ _ _ (L_01 G 0x1 HG ltac:(lia)) eq_refl (fun _ _ => eq_refl))|].
  apply Forall_cons; [exact (op_intro _ _ _ _ _ _ (L_02 G 0x2 HG HL) eq_refl (fun _ _ => eq_refl))|].
  apply Forall_cons; [exact (op_intro _ _ _ _ _ _ (L_03 G 0x3) eq_refl (fun _ _ => eq_refl))|].
  apply Forall_cons; [exact (op_intro _ _ _ _ _ _ (L_04 G 0x4) eq_refl (fun _ _ => eq_refl))|].
  apply Forall_cons; [exact (op_intro _ _ _ _ _ _ (L_05 G 0x5 HG) eq_refl (fun _ _ => eq_refl))|].
  apply Forall_cons; [exact (op_intro _ _ _ _ _ _ (L_06 G 0x6) eq_refl (fun _ _ => eq_refl))|].
  apply Forall_cons; [exact (op_intro _ _ _ _ _ _ (L_06 G 0x7) eq_refl (fun _ _ => eq_refl))|].
  apply Forall_cons; [exact (op_intro _ _ _ _ _ _ (L_08 G 0x8) eq_refl (fun _ _ => eq_refl))|].
  apply Forall_cons; [exact (op_intro _ _ _ _ _ _ (L_08 G 0x9) eq_refl (fun _ _ => eq_refl))|].
  apply Forall_cons; [exact (op_intro _ _ _ _ _ _ (L_08 G 0xa) eq_refl (fun _ _ => eq_refl))|].
  apply Forall_cons; [exact (op_intro _ _ _ _ _ _ (L_08 G 0xb) eq_refl (fun _ _ => eq_refl))|].
  apply Forall_cons; [exact (op_intro _ _ _ _ _ _ (L_08 G 0xc) eq_refl (fun _ _ => eq_refl))|].
  apply Forall_cons; [exact (op_intro _ _ _ _ _ _ (L_08 G 0xd) eq_refl (fun _ _ => eq_refl))|].
  apply Forall_cons; [exact (op_intro _ _ _ _ _ _ (L_08 G 0xe) eq_refl (fun _ _ => eq_refl))|].
  apply Forall_cons; [exact (op_intro _ _ _ _ _ _ (L_08 G 0xf) eq_refl (fun _ _ => eq_refl))|].
  apply Forall_cons; [exact (op_intro _ _ _ _ _ _ (L_10 G 0x10 HG) eq_refl (fun _ _ => eq_refl))|].
  apply Forall_cons; [exact (op_intro _ _ _ _ _ _ (L_11 G 0x11 HG ltac:(lia)) eq_refl (fun _ _ => eq_refl))|].
  apply Forall_cons; [exact (op_intro _ _ _ _ _ _ (L_12 G 0x12 HG) eq_refl (fun _ _ => eq_refl))|].
  apply Forall_cons; [exact (op_intro _ _ _ _ _ _ (L_13 G 0x13) eq_refl (fun _ _ => eq_refl))|].
  apply Forall_cons; [exact (op_intro _ _ _ _ _ _ (L_14 G 0x14) eq_refl (fun _ _ => eq_refl))|].
  apply Forall_cons; [exact (op_intro _ _ _ _ _ _ (L_15 G 0x15 HG) eq_refl (fun _ _ => eq_refl))|].
  apply Forall_cons; [exact (op_intro _ _ _ _ _ _ (L_16 G 0x16) eq_refl (fun _ _ => eq_refl))|].
  apply Forall_cons; [exact (op_intro _ _ _ _ _ _ (L_16 G 0x17) eq_refl (fun _ _ => eq_refl))|].
  apply Forall_cons; [exact (op_intro _ _ _ _ _ _ (L_18 G 0x18) eq_refl (fun _ _ => eq_refl))|].
  apply Forall_cons; [exact (op_intro _ _ _ _ _ _ (L_18 G 0x19) eq_refl (fun _ _ => eq_refl))|].
  apply Forall_cons; [exact (op_intro _ _ _ _ _ _ (L_18 G 0x1a) eq_refl (fun _ _ => eq_refl))|].
  apply Forall_cons; [exact (op_intro _ _ _ _ _ _ (L_18 G 0x1b) eq_refl (fun _ _ => eq_refl))|].
  apply Forall_cons; [exact (op_intro _ _ _ _ _ _ (L_18 G 0x1c) eq_refl (fun _ _ => eq_refl))|].
  apply Forall_cons; [exact (op_intro _ _ _ _ _ _ (L_18 G 0x1d) eq_refl (fun _ _ => eq_refl))|].
  apply Forall_cons; [exact (op_intro _ _ _ _ _ _ (L_18 G 0x1e) eq_refl (fun _ _ => eq_refl))|].
  apply Forall_cons; [exact (op_intro _ _ _ _ _ _ (L_18 G 0x1f) eq_refl (fun _ _ => eq_refl))|].
  apply Forall_cons; [exact (op_intro _ _ _ _ _ _ (L_20 G 0x20 HG) eq_refl (fun _ _ => eq_refl))|].
  apply Forall_cons; [exact (op_intro _ _ _ _ _ _ (L_01 G 0x21 HG ltac:(lia)) eq_refl (fun _ _ => eq_refl))|].
  apply Forall_cons; [exact (op_intro _ _ _ _ _ _ (L_22 G 0x22) eq_refl (fun _ _ => eq_refl))|].
  apply Forall_cons; [exact (op_intro _ _ _ _ _ _ (L_23 G 0x23) eq_refl (fun _ _ => eq_refl))|].
  apply Forall_cons; [exact (op_intro _ _ _ _ _ _ (L_24 G 0x24 HG) eq_refl (fun _ _ => eq_refl))|].
  apply Forall_cons; [exact (op_intro _ _ _ _ _ _ (L_25 G 0x25 HG) eq_refl (fun _ _ => eq_refl))|].
  apply Forall_cons; [exact (op_intro _ _ _ _ _ _ (L_26 G 0x26) eq_refl (fun _ _ => eq_refl))|].
  apply Forall_cons; [exact (op_intro _ _ _ _ _ _ (L_26 G 0x27) eq_refl (fun _ _ => eq_refl))|].
  apply Forall_cons; [exact (op_intro _ _ _ _ _ _ (L_28 G 0x28) eq_refl (fun _ _ => eq_refl))|].
  apply Forall_cons; [exact (op_intro _ _ _ _ _ _ (L_28 G 0x29) eq_refl (fun _ _ => eq_refl))|].
  apply Forall_cons; [exact (op_intro _ _ _ _ _ _ (L_28 G 0x2a) eq_refl (fun _ _ => eq_refl))|].
  apply Forall_cons; [exact (op_intro _ _ _ _ _ _ (L_28 G 0x2b) eq_refl (fun _ _ => eq_refl))|].
  apply Forall_cons; [exact (op_intro _ _ _ _ _ _ (L_28 G 0x2c) eq_refl (fun _ _ => eq_refl))|].
  apply Forall_cons; [exact (op_intro _ _ _ _ _ _ (L_28 G 0x2d) eq_refl (fun _ _ => eq_refl))|].
  apply Forall_cons; [exact (op_intro _ _ _ _ _ _ (L_28 G 0x2e) eq_refl (fun _ _ => eq_refl))|].
  apply Forall_cons; [exact (op_intro _ _ _ _ _ _ (L_28 G 0x2f) eq_refl (fun _ _ => eq_refl))|].
  apply Forall_cons; [exact (op_intro _ _ _ _ _ _ (L_30 G 0x30 HG) eq_refl (fun _ _ => eq_refl))|].
  apply Forall_cons; [exact (op_intro _ _ _ _ _ _ (L_11 G 0x31 HG ltac:(lia)) eq_refl (fun _ _ => eq_refl))|].
  apply Forall_cons; [exact (op_intro _ _ _ _ _ _ (L_32 G 0x32) eq_refl (fun _ _ => eq_refl))|].
  apply Forall_cons; [exact (op_intro _ _ _ _ _ _ (L_33 G 0x33) eq_refl (fun _ _ => eq_refl))|].
  apply Forall_cons; [exact (op_intro _ _ _ _ _ _ (L_34 G 0x34 HG) eq_refl (fun _ _ => eq_refl))|].
  apply Forall_cons; [exact (op_intro _ _ _ _ _ _ (L_35 G 0x35 HG) eq_refl (fun _ _ => eq_refl))|].
  apply Forall_cons; [exact (op_intro _ _ _ _ _ _ (L_36 G 0x36) eq_refl (fun _ _ => eq_refl))|].
  apply Forall_cons; [exact (op_intro _ _ _ _ _ _ (L_36 G 0x37) eq_refl (fun _ _ => eq_refl))|].
  apply Forall_cons; [exact (op_intro _ _ _ _ _ _ (L_38 G 0x38) eq_refl (fun _ _ => eq_refl))|].
  apply Forall_cons; [exact (op_intro _ _ _ _ _ _ (L_38 G 0x39) eq_refl (fun _ _ => eq_refl))|].
  apply Forall_cons; [exact (op_intro _ _ _ _ _ _ (L_38 G 0x3a) eq_refl (fun _ _ => eq_refl))|].
  apply Forall_cons; [exact (op_intro _ _ _ _ _ _ (L_38 G 0x3b) eq_refl (fun _ _ => eq_refl))|].
  apply Forall_cons; [exact (op_intro _ _ _ _ _ _ (L_38 G 0x3c) eq_refl (fun _ _ => eq_refl))|].
  apply Forall_cons; [exact (op_intro _ _ _ _ _ _ (L_38 G 0x3d) eq_refl (fun _ _ => eq_refl))|].
  apply Forall_cons; [exact (op_intro _ _ _ _ _ _ (L_38 G 0x3e) eq_refl (fun _ _ => eq_refl))|].
  apply Forall_cons; [exact (op_intro _ _ _ _ _ _ (L_38 G 0x3f) eq_refl (fun _ _ => eq_refl))|].
  apply Forall_cons; [exact (op_intro _ _ _ _ _ _ (L_40 G 0x40 HG) eq_refl (fun _ _ => eq_refl))|].
  apply Forall_cons; [exact (op_intro _ _ _ _ _ _ (L_01 G 0x41 HG ltac:(lia)) eq_refl (fun _ _ => eq_refl))|].
  apply Forall_cons; [exact (op_intro _ _ _ _ _ _ (L_42 G 0x42 HG) eq_refl (fun _ _ => eq_refl))|].
  apply Forall_cons; [exact (op_intro _ _ _ _ _ _ (L_43 G 0x43 HG) eq_refl (fun _ _ => eq_refl))|].
  apply Forall_cons; [exact (op_intro _ _ _ _ _ _ (L_44 G 0x44 HG) eq_refl (fun _ _ => eq_refl))|].
  apply Forall_cons; [exact (op_intro _ _ _ _ _ _ (L_45 G 0x45 HG) eq_refl (fun _ _ => eq_refl))|].
  apply Forall_cons; [exact (op_intro _ _ _ _ _ _ (L_46 G 0x46) eq_refl (fun _ _ => eq_refl))|].
  apply Forall_cons; [exact (op_intro _ _ _ _ _ _ (L_46 G 0x47) eq_refl (fun _ _ => eq_refl))|].
  apply Forall_cons; [exact (op_intro _ _ _ _ _ _ (L_48 G 0x48) eq_refl (fun _ _ => eq_refl))|].
  apply Forall_cons; [exact (op_intro _ _ _ _ _ _ (L_48 G 0x49) eq_refl (fun _ _ => eq_refl))|].
  apply Forall_cons; [exact (op_intro _ _ _ _ _ _ (L_48 G 0x4a) eq_refl (fun _ _ => eq_refl))|].
  apply Forall_cons; [exact (op_intro _ _ _ _ _ _ (L_48 G 0x4b) eq_refl (fun _ _ => eq_refl))|].
  apply Forall_cons; [exact (op_intro _ _ _ _ _ _ (L_48 G 0x4c) eq_refl (fun _ _ => eq_refl))|].
  apply Forall_cons; [exact (op_intro _ _ _ _ _ _ (L_48 G 0x4d) eq_refl (fun _ _ => eq_refl))|].
  apply Forall_cons; [exact (op_intro _ _ _ _ _ _ (L_48 G 0x4e) eq_refl (fun _ _ => eq_refl))|].
  apply Forall_cons; [exact (op_intro _ _ _ _ _ _ (L_48 G 0x4f) eq_refl (fun _ _ => eq_refl))|].
  apply Forall_cons; [exact (op_intro _ _ _ _ _ _ (L_50 G 0x50 HG) eq_refl (fun _ _ => eq_refl))|].
  apply Forall_cons; [exact (op_intro _ _ _ _ _ _ (L_11 G 0x51 HG ltac:(lia)) eq_refl (fun _ _ => eq_refl))|].
  apply Forall_cons; [exact (op_intro _ _ _ _ _ _ (L_52 G 0x52 HG) eq_refl (fun _ _ => eq_refl))|].
  apply Forall_cons; [exact (op_intro _ _ _ _ _ _ (L_53 G 0x53 HG) eq_refl (fun _ _ => eq_refl))|].
  apply Forall_cons; [exact (op_intro _ _ _ _ _ _ (L_54 G 0x54 HG) eq_refl (fun _ _ => eq_refl))|].
  apply Forall_cons; [exact (op_intro _ _ _ _ _ _ (L_55 G 0x55 HG) eq_refl (fun _ _ => eq_refl))|].
  apply Forall_cons; [exact (op_intro _ _ _ _ _ _ (L_56 G 0x56) eq_refl (fun _ _ => eq_refl))|].
  apply Forall_cons; [exact (op_intro _ _ _ _ _ _ (L_56 G 0x57) eq_refl (fun _ _ => eq_refl))|].
  apply Forall_cons; [exact (op_intro _ _ _ _ _ _ (L_58 G 0x58) eq_refl (fun _ _ => eq_refl))|].
  apply Forall_cons; [exact (op_intro _ _ _ _ _ _ (L_58 G 0x59) eq_refl (fun _ _ => eq_refl))|].
  apply Forall_cons; [exact (op_intro _ _ _ _ _ _ (L_58 G 0x5a) eq_refl (fun _ _ => eq_refl))|].
  apply Forall_cons; [exact (op_intro _ _ _ _ _ _ (L_58 G 0x5b) eq_refl (fun _ _ => eq_refl))|].
  apply Forall_cons; [exact (op_intro _ _ _ _ _ _ (L_58 G 0x5c) eq_refl (fun _ _ => eq_refl))|].
  apply Forall_cons; [exact (op_intro _ _ _ _ _ _ (L_58 G 0x5d) eq_refl (fun _ _ => eq_refl))|].
  apply Forall_cons; [exact (op_intro _ _ _ _ _ _ (L_58 G 0x5e) eq_refl (fun _ _ => eq_refl))|].
  apply Forall_cons; [exact (op_intro _ _ _ _ _ _ (L_58 G 0x5f) eq_refl (fun _ _ => eq_refl))|].
  apply Forall_cons; [exact (op_intro _ _ _ _ _ _ (L_60 G 0x60 HG) eq_refl (fun _ _ => eq_refl))|].
  apply Forall_cons; [exact (op_intro _ _ _ _ _ _ (L_01 G 0x61 HG ltac:(lia)) eq_refl (fun _ _ => eq_refl))|].
  apply Forall_cons; [exact (op_intro _ _ _ _ _ _ (L_62 G 0x62 HG) eq_refl (fun _ _ => eq_refl))|].
  apply Forall_cons; [exact (op_intro _ _ _ _ _ _ (L_63 G 0x63 HG) eq_refl (fun _ _ => eq_refl))|].
  apply Forall_cons; [exact (op_intro _ _ _ _ _ _ (L_64 G 0x64 HG) eq_refl (fun _ _ => eq_refl))|].
  apply Forall_cons; [exact (op_intro _ _ _ _ _ _ (L_65 G 0x65 HG) eq_refl (fun _ _ => eq_refl))|].
  apply Forall_cons; [exact (op_intro _ _ _ _ _ _ (L_66 G 0x66) eq_refl (fun _ _ => eq_refl))|].
  apply Forall_cons; [exact (op_intro _ _ _ _ _ _ (L_66 G 0x67) eq_refl (fun _ _ => eq_refl))|].
  apply Forall_cons; [exact (op_intro _ _ _ _ _ _ (L_68 G 0x68) eq_refl (fun _ _ => eq_refl))|].
  apply Forall_cons; [exact (op_intro _ _ _ _ _ _ (L_68 G 0x69) eq_refl (fun _ _ => eq_refl))|].
  apply Forall_cons; [exact (op_intro _ _ _ _ _ _ (L_68 G 0x6a) eq_refl (fun _ _ => eq_refl))|].
  apply Forall_cons; [exact (op_intro _ _ _ _ _ _ (L_68 G 0x6b) eq_refl (fun _ _ => eq_refl))|].
  apply Forall_cons; [exact (op_intro _ _ _ _ _ _ (L_68 G 0x6c) eq_refl (fun _ _ => eq_refl))|].
  apply Forall_cons; [exact (op_intro _ _ _ _ _ _ (L_68 G 0x6d) eq_refl (fun _ _ => eq_refl))|].
  apply Forall_cons; [exact (op_intro _ _ _ _ _ _ (L_68 G 0x6e) eq_refl (fun _ _ => eq_refl))|].
  apply Forall_cons; [exact (op_intro _ _ _ _ _ _ (L_68 G 0x6f) eq_refl (fun _ _ => eq_refl))|].
  apply Forall_cons; [exact (op_intro _ _ _ _ _ _ (L_70 G 0x70 HG) eq_refl (fun _ _ => eq_refl))|].
  apply Forall_cons; [exact (op_intro _ _ _ _ _ _ (L_11 G 0x71 HG ltac:(lia)) eq_refl (fun _ _ => eq_refl))|].
  apply Forall_cons; [exact (op_intro _ _ _ _ _ _ (L_72 G 0x72 HG) eq_refl (fun _ _ => eq_refl))|].
  apply Forall_cons; [exact (op_intro _ _ _ _ _ _ (L_73 G 0x73) eq_refl (fun _ _ => eq_refl))|].
  apply Forall_cons; [exact (op_intro _ _ _ _ _ _ (L_74 G 0x74 HG) eq_refl (fun _ _ => eq_refl))|].
  apply Forall_cons; [exact (op_intro _ _ _ _ _ _ (L_75 G 0x75 HG) eq_refl (fun _ _ => eq_refl))|].
  apply Forall_cons; [exact (op_intro _ _ _ _ _ _ (L_76 G 0x76 HG) eq_refl (fun _ _ => eq_refl))|].
  apply Forall_cons; [exact (op_intro _ _ _ _ _ _ (L_76 G 0x77 HG) eq_refl (fun _ _ => eq_refl))|].
  apply Forall_cons; [exact (op_intro _ _ _ _ _ _ (L_78 G 0x78 HG) eq_refl (fun _ _ => eq_refl))|].
  apply Forall_cons; [exact (op_intro _ _ _ _ _ _ (L_78 G 0x79 HG) eq_refl (fun _ _ => eq_refl))|].
  apply Forall_cons; [exact (op_intro _ _ _ _ _ _ (L_78 G 0x7a HG) eq_refl (fun _ _ => eq_refl))|].
  apply Forall_cons; [exact (op_intro _ _ _ _ _ _ (L_78 G 0x7b HG) eq_refl (fun _ _ => eq_refl))|].
  apply Forall_cons; [exact (op_intro _ _ _ _ _ _ (L_78 G 0x7c HG) eq_refl (fun _ _ => eq_refl))|].
  apply Forall_cons; [exact (op_intro _ _ _ _ _ _ (L_78 G 0x7d HG) eq_refl (fun _ _ => eq_refl))|].
  apply Forall_cons; [exact (op_intro _ _ _ _ _ _ (L_78 G 0x7e HG) eq_refl (fun _ _ => eq_refl))|].
  apply Forall_cons; [exact (op_intro _ _ _ _ _ _ (L_78 G 0x7f HG) eq_refl (fun _ _ => eq_refl))|].
  apply Forall_cons; [exact (op_intro _ _ _ _ _ _ (L_80 G 0x80 HG) eq_refl (fun _ _ => eq_refl))|].
  apply Forall_cons; [exact (op_intro _ _ _ _ _ _ (L_01 G 0x81 HG ltac:(lia)) eq_refl (fun _ _ => eq_refl))|].
  apply Forall_cons; [exact (op_intro _ _ _ _ _ _ (L_82 G 0x82 HG) eq_refl (fun _ _ => eq_refl))|].
  apply Forall_cons; [exact (op_intro _ _ _ _ _ _ (L_83 G 0x83) eq_refl (fun _ _ => eq_refl))|].
  apply Forall_cons; [exact (op_intro _ _ _ _ _ _ (L_84 G 0x84) eq_refl (fun _ _ => eq_refl))|].
  apply Forall_cons; [exact (op_intro _ _ _ _ _ _ (L_85 G 0x85 HG) eq_refl (fun _ _ => eq_refl))|].
  apply Forall_cons; [exact (op_intro _ _ _ _ _ _ (L_86 G 0x86 HG) eq_refl (fun _ _ => eq_refl))|].
  apply Forall_cons; [exact (op_intro _ _ _ _ _ _ (L_86 G 0x87 HG) eq_refl (fun _ _ => eq_refl))|].
  apply Forall_cons; [exact (op_intro _ _ _ _ _ _ (L_88 G 0x88 HG) eq_refl (fun _ _ => eq_refl))|].
  apply Forall_cons; [exact (op_intro _ _ _ _ _ _ (L_88 G 0x89 HG) eq_refl (fun _ _ => eq_refl))|].
  apply Forall_cons; [exact (op_intro _ _ _ _ _ _ (L_88 G 0x8a HG) eq_refl (fun _ _ => eq_refl))|].
  apply Forall_cons; [exact (op_intro _ _ _ _ _ _ (L_88 G 0x8b HG) eq_refl (fun _ _ => eq_refl))|].
  apply Forall_cons; [exact (op_intro _ _ _ _ _ _ (L_88 G 0x8c HG) eq_refl (fun _ _ => eq_refl))|].
  apply Forall_cons; [exact (op_intro _ _ _ _ _ _ (L_88 G 0x8d HG) eq_refl (fun _ _ => eq_refl))|].
  apply Forall_cons; [exact (op_intro _ _ _ _ _ _ (L_88 G 0x8e HG) eq_refl (fun _ _ => eq_refl))|].
  apply Forall_cons; [exact (op_intro _ _ _ _ _ _ (L_88 G 0x8f HG) eq_refl (fun _ _ => eq_refl))|].
  apply Forall_cons; [exact (op_intro _ _ _ _ _ _ (L_90 G 0x90 HG) eq_refl (fun _ _ => eq_refl))|].
  apply Forall_cons; [exact (op_intro _ _ _ _ _ _ (L_11 G 0x91 HG ltac:(lia)) eq_refl (fun _ _ => eq_refl))|].
  apply Forall_cons; [exact (op_intro _ _ _ _ _ _ (L_92 G 0x92 HG) eq_refl (fun _ _ => eq_refl))|].
  apply Forall_cons; [exact (op_intro _ _ _ _ _ _ (L_93 G 0x93) eq_refl (fun _ _ => eq_refl))|].
  apply Forall_cons; [exact (op_intro _ _ _ _ _ _ (L_94 G 0x94 HG) eq_refl (fun _ _ => eq_refl))|].
  apply Forall_cons; [exact (op_intro _ _ _ _ _ _ (L_95 G 0x95 HG) eq_refl (fun _ _ => eq_refl))|].
  apply Forall_cons; [exact (op_intro _ _ _ _ _ _ (L_96 G 0x96) eq_refl (fun _ _ => eq_refl))|].
  apply Forall_cons; [exact (op_intro _ _ _ _ _ _ (L_96 G 0x97) eq_refl (fun _ _ => eq_refl))|].
  apply Forall_cons; [exact (op_intro _ _ _ _ _ _ (L_98 G 0x98) eq_refl (fun _ _ => eq_refl))|].
  apply Forall_cons; [exact (op_intro _ _ _ _ _ _ (L_98 G 0x99) eq_refl (fun _ _ => eq_refl))|].
  apply Forall_cons; [exact (op_intro _ _ _ _ _ _ (L_98 G 0x9a) eq_refl (fun _ _ => eq_refl))|].
  apply Forall_cons; [exact (op_intro _ _ _ _ _ _ (L_98 G 0x9b) eq_refl (fun _ _ => eq_refl))|].
  apply Forall_cons; [exact (op_intro _ _ _ _ _ _ (L_98 G 0x9c) eq_refl (fun _ _ => eq_refl))|].
  apply Forall_cons; [exact (op_intro _ _ _ _ _ _ (L_98 G 0x9d) eq_refl (fun _ _ => eq_refl))|].
  apply Forall_cons; [exact (op_intro _ _ _ _ _ _ (L_98 G 0x9e) eq_refl (fun _ _ => eq_refl))|].
  apply Forall_cons; [exact (op_intro _ _ _ _ _ _ (L_98 G 0x9f) eq_refl (fun _ _ => eq_refl))|].
  apply Forall_cons; [exact (op_intro _ _ _ _ _ _ (L_a0 G 0xa0 HG) eq_refl (fun _ _ => eq_refl))|].
  apply Forall_cons; [exact (op_intro _ _ _ _ _ _ (L_01 G 0xa1 HG ltac:(lia)) eq_refl (fun _ _ => eq_refl))|].
  apply Forall_cons; [exact (op_intro _ _ _ _ _ _ (L_a2 G 0xa2 HG) eq_refl (fun _ _ => eq_refl))|].
  apply Forall_cons; [exact (op_intro _ _ _ _ _ _ (L_a3 G 0xa3) eq_refl (fun _ _ => eq_refl))|].
  apply Forall_cons; [exact (op_intro _ _ _ _ _ _ (L_a4 G 0xa4) eq_refl (fun _ _ => eq_refl))|].
  apply Forall_cons; [reflexivity|].
  apply Forall_cons; [exact (op_intro _ _ _ _ _ _ (L_a6 G 0xa6 HG) eq_refl (fun _ _ => eq_refl))|].
  apply Forall_cons; [exact (op_intro _ _ _ _ _ _ (L_a6 G 0xa7 HG) eq_refl (fun _ _ => eq_refl))|].
  apply Forall_cons; [exact (op_intro _ _ _ _ _ _ (L_a8 G 0xa8 HG) eq_refl (fun _ _ => eq_refl))|].
  apply Forall_cons; [exact (op_intro _ _ _ _ _ _ (L_a8 G 0xa9 HG) eq_refl (fun _ _ => eq_refl))|].
  apply Forall_cons; [exact (op_intro _ _ _ _ _ _ (L_a8 G 0xaa HG) eq_refl (fun _ _ => eq_refl))|].
  apply Forall_cons; [exact (op_intro _ _ _ _ _ _ (L_a8 G 0xab HG) eq_refl (fun _ _ => eq_refl))|].
  apply Forall_cons; [exact (op_intro _ _ _ _ _ _ (L_a8 G 0xac HG) eq_refl (fun _ _ => eq_refl))|].
  apply Forall_cons; [exact (op_intro _ _ _ _ _ _ (L_a8 G 0xad HG) eq_refl (fun _ _ => eq_refl))|].
  apply Forall_cons; [exact (op_intro _ _ _ _ _ _ (L_a8 G 0xae HG) eq_refl (fun _ _ => eq_refl))|].
  apply Forall_cons; [exact (op_intro _ _ _ _ _ _ (L_a8 G 0xaf HG) eq_refl (fun _ _ => eq_refl))|].
  apply Forall_cons; [exact (op_intro _ _ _ _ _ _ (L_b0 G 0xb0 HG) eq_refl (fun _ _ => eq_refl))|].
  apply Forall_cons; [exact (op_intro _ _ _ _ _ _ (L_11 G 0xb1 HG ltac:(lia)) eq_refl (fun _ _ => eq_refl))|].
  apply Forall_cons; [exact (op_intro _ _ _ _ _ _ (L_b2 G 0xb2 HG) eq_refl (fun _ _ => eq_refl))|].
  apply Forall_cons; [exact (op_intro _ _ _ _ _ _ (L_b3 G 0xb3) eq_refl (fun _ _ => eq_refl))|].
  apply Forall_cons; [exact (op_intro _ _ _ _ _ _ (L_b4 G 0xb4 HG) eq_refl (fun _ _ => eq_refl))|].
  apply Forall_cons; [exact (op_intro _ _ _ _ _ _ (L_b5 G 0xb5 HG) eq_refl (fun _ _ => eq_refl))|].
  apply Forall_cons; [exact (op_intro _ _ _ _ _ _ (L_b6 G 0xb6 HG) eq_refl (fun _ _ => eq_refl))|].
  apply Forall_cons; [exact (op_intro _ _ _ _ _ _ (L_b6 G 0xb7 HG) eq_refl (fun _ _ => eq_refl))|].
  apply Forall_cons; [exact (op_intro _ _ _ _ _ _ (L_b8 G 0xb8 HG) eq_refl (fun _ _ => eq_refl))|].
  apply Forall_cons; [exact (op_intro _ _ _ _ _ _ (L_b8 G 0xb9 HG) eq_refl (fun _ _ => eq_refl))|].
  apply Forall_cons; [exact (op_intro _ _ _ _ _ _ (L_b8 G 0xba HG) eq_refl (fun _ _ => eq_refl))|].
  apply Forall_cons; [exact (op_intro _ _ _ _ _ _ (L_b8 G 0xbb HG) eq_refl (fun _ _ => eq_refl))|].
  apply Forall_cons; [exact (op_intro _ _ _ _ _ _ (L_b8 G 0xbc HG) eq_refl (fun _ _ => eq_refl))|].
  apply Forall_cons; [exact (op_intro _ _ _ _ _ _ (L_b8 G 0xbd HG) eq_refl (fun _ _ => eq_refl))|].
  apply Forall_cons; [exact (op_intro _ _ _ _ _ _ (L_b8 G 0xbe HG) eq_refl (fun _ _ => eq_refl))|].
  apply Forall_cons; [exact (op_intro _ _ _ _ _ _ (L_b8 G 0xbf HG) eq_refl (fun _ _ => eq_refl))|].
  apply Forall_cons; [exact (op_intro _ _ _ _ _ _ (L_c0 G 0xc0 HG) eq_refl (fun _ _ => eq_refl))|].
  apply Forall_cons; [exact (op_intro _ _ _ _ _ _ (L_01 G 0xc1 HG ltac:(lia)) eq_refl (fun _ _ => eq_refl))|].
  apply Forall_cons; [exact (op_intro _ _ _ _ _ _ (L_c2 G 0xc2 HG) eq_refl (fun _ _ => eq_refl))|].
  apply Forall_cons; [exact (op_intro _ _ _ _ _ _ (L_c3 G 0xc3) eq_refl (fun _ _ => eq_refl))|].
  apply Forall_cons; [exact (op_intro _ _ _ _ _ _ (L_c4 G 0xc4) eq_refl (fun _ _ => eq_refl))|].
  apply Forall_cons; [exact (op_intro _ _ _ _ _ _ (L_c5 G 0xc5 HG) eq_refl (fun _ _ => eq_refl))|].
  apply Forall_cons; [exact (op_intro _ _ _ _ _ _ (L_c6 G 0xc6) eq_refl (fun _ _ => eq_refl))|].
  apply Forall_cons; [exact (op_intro _ _ _ _ _ _ (L_c6 G 0xc7) eq_refl (fun _ _ => eq_refl))|].
  apply Forall_cons; [exact (op_intro _ _ _ _ _ _ (L_c8 G 0xc8) eq_refl (fun _ _ => eq_refl))|].
  apply Forall_cons; [exact (op_intro _ _ _ _ _ _ (L_c8 G 0xc9) eq_refl (fun _ _ => eq_refl))|].
  apply Forall_cons; [exact (op_intro _ _ _ _ _ _ (L_c8 G 0xca) eq_refl (fun _ _ => eq_refl))|].
  apply Forall_cons; [exact (op_intro _ _ _ _ _ _ (L_c8 G 0xcb) eq_refl (fun _ _ => eq_refl))|].
  apply Forall_cons; [exact (op_intro _ _ _ _ _ _ (L_c8 G 0xcc) eq_refl (fun _ _ => eq_refl))|].
  apply Forall_cons; [exact (op_intro _ _ _ _ _ _ (L_c8 G 0xcd) eq_refl (fun _ _ => eq_refl))|].
  apply Forall_cons; [exact (op_intro _ _ _ _ _ _ (L_c8 G 0xce) eq_refl (fun _ _ => eq_refl))|].
  apply Forall_cons; [exact (op_intro _ _ _ _ _ _ (L_c8 G 0xcf) eq_refl (fun _ _ => eq_refl))|].
  apply Forall_cons; [exact (op_intro _ _ _ _ _ _ (L_d0 G 0xd0 HG) eq_refl (fun _ _ => eq_refl))|].
  apply Forall_cons; [exact (op_intro _ _ _ _ _ _ (L_11 G 0xd1 HG ltac:(lia)) eq_refl (fun _ _ => eq_refl))|].
  apply Forall_cons; [exact (op_intro _ _ _ _ _ _ (L_d2 G 0xd2 HG) eq_refl (fun _ _ => eq_refl))|].
  apply Forall_cons; [exact (op_intro _ _ _ _ _ _ (L_d3 G 0xd3) eq_refl (fun _ _ => eq_refl))|].
  apply Forall_cons; [exact (op_intro _ _ _ _ _ _ (L_d4 G 0xd4) eq_refl (fun _ _ => eq_refl))|].
  apply Forall_cons; [exact (op_intro _ _ _ _ _ _ (L_d5 G 0xd5 HG) eq_refl (fun _ _ => eq_refl))|].
  apply Forall_cons; [exact (op_intro _ _ _ _ _ _ (L_d6 G 0xd6) eq_refl (fun _ _ => eq_refl))|].
  apply Forall_cons; [exact (op_intro _ _ _ _ _ _ (L_d6 G 0xd7) eq_refl (fun _ _ => eq_refl))|].
  apply Forall_cons; [exact (op_intro _ _ _ _ _ _ (L_d8 G 0xd8 HG) eq_refl (fun _ _ => eq_refl))|].
  apply Forall_cons; [exact (op_intro _ _ _ _ _ _ (L_d8 G 0xd9 HG) eq_refl (fun _ _ => eq_refl))|].
  apply Forall_cons; [exact (op_intro _ _ _ _ _ _ (L_d8 G 0xda HG) eq_refl (fun _ _ => eq_refl))|].
  apply Forall_cons; [exact (op_intro _ _ _ _ _ _ (L_d8 G 0xdb HG) eq_refl (fun _ _ => eq_refl))|].
  apply Forall_cons; [exact (op_intro _ _ _ _ _ _ (L_d8 G 0xdc HG) eq_refl (fun _ _ => eq_refl))|].
  apply Forall_cons; [exact (op_intro _ _ _ _ _ _ (L_d8 G 0xdd HG) eq_refl (fun _ _ => eq_refl))|].
  apply Forall_cons; [exact (op_intro _ _ _ _ _ _ (L_d8 G 0xde HG) eq_refl (fun _ _ => eq_refl))|].
  apply Forall_cons; [exact (op_intro _ _ _ _ _ _ (L_d8 G 0xdf HG) eq_refl (fun _ _ => eq_refl))|].
  apply Forall_cons; [exact (op_intro _ _ _ _ _ _ (L_e0 G 0xe0) eq_refl (fun _ _ => eq_refl))|].
  apply Forall_cons; [exact (op_intro _ _ _ _ _ _ (L_01 G 0xe1 HG ltac:(lia)) eq_refl (fun _ _ => eq_refl))|].
  apply Forall_cons; [exact (op_intro _ _ _ _ _ _ (L_e2 G 0xe2) eq_refl (fun _ _ => eq_refl))|].
  apply Forall_cons; [exact (op_intro _ _ _ _ _ _ (L_e2 G 0xe3) eq_refl (fun _ _ => eq_refl))|].
  apply Forall_cons; [exact (op_intro _ _ _ _ _ _ (L_e4 G 0xe4) eq_refl (fun _ _ => eq_refl))|].
  apply Forall_cons; [exact (op_intro _ _ _ _ _ _ (L_e5 G 0xe5 HG) eq_refl (fun _ _ => eq_refl))|].
  apply Forall_cons; [exact (op_intro _ _ _ _ _ _ (L_e6 G 0xe6) eq_refl (fun _ _ => eq_refl))|].
  apply Forall_cons; [exact (op_intro _ _ _ _ _ _ (L_e6 G 0xe7) eq_refl (fun _ _ => eq_refl))|].
  apply Forall_cons; [exact (op_intro _ _ _ _ _ _ (L_e8 G 0xe8) eq_refl (fun _ _ => eq_refl))|].
  apply Forall_cons; [exact (op_intro _ _ _ _ _ _ (L_e8 G 0xe9) eq_refl (fun _ _ => eq_refl))|].
  apply Forall_cons; [exact (op_intro _ _ _ _ _ _ (L_e8 G 0xea) eq_refl (fun _ _ => eq_refl))|].
  apply Forall_cons; [exact (op_intro _ _ _ _ _ _ (L_e8 G 0xeb) eq_refl (fun _ _ => eq_refl))|].
  apply Forall_cons; [exact (op_intro _ _ _ _ _ _ (L_e8 G 0xec) eq_refl (fun _ _ => eq_refl))|].
  apply Forall_cons; [exact (op_intro _ _ _ _ _ _ (L_e8 G 0xed) eq_refl (fun _ _ => eq_refl))|].
  apply Forall_cons; [exact (op_intro _ _ _ _ _ _ (L_e8 G 0xee) eq_refl (fun _ _ => eq_refl))|].
  apply Forall_cons; [exact (op_intro _ _ _ _ _ _ (L_e8 G 0xef) eq_refl (fun _ _ => eq_refl))|].
  apply Forall_cons; [exact (op_intro _ _ _ _ _ _ (L_f0 G 0xf0) eq_refl (fun _ _ => eq_refl))|].
  apply Forall_cons; [exact (op_intro _ _ _ _ _ _ (L_11 G 0xf1 HG ltac:(lia)) eq_refl (fun _ _ => eq_refl))|].
  apply Forall_cons; [exact (op_intro _ _ _ _ _ _ (L_f2 G 0xf2) eq_refl (fun _ _ => eq_refl))|].
  apply Forall_cons; [exact (op_intro _ _ _ _ _ _ (L_f2 G 0xf3) eq_refl (fun _ _ => eq_refl))|].
  apply Forall_cons; [exact (op_intro _ _ _ _ _ _ (L_f4 G 0xf4) eq_refl (fun _ _ => eq_refl))|].
  apply Forall_cons; [exact (op_intro _ _ _ _ _ _ (L_f5 G 0xf5 HG) eq_refl (fun _ _ => eq_refl))|].
  apply Forall_cons; [exact (op_intro _ _ _ _ _ _ (L_f6 G 0xf6) eq_refl (fun _ _ => eq_refl))|].
  apply Forall_cons; [exact (op_intro _ _ _ _ _ _ (L_f6 G 0xf7) eq_refl (fun _ _ => eq_refl))|].
  apply Forall_cons; [exact (op_intro _ _ _ _ _ _ (L_f8 G 0xf8) eq_refl (fun _ _ => eq_refl))|].
  apply Forall_cons; [exact (op_intro _ _ _ _ _ _ (L_f8 G 0xf9) eq_refl (fun _ _ => eq_refl))|].
  apply Forall_cons; [exact (op_intro _ _ _ _ _ _ (L_f8 G 0xfa) eq_refl (fun _ _ => eq_refl))|].
  apply Forall_cons; [exact (op_intro _ _ _ _ _ _ (L_f8 G 0xfb) eq_refl (fun _ _ => eq_refl))|].
  apply Forall_cons; [exact (op_intro _ _ _ _ _ _ (L_f8 G 0xfc) eq_refl (fun _ _ => eq_refl))|].
  apply Forall_cons; [exact (op_intro _ _ _ _ _ _ (L_f8 G 0xfd) eq_refl (fun _ _ => eq_refl))|].
  apply Forall_cons; [exact (op_intro _ _ _ _ _ _ (L_f8 G 0xfe) eq_refl (fun _ _ => eq_refl))|].
  apply Forall_cons; [exact (op_intro _ _ _ _ _ _ (L_f8 G 0xff) eq_refl (fun _ _ => eq_refl))|].
  constructor.
Qed.
