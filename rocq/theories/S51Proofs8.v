(** Consequences of the step theorem, and the known deviations. *)
From Verif Require Import Base S51Model S51Spec S51Obs S51DisModel S51Proofs S51Proofs2 S51Proofs3 S51Proofs4 S51Proofs5 S51Proofs6 S51Proofs7.

(* ------------------------------------------------------------ any state *)
(** the first fetch of an instruction, PC up to 10000h *)
Lemma fetch_wk G s : wk s -> exists b, fetch G s = (b, set_pc s ((pc s + 1) mod 65536)) /\
  b = (if pc s <? 65536 then rom G (pc s) else hole s).
Proof.
  intros (_ & H). unfold fetch, rom_read. eexists. split; [|reflexivity].
  change 0x10000 with 65536. rewrite land_ffff. do 2 f_equal. unfold u32. rewrite (Z.mod_small _ 4294967296) by lia. reflexivity.
Qed.
Lemma wf_of_wk s v : wk s -> 0 <= v < 65536 -> wf (set_pc s v).
Proof. intros (H & _) Hv. exact (wf_set_pc (set_pc s 0) v H Hv). Qed.

Lemma safe_step G s : wf_cfg G -> wk s -> wk (inst_step G s).
Proof.
  intros HG W. pose proof HG as [HR _]. change (inst_step G s) with (exec_inst G (begin_inst s)).
  assert (W0 : wk (begin_inst s)) by exact W. pose proof W0 as (W00 & _).
  unfold exec_inst. destruct (fetch_wk G (begin_inst s) W0) as (b & -> & Eb).
  assert (Hb : 0 <= b < 256).
  { rewrite Eb. destruct (_ <? _); [apply HR|]. destruct W00 as (_ & _ & _ & _ & H & _). exact H. }
  assert (W1 : wf (set_pc (begin_inst s) ((pc (begin_inst s) + 1) mod 65536)))
    by (apply wf_of_wk; [exact W0|apply Z.mod_pos_bound; lia]).
  destruct (itab G b) as [f|] eqn:Ei.
  - apply (itab_safe G b f HG Hb Ei b); [exact Hb|apply wf_tick; exact W1].
  - unfold fetch. cbv beta iota. rewrite land_ffff.
    match goal with |- wk (inst_unknown (set_pc _ (?x mod 65536))) => pose proof (Z.mod_pos_bound x 65536 ltac:(lia)) as Hx end.
    split; [exact W00|]. cbn [pc inst_unknown set_pc]. lia.
Qed.
Lemma safe_steps G n s : wf_cfg G -> wk s -> wk (steps G n s).
Proof.
  intros HG W. induction n as [|n IH]; [exact W|]. rewrite steps_snoc. apply safe_step; assumption.
Qed.

(* ------------------------------------------------------------ instPC *)
Lemma ip_sfr_write s a v : instpc (sfr_write s a v) = instpc s.
Proof. unfold sfr_write, sfr_put, acc_written. destruct (a =? IE), (a =? ACC), (a =? PSW); reflexivity. Qed.
Lemma ip_c_write G s c v : instpc (c_write G s c v) = instpc s.
Proof. destruct c; cbn [c_write]; try reflexivity. apply ip_sfr_write. Qed.
Lemma ip_bits_set s b v : instpc (bits_set s b v) = instpc s.
Proof. unfold bits_set. destruct (b <? 128); reflexivity. Qed.
Lemma ip_bits_write s b v : instpc (bits_write s b v) = instpc s.
Proof.
  unfold bits_write. destruct (b <? 128); [apply ip_bits_set|]. cbv zeta. rewrite ip_bits_set.
  destruct (_ =? ACC); [|apply ip_sfr_write]. unfold acc_written. cbn [instpc set_sfr].
  rewrite ip_bits_set. apply ip_sfr_write.
Qed.
Lemma ip_SSB v r m s : instpc (SFR_SET_BIT v r m s) = instpc s.
Proof. unfold SFR_SET_BIT. destruct (v =? 0); reflexivity. Qed.
Lemma ip_push G s v : instpc (push_byte G s v) = instpc s.
Proof. unfold push_byte. rewrite ip_c_write. apply ip_sfr_write. Qed.
Lemma ip_tick n s : instpc (tick n s) = instpc s. Proof. reflexivity. Qed.
Lemma ip_set_pc s v : instpc (set_pc s v) = instpc s. Proof. reflexivity. Qed.
Lemma ip_rel s v : instpc (rel s v) = instpc s. Proof. reflexivity. Qed.
Lemma ip_dptr s i v : instpc (dptr_write s i v) = instpc s. Proof. reflexivity. Qed.
Lemma ip_put s i v : instpc (sfr_put s i v) = instpc s. Proof. reflexivity. Qed.
Lemma ip_unk s : instpc (inst_unknown s) = instpc s. Proof. reflexivity. Qed.
Lemma ip_xram s i v : instpc (set_xram s i v) = instpc s. Proof. reflexivity. Qed.
Lemma ip_lev s i v : instpc (set_levels s i v) = instpc s. Proof. reflexivity. Qed.
Ltac ipc :=
  rewrite ?ip_tick, ?ip_set_pc, ?ip_rel, ?ip_dptr, ?ip_put, ?ip_unk, ?ip_xram, ?ip_lev, ?ip_push, ?ip_SSB,
    ?ip_bits_write, ?ip_bits_set, ?ip_c_write, ?ip_sfr_write.

Ltac ips := repeat (match goal with |- context [instpc (if ?b then _ else _)] => destruct b end || (progress ipc)); try reflexivity.
Lemma I_00 G code s : instpc (instruction_00 code s) = instpc s /\ G = G :> cfg.
Proof. split; [|reflexivity]. unfold instruction_00, do_add, do_addc, do_subb_set, do_subb_write, xch, cjne, acc_write, acc, fetch. cbv zeta beta iota. ips. Qed.
Lemma I_01 G code s : instpc (instruction_01 G code s) = instpc s /\ G = G :> cfg.
Proof. split; [|reflexivity]. unfold instruction_01, do_add, do_addc, do_subb_set, do_subb_write, xch, cjne, acc_write, acc, fetch. cbv zeta beta iota. ips. Qed.
Lemma I_02 G code s : instpc (instruction_02 G code s) = instpc s /\ G = G :> cfg.
Proof. split; [|reflexivity]. unfold instruction_02, do_add, do_addc, do_subb_set, do_subb_write, xch, cjne, acc_write, acc, fetch. cbv zeta beta iota. ips. Qed.
Lemma I_03 G code s : instpc (instruction_03 code s) = instpc s /\ G = G :> cfg.
Proof. split; [|reflexivity]. unfold instruction_03, do_add, do_addc, do_subb_set, do_subb_write, xch, cjne, acc_write, acc, fetch. cbv zeta beta iota. ips. Qed.
Lemma I_04 G code s : instpc (instruction_04 code s) = instpc s /\ G = G :> cfg.
Proof. split; [|reflexivity]. unfold instruction_04, do_add, do_addc, do_subb_set, do_subb_write, xch, cjne, acc_write, acc, fetch. cbv zeta beta iota. ips. Qed.
Lemma I_05 G code s : instpc (instruction_05 G code s) = instpc s /\ G = G :> cfg.
Proof. split; [|reflexivity]. unfold instruction_05, do_add, do_addc, do_subb_set, do_subb_write, xch, cjne, acc_write, acc, fetch. cbv zeta beta iota. ips. Qed.
Lemma I_06 G code s : instpc (instruction_06 G code s) = instpc s /\ G = G :> cfg.
Proof. split; [|reflexivity]. unfold instruction_06, do_add, do_addc, do_subb_set, do_subb_write, xch, cjne, acc_write, acc, fetch. cbv zeta beta iota. ips. Qed.
Lemma I_08 G code s : instpc (instruction_08 G code s) = instpc s /\ G = G :> cfg.
Proof. split; [|reflexivity]. unfold instruction_08, do_add, do_addc, do_subb_set, do_subb_write, xch, cjne, acc_write, acc, fetch. cbv zeta beta iota. ips. Qed.
Lemma I_10 G code s : instpc (instruction_10 G code s) = instpc s /\ G = G :> cfg.
Proof. split; [|reflexivity]. unfold instruction_10, do_add, do_addc, do_subb_set, do_subb_write, xch, cjne, acc_write, acc, fetch. cbv zeta beta iota. ips. Qed.
Lemma I_11 G code s : instpc (instruction_11 G code s) = instpc s /\ G = G :> cfg.
Proof. split; [|reflexivity]. unfold instruction_11, do_add, do_addc, do_subb_set, do_subb_write, xch, cjne, acc_write, acc, fetch. cbv zeta beta iota. ips. Qed.
Lemma I_12 G code s : instpc (instruction_12 G code s) = instpc s /\ G = G :> cfg.
Proof. split; [|reflexivity]. unfold instruction_12, inst_lcall, do_add, do_addc, do_subb_set, do_subb_write, xch, cjne, acc_write, acc, fetch. cbv zeta beta iota. rewrite ?Z.eqb_refl; cbv beta iota; ips. Qed.
Lemma I_13 G code s : instpc (instruction_13 code s) = instpc s /\ G = G :> cfg.
Proof. split; [|reflexivity]. unfold instruction_13, do_add, do_addc, do_subb_set, do_subb_write, xch, cjne, acc_write, acc, fetch. cbv zeta beta iota. ips. Qed.
Lemma I_14 G code s : instpc (instruction_14 code s) = instpc s /\ G = G :> cfg.
Proof. split; [|reflexivity]. unfold instruction_14, do_add, do_addc, do_subb_set, do_subb_write, xch, cjne, acc_write, acc, fetch. cbv zeta beta iota. ips. Qed.
Lemma I_15 G code s : instpc (instruction_15 G code s) = instpc s /\ G = G :> cfg.
Proof. split; [|reflexivity]. unfold instruction_15, do_add, do_addc, do_subb_set, do_subb_write, xch, cjne, acc_write, acc, fetch. cbv zeta beta iota. ips. Qed.
Lemma I_16 G code s : instpc (instruction_16 G code s) = instpc s /\ G = G :> cfg.
Proof. split; [|reflexivity]. unfold instruction_16, do_add, do_addc, do_subb_set, do_subb_write, xch, cjne, acc_write, acc, fetch. cbv zeta beta iota. ips. Qed.
Lemma I_18 G code s : instpc (instruction_18 G code s) = instpc s /\ G = G :> cfg.
Proof. split; [|reflexivity]. unfold instruction_18, do_add, do_addc, do_subb_set, do_subb_write, xch, cjne, acc_write, acc, fetch. cbv zeta beta iota. ips. Qed.
Lemma I_20 G code s : instpc (instruction_20 G code s) = instpc s /\ G = G :> cfg.
Proof. split; [|reflexivity]. unfold instruction_20, do_add, do_addc, do_subb_set, do_subb_write, xch, cjne, acc_write, acc, fetch. cbv zeta beta iota. ips. Qed.
Lemma I_22 G code s : instpc (instruction_22 G code s) = instpc s /\ G = G :> cfg.
Proof. split; [|reflexivity]. unfold instruction_22, do_add, do_addc, do_subb_set, do_subb_write, xch, cjne, acc_write, acc, fetch. cbv zeta beta iota. ips. Qed.
Lemma I_23 G code s : instpc (instruction_23 code s) = instpc s /\ G = G :> cfg.
Proof. split; [|reflexivity]. unfold instruction_23, do_add, do_addc, do_subb_set, do_subb_write, xch, cjne, acc_write, acc, fetch. cbv zeta beta iota. ips. Qed.
Lemma I_24 G code s : instpc (instruction_24 G code s) = instpc s /\ G = G :> cfg.
Proof. split; [|reflexivity]. unfold instruction_24, do_add, do_addc, do_subb_set, do_subb_write, xch, cjne, acc_write, acc, fetch. cbv zeta beta iota. ips. Qed.
Lemma I_25 G code s : instpc (instruction_25 G code s) = instpc s /\ G = G :> cfg.
Proof. split; [|reflexivity]. unfold instruction_25, do_add, do_addc, do_subb_set, do_subb_write, xch, cjne, acc_write, acc, fetch. cbv zeta beta iota. ips. Qed.
Lemma I_26 G code s : instpc (instruction_26 G code s) = instpc s /\ G = G :> cfg.
Proof. split; [|reflexivity]. unfold instruction_26, do_add, do_addc, do_subb_set, do_subb_write, xch, cjne, acc_write, acc, fetch. cbv zeta beta iota. ips. Qed.
Lemma I_28 G code s : instpc (instruction_28 code s) = instpc s /\ G = G :> cfg.
Proof. split; [|reflexivity]. unfold instruction_28, do_add, do_addc, do_subb_set, do_subb_write, xch, cjne, acc_write, acc, fetch. cbv zeta beta iota. ips. Qed.
Lemma I_30 G code s : instpc (instruction_30 G code s) = instpc s /\ G = G :> cfg.
Proof. split; [|reflexivity]. unfold instruction_30, do_add, do_addc, do_subb_set, do_subb_write, xch, cjne, acc_write, acc, fetch. cbv zeta beta iota. ips. Qed.
Lemma I_32 G code s : instpc (instruction_32 G code s) = instpc s /\ G = G :> cfg.
Proof. split; [|reflexivity]. unfold instruction_32, instruction_22, do_add, do_addc, do_subb_set, do_subb_write, xch, cjne, acc_write, acc, fetch. cbv zeta beta iota. ips. Qed.
Lemma I_33 G code s : instpc (instruction_33 code s) = instpc s /\ G = G :> cfg.
Proof. split; [|reflexivity]. unfold instruction_33, do_add, do_addc, do_subb_set, do_subb_write, xch, cjne, acc_write, acc, fetch. cbv zeta beta iota. ips. Qed.
Lemma I_34 G code s : instpc (instruction_34 G code s) = instpc s /\ G = G :> cfg.
Proof. split; [|reflexivity]. unfold instruction_34, do_add, do_addc, do_subb_set, do_subb_write, xch, cjne, acc_write, acc, fetch. cbv zeta beta iota. ips. Qed.
Lemma I_35 G code s : instpc (instruction_35 G code s) = instpc s /\ G = G :> cfg.
Proof. split; [|reflexivity]. unfold instruction_35, do_add, do_addc, do_subb_set, do_subb_write, xch, cjne, acc_write, acc, fetch. cbv zeta beta iota. ips. Qed.
Lemma I_36 G code s : instpc (instruction_36 G code s) = instpc s /\ G = G :> cfg.
Proof. split; [|reflexivity]. unfold instruction_36, do_add, do_addc, do_subb_set, do_subb_write, xch, cjne, acc_write, acc, fetch. cbv zeta beta iota. ips. Qed.
Lemma I_38 G code s : instpc (instruction_38 code s) = instpc s /\ G = G :> cfg.
Proof. split; [|reflexivity]. unfold instruction_38, do_add, do_addc, do_subb_set, do_subb_write, xch, cjne, acc_write, acc, fetch. cbv zeta beta iota. ips. Qed.
Lemma I_40 G code s : instpc (instruction_40 G code s) = instpc s /\ G = G :> cfg.
Proof. split; [|reflexivity]. unfold instruction_40, do_add, do_addc, do_subb_set, do_subb_write, xch, cjne, acc_write, acc, fetch. cbv zeta beta iota. ips. Qed.
Lemma I_42 G code s : instpc (instruction_42 G code s) = instpc s /\ G = G :> cfg.
Proof. split; [|reflexivity]. unfold instruction_42, do_add, do_addc, do_subb_set, do_subb_write, xch, cjne, acc_write, acc, fetch. cbv zeta beta iota. ips. Qed.
Lemma I_43 G code s : instpc (instruction_43 G code s) = instpc s /\ G = G :> cfg.
Proof. split; [|reflexivity]. unfold instruction_43, do_add, do_addc, do_subb_set, do_subb_write, xch, cjne, acc_write, acc, fetch. cbv zeta beta iota. ips. Qed.
Lemma I_44 G code s : instpc (instruction_44 G code s) = instpc s /\ G = G :> cfg.
Proof. split; [|reflexivity]. unfold instruction_44, do_add, do_addc, do_subb_set, do_subb_write, xch, cjne, acc_write, acc, fetch. cbv zeta beta iota. ips. Qed.
Lemma I_45 G code s : instpc (instruction_45 G code s) = instpc s /\ G = G :> cfg.
Proof. split; [|reflexivity]. unfold instruction_45, do_add, do_addc, do_subb_set, do_subb_write, xch, cjne, acc_write, acc, fetch. cbv zeta beta iota. ips. Qed.
Lemma I_46 G code s : instpc (instruction_46 G code s) = instpc s /\ G = G :> cfg.
Proof. split; [|reflexivity]. unfold instruction_46, do_add, do_addc, do_subb_set, do_subb_write, xch, cjne, acc_write, acc, fetch. cbv zeta beta iota. ips. Qed.
Lemma I_48 G code s : instpc (instruction_48 code s) = instpc s /\ G = G :> cfg.
Proof. split; [|reflexivity]. unfold instruction_48, do_add, do_addc, do_subb_set, do_subb_write, xch, cjne, acc_write, acc, fetch. cbv zeta beta iota. ips. Qed.
Lemma I_50 G code s : instpc (instruction_50 G code s) = instpc s /\ G = G :> cfg.
Proof. split; [|reflexivity]. unfold instruction_50, do_add, do_addc, do_subb_set, do_subb_write, xch, cjne, acc_write, acc, fetch. cbv zeta beta iota. ips. Qed.
Lemma I_52 G code s : instpc (instruction_52 G code s) = instpc s /\ G = G :> cfg.
Proof. split; [|reflexivity]. unfold instruction_52, do_add, do_addc, do_subb_set, do_subb_write, xch, cjne, acc_write, acc, fetch. cbv zeta beta iota. ips. Qed.
Lemma I_53 G code s : instpc (instruction_53 G code s) = instpc s /\ G = G :> cfg.
Proof. split; [|reflexivity]. unfold instruction_53, do_add, do_addc, do_subb_set, do_subb_write, xch, cjne, acc_write, acc, fetch. cbv zeta beta iota. ips. Qed.
Lemma I_54 G code s : instpc (instruction_54 G code s) = instpc s /\ G = G :> cfg.
Proof. split; [|reflexivity]. unfold instruction_54, do_add, do_addc, do_subb_set, do_subb_write, xch, cjne, acc_write, acc, fetch. cbv zeta beta iota. ips. Qed.
Lemma I_55 G code s : instpc (instruction_55 G code s) = instpc s /\ G = G :> cfg.
Proof. split; [|reflexivity]. unfold instruction_55, do_add, do_addc, do_subb_set, do_subb_write, xch, cjne, acc_write, acc, fetch. cbv zeta beta iota. ips. Qed.
Lemma I_56 G code s : instpc (instruction_56 G code s) = instpc s /\ G = G :> cfg.
Proof. split; [|reflexivity]. unfold instruction_56, do_add, do_addc, do_subb_set, do_subb_write, xch, cjne, acc_write, acc, fetch. cbv zeta beta iota. ips. Qed.
Lemma I_58 G code s : instpc (instruction_58 code s) = instpc s /\ G = G :> cfg.
Proof. split; [|reflexivity]. unfold instruction_58, do_add, do_addc, do_subb_set, do_subb_write, xch, cjne, acc_write, acc, fetch. cbv zeta beta iota. ips. Qed.
Lemma I_60 G code s : instpc (instruction_60 G code s) = instpc s /\ G = G :> cfg.
Proof. split; [|reflexivity]. unfold instruction_60, do_add, do_addc, do_subb_set, do_subb_write, xch, cjne, acc_write, acc, fetch. cbv zeta beta iota. ips. Qed.
Lemma I_62 G code s : instpc (instruction_62 G code s) = instpc s /\ G = G :> cfg.
Proof. split; [|reflexivity]. unfold instruction_62, do_add, do_addc, do_subb_set, do_subb_write, xch, cjne, acc_write, acc, fetch. cbv zeta beta iota. ips. Qed.
Lemma I_63 G code s : instpc (instruction_63 G code s) = instpc s /\ G = G :> cfg.
Proof. split; [|reflexivity]. unfold instruction_63, do_add, do_addc, do_subb_set, do_subb_write, xch, cjne, acc_write, acc, fetch. cbv zeta beta iota. ips. Qed.
Lemma I_64 G code s : instpc (instruction_64 G code s) = instpc s /\ G = G :> cfg.
Proof. split; [|reflexivity]. unfold instruction_64, do_add, do_addc, do_subb_set, do_subb_write, xch, cjne, acc_write, acc, fetch. cbv zeta beta iota. ips. Qed.
Lemma I_65 G code s : instpc (instruction_65 G code s) = instpc s /\ G = G :> cfg.
Proof. split; [|reflexivity]. unfold instruction_65, do_add, do_addc, do_subb_set, do_subb_write, xch, cjne, acc_write, acc, fetch. cbv zeta beta iota. ips. Qed.
Lemma I_66 G code s : instpc (instruction_66 G code s) = instpc s /\ G = G :> cfg.
Proof. split; [|reflexivity]. unfold instruction_66, do_add, do_addc, do_subb_set, do_subb_write, xch, cjne, acc_write, acc, fetch. cbv zeta beta iota. ips. Qed.
Lemma I_68 G code s : instpc (instruction_68 code s) = instpc s /\ G = G :> cfg.
Proof. split; [|reflexivity]. unfold instruction_68, do_add, do_addc, do_subb_set, do_subb_write, xch, cjne, acc_write, acc, fetch. cbv zeta beta iota. ips. Qed.
Lemma I_70 G code s : instpc (instruction_70 G code s) = instpc s /\ G = G :> cfg.
Proof. split; [|reflexivity]. unfold instruction_70, do_add, do_addc, do_subb_set, do_subb_write, xch, cjne, acc_write, acc, fetch. cbv zeta beta iota. ips. Qed.
Lemma I_72 G code s : instpc (instruction_72 G code s) = instpc s /\ G = G :> cfg.
Proof. split; [|reflexivity]. unfold instruction_72, do_add, do_addc, do_subb_set, do_subb_write, xch, cjne, acc_write, acc, fetch. cbv zeta beta iota. ips. Qed.
Lemma I_73 G code s : instpc (instruction_73 code s) = instpc s /\ G = G :> cfg.
Proof. split; [|reflexivity]. unfold instruction_73, do_add, do_addc, do_subb_set, do_subb_write, xch, cjne, acc_write, acc, fetch. cbv zeta beta iota. ips. Qed.
Lemma I_74 G code s : instpc (instruction_74 G code s) = instpc s /\ G = G :> cfg.
Proof. split; [|reflexivity]. unfold instruction_74, do_add, do_addc, do_subb_set, do_subb_write, xch, cjne, acc_write, acc, fetch. cbv zeta beta iota. ips. Qed.
Lemma I_75 G code s : instpc (instruction_75 G code s) = instpc s /\ G = G :> cfg.
Proof. split; [|reflexivity]. unfold instruction_75, do_add, do_addc, do_subb_set, do_subb_write, xch, cjne, acc_write, acc, fetch. cbv zeta beta iota. ips. Qed.
Lemma I_76 G code s : instpc (instruction_76 G code s) = instpc s /\ G = G :> cfg.
Proof. split; [|reflexivity]. unfold instruction_76, do_add, do_addc, do_subb_set, do_subb_write, xch, cjne, acc_write, acc, fetch. cbv zeta beta iota. ips. Qed.
Lemma I_78 G code s : instpc (instruction_78 G code s) = instpc s /\ G = G :> cfg.
Proof. split; [|reflexivity]. unfold instruction_78, do_add, do_addc, do_subb_set, do_subb_write, xch, cjne, acc_write, acc, fetch. cbv zeta beta iota. ips. Qed.
Lemma I_80 G code s : instpc (instruction_80 G code s) = instpc s /\ G = G :> cfg.
Proof. split; [|reflexivity]. unfold instruction_80, do_add, do_addc, do_subb_set, do_subb_write, xch, cjne, acc_write, acc, fetch. cbv zeta beta iota. ips. Qed.
Lemma I_82 G code s : instpc (instruction_82 G code s) = instpc s /\ G = G :> cfg.
Proof. split; [|reflexivity]. unfold instruction_82, do_add, do_addc, do_subb_set, do_subb_write, xch, cjne, acc_write, acc, fetch. cbv zeta beta iota. ips. Qed.
Lemma I_83 G code s : instpc (instruction_83 G code s) = instpc s /\ G = G :> cfg.
Proof. split; [|reflexivity]. unfold instruction_83, do_add, do_addc, do_subb_set, do_subb_write, xch, cjne, acc_write, acc, fetch. cbv zeta beta iota. ips. Qed.
Lemma I_84 G code s : instpc (instruction_84 code s) = instpc s /\ G = G :> cfg.
Proof. split; [|reflexivity]. unfold instruction_84, do_add, do_addc, do_subb_set, do_subb_write, xch, cjne, acc_write, acc, fetch. cbv zeta beta iota. destruct (_ =? 0); cbv iota beta; ips. Qed.
Lemma I_85 G code s : instpc (instruction_85 G code s) = instpc s /\ G = G :> cfg.
Proof. split; [|reflexivity]. unfold instruction_85, do_add, do_addc, do_subb_set, do_subb_write, xch, cjne, acc_write, acc, fetch. cbv zeta beta iota. ips. Qed.
Lemma I_86 G code s : instpc (instruction_86 G code s) = instpc s /\ G = G :> cfg.
Proof. split; [|reflexivity]. unfold instruction_86, do_add, do_addc, do_subb_set, do_subb_write, xch, cjne, acc_write, acc, fetch. cbv zeta beta iota. ips. Qed.
Lemma I_88 G code s : instpc (instruction_88 G code s) = instpc s /\ G = G :> cfg.
Proof. split; [|reflexivity]. unfold instruction_88, do_add, do_addc, do_subb_set, do_subb_write, xch, cjne, acc_write, acc, fetch. cbv zeta beta iota. ips. Qed.
Lemma I_90 G code s : instpc (instruction_90 G code s) = instpc s /\ G = G :> cfg.
Proof. split; [|reflexivity]. unfold instruction_90, do_add, do_addc, do_subb_set, do_subb_write, xch, cjne, acc_write, acc, fetch. cbv zeta beta iota. ips. Qed.
Lemma I_92 G code s : instpc (instruction_92 G code s) = instpc s /\ G = G :> cfg.
Proof. split; [|reflexivity]. unfold instruction_92, do_add, do_addc, do_subb_set, do_subb_write, xch, cjne, acc_write, acc, fetch. cbv zeta beta iota. ips. Qed.
Lemma I_93 G code s : instpc (instruction_93 G code s) = instpc s /\ G = G :> cfg.
Proof. split; [|reflexivity]. unfold instruction_93, do_add, do_addc, do_subb_set, do_subb_write, xch, cjne, acc_write, acc, fetch. cbv zeta beta iota. ips. Qed.
Lemma I_94 G code s : instpc (instruction_94 G code s) = instpc s /\ G = G :> cfg.
Proof. split; [|reflexivity]. unfold instruction_94, do_add, do_addc, do_subb_set, do_subb_write, xch, cjne, acc_write, acc, fetch. cbv zeta beta iota. ips. Qed.
Lemma I_95 G code s : instpc (instruction_95 G code s) = instpc s /\ G = G :> cfg.
Proof. split; [|reflexivity]. unfold instruction_95, do_add, do_addc, do_subb_set, do_subb_write, xch, cjne, acc_write, acc, fetch. cbv zeta beta iota. ips. Qed.
Lemma I_96 G code s : instpc (instruction_96 G code s) = instpc s /\ G = G :> cfg.
Proof. split; [|reflexivity]. unfold instruction_96, do_add, do_addc, do_subb_set, do_subb_write, xch, cjne, acc_write, acc, fetch. cbv zeta beta iota. ips. Qed.
Lemma I_98 G code s : instpc (instruction_98 code s) = instpc s /\ G = G :> cfg.
Proof. split; [|reflexivity]. unfold instruction_98, do_add, do_addc, do_subb_set, do_subb_write, xch, cjne, acc_write, acc, fetch. cbv zeta beta iota. ips. Qed.
Lemma I_a0 G code s : instpc (instruction_a0 G code s) = instpc s /\ G = G :> cfg.
Proof. split; [|reflexivity]. unfold instruction_a0, do_add, do_addc, do_subb_set, do_subb_write, xch, cjne, acc_write, acc, fetch. cbv zeta beta iota. ips. Qed.
Lemma I_a2 G code s : instpc (instruction_a2 G code s) = instpc s /\ G = G :> cfg.
Proof. split; [|reflexivity]. unfold instruction_a2, do_add, do_addc, do_subb_set, do_subb_write, xch, cjne, acc_write, acc, fetch. cbv zeta beta iota. ips. Qed.
Lemma I_a3 G code s : instpc (instruction_a3 code s) = instpc s /\ G = G :> cfg.
Proof. split; [|reflexivity]. unfold instruction_a3, do_add, do_addc, do_subb_set, do_subb_write, xch, cjne, acc_write, acc, fetch. cbv zeta beta iota. ips. Qed.
Lemma I_a4 G code s : instpc (instruction_a4 code s) = instpc s /\ G = G :> cfg.
Proof. split; [|reflexivity]. unfold instruction_a4, do_add, do_addc, do_subb_set, do_subb_write, xch, cjne, acc_write, acc, fetch. cbv zeta beta iota. ips. Qed.
Lemma I_a6 G code s : instpc (instruction_a6 G code s) = instpc s /\ G = G :> cfg.
Proof. split; [|reflexivity]. unfold instruction_a6, do_add, do_addc, do_subb_set, do_subb_write, xch, cjne, acc_write, acc, fetch. cbv zeta beta iota. ips. Qed.
Lemma I_a8 G code s : instpc (instruction_a8 G code s) = instpc s /\ G = G :> cfg.
Proof. split; [|reflexivity]. unfold instruction_a8, do_add, do_addc, do_subb_set, do_subb_write, xch, cjne, acc_write, acc, fetch. cbv zeta beta iota. ips. Qed.
Lemma I_b0 G code s : instpc (instruction_b0 G code s) = instpc s /\ G = G :> cfg.
Proof. split; [|reflexivity]. unfold instruction_b0, do_add, do_addc, do_subb_set, do_subb_write, xch, cjne, acc_write, acc, fetch. cbv zeta beta iota. ips. Qed.
Lemma I_b2 G code s : instpc (instruction_b2 G code s) = instpc s /\ G = G :> cfg.
Proof. split; [|reflexivity]. unfold instruction_b2, do_add, do_addc, do_subb_set, do_subb_write, xch, cjne, acc_write, acc, fetch. cbv zeta beta iota. ips. Qed.
Lemma I_b3 G code s : instpc (instruction_b3 code s) = instpc s /\ G = G :> cfg.
Proof. split; [|reflexivity]. unfold instruction_b3, do_add, do_addc, do_subb_set, do_subb_write, xch, cjne, acc_write, acc, fetch. cbv zeta beta iota. ips. Qed.
Lemma I_b4 G code s : instpc (instruction_b4 G code s) = instpc s /\ G = G :> cfg.
Proof. split; [|reflexivity]. unfold instruction_b4, do_add, do_addc, do_subb_set, do_subb_write, xch, cjne, acc_write, acc, fetch. cbv zeta beta iota. ips. Qed.
Lemma I_b5 G code s : instpc (instruction_b5 G code s) = instpc s /\ G = G :> cfg.
Proof. split; [|reflexivity]. unfold instruction_b5, do_add, do_addc, do_subb_set, do_subb_write, xch, cjne, acc_write, acc, fetch. cbv zeta beta iota. ips. Qed.
Lemma I_b6 G code s : instpc (instruction_b6 G code s) = instpc s /\ G = G :> cfg.
Proof. split; [|reflexivity]. unfold instruction_b6, do_add, do_addc, do_subb_set, do_subb_write, xch, cjne, acc_write, acc, fetch. cbv zeta beta iota. ips. Qed.
Lemma I_b8 G code s : instpc (instruction_b8 G code s) = instpc s /\ G = G :> cfg.
Proof. split; [|reflexivity]. unfold instruction_b8, do_add, do_addc, do_subb_set, do_subb_write, xch, cjne, acc_write, acc, fetch. cbv zeta beta iota. ips. Qed.
Lemma I_c0 G code s : instpc (instruction_c0 G code s) = instpc s /\ G = G :> cfg.
Proof. split; [|reflexivity]. unfold instruction_c0, do_add, do_addc, do_subb_set, do_subb_write, xch, cjne, acc_write, acc, fetch. cbv zeta beta iota. ips. Qed.
Lemma I_c2 G code s : instpc (instruction_c2 G code s) = instpc s /\ G = G :> cfg.
Proof. split; [|reflexivity]. unfold instruction_c2, do_add, do_addc, do_subb_set, do_subb_write, xch, cjne, acc_write, acc, fetch. cbv zeta beta iota. ips. Qed.
Lemma I_c3 G code s : instpc (instruction_c3 code s) = instpc s /\ G = G :> cfg.
Proof. split; [|reflexivity]. unfold instruction_c3, do_add, do_addc, do_subb_set, do_subb_write, xch, cjne, acc_write, acc, fetch. cbv zeta beta iota. ips. Qed.
Lemma I_c4 G code s : instpc (instruction_c4 code s) = instpc s /\ G = G :> cfg.
Proof. split; [|reflexivity]. unfold instruction_c4, do_add, do_addc, do_subb_set, do_subb_write, xch, cjne, acc_write, acc, fetch. cbv zeta beta iota. ips. Qed.
Lemma I_c5 G code s : instpc (instruction_c5 G code s) = instpc s /\ G = G :> cfg.
Proof. split; [|reflexivity]. unfold instruction_c5, do_add, do_addc, do_subb_set, do_subb_write, xch, cjne, acc_write, acc, fetch. cbv zeta beta iota. ips. Qed.
Lemma I_c6 G code s : instpc (instruction_c6 G code s) = instpc s /\ G = G :> cfg.
Proof. split; [|reflexivity]. unfold instruction_c6, do_add, do_addc, do_subb_set, do_subb_write, xch, cjne, acc_write, acc, fetch. cbv zeta beta iota. ips. Qed.
Lemma I_c8 G code s : instpc (instruction_c8 G code s) = instpc s /\ G = G :> cfg.
Proof. split; [|reflexivity]. unfold instruction_c8, do_add, do_addc, do_subb_set, do_subb_write, xch, cjne, acc_write, acc, fetch. cbv zeta beta iota. ips. Qed.
Lemma I_d0 G code s : instpc (instruction_d0 G code s) = instpc s /\ G = G :> cfg.
Proof. split; [|reflexivity]. unfold instruction_d0, do_add, do_addc, do_subb_set, do_subb_write, xch, cjne, acc_write, acc, fetch. cbv zeta beta iota. ips. Qed.
Lemma I_d2 G code s : instpc (instruction_d2 G code s) = instpc s /\ G = G :> cfg.
Proof. split; [|reflexivity]. unfold instruction_d2, do_add, do_addc, do_subb_set, do_subb_write, xch, cjne, acc_write, acc, fetch. cbv zeta beta iota. ips. Qed.
Lemma I_d3 G code s : instpc (instruction_d3 code s) = instpc s /\ G = G :> cfg.
Proof. split; [|reflexivity]. unfold instruction_d3, do_add, do_addc, do_subb_set, do_subb_write, xch, cjne, acc_write, acc, fetch. cbv zeta beta iota. ips. Qed.
Lemma I_d4 G code s : instpc (instruction_d4 code s) = instpc s /\ G = G :> cfg.
Proof. split; [|reflexivity]. unfold instruction_d4, do_add, do_addc, do_subb_set, do_subb_write, xch, cjne, acc_write, acc, fetch. cbv zeta beta iota. destruct ((9 <? _) || _); cbv iota beta; match goal with |- context [if ?c then (u8 _, _) else _] => destruct c end; ips. Qed.
Lemma I_d5 G code s : instpc (instruction_d5 G code s) = instpc s /\ G = G :> cfg.
Proof. split; [|reflexivity]. unfold instruction_d5, do_add, do_addc, do_subb_set, do_subb_write, xch, cjne, acc_write, acc, fetch. cbv zeta beta iota. ips. Qed.
Lemma I_d6 G code s : instpc (instruction_d6 G code s) = instpc s /\ G = G :> cfg.
Proof. split; [|reflexivity]. unfold instruction_d6, do_add, do_addc, do_subb_set, do_subb_write, xch, cjne, acc_write, acc, fetch. cbv zeta beta iota. ips. Qed.
Lemma I_d8 G code s : instpc (instruction_d8 G code s) = instpc s /\ G = G :> cfg.
Proof. split; [|reflexivity]. unfold instruction_d8, do_add, do_addc, do_subb_set, do_subb_write, xch, cjne, acc_write, acc, fetch. cbv zeta beta iota. ips. Qed.
Lemma I_e0 G code s : instpc (instruction_e0 code s) = instpc s /\ G = G :> cfg.
Proof. split; [|reflexivity]. unfold instruction_e0, do_add, do_addc, do_subb_set, do_subb_write, xch, cjne, acc_write, acc, fetch. cbv zeta beta iota. ips. Qed.
Lemma I_e2 G code s : instpc (instruction_e2 code s) = instpc s /\ G = G :> cfg.
Proof. split; [|reflexivity]. unfold instruction_e2, do_add, do_addc, do_subb_set, do_subb_write, xch, cjne, acc_write, acc, fetch. cbv zeta beta iota. ips. Qed.
Lemma I_e4 G code s : instpc (instruction_e4 code s) = instpc s /\ G = G :> cfg.
Proof. split; [|reflexivity]. unfold instruction_e4, do_add, do_addc, do_subb_set, do_subb_write, xch, cjne, acc_write, acc, fetch. cbv zeta beta iota. ips. Qed.
Lemma I_e5 G code s : instpc (instruction_e5 G code s) = instpc s /\ G = G :> cfg.
Proof. split; [|reflexivity]. unfold instruction_e5, do_add, do_addc, do_subb_set, do_subb_write, xch, cjne, acc_write, acc, fetch. cbv zeta beta iota. ips. Qed.
Lemma I_e6 G code s : instpc (instruction_e6 G code s) = instpc s /\ G = G :> cfg.
Proof. split; [|reflexivity]. unfold instruction_e6, do_add, do_addc, do_subb_set, do_subb_write, xch, cjne, acc_write, acc, fetch. cbv zeta beta iota. ips. Qed.
Lemma I_e8 G code s : instpc (instruction_e8 code s) = instpc s /\ G = G :> cfg.
Proof. split; [|reflexivity]. unfold instruction_e8, do_add, do_addc, do_subb_set, do_subb_write, xch, cjne, acc_write, acc, fetch. cbv zeta beta iota. ips. Qed.
Lemma I_f0 G code s : instpc (instruction_f0 code s) = instpc s /\ G = G :> cfg.
Proof. split; [|reflexivity]. unfold instruction_f0, do_add, do_addc, do_subb_set, do_subb_write, xch, cjne, acc_write, acc, fetch. cbv zeta beta iota. ips. Qed.
Lemma I_f2 G code s : instpc (instruction_f2 code s) = instpc s /\ G = G :> cfg.
Proof. split; [|reflexivity]. unfold instruction_f2, do_add, do_addc, do_subb_set, do_subb_write, xch, cjne, acc_write, acc, fetch. cbv zeta beta iota. ips. Qed.
Lemma I_f4 G code s : instpc (instruction_f4 code s) = instpc s /\ G = G :> cfg.
Proof. split; [|reflexivity]. unfold instruction_f4, do_add, do_addc, do_subb_set, do_subb_write, xch, cjne, acc_write, acc, fetch. cbv zeta beta iota. ips. Qed.
Lemma I_f5 G code s : instpc (instruction_f5 G code s) = instpc s /\ G = G :> cfg.
Proof. split; [|reflexivity]. unfold instruction_f5, do_add, do_addc, do_subb_set, do_subb_write, xch, cjne, acc_write, acc, fetch. cbv zeta beta iota. ips. Qed.
Lemma I_f6 G code s : instpc (instruction_f6 G code s) = instpc s /\ G = G :> cfg.
Proof. split; [|reflexivity]. unfold instruction_f6, do_add, do_addc, do_subb_set, do_subb_write, xch, cjne, acc_write, acc, fetch. cbv zeta beta iota. ips. Qed.
Lemma I_f8 G code s : instpc (instruction_f8 G code s) = instpc s /\ G = G :> cfg.
Proof. split; [|reflexivity]. unfold instruction_f8, do_add, do_addc, do_subb_set, do_subb_write, xch, cjne, acc_write, acc, fetch. cbv zeta beta iota. ips. Qed.
Lemma itab_ip G op f code s : 0 <= op < 256 -> itab G op = Some f -> instpc (f code s) = instpc s.
Proof.
  intros Ho. revert f.
  assert (H : Forall (fun op => forall f, itab G op = Some f -> instpc (f code s) = instpc s) (zrange 256)).
  { change (zrange 256) with [0x0; 0x1; 0x2; 0x3; 0x4; 0x5; 0x6; 0x7; 0x8; 0x9; 0xa; 0xb; 0xc; 0xd; 0xe; 0xf; 0x10; 0x11; 0x12; 0x13; 0x14; 0x15; 0x16; 0x17; 0x18; 0x19; 0x1a; 0x1b; 0x1c; 0x1d; 0x1e; 0x1f; 0x20; 0x21; 0x22; 0x23; 0x24; 0x25; 0x26; 0x27; 0x28; 0x29; 0x2a; 0x2b; 0x2c; 0x2d; 0x2e; 0x2f; 0x30; 0x31; 0x32; 0x33; 0x34; 0x35; 0x36; 0x37; 0x38; 0x39; 0x3a; 0x3b; 0x3c; 0x3d; 0x3e; 0x3f; 0x40; 0x41; 0x42; 0x43; 0x44; 0x45; 0x46; 0x47; 0x48; 0x49; 0x4a; 0x4b; 0x4c; 0x4d; 0x4e; 0x4f; 0x50; 0x51; 0x52; 0x53; 0x54; 0x55; 0x56; 0x57; 0x58; 0x59; 0x5a; 0x5b; 0x5c; 0x5d; 0x5e; 0x5f; 0x60; 0x61; 0x62; 0x63; 0x64; 0x65; 0x66; 0x67; 0x68; 0x69; 0x6a; 0x6b; 0x6c; 0x6d; 0x6e; 0x6f; 0x70; 0x71; 0x72; 0x73; 0x74; 0x75; 0x76; 0x77; 0x78; 0x79; 0x7a; 0x7b; 0x7c; 0x7d; 0x7e; 0x7f; 0x80; 0x81; 0x82; 0x83; 0x84; 0x85; 0x86; 0x87; 0x88; 0x89; 0x8a; 0x8b; 0x8c; 0x8d; 0x8e; 0x8f; 0x90; 0x91; 0x92; 0x93; 0x94; 0x95; 0x96; 0x97; 0x98; 0x99; 0x9a; 0x9b; 0x9c; 0x9d; 0x9e; 0x9f; 0xa0; 0xa1; 0xa2; 0xa3; 0xa4; 0xa5; 0xa6; 0xa7; 0xa8; 0xa9; 0xaa; 0xab; 0xac; 0xad; 0xae; 0xaf; 0xb0; 0xb1; 0xb2; 0xb3; 0xb4; 0xb5; 0xb6; 0xb7; 0xb8; 0xb9; 0xba; 0xbb; 0xbc; 0xbd; 0xbe; 0xbf; 0xc0; 0xc1; 0xc2; 0xc3; 0xc4; 0xc5; 0xc6; 0xc7; 0xc8; 0xc9; 0xca; 0xcb; 0xcc; 0xcd; 0xce; 0xcf; 0xd0; 0xd1; 0xd2; 0xd3; 0xd4; 0xd5; 0xd6; 0xd7; 0xd8; 0xd9; 0xda; 0xdb; 0xdc; 0xdd; 0xde; 0xdf; 0xe0; 0xe1; 0xe2; 0xe3; 0xe4; 0xe5; 0xe6; 0xe7; 0xe8; 0xe9; 0xea; 0xeb; 0xec; 0xed; 0xee; 0xef; 0xf0; 0xf1; 0xf2; 0xf3; 0xf4; 0xf5; 0xf6; 0xf7; 0xf8; 0xf9; 0xfa; 0xfb; 0xfc; 0xfd; 0xfe; 0xff].
    apply Forall_cons; [intros f E; apply some_eq in E; subst f; exact (proj1 (I_00 G code s))|].
    apply Forall_cons; [intros f E; apply some_eq in E; subst f; exact (proj1 (I_01 G code s))|].
    apply Forall_cons; [intros f E; apply some_eq in E; subst f; exact (proj1 (I_02 G code s))|].
    apply Forall_cons; [intros f E; apply some_eq in E; subst f; exact (proj1 (I_03 G code s))|].
    apply Forall_cons; [intros f E; apply some_eq in E; subst f; exact (proj1 (I_04 G code s))|].
    apply Forall_cons; [intros f E; apply some_eq in E; subst f; exact (proj1 (I_05 G code s))|].
    apply Forall_cons; [intros f E; apply some_eq in E; subst f; exact (proj1 (I_06 G code s))|].
    apply Forall_cons; [intros f E; apply some_eq in E; subst f; exact (proj1 (I_06 G code s))|].
    apply Forall_cons; [intros f E; apply some_eq in E; subst f; exact (proj1 (I_08 G code s))|].
    apply Forall_cons; [intros f E; apply some_eq in E; subst f; exact (proj1 (I_08 G code s))|].
    apply Forall_cons; [intros f E; apply some_eq in E; subst f; exact (proj1 (I_08 G code s))|].
    apply Forall_cons; [intros f E; apply some_eq in E; subst f; exact (proj1 (I_08 G code s))|].
    apply Forall_cons; [intros f E; apply some_eq in E; subst f; exact (proj1 (I_08 G code s))|].
    apply Forall_cons; [intros f E; apply some_eq in E; subst f; exact (proj1 (I_08 G code s))|].
    apply Forall_cons; [intros f E; apply some_eq in E; subst f; exact (proj1 (I_08 G code s))|].
    apply Forall_cons; [intros f E; apply some_eq in E; subst f; exact (proj1 (I_08 G code s))|].
    apply Forall_cons; [intros f E; apply some_eq in E; subst f; exact (proj1 (I_10 G code s))|].
    apply Forall_cons; [intros f E; apply some_eq in E; subst f; exact (proj1 (I_11 G code s))|].
    apply Forall_cons; [intros f E; apply some_eq in E; subst f; exact (proj1 (I_12 G code s))|].
    apply Forall_cons; [intros f E; apply some_eq in E; subst f; exact (proj1 (I_13 G code s))|].
    apply Forall_cons; [intros f E; apply some_eq in E; subst f; exact (proj1 (I_14 G code s))|].
    apply Forall_cons; [intros f E; apply some_eq in E; subst f; exact (proj1 (I_15 G code s))|].
    apply Forall_cons; [intros f E; apply some_eq in E; subst f; exact (proj1 (I_16 G code s))|].
    apply Forall_cons; [intros f E; apply some_eq in E; subst f; exact (proj1 (I_16 G code s))|].
    apply Forall_cons; [intros f E; apply some_eq in E; subst f; exact (proj1 (I_18 G code s))|].
    apply Forall_cons; [intros f E; apply some_eq in E; subst f; exact (proj1 (I_18 G code s))|].
    apply Forall_cons; [intros f E; apply some_eq in E; subst f; exact (proj1 (I_18 G code s))|].
    apply Forall_cons; [intros f E; apply some_eq in E; subst f; exact (proj1 (I_18 G code s))|].
    apply Forall_cons; [intros f E; apply some_eq in E; subst f; exact (proj1 (I_18 G code s))|].
    apply Forall_cons; [intros f E; apply some_eq in E; subst f; exact (proj1 (I_18 G code s))|].
    apply Forall_cons; [intros f E; apply some_eq in E; subst f; exact (proj1 (I_18 G code s))|].
    apply Forall_cons; [intros f E; apply some_eq in E; subst f; exact (proj1 (I_18 G code s))|].
    apply Forall_cons; [intros f E; apply some_eq in E; subst f; exact (proj1 (I_20 G code s))|].
    apply Forall_cons; [intros f E; apply some_eq in E; subst f; exact (proj1 (I_01 G code s))|].
    apply Forall_cons; [intros f E; apply some_eq in E; subst f; exact (proj1 (I_22 G code s))|].
    apply Forall_cons; [intros f E; apply some_eq in E; subst f; exact (proj1 (I_23 G code s))|].
    apply Forall_cons; [intros f E; apply some_eq in E; subst f; exact (proj1 (I_24 G code s))|].
    apply Forall_cons; [intros f E; apply some_eq in E; subst f; exact (proj1 (I_25 G code s))|].
    apply Forall_cons; [intros f E; apply some_eq in E; subst f; exact (proj1 (I_26 G code s))|].
    apply Forall_cons; [intros f E; apply some_eq in E; subst f; exact (proj1 (I_26 G code s))|].
    apply Forall_cons; [intros f E; apply some_eq in E; subst f; exact (proj1 (I_28 G code s))|].
    apply Forall_cons; [intros f E; apply some_eq in E; subst f; exact (proj1 (I_28 G code s))|].
    apply Forall_cons; [intros f E; apply some_eq in E; subst f; exact (proj1 (I_28 G code s))|].
    apply Forall_cons; [intros f E; apply some_eq in E; subst f; exact (proj1 (I_28 G code s))|].
    apply Forall_cons; [intros f E; apply some_eq in E; subst f; exact (proj1 (I_28 G code s))|].
    apply Forall_cons; [intros f E; apply some_eq in E; subst f; exact (proj1 (I_28 G code s))|].
    apply Forall_cons; [intros f E; apply some_eq in E; subst f; exact (proj1 (I_28 G code s))|].
    apply Forall_cons; [intros f E; apply some_eq in E; subst f; exact (proj1 (I_28 G code s))|].
    apply Forall_cons; [intros f E; apply some_eq in E; subst f; exact (proj1 (I_30 G code s))|].
    apply Forall_cons; [intros f E; apply some_eq in E; subst f; exact (proj1 (I_11 G code s))|].
    apply Forall_cons; [intros f E; apply some_eq in E; subst f; exact (proj1 (I_32 G code s))|].
    apply Forall_cons; [intros f E; apply some_eq in E; subst f; exact (proj1 (I_33 G code s))|].
    apply Forall_cons; [intros f E; apply some_eq in E; subst f; exact (proj1 (I_34 G code s))|].
    apply Forall_cons; [intros f E; apply some_eq in E; subst f; exact (proj1 (I_35 G code s))|].
    apply Forall_cons; [intros f E; apply some_eq in E; subst f; exact (proj1 (I_36 G code s))|].
    apply Forall_cons; [intros f E; apply some_eq in E; subst f; exact (proj1 (I_36 G code s))|].
    apply Forall_cons; [intros f E; apply some_eq in E; subst f; exact (proj1 (I_38 G code s))|].
    apply Forall_cons; [intros f E; apply some_eq in E; subst f; exact (proj1 (I_38 G code s))|].
    apply Forall_cons; [intros f E; apply some_eq in E; subst f; exact (proj1 (I_38 G code s))|].
    apply Forall_cons; [intros f E; apply some_eq in E; subst f; exact (proj1 (I_38 G code s))|].
    apply Forall_cons; [intros f E; apply some_eq in E; subst f; exact (proj1 (I_38 G code s))|].
    apply Forall_cons; [intros f E; apply some_eq in E; subst f; exact (proj1 (I_38 G code s))|].
    apply Forall_cons; [intros f E; apply some_eq in E; subst f; exact (proj1 (I_38 G code s))|].
    apply Forall_cons; [intros f E; apply some_eq in E; subst f; exact (proj1 (I_38 G code s))|].
    apply Forall_cons; [intros f E; apply some_eq in E; subst f; exact (proj1 (I_40 G code s))|].
    apply Forall_cons; [intros f E; apply some_eq in E; subst f; exact (proj1 (I_01 G code s))|].
    apply Forall_cons; [intros f E; apply some_eq in E; subst f; exact (proj1 (I_42 G code s))|].
    apply Forall_cons; [intros f E; apply some_eq in E; subst f; exact (proj1 (I_43 G code s))|].
    apply Forall_cons; [intros f E; apply some_eq in E; subst f; exact (proj1 (I_44 G code s))|].
    apply Forall_cons; [intros f E; apply some_eq in E; subst f; exact (proj1 (I_45 G code s))|].
    apply Forall_cons; [intros f E; apply some_eq in E; subst f; exact (proj1 (I_46 G code s))|].
    apply Forall_cons; [intros f E; apply some_eq in E; subst f; exact (proj1 (I_46 G code s))|].
    apply Forall_cons; [intros f E; apply some_eq in E; subst f; exact (proj1 (I_48 G code s))|].
    apply Forall_cons; [intros f E; apply some_eq in E; subst f; exact (proj1 (I_48 G code s))|].
    apply Forall_cons; [intros f E; apply some_eq in E; subst f; exact (proj1 (I_48 G code s))|].
    apply Forall_cons; [intros f E; apply some_eq in E; subst f; exact (proj1 (I_48 G code s))|].
    apply Forall_cons; [intros f E; apply some_eq in E; subst f; exact (proj1 (I_48 G code s))|].
    apply Forall_cons; [intros f E; apply some_eq in E; subst f; exact (proj1 (I_48 G code s))|].
    apply Forall_cons; [intros f E; apply some_eq in E; subst f; exact (proj1 (I_48 G code s))|].
    apply Forall_cons; [intros f E; apply some_eq in E; subst f; exact (proj1 (I_48 G code s))|].
    apply Forall_cons; [intros f E; apply some_eq in E; subst f; exact (proj1 (I_50 G code s))|].
    apply Forall_cons; [intros f E; apply some_eq in E; subst f; exact (proj1 (I_11 G code s))|].
    apply Forall_cons; [intros f E; apply some_eq in E; subst f; exact (proj1 (I_52 G code s))|].
    apply Forall_cons; [intros f E; apply some_eq in E; subst f; exact (proj1 (I_53 G code s))|].
    apply Forall_cons; [intros f E; apply some_eq in E; subst f; exact (proj1 (I_54 G code s))|].
    apply Forall_cons; [intros f E; apply some_eq in E; subst f; exact (proj1 (I_55 G code s))|].
    apply Forall_cons; [intros f E; apply some_eq in E; subst f; exact (proj1 (I_56 G code s))|].
    apply Forall_cons; [intros f E; apply some_eq in E; subst f; exact (proj1 (I_56 G code s))|].
    apply Forall_cons; [intros f E; apply some_eq in E; subst f; exact (proj1 (I_58 G code s))|].
    apply Forall_cons; [intros f E; apply some_eq in E; subst f; exact (proj1 (I_58 G code s))|].
    apply Forall_cons; [intros f E; apply some_eq in E; subst f; exact (proj1 (I_58 G code s))|].
    apply Forall_cons; [intros f E; apply some_eq in E; subst f; exact (proj1 (I_58 G code s))|].
    apply Forall_cons; [intros f E; apply some_eq in E; subst f; exact (proj1 (I_58 G code s))|].
    apply Forall_cons; [intros f E; apply some_eq in E; subst f; exact (proj1 (I_58 G code s))|].
    apply Forall_cons; [intros f E; apply some_eq in E; subst f; exact (proj1 (I_58 G code s))|].
    apply Forall_cons; [intros f E; apply some_eq in E; subst f; exact (proj1 (I_58 G code s))|].
    apply Forall_cons; [intros f E; apply some_eq in E; subst f; exact (proj1 (I_60 G code s))|].
    apply Forall_cons; [intros f E; apply some_eq in E; subst f; exact (proj1 (I_01 G code s))|].
    apply Forall_cons; [intros f E; apply some_eq in E; subst f; exact (proj1 (I_62 G code s))|].
    apply Forall_cons; [intros f E; apply some_eq in E; subst f; exact (proj1 (I_63 G code s))|].
    apply Forall_cons; [intros f E; apply some_eq in E; subst f; exact (proj1 (I_64 G code s))|].
    apply Forall_cons; [intros f E; apply some_eq in E; subst f; exact (proj1 (I_65 G code s))|].
    apply Forall_cons; [intros f E; apply some_eq in E; subst f; exact (proj1 (I_66 G code s))|].
    apply Forall_cons; [intros f E; apply some_eq in E; subst f; exact (proj1 (I_66 G code s))|].
    apply Forall_cons; [intros f E; apply some_eq in E; subst f; exact (proj1 (I_68 G code s))|].
    apply Forall_cons; [intros f E; apply some_eq in E; subst f; exact (proj1 (I_68 G code s))|].
    apply Forall_cons; [intros f E; apply some_eq in E; subst f; exact (proj1 (I_68 G code s))|].
    apply Forall_cons; [intros f E; apply some_eq in E; subst f; exact (proj1 (I_68 G code s))|].
    apply Forall_cons; [intros f E; apply some_eq in E; subst f; exact (proj1 (I_68 G code s))|].
    apply Forall_cons; [intros f E; apply some_eq in E; subst f; exact (proj1 (I_68 G code s))|].
    apply Forall_cons; [intros f E; apply some_eq in E; subst f; exact (proj1 (I_68 G code s))|].
    apply Forall_cons; [intros f E; apply some_eq in E; subst f; exact (proj1 (I_68 G code s))|].
    apply Forall_cons; [intros f E; apply some_eq in E; subst f; exact (proj1 (I_70 G code s))|].
    apply Forall_cons; [intros f E; apply some_eq in E; subst f; exact (proj1 (I_11 G code s))|].
    apply Forall_cons; [intros f E; apply some_eq in E; subst f; exact (proj1 (I_72 G code s))|].
    apply Forall_cons; [intros f E; apply some_eq in E; subst f; exact (proj1 (I_73 G code s))|].
    apply Forall_cons; [intros f E; apply some_eq in E; subst f; exact (proj1 (I_74 G code s))|].
    apply Forall_cons; [intros f E; apply some_eq in E; subst f; exact (proj1 (I_75 G code s))|].
    apply Forall_cons; [intros f E; apply some_eq in E; subst f; exact (proj1 (I_76 G code s))|].
    apply Forall_cons; [intros f E; apply some_eq in E; subst f; exact (proj1 (I_76 G code s))|].
    apply Forall_cons; [intros f E; apply some_eq in E; subst f; exact (proj1 (I_78 G code s))|].
    apply Forall_cons; [intros f E; apply some_eq in E; subst f; exact (proj1 (I_78 G code s))|].
    apply Forall_cons; [intros f E; apply some_eq in E; subst f; exact (proj1 (I_78 G code s))|].
    apply Forall_cons; [intros f E; apply some_eq in E; subst f; exact (proj1 (I_78 G code s))|].
    apply Forall_cons; [intros f E; apply some_eq in E; subst f; exact (proj1 (I_78 G code s))|].
    apply Forall_cons; [intros f E; apply some_eq in E; subst f; exact (proj1 (I_78 G code s))|].
    apply Forall_cons; [intros f E; apply some_eq in E; subst f; exact (proj1 (I_78 G code s))|].
    apply Forall_cons; [intros f E; apply some_eq in E; subst f; exact (proj1 (I_78 G code s))|].
    apply Forall_cons; [intros f E; apply some_eq in E; subst f; exact (proj1 (I_80 G code s))|].
    apply Forall_cons; [intros f E; apply some_eq in E; subst f; exact (proj1 (I_01 G code s))|].
    apply Forall_cons; [intros f E; apply some_eq in E; subst f; exact (proj1 (I_82 G code s))|].
    apply Forall_cons; [intros f E; apply some_eq in E; subst f; exact (proj1 (I_83 G code s))|].
    apply Forall_cons; [intros f E; apply some_eq in E; subst f; exact (proj1 (I_84 G code s))|].
    apply Forall_cons; [intros f E; apply some_eq in E; subst f; exact (proj1 (I_85 G code s))|].
    apply Forall_cons; [intros f E; apply some_eq in E; subst f; exact (proj1 (I_86 G code s))|].
    apply Forall_cons; [intros f E; apply some_eq in E; subst f; exact (proj1 (I_86 G code s))|].
    apply Forall_cons; [intros f E; apply some_eq in E; subst f; exact (proj1 (I_88 G code s))|].
    apply Forall_cons; [intros f E; apply some_eq in E; subst f; exact (proj1 (I_88 G code s))|].
    apply Forall_cons; [intros f E; apply some_eq in E; subst f; exact (proj1 (I_88 G code s))|].
    apply Forall_cons; [intros f E; apply some_eq in E; subst f; exact (proj1 (I_88 G code s))|].
    apply Forall_cons; [intros f E; apply some_eq in E; subst f; exact (proj1 (I_88 G code s))|].
    apply Forall_cons; [intros f E; apply some_eq in E; subst f; exact (proj1 (I_88 G code s))|].
    apply Forall_cons; [intros f E; apply some_eq in E; subst f; exact (proj1 (I_88 G code s))|].
    apply Forall_cons; [intros f E; apply some_eq in E; subst f; exact (proj1 (I_88 G code s))|].
    apply Forall_cons; [intros f E; apply some_eq in E; subst f; exact (proj1 (I_90 G code s))|].
    apply Forall_cons; [intros f E; apply some_eq in E; subst f; exact (proj1 (I_11 G code s))|].
    apply Forall_cons; [intros f E; apply some_eq in E; subst f; exact (proj1 (I_92 G code s))|].
    apply Forall_cons; [intros f E; apply some_eq in E; subst f; exact (proj1 (I_93 G code s))|].
    apply Forall_cons; [intros f E; apply some_eq in E; subst f; exact (proj1 (I_94 G code s))|].
    apply Forall_cons; [intros f E; apply some_eq in E; subst f; exact (proj1 (I_95 G code s))|].
    apply Forall_cons; [intros f E; apply some_eq in E; subst f; exact (proj1 (I_96 G code s))|].
    apply Forall_cons; [intros f E; apply some_eq in E; subst f; exact (proj1 (I_96 G code s))|].
    apply Forall_cons; [intros f E; apply some_eq in E; subst f; exact (proj1 (I_98 G code s))|].
    apply Forall_cons; [intros f E; apply some_eq in E; subst f; exact (proj1 (I_98 G code s))|].
    apply Forall_cons; [intros f E; apply some_eq in E; subst f; exact (proj1 (I_98 G code s))|].
    apply Forall_cons; [intros f E; apply some_eq in E; subst f; exact (proj1 (I_98 G code s))|].
    apply Forall_cons; [intros f E; apply some_eq in E; subst f; exact (proj1 (I_98 G code s))|].
    apply Forall_cons; [intros f E; apply some_eq in E; subst f; exact (proj1 (I_98 G code s))|].
    apply Forall_cons; [intros f E; apply some_eq in E; subst f; exact (proj1 (I_98 G code s))|].
    apply Forall_cons; [intros f E; apply some_eq in E; subst f; exact (proj1 (I_98 G code s))|].
    apply Forall_cons; [intros f E; apply some_eq in E; subst f; exact (proj1 (I_a0 G code s))|].
    apply Forall_cons; [intros f E; apply some_eq in E; subst f; exact (proj1 (I_01 G code s))|].
    apply Forall_cons; [intros f E; apply some_eq in E; subst f; exact (proj1 (I_a2 G code s))|].
    apply Forall_cons; [intros f E; apply some_eq in E; subst f; exact (proj1 (I_a3 G code s))|].
    apply Forall_cons; [intros f E; apply some_eq in E; subst f; exact (proj1 (I_a4 G code s))|].
    apply Forall_cons; [intros f E; discriminate E|].
    apply Forall_cons; [intros f E; apply some_eq in E; subst f; exact (proj1 (I_a6 G code s))|].
    apply Forall_cons; [intros f E; apply some_eq in E; subst f; exact (proj1 (I_a6 G code s))|].
    apply Forall_cons; [intros f E; apply some_eq in E; subst f; exact (proj1 (I_a8 G code s))|].
    apply Forall_cons; [intros f E; apply some_eq in E; subst f; exact (proj1 (I_a8 G code s))|].
    apply Forall_cons; [intros f E; apply some_eq in E; subst f; exact (proj1 (I_a8 G code s))|].
    apply Forall_cons; [intros f E; apply some_eq in E; subst f; exact (proj1 (I_a8 G code s))|].
    apply Forall_cons; [intros f E; apply some_eq in E; subst f; exact (proj1 (I_a8 G code s))|].
    apply Forall_cons; [intros f E; apply some_eq in E; subst f; exact (proj1 (I_a8 G code s))|].
    apply Forall_cons; [intros f E; apply some_eq in E; subst f; exact (proj1 (I_a8 G code s))|].
    apply Forall_cons; [intros f E; apply some_eq in E; subst f; exact (proj1 (I_a8 G code s))|].
    apply Forall_cons; [intros f E; apply some_eq in E; subst f; exact (proj1 (I_b0 G code s))|].
    apply Forall_cons; [intros f E; apply some_eq in E; subst f; exact (proj1 (I_11 G code s))|].
    apply Forall_cons; [intros f E; apply some_eq in E; subst f; exact (proj1 (I_b2 G code s))|].
    apply Forall_cons; [intros f E; apply some_eq in E; subst f; exact (proj1 (I_b3 G code s))|].
    apply Forall_cons; [intros f E; apply some_eq in E; subst f; exact (proj1 (I_b4 G code s))|].
    apply Forall_cons; [intros f E; apply some_eq in E; subst f; exact (proj1 (I_b5 G code s))|].
    apply Forall_cons; [intros f E; apply some_eq in E; subst f; exact (proj1 (I_b6 G code s))|].
    apply Forall_cons; [intros f E; apply some_eq in E; subst f; exact (proj1 (I_b6 G code s))|].
    apply Forall_cons; [intros f E; apply some_eq in E; subst f; exact (proj1 (I_b8 G code s))|].
    apply Forall_cons; [intros f E; apply some_eq in E; subst f; exact (proj1 (I_b8 G code s))|].
    apply Forall_cons; [intros f E; apply some_eq in E; subst f; exact (proj1 (I_b8 G code s))|].
    apply Forall_cons; [intros f E; apply some_eq in E; subst f; exact (proj1 (I_b8 G code s))|].
    apply Forall_cons; [intros f E; apply some_eq in E; subst f; exact (proj1 (I_b8 G code s))|].
    apply Forall_cons; [intros f E; apply some_eq in E; subst f; exact (proj1 (I_b8 G code s))|].
    apply Forall_cons; [intros f E; apply some_eq in E; subst f; exact (proj1 (I_b8 G code s))|].
    apply Forall_cons; [intros f E; apply some_eq in E; subst f; exact (proj1 (I_b8 G code s))|].
    apply Forall_cons; [intros f E; apply some_eq in E; subst f; exact (proj1 (I_c0 G code s))|].
    apply Forall_cons; [intros f E; apply some_eq in E; subst f; exact (proj1 (I_01 G code s))|].
    apply Forall_cons; [intros f E; apply some_eq in E; subst f; exact (proj1 (I_c2 G code s))|].
    apply Forall_cons; [intros f E; apply some_eq in E; subst f; exact (proj1 (I_c3 G code s))|].
    apply Forall_cons; [intros f E; apply some_eq in E; subst f; exact (proj1 (I_c4 G code s))|].
    apply Forall_cons; [intros f E; apply some_eq in E; subst f; exact (proj1 (I_c5 G code s))|].
    apply Forall_cons; [intros f E; apply some_eq in E; subst f; exact (proj1 (I_c6 G code s))|].
    apply Forall_cons; [intros f E; apply some_eq in E; subst f; exact (proj1 (I_c6 G code s))|].
    apply Forall_cons; [intros f E; apply some_eq in E; subst f; exact (proj1 (I_c8 G code s))|].
    apply Forall_cons; [intros f E; apply some_eq in E; subst f; exact (proj1 (I_c8 G code s))|].
    apply Forall_cons; [intros f E; apply some_eq in E; subst f; exact (proj1 (I_c8 G code s))|].
    apply Forall_cons; [intros f E; apply some_eq in E; subst f; exact (proj1 (I_c8 G code s))|].
    apply Forall_cons; [intros f E; apply some_eq in E; subst f; exact (proj1 (I_c8 G code s))|].
    apply Forall_cons; [intros f E; apply some_eq in E; subst f; exact (proj1 (I_c8 G code s))|].
    apply Forall_cons; [intros f E; apply some_eq in E; subst f; exact (proj1 (I_c8 G code s))|].
    apply Forall_cons; [intros f E; apply some_eq in E; subst f; exact (proj1 (I_c8 G code s))|].
    apply Forall_cons; [intros f E; apply some_eq in E; subst f; exact (proj1 (I_d0 G code s))|].
    apply Forall_cons; [intros f E; apply some_eq in E; subst f; exact (proj1 (I_11 G code s))|].
    apply Forall_cons; [intros f E; apply some_eq in E; subst f; exact (proj1 (I_d2 G code s))|].
    apply Forall_cons; [intros f E; apply some_eq in E; subst f; exact (proj1 (I_d3 G code s))|].
    apply Forall_cons; [intros f E; apply some_eq in E; subst f; exact (proj1 (I_d4 G code s))|].
    apply Forall_cons; [intros f E; apply some_eq in E; subst f; exact (proj1 (I_d5 G code s))|].
    apply Forall_cons; [intros f E; apply some_eq in E; subst f; exact (proj1 (I_d6 G code s))|].
    apply Forall_cons; [intros f E; apply some_eq in E; subst f; exact (proj1 (I_d6 G code s))|].
    apply Forall_cons; [intros f E; apply some_eq in E; subst f; exact (proj1 (I_d8 G code s))|].
    apply Forall_cons; [intros f E; apply some_eq in E; subst f; exact (proj1 (I_d8 G code s))|].
    apply Forall_cons; [intros f E; apply some_eq in E; subst f; exact (proj1 (I_d8 G code s))|].
    apply Forall_cons; [intros f E; apply some_eq in E; subst f; exact (proj1 (I_d8 G code s))|].
    apply Forall_cons; [intros f E; apply some_eq in E; subst f; exact (proj1 (I_d8 G code s))|].
    apply Forall_cons; [intros f E; apply some_eq in E; subst f; exact (proj1 (I_d8 G code s))|].
    apply Forall_cons; [intros f E; apply some_eq in E; subst f; exact (proj1 (I_d8 G code s))|].
    apply Forall_cons; [intros f E; apply some_eq in E; subst f; exact (proj1 (I_d8 G code s))|].
    apply Forall_cons; [intros f E; apply some_eq in E; subst f; exact (proj1 (I_e0 G code s))|].
    apply Forall_cons; [intros f E; apply some_eq in E; subst f; exact (proj1 (I_01 G code s))|].
    apply Forall_cons; [intros f E; apply some_eq in E; subst f; exact (proj1 (I_e2 G code s))|].
    apply Forall_cons; [intros f E; apply some_eq in E; subst f; exact (proj1 (I_e2 G code s))|].
    apply Forall_cons; [intros f E; apply some_eq in E; subst f; exact (proj1 (I_e4 G code s))|].
    apply Forall_cons; [intros f E; apply some_eq in E; subst f; exact (proj1 (I_e5 G code s))|].
    apply Forall_cons; [intros f E; apply some_eq in E; subst f; exact (proj1 (I_e6 G code s))|].
    apply Forall_cons; [intros f E; apply some_eq in E; subst f; exact (proj1 (I_e6 G code s))|].
    apply Forall_cons; [intros f E; apply some_eq in E; subst f; exact (proj1 (I_e8 G code s))|].
    apply Forall_cons; [intros f E; apply some_eq in E; subst f; exact (proj1 (I_e8 G code s))|].
    apply Forall_cons; [intros f E; apply some_eq in E; subst f; exact (proj1 (I_e8 G code s))|].
    apply Forall_cons; [intros f E; apply some_eq in E; subst f; exact (proj1 (I_e8 G code s))|].
    apply Forall_cons; [intros f E; apply some_eq in E; subst f; exact (proj1 (I_e8 G code s))|].
    apply Forall_cons; [intros f E; apply some_eq in E; subst f; exact (proj1 (I_e8 G code s))|].
    apply Forall_cons; [intros f E; apply some_eq in E; subst f; exact (proj1 (I_e8 G code s))|].
    apply Forall_cons; [intros f E; apply some_eq in E; subst f; exact (proj1 (I_e8 G code s))|].
    apply Forall_cons; [intros f E; apply some_eq in E; subst f; exact (proj1 (I_f0 G code s))|].
    apply Forall_cons; [intros f E; apply some_eq in E; subst f; exact (proj1 (I_11 G code s))|].
    apply Forall_cons; [intros f E; apply some_eq in E; subst f; exact (proj1 (I_f2 G code s))|].
    apply Forall_cons; [intros f E; apply some_eq in E; subst f; exact (proj1 (I_f2 G code s))|].
    apply Forall_cons; [intros f E; apply some_eq in E; subst f; exact (proj1 (I_f4 G code s))|].
    apply Forall_cons; [intros f E; apply some_eq in E; subst f; exact (proj1 (I_f5 G code s))|].
    apply Forall_cons; [intros f E; apply some_eq in E; subst f; exact (proj1 (I_f6 G code s))|].
    apply Forall_cons; [intros f E; apply some_eq in E; subst f; exact (proj1 (I_f6 G code s))|].
    apply Forall_cons; [intros f E; apply some_eq in E; subst f; exact (proj1 (I_f8 G code s))|].
    apply Forall_cons; [intros f E; apply some_eq in E; subst f; exact (proj1 (I_f8 G code s))|].
    apply Forall_cons; [intros f E; apply some_eq in E; subst f; exact (proj1 (I_f8 G code s))|].
    apply Forall_cons; [intros f E; apply some_eq in E; subst f; exact (proj1 (I_f8 G code s))|].
    apply Forall_cons; [intros f E; apply some_eq in E; subst f; exact (proj1 (I_f8 G code s))|].
    apply Forall_cons; [intros f E; apply some_eq in E; subst f; exact (proj1 (I_f8 G code s))|].
    apply Forall_cons; [intros f E; apply some_eq in E; subst f; exact (proj1 (I_f8 G code s))|].
    apply Forall_cons; [intros f E; apply some_eq in E; subst f; exact (proj1 (I_f8 G code s))|].
    constructor. }
  rewrite Forall_forall in H. intros f. apply H. apply in_zrange. lia.
Qed.
Lemma ip_step G s : wf_cfg G -> wk s -> instpc (inst_step G s) = instpc s.
Proof.
  intros HG W. pose proof HG as [HR _]. change (inst_step G s) with (exec_inst G (begin_inst s)).
  assert (W0 : wk (begin_inst s)) by exact W. pose proof W0 as (W00 & _).
  unfold exec_inst. destruct (fetch_wk G (begin_inst s) W0) as (b & -> & Eb).
  assert (Hb : 0 <= b < 256).
  { rewrite Eb. destruct (_ <? _); [apply HR|]. destruct W00 as (_ & _ & _ & _ & H & _). exact H. }
  destruct (itab G b) as [f|] eqn:Ei; [|reflexivity]. rewrite (itab_ip G b f b _ Hb Ei). reflexivity.
Qed.
