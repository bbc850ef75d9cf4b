(** Acceptance of interrupts and return from them. *)
From Verif Require Import Base S51Model S51Spec S51Obs S51Proofs S51Proofs2 S51Proofs3 S51Proofs4 S51Proofs5 S51Proofs6 S51Proofs7 S51Proofs8 S51Proofs9 S51IrqModel S51IrqProofs.

Lemma bit_ie_in b : 0 <= b < 256 -> bit_ie b = bit_in IE b.
Proof.
  intros H. unfold bit_ie, bit_in.
  assert (E : (fun b => Z.land b 0xf8 =? 8 * (b / 8)) b = true) by (revert b H; apply sweep_byte; vm_compute; reflexivity).
  apply Z.eqb_eq in E. rewrite E. reflexivity.
Qed.
Lemma bits_get_rd s b : wf s -> 0 <= b < 256 -> negb (bits_get s b =? 0) = rd_bit (view s) b.
Proof.
  intros W H. unfold bits_get, rd_bit, bit_byte, bit_place. destruct (b <? 128) eqn:L; cbn [rd_place view a_iram a_sfr].
  - unfold bit. destruct (Z.testbit _ _); reflexivity.
  - assert (E : (fun b => Z.land b 0xf8 =? 8 * (b / 8)) b = true) by (revert b H L; intros b H _; revert b H; apply sweep_byte; vm_compute; reflexivity).
    apply Z.eqb_eq in E. rewrite E. unfold bit. destruct (Z.testbit _ _); reflexivity.
Qed.
Lemma hit_spec op b1 b2 s ins len cyc a : 0 <= op < 256 -> 0 <= b1 < 256 -> wf s ->
  (forall b, rd_bit a b = rd_bit (view s) b) ->
  decode op b1 b2 = Some (ins, len, cyc) -> hit op b1 b2 s = writes_reg IE ins a.
Proof.
  intros Ho H1 W Hv. revert ins len cyc.
  assert (H : Forall (fun op => forall ins len cyc, decode op b1 b2 = Some (ins, len, cyc) -> hit op b1 b2 s = writes_reg IE ins a) (zrange 256)).
  { let l := eval vm_compute in (zrange 256) in change (zrange 256) with l.
    repeat (apply Forall_cons; [intros ins len cyc E;
      (discriminate E ||
       (injection E as <- <- <-;
        (reflexivity ||
         (cbn [hit writes_reg]; rewrite ?(bit_ie_in b1 H1), ?(bits_get_rd s b1 W H1), <- ?Hv; reflexivity))))|]). constructor. }
  rewrite Forall_forall in H. apply H. apply in_zrange. lia.
Qed.
(** the two flags after one instruction *)
Lemma inst_flags G s ins len cyc : wf_cfg G -> wf s -> decode_at (rom G) (view s) = Some (ins, len, cyc) ->
  was_reti (inst_step G s) = (match ins with Reti => true | _ => false end) || writes_reg IE ins (view s) /\
  levels (inst_step G s) = (match ins with Reti => tl (levels s) | _ => levels s end).
Proof.
  intros HG W E. pose proof HG as [HR _]. pose proof W as (Hp & _). rewrite dec_at in E by exact W.
  set (op := rom G (pc s)) in *. pose proof (op_at G op HG) as _.
  assert (Hi : exists f, itab G op = Some f).
  { destruct (itab G op) as [f|] eqn:Ei; [exists f; reflexivity|].
    assert (K : op = 0xa5).
    { assert (Q : (fun o => match itab G o with Some _ => true | None => o =? 0xa5 end) op = true).
      { generalize (HR (pc s)). fold op. generalize op. apply sweep_byte. vm_compute. reflexivity. }
      cbv beta in Q. rewrite Ei in Q. apply Z.eqb_eq in Q. exact Q. }
    rewrite K in E. discriminate E. }
  destruct Hi as (f & Hf). rewrite (exec_at G s op f W eq_refl Hf).
  set (t := tick 1 _). assert (Wt : wf t) by exact (wf_begin s W).
  destruct (itab_flags G op f t (HR (pc s)) Hf) as (F1 & F2).
  assert (B1 : opb G t = rom G ((pc s + 1) mod 65536)).
  { unfold opb, rom_read. change (pc t) with ((pc s + 1) mod 65536).
    assert (0 <= (pc s + 1) mod 65536 < 65536) by (apply Z.mod_pos_bound; lia). change 0x10000 with 65536. rewrite (proj2 (Z.ltb_lt _ _)) by lia. reflexivity. }
  assert (B2 : opc G t = rom G ((pc s + 2) mod 65536)).
  { unfold opc, rom_read. change (pc t) with ((pc s + 1) mod 65536).
    assert (Hm : 0 <= (pc s + 1) mod 65536 < 65536) by (apply Z.mod_pos_bound; lia).
    assert (E2 : Z.land (u32 ((pc s + 1) mod 65536 + 1)) 0xffff = (pc s + 2) mod 65536).
    { change 0xffff with (Z.ones 16). rewrite Z.land_ones by lia. unfold u32. rewrite (Z.mod_small _ 4294967296) by lia.
      change (2 ^ 16) with 65536. rewrite Z.add_mod_idemp_l by lia. f_equal. lia. }
    rewrite E2. assert (0 <= (pc s + 2) mod 65536 < 65536) by (apply Z.mod_pos_bound; lia).
    change 0x10000 with 65536. rewrite (proj2 (Z.ltb_lt _ _)) by lia. reflexivity. }
  rewrite F1, F2, B1, B2. change (was_reti t) with false. change (levels t) with (levels s). cbn [orb].
  rewrite (hit_spec op _ _ t ins len cyc (view s) (HR (pc s)) (HR _) Wt (fun _ => eq_refl) E).
  assert (R : (op =? 0x32) = match ins with Reti => true | _ => false end).
  { revert E. generalize (HR (pc s)). fold op. generalize op. generalize (rom G ((pc s + 1) mod 65536)) (rom G ((pc s + 2) mod 65536)).
    clear. intros b1 b2 op Ho. revert ins len cyc.
    assert (H : Forall (fun op => forall ins len cyc, decode op b1 b2 = Some (ins, len, cyc) -> (op =? 0x32) = match ins with Reti => true | _ => false end) (zrange 256)).
    { let l := eval vm_compute in (zrange 256) in change (zrange 256) with l.
      repeat (apply Forall_cons; [intros ins len cyc E; (discriminate E || (injection E as <- <- <-; reflexivity))|]). constructor. }
    rewrite Forall_forall in H. apply H. apply in_zrange. lia. }
  rewrite <- R. split; [reflexivity|]. destruct ins; rewrite R; reflexivity.
Qed.

Lemma push_byte_eff G s v : wf s -> let p := (sfr s SP + 1) mod 256 in p < isize G ->
  let t := push_byte G s v in
  wf t /\ sfr t SP = p /\ iram t p = u8 v /\ (forall x, x <> p -> iram t x = iram s x) /\
  (forall x, x <> SP -> sfr t x = sfr s x) /\ xram t = xram s /\ pc t = pc s.
Proof.
  intros W p Hlt t. unfold t, push_byte. set (s2 := sfr_write s SP (sfr s SP + 1)).
  assert (W2 : wf s2) by (apply wf_sfr_write; exact W).
  assert (E2 : forall x, sfr s2 x = if x =? SP then p else sfr s x).
  { intros x. unfold s2. rewrite sfr_write_at by exact W. change (SP =? ACC) with false. rewrite andb_false_r. reflexivity. }
  rewrite (E2 SP), Z.eqb_refl. unfold iram_cell. rewrite (proj2 (Z.ltb_lt _ _) Hlt). cbn [c_write].
  destruct (sfr_write_frame s SP (sfr s SP + 1)) as (F1 & F2 & F3 & _). fold s2 in F1, F2, F3.
  split; [apply wf_set_iram; [exact W2|apply u8_range]|]. cbn [sfr iram xram pc set_iram].
  split; [rewrite E2, Z.eqb_refl; reflexivity|]. split; [apply put_same|].
  split; [intros x Hx; rewrite put_other by exact Hx; rewrite F2; reflexivity|].
  split; [intros x Hx; rewrite E2, (proj2 (Z.eqb_neq x SP)) by exact Hx; reflexivity|].
  split; assumption.
Qed.

Lemma accept_eff G s level addr : wf s -> addr <> 0 -> 0 <= addr < 65536 ->
  let p1 := (sfr s SP + 1) mod 256 in let p2 := (sfr s SP + 2) mod 256 in
  p1 < isize G -> p2 < isize G ->
  let t := accept_it G s level addr in
  wf t /\ pc t = addr /\ sfr t SP = p2 /\ iram t p1 = pc s mod 256 /\ iram t p2 = pc s / 256 /\
  (forall x, x <> p1 -> x <> p2 -> iram t x = iram s x) /\
  (forall x, x <> SP -> x <> PCON -> sfr t x = sfr s x) /\
  sfr t PCON = Z.land (sfr s PCON) (Z.lnot bmIDL) /\ xram t = xram s /\
  levels t = level :: levels s /\ was_reti t = was_reti s.
Proof.
  intros W Ha Hr p1 p2 H1 H2 t. pose proof W as (Hp & _ & HS & _). unfold t, accept_it.
  set (s1 := sfr_put s PCON _). assert (W1 : wf s1).
  { unfold s1, sfr_put. apply wf_set_sfr; [exact W|apply u8_range|discriminate]. }
  set (s2 := set_levels s1 _ _). assert (W2 : wf s2) by exact W1.
  set (s3 := tick 1 s2). assert (W3 : wf s3) by exact W2.
  assert (S3 : forall x, x <> PCON -> sfr s3 x = sfr s x) by (intros x Hx; change (sfr s3 x) with (put (sfr s) PCON (u8 (Z.land (sfr s PCON) (Z.lnot bmIDL))) x); apply put_other; exact Hx).
  assert (Sp : sfr s3 PCON = Z.land (sfr s PCON) (Z.lnot bmIDL)).
  { change (sfr s3 PCON) with (put (sfr s) PCON (u8 (Z.land (sfr s PCON) (Z.lnot bmIDL))) PCON). rewrite put_same. apply u8_id.
    pose proof (HS PCON) as H. revert H. generalize (sfr s PCON). intros q Hq.
    assert (K : (fun q => (0 <=? Z.land q (Z.lnot bmIDL)) && (Z.land q (Z.lnot bmIDL) <? 256)) q = true) by (revert q Hq; apply sweep_byte; vm_compute; reflexivity).
    cbv beta in K. lia. }
  unfold inst_lcall. rewrite (proj2 (Z.eqb_neq addr 0)) by exact Ha. cbv iota beta.
  assert (Q1 : (sfr s3 SP + 1) mod 256 = p1) by (rewrite S3 by discriminate; reflexivity).
  destruct (push_byte_eff G s3 (Z.land (pc s3) 0xff) W3) as (A1 & A2 & A3 & A4 & A5 & A6 & A7); [rewrite Q1; exact H1|].
  rewrite Q1 in A2, A3, A4. set (u := push_byte G s3 (Z.land (pc s3) 0xff)) in *.
  pose proof (wt_push G s3 (Z.land (pc s3) 0xff)) as (V1 & V2). fold u in V1, V2.
  assert (Q2 : (sfr u SP + 1) mod 256 = p2).
  { rewrite A2. unfold p1, p2. rewrite Z.add_mod_idemp_l by lia. f_equal. lia. }
  destruct (push_byte_eff G u (Z.land (Z.shiftr (pc u) 8) 0xff) A1) as (B1 & B2 & B3 & B4 & B5 & B6 & B7); [rewrite Q2; exact H2|].
  rewrite Q2 in B2, B3, B4. pose proof (wt_push G u (Z.land (Z.shiftr (pc u) 8) 0xff)) as (V3 & V4).
  set (w := push_byte G u _) in *.
  assert (Hne : p1 <> p2).
  { rewrite <- Q2, A2. assert (0 <= p1 < 256) by (apply Z.mod_pos_bound; lia). lia. }
  assert (Epc : pc s3 = pc s) by reflexivity.
  split; [apply wf_set_pc; [exact B1|exact Hr]|]. split; [reflexivity|]. cbn [sfr iram xram levels was_reti set_pc].
  split; [exact B2|].
  split; [rewrite B4 by exact Hne; rewrite A3, Epc; unfold u8; change 0xff with (Z.ones 8); rewrite Z.land_ones by lia; apply Z.mod_mod; lia|].
  split. { rewrite B3, A7, Epc. rewrite Z.shiftr_div_pow2 by lia. change (2 ^ 8) with 256. change 0xff with (Z.ones 8).
    rewrite Z.land_ones by lia. change (2 ^ 8) with 256. unfold u8. rewrite Z.mod_mod by lia. apply Z.mod_small. lia. }
  split; [intros x X1 X2; rewrite B4 by exact X2; rewrite A4 by exact X1; reflexivity|].
  split; [intros x X1 X2; rewrite B5 by exact X1; rewrite A5 by exact X1; apply S3; exact X2|].
  split; [rewrite B5, A5 by discriminate; exact Sp|].
  split; [rewrite B6, A6; reflexivity|]. split; [rewrite V4, V2; reflexivity|rewrite V3, V1; reflexivity].
Qed.
