(** Properties C49 to C52: interrupts, idle and power down mode of the MCS51. *)
From Verif Require Import Base S51Model S51Spec S51Obs S51Proofs S51Proofs2 S51Proofs3 S51Proofs4 S51Proofs5 S51Proofs6 S51Proofs7 S51Proofs8 S51Proofs9 S51Props S51IrqModel S51IrqProofs S51IrqProofs2.

(** What the manual says about requests. A source asks for service when its
    enable bit in IE and its request bit are set; its priority is 1 if its bit
    in IP is set, otherwise 0; it is served if the interrupt in service, if
    there is one, has a lower priority. *)
Definition all_set (x mask : Z) : Prop := Z.land x mask = mask.
Definition prio (s : st) (i : isrc) : Z := if Z.land (sfr s 0xb8) (i_mask i) =? 0 then 0 else 1.
Definition in_service (s : st) : Z := hd (-1) (levels s).      (* -1: none *)
Definition qualifies (s : st) (i : isrc) : Prop :=
  i_active i = true /\ all_set (sfr s 0xa8) (i_mask i) /\ all_set (sfr s (i_cell i)) (i_bits i) /\ in_service s < prio s i.
Definition EA (s : st) : bool := Z.testbit (sfr s 0xa8) 7.
(** a source as the devices make them: its request register is neither of the
    CPU's registers nor IE or PCON, its vector is in the code space, not 0 *)
Definition good_src (i : isrc) : Prop :=
  0 <= i_bits i < 256 /\ 0 < i_addr i < 65536 /\
  ~ In (i_cell i) [0xe0; 0xd0; 0x81; 0xa8; 0x87].
Definition tcon_ex0 : isrc := mkIsrc 1 0x88 2 0x03 true true.
Definition tcon_t0 : isrc := mkIsrc 2 0x88 0x20 0x0b true true.
Definition scon_ti : isrc := mkIsrc 0x10 0x98 2 0x23 false true.
Example sources_good : good_src tcon_ex0 /\ good_src tcon_t0 /\ good_src scon_ti.
Proof. unfold good_src. cbn. repeat split; try lia; intuition lia. Qed.

Lemma qual_dec s i : i_active i && enabled s i && pending s i &&
   negb ((0 <=? hd (-1) (levels s)) && (priority_of s (i_mask i) <=? hd (-1) (levels s))) = true <-> qualifies s i.
Proof.
  unfold qualifies, enabled, pending, all_set, in_service, prio. change IE with 0xa8. change (priority_of s (i_mask i)) with (prio s i).
  assert (0 <= prio s i) by (unfold prio; destruct (_ =? 0); lia). unfold prio in *.
  rewrite !andb_true_iff, !Z.eqb_eq, negb_true_iff, andb_false_iff, Z.leb_gt, Z.leb_gt. intuition lia.
Qed.
Lemma EA_bit s : EA s = negb (Z.land (sfr s IE) bmEA =? 0).
Proof.
  unfold EA. change IE with 0xa8. change bmEA with (2 ^ 7).
  destruct (Z.testbit (sfr s 0xa8) 7) eqn:E; symmetry.
  - apply negb_true_iff, Z.eqb_neq. intros H. assert (K : Z.testbit (Z.land (sfr s 0xa8) (2 ^ 7)) 7 = false) by (rewrite H; apply Z.bits_0).
    rewrite Z.land_spec, E, Z.pow2_bits_true in K by lia. discriminate K.
  - apply negb_false_iff, Z.eqb_eq. apply Z.bits_inj'. intros n Hn. rewrite Z.land_spec, Z.bits_0.
    destruct (Z.eq_dec n 7) as [->|N]; [rewrite E; reflexivity|]. rewrite Z.pow2_bits_false by congruence. apply andb_false_r.
Qed.
Definition entry (G : cfg) (x : top) (i : isrc) : top * result :=
  match md x with
  | mIDLE => (mkTop (set_levels (sfr_put (core x) PCON (Z.land (sfr (core x) PCON) (Z.lnot bmIDL))) (levels (core x)) true) mGO, resGO)
  | _ => (mkTop (accept_it G (clear (core x) i) (prio (core x) i) (i_addr i)) mGO, resINTERRUPT)
  end.
Lemma scan_none G l x : (forall i, In i l -> ~ qualifies (core x) i) -> scan G l x = (x, resGO).
Proof.
  induction l as [|i l IH]; intros H; [reflexivity|]. cbn [scan]. specialize (IH (fun j Hj => H j (or_intror Hj))).
  pose proof (H i (or_introl eq_refl)) as Hi. rewrite <- qual_dec in Hi. apply not_true_is_false in Hi.
  destruct (i_active i && enabled (core x) i && pending (core x) i); [|exact IH]. cbn [andb] in Hi. apply negb_false_iff in Hi.
  rewrite Hi. exact IH.
Qed.
Lemma scan_some G l1 i l2 x : (forall j, In j l1 -> ~ qualifies (core x) j) -> qualifies (core x) i ->
  scan G (l1 ++ i :: l2) x = entry G x i.
Proof.
  intros H Q. induction l1 as [|j l1 IH]; cbn [app scan].
  - apply qual_dec in Q. apply andb_prop in Q. destruct Q as [Q1 Q2]. rewrite Q1. apply negb_true_iff in Q2. rewrite Q2.
    unfold entry. destruct (md x); reflexivity.
  - specialize (IH (fun k Hk => H k (or_intror Hk))). pose proof (H j (or_introl eq_refl)) as Hj. rewrite <- qual_dec in Hj. apply not_true_is_false in Hj.
    destruct (i_active j && enabled (core x) j && pending (core x) j); [|exact IH]. cbn [andb] in Hj. apply negb_false_iff in Hj.
    rewrite Hj. exact IH.
Qed.

Lemma clear_eff s i : wf s -> good_src i ->
  let t := clear s i in
  wf t /\ pc t = pc s /\ iram t = iram s /\ xram t = xram s /\ levels t = levels s /\ was_reti t = was_reti s /\
  (forall x, x <> i_cell i -> sfr t x = sfr s x) /\
  sfr t (i_cell i) = if i_clr i then Z.ldiff (sfr s (i_cell i)) (i_bits i) else sfr s (i_cell i).
Proof.
  intros W (Hb & _ & Hn) t. unfold t, clear. destruct (i_clr i); [|repeat split; try reflexivity; exact W || apply W].
  set (c := i_cell i) in *. set (v := Z.land (sfr s c) (Z.lnot (i_bits i))).
  assert (Nc : (c =? ACC) = false) by (apply Z.eqb_neq; intros E; apply Hn; rewrite E; left; reflexivity).
  assert (Ni : (c =? IE) = false) by (apply Z.eqb_neq; intros E; apply Hn; rewrite E; right; right; right; left; reflexivity).
  destruct (sfr_write_frame s c v) as (F1 & F2 & F3 & _). destruct (wt_sfr_write s c v) as (F4 & F5).
  rewrite Ni, orb_false_r in F4.
  split; [apply wf_sfr_write; exact W|]. split; [exact F1|]. split; [exact F2|]. split; [exact F3|]. split; [exact F5|]. split; [exact F4|].
  split.
  - intros x Hx. rewrite sfr_write_at by exact W. rewrite (proj2 (Z.eqb_neq x c)) by exact Hx. rewrite Nc, andb_false_r. reflexivity.
  - rewrite sfr_write_at by exact W. rewrite Z.eqb_refl. unfold v. rewrite <- Z.ldiff_land. apply u8_id.
    pose proof W as (_ & _ & HS & _). pose proof (HS c). split; [apply Z.ldiff_nonneg; lia|].
    assert (Z.ldiff (sfr s c) (i_bits i) <= sfr s c).
    { apply Z.ldiff_le; [lia|]. apply Z.bits_inj'. intros n Hk. rewrite !Z.ldiff_spec, Z.bits_0.
      destruct (Z.testbit (sfr s c) n), (Z.testbit (i_bits i) n); reflexivity. }
    lia.
Qed.

(* ------------------------------------------------------------------ C49 *)
(** After an instruction that is neither RETI nor a write to IE, with EA set,
    the first qualifying source in polling order is served: the address of the
    next instruction is pushed, its priority becomes the level in service, its
    request is cleared if the hardware does so, and control is at its vector.
    Nothing else changes. *)
Theorem C49_interrupt_entry : forall G cmos x ins len cyc l1 i l2,
  wf_cfg G -> wf (core x) -> md x = mGO -> decode_at (rom G) (view (core x)) = Some (ins, len, cyc) ->
  ins <> Reti -> writes_reg 0xa8 ins (view (core x)) = false ->
  let s := inst_step G (core x) in
  wf s -> EA s = true -> qualifies s i -> (forall j, In j l1 -> ~ qualifies s j) -> good_src i ->
  let p1 := (sfr s rSP + 1) mod 256 in let p2 := (sfr s rSP + 2) mod 256 in
  p1 < isize G -> p2 < isize G ->
  exists y, do_inst G (l1 ++ i :: l2) cmos false x = (y, resINTERRUPT) /\ md y = mGO /\
    pc (core y) = i_addr i /\ sfr (core y) rSP = p2 /\
    iram (core y) p1 = pc s mod 256 /\ iram (core y) p2 = pc s / 256 /\
    (forall a, a <> p1 -> a <> p2 -> iram (core y) a = iram s a) /\
    (forall a, a <> rSP -> a <> 0x87 -> a <> i_cell i -> sfr (core y) a = sfr s a) /\
    sfr (core y) 0x87 = Z.ldiff (sfr s 0x87) 1 /\
    sfr (core y) (i_cell i) = (if i_clr i then Z.ldiff (sfr s (i_cell i)) (i_bits i) else sfr s (i_cell i)) /\
    (forall a, xram (core y) a = xram s a) /\
    levels (core y) = prio s i :: levels (core x).
Proof.
  intros G cmos x ins len cyc l1 i l2 HG W Hm Hd Hr Hie s Ws HEA Hq Hl Hg p1 p2 H1 H2.
  destruct (inst_flags G (core x) ins len cyc HG W Hd) as (F1 & F2). fold s in F1, F2.
  assert (Er : was_reti s = false).
  { rewrite F1. change IE with 0xa8. rewrite Hie. destruct ins; try reflexivity. congruence. }
  assert (El : levels s = levels (core x)) by (rewrite F2; destruct ins; try reflexivity; congruence).
  destruct (clear_eff s i Ws Hg) as (C1 & C2 & C3 & C4 & C5 & C6 & C7 & C8).
  pose proof Hg as (Hb & Ha & Hn).
  assert (Nsp : rSP <> i_cell i) by (intros E; apply Hn; rewrite <- E; right; right; left; reflexivity).
  assert (Npc : 0x87 <> i_cell i) by (intros E; apply Hn; rewrite <- E; right; right; right; right; left; reflexivity).
  assert (Esp : sfr (clear s i) SP = sfr s rSP) by (apply C7; exact Nsp).
  destruct (accept_eff G (clear s i) (prio s i) (i_addr i) C1) as (A1 & A2 & A3 & A4 & A5 & A6 & A7 & A8 & A9 & A10 & A11);
    [lia|lia|rewrite Esp; exact H1|rewrite Esp; exact H2|].
  rewrite Esp in A3, A4, A5, A6. fold p1 in A4, A6. fold p2 in A3, A5, A6.
  exists (mkTop (accept_it G (clear s i) (prio s i) (i_addr i)) mGO). split.
  { unfold do_inst. rewrite Hm. cbn [core]. fold s. rewrite andb_false_r. cbv iota.
    unfold do_interrupt. cbn [core]. rewrite Er. rewrite EA_bit in HEA. apply negb_true_iff in HEA. rewrite HEA.
    rewrite (scan_some G l1 i l2 (mkTop s mGO) Hl Hq). reflexivity. }
  cbn [core md]. split; [reflexivity|]. split; [exact A2|]. split; [exact A3|].
  split; [rewrite A4, C2; reflexivity|]. split; [rewrite A5, C2; reflexivity|].
  split; [intros a X1 X2; rewrite A6, C3 by assumption; reflexivity|].
  split; [intros a X1 X2 X3; rewrite A7 by assumption; apply C7; exact X3|].
  split; [change 0x87 with PCON; rewrite A8, C7 by exact Npc; rewrite <- Z.ldiff_land; reflexivity|].
  split; [rewrite (A7 (i_cell i) (not_eq_sym Nsp) (not_eq_sym Npc)); exact C8|].
  split; [intros a; rewrite A9, C4; reflexivity|]. rewrite A10, C5, El. reflexivity.
Qed.
(** Otherwise (EA clear, or nothing qualifies, or the instruction was RETI or
    wrote IE) only the instruction is executed. *)
Theorem C49_no_interrupt : forall G l cmos x ins len cyc,
  wf_cfg G -> wf (core x) -> md x = mGO -> decode_at (rom G) (view (core x)) = Some (ins, len, cyc) ->
  let s := inst_step G (core x) in
  ins = Reti \/ writes_reg 0xa8 ins (view (core x)) = true \/ EA s = false \/ (forall i, In i l -> ~ qualifies s i) ->
  let '(y, r) := do_inst G l cmos false x in
  r = resGO /\ view (core y) = view s /\ levels (core y) = levels s.
Proof.
  intros G l cmos x ins len cyc HG W Hm Hd s Hc.
  destruct (inst_flags G (core x) ins len cyc HG W Hd) as (F1 & F2). fold s in F1, F2.
  unfold do_inst. rewrite Hm. cbn [core]. fold s. rewrite andb_false_r. cbv iota.
  assert (D : exists m t, do_interrupt G l (mkTop s mGO) = (mkTop t m, resGO) /\ view t = view s /\ levels t = levels s).
  { unfold do_interrupt. cbn [core md]. destruct (was_reti s) eqn:Er; [eexists _, _; split; [reflexivity|split; reflexivity]|].
    destruct (Z.land (sfr s IE) bmEA =? 0) eqn:E; [eexists _, _; split; [reflexivity|split; reflexivity]|].
    exists mGO, s. split; [|split; reflexivity]. apply scan_none. cbn [core].
    destruct Hc as [-> | [Hc | [Hc | Hc]]].
    - discriminate F1.
    - change IE with 0xa8 in F1. rewrite Hc, orb_true_r in F1. discriminate F1.
    - rewrite EA_bit, E in Hc. discriminate Hc.
    - exact Hc. }
  destruct D as (m & t & -> & D1 & D2). split; [reflexivity|].
  unfold idle_pd. destruct cmos; cbn [negb core]; split; assumption.
Qed.
(* TF0 with ET0 and EA: NOP at 0, then the vector 0b; with EA clear nothing *)
Definition st_t0 (ie tcon : Z) : st :=
  mkSt 0 (fun _ => 0) (fun a => if a =? 0x81 then 7 else if a =? 0xa8 then ie else if a =? 0x88 then tcon else 0) (fun _ => 0) 0 0 0 0 [] false 0 0.
Example C49_example :
  let G := dev [0x00; 0x74; 0x05; 0x00] in
  let y := do_inst G [tcon_ex0; tcon_t0; scon_ti] true false (mkTop (st_t0 0x82 0x20) mGO) in
  snd y = resINTERRUPT /\ pc (core (fst y)) = 0x0b /\ iram (core (fst y)) 8 = 1 /\ sfr (core (fst y)) 0x88 = 0 /\ levels (core (fst y)) = [0] /\
  pc (core (fst (do_inst G [tcon_ex0; tcon_t0] true false (mkTop (st_t0 0x02 0x20) mGO)))) = 1.
Proof. vm_compute. repeat split; reflexivity. Qed.
Example C49_example_hyp : let s := inst_step (dev [0x00]) (st_t0 0x82 0x20) in
  EA s = true /\ qualifies s tcon_t0 /\ ~ qualifies s tcon_ex0.
Proof.
  split; [vm_compute; reflexivity|]. split; [unfold qualifies, all_set; vm_compute; repeat split; reflexivity|].
  intros (_ & H & _). vm_compute in H. discriminate H.
Qed.
Print Assumptions C49_interrupt_entry.
Print Assumptions C49_no_interrupt.

(* ------------------------------------------------------------------ C50 *)
(** Return from interrupt: when the handler ends with SP and the two stack
    bytes as they were on entry, RETI continues at the interrupted address q
    with SP and the level in service as before the interrupt, and whatever is
    pending, no interrupt is accepted before one more instruction. *)
Theorem C50_reti_resumes : forall G l cmos x u q sp lv pr,
  wf_cfg G -> ltr G = true -> wf (core u) -> md u = mGO ->
  0 <= q < 65536 -> 0 <= sp < 256 ->
  let p1 := (sp + 1) mod 256 in let p2 := (sp + 2) mod 256 in
  p1 < isize G -> p2 < isize G ->
  (* entry *)
  sfr (core x) rSP = p2 -> iram (core x) p1 = q mod 256 -> iram (core x) p2 = q / 256 -> levels (core x) = pr :: lv ->
  (* the handler has left these alone and is at RETI *)
  rom G (pc (core u)) = 0x32 ->
  sfr (core u) rSP = sfr (core x) rSP -> iram (core u) p1 = iram (core x) p1 -> iram (core u) p2 = iram (core x) p2 ->
  levels (core u) = levels (core x) ->
  let '(y, r) := do_inst G l cmos false u in
  r = resGO /\ pc (core y) = q /\ sfr (core y) rSP = sp /\ levels (core y) = lv /\
  (forall a, iram (core y) a = iram (core u) a) /\
  (forall a, a <> rSP -> a <> rPSW -> sfr (core y) a = sfr (core u) a) /\ (forall a, xram (core y) a = xram (core u) a).
Proof.
  intros G l cmos x u q sp lv pr HG HL W Hm Hq Hsp p1 p2 H1 H2 X1 X2 X3 X4 Hop U1 U2 U3 U4.
  assert (Hd : decode_at (rom G) (view (core u)) = Some (Reti, 1, 2)).
  { rewrite dec_at by exact W. rewrite Hop. reflexivity. }
  pose proof (C49_no_interrupt G l cmos u Reti 1 2 HG W Hm Hd (or_introl eq_refl)) as K.
  destruct (do_inst G l cmos false u) as [y r]. destruct K as (K1 & K2 & K3).
  destruct (inst_flags G (core u) Reti 1 2 HG W Hd) as (_ & F2).
  assert (Eq : (sfr (core u) rSP - 1) mod 256 = p1).
  { rewrite U1, X1. unfold p2, p1. rewrite Zminus_mod_idemp_l. f_equal. lia. }
  assert (Eb : (sfr (core u) rSP - 2) mod 256 = sp).
  { rewrite U1, X1. unfold p2. rewrite Zminus_mod_idemp_l. replace (sp + 2 - 2) with sp by lia. apply Z.mod_small. exact Hsp. }
  destruct (ret_step G (core u) HG HL W (or_intror Hop)) as (_ & R1 & R2 & R3 & R4 & R5).
  { change SP with rSP. rewrite U1, X1. exact H2. } { change SP with rSP. rewrite Eq. exact H1. }
  change SP with rSP in *. rewrite Eq in R2. rewrite Eb in R1. rewrite U1, X1, U2, U3, X2, X3 in R2.
  set (s := inst_step G (core u)) in *. split; [exact K1|].
  assert (V : forall A (f : arch -> A), f (view (core y)) = f (view s)) by (intros A f; rewrite K2; reflexivity).
  split; [change (pc (core y)) with (a_pc (view (core y))); rewrite V; change (a_pc (view s)) with (pc s); rewrite R2; symmetry; apply Z.div_mod; lia|].
  split; [change (sfr (core y)) with (a_sfr (view (core y))); rewrite V; exact R1|].
  split; [rewrite K3, F2, U4, X4; reflexivity|].
  split; [intros a; change (iram (core y)) with (a_iram (view (core y))); rewrite V; apply R3|].
  split; [intros a N1 N2; change (sfr (core y)) with (a_sfr (view (core y))); rewrite V; apply R4; assumption|].
  intros a; change (xram (core y)) with (a_xram (view (core y))); rewrite V; apply R5.
Qed.
(* NOP, interrupted by timer 0; handler: RETI at 0b; back at 1, although the source requests again *)
Definition ex50 : cfg := mkCfg (fun a => if a =? 0x0b then 0x32 else 0) 128 true (fun _ => 0).
Example C50_example :
  let src := [mkIsrc 2 0x88 0x20 0x0b false true] in
  let x := fst (do_inst ex50 src true false (mkTop (st_t0 0x82 0x20) mGO)) in
  let y := do_inst ex50 src true false x in
  let z := do_inst ex50 src true false (fst y) in
  pc (core x) = 0x0b /\ rom ex50 (pc (core x)) = 0x32 /\ levels (core x) = [0] /\
  snd y = resGO /\ pc (core (fst y)) = 1 /\ sfr (core (fst y)) rSP = 7 /\ levels (core (fst y)) = [] /\
  snd z = resINTERRUPT /\ pc (core (fst z)) = 0x0b /\ iram (core (fst z)) 8 = 2.
Proof. vm_compute. repeat split; reflexivity. Qed.
Print Assumptions C50_reti_resumes.

(* ------------------------------------------------------------------ C51 *)
(** Idle mode: without a qualifying request the processor keeps its state and
    only time passes. *)
Theorem C51_idle_waits : forall G l x, md x = mIDLE -> was_reti (core x) = false ->
  Z.testbit (sfr (core x) 0x87) 0 = true -> Z.testbit (sfr (core x) 0x87) 1 = false ->
  EA (core x) = false \/ (forall i, In i l -> ~ qualifies (core x) i) ->
  do_inst G l true false x = (mkTop (tick 1 (core x)) mIDLE, resGO).
Proof.
  intros G l x Hm Hr H0 H1 Hc. unfold do_inst. rewrite Hm. cbn [core pc tick]. rewrite andb_false_r. cbv iota.
  assert (D : do_interrupt G l (mkTop (tick 1 (core x)) mIDLE) = (mkTop (tick 1 (core x)) mIDLE, resGO)).
  { unfold do_interrupt. cbn [core]. change (was_reti (tick 1 (core x))) with (was_reti (core x)). rewrite Hr.
    change (sfr (tick 1 (core x))) with (sfr (core x)).
    destruct (Z.land (sfr (core x) IE) bmEA =? 0) eqn:E; [reflexivity|].
    apply scan_none. destruct Hc as [Hc|Hc]; [rewrite EA_bit, E in Hc; discriminate Hc|]. exact Hc. }
  rewrite D. unfold idle_pd. cbn [negb core md]. change (sfr (tick 1 (core x))) with (sfr (core x)).
  change PCON with 0x87. change bmPD with (2 ^ 1). change bmIDL with (2 ^ 0).
  assert (E0 : (Z.land (sfr (core x) 0x87) (2 ^ 0) =? 0) = false).
  { apply Z.eqb_neq. intros K. assert (Z.testbit (Z.land (sfr (core x) 0x87) (2 ^ 0)) 0 = false) as T by (rewrite K; apply Z.bits_0).
    rewrite Z.land_spec, H0 in T. discriminate T. }
  assert (E1 : (Z.land (sfr (core x) 0x87) (2 ^ 1) =? 0) = true).
  { apply Z.eqb_eq. apply Z.bits_inj'. intros n Hn. rewrite Z.land_spec, Z.bits_0.
    destruct (Z.eq_dec n 1) as [->|N]; [rewrite H1; reflexivity|]. rewrite Z.pow2_bits_false by congruence. apply andb_false_r. }
  rewrite E0, E1. reflexivity.
Qed.
(** A qualifying request ends idle mode: IDL is cleared, but the interrupt is
    not accepted yet: one more instruction is executed at the same place
    first, and only then the handler is entered (C49). *)
Theorem C51_idle_wakes_exact : forall G l1 i l2 x, md x = mIDLE -> was_reti (core x) = false ->
  EA (core x) = true -> qualifies (core x) i -> (forall j, In j l1 -> ~ qualifies (core x) j) ->
  Z.testbit (sfr (core x) 0x87) 1 = false -> 0 <= sfr (core x) 0x87 < 256 ->
  exists y, do_inst G (l1 ++ i :: l2) true false x = (y, resGO) /\ md y = mGO /\
    pc (core y) = pc (core x) /\ iram (core y) = iram (core x) /\ xram (core y) = xram (core x) /\
    levels (core y) = levels (core x) /\ sfr (core y) 0x87 = Z.ldiff (sfr (core x) 0x87) 1 /\
    (forall a, a <> 0x87 -> sfr (core y) a = sfr (core x) a) /\
    (* the next step executes the instruction at PC, like C49 for a core that has just left it *)
    forall l, do_inst G l true false y = do_inst G l true false (mkTop (set_levels (core y) (levels (core y)) false) mGO).
Proof.
  intros G l1 i l2 x Hm Hr HEA Hq Hl H1 Hb. pose proof HEA as HEA'. rewrite EA_bit in HEA'. apply negb_true_iff in HEA'.
  set (s := tick 1 (core x)).
  set (v := Z.land (sfr (core x) PCON) (Z.lnot bmIDL)).
  assert (Hv : 0 <= v < 256).
  { unfold v. change PCON with 0x87. revert Hb. generalize (sfr (core x) 0x87). intros q Hq'.
    assert (K : (fun q => (0 <=? Z.land q (Z.lnot bmIDL)) && (Z.land q (Z.lnot bmIDL) <? 256)) q = true) by (revert q Hq'; apply sweep_byte; vm_compute; reflexivity).
    cbv beta in K. lia. }
  exists (mkTop (set_levels (sfr_put s PCON v) (levels (core x)) true) mGO). split.
  - unfold do_inst. rewrite Hm. cbn [core]. fold s. rewrite andb_false_r. cbv iota.
    unfold do_interrupt. cbn [core]. change (was_reti s) with (was_reti (core x)). rewrite Hr.
    change (sfr s) with (sfr (core x)). rewrite HEA'.
    rewrite (scan_some G l1 i l2 (mkTop s mIDLE)); [|exact Hl|exact Hq].
    cbn [entry md core]. change (sfr s) with (sfr (core x)). fold v. change (levels s) with (levels (core x)).
    unfold idle_pd. cbn [negb core md].
    assert (Ev : sfr (set_levels (sfr_put s PCON v) (levels (core x)) true) PCON = v).
    { unfold sfr_put. cbn [sfr set_sfr set_levels]. rewrite put_same. apply u8_id. exact Hv. }
    rewrite Ev. unfold v.
    assert (E0 : Z.land (Z.land (sfr (core x) PCON) (Z.lnot bmIDL)) bmIDL = 0) by (rewrite <- Z.land_assoc; change (Z.land (Z.lnot bmIDL) bmIDL) with 0; apply Z.land_0_r).
    assert (E1 : Z.land (Z.land (sfr (core x) PCON) (Z.lnot bmIDL)) bmPD = 0).
    { rewrite <- Z.land_assoc. change (Z.land (Z.lnot bmIDL) bmPD) with (2 ^ 1). change PCON with 0x87. apply Z.bits_inj'. intros n Hn.
      rewrite Z.land_spec, Z.bits_0. destruct (Z.eq_dec n 1) as [->|N]; [rewrite H1; reflexivity|]. rewrite Z.pow2_bits_false by congruence. apply andb_false_r. }
    rewrite E0, E1. reflexivity.
  - cbn [core md]. split; [reflexivity|]. split; [reflexivity|]. split; [reflexivity|]. split; [reflexivity|]. split; [reflexivity|].
    split.
    { unfold sfr_put. cbn [sfr set_sfr set_levels]. change 0x87 with PCON. rewrite put_same, u8_id by exact Hv. unfold v. rewrite <- Z.ldiff_land. reflexivity. }
    split.
    { intros a Ha. unfold sfr_put. cbn [sfr set_sfr set_levels]. change PCON with 0x87. rewrite put_other by exact Ha. reflexivity. }
    intros l. unfold do_inst. cbn [md core]. reflexivity.
Qed.
(** A step that ends without entering a handler leaves the processor in idle
    mode whenever IDL is set and PD is not. *)
Theorem C51_idle_entered : forall G l x y,
  do_inst G l true false x = (y, resGO) -> Z.testbit (sfr (core y) 0x87) 0 = true -> Z.testbit (sfr (core y) 0x87) 1 = false -> md y = mIDLE.
Proof.
  intros G l x y E H H1. unfold do_inst in E. rewrite andb_false_r in E. cbv iota in E.
  destruct (do_interrupt _ _ _) as [z r]. destruct r; try discriminate E. apply pair_equal_spec in E. destruct E as [E _]. subst y.
  unfold idle_pd in *. cbn [negb core md] in *.
  replace (Z.land (sfr (core z) PCON) bmIDL =? 0) with false; [replace (Z.land (sfr (core z) PCON) bmPD =? 0) with true; [reflexivity|]|].
  - symmetry. apply Z.eqb_eq. change PCON with 0x87. change bmPD with (2 ^ 1). apply Z.bits_inj'. intros n Hn. rewrite Z.land_spec, Z.bits_0.
    destruct (Z.eq_dec n 1) as [->|N]; [rewrite H1; reflexivity|]. rewrite Z.pow2_bits_false by congruence. apply andb_false_r.
  - symmetry. apply Z.eqb_neq. intros K.
    assert (Z.testbit (Z.land (sfr (core z) PCON) bmIDL) 0 = false) as T by (rewrite K; apply Z.bits_0).
    rewrite Z.land_spec in T. change PCON with 0x87 in T. rewrite H in T. discriminate T.
Qed.
(* idle with timer 0 requesting: NOP at 3 is executed before the handler at 0b is entered with return address 4 *)
Definition st51 : st := set_pc (mkSt 0 (fun _ => 0) (fun a => if a =? 0x81 then 7 else if a =? 0xa8 then 0x82 else if a =? 0x88 then 0x20 else if a =? 0x87 then 1 else 0) (fun _ => 0) 0 0 0 0 [] false 0 0) 3.
Example C51_example :
  let d := do_inst (dev []) [tcon_ex0; tcon_t0] true false in
  let y := d (mkTop st51 mIDLE) in let z := d (fst y) in
  snd y = resGO /\ pc (core (fst y)) = 3 /\ md (fst y) = mGO /\
  snd z = resINTERRUPT /\ pc (core (fst z)) = 0x0b /\ iram (core (fst z)) 8 = 4.
Proof. vm_compute. repeat split; reflexivity. Qed.
Print Assumptions C51_idle_waits.
Print Assumptions C51_idle_wakes_exact.
Print Assumptions C51_idle_entered.

(* ------------------------------------------------------------------ C52 *)
(** Power down mode does not protect from interrupts: a qualifying request is
    accepted, although the manual says only reset ends power down mode. PD
    stays set, so the processor is back in power down mode after the first
    instruction of the handler that does not change PCON. *)
Theorem C52_power_down_interrupted_exact : forall G l1 i l2 x, md x = mPD -> was_reti (core x) = false -> wf (core x) ->
  EA (core x) = true -> qualifies (core x) i -> (forall j, In j l1 -> ~ qualifies (core x) j) -> good_src i ->
  let p1 := (sfr (core x) rSP + 1) mod 256 in let p2 := (sfr (core x) rSP + 2) mod 256 in
  p1 < isize G -> p2 < isize G ->
  exists y, do_inst G (l1 ++ i :: l2) true false x = (y, resINTERRUPT) /\ md y = mGO /\
    pc (core y) = i_addr i /\ iram (core y) p1 = pc (core x) mod 256 /\ iram (core y) p2 = pc (core x) / 256 /\
    sfr (core y) 0x87 = Z.ldiff (sfr (core x) 0x87) 1.
Proof.
  intros G l1 i l2 x Hm Hr W HEA Hq Hl Hg p1 p2 H1 H2. pose proof HEA as HEA'. rewrite EA_bit in HEA'. apply negb_true_iff in HEA'.
  set (s := tick 1 (core x)). assert (Ws : wf s) by exact W.
  destruct (clear_eff s i Ws Hg) as (C1 & C2 & C3 & C4 & C5 & C6 & C7 & C8). pose proof Hg as (Hb & Ha & Hn).
  assert (Nsp : rSP <> i_cell i) by (intros E; apply Hn; rewrite <- E; right; right; left; reflexivity).
  assert (Npc : 0x87 <> i_cell i) by (intros E; apply Hn; rewrite <- E; right; right; right; right; left; reflexivity).
  assert (Esp : sfr (clear s i) SP = sfr (core x) rSP) by (rewrite C7 by exact Nsp; reflexivity).
  destruct (accept_eff G (clear s i) (prio s i) (i_addr i) C1) as (A1 & A2 & A3 & A4 & A5 & A6 & A7 & A8 & A9 & A10 & A11);
    [lia|lia|rewrite Esp; exact H1|rewrite Esp; exact H2|].
  rewrite Esp in A4, A5. fold p1 in A4. fold p2 in A5.
  exists (mkTop (accept_it G (clear s i) (prio s i) (i_addr i)) mGO). split.
  { unfold do_inst. rewrite Hm. cbn [core]. fold s. rewrite andb_false_r. cbv iota.
    unfold do_interrupt. cbn [core]. change (was_reti s) with (was_reti (core x)). rewrite Hr.
    change (sfr s) with (sfr (core x)). rewrite HEA'. rewrite (scan_some G l1 i l2 (mkTop s mPD)); [|exact Hl|exact Hq]. reflexivity. }
  cbn [core md]. split; [reflexivity|]. split; [exact A2|]. split; [rewrite A4, C2; reflexivity|]. split; [rewrite A5, C2; reflexivity|].
  change 0x87 with PCON. rewrite A8, C7 by exact Npc. rewrite <- Z.ldiff_land. reflexivity.
Qed.
(** A step that ends without entering a handler leaves the processor in power
    down mode whenever PD is set. *)
Theorem C52_power_down_entered : forall G l x y,
  do_inst G l true false x = (y, resGO) -> Z.testbit (sfr (core y) 0x87) 1 = true -> md y = mPD.
Proof.
  intros G l x y E H. unfold do_inst in E. rewrite andb_false_r in E. cbv iota in E.
  destruct (do_interrupt _ _ _) as [z r]. destruct r; try discriminate E. apply pair_equal_spec in E. destruct E as [E _]. subst y.
  unfold idle_pd in *. cbn [negb core md] in *.
  replace (Z.land (sfr (core z) PCON) bmPD =? 0) with false; [reflexivity|]. symmetry. apply Z.eqb_neq. intros K.
  assert (Z.testbit (Z.land (sfr (core z) PCON) bmPD) 1 = false) as T by (rewrite K; apply Z.bits_0).
  rewrite Z.land_spec in T. change PCON with 0x87 in T. rewrite H in T. discriminate T.
Qed.
Definition st52 : st := set_pc (mkSt 0 (fun _ => 0) (fun a => if a =? 0x81 then 7 else if a =? 0xa8 then 0x82 else if a =? 0x88 then 0x20 else if a =? 0x87 then 2 else 0) (fun _ => 0) 0 0 0 0 [] false 0 0) 3.
Example C52_example :
  let d := do_inst (dev []) [tcon_ex0; tcon_t0] true false in
  let y := d (mkTop st52 mPD) in let z := d (fst y) in
  snd y = resINTERRUPT /\ pc (core (fst y)) = 0x0b /\ md (fst y) = mGO /\ snd z = resGO /\ pc (core (fst z)) = 0x0c /\ md (fst z) = mPD.
Proof. vm_compute. repeat split; reflexivity. Qed.
Print Assumptions C52_power_down_interrupted_exact.
Print Assumptions C52_power_down_entered.
