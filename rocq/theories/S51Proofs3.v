(** The instruction functions of arith.cc, logic.cc, inc.cc and bit.cc. *)
From Verif Require Import Base S51Model S51Spec S51Obs S51Proofs S51Proofs2.

Lemma some_eq {X} (a b : X) : Some a = Some b -> a = b.
Proof. congruence. Qed.

Lemma Rl_same s a a' : Rl s a -> same a a' -> Rl s a'.
Proof.
  intros (H1 & H2 & H3 & H4 & H5) (E1 & E2 & E3 & E4). unfold Rl, same_but_P.
  split; [congruence|]. split; [intros x; rewrite <- E2; auto|]. split; [intros x Hx; rewrite <- E3; auto|].
  split; [intros n Hn; rewrite <- E3; auto|intros x; rewrite <- E4; auto].
Qed.

(* ------------------------------------------------------------ accumulator *)
Lemma acc_fun G h ins w :
  (forall s, wf s -> h s = sfr_write s ACC (w (sfr s ACC))) ->
  (forall a, effect (rom G) (isize G) ins a = Some (setA a (w (getA a)))) ->
  core G h ins 0.
Proof.
  intros Hh He s a' W E _. rewrite He in E. apply some_eq in E. subst a'. rewrite Hh by exact W.
  apply post_acc; [exact W|apply Rl_refl|reflexivity|lia].
Qed.
Lemma acc_fun2 G h ins v w :
  (forall s, wf s -> h s = sfr_write s ACC (v (sfr s ACC))) ->
  (forall x, 0 <= x < 256 -> u8 (v x) = w x mod 256) ->
  (forall a, effect (rom G) (isize G) ins a = Some (setA a (w (getA a)))) ->
  core G h ins 0.
Proof.
  intros Hh Hv He s a' W E _. rewrite He in E. apply some_eq in E. subst a'. rewrite Hh by exact W.
  apply post_acc; [exact W|apply Rl_refl|apply Hv, acc_byte; exact W|lia].
Qed.

Lemma i_03 G code : core G (instruction_03 code) Rr 0.
Proof.
  apply (acc_fun2 G _ _ (fun x => if Z.land x 1 =? 0 then Z.shiftr x 1 else Z.lor (Z.shiftr x 1) 0x80)
           (fun a => a / 2 + 128 * (a mod 2))).
  - intros s W. unfold instruction_03, acc_write, acc. destruct (Z.land (sfr s ACC) 1 =? 0); reflexivity.
  - intros x Hx. apply Z.eqb_eq. revert x Hx. apply sweep_byte. vm_compute. reflexivity.
  - reflexivity.
Qed.
Lemma i_23 G code : core G (instruction_23 code) S51Spec.Rl 0.
Proof.
  apply (acc_fun2 G _ _ (fun x => if Z.land x 0x80 =? 0 then Z.shiftl x 1 else Z.lor (Z.shiftl x 1) 1)
           (fun a => 2 * a + a / 128)).
  - intros s W. unfold instruction_23, acc_write, acc. destruct (Z.land (sfr s ACC) 0x80 =? 0); reflexivity.
  - intros x Hx. apply Z.eqb_eq. revert x Hx. apply sweep_byte. vm_compute. reflexivity.
  - reflexivity.
Qed.
Lemma i_c4 G code : core G (instruction_c4 code) Swap 0.
Proof.
  apply (acc_fun2 G _ _ (fun x => Z.lor (Z.shiftl x 4) (Z.land (Z.shiftr x 4) 0x0f))
           (fun a => 16 * a + a / 16)); try reflexivity.
  intros x Hx. apply Z.eqb_eq. revert x Hx. apply sweep_byte. vm_compute. reflexivity.
Qed.
Lemma i_f4 G code : core G (instruction_f4 code) CplA 0.
Proof.
  apply (acc_fun2 G _ _ Z.lnot (fun a => 255 - a)); try reflexivity.
  intros x Hx. apply Z.eqb_eq. revert x Hx. apply sweep_byte. vm_compute. reflexivity.
Qed.
Lemma i_e4 G code : core G (instruction_e4 code) ClrA 0.
Proof. apply (acc_fun G _ _ (fun _ => 0)); reflexivity. Qed.
Lemma i_04 G code : core G (instruction_04 code) (Inc oA) 0.
Proof. apply (acc_fun G _ _ (fun x => x + 1)); reflexivity. Qed.
Lemma i_14 G code : core G (instruction_14 code) (Dec oA) 0.
Proof. apply (acc_fun G _ _ (fun x => x - 1)); reflexivity. Qed.

(** rotate through carry: the flag is stored first *)
Lemma comm_flag_A k b a w : same (setA (setflag k b a) w) (setflag k b (setA a w)).
Proof.
  unfold setA, setflag, with_sfr. repeat split; cbn [a_sfr a_iram a_xram].
  intros x. unfold store. change (rPSW =? rA) with false. cbv iota.
  destruct (x =? rA) eqn:E1, (x =? rPSW) eqn:E2; try reflexivity.
  apply Z.eqb_eq in E1, E2. subst x. discriminate E2.
Qed.
Lemma rot_core G h ins v w fv fw :
  (forall s, wf s -> h s = sfr_write (bits_set s 0xd7 (fv (sfr s ACC))) ACC (v (bits_get s 0xd7) (sfr s ACC))) ->
  (forall x, 0 <= x < 256 -> negb (fv x =? 0) = fw x /\ u8 (v 0 x) = w 0 x mod 256 /\ u8 (v 1 x) = w 1 x mod 256) ->
  (forall a, effect (rom G) (isize G) ins a = Some (setCY (fw (getA a)) (setA a (w (b2z (CY a)) (getA a))))) ->
  core G h ins 0.
Proof.
  intros Hh Hv He s a' W E _. rewrite He in E. apply some_eq in E. subst a'. rewrite Hh by exact W.
  rewrite bits_set_cy, bits_cy_get. destruct (Hv _ (acc_byte s W)) as (E1 & E2 & E3). rewrite E1.
  assert (Ev : u8 (v (b2z (CY (view s))) (sfr s ACC)) = w (b2z (CY (view s))) (getA (view s)) mod 256)
    by (destruct (CY (view s)); [exact E3|exact E2]).
  assert (W1 : wf (set_sfr s PSW (set_bit (sfr s PSW) 7 (fw (sfr s ACC))))) by (apply wf_flag; [exact W|lia..]).
  destruct (post_acc ins _ s _ _ _ 0 W1 (Rl_flag_set s (view s) 7 (fw (sfr s ACC)) W ltac:(lia) (Rl_refl s)) Ev) as (P1 & P2 & P3 & P4).
  { cbn. lia. }
  split; [exact P1|]. split; [|split; [exact P3|exact P4]].
  apply (Rl_same _ _ _ P2). apply comm_flag_A.
Qed.
Lemma i_13 G code : core G (instruction_13 code) Rrc 0.
Proof.
  apply (rot_core G _ _ (fun c x => if c =? 0 then Z.shiftr x 1 else Z.lor (Z.shiftr x 1) 0x80)
    (fun c a => a / 2 + 128 * c) (fun x => Z.land x 1) (fun a => a mod 2 =? 1)); try reflexivity.
  intros x Hx.
  assert (H : (Bool.eqb (negb (Z.land x 1 =? 0)) (x mod 2 =? 1) && (u8 (Z.shiftr x 1) =? (x / 2 + 128 * 0) mod 256)
     && (u8 (Z.lor (Z.shiftr x 1) 128) =? (x / 2 + 128 * 1) mod 256)) = true).
  { revert x Hx. apply (sweep_byte (fun x => (Bool.eqb (negb (Z.land x 1 =? 0)) (x mod 2 =? 1) && (u8 (Z.shiftr x 1) =? (x / 2 + 128 * 0) mod 256)
     && (u8 (Z.lor (Z.shiftr x 1) 128) =? (x / 2 + 128 * 1) mod 256)))). vm_compute. reflexivity. }
  apply andb_prop in H. destruct H as [H H3]. apply andb_prop in H. destruct H as [H1 H2].
  apply eqb_prop in H1. apply Z.eqb_eq in H2, H3. auto.
Qed.
Lemma i_33 G code : core G (instruction_33 code) Rlc 0.
Proof.
  apply (rot_core G _ _ (fun c x => if c =? 0 then u8 (Z.shiftl x 1) else Z.lor (u8 (Z.shiftl x 1)) 1)
    (fun c a => 2 * a + c) (fun x => Z.land x 0x80) (fun a => 128 <=? a)); try reflexivity.
  intros x Hx.
  set (P := fun x => Bool.eqb (negb (Z.land x 0x80 =? 0)) (128 <=? x) && (u8 (u8 (Z.shiftl x 1)) =? (2 * x + 0) mod 256)
     && (u8 (Z.lor (u8 (Z.shiftl x 1)) 1) =? (2 * x + 1) mod 256)).
  assert (H : P x = true) by (revert x Hx; apply sweep_byte; vm_compute; reflexivity). unfold P in H.
  apply andb_prop in H. destruct H as [H H3]. apply andb_prop in H. destruct H as [H1 H2].
  apply eqb_prop in H1. apply Z.eqb_eq in H2, H3. auto.
Qed.

(* ------------------------------------------------------------ DA, MUL, DIV *)
(** end of an instruction that stores PSW, then the accumulator *)
Lemma psw_acc_fin s s1 pw v : wf s1 ->
  let s2 := acc_write (sfr_write s1 PSW pw) v in
  pc s1 = pc s -> iram s1 = iram s -> xram s1 = xram s -> insts s1 = insts s ->
  wf s2 /\ Pk s2 /\ insts s2 = insts s /\ pc s2 = pc s /\ iram s2 = iram s /\ xram s2 = xram s /\
  (forall x, x <> PSW -> sfr s2 x = if x =? ACC then u8 v else sfr s1 x) /\
  (forall n, 0 < n -> Z.testbit (sfr s2 PSW) n = Z.testbit (u8 pw) n).
Proof.
  intros W s2 E1 E2 E3 E4. subst s2. unfold acc_write.
  assert (W1 : wf (sfr_write s1 PSW pw)) by (apply wf_sfr_write; exact W).
  destruct (sfr_write_frame s1 PSW pw) as (F1 & F2 & F3 & F4 & _).
  destruct (sfr_write_frame (sfr_write s1 PSW pw) ACC v) as (G1 & G2 & G3 & G4 & _).
  split; [apply wf_sfr_write; exact W1|]. split; [apply Pk_acc_write; exact W1|].
  split; [congruence|]. split; [congruence|]. split; [congruence|]. split; [congruence|]. split.
  - intros x Hx. rewrite sfr_write_at by exact W1. rewrite (proj2 (Z.eqb_neq x PSW)) by exact Hx. cbn [andb].
    destruct (x =? ACC); [reflexivity|]. rewrite sfr_write_at by exact W.
    rewrite (proj2 (Z.eqb_neq x PSW)) by exact Hx. reflexivity.
  - intros n Hn. rewrite sfr_write_at by exact W1. change (PSW =? ACC) with false. change (PSW =? PSW) with true.
    change (ACC =? ACC) with true. cbn [andb]. rewrite set_bit_spec by lia.
    rewrite (proj2 (Z.eqb_neq n 0)) by lia. rewrite sfr_write_at by exact W. reflexivity.
Qed.

Definition da_code (ac pw : Z) : Z * Z :=
  let '(ac, pw) :=
    if (9 <? Z.land ac 0x0f) || negb (Z.land pw bmAC =? 0) then
      (u8 (ac + 0x06), if 255 <? ac + 0x06 then Z.lor pw bmCY else pw)
    else (ac, pw) in
  if (0x90 <? Z.land ac 0xf0) || negb (Z.land pw bmCY =? 0) then
      (u8 (ac + 0x60), if 255 <? ac + 0x60 then Z.lor pw bmCY else pw)
  else (ac, pw).
Definition da_spec (a pw : Z) : Z * Z :=
  let x := if (9 <? a mod 16) || bit pw 6 then a + 6 else a in
  let c1 := bit pw 7 || (256 <=? x) in
  let x := x mod 256 in
  let y := if (9 <? x / 16) || c1 then x + 96 else x in
  (y mod 256, set_bit pw 7 (c1 || (256 <=? y))).
Lemma da_same a pw : 0 <= a < 256 -> 0 <= pw < 256 -> da_code a pw = da_spec a pw.
Proof.
  intros Ha Hp. set (P := fun a pw => let '(x, y) := da_code a pw in let '(z, w) := da_spec a pw in (x =? z) && (y =? w)).
  assert (H : P a pw = true) by (revert a pw Ha Hp; apply sweep_byte2; vm_compute; reflexivity).
  unfold P in H. destruct (da_code a pw), (da_spec a pw). apply andb_prop in H. destruct H as [H1 H2].
  apply Z.eqb_eq in H1, H2. subst. reflexivity.
Qed.
Lemma i_d4 G code : core G (instruction_d4 code) Da 0.
Proof.
  intros s a' W E _. cbn [effect] in E. apply some_eq in E. subst a'. pose proof W as (_ & _ & H3 & _).
  assert (Ec : instruction_d4 code s =
    acc_write (sfr_write s PSW (snd (da_code (acc s) (sfr s PSW)))) (fst (da_code (acc s) (sfr s PSW)))).
  { unfold instruction_d4, da_code. cbv zeta. destruct ((9 <? _) || _); cbv iota beta;
      match goal with |- context [if ?c then (u8 _, _) else _] => destruct c end; reflexivity. }
  rewrite Ec, da_same by apply H3. unfold da_spec. cbn [fst snd]. unfold bit, acc.
  change (Z.testbit (sfr s PSW) 6) with (AC (view s)). change (Z.testbit (sfr s PSW) 7) with (CY (view s)).
  change (getA (view s)) with (sfr s ACC).
  set (x := if (9 <? sfr s ACC mod 16) || AC (view s) then sfr s ACC + 6 else sfr s ACC).
  set (c1 := CY (view s) || (256 <=? x)).
  set (y := if (9 <? x mod 256 / 16) || c1 then x mod 256 + 96 else x mod 256).
  destruct (psw_acc_fin s s (set_bit (sfr s PSW) 7 (c1 || (256 <=? y))) (y mod 256) W) as (P1 & P2 & P3 & P4 & P5 & P6 & P7 & P8); try reflexivity.
  cbv zeta in P1, P2, P3, P4, P5, P6, P7, P8.
  split; [exact P1|]. split; [|split; [intros _ _; exact P2|lia]].
  unfold Rl, same_but_P, view. cbn [a_pc a_iram a_sfr a_xram]. rewrite P4, P5, P6.
  split; [reflexivity|]. split; [reflexivity|]. split; [|split; [|reflexivity]].
  - intros z Hz. rewrite P7 by exact Hz. cbn [setCY setflag setA with_sfr a_sfr]. rewrite store_other by exact Hz.
    unfold store. change rA with ACC. destruct (z =? ACC); [|reflexivity]. unfold u8. lia.
  - intros n Hn. unfold bit. change rPSW with PSW. rewrite P8 by exact Hn.
    cbn [setCY setflag setA with_sfr a_sfr]. rewrite store_same, store_other by discriminate.
    rewrite u8_id by (apply set_bit_byte; [apply H3|lia]). reflexivity.
Qed.

Lemma i_84 G code : core G (instruction_84 code) Div 3.
Proof.
  intros s a' W E _. cbn [effect] in E. pose proof W as (_ & _ & H3 & _).
  unfold instruction_84. cbv zeta. change (a_sfr (view s) rB) with (sfr s SFR_B) in E.
  change (getA (view s)) with (sfr s ACC) in E. unfold acc.
  pose proof (H3 ACC) as Ha. pose proof (H3 SFR_B) as Hb. pose proof (H3 PSW) as Hp.
  change bmCY with (Z.shiftl 1 7). change bmOV with (Z.shiftl 1 2). rewrite land_clear, lor_set, land_clear.
  assert (B : forall b c, 0 <= set_bit (set_bit (sfr s PSW) 7 b) 2 c < 256)
    by (intros; apply set_bit_byte; [apply set_bit_byte; [exact Hp|]|]; lia).
  destruct (sfr s SFR_B =? 0) eqn:E0; apply some_eq in E; subst a'.
  - destruct (psw_acc_fin s s (set_bit (set_bit (sfr s PSW) 7 false) 2 true) (sfr s ACC) W) as (P1 & P2 & P3 & P4 & P5 & P6 & P7 & P8); try reflexivity.
    cbv zeta in P1, P2, P3, P4, P5, P6, P7, P8.
    split; [apply wf_tick; exact P1|]. split; [|split; [intros _ _; exact P2|cbn [insts tick]; lia]].
    unfold Rl, same_but_P, view. cbn [a_pc a_iram a_sfr a_xram pc iram sfr xram tick]. rewrite P4, P5, P6.
    split; [reflexivity|]. split; [reflexivity|]. split; [|split; [|reflexivity]].
    + intros z Hz. rewrite P7 by exact Hz. cbn [setOV setCY setflag setA with_sfr a_sfr]. rewrite !store_other by exact Hz.
      destruct (z =? ACC) eqn:EA; [|reflexivity]. apply Z.eqb_eq in EA. subst z. apply u8_id. exact Ha.
    + intros n Hn. unfold bit. change rPSW with PSW. rewrite P8 by exact Hn. rewrite u8_id by apply B.
      cbn [setOV setCY setflag setA with_sfr a_sfr]. change rPSW with PSW. rewrite !store_same. reflexivity.
  - apply Z.eqb_neq in E0.
    assert (W1 : wf (sfr_write s SFR_B (sfr s ACC mod sfr s SFR_B))) by (apply wf_sfr_write; exact W).
    destruct (sfr_write_frame s SFR_B (sfr s ACC mod sfr s SFR_B)) as (F1 & F2 & F3 & F4 & _).
    destruct (psw_acc_fin s _ (set_bit (set_bit (sfr s PSW) 7 false) 2 false) (sfr s ACC / sfr s SFR_B) W1 F1 F2 F3 F4)
      as (P1 & P2 & P3 & P4 & P5 & P6 & P7 & P8).
    cbv zeta in P1, P2, P3, P4, P5, P6, P7, P8.
    split; [apply wf_tick; exact P1|]. split; [|split; [intros _ _; exact P2|cbn [insts tick]; lia]].
    assert (Hq : 0 <= sfr s ACC / sfr s SFR_B < 256).
    { split; [apply Z.div_pos; lia|]. apply Z.div_lt_upper_bound; nia. }
    assert (Hr : 0 <= sfr s ACC mod sfr s SFR_B < 256).
    { pose proof (Z.mod_pos_bound (sfr s ACC) (sfr s SFR_B) ltac:(lia)). lia. }
    unfold Rl, same_but_P, view. cbn [a_pc a_iram a_sfr a_xram pc iram sfr xram tick]. rewrite P4, P5, P6.
    split; [reflexivity|]. split; [reflexivity|]. split; [|split; [|reflexivity]].
    + intros z Hz. rewrite P7 by exact Hz. cbn [setOV setCY setflag setA with_sfr a_sfr]. rewrite !store_other by exact Hz.
      rewrite sfr_write_at by exact W. rewrite (proj2 (Z.eqb_neq z PSW)) by exact Hz. cbn [andb].
      unfold store. change rA with ACC. change rB with SFR_B.
      destruct (z =? ACC) eqn:EA, (z =? SFR_B) eqn:EB; try reflexivity.
      * apply Z.eqb_eq in EA, EB. subst z. discriminate EB.
      * apply u8_id. exact Hr.
    + intros n Hn. unfold bit. change rPSW with PSW. rewrite P8 by exact Hn. rewrite u8_id by apply B.
      cbn [setOV setCY setflag setA with_sfr a_sfr]. change rPSW with PSW. rewrite !store_same.
      rewrite !store_other by discriminate. reflexivity.
Qed.

Lemma i_a4 G code : core G (instruction_a4 code) Mul 3.
Proof.
  intros s a' W E _. cbn [effect] in E. apply some_eq in E. subst a'. pose proof W as (_ & _ & H3 & _).
  unfold instruction_a4. cbv zeta. unfold acc. set (p := sfr s ACC * sfr s SFR_B).
  change (getA (view s) * a_sfr (view s) rB) with p.
  assert (Hp : 0 <= p < 65536).
  { pose proof (H3 ACC). pose proof (H3 SFR_B). subst p. nia. }
  rewrite !land_ff. rewrite Z.shiftr_div_pow2 by lia. change (2 ^ 8) with 256.
  assert (Hq : 0 <= p / 256 < 256) by (split; [apply Z.div_pos|apply Z.div_lt_upper_bound]; lia).
  rewrite (Z.mod_small (p / 256)) by exact Hq. rewrite (u8_id (p / 256)) by exact Hq.
  unfold acc_write.
  assert (W1 : wf (sfr_write s ACC (p mod 256))) by (apply wf_sfr_write; exact W).
  assert (P1 : Pk (sfr_write s ACC (p mod 256))) by (apply Pk_acc_write; exact W).
  assert (R1 : Rl (sfr_write s ACC (p mod 256)) (setA (view s) p)).
  { unfold setA. assert (Em : p mod 256 = p mod 256 mod 256) by lia. rewrite Em.
    pose proof (Rl_sfr_write s (view s) ACC (p mod 256) W (Rl_refl s)) as Hr.
    rewrite <- Em. rewrite <- Em in Hr. exact Hr. }
  assert (I1 : insts (sfr_write s ACC (p mod 256)) = insts s) by apply (sfr_write_frame s ACC (p mod 256)).
  set (s1 := sfr_write s ACC (p mod 256)) in *. clearbody s1. set (a := setA (view s) p) in *. clearbody a.
  assert (W2 : wf (sfr_write s1 SFR_B (p / 256))) by (apply wf_sfr_write; exact W1).
  assert (P2 : Pk (sfr_write s1 SFR_B (p / 256))) by (apply Pk_sfr_write; [exact W1|exact P1|discriminate]).
  assert (R2 : Rl (sfr_write s1 SFR_B (p / 256)) (with_sfr a rB (p / 256))).
  { pose proof (Rl_sfr_write s1 a SFR_B (p / 256) W1 R1) as Hr. rewrite (Z.mod_small (p / 256)) in Hr by exact Hq. exact Hr. }
  assert (I2 : insts (sfr_write s1 SFR_B (p / 256)) = insts s1) by apply (sfr_write_frame s1 SFR_B (p / 256)).
  set (s2 := sfr_write s1 SFR_B (p / 256)) in *. clearbody s2.
  rewrite (SFR_SET_BIT_eq s2 (p / 256) 2 bmOV W2 eq_refl ltac:(lia)).
  set (s3 := set_sfr s2 PSW (set_bit (sfr s2 PSW) 2 (negb (p / 256 =? 0)))).
  assert (W3 : wf s3) by (apply wf_flag; [exact W2|lia..]).
  rewrite (SFR_SET_BIT_eq s3 0 7 bmCY W3 eq_refl ltac:(lia)).
  change (negb (0 =? 0)) with false.
  split; [apply wf_tick, wf_flag; [exact W3|lia..]|].
  split; [|split; [intros _ _|cbn [insts tick set_sfr s3]; lia]].
  - apply Rl_tick.
    assert (HR : Rl (set_sfr s3 PSW (set_bit (sfr s3 PSW) 7 false)) (setCY false (setOV (negb (p / 256 =? 0)) (with_sfr a rB (p / 256))))).
    { apply Rl_flag_set; [exact W3|lia|]. apply Rl_flag_set; [exact W2|lia|exact R2]. }
    assert (Eo : negb (p / 256 =? 0) = (255 <? p)).
    { destruct (255 <? p) eqn:E1.
      - apply negb_true_iff, Z.eqb_neq. assert (1 <= p / 256) by (apply Z.div_le_lower_bound; lia). lia.
      - rewrite Z.div_small by lia. reflexivity. }
    rewrite <- Eo. destruct HR as (H1 & H2 & H4 & H5 & H6).
    unfold setOV, setCY, setflag, with_sfr in *. unfold Rl, same_but_P in *. cbn [a_pc a_iram a_sfr a_xram] in *.
    split; [exact H1|]. split; [exact H2|]. split.
    + intros x Hx. rewrite H4 by exact Hx. rewrite !(store_other _ rPSW) by exact Hx. reflexivity.
    + split; [|exact H6]. intros n Hn. rewrite H5 by exact Hn. rewrite !store_same. unfold bit.
      rewrite !set_bit_spec by lia.
      destruct (n =? 7) eqn:E7, (n =? 2) eqn:E2; try reflexivity; lia.
  - apply (Pk_flag s3); [lia|]. apply Pk_flag; [lia|exact P2].
Qed.

(* ------------------------------------------------------------ read-modify-write *)
Lemma rmw G s c o f a' ins cyc : wf s -> corr c (place_of (isize G) (view s) o) ->
  obind (rd (isize G) (view s) o) (fun x => wr (isize G) (view s) o (f x)) = Some a' ->
  (writes_psw ins = false -> is_psw o = false) ->
  post ins s (tick cyc (c_write G s c (f (c_read s c)))) a' cyc.
Proof.
  intros W C E Hp. ob E x Ex. destruct (corr_read s c _ x W C Ex) as [-> _].
  apply (dst_post G s c o); assumption.
Qed.
Lemma rmw0 G s c o f a' ins : wf s -> corr c (place_of (isize G) (view s) o) ->
  obind (rd (isize G) (view s) o) (fun x => wr (isize G) (view s) o (f x)) = Some a' ->
  (writes_psw ins = false -> is_psw o = false) ->
  post ins s (c_write G s c (f (c_read s c))) a' 0.
Proof.
  intros W C E Hp. ob E x Ex. destruct (corr_read s c _ x W C Ex) as [-> _].
  apply (dst_post0 G s c o); assumption.
Qed.

Lemma i_05 G : forall b, core G (fun s => c_write G s (get_direct G b) (c_read s (get_direct G b) + 1)) (Inc (oDir b)) 0.
Proof. intros b s a' W E _. apply (rmw0 G s _ (oDir b) (fun x => x + 1)); [exact W|apply corr_dir|exact E|auto]. Qed.
Lemma i_15 G : forall b, core G (fun s => c_write G s (get_direct G b) (c_read s (get_direct G b) - 1)) (Dec (oDir b)) 0.
Proof. intros b s a' W E _. apply (rmw0 G s _ (oDir b) (fun x => x - 1)); [exact W|apply corr_dir|exact E|auto]. Qed.
Lemma i_06 G code : core G (instruction_06 G code) (Inc (oInd (Z.land code 1))) 0.
Proof. intros s a' W E _. apply (rmw0 G s (at_Ri G s code) (oInd (Z.land code 1)) (fun x => x + 1)); [exact W|apply corr_ind; exact W|exact E|reflexivity]. Qed.
Lemma i_16 G code : core G (instruction_16 G code) (Dec (oInd (Z.land code 1))) 0.
Proof. intros s a' W E _. apply (rmw0 G s (at_Ri G s code) (oInd (Z.land code 1)) (fun x => x - 1)); [exact W|apply corr_ind; exact W|exact E|reflexivity]. Qed.
Lemma i_08 G code : core G (instruction_08 G code) (Inc (oReg (Z.land code 7))) 0.
Proof. intros s a' W E _. apply (rmw0 G s (Rn s code) (oReg (Z.land code 7)) (fun x => x + 1)); [exact W|apply corr_reg; exact W|exact E|reflexivity]. Qed.
Lemma i_18 G code : core G (instruction_18 G code) (Dec (oReg (Z.land code 7))) 0.
Proof. intros s a' W E _. apply (rmw0 G s (Rn s code) (oReg (Z.land code 7)) (fun x => x - 1)); [exact W|apply corr_reg; exact W|exact E|reflexivity]. Qed.

Lemma logic_dir_a G l : forall b,
  core G (fun s => c_write G s (get_direct G b) (logic_fn l (c_read s (get_direct G b)) (acc s))) (Logic l (oDir b) oA) 0.
Proof.
  intros b s a' W E _. apply (rmw0 G s _ (oDir b) (fun x => logic_fn l x (acc s))); [exact W|apply corr_dir|exact E|auto].
Qed.
Lemma logic_dir_imm G l : forall b d, 0 <= b < 256 -> 0 <= d < 256 ->
  core G (fun s => tick 1 (c_write G s (get_direct G b) (logic_fn l (c_read s (get_direct G b)) d))) (Logic l (oDir b) (oImm d)) 1.
Proof.
  intros b d _ _ s a' W E _. apply (rmw G s _ (oDir b) (fun x => logic_fn l x d)); [exact W|apply corr_dir|exact E|auto].
Qed.

(* ------------------------------------------------------------ DPTR *)
Lemma wf_sfr_put s a v : wf s -> a <> PSW -> wf (sfr_put s a v).
Proof. intros W N. apply wf_set_sfr; [exact W|apply u8_range|congruence]. Qed.

Lemma dptr_put s h l : wf s -> let s' := dptr_write (dptr_write s 1 h) 0 l in
  wf s' /\ Rl s' (with_sfr (with_sfr (view s) rDPH (h mod 256)) rDPL (l mod 256)) /\
  (Pk s -> Pk s') /\ insts s' = insts s.
Proof.
  intros W. cbv zeta. unfold dptr_write. change (DPL + 1) with DPH. change (DPL + 0) with DPL.
  split; [apply wf_sfr_put; [apply wf_sfr_put; [exact W|discriminate]|discriminate]|].
  split; [apply Rl_sfr_put, Rl_sfr_put, Rl_refl|]. split; [|reflexivity].
  intros HP. apply Pk_set_sfr; [discriminate|discriminate|]. apply Pk_set_sfr; [discriminate|discriminate|exact HP].
Qed.
Lemma i_a3 G code : core G (instruction_a3 code) IncDptr 1.
Proof.
  intros s a' W E _. cbn [effect] in E. apply some_eq in E. subst a'.
  unfold instruction_a3. cbv zeta. set (dp := sfr s DPH * 256 + sfr s DPL + 1).
  destruct (dptr_put s (Z.land (Z.shiftr dp 8) 255) (Z.land dp 255) W) as (H1 & H2 & H3 & H4).
  cbv zeta in H1, H2, H3, H4.
  split; [apply wf_tick; exact H1|]. split; [|split; [intros HP _; apply H3; exact HP|cbn [insts tick]; lia]].
  apply Rl_tick. unfold setDPTR.
  assert (Ed : DPTR (view s) + 1 = dp).
  { unfold DPTR. change (a_sfr (view s) rDPH) with (sfr s DPH). change (a_sfr (view s) rDPL) with (sfr s DPL). unfold dp. lia. }
  rewrite Ed. rewrite !land_ff, Z.shiftr_div_pow2 in * by lia. rewrite !Z.mod_mod in H2 by lia. exact H2.
Qed.
Lemma i_90 G : forall h l, 0 <= h < 256 -> 0 <= l < 256 ->
  core G (fun s => tick 1 (dptr_write (dptr_write s 1 h) 0 l)) (MovDptr (256 * h + l)) 1.
Proof.
  intros h l Hh Hl s a' W E _. cbn [effect] in E. apply some_eq in E. subst a'.
  destruct (dptr_put s h l W) as (H1 & H2 & H3 & H4). cbv zeta in H1, H2, H3, H4.
  split; [apply wf_tick; exact H1|]. split; [|split; [intros HP _; apply H3; exact HP|cbn [insts tick]; lia]].
  apply Rl_tick. unfold setDPTR.
  assert (E1 : ((256 * h + l) / 256) mod 256 = h mod 256) by lia.
  assert (E2 : (256 * h + l) mod 256 = l mod 256) by lia.
  rewrite E1, E2. exact H2.
Qed.

(* ------------------------------------------------------------ bits *)
Lemma bit_addr b : 0 <= b < 256 -> Z.land b 0xf8 = 8 * (b / 8).
Proof. intros H. apply Z.eqb_eq. revert b H. apply (sweep_byte (fun b => Z.land b 0xf8 =? 8 * (b / 8))). vm_compute. reflexivity. Qed.

Lemma bits_get_rd s b : 0 <= b < 256 -> bits_get s b = b2z (rd_bit (view s) b).
Proof.
  intros Hb. unfold bits_get, rd_bit, bit_byte, bit_place. rewrite bit_addr by exact Hb.
  destruct (b <? 128); cbn [rd_place view a_iram a_sfr]; reflexivity.
Qed.
Lemma bits_read_rd s b : 0 <= b < 256 -> bits_read s b = b2z (rd_bit (view s) b).
Proof.
  intros Hb. unfold bits_read. destruct (b <? 128) eqn:E; [apply bits_get_rd; exact Hb|].
  unfold rd_bit, bit_place. rewrite E. cbn [rd_place view a_sfr]. rewrite bit_addr by exact Hb.
  assert (Em : Z.land b 7 = b mod 8) by (change 7 with (Z.ones 3); rewrite Z.land_ones by lia; reflexivity).
  rewrite Em, Z.shiftl_1_l. rewrite (mask_test _ (b mod 8) _ ltac:(lia) eq_refl).
  unfold bit. destruct (Z.testbit _ _); reflexivity.
Qed.

Lemma c_or_b x y : c_or (b2z x) (b2z y) = b2z (x || y).
Proof. destruct x, y; reflexivity. Qed.
Lemma c_and_b x y : c_and (b2z x) (b2z y) = b2z (x && y).
Proof. destruct x, y; reflexivity. Qed.
Lemma c_not_b x : c_not (b2z x) = b2z (negb x).
Proof. destruct x; reflexivity. Qed.
Lemma b2z_nz x : negb (b2z x =? 0) = x.
Proof. destruct x; reflexivity. Qed.

(** the carry gets a value *)
Lemma post_cy s v (b : bool) ins cyc : wf s -> v = b2z b ->
  post ins s (tick cyc (bits_set s 0xd7 v)) (setCY b (view s)) cyc.
Proof.
  intros W ->. rewrite bits_set_cy, b2z_nz.
  split; [apply wf_tick, wf_flag; [exact W|lia..]|].
  split; [apply Rl_tick, Rl_flag_set; [exact W|lia|apply Rl_refl]|].
  split; [intros HP _; apply (Pk_flag s); [lia|exact HP]|reflexivity].
Qed.
Lemma post_cy0 s v (b : bool) ins : wf s -> v = b2z b ->
  post ins s (bits_set s 0xd7 v) (setCY b (view s)) 0.
Proof.
  intros W E. destruct (post_cy s v b ins 0 W E) as (H1 & H2 & H3 & H4).
  split; [exact H1|]. split; [exact H2|]. split; [exact H3|]. cbn [insts tick] in H4. lia.
Qed.

Ltac bitcore := let s := fresh "s" in let a := fresh "a'" in let W := fresh "W" in let E := fresh "E" in
  intros s a W E _; cbn [effect] in E; apply some_eq in E; subst a.

Lemma i_72 G b : 0 <= b < 256 -> core G (fun s => tick 1 (bits_set s 0xd7 (c_or (bits_get s 0xd7) (bits_read s b)))) (OrlC b false) 1.
Proof. intros Hb. bitcore. apply post_cy; [exact W|]. rewrite bits_cy_get, bits_read_rd, c_or_b by exact Hb. destruct (rd_bit _ b); reflexivity. Qed.
Lemma i_a0 G b : 0 <= b < 256 -> core G (fun s => tick 1 (bits_set s 0xd7 (c_or (bits_get s 0xd7) (c_not (bits_read s b))))) (OrlC b true) 1.
Proof. intros Hb. bitcore. apply post_cy; [exact W|]. rewrite bits_cy_get, bits_read_rd, c_not_b, c_or_b by exact Hb. destruct (rd_bit _ b); reflexivity. Qed.
Lemma i_82 G b : 0 <= b < 256 -> core G (fun s => tick 1 (bits_set s 0xd7 (c_and (bits_get s 0xd7) (bits_read s b)))) (AnlC b false) 1.
Proof. intros Hb. bitcore. apply post_cy; [exact W|]. rewrite bits_cy_get, bits_read_rd, c_and_b by exact Hb. destruct (rd_bit _ b); reflexivity. Qed.
Lemma i_b0 G b : 0 <= b < 256 -> core G (fun s => tick 1 (bits_set s 0xd7 (c_and (bits_get s 0xd7) (c_not (bits_read s b))))) (AnlC b true) 1.
Proof. intros Hb. bitcore. apply post_cy; [exact W|]. rewrite bits_cy_get, bits_read_rd, c_not_b, c_and_b by exact Hb. destruct (rd_bit _ b); reflexivity. Qed.
Lemma i_a2 G b : 0 <= b < 256 -> core G (fun s => bits_set s 0xd7 (bits_read s b)) (MovCB b) 0.
Proof. intros Hb. bitcore. apply post_cy0; [exact W|]. apply bits_read_rd. exact Hb. Qed.

(** an addressed bit gets a value *)
Lemma bit_write_ok s b v (x : bool) : wf s -> 0 <= b < 256 -> v = b2z x ->
  wf (bits_write s b v) /\ Rl (bits_write s b v) (wr_bit (view s) b x) /\
  (Pk s -> b <> 0xd0 -> Pk (bits_write s b v)) /\ insts (bits_write s b v) = insts s /\ pc (bits_write s b v) = pc s.
Proof.
  intros W Hb ->. destruct (Z_lt_le_dec b 128) as [L|L].
  - unfold bits_write, wr_bit, bit_place. rewrite (proj2 (Z.ltb_lt b 128)) by exact L.
    rewrite bits_set_eq by exact Hb. rewrite (proj2 (Z.ltb_lt b 128)) by exact L. rewrite b2z_nz.
    pose proof W as (_ & H2 & _).
    split; [apply wf_set_iram; [exact W|apply set_bit_byte; [apply H2|lia]]|].
    split; [apply Rl_set_iram; [apply Rl_refl|reflexivity]|]. split; [intros HP _; exact HP|split; reflexivity].
  - destruct (bits_write_high s b (b2z x) W ltac:(lia)) as (H1 & H2 & H3 & H4 & H5).
    split; [exact H1|]. split; [|auto].
    specialize (H2 (view s) (Rl_refl s) (fun _ _ => eq_refl) eq_refl). rewrite b2z_nz in H2.
    unfold wr_bit, bit_place. rewrite (proj2 (Z.ltb_ge b 128)) by exact L. exact H2.
Qed.
Lemma post_bit s b v (x : bool) ins cyc : wf s -> 0 <= b < 256 -> v = b2z x ->
  writes_psw ins = (b =? 0xD0) ->
  post ins s (tick cyc (bits_write s b v)) (wr_bit (view s) b x) cyc.
Proof.
  intros W Hb E Hw. destruct (bit_write_ok s b v x W Hb E) as (H1 & H2 & H3 & H4 & _).
  split; [apply wf_tick; exact H1|]. split; [exact H2|]. split; [|cbn [insts tick]; lia].
  intros HP HF. apply H3; [exact HP|]. rewrite Hw in HF. lia.
Qed.
Lemma post_bit0 s b v (x : bool) ins : wf s -> 0 <= b < 256 -> v = b2z x ->
  writes_psw ins = (b =? 0xD0) ->
  post ins s (bits_write s b v) (wr_bit (view s) b x) 0.
Proof.
  intros W Hb E Hw. destruct (post_bit s b v x ins 0 W Hb E Hw) as (H1 & H2 & H3 & H4).
  split; [exact H1|]. split; [exact H2|]. split; [exact H3|]. cbn [insts tick] in H4. lia.
Qed.

Lemma i_92 G b : 0 <= b < 256 -> core G (fun s => tick 1 (bits_write s b (bits_get s 0xd7))) (MovBC b) 1.
Proof. intros Hb. bitcore. apply post_bit; [exact W|exact Hb|apply bits_cy_get|reflexivity]. Qed.
Lemma i_b2 G b : 0 <= b < 256 -> core G (fun s => bits_write s b (c_not (bits_get s b))) (CplB b) 0.
Proof. intros Hb. bitcore. apply post_bit0; [exact W|exact Hb| |reflexivity]. rewrite bits_get_rd, c_not_b by exact Hb. reflexivity. Qed.
Lemma i_b3 G code : core G (instruction_b3 code) (CplB 0xd7) 0.
Proof. bitcore. apply post_bit0; [exact W|lia| |reflexivity]. rewrite bits_read_rd, c_not_b by lia. reflexivity. Qed.
Lemma i_c2 G b : 0 <= b < 256 -> core G (fun s => bits_write s b 0) (ClrB b) 0.
Proof. intros Hb. bitcore. apply post_bit0; [exact W|exact Hb|reflexivity|reflexivity]. Qed.
Lemma i_c3 G code : core G (instruction_c3 code) (ClrB 0xd7) 0.
Proof. bitcore. apply post_bit0; [exact W|lia|reflexivity|reflexivity]. Qed.
Lemma i_d2 G b : 0 <= b < 256 -> core G (fun s => bits_write s b 1) (SetbB b) 0.
Proof. intros Hb. bitcore. apply post_bit0; [exact W|exact Hb|reflexivity|reflexivity]. Qed.
Lemma i_d3 G code : core G (instruction_d3 code) (SetbB 0xd7) 0.
Proof. bitcore. apply post_bit0; [exact W|lia|reflexivity|reflexivity]. Qed.
Lemma i_00 G code : core G (instruction_00 code) Nop 0.
Proof.
  bitcore. split; [exact W|]. split; [apply Rl_refl|]. split; [auto|unfold instruction_00; lia].
Qed.
