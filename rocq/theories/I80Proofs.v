(** 8080/8085: flags, registers, and the instructions against the manual. *)
From Verif Require Import Base I80Model I80Spec.

(** ** Bytes and bits *)
Lemma range_case n (P : Z -> Prop) : (forall k, (k < n)%nat -> P (Z.of_nat k)) -> forall z, 0 <= z < Z.of_nat n -> P z.
Proof. intros H z Hz. rewrite <- (Z2Nat.id z) by lia. apply H. lia. Qed.
Lemma sweep n (f : Z -> bool) : forallb (fun k => f (Z.of_nat k)) (seq 0 n) = true ->
  forall z, 0 <= z < Z.of_nat n -> f z = true.
Proof.
  intros H z Hz. rewrite forallb_forall in H. specialize (H (Z.to_nat z)).
  rewrite Z2Nat.id in H by lia. apply H. apply in_seq. lia.
Qed.
Lemma u8_id v : 0 <= v < 256 -> u8 v = v.
Proof. intros. unfold u8. apply Z.mod_small. lia. Qed.
Lemma u16_id v : 0 <= v < 65536 -> u16 v = v.
Proof. intros. unfold u16. apply Z.mod_small. lia. Qed.
Lemma u8_range v : 0 <= u8 v < 256.
Proof. unfold u8. apply Z.mod_pos_bound. lia. Qed.
Lemma u16_range v : 0 <= u16 v < 65536.
Proof. unfold u16. apply Z.mod_pos_bound. lia. Qed.
Lemma bit7 r : 0 <= r < 256 -> Z.testbit r 7 = (128 <=? r).
Proof.
  intros H. assert (S := sweep 256 (fun r => Bool.eqb (Z.testbit r 7) (128 <=? r)) ltac:(vm_compute; reflexivity) r ltac:(lia)).
  cbv beta in S. apply Bool.eqb_prop in S. exact S.
Qed.
Lemma bit0 r : Z.testbit r 0 = Z.odd r.
Proof. apply Z.bit0_odd. Qed.
Lemma bit_fl c m k : Z.testbit (fl c m) k = c && Z.testbit m k.
Proof. destruct c; [reflexivity|]. cbn [fl]. apply Z.bits_0. Qed.
Lemma bit_clr f m k : Z.testbit (clr f m) k = Z.testbit f k && Z.testbit (255 - m) k.
Proof. apply Z.land_spec. Qed.
(** the documented flags *)
Definition docbit (k : Z) : Prop := k = 0 \/ k = 2 \/ k = 4 \/ k = 6 \/ k = 7.
Lemma u8_bit v k : 0 <= k < 8 -> Z.testbit (u8 v) k = Z.testbit v k.
Proof. intros H. unfold u8. change 256 with (2 ^ 8). apply Z.mod_pow2_bits_low. lia. Qed.
Lemma wF_bit m85 v s k : docbit k -> Z.testbit (F (wF m85 v s)) k = Z.testbit v k.
Proof.
  intros H. assert (0 <= k < 8) by (unfold docbit in H; lia). cbn [wF F set_F]. destruct m85.
  - rewrite Z.land_spec, u8_bit by lia. destruct H as [-> | [-> | [-> | [-> | ->]]]]; apply andb_true_r.
  - rewrite Z.lor_spec, Z.land_spec, u8_bit by lia.
    destruct H as [-> | [-> | [-> | [-> | ->]]]];
      match goal with |- _ && ?a || ?b = _ => change a with true; change b with false end;
      rewrite andb_true_r, orb_false_r; reflexivity.
Qed.
Lemma ptab_ok : forall r, 0 <= r < 256 ->
  (nth (Z.to_nat r) ptab 0 = if even_parity r then 1 else 0).
Proof.
  intros r H. assert (S := sweep 256 (fun r => nth (Z.to_nat r) ptab 0 =? (if even_parity r then 1 else 0)) ltac:(vm_compute; reflexivity) r ltac:(lia)).
  cbv beta in S. lia.
Qed.
Lemma par_fl r : 0 <= r < 256 -> par r = fl (even_parity r) 4.
Proof. intros H. unfold par. rewrite ptab_ok by exact H. destruct (even_parity r); reflexivity. Qed.
Lemma szp_bits f r : 0 <= r < 256 ->
  Z.testbit (szp f r) 0 = Z.testbit f 0 /\
  Z.testbit (szp f r) 2 = Z.testbit f 2 || even_parity r /\
  Z.testbit (szp f r) 4 = Z.testbit f 4 /\
  Z.testbit (szp f r) 6 = Z.testbit f 6 || (r =? 0) /\
  Z.testbit (szp f r) 7 = Z.testbit f 7 || (128 <=? r).
Proof.
  intros H. unfold szp, x5. rewrite par_fl by exact H. rewrite !Z.lor_spec, !bit_fl, (bit7 r H).
  repeat match goal with |- context [Z.testbit ?a ?b] =>
     match a with Zpos _ => match b with Zpos _ => idtac | 0 => idtac end;
       let v := eval vm_compute in (Z.testbit a b) in change (Z.testbit a b) with v end end.
  rewrite ?andb_false_r, ?andb_true_r, ?orb_false_r. tauto.
Qed.
Lemma flag_bits m85 f r s : 0 <= r < 256 ->
  Z.testbit (F (wF m85 (szp f r) s)) 0 = Z.testbit f 0 /\
  Z.testbit (F (wF m85 (szp f r) s)) 2 = Z.testbit f 2 || even_parity r /\
  Z.testbit (F (wF m85 (szp f r) s)) 4 = Z.testbit f 4 /\
  Z.testbit (F (wF m85 (szp f r) s)) 6 = Z.testbit f 6 || (r =? 0) /\
  Z.testbit (F (wF m85 (szp f r) s)) 7 = Z.testbit f 7 || (128 <=? r).
Proof.
  intros H. rewrite !wF_bit by (unfold docbit; lia). apply szp_bits. exact H.
Qed.
(** bits of constants *)
Ltac cbits :=
  repeat match goal with |- context [Z.testbit ?a ?b] =>
     match a with Zpos _ => idtac | 255 - Zpos _ => idtac | 0 => idtac end;
     match b with Zpos _ => idtac | 0 => idtac end;
     let v := eval vm_compute in (Z.testbit a b) in change (Z.testbit a b) with v end.
Ltac bits := rewrite ?Z.lor_spec, ?bit_clr, ?bit_fl; unfold addv; rewrite ?bit_fl; cbits;
  rewrite ?andb_false_r, ?andb_true_r, ?orb_false_r, ?orb_true_r; cbn [orb andb].

(** ** The same state *)
Lemma same_refl x : same x x.
Proof. repeat split; intros; reflexivity. Qed.
Lemma same_trans x y z : same x y -> same y z -> same x z.
Proof.
  intros [H1 [H2 [H3 [H4 [H5 [H6 [H7 [H8 H9]]]]]]]] [K1 [K2 [K3 [K4 [K5 [K6 [K7 [K8 K9]]]]]]]].
  unfold same. refine (conj _ (conj _ (conj _ (conj _ (conj _ (conj _ (conj _ (conj _ _)))))))); try congruence.
  intros n Hn Hn6. rewrite H1, K1 by assumption. reflexivity.
Qed.
(** what is not a register, a flag, SP, PC or memory does not count *)
Lemma abs_set_ticks v s : abs (set_ticks v s) = abs s. Proof. reflexivity. Qed.
Lemma abs_set_tsh v s : abs (set_tsh v s) = abs s. Proof. reflexivity. Qed.
Lemma abs_set_errs v s : abs (set_errs v s) = abs s. Proof. reflexivity. Qed.

Lemma HL_range s : wf s -> 0 <= HL s < 65536.
Proof. intros W. unfold wf in W. unfold HL. lia. Qed.
Lemma DE_range s : wf s -> 0 <= DE s < 65536.
Proof. intros W. unfold wf in W. unfold DE. lia. Qed.
Lemma BC_range s : wf s -> 0 <= BC s < 65536.
Proof. intros W. unfold wf in W. unfold BC. lia. Qed.
Lemma inmem_true a : 0 <= a < 65536 -> inmem a = true.
Proof. intros. unfold inmem. lia. Qed.
Lemma mod65536 a : 0 <= a mod 65536 < 65536.
Proof. apply Z.mod_pos_bound. lia. Qed.

(** the numbers of registers, pairs, conditions, operations in the codes *)
Definition num (r : reg) : Z :=
  match r with rB => 0 | rC => 1 | rD => 2 | rE => 3 | rH => 4 | rL => 5 | rM => 6 | rA => 7 end.
Definition pnum (p : pair) : Z := match p with pB => 0 | pD => 1 | pH => 2 | pS => 3 | pPSW => 4 end.
Definition cnum (c : cond) : Z :=
  match c with cNZ => 0 | cZ => 1 | cNC => 2 | cC => 3 | cPO => 4 | cPE => 5 | cP => 6 | cM => 7 end.
Definition knum (k : alu) : Z :=
  match k with kADD => 0 | kADC => 1 | kSUB => 2 | kSBB => 3 | kCMP => 7 | kANA => 4 | kORA => 6 | kXRA => 5 end.
Lemma get_src dum r s : wf s -> get dum r s = src (num r) (abs s).
Proof.
  intros W. destruct r; try reflexivity. cbn [get]. unfold rd. rewrite inmem_true by (apply HL_range, W). reflexivity.
Qed.
Lemma get_range dum r s : wf s -> 0 <= get dum r s < 256.
Proof.
  intros W. pose proof (HL_range s W) as W'. unfold wf in W.
  destruct r; cbn [get]; try lia. unfold rd. rewrite inmem_true by exact W'. apply W.
Qed.
Lemma get2_pairv p s : p <> pPSW -> get2 p s = pairv (pnum p) (abs s).
Proof. destruct p; try reflexivity. congruence. Qed.
Lemma get2_range p s : wf s -> 0 <= get2 p s < 65536.
Proof. intros W. unfold wf in W. destruct p; cbn [get2]; unfold BC, DE, HL, AF; lia. Qed.
Lemma holds_cond c s : holds c s = true_cond (cnum c) (abs s).
Proof. destruct c; reflexivity. Qed.

Ltac regs := intros ?n ?Hn ?Hn6;
  match goal with n : Z, H : 0 <= ?n <= 7, H6 : ?n <> 6 |- _ =>
    let D := fresh in assert (D : n = 0 \/ n = 1 \/ n = 2 \/ n = 3 \/ n = 4 \/ n = 5 \/ n = 7) by lia;
    clear H H6; destruct D as [-> | [-> | [-> | [-> | [-> | [-> | ->]]]]]] end.
(** all parts of the state *)
Ltac parts := unfold same;
  refine (conj _ (conj _ (conj _ (conj _ (conj _ (conj _ (conj _ (conj _ _))))))));
  [regs| | | | | | | |intros ?a].

(** ** Writing registers and memory *)
Lemma put_dst r v s : wf s -> 0 <= v < 256 -> same (abs (put r v s)) (dst (num r) v (abs s)).
Proof.
  intros W Hv. destruct r; cbn [put]; rewrite ?u8_id by exact Hv; try (parts; reflexivity).
  unfold wr. rewrite inmem_true by (apply HL_range, W). rewrite u8_id by exact Hv. parts; reflexivity.
Qed.
Lemma put2_setpair p v s : p <> pPSW -> 0 <= v < 65536 -> same (abs (put2 p v s)) (setpair (pnum p) v (abs s)).
Proof.
  intros Hp Hv. assert (Hd : u8 (v / 256) = v / 256) by (apply u8_id; split; [apply Z.div_pos|apply Z.div_lt_upper_bound]; lia).
  destruct p; try congruence; cbn [put2]; unfold wBC, wDE, wHL, wSP; rewrite ?Hd, ?u16_id by exact Hv; parts; reflexivity.
Qed.
Lemma wr_setm a v s : 0 <= a < 65536 -> 0 <= v < 256 -> same (abs (wr a v s)) (setm a v (abs s)).
Proof. intros Ha Hv. unfold wr. rewrite inmem_true by exact Ha. rewrite u8_id by exact Hv. parts; reflexivity. Qed.
