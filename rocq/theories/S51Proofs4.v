(** The instruction functions of jmp.cc and mov.cc. *)
From Verif Require Import Base S51Model S51Spec S51Obs S51Proofs S51Proofs2 S51Proofs3.

(* ------------------------------------------------------------ jumps *)
(** a conditional relative jump: one cycle, then maybe the jump *)
Lemma cond_core G (h : st -> st) (ins : instr) (j : Z) (c : st -> bool) (c' : arch -> bool) :
  0 <= j < 256 ->
  (forall s, wf s -> h s = if c s then rel (tick 1 s) j else tick 1 s) ->
  (forall s, wf s -> c s = c' (view s)) ->
  (forall a, effect (rom G) (isize G) ins a = Some (branch (c' a) j a)) ->
  (forall a, differs ins a = (a_pc a + signed j =? 65536)) ->
  core G h ins 1.
Proof.
  intros Hj Hh Hc He Hd s a' W E D. rewrite He in E. apply some_eq in E. subst a'.
  rewrite Hd in D. apply Z.eqb_neq in D. rewrite Hh by exact W.
  destruct (core_rel (tick 1 s) (view s) j (c s) (c' (view s)) ins (wf_tick s 1 W) Hj (Hc s W) (Rl_refl s) D)
    as (H1 & H2 & H3 & H4). cbv zeta in H1, H2, H3, H4.
  split; [exact H1|]. split; [exact H2|]. split; [exact H3|exact H4].
Qed.

Lemma bits_read_b s b : 0 <= b < 256 -> (bits_read s b =? 0) = negb (rd_bit (view s) b).
Proof. intros H. rewrite bits_read_rd by exact H. destruct (rd_bit _ b); reflexivity. Qed.
Lemma bits_get_b s b : 0 <= b < 256 -> (bits_get s b =? 0) = negb (rd_bit (view s) b).
Proof. intros H. rewrite bits_get_rd by exact H. destruct (rd_bit _ b); reflexivity. Qed.
Lemma cy_b s : (bits_get s 0xd7 =? 0) = negb (CY (view s)).
Proof. rewrite bits_cy_get. destruct (CY (view s)); reflexivity. Qed.

Lemma i_20 G b j : 0 <= b < 256 -> 0 <= j < 256 ->
  core G (fun s => if bits_read (tick 1 s) b =? 0 then tick 1 s else rel (tick 1 s) j) (Jb b j) 1.
Proof.
  intros Hb Hj. apply (cond_core G _ _ j (fun s => rd_bit (view s) b) (fun a => rd_bit a b)); auto; try reflexivity.
  intros s W. rewrite bits_read_b by exact Hb. change (view (tick 1 s)) with (view s). destruct (rd_bit _ b); reflexivity.
Qed.
Lemma i_30 G b j : 0 <= b < 256 -> 0 <= j < 256 ->
  core G (fun s => if bits_read (tick 1 s) b =? 0 then rel (tick 1 s) j else tick 1 s) (Jnb b j) 1.
Proof.
  intros Hb Hj. apply (cond_core G _ _ j (fun s => negb (rd_bit (view s) b)) (fun a => negb (rd_bit a b))); auto; try reflexivity.
  intros s W. rewrite bits_read_b by exact Hb. reflexivity.
Qed.
Lemma i_40 G j : 0 <= j < 256 -> core G (fun s => if bits_get (tick 1 s) 0xd7 =? 0 then tick 1 s else rel (tick 1 s) j) (Jc j) 1.
Proof.
  intros Hj. apply (cond_core G _ _ j (fun s => CY (view s)) CY); auto; try reflexivity.
  intros s W. rewrite cy_b. change (view (tick 1 s)) with (view s). destruct (CY (view s)); reflexivity.
Qed.
Lemma i_50 G j : 0 <= j < 256 -> core G (fun s => if bits_get (tick 1 s) 0xd7 =? 0 then rel (tick 1 s) j else tick 1 s) (Jnc j) 1.
Proof.
  intros Hj. apply (cond_core G _ _ j (fun s => negb (CY (view s))) (fun a => negb (CY a))); auto; try reflexivity.
  intros s W. rewrite cy_b. reflexivity.
Qed.
Lemma i_60 G j : 0 <= j < 256 -> core G (fun s => if acc (tick 1 s) =? 0 then rel (tick 1 s) j else tick 1 s) (Jz j) 1.
Proof. intros Hj. apply (cond_core G _ _ j (fun s => acc s =? 0) (fun a => getA a =? 0)); auto; reflexivity. Qed.
Lemma i_70 G j : 0 <= j < 256 -> core G (fun s => if acc (tick 1 s) =? 0 then tick 1 s else rel (tick 1 s) j) (Jnz j) 1.
Proof.
  intros Hj. apply (cond_core G _ _ j (fun s => negb (acc s =? 0)) (fun a => negb (getA a =? 0))); auto; try reflexivity.
  intros s W. change (acc (tick 1 s)) with (acc s). destruct (acc s =? 0); reflexivity.
Qed.
Lemma i_80 G j : 0 <= j < 256 -> core G (fun s => tick 1 (rel s j)) (Sjmp j) 1.
Proof. intros Hj. apply (cond_core G _ _ j (fun s => true) (fun a => true)); auto; reflexivity. Qed.

Lemma i_10 G b j : 0 <= b < 256 -> 0 <= j < 256 ->
  core G (fun s => tick 1 (if bits_get s b =? 0 then s else rel (bits_write s b 0) j)) (Jbc b j) 1.
Proof.
  intros Hb Hj s a' W E D. cbn [effect] in E. apply some_eq in E. subst a'.
  cbn [differs jump_sum view a_pc] in D. apply Z.eqb_neq in D. rewrite bits_get_b by exact Hb.
  destruct (rd_bit (view s) b); cbn [negb].
  - destruct (bit_write_ok s b 0 false W Hb eq_refl) as (H1 & H2 & H3 & H4 & H5).
    destruct (core_rel (bits_write s b 0) _ j true true (Jbc b j) H1 Hj eq_refl H2) as (K1 & K2 & K3 & K4).
    { rewrite H5. exact D. }
    cbv zeta in K1, K2, K3, K4.
    split; [apply wf_tick; exact K1|]. split; [exact K2|]. split; [|cbn [insts tick rel set_pc]; lia].
    intros HP HF. apply K3; [|exact HF]. apply H3; [exact HP|]. cbn [writes_psw] in HF. lia.
  - split; [apply wf_tick; exact W|]. split; [exact (Rl_refl s)|]. split; [auto|reflexivity].
Qed.

Lemma i_73 G code : core G (instruction_73 code) JmpAdptr 1.
Proof.
  intros s a' W E D. cbn [effect] in E. apply some_eq in E. subst a'. pose proof W as (_ & _ & H3 & _).
  cbn [differs jump_sum] in D. apply Z.eqb_neq in D. unfold instruction_73.
  assert (Ed : sfr s DPH * 256 + sfr s DPL + acc s = DPTR (view s) + getA (view s)).
  { unfold DPTR, getA, acc. change (a_sfr (view s) rDPH) with (sfr s DPH). change (a_sfr (view s) rDPL) with (sfr s DPL).
    change (a_sfr (view s) rA) with (sfr s ACC). lia. }
  rewrite Ed. set (t := DPTR (view s) + getA (view s)) in *.
  assert (Ht : 0 <= t < 65536 + 256).
  { rewrite <- Ed. unfold acc. pose proof (H3 DPH). pose proof (H3 DPL). pose proof (H3 ACC). lia. }
  assert (Ev : validate_address t = t mod 65536).
  { unfold validate_address. clearbody t. destruct (0x10000 <? t) eqn:E1; [reflexivity|]. apply Z.ltb_ge in E1.
    symmetry. apply Z.mod_small. lia. }
  rewrite Ev.
  split; [apply wf_tick, wf_set_pc; [exact W|apply Z.mod_pos_bound; lia]|].
  split; [apply Rl_tick, Rl_set_pc; [apply Rl_refl|reflexivity]|]. split; [auto|reflexivity].
Qed.

(** CJNE *)
Lemma cjne_ok G s x y u v j ins : wf s -> 0 <= j < 256 ->
  ins = Cjne x y j -> rd (isize G) (view s) x = Some u -> rd (isize G) (view s) y = Some v ->
  forall a', effect (rom G) (isize G) ins (view s) = Some a' -> differs ins (view s) = false ->
  post ins s (cjne (tick 1 s) u v j) a' 1.
Proof.
  intros W Hj -> Eu Ev a' E D. cbn [effect] in E. rewrite Eu, Ev in E. cbn [obind] in E. apply some_eq in E. subst a'.
  cbn [differs jump_sum view a_pc] in D. apply Z.eqb_neq in D.
  unfold cjne. cbv zeta. rewrite bits_set_cy.
  assert (Eb : negb ((if u <? v then 1 else 0) =? 0) = (u <? v)) by (destruct (u <? v); reflexivity). rewrite Eb.
  set (s1 := set_sfr (tick 1 s) PSW (set_bit (sfr (tick 1 s) PSW) 7 (u <? v))).
  assert (W1 : wf s1) by (apply wf_flag; [apply wf_tick; exact W|lia..]).
  assert (R1 : Rl s1 (setCY (u <? v) (view s))) by (apply Rl_flag_set; [apply wf_tick; exact W|lia|exact (Rl_refl s)]).
  destruct (core_rel s1 _ j (negb (u =? v)) (negb (u =? v)) (Cjne x y j) W1 Hj eq_refl R1 D) as (H1 & H2 & H3 & H4).
  cbv zeta in H1, H2, H3, H4.
  assert (Eh : (if u =? v then s1 else rel s1 j) = if negb (u =? v) then rel s1 j else s1) by (destruct (u =? v); reflexivity).
  rewrite Eh. split; [exact H1|]. split; [exact H2|]. split; [|exact H4].
  intros HP HF. apply H3; [|exact HF]. apply (Pk_flag (tick 1 s)); [lia|exact HP].
Qed.
Lemma i_b4 G d j : 0 <= d < 256 -> 0 <= j < 256 ->
  core G (fun s => cjne (tick 1 s) (acc s) d j) (Cjne oA (oImm d) j) 1.
Proof. intros Hd Hj s a' W E D. apply (cjne_ok G s oA (oImm d)); auto. Qed.
Lemma i_b5 G d j : 0 <= d < 256 -> 0 <= j < 256 ->
  core G (fun s => cjne (tick 1 s) (acc s) (c_read s (get_direct G d)) j) (Cjne oA (oDir d) j) 1.
Proof.
  intros Hd Hj s a' W E D.
  assert (Er : exists v, rd (isize G) (view s) (oDir d) = Some v).
  { cbn [effect] in E. change (rd (isize G) (view s) oA) with (Some (acc s)) in E. cbn [obind] in E.
    destruct (rd (isize G) (view s) (oDir d)) as [v|]; [exists v; reflexivity|discriminate]. }
  destruct Er as [v Hv]. destruct (corr_read s _ _ v W (corr_dir G s d) Hv) as [-> _].
  apply (cjne_ok G s oA (oDir d)); auto.
Qed.
Lemma cjne_imm_ok G s c x d j a' : wf s -> 0 <= j < 256 -> corr c (place_of (isize G) (view s) x) ->
  effect (rom G) (isize G) (Cjne x (oImm d) j) (view s) = Some a' ->
  differs (Cjne x (oImm d) j) (view s) = false ->
  post (Cjne x (oImm d) j) s (cjne (tick 1 s) (c_read s c) d j) a' 1.
Proof.
  intros W Hj C E D.
  assert (Er : exists v, rd (isize G) (view s) x = Some v).
  { cbn [effect] in E. destruct (rd (isize G) (view s) x) as [v|]; [exists v; reflexivity|discriminate]. }
  destruct Er as [v Hv]. destruct (corr_read s c _ v W C Hv) as [-> _].
  apply (cjne_ok G s x (oImm d) v d); auto.
Qed.
Lemma i_b6 G i d j : 0 <= d < 256 -> 0 <= j < 256 ->
  core G (fun s => cjne (tick 1 s) (c_read s (iram_cell G (c_read s (R s i)))) d j) (Cjne (oInd i) (oImm d) j) 1.
Proof. intros Hd Hj s a' W E D. apply (cjne_imm_ok G); auto. apply corr_ind. exact W. Qed.
Lemma i_b8 G n d j : 0 <= d < 256 -> 0 <= j < 256 ->
  core G (fun s => cjne (tick 1 s) (c_read s (R s n)) d j) (Cjne (oReg n) (oImm d) j) 1.
Proof. intros Hd Hj s a' W E D. apply (cjne_imm_ok G); auto. apply corr_reg. exact W. Qed.

(** DJNZ *)
Lemma djnz_ok G s c o j a' : wf s -> 0 <= j < 256 -> corr c (place_of (isize G) (view s) o) ->
  effect (rom G) (isize G) (Djnz o j) (view s) = Some a' -> differs (Djnz o j) (view s) = false ->
  let s1 := c_write G (tick 1 s) c (c_read (tick 1 s) c - 1) in
  post (Djnz o j) s (if c_read s1 c =? 0 then s1 else rel s1 j) a' 1.
Proof.
  intros W Hj C E D s1. cbn [effect] in E. ob E x Ex. ob E a1 Ew. apply some_eq in E. subst a'.
  cbn [differs jump_sum view a_pc] in D. apply Z.eqb_neq in D.
  assert (Er : c_read (tick 1 s) c = x) by apply (corr_read (tick 1 s) c _ x (wf_tick s 1 W) C Ex).
  subst s1. rewrite Er. unfold wr in Ew.
  destruct (corr_write G (tick 1 s) (view s) c _ (x - 1) a1 (wf_tick s 1 W) C (Rl_refl s) Ew) as (H1 & H2 & H3 & H4 & H5 & H6).
  set (s1 := c_write G (tick 1 s) c (x - 1)) in *. rewrite H6.
  destruct (core_rel s1 a1 j (negb ((x - 1) mod 256 =? 0)) (negb ((x - 1) mod 256 =? 0)) (Djnz o j) H1 Hj eq_refl H2) as (K1 & K2 & K3 & K4).
  { rewrite H5. exact D. }
  cbv zeta in K1, K2, K3, K4.
  assert (Eh : (if (x - 1) mod 256 =? 0 then s1 else rel s1 j) = if negb ((x - 1) mod 256 =? 0) then rel s1 j else s1)
    by (destruct (_ =? 0); reflexivity).
  rewrite Eh. split; [exact K1|]. split; [exact K2|]. split; [|rewrite K4, H4; reflexivity].
  intros HP HF. apply K3; [|exact HF]. apply H3; [|exact HP]. apply not_psw_place. exact HF.
Qed.
Lemma i_d5 G b j : 0 <= b < 256 -> 0 <= j < 256 ->
  core G (fun s => let s1 := c_write G (tick 1 s) (get_direct G b) (c_read (tick 1 s) (get_direct G b) - 1) in
                   if c_read s1 (get_direct G b) =? 0 then s1 else rel s1 j) (Djnz (oDir b) j) 1.
Proof. intros Hb Hj s a' W E D. apply (djnz_ok G); auto. apply corr_dir. Qed.
Lemma i_d8 G n j : 0 <= j < 256 ->
  core G (fun s => let s1 := c_write G (tick 1 s) (R s n) (c_read (tick 1 s) (R s n) - 1) in
                   if c_read s1 (R s n) =? 0 then s1 else rel s1 j) (Djnz (oReg n) j) 1.
Proof. intros Hj s a' W E D. apply (djnz_ok G); auto. apply corr_reg. exact W. Qed.

(** AJMP, LJMP *)
Lemma page p h l : 0 <= p < 65536 -> 0 <= h < 8 -> 0 <= l < 256 ->
  Z.lor (Z.land p 0xf800) (h * 256 + l) = (p / 2048 * 2048 + (256 * h + l)) mod 65536.
Proof.
  intros Hp Hh Hl.
  assert (E1 : Z.land p 0xf800 = p / 2048 * 2048).
  { change 0xf800 with (Z.shiftl 31 11). rewrite <- Z.mul_comm. change 2048 with (2 ^ 11) at 1.
    rewrite Z.mul_comm, <- Z.shiftl_mul_pow2 by lia. apply Z.bits_inj'. intros n Hn.
    rewrite Z.land_spec, !Z.shiftl_spec by lia. change 2048 with (2 ^ 11). rewrite <- Z.shiftr_div_pow2 by lia.
    destruct (Z_lt_le_dec n 11).
    - rewrite !(Z.testbit_neg_r _ (n - 11)) by lia. apply andb_false_r.
    - rewrite Z.shiftr_spec by lia. replace (n - 11 + 11) with n by lia.
      destruct (Z_lt_le_dec n 16).
      + change 31 with (Z.ones 5). rewrite Z.ones_spec_low by lia. apply andb_true_r.
      + replace (Z.testbit p n) with false; [reflexivity|]. symmetry.
        destruct (Z.eq_dec p 0) as [->|]; [apply Z.bits_0|]. apply Z.bits_above_log2; [lia|].
        assert (Z.log2 p < 16); [|lia]. apply Z.log2_lt_pow2; lia. }
  rewrite E1. replace (256 * h + l) with (h * 256 + l) by lia. set (t := h * 256 + l). assert (Ht : 0 <= t < 2048) by (subst t; lia).
  clearbody t. rewrite Z.mod_small by lia. assert (L : Z.land (p / 2048 * 2048) t = 0).
  { apply Z.bits_inj'. intros n Hn. rewrite Z.land_spec, Z.bits_0.
    change 2048 with (2 ^ 11) at 2. rewrite <- Z.shiftl_mul_pow2 by lia. rewrite Z.shiftl_spec by lia.
    destruct (Z_lt_le_dec n 11); [rewrite Z.testbit_neg_r by lia; reflexivity|].
    replace (Z.testbit t n) with false; [apply andb_false_r|]. symmetry.
    destruct (Z.eq_dec t 0) as [->|]; [apply Z.bits_0|]. apply Z.bits_above_log2; [lia|].
    assert (Z.log2 t < 11); [|lia]. apply Z.log2_lt_pow2; lia. }
  rewrite Z.add_nocarry_lxor, Z.lxor_lor by exact L. reflexivity.
Qed.
Lemma op_page code : 0 <= code < 256 -> Z.land (Z.shiftr code 5) 7 = code / 32 /\ 0 <= code / 32 < 8.
Proof.
  intros H. change 7 with (Z.ones 3). rewrite Z.land_ones, Z.shiftr_div_pow2 by lia. change (2 ^ 5) with 32. change (2 ^ 3) with 8. lia.
Qed.
Lemma i_01 G code l : 0 <= code < 256 -> 0 <= l < 256 ->
  core G (fun s => set_pc (tick 1 s) (Z.lor (Z.land (pc (tick 1 s)) 0xf800) (Z.land (Z.shiftr code 5) 7 * 256 + l)))
    (Ajmp (256 * (code / 32) + l)) 1.
Proof.
  intros Hc Hl. destruct (op_page code Hc) as [-> Hh]. bitcore. pose proof W as (Hp & _).
  cbn [pc tick]. rewrite page by assumption.
  split; [apply (wf_set_pc (tick 1 s)); [apply wf_tick; exact W|apply Z.mod_pos_bound; lia]|].
  split; [apply (Rl_set_pc (tick 1 s)); [exact (Rl_refl s)|reflexivity]|]. split; [auto|reflexivity].
Qed.
Lemma i_02 G h l : 0 <= h < 256 -> 0 <= l < 256 ->
  core G (fun s => tick 1 (set_pc s (h * 256 + l))) (Ljmp (256 * h + l)) 1.
Proof.
  intros Hh Hl. bitcore.
  split; [apply wf_tick, wf_set_pc; [exact W|lia]|].
  split; [apply Rl_tick, Rl_set_pc; [apply Rl_refl|lia]|]. split; [auto|reflexivity].
Qed.

(* ------------------------------------------------------------ stack *)
Lemma Rl_at s a x : Rl s a -> x <> PSW -> a_sfr a x = sfr s x.
Proof. intros (_ & _ & H & _) N. symmetry. apply H. exact N. Qed.

Lemma push_ok G s a v a' : wf s -> Rl s a -> push (isize G) a v = Some a' ->
  let s' := push_byte G s v in
  wf s' /\ Rl s' a' /\ (Pk s -> Pk s') /\ insts s' = insts s /\ pc s' = pc s.
Proof.
  intros W H E. cbv zeta. unfold push in E. unfold push_byte.
  rewrite (Rl_at s a rSP H ltac:(discriminate)) in E. change rSP with SP in E.
  set (s1 := sfr_write s SP (sfr s SP + 1)).
  assert (W1 : wf s1) by (apply wf_sfr_write; exact W).
  assert (R1 : Rl s1 (with_sfr a SP ((sfr s SP + 1) mod 256))) by (apply Rl_sfr_write; assumption).
  assert (E1 : sfr s1 SP = (sfr s SP + 1) mod 256) by (unfold s1; rewrite sfr_write_at by exact W; reflexivity).
  rewrite E1. destruct (sfr_write_frame s SP (sfr s SP + 1)) as (F1 & _ & _ & F4 & _). fold s1 in F1, F4.
  destruct (corr_write G s1 _ _ _ v a' W1 (corr_ram G ((sfr s SP + 1) mod 256)) R1 E) as (H1 & H2 & H3 & H4 & H5 & _).
  split; [exact H1|]. split; [exact H2|]. split; [|split; congruence].
  intros HP. apply H3.
  - unfold ram_place. destruct (_ <? _); discriminate.
  - apply Pk_sfr_write; [exact W|exact HP|discriminate].
Qed.

Lemma push_pc isz a v a' : push isz a v = Some a' -> a_pc a' = a_pc a.
Proof.
  unfold push, ram_place. destruct (_ <? _); cbn [wr_place]; [|discriminate]. intros E.
  apply some_eq in E. subst a'. reflexivity.
Qed.

Lemma pc_low p : Z.land p 0xff = p mod 256. Proof. apply land_ff. Qed.
Lemma pc_high p : 0 <= p < 65536 -> Z.land (Z.shiftr p 8) 0xff = p / 256.
Proof. intros H. rewrite land_ff, Z.shiftr_div_pow2 by lia. change (2 ^ 8) with 256. apply Z.mod_small. lia. Qed.

(** push of the return address *)
Lemma call_ok G s a2 a' ins t v : wf s ->
  obind (push (isize G) (view s) (pc s mod 256)) (fun s => obind (push (isize G) s (a_pc s / 256))
      (fun s => Some (with_pc s (t (a_pc s))))) = Some a' ->
  v = t (pc s) mod 65536 ->
  a2 = set_pc (push_byte G (tick 1 (push_byte G s (Z.land (pc s) 0xff)))
        (Z.land (Z.shiftr (pc s) 8) 0xff)) v ->
  post ins s a2 a' 1.
Proof.
  intros W E Ev ->. pose proof W as (Hp & _). ob E a1 E1. ob E a2 E2. apply some_eq in E. subst a'.
  pose proof (push_pc _ _ _ _ E1) as Q1. pose proof (push_pc _ _ _ _ E2) as Q2.
  rewrite Q1 in E2. cbn [view a_pc] in E2, Q1.
  rewrite <- pc_low in E1. destruct (push_ok G s (view s) _ a1 W (Rl_refl s) E1) as (H1 & H2 & H3 & H4 & H5).
  rewrite <- (pc_high (pc s) Hp) in E2.
  set (s1 := push_byte G s (Z.land (pc s) 255)) in *. clearbody s1.
  destruct (push_ok G (tick 1 s1) a1 _ a2 (wf_tick _ 1 H1) (Rl_tick _ _ 1 H2) E2) as (K1 & K2 & K3 & K4 & K5).
  set (s2 := push_byte G (tick 1 s1) (Z.land (Z.shiftr (pc s) 8) 255)) in *. clearbody s2.
  split; [apply wf_set_pc; [exact K1|]|].
  { rewrite Ev. apply Z.mod_pos_bound. lia. }
  split; [apply Rl_set_pc; [exact K2|rewrite Q2, Q1; exact Ev]|].
  split; [intros HP _; apply K3, H3, HP|]. cbn [insts set_pc]. rewrite K4. cbn [insts tick]. lia.
Qed.
Lemma i_11 G code l : 0 <= code < 256 -> 0 <= l < 256 ->
  core G (fun s => let s := push_byte G s (Z.land (pc s) 0xff) in
    let s := tick 1 s in
    let s := push_byte G s (Z.land (Z.shiftr (pc s) 8) 0xff) in
    set_pc s (Z.lor (Z.land (pc s) 0xf800) (Z.land (Z.shiftr code 5) 7 * 256 + l)))
    (Acall (256 * (code / 32) + l)) 1.
Proof.
  intros Hc Hl s a' W E _. destruct (op_page code Hc) as [-> Hh]. pose proof W as (Hp & _).
  assert (Ep : forall s v, pc (push_byte G s v) = pc s).
  { intros t v. unfold push_byte. destruct (sfr_write_frame t SP (sfr t SP + 1)) as (F1 & _).
    unfold iram_cell. destruct (_ <? _); exact F1. }
  apply (call_ok G s _ a' _ (fun p => p / 2048 * 2048 + (256 * (code / 32) + l)) _ W E eq_refl).
  cbv zeta. rewrite !Ep. cbn [pc tick]. rewrite !Ep. rewrite page by assumption. reflexivity.
Qed.
Lemma i_12 G h l : 0 <= h < 256 -> 0 <= l < 256 ->
  core G (fun s => let s := push_byte G s (Z.land (pc s) 0xff) in
    let s := tick 1 s in
    let s := push_byte G s (Z.land (Z.shiftr (pc s) 8) 0xff) in
    set_pc s (h * 256 + l)) (Lcall (256 * h + l)) 1.
Proof.
  intros Hh Hl s a' W E _.
  assert (Ep : forall s v, pc (push_byte G s v) = pc s).
  { intros t v. unfold push_byte. destruct (sfr_write_frame t SP (sfr t SP + 1)) as (F1 & _).
    unfold iram_cell. destruct (_ <? _); exact F1. }
  apply (call_ok G s _ a' _ (fun p => 256 * h + l) (h * 256 + l) W E); [rewrite Z.mod_small by lia; lia|].
  cbv zeta. cbn [pc tick]. rewrite !Ep. reflexivity.
Qed.

(** popping the return address *)
Lemma drop_ok s a : wf s -> Rl s a -> let s' := sfr_write s SP (sfr s SP - 1) in
  wf s' /\ Rl s' (drop a) /\ (Pk s -> Pk s') /\ insts s' = insts s /\ pc s' = pc s.
Proof.
  intros W H. cbv zeta. unfold drop. rewrite (Rl_at s a rSP H ltac:(discriminate)). change rSP with SP.
  destruct (sfr_write_frame s SP (sfr s SP - 1)) as (F1 & _ & _ & F4 & _).
  split; [apply wf_sfr_write; exact W|]. split; [apply Rl_sfr_write; assumption|].
  split; [|split; [exact F4|exact F1]]. intros HP. apply Pk_sfr_write; [exact W|exact HP|discriminate].
Qed.
Lemma top_ok G s a x : wf s -> Rl s a -> top (isize G) a = Some x ->
  c_read s (iram_cell G (sfr s SP)) = x /\ 0 <= x < 256.
Proof.
  intros W H E. unfold top in E. rewrite (Rl_at s a rSP H ltac:(discriminate)) in E. change rSP with SP in E.
  unfold ram_place in E. unfold iram_cell. destruct (_ <? _); cbn [rd_place c_read] in *; [|discriminate].
  apply some_eq in E. subst x. destruct H as (_ & H & _). rewrite <- H. split; [reflexivity|].
  destruct W as (_ & W & _). apply W.
Qed.
Lemma i_22_ins G code ins : (forall a, effect (rom G) (isize G) ins a =
    obind (top (isize G) a) (fun h => obind (top (isize G) (drop a)) (fun l => Some (with_pc (drop (drop a)) (256 * h + l))))) ->
  core G (instruction_22 G code) ins 1.
Proof.
  intros He s a' W E _. rewrite He in E. ob E h Eh. ob E l El. apply some_eq in E. subst a'.
  destruct (top_ok G s (view s) h W (Rl_refl s) Eh) as [Rh Hh].
  destruct (drop_ok s (view s) W (Rl_refl s)) as (H1 & H2 & H3 & H4 & H5). cbv zeta in H1, H2, H3, H4, H5.
  unfold instruction_22. cbv zeta. rewrite Rh. set (s1 := sfr_write s SP (sfr s SP - 1)) in *.
  assert (W1 : wf (tick 1 s1)) by (apply wf_tick; exact H1).
  destruct (top_ok G (tick 1 s1) _ l W1 (Rl_tick _ _ 1 H2) El) as [Rl' Hl].
  destruct (drop_ok (tick 1 s1) _ W1 (Rl_tick _ _ 1 H2)) as (K1 & K2 & K3 & K4 & K5). cbv zeta in K1, K2, K3, K4, K5.
  rewrite Rl'.
  split; [apply wf_set_pc; [exact K1|lia]|]. split; [apply Rl_set_pc; [exact K2|lia]|].
  split; [intros HP _; apply K3, H3, HP|]. cbn [insts set_pc]. rewrite K4. cbn [insts tick]. lia.
Qed.
Lemma i_22 G code : core G (instruction_22 G code) Ret 1.
Proof. apply i_22_ins. reflexivity. Qed.
Lemma i_32 G code : core G (instruction_32 G code) Reti 1.
Proof. intros s a' W E D. apply (i_22_ins G code Reti (fun _ => eq_refl) s a' W E D). Qed.

(* ------------------------------------------------------------ MOV *)
Lemma i_75 G b d : 0 <= b < 256 -> 0 <= d < 256 ->
  core G (fun s => tick 1 (c_write G s (get_direct G b) d)) (Mov (oDir b) (oImm d)) 1.
Proof. intros _ _ s a' W E _. apply (dst_post G s _ (oDir b)); [exact W|apply corr_dir|exact E|auto]. Qed.
Lemma i_76 G i d : 0 <= d < 256 ->
  core G (fun s => c_write G s (iram_cell G (c_read s (R s i))) d) (Mov (oInd i) (oImm d)) 0.
Proof. intros _ s a' W E _. apply (dst_post0 G s _ (oInd i)); [exact W|apply corr_ind; exact W|exact E|auto]. Qed.
Lemma i_78 G n d : 0 <= d < 256 -> core G (fun s => c_write G s (R s n) d) (Mov (oReg n) (oImm d)) 0.
Proof. intros _ s a' W E _. apply (dst_post0 G s _ (oReg n)); [exact W|apply corr_reg; exact W|exact E|auto]. Qed.

Lemma mov_ok G s c c2 o o2 a' : wf s -> corr c (place_of (isize G) (view s) o) -> corr c2 (place_of (isize G) (view s) o2) ->
  effect (rom G) (isize G) (Mov o o2) (view s) = Some a' ->
  post (Mov o o2) s (tick 1 (c_write G s c (c_read s c2))) a' 1.
Proof.
  intros W C C2 E. cbn [effect] in E. ob E x Ex. destruct (corr_read s c2 _ x W C2 Ex) as [-> _].
  apply (dst_post G s c o); auto.
Qed.
Lemma i_85 G a d : 0 <= a < 256 -> 0 <= d < 256 ->
  core G (fun s => tick 1 (c_write G s (get_direct G d) (c_read s (get_direct G a)))) (Mov (oDir d) (oDir a)) 1.
Proof. intros _ _ s a' W E _. apply mov_ok; auto; apply corr_dir. Qed.
Lemma i_86 G i b : 0 <= b < 256 ->
  core G (fun s => tick 1 (c_write G s (get_direct G b) (c_read s (iram_cell G (c_read s (R s i)))))) (Mov (oDir b) (oInd i)) 1.
Proof. intros _ s a' W E _. apply mov_ok; auto; [apply corr_dir|apply corr_ind; exact W]. Qed.
Lemma i_88 G n b : 0 <= b < 256 ->
  core G (fun s => tick 1 (c_write G s (get_direct G b) (c_read s (R s n)))) (Mov (oDir b) (oReg n)) 1.
Proof. intros _ s a' W E _. apply mov_ok; auto; [apply corr_dir|apply corr_reg; exact W]. Qed.
Lemma i_a6 G i b : 0 <= b < 256 ->
  core G (fun s => tick 1 (c_write G s (iram_cell G (c_read s (R s i))) (c_read s (get_direct G b)))) (Mov (oInd i) (oDir b)) 1.
Proof. intros _ s a' W E _. apply mov_ok; auto; [apply corr_ind; exact W|apply corr_dir]. Qed.
Lemma i_a8 G n b : 0 <= b < 256 ->
  core G (fun s => tick 1 (c_write G s (R s n) (c_read s (get_direct G b)))) (Mov (oReg n) (oDir b)) 1.
Proof. intros _ s a' W E _. apply mov_ok; auto; [apply corr_reg; exact W|apply corr_dir]. Qed.
Lemma i_f5 G b : 0 <= b < 256 -> core G (fun s => c_write G s (get_direct G b) (acc s)) (Mov (oDir b) oA) 0.
Proof. intros _ s a' W E _. apply (dst_post0 G s _ (oDir b)); [exact W|apply corr_dir|exact E|auto]. Qed.
Lemma i_f6 G code : core G (instruction_f6 G code) (Mov (oInd (Z.land code 1)) oA) 0.
Proof. intros s a' W E _. apply (dst_post0 G s _ (oInd (Z.land code 1))); [exact W|apply corr_ind; exact W|exact E|auto]. Qed.
Lemma i_f8 G code : core G (instruction_f8 G code) (Mov (oReg (Z.land code 7)) oA) 0.
Proof. intros s a' W E _. apply (dst_post0 G s _ (oReg (Z.land code 7))); [exact W|apply corr_reg; exact W|exact E|auto]. Qed.

(** MOV A,direct: MOV A,ACC only reports an error *)
Lemma Rl_accacc s : Rl s (setA (view s) (sfr s ACC)) <-> 0 <= sfr s ACC < 256 \/ Rl s (setA (view s) (sfr s ACC)).
Proof.
  split; [auto|]. intros [H|H]; [|exact H]. unfold setA. rewrite Z.mod_small by exact H.
  unfold Rl, same_but_P, with_sfr, view. cbn [a_pc a_iram a_sfr a_xram]. repeat split.
  - intros x Hx. unfold store. destruct (x =? rA) eqn:E; [|reflexivity]. apply Z.eqb_eq in E. subst x. reflexivity.
Qed.
Lemma i_e5 G b : 0 <= b < 256 ->
  core G (fun s => if b =? ACC then inst_unknown s else acc_write s (c_read s (get_direct G b))) (Mov oA (oDir b)) 0.
Proof.
  intros Hb s a' W E D. destruct (b =? ACC) eqn:EA.
  - apply Z.eqb_eq in EA. subst b. cbn in E. apply some_eq in E. subst a'.
    split; [exact W|]. split; [|split; [auto|cbn; lia]].
    apply (Rl_accacc s). left. apply acc_byte. exact W.
  - exact (src_dir G _ _ (mov_a_ok G) (strict_mov G) b s a' W E D).
Qed.

(* ------------------------------------------------------------ MOVC, MOVX *)
Lemma post_acc1 ins s v w : wf s -> u8 v = w mod 256 ->
  post ins s (tick 1 (acc_write s v)) (setA (view s) w) 1.
Proof.
  intros W E. destruct (post_acc ins s s (view s) v w 0 W (Rl_refl s) E ltac:(lia)) as (H1 & H2 & H3 & H4).
  split; [apply wf_tick; exact H1|]. split; [exact H2|]. split; [exact H3|].
  unfold acc_write. cbn [insts tick]. lia.
Qed.
Lemma dptr_eq s : sfr s DPH * 256 + sfr s DPL = DPTR (view s).
Proof. unfold DPTR. change (a_sfr (view s) rDPH) with (sfr s DPH). change (a_sfr (view s) rDPL) with (sfr s DPL). lia. Qed.
Lemma dptr_bound s : wf s -> 0 <= DPTR (view s) < 65536.
Proof. intros (_ & _ & H & _). rewrite <- dptr_eq. pose proof (H DPH). pose proof (H DPL). lia. Qed.

Lemma i_83 G code : core G (instruction_83 G code) MovcPc 1.
Proof.
  intros s a' W E D. cbn [effect] in E. apply some_eq in E. subst a'. pose proof W as (Hp & _).
  pose proof (acc_byte s W) as Ha. cbn [differs view a_pc getA a_sfr] in D. change (a_sfr (view s) rA) with (sfr s ACC) in D.
  unfold instruction_83. apply post_acc1; [exact W|]. unfold acc, rom_read, u32. cbn [view a_pc getA a_sfr].
  change (getA (view s)) with (sfr s ACC). change rA with ACC in *.
  rewrite Z.mod_small by lia. rewrite (proj2 (Z.ltb_lt (pc s + sfr s ACC) 0x10000)) by lia.
  rewrite (Z.mod_small (pc s + sfr s ACC) 65536) by lia. reflexivity.
Qed.
Lemma i_93 G code : core G (instruction_93 G code) MovcDptr 1.
Proof.
  intros s a' W E D. cbn [effect] in E. apply some_eq in E. subst a'.
  pose proof (acc_byte s W) as Ha. pose proof (dptr_bound s W) as Hd. cbn [differs] in D. change (getA (view s)) with (sfr s ACC) in *.
  unfold instruction_93. apply post_acc1; [exact W|]. unfold acc, rom_read. rewrite dptr_eq.
  rewrite (proj2 (Z.ltb_lt (DPTR (view s) + sfr s ACC) 0x10000)) by lia.
  rewrite (Z.mod_small (DPTR (view s) + sfr s ACC) 65536) by lia. reflexivity.
Qed.
Lemma i_e0 G code : core G (instruction_e0 code) MovxAdptr 1.
Proof. bitcore. unfold instruction_e0. apply post_acc1; [exact W|]. rewrite dptr_eq. reflexivity. Qed.
Lemma p2_eq s i : wf s -> sfr s P2 * 256 + c_read s (R s i) = 256 * a_sfr (view s) rP2 + reg_val (view s) i.
Proof. intros W. rewrite reg_read by exact W. change (a_sfr (view s) rP2) with (sfr s P2). lia. Qed.
Lemma i_e2 G code : core G (instruction_e2 code) (MovxAri (Z.land code 1)) 1.
Proof. bitcore. unfold instruction_e2. apply post_acc1; [exact W|]. rewrite p2_eq by exact W. reflexivity. Qed.
Lemma xram_post ins s a : wf s -> post ins s (tick 1 (set_xram s a (acc s))) (with_xram (view s) a (getA (view s))) 1.
Proof.
  intros W. split; [apply wf_tick, wf_set_xram; [exact W|apply acc_byte; exact W]|].
  split; [apply Rl_tick, Rl_set_xram; [apply Rl_refl|reflexivity]|]. split; [auto|reflexivity].
Qed.
Lemma i_f0 G code : core G (instruction_f0 code) MovxDptrA 1.
Proof. bitcore. unfold instruction_f0. rewrite dptr_eq. apply xram_post. exact W. Qed.
Lemma i_f2 G code : core G (instruction_f2 code) (MovxRiA (Z.land code 1)) 1.
Proof. bitcore. unfold instruction_f2. rewrite p2_eq by exact W. apply xram_post. exact W. Qed.

(* ------------------------------------------------------------ PUSH, POP *)
Lemma i_c0 G b : 0 <= b < 256 ->
  core G (fun s => tick 1 (push_byte G s (c_read s (get_direct G b)))) (Push b) 1.
Proof.
  intros Hb s a' W E D. cbn [effect] in E. cbn [differs] in D.
  ob E x Ex.
  assert (Ex' : rd (isize G) (view s) (oDir b) = Some x).
  { unfold rd in *. cbn [place_of] in *. destruct (b <? 128).
    { unfold ram_place in *. destruct (b <? isize G); [exact Ex|discriminate Ex]. }
    cbn [rd_place with_sfr a_sfr] in *. rewrite store_other in Ex by lia. exact Ex. }
  destruct (corr_read s _ _ x W (corr_dir G s b) Ex') as [-> Hx].
  destruct (push_ok G s (view s) x a' W (Rl_refl s) E) as (H1 & H2 & H3 & H4 & _).
  split; [apply wf_tick; exact H1|]. split; [exact H2|]. split; [auto|cbn [insts tick]; lia].
Qed.
Lemma i_d0 G b : 0 <= b < 256 ->
  core G (fun s => tick 1 (c_write G (sfr_write s SP (sfr s SP - 1)) (get_direct G b)
     (c_read (sfr_write s SP (sfr s SP - 1)) (iram_cell G (sfr s SP))))) (Pop b) 1.
Proof.
  intros Hb s a' W E D. cbn [effect] in E. ob E x Ex.
  destruct (top_ok G s (view s) x W (Rl_refl s) Ex) as [Hx Hb'].
  destruct (drop_ok s (view s) W (Rl_refl s)) as (H1 & H2 & H3 & H4 & H5). cbv zeta in H1, H2, H3, H4, H5.
  destruct (sfr_write_frame s SP (sfr s SP - 1)) as (F1 & F2 & F3 & F4 & F5).
  assert (Er : c_read (sfr_write s SP (sfr s SP - 1)) (iram_cell G (sfr s SP)) = x).
  { rewrite <- Hx. unfold iram_cell. destruct (_ <? _); cbn [c_read]; congruence. }
  rewrite Er. set (s1 := sfr_write s SP (sfr s SP - 1)) in *. unfold wr in E.
  destruct (corr_write G s1 _ _ _ x a' H1 (corr_dir G s1 b) H2 E) as (K1 & K2 & K3 & K4 & K5 & _).
  split; [apply wf_tick; exact K1|]. split; [exact K2|]. split; [|cbn [insts tick]; lia].
  intros HP HF. apply K3; [|apply H3; exact HP]. apply (not_psw_place (isize G) s1 (oDir b)). exact HF.
Qed.

(* ------------------------------------------------------------ XCH *)
Lemma xch_ok G s c o a' : wf s -> corr c (place_of (isize G) (view s) o) ->
  (place_of (isize G) (setA (view s) (c_read s c)) o = place_of (isize G) (view s) o) ->
  effect (rom G) (isize G) (Xch o) (view s) = Some a' -> post (Xch o) s (xch G s c) a' 0.
Proof.
  intros W C Ep E. cbn [effect] in E. ob E x Ex. destruct (corr_read s c _ x W C Ex) as [Er Hx].
  unfold xch. cbv zeta. rewrite Er in *. unfold wr in E. rewrite Ep in E.
  assert (W1 : wf (acc_write s x)) by (apply wf_sfr_write; exact W).
  assert (R1 : Rl (acc_write s x) (setA (view s) x)) by (apply (Rl_sfr_write s (view s) ACC x W (Rl_refl s))).
  destruct (corr_write G _ _ c _ (acc s) a' W1 C R1 E) as (K1 & K2 & K3 & K4 & _).
  split; [exact K1|]. split; [exact K2|]. split.
  - intros HP HF. apply K3; [apply not_psw_place; exact HF|]. apply Pk_acc_write. exact W.
  - rewrite K4. unfold acc_write. destruct (sfr_write_frame s ACC x) as (_ & _ & _ & F4 & _). lia.
Qed.
Lemma i_c5 G b : 0 <= b < 256 -> core G (fun s => xch G s (get_direct G b)) (Xch (oDir b)) 0.
Proof. intros _ s a' W E _. apply xch_ok; auto. apply corr_dir. Qed.
Lemma i_c6 G code : core G (instruction_c6 G code) (Xch (oInd (Z.land code 1))) 0.
Proof. intros s a' W E _. apply xch_ok; auto. apply corr_ind. exact W. Qed.
Lemma i_c8 G code : core G (instruction_c8 G code) (Xch (oReg (Z.land code 7))) 0.
Proof. intros s a' W E _. apply xch_ok; auto. apply corr_reg. exact W. Qed.

Lemma nibble x y : 0 <= x < 256 -> 0 <= y < 256 -> Z.lor (Z.land x 0xf0) (Z.land y 0x0f) = x / 16 * 16 + y mod 16.
Proof.
  intros Hx Hy. apply Z.eqb_eq. revert x y Hx Hy.
  apply (sweep_byte2 (fun x y => Z.lor (Z.land x 0xf0) (Z.land y 0x0f) =? x / 16 * 16 + y mod 16)). vm_compute. reflexivity.
Qed.
Lemma i_d6 G code : core G (instruction_d6 G code) (Xchd (Z.land code 1)) 0.
Proof.
  intros s a' W E _. cbn [effect] in E. ob E x Ex. ob E a1 Ew. apply some_eq in E. subst a'.
  pose proof (corr_ind G s (Z.land code 1) W) as C. destruct (corr_read s _ _ x W C Ex) as [Er Hx].
  pose proof (acc_byte s W) as Ha.
  unfold instruction_d6. cbv zeta. unfold at_Ri. rewrite Er. change (acc s) with (sfr s ACC). rewrite nibble by assumption.
  unfold wr in Ew. change (getA (view s)) with (sfr s ACC) in *.
  destruct (corr_write G s (view s) _ _ _ a1 W C (Rl_refl s) Ew) as (K1 & K2 & K3 & K4 & _).
  set (c := iram_cell G (c_read s (R s (Z.land code 1)))) in *.
  set (s1 := c_write G s c (x / 16 * 16 + sfr s ACC mod 16)) in *.
  assert (Ea : acc s1 = sfr s ACC) by (unfold s1, c, iram_cell; destruct (_ <? _); reflexivity).
  rewrite Ea, nibble by assumption.
  apply post_acc; [exact K1|exact K2|reflexivity|lia].
Qed.
