(** Every instruction function of S51Model against the effect in S51Spec. *)
From Verif Require Import Base S51Model S51Spec S51Obs S51Proofs.

Definition post (ins : instr) (s s' : st) (a : arch) (cyc : Z) : Prop :=
  wf s' /\ Rl s' a /\ (Pk s -> writes_psw ins = false -> Pk s') /\ insts s' = insts s + cyc.

(** the instruction once its operand bytes have been fetched *)
Definition core (G : cfg) (g : st -> st) (ins : instr) (cyc : Z) : Prop :=
  forall s a', wf s -> effect (rom G) (isize G) ins (view s) = Some a' ->
    differs ins (view s) = false -> post ins s (g s) a' cyc.

(** function f of an opcode: [n] operand bytes, [cyc] cycles besides the first *)
Definition impl (G : cfg) (f : Z -> st -> st) (code : Z) (ins : Z -> Z -> instr) (n cyc : Z) : Prop :=
  forall s a', wf s ->
    let b1 := rom G (pc s) in let b2 := rom G ((pc s + 1) mod 65536) in
    let t := with_pc (view s) (pc s + n) in
    effect (rom G) (isize G) (ins b1 b2) t = Some a' -> differs (ins b1 b2) t = false ->
    post (ins b1 b2) s (f code s) a' cyc.

Lemma impl_0 G f code ins cyc : core G (f code) ins cyc -> impl G f code (fun _ _ => ins) 0 cyc.
Proof.
  intros H s a' W b1 b2 t E D. subst t.
  assert (Et : with_pc (view s) (pc s + 0) = view s).
  { destruct W as (Hp & _). unfold with_pc, view. cbn. f_equal. rewrite Z.add_0_r. apply Z.mod_small. lia. }
  rewrite Et in *. apply H; assumption.
Qed.

Lemma post_pc ins s v s' a cyc : post ins (set_pc s v) s' a cyc -> post ins s s' a cyc.
Proof. intros (H1 & H2 & H3 & H4). repeat split; try assumption; try apply H1; apply H2. Qed.

Lemma impl_1 G f code ins cyc g :
  wf_cfg G -> (forall b, 0 <= b < 256 -> core G (g b) (ins b) cyc) ->
  (forall s, f code s = (let '(b, s) := fetch G s in g b s)) ->
  impl G f code (fun b1 _ => ins b1) 1 cyc.
Proof.
  intros [HG _] H Hf s a' W b1 b2 t E D. rewrite Hf, fetch_eq by exact W.
  apply (post_pc _ _ ((pc s + 1) mod 65536)).
  apply H; [apply HG| |exact E|exact D].
  apply wf_set_pc; [exact W|apply Z.mod_pos_bound; lia].
Qed.

Lemma impl_2 G f code ins cyc g :
  wf_cfg G -> (forall b c, 0 <= b < 256 -> 0 <= c < 256 -> core G (g b c) (ins b c) cyc) ->
  (forall s, wf s -> f code s = (let '(b, s) := fetch G s in let '(c, s) := fetch G s in g b c s)) ->
  impl G f code ins 2 cyc.
Proof.
  intros [HG _] H Hf s a' W b1 b2 t E D. rewrite Hf, fetch_eq by exact W.
  assert (W1 : wf (set_pc s ((pc s + 1) mod 65536))).
  { apply wf_set_pc; [exact W|apply Z.mod_pos_bound; lia]. }
  rewrite fetch_eq by exact W1. cbn [pc set_pc].
  assert (Ep : ((pc s + 1) mod 65536 + 1) mod 65536 = (pc s + 2) mod 65536).
  { rewrite Z.add_mod_idemp_l by lia. f_equal. lia. }
  rewrite Ep.
  change (set_pc (set_pc s ((pc s + 1) mod 65536)) ((pc s + 2) mod 65536))
    with (set_pc s ((pc s + 2) mod 65536)).
  apply (post_pc _ _ ((pc s + 2) mod 65536)).
  apply H; [apply HG|apply HG| |exact E|exact D].
  apply wf_set_pc; [exact W|apply Z.mod_pos_bound; lia].
Qed.

(* ------------------------------------------------------------ operands *)
Definition corr (c : cell) (p : place) : Prop :=
  match p with InIram a => c = CIram a | InSfr a => c = CSfr a | Nowhere => c = CHole | InCode _ => False end.

Lemma corr_ram G a : corr (iram_cell G a) (ram_place (isize G) a).
Proof. unfold iram_cell, ram_place, corr. destruct (a <? isize G); reflexivity. Qed.
Lemma corr_dir G s a : corr (get_direct G a) (place_of (isize G) (view s) (oDir a)).
Proof. unfold get_direct. cbn [place_of]. destruct (a <? 0x80); [apply corr_ram|reflexivity]. Qed.
Lemma corr_reg G s n : wf s -> corr (R s n) (place_of (isize G) (view s) (oReg n)).
Proof. intros (_ & _ & _ & _ & _ & H). unfold R. cbn [place_of corr]. rewrite H. reflexivity. Qed.
Lemma reg_read s n : wf s -> c_read s (R s n) = reg_val (view s) n.
Proof. intros (_ & _ & _ & _ & _ & H). unfold R. cbn [c_read]. rewrite H. reflexivity. Qed.
Lemma corr_ind G s i : wf s -> corr (iram_cell G (c_read s (R s i))) (place_of (isize G) (view s) (oInd i)).
Proof. intros W. rewrite reg_read by exact W. apply corr_ram. Qed.
Lemma corr_A G s : corr (CSfr ACC) (place_of (isize G) (view s) oA).
Proof. reflexivity. Qed.

Lemma corr_read s c p x : wf s -> corr c p -> rd_place (view s) p = Some x -> c_read s c = x /\ 0 <= x < 256.
Proof.
  intros (_ & H2 & H3 & _) C E. destruct p; cbn [corr rd_place] in *; try discriminate; try contradiction; subst c;
    injection E as <-; cbn [c_read view a_iram a_sfr]; auto.
Qed.

Lemma corr_write G s a c p v a' : wf s -> corr c p -> Rl s a -> wr_place a p v = Some a' ->
  wf (c_write G s c v) /\ Rl (c_write G s c v) a' /\
  (p <> InSfr PSW -> Pk s -> Pk (c_write G s c v)) /\ insts (c_write G s c v) = insts s /\
  pc (c_write G s c v) = pc s /\ c_read (c_write G s c v) c = v mod 256.
Proof.
  intros W C H E. destruct p; cbn [corr wr_place] in *; try discriminate; subst c;
    injection E as <-; cbn [c_write].
  - split; [apply wf_set_iram; [exact W|apply u8_range]|]. split; [apply Rl_set_iram; auto|].
    split; [intros _ HP; exact HP|]. split; [reflexivity|]. split; [reflexivity|].
    cbn [c_read iram set_iram]. apply put_same.
  - split; [apply wf_sfr_write; exact W|]. split; [apply Rl_sfr_write; assumption|].
    destruct (sfr_write_frame s a0 v) as (E1 & _ & _ & E4 & _).
    split; [|split; [exact E4|split; [exact E1|]]].
    + intros N HP. apply Pk_sfr_write; [exact W|exact HP|congruence].
    + cbn [c_read]. rewrite sfr_write_at, Z.eqb_refl by exact W. reflexivity.
Qed.

(* ------------------------------------------------------------ jumps *)
Lemma i8_signed j : 0 <= j < 256 -> i8 j = signed j.
Proof. intros H. unfold i8, signed. rewrite u8_id by exact H. reflexivity. Qed.

Lemma rel_target s j : wf s -> 0 <= j < 256 -> pc s + signed j <> 65536 ->
  validate_address (u32 (pc s + i8 j)) = (pc s + signed j) mod 65536.
Proof.
  intros (Hp & _) Hj N. rewrite i8_signed by exact Hj. unfold validate_address, u32.
  assert (Hs : -128 <= signed j < 128) by (unfold signed; destruct (j <? 128) eqn:E; lia).
  set (t := pc s + signed j) in *. assert (Ht : -128 <= t < 65536 + 128) by lia.
  destruct (0x10000 <? t mod 4294967296) eqn:E.
  - clearbody t. lia.
  - apply Z.ltb_ge in E. lia.
Qed.

Lemma core_rel s a j (c c' : bool) ins : wf s -> 0 <= j < 256 -> c = c' ->
  Rl s a -> pc s + signed j <> 65536 ->
  let s' := if c then rel s j else s in
  wf s' /\ Rl s' (branch c' j a) /\ (Pk s -> writes_psw ins = false -> Pk s') /\ insts s' = insts s.
Proof.
  intros W Hj -> H N. unfold rel, branch. destruct c'; cbv zeta.
  - rewrite rel_target by assumption.
    split; [apply wf_set_pc; [exact W|apply Z.mod_pos_bound; lia]|].
    split; [|split; [intros HP _; exact HP|reflexivity]].
    apply Rl_set_pc; [exact H|]. destruct H as (E & _). unfold view in E. cbn [a_pc] in E. rewrite E. reflexivity.
  - split; [exact W|]. split; [exact H|]. split; [auto|reflexivity].
Qed.

(* ------------------------------------------------------------ tactics *)
Lemma some_inj {X} (a b : X) : Some a = Some b -> b = a.
Proof. congruence. Qed.

(** split an obind in hypothesis E *)
Ltac ob E x Ex :=
  match type of E with
  | obind ?e _ = Some _ => destruct e as [x|] eqn:Ex; cbn [obind] in E; [|discriminate E]
  end.
Ltac done_some E := apply some_inj in E; subst.

Lemma acc_read s : acc s = getA (view s).
Proof. reflexivity. Qed.
Lemma acc_byte s : wf s -> 0 <= sfr s ACC < 256.
Proof. intros (_ & _ & H & _). apply H. Qed.

(** writing the accumulator last *)
Lemma post_acc ins s s0 a v w cyc : wf s -> Rl s a -> u8 v = w mod 256 -> insts s = insts s0 + cyc ->
  post ins s0 (sfr_write s ACC v) (setA a w) cyc.
Proof.
  intros W H E Hi. split; [apply wf_sfr_write; exact W|]. split.
  - unfold setA. rewrite <- E. exact (Rl_sfr_write s a ACC v W H).
  - split; [intros _ _; apply Pk_acc_write; exact W|].
    destruct (sfr_write_frame s ACC v) as (_ & _ & _ & E4 & _). congruence.
Qed.

(** an ALU function with a source operand, given its core on values *)
Definition src_fun (G : cfg) (h : st -> Z -> st) (ins : opd -> instr) : Prop :=
  forall s o x a', wf s -> 0 <= x < 256 -> rd (isize G) (view s) o = Some x ->
    effect (rom G) (isize G) (ins o) (view s) = Some a' ->
    differs (ins o) (view s) = false -> post (ins o) s (h s x) a' 0.

(** A := op A x *)
Lemma bits_cy_get s : bits_get s 0xd7 = b2z (CY (view s)).
Proof. reflexivity. Qed.
Lemma bmcy_test s : Z.land (sfr s PSW) bmCY =? 0 = negb (CY (view s)).
Proof.
  unfold CY, bit. cbn [view a_sfr]. change rPSW with PSW. generalize (sfr s PSW). intros x.
  destruct (Z.testbit x 7) eqn:E.
  - apply Z.eqb_neq. intros H. assert (Z.testbit (Z.land x bmCY) 7 = false) by (rewrite H; apply Z.bits_0).
    rewrite Z.land_spec, E in H0. discriminate.
  - apply Z.eqb_eq. apply Z.bits_inj'. intros n Hn. rewrite Z.land_spec, Z.bits_0.
    destruct (Z.eq_dec n 7) as [->|N]; [rewrite E; reflexivity|].
    change bmCY with (2 ^ 7). rewrite Z.pow2_bits_false by lia. apply andb_false_r.
Qed.
Lemma mask_test x k m : 0 <= k -> m = 2 ^ k -> (Z.land x m =? 0) = negb (Z.testbit x k).
Proof.
  intros Hk ->. destruct (Z.testbit x k) eqn:E; cbn [negb].
  - apply Z.eqb_neq. intros H. assert (B : Z.testbit (Z.land x (2 ^ k)) k = false) by (rewrite H; apply Z.bits_0).
    rewrite Z.land_spec, E, Z.pow2_bits_true in B by lia. discriminate.
  - apply Z.eqb_eq. apply Z.bits_inj'. intros n Hn. rewrite Z.land_spec, Z.bits_0.
    destruct (Z.eq_dec n k) as [->|N]; [rewrite E; reflexivity|].
    rewrite Z.pow2_bits_false by lia. apply andb_false_r.
Qed.

(* ------------------------------------------------------------ adder flags *)
Lemma add_half a x c : 0 <= a < 256 -> 0 <= x < 256 -> 0 <= c <= 1 ->
  negb (Z.land (Z.land a 0x0f + Z.land x 0x0f + c) 0xf0 =? 0) = (16 <=? a mod 16 + x mod 16 + c).
Proof.
  intros Ha Hx Hc.
  change 0x0f with (Z.ones 4). rewrite !Z.land_ones by lia. change (2 ^ 4) with 16.
  assert (H : 0 <= a mod 16 + x mod 16 + c < 32) by lia.
  revert H. generalize (a mod 16 + x mod 16 + c). intros z Hz.
  assert (forall z, 0 <= z < 32 -> Bool.eqb (negb (Z.land z 0xf0 =? 0)) (16 <=? z) = true) as S.
  { apply (sweep1 (fun z => Bool.eqb (negb (Z.land z 0xf0 =? 0)) (16 <=? z)) 32). vm_compute. reflexivity. }
  apply eqb_prop. apply S. exact Hz.
Qed.

Lemma land_7f a : 0 <= a < 256 -> Z.land a 0x7f = a mod 128.
Proof. intros H. change 0x7f with (Z.ones 7). rewrite Z.land_ones by lia. reflexivity. Qed.
Lemma land_ff a : Z.land a 0xff = a mod 256.
Proof. change 0xff with (Z.ones 8). rewrite Z.land_ones by lia. reflexivity. Qed.
Lemma land_0f a : Z.land a 0x0f = a mod 16.
Proof. change 0x0f with (Z.ones 4). rewrite Z.land_ones by lia. reflexivity. Qed.

Lemma add_ov a x c : 0 <= a < 256 -> 0 <= x < 256 -> 0 <= c <= 1 ->
  negb (Z.lxor (if 255 <? a + x + c then 0x80 else 0) (Z.land (Z.land a 0x7f + Z.land x 0x7f + c) 0x80) =? 0)
  = negb (fits (signed a + signed x + c)).
Proof.
  intros Ha Hx Hc. rewrite !land_7f by assumption.
  assert (H : 0 <= a mod 128 + x mod 128 + c < 256) by lia.
  assert (E : Z.land (a mod 128 + x mod 128 + c) 0x80 = if 128 <=? a mod 128 + x mod 128 + c then 0x80 else 0).
  { revert H. generalize (a mod 128 + x mod 128 + c). intros z Hz. apply Z.eqb_eq. revert z Hz.
    apply (sweep_byte (fun z => Z.land z 0x80 =? if 128 <=? z then 0x80 else 0)). vm_compute. reflexivity. }
  rewrite E. unfold signed, fits.
  destruct (255 <? a + x + c) eqn:E1, (128 <=? a mod 128 + x mod 128 + c) eqn:E2;
    destruct (a <? 128) eqn:E3, (x <? 128) eqn:E4; cbn [negb]; change (Z.lxor 128 128 =? 0) with true;
    change (Z.lxor 0 0 =? 0) with true; change (Z.lxor 128 0 =? 0) with false; change (Z.lxor 0 128 =? 0) with false;
    cbn [negb]; lia.
Qed.

(** the three flags and the accumulator, in the order of the code *)
Lemma adder s a v cy ov ac w bC bO bA :
  wf s -> a = view s -> u8 v = w mod 256 ->
  negb (cy =? 0) = bC -> negb (ov =? 0) = bO -> negb (ac =? 0) = bA ->
  let s1 := acc_write s v in
  let s2 := bits_set s1 0xd7 cy in
  let s3 := SFR_SET_BIT ov PSW bmOV s2 in
  let s4 := SFR_SET_BIT ac PSW bmAC s3 in
  wf s4 /\ Rl s4 (setCY bC (setAC bA (setOV bO (setA a w)))) /\ Pk s4 /\ insts s4 = insts s.
Proof.
  intros W -> Ev <- <- <-. cbv zeta.
  assert (W1 : wf (acc_write s v)) by (apply wf_sfr_write; exact W).
  assert (R1 : Rl (acc_write s v) (setA (view s) w)).
  { unfold setA. rewrite <- Ev. apply (Rl_sfr_write s (view s) ACC v W (Rl_refl s)). }
  assert (P1 : Pk (acc_write s v)) by (apply Pk_acc_write; exact W).
  assert (I1 : insts (acc_write s v) = insts s) by apply (sfr_write_frame s ACC v).
  set (s1 := acc_write s v) in *. clearbody s1. set (a := setA (view s) w) in *. clearbody a.
  rewrite bits_set_cy. set (s2 := set_sfr s1 PSW (set_bit (sfr s1 PSW) 7 (negb (cy =? 0)))).
  assert (W2 : wf s2) by (apply wf_flag; [exact W1|lia..]).
  assert (P2 : Pk s2) by (apply Pk_flag; [lia|exact P1]).
  rewrite (SFR_SET_BIT_eq s2 ov 2 bmOV W2 eq_refl ltac:(lia)).
  set (s3 := set_sfr s2 PSW (set_bit (sfr s2 PSW) 2 (negb (ov =? 0)))).
  assert (W3 : wf s3) by (apply wf_flag; [exact W2|lia..]).
  assert (P3 : Pk s3) by (apply Pk_flag; [lia|exact P2]).
  rewrite (SFR_SET_BIT_eq s3 ac 6 bmAC W3 eq_refl ltac:(lia)).
  split; [apply wf_flag; [exact W3|lia..]|].
  split; [|split; [apply Pk_flag; [lia|exact P3]|exact I1]].
  assert (Rl (set_sfr s3 PSW (set_bit (sfr s3 PSW) 6 (negb (ac =? 0))))
             (setAC (negb (ac =? 0)) (setOV (negb (ov =? 0)) (setCY (negb (cy =? 0)) a)))) as HR.
  { apply Rl_flag_set; [exact W3|lia|]. apply Rl_flag_set; [exact W2|lia|]. apply Rl_flag_set; [exact W1|lia|exact R1]. }
  destruct HR as (H1 & H2 & H3 & H4 & H5).
  unfold setAC, setOV, setCY, setflag, with_sfr in *. unfold Rl, same_but_P in *. cbn [a_pc a_iram a_sfr a_xram] in *.
  split; [exact H1|]. split; [exact H2|]. split.
  - intros x Hx. rewrite H3 by exact Hx. rewrite !store_other by exact Hx. reflexivity.
  - split; [|exact H5]. intros n Hn. rewrite H4 by exact Hn. rewrite !store_same. unfold bit.
    rewrite !set_bit_spec by lia.
    destruct (n =? 6) eqn:E6, (n =? 7) eqn:E7, (n =? 2) eqn:E2; try reflexivity; lia.
Qed.

Lemma add_ok G : src_fun G do_add Add.
Proof.
  intros s o x a' W Hx Hr E _. cbn [effect] in E. rewrite Hr in E. cbn [obind] in E. done_some E.
  pose proof (acc_byte s W) as Ha. set (a := sfr s ACC) in *.
  destruct (adder s (view s) (a + x) (if 255 <? a + x then 0x80 else 0)
     (Z.lxor (if 255 <? a + x then 0x80 else 0) (Z.land (Z.land a 0x7f + Z.land x 0x7f) 0x80))
     (Z.land (Z.land a 0x0f + Z.land x 0x0f) 0xf0)
     (a + x) (256 <=? a + x) (negb (fits (signed a + signed x))) (16 <=? a mod 16 + x mod 16)) as (H1 & H2 & H3 & H4).
  - exact W.
  - reflexivity.
  - reflexivity.
  - destruct (255 <? a + x) eqn:E1; cbn; lia.
  - pose proof (add_ov a x 0 Ha Hx ltac:(lia)) as E1. rewrite !Z.add_0_r in E1. exact E1.
  - pose proof (add_half a x 0 Ha Hx ltac:(lia)) as E1. rewrite !Z.add_0_r in E1. exact E1.
  - split; [exact H1|]. split; [exact H2|]. split; [intros _ _; exact H3|].
    unfold do_add. unfold acc. fold a. rewrite H4. lia.
Qed.

Lemma addc_ok G : src_fun G do_addc Addc.
Proof.
  intros s o x a' W Hx Hr E _. cbn [effect] in E. rewrite Hr in E. cbn [obind] in E. done_some E.
  pose proof (acc_byte s W) as Ha. set (a := sfr s ACC) in *.
  set (c := b2z (CY (view s))).
  assert (Hc : 0 <= c <= 1) by (subst c; destruct (CY (view s)); cbn; lia).
  assert (Ec : (if bits_get s 0xd7 =? 0 then 0 else 1) = c).
  { rewrite bits_cy_get. fold c. destruct (c =? 0) eqn:E0; lia. }
  destruct (adder s (view s) (a + x + c) (if 255 <? a + x + c then 0x80 else 0)
     (Z.lxor (if 255 <? a + x + c then 0x80 else 0) (Z.land (Z.land a 0x7f + Z.land x 0x7f + c) 0x80))
     (Z.land (Z.land a 0x0f + Z.land x 0x0f + c) 0xf0)
     (a + x + c) (256 <=? a + x + c) (negb (fits (signed a + signed x + c))) (16 <=? a mod 16 + x mod 16 + c)) as (H1 & H2 & H3 & H4).
  - exact W.
  - reflexivity.
  - reflexivity.
  - destruct (255 <? a + x + c) eqn:E1; cbn; lia.
  - apply add_ov; assumption.
  - apply add_half; assumption.
  - unfold do_addc. rewrite Ec. unfold acc. fold a.
    split; [exact H1|]. split; [exact H2|]. split; [intros _ _; exact H3|]. rewrite H4. lia.
Qed.

(** SUBB: the new PSW *)
Lemma subb_psw_bits pw a x c r : 0 <= pw < 256 -> 0 <= a < 256 -> 0 <= x < 256 -> 0 <= c <= 1 -> r = (a - x - c) mod 256 ->
  0 <= subb_psw pw a x c r < 256 /\
  forall n, 0 <= n -> Z.testbit (subb_psw pw a x c r) n =
    (if n =? 7 then a - x - c <? 0 else if n =? 6 then a mod 16 - x mod 16 - c <? 0
     else if n =? 2 then negb (fits (signed a - signed x - c)) else Z.testbit pw n).
Proof.
  intros Hp Ha Hx Hc Hr. unfold subb_psw.
  assert (E1 : (a <? x + c) = (a - x - c <? 0)) by lia.
  assert (E2 : ((a <? 0x80) && (0x7f <? x) && (0x7f <? r)) || ((0x7f <? a) && (x <? 0x80) && (r <? 0x80))
               = negb (fits (signed a - signed x - c))).
  { unfold fits, signed. subst r. destruct (a <? 128) eqn:F1, (x <? 128) eqn:F2; lia. }
  assert (E3 : (Z.land a 0x0f <? Z.land (x + c) 0x0f) || (negb (c =? 0) && (Z.land x 0x0f =? 0x0f))
               = (a mod 16 - x mod 16 - c <? 0)).
  { rewrite !land_0f. lia. }
  rewrite E1, E2, E3. set (b1 := a - x - c <? 0). set (b2 := negb (fits (signed a - signed x - c))).
  set (b3 := a mod 16 - x mod 16 - c <? 0). clearbody b1 b2 b3.
  assert (B : forall (b : bool) m, 0 <= m < 256 -> 0 <= (if b then m else 0) < 256) by (intros [] m Hm; lia).
  split.
  { repeat apply lor_byte; try (apply B; unfold bmCY, bmOV, bmAC; lia). apply land_byte. exact Hp. }
  intros n Hn. rewrite !Z.lor_spec, Z.land_spec.
  assert (T : forall (b : bool) k, 0 <= k -> Z.testbit (if b then 2 ^ k else 0) n = (n =? k) && b).
  { intros b k Hk. destruct b.
    - destruct (n =? k) eqn:E; [apply Z.eqb_eq in E; subst n; apply Z.pow2_bits_true; lia|].
      apply Z.eqb_neq in E. apply Z.pow2_bits_false. lia.
    - rewrite Z.bits_0, andb_false_r. reflexivity. }
  change bmCY with (2 ^ 7). change bmOV with (2 ^ 2). change bmAC with (2 ^ 6).
  rewrite !T by lia. rewrite Z.lnot_spec by exact Hn. rewrite !Z.lor_spec.
  pose proof (T true 7 ltac:(lia)) as T7. pose proof (T true 2 ltac:(lia)) as T2. pose proof (T true 6 ltac:(lia)) as T6.
  cbn [andb] in T7, T2, T6. rewrite T7, T2, T6, !andb_true_r.
  destruct (n =? 7) eqn:E7, (n =? 6) eqn:E6, (n =? 2) eqn:E0; try lia; cbn [orb andb negb];
    rewrite ?andb_false_r, ?andb_true_r, ?orb_false_r; cbn [orb andb]; rewrite ?orb_false_r; reflexivity.
Qed.

Lemma subb_fin s s1 x a' : wf s -> 0 <= x < 256 ->
  let a := sfr s ACC in let c := b2z (CY (view s)) in
  let r := (a - x - c) mod 256 in
  a' = setCY (a - x - c <? 0) (setAC (a mod 16 - x mod 16 - c <? 0)
         (setOV (negb (fits (signed a - signed x - c))) (setA (view s) (a - x - c)))) ->
  wf s1 -> pc s1 = pc s -> iram s1 = iram s -> xram s1 = xram s -> insts s1 = insts s ->
  (forall y, y <> PSW -> sfr s1 y = sfr s y) -> sfr s1 PSW = subb_psw (sfr s PSW) a x c r ->
  wf (acc_write s1 r) /\ Rl (acc_write s1 r) a' /\ Pk (acc_write s1 r) /\ insts (acc_write s1 r) = insts s.
Proof.
  intros W Hx a c r -> W1 E1 E2 E3 E4 E5 E6.
  pose proof (acc_byte s W) as Ha. fold a in Ha.
  assert (Hc : 0 <= c <= 1) by (subst c; destruct (CY (view s)); cbn; lia).
  pose proof W as (_ & _ & H3 & _).
  destruct (subb_psw_bits (sfr s PSW) a x c r (H3 PSW) Ha Hx Hc eq_refl) as [Bp Bn].
  assert (Hr : 0 <= r < 256) by (subst r; apply Z.mod_pos_bound; lia).
  destruct (sfr_write_frame s1 ACC r) as (F1 & F2 & F3 & F4 & _).
  unfold acc_write. split; [apply wf_sfr_write; exact W1|]. split; [|split; [apply Pk_acc_write; exact W1|congruence]].
  unfold Rl, same_but_P, view. cbn [a_pc a_iram a_sfr a_xram]. rewrite F1, F2, F3, E1, E2, E3.
  split; [reflexivity|]. split; [reflexivity|]. split; [|split; [|reflexivity]].
  - intros y Hy. cbn [setCY setAC setOV setflag setA with_sfr a_sfr]. rewrite !store_other by exact Hy.
    rewrite sfr_write_at by exact W1. unfold store. change rA with ACC.
    destruct (y =? ACC) eqn:EA.
    + rewrite u8_id by exact Hr. reflexivity.
    + change rPSW with PSW in Hy. rewrite (proj2 (Z.eqb_neq y PSW) Hy). cbn [andb]. apply E5. exact Hy.
  - intros n Hn. unfold bit. cbn [setCY setAC setOV setflag setA with_sfr a_sfr]. rewrite !store_same.
    rewrite store_other by discriminate. change rPSW with PSW. change rA with ACC.
    rewrite sfr_write_at by exact W1.
    change (PSW =? ACC) with false. change (PSW =? PSW) with true. change (ACC =? ACC) with true. cbn [andb].
    rewrite !set_bit_spec by lia. rewrite (proj2 (Z.eqb_neq n 0)) by lia. rewrite E6, Bn by lia.
    reflexivity.
Qed.

Lemma subb_res a x (c : Z) : 0 <= c <= 1 ->
  (if c =? 0 then u8 (a - x) else u8 (u8 (a - x) - 1)) = (a - x - c) mod 256.
Proof. intros Hc. unfold u8. destruct (c =? 0) eqn:E; lia. Qed.

Lemma subb_set_ok G : src_fun G do_subb_set Subb.
Proof.
  intros s o x a' W Hx Hr E _. cbn [effect] in E. rewrite Hr in E. cbn [obind] in E. done_some E.
  pose proof (acc_byte s W) as Ha. pose proof W as (_ & _ & H3 & _).
  unfold do_subb_set. cbv zeta. rewrite bmcy_test.
  assert (Ec : (if negb (CY (view s)) then 0 else 1) = b2z (CY (view s))) by (destruct (CY (view s)); reflexivity).
  rewrite Ec. set (c := b2z (CY (view s))) in *.
  assert (Hc : 0 <= c <= 1) by (subst c; destruct (CY (view s)); cbn; lia).
  rewrite subb_res by exact Hc. unfold acc. set (a := sfr s ACC) in *.
  set (r := (a - x - c) mod 256) in *.
  destruct (subb_psw_bits (sfr s PSW) a x c r (H3 PSW) Ha Hx Hc eq_refl) as [Bp Bn].
  set (s1 := sfr_put s PSW (subb_psw (sfr s PSW) a x c r)).
  destruct (subb_fin s s1 x _ W Hx eq_refl) as (G1 & G2 & G3 & G4); try reflexivity.
  - unfold s1, sfr_put. rewrite u8_id by exact Bp. apply wf_set_sfr; [exact W|exact Bp|].
    intros _. apply bank_by_bits; [exact Bp|apply H3| |]; rewrite Bn by lia; reflexivity.
  - intros y Hy. cbn. apply put_other. exact Hy.
  - unfold s1, sfr_put. cbn [sfr set_sfr]. rewrite put_same. apply u8_id. exact Bp.
  - split; [exact G1|]. split; [exact G2|]. split; [intros _ _; exact G3|].
    fold a c r in G4. rewrite G4. lia.
Qed.

Lemma subb_write_ok G : src_fun G do_subb_write Subb.
Proof.
  intros s o x a' W Hx Hr E _. cbn [effect] in E. rewrite Hr in E. cbn [obind] in E. done_some E.
  pose proof (acc_byte s W) as Ha. pose proof W as (_ & _ & H3 & _).
  unfold do_subb_write. cbv zeta. rewrite bmcy_test.
  assert (Ec : (if negb (CY (view s)) then 0 else 1) = b2z (CY (view s))) by (destruct (CY (view s)); reflexivity).
  rewrite Ec. set (c := b2z (CY (view s))) in *.
  assert (Hc : 0 <= c <= 1) by (subst c; destruct (CY (view s)); cbn; lia).
  rewrite subb_res by exact Hc. unfold acc. set (a := sfr s ACC) in *.
  set (r := (a - x - c) mod 256) in *.
  destruct (subb_psw_bits (sfr s PSW) a x c r (H3 PSW) Ha Hx Hc eq_refl) as [Bp Bn].
  set (s1 := sfr_write s PSW (subb_psw (sfr s PSW) a x c r)).
  destruct (sfr_write_frame s PSW (subb_psw (sfr s PSW) a x c r)) as (F1 & F2 & F3 & F4 & _). fold s1 in F1, F2, F3, F4.
  destruct (subb_fin s s1 x _ W Hx eq_refl) as (G1 & G2 & G3 & G4); auto.
  - apply wf_sfr_write. exact W.
  - intros y Hy. unfold s1. rewrite sfr_write_at by exact W.
    rewrite (proj2 (Z.eqb_neq y PSW)) by exact Hy. reflexivity.
  - unfold s1. rewrite sfr_write_at, Z.eqb_refl by exact W. apply u8_id. exact Bp.
  - split; [exact G1|]. split; [exact G2|]. split; [intros _ _; exact G3|].
    fold a c r in G4. rewrite G4. lia.
Qed.

(** A op source *)
Lemma logic_a_ok G l : src_fun G (fun s x => acc_write s (logic_fn l (acc s) x)) (fun o => Logic l oA o).
Proof.
  intros s o x a' W Hx Hr E _. cbn [effect] in E. cbn [rd place_of rd_place] in E. cbn [obind] in E.
  rewrite Hr in E. cbn [obind] in E. done_some E.
  split; [apply wf_sfr_write; exact W|]. split; [apply Rl_sfr_write; [exact W|apply Rl_refl]|].
  split; [intros _ _; apply Pk_acc_write; exact W|].
  destruct (sfr_write_frame s ACC (logic_fn l (acc s) x)) as (_ & _ & _ & E4 & _).
  unfold acc_write. rewrite E4. lia.
Qed.
Lemma mov_a_ok G : src_fun G (fun s x => acc_write s x) (fun o => Mov oA o).
Proof.
  intros s o x a' W Hx Hr E _. cbn [effect] in E. rewrite Hr in E. cbn [obind] in E. done_some E.
  split; [apply wf_sfr_write; exact W|]. split; [apply Rl_sfr_write; [exact W|apply Rl_refl]|].
  split; [intros _ _; apply Pk_acc_write; exact W|].
  destruct (sfr_write_frame s ACC x) as (_ & _ & _ & E4 & _).
  unfold acc_write. rewrite E4. lia.
Qed.

(** the addressing modes of such a function *)
Lemma src_need G h ins s o a' :
  (forall a, (forall x, rd (isize G) a o <> Some x) -> effect (rom G) (isize G) (ins o) a = None) ->
  effect (rom G) (isize G) (ins o) (view s) = Some a' -> src_fun G h ins -> exists x, rd (isize G) (view s) o = Some x.
Proof.
  intros H E _. destruct (rd (isize G) (view s) o) as [x|] eqn:Er; [exists x; reflexivity|].
  rewrite H in E; [discriminate|]. intros x. rewrite Er. discriminate.
Qed.

Definition src_strict (G : cfg) (ins : opd -> instr) : Prop :=
  forall o a, (forall x, rd (isize G) a o <> Some x) -> effect (rom G) (isize G) (ins o) a = None.

Ltac strict := intros o a H; cbn [effect]; destruct (rd _ a o) eqn:E; [exfalso; apply (H _ eq_refl)|reflexivity].
Lemma strict_add G : src_strict G Add. Proof. strict. Qed.
Lemma strict_addc G : src_strict G Addc. Proof. strict. Qed.
Lemma strict_subb G : src_strict G Subb. Proof. strict. Qed.
Lemma strict_mov G : src_strict G (fun o => Mov oA o). Proof. strict. Qed.
Lemma strict_logic G l : src_strict G (fun o => Logic l oA o).
Proof.
  intros o a H. cbn [effect]. cbn [rd place_of rd_place obind].
  destruct (rd _ a o) eqn:E; [exfalso; apply (H _ eq_refl)|reflexivity].
Qed.

Lemma src_imm G h ins : src_fun G h ins -> forall b, 0 <= b < 256 -> core G (fun s => h s b) (ins (oImm b)) 0.
Proof. intros H b Hb s a' W E D. apply (H s (oImm b) b); auto. Qed.
Lemma src_dir G h ins : src_fun G h ins -> src_strict G ins -> forall b,
  core G (fun s => h s (c_read s (get_direct G b))) (ins (oDir b)) 0.
Proof.
  intros H S b s a' W E D. destruct (src_need G h ins s (oDir b) a' (S (oDir b)) E H) as [x Hx].
  destruct (corr_read s _ _ x W (corr_dir G s b) Hx) as [-> Bx]. apply (H s (oDir b) x); auto.
Qed.
Lemma src_ind G h ins : src_fun G h ins -> src_strict G ins -> forall i,
  core G (fun s => h s (c_read s (iram_cell G (c_read s (R s i))))) (ins (oInd i)) 0.
Proof.
  intros H S i s a' W E D. destruct (src_need G h ins s (oInd i) a' (S (oInd i)) E H) as [x Hx].
  destruct (corr_read s _ _ x W (corr_ind G s i W) Hx) as [-> Bx]. apply (H s (oInd i) x); auto.
Qed.
Lemma src_reg G h ins : src_fun G h ins -> src_strict G ins -> forall n,
  core G (fun s => h s (c_read s (R s n))) (ins (oReg n)) 0.
Proof.
  intros H S n s a' W E D. destruct (src_need G h ins s (oReg n) a' (S (oReg n)) E H) as [x Hx].
  destruct (corr_read s _ _ x W (corr_reg G s n W) Hx) as [-> Bx]. apply (H s (oReg n) x); auto.
Qed.

(* ------------------------------------------------------------ destinations *)
(** a function that computes a value from the state and writes it to an operand *)
Lemma not_psw_place isz s o : is_psw o = false -> place_of isz (view s) o <> InSfr PSW.
Proof.
  destruct o; cbn [is_psw place_of].
  - intros _ E. discriminate.
  - intros H E. destruct (a <? 128); [unfold ram_place in E; destruct (a <? isz); discriminate|].
    injection E as E. change rPSW with PSW in H. lia.
  - intros _ E. unfold ram_place in E. destruct (reg_val (view s) i <? isz); discriminate.
  - intros _ E. discriminate.
  - intros _ E. discriminate.
Qed.

Lemma dst_post G s c o v a' ins cyc : wf s -> corr c (place_of (isize G) (view s) o) ->
  wr (isize G) (view s) o v = Some a' -> (writes_psw ins = false -> is_psw o = false) ->
  post ins s (tick cyc (c_write G s c v)) a' cyc.
Proof.
  intros W C E Hp. destruct (corr_write G s (view s) c _ v a' W C (Rl_refl s) E) as (H1 & H2 & H3 & H4 & _).
  split; [apply wf_tick; exact H1|]. split; [exact H2|]. split.
  - intros HP Hw. apply H3; [|exact HP]. apply not_psw_place. auto.
  - cbn [insts tick]. lia.
Qed.
Lemma dst_post0 G s c o v a' ins : wf s -> corr c (place_of (isize G) (view s) o) ->
  wr (isize G) (view s) o v = Some a' -> (writes_psw ins = false -> is_psw o = false) ->
  post ins s (c_write G s c v) a' 0.
Proof.
  intros W C E Hp. pose proof (dst_post G s c o v a' ins 0 W C E Hp) as H.
  destruct H as (H1 & H2 & H3 & H4). split; [exact H1|]. split; [exact H2|]. split; [exact H3|]. cbn [insts tick] in H4. lia.
Qed.
