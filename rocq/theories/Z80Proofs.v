(** Z80: bytes, bits, registers, memory, operands of the model against those of the manual. *)
From Verif Require Import Base Z80Model Z80Spec.

(** ** Bytes and bits *)
Lemma range_case n (P : Z -> Prop) : (forall k, (k < n)%nat -> P (Z.of_nat k)) -> forall z, 0 <= z < Z.of_nat n -> P z.
Proof. intros H z Hz. rewrite <- (Z2Nat.id z) by lia. apply H. lia. Qed.
Lemma sweep n (f : Z -> bool) : forallb (fun k => f (Z.of_nat k)) (seq 0 n) = true ->
  forall z, 0 <= z < Z.of_nat n -> f z = true.
Proof.
  intros H z Hz. rewrite forallb_forall in H. specialize (H (Z.to_nat z)).
  rewrite Z2Nat.id in H by lia. apply H. apply in_seq. lia.
Qed.
Lemma u8_id v : byte v -> u8 v = v.
Proof. intros. unfold u8, byte in *. apply Z.mod_small. lia. Qed.
Lemma u16_id v : word v -> u16 v = v.
Proof. intros. unfold u16, word in *. apply Z.mod_small. lia. Qed.
Lemma w_id v : word v -> w v = v.
Proof. intros. unfold w, word in *. apply Z.mod_small. lia. Qed.
Lemma u8_range v : byte (u8 v).
Proof. unfold u8, byte. apply Z.mod_pos_bound. lia. Qed.
Lemma w_range v : word (w v).
Proof. unfold w, word. apply Z.mod_pos_bound. lia. Qed.
Lemma inmem_true a : word a -> inmem a = true.
Proof. unfold word, inmem. lia. Qed.
Lemma bit7 v : byte v -> Z.testbit v 7 = (128 <=? v).
Proof.
  intros H. assert (S := sweep 256 (fun r => Bool.eqb (Z.testbit r 7) (128 <=? r)) ltac:(vm_compute; reflexivity) v ltac:(unfold byte in H; lia)).
  cbv beta in S. apply Bool.eqb_prop in S. exact S.
Qed.
Lemma bit0 v : Z.testbit v 0 = Z.odd v.
Proof. apply Z.bit0_odd. Qed.
Lemma bit_fl c m k : Z.testbit (fl c m) k = c && Z.testbit m k.
Proof. destruct c; [reflexivity|]. cbn [fl]. apply Z.bits_0. Qed.
Lemma bit_clr f m k : Z.testbit (clr f m) k = Z.testbit f k && Z.testbit (255 - m) k.
Proof. apply Z.land_spec. Qed.
Lemma parity_even v : byte v -> parity v = even_parity v.
Proof.
  intros H. assert (S := sweep 256 (fun r => Bool.eqb (parity r) (even_parity r)) ltac:(vm_compute; reflexivity) v ltac:(unfold byte in H; lia)).
  cbv beta in S. apply Bool.eqb_prop in S. exact S.
Qed.
Lemma byte_flags b : byte b -> byte_of (flags_of b) = b.
Proof.
  intros H. assert (S := sweep 256 (fun r => byte_of (flags_of r) =? r) ltac:(vm_compute; reflexivity) b ltac:(unfold byte in H; lia)).
  cbv beta in S. lia.
Qed.
Lemma i8_sgn v : byte v -> i8 v = sgn v.
Proof. intros H. unfold i8, sgn. cbv zeta. rewrite u8_id by exact H. reflexivity. Qed.
Lemma i16_sgn v : word v -> i16 v = sgn16 v.
Proof. intros H. unfold i16, sgn16. cbv zeta. rewrite u16_id by exact H. reflexivity. Qed.
Lemma sgn_range v : byte v -> -128 <= sgn v < 128.
Proof. unfold byte, sgn. intros. destruct (v <? 128) eqn:E; lia. Qed.
Lemma word_parts v : word v -> byte (v / 256) /\ byte (v mod 256) /\ v = 256 * (v / 256) + v mod 256.
Proof.
  unfold word, byte. intros H.
  assert (0 <= v / 256 < 256) by (split; [apply Z.div_pos|apply Z.div_lt_upper_bound]; lia).
  pose proof (Z.mod_pos_bound v 256 ltac:(lia)). pose proof (Z.div_mod v 256 ltac:(lia)). lia.
Qed.
Lemma join h l : byte h -> byte l -> word (256 * h + l) /\ (256 * h + l) / 256 = h /\ (256 * h + l) mod 256 = l.
Proof.
  unfold byte, word. intros Hh Hl. split; [lia|]. split.
  - rewrite Z.add_comm, Z.mul_comm, Z.div_add, Z.div_small by lia. lia.
  - rewrite Z.add_comm, Z.mul_comm, Z.mod_add, Z.mod_small by lia. lia.
Qed.
Lemma w_parts v : w v / 256 = u8 (v / 256) /\ w v mod 256 = u8 v.
Proof.
  unfold w, u8. split.
  - change 65536 with (256 * 256). rewrite Z.rem_mul_r by lia.
    rewrite Z.add_comm, Z.mul_comm, Z.div_add_l by lia. rewrite (Z.div_small (v mod 256)) by (apply Z.mod_pos_bound; lia). lia.
  - change 65536 with (256 * 256). rewrite Z.rem_mul_r by lia.
    rewrite Z.mul_comm, Z.mod_add, Z.mod_mod by lia. reflexivity.
Qed.
Lemma w_w v k : w (w v + k) = w (v + k).
Proof. unfold w. rewrite Zplus_mod_idemp_l. reflexivity. Qed.
Lemma w_w_sub v k : w (w v - k) = w (v - k).
Proof. unfold w. rewrite Zminus_mod_idemp_l. reflexivity. Qed.

(** bits of constants *)
Ltac cbits :=
  repeat match goal with |- context [Z.testbit ?a ?b] =>
     match a with Zpos _ => idtac | 255 - Zpos _ => idtac | 0 => idtac end;
     match b with Zpos _ => idtac | 0 => idtac end;
     let v := eval vm_compute in (Z.testbit a b) in change (Z.testbit a b) with v end.
Ltac bits := unfold xy, zs, set_z, set_s; repeat (progress rewrite ?Z.lor_spec, ?Z.lxor_spec, ?bit_clr, ?Z.land_spec, ?bit_fl); cbits;
  rewrite ?andb_false_r, ?andb_true_r, ?orb_false_r, ?orb_true_r, ?xorb_false_r; cbn [orb andb].
(** the documented flags, one by one *)
Ltac flag_parts := unfold samef; cbn [fS fZ fH fP fN fC flags_of];
  refine (conj _ (conj _ (conj _ (conj _ (conj _ _))))).

(** ** The same state *)
Lemma sbf_refl x : same_but_flags x x.
Proof. unfold same_but_flags. repeat match goal with |- _ /\ _ => split end; intros; reflexivity. Qed.
Lemma samef_refl a : samef a a.
Proof. repeat split. Qed.
Lemma same_refl x : same x x.
Proof. split; [apply sbf_refl|apply samef_refl]. Qed.
(** equal but for the flags *)
Lemma sbf_f x y v : s_f v x = y -> same_but_flags x y.
Proof. intros <-. apply (sbf_refl x). Qed.
Lemma sbf_ff x y v u : s_f v x = s_f u y -> same_but_flags x y.
Proof.
  intros H. assert (K : forall A (g : M -> A), g (s_f v x) = g (s_f u y)) by (intros; rewrite H; reflexivity).
  refine (conj (K _ r) (conj (K _ ix) (conj (K _ iy) (conj (K _ sp) (conj (K _ pc) (conj _ (conj (K _ r') (conj (K _ f')
   (conj (K _ vi) (conj (K _ vr) (conj (K _ i1) (conj (K _ i2) (conj (K _ md) (conj (K _ pin) (K _ pout))))))))))))))).
  intros a. exact (f_equal (fun g => g a) (K _ mm)).
Qed.
Lemma same_ff x y u : s_f u x = s_f u y -> samef (f x) (f y) -> same x y.
Proof. intros H K. split; [|exact K]. exact (sbf_ff _ _ _ _ H). Qed.

(** ** Ranges *)
Lemma wf_rg s n : wf s -> byte (rg s n). Proof. intros W. apply W. Qed.
Lemma wf_A s : wf s -> byte (A s). Proof. intros W. apply W. Qed.
Lemma wf_mem s a : wf s -> byte (mem s a). Proof. intros W. apply W. Qed.
Lemma wf_PC s : wf s -> word (PC s). Proof. intros W. apply W. Qed.
Lemma wf_SP s : wf s -> word (SP s). Proof. intros W. apply W. Qed.
Lemma wf_F s : wf s -> byte (F s). Proof. intros W. apply W. Qed.
Lemma W_range x p s : wf s -> word (Z80Model.W x p s).
Proof.
  intros (Hr & _ & _ & _ & Hx & Hy & Hs & _). destruct p; cbn [Z80Model.W]; try (destruct x; assumption); try exact Hs;
    apply join; apply Hr.
Qed.
Lemma wf_set_PC s v : wf s -> word v -> wf (set_PC v s).
Proof. unfold wf. cbn. intros; decompose [and] H. repeat (split; [assumption|]). assumption. Qed.
Lemma wf_set_F s v : wf s -> byte v -> wf (set_F v s).
Proof. unfold wf. cbn. intros; decompose [and] H. repeat (split; [assumption|]). assumption. Qed.

(** ** Registers and memory *)
Section Z.
Variable dum lim : Z.
Lemma W_pairv x p s : Z80Model.W x p s = pairv x p (abs s).
Proof. destruct p; reflexivity. Qed.
Lemma wW_setpair x p v s : abs (wW x p v s) = setpair x p (w v) (abs s).
Proof.
  destruct p; cbn [wW setpair]; unfold wR2, set2; cbn [Z.add]; rewrite ?(proj1 (w_parts v)), ?(proj2 (w_parts v));
    try reflexivity; destruct x; reflexivity.
Qed.
Lemma wR_setr n v s : abs (wR n v s) = setr n (v mod 256) (abs s).
Proof. reflexivity. Qed.
Lemma wR_byte n v s : byte v -> abs (wR n v s) = setr n v (abs s).
Proof. intros H. rewrite wR_setr. change (v mod 256) with (u8 v). rewrite u8_id by exact H. reflexivity. Qed.
Lemma rd_mm s a : word a -> rd dum s a = mm (abs s) a.
Proof. intros H. unfold rd. rewrite inmem_true by exact H. reflexivity. Qed.
Lemma wr_setm a v s : word a -> abs (wr a v s) = setm a (v mod 256) (abs s).
Proof. intros H. unfold wr. rewrite inmem_true by exact H. reflexivity. Qed.
Lemma wr_byte a v s : word a -> byte v -> abs (wr a v s) = setm a v (abs s).
Proof. intros H K. rewrite wr_setm by exact H. change (v mod 256) with (u8 v). rewrite u8_id by exact K. reflexivity. Qed.
Lemma store2_setm16 a v s : word a -> a <> 65535 -> abs (store2 a v s) = setm16 a (w v) (abs s).
Proof.
  intros H K. unfold store2, setm16. assert (word (a + 1)) by (unfold word in *; lia).
  rewrite !wr_setm by assumption. rewrite (w_id (a + 1)) by assumption.
  rewrite (proj1 (w_parts v)), (proj2 (w_parts v)). reflexivity.
Qed.
Lemma get2_m16 a s : word a -> a <> 65535 -> get2 dum a s = m16 a (abs s).
Proof.
  intros H K. unfold get2, m16. assert (word (a + 1)) by (unfold word in *; lia).
  rewrite !rd_mm by assumption. rewrite (w_id (a + 1)) by assumption. lia.
Qed.
Lemma m16_range a s : wf s -> word (m16 a (abs s)).
Proof.
  intros W. unfold m16. rewrite Z.add_comm. apply join; apply W.
Qed.
Lemma fetch_eq s : wf s -> fst (fetch dum s) = fst (next8 (abs s)) /\ abs (snd (fetch dum s)) = snd (next8 (abs s)) /\
  wf (snd (fetch dum s)) /\ byte (fst (fetch dum s)) /\ F (snd (fetch dum s)) = F s.
Proof.
  intros W. unfold fetch. cbn [fst snd]. rewrite rd_mm by (apply wf_PC, W).
  refine (conj eq_refl (conj eq_refl (conj _ (conj _ eq_refl)))); [|apply wf_mem, W].
  apply wf_set_PC; [exact W|apply w_range].
Qed.
Lemma fetch2_eq s : wf s -> fst (fetch2 dum s) = fst (next16 (abs s)) /\ abs (snd (fetch2 dum s)) = snd (next16 (abs s)) /\
  wf (snd (fetch2 dum s)) /\ word (fst (fetch2 dum s)) /\ F (snd (fetch2 dum s)) = F s.
Proof.
  intros W. unfold fetch2, fetch. cbn [fst snd]. rewrite (rd_mm s) by (apply wf_PC, W). rewrite rd_mm by apply w_range.
  cbn [PC set_PC]. split; [unfold next16; cbn [fst]; rewrite Z.add_comm; reflexivity|]. split.
  - unfold next16. cbn [snd]. unfold s_pc, abs. cbn [PC set_PC pc rg F IX IY SP mem arg aF iv rr iff1 iff2 im inp outp r f ix iy sp mm r' f' vi vr i1 i2 md pin pout].
    fold (w (PC s + 1)). fold (w (w (PC s + 1) + 1)). rewrite w_w. replace (PC s + 1 + 1) with (PC s + 2) by lia. reflexivity.
  - split; [apply wf_set_PC; [apply wf_set_PC; [exact W|apply w_range]|apply w_range]|]. split; [|reflexivity].
    apply join; apply (wf_mem s); exact W.
Qed.
Lemma fetch_pair s : fetch dum s = (fst (fetch dum s), snd (fetch dum s)).
Proof. reflexivity. Qed.

(** ** Operands *)
Lemma resolve_eq x l s : wf s ->
  let '(p, s1) := resolve dum x l s in
  let '(read, write, x1) := operand x l (abs s) in
  abs s1 = x1 /\ wf s1 /\ F s1 = F s /\
  (forall s2, wf s2 -> getp dum x p s2 = read (abs s2) /\ byte (getp dum x p s2)) /\
  (forall s2 v, wf s2 -> byte v -> abs (putp x p v s2) = write v (abs s2)).
Proof.
  intros W. destruct l; cbn [resolve operand].
  - split; [reflexivity|]. split; [exact W|]. split; [reflexivity|]. split.
    + intros s2 W2. split; [reflexivity|]. apply W2.
    + intros s2 v W2 Hv. apply wR_byte. exact Hv.
  - pose proof (W_range x HL s W) as H. rewrite <- W_pairv.
    split; [reflexivity|]. split; [exact W|]. split; [reflexivity|]. split.
    + intros s2 W2. cbn [getp]. rewrite rd_mm by exact H. split; [reflexivity|]. apply W2.
    + intros s2 v W2 Hv. apply wr_byte; assumption.
  - split; [reflexivity|]. split; [exact W|]. split; [reflexivity|]. split.
    + intros s2 W2. cbn [getp]. rewrite W_pairv. split; [reflexivity|]. rewrite <- W_pairv. apply word_parts, W_range, W2.
    + intros s2 v W2 Hv. cbn [putp]. rewrite wW_setpair, u8_id by exact Hv. rewrite W_pairv. rewrite w_id; [reflexivity|].
      apply join; [exact Hv|]. rewrite <- W_pairv. apply word_parts, W_range, W2.
  - split; [reflexivity|]. split; [exact W|]. split; [reflexivity|]. split.
    + intros s2 W2. cbn [getp]. rewrite W_pairv. split; [reflexivity|]. rewrite <- W_pairv. apply word_parts, W_range, W2.
    + intros s2 v W2 Hv. cbn [putp]. rewrite wW_setpair, u8_id by exact Hv. rewrite W_pairv. rewrite w_id; [reflexivity|].
      apply join; [|exact Hv]. rewrite <- W_pairv. apply word_parts, W_range, W2.
  - destruct (fetch_eq s W) as (E1 & E2 & W1 & B & EF).
    destruct (fetch dum s) as [d s1]. cbn [fst snd] in *.
    destruct (next8 (abs s)) as [d' x1]. cbn [fst snd] in *. subst d'. rewrite <- E2. rewrite <- W_pairv.
    unfold disp. rewrite i8_sgn by exact B. fold (w (Z80Model.W x XX s1 + sgn d)).
    split; [reflexivity|]. split; [exact W1|]. split; [exact EF|]. split.
    + intros s2 W2. cbn [getp]. rewrite rd_mm by apply w_range. split; [reflexivity|]. apply W2.
    + intros s2 v W2 Hv. apply wr_byte; [apply w_range|exact Hv].
  - destruct (fetch_eq s W) as (E1 & E2 & W1 & B & EF).
    destruct (fetch dum s) as [d s1]. cbn [fst snd] in *.
    destruct (next8 (abs s)) as [d' x1]. cbn [fst snd] in *. subst d'. rewrite <- E2.
    split; [reflexivity|]. split; [exact W1|]. split; [exact EF|]. split.
    + intros s2 W2. split; [reflexivity|exact B].
    + reflexivity.
Qed.

(** ** Stack *)
Lemma abs_chk ipc b s : abs (chk lim ipc b s) = abs s.
Proof. unfold chk. destruct (SP s <? lim); reflexivity. Qed.
Lemma push2_eq ipc v s : wf s -> SP s <> 1 -> abs (push2 lim ipc v s) = push (w v) (abs s).
Proof.
  intros W H. unfold push2. rewrite abs_chk. pose proof (wf_SP s W) as K. unfold word in K.
  cbn [SP set_SP]. change (u16 v) with (w v). change (u16 (SP s - 2)) with (w (SP s - 2)).
  rewrite store2_setm16; [|apply w_range|].
  - rewrite (w_id (w v)) by apply w_range. reflexivity.
  - unfold w. Z.div_mod_to_equations. lia.
Qed.
Lemma pop2_eq s : wf s -> SP s <> 65535 ->
  fst (pop2 dum s) = fst (pop (abs s)) /\ abs (snd (pop2 dum s)) = snd (pop (abs s)) /\ word (fst (pop2 dum s)).
Proof.
  intros W H. unfold pop2, pop. cbn [fst snd]. rewrite get2_m16 by (try apply wf_SP, W; exact H).
  split; [reflexivity|]. split; [reflexivity|]. apply m16_range, W.
Qed.
Lemma holds_cond c s : 0 <= c < 8 -> holds c s = cond c (abs s).
Proof.
  intros H. assert (D : c = 0 \/ c = 1 \/ c = 2 \/ c = 3 \/ c = 4 \/ c = 5 \/ c = 6 \/ c = 7) by lia.
  destruct D as [-> | [-> | [-> | [-> | [-> | [-> | [-> | ->]]]]]]]; reflexivity.
Qed.
Lemma carry_cy s : carry (abs s) = cy s.
Proof. reflexivity. Qed.
End Z.
