(** Proofs about the MOS6502: addressing modes and every opcode. *)
From Verif Require Import Base M65Model M65Spec M65Obs M65Proofs M65Proofs2.

(** the state when the opcode has been fetched *)
Definition start (t0 : st) : st := tick 1 (sPC ((PC t0 + 1) mod 65536) (sSetB false t0)).
Definition kept (t t' : st) : Prop :=
  brk t' = brk t /\ set_b t' = false /\ lvl t' = lvl t /\ hole t' = hole t /\ Z.testbit (rF t') 4 = Z.testbit (rF t) 4.

Lemma opd_mem k t : bytes t -> 0 <= k < 65536 -> opd (cM k) (At k) t.
Proof.
  intros Ht Hk. destruct Ht as (_ & _ & _ & _ & _ & _ & _ & HM). unfold opd. cbn [R value]. rewrite rd_in by assumption.
  split; [reflexivity|]. split; [apply HM|]. intros _ _ v. cbn [W]. rewrite wr_in by assumption. split; reflexivity.
Qed.
Lemma opd_A t : bytes t -> opd cA InA t.
Proof. intros Ht. split; [reflexivity|]. split; [apply Ht|]. intros _ _ v. split; reflexivity. Qed.
Lemma opd_imm v t : bytes t -> i8d t = v -> opd ci8 (Val v) t.
Proof. intros Ht <-. split; [reflexivity|]. split; [apply Ht|]. intros _ H. exfalso. apply (H (i8d t)). reflexivity. Qed.

Definition mode_ok (md : st -> cell * st) (m : mode) (n : bool -> Z) : Prop :=
  forall t0, bytes t0 -> exists c t',
    md (start t0) = (c, t') /\ addressable c /\ opd c (operand false m (view t0)) t' /\
    view t' = setPC (pc (view t0) + len m) (view t0) /\ bytes t' /\ kept t0 t' /\
    ticks t' = ticks t0 + n (crossed false m (view t0)).

Lemma start_pc t0 : at_pc (PC t0) 1 (start t0). Proof. reflexivity. Qed.
Lemma start_bytes t0 : bytes t0 -> bytes (start t0). Proof. exact (fun H => H). Qed.
Lemma cross_page k1 k2 : 0 <= k1 < 65536 -> 0 <= k2 < 65536 -> cross k1 k2 = negb (page k1 =? page k2).
Proof.
  intros H1 H2. unfold cross, page. f_equal.
  assert (E : forall k, 0 <= k < 65536 -> Z.land k 0xff00 = 256 * (k / 256)).
  { intros k Hk. change 0xff00 with (Z.shiftl (Z.ones 8) 8). 
    apply Z.bits_inj'. intros i Hi. rewrite Z.land_spec. replace (256 * (k / 256)) with (Z.shiftl (Z.shiftr k 8) 8)
      by (rewrite Z.shiftl_mul_pow2, Z.shiftr_div_pow2 by lia; lia).
    rewrite (Z.shiftl_spec (Z.ones 8)) by lia. rewrite (Z.shiftl_spec (Z.shiftr k 8)) by lia. destruct (Z_lt_dec i 8).
    - rewrite (Z.testbit_neg_r (Z.ones 8)) by lia. rewrite (Z.testbit_neg_r (Z.shiftr k 8)) by lia. apply andb_false_r.
    - rewrite Z.shiftr_spec by lia. replace (i - 8 + 8) with i by lia. destruct (Z_lt_dec i 16).
      + rewrite Z.ones_spec_low by lia. apply andb_true_r.
      + rewrite Z.ones_spec_high by lia. rewrite andb_false_r. symmetry.
        destruct (Z.eq_dec k 0) as [->|]; [apply Z.bits_0|]. apply Z.bits_above_log2; [lia|].
        apply Z.le_lt_trans with 15; [|lia]. change 15 with (Z.log2 65535). apply Z.log2_le_mono. lia. }
  rewrite !E by assumption. destruct (k1 / 256 =? k2 / 256) eqn:K; lia.
Qed.

Ltac mo := split; [|split; [|split; [reflexivity|split; [assumption|split; [repeat split|]]]]].

Lemma mode_imm : mode_ok imm8 Imm (fun _ => 2).
Proof.
  intros t0 Ht. unfold imm8. rewrite (fetch_k _ 1 _ (start_pc t0)). eexists _, _. split; [reflexivity|]. split; [exact I|].
  assert (B : is_u8 (mem t0 ((PC t0 + 1) mod 65536))) by apply Ht.
  change (mem (start t0)) with (mem t0). rewrite (u8_id _ B). change (1 + 1) with 2.
  assert (HB : bytes (tick 1 (sI8 (mem t0 ((PC t0 + 1) mod 65536)) (sPC ((PC t0 + 2) mod 65536) (start t0))))).
  { destruct Ht as (HA & HX & HY & HS & HF & Hh & Hi & HM). unfold bytes. cbn. auto 10. }
  split; [apply opd_imm; [assumption|reflexivity]|]. split; [reflexivity|]. split; [assumption|]. split; [repeat split|].
  cbn [ticks tick sTk sI8 sPC start sSetB]. lia.
Qed.
Lemma mode_zp : mode_ok zpg Zp (fun _ => 3).
Proof.
  intros t0 Ht. unfold zpg. rewrite (fetch_k _ 1 _ (start_pc t0)). eexists _, _. split; [reflexivity|].
  assert (B : is_u8 (mem t0 ((PC t0 + 1) mod 65536))) by apply Ht.
  change (mem (start t0)) with (mem t0). rewrite (u8_id _ B). change (1 + 1) with 2.
  assert (Hk : 0 <= mem t0 ((PC t0 + 1) mod 65536) < 65536) by (unfold is_u8 in B; lia).
  split; [exact Hk|]. split; [apply opd_mem; assumption|]. split; [reflexivity|]. split; [assumption|]. split; [repeat split|].
  cbn [ticks tick sTk sI8 sPC start sSetB]. lia.
Qed.
Lemma mode_zpx : mode_ok zpgX ZpX (fun _ => 4).
Proof.
  intros t0 Ht. unfold zpgX. rewrite (fetch_k _ 1 _ (start_pc t0)). eexists _, _. split; [reflexivity|].
  change (1 + 1) with 2.
  assert (Hk : 0 <= u8 (mem t0 ((PC t0 + 1) mod 65536) + rX t0) < 65536) by (pose proof (u8_range (mem t0 ((PC t0 + 1) mod 65536) + rX t0)); lia).
  split; [exact Hk|]. split; [apply (opd_mem (u8 (mem t0 ((PC t0 + 1) mod 65536) + rX t0))); assumption|]. split; [reflexivity|]. split; [assumption|]. split; [repeat split|].
  cbn [ticks tick sTk sI8 sPC start sSetB]. lia.
Qed.
Lemma mode_zpy : mode_ok zpgY ZpY (fun _ => 4).
Proof.
  intros t0 Ht. unfold zpgY. rewrite (fetch_k _ 1 _ (start_pc t0)). eexists _, _. split; [reflexivity|].
  change (1 + 1) with 2.
  assert (Hk : 0 <= u8 (mem t0 ((PC t0 + 1) mod 65536) + rY t0) < 65536) by (pose proof (u8_range (mem t0 ((PC t0 + 1) mod 65536) + rY t0)); lia).
  split; [exact Hk|]. split; [apply (opd_mem (u8 (mem t0 ((PC t0 + 1) mod 65536) + rY t0))); assumption|]. split; [reflexivity|]. split; [assumption|]. split; [repeat split|].
  cbn [ticks tick sTk sI8 sPC start sSetB]. lia.
Qed.
Lemma word_ok t0 : bytes t0 -> 0 <= word (view t0) < 65536.
Proof. intros H. apply word_range; apply H. Qed.
Lemma i16f_start t0 : bytes t0 -> i16f (start t0) = (word (view t0), sPC ((PC t0 + 3) mod 65536) (start t0)).
Proof. intros H. rewrite (i16f_eq (PC t0)); [reflexivity|apply H|reflexivity]. Qed.
Lemma mode_ab : mode_ok abs Ab (fun _ => 4).
Proof.
  intros t0 Ht. unfold abs. rewrite i16f_start by assumption. eexists _, _. split; [reflexivity|].
  pose proof (word_ok t0 Ht) as Hk.
  split; [exact Hk|]. split; [apply opd_mem; assumption|]. split; [reflexivity|]. split; [assumption|]. split; [repeat split|].
  cbn [ticks tick sTk sI8 sPC start sSetB]. lia.
Qed.
Lemma ticks_if b t : ticks (tick_if b t) = ticks t + b2z b.
Proof. destruct b; cbn; lia. Qed.
Lemma view_if b t : view (tick_if b t) = view t. Proof. destruct b; reflexivity. Qed.
Lemma bytes_if b t : bytes t -> bytes (tick_if b t). Proof. destruct b; exact (fun H => H). Qed.
Lemma kept_if t b t' : kept t t' -> kept t (tick_if b t'). Proof. destruct b; exact (fun H => H). Qed.
Lemma mode_abx : mode_ok absX AbX (fun b => 4 + b2z b).
Proof.
  intros t0 Ht. unfold absX. rewrite i16f_start by assumption. eexists _, _. split; [reflexivity|].
  pose proof (word_ok t0 Ht) as Hw. pose proof (u16_range (word (view t0) + rX t0)) as Hk.
  change (rX (sPC ((PC t0 + 3) mod 65536) (start t0))) with (rX t0).
  rewrite cross_page by assumption.
  split; [exact Hk|]. split; [apply (opd_mem (u16 (word (view t0) + rX t0))); [apply bytes_if; assumption|assumption]|].
  split; [rewrite view_if; reflexivity|]. split; [apply bytes_if; assumption|]. split; [apply kept_if; repeat split|].
  rewrite ticks_if. cbn [ticks tick sTk sI8 sPC start sSetB]. change (crossed false AbX (view t0)) with (negb (page (word (view t0)) =? page (u16 (word (view t0) + rX t0)))). lia.
Qed.
Lemma mode_aby : mode_ok absY AbY (fun b => 4 + b2z b).
Proof.
  intros t0 Ht. unfold absY. rewrite i16f_start by assumption. eexists _, _. split; [reflexivity|].
  pose proof (word_ok t0 Ht) as Hw. pose proof (u16_range (word (view t0) + rY t0)) as Hk.
  change (rY (sPC ((PC t0 + 3) mod 65536) (start t0))) with (rY t0).
  rewrite cross_page by assumption.
  split; [exact Hk|]. split; [apply (opd_mem (u16 (word (view t0) + rY t0))); [apply bytes_if; assumption|assumption]|].
  split; [rewrite view_if; reflexivity|]. split; [apply bytes_if; assumption|]. split; [apply kept_if; repeat split|].
  rewrite ticks_if. cbn [ticks tick sTk sI8 sPC start sSetB]. change (crossed false AbY (view t0)) with (negb (page (word (view t0)) =? page (u16 (word (view t0) + rY t0)))). lia.
Qed.
Lemma read_addr_eq t k : bytes t -> 0 <= k < 65535 -> read_addr t k = mem t k + 256 * mem t (k + 1).
Proof.
  intros Ht Hk. unfold read_addr. rewrite !rd_in by lia. rewrite !u8_id by apply Ht. lia.
Qed.
Lemma zpword_range t0 z : bytes t0 -> 0 <= zpword false (view t0) z < 65536.
Proof. intros H. apply word_range; apply H. Qed.
Lemma mode_indx : mode_ok indX IndX (fun _ => 6).
Proof.
  intros t0 Ht. unfold indX. rewrite (fetch_k _ 1 _ (start_pc t0)). eexists _, _. split; [reflexivity|].
  change (1 + 1) with 2. set (a0 := u8 (mem t0 ((PC t0 + 1) mod 65536) + rX t0)).
  assert (Ha : 0 <= a0 < 256) by apply u8_range.
  assert (E : u16 (read_addr (sPC ((PC t0 + 2) mod 65536) (start t0)) a0) = zpword false (view t0) a0).
  { rewrite read_addr_eq; [|assumption|lia]. apply u16_id. apply (zpword_range t0 a0 Ht). }
  change (mem (start t0)) with (mem t0). change (rX (sPC ((PC t0 + 2) mod 65536) (start t0))) with (rX t0).
  fold a0. rewrite E. pose proof (zpword_range t0 a0 Ht) as Hk.
  split; [exact Hk|]. split; [apply (opd_mem (zpword false (view t0) a0)); assumption|]. split; [reflexivity|]. split; [assumption|]. split; [repeat split|].
  cbn [ticks tick sTk sI8 sPC start sSetB]. lia.
Qed.
Lemma mode_indy : mode_ok indY IndY (fun b => 5 + b2z b).
Proof.
  intros t0 Ht. unfold indY. rewrite (fetch_k _ 1 _ (start_pc t0)). eexists _, _. split; [reflexivity|].
  change (1 + 1) with 2. change (mem (start t0)) with (mem t0). set (a0 := mem t0 ((PC t0 + 1) mod 65536)).
  assert (Ha : 0 <= a0 < 256) by apply Ht.
  assert (E : u16 (read_addr (sPC ((PC t0 + 2) mod 65536) (start t0)) a0) = zpword false (view t0) a0).
  { rewrite read_addr_eq; [|assumption|lia]. apply u16_id. apply (zpword_range t0 a0 Ht). }
  change (rY (sPC ((PC t0 + 2) mod 65536) (start t0))) with (rY t0).
  rewrite E. pose proof (zpword_range t0 a0 Ht) as Hz. pose proof (u16_range (zpword false (view t0) a0 + rY t0)) as Hk.
  rewrite cross_page by assumption.
  split; [exact Hk|]. split; [apply (opd_mem (u16 (zpword false (view t0) a0 + rY t0))); [apply bytes_if; assumption|assumption]|].
  split; [rewrite view_if; reflexivity|]. split; [apply bytes_if; assumption|]. split; [apply kept_if; repeat split|].
  rewrite ticks_if. cbn [ticks tick sTk sI8 sPC start sSetB].
  change (crossed false IndY (view t0)) with (negb (page (zpword false (view t0) a0) =? page (u16 (zpword false (view t0) a0 + rY t0)))). lia.
Qed.
Lemma opd_tick c l k t : opd c l t -> opd c l (tick k t).
Proof.
  intros (H1 & H2 & H3). split; [destruct c; exact H1|]. split; [destruct c; exact H2|].
  intros Hn Hv v. destruct (H3 Hn Hv v) as [E1 E2]. destruct c; try exact (conj E1 E2).
  cbn [W] in *. unfold wr in *. destruct ((0 <=? a) && (a <? 65536)); exact (conj E1 E2).
Qed.
(** a tick before the operand is decoded *)
Lemma mode_tick md m n k : mode_ok md m n ->
  (forall t c t', md t = (c, t') -> md (tick k t) = (c, tick k t')) ->
  mode_ok (fun t => md (tick k t)) m (fun b => n b + k).
Proof.
  intros H Hc t0 Ht. destruct (H t0 Ht) as (c & t' & E & Ha & Ho & Hv & Hb & Hk & Htk).
  exists c, (tick k t'). split; [apply Hc; exact E|]. split; [exact Ha|]. split; [apply opd_tick; exact Ho|].
  split; [exact Hv|]. split; [exact Hb|]. split; [exact Hk|]. cbn [ticks tick sTk]. lia.
Qed.
Lemma mode_acc : mode_ok (fun t => (cA, tick 1 t)) Acc (fun _ => 2).
Proof.
  intros t0 Ht. eexists _, _. split; [reflexivity|]. split; [exact I|]. split; [apply opd_A; assumption|].
  split; [reflexivity|]. split; [assumption|]. split; [repeat split|]. cbn [ticks tick sTk start sPC sSetB]. lia.
Qed.
Lemma tick_swap j k t : tick j (tick k t) = tick k (tick j t).
Proof. unfold tick, sTk. cbn. f_equal. lia. Qed.
Lemma zpg_tick k t c t' : zpg t = (c, t') -> zpg (tick k t) = (c, tick k t').
Proof. unfold zpg, fetch. intros [= <- <-]. f_equal. rewrite (tick_swap k 2). reflexivity. Qed.
Lemma zpgX_tick k t c t' : zpgX t = (c, t') -> zpgX (tick k t) = (c, tick k t').
Proof. unfold zpgX, fetch. intros [= <- <-]. f_equal. rewrite (tick_swap k 3). reflexivity. Qed.
Lemma i16f_tick k t a t' : i16f t = (a, t') -> i16f (tick k t) = (a, tick k t').
Proof. unfold i16f, fetch. intros [= <- <-]. reflexivity. Qed.
Lemma abs_tick k t c t' : abs t = (c, t') -> abs (tick k t) = (c, tick k t').
Proof.
  unfold abs. destruct (i16f t) as [a0 t1] eqn:E. rewrite (i16f_tick k _ _ _ E). intros H. injection H as <- <-. f_equal. apply tick_swap.
Qed.
Lemma absX_tick k t c t' : absX t = (c, t') -> absX (tick k t) = (c, tick k t').
Proof.
  unfold absX. destruct (i16f t) as [a0 t1] eqn:E. rewrite (i16f_tick k _ _ _ E). intros H.
  change (rX (tick k t1)) with (rX t1).
  set (b := cross a0 (u16 (a0 + rX t1))) in *. injection H as <- <-. f_equal. destruct b; cbn [tick_if]; unfold tick, sTk; cbn; f_equal; lia.
Qed.
Lemma mode_rmwzp : mode_ok rmwzpg Zp (fun _ => 5).
Proof. exact (mode_tick zpg Zp (fun _ => 3) 2 mode_zp (zpg_tick 2)). Qed.
Lemma mode_rmwzpx : mode_ok rmwzpgX ZpX (fun _ => 6).
Proof. exact (mode_tick zpgX ZpX (fun _ => 4) 2 mode_zpx (zpgX_tick 2)). Qed.
Lemma mode_rmwab : mode_ok rmwabs Ab (fun _ => 6).
Proof. exact (mode_tick abs Ab (fun _ => 4) 2 mode_ab (abs_tick 2)). Qed.
Lemma mode_rmwabx : mode_ok rmwabsX AbX (fun b => 4 + b2z b + 3).
Proof. exact (mode_tick absX AbX (fun b => 4 + b2z b) 3 mode_abx (absX_tick 3)). Qed.
Lemma mode_staabx : mode_ok (fun t => absX (tick 1 t)) AbX (fun b => 4 + b2z b + 1).
Proof. exact (mode_tick absX AbX (fun b => 4 + b2z b) 1 mode_abx (absX_tick 1)). Qed.
