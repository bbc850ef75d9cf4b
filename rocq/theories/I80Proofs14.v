(** DSUB of the 8085. *)
From Verif Require Import Base I80Model I80Spec I80Spec2 I80Proofs I80Proofs2 I80Proofs3 I80Proofs4 I80Proofs5 I80Proofs6 I80Proofs7 I80Proofs8 I80Proofs9 I80Proofs10 I80Proofs11 I80Proofs12 I80Proofs13.

Lemma exec_dsub lim dum s : wf s -> mem s (PC s) = 8 -> let x := abs s in
  let r := w (pairv 2 x - pairv 0 x) in let s' := abs (fst (exec_inst true lim dum false s)) in
  pairv 2 s' = r /\ fZ s' = (r =? 0) /\ fS s' = (32768 <=? r) /\
  fC s' = ((pairv 2 x <? pairv 0 x) || (pairv 0 x =? 0)) /\ fP s' = even_parity (r / 256) /\
  (forall n, n = 0 \/ n = 1 \/ n = 2 \/ n = 3 \/ n = 7 -> R s' n = R x n) /\ sp s' = sp x /\ pc s' = w (pc x + 1) /\
  (forall a, mm s' a = mm x a).
Proof.
  intros W Hc. cbv zeta. start Hc. change (itab true 8) with DSUB. cbn [run fst].
  unfold dsub. cbv zeta. change (HL (started s)) with (HL s). change (BC (started s)) with (BC s).
  change (pairv 2 (abs s)) with (HL s). change (pairv 0 (abs s)) with (BC s).
  pose proof (HL_range s W) as Rh. pose proof (BC_range s W) as Rb.
  set (b := u16 (- BC s)). set (t := HL s + b).
  assert (Eb : b = if BC s =? 0 then 0 else 65536 - BC s).
  { unfold b, u16. destruct (BC s =? 0) eqn:X.
    - replace (BC s) with 0 by lia. reflexivity.
    - symmetry. apply Z.mod_unique with (q := -1); lia. }
  assert (Er : u16 t = w (HL s - BC s)).
  { unfold t, b, u16, w. rewrite Zplus_mod_idemp_r. f_equal. }
  rewrite Er. set (r := w (HL s - BC s)) in *. assert (Hr : 0 <= r < 65536) by apply w_range.
  assert (Hrh : 0 <= r / 256 < 256) by (split; [apply Z.div_pos|apply Z.div_lt_upper_bound]; lia).
  rewrite (par_fl (r / 256) Hrh).
  assert (B15 : Z.testbit t 15 = (32768 <=? r)).
  { assert (E16 : Z.testbit t 15 = Z.testbit (u16 t) 15).
    { unfold u16. symmetry. apply (Z.mod_pow2_bits_low t 16 15). lia. }
    rewrite E16, Er.
    rewrite Z.testbit_odd. rewrite Z.shiftr_div_pow2 by lia. change (2 ^ 15) with 32768.
    destruct (32768 <=? r) eqn:X.
    - replace (r / 32768) with 1; [reflexivity|]. apply Z.div_unique with (r := r - 32768); lia.
    - rewrite Z.div_small by lia. reflexivity. }
  assert (Ehl : 256 * u8 (r / 256) + u8 r = r).
  { rewrite (u8_id (r / 256) Hrh). unfold u8. pose proof (Z.div_mod r 256 ltac:(lia)). lia. }
  split; [exact Ehl|].
  split. { cbn [abs fZ]. rewrite wF_bit by (unfold docbit; lia). bits. reflexivity. }
  split. { cbn [abs fS]. rewrite wF_bit by (unfold docbit; lia). bits. rewrite B15. reflexivity. }
  split. { cbn [abs fC]. rewrite wF_bit by (unfold docbit; lia). bits. unfold t. rewrite Eb.
    destruct (BC s =? 0) eqn:X; [rewrite orb_true_r; lia|]. rewrite orb_false_r.
    destruct (HL s + (65536 - BC s) <=? 65535) eqn:Y; destruct (HL s <? BC s) eqn:Z0; try reflexivity; lia. }
  split. { cbn [abs fP]. rewrite wF_bit by (unfold docbit; lia). bits. reflexivity. }
  split. { intros n Hn. destruct Hn as [-> | [-> | [-> | [-> | ->]]]]; reflexivity. }
  split; [reflexivity|]. split; [reflexivity|]. intros a. reflexivity.
Qed.
