(** Z80: prefixed instructions, the tables, one step. *)
From Verif Require Import Base Z80Model Z80Spec Z80Proofs Z80Proofs2 Z80Proofs3 Z80Proofs4 Z80Proofs5 Z80Proofs6 Z80Proofs7.

(** ** Tables *)
Lemma map_at {T} (g h : Z -> T) : map (fun k => g (Z.of_nat k)) (seq 0 256) = map (fun k => h (Z.of_nat k)) (seq 0 256) ->
  forall c, byte c -> g c = h c.
Proof.
  intros E c H. unfold byte in H. pose proof (proj1 map_ext_in_iff E (Z.to_nat c)) as K.
  cbv beta in K. rewrite Z2Nat.id in K by lia. apply K. apply in_seq. lia.
Qed.
Definition code_ed (c : Z) : op := match decode_ed c with Some o => o | None => INV end.
Definition code_xd (c : Z) : op := match indexed c with Some o => o | None => INV end.
Lemma tab_00_eq c : byte c -> op_at tab_00 c = decode c.
Proof. apply map_at. vm_compute. reflexivity. Qed.
Lemma tab_ed_eq c : byte c -> op_at tab_ed c = code_ed c.
Proof. apply map_at. vm_compute. reflexivity. Qed.
Lemma tab_xd_eq c : byte c -> op_at tab_xd c = code_xd c.
Proof. apply map_at. vm_compute. reflexivity. Qed.
(** prefixes are where they should be *)
Definition prefix (o : op) : bool := match o with PCB | PXD _ | PED | PXCB | INV => true | _ => false end.
Definition okb (o : op) : bool :=
  match o with
  | JR (Some c) | JP (Some c) | CALL (Some c) | RET (Some c) => (0 <=? c) && (c <? 8)
  | ADDp RSP _ => false | SBCp XX | ADCp XX | EXSP RSP => false | _ => true
  end.
Lemma okb_ok o : okb o = true -> op_ok o /\ no_xx o.
Proof.
  destruct o; cbn [okb op_ok no_xx]; intros H; try (split; exact I).
  all: repeat match goal with c : option Z |- _ => destruct c end.
  all: repeat match goal with p : rp |- _ => destruct p end.
  all: try discriminate; cbn [cond_ok]; split; try exact I; try congruence; lia.
Qed.
Lemma decode_ok c : byte c -> op_ok (decode c) /\ no_xx (decode c) /\ repeats (decode c) = false.
Proof.
  intros H. assert (S := sweep 256 (fun c => okb (decode c) && negb (repeats (decode c))) ltac:(vm_compute; reflexivity) c ltac:(unfold byte in H; lia)).
  cbv beta in S. apply andb_prop in S. destruct S as [S1 S2]. destruct (okb_ok _ S1). destruct (repeats (decode c)); [discriminate|]. auto.
Qed.
Lemma code_ed_ok c : byte c -> op_ok (code_ed c) /\ no_xx (code_ed c).
Proof.
  intros H. apply okb_ok. exact (sweep 256 (fun c => okb (code_ed c)) ltac:(vm_compute; reflexivity) c ltac:(unfold byte in H; lia)).
Qed.
Lemma code_xd_ok c : byte c -> op_ok (code_xd c) /\ no_xx (code_xd c) /\ repeats (code_xd c) = false.
Proof.
  intros H. assert (S := sweep 256 (fun c => okb (code_xd c) && negb (repeats (code_xd c))) ltac:(vm_compute; reflexivity) c ltac:(unfold byte in H; lia)).
  cbv beta in S. apply andb_prop in S. destruct S as [S1 S2]. destruct (okb_ok _ S1). destruct (repeats (code_xd c)); [discriminate|]. auto.
Qed.

(** ** CB *)
Lemma rot_f_byte t c pa x : byte t -> byte x -> byte (rot_f t c pa x).
Proof. intros Ht Hx. unfold rot_f. cbv zeta. fbyte. Qed.
Lemma bit_f_byte v b x : byte x -> byte (bit_f v b x).
Proof. intros Hx. unfold bit_f. cbv zeta. destruct (Z.testbit v b); fbyte. Qed.
Lemma sm_same a x : (forall k, mm (setm a (mm x a) x) k = mm x k).
Proof. intros k. cbn [setm mm s_mm]. destruct (Z.eqb_spec k a) as [-> |]; reflexivity. Qed.
Lemma agree_mem (c : Prop) a v x y : same_but_flags x y -> (c -> samef (f x) (f y)) -> mm y a = v -> agree c (setm a v x) y.
Proof.
  intros H K E. split; [|exact K]. unfold same_but_flags in *. decompose [and] H. cbn [setm s_mm r ix iy sp pc mm r' f' vi vr i1 i2 md pin pout].
  repeat (split; [assumption|]). split; [|repeat (split; [assumption|]); assumption].
  intros k. destruct (Z.eqb_spec k a) as [-> |]; auto.
Qed.

Section Z.
Variable dum lim : Z.
Lemma cb_eq c s : wf s -> byte c ->
  agree (~ deviates_flags (cb c) (abs s)) (abs (exec_cb dum c s)) (sem_cb c (abs s)).
Proof.
  intros W Hc. set (n := c mod 8). set (k := c / 8 mod 8).
  assert (Hn : 0 <= n < 8) by (apply Z.mod_pos_bound; lia). assert (Hk : 0 <= k < 8) by (apply Z.mod_pos_bound; lia).
  pose proof (W_range false HL s W) as HW. pose proof (wf_F s W) as HF.
  unfold deviates_flags, effect. unfold sem_cb at 2, exec_cb. cbv zeta. fold n k. unfold reg8.
  destruct (Z.eqb_spec n 6) as [E6|E6]; cbn [operand getp putp].
  - rewrite rd_mm by exact HW. change (pairv false HL (abs s)) with (Z80Model.W false HL s).
    set (a := Z80Model.W false HL s) in *. set (v := mm (abs s) a). assert (Hv : byte v) by apply (wf_mem s a W).
    destruct (Z.ltb_spec c 64).
    + destruct (rot_eq k v (cy s) Hk Hv (c01 s)) as [ER BR]. rewrite carry_cy, <- ER.
      destruct (rot k v (cy s)) as [t co] eqn:ET. cbn [fst] in BR.
      rewrite wr_byte by assumption. split; [apply sbf_ff with (v := f (abs s)) (u := f (abs s)); reflexivity|].
      intros D. cbn [f setm s_mm]. apply rot_f_eq; [exact BR|apply wf_A, W|].
      assert (EP : fP (f (sem_cb c (abs s))) = even_parity t).
      { unfold sem_cb. cbv zeta. fold n k. unfold reg8. rewrite (proj2 (Z.eqb_eq n 6) E6). cbn [operand]. change (pairv false HL (abs s)) with a. fold v.
        destruct (Z.ltb_spec c 64); [|lia]. rewrite carry_cy, <- ER. reflexivity. }
      fold (even_parity (acc (abs s))) in *. change (A s) with (acc (abs s)).
      destruct (Bool.bool_dec (even_parity (acc (abs s))) (even_parity t)) as [E|E]; [exact E|].
      exfalso. apply D. split; [lia|]. split; [fold n; lia|]. rewrite EP. congruence.
    + destruct (Z.ltb_spec c 128).
      * rewrite wr_byte by assumption. apply agree_mem; [apply sbf_ff with (v := f (abs s)) (u := f (abs s)); reflexivity| |reflexivity].
        intros _. apply bit_f_eq; [lia|reflexivity].
      * destruct (without_eq k v Hk Hv) as [E1 B1]. destruct (with_eq k v Hk Hv) as [E2 B2]. rewrite E1, E2.
        destruct (Z.ltb_spec c 192); apply agree_eq; apply wr_byte; assumption.
  - set (v := rg s n). assert (Hv : byte v) by apply (wf_rg s n W). change (r (abs s) n) with v.
    destruct (Z.ltb_spec c 64).
    + destruct (rot_eq k v (cy s) Hk Hv (c01 s)) as [ER BR]. rewrite carry_cy, <- ER.
      destruct (rot k v (cy s)) as [t co] eqn:ET. cbn [fst] in BR.
      split; [apply sbf_ff with (v := f (abs s)) (u := f (abs s)); unfold wR; rewrite (u8_id t) by exact BR; reflexivity|].
      intros D. cbn [f abs F set_F setr s_r].
      assert (EP : fP (f (sem_cb c (abs s))) = even_parity t).
      { unfold sem_cb. cbv zeta. fold n k. unfold reg8. rewrite (proj2 (Z.eqb_neq n 6) E6). cbn [operand]. change (r (abs s) n) with v.
        destruct (Z.ltb_spec c 64); [|lia]. rewrite carry_cy, <- ER. reflexivity. }
      unfold A, wR. cbn [rg set_rg]. destruct (Z.eqb_spec 7 n) as [E7|E7].
      * apply rot_f_eq; [exact BR|apply u8_range|]. rewrite u8_id by exact BR. reflexivity.
      * apply rot_f_eq; [exact BR|apply wf_rg, W|]. change (rg s 7) with (acc (abs s)).
        destruct (Bool.bool_dec (even_parity (acc (abs s))) (even_parity t)) as [E|E]; [exact E|].
        exfalso. apply D. split; [lia|]. split; [fold n; lia|]. rewrite EP. congruence.
    + destruct (Z.ltb_spec c 128).
      * apply agree_ff; [reflexivity|]. intros _. apply bit_f_eq; [lia|reflexivity].
      * destruct (without_eq k v Hk Hv) as [E1 B1]. destruct (with_eq k v Hk Hv) as [E2 B2]. rewrite E1, E2.
        destruct (Z.ltb_spec c 192); apply agree_eq; apply wR_byte; assumption.
Qed.
Lemma xcb_eq a c s : wf s -> byte c -> word a -> ~ deviates (xcb a c) (abs s) ->
  agree (~ deviates_flags (xcb a c) (abs s)) (abs (exec_xcb dum a c s)) (sem_xcb a c (abs s)).
Proof.
  intros W Hc Ha V. set (n := c mod 8). set (k := c / 8 mod 8).
  assert (Hn : 0 <= n < 8) by (apply Z.mod_pos_bound; lia). assert (Hk : 0 <= k < 8) by (apply Z.mod_pos_bound; lia).
  pose proof (wf_F s W) as HF.
  unfold deviates_flags, effect. unfold sem_xcb at 2, exec_xcb. cbv zeta. cbn [deviates] in V. fold n in V. fold n k.
  rewrite rd_mm by exact Ha. set (v := mm (abs s) a). assert (Hv : byte v) by apply (wf_mem s a W).
  destruct (Z.ltb_spec c 64).
  - destruct (rot_eq k v (cy s) Hk Hv (c01 s)) as [ER BR]. rewrite carry_cy, <- ER.
    destruct (rot k v (cy s)) as [t co] eqn:ET. cbn [fst] in BR. rewrite wr_byte by assumption.
    split.
    + apply sbf_ff with (v := f (abs s)) (u := f (abs s)). destruct (n =? 6); [reflexivity|]. unfold wR. rewrite (u8_id t) by exact BR. reflexivity.
    + intros D.
      assert (EP : fP (f (sem_xcb a c (abs s))) = even_parity t).
      { unfold sem_xcb. cbv zeta. fold n k. fold v. destruct (Z.ltb_spec c 64); [|lia]. rewrite carry_cy, <- ER. destruct (n =? 6); reflexivity. }
      assert (G : samef (flags_of (rot_f t co (A s) (F s))) (f (szp t false false co (abs s)))).
      { apply rot_f_eq; [exact BR|apply wf_A, W|]. change (A s) with (acc (abs s)).
        destruct (Bool.bool_dec (even_parity (acc (abs s))) (even_parity t)) as [E|E]; [exact E|].
        exfalso. apply D. split; [lia|]. rewrite EP. congruence. }
      destruct (n =? 6); exact G.
  - destruct (Z.ltb_spec c 128).
    + rewrite wr_byte by assumption. apply agree_mem; [apply sbf_ff with (v := f (abs s)) (u := f (abs s)); reflexivity| |reflexivity].
      intros _. apply bit_f_eq; [lia|reflexivity].
    + destruct (without_eq k v Hk Hv) as [E1 B1]. destruct (with_eq k v Hk Hv) as [E2 B2]. rewrite E1, E2.
      destruct (Z.ltb_spec c 192); apply agree_eq; rewrite wr_byte by assumption.
      * destruct (n =? 6); [reflexivity|]. rewrite wR_byte by exact B1. reflexivity.
      * destruct (n =? 6); [reflexivity|]. destruct (Z.eqb_spec n 5); [exfalso; apply V; lia|]. rewrite wR_byte by exact B2. reflexivity.
Qed.
End Z.
