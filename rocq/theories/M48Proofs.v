(** MCS-48: flags, memory, fetch, stack; well-formedness. *)
From Verif Require Import Base M48Model M48Spec.

Lemma range_case (n : nat) (P : Z -> Prop) : (forall k, (k < n)%nat -> P (Z.of_nat k)) -> forall z, 0 <= z < Z.of_nat n -> P z.
Proof. intros H z Hz. rewrite <- (Z2Nat.id z) by lia. apply H. lia. Qed.
Lemma sweep (n : nat) (f : Z -> bool) : forallb f (map Z.of_nat (seq 0 n)) = true -> forall z, 0 <= z < Z.of_nat n -> f z = true.
Proof.
  intros H z Hz. rewrite forallb_forall in H. apply H. apply in_map_iff. exists (Z.to_nat z). split; [lia|].
  apply in_seq. lia.
Qed.
Lemma u8_id v : 0 <= v < 256 -> u8 v = v.
Proof. intros. unfold u8. apply Z.mod_small. lia. Qed.
Lemma u8_range v : 0 <= u8 v < 256.
Proof. unfold u8. apply Z.mod_pos_bound. lia. Qed.
Lemma b8 (f g : Z -> bool) : forallb (fun v => Bool.eqb (f v) (g v)) (map Z.of_nat (seq 0 256)) = true -> forall v, 0 <= v < 256 -> f v = g v.
Proof. intros H v Hv. assert (S := sweep 256 _ H v ltac:(lia)). apply Bool.eqb_prop, S. Qed.
Lemma z8 (f g : Z -> Z) : forallb (fun v => f v =? g v) (map Z.of_nat (seq 0 256)) = true -> forall v, 0 <= v < 256 -> f v = g v.
Proof. intros H v Hv. assert (S := sweep 256 _ H v ltac:(lia)). apply Z.eqb_eq, S. Qed.
Ltac s8 := intros; match goal with H : 0 <= ?v < 256 |- @eq Z _ _ => pattern v; first [revert v H; apply z8|revert H; revert v; apply z8] end; vm_compute; reflexivity.

(** ** the flag register *)
Lemma land16 v : 0 <= v < 256 -> (Z.land v 16 =? 0) = negb (Z.testbit v 4).
Proof. revert v. apply (b8 (fun v => Z.land v 16 =? 0) (fun v => negb (Z.testbit v 4))). vm_compute. reflexivity. Qed.
Lemma land128 v : 0 <= v < 256 -> (Z.land v 128 =? 0) = negb (Z.testbit v 7).
Proof. revert v. apply (b8 (fun v => Z.land v 128 =? 0) (fun v => negb (Z.testbit v 7))). vm_compute. reflexivity. Qed.
Lemma land64 v : 0 <= v < 256 -> (Z.land v 64 =? 0) = negb (Z.testbit v 6).
Proof. revert v. apply (b8 (fun v => Z.land v 64 =? 0) (fun v => negb (Z.testbit v 6))). vm_compute. reflexivity. Qed.
Lemma land32 v : 0 <= v < 256 -> (Z.land v 32 =? 0) = negb (Z.testbit v 5).
Proof. revert v. apply (b8 (fun v => Z.land v 32 =? 0) (fun v => negb (Z.testbit v 5))). vm_compute. reflexivity. Qed.
Lemma land7 v : 0 <= v < 256 -> Z.land v 7 = v mod 8.
Proof. intros. change 7 with (Z.ones 3). rewrite Z.land_ones by lia. reflexivity. Qed.
Lemma land15 v : Z.land v 15 = v mod 16.
Proof. change 15 with (Z.ones 4). rewrite Z.land_ones by lia. reflexivity. Qed.
Lemma land255 v : Z.land v 255 = v mod 256.
Proof. change 255 with (Z.ones 8). rewrite Z.land_ones by lia. reflexivity. Qed.
Lemma land240 v : 0 <= v < 256 -> Z.land v 240 = 16 * (v / 16).
Proof. revert v. apply (z8 (fun v => Z.land v 240) (fun v => 16 * (v / 16))). vm_compute. reflexivity. Qed.

(** what the writes of the flag register leave *)
Definition parts (v : Z) : bool * bool * bool * bool * Z := (Z.testbit v 7, Z.testbit v 6, Z.testbit v 5, Z.testbit v 4, v mod 8).
Definition sFp (p : bool * bool * bool * bool * Z) (x : M) : M := let '(c, a, f, b, q) := p in sF c a f b q x.
Definition parts_eqb (p q : bool * bool * bool * bool * Z) : bool :=
  let '(a, b, c, d, e) := p in let '(a', b', c', d', e') := q in
  Bool.eqb a a' && Bool.eqb b b' && Bool.eqb c c' && Bool.eqb d d' && (e =? e').
Lemma parts_eqb_eq p q : parts_eqb p q = true -> p = q.
Proof.
  destruct p as [[[[a b] c] d] e], q as [[[[a' b'] c'] d'] e']. cbn. rewrite !andb_true_iff, !Bool.eqb_true_iff, Z.eqb_eq.
  intros [[[[-> ->] ->] ->] ->]. reflexivity.
Qed.
Lemma p8 (f g : Z -> bool * bool * bool * bool * Z) : forallb (fun v => parts_eqb (f v) (g v)) (map Z.of_nat (seq 0 256)) = true -> forall v, 0 <= v < 256 -> f v = g v.
Proof. intros H v Hv. apply parts_eqb_eq. exact (sweep 256 _ H v ltac:(lia)). Qed.
Lemma parts_lor8 v : 0 <= v < 256 -> parts (Z.lor v 8) = parts v.
Proof. revert v. apply (p8 (fun v => parts (Z.lor v 8)) parts). vm_compute. reflexivity. Qed.
Lemma abs_wF v s : 0 <= v < 256 -> abs (wF v s) = sFp (parts v) (abs s).
Proof.
  intros H. unfold wF. rewrite (u8_id v H). rewrite <- (parts_lor8 v H). reflexivity.
Qed.
(** recomputing the parts of a psw value *)
Lemma parts_of_sF x c a f b q : sFp (c, a, f, b, q) x = sF c a f b q x.
Proof. reflexivity. Qed.

Lemma bank_raddr n s : wf s -> raddr n s = bank n (abs s).
Proof.
  intros W. unfold raddr, bank. cbn [bs abs]. rewrite land16 by apply W. destruct (Z.testbit (psw s) 4); cbn [negb]; lia.
Qed.
Lemma R_reg n s : wf s -> R n s = reg n (abs s).
Proof. intros W. unfold R, reg. rewrite bank_raddr by exact W. reflexivity. Qed.
Lemma abs_set_R n v s : wf s -> 0 <= v < 256 -> abs (set_R n v s) = set_reg n v (abs s).
Proof. intros W H. unfold set_R. rewrite (u8_id v H), (bank_raddr n s W). reflexivity. Qed.
Lemma abs_wr_ram h a v s : 0 <= v < 256 ->
  abs (wr_ram h a v s) = if a <? rs h then sM (at_ (ram s) a v) (xram s) (abs s) else abs s.
Proof. intros H. unfold wr_ram. destruct (a <? rs h); [|reflexivity]. rewrite (u8_id v H). reflexivity. Qed.
Lemma abs_wr_ind h n v s : wf s -> 0 <= v < 256 -> abs (wr h (Li n) v s) = set_ind h n v (abs s).
Proof. intros W H. unfold wr. rewrite abs_wr_ram by exact H. unfold set_ind. rewrite R_reg by exact W. reflexivity. Qed.
Lemma rd_ind h jk n s : wf s -> rd h jk (Li n) s = ind h jk n (abs s).
Proof. intros W. unfold rd, rd_ram, ind. rewrite R_reg by exact W. reflexivity. Qed.
Lemma abs_wA v s : 0 <= v < 256 -> abs (wA v s) = sA v (abs s).
Proof. intros H. unfold wA. rewrite (u8_id v H). reflexivity. Qed.
Lemma abs_latch v s : 0 <= v < 256 -> abs (latch v s) = sP (p1 s) (p2 s) v (abs s).
Proof. intros H. unfold latch. rewrite (u8_id v H). reflexivity. Qed.

(** ** well-formed states *)
Lemma fold_wf s : 
  0 <= A s < 256 -> 0 <= psw s < 256 -> Z.testbit (psw s) 3 = true -> (mb s = 0 \/ mb s = 1) -> (f1 s = 0 \/ f1 s = 1) ->
  0 <= PC s < 4096 -> (forall a, 0 <= ram s a < 256) -> (forall a, 0 <= xram s a < 256) ->
  0 <= tmr s < 256 -> 0 <= pre16 s < 16 -> 0 <= pre s < 32 -> 0 <= mode s < 3 ->
  (ien s = 0 \/ ien s = 1) -> (irq s = 0 \/ irq s = 1) -> (ene s = 0 \/ ene s = 1) ->
  0 <= p1 s < 256 -> 0 <= p2 s < 256 -> 0 <= i1 s < 256 -> 0 <= i2 s < 256 ->
  0 <= busin s < 256 -> 0 <= busout s < 256 ->
  (forall k, 0 <= odr s k < 16) -> (forall k, 0 <= epin s k < 16) -> wf s.
Proof. unfold wf. tauto. Qed.
Ltac wfset := intros; match goal with W : wf _ |- _ => unfold wf in W; destruct W as (?W0 & ?W1 & ?W2 & ?W3 & ?W4 & ?W5 & ?W6 & ?W7 & ?W8 & ?W9 & ?W10 & ?W11 & ?W12 & ?W13 & ?W14 & ?W15 & ?W16 & ?W17 & ?W18 & ?W19 & ?W20 & ?W21 & ?W22) end;
  apply fold_wf; cbn [A psw mb f1 PC ram xram tmr pre16 pre mode ien ovf tfl irq ene isr p1 p2 i1 i2 busin busout odr dir epin t0 t1 int ticks errs
    set_A set_psw set_mb set_f1 set_PC set_ram set_xram set_tmr set_pre16 set_pre set_mode set_ien set_ovf set_tfl set_irq set_ene set_isr set_p1 set_p2 set_i1 set_i2 set_busin set_busout set_odr set_dir set_epin set_t0 set_t1 set_int set_ticks set_errs]; try assumption.
Lemma wf_set_A v s : wf s -> 0 <= v < 256 -> wf (set_A v s). Proof. wfset. Qed.
Lemma wf_wA v s : wf s -> wf (wA v s). Proof. intros. apply wf_set_A; [assumption|apply u8_range]. Qed.
Lemma lor8_range v : 0 <= v < 256 -> 0 <= Z.lor v 8 < 256 /\ Z.testbit (Z.lor v 8) 3 = true.
Proof.
  intros H. assert (S := sweep 256 (fun v => (0 <=? Z.lor v 8) && (Z.lor v 8 <? 256) && Z.testbit (Z.lor v 8) 3) ltac:(vm_compute; reflexivity) v ltac:(lia)).
  cbv beta in S. rewrite !andb_true_iff in S. destruct S as [[S1 S2] S3]. split; [lia|exact S3].
Qed.
Lemma wf_wF v s : wf s -> wf (wF v s).
Proof. unfold wF. assert (X := lor8_range (u8 v) (u8_range v)). wfset; apply X. Qed.
Lemma wf_set_PC v s : wf s -> 0 <= v < 4096 -> wf (set_PC v s). Proof. wfset. Qed.
Lemma wf_set_mb v s : wf s -> (v = 0 \/ v = 1) -> wf (set_mb v s). Proof. wfset. Qed.
Lemma wf_set_f1 v s : wf s -> (v = 0 \/ v = 1) -> wf (set_f1 v s). Proof. wfset. Qed.
Lemma wf_ram s a v : wf s -> 0 <= v < 256 -> wf (set_ram (fun k => if k =? a then v else ram s k) s).
Proof. wfset. intros k. destruct (k =? a); auto. Qed.
Lemma wf_set_R n v s : wf s -> wf (set_R n v s). Proof. intros. apply wf_ram; [assumption|apply u8_range]. Qed.
Lemma wf_wr_ram h a v s : wf s -> wf (wr_ram h a v s).
Proof. intros. unfold wr_ram. destruct (a <? rs h); [|assumption]. apply wf_ram; [assumption|apply u8_range]. Qed.
Lemma wf_wr h l v s : wf s -> wf (wr h l v s).
Proof. intros. destruct l; [apply wf_set_R|apply wf_wr_ram]; assumption. Qed.
Lemma wf_xram s a v : wf s -> 0 <= v < 256 -> wf (set_xram (fset (xram s) a v) s).
Proof. wfset. intros k. unfold fset. destruct (k =? a); auto. Qed.
Lemma wf_set_tmr v s : wf s -> 0 <= v < 256 -> wf (set_tmr v s). Proof. wfset. Qed.
Lemma wf_set_pre16 v s : wf s -> 0 <= v < 16 -> wf (set_pre16 v s). Proof. wfset. Qed.
Lemma wf_set_pre v s : wf s -> 0 <= v < 32 -> wf (set_pre v s). Proof. wfset. Qed.
Lemma wf_set_mode v s : wf s -> 0 <= v < 3 -> wf (set_mode v s). Proof. wfset. Qed.
Lemma wf_set_ien v s : wf s -> (v = 0 \/ v = 1) -> wf (set_ien v s). Proof. wfset. Qed.
Lemma wf_set_irq v s : wf s -> (v = 0 \/ v = 1) -> wf (set_irq v s). Proof. wfset. Qed.
Lemma wf_set_ene v s : wf s -> (v = 0 \/ v = 1) -> wf (set_ene v s). Proof. wfset. Qed.
Lemma wf_set_ovf v s : wf s -> wf (set_ovf v s). Proof. wfset. Qed.
Lemma wf_set_tfl v s : wf s -> wf (set_tfl v s). Proof. wfset. Qed.
Lemma wf_set_isr v s : wf s -> wf (set_isr v s). Proof. wfset. Qed.
Lemma wf_set_t0 v s : wf s -> wf (set_t0 v s). Proof. wfset. Qed.
Lemma wf_set_t1 v s : wf s -> wf (set_t1 v s). Proof. wfset. Qed.
Lemma wf_set_int v s : wf s -> wf (set_int v s). Proof. wfset. Qed.
Lemma wf_set_ticks v s : wf s -> wf (set_ticks v s). Proof. wfset. Qed.
Lemma wf_set_errs v s : wf s -> wf (set_errs v s). Proof. wfset. Qed.
Lemma wf_set_dir v s : wf s -> wf (set_dir v s). Proof. wfset. Qed.
Lemma wf_set_p1 v s : wf s -> 0 <= v < 256 -> wf (set_p1 v s). Proof. wfset. Qed.
Lemma wf_set_p2 v s : wf s -> 0 <= v < 256 -> wf (set_p2 v s). Proof. wfset. Qed.
Lemma wf_set_i1 v s : wf s -> 0 <= v < 256 -> wf (set_i1 v s). Proof. wfset. Qed.
Lemma wf_set_i2 v s : wf s -> 0 <= v < 256 -> wf (set_i2 v s). Proof. wfset. Qed.
Lemma wf_set_busin v s : wf s -> 0 <= v < 256 -> wf (set_busin v s). Proof. wfset. Qed.
Lemma wf_latch v s : wf s -> wf (latch v s). Proof. unfold latch. assert (X := u8_range v). wfset. Qed.
Lemma wf_odr s p v : wf s -> 0 <= v < 16 -> wf (set_odr (fset (odr s) p v) s).
Proof. wfset. intros k. unfold fset. destruct (k =? p); auto. Qed.
Lemma wf_epin s p v : wf s -> 0 <= v < 16 -> wf (set_epin (fset (epin s) p v) s).
Proof. wfset. intros k. unfold fset. destruct (k =? p); auto. Qed.

(** ** fetch *)
Lemma next_eq p : 0 <= p < 4096 -> Z.lor (Z.land p 2048) (Z.land (Z.land (p + 1) 4095) 2047) = next p.
Proof.
  intros H. assert (S := sweep 4096 (fun p => Z.lor (Z.land p 2048) (Z.land (Z.land (p + 1) 4095) 2047) =? next p) ltac:(vm_compute; reflexivity) p ltac:(lia)).
  apply Z.eqb_eq, S.
Qed.
Lemma next_range p : 0 <= p < 4096 -> 0 <= next p < 4096.
Proof.
  intros H. unfold next. assert (p / 2048 = 0 \/ p / 2048 = 1) as [E | E].
  { assert (0 <= p / 2048) by (apply Z.div_pos; lia). assert (p / 2048 < 2) by (apply Z.div_lt_upper_bound; lia). lia. }
  all: rewrite E; assert (X := Z.mod_pos_bound (p + 1) 2048 ltac:(lia)); lia.
Qed.
Definition fetched (h : chip) (s : cpu) : cpu :=
  let s := set_PC (next (PC s)) s in if inner h <=? PC s then latch (PC s) s else s.
Lemma fetch_eq h s : wf s -> fetch h s = (rom h (PC s), fetched h s).
Proof.
  intros W. unfold fetch, set_pc11. rewrite next_eq by apply W. reflexivity.
Qed.
Lemma abs_fetched h s : wf s -> abs (fetched h s) = step_pc (inner h) (abs s).
Proof.
  intros W. unfold fetched, step_pc. cbn [pc sPC abs PC set_PC]. destruct (inner h <=? next (PC s)); reflexivity.
Qed.
Lemma wf_fetched h s : wf s -> wf (fetched h s).
Proof.
  intros W. unfold fetched. assert (X := next_range (PC s) ltac:(apply W)). cbn [PC set_PC].
  destruct (inner h <=? _); [apply wf_latch|]; apply wf_set_PC; auto.
Qed.
Lemma fetched_fields h s :
  A (fetched h s) = A s /\ psw (fetched h s) = psw s /\ PC (fetched h s) = next (PC s) /\ mb (fetched h s) = mb s /\ tfl (fetched h s) = tfl s /\
  isr (fetched h s) = isr s /\ ram (fetched h s) = ram s.
Proof. unfold fetched. cbn [PC set_PC]. destruct (inner h <=? next (PC s)); repeat split. Qed.
Lemma rom_range h a : wfh h -> 0 <= rom h a < 256. Proof. intros [_ H]. apply H. Qed.
Lemma rd_range h jk l s : wf s -> 0 <= jk < 256 -> 0 <= rd h jk l s < 256.
Proof. intros W J. assert (X : forall a, 0 <= ram s a < 256) by apply W. destruct l; unfold rd, R, rd_ram; [|destruct (_ <? _)]; auto. Qed.
