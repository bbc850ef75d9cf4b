(** MCS-48: the instruction table against the codes of the manual; refinement of one instruction. *)
From Verif Require Import Base M48Model M48Spec M48Proofs M48Proofs2 M48Proofs3.

(** what the manual says of the instruction of each method *)
Definition k_of (k : lop) : Z := match k with kORL => 4 | kANL => 5 | kXRL => 13 end.
Definition val (h : chip) (jk : Z) (l : loc) (x : M) : Z := match l with Lr n => reg n x | Li n => ind h jk n x end.
Definition put (h : chip) (l : loc) (v : Z) (x : M) : M := match l with Lr n => set_reg n v x | Li n => set_ind h n v x end.
Definition with_src (h : chip) (jk : Z) (x : src) (f : Z -> M -> M) : M -> option M :=
  match x with SI => imm h f | SL (Lr n) => ok (fun y => f (reg n y) y) | SL (Li n) => ok (fun y => f (ind h jk n y) y) end.
Definition tr (h : chip) (jk c : Z) (o : op) : M -> option M :=
  match o with
  | NOP | ENT0CLK => ok (fun x => x)
  | Invalid => ill
  | NoMethod | DJNZ => sem h jk c
  | ADD cy s => with_src h jk s (alu (if cy then 7 else 6))
  | LOG k s => with_src h jk s (alu (k_of k))
  | MOVA s => with_src h jk s (fun v => sA v)
  | MOVLA (Lr n) => ok (fun x => set_reg n (acc x) x) | MOVLA (Li n) => ok (fun x => set_ind h n (acc x) x)
  | MOVLI (Lr n) => imm h (fun b => set_reg n b) | MOVLI (Li n) => imm h (fun b => set_ind h n b)
  | INC (Lr n) => ok (fun x => set_reg n ((reg n x + 1) mod 256) x) | INC (Li n) => ok (fun x => set_ind h n ((ind h jk n x + 1) mod 256) x)
  | DEC (Lr n) => ok (fun x => set_reg n ((reg n x - 1) mod 256) x) | DEC (Li n) => ok (fun x => set_ind h n ((ind h jk n x - 1) mod 256) x)
  | XCH (Lr n) => ok (fun x => set_reg n (acc x) (sA (reg n x) x)) | XCH (Li n) => ok (fun x => set_ind h n (acc x) (sA (ind h jk n x) x))
  | XCHD n => ok (fun x => let v := ind h jk n x in set_ind h n (16 * (v / 16) + acc x mod 16) (sA (16 * (acc x / 16) + v mod 16) x))
  | INCA => row_7 1 | DECA => row_7 0 | CLRA => row_7 2 | CPLA => row_7 3 | SWAPA => row_7 4 | DAA => row_7 5
  | RRC => row_7 6 | RR => row_7 7 | CLRC => row_7 9 | CPLC => row_7 10 | MOVAF => row_7 12 | MOVFA => row_7 13 | RL => row_7 14 | RLC => row_7 15
  | CLRF0 => row_5 8 | CPLF0 => row_5 9 | CLRF1 => row_5 10 | CPLF1 => row_5 11
  | SELRB b => row_5 (if b then 13 else 12) | SELMB v => row_5 (if v =? 0 then 14 else 15)
  | MOVXA n => row_i h jk 8 n | MOVXM n => row_i h jk 9 n
  | MOVP => row_3 h 10 | MOVP3 => row_3 h 14 | RET => row_3 h 8 | RETR => row_3 h 9 | JMPP => row_3 h 11
  | JMP => ok (fun x => sPC (long h (c / 32) x) (step_pc (inner h) x))
  | CALL => ok (fun x => sPC (long h (c / 32) x) (call_push (step_pc (inner h) x)))
  | JB => ok (fun x => jump_if h (Z.odd (acc x / 2 ^ (c / 32))) x)
  | JTF => row_6 h 1 | JNT0 => row_6 h 2 | JT0 => row_6 h 3 | JNT1 => row_6 h 4 | JT1 => row_6 h 5 | JF1 => row_6 h 7 | JNI => row_6 h 8
  | JNZ => row_6 h 9 | JF0 => row_6 h 11 | JZ => row_6 h 12 | JNC => row_6 h 14 | JC => row_6 h 15
  | ENI => row_5 0 | DISI => row_5 1 | ENTCNTI => row_5 2 | DISTCNTI => row_5 3 | STRTCNT => row_5 4 | STRTT => row_5 5 | STOPTCNT => row_5 6
  | MOVAT => row_2 h 4 | MOVTA => row_2 h 6 | OUTLB => row_2 h 0
  | INS => row_r h 0 0 | ORLB => row_r h 8 0 | ANLB => row_r h 9 0
  | INP p => ok (fun x => sA (Z.land (latch_of p x) (if p =? 1 then w1 x else w2 x)) x)
  | OUTL p => ok (fun x => set_latch p (acc x) x)
  | ORLP p => imm h (fun b x => set_latch p (Z.lor (latch_of p x) b) x)
  | ANLP p => imm h (fun b x => set_latch p (Z.land (latch_of p x) b) x)
  | MOVDA p => ok (fun x => sA (ew x p) (low_p2 (ew x p) (sE (eo x) (at_ (ed x) p 0) x)))
  | MOVDP p => ok (fun x => to_exp p (acc x mod 16) x)
  | ORLD => ok (fun x => to_exp (c mod 8) (Z.lor (acc x mod 16) (eo x (c mod 8))) x)
  | ANLD => ok (fun x => to_exp (c mod 8) (Z.land (acc x mod 16) (eo x (c mod 8))) x)
  end.
Definition itab_at (c : Z) : op := nth (Z.to_nat c) itab Invalid.
Lemma tr_table h jk : Forall (fun c => tr h jk c (itab_at c) = sem h jk c) (map Z.of_nat (seq 0 256)).
Proof. repeat (apply Forall_cons; [reflexivity|]). apply Forall_nil. Qed.
Lemma tr_sem h jk c : 0 <= c < 256 -> tr h jk c (itab_at c) = sem h jk c.
Proof.
  intros H. assert (F := tr_table h jk). rewrite Forall_forall in F. apply F. apply in_map_iff. exists (Z.to_nat c). split; [lia|]. apply in_seq. lia.
Qed.

(** which codes use which methods *)
Definition shape (c : Z) : bool :=
  match itab_at c with
  | JB | JTF | JNT0 | JT0 | JNT1 | JT1 | JF0 | JF1 | JNI | JNZ | JZ | JNC | JC => is_jcc c
  | DJNZ => is_djnz c
  | MOVDA p | MOVDP p => is_exp c
  | ORLD | ANLD => is_exp c && is_orld c
  | JMP | CALL => is_long c
  | NoMethod => (c =? 112) || (c =? 113)
  | SELMB v => (v =? 0) || (v =? 1)
  | _ => true
  end.
Lemma shape_ok c : 0 <= c < 256 -> shape c = true.
Proof. intros H. revert c H. apply (sweep 256). vm_compute. reflexivity. Qed.

(** ** one instruction *)
Lemma m256 v : 0 <= v mod 256 < 256. Proof. apply Z.mod_pos_bound. lia. Qed.
Lemma wr_ok h l v s : wf s -> 0 <= v < 256 -> abs (wr h l v s) = put h l v (abs s).
Proof. intros W V. destruct l; [apply abs_set_R|apply abs_wr_ind]; assumption. Qed.
Lemma rd_ok h jk l s : wf s -> rd h jk l s = val h jk l (abs s).
Proof. intros W. destruct l; [apply R_reg, W|apply rd_ind, W]. Qed.
Lemma wr_u8 h l v s : wf s -> abs (wr h l v s) = put h l (v mod 256) (abs s).
Proof.
  intros W. rewrite <- wr_ok by (exact W || apply m256). destruct l; unfold wr, set_R, wr_ram, u8; rewrite Z.mod_mod by lia; reflexivity.
Qed.
Lemma with_src_ok h jk x f g s : wfh h -> wf s -> 0 <= jk < 256 ->
  (forall v t, wf t -> 0 <= v < 256 -> abs (f v t) = g v (abs t)) ->
  with_src h jk x g (abs s) = Some (abs (let (v, t) := get h jk x s in f v t)).
Proof.
  intros H W J F. destruct x as [l|]; unfold with_src, get, imm, ok.
  - destruct l; rewrite F by (exact W || (apply rd_range; assumption)); rewrite rd_ok by exact W; reflexivity.
  - rewrite fetch_eq by exact W. rewrite F by (first [apply wf_fetched, W|apply rom_range, H]). rewrite abs_fetched by exact W. reflexivity.
Qed.
Lemma tb_odd a n : 0 <= a < 256 -> 0 <= n < 8 -> b1 a (Z.shiftl 1 n) = Z.odd (a / 2 ^ n).
Proof.
  intros Ha Hn. unfold b1. rewrite <- testbit_odd by lia. assert (C : n = 0 \/ n = 1 \/ n = 2 \/ n = 3 \/ n = 4 \/ n = 5 \/ n = 6 \/ n = 7) by lia.
  revert a Ha. destruct C as [-> | [-> | [-> | [-> | [-> | [-> | [-> | ->] ] ] ] ] ] ];
  match goal with |- forall a, _ -> _ = Z.testbit a ?k => apply (b8 (fun a => negb (Z.land a (Z.shiftl 1 k) =? 0)) (fun a => Z.testbit a k)) end; vm_compute; reflexivity.
Qed.
Lemma shr5 c : 0 <= c < 256 -> Z.land (Z.shiftr c 5) 7 = c / 32.
Proof. revert c. apply (z8 (fun c => Z.land (Z.shiftr c 5) 7) (fun c => c / 32)). vm_compute. reflexivity. Qed.
Lemma xchd_lo o a : 0 <= o < 256 -> 0 <= a < 256 -> Z.lor (Z.land o 240) (Z.land a 15) = 16 * (o / 16) + a mod 16.
Proof.
  intros Ho Ha. rewrite land240 by exact Ho. rewrite land15. apply (lor_add (o / 16) (a mod 16) 4); [apply Z.mod_pos_bound; lia|lia].
Qed.
Lemma nib_range o a : 0 <= o < 256 -> 0 <= 16 * (o / 16) + a mod 16 < 256.
Proof.
  intros Ho. assert (X := Z.mod_pos_bound a 16 ltac:(lia)). assert (0 <= o / 16) by (apply Z.div_pos; lia). assert (o / 16 < 16) by (apply Z.div_lt_upper_bound; lia). lia.
Qed.

Definition Ref (h : chip) (jk ipc c : Z) (o : op) (s : cpu) : Prop := tr h jk c o (abs s) = Some (abs (exec h jk ipc c o s)).
