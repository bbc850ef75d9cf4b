(** Z80: every instruction of the model against the manual. *)
From Verif Require Import Base Z80Model Z80Spec Z80Proofs Z80Proofs2 Z80Proofs3.

(** operands as they occur in the codes *)
Definition cond_ok (c : option Z) : Prop := match c with None => True | Some c => 0 <= c < 8 end.
Definition op_ok (o : op) : Prop :=
  match o with JR c | JP c | CALL c | RET c => cond_ok c | ADDp d _ => d <> RSP | _ => True end.
Definition repeats (o : op) : bool :=
  match o with LDIR | LDDR | CPIR | CPDR | INIR | INDR | OTIR | OTDR => true | _ => false end.

(** ** Flags stay bytes *)
Lemma byte_fl c m : byte m -> byte (fl c m).
Proof. unfold fl, byte. destruct c; lia. Qed.
Lemma byte_clr x m : byte x -> byte m -> byte (clr x m).
Proof. intros Hx Hm. apply land_byte; [exact Hx|]. unfold byte in *. lia. Qed.
Lemma byte_const z : (0 <=? z) && (z <? 256) = true -> byte z.
Proof. unfold byte. lia. Qed.
Lemma byte_land40 v : byte (Z.land v 40).
Proof.
  apply bits_byte; [apply Z.land_nonneg; lia|]. intros k K. rewrite Z.land_spec, (byte_bits 40 k); [apply andb_false_r|apply byte_const; reflexivity|exact K].
Qed.
Ltac fbyte := unfold xy, zs, set_z, set_s; repeat first
  [ assumption | apply u8_range | apply lor_byte | apply lxor_byte | apply byte_fl | apply byte_clr
  | match goal with |- byte (Zpos _) => apply byte_const; reflexivity | |- byte 0 => apply byte_const; reflexivity end
  | apply byte_land40 | apply land_byte ].
Lemma inc_f_byte v x : byte x -> byte v -> byte (inc_f v x) /\ byte (dec_f v x).
Proof. intros Hx Hv. unfold inc_f, dec_f. cbv zeta. split; fbyte. Qed.

Lemma operand_f y l x :
  let '(read, write, x1) := operand y l x in
  f x1 = f x /\
  (forall u v z, s_f u (write v z) = write v (s_f u z)) /\ (forall v z, f (write v z) = f z) /\ (forall u z, read (s_f u z) = read z).
Proof.
  destruct l; cbn [operand next8]; (split; [reflexivity|]); (split; [|split]); intros; try destruct y; reflexivity.
Qed.
(** flags first, then the result is written *)
Lemma agree_write (c : Prop) (write : Z -> M -> M) v fl0 s z :
  (forall u v z, s_f u (write v z) = write v (s_f u z)) -> (forall v z, f (write v z) = f z) ->
  s_f (f z) (abs s) = z -> (c -> samef (flags_of fl0) (f z)) ->
  agree c (write v (abs (set_F fl0 s))) (write v z).
Proof.
  intros H1 H2 Hz Hf. apply agree_ff.
  - rewrite H2, H1. f_equal. exact Hz.
  - intros C. rewrite !H2. apply Hf, C.
Qed.

Section Z.
Variable dum lim : Z.
Notation exec := (Z80Model.exec dum lim).

Lemma jrel_eq j s : wf s -> byte j -> word (PC s + sgn j) -> abs (jrel j s) = s_pc (w (PC s + sgn j)) (abs s).
Proof.
  intros W Hj H. unfold jrel. rewrite i8_sgn by exact Hj. unfold u32. rewrite Z.mod_small by (unfold word in H; lia).
  rewrite w_id by exact H. reflexivity.
Qed.
Lemma again_eq c ipc s : ipc = w (PC s - 2) -> abs (again c ipc s) = repeat_if c (abs s).
Proof. intros ->. unfold again, repeat_if, jump_if. destruct c; reflexivity. Qed.

(** the bytes a CALL pushes are not its operand *)
Lemma push_fetch2 ipc s : wf s -> SP s <> 1 -> ~ on_stack (pc (abs s)) (abs s) -> ~ on_stack (w (pc (abs s) + 1)) (abs s) ->
  let s1 := push2 lim ipc (PC s + 2) s in
  fst (fetch2 dum s1) = fst (next16 (abs s)) /\
  abs (snd (fetch2 dum s1)) = push (pc (snd (next16 (abs s)))) (snd (next16 (abs s))).
Proof.
  intros W H1 H2 H3 s1. pose proof (push2_eq lim ipc (PC s + 2) s W H1) as E. fold s1 in E.
  assert (EP : PC s1 = PC s) by (exact (f_equal pc E)).
  assert (EM : forall a, ~ on_stack a (abs s) -> mem s1 a = mem s a).
  { intros a Ha. pose proof (f_equal (fun x => mm x a) E) as Em. cbn [mm abs] in Em. rewrite Em.
    unfold push. cbn [s_sp setm16 setm s_mm mm sp abs]. unfold on_stack in Ha. cbn [sp abs] in Ha.
    rewrite w_w. replace (SP s - 2 + 1) with (SP s - 1) by lia.
    destruct (Z.eqb_spec a (w (SP s - 1))); [tauto|]. destruct (Z.eqb_spec a (w (SP s - 2))); [tauto|]. reflexivity. }
  unfold fetch2, fetch. cbn [fst snd PC set_PC]. rewrite EP.
  rewrite (rd_mm dum s1) by apply wf_PC, W. rewrite rd_mm by apply w_range. cbn [mm abs mem set_PC].
  cbn [pc abs] in H2, H3. rewrite (EM (PC s) H2). change ((PC s + 1) mod 65536) with (w (PC s + 1)). rewrite (EM (w (PC s + 1)) H3).
  split; [cbn [next16 fst mm pc abs]; rewrite Z.add_comm; reflexivity|].
  change (abs (set_PC ((w (PC s + 1) + 1) mod 65536) (set_PC (w (PC s + 1)) s1))) with (s_pc (w (w (PC s + 1) + 1)) (abs s1)).
  rewrite w_w. replace (PC s + 1 + 1) with (PC s + 2) by lia. rewrite E. reflexivity.
Qed.

Lemma block_ld_eq d s : wf s ->
  s_f (f (abs s)) (abs (block_ld dum d s)) = s_f (f (abs s)) (move_block d (abs s)) /\
  F (block_ld dum d s) = clr (F s) 22.
Proof.
  intros W. pose proof (W_range false HL s W) as H1. pose proof (W_range false DE s W) as H2.
  unfold block_ld, move_block, move_hl, dec_bc. cbv zeta.
  change (Z80Model.W false DE (set_F (clr (F s) 22) s)) with (Z80Model.W false DE s).
  change (Z80Model.W false HL (set_F (clr (F s) 22) s)) with (Z80Model.W false HL s).
  rewrite (rd_mm dum (set_F _ s)) by exact H1. unfold wr. rewrite (inmem_true _ H2).
  rewrite u8_id by apply W.
  split; [|reflexivity].
  cbn [wW]. unfold wR2. rewrite <- !(proj1 (w_parts _)), <- !(proj2 (w_parts _)). reflexivity.
Qed.
End Z.
