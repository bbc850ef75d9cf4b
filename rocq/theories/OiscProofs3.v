(** Proofs about the Ultimate RISC, the plain processor, the displays and the stack of the extended MISC16. *)
From Verif Require Import Base OiscModel OiscSpec OiscProofs OiscProofs2.

(** ** Ultimate RISC *)
Definition alu_addr (a : Z) : bool := (0xfff0 <=? a) && (a <=? 0xfff7).
Definition uval (a : Z) (s : st) : Z := if alu_addr a then match shows s with O => mem s a | S _ => uread a s end else mem s a.
Definition uop (a v : Z) (s : st) : st := snd (uwrite a v s).
Lemma reads_pure n (g : st -> Z) r s : reads (S n) (fun s => Some (g s, s)) r s = Some (g s, s).
Proof. revert r. induction n as [|n IH]; intros r; [reflexivity|]. exact (IH (g s)). Qed.
Lemma rd_u f a s : rd (S f) URISC a s = Some (uval a s, s).
Proof.
  cbn [rd ops]. unfold uval, alu_addr. destruct ((0xfff0 <=? a) && (a <=? 0xfff7)); [|reflexivity]. destruct (shows s) as [|n]; [reflexivity|]. apply (reads_pure n (uread a)).
Qed.
Lemma iter_shift {X} n (g : X -> X) x : Nat.iter n g (g x) = g (Nat.iter n g x).
Proof. induction n as [|n IH]; [reflexivity|]. cbn. f_equal. exact IH. Qed.
Lemma writes_u n a v s : writes n (fun v s => Some (uwrite a v s)) v s = Some (v, Nat.iter n (uop a v) s).
Proof. revert s. induction n as [|n IH]; intros s; [reflexivity|]. transitivity (writes n (fun v s => Some (uwrite a v s)) v (uop a v s)); [reflexivity|]. rewrite IH, iter_shift. reflexivity. Qed.
Lemma wr_u f a v s : wr (S f) URISC a v s = Some (store a v (Nat.iter (if alu_addr a then shows s else O) (uop a v) s)).
Proof. cbn [wr ops]. fold (alu_addr a). rewrite writes_u. reflexivity. Qed.
Definition src_of (s : st) : Z := uval (pc s) s.
Definition dst_of (s : st) : Z := uval ((pc s + 1) mod 65536) s.
Lemma exec_u s : exec URISC s = Some (
  let d := dst_of s in let v := uval (src_of s) s in
  let t := store d v (Nat.iter (if alu_addr d then shows s else O) (uop d v) (set_pc ((pc s + 2) mod 65536) s)) in
  set_tks (tks t + 4) t).
Proof. unfold exec, depth. rewrite rd_u. cbn [bind]. rewrite rd_u. cbn [bind]. rewrite rd_u. cbn [bind]. rewrite wr_u. cbn [bind]. rewrite !land_ffff. reflexivity. Qed.

Lemma uop_kept a v s : alu_addr a = true -> pc (uop a v s) = pc s /\ shows (uop a v s) = shows s /\ tks (uop a v s) = tks s /\ mem (uop a v s) = mem s.
Proof.
  unfold alu_addr, uop, uwrite, uadd. intros H. cbn [snd]. replace (a =? 0xffff) with false by lia.
  repeat destruct (a =? _); cbn; auto.
Qed.
Lemma uops_kept n a v s : alu_addr a = true -> let t := Nat.iter n (uop a v) s in pc t = pc s /\ shows t = shows s /\ tks t = tks s /\ mem t = mem s.
Proof.
  intros H. induction n as [|n IH]; [cbn; auto|]. change (Nat.iter (S n) (uop a v) s) with (uop a v (Nat.iter n (uop a v) s)). cbv zeta in *. destruct (uop_kept a v (Nat.iter n (uop a v) s) H) as (E1 & E2 & E3 & E4).
  destruct IH as (I1 & I2 & I3 & I4). repeat split; congruence.
Qed.
Lemma exec_u_kept s t : exec URISC s = Some t -> pc t = (pc s + 2) mod 65536 /\ shows t = shows s /\ tks t = tks s + 4.
Proof.
  rewrite exec_u. cbv zeta. intros E. injection E as <-. cbn [pc shows tks set_tks store set_mem].
  destruct (alu_addr (dst_of s)) eqn:H; [|cbn; auto].
  destruct (uops_kept (shows s) (dst_of s) (uval (src_of s) s) (set_pc ((pc s + 2) mod 65536) s) H) as (E1 & E2 & E3 & E4). rewrite E1, E2, E3. auto.
Qed.
Lemma look_u jk a s : look URISC jk a s = Some s.
Proof.
  unfold look, depth. rewrite rd_u. cbn [bind]. destruct (a + 1 <? 0x10000); rewrite ?rd_u; cbn [bind]; unfold comment, depth; (destruct (_ && _); [rewrite rd_u; reflexivity|reflexivity]).
Qed.
Lemma display_u jk s : display URISC jk s = Some (set_shows (S (shows s)) s).
Proof. unfold display, depth. cbn [bind]. rewrite rd_u. cbn [option_map bind snd]. rewrite look_u. reflexivity. Qed.

Fixpoint steps (l : list ev) : Z := match l with [] => 0 | Step :: l => 1 + steps l | _ :: l => steps l end.
Fixpoint displays (l : list ev) : nat := match l with [] => O | Show _ :: l => S (displays l) | _ :: l => displays l end.
Lemma run_u l : forall s, 0 <= pc s < 65536 ->
  exists t, run URISC l s = Some t /\ pc t = (pc s + 2 * steps l) mod 65536 /\ tks t = tks s + 4 * steps l /\ shows t = (shows s + displays l)%nat.
Proof.
  induction l as [|e l IH]; intros s H.
  - exists s. cbn. repeat split; try lia. 
  - destruct e as [|jk|jk a].
    + cbn [run event]. destruct (exec URISC s) as [u|] eqn:E; [|rewrite exec_u in E; discriminate]. cbn [bind]. destruct (exec_u_kept _ _ E) as (E1 & E2 & E3).
      destruct (IH u ltac:(rewrite E1; lia)) as (t & T & Q1 & Q2 & Q3). exists t. split; [exact T|]. rewrite Q1, Q2, Q3, E1, E2, E3. cbn [steps displays]. repeat split; lia.
    + cbn [run event]. rewrite display_u. cbn [bind]. destruct (IH (set_shows (S (shows s)) s) H) as (t & T & Q1 & Q2 & Q3). exists t. split; [exact T|]. cbn [steps displays]. cbn in Q1, Q2, Q3. repeat split; try assumption. lia.
    + cbn [run event]. rewrite look_u. cbn [bind]. destruct (IH s H) as (t & T & Q). exists t. split; [exact T|exact Q].
Qed.
Lemma run_u0 l : forall s t, shows s = O -> displays l = O -> run URISC l s = Some t -> ra t = ra s /\ rf t = rf s.
Proof.
  induction l as [|e l IH]; intros s t H D E; [injection E as <-; auto|]. destruct e as [|jk|jk a]; [| discriminate D |].
  - cbn [run event] in E. rewrite exec_u in E. cbn [bind] in E. cbv zeta in E. rewrite H in E. replace (if alu_addr (dst_of s) then 0%nat else 0%nat) with 0%nat in E by (destruct (alu_addr _); reflexivity).
    apply IH in E; [exact E|exact H|exact D].
  - cbn [run event] in E. rewrite look_u in E. apply (IH s t H D E).
Qed.

(** the accumulator *)
Lemma uadd_eq a b c s : fst (uadd a b c s) = u16 (a + b + (if c =? 0 then 0 else 1)) /\ exists f, snd (uadd a b c s) = set_rf f s.
Proof. unfold uadd. cbn [fst snd]. split; [reflexivity|]. eexists. reflexivity. Qed.
Lemma ra_uop a v s : alu_addr a = true -> 0 <= v < 65536 -> 0 <= ra s < 65536 -> ra (uop a v s) = after 1 a v (ra s).
Proof.
  intros H V R. unfold uop, uwrite, after, OiscSpec.W. cbn [snd]. rewrite (not16 v V), (not16 (ra s) R).
  destruct (a =? 0xfff0) eqn:E0; [reflexivity|]. destruct (a =? 0xfff1) eqn:E1; [unfold uadd, u16; cbn [ra set_ra Z.eqb]; lia|].
  destruct (a =? 0xfff2) eqn:E2; [unfold uadd, u16; cbn [ra set_ra Z.eqb Z.even]; lia|]. destruct (a =? 0xfff3) eqn:E3; [unfold uadd, u16; cbn [ra set_ra Z.eqb]; lia|].
  destruct (a =? 0xfff4) eqn:E4; [reflexivity|]. destruct (a =? 0xfff5) eqn:E5; [reflexivity|]. destruct (a =? 0xfff6) eqn:E6; [reflexivity|].
  unfold alu_addr in H. replace (a =? 0xfff7) with true by lia. cbn [ra set_ra]. rewrite Z.shiftr_div_pow2 by lia. reflexivity.
Qed.
Lemma after_w n a v acc : 0 <= v < 65536 -> 0 <= acc < 65536 -> 0 <= after n a v acc < 65536.
Proof.
  intros V R. unfold after, OiscSpec.W. assert (LO := lor_w _ _ R V). assert (LA := land_w _ _ R V). assert (LX := lxor_w _ _ R V).
  repeat match goal with |- context [if ?b then _ else _] => destruct b end; lia.
Qed.
Lemma after_S n a v acc : 0 < n -> 0 <= v < 65536 -> 0 <= acc < 65536 -> after 1 a v (after n a v acc) = after (n + 1) a v acc.
Proof.
  intros N V R. unfold after, OiscSpec.W. rewrite Z.add_1_r, Z.even_succ, <- Z.negb_even.
  repeat match goal with |- context [a =? ?k] => destruct (a =? k) end; try reflexivity; try (cbn [Z.even]; lia).
  - cbn [Z.even]. destruct (Z.even n); cbn [negb]; [reflexivity|]. lia.
  - cbn [Z.even]. destruct (Z.even n); cbn [negb]; [reflexivity|]. rewrite Z.lxor_assoc, Z.lxor_nilpotent, Z.lxor_0_r. reflexivity.
  - rewrite <- Z.land_assoc, Z.land_diag. reflexivity.
  - rewrite <- Z.lor_assoc, Z.lor_diag. reflexivity.
Qed.
Lemma ra_uops n a v s : alu_addr a = true -> 0 <= v < 65536 -> 0 <= ra s < 65536 -> ra (Nat.iter (S n) (uop a v) s) = after (Z.of_nat (S n)) a v (ra s).
Proof.
  intros H V R. induction n as [|n IH]; [apply ra_uop; assumption|]. change (Nat.iter (S (S n)) (uop a v) s) with (uop a v (Nat.iter (S n) (uop a v) s)).
  rewrite ra_uop; [|exact H|exact V|rewrite IH; apply after_w; assumption]. rewrite IH, after_S by lia. f_equal. lia.
Qed.
Definition arith (a : Z) : bool := (0xfff1 <=? a) && (a <=? 0xfff3).
Lemma rf_uops n a v s : arith a = false -> rf (Nat.iter n (uop a v) s) = rf s.
Proof.
  intros H. induction n as [|n IH]; [reflexivity|]. change (Nat.iter (S n) (uop a v) s) with (uop a v (Nat.iter n (uop a v) s)). rewrite <- IH.
  unfold arith in H. unfold uop, uwrite. cbn [snd]. replace (a =? 0xfff1) with false by lia. replace (a =? 0xfff2) with false by lia. replace (a =? 0xfff3) with false by lia.
  repeat destruct (a =? _); reflexivity.
Qed.
(** the flags of one addition *)
Lemma low15 a : 0 <= a < 65536 -> Z.land a 0x7fff = a mod 32768.
Proof. intros. change 0x7fff with (Z.ones 15). rewrite Z.land_ones by lia. reflexivity. Qed.
Lemma uadd_flags a b c s : 0 <= a < 65536 -> 0 <= b < 65536 -> 0 <= c <= 1 ->
  let r := (a + b + c) mod 65536 in let cy := 65536 <=? a + b + c in
  ra (let (q, t) := uadd a b c s in set_ra q t) = r /\
  flags (rf (let (q, t) := uadd a b c s in set_ra q t)) cy (r =? 0) (32768 <=? r) (xorb cy (negb ((a mod 32768 =? 0) && (b =? 0) && (c =? 0)))).
Proof.
  intros HA HB HC. cbv zeta. unfold uadd. cbn [ra rf set_ra set_rf]. assert (C : (if c =? 0 then 0 else 1) = c) by (destruct (Z.eqb_spec c 0); lia). rewrite C.
  split; [reflexivity|]. rewrite land_ffff, land_8000, low15 by exact HA.
  replace (0xffff <? a + b + c) with (65536 <=? a + b + c) by lia.
  replace (0x7fff <? a mod 32768 + (b + 0x7fff) + c) with (negb ((a mod 32768 =? 0) && (b =? 0) && (c =? 0))) by lia.
  assert (B : Z.testbit (a + b + c) 15 = (32768 <=? (a + b + c) mod 65536)).
  { rewrite <- (bit15 ((a + b + c) mod 65536)) by lia. rewrite <- land_ffff, Z.land_spec. change (Z.testbit 0xffff 15) with true. rewrite andb_true_r. reflexivity. }
  rewrite B. generalize ((a mod 32768 =? 0) && (b =? 0) && (c =? 0)) as q. intros q.
  destruct (65536 <=? a + b + c), q, ((a + b + c) mod 65536 =? 0), (32768 <=? (a + b + c) mod 65536); repeat split.
Qed.

(** ** plain processor *)
Lemma rd_o f a s : rd (S f) OISC a s = Some (mem s a, s). Proof. reflexivity. Qed.
Lemma exec_o s : wf s -> exists t, exec OISC s = Some t /\ abs t = plain (abs s) /\ wf t /\ rf t = rf s /\ shows t = shows s /\ tks t = tks s + 4.
Proof.
  intros W. assert (W' := W). destruct W' as (H1 & H2 & H3 & H4 & H5). unfold exec, depth. rewrite !rd_o. cbn [bind]. rewrite rd_o. cbn [bind wr ops writes]. rewrite rd_o. cbn [bind]. rewrite !land_ffff.
  eexists. split; [reflexivity|]. split; [|split; [apply wf_tks, wf_store, wf_pc; [lia|exact W]|cbn; auto]].
  change (abs (set_tks (tks (store (mem s ((pc s + 1) mod 65536)) (mem s (mem s (pc s))) (set_pc ((pc s + 2) mod 65536) s)) + 4) (store (mem s ((pc s + 1) mod 65536)) (mem s (mem s (pc s))) (set_pc ((pc s + 2) mod 65536) s)))) with (abs (store (mem s ((pc s + 1) mod 65536)) (mem s (mem s (pc s))) (set_pc ((pc s + 2) mod 65536) s))).
  rewrite abs_store by apply H5. reflexivity.
Qed.
Lemma look_o jk a s : look OISC jk a s = Some s.
Proof. unfold look, depth. rewrite rd_o. cbn [bind]. destruct (_ <? _); reflexivity. Qed.
Lemma display_o jk s : display OISC jk s = Some (set_shows (S (shows s)) s).
Proof. unfold display, depth. cbn [bind]. rewrite rd_o. cbn [option_map bind snd]. rewrite look_o. reflexivity. Qed.

(** ** displays of MISC16 *)
Lemma look_misc jk a s : wf s -> look MISC16 jk a s = Some s.
Proof.
  intros W. unfold look, depth. rewrite rd_misc by exact W. cbn [bind]. destruct (_ <? _); rewrite ?rd_misc by exact W; cbn [bind]; unfold comment, depth; rewrite rd_misc by exact W; reflexivity.
Qed.
Lemma display_misc jk s : wf s -> display MISC16 jk s = Some (set_shows (S (shows s)) s).
Proof. intros W. unfold display, depth. cbn [bind]. rewrite rd_misc by exact W. cbn [option_map bind snd]. rewrite look_misc by exact W. reflexivity. Qed.

(** ** displays of the extended one *)
Lemma rd_high f a s : 16 <= a -> rd (S f) EM a s = Some (mem s a, s).
Proof. intros H. cbn [rd]. rewrite ops_high by (exact is_em || lia). reflexivity. Qed.
Lemma look_em jk s a : 16 <= a -> a + 1 < 65536 -> 16 <= ra s -> 16 <= rp s -> wf s ->
  look EM jk a s = Some (if mem s a =? 6 then set_rp ((rp s + 1) mod 65536) s else if mem s a =? 10 then set_ra ((ra s + 1) mod 65536) s else s).
Proof.
  intros H1 H2 H3 H4 W. unfold look, depth. rewrite rd_high by exact H1. cbn [bind]. replace (a + 1 <? 0x10000) with true by lia. rewrite rd_high by lia. cbn [bind]. unfold comment, depth.
  destruct (Z.eqb_spec (mem s a) 7) as [E | E]; [rewrite E; cbn [Z.eqb Pos.eqb]; rewrite rd_high by exact H3; reflexivity|].
  destruct (Z.eqb_spec (mem s a) 6) as [E6 | E6]; [rewrite E6, rd6, rd_high by exact H4; reflexivity|].
  destruct (Z.eqb_spec (mem s a) 10) as [E10 | E10]; [rewrite E10, rd10, rd_high by exact H3; reflexivity|].
  destruct (Z.eq_dec (mem s a) 5) as [E5 | E5]; [rewrite E5; reflexivity|].
  rewrite rd_direct; [reflexivity|exact is_em|apply not_ptr; auto|exact W].
Qed.
Lemma display_em jk s : 16 <= pc s -> pc s + 1 < 65536 -> 16 <= ra s -> 16 <= rp s -> wf s ->
  display EM jk s = Some (set_shows (S (shows s)) (if mem s (pc s) =? 6 then set_rp ((rp s + 1) mod 65536) s else if mem s (pc s) =? 10 then set_ra ((ra s + 1) mod 65536) s else s)).
Proof.
  intros H1 H2 H3 H4 W. unfold display. change depth with 8%nat. rewrite rd_high by exact H4. cbn [option_map bind snd]. rewrite rd_high by exact H3. cbn [option_map bind snd]. rewrite look_em by assumption.
  cbn [bind]. destruct (_ =? 6); [reflexivity|]. destruct (_ =? 10); reflexivity.
Qed.

(** ** the stack of the extended one *)
Fixpoint pushes (l : list Z) (s : st) : option st := match l with [] => Some s | v :: l => bind (wr depth EM 6 v s) (pushes l) end.
Fixpoint pops (n : nat) (s : st) : option (list Z * st) :=
  match n with O => Some ([], s) | S k => bind (rd depth EM 6 s) (fun '(v, s) => option_map (fun '(l, t) => (v :: l, t)) (pops k s)) end.
Lemma push_one v s : 17 <= rp s < 65536 -> wr depth EM 6 v s = Some (store 6 v (store (rp s - 1) v (set_rp (rp s - 1) s))).
Proof.
  intros H. unfold depth. rewrite wr6. rewrite !u16_id by lia. cbn [wr]. rewrite ops_high by (exact is_em || lia). reflexivity.
Qed.
Lemma pop_one s : 16 <= rp s < 65535 -> rd depth EM 6 s = Some (mem s (rp s), set_rp (rp s + 1) s).
Proof. intros H. unfold depth. rewrite rd6. rewrite u16_id by lia. rewrite rd_high by lia. reflexivity. Qed.
Lemma pushes_ok l : forall s, Forall (fun v => 0 <= v < 65536) l -> 16 + Z.of_nat (length l) <= rp s -> rp s < 65536 ->
  exists t, pushes l s = Some t /\ rp t = rp s - Z.of_nat (length l) /\ pc t = pc s /\ ra t = ra s /\ rc t = rc s /\ tks t = tks s /\
  (forall a, a <> 6 -> a < rp t \/ rp s <= a -> mem t a = mem s a) /\
  (forall i, (i < length l)%nat -> mem t (rp t + Z.of_nat i) = nth i (rev l) 0).
Proof.
  induction l as [|v l IH]; intros s F H1 H2.
  - exists s. cbn. repeat split; try lia.
  - inversion F as [|? ? V F']; subst. cbn [length] in H1. cbn [pushes]. rewrite push_one by lia. cbn [bind].
    set (s1 := store 6 v (store (rp s - 1) v (set_rp (rp s - 1) s))). assert (P1 : rp s1 = rp s - 1) by reflexivity.
    destruct (IH s1 F') as (t & T & Q1 & Q2 & Q3 & Q4 & Q5 & Q6 & Q7); [rewrite P1; lia|rewrite P1; lia|].
    exists t. split; [exact T|]. rewrite P1 in *. cbn [length]. split; [lia|]. split; [exact Q2|]. split; [exact Q3|]. split; [exact Q4|]. split; [exact Q5|].
    assert (MS : forall a, a <> 6 -> mem s1 a = if a =? rp s - 1 then v else mem s a).
    { intros a N. unfold s1, store. cbn [mem set_mem set_rp]. replace (a =? 6) with false by lia. rewrite u16_id by exact V. reflexivity. }
    split.
    + intros a N O. rewrite Q6, MS by lia. replace (a =? rp s - 1) with false by lia. reflexivity.
    + intros i L. cbn [rev]. destruct (Nat.eq_dec i (length l)) as [-> | D].
      * rewrite app_nth2 by (rewrite rev_length; lia). rewrite rev_length, Nat.sub_diag. cbn [nth]. rewrite Q6, MS by lia. replace (_ =? rp s - 1) with true by lia. reflexivity.
      * rewrite app_nth1 by (rewrite rev_length; lia). apply Q7. lia.
Qed.
Lemma pops_ok n : forall s, 16 <= rp s -> rp s + Z.of_nat n < 65536 ->
  exists l, pops n s = Some (l, set_rp (rp s + Z.of_nat n) s) /\ length l = n /\ forall i, (i < n)%nat -> nth i l 0 = mem s (rp s + Z.of_nat i).
Proof.
  induction n as [|n IH]; intros s H1 H2.
  - exists []. cbn [pops length]. rewrite Z.add_0_r. split; [destruct s; reflexivity|]. split; [reflexivity|intros; lia].
  - cbn [pops]. rewrite pop_one by lia. cbn [bind]. destruct (IH (set_rp (rp s + 1) s)) as (l & E & L & N); [cbn; lia|cbn; lia|]. rewrite E. cbn [option_map].
    exists (mem s (rp s) :: l). cbn [rp set_rp] in *. split; [f_equal; f_equal; unfold set_rp; cbn; f_equal; lia|]. split; [cbn; lia|].
    intros [|i] I; [cbn [nth]; f_equal; lia|]. cbn [nth]. rewrite N by lia. cbn [mem set_rp]. f_equal. lia.
Qed.
Lemma push_pop l s : Forall (fun v => 0 <= v < 65536) l -> 16 + Z.of_nat (length l) <= rp s -> rp s < 65536 ->
  exists t u, pushes l s = Some t /\ pops (length l) t = Some (rev l, u) /\ rp u = rp s /\ pc u = pc s /\ ra u = ra s /\ rc u = rc s /\
  forall a, a <> 6 -> a < rp s - Z.of_nat (length l) \/ rp s <= a -> mem u a = mem s a.
Proof.
  intros F H1 H2. destruct (pushes_ok l s F H1 H2) as (t & T & Q1 & Q2 & Q3 & Q4 & Q5 & Q6 & Q7).
  destruct (pops_ok (length l) t) as (r & E & L & N); [lia|lia|]. exists t, (set_rp (rp t + Z.of_nat (length l)) t). split; [exact T|]. split.
  - rewrite E. f_equal. f_equal. apply nth_ext with 0 0; [rewrite rev_length; exact L|]. intros i I. rewrite N, Q7 by lia. reflexivity.
  - cbn [rp pc ra rc mem set_rp]. split; [lia|]. split; [exact Q2|]. split; [exact Q3|]. split; [exact Q4|]. intros a N' O. apply Q6; [exact N'|lia].
Qed.

(** ** conditions *)
Lemma land_bit f k m : m = 2 ^ k -> 0 <= k -> negb (Z.land f m =? 0) = Z.testbit f k.
Proof.
  intros -> K. destruct (Z.testbit f k) eqn:T.
  - apply negb_true_iff, Z.eqb_neq. intros E. assert (F := f_equal (fun v => Z.testbit v k) E). cbv beta in F. rewrite Z.land_spec, T, Z.pow2_bits_true, Z.bits_0 in F by exact K. discriminate F.
  - apply negb_false_iff, Z.eqb_eq. apply Z.bits_inj'. intros n N. rewrite Z.land_spec, Z.bits_0.
    destruct (Z.eq_dec n k) as [-> | E]; [rewrite T; reflexivity|]. rewrite Z.pow2_bits_false by lia. apply andb_false_r.
Qed.
Lemma uread_cond a s : 0xfff1 <= a <= 0xfff7 -> uread a s = if condition a (rf s) then 2 else 0.
Proof.
  intros H. unfold uread, condition, fN, fZ, fO, fC.
  rewrite (land_bit (rf s) 2 4), (land_bit (rf s) 0 1), (land_bit (rf s) 3 8), (land_bit (rf s) 1 2) by (reflexivity || lia). replace (a =? 0xfff0) with false by lia.
  destruct (Z.testbit (rf s) 3), (Z.testbit (rf s) 2), (Z.testbit (rf s) 1), (Z.testbit (rf s) 0);
  (destruct (a =? 0xfff1) eqn:E1; [reflexivity|]; destruct (a =? 0xfff2) eqn:E2; [reflexivity|]; destruct (a =? 0xfff3) eqn:E3; [reflexivity|]; destruct (a =? 0xfff4) eqn:E4; [reflexivity|];
   destruct (a =? 0xfff5) eqn:E5; [reflexivity|]; destruct (a =? 0xfff6) eqn:E6; [reflexivity|]; replace (a =? 0xfff7) with true by lia; reflexivity).
Qed.

(** ** histories *)
Lemma uval_w a s : wf s -> 0 <= uval a s < 65536.
Proof.
  intros (H1 & H2 & H3 & H4 & H5). unfold uval, alu_addr. destruct (_ && _) eqn:B; [|apply H5]. destruct (shows s); [apply H5|].
  destruct (Z.eq_dec a 0xfff0) as [-> | N]; [exact H2|]. rewrite uread_cond by lia. destruct (condition a (rf s)); lia.
Qed.
Lemma wf_uops n d v s : alu_addr d = true -> 0 <= v < 65536 -> wf s -> wf (Nat.iter n (uop d v) s).
Proof.
  intros H V W. induction n as [|n IH]; [exact W|]. change (Nat.iter (S n) (uop d v) s) with (uop d v (Nat.iter n (uop d v) s)). generalize dependent (Nat.iter n (uop d v) s). intros u (H1 & H2 & H3 & H4 & H5).
  destruct (uop_kept d v u H) as (E1 & E2 & E3 & E4). unfold wf. rewrite E1, E4, ra_uop by assumption. assert (A := after_w 1 d v (ra u) V H2).
  assert (R : rc (uop d v u) = rc u /\ rp (uop d v u) = rp u) by (unfold uop, uwrite, uadd; cbn [snd]; repeat destruct (d =? _); split; reflexivity).
  destruct R as (-> & ->). auto.
Qed.
Lemma exec_u_wf s t : wf s -> exec URISC s = Some t -> wf t.
Proof.
  intros W E. rewrite exec_u in E. cbv zeta in E. injection E as <-. apply wf_tks, wf_store. assert (V := uval_w (src_of s) s W).
  destruct (alu_addr (dst_of s)) eqn:H; [apply wf_uops; try assumption|cbn [Nat.iter nat_rect]]; apply wf_pc; try assumption; lia.
Qed.
Definition okev (e : ev) : Prop := match e with Dis jk a => 0 <= a < 65536 /\ 0 <= jk < 65536 | Show jk => 0 <= jk < 65536 | Step => True end.
Lemma look_total m jk a u : 0 <= a < 65536 -> wf u -> exists v, look m jk a u = Some v /\ wf v /\ tks v = tks u.
Proof.
  intros A' WU. destruct m.
  - exists u. rewrite look_o. auto.
  - exists u. rewrite look_u. auto.
  - exists u. rewrite look_misc by exact WU. auto.
  - unfold look. destruct (rd_em_ok a u WU A') as (src & s1 & E1 & _ & W1 & V1 & S1). rewrite E1. cbn [bind].
    assert (X : exists d s2, (if a + 1 <? 65536 then rd depth EM (a + 1) s1 else Some (jk, s1)) = Some (d, s2) /\ wf s2 /\ tks s2 = tks s1).
    { destruct (Z.ltb_spec (a + 1) 65536); [|exists jk, s1; auto]. destruct (rd_em_ok (a + 1) s1 W1 ltac:(lia)) as (d & s2 & E2 & _ & W2 & _ & S2). unfold same in S2. exists d, s2. tauto. }
    destruct X as (d & s2 & E2 & W2 & T2). rewrite E2. cbn [bind]. unfold comment. assert (RA := W2). destruct RA as (_ & RA & _).
    destruct (rd_em_ok (if src =? 7 then ra s2 else src) s2 W2 ltac:(destruct (src =? 7); assumption)) as (x & s3 & E3 & _ & W3 & _ & S3). rewrite E3. exists s3. split; [reflexivity|]. split; [exact W3|].
    unfold same in *. destruct S1 as (_ & _ & _ & _ & _ & ?), S3 as (_ & _ & _ & _ & _ & ?). congruence.
Qed.
Lemma display_total m jk s : wf s -> exists t, display m jk s = Some t /\ wf t /\ tks t = tks s.
Proof.
  intros W. assert (W' := W). destruct W' as (H1 & H2 & H3 & H4 & H5). destruct m.
  - rewrite display_o. eexists. split; [reflexivity|]. split; [apply wf_shows, W|reflexivity].
  - rewrite display_u. eexists. split; [reflexivity|]. split; [apply wf_shows, W|reflexivity].
  - rewrite display_misc by exact W. eexists. split; [reflexivity|]. split; [apply wf_shows, W|reflexivity].
  - unfold display. destruct (rd_em_ok (rp s) s W H4) as (x1 & s1 & E1 & _ & W1 & _ & S1). rewrite E1. cbn [option_map bind snd]. assert (R1 := W1). destruct R1 as (P1 & R1 & _).
    destruct (rd_em_ok (ra s1) s1 W1 R1) as (x2 & s2 & E2 & _ & W2 & _ & S2). rewrite E2. cbn [option_map bind snd]. assert (R2 := W2). destruct R2 as (P2 & _).
    destruct (look_total EM jk (pc s2) s2 P2 W2) as (u & EU & WU & TU). rewrite EU. cbn [bind]. eexists. split; [reflexivity|]. split; [apply wf_shows, WU|].
    unfold same in *. destruct S1 as (_ & _ & _ & _ & _ & ?), S2 as (_ & _ & _ & _ & _ & ?). cbn [tks set_shows]. congruence.
Qed.
Lemma exec_total m s : wf s -> exists t, exec m s = Some t /\ wf t /\ tks t = tks s + 4.
Proof.
  intros W. destruct m.
  - destruct (exec_o s W) as (t & T & _ & WT & _ & _ & K). eauto.
  - destruct (exec URISC s) as [t|] eqn:E; [|rewrite exec_u in E; discriminate]. exists t. split; [reflexivity|]. split; [exact (exec_u_wf s t W E)|]. apply exec_u_kept, E.
  - destruct (exec_misc s W) as (t & T & _ & WT & _ & _ & K). eauto.
  - destruct (exec_em s W) as (t & T & _ & WT & _ & _ & K). eauto.
Qed.
Lemma run_total m l : forall s, wf s -> Forall okev l -> exists t, run m l s = Some t /\ wf t /\ tks t = tks s + 4 * steps l.
Proof.
  induction l as [|e l IH]; intros s W F; [exists s; cbn; repeat split; try lia; apply W|]. inversion F as [|? ? O F']; subst. cbn [run].
  destruct e as [|jk|jk a]; cbn [event steps].
  - destruct (exec_total m s W) as (u & -> & WU & K). cbn [bind]. destruct (IH u WU F') as (t & T & WT & Q). exists t. split; [exact T|]. split; [exact WT|]. lia.
  - destruct (display_total m jk s W) as (u & -> & WU & K). cbn [bind]. destruct (IH u WU F') as (t & T & WT & Q). exists t. split; [exact T|]. split; [exact WT|]. lia.
  - destruct (look_total m jk a s (proj1 O) W) as (u & -> & WU & K). cbn [bind]. destruct (IH u WU F') as (t & T & WT & Q). exists t. split; [exact T|]. split; [exact WT|]. lia.
Qed.
