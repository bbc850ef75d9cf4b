(** C156 to C165: the one instruction processors. *)
From Verif Require Import Base OiscModel OiscSpec OiscProofs OiscProofs2 OiscProofs3.

(** a state whose memory is the list from the address on, zero elsewhere *)
Definition at_ (a0 : Z) (l : list Z) : st :=
  mkS a0 0 0 0 0 (fun i => if (i <? a0) || (a0 + 1000 <=? i) then 0 else nth (Z.to_nat (i - a0)) l 0) 0 0.
Lemma at_wf a0 l : 0 <= a0 < 65536 -> Forall (fun v => 0 <= v < 65536) l -> wf (at_ a0 l).
Proof.
  intros H F. unfold wf, at_. cbn. repeat split; try lia; destruct (_ || _); try lia; rewrite Forall_forall in F;
    destruct (nth_in_or_default (Z.to_nat (a - a0)) l 0) as [I | E]; try (apply F, I); rewrite E; lia.
Qed.
(** an example program of MISC16: A := word at 0x16 (40000), A := A + word at 0x16, jump if carry *)
Definition demo : st := at_ 16 [22; 8; 22; 11; 23; 4; 40000; 16].

(** ** C156 *)
Theorem C156_misc16_instruction : forall s, wf s ->
  exists t, exec MISC16 s = Some t /\ abs t = move (abs s) /\ tks t = tks s + 4.
Proof. intros s W. destruct (exec_misc s W) as (t & T & Q & _ & _ & _ & K). eauto. Qed.
Example C156_case : wf demo /\
  option_map (fun t => (pc t, ra t, rc t, tks t)) (run MISC16 [Step; Step] demo) = Some (20, 14464, 1, 8) /\
  option_map (fun t => (pc t, ra t, rc t, tks t)) (run MISC16 [Step; Step; Step] demo) = Some (16, 14464, 1, 12) /\
  (let x := move (move (move (abs demo))) in (PC x, A x, C x)) = (16, 14464, true).
Proof. split; [apply at_wf; [lia|repeat constructor; lia]|]. vm_compute. auto. Qed.
Print Assumptions C156_misc16_instruction.

(** ** C157 *)
Theorem C157_oisc_every_access_ends : forall m l s, wf s -> Forall okev l ->
  exists t, run m l s = Some t /\ wf t /\ tks t = tks s + 4 * steps l.
Proof. intros m l s. apply run_total. Qed.
(** pointers which point at each other: P = 6, A = 6, source and destination [A] *)
Example C157_case : let s := set_ra 6 (set_rp 6 (at_ 100 [7; 7; 6; 6])) in wf s /\
  option_map (fun t => (pc t, ra t, rp t)) (run EM [Step; Show 0; Step; Dis 0 6] s) = Some (104, 7, 12).
Proof. cbv zeta. split; [apply wf_ra; [lia|]; apply wf_rp; [lia|]; apply at_wf; [lia|repeat constructor; lia]|]. vm_compute. reflexivity. Qed.
Print Assumptions C157_oisc_every_access_ends.

(** ** C158 *)
Theorem C158_em_instruction : forall s, wf s ->
  exists t, exec EM s = Some t /\ moves (abs s) (abs t) /\ (forall y, moves (abs s) y -> y = abs t) /\ tks t = tks s + 4.
Proof.
  intros s W. destruct (exec_em s W) as (t & T & Q & _ & _ & _ & K). exists t. split; [exact T|]. split; [exact Q|]. split; [|exact K].
  intros y Y. exact (moves_det _ _ _ Q Y).
Qed.
Example C158_case : let s := set_rp 104 (at_ 100 [6; 10; 0; 0; 77]) in let s := set_ra 103 s in wf s /\
  option_map (fun t => (pc t, ra t, rp t, mem t 103)) (exec EM s) = Some (102, 104, 105, 77).
Proof. cbv zeta. split; [apply wf_ra; [lia|]; apply wf_rp; [lia|]; apply at_wf; [lia|repeat constructor; lia]|]. vm_compute. reflexivity. Qed.
Print Assumptions C158_em_instruction.

(** ** C159 *)
Theorem C159_em_stack : forall l s, Forall (fun v => 0 <= v < 65536) l -> 16 + Z.of_nat (length l) <= rp s -> rp s < 65536 ->
  exists t u, pushes l s = Some t /\ pops (length l) t = Some (rev l, u) /\ rp u = rp s /\ pc u = pc s /\ ra u = ra s /\ rc u = rc s /\
  forall a, a <> 6 -> a < rp s - Z.of_nat (length l) \/ rp s <= a -> mem u a = mem s a.
Proof. apply push_pop. Qed.
Example C159_case : let s := set_rp 0x8000 (at_ 100 []) in
  option_map fst (bind (pushes [1; 2; 3] s) (pops 3)) = Some [3; 2; 1].
Proof. vm_compute. reflexivity. Qed.
Print Assumptions C159_em_stack.

(** ** C160 *)
(** whatever the program: no instruction jumps *)
Theorem C160_urisc_never_jumps : forall l s, 0 <= pc s < 65536 ->
  exists t, run URISC l s = Some t /\ pc t = (pc s + 2 * steps l) mod 65536.
Proof. intros l s H. destruct (run_u l s H) as (t & T & Q & _). eauto. Qed.
(** before the first display of the registers accumulator and flags do not change *)
Theorem C160_urisc_dead_before_display : forall l s t, shows s = O -> displays l = O -> run URISC l s = Some t -> ra t = ra s /\ rf t = rf s.
Proof. exact run_u0. Qed.
Example C160_case : let s := at_ 100 [104; 0xfff3; 104; 0xffff; 5] in
  option_map (fun t => (pc t, ra t)) (run URISC [Step; Step] s) = Some (104, 0) /\
  option_map (fun t => (pc t, ra t)) (run URISC [Show 0; Step; Step] s) = Some (104, 5).
Proof. vm_compute. auto. Qed.
Print Assumptions C160_urisc_never_jumps.
Print Assumptions C160_urisc_dead_before_display.

(** ** C161 *)
(** n displays, then an instruction whose destination is one of the eight addresses of the accumulator *)
Theorem C161_urisc_accumulator : forall s n, wf s -> shows s = S n -> pc s + 1 < 0xfff0 ->
  let src := mem s (pc s) in let d := mem s (pc s + 1) in let v := mem s src in
  src < 0xfff0 -> 0xfff0 <= d <= 0xfff7 ->
  exists t, exec URISC s = Some t /\ ra t = after (Z.of_nat (S n)) d v (ra s) /\ pc t = pc s + 2 /\
  (forall a, mem t a = if a =? d then v else mem s a) /\
  (d = 0xfff0 \/ 0xfff4 <= d -> rf t = rf s).
Proof.
  intros s n W N P src d v HS HD. assert (W' := W). destruct W' as (H1 & H2 & H3 & H4 & H5).
  assert (NA : forall a, 0 <= a < 0xfff0 -> uval a s = mem s a) by (intros a A; unfold uval, alu_addr; replace ((0xfff0 <=? a) && (a <=? 0xfff7)) with false by lia; reflexivity).
  assert (E1 : src_of s = src) by (apply NA; lia). assert (E2 : dst_of s = d) by (unfold dst_of; rewrite Z.mod_small by lia; apply NA; lia).
  assert (E3 : uval src s = v) by (apply NA; unfold src in *; specialize (H5 (pc s)); lia).
  assert (AD : alu_addr d = true) by (unfold alu_addr; lia). assert (V : 0 <= v < 65536) by apply H5.
  rewrite exec_u. cbv zeta. rewrite E1, E2, E3, AD, N. eexists. split; [reflexivity|]. cbn [ra pc mem rf set_tks].
  destruct (uops_kept (S n) d v (set_pc ((pc s + 2) mod 65536) s) AD) as (K1 & K2 & K3 & K4). cbv zeta in *.
  split; [unfold store; cbn [ra set_mem]; rewrite ra_uops by assumption; reflexivity|].
  split; [unfold store; cbn [pc set_mem]; rewrite K1; cbn [pc set_pc]; lia|].
  split; [intros a; unfold store; cbn [mem set_mem]; rewrite u16_id by exact V; rewrite K4; reflexivity|].
  intros F. unfold store. cbn [rf set_mem]. rewrite rf_uops; [reflexivity|]. unfold arith. lia.
Qed.
Example C161_case : let s := set_ra 10 (at_ 100 [104; 0xfff1; 0; 0; 7]) in wf s /\
  option_map ra (run URISC [Show 0; Step] s) = Some 3 /\ option_map ra (run URISC [Show 0; Show 0; Show 0; Step] s) = Some 65525.
Proof. cbv zeta. split; [apply wf_ra; [lia|]; apply at_wf; [lia|repeat constructor; lia]|]. vm_compute. auto. Qed.
Print Assumptions C161_urisc_accumulator.

(** ** C162 *)
(** flags of additions and subtractions after one display: carry, zero and sign are right; the overflow flag is the
    complement of the carry after a subtraction, and the carry or its complement after an addition *)
Theorem C162_urisc_flags : forall s, wf s -> shows s = 1%nat -> pc s + 1 < 0xfff0 ->
  let src := mem s (pc s) in let d := mem s (pc s + 1) in let v := mem s src in let a := ra s in
  src < 0xfff0 ->
  (d = 0xfff1 -> exists t, exec URISC s = Some t /\ ra t = (a - v) mod 65536 /\ flags (rf t) (v <=? a) (ra t =? 0) (32768 <=? ra t) (a <? v)) /\
  (d = 0xfff2 -> exists t, exec URISC s = Some t /\ ra t = (v - a) mod 65536 /\ flags (rf t) (a <=? v) (ra t =? 0) (32768 <=? ra t) (v <? a)) /\
  (d = 0xfff3 -> exists t, exec URISC s = Some t /\ ra t = (a + v) mod 65536 /\
     flags (rf t) (65536 <=? a + v) (ra t =? 0) (32768 <=? ra t) (xorb (65536 <=? a + v) (negb ((a mod 32768 =? 0) && (v =? 0))))).
Proof.
  intros s W N P src d v a HS. assert (W' := W). destruct W' as (H1 & H2 & H3 & H4 & H5).
  assert (NA : forall a, 0 <= a < 0xfff0 -> uval a s = mem s a) by (intros x X; unfold uval, alu_addr; replace ((0xfff0 <=? x) && (x <=? 0xfff7)) with false by lia; reflexivity).
  assert (E1 : src_of s = src) by (apply NA; lia). assert (E2 : dst_of s = d) by (unfold dst_of; rewrite Z.mod_small by lia; apply NA; lia).
  assert (E3 : uval src s = v) by (apply NA; unfold src in *; specialize (H5 (pc s)); lia). assert (V : 0 <= v < 65536) by apply H5.
  rewrite exec_u. cbv zeta. rewrite E1, E2, E3, N.
  assert (M1 := not16 v V). assert (M2 := not16 (ra s) H2).
  split; [|split]; intros D; rewrite D; cbn [alu_addr Z.leb Z.compare Pos.compare Pos.compare_cont andb Nat.iter nat_rect]; (eexists; split; [reflexivity|]); cbn [ra rf set_tks store set_mem];
    unfold uop, uwrite; cbn [snd Z.eqb Pos.eqb]; cbn [ra set_pc]; rewrite ?M1, ?M2.
  - destruct (uadd_flags (ra s) (65535 - v) 1 (set_pc ((pc s + 2) mod 65536) s)) as (R & F); try lia. rewrite R.
    replace ((ra s + (65535 - v) + 1) mod 65536) with ((a - v) mod 65536) in * by (unfold a; lia). split; [reflexivity|].
    replace (65536 <=? ra s + (65535 - v) + 1) with (v <=? a) in F by (unfold a; lia). rewrite andb_false_r in F. cbn [negb] in F.
    replace (xorb (v <=? a) true) with (a <? v) in F by (destruct (v <=? a) eqn:X; cbn; lia). exact F.
  - destruct (uadd_flags v (65535 - ra s) 1 (set_pc ((pc s + 2) mod 65536) s)) as (R & F); try lia. rewrite R.
    replace ((v + (65535 - ra s) + 1) mod 65536) with ((v - a) mod 65536) in * by (unfold a; lia). split; [reflexivity|].
    replace (65536 <=? v + (65535 - ra s) + 1) with (a <=? v) in F by (unfold a; lia). rewrite andb_false_r in F. cbn [negb] in F.
    replace (xorb (a <=? v) true) with (v <? a) in F by (destruct (a <=? v) eqn:X; cbn; lia). exact F.
  - destruct (uadd_flags (ra s) v 0 (set_pc ((pc s + 2) mod 65536) s)) as (R & F); try lia. rewrite R. rewrite Z.add_0_r in *. split; [reflexivity|]. rewrite andb_true_r in F. exact F.
Qed.
(** the seven condition addresses, once the registers were displayed; until then they are memory *)
Theorem C162_urisc_conditions : forall s a, 0xfff1 <= a <= 0xfff7 ->
  rd depth URISC a s = Some (if (shows s =? 0)%nat then mem s a else if condition a (rf s) then 2 else 0, s).
Proof.
  intros s a H. unfold depth. rewrite rd_u. unfold uval, alu_addr. replace ((0xfff0 <=? a) && (a <=? 0xfff7)) with true by lia.
  destruct (shows s); [reflexivity|]. cbn [Nat.eqb]. rewrite uread_cond by exact H. reflexivity.
Qed.
(** one plus one is shown as an overflow *)
Example C162_case : let s := set_ra 1 (set_shows 1 (at_ 100 [104; 0xfff3; 0; 0; 1])) in wf s /\
  option_map (fun t => (ra t, rf t)) (exec URISC s) = Some (2, 8).
Proof. cbv zeta. split; [apply wf_ra; [lia|]; apply wf_shows, at_wf; [lia|repeat constructor; lia]|]. vm_compute. reflexivity. Qed.
Print Assumptions C162_urisc_flags.
Print Assumptions C162_urisc_conditions.

(** ** C163 *)
Theorem C163_oisc_move : forall s, wf s -> exists t, exec OISC s = Some t /\ abs t = plain (abs s) /\ tks t = tks s + 4.
Proof. intros s W. destruct (exec_o s W) as (t & T & Q & _ & _ & _ & K). eauto. Qed.
Example C163_case : option_map (fun t => (pc t, mem t 200)) (exec OISC (at_ 100 [102; 200; 9])) = Some (102, 9).
Proof. vm_compute. reflexivity. Qed.
Print Assumptions C163_oisc_move.

(** ** C164 *)
(** looking at the machine changes nothing in MISC16, OISC and URISC (except for the operators of URISC, C161) *)
Theorem C164_looking_changes_nothing : forall m jk a s, m <> EM -> wf s ->
  look m jk a s = Some s /\ display m jk s = Some (set_shows (S (shows s)) s).
Proof.
  intros m jk a s N W. destruct m; [| | |contradiction].
  - split; [apply look_o|apply display_o].
  - split; [apply look_u|apply display_u].
  - split; [apply look_misc, W|apply display_misc, W].
Qed.
(** in the extended one it moves P or A if the instruction's source is [P++] or [A++] *)
Theorem C164_em_looking : forall jk s, 16 <= pc s -> pc s + 1 < 65536 -> 16 <= ra s -> 16 <= rp s -> wf s ->
  exists t, display EM jk s = Some t /\
  abs t = (if mem s (pc s) =? 6 then setP ((rp s + 1) mod 65536) (abs s)
           else if mem s (pc s) =? 10 then setA ((ra s + 1) mod 65536) (abs s) else abs s).
Proof.
  intros jk s H1 H2 H3 H4 W. rewrite display_em by assumption. eexists. split; [reflexivity|].
  destruct (_ =? 6); [reflexivity|]. destruct (_ =? 10); reflexivity.
Qed.
(** the word popped by an instruction depends on whether it was displayed before *)
Example C164_case : let s := set_ra 300 (set_rp 103 (at_ 100 [6; 8; 0; 11; 22])) in wf s /\
  option_map ra (run EM [Step] s) = Some 11 /\ option_map ra (run EM [Show 0; Step] s) = Some 22.
Proof. cbv zeta. split; [apply wf_ra; [lia|]; apply wf_rp; [lia|]; apply at_wf; [lia|repeat constructor; lia]|]. vm_compute. auto. Qed.
Print Assumptions C164_looking_changes_nothing.
Print Assumptions C164_em_looking.

(** ** C165 *)
(** a source's name tells what is read, except PC+8: that is PC+6 *)
Theorem C165_misc16_source_names : forall a nm s w, wf s -> dis_src MISC16 a = Some nm -> src_means nm (abs s) w ->
  rd depth MISC16 a s = Some (if a =? 3 then (w - 2) mod 65536 else w, s).
Proof.
  intros a nm s w W D S. unfold depth. rewrite rd_misc by exact W. f_equal. f_equal. unfold dis_src, m_src in D. assert (W' := W). destruct W' as (H1 & H2 & H3 & H4 & H5).
  destruct (Z.eqb_spec a 0) as [-> | N0]; [injection D as <-; inversion S; subst; cbn; reflexivity|].
  destruct (Z.eqb_spec a 1) as [-> | N1]; [injection D as <-; inversion S; subst; reflexivity|].
  destruct (Z.eqb_spec a 2) as [-> | N2]; [injection D as <-; inversion S; subst; reflexivity|].
  destruct (Z.eqb_spec a 3) as [-> | N3]; [injection D as <-; inversion S; subst; unfold source, direct, OiscSpec.W; cbn [Z.eqb Pos.eqb PC abs]; lia|].
  destruct (Z.eqb_spec a 7) as [-> | N7].
  - injection D as <-. inversion S as [| | | | |x AX]; subst. unfold source. cbn [Z.eqb Pos.eqb]. cbn [A abs] in AX. cbn [A abs]. replace (ra s =? 7) with false by lia.
    unfold direct. decide_eqb. reflexivity.
  - destruct (Z.eqb_spec a 8) as [-> | N8]; [injection D as <-; inversion S; subst; reflexivity|discriminate D].
Qed.
(** a destination's name tells what is done, up to the copy kept in the register's own cell *)
Theorem C165_misc16_destination_names : forall d nm v s y, wf s -> 0 <= v < 65536 -> dis_dst MISC16 d = Some nm -> dst_means nm v (abs s) y ->
  exists t, wr depth MISC16 d v s = Some t /\ PC (abs t) = PC y /\ A (abs t) = A y /\ C (abs t) = C y /\
  (forall i, 16 <= i -> M (abs t) i = M y i).
Proof.
  intros d nm v s y W V D S. unfold depth. destruct (wr_misc 6 d v s W V) as (t & T & Q & _). exists t. split; [exact T|]. rewrite Q. clear T Q t.
  unfold dis_dst, m_dst in D. assert (HI : forall i k, 16 <= i -> 0 <= k <= 15 -> (i =? k) = false) by (intros; lia).
  destruct (Z.eqb_spec d 0) as [-> | N0]; [injection D as <-; inversion S; subst; cbn; repeat split; intros i I; rewrite (HI i 0) by lia; reflexivity|].
  destruct (Z.eqb_spec d 1) as [-> | N1].
  { injection D as <-. inversion S; subst. unfold destination, into, alu, jumps, negative. cbn [Z.eqb Pos.eqb orb andb]. change (OiscSpec.W / 2) with 32768. rewrite !orb_false_r.
    destruct (32768 <=? A (abs s)); cbn; repeat split; intros i I; rewrite (HI i 1) by lia; reflexivity. }
  destruct (Z.eqb_spec d 2) as [-> | N2].
  { injection D as <-. inversion S; subst. unfold destination, into, alu, jumps. cbn [Z.eqb Pos.eqb orb andb]. rewrite !orb_false_r.
    destruct (A (abs s) =? 0); cbn; repeat split; intros i I; rewrite (HI i 2) by lia; reflexivity. }
  destruct (Z.eqb_spec d 4) as [-> | N4].
  { injection D as <-. inversion S; subst. unfold destination, into, alu, jumps. cbn [Z.eqb Pos.eqb orb andb].
    destruct (C (abs s)); cbn; repeat split; intros i I; rewrite (HI i 4) by lia; reflexivity. }
  destruct (Z.eqb_spec d 7) as [-> | N7].
  { injection D as <-. inversion S as [| | | |v0 x AX| | | | | | |]; subst. unfold destination. cbn [Z.eqb Pos.eqb]. replace (A (abs s) =? 7) with false by lia.
    unfold into, alu, jumps. decide_eqb. cbn; repeat split; intros i I; rewrite (HI i 7) by lia; reflexivity. }
  destruct (Z.eqb_spec d 8) as [-> | N8]; [injection D as <-; inversion S; subst; cbn; repeat split; intros i I; rewrite (HI i 8) by lia; reflexivity|].
  destruct (Z.eqb_spec d 9) as [-> | N9]; [injection D as <-; inversion S; subst; cbn -[Z.modulo Z.sub]; repeat split; intros i I; rewrite (HI i 9) by lia; reflexivity|].
  destruct (Z.eqb_spec d 11) as [-> | N11]; [injection D as <-; inversion S; subst; cbn -[Z.modulo Z.add Z.leb]; repeat split; intros i I; rewrite (HI i 11) by lia; reflexivity|].
  destruct (Z.eqb_spec d 12) as [-> | N12]; [injection D as <-; inversion S; subst; cbn; repeat split; intros i I; rewrite (HI i 12) by lia; reflexivity|].
  destruct (Z.eqb_spec d 13) as [-> | N13]; [injection D as <-; inversion S; subst; cbn; repeat split; intros i I; rewrite (HI i 13) by lia; reflexivity|].
  destruct (Z.eqb_spec d 14) as [-> | N14]; [injection D as <-; inversion S; subst; cbn; repeat split; intros i I; rewrite (HI i 14) by lia; reflexivity|].
  destruct (Z.eqb_spec d 15) as [-> | N15]; [|discriminate D].
  injection D as <-. inversion S; subst. cbn -[Z.div Z.odd Z.add]. repeat split. intros i I. rewrite (HI i 15) by lia. reflexivity.
Qed.
From Coq Require Import String.
Example C165_case : dis_src MISC16 3 = Some "PC+8"%string /\ src_means "PC+8" (abs demo) 24 /\ rd depth MISC16 3 demo = Some (22, demo) /\
  dst_means "A+" 40000 (abs demo) (setC false (setA 40000 (abs demo))).
Proof. repeat split; [apply (sm_pc8 (abs demo))|apply (dm_add 40000 (abs demo))]. Qed.
Print Assumptions C165_misc16_source_names.
Print Assumptions C165_misc16_destination_names.
