(** 8080/8085: DAA, the stack, the further instructions of the 8085. *)
From Verif Require Import Base I80Model I80Spec I80Spec2 I80Proofs I80Proofs2 I80Proofs3 I80Proofs4 I80Proofs5 I80Proofs6 I80Proofs7 I80Proofs8 I80Proofs9.

(** ** DAA *)
Definition dlo (a : Z) (ac : bool) : bool := (9 <? a mod 16) || ac.
Definition dhi (a : Z) (ac c : bool) : bool := ((if dlo a ac then 9 else 10) <=? a / 16) || c.
Definition dcorr (a : Z) (ac c : bool) : Z := (if dlo a ac then 6 else 0) + (if dhi a ac c then 96 else 0).
Lemma daa_form m85 s : daa m85 s = let k := dcorr (A s) (Z.testbit (F s) 4) (Z.testbit (F s) 0) in
  if k =? 0 then s else add8 m85 k false true s.
Proof.
  unfold daa, dcorr, dhi, dlo. cbv zeta.
  destruct ((9 <? A s mod 16) || Z.testbit (F s) 4); cbn [Z.eqb Pos.eqb].
  - destruct ((9 <=? A s / 16) || Z.testbit (F s) 0); reflexivity.
  - destruct ((10 <=? A s / 16) || Z.testbit (F s) 0); reflexivity.
Qed.
Lemma add8_daa m85 v s : wf s -> 0 <= v < 256 ->
  let r := (A s + v) mod 256 in
  same (abs (add8 m85 v false true s)) (flags r (fA (abs s)) (256 <=? A s + v) (setr 7 r (abs s))).
Proof.
  intros W Hv. cbv zeta. unfold add8. cbn [andb]. cbv zeta.
  change (u8 (A s + v)) with ((A s + v) mod 256).
  assert (Hr : 0 <= (A s + v) mod 256 < 256) by (apply Z.mod_pos_bound; lia).
  apply flags_same; [exact Hr|apply wA_setr; exact Hr| | | | |]; bits; try reflexivity.
  destruct (255 <? _) eqn:X; destruct (256 <=? _) eqn:Y; try reflexivity; lia.
Qed.
Lemma dcorr_range a ac c : 0 <= dcorr a ac c <= 102.
Proof. unfold dcorr. destruct (dlo a ac), (dhi a ac c); lia. Qed.
Lemma exec_daa m85 lim dum s : wf s -> mem s (PC s) = 39 ->
  let x := abs s in let k := dcorr (A s) (fA x) (fC x) in let r := (A s + k) mod 256 in
  same (abs (fst (exec_inst m85 lim dum false s)))
       (if k =? 0 then next 1 x else next 1 (flags r (fA x) (256 <=? A s + k) (setr 7 r x))).
Proof.
  intros W Hc. cbv zeta. rewrite exec_eq. cbn [fst]. rewrite abs_last_ticks, Hc.
  assert (E : itab m85 39 = DAA) by (destruct m85; reflexivity). rewrite E. cbn [run fst].
  rewrite daa_form. cbv zeta.
  change (A (started s)) with (A s). change (Z.testbit (F (started s)) 4) with (fA (abs s)).
  change (Z.testbit (F (started s)) 0) with (fC (abs s)).
  destruct (dcorr (A s) (fA (abs s)) (fC (abs s)) =? 0); [apply same_refl|].
  pose proof (dcorr_range (A s) (fA (abs s)) (fC (abs s))).
  eapply same_eq; [apply add8_daa; [apply started_wf; exact W|lia]|]. reflexivity.
Qed.
(** against the manual *)
Lemma div_lt16 a : 0 <= a < 256 -> 0 <= a / 16 <= 15 /\ 0 <= a mod 16 <= 15 /\ a = 16 * (a / 16) + a mod 16.
Proof.
  intros H. pose proof (Z.div_mod a 16 ltac:(lia)). pose proof (Z.mod_pos_bound a 16 ltac:(lia)). lia.
Qed.
Lemma manual_daa m85 x : mm x (pc x) = 39 ->
  manual m85 x =
  (let a := R x 7 in
   let lo := (9 <? a mod 16) || fA x in
   let a1 := a + (if lo then 6 else 0) in
   let hi := (159 <? a1) || fC x in
   let a2 := a1 + (if hi then 96 else 0) in
   next 1 (flags (a2 mod 256) (lo && (9 <? a mod 16)) (hi || fC x) (setr 7 (a2 mod 256) x))).
Proof. intros H. rewrite manual_by_code, H. reflexivity. Qed.
Definition sA (a : Z) (ac c : bool) : Z := let k := dcorr a ac c in if k =? 0 then a else (a + k) mod 256.
Definition sC (a : Z) (ac c : bool) : bool := let k := dcorr a ac c in if k =? 0 then c else 256 <=? a + k.
Definition mA (a : Z) (ac c : bool) : Z :=
  let lo := (9 <? a mod 16) || ac in let a1 := a + (if lo then 6 else 0) in
  let hi := (159 <? a1) || c in (a1 + (if hi then 96 else 0)) mod 256.
Definition mC (a : Z) (ac c : bool) : bool :=
  let lo := (9 <? a mod 16) || ac in let a1 := a + (if lo then 6 else 0) in
  let hi := (159 <? a1) || c in hi || c.
Definition daa_ok (ac c : bool) (a : Z) : bool :=
  Bool.eqb (sA a ac c =? mA a ac c) (negb (negb c && ac && (a / 16 =? 9) && (a mod 16 <=? 9))) &&
  Bool.eqb (Bool.eqb (sC a ac c) (mC a ac c)) (negb (c && (a + dcorr a ac c <? 256))).
Lemma daa_all ac c a : 0 <= a < 256 -> daa_ok ac c a = true.
Proof. intros H. destruct ac, c; (apply (sweep 256); [vm_compute; reflexivity|exact H]). Qed.
Lemma exec_daa_parts m85 lim dum s : wf s -> mem s (PC s) = 39 ->
  let x := abs s in let s' := fst (exec_inst m85 lim dum false s) in
  A s' = sA (A s) (fA x) (fC x) /\ fC (abs s') = sC (A s) (fA x) (fC x) /\ fA (abs s') = fA x /\
  (dcorr (A s) (fA x) (fC x) = 0 -> fS (abs s') = fS x /\ fZ (abs s') = fZ x /\ fP (abs s') = fP x) /\
  (dcorr (A s) (fA x) (fC x) <> 0 -> fS (abs s') = (128 <=? A s') /\ fZ (abs s') = (A s' =? 0) /\ fP (abs s') = even_parity (A s')) /\
  (forall n, 0 <= n <= 5 -> R (abs s') n = R x n) /\ SP s' = SP s /\ PC s' = w (PC s + 1) /\ (forall a, mem s' a = mem s a).
Proof.
  intros W Hc. cbv zeta. destruct (exec_daa m85 lim dum s W Hc) as [H1 [H2 [H3 [H4 [H5 [H6 [H7 [H8 H9]]]]]]]]. cbv zeta in *.
  pose proof (H1 7 ltac:(lia) ltac:(lia)) as HA. change (R (abs ?t) 7) with (A t) in HA.
  unfold sA, sC. cbv zeta. rewrite H2, H3, H4, H5, H6. rewrite HA.
  assert (H1' : forall n, 0 <= n <= 5 -> R (abs (fst (exec_inst m85 lim dum false s))) n = R (abs s) n).
  { intros n Hn. rewrite (H1 n ltac:(lia) ltac:(lia)).
    destruct (dcorr (A s) (fA (abs s)) (fC (abs s)) =? 0); [reflexivity|].
    cbn [next setpc flags setf setr R]. replace (n =? 7) with false by lia. reflexivity. }
  change (sp (abs ?t)) with (SP t) in H7. change (pc (abs ?t)) with (PC t) in H8. change (mm (abs ?t)) with (mem t) in H9.
  assert (H9' : forall a, mem (fst (exec_inst m85 lim dum false s)) a = mem s a).
  { intros a. rewrite H9. destruct (dcorr (A s) (fA (abs s)) (fC (abs s)) =? 0); reflexivity. }
  assert (H7' : SP (fst (exec_inst m85 lim dum false s)) = SP s).
  { rewrite H7. destruct (dcorr (A s) (fA (abs s)) (fC (abs s)) =? 0); reflexivity. }
  assert (H8' : PC (fst (exec_inst m85 lim dum false s)) = w (PC s + 1)).
  { rewrite H8. destruct (dcorr (A s) (fA (abs s)) (fC (abs s)) =? 0); reflexivity. }
  clear H1 H2 H3 H4 H5 H6 H7 H8 H9 HA.
  destruct (dcorr (A s) (fA (abs s)) (fC (abs s)) =? 0) eqn:K.
  - repeat (split; [first [reflexivity|assumption]|]). split; [intros _; auto|]. split; [intros N; lia|].
    split; [exact H1'|]. split; [exact H7'|]. split; [exact H8'|exact H9'].
  - repeat (split; [first [reflexivity|assumption]|]). split; [intros Z0; lia|]. split; [intros _; auto|].
    split; [exact H1'|]. split; [exact H7'|]. split; [exact H8'|exact H9'].
Qed.
Lemma manual_daa_parts m85 s : mem s (PC s) = 39 -> let x := abs s in
  R (manual m85 x) 7 = mA (A s) (fA x) (fC x) /\ fC (manual m85 x) = mC (A s) (fA x) (fC x).
Proof. intros H. cbv zeta. rewrite (manual_daa m85 (abs s) H). split; reflexivity. Qed.
Lemma daa_against m85 lim dum s : wf s -> mem s (PC s) = 39 ->
  let x := abs s in let s' := fst (exec_inst m85 lim dum false s) in
  (A s' = R (manual m85 x) 7 <-> ~ (fC x = false /\ fA x = true /\ A s / 16 = 9 /\ A s mod 16 <= 9)) /\
  (fC (abs s') = fC (manual m85 x) <->
     ~ (fC x = true /\ A s + 96 + (if (9 <? A s mod 16) || fA x then 6 else 0) < 256)).
Proof.
  intros W Hc. cbv zeta. destruct (exec_daa_parts m85 lim dum s W Hc) as [E1 [E2 _]].
  destruct (manual_daa_parts m85 s Hc) as [E3 E4]. cbv zeta in *. rewrite E1, E2, E3, E4.
  assert (Ha : 0 <= A s < 256) by apply W.
  pose proof (daa_all (fA (abs s)) (fC (abs s)) (A s) Ha) as K. unfold daa_ok in K.
  apply andb_true_iff in K. destruct K as [K1 K2]. apply Bool.eqb_prop in K1. apply Bool.eqb_prop in K2.
  split.
  - rewrite <- Z.eqb_eq. rewrite K1, negb_true_iff, <- not_true_iff_false.
    rewrite !andb_true_iff, negb_true_iff, Z.eqb_eq, Z.leb_le. tauto.
  - rewrite <- Bool.eqb_true_iff. rewrite K2, negb_true_iff, <- not_true_iff_false, andb_true_iff, Z.ltb_lt.
    destruct (fC (abs s)) eqn:C1.
    + assert (Ek : A s + dcorr (A s) (fA (abs s)) true = A s + 96 + (if (9 <? A s mod 16) || fA (abs s) then 6 else 0)).
      { unfold dcorr, dhi. rewrite orb_true_r. unfold dlo. lia. }
      rewrite Ek. tauto.
    + split; intros _ [N _]; discriminate.
Qed.

(** ** Decimal addition *)
Definition hl_ok (h l : Z) : bool :=
  let b := 16 * h + l in let a := b mod 256 in let ac := 16 <=? l in let c := 256 <=? b in
  let n := 10 * h + l in
  Bool.eqb (sA a ac c =? bcd (n mod 100)) (negb ((16 <=? l) && (h =? 8))) &&
  Bool.eqb (Bool.eqb (sC a ac c) (100 <=? n)) (b <? 256).
Definition hl_row (h : Z) : bool := forallb (fun k => hl_ok h (Z.of_nat k)) (seq 0 19).
Lemma hl_all h l : 0 <= h < 19 -> 0 <= l < 19 -> hl_ok h l = true.
Proof.
  intros Hh Hl. assert (Rr := sweep 19 hl_row ltac:(vm_compute; reflexivity) h Hh).
  exact (sweep 19 (hl_ok h) Rr l Hl).
Qed.
Lemma bcd_range n : 0 <= n < 100 -> 0 <= n / 10 <= 9 /\ 0 <= n mod 10 <= 9 /\ n = 10 * (n / 10) + n mod 10 /\ 0 <= bcd n < 160.
Proof.
  intros H. pose proof (Z.div_mod n 10 ltac:(lia)). pose proof (Z.mod_pos_bound n 10 ltac:(lia)). unfold bcd. lia.
Qed.
Lemma bcd_add m85 lim dum s x y : wf s -> 0 <= x < 100 -> 0 <= y < 100 -> A s = bcd x ->
  mem s (PC s) = 198 -> mem s (w (PC s + 1)) = bcd y -> mem s (w (PC s + 2)) = 39 ->
  let t := two m85 lim dum s in
  (A t = bcd ((x + y) mod 100) <-> ~ (16 <= x mod 10 + y mod 10 /\ x / 10 + y / 10 = 8)) /\
  (fC (abs t) = (100 <=? x + y) <-> bcd x + bcd y < 256).
Proof.
  intros W Hx Hy Ax C0 C1 C2. cbv zeta. unfold two.
  set (s1 := fst (exec_inst m85 lim dum false s)).
  assert (W1 : wf s1) by (apply wf_exec, W).
  assert (ND : ~ differs m85 (abs s)).
  { intros D. destruct D as [v O|v O|v O|H|H|H|H|H]; try (change (mm (abs s) (pc (abs s))) with (mem s (PC s)) in H; lia).
    all: unfold operand_of in O; cbv zeta in O; change (mm (abs s) (pc (abs s))) with (mem s (PC s)) in O; lia. }
  assert (NU : ~ undefined_code (mem s (PC s))) by (unfold undefined_code; rewrite C0; cbn [In]; lia).
  pose proof (exec_refines m85 lim dum s W NU ND) as S. fold s1 in S.
  assert (EM : manual m85 (abs s) = next 2 (add (bcd y) 0 (abs s))).
  { rewrite manual_by_code. change (mm (abs s) (pc (abs s))) with (mem s (PC s)). rewrite C0. unfold manual_code.
    change (group3 m85 198 (abs s)) with (next 2 (add (operand8 (abs s)) 0 (abs s))).
    unfold operand8. change (mm (abs s) (w (pc (abs s) + 1))) with (mem s (w (PC s + 1))). rewrite C1. reflexivity. }
  rewrite EM in S. destruct S as [S1 [_ [_ [S4 [_ [S6 [_ [S8 S9]]]]]]]].
  pose proof (S1 7 ltac:(lia) ltac:(lia)) as SA. change (R (abs s1) 7) with (A s1) in SA.
  cbn [next setpc add flags setf setr R fA fC pc mm Z.eqb Pos.eqb] in SA, S4, S6, S8, S9.
  change (R (abs s) 7) with (A s) in *. change (pc (abs s)) with (PC s) in S8. change (pc (abs s1)) with (PC s1) in S8.
  change (mm (abs s1)) with (mem s1) in S9. change (mm (abs s)) with (mem s) in S9.
  assert (Cd : mem s1 (PC s1) = 39) by (rewrite S8, S9; exact C2).
  destruct (exec_daa_parts m85 lim dum s1 W1 Cd) as [E1 [E2 _]]. cbv zeta in E1, E2. rewrite E1, E2, SA, S4, S6, Ax. clear E1 E2.
  rewrite !Z.add_0_r.
  destruct (bcd_range x Hx) as [X1 [X2 [X3 X4]]]. destruct (bcd_range y Hy) as [Y1 [Y2 [Y3 Y4]]].
  assert (Em : forall n, 0 <= n < 100 -> bcd n mod 16 = n mod 10).
  { intros n Hn. destruct (bcd_range n Hn) as [N1 [N2 _]]. unfold bcd. rewrite Z.add_comm, Z.mul_comm, Z_mod_plus_full.
    apply Z.mod_small. lia. }
  rewrite (Em x Hx), (Em y Hy).
  set (h := x / 10 + y / 10). set (l := x mod 10 + y mod 10).
  assert (Eb : bcd x + bcd y = 16 * h + l) by (unfold bcd, h, l; lia).
  assert (En : x + y = 10 * h + l) by (unfold h, l; lia).
  rewrite Eb, En. pose proof (hl_all h l ltac:(unfold h; lia) ltac:(unfold l; lia)) as K. unfold hl_ok in K. cbv zeta in K.
  apply andb_true_iff in K. destruct K as [K1 K2]. apply Bool.eqb_prop in K1. apply Bool.eqb_prop in K2.
  split.
  - rewrite <- Z.eqb_eq. rewrite K1, negb_true_iff, <- not_true_iff_false, andb_true_iff, Z.leb_le, Z.eqb_eq. tauto.
  - rewrite <- Bool.eqb_true_iff. rewrite K2, Z.ltb_lt. tauto.
Qed.
