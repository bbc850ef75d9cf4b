(** C06: bank switching. *)
From Verif Require Import Base MemModel BankModel.

(** The selector field: [bits] adjacent bits from bit [sh] on. *)
Definition field (mask sh bits : Z) : Prop :=
  0 <= sh /\ 1 <= bits /\ sh + bits <= 31 /\ mask = (2 ^ bits - 1) * 2 ^ sh.
(** The bank number that a selector value names. *)
Definition named (sh bits v : Z) : Z := (v / 2 ^ sh) mod 2 ^ bits.

(** Bank numbers defined by a history, and the definition of a bank. *)
Fixpoint bank_def (l : list bop) (nr : Z) : option (Z * Z) :=
  match l with
  | [] => None
  | AddBank n chip cb :: t => if n =? nr then Some (chip, cb) else bank_def t nr
  | WriteSel _ :: t => bank_def t nr
  end.
(** No bank is defined twice, numbers are not negative. *)
Fixpoint once (l : list bop) : Prop :=
  match l with
  | [] => True
  | AddBank n _ _ :: t => 0 <= n /\ bank_def t n = None /\ once t
  | WriteSel _ :: t => once t
  end.

Lemma land1 x : Z.land x 1 = x mod 2.
Proof. change 1 with (Z.ones 1). rewrite Z.land_ones by lia. reflexivity. Qed.

Lemma skip_zeros_ok k : forall n x s, (k < n)%nat -> x mod 2 = 1 ->
  skip_zeros n (x * 2 ^ Z.of_nat k) s = (x, s + Z.of_nat k).
Proof.
  induction k as [|k IH]; intros n x s Hn Hx; (destruct n as [|n]; [lia|]); cbn [skip_zeros]; rewrite land1.
  - replace (x * 2 ^ Z.of_nat 0) with x by (cbn; lia). rewrite Hx. cbn. f_equal. lia.
  - rewrite Nat2Z.inj_succ, Z.pow_succ_r by lia.
    replace (x * (2 * 2 ^ Z.of_nat k)) with (x * 2 ^ Z.of_nat k * 2) by lia.
    rewrite Z.mod_mul, Z.div_mul by lia. change (0 =? 0) with true. cbv iota.
    rewrite IH by (assumption || lia). f_equal. lia.
Qed.

Lemma count_ones_ok k : forall n b, (k < n)%nat -> count_ones n (2 ^ Z.of_nat k - 1) b = b + Z.of_nat k.
Proof.
  induction k as [|k IH]; intros n b Hn; (destruct n as [|n]; [lia|]); cbn [count_ones]; rewrite land1.
  - cbn. lia.
  - rewrite Nat2Z.inj_succ, Z.pow_succ_r by lia.
    set (y := 2 ^ Z.of_nat k) in *.
    replace ((2 * y - 1) mod 2) with 1 by lia. cbn [Z.eqb negb].
    replace ((2 * y - 1) / 2) with (y - 1) by lia. unfold y. rewrite IH by lia. lia.
Qed.

Lemma geometry_ok mask sh bits : field mask sh bits -> geometry mask = (sh, 2 ^ bits).
Proof.
  intros (H0 & H1 & H2 & ->). unfold geometry.
  assert (P : 0 < 2 ^ sh) by (apply Z.pow_pos_nonneg; lia).
  assert (Q : 2 ^ bits = 2 * 2 ^ (bits - 1)) by (rewrite <- Z.pow_succ_r by lia; f_equal; lia).
  assert (0 < 2 ^ (bits - 1)) by (apply Z.pow_pos_nonneg; lia).
  destruct (_ =? 0) eqn:E; [nia|].
  replace sh with (Z.of_nat (Z.to_nat sh)) at 1 by lia.
  rewrite skip_zeros_ok by lia.
  replace ((2 ^ bits - 1) / 2) with (2 ^ (bits - 1) - 1) by lia.
  replace (bits - 1) with (Z.of_nat (Z.to_nat (bits - 1))) at 1 by lia.
  rewrite count_ones_ok by lia. f_equal; [lia|]. f_equal. lia.
Qed.

Lemma select_field mask sh bits v : field mask sh bits -> 0 <= v ->
  Z.shiftr (Z.land v mask) sh = named sh bits v.
Proof.
  intros (H0 & H1 & H2 & ->) Hv. rewrite Z.shiftr_land.
  replace ((2 ^ bits - 1) * 2 ^ sh) with (Z.shiftl (Z.ones bits) sh)
    by (rewrite Z.shiftl_mul_pow2, Z.ones_equiv by lia; lia).
  rewrite Z.shiftr_shiftl_l by lia. rewrite Z.sub_diag, Z.shiftl_0_r.
  rewrite Z.land_ones, Z.shiftr_div_pow2 by lia. reflexivity.
Qed.

Lemma nth_upd {A} (l : list A) i j x : (i < length l)%nat ->
  nth_error (upd l i x) j = if Nat.eqb j i then Some x else nth_error l j.
Proof.
  intros H. destruct (Nat.eqb j i) eqn:E.
  - apply Nat.eqb_eq in E. subst. apply nth_error_upd_same. exact H.
  - apply Nat.eqb_neq in E. apply nth_error_upd_other. congruence.
Qed.

Section P.
Variables (asb ase : Z) (csize : Z -> Z) (mask sh bits : Z).
Hypothesis Hf : field mask sh bits.

Definition window_shows (m : Z -> option (Z * Z)) (d : Z * Z) : Prop :=
  forall a, asb <= a <= ase -> m a = bslot csize (fst d) (u32 (snd d + (a - asb))).

Definition Inv (st : bstate) (tab : Z -> option (Z * Z)) (m0 : Z -> option (Z * Z)) : Prop :=
  shift_by st = sh /\ 0 <= sel st /\ Z.of_nat (length (banks st)) = 2 ^ bits /\
  (forall nr, 0 <= nr < 2 ^ bits -> nth_error (banks st) (Z.to_nat nr) = Some (tab nr)) /\
  (bank st <> -1 -> 0 <= bank st < 2 ^ bits /\
     exists d, tab (bank st) = Some d /\ window_shows (bmap st) d) /\
  (forall a, ~ (asb <= a <= ase) -> bmap st a = m0 a).

Lemma named_range v : 0 <= named sh bits v < 2 ^ bits.
Proof.
  unfold named. apply Z.mod_pos_bound. destruct Hf as (? & ? & ? & ?). apply Z.pow_pos_nonneg; lia.
Qed.

(** one activation in a state with that invariant *)
Lemma activate_ok st tab m0 : Inv st tab m0 -> exists st', activate asb ase csize mask st = Ok st' /\
  Inv st' tab m0 /\ sel st' = sel st /\
  match tab (named sh bits (sel st)) with
  | Some d => window_shows (bmap st') d
  | None => bmap st' = bmap st
  end.
Proof.
  intros (I1 & I2 & I3 & I4 & I5 & I6). unfold activate, actual_bank. rewrite I1, (select_field mask sh bits) by assumption.
  set (b := named sh bits (sel st)). pose proof (named_range (sel st)) as Hb. fold b in Hb.
  destruct (b =? bank st) eqn:E.
  - exists st. split; [reflexivity|]. split; [unfold Inv; tauto|]. split; [reflexivity|].
    assert (Eb : b = bank st) by lia. destruct I5 as (_ & d & D & W); [lia|]. rewrite Eb, D. exact W.
  - destruct (b <? 0) eqn:?; [lia|]. rewrite I4 by exact Hb.
    destruct (tab b) as [[chip cb]|] eqn:T.
    + eexists. split; [reflexivity|].
      assert (W : window_shows (fun a => if (asb <=? a) && (a <=? ase) then bslot csize chip (u32 (cb + (a - asb))) else bmap st a) (chip, cb)).
      { intros a Ha. replace ((asb <=? a) && (a <=? ase)) with true by lia. reflexivity. }
      split; [|split; [reflexivity|exact W]].
      unfold Inv. cbn [shift_by sel banks bank bmap]. repeat (split; [first [assumption|reflexivity]|]). split.
      * intros _. split; [exact Hb|]. exists (chip, cb). split; [exact T|exact W].
      * intros a Ha. replace ((asb <=? a) && (a <=? ase)) with false by lia. apply I6. exact Ha.
    + exists st. split; [reflexivity|]. split; [unfold Inv; tauto|]. split; reflexivity.
Qed.

Definition tab_add (tab : Z -> option (Z * Z)) (l : list bop) (nr : Z) : option (Z * Z) :=
  match bank_def l nr with Some d => Some d | None => tab nr end.

Definition ok_op (x : bop) : Prop := match x with WriteSel v => 0 <= v | AddBank nr _ _ => 0 <= nr end.

Lemma Inv_ext st tab tab' m0 : (forall nr, 0 <= nr < 2 ^ bits -> tab nr = tab' nr) -> Inv st tab m0 -> Inv st tab' m0.
Proof.
  intros H (I1 & I2 & I3 & I4 & I5 & I6). unfold Inv. repeat (split; [assumption|]). split.
  - intros nr Hn. rewrite <- H by exact Hn. apply I4. exact Hn.
  - split; [|exact I6]. intros Hb. destruct (I5 Hb) as (R & d & D & W). split; [exact R|].
    exists d. rewrite <- H by exact R. auto.
Qed.

Lemma ops_ok l : forall st tab m0, Inv st tab m0 -> Forall ok_op l -> once l ->
  (forall nr, bank_def l nr <> None -> tab nr = None) ->
  exists st', do_bops asb ase csize mask st l = Ok st' /\ Inv st' (tab_add tab l) m0.
Proof.
  induction l as [|x t IH]; intros st tab m0 HI Hok Honce Hfree; cbn [do_bops].
  - exists st. split; [reflexivity|]. exact HI.
  - inversion Hok as [|? ? Hx Ht]; subst. destruct x as [v|nr chip cb]; cbn [do_bop once bank_def] in *.
    + unfold write_sel. destruct (activate_ok (mkB v (banks st) (bank st) (shift_by st) (bmap st)) tab m0) as (st1 & E & I1 & _).
      { destruct HI as (I1 & I2 & I3 & I4 & I5 & I6). unfold Inv; cbn [shift_by sel banks bank bmap].
        repeat (split; [assumption|]). assumption. }
      rewrite E. cbn [rbind]. apply IH; assumption.
    + destruct Honce as (Hnr & Hnone & Honce).
      unfold add_bank. pose proof HI as (I1 & I2 & I3 & I4 & I5 & I6). rewrite I3.
      destruct (2 ^ bits <=? nr) eqn:Q.
      * cbn [rbind]. destruct (IH st tab m0 HI Ht Honce) as (st' & E & I').
        { intros n Hn. apply Hfree. destruct (nr =? n); [discriminate|exact Hn]. }
        exists st'. split; [exact E|]. eapply Inv_ext; [|exact I']. intros n Hn.
        unfold tab_add. cbn [bank_def]. destruct (nr =? n) eqn:?; [lia|reflexivity].
      * destruct (nr <? 0) eqn:?; [lia|]. rewrite I4 by lia.
        rewrite (Hfree nr) by (rewrite Z.eqb_refl; discriminate).
        set (tab1 := fun n => if n =? nr then Some (chip, cb) else tab n).
        destruct (activate_ok (mkB (sel st) (upd (banks st) (Z.to_nat nr) (Some (chip, cb))) (bank st) (shift_by st) (bmap st)) tab1 m0)
          as (st1 & E & J & _).
        { unfold Inv; cbn [shift_by sel banks bank bmap]. repeat (split; [assumption|]).
          split; [rewrite upd_length; exact I3|]. split.
          - intros n Hn. rewrite nth_upd by lia. unfold tab1.
            destruct (n =? nr) eqn:G.
            + assert (n = nr) by lia. subst n. rewrite Nat.eqb_refl. reflexivity.
            + destruct (Nat.eqb (Z.to_nat n) (Z.to_nat nr)) eqn:G2.
              * apply Nat.eqb_eq in G2. lia.
              * apply I4. exact Hn.
          - split; [|exact I6]. intros Hb. destruct (I5 Hb) as (R & d & D & W). split; [exact R|].
            exists d. split; [|exact W]. unfold tab1. destruct (bank st =? nr) eqn:G; [|exact D].
            assert (bank st = nr) by lia. rewrite H, (Hfree nr) in D; [discriminate|].
            rewrite Z.eqb_refl; discriminate. }
        rewrite E. cbn [rbind]. destruct (IH st1 tab1 m0 J Ht Honce) as (st' & E' & I').
        { intros n Hn. unfold tab1. destruct (n =? nr) eqn:G; [assert (n = nr) by lia; subst; congruence|].
          apply Hfree. destruct (nr =? n); [discriminate|exact Hn]. }
        exists st'. split; [exact E'|]. eapply Inv_ext; [|exact I']. intros n Hn.
        unfold tab_add, tab1. cbn [bank_def]. destruct (nr =? n) eqn:G.
        { assert (n = nr) by lia. subst n. rewrite Hnone, Z.eqb_refl. reflexivity. }
        { replace (n =? nr) with false by lia. reflexivity. }
Qed.

Lemma create_ok v0 m : 0 <= v0 -> exists st, create_banker asb ase csize mask v0 m = Ok st /\
  Inv st (fun _ => None) m.
Proof.
  intros Hv. unfold create_banker. rewrite (geometry_ok mask sh bits Hf).
  assert (P : 0 < 2 ^ bits) by (destruct Hf as (? & ? & ? & ?); apply Z.pow_pos_nonneg; lia).
  match goal with |- exists st, activate _ _ _ _ ?s = _ /\ _ => destruct (activate_ok s (fun _ => None) m) as (st & E & I & _) end.
  - unfold Inv; cbn [shift_by sel banks bank bmap]. repeat split; try lia.
    + rewrite repeat_length. lia.
    + intros nr Hn. rewrite nth_error_repeat by lia. reflexivity.
    + intros a Ha. replace ((asb <=? a) && (a <=? ase)) with false by lia. reflexivity.
  - exists st. split; [exact E|exact I].
Qed.

Theorem bank_switch v0 m l v : 0 <= v0 -> Forall ok_op l -> once l -> 0 <= v ->
  exists st0 st st', create_banker asb ase csize mask v0 m = Ok st0 /\
    do_bops asb ase csize mask st0 l = Ok st /\
    write_sel asb ase csize mask st v = Ok st' /\
    (forall a, ~ (asb <= a <= ase) -> bmap st' a = m a) /\
    match bank_def l (named sh bits v) with
    | Some (chip, cb) => forall a, asb <= a <= ase -> bmap st' a = bslot csize chip (u32 (cb + (a - asb)))
    | None => forall a, bmap st' a = bmap st a
    end.
Proof.
  intros Hv0 Hl Ho Hv. destruct (create_ok v0 m Hv0) as (st0 & E0 & I0).
  destruct (ops_ok l st0 _ m I0 Hl Ho ltac:(auto)) as (st & E1 & I1).
  unfold write_sel.
  destruct (activate_ok (mkB v (banks st) (bank st) (shift_by st) (bmap st)) (tab_add (fun _ => None) l) m) as (st' & E2 & I2 & S2 & W).
  { destruct I1 as (A1 & A2 & A3 & A4 & A5 & A6). unfold Inv; cbn [shift_by sel banks bank bmap].
    repeat (split; [assumption|]). assumption. }
  exists st0, st, st'. split; [exact E0|]. split; [exact E1|]. split; [exact E2|].
  split; [apply I2|]. cbn [sel] in W. unfold tab_add in W.
  destruct (bank_def l (named sh bits v)) as [[chip cb]|]; [exact W|].
  cbn [bmap] in W. rewrite W. reflexivity.
Qed.
End P.

(** C06. For a selector of adjacent bits and any history of bank definitions
    (no bank defined twice) and selector writes: a write that names a defined
    bank maps every address of the window to that bank, chip start plus offset
    (no backing past the end of the chip); naming an undefined bank changes
    nothing; addresses out of the window are never touched. *)
Theorem C06_selected_bank_is_mapped :
  forall asb ase csize mask sh bits, field mask sh bits ->
  forall v0 m l v, 0 <= v0 -> Forall ok_op l -> once l -> 0 <= v ->
  exists st0 st st', create_banker asb ase csize mask v0 m = Ok st0 /\
    do_bops asb ase csize mask st0 l = Ok st /\
    write_sel asb ase csize mask st v = Ok st' /\
    (forall a, ~ (asb <= a <= ase) -> bmap st' a = m a) /\
    match bank_def l (named sh bits v) with
    | Some (chip, cb) => forall a, asb <= a <= ase -> bmap st' a = bslot csize chip (u32 (cb + (a - asb)))
    | None => forall a, bmap st' a = bmap st a
    end.
Proof. exact bank_switch. Qed.
Print Assumptions C06_selected_bank_is_mapped.

(** Register banks of the 8051: PSW bits 3 and 4 select 8 bytes of the chip. *)
Example C06_nonvacuous :
  let l := [AddBank 0 1 0; AddBank 1 1 8; WriteSel 8; AddBank 2 1 16; WriteSel 24] in
  field 24 3 2 /\ Forall ok_op l /\ once l /\ bank_def l (named 3 2 208) = Some (1, 16) /\
  match create_banker 0 7 (fun _ => 256) 24 0 (fun _ => None) with
  | Ok st0 => match do_bops 0 7 (fun _ => 256) 24 st0 l with
    | Ok st => match write_sel 0 7 (fun _ => 256) 24 st 208 with
      | Ok st' => (bmap st 5, bmap st' 5) = (Some (1, 13), Some (1, 21))
      | _ => False end
    | _ => False end
  | _ => False end.
Proof.
  cbv zeta. split; [unfold field; lia|]. split; [repeat constructor; cbn; lia|].
  split; [cbn; repeat split; lia|]. split; [reflexivity|].
  vm_compute. reflexivity.
Qed.

(** Redefining a bank is refuted: the window loses its backing although the
    selector names a defined bank, and writing the selector does not help. *)
Theorem C06_redefined_bank_deviation :
  exists asb ase csize mask l v st0 st st' d, field mask 3 2 /\
  create_banker asb ase csize mask 0 (fun _ => None) = Ok st0 /\
  do_bops asb ase csize mask st0 l = Ok st /\ write_sel asb ase csize mask st v = Ok st' /\
  nth_error (banks st') (Z.to_nat (named 3 2 v)) = Some (Some d) /\
  bmap st' asb = None /\ bslot csize (fst d) (snd d) <> None.
Proof.
  set (l := [AddBank 0 1 0; AddBank 1 1 8; AddBank 1 1 16]).
  exists 0, 7, (fun _ => 256), 24, l, 0.
  assert (H : match create_banker 0 7 (fun _ => 256) 24 0 (fun _ => None) with
  | Ok st0 => match do_bops 0 7 (fun _ => 256) 24 st0 l with
    | Ok st => match write_sel 0 7 (fun _ => 256) 24 st 0 with
      | Ok st' => nth_error (banks st') (Z.to_nat (named 3 2 0)) = Some (Some (1, 0)) /\ bmap st' 0 = None
      | _ => False end
    | _ => False end
  | _ => False end) by (vm_compute; split; reflexivity).
  destruct (create_banker _ _ _ _ _ _) as [st0| |] eqn:E0; try contradiction.
  destruct (do_bops _ _ _ _ _ _) as [st| |] eqn:E1; try contradiction.
  destruct (write_sel _ _ _ _ _ _) as [st'| |] eqn:E2; try contradiction.
  exists st0, st, st', (1, 0). split; [unfold field; lia|]. split; [first [exact E0|reflexivity]|]. split; [first [exact E1|reflexivity]|].
  split; [first [exact E2|reflexivity]|]. split; [apply H|]. split; [apply H|]. discriminate.
Qed.
Print Assumptions C06_redefined_bank_deviation.

(** A selector mask with a gap is accepted, and then a selector write makes the
    simulator read past the end of its bank table. *)
Theorem C06_split_mask_deviation :
  exists asb ase csize mask v st0, 0 <= mask < 256 /\ 0 <= v < 256 /\
  create_banker asb ase csize mask 0 (fun _ => None) = Ok st0 /\
  write_sel asb ase csize mask st0 v = UB.
Proof. exists 0, 7, (fun _ => 256), 5, 5. eexists. split; [lia|]. split; [lia|]. split; reflexivity. Qed.
Print Assumptions C06_split_mask_deviation.

(** A zero mask is accepted too and crashes at once. *)
Theorem C06_zero_mask_deviation :
  create_banker 0 7 (fun _ => 256) 0 0 (fun _ => None) = UB.
Proof. reflexivity. Qed.
Print Assumptions C06_zero_mask_deviation.
