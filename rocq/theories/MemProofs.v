From Verif Require Import Base MemModel MemSpec.

Lemma Ok_inj {A} (a b : A) : Ok a = Ok b -> a = b.
Proof. congruence. Qed.

(* ---- bytes ---- *)
Lemma put_same st o i v : put st o i v o i = v.
Proof. unfold put. rewrite !Z.eqb_refl. reflexivity. Qed.
Lemma put_other st o i v o' i' : o' <> o \/ i' <> i -> put st o i v o' i' = st o' i'.
Proof. unfold put. intros. destruct (o' =? o) eqn:A, (i' =? i) eqn:B; cbn; auto; lia. Qed.

Lemma save_other n : forall st o i v o' i',
  o' <> o \/ i' < i \/ i + Z.of_nat n <= i' -> save st n o i v o' i' = st o' i'.
Proof.
  induction n as [|n IH]; intros st o i v o' i' H; cbn [save]; auto.
  rewrite IH by lia. apply put_other. lia.
Qed.

Lemma load_ext n : forall st st' o i,
  (forall k, i <= k < i + Z.of_nat n -> st o k = st' o k) -> load st n o i = load st' n o i.
Proof.
  induction n as [|n IH]; intros st st' o i H; cbn [load]; auto.
  rewrite (H i) by lia. rewrite (IH st st') by (intros; apply H; lia). reflexivity.
Qed.

Lemma load_save_other n m st o i v o' i' :
  o' <> o \/ i' + Z.of_nat n <= i \/ i + Z.of_nat m <= i' ->
  load (save st m o i v) n o' i' = load st n o' i'.
Proof.
  intros H. apply load_ext. intros k Hk. apply save_other. lia.
Qed.

Lemma load_save_same n : forall st o i v, load (save st n o i v) n o i = v mod 256 ^ Z.of_nat n.
Proof.
  induction n as [|n IH]; intros st o i v; [cbn; rewrite Z.mod_1_r; reflexivity|].
  cbn [load save]. rewrite save_other by lia. rewrite put_same.
  rewrite IH. rewrite Nat2Z.inj_succ, Z.pow_succ_r by lia.
  assert (0 < 256 ^ Z.of_nat n) by (apply Z.pow_pos_nonneg; lia).
  rewrite Z.rem_mul_r by lia. reflexivity.
Qed.

Lemma load_range n : forall st o i, (forall o i, 0 <= st o i < 256) -> 0 <= load st n o i < 256 ^ Z.of_nat n.
Proof.
  induction n as [|n IH]; intros st o i H; cbn [load]; [cbn; lia|].
  specialize (IH st o (i+1) H). specialize (H o i).
  rewrite Nat2Z.inj_succ, Z.pow_succ_r by lia. lia.
Qed.

Lemma save_bytes n : forall st o i v, (forall o i, 0 <= st o i < 256) ->
  forall o' i', 0 <= save st n o i v o' i' < 256.
Proof.
  induction n as [|n IH]; intros st o i v H o' i'; cbn [save]; auto.
  apply IH. intros. unfold put. destruct ((o0 =? o) && (i0 =? i)); auto. lia.
Qed.

(* ---- masks and bits ---- *)
Lemma land_mask_trunc w v : 1 <= w -> Z.land v (2 ^ w - 1) = v mod 2 ^ w.
Proof.
  intros. replace (2 ^ w - 1) with (Z.ones w) by (rewrite Z.ones_equiv; lia).
  apply Z.land_ones. lia.
Qed.

Definition bit_chk (x b : Z) : bool :=
  let m := 2 ^ b in
  (u8 m =? m) &&
  (Z.land (Z.land x (255 - m)) m =? 0) && (Z.land (Z.lor x m) m =? m) &&
  forallb (fun b' => (b' =? b) || ((Z.land (Z.land x (255 - m)) (2^b') =? Z.land x (2^b')) &&
                      (Z.land (Z.lor x m) (2^b') =? Z.land x (2^b')))) (zrange 8) &&
  (0 <=? Z.land x (255 - m)) && (Z.land x (255 - m) <? 256) && (0 <=? Z.lor x m) && (Z.lor x m <? 256).
Lemma bit_chk_all : forall x b, 0 <= x < 256 -> 0 <= b < 8 -> bit_chk x b = true.
Proof. apply (sweep2 bit_chk 256 8). vm_compute. reflexivity. Qed.

Lemma bit_facts x b : 0 <= x < 256 -> 0 <= b < 8 ->
  u8 (2^b) = 2^b /\
  Z.land (Z.land x (255 - 2^b)) (2^b) = 0 /\ Z.land (Z.lor x (2^b)) (2^b) = 2^b /\
  (forall b', 0 <= b' < 8 -> b' <> b -> Z.land (Z.land x (255 - 2^b)) (2^b') = Z.land x (2^b') /\
     Z.land (Z.lor x (2^b)) (2^b') = Z.land x (2^b')) /\
  0 <= Z.land x (255 - 2^b) < 256 /\ 0 <= Z.lor x (2^b) < 256.
Proof.
  intros Hx Hb. pose proof (bit_chk_all x b Hx Hb) as H. unfold bit_chk in H. cbv zeta in H.
  repeat (rewrite andb_true_iff in H; let H2 := fresh in destruct H as [H H2]).
  repeat match goal with h : (_ =? _) = true |- _ => apply Z.eqb_eq in h end.
  split; [exact H|]. split; [assumption|]. split; [assumption|]. split.
  - intros b' Hb' Hne.
    match goal with h : forallb _ _ = true |- _ => rewrite forallb_forall in h; specialize (h b') end.
    assert (Hin : In b' (zrange 8)) by (apply in_zrange; lia).
    match goal with h : In _ _ -> _ |- _ => specialize (h Hin) end.
    rewrite orb_true_iff, andb_true_iff, !Z.eqb_eq in *. tauto.
  - lia.
Qed.

Section P.
Variable alloc : Z -> Z.
Variable ebytes : Z -> nat.

Lemma inside_ok c : cell_ok alloc ebytes c -> inside alloc (nbytes (c_width c)) (c_loc c) = true.
Proof. intros (?&?&?&?&?). unfold inside. lia. Qed.

Lemma pow256 w : 1 <= w <= 32 -> exists k, 0 <= k /\ 256 ^ Z.of_nat (nbytes w) = 2 ^ w * 2 ^ k.
Proof.
  intros. exists (8 * Z.of_nat (nbytes w) - w).
  assert (w <= 8 * Z.of_nat (nbytes w)) by (unfold nbytes; destruct (w <=? 8) eqn:?, (w <=? 16) eqn:?; lia).
  split; [lia|]. rewrite <- Z.pow_add_r by lia. replace (w + _) with (8 * Z.of_nat (nbytes w)) by lia.
  rewrite Z.pow_mul_r by lia. reflexivity.
Qed.

(** after storing, the cell shows the truncated value *)
Lemma put_get st c v : cell_ok alloc ebytes c -> (forall o i, 0 <= st o i < 256) ->
  exists st', cell_put alloc st c (stored c v) = Ok st' /\ (forall o i, 0 <= st' o i < 256) /\
    cell_get alloc st' c = Ok (trunc (c_width c) v) /\
    forall c', cell_ok alloc ebytes c' -> c_loc c = c_loc c' -> obj (c_loc c) <> 0 ->
      ((c_width c <> 1 /\ c_width c' <> 1) \/
       (c_width c = 1 /\ c_width c' = 1 /\ c_mask c = c_mask c')) ->
      cell_get alloc st' c' = Ok (trunc (c_width c) v).
Proof.
  intros Hc Hst. pose proof (inside_ok _ Hc) as Hin. destruct Hc as (Hw & Hm & H0 & H1 & H2 & H3).
  unfold cell_put, cell_get, stored, trunc. rewrite Hin.
  set (o := obj (c_loc c)) in *. set (i := off (c_loc c)) in *.
  destruct (c_width c =? 1) eqn:E.
  - destruct Hm as (b & Hb & Hm). assert (Ew : c_width c = 1) by lia.
    assert (Hx : 0 <= st o i < 256) by apply Hst.
    replace (load st 1 o i) with (st o i) by (cbn; lia).
    destruct (bit_facts (st o i) b Hx Hb) as (F1 & F2 & F3 & _ & R1 & R2).
    rewrite Hm, F1.
    set (y := if v =? 0 then Z.land (st o i) (255 - 2 ^ b) else Z.lor (st o i) (2 ^ b)).
    assert (Hy : 0 <= y < 256) by (unfold y; destruct (v =? 0); assumption).
    eexists. split; [reflexivity|]. split; [apply save_bytes; exact Hst|].
    assert (L : load (save st 1 o i y) 1 o i = y).
    { rewrite load_save_same. change (256 ^ Z.of_nat 1) with 256. lia. }
    assert (Hr : (if Z.land y (2 ^ b) =? 0 then 0 else 1) = (if v =? 0 then 0 else 1)).
    { unfold y. destruct (v =? 0); [rewrite F2; reflexivity|rewrite F3].
      assert (0 < 2 ^ b) by (apply Z.pow_pos_nonneg; lia).
      destruct (2 ^ b =? 0) eqn:?; lia. }
    split.
    + rewrite Ew. change (nbytes 1) with 1%nat. rewrite L, Hr. reflexivity.
    + intros c' Hc' El Ho [[? ?]|(? & Ew' & Em)]; [lia|].
      rewrite (inside_ok _ Hc'). rewrite Ew', <- El. fold o i. change (nbytes 1) with 1%nat.
      rewrite L. change (1 =? 1) with true. cbv iota. rewrite <- Em, Hr. reflexivity.
  - eexists. split; [reflexivity|]. split; [apply save_bytes; exact Hst|].
    assert (L : load (save st (nbytes (c_width c)) o i (Z.land v (c_mask c))) (nbytes (c_width c)) o i
              = v mod 2 ^ c_width c).
    { rewrite load_save_same, Hm, land_mask_trunc by lia.
      destruct (pow256 _ Hw) as (k & Hk & ->).
      assert (0 < 2 ^ c_width c) by (apply Z.pow_pos_nonneg; lia).
      assert (0 < 2 ^ k) by (apply Z.pow_pos_nonneg; lia).
      apply Z.mod_small. pose proof (Z.mod_pos_bound v (2 ^ c_width c)). nia. }
    split; [rewrite L; reflexivity|].
    intros c' Hc' El Ho [[? E']|(? & ? & ?)]; [|lia].
    rewrite (inside_ok _ Hc').
    destruct Hc' as (_ & _ & _ & _ & _ & H3'). rewrite <- El in H3'. fold o in H3'.
    rewrite (proj1 (H3' Ho)), <- (proj1 (H3 Ho)), <- El. fold o i. rewrite L.
    rewrite (proj2 (Z.eqb_neq _ _) E'). reflexivity.
Qed.

(** storing does not change other locations, nor other bits of the same location *)
Lemma put_other_cell st c v st' : cell_ok alloc ebytes c -> (forall o i, 0 <= st o i < 256) ->
  cell_put alloc st c v = Ok st' ->
  (forall o i, 0 <= st' o i < 256) /\
  (forall o i, o <> obj (c_loc c) -> st' o i = st o i) /\
  forall c', cell_ok alloc ebytes c' ->
    (c_loc c <> c_loc c' \/ (c_width c = 1 /\ c_width c' = 1 /\ c_mask c <> c_mask c')) ->
    cell_get alloc st' c' = cell_get alloc st c'.
Proof.
  intros Hc Hst Hput. pose proof (inside_ok _ Hc) as Hin.
  unfold cell_put in Hput. rewrite Hin in Hput.
  set (o := obj (c_loc c)) in *. set (i := off (c_loc c)) in *.
  assert (Hs : exists y, st' = save st (nbytes (c_width c)) o i y).
  { apply Ok_inj in Hput. subst st'. destruct (c_width c =? 1) eqn:E; [|eexists; reflexivity].
    assert (Ew : c_width c = 1) by lia. rewrite Ew. eexists. reflexivity. }
  split; [destruct Hs as (y & ->); apply save_bytes; exact Hst|].
  split; [intros; destruct Hs as (y & ->); apply save_other; auto|].
  intros c' Hc' Hd. unfold cell_get. rewrite (inside_ok _ Hc').
  destruct (Z.eq_dec (obj (c_loc c')) o) as [Eo|No].
  2:{ destruct Hs as (y & ->). rewrite load_save_other by auto. reflexivity. }
  destruct (Z.eq_dec (off (c_loc c')) i) as [Ei|Ni].
  - (* same location: different bits *)
    destruct Hd as [Hd|(E1 & E2 & Hd)].
    { exfalso. apply Hd. unfold o, i in *. destruct (c_loc c), (c_loc c'); cbn in *; subst; reflexivity. }
    destruct Hc as (_ & Hm & _). destruct Hc' as (_ & Hm' & _).
    rewrite E1 in Hm. rewrite E2 in Hm'. cbn in Hm, Hm'.
    destruct Hm as (b & Hb & Hm). destruct Hm' as (b' & Hb' & Hm').
    rewrite E1 in Hput. cbn [Z.eqb Pos.eqb] in Hput. cbv zeta in Hput. rewrite E2, Eo, Ei.
    assert (Hx : 0 <= st o i < 256) by apply Hst.
    apply Ok_inj in Hput. subst st'.
    change (nbytes 1) with 1%nat. rewrite load_save_same. change (256 ^ Z.of_nat 1) with 256.
    replace (load st 1 o i) with (st o i) by (cbn; lia).
    destruct (bit_facts (st o i) b Hx Hb) as (F1 & F2 & F3 & F4 & R1 & R2).
    destruct (F4 b' Hb') as [G1 G2]; [congruence|].
    rewrite Hm, Hm', F1. change (1 =? 1) with true. cbv iota.
    destruct (v =? 0); rewrite Z.mod_small by assumption; [rewrite G1|rewrite G2]; reflexivity.
  - destruct Hs as (y & ->). rewrite load_save_other; [reflexivity|]. right.
    destruct Hc as (_ & _ & P0 & _ & Z0 & A0). destruct Hc' as (_ & _ & P1 & _ & Z1 & A1).
    rewrite Eo in Z1, A1. fold o i in P0, Z0, A0.
    destruct (Z.eq_dec o 0) as [E0|N0]; [lia|].
    destruct (A0 N0) as [B0 M0]. destruct (A1 N0) as [B1 M1].
    rewrite B0, B1.
    set (e := Z.of_nat (ebytes o)) in *.
    assert (0 < e) by (unfold e; rewrite <- B0; unfold nbytes; destruct (c_width c <=? 8), (c_width c <=? 16); cbn; lia).
    apply Z.mod_divide in M0; [|lia]. apply Z.mod_divide in M1; [|lia].
    destruct M0 as [k0 M0]. destruct M1 as [k1 M1].
    assert (k0 <> k1) by congruence. nia.
Qed.

Section Conf.
Variable spaces : Z -> space.
Hypothesis Hconf : config_ok alloc ebytes spaces.

Lemma valid_range sp a : in_range (spaces sp) a ->
  invalid (spaces sp) a = false /\ the_cell (spaces sp) a = cell_of (spaces sp) a /\
  cell_ok alloc ebytes (cell_of (spaces sp) a).
Proof.
  intros H. destruct (Hconf sp) as [(A & B & C & D) E]. unfold in_range in H.
  assert (u32 (a - s_start (spaces sp)) = a - s_start (spaces sp)) by (apply u32_id; lia).
  unfold invalid, the_cell, cell_of. rewrite H0. split; [lia|]. split; [reflexivity|].
  apply E. exact H.
Qed.

Lemma invalid_range sp a : 0 <= a < 2^32 -> ~ in_range (spaces sp) a -> invalid (spaces sp) a = true.
Proof.
  intros Ha H. destruct (Hconf sp) as [(A & B & C & D) E]. unfold in_range in H. unfold invalid.
  destruct (a <? s_start (spaces sp)) eqn:Q; [lia|].
  rewrite u32_id by lia. lia.
Qed.

Lemma in_range_dec s a : in_range s a \/ ~ in_range s a.
Proof. unfold in_range. lia. Qed.

Definition value sp a w := cell_get alloc (data w) (cell_of (spaces sp) a).

Lemma read_valid w sp a : in_range (spaces sp) a ->
  read alloc w (spaces sp) a = (v <- value sp a w ;; Ok (v, w)).
Proof.
  intros H. destruct (valid_range sp a H) as (I & C & _). unfold read, value. rewrite I, C. reflexivity.
Qed.

Lemma value_ok w sp a : in_range (spaces sp) a -> exists v, value sp a w = Ok v.
Proof.
  intros H. destruct (valid_range sp a H) as (I & C & K). unfold value, cell_get.
  rewrite (inside_ok _ K). eauto.
Qed.

Lemma loc_dec (a b : loc) : a = b \/ a <> b.
Proof.
  destruct a as [o i], b as [o' i']. destruct (Z.eq_dec o o'), (Z.eq_dec i i'); subst; auto;
  right; congruence.
Qed.

Lemma elsewhere_dec s a s' a' : elsewhere s a s' a' \/ ~ elsewhere s a s' a'.
Proof.
  unfold elsewhere, one_bit. destruct (loc_dec (place s a) (place s' a')) as [E|E]; [|tauto].
  destruct (Z.eq_dec (c_width (cell_of s a)) 1), (Z.eq_dec (c_width (cell_of s' a')) 1),
    (Z.eq_dec (c_mask (cell_of s a)) (c_mask (cell_of s' a'))); tauto.
Qed.

(** One access: what it can change. *)
Lemma access_frame w x : bytes_ok w -> 0 <= acc_addr x < 2^32 ->
  exists w', do_access alloc spaces w x = Ok w' /\ bytes_ok w' /\
  (forall sp a, in_range (spaces sp) a -> decoded (spaces sp) a ->
     ~ may_touch spaces (spaces sp) a x -> value sp a w' = value sp a w) /\
  (~ in_range (spaces (acc_space x)) (acc_addr x) ->
     (forall o i, o <> 0 -> data w' o i = data w o i) /\
     errs w' = if s_uc (spaces (acc_space x)) then errs w ++ [acc_addr x] else errs w).
Proof.
  intros Hw Ha.
  assert (Hdummy : forall sp a (s : store), (forall i o, 0 <= s o i < 256) ->
     (forall o i, o <> 0 -> s o i = data w o i) ->
     in_range (spaces sp) a -> decoded (spaces sp) a ->
     cell_get alloc s (cell_of (spaces sp) a) = value sp a w).
  { intros sp a s Hb Ho Hr Hd. unfold value, cell_get.
    destruct (inside _ _ _); [|reflexivity]. erewrite load_ext; [reflexivity|].
    intros; apply Ho. exact Hd. }
  assert (Hcase : forall sp b (P : Prop) (put : store -> cell -> res store) (dput : store -> store),
     0 <= b < 2^32 ->
     (forall st c, cell_ok alloc ebytes c -> (forall o i, 0 <= st o i < 256) ->
        (exists st', put st c = Ok st') /\
        (forall st', put st c = Ok st' ->
          (forall o i, 0 <= st' o i < 256) /\
          forall c', cell_ok alloc ebytes c' ->
           (c_loc c <> c_loc c' \/ (c_width c = 1 /\ c_width c' = 1 /\ c_mask c <> c_mask c')) ->
           cell_get alloc st' c' = cell_get alloc st c')) ->
     (forall st, (forall o i, 0 <= st o i < 256) ->
        (forall o i, 0 <= dput st o i < 256) /\ (forall o i, o <> 0 -> dput st o i = st o i)) ->
     let r := if invalid (spaces sp) b then
                let w' := report w (spaces sp) b in Ok (mkWorld (dput (data w')) (errs w'))
              else upd_data w (put (data w) (the_cell (spaces sp) b)) in
     exists w', r = Ok w' /\ bytes_ok w' /\
     (forall sp' a, in_range (spaces sp') a -> decoded (spaces sp') a ->
        ~ (in_range (spaces sp) b /\ ~ elsewhere (spaces sp) b (spaces sp') a) ->
        value sp' a w' = value sp' a w) /\
     (~ in_range (spaces sp) b ->
        (forall o i, o <> 0 -> data w' o i = data w o i) /\
        errs w' = if s_uc (spaces sp) then errs w ++ [b] else errs w)).
  { intros sp b P put dput Hb Hput Hd r. unfold r.
    destruct (in_range_dec (spaces sp) b) as [R|NR].
    - destruct (valid_range sp b R) as (I & C & K). rewrite I, C.
      destruct (Hput (data w) (cell_of (spaces sp) b) K Hw) as [[st' Est] Hst].
      rewrite Est. cbn [upd_data rbind]. destruct (Hst _ Est) as [Hb' Hg].
      eexists. split; [reflexivity|]. split; [exact Hb'|]. split; [|tauto].
      intros sp' a Hr Hdec Hn.
      destruct (valid_range sp' a Hr) as (_ & _ & K').
      unfold value. cbn [data]. apply Hg; [exact K'|].
      destruct (elsewhere_dec (spaces sp) b (spaces sp') a) as [E|E]; [exact E|tauto].
    - rewrite (invalid_range sp b Hb NR).
      assert (Hdt : data (report w (spaces sp) b) = data w) by (unfold report; destruct (s_uc _); reflexivity).
      cbv zeta. rewrite Hdt. destruct (Hd (data w) Hw) as [D1 D2].
      eexists. split; [reflexivity|]. split; [exact D1|]. split.
      + intros sp' a Hr Hdec _. apply Hdummy; auto; intros; apply D1.
      + intros _. split; [exact D2|]. unfold report. destruct (s_uc _); reflexivity. }
  assert (Hputok : forall v st c, cell_ok alloc ebytes c -> (forall o i, 0 <= st o i < 256) ->
        (exists st', cell_put alloc st c v = Ok st') /\
        (forall st', cell_put alloc st c v = Ok st' ->
          (forall o i, 0 <= st' o i < 256) /\
          forall c', cell_ok alloc ebytes c' ->
           (c_loc c <> c_loc c' \/ (c_width c = 1 /\ c_width c' = 1 /\ c_mask c <> c_mask c')) ->
           cell_get alloc st' c' = cell_get alloc st c')).
  { intros v st c K Hst. split.
    - unfold cell_put. rewrite (inside_ok _ K). eauto.
    - intros st' E. destruct (put_other_cell _ _ _ _ K Hst E) as (A & _ & B). auto. }
  assert (Hwr : forall v st c, cell_ok alloc ebytes c -> (forall o i, 0 <= st o i < 256) ->
        (exists st', cell_write alloc st c v = Ok st') /\
        (forall st', cell_write alloc st c v = Ok st' ->
          (forall o i, 0 <= st' o i < 256) /\
          forall c', cell_ok alloc ebytes c' ->
           (c_loc c <> c_loc c' \/ (c_width c = 1 /\ c_width c' = 1 /\ c_mask c <> c_mask c')) ->
           cell_get alloc st' c' = cell_get alloc st c')).
  { intros v st c K Hst. unfold cell_write. destruct (c_ro c); [|apply Hputok; assumption].
    split; [eauto|]. intros st' E. injection E as <-. auto. }
  destruct x as [sp b|sp b v rnd|sp b v rnd|sp b v]; cbn [acc_addr acc_space do_access may_touch] in *.
  - (* read *)
    unfold read. destruct (in_range_dec (spaces sp) b) as [R|NR].
    + destruct (valid_range sp b R) as (I & C & K). rewrite I, C. unfold cell_get.
      rewrite (inside_ok _ K). cbn [rbind snd]. eexists. split; [reflexivity|].
      split; [exact Hw|]. split; [auto|tauto].
    + rewrite (invalid_range sp b Ha NR). cbn [rbind snd]. eexists. split; [reflexivity|].
      unfold report, value, bytes_ok. destruct (s_uc _); cbn; auto 6.
  - apply (Hcase sp b True (fun st c => cell_write alloc st c v) (fun st => dummy_write st (s_width (spaces sp)) rnd));
      [exact Ha|apply Hwr|].
    intros st Hst. unfold dummy_write, dummy_put. split; [apply save_bytes; exact Hst|].
    intros; apply save_other; auto.
  - apply (Hcase sp b True (fun st c => cell_set alloc st c v) (fun st => dummy_write st (s_width (spaces sp)) rnd));
      [exact Ha|apply Hwr|].
    intros st Hst. unfold dummy_write, dummy_put. split; [apply save_bytes; exact Hst|].
    intros; apply save_other; auto.
  - apply (Hcase sp b True (fun st c => cell_download alloc st c v) (fun st => dummy_download st (s_width (spaces sp)) v));
      [exact Ha|intros; apply Hputok; assumption|].
    intros st Hst. unfold dummy_download, dummy_put. split; [apply save_bytes; exact Hst|].
    intros; apply save_other; auto.
Qed.

Lemma accesses_frame l : forall w, bytes_ok w -> Forall (fun x => 0 <= acc_addr x < 2^32) l ->
  exists w', do_accesses alloc spaces w l = Ok w' /\ bytes_ok w' /\
  (forall sp a, in_range (spaces sp) a -> decoded (spaces sp) a ->
     Forall (fun x => ~ may_touch spaces (spaces sp) a x) l -> value sp a w' = value sp a w).
Proof.
  induction l as [|x t IH]; intros w Hw Ha; cbn [do_accesses].
  - eexists. split; [reflexivity|]. auto.
  - inversion Ha; subst. destruct (access_frame w x Hw H1) as (w1 & E1 & B1 & F1 & _).
    rewrite E1. cbn [rbind]. destruct (IH w1 B1 H2) as (w2 & E2 & B2 & F2).
    exists w2. split; [exact E2|]. split; [exact B2|].
    intros sp a R D Hall. inversion Hall; subst. rewrite F2 by assumption. apply F1; assumption.
Qed.

Lemma same_not_elsewhere s a s' a' : same_storage s a s' a' -> ~ elsewhere s a s' a'.
Proof. unfold same_storage, elsewhere. tauto. Qed.

Lemma elsewhere_same s1 a1 s2 a2 s3 a3 :
  same_storage s2 a2 s3 a3 -> ~ elsewhere s1 a1 s3 a3 -> ~ elsewhere s1 a1 s2 a2.
Proof.
  unfold same_storage, elsewhere. intros [E H] N X. apply N.
  destruct X as [X|(X1 & X2 & X3)]; [left; congruence|].
  right. destruct H as [[? ?]|(? & ? & ?)]; [tauto|]. split; [tauto|]. split; [tauto|]. congruence.
Qed.

Lemma write_one w sp a v rnd : bytes_ok w ->
  in_range (spaces sp) a -> decoded (spaces sp) a -> ~ read_only (spaces sp) a ->
  exists w', write alloc w (spaces sp) a v rnd = Ok w' /\ bytes_ok w' /\
   (forall sp' a', in_range (spaces sp') a' -> same_storage (spaces sp) a (spaces sp') a' ->
      value sp' a' w' = Ok (trunc (c_width (cell_of (spaces sp) a)) v)).
Proof.
  intros Hw R D NR. destruct (valid_range sp a R) as (I & C & K).
  unfold write. rewrite I, C. unfold cell_write, read_only in *.
  destruct (c_ro (cell_of (spaces sp) a)) eqn:E; [congruence|].
  destruct (put_get (data w) _ v K Hw) as (st' & E1 & B1 & _ & G).
  rewrite E1. cbn [upd_data rbind]. eexists. split; [reflexivity|]. split; [exact B1|].
  intros sp' a' R' [Sl Sk]. destruct (valid_range sp' a' R') as (_ & _ & K').
  unfold value. cbn [data]. apply G; auto.
Qed.

Lemma read_of_value w sp a v : in_range (spaces sp) a -> value sp a w = Ok v ->
  read alloc w (spaces sp) a = Ok (v, w).
Proof. intros R E. rewrite read_valid, E by exact R. reflexivity. Qed.

Theorem last_write l w sp a v rnd : bytes_ok w -> 0 <= a < 2^32 ->
  in_range (spaces sp) a -> decoded (spaces sp) a -> ~ read_only (spaces sp) a ->
  Forall (fun x => 0 <= acc_addr x < 2^32) l ->
  Forall (fun x => ~ may_touch spaces (spaces sp) a x) l ->
  exists w', do_accesses alloc spaces w (AWrite sp a v rnd :: l) = Ok w' /\
  forall sp' a', in_range (spaces sp') a' -> same_storage (spaces sp) a (spaces sp') a' ->
     read alloc w' (spaces sp') a' = Ok (trunc (c_width (cell_of (spaces sp) a)) v, w').
Proof.
  intros Hw Ha R D NR Hl Hn. destruct (write_one w sp a v rnd Hw R D NR) as (w1 & E1 & B1 & V1).
  cbn [do_accesses do_access]. rewrite E1. cbn [rbind].
  destruct (accesses_frame l w1 B1 Hl) as (w2 & E2 & B2 & F2).
  exists w2. split; [exact E2|]. intros sp' a' R' S'.
  apply read_of_value; [exact R'|]. rewrite F2; auto.
  - unfold decoded. unfold same_storage in S'. destruct S' as [<- _]. exact D.
  - eapply Forall_impl; [|exact Hn]. intros x Hx Hm. apply Hx.
    destruct x; cbn [may_touch] in *; auto; destruct Hm as [H1 H2]; (split; [exact H1|]);
      (eapply elsewhere_same; [exact S'|exact H2]).
Qed.

Theorem untouched l w sp a : bytes_ok w ->
  in_range (spaces sp) a -> decoded (spaces sp) a ->
  Forall (fun x => 0 <= acc_addr x < 2^32) l ->
  Forall (fun x => ~ may_touch spaces (spaces sp) a x) l ->
  exists v w', do_accesses alloc spaces w l = Ok w' /\
   read alloc w (spaces sp) a = Ok (v, w) /\ read alloc w' (spaces sp) a = Ok (v, w').
Proof.
  intros Hw R D Hl Hn. destruct (accesses_frame l w Hw Hl) as (w2 & E2 & B2 & F2).
  destruct (value_ok w sp a R) as (v & V). exists v, w2. split; [exact E2|].
  split; apply read_of_value; auto. rewrite F2; auto.
Qed.

Theorem outside w x : bytes_ok w -> 0 <= acc_addr x < 2^32 ->
  ~ in_range (spaces (acc_space x)) (acc_addr x) -> s_uc (spaces (acc_space x)) = true ->
  exists w', do_access alloc spaces w x = Ok w' /\
    (forall o i, o <> 0 -> data w' o i = data w o i) /\
    errs w' = errs w ++ [acc_addr x] /\
    (forall sp a v, in_range (spaces sp) a -> decoded (spaces sp) a ->
       value_at alloc w (spaces sp) a v -> value_at alloc w' (spaces sp) a v).
Proof.
  intros Hw Ha NR U. destruct (access_frame w x Hw Ha) as (w' & E & B & F & G).
  destruct (G NR) as [G1 G2]. rewrite U in G2. exists w'. split; [exact E|]. split; [exact G1|].
  split; [exact G2|]. intros sp a v R D (w0 & V). exists w'.
  apply read_of_value; [exact R|]. rewrite F; auto.
  - rewrite read_valid in V by exact R. destruct (value sp a w); cbn in V; congruence.
  - destruct x; cbn in *; tauto.
Qed.

Definition prog_store (sp a : Z) (x : access) : Prop :=
  exists v rnd, x = AWrite sp a v rnd \/ x = ASet sp a v rnd.

Theorem ro_writes l : forall w sp a, in_range (spaces sp) a -> read_only (spaces sp) a ->
  Forall (prog_store sp a) l -> do_accesses alloc spaces w l = Ok w.
Proof.
  induction l as [|x t IH]; intros w sp a R RO H; [reflexivity|]. inversion H; subst.
  destruct (valid_range sp a R) as (I & C & _).
  cbn [do_accesses]. destruct H2 as (v & rnd & [->| ->]); cbn [do_access]; unfold write, set;
    rewrite I, C; unfold cell_write, cell_set; unfold read_only in RO; rewrite RO;
    cbn [upd_data rbind]; destruct w; cbn [MemModel.data MemModel.errs]; eapply IH; eauto.
Qed.

Theorem ro_history l : forall w sp a v, bytes_ok w -> in_range (spaces sp) a ->
  decoded (spaces sp) a -> read_only (spaces sp) a ->
  Forall (fun x => 0 <= acc_addr x < 2^32) l ->
  Forall (fun x => prog_store sp a x \/ ~ may_touch spaces (spaces sp) a x) l ->
  read alloc w (spaces sp) a = Ok (v, w) ->
  exists w', do_accesses alloc spaces w l = Ok w' /\ read alloc w' (spaces sp) a = Ok (v, w').
Proof.
  induction l as [|x t IH]; intros w sp a v Hw R D RO Hl H Hv; cbn [do_accesses]; [eauto|].
  inversion Hl; subst. inversion H; subst. destruct H4 as [Hs|Hn].
  - assert (E := ro_writes [x] w sp a R RO ltac:(auto)). cbn [do_accesses] in E.
    destruct (do_access alloc spaces w x) as [w1| |] eqn:E1; cbn [rbind] in *; try discriminate.
    injection E as ->. apply IH; auto.
  - destruct (access_frame w x Hw H2) as (w1 & E1 & B1 & F1 & _). rewrite E1. cbn [rbind].
    apply IH; auto. apply read_of_value; [exact R|]. rewrite F1; auto.
    rewrite read_valid in Hv by exact R. destruct (value sp a w); cbn in Hv; congruence.
Qed.

Theorem ro_download w sp a v : bytes_ok w -> in_range (spaces sp) a ->
  exists w', download alloc w (spaces sp) a v = Ok w' /\
    read alloc w' (spaces sp) a = Ok (trunc (c_width (cell_of (spaces sp) a)) v, w').
Proof.
  intros Hw R. destruct (valid_range sp a R) as (I & C & K). unfold download. rewrite I, C.
  unfold cell_download. destruct (put_get (data w) _ v K Hw) as (st' & E1 & B1 & G & _).
  rewrite E1. cbn [upd_data rbind]. eexists. split; [reflexivity|].
  apply read_of_value; [exact R|]. exact G.
Qed.
End Conf.
End P.

(* ---- address arithmetic ---- *)
Lemma valid_iff start size a : 0 <= start -> 0 <= size -> start + size < 2^32 ->
  (valid_address start size a = true <-> start <= a < start + size).
Proof. intros. unfold valid_address. rewrite u32_id by lia. lia. Qed.

Lemma inc_ok start size a v r : 0 <= start -> 1 <= size -> start + size <= 2^32 ->
  inc_address start size a v = Ok r -> start <= r < start + size.
Proof.
  intros H0 H1 H2 H. unfold inc_address in H.
  destruct (size =? 0) eqn:E; [discriminate|].
  destruct (start =? 0) eqn:E0.
  - destruct (_ || _); [discriminate|]. injection H as <-.
    pose proof (Z.mod_pos_bound (u32 (i32 a + v)) size). lia.
  - injection H as <-. pose proof (Z.mod_pos_bound (u32 (u32 (a - start) + v)) size).
    rewrite u32_id by lia. lia.
Qed.

Lemma inc_defined start size a v : 1 <= size -> 0 <= a < 2^32 -> start <> 0 \/ 0 <= i32 a + v < 2^31 ->
  exists r, inc_address start size a v = Ok r.
Proof.
  intros. unfold inc_address. destruct (size =? 0) eqn:E; [lia|].
  destruct (start =? 0) eqn:E0; [|eauto].
  destruct (_ || _) eqn:Q; [lia|eauto].
Qed.

(** forward steps are exact *)
Lemma inc_exact start size a v : 0 <= start -> 1 <= size -> start + size <= 2^32 -> 0 <= a < 2^32 ->
  inc_address start size a v =
    if (start =? 0) && ((i32 a + v <? -2^31) || (2^31 <=? i32 a + v)) then UB
    else Ok (start + ((a - start + v) mod 2^32) mod size).
Proof.
  intros H0 H1 H2 H3. unfold inc_address. destruct (size =? 0) eqn:E; [lia|].
  assert (I : (i32 a) mod 2^32 = a mod 2^32).
  { unfold i32, u32. change 4294967296 with (2^32). rewrite (Z.mod_small a) by lia.
    destruct (a <? 2147483648); [rewrite Z.mod_small by lia; reflexivity|].
    replace (a - 2^32) with (a + (-1) * 2^32) by lia. rewrite Z.mod_add by lia. apply Z.mod_small. lia. }
  destruct (start =? 0) eqn:Es; cbn [andb].
  - assert (start = 0) by lia. subst start.
    replace (2147483647 <? i32 a + v) with (2^31 <=? i32 a + v) by lia.
    change (-2147483648) with (-2^31). destruct (_ || _); [reflexivity|].
    f_equal. rewrite Z.add_0_l, Z.sub_0_r. unfold u32. change 4294967296 with (2^32).
    rewrite Zplus_mod, I, <- Zplus_mod. reflexivity.
  - f_equal. unfold u32. change 4294967296 with (2^32). rewrite Zplus_mod_idemp_l.
    pose proof (Z.mod_pos_bound ((a - start + v) mod 2^32) size ltac:(lia)).
    rewrite Z.mod_small by lia. lia.
Qed.

Lemma inc_forward start size a v : 0 <= start -> 1 <= size -> start + size <= 2^31 ->
  start <= a < start + size -> 0 <= v < 2^30 -> a + v < 2^31 ->
  inc_address start size a v = Ok (start + (a - start + v) mod size).
Proof.
  intros. unfold inc_address. destruct (size =? 0) eqn:E; [lia|].
  assert (i32 a = a) by (unfold i32; rewrite u32_id by lia; cbv zeta; destruct (_ <? _) eqn:?; lia).
  destruct (start =? 0) eqn:E0.
  - rewrite H5. destruct (_ || _) eqn:Q; [lia|]. rewrite u32_id by lia.
    assert (start = 0) by lia. subst. rewrite Z.sub_0_r. f_equal.
  - rewrite (u32_id (a - start)) by lia. rewrite (u32_id (_ + v)) by lia.
    pose proof (Z.mod_pos_bound (a - start + v) size). rewrite u32_id by lia. f_equal. lia.
Qed.

Lemma validate_loop_ok n : forall start size a, 0 <= start -> 1 <= size -> start + size <= 2^32 ->
  0 <= a < 2^32 -> start - a <= Z.of_nat n ->
  exists b, validate_loop n start size a = Ok b /\ start <= b < 2^32 /\
    (a < start -> b < start + size) /\ (start <= a -> b = a) /\ (b - a) mod size = 0.
Proof.
  induction n as [|n IH]; intros start size a H0 H1 H2 Ha Hn; cbn [validate_loop].
  - destruct (a <? start) eqn:E; [lia|]. exists a. rewrite Z.sub_diag, Z.mod_0_l by lia. repeat split; lia.
  - destruct (a <? start) eqn:E.
    + rewrite u32_id by lia. destruct (IH start size (a + size)) as (b & B1 & B2 & B3 & B4 & B5); try lia.
      exists b. split; [exact B1|]. split; [lia|]. split; [|split; [lia|]].
      * intros _. destruct (Z_lt_dec (a + size) start); lia.
      * replace (b - a) with (b - (a + size) + 1 * size) by lia. rewrite Z_mod_plus_full. exact B5.
    + exists a. rewrite Z.sub_diag, Z.mod_0_l by lia. repeat split; lia.
Qed.

Lemma validate_ok start size a : 0 <= start -> 1 <= size -> start + size < 2^32 -> 0 <= a < 2^32 ->
  exists r, (forall n, (Z.to_nat start <= n)%nat -> validate_address n start size a = Ok r) /\
    (r - a) mod size = 0 /\
    (a <> start + size -> start <= r < start + size) /\
    (a = start + size -> r = start + size).
Proof.
  intros H0 H1 H2 Ha.
  destruct (validate_loop_ok (Z.to_nat start) start size a H0 H1 ltac:(lia) Ha ltac:(lia)) as (b & B1 & B2 & B3 & B4 & B5).
  assert (Hloop : forall n, (Z.to_nat start <= n)%nat -> validate_loop n start size a = Ok b).
  { intros n Hn.
    destruct (validate_loop_ok n start size a H0 H1 ltac:(lia) Ha ltac:(lia)) as (b' & C1 & C2 & C3 & C4 & C5).
    rewrite C1. f_equal. destruct (Z_lt_dec a start) as [L|L]; [|lia].
    specialize (B3 L). specialize (C3 L).
    assert (D : (b' - b) mod size = 0).
    { replace (b' - b) with ((b' - a) - (b - a)) by lia. rewrite Zminus_mod, B5, C5.
      rewrite Z.sub_0_r. apply Z.mod_0_l. lia. }
    apply Z.mod_divide in D; [|lia]. destruct D as [k D]. assert (k = 0) by nia. nia. }
  unfold validate_address.
  assert (Hsize : (size =? 0) = false) by lia.
  destruct (u32 (start + size) <? b) eqn:Q; rewrite u32_id in Q by lia.
  - exists (start + (b - start) mod size).
    pose proof (Z.mod_pos_bound (b - start) size).
    split.
    + intros n Hn. rewrite (Hloop n Hn). cbn [rbind]. rewrite (u32_id (start + size)) by lia.
      rewrite Q, Hsize. f_equal. rewrite (u32_id (b - start)) by lia. rewrite u32_id by lia. lia.
    + split; [|split; lia].
      assert (E := Z.div_mod (b - start) size ltac:(lia)).
      replace (start + (b - start) mod size - a) with ((b - a) + (- ((b - start) / size)) * size) by lia.
      rewrite Z_mod_plus_full. exact B5.
  - exists b. split.
    + intros n Hn. rewrite (Hloop n Hn). cbn [rbind]. rewrite (u32_id (start + size)) by lia.
      rewrite Q. reflexivity.
    + split; [exact B5|]. split; lia.
Qed.
