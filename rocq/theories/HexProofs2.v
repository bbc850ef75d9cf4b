(** Proofs for wide memories, S-records, OMF and input specifiers. *)
From Verif Require Import Base HexModel HexSpec HexProofs.

(* ---- wide memories ---- *)
(** a group of [n] bytes makes one word *)
Definition wide_ok (w : Z) (n : nat) : Prop := (9 <= w <= 16 /\ n = 2%nat) \/ (25 <= w <= 32 /\ n = 4%nat).

Lemma put_bytes_app w a : forall h b, put_bytes w h (a ++ b) =
  let '(h1, w1) := put_bytes w h a in let '(h2, w2) := put_bytes w h1 b in (h2, w1 ++ w2).
Proof.
  induction a as [|x a IH]; intros h b; cbn [app put_bytes].
  - destruct (put_bytes w h b); reflexivity.
  - destruct (put_byte w h x) as [h1 w1]. rewrite IH. destruct (put_bytes w h1 a) as [h2 w2].
    destruct (put_bytes w h2 b) as [h3 w3]. rewrite app_assoc. reflexivity.
Qed.

Lemma put_group w n g h : wide_ok w n -> length g = n -> get_low h = 0 ->
  exists l, put_bytes w h g = (mkH (base h) (u32 (addr h + 1)) 0 l, [(u32 (base h + addr h), le g)]).
Proof.
  intros Hw Hl Hg. destruct Hw as [[Hw ->]|[Hw ->]].
  - destruct g as [|a [|b [|? ?]]]; try discriminate. cbn [put_bytes]. unfold put_byte.
    replace (w <=? 8) with false by lia. replace (w <=? 16) with true by lia.
    destruct (lows h) as [[[l0 l1] l2] l3]. rewrite Hg.
    cbn [get_low lows base addr app le Z.eqb]. eexists. f_equal. f_equal. f_equal. lia.
  - destruct g as [|a [|b [|c [|d [|? ?]]]]]; try discriminate. cbn [put_bytes]. unfold put_byte.
    replace (w <=? 8) with false by lia. replace (w <=? 16) with false by lia. replace (w <=? 32) with true by lia.
    destruct (lows h) as [[[l0 l1] l2] l3]. rewrite Hg.
    cbn [get_low lows base addr app le Z.eqb Pos.eqb]. eexists. f_equal. f_equal. f_equal. lia.
Qed.

Lemma put_bytes_wide w n k : wide_ok w n -> forall l h, length l = (n * k)%nat -> get_low h = 0 -> 0 <= addr h < 2^32 ->
  exists h', put_bytes w h l = (h', cells (base h + addr h) (words n k l)) /\ base h' = base h /\ get_low h' = 0.
Proof.
  intros Hw. induction k as [|k IH]; intros l h Hl Hg Ha.
  - rewrite Nat.mul_0_r in Hl. destruct l; [|discriminate]. exists h. cbn. auto.
  - replace (put_bytes w h l) with (put_bytes w h (firstn n l ++ skipn n l)) by (rewrite firstn_skipn; reflexivity).
    rewrite put_bytes_app.
    destruct (put_group w n (firstn n l) h Hw) as (lo & E); [rewrite firstn_length; lia|exact Hg|].
    rewrite E. set (h1 := mkH _ _ _ _).
    destruct (IH (skipn n l) h1) as (h' & E' & B & G);
      [rewrite skipn_length; lia|reflexivity|cbn [addr h1]; unfold u32; lia|].
    exists h'. rewrite E'. split; [|split; assumption]. f_equal. cbn [words cells app base addr h1].
    f_equal. apply cells_cong. unfold u32. change (2^32) with 4294967296. lia.
Qed.

Definition aligned (n : nat) (r : hrec) : Prop :=
  r_type r = 0 -> (r_addr r mod Z.of_nat n = 0 /\ Nat.modulo (length (r_data r)) n = 0%nat).

Lemma word_addr_wide w n a : wide_ok w n -> word_addr w a = a / Z.of_nat n.
Proof.
  intros [[Hw ->]|[Hw ->]]; unfold word_addr; replace (w <=? 8) with false by lia.
  - replace (w <=? 16) with true by lia. reflexivity.
  - replace (w <=? 16) with false by lia. replace (w <=? 24) with false by lia.
    replace (w <=? 32) with true by lia. reflexivity.
Qed.

(** splitting the text at the end-of-file record *)
Lemma hex_loop_wide_eof w n0 rs eof txt : wide_ok w n0 -> hex_file (rs ++ [eof]) txt ->
  forall n h, Forall rec_ok (rs ++ [eof]) -> Forall (fun r => ~ r_type r = 1) rs -> Forall (aligned n0) rs ->
  r_type eof = 1 -> r_addr eof = 0 ->
  (length rs < n)%nat -> 0 <= base h < 2^32 -> get_low h = 0 ->
  exists h', hex_loop n w h txt = Ok (h', meaning_w n0 (base h) rs) /\ get_low h' = 0 /\ addr h' = 0.
Proof.
  intros Hw Hf. remember (rs ++ [eof]) as all eqn:Eall. revert rs Eall.
  induction Hf as [junk Hj|junk r txt rs0 rest Hj Ht Hf IH]; intros rs Eall n h Hok Hb Hal He1 He0 Hn Hbase Hg.
  - destruct rs; discriminate.
  - destruct n as [|k]; [lia|].
    pose proof (Forall_inv Hok) as Hr. pose proof (Forall_inv_tail Hok) as Hok'. clear Hok.
    rewrite (hex_loop_rec k w h junk r txt rest) by assumption. unfold step_rec.
    destruct rs as [|r' rs]; cbn [app] in Eall; apply cons_eq in Eall; destruct Eall as [X Y].
    + subst eof. rewrite He1. change (1 =? 1) with true. cbv iota.
      unfold good_record. change (1 =? 0) with false. change (1 =? 4) with false. cbv iota.
      destruct (rec_good r); eexists; cbn [meaning_w]; (split; [reflexivity|]); cbn; auto.
    + subst r' rs0. cbn [length] in Hn.
      inversion Hb as [|? ? Hb0 Hb']; inversion Hal as [|? ? Ha0 Hal']; subst.
      cbn [meaning_w].
      assert (E1 : (r_type r =? 1) = false) by lia. rewrite E1.
      set (h1 := mkH (base h) (r_addr r) (get_low h) (lows h)).
      assert (Hgo : forall h2, base h2 = base h -> get_low h2 = 0 ->
        exists h', rbind (hex_loop k w h2 rest) (fun r => Ok (fst r, [] ++ snd r)) = Ok (h', meaning_w n0 (base h) rs)
          /\ get_low h' = 0 /\ addr h' = 0).
      { intros h2 B G. destruct (IH rs eq_refl k h2 Hok' Hb' Hal' He1 He0 ltac:(lia)) as (h3 & E3 & G3 & A3); [rewrite B; exact Hbase|exact G|].
        rewrite E3. cbn [rbind fst snd app]. rewrite B. eauto. }
      destruct (rec_good r) eqn:Eg; cbn [negb]; [|apply Hgo; auto].
      unfold good_record. destruct (r_type r =? 0) eqn:E0.
      * destruct Hr as (Ha & _). destruct (Ha0 ltac:(lia)) as [A1 A2].
        rewrite (word_addr_wide w n0) by exact Hw.
        assert (Hn0 : (n0 <> 0)%nat) by (destruct Hw as [[_ ->]|[_ ->]]; lia).
        destruct (put_bytes_wide w n0 (length (r_data r) / n0) Hw (r_data r)
          (mkH (base h1) (r_addr r / Z.of_nat n0) (get_low h1) (lows h1))) as (h2 & E & B & G).
        { apply (Nat.div_exact _ _ Hn0). exact A2. }
        { exact Hg. }
        { cbn [addr]. change (2^32) with 4294967296. assert (1 <= Z.of_nat n0) by lia.
          split; [apply Z.div_pos; lia|]. apply Z.div_lt_upper_bound; nia. }
        rewrite E. destruct (IH rs eq_refl k h2 Hok' Hb' Hal' He1 He0 ltac:(lia)) as (h3 & E3 & G3 & A3); [rewrite B; exact Hbase|exact G|].
        rewrite E3. cbn [rbind fst snd]. rewrite B. cbn [base addr h1]. eauto.
      * destruct (r_type r =? 4) eqn:E4; [|apply Hgo; auto].
        destruct (r_data r) as [|x [|y t]] eqn:Ed; try (apply Hgo; auto; fail).
        destruct Hr as (_ & _ & _ & Hd & _). rewrite Ed in Hd.
        pose proof (Forall_inv Hd) as Hx; apply Forall_inv_tail in Hd.
        pose proof (Forall_inv Hd) as Hy; cbv beta in Hx, Hy.
        assert (Eb : u32 ((x * 256 + y) * 65536) = 65536 * (256 * x + y)) by (rewrite u32_id by lia; lia).
        rewrite Eb.
        destruct (IH rs eq_refl k (mkH (65536 * (256 * x + y)) (r_addr r) (get_low h1) (lows h1)) Hok' Hb' Hal' He1 He0 ltac:(lia)) as (h3 & E3 & G3 & A3).
        { cbn [base]. lia. }
        { exact Hg. }
        rewrite E3. cbn. eauto.
Qed.

(** everything stored for a well formed file: what it says, then a zero to word 0 *)
Theorem read_hex_wide w n0 rs eof txt : wide_ok w n0 -> hex_file (rs ++ [eof]) txt ->
  Forall rec_ok (rs ++ [eof]) -> Forall (fun r => ~ r_type r = 1) rs -> Forall (aligned n0) rs ->
  r_type eof = 1 -> r_addr eof = 0 ->
  read_hex w txt = Ok (meaning_w n0 0 rs ++ [(0, 0)]).
Proof.
  intros Hw Hf Hok Hb Hal H1 H0. unfold read_hex.
  destruct (hex_loop_wide_eof w n0 rs eof txt Hw Hf (length txt) (mkH 0 0 0 (0,0,0,0)) Hok Hb Hal H1 H0) as (h' & E & G & A).
  { pose proof (hex_file_len _ _ Hf) as L. rewrite app_length in L. cbn in L. lia. }
  { cbn. lia. }
  { reflexivity. }
  rewrite E. cbn [rbind fst snd base]. unfold hex_tail. destruct (lows h') as [[[? ?] ?] ?].
  rewrite G, A. replace (8 <? w) with true by (destruct Hw; lia). reflexivity.
Qed.

(* ---- S-records ---- *)
Lemma nth_shift {A} (p : nat) (a : list A) b : length a = p -> forall k, nth_error (a ++ b) (p + k) = nth_error b k.
Proof. intros <- k. rewrite nth_error_app2 by lia. f_equal. lia. Qed.

Lemma hex_text_length bs txt : hex_text bs txt -> length txt = (2 * length bs)%nat.
Proof. induction 1; cbn [length]; lia. Qed.

(** the byte with index [k] of a text which begins at position [p] *)
Lemma h2_text bs txt : hex_text bs txt -> forall pre rest k b, nth_error bs k = Some b ->
  h2 (pre ++ txt ++ rest) (length pre + 2 * k) = b.
Proof.
  induction 1 as [|c1 c2 d1 d2 bs t H1 H2 Ht IH]; intros pre rest k b Hk; [destruct k; discriminate|].
  destruct k as [|k].
  - cbn in Hk. unfold h2. replace (length pre + 2 * 0)%nat with (length pre + 0)%nat by lia.
    replace (S (length pre + 0)) with (length pre + 1)%nat by lia.
    rewrite !nth_shift by reflexivity. cbn [app nth_error]. rewrite H1, H2.
    assert (forall x y : Z, Some x = Some y -> x = y) as Hi by (intros ? ? [=]; assumption).
    apply Hi. exact Hk.
  - cbn [nth_error] in Hk.
    specialize (IH (pre ++ [c1; c2]) rest k b Hk). rewrite app_length in IH. cbn [length] in IH.
    rewrite <- app_assoc in IH. cbn [app] in *. rewrite <- IH. f_equal. lia.
Qed.

Lemma sum_bytes_text bs txt : hex_text bs txt -> forall pre rest,
  sum_bytes (pre ++ txt ++ rest) (length bs) (length pre) = sum_list bs.
Proof.
  induction 1 as [|c1 c2 d1 d2 bs t H1 H2 Ht IH]; intros pre rest; [reflexivity|].
  cbn [length sum_bytes]. rewrite sum_list_cons.
  assert (Hb : hex_text (16 * d1 + d2 :: bs) (c1 :: c2 :: t)) by (constructor; assumption).
  pose proof (h2_text _ _ Hb pre rest 0%nat _ eq_refl) as E. rewrite Nat.mul_0_r, Nat.add_0_r in E. rewrite E.
  specialize (IH (pre ++ [c1; c2]) rest). rewrite app_length in IH. cbn [length] in IH.
  rewrite <- app_assoc in IH. cbn [app] in *. rewrite IH. reflexivity.
Qed.

Lemma s19_loop_text w bs txt : w <= 8 -> hex_text bs txt -> forall pre rest a,
  s19_loop w (pre ++ txt ++ rest) (length bs) a (length pre) (Z.of_nat (length bs)) = cells a bs.
Proof.
  intros Hw. induction 1 as [|c1 c2 d1 d2 bs t H1 H2 Ht IH]; intros pre rest a; [reflexivity|].
  cbn [length s19_loop]. replace (Z.of_nat (S (length bs)) <=? 0) with false by lia.
  unfold word_bytes. replace (w <=? 8) with true by lia. cbn [le_word Nat.mul Nat.add Z.of_nat Pos.of_succ_nat].
  assert (Hb : hex_text (16 * d1 + d2 :: bs) (c1 :: c2 :: t)) by (constructor; assumption).
  pose proof (h2_text _ _ Hb pre rest 0%nat _ eq_refl) as E. rewrite Nat.mul_0_r, Nat.add_0_r in E. rewrite E.
  cbn [cells]. f_equal.
  - f_equal. lia.
  - specialize (IH (pre ++ [c1; c2]) rest (a + 1)). rewrite app_length in IH. cbn [length] in IH.
    rewrite <- app_assoc in IH. cbn [app] in *. rewrite <- IH. f_equal. lia.
Qed.

Lemma sum_list_be n : forall v, length (be_bytes n v) = n.
Proof. induction n; intros; cbn; auto. Qed.

Lemma h2_text_last bs b txt pre rest : hex_text (bs ++ [b]) txt ->
  h2 (pre ++ txt ++ rest) (length pre + 2 * length bs) = b.
Proof.
  intros H. apply (h2_text _ _ H). rewrite nth_error_app2 by lia. rewrite Nat.sub_diag. reflexivity.
Qed.

Lemma be_fold n : forall v acc, 0 <= v < 256 ^ Z.of_nat n ->
  fold_left (fun l b => l * 256 + b) (be_bytes n v) acc = acc * 256 ^ Z.of_nat n + v.
Proof.
  assert (G : forall n v acc, 0 <= v ->
    fold_left (fun l b => l * 256 + b) (be_bytes n v) acc = acc * 256 ^ Z.of_nat n + v mod 256 ^ Z.of_nat n).
  { clear n. induction n as [|n IH]; intros v acc Hv; cbn [be_bytes fold_left].
    - change (256 ^ Z.of_nat 0) with 1. rewrite Z.mod_1_r. lia.
    - rewrite IH by exact Hv. rewrite Nat2Z.inj_succ, Z.pow_succ_r by lia.
      set (P := 256 ^ Z.of_nat n). assert (HP : 0 < P) by (apply Z.pow_pos_nonneg; lia).
      rewrite (Z.mul_comm 256 P). rewrite (Z.rem_mul_r v P 256) by lia. lia. }
  intros v acc Hv. rewrite G by lia. rewrite Z.mod_small by exact Hv. reflexivity.
Qed.

Theorem s19_line_good w t a data txt trail : w <= 8 ->
  (t = 1 \/ t = 2 \/ t = 3) -> 0 <= a < 256 ^ (t + 1) ->
  Forall (fun b => 0 <= b < 256) data ->
  Z.of_nat (length data) + t + 2 < 256 ->
  hex_text (srec_bytes t a data ++ [srec_chk t a data]) txt ->
  s19_line w (83 :: 48 + t :: txt ++ trail) = cells a data.
Proof.
  intros Hw Ht Ha Hd Hl Htxt.
  set (body := be_bytes (Z.to_nat (t + 1)) a ++ data) in *.
  assert (Hbl : Z.of_nat (length body) = t + 1 + Z.of_nat (length data)).
  { unfold body. rewrite app_length, sum_list_be. lia. }
  set (line := 83 :: 48 + t :: txt ++ trail).
  assert (Eline : line = [83; 48 + t] ++ txt ++ trail) by reflexivity.
  assert (Hlen : length txt = (2 * (length body + 2))%nat).
  { rewrite (hex_text_length _ _ Htxt), app_length. unfold srec_bytes. fold body. cbn [length]. lia. }
  assert (Hcnt : h2 line 2 = Z.of_nat (length body) + 1).
  { rewrite Eline. change 2%nat with (length ([83; 48 + t])%Z + 2 * 0)%nat. apply (h2_text _ _ Htxt). reflexivity. }
  unfold s19_line. unfold line at 1. change (83 =? 83) with true. cbn [negb].
  fold line.
  assert (Hll : length line = (length txt + length trail + 2)%nat).
  { rewrite Eline, !app_length. cbn [length]. lia. }
  replace (Z.of_nat (length line) <? 4) with false by lia.
  rewrite Hcnt. replace (Z.of_nat (length line) <? 4 + (Z.of_nat (length body) + 1) * 2) with false by lia.
  replace (Z.to_nat (Z.of_nat (length body) + 1)) with (length (srec_bytes t a data)) by (unfold srec_bytes; fold body; cbn [length]; lia).
  assert (Hsum : sum_bytes line (length (srec_bytes t a data)) 2 = sum_list (srec_bytes t a data)).
  { destruct (hex_text_app _ _ _ Htxt) as (t1 & t2 & -> & T1 & T2).
    rewrite Eline, <- app_assoc. apply (sum_bytes_text _ _ T1 [83; 48 + t]). }
  rewrite Hsum.
  assert (Hchk : h2 line (2 + length (srec_bytes t a data) * 2) = srec_chk t a data).
  { rewrite Eline. rewrite (Nat.mul_comm _ 2). apply (h2_text_last _ _ _ [83; 48 + t] trail Htxt). }
  rewrite Hchk.
  assert (Hx : forall x, 0 <= x < 256 -> Z.lxor x 255 = 255 - x).
  { intros x Hx. apply (sweep1 (fun x => Z.lxor x 255 =? 255 - x) 256%nat) in Hx; [lia|vm_compute; reflexivity]. }
  rewrite Hx by apply u8_range. unfold srec_chk. unfold u8. rewrite Z.eqb_refl. cbn [negb].
  assert (Hdat : forall p, p = (4 + 2 * Z.to_nat (t + 1))%nat ->
    s19 w line a p (Z.of_nat (length body) + 1 - (t + 1) - 1) = cells a data).
  { intros p ->. unfold s19. replace (Z.of_nat (length body) + 1 - (t + 1) - 1) with (Z.of_nat (length data)) by lia.
    destruct (Z.of_nat (length data) <? 1) eqn:E.
    { destruct data; [reflexivity|cbn [length] in E; lia]. }
    replace (8 <? w) with false by lia. rewrite Nat2Z.id.
    assert (Htxt2 : hex_text ([Z.of_nat (length body) + 1] ++ ((be_bytes (Z.to_nat (t + 1)) a ++ data) ++ [srec_chk t a data])) txt) by exact Htxt.
    clear Htxt. rename Htxt2 into Htxt.
    apply hex_text_app in Htxt. destruct Htxt as (x & Htxt' & Ex & T0 & Htxt).
    rewrite <- app_assoc in Htxt.
    apply hex_text_app in Htxt. destruct Htxt as (y & z & Ey & T1 & Htxt).
    apply hex_text_app in Htxt. destruct Htxt as (u & v & Ez & T2 & _).
    rewrite Eline, Ex, Ey, Ez.
    replace ([83; 48 + t] ++ (x ++ y ++ u ++ v) ++ trail) with (([83; 48 + t] ++ x ++ y) ++ u ++ (v ++ trail))
      by (rewrite <- !app_assoc; reflexivity).
    replace (4 + 2 * Z.to_nat (t + 1))%nat with (length ([83; 48 + t] ++ x ++ y)).
    2:{ rewrite !app_length, (hex_text_length _ _ T0), (hex_text_length _ _ T1), sum_list_be. cbn [length]. lia. }
    apply s19_loop_text; assumption. }
  assert (Habyte : forall k b, nth_error (be_bytes (Z.to_nat (t + 1)) a) k = Some b -> h2 line (4 + 2 * k) = b).
  { intros k b Hk. rewrite Eline. replace (4 + 2 * k)%nat with (length ([83; 48 + t])%Z + 2 * (S k))%nat by (cbn [length]; lia).
    apply (h2_text _ _ Htxt). unfold srec_bytes. cbn [app nth_error]. rewrite <- app_assoc.
    rewrite nth_error_app1; [exact Hk|]. apply nth_error_Some. congruence. }
  unfold line at 1. cbn [nth_error].
  pose proof (be_fold (Z.to_nat (t + 1)) a 0) as Hbe. rewrite Z2Nat.id in Hbe by lia. specialize (Hbe Ha).
  assert (Hcut : forall p c a' , p = (4 + 2 * Z.to_nat (t + 1))%nat -> c = Z.of_nat (length body) + 1 - (t + 1) - 1 ->
    a' = a -> s19 w line a' p c = cells a data).
  { intros p c a' -> -> ->. apply Hdat. reflexivity. }
  destruct Ht as [-> | [-> | ->]].
  - change (Z.to_nat (1 + 1)) with 2%nat in *. cbn [be_bytes fold_left] in Hbe, Habyte.
    change (48 + 1) with 49. cbv iota. apply Hcut; [reflexivity|lia|].
    unfold a16. rewrite (Habyte 0%nat _ eq_refl : h2 line 4 = _), (Habyte 1%nat _ eq_refl : h2 line (4 + 2) = _). etransitivity; [|etransitivity; [exact Hbe|ring]]; ring.
  - change (Z.to_nat (2 + 1)) with 3%nat in *. cbn [be_bytes fold_left] in Hbe, Habyte.
    change (48 + 2) with 50. cbv iota. apply Hcut; [reflexivity|lia|].
    unfold a24, a16. rewrite (Habyte 0%nat _ eq_refl : h2 line 4 = _), (Habyte 1%nat _ eq_refl : h2 line (4 + 2) = _), (Habyte 2%nat _ eq_refl : h2 line (4 + 4) = _). etransitivity; [|etransitivity; [exact Hbe|ring]]; ring.
  - change (Z.to_nat (3 + 1)) with 4%nat in *. cbn [be_bytes fold_left] in Hbe, Habyte.
    change (48 + 3) with 51. cbv iota. apply Hcut; [reflexivity|lia|].
    unfold a32, a24, a16. rewrite (Habyte 0%nat _ eq_refl : h2 line 4 = _), (Habyte 1%nat _ eq_refl : h2 line (4 + 2) = _), (Habyte 2%nat _ eq_refl : h2 line (4 + 4) = _), (Habyte 3%nat _ eq_refl : h2 line (4 + 6) = _). etransitivity; [|etransitivity; [exact Hbe|ring]]; ring.
Qed.

(** lines which store something *)
Lemma s19_line_only w s : s19_line w s <> [] ->
  exists t rest, (t = 1 \/ t = 2 \/ t = 3) /\ s = 83 :: 48 + t :: rest /\
    let cnt := h2 s 2 in
    4 + 2 * cnt <= Z.of_nat (length s) /\
    (sum_bytes s (Z.to_nat cnt) 2 + h2 s (2 + Z.to_nat cnt * 2)) mod 256 = 255.
Proof.
  unfold s19_line. destruct s as [|c0 s']; [congruence|].
  destruct (c0 =? 83) eqn:E0; cbn [negb]; [|congruence]. apply Z.eqb_eq in E0. subst c0.
  set (s := 83 :: s'). destruct (Z.of_nat (length s) <? 4) eqn:E1; [congruence|].
  destruct (Z.of_nat (length s) <? 4 + h2 s 2 * 2) eqn:E2; [congruence|].
  set (n := Z.to_nat (h2 s 2)).
  destruct (Z.lxor (u8 (sum_bytes s n 2)) 255 =? h2 s (2 + n * 2)) eqn:E3; cbn [negb]; [|congruence].
  assert (Hx : forall x, 0 <= x < 256 -> Z.lxor x 255 = 255 - x).
  { intros x Hx. apply (sweep1 (fun x => Z.lxor x 255 =? 255 - x) 256%nat) in Hx; [lia|vm_compute; reflexivity]. }
  rewrite Hx in E3 by apply u8_range.
  destruct s' as [|c1 rest]; [unfold s; cbn; congruence|]. unfold s at 1. cbn [nth_error].
  intros H.
  assert (Hs : (sum_bytes s n 2 + h2 s (2 + n * 2)) mod 256 = 255).
  { apply Z.eqb_eq in E3. rewrite <- E3. unfold u8. pose proof (Z.div_mod (sum_bytes s n 2) 256).
    symmetry. apply Z.mod_unique with (sum_bytes s n 2 / 256); lia. }
  assert (Hc : c1 = 49 \/ c1 = 50 \/ c1 = 51).
  { destruct (Z.eq_dec c1 49) as [->|N1]; [auto|]. destruct (Z.eq_dec c1 50) as [->|N2]; [auto|].
    destruct (Z.eq_dec c1 51) as [->|N3]; [auto|]. exfalso. apply H.
    destruct c1 as [|p|p]; try reflexivity.
    do 6 (destruct p as [p|p|]; try reflexivity; try congruence). }
  destruct Hc as [-> | [-> | ->]]; [exists 1, rest|exists 2, rest|exists 3, rest];
    (split; [auto|split; [reflexivity|split; [lia|exact Hs]]]).
Qed.

(* ---- OMF ---- *)
Lemma skipn_S_tl {A} (l : list A) : forall p, skipn (S p) l = tl (skipn p l).
Proof. induction l as [|x l IH]; intros [|p]; try reflexivity. cbn [skipn] in *. apply IH. Qed.
Lemma omf_cells rec : forall n p a, (p + n = length rec)%nat ->
  List.map (fun i => (u32 (a + Z.of_nat i), nth i rec 0)) (seq p n) = cells (a + Z.of_nat p) (skipn p rec).
Proof.
  induction n as [|n IH]; intros p a H; cbn [seq List.map].
  - rewrite skipn_all2 by lia. reflexivity.
  - rewrite IH by lia. destruct (skipn p rec) as [|x t] eqn:E.
    + pose proof (skipn_length p rec) as L. rewrite E in L. cbn [length] in L. lia.
    + cbn [cells]. rewrite <- (firstn_skipn p rec) at 1. rewrite app_nth2; rewrite firstn_length; [|lia].
      replace (p - Nat.min p (length rec))%nat with 0%nat by lia. rewrite E. cbn [nth]. f_equal.
      replace (skipn (S p) rec) with t.
      * f_equal. lia.
      * rewrite skipn_S_tl, E. reflexivity.
Qed.

Theorem omf_exact id lo hi data : 0 <= lo < 256 -> 0 <= hi < 256 -> data <> [] ->
  omf_record 6 (id :: lo :: hi :: data) = cells (256 * hi + lo + 3) data.
Proof.
  intros Hl Hh Hd. unfold omf_record. change (6 =? 6) with true. cbv iota.
  unfold pick_word. cbn [length nth].
  assert (1 <= length data)%nat by (destruct data; [congruence|cbn; lia]).
  replace (Z.of_nat (S (S (S (length data)))) - 1 <=? Z.of_nat 1) with false by lia.
  rewrite (omf_cells (id :: lo :: hi :: data)) by (cbn [length]; lia). cbn [skipn]. f_equal. lia.
Qed.

(* ---- input specifier ---- *)
Definition in_window (mi ma : Z) (x : Z * Z) : bool := (mi <=? fst x) && (fst x <=? ma).

Lemma set_all_window mi ma offset la ha l : 0 <= mi -> ma <= 4294967295 ->
  Forall (fun x => 0 <= fst x < 4294967296) l -> forall rom i,
  set_all mi ma offset la ha rom l i =
  stored rom (filter (fun x => (la <=? fst x) && (fst x <=? ha))
    (List.map (fun x => ((fst x + offset) mod 2^32, snd x)) (filter (in_window mi ma) l))) i.
Proof.
  intros Hmi Hma. unfold set_all. induction l as [|[a v] l IH]; intros Hl rom i; [reflexivity|].
  inversion Hl as [|? ? Ha Hl']; subst. cbn [fst] in Ha. cbn [fold_left filter].
  unfold in_window at 1. cbn [fst]. rewrite IH by exact Hl'. unfold set_rom at 1.
  destruct ((0 <? mi) && (a <? mi)) eqn:E1.
  { replace ((mi <=? a) && (a <=? ma)) with false by lia. reflexivity. }
  destruct ((ma <? 4294967295) && (ma <? a)) eqn:E2.
  { replace ((mi <=? a) && (a <=? ma)) with false by lia. reflexivity. }
  replace ((mi <=? a) && (a <=? ma)) with true by lia.
  cbn [List.map fst snd filter]. unfold u32. change (2^32) with 4294967296.
  destruct ((la <=? (a + offset) mod 4294967296) && ((a + offset) mod 4294967296 <=? ha)); reflexivity.
Qed.
