From Verif Require Import Base HexModel HexSpec.

Lemma hexval_range c d : hexval c = Some d -> 0 <= d < 16 /\ 48 <= c <= 102 /\ is_space c = false.
Proof.
  unfold hexval, is_space. intros H.
  destruct ((48 <=? c) && (c <=? 57)) eqn:E1; [injection H as <-; lia|].
  destruct ((65 <=? c) && (c <=? 70)) eqn:E2; [injection H as <-; lia|].
  destruct ((97 <=? c) && (c <=? 102)) eqn:E3; [injection H as <-; lia|discriminate].
Qed.

Lemma signed_digits_hex c t d : hexval c = Some d -> signed_digits (c :: t) = digits (c :: t) 0.
Proof.
  intros H. destruct (hexval_range _ _ H) as (_ & R & _). unfold signed_digits.
  destruct c as [|p|p]; try lia.
  do 6 (destruct p as [p|p|]; try reflexivity; try lia).
Qed.

Lemma strtol2_hex c1 c2 d1 d2 : hexval c1 = Some d1 -> hexval c2 = Some d2 ->
  strtol2 c1 c2 = 16 * d1 + d2.
Proof.
  intros H1 H2. unfold strtol2. destruct (hexval_range _ _ H1) as (R1 & _ & S1). rewrite S1.
  rewrite (signed_digits_hex _ _ _ H1). cbn [digits]. rewrite H1, H2. lia.
Qed.

Lemma get_c_hex c d t : hexval c = Some d -> get_c (c :: t) = (Some c, t).
Proof.
  intros H. destruct (hexval_range _ _ H) as (_ & R & _). unfold get_c.
  destruct ((c <=? 0) || (127 <? c)) eqn:?; [lia|reflexivity].
Qed.

Lemma read_int_hex bs txt : hex_text bs txt -> forall l rest,
  read_int (length bs) l (txt ++ rest) = (true, fold_left (fun l b => l * 256 + b) bs l, rest).
Proof.
  induction 1 as [|c1 c2 d1 d2 bs t H1 H2 Ht IH]; intros l rest; [reflexivity|].
  cbn [length read_int app]. rewrite (get_c_hex _ _ _ H1), (get_c_hex _ _ _ H2).
  rewrite (strtol2_hex _ _ _ _ H1 H2), IH. reflexivity.
Qed.

Lemma hex_text_range bs txt : hex_text bs txt -> Forall (fun b => 0 <= b < 256) bs.
Proof.
  induction 1 as [|c1 c2 d1 d2 bs t H1 H2 Ht IH]; constructor; auto.
  apply hexval_range in H1, H2. lia.
Qed.

Lemma cons_eq {A} (x y : A) s t : x :: s = y :: t -> y = x /\ t = s.
Proof. intros H. split; [exact (f_equal (hd x) (eq_sym H))|exact (f_equal (@tl A) (eq_sym H))]. Qed.

Lemma hex_text_app a : forall b txt, hex_text (a ++ b) txt ->
  exists t1 t2, txt = t1 ++ t2 /\ hex_text a t1 /\ hex_text b t2.
Proof.
  induction a as [|x a IH]; intros b txt H; cbn in H.
  - exists [], txt. repeat split; auto. constructor.
  - remember (x :: a ++ b) as l eqn:El. destruct H as [|c1 c2 d1 d2 bs t H1 H2 H5]; [discriminate|].
    apply cons_eq in El. destruct El as [Ex Et]. subst x bs.
    destruct (IH _ _ H5) as (t1 & t2 & -> & A & B).
    exists (c1 :: c2 :: t1), t2. split; [reflexivity|]. split; [|exact B]. constructor; auto.
Qed.

Lemma hex_text_app_intro a ta : hex_text a ta -> forall b tb, hex_text b tb -> hex_text (a ++ b) (ta ++ tb).
Proof. induction 1; intros; cbn; [assumption|]. constructor; auto. Qed.

Lemma read_data_hex bs txt : hex_text bs txt -> forall rest,
  read_data (length bs) true (txt ++ rest) = (true, bs, rest).
Proof.
  induction 1 as [|c1 c2 d1 d2 bs t H1 H2 Ht IH]; intros rest; [reflexivity|].
  cbn [length read_data app].
  change (c1 :: c2 :: t ++ rest) with ([c1; c2] ++ (t ++ rest)).
  assert (Hb : hex_text [16 * d1 + d2] [c1; c2]) by (repeat constructor; assumption).
  rewrite (read_int_hex _ _ Hb 0 (t ++ rest) : read_int 1 0 _ = _). cbn [fold_left].
  rewrite IH. apply hexval_range in H1, H2.
  rewrite u8_id by lia. reflexivity.
Qed.

Lemma skip_colon_junk junk : ~ In 58 junk -> forall s, skip_colon (junk ++ s) = skip_colon s.
Proof.
  induction junk as [|c t IH]; intros H s; [reflexivity|]. cbn [app skip_colon].
  destruct (c =? 58) eqn:E; [exfalso; apply H; left; lia|]. apply IH. intros X. apply H. right. exact X.
Qed.

Lemma skip_colon_none junk : ~ In 58 junk -> skip_colon junk = None.
Proof. intros H. rewrite <- (app_nil_r junk). rewrite skip_colon_junk by exact H. reflexivity. Qed.

Lemma sum_list_app a b : sum_list (a ++ b) = sum_list a + sum_list b.
Proof.
  unfold sum_list. rewrite fold_left_app. generalize (fold_left Z.add a 0). clear a.
  induction b as [|x t IH]; intros s; cbn; [lia|]. rewrite IH, (IH x). lia.
Qed.
Lemma sum_list_cons x l : sum_list (x :: l) = x + sum_list l.
Proof. change (x :: l) with ([x] ++ l). rewrite sum_list_app. reflexivity. Qed.

Lemma hex_loop_unfold n w h s : hex_loop n w h s =
  match skip_colon s with
  | None => Ok (h, [])
  | Some s0 =>
    match n with
    | O => UB
    | S k =>
      let '(_, dnum, s1) := read_int 1 0 s0 in
      let dnum := u8 dnum in
      let '(_, a, s2) := read_int 2 0 s1 in
      let a := u32 a in
      let '(ok, rtyp, s3) := read_int 1 0 s2 in
      let rtyp := u8 rtyp in
      let '(ok, data, s4) := read_data (Z.to_nat dnum) ok s3 in
      let chk := u8 (dnum + u8 a + u8 (a / 256) + rtyp + sum_list data) in
      let h1 := mkH (base h) a (get_low h) (lows h) in
      if ok then
        let '(ok, sum, s5) := read_int 1 0 s4 in
        let sum := u8 sum in
        let '(h2, ws) :=
          if ok && (u8 (sum + chk) =? 0) then good_record w h1 a rtyp data else (h1, []) in
        if ok && negb (rtyp =? 1) then
          r <- hex_loop k w h2 s5 ;; Ok (fst r, ws ++ snd r)
        else Ok (h2, ws)
      else Ok (h1, [])
    end
  end.
Proof. destruct n; reflexivity. Qed.

Definition step_rec (w : Z) (h : hst) (r : hrec) : hst * list (Z * Z) :=
  let h1 := mkH (base h) (r_addr r) (get_low h) (lows h) in
  if rec_good r then good_record w h1 (r_addr r) (r_type r) (r_data r) else (h1, []).

(** one record of the file *)
Lemma hex_loop_rec k w h junk r txt rest :
  rec_ok r -> ~ In 58 junk -> hex_text (rec_bytes r) txt ->
  hex_loop (S k) w h (junk ++ 58 :: txt ++ rest) =
  let '(h2, ws) := step_rec w h r in
  if r_type r =? 1 then Ok (h2, ws)
  else r <- hex_loop k w h2 rest ;; Ok (fst r, ws ++ snd r).
Proof.
  intros (Ha & Ht & Hl & Hd & Hc) Hj Htxt. rewrite hex_loop_unfold.
  rewrite skip_colon_junk by exact Hj. cbn [skip_colon]. change (58 =? 58) with true. cbv iota.
  unfold rec_bytes in Htxt. cbn [app] in Htxt.
  set (n := Z.of_nat (length (r_data r))) in *.
  change (n :: r_addr r / 256 :: r_addr r mod 256 :: r_type r :: r_data r ++ [r_chk r])
    with ([n] ++ [r_addr r / 256; r_addr r mod 256] ++ [r_type r] ++ r_data r ++ [r_chk r]) in Htxt.
  apply hex_text_app in Htxt. destruct Htxt as (t1 & x & -> & T1 & Htxt).
  apply hex_text_app in Htxt. destruct Htxt as (t2 & y & -> & T2 & Htxt).
  apply hex_text_app in Htxt. destruct Htxt as (t3 & z & -> & T3 & Htxt).
  apply hex_text_app in Htxt. destruct Htxt as (t4 & t5 & -> & T4 & T5).
  rewrite <- !app_assoc.
  rewrite (read_int_hex _ _ T1 0 _ : read_int 1 0 _ = _).
  rewrite (read_int_hex _ _ T2 0 _ : read_int 2 0 _ = _).
  rewrite (read_int_hex _ _ T3 0 _ : read_int 1 0 _ = _).
  cbn [fold_left]. rewrite !Z.mul_0_l, !Z.add_0_l.
  replace (r_addr r / 256 * 256 + r_addr r mod 256) with (r_addr r) by lia.
  rewrite (u8_id n), (u32_id (r_addr r)), (u8_id (r_type r)) by lia.
  unfold n at 1. rewrite Nat2Z.id. rewrite read_data_hex by exact T4.
  rewrite (read_int_hex _ _ T5 0 _ : read_int 1 0 _ = _). cbn [fold_left]. rewrite Z.mul_0_l, Z.add_0_l.
  rewrite (u8_id (r_chk r)) by lia. cbn [andb]. unfold step_rec.
  replace (u8 (r_chk r + u8 (n + u8 (r_addr r) + u8 (r_addr r / 256) + r_type r + sum_list (r_data r))) =? 0)
    with (rec_good r).
  2:{ unfold rec_good, rec_bytes. fold n. cbn [app]. rewrite !sum_list_cons, sum_list_app, sum_list_cons.
      change (sum_list []) with 0. unfold u8.
      rewrite Zplus_mod_idemp_r.
      replace (r_chk r + (n + r_addr r mod 256 + (r_addr r / 256) mod 256 + r_type r + sum_list (r_data r)))
        with (n + (r_addr r / 256 + (r_addr r mod 256 + (r_type r + (sum_list (r_data r) + (r_chk r + 0))))));
        [reflexivity|].
      rewrite (Z.mod_small (r_addr r / 256)) by lia. lia. }
  destruct (if rec_good r then _ else _) as [h2 ws].
  destruct (r_type r =? 1); reflexivity.
Qed.

Lemma hex_loop_end n w h junk : ~ In 58 junk -> hex_loop n w h junk = Ok (h, []).
Proof. intros H. rewrite hex_loop_unfold, skip_colon_none by exact H. reflexivity. Qed.

(* ---- byte memories ---- *)
Lemma cells_cong l : forall a b, (a - b) mod 2^32 = 0 -> cells a l = cells b l.
Proof.
  induction l as [|v t IH]; intros a b H; cbn [cells]; [reflexivity|].
  f_equal; [f_equal|apply IH; replace (a + 1 - (b + 1)) with (a - b) by lia; exact H].
  change (2^32) with 4294967296 in *. lia.
Qed.

Lemma put_bytes8 w l : w <= 8 -> forall h, 0 <= addr h < 2^32 -> exists h',
  put_bytes w h l = (h', cells (base h + addr h) l) /\ base h' = base h.
Proof.
  intros Hw. induction l as [|b t IH]; intros h Ha; cbn [put_bytes cells]; [eauto|].
  unfold put_byte. destruct (lows h) as [[[l0 l1] l2] l3] eqn:El.
  replace (w <=? 8) with true by lia.
  set (h1 := mkH _ _ _ _). destruct (IH h1) as (h' & E & B).
  { cbn. unfold u32. lia. }
  exists h'. rewrite E. split; [|exact B]. f_equal. cbn [app base addr h1].
  f_equal. apply cells_cong. unfold u32. change (2^32) with 4294967296. lia.
Qed.

Definition bad_eof (r : hrec) : Prop := rec_good r = false /\ r_type r = 1.

Lemma hex_loop_meaning w rs txt : w <= 8 -> hex_file rs txt ->
  forall n h, Forall rec_ok rs -> (length rs <= n)%nat ->
  0 <= base h < 2^32 ->
  exists h', hex_loop n w h txt = Ok (h', meaning (base h) (until_end rs)).
Proof.
  intros Hw Hf. induction Hf as [junk Hj|junk r txt rs rest Hj Ht Hf IH]; intros n h Hok Hn Hbase.
  - rewrite hex_loop_end by exact Hj. eauto.
  - inversion Hok as [|? ? Hr Hok']; subst.
    destruct n as [|k]; [cbn in Hn; lia|]. cbn [length] in Hn.
    rewrite (hex_loop_rec k w h junk r txt rest) by assumption. unfold step_rec. cbn [until_end].
    set (h1 := mkH (base h) (r_addr r) (get_low h) (lows h)).
    destruct (r_type r =? 1) eqn:ET;
      [assert (r_type r = 1) as T1 by lia; unfold good_record; rewrite T1; destruct (rec_good r); cbn; eauto|].
    cbn [meaning]. rewrite ET.
    destruct (rec_good r) eqn:Eg; cbn [negb].
    + unfold good_record. destruct (r_type r =? 0) eqn:E0.
      *
        replace (word_addr w (r_addr r)) with (r_addr r) by (unfold word_addr; destruct (w <=? 8) eqn:?; lia).
        destruct Hr as (Ha & _).
        destruct (put_bytes8 w (r_data r) Hw (mkH (base h1) (r_addr r) (get_low h1) (lows h1))) as (h2 & E & B).
        { cbn. lia. }
        rewrite E. destruct (IH k h2 Hok' ltac:(lia)) as (h3 & E3). { rewrite B. exact Hbase. }
        rewrite E3. cbn [rbind fst snd]. rewrite B. cbn [base addr h1]. eauto.
      * destruct (r_type r =? 4) eqn:E4.
        --
           destruct (r_data r) as [|x [|y t]] eqn:Ed.
           ++ destruct (IH k (mkH (base h1) (r_addr r) (get_low h1) (lows h1)) Hok' ltac:(lia) Hbase) as (h3 & E3).
              rewrite E3. cbn. eauto.
           ++ destruct (IH k (mkH (base h1) (r_addr r) (get_low h1) (lows h1)) Hok' ltac:(lia) Hbase) as (h3 & E3).
              rewrite E3. cbn. eauto.
           ++ destruct Hr as (_ & _ & _ & Hd & _). rewrite Ed in Hd. pose proof (Forall_inv Hd) as Hx; apply Forall_inv_tail in Hd.
              pose proof (Forall_inv Hd) as Hy; cbv beta in Hx, Hy.
              assert (Eb : u32 ((x * 256 + y) * 65536) = 65536 * (256 * x + y)) by (rewrite u32_id by lia; lia).
              rewrite Eb.
              destruct (IH k (mkH (65536 * (256 * x + y)) (r_addr r) (get_low h1) (lows h1)) Hok' ltac:(lia)) as (h3 & E3).
              { cbn [base]. lia. }
              rewrite E3. cbn. eauto.
        --
           destruct (IH k (mkH (base h1) (r_addr r) (get_low h1) (lows h1)) Hok' ltac:(lia) Hbase) as (h3 & E3).
           rewrite E3. cbn. eauto.
    + destruct (IH k h1 Hok' ltac:(lia) Hbase) as (h3 & E3). rewrite E3. cbn. eauto.
Qed.

Lemma hex_file_len rs txt : hex_file rs txt -> (length rs <= length txt)%nat.
Proof.
  induction 1; cbn [length]; [lia|]. rewrite app_length. cbn [length]. rewrite app_length. lia.
Qed.

Theorem read_hex_exact w rs txt : w <= 8 -> hex_file rs txt ->
  Forall rec_ok rs -> read_hex w txt = Ok (meaning 0 (until_end rs)).
Proof.
  intros Hw Hf Hok. unfold read_hex.
  destruct (hex_loop_meaning w rs txt Hw Hf (length txt) (mkH 0 0 0 (0,0,0,0)) Hok (hex_file_len _ _ Hf)) as (h' & E).
  { cbn. lia. }
  rewrite E. cbn [rbind fst snd base]. unfold hex_tail.
  destruct (lows h') as [[[? ?] ?] ?]. replace (8 <? w) with false by lia. rewrite app_nil_r. reflexivity.
Qed.

Lemma meaning_until_end rs : Forall (fun r => ~ bad_eof r) rs -> forall base, meaning base (until_end rs) = meaning base rs.
Proof.
  induction 1 as [|r rs Hr _ IH]; intros base; cbn [until_end]; [reflexivity|].
  destruct (r_type r =? 1) eqn:E.
  - cbn [meaning]. rewrite E. destruct (rec_good r) eqn:G; cbn [negb]; [reflexivity|].
    exfalso. apply Hr. split; [exact G|lia].
  - cbn [meaning]. rewrite E. rewrite !IH. destruct (r_data r) as [|x [|y t]]; rewrite ?IH; reflexivity.
Qed.
Theorem read_hex_meaning w rs txt : w <= 8 -> hex_file rs txt ->
  Forall rec_ok rs -> Forall (fun r => ~ bad_eof r) rs ->
  read_hex w txt = Ok (meaning 0 rs).
Proof. intros. rewrite (read_hex_exact w rs txt) by assumption. rewrite meaning_until_end by assumption. reflexivity. Qed.

Lemma until_end_app a b : until_end (a ++ b) = if existsb (fun r => r_type r =? 1) a then until_end a else until_end a ++ until_end b.
Proof. induction a as [|r a IH]; cbn; [reflexivity|]. destruct (r_type r =? 1); cbn; [reflexivity|]. rewrite IH. destruct (existsb _ a); reflexivity. Qed.

Lemma meaning_skip_bad a r b : rec_good r = false -> forall base,
  meaning base (a ++ r :: b) = meaning base (a ++ b).
Proof.
  intros Hr. induction a as [|x a IH]; intros base; cbn [app meaning].
  - rewrite Hr. reflexivity.
  - destruct (rec_good x); cbn [negb]; [|apply IH].
    destruct (r_type x =? 1); [reflexivity|].
    destruct (r_type x =? 0); [rewrite IH; reflexivity|].
    destruct (r_type x =? 4); [|apply IH].
    destruct (r_data x) as [|? [|? ?]]; apply IH.
Qed.

(* ---- round trip of the dump ---- *)
Lemma hexval_hexdigit d : 0 <= d < 16 -> hexval (hexdigit d) = Some d.
Proof.
  intros H. assert (d = 0 \/ d = 1 \/ d = 2 \/ d = 3 \/ d = 4 \/ d = 5 \/ d = 6 \/ d = 7 \/ d = 8 \/ d = 9 \/
    d = 10 \/ d = 11 \/ d = 12 \/ d = 13 \/ d = 14 \/ d = 15) as D by lia.
  repeat destruct D as [->|D]; try reflexivity. subst d. reflexivity.
Qed.

Lemma hex2_text v : 0 <= v < 256 -> hex_text [v] (hex2 v).
Proof.
  intros H. unfold hex2.
  replace [v] with [16 * (v / 16) + v mod 16] by (f_equal; lia).
  constructor; try constructor; apply hexval_hexdigit; lia.
Qed.

Lemma hex2s_text l : Forall (fun b => 0 <= b < 256) l -> hex_text l (List.concat (List.map hex2 l)).
Proof.
  induction 1 as [|b l Hb _ IH]; cbn [List.map List.concat]; [constructor|].
  change (b :: l) with ([b] ++ l). apply hex_text_app_intro; [apply hex2_text; exact Hb|exact IH].
Qed.

Lemma hex04_text a : 0 <= a < 65536 -> hex_text [a / 256; a mod 256] (hex04 a).
Proof.
  intros H. unfold hex04. replace (a <? 65536) with true by lia. cbn [hex_min app].
  replace (a / 256) with (16 * (a / 16 / 16 / 16 mod 16) + a / 16 / 16 mod 16) by lia.
  replace (a mod 256) with (16 * (a / 16 mod 16) + a mod 16) by lia.
  constructor; try apply hexval_hexdigit; try lia. constructor; try apply hexval_hexdigit; try lia. constructor.
Qed.

Definition line_rec (rd : Z -> Z) (start : Z) (n : nat) : hrec :=
  let bytes := List.map u8 (span rd start n) in
  mkRec start 0 bytes
    (u8 (256 - u8 (u8 (Z.of_nat n) + u8 (start / 256) + u8 start + sum_list bytes))).

Lemma span_length rd n : forall a, length (span rd a n) = n.
Proof. induction n; intros; cbn; auto. Qed.

Lemma map_u8_range l : Forall (fun b => 0 <= b < 256) (List.map u8 l).
Proof. apply Forall_forall. intros x H. apply in_map_iff in H. destruct H as (y & <- & _). apply u8_range. Qed.

Lemma line_rec_ok rd start n : 0 <= start < 65536 -> (n < 256)%nat ->
  rec_ok (line_rec rd start n) /\ rec_good (line_rec rd start n) = true.
Proof.
  intros Hs Hn. unfold line_rec. split.
  - unfold rec_ok. cbn. rewrite map_length, span_length. repeat split; try lia.
    + apply map_u8_range.
    + apply u8_range.
    + apply u8_range.
  - unfold rec_good, rec_bytes. cbn [r_addr r_type r_data r_chk]. cbn [app].
    rewrite !sum_list_cons, sum_list_app, sum_list_cons, map_length, span_length.
    change (sum_list []) with 0. set (S := sum_list _). unfold u8. apply Z.eqb_eq. lia.
Qed.

Lemma dump_line_text rd start n : 0 <= start < 65536 -> (n < 256)%nat ->
  exists txt, dump_line rd start n = 58 :: txt ++ [13; 10] /\ hex_text (rec_bytes (line_rec rd start n)) txt.
Proof.
  intros Hs Hn. unfold dump_line, line_rec, rec_bytes. cbn [r_addr r_type r_data r_chk].
  rewrite map_length, span_length. rewrite (u8_id (Z.of_nat n)) by lia.
  set (bytes := List.map u8 _). set (c := u8 (256 - _)).
  exists (hex2 (Z.of_nat n) ++ hex04 start ++ [48; 48] ++ List.concat (List.map hex2 bytes) ++ hex2 c).
  split; [cbn [app]; rewrite <- !app_assoc; cbn [app]; rewrite <- !app_assoc; reflexivity|].
  change ([Z.of_nat n; start / 256; start mod 256; 0] ++ bytes ++ [c])
    with ([Z.of_nat n] ++ [start / 256; start mod 256] ++ [0] ++ bytes ++ [c]).
  apply hex_text_app_intro; [apply hex2_text; lia|].
  apply hex_text_app_intro; [apply hex04_text; lia|].
  apply hex_text_app_intro. { change [0] with [16 * 0 + 0]. constructor; try reflexivity. constructor. }
  apply hex_text_app_intro; [apply hex2s_text, map_u8_range|]. apply hex2_text, u8_range.
Qed.

(** records of the dump, mirroring the loop *)
Fixpoint loop_recs (rd : Z -> Z) (bpl stop : Z) (n : nat) (a sl : Z) : list hrec :=
  match n with
  | O => []
  | S k =>
    let a := a + 1 in
    if (a mod bpl =? 0) || (stop <? a)
    then line_rec rd sl (Z.to_nat (a - sl)) :: loop_recs rd bpl stop k a a
    else loop_recs rd bpl stop k a sl
  end.

Definition eof_rec : hrec := mkRec 0 1 [] 255.

Lemma nin_nil : ~ In 58 (@nil Z). Proof. intros []. Qed.

Lemma dump_file rd bpl stop n : forall a sl tail rs, 1 <= bpl <= 32 ->
  0 <= sl -> sl <= a -> a - sl <= (a mod bpl) -> a + Z.of_nat n <= 65536 ->
  (forall junk, ~ In 58 junk -> hex_file rs (junk ++ tail)) ->
  forall junk, ~ In 58 junk -> hex_file (loop_recs rd bpl stop n a sl ++ rs) (junk ++ dump_loop rd bpl stop n a sl ++ tail).
Proof.
  induction n as [|n IH]; intros a sl tail rs Hb Hs Ha Hm Hn Ht junk Hj; cbn [loop_recs dump_loop app]; [auto|].
  pose proof (Z.mod_pos_bound a bpl ltac:(lia)) as Hmod.
  destruct (((a + 1) mod bpl =? 0) || (stop <? a + 1)) eqn:E.
  - destruct (dump_line_text rd sl (Z.to_nat (a + 1 - sl))) as (txt & -> & Htxt); [lia|lia|].
    cbn [app]. rewrite <- !app_assoc. change (58 :: txt ++ ?x) with (58 :: (txt ++ x)).
    constructor; [exact Hj|exact Htxt|].
    pose proof (Z.mod_pos_bound (a + 1) bpl ltac:(lia)) as Hmod1.
    change (13 :: 10 :: ?x) with ([13; 10] ++ x).
    apply IH; [lia|lia|lia|lia|lia|exact Ht|cbn; lia].
  - apply IH; [lia|lia|lia| |lia|exact Ht|exact Hj].
    assert ((a + 1) mod bpl = a mod bpl + 1); [|lia].
    symmetry. apply Z.mod_unique with (a / bpl); [|rewrite (Z.div_mod a bpl) at 1 by lia; lia].
    left. split; [lia|]. destruct (Z.eq_dec (a mod bpl + 1) bpl) as [Q|Q]; [|lia]. exfalso.
    assert ((a + 1) mod bpl = 0); [|lia]. symmetry. apply Z.mod_unique with (a / bpl + 1); [lia|].
    rewrite (Z.div_mod a bpl) at 1 by lia. lia.
Qed.

Lemma loop_recs_ok rd bpl stop n : forall a sl, 1 <= bpl <= 32 -> 0 <= sl -> sl <= a -> a - sl <= (a mod bpl) ->
  a + Z.of_nat n <= 65536 ->
  Forall (fun r => rec_ok r /\ rec_good r = true /\ r_type r = 0) (loop_recs rd bpl stop n a sl).
Proof.
  induction n as [|n IH]; intros a sl Hb Hs Ha Hm Hn; cbn [loop_recs]; [constructor|].
  pose proof (Z.mod_pos_bound a bpl ltac:(lia)) as Hmod.
  destruct (((a + 1) mod bpl =? 0) || (stop <? a + 1)) eqn:E.
  - constructor.
    + destruct (line_rec_ok rd sl (Z.to_nat (a + 1 - sl))); [lia|lia|]. auto.
    + pose proof (Z.mod_pos_bound (a + 1) bpl ltac:(lia)) as Hmod1. apply IH; lia.
  - apply IH; try lia.
    assert ((a + 1) mod bpl = a mod bpl + 1); [|lia].
    symmetry. apply Z.mod_unique with (a / bpl); [|rewrite (Z.div_mod a bpl) at 1 by lia; lia].
    left. split; [lia|]. destruct (Z.eq_dec (a mod bpl + 1) bpl) as [Q|Q]; [|lia]. exfalso.
    assert ((a + 1) mod bpl = 0); [|lia]. symmetry. apply Z.mod_unique with (a / bpl + 1); [lia|].
    rewrite (Z.div_mod a bpl) at 1 by lia. lia.
Qed.

Lemma cells_app a : forall l1 l2, cells a (l1 ++ l2) = cells a l1 ++ cells (a + Z.of_nat (length l1)) l2.
Proof.
  intros l1. revert a. induction l1 as [|x t IH]; intros a l2; cbn [app cells length].
  - rewrite Z.add_0_r. reflexivity.
  - rewrite IH. do 2 f_equal. f_equal. lia.
Qed.

Lemma span_app rd n : forall m a, span rd a (n + m) = span rd a n ++ span rd (a + Z.of_nat n) m.
Proof.
  induction n as [|n IH]; intros m a; cbn [plus span app].
  - rewrite Z.add_0_r. reflexivity.
  - rewrite IH. do 2 f_equal. f_equal. lia.
Qed.

Lemma meaning_loop rd bpl stop n : forall a sl rs, 1 <= bpl <= 32 -> 0 <= sl -> sl <= a -> a - sl <= (a mod bpl) ->
  a + Z.of_nat n = stop + 1 -> stop < 65536 -> (n = O -> sl = a) ->
  meaning 0 (loop_recs rd bpl stop n a sl ++ rs) =
  cells sl (List.map u8 (span rd sl (Z.to_nat (stop + 1 - sl)))) ++ meaning 0 rs.
Proof.
  induction n as [|n IH]; intros a sl rs Hb Hs Ha Hm Hn Hst H0; cbn [loop_recs].
  - rewrite (H0 eq_refl) in *. replace (stop + 1 - a) with 0 by lia. reflexivity.
  - pose proof (Z.mod_pos_bound a bpl ltac:(lia)) as Hmod.
    destruct (((a + 1) mod bpl =? 0) || (stop <? a + 1)) eqn:E.
    + cbn [app meaning].
      destruct (line_rec_ok rd sl (Z.to_nat (a + 1 - sl))) as [_ ->]; [lia|lia|].
      cbn [negb line_rec r_type r_addr r_data]. change (0 =? 1) with false. change (0 =? 0) with true. cbv iota.
      pose proof (Z.mod_pos_bound (a + 1) bpl ltac:(lia)) as Hmod1.
      rewrite IH by lia.
      replace (Z.to_nat (stop + 1 - sl)) with (Z.to_nat (a + 1 - sl) + Z.to_nat (stop + 1 - (a + 1)))%nat by lia.
      rewrite span_app, map_app, cells_app, map_length, span_length, <- app_assoc.
      replace (sl + Z.of_nat (Z.to_nat (a + 1 - sl))) with (a + 1) by lia. reflexivity.
    + apply IH; try lia.
      assert ((a + 1) mod bpl = a mod bpl + 1); [|lia].
      symmetry. apply Z.mod_unique with (a / bpl); [|rewrite (Z.div_mod a bpl) at 1 by lia; lia].
      left. split; [lia|]. destruct (Z.eq_dec (a mod bpl + 1) bpl) as [Q|Q]; [|lia]. exfalso.
      assert ((a + 1) mod bpl = 0); [|lia]. symmetry. apply Z.mod_unique with (a / bpl + 1); [lia|].
      rewrite (Z.div_mod a bpl) at 1 by lia. lia.
Qed.

Lemma eof_text : exists txt, eof_line = 58 :: txt ++ [13; 10] /\ hex_text (rec_bytes eof_rec) txt.
Proof.
  exists [48;48; 48;48;48;48; 48;49; 70;70]. split; [reflexivity|].
  change (rec_bytes eof_rec) with [16*0+0; 16*0+0; 16*0+0; 16*0+1; 16*15+15].
  repeat (constructor; try reflexivity).
Qed.

Theorem dump_load rd lva hva start stop bpl w : w <= 8 -> 1 <= bpl ->
  0 <= lva -> lva <= start -> start <= stop -> stop <= hva -> hva < 65536 ->
  exists txt, dump_i rd lva hva start stop bpl = Ok txt /\
    read_hex w txt = Ok (cells start (List.map u8 (span rd start (Z.to_nat (stop + 1 - start))))).
Proof.
  intros Hw Hb H0 H1 H2 H3 H4. unfold dump_i.
  replace (start <? lva) with false by lia. replace (hva <? stop) with false by lia.
  replace (hva <? start) with false by lia. replace (stop <? lva) with false by lia.
  replace (stop <? start) with false by lia.
  set (b := if 32 <? bpl then 32 else bpl).
  assert (Hb' : 1 <= b <= 32) by (unfold b; destruct (32 <? bpl) eqn:?; lia).
  replace (b =? 0) with false by lia. rewrite u32_id by lia.
  eexists. split; [reflexivity|].
  set (n := Z.to_nat (stop - start + 1)).
  destruct eof_text as (et & Ee & Het).
  assert (Hm : start - start <= start mod b) by (pose proof (Z.mod_pos_bound start b); lia).
  assert (Hf : hex_file (loop_recs rd b stop n start start ++ [eof_rec]) (dump_loop rd b stop n start start ++ eof_line)).
  { change (dump_loop rd b stop n start start ++ eof_line) with ([] ++ dump_loop rd b stop n start start ++ eof_line).
    apply dump_file; try lia; [|exact nin_nil].
    intros junk Hj. rewrite Ee. constructor; [exact Hj|exact Het|]. constructor. cbn. lia. }
  pose proof (loop_recs_ok rd b stop n start start Hb' ltac:(lia) ltac:(lia) Hm ltac:(lia)) as Hall.
  rewrite (read_hex_meaning w _ _ Hw Hf).
  - rewrite meaning_loop by lia. replace (meaning 0 [eof_rec]) with (@nil (Z * Z)) by reflexivity.
    rewrite app_nil_r. reflexivity.
  - apply Forall_app. split; [|repeat constructor; cbn; lia].
    eapply Forall_impl; [|exact Hall]. tauto.
  - apply Forall_app. split; [|repeat constructor; intros [X _]; vm_compute in X; discriminate].
    eapply Forall_impl; [|exact Hall]. intros r (_ & G & _) [B _]. congruence.
Qed.

(** effect of storing consecutive cells *)
Lemma set_all_cells la ha rd n : forall rom a, 0 <= a -> a + Z.of_nat n <= 2^32 -> la <= a -> a + Z.of_nat n <= ha + 1 ->
  forall i, set_all 0 4294967295 0 la ha rom (cells a (List.map u8 (span rd a n))) i =
    if (a <=? i) && (i <? a + Z.of_nat n) then u8 (rd i) else rom i.
Proof.
  induction n as [|n IH]; intros rom a H0 H1 H2 H3 i; cbn [span List.map cells].
  - unfold set_all. cbn. destruct ((a <=? i) && (i <? a + 0)) eqn:?; [lia|reflexivity].
  - unfold set_all in *. cbn [fold_left]. rewrite IH by lia.
    unfold set_rom at 1. cbn [Z.ltb Z.compare Pos.compare andb].
    replace (a mod 2 ^ 32) with a by (rewrite Z.mod_small; lia).
    change (4294967295 <? 4294967295) with false. cbn [andb]. rewrite Z.add_0_r, u32_id by lia.
    replace ((la <=? a) && (a <=? ha)) with true by lia.
    destruct ((a + 1 <=? i) && (i <? a + 1 + Z.of_nat n)) eqn:E.
    + replace ((a <=? i) && (i <? a + Z.of_nat (S n))) with true by lia. reflexivity.
    + destruct (i =? a) eqn:Ei.
      * replace ((a <=? i) && (i <? a + Z.of_nat (S n))) with true by lia. f_equal. f_equal. lia.
      * replace ((a <=? i) && (i <? a + Z.of_nat (S n))) with false by lia. reflexivity.
Qed.
