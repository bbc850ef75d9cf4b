(** Proofs about the string class: searching, words, numbers, replacing, rtrim. *)
From Verif Require Import Base FioModel ChrModel ChrSpec ChrObs ChrProofs.

Lemma prefixb_ok x : forall s, prefixb x s = true <-> exists b, s = x ++ b.
Proof.
  induction x as [|a x IH]; intros s; [cbn; split; [intros _; exists s; reflexivity|reflexivity]|]. destruct s as [|c s]; cbn [prefixb].
  - split; [discriminate|]. intros (b & E). discriminate.
  - rewrite andb_true_iff, IH, Z.eqb_eq. split.
    + intros (-> & b & ->). exists b. reflexivity.
    + intros (b & E). inversion E; subst. eauto.
Qed.
Lemma occurs_S s x n c : occurs (c :: s) x (S n) <-> occurs s x n.
Proof.
  split; intros (a & b & E & L).
  - destruct a as [|a0 a]; [discriminate|]. inversion E; subst. exists a, b. cbn in L. split; [reflexivity|lia].
  - exists (c :: a), b. subst s. split; [reflexivity|cbn; lia].
Qed.
Lemma occurs_0 s x : occurs s x 0 <-> prefixb x s = true.
Proof.
  rewrite prefixb_ok. split.
  - intros (a & b & E & L). destruct a; [|discriminate]. exists b. exact E.
  - intros (b & E). exists [], b. auto.
Qed.
Lemma strstr_ok x : forall s, match strstr s x with Some n => first_occ s x n | None => forall n, ~ occurs s x n end.
Proof.
  induction s as [|c s IH]; cbn [strstr].
  - destruct (prefixb x []) eqn:P.
    + split; [apply occurs_0; exact P|intros; lia].
    + intros n (a & b & E & L). symmetry in E. apply app_eq_nil in E. destruct E as [-> E]. apply app_eq_nil in E. destruct E as [-> ->]. discriminate.
  - destruct (prefixb x (c :: s)) eqn:P.
    + split; [apply occurs_0; exact P|intros; lia].
    + assert (N0 : ~ occurs (c :: s) x 0) by (rewrite occurs_0; congruence).
      destruct (strstr s x) as [n|]; cbn [option_map].
      * destruct IH as [A B]. split; [apply occurs_S; exact A|]. intros [|m] Om; [contradiction|]. specialize (B m (proj1 (occurs_S _ _ _ _) Om)). lia.
      * intros [|n] Om; [contradiction|]. exact (IH n (proj1 (occurs_S _ _ _ _) Om)).
Qed.
Lemma first_uniq s x n m : first_occ s x n -> first_occ s x m -> n = m.
Proof. intros [A B] [C D]. specialize (B m C). specialize (D n A). lia. Qed.
Lemma strstr_some s x n : strstr s x = Some n <-> first_occ s x n.
Proof.
  pose proof (strstr_ok x s) as H. destruct (strstr s x) as [m|].
  - split; [intros E; inversion E; subst; exact H|]. intros F. f_equal. exact (first_uniq _ _ _ _ H F).
  - split; [discriminate|]. intros [F _]. exfalso. exact (H n F).
Qed.
Lemma strstr_none s x : strstr s x = None <-> forall n, ~ occurs s x n.
Proof.
  pose proof (strstr_ok x s) as H. destruct (strstr s x) as [m|]; split; intros E; try discriminate; try reflexivity; try exact H.
  exfalso. exact (E m (proj1 H)).
Qed.

(* ------------------------------------------------------------------ words *)
Fixpoint takew (f : Z -> bool) (s : list Z) : list Z := match s with c :: t => if f c then c :: takew f t else [] | [] => [] end.
Lemma words_in d s : forall w, w <> [] -> words_aux d w s = (w ++ takew (fun c => negb (d c)) s) :: words_aux d [] (drop (fun c => negb (d c)) s).
Proof.
  induction s as [|c s IH]; intros w H.
  - cbn. rewrite app_nil_r. destruct w; [contradiction|reflexivity].
  - cbn [words_aux takew drop]. destruct (d c) eqn:D; cbn [negb].
    + rewrite app_nil_r. destruct w; [contradiction|]. cbn [words_aux]. rewrite D. reflexivity.
    + rewrite IH by (destruct w; discriminate). rewrite <- app_assoc. reflexivity.
Qed.
Lemma words_skip d s : words_aux d [] s = words_aux d [] (drop d s).
Proof. induction s as [|c s IH]; [reflexivity|]. cbn [words_aux drop]. destruct (d c) eqn:D; [exact IH|]. cbn [words_aux]. rewrite D. reflexivity. Qed.
Lemma words_head d c s : d c = false -> words_aux d [] (c :: s) = (takew (fun c => negb (d c)) (c :: s)) :: words_aux d [] (drop (fun c => negb (d c)) (c :: s)).
Proof. intros D. cbn [words_aux takew drop app]. rewrite D. cbn [negb]. rewrite words_in by discriminate. reflexivity. Qed.
Lemma span_len s set : skipn (strspn s set) s = drop (one_of set) s /\ (strspn s set + length (drop (one_of set) s) = length s)%nat.
Proof. induction s as [|c s [IH1 IH2]]; [auto|]. cbn [strspn drop]. unfold one_of, memc in *. destruct (existsb (Z.eqb c) set); [|auto]. cbn [skipn length]. split; [exact IH1|lia]. Qed.
Lemma cspan_len s set : skipn (strcspn s set) s = drop (fun c => negb (one_of set c)) s /\ firstn (strcspn s set) s = takew (fun c => negb (one_of set c)) s /\ (strcspn s set + length (drop (fun c => negb (one_of set c)) s) = length s)%nat.
Proof.
  induction s as [|c s (IH1 & IH2 & IH3)]; [auto|]. cbn [strcspn drop takew]. unfold one_of, memc in *. destruct (existsb (Z.eqb c) set); cbn [negb]; [auto|].
  cbn [skipn firstn length]. split; [exact IH1|]. split; [rewrite IH2; reflexivity|lia].
Qed.
Lemma add_chars_ok g s : forall c o, rep c o -> text s -> exists c', add_chars g c s = Ok c' /\ rep c' (match s with [] => o | _ => mine (chars_of o ++ s) end).
Proof.
  induction s as [|x s IH]; intros c o R T; [exists c; auto|]. inversion T; subst. cbn [add_chars].
  destruct (append_char_ok g c o x R) as (c1 & E & R1 & _); [assumption|]. rewrite E. cbn [rbind].
  destruct (IH c1 _ R1 ltac:(assumption)) as (c' & E' & R'). exists c'. split; [exact E'|].
  destruct s; [exact R'|]. cbn [chars_of mine sval] in R'. rewrite <- app_assoc in R'. exact R'.
Qed.
Lemma rep_null : rep new_null (mkS None false).
Proof. repeat split. Qed.
Lemma str_at_ok s t p : text s -> (p <= length s)%nat -> str_at (s ++ 0 :: t) (Z.of_nat p) = Ok (skipn p s).
Proof.
  intros T L. unfold str_at. replace (0 <=? Z.of_nat p) with true by lia. rewrite Nat2Z.id, skipn_app. replace (p - length s)%nat with 0%nat by lia. cbn [skipn].
  apply str_ok. apply text_skipn. exact T.
Qed.
Lemma skipn_add {A} (s : list A) : forall a b, skipn a (skipn b s) = skipn (b + a) s.
Proof. intros a b. revert s. induction b as [|b IH]; intros s; [reflexivity|]. destruct s; [destruct a; reflexivity|]. cbn [skipn plus]. apply IH. Qed.

Lemma token_ok g c o dl (p : nat) : rep c o -> dl <> [] -> cpos c = Z.of_nat p ->
  exists t c', token g c dl = Ok (t, c') /\ rep c' o /\
    match words dl (skipn p (chars_of o)) with
    | [] => rep t (mkS None false) /\ exists p', cpos c' = Z.of_nat p' /\ words dl (skipn p' (chars_of o)) = []
    | w :: ws => rep t (mine w) /\ exists p', cpos c' = Z.of_nat p' /\ words dl (skipn p' (chars_of o)) = ws
    end.
Proof.
  intros R N P. unfold token. destruct dl as [|d0 dl0]; [contradiction|]. set (dl := d0 :: dl0) in *. rewrite (rep_len _ _ R), P.
  destruct (Z.leb_spec (Z.of_nat (length (chars_of o))) (Z.of_nat p)) as [L|L].
  { rewrite (skipn_all2 (n := p)) by lia. cbn. exists new_null, c. split; [reflexivity|]. split; [exact R|]. split; [apply rep_null|]. exists p. split; [exact P|]. rewrite skipn_all2 by lia. reflexivity. }
  replace (_ <? 1) with false by lia.
  pose proof R as [O R']. unfold chars_of in *. destruct (sval o) as [s|] eqn:S; [|cbn in L; lia]. destruct R' as (T & Ln & t & B). rewrite B.
  rewrite (str_at_ok s t p T) by lia. cbn [rbind]. set (r := skipn p s). assert (Lr : length r = (length s - p)%nat) by (subst r; apply skipn_length).
  destruct (span_len r dl) as [E1 L1]. set (k := strspn r dl) in *.
  assert (RP : forall q, rep (mkC (Some (s ++ 0 :: t)) (cown c) (Z.of_nat (length s)) q) o) by (intros q; split; [exact O|]; rewrite S; cbn; eauto).
  unfold words. rewrite words_skip. fold r. rewrite <- E1.
  destruct (Z.leb_spec (Z.of_nat (length s)) (Z.of_nat p + Z.of_nat k)) as [L2|L2].
  { assert (Z0 : skipn k r = []) by (apply skipn_all2; lia). rewrite Z0. cbn [words_aux]. eexists _, _. split; [reflexivity|]. split; [apply RP|]. split; [apply rep_null|].
    exists (p + k)%nat. cbn [cpos]. split; [lia|]. rewrite skipn_all2 by lia. reflexivity. }
  replace (Z.of_nat p + Z.of_nat k) with (Z.of_nat (p + k)) by lia. rewrite (str_at_ok s t (p + k) T) by lia. cbn [rbind].
  assert (E3 : skipn k r = skipn (p + k) s) by (subst r; apply skipn_add). rewrite E3.
  set (q := skipn (p + k) s) in *. assert (Lq : length q = (length s - (p + k))%nat) by (subst q; apply skipn_length).
  assert (HQ : exists x q', q = x :: q') by (destruct q as [|x q']; [cbn in Lq; lia|eauto]). destruct HQ as (x & q' & HQ).
  assert (Dx : one_of dl x = false).
  { assert (H : forall s, match drop (one_of dl) s with [] => True | c :: _ => one_of dl c = false end) by (clear; induction s as [|c s IH]; [exact I|]; cbn [drop]; destruct (one_of dl c) eqn:E; [exact IH|exact E]).
    specialize (H r). rewrite <- E1, E3, HQ in H. exact H. }
  destruct (cspan_len q dl) as (C1 & C2 & C3). set (m := strcspn q dl) in *.
  assert (Lm : (0 < m)%nat) by (subst m; rewrite HQ; cbn [strcspn]; change (memc dl x) with (one_of dl x); rewrite Dx; lia).
  replace (0 <? m)%nat with true by (symmetry; apply Nat.ltb_lt; exact Lm). cbv zeta.
  assert (Tq : text q) by (subst q; apply text_skipn; exact T).
  destruct (add_chars_ok g (firstn m q) new_null _ rep_null (text_firstn _ _ Tq)) as (tk & Et & Rt). rewrite Et. cbn [rbind].
  replace (Z.of_nat (p + k) + Z.of_nat m) with (Z.of_nat (p + k + m)) by lia. rewrite (str_at_ok s t (p + k + m) T) by lia. cbn [rbind].
  eexists _, _. split; [reflexivity|]. split; [apply RP|]. cbn [cpos].
  assert (HW : words_aux (one_of dl) [] q = firstn m q :: words_aux (one_of dl) [] (skipn m q)) by (rewrite C1, C2, HQ; apply words_head; exact Dx).
  rewrite HW. split.
  - destruct (firstn m q) eqn:F; [|exact Rt]. exfalso. rewrite HQ in F. destruct m; [lia|discriminate].
  - set (u := skipn (p + k + m) s) in *. destruct (span_len u dl) as [E5 L5]. exists (p + k + m + strspn u dl)%nat. split; [lia|].
    assert (E6 : skipn m q = u) by (subst q u; apply skipn_add). rewrite E6.
    rewrite <- skipn_add. fold u. rewrite E5. symmetry. apply words_skip.
Qed.
Lemma tokens_ok g dl n : forall c o (p : nat), rep c o -> dl <> [] -> cpos c = Z.of_nat p ->
  let ws := words dl (skipn p (chars_of o)) in
  tokens g c dl n = Ok (map Some (firstn n ws) ++ repeat None (n - length ws)).
Proof.
  induction n as [|n IH]; intros c o p R N P; [cbv zeta; reflexivity|]. cbv zeta. cbn [tokens].
  destruct (token_ok g c o dl p R N P) as (t & c' & E & R' & H). rewrite E. cbn [rbind fst snd].
  destruct (words dl (skipn p (chars_of o))) as [|w ws]; destruct H as (Rt & p' & P' & W); rewrite (rep_val _ _ Rt); cbn [rbind];
    rewrite (IH c' o p' R' N P'), W; cbn [rbind firstn map app length].
  - rewrite firstn_nil. cbn [map app]. rewrite Nat.sub_0_r. reflexivity.
  - rewrite Nat.sub_succ. reflexivity.
Qed.

(* ---------------------------------------------------------------- numbers *)
Lemma hexval_eq c : hexval c = hex_digit c.
Proof.
  unfold hexval, hex_digit, toupper. cbv zeta.
  destruct (Z.leb_spec 97 c), (Z.leb_spec c 122); cbn [andb];
  repeat match goal with |- context [?a <=? ?b] => destruct (Z.leb_spec a b) end; cbn [andb]; try lia; try reflexivity; f_equal; lia.
Qed.
Lemma hex_range c d : hex_digit c = Some d -> 0 <= d < 16.
Proof.
  unfold hex_digit. repeat match goal with |- context [?a <=? ?b] => destruct (Z.leb_spec a b) end; cbn [andb]; intros E; inversion E; lia.
Qed.
Lemma lor16 v x k : 0 <= v -> 0 <= x < 16 -> 4 <= k -> Z.lor ((v * 16) mod 2 ^ k) x = (v * 16 + x) mod 2 ^ k.
Proof.
  intros V X K. assert (P : 2 ^ k = 16 * 2 ^ (k - 4)) by (change 16 with (2 ^ 4); rewrite <- Z.pow_add_r by lia; f_equal; lia).
  assert (P0 : 0 < 2 ^ (k - 4)) by (apply Z.pow_pos_nonneg; lia).
  assert (M : (v * 16) mod 2 ^ k = (v mod 2 ^ (k - 4)) * 16) by (rewrite P, (Z.mul_comm 16), Z.mul_mod_distr_r by lia; reflexivity).
  rewrite M. set (u := v mod 2 ^ (k - 4)).
  assert (U : 0 <= u < 2 ^ (k - 4)) by (apply Z.mod_pos_bound; exact P0).
  assert (L : Z.lor (u * 16) x = u * 16 + x).
  { assert (LD : Z.land (u * 16) x = 0).
    { apply Z.bits_inj'. intros n Hn. rewrite Z.land_spec, Z.bits_0. change 16 with (2 ^ 4). destruct (Z.lt_ge_cases n 4).
      - rewrite Z.mul_pow2_bits_low by lia. reflexivity.
      - replace (Z.testbit x n) with false; [apply andb_false_r|]. symmetry. destruct (Z.eq_dec x 0) as [->|]; [apply Z.bits_0|].
        apply Z.bits_above_log2; [lia|]. assert (Z.log2 x < 4) by (apply Z.log2_lt_pow2; [lia|change (2 ^ 4) with 16; lia]). lia. }
    rewrite <- Z.lxor_lor by exact LD. symmetry. apply Z.add_nocarry_lxor. exact LD. }
  rewrite L. rewrite <- (Zplus_mod_idemp_l (v * 16)), M. fold u. symmetry. apply Z.mod_small. rewrite P. lia.
Qed.
Lemma value_mod m ds : forall a, m <> 0 -> value 16 (a mod m) ds mod m = value 16 a ds mod m.
Proof.
  induction ds as [|d ds IH]; intros a H; [cbn; apply Z.mod_mod; exact H|]. cbn [value]. rewrite <- (IH (a mod m * 16 + d)), <- (IH (a * 16 + d)) by exact H. f_equal. f_equal.
  rewrite <- Zplus_mod_idemp_l, Zmult_mod_idemp_l, Zplus_mod_idemp_l. reflexivity.
Qed.
Definition digit0 (c : Z) : Z := match hex_digit c with Some d => d | None => 0 end.
Lemma digit0_range c : 0 <= digit0 c < 16.
Proof. unfold digit0. destruct (hex_digit c) eqn:E; [apply (hex_range c); exact E|lia]. Qed.
Lemma value_nonneg ds : forall a, 0 <= a -> Forall (fun d => 0 <= d) ds -> forall b, 0 <= b -> 0 <= value b a ds.
Proof. induction ds as [|d ds IH]; intros a H F b B; [exact H|]. inversion F; subst. cbn [value]. apply IH; [nia|assumption|assumption]. Qed.
Lemma htoi_loop_ok s : forall v, 0 <= v -> htoi_loop (v mod 2 ^ 32) s = value 16 v (map digit0 s) mod 2 ^ 32.
Proof.
  induction s as [|c s IH]; intros v H; [reflexivity|]. cbn [htoi_loop map value]. rewrite hexval_eq. fold (digit0 c).
  pose proof (digit0_range c) as D.
  assert (V : 0 <= v mod 2 ^ 32) by (apply Z.mod_pos_bound; lia).
  rewrite lor16 by lia. rewrite <- (Zplus_mod_idemp_l (v mod 2 ^ 32 * 16)), Zmult_mod_idemp_l, Zplus_mod_idemp_l. apply IH. lia.
Qed.
Fixpoint hex_prefix (s : list Z) : list Z := match s with c :: t => match hex_digit c with Some d => d :: hex_prefix t | None => [] end | [] => [] end.
Lemma htoll_loop_ok s : forall v, 0 <= v -> htoll_loop (v mod 2 ^ 64) s = value 16 v (hex_prefix s) mod 2 ^ 64.
Proof.
  induction s as [|c s IH]; intros v H; [reflexivity|]. cbn [htoll_loop hex_prefix]. rewrite hexval_eq. destruct (hex_digit c) as [d|] eqn:E; [|reflexivity].
  apply hex_range in E. cbn [value].
  assert (V : 0 <= v mod 2 ^ 64) by (apply Z.mod_pos_bound; lia).
  rewrite lor16 by lia. rewrite <- (Zplus_mod_idemp_l (v mod 2 ^ 64 * 16)), Zmult_mod_idemp_l, Zplus_mod_idemp_l. apply IH. lia.
Qed.
Lemma digit_of_char u d : 0 <= d < 36 -> digit_of (digit_char u d) = d.
Proof.
  intros H. unfold digit_of, digit_char. destruct (Z.ltb_spec d 10); [|destruct u];
  repeat match goal with |- context [?a <=? ?b] => destruct (Z.leb_spec a b) end; cbn [andb]; lia.
Qed.
Lemma digits_ok b u ds : b <= 36 -> in_base b ds -> forall a, digits b a (map (digit_char u) ds) = value b a ds.
Proof.
  intros B. induction 1 as [|d ds D H IH]; intros a; [reflexivity|]. cbn [map digits value]. rewrite digit_of_char by lia. replace (d <? b) with true by lia. apply IH.
Qed.
Lemma digit_char_plain u d : 0 <= d < 16 -> let c := digit_char u d in isspace c = false /\ c <> 45 /\ c <> 43 /\ c <> 120 /\ c <> 88 /\ c <> 0.
Proof. intros H. cbv zeta. unfold digit_char, isspace. destruct (Z.ltb_spec d 10); [|destruct u]; lia. Qed.
Lemma strtol_ok b u ds : 2 <= b <= 16 -> in_base b ds -> 0 <= value b 0 ds < 2 ^ 63 -> strtol b (map (digit_char u) ds) = value b 0 ds.
Proof.
  intros B H V. unfold strtol.
  assert (SD : strtol_digits b (map (digit_char u) ds) = value b 0 ds).
  { rewrite <- (digits_ok b u ds ltac:(lia) H). unfold strtol_digits. destruct ds as [|d0 [|d1 [|d2 ds]]]; try reflexivity; cbn [map];
      try (set (c0 := digit_char u d0); destruct c0 as [|p|p]; try reflexivity; do 6 (destruct p; try reflexivity)).
    assert (0 <= d1 < 16) by (inversion H as [|? ? _ H1]; subst; inversion H1; subst; lia).
    destruct (digit_char_plain u d1 H0) as (_ & _ & _ & X1 & X2 & _). replace (_ || _) with false by lia. rewrite andb_false_r. reflexivity. }
  cbv zeta. destruct ds as [|d ds]; [cbn [map skip_while]; rewrite <- SD in V |- *; unfold clamp64; cbn; reflexivity|].
  assert (D : 0 <= d < 16) by (inversion H; lia). destruct (digit_char_plain u d D) as (S & X1 & X2 & _).
  assert (E : skip_while isspace (map (digit_char u) (d :: ds)) = map (digit_char u) (d :: ds)) by (cbn [map skip_while]; rewrite S; reflexivity).
  rewrite E.
  assert (E3 : match map (digit_char u) (d :: ds) with 45 :: t => - strtol_digits b t | 43 :: t => strtol_digits b t | _ => strtol_digits b (map (digit_char u) (d :: ds)) end = strtol_digits b (map (digit_char u) (d :: ds))).
  { cbn [map]. destruct (digit_char u d) as [|p|p]; try reflexivity. do 6 (destruct p; try reflexivity); exfalso; solve [apply X1; reflexivity|apply X2; reflexivity]. }
  rewrite E3, SD. unfold clamp64. lia.
Qed.
Lemma numeral_text t v : numeral t v -> text t /\ t <> [] /\ hd 0 t <> 43 /\ hd 0 t <> 45.
Proof.
  assert (TX : forall u b ds, b <= 16 -> in_base b ds -> text (map (digit_char u) ds)).
  { intros u b ds B H. apply Forall_map. eapply Forall_impl; [|exact H]. intros d D. cbv beta in D. apply (digit_char_plain u d ltac:(lia)). }
  intros H. destruct H as [u d ds H D|u ds H|u p b ds I H].
  - split; [apply (TX u 10 _ ltac:(lia) H)|]. split; [discriminate|]. assert (0 <= d < 16) by (inversion H; lia). destruct (digit_char_plain u d H0) as (_ & X1 & X2 & _). cbn [map hd]. auto.
  - split; [constructor; [lia|apply (TX u 8 _ ltac:(lia) H)]|]. cbn [hd]. split; [discriminate|lia].
  - assert (b <= 16 /\ p <> 0) by (cbn [In] in I; repeat (destruct I as [E|I]; [injection E as <- <-; lia|]); contradiction).
    split; [constructor; [lia|constructor; [lia|apply (TX u b _ ltac:(lia) H)]]|]. cbn [hd]. split; [discriminate|lia].
Qed.
Definition toi_body (s1 : list Z) : Z :=
  if hd 0 s1 =? 48 then
    let s2 := tl s1 in
    let x := hd 0 s2 in
    if (x =? 98) || (x =? 66) then strtol 2 (tl s2)
    else if (x =? 111) || (x =? 79) then strtol 8 (tl s2)
    else if (x =? 100) || (x =? 68) then strtol 10 (tl s2)
    else if (x =? 120) || (x =? 88) then strtol 16 (tl s2)
    else strtol 8 s2
  else strtol 10 s1.
Lemma toi_body_ok t v : numeral t v -> 0 <= v < 2 ^ 63 -> toi_body t = v.
Proof.
  intros H V. unfold toi_body. destruct H as [u d ds H D|u ds H|u p b ds I H].
  - assert (0 <= d < 10) by (inversion H; lia). cbn [map hd]. replace (digit_char u d =? 48) with false by (unfold digit_char; destruct (d <? 10) eqn:E; lia).
    change (digit_char u d :: map (digit_char u) ds) with (map (digit_char u) (d :: ds)). apply strtol_ok; [lia|exact H|exact V].
  - cbn [hd tl]. rewrite Z.eqb_refl. cbv zeta. destruct ds as [|d ds]; [reflexivity|].
    assert (0 <= d < 8) by (inversion H; lia). cbn [map hd]. assert (DC : 48 <= digit_char u d <= 55) by (unfold digit_char; destruct (d <? 10) eqn:E; lia).
    set (x := digit_char u d) in *. replace ((x =? 98) || (x =? 66)) with false by lia. replace ((x =? 111) || (x =? 79)) with false by lia.
    replace ((x =? 100) || (x =? 68)) with false by lia. replace ((x =? 120) || (x =? 88)) with false by lia. subst x.
    change (digit_char u d :: map (digit_char u) ds) with (map (digit_char u) (d :: ds)). apply strtol_ok; [lia|exact H|exact V].
  - cbn [hd tl]. rewrite Z.eqb_refl. cbv zeta. cbn [In] in I.
    repeat (destruct I as [E|I]; [injection E as <- <-; cbn [Z.eqb Pos.eqb orb]; apply strtol_ok; [lia|exact H|exact V]|]). contradiction.
Qed.
Lemma toi_sign c sg t v : rep c (mkS (Some (sg ++ t)) (cown c)) -> numeral t v -> 0 <= v < 2 ^ 63 -> In sg [[]; [43]; [45]] ->
  toi c = Ok (match sg with [45] => - v | _ => v end).
Proof.
  intros R N V I. unfold toi. rewrite (rep_empty _ _ R), (rep_val _ _ R). cbn [chars_of sval rbind].
  destruct (numeral_text t v N) as (_ & NE & H1 & H2). destruct t as [|t0 t]; [contradiction|]. cbn [hd] in H1, H2.
  pose proof (toi_body_ok _ _ N V) as TB. cbn [In] in I. destruct I as [<- | [<- | [<- | []]]]; cbn [app hd tl].
  - replace ((t0 =? 43) || (t0 =? 45)) with false by lia. replace (t0 =? 45) with false by lia. fold (toi_body (t0 :: t)). rewrite TB. cbn [andb Z.eqb]. f_equal; lia.
  - cbn [Z.eqb Pos.eqb orb]. fold (toi_body (t0 :: t)). rewrite TB. cbn [andb Z.eqb]. f_equal; lia.
  - cbn [Z.eqb Pos.eqb orb]. fold (toi_body (t0 :: t)). rewrite TB. replace (v =? - 2 ^ 63) with false by lia. rewrite andb_false_r. f_equal; lia.
Qed.

(* -------------------------------------------------------------- replacing *)
Lemma mcopy_short s : forall b i, 0 <= i -> Z.of_nat (length b) < i + Z.of_nat (length s) -> i <= Z.of_nat (length b) -> mcopy b i s = UB.
Proof.
  induction s as [|c s IH]; intros b i I L M; [cbn in L; lia|]. cbn [mcopy]. unfold mwr. destruct ((0 <=? i) && (i <? Z.of_nat (length b))) eqn:E; [|reflexivity].
  cbn [rbind]. assert (LU : forall (l : list Z) n x, length (upd l n x) = length l) by (clear; induction l as [|a l IH]; intros [|n] x; cbn [upd length]; try reflexivity; rewrite IH; reflexivity).
  apply IH; rewrite ?LU; cbn [length] in *; lia.
Qed.
Lemma replace_ok g1 g2 c what wth o ow ot : rep c o -> rep what ow -> rep wth ot ->
  let s := chars_of o in let x := chars_of ow in let w := chars_of ot in
  (x = [] \/ (forall n, ~ occurs s x n) -> replace g1 g2 c what wth = Ok c) /\
  (forall a b, x <> [] -> s = a ++ x ++ b -> first_occ s x (length a) ->
     ((length w < length x)%nat -> replace g1 g2 c what wth = UB) /\
     ((length x <= length w)%nat -> exists c', replace g1 g2 c what wth = Ok c' /\ rep c' (mine (a ++ w ++ b)))).
Proof.
  intros R Rx Rw. cbv zeta. unfold replace, pos. rewrite (rep_empty _ _ R), (rep_empty _ _ Rx), (rep_val _ _ R), (rep_val _ _ Rx). split.
  - intros H. destruct (chars_of o) as [|s0 s] eqn:Es; [reflexivity|]. destruct (chars_of ow) as [|x0 x] eqn:Ex; [reflexivity|]. destruct H as [H|H]; [discriminate|]. cbn [orb rbind].
    unfold chars_of in Es, Ex. destruct (sval o); [|discriminate]. destruct (sval ow); [|discriminate]. subst. apply strstr_none in H. rewrite H. reflexivity.
  - intros a b Nx Es F. pose proof (rep_len _ _ R) as Lc. pose proof (rep_len _ _ Rx) as Lx. pose proof (rep_len _ _ Rw) as Lw. pose proof (rep_text _ _ Rw) as Tw.
    destruct (chars_of ow) as [|x0 x'] eqn:Ex; [contradiction|]. set (x := x0 :: x') in *.
    destruct (chars_of o) as [|s0 s'] eqn:Eo; [destruct a; discriminate|]. cbn [orb rbind].
    unfold chars_of in Eo, Ex. pose proof R as [_ R']. destruct (sval o) as [s|] eqn:So; [|discriminate]. destruct (sval ow) as [xx|] eqn:Sx; [|discriminate]. subst s xx.
    set (s := s0 :: s') in *. destruct R' as (T & _ & t & B). cbn [rbind]. fold x. apply strstr_some in F. rewrite F. cbn [rbind].
    replace (Z.of_nat (length a) <? 0) with false by lia. rewrite B. fold s. rewrite (str_ok s t T). cbn [rbind]. rewrite Lc, Lx, Lw.
    set (w := chars_of ot) in *. assert (Ls : length s = (length a + (length x + length b))%nat) by (rewrite Es, !app_length; reflexivity). split; intros H.
    + assert (N0 : Z.of_nat (length s) - Z.of_nat (length x) + Z.of_nat (length w) + 1 = Z.of_nat (length s) + 1 - (Z.of_nat (length x) - Z.of_nat (length w))) by lia.
      destruct (malloc_ok g1 (Z.of_nat (length s) - Z.of_nat (length x) + Z.of_nat (length w) + 1)) as (bb & E & Lb); [lia|]. rewrite E. cbn [rbind].
      unfold strcpy. rewrite mcopy_short by (rewrite ?app_length; cbn [length]; lia). reflexivity.
    + destruct (malloc_ok g1 (Z.of_nat (length s) - Z.of_nat (length x) + Z.of_nat (length w) + 1)) as (bb & E & Lb); [lia|]. rewrite E. cbn [rbind].
      destruct (strcpy_ok bb s) as (tt & E2 & L2); [lia|]. rewrite E2. cbn [rbind].
      assert (Ta : text a /\ text b).
      { unfold text in *. rewrite Es in T. rewrite !Forall_app in T. tauto. }
      destruct Ta as [Ta Tb].
      assert (EW : mwr (s ++ 0 :: tt) (Z.of_nat (length a)) 0 = Ok (a ++ 0 :: x' ++ b ++ 0 :: tt)).
      { rewrite Es. rewrite <- !app_assoc. unfold x. cbn [app]. apply mwr_ok. reflexivity. }
      rewrite EW. cbn [rbind]. rewrite (rep_val _ _ Rw). cbn [rbind].
      assert (Sw : sval ot = Some w) by (unfold w, chars_of in *; destruct (sval ot); [reflexivity|cbn in H; lia]).
      rewrite Sw. destruct (strcat_ok a (x' ++ b ++ 0 :: tt) w Ta) as (t3 & E3 & L3); [rewrite !app_length in *; unfold x in *; cbn [length] in *; lia|]. rewrite E3. cbn [rbind].
      replace (Z.of_nat (length a) + Z.of_nat (length x)) with (Z.of_nat (length (a ++ x))) by (rewrite app_length; lia).
      rewrite (str_at_ok s t (length (a ++ x)) T) by (rewrite app_length; lia).
      assert (Eb : skipn (length (a ++ x)) s = b) by (rewrite Es, app_assoc, skipn_app, skipn_all, Nat.sub_diag; reflexivity). rewrite Eb. cbn [rbind].
      assert (Taw : text (a ++ w)) by (apply text_app; assumption).
      rewrite app_assoc. destruct (strcat_ok (a ++ w) t3 b Taw) as (t4 & E4 & L4); [rewrite !app_length in *; cbn [length] in *; unfold x in *; cbn [length] in *; lia|]. rewrite E4. cbn [rbind].
      rewrite app_assoc. rewrite str_ok by (apply text_app; assumption). cbn [rbind].
      destruct (allocate_ok g2 ((a ++ w) ++ b)) as (c' & E5 & R5 & _); [apply text_app; assumption|]. exists c'. split; [exact E5|]. rewrite <- app_assoc in R5. exact R5.
Qed.

(* ------------------------------------------------------------------ rtrim *)
Lemma rtrim_ok c o s : rep c o -> sval o = Some s -> cown c = true \/ rdrop blank s = s ->
  exists c', rtrim c = Ok c' /\ cval c' = Ok (Some (rdrop blank s)) /\ clen c' = Z.of_nat (length s).
Proof.
  intros R S OK. unfold rtrim. rewrite (rep_empty _ _ R). pose proof R as [O R']. unfold chars_of. rewrite S in *. destruct R' as (T & L & t & B).
  destruct s as [|x s]; [exists c; split; [reflexivity|]; split; [rewrite (rep_val _ _ R), S; reflexivity|exact L]|]. set (v := x :: s) in *.
  rewrite B, L, Nat2Z.id. destruct (rstrip_ok isspace c (length v) v (0 :: t) (Nat.le_refl _)) as (z & E & Lz); [tauto|auto|].
  rewrite Nat.sub_diag in *. cbn [firstn skipn app] in *. rewrite E. cbn [rbind fst snd]. eexists. split; [reflexivity|]. split; [|reflexivity].
  unfold cval. cbn [cblk]. destruct (zeros z t) as (t' & ->). rewrite str_ok by (apply text_rdrop; exact T). reflexivity.
Qed.
Lemma rtrim_const c o s : rep c o -> sval o = Some s -> cown c = false -> rdrop blank s <> s -> rtrim c = UB.
Proof.
  intros R S Ow NE. unfold rtrim. rewrite (rep_empty _ _ R). pose proof R as [O R']. unfold chars_of. rewrite S in *. destruct R' as (T & L & t & B).
  destruct s as [|x s] using rev_ind; [contradiction|]. destruct (s ++ [x]) eqn:E; [destruct s; discriminate|]. rewrite <- E in *. rewrite B, L, Nat2Z.id.
  rewrite app_length. cbn [length]. rewrite Nat.add_1_r. cbn [rstrip_loop]. rewrite <- app_assoc. cbn [app]. rewrite (mrd_ok s x _) by lia. cbn [rbind].
  rewrite rdrop_snoc in NE. change (isspace x) with (blank x). destruct (blank x); [|contradiction]. unfold own_wr. rewrite Ow. reflexivity.
Qed.
