From Verif Require Import Base FioModel ChrModel CmdModel CmdSpec CmdProofs CmdProofs2 CmdProofs3 CmdProofs4.

(** ** Escapes *)
Definition bytes (bs : list Z) : Prop := Forall (fun b => -128 <= b < 128) bs.
Lemma quote1_hd b : is_digit (hd 0 (quote1 b)) = false.
Proof.
  unfold quote1. destruct (b =? 0) eqn:E0; [reflexivity|]. destruct (b =? 48) eqn:E48; [reflexivity|].
  destruct ((b =? 34) || (b =? 92) || (b =? 36) || (49 <=? b) && (b <=? 57)) eqn:E; [reflexivity|].
  cbn [hd]. unfold is_digit. lia.
Qed.
Lemma quote_hd bs : is_digit (hd 0 (quote bs)) = false.
Proof.
  destruct bs as [|b bs]; [reflexivity|]. cbn [quote flat_map].
  pose proof (quote1_hd b) as H. destruct (quote1 b) eqn:E; [|exact H].
  exfalso. unfold quote1 in E. destruct (b =? 0), (b =? 48); try discriminate.
  destruct ((b =? 34) || (b =? 92) || (b =? 36) || (49 <=? b) && (b <=? 57)); discriminate.
Qed.
Lemma oct_stop s : is_digit (hd 0 s) = false -> strspn s oct = O.
Proof.
  destruct s as [|c t]; [reflexivity|]. cbn [hd strspn]. intros H.
  destruct (memc oct c) eqn:E; [|reflexivity]. apply memc_In in E. unfold oct in E. cbn [In] in E.
  unfold is_digit in H. lia.
Qed.
Lemma escape_cons k b s : (length (quote1 b ++ s) <= k)%nat -> -128 <= b < 128 -> is_digit (hd 0 s) = false ->
  exists k', proc_escape k (quote1 b ++ s) = b :: proc_escape k' s /\ (length s <= k')%nat.
Proof.
  intros Hk Hb Hs. unfold quote1 in *. destruct (b =? 0) eqn:E0.
  - assert (b = 0) by lia. subst b. destruct k as [|k]; [cbn in Hk; lia|]. cbn [app length] in *.
    exists k. split; [|lia]. cbn [proc_escape Z.eqb Pos.eqb is_digit hd].
    change (is_digit 48) with true. cbv iota.
    assert (Ei : strspn (48 :: 48 :: 48 :: s) oct = 3%nat).
    { cbn [strspn]. change (memc oct 48) with true. cbv iota. rewrite (oct_stop s Hs). reflexivity. }
    rewrite Ei. reflexivity.
  - destruct (b =? 48) eqn:E48.
    + assert (b = 48) by lia. subst b. destruct k as [|k]; [cbn in Hk; lia|]. cbn [app length] in *.
      exists k. split; [|lia]. cbn [proc_escape Z.eqb Pos.eqb hd].
      change (is_digit 54) with true. cbv iota.
      assert (Ei : strspn (48 :: 54 :: 48 :: s) oct = 3%nat).
      { cbn [strspn]. change (memc oct 48) with true. change (memc oct 54) with true. cbv iota. rewrite (oct_stop s Hs). reflexivity. }
      rewrite Ei. reflexivity.
    + destruct ((b =? 34) || (b =? 92) || (b =? 36) || (49 <=? b) && (b <=? 57)) eqn:E.
      * destruct k as [|k]; [cbn in Hk; lia|]. cbn [app length] in *. exists k. split; [|lia].
        cbn [proc_escape Z.eqb Pos.eqb]. rewrite E48.
        assert (Sp : spec_char b = Some b \/ spec_char b = None).
        { destruct (b =? 34) eqn:E34; [left; assert (b = 34) by lia; subst; reflexivity|right].
          unfold spec_char. rewrite E34.
          replace (b =? 102) with false by lia. replace (b =? 110) with false by lia.
          replace (b =? 114) with false by lia. replace (b =? 116) with false by lia.
          replace (b =? 118) with false by lia. replace (b =? 97) with false by lia.
          replace (b =? 98) with false by lia. reflexivity. }
        destruct Sp as [Sp|Sp]; rewrite Sp; reflexivity.
      * destruct k as [|k]; [cbn in Hk; lia|]. cbn [app length] in *. exists k. split; [|lia].
        cbn [proc_escape]. replace (b =? 92) with false by lia.
        destruct s as [|d u]; [destruct k; reflexivity|reflexivity].
Qed.
Lemma escape_quote bs : bytes bs -> forall k, (length (quote bs) <= k)%nat -> proc_escape k (quote bs) = bs.
Proof.
  induction 1 as [|b bs Hb H IH]; intros k Hk.
  - destruct k; reflexivity.
  - cbn [quote flat_map] in *. fold (quote bs) in *.
    destruct (escape_cons k b (quote bs) Hk Hb (quote_hd bs)) as [k' [E Hk']].
    rewrite E, IH by exact Hk'. reflexivity.
Qed.
Lemma unescape_quote bs : bytes bs -> unescape (quote bs) = bs.
Proof. intros H. apply escape_quote; [exact H|lia]. Qed.
Lemma text_app a b : text a -> text b -> text (a ++ b).
Proof. induction 1; intros Hb; cbn [app]; [exact Hb|apply text_char; auto|apply text_esc; auto]. Qed.
Lemma text_quote bs : text (quote bs).
Proof.
  induction bs as [|b bs IH]; [constructor|]. cbn [quote flat_map]. apply text_app; [|exact IH].
  unfold quote1. destruct (b =? 0) eqn:E0.
  { apply text_esc; [lia|]. repeat (apply text_char; [lia|lia|lia|lia|]). constructor. }
  destruct (b =? 48) eqn:E48.
  { apply text_esc; [lia|]. repeat (apply text_char; [lia|lia|lia|lia|]). constructor. }
  destruct ((b =? 34) || (b =? 92) || (b =? 36) || (49 <=? b) && (b <=? 57)) eqn:E.
  - apply text_esc; [lia|constructor].
  - apply text_char; [lia|lia|lia|lia|constructor].
Qed.
Lemma unescape_plain s : ~ In 92 s -> unescape s = s.
Proof.
  intros H. unfold unescape.
  enough (G : forall s k, ~ In 92 s -> (length s <= k)%nat -> proc_escape k s = s) by (apply G; [exact H|lia]).
  clear. induction s as [|c t IH]; intros k H Hk; [destruct k; reflexivity|].
  destruct k as [|k]; [cbn in Hk; lia|]. cbn [length In] in *. cbn [proc_escape].
  replace (c =? 92) with false by lia. destruct t as [|d u]; [reflexivity|].
  rewrite IH; [reflexivity|tauto|lia].
Qed.

(** ** What a string stands for *)
Lemma oct_span ds s : Forall (fun x => 0 <= x <= 7) ds -> ~ (48 <= hd 0 s <= 55) ->
  strspn (map (Z.add 48) ds ++ s) oct = length ds.
Proof.
  intros H N. induction H as [|d ds Hd H IH]; cbn [map app length].
  - destruct s as [|c t]; [reflexivity|]. cbn [strspn hd] in *. destruct (memc oct c) eqn:E; [|reflexivity].
    apply memc_In in E. unfold oct in E. cbn [In] in E. lia.
  - cbn [strspn]. assert (M : memc oct (48 + d) = true).
    { apply memc_In. unfold oct. cbn [In]. lia. }
    rewrite M, IH. reflexivity.
Qed.
Lemma schar_eq v w : -128 <= v < 128 -> (v - w) mod 256 = 0 -> schar w = v.
Proof.
  intros Hv E. unfold schar, i8, u8. pose proof (Z.div_mod (v - w) 256 ltac:(lia)) as D. rewrite E in D.
  assert (W : w mod 256 = v mod 256).
  { replace v with (w + (v - w) / 256 * 256) by lia. symmetry. apply Z.mod_add. lia. }
  rewrite W. destruct (Z_lt_le_dec v 0) as [Hn|Hp].
  - replace (v mod 256) with (v + 256).
    + destruct (v + 256 <? 128) eqn:X; lia.
    + apply Z.mod_unique with (q := -1); lia.
  - rewrite (Z.mod_small v) by lia. destruct (v <? 128) eqn:X; lia.
Qed.
Lemma named_spec d b : In (d, b) named_escapes -> spec_char d = Some b /\ d <> 48.
Proof.
  unfold named_escapes. cbn [In]. intros [E|[E|[E|[E|[E|[E|[E|[]]]]]]]]; injection E as <- <-; (split; [reflexivity|lia]).
Qed.
Lemma not_named d : (forall b, ~ In (d, b) named_escapes) -> spec_char d = Some d \/ spec_char d = None.
Proof.
  intros N. unfold named_escapes in N. cbn [In] in N. unfold spec_char.
  destruct (d =? 102) eqn:E1; [exfalso; apply (N 12); assert (d = 102) by lia; subst; tauto|].
  destruct (d =? 110) eqn:E2; [exfalso; apply (N 10); assert (d = 110) by lia; subst; tauto|].
  destruct (d =? 114) eqn:E3; [exfalso; apply (N 13); assert (d = 114) by lia; subst; tauto|].
  destruct (d =? 116) eqn:E4; [exfalso; apply (N 9); assert (d = 116) by lia; subst; tauto|].
  destruct (d =? 118) eqn:E5; [exfalso; apply (N 11); assert (d = 118) by lia; subst; tauto|].
  destruct (d =? 97) eqn:E6; [exfalso; apply (N 7); assert (d = 97) by lia; subst; tauto|].
  destruct (d =? 98) eqn:E7; [exfalso; apply (N 8); assert (d = 98) by lia; subst; tauto|].
  destruct (d =? 34) eqn:E8; [left; f_equal; lia|right; reflexivity].
Qed.
Lemma escape_stands s bs : stands s bs -> forall k, (length s <= k)%nat -> proc_escape k s = bs.
Proof.
  induction 1 as [|c s bs Hc H IH| |d b s bs Hd H IH|d s bs Hd Hd0 H IH|ds v s bs Hds Hs Hl Hv Ev H IH]; intros k Hk.
  - destruct k; reflexivity.
  - destruct k as [|k]; [cbn in Hk; lia|]. cbn [length] in Hk. cbn [proc_escape]. replace (c =? 92) with false by lia.
    specialize (IH k ltac:(lia)). destruct s as [|d u]; [|rewrite IH; reflexivity].
    rewrite <- IH. destruct k; reflexivity.
  - destruct k as [|k]; [cbn in Hk; lia|]. reflexivity.
  - destruct (named_spec d b Hd) as [Sp Nd]. destruct k as [|k]; [cbn in Hk; lia|]. cbn [length] in Hk.
    cbn [proc_escape Z.eqb Pos.eqb]. replace (d =? 48) with false by lia. rewrite Sp, IH by lia. reflexivity.
  - destruct k as [|k]; [cbn in Hk; lia|]. cbn [length] in Hk.
    cbn [proc_escape Z.eqb Pos.eqb]. replace (d =? 48) with false by lia.
    destruct (not_named d Hd) as [Sp | Sp]; rewrite Sp, IH by lia; reflexivity.
  - destruct k as [|k]; [cbn in Hk; lia|]. cbn [length] in Hk. rewrite app_length in Hk.
    cbn [proc_escape Z.eqb Pos.eqb].
    destruct (is_digit (hd 0 (map (Z.add 48) ds ++ s))) eqn:Dg.
    + assert (Hz : Forall (fun x => 0 <= x <= 7) (0 :: ds)) by (constructor; [lia|exact Hds]).
      pose proof (oct_span (0 :: ds) s Hz Hs) as Sp. cbn [map app length] in Sp. change (48 + 0) with 48 in Sp.
      rewrite Sp. cbn [firstn skipn].
      assert (Ef : firstn (length ds) (map (Z.add 48) ds ++ s) = map (Z.add 48) ds).
      { rewrite firstn_app, map_length, Nat.sub_diag, firstn_O, app_nil_r.
        rewrite <- (map_length (Z.add 48) ds) at 1. apply firstn_all. }
      assert (Es : skipn (length ds) (map (Z.add 48) ds ++ s) = s).
      { rewrite skipn_app, map_length, Nat.sub_diag. rewrite <- (map_length (Z.add 48) ds) at 1. rewrite skipn_all. reflexivity. }
      rewrite Ef, Es, IH by lia. f_equal.
      assert (Ed : digits 8 0 (48 :: map (Z.add 48) ds) = value 8 ds).
      { cbn [digits]. change (digit_of 48) with 0. cbn [Z.ltb Z.compare]. change (0 * 8 + 0) with 0.
        unfold value. apply digits_fold. apply Forall2_map_dig; [lia|exact Hds]. }
      rewrite Ed, Z.min_r by lia. apply schar_eq; assumption.
    + destruct ds as [|d ds].
      * cbn [map app] in *. rewrite IH by lia. f_equal. unfold value in Ev. cbn [fold_left] in Ev.
        pose proof (Z.div_mod (v - 0) 256 ltac:(lia)) as D. rewrite Ev in D. lia.
      * exfalso. cbn [map app hd] in Dg. apply Forall_inv in Hds. unfold is_digit in Dg. lia.
Qed.
Lemma unescape_stands s bs : stands s bs -> unescape s = bs.
Proof. intros H. apply (escape_stands s bs H). lia. Qed.

(** ** Data lists *)
Lemma data_app ps qs a b : data_list ps = Ok a -> data_list qs = Ok b -> data_list (ps ++ qs) = Ok (a ++ b).
Proof.
  revert a. induction ps as [|p ps IH]; intros a Ea Eb.
  - cbn in Ea. assert (a = []) by congruence. subst. exact Eb.
  - destruct p as [x|s|x i|bb lo hi]; cbn [data_list app] in *.
    + destruct (as_data (P x)) as [d| |]; cbn [rbind] in *; try discriminate.
      destruct (data_list ps) as [r| |]; cbn [rbind] in *; try discriminate.
      rewrite (IH r eq_refl Eb). cbn [rbind]. assert (a = d :: r) by congruence. subst. reflexivity.
    + destruct (data_list ps) as [r| |]; cbn [rbind] in *; try discriminate.
      rewrite (IH r eq_refl Eb). cbn [rbind]. assert (a = map u32 (unescape s) ++ r) by congruence. subst.
      rewrite <- app_assoc. reflexivity.
    + cbn [as_data rbind] in *. destruct (data_list ps) as [r| |]; cbn [rbind] in *; try discriminate.
      rewrite (IH r eq_refl Eb). cbn [rbind]. assert (a = 0 :: r) by congruence. subst. reflexivity.
    + cbn [as_data rbind] in *. destruct (data_list ps) as [r| |]; cbn [rbind] in *; try discriminate.
      rewrite (IH r eq_refl Eb). cbn [rbind]. assert (a = 0 :: r) by congruence. subst. reflexivity.
Qed.
(** one datum: a number, or a string of bytes *)
Lemma data_items l : Forall (fun x => match x with inl n => True | inr bs => bytes bs end) l ->
  data_list (map (fun x => match x with inl n => P (PInt n) | inr bs => PStr (quote bs) end) l) =
    Ok (flat_map (fun x => match x with inl n => [n mod 2 ^ 32] | inr bs => map (fun b => b mod 2 ^ 32) bs end) l).
Proof.
  induction 1 as [|x l Hx H IH]; [reflexivity|]. destruct x as [n|bs]; cbn [map data_list flat_map].
  - cbn [as_data rbind]. rewrite IH. reflexivity.
  - rewrite IH. cbn [rbind]. rewrite unescape_quote by exact Hx. reflexivity.
Qed.
Lemma data_symbol ps qs a s : data_list ps = Ok a -> data_list (ps ++ P (PSym s) :: qs) = UB.
Proof.
  revert a. induction ps as [|p ps IH]; intros a Ea; [reflexivity|].
  destruct p as [x|s0|x i|bb lo hi]; cbn [data_list app] in *.
  - destruct (as_data (P x)) as [d| |]; cbn [rbind] in *; try discriminate.
    destruct (data_list ps) as [r| |]; cbn [rbind] in *; try discriminate. rewrite (IH r eq_refl). reflexivity.
  - destruct (data_list ps) as [r| |]; cbn [rbind] in *; try discriminate. rewrite (IH r eq_refl). reflexivity.
  - cbn [as_data rbind] in *. destruct (data_list ps) as [r| |]; cbn [rbind] in *; try discriminate. rewrite (IH r eq_refl). reflexivity.
  - cbn [as_data rbind] in *. destruct (data_list ps) as [r| |]; cbn [rbind] in *; try discriminate. rewrite (IH r eq_refl). reflexivity.
Qed.

(** ** Syntax *)
Lemma accepts_cases uc c p X : ~ bad_data c p -> c <> 68 ->
  (accepts uc c p /\ forall syn ps, syntax_loop uc (c :: syn) (p :: ps) = syntax_loop uc syn ps) \/
  (~ accepts uc c p /\ forall syn ps, syntax_loop uc (c :: syn) (p :: ps) = Ok false) \/ X.
Proof.
  intros Hb Hd. unfold accepts.
  destruct (Z.eq_dec c 97) as [->|N1].
  { destruct uc as [u|]; [destruct (k_addr u p) eqn:E|].
    - left. split; [split; [split; [intros _; reflexivity|split; [lia|split; [lia|split; lia]]]|split; lia]|].
      intros. cbn [syntax_loop Z.eqb Pos.eqb]. rewrite E. reflexivity.
    - right. left. split; [intros [[H _] _]; specialize (H eq_refl); congruence|].
      intros. cbn [syntax_loop Z.eqb Pos.eqb]. rewrite E. reflexivity.
    - left. split; [split; [exact I|split; lia]|]. reflexivity. }
  destruct (Z.eq_dec c 109) as [->|N2].
  { destruct uc as [u|]; [destruct (k_mem u p) eqn:E|].
    - left. split; [split; [split; [lia|split; [intros _; reflexivity|split; [lia|split; lia]]]|split; lia]|].
      intros. cbn [syntax_loop Z.eqb Pos.eqb]. rewrite E. reflexivity.
    - right. left. split; [intros [[_ [H _]] _]; specialize (H eq_refl); congruence|].
      intros. cbn [syntax_loop Z.eqb Pos.eqb]. rewrite E. reflexivity.
    - left. split; [split; [exact I|split; lia]|]. reflexivity. }
  destruct (Z.eq_dec c 98) as [->|N3].
  { destruct uc as [u|]; [destruct (k_bit u p) eqn:E|].
    - left. split; [split; [split; [lia|split; [lia|split; [intros _; reflexivity|split; lia]]]|split; lia]|].
      intros. cbn [syntax_loop Z.eqb Pos.eqb]. rewrite E. reflexivity.
    - right. left. split; [intros [[_ [_ [H _]]] _]; specialize (H eq_refl); congruence|].
      intros. cbn [syntax_loop Z.eqb Pos.eqb]. rewrite E. reflexivity.
    - left. split; [split; [exact I|split; lia]|]. reflexivity. }
  destruct (Z.eq_dec c 104) as [->|N4].
  { destruct uc as [u|]; [destruct (k_hw u p) eqn:E|].
    - left. split; [split; [split; [lia|split; [lia|split; [lia|split; [intros _; reflexivity|lia]]]]|split; lia]|].
      intros. cbn [syntax_loop Z.eqb Pos.eqb]. rewrite E. reflexivity.
    - right. left. split; [intros [[_ [_ [_ [H _]]]] _]; specialize (H eq_refl); congruence|].
      intros. cbn [syntax_loop Z.eqb Pos.eqb]. rewrite E. reflexivity.
    - left. split; [split; [exact I|split; lia]|]. reflexivity. }
  destruct (Z.eq_dec c 99) as [->|N5].
  { destruct uc as [u|]; [destruct (k_cell u p) eqn:E|].
    - left. split; [split; [split; [lia|split; [lia|split; [lia|split; [lia|intros _; reflexivity]]]]|split; lia]|].
      intros. cbn [syntax_loop Z.eqb Pos.eqb]. rewrite E. reflexivity.
    - right. left. split; [intros [[_ [_ [_ [_ H]]]] _]; specialize (H eq_refl); congruence|].
      intros. cbn [syntax_loop Z.eqb Pos.eqb]. rewrite E. reflexivity.
    - left. split; [split; [exact I|split; lia]|]. reflexivity. }
  assert (U : match uc with
    | Some u => (c = 97 -> k_addr u p = true) /\ (c = 109 -> k_mem u p = true) /\ (c = 98 -> k_bit u p = true) /\
      (c = 104 -> k_hw u p = true) /\ (c = 99 -> k_cell u p = true)
    | None => True end).
  { destruct uc; [split; [|split; [|split; [|split]]]; intros; lia|exact I]. }
  destruct (Z.eq_dec c 110) as [->|N6].
  { destruct (as_number p) eqn:E.
    - left. split; [split; [exact U|split; [intros _; destruct p as [[n|s]|s|x i|bb lo hi]; cbn in E; auto; discriminate|lia]]|].
      intros. cbn [syntax_loop Z.eqb Pos.eqb]. rewrite E. reflexivity.
    - right. left. split.
      + intros [_ [H _]]. specialize (H eq_refl). destruct p as [[n|s]|s|x i|bb lo hi]; cbn in E; auto; discriminate.
      + intros. cbn [syntax_loop Z.eqb Pos.eqb]. rewrite E. reflexivity. }
  destruct (Z.eq_dec c 115) as [->|N7].
  { destruct (as_string p) eqn:E.
    - left. split; [split; [exact U|split; [lia|intros _; destruct p; cbn in E; auto; discriminate]]|].
      intros. cbn [syntax_loop Z.eqb Pos.eqb]. rewrite E. reflexivity.
    - right. left. split.
      + intros [_ [_ H]]. specialize (H eq_refl). destruct p; cbn in E; auto; discriminate.
      + intros. cbn [syntax_loop Z.eqb Pos.eqb]. rewrite E. reflexivity. }
  left. split; [split; [exact U|split; lia]|].
  intros. cbn [syntax_loop].
  replace (c =? 97) with false by lia. replace (c =? 109) with false by lia. replace (c =? 98) with false by lia.
  replace (c =? 104) with false by lia. replace (c =? 99) with false by lia. replace (c =? 110) with false by lia.
  destruct (Z.eq_dec c 100) as [->|N8].
  { cbn [Z.eqb Pos.eqb]. assert (E : exists d, as_data p = Ok d).
    { destruct p as [[n|s]|s|x i|bb lo hi]; cbn [as_data]; eauto; exfalso; apply Hb; split; auto. }
    destruct E as [d E]. rewrite E. reflexivity. }
  replace (c =? 100) with false by lia. replace (c =? 115) with false by lia. replace (c =? 68) with false by lia.
  reflexivity.
Qed.
Lemma Forall2_len {A B} (R : A -> B -> Prop) l m : Forall2 R l m -> length l = length m.
Proof. induction 1; cbn; congruence. Qed.
Lemma syntax_exact uc syn : forall ps, ~ In 68 syn ->
  (forall c p, In c syn -> In p ps -> ~ bad_data c p) ->
  exists b, syntax_loop uc syn ps = Ok b /\ (b = true <-> Forall2 (accepts uc) syn ps).
Proof.
  induction syn as [|c syn IH]; intros ps Hd Hb.
  - destruct ps; cbn; eexists; (split; [reflexivity|]); split; try congruence; [constructor|intros H; inversion H].
  - destruct ps as [|p ps].
    + exists false. split; [reflexivity|]. split; [congruence|intros H; inversion H].
    + cbn [In] in Hd.
      destruct (accepts_cases uc c p False (Hb c p (or_introl eq_refl) (or_introl eq_refl)) ltac:(tauto))
        as [[A E]|[[A E]|[]]].
      * rewrite E. destruct (IH ps) as [b [E1 E2]]; [tauto|intros; apply Hb; right; assumption|].
        exists b. split; [exact E1|]. rewrite E2. split; [intros H; constructor; assumption|intros H; inversion H; assumption].
      * rewrite E. exists false. split; [reflexivity|]. split; [congruence|].
        intros H. inversion H. tauto.
Qed.
Lemma syntax_list uc syn : forall ps, ~ In 68 syn ->
  (forall c p, In c syn -> In p ps -> ~ bad_data c p) ->
  (forall p, In p ps -> match p with P (PSym _) => False | _ => True end) ->
  exists b, syntax_loop uc (syn ++ [68]) ps = Ok b /\
    (b = true <-> exists p1 p2, ps = p1 ++ p2 /\ p2 <> [] /\ Forall2 (accepts uc) syn p1).
Proof.
  induction syn as [|c syn IH]; intros ps Hd Hb Hs.
  - destruct ps as [|p ps].
    + exists false. split; [reflexivity|]. split; [congruence|].
      intros [p1 [p2 [E [N _]]]]. destruct p1; [cbn in E; congruence|discriminate].
    + exists true. split.
      * cbn [app syntax_loop Z.eqb Pos.eqb].
        assert (D : exists a, data_list (p :: ps) = Ok a).
        { clear - Hs. revert Hs. generalize (p :: ps). induction l as [|q l IH]; intros H; [eexists; reflexivity|].
          destruct IH as [a Ea]; [intros; apply H; right; assumption|].
          specialize (H q (or_introl eq_refl)). destruct q as [[n|s]|s|x i|bb lo hi]; [|destruct H| | |];
            cbn [data_list as_data rbind]; rewrite Ea; eexists; reflexivity. }
        destruct D as [a Ea]. rewrite Ea. reflexivity.
      * split; [|reflexivity]. intros _. exists [], (p :: ps). split; [reflexivity|]. split; [discriminate|constructor].
  - destruct ps as [|p ps].
    + exists false. split; [reflexivity|]. split; [congruence|].
      intros [p1 [p2 [E [N H]]]]. destruct p1; [inversion H|discriminate].
    + cbn [In] in Hd. cbn [app].
      destruct (accepts_cases uc c p False (Hb c p (or_introl eq_refl) (or_introl eq_refl)) ltac:(tauto))
        as [[A E]|[[A E]|[]]].
      * rewrite E. destruct (IH ps) as [b [E1 E2]]; [tauto|intros; apply Hb; right; assumption|intros; apply Hs; right; assumption|].
        exists b. split; [exact E1|]. rewrite E2. split.
        -- intros [p1 [p2 [-> [N H]]]]. exists (p :: p1), p2. split; [reflexivity|]. split; [exact N|constructor; assumption].
        -- intros [p1 [p2 [Eq [N H]]]]. inversion H as [|? q ? p1' H1 H2]; subst. cbn [app] in Eq.
           exists p1', p2. split; [congruence|]. auto.
      * rewrite E. exists false. split; [reflexivity|]. split; [congruence|].
        intros [p1 [p2 [Eq [N H]]]]. inversion H as [|? q ? p1' H1 H2]; subst. cbn [app] in Eq.
        assert (q = p) by congruence. subst. tauto.
Qed.

(** ** Over-reads *)
Lemma expand_walk_over s z : ~ In 36 s -> ~ In 92 s -> z = 36 \/ z = 92 ->
  forall i st en lv, expand_walk (s ++ [z]) i st en lv = UB.
Proof.
  intros H1 H2 Hz. induction s as [|c s IH]; intros i st en lv; cbn [app expand_walk].
  - destruct Hz as [-> | ->]; reflexivity.
  - cbn [In] in H1, H2. replace (c =? 92) with false by lia. replace (c =? 36) with false by lia.
    destruct (c =? 41); apply IH; tauto.
Qed.
Lemma expand_over s z : ~ In 36 s -> ~ In 92 s -> z = 36 \/ z = 92 -> expand (s ++ [z]) = UB.
Proof.
  intros H1 H2 Hz. pose proof (expand_walk_over s z H1 H2 Hz 0 (-1) (-1) 0) as E.
  unfold expand. destruct (s ++ [z]) eqn:Es; [destruct s; discriminate|]. rewrite E. reflexivity.
Qed.
(** a command followed by one more item that is outside the grammar *)
Lemma split_then c s0 (T : list Z) r0 X : ok_command c -> sep s0 -> s0 <> [] ->
  clean T -> T <> [] ->
  (forall a, L T a = X) -> X = UB ->
  split (written c ++ s0 ++ T) r0 = UB.
Proof.
  intros [Hl [Hn [Hs [Hb Hsb]]]] H0 H0n HT HTn HX ->.
  destruct (cmdname_parts _ Hn) as [x [t [Ew [Hd [H10 [H35 [H59 Hst]]]]]]].
  unfold split. destruct (written c ++ s0 ++ T) as [|y ys] eqn:E.
  { exfalso. apply (f_equal (@length Z)) in E. unfold written in E. rewrite Ew in E.
    rewrite !app_length in E. cbn [length] in E. lia. }
  rewrite <- E. clear E y ys. rewrite strspn_skip.
  set (rem := c_sep c ++ body (c_items c) ++ s0 ++ T).
  assert (E : written c ++ s0 ++ T = c_lead c ++ c_word c ++ rem).
  { unfold written, rem. rewrite <- !app_assoc. reflexivity. }
  assert (Es : skip_delims (written c ++ s0 ++ T) = c_word c ++ rem).
  { rewrite E, skip_delims_app by exact Hl. rewrite Ew. cbn [app skip_delims]. rewrite Hd. reflexivity. }
  rewrite Es. clear Es. rewrite Ew. cbn [app].
  replace (x =? 10) with false by lia. replace (x =? 35) with false by lia. replace (x =? 59) with false by lia.
  change (x :: t ++ rem) with ((x :: t) ++ rem). rewrite <- Ew.
  assert (HsT : stopped (s0 ++ T)) by (apply stopped_sep; [exact H0|left; exact H0n]).
  assert (Hrem : stopped rem).
  { unfold rem. destruct (c_items c) as [|p l] eqn:Ei.
    - cbn [body app]. apply stopped_sep; [exact Hs|right; exact HsT].
    - apply stopped_sep; [exact Hs|]. left. apply Hsb. congruence. }
  rewrite strcspn_word by assumption. rewrite firstn_word, skipn_word.
  rewrite L_ge; [|apply clean_skip|].
  2:{ pose proof (skip_delims_len rem). rewrite app_length. lia. }
  assert (G : forall l a, ok_body l -> L (skip_delims (body l ++ s0 ++ T)) a = UB).
  { induction l as [|[i s] l IH]; intros a Hbl.
    - cbn [body app]. rewrite skip_delims_app by exact H0.
      replace (skip_delims T) with T; [apply HX|]. destruct T as [|z T]; [congruence|].
      cbn [clean] in HT. cbn [skip_delims]. rewrite HT. reflexivity.
    - destruct Hbl as [Hi [Hsi [Hli Hwi]]]. destruct i as [w|tx]; cbn [body source].
      + destruct (word_parts w Hi) as [W1 [W2 [W3 [W4 W5]]]].
        assert (Ek : skip_delims ((w ++ s ++ body l) ++ s0 ++ T) = w ++ (s ++ body l ++ s0 ++ T)).
        { rewrite <- !app_assoc. destruct w as [|q w]; [congruence|]. cbn [app skip_delims].
          assert (Q : memc delims q = false).
          { destruct Hi as [_ [Hi _]]. apply wchar_delim. inversion Hi; assumption. }
          rewrite Q. reflexivity. }
        rewrite Ek. rewrite L_word; try assumption.
        2:{ apply stopped_sep; [exact Hsi|]. destruct l as [|p l]; [right; exact HsT|left; apply Hwi; congruence]. }
        rewrite W5. cbn [rbind app]. rewrite skip_delims_app by exact Hsi. apply IH. exact Hli.
      + replace (((34 :: tx ++ [34]) ++ s ++ body l) ++ s0 ++ T) with (34 :: tx ++ 34 :: (s ++ body l ++ s0 ++ T)).
        2:{ cbn [app]. rewrite <- !app_assoc. reflexivity. }
        cbn [skip_delims]. change (memc delims 34) with false. cbv iota.
        rewrite L_str by exact Hi. rewrite skip_delims_app by exact Hsi. apply IH. exact Hli. }
  unfold rem. rewrite skip_delims_app by exact Hs. rewrite G by exact Hb. reflexivity.
Qed.
Lemma L_word_over w z a : Forall (fun c => memc stops c = false) (w ++ [z]) ->
  hd 0 (w ++ [z]) <> 34 -> hd 0 (w ++ [z]) <> 62 -> expand (w ++ [z]) = UB -> L (w ++ [z]) a = UB.
Proof.
  intros H1 H2 H3 H4. rewrite <- (app_nil_r (w ++ [z])). rewrite L_word; try assumption.
  - rewrite H4. reflexivity.
  - destruct w; discriminate.
  - exact I.
Qed.
Lemma quoted_rest_plain s : ~ In 34 s -> ~ In 92 s -> quoted_rest s = UB.
Proof.
  induction s as [|c s IH]; intros H1 H2; cbn [quoted_rest]; [reflexivity|]. cbn [In] in H1, H2.
  replace (c =? 34) with false by lia. replace (c =? 92) with false by lia. apply IH; tauto.
Qed.
Lemma quoted_rest_ok s u : ~ In 34 s -> ~ In 92 s -> quoted_rest (s ++ 34 :: u) = Ok u.
Proof.
  induction s as [|c s IH]; intros H1 H2; cbn [quoted_rest app]; [reflexivity|]. cbn [In] in H1, H2.
  replace (c =? 34) with false by lia. replace (c =? 92) with false by lia. apply IH; tauto.
Qed.
Lemma quoted_token_ok s u : ~ In 34 s -> ~ In 92 s -> quoted_token (s ++ 34 :: u) = Ok s.
Proof.
  induction s as [|c s IH]; intros H1 H2; cbn [quoted_token app]; [reflexivity|]. cbn [In] in H1, H2.
  replace (c =? 34) with false by lia. replace (c =? 92) with false by lia. rewrite IH by tauto. reflexivity.
Qed.
(** ** Redirection at the end of a command *)
Lemma split_redir c s0 T a' r0 : ok_command c -> sep s0 -> (c_items c = [] -> c_sep c ++ s0 <> []) ->
  (forall l s, c_items c = l ++ [(fst s, snd s)] -> match fst s with IWord _ => snd s ++ s0 <> [] | IStr _ => True end) ->
  clean T -> T <> [] ->
  (forall a, L T a = Ok (a' a, FEnd)) ->
  split (written c ++ s0 ++ T) r0 =
   Ok (let a := a' (items_acc acc0 (c_items c)) in
       mkL (written c ++ s0 ++ T) (Some (c_word c)) r0 (a_toks a) (a_prm a) (a_redir a) (a_err a)).
Proof.
  intros [Hl [Hn [Hs [Hb Hsb]]]] H0 H0n H0w HT HTn HX.
  destruct (cmdname_parts _ Hn) as [x [t [Ew [Hd [H10 [H35 [H59 Hst]]]]]]].
  unfold split. destruct (written c ++ s0 ++ T) as [|y ys] eqn:E.
  { exfalso. apply (f_equal (@length Z)) in E. unfold written in E. rewrite Ew in E.
    rewrite !app_length in E. cbn [length] in E. lia. }
  rewrite <- E. clear E y ys. rewrite strspn_skip.
  set (rem := c_sep c ++ body (c_items c) ++ s0 ++ T).
  assert (E : written c ++ s0 ++ T = c_lead c ++ c_word c ++ rem).
  { unfold written, rem. rewrite <- !app_assoc. reflexivity. }
  assert (Es : skip_delims (written c ++ s0 ++ T) = c_word c ++ rem).
  { rewrite E, skip_delims_app by exact Hl. rewrite Ew. cbn [app skip_delims]. rewrite Hd. reflexivity. }
  rewrite Es. clear Es. rewrite Ew. cbn [app].
  replace (x =? 10) with false by lia. replace (x =? 35) with false by lia. replace (x =? 59) with false by lia.
  change (x :: t ++ rem) with ((x :: t) ++ rem). rewrite <- Ew.
  assert (Hrem : stopped rem).
  { unfold rem. destruct (c_items c) as [|p l] eqn:Ei.
    - cbn [body app]. rewrite app_assoc. apply stopped_sep.
      + apply Forall_app. split; assumption.
      + left. apply H0n. reflexivity.
    - apply stopped_sep; [exact Hs|]. left. apply Hsb. congruence. }
  rewrite strcspn_word by assumption. rewrite firstn_word, skipn_word.
  rewrite L_ge; [|apply clean_skip|].
  2:{ pose proof (skip_delims_len rem). rewrite app_length. lia. }
  assert (G : forall l a, ok_body l ->
     (forall l' s, l = l' ++ [(fst s, snd s)] -> match fst s with IWord _ => snd s ++ s0 <> [] | IStr _ => True end) ->
     L (skip_delims (body l ++ s0 ++ T)) a = Ok (a' (items_acc a l), FEnd)).
  { induction l as [|[i s] l IH]; intros a Hbl Hlast.
    - cbn [body app]. rewrite skip_delims_app by exact H0.
      replace (skip_delims T) with T; [apply HX|]. destruct T as [|z T]; [congruence|].
      cbn [clean] in HT. cbn [skip_delims]. rewrite HT. reflexivity.
    - destruct Hbl as [Hi [Hsi [Hli Hwi]]].
      assert (Hlast' : forall l' s, l = l' ++ [(fst s, snd s)] -> match fst s with IWord _ => snd s ++ s0 <> [] | IStr _ => True end).
      { intros l' q Eq. apply (Hlast ((i, s) :: l') q). rewrite Eq. reflexivity. }
      destruct i as [w|tx]; cbn [body source items_acc fold_left fst item_acc].
      + destruct (word_parts w Hi) as [W1 [W2 [W3 [W4 W5]]]].
        assert (Ek : skip_delims ((w ++ s ++ body l) ++ s0 ++ T) = w ++ (s ++ body l ++ s0 ++ T)).
        { rewrite <- !app_assoc. destruct w as [|q w]; [congruence|]. cbn [app skip_delims].
          assert (Q : memc delims q = false).
          { destruct Hi as [_ [Hi _]]. apply wchar_delim. inversion Hi; assumption. }
          rewrite Q. reflexivity. }
        rewrite Ek. rewrite L_word; try assumption.
        2:{ destruct l as [|p l].
            - cbn [body app]. rewrite app_assoc. apply stopped_sep; [apply Forall_app; split; assumption|].
              left. apply (Hlast [] (IWord w, s)). reflexivity.
            - apply stopped_sep; [exact Hsi|]. left; apply Hwi; congruence. }
        rewrite W5. cbn [rbind app]. rewrite skip_delims_app by exact Hsi. rewrite IH by assumption. reflexivity.
      + replace (((34 :: tx ++ [34]) ++ s ++ body l) ++ s0 ++ T) with (34 :: tx ++ 34 :: (s ++ body l ++ s0 ++ T)).
        2:{ cbn [app]. rewrite <- !app_assoc. reflexivity. }
        cbn [skip_delims]. change (memc delims 34) with false. cbv iota.
        rewrite L_str by exact Hi. rewrite skip_delims_app by exact Hsi. rewrite IH by assumption. reflexivity. }
  unfold rem. rewrite skip_delims_app by exact Hs. rewrite G; [|exact Hb|exact H0w]. reflexivity.
Qed.
