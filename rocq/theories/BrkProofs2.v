From Verif Require Import Base BrkModel BrkSpec BrkProofs.

(** -- hit counting of one object -- *)
Definition cnt_ok (k : Z) (b : brk) : Prop :=
  bcnt b = if bhit b <? 1 then bhit b else bhit b - k mod bhit b.

Lemma do_hit_count k b c : 0 <= k -> cnt_ok k b ->
  cnt_ok (k + 1) (fst (do_hit b c)) /\ snd (do_hit b c) = accepts (bhit b) (k + 1) c.
Proof.
  unfold cnt_ok, accepts, do_hit. intros Hk H. rewrite H.
  destruct (bhit b <? 1) eqn:E.
  - replace (bhit b - 1 <=? 0) with true by lia. cbn [fst snd bhit bcnt]. rewrite E. auto.
  - cbn [orb]. set (h := bhit b) in *. assert (Hh : 1 <= h) by lia.
    pose proof (Z.mod_pos_bound k h ltac:(lia)) as Hb.
    pose proof (Z.div_mod k h ltac:(lia)) as Hd.
    assert (Hm : (k + 1) mod h = if k mod h =? h - 1 then 0 else k mod h + 1).
    { destruct (k mod h =? h - 1) eqn:E2.
      - symmetry. apply (Z.mod_unique_pos _ _ (k / h + 1)); lia.
      - symmetry. apply (Z.mod_unique_pos _ _ (k / h)); lia. }
    destruct (k mod h =? h - 1) eqn:E2.
    + replace (h - k mod h - 1 <=? 0) with true by lia. cbn [fst snd bhit bcnt]. fold h. rewrite E, Hm.
      split; [lia | reflexivity].
    + replace (h - k mod h - 1 <=? 0) with false by lia. cbn [fst snd bhit bcnt]. fold h. rewrite E, Hm.
      split; [lia|]. replace (k mod h + 1 =? 0) with false by lia. reflexivity.
Qed.

(** the int counter does not underflow: it is never below min(hit, 1) before a hit *)
Lemma do_hit_safe b c : Z.min (bhit b) 1 <= bcnt b -> 
  Z.min (bhit b) 1 <= bcnt (fst (do_hit b c)).
Proof. unfold do_hit. destruct (bcnt b - 1 <=? 0) eqn:E; cbn [fst bcnt bhit]; lia. Qed.

Section P.
Variables (start size : Z).
Notation valid := (valid_address start size).
Notation step := (step start size).
Notation run := (run start size).
Notation Inv := (Inv start size).

Lemma del_keeps s a b : Inv s -> In b (fl s) -> baddr b <> a -> In b (fl (del_bp_at start size s a)).
Proof.
  intros I Hb Ha. destruct (get_bp_at start size s a) as [i|] eqn:E.
  - pose proof (get_bp_at_ok start size s a I) as G. rewrite E in G. destruct G as (b0 & Hn & Ea & V).
    apply nth_error_In in Hn. subst a.
    destruct (del_bp_at_some start size s b0 I Hn V) as (E1 & _). cbv zeta in E1. rewrite E1.
    apply in_without. split; auto. intros X. apply Ha. f_equal.
    apply (nodup_map_inj nr (fl s)); auto. eapply inv_nd_fl; eauto.
  - unfold del_bp_at. rewrite E. exact Hb.
Qed.

Lemma del_el s a : el (del_bp_at start size s a) = el s.
Proof.
  unfold del_bp_at. destruct (get_bp_at start size s a); auto. destruct (nth_error (fl s) n); auto.
  unfold set_flag. destruct (valid (baddr b)); reflexivity.
Qed.

Lemma rm_keeps s n b : Inv s -> In b (fl s) -> nr b <> n -> valid (baddr b) = true ->
  In b (fl (fst (rm_brk start size s n))).
Proof.
  intros I Hb Hn V. unfold rm_brk. destruct (get_bp_nr (fl s) n) as [i|] eqn:E.
  - destruct (index_if_spec _ _ _ E) as (b0 & H0 & P0). rewrite H0. cbn [fst].
    destruct (Z.eq_dec (baddr b) (baddr b0)) as [Ea|Ea]; [|apply del_keeps; auto].
    exfalso. apply Hn. assert (b = b0) by (apply (inv_uniq start size s); auto; eapply nth_error_In; eauto).
    subst. lia.
  - destruct (get_bp_nr (el s) n); cbn [fst fl]; auto.
Qed.

Lemma rm_keeps_el s n b : Inv s -> In b (el s) -> nr b <> n -> In b (el (fst (rm_brk start size s n))).
Proof.
  intros I Hb Hn. unfold rm_brk. destruct (get_bp_nr (fl s) n) as [i|] eqn:E.
  - destruct (nth_error (fl s) i); cbn [fst]; auto. rewrite del_el. exact Hb.
  - destruct (get_bp_nr (el s) n) as [i|] eqn:E2; cbn [fst el]; auto.
    destruct (index_if_spec _ _ _ E2) as (b0 & H0 & P0).
    rewrite (remove_is_without (el s) i b0); auto; [|eapply inv_nd_el; eauto].
    apply in_without. split; auto. lia.
Qed.

Lemma in_upd_other (l : list brk) i b0 b' b : nth_error l i = Some b0 -> In b l -> b <> b0 -> In b (upd l i b').
Proof.
  revert i; induction l as [|x t IH]; intros [|i] H Hb Hd; cbn [upd nth_error] in *; try discriminate.
  - injection H as ->. destruct Hb as [-> | Hb]; [congruence|right; auto].
  - destruct Hb as [-> | Hb]; [left; auto | right; eauto].
Qed.
Lemma in_upd_same (l : list brk) i b0 b' : nth_error l i = Some b0 -> In b' (upd l i b').
Proof.
  revert i; induction l as [|x t IH]; intros [|i] H; cbn [upd nth_error] in *; try discriminate.
  - left; auto.
  - right; eauto.
Qed.

Definition tracks (b b' : brk) (o : op) (r : bool) : Prop :=
  match o with
  | Hit pc c => if pc =? baddr b then (b', r) = do_hit b c else b' = b
  | _ => b' = b
  end.

Lemma do_brk_at s b c : Inv s -> In b (fl s) -> valid (baddr b) = true ->
  exists i, nth_error (fl s) i = Some b /\
  do_brk start size s (baddr b) c =
    (let s1 := mkSt (flags s) (upd (fl s) i (fst (do_hit b c))) (el s) (counter s) in
     if snd (do_hit b c) then (if dyn b then del_bp_at start size s1 (baddr b) else s1, true) else (s1, false)).
Proof.
  intros I Hb V. unfold do_brk. pose proof (get_bp_at_ok start size s (baddr b) I) as G.
  destruct (get_bp_at start size s (baddr b)) as [i|]; [|exfalso; apply (G V b Hb); reflexivity].
  destruct G as (b0 & Hn & Ea & _).
  assert (b0 = b) as -> by (apply (inv_uniq start size s); auto; [eapply nth_error_In; eauto | congruence]).
  exists i. split; auto. rewrite Hn.
  destruct (do_hit_id b c) as (_ & _ & N3 & _). destruct (do_hit b c) as [b' r]. cbn [fst snd] in *.
  rewrite <- N3. reflexivity.
Qed.

Lemma step_tracks s o s' r b : Inv s -> In b (fl s) -> valid (baddr b) = true -> dyn b = false ->
  ~ deletes (baddr b) (nr b) o -> step s o = Ok (s', r) ->
  exists b', In b' (fl s') /\ tracks b b' o r.
Proof.
  intros I Hb V D Hd. destruct o; cbn [BrkModel.step tracks].
  - intros H. exists b. split; auto. revert H.
    destruct (do_fetch start size s a d hit) as [x| |] eqn:E; cbn [rbind]; try discriminate.
    intros H; injection H as <- <-. unfold do_fetch in E.
    destruct (99999 <? hit); [injection E as <-; auto|].
    destruct (bp_at start size s a) eqn:B; [injection E as <-; auto|].
    apply add_fetch_ok in E; auto.
    + destruct E as (_ & (n & ->) & _). apply in_or_app; auto.
    + intros Va b0 Hb0 Eb0. assert (bp_at start size s a = true) by (apply bp_at_iff; eauto). congruence.
  - intros H. exists b. split; auto. revert H.
    destruct (do_event s a d hit) as [x| |] eqn:E; cbn [rbind]; try discriminate.
    intros H; injection H as <- <-. apply (do_event_ok start size) in E; auto. destruct E as (_ & -> & _). exact Hb.
  - intros H. exists b. split; auto. injection H as <- <-. destruct (bp_at start size s a); auto.
    apply del_keeps; auto. intros X. apply Hd. left. congruence.
  - intros H. exists b. split; auto. injection H as <- <-. apply rm_keeps; auto.
    intros X. apply Hd. right. left. congruence.
  - exfalso. apply Hd. right. right. reflexivity.
  - intros H. exists b. split; auto. revert H.
    destruct (run_to start size s a) as [x| |] eqn:E; cbn [rbind]; try discriminate.
    intros H; injection H as <- <-. unfold run_to in E. pose proof (get_bp_at_ok start size s a I) as G.
    destruct (get_bp_at start size s a); [injection E as <-; auto|].
    apply add_fetch_ok in E; auto. destruct E as (_ & (n & ->) & _). apply in_or_app; auto.
  - intros H. injection H as H. destruct (pc =? baddr b) eqn:E.
    + assert (pc = baddr b) by lia. subst pc.
      destruct (do_brk_at s b c I Hb V) as (i & Hn & Eq). cbv zeta in Eq. rewrite D in Eq. rewrite Eq in H.
      exists (fst (do_hit b c)).
      destruct (do_hit b c) as [b' q]. cbn [fst snd] in *.
      destruct q; injection H as <- <-; cbn [fl]; (split; [eapply in_upd_same; eauto | reflexivity]).
    + exists b. split; auto. pose proof (get_bp_at_ok start size s pc I) as G. unfold do_brk in H.
      destruct (get_bp_at start size s pc) as [i|]; [|injection H as <- <-; auto].
      destruct G as (b0 & Hn & Ea & V0). rewrite Hn in H.
      destruct (do_hit_id b0 c) as (N1 & N2 & N3 & N4). destruct (do_hit b0 c) as [b' q]. cbn [fst] in *.
      assert (Hin : In b (upd (fl s) i b')).
      { eapply in_upd_other; eauto. intros X. subst. lia. }
      assert (J : Inv (mkSt (flags s) (upd (fl s) i b') (el s) (counter s))).
      { apply Inv_same; auto; eapply upd_map; eauto. }
      destruct q; [destruct (dyn b')|]; injection H as <- <-; auto.
      apply (del_keeps (mkSt (flags s) (upd (fl s) i b') (el s) (counter s))); auto. lia.
  - intros H. injection H as H. exists b. split; auto. unfold event_hit in H.
    destruct (get_bp_nr (el s) n) as [i|]; [|injection H as <- <-; auto].
    destruct (nth_error (el s) i) as [b0|]; [|injection H as <- <-; auto].
    destruct (do_hit b0 c). injection H as <- <-. exact Hb.
Qed.

Lemma same_trans a b c : same_id a b -> same_id b c -> same_id a c.
Proof. unfold same_id. intuition congruence. Qed.

Lemma run_hits b0 ops : forall s s' rs b k,
  Inv s -> In b (fl s) -> same_id b0 b -> valid (baddr b0) = true -> dyn b0 = false ->
  0 <= k -> cnt_ok k b -> (forall o, In o ops -> ~ deletes (baddr b0) (nr b0) o) ->
  run s ops = Ok (s', rs) ->
  forall j c r, nth_error (hits_of (baddr b0) ops rs) j = Some (c, r) ->
    r = accepts (bhit b0) (k + Z.of_nat j + 1) c.
Proof.
  induction ops as [|o t IH]; intros s s' rs b k I Hb Hs V D Hk Hc Hd; cbn [BrkModel.run].
  - intros _ j c r. cbn [hits_of]. destruct j; discriminate.
  - destruct (step s o) as [[s1 r1]| |] eqn:E; cbn [rbind fst snd]; try discriminate.
    destruct (run s1 t) as [[s2 q]| |] eqn:E2; cbn [rbind fst snd]; try discriminate.
    intros H. assert (rs = r1 :: q) by congruence. subst rs. clear H.
    destruct Hs as (S1 & S2 & S3 & S4).
    destruct (step_tracks s o s1 r1 b I Hb) as (b' & Hb' & Ht); try congruence.
    { rewrite <- S2, <- S1. apply Hd. left; reflexivity. }
    assert (I1 : Inv s1) by (eapply step_inv; eauto).
    assert (Hd' : forall o, In o t -> ~ deletes (baddr b0) (nr b0) o) by (intros; apply Hd; right; auto).
    assert (K : b' = b -> forall j c r, nth_error (hits_of (baddr b0) t q) j = Some (c, r) ->
       r = accepts (bhit b0) (k + Z.of_nat j + 1) c).
    { intros ->. apply (IH s1 s2 q b k); auto. repeat split; auto. }
    assert (H : match o with Hit pc c0 => if pc =? baddr b0 then
                   hits_of (baddr b0) (o :: t) (r1 :: q) = (c0, r1) :: hits_of (baddr b0) t q
                   else hits_of (baddr b0) (o :: t) (r1 :: q) = hits_of (baddr b0) t q
                | _ => hits_of (baddr b0) (o :: t) (r1 :: q) = hits_of (baddr b0) t q end).
    { destruct o; cbn [hits_of]; auto. destruct (pc =? baddr b0); auto. }
    destruct o; cbn [tracks] in Ht; try (rewrite H; apply K; exact Ht).
    rewrite <- S2 in Ht. destruct (pc =? baddr b0).
    + rewrite H. destruct (do_hit_count k b c Hk Hc) as (Hc' & Ha). destruct (do_hit_id b c) as (N1 & N2 & N3 & N4).
      rewrite <- Ht in *. cbn [fst snd] in *.
      intros j c1 r. destruct j as [|j]; cbn [nth_error].
      * intros X. injection X as <- <-. rewrite Ha, S4. f_equal. lia.
      * intros X. replace (k + Z.of_nat (S j) + 1) with ((k + 1) + Z.of_nat j + 1) by lia.
        apply (IH s1 s2 q b' (k + 1) I1 Hb' ltac:(repeat split; congruence) V D ltac:(lia) Hc' Hd' E2 j c1 r X).
    + rewrite H. apply K. exact Ht.
Qed.

Definition etracks (b b' : brk) (o : op) (r : bool) : Prop :=
  match o with
  | EvHit n c => if n =? nr b then (b', r) = do_hit b c else b' = b
  | _ => b' = b
  end.

Lemma do_brk_el s pc c : el (fst (do_brk start size s pc c)) = el s.
Proof.
  unfold do_brk. destruct (get_bp_at start size s pc); auto. destruct (nth_error (fl s) n); auto.
  destruct (do_hit b c) as [b' r]. destruct r; [destruct (dyn b')|]; cbn [fst el]; auto. rewrite del_el. reflexivity.
Qed.

Lemma step_etracks s o s' r b : Inv s -> In b (el s) ->
  o <> Delete (nr b) -> o <> DeleteAll -> step s o = Ok (s', r) ->
  exists b', In b' (el s') /\ etracks b b' o r.
Proof.
  intros I Hb Hd1 Hd2. destruct o; cbn [BrkModel.step etracks].
  - intros H. exists b. split; auto. revert H.
    destruct (do_fetch start size s a d hit) as [x| |] eqn:E; cbn [rbind]; try discriminate.
    intros H; injection H as <- <-. unfold do_fetch in E.
    destruct (99999 <? hit); [injection E as <-; auto|].
    destruct (bp_at start size s a) eqn:B; [injection E as <-; auto|].
    apply add_fetch_ok in E; auto.
    + destruct E as (_ & _ & -> & _). exact Hb.
    + intros Va b0 Hb0 Eb0. assert (bp_at start size s a = true) by (apply bp_at_iff; eauto). congruence.
  - intros H. exists b. split; auto. revert H.
    destruct (do_event s a d hit) as [x| |] eqn:E; cbn [rbind]; try discriminate.
    intros H; injection H as <- <-. apply (do_event_ok start size) in E; auto. destruct E as (_ & _ & n & ->).
    apply in_or_app; auto.
  - intros H. exists b. split; auto. injection H as <- <-. destruct (bp_at start size s a); auto.
    rewrite del_el. auto.
  - intros H. exists b. split; auto. injection H as <- <-. apply rm_keeps_el; auto. congruence.
  - congruence.
  - intros H. exists b. split; auto. revert H.
    destruct (run_to start size s a) as [x| |] eqn:E; cbn [rbind]; try discriminate.
    intros H; injection H as <- <-. unfold run_to in E. pose proof (get_bp_at_ok start size s a I) as G.
    destruct (get_bp_at start size s a); [injection E as <-; auto|].
    apply add_fetch_ok in E; auto. destruct E as (_ & _ & -> & _). auto.
  - intros H. injection H as H. exists b. split; auto. pose proof (do_brk_el s pc c) as X. rewrite H in X.
    cbn [fst] in X. rewrite X. exact Hb.
  - intros H. injection H as H. unfold event_hit in H. unfold get_bp_nr in H.
    destruct (n =? nr b) eqn:En.
    + assert (n = nr b) by lia. subst n.
      destruct (index_if_some (fun b0 => nr b0 =? nr b) (el s) b Hb) as (i & Ei); [lia|].
      rewrite Ei in H. destruct (index_if_spec _ _ _ Ei) as (b1 & Hn & Hp). rewrite Hn in H.
      assert (b1 = b) as ->.
      { apply (nodup_map_inj nr (el s)); auto; [eapply inv_nd_el; eauto | eapply nth_error_In; eauto | lia]. }
      destruct (do_hit b c) as [b' q]. exists b'. injection H as <- <-. cbn [el].
      split; [eapply in_upd_same; eauto | reflexivity].
    + exists b. split; auto. destruct (index_if (fun b0 => nr b0 =? n) (el s)) as [i|] eqn:Ei; [|injection H as <- <-; auto].
      destruct (index_if_spec _ _ _ Ei) as (b1 & Hn & Hp). rewrite Hn in H.
      destruct (do_hit b1 c). injection H as <- <-. cbn [el]. eapply in_upd_other; eauto. intros X. subst. lia.
Qed.

Lemma run_evhits b0 ops : forall s s' rs b k,
  Inv s -> In b (el s) -> same_id b0 b ->
  0 <= k -> cnt_ok k b -> (forall o, In o ops -> o <> Delete (nr b0) /\ o <> DeleteAll) ->
  run s ops = Ok (s', rs) ->
  forall j c r, nth_error (evhits_of (nr b0) ops rs) j = Some (c, r) ->
    r = accepts (bhit b0) (k + Z.of_nat j + 1) c.
Proof.
  induction ops as [|o t IH]; intros s s' rs b k I Hb Hs Hk Hc Hd; cbn [BrkModel.run].
  - intros _ j c r. cbn [evhits_of]. destruct j; discriminate.
  - destruct (step s o) as [[s1 r1]| |] eqn:E; cbn [rbind fst snd]; try discriminate.
    destruct (run s1 t) as [[s2 q]| |] eqn:E2; cbn [rbind fst snd]; try discriminate.
    intros H. assert (rs = r1 :: q) by congruence. subst rs. clear H.
    destruct Hs as (S1 & S2 & S3 & S4).
    destruct (step_etracks s o s1 r1 b I Hb) as (b' & Hb' & Ht); auto;
      try (rewrite <- ?S1; apply Hd; left; reflexivity).
    assert (I1 : Inv s1) by (eapply step_inv; eauto).
    assert (Hd' : forall o, In o t -> o <> Delete (nr b0) /\ o <> DeleteAll) by (intros; apply Hd; right; auto).
    assert (K : b' = b -> forall j c r, nth_error (evhits_of (nr b0) t q) j = Some (c, r) ->
       r = accepts (bhit b0) (k + Z.of_nat j + 1) c).
    { intros ->. apply (IH s1 s2 q b k); auto. repeat split; auto. }
    assert (H : match o with EvHit n c0 => if n =? nr b0 then
                   evhits_of (nr b0) (o :: t) (r1 :: q) = (c0, r1) :: evhits_of (nr b0) t q
                   else evhits_of (nr b0) (o :: t) (r1 :: q) = evhits_of (nr b0) t q
                | _ => evhits_of (nr b0) (o :: t) (r1 :: q) = evhits_of (nr b0) t q end).
    { destruct o; cbn [evhits_of]; auto. destruct (n =? nr b0); auto. }
    destruct o; cbn [etracks] in Ht; try (rewrite H; apply K; exact Ht).
    rewrite <- S1 in Ht. destruct (n =? nr b0).
    + rewrite H. destruct (do_hit_count k b c Hk Hc) as (Hc' & Ha). destruct (do_hit_id b c) as (N1 & N2 & N3 & N4).
      rewrite <- Ht in *. cbn [fst snd] in *.
      intros j c1 r. destruct j as [|j]; cbn [nth_error].
      * intros X. injection X as <- <-. rewrite Ha, S4. f_equal. lia.
      * intros X. replace (k + Z.of_nat (S j) + 1) with ((k + 1) + Z.of_nat j + 1) by lia.
        apply (IH s1 s2 q b' (k + 1) I1 Hb' ltac:(repeat split; congruence) ltac:(lia) Hc' Hd' E2 j c1 r X).
    + rewrite H. apply K. exact Ht.
Qed.

Lemma filter_length_le {A} (p : A -> bool) l : (length (filter p l) <= length l)%nat.
Proof. induction l as [|x t IH]; cbn [filter length]; auto. destruct (p x); cbn [length]; lia. Qed.

(** -- no failure with valid addresses -- *)
Definition all_valid (s : st) : Prop := Forall (fun b => valid (baddr b) = true) (fl s).

Lemma remove_fetch_total n : forall s, Inv s -> all_valid s -> (length (fl s) <= n)%nat ->
  exists s', remove_fetch start size n s = Some s'.
Proof.
  induction n as [|n IH]; intros s I A L.
  - destruct (fl s) eqn:E; [|cbn in L; lia]. exists s. cbn [remove_fetch]. rewrite E. reflexivity.
  - cbn [remove_fetch]. destruct (fl s) as [|b t] eqn:E; [eauto|].
    assert (V : valid (baddr b) = true) by (unfold all_valid in A; rewrite E in A; apply Forall_inv in A; exact A).
    assert (Hb : In b (fl s)) by (rewrite E; left; auto).
    destruct (del_bp_at_some start size s b I Hb V) as (E1 & E2 & E3 & E4). cbv zeta in *.
    apply IH; auto.
    + apply Inv_del_bp_at; auto.
    + unfold all_valid. rewrite E1. apply Forall_without. exact A.
    + rewrite E1, E. unfold without. cbn [filter]. rewrite Z.eqb_refl. cbn [negb].
      pose proof (filter_length_le (fun b0 => negb (nr b0 =? nr b)) t). cbn [length] in L. lia.
Qed.

Definition small (s : st) (m : Z) : Prop :=
  counter s <= m /\ Z.of_nat (length (fl s)) <= m /\ Z.of_nat (length (el s)) <= m.

Lemma new_nr_total s m : Inv s -> small s m -> m < 8192 ->
  exists s1 n, make_new_brknr s = Ok (s1, n) /\ n <= m + 1.
Proof.
  intros I (C & _) M. unfold make_new_brknr. pose proof (i_cnt _ _ _ I).
  destruct (counter s =? 0); [do 2 eexists; split; [reflexivity|lia]|].
  replace (counter s =? 2147483647) with false by lia.
  destruct (fl s); [destruct (el s)|]; (do 2 eexists; split; [reflexivity|lia]).
Qed.

Lemma add_fetch_total s m a d hit : Inv s -> all_valid s -> small s m -> m < 8192 -> valid a = true ->
  (forall b, In b (fl s) -> baddr b <> a) ->
  exists s', add_fetch start size s a d hit = Ok s' /\ small s' (m + 1) /\ all_valid s'.
Proof.
  intros I A Sm M V Hn. destruct (new_nr_total s m I Sm M) as (s1 & n & E & Hnm).
  destruct (new_nr_ok start size s s1 n I E) as (I1 & Ef & El & Ee & Ec & Hr & Hlt).
  destruct Sm as (C & L1 & L2). apply Forall_app in Hlt. destruct Hlt as [Hl1 Hl2].
  unfold add_fetch. rewrite E. cbn [rbind]. unfold add_item. rewrite El.
  replace (Z.of_nat (length (fl s)) <? 8192) with true by lia. cbn [rbind].
  eexists; split; [reflexivity|]. unfold set_flag. rewrite V. unfold small, all_valid. cbn [fl el counter].
  rewrite insert_last by (rewrite Forall_forall in *; intros; apply Hl1; auto).
  rewrite app_length, Ee. cbn [length]. split; [lia|].
  apply Forall_app. split; [exact A|]. constructor; auto.
Qed.

Lemma filter_len_without n l : (length (without n l) <= length l)%nat.
Proof. apply filter_length_le. Qed.

Lemma del_small s a m : Inv s -> small s m -> all_valid s -> 
  small (del_bp_at start size s a) m /\ all_valid (del_bp_at start size s a).
Proof.
  intros I (C & L1 & L2) A. destruct (get_bp_at start size s a) as [i|] eqn:E.
  - pose proof (get_bp_at_ok start size s a I) as G. rewrite E in G. destruct G as (b & Hn & Ea & V).
    apply nth_error_In in Hn. subst a.
    destruct (del_bp_at_some start size s b I Hn V) as (E1 & E2 & E3 & E4). cbv zeta in *.
    unfold small, all_valid. rewrite E1, E2, E3. pose proof (filter_len_without (nr b) (fl s)).
    split; [lia|]. apply Forall_without. exact A.
  - unfold del_bp_at. rewrite E. split; [unfold small|]; auto.
Qed.

Lemma upd_all_valid s i b b' : all_valid s -> nth_error (fl s) i = Some b -> baddr b = baddr b' ->
  Forall (fun b => valid (baddr b) = true) (upd (fl s) i b').
Proof.
  intros A H E. rewrite (forall_map_iff baddr (fun a => valid a = true)).
  rewrite (upd_map baddr _ _ _ _ H E). rewrite <- (forall_map_iff baddr (fun a => valid a = true)). exact A.
Qed.

Lemma step_total s m o : Inv s -> all_valid s -> small s m -> 0 <= m < 8192 -> op_valid start size o ->
  exists s' r, step s o = Ok (s', r) /\ small s' (m + 1) /\ all_valid s'.
Proof.
  intros I A Sm M Ho.
  assert (W : forall x, small x m -> small x (m + 1)) by (unfold small; intros; lia).
  destruct o; cbn [BrkModel.step op_valid] in *.
  - unfold do_fetch. destruct (99999 <? hit); [cbn [rbind]; do 2 eexists; split; [reflexivity|]; auto|].
    destruct (bp_at start size s a) eqn:B; [cbn [rbind]; do 2 eexists; split; [reflexivity|]; auto|].
    destruct (add_fetch_total s m a d hit I A Sm) as (s' & E & H1 & H2); auto; try lia.
    + apply valid_iff; auto.
    + intros b Hb Eb. assert (bp_at start size s a = true); [|congruence]. apply bp_at_iff; auto.
      split; [apply valid_iff; auto | eauto].
    + rewrite E. cbn [rbind]. eauto.
  - destruct (new_nr_total s m I Sm) as (s1 & n & E & Hnm); [lia|].
    destruct (new_nr_ok start size s s1 n I E) as (I1 & Ef & El & Ee & Ec & Hr & Hlt).
    unfold do_event. rewrite E. cbn [rbind]. unfold add_item. destruct Sm as (C & L1 & L2). rewrite Ee.
    replace (Z.of_nat (length (el s)) <? 8192) with true by lia. cbn [rbind].
    do 2 eexists; split; [reflexivity|]. unfold small, all_valid. cbn [fl el counter].
    apply Forall_app in Hlt. rewrite insert_last by (cbn [nr new_brk]; tauto).
    rewrite app_length, El. cbn [length]. split; [lia|exact A].
  - do 2 eexists; split; [reflexivity|]. destruct (bp_at start size s a); auto.
    destruct (del_small s a m I Sm A); auto.
  - do 2 eexists; split; [reflexivity|]. unfold rm_brk. destruct (get_bp_nr (fl s) n) as [i|].
    + destruct (nth_error (fl s) i); cbn [fst]; auto. destruct (del_small s (baddr b) m I Sm A); auto.
    + destruct (get_bp_nr (el s) n) as [i|] eqn:E; cbn [fst]; auto.
      destruct (index_if_spec _ _ _ E) as (b & Hn & _).
      unfold small, all_valid; cbn [fl el counter].
      rewrite (remove_is_without (el s) i b); auto; [|eapply inv_nd_el; eauto].
      pose proof (filter_len_without (nr b) (el s)). destruct Sm as (C & L1 & L2). split; [lia|exact A].
  - unfold remove_all. destruct (remove_fetch_total (length (fl s)) s I A) as (s1 & E); auto.
    rewrite E. destruct (remove_fetch_ok _ _ _ _ _ I E) as (J1 & J2 & J3).
    do 2 eexists; split; [reflexivity|]. unfold small, all_valid; cbn [fl el counter]. rewrite J2, J3.
    cbn [length]. destruct Sm as (C & L1 & L2). split; [lia|constructor].
  - unfold run_to. pose proof (get_bp_at_ok start size s a I) as G.
    destruct (get_bp_at start size s a); [cbn [rbind]; do 2 eexists; split; [reflexivity|]; auto|].
    apply valid_iff in Ho.
    destruct (add_fetch_total s m a true 1 I A Sm) as (s' & E & H1 & H2); auto; try lia.
    rewrite E. cbn [rbind]. eauto.
  - unfold do_brk. destruct (get_bp_at start size s pc) as [i|]; [|do 2 eexists; split; [reflexivity|]; auto].
    destruct (nth_error (fl s) i) as [b|] eqn:Hn; [|do 2 eexists; split; [reflexivity|]; auto].
    destruct (do_hit_id b c) as (N1 & N2 & N3 & N4). destruct (do_hit b c) as [b' q]. cbn [fst] in *.
    set (s1 := mkSt (flags s) (upd (fl s) i b') (el s) (counter s)).
    assert (J : Inv s1) by (apply Inv_same; auto; eapply upd_map; eauto).
    assert (S1 : small s1 m) by (unfold small, s1 in *; cbn [fl el counter]; rewrite upd_length; exact Sm).
    assert (A1 : all_valid s1) by (unfold all_valid, s1; cbn [fl]; eapply upd_all_valid; eauto).
    destruct q; [|do 2 eexists; split; [reflexivity|]; auto].
    do 2 eexists; split; [reflexivity|]. destruct (dyn b'); auto. destruct (del_small s1 pc m J S1 A1); auto.
  - unfold event_hit. destruct (get_bp_nr (el s) n) as [i|]; [|do 2 eexists; split; [reflexivity|]; auto].
    destruct (nth_error (el s) i) as [b|] eqn:Hn; [|do 2 eexists; split; [reflexivity|]; auto].
    destruct (do_hit b c) as [b' q]. do 2 eexists; split; [reflexivity|].
    unfold small, all_valid in *; cbn [fl el counter]. rewrite upd_length. split; [lia|exact A].
Qed.

Lemma run_total ops : forall s m, Inv s -> all_valid s -> small s m -> 0 <= m ->
  m + Z.of_nat (length ops) <= 8192 -> Forall (op_valid start size) ops ->
  exists s' rs, run s ops = Ok (s', rs) /\ all_valid s'.
Proof.
  induction ops as [|o t IH]; intros s m I A Sm M L Ho; cbn [BrkModel.run].
  - do 2 eexists; split; [reflexivity|]. exact A.
  - cbn [length] in L. destruct (step_total s m o I A Sm) as (s1 & r & E & S1 & A1); [lia|apply (Forall_inv Ho)|].
    rewrite E. cbn [rbind fst snd].
    destruct (IH s1 (m + 1)) as (s2 & rs & E2 & A2); auto; try lia.
    + eapply step_inv; eauto.
    + apply (Forall_inv_tail Ho).
    + rewrite E2. cbn [rbind fst snd]. eauto.
Qed.

Lemma run_valid ops s s' rs : Inv s -> all_valid s -> Forall (op_valid start size) ops ->
  run s ops = Ok (s', rs) -> all_valid s'.
Proof.
  revert s s' rs. induction ops as [|o t IH]; intros s s' rs I A Ho; cbn [BrkModel.run].
  - intros H; injection H as <- <-; auto.
  - destruct (step s o) as [[s1 r]| |] eqn:E; cbn [rbind fst]; try discriminate.
    destruct (run s1 t) as [[s2 q]| |] eqn:E2; cbn [rbind fst]; try discriminate.
    intros H; injection H as <- <-.
    assert (A1 : all_valid s1); [|eapply IH; [| |apply (Forall_inv_tail Ho)|exact E2]; auto; eapply step_inv; eauto].
    apply Forall_inv in Ho. clear E2 IH.
    assert (DV : forall x a, Inv x -> all_valid x -> all_valid (del_bp_at start size x a)).
    { intros x a Ix Ax. eapply (del_small x a (Z.max (counter x) (Z.max (Z.of_nat (length (fl x))) (Z.of_nat (length (el x)))))); auto.
      unfold small; lia. }
    destruct o; cbn [BrkModel.step op_valid] in *.
    + destruct (do_fetch start size s a d hit) as [x| |] eqn:E3; cbn [rbind] in E; try discriminate.
      injection E as <- <-. unfold do_fetch in E3.
      destruct (99999 <? hit); [injection E3 as <-; auto|].
      destruct (bp_at start size s a) eqn:B; [injection E3 as <-; auto|].
      apply add_fetch_ok in E3; auto.
      * destruct E3 as (_ & (n & Ea) & _). unfold all_valid. rewrite Ea. apply Forall_app. split; auto.
        constructor; auto. apply valid_iff; auto.
      * intros Va b0 Hb0 Eb0. assert (bp_at start size s a = true) by (apply bp_at_iff; eauto). congruence.
    + destruct (do_event s a d hit) as [x| |] eqn:E3; cbn [rbind] in E; try discriminate.
      injection E as <- <-. apply (do_event_ok start size) in E3; auto. unfold all_valid. destruct E3 as (_ & -> & _). exact A.
    + injection E as <- <-. destruct (bp_at start size s a); auto.
    + injection E as <- <-. unfold rm_brk. destruct (get_bp_nr (fl s) n).
      * destruct (nth_error (fl s) n0); cbn [fst]; auto.
      * destruct (get_bp_nr (el s) n); cbn [fst]; auto.
    + destruct (remove_all start size (length (fl s)) s) eqn:E3; [|discriminate]. injection E as <- <-.
      apply remove_all_ok in E3; auto. unfold all_valid. destruct E3 as (_ & -> & _). constructor.
    + destruct (run_to start size s a) as [x| |] eqn:E3; cbn [rbind] in E; try discriminate.
      injection E as <- <-. unfold run_to in E3. pose proof (get_bp_at_ok start size s a I) as G.
      destruct (get_bp_at start size s a); [injection E3 as <-; auto|].
      apply add_fetch_ok in E3; auto. destruct E3 as (_ & (n & Ea) & _). unfold all_valid. rewrite Ea.
      apply Forall_app. split; auto. constructor; auto. apply valid_iff; auto.
    + injection E as E. unfold do_brk in E.
      destruct (get_bp_at start size s pc) as [i|]; [|injection E as <- <-; auto].
      destruct (nth_error (fl s) i) as [b|] eqn:Hn; [|injection E as <- <-; auto].
      destruct (do_hit_id b c) as (N1 & N2 & N3 & N4). destruct (do_hit b c) as [b' q0]. cbn [fst] in *.
      assert (J : Inv (mkSt (flags s) (upd (fl s) i b') (el s) (counter s))) by (apply Inv_same; auto; eapply upd_map; eauto).
      assert (A2 : all_valid (mkSt (flags s) (upd (fl s) i b') (el s) (counter s))) by (unfold all_valid; cbn [fl]; eapply upd_all_valid; eauto).
      destruct q0; [destruct (dyn b')|]; injection E as <- <-; auto.
    + injection E as E. unfold event_hit in E.
      destruct (get_bp_nr (el s) n) as [i|]; [|injection E as <- <-; auto].
      destruct (nth_error (el s) i) as [b|] eqn:Hn; [|injection E as <- <-; auto].
      destruct (do_hit b c) as [b' q0]. injection E as <- <-. exact A.
Qed.
End P.
